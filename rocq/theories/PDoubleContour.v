(** In double precision the FJC is never longer than its contour. *)
From Coq Require Import Reals ZArith Lra Lia Floats Psatz.
From Flocq Require Import Core Relative Plus_error BinarySingleNaN PrimFloat.
From Verif Require Import Scalar F64 MConst MFjc SpecLangevin SpecDouble PDouble PDoubleFjc PLangevin PSigmoid PHyp PErfc PLimits PDoubleExample PDoubleQuad.
From Coq Require Import Floats.
Open Scope R_scope.

Local Notation u := unit_roundoff.

Lemma rnd_mono : forall a b, a <= b -> rnd a <= rnd b.
Proof. intros a b H. apply round_le; [apply fexp_correct; reflexivity | apply valid_rnd_N | exact H]. Qed.
Lemma rnd_value : forall x, rnd (value x) = value x.
Proof. intro x. apply round_generic; [apply valid_rnd_N | apply format_value]. Qed.
Lemma rnd_0 : rnd 0 = 0.
Proof. apply round_0, valid_rnd_N. Qed.
Lemma rnd_1 : rnd 1 = 1.
Proof. rewrite <- value_one. apply rnd_value. Qed.

(** Every real number that is not too large rounds to a double. *)
Lemma represent : forall r, Rabs r <= bpow radix2 1023 -> exists y, finite y /\ value y = rnd r.
Proof.
  intros r H. set (fexp := SpecFloat.fexp FloatOps.prec emax).
  set (m := ZnearestE (scaled_mantissa radix2 fexp r)). set (e := cexp radix2 fexp r).
  assert (E : F2R (Float radix2 m e) = rnd r) by reflexivity.
  pose proof (binary_normalize_correct FloatOps.prec emax Hprec Hmax mode_NE m e false) as C.
  assert (G : rnd (rnd r) = rnd r).
  { apply round_generic; [apply valid_rnd_N|]. apply generic_format_round; [apply fexp_correct; reflexivity | apply valid_rnd_N]. }
  change (round_mode mode_NE) with ZnearestE in C. cbv zeta in C. rewrite E, G in C. rewrite Rlt_bool_true in C by (apply rnd_big; exact H).
  destruct C as (C1 & C2 & _).
  exists (B2Prim (BinarySingleNaN.binary_normalize FloatOps.prec emax Hprec Hmax mode_NE m e false)).
  rewrite finite_B, value_B2R, Prim2B_B2Prim. split; assumption.
Qed.

Lemma nearest_accurate : forall f g x, bpow radix2 (-1022) <= Rabs (g (value x)) <= bpow radix2 1023 ->
  nearest_double f g x -> accurate u f g x.
Proof.
  intros f g x [H1 H2] [F N]. split; [exact F|]. destruct (represent _ H2) as (y & Fy & Vy). apply Rle_trans with (1 := N y Fy).
  destruct (rnd_rel _ H1) as (e & E1 & E2). rewrite Vy, E2. replace (g (value x) * (1 + e) - g (value x)) with (e * g (value x)) by ring.
  rewrite Rabs_mult. apply Rmult_le_compat_r; [apply Rabs_pos | exact E1].
Qed.

Lemma tanh_close : forall x, 32 <= x -> 1 - / 2 ^ 62 <= tanh x.
Proof.
  intros x Hx. assert (E : 2 ^ 64 <= exp (2 * x)).
  { apply Rle_trans with (exp (INR 64 * 1)).
    - rewrite PErfc.exp_pow. apply pow_incr. pose proof (exp_ineq1_le 1). lra.
    - replace (INR 64 * 1) with 64 by (rewrite INR_IZR_INZ; simpl IZR; ring). destruct (Rle_lt_or_eq_dec 64 (2 * x) ltac:(lra)) as [O | <-]; [left; apply exp_increasing; exact O | lra]. }
  assert (T : tanh x = 1 - 2 / (exp (2 * x) + 1)).
  { unfold tanh, sinh, cosh. replace (2 * x) with (x + x) by ring. rewrite exp_plus, exp_Ropp. pose proof (exp_pos x) as P. field. split; [|lra]. pose proof (Rmult_lt_0_compat _ _ P P). lra. }
  rewrite T. assert (2 / (exp (2 * x) + 1) <= / 2 ^ 62); [|lra]. apply Rle_trans with (2 / 2 ^ 64); [|lra].
  unfold Rdiv. apply Rmult_le_compat_l; [lra|]. apply Rinv_le; lra.
Qed.

Section Lib.
Variable L : libm.
Local Notation S := (F64 L).
Local Notation fjc := (@fjc_isotensional.nondimensional_end_to_end_length_per_link float S).

Lemma fjc_contour : forall eta, finite eta -> powerRZ 2 (-1000) <= value eta -> nearest_double (l_tanh L) tanh eta ->
  finite (fjc eta) /\ 0 <= value (fjc eta) <= 1.
Proof.
  intros eta Fe H1 N. rewrite pw in H1. set (x := value eta) in *.
  pose proof (bpow_gt_0 radix2 (-1000)) as P1000. assert (Px : 0 < x) by lra. pose proof (tanh_near x Px) as TN.
  destruct (coth_parts x ltac:(lra)) as (Tn & TC & _). pose proof (langevin_pos x Px) as LP. pose proof (langevin_tanh x) as LE.
  assert (PI : 0 < 1 / x) by (apply Rdiv_lt_0_compat; lra).
  assert (I1 : 1 / x <= bpow radix2 1000).
  { unfold Rdiv. rewrite Rmult_1_l. replace (bpow radix2 1000) with (/ bpow radix2 (-1000)) by (rewrite bpow_inv; reflexivity). apply Rinv_le; lra. }
  assert (O : 32 <= bpow radix2 1000) by (change 32 with (bpow radix2 5); apply bpow_le; lia).
  assert (B3 : 4 * bpow radix2 1000 <= bpow radix2 1023).
  { apply Rle_trans with (bpow radix2 (1000 + 1 + 1)); [rewrite !bpow_S; lra | apply bpow_le; lia]. }
  rewrite (Rabs_pos_eq (1 / x)) in TC by lra. assert (PC : 0 < 1 / tanh x) by lra. rewrite (Rabs_pos_eq (1 / tanh x)) in TC by lra.
  assert (PT : 0 < tanh x). { apply Rinv_0_lt_compat in PC. replace (/ (1 / tanh x)) with (tanh x) in PC by (field; lra). exact PC. }
  assert (T1 : tanh x <= 1) by (apply Rmult_le_reg_l with (1 / tanh x); [exact PC|]; replace (1 / tanh x * tanh x) with 1 by (field; lra); lra).
  assert (AC : accurate u (l_tanh L) tanh eta).
  { apply nearest_accurate; [|exact N]. fold x. rewrite Rabs_pos_eq by lra. split; [|lra].
    apply Rle_trans with (bpow radix2 (-1002)); [apply bpow_le; lia|].
    apply Rle_trans with (/ (1 + 1 / x)).
    - replace (-1002)%Z with (- (1000 + 1 + 1))%Z by reflexivity. rewrite <- bpow_inv, !bpow_S. apply Rinv_le; lra.
    - replace (tanh x) with (/ (1 / tanh x)) by (field; lra). apply Rinv_le; lra. }
  pose proof AC as [Ft At]. destruct N as [_ N]. fold x in At, N. set (t := value (l_tanh L eta)) in *.
  assert (U : 0 < u <= / 2 ^ 50) by (unfold unit_roundoff; lra).
  rewrite (Rabs_pos_eq (tanh x)) in At by lra. apply Rabs_le_inv in At.
  assert (uT : 0 <= u * tanh x <= tanh x / 2) by (split; [apply Rmult_le_pos; lra|]; unfold Rdiv; rewrite Rmult_comm; apply Rmult_le_compat_l; lra).
  assert (Pt : tanh x / 2 <= t) by lra.
  assert (tx : t <= x).
  { apply Rnot_lt_le. intro C. pose proof (N eta Fe) as D. fold x in D. rewrite !Rabs_pos_eq in D by lra. lra. }
  assert (C2 : 1 / t <= 2 * (1 / tanh x)).
  { replace (2 * (1 / tanh x)) with (1 / (tanh x / 2)) by (field; lra). unfold Rdiv at 1 2. rewrite !Rmult_1_l. apply Rinv_le; lra. }
  assert (Ct : 1 / x <= 1 / t) by (unfold Rdiv; rewrite !Rmult_1_l; apply Rinv_le; lra).
  destruct (div_raw one (l_tanh L eta) finite_one) as [F2 V2]; [fold t; lra | rewrite value_one; fold t; rewrite Rabs_pos_eq; lra|].
  destruct (div_raw one eta finite_one) as [F3 V3]; [fold x; lra | rewrite value_one; fold x; rewrite Rabs_pos_eq; lra|].
  rewrite value_one in V2, V3. fold t in V2. fold x in V3.
  assert (M : rnd (1 / x) <= rnd (1 / t)) by (apply rnd_mono; exact Ct). assert (M0 : 0 <= rnd (1 / x)) by (rewrite <- rnd_0; apply rnd_mono; lra).
  assert (M4 : rnd (1 / t) <= 4 * bpow radix2 1000).
  { replace (4 * bpow radix2 1000) with (bpow radix2 (1000 + 1 + 1)) by (rewrite !bpow_S; lra). apply round_le_generic; [apply fexp_correct; reflexivity | apply valid_rnd_N | apply generic_format_bpow; cbn; lia |].
    rewrite !bpow_S. lra. }
  destruct (sub_raw _ _ F2 F3) as [F4 V4]; [rewrite V2, V3, Rabs_pos_eq by lra; lra|]. rewrite fjc_unfold.
  split; [exact F4|]. split; [rewrite V4, V2, V3, <- rnd_0; apply rnd_mono; lra|].
  destruct (Rle_or_lt 32 x) as [X|X]; [|destruct (Rle_or_lt x (/ 2 ^ 28)) as [Y|Y]].
  - pose proof (tanh_close x X) as TX. pose proof (N one finite_one) as D. rewrite value_one, (Rabs_pos_eq (1 - tanh x)) in D by lra. apply Rabs_le_inv in D.
    assert (E : t = 1).
    { destruct (Rtotal_order t 1) as [O1 | [O1 | O1]]; [exfalso | exact O1 | exfalso].
      - apply (apart (l_tanh L eta) one); rewrite value_one; fold t; [split|]; lra.
      - apply (apart one (l_tanh L eta)); rewrite value_one; fold t; [split|]; lra. }
    rewrite V4, V2, V3, E. replace (rnd (1 / 1)) with 1 by (replace (1 / 1) with 1 by field; symmetry; exact rnd_1). apply Rle_trans with (rnd 1); [apply rnd_mono; lra | right; exact rnd_1].
  - destruct (fjc_vanishes L eta Fe) as (_ & V & _); [rewrite pw; fold x; lra | split; [exact Ft | exact N]|]. rewrite fjc_unfold in V. rewrite V. lra.
  - destruct (fjc_accuracy L u eta) as [_ A]; [lra | exact Fe | rewrite !pw; fold x; rewrite Rabs_pos_eq by lra; lra | exact AC|]. rewrite fjc_unfold in A. fold x in A.
    apply Rabs_le_inv in A. pose proof (langevin_upper_1 x Px) as LU. rewrite (Rabs_pos_eq (1 / x)) in A by lra.
    assert (I2 : 1 / x <= 2 ^ 28). { unfold Rdiv. rewrite Rmult_1_l. replace (2 ^ 28) with (/ / 2 ^ 28) by (rewrite Rinv_inv; reflexivity). apply Rinv_le; lra. }
    assert (I3 : x / (1 + x) <= 32 / 33). { apply Rmult_le_reg_r with (1 + x); [lra|]. unfold Rdiv at 1. rewrite Rmult_assoc, Rinv_l by lra. lra. }
    assert (2 * (u + 2 * u) * (1 + 1 / x) <= 2 * (u + 2 * u) * (1 + 2 ^ 28)) by (apply Rmult_le_compat_l; lra).
    assert (2 * (u + 2 * u) * (1 + 2 ^ 28) <= / 1000) by (unfold unit_roundoff; lra). lra.
Qed.

Lemma fjc_contour_total : forall N eta, (0 < N <= 255)%Z -> finite eta -> powerRZ 2 (-1000) <= value eta -> nearest_double (l_tanh L) tanh eta ->
  finite (@fjc_isotensional.nondimensional_end_to_end_length float S N eta) /\
  0 <= value (@fjc_isotensional.nondimensional_end_to_end_length float S N eta) <= IZR N.
Proof.
  intros N eta HN Fe H1 Hn. change (@fjc_isotensional.nondimensional_end_to_end_length float S N eta) with (fjc eta * float_of_Z N)%float.
  destruct (fjc_contour eta Fe H1 Hn) as (Fa & A1 & A2). destruct (float_of_Z_exact N) as [FN VN]; [lia|].
  assert (BN : 1 <= IZR N <= 255) by (split; apply IZR_le; lia). set (a := value (fjc eta)) in *.
  assert (aN : 0 <= a * IZR N <= IZR N) by (split; [apply Rmult_le_pos; lra|]; rewrite <- (Rmult_1_l (IZR N)) at 2; apply Rmult_le_compat_r; lra).
  assert (O : 255 <= bpow radix2 1023) by (apply Rle_trans with (bpow radix2 8); [cbn; lra | apply bpow_le; lia]).
  destruct (mul_raw _ _ Fa FN) as [F V]; [fold a; rewrite VN, Rabs_pos_eq by lra; lra|]. fold a in V. rewrite VN in V.
  split; [exact F|]. rewrite V. split; [rewrite <- rnd_0; apply rnd_mono; lra|]. apply Rle_trans with (rnd (IZR N)); [apply rnd_mono; lra|]. rewrite <- VN. right. apply rnd_value.
Qed.

Lemma fjc_contour_units : forall N l f T, (0 < N <= 255)%Z -> finite l -> 0 < value l <= powerRZ 2 1000 ->
  let eta := (f / @BOLTZMANN_CONSTANT float S / T * l)%float in
  finite eta -> powerRZ 2 (-1000) <= value eta -> nearest_double (l_tanh L) tanh eta ->
  finite (@fjc_isotensional.end_to_end_length float S N l f T) /\
  0 <= value (@fjc_isotensional.end_to_end_length float S N l f T) <= value (float_of_Z N * l)%float.
Proof.
  intros N l f T HN Fl [L1 L2] eta Fe H1 Hn. rewrite pw in L2.
  change (@fjc_isotensional.end_to_end_length float S N l f T) with (@fjc_isotensional.nondimensional_end_to_end_length float S N eta * l)%float.
  destruct (fjc_contour_total N eta HN Fe H1 Hn) as (Fa & A1 & A2). destruct (float_of_Z_exact N) as [FN VN]; [lia|].
  assert (BN : 1 <= IZR N <= 255) by (split; apply IZR_le; lia).
  set (a := value (@fjc_isotensional.nondimensional_end_to_end_length float S N eta)) in *. set (v := value l) in *.
  assert (O : 255 * bpow radix2 1000 <= bpow radix2 1023).
  { apply Rle_trans with (bpow radix2 8 * bpow radix2 1000); [apply Rmult_le_compat_r; [apply bpow_ge_0 | cbn; lra]|]. rewrite <- bpow_plus. apply bpow_le. lia. }
  assert (av : 0 <= a * v <= IZR N * v) by (split; [apply Rmult_le_pos; lra | apply Rmult_le_compat_r; lra]).
  assert (Nv : IZR N * v <= 255 * bpow radix2 1000) by (apply Rmult_le_compat; lra).
  destruct (mul_raw _ _ Fa Fl) as [F V]; [fold a v; rewrite Rabs_pos_eq by lra; lra|]. fold a v in V.
  destruct (mul_raw _ _ FN Fl) as [_ V2]; [rewrite VN; fold v; rewrite Rabs_pos_eq by lra; lra|]. rewrite VN in V2. fold v in V2.
  split; [exact F|]. rewrite V, V2. split; [rewrite <- rnd_0; apply rnd_mono; lra | apply rnd_mono; lra].
Qed.
End Lib.

(** A library whose tanh errs by one unit in the last place. *)
Definition high_libm : libm := {|
  l_powf := fun x _ => x; l_exp := fun _ => one; l_ln := fun x => x; l_log10 := fun x => x;
  l_sinh := fun x => x; l_cosh := fun _ => one;
  l_tanh := fun x => (x * 0x1.0000000000001p0)%float;
  l_sin := fun x => x; l_cos := fun _ => one; l_acos := fun x => x; l_atanh := fun x => x;
  l_ceil := fun x => x; l_pi := 3.5%float; l_cast := fun _ _ => 0%Z |}.

Lemma high_retracts : accurate (/ 2 ^ 51) (l_tanh high_libm) tanh small_force /\
  finite (@fjc_isotensional.nondimensional_end_to_end_length_per_link float (F64 high_libm) small_force) /\
  value (@fjc_isotensional.nondimensional_end_to_end_length_per_link float (F64 high_libm) small_force) < 0.
Proof.
  split; [split|split].
  - vm_compute. exact I.
  - assert (V : value (l_tanh high_libm small_force) = 4503599627370497 / 2 ^ 82).
    { unfold value. replace (Prim2SF (l_tanh high_libm small_force)) with (S754_finite false 4503599627370497 (-82)) by (vm_compute; reflexivity).
      change (1 * (4503599627370497 * / 2 ^ 82) = 4503599627370497 / 2 ^ 82). lra. }
    rewrite V, value_small. assert (P : 0 < / 2 ^ 30) by lra. pose proof (tanh_near _ P) as T. set (x := / 2 ^ 30) in *.
    assert (X : x ^ 3 <= x * / 2 ^ 60) by (unfold x; lra). assert (X2 : x = / 1073741824) by (unfold x; lra).
    rewrite !Rabs_pos_eq by lra. lra.
  - vm_compute. exact I.
  - unfold value. match goal with |- context [Prim2SF ?e] => let t := eval vm_compute in (Prim2SF e) in replace (Prim2SF e) with t by (vm_compute; reflexivity) end.
    match goal with |- -1 * (IZR ?m * powerRZ 2 ?e) < 0 => assert (0 < IZR m * powerRZ 2 e) by (apply Rmult_lt_0_compat; [apply IZR_lt; reflexivity | apply powerRZ_lt; lra]) end. lra.
Qed.

(** One that is correctly rounded at weak and at strong forces. *)
Definition contour_libm : libm := {|
  l_powf := fun x _ => x; l_exp := fun _ => one; l_ln := fun x => x; l_log10 := fun x => x;
  l_sinh := fun x => x; l_cosh := fun _ => one;
  l_tanh := fun x => if PrimFloat.ltb x 32 then x else one;
  l_sin := fun x => x; l_cos := fun _ => one; l_acos := fun x => x; l_atanh := fun x => x;
  l_ceil := fun x => x; l_pi := 3.5%float; l_cast := fun _ _ => 0%Z |}.

Lemma contour_case : (finite small_force /\ powerRZ 2 (-1000) <= value small_force /\ nearest_double (l_tanh contour_libm) tanh small_force) /\
  (finite 1024%float /\ powerRZ 2 (-1000) <= value 1024%float /\ nearest_double (l_tanh contour_libm) tanh 1024%float) /\
  0.5 < value (@fjc_isotensional.nondimensional_end_to_end_length_per_link float (F64 contour_libm) 1024%float).
Proof.
  assert (V : value 1024%float = 1024).
  { unfold value. replace (Prim2SF 1024%float) with (S754_finite false 4503599627370496 (-42)) by (vm_compute; reflexivity).
    change (1 * (4503599627370496 * / 2 ^ 42) = 1024). lra. }
  split; [|split; [split; [|split]|]].
  - split; [exact finite_small|]. split; [rewrite value_small; exact range_small|].
    destruct tanh_nearest as [A B]. unfold nearest_double. replace (l_tanh contour_libm small_force) with (l_tanh double_libm small_force) by (vm_compute; reflexivity). split; assumption.
  - vm_compute. exact I.
  - rewrite V, pw. apply Rle_trans with (bpow radix2 10); [apply bpow_le; lia | cbn; lra].
  - unfold nearest_double. replace (l_tanh contour_libm 1024%float) with one by (vm_compute; reflexivity). rewrite V, value_one. split; [exact finite_one|].
    pose proof (tanh_close 1024 ltac:(lra)) as T.
    assert (T1 : tanh 1024 <= 1). { pose proof (coth_parts 1024 ltac:(lra)) as (N & B & _). pose proof (tanh_near 1024 ltac:(lra)). rewrite Rabs_pos_eq in B by (left; apply Rdiv_lt_0_compat; lra).
      apply Rmult_le_reg_l with (1 / tanh 1024); [lra|]. replace (1 / tanh 1024 * tanh 1024) with 1 by (field; lra). lra. }
    intros y Fy. rewrite (Rabs_pos_eq (1 - tanh 1024)) by lra. apply Rnot_lt_le. intro C. apply Rabs_def2 in C. destruct C as [C1 C2].
    apply (apart y one); rewrite value_one; [split|]; lra.
  - replace (@fjc_isotensional.nondimensional_end_to_end_length_per_link float (F64 contour_libm) 1024%float) with 0x1.ff8p-1%float by (vm_compute; reflexivity).
    unfold value. replace (Prim2SF 0x1.ff8p-1%float) with (S754_finite false 8998403161718784 (-53)) by (vm_compute; reflexivity).
    change (0.5 < 1 * (8998403161718784 * / 2 ^ 53)). lra.
Qed.

Lemma retracts : exists (L : libm) (eta : float),
  accurate (/ 2 ^ 51) (l_tanh L) tanh eta /\ finite eta /\ powerRZ 2 (-1000) <= value eta /\
  finite (@fjc_isotensional.nondimensional_end_to_end_length_per_link float (F64 L) eta) /\
  value (@fjc_isotensional.nondimensional_end_to_end_length_per_link float (F64 L) eta) < 0.
Proof.
  exists high_libm, small_force. destruct high_retracts as (A & B & C). split; [exact A|]. split; [exact finite_small|].
  split; [rewrite value_small; exact range_small | split; assumption].
Qed.
