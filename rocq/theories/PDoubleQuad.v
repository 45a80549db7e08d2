(** Rounding errors of sums and of the midpoint rule. *)
From Coq Require Import Reals ZArith Lra Lia Floats Psatz List.
From Coquelicot Require Import Coquelicot.
From Flocq Require Import Core Relative Plus_error BinarySingleNaN PrimFloat.
From Verif Require Import Scalar F64 MMath SpecDouble PDouble PQuad PQuadError PDoubleFjc.
From Coq Require Import Floats.
Import ListNotations.
Open Scope R_scope.

Lemma total_Rsum : forall l, total l = Rsum l.
Proof. induction l as [|a l IH]; cbn; [reflexivity|]. fold (total l). rewrite IH. reflexivity. Qed.

Lemma float_of_Z_exact : forall z, (Z.abs z <= 2 ^ 53)%Z -> finite (float_of_Z z) /\ value (float_of_Z z) = IZR z.
Proof.
  intros z Hz. assert (P : Prec_gt_0 FloatOps.prec) by reflexivity.
  assert (E : Prim2B (float_of_Z z) = BinarySingleNaN.binary_normalize FloatOps.prec emax Hprec Hmax mode_NE z 0 false).
  { unfold float_of_Z. rewrite binary_normalize_equiv. apply Prim2B_B2Prim. }
  assert (G : generic_format radix2 (SpecFloat.fexp FloatOps.prec emax) (IZR z)).
  { destruct (Z.eq_dec (Z.abs z) (2 ^ 53)) as [Q|Q].
    - assert (A : Rabs (IZR z) = bpow radix2 53) by (rewrite <- abs_IZR, Q; reflexivity).
      assert (F : generic_format radix2 (SpecFloat.fexp FloatOps.prec emax) (bpow radix2 53)) by (apply generic_format_bpow; cbn; lia).
      rewrite <- A in F. unfold Rabs in F. destruct (Rcase_abs (IZR z)); [|exact F]. rewrite <- (Ropp_involutive (IZR z)). apply generic_format_opp. exact F.
    - apply (generic_format_FLT radix2 (-1074) FloatOps.prec). exists (Float radix2 z 0); cbn [Fnum Fexp].
      + unfold F2R; cbn. ring.
      + change (Z.abs z < 2 ^ 53)%Z. lia.
      + lia. }
  pose proof (binary_normalize_correct FloatOps.prec emax Hprec Hmax mode_NE z 0 false) as C. cbv zeta in C.
  assert (FZ : F2R (Float radix2 z 0) = IZR z) by (unfold F2R; cbn; ring).
  rewrite FZ in C. cbn [round_mode] in C.
  rewrite (round_generic radix2 (SpecFloat.fexp FloatOps.prec emax) ZnearestE _ G) in C.
  rewrite Rlt_bool_true in C.
  - destruct C as (C1 & C2 & _). rewrite finite_B, value_B2R, E. split; [exact C2|exact C1].
  - rewrite <- abs_IZR. apply Rle_lt_trans with (IZR (2 ^ 53)); [apply IZR_le; exact Hz|].
    change (IZR (2 ^ 53)) with (bpow radix2 53). apply bpow_lt. reflexivity.
Qed.

Lemma u_pos : 0 < unit_roundoff <= / 2 ^ 50.
Proof. unfold unit_roundoff; lra. Qed.

Lemma one_le_pow : forall n, 1 <= (1 + unit_roundoff) ^ n.
Proof. intro n. apply pow_R1_Rle. pose proof u_pos. lra. Qed.

(** Adding the numbers of a list to a start. *)
Lemma fold_add : forall l acc, finite acc -> List.Forall finite l ->
  (1 + unit_roundoff) ^ length l * (Rabs (value acc) + Rsum (map (fun x => Rabs (value x)) l)) <= bpow radix2 1023 ->
  finite (fold_left PrimFloat.add l acc) /\
  Rabs (value (fold_left PrimFloat.add l acc) - (value acc + Rsum (map value l)))
    <= ((1 + unit_roundoff) ^ length l - 1) * (Rabs (value acc) + Rsum (map (fun x => Rabs (value x)) l)).
Proof.
  pose proof u_pos as U. induction l as [|x l IH]; intros acc Fa Fl B.
  - cbn. split; [exact Fa|]. rewrite Rplus_0_r, Rminus_eq_0, Rabs_R0. lra.
  - inversion_clear Fl as [|? ? Fx Fl']. cbn [length fold_left map Rsum] in *.
    pose proof (one_le_pow (length l)) as P1. set (q := (1 + unit_roundoff) ^ length l) in *.
    change ((1 + unit_roundoff) ^ Datatypes.S (length l)) with ((1 + unit_roundoff) * q) in *.
    set (r := Rsum (map (fun x0 => Rabs (value x0)) l)) in *.
    assert (R0 : 0 <= r).
    { unfold r. clear. induction l as [|y l IH]; cbn; [lra|]. pose proof (Rabs_pos (value y)). lra. }
    pose proof (Rabs_pos (value acc)) as A0. pose proof (Rabs_pos (value x)) as X0.
    set (A := Rabs (value acc) + (Rabs (value x) + r)) in *. assert (HA : 0 <= A) by (unfold A; lra).
    assert (Q1 : 1 <= (1 + unit_roundoff) * q) by (rewrite <- (Rmult_1_r 1) at 1; apply Rmult_le_compat; lra).
    assert (AB : A <= bpow radix2 1023) by (apply Rle_trans with (2 := B); rewrite <- (Rmult_1_l A) at 1; apply Rmult_le_compat_r; lra).
    destruct (add_rel acc x Fa Fx) as [Fs [e [E V]]].
    { eapply Rle_trans; [apply Rabs_triang|]. unfold A in AB. lra. }
    apply abs_bounds in E.
    assert (V' : Rabs (value (acc + x)%float) <= (1 + unit_roundoff) * (Rabs (value acc) + Rabs (value x))).
    { rewrite V, Rabs_mult, (Rabs_pos_eq (1 + e)) by lra. rewrite Rmult_comm. apply Rmult_le_compat; try lra; [apply Rabs_pos|apply Rabs_triang]. }
    assert (A' : Rabs (value (acc + x)%float) + r <= (1 + unit_roundoff) * A) by (unfold A; nra).
    pose proof (Rabs_pos (value (acc + x)%float)) as W0.
    destruct (IH (acc + x)%float Fs Fl') as [Ff Ef].
    { apply Rle_trans with (q * ((1 + unit_roundoff) * A)); [apply Rmult_le_compat_l; lra|]. lra. }
    split; [exact Ff|].
    set (v := value (fold_left PrimFloat.add l (acc + x)%float)) in *. set (s := Rsum (map value l)) in *.
    replace (v - (value acc + (value x + s))) with ((v - (value (acc + x)%float + s)) + (value acc + value x) * e) by (rewrite V; ring).
    eapply Rle_trans; [apply Rabs_triang|].
    assert (T1 : (q - 1) * (Rabs (value (acc + x)%float) + r) <= (q - 1) * ((1 + unit_roundoff) * A)) by (apply Rmult_le_compat_l; lra).
    assert (T2 : Rabs ((value acc + value x) * e) <= unit_roundoff * A).
    { rewrite Rabs_mult, Rmult_comm. apply Rmult_le_compat; try apply Rabs_pos; [apply Rabs_le; exact E|].
      unfold A. eapply Rle_trans; [apply Rabs_triang|lra]. }
    lra.
Qed.

Lemma value_zero : value zero = 0.
Proof. reflexivity. Qed.
Lemma float_of_Z_0 : float_of_Z 0 = zero.
Proof. vm_compute. reflexivity. Qed.

Section Lib.
Variable L : libm.
Local Notation S := (F64 L).

Lemma sum_error : forall l, List.Forall finite l ->
  (1 + unit_roundoff) ^ length l * total (map (fun x => Rabs (value x)) l) <= powerRZ 2 1023 ->
  finite (@ssum float S l) /\
  Rabs (value (@ssum float S l) - total (map value l)) <= ((1 + unit_roundoff) ^ length l - 1) * total (map (fun x => Rabs (value x)) l).
Proof.
  intros l F B. rewrite !total_Rsum in *. rewrite pw in B. unfold ssum. change (@sofZ float S 0) with (float_of_Z 0). change (@sadd float S) with PrimFloat.add.
  rewrite float_of_Z_0. pose proof (fold_add l zero) as H. rewrite value_zero, Rabs_R0, !Rplus_0_l in H. apply H; [vm_compute; exact I|exact F|exact B].
Qed.

Lemma pow_linear : forall n, INR n * unit_roundoff <= / 4 -> (1 + unit_roundoff) ^ n <= 1 + 2 * (INR n * unit_roundoff).
Proof.
  pose proof u_pos as U. induction n as [|n IH]; intro H.
  - cbn. lra.
  - rewrite S_INR in *. assert (H' : INR n * unit_roundoff <= / 4) by lra. specialize (IH H'). cbn [pow].
    pose proof (pos_INR n) as N0. assert (0 <= INR n * unit_roundoff) by (apply Rmult_le_pos; lra). nra.
Qed.

Lemma mul_rel : forall x y, finite x -> finite y -> bpow radix2 (-1022) <= Rabs (value x * value y) <= bpow radix2 1023 ->
  finite (x * y) /\ exists e, Rabs e <= unit_roundoff /\ value (x * y)%float = (value x * value y) * (1 + e).
Proof.
  intros x y Fx Fy [B1 B2]. destruct (mul_raw x y Fx Fy B2) as [F E]. split; [exact F|].
  destruct (rnd_rel _ B1) as [e [E1 E2]]. exists e. split; [exact E1|]. rewrite E. exact E2.
Qed.

Lemma half : finite (float_dec 5 1) /\ value (float_dec 5 1) = / 2.
Proof.
  replace (float_dec 5 1) with 0.5%float by (vm_compute; reflexivity). split; [vm_compute; exact I|].
  unfold value. replace (Prim2SF 0.5%float) with (S754_finite false 4503599627370496 (-53)) by (vm_compute; reflexivity).
  change (1 * (4503599627370496 * / 2 ^ 53) = / 2). lra.
Qed.

(** A product of four roundings. *)
Lemma four : forall e1 e2 e3 e4, Rabs e1 <= unit_roundoff -> Rabs e2 <= unit_roundoff -> Rabs e3 <= unit_roundoff -> Rabs e4 <= unit_roundoff ->
  Rabs ((1 + e1) * (1 + e2) * (1 + e3) * (1 + e4) - 1) <= 401 / 100 * unit_roundoff.
Proof.
  intros e1 e2 e3 e4 H1 H2 H3 H4. pose proof u_pos as U. apply abs_bounds in H1, H2, H3, H4. set (u := unit_roundoff) in *. clearbody u.
  assert (S2 : forall a b, - u <= a <= u -> - u <= b <= u -> - (2 * u + u * u) <= (1 + a) * (1 + b) - 1 <= 2 * u + u * u).
  { intros a b Ha Hb. assert (- (u * u) <= a * b <= u * u) by (split; nra). split; nra. }
  pose proof (S2 e1 e2 H1 H2) as A. pose proof (S2 e3 e4 H3 H4) as B.
  set (p := (1 + e1) * (1 + e2) - 1) in *. set (q := (1 + e3) * (1 + e4) - 1) in *.
  replace ((1 + e1) * (1 + e2) * (1 + e3) * (1 + e4) - 1) with (p + q + p * q) by (unfold p, q; ring).
  assert (W : 2 * u + u * u <= 2001 / 1000 * u) by nra.
  assert (PQ : - (5 * (u * u)) <= p * q <= 5 * (u * u)).
  { assert (Hp : - (2001 / 1000 * u) <= p <= 2001 / 1000 * u) by lra. assert (Hq : - (2001 / 1000 * u) <= q <= 2001 / 1000 * u) by lra.
    clearbody p q. split; nra. }
  clearbody p q. assert (u * u <= / 1000 * u) by nra. assert (u * u * 1000 <= / 1000 * u) by nra. apply Rabs_le. lra.
Qed.

Definition steps (a b : float) (n : Z) : float := ((b - a) / float_of_Z n)%float.

Section Interval.
Variables a b : float.
Variable n : Z.
Hypothesis Fa : finite a.
Hypothesis Fb : finite b.
Hypothesis Ba : Rabs (value a) <= powerRZ 2 400.
Hypothesis Bb : Rabs (value b) <= powerRZ 2 400.
Hypothesis Bw : powerRZ 2 (-900) <= Rabs (value b - value a).
Hypothesis Hn : (1 <= n <= 2 ^ 50)%Z.

Let w := value b - value a.

Lemma n_real : 1 <= IZR n <= 1125899906842624.
Proof. split; apply IZR_le; lia. Qed.
Lemma n_float : finite (float_of_Z n) /\ value (float_of_Z n) = IZR n.
Proof. apply float_of_Z_exact. lia. Qed.

Lemma w_range : bpow radix2 (-900) <= Rabs w <= bpow radix2 401.
Proof.
  rewrite pw in *. split; [exact Bw|]. unfold w, Rminus. eapply Rle_trans; [apply Rabs_triang|]. rewrite Rabs_Ropp.
  change 401%Z with (400 + 1)%Z. rewrite bpow_S. lra.
Qed.

Lemma big_n : 1125899906842624 = bpow radix2 50.
Proof. reflexivity. Qed.

Lemma dx_error : finite (steps a b n) /\ exists e1 e2, Rabs e1 <= unit_roundoff /\ Rabs e2 <= unit_roundoff /\
  value (steps a b n) = w / IZR n * (1 + e1) * (1 + e2).
Proof.
  pose proof w_range as W. pose proof u_pos as U. pose proof n_real as N. destruct n_float as [Fn Vn].
  destruct (sub_rel b a Fb Fa) as [F1 [e1 [E1 V1]]].
  { fold w. apply Rle_trans with (1 := proj2 W). apply bpow_le. lia. }
  fold w in V1. pose proof (abs_bounds _ _ E1) as B1.
  assert (Nz : value (float_of_Z n) <> 0) by (rewrite Vn; lra).
  assert (K : Rabs (value (b - a)%float / value (float_of_Z n)) = Rabs w * (1 + e1) * / IZR n).
  { rewrite V1, Vn. unfold Rdiv. rewrite !Rabs_mult, Rabs_inv, (Rabs_pos_eq (1 + e1)), (Rabs_pos_eq (IZR n)) by lra. reflexivity. }
  assert (I1 : 0 < / IZR n <= 1) by (split; [apply Rinv_0_lt_compat; lra|apply Rle_trans with (/ 1); [apply Rinv_le; lra|lra]]).
  assert (I2 : bpow radix2 (-50) <= / IZR n).
  { change (-50)%Z with (- (50))%Z. rewrite bpow_opp. apply Rinv_le; [lra|]. rewrite <- big_n. lra. }
  pose proof (bpow_gt_0 radix2 (-50)) as P50. pose proof (bpow_gt_0 radix2 (-900)) as P900.
  destruct (div_rel (b - a)%float (float_of_Z n) F1 Nz) as [F2 [e2 [E2 V2]]].
  { rewrite K. split.
    - apply Rle_trans with (bpow radix2 (-900) * / 2 * bpow radix2 (-50)).
      + change (/ 2) with (bpow radix2 (-1)). rewrite <- !bpow_plus. apply bpow_le. lia.
      + apply Rmult_le_compat; try lra. apply Rmult_le_compat; lra.
    - apply Rle_trans with (bpow radix2 401 * 2 * 1).
      + apply Rmult_le_compat; try lra; [apply Rmult_le_pos; lra|]. apply Rmult_le_compat; lra.
      + rewrite Rmult_1_r, Rmult_comm, <- bpow_S. apply bpow_le. lia. }
  split; [exact F2|]. exists e1, e2. split; [exact E1|]. split; [exact E2|].
  unfold steps. rewrite V2, V1, Vn. unfold Rdiv. ring.
Qed.

(** The points of the rule. *)
Lemma point_error : forall i, (0 <= i < n)%Z ->
  finite (@math.midpoint float S a (steps a b n) i) /\
  Rabs (value (@math.midpoint float S a (steps a b n) i) - (value a + (IZR i + 1 / 2) * (w / IZR n)))
    <= 7 * unit_roundoff * (Rabs (value a) + Rabs (value b)).
Proof.
  intros i Hi. pose proof w_range as W. pose proof u_pos as U. pose proof n_real as N.
  change (@math.midpoint float S a (steps a b n) i) with (a + (float_dec 5 1 + float_of_Z i) * steps a b n)%float.
  destruct (float_of_Z_exact i) as [Fi Vi]; [lia|]. destruct half as [Fh Vh].
  assert (I0 : 0 <= IZR i <= IZR n - 1) by (split; [apply IZR_le; lia|rewrite <- minus_IZR; apply IZR_le; lia]).
  destruct (add_rel _ _ Fh Fi) as [F1 [e1 [E1 V1]]].
  { rewrite Vh, Vi, Rabs_pos_eq by lra. apply Rle_trans with (bpow radix2 50); [rewrite <- big_n; lra|apply bpow_le; lia]. }
  rewrite Vh, Vi in V1. destruct dx_error as [F2 (e2 & e3 & E2 & E3 & V2)].
  pose proof (abs_bounds _ _ E1) as B1. pose proof (abs_bounds _ _ E2) as B2. pose proof (abs_bounds _ _ E3) as B3.
  set (p0 := (IZR i + 1 / 2) * (w / IZR n)).
  assert (P0 : Rabs p0 <= Rabs w).
  { unfold p0, Rdiv. rewrite !Rabs_mult, Rabs_inv, (Rabs_pos_eq (IZR n)), (Rabs_pos_eq (IZR i + _)) by lra.
    apply (Rmult_le_reg_r (IZR n)); [lra|]. replace ((IZR i + 1 * / 2) * (Rabs w * / IZR n) * IZR n) with ((IZR i + 1 * / 2) * Rabs w) by (field; lra).
    rewrite Rmult_comm. apply Rmult_le_compat_l; [apply Rabs_pos|lra]. }
  assert (P0' : bpow radix2 (-951) <= Rabs p0).
  { unfold p0, Rdiv. rewrite !Rabs_mult, Rabs_inv, (Rabs_pos_eq (IZR n)), (Rabs_pos_eq (IZR i + _)) by lra.
    replace (bpow radix2 (-951)) with (/ 2 * (bpow radix2 (-900) * bpow radix2 (-50))).
    - assert (I2 : bpow radix2 (-50) <= / IZR n) by (change (-50)%Z with (- (50))%Z; rewrite bpow_opp; apply Rinv_le; [lra|]; rewrite <- big_n; lra).
      pose proof (bpow_gt_0 radix2 (-50)). pose proof (bpow_gt_0 radix2 (-900)).
      apply Rmult_le_compat; try lra; [apply Rmult_le_pos; lra|]. apply Rmult_le_compat; lra.
    - change (/ 2) with (bpow radix2 (-1)). rewrite <- !bpow_plus. reflexivity. }
  assert (Q : value (float_dec 5 1 + float_of_Z i)%float * value (steps a b n) = p0 * ((1 + e1) * (1 + e2) * (1 + e3))).
  { rewrite V1, V2. unfold p0, Rdiv. ring. }
  assert (T : / 2 <= (1 + e1) * (1 + e2) * (1 + e3) <= 2).
  { assert (9 / 10 * (9 / 10) <= (1 + e1) * (1 + e2) <= 11 / 10 * (11 / 10)) by (split; apply Rmult_le_compat; lra).
    split; [apply Rle_trans with (9 / 10 * (9 / 10) * (9 / 10)); [lra|]|apply Rle_trans with (11 / 10 * (11 / 10) * (11 / 10)); [|lra]]; apply Rmult_le_compat; try lra. }
  destruct (mul_rel _ _ F1 F2) as [F3 [e4 [E4 V4]]].
  { rewrite Q, Rabs_mult, (Rabs_pos_eq ((1 + e1) * _ * _)) by lra. pose proof (bpow_gt_0 radix2 (-951)). split.
    - apply Rle_trans with (bpow radix2 (-951) * / 2); [|apply Rmult_le_compat; lra]. change (/ 2) with (bpow radix2 (-1)). rewrite <- bpow_plus. apply bpow_le. lia.
    - apply Rle_trans with (bpow radix2 401 * 2); [apply Rmult_le_compat; try lra|]. rewrite Rmult_comm, <- bpow_S. apply bpow_le. lia. }
  rewrite Q in V4. set (x := value ((float_dec 5 1 + float_of_Z i) * steps a b n)%float) in *.
  pose proof (four e1 e2 e3 e4 E1 E2 E3 E4) as Fo.
  assert (D : Rabs (x - p0) <= 401 / 100 * unit_roundoff * Rabs w).
  { rewrite V4. replace (p0 * ((1 + e1) * (1 + e2) * (1 + e3)) * (1 + e4) - p0) with (((1 + e1) * (1 + e2) * (1 + e3) * (1 + e4) - 1) * p0) by ring.
    rewrite Rabs_mult. apply Rmult_le_compat; try apply Rabs_pos; assumption. }
  assert (Xb : Rabs x <= 101 / 100 * Rabs w).
  { replace x with ((x - p0) + p0) by ring. eapply Rle_trans; [apply Rabs_triang|]. pose proof (Rabs_pos w).
    assert (401 / 100 * unit_roundoff * Rabs w <= / 100 * Rabs w) by (apply Rmult_le_compat_r; lra). lra. }
  rewrite !pw in Ba, Bb.
  destruct (add_rel _ _ Fa F3) as [F5 [e5 [E5 V5]]].
  { fold x. eapply Rle_trans; [apply Rabs_triang|]. apply Rle_trans with (bpow radix2 (401 + 1 + 1)); [|apply bpow_le; lia]. rewrite !bpow_S.
    assert (bpow radix2 400 <= bpow radix2 401) by (apply bpow_le; lia). pose proof (bpow_ge_0 radix2 401). lra. }
  split; [exact F5|]. rewrite V5. fold x.
  replace ((value a + x) * (1 + e5) - (value a + p0)) with ((x - p0) + (value a + x) * e5) by ring.
  eapply Rle_trans; [apply Rabs_triang|].
  assert (T5 : Rabs ((value a + x) * e5) <= (Rabs (value a) + 101 / 100 * Rabs w) * unit_roundoff).
  { rewrite Rabs_mult. apply Rmult_le_compat; try apply Rabs_pos; [|exact E5]. eapply Rle_trans; [apply Rabs_triang|]. lra. }
  assert (Wab : Rabs w <= Rabs (value a) + Rabs (value b)).
  { unfold w, Rminus. eapply Rle_trans; [apply Rabs_triang|]. rewrite Rabs_Ropp. lra. }
  pose proof (Rabs_pos w). pose proof (Rabs_pos (value a)). pose proof (Rabs_pos (value b)).
  set (A := Rabs (value a)) in *. set (B := Rabs (value b)) in *. set (W' := Rabs w) in *. clearbody A B W'.
  assert (unit_roundoff * W' <= unit_roundoff * (A + B)) by (apply Rmult_le_compat_l; lra).
  assert (0 <= unit_roundoff * A) by (apply Rmult_le_pos; lra). assert (0 <= unit_roundoff * B) by (apply Rmult_le_pos; lra). lra.
Qed.

Lemma point_inside : forall i, (0 <= i < n)%Z ->
  Rmin (value a) (value b) <= value a + (IZR i + 1 / 2) * (w / IZR n) <= Rmax (value a) (value b).
Proof.
  intros i Hi. pose proof n_real as N. assert (I0 : 0 <= IZR i <= IZR n - 1) by (split; [apply IZR_le; lia|rewrite <- minus_IZR; apply IZR_le; lia]).
  set (t := (IZR i + 1 / 2) / IZR n).
  assert (T : 0 <= t <= 1).
  { unfold t. split; [apply Rmult_le_pos; [lra|left; apply Rinv_0_lt_compat; lra]|]. apply (Rmult_le_reg_r (IZR n)); [lra|]. unfold Rdiv. rewrite Rmult_assoc, Rinv_l by lra. lra. }
  replace (value a + (IZR i + 1 / 2) * (w / IZR n)) with (value a * (1 - t) + value b * t) by (unfold t, w; field; lra).
  pose proof (Rmin_l (value a) (value b)). pose proof (Rmin_r (value a) (value b)). pose proof (Rmax_l (value a) (value b)). pose proof (Rmax_r (value a) (value b)).
  split; nra.
Qed.

Lemma quadrature_error : forall (f : float -> float) (g : R -> R) B eps,
  computes f g (value a) (value b) (7 * unit_roundoff * (Rabs (value a) + Rabs (value b))) eps ->
  (forall y, Rmin (value a) (value b) <= y <= Rmax (value a) (value b) -> Rabs (g y) <= B) ->
  B + eps <= powerRZ 2 400 ->
  finite (@math.integrate_1d float S f a b n) /\
  Rabs (value (@math.integrate_1d float S f a b n) - @math.integrate_1d R R_scalar g (value a) (value b) n)
    <= Rabs (value b - value a) * (eps + (2 * IZR n + 8) * unit_roundoff * (B + eps)) + powerRZ 2 (-1075).
Proof.
  intros f g B eps Hf Hg HB. pose proof w_range as W. pose proof u_pos as U. pose proof n_real as N. rewrite pw in HB |- *.
  set (pt := fun i => @math.midpoint float S a (steps a b n) i).
  set (rt := fun i => value a + (IZR i + 1 / 2) * (w / IZR n)).
  set (zs := zrange 0 n).
  assert (PT : forall i, In i zs -> finite (f (pt i)) /\ Rabs (value (f (pt i)) - g (rt i)) <= eps /\ Rabs (g (rt i)) <= B).
  { intros i Hi. apply zrange_In in Hi. destruct (point_error i Hi) as [P1 P2]. pose proof (point_inside i Hi) as P3.
    destruct (Hf (pt i) (rt i) P1 P3 P2) as [Q1 Q2]. split; [exact Q1|]. split; [exact Q2|]. apply Hg. exact P3. }
  assert (Len : INR (length zs) = IZR n).
  { unfold zs. rewrite zrange_length, INR_IZR_INZ, Z2Nat.id by lia. f_equal. lia. }
  assert (Z0 : In 0%Z zs) by (apply zrange_In; lia).
  assert (Ep : 0 <= eps) by (destruct (PT _ Z0) as (_ & Q & _); eapply Rle_trans; [apply Rabs_pos|exact Q]).
  assert (Bp : 0 <= B) by (destruct (PT _ Z0) as (_ & _ & Q); eapply Rle_trans; [apply Rabs_pos|exact Q]).
  set (M := B + eps) in *.
  set (vals := map (fun i => f (pt i)) zs).
  assert (Fv : List.Forall finite vals) by (apply List.Forall_forall; intros v Hv; apply in_map_iff in Hv; destruct Hv as [i [<- Hi]]; exact (proj1 (PT i Hi))).
  assert (Lv : length vals = length zs) by apply map_length.
  assert (Av : total (map (fun x => Rabs (value x)) vals) <= IZR n * M).
  { rewrite total_Rsum. unfold vals. rewrite map_map, <- Len, <- (Rsum_const M zs). apply Rsum_le. intros i Hi. destruct (PT i Hi) as (_ & Q1 & Q2).
    replace (value (f (pt i))) with ((value (f (pt i)) - g (rt i)) + g (rt i)) by ring. eapply Rle_trans; [apply Rabs_triang|]. unfold M. lra. }
  assert (Av0 : 0 <= total (map (fun x => Rabs (value x)) vals)).
  { rewrite total_Rsum. unfold vals. rewrite map_map. replace 0 with (Rsum (map (fun _ : Z => 0) zs)) by (rewrite Rsum_const; ring). apply Rsum_le. intros; apply Rabs_pos. }
  assert (NU : IZR n * unit_roundoff <= / 4) by (unfold unit_roundoff; lra).
  assert (NU0 : 0 <= IZR n * unit_roundoff) by (apply Rmult_le_pos; lra).
  assert (PL : (1 + unit_roundoff) ^ length vals <= 1 + 2 * (IZR n * unit_roundoff)).
  { rewrite <- Len, <- Lv. apply pow_linear. rewrite Lv, Len. exact NU. }
  pose proof (one_le_pow (length vals)) as PL1.
  assert (NM : IZR n * M <= bpow radix2 450).
  { change 450%Z with (50 + 400)%Z. rewrite bpow_plus, <- big_n. apply Rmult_le_compat; unfold M in *; lra. }
  assert (Mp : 0 <= M) by (unfold M; lra). assert (NM0 : 0 <= IZR n * M) by (apply Rmult_le_pos; lra).
  destruct (sum_error vals Fv) as [Fs Es].
  { rewrite pw. apply Rle_trans with (2 * bpow radix2 450); [|rewrite <- bpow_S; apply bpow_le; lia].
    apply Rmult_le_compat; lra. }
  set (sh := value (@ssum float S vals)) in *. set (s := Rsum (map (fun i => g (rt i)) zs)).
  assert (E1 : Rabs (sh - total (map value vals)) <= 2 * (IZR n * unit_roundoff) * (IZR n * M)).
  { apply Rle_trans with (1 := Es). apply Rmult_le_compat; lra. }
  assert (E2 : Rabs (total (map value vals) - s) <= IZR n * eps).
  { rewrite total_Rsum. unfold vals, s. rewrite map_map.
    replace (Rsum (map (fun i => value (f (pt i))) zs) - Rsum (map (fun i => g (rt i)) zs)) with (Rsum (map (fun i => value (f (pt i)) - g (rt i)) zs)).
    - eapply Rle_trans; [apply Rsum_abs|]. rewrite <- Len, <- (Rsum_const eps zs). apply Rsum_le. intros i Hi. exact (proj1 (proj2 (PT i Hi))).
    - transitivity (Rsum (map (fun i => value (f (pt i)) + -1 * g (rt i)) zs)); [apply Rsum_ext; intros; ring|]. rewrite Rsum_plus, Rsum_scal. ring. }
  assert (E3 : Rabs sh <= 3 / 2 * (IZR n * M)).
  { replace sh with ((sh - total (map value vals)) + total (map value vals)) by ring. eapply Rle_trans; [apply Rabs_triang|].
    assert (Rabs (total (map value vals)) <= IZR n * M).
    { apply Rle_trans with (2 := Av). rewrite !total_Rsum. eapply Rle_trans; [apply Rsum_abs|]. right. reflexivity. }
    assert (2 * (IZR n * unit_roundoff) * (IZR n * M) <= / 2 * (IZR n * M)) by (apply Rmult_le_compat_r; lra). lra. }
  destruct dx_error as [Fd (e1 & e2 & D1 & D2 & Vd)].
  set (h := w / IZR n) in *.
  assert (H0 : Rabs h * IZR n = Rabs w) by (unfold h, Rdiv; rewrite Rabs_mult, Rabs_inv, (Rabs_pos_eq (IZR n)) by lra; field; lra).
  pose proof (Rabs_pos h) as Hh. pose proof (Rabs_pos sh) as Hs0.
  assert (T : Rabs ((1 + e1) * (1 + e2) * (1 + 0) * (1 + 0) - 1) <= 401 / 100 * unit_roundoff) by (apply four; try assumption; rewrite Rabs_R0; lra).
  assert (T' : (1 + e1) * (1 + e2) <= 2).
  { apply abs_bounds in T. rewrite !Rplus_0_r, !Rmult_1_r in T. lra. }
  assert (T0 : 0 <= (1 + e1) * (1 + e2)) by (apply abs_bounds in D1, D2; apply Rmult_le_pos; lra).
  assert (Ov : Rabs (sh * value (steps a b n)) <= bpow radix2 1023).
  { rewrite Vd, Rabs_mult. replace (h * (1 + e1) * (1 + e2)) with (h * ((1 + e1) * (1 + e2))) by ring. rewrite Rabs_mult, (Rabs_pos_eq ((1 + e1) * _)) by exact T0.
    apply Rle_trans with (3 / 2 * (IZR n * M) * (Rabs h * 2)); [apply Rmult_le_compat; try assumption; [apply Rmult_le_pos; assumption|apply Rmult_le_compat_l; assumption]|].
    replace (3 / 2 * (IZR n * M) * (Rabs h * 2)) with (3 * (M * Rabs w)) by (rewrite <- H0; field).
    apply Rle_trans with (2 * (2 * (bpow radix2 400 * bpow radix2 401))).
    - assert (M * Rabs w <= bpow radix2 400 * bpow radix2 401) by (apply Rmult_le_compat; try lra; apply Rabs_pos).
      assert (0 <= bpow radix2 400 * bpow radix2 401) by (apply Rmult_le_pos; apply bpow_ge_0). lra.
    - rewrite <- bpow_plus, <- !bpow_S. apply bpow_le. lia. }
  change (@math.integrate_1d float S f a b n) with (@ssum float S vals * steps a b n)%float.
  destruct (mul_raw _ _ Fs Fd Ov) as [Fr Vr]. split; [exact Fr|]. rewrite Vr. fold sh.
  destruct (rnd_abs (sh * value (steps a b n))) as (e & dd & G1 & G2 & G3). rewrite G3, Vd.
  assert (RI : @math.integrate_1d R R_scalar g (value a) (value b) n = s * h).
  { unfold math.integrate_1d. rewrite ssum_R. unfold s, h. cbn [smul sdiv ssub R_scalar]. change (sofZ n) with (IZR n). fold w. f_equal. f_equal. apply map_ext_in. intros i _.
    f_equal. unfold math.midpoint, rt. cbn [sadd smul R_scalar]. change (sofZ i) with (IZR i). change (sdec 5 1) with (5 / 10). unfold h. field. lra. }
  rewrite RI.
  replace (sh * (h * (1 + e1) * (1 + e2)) * (1 + e) + dd - s * h) with
    (h * ((sh - total (map value vals)) + (total (map value vals) - s) + sh * ((1 + e1) * (1 + e2) * (1 + e) * (1 + 0) - 1)) + dd) by ring.
  eapply Rle_trans; [apply Rabs_triang|]. apply Rplus_le_compat; [|exact G2]. rewrite Rabs_mult.
  assert (T4 : Rabs (sh * ((1 + e1) * (1 + e2) * (1 + e) * (1 + 0) - 1)) <= 3 / 2 * (IZR n * M) * (401 / 100 * unit_roundoff)).
  { rewrite Rabs_mult. apply Rmult_le_compat; try apply Rabs_pos; [exact E3|]. apply four; try assumption. rewrite Rabs_R0. lra. }
  assert (T5 : Rabs ((sh - total (map value vals)) + (total (map value vals) - s) + sh * ((1 + e1) * (1 + e2) * (1 + e) * (1 + 0) - 1))
    <= IZR n * (eps + (2 * IZR n + 8) * unit_roundoff * M)).
  { eapply Rle_trans; [apply Rabs_triang|]. eapply Rle_trans; [apply Rplus_le_compat_r; apply Rabs_triang|].
    assert (0 <= unit_roundoff * (IZR n * M)) by (apply Rmult_le_pos; lra). lra. }
  apply Rle_trans with (Rabs h * (IZR n * (eps + (2 * IZR n + 8) * unit_roundoff * M))); [apply Rmult_le_compat_l; assumption|].
  fold w. rewrite <- H0. right. ring.
Qed.
End Interval.

(** Together with the error of the rule itself. *)
Lemma integral_error : forall (a b : float) (n : Z), finite a -> finite b ->
  Rabs (value a) <= powerRZ 2 400 -> Rabs (value b) <= powerRZ 2 400 -> powerRZ 2 (-900) <= value b - value a -> (1 <= n <= 2 ^ 50)%Z ->
  forall (f : float -> float) (g g1 g2 : R -> R) B eps M,
  computes f g (value a) (value b) (7 * unit_roundoff * (Rabs (value a) + Rabs (value b))) eps ->
  (forall y, value a <= y <= value b -> Rabs (g y) <= B /\ is_derive g y (g1 y) /\ is_derive g1 y (g2 y) /\ Rabs (g2 y) <= M) ->
  B + eps <= powerRZ 2 400 ->
  finite (@math.integrate_1d float S f a b n) /\
  Rabs (value (@math.integrate_1d float S f a b n) - RInt g (value a) (value b))
    <= (value b - value a) ^ 3 * M / (24 * IZR n ^ 2)
       + ((value b - value a) * (eps + (2 * IZR n + 8) * unit_roundoff * (B + eps)) + powerRZ 2 (-1075)).
Proof.
  intros a b n Fa Fb Ba Bb Bw Hn f g g1 g2 B eps M Hf Hg HB.
  assert (W : 0 < value b - value a) by (rewrite pw in Bw; pose proof (bpow_gt_0 radix2 (-900)); lra).
  assert (AW : Rabs (value b - value a) = value b - value a) by (apply Rabs_pos_eq; lra).
  destruct (quadrature_error a b n Fa Fb Ba Bb) with (f := f) (g := g) (B := B) (eps := eps) as [F E]; try assumption.
  - rewrite AW. exact Bw.
  - intros y Hy. rewrite Rmin_left, Rmax_right in Hy by lra. exact (proj1 (Hg y Hy)).
  - split; [exact F|]. rewrite AW in E.
    assert (Q : Rabs (RInt g (value a) (value b) - math.integrate_1d g (value a) (value b) n) <= (value b - value a) ^ 3 * M / (24 * IZR n ^ 2)).
    { apply (midpoint_error g g1 g2); [lra| | | |lia]; intros y Hy; destruct (Hg y Hy) as (K1 & K2 & K3 & K4); assumption. }
    rewrite Rabs_minus_sym in Q.
    replace (value (@math.integrate_1d float S f a b n) - RInt g (value a) (value b)) with
      ((math.integrate_1d g (value a) (value b) n - RInt g (value a) (value b)) + (value (@math.integrate_1d float S f a b n) - math.integrate_1d g (value a) (value b) n)) by ring.
    eapply Rle_trans; [apply Rabs_triang|]. apply Rplus_le_compat; assumption.
Qed.

(** The other sums. *)
Lemma grid_error : forall (l : list float) (dx : float), List.Forall finite l -> finite dx ->
  (1 + unit_roundoff) ^ length l * total (map (fun x => Rabs (value x)) l) <= powerRZ 2 500 -> Rabs (value dx) <= powerRZ 2 500 ->
  finite (@ssum float S l * dx) /\
  Rabs (value (@ssum float S l * dx)%float - total (map value l) * value dx)
    <= ((1 + unit_roundoff) ^ (length l + 1) - 1) * total (map (fun x => Rabs (value x)) l) * Rabs (value dx) + powerRZ 2 (-1075).
Proof.
  intros l dx Fl Fd B Bd. rewrite !pw in *. pose proof u_pos as U. pose proof (one_le_pow (length l)) as P1.
  destruct (sum_error l Fl) as [Fs Es]; [rewrite pw; apply Rle_trans with (1 := B); apply bpow_le; lia|].
  set (A := total (map (fun x => Rabs (value x)) l)) in *. set (s := total (map value l)) in *. set (q := (1 + unit_roundoff) ^ length l) in *.
  assert (SA : Rabs s <= A).
  { unfold s, A. rewrite !total_Rsum. eapply Rle_trans; [apply Rsum_abs|]. right. reflexivity. }
  assert (A0 : 0 <= A) by (eapply Rle_trans; [apply Rabs_pos|exact SA]).
  set (sh := value (@ssum float S l)) in *.
  assert (SH : Rabs sh <= q * A).
  { replace sh with ((sh - s) + s) by ring. eapply Rle_trans; [apply Rabs_triang|]. lra. }
  destruct (mul_raw _ _ Fs Fd) as [Fr Vr].
  { fold sh. rewrite Rabs_mult. apply Rle_trans with (bpow radix2 500 * bpow radix2 500).
    - apply Rmult_le_compat; try apply Rabs_pos; lra.
    - rewrite <- bpow_plus. apply bpow_le. lia. }
  fold sh in Vr. destruct (rnd_abs (sh * value dx)) as (e & dd & G1 & G2 & G3). split; [exact Fr|]. rewrite Vr, G3.
  replace (sh * value dx * (1 + e) + dd - s * value dx) with (((sh - s) + sh * e) * value dx + dd) by ring.
  eapply Rle_trans; [apply Rabs_triang|]. apply Rplus_le_compat; [|exact G2]. rewrite Rabs_mult. apply Rmult_le_compat_r; [apply Rabs_pos|].
  eapply Rle_trans; [apply Rabs_triang|]. rewrite Rabs_mult.
  assert (Rabs sh * Rabs e <= q * A * unit_roundoff) by (apply Rmult_le_compat; try apply Rabs_pos; assumption).
  rewrite pow_add, pow_1. fold q. lra.
Qed.
End Lib.
