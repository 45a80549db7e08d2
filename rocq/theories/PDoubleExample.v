(** A mathematical library meeting the hypotheses about doubles. *)
From Coq Require Import Reals ZArith Lra Lia Floats Psatz.
From Flocq Require Import Core BinarySingleNaN PrimFloat.
From Verif Require Import Scalar F64 SpecLangevin SpecDouble PDouble PLangevin PSigmoid PHyp PDoubleFjc.
From Coq Require Import Floats.
Open Scope R_scope.

Definition double_libm : libm := {|
  l_powf := fun x _ => x; l_exp := fun _ => one;
  l_ln := fun x => if PrimFloat.eqb x one then zero else x;
  l_log10 := fun x => x;
  l_sinh := fun x => if PrimFloat.ltb x 600 then x else infinity;
  l_cosh := fun x => if PrimFloat.ltb x 600 then one else infinity;
  l_tanh := fun x => x;
  l_sin := fun x => x; l_cos := fun _ => one; l_acos := fun x => x; l_atanh := fun x => x;
  l_ceil := fun x => x; l_pi := 3.5%float; l_cast := fun _ _ => 0%Z |}.

(** 2^-30 *)
Definition small_force : float := 0x1p-30%float.

Lemma value_small : value small_force = / 2 ^ 30.
Proof.
  unfold value. replace (Prim2SF small_force) with (S754_finite false 4503599627370496 (-82)) by (vm_compute; reflexivity).
  change (1 * (4503599627370496 * / 2 ^ 82) = / 2 ^ 30). lra.
Qed.
Lemma finite_small : finite small_force.
Proof. vm_compute. exact I. Qed.

Lemma range_small : powerRZ 2 (-1000) <= / 2 ^ 30.
Proof. rewrite pw. apply Rle_trans with (bpow radix2 (-30)); [apply bpow_le; lia|]. change (bpow radix2 (-30)) with (/ 1073741824). lra. Qed.

Lemma tanh_small : accurate (/ 2 ^ 52) (l_tanh double_libm) tanh small_force.
Proof.
  split; [exact finite_small|]. change (l_tanh double_libm small_force) with small_force. rewrite value_small.
  assert (P : 0 < / 2 ^ 30) by lra. pose proof (tanh_near _ P) as T. set (x := / 2 ^ 30) in *.
  assert (X : x ^ 3 <= x * / 2 ^ 60) by (unfold x; lra). assert (X2 : x = / 1073741824) by (unfold x; lra).
  rewrite !Rabs_pos_eq by lra. lra.
Qed.

Lemma tanh_nearest : nearest_double (l_tanh double_libm) tanh small_force.
Proof.
  split; [exact finite_small|]. change (l_tanh double_libm small_force) with small_force. intros y Fy. rewrite value_small.
  assert (P : 0 < / 2 ^ 30) by lra. pose proof (tanh_near _ P) as T. set (x := / 2 ^ 30) in *.
  assert (X : x ^ 3 <= x * / 2 ^ 60) by (unfold x; lra). assert (X2 : x = / 1073741824) by (unfold x; lra).
  rewrite (Rabs_pos_eq (x - tanh x)) by lra. apply Rnot_lt_le. intro C. pose proof (Rabs_def2 _ _ C) as [C1 C2].
  assert (VS : value small_force = x) by exact value_small.
  destruct (Rtotal_order (value y) x) as [O|[O|O]].
  - apply (apart y small_force); rewrite VS; [split|]; lra.
  - rewrite O, Rabs_pos_eq in C by lra. lra.
  - apply (apart small_force y); rewrite VS; [split|]; lra.
Qed.

Lemma sinh_small : accurate (/ 2 ^ 20) (l_sinh double_libm) sinh small_force.
Proof.
  assert (E : l_sinh double_libm small_force = small_force) by (vm_compute; reflexivity).
  unfold accurate. rewrite E. split; [exact finite_small|]. rewrite value_small.
  assert (P : 0 < / 2 ^ 30) by lra. assert (X2 : / 2 ^ 30 = / 1073741824) by lra. set (x := / 2 ^ 30) in *.
  pose proof (sinh_gt x P) as G. pose proof (xcosh_gt x P) as U.
  assert (C : cosh x <= 1 + 2 * x).
  { assert (E1 : exp x <= 1 + 2 * x).
    { pose proof (exp_ineq1_le (- x)) as I. rewrite exp_Ropp in I. pose proof (exp_pos x) as Px.
      apply (Rmult_le_compat_r (exp x)) in I; [|lra]. rewrite Rinv_l in I by lra. nra. }
    unfold cosh. assert (exp (- x) < exp x) by (apply exp_increasing; lra). lra. }
  rewrite (Rabs_left (x - sinh x)), (Rabs_pos_eq (sinh x)) by lra. nra.
Qed.

Lemma ln_small : accurate (/ 2 ^ 20) (l_ln double_libm) ln (l_sinh double_libm small_force / small_force)%float.
Proof.
  assert (E : (l_sinh double_libm small_force / small_force)%float = one) by (vm_compute; reflexivity). rewrite E.
  split; [vm_compute; exact I|]. replace (l_ln double_libm one) with zero by (vm_compute; reflexivity).
  rewrite value_one, ln_1. replace (value zero) with 0 by reflexivity. rewrite Rminus_0_r, Rabs_R0. lra.
Qed.

Lemma value_600 : value 600%float = 600.
Proof.
  unfold value. replace (Prim2SF 600%float) with (S754_finite false 5277655813324800 (-43)) by (vm_compute; reflexivity).
  change (1 * (5277655813324800 * / 2 ^ 43) = 600). lra.
Qed.

Lemma sinh_overflows : forall x, finite x -> powerRZ 2 1024 <= sinh (value x) -> l_sinh double_libm x = infinity.
Proof.
  intros x F H. cbn [l_sinh double_libm]. destruct (PrimFloat.ltb x 600) eqn:E; [|reflexivity]. exfalso.
  rewrite ltb_equiv, Bltb_correct in E by (apply finite_B; [exact F] || (apply finite_B; vm_compute; exact I)).
  rewrite <- !value_B2R, value_600 in E. destruct (Rlt_bool_spec (value x) 600) as [K|K]; [|discriminate E].
  rewrite pw in H. assert (0 < bpow radix2 1024) by apply bpow_gt_0.
  destruct (Rle_or_lt (value x) 0) as [N|P].
  - destruct N as [N|N]; [pose proof (PHyp.sinh_neg _ N)|rewrite N, PHyp.sinh_0 in H]; lra.
  - assert (sinh (value x) <= exp 600).
    { unfold sinh. pose proof (exp_pos (- value x)). assert (exp (value x) < exp 600) by (apply exp_increasing; exact K). pose proof (exp_pos (value x)). lra. }
    pose proof exp_600. assert (bpow radix2 960 < bpow radix2 1024) by (apply bpow_lt; lia). lra.
Qed.

Lemma ln_infinite : l_ln double_libm infinity = infinity.
Proof. vm_compute. reflexivity. Qed.

Lemma force_720 : finite 720%float /\ 720 <= value 720%float.
Proof.
  split; [vm_compute; exact I|]. unfold value. replace (Prim2SF 720%float) with (S754_finite false 6333186975989760 (-43)) by (vm_compute; reflexivity).
  change (720 <= 1 * (6333186975989760 * / 2 ^ 43)). lra.
Qed.

Lemma swfjc_case : (0 <? (1 + 0.5 / 1) * 720)%float = true /\ l_sinh double_libm ((1 + 0.5 / 1) * 720)%float = infinity /\
  l_cosh double_libm ((1 + 0.5 / 1) * 720)%float = infinity.
Proof. vm_compute. auto. Qed.

Lemma stiffness_case : powerRZ 2 (-1000) <= Rabs (value small_force / value 2%float) <= powerRZ 2 1000.
Proof.
  assert (E : value 2%float = 2).
  { unfold value. replace (Prim2SF 2%float) with (S754_finite false 4503599627370496 (-51)) by (vm_compute; reflexivity).
    change (1 * (4503599627370496 * / 2 ^ 51) = 2). lra. }
  rewrite E, value_small, Rabs_pos_eq by lra. rewrite !pw. split.
  - apply Rle_trans with (bpow radix2 (-31)); [apply bpow_le; lia|]. change (bpow radix2 (-31)) with (/ 2147483648). lra.
  - apply Rle_trans with (bpow radix2 0); [change (bpow radix2 0) with 1; lra|apply bpow_le; lia].
Qed.

Lemma small_range : powerRZ 2 (-1000) <= Rabs (value small_force) <= powerRZ 2 1000.
Proof.
  rewrite value_small, Rabs_pos_eq by lra. split; [exact range_small|]. rewrite pw.
  apply Rle_trans with (bpow radix2 0); [change (bpow radix2 0) with 1; lra|apply bpow_le; lia].
Qed.
