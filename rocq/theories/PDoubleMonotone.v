(** Orders and symmetries that survive rounding. *)
From Coq Require Import Reals ZArith Lra Lia Floats Psatz.
From Flocq Require Import Core Relative Plus_error BinarySingleNaN PrimFloat.
From Verif Require Import Scalar F64 MConst MIdeal MFjc MEfjc SpecLangevin SpecDouble PDouble PDoubleFjc PLangevin PSigmoid PHyp PLimits PDoubleExample PDoubleContour.
From Coq Require Import Floats.
Open Scope R_scope.

Lemma rnd_opp : forall a, rnd (- a) = - rnd a.
Proof. intro a. apply round_NE_opp. Qed.

Section Lib.
Variable L : libm.
Local Notation S := (F64 L).
Local Notation fjc := (@fjc_isotensional.nondimensional_end_to_end_length_per_link float S).
Local Notation reduced := (@efjc_isotensional_asymptotic_reduced.nondimensional_end_to_end_length_per_link float S).
Local Notation ideal := (@ideal_isotensional.nondimensional_end_to_end_length_per_link float S).

Lemma ideal_value : forall eta, finite eta -> finite (ideal eta) /\ value (ideal eta) = rnd (value eta / 3).
Proof.
  intros eta F. change (ideal eta) with (eta / float_dec 3 0)%float. rewrite float_dec_3. pose proof (value_lt eta) as B.
  rewrite <- value_three. apply div_raw; [exact F | rewrite value_three; lra|]. rewrite value_three.
  unfold Rdiv. rewrite Rabs_mult, (Rabs_pos_eq (/ 3)) by lra. change 1024%Z with (1023 + 1)%Z in B. rewrite bpow_S in B. pose proof (Rabs_pos (value eta)). lra.
Qed.

Lemma ideal_increases : forall e1 e2, finite e1 -> finite e2 -> value e1 <= value e2 ->
  finite (ideal e1) /\ finite (ideal e2) /\ value (ideal e1) <= value (ideal e2).
Proof.
  intros e1 e2 F1 F2 H. destruct (ideal_value e1 F1) as [G1 ->]. destruct (ideal_value e2 F2) as [G2 ->]. split; [exact G1|]. split; [exact G2|]. apply rnd_mono. lra.
Qed.

Lemma ideal_odd : forall eta, finite eta -> value (ideal (- eta)%float) = - value (ideal eta).
Proof.
  intros eta F. destruct (ideal_value eta F) as [_ ->]. destruct (ideal_value (- eta)%float (finite_opp eta F)) as [_ ->].
  rewrite value_opp, <- rnd_opp. f_equal. field.
Qed.

(** The parts of the FJC. *)
Lemma fjc_value : forall eta, finite eta -> powerRZ 2 (-1000) <= Rabs (value eta) -> finite (l_tanh L eta) ->
  powerRZ 2 (-1000) <= Rabs (value (l_tanh L eta)) ->
  finite (fjc eta) /\ value (fjc eta) = rnd (rnd (1 / value (l_tanh L eta)) - rnd (1 / value eta)).
Proof.
  assert (K : forall x, finite x -> powerRZ 2 (-1000) <= Rabs (value x) -> value x <> 0 /\ Rabs (1 / value x) <= bpow radix2 1000).
  { intros x F H. rewrite pw in H. pose proof (bpow_gt_0 radix2 (-1000)). split; [intro Z; rewrite Z, Rabs_R0 in H; lra|].
    unfold Rdiv. rewrite Rmult_1_l, Rabs_inv. replace (bpow radix2 1000) with (/ bpow radix2 (-1000)) by (rewrite bpow_inv; reflexivity). apply Rinv_le; lra. }
  assert (W : bpow radix2 1000 <= bpow radix2 1023) by (apply bpow_le; lia).
  assert (W2 : 2 * bpow radix2 1000 <= bpow radix2 1023) by (rewrite <- bpow_S; apply bpow_le; lia).
  assert (A : forall v, Rabs v <= bpow radix2 1000 -> Rabs (rnd v) <= bpow radix2 1000).
  { intros v H. apply abs_round_le_generic; [apply fexp_correct; reflexivity | apply valid_rnd_N | apply generic_format_bpow; cbn; lia | exact H]. }
  intros eta F H Ft Ht. rewrite fjc_unfold. destruct (K _ F H) as [N1 B1]. destruct (K _ Ft Ht) as [N2 B2].
  destruct (div_raw one (l_tanh L eta) finite_one N2) as [F2 V2]; [rewrite value_one; lra|].
  destruct (div_raw one eta finite_one N1) as [F3 V3]; [rewrite value_one; lra|]. rewrite value_one in V2, V3.
  destruct (sub_raw _ _ F2 F3) as [F4 V4].
  { rewrite V2, V3. unfold Rminus. eapply Rle_trans; [apply Rabs_triang|]. rewrite Rabs_Ropp. pose proof (A _ B1). pose proof (A _ B2). lra. }
  split; [exact F4|]. rewrite V4, V2, V3. reflexivity.
Qed.

Lemma fjc_odd : forall eta, finite eta -> powerRZ 2 (-1000) <= Rabs (value eta) -> finite (l_tanh L eta) ->
  powerRZ 2 (-1000) <= Rabs (value (l_tanh L eta)) -> l_tanh L (- eta)%float = (- l_tanh L eta)%float ->
  finite (fjc (- eta)%float) /\ value (fjc (- eta)%float) = - value (fjc eta).
Proof.
  intros eta F H Ft Ht O. destruct (fjc_value eta F H Ft Ht) as [_ ->].
  destruct (fjc_value (- eta)%float) as [G V]; [apply finite_opp; exact F | rewrite value_opp, Rabs_Ropp; exact H | rewrite O; apply finite_opp; exact Ft | rewrite O, value_opp, Rabs_Ropp; exact Ht|].
  split; [exact G|]. rewrite V, O, !value_opp. rewrite <- rnd_opp. f_equal.
  assert (E : forall v : R, v <> 0 -> rnd (1 / - v) = - rnd (1 / v)) by (intros v N; rewrite <- rnd_opp; f_equal; field; exact N).
  pose proof (bpow_gt_0 radix2 (-1000)) as P. rewrite pw in H, Ht.
  rewrite !E; [ring | |]; intro Z; [rewrite Z, Rabs_R0 in H | rewrite Z, Rabs_R0 in Ht]; lra.
Qed.

(** Softer springs. *)
Lemma reduced_softer : forall eta k1 k2, finite eta -> 0 < value eta -> value eta / value k1 <= powerRZ 2 1000 ->
  0 < value k1 <= value k2 -> finite (fjc eta) -> Rabs (value (fjc eta)) <= powerRZ 2 1000 ->
  finite (reduced k1 eta) /\ finite (reduced k2 eta) /\
  value (fjc eta) <= value (reduced k2 eta) <= value (reduced k1 eta).
Proof.
  intros eta k1 k2 F P Q [K1 K2] Ff Bf. rewrite pw in Q, Bf.
  assert (W2 : 2 * bpow radix2 1000 <= bpow radix2 1023) by (rewrite <- bpow_S; apply bpow_le; lia). pose proof (bpow_gt_0 radix2 1000) as W0.
  assert (Q2 : value eta / value k2 <= value eta / value k1) by (apply Rmult_le_compat_l; [lra | apply Rinv_le; lra]).
  assert (Q0 : 0 < value eta / value k2) by (apply Rdiv_lt_0_compat; lra).
  destruct (div_raw eta k1 F) as [F1 V1]; [lra | rewrite Rabs_pos_eq; lra|].
  destruct (div_raw eta k2 F) as [F2 V2]; [lra | rewrite Rabs_pos_eq; lra|].
  assert (A : forall v, 0 <= v <= bpow radix2 1000 -> 0 <= rnd v <= bpow radix2 1000).
  { intros v H. split; [rewrite <- rnd_0; apply rnd_mono; lra|]. apply round_le_generic; [apply fexp_correct; reflexivity | apply valid_rnd_N | apply generic_format_bpow; cbn; lia | lra]. }
  pose proof (A (value eta / value k1) ltac:(lra)) as A1. pose proof (A (value eta / value k2) ltac:(lra)) as A2.
  pose proof (rnd_mono _ _ Q2) as M.
  change (reduced k1 eta) with (fjc eta + eta / k1)%float. change (reduced k2 eta) with (fjc eta + eta / k2)%float.
  assert (B : forall v, 0 <= v <= bpow radix2 1000 -> Rabs (value (fjc eta) + v) <= bpow radix2 1023).
  { intros v H. eapply Rle_trans; [apply Rabs_triang|]. rewrite (Rabs_pos_eq v) by lra. lra. }
  destruct (add_raw _ _ Ff F1) as [G1 U1]; [rewrite V1; apply B; exact A1|]. destruct (add_raw _ _ Ff F2) as [G2 U2]; [rewrite V2; apply B; exact A2|].
  split; [exact G1|]. split; [exact G2|]. rewrite U1, U2, V1, V2. split.
  - rewrite <- (rnd_value (fjc eta)) at 1. apply rnd_mono. lra.
  - apply rnd_mono. lra.
Qed.
End Lib.

Lemma reduced_softer_nearest : forall (L : libm) eta k1 k2, finite eta -> powerRZ 2 (-1000) <= value eta ->
  nearest_double (l_tanh L) tanh eta -> 0 < value k1 <= value k2 -> value eta / value k1 <= powerRZ 2 1000 ->
  let fjc := @fjc_isotensional.nondimensional_end_to_end_length_per_link float (F64 L) in
  let reduced := @efjc_isotensional_asymptotic_reduced.nondimensional_end_to_end_length_per_link float (F64 L) in
  finite (reduced k1 eta) /\ finite (reduced k2 eta) /\ value (fjc eta) <= value (reduced k2 eta) <= value (reduced k1 eta).
Proof.
  intros L eta k1 k2 F H N K Q fjc reduced. destruct (fjc_contour L eta F H N) as (Ff & A1 & A2).
  rewrite pw in H. pose proof (bpow_gt_0 radix2 (-1000)). apply reduced_softer; try assumption; [lra|].
  rewrite Rabs_pos_eq, pw by lra. apply Rle_trans with (bpow radix2 0); [change (bpow radix2 0) with 1; lra | apply bpow_le; lia].
Qed.

Lemma value_24 : value 2%float = 2 /\ value 4%float = 4 /\ value 1024%float = 1024.
Proof.
  split; [|split]; unfold value.
  - replace (Prim2SF 2%float) with (S754_finite false 4503599627370496 (-51)) by (vm_compute; reflexivity). change (1 * (4503599627370496 * / 2 ^ 51) = 2). lra.
  - replace (Prim2SF 4%float) with (S754_finite false 4503599627370496 (-50)) by (vm_compute; reflexivity). change (1 * (4503599627370496 * / 2 ^ 50) = 4). lra.
  - replace (Prim2SF 1024%float) with (S754_finite false 4503599627370496 (-42)) by (vm_compute; reflexivity). change (1 * (4503599627370496 * / 2 ^ 42) = 1024). lra.
Qed.

Lemma softer_case : nearest_double (l_tanh contour_libm) tanh 1024%float /\ 0 < value 2%float < value 4%float /\ value 1024%float / value 2%float <= powerRZ 2 1000.
Proof.
  destruct contour_case as (_ & (_ & _ & N) & _). split; [exact N|]. destruct value_24 as (-> & -> & ->). split; [lra|].
  rewrite pw. apply Rle_trans with (bpow radix2 9); [cbn; lra | apply bpow_le; lia].
Qed.

Lemma odd_case : finite small_force /\ powerRZ 2 (-1000) <= Rabs (value small_force) /\ finite (l_tanh double_libm small_force) /\
  powerRZ 2 (-1000) <= Rabs (value (l_tanh double_libm small_force)) /\
  l_tanh double_libm (- small_force)%float = (- l_tanh double_libm small_force)%float.
Proof.
  split; [exact finite_small|]. split; [exact (proj1 small_range)|]. split; [exact finite_small|]. split; [exact (proj1 small_range) | reflexivity].
Qed.
