(** Rounding errors of the isotensional functions of the ideal chain and the FJC. *)
From Coq Require Import Reals ZArith Lra Lia Floats Psatz.
From Flocq Require Import Core Relative Plus_error BinarySingleNaN PrimFloat.
From Verif Require Import Scalar F64 MIdeal MFjc MSwfjc MEfjc SpecLangevin SpecDouble PDouble PLangevin PSigmoid PHyp PFloatNan PErfc.
From Coq Require Import Floats.
Open Scope R_scope.

Lemma sub_rel : forall x y, finite x -> finite y -> Rabs (value x - value y) <= bpow radix2 1023 ->
  finite (x - y) /\ exists e, Rabs e <= unit_roundoff /\ value (x - y)%float = (value x - value y) * (1 + e).
Proof.
  intros x y Fx Fy B. destruct (sub_raw x y Fx Fy B) as [F E]. split; [exact F|].
  assert (P : Prec_gt_0 FloatOps.prec) by reflexivity.
  destruct (FLT_plus_error_N_ex radix2 (-1074) FloatOps.prec (fun z => negb (Z.even z)) (value x) (- value y)) as [e [E1 E2]];
    [apply format_value|apply generic_format_opp; apply format_value|].
  exists e. split.
  - apply Rle_trans with (1 := E1). unfold u_ro. rewrite ub. unfold unit_roundoff.
    apply Rle_trans with (/ 2 ^ 53 / 1); [|lra]. apply Rmult_le_compat_l; [lra|]. apply Rinv_le; lra.
  - rewrite E. exact E2.
Qed.

Lemma div_rel : forall x y, finite x -> value y <> 0 -> bpow radix2 (-1022) <= Rabs (value x / value y) <= bpow radix2 1023 ->
  finite (x / y) /\ exists e, Rabs e <= unit_roundoff /\ value (x / y)%float = (value x / value y) * (1 + e).
Proof.
  intros x y Fx Hy [B1 B2]. destruct (div_raw x y Fx Hy B2) as [F E]. split; [exact F|].
  destruct (rnd_rel _ B1) as [e [E1 E2]]. exists e. split; [exact E1|]. rewrite E. exact E2.
Qed.

Lemma value_one : value one = 1.
Proof.
  unfold value. replace (Prim2SF one) with (S754_finite false 4503599627370496 (-52)) by (vm_compute; reflexivity).
  change (1 * (4503599627370496 * / 2 ^ 52) = 1). lra.
Qed.
Lemma finite_one : finite one.
Proof. vm_compute. exact I. Qed.
Lemma float_dec_1 : float_dec 1 0 = one.
Proof. vm_compute. reflexivity. Qed.
Lemma float_dec_3 : float_dec 3 0 = 3%float.
Proof. vm_compute. reflexivity. Qed.
Lemma value_three : value 3%float = 3.
Proof.
  unfold value. replace (Prim2SF 3%float) with (S754_finite false 6755399441055744 (-51)) by (vm_compute; reflexivity).
  change (1 * (6755399441055744 * / 2 ^ 51) = 3). lra.
Qed.

Lemma pw : forall e, powerRZ 2 e = bpow radix2 e.
Proof. intro e. rewrite bpow_powerRZ. reflexivity. Qed.
Lemma bpow_inv : forall e, / bpow radix2 e = bpow radix2 (- e).
Proof. intro e. symmetry. apply bpow_opp. Qed.
Lemma bpow_S : forall e, bpow radix2 (e + 1) = 2 * bpow radix2 e.
Proof. intro e. rewrite bpow_plus. change (bpow radix2 1) with 2. ring. Qed.

(** The reciprocal of a number of moderate size. *)
Lemma inv_range : forall x, powerRZ 2 (-1000) <= Rabs x <= powerRZ 2 1000 ->
  x <> 0 /\ bpow radix2 (-1000) <= Rabs (1 / x) <= bpow radix2 1000.
Proof.
  intros x [H1 H2]. rewrite !pw in *. pose proof (bpow_gt_0 radix2 (-1000)) as P. pose proof (bpow_gt_0 radix2 1000) as P2.
  assert (N : x <> 0) by (intro Z0; rewrite Z0, Rabs_R0 in H1; lra). split; [exact N|].
  unfold Rdiv. rewrite Rmult_1_l, Rabs_inv. split.
  - change (-1000)%Z with (- (1000))%Z. rewrite <- bpow_inv. apply Rinv_le; lra.
  - change 1000%Z with (- (-1000))%Z. rewrite <- bpow_inv. apply Rinv_le; lra.
Qed.

Lemma tanh_opp : forall x, tanh (- x) = - tanh x.
Proof. intro x. unfold tanh. rewrite PHyp.sinh_opp. replace (cosh (- x)) with (cosh x) by (unfold cosh; rewrite Ropp_involutive; lra). unfold Rdiv. ring. Qed.

Lemma langevin_tanh : forall x, langevin x = 1 / tanh x - 1 / x.
Proof. intro x. rewrite <- extension_langevin. reflexivity. Qed.

(** The parts of the Langevin function. *)
Lemma coth_parts : forall x, x <> 0 -> tanh x <> 0 /\ 1 <= Rabs (1 / tanh x) <= 1 + Rabs (1 / x) /\ Rabs (langevin x) <= 1.
Proof.
  assert (K : forall x, 0 < x -> tanh x <> 0 /\ 1 <= Rabs (1 / tanh x) <= 1 + Rabs (1 / x) /\ Rabs (langevin x) <= 1).
  { intros x H. pose proof (langevin_pos x H) as B. pose proof (langevin_tanh x) as E.
    pose proof (PHyp.sinh_pos x H) as S. pose proof (cosh2_sinh2 x) as C.
    assert (C1 : 0 < cosh x) by (unfold cosh; pose proof (exp_pos x); pose proof (exp_pos (- x)); lra).
    assert (T : 0 < tanh x) by (unfold tanh; apply Rdiv_lt_0_compat; assumption).
    assert (T1 : tanh x <= 1).
    { unfold tanh. apply (Rmult_le_reg_r (cosh x)); [exact C1|]. unfold Rdiv. rewrite Rmult_assoc, Rinv_l by lra. nra. }
    assert (I1 : 1 <= 1 / tanh x) by (apply (Rmult_le_reg_r (tanh x)); [exact T|]; unfold Rdiv; rewrite Rmult_assoc, Rinv_l by lra; lra).
    assert (I2 : 0 < 1 / x) by (apply Rdiv_lt_0_compat; lra).
    rewrite (Rabs_pos_eq (1 / tanh x)), (Rabs_pos_eq (1 / x)), (Rabs_pos_eq (langevin x)) by lra.
    split; [lra|]. split; lra. }
  intros x N. destruct (Rlt_or_le 0 x) as [H|H]; [exact (K x H)|].
  destruct (K (- x)) as (K1 & K2 & K3); [lra|]. rewrite tanh_opp in *. rewrite langevin_odd, Rabs_Ropp in K3.
  assert (T : tanh x <> 0) by lra.
  replace (1 / - tanh x) with (- (1 / tanh x)) in K2 by (field; exact T).
  replace (1 / - x) with (- (1 / x)) in K2 by (field; exact N). rewrite !Rabs_Ropp in K2. repeat split; tauto.
Qed.

Lemma small_bpow : forall e, (-1000 <= e)%Z -> bpow radix2 (-1022) <= bpow radix2 e.
Proof. intros. apply bpow_le. lia. Qed.

Lemma abs_bounds : forall e u, Rabs e <= u -> - u <= e <= u.
Proof. intros e u H. apply Rabs_le_inv. exact H. Qed.

(** The rounding error of the whole expression, in real arithmetic. *)
Lemma coth_error : forall C X e1 e2 e3 e4 d,
  1 <= Rabs C <= 1 + Rabs X -> Rabs (C - X) <= 1 -> Rabs e1 <= d -> d <= / 2 ^ 20 ->
  Rabs e2 <= unit_roundoff -> Rabs e3 <= unit_roundoff -> Rabs e4 <= unit_roundoff ->
  Rabs ((C / (1 + e1) * (1 + e2) - X * (1 + e3)) * (1 + e4) - (C - X)) <= 2 * (d + 2 * unit_roundoff) * (1 + Rabs X).
Proof.
  intros C X e1 e2 e3 e4 d HC HL H1 Hd H2 H3 H4.
  assert (U : 0 < unit_roundoff <= / 2 ^ 50) by (unfold unit_roundoff; lra).
  set (u := unit_roundoff) in *. clearbody u.
  pose proof (abs_bounds _ _ H1) as B1. pose proof (abs_bounds _ _ H2) as B2. pose proof (abs_bounds _ _ H4) as B4.
  pose proof (Rabs_pos e1) as P1. pose proof (Rabs_pos X) as PX.
  assert (D1 : 0 < 1 + e1) by lra.
  set (k := (1 + e2) / (1 + e1) - 1).
  assert (K : Rabs k <= 101 / 100 * (d + u)).
  { replace k with ((e2 - e1) * / (1 + e1)) by (unfold k; field; lra).
    rewrite Rabs_mult, Rabs_inv, (Rabs_pos_eq (1 + e1)) by lra.
    apply Rle_trans with ((d + u) * / (1 + e1)).
    - apply Rmult_le_compat_r; [left; apply Rinv_0_lt_compat; exact D1|]. apply Rabs_le. lra.
    - rewrite (Rmult_comm (101 / 100)). apply Rmult_le_compat_l; [lra|]. replace (101 / 100) with (/ (100 / 101)) by field. apply Rinv_le; lra. }
  replace ((C / (1 + e1) * (1 + e2) - X * (1 + e3)) * (1 + e4) - (C - X)) with
    (C * k * (1 + e4) + - (X * e3 * (1 + e4)) + (C - X) * e4) by (unfold k; field; lra).
  assert (Q4 : Rabs (1 + e4) <= 101 / 100) by (rewrite Rabs_pos_eq by lra; lra).
  pose proof (Rabs_pos (1 + e4)) as P4. pose proof (Rabs_pos k) as Pk. pose proof (Rabs_pos e3) as P3. pose proof (Rabs_pos (C - X)) as PL. pose proof (Rabs_pos e4) as P4'.
  eapply Rle_trans; [apply Rabs_triang|]. eapply Rle_trans; [apply Rplus_le_compat_r; apply Rabs_triang|].
  rewrite Rabs_Ropp, !Rabs_mult.
  assert (T1 : Rabs C * Rabs k * Rabs (1 + e4) <= (1 + Rabs X) * (101 / 100 * (d + u)) * (101 / 100)).
  { apply Rmult_le_compat; [apply Rmult_le_pos; lra|lra| |exact Q4]. apply Rmult_le_compat; lra. }
  assert (T2 : Rabs X * Rabs e3 * Rabs (1 + e4) <= Rabs X * u * (101 / 100)).
  { apply Rmult_le_compat; [apply Rmult_le_pos; lra|lra| |exact Q4]. apply Rmult_le_compat_l; lra. }
  assert (T3 : Rabs (C - X) * Rabs e4 <= 1 * u) by (apply Rmult_le_compat; lra).
  set (A := Rabs X) in *. clearbody A.
  assert (dp : 0 <= d) by lra. assert (A * u >= 0) by nra. assert (A * d >= 0) by nra. nra.
Qed.

Section Lib.
Variable L : libm.
Local Notation S := (F64 L).

Lemma fjc_unfold : forall eta, @fjc_isotensional.nondimensional_end_to_end_length_per_link float S eta
  = (one / l_tanh L eta - one / eta)%float.
Proof. intro eta. rewrite <- float_dec_1. reflexivity. Qed.

Lemma relative_form : forall v g d, g <> 0 -> Rabs (v - g) <= d * Rabs g -> exists e, Rabs e <= d /\ v = g * (1 + e).
Proof.
  intros v g d N H. exists ((v - g) / g). split; [|field; exact N].
  unfold Rdiv. rewrite Rabs_mult, Rabs_inv. pose proof (Rabs_pos_lt g N) as P.
  apply (Rmult_le_reg_r (Rabs g)); [exact P|]. rewrite Rmult_assoc, Rinv_l by lra. lra.
Qed.

Lemma fjc_accuracy : forall d eta, d <= / 2 ^ 20 -> finite eta -> powerRZ 2 (-1000) <= Rabs (value eta) <= powerRZ 2 1000 ->
  accurate d (l_tanh L) tanh eta ->
  finite (@fjc_isotensional.nondimensional_end_to_end_length_per_link float S eta) /\
  Rabs (value (@fjc_isotensional.nondimensional_end_to_end_length_per_link float S eta) - langevin (value eta))
    <= 2 * (d + 2 * unit_roundoff) * (1 + Rabs (1 / value eta)).
Proof.
  intros d eta Hd Fe R [Ft A]. rewrite fjc_unfold. set (x := value eta) in *.
  destruct (inv_range x R) as [N X]. destruct (coth_parts x N) as (TN & TC & TL).
  destruct (relative_form _ _ _ TN A) as [e1 [E1 V1]].
  pose proof (abs_bounds _ _ E1) as B1.
  assert (D1 : 0 < 1 + e1) by lra.
  assert (TV : value (l_tanh L eta) <> 0) by (rewrite V1; apply Rmult_integral_contrapositive_currified; lra).
  assert (Q : value one / value (l_tanh L eta) = 1 / tanh x / (1 + e1)) by (rewrite value_one, V1; field; split; first [exact TN|lra]).
  assert (one_le : 1 <= bpow radix2 1000) by (change 1 with (bpow radix2 0); apply bpow_le; lia).
  assert (Qr : / 2 <= Rabs (value one / value (l_tanh L eta)) <= 2 * (1 + Rabs (1 / x))).
  { assert (AQ : Rabs (1 / tanh x / (1 + e1)) = Rabs (1 / tanh x) * / (1 + e1)).
    { unfold Rdiv at 1. rewrite Rabs_mult, Rabs_inv, (Rabs_pos_eq (1 + e1)) by lra. reflexivity. }
    rewrite Q, AQ.
    assert (I1 : / 2 <= / (1 + e1)) by (apply Rinv_le; lra). assert (I2 : / (1 + e1) <= 2) by (replace 2 with (/ / 2) by field; apply Rinv_le; lra).
    pose proof (Rabs_pos (1 / x)). set (c := Rabs (1 / tanh x)) in *. set (a := Rabs (1 / x)) in *. set (i := / (1 + e1)) in *. clearbody c a i. split; nra. }
  assert (Top : 2 * (1 + Rabs (1 / x)) <= bpow radix2 1003).
  { replace 1003%Z with (1000 + 1 + 1 + 1)%Z by reflexivity. rewrite !bpow_S. lra. }
  destruct (div_rel one (l_tanh L eta) finite_one TV) as [F2 [e2 [E2 V2]]].
  { split; [|apply Rle_trans with (bpow radix2 1003); [lra|apply bpow_le; lia]].
    apply Rle_trans with (/ 2); [|lra]. apply Rle_trans with (bpow radix2 (-1)); [apply bpow_le; lia|]. change (bpow radix2 (-1)) with (/ 2). lra. }
  destruct (div_rel one eta finite_one N) as [F3 [e3 [E3 V3]]].
  { rewrite value_one. fold x. split; [apply Rle_trans with (bpow radix2 (-1000)); [apply bpow_le; lia|lra]|apply Rle_trans with (bpow radix2 1000); [lra|apply bpow_le; lia]]. }
  fold x in V3. rewrite value_one in V3.
  assert (U : 0 < unit_roundoff <= / 2 ^ 50) by (unfold unit_roundoff; lra).
  pose proof (abs_bounds _ _ E2) as B2. pose proof (abs_bounds _ _ E3) as B3.
  destruct (sub_rel _ _ F2 F3) as [F4 [e4 [E4 V4]]].
  { rewrite V2, V3. unfold Rminus. eapply Rle_trans; [apply Rabs_triang|]. rewrite Rabs_Ropp, (Rabs_mult _ (1 + e2)), (Rabs_mult _ (1 + e3)), (Rabs_pos_eq (1 + e2)), (Rabs_pos_eq (1 + e3)) by lra.
    apply Rle_trans with (bpow radix2 1005); [|apply bpow_le; lia].
    replace 1005%Z with (1003 + 1 + 1)%Z by reflexivity. rewrite !bpow_S.
    set (q := Rabs (value one / value (l_tanh L eta))) in *. set (a := Rabs (1 / x)) in *.
    assert (0 <= a) by apply Rabs_pos. assert (0 <= q) by apply Rabs_pos. nra. }
  split; [exact F4|]. rewrite V4, V2, V3, Q, langevin_tanh.
  apply coth_error; try assumption. rewrite <- langevin_tanh. exact TL.
Qed.

Lemma add_rel : forall x y, finite x -> finite y -> Rabs (value x + value y) <= bpow radix2 1023 ->
  finite (x + y) /\ exists e, Rabs e <= unit_roundoff /\ value (x + y)%float = (value x + value y) * (1 + e).
Proof.
  intros x y Fx Fy B. destruct (add_raw x y Fx Fy B) as [F E]. split; [exact F|].
  destruct (sum_rel x y) as [e [E1 E2]]. exists e. split; [exact E1|]. rewrite E. exact E2.
Qed.

Lemma efjc_reduced_accuracy : forall d kap eta, d <= / 2 ^ 20 -> finite eta -> powerRZ 2 (-1000) <= Rabs (value eta) <= powerRZ 2 1000 ->
  powerRZ 2 (-1000) <= Rabs (value eta / value kap) <= powerRZ 2 1000 ->
  accurate d (l_tanh L) tanh eta ->
  finite (@efjc_isotensional_asymptotic_reduced.nondimensional_end_to_end_length_per_link float S kap eta) /\
  Rabs (value (@efjc_isotensional_asymptotic_reduced.nondimensional_end_to_end_length_per_link float S kap eta)
    - (langevin (value eta) + value eta / value kap))
    <= 3 * (d + 2 * unit_roundoff) * (1 + Rabs (1 / value eta) + Rabs (value eta / value kap)).
Proof.
  intros d kap eta Hd Fe R R2 A.
  change (@efjc_isotensional_asymptotic_reduced.nondimensional_end_to_end_length_per_link float S kap eta) with
    (@fjc_isotensional.nondimensional_end_to_end_length_per_link float S eta + eta / kap)%float.
  destruct (fjc_accuracy d eta Hd Fe R A) as [F1 A1]. destruct (inv_range _ R) as [N X]. destruct (coth_parts _ N) as (TN & _ & TL).
  assert (dp : 0 <= d).
  { destruct A as [_ A]. pose proof (Rabs_pos (value (l_tanh L eta) - tanh (value eta))). pose proof (Rabs_pos_lt _ TN).
    apply (Rmult_le_reg_r (Rabs (tanh (value eta)))); lra. }
  set (v := value (@fjc_isotensional.nondimensional_end_to_end_length_per_link float S eta)) in *.
  assert (U : 0 < unit_roundoff <= / 2 ^ 50) by (unfold unit_roundoff; lra).
  assert (K : value kap <> 0).
  { intro Z0. unfold Rdiv in R2. rewrite Z0, Rinv_0, Rmult_0_r, Rabs_R0, pw in R2. pose proof (bpow_gt_0 radix2 (-1000)). lra. }
  rewrite !pw in R2. destruct (div_rel eta kap Fe K) as [F2 [e2 [E2 V2]]].
  { split; [apply Rle_trans with (bpow radix2 (-1000)); [apply bpow_le; lia|lra]|apply Rle_trans with (bpow radix2 1000); [lra|apply bpow_le; lia]]. }
  pose proof (abs_bounds _ _ E2) as B2.
  set (l := langevin (value eta)) in *. set (q := value eta / value kap) in *. set (a := Rabs (1 / value eta)) in *.
  assert (Pa : 0 <= a) by apply Rabs_pos. pose proof (Rabs_pos q) as Pq.
  assert (one_le : 1 <= bpow radix2 1000) by (change 1 with (bpow radix2 0); apply bpow_le; lia).
  set (err := 2 * (d + 2 * unit_roundoff) * (1 + a)) in *.
  assert (Er : 0 <= err <= 1 + a) by (unfold err; split; [repeat apply Rmult_le_pos; lra|]; rewrite <- (Rmult_1_l (1 + a)) at 2; apply Rmult_le_compat_r; lra).
  assert (Vv : Rabs v <= 1 + err) by (replace v with ((v - l) + l) by ring; eapply Rle_trans; [apply Rabs_triang|lra]).
  assert (Vq : Rabs (q * (1 + e2)) <= 2 * Rabs q) by (rewrite Rabs_mult, (Rabs_pos_eq (1 + e2)) by lra; rewrite Rmult_comm; apply Rmult_le_compat_r; lra).
  destruct (add_rel _ _ F1 F2) as [F3 [e3 [E3 V3]]].
  { fold v. rewrite V2. fold q. eapply Rle_trans; [apply Rabs_triang|]. apply Rle_trans with (bpow radix2 1003); [|apply bpow_le; lia].
    replace 1003%Z with (1000 + 1 + 1 + 1)%Z by reflexivity. rewrite !bpow_S. lra. }
  fold v in V3. rewrite V2 in V3. fold q in V3.
  split; [exact F3|]. rewrite V3.
  replace ((v + q * (1 + e2)) * (1 + e3) - (l + q)) with ((v - l) + (q * e2 + (v + q * (1 + e2)) * e3)) by ring.
  eapply Rle_trans; [apply Rabs_triang|]. eapply Rle_trans; [apply Rplus_le_compat_l; apply Rabs_triang|]. rewrite !(Rabs_mult _ e2), !(Rabs_mult _ e3).
  assert (T1 : Rabs q * Rabs e2 <= Rabs q * unit_roundoff) by (apply Rmult_le_compat_l; lra).
  assert (T2 : Rabs (v + q * (1 + e2)) * Rabs e3 <= (1 + err + 2 * Rabs q) * unit_roundoff).
  { apply Rmult_le_compat; try apply Rabs_pos; [|exact E3]. eapply Rle_trans; [apply Rabs_triang|]. lra. }
  assert (T3 : err * unit_roundoff <= (1 + a) * unit_roundoff) by (apply Rmult_le_compat_r; lra).
  assert (T4 : 0 <= d * Rabs q) by (apply Rmult_le_pos; lra). assert (T5 : 0 <= d * a) by (apply Rmult_le_pos; lra).
  assert (T6 : 0 <= unit_roundoff * a) by (apply Rmult_le_pos; lra). assert (T7 : 0 <= unit_roundoff * Rabs q) by (apply Rmult_le_pos; lra).
  apply Rle_trans with (err + (Rabs q * unit_roundoff + (1 + (1 + a) + 2 * Rabs q) * unit_roundoff)); [lra|].
  unfold err. lra.
Qed.

Lemma value_lt : forall x, Rabs (value x) < bpow radix2 1024.
Proof. intro x. rewrite value_B2R. apply (abs_B2R_lt_emax FloatOps.prec emax). Qed.

Lemma ideal_accuracy : forall eta, finite eta -> powerRZ 2 (-1020) <= Rabs (value eta) ->
  finite (@ideal_isotensional.nondimensional_end_to_end_length_per_link float S eta) /\
  Rabs (value (@ideal_isotensional.nondimensional_end_to_end_length_per_link float S eta) - value eta / 3)
    <= unit_roundoff * Rabs (value eta / 3).
Proof.
  intros eta F H. change (@ideal_isotensional.nondimensional_end_to_end_length_per_link float S eta) with (eta / float_dec 3 0)%float.
  rewrite float_dec_3. pose proof (value_lt eta) as B. rewrite pw in H.
  assert (A : Rabs (value eta / 3) = Rabs (value eta) / 3) by (unfold Rdiv; rewrite Rabs_mult, (Rabs_pos_eq (/ 3)); lra).
  destruct (div_rel eta 3%float F) as [F2 [e [E V]]].
  - rewrite value_three. lra.
  - rewrite value_three, A. split.
    + replace (-1020)%Z with (-1022 + 1 + 1)%Z in H by reflexivity. rewrite !bpow_S in H. pose proof (bpow_gt_0 radix2 (-1022)). lra.
    + change 1024%Z with (1023 + 1)%Z in B. rewrite bpow_S in B. pose proof (Rabs_pos (value eta)). lra.
  - split; [exact F2|]. rewrite V, value_three. replace (value eta / 3 * (1 + e) - value eta / 3) with (e * (value eta / 3)) by ring.
    rewrite Rabs_mult. apply Rmult_le_compat_r; [apply Rabs_pos|exact E].
Qed.

(** Two doubles that agree to 56 bits are equal. *)
Lemma apart : forall x y, 0 < value x < value y -> value y * (1 - / 2 ^ 55) < value x -> False.
Proof.
  intros x y [H1 H2] H3. assert (P : Prec_gt_0 FloatOps.prec) by reflexivity.
  pose proof (succ_le_lt radix2 (FLT_exp (-1074) FloatOps.prec) (value x) (value y) (format_value x) (format_value y) H2) as E.
  rewrite succ_eq_pos in E by lra.
  pose proof (ulp_FLT_gt radix2 (-1074) FloatOps.prec (value x)) as G. rewrite Rabs_pos_eq in G by lra.
  change (bpow radix2 (- FloatOps.prec)) with (/ 9007199254740992) in G. lra.
Qed.

Lemma value_inj : forall x y, value x = value y -> value x <> 0 -> x = y.
Proof.
  intros x y E N. apply Prim2B_inj. pose proof N as N2. rewrite E in N2. rewrite !value_B2R in *.
  apply B2R_inj; [| |exact E].
  - destruct (Prim2B x); try reflexivity; exfalso; apply N; reflexivity.
  - destruct (Prim2B y); try reflexivity; exfalso; apply N2; reflexivity.
Qed.

Lemma tanh_near : forall x, 0 < x -> x - x ^ 3 / 3 <= tanh x <= x.
Proof.
  intros x H. pose proof (langevin_upper_3 x H) as U. pose proof (langevin_pos x H) as B. rewrite langevin_tanh in U, B.
  destruct (coth_parts x) as (N & _ & _); [lra|].
  assert (T : 0 < tanh x) by (unfold tanh; apply Rdiv_lt_0_compat; [apply PHyp.sinh_pos; exact H|unfold cosh; pose proof (exp_pos x); pose proof (exp_pos (- x)); lra]).
  set (t := tanh x) in *. clearbody t.
  assert (E : forall a, 1 / t - 1 / x < a -> x - t < a * t * x).
  { intros a Ha. apply (Rmult_lt_compat_r (t * x)) in Ha; [|apply Rmult_lt_0_compat; assumption].
    replace ((1 / t - 1 / x) * (t * x)) with (x - t) in Ha by (field; lra). lra. }
  assert (E2 : 0 < x - t).
  { replace (x - t) with ((1 / t - 1 / x) * (t * x)) by (field; lra). apply Rmult_lt_0_compat; [lra|apply Rmult_lt_0_compat; assumption]. }
  pose proof (E _ U) as E3. split; [|lra]. assert (t * (x * x) <= x * (x * x)) by (apply Rmult_le_compat_r; nra). nra.
Qed.

Lemma fjc_vanishes : forall eta, finite eta -> powerRZ 2 (-1000) <= value eta <= / 2 ^ 28 ->
  nearest_double (l_tanh L) tanh eta ->
  finite (@fjc_isotensional.nondimensional_end_to_end_length_per_link float S eta) /\
  value (@fjc_isotensional.nondimensional_end_to_end_length_per_link float S eta) = 0 /\
  0 < langevin (value eta).
Proof.
  intros eta F [H1 H2] [Ft N]. rewrite fjc_unfold.
  assert (P : 0 < value eta) by (rewrite pw in H1; pose proof (bpow_gt_0 radix2 (-1000)); lra).
  assert (E : l_tanh L eta = eta).
  { pose proof (tanh_near _ P) as T. pose proof (N eta F) as D. set (x := value eta) in *. set (t := value (l_tanh L eta)) in *.
    rewrite (Rabs_pos_eq (x - tanh x)) in D by lra. apply abs_bounds in D.
    assert (X : x ^ 3 <= x * / 2 ^ 56).
    { replace (x ^ 3) with (x * (x * x)) by ring. apply Rmult_le_compat_l; [lra|]. replace (/ 2 ^ 56) with (/ 2 ^ 28 * / 2 ^ 28) by (rewrite <- Rinv_mult, <- pow_add; reflexivity).
      apply Rmult_le_compat; lra. }
    assert (K : x * (1 - / 2 ^ 56) <= t <= x * (1 + / 2 ^ 56)) by lra.
    destruct (Rtotal_order t x) as [O|[O|O]].
    - exfalso. apply (apart (l_tanh L eta) eta); fold x t; split || idtac; lra.
    - apply value_inj; fold x t; lra.
    - exfalso. apply (apart eta (l_tanh L eta)); fold x t; split || idtac; lra. }
  rewrite E. destruct (inv_range (value eta)) as [Nz R].
  { rewrite Rabs_pos_eq by lra. split; [exact H1|]. rewrite pw. apply Rle_trans with (bpow radix2 0); [change (bpow radix2 0) with 1; lra|apply bpow_le; lia]. }
  destruct (div_rel one eta finite_one Nz) as [F3 _].
  { rewrite value_one. split; [apply Rle_trans with (bpow radix2 (-1000)); [apply bpow_le; lia|lra]|apply Rle_trans with (bpow radix2 1000); [lra|apply bpow_le; lia]]. }
  destruct (sub_rel _ _ F3 F3) as [F4 [e [_ V]]].
  { rewrite Rminus_eq_0, Rabs_R0. apply bpow_ge_0. }
  split; [exact F4|]. split; [rewrite V; ring|]. apply langevin_pos. exact P.
Qed.

Lemma ln_1p : forall e, Rabs e <= / 2 ^ 20 -> Rabs (ln (1 + e)) <= 101 / 100 * Rabs e.
Proof.
  intros e H. pose proof (abs_bounds _ _ H) as B. assert (P : 0 < 1 + e) by lra.
  assert (U : ln (1 + e) <= e).
  { pose proof (exp_ineq1_le e) as G. rewrite <- (ln_exp e) at 2. destruct (Rle_lt_or_eq_dec _ _ G) as [G'|G'].
    - left. apply ln_increasing; lra.
    - right. f_equal. exact G'. }
  assert (Lo : e / (1 + e) <= ln (1 + e)).
  { pose proof (exp_ineq1_le (- ln (1 + e))) as G. rewrite exp_Ropp, exp_ln in G by exact P.
    replace (e / (1 + e)) with (1 - / (1 + e)) by (field; lra). lra. }
  assert (Q : Rabs (e / (1 + e)) <= 101 / 100 * Rabs e).
  { unfold Rdiv. rewrite Rabs_mult, Rabs_inv, (Rabs_pos_eq (1 + e)) by lra. rewrite (Rmult_comm (101 * / 100)). apply Rmult_le_compat_l; [apply Rabs_pos|].
    replace (101 * / 100) with (/ (100 / 101)) by field. apply Rinv_le; lra. }
  apply abs_bounds in Q. pose proof (abs_bounds e (Rabs e) (Rle_refl _)). apply Rabs_le. lra.
Qed.

Lemma bpow_pow : forall (n : nat) e, bpow radix2 (Z.of_nat n * e) = bpow radix2 e ^ n.
Proof.
  intros n e. induction n as [|n IH]; [reflexivity|]. rewrite Nat2Z.inj_succ. replace (Z.succ (Z.of_nat n) * e)%Z with (Z.of_nat n * e + e)%Z by lia.
  rewrite bpow_plus, IH. simpl. ring.
Qed.

Lemma exp_600 : exp 600 <= bpow radix2 960.
Proof.
  assert (E5 : exp 5 <= 256).
  { replace 5 with (1 + 1 + 1 + 1 + 1) by ring. rewrite !exp_plus. pose proof exp_le_3 as T. pose proof (exp_pos 1) as P. set (x := exp 1) in *. clearbody x.
    assert (x * x <= 9) by nra. assert (0 < x * x) by nra. assert (x * x * x <= 27) by nra. assert (0 < x * x * x) by nra.
    assert (x * x * x * x <= 81) by nra. assert (0 < x * x * x * x) by nra. nra. }
  replace 600 with (INR 120 * 5) by (rewrite INR_IZR_INZ; simpl IZR; ring).
  rewrite PErfc.exp_pow. apply Rle_trans with (256 ^ 120); [apply pow_incr; pose proof (exp_pos 5); lra|].
  change 960%Z with (Z.of_nat 120 * 8)%Z. rewrite bpow_pow. right. f_equal.
Qed.

Lemma cosh_opp : forall x, cosh (- x) = cosh x.
Proof. intro x. unfold cosh. rewrite Ropp_involutive. lra. Qed.

Lemma sinhc_range : forall x, x <> 0 -> Rabs x <= 600 -> 1 <= sinh x / x <= bpow radix2 960.
Proof.
  assert (K : forall x, 0 < x -> x <= 600 -> 1 <= sinh x / x <= bpow radix2 960).
  { intros x H B. pose proof (sinh_gt x H) as G. pose proof (xcosh_gt x H) as U.
    assert (C : cosh x <= exp x).
    { unfold cosh. assert (exp (- x) < exp x) by (apply exp_increasing; lra). lra. }
    assert (E : exp x <= bpow radix2 960).
    { apply Rle_trans with (2 := exp_600). destruct B as [B|B]; [left; apply exp_increasing; exact B|right; rewrite B; reflexivity]. }
    split; apply (Rmult_le_reg_r x); try exact H; unfold Rdiv; rewrite Rmult_assoc, Rinv_l by lra; nra. }
  intros x N B. destruct (Rlt_or_le 0 x) as [H|H].
  - apply K; [exact H|]. rewrite Rabs_pos_eq in B; lra.
  - replace (sinh x / x) with (sinh (- x) / - x) by (rewrite PHyp.sinh_opp; field; exact N).
    apply K; [lra|]. rewrite <- Rabs_Ropp, Rabs_pos_eq in B; lra.
Qed.

Lemma value_opp : forall x, value (- x)%float = - value x.
Proof. intro x. rewrite !value_B2R, opp_equiv. apply B2R_Bopp. Qed.
Lemma finite_opp : forall x, finite x -> finite (- x)%float.
Proof. intro x. rewrite !finite_B, opp_equiv, is_finite_Bopp. exact (fun H => H). Qed.

Lemma gibbs_accuracy : forall d eta, d <= / 2 ^ 20 -> powerRZ 2 (-1000) <= Rabs (value eta) <= 600 ->
  accurate d (l_sinh L) sinh eta -> accurate d (l_ln L) ln (l_sinh L eta / eta)%float ->
  finite (@fjc_isotensional.nondimensional_relative_gibbs_free_energy_per_link float S eta) /\
  Rabs (value (@fjc_isotensional.nondimensional_relative_gibbs_free_energy_per_link float S eta) - - ln (sinh (value eta) / value eta))
    <= 2 * (d + unit_roundoff) * (1 + ln (sinh (value eta) / value eta)).
Proof.
  intros d eta Hd [R1 R2] [Fs As] [Fl Al].
  change (@fjc_isotensional.nondimensional_relative_gibbs_free_energy_per_link float S eta) with (- l_ln L (l_sinh L eta / eta))%float.
  set (x := value eta) in *.
  assert (N : x <> 0). { intro Z0. rewrite Z0, Rabs_R0, pw in R1. pose proof (bpow_gt_0 radix2 (-1000)). lra. }
  destruct (sinhc_range x N R2) as [S1 S2]. set (s := sinh x / x) in *.
  destruct (relative_form _ _ _ (PHyp.sinh_neq_0 x N) As) as [e1 [E1 V1]].
  pose proof (abs_bounds _ _ E1) as B1.
  assert (Q : value (l_sinh L eta) / value eta = s * (1 + e1)) by (rewrite V1; fold x; unfold s; field; exact N).
  destruct (div_rel (l_sinh L eta) eta Fs N) as [F2 [e2 [E2 V2]]].
  { rewrite Q, Rabs_pos_eq by nra. split.
    - apply Rle_trans with (bpow radix2 (-1)); [apply bpow_le; lia|change (bpow radix2 (-1)) with (/ 2); nra].
    - apply Rle_trans with (bpow radix2 (960 + 1)); [rewrite bpow_S; nra|apply bpow_le; lia]. }
  rewrite Q in V2.
  assert (U : 0 < unit_roundoff <= / 2 ^ 50) by (unfold unit_roundoff; lra).
  pose proof (abs_bounds _ _ E2) as B2.
  rewrite V2 in Al. assert (s0 : 0 < s) by lra. assert (s1 : 0 < 1 + e1) by lra. assert (s2 : 0 < 1 + e2) by lra. pose proof (Rmult_lt_0_compat s (1 + e1) s0 s1) as s3.
  rewrite (ln_mult (s * (1 + e1)) (1 + e2) s3 s2), (ln_mult s (1 + e1) s0 s1) in Al.
  pose proof (ln_1p e1) as L1. pose proof (ln_1p e2) as L2.
  assert (W1 : Rabs (ln (1 + e1)) <= 101 / 100 * d) by (apply Rle_trans with (101 / 100 * Rabs e1); [apply L1; lra|lra]).
  assert (W2 : Rabs (ln (1 + e2)) <= 101 / 100 * unit_roundoff) by (apply Rle_trans with (101 / 100 * Rabs e2); [apply L2; lra|lra]).
  split; [apply finite_opp; exact Fl|]. rewrite value_opp.
  assert (P : 0 <= ln s). { rewrite <- ln_1. destruct S1 as [S1|S1]; [left; apply ln_increasing; lra|right; rewrite S1; reflexivity]. }
  set (g := value (l_ln L (l_sinh L eta / eta)%float)) in *. set (w1 := ln (1 + e1)) in *. set (w2 := ln (1 + e2)) in *. set (l := ln s) in *.
  replace (- g - - l) with (- ((g - (l + w1 + w2)) + (w1 + w2))) by ring. rewrite Rabs_Ropp.
  eapply Rle_trans; [apply Rabs_triang|].
  assert (W : Rabs (w1 + w2) <= 101 / 100 * (d + unit_roundoff)) by (eapply Rle_trans; [apply Rabs_triang|lra]).
  assert (G : Rabs (l + w1 + w2) <= l + 101 / 100 * (d + unit_roundoff)).
  { rewrite Rplus_assoc. eapply Rle_trans; [apply Rabs_triang|]. rewrite (Rabs_pos_eq l) by exact P. lra. }
  pose proof (Rabs_pos e1) as dp. assert (Gd : d * Rabs (l + w1 + w2) <= d * (l + 101 / 100 * (d + unit_roundoff))) by (apply Rmult_le_compat_l; lra).
  set (u := unit_roundoff) in *. clearbody u g w1 w2 l. assert (d * (d + u) <= / 2 ^ 20 * (d + u)) by (apply Rmult_le_compat_r; lra).
  assert (Z1 : 0 <= u * l) by (apply Rmult_le_pos; lra). assert (Z2 : 0 <= d * l) by (apply Rmult_le_pos; lra).
  replace (d * (l + 101 / 100 * (d + u))) with (d * l + 101 / 100 * (d * (d + u))) in Gd by ring.
  replace (2 * (d + u) * (1 + l)) with (2 * (d + u) + 2 * (d * l) + 2 * (u * l)) by ring.
  apply Rle_trans with (d * l + 101 / 100 * (d * (d + u)) + 101 / 100 * (d + u)); [apply Rplus_le_compat; [apply Rle_trans with (1 := Al); exact Gd|exact W]|]. lra.
Qed.

(** A positive double is a finite number with a positive sign, or infinity. *)
Lemma pos_form : forall x, 0 < value x -> exists m e, Prim2SF x = S754_finite false m e.
Proof.
  intros x H. unfold value in H. destruct (Prim2SF x) as [s|s| |s m e]; try lra. destruct s; [|exists m, e; reflexivity].
  exfalso. assert (0 < IZR (Zpos m) * powerRZ 2 e) by (apply Rmult_lt_0_compat; [apply IZR_lt; reflexivity|apply powerRZ_lt; lra]). lra.
Qed.

Lemma sf_inf : Prim2SF infinity = S754_infinity false.
Proof. vm_compute. reflexivity. Qed.

Lemma inf_div : forall x, 0 < value x -> (infinity / x)%float = infinity.
Proof.
  intros x H. destruct (pos_form x H) as (m & e & E). apply Prim2SF_inj. rewrite div_spec, sf_inf, E. reflexivity.
Qed.

Lemma exp_720 : 2 * bpow radix2 1024 + 1 <= exp 720.
Proof.
  assert (A : 65 / 64 <= exp (1 / 64)) by (pose proof (exp_ineq1_le (1 / 64)); lra).
  assert (B : 10639 / 10000 <= exp (1 / 16)).
  { replace (1 / 16) with (1 / 64 + 1 / 64 + (1 / 64 + 1 / 64)) by field. rewrite !exp_plus. set (x := exp (1 / 64)) in *. clearbody x.
    assert (65 / 64 * (65 / 64) <= x * x) by (apply Rmult_le_compat; lra).
    assert (65 / 64 * (65 / 64) * (65 / 64 * (65 / 64)) <= x * x * (x * x)) by (apply Rmult_le_compat; lra). lra. }
  assert (C : 12811 / 10000 <= exp (1 / 4)).
  { replace (1 / 4) with (1 / 16 + 1 / 16 + (1 / 16 + 1 / 16)) by field. rewrite !exp_plus. set (x := exp (1 / 16)) in *. clearbody x.
    assert (10639 / 10000 * (10639 / 10000) <= x * x) by (apply Rmult_le_compat; lra).
    assert (10639 / 10000 * (10639 / 10000) * (10639 / 10000 * (10639 / 10000)) <= x * x * (x * x)) by (apply Rmult_le_compat; lra). lra. }
  assert (D : 269 / 100 <= exp 1).
  { replace 1 with (1 / 4 + 1 / 4 + (1 / 4 + 1 / 4)) by field. rewrite !exp_plus. set (x := exp (1 / 4)) in *. clearbody x.
    assert (12811 / 10000 * (12811 / 10000) <= x * x) by (apply Rmult_le_compat; lra).
    assert (12811 / 10000 * (12811 / 10000) * (12811 / 10000 * (12811 / 10000)) <= x * x * (x * x)) by (apply Rmult_le_compat; lra). lra. }
  assert (T : bpow radix2 14 * (6 / 5) <= exp 1 ^ 10).
  { change (bpow radix2 14) with 16384. apply Rle_trans with ((269 / 100) ^ 10); [lra | apply pow_incr; lra]. }
  assert (F : 2 ^ 18 <= (6 / 5) ^ 72) by (replace 72%nat with (4 * 18)%nat by reflexivity; rewrite pow_mult; apply pow_incr; lra).
  assert (U : bpow radix2 1008 * (6 / 5) ^ 72 <= exp 720).
  { replace 720 with (INR 720 * 1) by (rewrite INR_IZR_INZ; simpl IZR; ring). rewrite PErfc.exp_pow.
    replace 720%nat with (10 * 72)%nat by reflexivity. rewrite pow_mult. change 1008%Z with (Z.of_nat 72 * 14)%Z. rewrite bpow_pow, <- Rpow_mult_distr.
    apply pow_incr. split; [|exact T]. pose proof (bpow_gt_0 radix2 14). lra. }
  assert (W : bpow radix2 1024 = bpow radix2 1008 * 2 ^ 16) by (change 1024%Z with (1008 + 16)%Z; rewrite bpow_plus; f_equal; change (bpow radix2 16) with 65536; lra).
  assert (O : 1 <= bpow radix2 1008) by (change 1 with (bpow radix2 0); apply bpow_le; lia).
  rewrite W. assert (bpow radix2 1008 * 2 ^ 18 <= bpow radix2 1008 * (6 / 5) ^ 72) by (apply Rmult_le_compat_l; lra). lra.
Qed.

Lemma sinh_720 : forall x, 720 <= x -> bpow radix2 1024 <= sinh x.
Proof.
  intros x H. pose proof exp_720 as E. unfold sinh.
  assert (exp 720 <= exp x) by (destruct H as [H|H]; [left; apply exp_increasing; exact H|right; rewrite H; reflexivity]).
  assert (exp (- x) <= 1) by (rewrite <- exp_0; left; apply exp_increasing; lra). lra.
Qed.

Lemma gibbs_overflow : (forall x, finite x -> powerRZ 2 1024 <= sinh (value x) -> l_sinh L x = infinity) ->
  l_ln L infinity = infinity -> forall eta, finite eta -> 720 <= value eta ->
  @fjc_isotensional.nondimensional_relative_gibbs_free_energy_per_link float S eta = neg_infinity /\
  - value eta <= - ln (sinh (value eta) / value eta) <= 0.
Proof.
  intros Hs Hl eta F H. split.
  - change (@fjc_isotensional.nondimensional_relative_gibbs_free_energy_per_link float S eta) with (- l_ln L (l_sinh L eta / eta))%float.
    rewrite Hs, inf_div, Hl; [vm_compute; reflexivity|lra|exact F|]. rewrite pw. apply sinh_720. exact H.
  - set (x := value eta) in *. assert (P : 0 < x) by lra. pose proof (sinh_gt x P) as G. pose proof (PHyp.sinh_pos x P) as G0.
    assert (Q : 1 <= sinh x / x) by (apply (Rmult_le_reg_r x); [exact P|]; unfold Rdiv; rewrite Rmult_assoc, Rinv_l by lra; lra).
    assert (U : sinh x / x <= exp x).
    { apply Rle_trans with (sinh x / 1).
      - unfold Rdiv. apply Rmult_le_compat_l; [lra|]. apply Rinv_le; lra.
      - unfold sinh. pose proof (exp_pos x). pose proof (exp_pos (- x)). lra. }
    split.
    + apply Ropp_le_contravar. apply Rle_trans with (ln (exp x)); [|rewrite ln_exp; lra]. destruct U as [U|U]; [left; apply ln_increasing; lra|right; rewrite U; reflexivity].
    + rewrite <- Ropp_0. apply Ropp_le_contravar. rewrite <- ln_1. destruct Q as [Q|Q]; [left; apply ln_increasing; lra|right; rewrite <- Q; reflexivity].
Qed.

Lemma nan_div_r : forall y, (y / nan = nan)%float.
Proof. intro y. apply Prim2SF_inj. rewrite div_spec, sf_nan. destruct (Prim2SF y); reflexivity. Qed.

Lemma pos_mul_inf : forall p, (0 <? p)%float = true -> (p * infinity = infinity)%float.
Proof.
  intros p H. apply Prim2SF_inj. rewrite mul_spec, sf_inf. rewrite ltb_spec in H.
  replace (Prim2SF 0%float) with (S754_zero false) in H by (vm_compute; reflexivity).
  destruct (Prim2SF p) as [s|[]| |[] m e]; try discriminate H; reflexivity.
Qed.

Lemma swfjc_overflow : forall l w eta, let p := ((1 + w / l) * eta)%float in
  (0 <? p)%float = true -> l_sinh L p = infinity -> l_cosh L p = infinity ->
  @swfjc_isotensional.nondimensional_end_to_end_length_per_link float S l w eta = nan.
Proof.
  intros l w eta p P Hs Hc. unfold swfjc_isotensional.nondimensional_end_to_end_length_per_link. cbv zeta.
  cbn [sadd ssub smul sdiv ssinh scosh sdec spowi F64]. rewrite float_dec_1. change one with 1%float. fold p.
  rewrite Hs, Hc, (pos_mul_inf p P).
  replace (infinity - infinity)%float with nan by (vm_compute; reflexivity).
  rewrite nan_sub_l, nan_add_l, nan_div_r, nan_sub_l. reflexivity.
Qed.

End Lib.
