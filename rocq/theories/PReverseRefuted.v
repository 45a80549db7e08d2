(** Chain models that lose mirror symmetry. *)
From Coq Require Import Reals ZArith List Bool Lra Lia Psatz.
From Coquelicot Require Import Coquelicot.
From Verif Require Import Scalar MMath MConst MEfjc MMorse.
From Verif Require Import PBase PHyp PErfc PReverse.
From Verif Require PEfjcExact.
Open Scope R_scope.

(** ** Morse links: only the pulled side of the well is inverted *)
Lemma log_pair : forall u, 0 < u < 1 -> 0 < ln (2 / (1 + sqrt (1 - u))) + ln (2 / (1 + sqrt (1 - - u))).
Proof.
  intros u Hu. replace (1 - - u) with (1 + u) by ring.
  pose proof (sqrt_lt_R0 (1 - u) ltac:(lra)) as S. pose proof (sqrt_lt_R0 (1 + u) ltac:(lra)) as T.
  pose proof (sqrt_sqrt (1 - u) ltac:(lra)) as S2. pose proof (sqrt_sqrt (1 + u) ltac:(lra)) as T2.
  set (s := sqrt (1 - u)) in *. set (t := sqrt (1 + u)) in *. clearbody s t.
  rewrite <- ln_mult by (apply Rdiv_lt_0_compat; lra). rewrite <- ln_1. apply ln_increasing; [lra|].
  apply Rmult_lt_reg_r with ((1 + s) * (1 + t)); [apply Rmult_lt_0_compat; lra|].
  replace (2 / (1 + s) * (2 / (1 + t)) * ((1 + s) * (1 + t))) with 4 by (field; lra).
  assert (0 < (s - t) * (s - t)) by (apply Rsqr_pos_lt; intro; assert (s = t) by lra; subst; lra). nra.
Qed.

Lemma morse_reduced : forall k e x, 0 < k -> 0 < e -> 0 < x < sqrt (e * k / 8) ->
  - morse_isotensional_asymptotic_reduced.nondimensional_end_to_end_length_per_link k e x <
  morse_isotensional_asymptotic_reduced.nondimensional_end_to_end_length_per_link k e (- x).
Proof.
  intros k e x Hk He Hx. unfold morse_isotensional_asymptotic_reduced.nondimensional_end_to_end_length_per_link.
  change (- (1 / tanh x - 1 / x + sqrt (2 * e / k) * ln (2 / (1 + sqrt (1 - x / sqrt (e * k / 8))))) <
    1 / tanh (- x) - 1 / - x + sqrt (2 * e / k) * ln (2 / (1 + sqrt (1 - - x / sqrt (e * k / 8))))).
  set (w := sqrt (e * k / 8)) in *.
  assert (U : 0 < x / w < 1). { split; [apply Rdiv_lt_0_compat; lra|]. apply Rmult_lt_reg_r with w; [lra|]. unfold Rdiv. rewrite Rmult_assoc, Rinv_l, Rmult_1_r by lra. lra. }
  replace (- x / w) with (- (x / w)) by (unfold Rdiv; ring). pose proof (log_pair _ U) as P.
  set (a := ln _) in *. set (b := ln (2 / (1 + sqrt (1 - - (x / w))))) in *. clearbody a b.
  assert (C : 0 < sqrt (2 * e / k)) by (apply sqrt_lt_R0, Rdiv_lt_0_compat; lra).
  rewrite tanh_opp. unfold Rdiv. rewrite !inv_opp. nra.
Qed.

Lemma morse_asymptotic : forall k e x, 0 < k -> 0 < e -> 0 < x < sqrt (e * k / 8) ->
  - morse_isotensional_asymptotic.nondimensional_end_to_end_length_per_link k e x <
  morse_isotensional_asymptotic.nondimensional_end_to_end_length_per_link k e (- x).
Proof.
  intros k e x Hk He Hx. unfold morse_isotensional_asymptotic.nondimensional_end_to_end_length_per_link. cbv zeta.
  change (- (1 / tanh x - 1 / x + x / k * ((tanh x - 1 / tanh x + 1 / x) / (tanh x / (1 + 15 / 10 * sqrt (k / e / 2)) + x / k)) + ln (2 / (1 + sqrt (1 - x / sqrt (e * k / 8)))) / sqrt (k / e / 2)) <
    1 / tanh (- x) - 1 / - x + - x / k * ((tanh (- x) - 1 / tanh (- x) + 1 / - x) / (tanh (- x) / (1 + 15 / 10 * sqrt (k / e / 2)) + - x / k)) + ln (2 / (1 + sqrt (1 - - x / sqrt (e * k / 8)))) / sqrt (k / e / 2)).
  set (w := sqrt (e * k / 8)) in *.
  assert (U : 0 < x / w < 1). { split; [apply Rdiv_lt_0_compat; lra|]. apply Rmult_lt_reg_r with w; [lra|]. unfold Rdiv. rewrite Rmult_assoc, Rinv_l, Rmult_1_r by lra. lra. }
  replace (- x / w) with (- (x / w)) by (unfold Rdiv; ring). pose proof (log_pair _ U) as P.
  set (a := ln _) in *. set (b := ln (2 / (1 + sqrt (1 - - (x / w))))) in *. clearbody a b.
  assert (C : 0 < / sqrt (k / e / 2)) by (apply Rinv_0_lt_compat, sqrt_lt_R0, Rdiv_lt_0_compat; [apply Rdiv_lt_0_compat|]; lra).
  rewrite tanh_opp. set (p := sqrt (k / e / 2)) in *. clearbody p.
  replace (- tanh x / (1 + 15 / 10 * p) + - x / k) with (- (tanh x / (1 + 15 / 10 * p) + x / k)) by (unfold Rdiv; ring).
  set (q := tanh x / (1 + 15 / 10 * p) + x / k).
  unfold Rdiv. rewrite !inv_opp. nra.
Qed.

(** ** The exact extension of the extensible chain: one error function is missing *)
Section Exact.
Variable k : R.
Hypothesis Hk : 1 / 2 <= k <= 16.
Let x := k + 1.
Let ext := @efjc_isotensional.nondimensional_end_to_end_length_per_link R R_scalar.
Let asym := @efjc_isotensional_asymptotic.nondimensional_end_to_end_length_per_link R R_scalar.
Let s := sqrt (2 * k).

Lemma s_range : 1 <= s /\ s * s = 2 * k /\ s <= 58 / 10.
Proof.
  assert (Q : s * s = 2 * k) by (apply sqrt_sqrt; lra). assert (P : 0 <= s) by apply sqrt_pos. repeat split; [nra|exact Q|].
  destruct (Rle_dec s (58 / 10)); [assumption|nra].
Qed.
Lemma args : 0 < (x + k) / s <= 61 / 10 /\ 0 < (x - k) / s <= 61 / 10.
Proof.
  destruct s_range as (A & B & C). unfold x.
  assert (Q : 0 <= (s - 1) * (58 / 10 - s)) by (apply Rmult_le_pos; lra).
  assert (D : forall y, 0 < y -> y <= 61 / 10 * s -> 0 < y / s <= 61 / 10).
  { intros y Hy L. split; [apply Rdiv_lt_0_compat; lra|]. apply Rmult_le_reg_r with s; [lra|]. unfold Rdiv. rewrite Rmult_assoc, Rinv_l, Rmult_1_r by lra. exact L. }
  split; apply D; lra.
Qed.

Let c := sqrt (2 / PI / k).
Let D (y : R) : R := 4 * sinh y * (1 + y / tanh y / k).
Let F (y : R) : R := ((y / k + 1) * exp y * math.erf ((y + k) / s) - (y / k - 1) / exp y * math.erf ((y - k) / s)) / D y.
Let A (y : R) : R := exp y * (c * (y / k + 1) * exp (- (y + k) ^ 2 / 2 / k) + (1 + (1 + y) / k))
  - 1 / exp y * (c * (y / k - 1) * exp (- (y - k) ^ 2 / 2 / k) + (1 + (1 - y) / k) * math.erf ((y - k) / s)).
Let B (y : R) : R := 4 * (cosh y * (1 + (1 + y / tanh y) / k) - y / k / sinh y).

Lemma ext_parts : forall y, ext k y = asym k y + (A y - F y * B y) / D y / (1 + F y).
Proof. intro y. reflexivity. Qed.

Lemma asym_opp : forall y, asym k (- y) = - asym k y.
Proof. intro y. unfold asym, efjc_isotensional_asymptotic.nondimensional_end_to_end_length_per_link. to_R. flip. ring. Qed.
Lemma D_opp : forall y, D (- y) = - D y.
Proof. intro y. unfold D. flip. ring. Qed.
Lemma B_opp : forall y, B (- y) = B y.
Proof. intro y. unfold B. flip. ring. Qed.
Lemma F_opp : F (- x) = F x.
Proof.
  destruct args as [U V].
  pose proof (erf_odd ((x + k) / s) ltac:(lra)) as O1. pose proof (erf_odd ((x - k) / s) ltac:(lra)) as O2.
  unfold F. rewrite D_opp.
  replace ((- x + k) / s) with (- ((x - k) / s)) by (unfold Rdiv; ring).
  replace ((- x - k) / s) with (- ((x + k) / s)) by (unfold Rdiv; ring). rewrite O1, O2, exp_Ropp.
  unfold Rdiv. rewrite inv_opp, Rinv_inv. ring.
Qed.
Lemma A_opp : A x - A (- x) = exp x * (1 + (1 + x) / k) * (1 - math.erf ((x + k) / s)).
Proof.
  destruct args as [U V]. destruct s_range as (S1 & _ & _).
  pose proof (erf_odd ((x + k) / s) ltac:(lra)) as O1.
  unfold A.
  replace ((- x - k) / s) with (- ((x + k) / s)) by (unfold Rdiv; ring). rewrite O1, exp_Ropp.
  replace ((- x - k) ^ 2) with ((x + k) ^ 2) by ring. replace ((- x + k) ^ 2) with ((x - k) ^ 2) by ring.
  replace (1 + (1 - x) / k) with 0 by (unfold x; field; lra). replace (1 + (1 + - x) / k) with 0 by (unfold x; field; lra).
  pose proof (exp_pos x). unfold Rdiv. rewrite Rinv_inv. ring.
Qed.

Lemma exact_reverse : - ext k x < ext k (- x).
Proof.
  destruct args as [U V]. pose proof (erf_positive _ (proj1 U)) as P1. pose proof (erf_positive _ (proj1 V)) as P2.
  assert (X : 0 < x) by (unfold x; lra).
  pose proof (PEfjcExact.fraction_code k x ltac:(lra) X) as FC.
  pose proof (PEfjcExact.den_code k x ltac:(lra) X) as DC. pose proof (PEfjcExact.den_pos k x ltac:(lra) X) as DP.
  unfold PEfjcExact.e1, PEfjcExact.e2 in FC. fold s in FC. change (F x = PEfjcExact.num k x / PEfjcExact.den k x) in FC. change (D x = PEfjcExact.den k x) in DC.
  assert (FP : 0 < 1 + F x).
  { rewrite FC. apply Rmult_lt_reg_r with (PEfjcExact.den k x); [exact DP|].
    replace ((1 + PEfjcExact.num k x / PEfjcExact.den k x) * PEfjcExact.den k x) with (PEfjcExact.den k x + PEfjcExact.num k x) by (field; lra).
    rewrite Rmult_0_l. unfold PEfjcExact.num, PEfjcExact.den, PEfjcExact.e1, PEfjcExact.e2. fold s.
    set (r1 := math.erf ((x + k) / s)) in *. set (r2 := math.erf ((x - k) / s)) in *.
    assert (W : 1 < x / k) by (apply Rmult_lt_reg_r with k; [lra|]; unfold Rdiv; rewrite Rmult_assoc, Rinv_l by lra; unfold x; lra).
    assert (EL : 0 < (1 + x / k) * exp x) by (apply Rmult_lt_0_compat; [lra|apply exp_pos]).
    assert (EM : 0 < (x / k - 1) * exp (- x)) by (apply Rmult_lt_0_compat; [lra|apply exp_pos]). nra. }
  rewrite !ext_parts, asym_opp, D_opp, B_opp, F_opp.
  assert (Q : 0 < (A x - A (- x)) / D x / (1 + F x)).
  { apply Rdiv_lt_0_compat; [|exact FP]. apply Rdiv_lt_0_compat; [|rewrite DC; exact DP]. rewrite A_opp.
    apply Rmult_lt_0_compat; [|lra]. apply Rmult_lt_0_compat; [apply exp_pos|]. assert (0 < (1 + x) / k) by (apply Rdiv_lt_0_compat; lra). lra. }
  replace ((A (- x) - F x * B x) / - D x / (1 + F x)) with ((A x - A (- x)) / D x / (1 + F x) - (A x - F x * B x) / D x / (1 + F x)) by (unfold Rdiv; rewrite inv_opp; ring).
  lra.
Qed.
End Exact.
