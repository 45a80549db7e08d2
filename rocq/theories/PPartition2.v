(** The Gibbs free energies computed by quadrature, and that of an ideal chain. *)
From Coq Require Import Reals ZArith Lra Lia Psatz List.
From Coquelicot Require Import Coquelicot.
From Verif Require Import Scalar MMath MConst MIdeal MMorse MLennardJones MLogSquared.
From Verif Require Import SpecPartition SpecInverse SpecGauss PBase PHyp PQuad PPartition PIdealDist PLaplace.
Import ListNotations.
Open Scope R_scope.

Lemma Rsum_zrange : forall (f : Z -> R) n, Rsum (map f (zrange 0 (Z.of_nat (S n)))) = sum_f_R0 (fun i => f (Z.of_nat i)) n.
Proof.
  intros f n. induction n as [|n IH].
  - simpl. ring.
  - replace (Z.of_nat (S (S n))) with (Z.of_nat (S n) + 1)%Z by lia. rewrite zrange_0_succ by lia. rewrite map_app, Rsum_app, IH. cbn [sum_f_R0 map]. generalize (f (Z.of_nat (S n))). intro y. simpl. ring.
Qed.
Lemma integrate_midpoint : forall f a b (n : nat), (0 < n)%nat -> math.integrate_1d f a b (Z.of_nat n) = midpoint_rule f a b n.
Proof.
  intros f a b n Hn. destruct n as [|n]; [lia |]. rewrite integrate_1d_R. unfold midpoint_rule.
  rewrite Rsum_zrange. rewrite <- !INR_IZR_INZ. replace (S n - 1)%nat with n by lia.
  rewrite Rmult_comm. f_equal. apply sum_eq. intros i _. rewrite midpoint_R, <- INR_IZR_INZ. f_equal. ring.
Qed.

Lemma integrand : forall (u : R -> R) eta s, 0 < eta -> 0 < s ->
  exp (eta * s - u s + ln s - ln eta) - exp (eta * s - u s + ln s - ln eta - 2 * eta * s) = 2 * link_weight u eta s.
Proof.
  intros u eta s He Hs. rewrite weight_value by lra. unfold sinh.
  replace (eta * s - u s + ln s - ln eta) with (eta * s + (- u s + (ln s - ln eta))) by ring.
  replace (eta * s + (- u s + (ln s - ln eta)) - 2 * eta * s) with (- (eta * s) + (- u s + (ln s - ln eta))) by ring.
  rewrite !exp_plus. unfold Rminus. rewrite !exp_plus, (exp_Ropp (ln eta)), !exp_ln by assumption. field. lra.
Qed.

Lemma midpoint_ext : forall f g a b n, (0 < n)%nat -> a < b -> (forall x, a < x < b -> f x = 2 * g x) -> midpoint_rule f a b n = 2 * midpoint_rule g a b n.
Proof.
  intros f g a b n Hn Hab H. assert (Pn : 0 < INR n) by (apply lt_0_INR; exact Hn). unfold midpoint_rule.
  replace (2 * ((b - a) / INR n * sum_f_R0 (fun i => g (a + (INR i + 1 / 2) * ((b - a) / INR n))) (n - 1)))
    with ((b - a) / INR n * (2 * sum_f_R0 (fun i => g (a + (INR i + 1 / 2) * ((b - a) / INR n))) (n - 1))) by ring.
  f_equal. rewrite scal_sum. apply sum_eq. intros i Hi. rewrite H; [ring |].
  assert (D : 0 < (b - a) / INR n) by (apply Rdiv_lt_0_compat; lra). assert (E : INR n * ((b - a) / INR n) = b - a) by (field; lra).
  pose proof (pos_INR i). assert (I1 : INR i + 1 <= INR n) by (rewrite <- S_INR; apply le_INR; lia). nra.
Qed.

Lemma quadrature_gibbs : forall (u : R -> R) eta smax l m T, 0 < eta -> 1 <= smax ->
  - ln (math.integrate_1d (fun s => exp (eta * s - u s + ln s - ln eta) - exp (eta * s - u s + ln s - ln eta - 2 * eta * s)) (1 / 10 ^ 6) smax 64) - hinge_term l m T
  = - ln (2 * midpoint_rule (link_weight u eta) (1 / 10 ^ 6) smax 64) - hinge_term l m T.
Proof.
  intros u eta smax l m T He Hs. change 64%Z with (Z.of_nat 64). rewrite integrate_midpoint by lia.
  f_equal. f_equal. f_equal. apply midpoint_ext; [lia | lra |]. intros x Hx. apply integrand; lra.
Qed.

Lemma morse_gibbs : forall l m T kap eps eta, 0 < kap -> 0 < eps -> 0 < eta ->
  morse_isotensional.nondimensional_gibbs_free_energy_per_link l m kap eps eta T
  = - ln (2 * midpoint_rule (link_weight (morse_potential kap eps) eta) (1 / 10 ^ 6) (1 + ln 2 / sqrt (kap / eps / 2)) 64) - hinge_term l m T.
Proof.
  intros l m T kap eps eta Hk He Hn.
  assert (S : 0 < sqrt (kap / eps / 2)) by (apply sqrt_lt_R0; apply Rdiv_lt_0_compat; [apply Rdiv_lt_0_compat; assumption | lra]).
  assert (L : 0 < ln 2) by (rewrite <- ln_1; apply ln_increasing; lra).
  rewrite <- quadrature_gibbs; [| exact Hn | assert (0 < ln 2 / sqrt (kap / eps / 2)) by (apply Rdiv_lt_0_compat; assumption); lra].
  unfold morse_potential. replace (kap / (2 * eps)) with (kap / eps / 2) by (field; lra).
  unfold hinge_term. rewrite <- B_eq, <- H_eq. replace (1 / 10 ^ 6) with (1 / 1000000) by field. reflexivity.
Qed.
Lemma log_squared_gibbs : forall l m T kap eta, 0 < eta ->
  log_squared_isotensional.nondimensional_gibbs_free_energy_per_link l m kap eta T
  = - ln (2 * midpoint_rule (link_weight (log_squared_potential kap) eta) (1 / 10 ^ 6) (exp 1) 64) - hinge_term l m T.
Proof.
  intros l m T kap eta Hn. rewrite <- quadrature_gibbs; [| exact Hn | pose proof (exp_ineq1_le 1); lra].
  unfold log_squared_potential. replace (kap / 2) with (5 / 10 * kap) by field.
  unfold hinge_term. rewrite <- B_eq, <- H_eq. replace (1 / 10 ^ 6) with (1 / 1000000) by field. reflexivity.
Qed.
Lemma lennard_jones_gibbs : forall l m T kap eta, 0 < eta ->
  lennard_jones_isotensional.nondimensional_gibbs_free_energy_per_link l m kap eta T
  = - ln (2 * midpoint_rule (link_weight (lennard_jones_potential kap) eta) (1 / 10 ^ 6) (Rpower (13 / 7) (1 / 6)) 64) - hinge_term l m T.
Proof.
  intros l m T kap eta Hn. rewrite <- quadrature_gibbs; [| exact Hn |].
  - unfold lennard_jones_potential. unfold hinge_term. rewrite <- B_eq, <- H_eq. replace (1 / 10 ^ 6) with (1 / 1000000) by field.
    rewrite <- Rpowf_pos by lra. reflexivity.
  - unfold Rpower. assert (0 < ln (13 / 7)) by (rewrite <- ln_1; apply ln_increasing; lra). pose proof (exp_ineq1_le (1 / 6 * ln (13 / 7))). lra.
Qed.

(** The ideal chain: its links have Gaussian lengths of unit mean square. *)
Lemma ideal_gibbs : forall l m T eta, 0 < eta -> exists Z Z0, 0 < Z /\ 0 < Z0 /\
  half_line_integral (link_weight (fun s => 3 / 2 * s ^ 2) eta) Z /\ half_line_integral (link_weight (fun s => 3 / 2 * s ^ 2) 0) Z0 /\
  ideal_isotensional.nondimensional_gibbs_free_energy_per_link l m eta T = - ln (Z / Z0) - hinge_term l m T.
Proof.
  intros l m T eta He. pose proof (sqrt_lt_R0 PI PI_RGT_0) as Sp. pose proof (sqrt_lt_R0 (3 / 2) ltac:(lra)) as Sc.
  set (k := 4 / sqrt PI * (3 / 2) * sqrt (3 / 2)). assert (Pk : 0 < k) by (unfold k; repeat apply Rmult_lt_0_compat; try lra; apply Rinv_0_lt_compat; lra).
  assert (G : forall x, half_line_integral (link_weight (fun s => 3 / 2 * s ^ 2) x) (/ k * exp (x ^ 2 / 6))).
  { intro x. destruct (maxwell_laplace (3 / 2) x ltac:(lra)) as (I & L).
    apply (half_line_ext (fun s => / k * (maxwell (3 / 2) s * angular_average (x * s)))).
    { intro s. rewrite maxwell_eq by lra. fold k. unfold link_weight. replace (- (3 / 2 * s ^ 2)) with (- (3 / 2) * s ^ 2) by ring. field. lra. }
    split; [intros y Hy; apply (ex_RInt_scal (V := R_NormedModule)); apply I; exact Hy |].
    apply (is_lim_ext_loc (fun y => / k * RInt (fun s => maxwell (3 / 2) s * angular_average (x * s)) 0 y)).
    { exists 0. intros y Hy. symmetry. apply (RInt_scal (V := R_CompleteNormedModule)). apply I. exact Hy. }
    replace (x ^ 2 / 6) with (x ^ 2 / (4 * (3 / 2))) by field.
    change (Finite (/ k * exp (x ^ 2 / (4 * (3 / 2))))) with (Rbar_mult (/ k) (exp (x ^ 2 / (4 * (3 / 2))))).
    apply is_lim_scal_l. exact L. }
  assert (Pi : 0 < / k) by (apply Rinv_0_lt_compat; exact Pk).
  exists (/ k * exp (eta ^ 2 / 6)), (/ k * exp (0 ^ 2 / 6)).
  split; [apply Rmult_lt_0_compat; [exact Pi | apply exp_pos] |]. split; [apply Rmult_lt_0_compat; [exact Pi | apply exp_pos] |].
  split; [apply G |]. split; [apply G |].
  replace (/ k * exp (eta ^ 2 / 6) / (/ k * exp (0 ^ 2 / 6))) with (exp (eta ^ 2 / 6)).
  2:{ replace (0 ^ 2 / 6) with 0 by field. rewrite exp_0. field. lra. }
  rewrite ln_exp. unfold hinge_term. rewrite <- B_eq, <- H_eq.
  change (- eta ^ 2 / 6 - ln (8 * PI ^ 2 * m * l ^ 2 * BOLTZMANN_CONSTANT * T / PLANCK_CONSTANT ^ 2) = - (eta ^ 2 / 6) - ln (8 * PI ^ 2 * m * l ^ 2 * BOLTZMANN_CONSTANT * T / PLANCK_CONSTANT ^ 2)). unfold Rdiv. ring.
Qed.
