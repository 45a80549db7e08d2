(** The isotensional Gibbs free energies as logarithms of link partition functions. *)
From Coq Require Import Reals ZArith Lra Lia Psatz.
From Coquelicot Require Import Coquelicot.
From Verif Require Import Scalar MMath MConst MIdeal MFjc MSwfjc MEfjc.
From Verif Require Import SpecPartition SpecInverse SpecGauss SpecErf PBase PHyp PGauss PErf PErfc PIdealDist PConj.
Open Scope R_scope.

(** ** Directions *)
Lemma angular_value : forall x, x <> 0 -> angular_average x = sinh x / x.
Proof.
  intros x Hx. unfold angular_average.
  assert (D : forall c, is_derive (fun c => exp (x * c) / x) c (exp (x * c))).
  { intro c. auto_derive; [exact I | field; exact Hx]. }
  assert (I : is_RInt (fun c => exp (x * c)) (-1) 1 (exp (x * 1) / x - exp (x * -1) / x)).
  { apply (is_RInt_derive (V := R_CompleteNormedModule) (fun c => exp (x * c) / x) (fun c => exp (x * c))).
    - intros c _. apply D.
    - intros c _. apply (ex_derive_continuous (V := R_NormedModule)). auto_derive. exact I. }
  rewrite (is_RInt_unique (V := R_CompleteNormedModule) _ _ _ _ I).
  unfold sinh. replace (x * 1) with x by ring. replace (x * -1) with (- x) by ring. field. exact Hx.
Qed.

Lemma weight_value : forall u eta s, eta <> 0 -> link_weight u eta s = s * sinh (eta * s) / eta * exp (- u s).
Proof.
  intros u eta s He. unfold link_weight. destruct (Req_dec s 0) as [-> | Hs].
  - replace (eta * 0) with 0 by ring. rewrite sinh_0. unfold Rdiv. ring.
  - rewrite angular_value by (apply Rmult_integral_contrapositive; split; assumption). field. split; assumption.
Qed.

(** ** Rigid links *)
Lemma fjc_gibbs : forall l m T eta, 0 < eta ->
  fjc_isotensional.nondimensional_gibbs_free_energy_per_link l m eta T = - ln (angular_average eta) - hinge_term l m T.
Proof. intros l m T eta He. rewrite angular_value by lra. unfold hinge_term. unR. rewrite ?B_eq, ?H_eq. reflexivity. Qed.

(** ** Links free to extend across a square well *)
Lemma weight_zero : forall eta s, eta <> 0 -> link_weight (fun _ => 0) eta s = s * sinh (eta * s) / eta.
Proof. intros eta s He. rewrite weight_value by exact He. rewrite Ropp_0, exp_0. ring. Qed.

Definition well_integral (eta v : R) : R :=
  (v * eta * cosh (v * eta) - sinh (v * eta) - eta * cosh eta + sinh eta) / eta ^ 3.
Lemma swfjc_integral : forall eta v, eta <> 0 -> is_RInt (link_weight (fun _ => 0) eta) 1 v (well_integral eta v).
Proof.
  intros eta v He.
  apply (is_RInt_ext (V := R_NormedModule) (fun s => s * sinh (eta * s) / eta)).
  { intros s _. symmetry. apply weight_zero. exact He. }
  set (P := fun s => (s * eta * cosh (s * eta) - sinh (s * eta)) / eta ^ 3).
  replace (well_integral eta v) with (P v - P 1) by (unfold well_integral, P; rewrite Rmult_1_l; field; exact He).
  apply (is_RInt_derive (V := R_CompleteNormedModule) P).
  - intros s _. unfold P. auto_derive; [repeat split; first [exact I | apply ex_derive_sinh | apply ex_derive_cosh] |].
    replace (Derive (fun x => sinh x) (s * eta)) with (cosh (s * eta)) by (symmetry; apply Derive_sinh).
    replace (Derive (fun x => cosh x) (s * eta)) with (sinh (s * eta)) by (symmetry; apply Derive_cosh).
    replace (eta * s) with (s * eta) by ring. field. exact He.
  - intros s _. apply (ex_derive_continuous (V := R_NormedModule)). auto_derive. repeat split; first [exact I | apply ex_derive_sinh].
Qed.
Lemma swfjc_gibbs : forall l m w T eta, 0 < l -> 0 < w -> 0 < eta ->
  exists Z, 0 < Z /\ is_RInt (link_weight (fun _ => 0) eta) 1 (1 + w / l) Z /\
  swfjc_isotensional.nondimensional_gibbs_free_energy_per_link l m w eta T = - ln Z - hinge_term l m T.
Proof.
  intros l m w T eta Hl Hw He. assert (V : 1 < 1 + w / l) by (assert (0 < w / l) by (apply Rdiv_lt_0_compat; lra); lra).
  set (v := 1 + w / l) in *.
  pose proof (swfjc_integral eta v ltac:(lra)) as I.
  assert (P : 0 < well_integral eta v).
  { rewrite <- (is_RInt_unique (V := R_CompleteNormedModule) _ _ _ _ I).
    rewrite (RInt_ext (V := R_CompleteNormedModule) _ (fun s => s * sinh (eta * s) / eta)) by (intros s _; apply weight_zero; lra).
    apply RInt_gt_0; [exact V | |].
    - intros s Hs. apply Rdiv_lt_0_compat; [apply Rmult_lt_0_compat; [lra | apply PHyp.sinh_pos; nra] | lra].
    - intros s _. apply (ex_derive_continuous (V := R_NormedModule)). auto_derive. repeat split; first [exact I | apply ex_derive_sinh]. }
  exists (well_integral eta v). split; [exact P |]. split; [exact I |].
  change (swfjc_isotensional.nondimensional_gibbs_free_energy_per_link l m w eta T) with
    (3 * ln eta - ln (v * eta * cosh (v * eta) - sinh (v * eta) - eta * cosh eta + sinh eta) - hinge_term l m T).
  unfold well_integral in *. assert (E3 : 0 < eta ^ 3) by (apply pow_lt; exact He).
  set (B := v * eta * cosh (v * eta) - sinh (v * eta) - eta * cosh eta + sinh eta) in *.
  assert (PB : 0 < B). { replace B with (B / eta ^ 3 * eta ^ 3) by (field; lra). apply Rmult_lt_0_compat; assumption. }
  rewrite ln_div by assumption. rewrite ln_pow by exact He. simpl INR. ring.
Qed.

(** ** Gaussian weights *)
Section Gaussian.
Variables (a b : R).
Hypothesis Ha : 0 < a.
Let q (s : R) : R := exp (- (a * (s - b) ^ 2)).

(** The integral of s exp(c s - a (s - b)^2). *)
Let mean (c : R) : R := b + c / (2 * a).
Let P (c s : R) : R := - (exp (c * s) * q s) / (2 * a) + mean c * exp (a * (mean c ^ 2 - b ^ 2)) / sqrt a * G (sqrt a * (s - mean c)).

Lemma sqrt_a : 0 < sqrt a.
Proof using Ha. apply sqrt_lt_R0. exact Ha. Qed.
Lemma sqrt_a2 : sqrt a ^ 2 = a.
Proof using Ha. simpl. rewrite Rmult_1_r. apply sqrt_sqrt. lra. Qed.
Lemma square : forall c s, exp (c * s) * q s = exp (a * (mean c ^ 2 - b ^ 2)) * g (sqrt a * (s - mean c)).
Proof using Ha.
  intros c s. unfold q, g. rewrite <- !exp_plus. f_equal. rewrite Rpow_mult_distr, sqrt_a2. unfold mean. field. lra.
Qed.
Lemma P_derive : forall c s, is_derive (P c) s (s * (exp (c * s) * q s)).
Proof using Ha.
  intros c s. pose proof sqrt_a as S. unfold P. evar_last.
  - apply (is_derive_plus (V := R_NormedModule) (fun s => - (exp (c * s) * q s) / (2 * a))).
    + unfold q. auto_derive; [lra | reflexivity].
    + apply (is_derive_scal (fun s => G (sqrt a * (s - mean c)))).
      apply (is_derive_comp (V := R_NormedModule) G (fun s => sqrt a * (s - mean c))); [apply G_derive |].
      auto_derive; [exact I | reflexivity].
  - change plus with Rplus.
    change (@scal _ (NormedModule.ModuleSpace R_AbsRing R_NormedModule) (sqrt a * 1) (g (sqrt a * (s - mean c)))) with (sqrt a * 1 * g (sqrt a * (s - mean c))).
    replace (mean c * exp (a * (mean c ^ 2 - b ^ 2)) / sqrt a * (sqrt a * 1 * g (sqrt a * (s - mean c))))
      with (mean c * (exp (a * (mean c ^ 2 - b ^ 2)) * g (sqrt a * (s - mean c)))) by (field; lra).
    rewrite <- square. unfold q, mean.
    replace (- (a * ((s + - b) * ((s + - b) * 1)))) with (- (a * (s - b) ^ 2)) by ring.
    set (e1 := exp (c * s)). set (e2 := exp _). field. lra.
Qed.

Definition gauss_moment (c : R) : R := 
  q 0 / (2 * a) + mean c * exp (a * (mean c ^ 2 - b ^ 2)) / sqrt a * (sqrt PI / 2 + G (sqrt a * mean c)).

Lemma moment_integrable : forall c x y, ex_RInt (fun s => s * (exp (c * s) * q s)) x y.
Proof using.
  intros c x y. apply (ex_RInt_continuous (V := R_CompleteNormedModule)). intros s _.
  apply (ex_derive_continuous (V := R_NormedModule)). unfold q. auto_derive. exact I.
Qed.
Lemma shifted_lim : forall m, is_lim (fun s => sqrt a * (s - m)) p_infty p_infty.
Proof using Ha.
  intro m. apply (is_lim_ext (fun s => sqrt a * s + - (sqrt a * m))); [intro; ring |].
  evar_last; [apply (is_lim_plus (fun s => sqrt a * s) (fun _ => - (sqrt a * m)) p_infty p_infty (Finite (- (sqrt a * m)))) |].
  - apply scaled_lim, sqrt_a.
  - apply is_lim_const.
  - reflexivity.
  - reflexivity.
Qed.
Lemma q_lim : forall c, is_lim (fun s => exp (c * s) * q s) p_infty 0.
Proof using Ha.
  intro c. apply (is_lim_ext (fun s => exp (a * (mean c ^ 2 - b ^ 2)) * g (sqrt a * (s - mean c)))); [intro; symmetry; apply square |].
  replace (Finite 0) with (Rbar_mult (exp (a * (mean c ^ 2 - b ^ 2))) 0) by (simpl; f_equal; ring).
  apply (is_lim_scal_l (fun s => g (sqrt a * (s - mean c)))).
  apply (is_lim_comp g (fun s => sqrt a * (s - mean c)) p_infty (Finite 0) p_infty); [apply exp_sq_lim | apply shifted_lim |].
  exists 0. intros. discriminate.
Qed.
Lemma moment_half_line : forall c, half_line_integral (fun s => s * (exp (c * s) * q s)) (gauss_moment c).
Proof using Ha.
  intro c. pose proof sqrt_a as S. split; [intros x _; apply moment_integrable |].
  apply (is_lim_ext (fun x => P c x - P c 0)).
  { intro x. symmetry. apply (is_RInt_unique (V := R_CompleteNormedModule)).
    apply (is_RInt_derive (V := R_CompleteNormedModule) (P c)).
    - intros s _. apply P_derive.
    - intros s _. apply (ex_derive_continuous (V := R_NormedModule)). unfold q. auto_derive. exact I. }
  replace (gauss_moment c) with ((- 0 / (2 * a) + mean c * exp (a * (mean c ^ 2 - b ^ 2)) / sqrt a * (sqrt PI / 2)) - P c 0).
  2:{ unfold gauss_moment, P. replace (sqrt a * (0 - mean c)) with (- (sqrt a * mean c)) by ring. rewrite G_odd.
      rewrite Rmult_0_r, exp_0. field. lra. }
  apply (is_lim_minus _ _ _ (Finite (- 0 / (2 * a) + mean c * exp (a * (mean c ^ 2 - b ^ 2)) / sqrt a * (sqrt PI / 2))) (Finite (P c 0)));
    [| apply is_lim_const | reflexivity].
  unfold P. apply (is_lim_plus _ _ _ (Finite (- 0 / (2 * a))) (Finite (mean c * exp (a * (mean c ^ 2 - b ^ 2)) / sqrt a * (sqrt PI / 2)))); [| | reflexivity].
  - apply (is_lim_ext (fun s => - / (2 * a) * (exp (c * s) * q s))); [intro; field; lra |].
    replace (Finite (- 0 / (2 * a))) with (Rbar_mult (- / (2 * a)) 0) by (simpl; f_equal; field; lra).
    apply is_lim_scal_l. apply q_lim.
  - apply (is_lim_scal_l (fun s => G (sqrt a * (s - mean c)))  _ p_infty (Finite (sqrt PI / 2))).
    apply (is_lim_comp G (fun s => sqrt a * (s - mean c)) p_infty (Finite (sqrt PI / 2)) p_infty); [apply G_lim | apply shifted_lim |].
    exists 0. intros. discriminate.
Qed.

(** The partition function of a link with the potential a (s - b)^2. *)
Definition gauss_partition (eta : R) : R := (gauss_moment eta - gauss_moment (- eta)) / (2 * eta).
Lemma gauss_partition_half_line : forall eta, eta <> 0 ->
  half_line_integral (link_weight (fun s => a * (s - b) ^ 2) eta) (gauss_partition eta).
Proof using Ha.
  intros eta He.
  apply (half_line_ext (fun s => / (2 * eta) * (s * (exp (eta * s) * q s) - s * (exp (- eta * s) * q s)))).
  { intro s. rewrite weight_value by exact He. unfold q, sinh. replace (- eta * s) with (- (eta * s)) by ring. field. exact He. }
  destruct (moment_half_line eta) as (I1 & L1). destruct (moment_half_line (- eta)) as (I2 & L2).
  assert (I : forall x y, ex_RInt (fun s => s * (exp (eta * s) * q s) - s * (exp (- eta * s) * q s)) x y).
  { intros x y. apply (ex_RInt_minus (V := R_NormedModule)); apply moment_integrable. }
  split.
  - intros x _. apply (ex_RInt_scal (V := R_NormedModule)). apply I.
  - apply (is_lim_ext (fun x => / (2 * eta) * (RInt (fun s => s * (exp (eta * s) * q s)) 0 x - RInt (fun s => s * (exp (- eta * s) * q s)) 0 x))).
    { intro x. symmetry. rewrite (RInt_scal (V := R_CompleteNormedModule)) by apply I.
      change (@scal _ (NormedModule.ModuleSpace R_AbsRing R_CompleteNormedModule)) with Rmult. apply f_equal.
      apply (RInt_minus (V := R_CompleteNormedModule)); apply moment_integrable. }
    replace (Finite (gauss_partition eta)) with (Rbar_mult (/ (2 * eta)) (gauss_moment eta - gauss_moment (- eta))).
    2:{ simpl. f_equal. unfold gauss_partition. field. exact He. }
    apply is_lim_scal_l. apply (is_lim_minus _ _ _ (Finite (gauss_moment eta)) (Finite (gauss_moment (- eta)))); [exact L1 | exact L2 | reflexivity].
Qed.
Lemma gauss_partition_value : forall eta, eta <> 0 ->
  gauss_partition eta = sqrt PI / (4 * eta * sqrt a) * exp (eta ^ 2 / (4 * a)) *
    ((b + eta / (2 * a)) * exp (eta * b) * (1 + Erf (sqrt a * (b + eta / (2 * a)))) -
     (b - eta / (2 * a)) * exp (- (eta * b)) * (1 + Erf (sqrt a * (b - eta / (2 * a))))).
Proof using Ha.
  intros eta He. pose proof sqrt_a as S. unfold gauss_partition, gauss_moment. rewrite !Erf_C2. unfold C2.
  pose proof (sqrt_lt_R0 PI PI_RGT_0).
  assert (E1 : exp (a * (mean eta ^ 2 - b ^ 2)) = exp (eta ^ 2 / (4 * a)) * exp (eta * b)) by (rewrite <- exp_plus; f_equal; unfold mean; field; lra).
  assert (E2 : exp (a * (mean (- eta) ^ 2 - b ^ 2)) = exp (eta ^ 2 / (4 * a)) * exp (- (eta * b))) by (rewrite <- exp_plus; f_equal; unfold mean; field; lra).
  rewrite E1, E2. unfold mean. replace (b + - eta / (2 * a)) with (b - eta / (2 * a)) by (field; lra).
  generalize (G (sqrt a * (b + eta / (2 * a)))) (G (sqrt a * (b - eta / (2 * a)))). intros g1 g2.
  field. repeat split; lra.
Qed.
End Gaussian.
