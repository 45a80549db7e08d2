(** Heating a chain under tension shortens it. *)
From Coq Require Import Reals ZArith List Lra Lia Psatz.
From Coquelicot Require Import Coquelicot.
From Verif Require Import Scalar MMath MConst MIdeal MFjc MEfjc MSwfjc MMorse MLennardJones MLogSquared MWlc.
From Verif Require Import SpecThermo SpecChains SpecLinks SpecStability SpecSofter SpecHeating PBase PHyp PStability PConj PHooke PLimits PNormalChain PSofter PStabilityLinks.
From Verif Require PIdentIdeal PIdentFjc PIdentSwfjc PIdentEfjc PIdentMorse PIdentLennardJones PIdentLogSquared.
Open Scope R_scope.

Local Notation fjc := (@fjc_isotensional.nondimensional_end_to_end_length_per_link R R_scalar).
Local Notation lj_stretch := (@lennard_jones_thermodynamics.nondimensional_link_stretch R R_scalar).

Lemma heat_lift : forall (pulls : R -> Prop) n l (c : R -> isotensional), 0 < n -> 0 < l ->
  (forall T, 0 < T -> isotensional_dimensionless l T (c T)) -> (forall T, 0 < T -> isotensional_extensive n (c T)) ->
  (forall f T T', 0 < f -> pulls f -> 0 < T -> T < T' ->
    I_nd_length_per_link (c T') (f * l / (kB * T')) < I_nd_length_per_link (c T) (f * l / (kB * T))) ->
  heating_shortens pulls c.
Proof.
  intros pulls n l c Hn Hl Hd He H f T T' Hf Pf HT HT'. specialize (H f T T' Hf Pf HT HT').
  assert (P : I_length_per_link (c T') f < I_length_per_link (c T) f).
  { rewrite (proj1 (proj2 (Hd T HT f))), (proj1 (proj2 (Hd T' ltac:(lra) f))). apply Rmult_lt_compat_l; assumption. }
  split; [|exact P]. rewrite (proj1 (He T HT f)), (proj1 (He T' ltac:(lra) f)). apply Rmult_lt_compat_l; assumption.
Qed.

Lemma force_cools : forall f l T T', 0 < f -> 0 < l -> 0 < T -> T < T' -> 0 < f * l / (kB * T') < f * l / (kB * T).
Proof.
  intros f l T T' Hf Hl HT H. pose proof kB_pos. apply ratio_lt; [apply Rmult_lt_0_compat; assumption | apply Rmult_lt_compat_l; assumption | apply Rmult_lt_0_compat; assumption].
Qed.

(** ** Rigid links and square wells *)
Lemma heat_stable : forall n l (c : R -> isotensional) g, 0 < n -> 0 < l ->
  (forall T, 0 < T -> isotensional_dimensionless l T (c T)) -> (forall T, 0 < T -> isotensional_extensive n (c T)) ->
  (forall T, I_nd_length_per_link (c T) = g) -> positive_increasing_on pulling g -> heating_shortens every_pull c.
Proof.
  intros n l c g Hn Hl Hd He E [_ M]. apply (heat_lift _ n l); try assumption. intros f T T' Hf _ HT H.
  rewrite !E. pose proof (force_cools f l T T' Hf Hl HT H). apply M; unfold pulling; lra.
Qed.

Lemma ideal_heating : forall N l m, (0 < N)%Z -> 0 < l -> heating_shortens every_pull (fun T => C_ideal_isotensional N l m T).
Proof.
  intros N l m HN Hl. apply (heat_stable (IZR N) l _ (@ideal_isotensional.nondimensional_end_to_end_length_per_link R R_scalar)); auto using NR, PIdentIdeal.ideal_isotensional_dimensionless, PIdentIdeal.ideal_isotensional_extensive.
  exact (proj2 (proj2 (proj2 (ideal_stable N l m 1 HN Hl ltac:(lra))))).
Qed.

Lemma fjc_heating : forall N l m, (0 < N)%Z -> 0 < l -> heating_shortens every_pull (fun T => C_fjc_isotensional N l m T).
Proof.
  intros N l m HN Hl. apply (heat_stable (IZR N) l _ fjc); auto using NR, PIdentFjc.fjc_isotensional_dimensionless, PIdentFjc.fjc_isotensional_extensive.
  exact fjc_stable_pulling.
Qed.

Lemma swfjc_heating : forall N l m w, (0 < N)%Z -> 0 < l -> 0 < w -> heating_shortens every_pull (fun T => C_swfjc_isotensional N l m T w).
Proof.
  intros N l m w HN Hl Hw. apply (heat_stable (IZR N) l _ (swfjc_isotensional.nondimensional_end_to_end_length_per_link l w)); auto using NR, PIdentSwfjc.swfjc_isotensional_dimensionless, PIdentSwfjc.swfjc_isotensional_extensive.
  exact (proj2 (proj2 (proj2 (swfjc_stable N l m 1 w HN Hl ltac:(lra) Hw)))).
Qed.

Lemma wlc_heating : forall N l p f T T' x x', (0 < N)%Z -> 0 < l -> 0 < f -> 0 < T -> T < T' ->
  wlc_isotensional.end_to_end_length N l p f T = Some x -> wlc_isotensional.end_to_end_length N l p f T' = Some x' -> x' < x.
Proof.
  intros N l p f T T' x x' HN Hl Hf HT H. unfold wlc_isotensional.end_to_end_length.
  change (@sofZ R R_scalar N) with (IZR N).
  change ((bind (wlc_isotensional.nondimensional_end_to_end_length N (p / (IZR N * l)) (f * l / BOLTZMANN_CONSTANT / T)) (fun r => Some (l * r))) = Some x ->
    (bind (wlc_isotensional.nondimensional_end_to_end_length N (p / (IZR N * l)) (f * l / BOLTZMANN_CONSTANT / T')) (fun r => Some (l * r))) = Some x' -> x' < x).
  rewrite B_eq. pose proof kB_pos. pose proof (force_cools f l T T' Hf Hl HT H) as C.
  replace (f * l / (kB * T)) with (f * l / kB / T) in C by (field; lra). replace (f * l / (kB * T')) with (f * l / kB / T') in C by (field; lra).
  destruct (wlc_isotensional.nondimensional_end_to_end_length N (p / (IZR N * l)) (f * l / kB / T)) as [r |] eqn:E; [|discriminate].
  destruct (wlc_isotensional.nondimensional_end_to_end_length N (p / (IZR N * l)) (f * l / kB / T')) as [r' |] eqn:E'; [|discriminate].
  cbn [bind]. intros Q Q'. injection Q as <-. injection Q' as <-.
  destruct (wlc_stable N (p / (IZR N * l)) _ _ r' r HN (proj1 C) (proj2 C) E' E) as [_ L]. apply Rmult_lt_compat_l; assumption.
Qed.

(** ** Stiff links: the stretch of a link depends on the force only, not on the temperature. *)
Lemma fixed_load : forall k l f T, 0 < k -> 0 < l -> 0 < T -> f * l / (kB * T) / kappa k l T = f / (k * l).
Proof. intros k l f T Hk Hl HT. pose proof kB_pos. unfold kappa. field. repeat split; lra. Qed.

Lemma stiff_at_load : forall k c x, 0 < k -> 0 < c -> 0 < x ->
  stiff_length k c x = tanh x * (c * (1 / tanh x - 1 / x) + x / k) / (c * tanh x + x / k).
Proof.
  intros k c x Hk Hc Hx. pose proof (PInverse.tanh_bounds x Hx) as B. unfold stiff_length.
  assert (0 < x / k) by (apply Rdiv_lt_0_compat; assumption). assert (0 < c * tanh x) by (apply Rmult_lt_0_compat; lra).
  set (y := x / k) in *. set (t := tanh x) in *. clearbody y t. field. repeat split; lra.
Qed.

Lemma tanh_increasing : forall u v, 0 < u -> u < v -> tanh u < tanh v.
Proof.
  intros u v Hu H. pose proof (PHyp.cosh_pos u) as Cu. pose proof (PHyp.cosh_pos v) as Cv. unfold tanh.
  apply Rmult_lt_reg_r with (cosh u * cosh v); [apply Rmult_lt_0_compat; assumption|].
  replace (sinh u / cosh u * (cosh u * cosh v)) with (sinh u * cosh v) by (field; lra).
  replace (sinh v / cosh v * (cosh u * cosh v)) with (sinh v * cosh u) by (field; lra).
  pose proof (PHyp.sinh_pos (v - u) ltac:(lra)) as S. replace (sinh (v - u)) with (sinh v * cosh u - sinh u * cosh v) in S; [lra|].
  unfold sinh, cosh. replace (- (v - u)) with (- v + u) by ring. unfold Rminus. rewrite !exp_plus. field.
Qed.

Lemma stiff_heating : forall k k' c x x', 0 < k -> 0 < k' -> 0 < c -> 0 < x' -> x' < x -> x / k = x' / k' -> stiff_length k' c x' < stiff_length k c x.
Proof.
  intros k k' c x x' Hk Hk' Hc Hx' H E. rewrite !stiff_at_load by lra. rewrite <- E.
  assert (Hy : 0 < x / k) by (apply Rdiv_lt_0_compat; lra). set (y := x / k) in *.
  pose proof (tanh_increasing x' x Hx' H) as T. pose proof (PInverse.tanh_bounds x' Hx') as B. pose proof (PInverse.tanh_bounds x ltac:(lra)) as B0.
  destruct langevin_stable as [P M]. pose proof (P x' Hx') as P'. pose proof (M x' x Hx' ltac:(unfold pulling; lra) H) as M'.
  set (L := 1 / tanh x - 1 / x) in *. set (L' := 1 / tanh x' - 1 / x') in *. set (t := tanh x) in *. set (t' := tanh x') in *. clearbody y L L' t t'.
  assert (A : 0 < c * t) by (apply Rmult_lt_0_compat; lra). assert (A' : 0 < c * t') by (apply Rmult_lt_0_compat; lra).
  assert (G : 0 < c * L') by (apply Rmult_lt_0_compat; lra). assert (G' : c * L' < c * L) by (apply Rmult_lt_compat_l; lra).
  apply Rlt_trans with (t * (c * L' + y) / (c * t + y)).
  - apply Rmult_lt_reg_r with ((c * t' + y) * (c * t + y)); [apply Rmult_lt_0_compat; lra|].
    replace (t' * (c * L' + y) / (c * t' + y) * ((c * t' + y) * (c * t + y))) with ((c * L' + y) * (t' * (c * t + y))) by (field; lra).
    replace (t * (c * L' + y) / (c * t + y) * ((c * t' + y) * (c * t + y))) with ((c * L' + y) * (t * (c * t' + y))) by (field; lra).
    apply Rmult_lt_compat_l; [lra|]. assert (t' * y < t * y) by (apply Rmult_lt_compat_r; lra). lra.
  - apply Rmult_lt_compat_r; [apply Rinv_0_lt_compat; lra|]. apply Rmult_lt_compat_l; lra.
Qed.

Lemma efjc_heating : forall N l m k, (0 < N)%Z -> 0 < l -> 0 < k -> heating_shortens every_pull (fun T => C_efjc_isotensional_asymptotic N l m T k).
Proof.
  intros N l m k HN Hl Hk. apply (heat_lift _ (IZR N) l); auto using NR, PIdentEfjc.efjc_isotensional_asymptotic_dimensionless, PIdentEfjc.efjc_isotensional_asymptotic_extensive.
  intros f T T' Hf _ HT H. pose proof (force_cools f l T T' Hf Hl HT H) as C.
  pose proof (fixed_load k l f T Hk Hl HT) as E. pose proof (fixed_load k l f T' Hk Hl ltac:(lra)) as E'.
  pose proof (kappa_pos k l T Hk Hl HT) as K. pose proof (kappa_pos k l T' Hk Hl ltac:(lra)) as K'.
  assert (F : forall q x, efjc_isotensional_asymptotic.nondimensional_end_to_end_length_per_link q x = stiff_length q 1 x + x / q).
  { intros q x. change (1 / tanh x - 1 / x + x / q * (1 + (tanh x - 1 / tanh x + 1 / x) / (tanh x + x / q)) = stiff_length q 1 x + x / q). unfold stiff_length. rewrite Rmult_1_l. ring. }
  cbn [I_nd_length_per_link C_efjc_isotensional_asymptotic]. rewrite !F, E, E'.
  pose proof (stiff_heating (kappa k l T) (kappa k l T') 1 (f * l / (kB * T)) (f * l / (kB * T')) K K' ltac:(lra) (proj1 C) (proj2 C) ltac:(lra)). lra.
Qed.

Lemma efjc_reduced_heating : forall N l m k, (0 < N)%Z -> 0 < l -> 0 < k -> heating_shortens every_pull (fun T => C_efjc_isotensional_asymptotic_reduced N l m T k).
Proof.
  intros N l m k HN Hl Hk. apply (heat_lift _ (IZR N) l); auto using NR, PIdentEfjc.efjc_isotensional_asymptotic_reduced_dimensionless, PIdentEfjc.efjc_isotensional_asymptotic_reduced_extensive.
  intros f T T' Hf _ HT H. pose proof (force_cools f l T T' Hf Hl HT H) as C.
  change (fjc (f * l / (kB * T')) + f * l / (kB * T') / kappa k l T' < fjc (f * l / (kB * T)) + f * l / (kB * T) / kappa k l T).
  rewrite !fixed_load by lra. pose proof (proj2 fjc_stable_pulling (f * l / (kB * T')) (f * l / (kB * T)) ltac:(unfold pulling; lra) ltac:(unfold pulling; lra) (proj2 C)). lra.
Qed.

(** ** Morse, Lennard-Jones and log-squared links *)
Lemma solved_heating : forall l k c f T T' s, 0 < l -> 0 < k -> 0 < c -> 0 < f -> 0 < T -> T < T' ->
  stiff_length (kappa k l T') c (f * l / (kB * T')) + s < stiff_length (kappa k l T) c (f * l / (kB * T)) + s /\
  fjc (f * l / (kB * T')) + s < fjc (f * l / (kB * T)) + s.
Proof.
  intros l k c f T T' s Hl Hk Hc Hf HT H. pose proof (force_cools f l T T' Hf Hl HT H) as C.
  pose proof (fixed_load k l f T Hk Hl HT) as F. pose proof (fixed_load k l f T' Hk Hl ltac:(lra)) as F'.
  pose proof (stiff_heating (kappa k l T) (kappa k l T') c (f * l / (kB * T)) (f * l / (kB * T')) (kappa_pos k l T Hk Hl HT) (kappa_pos k l T' Hk Hl ltac:(lra)) Hc (proj1 C) (proj2 C) ltac:(lra)).
  pose proof (proj2 fjc_stable_pulling (f * l / (kB * T')) (f * l / (kB * T)) ltac:(unfold pulling; lra) ltac:(unfold pulling; lra) (proj2 C)). split; lra.
Qed.

Lemma morse_heating : forall N l m k e, (0 < N)%Z -> 0 < l -> 0 < k -> 0 < e ->
  heating_shortens (morse_bears k e) (fun T => C_morse_isotensional_asymptotic N l m T k e) /\
  heating_shortens (morse_bears k e) (fun T => C_morse_isotensional_asymptotic_reduced N l m T k e).
Proof.
  intros N l m k e HN Hl Hk He. pose proof kB_pos as KB.
  assert (A : forall T, 0 < T -> kappa k l T / epsilon e T = k * l ^ 2 / e) by (intros T HT; unfold kappa, epsilon; field; repeat split; lra).
  assert (X : forall f T, 0 < T -> f * l / (kB * T) / sqrt (epsilon e T * kappa k l T / 8) = f / sqrt (e * k / 8)).
  { intros f T HT. replace (epsilon e T * kappa k l T / 8) with ((l / (kB * T)) ^ 2 * (e * k / 8)) by (unfold kappa, epsilon; field; repeat split; lra).
    assert (P : 0 < l / (kB * T)) by (apply Rdiv_lt_0_compat; [exact Hl | apply Rmult_lt_0_compat; assumption]).
    assert (Q : 0 < e * k) by (apply Rmult_lt_0_compat; assumption).
    rewrite sqrt_mult_alt by (left; apply pow_lt, P). rewrite sqrt_pow2 by lra. assert (0 < sqrt (e * k / 8)) by (apply sqrt_lt_R0; lra). field. repeat split; lra. }
  split; (apply (heat_lift _ (IZR N) l); auto using NR, PIdentMorse.morse_isotensional_asymptotic_dimensionless, PIdentMorse.morse_isotensional_asymptotic_extensive, PIdentMorse.morse_isotensional_asymptotic_reduced_dimensionless, PIdentMorse.morse_isotensional_asymptotic_reduced_extensive).
  all: intros f T T' Hf _ HT H; assert (HT' : 0 < T') by lra.
  all: pose proof (kappa_pos k l T Hk Hl HT) as K; pose proof (kappa_pos k l T' Hk Hl HT') as K'.
  all: assert (E : 0 < epsilon e T) by (apply Rdiv_lt_0_compat; [exact He | apply Rmult_lt_0_compat; assumption]).
  all: assert (E' : 0 < epsilon e T') by (apply Rdiv_lt_0_compat; [exact He | apply Rmult_lt_0_compat; assumption]).
  - change (morse_isotensional_asymptotic.nondimensional_end_to_end_length_per_link (kappa k l T') (epsilon e T') (f * l / (kB * T')) < morse_isotensional_asymptotic.nondimensional_end_to_end_length_per_link (kappa k l T) (epsilon e T) (f * l / (kB * T))).
    rewrite !morse_sum by assumption. unfold morse_stretch. rewrite !X, !A by assumption.
    apply solved_heating; try assumption. apply Rinv_0_lt_compat. pose proof (sqrt_pos (k * l ^ 2 / e / 2)). lra.
  - change (morse_isotensional_asymptotic_reduced.nondimensional_end_to_end_length_per_link (kappa k l T') (epsilon e T') (f * l / (kB * T')) < morse_isotensional_asymptotic_reduced.nondimensional_end_to_end_length_per_link (kappa k l T) (epsilon e T) (f * l / (kB * T))).
    rewrite !morse_reduced_sum by assumption. unfold morse_stretch. rewrite !X, !A by assumption.
    apply (solved_heating l k 1); try assumption. lra.
Qed.

Lemma lj_same_stretch : forall k l f T T', 0 < k -> 0 < l -> 0 < T -> 0 < T' -> lj_stretch (kappa k l T) (f * l / (kB * T)) = lj_stretch (kappa k l T') (f * l / (kB * T')).
Proof.
  intros k l f T T' Hk Hl HT HT'. pose proof kB_pos. unfold lennard_jones_thermodynamics.nondimensional_link_stretch.
  f_equal. change (6 * (f * l / (kB * T)) / kappa k l T = 6 * (f * l / (kB * T')) / kappa k l T'). unfold kappa. field. repeat split; lra.
Qed.

Lemma lennard_jones_heating : forall N l m k, (0 < N)%Z -> 0 < l -> 0 < k ->
  heating_shortens (lennard_jones_bears (k * l)) (fun T => C_lennard_jones_isotensional_asymptotic N l m T k) /\
  heating_shortens (lennard_jones_bears (k * l)) (fun T => C_lennard_jones_isotensional_asymptotic_reduced N l m T k).
Proof.
  intros N l m k HN Hl Hk.
  split; (apply (heat_lift _ (IZR N) l); auto using NR, PIdentLennardJones.lennard_jones_isotensional_asymptotic_dimensionless, PIdentLennardJones.lennard_jones_isotensional_asymptotic_extensive, PIdentLennardJones.lennard_jones_isotensional_asymptotic_reduced_dimensionless, PIdentLennardJones.lennard_jones_isotensional_asymptotic_reduced_extensive).
  all: intros f T T' Hf _ HT H; pose proof (lj_same_stretch k l f T T' Hk Hl HT ltac:(lra)) as S.
  - change (stiff_length (kappa k l T') (2 / 23) (f * l / (kB * T')) + lj_stretch (kappa k l T') (f * l / (kB * T')) - 1 < stiff_length (kappa k l T) (2 / 23) (f * l / (kB * T)) + lj_stretch (kappa k l T) (f * l / (kB * T)) - 1).
    rewrite S. unfold Rminus. rewrite !Rplus_assoc. apply solved_heating; try assumption. lra.
  - change (fjc (f * l / (kB * T')) + lj_stretch (kappa k l T') (f * l / (kB * T')) - 1 < fjc (f * l / (kB * T)) + lj_stretch (kappa k l T) (f * l / (kB * T)) - 1).
    rewrite S. unfold Rminus. rewrite !Rplus_assoc. apply (solved_heating l k 1); try assumption. lra.
Qed.

Lemma log_squared_heating : forall N l m k, (0 < N)%Z -> 0 < l -> 0 < k ->
  heating_shortens (log_squared_bears (k * l)) (fun T => C_log_squared_isotensional_asymptotic N l m T k) /\
  heating_shortens (log_squared_bears (k * l)) (fun T => C_log_squared_isotensional_asymptotic_reduced N l m T k).
Proof.
  intros N l m k HN Hl Hk.
  split; (apply (heat_lift _ (IZR N) l); auto using NR, PIdentLogSquared.log_squared_isotensional_asymptotic_dimensionless, PIdentLogSquared.log_squared_isotensional_asymptotic_extensive, PIdentLogSquared.log_squared_isotensional_asymptotic_reduced_dimensionless, PIdentLogSquared.log_squared_isotensional_asymptotic_reduced_extensive).
  all: intros f T T' Hf _ HT H; assert (HT' : 0 < T') by lra.
  all: assert (S : forall T, 0 < T -> - (f * l / (kB * T)) / kappa k l T = - (f / (k * l))) by (intros t Ht; rewrite <- (fixed_load k l f t) by assumption; unfold Rdiv; ring).
  - change (stiff_length (kappa k l T') (4 / 10) (f * l / (kB * T')) + 1 / exp (math.lambert_w (- (f * l / (kB * T')) / kappa k l T')) - 1 < stiff_length (kappa k l T) (4 / 10) (f * l / (kB * T)) + 1 / exp (math.lambert_w (- (f * l / (kB * T)) / kappa k l T)) - 1).
    rewrite !S by assumption. unfold Rminus. rewrite !Rplus_assoc. apply solved_heating; try assumption. lra.
  - change (fjc (f * l / (kB * T')) + 1 / exp (math.lambert_w (- (f * l / (kB * T')) / kappa k l T')) - 1 < fjc (f * l / (kB * T)) + 1 / exp (math.lambert_w (- (f * l / (kB * T)) / kappa k l T)) - 1).
    rewrite !S by assumption. unfold Rminus. rewrite !Rplus_assoc. apply (solved_heating l k 1); try assumption. lra.
Qed.

(** ** The alternative asymptotic approach: below the force k l only *)
Local Notation alternative := (@efjc_isotensional_asymptotic_alternative.nondimensional_end_to_end_length_per_link R R_scalar).
Definition coupling (x : R) : R := 1 / (x * tanh x) - 1 / sinh x ^ 2.

Lemma alternative_at_load : forall k x, 0 < k -> 0 < x -> alternative k x = fjc x + x / k + x / k * coupling x.
Proof.
  intros k x Hk Hx. rewrite alternative_eq. unfold coupling. pose proof (PInverse.tanh_bounds x Hx). pose proof (PHyp.sinh_pos x Hx).
  field. repeat split; lra.
Qed.

(** u := 2 x; each function vanishes at 0 and is the derivative of the one before it, up to a positive factor. *)
Definition h3 (u : R) : R := exp u * (u ^ 2 + 3 * u - 3) + 3.
Definition h2 (u : R) : R := exp u * (u ^ 2 + u - 4) + 3 * u + 4.
Definition h1 (u : R) : R := exp u * (u ^ 2 - u - 3) + 3 / 2 * u ^ 2 + 4 * u + 3.
Definition h0 (u : R) : R := exp (2 * u) * (u ^ 2 / 2 - u - 1) + exp u * (3 / 2 * u ^ 2 + u + 2) - 1.

Lemma rises_from_0 : forall f f' : R -> R, (forall u, is_derive f u (f' u)) -> f 0 = 0 -> (forall u, 0 < u -> 0 < f' u) -> forall u, 0 < u -> 0 < f u.
Proof.
  intros f f' D Z P u Hu. rewrite <- Z.
  destruct (MVT_cor2 f f' 0 u Hu ltac:(intros c _; apply is_derive_Reals, D)) as (c & E & Hc).
  pose proof (Rmult_lt_0_compat _ _ (P c (proj1 Hc)) (Rlt_Rminus _ _ Hu)). lra.
Qed.

Lemma h3_pos : forall u, 0 < u -> 0 < h3 u.
Proof.
  apply (rises_from_0 _ (fun u => exp u * (u ^ 2 + 5 * u))).
  - intro u. unfold h3. auto_derive; [exact I|]. ring.
  - unfold h3. rewrite exp_0. ring.
  - intros u Hu. apply Rmult_lt_0_compat; [apply exp_pos|]. pose proof (pow_lt u 2 Hu). lra.
Qed.
Lemma h2_pos : forall u, 0 < u -> 0 < h2 u.
Proof. apply (rises_from_0 _ h3); [intro u; unfold h2, h3; auto_derive; [exact I | ring] | unfold h2; rewrite exp_0; ring | apply h3_pos]. Qed.
Lemma h1_pos : forall u, 0 < u -> 0 < h1 u.
Proof. apply (rises_from_0 _ h2); [intro u; unfold h1, h2; auto_derive; [exact I | field] | unfold h1; rewrite exp_0; field | apply h2_pos]. Qed.
Lemma h0_pos : forall u, 0 < u -> 0 < h0 u.
Proof.
  apply (rises_from_0 _ (fun u => exp u * h1 u)).
  - intro u. unfold h0, h1. auto_derive; [exact I|]. replace (2 * u) with (u + u) by ring. rewrite exp_plus. field.
  - unfold h0. rewrite Rmult_0_r, exp_0. field.
  - intros u Hu. apply Rmult_lt_0_compat; [apply exp_pos | apply h1_pos, Hu].
Qed.

(** fjc + coupling, the response at the load 1, up to the constant. *)
Definition unit_load (x : R) : R := cosh x / sinh x - 1 / x + cosh x / (x * sinh x) - 1 / sinh x ^ 2.
Lemma unit_load_eq : forall x, 0 < x -> fjc x + coupling x = unit_load x.
Proof.
  intros x Hx. rewrite fjc_eq. unfold coupling, unit_load, tanh. pose proof (PHyp.sinh_pos x Hx). pose proof (PHyp.cosh_pos x). field. repeat split; lra.
Qed.

Lemma unit_load_increasing : forall u v, 0 < u -> u < v -> unit_load u < unit_load v.
Proof.
  intros u v Hu H.
  set (d := fun x => (sinh x ^ 3 - x ^ 2 * sinh x - x * sinh x - cosh x * sinh x ^ 2 + 2 * x ^ 2 * cosh x) / (x ^ 2 * sinh x ^ 3)).
  assert (D : forall x, 0 < x -> derivable_pt_lim unit_load x (d x)).
  { intros x Hx. apply is_derive_Reals. unfold unit_load, d. pose proof (PHyp.sinh_pos x Hx) as S.
    assert (x * sinh x <> 0) by (apply Rgt_not_eq, Rmult_lt_0_compat; assumption).
    auto_derive; [repeat split; try assumption; try lra; simpl; apply Rgt_not_eq; rewrite ?Rmult_1_r; apply Rmult_lt_0_compat; assumption|].
    field_simplify_eq; [|repeat split; lra].
    assert (C : cosh x ^ 2 = 1 + sinh x ^ 2) by apply PHyp.cosh2. ring_simplify.
    replace (cosh x ^ 2) with (1 + sinh x ^ 2) by lra. ring. }
  destruct (MVT_cor2 unit_load d u v H ltac:(intros c Hc; apply D; lra)) as (c & E & Hc).
  enough (0 < d c) by nra. assert (Hp : 0 < c) by lra. pose proof (PHyp.sinh_pos c Hp) as S. unfold d.
  apply Rdiv_lt_0_compat; [|apply Rmult_lt_0_compat; apply pow_lt; assumption].
  pose proof (h0_pos (2 * c) ltac:(lra)) as P. pose proof (exp_pos c) as X.
  apply Rmult_lt_reg_r with (4 * exp c ^ 3); [pose proof (pow_lt _ 3 X); lra|]. rewrite Rmult_0_l.
  replace (_ * (4 * exp c ^ 3)) with (h0 (2 * c)); [exact P|].
  unfold h0, sinh, cosh. rewrite exp_Ropp. replace (exp (2 * (2 * c))) with (exp c ^ 4) by (replace (2 * (2 * c)) with (c + c + (c + c)) by ring; rewrite !exp_plus; ring).
  replace (exp (2 * c)) with (exp c ^ 2) by (replace (2 * c) with (c + c) by ring; rewrite !exp_plus; ring). field. lra.
Qed.

Lemma alternative_heating : forall N l m k, (0 < N)%Z -> 0 < l -> 0 < k ->
  heating_shortens (fun f => f <= k * l) (fun T => C_efjc_isotensional_asymptotic_alternative N l m T k).
Proof.
  intros N l m k HN Hl Hk. apply (heat_lift _ (IZR N) l); auto using NR, PIdentEfjc.efjc_isotensional_asymptotic_alternative_dimensionless, PIdentEfjc.efjc_isotensional_asymptotic_alternative_extensive.
  intros f T T' Hf B HT H. pose proof (force_cools f l T T' Hf Hl HT H) as C.
  change (alternative (kappa k l T') (f * l / (kB * T')) < alternative (kappa k l T) (f * l / (kB * T))).
  rewrite !alternative_at_load by (lra || (apply kappa_pos; lra)). rewrite !fixed_load by lra.
  assert (Y : 0 < f / (k * l) <= 1).
  { assert (0 < k * l) by (apply Rmult_lt_0_compat; assumption). split; [apply Rdiv_lt_0_compat; assumption|].
    apply Rmult_le_reg_r with (k * l); [assumption|]. replace (f / (k * l) * (k * l)) with f by (field; lra). lra. }
  pose proof (proj2 fjc_stable_pulling (f * l / (kB * T')) (f * l / (kB * T)) ltac:(unfold pulling; lra) ltac:(unfold pulling; lra) (proj2 C)) as F.
  pose proof (unit_load_increasing _ _ (proj1 C) (proj2 C)) as U. rewrite <- !unit_load_eq in U by lra.
  set (y := f / (k * l)) in *. set (x := f * l / (kB * T)) in *. set (x' := f * l / (kB * T')) in *.
  assert (y * (fjc x' + coupling x') < y * (fjc x + coupling x)) by (apply Rmult_lt_compat_l; lra).
  assert ((1 - y) * fjc x' <= (1 - y) * fjc x) by (apply Rmult_le_compat_l; lra). lra.
Qed.

(** Beyond the force k l there are temperatures between which heating lengthens the chain. *)
Lemma coth_over : forall x, 0 < x -> 1 < 1 / tanh x <= 1 + 1 / x.
Proof.
  intros x Hx. pose proof (PInverse.tanh_bounds x Hx) as B. split.
  - apply Rmult_lt_reg_r with (tanh x); [lra|]. replace (1 / tanh x * tanh x) with 1 by (field; lra). lra.
  - pose proof (PHyp.sinh_pos x Hx) as S. pose proof (PHyp.cosh_pos x) as Cp. unfold tanh.
    assert (E : cosh x - sinh x = exp (- x)) by (unfold sinh, cosh; field).
    assert (x * exp (- x) <= sinh x).
    { pose proof (sinh_ge x ltac:(lra)). assert (exp (- x) <= 1) by (rewrite <- exp_0; apply Rlt_le, exp_increasing; lra). nra. }
    replace (1 / (sinh x / cosh x)) with (1 + (cosh x - sinh x) / sinh x) by (field; lra). rewrite E.
    apply Rplus_le_compat_l. apply Rmult_le_reg_r with (x * sinh x); [apply Rmult_lt_0_compat; assumption|].
    replace (exp (- x) / sinh x * (x * sinh x)) with (x * exp (- x)) by (field; lra).
    replace (1 / x * (x * sinh x)) with (sinh x) by (field; lra). assumption.
Qed.

Lemma over_load : forall y x, 0 < x -> fjc x + y + y * coupling x = 1 + y + (1 / tanh x - 1) * (1 + y / x) + (y - 1) / x - y / sinh x ^ 2.
Proof.
  intros y x Hx. rewrite fjc_eq. unfold coupling. pose proof (PInverse.tanh_bounds x Hx). pose proof (PHyp.sinh_pos x Hx). field. repeat split; lra.
Qed.

Lemma alternative_heated : forall N l m k f, (0 < N)%Z -> 0 < l -> 0 < k -> k * l < f ->
  heating_lengthens f (fun T => C_efjc_isotensional_asymptotic_alternative N l m T k).
Proof.
  intros N l m k f HN Hl Hk Hf. pose proof kB_pos as KB. assert (Hkl : 0 < k * l) by (apply Rmult_lt_0_compat; assumption).
  assert (Y : 1 < f / (k * l)).
  { apply Rmult_lt_reg_r with (k * l); [assumption|]. replace (f / (k * l) * (k * l)) with f by (field; lra). lra. }
  set (y := f / (k * l)) in *. set (x := 2 * y / (y - 1)). assert (Hx : 0 < x) by (apply Rdiv_lt_0_compat; lra).
  assert (Q : 0 < 4 * x * y / (y - 1)) by (apply Rdiv_lt_0_compat; [|lra]; apply Rmult_lt_0_compat; lra).
  set (x' := x + 1 + 4 * x * y / (y - 1)). assert (Hx' : 1 < x') by (unfold x'; lra).
  exists (f * l / (kB * x')), (f * l / (kB * x)).
  assert (Fl : 0 < f * l) by (apply Rmult_lt_0_compat; lra). assert (P : 0 < kB * x) by (apply Rmult_lt_0_compat; assumption). assert (P' : 0 < kB * x') by (apply Rmult_lt_0_compat; lra).
  assert (HT : 0 < f * l / (kB * x')) by (apply Rdiv_lt_0_compat; assumption). assert (HT' : 0 < f * l / (kB * x)) by (apply Rdiv_lt_0_compat; assumption).
  split; [exact HT|]. split; [apply ratio_lt; [exact P | apply Rmult_lt_compat_l; [exact KB | unfold x'; lra] | exact Fl]|].
  pose proof (PIdentEfjc.efjc_isotensional_asymptotic_alternative_dimensionless N l m _ k HN Hl HT Hk f) as D.
  pose proof (PIdentEfjc.efjc_isotensional_asymptotic_alternative_dimensionless N l m _ k HN Hl HT' Hk f) as D'.
  rewrite (proj1 (PIdentEfjc.efjc_isotensional_asymptotic_alternative_extensive N l m _ k HN Hl HT Hk f)), (proj1 (PIdentEfjc.efjc_isotensional_asymptotic_alternative_extensive N l m _ k HN Hl HT' Hk f)).
  apply Rmult_lt_compat_l; [apply NR, HN|]. rewrite (proj1 (proj2 D)), (proj1 (proj2 D')). apply Rmult_lt_compat_l; [exact Hl|].
  assert (X : forall t, 0 < t -> f * l / (kB * (f * l / (kB * t))) = t) by (intros t Ht; field; repeat split; lra).
  assert (A : forall t, 0 < t -> I_nd_length_per_link (C_efjc_isotensional_asymptotic_alternative N l m (f * l / (kB * t)) k) (f * l / (kB * (f * l / (kB * t)))) = fjc t + y + y * coupling t).
  { intros t Ht. assert (Pt : 0 < f * l / (kB * t)) by (apply Rdiv_lt_0_compat; [exact Fl | apply Rmult_lt_0_compat; assumption]).
    change (alternative (kappa k l (f * l / (kB * t))) (f * l / (kB * (f * l / (kB * t)))) = fjc t + y + y * coupling t).
    pose proof (fixed_load k l f _ Hk Hl Pt) as L. rewrite X in * by exact Ht. rewrite alternative_at_load by (try assumption; apply kappa_pos; assumption). rewrite L. reflexivity. }
  rewrite !A by lra. rewrite !over_load by lra.
  destruct (coth_over x Hx) as [C _]. destruct (coth_over x' ltac:(lra)) as [_ C'].
  apply Rle_lt_trans with (1 + y + 2 * y / x'); [|apply Rlt_le_trans with (1 + y + (y - 1) / (2 * x))].
  - assert (0 <= y / sinh x' ^ 2) by (left; apply Rdiv_lt_0_compat; [lra | apply pow_lt, PHyp.sinh_pos; lra]).
    assert (I : 0 < / x' < 1) by (split; [apply Rinv_0_lt_compat; lra | rewrite <- Rinv_1; apply Rinv_lt_contravar; lra]).
    assert (B : (1 / tanh x' - 1) * (1 + y / x') <= 1 / x' * (1 + y)).
    { apply Rmult_le_compat; [pose proof (coth_over x' ltac:(lra)); lra | unfold Rdiv; nra | lra | unfold Rdiv; nra]. }
    replace (2 * y / x') with (1 / x' * (1 + y) + (y - 1) / x') by (field; lra). lra.
  - apply Rplus_lt_compat_l. apply Rmult_lt_reg_r with (2 * x * x'); [apply Rmult_lt_0_compat; lra|].
    replace (2 * y / x' * (2 * x * x')) with ((y - 1) * (4 * x * y / (y - 1))) by (field; lra).
    replace ((y - 1) / (2 * x) * (2 * x * x')) with ((y - 1) * x') by (field; lra). apply Rmult_lt_compat_l; [lra | unfold x'; lra].
  - assert (0 <= (1 / tanh x - 1) * (1 + y / x)).
    { apply Rmult_le_pos; [lra|]. assert (0 < y / x) by (apply Rdiv_lt_0_compat; lra). lra. }
    assert (y / sinh x ^ 2 <= y / x ^ 2).
    { apply Rmult_le_compat_l; [lra|]. apply Rinv_le_contravar; [apply pow_lt, Hx|]. apply pow_incr. pose proof (sinh_ge x ltac:(lra)). lra. }
    assert (y / x ^ 2 = (y - 1) / (2 * x)) by (unfold x; field; lra).
    replace ((y - 1) / x) with ((y - 1) / (2 * x) + (y - 1) / (2 * x)) by (field; lra). lra.
Qed.

(** ** At fixed length *)
Lemma ideal_entropic : forall N l, (0 < N)%Z -> 0 < l -> entropic (ideal_isometric.force N l).
Proof.
  intros N l HN Hl xi T T' HT HT'. apply NR in HN.
  change (3 * xi * BOLTZMANN_CONSTANT * T' / IZR N / l ^ 2 / T' = 3 * xi * BOLTZMANN_CONSTANT * T / IZR N / l ^ 2 / T). field. repeat split; lra.
Qed.
Lemma fjc_legendre_entropic : forall N l, (0 < N)%Z -> 0 < l -> entropic (fjc_isometric_legendre.force N l).
Proof.
  intros N l HN Hl xi T T' HT HT'.
  change (BOLTZMANN_CONSTANT * T' / l * fjc_isometric_legendre.nondimensional_force (xi / (IZR N * l)) / T' = BOLTZMANN_CONSTANT * T / l * fjc_isometric_legendre.nondimensional_force (xi / (IZR N * l)) / T). field. repeat split; lra.
Qed.
Lemma swfjc_legendre_entropic : forall N l w, (0 < N)%Z -> 0 < l -> entropic (swfjc_isometric_legendre.force N l w).
Proof.
  intros N l w HN Hl xi T T' HT HT'.
  change (BOLTZMANN_CONSTANT * T' / l * swfjc_isometric_legendre.nondimensional_force l w (xi / (IZR N * l)) / T' = BOLTZMANN_CONSTANT * T / l * swfjc_isometric_legendre.nondimensional_force l w (xi / (IZR N * l)) / T). field. repeat split; lra.
Qed.
Lemma wlc_entropic : forall N l p, (0 < N)%Z -> 0 < l -> entropic (wlc_isometric.force N l p).
Proof.
  intros N l p HN Hl xi T T' HT HT'.
  change (wlc_isometric.nondimensional_force N (p / (IZR N * l)) (xi / (IZR N * l)) * BOLTZMANN_CONSTANT * T' / l / T' = wlc_isometric.nondimensional_force N (p / (IZR N * l)) (xi / (IZR N * l)) * BOLTZMANN_CONSTANT * T / l / T). field. repeat split; lra.
Qed.
Lemma fjc_entropic : forall prof N l xi T T' f f', 0 < l -> 0 < T -> 0 < T' ->
  fjc_isometric.force prof N l xi T = Some f -> fjc_isometric.force prof N l xi T' = Some f' -> f' / T' = f / T.
Proof.
  intros prof N l xi T T' f f' Hl HT HT'. unfold fjc_isometric.force. destruct (fjc_isometric.nondimensional_force prof N _) as [r |]; [|discriminate].
  cbn [bind]. intros E E'. injection E as <-. injection E' as <-.
  change (r * BOLTZMANN_CONSTANT * T' / l / T' = r * BOLTZMANN_CONSTANT * T / l / T). field. repeat split; lra.
Qed.
