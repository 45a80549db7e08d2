(** Results do not depend on the units. *)
From Coq Require Import Reals ZArith List Lra Lia Psatz.
From Verif Require Import Scalar MMath MConst MIdeal MFjc MEfjc MSwfjc MMorse MLennardJones MLogSquared MWlc.
From Verif Require Import SpecThermo SpecChains SpecUnits PBase.
From Verif Require PIdentIdeal PIdentFjc PIdentSwfjc PIdentEfjc PIdentMorse PIdentLennardJones PIdentLogSquared PIdentWlc.
Open Scope R_scope.

Lemma pow_units : forall a, 0 < a -> 0 < a ^ 2. Proof. intros; apply pow_lt; assumption. Qed.

Lemma kappa_units : forall a b k l T, 0 < a -> 0 < b -> 0 < T -> kappa (b * k / a ^ 2) (a * l) (b * T) = kappa k l T.
Proof. intros. unfold kappa. pose proof kB_pos. field. repeat split; lra. Qed.

Lemma epsilon_units : forall b e T, 0 < b -> 0 < T -> epsilon (b * e) (b * T) = epsilon e T.
Proof. intros. unfold epsilon. pose proof kB_pos. field. repeat split; lra. Qed.

Lemma zeta_units : forall a p N l, 0 < a -> (0 < N)%Z -> 0 < l -> zeta (a * p) N (a * l) = zeta p N l.
Proof. intros a p N l Ha HN Hl. unfold zeta. apply IZR_lt in HN. field. repeat split; lra. Qed.

Section Units.
Context {a b : R} (Ha : 0 < a) (Hb : 0 < b).

Lemma force_units : forall f l T, 0 < T -> b / a * f * (a * l) / (kB * (b * T)) = f * l / (kB * T).
Proof. intros. pose proof kB_pos. field. repeat split; lra. Qed.

Lemma hinge_units : forall l m T,
  (sdec 8 0 * spowi spi 2 * (m / (a ^ 2 * b)%R) * spowi (a * l) 2 * BOLTZMANN_CONSTANT * (b * T) / spowi PLANCK_CONSTANT 2)%S =
  (sdec 8 0 * spowi spi 2 * m * spowi l 2 * BOLTZMANN_CONSTANT * T / spowi PLANCK_CONSTANT 2)%S.
Proof. intros l m T. unR. rewrite ?B_eq, ?H_eq. pose proof hP_pos. field. repeat split; lra. Qed.

Lemma bend_units : forall l m T s,
  (sdec 4 0 * s * spowi spi 2 * (m / (a ^ 2 * b)%R) * spowi (a * l) 2 * BOLTZMANN_CONSTANT * (b * T) / spowi PLANCK_CONSTANT 2)%S =
  (sdec 4 0 * s * spowi spi 2 * m * spowi l 2 * BOLTZMANN_CONSTANT * T / spowi PLANCK_CONSTANT 2)%S.
Proof. intros l m T s. unR. rewrite ?B_eq, ?H_eq. pose proof hP_pos. field. repeat split; lra. Qed.

Lemma link_units : forall l kap, 0 < l -> 0 < kap ->
  (sdec 5 1 * sln (sdec 2 0 * spi * spowi (a * l)%R 2 / kap))%S = (sdec 5 1 * sln (sdec 2 0 * spi * spowi l 2 / kap) + sln a)%S.
Proof.
  intros l kap Hl Hk. unR.
  replace (2 * PI * (a * l) ^ 2 / kap) with (2 * PI * l ^ 2 / kap * a ^ 2) by (field; lra). pose proof PI_RGT_0.
  rewrite ln_mult; [| | apply pow_lt; assumption].
  - replace (a ^ 2) with (a * a) by ring. rewrite (ln_mult a a) by assumption. field.
  - apply Rdiv_lt_0_compat; [|assumption]. apply Rmult_lt_0_compat; [lra | apply pow_lt; assumption].
Qed.
End Units.

Section Lift.
Context {n l T a b : R} (Hn : 0 < n) (Hl : 0 < l) (HT : 0 < T) (Ha : 0 < a) (Hb : 0 < b).

Section Isotensional.
Context {c c' : isotensional}
  (D : isotensional_dimensionless l T c) (D' : isotensional_dimensionless (a * l) (b * T) c')
  (X : isotensional_extensive n c) (X' : isotensional_extensive n c').

Lemma lengths_lift : (forall x, I_nd_length_per_link c' x = I_nd_length_per_link c x) -> same_lengths a b c c'.
Proof.
  intros E f eta.
  assert (P : I_length_per_link c' (b / a * f) = a * I_length_per_link c f).
  { rewrite (proj1 (proj2 (D f))), (proj1 (proj2 (D' (b / a * f)))), force_units, E by assumption. ring. }
  split; [|split; [exact P | split; [|apply E]]].
  - rewrite (proj1 (X f)), (proj1 (X' (b / a * f))), P. ring.
  - rewrite (proj1 (proj2 (X eta))), (proj1 (proj2 (X' eta))), E. reflexivity.
Qed.

Lemma relative_lift : (forall x, I_nd_rel_gibbs_per_link c' x = I_nd_rel_gibbs_per_link c x) -> same_relative_gibbs a b c c'.
Proof.
  intros E f eta.
  assert (P : I_rel_gibbs_per_link c' (b / a * f) = b * I_rel_gibbs_per_link c f).
  { destruct (D f) as (_ & _ & _ & _ & _ & ->), (D' (b / a * f)) as (_ & _ & _ & _ & _ & ->). rewrite force_units, E by assumption. ring. }
  destruct (X f) as (_ & _ & _ & U & _ & _), (X' (b / a * f)) as (_ & _ & _ & U' & _ & _), (X eta) as (_ & _ & _ & _ & _ & V), (X' eta) as (_ & _ & _ & _ & _ & V').
  split; [|split; [exact P | split; [|apply E]]].
  - rewrite U, U', P. ring.
  - rewrite V, V', E. reflexivity.
Qed.

Lemma shifted_lift : forall s, (forall x, I_nd_gibbs_per_link c' x = I_nd_gibbs_per_link c x + s) -> gibbs_shifted n T s a b c c'.
Proof.
  intros s E f eta.
  assert (P : I_gibbs_per_link c' (b / a * f) = b * (I_gibbs_per_link c f + kB * T * s)).
  { destruct (D f) as (_ & _ & _ & -> & _ & _), (D' (b / a * f)) as (_ & _ & _ & -> & _ & _). rewrite force_units, E by assumption. ring. }
  destruct (X f) as (_ & _ & U & _ & _ & _), (X' (b / a * f)) as (_ & _ & U' & _ & _ & _), (X eta) as (_ & _ & _ & _ & V & _), (X' eta) as (_ & _ & _ & _ & V' & _).
  split; [|split; [exact P | split; [|apply E]]].
  - rewrite U, U', P. ring.
  - rewrite V, V', E. ring.
Qed.

Lemma gibbs_lift : (forall x, I_nd_gibbs_per_link c' x = I_nd_gibbs_per_link c x) -> same_gibbs a b c c'.
Proof.
  intros E f eta. assert (E' : forall x, I_nd_gibbs_per_link c' x = I_nd_gibbs_per_link c x + 0) by (intro x; rewrite E; ring).
  destruct (shifted_lift 0 E' f eta) as (P & Q & U & V). rewrite P, Q, U, V. repeat split; ring.
Qed.
End Isotensional.

Section Legendre.
Context {h h' : isotensional_helmholtz}
  (D : isotensional_helmholtz_dimensionless l T h) (D' : isotensional_helmholtz_dimensionless (a * l) (b * T) h')
  (X : isotensional_helmholtz_extensive n h) (X' : isotensional_helmholtz_extensive n h').

Lemma h_relative_lift : (forall x, IH_nd_rel_helmholtz_per_link h' x = IH_nd_rel_helmholtz_per_link h x) -> same_relative_helmholtz a b h h'.
Proof.
  intros E f eta.
  assert (P : IH_rel_helmholtz_per_link h' (b / a * f) = b * IH_rel_helmholtz_per_link h f).
  { destruct (D f) as (_ & _ & _ & ->), (D' (b / a * f)) as (_ & _ & _ & ->). rewrite force_units, E by assumption. ring. }
  destruct (X f) as (_ & U & _ & _), (X' (b / a * f)) as (_ & U' & _ & _), (X eta) as (_ & _ & _ & V), (X' eta) as (_ & _ & _ & V').
  split; [|split; [exact P | split; [|apply E]]].
  - rewrite U, U', P. ring.
  - rewrite V, V', E. reflexivity.
Qed.

Lemma h_shifted_lift : forall s, (forall x, IH_nd_helmholtz_per_link h' x = IH_nd_helmholtz_per_link h x + s) -> helmholtz_shifted n T s a b h h'.
Proof.
  intros s E f eta.
  assert (P : IH_helmholtz_per_link h' (b / a * f) = b * (IH_helmholtz_per_link h f + kB * T * s)).
  { destruct (D f) as (_ & -> & _ & _), (D' (b / a * f)) as (_ & -> & _ & _). rewrite force_units, E by assumption. ring. }
  destruct (X f) as (U & _ & _ & _), (X' (b / a * f)) as (U' & _ & _ & _), (X eta) as (_ & _ & V & _), (X' eta) as (_ & _ & V' & _).
  split; [|split; [exact P | split; [|apply E]]].
  - rewrite U, U', P. ring.
  - rewrite V, V', E. ring.
Qed.

Lemma h_lift : (forall x, IH_nd_helmholtz_per_link h' x = IH_nd_helmholtz_per_link h x) -> same_helmholtz a b h h'.
Proof.
  intros E f eta. assert (E' : forall x, IH_nd_helmholtz_per_link h' x = IH_nd_helmholtz_per_link h x + 0) by (intro x; rewrite E; ring).
  destruct (h_shifted_lift 0 E' f eta) as (P & Q & U & V). rewrite P, Q, U, V. repeat split; ring.
Qed.
End Legendre.

Section Isometric.
Context {c c' : isometric}
  (D : isometric_dimensionless n l T c) (D' : isometric_dimensionless n (a * l) (b * T) c')
  (X : isometric_extensive n c) (X' : isometric_extensive n c').

Lemma length_units : forall xi, a * xi / (n * (a * l)) = xi / (n * l).
Proof. intros. field. repeat split; lra. Qed.

Lemma forces_lift : (forall x, S_nd_force c' x = S_nd_force c x) ->
  (forall x, S_nd_rel_helmholtz_per_link c' x = S_nd_rel_helmholtz_per_link c x) -> same_forces a b c c'.
Proof.
  intros F E xi eta.
  assert (G : forall x, S_nd_rel_helmholtz c' x = S_nd_rel_helmholtz c x).
  { intro x. destruct (X x) as (_ & _ & _ & ->), (X' x) as (_ & _ & _ & ->). rewrite E. reflexivity. }
  destruct (D xi) as (U & _ & _ & V & W), (D' (a * xi)) as (U' & _ & _ & V' & W'). rewrite length_units in U', V', W'.
  repeat split; try (rewrite ?F, ?E, ?G; reflexivity).
  - rewrite U, U', F. field. lra.
  - rewrite V, V', G. ring.
  - rewrite W, W', E. ring.
Qed.

Lemma s_shifted_lift : forall s, (forall x, S_nd_helmholtz_per_link c' x = S_nd_helmholtz_per_link c x + s) -> isometric_helmholtz_shifted n T s a b c c'.
Proof.
  intros s E xi eta.
  assert (G : forall x, S_nd_helmholtz c' x = S_nd_helmholtz c x + n * s).
  { intro x. destruct (X x) as (_ & _ & -> & _), (X' x) as (_ & _ & -> & _). rewrite E. ring. }
  destruct (D xi) as (_ & V & W & _ & _), (D' (a * xi)) as (_ & V' & W' & _ & _). rewrite length_units in V', W'.
  repeat split; try (rewrite ?E, ?G; reflexivity).
  - rewrite V, V', G. ring.
  - rewrite W, W', E. ring.
Qed.

Lemma s_lift : (forall x, S_nd_helmholtz_per_link c' x = S_nd_helmholtz_per_link c x) -> same_isometric_helmholtz a b c c'.
Proof.
  intros E xi eta. assert (E' : forall x, S_nd_helmholtz_per_link c' x = S_nd_helmholtz_per_link c x + 0) by (intro x; rewrite E; ring).
  destruct (s_shifted_lift 0 E' xi eta) as (P & Q & U & V). rewrite P, Q, U, V. repeat split; ring.
Qed.
End Isometric.
End Lift.

Lemma times_pos : forall x y, 0 < x -> 0 < y -> 0 < x * y. Proof. exact Rmult_lt_0_compat. Qed.
Lemma stiff_pos : forall a b k, 0 < a -> 0 < b -> 0 < k -> 0 < b * k / a ^ 2.
Proof. intros. apply Rdiv_lt_0_compat; [apply times_pos | apply pow_lt]; assumption. Qed.
Lemma links_pos : forall N, (0 < N)%Z -> 0 < IZR N. Proof. intros N H. apply IZR_lt in H. exact H. Qed.
Lemma kappa_pos : forall k l T, 0 < k -> 0 < l -> 0 < T -> 0 < kappa k l T.
Proof. intros. unfold kappa. pose proof kB_pos. apply Rdiv_lt_0_compat; apply times_pos; try assumption. apply pow_lt; assumption. Qed.

Ltac unfold_chain := unfold C_ideal_isometric, C_ideal_isotensional, C_fjc_isometric_legendre, C_fjc_isotensional, C_fjc_isotensional_legendre, C_swfjc_isometric_legendre, C_swfjc_isotensional, C_swfjc_isotensional_legendre, C_efjc_isometric_asymptotic_alternative_legendre, C_efjc_isometric_asymptotic_legendre, C_efjc_isometric_asymptotic_reduced_legendre, C_efjc_isotensional, C_efjc_isotensional_asymptotic, C_efjc_isotensional_asymptotic_alternative, C_efjc_isotensional_asymptotic_alternative_legendre, C_efjc_isotensional_asymptotic_legendre, C_efjc_isotensional_asymptotic_reduced, C_efjc_isotensional_asymptotic_reduced_legendre, C_efjc_isotensional_legendre, C_morse_isometric_asymptotic_legendre, C_morse_isometric_asymptotic_reduced_legendre, C_morse_isotensional, C_morse_isotensional_asymptotic, C_morse_isotensional_asymptotic_legendre, C_morse_isotensional_asymptotic_reduced, C_morse_isotensional_asymptotic_reduced_legendre, C_morse_isotensional_legendre, C_lennard_jones_isometric_asymptotic_legendre, C_lennard_jones_isometric_asymptotic_reduced_legendre, C_lennard_jones_isotensional, C_lennard_jones_isotensional_asymptotic, C_lennard_jones_isotensional_asymptotic_legendre, C_lennard_jones_isotensional_asymptotic_reduced, C_lennard_jones_isotensional_asymptotic_reduced_legendre, C_lennard_jones_isotensional_legendre, C_log_squared_isometric_asymptotic_legendre, C_log_squared_isometric_asymptotic_reduced_legendre, C_log_squared_isotensional, C_log_squared_isotensional_asymptotic, C_log_squared_isotensional_asymptotic_legendre, C_log_squared_isotensional_asymptotic_reduced, C_log_squared_isotensional_asymptotic_reduced_legendre, C_log_squared_isotensional_legendre, C_wlc_isometric.
Ltac fields := cbn [I_nd_length_per_link I_nd_rel_gibbs_per_link I_nd_gibbs_per_link IH_nd_rel_helmholtz_per_link IH_nd_helmholtz_per_link
  S_nd_force S_nd_rel_helmholtz_per_link S_nd_helmholtz_per_link].
Ltac params := rewrite ?kappa_units, ?epsilon_units, ?zeta_units by assumption.

(** Functions of the nondimensional parameters alone, and functions with the momentum term. *)
Ltac same := intro; unfold_chain; fields; params; reflexivity.
Ltac hinged a b Ha Hb l m T := intro; unfold_chain; fields; params; generalize (hinge_units Ha Hb l m T); unR; let Q := fresh in intro Q; rewrite ?Q; reflexivity.
Lemma well_units : forall a l w, 0 < a -> 0 < l -> a * w / (a * l) = w / l. Proof. intros. field. lra. Qed.
Lemma sw_force : forall a l w x, 0 < a -> 0 < l ->
  (swfjc_isometric_legendre.nondimensional_force (a * l) (a * w) x : R) = swfjc_isometric_legendre.nondimensional_force l w x.
Proof. intros a l w x Ha Hl. pose proof (well_units a l w Ha Hl) as Q. unfold swfjc_isometric_legendre.nondimensional_force. unR. rewrite Q. reflexivity. Qed.
Ltac welled a b Ha Hb l m T w := let Q' := fresh in
  intro; unfold_chain; fields;
  generalize (hinge_units Ha Hb l m T); unR; intros Q'; rewrite ?(sw_force a l w), ?(well_units a l w), ?Q' by assumption; first [reflexivity | ring].
Ltac linked a b Ha Hb k l m T := intro; unfold_chain; fields; params;
  generalize (hinge_units Ha Hb l m T); generalize (link_units Ha l (kappa k l T) ltac:(assumption) ltac:(apply kappa_pos; assumption));
  unR; let Q := fresh in let Q' := fresh in intros Q Q'; rewrite ?Q, ?Q'; abstract_calls; first [ring | unfold Rdiv; ring].
Ltac bent a b Ha Hb l m T := intro; unfold_chain; fields; params; generalize (bend_units Ha Hb l m T); unR; let Q := fresh in intro Q; rewrite ?Q; reflexivity.
Ltac positive := solve [assumption | apply links_pos; assumption | repeat first [assumption | apply stiff_pos | apply times_pos]].

Lemma ideal_isometric_units : forall a b N l m T, 0 < a -> 0 < b -> (0 < N)%Z -> 0 < l -> 0 < T -> 
  same_forces a b
    (C_ideal_isometric N l m T)
    (C_ideal_isometric N (a * l) (m / (a ^ 2 * b)) (b * T)) /\
  same_isometric_helmholtz a b
    (C_ideal_isometric N l m T)
    (C_ideal_isometric N (a * l) (m / (a ^ 2 * b)) (b * T)).
Proof.
  intros a b N l m T  Ha Hb HN Hl HT .
  pose proof (links_pos N HN) as Hn.
  pose proof (PIdentIdeal.ideal_isometric_dimensionless N l m T ltac:(positive) ltac:(positive) ltac:(positive)) as D. pose proof (PIdentIdeal.ideal_isometric_dimensionless N (a * l) (m / (a ^ 2 * b)) (b * T) ltac:(positive) ltac:(positive) ltac:(positive)) as D'.
  pose proof (PIdentIdeal.ideal_isometric_extensive N l m T ltac:(positive) ltac:(positive) ltac:(positive)) as X. pose proof (PIdentIdeal.ideal_isometric_extensive N (a * l) (m / (a ^ 2 * b)) (b * T) ltac:(positive) ltac:(positive) ltac:(positive)) as X'.
  split.
  - eapply forces_lift; try exact D; try exact D'; try exact X; try exact X'; try assumption; same.
  - eapply s_lift; try exact D; try exact D'; try exact X; try exact X'; try assumption. hinged a b Ha Hb l m T.
Qed.

Lemma ideal_isotensional_units : forall a b N l m T, 0 < a -> 0 < b -> (0 < N)%Z -> 0 < l -> 0 < T -> 
  same_lengths a b
    (C_ideal_isotensional N l m T)
    (C_ideal_isotensional N (a * l) (m / (a ^ 2 * b)) (b * T)) /\
  same_relative_gibbs a b
    (C_ideal_isotensional N l m T)
    (C_ideal_isotensional N (a * l) (m / (a ^ 2 * b)) (b * T)) /\
  same_gibbs a b
    (C_ideal_isotensional N l m T)
    (C_ideal_isotensional N (a * l) (m / (a ^ 2 * b)) (b * T)).
Proof.
  intros a b N l m T  Ha Hb HN Hl HT .
  pose proof (links_pos N HN) as Hn.
  pose proof (PIdentIdeal.ideal_isotensional_dimensionless N l m T ltac:(positive) ltac:(positive) ltac:(positive)) as D. pose proof (PIdentIdeal.ideal_isotensional_dimensionless N (a * l) (m / (a ^ 2 * b)) (b * T) ltac:(positive) ltac:(positive) ltac:(positive)) as D'.
  pose proof (PIdentIdeal.ideal_isotensional_extensive N l m T ltac:(positive) ltac:(positive) ltac:(positive)) as X. pose proof (PIdentIdeal.ideal_isotensional_extensive N (a * l) (m / (a ^ 2 * b)) (b * T) ltac:(positive) ltac:(positive) ltac:(positive)) as X'.
  split; [|split].
  - eapply lengths_lift; try exact D; try exact D'; try exact X; try exact X'; try assumption. same.
  - eapply relative_lift; try exact D; try exact D'; try exact X; try exact X'; try assumption. same.
  - eapply gibbs_lift; try exact D; try exact D'; try exact X; try exact X'; try assumption. hinged a b Ha Hb l m T.
Qed.

Lemma fjc_isometric_legendre_units : forall a b N l m T, 0 < a -> 0 < b -> (0 < N)%Z -> 0 < l -> 0 < T -> 
  same_forces a b
    (C_fjc_isometric_legendre N l m T)
    (C_fjc_isometric_legendre N (a * l) (m / (a ^ 2 * b)) (b * T)) /\
  same_isometric_helmholtz a b
    (C_fjc_isometric_legendre N l m T)
    (C_fjc_isometric_legendre N (a * l) (m / (a ^ 2 * b)) (b * T)).
Proof.
  intros a b N l m T  Ha Hb HN Hl HT .
  pose proof (links_pos N HN) as Hn.
  pose proof (PIdentFjc.fjc_isometric_legendre_dimensionless N l m T ltac:(positive) ltac:(positive) ltac:(positive)) as D. pose proof (PIdentFjc.fjc_isometric_legendre_dimensionless N (a * l) (m / (a ^ 2 * b)) (b * T) ltac:(positive) ltac:(positive) ltac:(positive)) as D'.
  pose proof (PIdentFjc.fjc_isometric_legendre_extensive N l m T ltac:(positive) ltac:(positive) ltac:(positive)) as X. pose proof (PIdentFjc.fjc_isometric_legendre_extensive N (a * l) (m / (a ^ 2 * b)) (b * T) ltac:(positive) ltac:(positive) ltac:(positive)) as X'.
  split.
  - eapply forces_lift; try exact D; try exact D'; try exact X; try exact X'; try assumption; same.
  - eapply s_lift; try exact D; try exact D'; try exact X; try exact X'; try assumption. hinged a b Ha Hb l m T.
Qed.

Lemma fjc_isotensional_units : forall a b N l m T, 0 < a -> 0 < b -> (0 < N)%Z -> 0 < l -> 0 < T -> 
  same_lengths a b
    (C_fjc_isotensional N l m T)
    (C_fjc_isotensional N (a * l) (m / (a ^ 2 * b)) (b * T)) /\
  same_relative_gibbs a b
    (C_fjc_isotensional N l m T)
    (C_fjc_isotensional N (a * l) (m / (a ^ 2 * b)) (b * T)) /\
  same_gibbs a b
    (C_fjc_isotensional N l m T)
    (C_fjc_isotensional N (a * l) (m / (a ^ 2 * b)) (b * T)).
Proof.
  intros a b N l m T  Ha Hb HN Hl HT .
  pose proof (links_pos N HN) as Hn.
  pose proof (PIdentFjc.fjc_isotensional_dimensionless N l m T ltac:(positive) ltac:(positive) ltac:(positive)) as D. pose proof (PIdentFjc.fjc_isotensional_dimensionless N (a * l) (m / (a ^ 2 * b)) (b * T) ltac:(positive) ltac:(positive) ltac:(positive)) as D'.
  pose proof (PIdentFjc.fjc_isotensional_extensive N l m T ltac:(positive) ltac:(positive) ltac:(positive)) as X. pose proof (PIdentFjc.fjc_isotensional_extensive N (a * l) (m / (a ^ 2 * b)) (b * T) ltac:(positive) ltac:(positive) ltac:(positive)) as X'.
  split; [|split].
  - eapply lengths_lift; try exact D; try exact D'; try exact X; try exact X'; try assumption. same.
  - eapply relative_lift; try exact D; try exact D'; try exact X; try exact X'; try assumption. same.
  - eapply gibbs_lift; try exact D; try exact D'; try exact X; try exact X'; try assumption. hinged a b Ha Hb l m T.
Qed.

Lemma fjc_isotensional_legendre_units : forall a b N l m T, 0 < a -> 0 < b -> (0 < N)%Z -> 0 < l -> 0 < T -> 
  same_relative_helmholtz a b
    (C_fjc_isotensional_legendre N l m T)
    (C_fjc_isotensional_legendre N (a * l) (m / (a ^ 2 * b)) (b * T)) /\
  same_helmholtz a b
    (C_fjc_isotensional_legendre N l m T)
    (C_fjc_isotensional_legendre N (a * l) (m / (a ^ 2 * b)) (b * T)).
Proof.
  intros a b N l m T  Ha Hb HN Hl HT .
  pose proof (links_pos N HN) as Hn.
  pose proof (PIdentFjc.fjc_isotensional_legendre_dimensionless N l m T ltac:(positive) ltac:(positive) ltac:(positive)) as D. pose proof (PIdentFjc.fjc_isotensional_legendre_dimensionless N (a * l) (m / (a ^ 2 * b)) (b * T) ltac:(positive) ltac:(positive) ltac:(positive)) as D'.
  pose proof (PIdentFjc.fjc_isotensional_legendre_extensive N l m T ltac:(positive) ltac:(positive) ltac:(positive)) as X. pose proof (PIdentFjc.fjc_isotensional_legendre_extensive N (a * l) (m / (a ^ 2 * b)) (b * T) ltac:(positive) ltac:(positive) ltac:(positive)) as X'.
  split.
  - eapply h_relative_lift; try exact D; try exact D'; try exact X; try exact X'; try assumption. same.
  - eapply h_lift; try exact D; try exact D'; try exact X; try exact X'; try assumption. hinged a b Ha Hb l m T.
Qed.

Lemma swfjc_isometric_legendre_units : forall a b N l m T w, 0 < a -> 0 < b -> (0 < N)%Z -> 0 < l -> 0 < T -> 0 < w -> 
  same_forces a b
    (C_swfjc_isometric_legendre N l m T w)
    (C_swfjc_isometric_legendre N (a * l) (m / (a ^ 2 * b)) (b * T) (a * w)) /\
  same_isometric_helmholtz a b
    (C_swfjc_isometric_legendre N l m T w)
    (C_swfjc_isometric_legendre N (a * l) (m / (a ^ 2 * b)) (b * T) (a * w)).
Proof.
  intros a b N l m T w Ha Hb HN Hl HT Hw.
  pose proof (links_pos N HN) as Hn.
  pose proof (PIdentSwfjc.swfjc_isometric_legendre_dimensionless N l m T w ltac:(positive) ltac:(positive) ltac:(positive) ltac:(positive)) as D. pose proof (PIdentSwfjc.swfjc_isometric_legendre_dimensionless N (a * l) (m / (a ^ 2 * b)) (b * T) (a * w) ltac:(positive) ltac:(positive) ltac:(positive) ltac:(positive)) as D'.
  pose proof (PIdentSwfjc.swfjc_isometric_legendre_extensive N l m T w ltac:(positive) ltac:(positive) ltac:(positive) ltac:(positive)) as X. pose proof (PIdentSwfjc.swfjc_isometric_legendre_extensive N (a * l) (m / (a ^ 2 * b)) (b * T) (a * w) ltac:(positive) ltac:(positive) ltac:(positive) ltac:(positive)) as X'.
  split.
  - eapply forces_lift; try exact D; try exact D'; try exact X; try exact X'; try assumption; welled a b Ha Hb l m T w.
  - eapply s_lift; try exact D; try exact D'; try exact X; try exact X'; try assumption. welled a b Ha Hb l m T w.
Qed.

Lemma swfjc_isotensional_units : forall a b N l m T w, 0 < a -> 0 < b -> (0 < N)%Z -> 0 < l -> 0 < T -> 0 < w -> 
  same_lengths a b
    (C_swfjc_isotensional N l m T w)
    (C_swfjc_isotensional N (a * l) (m / (a ^ 2 * b)) (b * T) (a * w)) /\
  same_relative_gibbs a b
    (C_swfjc_isotensional N l m T w)
    (C_swfjc_isotensional N (a * l) (m / (a ^ 2 * b)) (b * T) (a * w)) /\
  same_gibbs a b
    (C_swfjc_isotensional N l m T w)
    (C_swfjc_isotensional N (a * l) (m / (a ^ 2 * b)) (b * T) (a * w)).
Proof.
  intros a b N l m T w Ha Hb HN Hl HT Hw.
  pose proof (links_pos N HN) as Hn.
  pose proof (PIdentSwfjc.swfjc_isotensional_dimensionless N l m T w ltac:(positive) ltac:(positive) ltac:(positive) ltac:(positive)) as D. pose proof (PIdentSwfjc.swfjc_isotensional_dimensionless N (a * l) (m / (a ^ 2 * b)) (b * T) (a * w) ltac:(positive) ltac:(positive) ltac:(positive) ltac:(positive)) as D'.
  pose proof (PIdentSwfjc.swfjc_isotensional_extensive N l m T w ltac:(positive) ltac:(positive) ltac:(positive) ltac:(positive)) as X. pose proof (PIdentSwfjc.swfjc_isotensional_extensive N (a * l) (m / (a ^ 2 * b)) (b * T) (a * w) ltac:(positive) ltac:(positive) ltac:(positive) ltac:(positive)) as X'.
  split; [|split].
  - eapply lengths_lift; try exact D; try exact D'; try exact X; try exact X'; try assumption. welled a b Ha Hb l m T w.
  - eapply relative_lift; try exact D; try exact D'; try exact X; try exact X'; try assumption. welled a b Ha Hb l m T w.
  - eapply gibbs_lift; try exact D; try exact D'; try exact X; try exact X'; try assumption. welled a b Ha Hb l m T w.
Qed.

Lemma swfjc_isotensional_legendre_units : forall a b N l m T w, 0 < a -> 0 < b -> (0 < N)%Z -> 0 < l -> 0 < T -> 0 < w -> 
  same_relative_helmholtz a b
    (C_swfjc_isotensional_legendre N l m T w)
    (C_swfjc_isotensional_legendre N (a * l) (m / (a ^ 2 * b)) (b * T) (a * w)) /\
  same_helmholtz a b
    (C_swfjc_isotensional_legendre N l m T w)
    (C_swfjc_isotensional_legendre N (a * l) (m / (a ^ 2 * b)) (b * T) (a * w)).
Proof.
  intros a b N l m T w Ha Hb HN Hl HT Hw.
  pose proof (links_pos N HN) as Hn.
  pose proof (PIdentSwfjc.swfjc_isotensional_legendre_dimensionless N l m T w ltac:(positive) ltac:(positive) ltac:(positive) ltac:(positive)) as D. pose proof (PIdentSwfjc.swfjc_isotensional_legendre_dimensionless N (a * l) (m / (a ^ 2 * b)) (b * T) (a * w) ltac:(positive) ltac:(positive) ltac:(positive) ltac:(positive)) as D'.
  pose proof (PIdentSwfjc.swfjc_isotensional_legendre_extensive N l m T w ltac:(positive) ltac:(positive) ltac:(positive) ltac:(positive)) as X. pose proof (PIdentSwfjc.swfjc_isotensional_legendre_extensive N (a * l) (m / (a ^ 2 * b)) (b * T) (a * w) ltac:(positive) ltac:(positive) ltac:(positive) ltac:(positive)) as X'.
  split.
  - eapply h_relative_lift; try exact D; try exact D'; try exact X; try exact X'; try assumption. welled a b Ha Hb l m T w.
  - eapply h_lift; try exact D; try exact D'; try exact X; try exact X'; try assumption. welled a b Ha Hb l m T w.
Qed.

Lemma efjc_isometric_asymptotic_alternative_legendre_units : forall a b N l m T k, 0 < a -> 0 < b -> (0 < N)%Z -> 0 < l -> 0 < T -> 0 < k -> 
  same_forces a b
    (C_efjc_isometric_asymptotic_alternative_legendre N l m T k)
    (C_efjc_isometric_asymptotic_alternative_legendre N (a * l) (m / (a ^ 2 * b)) (b * T) (b * k / a ^ 2)) /\
  isometric_helmholtz_shifted (IZR N) T (- ((1 - 1 / IZR N) * ln a)) a b
    (C_efjc_isometric_asymptotic_alternative_legendre N l m T k)
    (C_efjc_isometric_asymptotic_alternative_legendre N (a * l) (m / (a ^ 2 * b)) (b * T) (b * k / a ^ 2)).
Proof.
  intros a b N l m T k Ha Hb HN Hl HT Hk.
  pose proof (links_pos N HN) as Hn.
  pose proof (PIdentEfjc.efjc_isometric_asymptotic_alternative_legendre_dimensionless N l m T k ltac:(positive) ltac:(positive) ltac:(positive) ltac:(positive)) as D. pose proof (PIdentEfjc.efjc_isometric_asymptotic_alternative_legendre_dimensionless N (a * l) (m / (a ^ 2 * b)) (b * T) (b * k / a ^ 2) ltac:(positive) ltac:(positive) ltac:(positive) ltac:(positive)) as D'.
  pose proof (PIdentEfjc.efjc_isometric_asymptotic_alternative_legendre_extensive N l m T k ltac:(positive) ltac:(positive) ltac:(positive) ltac:(positive)) as X. pose proof (PIdentEfjc.efjc_isometric_asymptotic_alternative_legendre_extensive N (a * l) (m / (a ^ 2 * b)) (b * T) (b * k / a ^ 2) ltac:(positive) ltac:(positive) ltac:(positive) ltac:(positive)) as X'.
  split.
  - eapply forces_lift; try exact D; try exact D'; try exact X; try exact X'; try assumption; same.
  - eapply s_shifted_lift; try exact D; try exact D'; try exact X; try exact X'; try assumption. linked a b Ha Hb k l m T.
Qed.

Lemma efjc_isometric_asymptotic_legendre_units : forall a b N l m T k, 0 < a -> 0 < b -> (0 < N)%Z -> 0 < l -> 0 < T -> 0 < k -> 
  same_forces a b
    (C_efjc_isometric_asymptotic_legendre N l m T k)
    (C_efjc_isometric_asymptotic_legendre N (a * l) (m / (a ^ 2 * b)) (b * T) (b * k / a ^ 2)) /\
  isometric_helmholtz_shifted (IZR N) T (- ((1 - 1 / IZR N) * ln a)) a b
    (C_efjc_isometric_asymptotic_legendre N l m T k)
    (C_efjc_isometric_asymptotic_legendre N (a * l) (m / (a ^ 2 * b)) (b * T) (b * k / a ^ 2)).
Proof.
  intros a b N l m T k Ha Hb HN Hl HT Hk.
  pose proof (links_pos N HN) as Hn.
  pose proof (PIdentEfjc.efjc_isometric_asymptotic_legendre_dimensionless N l m T k ltac:(positive) ltac:(positive) ltac:(positive) ltac:(positive)) as D. pose proof (PIdentEfjc.efjc_isometric_asymptotic_legendre_dimensionless N (a * l) (m / (a ^ 2 * b)) (b * T) (b * k / a ^ 2) ltac:(positive) ltac:(positive) ltac:(positive) ltac:(positive)) as D'.
  pose proof (PIdentEfjc.efjc_isometric_asymptotic_legendre_extensive N l m T k ltac:(positive) ltac:(positive) ltac:(positive) ltac:(positive)) as X. pose proof (PIdentEfjc.efjc_isometric_asymptotic_legendre_extensive N (a * l) (m / (a ^ 2 * b)) (b * T) (b * k / a ^ 2) ltac:(positive) ltac:(positive) ltac:(positive) ltac:(positive)) as X'.
  split.
  - eapply forces_lift; try exact D; try exact D'; try exact X; try exact X'; try assumption; same.
  - eapply s_shifted_lift; try exact D; try exact D'; try exact X; try exact X'; try assumption. linked a b Ha Hb k l m T.
Qed.

Lemma efjc_isometric_asymptotic_reduced_legendre_units : forall a b N l m T k, 0 < a -> 0 < b -> (0 < N)%Z -> 0 < l -> 0 < T -> 0 < k -> 
  same_forces a b
    (C_efjc_isometric_asymptotic_reduced_legendre N l m T k)
    (C_efjc_isometric_asymptotic_reduced_legendre N (a * l) (m / (a ^ 2 * b)) (b * T) (b * k / a ^ 2)) /\
  isometric_helmholtz_shifted (IZR N) T (- ((1 - 1 / IZR N) * ln a)) a b
    (C_efjc_isometric_asymptotic_reduced_legendre N l m T k)
    (C_efjc_isometric_asymptotic_reduced_legendre N (a * l) (m / (a ^ 2 * b)) (b * T) (b * k / a ^ 2)).
Proof.
  intros a b N l m T k Ha Hb HN Hl HT Hk.
  pose proof (links_pos N HN) as Hn.
  pose proof (PIdentEfjc.efjc_isometric_asymptotic_reduced_legendre_dimensionless N l m T k ltac:(positive) ltac:(positive) ltac:(positive) ltac:(positive)) as D. pose proof (PIdentEfjc.efjc_isometric_asymptotic_reduced_legendre_dimensionless N (a * l) (m / (a ^ 2 * b)) (b * T) (b * k / a ^ 2) ltac:(positive) ltac:(positive) ltac:(positive) ltac:(positive)) as D'.
  pose proof (PIdentEfjc.efjc_isometric_asymptotic_reduced_legendre_extensive N l m T k ltac:(positive) ltac:(positive) ltac:(positive) ltac:(positive)) as X. pose proof (PIdentEfjc.efjc_isometric_asymptotic_reduced_legendre_extensive N (a * l) (m / (a ^ 2 * b)) (b * T) (b * k / a ^ 2) ltac:(positive) ltac:(positive) ltac:(positive) ltac:(positive)) as X'.
  split.
  - eapply forces_lift; try exact D; try exact D'; try exact X; try exact X'; try assumption; same.
  - eapply s_shifted_lift; try exact D; try exact D'; try exact X; try exact X'; try assumption. linked a b Ha Hb k l m T.
Qed.

Lemma efjc_isotensional_units : forall a b N l m T k, 0 < a -> 0 < b -> (0 < N)%Z -> 0 < l -> 0 < T -> 0 < k -> 
  same_lengths a b
    (C_efjc_isotensional N l m T k)
    (C_efjc_isotensional N (a * l) (m / (a ^ 2 * b)) (b * T) (b * k / a ^ 2)) /\
  same_relative_gibbs a b
    (C_efjc_isotensional N l m T k)
    (C_efjc_isotensional N (a * l) (m / (a ^ 2 * b)) (b * T) (b * k / a ^ 2)) /\
  gibbs_shifted (IZR N) T (- ln a) a b
    (C_efjc_isotensional N l m T k)
    (C_efjc_isotensional N (a * l) (m / (a ^ 2 * b)) (b * T) (b * k / a ^ 2)).
Proof.
  intros a b N l m T k Ha Hb HN Hl HT Hk.
  pose proof (links_pos N HN) as Hn.
  pose proof (PIdentEfjc.efjc_isotensional_dimensionless N l m T k ltac:(positive) ltac:(positive) ltac:(positive) ltac:(positive)) as D. pose proof (PIdentEfjc.efjc_isotensional_dimensionless N (a * l) (m / (a ^ 2 * b)) (b * T) (b * k / a ^ 2) ltac:(positive) ltac:(positive) ltac:(positive) ltac:(positive)) as D'.
  pose proof (PIdentEfjc.efjc_isotensional_extensive N l m T k ltac:(positive) ltac:(positive) ltac:(positive) ltac:(positive)) as X. pose proof (PIdentEfjc.efjc_isotensional_extensive N (a * l) (m / (a ^ 2 * b)) (b * T) (b * k / a ^ 2) ltac:(positive) ltac:(positive) ltac:(positive) ltac:(positive)) as X'.
  split; [|split].
  - eapply lengths_lift; try exact D; try exact D'; try exact X; try exact X'; try assumption. same.
  - eapply relative_lift; try exact D; try exact D'; try exact X; try exact X'; try assumption. same.
  - eapply shifted_lift; try exact D; try exact D'; try exact X; try exact X'; try assumption. linked a b Ha Hb k l m T.
Qed.

Lemma efjc_isotensional_asymptotic_units : forall a b N l m T k, 0 < a -> 0 < b -> (0 < N)%Z -> 0 < l -> 0 < T -> 0 < k -> 
  same_lengths a b
    (C_efjc_isotensional_asymptotic N l m T k)
    (C_efjc_isotensional_asymptotic N (a * l) (m / (a ^ 2 * b)) (b * T) (b * k / a ^ 2)) /\
  same_relative_gibbs a b
    (C_efjc_isotensional_asymptotic N l m T k)
    (C_efjc_isotensional_asymptotic N (a * l) (m / (a ^ 2 * b)) (b * T) (b * k / a ^ 2)) /\
  gibbs_shifted (IZR N) T (- ln a) a b
    (C_efjc_isotensional_asymptotic N l m T k)
    (C_efjc_isotensional_asymptotic N (a * l) (m / (a ^ 2 * b)) (b * T) (b * k / a ^ 2)).
Proof.
  intros a b N l m T k Ha Hb HN Hl HT Hk.
  pose proof (links_pos N HN) as Hn.
  pose proof (PIdentEfjc.efjc_isotensional_asymptotic_dimensionless N l m T k ltac:(positive) ltac:(positive) ltac:(positive) ltac:(positive)) as D. pose proof (PIdentEfjc.efjc_isotensional_asymptotic_dimensionless N (a * l) (m / (a ^ 2 * b)) (b * T) (b * k / a ^ 2) ltac:(positive) ltac:(positive) ltac:(positive) ltac:(positive)) as D'.
  pose proof (PIdentEfjc.efjc_isotensional_asymptotic_extensive N l m T k ltac:(positive) ltac:(positive) ltac:(positive) ltac:(positive)) as X. pose proof (PIdentEfjc.efjc_isotensional_asymptotic_extensive N (a * l) (m / (a ^ 2 * b)) (b * T) (b * k / a ^ 2) ltac:(positive) ltac:(positive) ltac:(positive) ltac:(positive)) as X'.
  split; [|split].
  - eapply lengths_lift; try exact D; try exact D'; try exact X; try exact X'; try assumption. same.
  - eapply relative_lift; try exact D; try exact D'; try exact X; try exact X'; try assumption. same.
  - eapply shifted_lift; try exact D; try exact D'; try exact X; try exact X'; try assumption. linked a b Ha Hb k l m T.
Qed.

Lemma efjc_isotensional_asymptotic_alternative_units : forall a b N l m T k, 0 < a -> 0 < b -> (0 < N)%Z -> 0 < l -> 0 < T -> 0 < k -> 
  same_lengths a b
    (C_efjc_isotensional_asymptotic_alternative N l m T k)
    (C_efjc_isotensional_asymptotic_alternative N (a * l) (m / (a ^ 2 * b)) (b * T) (b * k / a ^ 2)) /\
  same_relative_gibbs a b
    (C_efjc_isotensional_asymptotic_alternative N l m T k)
    (C_efjc_isotensional_asymptotic_alternative N (a * l) (m / (a ^ 2 * b)) (b * T) (b * k / a ^ 2)) /\
  gibbs_shifted (IZR N) T (- ln a) a b
    (C_efjc_isotensional_asymptotic_alternative N l m T k)
    (C_efjc_isotensional_asymptotic_alternative N (a * l) (m / (a ^ 2 * b)) (b * T) (b * k / a ^ 2)).
Proof.
  intros a b N l m T k Ha Hb HN Hl HT Hk.
  pose proof (links_pos N HN) as Hn.
  pose proof (PIdentEfjc.efjc_isotensional_asymptotic_alternative_dimensionless N l m T k ltac:(positive) ltac:(positive) ltac:(positive) ltac:(positive)) as D. pose proof (PIdentEfjc.efjc_isotensional_asymptotic_alternative_dimensionless N (a * l) (m / (a ^ 2 * b)) (b * T) (b * k / a ^ 2) ltac:(positive) ltac:(positive) ltac:(positive) ltac:(positive)) as D'.
  pose proof (PIdentEfjc.efjc_isotensional_asymptotic_alternative_extensive N l m T k ltac:(positive) ltac:(positive) ltac:(positive) ltac:(positive)) as X. pose proof (PIdentEfjc.efjc_isotensional_asymptotic_alternative_extensive N (a * l) (m / (a ^ 2 * b)) (b * T) (b * k / a ^ 2) ltac:(positive) ltac:(positive) ltac:(positive) ltac:(positive)) as X'.
  split; [|split].
  - eapply lengths_lift; try exact D; try exact D'; try exact X; try exact X'; try assumption. same.
  - eapply relative_lift; try exact D; try exact D'; try exact X; try exact X'; try assumption. same.
  - eapply shifted_lift; try exact D; try exact D'; try exact X; try exact X'; try assumption. linked a b Ha Hb k l m T.
Qed.

Lemma efjc_isotensional_asymptotic_alternative_legendre_units : forall a b N l m T k, 0 < a -> 0 < b -> (0 < N)%Z -> 0 < l -> 0 < T -> 0 < k -> 
  same_relative_helmholtz a b
    (C_efjc_isotensional_asymptotic_alternative_legendre N l m T k)
    (C_efjc_isotensional_asymptotic_alternative_legendre N (a * l) (m / (a ^ 2 * b)) (b * T) (b * k / a ^ 2)) /\
  helmholtz_shifted (IZR N) T (- ln a) a b
    (C_efjc_isotensional_asymptotic_alternative_legendre N l m T k)
    (C_efjc_isotensional_asymptotic_alternative_legendre N (a * l) (m / (a ^ 2 * b)) (b * T) (b * k / a ^ 2)).
Proof.
  intros a b N l m T k Ha Hb HN Hl HT Hk.
  pose proof (links_pos N HN) as Hn.
  pose proof (PIdentEfjc.efjc_isotensional_asymptotic_alternative_legendre_dimensionless N l m T k ltac:(positive) ltac:(positive) ltac:(positive) ltac:(positive)) as D. pose proof (PIdentEfjc.efjc_isotensional_asymptotic_alternative_legendre_dimensionless N (a * l) (m / (a ^ 2 * b)) (b * T) (b * k / a ^ 2) ltac:(positive) ltac:(positive) ltac:(positive) ltac:(positive)) as D'.
  pose proof (PIdentEfjc.efjc_isotensional_asymptotic_alternative_legendre_extensive N l m T k ltac:(positive) ltac:(positive) ltac:(positive) ltac:(positive)) as X. pose proof (PIdentEfjc.efjc_isotensional_asymptotic_alternative_legendre_extensive N (a * l) (m / (a ^ 2 * b)) (b * T) (b * k / a ^ 2) ltac:(positive) ltac:(positive) ltac:(positive) ltac:(positive)) as X'.
  split.
  - eapply h_relative_lift; try exact D; try exact D'; try exact X; try exact X'; try assumption. same.
  - eapply h_shifted_lift; try exact D; try exact D'; try exact X; try exact X'; try assumption. linked a b Ha Hb k l m T.
Qed.

Lemma efjc_isotensional_asymptotic_legendre_units : forall a b N l m T k, 0 < a -> 0 < b -> (0 < N)%Z -> 0 < l -> 0 < T -> 0 < k -> 
  same_relative_helmholtz a b
    (C_efjc_isotensional_asymptotic_legendre N l m T k)
    (C_efjc_isotensional_asymptotic_legendre N (a * l) (m / (a ^ 2 * b)) (b * T) (b * k / a ^ 2)) /\
  helmholtz_shifted (IZR N) T (- ln a) a b
    (C_efjc_isotensional_asymptotic_legendre N l m T k)
    (C_efjc_isotensional_asymptotic_legendre N (a * l) (m / (a ^ 2 * b)) (b * T) (b * k / a ^ 2)).
Proof.
  intros a b N l m T k Ha Hb HN Hl HT Hk.
  pose proof (links_pos N HN) as Hn.
  pose proof (PIdentEfjc.efjc_isotensional_asymptotic_legendre_dimensionless N l m T k ltac:(positive) ltac:(positive) ltac:(positive) ltac:(positive)) as D. pose proof (PIdentEfjc.efjc_isotensional_asymptotic_legendre_dimensionless N (a * l) (m / (a ^ 2 * b)) (b * T) (b * k / a ^ 2) ltac:(positive) ltac:(positive) ltac:(positive) ltac:(positive)) as D'.
  pose proof (PIdentEfjc.efjc_isotensional_asymptotic_legendre_extensive N l m T k ltac:(positive) ltac:(positive) ltac:(positive) ltac:(positive)) as X. pose proof (PIdentEfjc.efjc_isotensional_asymptotic_legendre_extensive N (a * l) (m / (a ^ 2 * b)) (b * T) (b * k / a ^ 2) ltac:(positive) ltac:(positive) ltac:(positive) ltac:(positive)) as X'.
  split.
  - eapply h_relative_lift; try exact D; try exact D'; try exact X; try exact X'; try assumption. same.
  - eapply h_shifted_lift; try exact D; try exact D'; try exact X; try exact X'; try assumption. linked a b Ha Hb k l m T.
Qed.

Lemma efjc_isotensional_asymptotic_reduced_units : forall a b N l m T k, 0 < a -> 0 < b -> (0 < N)%Z -> 0 < l -> 0 < T -> 0 < k -> 
  same_lengths a b
    (C_efjc_isotensional_asymptotic_reduced N l m T k)
    (C_efjc_isotensional_asymptotic_reduced N (a * l) (m / (a ^ 2 * b)) (b * T) (b * k / a ^ 2)) /\
  same_relative_gibbs a b
    (C_efjc_isotensional_asymptotic_reduced N l m T k)
    (C_efjc_isotensional_asymptotic_reduced N (a * l) (m / (a ^ 2 * b)) (b * T) (b * k / a ^ 2)) /\
  gibbs_shifted (IZR N) T (- ln a) a b
    (C_efjc_isotensional_asymptotic_reduced N l m T k)
    (C_efjc_isotensional_asymptotic_reduced N (a * l) (m / (a ^ 2 * b)) (b * T) (b * k / a ^ 2)).
Proof.
  intros a b N l m T k Ha Hb HN Hl HT Hk.
  pose proof (links_pos N HN) as Hn.
  pose proof (PIdentEfjc.efjc_isotensional_asymptotic_reduced_dimensionless N l m T k ltac:(positive) ltac:(positive) ltac:(positive) ltac:(positive)) as D. pose proof (PIdentEfjc.efjc_isotensional_asymptotic_reduced_dimensionless N (a * l) (m / (a ^ 2 * b)) (b * T) (b * k / a ^ 2) ltac:(positive) ltac:(positive) ltac:(positive) ltac:(positive)) as D'.
  pose proof (PIdentEfjc.efjc_isotensional_asymptotic_reduced_extensive N l m T k ltac:(positive) ltac:(positive) ltac:(positive) ltac:(positive)) as X. pose proof (PIdentEfjc.efjc_isotensional_asymptotic_reduced_extensive N (a * l) (m / (a ^ 2 * b)) (b * T) (b * k / a ^ 2) ltac:(positive) ltac:(positive) ltac:(positive) ltac:(positive)) as X'.
  split; [|split].
  - eapply lengths_lift; try exact D; try exact D'; try exact X; try exact X'; try assumption. same.
  - eapply relative_lift; try exact D; try exact D'; try exact X; try exact X'; try assumption. same.
  - eapply shifted_lift; try exact D; try exact D'; try exact X; try exact X'; try assumption. linked a b Ha Hb k l m T.
Qed.

Lemma efjc_isotensional_asymptotic_reduced_legendre_units : forall a b N l m T k, 0 < a -> 0 < b -> (0 < N)%Z -> 0 < l -> 0 < T -> 0 < k -> 
  same_relative_helmholtz a b
    (C_efjc_isotensional_asymptotic_reduced_legendre N l m T k)
    (C_efjc_isotensional_asymptotic_reduced_legendre N (a * l) (m / (a ^ 2 * b)) (b * T) (b * k / a ^ 2)) /\
  helmholtz_shifted (IZR N) T (- ln a) a b
    (C_efjc_isotensional_asymptotic_reduced_legendre N l m T k)
    (C_efjc_isotensional_asymptotic_reduced_legendre N (a * l) (m / (a ^ 2 * b)) (b * T) (b * k / a ^ 2)).
Proof.
  intros a b N l m T k Ha Hb HN Hl HT Hk.
  pose proof (links_pos N HN) as Hn.
  pose proof (PIdentEfjc.efjc_isotensional_asymptotic_reduced_legendre_dimensionless N l m T k ltac:(positive) ltac:(positive) ltac:(positive) ltac:(positive)) as D. pose proof (PIdentEfjc.efjc_isotensional_asymptotic_reduced_legendre_dimensionless N (a * l) (m / (a ^ 2 * b)) (b * T) (b * k / a ^ 2) ltac:(positive) ltac:(positive) ltac:(positive) ltac:(positive)) as D'.
  pose proof (PIdentEfjc.efjc_isotensional_asymptotic_reduced_legendre_extensive N l m T k ltac:(positive) ltac:(positive) ltac:(positive) ltac:(positive)) as X. pose proof (PIdentEfjc.efjc_isotensional_asymptotic_reduced_legendre_extensive N (a * l) (m / (a ^ 2 * b)) (b * T) (b * k / a ^ 2) ltac:(positive) ltac:(positive) ltac:(positive) ltac:(positive)) as X'.
  split.
  - eapply h_relative_lift; try exact D; try exact D'; try exact X; try exact X'; try assumption. same.
  - eapply h_shifted_lift; try exact D; try exact D'; try exact X; try exact X'; try assumption. linked a b Ha Hb k l m T.
Qed.

Lemma efjc_isotensional_legendre_units : forall a b N l m T k, 0 < a -> 0 < b -> (0 < N)%Z -> 0 < l -> 0 < T -> 0 < k -> 
  same_relative_helmholtz a b
    (C_efjc_isotensional_legendre N l m T k)
    (C_efjc_isotensional_legendre N (a * l) (m / (a ^ 2 * b)) (b * T) (b * k / a ^ 2)) /\
  helmholtz_shifted (IZR N) T (- ln a) a b
    (C_efjc_isotensional_legendre N l m T k)
    (C_efjc_isotensional_legendre N (a * l) (m / (a ^ 2 * b)) (b * T) (b * k / a ^ 2)).
Proof.
  intros a b N l m T k Ha Hb HN Hl HT Hk.
  pose proof (links_pos N HN) as Hn.
  pose proof (PIdentEfjc.efjc_isotensional_legendre_dimensionless N l m T k ltac:(positive) ltac:(positive) ltac:(positive) ltac:(positive)) as D. pose proof (PIdentEfjc.efjc_isotensional_legendre_dimensionless N (a * l) (m / (a ^ 2 * b)) (b * T) (b * k / a ^ 2) ltac:(positive) ltac:(positive) ltac:(positive) ltac:(positive)) as D'.
  pose proof (PIdentEfjc.efjc_isotensional_legendre_extensive N l m T k ltac:(positive) ltac:(positive) ltac:(positive) ltac:(positive)) as X. pose proof (PIdentEfjc.efjc_isotensional_legendre_extensive N (a * l) (m / (a ^ 2 * b)) (b * T) (b * k / a ^ 2) ltac:(positive) ltac:(positive) ltac:(positive) ltac:(positive)) as X'.
  split.
  - eapply h_relative_lift; try exact D; try exact D'; try exact X; try exact X'; try assumption. same.
  - eapply h_shifted_lift; try exact D; try exact D'; try exact X; try exact X'; try assumption. linked a b Ha Hb k l m T.
Qed.

Lemma morse_isometric_asymptotic_legendre_units : forall a b N l m T k e, 0 < a -> 0 < b -> (0 < N)%Z -> 0 < l -> 0 < T -> 0 < k -> 0 < e -> 
  same_forces a b
    (C_morse_isometric_asymptotic_legendre N l m T k e)
    (C_morse_isometric_asymptotic_legendre N (a * l) (m / (a ^ 2 * b)) (b * T) (b * k / a ^ 2) (b * e)) /\
  isometric_helmholtz_shifted (IZR N) T (- ((1 - 1 / IZR N) * ln a)) a b
    (C_morse_isometric_asymptotic_legendre N l m T k e)
    (C_morse_isometric_asymptotic_legendre N (a * l) (m / (a ^ 2 * b)) (b * T) (b * k / a ^ 2) (b * e)).
Proof.
  intros a b N l m T k e Ha Hb HN Hl HT Hk He.
  pose proof (links_pos N HN) as Hn.
  pose proof (PIdentMorse.morse_isometric_asymptotic_legendre_dimensionless N l m T k e ltac:(positive) ltac:(positive) ltac:(positive) ltac:(positive) ltac:(positive)) as D. pose proof (PIdentMorse.morse_isometric_asymptotic_legendre_dimensionless N (a * l) (m / (a ^ 2 * b)) (b * T) (b * k / a ^ 2) (b * e) ltac:(positive) ltac:(positive) ltac:(positive) ltac:(positive) ltac:(positive)) as D'.
  pose proof (PIdentMorse.morse_isometric_asymptotic_legendre_extensive N l m T k e ltac:(positive) ltac:(positive) ltac:(positive) ltac:(positive) ltac:(positive)) as X. pose proof (PIdentMorse.morse_isometric_asymptotic_legendre_extensive N (a * l) (m / (a ^ 2 * b)) (b * T) (b * k / a ^ 2) (b * e) ltac:(positive) ltac:(positive) ltac:(positive) ltac:(positive) ltac:(positive)) as X'.
  split.
  - eapply forces_lift; try exact D; try exact D'; try exact X; try exact X'; try assumption; same.
  - eapply s_shifted_lift; try exact D; try exact D'; try exact X; try exact X'; try assumption. linked a b Ha Hb k l m T.
Qed.

Lemma morse_isometric_asymptotic_reduced_legendre_units : forall a b N l m T k e, 0 < a -> 0 < b -> (0 < N)%Z -> 0 < l -> 0 < T -> 0 < k -> 0 < e -> 
  same_forces a b
    (C_morse_isometric_asymptotic_reduced_legendre N l m T k e)
    (C_morse_isometric_asymptotic_reduced_legendre N (a * l) (m / (a ^ 2 * b)) (b * T) (b * k / a ^ 2) (b * e)) /\
  isometric_helmholtz_shifted (IZR N) T (- ((1 - 1 / IZR N) * ln a)) a b
    (C_morse_isometric_asymptotic_reduced_legendre N l m T k e)
    (C_morse_isometric_asymptotic_reduced_legendre N (a * l) (m / (a ^ 2 * b)) (b * T) (b * k / a ^ 2) (b * e)).
Proof.
  intros a b N l m T k e Ha Hb HN Hl HT Hk He.
  pose proof (links_pos N HN) as Hn.
  pose proof (PIdentMorse.morse_isometric_asymptotic_reduced_legendre_dimensionless N l m T k e ltac:(positive) ltac:(positive) ltac:(positive) ltac:(positive) ltac:(positive)) as D. pose proof (PIdentMorse.morse_isometric_asymptotic_reduced_legendre_dimensionless N (a * l) (m / (a ^ 2 * b)) (b * T) (b * k / a ^ 2) (b * e) ltac:(positive) ltac:(positive) ltac:(positive) ltac:(positive) ltac:(positive)) as D'.
  pose proof (PIdentMorse.morse_isometric_asymptotic_reduced_legendre_extensive N l m T k e ltac:(positive) ltac:(positive) ltac:(positive) ltac:(positive) ltac:(positive)) as X. pose proof (PIdentMorse.morse_isometric_asymptotic_reduced_legendre_extensive N (a * l) (m / (a ^ 2 * b)) (b * T) (b * k / a ^ 2) (b * e) ltac:(positive) ltac:(positive) ltac:(positive) ltac:(positive) ltac:(positive)) as X'.
  split.
  - eapply forces_lift; try exact D; try exact D'; try exact X; try exact X'; try assumption; same.
  - eapply s_shifted_lift; try exact D; try exact D'; try exact X; try exact X'; try assumption. linked a b Ha Hb k l m T.
Qed.

Lemma morse_isotensional_units : forall a b N l m T k e, 0 < a -> 0 < b -> (0 < N)%Z -> 0 < l -> 0 < T -> 0 < k -> 0 < e -> 
  same_lengths a b
    (C_morse_isotensional N l m T k e)
    (C_morse_isotensional N (a * l) (m / (a ^ 2 * b)) (b * T) (b * k / a ^ 2) (b * e)) /\
  same_relative_gibbs a b
    (C_morse_isotensional N l m T k e)
    (C_morse_isotensional N (a * l) (m / (a ^ 2 * b)) (b * T) (b * k / a ^ 2) (b * e)) /\
  same_gibbs a b
    (C_morse_isotensional N l m T k e)
    (C_morse_isotensional N (a * l) (m / (a ^ 2 * b)) (b * T) (b * k / a ^ 2) (b * e)).
Proof.
  intros a b N l m T k e Ha Hb HN Hl HT Hk He.
  pose proof (links_pos N HN) as Hn.
  pose proof (PIdentMorse.morse_isotensional_dimensionless N l m T k e ltac:(positive) ltac:(positive) ltac:(positive) ltac:(positive) ltac:(positive)) as D. pose proof (PIdentMorse.morse_isotensional_dimensionless N (a * l) (m / (a ^ 2 * b)) (b * T) (b * k / a ^ 2) (b * e) ltac:(positive) ltac:(positive) ltac:(positive) ltac:(positive) ltac:(positive)) as D'.
  pose proof (PIdentMorse.morse_isotensional_extensive N l m T k e ltac:(positive) ltac:(positive) ltac:(positive) ltac:(positive) ltac:(positive)) as X. pose proof (PIdentMorse.morse_isotensional_extensive N (a * l) (m / (a ^ 2 * b)) (b * T) (b * k / a ^ 2) (b * e) ltac:(positive) ltac:(positive) ltac:(positive) ltac:(positive) ltac:(positive)) as X'.
  split; [|split].
  - eapply lengths_lift; try exact D; try exact D'; try exact X; try exact X'; try assumption. same.
  - eapply relative_lift; try exact D; try exact D'; try exact X; try exact X'; try assumption. same.
  - eapply gibbs_lift; try exact D; try exact D'; try exact X; try exact X'; try assumption. hinged a b Ha Hb l m T.
Qed.

Lemma morse_isotensional_asymptotic_units : forall a b N l m T k e, 0 < a -> 0 < b -> (0 < N)%Z -> 0 < l -> 0 < T -> 0 < k -> 0 < e -> 
  same_lengths a b
    (C_morse_isotensional_asymptotic N l m T k e)
    (C_morse_isotensional_asymptotic N (a * l) (m / (a ^ 2 * b)) (b * T) (b * k / a ^ 2) (b * e)) /\
  same_relative_gibbs a b
    (C_morse_isotensional_asymptotic N l m T k e)
    (C_morse_isotensional_asymptotic N (a * l) (m / (a ^ 2 * b)) (b * T) (b * k / a ^ 2) (b * e)) /\
  gibbs_shifted (IZR N) T (- ln a) a b
    (C_morse_isotensional_asymptotic N l m T k e)
    (C_morse_isotensional_asymptotic N (a * l) (m / (a ^ 2 * b)) (b * T) (b * k / a ^ 2) (b * e)).
Proof.
  intros a b N l m T k e Ha Hb HN Hl HT Hk He.
  pose proof (links_pos N HN) as Hn.
  pose proof (PIdentMorse.morse_isotensional_asymptotic_dimensionless N l m T k e ltac:(positive) ltac:(positive) ltac:(positive) ltac:(positive) ltac:(positive)) as D. pose proof (PIdentMorse.morse_isotensional_asymptotic_dimensionless N (a * l) (m / (a ^ 2 * b)) (b * T) (b * k / a ^ 2) (b * e) ltac:(positive) ltac:(positive) ltac:(positive) ltac:(positive) ltac:(positive)) as D'.
  pose proof (PIdentMorse.morse_isotensional_asymptotic_extensive N l m T k e ltac:(positive) ltac:(positive) ltac:(positive) ltac:(positive) ltac:(positive)) as X. pose proof (PIdentMorse.morse_isotensional_asymptotic_extensive N (a * l) (m / (a ^ 2 * b)) (b * T) (b * k / a ^ 2) (b * e) ltac:(positive) ltac:(positive) ltac:(positive) ltac:(positive) ltac:(positive)) as X'.
  split; [|split].
  - eapply lengths_lift; try exact D; try exact D'; try exact X; try exact X'; try assumption. same.
  - eapply relative_lift; try exact D; try exact D'; try exact X; try exact X'; try assumption. same.
  - eapply shifted_lift; try exact D; try exact D'; try exact X; try exact X'; try assumption. linked a b Ha Hb k l m T.
Qed.

Lemma morse_isotensional_asymptotic_legendre_units : forall a b N l m T k e, 0 < a -> 0 < b -> (0 < N)%Z -> 0 < l -> 0 < T -> 0 < k -> 0 < e -> 
  same_relative_helmholtz a b
    (C_morse_isotensional_asymptotic_legendre N l m T k e)
    (C_morse_isotensional_asymptotic_legendre N (a * l) (m / (a ^ 2 * b)) (b * T) (b * k / a ^ 2) (b * e)) /\
  helmholtz_shifted (IZR N) T (- ln a) a b
    (C_morse_isotensional_asymptotic_legendre N l m T k e)
    (C_morse_isotensional_asymptotic_legendre N (a * l) (m / (a ^ 2 * b)) (b * T) (b * k / a ^ 2) (b * e)).
Proof.
  intros a b N l m T k e Ha Hb HN Hl HT Hk He.
  pose proof (links_pos N HN) as Hn.
  pose proof (PIdentMorse.morse_isotensional_asymptotic_legendre_dimensionless N l m T k e ltac:(positive) ltac:(positive) ltac:(positive) ltac:(positive) ltac:(positive)) as D. pose proof (PIdentMorse.morse_isotensional_asymptotic_legendre_dimensionless N (a * l) (m / (a ^ 2 * b)) (b * T) (b * k / a ^ 2) (b * e) ltac:(positive) ltac:(positive) ltac:(positive) ltac:(positive) ltac:(positive)) as D'.
  pose proof (PIdentMorse.morse_isotensional_asymptotic_legendre_extensive N l m T k e ltac:(positive) ltac:(positive) ltac:(positive) ltac:(positive) ltac:(positive)) as X. pose proof (PIdentMorse.morse_isotensional_asymptotic_legendre_extensive N (a * l) (m / (a ^ 2 * b)) (b * T) (b * k / a ^ 2) (b * e) ltac:(positive) ltac:(positive) ltac:(positive) ltac:(positive) ltac:(positive)) as X'.
  split.
  - eapply h_relative_lift; try exact D; try exact D'; try exact X; try exact X'; try assumption. same.
  - eapply h_shifted_lift; try exact D; try exact D'; try exact X; try exact X'; try assumption. linked a b Ha Hb k l m T.
Qed.

Lemma morse_isotensional_asymptotic_reduced_units : forall a b N l m T k e, 0 < a -> 0 < b -> (0 < N)%Z -> 0 < l -> 0 < T -> 0 < k -> 0 < e -> 
  same_lengths a b
    (C_morse_isotensional_asymptotic_reduced N l m T k e)
    (C_morse_isotensional_asymptotic_reduced N (a * l) (m / (a ^ 2 * b)) (b * T) (b * k / a ^ 2) (b * e)) /\
  same_relative_gibbs a b
    (C_morse_isotensional_asymptotic_reduced N l m T k e)
    (C_morse_isotensional_asymptotic_reduced N (a * l) (m / (a ^ 2 * b)) (b * T) (b * k / a ^ 2) (b * e)) /\
  gibbs_shifted (IZR N) T (- ln a) a b
    (C_morse_isotensional_asymptotic_reduced N l m T k e)
    (C_morse_isotensional_asymptotic_reduced N (a * l) (m / (a ^ 2 * b)) (b * T) (b * k / a ^ 2) (b * e)).
Proof.
  intros a b N l m T k e Ha Hb HN Hl HT Hk He.
  pose proof (links_pos N HN) as Hn.
  pose proof (PIdentMorse.morse_isotensional_asymptotic_reduced_dimensionless N l m T k e ltac:(positive) ltac:(positive) ltac:(positive) ltac:(positive) ltac:(positive)) as D. pose proof (PIdentMorse.morse_isotensional_asymptotic_reduced_dimensionless N (a * l) (m / (a ^ 2 * b)) (b * T) (b * k / a ^ 2) (b * e) ltac:(positive) ltac:(positive) ltac:(positive) ltac:(positive) ltac:(positive)) as D'.
  pose proof (PIdentMorse.morse_isotensional_asymptotic_reduced_extensive N l m T k e ltac:(positive) ltac:(positive) ltac:(positive) ltac:(positive) ltac:(positive)) as X. pose proof (PIdentMorse.morse_isotensional_asymptotic_reduced_extensive N (a * l) (m / (a ^ 2 * b)) (b * T) (b * k / a ^ 2) (b * e) ltac:(positive) ltac:(positive) ltac:(positive) ltac:(positive) ltac:(positive)) as X'.
  split; [|split].
  - eapply lengths_lift; try exact D; try exact D'; try exact X; try exact X'; try assumption. same.
  - eapply relative_lift; try exact D; try exact D'; try exact X; try exact X'; try assumption. same.
  - eapply shifted_lift; try exact D; try exact D'; try exact X; try exact X'; try assumption. linked a b Ha Hb k l m T.
Qed.

Lemma morse_isotensional_asymptotic_reduced_legendre_units : forall a b N l m T k e, 0 < a -> 0 < b -> (0 < N)%Z -> 0 < l -> 0 < T -> 0 < k -> 0 < e -> 
  same_relative_helmholtz a b
    (C_morse_isotensional_asymptotic_reduced_legendre N l m T k e)
    (C_morse_isotensional_asymptotic_reduced_legendre N (a * l) (m / (a ^ 2 * b)) (b * T) (b * k / a ^ 2) (b * e)) /\
  helmholtz_shifted (IZR N) T (- ln a) a b
    (C_morse_isotensional_asymptotic_reduced_legendre N l m T k e)
    (C_morse_isotensional_asymptotic_reduced_legendre N (a * l) (m / (a ^ 2 * b)) (b * T) (b * k / a ^ 2) (b * e)).
Proof.
  intros a b N l m T k e Ha Hb HN Hl HT Hk He.
  pose proof (links_pos N HN) as Hn.
  pose proof (PIdentMorse.morse_isotensional_asymptotic_reduced_legendre_dimensionless N l m T k e ltac:(positive) ltac:(positive) ltac:(positive) ltac:(positive) ltac:(positive)) as D. pose proof (PIdentMorse.morse_isotensional_asymptotic_reduced_legendre_dimensionless N (a * l) (m / (a ^ 2 * b)) (b * T) (b * k / a ^ 2) (b * e) ltac:(positive) ltac:(positive) ltac:(positive) ltac:(positive) ltac:(positive)) as D'.
  pose proof (PIdentMorse.morse_isotensional_asymptotic_reduced_legendre_extensive N l m T k e ltac:(positive) ltac:(positive) ltac:(positive) ltac:(positive) ltac:(positive)) as X. pose proof (PIdentMorse.morse_isotensional_asymptotic_reduced_legendre_extensive N (a * l) (m / (a ^ 2 * b)) (b * T) (b * k / a ^ 2) (b * e) ltac:(positive) ltac:(positive) ltac:(positive) ltac:(positive) ltac:(positive)) as X'.
  split.
  - eapply h_relative_lift; try exact D; try exact D'; try exact X; try exact X'; try assumption. same.
  - eapply h_shifted_lift; try exact D; try exact D'; try exact X; try exact X'; try assumption. linked a b Ha Hb k l m T.
Qed.

Lemma morse_isotensional_legendre_units : forall a b N l m T k e, 0 < a -> 0 < b -> (0 < N)%Z -> 0 < l -> 0 < T -> 0 < k -> 0 < e -> 
  same_relative_helmholtz a b
    (C_morse_isotensional_legendre N l m T k e)
    (C_morse_isotensional_legendre N (a * l) (m / (a ^ 2 * b)) (b * T) (b * k / a ^ 2) (b * e)) /\
  same_helmholtz a b
    (C_morse_isotensional_legendre N l m T k e)
    (C_morse_isotensional_legendre N (a * l) (m / (a ^ 2 * b)) (b * T) (b * k / a ^ 2) (b * e)).
Proof.
  intros a b N l m T k e Ha Hb HN Hl HT Hk He.
  pose proof (links_pos N HN) as Hn.
  pose proof (PIdentMorse.morse_isotensional_legendre_dimensionless N l m T k e ltac:(positive) ltac:(positive) ltac:(positive) ltac:(positive) ltac:(positive)) as D. pose proof (PIdentMorse.morse_isotensional_legendre_dimensionless N (a * l) (m / (a ^ 2 * b)) (b * T) (b * k / a ^ 2) (b * e) ltac:(positive) ltac:(positive) ltac:(positive) ltac:(positive) ltac:(positive)) as D'.
  pose proof (PIdentMorse.morse_isotensional_legendre_extensive N l m T k e ltac:(positive) ltac:(positive) ltac:(positive) ltac:(positive) ltac:(positive)) as X. pose proof (PIdentMorse.morse_isotensional_legendre_extensive N (a * l) (m / (a ^ 2 * b)) (b * T) (b * k / a ^ 2) (b * e) ltac:(positive) ltac:(positive) ltac:(positive) ltac:(positive) ltac:(positive)) as X'.
  split.
  - eapply h_relative_lift; try exact D; try exact D'; try exact X; try exact X'; try assumption. same.
  - eapply h_lift; try exact D; try exact D'; try exact X; try exact X'; try assumption. hinged a b Ha Hb l m T.
Qed.

Lemma lennard_jones_isometric_asymptotic_legendre_units : forall a b N l m T k, 0 < a -> 0 < b -> (0 < N)%Z -> 0 < l -> 0 < T -> 0 < k -> 
  same_forces a b
    (C_lennard_jones_isometric_asymptotic_legendre N l m T k)
    (C_lennard_jones_isometric_asymptotic_legendre N (a * l) (m / (a ^ 2 * b)) (b * T) (b * k / a ^ 2)) /\
  isometric_helmholtz_shifted (IZR N) T (- ((1 - 1 / IZR N) * ln a)) a b
    (C_lennard_jones_isometric_asymptotic_legendre N l m T k)
    (C_lennard_jones_isometric_asymptotic_legendre N (a * l) (m / (a ^ 2 * b)) (b * T) (b * k / a ^ 2)).
Proof.
  intros a b N l m T k Ha Hb HN Hl HT Hk.
  pose proof (links_pos N HN) as Hn.
  pose proof (PIdentLennardJones.lennard_jones_isometric_asymptotic_legendre_dimensionless N l m T k ltac:(positive) ltac:(positive) ltac:(positive) ltac:(positive)) as D. pose proof (PIdentLennardJones.lennard_jones_isometric_asymptotic_legendre_dimensionless N (a * l) (m / (a ^ 2 * b)) (b * T) (b * k / a ^ 2) ltac:(positive) ltac:(positive) ltac:(positive) ltac:(positive)) as D'.
  pose proof (PIdentLennardJones.lennard_jones_isometric_asymptotic_legendre_extensive N l m T k ltac:(positive) ltac:(positive) ltac:(positive) ltac:(positive)) as X. pose proof (PIdentLennardJones.lennard_jones_isometric_asymptotic_legendre_extensive N (a * l) (m / (a ^ 2 * b)) (b * T) (b * k / a ^ 2) ltac:(positive) ltac:(positive) ltac:(positive) ltac:(positive)) as X'.
  split.
  - eapply forces_lift; try exact D; try exact D'; try exact X; try exact X'; try assumption; same.
  - eapply s_shifted_lift; try exact D; try exact D'; try exact X; try exact X'; try assumption. linked a b Ha Hb k l m T.
Qed.

Lemma lennard_jones_isometric_asymptotic_reduced_legendre_units : forall a b N l m T k, 0 < a -> 0 < b -> (0 < N)%Z -> 0 < l -> 0 < T -> 0 < k -> 
  same_forces a b
    (C_lennard_jones_isometric_asymptotic_reduced_legendre N l m T k)
    (C_lennard_jones_isometric_asymptotic_reduced_legendre N (a * l) (m / (a ^ 2 * b)) (b * T) (b * k / a ^ 2)) /\
  isometric_helmholtz_shifted (IZR N) T (- ((1 - 1 / IZR N) * ln a)) a b
    (C_lennard_jones_isometric_asymptotic_reduced_legendre N l m T k)
    (C_lennard_jones_isometric_asymptotic_reduced_legendre N (a * l) (m / (a ^ 2 * b)) (b * T) (b * k / a ^ 2)).
Proof.
  intros a b N l m T k Ha Hb HN Hl HT Hk.
  pose proof (links_pos N HN) as Hn.
  pose proof (PIdentLennardJones.lennard_jones_isometric_asymptotic_reduced_legendre_dimensionless N l m T k ltac:(positive) ltac:(positive) ltac:(positive) ltac:(positive)) as D. pose proof (PIdentLennardJones.lennard_jones_isometric_asymptotic_reduced_legendre_dimensionless N (a * l) (m / (a ^ 2 * b)) (b * T) (b * k / a ^ 2) ltac:(positive) ltac:(positive) ltac:(positive) ltac:(positive)) as D'.
  pose proof (PIdentLennardJones.lennard_jones_isometric_asymptotic_reduced_legendre_extensive N l m T k ltac:(positive) ltac:(positive) ltac:(positive) ltac:(positive)) as X. pose proof (PIdentLennardJones.lennard_jones_isometric_asymptotic_reduced_legendre_extensive N (a * l) (m / (a ^ 2 * b)) (b * T) (b * k / a ^ 2) ltac:(positive) ltac:(positive) ltac:(positive) ltac:(positive)) as X'.
  split.
  - eapply forces_lift; try exact D; try exact D'; try exact X; try exact X'; try assumption; same.
  - eapply s_shifted_lift; try exact D; try exact D'; try exact X; try exact X'; try assumption. linked a b Ha Hb k l m T.
Qed.

Lemma lennard_jones_isotensional_units : forall a b N l m T k, 0 < a -> 0 < b -> (0 < N)%Z -> 0 < l -> 0 < T -> 0 < k -> 
  same_lengths a b
    (C_lennard_jones_isotensional N l m T k)
    (C_lennard_jones_isotensional N (a * l) (m / (a ^ 2 * b)) (b * T) (b * k / a ^ 2)) /\
  same_relative_gibbs a b
    (C_lennard_jones_isotensional N l m T k)
    (C_lennard_jones_isotensional N (a * l) (m / (a ^ 2 * b)) (b * T) (b * k / a ^ 2)) /\
  same_gibbs a b
    (C_lennard_jones_isotensional N l m T k)
    (C_lennard_jones_isotensional N (a * l) (m / (a ^ 2 * b)) (b * T) (b * k / a ^ 2)).
Proof.
  intros a b N l m T k Ha Hb HN Hl HT Hk.
  pose proof (links_pos N HN) as Hn.
  pose proof (PIdentLennardJones.lennard_jones_isotensional_dimensionless N l m T k ltac:(positive) ltac:(positive) ltac:(positive) ltac:(positive)) as D. pose proof (PIdentLennardJones.lennard_jones_isotensional_dimensionless N (a * l) (m / (a ^ 2 * b)) (b * T) (b * k / a ^ 2) ltac:(positive) ltac:(positive) ltac:(positive) ltac:(positive)) as D'.
  pose proof (PIdentLennardJones.lennard_jones_isotensional_extensive N l m T k ltac:(positive) ltac:(positive) ltac:(positive) ltac:(positive)) as X. pose proof (PIdentLennardJones.lennard_jones_isotensional_extensive N (a * l) (m / (a ^ 2 * b)) (b * T) (b * k / a ^ 2) ltac:(positive) ltac:(positive) ltac:(positive) ltac:(positive)) as X'.
  split; [|split].
  - eapply lengths_lift; try exact D; try exact D'; try exact X; try exact X'; try assumption. same.
  - eapply relative_lift; try exact D; try exact D'; try exact X; try exact X'; try assumption. same.
  - eapply gibbs_lift; try exact D; try exact D'; try exact X; try exact X'; try assumption. hinged a b Ha Hb l m T.
Qed.

Lemma lennard_jones_isotensional_asymptotic_units : forall a b N l m T k, 0 < a -> 0 < b -> (0 < N)%Z -> 0 < l -> 0 < T -> 0 < k -> 
  same_lengths a b
    (C_lennard_jones_isotensional_asymptotic N l m T k)
    (C_lennard_jones_isotensional_asymptotic N (a * l) (m / (a ^ 2 * b)) (b * T) (b * k / a ^ 2)) /\
  same_relative_gibbs a b
    (C_lennard_jones_isotensional_asymptotic N l m T k)
    (C_lennard_jones_isotensional_asymptotic N (a * l) (m / (a ^ 2 * b)) (b * T) (b * k / a ^ 2)) /\
  gibbs_shifted (IZR N) T (- ln a) a b
    (C_lennard_jones_isotensional_asymptotic N l m T k)
    (C_lennard_jones_isotensional_asymptotic N (a * l) (m / (a ^ 2 * b)) (b * T) (b * k / a ^ 2)).
Proof.
  intros a b N l m T k Ha Hb HN Hl HT Hk.
  pose proof (links_pos N HN) as Hn.
  pose proof (PIdentLennardJones.lennard_jones_isotensional_asymptotic_dimensionless N l m T k ltac:(positive) ltac:(positive) ltac:(positive) ltac:(positive)) as D. pose proof (PIdentLennardJones.lennard_jones_isotensional_asymptotic_dimensionless N (a * l) (m / (a ^ 2 * b)) (b * T) (b * k / a ^ 2) ltac:(positive) ltac:(positive) ltac:(positive) ltac:(positive)) as D'.
  pose proof (PIdentLennardJones.lennard_jones_isotensional_asymptotic_extensive N l m T k ltac:(positive) ltac:(positive) ltac:(positive) ltac:(positive)) as X. pose proof (PIdentLennardJones.lennard_jones_isotensional_asymptotic_extensive N (a * l) (m / (a ^ 2 * b)) (b * T) (b * k / a ^ 2) ltac:(positive) ltac:(positive) ltac:(positive) ltac:(positive)) as X'.
  split; [|split].
  - eapply lengths_lift; try exact D; try exact D'; try exact X; try exact X'; try assumption. same.
  - eapply relative_lift; try exact D; try exact D'; try exact X; try exact X'; try assumption. same.
  - eapply shifted_lift; try exact D; try exact D'; try exact X; try exact X'; try assumption. linked a b Ha Hb k l m T.
Qed.

Lemma lennard_jones_isotensional_asymptotic_legendre_units : forall a b N l m T k, 0 < a -> 0 < b -> (0 < N)%Z -> 0 < l -> 0 < T -> 0 < k -> 
  same_relative_helmholtz a b
    (C_lennard_jones_isotensional_asymptotic_legendre N l m T k)
    (C_lennard_jones_isotensional_asymptotic_legendre N (a * l) (m / (a ^ 2 * b)) (b * T) (b * k / a ^ 2)) /\
  helmholtz_shifted (IZR N) T (- ln a) a b
    (C_lennard_jones_isotensional_asymptotic_legendre N l m T k)
    (C_lennard_jones_isotensional_asymptotic_legendre N (a * l) (m / (a ^ 2 * b)) (b * T) (b * k / a ^ 2)).
Proof.
  intros a b N l m T k Ha Hb HN Hl HT Hk.
  pose proof (links_pos N HN) as Hn.
  pose proof (PIdentLennardJones.lennard_jones_isotensional_asymptotic_legendre_dimensionless N l m T k ltac:(positive) ltac:(positive) ltac:(positive) ltac:(positive)) as D. pose proof (PIdentLennardJones.lennard_jones_isotensional_asymptotic_legendre_dimensionless N (a * l) (m / (a ^ 2 * b)) (b * T) (b * k / a ^ 2) ltac:(positive) ltac:(positive) ltac:(positive) ltac:(positive)) as D'.
  pose proof (PIdentLennardJones.lennard_jones_isotensional_asymptotic_legendre_extensive N l m T k ltac:(positive) ltac:(positive) ltac:(positive) ltac:(positive)) as X. pose proof (PIdentLennardJones.lennard_jones_isotensional_asymptotic_legendre_extensive N (a * l) (m / (a ^ 2 * b)) (b * T) (b * k / a ^ 2) ltac:(positive) ltac:(positive) ltac:(positive) ltac:(positive)) as X'.
  split.
  - eapply h_relative_lift; try exact D; try exact D'; try exact X; try exact X'; try assumption. same.
  - eapply h_shifted_lift; try exact D; try exact D'; try exact X; try exact X'; try assumption. linked a b Ha Hb k l m T.
Qed.

Lemma lennard_jones_isotensional_asymptotic_reduced_units : forall a b N l m T k, 0 < a -> 0 < b -> (0 < N)%Z -> 0 < l -> 0 < T -> 0 < k -> 
  same_lengths a b
    (C_lennard_jones_isotensional_asymptotic_reduced N l m T k)
    (C_lennard_jones_isotensional_asymptotic_reduced N (a * l) (m / (a ^ 2 * b)) (b * T) (b * k / a ^ 2)) /\
  same_relative_gibbs a b
    (C_lennard_jones_isotensional_asymptotic_reduced N l m T k)
    (C_lennard_jones_isotensional_asymptotic_reduced N (a * l) (m / (a ^ 2 * b)) (b * T) (b * k / a ^ 2)) /\
  gibbs_shifted (IZR N) T (- ln a) a b
    (C_lennard_jones_isotensional_asymptotic_reduced N l m T k)
    (C_lennard_jones_isotensional_asymptotic_reduced N (a * l) (m / (a ^ 2 * b)) (b * T) (b * k / a ^ 2)).
Proof.
  intros a b N l m T k Ha Hb HN Hl HT Hk.
  pose proof (links_pos N HN) as Hn.
  pose proof (PIdentLennardJones.lennard_jones_isotensional_asymptotic_reduced_dimensionless N l m T k ltac:(positive) ltac:(positive) ltac:(positive) ltac:(positive)) as D. pose proof (PIdentLennardJones.lennard_jones_isotensional_asymptotic_reduced_dimensionless N (a * l) (m / (a ^ 2 * b)) (b * T) (b * k / a ^ 2) ltac:(positive) ltac:(positive) ltac:(positive) ltac:(positive)) as D'.
  pose proof (PIdentLennardJones.lennard_jones_isotensional_asymptotic_reduced_extensive N l m T k ltac:(positive) ltac:(positive) ltac:(positive) ltac:(positive)) as X. pose proof (PIdentLennardJones.lennard_jones_isotensional_asymptotic_reduced_extensive N (a * l) (m / (a ^ 2 * b)) (b * T) (b * k / a ^ 2) ltac:(positive) ltac:(positive) ltac:(positive) ltac:(positive)) as X'.
  split; [|split].
  - eapply lengths_lift; try exact D; try exact D'; try exact X; try exact X'; try assumption. same.
  - eapply relative_lift; try exact D; try exact D'; try exact X; try exact X'; try assumption. same.
  - eapply shifted_lift; try exact D; try exact D'; try exact X; try exact X'; try assumption. linked a b Ha Hb k l m T.
Qed.

Lemma lennard_jones_isotensional_asymptotic_reduced_legendre_units : forall a b N l m T k, 0 < a -> 0 < b -> (0 < N)%Z -> 0 < l -> 0 < T -> 0 < k -> 
  same_relative_helmholtz a b
    (C_lennard_jones_isotensional_asymptotic_reduced_legendre N l m T k)
    (C_lennard_jones_isotensional_asymptotic_reduced_legendre N (a * l) (m / (a ^ 2 * b)) (b * T) (b * k / a ^ 2)) /\
  helmholtz_shifted (IZR N) T (- ln a) a b
    (C_lennard_jones_isotensional_asymptotic_reduced_legendre N l m T k)
    (C_lennard_jones_isotensional_asymptotic_reduced_legendre N (a * l) (m / (a ^ 2 * b)) (b * T) (b * k / a ^ 2)).
Proof.
  intros a b N l m T k Ha Hb HN Hl HT Hk.
  pose proof (links_pos N HN) as Hn.
  pose proof (PIdentLennardJones.lennard_jones_isotensional_asymptotic_reduced_legendre_dimensionless N l m T k ltac:(positive) ltac:(positive) ltac:(positive) ltac:(positive)) as D. pose proof (PIdentLennardJones.lennard_jones_isotensional_asymptotic_reduced_legendre_dimensionless N (a * l) (m / (a ^ 2 * b)) (b * T) (b * k / a ^ 2) ltac:(positive) ltac:(positive) ltac:(positive) ltac:(positive)) as D'.
  pose proof (PIdentLennardJones.lennard_jones_isotensional_asymptotic_reduced_legendre_extensive N l m T k ltac:(positive) ltac:(positive) ltac:(positive) ltac:(positive)) as X. pose proof (PIdentLennardJones.lennard_jones_isotensional_asymptotic_reduced_legendre_extensive N (a * l) (m / (a ^ 2 * b)) (b * T) (b * k / a ^ 2) ltac:(positive) ltac:(positive) ltac:(positive) ltac:(positive)) as X'.
  split.
  - eapply h_relative_lift; try exact D; try exact D'; try exact X; try exact X'; try assumption. same.
  - eapply h_shifted_lift; try exact D; try exact D'; try exact X; try exact X'; try assumption. linked a b Ha Hb k l m T.
Qed.

Lemma lennard_jones_isotensional_legendre_units : forall a b N l m T k, 0 < a -> 0 < b -> (0 < N)%Z -> 0 < l -> 0 < T -> 0 < k -> 
  same_relative_helmholtz a b
    (C_lennard_jones_isotensional_legendre N l m T k)
    (C_lennard_jones_isotensional_legendre N (a * l) (m / (a ^ 2 * b)) (b * T) (b * k / a ^ 2)) /\
  same_helmholtz a b
    (C_lennard_jones_isotensional_legendre N l m T k)
    (C_lennard_jones_isotensional_legendre N (a * l) (m / (a ^ 2 * b)) (b * T) (b * k / a ^ 2)).
Proof.
  intros a b N l m T k Ha Hb HN Hl HT Hk.
  pose proof (links_pos N HN) as Hn.
  pose proof (PIdentLennardJones.lennard_jones_isotensional_legendre_dimensionless N l m T k ltac:(positive) ltac:(positive) ltac:(positive) ltac:(positive)) as D. pose proof (PIdentLennardJones.lennard_jones_isotensional_legendre_dimensionless N (a * l) (m / (a ^ 2 * b)) (b * T) (b * k / a ^ 2) ltac:(positive) ltac:(positive) ltac:(positive) ltac:(positive)) as D'.
  pose proof (PIdentLennardJones.lennard_jones_isotensional_legendre_extensive N l m T k ltac:(positive) ltac:(positive) ltac:(positive) ltac:(positive)) as X. pose proof (PIdentLennardJones.lennard_jones_isotensional_legendre_extensive N (a * l) (m / (a ^ 2 * b)) (b * T) (b * k / a ^ 2) ltac:(positive) ltac:(positive) ltac:(positive) ltac:(positive)) as X'.
  split.
  - eapply h_relative_lift; try exact D; try exact D'; try exact X; try exact X'; try assumption. same.
  - eapply h_lift; try exact D; try exact D'; try exact X; try exact X'; try assumption. hinged a b Ha Hb l m T.
Qed.

Lemma log_squared_isometric_asymptotic_legendre_units : forall a b N l m T k, 0 < a -> 0 < b -> (0 < N)%Z -> 0 < l -> 0 < T -> 0 < k -> 
  same_forces a b
    (C_log_squared_isometric_asymptotic_legendre N l m T k)
    (C_log_squared_isometric_asymptotic_legendre N (a * l) (m / (a ^ 2 * b)) (b * T) (b * k / a ^ 2)) /\
  isometric_helmholtz_shifted (IZR N) T (- ((1 - 1 / IZR N) * ln a)) a b
    (C_log_squared_isometric_asymptotic_legendre N l m T k)
    (C_log_squared_isometric_asymptotic_legendre N (a * l) (m / (a ^ 2 * b)) (b * T) (b * k / a ^ 2)).
Proof.
  intros a b N l m T k Ha Hb HN Hl HT Hk.
  pose proof (links_pos N HN) as Hn.
  pose proof (PIdentLogSquared.log_squared_isometric_asymptotic_legendre_dimensionless N l m T k ltac:(positive) ltac:(positive) ltac:(positive) ltac:(positive)) as D. pose proof (PIdentLogSquared.log_squared_isometric_asymptotic_legendre_dimensionless N (a * l) (m / (a ^ 2 * b)) (b * T) (b * k / a ^ 2) ltac:(positive) ltac:(positive) ltac:(positive) ltac:(positive)) as D'.
  pose proof (PIdentLogSquared.log_squared_isometric_asymptotic_legendre_extensive N l m T k ltac:(positive) ltac:(positive) ltac:(positive) ltac:(positive)) as X. pose proof (PIdentLogSquared.log_squared_isometric_asymptotic_legendre_extensive N (a * l) (m / (a ^ 2 * b)) (b * T) (b * k / a ^ 2) ltac:(positive) ltac:(positive) ltac:(positive) ltac:(positive)) as X'.
  split.
  - eapply forces_lift; try exact D; try exact D'; try exact X; try exact X'; try assumption; same.
  - eapply s_shifted_lift; try exact D; try exact D'; try exact X; try exact X'; try assumption. linked a b Ha Hb k l m T.
Qed.

Lemma log_squared_isometric_asymptotic_reduced_legendre_units : forall a b N l m T k, 0 < a -> 0 < b -> (0 < N)%Z -> 0 < l -> 0 < T -> 0 < k -> 
  same_forces a b
    (C_log_squared_isometric_asymptotic_reduced_legendre N l m T k)
    (C_log_squared_isometric_asymptotic_reduced_legendre N (a * l) (m / (a ^ 2 * b)) (b * T) (b * k / a ^ 2)) /\
  isometric_helmholtz_shifted (IZR N) T (- ((1 - 1 / IZR N) * ln a)) a b
    (C_log_squared_isometric_asymptotic_reduced_legendre N l m T k)
    (C_log_squared_isometric_asymptotic_reduced_legendre N (a * l) (m / (a ^ 2 * b)) (b * T) (b * k / a ^ 2)).
Proof.
  intros a b N l m T k Ha Hb HN Hl HT Hk.
  pose proof (links_pos N HN) as Hn.
  pose proof (PIdentLogSquared.log_squared_isometric_asymptotic_reduced_legendre_dimensionless N l m T k ltac:(positive) ltac:(positive) ltac:(positive) ltac:(positive)) as D. pose proof (PIdentLogSquared.log_squared_isometric_asymptotic_reduced_legendre_dimensionless N (a * l) (m / (a ^ 2 * b)) (b * T) (b * k / a ^ 2) ltac:(positive) ltac:(positive) ltac:(positive) ltac:(positive)) as D'.
  pose proof (PIdentLogSquared.log_squared_isometric_asymptotic_reduced_legendre_extensive N l m T k ltac:(positive) ltac:(positive) ltac:(positive) ltac:(positive)) as X. pose proof (PIdentLogSquared.log_squared_isometric_asymptotic_reduced_legendre_extensive N (a * l) (m / (a ^ 2 * b)) (b * T) (b * k / a ^ 2) ltac:(positive) ltac:(positive) ltac:(positive) ltac:(positive)) as X'.
  split.
  - eapply forces_lift; try exact D; try exact D'; try exact X; try exact X'; try assumption; same.
  - eapply s_shifted_lift; try exact D; try exact D'; try exact X; try exact X'; try assumption. linked a b Ha Hb k l m T.
Qed.

Lemma log_squared_isotensional_units : forall a b N l m T k, 0 < a -> 0 < b -> (0 < N)%Z -> 0 < l -> 0 < T -> 0 < k -> 
  same_lengths a b
    (C_log_squared_isotensional N l m T k)
    (C_log_squared_isotensional N (a * l) (m / (a ^ 2 * b)) (b * T) (b * k / a ^ 2)) /\
  same_relative_gibbs a b
    (C_log_squared_isotensional N l m T k)
    (C_log_squared_isotensional N (a * l) (m / (a ^ 2 * b)) (b * T) (b * k / a ^ 2)) /\
  same_gibbs a b
    (C_log_squared_isotensional N l m T k)
    (C_log_squared_isotensional N (a * l) (m / (a ^ 2 * b)) (b * T) (b * k / a ^ 2)).
Proof.
  intros a b N l m T k Ha Hb HN Hl HT Hk.
  pose proof (links_pos N HN) as Hn.
  pose proof (PIdentLogSquared.log_squared_isotensional_dimensionless N l m T k ltac:(positive) ltac:(positive) ltac:(positive) ltac:(positive)) as D. pose proof (PIdentLogSquared.log_squared_isotensional_dimensionless N (a * l) (m / (a ^ 2 * b)) (b * T) (b * k / a ^ 2) ltac:(positive) ltac:(positive) ltac:(positive) ltac:(positive)) as D'.
  pose proof (PIdentLogSquared.log_squared_isotensional_extensive N l m T k ltac:(positive) ltac:(positive) ltac:(positive) ltac:(positive)) as X. pose proof (PIdentLogSquared.log_squared_isotensional_extensive N (a * l) (m / (a ^ 2 * b)) (b * T) (b * k / a ^ 2) ltac:(positive) ltac:(positive) ltac:(positive) ltac:(positive)) as X'.
  split; [|split].
  - eapply lengths_lift; try exact D; try exact D'; try exact X; try exact X'; try assumption. same.
  - eapply relative_lift; try exact D; try exact D'; try exact X; try exact X'; try assumption. same.
  - eapply gibbs_lift; try exact D; try exact D'; try exact X; try exact X'; try assumption. hinged a b Ha Hb l m T.
Qed.

Lemma log_squared_isotensional_asymptotic_units : forall a b N l m T k, 0 < a -> 0 < b -> (0 < N)%Z -> 0 < l -> 0 < T -> 0 < k -> 
  same_lengths a b
    (C_log_squared_isotensional_asymptotic N l m T k)
    (C_log_squared_isotensional_asymptotic N (a * l) (m / (a ^ 2 * b)) (b * T) (b * k / a ^ 2)) /\
  same_relative_gibbs a b
    (C_log_squared_isotensional_asymptotic N l m T k)
    (C_log_squared_isotensional_asymptotic N (a * l) (m / (a ^ 2 * b)) (b * T) (b * k / a ^ 2)) /\
  gibbs_shifted (IZR N) T (- ln a) a b
    (C_log_squared_isotensional_asymptotic N l m T k)
    (C_log_squared_isotensional_asymptotic N (a * l) (m / (a ^ 2 * b)) (b * T) (b * k / a ^ 2)).
Proof.
  intros a b N l m T k Ha Hb HN Hl HT Hk.
  pose proof (links_pos N HN) as Hn.
  pose proof (PIdentLogSquared.log_squared_isotensional_asymptotic_dimensionless N l m T k ltac:(positive) ltac:(positive) ltac:(positive) ltac:(positive)) as D. pose proof (PIdentLogSquared.log_squared_isotensional_asymptotic_dimensionless N (a * l) (m / (a ^ 2 * b)) (b * T) (b * k / a ^ 2) ltac:(positive) ltac:(positive) ltac:(positive) ltac:(positive)) as D'.
  pose proof (PIdentLogSquared.log_squared_isotensional_asymptotic_extensive N l m T k ltac:(positive) ltac:(positive) ltac:(positive) ltac:(positive)) as X. pose proof (PIdentLogSquared.log_squared_isotensional_asymptotic_extensive N (a * l) (m / (a ^ 2 * b)) (b * T) (b * k / a ^ 2) ltac:(positive) ltac:(positive) ltac:(positive) ltac:(positive)) as X'.
  split; [|split].
  - eapply lengths_lift; try exact D; try exact D'; try exact X; try exact X'; try assumption. same.
  - eapply relative_lift; try exact D; try exact D'; try exact X; try exact X'; try assumption. same.
  - eapply shifted_lift; try exact D; try exact D'; try exact X; try exact X'; try assumption. linked a b Ha Hb k l m T.
Qed.

Lemma log_squared_isotensional_asymptotic_legendre_units : forall a b N l m T k, 0 < a -> 0 < b -> (0 < N)%Z -> 0 < l -> 0 < T -> 0 < k -> 
  same_relative_helmholtz a b
    (C_log_squared_isotensional_asymptotic_legendre N l m T k)
    (C_log_squared_isotensional_asymptotic_legendre N (a * l) (m / (a ^ 2 * b)) (b * T) (b * k / a ^ 2)) /\
  helmholtz_shifted (IZR N) T (- ln a) a b
    (C_log_squared_isotensional_asymptotic_legendre N l m T k)
    (C_log_squared_isotensional_asymptotic_legendre N (a * l) (m / (a ^ 2 * b)) (b * T) (b * k / a ^ 2)).
Proof.
  intros a b N l m T k Ha Hb HN Hl HT Hk.
  pose proof (links_pos N HN) as Hn.
  pose proof (PIdentLogSquared.log_squared_isotensional_asymptotic_legendre_dimensionless N l m T k ltac:(positive) ltac:(positive) ltac:(positive) ltac:(positive)) as D. pose proof (PIdentLogSquared.log_squared_isotensional_asymptotic_legendre_dimensionless N (a * l) (m / (a ^ 2 * b)) (b * T) (b * k / a ^ 2) ltac:(positive) ltac:(positive) ltac:(positive) ltac:(positive)) as D'.
  pose proof (PIdentLogSquared.log_squared_isotensional_asymptotic_legendre_extensive N l m T k ltac:(positive) ltac:(positive) ltac:(positive) ltac:(positive)) as X. pose proof (PIdentLogSquared.log_squared_isotensional_asymptotic_legendre_extensive N (a * l) (m / (a ^ 2 * b)) (b * T) (b * k / a ^ 2) ltac:(positive) ltac:(positive) ltac:(positive) ltac:(positive)) as X'.
  split.
  - eapply h_relative_lift; try exact D; try exact D'; try exact X; try exact X'; try assumption. same.
  - eapply h_shifted_lift; try exact D; try exact D'; try exact X; try exact X'; try assumption. linked a b Ha Hb k l m T.
Qed.

Lemma log_squared_isotensional_asymptotic_reduced_units : forall a b N l m T k, 0 < a -> 0 < b -> (0 < N)%Z -> 0 < l -> 0 < T -> 0 < k -> 
  same_lengths a b
    (C_log_squared_isotensional_asymptotic_reduced N l m T k)
    (C_log_squared_isotensional_asymptotic_reduced N (a * l) (m / (a ^ 2 * b)) (b * T) (b * k / a ^ 2)) /\
  same_relative_gibbs a b
    (C_log_squared_isotensional_asymptotic_reduced N l m T k)
    (C_log_squared_isotensional_asymptotic_reduced N (a * l) (m / (a ^ 2 * b)) (b * T) (b * k / a ^ 2)) /\
  gibbs_shifted (IZR N) T (- ln a) a b
    (C_log_squared_isotensional_asymptotic_reduced N l m T k)
    (C_log_squared_isotensional_asymptotic_reduced N (a * l) (m / (a ^ 2 * b)) (b * T) (b * k / a ^ 2)).
Proof.
  intros a b N l m T k Ha Hb HN Hl HT Hk.
  pose proof (links_pos N HN) as Hn.
  pose proof (PIdentLogSquared.log_squared_isotensional_asymptotic_reduced_dimensionless N l m T k ltac:(positive) ltac:(positive) ltac:(positive) ltac:(positive)) as D. pose proof (PIdentLogSquared.log_squared_isotensional_asymptotic_reduced_dimensionless N (a * l) (m / (a ^ 2 * b)) (b * T) (b * k / a ^ 2) ltac:(positive) ltac:(positive) ltac:(positive) ltac:(positive)) as D'.
  pose proof (PIdentLogSquared.log_squared_isotensional_asymptotic_reduced_extensive N l m T k ltac:(positive) ltac:(positive) ltac:(positive) ltac:(positive)) as X. pose proof (PIdentLogSquared.log_squared_isotensional_asymptotic_reduced_extensive N (a * l) (m / (a ^ 2 * b)) (b * T) (b * k / a ^ 2) ltac:(positive) ltac:(positive) ltac:(positive) ltac:(positive)) as X'.
  split; [|split].
  - eapply lengths_lift; try exact D; try exact D'; try exact X; try exact X'; try assumption. same.
  - eapply relative_lift; try exact D; try exact D'; try exact X; try exact X'; try assumption. same.
  - eapply shifted_lift; try exact D; try exact D'; try exact X; try exact X'; try assumption. linked a b Ha Hb k l m T.
Qed.

Lemma log_squared_isotensional_asymptotic_reduced_legendre_units : forall a b N l m T k, 0 < a -> 0 < b -> (0 < N)%Z -> 0 < l -> 0 < T -> 0 < k -> 
  same_relative_helmholtz a b
    (C_log_squared_isotensional_asymptotic_reduced_legendre N l m T k)
    (C_log_squared_isotensional_asymptotic_reduced_legendre N (a * l) (m / (a ^ 2 * b)) (b * T) (b * k / a ^ 2)) /\
  helmholtz_shifted (IZR N) T (- ln a) a b
    (C_log_squared_isotensional_asymptotic_reduced_legendre N l m T k)
    (C_log_squared_isotensional_asymptotic_reduced_legendre N (a * l) (m / (a ^ 2 * b)) (b * T) (b * k / a ^ 2)).
Proof.
  intros a b N l m T k Ha Hb HN Hl HT Hk.
  pose proof (links_pos N HN) as Hn.
  pose proof (PIdentLogSquared.log_squared_isotensional_asymptotic_reduced_legendre_dimensionless N l m T k ltac:(positive) ltac:(positive) ltac:(positive) ltac:(positive)) as D. pose proof (PIdentLogSquared.log_squared_isotensional_asymptotic_reduced_legendre_dimensionless N (a * l) (m / (a ^ 2 * b)) (b * T) (b * k / a ^ 2) ltac:(positive) ltac:(positive) ltac:(positive) ltac:(positive)) as D'.
  pose proof (PIdentLogSquared.log_squared_isotensional_asymptotic_reduced_legendre_extensive N l m T k ltac:(positive) ltac:(positive) ltac:(positive) ltac:(positive)) as X. pose proof (PIdentLogSquared.log_squared_isotensional_asymptotic_reduced_legendre_extensive N (a * l) (m / (a ^ 2 * b)) (b * T) (b * k / a ^ 2) ltac:(positive) ltac:(positive) ltac:(positive) ltac:(positive)) as X'.
  split.
  - eapply h_relative_lift; try exact D; try exact D'; try exact X; try exact X'; try assumption. same.
  - eapply h_shifted_lift; try exact D; try exact D'; try exact X; try exact X'; try assumption. linked a b Ha Hb k l m T.
Qed.

Lemma log_squared_isotensional_legendre_units : forall a b N l m T k, 0 < a -> 0 < b -> (0 < N)%Z -> 0 < l -> 0 < T -> 0 < k -> 
  same_relative_helmholtz a b
    (C_log_squared_isotensional_legendre N l m T k)
    (C_log_squared_isotensional_legendre N (a * l) (m / (a ^ 2 * b)) (b * T) (b * k / a ^ 2)) /\
  same_helmholtz a b
    (C_log_squared_isotensional_legendre N l m T k)
    (C_log_squared_isotensional_legendre N (a * l) (m / (a ^ 2 * b)) (b * T) (b * k / a ^ 2)).
Proof.
  intros a b N l m T k Ha Hb HN Hl HT Hk.
  pose proof (links_pos N HN) as Hn.
  pose proof (PIdentLogSquared.log_squared_isotensional_legendre_dimensionless N l m T k ltac:(positive) ltac:(positive) ltac:(positive) ltac:(positive)) as D. pose proof (PIdentLogSquared.log_squared_isotensional_legendre_dimensionless N (a * l) (m / (a ^ 2 * b)) (b * T) (b * k / a ^ 2) ltac:(positive) ltac:(positive) ltac:(positive) ltac:(positive)) as D'.
  pose proof (PIdentLogSquared.log_squared_isotensional_legendre_extensive N l m T k ltac:(positive) ltac:(positive) ltac:(positive) ltac:(positive)) as X. pose proof (PIdentLogSquared.log_squared_isotensional_legendre_extensive N (a * l) (m / (a ^ 2 * b)) (b * T) (b * k / a ^ 2) ltac:(positive) ltac:(positive) ltac:(positive) ltac:(positive)) as X'.
  split.
  - eapply h_relative_lift; try exact D; try exact D'; try exact X; try exact X'; try assumption. same.
  - eapply h_lift; try exact D; try exact D'; try exact X; try exact X'; try assumption. hinged a b Ha Hb l m T.
Qed.

Lemma wlc_isometric_units : forall a b N l m T p, 0 < a -> 0 < b -> (0 < N)%Z -> 0 < l -> 0 < T -> 0 < p -> 
  same_forces a b
    (C_wlc_isometric N l m T p)
    (C_wlc_isometric N (a * l) (m / (a ^ 2 * b)) (b * T) (a * p)) /\
  same_isometric_helmholtz a b
    (C_wlc_isometric N l m T p)
    (C_wlc_isometric N (a * l) (m / (a ^ 2 * b)) (b * T) (a * p)).
Proof.
  intros a b N l m T p Ha Hb HN Hl HT Hp.
  pose proof (links_pos N HN) as Hn.
  pose proof (PIdentWlc.wlc_isometric_dimensionless N l m T p ltac:(positive) ltac:(positive) ltac:(positive) ltac:(positive)) as D. pose proof (PIdentWlc.wlc_isometric_dimensionless N (a * l) (m / (a ^ 2 * b)) (b * T) (a * p) ltac:(positive) ltac:(positive) ltac:(positive) ltac:(positive)) as D'.
  pose proof (PIdentWlc.wlc_isometric_extensive N l m T p ltac:(positive) ltac:(positive) ltac:(positive) ltac:(positive)) as X. pose proof (PIdentWlc.wlc_isometric_extensive N (a * l) (m / (a ^ 2 * b)) (b * T) (a * p) ltac:(positive) ltac:(positive) ltac:(positive) ltac:(positive)) as X'.
  split.
  - eapply forces_lift; try exact D; try exact D'; try exact X; try exact X'; try assumption; same.
  - eapply s_lift; try exact D; try exact D'; try exact X; try exact X'; try assumption. bent a b Ha Hb l m T.
Qed.
