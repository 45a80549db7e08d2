(** Results do not depend on the units: the freely jointed chain in a potential. *)
From Coq Require Import Reals ZArith List Lra Lia Psatz.
From Verif Require Import Scalar MMath MConst MTreloar MFjc.
From Verif Require Import SpecThermo SpecChains SpecUnits PBase PUnits PUnitsMore.
From Verif Require PIsometric.
Open Scope R_scope.

Section Modified.
Context {a b : R} (Ha : 0 < a) (Hb : 0 < b) {N : Z} {l m x k T : R} (HN : (0 < N)%Z) (Hl : 0 < l) (HT : 0 < T).

Lemma stiff_arg : (@sdiv R R_scalar (@sdiv R R_scalar (@smul R R_scalar (b * k / a ^ 2) (@spowi R R_scalar (a * l) 2)) BOLTZMANN_CONSTANT) (b * T)) =
  (@sdiv R R_scalar (@sdiv R R_scalar (@smul R R_scalar k (@spowi R R_scalar l 2)) BOLTZMANN_CONSTANT) T).
Proof. unR. rewrite B_eq. pose proof kB_pos. field. repeat split; lra. Qed.

Lemma distance_arg : forall y, @sdiv R R_scalar (a * y) (@smul R R_scalar (sofZ N) (a * l)) = @sdiv R R_scalar y (@smul R R_scalar (sofZ N) l).
Proof. intro y. exact (contour_units a N l y Ha HN Hl). Qed.

Lemma nd_helmholtz_units : forall prof g s,
  (fjc_modified_canonical.nondimensional_helmholtz_free_energy prof N (a * l) (m / (a ^ 2 * b)) g s (b * T) : option R) = fjc_modified_canonical.nondimensional_helmholtz_free_energy prof N l m g s T.
Proof. intros. unfold fjc_modified_canonical.nondimensional_helmholtz_free_energy. rewrite (hinge_units' Ha Hb). reflexivity. Qed.

Ltac answer := apply (f_equal (@Some R)); unR; rewrite ?B_eq; pose proof kB_pos; pose proof (links_pos N HN); field; repeat split; lra.

Lemma modified_force : forall prof, scaled (b / a) (fjc_modified_canonical.force prof N l x k T) (fjc_modified_canonical.force prof N (a * l) (a * x) (b * k / a ^ 2) (b * T)).
Proof.
  intro prof. unfold scaled, fjc_modified_canonical.force. rewrite stiff_arg, distance_arg.
  destruct (fjc_modified_canonical.nondimensional_force _ _ _ _) as [u|]; [|reflexivity]. answer.
Qed.

Lemma modified_length : forall prof, k <> 0 ->
  scaled a (fjc_modified_canonical.end_to_end_length prof N l x k T) (fjc_modified_canonical.end_to_end_length prof N (a * l) (a * x) (b * k / a ^ 2) (b * T)) /\
  scaled a (fjc_modified_canonical.end_to_end_length_per_link prof N l x k T) (fjc_modified_canonical.end_to_end_length_per_link prof N (a * l) (a * x) (b * k / a ^ 2) (b * T)).
Proof.
  intros prof Hk. pose proof (modified_force prof) as F. unfold scaled in F |- *.
  unfold fjc_modified_canonical.end_to_end_length, fjc_modified_canonical.end_to_end_length_per_link. rewrite F.
  destruct (fjc_modified_canonical.force prof N l x k T) as [u|]; [|split; reflexivity]. split; answer.
Qed.

Lemma modified_helmholtz : forall prof,
  scaled b (fjc_modified_canonical.helmholtz_free_energy prof N l m x k T) (fjc_modified_canonical.helmholtz_free_energy prof N (a * l) (m / (a ^ 2 * b)) (a * x) (b * k / a ^ 2) (b * T)) /\
  scaled b (fjc_modified_canonical.helmholtz_free_energy_per_link prof N l m x k T) (fjc_modified_canonical.helmholtz_free_energy_per_link prof N (a * l) (m / (a ^ 2 * b)) (a * x) (b * k / a ^ 2) (b * T)) /\
  scaled b (fjc_modified_canonical.relative_helmholtz_free_energy prof N l x k T) (fjc_modified_canonical.relative_helmholtz_free_energy prof N (a * l) (a * x) (b * k / a ^ 2) (b * T)) /\
  scaled b (fjc_modified_canonical.relative_helmholtz_free_energy_per_link prof N l x k T) (fjc_modified_canonical.relative_helmholtz_free_energy_per_link prof N (a * l) (a * x) (b * k / a ^ 2) (b * T)).
Proof.
  intro prof. unfold scaled, fjc_modified_canonical.helmholtz_free_energy, fjc_modified_canonical.helmholtz_free_energy_per_link, fjc_modified_canonical.nondimensional_helmholtz_free_energy_per_link,
    fjc_modified_canonical.relative_helmholtz_free_energy, fjc_modified_canonical.relative_helmholtz_free_energy_per_link. rewrite !stiff_arg, !distance_arg, !nd_helmholtz_units.
  repeat split.
  all: match goal with |- context [bind ?u _] => lazymatch u with bind ?v _ => destruct v as [?|] | _ => destruct u as [?|] end end; [|reflexivity]; answer.
Qed.

Lemma modified_gibbs : forall prof,
  scaled b (fjc_modified_canonical.gibbs_free_energy prof N l m x k T) (fjc_modified_canonical.gibbs_free_energy prof N (a * l) (m / (a ^ 2 * b)) (a * x) (b * k / a ^ 2) (b * T)) /\
  scaled b (fjc_modified_canonical.gibbs_free_energy_per_link prof N l m x k T) (fjc_modified_canonical.gibbs_free_energy_per_link prof N (a * l) (m / (a ^ 2 * b)) (a * x) (b * k / a ^ 2) (b * T)) /\
  scaled b (fjc_modified_canonical.relative_gibbs_free_energy prof N l x k T) (fjc_modified_canonical.relative_gibbs_free_energy prof N (a * l) (a * x) (b * k / a ^ 2) (b * T)) /\
  scaled b (fjc_modified_canonical.relative_gibbs_free_energy_per_link prof N l x k T) (fjc_modified_canonical.relative_gibbs_free_energy_per_link prof N (a * l) (a * x) (b * k / a ^ 2) (b * T)).
Proof.
  intro prof. destruct (modified_helmholtz prof) as (A & B & C & D). unfold scaled in A, B, C, D |- *.
  unfold fjc_modified_canonical.gibbs_free_energy, fjc_modified_canonical.gibbs_free_energy_per_link, fjc_modified_canonical.relative_gibbs_free_energy, fjc_modified_canonical.relative_gibbs_free_energy_per_link.
  rewrite A, B, C, D. repeat split.
  all: match goal with |- context [bind ?u _] => lazymatch u with option_map _ ?v => destruct v as [?|] end end; [|reflexivity]; answer.
Qed.

(** The weak-potential approximation. *)
Lemma weak_arg : @sdiv R R_scalar (@sdiv R R_scalar (@smul R R_scalar (@smul R R_scalar (b * k / a ^ 2) (a * x)) (a * l)) BOLTZMANN_CONSTANT) (b * T) =
  @sdiv R R_scalar (@sdiv R R_scalar (@smul R R_scalar (@smul R R_scalar k x) l) BOLTZMANN_CONSTANT) T.
Proof. unR. rewrite B_eq. pose proof kB_pos. field. repeat split; lra. Qed.

Lemma weak_arg' : forall n, @sdiv R R_scalar (@sdiv R R_scalar (@smul R R_scalar (@smul R R_scalar (b * k / a ^ 2) n) (@spowi R R_scalar (a * l) 2)) BOLTZMANN_CONSTANT) (b * T) =
  @sdiv R R_scalar (@sdiv R R_scalar (@smul R R_scalar (@smul R R_scalar k n) (@spowi R R_scalar l 2)) BOLTZMANN_CONSTANT) T.
Proof. intro n. unR. rewrite B_eq. pose proof kB_pos. field. repeat split; lra. Qed.

Lemma weak_lengths :
  fjc_modified_canonical_asymptotic_weak_potential.end_to_end_length N (a * l) (a * x) (b * k / a ^ 2) (b * T) = a * fjc_modified_canonical_asymptotic_weak_potential.end_to_end_length N l x k T /\
  fjc_modified_canonical_asymptotic_weak_potential.end_to_end_length_per_link N (a * l) (a * x) (b * k / a ^ 2) (b * T) = a * fjc_modified_canonical_asymptotic_weak_potential.end_to_end_length_per_link N l x k T /\
  fjc_modified_canonical_asymptotic_weak_potential.force (a * x) (b * k / a ^ 2) = b / a * fjc_modified_canonical_asymptotic_weak_potential.force x k.
Proof.
  unfold fjc_modified_canonical_asymptotic_weak_potential.end_to_end_length, fjc_modified_canonical_asymptotic_weak_potential.end_to_end_length_per_link, fjc_modified_canonical_asymptotic_weak_potential.force.
  cbv zeta. rewrite weak_arg, weak_arg'. unR. rewrite B_eq. repeat split; [unfold Rdiv; ring | unfold Rdiv; ring | field; lra].
Qed.

Lemma weak_gibbs :
  fjc_modified_canonical_asymptotic_weak_potential.gibbs_free_energy N (a * l) (m / (a ^ 2 * b)) (a * x) (b * k / a ^ 2) (b * T) = b * fjc_modified_canonical_asymptotic_weak_potential.gibbs_free_energy N l m x k T /\
  fjc_modified_canonical_asymptotic_weak_potential.gibbs_free_energy_per_link N (a * l) (m / (a ^ 2 * b)) (a * x) (b * k / a ^ 2) (b * T) = b * fjc_modified_canonical_asymptotic_weak_potential.gibbs_free_energy_per_link N l m x k T.
Proof.
  unfold fjc_modified_canonical_asymptotic_weak_potential.gibbs_free_energy, fjc_modified_canonical_asymptotic_weak_potential.gibbs_free_energy_per_link.
  cbv zeta. rewrite weak_arg, (hinge_units' Ha Hb). generalize (@sdiv R R_scalar (@sdiv R R_scalar (@smul R R_scalar (@smul R R_scalar k x) l) BOLTZMANN_CONSTANT) T). intro eta.
  unR. generalize (ln (8 * PI ^ 2 * m * l ^ 2 * BOLTZMANN_CONSTANT * T / PLANCK_CONSTANT ^ 2)), (ln (sinh eta / eta)), (1 / tanh eta - 1 / eta). intros h q c. pose proof (links_pos N HN).
  split; field; repeat split; lra.
Qed.

(** The strong-potential approximation. *)
Lemma strong_force : forall prof, scaled (b / a) (fjc_modified_canonical_asymptotic_strong_potential.force prof N l x k T)
  (fjc_modified_canonical_asymptotic_strong_potential.force prof N (a * l) (a * x) (b * k / a ^ 2) (b * T)).
Proof.
  intro prof. unfold scaled, fjc_modified_canonical_asymptotic_strong_potential.force. rewrite stiff_arg, distance_arg.
  destruct (fjc_modified_canonical_asymptotic_strong_potential.nondimensional_force _ _ _ _) as [u|]; [|reflexivity]. answer.
Qed.
End Modified.

Lemma reference_distance : forall a N l, (@smul R R_scalar (@smul R R_scalar ZERO (sofZ N)) (a * l)) = a * (ZERO * IZR N * l).
Proof. intros. change (ZERO * IZR N * (a * l) = a * (ZERO * IZR N * l)). ring. Qed.

Lemma weak_any_mass : forall N l m m' x y k T,
  fjc_modified_canonical_asymptotic_weak_potential.gibbs_free_energy N l m x k T - fjc_modified_canonical_asymptotic_weak_potential.gibbs_free_energy N l m y k T =
  fjc_modified_canonical_asymptotic_weak_potential.gibbs_free_energy N l m' x k T - fjc_modified_canonical_asymptotic_weak_potential.gibbs_free_energy N l m' y k T /\
  fjc_modified_canonical_asymptotic_weak_potential.gibbs_free_energy_per_link N l m x k T - fjc_modified_canonical_asymptotic_weak_potential.gibbs_free_energy_per_link N l m y k T =
  fjc_modified_canonical_asymptotic_weak_potential.gibbs_free_energy_per_link N l m' x k T - fjc_modified_canonical_asymptotic_weak_potential.gibbs_free_energy_per_link N l m' y k T.
Proof. intros. unR. split; unfold Rdiv; ring. Qed.

Lemma weak_relative : forall a b N l x k T, 0 < a -> 0 < b -> (0 < N)%Z -> 0 < l -> 0 < T ->
  fjc_modified_canonical_asymptotic_weak_potential.relative_gibbs_free_energy N (a * l) (a * x) (b * k / a ^ 2) (b * T) = b * fjc_modified_canonical_asymptotic_weak_potential.relative_gibbs_free_energy N l x k T /\
  fjc_modified_canonical_asymptotic_weak_potential.relative_gibbs_free_energy_per_link N (a * l) (a * x) (b * k / a ^ 2) (b * T) = b * fjc_modified_canonical_asymptotic_weak_potential.relative_gibbs_free_energy_per_link N l x k T.
Proof.
  intros a b N l x k T Ha Hb HN Hl HT.
  unfold fjc_modified_canonical_asymptotic_weak_potential.relative_gibbs_free_energy, fjc_modified_canonical_asymptotic_weak_potential.relative_gibbs_free_energy_per_link.
  rewrite reference_distance. change (@smul R R_scalar (@smul R R_scalar ZERO (sofZ N)) l) with (ZERO * IZR N * l).
  change (@ssub R R_scalar) with Rminus. set (z := ZERO * IZR N * l). set (one := (@sdec R R_scalar 1 0)).
  destruct (weak_any_mass N (a * l) one (one / (a ^ 2 * b)) (a * x) (a * z) (b * k / a ^ 2) (b * T)) as [-> ->].
  destruct (@weak_gibbs a b Ha Hb N l one x k T HN HT) as [-> ->]. destruct (@weak_gibbs a b Ha Hb N l one z k T HN HT) as [-> ->]. split; ring.
Qed.

Lemma strong_nd_helmholtz : forall a b prof N l m g s T, 0 < a -> 0 < b -> (2 <= N <= 26)%Z -> 0 < l -> 0 < g < 1 ->
  (fjc_modified_canonical_asymptotic_strong_potential.nondimensional_helmholtz_free_energy prof N (a * l) (m / (a ^ 2 * b)) g s (b * T) : option R) =
  fjc_modified_canonical_asymptotic_strong_potential.nondimensional_helmholtz_free_energy prof N l m g s T.
Proof.
  intros a b prof N l m g s T Ha Hb HN Hl Hg. assert (HN' : (0 < N)%Z) by lia. pose proof (links_pos N HN') as Hn.
  unfold fjc_modified_canonical_asymptotic_strong_potential.nondimensional_helmholtz_free_energy. rewrite (hinge_units' Ha Hb).
  destruct (PIsometric.z_positive prof N g HN Hg) as (p & E & P). unfold fjc_isometric.nondimensional_equilibrium_distribution in E. rewrite E.
  destruct (fjc_thermodynamics.treloar_sums prof N g (0 :: 1 :: 2 :: nil)%Z) as [u|]; [|reflexivity]. cbn [bind].
  destruct (nth_error u 1) as [u1|]; [|reflexivity]. destruct (nth_error u 0) as [u0|]; [|reflexivity]. destruct (nth_error u 2) as [u2|]; [|reflexivity]. cbn [bind].
  apply (f_equal (@Some R)).
  assert (Q : ln (p / (IZR N * (a * l)) ^ 3) + 3 * ln (IZR N * (a * l)) = ln (p / (IZR N * l) ^ 3) + 3 * ln (IZR N * l)).
  { assert (L : forall c, 0 < c -> ln (p / c ^ 3) + 3 * ln c = ln p).
    { intros c Hc. assert (0 < c ^ 3) by (apply pow_lt; assumption). unfold Rdiv. rewrite ln_mult by (try assumption; apply Rinv_0_lt_compat; assumption). rewrite ln_Rinv by assumption.
      replace (c ^ 3) with (c * c * c) by ring. rewrite !ln_mult by (try apply Rmult_lt_0_compat; assumption). ring. }
    rewrite !L; [reflexivity | |]; repeat apply Rmult_lt_0_compat; assumption. }
  change (@sln R R_scalar (p / @spowi R R_scalar (sofZ N * l) 3))%S with (ln (p / (IZR N * l) ^ 3)).
  change (@sln R R_scalar (p / @spowi R R_scalar (sofZ N * (a * l)%R) 3))%S with (ln (p / (IZR N * (a * l)) ^ 3)).
  change (@sln R R_scalar (sofZ N * l))%S with (ln (IZR N * l)). change (@sln R R_scalar (sofZ N * (a * l)%R))%S with (ln (IZR N * (a * l))).
  match goal with |- @sadd R R_scalar (@ssub R R_scalar (@ssub R R_scalar (@ssub R R_scalar _ ?h) ?t) _) ?w = _ => generalize h, t, w end. intros h t w.
  change (- ln (p / (IZR N * (a * l)) ^ 3) - h - t - Rdec 3 0 * ln (IZR N * (a * l)) + w = - ln (p / (IZR N * l) ^ 3) - h - t - Rdec 3 0 * ln (IZR N * l) + w).
  replace (Rdec 3 0) with 3 by (unfold Rdec; simpl; lra). lra.
Qed.

Lemma strong_helmholtz : forall a b prof N l m x k T, 0 < a -> 0 < b -> (2 <= N <= 26)%Z -> 0 < l -> 0 < T -> 0 < x < IZR N * l ->
  scaled b (fjc_modified_canonical_asymptotic_strong_potential.helmholtz_free_energy prof N l m x k T)
    (fjc_modified_canonical_asymptotic_strong_potential.helmholtz_free_energy prof N (a * l) (m / (a ^ 2 * b)) (a * x) (b * k / a ^ 2) (b * T)) /\
  scaled b (fjc_modified_canonical_asymptotic_strong_potential.helmholtz_free_energy_per_link prof N l m x k T)
    (fjc_modified_canonical_asymptotic_strong_potential.helmholtz_free_energy_per_link prof N (a * l) (m / (a ^ 2 * b)) (a * x) (b * k / a ^ 2) (b * T)).
Proof.
  intros a b prof N l m x k T Ha Hb HN Hl HT Hx. assert (HN' : (0 < N)%Z) by lia. pose proof (links_pos N HN') as Hn.
  assert (C : 0 < IZR N * l) by (apply Rmult_lt_0_compat; assumption).
  assert (G : 0 < x / (IZR N * l) < 1) by (split; [apply Rdiv_lt_0_compat; lra | apply Rmult_lt_reg_r with (IZR N * l); [lra|]; unfold Rdiv; rewrite Rmult_assoc, Rinv_l by lra; lra]).
  unfold scaled, fjc_modified_canonical_asymptotic_strong_potential.helmholtz_free_energy, fjc_modified_canonical_asymptotic_strong_potential.helmholtz_free_energy_per_link,
    fjc_modified_canonical_asymptotic_strong_potential.nondimensional_helmholtz_free_energy_per_link.
  rewrite (@stiff_arg a b Ha Hb), (@distance_arg a Ha) by assumption. rewrite strong_nd_helmholtz by assumption.
  destruct (fjc_modified_canonical_asymptotic_strong_potential.nondimensional_helmholtz_free_energy prof N l m _ _ T) as [u|]; [|split; reflexivity].
  split; apply (f_equal (@Some R)); unR; ring.
Qed.
