(** C74: reversing the pull reverses the response. *)
From Coq Require Import Floats.
From Coq Require Import Reals ZArith List Lra Lia.
From Verif Require Import Scalar F64 MMath MConst MTreloar MFjc MSwfjc MEfjc MMorse MLennardJones MLogSquared MWlc.
From Verif Require Import SpecThermo SpecChains SpecReverse PReverseTreloar PReverseOther PReverseWorm PReverseWormMid.
From Verif Require PReverse PReverseRefuted PReverseNan.
Open Scope R_scope.

Theorem C74_ideal : forall N l m T, (0 < N)%Z -> 0 < l -> 0 < T ->
  extension_reverses (C_ideal_isotensional N l m T) /\ gibbs_reverses (C_ideal_isotensional N l m T) /\
  isometric_reverses_on anywhere (IZR N * l) (C_ideal_isometric N l m T).
Proof.
  exact (fun N l m T HN Hl HT => conj (proj1 (PReverse.ideal_isotensional N l m T HN Hl HT))
    (conj (proj2 (PReverse.ideal_isotensional N l m T HN Hl HT)) (ideal_isometric N l m T HN Hl HT))).
Qed.
Print Assumptions C74_ideal.

Theorem C74_fjc : forall N l m T, (0 < N)%Z -> 0 < l -> 0 < T ->
  extension_reverses (C_fjc_isotensional N l m T) /\ gibbs_reverses (C_fjc_isotensional N l m T) /\
  helmholtz_reverses (C_fjc_isotensional_legendre N l m T).
Proof. exact PReverse.fjc_isotensional. Qed.
Print Assumptions C74_fjc.

Theorem C74_swfjc_partial : forall N l m T w, (0 < N)%Z -> 0 < l -> 0 < T -> 0 < w ->
  extension_reverses (C_swfjc_isotensional N l m T w).
Proof. exact PReverse.swfjc_isotensional. Qed.
Print Assumptions C74_swfjc_partial.

Theorem C74_efjc_asymptotic : forall N l m T k, (0 < N)%Z -> 0 < l -> 0 < T -> 0 < k ->
  (extension_reverses (C_efjc_isotensional_asymptotic N l m T k) /\ gibbs_reverses (C_efjc_isotensional_asymptotic N l m T k) /\
   helmholtz_reverses (C_efjc_isotensional_asymptotic_legendre N l m T k)) /\
  (extension_reverses (C_efjc_isotensional_asymptotic_alternative N l m T k) /\ gibbs_reverses (C_efjc_isotensional_asymptotic_alternative N l m T k) /\
   helmholtz_reverses (C_efjc_isotensional_asymptotic_alternative_legendre N l m T k)) /\
  (extension_reverses (C_efjc_isotensional_asymptotic_reduced N l m T k) /\ gibbs_reverses (C_efjc_isotensional_asymptotic_reduced N l m T k) /\
   helmholtz_reverses (C_efjc_isotensional_asymptotic_reduced_legendre N l m T k)).
Proof.
  exact (fun N l m T k HN Hl HT Hk => conj (PReverse.efjc_asymptotic N l m T k HN Hl HT Hk)
    (conj (PReverse.efjc_alternative N l m T k HN Hl HT Hk) (PReverse.efjc_reduced N l m T k HN Hl HT Hk))).
Qed.
Print Assumptions C74_efjc_asymptotic.

(** The limits on the number of links are those of the integers of the code (C28). *)
Theorem C74_fjc_isometric_force : forall prof n l T, (2 <= n <= 34)%nat -> 0 < l ->
  let L := IZR (Z.of_nat n) * l in
  odd_option (fun g => inner g /\ off_kink n g) (fjc_isometric.nondimensional_force prof (Z.of_nat n)) /\
  odd_option (fun xi => inner (xi / L) /\ off_kink n (xi / L)) (fun xi => fjc_isometric.force prof (Z.of_nat n) l xi T).
Proof. exact (fun prof n l T Hn Hl => conj (force_odd prof n Hn) (dimensional_force_odd prof n l T Hn Hl)). Qed.
Print Assumptions C74_fjc_isometric_force.

Theorem C74_fjc_isometric_energy : forall prof n l m T, (2 <= n <= 26)%nat -> 0 < l ->
  let N := Z.of_nat n in
  let outer := fun xi => inner (xi / (IZR N * l)) in
  even_option outer (fun xi => fjc_isometric.helmholtz_free_energy prof N l m xi T) /\
  even_option outer (fun xi => fjc_isometric.helmholtz_free_energy_per_link prof N l m xi T) /\
  even_option outer (fun xi => fjc_isometric.relative_helmholtz_free_energy prof N l xi T) /\
  even_option outer (fun xi => fjc_isometric.relative_helmholtz_free_energy_per_link prof N l xi T) /\
  even_option inner (fun g => fjc_isometric.nondimensional_helmholtz_free_energy_per_link prof N l m g T) /\
  even_option inner (fjc_isometric.nondimensional_relative_helmholtz_free_energy_per_link prof N).
Proof. exact energies_even. Qed.
Print Assumptions C74_fjc_isometric_energy.

Theorem C74_fjc_isometric_distribution : forall prof n l, (2 <= n <= 26)%nat ->
  let N := Z.of_nat n in
  let outer := fun xi => inner (xi / (IZR N * l)) in
  even_option inner (fjc_isometric.nondimensional_equilibrium_distribution prof N) /\
  even_option inner (fjc_isometric.nondimensional_equilibrium_radial_distribution prof N) /\
  even_option outer (fjc_isometric.equilibrium_distribution prof N l) /\
  even_option outer (fjc_isometric.equilibrium_radial_distribution prof N l).
Proof.
  exact (fun prof n l Hn => conj (distribution_even prof n Hn) (conj (radial_even prof n Hn)
    (conj (dimensional_even prof n l Hn) (dimensional_radial_even prof n l Hn)))).
Qed.
Print Assumptions C74_fjc_isometric_distribution.

(** The worm-like chain, if its persistence length is at most 0.4 of its length. *)
Theorem C74_wlc_partial : forall N l m T p, (0 < N)%Z -> 0 < l -> 0 < T -> 0 < p -> p <= 4 / 10 * (IZR N * l) ->
  isometric_reverses_on inner (IZR N * l) (C_wlc_isometric N l m T p).
Proof. exact PReverseWorm.wlc_flexible. Qed.
Print Assumptions C74_wlc_partial.

(** A stiff worm-like chain, stretched to more than half its length, has a free energy that
    is higher by at least kT than that of its mirror image. *)
Theorem C74_wlc_stiff_refuted : forall N l m T z x, 5 <= z -> 1 / 2 <= x < 1 ->
  wlc_isometric.nondimensional_helmholtz_free_energy N l m z (- x) T + 1 <= wlc_isometric.nondimensional_helmholtz_free_energy N l m z x T.
Proof. exact worm_stiff. Qed.
Print Assumptions C74_wlc_stiff_refuted.

(** Every worm-like chain with a persistence length of at least 0.55 of its length has an
    extension whose free energy differs from that of its mirror image. *)
Theorem C74_wlc_refuted : forall z, 55 / 100 <= z -> exists x, 0 < x < 1 /\ forall N l m T,
  wlc_isometric.nondimensional_helmholtz_free_energy N l m z (- x) T < wlc_isometric.nondimensional_helmholtz_free_energy N l m z x T.
Proof. exact PReverseWormMid.worm_mid. Qed.
Print Assumptions C74_wlc_refuted.

(** The end of the chain is held by a potential at a distance from its start. *)
Theorem C74_modified : forall prof n l m k T, (2 <= n <= 26)%nat -> 0 < l -> 0 < k -> 0 < T ->
  let N := Z.of_nat n in
  odd_option anywhere (fun d => fjc_modified_canonical.force prof N l d k T) /\
  odd_option anywhere (fun d => fjc_modified_canonical.end_to_end_length prof N l d k T) /\
  even_option anywhere (fun d => fjc_modified_canonical.helmholtz_free_energy prof N l m d k T) /\
  even_option anywhere (fun d => fjc_modified_canonical.gibbs_free_energy prof N l m d k T).
Proof. exact modified_dimensional. Qed.
Print Assumptions C74_modified.

Theorem C74_modified_nondimensional : forall prof n k l m T, (2 <= n <= 26)%nat -> 0 < k ->
  let N := Z.of_nat n in
  odd_option anywhere (fun d => fjc_modified_canonical.nondimensional_force prof N d k) /\
  odd_option anywhere (fun d => fjc_modified_canonical.nondimensional_end_to_end_length_per_link prof N d k) /\
  even_option anywhere (fun d => fjc_modified_canonical.nondimensional_helmholtz_free_energy prof N l m d k T) /\
  even_option anywhere (fun d => fjc_modified_canonical.nondimensional_gibbs_free_energy prof N l m d k T).
Proof.
  exact (fun prof n k l m T Hn Hk => conj (modified_force prof n k Hn Hk) (conj (modified_length prof n k Hn Hk)
    (conj (modified_helmholtz prof n k Hn Hk l m T) (modified_gibbs prof n k Hn Hk l m T)))).
Qed.
Print Assumptions C74_modified_nondimensional.

Theorem C74_weak : forall N l m k T,
  odd_on anywhere (fun d => fjc_modified_canonical_asymptotic_weak_potential.force d k) /\
  odd_on anywhere (fun d => fjc_modified_canonical_asymptotic_weak_potential.end_to_end_length N l d k T) /\
  even_on anywhere (fun d => fjc_modified_canonical_asymptotic_weak_potential.gibbs_free_energy N l m d k T).
Proof. exact weak_potential. Qed.
Print Assumptions C74_weak.

Theorem C74_strong : forall prof n k l m T,
  ((6 <= n <= 34)%nat -> odd_option inner (fun d => fjc_modified_canonical_asymptotic_strong_potential.nondimensional_force prof (Z.of_nat n) d k)) /\
  ((5 <= n <= 26)%nat -> even_option inner (fun d => fjc_modified_canonical_asymptotic_strong_potential.nondimensional_helmholtz_free_energy prof (Z.of_nat n) l m d k T)).
Proof. exact (fun prof n k l m T => conj (strong_force prof n k) (strong_helmholtz prof n l m k T)). Qed.
Print Assumptions C74_strong.

(** ** Where the symmetry is lost *)

(** Three links at a third of their length: the force is 3/2, and its mirror image 0. *)
Theorem C74_three_links_refuted : forall prof,
  fjc_isometric.nondimensional_force prof 3 (1 / 3) = Some (3 / 2) /\
  fjc_isometric.nondimensional_force prof 3 (- (1 / 3)) = Some 0.
Proof. exact three_links_jump. Qed.
Print Assumptions C74_three_links_refuted.

(** Morse links: the chain pulled backwards is always longer backwards by less. *)
Theorem C74_morse_refuted : forall k e x, 0 < k -> 0 < e -> 0 < x < sqrt (e * k / 8) ->
  - morse_isotensional_asymptotic.nondimensional_end_to_end_length_per_link k e x <
  morse_isotensional_asymptotic.nondimensional_end_to_end_length_per_link k e (- x) /\
  - morse_isotensional_asymptotic_reduced.nondimensional_end_to_end_length_per_link k e x <
  morse_isotensional_asymptotic_reduced.nondimensional_end_to_end_length_per_link k e (- x).
Proof.
  exact (fun k e x Hk He Hx => conj (PReverseRefuted.morse_asymptotic k e x Hk He Hx) (PReverseRefuted.morse_reduced k e x Hk He Hx)).
Qed.
Print Assumptions C74_morse_refuted.

(** The exact extension of the extensible chain. *)
Theorem C74_efjc_refuted : forall k, 1 / 2 <= k <= 16 ->
  - efjc_isotensional.nondimensional_end_to_end_length_per_link k (k + 1) <
  efjc_isotensional.nondimensional_end_to_end_length_per_link k (- (k + 1)).
Proof. exact PReverseRefuted.exact_reverse. Qed.
Print Assumptions C74_efjc_refuted.

(** The formulas that take the logarithm of the force have no value for a force that
    pulls the other way. *)
Theorem C74_logarithm_refuted : forall L eta, l_ln L eta = nan -> l_exp L nan = nan ->
  (forall l m w T, @swfjc_isotensional.nondimensional_gibbs_free_energy_per_link float (F64 L) l m w eta T = nan) /\
  (forall k e, @morse_isotensional.nondimensional_end_to_end_length_per_link float (F64 L) k e eta = nan) /\
  (forall k, @log_squared_isotensional.nondimensional_end_to_end_length_per_link float (F64 L) k eta = nan) /\
  (forall k, @lennard_jones_isotensional.nondimensional_end_to_end_length_per_link float (F64 L) k eta = nan).
Proof.
  exact (fun L eta A B => conj (PReverseNan.swfjc_gibbs L eta A) (conj (PReverseNan.morse_length L eta A B)
    (conj (PReverseNan.log_squared_length L eta A B) (PReverseNan.lennard_jones_length L eta A B)))).
Qed.
Print Assumptions C74_logarithm_refuted.

(** The hypotheses can be met: five links at half their length, a potential of a
    moderate stiffness, a flexible chain, Morse links below their breaking force. *)
Example C74_example :
  (2 <= 5 <= 26)%nat /\ inner (1 / 2) /\ inner (- (1 / 2)) /\ off_kink 5 (1 / 2) /\ off_kink 3 (1 / 2) /\ loaded (-3) /\
  (1 <= 29 / 100 * (IZR 8 * 1)) /\ 0 < 1 < sqrt (8 * 8 / 8).
Proof.
  unfold inner, off_kink, loaded. repeat split; try lia; try lra; try (left; discriminate); try (right; lra).
  rewrite <- sqrt_1. apply sqrt_lt_1; lra.
Qed.
Example C74_logarithm_case : l_ln PReverseNan.domain_libm (-2)%float = nan /\ l_exp PReverseNan.domain_libm nan = nan.
Proof. exact PReverseNan.domain_libm_ok. Qed.
