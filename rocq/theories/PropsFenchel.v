(** C71: the Legendre free energies are Legendre transforms.

    [legendre_transform], [legendre_maximal_on] and [legendre_work_on] are in
    SpecFenchel, [pulling] in SpecStability (all positive forces), [integral] in
    SpecIsometric, [angular_average] in SpecPartition. *)
From Coq Require Import Reals ZArith Lra Lia.
From Verif Require Import Scalar MConst MFjc SpecThermo SpecChains SpecStability SpecIsometric SpecPartition SpecFenchel PFenchel PFenchelChains.
Open Scope R_scope.

(** The Helmholtz free energy of the freely jointed chain held at the extension
    [y], which the code computes from its approximate inverse Langevin function,
    is the supremum over all forces up to a millionth of the work [force * y]. *)
Theorem C71_fjc_isometric : forall y, 0 < y < 1 -> exists v,
  legendre_transform (@fjc_isotensional.nondimensional_relative_gibbs_free_energy_per_link R R_scalar) y v /\
  let psi := @fjc_isometric_legendre.nondimensional_relative_helmholtz_free_energy_per_link R R_scalar y in
  psi <= v <= psi + / 1000000 * (@fjc_isometric_legendre.nondimensional_force R R_scalar y * y).
Proof. exact fenchel. Qed.
Print Assumptions C71_fjc_isometric.

(** It is positive away from the relaxed state. *)
Theorem C71_fjc_isometric_positive : forall y, 0 < y < 1 ->
  0 < @fjc_isometric_legendre.nondimensional_relative_helmholtz_free_energy_per_link R R_scalar y.
Proof. exact positive. Qed.
Print Assumptions C71_fjc_isometric_positive.

(** What is stored between two extensions lies between the work done at the
    smaller and at the larger force, up to the same tolerance. *)
Theorem C71_fjc_isometric_work : forall y z, 0 < y -> y < z -> z < 1 ->
  let force := @fjc_isometric_legendre.nondimensional_force R R_scalar in
  let psi := @fjc_isometric_legendre.nondimensional_relative_helmholtz_free_energy_per_link R R_scalar in
  force y * (z - y) - / 1000000 * (force z * z) <= psi z - psi y <= force z * (z - y) + / 1000000 * (force y * y).
Proof. exact work. Qed.
Print Assumptions C71_fjc_isometric_work.

(** Large deviations: the probability that a chain of [N] links is found beyond
    the extension [g] is at most [2 z / (1 - exp (- 2 z))] times the Boltzmann
    factor of the Legendre free energy, with [z] the total work. *)
Theorem C71_fjc_tail : forall prof (N : Z) g, (2 <= N <= 26)%Z -> 0 < g < 1 -> exists v,
  integral (fjc_isometric.nondimensional_equilibrium_radial_distribution prof N) g 1 v /\ 0 <= v /\
  let z := IZR N * @fjc_isometric_legendre.nondimensional_force R R_scalar g * g in
  v <= 2 * z / (1 - exp (- (2 * z))) * exp (- fjc_isometric_legendre.nondimensional_relative_helmholtz_free_energy N g).
Proof. exact tail_legendre. Qed.
Print Assumptions C71_fjc_tail.

(** The same with any force in place of the computed one. *)
Theorem C71_fjc_tail_force : forall prof (N : Z) g eta v, (2 <= N <= 26)%Z -> 0 < g < 1 -> 0 < eta ->
  integral (fjc_isometric.nondimensional_equilibrium_radial_distribution prof N) g 1 v ->
  v * angular_average (IZR N * eta * g) <= exp (- fjc_isotensional.nondimensional_relative_gibbs_free_energy N eta).
Proof. exact tail. Qed.
Print Assumptions C71_fjc_tail_force.

Example C71_isometric_nonvacuous : (2 <= 8 <= 26)%Z /\ 0 < 1 / 4 /\ 1 / 4 < 1 / 2 /\ 1 / 2 < 1.
Proof. split; [lia|]; lra. Qed.

(** The modules that start from the force, exactly. *)
Theorem C71_fjc : forall N l m T, (0 < N)%Z -> 0 < l -> 0 < T ->
  legendre_maximal_on pulling l T (C_fjc_isotensional N l m T) (C_fjc_isotensional_legendre N l m T) /\
   legendre_work_on pulling l T (C_fjc_isotensional N l m T) (C_fjc_isotensional_legendre N l m T).
Proof. exact fjc_maximal. Qed.
Print Assumptions C71_fjc.

Theorem C71_swfjc : forall N l m T w, (0 < N)%Z -> 0 < l -> 0 < T -> 0 < w ->
  legendre_maximal_on pulling l T (C_swfjc_isotensional N l m T w) (C_swfjc_isotensional_legendre N l m T w) /\
   legendre_work_on pulling l T (C_swfjc_isotensional N l m T w) (C_swfjc_isotensional_legendre N l m T w).
Proof. exact swfjc_maximal. Qed.
Print Assumptions C71_swfjc.

Theorem C71_efjc_asymptotic : forall N l m T k, (0 < N)%Z -> 0 < l -> 0 < T -> 0 < k ->
  (legendre_maximal_on pulling l T (C_efjc_isotensional_asymptotic N l m T k) (C_efjc_isotensional_asymptotic_legendre N l m T k) /\
   legendre_work_on pulling l T (C_efjc_isotensional_asymptotic N l m T k) (C_efjc_isotensional_asymptotic_legendre N l m T k)) /\
  (legendre_maximal_on pulling l T (C_efjc_isotensional_asymptotic_alternative N l m T k) (C_efjc_isotensional_asymptotic_alternative_legendre N l m T k) /\
   legendre_work_on pulling l T (C_efjc_isotensional_asymptotic_alternative N l m T k) (C_efjc_isotensional_asymptotic_alternative_legendre N l m T k)) /\
  (legendre_maximal_on pulling l T (C_efjc_isotensional_asymptotic_reduced N l m T k) (C_efjc_isotensional_asymptotic_reduced_legendre N l m T k) /\
   legendre_work_on pulling l T (C_efjc_isotensional_asymptotic_reduced N l m T k) (C_efjc_isotensional_asymptotic_reduced_legendre N l m T k)).
Proof. exact efjc_maximal. Qed.
Print Assumptions C71_efjc_asymptotic.

Theorem C71_morse : forall N l m T k e, (0 < N)%Z -> 0 < l -> 0 < T -> 0 < k -> 0 < e ->
  legendre_maximal_on pulling l T (C_morse_isotensional N l m T k e) (C_morse_isotensional_legendre N l m T k e) /\
   legendre_work_on pulling l T (C_morse_isotensional N l m T k e) (C_morse_isotensional_legendre N l m T k e).
Proof. exact morse_maximal. Qed.
Print Assumptions C71_morse.

Theorem C71_morse_asymptotic : forall N l m T k e, (0 < N)%Z -> 0 < l -> 0 < T -> 0 < k -> 0 < e ->
  let D := fun x => 0 < x < sqrt (kappa k l T * epsilon e T / 8) in
  (legendre_maximal_on D l T (C_morse_isotensional_asymptotic N l m T k e) (C_morse_isotensional_asymptotic_legendre N l m T k e) /\
   legendre_work_on D l T (C_morse_isotensional_asymptotic N l m T k e) (C_morse_isotensional_asymptotic_legendre N l m T k e)) /\
  (legendre_maximal_on D l T (C_morse_isotensional_asymptotic_reduced N l m T k e) (C_morse_isotensional_asymptotic_reduced_legendre N l m T k e) /\
   legendre_work_on D l T (C_morse_isotensional_asymptotic_reduced N l m T k e) (C_morse_isotensional_asymptotic_reduced_legendre N l m T k e)).
Proof. exact morse_asymptotic_maximal. Qed.
Print Assumptions C71_morse_asymptotic.

Theorem C71_lennard_jones : forall N l m T k, (0 < N)%Z -> 0 < l -> 0 < T -> 0 < k ->
  legendre_maximal_on pulling l T (C_lennard_jones_isotensional N l m T k) (C_lennard_jones_isotensional_legendre N l m T k) /\
   legendre_work_on pulling l T (C_lennard_jones_isotensional N l m T k) (C_lennard_jones_isotensional_legendre N l m T k).
Proof. exact lennard_jones_maximal. Qed.
Print Assumptions C71_lennard_jones.

Theorem C71_log_squared : forall N l m T k, (0 < N)%Z -> 0 < l -> 0 < T -> 0 < k ->
  legendre_maximal_on pulling l T (C_log_squared_isotensional N l m T k) (C_log_squared_isotensional_legendre N l m T k) /\
   legendre_work_on pulling l T (C_log_squared_isotensional N l m T k) (C_log_squared_isotensional_legendre N l m T k).
Proof. exact log_squared_maximal. Qed.
Print Assumptions C71_log_squared.

(** At the forces 1 and 2 (five links of length 1 at 300 K): the transform at the
    extension of force 1 is at least what force 2 accounts for. *)
Example C71_nonvacuous :
  let c := C_fjc_isotensional 5 1 1 300 in let h := C_fjc_isotensional_legendre 5 1 1 300 in
  2 * I_nd_length c 1 + I_nd_gibbs c 2 <= IH_nd_helmholtz h 1.
Proof.
  intros c h. destruct (C71_fjc 5 1 1 300 ltac:(lia) ltac:(lra) ltac:(lra)) as ((_ & _ & A & _) & _).
  apply A; unfold pulling; lra.
Qed.
