(** The callbacks handed to the root finder and what its result means: C21 and C47.

    [inverted_by_newton F domain damping y guess result] (SpecInverse) says that
    [result] is an estimate reached from [guess] by at most one hundred steps
    x <- x + (y - F x) / (damping * F' x), F' being the derivative of F on
    [domain], and that a run of fewer than one hundred steps stopped because the
    estimate before the last step has a relative residual of at most 1e-6.  In
    every theorem F is the extension of the isotensional module and [result] the
    force of the isometric module, so that each theorem is about both the
    callbacks (C21) and the inversion (C47). *)
From Coq Require Import Reals ZArith Lra Lia.
From Coquelicot Require Import Coquelicot.
From Verif Require Import Scalar MMath MSwfjc MEfjc MMorse MLennardJones MLogSquared.
From Verif Require Import SpecLinks SpecInverse PBase PInverse.
Open Scope R_scope.

Theorem C21_langevin : forall x, 0 < x -> is_derive math.langevin_f x (math.langevin_fp x).
Proof. exact langevin_callback. Qed.
Print Assumptions C21_langevin.

Theorem C21_lennard_jones_stretch : forall kap x,
  inverted_by_newton (fun lam => / lam ^ 7 - / lam ^ 13) (fun lam => 0 < lam) 1 (6 * x / kap) 1
    (lennard_jones_thermodynamics.nondimensional_link_stretch kap x).
Proof. exact lj_stretch_solver. Qed.
Print Assumptions C21_lennard_jones_stretch.

(** The Lambert term used for log-squared links is the slope of the stretch
    1 / e^W whenever W solves W e^W = -x/kap around x. *)
Theorem C21_log_squared_slope : forall (kap : R) (W : R -> R) (x d : R),
  0 < kap -> 0 < x -> locally x (fun z => W z * exp (W z) = - z / kap) -> -1 < W x -> is_derive W x d ->
  is_derive (fun z => 1 / exp (W z)) x (log_squared_slope kap W x).
Proof. exact w_slope. Qed.
Print Assumptions C21_log_squared_slope.

Theorem C47_efjc : forall kap y, 0 < kap ->
  let guess := if Rlt_dec y 1 then math.inverse_langevin y else kap * (y - 1) in
  inverted_by_newton (efjc_isotensional_asymptotic.nondimensional_end_to_end_length_per_link kap) (fun x => 0 < x)
    1 y guess (efjc_isometric_asymptotic_legendre.nondimensional_force kap y) /\
  inverted_by_newton (efjc_isotensional_asymptotic_alternative.nondimensional_end_to_end_length_per_link kap) (fun x => 0 < x)
    1 y guess (efjc_isometric_asymptotic_alternative_legendre.nondimensional_force kap y) /\
  inverted_by_newton (efjc_isotensional_asymptotic_reduced.nondimensional_end_to_end_length_per_link kap) (fun x => 0 < x)
    1 y guess (efjc_isometric_asymptotic_reduced_legendre.nondimensional_force kap y).
Proof. exact (fun kap y Hk => conj (efjc_full kap y Hk) (conj (efjc_alternative kap y Hk) (efjc_reduced kap y Hk))). Qed.
Print Assumptions C47_efjc.

Theorem C47_morse : forall kap eps y, 0 < kap -> 0 < eps ->
  let m := sqrt (eps * kap / 8) in
  inverted_by_newton (morse_isotensional_asymptotic.nondimensional_end_to_end_length_per_link kap eps) (fun x => 0 < x < m)
    4 y (capped_guess y m) (morse_isometric_asymptotic_legendre.nondimensional_force kap eps y) /\
  inverted_by_newton (morse_isotensional_asymptotic_reduced.nondimensional_end_to_end_length_per_link kap eps) (fun x => 0 < x < m)
    4 y (capped_guess y m) (morse_isometric_asymptotic_reduced_legendre.nondimensional_force kap eps y).
Proof. exact (fun kap eps y Hk He => conj (morse_full kap eps y Hk He) (morse_reduced kap eps y Hk He)). Qed.
Print Assumptions C47_morse.

(** For Lennard-Jones links the callback is the derivative of the extension
    without the stretch, plus a difference quotient of the stretch. *)
Theorem C47_lennard_jones : forall kap y lam, 0 < kap -> 0 < lam -> lam ^ 6 = 13 / 7 ->
  let F := lennard_jones_isotensional_asymptotic.nondimensional_end_to_end_length_per_link kap in
  let stretch := lennard_jones_thermodynamics.nondimensional_link_stretch kap in
  exists g, (forall x, 0 < x -> is_derive (fun z => F z - stretch z) x (g x)) /\
  inverted F (fun x => g x + central_difference stretch x) 4 y (capped_guess y (lj_bond_force kap lam))
    (lennard_jones_isometric_asymptotic_legendre.nondimensional_force kap y).
Proof. exact lennard_jones_full. Qed.
Print Assumptions C47_lennard_jones.

Theorem C47_lennard_jones_reduced : forall kap y lam, 0 < lam -> lam ^ 6 = 13 / 7 ->
  let F := lennard_jones_isotensional_asymptotic_reduced.nondimensional_end_to_end_length_per_link kap in
  let stretch := lennard_jones_thermodynamics.nondimensional_link_stretch kap in
  exists g, (forall x, 0 < x -> is_derive (fun z => F z - stretch z) x (g x)) /\
  inverted F (fun x => g x + central_difference stretch x) 4 y (capped_guess y (lj_bond_force kap lam))
    (lennard_jones_isometric_asymptotic_reduced_legendre.nondimensional_force kap y).
Proof. exact lennard_jones_reduced. Qed.
Print Assumptions C47_lennard_jones_reduced.

Theorem C47_log_squared : forall kap y, 0 < kap ->
  let F := log_squared_isotensional_asymptotic.nondimensional_end_to_end_length_per_link kap in
  let W := fun x => math.lambert_w (- x / kap) in
  exists g, (forall x, 0 < x -> is_derive (fun z => F z - 1 / exp (W z)) x (g x)) /\
  inverted F (fun x => g x + log_squared_slope kap W x) 4 y
    (capped_guess y (kap / exp 1)) (log_squared_isometric_asymptotic_legendre.nondimensional_force kap y).
Proof. exact log_squared_full. Qed.
Print Assumptions C47_log_squared.

Theorem C47_log_squared_reduced : forall kap y,
  let F := log_squared_isotensional_asymptotic_reduced.nondimensional_end_to_end_length_per_link kap in
  let W := fun x => math.lambert_w (- x / kap) in
  exists g, (forall x, 0 < x -> is_derive (fun z => F z - 1 / exp (W z)) x (g x)) /\
  inverted F (fun x => g x + log_squared_slope kap W x) 4 y
    (capped_guess y (kap / exp 1)) (log_squared_isometric_asymptotic_reduced_legendre.nondimensional_force kap y).
Proof. exact log_squared_reduced. Qed.
Print Assumptions C47_log_squared_reduced.

(** Square-well chain: a root above 1e-3, and a linear law below. *)
Theorem C47_swfjc : forall l w y, 0 < l -> 0 < w -> 1 / 10 ^ 3 < y ->
  inverted_by_newton (swfjc_isotensional.nondimensional_end_to_end_length_per_link l w) (fun x => 0 < x) 1 y
    (if Rlt_dec (y / (1 + w / l)) (9 / 10) then math.inverse_langevin (y / (1 + w / l)) else 10)
    (swfjc_isometric_legendre.nondimensional_force l w y).
Proof. exact swfjc_solver. Qed.
Print Assumptions C47_swfjc.

Theorem C47_swfjc_linear : forall l w y, y <= 1 / 10 ^ 3 ->
  let v := 1 + w / l in
  swfjc_isometric_legendre.nondimensional_force l w y = y * 5 * (v ^ 2 + v + 1) / (v ^ 4 + v ^ 3 + v ^ 2 + v + 1).
Proof. exact swfjc_linear. Qed.
Print Assumptions C47_swfjc_linear.

(** The free energy returned by each isometric module is the Legendre transform at
    the computed force; the last hinge (and link) term is left out. *)

Theorem C47_legendre_efjc : forall N l m T kap y,
  let x := efjc_isometric_asymptotic_legendre.nondimensional_force kap y in
  efjc_isometric_asymptotic_legendre.nondimensional_helmholtz_free_energy_per_link N l m kap y T =
  efjc_isotensional_asymptotic.nondimensional_gibbs_free_energy_per_link l m kap x T + x * y + (hinge_term l m T + link_term kap l) / IZR N.
Proof. exact PInverse.legendre_efjc. Qed.
Print Assumptions C47_legendre_efjc.

Theorem C47_legendre_efjc_alternative : forall N l m T kap y,
  let x := efjc_isometric_asymptotic_alternative_legendre.nondimensional_force kap y in
  efjc_isometric_asymptotic_alternative_legendre.nondimensional_helmholtz_free_energy_per_link N l m kap y T =
  efjc_isotensional_asymptotic_alternative.nondimensional_gibbs_free_energy_per_link l m kap x T + x * y + (hinge_term l m T + link_term kap l) / IZR N.
Proof. exact PInverse.legendre_efjc_alternative. Qed.
Print Assumptions C47_legendre_efjc_alternative.

Theorem C47_legendre_efjc_reduced : forall N l m T kap y,
  let x := efjc_isometric_asymptotic_reduced_legendre.nondimensional_force kap y in
  efjc_isometric_asymptotic_reduced_legendre.nondimensional_helmholtz_free_energy_per_link N l m kap y T =
  efjc_isotensional_asymptotic_reduced.nondimensional_gibbs_free_energy_per_link l m kap x T + x * y + (hinge_term l m T + link_term kap l) / IZR N.
Proof. exact PInverse.legendre_efjc_reduced. Qed.
Print Assumptions C47_legendre_efjc_reduced.

Theorem C47_legendre_morse : forall N l m T kap eps y,
  let x := morse_isometric_asymptotic_legendre.nondimensional_force kap eps y in
  morse_isometric_asymptotic_legendre.nondimensional_helmholtz_free_energy_per_link N l m kap eps y T =
  morse_isotensional_asymptotic.nondimensional_gibbs_free_energy_per_link l m kap eps x T + x * y + (hinge_term l m T + link_term kap l) / IZR N.
Proof. exact PInverse.legendre_morse. Qed.
Print Assumptions C47_legendre_morse.

Theorem C47_legendre_morse_reduced : forall N l m T kap eps y,
  let x := morse_isometric_asymptotic_reduced_legendre.nondimensional_force kap eps y in
  morse_isometric_asymptotic_reduced_legendre.nondimensional_helmholtz_free_energy_per_link N l m kap eps y T =
  morse_isotensional_asymptotic_reduced.nondimensional_gibbs_free_energy_per_link l m kap eps x T + x * y + (hinge_term l m T + link_term kap l) / IZR N.
Proof. exact PInverse.legendre_morse_reduced. Qed.
Print Assumptions C47_legendre_morse_reduced.

Theorem C47_legendre_lennard_jones : forall N l m T kap y,
  let x := lennard_jones_isometric_asymptotic_legendre.nondimensional_force kap y in
  lennard_jones_isometric_asymptotic_legendre.nondimensional_helmholtz_free_energy_per_link N l m kap y T =
  lennard_jones_isotensional_asymptotic.nondimensional_gibbs_free_energy_per_link l m kap x T + x * y + (hinge_term l m T + link_term kap l) / IZR N.
Proof. exact PInverse.legendre_lennard_jones. Qed.
Print Assumptions C47_legendre_lennard_jones.

Theorem C47_legendre_lennard_jones_reduced : forall N l m T kap y,
  let x := lennard_jones_isometric_asymptotic_reduced_legendre.nondimensional_force kap y in
  lennard_jones_isometric_asymptotic_reduced_legendre.nondimensional_helmholtz_free_energy_per_link N l m kap y T =
  lennard_jones_isotensional_asymptotic_reduced.nondimensional_gibbs_free_energy_per_link l m kap x T + x * y + (hinge_term l m T + link_term kap l) / IZR N.
Proof. exact PInverse.legendre_lennard_jones_reduced. Qed.
Print Assumptions C47_legendre_lennard_jones_reduced.

Theorem C47_legendre_log_squared : forall N l m T kap y,
  let x := log_squared_isometric_asymptotic_legendre.nondimensional_force kap y in
  log_squared_isometric_asymptotic_legendre.nondimensional_helmholtz_free_energy_per_link N l m kap y T =
  log_squared_isotensional_asymptotic.nondimensional_gibbs_free_energy_per_link l m kap x T + x * y + (hinge_term l m T + link_term kap l) / IZR N.
Proof. exact PInverse.legendre_log_squared. Qed.
Print Assumptions C47_legendre_log_squared.

Theorem C47_legendre_log_squared_reduced : forall N l m T kap y,
  let x := log_squared_isometric_asymptotic_reduced_legendre.nondimensional_force kap y in
  log_squared_isometric_asymptotic_reduced_legendre.nondimensional_helmholtz_free_energy_per_link N l m kap y T =
  log_squared_isotensional_asymptotic_reduced.nondimensional_gibbs_free_energy_per_link l m kap x T + x * y + (hinge_term l m T + link_term kap l) / IZR N.
Proof. exact PInverse.legendre_log_squared_reduced. Qed.
Print Assumptions C47_legendre_log_squared_reduced.

Theorem C47_legendre_swfjc : forall N l m T w y,
  let x := swfjc_isometric_legendre.nondimensional_force l w y in
  swfjc_isometric_legendre.nondimensional_helmholtz_free_energy_per_link N l m w y T =
  swfjc_isotensional.nondimensional_gibbs_free_energy_per_link l m w x T + x * y + (hinge_term l m T) / IZR N.
Proof. exact PInverse.legendre_swfjc. Qed.
Print Assumptions C47_legendre_swfjc.

Example C47_example : inverted_by_newton (efjc_isotensional_asymptotic.nondimensional_end_to_end_length_per_link 50) (fun x => 0 < x)
  1 (11 / 10) (50 * (11 / 10 - 1)) (efjc_isometric_asymptotic_legendre.nondimensional_force 50 (11 / 10)).
Proof.
  destruct (C47_efjc 50 (11 / 10) ltac:(lra)) as (E & _). cbv zeta in E.
  destruct (Rlt_dec (11 / 10) 1) as [l | n]; [exfalso; lra | exact E].
Qed.
