(** The equilibrium distributions of the ideal chain: C29. *)
From Coq Require Import Reals ZArith.
From Coquelicot Require Import Coquelicot.
From Verif Require Import Scalar MConst MIdeal SpecThermo SpecGauss PIdealDist.
Open Scope R_scope.

(** The radial distribution integrates to one over all lengths. *)
Theorem C29_normalised : forall (N : Z) (l : R), (0 < N)%Z -> 0 < l ->
  half_line_integral (ideal_isometric.nondimensional_equilibrium_radial_distribution N) 1 /\
  half_line_integral (ideal_isometric.equilibrium_radial_distribution N l) 1.
Proof. exact normalised. Qed.
Print Assumptions C29_normalised.

(** It is the distribution times the area of the sphere. *)
Theorem C29_radial : forall (N : Z) (l : R), (0 < N)%Z -> 0 < l -> forall x : R,
  ideal_isometric.nondimensional_equilibrium_radial_distribution N x
    = 4 * PI * x ^ 2 * ideal_isometric.nondimensional_equilibrium_distribution N x /\
  ideal_isometric.equilibrium_radial_distribution N l x
    = 4 * PI * x ^ 2 * ideal_isometric.equilibrium_distribution N l x.
Proof. intros N l HN Hl x. split; [apply nd_radial_dist | exact (radial_dist N l HN Hl x)]. Qed.
Print Assumptions C29_radial.

(** The free energy is minus the logarithm of the distribution, both measured from
    zero extension. *)
Theorem C29_free_energy : forall (N : Z) (l : R), (0 < N)%Z -> 0 < l -> forall m T x : R,
  let P := ideal_isometric.equilibrium_distribution N l in
  ideal_isometric.helmholtz_free_energy N l m x T - ideal_isometric.helmholtz_free_energy N l m 0 T
    = - (kB * T) * ln (P x / P 0) /\
  ideal_isometric.relative_helmholtz_free_energy N l x T = - (kB * T) * ln (P x / P 0).
Proof. exact free_energy. Qed.
Print Assumptions C29_free_energy.

Theorem C29_nondimensional_free_energy : forall (N : Z) (l : R), (0 < N)%Z -> forall m T x : R,
  let P := ideal_isometric.nondimensional_equilibrium_distribution N in
  ideal_isometric.nondimensional_helmholtz_free_energy N l m x T
    - ideal_isometric.nondimensional_helmholtz_free_energy N l m 0 T = - ln (P x / P 0) /\
  ideal_isometric.nondimensional_relative_helmholtz_free_energy N x = - ln (P x / P 0).
Proof. exact nd_free_energy. Qed.
Print Assumptions C29_nondimensional_free_energy.
