(** The isotensional partition function of the worm-like chain, by the midpoint rule. *)
From Coq Require Import Reals ZArith.
From Verif Require Import Scalar MConst MWlc SpecThermo SpecPartition.
Open Scope R_scope.

(** The integral over end-to-end vectors of exp (force . vector - psi / kT) in
    spherical coordinates, with psi the isometric Helmholtz free energy, by the
    midpoint rule with 64 panels on extensions per link from 1e-6 to 1. *)
Definition worm_partition (N : Z) (l m T z eta : R) : R :=
  4 * PI * midpoint_rule (fun g => sinh (IZR N * eta * g) * (IZR N * g / eta) *
      exp (- wlc_isometric.nondimensional_helmholtz_free_energy N l m z g T)) (/ 10 ^ 6) 1 64.

(** Minus its logarithm, with the contribution of the last hinge. *)
Definition worm_gibbs (N : Z) (l m T z eta : R) : R :=
  - ln (worm_partition N l m T z eta) -
  ln (4 * sin (acos (exp (- 1 / z))) * PI ^ 2 * m * l ^ 2 * kB * T / hP ^ 2).
