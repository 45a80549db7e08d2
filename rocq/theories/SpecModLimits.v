(** Limits of the modified canonical ensemble. *)
From Coq Require Import Reals ZArith.
From Coquelicot Require Import Coquelicot.
From Verif Require Import Scalar MMath SpecWalk.
Open Scope R_scope.

(** The partition function of a chain under a constant force [eta] (in units of kT over
    the link length): the average of exp(force times extension along the force) over
    directions and over the random walk of the links. The library's midpoint rule with
    64 points on [1e-6, 1] replaces the integral over the end-to-end length per link. *)
Definition constant_force_sum (N : Z) (eta : R) : R :=
  math.integrate_1d (fun x => 4 * PI * x ^ 2 * (IZR N ^ 3 * walk_density (Z.to_nat N) (IZR N * x))
                              * (sinh (IZR N * eta * x) / (IZR N * eta * x))) (1 / 10 ^ 6) 1 64.

(** The points of that midpoint rule, [0 <= i < 64]. *)
Definition grid (i : Z) : R := 1 / 10 ^ 6 + (IZR i + 1 / 2) * ((1 - 1 / 10 ^ 6) / 64).

(** [i] numbers the one point of the rule that is nearest to [d]. *)
Definition nearest (d : R) (i : Z) : Prop :=
  (0 <= i < 64)%Z /\ forall j, (0 <= j < 64)%Z -> j <> i -> Rabs (d - grid i) < Rabs (d - grid j).
