(** The pull of a chain that is almost straight. *)
From Coq Require Import Reals.
From Coquelicot Require Import Coquelicot.
Open Scope R_scope.

(** As x rises to [full], f x grows like coefficient / (1 - x / full)^power. *)
Definition diverges_as (f : R -> R) (full : R) (power : nat) (coefficient : R) : Prop :=
  filterlim (fun x => (1 - x / full) ^ power * f x) (at_left full) (locally coefficient).

(** f x is within [low, high] times 1 / (1 - x) for x between [from] and 1. *)
Definition simple_pole_within (f : R -> R) (from low high : R) : Prop :=
  forall x, from <= x < 1 -> low <= (1 - x) * f x <= high.
