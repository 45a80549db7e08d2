(** Thermodynamic stability: a pulled chain has a positive extension, and pulling
    harder makes it longer. *)
From Coq Require Import Reals.
From Verif Require Import SpecThermo.
Open Scope R_scope.

Definition positive_increasing_on (D : R -> Prop) (f : R -> R) : Prop :=
  (forall x, D x -> 0 < f x) /\ (forall x y, D x -> D y -> x < y -> f x < f y).

(** [D] is a set of nondimensional forces; the dimensional extensions are taken at
    the forces whose nondimensional value is in it. *)
Definition isotensional_stable_on (D : R -> Prop) (l T : R) (c : isotensional) : Prop :=
  let E := fun f => D (f * l / (kB * T)) in
  positive_increasing_on E (I_length c) /\
  positive_increasing_on E (I_length_per_link c) /\
  positive_increasing_on D (I_nd_length c) /\
  positive_increasing_on D (I_nd_length_per_link c).

Definition pulling (x : R) : Prop := 0 < x.
