(** Whether a chain becomes stiffer or softer as it is pulled. *)
From Coq Require Import Reals.
Open Scope R_scope.

(** The compliance of a chain under the pull x is the extension per pull, f x / x.
    A chain stiffens when a stronger pull always meets a smaller compliance. *)
Definition stiffens (f : R -> R) : Prop := forall x y, 0 < x -> x < y -> f y / y < f x / x.

(** A spring: its compliance does not depend on the pull. *)
Definition hookean (f : R -> R) : Prop := forall x y, 0 < x -> x < y -> f y / y = f x / x.

(** A chain whose links break at the pull [breaking] gives way before it does: its
    compliance grows with the pull somewhere below. *)
Definition gives_way (f : R -> R) (breaking : R) : Prop :=
  exists x y, 0 < x /\ x < y /\ y < breaking /\ f x / x < f y / y.
