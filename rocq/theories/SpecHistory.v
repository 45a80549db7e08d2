(** Histories of stretches in double precision. *)
From Coq Require Import Reals List Floats.
From Verif Require Import SpecDouble.
Import ListNotations.
Open Scope R_scope.

(** [m] is a largest of one and the stretches in [h]. *)
Definition is_largest (h : list float) (m : float) : Prop :=
  In m (1%float :: h) /\ forall s, In s (1%float :: h) -> value s <= value m.

(** Not a number, or a number (or infinity) with the sign +. *)
Definition unsigned (x : float) : Prop :=
  match Prim2SF x with
  | S754_nan => True
  | S754_zero s | S754_infinity s | S754_finite s _ _ => s = false
  end.
