(** Notions used to state the properties of the root finders. *)
From Coq Require Import Reals ZArith List.
From Verif Require Import Scalar.
Open Scope R_scope.

Section Newton.
Context {T : Type} {Sc : Scalar T}.

(** One Newton step for the equation f x = y. *)
Definition newton_step (y : T) (f fp : T -> T) (x : T) : T := (x + (y - f x) / fp x)%S.

(** Relative residual of an estimate. *)
Definition relative_residual (y : T) (f : T -> T) (x : T) : T := sabs ((y - f x) / y)%S.

(** The estimate after [k] steps. *)
Definition newton_iterate (y : T) (f fp : T -> T) (k : nat) (x : T) : T := Nat.iter k (newton_step y f fp) x.
End Newton.

(** Concave and increasing on an interval, in terms of a function [fp] that
    plays the role of the derivative: every tangent lies above the graph. *)
Definition concave_increasing (D : R -> Prop) (f fp : R -> R) : Prop :=
  (forall x z t, D x -> D z -> x <= t <= z -> D t) /\
  (forall x, D x -> 0 < fp x) /\
  (forall x z, D x -> D z -> f z <= f x + fp x * (z - x)).
