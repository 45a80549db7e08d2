(** Monotone functions that may panic ([None]). *)
From Coq Require Import Reals.
Open Scope R_scope.

(** Defined everywhere in (lo, hi), and strictly larger (smaller) further out. *)
Definition strictly_rising (f : R -> option R) (lo hi : R) : Prop :=
  forall x y, lo < x -> x < y -> y < hi -> exists u v, f x = Some u /\ f y = Some v /\ u < v.
Definition strictly_falling (f : R -> option R) (lo hi : R) : Prop :=
  forall x y, lo < x -> x < y -> y < hi -> exists u v, f x = Some u /\ f y = Some v /\ v < u.
Definition constant (f : R -> option R) (lo hi : R) : Prop :=
  forall x y, lo < x -> x < y -> y < hi -> exists u, f x = Some u /\ f y = Some u.

(** A positive number at [x]. *)
Definition positive_at (f : R -> option R) (x : R) : Prop := exists v, f x = Some v /\ 0 < v.
