(** Work conjugacy for functions that may panic ([None]). *)
From Coq Require Import Reals.
From Coquelicot Require Import Coquelicot.
Open Scope R_scope.

(** The energy returns everywhere in (lo, hi), the force returns at [x], and the
    derivative of the energy at [x] is [c] times the force. *)
Definition conjugate (energy force : R -> option R) (lo hi c x : R) : Prop :=
  exists (A : R -> R) (f : R),
    (forall y, lo < y < hi -> energy y = Some (A y)) /\ force x = Some f /\ is_derive A x (c * f).

(** A function that may panic has the integral [v] over (lo, hi). *)
Definition integral (density : R -> option R) (lo hi v : R) : Prop :=
  exists w : R -> R, (forall y, lo < y < hi -> density y = Some (w y)) /\ is_RInt w lo hi v.
