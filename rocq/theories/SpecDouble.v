(** Double-precision numbers and the real numbers they stand for. *)
From Coq Require Import Reals ZArith Floats.
Open Scope R_scope.

(** The number [m * 2^e] with its sign; zero for the zeros, infinities and NaN. *)
Definition value (x : float) : R :=
  match Prim2SF x with
  | S754_finite s m e => (if s then -1 else 1) * (IZR (Zpos m) * powerRZ 2 e)
  | _ => 0
  end.

(** Neither infinite nor NaN. *)
Definition finite (x : float) : Prop :=
  match Prim2SF x with
  | S754_finite _ _ _ | S754_zero _ => True
  | _ => False
  end.

(** Half a unit in the last place of 1. *)
Definition unit_roundoff : R := / 2 ^ 53.

(** At [x] the routine [f] returns [g x] with a relative error of at most [d]. *)
Definition accurate (d : R) (f : float -> float) (g : R -> R) (x : float) : Prop :=
  finite (f x) /\ Rabs (value (f x) - g (value x)) <= d * Rabs (g (value x)).

(** At [x] the routine [f] returns the double nearest to [g x]. *)
Definition nearest_double (f : float -> float) (g : R -> R) (x : float) : Prop :=
  finite (f x) /\ forall y, finite y -> Rabs (value (f x) - g (value x)) <= Rabs (value y - g (value x)).

(** The sum of real numbers. *)
Definition total (l : list R) : R := List.fold_right Rplus 0 l.

(** Around the interval from [a] to [b] (in either order) the routine [f]
    computes [g], with an error of at most [eps] that includes the effect of
    moving the argument by [delta]. *)
Definition computes (f : float -> float) (g : R -> R) (a b delta eps : R) : Prop :=
  forall (x : float) (y : R), finite x -> Rmin a b <= y <= Rmax a b -> Rabs (value x - y) <= delta ->
    finite (f x) /\ Rabs (value (f x) - g y) <= eps.
