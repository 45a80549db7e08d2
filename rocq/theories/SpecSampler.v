(** Vectors of doubles, and what the samplers need of a mathematical library. *)
From Coq Require Import Reals Floats.
From Verif Require Import F64 MMonteCarlo SpecDouble.
Open Scope R_scope.

Definition values (p : vec float) : vec R := let '(a, b, c) := p in (value a, value b, value c).
Definition all_finite (p : vec float) : Prop := let '(a, b, c) := p in finite a /\ finite b /\ finite c.

(** What the sampler needs of the library. *)
Definition trigonometry (d : R) (L : libm) : Prop :=
  (forall x, finite x -> Rabs (value x) <= 16 -> finite (l_sin L x) /\ Rabs (value (l_sin L x) - sin (value x)) <= d) /\
  (forall x, finite x -> Rabs (value x) <= 16 -> finite (l_cos L x) /\ Rabs (value (l_cos L x) - cos (value x)) <= d) /\
  (forall x, finite x -> -1 <= value x <= 1 -> finite (l_acos L x) /\ Rabs (value (l_acos L x)) <= 4) /\
  finite (l_pi L) /\ 0 <= value (l_pi L) <= 4.

(** The lengths drawn one after the other, each divided by [links]; [None] if a draw panics. *)
Fixpoint sampled {G : Type} (draw : G -> option (float * G)) (links : float) (n : nat) (g : G) : option (list float) :=
  match n with
  | O => Some nil
  | S m =>
      match draw g with
      | None => None
      | Some (l, g') => match sampled draw links m g' with None => None | Some rest => Some ((l / links)%float :: rest)%list end
      end
  end.

(** A double value nearest to [r]. *)
Definition nearest_value (v r : R) : Prop :=
  (exists x, finite x /\ value x = v) /\ forall y, finite y -> Rabs (v - r) <= Rabs (value y - r).
