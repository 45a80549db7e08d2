(** The mean square end-to-end length of a chain.

    A chain of N links of length l that turn freely is a random walk, and the mean
    square of its end-to-end length is N l^2 whatever else is true of the
    distribution. *)
From Coq Require Import Reals.
From Verif Require Import SpecIsometric SpecGauss.
Open Scope R_scope.

(** The mean of the square of the length, for a density that may panic on the lengths between lo and hi. *)
Definition mean_square_length (density : R -> option R) (lo hi v : R) : Prop :=
  integral (fun r => match density r with Some p => Some (p * r ^ 2) | None => None end) lo hi v.

(** The same for a density on all positive lengths. *)
Definition half_line_mean_square_length (density : R -> R) (v : R) : Prop :=
  half_line_integral (fun r => density r * r ^ 2) v.

(** The density rises up to [peak] and falls beyond it. *)
Definition most_probable (density : R -> R) (peak : R) : Prop :=
  0 < peak /\
  (forall x y, 0 <= x < y -> y <= peak -> density x < density y) /\
  (forall x y, peak <= x < y -> density y < density x).
