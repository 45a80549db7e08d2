(** How the extension of a chain under a given force depends on its links. *)
From Coq Require Import Reals.
From Verif Require Import SpecLinks.
Open Scope R_scope.

(** Under the same pull x, a larger parameter (a stiffer link, a deeper well) gives a
    strictly shorter chain, at every pull the weaker of the two links bears. *)
Definition shorter_with (bears : R -> R -> Prop) (f : R -> R -> R) : Prop :=
  forall p p' x, 0 < p -> p < p' -> 0 < x -> bears p x -> f p' x < f p x.

(** A larger parameter gives a strictly longer chain. *)
Definition longer_with (f : R -> R -> R) : Prop :=
  forall p p' x, 0 < p -> p < p' -> 0 < x -> f p x < f p' x.

(** A spring bears any pull. *)
Definition any_pull (p x : R) : Prop := True.

(** The largest pull a Morse link of stiffness kap and energy eps bears. *)
Definition morse_bears (kap eps x : R) : Prop := x < sqrt (kap * eps / 8).

(** The largest pull a log-squared link bears, kap / e. *)
Definition log_squared_bears (kap x : R) : Prop := x < kap * exp (-1).

(** The largest pull a Lennard-Jones link bears, at the stretch (13/7)^(1/6). *)
Definition lennard_jones_bears (kap x : R) : Prop :=
  exists lam_max, 0 < lam_max /\ lam_max ^ 6 = 13 / 7 /\ x < lj_bond_force kap lam_max.
