(** The effect of temperature on a chain under tension.

    A chain is extended by turning its links towards the force, against thermal
    agitation; heating it under a constant force therefore makes it shorter, as
    rubber under a weight contracts when heated. *)
From Coq Require Import Reals.
From Verif Require Import SpecThermo.
Open Scope R_scope.

(** [c T] is a chain at the temperature T; f is the force in newtons, the same at both temperatures. *)
Definition heating_shortens (pulls : R -> Prop) (c : R -> isotensional) : Prop :=
  forall f T T', 0 < f -> pulls f -> 0 < T -> T < T' ->
    I_length (c T') f < I_length (c T) f /\ I_length_per_link (c T') f < I_length_per_link (c T) f.

(** Some heating makes the chain longer. *)
Definition heating_lengthens (f : R) (c : R -> isotensional) : Prop :=
  exists T T', 0 < T /\ T < T' /\ I_length (c T) f < I_length (c T') f.

Definition every_pull (f : R) : Prop := True.

(** Held at a given length, the chain pulls back in proportion to the absolute
    temperature: its elasticity is entropy alone. *)
Definition entropic (force : R -> R -> R) : Prop :=
  forall xi T T', 0 < T -> 0 < T' -> force xi T' / T' = force xi T / T.
