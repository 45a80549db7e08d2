(** Thermodynamic stability in force and temperature together. *)
From Coq Require Import Reals.
From Coquelicot Require Import Coquelicot.
From Verif Require Import SpecThermo.
Open Scope R_scope.

(** g (force, temperature) lies above its chords, strictly so between different temperatures. *)
Definition jointly_concave (g : R -> R -> R) : Prop :=
  forall f1 T1 f2 T2 s, 0 < f1 -> 0 < T1 -> 0 < f2 -> 0 < T2 -> 0 < s < 1 ->
    s * g f1 T1 + (1 - s) * g f2 T2 <= g (s * f1 + (1 - s) * f2) (s * T1 + (1 - s) * T2) /\
    (T1 <> T2 -> s * g f1 T1 + (1 - s) * g f2 T2 < g (s * f1 + (1 - s) * f2) (s * T1 + (1 - s) * T2)).

(** The Gibbs free energies of a chain, given as a function of the temperature. *)
Definition gibbs_jointly_concave (c : R -> isotensional) : Prop :=
  jointly_concave (fun f T => I_gibbs (c T) f) /\ jointly_concave (fun f T => I_gibbs_per_link (c T) f).

(** The entropy, minus the temperature derivative of a free energy a, increases with the
    temperature: the heat capacity is positive.  Between two temperatures the mean entropy takes
    the place of the derivative. *)
Definition mean_entropy (a : R -> R) (T1 T2 : R) : R := - (a T2 - a T1) / (T2 - T1).

Definition entropy_increases (a : R -> R) : Prop :=
  (forall T1 T2 T3, 0 < T1 -> T1 < T2 -> T2 < T3 -> mean_entropy a T1 T2 < mean_entropy a T2 T3) /\
  (forall T1 T2 S1 S2, 0 < T1 -> T1 < T2 -> is_derive a T1 (- S1) -> is_derive a T2 (- S2) -> S1 < S2).
