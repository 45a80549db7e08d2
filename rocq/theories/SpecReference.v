(** Relative free energies that vanish in the limit of no force or extension. *)
From Coq Require Import Reals.
From Coquelicot Require Import Coquelicot.
From Verif Require Import SpecThermo.
Open Scope R_scope.

Definition vanishes_at_zero (f : R -> R) : Prop := filterlim f (at_right 0) (locally 0).

Definition isotensional_vanishing (c : isotensional) : Prop :=
  vanishes_at_zero (I_rel_gibbs c) /\ vanishes_at_zero (I_rel_gibbs_per_link c) /\
  vanishes_at_zero (I_nd_rel_gibbs c) /\ vanishes_at_zero (I_nd_rel_gibbs_per_link c).
Definition isotensional_helmholtz_vanishing (h : isotensional_helmholtz) : Prop :=
  vanishes_at_zero (IH_rel_helmholtz h) /\ vanishes_at_zero (IH_rel_helmholtz_per_link h) /\
  vanishes_at_zero (IH_nd_rel_helmholtz h) /\ vanishes_at_zero (IH_nd_rel_helmholtz_per_link h).
Definition isometric_vanishing (c : isometric) : Prop :=
  vanishes_at_zero (S_rel_helmholtz c) /\ vanishes_at_zero (S_rel_helmholtz_per_link c) /\
  vanishes_at_zero (S_nd_rel_helmholtz c) /\ vanishes_at_zero (S_nd_rel_helmholtz_per_link c).
