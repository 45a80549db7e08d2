(** Mirror symmetry: pulling a chain the other way round stretches it the other way
    round by the same amount, at the same cost. *)
From Coq Require Import Reals.
From Verif Require Import SpecThermo.
Open Scope R_scope.

Definition odd_on (D : R -> Prop) (f : R -> R) : Prop := forall x, D x -> f (- x) = - f x.
Definition even_on (D : R -> Prop) (f : R -> R) : Prop := forall x, D x -> f (- x) = f x.

(** The formulas have a removable singularity at zero (see C51). *)
Definition loaded (x : R) : Prop := x <> 0.

Definition anywhere (x : R) : Prop := True.

(** Extensions over the contour length of an inextensible chain, in either direction. *)
Definition inner (g : R) : Prop := -1 < g < 1 /\ g <> 0.

(** The force of three links jumps where two links are stretched and the third is
    folded back. *)
Definition off_kink (n : nat) (g : R) : Prop := n <> 3%nat \/ (g <> 1 / 3 /\ g <> - (1 / 3)).

(** Extensions are odd in the force. *)
Definition extension_reverses (c : isotensional) : Prop :=
  odd_on loaded (I_length c) /\ odd_on loaded (I_length_per_link c) /\
  odd_on loaded (I_nd_length c) /\ odd_on loaded (I_nd_length_per_link c).

(** Gibbs free energies are even in the force. *)
Definition gibbs_reverses (c : isotensional) : Prop :=
  even_on loaded (I_gibbs c) /\ even_on loaded (I_gibbs_per_link c) /\
  even_on loaded (I_rel_gibbs c) /\ even_on loaded (I_rel_gibbs_per_link c) /\
  even_on loaded (I_nd_gibbs c) /\ even_on loaded (I_nd_gibbs_per_link c) /\
  even_on loaded (I_nd_rel_gibbs c) /\ even_on loaded (I_nd_rel_gibbs_per_link c).

(** Helmholtz free energies are even in the force. *)
Definition helmholtz_reverses (h : isotensional_helmholtz) : Prop :=
  even_on loaded (IH_helmholtz h) /\ even_on loaded (IH_helmholtz_per_link h) /\
  even_on loaded (IH_rel_helmholtz h) /\ even_on loaded (IH_rel_helmholtz_per_link h) /\
  even_on loaded (IH_nd_helmholtz h) /\ even_on loaded (IH_nd_helmholtz_per_link h) /\
  even_on loaded (IH_nd_rel_helmholtz h) /\ even_on loaded (IH_nd_rel_helmholtz_per_link h).

(** Forces are odd and Helmholtz free energies even in the extension: [x] of [D] is
    the extension per link over the link length, [L] the contour length. *)
Definition isometric_reverses_on (D : R -> Prop) (L : R) (c : isometric) : Prop :=
  let E := fun xi => D (xi / L) in
  odd_on E (S_force c) /\ odd_on D (S_nd_force c) /\
  even_on E (S_helmholtz c) /\ even_on E (S_helmholtz_per_link c) /\
  even_on E (S_rel_helmholtz c) /\ even_on E (S_rel_helmholtz_per_link c) /\
  even_on D (S_nd_helmholtz c) /\ even_on D (S_nd_helmholtz_per_link c) /\
  even_on D (S_nd_rel_helmholtz c) /\ even_on D (S_nd_rel_helmholtz_per_link c).

(** The same for functions that may panic: where one returns, so does its mirror
    image. *)
Definition odd_option (D : R -> Prop) (f : R -> option R) : Prop :=
  forall x, D x -> exists v, f x = Some v /\ f (- x) = Some (- v).
Definition even_option (D : R -> Prop) (f : R -> option R) : Prop :=
  forall x, D x -> exists v, f x = Some v /\ f (- x) = Some v.
