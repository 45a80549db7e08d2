(** The Legendre transform as a supremum.

    A chain held at the extension [y] per link stores the largest amount that any
    force could account for: the work of the force minus what the freely pulled
    chain gives back. *)
From Coq Require Import Reals.
Open Scope R_scope.

(** [gibbs] is the Gibbs free energy of the pulled chain, as a function of a
    non-zero force. *)
Definition legendre_transform (gibbs : R -> R) (y v : R) : Prop :=
  is_lub (fun s => exists eta, eta <> 0 /\ s = eta * y + gibbs eta) v.

(** The same for the modules that start from the force: [helmholtz x] belongs to
    the extension [length x].  No other force [y] accounts for more, and between
    two forces the chain stores at least the work of the smaller one and at most
    the work of the larger one. *)
Definition largest_on (D : R -> Prop) (length gibbs helmholtz : R -> R) : Prop :=
  forall x y, D x -> D y -> y * length x + gibbs y <= helmholtz x.
Definition stores_work_on (D : R -> Prop) (length helmholtz : R -> R) : Prop :=
  forall x y, D x -> D y -> x < y ->
    x * (length y - length x) <= helmholtz y - helmholtz x <= y * (length y - length x).

From Verif Require Import SpecThermo.

(** [D] is a set of nondimensional forces. *)
Definition legendre_maximal_on (D : R -> Prop) (l T : R) (c : isotensional) (h : isotensional_helmholtz) : Prop :=
  let E := fun f => D (f * l / (kB * T)) in
  largest_on E (I_length c) (I_gibbs c) (IH_helmholtz h) /\
  largest_on E (I_length_per_link c) (I_gibbs_per_link c) (IH_helmholtz_per_link h) /\
  largest_on D (I_nd_length c) (I_nd_gibbs c) (IH_nd_helmholtz h) /\
  largest_on D (I_nd_length_per_link c) (I_nd_gibbs_per_link c) (IH_nd_helmholtz_per_link h).
Definition legendre_work_on (D : R -> Prop) (l T : R) (c : isotensional) (h : isotensional_helmholtz) : Prop :=
  let E := fun f => D (f * l / (kB * T)) in
  stores_work_on E (I_length c) (IH_helmholtz h) /\
  stores_work_on E (I_length c) (IH_rel_helmholtz h) /\
  stores_work_on E (I_length_per_link c) (IH_helmholtz_per_link h) /\
  stores_work_on E (I_length_per_link c) (IH_rel_helmholtz_per_link h) /\
  stores_work_on D (I_nd_length c) (IH_nd_helmholtz h) /\
  stores_work_on D (I_nd_length c) (IH_nd_rel_helmholtz h) /\
  stores_work_on D (I_nd_length_per_link c) (IH_nd_helmholtz_per_link h) /\
  stores_work_on D (I_nd_length_per_link c) (IH_nd_rel_helmholtz_per_link h).
