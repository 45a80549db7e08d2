(** The modified canonical ensemble: the end of the chain is held by a harmonic
    potential of stiffness [k] centred at distance [d] from the other end. *)
From Coq Require Import Reals ZArith List.
From Coquelicot Require Import Coquelicot.
From Verif Require Import Scalar SpecThermo.
Open Scope R_scope.

(** Energy of the potential when the chain end is at distance [x] from the other
    end, in a direction whose cosine with the direction of the centre is [u]. *)
Definition potential (k d x u : R) : R := 1 / 2 * k * (d ^ 2 + x ^ 2 - 2 * d * x * u).

(** Its Boltzmann factor averaged over all directions ([u] is uniform on [-1,1]). *)
Definition average_factor (beta k d x : R) : R :=
  1 / 2 * RInt (fun u => exp (- (beta * potential k d x u))) (-1) 1.

(** The weak-potential approximation as a function of the force [k*d] that the
    potential exerts far from its centre: the potential is moved, [d = f/k], with its
    stiffness [k] held fixed. *)
From Verif Require Import MFjc.
Definition C_weak_potential (N : Z) (l m T k : R) : isotensional :=
  let kap := k * l ^ 2 / (kB * T) in
  let dist eta := eta / (IZR N * kap) in {|
  I_length := fun f => fjc_modified_canonical_asymptotic_weak_potential.end_to_end_length N l (f / k) k T;
  I_length_per_link := fun f => fjc_modified_canonical_asymptotic_weak_potential.end_to_end_length_per_link N l (f / k) k T;
  I_nd_length := fun eta => fjc_modified_canonical_asymptotic_weak_potential.nondimensional_end_to_end_length N (dist eta) kap;
  I_nd_length_per_link := fun eta => fjc_modified_canonical_asymptotic_weak_potential.nondimensional_end_to_end_length_per_link N (dist eta) kap;
  I_gibbs := fun f => fjc_modified_canonical_asymptotic_weak_potential.gibbs_free_energy N l m (f / k) k T;
  I_gibbs_per_link := fun f => fjc_modified_canonical_asymptotic_weak_potential.gibbs_free_energy_per_link N l m (f / k) k T;
  I_rel_gibbs := fun f => fjc_modified_canonical_asymptotic_weak_potential.relative_gibbs_free_energy N l (f / k) k T;
  I_rel_gibbs_per_link := fun f => fjc_modified_canonical_asymptotic_weak_potential.relative_gibbs_free_energy_per_link N l (f / k) k T;
  I_nd_gibbs := fun eta => fjc_modified_canonical_asymptotic_weak_potential.nondimensional_gibbs_free_energy N l m (dist eta) kap T;
  I_nd_gibbs_per_link := fun eta => fjc_modified_canonical_asymptotic_weak_potential.nondimensional_gibbs_free_energy_per_link N l m (dist eta) kap T;
  I_nd_rel_gibbs := fun eta => fjc_modified_canonical_asymptotic_weak_potential.nondimensional_relative_gibbs_free_energy N (dist eta) kap;
  I_nd_rel_gibbs_per_link := fun eta => fjc_modified_canonical_asymptotic_weak_potential.nondimensional_relative_gibbs_free_energy_per_link N (dist eta) kap |}.

(** Extensions at which a term enters or leaves the sums over the N links. *)
Definition knot (N : Z) (g : R) : Prop := exists s : Z, g = 1 - 2 * IZR s / IZR N.
