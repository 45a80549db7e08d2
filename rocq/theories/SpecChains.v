(** The ensembles of the chain models: each record lists, field by field, the model
    function (over the reals) a user calls.  Generated by tools/gen_chains.py.

    [N] number of links, [l] link length, [m] hinge mass, [T] temperature,
    [w] well width, [k] link stiffness, [e] link energy, [p] persistence length. *)
From Coq Require Import Reals ZArith.
From Verif Require Import Scalar MConst MIdeal MFjc MSwfjc MEfjc MMorse MLennardJones MLogSquared MWlc SpecThermo.
Open Scope R_scope.

(** Nondimensional link stiffness k l^2/(kB T) and link energy e/(kB T). *)
Definition kappa (k l T : R) : R := k * l ^ 2 / (kB * T).
Definition epsilon (e T : R) : R := e / (kB * T).

(** Nondimensional persistence length p/(N l). *)
Definition zeta (p : R) (N : Z) (l : R) : R := p / (IZR N * l).

Definition C_ideal_isometric (N : Z) (l : R) (m : R) (T : R) : isometric := {|
  S_force := fun x => ideal_isometric.force N l x T;
  S_nd_force := fun x => ideal_isometric.nondimensional_force x;
  S_helmholtz := fun x => ideal_isometric.helmholtz_free_energy N l m x T;
  S_helmholtz_per_link := fun x => ideal_isometric.helmholtz_free_energy_per_link N l m x T;
  S_rel_helmholtz := fun x => ideal_isometric.relative_helmholtz_free_energy N l x T;
  S_rel_helmholtz_per_link := fun x => ideal_isometric.relative_helmholtz_free_energy_per_link N l x T;
  S_nd_helmholtz := fun x => ideal_isometric.nondimensional_helmholtz_free_energy N l m x T;
  S_nd_helmholtz_per_link := fun x => ideal_isometric.nondimensional_helmholtz_free_energy_per_link l m x T;
  S_nd_rel_helmholtz := fun x => ideal_isometric.nondimensional_relative_helmholtz_free_energy N x;
  S_nd_rel_helmholtz_per_link := fun x => ideal_isometric.nondimensional_relative_helmholtz_free_energy_per_link x |}.

Definition C_ideal_isotensional (N : Z) (l : R) (m : R) (T : R) : isotensional := {|
  I_length := fun x => ideal_isotensional.end_to_end_length N l x T;
  I_length_per_link := fun x => ideal_isotensional.end_to_end_length_per_link l x T;
  I_nd_length := fun x => ideal_isotensional.nondimensional_end_to_end_length N x;
  I_nd_length_per_link := fun x => ideal_isotensional.nondimensional_end_to_end_length_per_link x;
  I_gibbs := fun x => ideal_isotensional.gibbs_free_energy N l m x T;
  I_gibbs_per_link := fun x => ideal_isotensional.gibbs_free_energy_per_link l m x T;
  I_rel_gibbs := fun x => ideal_isotensional.relative_gibbs_free_energy N l x T;
  I_rel_gibbs_per_link := fun x => ideal_isotensional.relative_gibbs_free_energy_per_link l x T;
  I_nd_gibbs := fun x => ideal_isotensional.nondimensional_gibbs_free_energy N l m x T;
  I_nd_gibbs_per_link := fun x => ideal_isotensional.nondimensional_gibbs_free_energy_per_link l m x T;
  I_nd_rel_gibbs := fun x => ideal_isotensional.nondimensional_relative_gibbs_free_energy N x;
  I_nd_rel_gibbs_per_link := fun x => ideal_isotensional.nondimensional_relative_gibbs_free_energy_per_link x |}.

Definition C_fjc_isometric_legendre (N : Z) (l : R) (m : R) (T : R) : isometric := {|
  S_force := fun x => fjc_isometric_legendre.force N l x T;
  S_nd_force := fun x => fjc_isometric_legendre.nondimensional_force x;
  S_helmholtz := fun x => fjc_isometric_legendre.helmholtz_free_energy N l m x T;
  S_helmholtz_per_link := fun x => fjc_isometric_legendre.helmholtz_free_energy_per_link N l m x T;
  S_rel_helmholtz := fun x => fjc_isometric_legendre.relative_helmholtz_free_energy N l x T;
  S_rel_helmholtz_per_link := fun x => fjc_isometric_legendre.relative_helmholtz_free_energy_per_link N l x T;
  S_nd_helmholtz := fun x => fjc_isometric_legendre.nondimensional_helmholtz_free_energy N l m x T;
  S_nd_helmholtz_per_link := fun x => fjc_isometric_legendre.nondimensional_helmholtz_free_energy_per_link N l m x T;
  S_nd_rel_helmholtz := fun x => fjc_isometric_legendre.nondimensional_relative_helmholtz_free_energy N x;
  S_nd_rel_helmholtz_per_link := fun x => fjc_isometric_legendre.nondimensional_relative_helmholtz_free_energy_per_link x |}.

Definition C_fjc_isotensional (N : Z) (l : R) (m : R) (T : R) : isotensional := {|
  I_length := fun x => fjc_isotensional.end_to_end_length N l x T;
  I_length_per_link := fun x => fjc_isotensional.end_to_end_length_per_link l x T;
  I_nd_length := fun x => fjc_isotensional.nondimensional_end_to_end_length N x;
  I_nd_length_per_link := fun x => fjc_isotensional.nondimensional_end_to_end_length_per_link x;
  I_gibbs := fun x => fjc_isotensional.gibbs_free_energy N l m x T;
  I_gibbs_per_link := fun x => fjc_isotensional.gibbs_free_energy_per_link l m x T;
  I_rel_gibbs := fun x => fjc_isotensional.relative_gibbs_free_energy N l x T;
  I_rel_gibbs_per_link := fun x => fjc_isotensional.relative_gibbs_free_energy_per_link l x T;
  I_nd_gibbs := fun x => fjc_isotensional.nondimensional_gibbs_free_energy N l m x T;
  I_nd_gibbs_per_link := fun x => fjc_isotensional.nondimensional_gibbs_free_energy_per_link l m x T;
  I_nd_rel_gibbs := fun x => fjc_isotensional.nondimensional_relative_gibbs_free_energy N x;
  I_nd_rel_gibbs_per_link := fun x => fjc_isotensional.nondimensional_relative_gibbs_free_energy_per_link x |}.

Definition C_fjc_isotensional_legendre (N : Z) (l : R) (m : R) (T : R) : isotensional_helmholtz := {|
  IH_helmholtz := fun x => fjc_isotensional_legendre.helmholtz_free_energy N l m x T;
  IH_helmholtz_per_link := fun x => fjc_isotensional_legendre.helmholtz_free_energy_per_link l m x T;
  IH_rel_helmholtz := fun x => fjc_isotensional_legendre.relative_helmholtz_free_energy N l x T;
  IH_rel_helmholtz_per_link := fun x => fjc_isotensional_legendre.relative_helmholtz_free_energy_per_link l x T;
  IH_nd_helmholtz := fun x => fjc_isotensional_legendre.nondimensional_helmholtz_free_energy N l m x T;
  IH_nd_helmholtz_per_link := fun x => fjc_isotensional_legendre.nondimensional_helmholtz_free_energy_per_link l m x T;
  IH_nd_rel_helmholtz := fun x => fjc_isotensional_legendre.nondimensional_relative_helmholtz_free_energy N x;
  IH_nd_rel_helmholtz_per_link := fun x => fjc_isotensional_legendre.nondimensional_relative_helmholtz_free_energy_per_link x |}.

Definition C_swfjc_isometric_legendre (N : Z) (l : R) (m : R) (T : R) (w : R) : isometric := {|
  S_force := fun x => swfjc_isometric_legendre.force N l w x T;
  S_nd_force := fun x => swfjc_isometric_legendre.nondimensional_force l w x;
  S_helmholtz := fun x => swfjc_isometric_legendre.helmholtz_free_energy N l m w x T;
  S_helmholtz_per_link := fun x => swfjc_isometric_legendre.helmholtz_free_energy_per_link N l m w x T;
  S_rel_helmholtz := fun x => swfjc_isometric_legendre.relative_helmholtz_free_energy N l w x T;
  S_rel_helmholtz_per_link := fun x => swfjc_isometric_legendre.relative_helmholtz_free_energy_per_link N l w x T;
  S_nd_helmholtz := fun x => swfjc_isometric_legendre.nondimensional_helmholtz_free_energy N l m w x T;
  S_nd_helmholtz_per_link := fun x => swfjc_isometric_legendre.nondimensional_helmholtz_free_energy_per_link N l m w x T;
  S_nd_rel_helmholtz := fun x => swfjc_isometric_legendre.nondimensional_relative_helmholtz_free_energy N l w x;
  S_nd_rel_helmholtz_per_link := fun x => swfjc_isometric_legendre.nondimensional_relative_helmholtz_free_energy_per_link l w x |}.

Definition C_swfjc_isotensional (N : Z) (l : R) (m : R) (T : R) (w : R) : isotensional := {|
  I_length := fun x => swfjc_isotensional.end_to_end_length N l w x T;
  I_length_per_link := fun x => swfjc_isotensional.end_to_end_length_per_link l w x T;
  I_nd_length := fun x => swfjc_isotensional.nondimensional_end_to_end_length N l w x;
  I_nd_length_per_link := fun x => swfjc_isotensional.nondimensional_end_to_end_length_per_link l w x;
  I_gibbs := fun x => swfjc_isotensional.gibbs_free_energy N l m w x T;
  I_gibbs_per_link := fun x => swfjc_isotensional.gibbs_free_energy_per_link l m w x T;
  I_rel_gibbs := fun x => swfjc_isotensional.relative_gibbs_free_energy N l w x T;
  I_rel_gibbs_per_link := fun x => swfjc_isotensional.relative_gibbs_free_energy_per_link l w x T;
  I_nd_gibbs := fun x => swfjc_isotensional.nondimensional_gibbs_free_energy N l m w x T;
  I_nd_gibbs_per_link := fun x => swfjc_isotensional.nondimensional_gibbs_free_energy_per_link l m w x T;
  I_nd_rel_gibbs := fun x => swfjc_isotensional.nondimensional_relative_gibbs_free_energy N l w x;
  I_nd_rel_gibbs_per_link := fun x => swfjc_isotensional.nondimensional_relative_gibbs_free_energy_per_link l w x |}.

Definition C_swfjc_isotensional_legendre (N : Z) (l : R) (m : R) (T : R) (w : R) : isotensional_helmholtz := {|
  IH_helmholtz := fun x => swfjc_isotensional_legendre.helmholtz_free_energy N l m w x T;
  IH_helmholtz_per_link := fun x => swfjc_isotensional_legendre.helmholtz_free_energy_per_link l m w x T;
  IH_rel_helmholtz := fun x => swfjc_isotensional_legendre.relative_helmholtz_free_energy N l w x T;
  IH_rel_helmholtz_per_link := fun x => swfjc_isotensional_legendre.relative_helmholtz_free_energy_per_link l w x T;
  IH_nd_helmholtz := fun x => swfjc_isotensional_legendre.nondimensional_helmholtz_free_energy N l m w x T;
  IH_nd_helmholtz_per_link := fun x => swfjc_isotensional_legendre.nondimensional_helmholtz_free_energy_per_link l m w x T;
  IH_nd_rel_helmholtz := fun x => swfjc_isotensional_legendre.nondimensional_relative_helmholtz_free_energy N l w x;
  IH_nd_rel_helmholtz_per_link := fun x => swfjc_isotensional_legendre.nondimensional_relative_helmholtz_free_energy_per_link l w x |}.

Definition C_efjc_isometric_asymptotic_alternative_legendre (N : Z) (l : R) (m : R) (T : R) (k : R) : isometric := {|
  S_force := fun x => efjc_isometric_asymptotic_alternative_legendre.force N l k x T;
  S_nd_force := fun x => efjc_isometric_asymptotic_alternative_legendre.nondimensional_force (kappa k l T) x;
  S_helmholtz := fun x => efjc_isometric_asymptotic_alternative_legendre.helmholtz_free_energy N l m k x T;
  S_helmholtz_per_link := fun x => efjc_isometric_asymptotic_alternative_legendre.helmholtz_free_energy_per_link N l m k x T;
  S_rel_helmholtz := fun x => efjc_isometric_asymptotic_alternative_legendre.relative_helmholtz_free_energy N l k x T;
  S_rel_helmholtz_per_link := fun x => efjc_isometric_asymptotic_alternative_legendre.relative_helmholtz_free_energy_per_link N l k x T;
  S_nd_helmholtz := fun x => efjc_isometric_asymptotic_alternative_legendre.nondimensional_helmholtz_free_energy N l m (kappa k l T) x T;
  S_nd_helmholtz_per_link := fun x => efjc_isometric_asymptotic_alternative_legendre.nondimensional_helmholtz_free_energy_per_link N l m (kappa k l T) x T;
  S_nd_rel_helmholtz := fun x => efjc_isometric_asymptotic_alternative_legendre.nondimensional_relative_helmholtz_free_energy N (kappa k l T) x;
  S_nd_rel_helmholtz_per_link := fun x => efjc_isometric_asymptotic_alternative_legendre.nondimensional_relative_helmholtz_free_energy_per_link (kappa k l T) x |}.

Definition C_efjc_isometric_asymptotic_legendre (N : Z) (l : R) (m : R) (T : R) (k : R) : isometric := {|
  S_force := fun x => efjc_isometric_asymptotic_legendre.force N l k x T;
  S_nd_force := fun x => efjc_isometric_asymptotic_legendre.nondimensional_force (kappa k l T) x;
  S_helmholtz := fun x => efjc_isometric_asymptotic_legendre.helmholtz_free_energy N l m k x T;
  S_helmholtz_per_link := fun x => efjc_isometric_asymptotic_legendre.helmholtz_free_energy_per_link N l m k x T;
  S_rel_helmholtz := fun x => efjc_isometric_asymptotic_legendre.relative_helmholtz_free_energy N l k x T;
  S_rel_helmholtz_per_link := fun x => efjc_isometric_asymptotic_legendre.relative_helmholtz_free_energy_per_link N l k x T;
  S_nd_helmholtz := fun x => efjc_isometric_asymptotic_legendre.nondimensional_helmholtz_free_energy N l m (kappa k l T) x T;
  S_nd_helmholtz_per_link := fun x => efjc_isometric_asymptotic_legendre.nondimensional_helmholtz_free_energy_per_link N l m (kappa k l T) x T;
  S_nd_rel_helmholtz := fun x => efjc_isometric_asymptotic_legendre.nondimensional_relative_helmholtz_free_energy N (kappa k l T) x;
  S_nd_rel_helmholtz_per_link := fun x => efjc_isometric_asymptotic_legendre.nondimensional_relative_helmholtz_free_energy_per_link (kappa k l T) x |}.

Definition C_efjc_isometric_asymptotic_reduced_legendre (N : Z) (l : R) (m : R) (T : R) (k : R) : isometric := {|
  S_force := fun x => efjc_isometric_asymptotic_reduced_legendre.force N l k x T;
  S_nd_force := fun x => efjc_isometric_asymptotic_reduced_legendre.nondimensional_force (kappa k l T) x;
  S_helmholtz := fun x => efjc_isometric_asymptotic_reduced_legendre.helmholtz_free_energy N l m k x T;
  S_helmholtz_per_link := fun x => efjc_isometric_asymptotic_reduced_legendre.helmholtz_free_energy_per_link N l m k x T;
  S_rel_helmholtz := fun x => efjc_isometric_asymptotic_reduced_legendre.relative_helmholtz_free_energy N l k x T;
  S_rel_helmholtz_per_link := fun x => efjc_isometric_asymptotic_reduced_legendre.relative_helmholtz_free_energy_per_link N l k x T;
  S_nd_helmholtz := fun x => efjc_isometric_asymptotic_reduced_legendre.nondimensional_helmholtz_free_energy N l m (kappa k l T) x T;
  S_nd_helmholtz_per_link := fun x => efjc_isometric_asymptotic_reduced_legendre.nondimensional_helmholtz_free_energy_per_link N l m (kappa k l T) x T;
  S_nd_rel_helmholtz := fun x => efjc_isometric_asymptotic_reduced_legendre.nondimensional_relative_helmholtz_free_energy N (kappa k l T) x;
  S_nd_rel_helmholtz_per_link := fun x => efjc_isometric_asymptotic_reduced_legendre.nondimensional_relative_helmholtz_free_energy_per_link (kappa k l T) x |}.

Definition C_efjc_isotensional (N : Z) (l : R) (m : R) (T : R) (k : R) : isotensional := {|
  I_length := fun x => efjc_isotensional.end_to_end_length N l k x T;
  I_length_per_link := fun x => efjc_isotensional.end_to_end_length_per_link l k x T;
  I_nd_length := fun x => efjc_isotensional.nondimensional_end_to_end_length N (kappa k l T) x;
  I_nd_length_per_link := fun x => efjc_isotensional.nondimensional_end_to_end_length_per_link (kappa k l T) x;
  I_gibbs := fun x => efjc_isotensional.gibbs_free_energy N l m k x T;
  I_gibbs_per_link := fun x => efjc_isotensional.gibbs_free_energy_per_link l m k x T;
  I_rel_gibbs := fun x => efjc_isotensional.relative_gibbs_free_energy N l k x T;
  I_rel_gibbs_per_link := fun x => efjc_isotensional.relative_gibbs_free_energy_per_link l k x T;
  I_nd_gibbs := fun x => efjc_isotensional.nondimensional_gibbs_free_energy N l m (kappa k l T) x T;
  I_nd_gibbs_per_link := fun x => efjc_isotensional.nondimensional_gibbs_free_energy_per_link l m (kappa k l T) x T;
  I_nd_rel_gibbs := fun x => efjc_isotensional.nondimensional_relative_gibbs_free_energy N (kappa k l T) x;
  I_nd_rel_gibbs_per_link := fun x => efjc_isotensional.nondimensional_relative_gibbs_free_energy_per_link (kappa k l T) x |}.

Definition C_efjc_isotensional_asymptotic (N : Z) (l : R) (m : R) (T : R) (k : R) : isotensional := {|
  I_length := fun x => efjc_isotensional_asymptotic.end_to_end_length N l k x T;
  I_length_per_link := fun x => efjc_isotensional_asymptotic.end_to_end_length_per_link l k x T;
  I_nd_length := fun x => efjc_isotensional_asymptotic.nondimensional_end_to_end_length N (kappa k l T) x;
  I_nd_length_per_link := fun x => efjc_isotensional_asymptotic.nondimensional_end_to_end_length_per_link (kappa k l T) x;
  I_gibbs := fun x => efjc_isotensional_asymptotic.gibbs_free_energy N l m k x T;
  I_gibbs_per_link := fun x => efjc_isotensional_asymptotic.gibbs_free_energy_per_link l m k x T;
  I_rel_gibbs := fun x => efjc_isotensional_asymptotic.relative_gibbs_free_energy N l k x T;
  I_rel_gibbs_per_link := fun x => efjc_isotensional_asymptotic.relative_gibbs_free_energy_per_link l k x T;
  I_nd_gibbs := fun x => efjc_isotensional_asymptotic.nondimensional_gibbs_free_energy N l m (kappa k l T) x T;
  I_nd_gibbs_per_link := fun x => efjc_isotensional_asymptotic.nondimensional_gibbs_free_energy_per_link l m (kappa k l T) x T;
  I_nd_rel_gibbs := fun x => efjc_isotensional_asymptotic.nondimensional_relative_gibbs_free_energy N (kappa k l T) x;
  I_nd_rel_gibbs_per_link := fun x => efjc_isotensional_asymptotic.nondimensional_relative_gibbs_free_energy_per_link (kappa k l T) x |}.

Definition C_efjc_isotensional_asymptotic_alternative (N : Z) (l : R) (m : R) (T : R) (k : R) : isotensional := {|
  I_length := fun x => efjc_isotensional_asymptotic_alternative.end_to_end_length N l k x T;
  I_length_per_link := fun x => efjc_isotensional_asymptotic_alternative.end_to_end_length_per_link l k x T;
  I_nd_length := fun x => efjc_isotensional_asymptotic_alternative.nondimensional_end_to_end_length N (kappa k l T) x;
  I_nd_length_per_link := fun x => efjc_isotensional_asymptotic_alternative.nondimensional_end_to_end_length_per_link (kappa k l T) x;
  I_gibbs := fun x => efjc_isotensional_asymptotic_alternative.gibbs_free_energy N l m k x T;
  I_gibbs_per_link := fun x => efjc_isotensional_asymptotic_alternative.gibbs_free_energy_per_link l m k x T;
  I_rel_gibbs := fun x => efjc_isotensional_asymptotic_alternative.relative_gibbs_free_energy N l k x T;
  I_rel_gibbs_per_link := fun x => efjc_isotensional_asymptotic_alternative.relative_gibbs_free_energy_per_link l k x T;
  I_nd_gibbs := fun x => efjc_isotensional_asymptotic_alternative.nondimensional_gibbs_free_energy N l m (kappa k l T) x T;
  I_nd_gibbs_per_link := fun x => efjc_isotensional_asymptotic_alternative.nondimensional_gibbs_free_energy_per_link l m (kappa k l T) x T;
  I_nd_rel_gibbs := fun x => efjc_isotensional_asymptotic_alternative.nondimensional_relative_gibbs_free_energy N (kappa k l T) x;
  I_nd_rel_gibbs_per_link := fun x => efjc_isotensional_asymptotic_alternative.nondimensional_relative_gibbs_free_energy_per_link (kappa k l T) x |}.

Definition C_efjc_isotensional_asymptotic_alternative_legendre (N : Z) (l : R) (m : R) (T : R) (k : R) : isotensional_helmholtz := {|
  IH_helmholtz := fun x => efjc_isotensional_asymptotic_alternative_legendre.helmholtz_free_energy N l m k x T;
  IH_helmholtz_per_link := fun x => efjc_isotensional_asymptotic_alternative_legendre.helmholtz_free_energy_per_link l m k x T;
  IH_rel_helmholtz := fun x => efjc_isotensional_asymptotic_alternative_legendre.relative_helmholtz_free_energy N l k x T;
  IH_rel_helmholtz_per_link := fun x => efjc_isotensional_asymptotic_alternative_legendre.relative_helmholtz_free_energy_per_link l k x T;
  IH_nd_helmholtz := fun x => efjc_isotensional_asymptotic_alternative_legendre.nondimensional_helmholtz_free_energy N l m (kappa k l T) x T;
  IH_nd_helmholtz_per_link := fun x => efjc_isotensional_asymptotic_alternative_legendre.nondimensional_helmholtz_free_energy_per_link l m (kappa k l T) x T;
  IH_nd_rel_helmholtz := fun x => efjc_isotensional_asymptotic_alternative_legendre.nondimensional_relative_helmholtz_free_energy N (kappa k l T) x;
  IH_nd_rel_helmholtz_per_link := fun x => efjc_isotensional_asymptotic_alternative_legendre.nondimensional_relative_helmholtz_free_energy_per_link (kappa k l T) x |}.

Definition C_efjc_isotensional_asymptotic_legendre (N : Z) (l : R) (m : R) (T : R) (k : R) : isotensional_helmholtz := {|
  IH_helmholtz := fun x => efjc_isotensional_asymptotic_legendre.helmholtz_free_energy N l m k x T;
  IH_helmholtz_per_link := fun x => efjc_isotensional_asymptotic_legendre.helmholtz_free_energy_per_link l m k x T;
  IH_rel_helmholtz := fun x => efjc_isotensional_asymptotic_legendre.relative_helmholtz_free_energy N l k x T;
  IH_rel_helmholtz_per_link := fun x => efjc_isotensional_asymptotic_legendre.relative_helmholtz_free_energy_per_link l k x T;
  IH_nd_helmholtz := fun x => efjc_isotensional_asymptotic_legendre.nondimensional_helmholtz_free_energy N l m (kappa k l T) x T;
  IH_nd_helmholtz_per_link := fun x => efjc_isotensional_asymptotic_legendre.nondimensional_helmholtz_free_energy_per_link l m (kappa k l T) x T;
  IH_nd_rel_helmholtz := fun x => efjc_isotensional_asymptotic_legendre.nondimensional_relative_helmholtz_free_energy N (kappa k l T) x;
  IH_nd_rel_helmholtz_per_link := fun x => efjc_isotensional_asymptotic_legendre.nondimensional_relative_helmholtz_free_energy_per_link (kappa k l T) x |}.

Definition C_efjc_isotensional_asymptotic_reduced (N : Z) (l : R) (m : R) (T : R) (k : R) : isotensional := {|
  I_length := fun x => efjc_isotensional_asymptotic_reduced.end_to_end_length N l k x T;
  I_length_per_link := fun x => efjc_isotensional_asymptotic_reduced.end_to_end_length_per_link l k x T;
  I_nd_length := fun x => efjc_isotensional_asymptotic_reduced.nondimensional_end_to_end_length N (kappa k l T) x;
  I_nd_length_per_link := fun x => efjc_isotensional_asymptotic_reduced.nondimensional_end_to_end_length_per_link (kappa k l T) x;
  I_gibbs := fun x => efjc_isotensional_asymptotic_reduced.gibbs_free_energy N l m k x T;
  I_gibbs_per_link := fun x => efjc_isotensional_asymptotic_reduced.gibbs_free_energy_per_link l m k x T;
  I_rel_gibbs := fun x => efjc_isotensional_asymptotic_reduced.relative_gibbs_free_energy N l k x T;
  I_rel_gibbs_per_link := fun x => efjc_isotensional_asymptotic_reduced.relative_gibbs_free_energy_per_link l k x T;
  I_nd_gibbs := fun x => efjc_isotensional_asymptotic_reduced.nondimensional_gibbs_free_energy N l m (kappa k l T) x T;
  I_nd_gibbs_per_link := fun x => efjc_isotensional_asymptotic_reduced.nondimensional_gibbs_free_energy_per_link l m (kappa k l T) x T;
  I_nd_rel_gibbs := fun x => efjc_isotensional_asymptotic_reduced.nondimensional_relative_gibbs_free_energy N (kappa k l T) x;
  I_nd_rel_gibbs_per_link := fun x => efjc_isotensional_asymptotic_reduced.nondimensional_relative_gibbs_free_energy_per_link (kappa k l T) x |}.

Definition C_efjc_isotensional_asymptotic_reduced_legendre (N : Z) (l : R) (m : R) (T : R) (k : R) : isotensional_helmholtz := {|
  IH_helmholtz := fun x => efjc_isotensional_asymptotic_reduced_legendre.helmholtz_free_energy N l m k x T;
  IH_helmholtz_per_link := fun x => efjc_isotensional_asymptotic_reduced_legendre.helmholtz_free_energy_per_link l m k x T;
  IH_rel_helmholtz := fun x => efjc_isotensional_asymptotic_reduced_legendre.relative_helmholtz_free_energy N l k x T;
  IH_rel_helmholtz_per_link := fun x => efjc_isotensional_asymptotic_reduced_legendre.relative_helmholtz_free_energy_per_link l k x T;
  IH_nd_helmholtz := fun x => efjc_isotensional_asymptotic_reduced_legendre.nondimensional_helmholtz_free_energy N l m (kappa k l T) x T;
  IH_nd_helmholtz_per_link := fun x => efjc_isotensional_asymptotic_reduced_legendre.nondimensional_helmholtz_free_energy_per_link l m (kappa k l T) x T;
  IH_nd_rel_helmholtz := fun x => efjc_isotensional_asymptotic_reduced_legendre.nondimensional_relative_helmholtz_free_energy N (kappa k l T) x;
  IH_nd_rel_helmholtz_per_link := fun x => efjc_isotensional_asymptotic_reduced_legendre.nondimensional_relative_helmholtz_free_energy_per_link (kappa k l T) x |}.

Definition C_efjc_isotensional_legendre (N : Z) (l : R) (m : R) (T : R) (k : R) : isotensional_helmholtz := {|
  IH_helmholtz := fun x => efjc_isotensional_legendre.helmholtz_free_energy N l m k x T;
  IH_helmholtz_per_link := fun x => efjc_isotensional_legendre.helmholtz_free_energy_per_link l m k x T;
  IH_rel_helmholtz := fun x => efjc_isotensional_legendre.relative_helmholtz_free_energy N l k x T;
  IH_rel_helmholtz_per_link := fun x => efjc_isotensional_legendre.relative_helmholtz_free_energy_per_link l k x T;
  IH_nd_helmholtz := fun x => efjc_isotensional_legendre.nondimensional_helmholtz_free_energy N l m (kappa k l T) x T;
  IH_nd_helmholtz_per_link := fun x => efjc_isotensional_legendre.nondimensional_helmholtz_free_energy_per_link l m (kappa k l T) x T;
  IH_nd_rel_helmholtz := fun x => efjc_isotensional_legendre.nondimensional_relative_helmholtz_free_energy N (kappa k l T) x;
  IH_nd_rel_helmholtz_per_link := fun x => efjc_isotensional_legendre.nondimensional_relative_helmholtz_free_energy_per_link (kappa k l T) x |}.

Definition C_morse_isometric_asymptotic_legendre (N : Z) (l : R) (m : R) (T : R) (k : R) (e : R) : isometric := {|
  S_force := fun x => morse_isometric_asymptotic_legendre.force N l k e x T;
  S_nd_force := fun x => morse_isometric_asymptotic_legendre.nondimensional_force (kappa k l T) (epsilon e T) x;
  S_helmholtz := fun x => morse_isometric_asymptotic_legendre.helmholtz_free_energy N l m k e x T;
  S_helmholtz_per_link := fun x => morse_isometric_asymptotic_legendre.helmholtz_free_energy_per_link N l m k e x T;
  S_rel_helmholtz := fun x => morse_isometric_asymptotic_legendre.relative_helmholtz_free_energy N l k e x T;
  S_rel_helmholtz_per_link := fun x => morse_isometric_asymptotic_legendre.relative_helmholtz_free_energy_per_link N l k e x T;
  S_nd_helmholtz := fun x => morse_isometric_asymptotic_legendre.nondimensional_helmholtz_free_energy N l m (kappa k l T) (epsilon e T) x T;
  S_nd_helmholtz_per_link := fun x => morse_isometric_asymptotic_legendre.nondimensional_helmholtz_free_energy_per_link N l m (kappa k l T) (epsilon e T) x T;
  S_nd_rel_helmholtz := fun x => morse_isometric_asymptotic_legendre.nondimensional_relative_helmholtz_free_energy N (kappa k l T) (epsilon e T) x;
  S_nd_rel_helmholtz_per_link := fun x => morse_isometric_asymptotic_legendre.nondimensional_relative_helmholtz_free_energy_per_link (kappa k l T) (epsilon e T) x |}.

Definition C_morse_isometric_asymptotic_reduced_legendre (N : Z) (l : R) (m : R) (T : R) (k : R) (e : R) : isometric := {|
  S_force := fun x => morse_isometric_asymptotic_reduced_legendre.force N l k e x T;
  S_nd_force := fun x => morse_isometric_asymptotic_reduced_legendre.nondimensional_force (kappa k l T) (epsilon e T) x;
  S_helmholtz := fun x => morse_isometric_asymptotic_reduced_legendre.helmholtz_free_energy N l m k e x T;
  S_helmholtz_per_link := fun x => morse_isometric_asymptotic_reduced_legendre.helmholtz_free_energy_per_link N l m k e x T;
  S_rel_helmholtz := fun x => morse_isometric_asymptotic_reduced_legendre.relative_helmholtz_free_energy N l k e x T;
  S_rel_helmholtz_per_link := fun x => morse_isometric_asymptotic_reduced_legendre.relative_helmholtz_free_energy_per_link N l k e x T;
  S_nd_helmholtz := fun x => morse_isometric_asymptotic_reduced_legendre.nondimensional_helmholtz_free_energy N l m (kappa k l T) (epsilon e T) x T;
  S_nd_helmholtz_per_link := fun x => morse_isometric_asymptotic_reduced_legendre.nondimensional_helmholtz_free_energy_per_link N l m (kappa k l T) (epsilon e T) x T;
  S_nd_rel_helmholtz := fun x => morse_isometric_asymptotic_reduced_legendre.nondimensional_relative_helmholtz_free_energy N (kappa k l T) (epsilon e T) x;
  S_nd_rel_helmholtz_per_link := fun x => morse_isometric_asymptotic_reduced_legendre.nondimensional_relative_helmholtz_free_energy_per_link (kappa k l T) (epsilon e T) x |}.

Definition C_morse_isotensional (N : Z) (l : R) (m : R) (T : R) (k : R) (e : R) : isotensional := {|
  I_length := fun x => morse_isotensional.end_to_end_length N l k e x T;
  I_length_per_link := fun x => morse_isotensional.end_to_end_length_per_link l k e x T;
  I_nd_length := fun x => morse_isotensional.nondimensional_end_to_end_length N (kappa k l T) (epsilon e T) x;
  I_nd_length_per_link := fun x => morse_isotensional.nondimensional_end_to_end_length_per_link (kappa k l T) (epsilon e T) x;
  I_gibbs := fun x => morse_isotensional.gibbs_free_energy N l m k e x T;
  I_gibbs_per_link := fun x => morse_isotensional.gibbs_free_energy_per_link l m k e x T;
  I_rel_gibbs := fun x => morse_isotensional.relative_gibbs_free_energy N l k e x T;
  I_rel_gibbs_per_link := fun x => morse_isotensional.relative_gibbs_free_energy_per_link l k e x T;
  I_nd_gibbs := fun x => morse_isotensional.nondimensional_gibbs_free_energy N l m (kappa k l T) (epsilon e T) x T;
  I_nd_gibbs_per_link := fun x => morse_isotensional.nondimensional_gibbs_free_energy_per_link l m (kappa k l T) (epsilon e T) x T;
  I_nd_rel_gibbs := fun x => morse_isotensional.nondimensional_relative_gibbs_free_energy N (kappa k l T) (epsilon e T) x;
  I_nd_rel_gibbs_per_link := fun x => morse_isotensional.nondimensional_relative_gibbs_free_energy_per_link (kappa k l T) (epsilon e T) x |}.

Definition C_morse_isotensional_asymptotic (N : Z) (l : R) (m : R) (T : R) (k : R) (e : R) : isotensional := {|
  I_length := fun x => morse_isotensional_asymptotic.end_to_end_length N l k e x T;
  I_length_per_link := fun x => morse_isotensional_asymptotic.end_to_end_length_per_link l k e x T;
  I_nd_length := fun x => morse_isotensional_asymptotic.nondimensional_end_to_end_length N (kappa k l T) (epsilon e T) x;
  I_nd_length_per_link := fun x => morse_isotensional_asymptotic.nondimensional_end_to_end_length_per_link (kappa k l T) (epsilon e T) x;
  I_gibbs := fun x => morse_isotensional_asymptotic.gibbs_free_energy N l m k e x T;
  I_gibbs_per_link := fun x => morse_isotensional_asymptotic.gibbs_free_energy_per_link l m k e x T;
  I_rel_gibbs := fun x => morse_isotensional_asymptotic.relative_gibbs_free_energy N l k e x T;
  I_rel_gibbs_per_link := fun x => morse_isotensional_asymptotic.relative_gibbs_free_energy_per_link l k e x T;
  I_nd_gibbs := fun x => morse_isotensional_asymptotic.nondimensional_gibbs_free_energy N l m (kappa k l T) (epsilon e T) x T;
  I_nd_gibbs_per_link := fun x => morse_isotensional_asymptotic.nondimensional_gibbs_free_energy_per_link l m (kappa k l T) (epsilon e T) x T;
  I_nd_rel_gibbs := fun x => morse_isotensional_asymptotic.nondimensional_relative_gibbs_free_energy N (kappa k l T) (epsilon e T) x;
  I_nd_rel_gibbs_per_link := fun x => morse_isotensional_asymptotic.nondimensional_relative_gibbs_free_energy_per_link (kappa k l T) (epsilon e T) x |}.

Definition C_morse_isotensional_asymptotic_legendre (N : Z) (l : R) (m : R) (T : R) (k : R) (e : R) : isotensional_helmholtz := {|
  IH_helmholtz := fun x => morse_isotensional_asymptotic_legendre.helmholtz_free_energy N l m k e x T;
  IH_helmholtz_per_link := fun x => morse_isotensional_asymptotic_legendre.helmholtz_free_energy_per_link l m k e x T;
  IH_rel_helmholtz := fun x => morse_isotensional_asymptotic_legendre.relative_helmholtz_free_energy N l k e x T;
  IH_rel_helmholtz_per_link := fun x => morse_isotensional_asymptotic_legendre.relative_helmholtz_free_energy_per_link l k e x T;
  IH_nd_helmholtz := fun x => morse_isotensional_asymptotic_legendre.nondimensional_helmholtz_free_energy N l m (kappa k l T) (epsilon e T) x T;
  IH_nd_helmholtz_per_link := fun x => morse_isotensional_asymptotic_legendre.nondimensional_helmholtz_free_energy_per_link l m (kappa k l T) (epsilon e T) x T;
  IH_nd_rel_helmholtz := fun x => morse_isotensional_asymptotic_legendre.nondimensional_relative_helmholtz_free_energy N (kappa k l T) (epsilon e T) x;
  IH_nd_rel_helmholtz_per_link := fun x => morse_isotensional_asymptotic_legendre.nondimensional_relative_helmholtz_free_energy_per_link (kappa k l T) (epsilon e T) x |}.

Definition C_morse_isotensional_asymptotic_reduced (N : Z) (l : R) (m : R) (T : R) (k : R) (e : R) : isotensional := {|
  I_length := fun x => morse_isotensional_asymptotic_reduced.end_to_end_length N l k e x T;
  I_length_per_link := fun x => morse_isotensional_asymptotic_reduced.end_to_end_length_per_link l k e x T;
  I_nd_length := fun x => morse_isotensional_asymptotic_reduced.nondimensional_end_to_end_length N (kappa k l T) (epsilon e T) x;
  I_nd_length_per_link := fun x => morse_isotensional_asymptotic_reduced.nondimensional_end_to_end_length_per_link (kappa k l T) (epsilon e T) x;
  I_gibbs := fun x => morse_isotensional_asymptotic_reduced.gibbs_free_energy N l m k e x T;
  I_gibbs_per_link := fun x => morse_isotensional_asymptotic_reduced.gibbs_free_energy_per_link l m k e x T;
  I_rel_gibbs := fun x => morse_isotensional_asymptotic_reduced.relative_gibbs_free_energy N l k e x T;
  I_rel_gibbs_per_link := fun x => morse_isotensional_asymptotic_reduced.relative_gibbs_free_energy_per_link l k e x T;
  I_nd_gibbs := fun x => morse_isotensional_asymptotic_reduced.nondimensional_gibbs_free_energy N l m (kappa k l T) (epsilon e T) x T;
  I_nd_gibbs_per_link := fun x => morse_isotensional_asymptotic_reduced.nondimensional_gibbs_free_energy_per_link l m (kappa k l T) (epsilon e T) x T;
  I_nd_rel_gibbs := fun x => morse_isotensional_asymptotic_reduced.nondimensional_relative_gibbs_free_energy N (kappa k l T) (epsilon e T) x;
  I_nd_rel_gibbs_per_link := fun x => morse_isotensional_asymptotic_reduced.nondimensional_relative_gibbs_free_energy_per_link (kappa k l T) (epsilon e T) x |}.

Definition C_morse_isotensional_asymptotic_reduced_legendre (N : Z) (l : R) (m : R) (T : R) (k : R) (e : R) : isotensional_helmholtz := {|
  IH_helmholtz := fun x => morse_isotensional_asymptotic_reduced_legendre.helmholtz_free_energy N l m k e x T;
  IH_helmholtz_per_link := fun x => morse_isotensional_asymptotic_reduced_legendre.helmholtz_free_energy_per_link l m k e x T;
  IH_rel_helmholtz := fun x => morse_isotensional_asymptotic_reduced_legendre.relative_helmholtz_free_energy N l k e x T;
  IH_rel_helmholtz_per_link := fun x => morse_isotensional_asymptotic_reduced_legendre.relative_helmholtz_free_energy_per_link l k e x T;
  IH_nd_helmholtz := fun x => morse_isotensional_asymptotic_reduced_legendre.nondimensional_helmholtz_free_energy N l m (kappa k l T) (epsilon e T) x T;
  IH_nd_helmholtz_per_link := fun x => morse_isotensional_asymptotic_reduced_legendre.nondimensional_helmholtz_free_energy_per_link l m (kappa k l T) (epsilon e T) x T;
  IH_nd_rel_helmholtz := fun x => morse_isotensional_asymptotic_reduced_legendre.nondimensional_relative_helmholtz_free_energy N (kappa k l T) (epsilon e T) x;
  IH_nd_rel_helmholtz_per_link := fun x => morse_isotensional_asymptotic_reduced_legendre.nondimensional_relative_helmholtz_free_energy_per_link (kappa k l T) (epsilon e T) x |}.

Definition C_morse_isotensional_legendre (N : Z) (l : R) (m : R) (T : R) (k : R) (e : R) : isotensional_helmholtz := {|
  IH_helmholtz := fun x => morse_isotensional_legendre.helmholtz_free_energy N l m k e x T;
  IH_helmholtz_per_link := fun x => morse_isotensional_legendre.helmholtz_free_energy_per_link l m k e x T;
  IH_rel_helmholtz := fun x => morse_isotensional_legendre.relative_helmholtz_free_energy N l k e x T;
  IH_rel_helmholtz_per_link := fun x => morse_isotensional_legendre.relative_helmholtz_free_energy_per_link l k e x T;
  IH_nd_helmholtz := fun x => morse_isotensional_legendre.nondimensional_helmholtz_free_energy N l m (kappa k l T) (epsilon e T) x T;
  IH_nd_helmholtz_per_link := fun x => morse_isotensional_legendre.nondimensional_helmholtz_free_energy_per_link l m (kappa k l T) (epsilon e T) x T;
  IH_nd_rel_helmholtz := fun x => morse_isotensional_legendre.nondimensional_relative_helmholtz_free_energy N (kappa k l T) (epsilon e T) x;
  IH_nd_rel_helmholtz_per_link := fun x => morse_isotensional_legendre.nondimensional_relative_helmholtz_free_energy_per_link (kappa k l T) (epsilon e T) x |}.

Definition C_lennard_jones_isometric_asymptotic_legendre (N : Z) (l : R) (m : R) (T : R) (k : R) : isometric := {|
  S_force := fun x => lennard_jones_isometric_asymptotic_legendre.force N l k x T;
  S_nd_force := fun x => lennard_jones_isometric_asymptotic_legendre.nondimensional_force (kappa k l T) x;
  S_helmholtz := fun x => lennard_jones_isometric_asymptotic_legendre.helmholtz_free_energy N l m k x T;
  S_helmholtz_per_link := fun x => lennard_jones_isometric_asymptotic_legendre.helmholtz_free_energy_per_link N l m k x T;
  S_rel_helmholtz := fun x => lennard_jones_isometric_asymptotic_legendre.relative_helmholtz_free_energy N l k x T;
  S_rel_helmholtz_per_link := fun x => lennard_jones_isometric_asymptotic_legendre.relative_helmholtz_free_energy_per_link N l k x T;
  S_nd_helmholtz := fun x => lennard_jones_isometric_asymptotic_legendre.nondimensional_helmholtz_free_energy N l m (kappa k l T) x T;
  S_nd_helmholtz_per_link := fun x => lennard_jones_isometric_asymptotic_legendre.nondimensional_helmholtz_free_energy_per_link N l m (kappa k l T) x T;
  S_nd_rel_helmholtz := fun x => lennard_jones_isometric_asymptotic_legendre.nondimensional_relative_helmholtz_free_energy N (kappa k l T) x;
  S_nd_rel_helmholtz_per_link := fun x => lennard_jones_isometric_asymptotic_legendre.nondimensional_relative_helmholtz_free_energy_per_link (kappa k l T) x |}.

Definition C_lennard_jones_isometric_asymptotic_reduced_legendre (N : Z) (l : R) (m : R) (T : R) (k : R) : isometric := {|
  S_force := fun x => lennard_jones_isometric_asymptotic_reduced_legendre.force N l k x T;
  S_nd_force := fun x => lennard_jones_isometric_asymptotic_reduced_legendre.nondimensional_force (kappa k l T) x;
  S_helmholtz := fun x => lennard_jones_isometric_asymptotic_reduced_legendre.helmholtz_free_energy N l m k x T;
  S_helmholtz_per_link := fun x => lennard_jones_isometric_asymptotic_reduced_legendre.helmholtz_free_energy_per_link N l m k x T;
  S_rel_helmholtz := fun x => lennard_jones_isometric_asymptotic_reduced_legendre.relative_helmholtz_free_energy N l k x T;
  S_rel_helmholtz_per_link := fun x => lennard_jones_isometric_asymptotic_reduced_legendre.relative_helmholtz_free_energy_per_link N l k x T;
  S_nd_helmholtz := fun x => lennard_jones_isometric_asymptotic_reduced_legendre.nondimensional_helmholtz_free_energy N l m (kappa k l T) x T;
  S_nd_helmholtz_per_link := fun x => lennard_jones_isometric_asymptotic_reduced_legendre.nondimensional_helmholtz_free_energy_per_link N l m (kappa k l T) x T;
  S_nd_rel_helmholtz := fun x => lennard_jones_isometric_asymptotic_reduced_legendre.nondimensional_relative_helmholtz_free_energy N (kappa k l T) x;
  S_nd_rel_helmholtz_per_link := fun x => lennard_jones_isometric_asymptotic_reduced_legendre.nondimensional_relative_helmholtz_free_energy_per_link (kappa k l T) x |}.

Definition C_lennard_jones_isotensional (N : Z) (l : R) (m : R) (T : R) (k : R) : isotensional := {|
  I_length := fun x => lennard_jones_isotensional.end_to_end_length N l k x T;
  I_length_per_link := fun x => lennard_jones_isotensional.end_to_end_length_per_link l k x T;
  I_nd_length := fun x => lennard_jones_isotensional.nondimensional_end_to_end_length N (kappa k l T) x;
  I_nd_length_per_link := fun x => lennard_jones_isotensional.nondimensional_end_to_end_length_per_link (kappa k l T) x;
  I_gibbs := fun x => lennard_jones_isotensional.gibbs_free_energy N l m k x T;
  I_gibbs_per_link := fun x => lennard_jones_isotensional.gibbs_free_energy_per_link l m k x T;
  I_rel_gibbs := fun x => lennard_jones_isotensional.relative_gibbs_free_energy N l k x T;
  I_rel_gibbs_per_link := fun x => lennard_jones_isotensional.relative_gibbs_free_energy_per_link l k x T;
  I_nd_gibbs := fun x => lennard_jones_isotensional.nondimensional_gibbs_free_energy N l m (kappa k l T) x T;
  I_nd_gibbs_per_link := fun x => lennard_jones_isotensional.nondimensional_gibbs_free_energy_per_link l m (kappa k l T) x T;
  I_nd_rel_gibbs := fun x => lennard_jones_isotensional.nondimensional_relative_gibbs_free_energy N (kappa k l T) x;
  I_nd_rel_gibbs_per_link := fun x => lennard_jones_isotensional.nondimensional_relative_gibbs_free_energy_per_link (kappa k l T) x |}.

Definition C_lennard_jones_isotensional_asymptotic (N : Z) (l : R) (m : R) (T : R) (k : R) : isotensional := {|
  I_length := fun x => lennard_jones_isotensional_asymptotic.end_to_end_length N l k x T;
  I_length_per_link := fun x => lennard_jones_isotensional_asymptotic.end_to_end_length_per_link l k x T;
  I_nd_length := fun x => lennard_jones_isotensional_asymptotic.nondimensional_end_to_end_length N (kappa k l T) x;
  I_nd_length_per_link := fun x => lennard_jones_isotensional_asymptotic.nondimensional_end_to_end_length_per_link (kappa k l T) x;
  I_gibbs := fun x => lennard_jones_isotensional_asymptotic.gibbs_free_energy N l m k x T;
  I_gibbs_per_link := fun x => lennard_jones_isotensional_asymptotic.gibbs_free_energy_per_link l m k x T;
  I_rel_gibbs := fun x => lennard_jones_isotensional_asymptotic.relative_gibbs_free_energy N l k x T;
  I_rel_gibbs_per_link := fun x => lennard_jones_isotensional_asymptotic.relative_gibbs_free_energy_per_link l k x T;
  I_nd_gibbs := fun x => lennard_jones_isotensional_asymptotic.nondimensional_gibbs_free_energy N l m (kappa k l T) x T;
  I_nd_gibbs_per_link := fun x => lennard_jones_isotensional_asymptotic.nondimensional_gibbs_free_energy_per_link l m (kappa k l T) x T;
  I_nd_rel_gibbs := fun x => lennard_jones_isotensional_asymptotic.nondimensional_relative_gibbs_free_energy N (kappa k l T) x;
  I_nd_rel_gibbs_per_link := fun x => lennard_jones_isotensional_asymptotic.nondimensional_relative_gibbs_free_energy_per_link (kappa k l T) x |}.

Definition C_lennard_jones_isotensional_asymptotic_legendre (N : Z) (l : R) (m : R) (T : R) (k : R) : isotensional_helmholtz := {|
  IH_helmholtz := fun x => lennard_jones_isotensional_asymptotic_legendre.helmholtz_free_energy N l m k x T;
  IH_helmholtz_per_link := fun x => lennard_jones_isotensional_asymptotic_legendre.helmholtz_free_energy_per_link l m k x T;
  IH_rel_helmholtz := fun x => lennard_jones_isotensional_asymptotic_legendre.relative_helmholtz_free_energy N l k x T;
  IH_rel_helmholtz_per_link := fun x => lennard_jones_isotensional_asymptotic_legendre.relative_helmholtz_free_energy_per_link l k x T;
  IH_nd_helmholtz := fun x => lennard_jones_isotensional_asymptotic_legendre.nondimensional_helmholtz_free_energy N l m (kappa k l T) x T;
  IH_nd_helmholtz_per_link := fun x => lennard_jones_isotensional_asymptotic_legendre.nondimensional_helmholtz_free_energy_per_link l m (kappa k l T) x T;
  IH_nd_rel_helmholtz := fun x => lennard_jones_isotensional_asymptotic_legendre.nondimensional_relative_helmholtz_free_energy N (kappa k l T) x;
  IH_nd_rel_helmholtz_per_link := fun x => lennard_jones_isotensional_asymptotic_legendre.nondimensional_relative_helmholtz_free_energy_per_link (kappa k l T) x |}.

Definition C_lennard_jones_isotensional_asymptotic_reduced (N : Z) (l : R) (m : R) (T : R) (k : R) : isotensional := {|
  I_length := fun x => lennard_jones_isotensional_asymptotic_reduced.end_to_end_length N l k x T;
  I_length_per_link := fun x => lennard_jones_isotensional_asymptotic_reduced.end_to_end_length_per_link l k x T;
  I_nd_length := fun x => lennard_jones_isotensional_asymptotic_reduced.nondimensional_end_to_end_length N (kappa k l T) x;
  I_nd_length_per_link := fun x => lennard_jones_isotensional_asymptotic_reduced.nondimensional_end_to_end_length_per_link (kappa k l T) x;
  I_gibbs := fun x => lennard_jones_isotensional_asymptotic_reduced.gibbs_free_energy N l m k x T;
  I_gibbs_per_link := fun x => lennard_jones_isotensional_asymptotic_reduced.gibbs_free_energy_per_link l m k x T;
  I_rel_gibbs := fun x => lennard_jones_isotensional_asymptotic_reduced.relative_gibbs_free_energy N l k x T;
  I_rel_gibbs_per_link := fun x => lennard_jones_isotensional_asymptotic_reduced.relative_gibbs_free_energy_per_link l k x T;
  I_nd_gibbs := fun x => lennard_jones_isotensional_asymptotic_reduced.nondimensional_gibbs_free_energy N l m (kappa k l T) x T;
  I_nd_gibbs_per_link := fun x => lennard_jones_isotensional_asymptotic_reduced.nondimensional_gibbs_free_energy_per_link l m (kappa k l T) x T;
  I_nd_rel_gibbs := fun x => lennard_jones_isotensional_asymptotic_reduced.nondimensional_relative_gibbs_free_energy N (kappa k l T) x;
  I_nd_rel_gibbs_per_link := fun x => lennard_jones_isotensional_asymptotic_reduced.nondimensional_relative_gibbs_free_energy_per_link (kappa k l T) x |}.

Definition C_lennard_jones_isotensional_asymptotic_reduced_legendre (N : Z) (l : R) (m : R) (T : R) (k : R) : isotensional_helmholtz := {|
  IH_helmholtz := fun x => lennard_jones_isotensional_asymptotic_reduced_legendre.helmholtz_free_energy N l m k x T;
  IH_helmholtz_per_link := fun x => lennard_jones_isotensional_asymptotic_reduced_legendre.helmholtz_free_energy_per_link l m k x T;
  IH_rel_helmholtz := fun x => lennard_jones_isotensional_asymptotic_reduced_legendre.relative_helmholtz_free_energy N l k x T;
  IH_rel_helmholtz_per_link := fun x => lennard_jones_isotensional_asymptotic_reduced_legendre.relative_helmholtz_free_energy_per_link l k x T;
  IH_nd_helmholtz := fun x => lennard_jones_isotensional_asymptotic_reduced_legendre.nondimensional_helmholtz_free_energy N l m (kappa k l T) x T;
  IH_nd_helmholtz_per_link := fun x => lennard_jones_isotensional_asymptotic_reduced_legendre.nondimensional_helmholtz_free_energy_per_link l m (kappa k l T) x T;
  IH_nd_rel_helmholtz := fun x => lennard_jones_isotensional_asymptotic_reduced_legendre.nondimensional_relative_helmholtz_free_energy N (kappa k l T) x;
  IH_nd_rel_helmholtz_per_link := fun x => lennard_jones_isotensional_asymptotic_reduced_legendre.nondimensional_relative_helmholtz_free_energy_per_link (kappa k l T) x |}.

Definition C_lennard_jones_isotensional_legendre (N : Z) (l : R) (m : R) (T : R) (k : R) : isotensional_helmholtz := {|
  IH_helmholtz := fun x => lennard_jones_isotensional_legendre.helmholtz_free_energy N l m k x T;
  IH_helmholtz_per_link := fun x => lennard_jones_isotensional_legendre.helmholtz_free_energy_per_link l m k x T;
  IH_rel_helmholtz := fun x => lennard_jones_isotensional_legendre.relative_helmholtz_free_energy N l k x T;
  IH_rel_helmholtz_per_link := fun x => lennard_jones_isotensional_legendre.relative_helmholtz_free_energy_per_link l k x T;
  IH_nd_helmholtz := fun x => lennard_jones_isotensional_legendre.nondimensional_helmholtz_free_energy N l m (kappa k l T) x T;
  IH_nd_helmholtz_per_link := fun x => lennard_jones_isotensional_legendre.nondimensional_helmholtz_free_energy_per_link l m (kappa k l T) x T;
  IH_nd_rel_helmholtz := fun x => lennard_jones_isotensional_legendre.nondimensional_relative_helmholtz_free_energy N (kappa k l T) x;
  IH_nd_rel_helmholtz_per_link := fun x => lennard_jones_isotensional_legendre.nondimensional_relative_helmholtz_free_energy_per_link (kappa k l T) x |}.

Definition C_log_squared_isometric_asymptotic_legendre (N : Z) (l : R) (m : R) (T : R) (k : R) : isometric := {|
  S_force := fun x => log_squared_isometric_asymptotic_legendre.force N l k x T;
  S_nd_force := fun x => log_squared_isometric_asymptotic_legendre.nondimensional_force (kappa k l T) x;
  S_helmholtz := fun x => log_squared_isometric_asymptotic_legendre.helmholtz_free_energy N l m k x T;
  S_helmholtz_per_link := fun x => log_squared_isometric_asymptotic_legendre.helmholtz_free_energy_per_link N l m k x T;
  S_rel_helmholtz := fun x => log_squared_isometric_asymptotic_legendre.relative_helmholtz_free_energy N l k x T;
  S_rel_helmholtz_per_link := fun x => log_squared_isometric_asymptotic_legendre.relative_helmholtz_free_energy_per_link N l k x T;
  S_nd_helmholtz := fun x => log_squared_isometric_asymptotic_legendre.nondimensional_helmholtz_free_energy N l m (kappa k l T) x T;
  S_nd_helmholtz_per_link := fun x => log_squared_isometric_asymptotic_legendre.nondimensional_helmholtz_free_energy_per_link N l m (kappa k l T) x T;
  S_nd_rel_helmholtz := fun x => log_squared_isometric_asymptotic_legendre.nondimensional_relative_helmholtz_free_energy N (kappa k l T) x;
  S_nd_rel_helmholtz_per_link := fun x => log_squared_isometric_asymptotic_legendre.nondimensional_relative_helmholtz_free_energy_per_link (kappa k l T) x |}.

Definition C_log_squared_isometric_asymptotic_reduced_legendre (N : Z) (l : R) (m : R) (T : R) (k : R) : isometric := {|
  S_force := fun x => log_squared_isometric_asymptotic_reduced_legendre.force N l k x T;
  S_nd_force := fun x => log_squared_isometric_asymptotic_reduced_legendre.nondimensional_force (kappa k l T) x;
  S_helmholtz := fun x => log_squared_isometric_asymptotic_reduced_legendre.helmholtz_free_energy N l m k x T;
  S_helmholtz_per_link := fun x => log_squared_isometric_asymptotic_reduced_legendre.helmholtz_free_energy_per_link N l m k x T;
  S_rel_helmholtz := fun x => log_squared_isometric_asymptotic_reduced_legendre.relative_helmholtz_free_energy N l k x T;
  S_rel_helmholtz_per_link := fun x => log_squared_isometric_asymptotic_reduced_legendre.relative_helmholtz_free_energy_per_link N l k x T;
  S_nd_helmholtz := fun x => log_squared_isometric_asymptotic_reduced_legendre.nondimensional_helmholtz_free_energy N l m (kappa k l T) x T;
  S_nd_helmholtz_per_link := fun x => log_squared_isometric_asymptotic_reduced_legendre.nondimensional_helmholtz_free_energy_per_link N l m (kappa k l T) x T;
  S_nd_rel_helmholtz := fun x => log_squared_isometric_asymptotic_reduced_legendre.nondimensional_relative_helmholtz_free_energy N (kappa k l T) x;
  S_nd_rel_helmholtz_per_link := fun x => log_squared_isometric_asymptotic_reduced_legendre.nondimensional_relative_helmholtz_free_energy_per_link (kappa k l T) x |}.

Definition C_log_squared_isotensional (N : Z) (l : R) (m : R) (T : R) (k : R) : isotensional := {|
  I_length := fun x => log_squared_isotensional.end_to_end_length N l k x T;
  I_length_per_link := fun x => log_squared_isotensional.end_to_end_length_per_link l k x T;
  I_nd_length := fun x => log_squared_isotensional.nondimensional_end_to_end_length N (kappa k l T) x;
  I_nd_length_per_link := fun x => log_squared_isotensional.nondimensional_end_to_end_length_per_link (kappa k l T) x;
  I_gibbs := fun x => log_squared_isotensional.gibbs_free_energy N l m k x T;
  I_gibbs_per_link := fun x => log_squared_isotensional.gibbs_free_energy_per_link l m k x T;
  I_rel_gibbs := fun x => log_squared_isotensional.relative_gibbs_free_energy N l k x T;
  I_rel_gibbs_per_link := fun x => log_squared_isotensional.relative_gibbs_free_energy_per_link l k x T;
  I_nd_gibbs := fun x => log_squared_isotensional.nondimensional_gibbs_free_energy N l m (kappa k l T) x T;
  I_nd_gibbs_per_link := fun x => log_squared_isotensional.nondimensional_gibbs_free_energy_per_link l m (kappa k l T) x T;
  I_nd_rel_gibbs := fun x => log_squared_isotensional.nondimensional_relative_gibbs_free_energy N (kappa k l T) x;
  I_nd_rel_gibbs_per_link := fun x => log_squared_isotensional.nondimensional_relative_gibbs_free_energy_per_link (kappa k l T) x |}.

Definition C_log_squared_isotensional_asymptotic (N : Z) (l : R) (m : R) (T : R) (k : R) : isotensional := {|
  I_length := fun x => log_squared_isotensional_asymptotic.end_to_end_length N l k x T;
  I_length_per_link := fun x => log_squared_isotensional_asymptotic.end_to_end_length_per_link l k x T;
  I_nd_length := fun x => log_squared_isotensional_asymptotic.nondimensional_end_to_end_length N (kappa k l T) x;
  I_nd_length_per_link := fun x => log_squared_isotensional_asymptotic.nondimensional_end_to_end_length_per_link (kappa k l T) x;
  I_gibbs := fun x => log_squared_isotensional_asymptotic.gibbs_free_energy N l m k x T;
  I_gibbs_per_link := fun x => log_squared_isotensional_asymptotic.gibbs_free_energy_per_link l m k x T;
  I_rel_gibbs := fun x => log_squared_isotensional_asymptotic.relative_gibbs_free_energy N l k x T;
  I_rel_gibbs_per_link := fun x => log_squared_isotensional_asymptotic.relative_gibbs_free_energy_per_link l k x T;
  I_nd_gibbs := fun x => log_squared_isotensional_asymptotic.nondimensional_gibbs_free_energy N l m (kappa k l T) x T;
  I_nd_gibbs_per_link := fun x => log_squared_isotensional_asymptotic.nondimensional_gibbs_free_energy_per_link l m (kappa k l T) x T;
  I_nd_rel_gibbs := fun x => log_squared_isotensional_asymptotic.nondimensional_relative_gibbs_free_energy N (kappa k l T) x;
  I_nd_rel_gibbs_per_link := fun x => log_squared_isotensional_asymptotic.nondimensional_relative_gibbs_free_energy_per_link (kappa k l T) x |}.

Definition C_log_squared_isotensional_asymptotic_legendre (N : Z) (l : R) (m : R) (T : R) (k : R) : isotensional_helmholtz := {|
  IH_helmholtz := fun x => log_squared_isotensional_asymptotic_legendre.helmholtz_free_energy N l m k x T;
  IH_helmholtz_per_link := fun x => log_squared_isotensional_asymptotic_legendre.helmholtz_free_energy_per_link l m k x T;
  IH_rel_helmholtz := fun x => log_squared_isotensional_asymptotic_legendre.relative_helmholtz_free_energy N l k x T;
  IH_rel_helmholtz_per_link := fun x => log_squared_isotensional_asymptotic_legendre.relative_helmholtz_free_energy_per_link l k x T;
  IH_nd_helmholtz := fun x => log_squared_isotensional_asymptotic_legendre.nondimensional_helmholtz_free_energy N l m (kappa k l T) x T;
  IH_nd_helmholtz_per_link := fun x => log_squared_isotensional_asymptotic_legendre.nondimensional_helmholtz_free_energy_per_link l m (kappa k l T) x T;
  IH_nd_rel_helmholtz := fun x => log_squared_isotensional_asymptotic_legendre.nondimensional_relative_helmholtz_free_energy N (kappa k l T) x;
  IH_nd_rel_helmholtz_per_link := fun x => log_squared_isotensional_asymptotic_legendre.nondimensional_relative_helmholtz_free_energy_per_link (kappa k l T) x |}.

Definition C_log_squared_isotensional_asymptotic_reduced (N : Z) (l : R) (m : R) (T : R) (k : R) : isotensional := {|
  I_length := fun x => log_squared_isotensional_asymptotic_reduced.end_to_end_length N l k x T;
  I_length_per_link := fun x => log_squared_isotensional_asymptotic_reduced.end_to_end_length_per_link l k x T;
  I_nd_length := fun x => log_squared_isotensional_asymptotic_reduced.nondimensional_end_to_end_length N (kappa k l T) x;
  I_nd_length_per_link := fun x => log_squared_isotensional_asymptotic_reduced.nondimensional_end_to_end_length_per_link (kappa k l T) x;
  I_gibbs := fun x => log_squared_isotensional_asymptotic_reduced.gibbs_free_energy N l m k x T;
  I_gibbs_per_link := fun x => log_squared_isotensional_asymptotic_reduced.gibbs_free_energy_per_link l m k x T;
  I_rel_gibbs := fun x => log_squared_isotensional_asymptotic_reduced.relative_gibbs_free_energy N l k x T;
  I_rel_gibbs_per_link := fun x => log_squared_isotensional_asymptotic_reduced.relative_gibbs_free_energy_per_link l k x T;
  I_nd_gibbs := fun x => log_squared_isotensional_asymptotic_reduced.nondimensional_gibbs_free_energy N l m (kappa k l T) x T;
  I_nd_gibbs_per_link := fun x => log_squared_isotensional_asymptotic_reduced.nondimensional_gibbs_free_energy_per_link l m (kappa k l T) x T;
  I_nd_rel_gibbs := fun x => log_squared_isotensional_asymptotic_reduced.nondimensional_relative_gibbs_free_energy N (kappa k l T) x;
  I_nd_rel_gibbs_per_link := fun x => log_squared_isotensional_asymptotic_reduced.nondimensional_relative_gibbs_free_energy_per_link (kappa k l T) x |}.

Definition C_log_squared_isotensional_asymptotic_reduced_legendre (N : Z) (l : R) (m : R) (T : R) (k : R) : isotensional_helmholtz := {|
  IH_helmholtz := fun x => log_squared_isotensional_asymptotic_reduced_legendre.helmholtz_free_energy N l m k x T;
  IH_helmholtz_per_link := fun x => log_squared_isotensional_asymptotic_reduced_legendre.helmholtz_free_energy_per_link l m k x T;
  IH_rel_helmholtz := fun x => log_squared_isotensional_asymptotic_reduced_legendre.relative_helmholtz_free_energy N l k x T;
  IH_rel_helmholtz_per_link := fun x => log_squared_isotensional_asymptotic_reduced_legendre.relative_helmholtz_free_energy_per_link l k x T;
  IH_nd_helmholtz := fun x => log_squared_isotensional_asymptotic_reduced_legendre.nondimensional_helmholtz_free_energy N l m (kappa k l T) x T;
  IH_nd_helmholtz_per_link := fun x => log_squared_isotensional_asymptotic_reduced_legendre.nondimensional_helmholtz_free_energy_per_link l m (kappa k l T) x T;
  IH_nd_rel_helmholtz := fun x => log_squared_isotensional_asymptotic_reduced_legendre.nondimensional_relative_helmholtz_free_energy N (kappa k l T) x;
  IH_nd_rel_helmholtz_per_link := fun x => log_squared_isotensional_asymptotic_reduced_legendre.nondimensional_relative_helmholtz_free_energy_per_link (kappa k l T) x |}.

Definition C_log_squared_isotensional_legendre (N : Z) (l : R) (m : R) (T : R) (k : R) : isotensional_helmholtz := {|
  IH_helmholtz := fun x => log_squared_isotensional_legendre.helmholtz_free_energy N l m k x T;
  IH_helmholtz_per_link := fun x => log_squared_isotensional_legendre.helmholtz_free_energy_per_link l m k x T;
  IH_rel_helmholtz := fun x => log_squared_isotensional_legendre.relative_helmholtz_free_energy N l k x T;
  IH_rel_helmholtz_per_link := fun x => log_squared_isotensional_legendre.relative_helmholtz_free_energy_per_link l k x T;
  IH_nd_helmholtz := fun x => log_squared_isotensional_legendre.nondimensional_helmholtz_free_energy N l m (kappa k l T) x T;
  IH_nd_helmholtz_per_link := fun x => log_squared_isotensional_legendre.nondimensional_helmholtz_free_energy_per_link l m (kappa k l T) x T;
  IH_nd_rel_helmholtz := fun x => log_squared_isotensional_legendre.nondimensional_relative_helmholtz_free_energy N (kappa k l T) x;
  IH_nd_rel_helmholtz_per_link := fun x => log_squared_isotensional_legendre.nondimensional_relative_helmholtz_free_energy_per_link (kappa k l T) x |}.

Definition C_wlc_isometric (N : Z) (l : R) (m : R) (T : R) (p : R) : isometric := {|
  S_force := fun x => wlc_isometric.force N l p x T;
  S_nd_force := fun x => wlc_isometric.nondimensional_force N (zeta p N l) x;
  S_helmholtz := fun x => wlc_isometric.helmholtz_free_energy N l m p x T;
  S_helmholtz_per_link := fun x => wlc_isometric.helmholtz_free_energy_per_link N l m p x T;
  S_rel_helmholtz := fun x => wlc_isometric.relative_helmholtz_free_energy N l p x T;
  S_rel_helmholtz_per_link := fun x => wlc_isometric.relative_helmholtz_free_energy_per_link N l p x T;
  S_nd_helmholtz := fun x => wlc_isometric.nondimensional_helmholtz_free_energy N l m (zeta p N l) x T;
  S_nd_helmholtz_per_link := fun x => wlc_isometric.nondimensional_helmholtz_free_energy_per_link N l m (zeta p N l) x T;
  S_nd_rel_helmholtz := fun x => wlc_isometric.nondimensional_relative_helmholtz_free_energy (zeta p N l) x;
  S_nd_rel_helmholtz_per_link := fun x => wlc_isometric.nondimensional_relative_helmholtz_free_energy_per_link N (zeta p N l) x |}.

Definition CG_wlc_isometric_legendre (N : Z) (l : R) (m : R) (T : R) (p : R) : isometric_gibbs := {|
  SG_gibbs := fun x => wlc_isometric_legendre.gibbs_free_energy N l m p x T;
  SG_gibbs_per_link := fun x => wlc_isometric_legendre.gibbs_free_energy_per_link N l m p x T;
  SG_rel_gibbs := fun x => wlc_isometric_legendre.relative_gibbs_free_energy N l p x T;
  SG_rel_gibbs_per_link := fun x => wlc_isometric_legendre.relative_gibbs_free_energy_per_link N l p x T;
  SG_nd_gibbs := fun x => wlc_isometric_legendre.nondimensional_gibbs_free_energy N l m (zeta p N l) x T;
  SG_nd_gibbs_per_link := fun x => wlc_isometric_legendre.nondimensional_gibbs_free_energy_per_link N l m (zeta p N l) x T;
  SG_nd_rel_gibbs := fun x => wlc_isometric_legendre.nondimensional_relative_gibbs_free_energy N (zeta p N l) x;
  SG_nd_rel_gibbs_per_link := fun x => wlc_isometric_legendre.nondimensional_relative_gibbs_free_energy_per_link N (zeta p N l) x |}.
