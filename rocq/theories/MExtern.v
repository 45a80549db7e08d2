(** The C interface of the single-chain models: the `extern fn`s of the ex.rs files, each
    under its exported symbol.  The arguments of a call are taken as values of the declared
    types; how they travel in registers is not modelled.
    Generated by tools/gen_bindings.py from the files cited at each definition. *)
From Coq Require Import ZArith List Bool.
From Verif Require Import Scalar MMath MConst MIdeal MFjc MSwfjc MEfjc MMorse MLennardJones MLogSquared MWlc.
Local Open Scope scalar_scope.

Module extern.
Section Model.
Context {T : Type} {Sc : Scalar T}.

(* /repo/src/physics/single_chain/efjc/thermodynamics/isometric/asymptotic/alternative/legendre/ex.rs:2-5 *)
Definition physics_single_chain_efjc_thermodynamics_isometric_asymptotic_alternative_legendre_force
    (number_of_links : Z) (link_length : T) (link_stiffness : T) (end_to_end_length : T)
    (temperature : T) : T :=
  efjc_isometric_asymptotic_alternative_legendre.force number_of_links link_length link_stiffness
      end_to_end_length temperature.

(* /repo/src/physics/single_chain/efjc/thermodynamics/isometric/asymptotic/alternative/legendre/ex.rs:7-10 *)
Definition
    physics_single_chain_efjc_thermodynamics_isometric_asymptotic_alternative_legendre_nondimensional_force
    (nondimensional_link_stiffness : T) (nondimensional_end_to_end_length_per_link : T) : T :=
  efjc_isometric_asymptotic_alternative_legendre.nondimensional_force nondimensional_link_stiffness
      nondimensional_end_to_end_length_per_link.

(* /repo/src/physics/single_chain/efjc/thermodynamics/isometric/asymptotic/alternative/legendre/ex.rs:12-15 *)
Definition
    physics_single_chain_efjc_thermodynamics_isometric_asymptotic_alternative_legendre_helmholtz_free_energy
    (number_of_links : Z) (link_length : T) (hinge_mass : T) (link_stiffness : T) (end_to_end_length
    : T) (temperature : T) : T :=
  efjc_isometric_asymptotic_alternative_legendre.helmholtz_free_energy number_of_links link_length
      hinge_mass link_stiffness end_to_end_length temperature.

(* /repo/src/physics/single_chain/efjc/thermodynamics/isometric/asymptotic/alternative/legendre/ex.rs:17-20 *)
Definition
    physics_single_chain_efjc_thermodynamics_isometric_asymptotic_alternative_legendre_helmholtz_free_energy_per_link
    (number_of_links : Z) (link_length : T) (hinge_mass : T) (link_stiffness : T) (end_to_end_length
    : T) (temperature : T) : T :=
  efjc_isometric_asymptotic_alternative_legendre.helmholtz_free_energy_per_link number_of_links
      link_length hinge_mass link_stiffness end_to_end_length temperature.

(* /repo/src/physics/single_chain/efjc/thermodynamics/isometric/asymptotic/alternative/legendre/ex.rs:22-25 *)
Definition
    physics_single_chain_efjc_thermodynamics_isometric_asymptotic_alternative_legendre_relative_helmholtz_free_energy
    (number_of_links : Z) (link_length : T) (link_stiffness : T) (end_to_end_length : T)
    (temperature : T) : T :=
  efjc_isometric_asymptotic_alternative_legendre.relative_helmholtz_free_energy number_of_links
      link_length link_stiffness end_to_end_length temperature.

(* /repo/src/physics/single_chain/efjc/thermodynamics/isometric/asymptotic/alternative/legendre/ex.rs:27-30 *)
Definition
    physics_single_chain_efjc_thermodynamics_isometric_asymptotic_alternative_legendre_relative_helmholtz_free_energy_per_link
    (number_of_links : Z) (link_length : T) (link_stiffness : T) (end_to_end_length : T)
    (temperature : T) : T :=
  efjc_isometric_asymptotic_alternative_legendre.relative_helmholtz_free_energy_per_link
      number_of_links link_length link_stiffness end_to_end_length temperature.

(* /repo/src/physics/single_chain/efjc/thermodynamics/isometric/asymptotic/alternative/legendre/ex.rs:32-35 *)
Definition
    physics_single_chain_efjc_thermodynamics_isometric_asymptotic_alternative_legendre_nondimensional_helmholtz_free_energy
    (number_of_links : Z) (link_length : T) (hinge_mass : T) (nondimensional_link_stiffness : T)
    (nondimensional_end_to_end_length_per_link : T) (temperature : T) : T :=
  efjc_isometric_asymptotic_alternative_legendre.nondimensional_helmholtz_free_energy
      number_of_links link_length hinge_mass nondimensional_link_stiffness
      nondimensional_end_to_end_length_per_link temperature.

(* /repo/src/physics/single_chain/efjc/thermodynamics/isometric/asymptotic/alternative/legendre/ex.rs:37-40 *)
Definition
    physics_single_chain_efjc_thermodynamics_isometric_asymptotic_alternative_legendre_nondimensional_helmholtz_free_energy_per_link
    (number_of_links : Z) (link_length : T) (hinge_mass : T) (nondimensional_link_stiffness : T)
    (nondimensional_end_to_end_length_per_link : T) (temperature : T) : T :=
  efjc_isometric_asymptotic_alternative_legendre.nondimensional_helmholtz_free_energy_per_link
      number_of_links link_length hinge_mass nondimensional_link_stiffness
      nondimensional_end_to_end_length_per_link temperature.

(* /repo/src/physics/single_chain/efjc/thermodynamics/isometric/asymptotic/alternative/legendre/ex.rs:42-45 *)
Definition
    physics_single_chain_efjc_thermodynamics_isometric_asymptotic_alternative_legendre_nondimensional_relative_helmholtz_free_energy
    (number_of_links : Z) (nondimensional_link_stiffness : T)
    (nondimensional_end_to_end_length_per_link : T) : T :=
  efjc_isometric_asymptotic_alternative_legendre.nondimensional_relative_helmholtz_free_energy
      number_of_links nondimensional_link_stiffness nondimensional_end_to_end_length_per_link.

(* /repo/src/physics/single_chain/efjc/thermodynamics/isometric/asymptotic/alternative/legendre/ex.rs:47-50 *)
Definition
    physics_single_chain_efjc_thermodynamics_isometric_asymptotic_alternative_legendre_nondimensional_relative_helmholtz_free_energy_per_link
    (nondimensional_link_stiffness : T) (nondimensional_end_to_end_length_per_link : T) : T :=
  efjc_isometric_asymptotic_alternative_legendre.nondimensional_relative_helmholtz_free_energy_per_link
      nondimensional_link_stiffness nondimensional_end_to_end_length_per_link.

(* /repo/src/physics/single_chain/efjc/thermodynamics/isometric/asymptotic/legendre/ex.rs:2-5 *)
Definition physics_single_chain_efjc_thermodynamics_isometric_asymptotic_legendre_force
    (number_of_links : Z) (link_length : T) (link_stiffness : T) (end_to_end_length : T)
    (temperature : T) : T :=
  efjc_isometric_asymptotic_legendre.force number_of_links link_length link_stiffness
      end_to_end_length temperature.

(* /repo/src/physics/single_chain/efjc/thermodynamics/isometric/asymptotic/legendre/ex.rs:7-10 *)
Definition
    physics_single_chain_efjc_thermodynamics_isometric_asymptotic_legendre_nondimensional_force
    (nondimensional_link_stiffness : T) (nondimensional_end_to_end_length_per_link : T) : T :=
  efjc_isometric_asymptotic_legendre.nondimensional_force nondimensional_link_stiffness
      nondimensional_end_to_end_length_per_link.

(* /repo/src/physics/single_chain/efjc/thermodynamics/isometric/asymptotic/legendre/ex.rs:12-15 *)
Definition
    physics_single_chain_efjc_thermodynamics_isometric_asymptotic_legendre_helmholtz_free_energy
    (number_of_links : Z) (link_length : T) (hinge_mass : T) (link_stiffness : T) (end_to_end_length
    : T) (temperature : T) : T :=
  efjc_isometric_asymptotic_legendre.helmholtz_free_energy number_of_links link_length hinge_mass
      link_stiffness end_to_end_length temperature.

(* /repo/src/physics/single_chain/efjc/thermodynamics/isometric/asymptotic/legendre/ex.rs:17-20 *)
Definition
    physics_single_chain_efjc_thermodynamics_isometric_asymptotic_legendre_helmholtz_free_energy_per_link
    (number_of_links : Z) (link_length : T) (hinge_mass : T) (link_stiffness : T) (end_to_end_length
    : T) (temperature : T) : T :=
  efjc_isometric_asymptotic_legendre.helmholtz_free_energy_per_link number_of_links link_length
      hinge_mass link_stiffness end_to_end_length temperature.

(* /repo/src/physics/single_chain/efjc/thermodynamics/isometric/asymptotic/legendre/ex.rs:22-25 *)
Definition
    physics_single_chain_efjc_thermodynamics_isometric_asymptotic_legendre_relative_helmholtz_free_energy
    (number_of_links : Z) (link_length : T) (link_stiffness : T) (end_to_end_length : T)
    (temperature : T) : T :=
  efjc_isometric_asymptotic_legendre.relative_helmholtz_free_energy number_of_links link_length
      link_stiffness end_to_end_length temperature.

(* /repo/src/physics/single_chain/efjc/thermodynamics/isometric/asymptotic/legendre/ex.rs:27-30 *)
Definition
    physics_single_chain_efjc_thermodynamics_isometric_asymptotic_legendre_relative_helmholtz_free_energy_per_link
    (number_of_links : Z) (link_length : T) (link_stiffness : T) (end_to_end_length : T)
    (temperature : T) : T :=
  efjc_isometric_asymptotic_legendre.relative_helmholtz_free_energy_per_link number_of_links
      link_length link_stiffness end_to_end_length temperature.

(* /repo/src/physics/single_chain/efjc/thermodynamics/isometric/asymptotic/legendre/ex.rs:32-35 *)
Definition
    physics_single_chain_efjc_thermodynamics_isometric_asymptotic_legendre_nondimensional_helmholtz_free_energy
    (number_of_links : Z) (link_length : T) (hinge_mass : T) (nondimensional_link_stiffness : T)
    (nondimensional_end_to_end_length_per_link : T) (temperature : T) : T :=
  efjc_isometric_asymptotic_legendre.nondimensional_helmholtz_free_energy number_of_links
      link_length hinge_mass nondimensional_link_stiffness nondimensional_end_to_end_length_per_link
      temperature.

(* /repo/src/physics/single_chain/efjc/thermodynamics/isometric/asymptotic/legendre/ex.rs:37-40 *)
Definition
    physics_single_chain_efjc_thermodynamics_isometric_asymptotic_legendre_nondimensional_helmholtz_free_energy_per_link
    (number_of_links : Z) (link_length : T) (hinge_mass : T) (nondimensional_link_stiffness : T)
    (nondimensional_end_to_end_length_per_link : T) (temperature : T) : T :=
  efjc_isometric_asymptotic_legendre.nondimensional_helmholtz_free_energy_per_link number_of_links
      link_length hinge_mass nondimensional_link_stiffness nondimensional_end_to_end_length_per_link
      temperature.

(* /repo/src/physics/single_chain/efjc/thermodynamics/isometric/asymptotic/legendre/ex.rs:42-45 *)
Definition
    physics_single_chain_efjc_thermodynamics_isometric_asymptotic_legendre_nondimensional_relative_helmholtz_free_energy
    (number_of_links : Z) (nondimensional_link_stiffness : T)
    (nondimensional_end_to_end_length_per_link : T) : T :=
  efjc_isometric_asymptotic_legendre.nondimensional_relative_helmholtz_free_energy number_of_links
      nondimensional_link_stiffness nondimensional_end_to_end_length_per_link.

(* /repo/src/physics/single_chain/efjc/thermodynamics/isometric/asymptotic/legendre/ex.rs:47-50 *)
Definition
    physics_single_chain_efjc_thermodynamics_isometric_asymptotic_legendre_nondimensional_relative_helmholtz_free_energy_per_link
    (nondimensional_link_stiffness : T) (nondimensional_end_to_end_length_per_link : T) : T :=
  efjc_isometric_asymptotic_legendre.nondimensional_relative_helmholtz_free_energy_per_link
      nondimensional_link_stiffness nondimensional_end_to_end_length_per_link.

(* /repo/src/physics/single_chain/efjc/thermodynamics/isometric/asymptotic/reduced/legendre/ex.rs:2-5 *)
Definition physics_single_chain_efjc_thermodynamics_isometric_asymptotic_reduced_legendre_force
    (number_of_links : Z) (link_length : T) (link_stiffness : T) (end_to_end_length : T)
    (temperature : T) : T :=
  efjc_isometric_asymptotic_reduced_legendre.force number_of_links link_length link_stiffness
      end_to_end_length temperature.

(* /repo/src/physics/single_chain/efjc/thermodynamics/isometric/asymptotic/reduced/legendre/ex.rs:7-10 *)
Definition
    physics_single_chain_efjc_thermodynamics_isometric_asymptotic_reduced_legendre_nondimensional_force
    (nondimensional_link_stiffness : T) (nondimensional_end_to_end_length_per_link : T) : T :=
  efjc_isometric_asymptotic_reduced_legendre.nondimensional_force nondimensional_link_stiffness
      nondimensional_end_to_end_length_per_link.

(* /repo/src/physics/single_chain/efjc/thermodynamics/isometric/asymptotic/reduced/legendre/ex.rs:12-15 *)
Definition
    physics_single_chain_efjc_thermodynamics_isometric_asymptotic_reduced_legendre_helmholtz_free_energy
    (number_of_links : Z) (link_length : T) (hinge_mass : T) (link_stiffness : T) (end_to_end_length
    : T) (temperature : T) : T :=
  efjc_isometric_asymptotic_reduced_legendre.helmholtz_free_energy number_of_links link_length
      hinge_mass link_stiffness end_to_end_length temperature.

(* /repo/src/physics/single_chain/efjc/thermodynamics/isometric/asymptotic/reduced/legendre/ex.rs:17-20 *)
Definition
    physics_single_chain_efjc_thermodynamics_isometric_asymptotic_reduced_legendre_helmholtz_free_energy_per_link
    (number_of_links : Z) (link_length : T) (hinge_mass : T) (link_stiffness : T) (end_to_end_length
    : T) (temperature : T) : T :=
  efjc_isometric_asymptotic_reduced_legendre.helmholtz_free_energy_per_link number_of_links
      link_length hinge_mass link_stiffness end_to_end_length temperature.

(* /repo/src/physics/single_chain/efjc/thermodynamics/isometric/asymptotic/reduced/legendre/ex.rs:22-25 *)
Definition
    physics_single_chain_efjc_thermodynamics_isometric_asymptotic_reduced_legendre_relative_helmholtz_free_energy
    (number_of_links : Z) (link_length : T) (link_stiffness : T) (end_to_end_length : T)
    (temperature : T) : T :=
  efjc_isometric_asymptotic_reduced_legendre.relative_helmholtz_free_energy number_of_links
      link_length link_stiffness end_to_end_length temperature.

(* /repo/src/physics/single_chain/efjc/thermodynamics/isometric/asymptotic/reduced/legendre/ex.rs:27-30 *)
Definition
    physics_single_chain_efjc_thermodynamics_isometric_asymptotic_reduced_legendre_relative_helmholtz_free_energy_per_link
    (number_of_links : Z) (link_length : T) (link_stiffness : T) (end_to_end_length : T)
    (temperature : T) : T :=
  efjc_isometric_asymptotic_reduced_legendre.relative_helmholtz_free_energy_per_link number_of_links
      link_length link_stiffness end_to_end_length temperature.

(* /repo/src/physics/single_chain/efjc/thermodynamics/isometric/asymptotic/reduced/legendre/ex.rs:32-35 *)
Definition
    physics_single_chain_efjc_thermodynamics_isometric_asymptotic_reduced_legendre_nondimensional_helmholtz_free_energy
    (number_of_links : Z) (link_length : T) (hinge_mass : T) (nondimensional_link_stiffness : T)
    (nondimensional_end_to_end_length_per_link : T) (temperature : T) : T :=
  efjc_isometric_asymptotic_reduced_legendre.nondimensional_helmholtz_free_energy number_of_links
      link_length hinge_mass nondimensional_link_stiffness nondimensional_end_to_end_length_per_link
      temperature.

(* /repo/src/physics/single_chain/efjc/thermodynamics/isometric/asymptotic/reduced/legendre/ex.rs:37-40 *)
Definition
    physics_single_chain_efjc_thermodynamics_isometric_asymptotic_reduced_legendre_nondimensional_helmholtz_free_energy_per_link
    (number_of_links : Z) (link_length : T) (hinge_mass : T) (nondimensional_link_stiffness : T)
    (nondimensional_end_to_end_length_per_link : T) (temperature : T) : T :=
  efjc_isometric_asymptotic_reduced_legendre.nondimensional_helmholtz_free_energy_per_link
      number_of_links link_length hinge_mass nondimensional_link_stiffness
      nondimensional_end_to_end_length_per_link temperature.

(* /repo/src/physics/single_chain/efjc/thermodynamics/isometric/asymptotic/reduced/legendre/ex.rs:42-45 *)
Definition
    physics_single_chain_efjc_thermodynamics_isometric_asymptotic_reduced_legendre_nondimensional_relative_helmholtz_free_energy
    (number_of_links : Z) (nondimensional_link_stiffness : T)
    (nondimensional_end_to_end_length_per_link : T) : T :=
  efjc_isometric_asymptotic_reduced_legendre.nondimensional_relative_helmholtz_free_energy
      number_of_links nondimensional_link_stiffness nondimensional_end_to_end_length_per_link.

(* /repo/src/physics/single_chain/efjc/thermodynamics/isometric/asymptotic/reduced/legendre/ex.rs:47-50 *)
Definition
    physics_single_chain_efjc_thermodynamics_isometric_asymptotic_reduced_legendre_nondimensional_relative_helmholtz_free_energy_per_link
    (nondimensional_link_stiffness : T) (nondimensional_end_to_end_length_per_link : T) : T :=
  efjc_isometric_asymptotic_reduced_legendre.nondimensional_relative_helmholtz_free_energy_per_link
      nondimensional_link_stiffness nondimensional_end_to_end_length_per_link.

(* /repo/src/physics/single_chain/efjc/thermodynamics/isotensional/ex.rs:2-5 *)
Definition physics_single_chain_efjc_thermodynamics_isotensional_end_to_end_length (number_of_links
    : Z) (link_length : T) (link_stiffness : T) (force : T) (temperature : T) : T :=
  efjc_isotensional.end_to_end_length number_of_links link_length link_stiffness force temperature.

(* /repo/src/physics/single_chain/efjc/thermodynamics/isotensional/ex.rs:7-10 *)
Definition physics_single_chain_efjc_thermodynamics_isotensional_end_to_end_length_per_link
    (link_length : T) (link_stiffness : T) (force : T) (temperature : T) : T :=
  efjc_isotensional.end_to_end_length_per_link link_length link_stiffness force temperature.

(* /repo/src/physics/single_chain/efjc/thermodynamics/isotensional/ex.rs:12-15 *)
Definition physics_single_chain_efjc_thermodynamics_isotensional_nondimensional_end_to_end_length
    (number_of_links : Z) (nondimensional_link_stiffness : T) (nondimensional_force : T) : T :=
  efjc_isotensional.nondimensional_end_to_end_length number_of_links nondimensional_link_stiffness
      nondimensional_force.

(* /repo/src/physics/single_chain/efjc/thermodynamics/isotensional/ex.rs:17-20 *)
Definition
    physics_single_chain_efjc_thermodynamics_isotensional_nondimensional_end_to_end_length_per_link
    (nondimensional_link_stiffness : T) (nondimensional_force : T) : T :=
  efjc_isotensional.nondimensional_end_to_end_length_per_link nondimensional_link_stiffness
      nondimensional_force.

(* /repo/src/physics/single_chain/efjc/thermodynamics/isotensional/ex.rs:22-25 *)
Definition physics_single_chain_efjc_thermodynamics_isotensional_gibbs_free_energy (number_of_links
    : Z) (link_length : T) (hinge_mass : T) (link_stiffness : T) (force : T) (temperature : T) : T
    :=
  efjc_isotensional.gibbs_free_energy number_of_links link_length hinge_mass link_stiffness force
      temperature.

(* /repo/src/physics/single_chain/efjc/thermodynamics/isotensional/ex.rs:27-30 *)
Definition physics_single_chain_efjc_thermodynamics_isotensional_gibbs_free_energy_per_link
    (link_length : T) (hinge_mass : T) (link_stiffness : T) (force : T) (temperature : T) : T :=
  efjc_isotensional.gibbs_free_energy_per_link link_length hinge_mass link_stiffness force
      temperature.

(* /repo/src/physics/single_chain/efjc/thermodynamics/isotensional/ex.rs:32-35 *)
Definition physics_single_chain_efjc_thermodynamics_isotensional_relative_gibbs_free_energy
    (number_of_links : Z) (link_length : T) (link_stiffness : T) (force : T) (temperature : T) : T
    :=
  efjc_isotensional.relative_gibbs_free_energy number_of_links link_length link_stiffness force
      temperature.

(* /repo/src/physics/single_chain/efjc/thermodynamics/isotensional/ex.rs:37-40 *)
Definition physics_single_chain_efjc_thermodynamics_isotensional_relative_gibbs_free_energy_per_link
    (link_length : T) (link_stiffness : T) (force : T) (temperature : T) : T :=
  efjc_isotensional.relative_gibbs_free_energy_per_link link_length link_stiffness force
      temperature.

(* /repo/src/physics/single_chain/efjc/thermodynamics/isotensional/ex.rs:42-45 *)
Definition physics_single_chain_efjc_thermodynamics_isotensional_nondimensional_gibbs_free_energy
    (number_of_links : Z) (link_length : T) (hinge_mass : T) (nondimensional_link_stiffness : T)
    (nondimensional_force : T) (temperature : T) : T :=
  efjc_isotensional.nondimensional_gibbs_free_energy number_of_links link_length hinge_mass
      nondimensional_link_stiffness nondimensional_force temperature.

(* /repo/src/physics/single_chain/efjc/thermodynamics/isotensional/ex.rs:47-50 *)
Definition
    physics_single_chain_efjc_thermodynamics_isotensional_nondimensional_gibbs_free_energy_per_link
    (link_length : T) (hinge_mass : T) (nondimensional_link_stiffness : T) (nondimensional_force :
    T) (temperature : T) : T :=
  efjc_isotensional.nondimensional_gibbs_free_energy_per_link link_length hinge_mass
      nondimensional_link_stiffness nondimensional_force temperature.

(* /repo/src/physics/single_chain/efjc/thermodynamics/isotensional/ex.rs:52-55 *)
Definition
    physics_single_chain_efjc_thermodynamics_isotensional_nondimensional_relative_gibbs_free_energy
    (number_of_links : Z) (nondimensional_link_stiffness : T) (nondimensional_force : T) : T :=
  efjc_isotensional.nondimensional_relative_gibbs_free_energy number_of_links
      nondimensional_link_stiffness nondimensional_force.

(* /repo/src/physics/single_chain/efjc/thermodynamics/isotensional/ex.rs:57-60 *)
Definition
    physics_single_chain_efjc_thermodynamics_isotensional_nondimensional_relative_gibbs_free_energy_per_link
    (nondimensional_link_stiffness : T) (nondimensional_force : T) : T :=
  efjc_isotensional.nondimensional_relative_gibbs_free_energy_per_link nondimensional_link_stiffness
      nondimensional_force.

(* /repo/src/physics/single_chain/efjc/thermodynamics/isotensional/asymptotic/ex.rs:2-5 *)
Definition physics_single_chain_efjc_thermodynamics_isotensional_asymptotic_end_to_end_length
    (number_of_links : Z) (link_length : T) (link_stiffness : T) (force : T) (temperature : T) : T
    :=
  efjc_isotensional_asymptotic.end_to_end_length number_of_links link_length link_stiffness force
      temperature.

(* /repo/src/physics/single_chain/efjc/thermodynamics/isotensional/asymptotic/ex.rs:7-10 *)
Definition
    physics_single_chain_efjc_thermodynamics_isotensional_asymptotic_end_to_end_length_per_link
    (link_length : T) (link_stiffness : T) (force : T) (temperature : T) : T :=
  efjc_isotensional_asymptotic.end_to_end_length_per_link link_length link_stiffness force
      temperature.

(* /repo/src/physics/single_chain/efjc/thermodynamics/isotensional/asymptotic/ex.rs:12-15 *)
Definition
    physics_single_chain_efjc_thermodynamics_isotensional_asymptotic_nondimensional_end_to_end_length
    (number_of_links : Z) (nondimensional_link_stiffness : T) (nondimensional_force : T) : T :=
  efjc_isotensional_asymptotic.nondimensional_end_to_end_length number_of_links
      nondimensional_link_stiffness nondimensional_force.

(* /repo/src/physics/single_chain/efjc/thermodynamics/isotensional/asymptotic/ex.rs:17-20 *)
Definition
    physics_single_chain_efjc_thermodynamics_isotensional_asymptotic_nondimensional_end_to_end_length_per_link
    (nondimensional_link_stiffness : T) (nondimensional_force : T) : T :=
  efjc_isotensional_asymptotic.nondimensional_end_to_end_length_per_link
      nondimensional_link_stiffness nondimensional_force.

(* /repo/src/physics/single_chain/efjc/thermodynamics/isotensional/asymptotic/ex.rs:22-25 *)
Definition physics_single_chain_efjc_thermodynamics_isotensional_asymptotic_gibbs_free_energy
    (number_of_links : Z) (link_length : T) (hinge_mass : T) (link_stiffness : T) (force : T)
    (temperature : T) : T :=
  efjc_isotensional_asymptotic.gibbs_free_energy number_of_links link_length hinge_mass
      link_stiffness force temperature.

(* /repo/src/physics/single_chain/efjc/thermodynamics/isotensional/asymptotic/ex.rs:27-30 *)
Definition
    physics_single_chain_efjc_thermodynamics_isotensional_asymptotic_gibbs_free_energy_per_link
    (link_length : T) (hinge_mass : T) (link_stiffness : T) (force : T) (temperature : T) : T :=
  efjc_isotensional_asymptotic.gibbs_free_energy_per_link link_length hinge_mass link_stiffness
      force temperature.

(* /repo/src/physics/single_chain/efjc/thermodynamics/isotensional/asymptotic/ex.rs:32-35 *)
Definition
    physics_single_chain_efjc_thermodynamics_isotensional_asymptotic_relative_gibbs_free_energy
    (number_of_links : Z) (link_length : T) (link_stiffness : T) (force : T) (temperature : T) : T
    :=
  efjc_isotensional_asymptotic.relative_gibbs_free_energy number_of_links link_length link_stiffness
      force temperature.

(* /repo/src/physics/single_chain/efjc/thermodynamics/isotensional/asymptotic/ex.rs:37-40 *)
Definition
    physics_single_chain_efjc_thermodynamics_isotensional_asymptotic_relative_gibbs_free_energy_per_link
    (link_length : T) (link_stiffness : T) (force : T) (temperature : T) : T :=
  efjc_isotensional_asymptotic.relative_gibbs_free_energy_per_link link_length link_stiffness force
      temperature.

(* /repo/src/physics/single_chain/efjc/thermodynamics/isotensional/asymptotic/ex.rs:42-45 *)
Definition
    physics_single_chain_efjc_thermodynamics_isotensional_asymptotic_nondimensional_gibbs_free_energy
    (number_of_links : Z) (link_length : T) (hinge_mass : T) (nondimensional_link_stiffness : T)
    (nondimensional_force : T) (temperature : T) : T :=
  efjc_isotensional_asymptotic.nondimensional_gibbs_free_energy number_of_links link_length
      hinge_mass nondimensional_link_stiffness nondimensional_force temperature.

(* /repo/src/physics/single_chain/efjc/thermodynamics/isotensional/asymptotic/ex.rs:47-50 *)
Definition
    physics_single_chain_efjc_thermodynamics_isotensional_asymptotic_nondimensional_gibbs_free_energy_per_link
    (link_length : T) (hinge_mass : T) (nondimensional_link_stiffness : T) (nondimensional_force :
    T) (temperature : T) : T :=
  efjc_isotensional_asymptotic.nondimensional_gibbs_free_energy_per_link link_length hinge_mass
      nondimensional_link_stiffness nondimensional_force temperature.

(* /repo/src/physics/single_chain/efjc/thermodynamics/isotensional/asymptotic/ex.rs:52-55 *)
Definition
    physics_single_chain_efjc_thermodynamics_isotensional_asymptotic_nondimensional_relative_gibbs_free_energy
    (number_of_links : Z) (nondimensional_link_stiffness : T) (nondimensional_force : T) : T :=
  efjc_isotensional_asymptotic.nondimensional_relative_gibbs_free_energy number_of_links
      nondimensional_link_stiffness nondimensional_force.

(* /repo/src/physics/single_chain/efjc/thermodynamics/isotensional/asymptotic/ex.rs:57-60 *)
Definition
    physics_single_chain_efjc_thermodynamics_isotensional_asymptotic_nondimensional_relative_gibbs_free_energy_per_link
    (nondimensional_link_stiffness : T) (nondimensional_force : T) : T :=
  efjc_isotensional_asymptotic.nondimensional_relative_gibbs_free_energy_per_link
      nondimensional_link_stiffness nondimensional_force.

(* /repo/src/physics/single_chain/efjc/thermodynamics/isotensional/asymptotic/alternative/ex.rs:2-5 *)
Definition
    physics_single_chain_efjc_thermodynamics_isotensional_asymptotic_alternative_end_to_end_length
    (number_of_links : Z) (link_length : T) (link_stiffness : T) (force : T) (temperature : T) : T
    :=
  efjc_isotensional_asymptotic_alternative.end_to_end_length number_of_links link_length
      link_stiffness force temperature.

(* /repo/src/physics/single_chain/efjc/thermodynamics/isotensional/asymptotic/alternative/ex.rs:7-10 *)
Definition
    physics_single_chain_efjc_thermodynamics_isotensional_asymptotic_alternative_end_to_end_length_per_link
    (link_length : T) (link_stiffness : T) (force : T) (temperature : T) : T :=
  efjc_isotensional_asymptotic_alternative.end_to_end_length_per_link link_length link_stiffness
      force temperature.

(* /repo/src/physics/single_chain/efjc/thermodynamics/isotensional/asymptotic/alternative/ex.rs:12-15 *)
Definition
    physics_single_chain_efjc_thermodynamics_isotensional_asymptotic_alternative_nondimensional_end_to_end_length
    (number_of_links : Z) (nondimensional_link_stiffness : T) (nondimensional_force : T) : T :=
  efjc_isotensional_asymptotic_alternative.nondimensional_end_to_end_length number_of_links
      nondimensional_link_stiffness nondimensional_force.

(* /repo/src/physics/single_chain/efjc/thermodynamics/isotensional/asymptotic/alternative/ex.rs:17-20 *)
Definition
    physics_single_chain_efjc_thermodynamics_isotensional_asymptotic_alternative_nondimensional_end_to_end_length_per_link
    (nondimensional_link_stiffness : T) (nondimensional_force : T) : T :=
  efjc_isotensional_asymptotic_alternative.nondimensional_end_to_end_length_per_link
      nondimensional_link_stiffness nondimensional_force.

(* /repo/src/physics/single_chain/efjc/thermodynamics/isotensional/asymptotic/alternative/ex.rs:22-25 *)
Definition
    physics_single_chain_efjc_thermodynamics_isotensional_asymptotic_alternative_gibbs_free_energy
    (number_of_links : Z) (link_length : T) (hinge_mass : T) (link_stiffness : T) (force : T)
    (temperature : T) : T :=
  efjc_isotensional_asymptotic_alternative.gibbs_free_energy number_of_links link_length hinge_mass
      link_stiffness force temperature.

(* /repo/src/physics/single_chain/efjc/thermodynamics/isotensional/asymptotic/alternative/ex.rs:27-30 *)
Definition
    physics_single_chain_efjc_thermodynamics_isotensional_asymptotic_alternative_gibbs_free_energy_per_link
    (link_length : T) (hinge_mass : T) (link_stiffness : T) (force : T) (temperature : T) : T :=
  efjc_isotensional_asymptotic_alternative.gibbs_free_energy_per_link link_length hinge_mass
      link_stiffness force temperature.

(* /repo/src/physics/single_chain/efjc/thermodynamics/isotensional/asymptotic/alternative/ex.rs:32-35 *)
Definition
    physics_single_chain_efjc_thermodynamics_isotensional_asymptotic_alternative_relative_gibbs_free_energy
    (number_of_links : Z) (link_length : T) (link_stiffness : T) (force : T) (temperature : T) : T
    :=
  efjc_isotensional_asymptotic_alternative.relative_gibbs_free_energy number_of_links link_length
      link_stiffness force temperature.

(* /repo/src/physics/single_chain/efjc/thermodynamics/isotensional/asymptotic/alternative/ex.rs:37-40 *)
Definition
    physics_single_chain_efjc_thermodynamics_isotensional_asymptotic_alternative_relative_gibbs_free_energy_per_link
    (link_length : T) (link_stiffness : T) (force : T) (temperature : T) : T :=
  efjc_isotensional_asymptotic_alternative.relative_gibbs_free_energy_per_link link_length
      link_stiffness force temperature.

(* /repo/src/physics/single_chain/efjc/thermodynamics/isotensional/asymptotic/alternative/ex.rs:42-45 *)
Definition
    physics_single_chain_efjc_thermodynamics_isotensional_asymptotic_alternative_nondimensional_gibbs_free_energy
    (number_of_links : Z) (link_length : T) (hinge_mass : T) (nondimensional_link_stiffness : T)
    (nondimensional_force : T) (temperature : T) : T :=
  efjc_isotensional_asymptotic_alternative.nondimensional_gibbs_free_energy number_of_links
      link_length hinge_mass nondimensional_link_stiffness nondimensional_force temperature.

(* /repo/src/physics/single_chain/efjc/thermodynamics/isotensional/asymptotic/alternative/ex.rs:47-50 *)
Definition
    physics_single_chain_efjc_thermodynamics_isotensional_asymptotic_alternative_nondimensional_gibbs_free_energy_per_link
    (link_length : T) (hinge_mass : T) (nondimensional_link_stiffness : T) (nondimensional_force :
    T) (temperature : T) : T :=
  efjc_isotensional_asymptotic_alternative.nondimensional_gibbs_free_energy_per_link link_length
      hinge_mass nondimensional_link_stiffness nondimensional_force temperature.

(* /repo/src/physics/single_chain/efjc/thermodynamics/isotensional/asymptotic/alternative/ex.rs:52-55 *)
Definition
    physics_single_chain_efjc_thermodynamics_isotensional_asymptotic_alternative_nondimensional_relative_gibbs_free_energy
    (number_of_links : Z) (nondimensional_link_stiffness : T) (nondimensional_force : T) : T :=
  efjc_isotensional_asymptotic_alternative.nondimensional_relative_gibbs_free_energy number_of_links
      nondimensional_link_stiffness nondimensional_force.

(* /repo/src/physics/single_chain/efjc/thermodynamics/isotensional/asymptotic/alternative/ex.rs:57-60 *)
Definition
    physics_single_chain_efjc_thermodynamics_isotensional_asymptotic_alternative_nondimensional_relative_gibbs_free_energy_per_link
    (nondimensional_link_stiffness : T) (nondimensional_force : T) : T :=
  efjc_isotensional_asymptotic_alternative.nondimensional_relative_gibbs_free_energy_per_link
      nondimensional_link_stiffness nondimensional_force.

(* /repo/src/physics/single_chain/efjc/thermodynamics/isotensional/asymptotic/alternative/legendre/ex.rs:2-5 *)
Definition
    physics_single_chain_efjc_thermodynamics_isotensional_asymptotic_alternative_legendre_helmholtz_free_energy
    (number_of_links : Z) (link_length : T) (hinge_mass : T) (link_stiffness : T) (force : T)
    (temperature : T) : T :=
  efjc_isotensional_asymptotic_alternative_legendre.helmholtz_free_energy number_of_links
      link_length hinge_mass link_stiffness force temperature.

(* /repo/src/physics/single_chain/efjc/thermodynamics/isotensional/asymptotic/alternative/legendre/ex.rs:7-10 *)
Definition
    physics_single_chain_efjc_thermodynamics_isotensional_asymptotic_alternative_legendre_helmholtz_free_energy_per_link
    (link_length : T) (hinge_mass : T) (link_stiffness : T) (force : T) (temperature : T) : T :=
  efjc_isotensional_asymptotic_alternative_legendre.helmholtz_free_energy_per_link link_length
      hinge_mass link_stiffness force temperature.

(* /repo/src/physics/single_chain/efjc/thermodynamics/isotensional/asymptotic/alternative/legendre/ex.rs:12-15 *)
Definition
    physics_single_chain_efjc_thermodynamics_isotensional_asymptotic_alternative_legendre_relative_helmholtz_free_energy
    (number_of_links : Z) (link_length : T) (link_stiffness : T) (force : T) (temperature : T) : T
    :=
  efjc_isotensional_asymptotic_alternative_legendre.relative_helmholtz_free_energy number_of_links
      link_length link_stiffness force temperature.

(* /repo/src/physics/single_chain/efjc/thermodynamics/isotensional/asymptotic/alternative/legendre/ex.rs:17-20 *)
Definition
    physics_single_chain_efjc_thermodynamics_isotensional_asymptotic_alternative_legendre_relative_helmholtz_free_energy_per_link
    (link_length : T) (link_stiffness : T) (force : T) (temperature : T) : T :=
  efjc_isotensional_asymptotic_alternative_legendre.relative_helmholtz_free_energy_per_link
      link_length link_stiffness force temperature.

(* /repo/src/physics/single_chain/efjc/thermodynamics/isotensional/asymptotic/alternative/legendre/ex.rs:22-25 *)
Definition
    physics_single_chain_efjc_thermodynamics_isotensional_asymptotic_alternative_legendre_nondimensional_helmholtz_free_energy
    (number_of_links : Z) (link_length : T) (hinge_mass : T) (nondimensional_link_stiffness : T)
    (nondimensional_force : T) (temperature : T) : T :=
  efjc_isotensional_asymptotic_alternative_legendre.nondimensional_helmholtz_free_energy
      number_of_links link_length hinge_mass nondimensional_link_stiffness nondimensional_force
      temperature.

(* /repo/src/physics/single_chain/efjc/thermodynamics/isotensional/asymptotic/alternative/legendre/ex.rs:27-30 *)
Definition
    physics_single_chain_efjc_thermodynamics_isotensional_asymptotic_alternative_legendre_nondimensional_helmholtz_free_energy_per_link
    (link_length : T) (hinge_mass : T) (nondimensional_link_stiffness : T) (nondimensional_force :
    T) (temperature : T) : T :=
  efjc_isotensional_asymptotic_alternative_legendre.nondimensional_helmholtz_free_energy_per_link
      link_length hinge_mass nondimensional_link_stiffness nondimensional_force temperature.

(* /repo/src/physics/single_chain/efjc/thermodynamics/isotensional/asymptotic/alternative/legendre/ex.rs:32-35 *)
Definition
    physics_single_chain_efjc_thermodynamics_isotensional_asymptotic_alternative_legendre_nondimensional_relative_helmholtz_free_energy
    (number_of_links : Z) (nondimensional_link_stiffness : T) (nondimensional_force : T) : T :=
  efjc_isotensional_asymptotic_alternative_legendre.nondimensional_relative_helmholtz_free_energy
      number_of_links nondimensional_link_stiffness nondimensional_force.

(* /repo/src/physics/single_chain/efjc/thermodynamics/isotensional/asymptotic/alternative/legendre/ex.rs:37-40 *)
Definition
    physics_single_chain_efjc_thermodynamics_isotensional_asymptotic_alternative_legendre_nondimensional_relative_helmholtz_free_energy_per_link
    (nondimensional_link_stiffness : T) (nondimensional_force : T) : T :=
  efjc_isotensional_asymptotic_alternative_legendre.nondimensional_relative_helmholtz_free_energy_per_link
      nondimensional_link_stiffness nondimensional_force.

(* /repo/src/physics/single_chain/efjc/thermodynamics/isotensional/asymptotic/legendre/ex.rs:2-5 *)
Definition
    physics_single_chain_efjc_thermodynamics_isotensional_asymptotic_legendre_helmholtz_free_energy
    (number_of_links : Z) (link_length : T) (hinge_mass : T) (link_stiffness : T) (force : T)
    (temperature : T) : T :=
  efjc_isotensional_asymptotic_legendre.helmholtz_free_energy number_of_links link_length hinge_mass
      link_stiffness force temperature.

(* /repo/src/physics/single_chain/efjc/thermodynamics/isotensional/asymptotic/legendre/ex.rs:7-10 *)
Definition
    physics_single_chain_efjc_thermodynamics_isotensional_asymptotic_legendre_helmholtz_free_energy_per_link
    (link_length : T) (hinge_mass : T) (link_stiffness : T) (force : T) (temperature : T) : T :=
  efjc_isotensional_asymptotic_legendre.helmholtz_free_energy_per_link link_length hinge_mass
      link_stiffness force temperature.

(* /repo/src/physics/single_chain/efjc/thermodynamics/isotensional/asymptotic/legendre/ex.rs:12-15 *)
Definition
    physics_single_chain_efjc_thermodynamics_isotensional_asymptotic_legendre_relative_helmholtz_free_energy
    (number_of_links : Z) (link_length : T) (link_stiffness : T) (force : T) (temperature : T) : T
    :=
  efjc_isotensional_asymptotic_legendre.relative_helmholtz_free_energy number_of_links link_length
      link_stiffness force temperature.

(* /repo/src/physics/single_chain/efjc/thermodynamics/isotensional/asymptotic/legendre/ex.rs:17-20 *)
Definition
    physics_single_chain_efjc_thermodynamics_isotensional_asymptotic_legendre_relative_helmholtz_free_energy_per_link
    (link_length : T) (link_stiffness : T) (force : T) (temperature : T) : T :=
  efjc_isotensional_asymptotic_legendre.relative_helmholtz_free_energy_per_link link_length
      link_stiffness force temperature.

(* /repo/src/physics/single_chain/efjc/thermodynamics/isotensional/asymptotic/legendre/ex.rs:22-25 *)
Definition
    physics_single_chain_efjc_thermodynamics_isotensional_asymptotic_legendre_nondimensional_helmholtz_free_energy
    (number_of_links : Z) (link_length : T) (hinge_mass : T) (nondimensional_link_stiffness : T)
    (nondimensional_force : T) (temperature : T) : T :=
  efjc_isotensional_asymptotic_legendre.nondimensional_helmholtz_free_energy number_of_links
      link_length hinge_mass nondimensional_link_stiffness nondimensional_force temperature.

(* /repo/src/physics/single_chain/efjc/thermodynamics/isotensional/asymptotic/legendre/ex.rs:27-30 *)
Definition
    physics_single_chain_efjc_thermodynamics_isotensional_asymptotic_legendre_nondimensional_helmholtz_free_energy_per_link
    (link_length : T) (hinge_mass : T) (nondimensional_link_stiffness : T) (nondimensional_force :
    T) (temperature : T) : T :=
  efjc_isotensional_asymptotic_legendre.nondimensional_helmholtz_free_energy_per_link link_length
      hinge_mass nondimensional_link_stiffness nondimensional_force temperature.

(* /repo/src/physics/single_chain/efjc/thermodynamics/isotensional/asymptotic/legendre/ex.rs:32-35 *)
Definition
    physics_single_chain_efjc_thermodynamics_isotensional_asymptotic_legendre_nondimensional_relative_helmholtz_free_energy
    (number_of_links : Z) (nondimensional_link_stiffness : T) (nondimensional_force : T) : T :=
  efjc_isotensional_asymptotic_legendre.nondimensional_relative_helmholtz_free_energy
      number_of_links nondimensional_link_stiffness nondimensional_force.

(* /repo/src/physics/single_chain/efjc/thermodynamics/isotensional/asymptotic/legendre/ex.rs:37-40 *)
Definition
    physics_single_chain_efjc_thermodynamics_isotensional_asymptotic_legendre_nondimensional_relative_helmholtz_free_energy_per_link
    (nondimensional_link_stiffness : T) (nondimensional_force : T) : T :=
  efjc_isotensional_asymptotic_legendre.nondimensional_relative_helmholtz_free_energy_per_link
      nondimensional_link_stiffness nondimensional_force.

(* /repo/src/physics/single_chain/efjc/thermodynamics/isotensional/asymptotic/reduced/ex.rs:2-5 *)
Definition
    physics_single_chain_efjc_thermodynamics_isotensional_asymptotic_reduced_end_to_end_length
    (number_of_links : Z) (link_length : T) (link_stiffness : T) (force : T) (temperature : T) : T
    :=
  efjc_isotensional_asymptotic_reduced.end_to_end_length number_of_links link_length link_stiffness
      force temperature.

(* /repo/src/physics/single_chain/efjc/thermodynamics/isotensional/asymptotic/reduced/ex.rs:7-10 *)
Definition
    physics_single_chain_efjc_thermodynamics_isotensional_asymptotic_reduced_end_to_end_length_per_link
    (link_length : T) (link_stiffness : T) (force : T) (temperature : T) : T :=
  efjc_isotensional_asymptotic_reduced.end_to_end_length_per_link link_length link_stiffness force
      temperature.

(* /repo/src/physics/single_chain/efjc/thermodynamics/isotensional/asymptotic/reduced/ex.rs:12-15 *)
Definition
    physics_single_chain_efjc_thermodynamics_isotensional_asymptotic_reduced_nondimensional_end_to_end_length
    (number_of_links : Z) (nondimensional_link_stiffness : T) (nondimensional_force : T) : T :=
  efjc_isotensional_asymptotic_reduced.nondimensional_end_to_end_length number_of_links
      nondimensional_link_stiffness nondimensional_force.

(* /repo/src/physics/single_chain/efjc/thermodynamics/isotensional/asymptotic/reduced/ex.rs:17-20 *)
Definition
    physics_single_chain_efjc_thermodynamics_isotensional_asymptotic_reduced_nondimensional_end_to_end_length_per_link
    (nondimensional_link_stiffness : T) (nondimensional_force : T) : T :=
  efjc_isotensional_asymptotic_reduced.nondimensional_end_to_end_length_per_link
      nondimensional_link_stiffness nondimensional_force.

(* /repo/src/physics/single_chain/efjc/thermodynamics/isotensional/asymptotic/reduced/ex.rs:22-25 *)
Definition
    physics_single_chain_efjc_thermodynamics_isotensional_asymptotic_reduced_gibbs_free_energy
    (number_of_links : Z) (link_length : T) (hinge_mass : T) (link_stiffness : T) (force : T)
    (temperature : T) : T :=
  efjc_isotensional_asymptotic_reduced.gibbs_free_energy number_of_links link_length hinge_mass
      link_stiffness force temperature.

(* /repo/src/physics/single_chain/efjc/thermodynamics/isotensional/asymptotic/reduced/ex.rs:27-30 *)
Definition
    physics_single_chain_efjc_thermodynamics_isotensional_asymptotic_reduced_gibbs_free_energy_per_link
    (link_length : T) (hinge_mass : T) (link_stiffness : T) (force : T) (temperature : T) : T :=
  efjc_isotensional_asymptotic_reduced.gibbs_free_energy_per_link link_length hinge_mass
      link_stiffness force temperature.

(* /repo/src/physics/single_chain/efjc/thermodynamics/isotensional/asymptotic/reduced/ex.rs:32-35 *)
Definition
    physics_single_chain_efjc_thermodynamics_isotensional_asymptotic_reduced_relative_gibbs_free_energy
    (number_of_links : Z) (link_length : T) (link_stiffness : T) (force : T) (temperature : T) : T
    :=
  efjc_isotensional_asymptotic_reduced.relative_gibbs_free_energy number_of_links link_length
      link_stiffness force temperature.

(* /repo/src/physics/single_chain/efjc/thermodynamics/isotensional/asymptotic/reduced/ex.rs:37-40 *)
Definition
    physics_single_chain_efjc_thermodynamics_isotensional_asymptotic_reduced_relative_gibbs_free_energy_per_link
    (link_length : T) (link_stiffness : T) (force : T) (temperature : T) : T :=
  efjc_isotensional_asymptotic_reduced.relative_gibbs_free_energy_per_link link_length
      link_stiffness force temperature.

(* /repo/src/physics/single_chain/efjc/thermodynamics/isotensional/asymptotic/reduced/ex.rs:42-45 *)
Definition
    physics_single_chain_efjc_thermodynamics_isotensional_asymptotic_reduced_nondimensional_gibbs_free_energy
    (number_of_links : Z) (link_length : T) (hinge_mass : T) (nondimensional_link_stiffness : T)
    (nondimensional_force : T) (temperature : T) : T :=
  efjc_isotensional_asymptotic_reduced.nondimensional_gibbs_free_energy number_of_links link_length
      hinge_mass nondimensional_link_stiffness nondimensional_force temperature.

(* /repo/src/physics/single_chain/efjc/thermodynamics/isotensional/asymptotic/reduced/ex.rs:47-50 *)
Definition
    physics_single_chain_efjc_thermodynamics_isotensional_asymptotic_reduced_nondimensional_gibbs_free_energy_per_link
    (link_length : T) (hinge_mass : T) (nondimensional_link_stiffness : T) (nondimensional_force :
    T) (temperature : T) : T :=
  efjc_isotensional_asymptotic_reduced.nondimensional_gibbs_free_energy_per_link link_length
      hinge_mass nondimensional_link_stiffness nondimensional_force temperature.

(* /repo/src/physics/single_chain/efjc/thermodynamics/isotensional/asymptotic/reduced/ex.rs:52-55 *)
Definition
    physics_single_chain_efjc_thermodynamics_isotensional_asymptotic_reduced_nondimensional_relative_gibbs_free_energy
    (number_of_links : Z) (nondimensional_link_stiffness : T) (nondimensional_force : T) : T :=
  efjc_isotensional_asymptotic_reduced.nondimensional_relative_gibbs_free_energy number_of_links
      nondimensional_link_stiffness nondimensional_force.

(* /repo/src/physics/single_chain/efjc/thermodynamics/isotensional/asymptotic/reduced/ex.rs:57-60 *)
Definition
    physics_single_chain_efjc_thermodynamics_isotensional_asymptotic_reduced_nondimensional_relative_gibbs_free_energy_per_link
    (nondimensional_link_stiffness : T) (nondimensional_force : T) : T :=
  efjc_isotensional_asymptotic_reduced.nondimensional_relative_gibbs_free_energy_per_link
      nondimensional_link_stiffness nondimensional_force.

(* /repo/src/physics/single_chain/efjc/thermodynamics/isotensional/asymptotic/reduced/legendre/ex.rs:2-5 *)
Definition
    physics_single_chain_efjc_thermodynamics_isotensional_asymptotic_reduced_legendre_helmholtz_free_energy
    (number_of_links : Z) (link_length : T) (hinge_mass : T) (link_stiffness : T) (force : T)
    (temperature : T) : T :=
  efjc_isotensional_asymptotic_reduced_legendre.helmholtz_free_energy number_of_links link_length
      hinge_mass link_stiffness force temperature.

(* /repo/src/physics/single_chain/efjc/thermodynamics/isotensional/asymptotic/reduced/legendre/ex.rs:7-10 *)
Definition
    physics_single_chain_efjc_thermodynamics_isotensional_asymptotic_reduced_legendre_helmholtz_free_energy_per_link
    (link_length : T) (hinge_mass : T) (link_stiffness : T) (force : T) (temperature : T) : T :=
  efjc_isotensional_asymptotic_reduced_legendre.helmholtz_free_energy_per_link link_length
      hinge_mass link_stiffness force temperature.

(* /repo/src/physics/single_chain/efjc/thermodynamics/isotensional/asymptotic/reduced/legendre/ex.rs:12-15 *)
Definition
    physics_single_chain_efjc_thermodynamics_isotensional_asymptotic_reduced_legendre_relative_helmholtz_free_energy
    (number_of_links : Z) (link_length : T) (link_stiffness : T) (force : T) (temperature : T) : T
    :=
  efjc_isotensional_asymptotic_reduced_legendre.relative_helmholtz_free_energy number_of_links
      link_length link_stiffness force temperature.

(* /repo/src/physics/single_chain/efjc/thermodynamics/isotensional/asymptotic/reduced/legendre/ex.rs:17-20 *)
Definition
    physics_single_chain_efjc_thermodynamics_isotensional_asymptotic_reduced_legendre_relative_helmholtz_free_energy_per_link
    (link_length : T) (link_stiffness : T) (force : T) (temperature : T) : T :=
  efjc_isotensional_asymptotic_reduced_legendre.relative_helmholtz_free_energy_per_link link_length
      link_stiffness force temperature.

(* /repo/src/physics/single_chain/efjc/thermodynamics/isotensional/asymptotic/reduced/legendre/ex.rs:22-25 *)
Definition
    physics_single_chain_efjc_thermodynamics_isotensional_asymptotic_reduced_legendre_nondimensional_helmholtz_free_energy
    (number_of_links : Z) (link_length : T) (hinge_mass : T) (nondimensional_link_stiffness : T)
    (nondimensional_force : T) (temperature : T) : T :=
  efjc_isotensional_asymptotic_reduced_legendre.nondimensional_helmholtz_free_energy number_of_links
      link_length hinge_mass nondimensional_link_stiffness nondimensional_force temperature.

(* /repo/src/physics/single_chain/efjc/thermodynamics/isotensional/asymptotic/reduced/legendre/ex.rs:27-30 *)
Definition
    physics_single_chain_efjc_thermodynamics_isotensional_asymptotic_reduced_legendre_nondimensional_helmholtz_free_energy_per_link
    (link_length : T) (hinge_mass : T) (nondimensional_link_stiffness : T) (nondimensional_force :
    T) (temperature : T) : T :=
  efjc_isotensional_asymptotic_reduced_legendre.nondimensional_helmholtz_free_energy_per_link
      link_length hinge_mass nondimensional_link_stiffness nondimensional_force temperature.

(* /repo/src/physics/single_chain/efjc/thermodynamics/isotensional/asymptotic/reduced/legendre/ex.rs:32-35 *)
Definition
    physics_single_chain_efjc_thermodynamics_isotensional_asymptotic_reduced_legendre_nondimensional_relative_helmholtz_free_energy
    (number_of_links : Z) (nondimensional_link_stiffness : T) (nondimensional_force : T) : T :=
  efjc_isotensional_asymptotic_reduced_legendre.nondimensional_relative_helmholtz_free_energy
      number_of_links nondimensional_link_stiffness nondimensional_force.

(* /repo/src/physics/single_chain/efjc/thermodynamics/isotensional/asymptotic/reduced/legendre/ex.rs:37-40 *)
Definition
    physics_single_chain_efjc_thermodynamics_isotensional_asymptotic_reduced_legendre_nondimensional_relative_helmholtz_free_energy_per_link
    (nondimensional_link_stiffness : T) (nondimensional_force : T) : T :=
  efjc_isotensional_asymptotic_reduced_legendre.nondimensional_relative_helmholtz_free_energy_per_link
      nondimensional_link_stiffness nondimensional_force.

(* /repo/src/physics/single_chain/efjc/thermodynamics/isotensional/legendre/ex.rs:2-5 *)
Definition physics_single_chain_efjc_thermodynamics_isotensional_legendre_helmholtz_free_energy
    (number_of_links : Z) (link_length : T) (hinge_mass : T) (link_stiffness : T) (force : T)
    (temperature : T) : T :=
  efjc_isotensional_legendre.helmholtz_free_energy number_of_links link_length hinge_mass
      link_stiffness force temperature.

(* /repo/src/physics/single_chain/efjc/thermodynamics/isotensional/legendre/ex.rs:7-10 *)
Definition
    physics_single_chain_efjc_thermodynamics_isotensional_legendre_helmholtz_free_energy_per_link
    (link_length : T) (hinge_mass : T) (link_stiffness : T) (force : T) (temperature : T) : T :=
  efjc_isotensional_legendre.helmholtz_free_energy_per_link link_length hinge_mass link_stiffness
      force temperature.

(* /repo/src/physics/single_chain/efjc/thermodynamics/isotensional/legendre/ex.rs:12-15 *)
Definition
    physics_single_chain_efjc_thermodynamics_isotensional_legendre_relative_helmholtz_free_energy
    (number_of_links : Z) (link_length : T) (link_stiffness : T) (force : T) (temperature : T) : T
    :=
  efjc_isotensional_legendre.relative_helmholtz_free_energy number_of_links link_length
      link_stiffness force temperature.

(* /repo/src/physics/single_chain/efjc/thermodynamics/isotensional/legendre/ex.rs:17-20 *)
Definition
    physics_single_chain_efjc_thermodynamics_isotensional_legendre_relative_helmholtz_free_energy_per_link
    (link_length : T) (link_stiffness : T) (force : T) (temperature : T) : T :=
  efjc_isotensional_legendre.relative_helmholtz_free_energy_per_link link_length link_stiffness
      force temperature.

(* /repo/src/physics/single_chain/efjc/thermodynamics/isotensional/legendre/ex.rs:22-25 *)
Definition
    physics_single_chain_efjc_thermodynamics_isotensional_legendre_nondimensional_helmholtz_free_energy
    (number_of_links : Z) (link_length : T) (hinge_mass : T) (nondimensional_link_stiffness : T)
    (nondimensional_force : T) (temperature : T) : T :=
  efjc_isotensional_legendre.nondimensional_helmholtz_free_energy number_of_links link_length
      hinge_mass nondimensional_link_stiffness nondimensional_force temperature.

(* /repo/src/physics/single_chain/efjc/thermodynamics/isotensional/legendre/ex.rs:27-30 *)
Definition
    physics_single_chain_efjc_thermodynamics_isotensional_legendre_nondimensional_helmholtz_free_energy_per_link
    (link_length : T) (hinge_mass : T) (nondimensional_link_stiffness : T) (nondimensional_force :
    T) (temperature : T) : T :=
  efjc_isotensional_legendre.nondimensional_helmholtz_free_energy_per_link link_length hinge_mass
      nondimensional_link_stiffness nondimensional_force temperature.

(* /repo/src/physics/single_chain/efjc/thermodynamics/isotensional/legendre/ex.rs:32-35 *)
Definition
    physics_single_chain_efjc_thermodynamics_isotensional_legendre_nondimensional_relative_helmholtz_free_energy
    (number_of_links : Z) (nondimensional_link_stiffness : T) (nondimensional_force : T) : T :=
  efjc_isotensional_legendre.nondimensional_relative_helmholtz_free_energy number_of_links
      nondimensional_link_stiffness nondimensional_force.

(* /repo/src/physics/single_chain/efjc/thermodynamics/isotensional/legendre/ex.rs:37-40 *)
Definition
    physics_single_chain_efjc_thermodynamics_isotensional_legendre_nondimensional_relative_helmholtz_free_energy_per_link
    (nondimensional_link_stiffness : T) (nondimensional_force : T) : T :=
  efjc_isotensional_legendre.nondimensional_relative_helmholtz_free_energy_per_link
      nondimensional_link_stiffness nondimensional_force.

(* /repo/src/physics/single_chain/fjc/thermodynamics/isometric/ex.rs:2-5 *)
Definition physics_single_chain_fjc_thermodynamics_isometric_force (prof : profile) (number_of_links
    : Z) (link_length : T) (end_to_end_length : T) (temperature : T) : option T :=
  fjc_isometric.force prof number_of_links link_length end_to_end_length temperature.

(* /repo/src/physics/single_chain/fjc/thermodynamics/isometric/ex.rs:7-10 *)
Definition physics_single_chain_fjc_thermodynamics_isometric_nondimensional_force (prof : profile)
    (number_of_links : Z) (nondimensional_end_to_end_length_per_link : T) : option T :=
  fjc_isometric.nondimensional_force prof number_of_links nondimensional_end_to_end_length_per_link.

(* /repo/src/physics/single_chain/fjc/thermodynamics/isometric/ex.rs:12-15 *)
Definition physics_single_chain_fjc_thermodynamics_isometric_helmholtz_free_energy (prof : profile)
    (number_of_links : Z) (link_length : T) (hinge_mass : T) (end_to_end_length : T) (temperature :
    T) : option T :=
  fjc_isometric.helmholtz_free_energy prof number_of_links link_length hinge_mass end_to_end_length
      temperature.

(* /repo/src/physics/single_chain/fjc/thermodynamics/isometric/ex.rs:17-20 *)
Definition physics_single_chain_fjc_thermodynamics_isometric_helmholtz_free_energy_per_link (prof :
    profile) (number_of_links : Z) (link_length : T) (hinge_mass : T) (end_to_end_length : T)
    (temperature : T) : option T :=
  fjc_isometric.helmholtz_free_energy_per_link prof number_of_links link_length hinge_mass
      end_to_end_length temperature.

(* /repo/src/physics/single_chain/fjc/thermodynamics/isometric/ex.rs:22-25 *)
Definition physics_single_chain_fjc_thermodynamics_isometric_relative_helmholtz_free_energy (prof :
    profile) (number_of_links : Z) (link_length : T) (end_to_end_length : T) (temperature : T) :
    option T :=
  fjc_isometric.relative_helmholtz_free_energy prof number_of_links link_length end_to_end_length
      temperature.

(* /repo/src/physics/single_chain/fjc/thermodynamics/isometric/ex.rs:27-30 *)
Definition physics_single_chain_fjc_thermodynamics_isometric_relative_helmholtz_free_energy_per_link
    (prof : profile) (number_of_links : Z) (link_length : T) (end_to_end_length : T) (temperature :
    T) : option T :=
  fjc_isometric.relative_helmholtz_free_energy_per_link prof number_of_links link_length
      end_to_end_length temperature.

(* /repo/src/physics/single_chain/fjc/thermodynamics/isometric/ex.rs:32-35 *)
Definition physics_single_chain_fjc_thermodynamics_isometric_nondimensional_helmholtz_free_energy
    (prof : profile) (number_of_links : Z) (link_length : T) (hinge_mass : T)
    (nondimensional_end_to_end_length_per_link : T) (temperature : T) : option T :=
  fjc_isometric.nondimensional_helmholtz_free_energy prof number_of_links link_length hinge_mass
      nondimensional_end_to_end_length_per_link temperature.

(* /repo/src/physics/single_chain/fjc/thermodynamics/isometric/ex.rs:37-40 *)
Definition
    physics_single_chain_fjc_thermodynamics_isometric_nondimensional_helmholtz_free_energy_per_link
    (prof : profile) (number_of_links : Z) (link_length : T) (hinge_mass : T)
    (nondimensional_end_to_end_length_per_link : T) (temperature : T) : option T :=
  fjc_isometric.nondimensional_helmholtz_free_energy_per_link prof number_of_links link_length
      hinge_mass nondimensional_end_to_end_length_per_link temperature.

(* /repo/src/physics/single_chain/fjc/thermodynamics/isometric/ex.rs:42-45 *)
Definition
    physics_single_chain_fjc_thermodynamics_isometric_nondimensional_relative_helmholtz_free_energy
    (prof : profile) (number_of_links : Z) (nondimensional_end_to_end_length_per_link : T) : option
    T :=
  fjc_isometric.nondimensional_relative_helmholtz_free_energy prof number_of_links
      nondimensional_end_to_end_length_per_link.

(* /repo/src/physics/single_chain/fjc/thermodynamics/isometric/ex.rs:47-50 *)
Definition
    physics_single_chain_fjc_thermodynamics_isometric_nondimensional_relative_helmholtz_free_energy_per_link
    (prof : profile) (number_of_links : Z) (nondimensional_end_to_end_length_per_link : T) : option
    T :=
  fjc_isometric.nondimensional_relative_helmholtz_free_energy_per_link prof number_of_links
      nondimensional_end_to_end_length_per_link.

(* /repo/src/physics/single_chain/fjc/thermodynamics/isometric/ex.rs:52-55 *)
Definition physics_single_chain_fjc_thermodynamics_isometric_equilibrium_distribution (prof :
    profile) (number_of_links : Z) (link_length : T) (end_to_end_length : T) : option T :=
  fjc_isometric.equilibrium_distribution prof number_of_links link_length end_to_end_length.

(* /repo/src/physics/single_chain/fjc/thermodynamics/isometric/ex.rs:57-60 *)
Definition physics_single_chain_fjc_thermodynamics_isometric_nondimensional_equilibrium_distribution
    (prof : profile) (number_of_links : Z) (nondimensional_end_to_end_length_per_link : T) : option
    T :=
  fjc_isometric.nondimensional_equilibrium_distribution prof number_of_links
      nondimensional_end_to_end_length_per_link.

(* /repo/src/physics/single_chain/fjc/thermodynamics/isometric/ex.rs:62-65 *)
Definition physics_single_chain_fjc_thermodynamics_isometric_equilibrium_radial_distribution (prof :
    profile) (number_of_links : Z) (link_length : T) (end_to_end_length : T) : option T :=
  fjc_isometric.equilibrium_radial_distribution prof number_of_links link_length end_to_end_length.

(* /repo/src/physics/single_chain/fjc/thermodynamics/isometric/ex.rs:67-70 *)
Definition
    physics_single_chain_fjc_thermodynamics_isometric_nondimensional_equilibrium_radial_distribution
    (prof : profile) (number_of_links : Z) (nondimensional_end_to_end_length_per_link : T) : option
    T :=
  fjc_isometric.nondimensional_equilibrium_radial_distribution prof number_of_links
      nondimensional_end_to_end_length_per_link.

(* /repo/src/physics/single_chain/fjc/thermodynamics/isometric/legendre/ex.rs:2-5 *)
Definition physics_single_chain_fjc_thermodynamics_isometric_legendre_force (number_of_links : Z)
    (link_length : T) (end_to_end_length : T) (temperature : T) : T :=
  fjc_isometric_legendre.force number_of_links link_length end_to_end_length temperature.

(* /repo/src/physics/single_chain/fjc/thermodynamics/isometric/legendre/ex.rs:7-10 *)
Definition physics_single_chain_fjc_thermodynamics_isometric_legendre_nondimensional_force
    (nondimensional_end_to_end_length_per_link : T) : T :=
  fjc_isometric_legendre.nondimensional_force nondimensional_end_to_end_length_per_link.

(* /repo/src/physics/single_chain/fjc/thermodynamics/isometric/legendre/ex.rs:12-15 *)
Definition physics_single_chain_fjc_thermodynamics_isometric_legendre_helmholtz_free_energy
    (number_of_links : Z) (link_length : T) (hinge_mass : T) (end_to_end_length : T) (temperature :
    T) : T :=
  fjc_isometric_legendre.helmholtz_free_energy number_of_links link_length hinge_mass
      end_to_end_length temperature.

(* /repo/src/physics/single_chain/fjc/thermodynamics/isometric/legendre/ex.rs:17-20 *)
Definition physics_single_chain_fjc_thermodynamics_isometric_legendre_helmholtz_free_energy_per_link
    (number_of_links : Z) (link_length : T) (hinge_mass : T) (end_to_end_length : T) (temperature :
    T) : T :=
  fjc_isometric_legendre.helmholtz_free_energy_per_link number_of_links link_length hinge_mass
      end_to_end_length temperature.

(* /repo/src/physics/single_chain/fjc/thermodynamics/isometric/legendre/ex.rs:22-25 *)
Definition physics_single_chain_fjc_thermodynamics_isometric_legendre_relative_helmholtz_free_energy
    (number_of_links : Z) (link_length : T) (end_to_end_length : T) (temperature : T) : T :=
  fjc_isometric_legendre.relative_helmholtz_free_energy number_of_links link_length
      end_to_end_length temperature.

(* /repo/src/physics/single_chain/fjc/thermodynamics/isometric/legendre/ex.rs:27-30 *)
Definition
    physics_single_chain_fjc_thermodynamics_isometric_legendre_relative_helmholtz_free_energy_per_link
    (number_of_links : Z) (link_length : T) (end_to_end_length : T) (temperature : T) : T :=
  fjc_isometric_legendre.relative_helmholtz_free_energy_per_link number_of_links link_length
      end_to_end_length temperature.

(* /repo/src/physics/single_chain/fjc/thermodynamics/isometric/legendre/ex.rs:32-35 *)
Definition
    physics_single_chain_fjc_thermodynamics_isometric_legendre_nondimensional_helmholtz_free_energy
    (number_of_links : Z) (link_length : T) (hinge_mass : T)
    (nondimensional_end_to_end_length_per_link : T) (temperature : T) : T :=
  fjc_isometric_legendre.nondimensional_helmholtz_free_energy number_of_links link_length hinge_mass
      nondimensional_end_to_end_length_per_link temperature.

(* /repo/src/physics/single_chain/fjc/thermodynamics/isometric/legendre/ex.rs:37-40 *)
Definition
    physics_single_chain_fjc_thermodynamics_isometric_legendre_nondimensional_helmholtz_free_energy_per_link
    (number_of_links : Z) (link_length : T) (hinge_mass : T)
    (nondimensional_end_to_end_length_per_link : T) (temperature : T) : T :=
  fjc_isometric_legendre.nondimensional_helmholtz_free_energy_per_link number_of_links link_length
      hinge_mass nondimensional_end_to_end_length_per_link temperature.

(* /repo/src/physics/single_chain/fjc/thermodynamics/isometric/legendre/ex.rs:42-45 *)
Definition
    physics_single_chain_fjc_thermodynamics_isometric_legendre_nondimensional_relative_helmholtz_free_energy
    (number_of_links : Z) (nondimensional_end_to_end_length_per_link : T) : T :=
  fjc_isometric_legendre.nondimensional_relative_helmholtz_free_energy number_of_links
      nondimensional_end_to_end_length_per_link.

(* /repo/src/physics/single_chain/fjc/thermodynamics/isometric/legendre/ex.rs:47-50 *)
Definition
    physics_single_chain_fjc_thermodynamics_isometric_legendre_nondimensional_relative_helmholtz_free_energy_per_link
    (nondimensional_end_to_end_length_per_link : T) : T :=
  fjc_isometric_legendre.nondimensional_relative_helmholtz_free_energy_per_link
      nondimensional_end_to_end_length_per_link.

(* /repo/src/physics/single_chain/fjc/thermodynamics/isometric/legendre/ex.rs:52-55 *)
Definition physics_single_chain_fjc_thermodynamics_isometric_legendre_equilibrium_distribution
    (number_of_links : Z) (link_length : T) (normalization_nondimensional_equilibrium_distribution :
    T) (end_to_end_length : T) : T :=
  fjc_isometric_legendre.equilibrium_distribution number_of_links link_length
      normalization_nondimensional_equilibrium_distribution end_to_end_length.

(* /repo/src/physics/single_chain/fjc/thermodynamics/isometric/legendre/ex.rs:57-60 *)
Definition
    physics_single_chain_fjc_thermodynamics_isometric_legendre_nondimensional_equilibrium_distribution
    (number_of_links : Z) (normalization_nondimensional_equilibrium_distribution : T)
    (nondimensional_end_to_end_length_per_link : T) : T :=
  fjc_isometric_legendre.nondimensional_equilibrium_distribution number_of_links
      normalization_nondimensional_equilibrium_distribution
      nondimensional_end_to_end_length_per_link.

(* /repo/src/physics/single_chain/fjc/thermodynamics/isometric/legendre/ex.rs:62-65 *)
Definition
    physics_single_chain_fjc_thermodynamics_isometric_legendre_equilibrium_radial_distribution
    (number_of_links : Z) (link_length : T) (normalization_nondimensional_equilibrium_distribution :
    T) (end_to_end_length : T) : T :=
  fjc_isometric_legendre.equilibrium_radial_distribution number_of_links link_length
      normalization_nondimensional_equilibrium_distribution end_to_end_length.

(* /repo/src/physics/single_chain/fjc/thermodynamics/isometric/legendre/ex.rs:67-70 *)
Definition
    physics_single_chain_fjc_thermodynamics_isometric_legendre_nondimensional_equilibrium_radial_distribution
    (number_of_links : Z) (normalization_nondimensional_equilibrium_distribution : T)
    (nondimensional_end_to_end_length_per_link : T) : T :=
  fjc_isometric_legendre.nondimensional_equilibrium_radial_distribution number_of_links
      normalization_nondimensional_equilibrium_distribution
      nondimensional_end_to_end_length_per_link.

(* /repo/src/physics/single_chain/fjc/thermodynamics/isometric/legendre/ex.rs:72-75 *)
Definition physics_single_chain_fjc_thermodynamics_isometric_legendre_gibbs_free_energy (prof :
    profile) (number_of_links : Z) (link_length : T) (hinge_mass : T) (end_to_end_length : T)
    (temperature : T) : option T :=
  fjc_isometric_legendre.gibbs_free_energy prof number_of_links link_length hinge_mass
      end_to_end_length temperature.

(* /repo/src/physics/single_chain/fjc/thermodynamics/isometric/legendre/ex.rs:77-80 *)
Definition physics_single_chain_fjc_thermodynamics_isometric_legendre_gibbs_free_energy_per_link
    (prof : profile) (number_of_links : Z) (link_length : T) (hinge_mass : T) (end_to_end_length :
    T) (temperature : T) : option T :=
  fjc_isometric_legendre.gibbs_free_energy_per_link prof number_of_links link_length hinge_mass
      end_to_end_length temperature.

(* /repo/src/physics/single_chain/fjc/thermodynamics/isometric/legendre/ex.rs:82-85 *)
Definition physics_single_chain_fjc_thermodynamics_isometric_legendre_relative_gibbs_free_energy
    (prof : profile) (number_of_links : Z) (link_length : T) (end_to_end_length : T) (temperature :
    T) : option T :=
  fjc_isometric_legendre.relative_gibbs_free_energy prof number_of_links link_length
      end_to_end_length temperature.

(* /repo/src/physics/single_chain/fjc/thermodynamics/isometric/legendre/ex.rs:87-90 *)
Definition
    physics_single_chain_fjc_thermodynamics_isometric_legendre_relative_gibbs_free_energy_per_link
    (prof : profile) (number_of_links : Z) (link_length : T) (end_to_end_length : T) (temperature :
    T) : option T :=
  fjc_isometric_legendre.relative_gibbs_free_energy_per_link prof number_of_links link_length
      end_to_end_length temperature.

(* /repo/src/physics/single_chain/fjc/thermodynamics/isometric/legendre/ex.rs:92-95 *)
Definition
    physics_single_chain_fjc_thermodynamics_isometric_legendre_nondimensional_gibbs_free_energy
    (prof : profile) (number_of_links : Z) (link_length : T) (hinge_mass : T)
    (nondimensional_end_to_end_length_per_link : T) (temperature : T) : option T :=
  fjc_isometric_legendre.nondimensional_gibbs_free_energy prof number_of_links link_length
      hinge_mass nondimensional_end_to_end_length_per_link temperature.

(* /repo/src/physics/single_chain/fjc/thermodynamics/isometric/legendre/ex.rs:97-100 *)
Definition
    physics_single_chain_fjc_thermodynamics_isometric_legendre_nondimensional_gibbs_free_energy_per_link
    (prof : profile) (number_of_links : Z) (link_length : T) (hinge_mass : T)
    (nondimensional_end_to_end_length_per_link : T) (temperature : T) : option T :=
  fjc_isometric_legendre.nondimensional_gibbs_free_energy_per_link prof number_of_links link_length
      hinge_mass nondimensional_end_to_end_length_per_link temperature.

(* /repo/src/physics/single_chain/fjc/thermodynamics/isometric/legendre/ex.rs:102-105 *)
Definition
    physics_single_chain_fjc_thermodynamics_isometric_legendre_nondimensional_relative_gibbs_free_energy
    (prof : profile) (number_of_links : Z) (nondimensional_end_to_end_length_per_link : T) : option
    T :=
  fjc_isometric_legendre.nondimensional_relative_gibbs_free_energy prof number_of_links
      nondimensional_end_to_end_length_per_link.

(* /repo/src/physics/single_chain/fjc/thermodynamics/isometric/legendre/ex.rs:107-110 *)
Definition
    physics_single_chain_fjc_thermodynamics_isometric_legendre_nondimensional_relative_gibbs_free_energy_per_link
    (prof : profile) (number_of_links : Z) (nondimensional_end_to_end_length_per_link : T) : option
    T :=
  fjc_isometric_legendre.nondimensional_relative_gibbs_free_energy_per_link prof number_of_links
      nondimensional_end_to_end_length_per_link.

(* /repo/src/physics/single_chain/fjc/thermodynamics/isotensional/ex.rs:2-5 *)
Definition physics_single_chain_fjc_thermodynamics_isotensional_end_to_end_length (number_of_links :
    Z) (link_length : T) (force : T) (temperature : T) : T :=
  fjc_isotensional.end_to_end_length number_of_links link_length force temperature.

(* /repo/src/physics/single_chain/fjc/thermodynamics/isotensional/ex.rs:7-10 *)
Definition physics_single_chain_fjc_thermodynamics_isotensional_end_to_end_length_per_link
    (link_length : T) (force : T) (temperature : T) : T :=
  fjc_isotensional.end_to_end_length_per_link link_length force temperature.

(* /repo/src/physics/single_chain/fjc/thermodynamics/isotensional/ex.rs:12-15 *)
Definition physics_single_chain_fjc_thermodynamics_isotensional_nondimensional_end_to_end_length
    (number_of_links : Z) (nondimensional_force : T) : T :=
  fjc_isotensional.nondimensional_end_to_end_length number_of_links nondimensional_force.

(* /repo/src/physics/single_chain/fjc/thermodynamics/isotensional/ex.rs:17-20 *)
Definition
    physics_single_chain_fjc_thermodynamics_isotensional_nondimensional_end_to_end_length_per_link
    (nondimensional_force : T) : T :=
  fjc_isotensional.nondimensional_end_to_end_length_per_link nondimensional_force.

(* /repo/src/physics/single_chain/fjc/thermodynamics/isotensional/ex.rs:22-25 *)
Definition physics_single_chain_fjc_thermodynamics_isotensional_gibbs_free_energy (number_of_links :
    Z) (link_length : T) (hinge_mass : T) (force : T) (temperature : T) : T :=
  fjc_isotensional.gibbs_free_energy number_of_links link_length hinge_mass force temperature.

(* /repo/src/physics/single_chain/fjc/thermodynamics/isotensional/ex.rs:27-30 *)
Definition physics_single_chain_fjc_thermodynamics_isotensional_gibbs_free_energy_per_link
    (link_length : T) (hinge_mass : T) (force : T) (temperature : T) : T :=
  fjc_isotensional.gibbs_free_energy_per_link link_length hinge_mass force temperature.

(* /repo/src/physics/single_chain/fjc/thermodynamics/isotensional/ex.rs:32-35 *)
Definition physics_single_chain_fjc_thermodynamics_isotensional_relative_gibbs_free_energy
    (number_of_links : Z) (link_length : T) (force : T) (temperature : T) : T :=
  fjc_isotensional.relative_gibbs_free_energy number_of_links link_length force temperature.

(* /repo/src/physics/single_chain/fjc/thermodynamics/isotensional/ex.rs:37-40 *)
Definition physics_single_chain_fjc_thermodynamics_isotensional_relative_gibbs_free_energy_per_link
    (link_length : T) (force : T) (temperature : T) : T :=
  fjc_isotensional.relative_gibbs_free_energy_per_link link_length force temperature.

(* /repo/src/physics/single_chain/fjc/thermodynamics/isotensional/ex.rs:42-45 *)
Definition physics_single_chain_fjc_thermodynamics_isotensional_nondimensional_gibbs_free_energy
    (number_of_links : Z) (link_length : T) (hinge_mass : T) (nondimensional_force : T) (temperature
    : T) : T :=
  fjc_isotensional.nondimensional_gibbs_free_energy number_of_links link_length hinge_mass
      nondimensional_force temperature.

(* /repo/src/physics/single_chain/fjc/thermodynamics/isotensional/ex.rs:47-50 *)
Definition
    physics_single_chain_fjc_thermodynamics_isotensional_nondimensional_gibbs_free_energy_per_link
    (link_length : T) (hinge_mass : T) (nondimensional_force : T) (temperature : T) : T :=
  fjc_isotensional.nondimensional_gibbs_free_energy_per_link link_length hinge_mass
      nondimensional_force temperature.

(* /repo/src/physics/single_chain/fjc/thermodynamics/isotensional/ex.rs:52-55 *)
Definition
    physics_single_chain_fjc_thermodynamics_isotensional_nondimensional_relative_gibbs_free_energy
    (number_of_links : Z) (nondimensional_force : T) : T :=
  fjc_isotensional.nondimensional_relative_gibbs_free_energy number_of_links nondimensional_force.

(* /repo/src/physics/single_chain/fjc/thermodynamics/isotensional/ex.rs:57-60 *)
Definition
    physics_single_chain_fjc_thermodynamics_isotensional_nondimensional_relative_gibbs_free_energy_per_link
    (nondimensional_force : T) : T :=
  fjc_isotensional.nondimensional_relative_gibbs_free_energy_per_link nondimensional_force.

(* /repo/src/physics/single_chain/fjc/thermodynamics/isotensional/legendre/ex.rs:2-5 *)
Definition physics_single_chain_fjc_thermodynamics_isotensional_legendre_helmholtz_free_energy
    (number_of_links : Z) (link_length : T) (hinge_mass : T) (force : T) (temperature : T) : T :=
  fjc_isotensional_legendre.helmholtz_free_energy number_of_links link_length hinge_mass force
      temperature.

(* /repo/src/physics/single_chain/fjc/thermodynamics/isotensional/legendre/ex.rs:7-10 *)
Definition
    physics_single_chain_fjc_thermodynamics_isotensional_legendre_helmholtz_free_energy_per_link
    (link_length : T) (hinge_mass : T) (force : T) (temperature : T) : T :=
  fjc_isotensional_legendre.helmholtz_free_energy_per_link link_length hinge_mass force temperature.

(* /repo/src/physics/single_chain/fjc/thermodynamics/isotensional/legendre/ex.rs:12-15 *)
Definition
    physics_single_chain_fjc_thermodynamics_isotensional_legendre_relative_helmholtz_free_energy
    (number_of_links : Z) (link_length : T) (force : T) (temperature : T) : T :=
  fjc_isotensional_legendre.relative_helmholtz_free_energy number_of_links link_length force
      temperature.

(* /repo/src/physics/single_chain/fjc/thermodynamics/isotensional/legendre/ex.rs:17-20 *)
Definition
    physics_single_chain_fjc_thermodynamics_isotensional_legendre_relative_helmholtz_free_energy_per_link
    (link_length : T) (force : T) (temperature : T) : T :=
  fjc_isotensional_legendre.relative_helmholtz_free_energy_per_link link_length force temperature.

(* /repo/src/physics/single_chain/fjc/thermodynamics/isotensional/legendre/ex.rs:22-25 *)
Definition
    physics_single_chain_fjc_thermodynamics_isotensional_legendre_nondimensional_helmholtz_free_energy
    (number_of_links : Z) (link_length : T) (hinge_mass : T) (nondimensional_force : T) (temperature
    : T) : T :=
  fjc_isotensional_legendre.nondimensional_helmholtz_free_energy number_of_links link_length
      hinge_mass nondimensional_force temperature.

(* /repo/src/physics/single_chain/fjc/thermodynamics/isotensional/legendre/ex.rs:27-30 *)
Definition
    physics_single_chain_fjc_thermodynamics_isotensional_legendre_nondimensional_helmholtz_free_energy_per_link
    (link_length : T) (hinge_mass : T) (nondimensional_force : T) (temperature : T) : T :=
  fjc_isotensional_legendre.nondimensional_helmholtz_free_energy_per_link link_length hinge_mass
      nondimensional_force temperature.

(* /repo/src/physics/single_chain/fjc/thermodynamics/isotensional/legendre/ex.rs:32-35 *)
Definition
    physics_single_chain_fjc_thermodynamics_isotensional_legendre_nondimensional_relative_helmholtz_free_energy
    (number_of_links : Z) (nondimensional_force : T) : T :=
  fjc_isotensional_legendre.nondimensional_relative_helmholtz_free_energy number_of_links
      nondimensional_force.

(* /repo/src/physics/single_chain/fjc/thermodynamics/isotensional/legendre/ex.rs:37-40 *)
Definition
    physics_single_chain_fjc_thermodynamics_isotensional_legendre_nondimensional_relative_helmholtz_free_energy_per_link
    (nondimensional_force : T) : T :=
  fjc_isotensional_legendre.nondimensional_relative_helmholtz_free_energy_per_link
      nondimensional_force.

(* /repo/src/physics/single_chain/fjc/thermodynamics/modified_canonical/ex.rs:2-5 *)
Definition physics_single_chain_fjc_thermodynamics_modified_canonical_end_to_end_length (prof :
    profile) (number_of_links : Z) (link_length : T) (potential_distance : T) (potential_stiffness :
    T) (temperature : T) : option T :=
  fjc_modified_canonical.end_to_end_length prof number_of_links link_length potential_distance
      potential_stiffness temperature.

(* /repo/src/physics/single_chain/fjc/thermodynamics/modified_canonical/ex.rs:7-10 *)
Definition physics_single_chain_fjc_thermodynamics_modified_canonical_end_to_end_length_per_link
    (prof : profile) (number_of_links : Z) (link_length : T) (potential_distance : T)
    (potential_stiffness : T) (temperature : T) : option T :=
  fjc_modified_canonical.end_to_end_length_per_link prof number_of_links link_length
      potential_distance potential_stiffness temperature.

(* /repo/src/physics/single_chain/fjc/thermodynamics/modified_canonical/ex.rs:12-15 *)
Definition
    physics_single_chain_fjc_thermodynamics_modified_canonical_nondimensional_end_to_end_length
    (prof : profile) (number_of_links : Z) (nondimensional_potential_distance : T)
    (nondimensional_potential_stiffness : T) : option T :=
  fjc_modified_canonical.nondimensional_end_to_end_length prof number_of_links
      nondimensional_potential_distance nondimensional_potential_stiffness.

(* /repo/src/physics/single_chain/fjc/thermodynamics/modified_canonical/ex.rs:17-20 *)
Definition
    physics_single_chain_fjc_thermodynamics_modified_canonical_nondimensional_end_to_end_length_per_link
    (prof : profile) (number_of_links : Z) (nondimensional_potential_distance : T)
    (nondimensional_potential_stiffness : T) : option T :=
  fjc_modified_canonical.nondimensional_end_to_end_length_per_link prof number_of_links
      nondimensional_potential_distance nondimensional_potential_stiffness.

(* /repo/src/physics/single_chain/fjc/thermodynamics/modified_canonical/ex.rs:22-25 *)
Definition physics_single_chain_fjc_thermodynamics_modified_canonical_force (prof : profile)
    (number_of_links : Z) (link_length : T) (potential_distance : T) (potential_stiffness : T)
    (temperature : T) : option T :=
  fjc_modified_canonical.force prof number_of_links link_length potential_distance
      potential_stiffness temperature.

(* /repo/src/physics/single_chain/fjc/thermodynamics/modified_canonical/ex.rs:27-30 *)
Definition physics_single_chain_fjc_thermodynamics_modified_canonical_nondimensional_force (prof :
    profile) (number_of_links : Z) (nondimensional_potential_distance : T)
    (nondimensional_potential_stiffness : T) : option T :=
  fjc_modified_canonical.nondimensional_force prof number_of_links nondimensional_potential_distance
      nondimensional_potential_stiffness.

(* /repo/src/physics/single_chain/fjc/thermodynamics/modified_canonical/ex.rs:32-35 *)
Definition physics_single_chain_fjc_thermodynamics_modified_canonical_helmholtz_free_energy (prof :
    profile) (number_of_links : Z) (link_length : T) (hinge_mass : T) (potential_distance : T)
    (potential_stiffness : T) (temperature : T) : option T :=
  fjc_modified_canonical.helmholtz_free_energy prof number_of_links link_length hinge_mass
      potential_distance potential_stiffness temperature.

(* /repo/src/physics/single_chain/fjc/thermodynamics/modified_canonical/ex.rs:37-40 *)
Definition physics_single_chain_fjc_thermodynamics_modified_canonical_helmholtz_free_energy_per_link
    (prof : profile) (number_of_links : Z) (link_length : T) (hinge_mass : T) (potential_distance :
    T) (potential_stiffness : T) (temperature : T) : option T :=
  fjc_modified_canonical.helmholtz_free_energy_per_link prof number_of_links link_length hinge_mass
      potential_distance potential_stiffness temperature.

(* /repo/src/physics/single_chain/fjc/thermodynamics/modified_canonical/ex.rs:42-45 *)
Definition physics_single_chain_fjc_thermodynamics_modified_canonical_relative_helmholtz_free_energy
    (prof : profile) (number_of_links : Z) (link_length : T) (potential_distance : T)
    (potential_stiffness : T) (temperature : T) : option T :=
  fjc_modified_canonical.relative_helmholtz_free_energy prof number_of_links link_length
      potential_distance potential_stiffness temperature.

(* /repo/src/physics/single_chain/fjc/thermodynamics/modified_canonical/ex.rs:47-50 *)
Definition
    physics_single_chain_fjc_thermodynamics_modified_canonical_relative_helmholtz_free_energy_per_link
    (prof : profile) (number_of_links : Z) (link_length : T) (potential_distance : T)
    (potential_stiffness : T) (temperature : T) : option T :=
  fjc_modified_canonical.relative_helmholtz_free_energy_per_link prof number_of_links link_length
      potential_distance potential_stiffness temperature.

(* /repo/src/physics/single_chain/fjc/thermodynamics/modified_canonical/ex.rs:52-55 *)
Definition
    physics_single_chain_fjc_thermodynamics_modified_canonical_nondimensional_helmholtz_free_energy
    (prof : profile) (number_of_links : Z) (link_length : T) (hinge_mass : T)
    (nondimensional_potential_distance : T) (nondimensional_potential_stiffness : T) (temperature :
    T) : option T :=
  fjc_modified_canonical.nondimensional_helmholtz_free_energy prof number_of_links link_length
      hinge_mass nondimensional_potential_distance nondimensional_potential_stiffness temperature.

(* /repo/src/physics/single_chain/fjc/thermodynamics/modified_canonical/ex.rs:57-60 *)
Definition
    physics_single_chain_fjc_thermodynamics_modified_canonical_nondimensional_helmholtz_free_energy_per_link
    (prof : profile) (number_of_links : Z) (link_length : T) (hinge_mass : T)
    (nondimensional_potential_distance : T) (nondimensional_potential_stiffness : T) (temperature :
    T) : option T :=
  fjc_modified_canonical.nondimensional_helmholtz_free_energy_per_link prof number_of_links
      link_length hinge_mass nondimensional_potential_distance nondimensional_potential_stiffness
      temperature.

(* /repo/src/physics/single_chain/fjc/thermodynamics/modified_canonical/ex.rs:62-65 *)
Definition
    physics_single_chain_fjc_thermodynamics_modified_canonical_nondimensional_relative_helmholtz_free_energy
    (prof : profile) (number_of_links : Z) (nondimensional_potential_distance : T)
    (nondimensional_potential_stiffness : T) : option T :=
  fjc_modified_canonical.nondimensional_relative_helmholtz_free_energy prof number_of_links
      nondimensional_potential_distance nondimensional_potential_stiffness.

(* /repo/src/physics/single_chain/fjc/thermodynamics/modified_canonical/ex.rs:67-70 *)
Definition
    physics_single_chain_fjc_thermodynamics_modified_canonical_nondimensional_relative_helmholtz_free_energy_per_link
    (prof : profile) (number_of_links : Z) (nondimensional_potential_distance : T)
    (nondimensional_potential_stiffness : T) : option T :=
  fjc_modified_canonical.nondimensional_relative_helmholtz_free_energy_per_link prof number_of_links
      nondimensional_potential_distance nondimensional_potential_stiffness.

(* /repo/src/physics/single_chain/fjc/thermodynamics/modified_canonical/ex.rs:72-75 *)
Definition physics_single_chain_fjc_thermodynamics_modified_canonical_gibbs_free_energy (prof :
    profile) (number_of_links : Z) (link_length : T) (hinge_mass : T) (potential_distance : T)
    (potential_stiffness : T) (temperature : T) : option T :=
  fjc_modified_canonical.gibbs_free_energy prof number_of_links link_length hinge_mass
      potential_distance potential_stiffness temperature.

(* /repo/src/physics/single_chain/fjc/thermodynamics/modified_canonical/ex.rs:77-80 *)
Definition physics_single_chain_fjc_thermodynamics_modified_canonical_gibbs_free_energy_per_link
    (prof : profile) (number_of_links : Z) (link_length : T) (hinge_mass : T) (potential_distance :
    T) (potential_stiffness : T) (temperature : T) : option T :=
  fjc_modified_canonical.gibbs_free_energy_per_link prof number_of_links link_length hinge_mass
      potential_distance potential_stiffness temperature.

(* /repo/src/physics/single_chain/fjc/thermodynamics/modified_canonical/ex.rs:82-85 *)
Definition physics_single_chain_fjc_thermodynamics_modified_canonical_relative_gibbs_free_energy
    (prof : profile) (number_of_links : Z) (link_length : T) (potential_distance : T)
    (potential_stiffness : T) (temperature : T) : option T :=
  fjc_modified_canonical.relative_gibbs_free_energy prof number_of_links link_length
      potential_distance potential_stiffness temperature.

(* /repo/src/physics/single_chain/fjc/thermodynamics/modified_canonical/ex.rs:87-90 *)
Definition
    physics_single_chain_fjc_thermodynamics_modified_canonical_relative_gibbs_free_energy_per_link
    (prof : profile) (number_of_links : Z) (link_length : T) (potential_distance : T)
    (potential_stiffness : T) (temperature : T) : option T :=
  fjc_modified_canonical.relative_gibbs_free_energy_per_link prof number_of_links link_length
      potential_distance potential_stiffness temperature.

(* /repo/src/physics/single_chain/fjc/thermodynamics/modified_canonical/ex.rs:92-95 *)
Definition
    physics_single_chain_fjc_thermodynamics_modified_canonical_nondimensional_gibbs_free_energy
    (prof : profile) (number_of_links : Z) (link_length : T) (hinge_mass : T)
    (nondimensional_potential_distance : T) (nondimensional_potential_stiffness : T) (temperature :
    T) : option T :=
  fjc_modified_canonical.nondimensional_gibbs_free_energy prof number_of_links link_length
      hinge_mass nondimensional_potential_distance nondimensional_potential_stiffness temperature.

(* /repo/src/physics/single_chain/fjc/thermodynamics/modified_canonical/ex.rs:97-100 *)
Definition
    physics_single_chain_fjc_thermodynamics_modified_canonical_nondimensional_gibbs_free_energy_per_link
    (prof : profile) (number_of_links : Z) (link_length : T) (hinge_mass : T)
    (nondimensional_potential_distance : T) (nondimensional_potential_stiffness : T) (temperature :
    T) : option T :=
  fjc_modified_canonical.nondimensional_gibbs_free_energy_per_link prof number_of_links link_length
      hinge_mass nondimensional_potential_distance nondimensional_potential_stiffness temperature.

(* /repo/src/physics/single_chain/fjc/thermodynamics/modified_canonical/ex.rs:102-105 *)
Definition
    physics_single_chain_fjc_thermodynamics_modified_canonical_nondimensional_relative_gibbs_free_energy
    (prof : profile) (number_of_links : Z) (nondimensional_potential_distance : T)
    (nondimensional_potential_stiffness : T) : option T :=
  fjc_modified_canonical.nondimensional_relative_gibbs_free_energy prof number_of_links
      nondimensional_potential_distance nondimensional_potential_stiffness.

(* /repo/src/physics/single_chain/fjc/thermodynamics/modified_canonical/ex.rs:107-110 *)
Definition
    physics_single_chain_fjc_thermodynamics_modified_canonical_nondimensional_relative_gibbs_free_energy_per_link
    (prof : profile) (number_of_links : Z) (nondimensional_potential_distance : T)
    (nondimensional_potential_stiffness : T) : option T :=
  fjc_modified_canonical.nondimensional_relative_gibbs_free_energy_per_link prof number_of_links
      nondimensional_potential_distance nondimensional_potential_stiffness.

(* /repo/src/physics/single_chain/fjc/thermodynamics/modified_canonical/asymptotic/strong_potential/ex.rs:2-5 *)
Definition
    physics_single_chain_fjc_thermodynamics_modified_canonical_asymptotic_strong_potential_force
    (prof : profile) (number_of_links : Z) (link_length : T) (potential_distance : T)
    (potential_stiffness : T) (temperature : T) : option T :=
  fjc_modified_canonical_asymptotic_strong_potential.force prof number_of_links link_length
      potential_distance potential_stiffness temperature.

(* /repo/src/physics/single_chain/fjc/thermodynamics/modified_canonical/asymptotic/strong_potential/ex.rs:7-10 *)
Definition
    physics_single_chain_fjc_thermodynamics_modified_canonical_asymptotic_strong_potential_nondimensional_force
    (prof : profile) (number_of_links : Z) (nondimensional_potential_distance : T)
    (nondimensional_potential_stiffness : T) : option T :=
  fjc_modified_canonical_asymptotic_strong_potential.nondimensional_force prof number_of_links
      nondimensional_potential_distance nondimensional_potential_stiffness.

(* /repo/src/physics/single_chain/fjc/thermodynamics/modified_canonical/asymptotic/strong_potential/ex.rs:12-15 *)
Definition
    physics_single_chain_fjc_thermodynamics_modified_canonical_asymptotic_strong_potential_helmholtz_free_energy
    (prof : profile) (number_of_links : Z) (link_length : T) (hinge_mass : T) (potential_distance :
    T) (potential_stiffness : T) (temperature : T) : option T :=
  fjc_modified_canonical_asymptotic_strong_potential.helmholtz_free_energy prof number_of_links
      link_length hinge_mass potential_distance potential_stiffness temperature.

(* /repo/src/physics/single_chain/fjc/thermodynamics/modified_canonical/asymptotic/strong_potential/ex.rs:17-20 *)
Definition
    physics_single_chain_fjc_thermodynamics_modified_canonical_asymptotic_strong_potential_helmholtz_free_energy_per_link
    (prof : profile) (number_of_links : Z) (link_length : T) (hinge_mass : T) (potential_distance :
    T) (potential_stiffness : T) (temperature : T) : option T :=
  fjc_modified_canonical_asymptotic_strong_potential.helmholtz_free_energy_per_link prof
      number_of_links link_length hinge_mass potential_distance potential_stiffness temperature.

(* /repo/src/physics/single_chain/fjc/thermodynamics/modified_canonical/asymptotic/strong_potential/ex.rs:22-25 *)
Definition
    physics_single_chain_fjc_thermodynamics_modified_canonical_asymptotic_strong_potential_relative_helmholtz_free_energy
    (prof : profile) (number_of_links : Z) (link_length : T) (potential_distance : T)
    (potential_stiffness : T) (temperature : T) : option T :=
  fjc_modified_canonical_asymptotic_strong_potential.relative_helmholtz_free_energy prof
      number_of_links link_length potential_distance potential_stiffness temperature.

(* /repo/src/physics/single_chain/fjc/thermodynamics/modified_canonical/asymptotic/strong_potential/ex.rs:27-30 *)
Definition
    physics_single_chain_fjc_thermodynamics_modified_canonical_asymptotic_strong_potential_relative_helmholtz_free_energy_per_link
    (prof : profile) (number_of_links : Z) (link_length : T) (potential_distance : T)
    (potential_stiffness : T) (temperature : T) : option T :=
  fjc_modified_canonical_asymptotic_strong_potential.relative_helmholtz_free_energy_per_link prof
      number_of_links link_length potential_distance potential_stiffness temperature.

(* /repo/src/physics/single_chain/fjc/thermodynamics/modified_canonical/asymptotic/strong_potential/ex.rs:32-35 *)
Definition
    physics_single_chain_fjc_thermodynamics_modified_canonical_asymptotic_strong_potential_nondimensional_helmholtz_free_energy
    (prof : profile) (number_of_links : Z) (link_length : T) (hinge_mass : T)
    (nondimensional_potential_distance : T) (nondimensional_potential_stiffness : T) (temperature :
    T) : option T :=
  fjc_modified_canonical_asymptotic_strong_potential.nondimensional_helmholtz_free_energy prof
      number_of_links link_length hinge_mass nondimensional_potential_distance
      nondimensional_potential_stiffness temperature.

(* /repo/src/physics/single_chain/fjc/thermodynamics/modified_canonical/asymptotic/strong_potential/ex.rs:37-40 *)
Definition
    physics_single_chain_fjc_thermodynamics_modified_canonical_asymptotic_strong_potential_nondimensional_helmholtz_free_energy_per_link
    (prof : profile) (number_of_links : Z) (link_length : T) (hinge_mass : T)
    (nondimensional_potential_distance : T) (nondimensional_potential_stiffness : T) (temperature :
    T) : option T :=
  fjc_modified_canonical_asymptotic_strong_potential.nondimensional_helmholtz_free_energy_per_link
      prof number_of_links link_length hinge_mass nondimensional_potential_distance
      nondimensional_potential_stiffness temperature.

(* /repo/src/physics/single_chain/fjc/thermodynamics/modified_canonical/asymptotic/strong_potential/ex.rs:42-45 *)
Definition
    physics_single_chain_fjc_thermodynamics_modified_canonical_asymptotic_strong_potential_nondimensional_relative_helmholtz_free_energy
    (prof : profile) (number_of_links : Z) (nondimensional_potential_distance : T)
    (nondimensional_potential_stiffness : T) : option T :=
  fjc_modified_canonical_asymptotic_strong_potential.nondimensional_relative_helmholtz_free_energy
      prof number_of_links nondimensional_potential_distance nondimensional_potential_stiffness.

(* /repo/src/physics/single_chain/fjc/thermodynamics/modified_canonical/asymptotic/strong_potential/ex.rs:47-50 *)
Definition
    physics_single_chain_fjc_thermodynamics_modified_canonical_asymptotic_strong_potential_nondimensional_relative_helmholtz_free_energy_per_link
    (prof : profile) (number_of_links : Z) (nondimensional_potential_distance : T)
    (nondimensional_potential_stiffness : T) : option T :=
  fjc_modified_canonical_asymptotic_strong_potential.nondimensional_relative_helmholtz_free_energy_per_link
      prof number_of_links nondimensional_potential_distance nondimensional_potential_stiffness.

(* /repo/src/physics/single_chain/fjc/thermodynamics/modified_canonical/asymptotic/weak_potential/ex.rs:2-5 *)
Definition
    physics_single_chain_fjc_thermodynamics_modified_canonical_asymptotic_weak_potential_end_to_end_length
    (number_of_links : Z) (link_length : T) (potential_distance : T) (potential_stiffness : T)
    (temperature : T) : T :=
  fjc_modified_canonical_asymptotic_weak_potential.end_to_end_length number_of_links link_length
      potential_distance potential_stiffness temperature.

(* /repo/src/physics/single_chain/fjc/thermodynamics/modified_canonical/asymptotic/weak_potential/ex.rs:7-10 *)
Definition
    physics_single_chain_fjc_thermodynamics_modified_canonical_asymptotic_weak_potential_end_to_end_length_per_link
    (number_of_links : Z) (link_length : T) (potential_distance : T) (potential_stiffness : T)
    (temperature : T) : T :=
  fjc_modified_canonical_asymptotic_weak_potential.end_to_end_length_per_link number_of_links
      link_length potential_distance potential_stiffness temperature.

(* /repo/src/physics/single_chain/fjc/thermodynamics/modified_canonical/asymptotic/weak_potential/ex.rs:12-15 *)
Definition
    physics_single_chain_fjc_thermodynamics_modified_canonical_asymptotic_weak_potential_nondimensional_end_to_end_length
    (number_of_links : Z) (nondimensional_potential_distance : T)
    (nondimensional_potential_stiffness : T) : T :=
  fjc_modified_canonical_asymptotic_weak_potential.nondimensional_end_to_end_length number_of_links
      nondimensional_potential_distance nondimensional_potential_stiffness.

(* /repo/src/physics/single_chain/fjc/thermodynamics/modified_canonical/asymptotic/weak_potential/ex.rs:17-20 *)
Definition
    physics_single_chain_fjc_thermodynamics_modified_canonical_asymptotic_weak_potential_nondimensional_end_to_end_length_per_link
    (number_of_links : Z) (nondimensional_potential_distance : T)
    (nondimensional_potential_stiffness : T) : T :=
  fjc_modified_canonical_asymptotic_weak_potential.nondimensional_end_to_end_length_per_link
      number_of_links nondimensional_potential_distance nondimensional_potential_stiffness.

(* /repo/src/physics/single_chain/fjc/thermodynamics/modified_canonical/asymptotic/weak_potential/ex.rs:22-25 *)
Definition
    physics_single_chain_fjc_thermodynamics_modified_canonical_asymptotic_weak_potential_force
    (potential_distance : T) (potential_stiffness : T) : T :=
  fjc_modified_canonical_asymptotic_weak_potential.force potential_distance potential_stiffness.

(* /repo/src/physics/single_chain/fjc/thermodynamics/modified_canonical/asymptotic/weak_potential/ex.rs:27-30 *)
Definition
    physics_single_chain_fjc_thermodynamics_modified_canonical_asymptotic_weak_potential_nondimensional_force
    (number_of_links : Z) (nondimensional_potential_distance : T)
    (nondimensional_potential_stiffness : T) : T :=
  fjc_modified_canonical_asymptotic_weak_potential.nondimensional_force number_of_links
      nondimensional_potential_distance nondimensional_potential_stiffness.

(* /repo/src/physics/single_chain/fjc/thermodynamics/modified_canonical/asymptotic/weak_potential/ex.rs:32-35 *)
Definition
    physics_single_chain_fjc_thermodynamics_modified_canonical_asymptotic_weak_potential_gibbs_free_energy
    (number_of_links : Z) (link_length : T) (hinge_mass : T) (potential_distance : T)
    (potential_stiffness : T) (temperature : T) : T :=
  fjc_modified_canonical_asymptotic_weak_potential.gibbs_free_energy number_of_links link_length
      hinge_mass potential_distance potential_stiffness temperature.

(* /repo/src/physics/single_chain/fjc/thermodynamics/modified_canonical/asymptotic/weak_potential/ex.rs:37-40 *)
Definition
    physics_single_chain_fjc_thermodynamics_modified_canonical_asymptotic_weak_potential_gibbs_free_energy_per_link
    (number_of_links : Z) (link_length : T) (hinge_mass : T) (potential_distance : T)
    (potential_stiffness : T) (temperature : T) : T :=
  fjc_modified_canonical_asymptotic_weak_potential.gibbs_free_energy_per_link number_of_links
      link_length hinge_mass potential_distance potential_stiffness temperature.

(* /repo/src/physics/single_chain/fjc/thermodynamics/modified_canonical/asymptotic/weak_potential/ex.rs:42-45 *)
Definition
    physics_single_chain_fjc_thermodynamics_modified_canonical_asymptotic_weak_potential_relative_gibbs_free_energy
    (number_of_links : Z) (link_length : T) (potential_distance : T) (potential_stiffness : T)
    (temperature : T) : T :=
  fjc_modified_canonical_asymptotic_weak_potential.relative_gibbs_free_energy number_of_links
      link_length potential_distance potential_stiffness temperature.

(* /repo/src/physics/single_chain/fjc/thermodynamics/modified_canonical/asymptotic/weak_potential/ex.rs:47-50 *)
Definition
    physics_single_chain_fjc_thermodynamics_modified_canonical_asymptotic_weak_potential_relative_gibbs_free_energy_per_link
    (number_of_links : Z) (link_length : T) (potential_distance : T) (potential_stiffness : T)
    (temperature : T) : T :=
  fjc_modified_canonical_asymptotic_weak_potential.relative_gibbs_free_energy_per_link
      number_of_links link_length potential_distance potential_stiffness temperature.

(* /repo/src/physics/single_chain/fjc/thermodynamics/modified_canonical/asymptotic/weak_potential/ex.rs:52-55 *)
Definition
    physics_single_chain_fjc_thermodynamics_modified_canonical_asymptotic_weak_potential_nondimensional_gibbs_free_energy
    (number_of_links : Z) (link_length : T) (hinge_mass : T) (nondimensional_potential_distance : T)
    (nondimensional_potential_stiffness : T) (temperature : T) : T :=
  fjc_modified_canonical_asymptotic_weak_potential.nondimensional_gibbs_free_energy number_of_links
      link_length hinge_mass nondimensional_potential_distance nondimensional_potential_stiffness
      temperature.

(* /repo/src/physics/single_chain/fjc/thermodynamics/modified_canonical/asymptotic/weak_potential/ex.rs:57-60 *)
Definition
    physics_single_chain_fjc_thermodynamics_modified_canonical_asymptotic_weak_potential_nondimensional_gibbs_free_energy_per_link
    (number_of_links : Z) (link_length : T) (hinge_mass : T) (nondimensional_potential_distance : T)
    (nondimensional_potential_stiffness : T) (temperature : T) : T :=
  fjc_modified_canonical_asymptotic_weak_potential.nondimensional_gibbs_free_energy_per_link
      number_of_links link_length hinge_mass nondimensional_potential_distance
      nondimensional_potential_stiffness temperature.

(* /repo/src/physics/single_chain/fjc/thermodynamics/modified_canonical/asymptotic/weak_potential/ex.rs:62-65 *)
Definition
    physics_single_chain_fjc_thermodynamics_modified_canonical_asymptotic_weak_potential_nondimensional_relative_gibbs_free_energy
    (number_of_links : Z) (nondimensional_potential_distance : T)
    (nondimensional_potential_stiffness : T) : T :=
  fjc_modified_canonical_asymptotic_weak_potential.nondimensional_relative_gibbs_free_energy
      number_of_links nondimensional_potential_distance nondimensional_potential_stiffness.

(* /repo/src/physics/single_chain/fjc/thermodynamics/modified_canonical/asymptotic/weak_potential/ex.rs:67-70 *)
Definition
    physics_single_chain_fjc_thermodynamics_modified_canonical_asymptotic_weak_potential_nondimensional_relative_gibbs_free_energy_per_link
    (number_of_links : Z) (nondimensional_potential_distance : T)
    (nondimensional_potential_stiffness : T) : T :=
  fjc_modified_canonical_asymptotic_weak_potential.nondimensional_relative_gibbs_free_energy_per_link
      number_of_links nondimensional_potential_distance nondimensional_potential_stiffness.

(* /repo/src/physics/single_chain/ideal/thermodynamics/isometric/ex.rs:2-5 *)
Definition physics_single_chain_ideal_thermodynamics_isometric_force (number_of_links : Z)
    (link_length : T) (end_to_end_length : T) (temperature : T) : T :=
  ideal_isometric.force number_of_links link_length end_to_end_length temperature.

(* /repo/src/physics/single_chain/ideal/thermodynamics/isometric/ex.rs:7-10 *)
Definition physics_single_chain_ideal_thermodynamics_isometric_nondimensional_force
    (nondimensional_end_to_end_length_per_link : T) : T :=
  ideal_isometric.nondimensional_force nondimensional_end_to_end_length_per_link.

(* /repo/src/physics/single_chain/ideal/thermodynamics/isometric/ex.rs:12-15 *)
Definition physics_single_chain_ideal_thermodynamics_isometric_helmholtz_free_energy
    (number_of_links : Z) (link_length : T) (hinge_mass : T) (end_to_end_length : T) (temperature :
    T) : T :=
  ideal_isometric.helmholtz_free_energy number_of_links link_length hinge_mass end_to_end_length
      temperature.

(* /repo/src/physics/single_chain/ideal/thermodynamics/isometric/ex.rs:17-20 *)
Definition physics_single_chain_ideal_thermodynamics_isometric_helmholtz_free_energy_per_link
    (number_of_links : Z) (link_length : T) (hinge_mass : T) (end_to_end_length : T) (temperature :
    T) : T :=
  ideal_isometric.helmholtz_free_energy_per_link number_of_links link_length hinge_mass
      end_to_end_length temperature.

(* /repo/src/physics/single_chain/ideal/thermodynamics/isometric/ex.rs:22-25 *)
Definition physics_single_chain_ideal_thermodynamics_isometric_relative_helmholtz_free_energy
    (number_of_links : Z) (link_length : T) (end_to_end_length : T) (temperature : T) : T :=
  ideal_isometric.relative_helmholtz_free_energy number_of_links link_length end_to_end_length
      temperature.

(* /repo/src/physics/single_chain/ideal/thermodynamics/isometric/ex.rs:27-30 *)
Definition
    physics_single_chain_ideal_thermodynamics_isometric_relative_helmholtz_free_energy_per_link
    (number_of_links : Z) (link_length : T) (end_to_end_length : T) (temperature : T) : T :=
  ideal_isometric.relative_helmholtz_free_energy_per_link number_of_links link_length
      end_to_end_length temperature.

(* /repo/src/physics/single_chain/ideal/thermodynamics/isometric/ex.rs:32-35 *)
Definition physics_single_chain_ideal_thermodynamics_isometric_nondimensional_helmholtz_free_energy
    (number_of_links : Z) (link_length : T) (hinge_mass : T)
    (nondimensional_end_to_end_length_per_link : T) (temperature : T) : T :=
  ideal_isometric.nondimensional_helmholtz_free_energy number_of_links link_length hinge_mass
      nondimensional_end_to_end_length_per_link temperature.

(* /repo/src/physics/single_chain/ideal/thermodynamics/isometric/ex.rs:37-40 *)
Definition
    physics_single_chain_ideal_thermodynamics_isometric_nondimensional_helmholtz_free_energy_per_link
    (link_length : T) (hinge_mass : T) (nondimensional_end_to_end_length_per_link : T) (temperature
    : T) : T :=
  ideal_isometric.nondimensional_helmholtz_free_energy_per_link link_length hinge_mass
      nondimensional_end_to_end_length_per_link temperature.

(* /repo/src/physics/single_chain/ideal/thermodynamics/isometric/ex.rs:42-45 *)
Definition
    physics_single_chain_ideal_thermodynamics_isometric_nondimensional_relative_helmholtz_free_energy
    (number_of_links : Z) (nondimensional_end_to_end_length_per_link : T) : T :=
  ideal_isometric.nondimensional_relative_helmholtz_free_energy number_of_links
      nondimensional_end_to_end_length_per_link.

(* /repo/src/physics/single_chain/ideal/thermodynamics/isometric/ex.rs:47-50 *)
Definition
    physics_single_chain_ideal_thermodynamics_isometric_nondimensional_relative_helmholtz_free_energy_per_link
    (nondimensional_end_to_end_length_per_link : T) : T :=
  ideal_isometric.nondimensional_relative_helmholtz_free_energy_per_link
      nondimensional_end_to_end_length_per_link.

(* /repo/src/physics/single_chain/ideal/thermodynamics/isometric/ex.rs:52-55 *)
Definition physics_single_chain_ideal_thermodynamics_isometric_equilibrium_distribution
    (number_of_links : Z) (link_length : T) (end_to_end_length : T) : T :=
  ideal_isometric.equilibrium_distribution number_of_links link_length end_to_end_length.

(* /repo/src/physics/single_chain/ideal/thermodynamics/isometric/ex.rs:57-60 *)
Definition
    physics_single_chain_ideal_thermodynamics_isometric_nondimensional_equilibrium_distribution
    (number_of_links : Z) (nondimensional_end_to_end_length_per_link : T) : T :=
  ideal_isometric.nondimensional_equilibrium_distribution number_of_links
      nondimensional_end_to_end_length_per_link.

(* /repo/src/physics/single_chain/ideal/thermodynamics/isometric/ex.rs:62-65 *)
Definition physics_single_chain_ideal_thermodynamics_isometric_equilibrium_radial_distribution
    (number_of_links : Z) (link_length : T) (end_to_end_length : T) : T :=
  ideal_isometric.equilibrium_radial_distribution number_of_links link_length end_to_end_length.

(* /repo/src/physics/single_chain/ideal/thermodynamics/isometric/ex.rs:67-70 *)
Definition
    physics_single_chain_ideal_thermodynamics_isometric_nondimensional_equilibrium_radial_distribution
    (number_of_links : Z) (nondimensional_end_to_end_length_per_link : T) : T :=
  ideal_isometric.nondimensional_equilibrium_radial_distribution number_of_links
      nondimensional_end_to_end_length_per_link.

(* /repo/src/physics/single_chain/ideal/thermodynamics/isotensional/ex.rs:2-5 *)
Definition physics_single_chain_ideal_thermodynamics_isotensional_end_to_end_length (number_of_links
    : Z) (link_length : T) (force : T) (temperature : T) : T :=
  ideal_isotensional.end_to_end_length number_of_links link_length force temperature.

(* /repo/src/physics/single_chain/ideal/thermodynamics/isotensional/ex.rs:7-10 *)
Definition physics_single_chain_ideal_thermodynamics_isotensional_end_to_end_length_per_link
    (link_length : T) (force : T) (temperature : T) : T :=
  ideal_isotensional.end_to_end_length_per_link link_length force temperature.

(* /repo/src/physics/single_chain/ideal/thermodynamics/isotensional/ex.rs:12-15 *)
Definition physics_single_chain_ideal_thermodynamics_isotensional_nondimensional_end_to_end_length
    (number_of_links : Z) (nondimensional_force : T) : T :=
  ideal_isotensional.nondimensional_end_to_end_length number_of_links nondimensional_force.

(* /repo/src/physics/single_chain/ideal/thermodynamics/isotensional/ex.rs:17-20 *)
Definition
    physics_single_chain_ideal_thermodynamics_isotensional_nondimensional_end_to_end_length_per_link
    (nondimensional_force : T) : T :=
  ideal_isotensional.nondimensional_end_to_end_length_per_link nondimensional_force.

(* /repo/src/physics/single_chain/ideal/thermodynamics/isotensional/ex.rs:22-25 *)
Definition physics_single_chain_ideal_thermodynamics_isotensional_gibbs_free_energy (number_of_links
    : Z) (link_length : T) (hinge_mass : T) (force : T) (temperature : T) : T :=
  ideal_isotensional.gibbs_free_energy number_of_links link_length hinge_mass force temperature.

(* /repo/src/physics/single_chain/ideal/thermodynamics/isotensional/ex.rs:27-30 *)
Definition physics_single_chain_ideal_thermodynamics_isotensional_gibbs_free_energy_per_link
    (link_length : T) (hinge_mass : T) (force : T) (temperature : T) : T :=
  ideal_isotensional.gibbs_free_energy_per_link link_length hinge_mass force temperature.

(* /repo/src/physics/single_chain/ideal/thermodynamics/isotensional/ex.rs:32-35 *)
Definition physics_single_chain_ideal_thermodynamics_isotensional_relative_gibbs_free_energy
    (number_of_links : Z) (link_length : T) (force : T) (temperature : T) : T :=
  ideal_isotensional.relative_gibbs_free_energy number_of_links link_length force temperature.

(* /repo/src/physics/single_chain/ideal/thermodynamics/isotensional/ex.rs:37-40 *)
Definition
    physics_single_chain_ideal_thermodynamics_isotensional_relative_gibbs_free_energy_per_link
    (link_length : T) (force : T) (temperature : T) : T :=
  ideal_isotensional.relative_gibbs_free_energy_per_link link_length force temperature.

(* /repo/src/physics/single_chain/ideal/thermodynamics/isotensional/ex.rs:42-45 *)
Definition physics_single_chain_ideal_thermodynamics_isotensional_nondimensional_gibbs_free_energy
    (number_of_links : Z) (link_length : T) (hinge_mass : T) (nondimensional_force : T) (temperature
    : T) : T :=
  ideal_isotensional.nondimensional_gibbs_free_energy number_of_links link_length hinge_mass
      nondimensional_force temperature.

(* /repo/src/physics/single_chain/ideal/thermodynamics/isotensional/ex.rs:47-50 *)
Definition
    physics_single_chain_ideal_thermodynamics_isotensional_nondimensional_gibbs_free_energy_per_link
    (link_length : T) (hinge_mass : T) (nondimensional_force : T) (temperature : T) : T :=
  ideal_isotensional.nondimensional_gibbs_free_energy_per_link link_length hinge_mass
      nondimensional_force temperature.

(* /repo/src/physics/single_chain/ideal/thermodynamics/isotensional/ex.rs:52-55 *)
Definition
    physics_single_chain_ideal_thermodynamics_isotensional_nondimensional_relative_gibbs_free_energy
    (number_of_links : Z) (nondimensional_force : T) : T :=
  ideal_isotensional.nondimensional_relative_gibbs_free_energy number_of_links nondimensional_force.

(* /repo/src/physics/single_chain/ideal/thermodynamics/isotensional/ex.rs:57-60 *)
Definition
    physics_single_chain_ideal_thermodynamics_isotensional_nondimensional_relative_gibbs_free_energy_per_link
    (nondimensional_force : T) : T :=
  ideal_isotensional.nondimensional_relative_gibbs_free_energy_per_link nondimensional_force.

(* /repo/src/physics/single_chain/swfjc/thermodynamics/isometric/legendre/ex.rs:2-5 *)
Definition physics_single_chain_swfjc_thermodynamics_isometric_legendre_force (number_of_links : Z)
    (link_length : T) (well_width : T) (end_to_end_length : T) (temperature : T) : T :=
  swfjc_isometric_legendre.force number_of_links link_length well_width end_to_end_length
      temperature.

(* /repo/src/physics/single_chain/swfjc/thermodynamics/isometric/legendre/ex.rs:7-10 *)
Definition physics_single_chain_swfjc_thermodynamics_isometric_legendre_nondimensional_force
    (link_length : T) (well_width : T) (nondimensional_end_to_end_length_per_link : T) : T :=
  swfjc_isometric_legendre.nondimensional_force link_length well_width
      nondimensional_end_to_end_length_per_link.

(* /repo/src/physics/single_chain/swfjc/thermodynamics/isometric/legendre/ex.rs:12-15 *)
Definition physics_single_chain_swfjc_thermodynamics_isometric_legendre_helmholtz_free_energy
    (number_of_links : Z) (link_length : T) (hinge_mass : T) (well_width : T) (end_to_end_length :
    T) (temperature : T) : T :=
  swfjc_isometric_legendre.helmholtz_free_energy number_of_links link_length hinge_mass well_width
      end_to_end_length temperature.

(* /repo/src/physics/single_chain/swfjc/thermodynamics/isometric/legendre/ex.rs:17-20 *)
Definition
    physics_single_chain_swfjc_thermodynamics_isometric_legendre_helmholtz_free_energy_per_link
    (number_of_links : Z) (link_length : T) (hinge_mass : T) (well_width : T) (end_to_end_length :
    T) (temperature : T) : T :=
  swfjc_isometric_legendre.helmholtz_free_energy_per_link number_of_links link_length hinge_mass
      well_width end_to_end_length temperature.

(* /repo/src/physics/single_chain/swfjc/thermodynamics/isometric/legendre/ex.rs:22-25 *)
Definition
    physics_single_chain_swfjc_thermodynamics_isometric_legendre_relative_helmholtz_free_energy
    (number_of_links : Z) (link_length : T) (well_width : T) (end_to_end_length : T) (temperature :
    T) : T :=
  swfjc_isometric_legendre.relative_helmholtz_free_energy number_of_links link_length well_width
      end_to_end_length temperature.

(* /repo/src/physics/single_chain/swfjc/thermodynamics/isometric/legendre/ex.rs:27-30 *)
Definition
    physics_single_chain_swfjc_thermodynamics_isometric_legendre_relative_helmholtz_free_energy_per_link
    (number_of_links : Z) (link_length : T) (well_width : T) (end_to_end_length : T) (temperature :
    T) : T :=
  swfjc_isometric_legendre.relative_helmholtz_free_energy_per_link number_of_links link_length
      well_width end_to_end_length temperature.

(* /repo/src/physics/single_chain/swfjc/thermodynamics/isometric/legendre/ex.rs:32-35 *)
Definition
    physics_single_chain_swfjc_thermodynamics_isometric_legendre_nondimensional_helmholtz_free_energy
    (number_of_links : Z) (link_length : T) (hinge_mass : T) (well_width : T)
    (nondimensional_end_to_end_length_per_link : T) (temperature : T) : T :=
  swfjc_isometric_legendre.nondimensional_helmholtz_free_energy number_of_links link_length
      hinge_mass well_width nondimensional_end_to_end_length_per_link temperature.

(* /repo/src/physics/single_chain/swfjc/thermodynamics/isometric/legendre/ex.rs:37-40 *)
Definition
    physics_single_chain_swfjc_thermodynamics_isometric_legendre_nondimensional_helmholtz_free_energy_per_link
    (number_of_links : Z) (link_length : T) (hinge_mass : T) (well_width : T)
    (nondimensional_end_to_end_length_per_link : T) (temperature : T) : T :=
  swfjc_isometric_legendre.nondimensional_helmholtz_free_energy_per_link number_of_links link_length
      hinge_mass well_width nondimensional_end_to_end_length_per_link temperature.

(* /repo/src/physics/single_chain/swfjc/thermodynamics/isometric/legendre/ex.rs:42-45 *)
Definition
    physics_single_chain_swfjc_thermodynamics_isometric_legendre_nondimensional_relative_helmholtz_free_energy
    (number_of_links : Z) (link_length : T) (well_width : T)
    (nondimensional_end_to_end_length_per_link : T) : T :=
  swfjc_isometric_legendre.nondimensional_relative_helmholtz_free_energy number_of_links link_length
      well_width nondimensional_end_to_end_length_per_link.

(* /repo/src/physics/single_chain/swfjc/thermodynamics/isometric/legendre/ex.rs:47-50 *)
Definition
    physics_single_chain_swfjc_thermodynamics_isometric_legendre_nondimensional_relative_helmholtz_free_energy_per_link
    (link_length : T) (well_width : T) (nondimensional_end_to_end_length_per_link : T) : T :=
  swfjc_isometric_legendre.nondimensional_relative_helmholtz_free_energy_per_link link_length
      well_width nondimensional_end_to_end_length_per_link.

(* /repo/src/physics/single_chain/swfjc/thermodynamics/isometric/legendre/ex.rs:52-55 *)
Definition physics_single_chain_swfjc_thermodynamics_isometric_legendre_equilibrium_distribution
    (number_of_links : Z) (link_length : T) (well_width : T)
    (normalization_nondimensional_equilibrium_distribution : T) (end_to_end_length : T) : T :=
  swfjc_isometric_legendre.equilibrium_distribution number_of_links link_length well_width
      normalization_nondimensional_equilibrium_distribution end_to_end_length.

(* /repo/src/physics/single_chain/swfjc/thermodynamics/isometric/legendre/ex.rs:57-60 *)
Definition
    physics_single_chain_swfjc_thermodynamics_isometric_legendre_nondimensional_equilibrium_distribution
    (number_of_links : Z) (link_length : T) (well_width : T)
    (normalization_nondimensional_equilibrium_distribution : T)
    (nondimensional_end_to_end_length_per_link : T) : T :=
  swfjc_isometric_legendre.nondimensional_equilibrium_distribution number_of_links link_length
      well_width normalization_nondimensional_equilibrium_distribution
      nondimensional_end_to_end_length_per_link.

(* /repo/src/physics/single_chain/swfjc/thermodynamics/isometric/legendre/ex.rs:62-65 *)
Definition
    physics_single_chain_swfjc_thermodynamics_isometric_legendre_equilibrium_radial_distribution
    (number_of_links : Z) (link_length : T) (well_width : T)
    (normalization_nondimensional_equilibrium_distribution : T) (end_to_end_length : T) : T :=
  swfjc_isometric_legendre.equilibrium_radial_distribution number_of_links link_length well_width
      normalization_nondimensional_equilibrium_distribution end_to_end_length.

(* /repo/src/physics/single_chain/swfjc/thermodynamics/isometric/legendre/ex.rs:67-70 *)
Definition
    physics_single_chain_swfjc_thermodynamics_isometric_legendre_nondimensional_equilibrium_radial_distribution
    (number_of_links : Z) (link_length : T) (well_width : T)
    (normalization_nondimensional_equilibrium_distribution : T)
    (nondimensional_end_to_end_length_per_link : T) : T :=
  swfjc_isometric_legendre.nondimensional_equilibrium_radial_distribution number_of_links
      link_length well_width normalization_nondimensional_equilibrium_distribution
      nondimensional_end_to_end_length_per_link.

(* /repo/src/physics/single_chain/swfjc/thermodynamics/isotensional/ex.rs:2-5 *)
Definition physics_single_chain_swfjc_thermodynamics_isotensional_end_to_end_length (number_of_links
    : Z) (link_length : T) (well_width : T) (force : T) (temperature : T) : T :=
  swfjc_isotensional.end_to_end_length number_of_links link_length well_width force temperature.

(* /repo/src/physics/single_chain/swfjc/thermodynamics/isotensional/ex.rs:7-10 *)
Definition physics_single_chain_swfjc_thermodynamics_isotensional_end_to_end_length_per_link
    (link_length : T) (well_width : T) (force : T) (temperature : T) : T :=
  swfjc_isotensional.end_to_end_length_per_link link_length well_width force temperature.

(* /repo/src/physics/single_chain/swfjc/thermodynamics/isotensional/ex.rs:12-15 *)
Definition physics_single_chain_swfjc_thermodynamics_isotensional_nondimensional_end_to_end_length
    (number_of_links : Z) (link_length : T) (well_width : T) (nondimensional_force : T) : T :=
  swfjc_isotensional.nondimensional_end_to_end_length number_of_links link_length well_width
      nondimensional_force.

(* /repo/src/physics/single_chain/swfjc/thermodynamics/isotensional/ex.rs:17-20 *)
Definition
    physics_single_chain_swfjc_thermodynamics_isotensional_nondimensional_end_to_end_length_per_link
    (link_length : T) (well_width : T) (nondimensional_force : T) : T :=
  swfjc_isotensional.nondimensional_end_to_end_length_per_link link_length well_width
      nondimensional_force.

(* /repo/src/physics/single_chain/swfjc/thermodynamics/isotensional/ex.rs:22-25 *)
Definition physics_single_chain_swfjc_thermodynamics_isotensional_gibbs_free_energy (number_of_links
    : Z) (link_length : T) (hinge_mass : T) (well_width : T) (force : T) (temperature : T) : T :=
  swfjc_isotensional.gibbs_free_energy number_of_links link_length hinge_mass well_width force
      temperature.

(* /repo/src/physics/single_chain/swfjc/thermodynamics/isotensional/ex.rs:27-30 *)
Definition physics_single_chain_swfjc_thermodynamics_isotensional_gibbs_free_energy_per_link
    (link_length : T) (hinge_mass : T) (well_width : T) (force : T) (temperature : T) : T :=
  swfjc_isotensional.gibbs_free_energy_per_link link_length hinge_mass well_width force temperature.

(* /repo/src/physics/single_chain/swfjc/thermodynamics/isotensional/ex.rs:32-35 *)
Definition physics_single_chain_swfjc_thermodynamics_isotensional_relative_gibbs_free_energy
    (number_of_links : Z) (link_length : T) (well_width : T) (force : T) (temperature : T) : T :=
  swfjc_isotensional.relative_gibbs_free_energy number_of_links link_length well_width force
      temperature.

(* /repo/src/physics/single_chain/swfjc/thermodynamics/isotensional/ex.rs:37-40 *)
Definition
    physics_single_chain_swfjc_thermodynamics_isotensional_relative_gibbs_free_energy_per_link
    (link_length : T) (well_width : T) (force : T) (temperature : T) : T :=
  swfjc_isotensional.relative_gibbs_free_energy_per_link link_length well_width force temperature.

(* /repo/src/physics/single_chain/swfjc/thermodynamics/isotensional/ex.rs:42-45 *)
Definition physics_single_chain_swfjc_thermodynamics_isotensional_nondimensional_gibbs_free_energy
    (number_of_links : Z) (link_length : T) (hinge_mass : T) (well_width : T) (nondimensional_force
    : T) (temperature : T) : T :=
  swfjc_isotensional.nondimensional_gibbs_free_energy number_of_links link_length hinge_mass
      well_width nondimensional_force temperature.

(* /repo/src/physics/single_chain/swfjc/thermodynamics/isotensional/ex.rs:47-50 *)
Definition
    physics_single_chain_swfjc_thermodynamics_isotensional_nondimensional_gibbs_free_energy_per_link
    (link_length : T) (hinge_mass : T) (well_width : T) (nondimensional_force : T) (temperature : T)
    : T :=
  swfjc_isotensional.nondimensional_gibbs_free_energy_per_link link_length hinge_mass well_width
      nondimensional_force temperature.

(* /repo/src/physics/single_chain/swfjc/thermodynamics/isotensional/ex.rs:52-55 *)
Definition
    physics_single_chain_swfjc_thermodynamics_isotensional_nondimensional_relative_gibbs_free_energy
    (number_of_links : Z) (link_length : T) (well_width : T) (nondimensional_force : T) : T :=
  swfjc_isotensional.nondimensional_relative_gibbs_free_energy number_of_links link_length
      well_width nondimensional_force.

(* /repo/src/physics/single_chain/swfjc/thermodynamics/isotensional/ex.rs:57-60 *)
Definition
    physics_single_chain_swfjc_thermodynamics_isotensional_nondimensional_relative_gibbs_free_energy_per_link
    (link_length : T) (well_width : T) (nondimensional_force : T) : T :=
  swfjc_isotensional.nondimensional_relative_gibbs_free_energy_per_link link_length well_width
      nondimensional_force.

(* /repo/src/physics/single_chain/swfjc/thermodynamics/isotensional/legendre/ex.rs:2-5 *)
Definition physics_single_chain_swfjc_thermodynamics_isotensional_legendre_helmholtz_free_energy
    (number_of_links : Z) (link_length : T) (hinge_mass : T) (well_width : T) (force : T)
    (temperature : T) : T :=
  swfjc_isotensional_legendre.helmholtz_free_energy number_of_links link_length hinge_mass
      well_width force temperature.

(* /repo/src/physics/single_chain/swfjc/thermodynamics/isotensional/legendre/ex.rs:7-10 *)
Definition
    physics_single_chain_swfjc_thermodynamics_isotensional_legendre_helmholtz_free_energy_per_link
    (link_length : T) (hinge_mass : T) (well_width : T) (force : T) (temperature : T) : T :=
  swfjc_isotensional_legendre.helmholtz_free_energy_per_link link_length hinge_mass well_width force
      temperature.

(* /repo/src/physics/single_chain/swfjc/thermodynamics/isotensional/legendre/ex.rs:12-15 *)
Definition
    physics_single_chain_swfjc_thermodynamics_isotensional_legendre_relative_helmholtz_free_energy
    (number_of_links : Z) (link_length : T) (well_width : T) (force : T) (temperature : T) : T :=
  swfjc_isotensional_legendre.relative_helmholtz_free_energy number_of_links link_length well_width
      force temperature.

(* /repo/src/physics/single_chain/swfjc/thermodynamics/isotensional/legendre/ex.rs:17-20 *)
Definition
    physics_single_chain_swfjc_thermodynamics_isotensional_legendre_relative_helmholtz_free_energy_per_link
    (link_length : T) (well_width : T) (force : T) (temperature : T) : T :=
  swfjc_isotensional_legendre.relative_helmholtz_free_energy_per_link link_length well_width force
      temperature.

(* /repo/src/physics/single_chain/swfjc/thermodynamics/isotensional/legendre/ex.rs:22-25 *)
Definition
    physics_single_chain_swfjc_thermodynamics_isotensional_legendre_nondimensional_helmholtz_free_energy
    (number_of_links : Z) (link_length : T) (hinge_mass : T) (well_width : T) (nondimensional_force
    : T) (temperature : T) : T :=
  swfjc_isotensional_legendre.nondimensional_helmholtz_free_energy number_of_links link_length
      hinge_mass well_width nondimensional_force temperature.

(* /repo/src/physics/single_chain/swfjc/thermodynamics/isotensional/legendre/ex.rs:27-30 *)
Definition
    physics_single_chain_swfjc_thermodynamics_isotensional_legendre_nondimensional_helmholtz_free_energy_per_link
    (link_length : T) (hinge_mass : T) (well_width : T) (nondimensional_force : T) (temperature : T)
    : T :=
  swfjc_isotensional_legendre.nondimensional_helmholtz_free_energy_per_link link_length hinge_mass
      well_width nondimensional_force temperature.

(* /repo/src/physics/single_chain/swfjc/thermodynamics/isotensional/legendre/ex.rs:32-35 *)
Definition
    physics_single_chain_swfjc_thermodynamics_isotensional_legendre_nondimensional_relative_helmholtz_free_energy
    (number_of_links : Z) (link_length : T) (well_width : T) (nondimensional_force : T) : T :=
  swfjc_isotensional_legendre.nondimensional_relative_helmholtz_free_energy number_of_links
      link_length well_width nondimensional_force.

(* /repo/src/physics/single_chain/swfjc/thermodynamics/isotensional/legendre/ex.rs:37-40 *)
Definition
    physics_single_chain_swfjc_thermodynamics_isotensional_legendre_nondimensional_relative_helmholtz_free_energy_per_link
    (link_length : T) (well_width : T) (nondimensional_force : T) : T :=
  swfjc_isotensional_legendre.nondimensional_relative_helmholtz_free_energy_per_link link_length
      well_width nondimensional_force.

(* /repo/src/physics/single_chain/ufjc/lennard_jones/thermodynamics/isometric/asymptotic/legendre/ex.rs:2-5 *)
Definition
    physics_single_chain_ufjc_lennard_jones_thermodynamics_isometric_asymptotic_legendre_force
    (number_of_links : Z) (link_length : T) (link_stiffness : T) (end_to_end_length : T)
    (temperature : T) : T :=
  lennard_jones_isometric_asymptotic_legendre.force number_of_links link_length link_stiffness
      end_to_end_length temperature.

(* /repo/src/physics/single_chain/ufjc/lennard_jones/thermodynamics/isometric/asymptotic/legendre/ex.rs:7-10 *)
Definition
    physics_single_chain_ufjc_lennard_jones_thermodynamics_isometric_asymptotic_legendre_nondimensional_force
    (nondimensional_link_stiffness : T) (nondimensional_end_to_end_length_per_link : T) : T :=
  lennard_jones_isometric_asymptotic_legendre.nondimensional_force nondimensional_link_stiffness
      nondimensional_end_to_end_length_per_link.

(* /repo/src/physics/single_chain/ufjc/lennard_jones/thermodynamics/isometric/asymptotic/legendre/ex.rs:12-15 *)
Definition
    physics_single_chain_ufjc_lennard_jones_thermodynamics_isometric_asymptotic_legendre_helmholtz_free_energy
    (number_of_links : Z) (link_length : T) (hinge_mass : T) (link_stiffness : T) (end_to_end_length
    : T) (temperature : T) : T :=
  lennard_jones_isometric_asymptotic_legendre.helmholtz_free_energy number_of_links link_length
      hinge_mass link_stiffness end_to_end_length temperature.

(* /repo/src/physics/single_chain/ufjc/lennard_jones/thermodynamics/isometric/asymptotic/legendre/ex.rs:17-20 *)
Definition
    physics_single_chain_ufjc_lennard_jones_thermodynamics_isometric_asymptotic_legendre_helmholtz_free_energy_per_link
    (number_of_links : Z) (link_length : T) (hinge_mass : T) (link_stiffness : T) (end_to_end_length
    : T) (temperature : T) : T :=
  lennard_jones_isometric_asymptotic_legendre.helmholtz_free_energy_per_link number_of_links
      link_length hinge_mass link_stiffness end_to_end_length temperature.

(* /repo/src/physics/single_chain/ufjc/lennard_jones/thermodynamics/isometric/asymptotic/legendre/ex.rs:22-25 *)
Definition
    physics_single_chain_ufjc_lennard_jones_thermodynamics_isometric_asymptotic_legendre_relative_helmholtz_free_energy
    (number_of_links : Z) (link_length : T) (link_stiffness : T) (end_to_end_length : T)
    (temperature : T) : T :=
  lennard_jones_isometric_asymptotic_legendre.relative_helmholtz_free_energy number_of_links
      link_length link_stiffness end_to_end_length temperature.

(* /repo/src/physics/single_chain/ufjc/lennard_jones/thermodynamics/isometric/asymptotic/legendre/ex.rs:27-30 *)
Definition
    physics_single_chain_ufjc_lennard_jones_thermodynamics_isometric_asymptotic_legendre_relative_helmholtz_free_energy_per_link
    (number_of_links : Z) (link_length : T) (link_stiffness : T) (end_to_end_length : T)
    (temperature : T) : T :=
  lennard_jones_isometric_asymptotic_legendre.relative_helmholtz_free_energy_per_link
      number_of_links link_length link_stiffness end_to_end_length temperature.

(* /repo/src/physics/single_chain/ufjc/lennard_jones/thermodynamics/isometric/asymptotic/legendre/ex.rs:32-35 *)
Definition
    physics_single_chain_ufjc_lennard_jones_thermodynamics_isometric_asymptotic_legendre_nondimensional_helmholtz_free_energy
    (number_of_links : Z) (link_length : T) (hinge_mass : T) (nondimensional_link_stiffness : T)
    (nondimensional_end_to_end_length_per_link : T) (temperature : T) : T :=
  lennard_jones_isometric_asymptotic_legendre.nondimensional_helmholtz_free_energy number_of_links
      link_length hinge_mass nondimensional_link_stiffness nondimensional_end_to_end_length_per_link
      temperature.

(* /repo/src/physics/single_chain/ufjc/lennard_jones/thermodynamics/isometric/asymptotic/legendre/ex.rs:37-40 *)
Definition
    physics_single_chain_ufjc_lennard_jones_thermodynamics_isometric_asymptotic_legendre_nondimensional_helmholtz_free_energy_per_link
    (number_of_links : Z) (link_length : T) (hinge_mass : T) (nondimensional_link_stiffness : T)
    (nondimensional_end_to_end_length_per_link : T) (temperature : T) : T :=
  lennard_jones_isometric_asymptotic_legendre.nondimensional_helmholtz_free_energy_per_link
      number_of_links link_length hinge_mass nondimensional_link_stiffness
      nondimensional_end_to_end_length_per_link temperature.

(* /repo/src/physics/single_chain/ufjc/lennard_jones/thermodynamics/isometric/asymptotic/legendre/ex.rs:42-45 *)
Definition
    physics_single_chain_ufjc_lennard_jones_thermodynamics_isometric_asymptotic_legendre_nondimensional_relative_helmholtz_free_energy
    (number_of_links : Z) (nondimensional_link_stiffness : T)
    (nondimensional_end_to_end_length_per_link : T) : T :=
  lennard_jones_isometric_asymptotic_legendre.nondimensional_relative_helmholtz_free_energy
      number_of_links nondimensional_link_stiffness nondimensional_end_to_end_length_per_link.

(* /repo/src/physics/single_chain/ufjc/lennard_jones/thermodynamics/isometric/asymptotic/legendre/ex.rs:47-50 *)
Definition
    physics_single_chain_ufjc_lennard_jones_thermodynamics_isometric_asymptotic_legendre_nondimensional_relative_helmholtz_free_energy_per_link
    (nondimensional_link_stiffness : T) (nondimensional_end_to_end_length_per_link : T) : T :=
  lennard_jones_isometric_asymptotic_legendre.nondimensional_relative_helmholtz_free_energy_per_link
      nondimensional_link_stiffness nondimensional_end_to_end_length_per_link.

(* /repo/src/physics/single_chain/ufjc/lennard_jones/thermodynamics/isometric/asymptotic/reduced/legendre/ex.rs:2-5 *)
Definition
    physics_single_chain_ufjc_lennard_jones_thermodynamics_isometric_asymptotic_reduced_legendre_force
    (number_of_links : Z) (link_length : T) (link_stiffness : T) (end_to_end_length : T)
    (temperature : T) : T :=
  lennard_jones_isometric_asymptotic_reduced_legendre.force number_of_links link_length
      link_stiffness end_to_end_length temperature.

(* /repo/src/physics/single_chain/ufjc/lennard_jones/thermodynamics/isometric/asymptotic/reduced/legendre/ex.rs:7-10 *)
Definition
    physics_single_chain_ufjc_lennard_jones_thermodynamics_isometric_asymptotic_reduced_legendre_nondimensional_force
    (nondimensional_link_stiffness : T) (nondimensional_end_to_end_length_per_link : T) : T :=
  lennard_jones_isometric_asymptotic_reduced_legendre.nondimensional_force
      nondimensional_link_stiffness nondimensional_end_to_end_length_per_link.

(* /repo/src/physics/single_chain/ufjc/lennard_jones/thermodynamics/isometric/asymptotic/reduced/legendre/ex.rs:12-15 *)
Definition
    physics_single_chain_ufjc_lennard_jones_thermodynamics_isometric_asymptotic_reduced_legendre_helmholtz_free_energy
    (number_of_links : Z) (link_length : T) (hinge_mass : T) (link_stiffness : T) (end_to_end_length
    : T) (temperature : T) : T :=
  lennard_jones_isometric_asymptotic_reduced_legendre.helmholtz_free_energy number_of_links
      link_length hinge_mass link_stiffness end_to_end_length temperature.

(* /repo/src/physics/single_chain/ufjc/lennard_jones/thermodynamics/isometric/asymptotic/reduced/legendre/ex.rs:17-20 *)
Definition
    physics_single_chain_ufjc_lennard_jones_thermodynamics_isometric_asymptotic_reduced_legendre_helmholtz_free_energy_per_link
    (number_of_links : Z) (link_length : T) (hinge_mass : T) (link_stiffness : T) (end_to_end_length
    : T) (temperature : T) : T :=
  lennard_jones_isometric_asymptotic_reduced_legendre.helmholtz_free_energy_per_link number_of_links
      link_length hinge_mass link_stiffness end_to_end_length temperature.

(* /repo/src/physics/single_chain/ufjc/lennard_jones/thermodynamics/isometric/asymptotic/reduced/legendre/ex.rs:22-25 *)
Definition
    physics_single_chain_ufjc_lennard_jones_thermodynamics_isometric_asymptotic_reduced_legendre_relative_helmholtz_free_energy
    (number_of_links : Z) (link_length : T) (link_stiffness : T) (end_to_end_length : T)
    (temperature : T) : T :=
  lennard_jones_isometric_asymptotic_reduced_legendre.relative_helmholtz_free_energy number_of_links
      link_length link_stiffness end_to_end_length temperature.

(* /repo/src/physics/single_chain/ufjc/lennard_jones/thermodynamics/isometric/asymptotic/reduced/legendre/ex.rs:27-30 *)
Definition
    physics_single_chain_ufjc_lennard_jones_thermodynamics_isometric_asymptotic_reduced_legendre_relative_helmholtz_free_energy_per_link
    (number_of_links : Z) (link_length : T) (link_stiffness : T) (end_to_end_length : T)
    (temperature : T) : T :=
  lennard_jones_isometric_asymptotic_reduced_legendre.relative_helmholtz_free_energy_per_link
      number_of_links link_length link_stiffness end_to_end_length temperature.

(* /repo/src/physics/single_chain/ufjc/lennard_jones/thermodynamics/isometric/asymptotic/reduced/legendre/ex.rs:32-35 *)
Definition
    physics_single_chain_ufjc_lennard_jones_thermodynamics_isometric_asymptotic_reduced_legendre_nondimensional_helmholtz_free_energy
    (number_of_links : Z) (link_length : T) (hinge_mass : T) (nondimensional_link_stiffness : T)
    (nondimensional_end_to_end_length_per_link : T) (temperature : T) : T :=
  lennard_jones_isometric_asymptotic_reduced_legendre.nondimensional_helmholtz_free_energy
      number_of_links link_length hinge_mass nondimensional_link_stiffness
      nondimensional_end_to_end_length_per_link temperature.

(* /repo/src/physics/single_chain/ufjc/lennard_jones/thermodynamics/isometric/asymptotic/reduced/legendre/ex.rs:37-40 *)
Definition
    physics_single_chain_ufjc_lennard_jones_thermodynamics_isometric_asymptotic_reduced_legendre_nondimensional_helmholtz_free_energy_per_link
    (number_of_links : Z) (link_length : T) (hinge_mass : T) (nondimensional_link_stiffness : T)
    (nondimensional_end_to_end_length_per_link : T) (temperature : T) : T :=
  lennard_jones_isometric_asymptotic_reduced_legendre.nondimensional_helmholtz_free_energy_per_link
      number_of_links link_length hinge_mass nondimensional_link_stiffness
      nondimensional_end_to_end_length_per_link temperature.

(* /repo/src/physics/single_chain/ufjc/lennard_jones/thermodynamics/isometric/asymptotic/reduced/legendre/ex.rs:42-45 *)
Definition
    physics_single_chain_ufjc_lennard_jones_thermodynamics_isometric_asymptotic_reduced_legendre_nondimensional_relative_helmholtz_free_energy
    (number_of_links : Z) (nondimensional_link_stiffness : T)
    (nondimensional_end_to_end_length_per_link : T) : T :=
  lennard_jones_isometric_asymptotic_reduced_legendre.nondimensional_relative_helmholtz_free_energy
      number_of_links nondimensional_link_stiffness nondimensional_end_to_end_length_per_link.

(* /repo/src/physics/single_chain/ufjc/lennard_jones/thermodynamics/isometric/asymptotic/reduced/legendre/ex.rs:47-50 *)
Definition
    physics_single_chain_ufjc_lennard_jones_thermodynamics_isometric_asymptotic_reduced_legendre_nondimensional_relative_helmholtz_free_energy_per_link
    (nondimensional_link_stiffness : T) (nondimensional_end_to_end_length_per_link : T) : T :=
  lennard_jones_isometric_asymptotic_reduced_legendre.nondimensional_relative_helmholtz_free_energy_per_link
      nondimensional_link_stiffness nondimensional_end_to_end_length_per_link.

(* /repo/src/physics/single_chain/ufjc/lennard_jones/thermodynamics/isotensional/ex.rs:2-5 *)
Definition physics_single_chain_ufjc_lennard_jones_thermodynamics_isotensional_end_to_end_length
    (number_of_links : Z) (link_length : T) (link_stiffness : T) (force : T) (temperature : T) : T
    :=
  lennard_jones_isotensional.end_to_end_length number_of_links link_length link_stiffness force
      temperature.

(* /repo/src/physics/single_chain/ufjc/lennard_jones/thermodynamics/isotensional/ex.rs:7-10 *)
Definition
    physics_single_chain_ufjc_lennard_jones_thermodynamics_isotensional_end_to_end_length_per_link
    (link_length : T) (link_stiffness : T) (force : T) (temperature : T) : T :=
  lennard_jones_isotensional.end_to_end_length_per_link link_length link_stiffness force
      temperature.

(* /repo/src/physics/single_chain/ufjc/lennard_jones/thermodynamics/isotensional/ex.rs:12-15 *)
Definition
    physics_single_chain_ufjc_lennard_jones_thermodynamics_isotensional_nondimensional_end_to_end_length
    (number_of_links : Z) (nondimensional_link_stiffness : T) (nondimensional_force : T) : T :=
  lennard_jones_isotensional.nondimensional_end_to_end_length number_of_links
      nondimensional_link_stiffness nondimensional_force.

(* /repo/src/physics/single_chain/ufjc/lennard_jones/thermodynamics/isotensional/ex.rs:17-20 *)
Definition
    physics_single_chain_ufjc_lennard_jones_thermodynamics_isotensional_nondimensional_end_to_end_length_per_link
    (nondimensional_link_stiffness : T) (nondimensional_force : T) : T :=
  lennard_jones_isotensional.nondimensional_end_to_end_length_per_link nondimensional_link_stiffness
      nondimensional_force.

(* /repo/src/physics/single_chain/ufjc/lennard_jones/thermodynamics/isotensional/ex.rs:22-25 *)
Definition physics_single_chain_ufjc_lennard_jones_thermodynamics_isotensional_gibbs_free_energy
    (number_of_links : Z) (link_length : T) (hinge_mass : T) (link_stiffness : T) (force : T)
    (temperature : T) : T :=
  lennard_jones_isotensional.gibbs_free_energy number_of_links link_length hinge_mass link_stiffness
      force temperature.

(* /repo/src/physics/single_chain/ufjc/lennard_jones/thermodynamics/isotensional/ex.rs:27-30 *)
Definition
    physics_single_chain_ufjc_lennard_jones_thermodynamics_isotensional_gibbs_free_energy_per_link
    (link_length : T) (hinge_mass : T) (link_stiffness : T) (force : T) (temperature : T) : T :=
  lennard_jones_isotensional.gibbs_free_energy_per_link link_length hinge_mass link_stiffness force
      temperature.

(* /repo/src/physics/single_chain/ufjc/lennard_jones/thermodynamics/isotensional/ex.rs:32-35 *)
Definition
    physics_single_chain_ufjc_lennard_jones_thermodynamics_isotensional_relative_gibbs_free_energy
    (number_of_links : Z) (link_length : T) (link_stiffness : T) (force : T) (temperature : T) : T
    :=
  lennard_jones_isotensional.relative_gibbs_free_energy number_of_links link_length link_stiffness
      force temperature.

(* /repo/src/physics/single_chain/ufjc/lennard_jones/thermodynamics/isotensional/ex.rs:37-40 *)
Definition
    physics_single_chain_ufjc_lennard_jones_thermodynamics_isotensional_relative_gibbs_free_energy_per_link
    (link_length : T) (link_stiffness : T) (force : T) (temperature : T) : T :=
  lennard_jones_isotensional.relative_gibbs_free_energy_per_link link_length link_stiffness force
      temperature.

(* /repo/src/physics/single_chain/ufjc/lennard_jones/thermodynamics/isotensional/ex.rs:42-45 *)
Definition
    physics_single_chain_ufjc_lennard_jones_thermodynamics_isotensional_nondimensional_gibbs_free_energy
    (number_of_links : Z) (link_length : T) (hinge_mass : T) (nondimensional_link_stiffness : T)
    (nondimensional_force : T) (temperature : T) : T :=
  lennard_jones_isotensional.nondimensional_gibbs_free_energy number_of_links link_length hinge_mass
      nondimensional_link_stiffness nondimensional_force temperature.

(* /repo/src/physics/single_chain/ufjc/lennard_jones/thermodynamics/isotensional/ex.rs:47-50 *)
Definition
    physics_single_chain_ufjc_lennard_jones_thermodynamics_isotensional_nondimensional_gibbs_free_energy_per_link
    (link_length : T) (hinge_mass : T) (nondimensional_link_stiffness : T) (nondimensional_force :
    T) (temperature : T) : T :=
  lennard_jones_isotensional.nondimensional_gibbs_free_energy_per_link link_length hinge_mass
      nondimensional_link_stiffness nondimensional_force temperature.

(* /repo/src/physics/single_chain/ufjc/lennard_jones/thermodynamics/isotensional/ex.rs:52-55 *)
Definition
    physics_single_chain_ufjc_lennard_jones_thermodynamics_isotensional_nondimensional_relative_gibbs_free_energy
    (number_of_links : Z) (nondimensional_link_stiffness : T) (nondimensional_force : T) : T :=
  lennard_jones_isotensional.nondimensional_relative_gibbs_free_energy number_of_links
      nondimensional_link_stiffness nondimensional_force.

(* /repo/src/physics/single_chain/ufjc/lennard_jones/thermodynamics/isotensional/ex.rs:57-60 *)
Definition
    physics_single_chain_ufjc_lennard_jones_thermodynamics_isotensional_nondimensional_relative_gibbs_free_energy_per_link
    (nondimensional_link_stiffness : T) (nondimensional_force : T) : T :=
  lennard_jones_isotensional.nondimensional_relative_gibbs_free_energy_per_link
      nondimensional_link_stiffness nondimensional_force.

(* /repo/src/physics/single_chain/ufjc/lennard_jones/thermodynamics/isotensional/asymptotic/ex.rs:2-5 *)
Definition
    physics_single_chain_ufjc_lennard_jones_thermodynamics_isotensional_asymptotic_end_to_end_length
    (number_of_links : Z) (link_length : T) (link_stiffness : T) (force : T) (temperature : T) : T
    :=
  lennard_jones_isotensional_asymptotic.end_to_end_length number_of_links link_length link_stiffness
      force temperature.

(* /repo/src/physics/single_chain/ufjc/lennard_jones/thermodynamics/isotensional/asymptotic/ex.rs:7-10 *)
Definition
    physics_single_chain_ufjc_lennard_jones_thermodynamics_isotensional_asymptotic_end_to_end_length_per_link
    (link_length : T) (link_stiffness : T) (force : T) (temperature : T) : T :=
  lennard_jones_isotensional_asymptotic.end_to_end_length_per_link link_length link_stiffness force
      temperature.

(* /repo/src/physics/single_chain/ufjc/lennard_jones/thermodynamics/isotensional/asymptotic/ex.rs:12-15 *)
Definition
    physics_single_chain_ufjc_lennard_jones_thermodynamics_isotensional_asymptotic_nondimensional_end_to_end_length
    (number_of_links : Z) (nondimensional_link_stiffness : T) (nondimensional_force : T) : T :=
  lennard_jones_isotensional_asymptotic.nondimensional_end_to_end_length number_of_links
      nondimensional_link_stiffness nondimensional_force.

(* /repo/src/physics/single_chain/ufjc/lennard_jones/thermodynamics/isotensional/asymptotic/ex.rs:17-20 *)
Definition
    physics_single_chain_ufjc_lennard_jones_thermodynamics_isotensional_asymptotic_nondimensional_end_to_end_length_per_link
    (nondimensional_link_stiffness : T) (nondimensional_force : T) : T :=
  lennard_jones_isotensional_asymptotic.nondimensional_end_to_end_length_per_link
      nondimensional_link_stiffness nondimensional_force.

(* /repo/src/physics/single_chain/ufjc/lennard_jones/thermodynamics/isotensional/asymptotic/ex.rs:22-25 *)
Definition
    physics_single_chain_ufjc_lennard_jones_thermodynamics_isotensional_asymptotic_gibbs_free_energy
    (number_of_links : Z) (link_length : T) (hinge_mass : T) (link_stiffness : T) (force : T)
    (temperature : T) : T :=
  lennard_jones_isotensional_asymptotic.gibbs_free_energy number_of_links link_length hinge_mass
      link_stiffness force temperature.

(* /repo/src/physics/single_chain/ufjc/lennard_jones/thermodynamics/isotensional/asymptotic/ex.rs:27-30 *)
Definition
    physics_single_chain_ufjc_lennard_jones_thermodynamics_isotensional_asymptotic_gibbs_free_energy_per_link
    (link_length : T) (hinge_mass : T) (link_stiffness : T) (force : T) (temperature : T) : T :=
  lennard_jones_isotensional_asymptotic.gibbs_free_energy_per_link link_length hinge_mass
      link_stiffness force temperature.

(* /repo/src/physics/single_chain/ufjc/lennard_jones/thermodynamics/isotensional/asymptotic/ex.rs:32-35 *)
Definition
    physics_single_chain_ufjc_lennard_jones_thermodynamics_isotensional_asymptotic_relative_gibbs_free_energy
    (number_of_links : Z) (link_length : T) (link_stiffness : T) (force : T) (temperature : T) : T
    :=
  lennard_jones_isotensional_asymptotic.relative_gibbs_free_energy number_of_links link_length
      link_stiffness force temperature.

(* /repo/src/physics/single_chain/ufjc/lennard_jones/thermodynamics/isotensional/asymptotic/ex.rs:37-40 *)
Definition
    physics_single_chain_ufjc_lennard_jones_thermodynamics_isotensional_asymptotic_relative_gibbs_free_energy_per_link
    (link_length : T) (link_stiffness : T) (force : T) (temperature : T) : T :=
  lennard_jones_isotensional_asymptotic.relative_gibbs_free_energy_per_link link_length
      link_stiffness force temperature.

(* /repo/src/physics/single_chain/ufjc/lennard_jones/thermodynamics/isotensional/asymptotic/ex.rs:42-45 *)
Definition
    physics_single_chain_ufjc_lennard_jones_thermodynamics_isotensional_asymptotic_nondimensional_gibbs_free_energy
    (number_of_links : Z) (link_length : T) (hinge_mass : T) (nondimensional_link_stiffness : T)
    (nondimensional_force : T) (temperature : T) : T :=
  lennard_jones_isotensional_asymptotic.nondimensional_gibbs_free_energy number_of_links link_length
      hinge_mass nondimensional_link_stiffness nondimensional_force temperature.

(* /repo/src/physics/single_chain/ufjc/lennard_jones/thermodynamics/isotensional/asymptotic/ex.rs:47-50 *)
Definition
    physics_single_chain_ufjc_lennard_jones_thermodynamics_isotensional_asymptotic_nondimensional_gibbs_free_energy_per_link
    (link_length : T) (hinge_mass : T) (nondimensional_link_stiffness : T) (nondimensional_force :
    T) (temperature : T) : T :=
  lennard_jones_isotensional_asymptotic.nondimensional_gibbs_free_energy_per_link link_length
      hinge_mass nondimensional_link_stiffness nondimensional_force temperature.

(* /repo/src/physics/single_chain/ufjc/lennard_jones/thermodynamics/isotensional/asymptotic/ex.rs:52-55 *)
Definition
    physics_single_chain_ufjc_lennard_jones_thermodynamics_isotensional_asymptotic_nondimensional_relative_gibbs_free_energy
    (number_of_links : Z) (nondimensional_link_stiffness : T) (nondimensional_force : T) : T :=
  lennard_jones_isotensional_asymptotic.nondimensional_relative_gibbs_free_energy number_of_links
      nondimensional_link_stiffness nondimensional_force.

(* /repo/src/physics/single_chain/ufjc/lennard_jones/thermodynamics/isotensional/asymptotic/ex.rs:57-60 *)
Definition
    physics_single_chain_ufjc_lennard_jones_thermodynamics_isotensional_asymptotic_nondimensional_relative_gibbs_free_energy_per_link
    (nondimensional_link_stiffness : T) (nondimensional_force : T) : T :=
  lennard_jones_isotensional_asymptotic.nondimensional_relative_gibbs_free_energy_per_link
      nondimensional_link_stiffness nondimensional_force.

(* /repo/src/physics/single_chain/ufjc/lennard_jones/thermodynamics/isotensional/asymptotic/legendre/ex.rs:2-5 *)
Definition
    physics_single_chain_ufjc_lennard_jones_thermodynamics_isotensional_asymptotic_legendre_helmholtz_free_energy
    (number_of_links : Z) (link_length : T) (hinge_mass : T) (link_stiffness : T) (force : T)
    (temperature : T) : T :=
  lennard_jones_isotensional_asymptotic_legendre.helmholtz_free_energy number_of_links link_length
      hinge_mass link_stiffness force temperature.

(* /repo/src/physics/single_chain/ufjc/lennard_jones/thermodynamics/isotensional/asymptotic/legendre/ex.rs:7-10 *)
Definition
    physics_single_chain_ufjc_lennard_jones_thermodynamics_isotensional_asymptotic_legendre_helmholtz_free_energy_per_link
    (link_length : T) (hinge_mass : T) (link_stiffness : T) (force : T) (temperature : T) : T :=
  lennard_jones_isotensional_asymptotic_legendre.helmholtz_free_energy_per_link link_length
      hinge_mass link_stiffness force temperature.

(* /repo/src/physics/single_chain/ufjc/lennard_jones/thermodynamics/isotensional/asymptotic/legendre/ex.rs:12-15 *)
Definition
    physics_single_chain_ufjc_lennard_jones_thermodynamics_isotensional_asymptotic_legendre_relative_helmholtz_free_energy
    (number_of_links : Z) (link_length : T) (link_stiffness : T) (force : T) (temperature : T) : T
    :=
  lennard_jones_isotensional_asymptotic_legendre.relative_helmholtz_free_energy number_of_links
      link_length link_stiffness force temperature.

(* /repo/src/physics/single_chain/ufjc/lennard_jones/thermodynamics/isotensional/asymptotic/legendre/ex.rs:17-20 *)
Definition
    physics_single_chain_ufjc_lennard_jones_thermodynamics_isotensional_asymptotic_legendre_relative_helmholtz_free_energy_per_link
    (link_length : T) (link_stiffness : T) (force : T) (temperature : T) : T :=
  lennard_jones_isotensional_asymptotic_legendre.relative_helmholtz_free_energy_per_link link_length
      link_stiffness force temperature.

(* /repo/src/physics/single_chain/ufjc/lennard_jones/thermodynamics/isotensional/asymptotic/legendre/ex.rs:22-25 *)
Definition
    physics_single_chain_ufjc_lennard_jones_thermodynamics_isotensional_asymptotic_legendre_nondimensional_helmholtz_free_energy
    (number_of_links : Z) (link_length : T) (hinge_mass : T) (nondimensional_link_stiffness : T)
    (nondimensional_force : T) (temperature : T) : T :=
  lennard_jones_isotensional_asymptotic_legendre.nondimensional_helmholtz_free_energy
      number_of_links link_length hinge_mass nondimensional_link_stiffness nondimensional_force
      temperature.

(* /repo/src/physics/single_chain/ufjc/lennard_jones/thermodynamics/isotensional/asymptotic/legendre/ex.rs:27-30 *)
Definition
    physics_single_chain_ufjc_lennard_jones_thermodynamics_isotensional_asymptotic_legendre_nondimensional_helmholtz_free_energy_per_link
    (link_length : T) (hinge_mass : T) (nondimensional_link_stiffness : T) (nondimensional_force :
    T) (temperature : T) : T :=
  lennard_jones_isotensional_asymptotic_legendre.nondimensional_helmholtz_free_energy_per_link
      link_length hinge_mass nondimensional_link_stiffness nondimensional_force temperature.

(* /repo/src/physics/single_chain/ufjc/lennard_jones/thermodynamics/isotensional/asymptotic/legendre/ex.rs:32-35 *)
Definition
    physics_single_chain_ufjc_lennard_jones_thermodynamics_isotensional_asymptotic_legendre_nondimensional_relative_helmholtz_free_energy
    (number_of_links : Z) (nondimensional_link_stiffness : T) (nondimensional_force : T) : T :=
  lennard_jones_isotensional_asymptotic_legendre.nondimensional_relative_helmholtz_free_energy
      number_of_links nondimensional_link_stiffness nondimensional_force.

(* /repo/src/physics/single_chain/ufjc/lennard_jones/thermodynamics/isotensional/asymptotic/legendre/ex.rs:37-40 *)
Definition
    physics_single_chain_ufjc_lennard_jones_thermodynamics_isotensional_asymptotic_legendre_nondimensional_relative_helmholtz_free_energy_per_link
    (nondimensional_link_stiffness : T) (nondimensional_force : T) : T :=
  lennard_jones_isotensional_asymptotic_legendre.nondimensional_relative_helmholtz_free_energy_per_link
      nondimensional_link_stiffness nondimensional_force.

(* /repo/src/physics/single_chain/ufjc/lennard_jones/thermodynamics/isotensional/asymptotic/reduced/ex.rs:2-5 *)
Definition
    physics_single_chain_ufjc_lennard_jones_thermodynamics_isotensional_asymptotic_reduced_end_to_end_length
    (number_of_links : Z) (link_length : T) (link_stiffness : T) (force : T) (temperature : T) : T
    :=
  lennard_jones_isotensional_asymptotic_reduced.end_to_end_length number_of_links link_length
      link_stiffness force temperature.

(* /repo/src/physics/single_chain/ufjc/lennard_jones/thermodynamics/isotensional/asymptotic/reduced/ex.rs:7-10 *)
Definition
    physics_single_chain_ufjc_lennard_jones_thermodynamics_isotensional_asymptotic_reduced_end_to_end_length_per_link
    (link_length : T) (link_stiffness : T) (force : T) (temperature : T) : T :=
  lennard_jones_isotensional_asymptotic_reduced.end_to_end_length_per_link link_length
      link_stiffness force temperature.

(* /repo/src/physics/single_chain/ufjc/lennard_jones/thermodynamics/isotensional/asymptotic/reduced/ex.rs:12-15 *)
Definition
    physics_single_chain_ufjc_lennard_jones_thermodynamics_isotensional_asymptotic_reduced_nondimensional_end_to_end_length
    (number_of_links : Z) (nondimensional_link_stiffness : T) (nondimensional_force : T) : T :=
  lennard_jones_isotensional_asymptotic_reduced.nondimensional_end_to_end_length number_of_links
      nondimensional_link_stiffness nondimensional_force.

(* /repo/src/physics/single_chain/ufjc/lennard_jones/thermodynamics/isotensional/asymptotic/reduced/ex.rs:17-20 *)
Definition
    physics_single_chain_ufjc_lennard_jones_thermodynamics_isotensional_asymptotic_reduced_nondimensional_end_to_end_length_per_link
    (nondimensional_link_stiffness : T) (nondimensional_force : T) : T :=
  lennard_jones_isotensional_asymptotic_reduced.nondimensional_end_to_end_length_per_link
      nondimensional_link_stiffness nondimensional_force.

(* /repo/src/physics/single_chain/ufjc/lennard_jones/thermodynamics/isotensional/asymptotic/reduced/ex.rs:22-25 *)
Definition
    physics_single_chain_ufjc_lennard_jones_thermodynamics_isotensional_asymptotic_reduced_gibbs_free_energy
    (number_of_links : Z) (link_length : T) (hinge_mass : T) (link_stiffness : T) (force : T)
    (temperature : T) : T :=
  lennard_jones_isotensional_asymptotic_reduced.gibbs_free_energy number_of_links link_length
      hinge_mass link_stiffness force temperature.

(* /repo/src/physics/single_chain/ufjc/lennard_jones/thermodynamics/isotensional/asymptotic/reduced/ex.rs:27-30 *)
Definition
    physics_single_chain_ufjc_lennard_jones_thermodynamics_isotensional_asymptotic_reduced_gibbs_free_energy_per_link
    (link_length : T) (hinge_mass : T) (link_stiffness : T) (force : T) (temperature : T) : T :=
  lennard_jones_isotensional_asymptotic_reduced.gibbs_free_energy_per_link link_length hinge_mass
      link_stiffness force temperature.

(* /repo/src/physics/single_chain/ufjc/lennard_jones/thermodynamics/isotensional/asymptotic/reduced/ex.rs:32-35 *)
Definition
    physics_single_chain_ufjc_lennard_jones_thermodynamics_isotensional_asymptotic_reduced_relative_gibbs_free_energy
    (number_of_links : Z) (link_length : T) (link_stiffness : T) (force : T) (temperature : T) : T
    :=
  lennard_jones_isotensional_asymptotic_reduced.relative_gibbs_free_energy number_of_links
      link_length link_stiffness force temperature.

(* /repo/src/physics/single_chain/ufjc/lennard_jones/thermodynamics/isotensional/asymptotic/reduced/ex.rs:37-40 *)
Definition
    physics_single_chain_ufjc_lennard_jones_thermodynamics_isotensional_asymptotic_reduced_relative_gibbs_free_energy_per_link
    (link_length : T) (link_stiffness : T) (force : T) (temperature : T) : T :=
  lennard_jones_isotensional_asymptotic_reduced.relative_gibbs_free_energy_per_link link_length
      link_stiffness force temperature.

(* /repo/src/physics/single_chain/ufjc/lennard_jones/thermodynamics/isotensional/asymptotic/reduced/ex.rs:42-45 *)
Definition
    physics_single_chain_ufjc_lennard_jones_thermodynamics_isotensional_asymptotic_reduced_nondimensional_gibbs_free_energy
    (number_of_links : Z) (link_length : T) (hinge_mass : T) (nondimensional_link_stiffness : T)
    (nondimensional_force : T) (temperature : T) : T :=
  lennard_jones_isotensional_asymptotic_reduced.nondimensional_gibbs_free_energy number_of_links
      link_length hinge_mass nondimensional_link_stiffness nondimensional_force temperature.

(* /repo/src/physics/single_chain/ufjc/lennard_jones/thermodynamics/isotensional/asymptotic/reduced/ex.rs:47-50 *)
Definition
    physics_single_chain_ufjc_lennard_jones_thermodynamics_isotensional_asymptotic_reduced_nondimensional_gibbs_free_energy_per_link
    (link_length : T) (hinge_mass : T) (nondimensional_link_stiffness : T) (nondimensional_force :
    T) (temperature : T) : T :=
  lennard_jones_isotensional_asymptotic_reduced.nondimensional_gibbs_free_energy_per_link
      link_length hinge_mass nondimensional_link_stiffness nondimensional_force temperature.

(* /repo/src/physics/single_chain/ufjc/lennard_jones/thermodynamics/isotensional/asymptotic/reduced/ex.rs:52-55 *)
Definition
    physics_single_chain_ufjc_lennard_jones_thermodynamics_isotensional_asymptotic_reduced_nondimensional_relative_gibbs_free_energy
    (number_of_links : Z) (nondimensional_link_stiffness : T) (nondimensional_force : T) : T :=
  lennard_jones_isotensional_asymptotic_reduced.nondimensional_relative_gibbs_free_energy
      number_of_links nondimensional_link_stiffness nondimensional_force.

(* /repo/src/physics/single_chain/ufjc/lennard_jones/thermodynamics/isotensional/asymptotic/reduced/ex.rs:57-60 *)
Definition
    physics_single_chain_ufjc_lennard_jones_thermodynamics_isotensional_asymptotic_reduced_nondimensional_relative_gibbs_free_energy_per_link
    (nondimensional_link_stiffness : T) (nondimensional_force : T) : T :=
  lennard_jones_isotensional_asymptotic_reduced.nondimensional_relative_gibbs_free_energy_per_link
      nondimensional_link_stiffness nondimensional_force.

(* /repo/src/physics/single_chain/ufjc/lennard_jones/thermodynamics/isotensional/asymptotic/reduced/legendre/ex.rs:2-5 *)
Definition
    physics_single_chain_ufjc_lennard_jones_thermodynamics_isotensional_asymptotic_reduced_legendre_helmholtz_free_energy
    (number_of_links : Z) (link_length : T) (hinge_mass : T) (link_stiffness : T) (force : T)
    (temperature : T) : T :=
  lennard_jones_isotensional_asymptotic_reduced_legendre.helmholtz_free_energy number_of_links
      link_length hinge_mass link_stiffness force temperature.

(* /repo/src/physics/single_chain/ufjc/lennard_jones/thermodynamics/isotensional/asymptotic/reduced/legendre/ex.rs:7-10 *)
Definition
    physics_single_chain_ufjc_lennard_jones_thermodynamics_isotensional_asymptotic_reduced_legendre_helmholtz_free_energy_per_link
    (link_length : T) (hinge_mass : T) (link_stiffness : T) (force : T) (temperature : T) : T :=
  lennard_jones_isotensional_asymptotic_reduced_legendre.helmholtz_free_energy_per_link link_length
      hinge_mass link_stiffness force temperature.

(* /repo/src/physics/single_chain/ufjc/lennard_jones/thermodynamics/isotensional/asymptotic/reduced/legendre/ex.rs:12-15 *)
Definition
    physics_single_chain_ufjc_lennard_jones_thermodynamics_isotensional_asymptotic_reduced_legendre_relative_helmholtz_free_energy
    (number_of_links : Z) (link_length : T) (link_stiffness : T) (force : T) (temperature : T) : T
    :=
  lennard_jones_isotensional_asymptotic_reduced_legendre.relative_helmholtz_free_energy
      number_of_links link_length link_stiffness force temperature.

(* /repo/src/physics/single_chain/ufjc/lennard_jones/thermodynamics/isotensional/asymptotic/reduced/legendre/ex.rs:17-20 *)
Definition
    physics_single_chain_ufjc_lennard_jones_thermodynamics_isotensional_asymptotic_reduced_legendre_relative_helmholtz_free_energy_per_link
    (link_length : T) (link_stiffness : T) (force : T) (temperature : T) : T :=
  lennard_jones_isotensional_asymptotic_reduced_legendre.relative_helmholtz_free_energy_per_link
      link_length link_stiffness force temperature.

(* /repo/src/physics/single_chain/ufjc/lennard_jones/thermodynamics/isotensional/asymptotic/reduced/legendre/ex.rs:22-25 *)
Definition
    physics_single_chain_ufjc_lennard_jones_thermodynamics_isotensional_asymptotic_reduced_legendre_nondimensional_helmholtz_free_energy
    (number_of_links : Z) (link_length : T) (hinge_mass : T) (nondimensional_link_stiffness : T)
    (nondimensional_force : T) (temperature : T) : T :=
  lennard_jones_isotensional_asymptotic_reduced_legendre.nondimensional_helmholtz_free_energy
      number_of_links link_length hinge_mass nondimensional_link_stiffness nondimensional_force
      temperature.

(* /repo/src/physics/single_chain/ufjc/lennard_jones/thermodynamics/isotensional/asymptotic/reduced/legendre/ex.rs:27-30 *)
Definition
    physics_single_chain_ufjc_lennard_jones_thermodynamics_isotensional_asymptotic_reduced_legendre_nondimensional_helmholtz_free_energy_per_link
    (link_length : T) (hinge_mass : T) (nondimensional_link_stiffness : T) (nondimensional_force :
    T) (temperature : T) : T :=
  lennard_jones_isotensional_asymptotic_reduced_legendre.nondimensional_helmholtz_free_energy_per_link
      link_length hinge_mass nondimensional_link_stiffness nondimensional_force temperature.

(* /repo/src/physics/single_chain/ufjc/lennard_jones/thermodynamics/isotensional/asymptotic/reduced/legendre/ex.rs:32-35 *)
Definition
    physics_single_chain_ufjc_lennard_jones_thermodynamics_isotensional_asymptotic_reduced_legendre_nondimensional_relative_helmholtz_free_energy
    (number_of_links : Z) (nondimensional_link_stiffness : T) (nondimensional_force : T) : T :=
  lennard_jones_isotensional_asymptotic_reduced_legendre.nondimensional_relative_helmholtz_free_energy
      number_of_links nondimensional_link_stiffness nondimensional_force.

(* /repo/src/physics/single_chain/ufjc/lennard_jones/thermodynamics/isotensional/asymptotic/reduced/legendre/ex.rs:37-40 *)
Definition
    physics_single_chain_ufjc_lennard_jones_thermodynamics_isotensional_asymptotic_reduced_legendre_nondimensional_relative_helmholtz_free_energy_per_link
    (nondimensional_link_stiffness : T) (nondimensional_force : T) : T :=
  lennard_jones_isotensional_asymptotic_reduced_legendre.nondimensional_relative_helmholtz_free_energy_per_link
      nondimensional_link_stiffness nondimensional_force.

(* /repo/src/physics/single_chain/ufjc/lennard_jones/thermodynamics/isotensional/legendre/ex.rs:2-5 *)
Definition
    physics_single_chain_ufjc_lennard_jones_thermodynamics_isotensional_legendre_helmholtz_free_energy
    (number_of_links : Z) (link_length : T) (hinge_mass : T) (link_stiffness : T) (force : T)
    (temperature : T) : T :=
  lennard_jones_isotensional_legendre.helmholtz_free_energy number_of_links link_length hinge_mass
      link_stiffness force temperature.

(* /repo/src/physics/single_chain/ufjc/lennard_jones/thermodynamics/isotensional/legendre/ex.rs:7-10 *)
Definition
    physics_single_chain_ufjc_lennard_jones_thermodynamics_isotensional_legendre_helmholtz_free_energy_per_link
    (link_length : T) (hinge_mass : T) (link_stiffness : T) (force : T) (temperature : T) : T :=
  lennard_jones_isotensional_legendre.helmholtz_free_energy_per_link link_length hinge_mass
      link_stiffness force temperature.

(* /repo/src/physics/single_chain/ufjc/lennard_jones/thermodynamics/isotensional/legendre/ex.rs:12-15 *)
Definition
    physics_single_chain_ufjc_lennard_jones_thermodynamics_isotensional_legendre_relative_helmholtz_free_energy
    (number_of_links : Z) (link_length : T) (link_stiffness : T) (force : T) (temperature : T) : T
    :=
  lennard_jones_isotensional_legendre.relative_helmholtz_free_energy number_of_links link_length
      link_stiffness force temperature.

(* /repo/src/physics/single_chain/ufjc/lennard_jones/thermodynamics/isotensional/legendre/ex.rs:17-20 *)
Definition
    physics_single_chain_ufjc_lennard_jones_thermodynamics_isotensional_legendre_relative_helmholtz_free_energy_per_link
    (link_length : T) (link_stiffness : T) (force : T) (temperature : T) : T :=
  lennard_jones_isotensional_legendre.relative_helmholtz_free_energy_per_link link_length
      link_stiffness force temperature.

(* /repo/src/physics/single_chain/ufjc/lennard_jones/thermodynamics/isotensional/legendre/ex.rs:22-25 *)
Definition
    physics_single_chain_ufjc_lennard_jones_thermodynamics_isotensional_legendre_nondimensional_helmholtz_free_energy
    (number_of_links : Z) (link_length : T) (hinge_mass : T) (nondimensional_link_stiffness : T)
    (nondimensional_force : T) (temperature : T) : T :=
  lennard_jones_isotensional_legendre.nondimensional_helmholtz_free_energy number_of_links
      link_length hinge_mass nondimensional_link_stiffness nondimensional_force temperature.

(* /repo/src/physics/single_chain/ufjc/lennard_jones/thermodynamics/isotensional/legendre/ex.rs:27-30 *)
Definition
    physics_single_chain_ufjc_lennard_jones_thermodynamics_isotensional_legendre_nondimensional_helmholtz_free_energy_per_link
    (link_length : T) (hinge_mass : T) (nondimensional_link_stiffness : T) (nondimensional_force :
    T) (temperature : T) : T :=
  lennard_jones_isotensional_legendre.nondimensional_helmholtz_free_energy_per_link link_length
      hinge_mass nondimensional_link_stiffness nondimensional_force temperature.

(* /repo/src/physics/single_chain/ufjc/lennard_jones/thermodynamics/isotensional/legendre/ex.rs:32-35 *)
Definition
    physics_single_chain_ufjc_lennard_jones_thermodynamics_isotensional_legendre_nondimensional_relative_helmholtz_free_energy
    (number_of_links : Z) (nondimensional_link_stiffness : T) (nondimensional_force : T) : T :=
  lennard_jones_isotensional_legendre.nondimensional_relative_helmholtz_free_energy number_of_links
      nondimensional_link_stiffness nondimensional_force.

(* /repo/src/physics/single_chain/ufjc/lennard_jones/thermodynamics/isotensional/legendre/ex.rs:37-40 *)
Definition
    physics_single_chain_ufjc_lennard_jones_thermodynamics_isotensional_legendre_nondimensional_relative_helmholtz_free_energy_per_link
    (nondimensional_link_stiffness : T) (nondimensional_force : T) : T :=
  lennard_jones_isotensional_legendre.nondimensional_relative_helmholtz_free_energy_per_link
      nondimensional_link_stiffness nondimensional_force.

(* /repo/src/physics/single_chain/ufjc/log_squared/thermodynamics/isometric/asymptotic/legendre/ex.rs:2-5 *)
Definition physics_single_chain_ufjc_log_squared_thermodynamics_isometric_asymptotic_legendre_force
    (number_of_links : Z) (link_length : T) (link_stiffness : T) (end_to_end_length : T)
    (temperature : T) : T :=
  log_squared_isometric_asymptotic_legendre.force number_of_links link_length link_stiffness
      end_to_end_length temperature.

(* /repo/src/physics/single_chain/ufjc/log_squared/thermodynamics/isometric/asymptotic/legendre/ex.rs:7-10 *)
Definition
    physics_single_chain_ufjc_log_squared_thermodynamics_isometric_asymptotic_legendre_nondimensional_force
    (nondimensional_link_stiffness : T) (nondimensional_end_to_end_length_per_link : T) : T :=
  log_squared_isometric_asymptotic_legendre.nondimensional_force nondimensional_link_stiffness
      nondimensional_end_to_end_length_per_link.

(* /repo/src/physics/single_chain/ufjc/log_squared/thermodynamics/isometric/asymptotic/legendre/ex.rs:12-15 *)
Definition
    physics_single_chain_ufjc_log_squared_thermodynamics_isometric_asymptotic_legendre_helmholtz_free_energy
    (number_of_links : Z) (link_length : T) (hinge_mass : T) (link_stiffness : T) (end_to_end_length
    : T) (temperature : T) : T :=
  log_squared_isometric_asymptotic_legendre.helmholtz_free_energy number_of_links link_length
      hinge_mass link_stiffness end_to_end_length temperature.

(* /repo/src/physics/single_chain/ufjc/log_squared/thermodynamics/isometric/asymptotic/legendre/ex.rs:17-20 *)
Definition
    physics_single_chain_ufjc_log_squared_thermodynamics_isometric_asymptotic_legendre_helmholtz_free_energy_per_link
    (number_of_links : Z) (link_length : T) (hinge_mass : T) (link_stiffness : T) (end_to_end_length
    : T) (temperature : T) : T :=
  log_squared_isometric_asymptotic_legendre.helmholtz_free_energy_per_link number_of_links
      link_length hinge_mass link_stiffness end_to_end_length temperature.

(* /repo/src/physics/single_chain/ufjc/log_squared/thermodynamics/isometric/asymptotic/legendre/ex.rs:22-25 *)
Definition
    physics_single_chain_ufjc_log_squared_thermodynamics_isometric_asymptotic_legendre_relative_helmholtz_free_energy
    (number_of_links : Z) (link_length : T) (link_stiffness : T) (end_to_end_length : T)
    (temperature : T) : T :=
  log_squared_isometric_asymptotic_legendre.relative_helmholtz_free_energy number_of_links
      link_length link_stiffness end_to_end_length temperature.

(* /repo/src/physics/single_chain/ufjc/log_squared/thermodynamics/isometric/asymptotic/legendre/ex.rs:27-30 *)
Definition
    physics_single_chain_ufjc_log_squared_thermodynamics_isometric_asymptotic_legendre_relative_helmholtz_free_energy_per_link
    (number_of_links : Z) (link_length : T) (link_stiffness : T) (end_to_end_length : T)
    (temperature : T) : T :=
  log_squared_isometric_asymptotic_legendre.relative_helmholtz_free_energy_per_link number_of_links
      link_length link_stiffness end_to_end_length temperature.

(* /repo/src/physics/single_chain/ufjc/log_squared/thermodynamics/isometric/asymptotic/legendre/ex.rs:32-35 *)
Definition
    physics_single_chain_ufjc_log_squared_thermodynamics_isometric_asymptotic_legendre_nondimensional_helmholtz_free_energy
    (number_of_links : Z) (link_length : T) (hinge_mass : T) (nondimensional_link_stiffness : T)
    (nondimensional_end_to_end_length_per_link : T) (temperature : T) : T :=
  log_squared_isometric_asymptotic_legendre.nondimensional_helmholtz_free_energy number_of_links
      link_length hinge_mass nondimensional_link_stiffness nondimensional_end_to_end_length_per_link
      temperature.

(* /repo/src/physics/single_chain/ufjc/log_squared/thermodynamics/isometric/asymptotic/legendre/ex.rs:37-40 *)
Definition
    physics_single_chain_ufjc_log_squared_thermodynamics_isometric_asymptotic_legendre_nondimensional_helmholtz_free_energy_per_link
    (number_of_links : Z) (link_length : T) (hinge_mass : T) (nondimensional_link_stiffness : T)
    (nondimensional_end_to_end_length_per_link : T) (temperature : T) : T :=
  log_squared_isometric_asymptotic_legendre.nondimensional_helmholtz_free_energy_per_link
      number_of_links link_length hinge_mass nondimensional_link_stiffness
      nondimensional_end_to_end_length_per_link temperature.

(* /repo/src/physics/single_chain/ufjc/log_squared/thermodynamics/isometric/asymptotic/legendre/ex.rs:42-45 *)
Definition
    physics_single_chain_ufjc_log_squared_thermodynamics_isometric_asymptotic_legendre_nondimensional_relative_helmholtz_free_energy
    (number_of_links : Z) (nondimensional_link_stiffness : T)
    (nondimensional_end_to_end_length_per_link : T) : T :=
  log_squared_isometric_asymptotic_legendre.nondimensional_relative_helmholtz_free_energy
      number_of_links nondimensional_link_stiffness nondimensional_end_to_end_length_per_link.

(* /repo/src/physics/single_chain/ufjc/log_squared/thermodynamics/isometric/asymptotic/legendre/ex.rs:47-50 *)
Definition
    physics_single_chain_ufjc_log_squared_thermodynamics_isometric_asymptotic_legendre_nondimensional_relative_helmholtz_free_energy_per_link
    (nondimensional_link_stiffness : T) (nondimensional_end_to_end_length_per_link : T) : T :=
  log_squared_isometric_asymptotic_legendre.nondimensional_relative_helmholtz_free_energy_per_link
      nondimensional_link_stiffness nondimensional_end_to_end_length_per_link.

(* /repo/src/physics/single_chain/ufjc/log_squared/thermodynamics/isometric/asymptotic/reduced/legendre/ex.rs:2-5 *)
Definition
    physics_single_chain_ufjc_log_squared_thermodynamics_isometric_asymptotic_reduced_legendre_force
    (number_of_links : Z) (link_length : T) (link_stiffness : T) (end_to_end_length : T)
    (temperature : T) : T :=
  log_squared_isometric_asymptotic_reduced_legendre.force number_of_links link_length link_stiffness
      end_to_end_length temperature.

(* /repo/src/physics/single_chain/ufjc/log_squared/thermodynamics/isometric/asymptotic/reduced/legendre/ex.rs:7-10 *)
Definition
    physics_single_chain_ufjc_log_squared_thermodynamics_isometric_asymptotic_reduced_legendre_nondimensional_force
    (nondimensional_link_stiffness : T) (nondimensional_end_to_end_length_per_link : T) : T :=
  log_squared_isometric_asymptotic_reduced_legendre.nondimensional_force
      nondimensional_link_stiffness nondimensional_end_to_end_length_per_link.

(* /repo/src/physics/single_chain/ufjc/log_squared/thermodynamics/isometric/asymptotic/reduced/legendre/ex.rs:12-15 *)
Definition
    physics_single_chain_ufjc_log_squared_thermodynamics_isometric_asymptotic_reduced_legendre_helmholtz_free_energy
    (number_of_links : Z) (link_length : T) (hinge_mass : T) (link_stiffness : T) (end_to_end_length
    : T) (temperature : T) : T :=
  log_squared_isometric_asymptotic_reduced_legendre.helmholtz_free_energy number_of_links
      link_length hinge_mass link_stiffness end_to_end_length temperature.

(* /repo/src/physics/single_chain/ufjc/log_squared/thermodynamics/isometric/asymptotic/reduced/legendre/ex.rs:17-20 *)
Definition
    physics_single_chain_ufjc_log_squared_thermodynamics_isometric_asymptotic_reduced_legendre_helmholtz_free_energy_per_link
    (number_of_links : Z) (link_length : T) (hinge_mass : T) (link_stiffness : T) (end_to_end_length
    : T) (temperature : T) : T :=
  log_squared_isometric_asymptotic_reduced_legendre.helmholtz_free_energy_per_link number_of_links
      link_length hinge_mass link_stiffness end_to_end_length temperature.

(* /repo/src/physics/single_chain/ufjc/log_squared/thermodynamics/isometric/asymptotic/reduced/legendre/ex.rs:22-25 *)
Definition
    physics_single_chain_ufjc_log_squared_thermodynamics_isometric_asymptotic_reduced_legendre_relative_helmholtz_free_energy
    (number_of_links : Z) (link_length : T) (link_stiffness : T) (end_to_end_length : T)
    (temperature : T) : T :=
  log_squared_isometric_asymptotic_reduced_legendre.relative_helmholtz_free_energy number_of_links
      link_length link_stiffness end_to_end_length temperature.

(* /repo/src/physics/single_chain/ufjc/log_squared/thermodynamics/isometric/asymptotic/reduced/legendre/ex.rs:27-30 *)
Definition
    physics_single_chain_ufjc_log_squared_thermodynamics_isometric_asymptotic_reduced_legendre_relative_helmholtz_free_energy_per_link
    (number_of_links : Z) (link_length : T) (link_stiffness : T) (end_to_end_length : T)
    (temperature : T) : T :=
  log_squared_isometric_asymptotic_reduced_legendre.relative_helmholtz_free_energy_per_link
      number_of_links link_length link_stiffness end_to_end_length temperature.

(* /repo/src/physics/single_chain/ufjc/log_squared/thermodynamics/isometric/asymptotic/reduced/legendre/ex.rs:32-35 *)
Definition
    physics_single_chain_ufjc_log_squared_thermodynamics_isometric_asymptotic_reduced_legendre_nondimensional_helmholtz_free_energy
    (number_of_links : Z) (link_length : T) (hinge_mass : T) (nondimensional_link_stiffness : T)
    (nondimensional_end_to_end_length_per_link : T) (temperature : T) : T :=
  log_squared_isometric_asymptotic_reduced_legendre.nondimensional_helmholtz_free_energy
      number_of_links link_length hinge_mass nondimensional_link_stiffness
      nondimensional_end_to_end_length_per_link temperature.

(* /repo/src/physics/single_chain/ufjc/log_squared/thermodynamics/isometric/asymptotic/reduced/legendre/ex.rs:37-40 *)
Definition
    physics_single_chain_ufjc_log_squared_thermodynamics_isometric_asymptotic_reduced_legendre_nondimensional_helmholtz_free_energy_per_link
    (number_of_links : Z) (link_length : T) (hinge_mass : T) (nondimensional_link_stiffness : T)
    (nondimensional_end_to_end_length_per_link : T) (temperature : T) : T :=
  log_squared_isometric_asymptotic_reduced_legendre.nondimensional_helmholtz_free_energy_per_link
      number_of_links link_length hinge_mass nondimensional_link_stiffness
      nondimensional_end_to_end_length_per_link temperature.

(* /repo/src/physics/single_chain/ufjc/log_squared/thermodynamics/isometric/asymptotic/reduced/legendre/ex.rs:42-45 *)
Definition
    physics_single_chain_ufjc_log_squared_thermodynamics_isometric_asymptotic_reduced_legendre_nondimensional_relative_helmholtz_free_energy
    (number_of_links : Z) (nondimensional_link_stiffness : T)
    (nondimensional_end_to_end_length_per_link : T) : T :=
  log_squared_isometric_asymptotic_reduced_legendre.nondimensional_relative_helmholtz_free_energy
      number_of_links nondimensional_link_stiffness nondimensional_end_to_end_length_per_link.

(* /repo/src/physics/single_chain/ufjc/log_squared/thermodynamics/isometric/asymptotic/reduced/legendre/ex.rs:47-50 *)
Definition
    physics_single_chain_ufjc_log_squared_thermodynamics_isometric_asymptotic_reduced_legendre_nondimensional_relative_helmholtz_free_energy_per_link
    (nondimensional_link_stiffness : T) (nondimensional_end_to_end_length_per_link : T) : T :=
  log_squared_isometric_asymptotic_reduced_legendre.nondimensional_relative_helmholtz_free_energy_per_link
      nondimensional_link_stiffness nondimensional_end_to_end_length_per_link.

(* /repo/src/physics/single_chain/ufjc/log_squared/thermodynamics/isotensional/ex.rs:2-5 *)
Definition physics_single_chain_ufjc_log_squared_thermodynamics_isotensional_end_to_end_length
    (number_of_links : Z) (link_length : T) (link_stiffness : T) (force : T) (temperature : T) : T
    :=
  log_squared_isotensional.end_to_end_length number_of_links link_length link_stiffness force
      temperature.

(* /repo/src/physics/single_chain/ufjc/log_squared/thermodynamics/isotensional/ex.rs:7-10 *)
Definition
    physics_single_chain_ufjc_log_squared_thermodynamics_isotensional_end_to_end_length_per_link
    (link_length : T) (link_stiffness : T) (force : T) (temperature : T) : T :=
  log_squared_isotensional.end_to_end_length_per_link link_length link_stiffness force temperature.

(* /repo/src/physics/single_chain/ufjc/log_squared/thermodynamics/isotensional/ex.rs:12-15 *)
Definition
    physics_single_chain_ufjc_log_squared_thermodynamics_isotensional_nondimensional_end_to_end_length
    (number_of_links : Z) (nondimensional_link_stiffness : T) (nondimensional_force : T) : T :=
  log_squared_isotensional.nondimensional_end_to_end_length number_of_links
      nondimensional_link_stiffness nondimensional_force.

(* /repo/src/physics/single_chain/ufjc/log_squared/thermodynamics/isotensional/ex.rs:17-20 *)
Definition
    physics_single_chain_ufjc_log_squared_thermodynamics_isotensional_nondimensional_end_to_end_length_per_link
    (nondimensional_link_stiffness : T) (nondimensional_force : T) : T :=
  log_squared_isotensional.nondimensional_end_to_end_length_per_link nondimensional_link_stiffness
      nondimensional_force.

(* /repo/src/physics/single_chain/ufjc/log_squared/thermodynamics/isotensional/ex.rs:22-25 *)
Definition physics_single_chain_ufjc_log_squared_thermodynamics_isotensional_gibbs_free_energy
    (number_of_links : Z) (link_length : T) (hinge_mass : T) (link_stiffness : T) (force : T)
    (temperature : T) : T :=
  log_squared_isotensional.gibbs_free_energy number_of_links link_length hinge_mass link_stiffness
      force temperature.

(* /repo/src/physics/single_chain/ufjc/log_squared/thermodynamics/isotensional/ex.rs:27-30 *)
Definition
    physics_single_chain_ufjc_log_squared_thermodynamics_isotensional_gibbs_free_energy_per_link
    (link_length : T) (hinge_mass : T) (link_stiffness : T) (force : T) (temperature : T) : T :=
  log_squared_isotensional.gibbs_free_energy_per_link link_length hinge_mass link_stiffness force
      temperature.

(* /repo/src/physics/single_chain/ufjc/log_squared/thermodynamics/isotensional/ex.rs:32-35 *)
Definition
    physics_single_chain_ufjc_log_squared_thermodynamics_isotensional_relative_gibbs_free_energy
    (number_of_links : Z) (link_length : T) (link_stiffness : T) (force : T) (temperature : T) : T
    :=
  log_squared_isotensional.relative_gibbs_free_energy number_of_links link_length link_stiffness
      force temperature.

(* /repo/src/physics/single_chain/ufjc/log_squared/thermodynamics/isotensional/ex.rs:37-40 *)
Definition
    physics_single_chain_ufjc_log_squared_thermodynamics_isotensional_relative_gibbs_free_energy_per_link
    (link_length : T) (link_stiffness : T) (force : T) (temperature : T) : T :=
  log_squared_isotensional.relative_gibbs_free_energy_per_link link_length link_stiffness force
      temperature.

(* /repo/src/physics/single_chain/ufjc/log_squared/thermodynamics/isotensional/ex.rs:42-45 *)
Definition
    physics_single_chain_ufjc_log_squared_thermodynamics_isotensional_nondimensional_gibbs_free_energy
    (number_of_links : Z) (link_length : T) (hinge_mass : T) (nondimensional_link_stiffness : T)
    (nondimensional_force : T) (temperature : T) : T :=
  log_squared_isotensional.nondimensional_gibbs_free_energy number_of_links link_length hinge_mass
      nondimensional_link_stiffness nondimensional_force temperature.

(* /repo/src/physics/single_chain/ufjc/log_squared/thermodynamics/isotensional/ex.rs:47-50 *)
Definition
    physics_single_chain_ufjc_log_squared_thermodynamics_isotensional_nondimensional_gibbs_free_energy_per_link
    (link_length : T) (hinge_mass : T) (nondimensional_link_stiffness : T) (nondimensional_force :
    T) (temperature : T) : T :=
  log_squared_isotensional.nondimensional_gibbs_free_energy_per_link link_length hinge_mass
      nondimensional_link_stiffness nondimensional_force temperature.

(* /repo/src/physics/single_chain/ufjc/log_squared/thermodynamics/isotensional/ex.rs:52-55 *)
Definition
    physics_single_chain_ufjc_log_squared_thermodynamics_isotensional_nondimensional_relative_gibbs_free_energy
    (number_of_links : Z) (nondimensional_link_stiffness : T) (nondimensional_force : T) : T :=
  log_squared_isotensional.nondimensional_relative_gibbs_free_energy number_of_links
      nondimensional_link_stiffness nondimensional_force.

(* /repo/src/physics/single_chain/ufjc/log_squared/thermodynamics/isotensional/ex.rs:57-60 *)
Definition
    physics_single_chain_ufjc_log_squared_thermodynamics_isotensional_nondimensional_relative_gibbs_free_energy_per_link
    (nondimensional_link_stiffness : T) (nondimensional_force : T) : T :=
  log_squared_isotensional.nondimensional_relative_gibbs_free_energy_per_link
      nondimensional_link_stiffness nondimensional_force.

(* /repo/src/physics/single_chain/ufjc/log_squared/thermodynamics/isotensional/asymptotic/ex.rs:2-5 *)
Definition
    physics_single_chain_ufjc_log_squared_thermodynamics_isotensional_asymptotic_end_to_end_length
    (number_of_links : Z) (link_length : T) (link_stiffness : T) (force : T) (temperature : T) : T
    :=
  log_squared_isotensional_asymptotic.end_to_end_length number_of_links link_length link_stiffness
      force temperature.

(* /repo/src/physics/single_chain/ufjc/log_squared/thermodynamics/isotensional/asymptotic/ex.rs:7-10 *)
Definition
    physics_single_chain_ufjc_log_squared_thermodynamics_isotensional_asymptotic_end_to_end_length_per_link
    (link_length : T) (link_stiffness : T) (force : T) (temperature : T) : T :=
  log_squared_isotensional_asymptotic.end_to_end_length_per_link link_length link_stiffness force
      temperature.

(* /repo/src/physics/single_chain/ufjc/log_squared/thermodynamics/isotensional/asymptotic/ex.rs:12-15 *)
Definition
    physics_single_chain_ufjc_log_squared_thermodynamics_isotensional_asymptotic_nondimensional_end_to_end_length
    (number_of_links : Z) (nondimensional_link_stiffness : T) (nondimensional_force : T) : T :=
  log_squared_isotensional_asymptotic.nondimensional_end_to_end_length number_of_links
      nondimensional_link_stiffness nondimensional_force.

(* /repo/src/physics/single_chain/ufjc/log_squared/thermodynamics/isotensional/asymptotic/ex.rs:17-20 *)
Definition
    physics_single_chain_ufjc_log_squared_thermodynamics_isotensional_asymptotic_nondimensional_end_to_end_length_per_link
    (nondimensional_link_stiffness : T) (nondimensional_force : T) : T :=
  log_squared_isotensional_asymptotic.nondimensional_end_to_end_length_per_link
      nondimensional_link_stiffness nondimensional_force.

(* /repo/src/physics/single_chain/ufjc/log_squared/thermodynamics/isotensional/asymptotic/ex.rs:22-25 *)
Definition
    physics_single_chain_ufjc_log_squared_thermodynamics_isotensional_asymptotic_gibbs_free_energy
    (number_of_links : Z) (link_length : T) (hinge_mass : T) (link_stiffness : T) (force : T)
    (temperature : T) : T :=
  log_squared_isotensional_asymptotic.gibbs_free_energy number_of_links link_length hinge_mass
      link_stiffness force temperature.

(* /repo/src/physics/single_chain/ufjc/log_squared/thermodynamics/isotensional/asymptotic/ex.rs:27-30 *)
Definition
    physics_single_chain_ufjc_log_squared_thermodynamics_isotensional_asymptotic_gibbs_free_energy_per_link
    (link_length : T) (hinge_mass : T) (link_stiffness : T) (force : T) (temperature : T) : T :=
  log_squared_isotensional_asymptotic.gibbs_free_energy_per_link link_length hinge_mass
      link_stiffness force temperature.

(* /repo/src/physics/single_chain/ufjc/log_squared/thermodynamics/isotensional/asymptotic/ex.rs:32-35 *)
Definition
    physics_single_chain_ufjc_log_squared_thermodynamics_isotensional_asymptotic_relative_gibbs_free_energy
    (number_of_links : Z) (link_length : T) (link_stiffness : T) (force : T) (temperature : T) : T
    :=
  log_squared_isotensional_asymptotic.relative_gibbs_free_energy number_of_links link_length
      link_stiffness force temperature.

(* /repo/src/physics/single_chain/ufjc/log_squared/thermodynamics/isotensional/asymptotic/ex.rs:37-40 *)
Definition
    physics_single_chain_ufjc_log_squared_thermodynamics_isotensional_asymptotic_relative_gibbs_free_energy_per_link
    (link_length : T) (link_stiffness : T) (force : T) (temperature : T) : T :=
  log_squared_isotensional_asymptotic.relative_gibbs_free_energy_per_link link_length link_stiffness
      force temperature.

(* /repo/src/physics/single_chain/ufjc/log_squared/thermodynamics/isotensional/asymptotic/ex.rs:42-45 *)
Definition
    physics_single_chain_ufjc_log_squared_thermodynamics_isotensional_asymptotic_nondimensional_gibbs_free_energy
    (number_of_links : Z) (link_length : T) (hinge_mass : T) (nondimensional_link_stiffness : T)
    (nondimensional_force : T) (temperature : T) : T :=
  log_squared_isotensional_asymptotic.nondimensional_gibbs_free_energy number_of_links link_length
      hinge_mass nondimensional_link_stiffness nondimensional_force temperature.

(* /repo/src/physics/single_chain/ufjc/log_squared/thermodynamics/isotensional/asymptotic/ex.rs:47-50 *)
Definition
    physics_single_chain_ufjc_log_squared_thermodynamics_isotensional_asymptotic_nondimensional_gibbs_free_energy_per_link
    (link_length : T) (hinge_mass : T) (nondimensional_link_stiffness : T) (nondimensional_force :
    T) (temperature : T) : T :=
  log_squared_isotensional_asymptotic.nondimensional_gibbs_free_energy_per_link link_length
      hinge_mass nondimensional_link_stiffness nondimensional_force temperature.

(* /repo/src/physics/single_chain/ufjc/log_squared/thermodynamics/isotensional/asymptotic/ex.rs:52-55 *)
Definition
    physics_single_chain_ufjc_log_squared_thermodynamics_isotensional_asymptotic_nondimensional_relative_gibbs_free_energy
    (number_of_links : Z) (nondimensional_link_stiffness : T) (nondimensional_force : T) : T :=
  log_squared_isotensional_asymptotic.nondimensional_relative_gibbs_free_energy number_of_links
      nondimensional_link_stiffness nondimensional_force.

(* /repo/src/physics/single_chain/ufjc/log_squared/thermodynamics/isotensional/asymptotic/ex.rs:57-60 *)
Definition
    physics_single_chain_ufjc_log_squared_thermodynamics_isotensional_asymptotic_nondimensional_relative_gibbs_free_energy_per_link
    (nondimensional_link_stiffness : T) (nondimensional_force : T) : T :=
  log_squared_isotensional_asymptotic.nondimensional_relative_gibbs_free_energy_per_link
      nondimensional_link_stiffness nondimensional_force.

(* /repo/src/physics/single_chain/ufjc/log_squared/thermodynamics/isotensional/asymptotic/legendre/ex.rs:2-5 *)
Definition
    physics_single_chain_ufjc_log_squared_thermodynamics_isotensional_asymptotic_legendre_helmholtz_free_energy
    (number_of_links : Z) (link_length : T) (hinge_mass : T) (link_stiffness : T) (force : T)
    (temperature : T) : T :=
  log_squared_isotensional_asymptotic_legendre.helmholtz_free_energy number_of_links link_length
      hinge_mass link_stiffness force temperature.

(* /repo/src/physics/single_chain/ufjc/log_squared/thermodynamics/isotensional/asymptotic/legendre/ex.rs:7-10 *)
Definition
    physics_single_chain_ufjc_log_squared_thermodynamics_isotensional_asymptotic_legendre_helmholtz_free_energy_per_link
    (link_length : T) (hinge_mass : T) (link_stiffness : T) (force : T) (temperature : T) : T :=
  log_squared_isotensional_asymptotic_legendre.helmholtz_free_energy_per_link link_length hinge_mass
      link_stiffness force temperature.

(* /repo/src/physics/single_chain/ufjc/log_squared/thermodynamics/isotensional/asymptotic/legendre/ex.rs:12-15 *)
Definition
    physics_single_chain_ufjc_log_squared_thermodynamics_isotensional_asymptotic_legendre_relative_helmholtz_free_energy
    (number_of_links : Z) (link_length : T) (link_stiffness : T) (force : T) (temperature : T) : T
    :=
  log_squared_isotensional_asymptotic_legendre.relative_helmholtz_free_energy number_of_links
      link_length link_stiffness force temperature.

(* /repo/src/physics/single_chain/ufjc/log_squared/thermodynamics/isotensional/asymptotic/legendre/ex.rs:17-20 *)
Definition
    physics_single_chain_ufjc_log_squared_thermodynamics_isotensional_asymptotic_legendre_relative_helmholtz_free_energy_per_link
    (link_length : T) (link_stiffness : T) (force : T) (temperature : T) : T :=
  log_squared_isotensional_asymptotic_legendre.relative_helmholtz_free_energy_per_link link_length
      link_stiffness force temperature.

(* /repo/src/physics/single_chain/ufjc/log_squared/thermodynamics/isotensional/asymptotic/legendre/ex.rs:22-25 *)
Definition
    physics_single_chain_ufjc_log_squared_thermodynamics_isotensional_asymptotic_legendre_nondimensional_helmholtz_free_energy
    (number_of_links : Z) (link_length : T) (hinge_mass : T) (nondimensional_link_stiffness : T)
    (nondimensional_force : T) (temperature : T) : T :=
  log_squared_isotensional_asymptotic_legendre.nondimensional_helmholtz_free_energy number_of_links
      link_length hinge_mass nondimensional_link_stiffness nondimensional_force temperature.

(* /repo/src/physics/single_chain/ufjc/log_squared/thermodynamics/isotensional/asymptotic/legendre/ex.rs:27-30 *)
Definition
    physics_single_chain_ufjc_log_squared_thermodynamics_isotensional_asymptotic_legendre_nondimensional_helmholtz_free_energy_per_link
    (link_length : T) (hinge_mass : T) (nondimensional_link_stiffness : T) (nondimensional_force :
    T) (temperature : T) : T :=
  log_squared_isotensional_asymptotic_legendre.nondimensional_helmholtz_free_energy_per_link
      link_length hinge_mass nondimensional_link_stiffness nondimensional_force temperature.

(* /repo/src/physics/single_chain/ufjc/log_squared/thermodynamics/isotensional/asymptotic/legendre/ex.rs:32-35 *)
Definition
    physics_single_chain_ufjc_log_squared_thermodynamics_isotensional_asymptotic_legendre_nondimensional_relative_helmholtz_free_energy
    (number_of_links : Z) (nondimensional_link_stiffness : T) (nondimensional_force : T) : T :=
  log_squared_isotensional_asymptotic_legendre.nondimensional_relative_helmholtz_free_energy
      number_of_links nondimensional_link_stiffness nondimensional_force.

(* /repo/src/physics/single_chain/ufjc/log_squared/thermodynamics/isotensional/asymptotic/legendre/ex.rs:37-40 *)
Definition
    physics_single_chain_ufjc_log_squared_thermodynamics_isotensional_asymptotic_legendre_nondimensional_relative_helmholtz_free_energy_per_link
    (nondimensional_link_stiffness : T) (nondimensional_force : T) : T :=
  log_squared_isotensional_asymptotic_legendre.nondimensional_relative_helmholtz_free_energy_per_link
      nondimensional_link_stiffness nondimensional_force.

(* /repo/src/physics/single_chain/ufjc/log_squared/thermodynamics/isotensional/asymptotic/reduced/ex.rs:2-5 *)
Definition
    physics_single_chain_ufjc_log_squared_thermodynamics_isotensional_asymptotic_reduced_end_to_end_length
    (number_of_links : Z) (link_length : T) (link_stiffness : T) (force : T) (temperature : T) : T
    :=
  log_squared_isotensional_asymptotic_reduced.end_to_end_length number_of_links link_length
      link_stiffness force temperature.

(* /repo/src/physics/single_chain/ufjc/log_squared/thermodynamics/isotensional/asymptotic/reduced/ex.rs:7-10 *)
Definition
    physics_single_chain_ufjc_log_squared_thermodynamics_isotensional_asymptotic_reduced_end_to_end_length_per_link
    (link_length : T) (link_stiffness : T) (force : T) (temperature : T) : T :=
  log_squared_isotensional_asymptotic_reduced.end_to_end_length_per_link link_length link_stiffness
      force temperature.

(* /repo/src/physics/single_chain/ufjc/log_squared/thermodynamics/isotensional/asymptotic/reduced/ex.rs:12-15 *)
Definition
    physics_single_chain_ufjc_log_squared_thermodynamics_isotensional_asymptotic_reduced_nondimensional_end_to_end_length
    (number_of_links : Z) (nondimensional_link_stiffness : T) (nondimensional_force : T) : T :=
  log_squared_isotensional_asymptotic_reduced.nondimensional_end_to_end_length number_of_links
      nondimensional_link_stiffness nondimensional_force.

(* /repo/src/physics/single_chain/ufjc/log_squared/thermodynamics/isotensional/asymptotic/reduced/ex.rs:17-20 *)
Definition
    physics_single_chain_ufjc_log_squared_thermodynamics_isotensional_asymptotic_reduced_nondimensional_end_to_end_length_per_link
    (nondimensional_link_stiffness : T) (nondimensional_force : T) : T :=
  log_squared_isotensional_asymptotic_reduced.nondimensional_end_to_end_length_per_link
      nondimensional_link_stiffness nondimensional_force.

(* /repo/src/physics/single_chain/ufjc/log_squared/thermodynamics/isotensional/asymptotic/reduced/ex.rs:22-25 *)
Definition
    physics_single_chain_ufjc_log_squared_thermodynamics_isotensional_asymptotic_reduced_gibbs_free_energy
    (number_of_links : Z) (link_length : T) (hinge_mass : T) (link_stiffness : T) (force : T)
    (temperature : T) : T :=
  log_squared_isotensional_asymptotic_reduced.gibbs_free_energy number_of_links link_length
      hinge_mass link_stiffness force temperature.

(* /repo/src/physics/single_chain/ufjc/log_squared/thermodynamics/isotensional/asymptotic/reduced/ex.rs:27-30 *)
Definition
    physics_single_chain_ufjc_log_squared_thermodynamics_isotensional_asymptotic_reduced_gibbs_free_energy_per_link
    (link_length : T) (hinge_mass : T) (link_stiffness : T) (force : T) (temperature : T) : T :=
  log_squared_isotensional_asymptotic_reduced.gibbs_free_energy_per_link link_length hinge_mass
      link_stiffness force temperature.

(* /repo/src/physics/single_chain/ufjc/log_squared/thermodynamics/isotensional/asymptotic/reduced/ex.rs:32-35 *)
Definition
    physics_single_chain_ufjc_log_squared_thermodynamics_isotensional_asymptotic_reduced_relative_gibbs_free_energy
    (number_of_links : Z) (link_length : T) (link_stiffness : T) (force : T) (temperature : T) : T
    :=
  log_squared_isotensional_asymptotic_reduced.relative_gibbs_free_energy number_of_links link_length
      link_stiffness force temperature.

(* /repo/src/physics/single_chain/ufjc/log_squared/thermodynamics/isotensional/asymptotic/reduced/ex.rs:37-40 *)
Definition
    physics_single_chain_ufjc_log_squared_thermodynamics_isotensional_asymptotic_reduced_relative_gibbs_free_energy_per_link
    (link_length : T) (link_stiffness : T) (force : T) (temperature : T) : T :=
  log_squared_isotensional_asymptotic_reduced.relative_gibbs_free_energy_per_link link_length
      link_stiffness force temperature.

(* /repo/src/physics/single_chain/ufjc/log_squared/thermodynamics/isotensional/asymptotic/reduced/ex.rs:42-45 *)
Definition
    physics_single_chain_ufjc_log_squared_thermodynamics_isotensional_asymptotic_reduced_nondimensional_gibbs_free_energy
    (number_of_links : Z) (link_length : T) (hinge_mass : T) (nondimensional_link_stiffness : T)
    (nondimensional_force : T) (temperature : T) : T :=
  log_squared_isotensional_asymptotic_reduced.nondimensional_gibbs_free_energy number_of_links
      link_length hinge_mass nondimensional_link_stiffness nondimensional_force temperature.

(* /repo/src/physics/single_chain/ufjc/log_squared/thermodynamics/isotensional/asymptotic/reduced/ex.rs:47-50 *)
Definition
    physics_single_chain_ufjc_log_squared_thermodynamics_isotensional_asymptotic_reduced_nondimensional_gibbs_free_energy_per_link
    (link_length : T) (hinge_mass : T) (nondimensional_link_stiffness : T) (nondimensional_force :
    T) (temperature : T) : T :=
  log_squared_isotensional_asymptotic_reduced.nondimensional_gibbs_free_energy_per_link link_length
      hinge_mass nondimensional_link_stiffness nondimensional_force temperature.

(* /repo/src/physics/single_chain/ufjc/log_squared/thermodynamics/isotensional/asymptotic/reduced/ex.rs:52-55 *)
Definition
    physics_single_chain_ufjc_log_squared_thermodynamics_isotensional_asymptotic_reduced_nondimensional_relative_gibbs_free_energy
    (number_of_links : Z) (nondimensional_link_stiffness : T) (nondimensional_force : T) : T :=
  log_squared_isotensional_asymptotic_reduced.nondimensional_relative_gibbs_free_energy
      number_of_links nondimensional_link_stiffness nondimensional_force.

(* /repo/src/physics/single_chain/ufjc/log_squared/thermodynamics/isotensional/asymptotic/reduced/ex.rs:57-60 *)
Definition
    physics_single_chain_ufjc_log_squared_thermodynamics_isotensional_asymptotic_reduced_nondimensional_relative_gibbs_free_energy_per_link
    (nondimensional_link_stiffness : T) (nondimensional_force : T) : T :=
  log_squared_isotensional_asymptotic_reduced.nondimensional_relative_gibbs_free_energy_per_link
      nondimensional_link_stiffness nondimensional_force.

(* /repo/src/physics/single_chain/ufjc/log_squared/thermodynamics/isotensional/asymptotic/reduced/legendre/ex.rs:2-5 *)
Definition
    physics_single_chain_ufjc_log_squared_thermodynamics_isotensional_asymptotic_reduced_legendre_helmholtz_free_energy
    (number_of_links : Z) (link_length : T) (hinge_mass : T) (link_stiffness : T) (force : T)
    (temperature : T) : T :=
  log_squared_isotensional_asymptotic_reduced_legendre.helmholtz_free_energy number_of_links
      link_length hinge_mass link_stiffness force temperature.

(* /repo/src/physics/single_chain/ufjc/log_squared/thermodynamics/isotensional/asymptotic/reduced/legendre/ex.rs:7-10 *)
Definition
    physics_single_chain_ufjc_log_squared_thermodynamics_isotensional_asymptotic_reduced_legendre_helmholtz_free_energy_per_link
    (link_length : T) (hinge_mass : T) (link_stiffness : T) (force : T) (temperature : T) : T :=
  log_squared_isotensional_asymptotic_reduced_legendre.helmholtz_free_energy_per_link link_length
      hinge_mass link_stiffness force temperature.

(* /repo/src/physics/single_chain/ufjc/log_squared/thermodynamics/isotensional/asymptotic/reduced/legendre/ex.rs:12-15 *)
Definition
    physics_single_chain_ufjc_log_squared_thermodynamics_isotensional_asymptotic_reduced_legendre_relative_helmholtz_free_energy
    (number_of_links : Z) (link_length : T) (link_stiffness : T) (force : T) (temperature : T) : T
    :=
  log_squared_isotensional_asymptotic_reduced_legendre.relative_helmholtz_free_energy
      number_of_links link_length link_stiffness force temperature.

(* /repo/src/physics/single_chain/ufjc/log_squared/thermodynamics/isotensional/asymptotic/reduced/legendre/ex.rs:17-20 *)
Definition
    physics_single_chain_ufjc_log_squared_thermodynamics_isotensional_asymptotic_reduced_legendre_relative_helmholtz_free_energy_per_link
    (link_length : T) (link_stiffness : T) (force : T) (temperature : T) : T :=
  log_squared_isotensional_asymptotic_reduced_legendre.relative_helmholtz_free_energy_per_link
      link_length link_stiffness force temperature.

(* /repo/src/physics/single_chain/ufjc/log_squared/thermodynamics/isotensional/asymptotic/reduced/legendre/ex.rs:22-25 *)
Definition
    physics_single_chain_ufjc_log_squared_thermodynamics_isotensional_asymptotic_reduced_legendre_nondimensional_helmholtz_free_energy
    (number_of_links : Z) (link_length : T) (hinge_mass : T) (nondimensional_link_stiffness : T)
    (nondimensional_force : T) (temperature : T) : T :=
  log_squared_isotensional_asymptotic_reduced_legendre.nondimensional_helmholtz_free_energy
      number_of_links link_length hinge_mass nondimensional_link_stiffness nondimensional_force
      temperature.

(* /repo/src/physics/single_chain/ufjc/log_squared/thermodynamics/isotensional/asymptotic/reduced/legendre/ex.rs:27-30 *)
Definition
    physics_single_chain_ufjc_log_squared_thermodynamics_isotensional_asymptotic_reduced_legendre_nondimensional_helmholtz_free_energy_per_link
    (link_length : T) (hinge_mass : T) (nondimensional_link_stiffness : T) (nondimensional_force :
    T) (temperature : T) : T :=
  log_squared_isotensional_asymptotic_reduced_legendre.nondimensional_helmholtz_free_energy_per_link
      link_length hinge_mass nondimensional_link_stiffness nondimensional_force temperature.

(* /repo/src/physics/single_chain/ufjc/log_squared/thermodynamics/isotensional/asymptotic/reduced/legendre/ex.rs:32-35 *)
Definition
    physics_single_chain_ufjc_log_squared_thermodynamics_isotensional_asymptotic_reduced_legendre_nondimensional_relative_helmholtz_free_energy
    (number_of_links : Z) (nondimensional_link_stiffness : T) (nondimensional_force : T) : T :=
  log_squared_isotensional_asymptotic_reduced_legendre.nondimensional_relative_helmholtz_free_energy
      number_of_links nondimensional_link_stiffness nondimensional_force.

(* /repo/src/physics/single_chain/ufjc/log_squared/thermodynamics/isotensional/asymptotic/reduced/legendre/ex.rs:37-40 *)
Definition
    physics_single_chain_ufjc_log_squared_thermodynamics_isotensional_asymptotic_reduced_legendre_nondimensional_relative_helmholtz_free_energy_per_link
    (nondimensional_link_stiffness : T) (nondimensional_force : T) : T :=
  log_squared_isotensional_asymptotic_reduced_legendre.nondimensional_relative_helmholtz_free_energy_per_link
      nondimensional_link_stiffness nondimensional_force.

(* /repo/src/physics/single_chain/ufjc/log_squared/thermodynamics/isotensional/legendre/ex.rs:2-5 *)
Definition
    physics_single_chain_ufjc_log_squared_thermodynamics_isotensional_legendre_helmholtz_free_energy
    (number_of_links : Z) (link_length : T) (hinge_mass : T) (link_stiffness : T) (force : T)
    (temperature : T) : T :=
  log_squared_isotensional_legendre.helmholtz_free_energy number_of_links link_length hinge_mass
      link_stiffness force temperature.

(* /repo/src/physics/single_chain/ufjc/log_squared/thermodynamics/isotensional/legendre/ex.rs:7-10 *)
Definition
    physics_single_chain_ufjc_log_squared_thermodynamics_isotensional_legendre_helmholtz_free_energy_per_link
    (link_length : T) (hinge_mass : T) (link_stiffness : T) (force : T) (temperature : T) : T :=
  log_squared_isotensional_legendre.helmholtz_free_energy_per_link link_length hinge_mass
      link_stiffness force temperature.

(* /repo/src/physics/single_chain/ufjc/log_squared/thermodynamics/isotensional/legendre/ex.rs:12-15 *)
Definition
    physics_single_chain_ufjc_log_squared_thermodynamics_isotensional_legendre_relative_helmholtz_free_energy
    (number_of_links : Z) (link_length : T) (link_stiffness : T) (force : T) (temperature : T) : T
    :=
  log_squared_isotensional_legendre.relative_helmholtz_free_energy number_of_links link_length
      link_stiffness force temperature.

(* /repo/src/physics/single_chain/ufjc/log_squared/thermodynamics/isotensional/legendre/ex.rs:17-20 *)
Definition
    physics_single_chain_ufjc_log_squared_thermodynamics_isotensional_legendre_relative_helmholtz_free_energy_per_link
    (link_length : T) (link_stiffness : T) (force : T) (temperature : T) : T :=
  log_squared_isotensional_legendre.relative_helmholtz_free_energy_per_link link_length
      link_stiffness force temperature.

(* /repo/src/physics/single_chain/ufjc/log_squared/thermodynamics/isotensional/legendre/ex.rs:22-25 *)
Definition
    physics_single_chain_ufjc_log_squared_thermodynamics_isotensional_legendre_nondimensional_helmholtz_free_energy
    (number_of_links : Z) (link_length : T) (hinge_mass : T) (nondimensional_link_stiffness : T)
    (nondimensional_force : T) (temperature : T) : T :=
  log_squared_isotensional_legendre.nondimensional_helmholtz_free_energy number_of_links link_length
      hinge_mass nondimensional_link_stiffness nondimensional_force temperature.

(* /repo/src/physics/single_chain/ufjc/log_squared/thermodynamics/isotensional/legendre/ex.rs:27-30 *)
Definition
    physics_single_chain_ufjc_log_squared_thermodynamics_isotensional_legendre_nondimensional_helmholtz_free_energy_per_link
    (link_length : T) (hinge_mass : T) (nondimensional_link_stiffness : T) (nondimensional_force :
    T) (temperature : T) : T :=
  log_squared_isotensional_legendre.nondimensional_helmholtz_free_energy_per_link link_length
      hinge_mass nondimensional_link_stiffness nondimensional_force temperature.

(* /repo/src/physics/single_chain/ufjc/log_squared/thermodynamics/isotensional/legendre/ex.rs:32-35 *)
Definition
    physics_single_chain_ufjc_log_squared_thermodynamics_isotensional_legendre_nondimensional_relative_helmholtz_free_energy
    (number_of_links : Z) (nondimensional_link_stiffness : T) (nondimensional_force : T) : T :=
  log_squared_isotensional_legendre.nondimensional_relative_helmholtz_free_energy number_of_links
      nondimensional_link_stiffness nondimensional_force.

(* /repo/src/physics/single_chain/ufjc/log_squared/thermodynamics/isotensional/legendre/ex.rs:37-40 *)
Definition
    physics_single_chain_ufjc_log_squared_thermodynamics_isotensional_legendre_nondimensional_relative_helmholtz_free_energy_per_link
    (nondimensional_link_stiffness : T) (nondimensional_force : T) : T :=
  log_squared_isotensional_legendre.nondimensional_relative_helmholtz_free_energy_per_link
      nondimensional_link_stiffness nondimensional_force.

(* /repo/src/physics/single_chain/ufjc/morse/thermodynamics/isometric/asymptotic/legendre/ex.rs:2-5 *)
Definition physics_single_chain_ufjc_morse_thermodynamics_isometric_asymptotic_legendre_force
    (number_of_links : Z) (link_length : T) (link_stiffness : T) (link_energy : T)
    (end_to_end_length : T) (temperature : T) : T :=
  morse_isometric_asymptotic_legendre.force number_of_links link_length link_stiffness link_energy
      end_to_end_length temperature.

(* /repo/src/physics/single_chain/ufjc/morse/thermodynamics/isometric/asymptotic/legendre/ex.rs:7-10 *)
Definition
    physics_single_chain_ufjc_morse_thermodynamics_isometric_asymptotic_legendre_nondimensional_force
    (nondimensional_link_stiffness : T) (nondimensional_link_energy : T)
    (nondimensional_end_to_end_length_per_link : T) : T :=
  morse_isometric_asymptotic_legendre.nondimensional_force nondimensional_link_stiffness
      nondimensional_link_energy nondimensional_end_to_end_length_per_link.

(* /repo/src/physics/single_chain/ufjc/morse/thermodynamics/isometric/asymptotic/legendre/ex.rs:12-15 *)
Definition
    physics_single_chain_ufjc_morse_thermodynamics_isometric_asymptotic_legendre_helmholtz_free_energy
    (number_of_links : Z) (link_length : T) (hinge_mass : T) (link_stiffness : T) (link_energy : T)
    (end_to_end_length : T) (temperature : T) : T :=
  morse_isometric_asymptotic_legendre.helmholtz_free_energy number_of_links link_length hinge_mass
      link_stiffness link_energy end_to_end_length temperature.

(* /repo/src/physics/single_chain/ufjc/morse/thermodynamics/isometric/asymptotic/legendre/ex.rs:17-20 *)
Definition
    physics_single_chain_ufjc_morse_thermodynamics_isometric_asymptotic_legendre_helmholtz_free_energy_per_link
    (number_of_links : Z) (link_length : T) (hinge_mass : T) (link_stiffness : T) (link_energy : T)
    (end_to_end_length : T) (temperature : T) : T :=
  morse_isometric_asymptotic_legendre.helmholtz_free_energy_per_link number_of_links link_length
      hinge_mass link_stiffness link_energy end_to_end_length temperature.

(* /repo/src/physics/single_chain/ufjc/morse/thermodynamics/isometric/asymptotic/legendre/ex.rs:22-25 *)
Definition
    physics_single_chain_ufjc_morse_thermodynamics_isometric_asymptotic_legendre_relative_helmholtz_free_energy
    (number_of_links : Z) (link_length : T) (link_stiffness : T) (link_energy : T)
    (end_to_end_length : T) (temperature : T) : T :=
  morse_isometric_asymptotic_legendre.relative_helmholtz_free_energy number_of_links link_length
      link_stiffness link_energy end_to_end_length temperature.

(* /repo/src/physics/single_chain/ufjc/morse/thermodynamics/isometric/asymptotic/legendre/ex.rs:27-30 *)
Definition
    physics_single_chain_ufjc_morse_thermodynamics_isometric_asymptotic_legendre_relative_helmholtz_free_energy_per_link
    (number_of_links : Z) (link_length : T) (link_stiffness : T) (link_energy : T)
    (end_to_end_length : T) (temperature : T) : T :=
  morse_isometric_asymptotic_legendre.relative_helmholtz_free_energy_per_link number_of_links
      link_length link_stiffness link_energy end_to_end_length temperature.

(* /repo/src/physics/single_chain/ufjc/morse/thermodynamics/isometric/asymptotic/legendre/ex.rs:32-35 *)
Definition
    physics_single_chain_ufjc_morse_thermodynamics_isometric_asymptotic_legendre_nondimensional_helmholtz_free_energy
    (number_of_links : Z) (link_length : T) (hinge_mass : T) (nondimensional_link_stiffness : T)
    (nondimensional_link_energy : T) (nondimensional_end_to_end_length_per_link : T) (temperature :
    T) : T :=
  morse_isometric_asymptotic_legendre.nondimensional_helmholtz_free_energy number_of_links
      link_length hinge_mass nondimensional_link_stiffness nondimensional_link_energy
      nondimensional_end_to_end_length_per_link temperature.

(* /repo/src/physics/single_chain/ufjc/morse/thermodynamics/isometric/asymptotic/legendre/ex.rs:37-40 *)
Definition
    physics_single_chain_ufjc_morse_thermodynamics_isometric_asymptotic_legendre_nondimensional_helmholtz_free_energy_per_link
    (number_of_links : Z) (link_length : T) (hinge_mass : T) (nondimensional_link_stiffness : T)
    (nondimensional_link_energy : T) (nondimensional_end_to_end_length_per_link : T) (temperature :
    T) : T :=
  morse_isometric_asymptotic_legendre.nondimensional_helmholtz_free_energy_per_link number_of_links
      link_length hinge_mass nondimensional_link_stiffness nondimensional_link_energy
      nondimensional_end_to_end_length_per_link temperature.

(* /repo/src/physics/single_chain/ufjc/morse/thermodynamics/isometric/asymptotic/legendre/ex.rs:42-45 *)
Definition
    physics_single_chain_ufjc_morse_thermodynamics_isometric_asymptotic_legendre_nondimensional_relative_helmholtz_free_energy
    (number_of_links : Z) (nondimensional_link_stiffness : T) (nondimensional_link_energy : T)
    (nondimensional_end_to_end_length_per_link : T) : T :=
  morse_isometric_asymptotic_legendre.nondimensional_relative_helmholtz_free_energy number_of_links
      nondimensional_link_stiffness nondimensional_link_energy
      nondimensional_end_to_end_length_per_link.

(* /repo/src/physics/single_chain/ufjc/morse/thermodynamics/isometric/asymptotic/legendre/ex.rs:47-50 *)
Definition
    physics_single_chain_ufjc_morse_thermodynamics_isometric_asymptotic_legendre_nondimensional_relative_helmholtz_free_energy_per_link
    (nondimensional_link_stiffness : T) (nondimensional_link_energy : T)
    (nondimensional_end_to_end_length_per_link : T) : T :=
  morse_isometric_asymptotic_legendre.nondimensional_relative_helmholtz_free_energy_per_link
      nondimensional_link_stiffness nondimensional_link_energy
      nondimensional_end_to_end_length_per_link.

(* /repo/src/physics/single_chain/ufjc/morse/thermodynamics/isometric/asymptotic/reduced/legendre/ex.rs:2-5 *)
Definition
    physics_single_chain_ufjc_morse_thermodynamics_isometric_asymptotic_reduced_legendre_force
    (number_of_links : Z) (link_length : T) (link_stiffness : T) (link_energy : T)
    (end_to_end_length : T) (temperature : T) : T :=
  morse_isometric_asymptotic_reduced_legendre.force number_of_links link_length link_stiffness
      link_energy end_to_end_length temperature.

(* /repo/src/physics/single_chain/ufjc/morse/thermodynamics/isometric/asymptotic/reduced/legendre/ex.rs:7-10 *)
Definition
    physics_single_chain_ufjc_morse_thermodynamics_isometric_asymptotic_reduced_legendre_nondimensional_force
    (nondimensional_link_stiffness : T) (nondimensional_link_energy : T)
    (nondimensional_end_to_end_length_per_link : T) : T :=
  morse_isometric_asymptotic_reduced_legendre.nondimensional_force nondimensional_link_stiffness
      nondimensional_link_energy nondimensional_end_to_end_length_per_link.

(* /repo/src/physics/single_chain/ufjc/morse/thermodynamics/isometric/asymptotic/reduced/legendre/ex.rs:12-15 *)
Definition
    physics_single_chain_ufjc_morse_thermodynamics_isometric_asymptotic_reduced_legendre_helmholtz_free_energy
    (number_of_links : Z) (link_length : T) (hinge_mass : T) (link_stiffness : T) (link_energy : T)
    (end_to_end_length : T) (temperature : T) : T :=
  morse_isometric_asymptotic_reduced_legendre.helmholtz_free_energy number_of_links link_length
      hinge_mass link_stiffness link_energy end_to_end_length temperature.

(* /repo/src/physics/single_chain/ufjc/morse/thermodynamics/isometric/asymptotic/reduced/legendre/ex.rs:17-20 *)
Definition
    physics_single_chain_ufjc_morse_thermodynamics_isometric_asymptotic_reduced_legendre_helmholtz_free_energy_per_link
    (number_of_links : Z) (link_length : T) (hinge_mass : T) (link_stiffness : T) (link_energy : T)
    (end_to_end_length : T) (temperature : T) : T :=
  morse_isometric_asymptotic_reduced_legendre.helmholtz_free_energy_per_link number_of_links
      link_length hinge_mass link_stiffness link_energy end_to_end_length temperature.

(* /repo/src/physics/single_chain/ufjc/morse/thermodynamics/isometric/asymptotic/reduced/legendre/ex.rs:22-25 *)
Definition
    physics_single_chain_ufjc_morse_thermodynamics_isometric_asymptotic_reduced_legendre_relative_helmholtz_free_energy
    (number_of_links : Z) (link_length : T) (link_stiffness : T) (link_energy : T)
    (end_to_end_length : T) (temperature : T) : T :=
  morse_isometric_asymptotic_reduced_legendre.relative_helmholtz_free_energy number_of_links
      link_length link_stiffness link_energy end_to_end_length temperature.

(* /repo/src/physics/single_chain/ufjc/morse/thermodynamics/isometric/asymptotic/reduced/legendre/ex.rs:27-30 *)
Definition
    physics_single_chain_ufjc_morse_thermodynamics_isometric_asymptotic_reduced_legendre_relative_helmholtz_free_energy_per_link
    (number_of_links : Z) (link_length : T) (link_stiffness : T) (link_energy : T)
    (end_to_end_length : T) (temperature : T) : T :=
  morse_isometric_asymptotic_reduced_legendre.relative_helmholtz_free_energy_per_link
      number_of_links link_length link_stiffness link_energy end_to_end_length temperature.

(* /repo/src/physics/single_chain/ufjc/morse/thermodynamics/isometric/asymptotic/reduced/legendre/ex.rs:32-35 *)
Definition
    physics_single_chain_ufjc_morse_thermodynamics_isometric_asymptotic_reduced_legendre_nondimensional_helmholtz_free_energy
    (number_of_links : Z) (link_length : T) (hinge_mass : T) (nondimensional_link_stiffness : T)
    (nondimensional_link_energy : T) (nondimensional_end_to_end_length_per_link : T) (temperature :
    T) : T :=
  morse_isometric_asymptotic_reduced_legendre.nondimensional_helmholtz_free_energy number_of_links
      link_length hinge_mass nondimensional_link_stiffness nondimensional_link_energy
      nondimensional_end_to_end_length_per_link temperature.

(* /repo/src/physics/single_chain/ufjc/morse/thermodynamics/isometric/asymptotic/reduced/legendre/ex.rs:37-40 *)
Definition
    physics_single_chain_ufjc_morse_thermodynamics_isometric_asymptotic_reduced_legendre_nondimensional_helmholtz_free_energy_per_link
    (number_of_links : Z) (link_length : T) (hinge_mass : T) (nondimensional_link_stiffness : T)
    (nondimensional_link_energy : T) (nondimensional_end_to_end_length_per_link : T) (temperature :
    T) : T :=
  morse_isometric_asymptotic_reduced_legendre.nondimensional_helmholtz_free_energy_per_link
      number_of_links link_length hinge_mass nondimensional_link_stiffness
      nondimensional_link_energy nondimensional_end_to_end_length_per_link temperature.

(* /repo/src/physics/single_chain/ufjc/morse/thermodynamics/isometric/asymptotic/reduced/legendre/ex.rs:42-45 *)
Definition
    physics_single_chain_ufjc_morse_thermodynamics_isometric_asymptotic_reduced_legendre_nondimensional_relative_helmholtz_free_energy
    (number_of_links : Z) (nondimensional_link_stiffness : T) (nondimensional_link_energy : T)
    (nondimensional_end_to_end_length_per_link : T) : T :=
  morse_isometric_asymptotic_reduced_legendre.nondimensional_relative_helmholtz_free_energy
      number_of_links nondimensional_link_stiffness nondimensional_link_energy
      nondimensional_end_to_end_length_per_link.

(* /repo/src/physics/single_chain/ufjc/morse/thermodynamics/isometric/asymptotic/reduced/legendre/ex.rs:47-50 *)
Definition
    physics_single_chain_ufjc_morse_thermodynamics_isometric_asymptotic_reduced_legendre_nondimensional_relative_helmholtz_free_energy_per_link
    (nondimensional_link_stiffness : T) (nondimensional_link_energy : T)
    (nondimensional_end_to_end_length_per_link : T) : T :=
  morse_isometric_asymptotic_reduced_legendre.nondimensional_relative_helmholtz_free_energy_per_link
      nondimensional_link_stiffness nondimensional_link_energy
      nondimensional_end_to_end_length_per_link.

(* /repo/src/physics/single_chain/ufjc/morse/thermodynamics/isotensional/ex.rs:2-5 *)
Definition physics_single_chain_ufjc_morse_thermodynamics_isotensional_end_to_end_length
    (number_of_links : Z) (link_length : T) (link_stiffness : T) (link_energy : T) (force : T)
    (temperature : T) : T :=
  morse_isotensional.end_to_end_length number_of_links link_length link_stiffness link_energy force
      temperature.

(* /repo/src/physics/single_chain/ufjc/morse/thermodynamics/isotensional/ex.rs:7-10 *)
Definition physics_single_chain_ufjc_morse_thermodynamics_isotensional_end_to_end_length_per_link
    (link_length : T) (link_stiffness : T) (link_energy : T) (force : T) (temperature : T) : T :=
  morse_isotensional.end_to_end_length_per_link link_length link_stiffness link_energy force
      temperature.

(* /repo/src/physics/single_chain/ufjc/morse/thermodynamics/isotensional/ex.rs:12-15 *)
Definition
    physics_single_chain_ufjc_morse_thermodynamics_isotensional_nondimensional_end_to_end_length
    (number_of_links : Z) (nondimensional_link_stiffness : T) (nondimensional_link_energy : T)
    (nondimensional_force : T) : T :=
  morse_isotensional.nondimensional_end_to_end_length number_of_links nondimensional_link_stiffness
      nondimensional_link_energy nondimensional_force.

(* /repo/src/physics/single_chain/ufjc/morse/thermodynamics/isotensional/ex.rs:17-20 *)
Definition
    physics_single_chain_ufjc_morse_thermodynamics_isotensional_nondimensional_end_to_end_length_per_link
    (nondimensional_link_stiffness : T) (nondimensional_link_energy : T) (nondimensional_force : T)
    : T :=
  morse_isotensional.nondimensional_end_to_end_length_per_link nondimensional_link_stiffness
      nondimensional_link_energy nondimensional_force.

(* /repo/src/physics/single_chain/ufjc/morse/thermodynamics/isotensional/ex.rs:22-25 *)
Definition physics_single_chain_ufjc_morse_thermodynamics_isotensional_gibbs_free_energy
    (number_of_links : Z) (link_length : T) (hinge_mass : T) (link_stiffness : T) (link_energy : T)
    (force : T) (temperature : T) : T :=
  morse_isotensional.gibbs_free_energy number_of_links link_length hinge_mass link_stiffness
      link_energy force temperature.

(* /repo/src/physics/single_chain/ufjc/morse/thermodynamics/isotensional/ex.rs:27-30 *)
Definition physics_single_chain_ufjc_morse_thermodynamics_isotensional_gibbs_free_energy_per_link
    (link_length : T) (hinge_mass : T) (link_stiffness : T) (link_energy : T) (force : T)
    (temperature : T) : T :=
  morse_isotensional.gibbs_free_energy_per_link link_length hinge_mass link_stiffness link_energy
      force temperature.

(* /repo/src/physics/single_chain/ufjc/morse/thermodynamics/isotensional/ex.rs:32-35 *)
Definition physics_single_chain_ufjc_morse_thermodynamics_isotensional_relative_gibbs_free_energy
    (number_of_links : Z) (link_length : T) (link_stiffness : T) (link_energy : T) (force : T)
    (temperature : T) : T :=
  morse_isotensional.relative_gibbs_free_energy number_of_links link_length link_stiffness
      link_energy force temperature.

(* /repo/src/physics/single_chain/ufjc/morse/thermodynamics/isotensional/ex.rs:37-40 *)
Definition
    physics_single_chain_ufjc_morse_thermodynamics_isotensional_relative_gibbs_free_energy_per_link
    (link_length : T) (link_stiffness : T) (link_energy : T) (force : T) (temperature : T) : T :=
  morse_isotensional.relative_gibbs_free_energy_per_link link_length link_stiffness link_energy
      force temperature.

(* /repo/src/physics/single_chain/ufjc/morse/thermodynamics/isotensional/ex.rs:42-45 *)
Definition
    physics_single_chain_ufjc_morse_thermodynamics_isotensional_nondimensional_gibbs_free_energy
    (number_of_links : Z) (link_length : T) (hinge_mass : T) (nondimensional_link_stiffness : T)
    (nondimensional_link_energy : T) (nondimensional_force : T) (temperature : T) : T :=
  morse_isotensional.nondimensional_gibbs_free_energy number_of_links link_length hinge_mass
      nondimensional_link_stiffness nondimensional_link_energy nondimensional_force temperature.

(* /repo/src/physics/single_chain/ufjc/morse/thermodynamics/isotensional/ex.rs:47-50 *)
Definition
    physics_single_chain_ufjc_morse_thermodynamics_isotensional_nondimensional_gibbs_free_energy_per_link
    (link_length : T) (hinge_mass : T) (nondimensional_link_stiffness : T)
    (nondimensional_link_energy : T) (nondimensional_force : T) (temperature : T) : T :=
  morse_isotensional.nondimensional_gibbs_free_energy_per_link link_length hinge_mass
      nondimensional_link_stiffness nondimensional_link_energy nondimensional_force temperature.

(* /repo/src/physics/single_chain/ufjc/morse/thermodynamics/isotensional/ex.rs:52-55 *)
Definition
    physics_single_chain_ufjc_morse_thermodynamics_isotensional_nondimensional_relative_gibbs_free_energy
    (number_of_links : Z) (nondimensional_link_stiffness : T) (nondimensional_link_energy : T)
    (nondimensional_force : T) : T :=
  morse_isotensional.nondimensional_relative_gibbs_free_energy number_of_links
      nondimensional_link_stiffness nondimensional_link_energy nondimensional_force.

(* /repo/src/physics/single_chain/ufjc/morse/thermodynamics/isotensional/ex.rs:57-60 *)
Definition
    physics_single_chain_ufjc_morse_thermodynamics_isotensional_nondimensional_relative_gibbs_free_energy_per_link
    (nondimensional_link_stiffness : T) (nondimensional_link_energy : T) (nondimensional_force : T)
    : T :=
  morse_isotensional.nondimensional_relative_gibbs_free_energy_per_link
      nondimensional_link_stiffness nondimensional_link_energy nondimensional_force.

(* /repo/src/physics/single_chain/ufjc/morse/thermodynamics/isotensional/asymptotic/ex.rs:2-5 *)
Definition physics_single_chain_ufjc_morse_thermodynamics_isotensional_asymptotic_end_to_end_length
    (number_of_links : Z) (link_length : T) (link_stiffness : T) (link_energy : T) (force : T)
    (temperature : T) : T :=
  morse_isotensional_asymptotic.end_to_end_length number_of_links link_length link_stiffness
      link_energy force temperature.

(* /repo/src/physics/single_chain/ufjc/morse/thermodynamics/isotensional/asymptotic/ex.rs:7-10 *)
Definition
    physics_single_chain_ufjc_morse_thermodynamics_isotensional_asymptotic_end_to_end_length_per_link
    (link_length : T) (link_stiffness : T) (link_energy : T) (force : T) (temperature : T) : T :=
  morse_isotensional_asymptotic.end_to_end_length_per_link link_length link_stiffness link_energy
      force temperature.

(* /repo/src/physics/single_chain/ufjc/morse/thermodynamics/isotensional/asymptotic/ex.rs:12-15 *)
Definition
    physics_single_chain_ufjc_morse_thermodynamics_isotensional_asymptotic_nondimensional_end_to_end_length
    (number_of_links : Z) (nondimensional_link_stiffness : T) (nondimensional_link_energy : T)
    (nondimensional_force : T) : T :=
  morse_isotensional_asymptotic.nondimensional_end_to_end_length number_of_links
      nondimensional_link_stiffness nondimensional_link_energy nondimensional_force.

(* /repo/src/physics/single_chain/ufjc/morse/thermodynamics/isotensional/asymptotic/ex.rs:17-20 *)
Definition
    physics_single_chain_ufjc_morse_thermodynamics_isotensional_asymptotic_nondimensional_end_to_end_length_per_link
    (nondimensional_link_stiffness : T) (nondimensional_link_energy : T) (nondimensional_force : T)
    : T :=
  morse_isotensional_asymptotic.nondimensional_end_to_end_length_per_link
      nondimensional_link_stiffness nondimensional_link_energy nondimensional_force.

(* /repo/src/physics/single_chain/ufjc/morse/thermodynamics/isotensional/asymptotic/ex.rs:22-25 *)
Definition physics_single_chain_ufjc_morse_thermodynamics_isotensional_asymptotic_gibbs_free_energy
    (number_of_links : Z) (link_length : T) (hinge_mass : T) (link_stiffness : T) (link_energy : T)
    (force : T) (temperature : T) : T :=
  morse_isotensional_asymptotic.gibbs_free_energy number_of_links link_length hinge_mass
      link_stiffness link_energy force temperature.

(* /repo/src/physics/single_chain/ufjc/morse/thermodynamics/isotensional/asymptotic/ex.rs:27-30 *)
Definition
    physics_single_chain_ufjc_morse_thermodynamics_isotensional_asymptotic_gibbs_free_energy_per_link
    (link_length : T) (hinge_mass : T) (link_stiffness : T) (link_energy : T) (force : T)
    (temperature : T) : T :=
  morse_isotensional_asymptotic.gibbs_free_energy_per_link link_length hinge_mass link_stiffness
      link_energy force temperature.

(* /repo/src/physics/single_chain/ufjc/morse/thermodynamics/isotensional/asymptotic/ex.rs:32-35 *)
Definition
    physics_single_chain_ufjc_morse_thermodynamics_isotensional_asymptotic_relative_gibbs_free_energy
    (number_of_links : Z) (link_length : T) (link_stiffness : T) (link_energy : T) (force : T)
    (temperature : T) : T :=
  morse_isotensional_asymptotic.relative_gibbs_free_energy number_of_links link_length
      link_stiffness link_energy force temperature.

(* /repo/src/physics/single_chain/ufjc/morse/thermodynamics/isotensional/asymptotic/ex.rs:37-40 *)
Definition
    physics_single_chain_ufjc_morse_thermodynamics_isotensional_asymptotic_relative_gibbs_free_energy_per_link
    (link_length : T) (link_stiffness : T) (link_energy : T) (force : T) (temperature : T) : T :=
  morse_isotensional_asymptotic.relative_gibbs_free_energy_per_link link_length link_stiffness
      link_energy force temperature.

(* /repo/src/physics/single_chain/ufjc/morse/thermodynamics/isotensional/asymptotic/ex.rs:42-45 *)
Definition
    physics_single_chain_ufjc_morse_thermodynamics_isotensional_asymptotic_nondimensional_gibbs_free_energy
    (number_of_links : Z) (link_length : T) (hinge_mass : T) (nondimensional_link_stiffness : T)
    (nondimensional_link_energy : T) (nondimensional_force : T) (temperature : T) : T :=
  morse_isotensional_asymptotic.nondimensional_gibbs_free_energy number_of_links link_length
      hinge_mass nondimensional_link_stiffness nondimensional_link_energy nondimensional_force
      temperature.

(* /repo/src/physics/single_chain/ufjc/morse/thermodynamics/isotensional/asymptotic/ex.rs:47-50 *)
Definition
    physics_single_chain_ufjc_morse_thermodynamics_isotensional_asymptotic_nondimensional_gibbs_free_energy_per_link
    (link_length : T) (hinge_mass : T) (nondimensional_link_stiffness : T)
    (nondimensional_link_energy : T) (nondimensional_force : T) (temperature : T) : T :=
  morse_isotensional_asymptotic.nondimensional_gibbs_free_energy_per_link link_length hinge_mass
      nondimensional_link_stiffness nondimensional_link_energy nondimensional_force temperature.

(* /repo/src/physics/single_chain/ufjc/morse/thermodynamics/isotensional/asymptotic/ex.rs:52-55 *)
Definition
    physics_single_chain_ufjc_morse_thermodynamics_isotensional_asymptotic_nondimensional_relative_gibbs_free_energy
    (number_of_links : Z) (nondimensional_link_stiffness : T) (nondimensional_link_energy : T)
    (nondimensional_force : T) : T :=
  morse_isotensional_asymptotic.nondimensional_relative_gibbs_free_energy number_of_links
      nondimensional_link_stiffness nondimensional_link_energy nondimensional_force.

(* /repo/src/physics/single_chain/ufjc/morse/thermodynamics/isotensional/asymptotic/ex.rs:57-60 *)
Definition
    physics_single_chain_ufjc_morse_thermodynamics_isotensional_asymptotic_nondimensional_relative_gibbs_free_energy_per_link
    (nondimensional_link_stiffness : T) (nondimensional_link_energy : T) (nondimensional_force : T)
    : T :=
  morse_isotensional_asymptotic.nondimensional_relative_gibbs_free_energy_per_link
      nondimensional_link_stiffness nondimensional_link_energy nondimensional_force.

(* /repo/src/physics/single_chain/ufjc/morse/thermodynamics/isotensional/asymptotic/legendre/ex.rs:2-5 *)
Definition
    physics_single_chain_ufjc_morse_thermodynamics_isotensional_asymptotic_legendre_helmholtz_free_energy
    (number_of_links : Z) (link_length : T) (hinge_mass : T) (link_stiffness : T) (link_energy : T)
    (force : T) (temperature : T) : T :=
  morse_isotensional_asymptotic_legendre.helmholtz_free_energy number_of_links link_length
      hinge_mass link_stiffness link_energy force temperature.

(* /repo/src/physics/single_chain/ufjc/morse/thermodynamics/isotensional/asymptotic/legendre/ex.rs:7-10 *)
Definition
    physics_single_chain_ufjc_morse_thermodynamics_isotensional_asymptotic_legendre_helmholtz_free_energy_per_link
    (link_length : T) (hinge_mass : T) (link_stiffness : T) (link_energy : T) (force : T)
    (temperature : T) : T :=
  morse_isotensional_asymptotic_legendre.helmholtz_free_energy_per_link link_length hinge_mass
      link_stiffness link_energy force temperature.

(* /repo/src/physics/single_chain/ufjc/morse/thermodynamics/isotensional/asymptotic/legendre/ex.rs:12-15 *)
Definition
    physics_single_chain_ufjc_morse_thermodynamics_isotensional_asymptotic_legendre_relative_helmholtz_free_energy
    (number_of_links : Z) (link_length : T) (link_stiffness : T) (link_energy : T) (force : T)
    (temperature : T) : T :=
  morse_isotensional_asymptotic_legendre.relative_helmholtz_free_energy number_of_links link_length
      link_stiffness link_energy force temperature.

(* /repo/src/physics/single_chain/ufjc/morse/thermodynamics/isotensional/asymptotic/legendre/ex.rs:17-20 *)
Definition
    physics_single_chain_ufjc_morse_thermodynamics_isotensional_asymptotic_legendre_relative_helmholtz_free_energy_per_link
    (link_length : T) (link_stiffness : T) (link_energy : T) (force : T) (temperature : T) : T :=
  morse_isotensional_asymptotic_legendre.relative_helmholtz_free_energy_per_link link_length
      link_stiffness link_energy force temperature.

(* /repo/src/physics/single_chain/ufjc/morse/thermodynamics/isotensional/asymptotic/legendre/ex.rs:22-25 *)
Definition
    physics_single_chain_ufjc_morse_thermodynamics_isotensional_asymptotic_legendre_nondimensional_helmholtz_free_energy
    (number_of_links : Z) (link_length : T) (hinge_mass : T) (nondimensional_link_stiffness : T)
    (nondimensional_link_energy : T) (nondimensional_force : T) (temperature : T) : T :=
  morse_isotensional_asymptotic_legendre.nondimensional_helmholtz_free_energy number_of_links
      link_length hinge_mass nondimensional_link_stiffness nondimensional_link_energy
      nondimensional_force temperature.

(* /repo/src/physics/single_chain/ufjc/morse/thermodynamics/isotensional/asymptotic/legendre/ex.rs:27-30 *)
Definition
    physics_single_chain_ufjc_morse_thermodynamics_isotensional_asymptotic_legendre_nondimensional_helmholtz_free_energy_per_link
    (link_length : T) (hinge_mass : T) (nondimensional_link_stiffness : T)
    (nondimensional_link_energy : T) (nondimensional_force : T) (temperature : T) : T :=
  morse_isotensional_asymptotic_legendre.nondimensional_helmholtz_free_energy_per_link link_length
      hinge_mass nondimensional_link_stiffness nondimensional_link_energy nondimensional_force
      temperature.

(* /repo/src/physics/single_chain/ufjc/morse/thermodynamics/isotensional/asymptotic/legendre/ex.rs:32-35 *)
Definition
    physics_single_chain_ufjc_morse_thermodynamics_isotensional_asymptotic_legendre_nondimensional_relative_helmholtz_free_energy
    (number_of_links : Z) (nondimensional_link_stiffness : T) (nondimensional_link_energy : T)
    (nondimensional_force : T) : T :=
  morse_isotensional_asymptotic_legendre.nondimensional_relative_helmholtz_free_energy
      number_of_links nondimensional_link_stiffness nondimensional_link_energy nondimensional_force.

(* /repo/src/physics/single_chain/ufjc/morse/thermodynamics/isotensional/asymptotic/legendre/ex.rs:37-40 *)
Definition
    physics_single_chain_ufjc_morse_thermodynamics_isotensional_asymptotic_legendre_nondimensional_relative_helmholtz_free_energy_per_link
    (nondimensional_link_stiffness : T) (nondimensional_link_energy : T) (nondimensional_force : T)
    : T :=
  morse_isotensional_asymptotic_legendre.nondimensional_relative_helmholtz_free_energy_per_link
      nondimensional_link_stiffness nondimensional_link_energy nondimensional_force.

(* /repo/src/physics/single_chain/ufjc/morse/thermodynamics/isotensional/asymptotic/reduced/ex.rs:2-5 *)
Definition
    physics_single_chain_ufjc_morse_thermodynamics_isotensional_asymptotic_reduced_end_to_end_length
    (number_of_links : Z) (link_length : T) (link_stiffness : T) (link_energy : T) (force : T)
    (temperature : T) : T :=
  morse_isotensional_asymptotic_reduced.end_to_end_length number_of_links link_length link_stiffness
      link_energy force temperature.

(* /repo/src/physics/single_chain/ufjc/morse/thermodynamics/isotensional/asymptotic/reduced/ex.rs:7-10 *)
Definition
    physics_single_chain_ufjc_morse_thermodynamics_isotensional_asymptotic_reduced_end_to_end_length_per_link
    (link_length : T) (link_stiffness : T) (link_energy : T) (force : T) (temperature : T) : T :=
  morse_isotensional_asymptotic_reduced.end_to_end_length_per_link link_length link_stiffness
      link_energy force temperature.

(* /repo/src/physics/single_chain/ufjc/morse/thermodynamics/isotensional/asymptotic/reduced/ex.rs:12-15 *)
Definition
    physics_single_chain_ufjc_morse_thermodynamics_isotensional_asymptotic_reduced_nondimensional_end_to_end_length
    (number_of_links : Z) (nondimensional_link_stiffness : T) (nondimensional_link_energy : T)
    (nondimensional_force : T) : T :=
  morse_isotensional_asymptotic_reduced.nondimensional_end_to_end_length number_of_links
      nondimensional_link_stiffness nondimensional_link_energy nondimensional_force.

(* /repo/src/physics/single_chain/ufjc/morse/thermodynamics/isotensional/asymptotic/reduced/ex.rs:17-20 *)
Definition
    physics_single_chain_ufjc_morse_thermodynamics_isotensional_asymptotic_reduced_nondimensional_end_to_end_length_per_link
    (nondimensional_link_stiffness : T) (nondimensional_link_energy : T) (nondimensional_force : T)
    : T :=
  morse_isotensional_asymptotic_reduced.nondimensional_end_to_end_length_per_link
      nondimensional_link_stiffness nondimensional_link_energy nondimensional_force.

(* /repo/src/physics/single_chain/ufjc/morse/thermodynamics/isotensional/asymptotic/reduced/ex.rs:22-25 *)
Definition
    physics_single_chain_ufjc_morse_thermodynamics_isotensional_asymptotic_reduced_gibbs_free_energy
    (number_of_links : Z) (link_length : T) (hinge_mass : T) (link_stiffness : T) (link_energy : T)
    (force : T) (temperature : T) : T :=
  morse_isotensional_asymptotic_reduced.gibbs_free_energy number_of_links link_length hinge_mass
      link_stiffness link_energy force temperature.

(* /repo/src/physics/single_chain/ufjc/morse/thermodynamics/isotensional/asymptotic/reduced/ex.rs:27-30 *)
Definition
    physics_single_chain_ufjc_morse_thermodynamics_isotensional_asymptotic_reduced_gibbs_free_energy_per_link
    (link_length : T) (hinge_mass : T) (link_stiffness : T) (link_energy : T) (force : T)
    (temperature : T) : T :=
  morse_isotensional_asymptotic_reduced.gibbs_free_energy_per_link link_length hinge_mass
      link_stiffness link_energy force temperature.

(* /repo/src/physics/single_chain/ufjc/morse/thermodynamics/isotensional/asymptotic/reduced/ex.rs:32-35 *)
Definition
    physics_single_chain_ufjc_morse_thermodynamics_isotensional_asymptotic_reduced_relative_gibbs_free_energy
    (number_of_links : Z) (link_length : T) (link_stiffness : T) (link_energy : T) (force : T)
    (temperature : T) : T :=
  morse_isotensional_asymptotic_reduced.relative_gibbs_free_energy number_of_links link_length
      link_stiffness link_energy force temperature.

(* /repo/src/physics/single_chain/ufjc/morse/thermodynamics/isotensional/asymptotic/reduced/ex.rs:37-40 *)
Definition
    physics_single_chain_ufjc_morse_thermodynamics_isotensional_asymptotic_reduced_relative_gibbs_free_energy_per_link
    (link_length : T) (link_stiffness : T) (link_energy : T) (force : T) (temperature : T) : T :=
  morse_isotensional_asymptotic_reduced.relative_gibbs_free_energy_per_link link_length
      link_stiffness link_energy force temperature.

(* /repo/src/physics/single_chain/ufjc/morse/thermodynamics/isotensional/asymptotic/reduced/ex.rs:42-45 *)
Definition
    physics_single_chain_ufjc_morse_thermodynamics_isotensional_asymptotic_reduced_nondimensional_gibbs_free_energy
    (number_of_links : Z) (link_length : T) (hinge_mass : T) (nondimensional_link_stiffness : T)
    (nondimensional_link_energy : T) (nondimensional_force : T) (temperature : T) : T :=
  morse_isotensional_asymptotic_reduced.nondimensional_gibbs_free_energy number_of_links link_length
      hinge_mass nondimensional_link_stiffness nondimensional_link_energy nondimensional_force
      temperature.

(* /repo/src/physics/single_chain/ufjc/morse/thermodynamics/isotensional/asymptotic/reduced/ex.rs:47-50 *)
Definition
    physics_single_chain_ufjc_morse_thermodynamics_isotensional_asymptotic_reduced_nondimensional_gibbs_free_energy_per_link
    (link_length : T) (hinge_mass : T) (nondimensional_link_stiffness : T)
    (nondimensional_link_energy : T) (nondimensional_force : T) (temperature : T) : T :=
  morse_isotensional_asymptotic_reduced.nondimensional_gibbs_free_energy_per_link link_length
      hinge_mass nondimensional_link_stiffness nondimensional_link_energy nondimensional_force
      temperature.

(* /repo/src/physics/single_chain/ufjc/morse/thermodynamics/isotensional/asymptotic/reduced/ex.rs:52-55 *)
Definition
    physics_single_chain_ufjc_morse_thermodynamics_isotensional_asymptotic_reduced_nondimensional_relative_gibbs_free_energy
    (number_of_links : Z) (nondimensional_link_stiffness : T) (nondimensional_link_energy : T)
    (nondimensional_force : T) : T :=
  morse_isotensional_asymptotic_reduced.nondimensional_relative_gibbs_free_energy number_of_links
      nondimensional_link_stiffness nondimensional_link_energy nondimensional_force.

(* /repo/src/physics/single_chain/ufjc/morse/thermodynamics/isotensional/asymptotic/reduced/ex.rs:57-60 *)
Definition
    physics_single_chain_ufjc_morse_thermodynamics_isotensional_asymptotic_reduced_nondimensional_relative_gibbs_free_energy_per_link
    (nondimensional_link_stiffness : T) (nondimensional_link_energy : T) (nondimensional_force : T)
    : T :=
  morse_isotensional_asymptotic_reduced.nondimensional_relative_gibbs_free_energy_per_link
      nondimensional_link_stiffness nondimensional_link_energy nondimensional_force.

(* /repo/src/physics/single_chain/ufjc/morse/thermodynamics/isotensional/asymptotic/reduced/legendre/ex.rs:2-5 *)
Definition
    physics_single_chain_ufjc_morse_thermodynamics_isotensional_asymptotic_reduced_legendre_helmholtz_free_energy
    (number_of_links : Z) (link_length : T) (hinge_mass : T) (link_stiffness : T) (link_energy : T)
    (force : T) (temperature : T) : T :=
  morse_isotensional_asymptotic_reduced_legendre.helmholtz_free_energy number_of_links link_length
      hinge_mass link_stiffness link_energy force temperature.

(* /repo/src/physics/single_chain/ufjc/morse/thermodynamics/isotensional/asymptotic/reduced/legendre/ex.rs:7-10 *)
Definition
    physics_single_chain_ufjc_morse_thermodynamics_isotensional_asymptotic_reduced_legendre_helmholtz_free_energy_per_link
    (link_length : T) (hinge_mass : T) (link_stiffness : T) (link_energy : T) (force : T)
    (temperature : T) : T :=
  morse_isotensional_asymptotic_reduced_legendre.helmholtz_free_energy_per_link link_length
      hinge_mass link_stiffness link_energy force temperature.

(* /repo/src/physics/single_chain/ufjc/morse/thermodynamics/isotensional/asymptotic/reduced/legendre/ex.rs:12-15 *)
Definition
    physics_single_chain_ufjc_morse_thermodynamics_isotensional_asymptotic_reduced_legendre_relative_helmholtz_free_energy
    (number_of_links : Z) (link_length : T) (link_stiffness : T) (link_energy : T) (force : T)
    (temperature : T) : T :=
  morse_isotensional_asymptotic_reduced_legendre.relative_helmholtz_free_energy number_of_links
      link_length link_stiffness link_energy force temperature.

(* /repo/src/physics/single_chain/ufjc/morse/thermodynamics/isotensional/asymptotic/reduced/legendre/ex.rs:17-20 *)
Definition
    physics_single_chain_ufjc_morse_thermodynamics_isotensional_asymptotic_reduced_legendre_relative_helmholtz_free_energy_per_link
    (link_length : T) (link_stiffness : T) (link_energy : T) (force : T) (temperature : T) : T :=
  morse_isotensional_asymptotic_reduced_legendre.relative_helmholtz_free_energy_per_link link_length
      link_stiffness link_energy force temperature.

(* /repo/src/physics/single_chain/ufjc/morse/thermodynamics/isotensional/asymptotic/reduced/legendre/ex.rs:22-25 *)
Definition
    physics_single_chain_ufjc_morse_thermodynamics_isotensional_asymptotic_reduced_legendre_nondimensional_helmholtz_free_energy
    (number_of_links : Z) (link_length : T) (hinge_mass : T) (nondimensional_link_stiffness : T)
    (nondimensional_link_energy : T) (nondimensional_force : T) (temperature : T) : T :=
  morse_isotensional_asymptotic_reduced_legendre.nondimensional_helmholtz_free_energy
      number_of_links link_length hinge_mass nondimensional_link_stiffness
      nondimensional_link_energy nondimensional_force temperature.

(* /repo/src/physics/single_chain/ufjc/morse/thermodynamics/isotensional/asymptotic/reduced/legendre/ex.rs:27-30 *)
Definition
    physics_single_chain_ufjc_morse_thermodynamics_isotensional_asymptotic_reduced_legendre_nondimensional_helmholtz_free_energy_per_link
    (link_length : T) (hinge_mass : T) (nondimensional_link_stiffness : T)
    (nondimensional_link_energy : T) (nondimensional_force : T) (temperature : T) : T :=
  morse_isotensional_asymptotic_reduced_legendre.nondimensional_helmholtz_free_energy_per_link
      link_length hinge_mass nondimensional_link_stiffness nondimensional_link_energy
      nondimensional_force temperature.

(* /repo/src/physics/single_chain/ufjc/morse/thermodynamics/isotensional/asymptotic/reduced/legendre/ex.rs:32-35 *)
Definition
    physics_single_chain_ufjc_morse_thermodynamics_isotensional_asymptotic_reduced_legendre_nondimensional_relative_helmholtz_free_energy
    (number_of_links : Z) (nondimensional_link_stiffness : T) (nondimensional_link_energy : T)
    (nondimensional_force : T) : T :=
  morse_isotensional_asymptotic_reduced_legendre.nondimensional_relative_helmholtz_free_energy
      number_of_links nondimensional_link_stiffness nondimensional_link_energy nondimensional_force.

(* /repo/src/physics/single_chain/ufjc/morse/thermodynamics/isotensional/asymptotic/reduced/legendre/ex.rs:37-40 *)
Definition
    physics_single_chain_ufjc_morse_thermodynamics_isotensional_asymptotic_reduced_legendre_nondimensional_relative_helmholtz_free_energy_per_link
    (nondimensional_link_stiffness : T) (nondimensional_link_energy : T) (nondimensional_force : T)
    : T :=
  morse_isotensional_asymptotic_reduced_legendre.nondimensional_relative_helmholtz_free_energy_per_link
      nondimensional_link_stiffness nondimensional_link_energy nondimensional_force.

(* /repo/src/physics/single_chain/ufjc/morse/thermodynamics/isotensional/legendre/ex.rs:2-5 *)
Definition
    physics_single_chain_ufjc_morse_thermodynamics_isotensional_legendre_helmholtz_free_energy
    (number_of_links : Z) (link_length : T) (hinge_mass : T) (link_stiffness : T) (link_energy : T)
    (force : T) (temperature : T) : T :=
  morse_isotensional_legendre.helmholtz_free_energy number_of_links link_length hinge_mass
      link_stiffness link_energy force temperature.

(* /repo/src/physics/single_chain/ufjc/morse/thermodynamics/isotensional/legendre/ex.rs:7-10 *)
Definition
    physics_single_chain_ufjc_morse_thermodynamics_isotensional_legendre_helmholtz_free_energy_per_link
    (link_length : T) (hinge_mass : T) (link_stiffness : T) (link_energy : T) (force : T)
    (temperature : T) : T :=
  morse_isotensional_legendre.helmholtz_free_energy_per_link link_length hinge_mass link_stiffness
      link_energy force temperature.

(* /repo/src/physics/single_chain/ufjc/morse/thermodynamics/isotensional/legendre/ex.rs:12-15 *)
Definition
    physics_single_chain_ufjc_morse_thermodynamics_isotensional_legendre_relative_helmholtz_free_energy
    (number_of_links : Z) (link_length : T) (link_stiffness : T) (link_energy : T) (force : T)
    (temperature : T) : T :=
  morse_isotensional_legendre.relative_helmholtz_free_energy number_of_links link_length
      link_stiffness link_energy force temperature.

(* /repo/src/physics/single_chain/ufjc/morse/thermodynamics/isotensional/legendre/ex.rs:17-20 *)
Definition
    physics_single_chain_ufjc_morse_thermodynamics_isotensional_legendre_relative_helmholtz_free_energy_per_link
    (link_length : T) (link_stiffness : T) (link_energy : T) (force : T) (temperature : T) : T :=
  morse_isotensional_legendre.relative_helmholtz_free_energy_per_link link_length link_stiffness
      link_energy force temperature.

(* /repo/src/physics/single_chain/ufjc/morse/thermodynamics/isotensional/legendre/ex.rs:22-25 *)
Definition
    physics_single_chain_ufjc_morse_thermodynamics_isotensional_legendre_nondimensional_helmholtz_free_energy
    (number_of_links : Z) (link_length : T) (hinge_mass : T) (nondimensional_link_stiffness : T)
    (nondimensional_link_energy : T) (nondimensional_force : T) (temperature : T) : T :=
  morse_isotensional_legendre.nondimensional_helmholtz_free_energy number_of_links link_length
      hinge_mass nondimensional_link_stiffness nondimensional_link_energy nondimensional_force
      temperature.

(* /repo/src/physics/single_chain/ufjc/morse/thermodynamics/isotensional/legendre/ex.rs:27-30 *)
Definition
    physics_single_chain_ufjc_morse_thermodynamics_isotensional_legendre_nondimensional_helmholtz_free_energy_per_link
    (link_length : T) (hinge_mass : T) (nondimensional_link_stiffness : T)
    (nondimensional_link_energy : T) (nondimensional_force : T) (temperature : T) : T :=
  morse_isotensional_legendre.nondimensional_helmholtz_free_energy_per_link link_length hinge_mass
      nondimensional_link_stiffness nondimensional_link_energy nondimensional_force temperature.

(* /repo/src/physics/single_chain/ufjc/morse/thermodynamics/isotensional/legendre/ex.rs:32-35 *)
Definition
    physics_single_chain_ufjc_morse_thermodynamics_isotensional_legendre_nondimensional_relative_helmholtz_free_energy
    (number_of_links : Z) (nondimensional_link_stiffness : T) (nondimensional_link_energy : T)
    (nondimensional_force : T) : T :=
  morse_isotensional_legendre.nondimensional_relative_helmholtz_free_energy number_of_links
      nondimensional_link_stiffness nondimensional_link_energy nondimensional_force.

(* /repo/src/physics/single_chain/ufjc/morse/thermodynamics/isotensional/legendre/ex.rs:37-40 *)
Definition
    physics_single_chain_ufjc_morse_thermodynamics_isotensional_legendre_nondimensional_relative_helmholtz_free_energy_per_link
    (nondimensional_link_stiffness : T) (nondimensional_link_energy : T) (nondimensional_force : T)
    : T :=
  morse_isotensional_legendre.nondimensional_relative_helmholtz_free_energy_per_link
      nondimensional_link_stiffness nondimensional_link_energy nondimensional_force.

(* /repo/src/physics/single_chain/wlc/thermodynamics/isometric/ex.rs:2-5 *)
Definition physics_single_chain_wlc_thermodynamics_isometric_force (number_of_links : Z)
    (link_length : T) (persistance_length : T) (end_to_end_length : T) (temperature : T) : T :=
  wlc_isometric.force number_of_links link_length persistance_length end_to_end_length temperature.

(* /repo/src/physics/single_chain/wlc/thermodynamics/isometric/ex.rs:7-10 *)
Definition physics_single_chain_wlc_thermodynamics_isometric_nondimensional_force (number_of_links :
    Z) (nondimensional_persistance_length : T) (nondimensional_end_to_end_length_per_link : T) : T
    :=
  wlc_isometric.nondimensional_force number_of_links nondimensional_persistance_length
      nondimensional_end_to_end_length_per_link.

(* /repo/src/physics/single_chain/wlc/thermodynamics/isometric/ex.rs:12-15 *)
Definition physics_single_chain_wlc_thermodynamics_isometric_helmholtz_free_energy (number_of_links
    : Z) (link_length : T) (hinge_mass : T) (persistance_length : T) (end_to_end_length : T)
    (temperature : T) : T :=
  wlc_isometric.helmholtz_free_energy number_of_links link_length hinge_mass persistance_length
      end_to_end_length temperature.

(* /repo/src/physics/single_chain/wlc/thermodynamics/isometric/ex.rs:17-20 *)
Definition physics_single_chain_wlc_thermodynamics_isometric_helmholtz_free_energy_per_link
    (number_of_links : Z) (link_length : T) (hinge_mass : T) (persistance_length : T)
    (end_to_end_length : T) (temperature : T) : T :=
  wlc_isometric.helmholtz_free_energy_per_link number_of_links link_length hinge_mass
      persistance_length end_to_end_length temperature.

(* /repo/src/physics/single_chain/wlc/thermodynamics/isometric/ex.rs:22-25 *)
Definition physics_single_chain_wlc_thermodynamics_isometric_relative_helmholtz_free_energy
    (number_of_links : Z) (link_length : T) (persistance_length : T) (end_to_end_length : T)
    (temperature : T) : T :=
  wlc_isometric.relative_helmholtz_free_energy number_of_links link_length persistance_length
      end_to_end_length temperature.

(* /repo/src/physics/single_chain/wlc/thermodynamics/isometric/ex.rs:27-30 *)
Definition physics_single_chain_wlc_thermodynamics_isometric_relative_helmholtz_free_energy_per_link
    (number_of_links : Z) (link_length : T) (persistance_length : T) (end_to_end_length : T)
    (temperature : T) : T :=
  wlc_isometric.relative_helmholtz_free_energy_per_link number_of_links link_length
      persistance_length end_to_end_length temperature.

(* /repo/src/physics/single_chain/wlc/thermodynamics/isometric/ex.rs:32-35 *)
Definition physics_single_chain_wlc_thermodynamics_isometric_nondimensional_helmholtz_free_energy
    (number_of_links : Z) (link_length : T) (hinge_mass : T) (nondimensional_persistance_length : T)
    (nondimensional_end_to_end_length_per_link : T) (temperature : T) : T :=
  wlc_isometric.nondimensional_helmholtz_free_energy number_of_links link_length hinge_mass
      nondimensional_persistance_length nondimensional_end_to_end_length_per_link temperature.

(* /repo/src/physics/single_chain/wlc/thermodynamics/isometric/ex.rs:37-40 *)
Definition
    physics_single_chain_wlc_thermodynamics_isometric_nondimensional_helmholtz_free_energy_per_link
    (number_of_links : Z) (link_length : T) (hinge_mass : T) (nondimensional_persistance_length : T)
    (nondimensional_end_to_end_length_per_link : T) (temperature : T) : T :=
  wlc_isometric.nondimensional_helmholtz_free_energy_per_link number_of_links link_length hinge_mass
      nondimensional_persistance_length nondimensional_end_to_end_length_per_link temperature.

(* /repo/src/physics/single_chain/wlc/thermodynamics/isometric/ex.rs:42-45 *)
Definition
    physics_single_chain_wlc_thermodynamics_isometric_nondimensional_relative_helmholtz_free_energy
    (nondimensional_persistance_length : T) (nondimensional_end_to_end_length_per_link : T) : T :=
  wlc_isometric.nondimensional_relative_helmholtz_free_energy nondimensional_persistance_length
      nondimensional_end_to_end_length_per_link.

(* /repo/src/physics/single_chain/wlc/thermodynamics/isometric/ex.rs:47-50 *)
Definition
    physics_single_chain_wlc_thermodynamics_isometric_nondimensional_relative_helmholtz_free_energy_per_link
    (number_of_links : Z) (nondimensional_persistance_length : T)
    (nondimensional_end_to_end_length_per_link : T) : T :=
  wlc_isometric.nondimensional_relative_helmholtz_free_energy_per_link number_of_links
      nondimensional_persistance_length nondimensional_end_to_end_length_per_link.

(* /repo/src/physics/single_chain/wlc/thermodynamics/isometric/ex.rs:52-55 *)
Definition physics_single_chain_wlc_thermodynamics_isometric_equilibrium_distribution
    (number_of_links : Z) (link_length : T) (persistance_length : T)
    (normalization_nondimensional_equilibrium_distribution : T) (end_to_end_length : T) : T :=
  wlc_isometric.equilibrium_distribution number_of_links link_length persistance_length
      normalization_nondimensional_equilibrium_distribution end_to_end_length.

(* /repo/src/physics/single_chain/wlc/thermodynamics/isometric/ex.rs:57-60 *)
Definition physics_single_chain_wlc_thermodynamics_isometric_nondimensional_equilibrium_distribution
    (nondimensional_persistance_length : T) (normalization_nondimensional_equilibrium_distribution :
    T) (nondimensional_end_to_end_length_per_link : T) : T :=
  wlc_isometric.nondimensional_equilibrium_distribution nondimensional_persistance_length
      normalization_nondimensional_equilibrium_distribution
      nondimensional_end_to_end_length_per_link.

(* /repo/src/physics/single_chain/wlc/thermodynamics/isometric/ex.rs:62-65 *)
Definition physics_single_chain_wlc_thermodynamics_isometric_equilibrium_radial_distribution
    (number_of_links : Z) (link_length : T) (persistance_length : T)
    (normalization_nondimensional_equilibrium_distribution : T) (end_to_end_length : T) : T :=
  wlc_isometric.equilibrium_radial_distribution number_of_links link_length persistance_length
      normalization_nondimensional_equilibrium_distribution end_to_end_length.

(* /repo/src/physics/single_chain/wlc/thermodynamics/isometric/ex.rs:67-70 *)
Definition
    physics_single_chain_wlc_thermodynamics_isometric_nondimensional_equilibrium_radial_distribution
    (nondimensional_persistance_length : T) (normalization_nondimensional_equilibrium_distribution :
    T) (nondimensional_end_to_end_length_per_link : T) : T :=
  wlc_isometric.nondimensional_equilibrium_radial_distribution nondimensional_persistance_length
      normalization_nondimensional_equilibrium_distribution
      nondimensional_end_to_end_length_per_link.

(* /repo/src/physics/single_chain/wlc/thermodynamics/isometric/legendre/ex.rs:2-5 *)
Definition physics_single_chain_wlc_thermodynamics_isometric_legendre_gibbs_free_energy
    (number_of_links : Z) (link_length : T) (hinge_mass : T) (persistance_length : T)
    (end_to_end_length : T) (temperature : T) : T :=
  wlc_isometric_legendre.gibbs_free_energy number_of_links link_length hinge_mass persistance_length
      end_to_end_length temperature.

(* /repo/src/physics/single_chain/wlc/thermodynamics/isometric/legendre/ex.rs:7-10 *)
Definition physics_single_chain_wlc_thermodynamics_isometric_legendre_gibbs_free_energy_per_link
    (number_of_links : Z) (link_length : T) (hinge_mass : T) (persistance_length : T)
    (end_to_end_length : T) (temperature : T) : T :=
  wlc_isometric_legendre.gibbs_free_energy_per_link number_of_links link_length hinge_mass
      persistance_length end_to_end_length temperature.

(* /repo/src/physics/single_chain/wlc/thermodynamics/isometric/legendre/ex.rs:12-15 *)
Definition physics_single_chain_wlc_thermodynamics_isometric_legendre_relative_gibbs_free_energy
    (number_of_links : Z) (link_length : T) (persistance_length : T) (end_to_end_length : T)
    (temperature : T) : T :=
  wlc_isometric_legendre.relative_gibbs_free_energy number_of_links link_length persistance_length
      end_to_end_length temperature.

(* /repo/src/physics/single_chain/wlc/thermodynamics/isometric/legendre/ex.rs:17-20 *)
Definition
    physics_single_chain_wlc_thermodynamics_isometric_legendre_relative_gibbs_free_energy_per_link
    (number_of_links : Z) (link_length : T) (persistance_length : T) (end_to_end_length : T)
    (temperature : T) : T :=
  wlc_isometric_legendre.relative_gibbs_free_energy_per_link number_of_links link_length
      persistance_length end_to_end_length temperature.

(* /repo/src/physics/single_chain/wlc/thermodynamics/isometric/legendre/ex.rs:22-25 *)
Definition
    physics_single_chain_wlc_thermodynamics_isometric_legendre_nondimensional_gibbs_free_energy
    (number_of_links : Z) (link_length : T) (hinge_mass : T) (nondimensional_persistance_length : T)
    (nondimensional_end_to_end_length_per_link : T) (temperature : T) : T :=
  wlc_isometric_legendre.nondimensional_gibbs_free_energy number_of_links link_length hinge_mass
      nondimensional_persistance_length nondimensional_end_to_end_length_per_link temperature.

(* /repo/src/physics/single_chain/wlc/thermodynamics/isometric/legendre/ex.rs:27-30 *)
Definition
    physics_single_chain_wlc_thermodynamics_isometric_legendre_nondimensional_gibbs_free_energy_per_link
    (number_of_links : Z) (link_length : T) (hinge_mass : T) (nondimensional_persistance_length : T)
    (nondimensional_end_to_end_length_per_link : T) (temperature : T) : T :=
  wlc_isometric_legendre.nondimensional_gibbs_free_energy_per_link number_of_links link_length
      hinge_mass nondimensional_persistance_length nondimensional_end_to_end_length_per_link
      temperature.

(* /repo/src/physics/single_chain/wlc/thermodynamics/isometric/legendre/ex.rs:32-35 *)
Definition
    physics_single_chain_wlc_thermodynamics_isometric_legendre_nondimensional_relative_gibbs_free_energy
    (number_of_links : Z) (nondimensional_persistance_length : T)
    (nondimensional_end_to_end_length_per_link : T) : T :=
  wlc_isometric_legendre.nondimensional_relative_gibbs_free_energy number_of_links
      nondimensional_persistance_length nondimensional_end_to_end_length_per_link.

(* /repo/src/physics/single_chain/wlc/thermodynamics/isometric/legendre/ex.rs:37-40 *)
Definition
    physics_single_chain_wlc_thermodynamics_isometric_legendre_nondimensional_relative_gibbs_free_energy_per_link
    (number_of_links : Z) (nondimensional_persistance_length : T)
    (nondimensional_end_to_end_length_per_link : T) : T :=
  wlc_isometric_legendre.nondimensional_relative_gibbs_free_energy_per_link number_of_links
      nondimensional_persistance_length nondimensional_end_to_end_length_per_link.

(* /repo/src/physics/single_chain/wlc/thermodynamics/isotensional/ex.rs:2-5 *)
Definition physics_single_chain_wlc_thermodynamics_isotensional_end_to_end_length (number_of_links :
    Z) (link_length : T) (persistance_length : T) (force : T) (temperature : T) : option T :=
  wlc_isotensional.end_to_end_length number_of_links link_length persistance_length force
      temperature.

(* /repo/src/physics/single_chain/wlc/thermodynamics/isotensional/ex.rs:7-10 *)
Definition physics_single_chain_wlc_thermodynamics_isotensional_end_to_end_length_per_link
    (number_of_links : Z) (link_length : T) (persistance_length : T) (force : T) (temperature : T) :
    option T :=
  wlc_isotensional.end_to_end_length_per_link number_of_links link_length persistance_length force
      temperature.

(* /repo/src/physics/single_chain/wlc/thermodynamics/isotensional/ex.rs:12-15 *)
Definition physics_single_chain_wlc_thermodynamics_isotensional_nondimensional_end_to_end_length
    (number_of_links : Z) (nondimensional_persistance_length : T) (nondimensional_force : T) :
    option T :=
  wlc_isotensional.nondimensional_end_to_end_length number_of_links
      nondimensional_persistance_length nondimensional_force.

(* /repo/src/physics/single_chain/wlc/thermodynamics/isotensional/ex.rs:17-20 *)
Definition
    physics_single_chain_wlc_thermodynamics_isotensional_nondimensional_end_to_end_length_per_link
    (number_of_links : Z) (nondimensional_persistance_length : T) (nondimensional_force : T) :
    option T :=
  wlc_isotensional.nondimensional_end_to_end_length_per_link number_of_links
      nondimensional_persistance_length nondimensional_force.

(* /repo/src/physics/single_chain/wlc/thermodynamics/isotensional/ex.rs:22-25 *)
Definition physics_single_chain_wlc_thermodynamics_isotensional_gibbs_free_energy (number_of_links :
    Z) (link_length : T) (hinge_mass : T) (persistance_length : T) (force : T) (temperature : T) :
    option T :=
  wlc_isotensional.gibbs_free_energy number_of_links link_length hinge_mass persistance_length force
      temperature.

(* /repo/src/physics/single_chain/wlc/thermodynamics/isotensional/ex.rs:27-30 *)
Definition physics_single_chain_wlc_thermodynamics_isotensional_gibbs_free_energy_per_link
    (number_of_links : Z) (link_length : T) (hinge_mass : T) (persistance_length : T) (force : T)
    (temperature : T) : option T :=
  wlc_isotensional.gibbs_free_energy_per_link number_of_links link_length hinge_mass
      persistance_length force temperature.

(* /repo/src/physics/single_chain/wlc/thermodynamics/isotensional/ex.rs:32-35 *)
Definition physics_single_chain_wlc_thermodynamics_isotensional_relative_gibbs_free_energy
    (number_of_links : Z) (link_length : T) (persistance_length : T) (force : T) (temperature : T) :
    option T :=
  wlc_isotensional.relative_gibbs_free_energy number_of_links link_length persistance_length force
      temperature.

(* /repo/src/physics/single_chain/wlc/thermodynamics/isotensional/ex.rs:37-40 *)
Definition physics_single_chain_wlc_thermodynamics_isotensional_relative_gibbs_free_energy_per_link
    (number_of_links : Z) (link_length : T) (persistance_length : T) (force : T) (temperature : T) :
    option T :=
  wlc_isotensional.relative_gibbs_free_energy_per_link number_of_links link_length
      persistance_length force temperature.

(* /repo/src/physics/single_chain/wlc/thermodynamics/isotensional/ex.rs:42-45 *)
Definition physics_single_chain_wlc_thermodynamics_isotensional_nondimensional_gibbs_free_energy
    (number_of_links : Z) (link_length : T) (hinge_mass : T) (nondimensional_persistance_length : T)
    (nondimensional_force : T) (temperature : T) : option T :=
  wlc_isotensional.nondimensional_gibbs_free_energy number_of_links link_length hinge_mass
      nondimensional_persistance_length nondimensional_force temperature.

(* /repo/src/physics/single_chain/wlc/thermodynamics/isotensional/ex.rs:47-50 *)
Definition
    physics_single_chain_wlc_thermodynamics_isotensional_nondimensional_gibbs_free_energy_per_link
    (number_of_links : Z) (link_length : T) (hinge_mass : T) (nondimensional_persistance_length : T)
    (nondimensional_force : T) (temperature : T) : option T :=
  wlc_isotensional.nondimensional_gibbs_free_energy_per_link number_of_links link_length hinge_mass
      nondimensional_persistance_length nondimensional_force temperature.

(* /repo/src/physics/single_chain/wlc/thermodynamics/isotensional/ex.rs:52-55 *)
Definition
    physics_single_chain_wlc_thermodynamics_isotensional_nondimensional_relative_gibbs_free_energy
    (number_of_links : Z) (nondimensional_persistance_length : T) (nondimensional_force : T) :
    option T :=
  wlc_isotensional.nondimensional_relative_gibbs_free_energy number_of_links
      nondimensional_persistance_length nondimensional_force.

(* /repo/src/physics/single_chain/wlc/thermodynamics/isotensional/ex.rs:57-60 *)
Definition
    physics_single_chain_wlc_thermodynamics_isotensional_nondimensional_relative_gibbs_free_energy_per_link
    (number_of_links : Z) (nondimensional_persistance_length : T) (nondimensional_force : T) :
    option T :=
  wlc_isotensional.nondimensional_relative_gibbs_free_energy_per_link number_of_links
      nondimensional_persistance_length nondimensional_force.

(* /repo/src/physics/single_chain/wlc/thermodynamics/isotensional/legendre/ex.rs:2-5 *)
Definition physics_single_chain_wlc_thermodynamics_isotensional_legendre_helmholtz_free_energy
    (number_of_links : Z) (link_length : T) (hinge_mass : T) (persistance_length : T) (force : T)
    (temperature : T) : option T :=
  wlc_isotensional_legendre.helmholtz_free_energy number_of_links link_length hinge_mass
      persistance_length force temperature.

(* /repo/src/physics/single_chain/wlc/thermodynamics/isotensional/legendre/ex.rs:7-10 *)
Definition
    physics_single_chain_wlc_thermodynamics_isotensional_legendre_helmholtz_free_energy_per_link
    (number_of_links : Z) (link_length : T) (hinge_mass : T) (persistance_length : T) (force : T)
    (temperature : T) : option T :=
  wlc_isotensional_legendre.helmholtz_free_energy_per_link number_of_links link_length hinge_mass
      persistance_length force temperature.

(* /repo/src/physics/single_chain/wlc/thermodynamics/isotensional/legendre/ex.rs:12-15 *)
Definition
    physics_single_chain_wlc_thermodynamics_isotensional_legendre_relative_helmholtz_free_energy
    (number_of_links : Z) (link_length : T) (persistance_length : T) (force : T) (temperature : T) :
    option T :=
  wlc_isotensional_legendre.relative_helmholtz_free_energy number_of_links link_length
      persistance_length force temperature.

(* /repo/src/physics/single_chain/wlc/thermodynamics/isotensional/legendre/ex.rs:17-20 *)
Definition
    physics_single_chain_wlc_thermodynamics_isotensional_legendre_relative_helmholtz_free_energy_per_link
    (number_of_links : Z) (link_length : T) (persistance_length : T) (force : T) (temperature : T) :
    option T :=
  wlc_isotensional_legendre.relative_helmholtz_free_energy_per_link number_of_links link_length
      persistance_length force temperature.

(* /repo/src/physics/single_chain/wlc/thermodynamics/isotensional/legendre/ex.rs:22-25 *)
Definition
    physics_single_chain_wlc_thermodynamics_isotensional_legendre_nondimensional_helmholtz_free_energy
    (number_of_links : Z) (link_length : T) (hinge_mass : T) (nondimensional_persistance_length : T)
    (nondimensional_force : T) (temperature : T) : option T :=
  wlc_isotensional_legendre.nondimensional_helmholtz_free_energy number_of_links link_length
      hinge_mass nondimensional_persistance_length nondimensional_force temperature.

(* /repo/src/physics/single_chain/wlc/thermodynamics/isotensional/legendre/ex.rs:27-30 *)
Definition
    physics_single_chain_wlc_thermodynamics_isotensional_legendre_nondimensional_helmholtz_free_energy_per_link
    (number_of_links : Z) (link_length : T) (hinge_mass : T) (nondimensional_persistance_length : T)
    (nondimensional_force : T) (temperature : T) : option T :=
  wlc_isotensional_legendre.nondimensional_helmholtz_free_energy_per_link number_of_links
      link_length hinge_mass nondimensional_persistance_length nondimensional_force temperature.

(* /repo/src/physics/single_chain/wlc/thermodynamics/isotensional/legendre/ex.rs:32-35 *)
Definition
    physics_single_chain_wlc_thermodynamics_isotensional_legendre_nondimensional_relative_helmholtz_free_energy
    (number_of_links : Z) (nondimensional_persistance_length : T) (nondimensional_force : T) :
    option T :=
  wlc_isotensional_legendre.nondimensional_relative_helmholtz_free_energy number_of_links
      nondimensional_persistance_length nondimensional_force.

(* /repo/src/physics/single_chain/wlc/thermodynamics/isotensional/legendre/ex.rs:37-40 *)
Definition
    physics_single_chain_wlc_thermodynamics_isotensional_legendre_nondimensional_relative_helmholtz_free_energy_per_link
    (number_of_links : Z) (nondimensional_persistance_length : T) (nondimensional_force : T) :
    option T :=
  wlc_isotensional_legendre.nondimensional_relative_helmholtz_free_energy_per_link number_of_links
      nondimensional_persistance_length nondimensional_force.

End Model.
End extern.
