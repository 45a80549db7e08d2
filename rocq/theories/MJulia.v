(** The Julia interface of the single-chain models: the functions and constructors of the
    mod.jl files.  [jarray], [broadcast] and [ccall] are in MJuliaBase.v.

    In a constructor, an argument that takes part in arithmetic outside of a broadcast (the
    temperature, in [link_stiffness * link_length^2 / BOLTZMANN_CONSTANT / temperature]) is
    a number; the other arguments are numbers or arrays.
    Generated by tools/gen_julia.py from the files cited at each definition. *)
From Coq Require Import ZArith List Bool.
From Verif Require Import Scalar MMath MConst MIdeal MFjc MSwfjc MEfjc MMorse MLennardJones MLogSquared MWlc MBindConstitutive MExtern MJuliaBase.
Import ListNotations.
Local Open Scope scalar_scope.

(** The exported symbols with the types of their parameters. *)
Module lib.
Section Model.
Context {T : Type} {Sc : Scalar T}.

(* /repo/src/physics/single_chain/efjc/thermodynamics/isometric/asymptotic/alternative/legendre/ex.rs:2-5 *)
Definition physics_single_chain_efjc_thermodynamics_isometric_asymptotic_alternative_legendre_force : symbol T :=
  {| sig := [UInt8; Float64; Float64; Float64; Float64];
     body := fun number_of_links link_length link_stiffness end_to_end_length temperature =>
       Some (extern.physics_single_chain_efjc_thermodynamics_isometric_asymptotic_alternative_legendre_force number_of_links link_length link_stiffness end_to_end_length temperature) |}.

(* /repo/src/physics/single_chain/efjc/thermodynamics/isometric/asymptotic/alternative/legendre/ex.rs:7-10 *)
Definition physics_single_chain_efjc_thermodynamics_isometric_asymptotic_alternative_legendre_nondimensional_force : symbol T :=
  {| sig := [Float64; Float64];
     body := fun nondimensional_link_stiffness nondimensional_end_to_end_length_per_link =>
       Some (extern.physics_single_chain_efjc_thermodynamics_isometric_asymptotic_alternative_legendre_nondimensional_force nondimensional_link_stiffness nondimensional_end_to_end_length_per_link) |}.

(* /repo/src/physics/single_chain/efjc/thermodynamics/isometric/asymptotic/alternative/legendre/ex.rs:12-15 *)
Definition physics_single_chain_efjc_thermodynamics_isometric_asymptotic_alternative_legendre_helmholtz_free_energy : symbol T :=
  {| sig := [UInt8; Float64; Float64; Float64; Float64; Float64];
     body := fun number_of_links link_length hinge_mass link_stiffness end_to_end_length temperature =>
       Some (extern.physics_single_chain_efjc_thermodynamics_isometric_asymptotic_alternative_legendre_helmholtz_free_energy number_of_links link_length hinge_mass link_stiffness end_to_end_length temperature) |}.

(* /repo/src/physics/single_chain/efjc/thermodynamics/isometric/asymptotic/alternative/legendre/ex.rs:17-20 *)
Definition physics_single_chain_efjc_thermodynamics_isometric_asymptotic_alternative_legendre_helmholtz_free_energy_per_link : symbol T :=
  {| sig := [UInt8; Float64; Float64; Float64; Float64; Float64];
     body := fun number_of_links link_length hinge_mass link_stiffness end_to_end_length temperature =>
       Some (extern.physics_single_chain_efjc_thermodynamics_isometric_asymptotic_alternative_legendre_helmholtz_free_energy_per_link number_of_links link_length hinge_mass link_stiffness end_to_end_length temperature) |}.

(* /repo/src/physics/single_chain/efjc/thermodynamics/isometric/asymptotic/alternative/legendre/ex.rs:22-25 *)
Definition physics_single_chain_efjc_thermodynamics_isometric_asymptotic_alternative_legendre_relative_helmholtz_free_energy : symbol T :=
  {| sig := [UInt8; Float64; Float64; Float64; Float64];
     body := fun number_of_links link_length link_stiffness end_to_end_length temperature =>
       Some (extern.physics_single_chain_efjc_thermodynamics_isometric_asymptotic_alternative_legendre_relative_helmholtz_free_energy number_of_links link_length link_stiffness end_to_end_length temperature) |}.

(* /repo/src/physics/single_chain/efjc/thermodynamics/isometric/asymptotic/alternative/legendre/ex.rs:27-30 *)
Definition physics_single_chain_efjc_thermodynamics_isometric_asymptotic_alternative_legendre_relative_helmholtz_free_energy_per_link : symbol T :=
  {| sig := [UInt8; Float64; Float64; Float64; Float64];
     body := fun number_of_links link_length link_stiffness end_to_end_length temperature =>
       Some (extern.physics_single_chain_efjc_thermodynamics_isometric_asymptotic_alternative_legendre_relative_helmholtz_free_energy_per_link number_of_links link_length link_stiffness end_to_end_length temperature) |}.

(* /repo/src/physics/single_chain/efjc/thermodynamics/isometric/asymptotic/alternative/legendre/ex.rs:32-35 *)
Definition physics_single_chain_efjc_thermodynamics_isometric_asymptotic_alternative_legendre_nondimensional_helmholtz_free_energy : symbol T :=
  {| sig := [UInt8; Float64; Float64; Float64; Float64; Float64];
     body := fun number_of_links link_length hinge_mass nondimensional_link_stiffness nondimensional_end_to_end_length_per_link temperature =>
       Some (extern.physics_single_chain_efjc_thermodynamics_isometric_asymptotic_alternative_legendre_nondimensional_helmholtz_free_energy number_of_links link_length hinge_mass nondimensional_link_stiffness nondimensional_end_to_end_length_per_link temperature) |}.

(* /repo/src/physics/single_chain/efjc/thermodynamics/isometric/asymptotic/alternative/legendre/ex.rs:37-40 *)
Definition physics_single_chain_efjc_thermodynamics_isometric_asymptotic_alternative_legendre_nondimensional_helmholtz_free_energy_per_link : symbol T :=
  {| sig := [UInt8; Float64; Float64; Float64; Float64; Float64];
     body := fun number_of_links link_length hinge_mass nondimensional_link_stiffness nondimensional_end_to_end_length_per_link temperature =>
       Some (extern.physics_single_chain_efjc_thermodynamics_isometric_asymptotic_alternative_legendre_nondimensional_helmholtz_free_energy_per_link number_of_links link_length hinge_mass nondimensional_link_stiffness nondimensional_end_to_end_length_per_link temperature) |}.

(* /repo/src/physics/single_chain/efjc/thermodynamics/isometric/asymptotic/alternative/legendre/ex.rs:42-45 *)
Definition physics_single_chain_efjc_thermodynamics_isometric_asymptotic_alternative_legendre_nondimensional_relative_helmholtz_free_energy : symbol T :=
  {| sig := [UInt8; Float64; Float64];
     body := fun number_of_links nondimensional_link_stiffness nondimensional_end_to_end_length_per_link =>
       Some (extern.physics_single_chain_efjc_thermodynamics_isometric_asymptotic_alternative_legendre_nondimensional_relative_helmholtz_free_energy number_of_links nondimensional_link_stiffness nondimensional_end_to_end_length_per_link) |}.

(* /repo/src/physics/single_chain/efjc/thermodynamics/isometric/asymptotic/alternative/legendre/ex.rs:47-50 *)
Definition physics_single_chain_efjc_thermodynamics_isometric_asymptotic_alternative_legendre_nondimensional_relative_helmholtz_free_energy_per_link : symbol T :=
  {| sig := [Float64; Float64];
     body := fun nondimensional_link_stiffness nondimensional_end_to_end_length_per_link =>
       Some (extern.physics_single_chain_efjc_thermodynamics_isometric_asymptotic_alternative_legendre_nondimensional_relative_helmholtz_free_energy_per_link nondimensional_link_stiffness nondimensional_end_to_end_length_per_link) |}.

(* /repo/src/physics/single_chain/efjc/thermodynamics/isometric/asymptotic/legendre/ex.rs:2-5 *)
Definition physics_single_chain_efjc_thermodynamics_isometric_asymptotic_legendre_force : symbol T :=
  {| sig := [UInt8; Float64; Float64; Float64; Float64];
     body := fun number_of_links link_length link_stiffness end_to_end_length temperature =>
       Some (extern.physics_single_chain_efjc_thermodynamics_isometric_asymptotic_legendre_force number_of_links link_length link_stiffness end_to_end_length temperature) |}.

(* /repo/src/physics/single_chain/efjc/thermodynamics/isometric/asymptotic/legendre/ex.rs:7-10 *)
Definition physics_single_chain_efjc_thermodynamics_isometric_asymptotic_legendre_nondimensional_force : symbol T :=
  {| sig := [Float64; Float64];
     body := fun nondimensional_link_stiffness nondimensional_end_to_end_length_per_link =>
       Some (extern.physics_single_chain_efjc_thermodynamics_isometric_asymptotic_legendre_nondimensional_force nondimensional_link_stiffness nondimensional_end_to_end_length_per_link) |}.

(* /repo/src/physics/single_chain/efjc/thermodynamics/isometric/asymptotic/legendre/ex.rs:12-15 *)
Definition physics_single_chain_efjc_thermodynamics_isometric_asymptotic_legendre_helmholtz_free_energy : symbol T :=
  {| sig := [UInt8; Float64; Float64; Float64; Float64; Float64];
     body := fun number_of_links link_length hinge_mass link_stiffness end_to_end_length temperature =>
       Some (extern.physics_single_chain_efjc_thermodynamics_isometric_asymptotic_legendre_helmholtz_free_energy number_of_links link_length hinge_mass link_stiffness end_to_end_length temperature) |}.

(* /repo/src/physics/single_chain/efjc/thermodynamics/isometric/asymptotic/legendre/ex.rs:17-20 *)
Definition physics_single_chain_efjc_thermodynamics_isometric_asymptotic_legendre_helmholtz_free_energy_per_link : symbol T :=
  {| sig := [UInt8; Float64; Float64; Float64; Float64; Float64];
     body := fun number_of_links link_length hinge_mass link_stiffness end_to_end_length temperature =>
       Some (extern.physics_single_chain_efjc_thermodynamics_isometric_asymptotic_legendre_helmholtz_free_energy_per_link number_of_links link_length hinge_mass link_stiffness end_to_end_length temperature) |}.

(* /repo/src/physics/single_chain/efjc/thermodynamics/isometric/asymptotic/legendre/ex.rs:22-25 *)
Definition physics_single_chain_efjc_thermodynamics_isometric_asymptotic_legendre_relative_helmholtz_free_energy : symbol T :=
  {| sig := [UInt8; Float64; Float64; Float64; Float64];
     body := fun number_of_links link_length link_stiffness end_to_end_length temperature =>
       Some (extern.physics_single_chain_efjc_thermodynamics_isometric_asymptotic_legendre_relative_helmholtz_free_energy number_of_links link_length link_stiffness end_to_end_length temperature) |}.

(* /repo/src/physics/single_chain/efjc/thermodynamics/isometric/asymptotic/legendre/ex.rs:27-30 *)
Definition physics_single_chain_efjc_thermodynamics_isometric_asymptotic_legendre_relative_helmholtz_free_energy_per_link : symbol T :=
  {| sig := [UInt8; Float64; Float64; Float64; Float64];
     body := fun number_of_links link_length link_stiffness end_to_end_length temperature =>
       Some (extern.physics_single_chain_efjc_thermodynamics_isometric_asymptotic_legendre_relative_helmholtz_free_energy_per_link number_of_links link_length link_stiffness end_to_end_length temperature) |}.

(* /repo/src/physics/single_chain/efjc/thermodynamics/isometric/asymptotic/legendre/ex.rs:32-35 *)
Definition physics_single_chain_efjc_thermodynamics_isometric_asymptotic_legendre_nondimensional_helmholtz_free_energy : symbol T :=
  {| sig := [UInt8; Float64; Float64; Float64; Float64; Float64];
     body := fun number_of_links link_length hinge_mass nondimensional_link_stiffness nondimensional_end_to_end_length_per_link temperature =>
       Some (extern.physics_single_chain_efjc_thermodynamics_isometric_asymptotic_legendre_nondimensional_helmholtz_free_energy number_of_links link_length hinge_mass nondimensional_link_stiffness nondimensional_end_to_end_length_per_link temperature) |}.

(* /repo/src/physics/single_chain/efjc/thermodynamics/isometric/asymptotic/legendre/ex.rs:37-40 *)
Definition physics_single_chain_efjc_thermodynamics_isometric_asymptotic_legendre_nondimensional_helmholtz_free_energy_per_link : symbol T :=
  {| sig := [UInt8; Float64; Float64; Float64; Float64; Float64];
     body := fun number_of_links link_length hinge_mass nondimensional_link_stiffness nondimensional_end_to_end_length_per_link temperature =>
       Some (extern.physics_single_chain_efjc_thermodynamics_isometric_asymptotic_legendre_nondimensional_helmholtz_free_energy_per_link number_of_links link_length hinge_mass nondimensional_link_stiffness nondimensional_end_to_end_length_per_link temperature) |}.

(* /repo/src/physics/single_chain/efjc/thermodynamics/isometric/asymptotic/legendre/ex.rs:42-45 *)
Definition physics_single_chain_efjc_thermodynamics_isometric_asymptotic_legendre_nondimensional_relative_helmholtz_free_energy : symbol T :=
  {| sig := [UInt8; Float64; Float64];
     body := fun number_of_links nondimensional_link_stiffness nondimensional_end_to_end_length_per_link =>
       Some (extern.physics_single_chain_efjc_thermodynamics_isometric_asymptotic_legendre_nondimensional_relative_helmholtz_free_energy number_of_links nondimensional_link_stiffness nondimensional_end_to_end_length_per_link) |}.

(* /repo/src/physics/single_chain/efjc/thermodynamics/isometric/asymptotic/legendre/ex.rs:47-50 *)
Definition physics_single_chain_efjc_thermodynamics_isometric_asymptotic_legendre_nondimensional_relative_helmholtz_free_energy_per_link : symbol T :=
  {| sig := [Float64; Float64];
     body := fun nondimensional_link_stiffness nondimensional_end_to_end_length_per_link =>
       Some (extern.physics_single_chain_efjc_thermodynamics_isometric_asymptotic_legendre_nondimensional_relative_helmholtz_free_energy_per_link nondimensional_link_stiffness nondimensional_end_to_end_length_per_link) |}.

(* /repo/src/physics/single_chain/efjc/thermodynamics/isometric/asymptotic/reduced/legendre/ex.rs:2-5 *)
Definition physics_single_chain_efjc_thermodynamics_isometric_asymptotic_reduced_legendre_force : symbol T :=
  {| sig := [UInt8; Float64; Float64; Float64; Float64];
     body := fun number_of_links link_length link_stiffness end_to_end_length temperature =>
       Some (extern.physics_single_chain_efjc_thermodynamics_isometric_asymptotic_reduced_legendre_force number_of_links link_length link_stiffness end_to_end_length temperature) |}.

(* /repo/src/physics/single_chain/efjc/thermodynamics/isometric/asymptotic/reduced/legendre/ex.rs:7-10 *)
Definition physics_single_chain_efjc_thermodynamics_isometric_asymptotic_reduced_legendre_nondimensional_force : symbol T :=
  {| sig := [Float64; Float64];
     body := fun nondimensional_link_stiffness nondimensional_end_to_end_length_per_link =>
       Some (extern.physics_single_chain_efjc_thermodynamics_isometric_asymptotic_reduced_legendre_nondimensional_force nondimensional_link_stiffness nondimensional_end_to_end_length_per_link) |}.

(* /repo/src/physics/single_chain/efjc/thermodynamics/isometric/asymptotic/reduced/legendre/ex.rs:12-15 *)
Definition physics_single_chain_efjc_thermodynamics_isometric_asymptotic_reduced_legendre_helmholtz_free_energy : symbol T :=
  {| sig := [UInt8; Float64; Float64; Float64; Float64; Float64];
     body := fun number_of_links link_length hinge_mass link_stiffness end_to_end_length temperature =>
       Some (extern.physics_single_chain_efjc_thermodynamics_isometric_asymptotic_reduced_legendre_helmholtz_free_energy number_of_links link_length hinge_mass link_stiffness end_to_end_length temperature) |}.

(* /repo/src/physics/single_chain/efjc/thermodynamics/isometric/asymptotic/reduced/legendre/ex.rs:17-20 *)
Definition physics_single_chain_efjc_thermodynamics_isometric_asymptotic_reduced_legendre_helmholtz_free_energy_per_link : symbol T :=
  {| sig := [UInt8; Float64; Float64; Float64; Float64; Float64];
     body := fun number_of_links link_length hinge_mass link_stiffness end_to_end_length temperature =>
       Some (extern.physics_single_chain_efjc_thermodynamics_isometric_asymptotic_reduced_legendre_helmholtz_free_energy_per_link number_of_links link_length hinge_mass link_stiffness end_to_end_length temperature) |}.

(* /repo/src/physics/single_chain/efjc/thermodynamics/isometric/asymptotic/reduced/legendre/ex.rs:22-25 *)
Definition physics_single_chain_efjc_thermodynamics_isometric_asymptotic_reduced_legendre_relative_helmholtz_free_energy : symbol T :=
  {| sig := [UInt8; Float64; Float64; Float64; Float64];
     body := fun number_of_links link_length link_stiffness end_to_end_length temperature =>
       Some (extern.physics_single_chain_efjc_thermodynamics_isometric_asymptotic_reduced_legendre_relative_helmholtz_free_energy number_of_links link_length link_stiffness end_to_end_length temperature) |}.

(* /repo/src/physics/single_chain/efjc/thermodynamics/isometric/asymptotic/reduced/legendre/ex.rs:27-30 *)
Definition physics_single_chain_efjc_thermodynamics_isometric_asymptotic_reduced_legendre_relative_helmholtz_free_energy_per_link : symbol T :=
  {| sig := [UInt8; Float64; Float64; Float64; Float64];
     body := fun number_of_links link_length link_stiffness end_to_end_length temperature =>
       Some (extern.physics_single_chain_efjc_thermodynamics_isometric_asymptotic_reduced_legendre_relative_helmholtz_free_energy_per_link number_of_links link_length link_stiffness end_to_end_length temperature) |}.

(* /repo/src/physics/single_chain/efjc/thermodynamics/isometric/asymptotic/reduced/legendre/ex.rs:32-35 *)
Definition physics_single_chain_efjc_thermodynamics_isometric_asymptotic_reduced_legendre_nondimensional_helmholtz_free_energy : symbol T :=
  {| sig := [UInt8; Float64; Float64; Float64; Float64; Float64];
     body := fun number_of_links link_length hinge_mass nondimensional_link_stiffness nondimensional_end_to_end_length_per_link temperature =>
       Some (extern.physics_single_chain_efjc_thermodynamics_isometric_asymptotic_reduced_legendre_nondimensional_helmholtz_free_energy number_of_links link_length hinge_mass nondimensional_link_stiffness nondimensional_end_to_end_length_per_link temperature) |}.

(* /repo/src/physics/single_chain/efjc/thermodynamics/isometric/asymptotic/reduced/legendre/ex.rs:37-40 *)
Definition physics_single_chain_efjc_thermodynamics_isometric_asymptotic_reduced_legendre_nondimensional_helmholtz_free_energy_per_link : symbol T :=
  {| sig := [UInt8; Float64; Float64; Float64; Float64; Float64];
     body := fun number_of_links link_length hinge_mass nondimensional_link_stiffness nondimensional_end_to_end_length_per_link temperature =>
       Some (extern.physics_single_chain_efjc_thermodynamics_isometric_asymptotic_reduced_legendre_nondimensional_helmholtz_free_energy_per_link number_of_links link_length hinge_mass nondimensional_link_stiffness nondimensional_end_to_end_length_per_link temperature) |}.

(* /repo/src/physics/single_chain/efjc/thermodynamics/isometric/asymptotic/reduced/legendre/ex.rs:42-45 *)
Definition physics_single_chain_efjc_thermodynamics_isometric_asymptotic_reduced_legendre_nondimensional_relative_helmholtz_free_energy : symbol T :=
  {| sig := [UInt8; Float64; Float64];
     body := fun number_of_links nondimensional_link_stiffness nondimensional_end_to_end_length_per_link =>
       Some (extern.physics_single_chain_efjc_thermodynamics_isometric_asymptotic_reduced_legendre_nondimensional_relative_helmholtz_free_energy number_of_links nondimensional_link_stiffness nondimensional_end_to_end_length_per_link) |}.

(* /repo/src/physics/single_chain/efjc/thermodynamics/isometric/asymptotic/reduced/legendre/ex.rs:47-50 *)
Definition physics_single_chain_efjc_thermodynamics_isometric_asymptotic_reduced_legendre_nondimensional_relative_helmholtz_free_energy_per_link : symbol T :=
  {| sig := [Float64; Float64];
     body := fun nondimensional_link_stiffness nondimensional_end_to_end_length_per_link =>
       Some (extern.physics_single_chain_efjc_thermodynamics_isometric_asymptotic_reduced_legendre_nondimensional_relative_helmholtz_free_energy_per_link nondimensional_link_stiffness nondimensional_end_to_end_length_per_link) |}.

(* /repo/src/physics/single_chain/efjc/thermodynamics/isotensional/ex.rs:2-5 *)
Definition physics_single_chain_efjc_thermodynamics_isotensional_end_to_end_length : symbol T :=
  {| sig := [UInt8; Float64; Float64; Float64; Float64];
     body := fun number_of_links link_length link_stiffness force temperature =>
       Some (extern.physics_single_chain_efjc_thermodynamics_isotensional_end_to_end_length number_of_links link_length link_stiffness force temperature) |}.

(* /repo/src/physics/single_chain/efjc/thermodynamics/isotensional/ex.rs:7-10 *)
Definition physics_single_chain_efjc_thermodynamics_isotensional_end_to_end_length_per_link : symbol T :=
  {| sig := [Float64; Float64; Float64; Float64];
     body := fun link_length link_stiffness force temperature =>
       Some (extern.physics_single_chain_efjc_thermodynamics_isotensional_end_to_end_length_per_link link_length link_stiffness force temperature) |}.

(* /repo/src/physics/single_chain/efjc/thermodynamics/isotensional/ex.rs:12-15 *)
Definition physics_single_chain_efjc_thermodynamics_isotensional_nondimensional_end_to_end_length : symbol T :=
  {| sig := [UInt8; Float64; Float64];
     body := fun number_of_links nondimensional_link_stiffness nondimensional_force =>
       Some (extern.physics_single_chain_efjc_thermodynamics_isotensional_nondimensional_end_to_end_length number_of_links nondimensional_link_stiffness nondimensional_force) |}.

(* /repo/src/physics/single_chain/efjc/thermodynamics/isotensional/ex.rs:17-20 *)
Definition physics_single_chain_efjc_thermodynamics_isotensional_nondimensional_end_to_end_length_per_link : symbol T :=
  {| sig := [Float64; Float64];
     body := fun nondimensional_link_stiffness nondimensional_force =>
       Some (extern.physics_single_chain_efjc_thermodynamics_isotensional_nondimensional_end_to_end_length_per_link nondimensional_link_stiffness nondimensional_force) |}.

(* /repo/src/physics/single_chain/efjc/thermodynamics/isotensional/ex.rs:22-25 *)
Definition physics_single_chain_efjc_thermodynamics_isotensional_gibbs_free_energy : symbol T :=
  {| sig := [UInt8; Float64; Float64; Float64; Float64; Float64];
     body := fun number_of_links link_length hinge_mass link_stiffness force temperature =>
       Some (extern.physics_single_chain_efjc_thermodynamics_isotensional_gibbs_free_energy number_of_links link_length hinge_mass link_stiffness force temperature) |}.

(* /repo/src/physics/single_chain/efjc/thermodynamics/isotensional/ex.rs:27-30 *)
Definition physics_single_chain_efjc_thermodynamics_isotensional_gibbs_free_energy_per_link : symbol T :=
  {| sig := [Float64; Float64; Float64; Float64; Float64];
     body := fun link_length hinge_mass link_stiffness force temperature =>
       Some (extern.physics_single_chain_efjc_thermodynamics_isotensional_gibbs_free_energy_per_link link_length hinge_mass link_stiffness force temperature) |}.

(* /repo/src/physics/single_chain/efjc/thermodynamics/isotensional/ex.rs:32-35 *)
Definition physics_single_chain_efjc_thermodynamics_isotensional_relative_gibbs_free_energy : symbol T :=
  {| sig := [UInt8; Float64; Float64; Float64; Float64];
     body := fun number_of_links link_length link_stiffness force temperature =>
       Some (extern.physics_single_chain_efjc_thermodynamics_isotensional_relative_gibbs_free_energy number_of_links link_length link_stiffness force temperature) |}.

(* /repo/src/physics/single_chain/efjc/thermodynamics/isotensional/ex.rs:37-40 *)
Definition physics_single_chain_efjc_thermodynamics_isotensional_relative_gibbs_free_energy_per_link : symbol T :=
  {| sig := [Float64; Float64; Float64; Float64];
     body := fun link_length link_stiffness force temperature =>
       Some (extern.physics_single_chain_efjc_thermodynamics_isotensional_relative_gibbs_free_energy_per_link link_length link_stiffness force temperature) |}.

(* /repo/src/physics/single_chain/efjc/thermodynamics/isotensional/ex.rs:42-45 *)
Definition physics_single_chain_efjc_thermodynamics_isotensional_nondimensional_gibbs_free_energy : symbol T :=
  {| sig := [UInt8; Float64; Float64; Float64; Float64; Float64];
     body := fun number_of_links link_length hinge_mass nondimensional_link_stiffness nondimensional_force temperature =>
       Some (extern.physics_single_chain_efjc_thermodynamics_isotensional_nondimensional_gibbs_free_energy number_of_links link_length hinge_mass nondimensional_link_stiffness nondimensional_force temperature) |}.

(* /repo/src/physics/single_chain/efjc/thermodynamics/isotensional/ex.rs:47-50 *)
Definition physics_single_chain_efjc_thermodynamics_isotensional_nondimensional_gibbs_free_energy_per_link : symbol T :=
  {| sig := [Float64; Float64; Float64; Float64; Float64];
     body := fun link_length hinge_mass nondimensional_link_stiffness nondimensional_force temperature =>
       Some (extern.physics_single_chain_efjc_thermodynamics_isotensional_nondimensional_gibbs_free_energy_per_link link_length hinge_mass nondimensional_link_stiffness nondimensional_force temperature) |}.

(* /repo/src/physics/single_chain/efjc/thermodynamics/isotensional/ex.rs:52-55 *)
Definition physics_single_chain_efjc_thermodynamics_isotensional_nondimensional_relative_gibbs_free_energy : symbol T :=
  {| sig := [UInt8; Float64; Float64];
     body := fun number_of_links nondimensional_link_stiffness nondimensional_force =>
       Some (extern.physics_single_chain_efjc_thermodynamics_isotensional_nondimensional_relative_gibbs_free_energy number_of_links nondimensional_link_stiffness nondimensional_force) |}.

(* /repo/src/physics/single_chain/efjc/thermodynamics/isotensional/ex.rs:57-60 *)
Definition physics_single_chain_efjc_thermodynamics_isotensional_nondimensional_relative_gibbs_free_energy_per_link : symbol T :=
  {| sig := [Float64; Float64];
     body := fun nondimensional_link_stiffness nondimensional_force =>
       Some (extern.physics_single_chain_efjc_thermodynamics_isotensional_nondimensional_relative_gibbs_free_energy_per_link nondimensional_link_stiffness nondimensional_force) |}.

(* /repo/src/physics/single_chain/efjc/thermodynamics/isotensional/asymptotic/ex.rs:2-5 *)
Definition physics_single_chain_efjc_thermodynamics_isotensional_asymptotic_end_to_end_length : symbol T :=
  {| sig := [UInt8; Float64; Float64; Float64; Float64];
     body := fun number_of_links link_length link_stiffness force temperature =>
       Some (extern.physics_single_chain_efjc_thermodynamics_isotensional_asymptotic_end_to_end_length number_of_links link_length link_stiffness force temperature) |}.

(* /repo/src/physics/single_chain/efjc/thermodynamics/isotensional/asymptotic/ex.rs:7-10 *)
Definition physics_single_chain_efjc_thermodynamics_isotensional_asymptotic_end_to_end_length_per_link : symbol T :=
  {| sig := [Float64; Float64; Float64; Float64];
     body := fun link_length link_stiffness force temperature =>
       Some (extern.physics_single_chain_efjc_thermodynamics_isotensional_asymptotic_end_to_end_length_per_link link_length link_stiffness force temperature) |}.

(* /repo/src/physics/single_chain/efjc/thermodynamics/isotensional/asymptotic/ex.rs:12-15 *)
Definition physics_single_chain_efjc_thermodynamics_isotensional_asymptotic_nondimensional_end_to_end_length : symbol T :=
  {| sig := [UInt8; Float64; Float64];
     body := fun number_of_links nondimensional_link_stiffness nondimensional_force =>
       Some (extern.physics_single_chain_efjc_thermodynamics_isotensional_asymptotic_nondimensional_end_to_end_length number_of_links nondimensional_link_stiffness nondimensional_force) |}.

(* /repo/src/physics/single_chain/efjc/thermodynamics/isotensional/asymptotic/ex.rs:17-20 *)
Definition physics_single_chain_efjc_thermodynamics_isotensional_asymptotic_nondimensional_end_to_end_length_per_link : symbol T :=
  {| sig := [Float64; Float64];
     body := fun nondimensional_link_stiffness nondimensional_force =>
       Some (extern.physics_single_chain_efjc_thermodynamics_isotensional_asymptotic_nondimensional_end_to_end_length_per_link nondimensional_link_stiffness nondimensional_force) |}.

(* /repo/src/physics/single_chain/efjc/thermodynamics/isotensional/asymptotic/ex.rs:22-25 *)
Definition physics_single_chain_efjc_thermodynamics_isotensional_asymptotic_gibbs_free_energy : symbol T :=
  {| sig := [UInt8; Float64; Float64; Float64; Float64; Float64];
     body := fun number_of_links link_length hinge_mass link_stiffness force temperature =>
       Some (extern.physics_single_chain_efjc_thermodynamics_isotensional_asymptotic_gibbs_free_energy number_of_links link_length hinge_mass link_stiffness force temperature) |}.

(* /repo/src/physics/single_chain/efjc/thermodynamics/isotensional/asymptotic/ex.rs:27-30 *)
Definition physics_single_chain_efjc_thermodynamics_isotensional_asymptotic_gibbs_free_energy_per_link : symbol T :=
  {| sig := [Float64; Float64; Float64; Float64; Float64];
     body := fun link_length hinge_mass link_stiffness force temperature =>
       Some (extern.physics_single_chain_efjc_thermodynamics_isotensional_asymptotic_gibbs_free_energy_per_link link_length hinge_mass link_stiffness force temperature) |}.

(* /repo/src/physics/single_chain/efjc/thermodynamics/isotensional/asymptotic/ex.rs:32-35 *)
Definition physics_single_chain_efjc_thermodynamics_isotensional_asymptotic_relative_gibbs_free_energy : symbol T :=
  {| sig := [UInt8; Float64; Float64; Float64; Float64];
     body := fun number_of_links link_length link_stiffness force temperature =>
       Some (extern.physics_single_chain_efjc_thermodynamics_isotensional_asymptotic_relative_gibbs_free_energy number_of_links link_length link_stiffness force temperature) |}.

(* /repo/src/physics/single_chain/efjc/thermodynamics/isotensional/asymptotic/ex.rs:37-40 *)
Definition physics_single_chain_efjc_thermodynamics_isotensional_asymptotic_relative_gibbs_free_energy_per_link : symbol T :=
  {| sig := [Float64; Float64; Float64; Float64];
     body := fun link_length link_stiffness force temperature =>
       Some (extern.physics_single_chain_efjc_thermodynamics_isotensional_asymptotic_relative_gibbs_free_energy_per_link link_length link_stiffness force temperature) |}.

(* /repo/src/physics/single_chain/efjc/thermodynamics/isotensional/asymptotic/ex.rs:42-45 *)
Definition physics_single_chain_efjc_thermodynamics_isotensional_asymptotic_nondimensional_gibbs_free_energy : symbol T :=
  {| sig := [UInt8; Float64; Float64; Float64; Float64; Float64];
     body := fun number_of_links link_length hinge_mass nondimensional_link_stiffness nondimensional_force temperature =>
       Some (extern.physics_single_chain_efjc_thermodynamics_isotensional_asymptotic_nondimensional_gibbs_free_energy number_of_links link_length hinge_mass nondimensional_link_stiffness nondimensional_force temperature) |}.

(* /repo/src/physics/single_chain/efjc/thermodynamics/isotensional/asymptotic/ex.rs:47-50 *)
Definition physics_single_chain_efjc_thermodynamics_isotensional_asymptotic_nondimensional_gibbs_free_energy_per_link : symbol T :=
  {| sig := [Float64; Float64; Float64; Float64; Float64];
     body := fun link_length hinge_mass nondimensional_link_stiffness nondimensional_force temperature =>
       Some (extern.physics_single_chain_efjc_thermodynamics_isotensional_asymptotic_nondimensional_gibbs_free_energy_per_link link_length hinge_mass nondimensional_link_stiffness nondimensional_force temperature) |}.

(* /repo/src/physics/single_chain/efjc/thermodynamics/isotensional/asymptotic/ex.rs:52-55 *)
Definition physics_single_chain_efjc_thermodynamics_isotensional_asymptotic_nondimensional_relative_gibbs_free_energy : symbol T :=
  {| sig := [UInt8; Float64; Float64];
     body := fun number_of_links nondimensional_link_stiffness nondimensional_force =>
       Some (extern.physics_single_chain_efjc_thermodynamics_isotensional_asymptotic_nondimensional_relative_gibbs_free_energy number_of_links nondimensional_link_stiffness nondimensional_force) |}.

(* /repo/src/physics/single_chain/efjc/thermodynamics/isotensional/asymptotic/ex.rs:57-60 *)
Definition physics_single_chain_efjc_thermodynamics_isotensional_asymptotic_nondimensional_relative_gibbs_free_energy_per_link : symbol T :=
  {| sig := [Float64; Float64];
     body := fun nondimensional_link_stiffness nondimensional_force =>
       Some (extern.physics_single_chain_efjc_thermodynamics_isotensional_asymptotic_nondimensional_relative_gibbs_free_energy_per_link nondimensional_link_stiffness nondimensional_force) |}.

(* /repo/src/physics/single_chain/efjc/thermodynamics/isotensional/asymptotic/alternative/ex.rs:2-5 *)
Definition physics_single_chain_efjc_thermodynamics_isotensional_asymptotic_alternative_end_to_end_length : symbol T :=
  {| sig := [UInt8; Float64; Float64; Float64; Float64];
     body := fun number_of_links link_length link_stiffness force temperature =>
       Some (extern.physics_single_chain_efjc_thermodynamics_isotensional_asymptotic_alternative_end_to_end_length number_of_links link_length link_stiffness force temperature) |}.

(* /repo/src/physics/single_chain/efjc/thermodynamics/isotensional/asymptotic/alternative/ex.rs:7-10 *)
Definition physics_single_chain_efjc_thermodynamics_isotensional_asymptotic_alternative_end_to_end_length_per_link : symbol T :=
  {| sig := [Float64; Float64; Float64; Float64];
     body := fun link_length link_stiffness force temperature =>
       Some (extern.physics_single_chain_efjc_thermodynamics_isotensional_asymptotic_alternative_end_to_end_length_per_link link_length link_stiffness force temperature) |}.

(* /repo/src/physics/single_chain/efjc/thermodynamics/isotensional/asymptotic/alternative/ex.rs:12-15 *)
Definition physics_single_chain_efjc_thermodynamics_isotensional_asymptotic_alternative_nondimensional_end_to_end_length : symbol T :=
  {| sig := [UInt8; Float64; Float64];
     body := fun number_of_links nondimensional_link_stiffness nondimensional_force =>
       Some (extern.physics_single_chain_efjc_thermodynamics_isotensional_asymptotic_alternative_nondimensional_end_to_end_length number_of_links nondimensional_link_stiffness nondimensional_force) |}.

(* /repo/src/physics/single_chain/efjc/thermodynamics/isotensional/asymptotic/alternative/ex.rs:17-20 *)
Definition physics_single_chain_efjc_thermodynamics_isotensional_asymptotic_alternative_nondimensional_end_to_end_length_per_link : symbol T :=
  {| sig := [Float64; Float64];
     body := fun nondimensional_link_stiffness nondimensional_force =>
       Some (extern.physics_single_chain_efjc_thermodynamics_isotensional_asymptotic_alternative_nondimensional_end_to_end_length_per_link nondimensional_link_stiffness nondimensional_force) |}.

(* /repo/src/physics/single_chain/efjc/thermodynamics/isotensional/asymptotic/alternative/ex.rs:22-25 *)
Definition physics_single_chain_efjc_thermodynamics_isotensional_asymptotic_alternative_gibbs_free_energy : symbol T :=
  {| sig := [UInt8; Float64; Float64; Float64; Float64; Float64];
     body := fun number_of_links link_length hinge_mass link_stiffness force temperature =>
       Some (extern.physics_single_chain_efjc_thermodynamics_isotensional_asymptotic_alternative_gibbs_free_energy number_of_links link_length hinge_mass link_stiffness force temperature) |}.

(* /repo/src/physics/single_chain/efjc/thermodynamics/isotensional/asymptotic/alternative/ex.rs:27-30 *)
Definition physics_single_chain_efjc_thermodynamics_isotensional_asymptotic_alternative_gibbs_free_energy_per_link : symbol T :=
  {| sig := [Float64; Float64; Float64; Float64; Float64];
     body := fun link_length hinge_mass link_stiffness force temperature =>
       Some (extern.physics_single_chain_efjc_thermodynamics_isotensional_asymptotic_alternative_gibbs_free_energy_per_link link_length hinge_mass link_stiffness force temperature) |}.

(* /repo/src/physics/single_chain/efjc/thermodynamics/isotensional/asymptotic/alternative/ex.rs:32-35 *)
Definition physics_single_chain_efjc_thermodynamics_isotensional_asymptotic_alternative_relative_gibbs_free_energy : symbol T :=
  {| sig := [UInt8; Float64; Float64; Float64; Float64];
     body := fun number_of_links link_length link_stiffness force temperature =>
       Some (extern.physics_single_chain_efjc_thermodynamics_isotensional_asymptotic_alternative_relative_gibbs_free_energy number_of_links link_length link_stiffness force temperature) |}.

(* /repo/src/physics/single_chain/efjc/thermodynamics/isotensional/asymptotic/alternative/ex.rs:37-40 *)
Definition physics_single_chain_efjc_thermodynamics_isotensional_asymptotic_alternative_relative_gibbs_free_energy_per_link : symbol T :=
  {| sig := [Float64; Float64; Float64; Float64];
     body := fun link_length link_stiffness force temperature =>
       Some (extern.physics_single_chain_efjc_thermodynamics_isotensional_asymptotic_alternative_relative_gibbs_free_energy_per_link link_length link_stiffness force temperature) |}.

(* /repo/src/physics/single_chain/efjc/thermodynamics/isotensional/asymptotic/alternative/ex.rs:42-45 *)
Definition physics_single_chain_efjc_thermodynamics_isotensional_asymptotic_alternative_nondimensional_gibbs_free_energy : symbol T :=
  {| sig := [UInt8; Float64; Float64; Float64; Float64; Float64];
     body := fun number_of_links link_length hinge_mass nondimensional_link_stiffness nondimensional_force temperature =>
       Some (extern.physics_single_chain_efjc_thermodynamics_isotensional_asymptotic_alternative_nondimensional_gibbs_free_energy number_of_links link_length hinge_mass nondimensional_link_stiffness nondimensional_force temperature) |}.

(* /repo/src/physics/single_chain/efjc/thermodynamics/isotensional/asymptotic/alternative/ex.rs:47-50 *)
Definition physics_single_chain_efjc_thermodynamics_isotensional_asymptotic_alternative_nondimensional_gibbs_free_energy_per_link : symbol T :=
  {| sig := [Float64; Float64; Float64; Float64; Float64];
     body := fun link_length hinge_mass nondimensional_link_stiffness nondimensional_force temperature =>
       Some (extern.physics_single_chain_efjc_thermodynamics_isotensional_asymptotic_alternative_nondimensional_gibbs_free_energy_per_link link_length hinge_mass nondimensional_link_stiffness nondimensional_force temperature) |}.

(* /repo/src/physics/single_chain/efjc/thermodynamics/isotensional/asymptotic/alternative/ex.rs:52-55 *)
Definition physics_single_chain_efjc_thermodynamics_isotensional_asymptotic_alternative_nondimensional_relative_gibbs_free_energy : symbol T :=
  {| sig := [UInt8; Float64; Float64];
     body := fun number_of_links nondimensional_link_stiffness nondimensional_force =>
       Some (extern.physics_single_chain_efjc_thermodynamics_isotensional_asymptotic_alternative_nondimensional_relative_gibbs_free_energy number_of_links nondimensional_link_stiffness nondimensional_force) |}.

(* /repo/src/physics/single_chain/efjc/thermodynamics/isotensional/asymptotic/alternative/ex.rs:57-60 *)
Definition physics_single_chain_efjc_thermodynamics_isotensional_asymptotic_alternative_nondimensional_relative_gibbs_free_energy_per_link : symbol T :=
  {| sig := [Float64; Float64];
     body := fun nondimensional_link_stiffness nondimensional_force =>
       Some (extern.physics_single_chain_efjc_thermodynamics_isotensional_asymptotic_alternative_nondimensional_relative_gibbs_free_energy_per_link nondimensional_link_stiffness nondimensional_force) |}.

(* /repo/src/physics/single_chain/efjc/thermodynamics/isotensional/asymptotic/alternative/legendre/ex.rs:2-5 *)
Definition physics_single_chain_efjc_thermodynamics_isotensional_asymptotic_alternative_legendre_helmholtz_free_energy : symbol T :=
  {| sig := [UInt8; Float64; Float64; Float64; Float64; Float64];
     body := fun number_of_links link_length hinge_mass link_stiffness force temperature =>
       Some (extern.physics_single_chain_efjc_thermodynamics_isotensional_asymptotic_alternative_legendre_helmholtz_free_energy number_of_links link_length hinge_mass link_stiffness force temperature) |}.

(* /repo/src/physics/single_chain/efjc/thermodynamics/isotensional/asymptotic/alternative/legendre/ex.rs:7-10 *)
Definition physics_single_chain_efjc_thermodynamics_isotensional_asymptotic_alternative_legendre_helmholtz_free_energy_per_link : symbol T :=
  {| sig := [Float64; Float64; Float64; Float64; Float64];
     body := fun link_length hinge_mass link_stiffness force temperature =>
       Some (extern.physics_single_chain_efjc_thermodynamics_isotensional_asymptotic_alternative_legendre_helmholtz_free_energy_per_link link_length hinge_mass link_stiffness force temperature) |}.

(* /repo/src/physics/single_chain/efjc/thermodynamics/isotensional/asymptotic/alternative/legendre/ex.rs:12-15 *)
Definition physics_single_chain_efjc_thermodynamics_isotensional_asymptotic_alternative_legendre_relative_helmholtz_free_energy : symbol T :=
  {| sig := [UInt8; Float64; Float64; Float64; Float64];
     body := fun number_of_links link_length link_stiffness force temperature =>
       Some (extern.physics_single_chain_efjc_thermodynamics_isotensional_asymptotic_alternative_legendre_relative_helmholtz_free_energy number_of_links link_length link_stiffness force temperature) |}.

(* /repo/src/physics/single_chain/efjc/thermodynamics/isotensional/asymptotic/alternative/legendre/ex.rs:17-20 *)
Definition physics_single_chain_efjc_thermodynamics_isotensional_asymptotic_alternative_legendre_relative_helmholtz_free_energy_per_link : symbol T :=
  {| sig := [Float64; Float64; Float64; Float64];
     body := fun link_length link_stiffness force temperature =>
       Some (extern.physics_single_chain_efjc_thermodynamics_isotensional_asymptotic_alternative_legendre_relative_helmholtz_free_energy_per_link link_length link_stiffness force temperature) |}.

(* /repo/src/physics/single_chain/efjc/thermodynamics/isotensional/asymptotic/alternative/legendre/ex.rs:22-25 *)
Definition physics_single_chain_efjc_thermodynamics_isotensional_asymptotic_alternative_legendre_nondimensional_helmholtz_free_energy : symbol T :=
  {| sig := [UInt8; Float64; Float64; Float64; Float64; Float64];
     body := fun number_of_links link_length hinge_mass nondimensional_link_stiffness nondimensional_force temperature =>
       Some (extern.physics_single_chain_efjc_thermodynamics_isotensional_asymptotic_alternative_legendre_nondimensional_helmholtz_free_energy number_of_links link_length hinge_mass nondimensional_link_stiffness nondimensional_force temperature) |}.

(* /repo/src/physics/single_chain/efjc/thermodynamics/isotensional/asymptotic/alternative/legendre/ex.rs:27-30 *)
Definition physics_single_chain_efjc_thermodynamics_isotensional_asymptotic_alternative_legendre_nondimensional_helmholtz_free_energy_per_link : symbol T :=
  {| sig := [Float64; Float64; Float64; Float64; Float64];
     body := fun link_length hinge_mass nondimensional_link_stiffness nondimensional_force temperature =>
       Some (extern.physics_single_chain_efjc_thermodynamics_isotensional_asymptotic_alternative_legendre_nondimensional_helmholtz_free_energy_per_link link_length hinge_mass nondimensional_link_stiffness nondimensional_force temperature) |}.

(* /repo/src/physics/single_chain/efjc/thermodynamics/isotensional/asymptotic/alternative/legendre/ex.rs:32-35 *)
Definition physics_single_chain_efjc_thermodynamics_isotensional_asymptotic_alternative_legendre_nondimensional_relative_helmholtz_free_energy : symbol T :=
  {| sig := [UInt8; Float64; Float64];
     body := fun number_of_links nondimensional_link_stiffness nondimensional_force =>
       Some (extern.physics_single_chain_efjc_thermodynamics_isotensional_asymptotic_alternative_legendre_nondimensional_relative_helmholtz_free_energy number_of_links nondimensional_link_stiffness nondimensional_force) |}.

(* /repo/src/physics/single_chain/efjc/thermodynamics/isotensional/asymptotic/alternative/legendre/ex.rs:37-40 *)
Definition physics_single_chain_efjc_thermodynamics_isotensional_asymptotic_alternative_legendre_nondimensional_relative_helmholtz_free_energy_per_link : symbol T :=
  {| sig := [Float64; Float64];
     body := fun nondimensional_link_stiffness nondimensional_force =>
       Some (extern.physics_single_chain_efjc_thermodynamics_isotensional_asymptotic_alternative_legendre_nondimensional_relative_helmholtz_free_energy_per_link nondimensional_link_stiffness nondimensional_force) |}.

(* /repo/src/physics/single_chain/efjc/thermodynamics/isotensional/asymptotic/legendre/ex.rs:2-5 *)
Definition physics_single_chain_efjc_thermodynamics_isotensional_asymptotic_legendre_helmholtz_free_energy : symbol T :=
  {| sig := [UInt8; Float64; Float64; Float64; Float64; Float64];
     body := fun number_of_links link_length hinge_mass link_stiffness force temperature =>
       Some (extern.physics_single_chain_efjc_thermodynamics_isotensional_asymptotic_legendre_helmholtz_free_energy number_of_links link_length hinge_mass link_stiffness force temperature) |}.

(* /repo/src/physics/single_chain/efjc/thermodynamics/isotensional/asymptotic/legendre/ex.rs:7-10 *)
Definition physics_single_chain_efjc_thermodynamics_isotensional_asymptotic_legendre_helmholtz_free_energy_per_link : symbol T :=
  {| sig := [Float64; Float64; Float64; Float64; Float64];
     body := fun link_length hinge_mass link_stiffness force temperature =>
       Some (extern.physics_single_chain_efjc_thermodynamics_isotensional_asymptotic_legendre_helmholtz_free_energy_per_link link_length hinge_mass link_stiffness force temperature) |}.

(* /repo/src/physics/single_chain/efjc/thermodynamics/isotensional/asymptotic/legendre/ex.rs:12-15 *)
Definition physics_single_chain_efjc_thermodynamics_isotensional_asymptotic_legendre_relative_helmholtz_free_energy : symbol T :=
  {| sig := [UInt8; Float64; Float64; Float64; Float64];
     body := fun number_of_links link_length link_stiffness force temperature =>
       Some (extern.physics_single_chain_efjc_thermodynamics_isotensional_asymptotic_legendre_relative_helmholtz_free_energy number_of_links link_length link_stiffness force temperature) |}.

(* /repo/src/physics/single_chain/efjc/thermodynamics/isotensional/asymptotic/legendre/ex.rs:17-20 *)
Definition physics_single_chain_efjc_thermodynamics_isotensional_asymptotic_legendre_relative_helmholtz_free_energy_per_link : symbol T :=
  {| sig := [Float64; Float64; Float64; Float64];
     body := fun link_length link_stiffness force temperature =>
       Some (extern.physics_single_chain_efjc_thermodynamics_isotensional_asymptotic_legendre_relative_helmholtz_free_energy_per_link link_length link_stiffness force temperature) |}.

(* /repo/src/physics/single_chain/efjc/thermodynamics/isotensional/asymptotic/legendre/ex.rs:22-25 *)
Definition physics_single_chain_efjc_thermodynamics_isotensional_asymptotic_legendre_nondimensional_helmholtz_free_energy : symbol T :=
  {| sig := [UInt8; Float64; Float64; Float64; Float64; Float64];
     body := fun number_of_links link_length hinge_mass nondimensional_link_stiffness nondimensional_force temperature =>
       Some (extern.physics_single_chain_efjc_thermodynamics_isotensional_asymptotic_legendre_nondimensional_helmholtz_free_energy number_of_links link_length hinge_mass nondimensional_link_stiffness nondimensional_force temperature) |}.

(* /repo/src/physics/single_chain/efjc/thermodynamics/isotensional/asymptotic/legendre/ex.rs:27-30 *)
Definition physics_single_chain_efjc_thermodynamics_isotensional_asymptotic_legendre_nondimensional_helmholtz_free_energy_per_link : symbol T :=
  {| sig := [Float64; Float64; Float64; Float64; Float64];
     body := fun link_length hinge_mass nondimensional_link_stiffness nondimensional_force temperature =>
       Some (extern.physics_single_chain_efjc_thermodynamics_isotensional_asymptotic_legendre_nondimensional_helmholtz_free_energy_per_link link_length hinge_mass nondimensional_link_stiffness nondimensional_force temperature) |}.

(* /repo/src/physics/single_chain/efjc/thermodynamics/isotensional/asymptotic/legendre/ex.rs:32-35 *)
Definition physics_single_chain_efjc_thermodynamics_isotensional_asymptotic_legendre_nondimensional_relative_helmholtz_free_energy : symbol T :=
  {| sig := [UInt8; Float64; Float64];
     body := fun number_of_links nondimensional_link_stiffness nondimensional_force =>
       Some (extern.physics_single_chain_efjc_thermodynamics_isotensional_asymptotic_legendre_nondimensional_relative_helmholtz_free_energy number_of_links nondimensional_link_stiffness nondimensional_force) |}.

(* /repo/src/physics/single_chain/efjc/thermodynamics/isotensional/asymptotic/legendre/ex.rs:37-40 *)
Definition physics_single_chain_efjc_thermodynamics_isotensional_asymptotic_legendre_nondimensional_relative_helmholtz_free_energy_per_link : symbol T :=
  {| sig := [Float64; Float64];
     body := fun nondimensional_link_stiffness nondimensional_force =>
       Some (extern.physics_single_chain_efjc_thermodynamics_isotensional_asymptotic_legendre_nondimensional_relative_helmholtz_free_energy_per_link nondimensional_link_stiffness nondimensional_force) |}.

(* /repo/src/physics/single_chain/efjc/thermodynamics/isotensional/asymptotic/reduced/ex.rs:2-5 *)
Definition physics_single_chain_efjc_thermodynamics_isotensional_asymptotic_reduced_end_to_end_length : symbol T :=
  {| sig := [UInt8; Float64; Float64; Float64; Float64];
     body := fun number_of_links link_length link_stiffness force temperature =>
       Some (extern.physics_single_chain_efjc_thermodynamics_isotensional_asymptotic_reduced_end_to_end_length number_of_links link_length link_stiffness force temperature) |}.

(* /repo/src/physics/single_chain/efjc/thermodynamics/isotensional/asymptotic/reduced/ex.rs:7-10 *)
Definition physics_single_chain_efjc_thermodynamics_isotensional_asymptotic_reduced_end_to_end_length_per_link : symbol T :=
  {| sig := [Float64; Float64; Float64; Float64];
     body := fun link_length link_stiffness force temperature =>
       Some (extern.physics_single_chain_efjc_thermodynamics_isotensional_asymptotic_reduced_end_to_end_length_per_link link_length link_stiffness force temperature) |}.

(* /repo/src/physics/single_chain/efjc/thermodynamics/isotensional/asymptotic/reduced/ex.rs:12-15 *)
Definition physics_single_chain_efjc_thermodynamics_isotensional_asymptotic_reduced_nondimensional_end_to_end_length : symbol T :=
  {| sig := [UInt8; Float64; Float64];
     body := fun number_of_links nondimensional_link_stiffness nondimensional_force =>
       Some (extern.physics_single_chain_efjc_thermodynamics_isotensional_asymptotic_reduced_nondimensional_end_to_end_length number_of_links nondimensional_link_stiffness nondimensional_force) |}.

(* /repo/src/physics/single_chain/efjc/thermodynamics/isotensional/asymptotic/reduced/ex.rs:17-20 *)
Definition physics_single_chain_efjc_thermodynamics_isotensional_asymptotic_reduced_nondimensional_end_to_end_length_per_link : symbol T :=
  {| sig := [Float64; Float64];
     body := fun nondimensional_link_stiffness nondimensional_force =>
       Some (extern.physics_single_chain_efjc_thermodynamics_isotensional_asymptotic_reduced_nondimensional_end_to_end_length_per_link nondimensional_link_stiffness nondimensional_force) |}.

(* /repo/src/physics/single_chain/efjc/thermodynamics/isotensional/asymptotic/reduced/ex.rs:22-25 *)
Definition physics_single_chain_efjc_thermodynamics_isotensional_asymptotic_reduced_gibbs_free_energy : symbol T :=
  {| sig := [UInt8; Float64; Float64; Float64; Float64; Float64];
     body := fun number_of_links link_length hinge_mass link_stiffness force temperature =>
       Some (extern.physics_single_chain_efjc_thermodynamics_isotensional_asymptotic_reduced_gibbs_free_energy number_of_links link_length hinge_mass link_stiffness force temperature) |}.

(* /repo/src/physics/single_chain/efjc/thermodynamics/isotensional/asymptotic/reduced/ex.rs:27-30 *)
Definition physics_single_chain_efjc_thermodynamics_isotensional_asymptotic_reduced_gibbs_free_energy_per_link : symbol T :=
  {| sig := [Float64; Float64; Float64; Float64; Float64];
     body := fun link_length hinge_mass link_stiffness force temperature =>
       Some (extern.physics_single_chain_efjc_thermodynamics_isotensional_asymptotic_reduced_gibbs_free_energy_per_link link_length hinge_mass link_stiffness force temperature) |}.

(* /repo/src/physics/single_chain/efjc/thermodynamics/isotensional/asymptotic/reduced/ex.rs:32-35 *)
Definition physics_single_chain_efjc_thermodynamics_isotensional_asymptotic_reduced_relative_gibbs_free_energy : symbol T :=
  {| sig := [UInt8; Float64; Float64; Float64; Float64];
     body := fun number_of_links link_length link_stiffness force temperature =>
       Some (extern.physics_single_chain_efjc_thermodynamics_isotensional_asymptotic_reduced_relative_gibbs_free_energy number_of_links link_length link_stiffness force temperature) |}.

(* /repo/src/physics/single_chain/efjc/thermodynamics/isotensional/asymptotic/reduced/ex.rs:37-40 *)
Definition physics_single_chain_efjc_thermodynamics_isotensional_asymptotic_reduced_relative_gibbs_free_energy_per_link : symbol T :=
  {| sig := [Float64; Float64; Float64; Float64];
     body := fun link_length link_stiffness force temperature =>
       Some (extern.physics_single_chain_efjc_thermodynamics_isotensional_asymptotic_reduced_relative_gibbs_free_energy_per_link link_length link_stiffness force temperature) |}.

(* /repo/src/physics/single_chain/efjc/thermodynamics/isotensional/asymptotic/reduced/ex.rs:42-45 *)
Definition physics_single_chain_efjc_thermodynamics_isotensional_asymptotic_reduced_nondimensional_gibbs_free_energy : symbol T :=
  {| sig := [UInt8; Float64; Float64; Float64; Float64; Float64];
     body := fun number_of_links link_length hinge_mass nondimensional_link_stiffness nondimensional_force temperature =>
       Some (extern.physics_single_chain_efjc_thermodynamics_isotensional_asymptotic_reduced_nondimensional_gibbs_free_energy number_of_links link_length hinge_mass nondimensional_link_stiffness nondimensional_force temperature) |}.

(* /repo/src/physics/single_chain/efjc/thermodynamics/isotensional/asymptotic/reduced/ex.rs:47-50 *)
Definition physics_single_chain_efjc_thermodynamics_isotensional_asymptotic_reduced_nondimensional_gibbs_free_energy_per_link : symbol T :=
  {| sig := [Float64; Float64; Float64; Float64; Float64];
     body := fun link_length hinge_mass nondimensional_link_stiffness nondimensional_force temperature =>
       Some (extern.physics_single_chain_efjc_thermodynamics_isotensional_asymptotic_reduced_nondimensional_gibbs_free_energy_per_link link_length hinge_mass nondimensional_link_stiffness nondimensional_force temperature) |}.

(* /repo/src/physics/single_chain/efjc/thermodynamics/isotensional/asymptotic/reduced/ex.rs:52-55 *)
Definition physics_single_chain_efjc_thermodynamics_isotensional_asymptotic_reduced_nondimensional_relative_gibbs_free_energy : symbol T :=
  {| sig := [UInt8; Float64; Float64];
     body := fun number_of_links nondimensional_link_stiffness nondimensional_force =>
       Some (extern.physics_single_chain_efjc_thermodynamics_isotensional_asymptotic_reduced_nondimensional_relative_gibbs_free_energy number_of_links nondimensional_link_stiffness nondimensional_force) |}.

(* /repo/src/physics/single_chain/efjc/thermodynamics/isotensional/asymptotic/reduced/ex.rs:57-60 *)
Definition physics_single_chain_efjc_thermodynamics_isotensional_asymptotic_reduced_nondimensional_relative_gibbs_free_energy_per_link : symbol T :=
  {| sig := [Float64; Float64];
     body := fun nondimensional_link_stiffness nondimensional_force =>
       Some (extern.physics_single_chain_efjc_thermodynamics_isotensional_asymptotic_reduced_nondimensional_relative_gibbs_free_energy_per_link nondimensional_link_stiffness nondimensional_force) |}.

(* /repo/src/physics/single_chain/efjc/thermodynamics/isotensional/asymptotic/reduced/legendre/ex.rs:2-5 *)
Definition physics_single_chain_efjc_thermodynamics_isotensional_asymptotic_reduced_legendre_helmholtz_free_energy : symbol T :=
  {| sig := [UInt8; Float64; Float64; Float64; Float64; Float64];
     body := fun number_of_links link_length hinge_mass link_stiffness force temperature =>
       Some (extern.physics_single_chain_efjc_thermodynamics_isotensional_asymptotic_reduced_legendre_helmholtz_free_energy number_of_links link_length hinge_mass link_stiffness force temperature) |}.

(* /repo/src/physics/single_chain/efjc/thermodynamics/isotensional/asymptotic/reduced/legendre/ex.rs:7-10 *)
Definition physics_single_chain_efjc_thermodynamics_isotensional_asymptotic_reduced_legendre_helmholtz_free_energy_per_link : symbol T :=
  {| sig := [Float64; Float64; Float64; Float64; Float64];
     body := fun link_length hinge_mass link_stiffness force temperature =>
       Some (extern.physics_single_chain_efjc_thermodynamics_isotensional_asymptotic_reduced_legendre_helmholtz_free_energy_per_link link_length hinge_mass link_stiffness force temperature) |}.

(* /repo/src/physics/single_chain/efjc/thermodynamics/isotensional/asymptotic/reduced/legendre/ex.rs:12-15 *)
Definition physics_single_chain_efjc_thermodynamics_isotensional_asymptotic_reduced_legendre_relative_helmholtz_free_energy : symbol T :=
  {| sig := [UInt8; Float64; Float64; Float64; Float64];
     body := fun number_of_links link_length link_stiffness force temperature =>
       Some (extern.physics_single_chain_efjc_thermodynamics_isotensional_asymptotic_reduced_legendre_relative_helmholtz_free_energy number_of_links link_length link_stiffness force temperature) |}.

(* /repo/src/physics/single_chain/efjc/thermodynamics/isotensional/asymptotic/reduced/legendre/ex.rs:17-20 *)
Definition physics_single_chain_efjc_thermodynamics_isotensional_asymptotic_reduced_legendre_relative_helmholtz_free_energy_per_link : symbol T :=
  {| sig := [Float64; Float64; Float64; Float64];
     body := fun link_length link_stiffness force temperature =>
       Some (extern.physics_single_chain_efjc_thermodynamics_isotensional_asymptotic_reduced_legendre_relative_helmholtz_free_energy_per_link link_length link_stiffness force temperature) |}.

(* /repo/src/physics/single_chain/efjc/thermodynamics/isotensional/asymptotic/reduced/legendre/ex.rs:22-25 *)
Definition physics_single_chain_efjc_thermodynamics_isotensional_asymptotic_reduced_legendre_nondimensional_helmholtz_free_energy : symbol T :=
  {| sig := [UInt8; Float64; Float64; Float64; Float64; Float64];
     body := fun number_of_links link_length hinge_mass nondimensional_link_stiffness nondimensional_force temperature =>
       Some (extern.physics_single_chain_efjc_thermodynamics_isotensional_asymptotic_reduced_legendre_nondimensional_helmholtz_free_energy number_of_links link_length hinge_mass nondimensional_link_stiffness nondimensional_force temperature) |}.

(* /repo/src/physics/single_chain/efjc/thermodynamics/isotensional/asymptotic/reduced/legendre/ex.rs:27-30 *)
Definition physics_single_chain_efjc_thermodynamics_isotensional_asymptotic_reduced_legendre_nondimensional_helmholtz_free_energy_per_link : symbol T :=
  {| sig := [Float64; Float64; Float64; Float64; Float64];
     body := fun link_length hinge_mass nondimensional_link_stiffness nondimensional_force temperature =>
       Some (extern.physics_single_chain_efjc_thermodynamics_isotensional_asymptotic_reduced_legendre_nondimensional_helmholtz_free_energy_per_link link_length hinge_mass nondimensional_link_stiffness nondimensional_force temperature) |}.

(* /repo/src/physics/single_chain/efjc/thermodynamics/isotensional/asymptotic/reduced/legendre/ex.rs:32-35 *)
Definition physics_single_chain_efjc_thermodynamics_isotensional_asymptotic_reduced_legendre_nondimensional_relative_helmholtz_free_energy : symbol T :=
  {| sig := [UInt8; Float64; Float64];
     body := fun number_of_links nondimensional_link_stiffness nondimensional_force =>
       Some (extern.physics_single_chain_efjc_thermodynamics_isotensional_asymptotic_reduced_legendre_nondimensional_relative_helmholtz_free_energy number_of_links nondimensional_link_stiffness nondimensional_force) |}.

(* /repo/src/physics/single_chain/efjc/thermodynamics/isotensional/asymptotic/reduced/legendre/ex.rs:37-40 *)
Definition physics_single_chain_efjc_thermodynamics_isotensional_asymptotic_reduced_legendre_nondimensional_relative_helmholtz_free_energy_per_link : symbol T :=
  {| sig := [Float64; Float64];
     body := fun nondimensional_link_stiffness nondimensional_force =>
       Some (extern.physics_single_chain_efjc_thermodynamics_isotensional_asymptotic_reduced_legendre_nondimensional_relative_helmholtz_free_energy_per_link nondimensional_link_stiffness nondimensional_force) |}.

(* /repo/src/physics/single_chain/efjc/thermodynamics/isotensional/legendre/ex.rs:2-5 *)
Definition physics_single_chain_efjc_thermodynamics_isotensional_legendre_helmholtz_free_energy : symbol T :=
  {| sig := [UInt8; Float64; Float64; Float64; Float64; Float64];
     body := fun number_of_links link_length hinge_mass link_stiffness force temperature =>
       Some (extern.physics_single_chain_efjc_thermodynamics_isotensional_legendre_helmholtz_free_energy number_of_links link_length hinge_mass link_stiffness force temperature) |}.

(* /repo/src/physics/single_chain/efjc/thermodynamics/isotensional/legendre/ex.rs:7-10 *)
Definition physics_single_chain_efjc_thermodynamics_isotensional_legendre_helmholtz_free_energy_per_link : symbol T :=
  {| sig := [Float64; Float64; Float64; Float64; Float64];
     body := fun link_length hinge_mass link_stiffness force temperature =>
       Some (extern.physics_single_chain_efjc_thermodynamics_isotensional_legendre_helmholtz_free_energy_per_link link_length hinge_mass link_stiffness force temperature) |}.

(* /repo/src/physics/single_chain/efjc/thermodynamics/isotensional/legendre/ex.rs:12-15 *)
Definition physics_single_chain_efjc_thermodynamics_isotensional_legendre_relative_helmholtz_free_energy : symbol T :=
  {| sig := [UInt8; Float64; Float64; Float64; Float64];
     body := fun number_of_links link_length link_stiffness force temperature =>
       Some (extern.physics_single_chain_efjc_thermodynamics_isotensional_legendre_relative_helmholtz_free_energy number_of_links link_length link_stiffness force temperature) |}.

(* /repo/src/physics/single_chain/efjc/thermodynamics/isotensional/legendre/ex.rs:17-20 *)
Definition physics_single_chain_efjc_thermodynamics_isotensional_legendre_relative_helmholtz_free_energy_per_link : symbol T :=
  {| sig := [Float64; Float64; Float64; Float64];
     body := fun link_length link_stiffness force temperature =>
       Some (extern.physics_single_chain_efjc_thermodynamics_isotensional_legendre_relative_helmholtz_free_energy_per_link link_length link_stiffness force temperature) |}.

(* /repo/src/physics/single_chain/efjc/thermodynamics/isotensional/legendre/ex.rs:22-25 *)
Definition physics_single_chain_efjc_thermodynamics_isotensional_legendre_nondimensional_helmholtz_free_energy : symbol T :=
  {| sig := [UInt8; Float64; Float64; Float64; Float64; Float64];
     body := fun number_of_links link_length hinge_mass nondimensional_link_stiffness nondimensional_force temperature =>
       Some (extern.physics_single_chain_efjc_thermodynamics_isotensional_legendre_nondimensional_helmholtz_free_energy number_of_links link_length hinge_mass nondimensional_link_stiffness nondimensional_force temperature) |}.

(* /repo/src/physics/single_chain/efjc/thermodynamics/isotensional/legendre/ex.rs:27-30 *)
Definition physics_single_chain_efjc_thermodynamics_isotensional_legendre_nondimensional_helmholtz_free_energy_per_link : symbol T :=
  {| sig := [Float64; Float64; Float64; Float64; Float64];
     body := fun link_length hinge_mass nondimensional_link_stiffness nondimensional_force temperature =>
       Some (extern.physics_single_chain_efjc_thermodynamics_isotensional_legendre_nondimensional_helmholtz_free_energy_per_link link_length hinge_mass nondimensional_link_stiffness nondimensional_force temperature) |}.

(* /repo/src/physics/single_chain/efjc/thermodynamics/isotensional/legendre/ex.rs:32-35 *)
Definition physics_single_chain_efjc_thermodynamics_isotensional_legendre_nondimensional_relative_helmholtz_free_energy : symbol T :=
  {| sig := [UInt8; Float64; Float64];
     body := fun number_of_links nondimensional_link_stiffness nondimensional_force =>
       Some (extern.physics_single_chain_efjc_thermodynamics_isotensional_legendre_nondimensional_relative_helmholtz_free_energy number_of_links nondimensional_link_stiffness nondimensional_force) |}.

(* /repo/src/physics/single_chain/efjc/thermodynamics/isotensional/legendre/ex.rs:37-40 *)
Definition physics_single_chain_efjc_thermodynamics_isotensional_legendre_nondimensional_relative_helmholtz_free_energy_per_link : symbol T :=
  {| sig := [Float64; Float64];
     body := fun nondimensional_link_stiffness nondimensional_force =>
       Some (extern.physics_single_chain_efjc_thermodynamics_isotensional_legendre_nondimensional_relative_helmholtz_free_energy_per_link nondimensional_link_stiffness nondimensional_force) |}.

(* /repo/src/physics/single_chain/fjc/thermodynamics/isometric/ex.rs:2-5 *)
Definition physics_single_chain_fjc_thermodynamics_isometric_force (prof : profile) : symbol T :=
  {| sig := [UInt8; Float64; Float64; Float64];
     body := fun number_of_links link_length end_to_end_length temperature =>
       extern.physics_single_chain_fjc_thermodynamics_isometric_force prof number_of_links link_length end_to_end_length temperature |}.

(* /repo/src/physics/single_chain/fjc/thermodynamics/isometric/ex.rs:7-10 *)
Definition physics_single_chain_fjc_thermodynamics_isometric_nondimensional_force (prof : profile) : symbol T :=
  {| sig := [UInt8; Float64];
     body := fun number_of_links nondimensional_end_to_end_length_per_link =>
       extern.physics_single_chain_fjc_thermodynamics_isometric_nondimensional_force prof number_of_links nondimensional_end_to_end_length_per_link |}.

(* /repo/src/physics/single_chain/fjc/thermodynamics/isometric/ex.rs:12-15 *)
Definition physics_single_chain_fjc_thermodynamics_isometric_helmholtz_free_energy (prof : profile) : symbol T :=
  {| sig := [UInt8; Float64; Float64; Float64; Float64];
     body := fun number_of_links link_length hinge_mass end_to_end_length temperature =>
       extern.physics_single_chain_fjc_thermodynamics_isometric_helmholtz_free_energy prof number_of_links link_length hinge_mass end_to_end_length temperature |}.

(* /repo/src/physics/single_chain/fjc/thermodynamics/isometric/ex.rs:17-20 *)
Definition physics_single_chain_fjc_thermodynamics_isometric_helmholtz_free_energy_per_link (prof : profile) : symbol T :=
  {| sig := [UInt8; Float64; Float64; Float64; Float64];
     body := fun number_of_links link_length hinge_mass end_to_end_length temperature =>
       extern.physics_single_chain_fjc_thermodynamics_isometric_helmholtz_free_energy_per_link prof number_of_links link_length hinge_mass end_to_end_length temperature |}.

(* /repo/src/physics/single_chain/fjc/thermodynamics/isometric/ex.rs:22-25 *)
Definition physics_single_chain_fjc_thermodynamics_isometric_relative_helmholtz_free_energy (prof : profile) : symbol T :=
  {| sig := [UInt8; Float64; Float64; Float64];
     body := fun number_of_links link_length end_to_end_length temperature =>
       extern.physics_single_chain_fjc_thermodynamics_isometric_relative_helmholtz_free_energy prof number_of_links link_length end_to_end_length temperature |}.

(* /repo/src/physics/single_chain/fjc/thermodynamics/isometric/ex.rs:27-30 *)
Definition physics_single_chain_fjc_thermodynamics_isometric_relative_helmholtz_free_energy_per_link (prof : profile) : symbol T :=
  {| sig := [UInt8; Float64; Float64; Float64];
     body := fun number_of_links link_length end_to_end_length temperature =>
       extern.physics_single_chain_fjc_thermodynamics_isometric_relative_helmholtz_free_energy_per_link prof number_of_links link_length end_to_end_length temperature |}.

(* /repo/src/physics/single_chain/fjc/thermodynamics/isometric/ex.rs:32-35 *)
Definition physics_single_chain_fjc_thermodynamics_isometric_nondimensional_helmholtz_free_energy (prof : profile) : symbol T :=
  {| sig := [UInt8; Float64; Float64; Float64; Float64];
     body := fun number_of_links link_length hinge_mass nondimensional_end_to_end_length_per_link temperature =>
       extern.physics_single_chain_fjc_thermodynamics_isometric_nondimensional_helmholtz_free_energy prof number_of_links link_length hinge_mass nondimensional_end_to_end_length_per_link temperature |}.

(* /repo/src/physics/single_chain/fjc/thermodynamics/isometric/ex.rs:37-40 *)
Definition physics_single_chain_fjc_thermodynamics_isometric_nondimensional_helmholtz_free_energy_per_link (prof : profile) : symbol T :=
  {| sig := [UInt8; Float64; Float64; Float64; Float64];
     body := fun number_of_links link_length hinge_mass nondimensional_end_to_end_length_per_link temperature =>
       extern.physics_single_chain_fjc_thermodynamics_isometric_nondimensional_helmholtz_free_energy_per_link prof number_of_links link_length hinge_mass nondimensional_end_to_end_length_per_link temperature |}.

(* /repo/src/physics/single_chain/fjc/thermodynamics/isometric/ex.rs:42-45 *)
Definition physics_single_chain_fjc_thermodynamics_isometric_nondimensional_relative_helmholtz_free_energy (prof : profile) : symbol T :=
  {| sig := [UInt8; Float64];
     body := fun number_of_links nondimensional_end_to_end_length_per_link =>
       extern.physics_single_chain_fjc_thermodynamics_isometric_nondimensional_relative_helmholtz_free_energy prof number_of_links nondimensional_end_to_end_length_per_link |}.

(* /repo/src/physics/single_chain/fjc/thermodynamics/isometric/ex.rs:47-50 *)
Definition physics_single_chain_fjc_thermodynamics_isometric_nondimensional_relative_helmholtz_free_energy_per_link (prof : profile) : symbol T :=
  {| sig := [UInt8; Float64];
     body := fun number_of_links nondimensional_end_to_end_length_per_link =>
       extern.physics_single_chain_fjc_thermodynamics_isometric_nondimensional_relative_helmholtz_free_energy_per_link prof number_of_links nondimensional_end_to_end_length_per_link |}.

(* /repo/src/physics/single_chain/fjc/thermodynamics/isometric/ex.rs:52-55 *)
Definition physics_single_chain_fjc_thermodynamics_isometric_equilibrium_distribution (prof : profile) : symbol T :=
  {| sig := [UInt8; Float64; Float64];
     body := fun number_of_links link_length end_to_end_length =>
       extern.physics_single_chain_fjc_thermodynamics_isometric_equilibrium_distribution prof number_of_links link_length end_to_end_length |}.

(* /repo/src/physics/single_chain/fjc/thermodynamics/isometric/ex.rs:57-60 *)
Definition physics_single_chain_fjc_thermodynamics_isometric_nondimensional_equilibrium_distribution (prof : profile) : symbol T :=
  {| sig := [UInt8; Float64];
     body := fun number_of_links nondimensional_end_to_end_length_per_link =>
       extern.physics_single_chain_fjc_thermodynamics_isometric_nondimensional_equilibrium_distribution prof number_of_links nondimensional_end_to_end_length_per_link |}.

(* /repo/src/physics/single_chain/fjc/thermodynamics/isometric/ex.rs:62-65 *)
Definition physics_single_chain_fjc_thermodynamics_isometric_equilibrium_radial_distribution (prof : profile) : symbol T :=
  {| sig := [UInt8; Float64; Float64];
     body := fun number_of_links link_length end_to_end_length =>
       extern.physics_single_chain_fjc_thermodynamics_isometric_equilibrium_radial_distribution prof number_of_links link_length end_to_end_length |}.

(* /repo/src/physics/single_chain/fjc/thermodynamics/isometric/ex.rs:67-70 *)
Definition physics_single_chain_fjc_thermodynamics_isometric_nondimensional_equilibrium_radial_distribution (prof : profile) : symbol T :=
  {| sig := [UInt8; Float64];
     body := fun number_of_links nondimensional_end_to_end_length_per_link =>
       extern.physics_single_chain_fjc_thermodynamics_isometric_nondimensional_equilibrium_radial_distribution prof number_of_links nondimensional_end_to_end_length_per_link |}.

(* /repo/src/physics/single_chain/fjc/thermodynamics/isometric/legendre/ex.rs:2-5 *)
Definition physics_single_chain_fjc_thermodynamics_isometric_legendre_force : symbol T :=
  {| sig := [UInt8; Float64; Float64; Float64];
     body := fun number_of_links link_length end_to_end_length temperature =>
       Some (extern.physics_single_chain_fjc_thermodynamics_isometric_legendre_force number_of_links link_length end_to_end_length temperature) |}.

(* /repo/src/physics/single_chain/fjc/thermodynamics/isometric/legendre/ex.rs:7-10 *)
Definition physics_single_chain_fjc_thermodynamics_isometric_legendre_nondimensional_force : symbol T :=
  {| sig := [Float64];
     body := fun nondimensional_end_to_end_length_per_link =>
       Some (extern.physics_single_chain_fjc_thermodynamics_isometric_legendre_nondimensional_force nondimensional_end_to_end_length_per_link) |}.

(* /repo/src/physics/single_chain/fjc/thermodynamics/isometric/legendre/ex.rs:12-15 *)
Definition physics_single_chain_fjc_thermodynamics_isometric_legendre_helmholtz_free_energy : symbol T :=
  {| sig := [UInt8; Float64; Float64; Float64; Float64];
     body := fun number_of_links link_length hinge_mass end_to_end_length temperature =>
       Some (extern.physics_single_chain_fjc_thermodynamics_isometric_legendre_helmholtz_free_energy number_of_links link_length hinge_mass end_to_end_length temperature) |}.

(* /repo/src/physics/single_chain/fjc/thermodynamics/isometric/legendre/ex.rs:17-20 *)
Definition physics_single_chain_fjc_thermodynamics_isometric_legendre_helmholtz_free_energy_per_link : symbol T :=
  {| sig := [UInt8; Float64; Float64; Float64; Float64];
     body := fun number_of_links link_length hinge_mass end_to_end_length temperature =>
       Some (extern.physics_single_chain_fjc_thermodynamics_isometric_legendre_helmholtz_free_energy_per_link number_of_links link_length hinge_mass end_to_end_length temperature) |}.

(* /repo/src/physics/single_chain/fjc/thermodynamics/isometric/legendre/ex.rs:22-25 *)
Definition physics_single_chain_fjc_thermodynamics_isometric_legendre_relative_helmholtz_free_energy : symbol T :=
  {| sig := [UInt8; Float64; Float64; Float64];
     body := fun number_of_links link_length end_to_end_length temperature =>
       Some (extern.physics_single_chain_fjc_thermodynamics_isometric_legendre_relative_helmholtz_free_energy number_of_links link_length end_to_end_length temperature) |}.

(* /repo/src/physics/single_chain/fjc/thermodynamics/isometric/legendre/ex.rs:27-30 *)
Definition physics_single_chain_fjc_thermodynamics_isometric_legendre_relative_helmholtz_free_energy_per_link : symbol T :=
  {| sig := [UInt8; Float64; Float64; Float64];
     body := fun number_of_links link_length end_to_end_length temperature =>
       Some (extern.physics_single_chain_fjc_thermodynamics_isometric_legendre_relative_helmholtz_free_energy_per_link number_of_links link_length end_to_end_length temperature) |}.

(* /repo/src/physics/single_chain/fjc/thermodynamics/isometric/legendre/ex.rs:32-35 *)
Definition physics_single_chain_fjc_thermodynamics_isometric_legendre_nondimensional_helmholtz_free_energy : symbol T :=
  {| sig := [UInt8; Float64; Float64; Float64; Float64];
     body := fun number_of_links link_length hinge_mass nondimensional_end_to_end_length_per_link temperature =>
       Some (extern.physics_single_chain_fjc_thermodynamics_isometric_legendre_nondimensional_helmholtz_free_energy number_of_links link_length hinge_mass nondimensional_end_to_end_length_per_link temperature) |}.

(* /repo/src/physics/single_chain/fjc/thermodynamics/isometric/legendre/ex.rs:37-40 *)
Definition physics_single_chain_fjc_thermodynamics_isometric_legendre_nondimensional_helmholtz_free_energy_per_link : symbol T :=
  {| sig := [UInt8; Float64; Float64; Float64; Float64];
     body := fun number_of_links link_length hinge_mass nondimensional_end_to_end_length_per_link temperature =>
       Some (extern.physics_single_chain_fjc_thermodynamics_isometric_legendre_nondimensional_helmholtz_free_energy_per_link number_of_links link_length hinge_mass nondimensional_end_to_end_length_per_link temperature) |}.

(* /repo/src/physics/single_chain/fjc/thermodynamics/isometric/legendre/ex.rs:42-45 *)
Definition physics_single_chain_fjc_thermodynamics_isometric_legendre_nondimensional_relative_helmholtz_free_energy : symbol T :=
  {| sig := [UInt8; Float64];
     body := fun number_of_links nondimensional_end_to_end_length_per_link =>
       Some (extern.physics_single_chain_fjc_thermodynamics_isometric_legendre_nondimensional_relative_helmholtz_free_energy number_of_links nondimensional_end_to_end_length_per_link) |}.

(* /repo/src/physics/single_chain/fjc/thermodynamics/isometric/legendre/ex.rs:47-50 *)
Definition physics_single_chain_fjc_thermodynamics_isometric_legendre_nondimensional_relative_helmholtz_free_energy_per_link : symbol T :=
  {| sig := [Float64];
     body := fun nondimensional_end_to_end_length_per_link =>
       Some (extern.physics_single_chain_fjc_thermodynamics_isometric_legendre_nondimensional_relative_helmholtz_free_energy_per_link nondimensional_end_to_end_length_per_link) |}.

(* /repo/src/physics/single_chain/fjc/thermodynamics/isometric/legendre/ex.rs:52-55 *)
Definition physics_single_chain_fjc_thermodynamics_isometric_legendre_equilibrium_distribution : symbol T :=
  {| sig := [UInt8; Float64; Float64; Float64];
     body := fun number_of_links link_length normalization_nondimensional_equilibrium_distribution end_to_end_length =>
       Some (extern.physics_single_chain_fjc_thermodynamics_isometric_legendre_equilibrium_distribution number_of_links link_length normalization_nondimensional_equilibrium_distribution end_to_end_length) |}.

(* /repo/src/physics/single_chain/fjc/thermodynamics/isometric/legendre/ex.rs:57-60 *)
Definition physics_single_chain_fjc_thermodynamics_isometric_legendre_nondimensional_equilibrium_distribution : symbol T :=
  {| sig := [UInt8; Float64; Float64];
     body := fun number_of_links normalization_nondimensional_equilibrium_distribution nondimensional_end_to_end_length_per_link =>
       Some (extern.physics_single_chain_fjc_thermodynamics_isometric_legendre_nondimensional_equilibrium_distribution number_of_links normalization_nondimensional_equilibrium_distribution nondimensional_end_to_end_length_per_link) |}.

(* /repo/src/physics/single_chain/fjc/thermodynamics/isometric/legendre/ex.rs:62-65 *)
Definition physics_single_chain_fjc_thermodynamics_isometric_legendre_equilibrium_radial_distribution : symbol T :=
  {| sig := [UInt8; Float64; Float64; Float64];
     body := fun number_of_links link_length normalization_nondimensional_equilibrium_distribution end_to_end_length =>
       Some (extern.physics_single_chain_fjc_thermodynamics_isometric_legendre_equilibrium_radial_distribution number_of_links link_length normalization_nondimensional_equilibrium_distribution end_to_end_length) |}.

(* /repo/src/physics/single_chain/fjc/thermodynamics/isometric/legendre/ex.rs:67-70 *)
Definition physics_single_chain_fjc_thermodynamics_isometric_legendre_nondimensional_equilibrium_radial_distribution : symbol T :=
  {| sig := [UInt8; Float64; Float64];
     body := fun number_of_links normalization_nondimensional_equilibrium_distribution nondimensional_end_to_end_length_per_link =>
       Some (extern.physics_single_chain_fjc_thermodynamics_isometric_legendre_nondimensional_equilibrium_radial_distribution number_of_links normalization_nondimensional_equilibrium_distribution nondimensional_end_to_end_length_per_link) |}.

(* /repo/src/physics/single_chain/fjc/thermodynamics/isometric/legendre/ex.rs:72-75 *)
Definition physics_single_chain_fjc_thermodynamics_isometric_legendre_gibbs_free_energy (prof : profile) : symbol T :=
  {| sig := [UInt8; Float64; Float64; Float64; Float64];
     body := fun number_of_links link_length hinge_mass end_to_end_length temperature =>
       extern.physics_single_chain_fjc_thermodynamics_isometric_legendre_gibbs_free_energy prof number_of_links link_length hinge_mass end_to_end_length temperature |}.

(* /repo/src/physics/single_chain/fjc/thermodynamics/isometric/legendre/ex.rs:77-80 *)
Definition physics_single_chain_fjc_thermodynamics_isometric_legendre_gibbs_free_energy_per_link (prof : profile) : symbol T :=
  {| sig := [UInt8; Float64; Float64; Float64; Float64];
     body := fun number_of_links link_length hinge_mass end_to_end_length temperature =>
       extern.physics_single_chain_fjc_thermodynamics_isometric_legendre_gibbs_free_energy_per_link prof number_of_links link_length hinge_mass end_to_end_length temperature |}.

(* /repo/src/physics/single_chain/fjc/thermodynamics/isometric/legendre/ex.rs:82-85 *)
Definition physics_single_chain_fjc_thermodynamics_isometric_legendre_relative_gibbs_free_energy (prof : profile) : symbol T :=
  {| sig := [UInt8; Float64; Float64; Float64];
     body := fun number_of_links link_length end_to_end_length temperature =>
       extern.physics_single_chain_fjc_thermodynamics_isometric_legendre_relative_gibbs_free_energy prof number_of_links link_length end_to_end_length temperature |}.

(* /repo/src/physics/single_chain/fjc/thermodynamics/isometric/legendre/ex.rs:87-90 *)
Definition physics_single_chain_fjc_thermodynamics_isometric_legendre_relative_gibbs_free_energy_per_link (prof : profile) : symbol T :=
  {| sig := [UInt8; Float64; Float64; Float64];
     body := fun number_of_links link_length end_to_end_length temperature =>
       extern.physics_single_chain_fjc_thermodynamics_isometric_legendre_relative_gibbs_free_energy_per_link prof number_of_links link_length end_to_end_length temperature |}.

(* /repo/src/physics/single_chain/fjc/thermodynamics/isometric/legendre/ex.rs:92-95 *)
Definition physics_single_chain_fjc_thermodynamics_isometric_legendre_nondimensional_gibbs_free_energy (prof : profile) : symbol T :=
  {| sig := [UInt8; Float64; Float64; Float64; Float64];
     body := fun number_of_links link_length hinge_mass nondimensional_end_to_end_length_per_link temperature =>
       extern.physics_single_chain_fjc_thermodynamics_isometric_legendre_nondimensional_gibbs_free_energy prof number_of_links link_length hinge_mass nondimensional_end_to_end_length_per_link temperature |}.

(* /repo/src/physics/single_chain/fjc/thermodynamics/isometric/legendre/ex.rs:97-100 *)
Definition physics_single_chain_fjc_thermodynamics_isometric_legendre_nondimensional_gibbs_free_energy_per_link (prof : profile) : symbol T :=
  {| sig := [UInt8; Float64; Float64; Float64; Float64];
     body := fun number_of_links link_length hinge_mass nondimensional_end_to_end_length_per_link temperature =>
       extern.physics_single_chain_fjc_thermodynamics_isometric_legendre_nondimensional_gibbs_free_energy_per_link prof number_of_links link_length hinge_mass nondimensional_end_to_end_length_per_link temperature |}.

(* /repo/src/physics/single_chain/fjc/thermodynamics/isometric/legendre/ex.rs:102-105 *)
Definition physics_single_chain_fjc_thermodynamics_isometric_legendre_nondimensional_relative_gibbs_free_energy (prof : profile) : symbol T :=
  {| sig := [UInt8; Float64];
     body := fun number_of_links nondimensional_end_to_end_length_per_link =>
       extern.physics_single_chain_fjc_thermodynamics_isometric_legendre_nondimensional_relative_gibbs_free_energy prof number_of_links nondimensional_end_to_end_length_per_link |}.

(* /repo/src/physics/single_chain/fjc/thermodynamics/isometric/legendre/ex.rs:107-110 *)
Definition physics_single_chain_fjc_thermodynamics_isometric_legendre_nondimensional_relative_gibbs_free_energy_per_link (prof : profile) : symbol T :=
  {| sig := [UInt8; Float64];
     body := fun number_of_links nondimensional_end_to_end_length_per_link =>
       extern.physics_single_chain_fjc_thermodynamics_isometric_legendre_nondimensional_relative_gibbs_free_energy_per_link prof number_of_links nondimensional_end_to_end_length_per_link |}.

(* /repo/src/physics/single_chain/fjc/thermodynamics/isotensional/ex.rs:2-5 *)
Definition physics_single_chain_fjc_thermodynamics_isotensional_end_to_end_length : symbol T :=
  {| sig := [UInt8; Float64; Float64; Float64];
     body := fun number_of_links link_length force temperature =>
       Some (extern.physics_single_chain_fjc_thermodynamics_isotensional_end_to_end_length number_of_links link_length force temperature) |}.

(* /repo/src/physics/single_chain/fjc/thermodynamics/isotensional/ex.rs:7-10 *)
Definition physics_single_chain_fjc_thermodynamics_isotensional_end_to_end_length_per_link : symbol T :=
  {| sig := [Float64; Float64; Float64];
     body := fun link_length force temperature =>
       Some (extern.physics_single_chain_fjc_thermodynamics_isotensional_end_to_end_length_per_link link_length force temperature) |}.

(* /repo/src/physics/single_chain/fjc/thermodynamics/isotensional/ex.rs:12-15 *)
Definition physics_single_chain_fjc_thermodynamics_isotensional_nondimensional_end_to_end_length : symbol T :=
  {| sig := [UInt8; Float64];
     body := fun number_of_links nondimensional_force =>
       Some (extern.physics_single_chain_fjc_thermodynamics_isotensional_nondimensional_end_to_end_length number_of_links nondimensional_force) |}.

(* /repo/src/physics/single_chain/fjc/thermodynamics/isotensional/ex.rs:17-20 *)
Definition physics_single_chain_fjc_thermodynamics_isotensional_nondimensional_end_to_end_length_per_link : symbol T :=
  {| sig := [Float64];
     body := fun nondimensional_force =>
       Some (extern.physics_single_chain_fjc_thermodynamics_isotensional_nondimensional_end_to_end_length_per_link nondimensional_force) |}.

(* /repo/src/physics/single_chain/fjc/thermodynamics/isotensional/ex.rs:22-25 *)
Definition physics_single_chain_fjc_thermodynamics_isotensional_gibbs_free_energy : symbol T :=
  {| sig := [UInt8; Float64; Float64; Float64; Float64];
     body := fun number_of_links link_length hinge_mass force temperature =>
       Some (extern.physics_single_chain_fjc_thermodynamics_isotensional_gibbs_free_energy number_of_links link_length hinge_mass force temperature) |}.

(* /repo/src/physics/single_chain/fjc/thermodynamics/isotensional/ex.rs:27-30 *)
Definition physics_single_chain_fjc_thermodynamics_isotensional_gibbs_free_energy_per_link : symbol T :=
  {| sig := [Float64; Float64; Float64; Float64];
     body := fun link_length hinge_mass force temperature =>
       Some (extern.physics_single_chain_fjc_thermodynamics_isotensional_gibbs_free_energy_per_link link_length hinge_mass force temperature) |}.

(* /repo/src/physics/single_chain/fjc/thermodynamics/isotensional/ex.rs:32-35 *)
Definition physics_single_chain_fjc_thermodynamics_isotensional_relative_gibbs_free_energy : symbol T :=
  {| sig := [UInt8; Float64; Float64; Float64];
     body := fun number_of_links link_length force temperature =>
       Some (extern.physics_single_chain_fjc_thermodynamics_isotensional_relative_gibbs_free_energy number_of_links link_length force temperature) |}.

(* /repo/src/physics/single_chain/fjc/thermodynamics/isotensional/ex.rs:37-40 *)
Definition physics_single_chain_fjc_thermodynamics_isotensional_relative_gibbs_free_energy_per_link : symbol T :=
  {| sig := [Float64; Float64; Float64];
     body := fun link_length force temperature =>
       Some (extern.physics_single_chain_fjc_thermodynamics_isotensional_relative_gibbs_free_energy_per_link link_length force temperature) |}.

(* /repo/src/physics/single_chain/fjc/thermodynamics/isotensional/ex.rs:42-45 *)
Definition physics_single_chain_fjc_thermodynamics_isotensional_nondimensional_gibbs_free_energy : symbol T :=
  {| sig := [UInt8; Float64; Float64; Float64; Float64];
     body := fun number_of_links link_length hinge_mass nondimensional_force temperature =>
       Some (extern.physics_single_chain_fjc_thermodynamics_isotensional_nondimensional_gibbs_free_energy number_of_links link_length hinge_mass nondimensional_force temperature) |}.

(* /repo/src/physics/single_chain/fjc/thermodynamics/isotensional/ex.rs:47-50 *)
Definition physics_single_chain_fjc_thermodynamics_isotensional_nondimensional_gibbs_free_energy_per_link : symbol T :=
  {| sig := [Float64; Float64; Float64; Float64];
     body := fun link_length hinge_mass nondimensional_force temperature =>
       Some (extern.physics_single_chain_fjc_thermodynamics_isotensional_nondimensional_gibbs_free_energy_per_link link_length hinge_mass nondimensional_force temperature) |}.

(* /repo/src/physics/single_chain/fjc/thermodynamics/isotensional/ex.rs:52-55 *)
Definition physics_single_chain_fjc_thermodynamics_isotensional_nondimensional_relative_gibbs_free_energy : symbol T :=
  {| sig := [UInt8; Float64];
     body := fun number_of_links nondimensional_force =>
       Some (extern.physics_single_chain_fjc_thermodynamics_isotensional_nondimensional_relative_gibbs_free_energy number_of_links nondimensional_force) |}.

(* /repo/src/physics/single_chain/fjc/thermodynamics/isotensional/ex.rs:57-60 *)
Definition physics_single_chain_fjc_thermodynamics_isotensional_nondimensional_relative_gibbs_free_energy_per_link : symbol T :=
  {| sig := [Float64];
     body := fun nondimensional_force =>
       Some (extern.physics_single_chain_fjc_thermodynamics_isotensional_nondimensional_relative_gibbs_free_energy_per_link nondimensional_force) |}.

(* /repo/src/physics/single_chain/fjc/thermodynamics/isotensional/legendre/ex.rs:2-5 *)
Definition physics_single_chain_fjc_thermodynamics_isotensional_legendre_helmholtz_free_energy : symbol T :=
  {| sig := [UInt8; Float64; Float64; Float64; Float64];
     body := fun number_of_links link_length hinge_mass force temperature =>
       Some (extern.physics_single_chain_fjc_thermodynamics_isotensional_legendre_helmholtz_free_energy number_of_links link_length hinge_mass force temperature) |}.

(* /repo/src/physics/single_chain/fjc/thermodynamics/isotensional/legendre/ex.rs:7-10 *)
Definition physics_single_chain_fjc_thermodynamics_isotensional_legendre_helmholtz_free_energy_per_link : symbol T :=
  {| sig := [Float64; Float64; Float64; Float64];
     body := fun link_length hinge_mass force temperature =>
       Some (extern.physics_single_chain_fjc_thermodynamics_isotensional_legendre_helmholtz_free_energy_per_link link_length hinge_mass force temperature) |}.

(* /repo/src/physics/single_chain/fjc/thermodynamics/isotensional/legendre/ex.rs:12-15 *)
Definition physics_single_chain_fjc_thermodynamics_isotensional_legendre_relative_helmholtz_free_energy : symbol T :=
  {| sig := [UInt8; Float64; Float64; Float64];
     body := fun number_of_links link_length force temperature =>
       Some (extern.physics_single_chain_fjc_thermodynamics_isotensional_legendre_relative_helmholtz_free_energy number_of_links link_length force temperature) |}.

(* /repo/src/physics/single_chain/fjc/thermodynamics/isotensional/legendre/ex.rs:17-20 *)
Definition physics_single_chain_fjc_thermodynamics_isotensional_legendre_relative_helmholtz_free_energy_per_link : symbol T :=
  {| sig := [Float64; Float64; Float64];
     body := fun link_length force temperature =>
       Some (extern.physics_single_chain_fjc_thermodynamics_isotensional_legendre_relative_helmholtz_free_energy_per_link link_length force temperature) |}.

(* /repo/src/physics/single_chain/fjc/thermodynamics/isotensional/legendre/ex.rs:22-25 *)
Definition physics_single_chain_fjc_thermodynamics_isotensional_legendre_nondimensional_helmholtz_free_energy : symbol T :=
  {| sig := [UInt8; Float64; Float64; Float64; Float64];
     body := fun number_of_links link_length hinge_mass nondimensional_force temperature =>
       Some (extern.physics_single_chain_fjc_thermodynamics_isotensional_legendre_nondimensional_helmholtz_free_energy number_of_links link_length hinge_mass nondimensional_force temperature) |}.

(* /repo/src/physics/single_chain/fjc/thermodynamics/isotensional/legendre/ex.rs:27-30 *)
Definition physics_single_chain_fjc_thermodynamics_isotensional_legendre_nondimensional_helmholtz_free_energy_per_link : symbol T :=
  {| sig := [Float64; Float64; Float64; Float64];
     body := fun link_length hinge_mass nondimensional_force temperature =>
       Some (extern.physics_single_chain_fjc_thermodynamics_isotensional_legendre_nondimensional_helmholtz_free_energy_per_link link_length hinge_mass nondimensional_force temperature) |}.

(* /repo/src/physics/single_chain/fjc/thermodynamics/isotensional/legendre/ex.rs:32-35 *)
Definition physics_single_chain_fjc_thermodynamics_isotensional_legendre_nondimensional_relative_helmholtz_free_energy : symbol T :=
  {| sig := [UInt8; Float64];
     body := fun number_of_links nondimensional_force =>
       Some (extern.physics_single_chain_fjc_thermodynamics_isotensional_legendre_nondimensional_relative_helmholtz_free_energy number_of_links nondimensional_force) |}.

(* /repo/src/physics/single_chain/fjc/thermodynamics/isotensional/legendre/ex.rs:37-40 *)
Definition physics_single_chain_fjc_thermodynamics_isotensional_legendre_nondimensional_relative_helmholtz_free_energy_per_link : symbol T :=
  {| sig := [Float64];
     body := fun nondimensional_force =>
       Some (extern.physics_single_chain_fjc_thermodynamics_isotensional_legendre_nondimensional_relative_helmholtz_free_energy_per_link nondimensional_force) |}.

(* /repo/src/physics/single_chain/fjc/thermodynamics/modified_canonical/ex.rs:2-5 *)
Definition physics_single_chain_fjc_thermodynamics_modified_canonical_end_to_end_length (prof : profile) : symbol T :=
  {| sig := [UInt8; Float64; Float64; Float64; Float64];
     body := fun number_of_links link_length potential_distance potential_stiffness temperature =>
       extern.physics_single_chain_fjc_thermodynamics_modified_canonical_end_to_end_length prof number_of_links link_length potential_distance potential_stiffness temperature |}.

(* /repo/src/physics/single_chain/fjc/thermodynamics/modified_canonical/ex.rs:7-10 *)
Definition physics_single_chain_fjc_thermodynamics_modified_canonical_end_to_end_length_per_link (prof : profile) : symbol T :=
  {| sig := [UInt8; Float64; Float64; Float64; Float64];
     body := fun number_of_links link_length potential_distance potential_stiffness temperature =>
       extern.physics_single_chain_fjc_thermodynamics_modified_canonical_end_to_end_length_per_link prof number_of_links link_length potential_distance potential_stiffness temperature |}.

(* /repo/src/physics/single_chain/fjc/thermodynamics/modified_canonical/ex.rs:12-15 *)
Definition physics_single_chain_fjc_thermodynamics_modified_canonical_nondimensional_end_to_end_length (prof : profile) : symbol T :=
  {| sig := [UInt8; Float64; Float64];
     body := fun number_of_links nondimensional_potential_distance nondimensional_potential_stiffness =>
       extern.physics_single_chain_fjc_thermodynamics_modified_canonical_nondimensional_end_to_end_length prof number_of_links nondimensional_potential_distance nondimensional_potential_stiffness |}.

(* /repo/src/physics/single_chain/fjc/thermodynamics/modified_canonical/ex.rs:17-20 *)
Definition physics_single_chain_fjc_thermodynamics_modified_canonical_nondimensional_end_to_end_length_per_link (prof : profile) : symbol T :=
  {| sig := [UInt8; Float64; Float64];
     body := fun number_of_links nondimensional_potential_distance nondimensional_potential_stiffness =>
       extern.physics_single_chain_fjc_thermodynamics_modified_canonical_nondimensional_end_to_end_length_per_link prof number_of_links nondimensional_potential_distance nondimensional_potential_stiffness |}.

(* /repo/src/physics/single_chain/fjc/thermodynamics/modified_canonical/ex.rs:22-25 *)
Definition physics_single_chain_fjc_thermodynamics_modified_canonical_force (prof : profile) : symbol T :=
  {| sig := [UInt8; Float64; Float64; Float64; Float64];
     body := fun number_of_links link_length potential_distance potential_stiffness temperature =>
       extern.physics_single_chain_fjc_thermodynamics_modified_canonical_force prof number_of_links link_length potential_distance potential_stiffness temperature |}.

(* /repo/src/physics/single_chain/fjc/thermodynamics/modified_canonical/ex.rs:27-30 *)
Definition physics_single_chain_fjc_thermodynamics_modified_canonical_nondimensional_force (prof : profile) : symbol T :=
  {| sig := [UInt8; Float64; Float64];
     body := fun number_of_links nondimensional_potential_distance nondimensional_potential_stiffness =>
       extern.physics_single_chain_fjc_thermodynamics_modified_canonical_nondimensional_force prof number_of_links nondimensional_potential_distance nondimensional_potential_stiffness |}.

(* /repo/src/physics/single_chain/fjc/thermodynamics/modified_canonical/ex.rs:32-35 *)
Definition physics_single_chain_fjc_thermodynamics_modified_canonical_helmholtz_free_energy (prof : profile) : symbol T :=
  {| sig := [UInt8; Float64; Float64; Float64; Float64; Float64];
     body := fun number_of_links link_length hinge_mass potential_distance potential_stiffness temperature =>
       extern.physics_single_chain_fjc_thermodynamics_modified_canonical_helmholtz_free_energy prof number_of_links link_length hinge_mass potential_distance potential_stiffness temperature |}.

(* /repo/src/physics/single_chain/fjc/thermodynamics/modified_canonical/ex.rs:37-40 *)
Definition physics_single_chain_fjc_thermodynamics_modified_canonical_helmholtz_free_energy_per_link (prof : profile) : symbol T :=
  {| sig := [UInt8; Float64; Float64; Float64; Float64; Float64];
     body := fun number_of_links link_length hinge_mass potential_distance potential_stiffness temperature =>
       extern.physics_single_chain_fjc_thermodynamics_modified_canonical_helmholtz_free_energy_per_link prof number_of_links link_length hinge_mass potential_distance potential_stiffness temperature |}.

(* /repo/src/physics/single_chain/fjc/thermodynamics/modified_canonical/ex.rs:42-45 *)
Definition physics_single_chain_fjc_thermodynamics_modified_canonical_relative_helmholtz_free_energy (prof : profile) : symbol T :=
  {| sig := [UInt8; Float64; Float64; Float64; Float64];
     body := fun number_of_links link_length potential_distance potential_stiffness temperature =>
       extern.physics_single_chain_fjc_thermodynamics_modified_canonical_relative_helmholtz_free_energy prof number_of_links link_length potential_distance potential_stiffness temperature |}.

(* /repo/src/physics/single_chain/fjc/thermodynamics/modified_canonical/ex.rs:47-50 *)
Definition physics_single_chain_fjc_thermodynamics_modified_canonical_relative_helmholtz_free_energy_per_link (prof : profile) : symbol T :=
  {| sig := [UInt8; Float64; Float64; Float64; Float64];
     body := fun number_of_links link_length potential_distance potential_stiffness temperature =>
       extern.physics_single_chain_fjc_thermodynamics_modified_canonical_relative_helmholtz_free_energy_per_link prof number_of_links link_length potential_distance potential_stiffness temperature |}.

(* /repo/src/physics/single_chain/fjc/thermodynamics/modified_canonical/ex.rs:52-55 *)
Definition physics_single_chain_fjc_thermodynamics_modified_canonical_nondimensional_helmholtz_free_energy (prof : profile) : symbol T :=
  {| sig := [UInt8; Float64; Float64; Float64; Float64; Float64];
     body := fun number_of_links link_length hinge_mass nondimensional_potential_distance nondimensional_potential_stiffness temperature =>
       extern.physics_single_chain_fjc_thermodynamics_modified_canonical_nondimensional_helmholtz_free_energy prof number_of_links link_length hinge_mass nondimensional_potential_distance nondimensional_potential_stiffness temperature |}.

(* /repo/src/physics/single_chain/fjc/thermodynamics/modified_canonical/ex.rs:57-60 *)
Definition physics_single_chain_fjc_thermodynamics_modified_canonical_nondimensional_helmholtz_free_energy_per_link (prof : profile) : symbol T :=
  {| sig := [UInt8; Float64; Float64; Float64; Float64; Float64];
     body := fun number_of_links link_length hinge_mass nondimensional_potential_distance nondimensional_potential_stiffness temperature =>
       extern.physics_single_chain_fjc_thermodynamics_modified_canonical_nondimensional_helmholtz_free_energy_per_link prof number_of_links link_length hinge_mass nondimensional_potential_distance nondimensional_potential_stiffness temperature |}.

(* /repo/src/physics/single_chain/fjc/thermodynamics/modified_canonical/ex.rs:62-65 *)
Definition physics_single_chain_fjc_thermodynamics_modified_canonical_nondimensional_relative_helmholtz_free_energy (prof : profile) : symbol T :=
  {| sig := [UInt8; Float64; Float64];
     body := fun number_of_links nondimensional_potential_distance nondimensional_potential_stiffness =>
       extern.physics_single_chain_fjc_thermodynamics_modified_canonical_nondimensional_relative_helmholtz_free_energy prof number_of_links nondimensional_potential_distance nondimensional_potential_stiffness |}.

(* /repo/src/physics/single_chain/fjc/thermodynamics/modified_canonical/ex.rs:67-70 *)
Definition physics_single_chain_fjc_thermodynamics_modified_canonical_nondimensional_relative_helmholtz_free_energy_per_link (prof : profile) : symbol T :=
  {| sig := [UInt8; Float64; Float64];
     body := fun number_of_links nondimensional_potential_distance nondimensional_potential_stiffness =>
       extern.physics_single_chain_fjc_thermodynamics_modified_canonical_nondimensional_relative_helmholtz_free_energy_per_link prof number_of_links nondimensional_potential_distance nondimensional_potential_stiffness |}.

(* /repo/src/physics/single_chain/fjc/thermodynamics/modified_canonical/ex.rs:72-75 *)
Definition physics_single_chain_fjc_thermodynamics_modified_canonical_gibbs_free_energy (prof : profile) : symbol T :=
  {| sig := [UInt8; Float64; Float64; Float64; Float64; Float64];
     body := fun number_of_links link_length hinge_mass potential_distance potential_stiffness temperature =>
       extern.physics_single_chain_fjc_thermodynamics_modified_canonical_gibbs_free_energy prof number_of_links link_length hinge_mass potential_distance potential_stiffness temperature |}.

(* /repo/src/physics/single_chain/fjc/thermodynamics/modified_canonical/ex.rs:77-80 *)
Definition physics_single_chain_fjc_thermodynamics_modified_canonical_gibbs_free_energy_per_link (prof : profile) : symbol T :=
  {| sig := [UInt8; Float64; Float64; Float64; Float64; Float64];
     body := fun number_of_links link_length hinge_mass potential_distance potential_stiffness temperature =>
       extern.physics_single_chain_fjc_thermodynamics_modified_canonical_gibbs_free_energy_per_link prof number_of_links link_length hinge_mass potential_distance potential_stiffness temperature |}.

(* /repo/src/physics/single_chain/fjc/thermodynamics/modified_canonical/ex.rs:82-85 *)
Definition physics_single_chain_fjc_thermodynamics_modified_canonical_relative_gibbs_free_energy (prof : profile) : symbol T :=
  {| sig := [UInt8; Float64; Float64; Float64; Float64];
     body := fun number_of_links link_length potential_distance potential_stiffness temperature =>
       extern.physics_single_chain_fjc_thermodynamics_modified_canonical_relative_gibbs_free_energy prof number_of_links link_length potential_distance potential_stiffness temperature |}.

(* /repo/src/physics/single_chain/fjc/thermodynamics/modified_canonical/ex.rs:87-90 *)
Definition physics_single_chain_fjc_thermodynamics_modified_canonical_relative_gibbs_free_energy_per_link (prof : profile) : symbol T :=
  {| sig := [UInt8; Float64; Float64; Float64; Float64];
     body := fun number_of_links link_length potential_distance potential_stiffness temperature =>
       extern.physics_single_chain_fjc_thermodynamics_modified_canonical_relative_gibbs_free_energy_per_link prof number_of_links link_length potential_distance potential_stiffness temperature |}.

(* /repo/src/physics/single_chain/fjc/thermodynamics/modified_canonical/ex.rs:92-95 *)
Definition physics_single_chain_fjc_thermodynamics_modified_canonical_nondimensional_gibbs_free_energy (prof : profile) : symbol T :=
  {| sig := [UInt8; Float64; Float64; Float64; Float64; Float64];
     body := fun number_of_links link_length hinge_mass nondimensional_potential_distance nondimensional_potential_stiffness temperature =>
       extern.physics_single_chain_fjc_thermodynamics_modified_canonical_nondimensional_gibbs_free_energy prof number_of_links link_length hinge_mass nondimensional_potential_distance nondimensional_potential_stiffness temperature |}.

(* /repo/src/physics/single_chain/fjc/thermodynamics/modified_canonical/ex.rs:97-100 *)
Definition physics_single_chain_fjc_thermodynamics_modified_canonical_nondimensional_gibbs_free_energy_per_link (prof : profile) : symbol T :=
  {| sig := [UInt8; Float64; Float64; Float64; Float64; Float64];
     body := fun number_of_links link_length hinge_mass nondimensional_potential_distance nondimensional_potential_stiffness temperature =>
       extern.physics_single_chain_fjc_thermodynamics_modified_canonical_nondimensional_gibbs_free_energy_per_link prof number_of_links link_length hinge_mass nondimensional_potential_distance nondimensional_potential_stiffness temperature |}.

(* /repo/src/physics/single_chain/fjc/thermodynamics/modified_canonical/ex.rs:102-105 *)
Definition physics_single_chain_fjc_thermodynamics_modified_canonical_nondimensional_relative_gibbs_free_energy (prof : profile) : symbol T :=
  {| sig := [UInt8; Float64; Float64];
     body := fun number_of_links nondimensional_potential_distance nondimensional_potential_stiffness =>
       extern.physics_single_chain_fjc_thermodynamics_modified_canonical_nondimensional_relative_gibbs_free_energy prof number_of_links nondimensional_potential_distance nondimensional_potential_stiffness |}.

(* /repo/src/physics/single_chain/fjc/thermodynamics/modified_canonical/ex.rs:107-110 *)
Definition physics_single_chain_fjc_thermodynamics_modified_canonical_nondimensional_relative_gibbs_free_energy_per_link (prof : profile) : symbol T :=
  {| sig := [UInt8; Float64; Float64];
     body := fun number_of_links nondimensional_potential_distance nondimensional_potential_stiffness =>
       extern.physics_single_chain_fjc_thermodynamics_modified_canonical_nondimensional_relative_gibbs_free_energy_per_link prof number_of_links nondimensional_potential_distance nondimensional_potential_stiffness |}.

(* /repo/src/physics/single_chain/fjc/thermodynamics/modified_canonical/asymptotic/strong_potential/ex.rs:2-5 *)
Definition physics_single_chain_fjc_thermodynamics_modified_canonical_asymptotic_strong_potential_force (prof : profile) : symbol T :=
  {| sig := [UInt8; Float64; Float64; Float64; Float64];
     body := fun number_of_links link_length potential_distance potential_stiffness temperature =>
       extern.physics_single_chain_fjc_thermodynamics_modified_canonical_asymptotic_strong_potential_force prof number_of_links link_length potential_distance potential_stiffness temperature |}.

(* /repo/src/physics/single_chain/fjc/thermodynamics/modified_canonical/asymptotic/strong_potential/ex.rs:7-10 *)
Definition physics_single_chain_fjc_thermodynamics_modified_canonical_asymptotic_strong_potential_nondimensional_force (prof : profile) : symbol T :=
  {| sig := [UInt8; Float64; Float64];
     body := fun number_of_links nondimensional_potential_distance nondimensional_potential_stiffness =>
       extern.physics_single_chain_fjc_thermodynamics_modified_canonical_asymptotic_strong_potential_nondimensional_force prof number_of_links nondimensional_potential_distance nondimensional_potential_stiffness |}.

(* /repo/src/physics/single_chain/fjc/thermodynamics/modified_canonical/asymptotic/strong_potential/ex.rs:12-15 *)
Definition physics_single_chain_fjc_thermodynamics_modified_canonical_asymptotic_strong_potential_helmholtz_free_energy (prof : profile) : symbol T :=
  {| sig := [UInt8; Float64; Float64; Float64; Float64; Float64];
     body := fun number_of_links link_length hinge_mass potential_distance potential_stiffness temperature =>
       extern.physics_single_chain_fjc_thermodynamics_modified_canonical_asymptotic_strong_potential_helmholtz_free_energy prof number_of_links link_length hinge_mass potential_distance potential_stiffness temperature |}.

(* /repo/src/physics/single_chain/fjc/thermodynamics/modified_canonical/asymptotic/strong_potential/ex.rs:17-20 *)
Definition physics_single_chain_fjc_thermodynamics_modified_canonical_asymptotic_strong_potential_helmholtz_free_energy_per_link (prof : profile) : symbol T :=
  {| sig := [UInt8; Float64; Float64; Float64; Float64; Float64];
     body := fun number_of_links link_length hinge_mass potential_distance potential_stiffness temperature =>
       extern.physics_single_chain_fjc_thermodynamics_modified_canonical_asymptotic_strong_potential_helmholtz_free_energy_per_link prof number_of_links link_length hinge_mass potential_distance potential_stiffness temperature |}.

(* /repo/src/physics/single_chain/fjc/thermodynamics/modified_canonical/asymptotic/strong_potential/ex.rs:22-25 *)
Definition physics_single_chain_fjc_thermodynamics_modified_canonical_asymptotic_strong_potential_relative_helmholtz_free_energy (prof : profile) : symbol T :=
  {| sig := [UInt8; Float64; Float64; Float64; Float64];
     body := fun number_of_links link_length potential_distance potential_stiffness temperature =>
       extern.physics_single_chain_fjc_thermodynamics_modified_canonical_asymptotic_strong_potential_relative_helmholtz_free_energy prof number_of_links link_length potential_distance potential_stiffness temperature |}.

(* /repo/src/physics/single_chain/fjc/thermodynamics/modified_canonical/asymptotic/strong_potential/ex.rs:27-30 *)
Definition physics_single_chain_fjc_thermodynamics_modified_canonical_asymptotic_strong_potential_relative_helmholtz_free_energy_per_link (prof : profile) : symbol T :=
  {| sig := [UInt8; Float64; Float64; Float64; Float64];
     body := fun number_of_links link_length potential_distance potential_stiffness temperature =>
       extern.physics_single_chain_fjc_thermodynamics_modified_canonical_asymptotic_strong_potential_relative_helmholtz_free_energy_per_link prof number_of_links link_length potential_distance potential_stiffness temperature |}.

(* /repo/src/physics/single_chain/fjc/thermodynamics/modified_canonical/asymptotic/strong_potential/ex.rs:32-35 *)
Definition physics_single_chain_fjc_thermodynamics_modified_canonical_asymptotic_strong_potential_nondimensional_helmholtz_free_energy (prof : profile) : symbol T :=
  {| sig := [UInt8; Float64; Float64; Float64; Float64; Float64];
     body := fun number_of_links link_length hinge_mass nondimensional_potential_distance nondimensional_potential_stiffness temperature =>
       extern.physics_single_chain_fjc_thermodynamics_modified_canonical_asymptotic_strong_potential_nondimensional_helmholtz_free_energy prof number_of_links link_length hinge_mass nondimensional_potential_distance nondimensional_potential_stiffness temperature |}.

(* /repo/src/physics/single_chain/fjc/thermodynamics/modified_canonical/asymptotic/strong_potential/ex.rs:37-40 *)
Definition physics_single_chain_fjc_thermodynamics_modified_canonical_asymptotic_strong_potential_nondimensional_helmholtz_free_energy_per_link (prof : profile) : symbol T :=
  {| sig := [UInt8; Float64; Float64; Float64; Float64; Float64];
     body := fun number_of_links link_length hinge_mass nondimensional_potential_distance nondimensional_potential_stiffness temperature =>
       extern.physics_single_chain_fjc_thermodynamics_modified_canonical_asymptotic_strong_potential_nondimensional_helmholtz_free_energy_per_link prof number_of_links link_length hinge_mass nondimensional_potential_distance nondimensional_potential_stiffness temperature |}.

(* /repo/src/physics/single_chain/fjc/thermodynamics/modified_canonical/asymptotic/strong_potential/ex.rs:42-45 *)
Definition physics_single_chain_fjc_thermodynamics_modified_canonical_asymptotic_strong_potential_nondimensional_relative_helmholtz_free_energy (prof : profile) : symbol T :=
  {| sig := [UInt8; Float64; Float64];
     body := fun number_of_links nondimensional_potential_distance nondimensional_potential_stiffness =>
       extern.physics_single_chain_fjc_thermodynamics_modified_canonical_asymptotic_strong_potential_nondimensional_relative_helmholtz_free_energy prof number_of_links nondimensional_potential_distance nondimensional_potential_stiffness |}.

(* /repo/src/physics/single_chain/fjc/thermodynamics/modified_canonical/asymptotic/strong_potential/ex.rs:47-50 *)
Definition physics_single_chain_fjc_thermodynamics_modified_canonical_asymptotic_strong_potential_nondimensional_relative_helmholtz_free_energy_per_link (prof : profile) : symbol T :=
  {| sig := [UInt8; Float64; Float64];
     body := fun number_of_links nondimensional_potential_distance nondimensional_potential_stiffness =>
       extern.physics_single_chain_fjc_thermodynamics_modified_canonical_asymptotic_strong_potential_nondimensional_relative_helmholtz_free_energy_per_link prof number_of_links nondimensional_potential_distance nondimensional_potential_stiffness |}.

(* /repo/src/physics/single_chain/fjc/thermodynamics/modified_canonical/asymptotic/weak_potential/ex.rs:2-5 *)
Definition physics_single_chain_fjc_thermodynamics_modified_canonical_asymptotic_weak_potential_end_to_end_length : symbol T :=
  {| sig := [UInt8; Float64; Float64; Float64; Float64];
     body := fun number_of_links link_length potential_distance potential_stiffness temperature =>
       Some (extern.physics_single_chain_fjc_thermodynamics_modified_canonical_asymptotic_weak_potential_end_to_end_length number_of_links link_length potential_distance potential_stiffness temperature) |}.

(* /repo/src/physics/single_chain/fjc/thermodynamics/modified_canonical/asymptotic/weak_potential/ex.rs:7-10 *)
Definition physics_single_chain_fjc_thermodynamics_modified_canonical_asymptotic_weak_potential_end_to_end_length_per_link : symbol T :=
  {| sig := [UInt8; Float64; Float64; Float64; Float64];
     body := fun number_of_links link_length potential_distance potential_stiffness temperature =>
       Some (extern.physics_single_chain_fjc_thermodynamics_modified_canonical_asymptotic_weak_potential_end_to_end_length_per_link number_of_links link_length potential_distance potential_stiffness temperature) |}.

(* /repo/src/physics/single_chain/fjc/thermodynamics/modified_canonical/asymptotic/weak_potential/ex.rs:12-15 *)
Definition physics_single_chain_fjc_thermodynamics_modified_canonical_asymptotic_weak_potential_nondimensional_end_to_end_length : symbol T :=
  {| sig := [UInt8; Float64; Float64];
     body := fun number_of_links nondimensional_potential_distance nondimensional_potential_stiffness =>
       Some (extern.physics_single_chain_fjc_thermodynamics_modified_canonical_asymptotic_weak_potential_nondimensional_end_to_end_length number_of_links nondimensional_potential_distance nondimensional_potential_stiffness) |}.

(* /repo/src/physics/single_chain/fjc/thermodynamics/modified_canonical/asymptotic/weak_potential/ex.rs:17-20 *)
Definition physics_single_chain_fjc_thermodynamics_modified_canonical_asymptotic_weak_potential_nondimensional_end_to_end_length_per_link : symbol T :=
  {| sig := [UInt8; Float64; Float64];
     body := fun number_of_links nondimensional_potential_distance nondimensional_potential_stiffness =>
       Some (extern.physics_single_chain_fjc_thermodynamics_modified_canonical_asymptotic_weak_potential_nondimensional_end_to_end_length_per_link number_of_links nondimensional_potential_distance nondimensional_potential_stiffness) |}.

(* /repo/src/physics/single_chain/fjc/thermodynamics/modified_canonical/asymptotic/weak_potential/ex.rs:22-25 *)
Definition physics_single_chain_fjc_thermodynamics_modified_canonical_asymptotic_weak_potential_force : symbol T :=
  {| sig := [Float64; Float64];
     body := fun potential_distance potential_stiffness =>
       Some (extern.physics_single_chain_fjc_thermodynamics_modified_canonical_asymptotic_weak_potential_force potential_distance potential_stiffness) |}.

(* /repo/src/physics/single_chain/fjc/thermodynamics/modified_canonical/asymptotic/weak_potential/ex.rs:27-30 *)
Definition physics_single_chain_fjc_thermodynamics_modified_canonical_asymptotic_weak_potential_nondimensional_force : symbol T :=
  {| sig := [UInt8; Float64; Float64];
     body := fun number_of_links nondimensional_potential_distance nondimensional_potential_stiffness =>
       Some (extern.physics_single_chain_fjc_thermodynamics_modified_canonical_asymptotic_weak_potential_nondimensional_force number_of_links nondimensional_potential_distance nondimensional_potential_stiffness) |}.

(* /repo/src/physics/single_chain/fjc/thermodynamics/modified_canonical/asymptotic/weak_potential/ex.rs:32-35 *)
Definition physics_single_chain_fjc_thermodynamics_modified_canonical_asymptotic_weak_potential_gibbs_free_energy : symbol T :=
  {| sig := [UInt8; Float64; Float64; Float64; Float64; Float64];
     body := fun number_of_links link_length hinge_mass potential_distance potential_stiffness temperature =>
       Some (extern.physics_single_chain_fjc_thermodynamics_modified_canonical_asymptotic_weak_potential_gibbs_free_energy number_of_links link_length hinge_mass potential_distance potential_stiffness temperature) |}.

(* /repo/src/physics/single_chain/fjc/thermodynamics/modified_canonical/asymptotic/weak_potential/ex.rs:37-40 *)
Definition physics_single_chain_fjc_thermodynamics_modified_canonical_asymptotic_weak_potential_gibbs_free_energy_per_link : symbol T :=
  {| sig := [UInt8; Float64; Float64; Float64; Float64; Float64];
     body := fun number_of_links link_length hinge_mass potential_distance potential_stiffness temperature =>
       Some (extern.physics_single_chain_fjc_thermodynamics_modified_canonical_asymptotic_weak_potential_gibbs_free_energy_per_link number_of_links link_length hinge_mass potential_distance potential_stiffness temperature) |}.

(* /repo/src/physics/single_chain/fjc/thermodynamics/modified_canonical/asymptotic/weak_potential/ex.rs:42-45 *)
Definition physics_single_chain_fjc_thermodynamics_modified_canonical_asymptotic_weak_potential_relative_gibbs_free_energy : symbol T :=
  {| sig := [UInt8; Float64; Float64; Float64; Float64];
     body := fun number_of_links link_length potential_distance potential_stiffness temperature =>
       Some (extern.physics_single_chain_fjc_thermodynamics_modified_canonical_asymptotic_weak_potential_relative_gibbs_free_energy number_of_links link_length potential_distance potential_stiffness temperature) |}.

(* /repo/src/physics/single_chain/fjc/thermodynamics/modified_canonical/asymptotic/weak_potential/ex.rs:47-50 *)
Definition physics_single_chain_fjc_thermodynamics_modified_canonical_asymptotic_weak_potential_relative_gibbs_free_energy_per_link : symbol T :=
  {| sig := [UInt8; Float64; Float64; Float64; Float64];
     body := fun number_of_links link_length potential_distance potential_stiffness temperature =>
       Some (extern.physics_single_chain_fjc_thermodynamics_modified_canonical_asymptotic_weak_potential_relative_gibbs_free_energy_per_link number_of_links link_length potential_distance potential_stiffness temperature) |}.

(* /repo/src/physics/single_chain/fjc/thermodynamics/modified_canonical/asymptotic/weak_potential/ex.rs:52-55 *)
Definition physics_single_chain_fjc_thermodynamics_modified_canonical_asymptotic_weak_potential_nondimensional_gibbs_free_energy : symbol T :=
  {| sig := [UInt8; Float64; Float64; Float64; Float64; Float64];
     body := fun number_of_links link_length hinge_mass nondimensional_potential_distance nondimensional_potential_stiffness temperature =>
       Some (extern.physics_single_chain_fjc_thermodynamics_modified_canonical_asymptotic_weak_potential_nondimensional_gibbs_free_energy number_of_links link_length hinge_mass nondimensional_potential_distance nondimensional_potential_stiffness temperature) |}.

(* /repo/src/physics/single_chain/fjc/thermodynamics/modified_canonical/asymptotic/weak_potential/ex.rs:57-60 *)
Definition physics_single_chain_fjc_thermodynamics_modified_canonical_asymptotic_weak_potential_nondimensional_gibbs_free_energy_per_link : symbol T :=
  {| sig := [UInt8; Float64; Float64; Float64; Float64; Float64];
     body := fun number_of_links link_length hinge_mass nondimensional_potential_distance nondimensional_potential_stiffness temperature =>
       Some (extern.physics_single_chain_fjc_thermodynamics_modified_canonical_asymptotic_weak_potential_nondimensional_gibbs_free_energy_per_link number_of_links link_length hinge_mass nondimensional_potential_distance nondimensional_potential_stiffness temperature) |}.

(* /repo/src/physics/single_chain/fjc/thermodynamics/modified_canonical/asymptotic/weak_potential/ex.rs:62-65 *)
Definition physics_single_chain_fjc_thermodynamics_modified_canonical_asymptotic_weak_potential_nondimensional_relative_gibbs_free_energy : symbol T :=
  {| sig := [UInt8; Float64; Float64];
     body := fun number_of_links nondimensional_potential_distance nondimensional_potential_stiffness =>
       Some (extern.physics_single_chain_fjc_thermodynamics_modified_canonical_asymptotic_weak_potential_nondimensional_relative_gibbs_free_energy number_of_links nondimensional_potential_distance nondimensional_potential_stiffness) |}.

(* /repo/src/physics/single_chain/fjc/thermodynamics/modified_canonical/asymptotic/weak_potential/ex.rs:67-70 *)
Definition physics_single_chain_fjc_thermodynamics_modified_canonical_asymptotic_weak_potential_nondimensional_relative_gibbs_free_energy_per_link : symbol T :=
  {| sig := [UInt8; Float64; Float64];
     body := fun number_of_links nondimensional_potential_distance nondimensional_potential_stiffness =>
       Some (extern.physics_single_chain_fjc_thermodynamics_modified_canonical_asymptotic_weak_potential_nondimensional_relative_gibbs_free_energy_per_link number_of_links nondimensional_potential_distance nondimensional_potential_stiffness) |}.

(* /repo/src/physics/single_chain/ideal/thermodynamics/isometric/ex.rs:2-5 *)
Definition physics_single_chain_ideal_thermodynamics_isometric_force : symbol T :=
  {| sig := [UInt8; Float64; Float64; Float64];
     body := fun number_of_links link_length end_to_end_length temperature =>
       Some (extern.physics_single_chain_ideal_thermodynamics_isometric_force number_of_links link_length end_to_end_length temperature) |}.

(* /repo/src/physics/single_chain/ideal/thermodynamics/isometric/ex.rs:7-10 *)
Definition physics_single_chain_ideal_thermodynamics_isometric_nondimensional_force : symbol T :=
  {| sig := [Float64];
     body := fun nondimensional_end_to_end_length_per_link =>
       Some (extern.physics_single_chain_ideal_thermodynamics_isometric_nondimensional_force nondimensional_end_to_end_length_per_link) |}.

(* /repo/src/physics/single_chain/ideal/thermodynamics/isometric/ex.rs:12-15 *)
Definition physics_single_chain_ideal_thermodynamics_isometric_helmholtz_free_energy : symbol T :=
  {| sig := [UInt8; Float64; Float64; Float64; Float64];
     body := fun number_of_links link_length hinge_mass end_to_end_length temperature =>
       Some (extern.physics_single_chain_ideal_thermodynamics_isometric_helmholtz_free_energy number_of_links link_length hinge_mass end_to_end_length temperature) |}.

(* /repo/src/physics/single_chain/ideal/thermodynamics/isometric/ex.rs:17-20 *)
Definition physics_single_chain_ideal_thermodynamics_isometric_helmholtz_free_energy_per_link : symbol T :=
  {| sig := [UInt8; Float64; Float64; Float64; Float64];
     body := fun number_of_links link_length hinge_mass end_to_end_length temperature =>
       Some (extern.physics_single_chain_ideal_thermodynamics_isometric_helmholtz_free_energy_per_link number_of_links link_length hinge_mass end_to_end_length temperature) |}.

(* /repo/src/physics/single_chain/ideal/thermodynamics/isometric/ex.rs:22-25 *)
Definition physics_single_chain_ideal_thermodynamics_isometric_relative_helmholtz_free_energy : symbol T :=
  {| sig := [UInt8; Float64; Float64; Float64];
     body := fun number_of_links link_length end_to_end_length temperature =>
       Some (extern.physics_single_chain_ideal_thermodynamics_isometric_relative_helmholtz_free_energy number_of_links link_length end_to_end_length temperature) |}.

(* /repo/src/physics/single_chain/ideal/thermodynamics/isometric/ex.rs:27-30 *)
Definition physics_single_chain_ideal_thermodynamics_isometric_relative_helmholtz_free_energy_per_link : symbol T :=
  {| sig := [UInt8; Float64; Float64; Float64];
     body := fun number_of_links link_length end_to_end_length temperature =>
       Some (extern.physics_single_chain_ideal_thermodynamics_isometric_relative_helmholtz_free_energy_per_link number_of_links link_length end_to_end_length temperature) |}.

(* /repo/src/physics/single_chain/ideal/thermodynamics/isometric/ex.rs:32-35 *)
Definition physics_single_chain_ideal_thermodynamics_isometric_nondimensional_helmholtz_free_energy : symbol T :=
  {| sig := [UInt8; Float64; Float64; Float64; Float64];
     body := fun number_of_links link_length hinge_mass nondimensional_end_to_end_length_per_link temperature =>
       Some (extern.physics_single_chain_ideal_thermodynamics_isometric_nondimensional_helmholtz_free_energy number_of_links link_length hinge_mass nondimensional_end_to_end_length_per_link temperature) |}.

(* /repo/src/physics/single_chain/ideal/thermodynamics/isometric/ex.rs:37-40 *)
Definition physics_single_chain_ideal_thermodynamics_isometric_nondimensional_helmholtz_free_energy_per_link : symbol T :=
  {| sig := [Float64; Float64; Float64; Float64];
     body := fun link_length hinge_mass nondimensional_end_to_end_length_per_link temperature =>
       Some (extern.physics_single_chain_ideal_thermodynamics_isometric_nondimensional_helmholtz_free_energy_per_link link_length hinge_mass nondimensional_end_to_end_length_per_link temperature) |}.

(* /repo/src/physics/single_chain/ideal/thermodynamics/isometric/ex.rs:42-45 *)
Definition physics_single_chain_ideal_thermodynamics_isometric_nondimensional_relative_helmholtz_free_energy : symbol T :=
  {| sig := [UInt8; Float64];
     body := fun number_of_links nondimensional_end_to_end_length_per_link =>
       Some (extern.physics_single_chain_ideal_thermodynamics_isometric_nondimensional_relative_helmholtz_free_energy number_of_links nondimensional_end_to_end_length_per_link) |}.

(* /repo/src/physics/single_chain/ideal/thermodynamics/isometric/ex.rs:47-50 *)
Definition physics_single_chain_ideal_thermodynamics_isometric_nondimensional_relative_helmholtz_free_energy_per_link : symbol T :=
  {| sig := [Float64];
     body := fun nondimensional_end_to_end_length_per_link =>
       Some (extern.physics_single_chain_ideal_thermodynamics_isometric_nondimensional_relative_helmholtz_free_energy_per_link nondimensional_end_to_end_length_per_link) |}.

(* /repo/src/physics/single_chain/ideal/thermodynamics/isometric/ex.rs:52-55 *)
Definition physics_single_chain_ideal_thermodynamics_isometric_equilibrium_distribution : symbol T :=
  {| sig := [UInt8; Float64; Float64];
     body := fun number_of_links link_length end_to_end_length =>
       Some (extern.physics_single_chain_ideal_thermodynamics_isometric_equilibrium_distribution number_of_links link_length end_to_end_length) |}.

(* /repo/src/physics/single_chain/ideal/thermodynamics/isometric/ex.rs:57-60 *)
Definition physics_single_chain_ideal_thermodynamics_isometric_nondimensional_equilibrium_distribution : symbol T :=
  {| sig := [UInt8; Float64];
     body := fun number_of_links nondimensional_end_to_end_length_per_link =>
       Some (extern.physics_single_chain_ideal_thermodynamics_isometric_nondimensional_equilibrium_distribution number_of_links nondimensional_end_to_end_length_per_link) |}.

(* /repo/src/physics/single_chain/ideal/thermodynamics/isometric/ex.rs:62-65 *)
Definition physics_single_chain_ideal_thermodynamics_isometric_equilibrium_radial_distribution : symbol T :=
  {| sig := [UInt8; Float64; Float64];
     body := fun number_of_links link_length end_to_end_length =>
       Some (extern.physics_single_chain_ideal_thermodynamics_isometric_equilibrium_radial_distribution number_of_links link_length end_to_end_length) |}.

(* /repo/src/physics/single_chain/ideal/thermodynamics/isometric/ex.rs:67-70 *)
Definition physics_single_chain_ideal_thermodynamics_isometric_nondimensional_equilibrium_radial_distribution : symbol T :=
  {| sig := [UInt8; Float64];
     body := fun number_of_links nondimensional_end_to_end_length_per_link =>
       Some (extern.physics_single_chain_ideal_thermodynamics_isometric_nondimensional_equilibrium_radial_distribution number_of_links nondimensional_end_to_end_length_per_link) |}.

(* /repo/src/physics/single_chain/ideal/thermodynamics/isotensional/ex.rs:2-5 *)
Definition physics_single_chain_ideal_thermodynamics_isotensional_end_to_end_length : symbol T :=
  {| sig := [UInt8; Float64; Float64; Float64];
     body := fun number_of_links link_length force temperature =>
       Some (extern.physics_single_chain_ideal_thermodynamics_isotensional_end_to_end_length number_of_links link_length force temperature) |}.

(* /repo/src/physics/single_chain/ideal/thermodynamics/isotensional/ex.rs:7-10 *)
Definition physics_single_chain_ideal_thermodynamics_isotensional_end_to_end_length_per_link : symbol T :=
  {| sig := [Float64; Float64; Float64];
     body := fun link_length force temperature =>
       Some (extern.physics_single_chain_ideal_thermodynamics_isotensional_end_to_end_length_per_link link_length force temperature) |}.

(* /repo/src/physics/single_chain/ideal/thermodynamics/isotensional/ex.rs:12-15 *)
Definition physics_single_chain_ideal_thermodynamics_isotensional_nondimensional_end_to_end_length : symbol T :=
  {| sig := [UInt8; Float64];
     body := fun number_of_links nondimensional_force =>
       Some (extern.physics_single_chain_ideal_thermodynamics_isotensional_nondimensional_end_to_end_length number_of_links nondimensional_force) |}.

(* /repo/src/physics/single_chain/ideal/thermodynamics/isotensional/ex.rs:17-20 *)
Definition physics_single_chain_ideal_thermodynamics_isotensional_nondimensional_end_to_end_length_per_link : symbol T :=
  {| sig := [Float64];
     body := fun nondimensional_force =>
       Some (extern.physics_single_chain_ideal_thermodynamics_isotensional_nondimensional_end_to_end_length_per_link nondimensional_force) |}.

(* /repo/src/physics/single_chain/ideal/thermodynamics/isotensional/ex.rs:22-25 *)
Definition physics_single_chain_ideal_thermodynamics_isotensional_gibbs_free_energy : symbol T :=
  {| sig := [UInt8; Float64; Float64; Float64; Float64];
     body := fun number_of_links link_length hinge_mass force temperature =>
       Some (extern.physics_single_chain_ideal_thermodynamics_isotensional_gibbs_free_energy number_of_links link_length hinge_mass force temperature) |}.

(* /repo/src/physics/single_chain/ideal/thermodynamics/isotensional/ex.rs:27-30 *)
Definition physics_single_chain_ideal_thermodynamics_isotensional_gibbs_free_energy_per_link : symbol T :=
  {| sig := [Float64; Float64; Float64; Float64];
     body := fun link_length hinge_mass force temperature =>
       Some (extern.physics_single_chain_ideal_thermodynamics_isotensional_gibbs_free_energy_per_link link_length hinge_mass force temperature) |}.

(* /repo/src/physics/single_chain/ideal/thermodynamics/isotensional/ex.rs:32-35 *)
Definition physics_single_chain_ideal_thermodynamics_isotensional_relative_gibbs_free_energy : symbol T :=
  {| sig := [UInt8; Float64; Float64; Float64];
     body := fun number_of_links link_length force temperature =>
       Some (extern.physics_single_chain_ideal_thermodynamics_isotensional_relative_gibbs_free_energy number_of_links link_length force temperature) |}.

(* /repo/src/physics/single_chain/ideal/thermodynamics/isotensional/ex.rs:37-40 *)
Definition physics_single_chain_ideal_thermodynamics_isotensional_relative_gibbs_free_energy_per_link : symbol T :=
  {| sig := [Float64; Float64; Float64];
     body := fun link_length force temperature =>
       Some (extern.physics_single_chain_ideal_thermodynamics_isotensional_relative_gibbs_free_energy_per_link link_length force temperature) |}.

(* /repo/src/physics/single_chain/ideal/thermodynamics/isotensional/ex.rs:42-45 *)
Definition physics_single_chain_ideal_thermodynamics_isotensional_nondimensional_gibbs_free_energy : symbol T :=
  {| sig := [UInt8; Float64; Float64; Float64; Float64];
     body := fun number_of_links link_length hinge_mass nondimensional_force temperature =>
       Some (extern.physics_single_chain_ideal_thermodynamics_isotensional_nondimensional_gibbs_free_energy number_of_links link_length hinge_mass nondimensional_force temperature) |}.

(* /repo/src/physics/single_chain/ideal/thermodynamics/isotensional/ex.rs:47-50 *)
Definition physics_single_chain_ideal_thermodynamics_isotensional_nondimensional_gibbs_free_energy_per_link : symbol T :=
  {| sig := [Float64; Float64; Float64; Float64];
     body := fun link_length hinge_mass nondimensional_force temperature =>
       Some (extern.physics_single_chain_ideal_thermodynamics_isotensional_nondimensional_gibbs_free_energy_per_link link_length hinge_mass nondimensional_force temperature) |}.

(* /repo/src/physics/single_chain/ideal/thermodynamics/isotensional/ex.rs:52-55 *)
Definition physics_single_chain_ideal_thermodynamics_isotensional_nondimensional_relative_gibbs_free_energy : symbol T :=
  {| sig := [UInt8; Float64];
     body := fun number_of_links nondimensional_force =>
       Some (extern.physics_single_chain_ideal_thermodynamics_isotensional_nondimensional_relative_gibbs_free_energy number_of_links nondimensional_force) |}.

(* /repo/src/physics/single_chain/ideal/thermodynamics/isotensional/ex.rs:57-60 *)
Definition physics_single_chain_ideal_thermodynamics_isotensional_nondimensional_relative_gibbs_free_energy_per_link : symbol T :=
  {| sig := [Float64];
     body := fun nondimensional_force =>
       Some (extern.physics_single_chain_ideal_thermodynamics_isotensional_nondimensional_relative_gibbs_free_energy_per_link nondimensional_force) |}.

(* /repo/src/physics/single_chain/swfjc/thermodynamics/isometric/legendre/ex.rs:2-5 *)
Definition physics_single_chain_swfjc_thermodynamics_isometric_legendre_force : symbol T :=
  {| sig := [UInt8; Float64; Float64; Float64; Float64];
     body := fun number_of_links link_length well_width end_to_end_length temperature =>
       Some (extern.physics_single_chain_swfjc_thermodynamics_isometric_legendre_force number_of_links link_length well_width end_to_end_length temperature) |}.

(* /repo/src/physics/single_chain/swfjc/thermodynamics/isometric/legendre/ex.rs:7-10 *)
Definition physics_single_chain_swfjc_thermodynamics_isometric_legendre_nondimensional_force : symbol T :=
  {| sig := [Float64; Float64; Float64];
     body := fun link_length well_width nondimensional_end_to_end_length_per_link =>
       Some (extern.physics_single_chain_swfjc_thermodynamics_isometric_legendre_nondimensional_force link_length well_width nondimensional_end_to_end_length_per_link) |}.

(* /repo/src/physics/single_chain/swfjc/thermodynamics/isometric/legendre/ex.rs:12-15 *)
Definition physics_single_chain_swfjc_thermodynamics_isometric_legendre_helmholtz_free_energy : symbol T :=
  {| sig := [UInt8; Float64; Float64; Float64; Float64; Float64];
     body := fun number_of_links link_length hinge_mass well_width end_to_end_length temperature =>
       Some (extern.physics_single_chain_swfjc_thermodynamics_isometric_legendre_helmholtz_free_energy number_of_links link_length hinge_mass well_width end_to_end_length temperature) |}.

(* /repo/src/physics/single_chain/swfjc/thermodynamics/isometric/legendre/ex.rs:17-20 *)
Definition physics_single_chain_swfjc_thermodynamics_isometric_legendre_helmholtz_free_energy_per_link : symbol T :=
  {| sig := [UInt8; Float64; Float64; Float64; Float64; Float64];
     body := fun number_of_links link_length hinge_mass well_width end_to_end_length temperature =>
       Some (extern.physics_single_chain_swfjc_thermodynamics_isometric_legendre_helmholtz_free_energy_per_link number_of_links link_length hinge_mass well_width end_to_end_length temperature) |}.

(* /repo/src/physics/single_chain/swfjc/thermodynamics/isometric/legendre/ex.rs:22-25 *)
Definition physics_single_chain_swfjc_thermodynamics_isometric_legendre_relative_helmholtz_free_energy : symbol T :=
  {| sig := [UInt8; Float64; Float64; Float64; Float64];
     body := fun number_of_links link_length well_width end_to_end_length temperature =>
       Some (extern.physics_single_chain_swfjc_thermodynamics_isometric_legendre_relative_helmholtz_free_energy number_of_links link_length well_width end_to_end_length temperature) |}.

(* /repo/src/physics/single_chain/swfjc/thermodynamics/isometric/legendre/ex.rs:27-30 *)
Definition physics_single_chain_swfjc_thermodynamics_isometric_legendre_relative_helmholtz_free_energy_per_link : symbol T :=
  {| sig := [UInt8; Float64; Float64; Float64; Float64];
     body := fun number_of_links link_length well_width end_to_end_length temperature =>
       Some (extern.physics_single_chain_swfjc_thermodynamics_isometric_legendre_relative_helmholtz_free_energy_per_link number_of_links link_length well_width end_to_end_length temperature) |}.

(* /repo/src/physics/single_chain/swfjc/thermodynamics/isometric/legendre/ex.rs:32-35 *)
Definition physics_single_chain_swfjc_thermodynamics_isometric_legendre_nondimensional_helmholtz_free_energy : symbol T :=
  {| sig := [UInt8; Float64; Float64; Float64; Float64; Float64];
     body := fun number_of_links link_length hinge_mass well_width nondimensional_end_to_end_length_per_link temperature =>
       Some (extern.physics_single_chain_swfjc_thermodynamics_isometric_legendre_nondimensional_helmholtz_free_energy number_of_links link_length hinge_mass well_width nondimensional_end_to_end_length_per_link temperature) |}.

(* /repo/src/physics/single_chain/swfjc/thermodynamics/isometric/legendre/ex.rs:37-40 *)
Definition physics_single_chain_swfjc_thermodynamics_isometric_legendre_nondimensional_helmholtz_free_energy_per_link : symbol T :=
  {| sig := [UInt8; Float64; Float64; Float64; Float64; Float64];
     body := fun number_of_links link_length hinge_mass well_width nondimensional_end_to_end_length_per_link temperature =>
       Some (extern.physics_single_chain_swfjc_thermodynamics_isometric_legendre_nondimensional_helmholtz_free_energy_per_link number_of_links link_length hinge_mass well_width nondimensional_end_to_end_length_per_link temperature) |}.

(* /repo/src/physics/single_chain/swfjc/thermodynamics/isometric/legendre/ex.rs:42-45 *)
Definition physics_single_chain_swfjc_thermodynamics_isometric_legendre_nondimensional_relative_helmholtz_free_energy : symbol T :=
  {| sig := [UInt8; Float64; Float64; Float64];
     body := fun number_of_links link_length well_width nondimensional_end_to_end_length_per_link =>
       Some (extern.physics_single_chain_swfjc_thermodynamics_isometric_legendre_nondimensional_relative_helmholtz_free_energy number_of_links link_length well_width nondimensional_end_to_end_length_per_link) |}.

(* /repo/src/physics/single_chain/swfjc/thermodynamics/isometric/legendre/ex.rs:47-50 *)
Definition physics_single_chain_swfjc_thermodynamics_isometric_legendre_nondimensional_relative_helmholtz_free_energy_per_link : symbol T :=
  {| sig := [Float64; Float64; Float64];
     body := fun link_length well_width nondimensional_end_to_end_length_per_link =>
       Some (extern.physics_single_chain_swfjc_thermodynamics_isometric_legendre_nondimensional_relative_helmholtz_free_energy_per_link link_length well_width nondimensional_end_to_end_length_per_link) |}.

(* /repo/src/physics/single_chain/swfjc/thermodynamics/isometric/legendre/ex.rs:52-55 *)
Definition physics_single_chain_swfjc_thermodynamics_isometric_legendre_equilibrium_distribution : symbol T :=
  {| sig := [UInt8; Float64; Float64; Float64; Float64];
     body := fun number_of_links link_length well_width normalization_nondimensional_equilibrium_distribution end_to_end_length =>
       Some (extern.physics_single_chain_swfjc_thermodynamics_isometric_legendre_equilibrium_distribution number_of_links link_length well_width normalization_nondimensional_equilibrium_distribution end_to_end_length) |}.

(* /repo/src/physics/single_chain/swfjc/thermodynamics/isometric/legendre/ex.rs:57-60 *)
Definition physics_single_chain_swfjc_thermodynamics_isometric_legendre_nondimensional_equilibrium_distribution : symbol T :=
  {| sig := [UInt8; Float64; Float64; Float64; Float64];
     body := fun number_of_links link_length well_width normalization_nondimensional_equilibrium_distribution nondimensional_end_to_end_length_per_link =>
       Some (extern.physics_single_chain_swfjc_thermodynamics_isometric_legendre_nondimensional_equilibrium_distribution number_of_links link_length well_width normalization_nondimensional_equilibrium_distribution nondimensional_end_to_end_length_per_link) |}.

(* /repo/src/physics/single_chain/swfjc/thermodynamics/isometric/legendre/ex.rs:62-65 *)
Definition physics_single_chain_swfjc_thermodynamics_isometric_legendre_equilibrium_radial_distribution : symbol T :=
  {| sig := [UInt8; Float64; Float64; Float64; Float64];
     body := fun number_of_links link_length well_width normalization_nondimensional_equilibrium_distribution end_to_end_length =>
       Some (extern.physics_single_chain_swfjc_thermodynamics_isometric_legendre_equilibrium_radial_distribution number_of_links link_length well_width normalization_nondimensional_equilibrium_distribution end_to_end_length) |}.

(* /repo/src/physics/single_chain/swfjc/thermodynamics/isometric/legendre/ex.rs:67-70 *)
Definition physics_single_chain_swfjc_thermodynamics_isometric_legendre_nondimensional_equilibrium_radial_distribution : symbol T :=
  {| sig := [UInt8; Float64; Float64; Float64; Float64];
     body := fun number_of_links link_length well_width normalization_nondimensional_equilibrium_distribution nondimensional_end_to_end_length_per_link =>
       Some (extern.physics_single_chain_swfjc_thermodynamics_isometric_legendre_nondimensional_equilibrium_radial_distribution number_of_links link_length well_width normalization_nondimensional_equilibrium_distribution nondimensional_end_to_end_length_per_link) |}.

(* /repo/src/physics/single_chain/swfjc/thermodynamics/isotensional/ex.rs:2-5 *)
Definition physics_single_chain_swfjc_thermodynamics_isotensional_end_to_end_length : symbol T :=
  {| sig := [UInt8; Float64; Float64; Float64; Float64];
     body := fun number_of_links link_length well_width force temperature =>
       Some (extern.physics_single_chain_swfjc_thermodynamics_isotensional_end_to_end_length number_of_links link_length well_width force temperature) |}.

(* /repo/src/physics/single_chain/swfjc/thermodynamics/isotensional/ex.rs:7-10 *)
Definition physics_single_chain_swfjc_thermodynamics_isotensional_end_to_end_length_per_link : symbol T :=
  {| sig := [Float64; Float64; Float64; Float64];
     body := fun link_length well_width force temperature =>
       Some (extern.physics_single_chain_swfjc_thermodynamics_isotensional_end_to_end_length_per_link link_length well_width force temperature) |}.

(* /repo/src/physics/single_chain/swfjc/thermodynamics/isotensional/ex.rs:12-15 *)
Definition physics_single_chain_swfjc_thermodynamics_isotensional_nondimensional_end_to_end_length : symbol T :=
  {| sig := [UInt8; Float64; Float64; Float64];
     body := fun number_of_links link_length well_width nondimensional_force =>
       Some (extern.physics_single_chain_swfjc_thermodynamics_isotensional_nondimensional_end_to_end_length number_of_links link_length well_width nondimensional_force) |}.

(* /repo/src/physics/single_chain/swfjc/thermodynamics/isotensional/ex.rs:17-20 *)
Definition physics_single_chain_swfjc_thermodynamics_isotensional_nondimensional_end_to_end_length_per_link : symbol T :=
  {| sig := [Float64; Float64; Float64];
     body := fun link_length well_width nondimensional_force =>
       Some (extern.physics_single_chain_swfjc_thermodynamics_isotensional_nondimensional_end_to_end_length_per_link link_length well_width nondimensional_force) |}.

(* /repo/src/physics/single_chain/swfjc/thermodynamics/isotensional/ex.rs:22-25 *)
Definition physics_single_chain_swfjc_thermodynamics_isotensional_gibbs_free_energy : symbol T :=
  {| sig := [UInt8; Float64; Float64; Float64; Float64; Float64];
     body := fun number_of_links link_length hinge_mass well_width force temperature =>
       Some (extern.physics_single_chain_swfjc_thermodynamics_isotensional_gibbs_free_energy number_of_links link_length hinge_mass well_width force temperature) |}.

(* /repo/src/physics/single_chain/swfjc/thermodynamics/isotensional/ex.rs:27-30 *)
Definition physics_single_chain_swfjc_thermodynamics_isotensional_gibbs_free_energy_per_link : symbol T :=
  {| sig := [Float64; Float64; Float64; Float64; Float64];
     body := fun link_length hinge_mass well_width force temperature =>
       Some (extern.physics_single_chain_swfjc_thermodynamics_isotensional_gibbs_free_energy_per_link link_length hinge_mass well_width force temperature) |}.

(* /repo/src/physics/single_chain/swfjc/thermodynamics/isotensional/ex.rs:32-35 *)
Definition physics_single_chain_swfjc_thermodynamics_isotensional_relative_gibbs_free_energy : symbol T :=
  {| sig := [UInt8; Float64; Float64; Float64; Float64];
     body := fun number_of_links link_length well_width force temperature =>
       Some (extern.physics_single_chain_swfjc_thermodynamics_isotensional_relative_gibbs_free_energy number_of_links link_length well_width force temperature) |}.

(* /repo/src/physics/single_chain/swfjc/thermodynamics/isotensional/ex.rs:37-40 *)
Definition physics_single_chain_swfjc_thermodynamics_isotensional_relative_gibbs_free_energy_per_link : symbol T :=
  {| sig := [Float64; Float64; Float64; Float64];
     body := fun link_length well_width force temperature =>
       Some (extern.physics_single_chain_swfjc_thermodynamics_isotensional_relative_gibbs_free_energy_per_link link_length well_width force temperature) |}.

(* /repo/src/physics/single_chain/swfjc/thermodynamics/isotensional/ex.rs:42-45 *)
Definition physics_single_chain_swfjc_thermodynamics_isotensional_nondimensional_gibbs_free_energy : symbol T :=
  {| sig := [UInt8; Float64; Float64; Float64; Float64; Float64];
     body := fun number_of_links link_length hinge_mass well_width nondimensional_force temperature =>
       Some (extern.physics_single_chain_swfjc_thermodynamics_isotensional_nondimensional_gibbs_free_energy number_of_links link_length hinge_mass well_width nondimensional_force temperature) |}.

(* /repo/src/physics/single_chain/swfjc/thermodynamics/isotensional/ex.rs:47-50 *)
Definition physics_single_chain_swfjc_thermodynamics_isotensional_nondimensional_gibbs_free_energy_per_link : symbol T :=
  {| sig := [Float64; Float64; Float64; Float64; Float64];
     body := fun link_length hinge_mass well_width nondimensional_force temperature =>
       Some (extern.physics_single_chain_swfjc_thermodynamics_isotensional_nondimensional_gibbs_free_energy_per_link link_length hinge_mass well_width nondimensional_force temperature) |}.

(* /repo/src/physics/single_chain/swfjc/thermodynamics/isotensional/ex.rs:52-55 *)
Definition physics_single_chain_swfjc_thermodynamics_isotensional_nondimensional_relative_gibbs_free_energy : symbol T :=
  {| sig := [UInt8; Float64; Float64; Float64];
     body := fun number_of_links link_length well_width nondimensional_force =>
       Some (extern.physics_single_chain_swfjc_thermodynamics_isotensional_nondimensional_relative_gibbs_free_energy number_of_links link_length well_width nondimensional_force) |}.

(* /repo/src/physics/single_chain/swfjc/thermodynamics/isotensional/ex.rs:57-60 *)
Definition physics_single_chain_swfjc_thermodynamics_isotensional_nondimensional_relative_gibbs_free_energy_per_link : symbol T :=
  {| sig := [Float64; Float64; Float64];
     body := fun link_length well_width nondimensional_force =>
       Some (extern.physics_single_chain_swfjc_thermodynamics_isotensional_nondimensional_relative_gibbs_free_energy_per_link link_length well_width nondimensional_force) |}.

(* /repo/src/physics/single_chain/swfjc/thermodynamics/isotensional/legendre/ex.rs:2-5 *)
Definition physics_single_chain_swfjc_thermodynamics_isotensional_legendre_helmholtz_free_energy : symbol T :=
  {| sig := [UInt8; Float64; Float64; Float64; Float64; Float64];
     body := fun number_of_links link_length hinge_mass well_width force temperature =>
       Some (extern.physics_single_chain_swfjc_thermodynamics_isotensional_legendre_helmholtz_free_energy number_of_links link_length hinge_mass well_width force temperature) |}.

(* /repo/src/physics/single_chain/swfjc/thermodynamics/isotensional/legendre/ex.rs:7-10 *)
Definition physics_single_chain_swfjc_thermodynamics_isotensional_legendre_helmholtz_free_energy_per_link : symbol T :=
  {| sig := [Float64; Float64; Float64; Float64; Float64];
     body := fun link_length hinge_mass well_width force temperature =>
       Some (extern.physics_single_chain_swfjc_thermodynamics_isotensional_legendre_helmholtz_free_energy_per_link link_length hinge_mass well_width force temperature) |}.

(* /repo/src/physics/single_chain/swfjc/thermodynamics/isotensional/legendre/ex.rs:12-15 *)
Definition physics_single_chain_swfjc_thermodynamics_isotensional_legendre_relative_helmholtz_free_energy : symbol T :=
  {| sig := [UInt8; Float64; Float64; Float64; Float64];
     body := fun number_of_links link_length well_width force temperature =>
       Some (extern.physics_single_chain_swfjc_thermodynamics_isotensional_legendre_relative_helmholtz_free_energy number_of_links link_length well_width force temperature) |}.

(* /repo/src/physics/single_chain/swfjc/thermodynamics/isotensional/legendre/ex.rs:17-20 *)
Definition physics_single_chain_swfjc_thermodynamics_isotensional_legendre_relative_helmholtz_free_energy_per_link : symbol T :=
  {| sig := [Float64; Float64; Float64; Float64];
     body := fun link_length well_width force temperature =>
       Some (extern.physics_single_chain_swfjc_thermodynamics_isotensional_legendre_relative_helmholtz_free_energy_per_link link_length well_width force temperature) |}.

(* /repo/src/physics/single_chain/swfjc/thermodynamics/isotensional/legendre/ex.rs:22-25 *)
Definition physics_single_chain_swfjc_thermodynamics_isotensional_legendre_nondimensional_helmholtz_free_energy : symbol T :=
  {| sig := [UInt8; Float64; Float64; Float64; Float64; Float64];
     body := fun number_of_links link_length hinge_mass well_width nondimensional_force temperature =>
       Some (extern.physics_single_chain_swfjc_thermodynamics_isotensional_legendre_nondimensional_helmholtz_free_energy number_of_links link_length hinge_mass well_width nondimensional_force temperature) |}.

(* /repo/src/physics/single_chain/swfjc/thermodynamics/isotensional/legendre/ex.rs:27-30 *)
Definition physics_single_chain_swfjc_thermodynamics_isotensional_legendre_nondimensional_helmholtz_free_energy_per_link : symbol T :=
  {| sig := [Float64; Float64; Float64; Float64; Float64];
     body := fun link_length hinge_mass well_width nondimensional_force temperature =>
       Some (extern.physics_single_chain_swfjc_thermodynamics_isotensional_legendre_nondimensional_helmholtz_free_energy_per_link link_length hinge_mass well_width nondimensional_force temperature) |}.

(* /repo/src/physics/single_chain/swfjc/thermodynamics/isotensional/legendre/ex.rs:32-35 *)
Definition physics_single_chain_swfjc_thermodynamics_isotensional_legendre_nondimensional_relative_helmholtz_free_energy : symbol T :=
  {| sig := [UInt8; Float64; Float64; Float64];
     body := fun number_of_links link_length well_width nondimensional_force =>
       Some (extern.physics_single_chain_swfjc_thermodynamics_isotensional_legendre_nondimensional_relative_helmholtz_free_energy number_of_links link_length well_width nondimensional_force) |}.

(* /repo/src/physics/single_chain/swfjc/thermodynamics/isotensional/legendre/ex.rs:37-40 *)
Definition physics_single_chain_swfjc_thermodynamics_isotensional_legendre_nondimensional_relative_helmholtz_free_energy_per_link : symbol T :=
  {| sig := [Float64; Float64; Float64];
     body := fun link_length well_width nondimensional_force =>
       Some (extern.physics_single_chain_swfjc_thermodynamics_isotensional_legendre_nondimensional_relative_helmholtz_free_energy_per_link link_length well_width nondimensional_force) |}.

(* /repo/src/physics/single_chain/ufjc/lennard_jones/thermodynamics/isometric/asymptotic/legendre/ex.rs:2-5 *)
Definition physics_single_chain_ufjc_lennard_jones_thermodynamics_isometric_asymptotic_legendre_force : symbol T :=
  {| sig := [UInt8; Float64; Float64; Float64; Float64];
     body := fun number_of_links link_length link_stiffness end_to_end_length temperature =>
       Some (extern.physics_single_chain_ufjc_lennard_jones_thermodynamics_isometric_asymptotic_legendre_force number_of_links link_length link_stiffness end_to_end_length temperature) |}.

(* /repo/src/physics/single_chain/ufjc/lennard_jones/thermodynamics/isometric/asymptotic/legendre/ex.rs:7-10 *)
Definition physics_single_chain_ufjc_lennard_jones_thermodynamics_isometric_asymptotic_legendre_nondimensional_force : symbol T :=
  {| sig := [Float64; Float64];
     body := fun nondimensional_link_stiffness nondimensional_end_to_end_length_per_link =>
       Some (extern.physics_single_chain_ufjc_lennard_jones_thermodynamics_isometric_asymptotic_legendre_nondimensional_force nondimensional_link_stiffness nondimensional_end_to_end_length_per_link) |}.

(* /repo/src/physics/single_chain/ufjc/lennard_jones/thermodynamics/isometric/asymptotic/legendre/ex.rs:12-15 *)
Definition physics_single_chain_ufjc_lennard_jones_thermodynamics_isometric_asymptotic_legendre_helmholtz_free_energy : symbol T :=
  {| sig := [UInt8; Float64; Float64; Float64; Float64; Float64];
     body := fun number_of_links link_length hinge_mass link_stiffness end_to_end_length temperature =>
       Some (extern.physics_single_chain_ufjc_lennard_jones_thermodynamics_isometric_asymptotic_legendre_helmholtz_free_energy number_of_links link_length hinge_mass link_stiffness end_to_end_length temperature) |}.

(* /repo/src/physics/single_chain/ufjc/lennard_jones/thermodynamics/isometric/asymptotic/legendre/ex.rs:17-20 *)
Definition physics_single_chain_ufjc_lennard_jones_thermodynamics_isometric_asymptotic_legendre_helmholtz_free_energy_per_link : symbol T :=
  {| sig := [UInt8; Float64; Float64; Float64; Float64; Float64];
     body := fun number_of_links link_length hinge_mass link_stiffness end_to_end_length temperature =>
       Some (extern.physics_single_chain_ufjc_lennard_jones_thermodynamics_isometric_asymptotic_legendre_helmholtz_free_energy_per_link number_of_links link_length hinge_mass link_stiffness end_to_end_length temperature) |}.

(* /repo/src/physics/single_chain/ufjc/lennard_jones/thermodynamics/isometric/asymptotic/legendre/ex.rs:22-25 *)
Definition physics_single_chain_ufjc_lennard_jones_thermodynamics_isometric_asymptotic_legendre_relative_helmholtz_free_energy : symbol T :=
  {| sig := [UInt8; Float64; Float64; Float64; Float64];
     body := fun number_of_links link_length link_stiffness end_to_end_length temperature =>
       Some (extern.physics_single_chain_ufjc_lennard_jones_thermodynamics_isometric_asymptotic_legendre_relative_helmholtz_free_energy number_of_links link_length link_stiffness end_to_end_length temperature) |}.

(* /repo/src/physics/single_chain/ufjc/lennard_jones/thermodynamics/isometric/asymptotic/legendre/ex.rs:27-30 *)
Definition physics_single_chain_ufjc_lennard_jones_thermodynamics_isometric_asymptotic_legendre_relative_helmholtz_free_energy_per_link : symbol T :=
  {| sig := [UInt8; Float64; Float64; Float64; Float64];
     body := fun number_of_links link_length link_stiffness end_to_end_length temperature =>
       Some (extern.physics_single_chain_ufjc_lennard_jones_thermodynamics_isometric_asymptotic_legendre_relative_helmholtz_free_energy_per_link number_of_links link_length link_stiffness end_to_end_length temperature) |}.

(* /repo/src/physics/single_chain/ufjc/lennard_jones/thermodynamics/isometric/asymptotic/legendre/ex.rs:32-35 *)
Definition physics_single_chain_ufjc_lennard_jones_thermodynamics_isometric_asymptotic_legendre_nondimensional_helmholtz_free_energy : symbol T :=
  {| sig := [UInt8; Float64; Float64; Float64; Float64; Float64];
     body := fun number_of_links link_length hinge_mass nondimensional_link_stiffness nondimensional_end_to_end_length_per_link temperature =>
       Some (extern.physics_single_chain_ufjc_lennard_jones_thermodynamics_isometric_asymptotic_legendre_nondimensional_helmholtz_free_energy number_of_links link_length hinge_mass nondimensional_link_stiffness nondimensional_end_to_end_length_per_link temperature) |}.

(* /repo/src/physics/single_chain/ufjc/lennard_jones/thermodynamics/isometric/asymptotic/legendre/ex.rs:37-40 *)
Definition physics_single_chain_ufjc_lennard_jones_thermodynamics_isometric_asymptotic_legendre_nondimensional_helmholtz_free_energy_per_link : symbol T :=
  {| sig := [UInt8; Float64; Float64; Float64; Float64; Float64];
     body := fun number_of_links link_length hinge_mass nondimensional_link_stiffness nondimensional_end_to_end_length_per_link temperature =>
       Some (extern.physics_single_chain_ufjc_lennard_jones_thermodynamics_isometric_asymptotic_legendre_nondimensional_helmholtz_free_energy_per_link number_of_links link_length hinge_mass nondimensional_link_stiffness nondimensional_end_to_end_length_per_link temperature) |}.

(* /repo/src/physics/single_chain/ufjc/lennard_jones/thermodynamics/isometric/asymptotic/legendre/ex.rs:42-45 *)
Definition physics_single_chain_ufjc_lennard_jones_thermodynamics_isometric_asymptotic_legendre_nondimensional_relative_helmholtz_free_energy : symbol T :=
  {| sig := [UInt8; Float64; Float64];
     body := fun number_of_links nondimensional_link_stiffness nondimensional_end_to_end_length_per_link =>
       Some (extern.physics_single_chain_ufjc_lennard_jones_thermodynamics_isometric_asymptotic_legendre_nondimensional_relative_helmholtz_free_energy number_of_links nondimensional_link_stiffness nondimensional_end_to_end_length_per_link) |}.

(* /repo/src/physics/single_chain/ufjc/lennard_jones/thermodynamics/isometric/asymptotic/legendre/ex.rs:47-50 *)
Definition physics_single_chain_ufjc_lennard_jones_thermodynamics_isometric_asymptotic_legendre_nondimensional_relative_helmholtz_free_energy_per_link : symbol T :=
  {| sig := [Float64; Float64];
     body := fun nondimensional_link_stiffness nondimensional_end_to_end_length_per_link =>
       Some (extern.physics_single_chain_ufjc_lennard_jones_thermodynamics_isometric_asymptotic_legendre_nondimensional_relative_helmholtz_free_energy_per_link nondimensional_link_stiffness nondimensional_end_to_end_length_per_link) |}.

(* /repo/src/physics/single_chain/ufjc/lennard_jones/thermodynamics/isometric/asymptotic/reduced/legendre/ex.rs:2-5 *)
Definition physics_single_chain_ufjc_lennard_jones_thermodynamics_isometric_asymptotic_reduced_legendre_force : symbol T :=
  {| sig := [UInt8; Float64; Float64; Float64; Float64];
     body := fun number_of_links link_length link_stiffness end_to_end_length temperature =>
       Some (extern.physics_single_chain_ufjc_lennard_jones_thermodynamics_isometric_asymptotic_reduced_legendre_force number_of_links link_length link_stiffness end_to_end_length temperature) |}.

(* /repo/src/physics/single_chain/ufjc/lennard_jones/thermodynamics/isometric/asymptotic/reduced/legendre/ex.rs:7-10 *)
Definition physics_single_chain_ufjc_lennard_jones_thermodynamics_isometric_asymptotic_reduced_legendre_nondimensional_force : symbol T :=
  {| sig := [Float64; Float64];
     body := fun nondimensional_link_stiffness nondimensional_end_to_end_length_per_link =>
       Some (extern.physics_single_chain_ufjc_lennard_jones_thermodynamics_isometric_asymptotic_reduced_legendre_nondimensional_force nondimensional_link_stiffness nondimensional_end_to_end_length_per_link) |}.

(* /repo/src/physics/single_chain/ufjc/lennard_jones/thermodynamics/isometric/asymptotic/reduced/legendre/ex.rs:12-15 *)
Definition physics_single_chain_ufjc_lennard_jones_thermodynamics_isometric_asymptotic_reduced_legendre_helmholtz_free_energy : symbol T :=
  {| sig := [UInt8; Float64; Float64; Float64; Float64; Float64];
     body := fun number_of_links link_length hinge_mass link_stiffness end_to_end_length temperature =>
       Some (extern.physics_single_chain_ufjc_lennard_jones_thermodynamics_isometric_asymptotic_reduced_legendre_helmholtz_free_energy number_of_links link_length hinge_mass link_stiffness end_to_end_length temperature) |}.

(* /repo/src/physics/single_chain/ufjc/lennard_jones/thermodynamics/isometric/asymptotic/reduced/legendre/ex.rs:17-20 *)
Definition physics_single_chain_ufjc_lennard_jones_thermodynamics_isometric_asymptotic_reduced_legendre_helmholtz_free_energy_per_link : symbol T :=
  {| sig := [UInt8; Float64; Float64; Float64; Float64; Float64];
     body := fun number_of_links link_length hinge_mass link_stiffness end_to_end_length temperature =>
       Some (extern.physics_single_chain_ufjc_lennard_jones_thermodynamics_isometric_asymptotic_reduced_legendre_helmholtz_free_energy_per_link number_of_links link_length hinge_mass link_stiffness end_to_end_length temperature) |}.

(* /repo/src/physics/single_chain/ufjc/lennard_jones/thermodynamics/isometric/asymptotic/reduced/legendre/ex.rs:22-25 *)
Definition physics_single_chain_ufjc_lennard_jones_thermodynamics_isometric_asymptotic_reduced_legendre_relative_helmholtz_free_energy : symbol T :=
  {| sig := [UInt8; Float64; Float64; Float64; Float64];
     body := fun number_of_links link_length link_stiffness end_to_end_length temperature =>
       Some (extern.physics_single_chain_ufjc_lennard_jones_thermodynamics_isometric_asymptotic_reduced_legendre_relative_helmholtz_free_energy number_of_links link_length link_stiffness end_to_end_length temperature) |}.

(* /repo/src/physics/single_chain/ufjc/lennard_jones/thermodynamics/isometric/asymptotic/reduced/legendre/ex.rs:27-30 *)
Definition physics_single_chain_ufjc_lennard_jones_thermodynamics_isometric_asymptotic_reduced_legendre_relative_helmholtz_free_energy_per_link : symbol T :=
  {| sig := [UInt8; Float64; Float64; Float64; Float64];
     body := fun number_of_links link_length link_stiffness end_to_end_length temperature =>
       Some (extern.physics_single_chain_ufjc_lennard_jones_thermodynamics_isometric_asymptotic_reduced_legendre_relative_helmholtz_free_energy_per_link number_of_links link_length link_stiffness end_to_end_length temperature) |}.

(* /repo/src/physics/single_chain/ufjc/lennard_jones/thermodynamics/isometric/asymptotic/reduced/legendre/ex.rs:32-35 *)
Definition physics_single_chain_ufjc_lennard_jones_thermodynamics_isometric_asymptotic_reduced_legendre_nondimensional_helmholtz_free_energy : symbol T :=
  {| sig := [UInt8; Float64; Float64; Float64; Float64; Float64];
     body := fun number_of_links link_length hinge_mass nondimensional_link_stiffness nondimensional_end_to_end_length_per_link temperature =>
       Some (extern.physics_single_chain_ufjc_lennard_jones_thermodynamics_isometric_asymptotic_reduced_legendre_nondimensional_helmholtz_free_energy number_of_links link_length hinge_mass nondimensional_link_stiffness nondimensional_end_to_end_length_per_link temperature) |}.

(* /repo/src/physics/single_chain/ufjc/lennard_jones/thermodynamics/isometric/asymptotic/reduced/legendre/ex.rs:37-40 *)
Definition physics_single_chain_ufjc_lennard_jones_thermodynamics_isometric_asymptotic_reduced_legendre_nondimensional_helmholtz_free_energy_per_link : symbol T :=
  {| sig := [UInt8; Float64; Float64; Float64; Float64; Float64];
     body := fun number_of_links link_length hinge_mass nondimensional_link_stiffness nondimensional_end_to_end_length_per_link temperature =>
       Some (extern.physics_single_chain_ufjc_lennard_jones_thermodynamics_isometric_asymptotic_reduced_legendre_nondimensional_helmholtz_free_energy_per_link number_of_links link_length hinge_mass nondimensional_link_stiffness nondimensional_end_to_end_length_per_link temperature) |}.

(* /repo/src/physics/single_chain/ufjc/lennard_jones/thermodynamics/isometric/asymptotic/reduced/legendre/ex.rs:42-45 *)
Definition physics_single_chain_ufjc_lennard_jones_thermodynamics_isometric_asymptotic_reduced_legendre_nondimensional_relative_helmholtz_free_energy : symbol T :=
  {| sig := [UInt8; Float64; Float64];
     body := fun number_of_links nondimensional_link_stiffness nondimensional_end_to_end_length_per_link =>
       Some (extern.physics_single_chain_ufjc_lennard_jones_thermodynamics_isometric_asymptotic_reduced_legendre_nondimensional_relative_helmholtz_free_energy number_of_links nondimensional_link_stiffness nondimensional_end_to_end_length_per_link) |}.

(* /repo/src/physics/single_chain/ufjc/lennard_jones/thermodynamics/isometric/asymptotic/reduced/legendre/ex.rs:47-50 *)
Definition physics_single_chain_ufjc_lennard_jones_thermodynamics_isometric_asymptotic_reduced_legendre_nondimensional_relative_helmholtz_free_energy_per_link : symbol T :=
  {| sig := [Float64; Float64];
     body := fun nondimensional_link_stiffness nondimensional_end_to_end_length_per_link =>
       Some (extern.physics_single_chain_ufjc_lennard_jones_thermodynamics_isometric_asymptotic_reduced_legendre_nondimensional_relative_helmholtz_free_energy_per_link nondimensional_link_stiffness nondimensional_end_to_end_length_per_link) |}.

(* /repo/src/physics/single_chain/ufjc/lennard_jones/thermodynamics/isotensional/ex.rs:2-5 *)
Definition physics_single_chain_ufjc_lennard_jones_thermodynamics_isotensional_end_to_end_length : symbol T :=
  {| sig := [UInt8; Float64; Float64; Float64; Float64];
     body := fun number_of_links link_length link_stiffness force temperature =>
       Some (extern.physics_single_chain_ufjc_lennard_jones_thermodynamics_isotensional_end_to_end_length number_of_links link_length link_stiffness force temperature) |}.

(* /repo/src/physics/single_chain/ufjc/lennard_jones/thermodynamics/isotensional/ex.rs:7-10 *)
Definition physics_single_chain_ufjc_lennard_jones_thermodynamics_isotensional_end_to_end_length_per_link : symbol T :=
  {| sig := [Float64; Float64; Float64; Float64];
     body := fun link_length link_stiffness force temperature =>
       Some (extern.physics_single_chain_ufjc_lennard_jones_thermodynamics_isotensional_end_to_end_length_per_link link_length link_stiffness force temperature) |}.

(* /repo/src/physics/single_chain/ufjc/lennard_jones/thermodynamics/isotensional/ex.rs:12-15 *)
Definition physics_single_chain_ufjc_lennard_jones_thermodynamics_isotensional_nondimensional_end_to_end_length : symbol T :=
  {| sig := [UInt8; Float64; Float64];
     body := fun number_of_links nondimensional_link_stiffness nondimensional_force =>
       Some (extern.physics_single_chain_ufjc_lennard_jones_thermodynamics_isotensional_nondimensional_end_to_end_length number_of_links nondimensional_link_stiffness nondimensional_force) |}.

(* /repo/src/physics/single_chain/ufjc/lennard_jones/thermodynamics/isotensional/ex.rs:17-20 *)
Definition physics_single_chain_ufjc_lennard_jones_thermodynamics_isotensional_nondimensional_end_to_end_length_per_link : symbol T :=
  {| sig := [Float64; Float64];
     body := fun nondimensional_link_stiffness nondimensional_force =>
       Some (extern.physics_single_chain_ufjc_lennard_jones_thermodynamics_isotensional_nondimensional_end_to_end_length_per_link nondimensional_link_stiffness nondimensional_force) |}.

(* /repo/src/physics/single_chain/ufjc/lennard_jones/thermodynamics/isotensional/ex.rs:22-25 *)
Definition physics_single_chain_ufjc_lennard_jones_thermodynamics_isotensional_gibbs_free_energy : symbol T :=
  {| sig := [UInt8; Float64; Float64; Float64; Float64; Float64];
     body := fun number_of_links link_length hinge_mass link_stiffness force temperature =>
       Some (extern.physics_single_chain_ufjc_lennard_jones_thermodynamics_isotensional_gibbs_free_energy number_of_links link_length hinge_mass link_stiffness force temperature) |}.

(* /repo/src/physics/single_chain/ufjc/lennard_jones/thermodynamics/isotensional/ex.rs:27-30 *)
Definition physics_single_chain_ufjc_lennard_jones_thermodynamics_isotensional_gibbs_free_energy_per_link : symbol T :=
  {| sig := [Float64; Float64; Float64; Float64; Float64];
     body := fun link_length hinge_mass link_stiffness force temperature =>
       Some (extern.physics_single_chain_ufjc_lennard_jones_thermodynamics_isotensional_gibbs_free_energy_per_link link_length hinge_mass link_stiffness force temperature) |}.

(* /repo/src/physics/single_chain/ufjc/lennard_jones/thermodynamics/isotensional/ex.rs:32-35 *)
Definition physics_single_chain_ufjc_lennard_jones_thermodynamics_isotensional_relative_gibbs_free_energy : symbol T :=
  {| sig := [UInt8; Float64; Float64; Float64; Float64];
     body := fun number_of_links link_length link_stiffness force temperature =>
       Some (extern.physics_single_chain_ufjc_lennard_jones_thermodynamics_isotensional_relative_gibbs_free_energy number_of_links link_length link_stiffness force temperature) |}.

(* /repo/src/physics/single_chain/ufjc/lennard_jones/thermodynamics/isotensional/ex.rs:37-40 *)
Definition physics_single_chain_ufjc_lennard_jones_thermodynamics_isotensional_relative_gibbs_free_energy_per_link : symbol T :=
  {| sig := [Float64; Float64; Float64; Float64];
     body := fun link_length link_stiffness force temperature =>
       Some (extern.physics_single_chain_ufjc_lennard_jones_thermodynamics_isotensional_relative_gibbs_free_energy_per_link link_length link_stiffness force temperature) |}.

(* /repo/src/physics/single_chain/ufjc/lennard_jones/thermodynamics/isotensional/ex.rs:42-45 *)
Definition physics_single_chain_ufjc_lennard_jones_thermodynamics_isotensional_nondimensional_gibbs_free_energy : symbol T :=
  {| sig := [UInt8; Float64; Float64; Float64; Float64; Float64];
     body := fun number_of_links link_length hinge_mass nondimensional_link_stiffness nondimensional_force temperature =>
       Some (extern.physics_single_chain_ufjc_lennard_jones_thermodynamics_isotensional_nondimensional_gibbs_free_energy number_of_links link_length hinge_mass nondimensional_link_stiffness nondimensional_force temperature) |}.

(* /repo/src/physics/single_chain/ufjc/lennard_jones/thermodynamics/isotensional/ex.rs:47-50 *)
Definition physics_single_chain_ufjc_lennard_jones_thermodynamics_isotensional_nondimensional_gibbs_free_energy_per_link : symbol T :=
  {| sig := [Float64; Float64; Float64; Float64; Float64];
     body := fun link_length hinge_mass nondimensional_link_stiffness nondimensional_force temperature =>
       Some (extern.physics_single_chain_ufjc_lennard_jones_thermodynamics_isotensional_nondimensional_gibbs_free_energy_per_link link_length hinge_mass nondimensional_link_stiffness nondimensional_force temperature) |}.

(* /repo/src/physics/single_chain/ufjc/lennard_jones/thermodynamics/isotensional/ex.rs:52-55 *)
Definition physics_single_chain_ufjc_lennard_jones_thermodynamics_isotensional_nondimensional_relative_gibbs_free_energy : symbol T :=
  {| sig := [UInt8; Float64; Float64];
     body := fun number_of_links nondimensional_link_stiffness nondimensional_force =>
       Some (extern.physics_single_chain_ufjc_lennard_jones_thermodynamics_isotensional_nondimensional_relative_gibbs_free_energy number_of_links nondimensional_link_stiffness nondimensional_force) |}.

(* /repo/src/physics/single_chain/ufjc/lennard_jones/thermodynamics/isotensional/ex.rs:57-60 *)
Definition physics_single_chain_ufjc_lennard_jones_thermodynamics_isotensional_nondimensional_relative_gibbs_free_energy_per_link : symbol T :=
  {| sig := [Float64; Float64];
     body := fun nondimensional_link_stiffness nondimensional_force =>
       Some (extern.physics_single_chain_ufjc_lennard_jones_thermodynamics_isotensional_nondimensional_relative_gibbs_free_energy_per_link nondimensional_link_stiffness nondimensional_force) |}.

(* /repo/src/physics/single_chain/ufjc/lennard_jones/thermodynamics/isotensional/asymptotic/ex.rs:2-5 *)
Definition physics_single_chain_ufjc_lennard_jones_thermodynamics_isotensional_asymptotic_end_to_end_length : symbol T :=
  {| sig := [UInt8; Float64; Float64; Float64; Float64];
     body := fun number_of_links link_length link_stiffness force temperature =>
       Some (extern.physics_single_chain_ufjc_lennard_jones_thermodynamics_isotensional_asymptotic_end_to_end_length number_of_links link_length link_stiffness force temperature) |}.

(* /repo/src/physics/single_chain/ufjc/lennard_jones/thermodynamics/isotensional/asymptotic/ex.rs:7-10 *)
Definition physics_single_chain_ufjc_lennard_jones_thermodynamics_isotensional_asymptotic_end_to_end_length_per_link : symbol T :=
  {| sig := [Float64; Float64; Float64; Float64];
     body := fun link_length link_stiffness force temperature =>
       Some (extern.physics_single_chain_ufjc_lennard_jones_thermodynamics_isotensional_asymptotic_end_to_end_length_per_link link_length link_stiffness force temperature) |}.

(* /repo/src/physics/single_chain/ufjc/lennard_jones/thermodynamics/isotensional/asymptotic/ex.rs:12-15 *)
Definition physics_single_chain_ufjc_lennard_jones_thermodynamics_isotensional_asymptotic_nondimensional_end_to_end_length : symbol T :=
  {| sig := [UInt8; Float64; Float64];
     body := fun number_of_links nondimensional_link_stiffness nondimensional_force =>
       Some (extern.physics_single_chain_ufjc_lennard_jones_thermodynamics_isotensional_asymptotic_nondimensional_end_to_end_length number_of_links nondimensional_link_stiffness nondimensional_force) |}.

(* /repo/src/physics/single_chain/ufjc/lennard_jones/thermodynamics/isotensional/asymptotic/ex.rs:17-20 *)
Definition physics_single_chain_ufjc_lennard_jones_thermodynamics_isotensional_asymptotic_nondimensional_end_to_end_length_per_link : symbol T :=
  {| sig := [Float64; Float64];
     body := fun nondimensional_link_stiffness nondimensional_force =>
       Some (extern.physics_single_chain_ufjc_lennard_jones_thermodynamics_isotensional_asymptotic_nondimensional_end_to_end_length_per_link nondimensional_link_stiffness nondimensional_force) |}.

(* /repo/src/physics/single_chain/ufjc/lennard_jones/thermodynamics/isotensional/asymptotic/ex.rs:22-25 *)
Definition physics_single_chain_ufjc_lennard_jones_thermodynamics_isotensional_asymptotic_gibbs_free_energy : symbol T :=
  {| sig := [UInt8; Float64; Float64; Float64; Float64; Float64];
     body := fun number_of_links link_length hinge_mass link_stiffness force temperature =>
       Some (extern.physics_single_chain_ufjc_lennard_jones_thermodynamics_isotensional_asymptotic_gibbs_free_energy number_of_links link_length hinge_mass link_stiffness force temperature) |}.

(* /repo/src/physics/single_chain/ufjc/lennard_jones/thermodynamics/isotensional/asymptotic/ex.rs:27-30 *)
Definition physics_single_chain_ufjc_lennard_jones_thermodynamics_isotensional_asymptotic_gibbs_free_energy_per_link : symbol T :=
  {| sig := [Float64; Float64; Float64; Float64; Float64];
     body := fun link_length hinge_mass link_stiffness force temperature =>
       Some (extern.physics_single_chain_ufjc_lennard_jones_thermodynamics_isotensional_asymptotic_gibbs_free_energy_per_link link_length hinge_mass link_stiffness force temperature) |}.

(* /repo/src/physics/single_chain/ufjc/lennard_jones/thermodynamics/isotensional/asymptotic/ex.rs:32-35 *)
Definition physics_single_chain_ufjc_lennard_jones_thermodynamics_isotensional_asymptotic_relative_gibbs_free_energy : symbol T :=
  {| sig := [UInt8; Float64; Float64; Float64; Float64];
     body := fun number_of_links link_length link_stiffness force temperature =>
       Some (extern.physics_single_chain_ufjc_lennard_jones_thermodynamics_isotensional_asymptotic_relative_gibbs_free_energy number_of_links link_length link_stiffness force temperature) |}.

(* /repo/src/physics/single_chain/ufjc/lennard_jones/thermodynamics/isotensional/asymptotic/ex.rs:37-40 *)
Definition physics_single_chain_ufjc_lennard_jones_thermodynamics_isotensional_asymptotic_relative_gibbs_free_energy_per_link : symbol T :=
  {| sig := [Float64; Float64; Float64; Float64];
     body := fun link_length link_stiffness force temperature =>
       Some (extern.physics_single_chain_ufjc_lennard_jones_thermodynamics_isotensional_asymptotic_relative_gibbs_free_energy_per_link link_length link_stiffness force temperature) |}.

(* /repo/src/physics/single_chain/ufjc/lennard_jones/thermodynamics/isotensional/asymptotic/ex.rs:42-45 *)
Definition physics_single_chain_ufjc_lennard_jones_thermodynamics_isotensional_asymptotic_nondimensional_gibbs_free_energy : symbol T :=
  {| sig := [UInt8; Float64; Float64; Float64; Float64; Float64];
     body := fun number_of_links link_length hinge_mass nondimensional_link_stiffness nondimensional_force temperature =>
       Some (extern.physics_single_chain_ufjc_lennard_jones_thermodynamics_isotensional_asymptotic_nondimensional_gibbs_free_energy number_of_links link_length hinge_mass nondimensional_link_stiffness nondimensional_force temperature) |}.

(* /repo/src/physics/single_chain/ufjc/lennard_jones/thermodynamics/isotensional/asymptotic/ex.rs:47-50 *)
Definition physics_single_chain_ufjc_lennard_jones_thermodynamics_isotensional_asymptotic_nondimensional_gibbs_free_energy_per_link : symbol T :=
  {| sig := [Float64; Float64; Float64; Float64; Float64];
     body := fun link_length hinge_mass nondimensional_link_stiffness nondimensional_force temperature =>
       Some (extern.physics_single_chain_ufjc_lennard_jones_thermodynamics_isotensional_asymptotic_nondimensional_gibbs_free_energy_per_link link_length hinge_mass nondimensional_link_stiffness nondimensional_force temperature) |}.

(* /repo/src/physics/single_chain/ufjc/lennard_jones/thermodynamics/isotensional/asymptotic/ex.rs:52-55 *)
Definition physics_single_chain_ufjc_lennard_jones_thermodynamics_isotensional_asymptotic_nondimensional_relative_gibbs_free_energy : symbol T :=
  {| sig := [UInt8; Float64; Float64];
     body := fun number_of_links nondimensional_link_stiffness nondimensional_force =>
       Some (extern.physics_single_chain_ufjc_lennard_jones_thermodynamics_isotensional_asymptotic_nondimensional_relative_gibbs_free_energy number_of_links nondimensional_link_stiffness nondimensional_force) |}.

(* /repo/src/physics/single_chain/ufjc/lennard_jones/thermodynamics/isotensional/asymptotic/ex.rs:57-60 *)
Definition physics_single_chain_ufjc_lennard_jones_thermodynamics_isotensional_asymptotic_nondimensional_relative_gibbs_free_energy_per_link : symbol T :=
  {| sig := [Float64; Float64];
     body := fun nondimensional_link_stiffness nondimensional_force =>
       Some (extern.physics_single_chain_ufjc_lennard_jones_thermodynamics_isotensional_asymptotic_nondimensional_relative_gibbs_free_energy_per_link nondimensional_link_stiffness nondimensional_force) |}.

(* /repo/src/physics/single_chain/ufjc/lennard_jones/thermodynamics/isotensional/asymptotic/legendre/ex.rs:2-5 *)
Definition physics_single_chain_ufjc_lennard_jones_thermodynamics_isotensional_asymptotic_legendre_helmholtz_free_energy : symbol T :=
  {| sig := [UInt8; Float64; Float64; Float64; Float64; Float64];
     body := fun number_of_links link_length hinge_mass link_stiffness force temperature =>
       Some (extern.physics_single_chain_ufjc_lennard_jones_thermodynamics_isotensional_asymptotic_legendre_helmholtz_free_energy number_of_links link_length hinge_mass link_stiffness force temperature) |}.

(* /repo/src/physics/single_chain/ufjc/lennard_jones/thermodynamics/isotensional/asymptotic/legendre/ex.rs:7-10 *)
Definition physics_single_chain_ufjc_lennard_jones_thermodynamics_isotensional_asymptotic_legendre_helmholtz_free_energy_per_link : symbol T :=
  {| sig := [Float64; Float64; Float64; Float64; Float64];
     body := fun link_length hinge_mass link_stiffness force temperature =>
       Some (extern.physics_single_chain_ufjc_lennard_jones_thermodynamics_isotensional_asymptotic_legendre_helmholtz_free_energy_per_link link_length hinge_mass link_stiffness force temperature) |}.

(* /repo/src/physics/single_chain/ufjc/lennard_jones/thermodynamics/isotensional/asymptotic/legendre/ex.rs:12-15 *)
Definition physics_single_chain_ufjc_lennard_jones_thermodynamics_isotensional_asymptotic_legendre_relative_helmholtz_free_energy : symbol T :=
  {| sig := [UInt8; Float64; Float64; Float64; Float64];
     body := fun number_of_links link_length link_stiffness force temperature =>
       Some (extern.physics_single_chain_ufjc_lennard_jones_thermodynamics_isotensional_asymptotic_legendre_relative_helmholtz_free_energy number_of_links link_length link_stiffness force temperature) |}.

(* /repo/src/physics/single_chain/ufjc/lennard_jones/thermodynamics/isotensional/asymptotic/legendre/ex.rs:17-20 *)
Definition physics_single_chain_ufjc_lennard_jones_thermodynamics_isotensional_asymptotic_legendre_relative_helmholtz_free_energy_per_link : symbol T :=
  {| sig := [Float64; Float64; Float64; Float64];
     body := fun link_length link_stiffness force temperature =>
       Some (extern.physics_single_chain_ufjc_lennard_jones_thermodynamics_isotensional_asymptotic_legendre_relative_helmholtz_free_energy_per_link link_length link_stiffness force temperature) |}.

(* /repo/src/physics/single_chain/ufjc/lennard_jones/thermodynamics/isotensional/asymptotic/legendre/ex.rs:22-25 *)
Definition physics_single_chain_ufjc_lennard_jones_thermodynamics_isotensional_asymptotic_legendre_nondimensional_helmholtz_free_energy : symbol T :=
  {| sig := [UInt8; Float64; Float64; Float64; Float64; Float64];
     body := fun number_of_links link_length hinge_mass nondimensional_link_stiffness nondimensional_force temperature =>
       Some (extern.physics_single_chain_ufjc_lennard_jones_thermodynamics_isotensional_asymptotic_legendre_nondimensional_helmholtz_free_energy number_of_links link_length hinge_mass nondimensional_link_stiffness nondimensional_force temperature) |}.

(* /repo/src/physics/single_chain/ufjc/lennard_jones/thermodynamics/isotensional/asymptotic/legendre/ex.rs:27-30 *)
Definition physics_single_chain_ufjc_lennard_jones_thermodynamics_isotensional_asymptotic_legendre_nondimensional_helmholtz_free_energy_per_link : symbol T :=
  {| sig := [Float64; Float64; Float64; Float64; Float64];
     body := fun link_length hinge_mass nondimensional_link_stiffness nondimensional_force temperature =>
       Some (extern.physics_single_chain_ufjc_lennard_jones_thermodynamics_isotensional_asymptotic_legendre_nondimensional_helmholtz_free_energy_per_link link_length hinge_mass nondimensional_link_stiffness nondimensional_force temperature) |}.

(* /repo/src/physics/single_chain/ufjc/lennard_jones/thermodynamics/isotensional/asymptotic/legendre/ex.rs:32-35 *)
Definition physics_single_chain_ufjc_lennard_jones_thermodynamics_isotensional_asymptotic_legendre_nondimensional_relative_helmholtz_free_energy : symbol T :=
  {| sig := [UInt8; Float64; Float64];
     body := fun number_of_links nondimensional_link_stiffness nondimensional_force =>
       Some (extern.physics_single_chain_ufjc_lennard_jones_thermodynamics_isotensional_asymptotic_legendre_nondimensional_relative_helmholtz_free_energy number_of_links nondimensional_link_stiffness nondimensional_force) |}.

(* /repo/src/physics/single_chain/ufjc/lennard_jones/thermodynamics/isotensional/asymptotic/legendre/ex.rs:37-40 *)
Definition physics_single_chain_ufjc_lennard_jones_thermodynamics_isotensional_asymptotic_legendre_nondimensional_relative_helmholtz_free_energy_per_link : symbol T :=
  {| sig := [Float64; Float64];
     body := fun nondimensional_link_stiffness nondimensional_force =>
       Some (extern.physics_single_chain_ufjc_lennard_jones_thermodynamics_isotensional_asymptotic_legendre_nondimensional_relative_helmholtz_free_energy_per_link nondimensional_link_stiffness nondimensional_force) |}.

(* /repo/src/physics/single_chain/ufjc/lennard_jones/thermodynamics/isotensional/asymptotic/reduced/ex.rs:2-5 *)
Definition physics_single_chain_ufjc_lennard_jones_thermodynamics_isotensional_asymptotic_reduced_end_to_end_length : symbol T :=
  {| sig := [UInt8; Float64; Float64; Float64; Float64];
     body := fun number_of_links link_length link_stiffness force temperature =>
       Some (extern.physics_single_chain_ufjc_lennard_jones_thermodynamics_isotensional_asymptotic_reduced_end_to_end_length number_of_links link_length link_stiffness force temperature) |}.

(* /repo/src/physics/single_chain/ufjc/lennard_jones/thermodynamics/isotensional/asymptotic/reduced/ex.rs:7-10 *)
Definition physics_single_chain_ufjc_lennard_jones_thermodynamics_isotensional_asymptotic_reduced_end_to_end_length_per_link : symbol T :=
  {| sig := [Float64; Float64; Float64; Float64];
     body := fun link_length link_stiffness force temperature =>
       Some (extern.physics_single_chain_ufjc_lennard_jones_thermodynamics_isotensional_asymptotic_reduced_end_to_end_length_per_link link_length link_stiffness force temperature) |}.

(* /repo/src/physics/single_chain/ufjc/lennard_jones/thermodynamics/isotensional/asymptotic/reduced/ex.rs:12-15 *)
Definition physics_single_chain_ufjc_lennard_jones_thermodynamics_isotensional_asymptotic_reduced_nondimensional_end_to_end_length : symbol T :=
  {| sig := [UInt8; Float64; Float64];
     body := fun number_of_links nondimensional_link_stiffness nondimensional_force =>
       Some (extern.physics_single_chain_ufjc_lennard_jones_thermodynamics_isotensional_asymptotic_reduced_nondimensional_end_to_end_length number_of_links nondimensional_link_stiffness nondimensional_force) |}.

(* /repo/src/physics/single_chain/ufjc/lennard_jones/thermodynamics/isotensional/asymptotic/reduced/ex.rs:17-20 *)
Definition physics_single_chain_ufjc_lennard_jones_thermodynamics_isotensional_asymptotic_reduced_nondimensional_end_to_end_length_per_link : symbol T :=
  {| sig := [Float64; Float64];
     body := fun nondimensional_link_stiffness nondimensional_force =>
       Some (extern.physics_single_chain_ufjc_lennard_jones_thermodynamics_isotensional_asymptotic_reduced_nondimensional_end_to_end_length_per_link nondimensional_link_stiffness nondimensional_force) |}.

(* /repo/src/physics/single_chain/ufjc/lennard_jones/thermodynamics/isotensional/asymptotic/reduced/ex.rs:22-25 *)
Definition physics_single_chain_ufjc_lennard_jones_thermodynamics_isotensional_asymptotic_reduced_gibbs_free_energy : symbol T :=
  {| sig := [UInt8; Float64; Float64; Float64; Float64; Float64];
     body := fun number_of_links link_length hinge_mass link_stiffness force temperature =>
       Some (extern.physics_single_chain_ufjc_lennard_jones_thermodynamics_isotensional_asymptotic_reduced_gibbs_free_energy number_of_links link_length hinge_mass link_stiffness force temperature) |}.

(* /repo/src/physics/single_chain/ufjc/lennard_jones/thermodynamics/isotensional/asymptotic/reduced/ex.rs:27-30 *)
Definition physics_single_chain_ufjc_lennard_jones_thermodynamics_isotensional_asymptotic_reduced_gibbs_free_energy_per_link : symbol T :=
  {| sig := [Float64; Float64; Float64; Float64; Float64];
     body := fun link_length hinge_mass link_stiffness force temperature =>
       Some (extern.physics_single_chain_ufjc_lennard_jones_thermodynamics_isotensional_asymptotic_reduced_gibbs_free_energy_per_link link_length hinge_mass link_stiffness force temperature) |}.

(* /repo/src/physics/single_chain/ufjc/lennard_jones/thermodynamics/isotensional/asymptotic/reduced/ex.rs:32-35 *)
Definition physics_single_chain_ufjc_lennard_jones_thermodynamics_isotensional_asymptotic_reduced_relative_gibbs_free_energy : symbol T :=
  {| sig := [UInt8; Float64; Float64; Float64; Float64];
     body := fun number_of_links link_length link_stiffness force temperature =>
       Some (extern.physics_single_chain_ufjc_lennard_jones_thermodynamics_isotensional_asymptotic_reduced_relative_gibbs_free_energy number_of_links link_length link_stiffness force temperature) |}.

(* /repo/src/physics/single_chain/ufjc/lennard_jones/thermodynamics/isotensional/asymptotic/reduced/ex.rs:37-40 *)
Definition physics_single_chain_ufjc_lennard_jones_thermodynamics_isotensional_asymptotic_reduced_relative_gibbs_free_energy_per_link : symbol T :=
  {| sig := [Float64; Float64; Float64; Float64];
     body := fun link_length link_stiffness force temperature =>
       Some (extern.physics_single_chain_ufjc_lennard_jones_thermodynamics_isotensional_asymptotic_reduced_relative_gibbs_free_energy_per_link link_length link_stiffness force temperature) |}.

(* /repo/src/physics/single_chain/ufjc/lennard_jones/thermodynamics/isotensional/asymptotic/reduced/ex.rs:42-45 *)
Definition physics_single_chain_ufjc_lennard_jones_thermodynamics_isotensional_asymptotic_reduced_nondimensional_gibbs_free_energy : symbol T :=
  {| sig := [UInt8; Float64; Float64; Float64; Float64; Float64];
     body := fun number_of_links link_length hinge_mass nondimensional_link_stiffness nondimensional_force temperature =>
       Some (extern.physics_single_chain_ufjc_lennard_jones_thermodynamics_isotensional_asymptotic_reduced_nondimensional_gibbs_free_energy number_of_links link_length hinge_mass nondimensional_link_stiffness nondimensional_force temperature) |}.

(* /repo/src/physics/single_chain/ufjc/lennard_jones/thermodynamics/isotensional/asymptotic/reduced/ex.rs:47-50 *)
Definition physics_single_chain_ufjc_lennard_jones_thermodynamics_isotensional_asymptotic_reduced_nondimensional_gibbs_free_energy_per_link : symbol T :=
  {| sig := [Float64; Float64; Float64; Float64; Float64];
     body := fun link_length hinge_mass nondimensional_link_stiffness nondimensional_force temperature =>
       Some (extern.physics_single_chain_ufjc_lennard_jones_thermodynamics_isotensional_asymptotic_reduced_nondimensional_gibbs_free_energy_per_link link_length hinge_mass nondimensional_link_stiffness nondimensional_force temperature) |}.

(* /repo/src/physics/single_chain/ufjc/lennard_jones/thermodynamics/isotensional/asymptotic/reduced/ex.rs:52-55 *)
Definition physics_single_chain_ufjc_lennard_jones_thermodynamics_isotensional_asymptotic_reduced_nondimensional_relative_gibbs_free_energy : symbol T :=
  {| sig := [UInt8; Float64; Float64];
     body := fun number_of_links nondimensional_link_stiffness nondimensional_force =>
       Some (extern.physics_single_chain_ufjc_lennard_jones_thermodynamics_isotensional_asymptotic_reduced_nondimensional_relative_gibbs_free_energy number_of_links nondimensional_link_stiffness nondimensional_force) |}.

(* /repo/src/physics/single_chain/ufjc/lennard_jones/thermodynamics/isotensional/asymptotic/reduced/ex.rs:57-60 *)
Definition physics_single_chain_ufjc_lennard_jones_thermodynamics_isotensional_asymptotic_reduced_nondimensional_relative_gibbs_free_energy_per_link : symbol T :=
  {| sig := [Float64; Float64];
     body := fun nondimensional_link_stiffness nondimensional_force =>
       Some (extern.physics_single_chain_ufjc_lennard_jones_thermodynamics_isotensional_asymptotic_reduced_nondimensional_relative_gibbs_free_energy_per_link nondimensional_link_stiffness nondimensional_force) |}.

(* /repo/src/physics/single_chain/ufjc/lennard_jones/thermodynamics/isotensional/asymptotic/reduced/legendre/ex.rs:2-5 *)
Definition physics_single_chain_ufjc_lennard_jones_thermodynamics_isotensional_asymptotic_reduced_legendre_helmholtz_free_energy : symbol T :=
  {| sig := [UInt8; Float64; Float64; Float64; Float64; Float64];
     body := fun number_of_links link_length hinge_mass link_stiffness force temperature =>
       Some (extern.physics_single_chain_ufjc_lennard_jones_thermodynamics_isotensional_asymptotic_reduced_legendre_helmholtz_free_energy number_of_links link_length hinge_mass link_stiffness force temperature) |}.

(* /repo/src/physics/single_chain/ufjc/lennard_jones/thermodynamics/isotensional/asymptotic/reduced/legendre/ex.rs:7-10 *)
Definition physics_single_chain_ufjc_lennard_jones_thermodynamics_isotensional_asymptotic_reduced_legendre_helmholtz_free_energy_per_link : symbol T :=
  {| sig := [Float64; Float64; Float64; Float64; Float64];
     body := fun link_length hinge_mass link_stiffness force temperature =>
       Some (extern.physics_single_chain_ufjc_lennard_jones_thermodynamics_isotensional_asymptotic_reduced_legendre_helmholtz_free_energy_per_link link_length hinge_mass link_stiffness force temperature) |}.

(* /repo/src/physics/single_chain/ufjc/lennard_jones/thermodynamics/isotensional/asymptotic/reduced/legendre/ex.rs:12-15 *)
Definition physics_single_chain_ufjc_lennard_jones_thermodynamics_isotensional_asymptotic_reduced_legendre_relative_helmholtz_free_energy : symbol T :=
  {| sig := [UInt8; Float64; Float64; Float64; Float64];
     body := fun number_of_links link_length link_stiffness force temperature =>
       Some (extern.physics_single_chain_ufjc_lennard_jones_thermodynamics_isotensional_asymptotic_reduced_legendre_relative_helmholtz_free_energy number_of_links link_length link_stiffness force temperature) |}.

(* /repo/src/physics/single_chain/ufjc/lennard_jones/thermodynamics/isotensional/asymptotic/reduced/legendre/ex.rs:17-20 *)
Definition physics_single_chain_ufjc_lennard_jones_thermodynamics_isotensional_asymptotic_reduced_legendre_relative_helmholtz_free_energy_per_link : symbol T :=
  {| sig := [Float64; Float64; Float64; Float64];
     body := fun link_length link_stiffness force temperature =>
       Some (extern.physics_single_chain_ufjc_lennard_jones_thermodynamics_isotensional_asymptotic_reduced_legendre_relative_helmholtz_free_energy_per_link link_length link_stiffness force temperature) |}.

(* /repo/src/physics/single_chain/ufjc/lennard_jones/thermodynamics/isotensional/asymptotic/reduced/legendre/ex.rs:22-25 *)
Definition physics_single_chain_ufjc_lennard_jones_thermodynamics_isotensional_asymptotic_reduced_legendre_nondimensional_helmholtz_free_energy : symbol T :=
  {| sig := [UInt8; Float64; Float64; Float64; Float64; Float64];
     body := fun number_of_links link_length hinge_mass nondimensional_link_stiffness nondimensional_force temperature =>
       Some (extern.physics_single_chain_ufjc_lennard_jones_thermodynamics_isotensional_asymptotic_reduced_legendre_nondimensional_helmholtz_free_energy number_of_links link_length hinge_mass nondimensional_link_stiffness nondimensional_force temperature) |}.

(* /repo/src/physics/single_chain/ufjc/lennard_jones/thermodynamics/isotensional/asymptotic/reduced/legendre/ex.rs:27-30 *)
Definition physics_single_chain_ufjc_lennard_jones_thermodynamics_isotensional_asymptotic_reduced_legendre_nondimensional_helmholtz_free_energy_per_link : symbol T :=
  {| sig := [Float64; Float64; Float64; Float64; Float64];
     body := fun link_length hinge_mass nondimensional_link_stiffness nondimensional_force temperature =>
       Some (extern.physics_single_chain_ufjc_lennard_jones_thermodynamics_isotensional_asymptotic_reduced_legendre_nondimensional_helmholtz_free_energy_per_link link_length hinge_mass nondimensional_link_stiffness nondimensional_force temperature) |}.

(* /repo/src/physics/single_chain/ufjc/lennard_jones/thermodynamics/isotensional/asymptotic/reduced/legendre/ex.rs:32-35 *)
Definition physics_single_chain_ufjc_lennard_jones_thermodynamics_isotensional_asymptotic_reduced_legendre_nondimensional_relative_helmholtz_free_energy : symbol T :=
  {| sig := [UInt8; Float64; Float64];
     body := fun number_of_links nondimensional_link_stiffness nondimensional_force =>
       Some (extern.physics_single_chain_ufjc_lennard_jones_thermodynamics_isotensional_asymptotic_reduced_legendre_nondimensional_relative_helmholtz_free_energy number_of_links nondimensional_link_stiffness nondimensional_force) |}.

(* /repo/src/physics/single_chain/ufjc/lennard_jones/thermodynamics/isotensional/asymptotic/reduced/legendre/ex.rs:37-40 *)
Definition physics_single_chain_ufjc_lennard_jones_thermodynamics_isotensional_asymptotic_reduced_legendre_nondimensional_relative_helmholtz_free_energy_per_link : symbol T :=
  {| sig := [Float64; Float64];
     body := fun nondimensional_link_stiffness nondimensional_force =>
       Some (extern.physics_single_chain_ufjc_lennard_jones_thermodynamics_isotensional_asymptotic_reduced_legendre_nondimensional_relative_helmholtz_free_energy_per_link nondimensional_link_stiffness nondimensional_force) |}.

(* /repo/src/physics/single_chain/ufjc/lennard_jones/thermodynamics/isotensional/legendre/ex.rs:2-5 *)
Definition physics_single_chain_ufjc_lennard_jones_thermodynamics_isotensional_legendre_helmholtz_free_energy : symbol T :=
  {| sig := [UInt8; Float64; Float64; Float64; Float64; Float64];
     body := fun number_of_links link_length hinge_mass link_stiffness force temperature =>
       Some (extern.physics_single_chain_ufjc_lennard_jones_thermodynamics_isotensional_legendre_helmholtz_free_energy number_of_links link_length hinge_mass link_stiffness force temperature) |}.

(* /repo/src/physics/single_chain/ufjc/lennard_jones/thermodynamics/isotensional/legendre/ex.rs:7-10 *)
Definition physics_single_chain_ufjc_lennard_jones_thermodynamics_isotensional_legendre_helmholtz_free_energy_per_link : symbol T :=
  {| sig := [Float64; Float64; Float64; Float64; Float64];
     body := fun link_length hinge_mass link_stiffness force temperature =>
       Some (extern.physics_single_chain_ufjc_lennard_jones_thermodynamics_isotensional_legendre_helmholtz_free_energy_per_link link_length hinge_mass link_stiffness force temperature) |}.

(* /repo/src/physics/single_chain/ufjc/lennard_jones/thermodynamics/isotensional/legendre/ex.rs:12-15 *)
Definition physics_single_chain_ufjc_lennard_jones_thermodynamics_isotensional_legendre_relative_helmholtz_free_energy : symbol T :=
  {| sig := [UInt8; Float64; Float64; Float64; Float64];
     body := fun number_of_links link_length link_stiffness force temperature =>
       Some (extern.physics_single_chain_ufjc_lennard_jones_thermodynamics_isotensional_legendre_relative_helmholtz_free_energy number_of_links link_length link_stiffness force temperature) |}.

(* /repo/src/physics/single_chain/ufjc/lennard_jones/thermodynamics/isotensional/legendre/ex.rs:17-20 *)
Definition physics_single_chain_ufjc_lennard_jones_thermodynamics_isotensional_legendre_relative_helmholtz_free_energy_per_link : symbol T :=
  {| sig := [Float64; Float64; Float64; Float64];
     body := fun link_length link_stiffness force temperature =>
       Some (extern.physics_single_chain_ufjc_lennard_jones_thermodynamics_isotensional_legendre_relative_helmholtz_free_energy_per_link link_length link_stiffness force temperature) |}.

(* /repo/src/physics/single_chain/ufjc/lennard_jones/thermodynamics/isotensional/legendre/ex.rs:22-25 *)
Definition physics_single_chain_ufjc_lennard_jones_thermodynamics_isotensional_legendre_nondimensional_helmholtz_free_energy : symbol T :=
  {| sig := [UInt8; Float64; Float64; Float64; Float64; Float64];
     body := fun number_of_links link_length hinge_mass nondimensional_link_stiffness nondimensional_force temperature =>
       Some (extern.physics_single_chain_ufjc_lennard_jones_thermodynamics_isotensional_legendre_nondimensional_helmholtz_free_energy number_of_links link_length hinge_mass nondimensional_link_stiffness nondimensional_force temperature) |}.

(* /repo/src/physics/single_chain/ufjc/lennard_jones/thermodynamics/isotensional/legendre/ex.rs:27-30 *)
Definition physics_single_chain_ufjc_lennard_jones_thermodynamics_isotensional_legendre_nondimensional_helmholtz_free_energy_per_link : symbol T :=
  {| sig := [Float64; Float64; Float64; Float64; Float64];
     body := fun link_length hinge_mass nondimensional_link_stiffness nondimensional_force temperature =>
       Some (extern.physics_single_chain_ufjc_lennard_jones_thermodynamics_isotensional_legendre_nondimensional_helmholtz_free_energy_per_link link_length hinge_mass nondimensional_link_stiffness nondimensional_force temperature) |}.

(* /repo/src/physics/single_chain/ufjc/lennard_jones/thermodynamics/isotensional/legendre/ex.rs:32-35 *)
Definition physics_single_chain_ufjc_lennard_jones_thermodynamics_isotensional_legendre_nondimensional_relative_helmholtz_free_energy : symbol T :=
  {| sig := [UInt8; Float64; Float64];
     body := fun number_of_links nondimensional_link_stiffness nondimensional_force =>
       Some (extern.physics_single_chain_ufjc_lennard_jones_thermodynamics_isotensional_legendre_nondimensional_relative_helmholtz_free_energy number_of_links nondimensional_link_stiffness nondimensional_force) |}.

(* /repo/src/physics/single_chain/ufjc/lennard_jones/thermodynamics/isotensional/legendre/ex.rs:37-40 *)
Definition physics_single_chain_ufjc_lennard_jones_thermodynamics_isotensional_legendre_nondimensional_relative_helmholtz_free_energy_per_link : symbol T :=
  {| sig := [Float64; Float64];
     body := fun nondimensional_link_stiffness nondimensional_force =>
       Some (extern.physics_single_chain_ufjc_lennard_jones_thermodynamics_isotensional_legendre_nondimensional_relative_helmholtz_free_energy_per_link nondimensional_link_stiffness nondimensional_force) |}.

(* /repo/src/physics/single_chain/ufjc/log_squared/thermodynamics/isometric/asymptotic/legendre/ex.rs:2-5 *)
Definition physics_single_chain_ufjc_log_squared_thermodynamics_isometric_asymptotic_legendre_force : symbol T :=
  {| sig := [UInt8; Float64; Float64; Float64; Float64];
     body := fun number_of_links link_length link_stiffness end_to_end_length temperature =>
       Some (extern.physics_single_chain_ufjc_log_squared_thermodynamics_isometric_asymptotic_legendre_force number_of_links link_length link_stiffness end_to_end_length temperature) |}.

(* /repo/src/physics/single_chain/ufjc/log_squared/thermodynamics/isometric/asymptotic/legendre/ex.rs:7-10 *)
Definition physics_single_chain_ufjc_log_squared_thermodynamics_isometric_asymptotic_legendre_nondimensional_force : symbol T :=
  {| sig := [Float64; Float64];
     body := fun nondimensional_link_stiffness nondimensional_end_to_end_length_per_link =>
       Some (extern.physics_single_chain_ufjc_log_squared_thermodynamics_isometric_asymptotic_legendre_nondimensional_force nondimensional_link_stiffness nondimensional_end_to_end_length_per_link) |}.

(* /repo/src/physics/single_chain/ufjc/log_squared/thermodynamics/isometric/asymptotic/legendre/ex.rs:12-15 *)
Definition physics_single_chain_ufjc_log_squared_thermodynamics_isometric_asymptotic_legendre_helmholtz_free_energy : symbol T :=
  {| sig := [UInt8; Float64; Float64; Float64; Float64; Float64];
     body := fun number_of_links link_length hinge_mass link_stiffness end_to_end_length temperature =>
       Some (extern.physics_single_chain_ufjc_log_squared_thermodynamics_isometric_asymptotic_legendre_helmholtz_free_energy number_of_links link_length hinge_mass link_stiffness end_to_end_length temperature) |}.

(* /repo/src/physics/single_chain/ufjc/log_squared/thermodynamics/isometric/asymptotic/legendre/ex.rs:17-20 *)
Definition physics_single_chain_ufjc_log_squared_thermodynamics_isometric_asymptotic_legendre_helmholtz_free_energy_per_link : symbol T :=
  {| sig := [UInt8; Float64; Float64; Float64; Float64; Float64];
     body := fun number_of_links link_length hinge_mass link_stiffness end_to_end_length temperature =>
       Some (extern.physics_single_chain_ufjc_log_squared_thermodynamics_isometric_asymptotic_legendre_helmholtz_free_energy_per_link number_of_links link_length hinge_mass link_stiffness end_to_end_length temperature) |}.

(* /repo/src/physics/single_chain/ufjc/log_squared/thermodynamics/isometric/asymptotic/legendre/ex.rs:22-25 *)
Definition physics_single_chain_ufjc_log_squared_thermodynamics_isometric_asymptotic_legendre_relative_helmholtz_free_energy : symbol T :=
  {| sig := [UInt8; Float64; Float64; Float64; Float64];
     body := fun number_of_links link_length link_stiffness end_to_end_length temperature =>
       Some (extern.physics_single_chain_ufjc_log_squared_thermodynamics_isometric_asymptotic_legendre_relative_helmholtz_free_energy number_of_links link_length link_stiffness end_to_end_length temperature) |}.

(* /repo/src/physics/single_chain/ufjc/log_squared/thermodynamics/isometric/asymptotic/legendre/ex.rs:27-30 *)
Definition physics_single_chain_ufjc_log_squared_thermodynamics_isometric_asymptotic_legendre_relative_helmholtz_free_energy_per_link : symbol T :=
  {| sig := [UInt8; Float64; Float64; Float64; Float64];
     body := fun number_of_links link_length link_stiffness end_to_end_length temperature =>
       Some (extern.physics_single_chain_ufjc_log_squared_thermodynamics_isometric_asymptotic_legendre_relative_helmholtz_free_energy_per_link number_of_links link_length link_stiffness end_to_end_length temperature) |}.

(* /repo/src/physics/single_chain/ufjc/log_squared/thermodynamics/isometric/asymptotic/legendre/ex.rs:32-35 *)
Definition physics_single_chain_ufjc_log_squared_thermodynamics_isometric_asymptotic_legendre_nondimensional_helmholtz_free_energy : symbol T :=
  {| sig := [UInt8; Float64; Float64; Float64; Float64; Float64];
     body := fun number_of_links link_length hinge_mass nondimensional_link_stiffness nondimensional_end_to_end_length_per_link temperature =>
       Some (extern.physics_single_chain_ufjc_log_squared_thermodynamics_isometric_asymptotic_legendre_nondimensional_helmholtz_free_energy number_of_links link_length hinge_mass nondimensional_link_stiffness nondimensional_end_to_end_length_per_link temperature) |}.

(* /repo/src/physics/single_chain/ufjc/log_squared/thermodynamics/isometric/asymptotic/legendre/ex.rs:37-40 *)
Definition physics_single_chain_ufjc_log_squared_thermodynamics_isometric_asymptotic_legendre_nondimensional_helmholtz_free_energy_per_link : symbol T :=
  {| sig := [UInt8; Float64; Float64; Float64; Float64; Float64];
     body := fun number_of_links link_length hinge_mass nondimensional_link_stiffness nondimensional_end_to_end_length_per_link temperature =>
       Some (extern.physics_single_chain_ufjc_log_squared_thermodynamics_isometric_asymptotic_legendre_nondimensional_helmholtz_free_energy_per_link number_of_links link_length hinge_mass nondimensional_link_stiffness nondimensional_end_to_end_length_per_link temperature) |}.

(* /repo/src/physics/single_chain/ufjc/log_squared/thermodynamics/isometric/asymptotic/legendre/ex.rs:42-45 *)
Definition physics_single_chain_ufjc_log_squared_thermodynamics_isometric_asymptotic_legendre_nondimensional_relative_helmholtz_free_energy : symbol T :=
  {| sig := [UInt8; Float64; Float64];
     body := fun number_of_links nondimensional_link_stiffness nondimensional_end_to_end_length_per_link =>
       Some (extern.physics_single_chain_ufjc_log_squared_thermodynamics_isometric_asymptotic_legendre_nondimensional_relative_helmholtz_free_energy number_of_links nondimensional_link_stiffness nondimensional_end_to_end_length_per_link) |}.

(* /repo/src/physics/single_chain/ufjc/log_squared/thermodynamics/isometric/asymptotic/legendre/ex.rs:47-50 *)
Definition physics_single_chain_ufjc_log_squared_thermodynamics_isometric_asymptotic_legendre_nondimensional_relative_helmholtz_free_energy_per_link : symbol T :=
  {| sig := [Float64; Float64];
     body := fun nondimensional_link_stiffness nondimensional_end_to_end_length_per_link =>
       Some (extern.physics_single_chain_ufjc_log_squared_thermodynamics_isometric_asymptotic_legendre_nondimensional_relative_helmholtz_free_energy_per_link nondimensional_link_stiffness nondimensional_end_to_end_length_per_link) |}.

(* /repo/src/physics/single_chain/ufjc/log_squared/thermodynamics/isometric/asymptotic/reduced/legendre/ex.rs:2-5 *)
Definition physics_single_chain_ufjc_log_squared_thermodynamics_isometric_asymptotic_reduced_legendre_force : symbol T :=
  {| sig := [UInt8; Float64; Float64; Float64; Float64];
     body := fun number_of_links link_length link_stiffness end_to_end_length temperature =>
       Some (extern.physics_single_chain_ufjc_log_squared_thermodynamics_isometric_asymptotic_reduced_legendre_force number_of_links link_length link_stiffness end_to_end_length temperature) |}.

(* /repo/src/physics/single_chain/ufjc/log_squared/thermodynamics/isometric/asymptotic/reduced/legendre/ex.rs:7-10 *)
Definition physics_single_chain_ufjc_log_squared_thermodynamics_isometric_asymptotic_reduced_legendre_nondimensional_force : symbol T :=
  {| sig := [Float64; Float64];
     body := fun nondimensional_link_stiffness nondimensional_end_to_end_length_per_link =>
       Some (extern.physics_single_chain_ufjc_log_squared_thermodynamics_isometric_asymptotic_reduced_legendre_nondimensional_force nondimensional_link_stiffness nondimensional_end_to_end_length_per_link) |}.

(* /repo/src/physics/single_chain/ufjc/log_squared/thermodynamics/isometric/asymptotic/reduced/legendre/ex.rs:12-15 *)
Definition physics_single_chain_ufjc_log_squared_thermodynamics_isometric_asymptotic_reduced_legendre_helmholtz_free_energy : symbol T :=
  {| sig := [UInt8; Float64; Float64; Float64; Float64; Float64];
     body := fun number_of_links link_length hinge_mass link_stiffness end_to_end_length temperature =>
       Some (extern.physics_single_chain_ufjc_log_squared_thermodynamics_isometric_asymptotic_reduced_legendre_helmholtz_free_energy number_of_links link_length hinge_mass link_stiffness end_to_end_length temperature) |}.

(* /repo/src/physics/single_chain/ufjc/log_squared/thermodynamics/isometric/asymptotic/reduced/legendre/ex.rs:17-20 *)
Definition physics_single_chain_ufjc_log_squared_thermodynamics_isometric_asymptotic_reduced_legendre_helmholtz_free_energy_per_link : symbol T :=
  {| sig := [UInt8; Float64; Float64; Float64; Float64; Float64];
     body := fun number_of_links link_length hinge_mass link_stiffness end_to_end_length temperature =>
       Some (extern.physics_single_chain_ufjc_log_squared_thermodynamics_isometric_asymptotic_reduced_legendre_helmholtz_free_energy_per_link number_of_links link_length hinge_mass link_stiffness end_to_end_length temperature) |}.

(* /repo/src/physics/single_chain/ufjc/log_squared/thermodynamics/isometric/asymptotic/reduced/legendre/ex.rs:22-25 *)
Definition physics_single_chain_ufjc_log_squared_thermodynamics_isometric_asymptotic_reduced_legendre_relative_helmholtz_free_energy : symbol T :=
  {| sig := [UInt8; Float64; Float64; Float64; Float64];
     body := fun number_of_links link_length link_stiffness end_to_end_length temperature =>
       Some (extern.physics_single_chain_ufjc_log_squared_thermodynamics_isometric_asymptotic_reduced_legendre_relative_helmholtz_free_energy number_of_links link_length link_stiffness end_to_end_length temperature) |}.

(* /repo/src/physics/single_chain/ufjc/log_squared/thermodynamics/isometric/asymptotic/reduced/legendre/ex.rs:27-30 *)
Definition physics_single_chain_ufjc_log_squared_thermodynamics_isometric_asymptotic_reduced_legendre_relative_helmholtz_free_energy_per_link : symbol T :=
  {| sig := [UInt8; Float64; Float64; Float64; Float64];
     body := fun number_of_links link_length link_stiffness end_to_end_length temperature =>
       Some (extern.physics_single_chain_ufjc_log_squared_thermodynamics_isometric_asymptotic_reduced_legendre_relative_helmholtz_free_energy_per_link number_of_links link_length link_stiffness end_to_end_length temperature) |}.

(* /repo/src/physics/single_chain/ufjc/log_squared/thermodynamics/isometric/asymptotic/reduced/legendre/ex.rs:32-35 *)
Definition physics_single_chain_ufjc_log_squared_thermodynamics_isometric_asymptotic_reduced_legendre_nondimensional_helmholtz_free_energy : symbol T :=
  {| sig := [UInt8; Float64; Float64; Float64; Float64; Float64];
     body := fun number_of_links link_length hinge_mass nondimensional_link_stiffness nondimensional_end_to_end_length_per_link temperature =>
       Some (extern.physics_single_chain_ufjc_log_squared_thermodynamics_isometric_asymptotic_reduced_legendre_nondimensional_helmholtz_free_energy number_of_links link_length hinge_mass nondimensional_link_stiffness nondimensional_end_to_end_length_per_link temperature) |}.

(* /repo/src/physics/single_chain/ufjc/log_squared/thermodynamics/isometric/asymptotic/reduced/legendre/ex.rs:37-40 *)
Definition physics_single_chain_ufjc_log_squared_thermodynamics_isometric_asymptotic_reduced_legendre_nondimensional_helmholtz_free_energy_per_link : symbol T :=
  {| sig := [UInt8; Float64; Float64; Float64; Float64; Float64];
     body := fun number_of_links link_length hinge_mass nondimensional_link_stiffness nondimensional_end_to_end_length_per_link temperature =>
       Some (extern.physics_single_chain_ufjc_log_squared_thermodynamics_isometric_asymptotic_reduced_legendre_nondimensional_helmholtz_free_energy_per_link number_of_links link_length hinge_mass nondimensional_link_stiffness nondimensional_end_to_end_length_per_link temperature) |}.

(* /repo/src/physics/single_chain/ufjc/log_squared/thermodynamics/isometric/asymptotic/reduced/legendre/ex.rs:42-45 *)
Definition physics_single_chain_ufjc_log_squared_thermodynamics_isometric_asymptotic_reduced_legendre_nondimensional_relative_helmholtz_free_energy : symbol T :=
  {| sig := [UInt8; Float64; Float64];
     body := fun number_of_links nondimensional_link_stiffness nondimensional_end_to_end_length_per_link =>
       Some (extern.physics_single_chain_ufjc_log_squared_thermodynamics_isometric_asymptotic_reduced_legendre_nondimensional_relative_helmholtz_free_energy number_of_links nondimensional_link_stiffness nondimensional_end_to_end_length_per_link) |}.

(* /repo/src/physics/single_chain/ufjc/log_squared/thermodynamics/isometric/asymptotic/reduced/legendre/ex.rs:47-50 *)
Definition physics_single_chain_ufjc_log_squared_thermodynamics_isometric_asymptotic_reduced_legendre_nondimensional_relative_helmholtz_free_energy_per_link : symbol T :=
  {| sig := [Float64; Float64];
     body := fun nondimensional_link_stiffness nondimensional_end_to_end_length_per_link =>
       Some (extern.physics_single_chain_ufjc_log_squared_thermodynamics_isometric_asymptotic_reduced_legendre_nondimensional_relative_helmholtz_free_energy_per_link nondimensional_link_stiffness nondimensional_end_to_end_length_per_link) |}.

(* /repo/src/physics/single_chain/ufjc/log_squared/thermodynamics/isotensional/ex.rs:2-5 *)
Definition physics_single_chain_ufjc_log_squared_thermodynamics_isotensional_end_to_end_length : symbol T :=
  {| sig := [UInt8; Float64; Float64; Float64; Float64];
     body := fun number_of_links link_length link_stiffness force temperature =>
       Some (extern.physics_single_chain_ufjc_log_squared_thermodynamics_isotensional_end_to_end_length number_of_links link_length link_stiffness force temperature) |}.

(* /repo/src/physics/single_chain/ufjc/log_squared/thermodynamics/isotensional/ex.rs:7-10 *)
Definition physics_single_chain_ufjc_log_squared_thermodynamics_isotensional_end_to_end_length_per_link : symbol T :=
  {| sig := [Float64; Float64; Float64; Float64];
     body := fun link_length link_stiffness force temperature =>
       Some (extern.physics_single_chain_ufjc_log_squared_thermodynamics_isotensional_end_to_end_length_per_link link_length link_stiffness force temperature) |}.

(* /repo/src/physics/single_chain/ufjc/log_squared/thermodynamics/isotensional/ex.rs:12-15 *)
Definition physics_single_chain_ufjc_log_squared_thermodynamics_isotensional_nondimensional_end_to_end_length : symbol T :=
  {| sig := [UInt8; Float64; Float64];
     body := fun number_of_links nondimensional_link_stiffness nondimensional_force =>
       Some (extern.physics_single_chain_ufjc_log_squared_thermodynamics_isotensional_nondimensional_end_to_end_length number_of_links nondimensional_link_stiffness nondimensional_force) |}.

(* /repo/src/physics/single_chain/ufjc/log_squared/thermodynamics/isotensional/ex.rs:17-20 *)
Definition physics_single_chain_ufjc_log_squared_thermodynamics_isotensional_nondimensional_end_to_end_length_per_link : symbol T :=
  {| sig := [Float64; Float64];
     body := fun nondimensional_link_stiffness nondimensional_force =>
       Some (extern.physics_single_chain_ufjc_log_squared_thermodynamics_isotensional_nondimensional_end_to_end_length_per_link nondimensional_link_stiffness nondimensional_force) |}.

(* /repo/src/physics/single_chain/ufjc/log_squared/thermodynamics/isotensional/ex.rs:22-25 *)
Definition physics_single_chain_ufjc_log_squared_thermodynamics_isotensional_gibbs_free_energy : symbol T :=
  {| sig := [UInt8; Float64; Float64; Float64; Float64; Float64];
     body := fun number_of_links link_length hinge_mass link_stiffness force temperature =>
       Some (extern.physics_single_chain_ufjc_log_squared_thermodynamics_isotensional_gibbs_free_energy number_of_links link_length hinge_mass link_stiffness force temperature) |}.

(* /repo/src/physics/single_chain/ufjc/log_squared/thermodynamics/isotensional/ex.rs:27-30 *)
Definition physics_single_chain_ufjc_log_squared_thermodynamics_isotensional_gibbs_free_energy_per_link : symbol T :=
  {| sig := [Float64; Float64; Float64; Float64; Float64];
     body := fun link_length hinge_mass link_stiffness force temperature =>
       Some (extern.physics_single_chain_ufjc_log_squared_thermodynamics_isotensional_gibbs_free_energy_per_link link_length hinge_mass link_stiffness force temperature) |}.

(* /repo/src/physics/single_chain/ufjc/log_squared/thermodynamics/isotensional/ex.rs:32-35 *)
Definition physics_single_chain_ufjc_log_squared_thermodynamics_isotensional_relative_gibbs_free_energy : symbol T :=
  {| sig := [UInt8; Float64; Float64; Float64; Float64];
     body := fun number_of_links link_length link_stiffness force temperature =>
       Some (extern.physics_single_chain_ufjc_log_squared_thermodynamics_isotensional_relative_gibbs_free_energy number_of_links link_length link_stiffness force temperature) |}.

(* /repo/src/physics/single_chain/ufjc/log_squared/thermodynamics/isotensional/ex.rs:37-40 *)
Definition physics_single_chain_ufjc_log_squared_thermodynamics_isotensional_relative_gibbs_free_energy_per_link : symbol T :=
  {| sig := [Float64; Float64; Float64; Float64];
     body := fun link_length link_stiffness force temperature =>
       Some (extern.physics_single_chain_ufjc_log_squared_thermodynamics_isotensional_relative_gibbs_free_energy_per_link link_length link_stiffness force temperature) |}.

(* /repo/src/physics/single_chain/ufjc/log_squared/thermodynamics/isotensional/ex.rs:42-45 *)
Definition physics_single_chain_ufjc_log_squared_thermodynamics_isotensional_nondimensional_gibbs_free_energy : symbol T :=
  {| sig := [UInt8; Float64; Float64; Float64; Float64; Float64];
     body := fun number_of_links link_length hinge_mass nondimensional_link_stiffness nondimensional_force temperature =>
       Some (extern.physics_single_chain_ufjc_log_squared_thermodynamics_isotensional_nondimensional_gibbs_free_energy number_of_links link_length hinge_mass nondimensional_link_stiffness nondimensional_force temperature) |}.

(* /repo/src/physics/single_chain/ufjc/log_squared/thermodynamics/isotensional/ex.rs:47-50 *)
Definition physics_single_chain_ufjc_log_squared_thermodynamics_isotensional_nondimensional_gibbs_free_energy_per_link : symbol T :=
  {| sig := [Float64; Float64; Float64; Float64; Float64];
     body := fun link_length hinge_mass nondimensional_link_stiffness nondimensional_force temperature =>
       Some (extern.physics_single_chain_ufjc_log_squared_thermodynamics_isotensional_nondimensional_gibbs_free_energy_per_link link_length hinge_mass nondimensional_link_stiffness nondimensional_force temperature) |}.

(* /repo/src/physics/single_chain/ufjc/log_squared/thermodynamics/isotensional/ex.rs:52-55 *)
Definition physics_single_chain_ufjc_log_squared_thermodynamics_isotensional_nondimensional_relative_gibbs_free_energy : symbol T :=
  {| sig := [UInt8; Float64; Float64];
     body := fun number_of_links nondimensional_link_stiffness nondimensional_force =>
       Some (extern.physics_single_chain_ufjc_log_squared_thermodynamics_isotensional_nondimensional_relative_gibbs_free_energy number_of_links nondimensional_link_stiffness nondimensional_force) |}.

(* /repo/src/physics/single_chain/ufjc/log_squared/thermodynamics/isotensional/ex.rs:57-60 *)
Definition physics_single_chain_ufjc_log_squared_thermodynamics_isotensional_nondimensional_relative_gibbs_free_energy_per_link : symbol T :=
  {| sig := [Float64; Float64];
     body := fun nondimensional_link_stiffness nondimensional_force =>
       Some (extern.physics_single_chain_ufjc_log_squared_thermodynamics_isotensional_nondimensional_relative_gibbs_free_energy_per_link nondimensional_link_stiffness nondimensional_force) |}.

(* /repo/src/physics/single_chain/ufjc/log_squared/thermodynamics/isotensional/asymptotic/ex.rs:2-5 *)
Definition physics_single_chain_ufjc_log_squared_thermodynamics_isotensional_asymptotic_end_to_end_length : symbol T :=
  {| sig := [UInt8; Float64; Float64; Float64; Float64];
     body := fun number_of_links link_length link_stiffness force temperature =>
       Some (extern.physics_single_chain_ufjc_log_squared_thermodynamics_isotensional_asymptotic_end_to_end_length number_of_links link_length link_stiffness force temperature) |}.

(* /repo/src/physics/single_chain/ufjc/log_squared/thermodynamics/isotensional/asymptotic/ex.rs:7-10 *)
Definition physics_single_chain_ufjc_log_squared_thermodynamics_isotensional_asymptotic_end_to_end_length_per_link : symbol T :=
  {| sig := [Float64; Float64; Float64; Float64];
     body := fun link_length link_stiffness force temperature =>
       Some (extern.physics_single_chain_ufjc_log_squared_thermodynamics_isotensional_asymptotic_end_to_end_length_per_link link_length link_stiffness force temperature) |}.

(* /repo/src/physics/single_chain/ufjc/log_squared/thermodynamics/isotensional/asymptotic/ex.rs:12-15 *)
Definition physics_single_chain_ufjc_log_squared_thermodynamics_isotensional_asymptotic_nondimensional_end_to_end_length : symbol T :=
  {| sig := [UInt8; Float64; Float64];
     body := fun number_of_links nondimensional_link_stiffness nondimensional_force =>
       Some (extern.physics_single_chain_ufjc_log_squared_thermodynamics_isotensional_asymptotic_nondimensional_end_to_end_length number_of_links nondimensional_link_stiffness nondimensional_force) |}.

(* /repo/src/physics/single_chain/ufjc/log_squared/thermodynamics/isotensional/asymptotic/ex.rs:17-20 *)
Definition physics_single_chain_ufjc_log_squared_thermodynamics_isotensional_asymptotic_nondimensional_end_to_end_length_per_link : symbol T :=
  {| sig := [Float64; Float64];
     body := fun nondimensional_link_stiffness nondimensional_force =>
       Some (extern.physics_single_chain_ufjc_log_squared_thermodynamics_isotensional_asymptotic_nondimensional_end_to_end_length_per_link nondimensional_link_stiffness nondimensional_force) |}.

(* /repo/src/physics/single_chain/ufjc/log_squared/thermodynamics/isotensional/asymptotic/ex.rs:22-25 *)
Definition physics_single_chain_ufjc_log_squared_thermodynamics_isotensional_asymptotic_gibbs_free_energy : symbol T :=
  {| sig := [UInt8; Float64; Float64; Float64; Float64; Float64];
     body := fun number_of_links link_length hinge_mass link_stiffness force temperature =>
       Some (extern.physics_single_chain_ufjc_log_squared_thermodynamics_isotensional_asymptotic_gibbs_free_energy number_of_links link_length hinge_mass link_stiffness force temperature) |}.

(* /repo/src/physics/single_chain/ufjc/log_squared/thermodynamics/isotensional/asymptotic/ex.rs:27-30 *)
Definition physics_single_chain_ufjc_log_squared_thermodynamics_isotensional_asymptotic_gibbs_free_energy_per_link : symbol T :=
  {| sig := [Float64; Float64; Float64; Float64; Float64];
     body := fun link_length hinge_mass link_stiffness force temperature =>
       Some (extern.physics_single_chain_ufjc_log_squared_thermodynamics_isotensional_asymptotic_gibbs_free_energy_per_link link_length hinge_mass link_stiffness force temperature) |}.

(* /repo/src/physics/single_chain/ufjc/log_squared/thermodynamics/isotensional/asymptotic/ex.rs:32-35 *)
Definition physics_single_chain_ufjc_log_squared_thermodynamics_isotensional_asymptotic_relative_gibbs_free_energy : symbol T :=
  {| sig := [UInt8; Float64; Float64; Float64; Float64];
     body := fun number_of_links link_length link_stiffness force temperature =>
       Some (extern.physics_single_chain_ufjc_log_squared_thermodynamics_isotensional_asymptotic_relative_gibbs_free_energy number_of_links link_length link_stiffness force temperature) |}.

(* /repo/src/physics/single_chain/ufjc/log_squared/thermodynamics/isotensional/asymptotic/ex.rs:37-40 *)
Definition physics_single_chain_ufjc_log_squared_thermodynamics_isotensional_asymptotic_relative_gibbs_free_energy_per_link : symbol T :=
  {| sig := [Float64; Float64; Float64; Float64];
     body := fun link_length link_stiffness force temperature =>
       Some (extern.physics_single_chain_ufjc_log_squared_thermodynamics_isotensional_asymptotic_relative_gibbs_free_energy_per_link link_length link_stiffness force temperature) |}.

(* /repo/src/physics/single_chain/ufjc/log_squared/thermodynamics/isotensional/asymptotic/ex.rs:42-45 *)
Definition physics_single_chain_ufjc_log_squared_thermodynamics_isotensional_asymptotic_nondimensional_gibbs_free_energy : symbol T :=
  {| sig := [UInt8; Float64; Float64; Float64; Float64; Float64];
     body := fun number_of_links link_length hinge_mass nondimensional_link_stiffness nondimensional_force temperature =>
       Some (extern.physics_single_chain_ufjc_log_squared_thermodynamics_isotensional_asymptotic_nondimensional_gibbs_free_energy number_of_links link_length hinge_mass nondimensional_link_stiffness nondimensional_force temperature) |}.

(* /repo/src/physics/single_chain/ufjc/log_squared/thermodynamics/isotensional/asymptotic/ex.rs:47-50 *)
Definition physics_single_chain_ufjc_log_squared_thermodynamics_isotensional_asymptotic_nondimensional_gibbs_free_energy_per_link : symbol T :=
  {| sig := [Float64; Float64; Float64; Float64; Float64];
     body := fun link_length hinge_mass nondimensional_link_stiffness nondimensional_force temperature =>
       Some (extern.physics_single_chain_ufjc_log_squared_thermodynamics_isotensional_asymptotic_nondimensional_gibbs_free_energy_per_link link_length hinge_mass nondimensional_link_stiffness nondimensional_force temperature) |}.

(* /repo/src/physics/single_chain/ufjc/log_squared/thermodynamics/isotensional/asymptotic/ex.rs:52-55 *)
Definition physics_single_chain_ufjc_log_squared_thermodynamics_isotensional_asymptotic_nondimensional_relative_gibbs_free_energy : symbol T :=
  {| sig := [UInt8; Float64; Float64];
     body := fun number_of_links nondimensional_link_stiffness nondimensional_force =>
       Some (extern.physics_single_chain_ufjc_log_squared_thermodynamics_isotensional_asymptotic_nondimensional_relative_gibbs_free_energy number_of_links nondimensional_link_stiffness nondimensional_force) |}.

(* /repo/src/physics/single_chain/ufjc/log_squared/thermodynamics/isotensional/asymptotic/ex.rs:57-60 *)
Definition physics_single_chain_ufjc_log_squared_thermodynamics_isotensional_asymptotic_nondimensional_relative_gibbs_free_energy_per_link : symbol T :=
  {| sig := [Float64; Float64];
     body := fun nondimensional_link_stiffness nondimensional_force =>
       Some (extern.physics_single_chain_ufjc_log_squared_thermodynamics_isotensional_asymptotic_nondimensional_relative_gibbs_free_energy_per_link nondimensional_link_stiffness nondimensional_force) |}.

(* /repo/src/physics/single_chain/ufjc/log_squared/thermodynamics/isotensional/asymptotic/legendre/ex.rs:2-5 *)
Definition physics_single_chain_ufjc_log_squared_thermodynamics_isotensional_asymptotic_legendre_helmholtz_free_energy : symbol T :=
  {| sig := [UInt8; Float64; Float64; Float64; Float64; Float64];
     body := fun number_of_links link_length hinge_mass link_stiffness force temperature =>
       Some (extern.physics_single_chain_ufjc_log_squared_thermodynamics_isotensional_asymptotic_legendre_helmholtz_free_energy number_of_links link_length hinge_mass link_stiffness force temperature) |}.

(* /repo/src/physics/single_chain/ufjc/log_squared/thermodynamics/isotensional/asymptotic/legendre/ex.rs:7-10 *)
Definition physics_single_chain_ufjc_log_squared_thermodynamics_isotensional_asymptotic_legendre_helmholtz_free_energy_per_link : symbol T :=
  {| sig := [Float64; Float64; Float64; Float64; Float64];
     body := fun link_length hinge_mass link_stiffness force temperature =>
       Some (extern.physics_single_chain_ufjc_log_squared_thermodynamics_isotensional_asymptotic_legendre_helmholtz_free_energy_per_link link_length hinge_mass link_stiffness force temperature) |}.

(* /repo/src/physics/single_chain/ufjc/log_squared/thermodynamics/isotensional/asymptotic/legendre/ex.rs:12-15 *)
Definition physics_single_chain_ufjc_log_squared_thermodynamics_isotensional_asymptotic_legendre_relative_helmholtz_free_energy : symbol T :=
  {| sig := [UInt8; Float64; Float64; Float64; Float64];
     body := fun number_of_links link_length link_stiffness force temperature =>
       Some (extern.physics_single_chain_ufjc_log_squared_thermodynamics_isotensional_asymptotic_legendre_relative_helmholtz_free_energy number_of_links link_length link_stiffness force temperature) |}.

(* /repo/src/physics/single_chain/ufjc/log_squared/thermodynamics/isotensional/asymptotic/legendre/ex.rs:17-20 *)
Definition physics_single_chain_ufjc_log_squared_thermodynamics_isotensional_asymptotic_legendre_relative_helmholtz_free_energy_per_link : symbol T :=
  {| sig := [Float64; Float64; Float64; Float64];
     body := fun link_length link_stiffness force temperature =>
       Some (extern.physics_single_chain_ufjc_log_squared_thermodynamics_isotensional_asymptotic_legendre_relative_helmholtz_free_energy_per_link link_length link_stiffness force temperature) |}.

(* /repo/src/physics/single_chain/ufjc/log_squared/thermodynamics/isotensional/asymptotic/legendre/ex.rs:22-25 *)
Definition physics_single_chain_ufjc_log_squared_thermodynamics_isotensional_asymptotic_legendre_nondimensional_helmholtz_free_energy : symbol T :=
  {| sig := [UInt8; Float64; Float64; Float64; Float64; Float64];
     body := fun number_of_links link_length hinge_mass nondimensional_link_stiffness nondimensional_force temperature =>
       Some (extern.physics_single_chain_ufjc_log_squared_thermodynamics_isotensional_asymptotic_legendre_nondimensional_helmholtz_free_energy number_of_links link_length hinge_mass nondimensional_link_stiffness nondimensional_force temperature) |}.

(* /repo/src/physics/single_chain/ufjc/log_squared/thermodynamics/isotensional/asymptotic/legendre/ex.rs:27-30 *)
Definition physics_single_chain_ufjc_log_squared_thermodynamics_isotensional_asymptotic_legendre_nondimensional_helmholtz_free_energy_per_link : symbol T :=
  {| sig := [Float64; Float64; Float64; Float64; Float64];
     body := fun link_length hinge_mass nondimensional_link_stiffness nondimensional_force temperature =>
       Some (extern.physics_single_chain_ufjc_log_squared_thermodynamics_isotensional_asymptotic_legendre_nondimensional_helmholtz_free_energy_per_link link_length hinge_mass nondimensional_link_stiffness nondimensional_force temperature) |}.

(* /repo/src/physics/single_chain/ufjc/log_squared/thermodynamics/isotensional/asymptotic/legendre/ex.rs:32-35 *)
Definition physics_single_chain_ufjc_log_squared_thermodynamics_isotensional_asymptotic_legendre_nondimensional_relative_helmholtz_free_energy : symbol T :=
  {| sig := [UInt8; Float64; Float64];
     body := fun number_of_links nondimensional_link_stiffness nondimensional_force =>
       Some (extern.physics_single_chain_ufjc_log_squared_thermodynamics_isotensional_asymptotic_legendre_nondimensional_relative_helmholtz_free_energy number_of_links nondimensional_link_stiffness nondimensional_force) |}.

(* /repo/src/physics/single_chain/ufjc/log_squared/thermodynamics/isotensional/asymptotic/legendre/ex.rs:37-40 *)
Definition physics_single_chain_ufjc_log_squared_thermodynamics_isotensional_asymptotic_legendre_nondimensional_relative_helmholtz_free_energy_per_link : symbol T :=
  {| sig := [Float64; Float64];
     body := fun nondimensional_link_stiffness nondimensional_force =>
       Some (extern.physics_single_chain_ufjc_log_squared_thermodynamics_isotensional_asymptotic_legendre_nondimensional_relative_helmholtz_free_energy_per_link nondimensional_link_stiffness nondimensional_force) |}.

(* /repo/src/physics/single_chain/ufjc/log_squared/thermodynamics/isotensional/asymptotic/reduced/ex.rs:2-5 *)
Definition physics_single_chain_ufjc_log_squared_thermodynamics_isotensional_asymptotic_reduced_end_to_end_length : symbol T :=
  {| sig := [UInt8; Float64; Float64; Float64; Float64];
     body := fun number_of_links link_length link_stiffness force temperature =>
       Some (extern.physics_single_chain_ufjc_log_squared_thermodynamics_isotensional_asymptotic_reduced_end_to_end_length number_of_links link_length link_stiffness force temperature) |}.

(* /repo/src/physics/single_chain/ufjc/log_squared/thermodynamics/isotensional/asymptotic/reduced/ex.rs:7-10 *)
Definition physics_single_chain_ufjc_log_squared_thermodynamics_isotensional_asymptotic_reduced_end_to_end_length_per_link : symbol T :=
  {| sig := [Float64; Float64; Float64; Float64];
     body := fun link_length link_stiffness force temperature =>
       Some (extern.physics_single_chain_ufjc_log_squared_thermodynamics_isotensional_asymptotic_reduced_end_to_end_length_per_link link_length link_stiffness force temperature) |}.

(* /repo/src/physics/single_chain/ufjc/log_squared/thermodynamics/isotensional/asymptotic/reduced/ex.rs:12-15 *)
Definition physics_single_chain_ufjc_log_squared_thermodynamics_isotensional_asymptotic_reduced_nondimensional_end_to_end_length : symbol T :=
  {| sig := [UInt8; Float64; Float64];
     body := fun number_of_links nondimensional_link_stiffness nondimensional_force =>
       Some (extern.physics_single_chain_ufjc_log_squared_thermodynamics_isotensional_asymptotic_reduced_nondimensional_end_to_end_length number_of_links nondimensional_link_stiffness nondimensional_force) |}.

(* /repo/src/physics/single_chain/ufjc/log_squared/thermodynamics/isotensional/asymptotic/reduced/ex.rs:17-20 *)
Definition physics_single_chain_ufjc_log_squared_thermodynamics_isotensional_asymptotic_reduced_nondimensional_end_to_end_length_per_link : symbol T :=
  {| sig := [Float64; Float64];
     body := fun nondimensional_link_stiffness nondimensional_force =>
       Some (extern.physics_single_chain_ufjc_log_squared_thermodynamics_isotensional_asymptotic_reduced_nondimensional_end_to_end_length_per_link nondimensional_link_stiffness nondimensional_force) |}.

(* /repo/src/physics/single_chain/ufjc/log_squared/thermodynamics/isotensional/asymptotic/reduced/ex.rs:22-25 *)
Definition physics_single_chain_ufjc_log_squared_thermodynamics_isotensional_asymptotic_reduced_gibbs_free_energy : symbol T :=
  {| sig := [UInt8; Float64; Float64; Float64; Float64; Float64];
     body := fun number_of_links link_length hinge_mass link_stiffness force temperature =>
       Some (extern.physics_single_chain_ufjc_log_squared_thermodynamics_isotensional_asymptotic_reduced_gibbs_free_energy number_of_links link_length hinge_mass link_stiffness force temperature) |}.

(* /repo/src/physics/single_chain/ufjc/log_squared/thermodynamics/isotensional/asymptotic/reduced/ex.rs:27-30 *)
Definition physics_single_chain_ufjc_log_squared_thermodynamics_isotensional_asymptotic_reduced_gibbs_free_energy_per_link : symbol T :=
  {| sig := [Float64; Float64; Float64; Float64; Float64];
     body := fun link_length hinge_mass link_stiffness force temperature =>
       Some (extern.physics_single_chain_ufjc_log_squared_thermodynamics_isotensional_asymptotic_reduced_gibbs_free_energy_per_link link_length hinge_mass link_stiffness force temperature) |}.

(* /repo/src/physics/single_chain/ufjc/log_squared/thermodynamics/isotensional/asymptotic/reduced/ex.rs:32-35 *)
Definition physics_single_chain_ufjc_log_squared_thermodynamics_isotensional_asymptotic_reduced_relative_gibbs_free_energy : symbol T :=
  {| sig := [UInt8; Float64; Float64; Float64; Float64];
     body := fun number_of_links link_length link_stiffness force temperature =>
       Some (extern.physics_single_chain_ufjc_log_squared_thermodynamics_isotensional_asymptotic_reduced_relative_gibbs_free_energy number_of_links link_length link_stiffness force temperature) |}.

(* /repo/src/physics/single_chain/ufjc/log_squared/thermodynamics/isotensional/asymptotic/reduced/ex.rs:37-40 *)
Definition physics_single_chain_ufjc_log_squared_thermodynamics_isotensional_asymptotic_reduced_relative_gibbs_free_energy_per_link : symbol T :=
  {| sig := [Float64; Float64; Float64; Float64];
     body := fun link_length link_stiffness force temperature =>
       Some (extern.physics_single_chain_ufjc_log_squared_thermodynamics_isotensional_asymptotic_reduced_relative_gibbs_free_energy_per_link link_length link_stiffness force temperature) |}.

(* /repo/src/physics/single_chain/ufjc/log_squared/thermodynamics/isotensional/asymptotic/reduced/ex.rs:42-45 *)
Definition physics_single_chain_ufjc_log_squared_thermodynamics_isotensional_asymptotic_reduced_nondimensional_gibbs_free_energy : symbol T :=
  {| sig := [UInt8; Float64; Float64; Float64; Float64; Float64];
     body := fun number_of_links link_length hinge_mass nondimensional_link_stiffness nondimensional_force temperature =>
       Some (extern.physics_single_chain_ufjc_log_squared_thermodynamics_isotensional_asymptotic_reduced_nondimensional_gibbs_free_energy number_of_links link_length hinge_mass nondimensional_link_stiffness nondimensional_force temperature) |}.

(* /repo/src/physics/single_chain/ufjc/log_squared/thermodynamics/isotensional/asymptotic/reduced/ex.rs:47-50 *)
Definition physics_single_chain_ufjc_log_squared_thermodynamics_isotensional_asymptotic_reduced_nondimensional_gibbs_free_energy_per_link : symbol T :=
  {| sig := [Float64; Float64; Float64; Float64; Float64];
     body := fun link_length hinge_mass nondimensional_link_stiffness nondimensional_force temperature =>
       Some (extern.physics_single_chain_ufjc_log_squared_thermodynamics_isotensional_asymptotic_reduced_nondimensional_gibbs_free_energy_per_link link_length hinge_mass nondimensional_link_stiffness nondimensional_force temperature) |}.

(* /repo/src/physics/single_chain/ufjc/log_squared/thermodynamics/isotensional/asymptotic/reduced/ex.rs:52-55 *)
Definition physics_single_chain_ufjc_log_squared_thermodynamics_isotensional_asymptotic_reduced_nondimensional_relative_gibbs_free_energy : symbol T :=
  {| sig := [UInt8; Float64; Float64];
     body := fun number_of_links nondimensional_link_stiffness nondimensional_force =>
       Some (extern.physics_single_chain_ufjc_log_squared_thermodynamics_isotensional_asymptotic_reduced_nondimensional_relative_gibbs_free_energy number_of_links nondimensional_link_stiffness nondimensional_force) |}.

(* /repo/src/physics/single_chain/ufjc/log_squared/thermodynamics/isotensional/asymptotic/reduced/ex.rs:57-60 *)
Definition physics_single_chain_ufjc_log_squared_thermodynamics_isotensional_asymptotic_reduced_nondimensional_relative_gibbs_free_energy_per_link : symbol T :=
  {| sig := [Float64; Float64];
     body := fun nondimensional_link_stiffness nondimensional_force =>
       Some (extern.physics_single_chain_ufjc_log_squared_thermodynamics_isotensional_asymptotic_reduced_nondimensional_relative_gibbs_free_energy_per_link nondimensional_link_stiffness nondimensional_force) |}.

(* /repo/src/physics/single_chain/ufjc/log_squared/thermodynamics/isotensional/asymptotic/reduced/legendre/ex.rs:2-5 *)
Definition physics_single_chain_ufjc_log_squared_thermodynamics_isotensional_asymptotic_reduced_legendre_helmholtz_free_energy : symbol T :=
  {| sig := [UInt8; Float64; Float64; Float64; Float64; Float64];
     body := fun number_of_links link_length hinge_mass link_stiffness force temperature =>
       Some (extern.physics_single_chain_ufjc_log_squared_thermodynamics_isotensional_asymptotic_reduced_legendre_helmholtz_free_energy number_of_links link_length hinge_mass link_stiffness force temperature) |}.

(* /repo/src/physics/single_chain/ufjc/log_squared/thermodynamics/isotensional/asymptotic/reduced/legendre/ex.rs:7-10 *)
Definition physics_single_chain_ufjc_log_squared_thermodynamics_isotensional_asymptotic_reduced_legendre_helmholtz_free_energy_per_link : symbol T :=
  {| sig := [Float64; Float64; Float64; Float64; Float64];
     body := fun link_length hinge_mass link_stiffness force temperature =>
       Some (extern.physics_single_chain_ufjc_log_squared_thermodynamics_isotensional_asymptotic_reduced_legendre_helmholtz_free_energy_per_link link_length hinge_mass link_stiffness force temperature) |}.

(* /repo/src/physics/single_chain/ufjc/log_squared/thermodynamics/isotensional/asymptotic/reduced/legendre/ex.rs:12-15 *)
Definition physics_single_chain_ufjc_log_squared_thermodynamics_isotensional_asymptotic_reduced_legendre_relative_helmholtz_free_energy : symbol T :=
  {| sig := [UInt8; Float64; Float64; Float64; Float64];
     body := fun number_of_links link_length link_stiffness force temperature =>
       Some (extern.physics_single_chain_ufjc_log_squared_thermodynamics_isotensional_asymptotic_reduced_legendre_relative_helmholtz_free_energy number_of_links link_length link_stiffness force temperature) |}.

(* /repo/src/physics/single_chain/ufjc/log_squared/thermodynamics/isotensional/asymptotic/reduced/legendre/ex.rs:17-20 *)
Definition physics_single_chain_ufjc_log_squared_thermodynamics_isotensional_asymptotic_reduced_legendre_relative_helmholtz_free_energy_per_link : symbol T :=
  {| sig := [Float64; Float64; Float64; Float64];
     body := fun link_length link_stiffness force temperature =>
       Some (extern.physics_single_chain_ufjc_log_squared_thermodynamics_isotensional_asymptotic_reduced_legendre_relative_helmholtz_free_energy_per_link link_length link_stiffness force temperature) |}.

(* /repo/src/physics/single_chain/ufjc/log_squared/thermodynamics/isotensional/asymptotic/reduced/legendre/ex.rs:22-25 *)
Definition physics_single_chain_ufjc_log_squared_thermodynamics_isotensional_asymptotic_reduced_legendre_nondimensional_helmholtz_free_energy : symbol T :=
  {| sig := [UInt8; Float64; Float64; Float64; Float64; Float64];
     body := fun number_of_links link_length hinge_mass nondimensional_link_stiffness nondimensional_force temperature =>
       Some (extern.physics_single_chain_ufjc_log_squared_thermodynamics_isotensional_asymptotic_reduced_legendre_nondimensional_helmholtz_free_energy number_of_links link_length hinge_mass nondimensional_link_stiffness nondimensional_force temperature) |}.

(* /repo/src/physics/single_chain/ufjc/log_squared/thermodynamics/isotensional/asymptotic/reduced/legendre/ex.rs:27-30 *)
Definition physics_single_chain_ufjc_log_squared_thermodynamics_isotensional_asymptotic_reduced_legendre_nondimensional_helmholtz_free_energy_per_link : symbol T :=
  {| sig := [Float64; Float64; Float64; Float64; Float64];
     body := fun link_length hinge_mass nondimensional_link_stiffness nondimensional_force temperature =>
       Some (extern.physics_single_chain_ufjc_log_squared_thermodynamics_isotensional_asymptotic_reduced_legendre_nondimensional_helmholtz_free_energy_per_link link_length hinge_mass nondimensional_link_stiffness nondimensional_force temperature) |}.

(* /repo/src/physics/single_chain/ufjc/log_squared/thermodynamics/isotensional/asymptotic/reduced/legendre/ex.rs:32-35 *)
Definition physics_single_chain_ufjc_log_squared_thermodynamics_isotensional_asymptotic_reduced_legendre_nondimensional_relative_helmholtz_free_energy : symbol T :=
  {| sig := [UInt8; Float64; Float64];
     body := fun number_of_links nondimensional_link_stiffness nondimensional_force =>
       Some (extern.physics_single_chain_ufjc_log_squared_thermodynamics_isotensional_asymptotic_reduced_legendre_nondimensional_relative_helmholtz_free_energy number_of_links nondimensional_link_stiffness nondimensional_force) |}.

(* /repo/src/physics/single_chain/ufjc/log_squared/thermodynamics/isotensional/asymptotic/reduced/legendre/ex.rs:37-40 *)
Definition physics_single_chain_ufjc_log_squared_thermodynamics_isotensional_asymptotic_reduced_legendre_nondimensional_relative_helmholtz_free_energy_per_link : symbol T :=
  {| sig := [Float64; Float64];
     body := fun nondimensional_link_stiffness nondimensional_force =>
       Some (extern.physics_single_chain_ufjc_log_squared_thermodynamics_isotensional_asymptotic_reduced_legendre_nondimensional_relative_helmholtz_free_energy_per_link nondimensional_link_stiffness nondimensional_force) |}.

(* /repo/src/physics/single_chain/ufjc/log_squared/thermodynamics/isotensional/legendre/ex.rs:2-5 *)
Definition physics_single_chain_ufjc_log_squared_thermodynamics_isotensional_legendre_helmholtz_free_energy : symbol T :=
  {| sig := [UInt8; Float64; Float64; Float64; Float64; Float64];
     body := fun number_of_links link_length hinge_mass link_stiffness force temperature =>
       Some (extern.physics_single_chain_ufjc_log_squared_thermodynamics_isotensional_legendre_helmholtz_free_energy number_of_links link_length hinge_mass link_stiffness force temperature) |}.

(* /repo/src/physics/single_chain/ufjc/log_squared/thermodynamics/isotensional/legendre/ex.rs:7-10 *)
Definition physics_single_chain_ufjc_log_squared_thermodynamics_isotensional_legendre_helmholtz_free_energy_per_link : symbol T :=
  {| sig := [Float64; Float64; Float64; Float64; Float64];
     body := fun link_length hinge_mass link_stiffness force temperature =>
       Some (extern.physics_single_chain_ufjc_log_squared_thermodynamics_isotensional_legendre_helmholtz_free_energy_per_link link_length hinge_mass link_stiffness force temperature) |}.

(* /repo/src/physics/single_chain/ufjc/log_squared/thermodynamics/isotensional/legendre/ex.rs:12-15 *)
Definition physics_single_chain_ufjc_log_squared_thermodynamics_isotensional_legendre_relative_helmholtz_free_energy : symbol T :=
  {| sig := [UInt8; Float64; Float64; Float64; Float64];
     body := fun number_of_links link_length link_stiffness force temperature =>
       Some (extern.physics_single_chain_ufjc_log_squared_thermodynamics_isotensional_legendre_relative_helmholtz_free_energy number_of_links link_length link_stiffness force temperature) |}.

(* /repo/src/physics/single_chain/ufjc/log_squared/thermodynamics/isotensional/legendre/ex.rs:17-20 *)
Definition physics_single_chain_ufjc_log_squared_thermodynamics_isotensional_legendre_relative_helmholtz_free_energy_per_link : symbol T :=
  {| sig := [Float64; Float64; Float64; Float64];
     body := fun link_length link_stiffness force temperature =>
       Some (extern.physics_single_chain_ufjc_log_squared_thermodynamics_isotensional_legendre_relative_helmholtz_free_energy_per_link link_length link_stiffness force temperature) |}.

(* /repo/src/physics/single_chain/ufjc/log_squared/thermodynamics/isotensional/legendre/ex.rs:22-25 *)
Definition physics_single_chain_ufjc_log_squared_thermodynamics_isotensional_legendre_nondimensional_helmholtz_free_energy : symbol T :=
  {| sig := [UInt8; Float64; Float64; Float64; Float64; Float64];
     body := fun number_of_links link_length hinge_mass nondimensional_link_stiffness nondimensional_force temperature =>
       Some (extern.physics_single_chain_ufjc_log_squared_thermodynamics_isotensional_legendre_nondimensional_helmholtz_free_energy number_of_links link_length hinge_mass nondimensional_link_stiffness nondimensional_force temperature) |}.

(* /repo/src/physics/single_chain/ufjc/log_squared/thermodynamics/isotensional/legendre/ex.rs:27-30 *)
Definition physics_single_chain_ufjc_log_squared_thermodynamics_isotensional_legendre_nondimensional_helmholtz_free_energy_per_link : symbol T :=
  {| sig := [Float64; Float64; Float64; Float64; Float64];
     body := fun link_length hinge_mass nondimensional_link_stiffness nondimensional_force temperature =>
       Some (extern.physics_single_chain_ufjc_log_squared_thermodynamics_isotensional_legendre_nondimensional_helmholtz_free_energy_per_link link_length hinge_mass nondimensional_link_stiffness nondimensional_force temperature) |}.

(* /repo/src/physics/single_chain/ufjc/log_squared/thermodynamics/isotensional/legendre/ex.rs:32-35 *)
Definition physics_single_chain_ufjc_log_squared_thermodynamics_isotensional_legendre_nondimensional_relative_helmholtz_free_energy : symbol T :=
  {| sig := [UInt8; Float64; Float64];
     body := fun number_of_links nondimensional_link_stiffness nondimensional_force =>
       Some (extern.physics_single_chain_ufjc_log_squared_thermodynamics_isotensional_legendre_nondimensional_relative_helmholtz_free_energy number_of_links nondimensional_link_stiffness nondimensional_force) |}.

(* /repo/src/physics/single_chain/ufjc/log_squared/thermodynamics/isotensional/legendre/ex.rs:37-40 *)
Definition physics_single_chain_ufjc_log_squared_thermodynamics_isotensional_legendre_nondimensional_relative_helmholtz_free_energy_per_link : symbol T :=
  {| sig := [Float64; Float64];
     body := fun nondimensional_link_stiffness nondimensional_force =>
       Some (extern.physics_single_chain_ufjc_log_squared_thermodynamics_isotensional_legendre_nondimensional_relative_helmholtz_free_energy_per_link nondimensional_link_stiffness nondimensional_force) |}.

(* /repo/src/physics/single_chain/ufjc/morse/thermodynamics/isometric/asymptotic/legendre/ex.rs:2-5 *)
Definition physics_single_chain_ufjc_morse_thermodynamics_isometric_asymptotic_legendre_force : symbol T :=
  {| sig := [UInt8; Float64; Float64; Float64; Float64; Float64];
     body := fun number_of_links link_length link_stiffness link_energy end_to_end_length temperature =>
       Some (extern.physics_single_chain_ufjc_morse_thermodynamics_isometric_asymptotic_legendre_force number_of_links link_length link_stiffness link_energy end_to_end_length temperature) |}.

(* /repo/src/physics/single_chain/ufjc/morse/thermodynamics/isometric/asymptotic/legendre/ex.rs:7-10 *)
Definition physics_single_chain_ufjc_morse_thermodynamics_isometric_asymptotic_legendre_nondimensional_force : symbol T :=
  {| sig := [Float64; Float64; Float64];
     body := fun nondimensional_link_stiffness nondimensional_link_energy nondimensional_end_to_end_length_per_link =>
       Some (extern.physics_single_chain_ufjc_morse_thermodynamics_isometric_asymptotic_legendre_nondimensional_force nondimensional_link_stiffness nondimensional_link_energy nondimensional_end_to_end_length_per_link) |}.

(* /repo/src/physics/single_chain/ufjc/morse/thermodynamics/isometric/asymptotic/legendre/ex.rs:12-15 *)
Definition physics_single_chain_ufjc_morse_thermodynamics_isometric_asymptotic_legendre_helmholtz_free_energy : symbol T :=
  {| sig := [UInt8; Float64; Float64; Float64; Float64; Float64; Float64];
     body := fun number_of_links link_length hinge_mass link_stiffness link_energy end_to_end_length temperature =>
       Some (extern.physics_single_chain_ufjc_morse_thermodynamics_isometric_asymptotic_legendre_helmholtz_free_energy number_of_links link_length hinge_mass link_stiffness link_energy end_to_end_length temperature) |}.

(* /repo/src/physics/single_chain/ufjc/morse/thermodynamics/isometric/asymptotic/legendre/ex.rs:17-20 *)
Definition physics_single_chain_ufjc_morse_thermodynamics_isometric_asymptotic_legendre_helmholtz_free_energy_per_link : symbol T :=
  {| sig := [UInt8; Float64; Float64; Float64; Float64; Float64; Float64];
     body := fun number_of_links link_length hinge_mass link_stiffness link_energy end_to_end_length temperature =>
       Some (extern.physics_single_chain_ufjc_morse_thermodynamics_isometric_asymptotic_legendre_helmholtz_free_energy_per_link number_of_links link_length hinge_mass link_stiffness link_energy end_to_end_length temperature) |}.

(* /repo/src/physics/single_chain/ufjc/morse/thermodynamics/isometric/asymptotic/legendre/ex.rs:22-25 *)
Definition physics_single_chain_ufjc_morse_thermodynamics_isometric_asymptotic_legendre_relative_helmholtz_free_energy : symbol T :=
  {| sig := [UInt8; Float64; Float64; Float64; Float64; Float64];
     body := fun number_of_links link_length link_stiffness link_energy end_to_end_length temperature =>
       Some (extern.physics_single_chain_ufjc_morse_thermodynamics_isometric_asymptotic_legendre_relative_helmholtz_free_energy number_of_links link_length link_stiffness link_energy end_to_end_length temperature) |}.

(* /repo/src/physics/single_chain/ufjc/morse/thermodynamics/isometric/asymptotic/legendre/ex.rs:27-30 *)
Definition physics_single_chain_ufjc_morse_thermodynamics_isometric_asymptotic_legendre_relative_helmholtz_free_energy_per_link : symbol T :=
  {| sig := [UInt8; Float64; Float64; Float64; Float64; Float64];
     body := fun number_of_links link_length link_stiffness link_energy end_to_end_length temperature =>
       Some (extern.physics_single_chain_ufjc_morse_thermodynamics_isometric_asymptotic_legendre_relative_helmholtz_free_energy_per_link number_of_links link_length link_stiffness link_energy end_to_end_length temperature) |}.

(* /repo/src/physics/single_chain/ufjc/morse/thermodynamics/isometric/asymptotic/legendre/ex.rs:32-35 *)
Definition physics_single_chain_ufjc_morse_thermodynamics_isometric_asymptotic_legendre_nondimensional_helmholtz_free_energy : symbol T :=
  {| sig := [UInt8; Float64; Float64; Float64; Float64; Float64; Float64];
     body := fun number_of_links link_length hinge_mass nondimensional_link_stiffness nondimensional_link_energy nondimensional_end_to_end_length_per_link temperature =>
       Some (extern.physics_single_chain_ufjc_morse_thermodynamics_isometric_asymptotic_legendre_nondimensional_helmholtz_free_energy number_of_links link_length hinge_mass nondimensional_link_stiffness nondimensional_link_energy nondimensional_end_to_end_length_per_link temperature) |}.

(* /repo/src/physics/single_chain/ufjc/morse/thermodynamics/isometric/asymptotic/legendre/ex.rs:37-40 *)
Definition physics_single_chain_ufjc_morse_thermodynamics_isometric_asymptotic_legendre_nondimensional_helmholtz_free_energy_per_link : symbol T :=
  {| sig := [UInt8; Float64; Float64; Float64; Float64; Float64; Float64];
     body := fun number_of_links link_length hinge_mass nondimensional_link_stiffness nondimensional_link_energy nondimensional_end_to_end_length_per_link temperature =>
       Some (extern.physics_single_chain_ufjc_morse_thermodynamics_isometric_asymptotic_legendre_nondimensional_helmholtz_free_energy_per_link number_of_links link_length hinge_mass nondimensional_link_stiffness nondimensional_link_energy nondimensional_end_to_end_length_per_link temperature) |}.

(* /repo/src/physics/single_chain/ufjc/morse/thermodynamics/isometric/asymptotic/legendre/ex.rs:42-45 *)
Definition physics_single_chain_ufjc_morse_thermodynamics_isometric_asymptotic_legendre_nondimensional_relative_helmholtz_free_energy : symbol T :=
  {| sig := [UInt8; Float64; Float64; Float64];
     body := fun number_of_links nondimensional_link_stiffness nondimensional_link_energy nondimensional_end_to_end_length_per_link =>
       Some (extern.physics_single_chain_ufjc_morse_thermodynamics_isometric_asymptotic_legendre_nondimensional_relative_helmholtz_free_energy number_of_links nondimensional_link_stiffness nondimensional_link_energy nondimensional_end_to_end_length_per_link) |}.

(* /repo/src/physics/single_chain/ufjc/morse/thermodynamics/isometric/asymptotic/legendre/ex.rs:47-50 *)
Definition physics_single_chain_ufjc_morse_thermodynamics_isometric_asymptotic_legendre_nondimensional_relative_helmholtz_free_energy_per_link : symbol T :=
  {| sig := [Float64; Float64; Float64];
     body := fun nondimensional_link_stiffness nondimensional_link_energy nondimensional_end_to_end_length_per_link =>
       Some (extern.physics_single_chain_ufjc_morse_thermodynamics_isometric_asymptotic_legendre_nondimensional_relative_helmholtz_free_energy_per_link nondimensional_link_stiffness nondimensional_link_energy nondimensional_end_to_end_length_per_link) |}.

(* /repo/src/physics/single_chain/ufjc/morse/thermodynamics/isometric/asymptotic/reduced/legendre/ex.rs:2-5 *)
Definition physics_single_chain_ufjc_morse_thermodynamics_isometric_asymptotic_reduced_legendre_force : symbol T :=
  {| sig := [UInt8; Float64; Float64; Float64; Float64; Float64];
     body := fun number_of_links link_length link_stiffness link_energy end_to_end_length temperature =>
       Some (extern.physics_single_chain_ufjc_morse_thermodynamics_isometric_asymptotic_reduced_legendre_force number_of_links link_length link_stiffness link_energy end_to_end_length temperature) |}.

(* /repo/src/physics/single_chain/ufjc/morse/thermodynamics/isometric/asymptotic/reduced/legendre/ex.rs:7-10 *)
Definition physics_single_chain_ufjc_morse_thermodynamics_isometric_asymptotic_reduced_legendre_nondimensional_force : symbol T :=
  {| sig := [Float64; Float64; Float64];
     body := fun nondimensional_link_stiffness nondimensional_link_energy nondimensional_end_to_end_length_per_link =>
       Some (extern.physics_single_chain_ufjc_morse_thermodynamics_isometric_asymptotic_reduced_legendre_nondimensional_force nondimensional_link_stiffness nondimensional_link_energy nondimensional_end_to_end_length_per_link) |}.

(* /repo/src/physics/single_chain/ufjc/morse/thermodynamics/isometric/asymptotic/reduced/legendre/ex.rs:12-15 *)
Definition physics_single_chain_ufjc_morse_thermodynamics_isometric_asymptotic_reduced_legendre_helmholtz_free_energy : symbol T :=
  {| sig := [UInt8; Float64; Float64; Float64; Float64; Float64; Float64];
     body := fun number_of_links link_length hinge_mass link_stiffness link_energy end_to_end_length temperature =>
       Some (extern.physics_single_chain_ufjc_morse_thermodynamics_isometric_asymptotic_reduced_legendre_helmholtz_free_energy number_of_links link_length hinge_mass link_stiffness link_energy end_to_end_length temperature) |}.

(* /repo/src/physics/single_chain/ufjc/morse/thermodynamics/isometric/asymptotic/reduced/legendre/ex.rs:17-20 *)
Definition physics_single_chain_ufjc_morse_thermodynamics_isometric_asymptotic_reduced_legendre_helmholtz_free_energy_per_link : symbol T :=
  {| sig := [UInt8; Float64; Float64; Float64; Float64; Float64; Float64];
     body := fun number_of_links link_length hinge_mass link_stiffness link_energy end_to_end_length temperature =>
       Some (extern.physics_single_chain_ufjc_morse_thermodynamics_isometric_asymptotic_reduced_legendre_helmholtz_free_energy_per_link number_of_links link_length hinge_mass link_stiffness link_energy end_to_end_length temperature) |}.

(* /repo/src/physics/single_chain/ufjc/morse/thermodynamics/isometric/asymptotic/reduced/legendre/ex.rs:22-25 *)
Definition physics_single_chain_ufjc_morse_thermodynamics_isometric_asymptotic_reduced_legendre_relative_helmholtz_free_energy : symbol T :=
  {| sig := [UInt8; Float64; Float64; Float64; Float64; Float64];
     body := fun number_of_links link_length link_stiffness link_energy end_to_end_length temperature =>
       Some (extern.physics_single_chain_ufjc_morse_thermodynamics_isometric_asymptotic_reduced_legendre_relative_helmholtz_free_energy number_of_links link_length link_stiffness link_energy end_to_end_length temperature) |}.

(* /repo/src/physics/single_chain/ufjc/morse/thermodynamics/isometric/asymptotic/reduced/legendre/ex.rs:27-30 *)
Definition physics_single_chain_ufjc_morse_thermodynamics_isometric_asymptotic_reduced_legendre_relative_helmholtz_free_energy_per_link : symbol T :=
  {| sig := [UInt8; Float64; Float64; Float64; Float64; Float64];
     body := fun number_of_links link_length link_stiffness link_energy end_to_end_length temperature =>
       Some (extern.physics_single_chain_ufjc_morse_thermodynamics_isometric_asymptotic_reduced_legendre_relative_helmholtz_free_energy_per_link number_of_links link_length link_stiffness link_energy end_to_end_length temperature) |}.

(* /repo/src/physics/single_chain/ufjc/morse/thermodynamics/isometric/asymptotic/reduced/legendre/ex.rs:32-35 *)
Definition physics_single_chain_ufjc_morse_thermodynamics_isometric_asymptotic_reduced_legendre_nondimensional_helmholtz_free_energy : symbol T :=
  {| sig := [UInt8; Float64; Float64; Float64; Float64; Float64; Float64];
     body := fun number_of_links link_length hinge_mass nondimensional_link_stiffness nondimensional_link_energy nondimensional_end_to_end_length_per_link temperature =>
       Some (extern.physics_single_chain_ufjc_morse_thermodynamics_isometric_asymptotic_reduced_legendre_nondimensional_helmholtz_free_energy number_of_links link_length hinge_mass nondimensional_link_stiffness nondimensional_link_energy nondimensional_end_to_end_length_per_link temperature) |}.

(* /repo/src/physics/single_chain/ufjc/morse/thermodynamics/isometric/asymptotic/reduced/legendre/ex.rs:37-40 *)
Definition physics_single_chain_ufjc_morse_thermodynamics_isometric_asymptotic_reduced_legendre_nondimensional_helmholtz_free_energy_per_link : symbol T :=
  {| sig := [UInt8; Float64; Float64; Float64; Float64; Float64; Float64];
     body := fun number_of_links link_length hinge_mass nondimensional_link_stiffness nondimensional_link_energy nondimensional_end_to_end_length_per_link temperature =>
       Some (extern.physics_single_chain_ufjc_morse_thermodynamics_isometric_asymptotic_reduced_legendre_nondimensional_helmholtz_free_energy_per_link number_of_links link_length hinge_mass nondimensional_link_stiffness nondimensional_link_energy nondimensional_end_to_end_length_per_link temperature) |}.

(* /repo/src/physics/single_chain/ufjc/morse/thermodynamics/isometric/asymptotic/reduced/legendre/ex.rs:42-45 *)
Definition physics_single_chain_ufjc_morse_thermodynamics_isometric_asymptotic_reduced_legendre_nondimensional_relative_helmholtz_free_energy : symbol T :=
  {| sig := [UInt8; Float64; Float64; Float64];
     body := fun number_of_links nondimensional_link_stiffness nondimensional_link_energy nondimensional_end_to_end_length_per_link =>
       Some (extern.physics_single_chain_ufjc_morse_thermodynamics_isometric_asymptotic_reduced_legendre_nondimensional_relative_helmholtz_free_energy number_of_links nondimensional_link_stiffness nondimensional_link_energy nondimensional_end_to_end_length_per_link) |}.

(* /repo/src/physics/single_chain/ufjc/morse/thermodynamics/isometric/asymptotic/reduced/legendre/ex.rs:47-50 *)
Definition physics_single_chain_ufjc_morse_thermodynamics_isometric_asymptotic_reduced_legendre_nondimensional_relative_helmholtz_free_energy_per_link : symbol T :=
  {| sig := [Float64; Float64; Float64];
     body := fun nondimensional_link_stiffness nondimensional_link_energy nondimensional_end_to_end_length_per_link =>
       Some (extern.physics_single_chain_ufjc_morse_thermodynamics_isometric_asymptotic_reduced_legendre_nondimensional_relative_helmholtz_free_energy_per_link nondimensional_link_stiffness nondimensional_link_energy nondimensional_end_to_end_length_per_link) |}.

(* /repo/src/physics/single_chain/ufjc/morse/thermodynamics/isotensional/ex.rs:2-5 *)
Definition physics_single_chain_ufjc_morse_thermodynamics_isotensional_end_to_end_length : symbol T :=
  {| sig := [UInt8; Float64; Float64; Float64; Float64; Float64];
     body := fun number_of_links link_length link_stiffness link_energy force temperature =>
       Some (extern.physics_single_chain_ufjc_morse_thermodynamics_isotensional_end_to_end_length number_of_links link_length link_stiffness link_energy force temperature) |}.

(* /repo/src/physics/single_chain/ufjc/morse/thermodynamics/isotensional/ex.rs:7-10 *)
Definition physics_single_chain_ufjc_morse_thermodynamics_isotensional_end_to_end_length_per_link : symbol T :=
  {| sig := [Float64; Float64; Float64; Float64; Float64];
     body := fun link_length link_stiffness link_energy force temperature =>
       Some (extern.physics_single_chain_ufjc_morse_thermodynamics_isotensional_end_to_end_length_per_link link_length link_stiffness link_energy force temperature) |}.

(* /repo/src/physics/single_chain/ufjc/morse/thermodynamics/isotensional/ex.rs:12-15 *)
Definition physics_single_chain_ufjc_morse_thermodynamics_isotensional_nondimensional_end_to_end_length : symbol T :=
  {| sig := [UInt8; Float64; Float64; Float64];
     body := fun number_of_links nondimensional_link_stiffness nondimensional_link_energy nondimensional_force =>
       Some (extern.physics_single_chain_ufjc_morse_thermodynamics_isotensional_nondimensional_end_to_end_length number_of_links nondimensional_link_stiffness nondimensional_link_energy nondimensional_force) |}.

(* /repo/src/physics/single_chain/ufjc/morse/thermodynamics/isotensional/ex.rs:17-20 *)
Definition physics_single_chain_ufjc_morse_thermodynamics_isotensional_nondimensional_end_to_end_length_per_link : symbol T :=
  {| sig := [Float64; Float64; Float64];
     body := fun nondimensional_link_stiffness nondimensional_link_energy nondimensional_force =>
       Some (extern.physics_single_chain_ufjc_morse_thermodynamics_isotensional_nondimensional_end_to_end_length_per_link nondimensional_link_stiffness nondimensional_link_energy nondimensional_force) |}.

(* /repo/src/physics/single_chain/ufjc/morse/thermodynamics/isotensional/ex.rs:22-25 *)
Definition physics_single_chain_ufjc_morse_thermodynamics_isotensional_gibbs_free_energy : symbol T :=
  {| sig := [UInt8; Float64; Float64; Float64; Float64; Float64; Float64];
     body := fun number_of_links link_length hinge_mass link_stiffness link_energy force temperature =>
       Some (extern.physics_single_chain_ufjc_morse_thermodynamics_isotensional_gibbs_free_energy number_of_links link_length hinge_mass link_stiffness link_energy force temperature) |}.

(* /repo/src/physics/single_chain/ufjc/morse/thermodynamics/isotensional/ex.rs:27-30 *)
Definition physics_single_chain_ufjc_morse_thermodynamics_isotensional_gibbs_free_energy_per_link : symbol T :=
  {| sig := [Float64; Float64; Float64; Float64; Float64; Float64];
     body := fun link_length hinge_mass link_stiffness link_energy force temperature =>
       Some (extern.physics_single_chain_ufjc_morse_thermodynamics_isotensional_gibbs_free_energy_per_link link_length hinge_mass link_stiffness link_energy force temperature) |}.

(* /repo/src/physics/single_chain/ufjc/morse/thermodynamics/isotensional/ex.rs:32-35 *)
Definition physics_single_chain_ufjc_morse_thermodynamics_isotensional_relative_gibbs_free_energy : symbol T :=
  {| sig := [UInt8; Float64; Float64; Float64; Float64; Float64];
     body := fun number_of_links link_length link_stiffness link_energy force temperature =>
       Some (extern.physics_single_chain_ufjc_morse_thermodynamics_isotensional_relative_gibbs_free_energy number_of_links link_length link_stiffness link_energy force temperature) |}.

(* /repo/src/physics/single_chain/ufjc/morse/thermodynamics/isotensional/ex.rs:37-40 *)
Definition physics_single_chain_ufjc_morse_thermodynamics_isotensional_relative_gibbs_free_energy_per_link : symbol T :=
  {| sig := [Float64; Float64; Float64; Float64; Float64];
     body := fun link_length link_stiffness link_energy force temperature =>
       Some (extern.physics_single_chain_ufjc_morse_thermodynamics_isotensional_relative_gibbs_free_energy_per_link link_length link_stiffness link_energy force temperature) |}.

(* /repo/src/physics/single_chain/ufjc/morse/thermodynamics/isotensional/ex.rs:42-45 *)
Definition physics_single_chain_ufjc_morse_thermodynamics_isotensional_nondimensional_gibbs_free_energy : symbol T :=
  {| sig := [UInt8; Float64; Float64; Float64; Float64; Float64; Float64];
     body := fun number_of_links link_length hinge_mass nondimensional_link_stiffness nondimensional_link_energy nondimensional_force temperature =>
       Some (extern.physics_single_chain_ufjc_morse_thermodynamics_isotensional_nondimensional_gibbs_free_energy number_of_links link_length hinge_mass nondimensional_link_stiffness nondimensional_link_energy nondimensional_force temperature) |}.

(* /repo/src/physics/single_chain/ufjc/morse/thermodynamics/isotensional/ex.rs:47-50 *)
Definition physics_single_chain_ufjc_morse_thermodynamics_isotensional_nondimensional_gibbs_free_energy_per_link : symbol T :=
  {| sig := [Float64; Float64; Float64; Float64; Float64; Float64];
     body := fun link_length hinge_mass nondimensional_link_stiffness nondimensional_link_energy nondimensional_force temperature =>
       Some (extern.physics_single_chain_ufjc_morse_thermodynamics_isotensional_nondimensional_gibbs_free_energy_per_link link_length hinge_mass nondimensional_link_stiffness nondimensional_link_energy nondimensional_force temperature) |}.

(* /repo/src/physics/single_chain/ufjc/morse/thermodynamics/isotensional/ex.rs:52-55 *)
Definition physics_single_chain_ufjc_morse_thermodynamics_isotensional_nondimensional_relative_gibbs_free_energy : symbol T :=
  {| sig := [UInt8; Float64; Float64; Float64];
     body := fun number_of_links nondimensional_link_stiffness nondimensional_link_energy nondimensional_force =>
       Some (extern.physics_single_chain_ufjc_morse_thermodynamics_isotensional_nondimensional_relative_gibbs_free_energy number_of_links nondimensional_link_stiffness nondimensional_link_energy nondimensional_force) |}.

(* /repo/src/physics/single_chain/ufjc/morse/thermodynamics/isotensional/ex.rs:57-60 *)
Definition physics_single_chain_ufjc_morse_thermodynamics_isotensional_nondimensional_relative_gibbs_free_energy_per_link : symbol T :=
  {| sig := [Float64; Float64; Float64];
     body := fun nondimensional_link_stiffness nondimensional_link_energy nondimensional_force =>
       Some (extern.physics_single_chain_ufjc_morse_thermodynamics_isotensional_nondimensional_relative_gibbs_free_energy_per_link nondimensional_link_stiffness nondimensional_link_energy nondimensional_force) |}.

(* /repo/src/physics/single_chain/ufjc/morse/thermodynamics/isotensional/asymptotic/ex.rs:2-5 *)
Definition physics_single_chain_ufjc_morse_thermodynamics_isotensional_asymptotic_end_to_end_length : symbol T :=
  {| sig := [UInt8; Float64; Float64; Float64; Float64; Float64];
     body := fun number_of_links link_length link_stiffness link_energy force temperature =>
       Some (extern.physics_single_chain_ufjc_morse_thermodynamics_isotensional_asymptotic_end_to_end_length number_of_links link_length link_stiffness link_energy force temperature) |}.

(* /repo/src/physics/single_chain/ufjc/morse/thermodynamics/isotensional/asymptotic/ex.rs:7-10 *)
Definition physics_single_chain_ufjc_morse_thermodynamics_isotensional_asymptotic_end_to_end_length_per_link : symbol T :=
  {| sig := [Float64; Float64; Float64; Float64; Float64];
     body := fun link_length link_stiffness link_energy force temperature =>
       Some (extern.physics_single_chain_ufjc_morse_thermodynamics_isotensional_asymptotic_end_to_end_length_per_link link_length link_stiffness link_energy force temperature) |}.

(* /repo/src/physics/single_chain/ufjc/morse/thermodynamics/isotensional/asymptotic/ex.rs:12-15 *)
Definition physics_single_chain_ufjc_morse_thermodynamics_isotensional_asymptotic_nondimensional_end_to_end_length : symbol T :=
  {| sig := [UInt8; Float64; Float64; Float64];
     body := fun number_of_links nondimensional_link_stiffness nondimensional_link_energy nondimensional_force =>
       Some (extern.physics_single_chain_ufjc_morse_thermodynamics_isotensional_asymptotic_nondimensional_end_to_end_length number_of_links nondimensional_link_stiffness nondimensional_link_energy nondimensional_force) |}.

(* /repo/src/physics/single_chain/ufjc/morse/thermodynamics/isotensional/asymptotic/ex.rs:17-20 *)
Definition physics_single_chain_ufjc_morse_thermodynamics_isotensional_asymptotic_nondimensional_end_to_end_length_per_link : symbol T :=
  {| sig := [Float64; Float64; Float64];
     body := fun nondimensional_link_stiffness nondimensional_link_energy nondimensional_force =>
       Some (extern.physics_single_chain_ufjc_morse_thermodynamics_isotensional_asymptotic_nondimensional_end_to_end_length_per_link nondimensional_link_stiffness nondimensional_link_energy nondimensional_force) |}.

(* /repo/src/physics/single_chain/ufjc/morse/thermodynamics/isotensional/asymptotic/ex.rs:22-25 *)
Definition physics_single_chain_ufjc_morse_thermodynamics_isotensional_asymptotic_gibbs_free_energy : symbol T :=
  {| sig := [UInt8; Float64; Float64; Float64; Float64; Float64; Float64];
     body := fun number_of_links link_length hinge_mass link_stiffness link_energy force temperature =>
       Some (extern.physics_single_chain_ufjc_morse_thermodynamics_isotensional_asymptotic_gibbs_free_energy number_of_links link_length hinge_mass link_stiffness link_energy force temperature) |}.

(* /repo/src/physics/single_chain/ufjc/morse/thermodynamics/isotensional/asymptotic/ex.rs:27-30 *)
Definition physics_single_chain_ufjc_morse_thermodynamics_isotensional_asymptotic_gibbs_free_energy_per_link : symbol T :=
  {| sig := [Float64; Float64; Float64; Float64; Float64; Float64];
     body := fun link_length hinge_mass link_stiffness link_energy force temperature =>
       Some (extern.physics_single_chain_ufjc_morse_thermodynamics_isotensional_asymptotic_gibbs_free_energy_per_link link_length hinge_mass link_stiffness link_energy force temperature) |}.

(* /repo/src/physics/single_chain/ufjc/morse/thermodynamics/isotensional/asymptotic/ex.rs:32-35 *)
Definition physics_single_chain_ufjc_morse_thermodynamics_isotensional_asymptotic_relative_gibbs_free_energy : symbol T :=
  {| sig := [UInt8; Float64; Float64; Float64; Float64; Float64];
     body := fun number_of_links link_length link_stiffness link_energy force temperature =>
       Some (extern.physics_single_chain_ufjc_morse_thermodynamics_isotensional_asymptotic_relative_gibbs_free_energy number_of_links link_length link_stiffness link_energy force temperature) |}.

(* /repo/src/physics/single_chain/ufjc/morse/thermodynamics/isotensional/asymptotic/ex.rs:37-40 *)
Definition physics_single_chain_ufjc_morse_thermodynamics_isotensional_asymptotic_relative_gibbs_free_energy_per_link : symbol T :=
  {| sig := [Float64; Float64; Float64; Float64; Float64];
     body := fun link_length link_stiffness link_energy force temperature =>
       Some (extern.physics_single_chain_ufjc_morse_thermodynamics_isotensional_asymptotic_relative_gibbs_free_energy_per_link link_length link_stiffness link_energy force temperature) |}.

(* /repo/src/physics/single_chain/ufjc/morse/thermodynamics/isotensional/asymptotic/ex.rs:42-45 *)
Definition physics_single_chain_ufjc_morse_thermodynamics_isotensional_asymptotic_nondimensional_gibbs_free_energy : symbol T :=
  {| sig := [UInt8; Float64; Float64; Float64; Float64; Float64; Float64];
     body := fun number_of_links link_length hinge_mass nondimensional_link_stiffness nondimensional_link_energy nondimensional_force temperature =>
       Some (extern.physics_single_chain_ufjc_morse_thermodynamics_isotensional_asymptotic_nondimensional_gibbs_free_energy number_of_links link_length hinge_mass nondimensional_link_stiffness nondimensional_link_energy nondimensional_force temperature) |}.

(* /repo/src/physics/single_chain/ufjc/morse/thermodynamics/isotensional/asymptotic/ex.rs:47-50 *)
Definition physics_single_chain_ufjc_morse_thermodynamics_isotensional_asymptotic_nondimensional_gibbs_free_energy_per_link : symbol T :=
  {| sig := [Float64; Float64; Float64; Float64; Float64; Float64];
     body := fun link_length hinge_mass nondimensional_link_stiffness nondimensional_link_energy nondimensional_force temperature =>
       Some (extern.physics_single_chain_ufjc_morse_thermodynamics_isotensional_asymptotic_nondimensional_gibbs_free_energy_per_link link_length hinge_mass nondimensional_link_stiffness nondimensional_link_energy nondimensional_force temperature) |}.

(* /repo/src/physics/single_chain/ufjc/morse/thermodynamics/isotensional/asymptotic/ex.rs:52-55 *)
Definition physics_single_chain_ufjc_morse_thermodynamics_isotensional_asymptotic_nondimensional_relative_gibbs_free_energy : symbol T :=
  {| sig := [UInt8; Float64; Float64; Float64];
     body := fun number_of_links nondimensional_link_stiffness nondimensional_link_energy nondimensional_force =>
       Some (extern.physics_single_chain_ufjc_morse_thermodynamics_isotensional_asymptotic_nondimensional_relative_gibbs_free_energy number_of_links nondimensional_link_stiffness nondimensional_link_energy nondimensional_force) |}.

(* /repo/src/physics/single_chain/ufjc/morse/thermodynamics/isotensional/asymptotic/ex.rs:57-60 *)
Definition physics_single_chain_ufjc_morse_thermodynamics_isotensional_asymptotic_nondimensional_relative_gibbs_free_energy_per_link : symbol T :=
  {| sig := [Float64; Float64; Float64];
     body := fun nondimensional_link_stiffness nondimensional_link_energy nondimensional_force =>
       Some (extern.physics_single_chain_ufjc_morse_thermodynamics_isotensional_asymptotic_nondimensional_relative_gibbs_free_energy_per_link nondimensional_link_stiffness nondimensional_link_energy nondimensional_force) |}.

(* /repo/src/physics/single_chain/ufjc/morse/thermodynamics/isotensional/asymptotic/legendre/ex.rs:2-5 *)
Definition physics_single_chain_ufjc_morse_thermodynamics_isotensional_asymptotic_legendre_helmholtz_free_energy : symbol T :=
  {| sig := [UInt8; Float64; Float64; Float64; Float64; Float64; Float64];
     body := fun number_of_links link_length hinge_mass link_stiffness link_energy force temperature =>
       Some (extern.physics_single_chain_ufjc_morse_thermodynamics_isotensional_asymptotic_legendre_helmholtz_free_energy number_of_links link_length hinge_mass link_stiffness link_energy force temperature) |}.

(* /repo/src/physics/single_chain/ufjc/morse/thermodynamics/isotensional/asymptotic/legendre/ex.rs:7-10 *)
Definition physics_single_chain_ufjc_morse_thermodynamics_isotensional_asymptotic_legendre_helmholtz_free_energy_per_link : symbol T :=
  {| sig := [Float64; Float64; Float64; Float64; Float64; Float64];
     body := fun link_length hinge_mass link_stiffness link_energy force temperature =>
       Some (extern.physics_single_chain_ufjc_morse_thermodynamics_isotensional_asymptotic_legendre_helmholtz_free_energy_per_link link_length hinge_mass link_stiffness link_energy force temperature) |}.

(* /repo/src/physics/single_chain/ufjc/morse/thermodynamics/isotensional/asymptotic/legendre/ex.rs:12-15 *)
Definition physics_single_chain_ufjc_morse_thermodynamics_isotensional_asymptotic_legendre_relative_helmholtz_free_energy : symbol T :=
  {| sig := [UInt8; Float64; Float64; Float64; Float64; Float64];
     body := fun number_of_links link_length link_stiffness link_energy force temperature =>
       Some (extern.physics_single_chain_ufjc_morse_thermodynamics_isotensional_asymptotic_legendre_relative_helmholtz_free_energy number_of_links link_length link_stiffness link_energy force temperature) |}.

(* /repo/src/physics/single_chain/ufjc/morse/thermodynamics/isotensional/asymptotic/legendre/ex.rs:17-20 *)
Definition physics_single_chain_ufjc_morse_thermodynamics_isotensional_asymptotic_legendre_relative_helmholtz_free_energy_per_link : symbol T :=
  {| sig := [Float64; Float64; Float64; Float64; Float64];
     body := fun link_length link_stiffness link_energy force temperature =>
       Some (extern.physics_single_chain_ufjc_morse_thermodynamics_isotensional_asymptotic_legendre_relative_helmholtz_free_energy_per_link link_length link_stiffness link_energy force temperature) |}.

(* /repo/src/physics/single_chain/ufjc/morse/thermodynamics/isotensional/asymptotic/legendre/ex.rs:22-25 *)
Definition physics_single_chain_ufjc_morse_thermodynamics_isotensional_asymptotic_legendre_nondimensional_helmholtz_free_energy : symbol T :=
  {| sig := [UInt8; Float64; Float64; Float64; Float64; Float64; Float64];
     body := fun number_of_links link_length hinge_mass nondimensional_link_stiffness nondimensional_link_energy nondimensional_force temperature =>
       Some (extern.physics_single_chain_ufjc_morse_thermodynamics_isotensional_asymptotic_legendre_nondimensional_helmholtz_free_energy number_of_links link_length hinge_mass nondimensional_link_stiffness nondimensional_link_energy nondimensional_force temperature) |}.

(* /repo/src/physics/single_chain/ufjc/morse/thermodynamics/isotensional/asymptotic/legendre/ex.rs:27-30 *)
Definition physics_single_chain_ufjc_morse_thermodynamics_isotensional_asymptotic_legendre_nondimensional_helmholtz_free_energy_per_link : symbol T :=
  {| sig := [Float64; Float64; Float64; Float64; Float64; Float64];
     body := fun link_length hinge_mass nondimensional_link_stiffness nondimensional_link_energy nondimensional_force temperature =>
       Some (extern.physics_single_chain_ufjc_morse_thermodynamics_isotensional_asymptotic_legendre_nondimensional_helmholtz_free_energy_per_link link_length hinge_mass nondimensional_link_stiffness nondimensional_link_energy nondimensional_force temperature) |}.

(* /repo/src/physics/single_chain/ufjc/morse/thermodynamics/isotensional/asymptotic/legendre/ex.rs:32-35 *)
Definition physics_single_chain_ufjc_morse_thermodynamics_isotensional_asymptotic_legendre_nondimensional_relative_helmholtz_free_energy : symbol T :=
  {| sig := [UInt8; Float64; Float64; Float64];
     body := fun number_of_links nondimensional_link_stiffness nondimensional_link_energy nondimensional_force =>
       Some (extern.physics_single_chain_ufjc_morse_thermodynamics_isotensional_asymptotic_legendre_nondimensional_relative_helmholtz_free_energy number_of_links nondimensional_link_stiffness nondimensional_link_energy nondimensional_force) |}.

(* /repo/src/physics/single_chain/ufjc/morse/thermodynamics/isotensional/asymptotic/legendre/ex.rs:37-40 *)
Definition physics_single_chain_ufjc_morse_thermodynamics_isotensional_asymptotic_legendre_nondimensional_relative_helmholtz_free_energy_per_link : symbol T :=
  {| sig := [Float64; Float64; Float64];
     body := fun nondimensional_link_stiffness nondimensional_link_energy nondimensional_force =>
       Some (extern.physics_single_chain_ufjc_morse_thermodynamics_isotensional_asymptotic_legendre_nondimensional_relative_helmholtz_free_energy_per_link nondimensional_link_stiffness nondimensional_link_energy nondimensional_force) |}.

(* /repo/src/physics/single_chain/ufjc/morse/thermodynamics/isotensional/asymptotic/reduced/ex.rs:2-5 *)
Definition physics_single_chain_ufjc_morse_thermodynamics_isotensional_asymptotic_reduced_end_to_end_length : symbol T :=
  {| sig := [UInt8; Float64; Float64; Float64; Float64; Float64];
     body := fun number_of_links link_length link_stiffness link_energy force temperature =>
       Some (extern.physics_single_chain_ufjc_morse_thermodynamics_isotensional_asymptotic_reduced_end_to_end_length number_of_links link_length link_stiffness link_energy force temperature) |}.

(* /repo/src/physics/single_chain/ufjc/morse/thermodynamics/isotensional/asymptotic/reduced/ex.rs:7-10 *)
Definition physics_single_chain_ufjc_morse_thermodynamics_isotensional_asymptotic_reduced_end_to_end_length_per_link : symbol T :=
  {| sig := [Float64; Float64; Float64; Float64; Float64];
     body := fun link_length link_stiffness link_energy force temperature =>
       Some (extern.physics_single_chain_ufjc_morse_thermodynamics_isotensional_asymptotic_reduced_end_to_end_length_per_link link_length link_stiffness link_energy force temperature) |}.

(* /repo/src/physics/single_chain/ufjc/morse/thermodynamics/isotensional/asymptotic/reduced/ex.rs:12-15 *)
Definition physics_single_chain_ufjc_morse_thermodynamics_isotensional_asymptotic_reduced_nondimensional_end_to_end_length : symbol T :=
  {| sig := [UInt8; Float64; Float64; Float64];
     body := fun number_of_links nondimensional_link_stiffness nondimensional_link_energy nondimensional_force =>
       Some (extern.physics_single_chain_ufjc_morse_thermodynamics_isotensional_asymptotic_reduced_nondimensional_end_to_end_length number_of_links nondimensional_link_stiffness nondimensional_link_energy nondimensional_force) |}.

(* /repo/src/physics/single_chain/ufjc/morse/thermodynamics/isotensional/asymptotic/reduced/ex.rs:17-20 *)
Definition physics_single_chain_ufjc_morse_thermodynamics_isotensional_asymptotic_reduced_nondimensional_end_to_end_length_per_link : symbol T :=
  {| sig := [Float64; Float64; Float64];
     body := fun nondimensional_link_stiffness nondimensional_link_energy nondimensional_force =>
       Some (extern.physics_single_chain_ufjc_morse_thermodynamics_isotensional_asymptotic_reduced_nondimensional_end_to_end_length_per_link nondimensional_link_stiffness nondimensional_link_energy nondimensional_force) |}.

(* /repo/src/physics/single_chain/ufjc/morse/thermodynamics/isotensional/asymptotic/reduced/ex.rs:22-25 *)
Definition physics_single_chain_ufjc_morse_thermodynamics_isotensional_asymptotic_reduced_gibbs_free_energy : symbol T :=
  {| sig := [UInt8; Float64; Float64; Float64; Float64; Float64; Float64];
     body := fun number_of_links link_length hinge_mass link_stiffness link_energy force temperature =>
       Some (extern.physics_single_chain_ufjc_morse_thermodynamics_isotensional_asymptotic_reduced_gibbs_free_energy number_of_links link_length hinge_mass link_stiffness link_energy force temperature) |}.

(* /repo/src/physics/single_chain/ufjc/morse/thermodynamics/isotensional/asymptotic/reduced/ex.rs:27-30 *)
Definition physics_single_chain_ufjc_morse_thermodynamics_isotensional_asymptotic_reduced_gibbs_free_energy_per_link : symbol T :=
  {| sig := [Float64; Float64; Float64; Float64; Float64; Float64];
     body := fun link_length hinge_mass link_stiffness link_energy force temperature =>
       Some (extern.physics_single_chain_ufjc_morse_thermodynamics_isotensional_asymptotic_reduced_gibbs_free_energy_per_link link_length hinge_mass link_stiffness link_energy force temperature) |}.

(* /repo/src/physics/single_chain/ufjc/morse/thermodynamics/isotensional/asymptotic/reduced/ex.rs:32-35 *)
Definition physics_single_chain_ufjc_morse_thermodynamics_isotensional_asymptotic_reduced_relative_gibbs_free_energy : symbol T :=
  {| sig := [UInt8; Float64; Float64; Float64; Float64; Float64];
     body := fun number_of_links link_length link_stiffness link_energy force temperature =>
       Some (extern.physics_single_chain_ufjc_morse_thermodynamics_isotensional_asymptotic_reduced_relative_gibbs_free_energy number_of_links link_length link_stiffness link_energy force temperature) |}.

(* /repo/src/physics/single_chain/ufjc/morse/thermodynamics/isotensional/asymptotic/reduced/ex.rs:37-40 *)
Definition physics_single_chain_ufjc_morse_thermodynamics_isotensional_asymptotic_reduced_relative_gibbs_free_energy_per_link : symbol T :=
  {| sig := [Float64; Float64; Float64; Float64; Float64];
     body := fun link_length link_stiffness link_energy force temperature =>
       Some (extern.physics_single_chain_ufjc_morse_thermodynamics_isotensional_asymptotic_reduced_relative_gibbs_free_energy_per_link link_length link_stiffness link_energy force temperature) |}.

(* /repo/src/physics/single_chain/ufjc/morse/thermodynamics/isotensional/asymptotic/reduced/ex.rs:42-45 *)
Definition physics_single_chain_ufjc_morse_thermodynamics_isotensional_asymptotic_reduced_nondimensional_gibbs_free_energy : symbol T :=
  {| sig := [UInt8; Float64; Float64; Float64; Float64; Float64; Float64];
     body := fun number_of_links link_length hinge_mass nondimensional_link_stiffness nondimensional_link_energy nondimensional_force temperature =>
       Some (extern.physics_single_chain_ufjc_morse_thermodynamics_isotensional_asymptotic_reduced_nondimensional_gibbs_free_energy number_of_links link_length hinge_mass nondimensional_link_stiffness nondimensional_link_energy nondimensional_force temperature) |}.

(* /repo/src/physics/single_chain/ufjc/morse/thermodynamics/isotensional/asymptotic/reduced/ex.rs:47-50 *)
Definition physics_single_chain_ufjc_morse_thermodynamics_isotensional_asymptotic_reduced_nondimensional_gibbs_free_energy_per_link : symbol T :=
  {| sig := [Float64; Float64; Float64; Float64; Float64; Float64];
     body := fun link_length hinge_mass nondimensional_link_stiffness nondimensional_link_energy nondimensional_force temperature =>
       Some (extern.physics_single_chain_ufjc_morse_thermodynamics_isotensional_asymptotic_reduced_nondimensional_gibbs_free_energy_per_link link_length hinge_mass nondimensional_link_stiffness nondimensional_link_energy nondimensional_force temperature) |}.

(* /repo/src/physics/single_chain/ufjc/morse/thermodynamics/isotensional/asymptotic/reduced/ex.rs:52-55 *)
Definition physics_single_chain_ufjc_morse_thermodynamics_isotensional_asymptotic_reduced_nondimensional_relative_gibbs_free_energy : symbol T :=
  {| sig := [UInt8; Float64; Float64; Float64];
     body := fun number_of_links nondimensional_link_stiffness nondimensional_link_energy nondimensional_force =>
       Some (extern.physics_single_chain_ufjc_morse_thermodynamics_isotensional_asymptotic_reduced_nondimensional_relative_gibbs_free_energy number_of_links nondimensional_link_stiffness nondimensional_link_energy nondimensional_force) |}.

(* /repo/src/physics/single_chain/ufjc/morse/thermodynamics/isotensional/asymptotic/reduced/ex.rs:57-60 *)
Definition physics_single_chain_ufjc_morse_thermodynamics_isotensional_asymptotic_reduced_nondimensional_relative_gibbs_free_energy_per_link : symbol T :=
  {| sig := [Float64; Float64; Float64];
     body := fun nondimensional_link_stiffness nondimensional_link_energy nondimensional_force =>
       Some (extern.physics_single_chain_ufjc_morse_thermodynamics_isotensional_asymptotic_reduced_nondimensional_relative_gibbs_free_energy_per_link nondimensional_link_stiffness nondimensional_link_energy nondimensional_force) |}.

(* /repo/src/physics/single_chain/ufjc/morse/thermodynamics/isotensional/asymptotic/reduced/legendre/ex.rs:2-5 *)
Definition physics_single_chain_ufjc_morse_thermodynamics_isotensional_asymptotic_reduced_legendre_helmholtz_free_energy : symbol T :=
  {| sig := [UInt8; Float64; Float64; Float64; Float64; Float64; Float64];
     body := fun number_of_links link_length hinge_mass link_stiffness link_energy force temperature =>
       Some (extern.physics_single_chain_ufjc_morse_thermodynamics_isotensional_asymptotic_reduced_legendre_helmholtz_free_energy number_of_links link_length hinge_mass link_stiffness link_energy force temperature) |}.

(* /repo/src/physics/single_chain/ufjc/morse/thermodynamics/isotensional/asymptotic/reduced/legendre/ex.rs:7-10 *)
Definition physics_single_chain_ufjc_morse_thermodynamics_isotensional_asymptotic_reduced_legendre_helmholtz_free_energy_per_link : symbol T :=
  {| sig := [Float64; Float64; Float64; Float64; Float64; Float64];
     body := fun link_length hinge_mass link_stiffness link_energy force temperature =>
       Some (extern.physics_single_chain_ufjc_morse_thermodynamics_isotensional_asymptotic_reduced_legendre_helmholtz_free_energy_per_link link_length hinge_mass link_stiffness link_energy force temperature) |}.

(* /repo/src/physics/single_chain/ufjc/morse/thermodynamics/isotensional/asymptotic/reduced/legendre/ex.rs:12-15 *)
Definition physics_single_chain_ufjc_morse_thermodynamics_isotensional_asymptotic_reduced_legendre_relative_helmholtz_free_energy : symbol T :=
  {| sig := [UInt8; Float64; Float64; Float64; Float64; Float64];
     body := fun number_of_links link_length link_stiffness link_energy force temperature =>
       Some (extern.physics_single_chain_ufjc_morse_thermodynamics_isotensional_asymptotic_reduced_legendre_relative_helmholtz_free_energy number_of_links link_length link_stiffness link_energy force temperature) |}.

(* /repo/src/physics/single_chain/ufjc/morse/thermodynamics/isotensional/asymptotic/reduced/legendre/ex.rs:17-20 *)
Definition physics_single_chain_ufjc_morse_thermodynamics_isotensional_asymptotic_reduced_legendre_relative_helmholtz_free_energy_per_link : symbol T :=
  {| sig := [Float64; Float64; Float64; Float64; Float64];
     body := fun link_length link_stiffness link_energy force temperature =>
       Some (extern.physics_single_chain_ufjc_morse_thermodynamics_isotensional_asymptotic_reduced_legendre_relative_helmholtz_free_energy_per_link link_length link_stiffness link_energy force temperature) |}.

(* /repo/src/physics/single_chain/ufjc/morse/thermodynamics/isotensional/asymptotic/reduced/legendre/ex.rs:22-25 *)
Definition physics_single_chain_ufjc_morse_thermodynamics_isotensional_asymptotic_reduced_legendre_nondimensional_helmholtz_free_energy : symbol T :=
  {| sig := [UInt8; Float64; Float64; Float64; Float64; Float64; Float64];
     body := fun number_of_links link_length hinge_mass nondimensional_link_stiffness nondimensional_link_energy nondimensional_force temperature =>
       Some (extern.physics_single_chain_ufjc_morse_thermodynamics_isotensional_asymptotic_reduced_legendre_nondimensional_helmholtz_free_energy number_of_links link_length hinge_mass nondimensional_link_stiffness nondimensional_link_energy nondimensional_force temperature) |}.

(* /repo/src/physics/single_chain/ufjc/morse/thermodynamics/isotensional/asymptotic/reduced/legendre/ex.rs:27-30 *)
Definition physics_single_chain_ufjc_morse_thermodynamics_isotensional_asymptotic_reduced_legendre_nondimensional_helmholtz_free_energy_per_link : symbol T :=
  {| sig := [Float64; Float64; Float64; Float64; Float64; Float64];
     body := fun link_length hinge_mass nondimensional_link_stiffness nondimensional_link_energy nondimensional_force temperature =>
       Some (extern.physics_single_chain_ufjc_morse_thermodynamics_isotensional_asymptotic_reduced_legendre_nondimensional_helmholtz_free_energy_per_link link_length hinge_mass nondimensional_link_stiffness nondimensional_link_energy nondimensional_force temperature) |}.

(* /repo/src/physics/single_chain/ufjc/morse/thermodynamics/isotensional/asymptotic/reduced/legendre/ex.rs:32-35 *)
Definition physics_single_chain_ufjc_morse_thermodynamics_isotensional_asymptotic_reduced_legendre_nondimensional_relative_helmholtz_free_energy : symbol T :=
  {| sig := [UInt8; Float64; Float64; Float64];
     body := fun number_of_links nondimensional_link_stiffness nondimensional_link_energy nondimensional_force =>
       Some (extern.physics_single_chain_ufjc_morse_thermodynamics_isotensional_asymptotic_reduced_legendre_nondimensional_relative_helmholtz_free_energy number_of_links nondimensional_link_stiffness nondimensional_link_energy nondimensional_force) |}.

(* /repo/src/physics/single_chain/ufjc/morse/thermodynamics/isotensional/asymptotic/reduced/legendre/ex.rs:37-40 *)
Definition physics_single_chain_ufjc_morse_thermodynamics_isotensional_asymptotic_reduced_legendre_nondimensional_relative_helmholtz_free_energy_per_link : symbol T :=
  {| sig := [Float64; Float64; Float64];
     body := fun nondimensional_link_stiffness nondimensional_link_energy nondimensional_force =>
       Some (extern.physics_single_chain_ufjc_morse_thermodynamics_isotensional_asymptotic_reduced_legendre_nondimensional_relative_helmholtz_free_energy_per_link nondimensional_link_stiffness nondimensional_link_energy nondimensional_force) |}.

(* /repo/src/physics/single_chain/ufjc/morse/thermodynamics/isotensional/legendre/ex.rs:2-5 *)
Definition physics_single_chain_ufjc_morse_thermodynamics_isotensional_legendre_helmholtz_free_energy : symbol T :=
  {| sig := [UInt8; Float64; Float64; Float64; Float64; Float64; Float64];
     body := fun number_of_links link_length hinge_mass link_stiffness link_energy force temperature =>
       Some (extern.physics_single_chain_ufjc_morse_thermodynamics_isotensional_legendre_helmholtz_free_energy number_of_links link_length hinge_mass link_stiffness link_energy force temperature) |}.

(* /repo/src/physics/single_chain/ufjc/morse/thermodynamics/isotensional/legendre/ex.rs:7-10 *)
Definition physics_single_chain_ufjc_morse_thermodynamics_isotensional_legendre_helmholtz_free_energy_per_link : symbol T :=
  {| sig := [Float64; Float64; Float64; Float64; Float64; Float64];
     body := fun link_length hinge_mass link_stiffness link_energy force temperature =>
       Some (extern.physics_single_chain_ufjc_morse_thermodynamics_isotensional_legendre_helmholtz_free_energy_per_link link_length hinge_mass link_stiffness link_energy force temperature) |}.

(* /repo/src/physics/single_chain/ufjc/morse/thermodynamics/isotensional/legendre/ex.rs:12-15 *)
Definition physics_single_chain_ufjc_morse_thermodynamics_isotensional_legendre_relative_helmholtz_free_energy : symbol T :=
  {| sig := [UInt8; Float64; Float64; Float64; Float64; Float64];
     body := fun number_of_links link_length link_stiffness link_energy force temperature =>
       Some (extern.physics_single_chain_ufjc_morse_thermodynamics_isotensional_legendre_relative_helmholtz_free_energy number_of_links link_length link_stiffness link_energy force temperature) |}.

(* /repo/src/physics/single_chain/ufjc/morse/thermodynamics/isotensional/legendre/ex.rs:17-20 *)
Definition physics_single_chain_ufjc_morse_thermodynamics_isotensional_legendre_relative_helmholtz_free_energy_per_link : symbol T :=
  {| sig := [Float64; Float64; Float64; Float64; Float64];
     body := fun link_length link_stiffness link_energy force temperature =>
       Some (extern.physics_single_chain_ufjc_morse_thermodynamics_isotensional_legendre_relative_helmholtz_free_energy_per_link link_length link_stiffness link_energy force temperature) |}.

(* /repo/src/physics/single_chain/ufjc/morse/thermodynamics/isotensional/legendre/ex.rs:22-25 *)
Definition physics_single_chain_ufjc_morse_thermodynamics_isotensional_legendre_nondimensional_helmholtz_free_energy : symbol T :=
  {| sig := [UInt8; Float64; Float64; Float64; Float64; Float64; Float64];
     body := fun number_of_links link_length hinge_mass nondimensional_link_stiffness nondimensional_link_energy nondimensional_force temperature =>
       Some (extern.physics_single_chain_ufjc_morse_thermodynamics_isotensional_legendre_nondimensional_helmholtz_free_energy number_of_links link_length hinge_mass nondimensional_link_stiffness nondimensional_link_energy nondimensional_force temperature) |}.

(* /repo/src/physics/single_chain/ufjc/morse/thermodynamics/isotensional/legendre/ex.rs:27-30 *)
Definition physics_single_chain_ufjc_morse_thermodynamics_isotensional_legendre_nondimensional_helmholtz_free_energy_per_link : symbol T :=
  {| sig := [Float64; Float64; Float64; Float64; Float64; Float64];
     body := fun link_length hinge_mass nondimensional_link_stiffness nondimensional_link_energy nondimensional_force temperature =>
       Some (extern.physics_single_chain_ufjc_morse_thermodynamics_isotensional_legendre_nondimensional_helmholtz_free_energy_per_link link_length hinge_mass nondimensional_link_stiffness nondimensional_link_energy nondimensional_force temperature) |}.

(* /repo/src/physics/single_chain/ufjc/morse/thermodynamics/isotensional/legendre/ex.rs:32-35 *)
Definition physics_single_chain_ufjc_morse_thermodynamics_isotensional_legendre_nondimensional_relative_helmholtz_free_energy : symbol T :=
  {| sig := [UInt8; Float64; Float64; Float64];
     body := fun number_of_links nondimensional_link_stiffness nondimensional_link_energy nondimensional_force =>
       Some (extern.physics_single_chain_ufjc_morse_thermodynamics_isotensional_legendre_nondimensional_relative_helmholtz_free_energy number_of_links nondimensional_link_stiffness nondimensional_link_energy nondimensional_force) |}.

(* /repo/src/physics/single_chain/ufjc/morse/thermodynamics/isotensional/legendre/ex.rs:37-40 *)
Definition physics_single_chain_ufjc_morse_thermodynamics_isotensional_legendre_nondimensional_relative_helmholtz_free_energy_per_link : symbol T :=
  {| sig := [Float64; Float64; Float64];
     body := fun nondimensional_link_stiffness nondimensional_link_energy nondimensional_force =>
       Some (extern.physics_single_chain_ufjc_morse_thermodynamics_isotensional_legendre_nondimensional_relative_helmholtz_free_energy_per_link nondimensional_link_stiffness nondimensional_link_energy nondimensional_force) |}.

(* /repo/src/physics/single_chain/wlc/thermodynamics/isometric/ex.rs:2-5 *)
Definition physics_single_chain_wlc_thermodynamics_isometric_force : symbol T :=
  {| sig := [UInt8; Float64; Float64; Float64; Float64];
     body := fun number_of_links link_length persistance_length end_to_end_length temperature =>
       Some (extern.physics_single_chain_wlc_thermodynamics_isometric_force number_of_links link_length persistance_length end_to_end_length temperature) |}.

(* /repo/src/physics/single_chain/wlc/thermodynamics/isometric/ex.rs:7-10 *)
Definition physics_single_chain_wlc_thermodynamics_isometric_nondimensional_force : symbol T :=
  {| sig := [UInt8; Float64; Float64];
     body := fun number_of_links nondimensional_persistance_length nondimensional_end_to_end_length_per_link =>
       Some (extern.physics_single_chain_wlc_thermodynamics_isometric_nondimensional_force number_of_links nondimensional_persistance_length nondimensional_end_to_end_length_per_link) |}.

(* /repo/src/physics/single_chain/wlc/thermodynamics/isometric/ex.rs:12-15 *)
Definition physics_single_chain_wlc_thermodynamics_isometric_helmholtz_free_energy : symbol T :=
  {| sig := [UInt8; Float64; Float64; Float64; Float64; Float64];
     body := fun number_of_links link_length hinge_mass persistance_length end_to_end_length temperature =>
       Some (extern.physics_single_chain_wlc_thermodynamics_isometric_helmholtz_free_energy number_of_links link_length hinge_mass persistance_length end_to_end_length temperature) |}.

(* /repo/src/physics/single_chain/wlc/thermodynamics/isometric/ex.rs:17-20 *)
Definition physics_single_chain_wlc_thermodynamics_isometric_helmholtz_free_energy_per_link : symbol T :=
  {| sig := [UInt8; Float64; Float64; Float64; Float64; Float64];
     body := fun number_of_links link_length hinge_mass persistance_length end_to_end_length temperature =>
       Some (extern.physics_single_chain_wlc_thermodynamics_isometric_helmholtz_free_energy_per_link number_of_links link_length hinge_mass persistance_length end_to_end_length temperature) |}.

(* /repo/src/physics/single_chain/wlc/thermodynamics/isometric/ex.rs:22-25 *)
Definition physics_single_chain_wlc_thermodynamics_isometric_relative_helmholtz_free_energy : symbol T :=
  {| sig := [UInt8; Float64; Float64; Float64; Float64];
     body := fun number_of_links link_length persistance_length end_to_end_length temperature =>
       Some (extern.physics_single_chain_wlc_thermodynamics_isometric_relative_helmholtz_free_energy number_of_links link_length persistance_length end_to_end_length temperature) |}.

(* /repo/src/physics/single_chain/wlc/thermodynamics/isometric/ex.rs:27-30 *)
Definition physics_single_chain_wlc_thermodynamics_isometric_relative_helmholtz_free_energy_per_link : symbol T :=
  {| sig := [UInt8; Float64; Float64; Float64; Float64];
     body := fun number_of_links link_length persistance_length end_to_end_length temperature =>
       Some (extern.physics_single_chain_wlc_thermodynamics_isometric_relative_helmholtz_free_energy_per_link number_of_links link_length persistance_length end_to_end_length temperature) |}.

(* /repo/src/physics/single_chain/wlc/thermodynamics/isometric/ex.rs:32-35 *)
Definition physics_single_chain_wlc_thermodynamics_isometric_nondimensional_helmholtz_free_energy : symbol T :=
  {| sig := [UInt8; Float64; Float64; Float64; Float64; Float64];
     body := fun number_of_links link_length hinge_mass nondimensional_persistance_length nondimensional_end_to_end_length_per_link temperature =>
       Some (extern.physics_single_chain_wlc_thermodynamics_isometric_nondimensional_helmholtz_free_energy number_of_links link_length hinge_mass nondimensional_persistance_length nondimensional_end_to_end_length_per_link temperature) |}.

(* /repo/src/physics/single_chain/wlc/thermodynamics/isometric/ex.rs:37-40 *)
Definition physics_single_chain_wlc_thermodynamics_isometric_nondimensional_helmholtz_free_energy_per_link : symbol T :=
  {| sig := [UInt8; Float64; Float64; Float64; Float64; Float64];
     body := fun number_of_links link_length hinge_mass nondimensional_persistance_length nondimensional_end_to_end_length_per_link temperature =>
       Some (extern.physics_single_chain_wlc_thermodynamics_isometric_nondimensional_helmholtz_free_energy_per_link number_of_links link_length hinge_mass nondimensional_persistance_length nondimensional_end_to_end_length_per_link temperature) |}.

(* /repo/src/physics/single_chain/wlc/thermodynamics/isometric/ex.rs:42-45 *)
Definition physics_single_chain_wlc_thermodynamics_isometric_nondimensional_relative_helmholtz_free_energy : symbol T :=
  {| sig := [Float64; Float64];
     body := fun nondimensional_persistance_length nondimensional_end_to_end_length_per_link =>
       Some (extern.physics_single_chain_wlc_thermodynamics_isometric_nondimensional_relative_helmholtz_free_energy nondimensional_persistance_length nondimensional_end_to_end_length_per_link) |}.

(* /repo/src/physics/single_chain/wlc/thermodynamics/isometric/ex.rs:47-50 *)
Definition physics_single_chain_wlc_thermodynamics_isometric_nondimensional_relative_helmholtz_free_energy_per_link : symbol T :=
  {| sig := [UInt8; Float64; Float64];
     body := fun number_of_links nondimensional_persistance_length nondimensional_end_to_end_length_per_link =>
       Some (extern.physics_single_chain_wlc_thermodynamics_isometric_nondimensional_relative_helmholtz_free_energy_per_link number_of_links nondimensional_persistance_length nondimensional_end_to_end_length_per_link) |}.

(* /repo/src/physics/single_chain/wlc/thermodynamics/isometric/ex.rs:52-55 *)
Definition physics_single_chain_wlc_thermodynamics_isometric_equilibrium_distribution : symbol T :=
  {| sig := [UInt8; Float64; Float64; Float64; Float64];
     body := fun number_of_links link_length persistance_length normalization_nondimensional_equilibrium_distribution end_to_end_length =>
       Some (extern.physics_single_chain_wlc_thermodynamics_isometric_equilibrium_distribution number_of_links link_length persistance_length normalization_nondimensional_equilibrium_distribution end_to_end_length) |}.

(* /repo/src/physics/single_chain/wlc/thermodynamics/isometric/ex.rs:57-60 *)
Definition physics_single_chain_wlc_thermodynamics_isometric_nondimensional_equilibrium_distribution : symbol T :=
  {| sig := [Float64; Float64; Float64];
     body := fun nondimensional_persistance_length normalization_nondimensional_equilibrium_distribution nondimensional_end_to_end_length_per_link =>
       Some (extern.physics_single_chain_wlc_thermodynamics_isometric_nondimensional_equilibrium_distribution nondimensional_persistance_length normalization_nondimensional_equilibrium_distribution nondimensional_end_to_end_length_per_link) |}.

(* /repo/src/physics/single_chain/wlc/thermodynamics/isometric/ex.rs:62-65 *)
Definition physics_single_chain_wlc_thermodynamics_isometric_equilibrium_radial_distribution : symbol T :=
  {| sig := [UInt8; Float64; Float64; Float64; Float64];
     body := fun number_of_links link_length persistance_length normalization_nondimensional_equilibrium_distribution end_to_end_length =>
       Some (extern.physics_single_chain_wlc_thermodynamics_isometric_equilibrium_radial_distribution number_of_links link_length persistance_length normalization_nondimensional_equilibrium_distribution end_to_end_length) |}.

(* /repo/src/physics/single_chain/wlc/thermodynamics/isometric/ex.rs:67-70 *)
Definition physics_single_chain_wlc_thermodynamics_isometric_nondimensional_equilibrium_radial_distribution : symbol T :=
  {| sig := [Float64; Float64; Float64];
     body := fun nondimensional_persistance_length normalization_nondimensional_equilibrium_distribution nondimensional_end_to_end_length_per_link =>
       Some (extern.physics_single_chain_wlc_thermodynamics_isometric_nondimensional_equilibrium_radial_distribution nondimensional_persistance_length normalization_nondimensional_equilibrium_distribution nondimensional_end_to_end_length_per_link) |}.

(* /repo/src/physics/single_chain/wlc/thermodynamics/isometric/legendre/ex.rs:2-5 *)
Definition physics_single_chain_wlc_thermodynamics_isometric_legendre_gibbs_free_energy : symbol T :=
  {| sig := [UInt8; Float64; Float64; Float64; Float64; Float64];
     body := fun number_of_links link_length hinge_mass persistance_length end_to_end_length temperature =>
       Some (extern.physics_single_chain_wlc_thermodynamics_isometric_legendre_gibbs_free_energy number_of_links link_length hinge_mass persistance_length end_to_end_length temperature) |}.

(* /repo/src/physics/single_chain/wlc/thermodynamics/isometric/legendre/ex.rs:7-10 *)
Definition physics_single_chain_wlc_thermodynamics_isometric_legendre_gibbs_free_energy_per_link : symbol T :=
  {| sig := [UInt8; Float64; Float64; Float64; Float64; Float64];
     body := fun number_of_links link_length hinge_mass persistance_length end_to_end_length temperature =>
       Some (extern.physics_single_chain_wlc_thermodynamics_isometric_legendre_gibbs_free_energy_per_link number_of_links link_length hinge_mass persistance_length end_to_end_length temperature) |}.

(* /repo/src/physics/single_chain/wlc/thermodynamics/isometric/legendre/ex.rs:12-15 *)
Definition physics_single_chain_wlc_thermodynamics_isometric_legendre_relative_gibbs_free_energy : symbol T :=
  {| sig := [UInt8; Float64; Float64; Float64; Float64];
     body := fun number_of_links link_length persistance_length end_to_end_length temperature =>
       Some (extern.physics_single_chain_wlc_thermodynamics_isometric_legendre_relative_gibbs_free_energy number_of_links link_length persistance_length end_to_end_length temperature) |}.

(* /repo/src/physics/single_chain/wlc/thermodynamics/isometric/legendre/ex.rs:17-20 *)
Definition physics_single_chain_wlc_thermodynamics_isometric_legendre_relative_gibbs_free_energy_per_link : symbol T :=
  {| sig := [UInt8; Float64; Float64; Float64; Float64];
     body := fun number_of_links link_length persistance_length end_to_end_length temperature =>
       Some (extern.physics_single_chain_wlc_thermodynamics_isometric_legendre_relative_gibbs_free_energy_per_link number_of_links link_length persistance_length end_to_end_length temperature) |}.

(* /repo/src/physics/single_chain/wlc/thermodynamics/isometric/legendre/ex.rs:22-25 *)
Definition physics_single_chain_wlc_thermodynamics_isometric_legendre_nondimensional_gibbs_free_energy : symbol T :=
  {| sig := [UInt8; Float64; Float64; Float64; Float64; Float64];
     body := fun number_of_links link_length hinge_mass nondimensional_persistance_length nondimensional_end_to_end_length_per_link temperature =>
       Some (extern.physics_single_chain_wlc_thermodynamics_isometric_legendre_nondimensional_gibbs_free_energy number_of_links link_length hinge_mass nondimensional_persistance_length nondimensional_end_to_end_length_per_link temperature) |}.

(* /repo/src/physics/single_chain/wlc/thermodynamics/isometric/legendre/ex.rs:27-30 *)
Definition physics_single_chain_wlc_thermodynamics_isometric_legendre_nondimensional_gibbs_free_energy_per_link : symbol T :=
  {| sig := [UInt8; Float64; Float64; Float64; Float64; Float64];
     body := fun number_of_links link_length hinge_mass nondimensional_persistance_length nondimensional_end_to_end_length_per_link temperature =>
       Some (extern.physics_single_chain_wlc_thermodynamics_isometric_legendre_nondimensional_gibbs_free_energy_per_link number_of_links link_length hinge_mass nondimensional_persistance_length nondimensional_end_to_end_length_per_link temperature) |}.

(* /repo/src/physics/single_chain/wlc/thermodynamics/isometric/legendre/ex.rs:32-35 *)
Definition physics_single_chain_wlc_thermodynamics_isometric_legendre_nondimensional_relative_gibbs_free_energy : symbol T :=
  {| sig := [UInt8; Float64; Float64];
     body := fun number_of_links nondimensional_persistance_length nondimensional_end_to_end_length_per_link =>
       Some (extern.physics_single_chain_wlc_thermodynamics_isometric_legendre_nondimensional_relative_gibbs_free_energy number_of_links nondimensional_persistance_length nondimensional_end_to_end_length_per_link) |}.

(* /repo/src/physics/single_chain/wlc/thermodynamics/isometric/legendre/ex.rs:37-40 *)
Definition physics_single_chain_wlc_thermodynamics_isometric_legendre_nondimensional_relative_gibbs_free_energy_per_link : symbol T :=
  {| sig := [UInt8; Float64; Float64];
     body := fun number_of_links nondimensional_persistance_length nondimensional_end_to_end_length_per_link =>
       Some (extern.physics_single_chain_wlc_thermodynamics_isometric_legendre_nondimensional_relative_gibbs_free_energy_per_link number_of_links nondimensional_persistance_length nondimensional_end_to_end_length_per_link) |}.

(* /repo/src/physics/single_chain/wlc/thermodynamics/isotensional/ex.rs:2-5 *)
Definition physics_single_chain_wlc_thermodynamics_isotensional_end_to_end_length : symbol T :=
  {| sig := [UInt8; Float64; Float64; Float64; Float64];
     body := fun number_of_links link_length persistance_length force temperature =>
       extern.physics_single_chain_wlc_thermodynamics_isotensional_end_to_end_length number_of_links link_length persistance_length force temperature |}.

(* /repo/src/physics/single_chain/wlc/thermodynamics/isotensional/ex.rs:7-10 *)
Definition physics_single_chain_wlc_thermodynamics_isotensional_end_to_end_length_per_link : symbol T :=
  {| sig := [UInt8; Float64; Float64; Float64; Float64];
     body := fun number_of_links link_length persistance_length force temperature =>
       extern.physics_single_chain_wlc_thermodynamics_isotensional_end_to_end_length_per_link number_of_links link_length persistance_length force temperature |}.

(* /repo/src/physics/single_chain/wlc/thermodynamics/isotensional/ex.rs:12-15 *)
Definition physics_single_chain_wlc_thermodynamics_isotensional_nondimensional_end_to_end_length : symbol T :=
  {| sig := [UInt8; Float64; Float64];
     body := fun number_of_links nondimensional_persistance_length nondimensional_force =>
       extern.physics_single_chain_wlc_thermodynamics_isotensional_nondimensional_end_to_end_length number_of_links nondimensional_persistance_length nondimensional_force |}.

(* /repo/src/physics/single_chain/wlc/thermodynamics/isotensional/ex.rs:17-20 *)
Definition physics_single_chain_wlc_thermodynamics_isotensional_nondimensional_end_to_end_length_per_link : symbol T :=
  {| sig := [UInt8; Float64; Float64];
     body := fun number_of_links nondimensional_persistance_length nondimensional_force =>
       extern.physics_single_chain_wlc_thermodynamics_isotensional_nondimensional_end_to_end_length_per_link number_of_links nondimensional_persistance_length nondimensional_force |}.

(* /repo/src/physics/single_chain/wlc/thermodynamics/isotensional/ex.rs:22-25 *)
Definition physics_single_chain_wlc_thermodynamics_isotensional_gibbs_free_energy : symbol T :=
  {| sig := [UInt8; Float64; Float64; Float64; Float64; Float64];
     body := fun number_of_links link_length hinge_mass persistance_length force temperature =>
       extern.physics_single_chain_wlc_thermodynamics_isotensional_gibbs_free_energy number_of_links link_length hinge_mass persistance_length force temperature |}.

(* /repo/src/physics/single_chain/wlc/thermodynamics/isotensional/ex.rs:27-30 *)
Definition physics_single_chain_wlc_thermodynamics_isotensional_gibbs_free_energy_per_link : symbol T :=
  {| sig := [UInt8; Float64; Float64; Float64; Float64; Float64];
     body := fun number_of_links link_length hinge_mass persistance_length force temperature =>
       extern.physics_single_chain_wlc_thermodynamics_isotensional_gibbs_free_energy_per_link number_of_links link_length hinge_mass persistance_length force temperature |}.

(* /repo/src/physics/single_chain/wlc/thermodynamics/isotensional/ex.rs:32-35 *)
Definition physics_single_chain_wlc_thermodynamics_isotensional_relative_gibbs_free_energy : symbol T :=
  {| sig := [UInt8; Float64; Float64; Float64; Float64];
     body := fun number_of_links link_length persistance_length force temperature =>
       extern.physics_single_chain_wlc_thermodynamics_isotensional_relative_gibbs_free_energy number_of_links link_length persistance_length force temperature |}.

(* /repo/src/physics/single_chain/wlc/thermodynamics/isotensional/ex.rs:37-40 *)
Definition physics_single_chain_wlc_thermodynamics_isotensional_relative_gibbs_free_energy_per_link : symbol T :=
  {| sig := [UInt8; Float64; Float64; Float64; Float64];
     body := fun number_of_links link_length persistance_length force temperature =>
       extern.physics_single_chain_wlc_thermodynamics_isotensional_relative_gibbs_free_energy_per_link number_of_links link_length persistance_length force temperature |}.

(* /repo/src/physics/single_chain/wlc/thermodynamics/isotensional/ex.rs:42-45 *)
Definition physics_single_chain_wlc_thermodynamics_isotensional_nondimensional_gibbs_free_energy : symbol T :=
  {| sig := [UInt8; Float64; Float64; Float64; Float64; Float64];
     body := fun number_of_links link_length hinge_mass nondimensional_persistance_length nondimensional_force temperature =>
       extern.physics_single_chain_wlc_thermodynamics_isotensional_nondimensional_gibbs_free_energy number_of_links link_length hinge_mass nondimensional_persistance_length nondimensional_force temperature |}.

(* /repo/src/physics/single_chain/wlc/thermodynamics/isotensional/ex.rs:47-50 *)
Definition physics_single_chain_wlc_thermodynamics_isotensional_nondimensional_gibbs_free_energy_per_link : symbol T :=
  {| sig := [UInt8; Float64; Float64; Float64; Float64; Float64];
     body := fun number_of_links link_length hinge_mass nondimensional_persistance_length nondimensional_force temperature =>
       extern.physics_single_chain_wlc_thermodynamics_isotensional_nondimensional_gibbs_free_energy_per_link number_of_links link_length hinge_mass nondimensional_persistance_length nondimensional_force temperature |}.

(* /repo/src/physics/single_chain/wlc/thermodynamics/isotensional/ex.rs:52-55 *)
Definition physics_single_chain_wlc_thermodynamics_isotensional_nondimensional_relative_gibbs_free_energy : symbol T :=
  {| sig := [UInt8; Float64; Float64];
     body := fun number_of_links nondimensional_persistance_length nondimensional_force =>
       extern.physics_single_chain_wlc_thermodynamics_isotensional_nondimensional_relative_gibbs_free_energy number_of_links nondimensional_persistance_length nondimensional_force |}.

(* /repo/src/physics/single_chain/wlc/thermodynamics/isotensional/ex.rs:57-60 *)
Definition physics_single_chain_wlc_thermodynamics_isotensional_nondimensional_relative_gibbs_free_energy_per_link : symbol T :=
  {| sig := [UInt8; Float64; Float64];
     body := fun number_of_links nondimensional_persistance_length nondimensional_force =>
       extern.physics_single_chain_wlc_thermodynamics_isotensional_nondimensional_relative_gibbs_free_energy_per_link number_of_links nondimensional_persistance_length nondimensional_force |}.

(* /repo/src/physics/single_chain/wlc/thermodynamics/isotensional/legendre/ex.rs:2-5 *)
Definition physics_single_chain_wlc_thermodynamics_isotensional_legendre_helmholtz_free_energy : symbol T :=
  {| sig := [UInt8; Float64; Float64; Float64; Float64; Float64];
     body := fun number_of_links link_length hinge_mass persistance_length force temperature =>
       extern.physics_single_chain_wlc_thermodynamics_isotensional_legendre_helmholtz_free_energy number_of_links link_length hinge_mass persistance_length force temperature |}.

(* /repo/src/physics/single_chain/wlc/thermodynamics/isotensional/legendre/ex.rs:7-10 *)
Definition physics_single_chain_wlc_thermodynamics_isotensional_legendre_helmholtz_free_energy_per_link : symbol T :=
  {| sig := [UInt8; Float64; Float64; Float64; Float64; Float64];
     body := fun number_of_links link_length hinge_mass persistance_length force temperature =>
       extern.physics_single_chain_wlc_thermodynamics_isotensional_legendre_helmholtz_free_energy_per_link number_of_links link_length hinge_mass persistance_length force temperature |}.

(* /repo/src/physics/single_chain/wlc/thermodynamics/isotensional/legendre/ex.rs:12-15 *)
Definition physics_single_chain_wlc_thermodynamics_isotensional_legendre_relative_helmholtz_free_energy : symbol T :=
  {| sig := [UInt8; Float64; Float64; Float64; Float64];
     body := fun number_of_links link_length persistance_length force temperature =>
       extern.physics_single_chain_wlc_thermodynamics_isotensional_legendre_relative_helmholtz_free_energy number_of_links link_length persistance_length force temperature |}.

(* /repo/src/physics/single_chain/wlc/thermodynamics/isotensional/legendre/ex.rs:17-20 *)
Definition physics_single_chain_wlc_thermodynamics_isotensional_legendre_relative_helmholtz_free_energy_per_link : symbol T :=
  {| sig := [UInt8; Float64; Float64; Float64; Float64];
     body := fun number_of_links link_length persistance_length force temperature =>
       extern.physics_single_chain_wlc_thermodynamics_isotensional_legendre_relative_helmholtz_free_energy_per_link number_of_links link_length persistance_length force temperature |}.

(* /repo/src/physics/single_chain/wlc/thermodynamics/isotensional/legendre/ex.rs:22-25 *)
Definition physics_single_chain_wlc_thermodynamics_isotensional_legendre_nondimensional_helmholtz_free_energy : symbol T :=
  {| sig := [UInt8; Float64; Float64; Float64; Float64; Float64];
     body := fun number_of_links link_length hinge_mass nondimensional_persistance_length nondimensional_force temperature =>
       extern.physics_single_chain_wlc_thermodynamics_isotensional_legendre_nondimensional_helmholtz_free_energy number_of_links link_length hinge_mass nondimensional_persistance_length nondimensional_force temperature |}.

(* /repo/src/physics/single_chain/wlc/thermodynamics/isotensional/legendre/ex.rs:27-30 *)
Definition physics_single_chain_wlc_thermodynamics_isotensional_legendre_nondimensional_helmholtz_free_energy_per_link : symbol T :=
  {| sig := [UInt8; Float64; Float64; Float64; Float64; Float64];
     body := fun number_of_links link_length hinge_mass nondimensional_persistance_length nondimensional_force temperature =>
       extern.physics_single_chain_wlc_thermodynamics_isotensional_legendre_nondimensional_helmholtz_free_energy_per_link number_of_links link_length hinge_mass nondimensional_persistance_length nondimensional_force temperature |}.

(* /repo/src/physics/single_chain/wlc/thermodynamics/isotensional/legendre/ex.rs:32-35 *)
Definition physics_single_chain_wlc_thermodynamics_isotensional_legendre_nondimensional_relative_helmholtz_free_energy : symbol T :=
  {| sig := [UInt8; Float64; Float64];
     body := fun number_of_links nondimensional_persistance_length nondimensional_force =>
       extern.physics_single_chain_wlc_thermodynamics_isotensional_legendre_nondimensional_relative_helmholtz_free_energy number_of_links nondimensional_persistance_length nondimensional_force |}.

(* /repo/src/physics/single_chain/wlc/thermodynamics/isotensional/legendre/ex.rs:37-40 *)
Definition physics_single_chain_wlc_thermodynamics_isotensional_legendre_nondimensional_relative_helmholtz_free_energy_per_link : symbol T :=
  {| sig := [UInt8; Float64; Float64];
     body := fun number_of_links nondimensional_persistance_length nondimensional_force =>
       extern.physics_single_chain_wlc_thermodynamics_isotensional_legendre_nondimensional_relative_helmholtz_free_energy_per_link number_of_links nondimensional_persistance_length nondimensional_force |}.

End Model.
End lib.

(** /repo/src/physics/single_chain/ufjc/lennard_jones/thermodynamics/isometric/asymptotic/reduced/legendre/mod.jl *)
Module jl_lennard_jones_isometric_asymptotic_reduced_legendre.
Section Model.
Context {T : Type} {Sc : Scalar T}.

(* /repo/src/physics/single_chain/ufjc/lennard_jones/thermodynamics/isometric/asymptotic/reduced/legendre/mod.jl:81-114 *)
Definition force (number_of_links : jarray Z) (link_length : jarray T) (link_stiffness : jarray T)
    (end_to_end_length : jarray T) (temperature : jarray T) : result T :=
  broadcast [UInt8; Float64; Float64; Float64; Float64] (fun number_of_links_i link_length_i
      link_stiffness_i end_to_end_length_i temperature_i => ccall
      lib.physics_single_chain_ufjc_lennard_jones_thermodynamics_isometric_asymptotic_reduced_legendre_force
      [UInt8; Float64; Float64; Float64; Float64] number_of_links_i link_length_i link_stiffness_i
      end_to_end_length_i temperature_i) number_of_links link_length link_stiffness
      end_to_end_length temperature.

(* /repo/src/physics/single_chain/ufjc/lennard_jones/thermodynamics/isometric/asymptotic/reduced/legendre/mod.jl:122-141 *)
Definition nondimensional_force (nondimensional_link_stiffness : jarray T)
    (nondimensional_end_to_end_length_per_link : jarray T) : result T :=
  broadcast [Float64; Float64] (fun nondimensional_link_stiffness_i
      nondimensional_end_to_end_length_per_link_i => ccall
      lib.physics_single_chain_ufjc_lennard_jones_thermodynamics_isometric_asymptotic_reduced_legendre_nondimensional_force
      [Float64; Float64] nondimensional_link_stiffness_i
      nondimensional_end_to_end_length_per_link_i) nondimensional_link_stiffness
      nondimensional_end_to_end_length_per_link.

(* /repo/src/physics/single_chain/ufjc/lennard_jones/thermodynamics/isometric/asymptotic/reduced/legendre/mod.jl:155-192 *)
Definition helmholtz_free_energy (number_of_links : jarray Z) (link_length : jarray T) (hinge_mass :
    jarray T) (link_stiffness : jarray T) (end_to_end_length : jarray T) (temperature : jarray T) :
    result T :=
  broadcast [UInt8; Float64; Float64; Float64; Float64; Float64] (fun number_of_links_i
      link_length_i hinge_mass_i link_stiffness_i end_to_end_length_i temperature_i => ccall
      lib.physics_single_chain_ufjc_lennard_jones_thermodynamics_isometric_asymptotic_reduced_legendre_helmholtz_free_energy
      [UInt8; Float64; Float64; Float64; Float64; Float64] number_of_links_i link_length_i
      hinge_mass_i link_stiffness_i end_to_end_length_i temperature_i) number_of_links link_length
      hinge_mass link_stiffness end_to_end_length temperature.

(* /repo/src/physics/single_chain/ufjc/lennard_jones/thermodynamics/isometric/asymptotic/reduced/legendre/mod.jl:200-237 *)
Definition helmholtz_free_energy_per_link (number_of_links : jarray Z) (link_length : jarray T)
    (hinge_mass : jarray T) (link_stiffness : jarray T) (end_to_end_length : jarray T) (temperature
    : jarray T) : result T :=
  broadcast [UInt8; Float64; Float64; Float64; Float64; Float64] (fun number_of_links_i
      link_length_i hinge_mass_i link_stiffness_i end_to_end_length_i temperature_i => ccall
      lib.physics_single_chain_ufjc_lennard_jones_thermodynamics_isometric_asymptotic_reduced_legendre_helmholtz_free_energy_per_link
      [UInt8; Float64; Float64; Float64; Float64; Float64] number_of_links_i link_length_i
      hinge_mass_i link_stiffness_i end_to_end_length_i temperature_i) number_of_links link_length
      hinge_mass link_stiffness end_to_end_length temperature.

(* /repo/src/physics/single_chain/ufjc/lennard_jones/thermodynamics/isometric/asymptotic/reduced/legendre/mod.jl:245-278 *)
Definition relative_helmholtz_free_energy (number_of_links : jarray Z) (link_length : jarray T)
    (link_stiffness : jarray T) (end_to_end_length : jarray T) (temperature : jarray T) : result T
    :=
  broadcast [UInt8; Float64; Float64; Float64; Float64] (fun number_of_links_i link_length_i
      link_stiffness_i end_to_end_length_i temperature_i => ccall
      lib.physics_single_chain_ufjc_lennard_jones_thermodynamics_isometric_asymptotic_reduced_legendre_relative_helmholtz_free_energy
      [UInt8; Float64; Float64; Float64; Float64] number_of_links_i link_length_i link_stiffness_i
      end_to_end_length_i temperature_i) number_of_links link_length link_stiffness
      end_to_end_length temperature.

(* /repo/src/physics/single_chain/ufjc/lennard_jones/thermodynamics/isometric/asymptotic/reduced/legendre/mod.jl:286-319 *)
Definition relative_helmholtz_free_energy_per_link (number_of_links : jarray Z) (link_length :
    jarray T) (link_stiffness : jarray T) (end_to_end_length : jarray T) (temperature : jarray T) :
    result T :=
  broadcast [UInt8; Float64; Float64; Float64; Float64] (fun number_of_links_i link_length_i
      link_stiffness_i end_to_end_length_i temperature_i => ccall
      lib.physics_single_chain_ufjc_lennard_jones_thermodynamics_isometric_asymptotic_reduced_legendre_relative_helmholtz_free_energy_per_link
      [UInt8; Float64; Float64; Float64; Float64] number_of_links_i link_length_i link_stiffness_i
      end_to_end_length_i temperature_i) number_of_links link_length link_stiffness
      end_to_end_length temperature.

(* /repo/src/physics/single_chain/ufjc/lennard_jones/thermodynamics/isometric/asymptotic/reduced/legendre/mod.jl:327-364 *)
Definition nondimensional_helmholtz_free_energy (number_of_links : jarray Z) (link_length : jarray
    T) (hinge_mass : jarray T) (nondimensional_link_stiffness : jarray T)
    (nondimensional_end_to_end_length_per_link : jarray T) (temperature : jarray T) : result T :=
  broadcast [UInt8; Float64; Float64; Float64; Float64; Float64] (fun number_of_links_i
      link_length_i hinge_mass_i nondimensional_link_stiffness_i
      nondimensional_end_to_end_length_per_link_i temperature_i => ccall
      lib.physics_single_chain_ufjc_lennard_jones_thermodynamics_isometric_asymptotic_reduced_legendre_nondimensional_helmholtz_free_energy
      [UInt8; Float64; Float64; Float64; Float64; Float64] number_of_links_i link_length_i
      hinge_mass_i nondimensional_link_stiffness_i nondimensional_end_to_end_length_per_link_i
      temperature_i) number_of_links link_length hinge_mass nondimensional_link_stiffness
      nondimensional_end_to_end_length_per_link temperature.

(* /repo/src/physics/single_chain/ufjc/lennard_jones/thermodynamics/isometric/asymptotic/reduced/legendre/mod.jl:372-409 *)
Definition nondimensional_helmholtz_free_energy_per_link (number_of_links : jarray Z) (link_length :
    jarray T) (hinge_mass : jarray T) (nondimensional_link_stiffness : jarray T)
    (nondimensional_end_to_end_length_per_link : jarray T) (temperature : jarray T) : result T :=
  broadcast [UInt8; Float64; Float64; Float64; Float64; Float64] (fun number_of_links_i
      link_length_i hinge_mass_i nondimensional_link_stiffness_i
      nondimensional_end_to_end_length_per_link_i temperature_i => ccall
      lib.physics_single_chain_ufjc_lennard_jones_thermodynamics_isometric_asymptotic_reduced_legendre_nondimensional_helmholtz_free_energy_per_link
      [UInt8; Float64; Float64; Float64; Float64; Float64] number_of_links_i link_length_i
      hinge_mass_i nondimensional_link_stiffness_i nondimensional_end_to_end_length_per_link_i
      temperature_i) number_of_links link_length hinge_mass nondimensional_link_stiffness
      nondimensional_end_to_end_length_per_link temperature.

(* /repo/src/physics/single_chain/ufjc/lennard_jones/thermodynamics/isometric/asymptotic/reduced/legendre/mod.jl:417-442 *)
Definition nondimensional_relative_helmholtz_free_energy (number_of_links : jarray Z)
    (nondimensional_link_stiffness : jarray T) (nondimensional_end_to_end_length_per_link : jarray
    T) : result T :=
  broadcast [UInt8; Float64; Float64] (fun number_of_links_i nondimensional_link_stiffness_i
      nondimensional_end_to_end_length_per_link_i => ccall
      lib.physics_single_chain_ufjc_lennard_jones_thermodynamics_isometric_asymptotic_reduced_legendre_nondimensional_relative_helmholtz_free_energy
      [UInt8; Float64; Float64] number_of_links_i nondimensional_link_stiffness_i
      nondimensional_end_to_end_length_per_link_i) number_of_links nondimensional_link_stiffness
      nondimensional_end_to_end_length_per_link.

(* /repo/src/physics/single_chain/ufjc/lennard_jones/thermodynamics/isometric/asymptotic/reduced/legendre/mod.jl:450-469 *)
Definition nondimensional_relative_helmholtz_free_energy_per_link (nondimensional_link_stiffness :
    jarray T) (nondimensional_end_to_end_length_per_link : jarray T) : result T :=
  broadcast [Float64; Float64] (fun nondimensional_link_stiffness_i
      nondimensional_end_to_end_length_per_link_i => ccall
      lib.physics_single_chain_ufjc_lennard_jones_thermodynamics_isometric_asymptotic_reduced_legendre_nondimensional_relative_helmholtz_free_energy_per_link
      [Float64; Float64] nondimensional_link_stiffness_i
      nondimensional_end_to_end_length_per_link_i) nondimensional_link_stiffness
      nondimensional_end_to_end_length_per_link.

End Model.
End jl_lennard_jones_isometric_asymptotic_reduced_legendre.

(** /repo/src/physics/single_chain/ufjc/lennard_jones/thermodynamics/isometric/asymptotic/reduced/legendre/mod.jl: struct LENNARDJONESFJC *)
Module J_lennard_jones_isometric_asymptotic_reduced_legendre.
(* /repo/src/physics/single_chain/ufjc/lennard_jones/thermodynamics/isometric/asymptotic/reduced/legendre/mod.jl:16-73 *)
Record t {T : Type} := {
  number_of_links : Z;
  link_length : T;
  hinge_mass : T;
  link_stiffness : T;
  force : jarray T -> jarray T -> result T;
  nondimensional_force : jarray T -> T -> result T;
  helmholtz_free_energy : jarray T -> jarray T -> result T;
  helmholtz_free_energy_per_link : jarray T -> jarray T -> result T;
  relative_helmholtz_free_energy : jarray T -> jarray T -> result T;
  relative_helmholtz_free_energy_per_link : jarray T -> jarray T -> result T;
  nondimensional_helmholtz_free_energy : jarray T -> T -> result T;
  nondimensional_helmholtz_free_energy_per_link : jarray T -> T -> result T;
  nondimensional_relative_helmholtz_free_energy : jarray T -> T -> result T;
  nondimensional_relative_helmholtz_free_energy_per_link : jarray T -> T -> result T }.
Arguments t : clear implicits.
Section Model.
Context {T : Type} {Sc : Scalar T}.

(* /repo/src/physics/single_chain/ufjc/lennard_jones/thermodynamics/isometric/asymptotic/reduced/legendre/mod.jl:476-559 *)
Definition init (number_of_links : Z) (link_length : T) (hinge_mass : T) (link_stiffness : T) : t T
    :=
  {| number_of_links := number_of_links;
     link_length := link_length;
     hinge_mass := hinge_mass;
     link_stiffness := link_stiffness;
     force := fun end_to_end_length temperature =>
       jl_lennard_jones_isometric_asymptotic_reduced_legendre.force (num number_of_links) (num
       link_length) (num link_stiffness) end_to_end_length temperature;
     nondimensional_force := fun nondimensional_end_to_end_length_per_link temperature =>
       jl_lennard_jones_isometric_asymptotic_reduced_legendre.nondimensional_force (num
       (link_stiffness * spowi link_length 2 / jl_BOLTZMANN_CONSTANT / temperature))
       nondimensional_end_to_end_length_per_link;
     helmholtz_free_energy := fun end_to_end_length temperature =>
       jl_lennard_jones_isometric_asymptotic_reduced_legendre.helmholtz_free_energy (num
       number_of_links) (num link_length) (num hinge_mass) (num link_stiffness) end_to_end_length
       temperature;
     helmholtz_free_energy_per_link := fun end_to_end_length temperature =>
       jl_lennard_jones_isometric_asymptotic_reduced_legendre.helmholtz_free_energy_per_link (num
       number_of_links) (num link_length) (num hinge_mass) (num link_stiffness) end_to_end_length
       temperature;
     relative_helmholtz_free_energy := fun end_to_end_length temperature =>
       jl_lennard_jones_isometric_asymptotic_reduced_legendre.relative_helmholtz_free_energy (num
       number_of_links) (num link_length) (num link_stiffness) end_to_end_length temperature;
     relative_helmholtz_free_energy_per_link := fun end_to_end_length temperature =>
       jl_lennard_jones_isometric_asymptotic_reduced_legendre.relative_helmholtz_free_energy_per_link
       (num number_of_links) (num link_length) (num link_stiffness) end_to_end_length temperature;
     nondimensional_helmholtz_free_energy := fun nondimensional_end_to_end_length_per_link temperature =>
       jl_lennard_jones_isometric_asymptotic_reduced_legendre.nondimensional_helmholtz_free_energy
       (num number_of_links) (num link_length) (num hinge_mass) (num (link_stiffness * spowi
       link_length 2 / jl_BOLTZMANN_CONSTANT / temperature))
       nondimensional_end_to_end_length_per_link (num temperature);
     nondimensional_helmholtz_free_energy_per_link := fun nondimensional_end_to_end_length_per_link
       temperature =>
       jl_lennard_jones_isometric_asymptotic_reduced_legendre.nondimensional_helmholtz_free_energy_per_link
       (num number_of_links) (num link_length) (num hinge_mass) (num (link_stiffness * spowi
       link_length 2 / jl_BOLTZMANN_CONSTANT / temperature))
       nondimensional_end_to_end_length_per_link (num temperature);
     nondimensional_relative_helmholtz_free_energy := fun nondimensional_end_to_end_length_per_link
       temperature =>
       jl_lennard_jones_isometric_asymptotic_reduced_legendre.nondimensional_relative_helmholtz_free_energy
       (num number_of_links) (num (link_stiffness * spowi link_length 2 / jl_BOLTZMANN_CONSTANT /
       temperature)) nondimensional_end_to_end_length_per_link;
     nondimensional_relative_helmholtz_free_energy_per_link := fun
       nondimensional_end_to_end_length_per_link temperature =>
       jl_lennard_jones_isometric_asymptotic_reduced_legendre.nondimensional_relative_helmholtz_free_energy_per_link
       (num (link_stiffness * spowi link_length 2 / jl_BOLTZMANN_CONSTANT / temperature))
       nondimensional_end_to_end_length_per_link |}.

End Model.
End J_lennard_jones_isometric_asymptotic_reduced_legendre.

(** /repo/src/physics/single_chain/ufjc/lennard_jones/thermodynamics/isotensional/asymptotic/reduced/legendre/mod.jl *)
Module jl_lennard_jones_isotensional_asymptotic_reduced_legendre.
Section Model.
Context {T : Type} {Sc : Scalar T}.

(* /repo/src/physics/single_chain/ufjc/lennard_jones/thermodynamics/isotensional/asymptotic/reduced/legendre/mod.jl:77-114 *)
Definition helmholtz_free_energy (number_of_links : jarray Z) (link_length : jarray T) (hinge_mass :
    jarray T) (link_stiffness : jarray T) (force : jarray T) (temperature : jarray T) : result T :=
  broadcast [UInt8; Float64; Float64; Float64; Float64; Float64] (fun number_of_links_i
      link_length_i hinge_mass_i link_stiffness_i force_i temperature_i => ccall
      lib.physics_single_chain_ufjc_lennard_jones_thermodynamics_isotensional_asymptotic_reduced_legendre_helmholtz_free_energy
      [UInt8; Float64; Float64; Float64; Float64; Float64] number_of_links_i link_length_i
      hinge_mass_i link_stiffness_i force_i temperature_i) number_of_links link_length hinge_mass
      link_stiffness force temperature.

(* /repo/src/physics/single_chain/ufjc/lennard_jones/thermodynamics/isotensional/asymptotic/reduced/legendre/mod.jl:122-149 *)
Definition helmholtz_free_energy_per_link (link_length : jarray T) (hinge_mass : jarray T)
    (link_stiffness : jarray T) (force : jarray T) (temperature : jarray T) : result T :=
  broadcast [Float64; Float64; Float64; Float64; Float64] (fun link_length_i hinge_mass_i
      link_stiffness_i force_i temperature_i => ccall
      lib.physics_single_chain_ufjc_lennard_jones_thermodynamics_isotensional_asymptotic_reduced_legendre_helmholtz_free_energy_per_link
      [Float64; Float64; Float64; Float64; Float64] link_length_i hinge_mass_i link_stiffness_i
      force_i temperature_i) link_length hinge_mass link_stiffness force temperature.

(* /repo/src/physics/single_chain/ufjc/lennard_jones/thermodynamics/isotensional/asymptotic/reduced/legendre/mod.jl:157-185 *)
Definition relative_helmholtz_free_energy (number_of_links : jarray Z) (link_length : jarray T)
    (link_stiffness : jarray T) (force : jarray T) (temperature : jarray T) : result T :=
  broadcast [UInt8; Float64; Float64; Float64; Float64] (fun number_of_links_i link_length_i
      link_stiffness_i force_i temperature_i => ccall
      lib.physics_single_chain_ufjc_lennard_jones_thermodynamics_isotensional_asymptotic_reduced_legendre_relative_helmholtz_free_energy
      [UInt8; Float64; Float64; Float64; Float64] number_of_links_i link_length_i link_stiffness_i
      force_i temperature_i) number_of_links link_length link_stiffness force temperature.

(* /repo/src/physics/single_chain/ufjc/lennard_jones/thermodynamics/isotensional/asymptotic/reduced/legendre/mod.jl:193-217 *)
Definition relative_helmholtz_free_energy_per_link (link_length : jarray T) (link_stiffness : jarray
    T) (force : jarray T) (temperature : jarray T) : result T :=
  broadcast [Float64; Float64; Float64; Float64] (fun link_length_i link_stiffness_i force_i
      temperature_i => ccall
      lib.physics_single_chain_ufjc_lennard_jones_thermodynamics_isotensional_asymptotic_reduced_legendre_relative_helmholtz_free_energy_per_link
      [Float64; Float64; Float64; Float64] link_length_i link_stiffness_i force_i temperature_i)
      link_length link_stiffness force temperature.

(* /repo/src/physics/single_chain/ufjc/lennard_jones/thermodynamics/isotensional/asymptotic/reduced/legendre/mod.jl:225-262 *)
Definition nondimensional_helmholtz_free_energy (number_of_links : jarray Z) (link_length : jarray
    T) (hinge_mass : jarray T) (nondimensional_link_stiffness : jarray T) (nondimensional_force :
    jarray T) (temperature : jarray T) : result T :=
  broadcast [UInt8; Float64; Float64; Float64; Float64; Float64] (fun number_of_links_i
      link_length_i hinge_mass_i nondimensional_link_stiffness_i nondimensional_force_i
      temperature_i => ccall
      lib.physics_single_chain_ufjc_lennard_jones_thermodynamics_isotensional_asymptotic_reduced_legendre_nondimensional_helmholtz_free_energy
      [UInt8; Float64; Float64; Float64; Float64; Float64] number_of_links_i link_length_i
      hinge_mass_i nondimensional_link_stiffness_i nondimensional_force_i temperature_i)
      number_of_links link_length hinge_mass nondimensional_link_stiffness nondimensional_force
      temperature.

(* /repo/src/physics/single_chain/ufjc/lennard_jones/thermodynamics/isotensional/asymptotic/reduced/legendre/mod.jl:270-303 *)
Definition nondimensional_helmholtz_free_energy_per_link (link_length : jarray T) (hinge_mass :
    jarray T) (nondimensional_link_stiffness : jarray T) (nondimensional_force : jarray T)
    (temperature : jarray T) : result T :=
  broadcast [Float64; Float64; Float64; Float64; Float64] (fun link_length_i hinge_mass_i
      link_stiffness_i nondimensional_force_i temperature_i => ccall
      lib.physics_single_chain_ufjc_lennard_jones_thermodynamics_isotensional_asymptotic_reduced_legendre_nondimensional_helmholtz_free_energy_per_link
      [Float64; Float64; Float64; Float64; Float64] link_length_i hinge_mass_i link_stiffness_i
      nondimensional_force_i temperature_i) link_length hinge_mass nondimensional_link_stiffness
      nondimensional_force temperature.

(* /repo/src/physics/single_chain/ufjc/lennard_jones/thermodynamics/isotensional/asymptotic/reduced/legendre/mod.jl:311-333 *)
Definition nondimensional_relative_helmholtz_free_energy (number_of_links : jarray Z)
    (nondimensional_link_stiffness : jarray T) (nondimensional_force : jarray T) : result T :=
  broadcast [UInt8; Float64; Float64] (fun number_of_links_i nondimensional_link_stiffness_i
      nondimensional_force_i => ccall
      lib.physics_single_chain_ufjc_lennard_jones_thermodynamics_isotensional_asymptotic_reduced_legendre_nondimensional_relative_helmholtz_free_energy
      [UInt8; Float64; Float64] number_of_links_i nondimensional_link_stiffness_i
      nondimensional_force_i) number_of_links nondimensional_link_stiffness nondimensional_force.

(* /repo/src/physics/single_chain/ufjc/lennard_jones/thermodynamics/isotensional/asymptotic/reduced/legendre/mod.jl:341-359 *)
Definition nondimensional_relative_helmholtz_free_energy_per_link (nondimensional_link_stiffness :
    jarray T) (nondimensional_force : jarray T) : result T :=
  broadcast [Float64; Float64] (fun nondimensional_link_stiffness_i nondimensional_force_i => ccall
      lib.physics_single_chain_ufjc_lennard_jones_thermodynamics_isotensional_asymptotic_reduced_legendre_nondimensional_relative_helmholtz_free_energy_per_link
      [Float64; Float64] nondimensional_link_stiffness_i nondimensional_force_i)
      nondimensional_link_stiffness nondimensional_force.

End Model.
End jl_lennard_jones_isotensional_asymptotic_reduced_legendre.

(** /repo/src/physics/single_chain/ufjc/lennard_jones/thermodynamics/isotensional/asymptotic/reduced/legendre/mod.jl: struct LENNARDJONESFJC *)
Module J_lennard_jones_isotensional_asymptotic_reduced_legendre.
(* /repo/src/physics/single_chain/ufjc/lennard_jones/thermodynamics/isotensional/asymptotic/reduced/legendre/mod.jl:16-65 *)
Record t {T : Type} := {
  number_of_links : Z;
  link_length : T;
  hinge_mass : T;
  link_stiffness : T;
  helmholtz_free_energy : jarray T -> jarray T -> result T;
  helmholtz_free_energy_per_link : jarray T -> jarray T -> result T;
  relative_helmholtz_free_energy : jarray T -> jarray T -> result T;
  relative_helmholtz_free_energy_per_link : jarray T -> jarray T -> result T;
  nondimensional_helmholtz_free_energy : jarray T -> T -> result T;
  nondimensional_helmholtz_free_energy_per_link : jarray T -> T -> result T;
  nondimensional_relative_helmholtz_free_energy : jarray T -> T -> result T;
  nondimensional_relative_helmholtz_free_energy_per_link : jarray T -> T -> result T }.
Arguments t : clear implicits.
Section Model.
Context {T : Type} {Sc : Scalar T}.

(* /repo/src/physics/single_chain/ufjc/lennard_jones/thermodynamics/isotensional/asymptotic/reduced/legendre/mod.jl:366-434 *)
Definition init (number_of_links : Z) (link_length : T) (hinge_mass : T) (link_stiffness : T) : t T
    :=
  {| number_of_links := number_of_links;
     link_length := link_length;
     hinge_mass := hinge_mass;
     link_stiffness := link_stiffness;
     helmholtz_free_energy := fun force temperature =>
       jl_lennard_jones_isotensional_asymptotic_reduced_legendre.helmholtz_free_energy (num
       number_of_links) (num link_length) (num hinge_mass) (num link_stiffness) force temperature;
     helmholtz_free_energy_per_link := fun force temperature =>
       jl_lennard_jones_isotensional_asymptotic_reduced_legendre.helmholtz_free_energy_per_link (num
       link_length) (num hinge_mass) (num link_stiffness) force temperature;
     relative_helmholtz_free_energy := fun force temperature =>
       jl_lennard_jones_isotensional_asymptotic_reduced_legendre.relative_helmholtz_free_energy (num
       number_of_links) (num link_length) (num link_stiffness) force temperature;
     relative_helmholtz_free_energy_per_link := fun force temperature =>
       jl_lennard_jones_isotensional_asymptotic_reduced_legendre.relative_helmholtz_free_energy_per_link
       (num link_length) (num link_stiffness) force temperature;
     nondimensional_helmholtz_free_energy := fun nondimensional_force temperature =>
       jl_lennard_jones_isotensional_asymptotic_reduced_legendre.nondimensional_helmholtz_free_energy
       (num number_of_links) (num link_length) (num hinge_mass) (num (link_stiffness * spowi
       link_length 2 / jl_BOLTZMANN_CONSTANT / temperature)) nondimensional_force (num temperature);
     nondimensional_helmholtz_free_energy_per_link := fun nondimensional_force temperature =>
       jl_lennard_jones_isotensional_asymptotic_reduced_legendre.nondimensional_helmholtz_free_energy_per_link
       (num link_length) (num hinge_mass) (num (link_stiffness * spowi link_length 2 /
       jl_BOLTZMANN_CONSTANT / temperature)) nondimensional_force (num temperature);
     nondimensional_relative_helmholtz_free_energy := fun nondimensional_force temperature =>
       jl_lennard_jones_isotensional_asymptotic_reduced_legendre.nondimensional_relative_helmholtz_free_energy
       (num number_of_links) (num (link_stiffness * spowi link_length 2 / jl_BOLTZMANN_CONSTANT /
       temperature)) nondimensional_force;
     nondimensional_relative_helmholtz_free_energy_per_link := fun nondimensional_force temperature =>
       jl_lennard_jones_isotensional_asymptotic_reduced_legendre.nondimensional_relative_helmholtz_free_energy_per_link
       (num (link_stiffness * spowi link_length 2 / jl_BOLTZMANN_CONSTANT / temperature))
       nondimensional_force |}.

End Model.
End J_lennard_jones_isotensional_asymptotic_reduced_legendre.

(** /repo/src/physics/single_chain/ufjc/log_squared/thermodynamics/isometric/asymptotic/reduced/legendre/mod.jl *)
Module jl_log_squared_isometric_asymptotic_reduced_legendre.
Section Model.
Context {T : Type} {Sc : Scalar T}.

(* /repo/src/physics/single_chain/ufjc/log_squared/thermodynamics/isometric/asymptotic/reduced/legendre/mod.jl:81-114 *)
Definition force (number_of_links : jarray Z) (link_length : jarray T) (link_stiffness : jarray T)
    (end_to_end_length : jarray T) (temperature : jarray T) : result T :=
  broadcast [UInt8; Float64; Float64; Float64; Float64] (fun number_of_links_i link_length_i
      link_stiffness_i end_to_end_length_i temperature_i => ccall
      lib.physics_single_chain_ufjc_log_squared_thermodynamics_isometric_asymptotic_reduced_legendre_force
      [UInt8; Float64; Float64; Float64; Float64] number_of_links_i link_length_i link_stiffness_i
      end_to_end_length_i temperature_i) number_of_links link_length link_stiffness
      end_to_end_length temperature.

(* /repo/src/physics/single_chain/ufjc/log_squared/thermodynamics/isometric/asymptotic/reduced/legendre/mod.jl:122-141 *)
Definition nondimensional_force (nondimensional_link_stiffness : jarray T)
    (nondimensional_end_to_end_length_per_link : jarray T) : result T :=
  broadcast [Float64; Float64] (fun nondimensional_link_stiffness_i
      nondimensional_end_to_end_length_per_link_i => ccall
      lib.physics_single_chain_ufjc_log_squared_thermodynamics_isometric_asymptotic_reduced_legendre_nondimensional_force
      [Float64; Float64] nondimensional_link_stiffness_i
      nondimensional_end_to_end_length_per_link_i) nondimensional_link_stiffness
      nondimensional_end_to_end_length_per_link.

(* /repo/src/physics/single_chain/ufjc/log_squared/thermodynamics/isometric/asymptotic/reduced/legendre/mod.jl:155-192 *)
Definition helmholtz_free_energy (number_of_links : jarray Z) (link_length : jarray T) (hinge_mass :
    jarray T) (link_stiffness : jarray T) (end_to_end_length : jarray T) (temperature : jarray T) :
    result T :=
  broadcast [UInt8; Float64; Float64; Float64; Float64; Float64] (fun number_of_links_i
      link_length_i hinge_mass_i link_stiffness_i end_to_end_length_i temperature_i => ccall
      lib.physics_single_chain_ufjc_log_squared_thermodynamics_isometric_asymptotic_reduced_legendre_helmholtz_free_energy
      [UInt8; Float64; Float64; Float64; Float64; Float64] number_of_links_i link_length_i
      hinge_mass_i link_stiffness_i end_to_end_length_i temperature_i) number_of_links link_length
      hinge_mass link_stiffness end_to_end_length temperature.

(* /repo/src/physics/single_chain/ufjc/log_squared/thermodynamics/isometric/asymptotic/reduced/legendre/mod.jl:200-237 *)
Definition helmholtz_free_energy_per_link (number_of_links : jarray Z) (link_length : jarray T)
    (hinge_mass : jarray T) (link_stiffness : jarray T) (end_to_end_length : jarray T) (temperature
    : jarray T) : result T :=
  broadcast [UInt8; Float64; Float64; Float64; Float64; Float64] (fun number_of_links_i
      link_length_i hinge_mass_i link_stiffness_i end_to_end_length_i temperature_i => ccall
      lib.physics_single_chain_ufjc_log_squared_thermodynamics_isometric_asymptotic_reduced_legendre_helmholtz_free_energy_per_link
      [UInt8; Float64; Float64; Float64; Float64; Float64] number_of_links_i link_length_i
      hinge_mass_i link_stiffness_i end_to_end_length_i temperature_i) number_of_links link_length
      hinge_mass link_stiffness end_to_end_length temperature.

(* /repo/src/physics/single_chain/ufjc/log_squared/thermodynamics/isometric/asymptotic/reduced/legendre/mod.jl:245-278 *)
Definition relative_helmholtz_free_energy (number_of_links : jarray Z) (link_length : jarray T)
    (link_stiffness : jarray T) (end_to_end_length : jarray T) (temperature : jarray T) : result T
    :=
  broadcast [UInt8; Float64; Float64; Float64; Float64] (fun number_of_links_i link_length_i
      link_stiffness_i end_to_end_length_i temperature_i => ccall
      lib.physics_single_chain_ufjc_log_squared_thermodynamics_isometric_asymptotic_reduced_legendre_relative_helmholtz_free_energy
      [UInt8; Float64; Float64; Float64; Float64] number_of_links_i link_length_i link_stiffness_i
      end_to_end_length_i temperature_i) number_of_links link_length link_stiffness
      end_to_end_length temperature.

(* /repo/src/physics/single_chain/ufjc/log_squared/thermodynamics/isometric/asymptotic/reduced/legendre/mod.jl:286-319 *)
Definition relative_helmholtz_free_energy_per_link (number_of_links : jarray Z) (link_length :
    jarray T) (link_stiffness : jarray T) (end_to_end_length : jarray T) (temperature : jarray T) :
    result T :=
  broadcast [UInt8; Float64; Float64; Float64; Float64] (fun number_of_links_i link_length_i
      link_stiffness_i end_to_end_length_i temperature_i => ccall
      lib.physics_single_chain_ufjc_log_squared_thermodynamics_isometric_asymptotic_reduced_legendre_relative_helmholtz_free_energy_per_link
      [UInt8; Float64; Float64; Float64; Float64] number_of_links_i link_length_i link_stiffness_i
      end_to_end_length_i temperature_i) number_of_links link_length link_stiffness
      end_to_end_length temperature.

(* /repo/src/physics/single_chain/ufjc/log_squared/thermodynamics/isometric/asymptotic/reduced/legendre/mod.jl:327-364 *)
Definition nondimensional_helmholtz_free_energy (number_of_links : jarray Z) (link_length : jarray
    T) (hinge_mass : jarray T) (nondimensional_link_stiffness : jarray T)
    (nondimensional_end_to_end_length_per_link : jarray T) (temperature : jarray T) : result T :=
  broadcast [UInt8; Float64; Float64; Float64; Float64; Float64] (fun number_of_links_i
      link_length_i hinge_mass_i nondimensional_link_stiffness_i
      nondimensional_end_to_end_length_per_link_i temperature_i => ccall
      lib.physics_single_chain_ufjc_log_squared_thermodynamics_isometric_asymptotic_reduced_legendre_nondimensional_helmholtz_free_energy
      [UInt8; Float64; Float64; Float64; Float64; Float64] number_of_links_i link_length_i
      hinge_mass_i nondimensional_link_stiffness_i nondimensional_end_to_end_length_per_link_i
      temperature_i) number_of_links link_length hinge_mass nondimensional_link_stiffness
      nondimensional_end_to_end_length_per_link temperature.

(* /repo/src/physics/single_chain/ufjc/log_squared/thermodynamics/isometric/asymptotic/reduced/legendre/mod.jl:372-409 *)
Definition nondimensional_helmholtz_free_energy_per_link (number_of_links : jarray Z) (link_length :
    jarray T) (hinge_mass : jarray T) (nondimensional_link_stiffness : jarray T)
    (nondimensional_end_to_end_length_per_link : jarray T) (temperature : jarray T) : result T :=
  broadcast [UInt8; Float64; Float64; Float64; Float64; Float64] (fun number_of_links_i
      link_length_i hinge_mass_i nondimensional_link_stiffness_i
      nondimensional_end_to_end_length_per_link_i temperature_i => ccall
      lib.physics_single_chain_ufjc_log_squared_thermodynamics_isometric_asymptotic_reduced_legendre_nondimensional_helmholtz_free_energy_per_link
      [UInt8; Float64; Float64; Float64; Float64; Float64] number_of_links_i link_length_i
      hinge_mass_i nondimensional_link_stiffness_i nondimensional_end_to_end_length_per_link_i
      temperature_i) number_of_links link_length hinge_mass nondimensional_link_stiffness
      nondimensional_end_to_end_length_per_link temperature.

(* /repo/src/physics/single_chain/ufjc/log_squared/thermodynamics/isometric/asymptotic/reduced/legendre/mod.jl:417-442 *)
Definition nondimensional_relative_helmholtz_free_energy (number_of_links : jarray Z)
    (nondimensional_link_stiffness : jarray T) (nondimensional_end_to_end_length_per_link : jarray
    T) : result T :=
  broadcast [UInt8; Float64; Float64] (fun number_of_links_i nondimensional_link_stiffness_i
      nondimensional_end_to_end_length_per_link_i => ccall
      lib.physics_single_chain_ufjc_log_squared_thermodynamics_isometric_asymptotic_reduced_legendre_nondimensional_relative_helmholtz_free_energy
      [UInt8; Float64; Float64] number_of_links_i nondimensional_link_stiffness_i
      nondimensional_end_to_end_length_per_link_i) number_of_links nondimensional_link_stiffness
      nondimensional_end_to_end_length_per_link.

(* /repo/src/physics/single_chain/ufjc/log_squared/thermodynamics/isometric/asymptotic/reduced/legendre/mod.jl:450-469 *)
Definition nondimensional_relative_helmholtz_free_energy_per_link (nondimensional_link_stiffness :
    jarray T) (nondimensional_end_to_end_length_per_link : jarray T) : result T :=
  broadcast [Float64; Float64] (fun nondimensional_link_stiffness_i
      nondimensional_end_to_end_length_per_link_i => ccall
      lib.physics_single_chain_ufjc_log_squared_thermodynamics_isometric_asymptotic_reduced_legendre_nondimensional_relative_helmholtz_free_energy_per_link
      [Float64; Float64] nondimensional_link_stiffness_i
      nondimensional_end_to_end_length_per_link_i) nondimensional_link_stiffness
      nondimensional_end_to_end_length_per_link.

End Model.
End jl_log_squared_isometric_asymptotic_reduced_legendre.

(** /repo/src/physics/single_chain/ufjc/log_squared/thermodynamics/isometric/asymptotic/reduced/legendre/mod.jl: struct LOGSQUAREDFJC *)
Module J_log_squared_isometric_asymptotic_reduced_legendre.
(* /repo/src/physics/single_chain/ufjc/log_squared/thermodynamics/isometric/asymptotic/reduced/legendre/mod.jl:16-73 *)
Record t {T : Type} := {
  number_of_links : Z;
  link_length : T;
  hinge_mass : T;
  link_stiffness : T;
  force : jarray T -> jarray T -> result T;
  nondimensional_force : jarray T -> T -> result T;
  helmholtz_free_energy : jarray T -> jarray T -> result T;
  helmholtz_free_energy_per_link : jarray T -> jarray T -> result T;
  relative_helmholtz_free_energy : jarray T -> jarray T -> result T;
  relative_helmholtz_free_energy_per_link : jarray T -> jarray T -> result T;
  nondimensional_helmholtz_free_energy : jarray T -> T -> result T;
  nondimensional_helmholtz_free_energy_per_link : jarray T -> T -> result T;
  nondimensional_relative_helmholtz_free_energy : jarray T -> T -> result T;
  nondimensional_relative_helmholtz_free_energy_per_link : jarray T -> T -> result T }.
Arguments t : clear implicits.
Section Model.
Context {T : Type} {Sc : Scalar T}.

(* /repo/src/physics/single_chain/ufjc/log_squared/thermodynamics/isometric/asymptotic/reduced/legendre/mod.jl:476-559 *)
Definition init (number_of_links : Z) (link_length : T) (hinge_mass : T) (link_stiffness : T) : t T
    :=
  {| number_of_links := number_of_links;
     link_length := link_length;
     hinge_mass := hinge_mass;
     link_stiffness := link_stiffness;
     force := fun end_to_end_length temperature =>
       jl_log_squared_isometric_asymptotic_reduced_legendre.force (num number_of_links) (num
       link_length) (num link_stiffness) end_to_end_length temperature;
     nondimensional_force := fun nondimensional_end_to_end_length_per_link temperature =>
       jl_log_squared_isometric_asymptotic_reduced_legendre.nondimensional_force (num
       (link_stiffness * spowi link_length 2 / jl_BOLTZMANN_CONSTANT / temperature))
       nondimensional_end_to_end_length_per_link;
     helmholtz_free_energy := fun end_to_end_length temperature =>
       jl_log_squared_isometric_asymptotic_reduced_legendre.helmholtz_free_energy (num
       number_of_links) (num link_length) (num hinge_mass) (num link_stiffness) end_to_end_length
       temperature;
     helmholtz_free_energy_per_link := fun end_to_end_length temperature =>
       jl_log_squared_isometric_asymptotic_reduced_legendre.helmholtz_free_energy_per_link (num
       number_of_links) (num link_length) (num hinge_mass) (num link_stiffness) end_to_end_length
       temperature;
     relative_helmholtz_free_energy := fun end_to_end_length temperature =>
       jl_log_squared_isometric_asymptotic_reduced_legendre.relative_helmholtz_free_energy (num
       number_of_links) (num link_length) (num link_stiffness) end_to_end_length temperature;
     relative_helmholtz_free_energy_per_link := fun end_to_end_length temperature =>
       jl_log_squared_isometric_asymptotic_reduced_legendre.relative_helmholtz_free_energy_per_link
       (num number_of_links) (num link_length) (num link_stiffness) end_to_end_length temperature;
     nondimensional_helmholtz_free_energy := fun nondimensional_end_to_end_length_per_link temperature =>
       jl_log_squared_isometric_asymptotic_reduced_legendre.nondimensional_helmholtz_free_energy
       (num number_of_links) (num link_length) (num hinge_mass) (num (link_stiffness * spowi
       link_length 2 / jl_BOLTZMANN_CONSTANT / temperature))
       nondimensional_end_to_end_length_per_link (num temperature);
     nondimensional_helmholtz_free_energy_per_link := fun nondimensional_end_to_end_length_per_link
       temperature =>
       jl_log_squared_isometric_asymptotic_reduced_legendre.nondimensional_helmholtz_free_energy_per_link
       (num number_of_links) (num link_length) (num hinge_mass) (num (link_stiffness * spowi
       link_length 2 / jl_BOLTZMANN_CONSTANT / temperature))
       nondimensional_end_to_end_length_per_link (num temperature);
     nondimensional_relative_helmholtz_free_energy := fun nondimensional_end_to_end_length_per_link
       temperature =>
       jl_log_squared_isometric_asymptotic_reduced_legendre.nondimensional_relative_helmholtz_free_energy
       (num number_of_links) (num (link_stiffness * spowi link_length 2 / jl_BOLTZMANN_CONSTANT /
       temperature)) nondimensional_end_to_end_length_per_link;
     nondimensional_relative_helmholtz_free_energy_per_link := fun
       nondimensional_end_to_end_length_per_link temperature =>
       jl_log_squared_isometric_asymptotic_reduced_legendre.nondimensional_relative_helmholtz_free_energy_per_link
       (num (link_stiffness * spowi link_length 2 / jl_BOLTZMANN_CONSTANT / temperature))
       nondimensional_end_to_end_length_per_link |}.

End Model.
End J_log_squared_isometric_asymptotic_reduced_legendre.

(** /repo/src/physics/single_chain/ufjc/log_squared/thermodynamics/isotensional/asymptotic/reduced/legendre/mod.jl *)
Module jl_log_squared_isotensional_asymptotic_reduced_legendre.
Section Model.
Context {T : Type} {Sc : Scalar T}.

(* /repo/src/physics/single_chain/ufjc/log_squared/thermodynamics/isotensional/asymptotic/reduced/legendre/mod.jl:77-114 *)
Definition helmholtz_free_energy (number_of_links : jarray Z) (link_length : jarray T) (hinge_mass :
    jarray T) (link_stiffness : jarray T) (force : jarray T) (temperature : jarray T) : result T :=
  broadcast [UInt8; Float64; Float64; Float64; Float64; Float64] (fun number_of_links_i
      link_length_i hinge_mass_i link_stiffness_i force_i temperature_i => ccall
      lib.physics_single_chain_ufjc_log_squared_thermodynamics_isotensional_asymptotic_reduced_legendre_helmholtz_free_energy
      [UInt8; Float64; Float64; Float64; Float64; Float64] number_of_links_i link_length_i
      hinge_mass_i link_stiffness_i force_i temperature_i) number_of_links link_length hinge_mass
      link_stiffness force temperature.

(* /repo/src/physics/single_chain/ufjc/log_squared/thermodynamics/isotensional/asymptotic/reduced/legendre/mod.jl:122-149 *)
Definition helmholtz_free_energy_per_link (link_length : jarray T) (hinge_mass : jarray T)
    (link_stiffness : jarray T) (force : jarray T) (temperature : jarray T) : result T :=
  broadcast [Float64; Float64; Float64; Float64; Float64] (fun link_length_i hinge_mass_i
      link_stiffness_i force_i temperature_i => ccall
      lib.physics_single_chain_ufjc_log_squared_thermodynamics_isotensional_asymptotic_reduced_legendre_helmholtz_free_energy_per_link
      [Float64; Float64; Float64; Float64; Float64] link_length_i hinge_mass_i link_stiffness_i
      force_i temperature_i) link_length hinge_mass link_stiffness force temperature.

(* /repo/src/physics/single_chain/ufjc/log_squared/thermodynamics/isotensional/asymptotic/reduced/legendre/mod.jl:157-185 *)
Definition relative_helmholtz_free_energy (number_of_links : jarray Z) (link_length : jarray T)
    (link_stiffness : jarray T) (force : jarray T) (temperature : jarray T) : result T :=
  broadcast [UInt8; Float64; Float64; Float64; Float64] (fun number_of_links_i link_length_i
      link_stiffness_i force_i temperature_i => ccall
      lib.physics_single_chain_ufjc_log_squared_thermodynamics_isotensional_asymptotic_reduced_legendre_relative_helmholtz_free_energy
      [UInt8; Float64; Float64; Float64; Float64] number_of_links_i link_length_i link_stiffness_i
      force_i temperature_i) number_of_links link_length link_stiffness force temperature.

(* /repo/src/physics/single_chain/ufjc/log_squared/thermodynamics/isotensional/asymptotic/reduced/legendre/mod.jl:193-217 *)
Definition relative_helmholtz_free_energy_per_link (link_length : jarray T) (link_stiffness : jarray
    T) (force : jarray T) (temperature : jarray T) : result T :=
  broadcast [Float64; Float64; Float64; Float64] (fun link_length_i link_stiffness_i force_i
      temperature_i => ccall
      lib.physics_single_chain_ufjc_log_squared_thermodynamics_isotensional_asymptotic_reduced_legendre_relative_helmholtz_free_energy_per_link
      [Float64; Float64; Float64; Float64] link_length_i link_stiffness_i force_i temperature_i)
      link_length link_stiffness force temperature.

(* /repo/src/physics/single_chain/ufjc/log_squared/thermodynamics/isotensional/asymptotic/reduced/legendre/mod.jl:225-262 *)
Definition nondimensional_helmholtz_free_energy (number_of_links : jarray Z) (link_length : jarray
    T) (hinge_mass : jarray T) (nondimensional_link_stiffness : jarray T) (nondimensional_force :
    jarray T) (temperature : jarray T) : result T :=
  broadcast [UInt8; Float64; Float64; Float64; Float64; Float64] (fun number_of_links_i
      link_length_i hinge_mass_i nondimensional_link_stiffness_i nondimensional_force_i
      temperature_i => ccall
      lib.physics_single_chain_ufjc_log_squared_thermodynamics_isotensional_asymptotic_reduced_legendre_nondimensional_helmholtz_free_energy
      [UInt8; Float64; Float64; Float64; Float64; Float64] number_of_links_i link_length_i
      hinge_mass_i nondimensional_link_stiffness_i nondimensional_force_i temperature_i)
      number_of_links link_length hinge_mass nondimensional_link_stiffness nondimensional_force
      temperature.

(* /repo/src/physics/single_chain/ufjc/log_squared/thermodynamics/isotensional/asymptotic/reduced/legendre/mod.jl:270-303 *)
Definition nondimensional_helmholtz_free_energy_per_link (link_length : jarray T) (hinge_mass :
    jarray T) (nondimensional_link_stiffness : jarray T) (nondimensional_force : jarray T)
    (temperature : jarray T) : result T :=
  broadcast [Float64; Float64; Float64; Float64; Float64] (fun link_length_i hinge_mass_i
      link_stiffness_i nondimensional_force_i temperature_i => ccall
      lib.physics_single_chain_ufjc_log_squared_thermodynamics_isotensional_asymptotic_reduced_legendre_nondimensional_helmholtz_free_energy_per_link
      [Float64; Float64; Float64; Float64; Float64] link_length_i hinge_mass_i link_stiffness_i
      nondimensional_force_i temperature_i) link_length hinge_mass nondimensional_link_stiffness
      nondimensional_force temperature.

(* /repo/src/physics/single_chain/ufjc/log_squared/thermodynamics/isotensional/asymptotic/reduced/legendre/mod.jl:311-333 *)
Definition nondimensional_relative_helmholtz_free_energy (number_of_links : jarray Z)
    (nondimensional_link_stiffness : jarray T) (nondimensional_force : jarray T) : result T :=
  broadcast [UInt8; Float64; Float64] (fun number_of_links_i nondimensional_link_stiffness_i
      nondimensional_force_i => ccall
      lib.physics_single_chain_ufjc_log_squared_thermodynamics_isotensional_asymptotic_reduced_legendre_nondimensional_relative_helmholtz_free_energy
      [UInt8; Float64; Float64] number_of_links_i nondimensional_link_stiffness_i
      nondimensional_force_i) number_of_links nondimensional_link_stiffness nondimensional_force.

(* /repo/src/physics/single_chain/ufjc/log_squared/thermodynamics/isotensional/asymptotic/reduced/legendre/mod.jl:341-359 *)
Definition nondimensional_relative_helmholtz_free_energy_per_link (nondimensional_link_stiffness :
    jarray T) (nondimensional_force : jarray T) : result T :=
  broadcast [Float64; Float64] (fun nondimensional_link_stiffness_i nondimensional_force_i => ccall
      lib.physics_single_chain_ufjc_log_squared_thermodynamics_isotensional_asymptotic_reduced_legendre_nondimensional_relative_helmholtz_free_energy_per_link
      [Float64; Float64] nondimensional_link_stiffness_i nondimensional_force_i)
      nondimensional_link_stiffness nondimensional_force.

End Model.
End jl_log_squared_isotensional_asymptotic_reduced_legendre.

(** /repo/src/physics/single_chain/ufjc/log_squared/thermodynamics/isotensional/asymptotic/reduced/legendre/mod.jl: struct LOGSQUAREDFJC *)
Module J_log_squared_isotensional_asymptotic_reduced_legendre.
(* /repo/src/physics/single_chain/ufjc/log_squared/thermodynamics/isotensional/asymptotic/reduced/legendre/mod.jl:16-65 *)
Record t {T : Type} := {
  number_of_links : Z;
  link_length : T;
  hinge_mass : T;
  link_stiffness : T;
  helmholtz_free_energy : jarray T -> jarray T -> result T;
  helmholtz_free_energy_per_link : jarray T -> jarray T -> result T;
  relative_helmholtz_free_energy : jarray T -> jarray T -> result T;
  relative_helmholtz_free_energy_per_link : jarray T -> jarray T -> result T;
  nondimensional_helmholtz_free_energy : jarray T -> T -> result T;
  nondimensional_helmholtz_free_energy_per_link : jarray T -> T -> result T;
  nondimensional_relative_helmholtz_free_energy : jarray T -> T -> result T;
  nondimensional_relative_helmholtz_free_energy_per_link : jarray T -> T -> result T }.
Arguments t : clear implicits.
Section Model.
Context {T : Type} {Sc : Scalar T}.

(* /repo/src/physics/single_chain/ufjc/log_squared/thermodynamics/isotensional/asymptotic/reduced/legendre/mod.jl:366-434 *)
Definition init (number_of_links : Z) (link_length : T) (hinge_mass : T) (link_stiffness : T) : t T
    :=
  {| number_of_links := number_of_links;
     link_length := link_length;
     hinge_mass := hinge_mass;
     link_stiffness := link_stiffness;
     helmholtz_free_energy := fun force temperature =>
       jl_log_squared_isotensional_asymptotic_reduced_legendre.helmholtz_free_energy (num
       number_of_links) (num link_length) (num hinge_mass) (num link_stiffness) force temperature;
     helmholtz_free_energy_per_link := fun force temperature =>
       jl_log_squared_isotensional_asymptotic_reduced_legendre.helmholtz_free_energy_per_link (num
       link_length) (num hinge_mass) (num link_stiffness) force temperature;
     relative_helmholtz_free_energy := fun force temperature =>
       jl_log_squared_isotensional_asymptotic_reduced_legendre.relative_helmholtz_free_energy (num
       number_of_links) (num link_length) (num link_stiffness) force temperature;
     relative_helmholtz_free_energy_per_link := fun force temperature =>
       jl_log_squared_isotensional_asymptotic_reduced_legendre.relative_helmholtz_free_energy_per_link
       (num link_length) (num link_stiffness) force temperature;
     nondimensional_helmholtz_free_energy := fun nondimensional_force temperature =>
       jl_log_squared_isotensional_asymptotic_reduced_legendre.nondimensional_helmholtz_free_energy
       (num number_of_links) (num link_length) (num hinge_mass) (num (link_stiffness * spowi
       link_length 2 / jl_BOLTZMANN_CONSTANT / temperature)) nondimensional_force (num temperature);
     nondimensional_helmholtz_free_energy_per_link := fun nondimensional_force temperature =>
       jl_log_squared_isotensional_asymptotic_reduced_legendre.nondimensional_helmholtz_free_energy_per_link
       (num link_length) (num hinge_mass) (num (link_stiffness * spowi link_length 2 /
       jl_BOLTZMANN_CONSTANT / temperature)) nondimensional_force (num temperature);
     nondimensional_relative_helmholtz_free_energy := fun nondimensional_force temperature =>
       jl_log_squared_isotensional_asymptotic_reduced_legendre.nondimensional_relative_helmholtz_free_energy
       (num number_of_links) (num (link_stiffness * spowi link_length 2 / jl_BOLTZMANN_CONSTANT /
       temperature)) nondimensional_force;
     nondimensional_relative_helmholtz_free_energy_per_link := fun nondimensional_force temperature =>
       jl_log_squared_isotensional_asymptotic_reduced_legendre.nondimensional_relative_helmholtz_free_energy_per_link
       (num (link_stiffness * spowi link_length 2 / jl_BOLTZMANN_CONSTANT / temperature))
       nondimensional_force |}.

End Model.
End J_log_squared_isotensional_asymptotic_reduced_legendre.

(** /repo/src/physics/single_chain/ufjc/morse/thermodynamics/isometric/asymptotic/reduced/legendre/mod.jl *)
Module jl_morse_isometric_asymptotic_reduced_legendre.
Section Model.
Context {T : Type} {Sc : Scalar T}.

(* /repo/src/physics/single_chain/ufjc/morse/thermodynamics/isometric/asymptotic/reduced/legendre/mod.jl:85-122 *)
Definition force (number_of_links : jarray Z) (link_length : jarray T) (link_stiffness : jarray T)
    (link_energy : jarray T) (end_to_end_length : jarray T) (temperature : jarray T) : result T :=
  broadcast [UInt8; Float64; Float64; Float64; Float64; Float64] (fun number_of_links_i
      link_length_i link_stiffness_i link_energy_i end_to_end_length_i temperature_i => ccall
      lib.physics_single_chain_ufjc_morse_thermodynamics_isometric_asymptotic_reduced_legendre_force
      [UInt8; Float64; Float64; Float64; Float64; Float64] number_of_links_i link_length_i
      link_stiffness_i link_energy_i end_to_end_length_i temperature_i) number_of_links link_length
      link_stiffness link_energy end_to_end_length temperature.

(* /repo/src/physics/single_chain/ufjc/morse/thermodynamics/isometric/asymptotic/reduced/legendre/mod.jl:130-155 *)
Definition nondimensional_force (nondimensional_link_stiffness : jarray T)
    (nondimensional_link_energy : jarray T) (nondimensional_end_to_end_length_per_link : jarray T) :
    result T :=
  broadcast [Float64; Float64; Float64] (fun nondimensional_link_stiffness_i
      nondimensional_link_energy_i nondimensional_end_to_end_length_per_link_i => ccall
      lib.physics_single_chain_ufjc_morse_thermodynamics_isometric_asymptotic_reduced_legendre_nondimensional_force
      [Float64; Float64; Float64] nondimensional_link_stiffness_i nondimensional_link_energy_i
      nondimensional_end_to_end_length_per_link_i) nondimensional_link_stiffness
      nondimensional_link_energy nondimensional_end_to_end_length_per_link.

(* /repo/src/physics/single_chain/ufjc/morse/thermodynamics/isometric/asymptotic/reduced/legendre/mod.jl:169-210 *)
Definition helmholtz_free_energy (number_of_links : jarray Z) (link_length : jarray T) (hinge_mass :
    jarray T) (link_stiffness : jarray T) (link_energy : jarray T) (end_to_end_length : jarray T)
    (temperature : jarray T) : result T :=
  broadcast [UInt8; Float64; Float64; Float64; Float64; Float64; Float64] (fun number_of_links_i
      link_length_i hinge_mass_i link_stiffness_i link_energy_i end_to_end_length_i temperature_i =>
      ccall
      lib.physics_single_chain_ufjc_morse_thermodynamics_isometric_asymptotic_reduced_legendre_helmholtz_free_energy
      [UInt8; Float64; Float64; Float64; Float64; Float64; Float64] number_of_links_i link_length_i
      hinge_mass_i link_stiffness_i link_energy_i end_to_end_length_i temperature_i) number_of_links
      link_length hinge_mass link_stiffness link_energy end_to_end_length temperature.

(* /repo/src/physics/single_chain/ufjc/morse/thermodynamics/isometric/asymptotic/reduced/legendre/mod.jl:218-259 *)
Definition helmholtz_free_energy_per_link (number_of_links : jarray Z) (link_length : jarray T)
    (hinge_mass : jarray T) (link_stiffness : jarray T) (link_energy : jarray T) (end_to_end_length
    : jarray T) (temperature : jarray T) : result T :=
  broadcast [UInt8; Float64; Float64; Float64; Float64; Float64; Float64] (fun number_of_links_i
      link_length_i hinge_mass_i link_stiffness_i link_energy_i end_to_end_length_i temperature_i =>
      ccall
      lib.physics_single_chain_ufjc_morse_thermodynamics_isometric_asymptotic_reduced_legendre_helmholtz_free_energy_per_link
      [UInt8; Float64; Float64; Float64; Float64; Float64; Float64] number_of_links_i link_length_i
      hinge_mass_i link_stiffness_i link_energy_i end_to_end_length_i temperature_i) number_of_links
      link_length hinge_mass link_stiffness link_energy end_to_end_length temperature.

(* /repo/src/physics/single_chain/ufjc/morse/thermodynamics/isometric/asymptotic/reduced/legendre/mod.jl:267-304 *)
Definition relative_helmholtz_free_energy (number_of_links : jarray Z) (link_length : jarray T)
    (link_stiffness : jarray T) (link_energy : jarray T) (end_to_end_length : jarray T) (temperature
    : jarray T) : result T :=
  broadcast [UInt8; Float64; Float64; Float64; Float64; Float64] (fun number_of_links_i
      link_length_i link_stiffness_i link_energy_i end_to_end_length_i temperature_i => ccall
      lib.physics_single_chain_ufjc_morse_thermodynamics_isometric_asymptotic_reduced_legendre_relative_helmholtz_free_energy
      [UInt8; Float64; Float64; Float64; Float64; Float64] number_of_links_i link_length_i
      link_stiffness_i link_energy_i end_to_end_length_i temperature_i) number_of_links link_length
      link_stiffness link_energy end_to_end_length temperature.

(* /repo/src/physics/single_chain/ufjc/morse/thermodynamics/isometric/asymptotic/reduced/legendre/mod.jl:312-349 *)
Definition relative_helmholtz_free_energy_per_link (number_of_links : jarray Z) (link_length :
    jarray T) (link_stiffness : jarray T) (link_energy : jarray T) (end_to_end_length : jarray T)
    (temperature : jarray T) : result T :=
  broadcast [UInt8; Float64; Float64; Float64; Float64; Float64] (fun number_of_links_i
      link_length_i link_stiffness_i link_energy_i end_to_end_length_i temperature_i => ccall
      lib.physics_single_chain_ufjc_morse_thermodynamics_isometric_asymptotic_reduced_legendre_relative_helmholtz_free_energy_per_link
      [UInt8; Float64; Float64; Float64; Float64; Float64] number_of_links_i link_length_i
      link_stiffness_i link_energy_i end_to_end_length_i temperature_i) number_of_links link_length
      link_stiffness link_energy end_to_end_length temperature.

(* /repo/src/physics/single_chain/ufjc/morse/thermodynamics/isometric/asymptotic/reduced/legendre/mod.jl:357-398 *)
Definition nondimensional_helmholtz_free_energy (number_of_links : jarray Z) (link_length : jarray
    T) (hinge_mass : jarray T) (nondimensional_link_stiffness : jarray T)
    (nondimensional_link_energy : jarray T) (nondimensional_end_to_end_length_per_link : jarray T)
    (temperature : jarray T) : result T :=
  broadcast [UInt8; Float64; Float64; Float64; Float64; Float64; Float64] (fun number_of_links_i
      link_length_i hinge_mass_i nondimensional_link_stiffness_i nondimensional_link_energy_i
      nondimensional_end_to_end_length_per_link_i temperature_i => ccall
      lib.physics_single_chain_ufjc_morse_thermodynamics_isometric_asymptotic_reduced_legendre_nondimensional_helmholtz_free_energy
      [UInt8; Float64; Float64; Float64; Float64; Float64; Float64] number_of_links_i link_length_i
      hinge_mass_i nondimensional_link_stiffness_i nondimensional_link_energy_i
      nondimensional_end_to_end_length_per_link_i temperature_i) number_of_links link_length
      hinge_mass nondimensional_link_stiffness nondimensional_link_energy
      nondimensional_end_to_end_length_per_link temperature.

(* /repo/src/physics/single_chain/ufjc/morse/thermodynamics/isometric/asymptotic/reduced/legendre/mod.jl:406-447 *)
Definition nondimensional_helmholtz_free_energy_per_link (number_of_links : jarray Z) (link_length :
    jarray T) (hinge_mass : jarray T) (nondimensional_link_stiffness : jarray T)
    (nondimensional_link_energy : jarray T) (nondimensional_end_to_end_length_per_link : jarray T)
    (temperature : jarray T) : result T :=
  broadcast [UInt8; Float64; Float64; Float64; Float64; Float64; Float64] (fun number_of_links_i
      link_length_i hinge_mass_i nondimensional_link_stiffness_i nondimensional_link_energy_i
      nondimensional_end_to_end_length_per_link_i temperature_i => ccall
      lib.physics_single_chain_ufjc_morse_thermodynamics_isometric_asymptotic_reduced_legendre_nondimensional_helmholtz_free_energy_per_link
      [UInt8; Float64; Float64; Float64; Float64; Float64; Float64] number_of_links_i link_length_i
      hinge_mass_i nondimensional_link_stiffness_i nondimensional_link_energy_i
      nondimensional_end_to_end_length_per_link_i temperature_i) number_of_links link_length
      hinge_mass nondimensional_link_stiffness nondimensional_link_energy
      nondimensional_end_to_end_length_per_link temperature.

(* /repo/src/physics/single_chain/ufjc/morse/thermodynamics/isometric/asymptotic/reduced/legendre/mod.jl:455-484 *)
Definition nondimensional_relative_helmholtz_free_energy (number_of_links : jarray Z)
    (nondimensional_link_stiffness : jarray T) (nondimensional_link_energy : jarray T)
    (nondimensional_end_to_end_length_per_link : jarray T) : result T :=
  broadcast [UInt8; Float64; Float64; Float64] (fun number_of_links_i
      nondimensional_link_stiffness_i nondimensional_link_energy_i
      nondimensional_end_to_end_length_per_link_i => ccall
      lib.physics_single_chain_ufjc_morse_thermodynamics_isometric_asymptotic_reduced_legendre_nondimensional_relative_helmholtz_free_energy
      [UInt8; Float64; Float64; Float64] number_of_links_i nondimensional_link_stiffness_i
      nondimensional_link_energy_i nondimensional_end_to_end_length_per_link_i) number_of_links
      nondimensional_link_stiffness nondimensional_link_energy
      nondimensional_end_to_end_length_per_link.

(* /repo/src/physics/single_chain/ufjc/morse/thermodynamics/isometric/asymptotic/reduced/legendre/mod.jl:492-517 *)
Definition nondimensional_relative_helmholtz_free_energy_per_link (nondimensional_link_stiffness :
    jarray T) (nondimensional_link_energy : jarray T) (nondimensional_end_to_end_length_per_link :
    jarray T) : result T :=
  broadcast [Float64; Float64; Float64] (fun nondimensional_link_stiffness_i
      nondimensional_link_energy_i nondimensional_end_to_end_length_per_link_i => ccall
      lib.physics_single_chain_ufjc_morse_thermodynamics_isometric_asymptotic_reduced_legendre_nondimensional_relative_helmholtz_free_energy_per_link
      [Float64; Float64; Float64] nondimensional_link_stiffness_i nondimensional_link_energy_i
      nondimensional_end_to_end_length_per_link_i) nondimensional_link_stiffness
      nondimensional_link_energy nondimensional_end_to_end_length_per_link.

End Model.
End jl_morse_isometric_asymptotic_reduced_legendre.

(** /repo/src/physics/single_chain/ufjc/morse/thermodynamics/isometric/asymptotic/reduced/legendre/mod.jl: struct MORSEFJC *)
Module J_morse_isometric_asymptotic_reduced_legendre.
(* /repo/src/physics/single_chain/ufjc/morse/thermodynamics/isometric/asymptotic/reduced/legendre/mod.jl:16-77 *)
Record t {T : Type} := {
  number_of_links : Z;
  link_length : T;
  hinge_mass : T;
  link_stiffness : T;
  link_energy : T;
  force : jarray T -> jarray T -> result T;
  nondimensional_force : jarray T -> T -> result T;
  helmholtz_free_energy : jarray T -> jarray T -> result T;
  helmholtz_free_energy_per_link : jarray T -> jarray T -> result T;
  relative_helmholtz_free_energy : jarray T -> jarray T -> result T;
  relative_helmholtz_free_energy_per_link : jarray T -> jarray T -> result T;
  nondimensional_helmholtz_free_energy : jarray T -> T -> result T;
  nondimensional_helmholtz_free_energy_per_link : jarray T -> T -> result T;
  nondimensional_relative_helmholtz_free_energy : jarray T -> T -> result T;
  nondimensional_relative_helmholtz_free_energy_per_link : jarray T -> T -> result T }.
Arguments t : clear implicits.
Section Model.
Context {T : Type} {Sc : Scalar T}.

(* /repo/src/physics/single_chain/ufjc/morse/thermodynamics/isometric/asymptotic/reduced/legendre/mod.jl:524-619 *)
Definition init (number_of_links : Z) (link_length : T) (hinge_mass : T) (link_stiffness : T)
    (link_energy : T) : t T :=
  {| number_of_links := number_of_links;
     link_length := link_length;
     hinge_mass := hinge_mass;
     link_stiffness := link_stiffness;
     link_energy := link_energy;
     force := fun end_to_end_length temperature => jl_morse_isometric_asymptotic_reduced_legendre.force
       (num number_of_links) (num link_length) (num link_stiffness) (num link_energy)
       end_to_end_length temperature;
     nondimensional_force := fun nondimensional_end_to_end_length_per_link temperature =>
       jl_morse_isometric_asymptotic_reduced_legendre.nondimensional_force (num (link_stiffness *
       spowi link_length 2 / jl_BOLTZMANN_CONSTANT / temperature)) (num (link_energy /
       jl_BOLTZMANN_CONSTANT / temperature)) nondimensional_end_to_end_length_per_link;
     helmholtz_free_energy := fun end_to_end_length temperature =>
       jl_morse_isometric_asymptotic_reduced_legendre.helmholtz_free_energy (num number_of_links)
       (num link_length) (num hinge_mass) (num link_stiffness) (num link_energy) end_to_end_length
       temperature;
     helmholtz_free_energy_per_link := fun end_to_end_length temperature =>
       jl_morse_isometric_asymptotic_reduced_legendre.helmholtz_free_energy_per_link (num
       number_of_links) (num link_length) (num hinge_mass) (num link_stiffness) (num link_energy)
       end_to_end_length temperature;
     relative_helmholtz_free_energy := fun end_to_end_length temperature =>
       jl_morse_isometric_asymptotic_reduced_legendre.relative_helmholtz_free_energy (num
       number_of_links) (num link_length) (num link_stiffness) (num link_energy) end_to_end_length
       temperature;
     relative_helmholtz_free_energy_per_link := fun end_to_end_length temperature =>
       jl_morse_isometric_asymptotic_reduced_legendre.relative_helmholtz_free_energy_per_link (num
       number_of_links) (num link_length) (num link_stiffness) (num link_energy) end_to_end_length
       temperature;
     nondimensional_helmholtz_free_energy := fun nondimensional_end_to_end_length_per_link temperature =>
       jl_morse_isometric_asymptotic_reduced_legendre.nondimensional_helmholtz_free_energy (num
       number_of_links) (num link_length) (num hinge_mass) (num (link_stiffness * spowi link_length
       2 / jl_BOLTZMANN_CONSTANT / temperature)) (num (link_energy / jl_BOLTZMANN_CONSTANT /
       temperature)) nondimensional_end_to_end_length_per_link (num temperature);
     nondimensional_helmholtz_free_energy_per_link := fun nondimensional_end_to_end_length_per_link
       temperature =>
       jl_morse_isometric_asymptotic_reduced_legendre.nondimensional_helmholtz_free_energy_per_link
       (num number_of_links) (num link_length) (num hinge_mass) (num (link_stiffness * spowi
       link_length 2 / jl_BOLTZMANN_CONSTANT / temperature)) (num (link_energy /
       jl_BOLTZMANN_CONSTANT / temperature)) nondimensional_end_to_end_length_per_link (num
       temperature);
     nondimensional_relative_helmholtz_free_energy := fun nondimensional_end_to_end_length_per_link
       temperature =>
       jl_morse_isometric_asymptotic_reduced_legendre.nondimensional_relative_helmholtz_free_energy
       (num number_of_links) (num (link_stiffness * spowi link_length 2 / jl_BOLTZMANN_CONSTANT /
       temperature)) (num (link_energy / jl_BOLTZMANN_CONSTANT / temperature))
       nondimensional_end_to_end_length_per_link;
     nondimensional_relative_helmholtz_free_energy_per_link := fun
       nondimensional_end_to_end_length_per_link temperature =>
       jl_morse_isometric_asymptotic_reduced_legendre.nondimensional_relative_helmholtz_free_energy_per_link
       (num (link_stiffness * spowi link_length 2 / jl_BOLTZMANN_CONSTANT / temperature)) (num
       (link_energy / jl_BOLTZMANN_CONSTANT / temperature))
       nondimensional_end_to_end_length_per_link |}.

End Model.
End J_morse_isometric_asymptotic_reduced_legendre.

(** /repo/src/physics/single_chain/ufjc/morse/thermodynamics/isotensional/asymptotic/reduced/legendre/mod.jl *)
Module jl_morse_isotensional_asymptotic_reduced_legendre.
Section Model.
Context {T : Type} {Sc : Scalar T}.

(* /repo/src/physics/single_chain/ufjc/morse/thermodynamics/isotensional/asymptotic/reduced/legendre/mod.jl:81-122 *)
Definition helmholtz_free_energy (number_of_links : jarray Z) (link_length : jarray T) (hinge_mass :
    jarray T) (link_stiffness : jarray T) (link_energy : jarray T) (force : jarray T) (temperature :
    jarray T) : result T :=
  broadcast [UInt8; Float64; Float64; Float64; Float64; Float64; Float64] (fun number_of_links_i
      link_length_i hinge_mass_i link_stiffness_i link_energy_i force_i temperature_i => ccall
      lib.physics_single_chain_ufjc_morse_thermodynamics_isotensional_asymptotic_reduced_legendre_helmholtz_free_energy
      [UInt8; Float64; Float64; Float64; Float64; Float64; Float64] number_of_links_i link_length_i
      hinge_mass_i link_stiffness_i link_energy_i force_i temperature_i) number_of_links link_length
      hinge_mass link_stiffness link_energy force temperature.

(* /repo/src/physics/single_chain/ufjc/morse/thermodynamics/isotensional/asymptotic/reduced/legendre/mod.jl:130-167 *)
Definition helmholtz_free_energy_per_link (link_length : jarray T) (hinge_mass : jarray T)
    (link_stiffness : jarray T) (link_energy : jarray T) (force : jarray T) (temperature : jarray T)
    : result T :=
  broadcast [Float64; Float64; Float64; Float64; Float64; Float64] (fun link_length_i hinge_mass_i
      link_stiffness_i link_energy_i force_i temperature_i => ccall
      lib.physics_single_chain_ufjc_morse_thermodynamics_isotensional_asymptotic_reduced_legendre_helmholtz_free_energy_per_link
      [Float64; Float64; Float64; Float64; Float64; Float64] link_length_i hinge_mass_i
      link_stiffness_i link_energy_i force_i temperature_i) link_length hinge_mass link_stiffness
      link_energy force temperature.

(* /repo/src/physics/single_chain/ufjc/morse/thermodynamics/isotensional/asymptotic/reduced/legendre/mod.jl:175-212 *)
Definition relative_helmholtz_free_energy (number_of_links : jarray Z) (link_length : jarray T)
    (link_stiffness : jarray T) (link_energy : jarray T) (force : jarray T) (temperature : jarray T)
    : result T :=
  broadcast [UInt8; Float64; Float64; Float64; Float64; Float64] (fun number_of_links_i
      link_length_i link_stiffness_i link_energy_i force_i temperature_i => ccall
      lib.physics_single_chain_ufjc_morse_thermodynamics_isotensional_asymptotic_reduced_legendre_relative_helmholtz_free_energy
      [UInt8; Float64; Float64; Float64; Float64; Float64] number_of_links_i link_length_i
      link_stiffness_i link_energy_i force_i temperature_i) number_of_links link_length
      link_stiffness link_energy force temperature.

(* /repo/src/physics/single_chain/ufjc/morse/thermodynamics/isotensional/asymptotic/reduced/legendre/mod.jl:220-247 *)
Definition relative_helmholtz_free_energy_per_link (link_length : jarray T) (link_stiffness : jarray
    T) (link_energy : jarray T) (force : jarray T) (temperature : jarray T) : result T :=
  broadcast [Float64; Float64; Float64; Float64; Float64] (fun link_length_i link_stiffness_i
      link_energy_i force_i temperature_i => ccall
      lib.physics_single_chain_ufjc_morse_thermodynamics_isotensional_asymptotic_reduced_legendre_relative_helmholtz_free_energy_per_link
      [Float64; Float64; Float64; Float64; Float64] link_length_i link_stiffness_i link_energy_i
      force_i temperature_i) link_length link_stiffness link_energy force temperature.

(* /repo/src/physics/single_chain/ufjc/morse/thermodynamics/isotensional/asymptotic/reduced/legendre/mod.jl:255-296 *)
Definition nondimensional_helmholtz_free_energy (number_of_links : jarray Z) (link_length : jarray
    T) (hinge_mass : jarray T) (nondimensional_link_stiffness : jarray T)
    (nondimensional_link_energy : jarray T) (nondimensional_force : jarray T) (temperature : jarray
    T) : result T :=
  broadcast [UInt8; Float64; Float64; Float64; Float64; Float64; Float64] (fun number_of_links_i
      link_length_i hinge_mass_i nondimensional_link_stiffness_i nondimensional_link_energy_i
      nondimensional_force_i temperature_i => ccall
      lib.physics_single_chain_ufjc_morse_thermodynamics_isotensional_asymptotic_reduced_legendre_nondimensional_helmholtz_free_energy
      [UInt8; Float64; Float64; Float64; Float64; Float64; Float64] number_of_links_i link_length_i
      hinge_mass_i nondimensional_link_stiffness_i nondimensional_link_energy_i
      nondimensional_force_i temperature_i) number_of_links link_length hinge_mass
      nondimensional_link_stiffness nondimensional_link_energy nondimensional_force temperature.

(* /repo/src/physics/single_chain/ufjc/morse/thermodynamics/isotensional/asymptotic/reduced/legendre/mod.jl:304-341 *)
Definition nondimensional_helmholtz_free_energy_per_link (link_length : jarray T) (hinge_mass :
    jarray T) (nondimensional_link_stiffness : jarray T) (nondimensional_link_energy : jarray T)
    (nondimensional_force : jarray T) (temperature : jarray T) : result T :=
  broadcast [Float64; Float64; Float64; Float64; Float64; Float64] (fun link_length_i hinge_mass_i
      nondimensional_link_stiffness_i nondimensional_link_energy_i nondimensional_force_i
      temperature_i => ccall
      lib.physics_single_chain_ufjc_morse_thermodynamics_isotensional_asymptotic_reduced_legendre_nondimensional_helmholtz_free_energy_per_link
      [Float64; Float64; Float64; Float64; Float64; Float64] link_length_i hinge_mass_i
      nondimensional_link_stiffness_i nondimensional_link_energy_i nondimensional_force_i
      temperature_i) link_length hinge_mass nondimensional_link_stiffness nondimensional_link_energy
      nondimensional_force temperature.

(* /repo/src/physics/single_chain/ufjc/morse/thermodynamics/isotensional/asymptotic/reduced/legendre/mod.jl:349-378 *)
Definition nondimensional_relative_helmholtz_free_energy (number_of_links : jarray Z)
    (nondimensional_link_stiffness : jarray T) (nondimensional_link_energy : jarray T)
    (nondimensional_force : jarray T) : result T :=
  broadcast [UInt8; Float64; Float64; Float64] (fun number_of_links_i
      nondimensional_link_stiffness_i nondimensional_link_energy_i nondimensional_force_i => ccall
      lib.physics_single_chain_ufjc_morse_thermodynamics_isotensional_asymptotic_reduced_legendre_nondimensional_relative_helmholtz_free_energy
      [UInt8; Float64; Float64; Float64] number_of_links_i nondimensional_link_stiffness_i
      nondimensional_link_energy_i nondimensional_force_i) number_of_links
      nondimensional_link_stiffness nondimensional_link_energy nondimensional_force.

(* /repo/src/physics/single_chain/ufjc/morse/thermodynamics/isotensional/asymptotic/reduced/legendre/mod.jl:386-411 *)
Definition nondimensional_relative_helmholtz_free_energy_per_link (nondimensional_link_stiffness :
    jarray T) (nondimensional_link_energy : jarray T) (nondimensional_force : jarray T) : result T
    :=
  broadcast [Float64; Float64; Float64] (fun nondimensional_link_stiffness_i
      nondimensional_link_energy_i nondimensional_force_i => ccall
      lib.physics_single_chain_ufjc_morse_thermodynamics_isotensional_asymptotic_reduced_legendre_nondimensional_relative_helmholtz_free_energy_per_link
      [Float64; Float64; Float64] nondimensional_link_stiffness_i nondimensional_link_energy_i
      nondimensional_force_i) nondimensional_link_stiffness nondimensional_link_energy
      nondimensional_force.

End Model.
End jl_morse_isotensional_asymptotic_reduced_legendre.

(** /repo/src/physics/single_chain/ufjc/morse/thermodynamics/isotensional/asymptotic/reduced/legendre/mod.jl: struct MORSEFJC *)
Module J_morse_isotensional_asymptotic_reduced_legendre.
(* /repo/src/physics/single_chain/ufjc/morse/thermodynamics/isotensional/asymptotic/reduced/legendre/mod.jl:16-69 *)
Record t {T : Type} := {
  number_of_links : Z;
  link_length : T;
  hinge_mass : T;
  link_stiffness : T;
  link_energy : T;
  helmholtz_free_energy : jarray T -> jarray T -> result T;
  helmholtz_free_energy_per_link : jarray T -> jarray T -> result T;
  relative_helmholtz_free_energy : jarray T -> jarray T -> result T;
  relative_helmholtz_free_energy_per_link : jarray T -> jarray T -> result T;
  nondimensional_helmholtz_free_energy : jarray T -> T -> result T;
  nondimensional_helmholtz_free_energy_per_link : jarray T -> T -> result T;
  nondimensional_relative_helmholtz_free_energy : jarray T -> T -> result T;
  nondimensional_relative_helmholtz_free_energy_per_link : jarray T -> T -> result T }.
Arguments t : clear implicits.
Section Model.
Context {T : Type} {Sc : Scalar T}.

(* /repo/src/physics/single_chain/ufjc/morse/thermodynamics/isotensional/asymptotic/reduced/legendre/mod.jl:418-496 *)
Definition init (number_of_links : Z) (link_length : T) (hinge_mass : T) (link_stiffness : T)
    (link_energy : T) : t T :=
  {| number_of_links := number_of_links;
     link_length := link_length;
     hinge_mass := hinge_mass;
     link_stiffness := link_stiffness;
     link_energy := link_energy;
     helmholtz_free_energy := fun force temperature =>
       jl_morse_isotensional_asymptotic_reduced_legendre.helmholtz_free_energy (num number_of_links)
       (num link_length) (num hinge_mass) (num link_stiffness) (num link_energy) force temperature;
     helmholtz_free_energy_per_link := fun force temperature =>
       jl_morse_isotensional_asymptotic_reduced_legendre.helmholtz_free_energy_per_link (num
       link_length) (num hinge_mass) (num link_stiffness) (num link_energy) force temperature;
     relative_helmholtz_free_energy := fun force temperature =>
       jl_morse_isotensional_asymptotic_reduced_legendre.relative_helmholtz_free_energy (num
       number_of_links) (num link_length) (num link_stiffness) (num link_energy) force temperature;
     relative_helmholtz_free_energy_per_link := fun force temperature =>
       jl_morse_isotensional_asymptotic_reduced_legendre.relative_helmholtz_free_energy_per_link
       (num link_length) (num link_stiffness) (num link_energy) force temperature;
     nondimensional_helmholtz_free_energy := fun nondimensional_force temperature =>
       jl_morse_isotensional_asymptotic_reduced_legendre.nondimensional_helmholtz_free_energy (num
       number_of_links) (num link_length) (num hinge_mass) (num (link_stiffness * spowi link_length
       2 / jl_BOLTZMANN_CONSTANT / temperature)) (num (link_energy / jl_BOLTZMANN_CONSTANT /
       temperature)) nondimensional_force (num temperature);
     nondimensional_helmholtz_free_energy_per_link := fun nondimensional_force temperature =>
       jl_morse_isotensional_asymptotic_reduced_legendre.nondimensional_helmholtz_free_energy_per_link
       (num link_length) (num hinge_mass) (num (link_stiffness * spowi link_length 2 /
       jl_BOLTZMANN_CONSTANT / temperature)) (num (link_energy / jl_BOLTZMANN_CONSTANT /
       temperature)) nondimensional_force (num temperature);
     nondimensional_relative_helmholtz_free_energy := fun nondimensional_force temperature =>
       jl_morse_isotensional_asymptotic_reduced_legendre.nondimensional_relative_helmholtz_free_energy
       (num number_of_links) (num (link_stiffness * spowi link_length 2 / jl_BOLTZMANN_CONSTANT /
       temperature)) (num (link_energy / jl_BOLTZMANN_CONSTANT / temperature)) nondimensional_force;
     nondimensional_relative_helmholtz_free_energy_per_link := fun nondimensional_force temperature =>
       jl_morse_isotensional_asymptotic_reduced_legendre.nondimensional_relative_helmholtz_free_energy_per_link
       (num (link_stiffness * spowi link_length 2 / jl_BOLTZMANN_CONSTANT / temperature)) (num
       (link_energy / jl_BOLTZMANN_CONSTANT / temperature)) nondimensional_force |}.

End Model.
End J_morse_isotensional_asymptotic_reduced_legendre.

(** /repo/src/physics/single_chain/efjc/thermodynamics/isometric/asymptotic/alternative/legendre/mod.jl *)
Module jl_efjc_isometric_asymptotic_alternative_legendre.
Section Model.
Context {T : Type} {Sc : Scalar T}.

(* /repo/src/physics/single_chain/efjc/thermodynamics/isometric/asymptotic/alternative/legendre/mod.jl:81-114 *)
Definition force (number_of_links : jarray Z) (link_length : jarray T) (link_stiffness : jarray T)
    (end_to_end_length : jarray T) (temperature : jarray T) : result T :=
  broadcast [UInt8; Float64; Float64; Float64; Float64] (fun number_of_links_i link_length_i
      link_stiffness_i end_to_end_length_i temperature_i => ccall
      lib.physics_single_chain_efjc_thermodynamics_isometric_asymptotic_alternative_legendre_force
      [UInt8; Float64; Float64; Float64; Float64] number_of_links_i link_length_i link_stiffness_i
      end_to_end_length_i temperature_i) number_of_links link_length link_stiffness
      end_to_end_length temperature.

(* /repo/src/physics/single_chain/efjc/thermodynamics/isometric/asymptotic/alternative/legendre/mod.jl:122-141 *)
Definition nondimensional_force (nondimensional_link_stiffness : jarray T)
    (nondimensional_end_to_end_length_per_link : jarray T) : result T :=
  broadcast [Float64; Float64] (fun nondimensional_link_stiffness_i
      nondimensional_end_to_end_length_per_link_i => ccall
      lib.physics_single_chain_efjc_thermodynamics_isometric_asymptotic_alternative_legendre_nondimensional_force
      [Float64; Float64] nondimensional_link_stiffness_i
      nondimensional_end_to_end_length_per_link_i) nondimensional_link_stiffness
      nondimensional_end_to_end_length_per_link.

(* /repo/src/physics/single_chain/efjc/thermodynamics/isometric/asymptotic/alternative/legendre/mod.jl:155-192 *)
Definition helmholtz_free_energy (number_of_links : jarray Z) (link_length : jarray T) (hinge_mass :
    jarray T) (link_stiffness : jarray T) (end_to_end_length : jarray T) (temperature : jarray T) :
    result T :=
  broadcast [UInt8; Float64; Float64; Float64; Float64; Float64] (fun number_of_links_i
      link_length_i hinge_mass_i link_stiffness_i end_to_end_length_i temperature_i => ccall
      lib.physics_single_chain_efjc_thermodynamics_isometric_asymptotic_alternative_legendre_helmholtz_free_energy
      [UInt8; Float64; Float64; Float64; Float64; Float64] number_of_links_i link_length_i
      hinge_mass_i link_stiffness_i end_to_end_length_i temperature_i) number_of_links link_length
      hinge_mass link_stiffness end_to_end_length temperature.

(* /repo/src/physics/single_chain/efjc/thermodynamics/isometric/asymptotic/alternative/legendre/mod.jl:200-237 *)
Definition helmholtz_free_energy_per_link (number_of_links : jarray Z) (link_length : jarray T)
    (hinge_mass : jarray T) (link_stiffness : jarray T) (end_to_end_length : jarray T) (temperature
    : jarray T) : result T :=
  broadcast [UInt8; Float64; Float64; Float64; Float64; Float64] (fun number_of_links_i
      link_length_i hinge_mass_i link_stiffness_i end_to_end_length_i temperature_i => ccall
      lib.physics_single_chain_efjc_thermodynamics_isometric_asymptotic_alternative_legendre_helmholtz_free_energy_per_link
      [UInt8; Float64; Float64; Float64; Float64; Float64] number_of_links_i link_length_i
      hinge_mass_i link_stiffness_i end_to_end_length_i temperature_i) number_of_links link_length
      hinge_mass link_stiffness end_to_end_length temperature.

(* /repo/src/physics/single_chain/efjc/thermodynamics/isometric/asymptotic/alternative/legendre/mod.jl:245-278 *)
Definition relative_helmholtz_free_energy (number_of_links : jarray Z) (link_length : jarray T)
    (link_stiffness : jarray T) (end_to_end_length : jarray T) (temperature : jarray T) : result T
    :=
  broadcast [UInt8; Float64; Float64; Float64; Float64] (fun number_of_links_i link_length_i
      link_stiffness_i end_to_end_length_i temperature_i => ccall
      lib.physics_single_chain_efjc_thermodynamics_isometric_asymptotic_alternative_legendre_relative_helmholtz_free_energy
      [UInt8; Float64; Float64; Float64; Float64] number_of_links_i link_length_i link_stiffness_i
      end_to_end_length_i temperature_i) number_of_links link_length link_stiffness
      end_to_end_length temperature.

(* /repo/src/physics/single_chain/efjc/thermodynamics/isometric/asymptotic/alternative/legendre/mod.jl:286-319 *)
Definition relative_helmholtz_free_energy_per_link (number_of_links : jarray Z) (link_length :
    jarray T) (link_stiffness : jarray T) (end_to_end_length : jarray T) (temperature : jarray T) :
    result T :=
  broadcast [UInt8; Float64; Float64; Float64; Float64] (fun number_of_links_i link_length_i
      link_stiffness_i end_to_end_length_i temperature_i => ccall
      lib.physics_single_chain_efjc_thermodynamics_isometric_asymptotic_alternative_legendre_relative_helmholtz_free_energy_per_link
      [UInt8; Float64; Float64; Float64; Float64] number_of_links_i link_length_i link_stiffness_i
      end_to_end_length_i temperature_i) number_of_links link_length link_stiffness
      end_to_end_length temperature.

(* /repo/src/physics/single_chain/efjc/thermodynamics/isometric/asymptotic/alternative/legendre/mod.jl:327-364 *)
Definition nondimensional_helmholtz_free_energy (number_of_links : jarray Z) (link_length : jarray
    T) (hinge_mass : jarray T) (nondimensional_link_stiffness : jarray T)
    (nondimensional_end_to_end_length_per_link : jarray T) (temperature : jarray T) : result T :=
  broadcast [UInt8; Float64; Float64; Float64; Float64; Float64] (fun number_of_links_i
      link_length_i hinge_mass_i nondimensional_link_stiffness_i
      nondimensional_end_to_end_length_per_link_i temperature_i => ccall
      lib.physics_single_chain_efjc_thermodynamics_isometric_asymptotic_alternative_legendre_nondimensional_helmholtz_free_energy
      [UInt8; Float64; Float64; Float64; Float64; Float64] number_of_links_i link_length_i
      hinge_mass_i nondimensional_link_stiffness_i nondimensional_end_to_end_length_per_link_i
      temperature_i) number_of_links link_length hinge_mass nondimensional_link_stiffness
      nondimensional_end_to_end_length_per_link temperature.

(* /repo/src/physics/single_chain/efjc/thermodynamics/isometric/asymptotic/alternative/legendre/mod.jl:372-409 *)
Definition nondimensional_helmholtz_free_energy_per_link (number_of_links : jarray Z) (link_length :
    jarray T) (hinge_mass : jarray T) (nondimensional_link_stiffness : jarray T)
    (nondimensional_end_to_end_length_per_link : jarray T) (temperature : jarray T) : result T :=
  broadcast [UInt8; Float64; Float64; Float64; Float64; Float64] (fun number_of_links_i
      link_length_i hinge_mass_i nondimensional_link_stiffness_i
      nondimensional_end_to_end_length_per_link_i temperature_i => ccall
      lib.physics_single_chain_efjc_thermodynamics_isometric_asymptotic_alternative_legendre_nondimensional_helmholtz_free_energy_per_link
      [UInt8; Float64; Float64; Float64; Float64; Float64] number_of_links_i link_length_i
      hinge_mass_i nondimensional_link_stiffness_i nondimensional_end_to_end_length_per_link_i
      temperature_i) number_of_links link_length hinge_mass nondimensional_link_stiffness
      nondimensional_end_to_end_length_per_link temperature.

(* /repo/src/physics/single_chain/efjc/thermodynamics/isometric/asymptotic/alternative/legendre/mod.jl:417-442 *)
Definition nondimensional_relative_helmholtz_free_energy (number_of_links : jarray Z)
    (nondimensional_link_stiffness : jarray T) (nondimensional_end_to_end_length_per_link : jarray
    T) : result T :=
  broadcast [UInt8; Float64; Float64] (fun number_of_links_i nondimensional_link_stiffness_i
      nondimensional_end_to_end_length_per_link_i => ccall
      lib.physics_single_chain_efjc_thermodynamics_isometric_asymptotic_alternative_legendre_nondimensional_relative_helmholtz_free_energy
      [UInt8; Float64; Float64] number_of_links_i nondimensional_link_stiffness_i
      nondimensional_end_to_end_length_per_link_i) number_of_links nondimensional_link_stiffness
      nondimensional_end_to_end_length_per_link.

(* /repo/src/physics/single_chain/efjc/thermodynamics/isometric/asymptotic/alternative/legendre/mod.jl:450-469 *)
Definition nondimensional_relative_helmholtz_free_energy_per_link (nondimensional_link_stiffness :
    jarray T) (nondimensional_end_to_end_length_per_link : jarray T) : result T :=
  broadcast [Float64; Float64] (fun nondimensional_link_stiffness_i
      nondimensional_end_to_end_length_per_link_i => ccall
      lib.physics_single_chain_efjc_thermodynamics_isometric_asymptotic_alternative_legendre_nondimensional_relative_helmholtz_free_energy_per_link
      [Float64; Float64] nondimensional_link_stiffness_i
      nondimensional_end_to_end_length_per_link_i) nondimensional_link_stiffness
      nondimensional_end_to_end_length_per_link.

End Model.
End jl_efjc_isometric_asymptotic_alternative_legendre.

(** /repo/src/physics/single_chain/efjc/thermodynamics/isometric/asymptotic/alternative/legendre/mod.jl: struct EFJC *)
Module J_efjc_isometric_asymptotic_alternative_legendre.
(* /repo/src/physics/single_chain/efjc/thermodynamics/isometric/asymptotic/alternative/legendre/mod.jl:16-73 *)
Record t {T : Type} := {
  number_of_links : Z;
  link_length : T;
  hinge_mass : T;
  link_stiffness : T;
  force : jarray T -> jarray T -> result T;
  nondimensional_force : jarray T -> T -> result T;
  helmholtz_free_energy : jarray T -> jarray T -> result T;
  helmholtz_free_energy_per_link : jarray T -> jarray T -> result T;
  relative_helmholtz_free_energy : jarray T -> jarray T -> result T;
  relative_helmholtz_free_energy_per_link : jarray T -> jarray T -> result T;
  nondimensional_helmholtz_free_energy : jarray T -> T -> result T;
  nondimensional_helmholtz_free_energy_per_link : jarray T -> T -> result T;
  nondimensional_relative_helmholtz_free_energy : jarray T -> T -> result T;
  nondimensional_relative_helmholtz_free_energy_per_link : jarray T -> T -> result T }.
Arguments t : clear implicits.
Section Model.
Context {T : Type} {Sc : Scalar T}.

(* /repo/src/physics/single_chain/efjc/thermodynamics/isometric/asymptotic/alternative/legendre/mod.jl:476-559 *)
Definition init (number_of_links : Z) (link_length : T) (hinge_mass : T) (link_stiffness : T) : t T
    :=
  {| number_of_links := number_of_links;
     link_length := link_length;
     hinge_mass := hinge_mass;
     link_stiffness := link_stiffness;
     force := fun end_to_end_length temperature =>
       jl_efjc_isometric_asymptotic_alternative_legendre.force (num number_of_links) (num
       link_length) (num link_stiffness) end_to_end_length temperature;
     nondimensional_force := fun nondimensional_end_to_end_length_per_link temperature =>
       jl_efjc_isometric_asymptotic_alternative_legendre.nondimensional_force (num (link_stiffness *
       spowi link_length 2 / jl_BOLTZMANN_CONSTANT / temperature))
       nondimensional_end_to_end_length_per_link;
     helmholtz_free_energy := fun end_to_end_length temperature =>
       jl_efjc_isometric_asymptotic_alternative_legendre.helmholtz_free_energy (num number_of_links)
       (num link_length) (num hinge_mass) (num link_stiffness) end_to_end_length temperature;
     helmholtz_free_energy_per_link := fun end_to_end_length temperature =>
       jl_efjc_isometric_asymptotic_alternative_legendre.helmholtz_free_energy_per_link (num
       number_of_links) (num link_length) (num hinge_mass) (num link_stiffness) end_to_end_length
       temperature;
     relative_helmholtz_free_energy := fun end_to_end_length temperature =>
       jl_efjc_isometric_asymptotic_alternative_legendre.relative_helmholtz_free_energy (num
       number_of_links) (num link_length) (num link_stiffness) end_to_end_length temperature;
     relative_helmholtz_free_energy_per_link := fun end_to_end_length temperature =>
       jl_efjc_isometric_asymptotic_alternative_legendre.relative_helmholtz_free_energy_per_link
       (num number_of_links) (num link_length) (num link_stiffness) end_to_end_length temperature;
     nondimensional_helmholtz_free_energy := fun nondimensional_end_to_end_length_per_link temperature =>
       jl_efjc_isometric_asymptotic_alternative_legendre.nondimensional_helmholtz_free_energy (num
       number_of_links) (num link_length) (num hinge_mass) (num (link_stiffness * spowi link_length
       2 / jl_BOLTZMANN_CONSTANT / temperature)) nondimensional_end_to_end_length_per_link (num
       temperature);
     nondimensional_helmholtz_free_energy_per_link := fun nondimensional_end_to_end_length_per_link
       temperature =>
       jl_efjc_isometric_asymptotic_alternative_legendre.nondimensional_helmholtz_free_energy_per_link
       (num number_of_links) (num link_length) (num hinge_mass) (num (link_stiffness * spowi
       link_length 2 / jl_BOLTZMANN_CONSTANT / temperature))
       nondimensional_end_to_end_length_per_link (num temperature);
     nondimensional_relative_helmholtz_free_energy := fun nondimensional_end_to_end_length_per_link
       temperature =>
       jl_efjc_isometric_asymptotic_alternative_legendre.nondimensional_relative_helmholtz_free_energy
       (num number_of_links) (num (link_stiffness * spowi link_length 2 / jl_BOLTZMANN_CONSTANT /
       temperature)) nondimensional_end_to_end_length_per_link;
     nondimensional_relative_helmholtz_free_energy_per_link := fun
       nondimensional_end_to_end_length_per_link temperature =>
       jl_efjc_isometric_asymptotic_alternative_legendre.nondimensional_relative_helmholtz_free_energy_per_link
       (num (link_stiffness * spowi link_length 2 / jl_BOLTZMANN_CONSTANT / temperature))
       nondimensional_end_to_end_length_per_link |}.

End Model.
End J_efjc_isometric_asymptotic_alternative_legendre.

(** /repo/src/physics/single_chain/efjc/thermodynamics/isometric/asymptotic/reduced/legendre/mod.jl *)
Module jl_efjc_isometric_asymptotic_reduced_legendre.
Section Model.
Context {T : Type} {Sc : Scalar T}.

(* /repo/src/physics/single_chain/efjc/thermodynamics/isometric/asymptotic/reduced/legendre/mod.jl:81-114 *)
Definition force (number_of_links : jarray Z) (link_length : jarray T) (link_stiffness : jarray T)
    (end_to_end_length : jarray T) (temperature : jarray T) : result T :=
  broadcast [UInt8; Float64; Float64; Float64; Float64] (fun number_of_links_i link_length_i
      link_stiffness_i end_to_end_length_i temperature_i => ccall
      lib.physics_single_chain_efjc_thermodynamics_isometric_asymptotic_reduced_legendre_force
      [UInt8; Float64; Float64; Float64; Float64] number_of_links_i link_length_i link_stiffness_i
      end_to_end_length_i temperature_i) number_of_links link_length link_stiffness
      end_to_end_length temperature.

(* /repo/src/physics/single_chain/efjc/thermodynamics/isometric/asymptotic/reduced/legendre/mod.jl:122-141 *)
Definition nondimensional_force (nondimensional_link_stiffness : jarray T)
    (nondimensional_end_to_end_length_per_link : jarray T) : result T :=
  broadcast [Float64; Float64] (fun nondimensional_link_stiffness_i
      nondimensional_end_to_end_length_per_link_i => ccall
      lib.physics_single_chain_efjc_thermodynamics_isometric_asymptotic_reduced_legendre_nondimensional_force
      [Float64; Float64] nondimensional_link_stiffness_i
      nondimensional_end_to_end_length_per_link_i) nondimensional_link_stiffness
      nondimensional_end_to_end_length_per_link.

(* /repo/src/physics/single_chain/efjc/thermodynamics/isometric/asymptotic/reduced/legendre/mod.jl:155-192 *)
Definition helmholtz_free_energy (number_of_links : jarray Z) (link_length : jarray T) (hinge_mass :
    jarray T) (link_stiffness : jarray T) (end_to_end_length : jarray T) (temperature : jarray T) :
    result T :=
  broadcast [UInt8; Float64; Float64; Float64; Float64; Float64] (fun number_of_links_i
      link_length_i hinge_mass_i link_stiffness_i end_to_end_length_i temperature_i => ccall
      lib.physics_single_chain_efjc_thermodynamics_isometric_asymptotic_reduced_legendre_helmholtz_free_energy
      [UInt8; Float64; Float64; Float64; Float64; Float64] number_of_links_i link_length_i
      hinge_mass_i link_stiffness_i end_to_end_length_i temperature_i) number_of_links link_length
      hinge_mass link_stiffness end_to_end_length temperature.

(* /repo/src/physics/single_chain/efjc/thermodynamics/isometric/asymptotic/reduced/legendre/mod.jl:200-237 *)
Definition helmholtz_free_energy_per_link (number_of_links : jarray Z) (link_length : jarray T)
    (hinge_mass : jarray T) (link_stiffness : jarray T) (end_to_end_length : jarray T) (temperature
    : jarray T) : result T :=
  broadcast [UInt8; Float64; Float64; Float64; Float64; Float64] (fun number_of_links_i
      link_length_i hinge_mass_i link_stiffness_i end_to_end_length_i temperature_i => ccall
      lib.physics_single_chain_efjc_thermodynamics_isometric_asymptotic_reduced_legendre_helmholtz_free_energy_per_link
      [UInt8; Float64; Float64; Float64; Float64; Float64] number_of_links_i link_length_i
      hinge_mass_i link_stiffness_i end_to_end_length_i temperature_i) number_of_links link_length
      hinge_mass link_stiffness end_to_end_length temperature.

(* /repo/src/physics/single_chain/efjc/thermodynamics/isometric/asymptotic/reduced/legendre/mod.jl:245-278 *)
Definition relative_helmholtz_free_energy (number_of_links : jarray Z) (link_length : jarray T)
    (link_stiffness : jarray T) (end_to_end_length : jarray T) (temperature : jarray T) : result T
    :=
  broadcast [UInt8; Float64; Float64; Float64; Float64] (fun number_of_links_i link_length_i
      link_stiffness_i end_to_end_length_i temperature_i => ccall
      lib.physics_single_chain_efjc_thermodynamics_isometric_asymptotic_reduced_legendre_relative_helmholtz_free_energy
      [UInt8; Float64; Float64; Float64; Float64] number_of_links_i link_length_i link_stiffness_i
      end_to_end_length_i temperature_i) number_of_links link_length link_stiffness
      end_to_end_length temperature.

(* /repo/src/physics/single_chain/efjc/thermodynamics/isometric/asymptotic/reduced/legendre/mod.jl:286-319 *)
Definition relative_helmholtz_free_energy_per_link (number_of_links : jarray Z) (link_length :
    jarray T) (link_stiffness : jarray T) (end_to_end_length : jarray T) (temperature : jarray T) :
    result T :=
  broadcast [UInt8; Float64; Float64; Float64; Float64] (fun number_of_links_i link_length_i
      link_stiffness_i end_to_end_length_i temperature_i => ccall
      lib.physics_single_chain_efjc_thermodynamics_isometric_asymptotic_reduced_legendre_relative_helmholtz_free_energy_per_link
      [UInt8; Float64; Float64; Float64; Float64] number_of_links_i link_length_i link_stiffness_i
      end_to_end_length_i temperature_i) number_of_links link_length link_stiffness
      end_to_end_length temperature.

(* /repo/src/physics/single_chain/efjc/thermodynamics/isometric/asymptotic/reduced/legendre/mod.jl:327-364 *)
Definition nondimensional_helmholtz_free_energy (number_of_links : jarray Z) (link_length : jarray
    T) (hinge_mass : jarray T) (nondimensional_link_stiffness : jarray T)
    (nondimensional_end_to_end_length_per_link : jarray T) (temperature : jarray T) : result T :=
  broadcast [UInt8; Float64; Float64; Float64; Float64; Float64] (fun number_of_links_i
      link_length_i hinge_mass_i nondimensional_link_stiffness_i
      nondimensional_end_to_end_length_per_link_i temperature_i => ccall
      lib.physics_single_chain_efjc_thermodynamics_isometric_asymptotic_reduced_legendre_nondimensional_helmholtz_free_energy
      [UInt8; Float64; Float64; Float64; Float64; Float64] number_of_links_i link_length_i
      hinge_mass_i nondimensional_link_stiffness_i nondimensional_end_to_end_length_per_link_i
      temperature_i) number_of_links link_length hinge_mass nondimensional_link_stiffness
      nondimensional_end_to_end_length_per_link temperature.

(* /repo/src/physics/single_chain/efjc/thermodynamics/isometric/asymptotic/reduced/legendre/mod.jl:372-409 *)
Definition nondimensional_helmholtz_free_energy_per_link (number_of_links : jarray Z) (link_length :
    jarray T) (hinge_mass : jarray T) (nondimensional_link_stiffness : jarray T)
    (nondimensional_end_to_end_length_per_link : jarray T) (temperature : jarray T) : result T :=
  broadcast [UInt8; Float64; Float64; Float64; Float64; Float64] (fun number_of_links_i
      link_length_i hinge_mass_i nondimensional_link_stiffness_i
      nondimensional_end_to_end_length_per_link_i temperature_i => ccall
      lib.physics_single_chain_efjc_thermodynamics_isometric_asymptotic_reduced_legendre_nondimensional_helmholtz_free_energy_per_link
      [UInt8; Float64; Float64; Float64; Float64; Float64] number_of_links_i link_length_i
      hinge_mass_i nondimensional_link_stiffness_i nondimensional_end_to_end_length_per_link_i
      temperature_i) number_of_links link_length hinge_mass nondimensional_link_stiffness
      nondimensional_end_to_end_length_per_link temperature.

(* /repo/src/physics/single_chain/efjc/thermodynamics/isometric/asymptotic/reduced/legendre/mod.jl:417-442 *)
Definition nondimensional_relative_helmholtz_free_energy (number_of_links : jarray Z)
    (nondimensional_link_stiffness : jarray T) (nondimensional_end_to_end_length_per_link : jarray
    T) : result T :=
  broadcast [UInt8; Float64; Float64] (fun number_of_links_i nondimensional_link_stiffness_i
      nondimensional_end_to_end_length_per_link_i => ccall
      lib.physics_single_chain_efjc_thermodynamics_isometric_asymptotic_reduced_legendre_nondimensional_relative_helmholtz_free_energy
      [UInt8; Float64; Float64] number_of_links_i nondimensional_link_stiffness_i
      nondimensional_end_to_end_length_per_link_i) number_of_links nondimensional_link_stiffness
      nondimensional_end_to_end_length_per_link.

(* /repo/src/physics/single_chain/efjc/thermodynamics/isometric/asymptotic/reduced/legendre/mod.jl:450-469 *)
Definition nondimensional_relative_helmholtz_free_energy_per_link (nondimensional_link_stiffness :
    jarray T) (nondimensional_end_to_end_length_per_link : jarray T) : result T :=
  broadcast [Float64; Float64] (fun nondimensional_link_stiffness_i
      nondimensional_end_to_end_length_per_link_i => ccall
      lib.physics_single_chain_efjc_thermodynamics_isometric_asymptotic_reduced_legendre_nondimensional_relative_helmholtz_free_energy_per_link
      [Float64; Float64] nondimensional_link_stiffness_i
      nondimensional_end_to_end_length_per_link_i) nondimensional_link_stiffness
      nondimensional_end_to_end_length_per_link.

End Model.
End jl_efjc_isometric_asymptotic_reduced_legendre.

(** /repo/src/physics/single_chain/efjc/thermodynamics/isometric/asymptotic/reduced/legendre/mod.jl: struct EFJC *)
Module J_efjc_isometric_asymptotic_reduced_legendre.
(* /repo/src/physics/single_chain/efjc/thermodynamics/isometric/asymptotic/reduced/legendre/mod.jl:16-73 *)
Record t {T : Type} := {
  number_of_links : Z;
  link_length : T;
  hinge_mass : T;
  link_stiffness : T;
  force : jarray T -> jarray T -> result T;
  nondimensional_force : jarray T -> T -> result T;
  helmholtz_free_energy : jarray T -> jarray T -> result T;
  helmholtz_free_energy_per_link : jarray T -> jarray T -> result T;
  relative_helmholtz_free_energy : jarray T -> jarray T -> result T;
  relative_helmholtz_free_energy_per_link : jarray T -> jarray T -> result T;
  nondimensional_helmholtz_free_energy : jarray T -> T -> result T;
  nondimensional_helmholtz_free_energy_per_link : jarray T -> T -> result T;
  nondimensional_relative_helmholtz_free_energy : jarray T -> T -> result T;
  nondimensional_relative_helmholtz_free_energy_per_link : jarray T -> T -> result T }.
Arguments t : clear implicits.
Section Model.
Context {T : Type} {Sc : Scalar T}.

(* /repo/src/physics/single_chain/efjc/thermodynamics/isometric/asymptotic/reduced/legendre/mod.jl:476-559 *)
Definition init (number_of_links : Z) (link_length : T) (hinge_mass : T) (link_stiffness : T) : t T
    :=
  {| number_of_links := number_of_links;
     link_length := link_length;
     hinge_mass := hinge_mass;
     link_stiffness := link_stiffness;
     force := fun end_to_end_length temperature => jl_efjc_isometric_asymptotic_reduced_legendre.force
       (num number_of_links) (num link_length) (num link_stiffness) end_to_end_length temperature;
     nondimensional_force := fun nondimensional_end_to_end_length_per_link temperature =>
       jl_efjc_isometric_asymptotic_reduced_legendre.nondimensional_force (num (link_stiffness *
       spowi link_length 2 / jl_BOLTZMANN_CONSTANT / temperature))
       nondimensional_end_to_end_length_per_link;
     helmholtz_free_energy := fun end_to_end_length temperature =>
       jl_efjc_isometric_asymptotic_reduced_legendre.helmholtz_free_energy (num number_of_links)
       (num link_length) (num hinge_mass) (num link_stiffness) end_to_end_length temperature;
     helmholtz_free_energy_per_link := fun end_to_end_length temperature =>
       jl_efjc_isometric_asymptotic_reduced_legendre.helmholtz_free_energy_per_link (num
       number_of_links) (num link_length) (num hinge_mass) (num link_stiffness) end_to_end_length
       temperature;
     relative_helmholtz_free_energy := fun end_to_end_length temperature =>
       jl_efjc_isometric_asymptotic_reduced_legendre.relative_helmholtz_free_energy (num
       number_of_links) (num link_length) (num link_stiffness) end_to_end_length temperature;
     relative_helmholtz_free_energy_per_link := fun end_to_end_length temperature =>
       jl_efjc_isometric_asymptotic_reduced_legendre.relative_helmholtz_free_energy_per_link (num
       number_of_links) (num link_length) (num link_stiffness) end_to_end_length temperature;
     nondimensional_helmholtz_free_energy := fun nondimensional_end_to_end_length_per_link temperature =>
       jl_efjc_isometric_asymptotic_reduced_legendre.nondimensional_helmholtz_free_energy (num
       number_of_links) (num link_length) (num hinge_mass) (num (link_stiffness * spowi link_length
       2 / jl_BOLTZMANN_CONSTANT / temperature)) nondimensional_end_to_end_length_per_link (num
       temperature);
     nondimensional_helmholtz_free_energy_per_link := fun nondimensional_end_to_end_length_per_link
       temperature =>
       jl_efjc_isometric_asymptotic_reduced_legendre.nondimensional_helmholtz_free_energy_per_link
       (num number_of_links) (num link_length) (num hinge_mass) (num (link_stiffness * spowi
       link_length 2 / jl_BOLTZMANN_CONSTANT / temperature))
       nondimensional_end_to_end_length_per_link (num temperature);
     nondimensional_relative_helmholtz_free_energy := fun nondimensional_end_to_end_length_per_link
       temperature =>
       jl_efjc_isometric_asymptotic_reduced_legendre.nondimensional_relative_helmholtz_free_energy
       (num number_of_links) (num (link_stiffness * spowi link_length 2 / jl_BOLTZMANN_CONSTANT /
       temperature)) nondimensional_end_to_end_length_per_link;
     nondimensional_relative_helmholtz_free_energy_per_link := fun
       nondimensional_end_to_end_length_per_link temperature =>
       jl_efjc_isometric_asymptotic_reduced_legendre.nondimensional_relative_helmholtz_free_energy_per_link
       (num (link_stiffness * spowi link_length 2 / jl_BOLTZMANN_CONSTANT / temperature))
       nondimensional_end_to_end_length_per_link |}.

End Model.
End J_efjc_isometric_asymptotic_reduced_legendre.

(** /repo/src/physics/single_chain/efjc/thermodynamics/isotensional/asymptotic/alternative/legendre/mod.jl *)
Module jl_efjc_isotensional_asymptotic_alternative_legendre.
Section Model.
Context {T : Type} {Sc : Scalar T}.

(* /repo/src/physics/single_chain/efjc/thermodynamics/isotensional/asymptotic/alternative/legendre/mod.jl:77-114 *)
Definition helmholtz_free_energy (number_of_links : jarray Z) (link_length : jarray T) (hinge_mass :
    jarray T) (link_stiffness : jarray T) (force : jarray T) (temperature : jarray T) : result T :=
  broadcast [UInt8; Float64; Float64; Float64; Float64; Float64] (fun number_of_links_i
      link_length_i hinge_mass_i link_stiffness_i force_i temperature_i => ccall
      lib.physics_single_chain_efjc_thermodynamics_isotensional_asymptotic_alternative_legendre_helmholtz_free_energy
      [UInt8; Float64; Float64; Float64; Float64; Float64] number_of_links_i link_length_i
      hinge_mass_i link_stiffness_i force_i temperature_i) number_of_links link_length hinge_mass
      link_stiffness force temperature.

(* /repo/src/physics/single_chain/efjc/thermodynamics/isotensional/asymptotic/alternative/legendre/mod.jl:122-149 *)
Definition helmholtz_free_energy_per_link (link_length : jarray T) (hinge_mass : jarray T)
    (link_stiffness : jarray T) (force : jarray T) (temperature : jarray T) : result T :=
  broadcast [Float64; Float64; Float64; Float64; Float64] (fun link_length_i hinge_mass_i
      link_stiffness_i force_i temperature_i => ccall
      lib.physics_single_chain_efjc_thermodynamics_isotensional_asymptotic_alternative_legendre_helmholtz_free_energy_per_link
      [Float64; Float64; Float64; Float64; Float64] link_length_i hinge_mass_i link_stiffness_i
      force_i temperature_i) link_length hinge_mass link_stiffness force temperature.

(* /repo/src/physics/single_chain/efjc/thermodynamics/isotensional/asymptotic/alternative/legendre/mod.jl:157-185 *)
Definition relative_helmholtz_free_energy (number_of_links : jarray Z) (link_length : jarray T)
    (link_stiffness : jarray T) (force : jarray T) (temperature : jarray T) : result T :=
  broadcast [UInt8; Float64; Float64; Float64; Float64] (fun number_of_links_i link_length_i
      link_stiffness_i force_i temperature_i => ccall
      lib.physics_single_chain_efjc_thermodynamics_isotensional_asymptotic_alternative_legendre_relative_helmholtz_free_energy
      [UInt8; Float64; Float64; Float64; Float64] number_of_links_i link_length_i link_stiffness_i
      force_i temperature_i) number_of_links link_length link_stiffness force temperature.

(* /repo/src/physics/single_chain/efjc/thermodynamics/isotensional/asymptotic/alternative/legendre/mod.jl:193-217 *)
Definition relative_helmholtz_free_energy_per_link (link_length : jarray T) (link_stiffness : jarray
    T) (force : jarray T) (temperature : jarray T) : result T :=
  broadcast [Float64; Float64; Float64; Float64] (fun link_length_i link_stiffness_i force_i
      temperature_i => ccall
      lib.physics_single_chain_efjc_thermodynamics_isotensional_asymptotic_alternative_legendre_relative_helmholtz_free_energy_per_link
      [Float64; Float64; Float64; Float64] link_length_i link_stiffness_i force_i temperature_i)
      link_length link_stiffness force temperature.

(* /repo/src/physics/single_chain/efjc/thermodynamics/isotensional/asymptotic/alternative/legendre/mod.jl:225-262 *)
Definition nondimensional_helmholtz_free_energy (number_of_links : jarray Z) (link_length : jarray
    T) (hinge_mass : jarray T) (nondimensional_link_stiffness : jarray T) (nondimensional_force :
    jarray T) (temperature : jarray T) : result T :=
  broadcast [UInt8; Float64; Float64; Float64; Float64; Float64] (fun number_of_links_i
      link_length_i hinge_mass_i nondimensional_link_stiffness_i nondimensional_force_i
      temperature_i => ccall
      lib.physics_single_chain_efjc_thermodynamics_isotensional_asymptotic_alternative_legendre_nondimensional_helmholtz_free_energy
      [UInt8; Float64; Float64; Float64; Float64; Float64] number_of_links_i link_length_i
      hinge_mass_i nondimensional_link_stiffness_i nondimensional_force_i temperature_i)
      number_of_links link_length hinge_mass nondimensional_link_stiffness nondimensional_force
      temperature.

(* /repo/src/physics/single_chain/efjc/thermodynamics/isotensional/asymptotic/alternative/legendre/mod.jl:270-303 *)
Definition nondimensional_helmholtz_free_energy_per_link (link_length : jarray T) (hinge_mass :
    jarray T) (nondimensional_link_stiffness : jarray T) (nondimensional_force : jarray T)
    (temperature : jarray T) : result T :=
  broadcast [Float64; Float64; Float64; Float64; Float64] (fun link_length_i hinge_mass_i
      nondimensional_link_stiffness_i nondimensional_force_i temperature_i => ccall
      lib.physics_single_chain_efjc_thermodynamics_isotensional_asymptotic_alternative_legendre_nondimensional_helmholtz_free_energy_per_link
      [Float64; Float64; Float64; Float64; Float64] link_length_i hinge_mass_i
      nondimensional_link_stiffness_i nondimensional_force_i temperature_i) link_length hinge_mass
      nondimensional_link_stiffness nondimensional_force temperature.

(* /repo/src/physics/single_chain/efjc/thermodynamics/isotensional/asymptotic/alternative/legendre/mod.jl:311-333 *)
Definition nondimensional_relative_helmholtz_free_energy (number_of_links : jarray Z)
    (nondimensional_link_stiffness : jarray T) (nondimensional_force : jarray T) : result T :=
  broadcast [UInt8; Float64; Float64] (fun number_of_links_i nondimensional_link_stiffness_i
      nondimensional_force_i => ccall
      lib.physics_single_chain_efjc_thermodynamics_isotensional_asymptotic_alternative_legendre_nondimensional_relative_helmholtz_free_energy
      [UInt8; Float64; Float64] number_of_links_i nondimensional_link_stiffness_i
      nondimensional_force_i) number_of_links nondimensional_link_stiffness nondimensional_force.

(* /repo/src/physics/single_chain/efjc/thermodynamics/isotensional/asymptotic/alternative/legendre/mod.jl:341-359 *)
Definition nondimensional_relative_helmholtz_free_energy_per_link (nondimensional_link_stiffness :
    jarray T) (nondimensional_force : jarray T) : result T :=
  broadcast [Float64; Float64] (fun nondimensional_link_stiffness_i nondimensional_force_i => ccall
      lib.physics_single_chain_efjc_thermodynamics_isotensional_asymptotic_alternative_legendre_nondimensional_relative_helmholtz_free_energy_per_link
      [Float64; Float64] nondimensional_link_stiffness_i nondimensional_force_i)
      nondimensional_link_stiffness nondimensional_force.

End Model.
End jl_efjc_isotensional_asymptotic_alternative_legendre.

(** /repo/src/physics/single_chain/efjc/thermodynamics/isotensional/asymptotic/alternative/legendre/mod.jl: struct EFJC *)
Module J_efjc_isotensional_asymptotic_alternative_legendre.
(* /repo/src/physics/single_chain/efjc/thermodynamics/isotensional/asymptotic/alternative/legendre/mod.jl:16-65 *)
Record t {T : Type} := {
  number_of_links : Z;
  link_length : T;
  hinge_mass : T;
  link_stiffness : T;
  helmholtz_free_energy : jarray T -> jarray T -> result T;
  helmholtz_free_energy_per_link : jarray T -> jarray T -> result T;
  relative_helmholtz_free_energy : jarray T -> jarray T -> result T;
  relative_helmholtz_free_energy_per_link : jarray T -> jarray T -> result T;
  nondimensional_helmholtz_free_energy : jarray T -> T -> result T;
  nondimensional_helmholtz_free_energy_per_link : jarray T -> T -> result T;
  nondimensional_relative_helmholtz_free_energy : jarray T -> T -> result T;
  nondimensional_relative_helmholtz_free_energy_per_link : jarray T -> T -> result T }.
Arguments t : clear implicits.
Section Model.
Context {T : Type} {Sc : Scalar T}.

(* /repo/src/physics/single_chain/efjc/thermodynamics/isotensional/asymptotic/alternative/legendre/mod.jl:366-434 *)
Definition init (number_of_links : Z) (link_length : T) (hinge_mass : T) (link_stiffness : T) : t T
    :=
  {| number_of_links := number_of_links;
     link_length := link_length;
     hinge_mass := hinge_mass;
     link_stiffness := link_stiffness;
     helmholtz_free_energy := fun force temperature =>
       jl_efjc_isotensional_asymptotic_alternative_legendre.helmholtz_free_energy (num
       number_of_links) (num link_length) (num hinge_mass) (num link_stiffness) force temperature;
     helmholtz_free_energy_per_link := fun force temperature =>
       jl_efjc_isotensional_asymptotic_alternative_legendre.helmholtz_free_energy_per_link (num
       link_length) (num hinge_mass) (num link_stiffness) force temperature;
     relative_helmholtz_free_energy := fun force temperature =>
       jl_efjc_isotensional_asymptotic_alternative_legendre.relative_helmholtz_free_energy (num
       number_of_links) (num link_length) (num link_stiffness) force temperature;
     relative_helmholtz_free_energy_per_link := fun force temperature =>
       jl_efjc_isotensional_asymptotic_alternative_legendre.relative_helmholtz_free_energy_per_link
       (num link_length) (num link_stiffness) force temperature;
     nondimensional_helmholtz_free_energy := fun nondimensional_force temperature =>
       jl_efjc_isotensional_asymptotic_alternative_legendre.nondimensional_helmholtz_free_energy
       (num number_of_links) (num link_length) (num hinge_mass) (num (link_stiffness * spowi
       link_length 2 / jl_BOLTZMANN_CONSTANT / temperature)) nondimensional_force (num temperature);
     nondimensional_helmholtz_free_energy_per_link := fun nondimensional_force temperature =>
       jl_efjc_isotensional_asymptotic_alternative_legendre.nondimensional_helmholtz_free_energy_per_link
       (num link_length) (num hinge_mass) (num (link_stiffness * spowi link_length 2 /
       jl_BOLTZMANN_CONSTANT / temperature)) nondimensional_force (num temperature);
     nondimensional_relative_helmholtz_free_energy := fun nondimensional_force temperature =>
       jl_efjc_isotensional_asymptotic_alternative_legendre.nondimensional_relative_helmholtz_free_energy
       (num number_of_links) (num (link_stiffness * spowi link_length 2 / jl_BOLTZMANN_CONSTANT /
       temperature)) nondimensional_force;
     nondimensional_relative_helmholtz_free_energy_per_link := fun nondimensional_force temperature =>
       jl_efjc_isotensional_asymptotic_alternative_legendre.nondimensional_relative_helmholtz_free_energy_per_link
       (num (link_stiffness * spowi link_length 2 / jl_BOLTZMANN_CONSTANT / temperature))
       nondimensional_force |}.

End Model.
End J_efjc_isotensional_asymptotic_alternative_legendre.

(** /repo/src/physics/single_chain/efjc/thermodynamics/isotensional/asymptotic/reduced/legendre/mod.jl *)
Module jl_efjc_isotensional_asymptotic_reduced_legendre.
Section Model.
Context {T : Type} {Sc : Scalar T}.

(* /repo/src/physics/single_chain/efjc/thermodynamics/isotensional/asymptotic/reduced/legendre/mod.jl:77-114 *)
Definition helmholtz_free_energy (number_of_links : jarray Z) (link_length : jarray T) (hinge_mass :
    jarray T) (link_stiffness : jarray T) (force : jarray T) (temperature : jarray T) : result T :=
  broadcast [UInt8; Float64; Float64; Float64; Float64; Float64] (fun number_of_links_i
      link_length_i hinge_mass_i link_stiffness_i force_i temperature_i => ccall
      lib.physics_single_chain_efjc_thermodynamics_isotensional_asymptotic_reduced_legendre_helmholtz_free_energy
      [UInt8; Float64; Float64; Float64; Float64; Float64] number_of_links_i link_length_i
      hinge_mass_i link_stiffness_i force_i temperature_i) number_of_links link_length hinge_mass
      link_stiffness force temperature.

(* /repo/src/physics/single_chain/efjc/thermodynamics/isotensional/asymptotic/reduced/legendre/mod.jl:122-149 *)
Definition helmholtz_free_energy_per_link (link_length : jarray T) (hinge_mass : jarray T)
    (link_stiffness : jarray T) (force : jarray T) (temperature : jarray T) : result T :=
  broadcast [Float64; Float64; Float64; Float64; Float64] (fun link_length_i hinge_mass_i
      link_stiffness_i force_i temperature_i => ccall
      lib.physics_single_chain_efjc_thermodynamics_isotensional_asymptotic_reduced_legendre_helmholtz_free_energy_per_link
      [Float64; Float64; Float64; Float64; Float64] link_length_i hinge_mass_i link_stiffness_i
      force_i temperature_i) link_length hinge_mass link_stiffness force temperature.

(* /repo/src/physics/single_chain/efjc/thermodynamics/isotensional/asymptotic/reduced/legendre/mod.jl:157-185 *)
Definition relative_helmholtz_free_energy (number_of_links : jarray Z) (link_length : jarray T)
    (link_stiffness : jarray T) (force : jarray T) (temperature : jarray T) : result T :=
  broadcast [UInt8; Float64; Float64; Float64; Float64] (fun number_of_links_i link_length_i
      link_stiffness_i force_i temperature_i => ccall
      lib.physics_single_chain_efjc_thermodynamics_isotensional_asymptotic_reduced_legendre_relative_helmholtz_free_energy
      [UInt8; Float64; Float64; Float64; Float64] number_of_links_i link_length_i link_stiffness_i
      force_i temperature_i) number_of_links link_length link_stiffness force temperature.

(* /repo/src/physics/single_chain/efjc/thermodynamics/isotensional/asymptotic/reduced/legendre/mod.jl:193-217 *)
Definition relative_helmholtz_free_energy_per_link (link_length : jarray T) (link_stiffness : jarray
    T) (force : jarray T) (temperature : jarray T) : result T :=
  broadcast [Float64; Float64; Float64; Float64] (fun link_length_i link_stiffness_i force_i
      temperature_i => ccall
      lib.physics_single_chain_efjc_thermodynamics_isotensional_asymptotic_reduced_legendre_relative_helmholtz_free_energy_per_link
      [Float64; Float64; Float64; Float64] link_length_i link_stiffness_i force_i temperature_i)
      link_length link_stiffness force temperature.

(* /repo/src/physics/single_chain/efjc/thermodynamics/isotensional/asymptotic/reduced/legendre/mod.jl:225-262 *)
Definition nondimensional_helmholtz_free_energy (number_of_links : jarray Z) (link_length : jarray
    T) (hinge_mass : jarray T) (nondimensional_link_stiffness : jarray T) (nondimensional_force :
    jarray T) (temperature : jarray T) : result T :=
  broadcast [UInt8; Float64; Float64; Float64; Float64; Float64] (fun number_of_links_i
      link_length_i hinge_mass_i nondimensional_link_stiffness_i nondimensional_force_i
      temperature_i => ccall
      lib.physics_single_chain_efjc_thermodynamics_isotensional_asymptotic_reduced_legendre_nondimensional_helmholtz_free_energy
      [UInt8; Float64; Float64; Float64; Float64; Float64] number_of_links_i link_length_i
      hinge_mass_i nondimensional_link_stiffness_i nondimensional_force_i temperature_i)
      number_of_links link_length hinge_mass nondimensional_link_stiffness nondimensional_force
      temperature.

(* /repo/src/physics/single_chain/efjc/thermodynamics/isotensional/asymptotic/reduced/legendre/mod.jl:270-303 *)
Definition nondimensional_helmholtz_free_energy_per_link (link_length : jarray T) (hinge_mass :
    jarray T) (nondimensional_link_stiffness : jarray T) (nondimensional_force : jarray T)
    (temperature : jarray T) : result T :=
  broadcast [Float64; Float64; Float64; Float64; Float64] (fun link_length_i hinge_mass_i
      nondimensional_link_stiffness_i nondimensional_force_i temperature_i => ccall
      lib.physics_single_chain_efjc_thermodynamics_isotensional_asymptotic_reduced_legendre_nondimensional_helmholtz_free_energy_per_link
      [Float64; Float64; Float64; Float64; Float64] link_length_i hinge_mass_i
      nondimensional_link_stiffness_i nondimensional_force_i temperature_i) link_length hinge_mass
      nondimensional_link_stiffness nondimensional_force temperature.

(* /repo/src/physics/single_chain/efjc/thermodynamics/isotensional/asymptotic/reduced/legendre/mod.jl:311-333 *)
Definition nondimensional_relative_helmholtz_free_energy (number_of_links : jarray Z)
    (nondimensional_link_stiffness : jarray T) (nondimensional_force : jarray T) : result T :=
  broadcast [UInt8; Float64; Float64] (fun number_of_links_i nondimensional_link_stiffness_i
      nondimensional_force_i => ccall
      lib.physics_single_chain_efjc_thermodynamics_isotensional_asymptotic_reduced_legendre_nondimensional_relative_helmholtz_free_energy
      [UInt8; Float64; Float64] number_of_links_i nondimensional_link_stiffness_i
      nondimensional_force_i) number_of_links nondimensional_link_stiffness nondimensional_force.

(* /repo/src/physics/single_chain/efjc/thermodynamics/isotensional/asymptotic/reduced/legendre/mod.jl:341-359 *)
Definition nondimensional_relative_helmholtz_free_energy_per_link (nondimensional_link_stiffness :
    jarray T) (nondimensional_force : jarray T) : result T :=
  broadcast [Float64; Float64] (fun nondimensional_link_stiffness_i nondimensional_force_i => ccall
      lib.physics_single_chain_efjc_thermodynamics_isotensional_asymptotic_reduced_legendre_nondimensional_relative_helmholtz_free_energy_per_link
      [Float64; Float64] nondimensional_link_stiffness_i nondimensional_force_i)
      nondimensional_link_stiffness nondimensional_force.

End Model.
End jl_efjc_isotensional_asymptotic_reduced_legendre.

(** /repo/src/physics/single_chain/efjc/thermodynamics/isotensional/asymptotic/reduced/legendre/mod.jl: struct EFJC *)
Module J_efjc_isotensional_asymptotic_reduced_legendre.
(* /repo/src/physics/single_chain/efjc/thermodynamics/isotensional/asymptotic/reduced/legendre/mod.jl:16-65 *)
Record t {T : Type} := {
  number_of_links : Z;
  link_length : T;
  hinge_mass : T;
  link_stiffness : T;
  helmholtz_free_energy : jarray T -> jarray T -> result T;
  helmholtz_free_energy_per_link : jarray T -> jarray T -> result T;
  relative_helmholtz_free_energy : jarray T -> jarray T -> result T;
  relative_helmholtz_free_energy_per_link : jarray T -> jarray T -> result T;
  nondimensional_helmholtz_free_energy : jarray T -> T -> result T;
  nondimensional_helmholtz_free_energy_per_link : jarray T -> T -> result T;
  nondimensional_relative_helmholtz_free_energy : jarray T -> T -> result T;
  nondimensional_relative_helmholtz_free_energy_per_link : jarray T -> T -> result T }.
Arguments t : clear implicits.
Section Model.
Context {T : Type} {Sc : Scalar T}.

(* /repo/src/physics/single_chain/efjc/thermodynamics/isotensional/asymptotic/reduced/legendre/mod.jl:366-434 *)
Definition init (number_of_links : Z) (link_length : T) (hinge_mass : T) (link_stiffness : T) : t T
    :=
  {| number_of_links := number_of_links;
     link_length := link_length;
     hinge_mass := hinge_mass;
     link_stiffness := link_stiffness;
     helmholtz_free_energy := fun force temperature =>
       jl_efjc_isotensional_asymptotic_reduced_legendre.helmholtz_free_energy (num number_of_links)
       (num link_length) (num hinge_mass) (num link_stiffness) force temperature;
     helmholtz_free_energy_per_link := fun force temperature =>
       jl_efjc_isotensional_asymptotic_reduced_legendre.helmholtz_free_energy_per_link (num
       link_length) (num hinge_mass) (num link_stiffness) force temperature;
     relative_helmholtz_free_energy := fun force temperature =>
       jl_efjc_isotensional_asymptotic_reduced_legendre.relative_helmholtz_free_energy (num
       number_of_links) (num link_length) (num link_stiffness) force temperature;
     relative_helmholtz_free_energy_per_link := fun force temperature =>
       jl_efjc_isotensional_asymptotic_reduced_legendre.relative_helmholtz_free_energy_per_link (num
       link_length) (num link_stiffness) force temperature;
     nondimensional_helmholtz_free_energy := fun nondimensional_force temperature =>
       jl_efjc_isotensional_asymptotic_reduced_legendre.nondimensional_helmholtz_free_energy (num
       number_of_links) (num link_length) (num hinge_mass) (num (link_stiffness * spowi link_length
       2 / jl_BOLTZMANN_CONSTANT / temperature)) nondimensional_force (num temperature);
     nondimensional_helmholtz_free_energy_per_link := fun nondimensional_force temperature =>
       jl_efjc_isotensional_asymptotic_reduced_legendre.nondimensional_helmholtz_free_energy_per_link
       (num link_length) (num hinge_mass) (num (link_stiffness * spowi link_length 2 /
       jl_BOLTZMANN_CONSTANT / temperature)) nondimensional_force (num temperature);
     nondimensional_relative_helmholtz_free_energy := fun nondimensional_force temperature =>
       jl_efjc_isotensional_asymptotic_reduced_legendre.nondimensional_relative_helmholtz_free_energy
       (num number_of_links) (num (link_stiffness * spowi link_length 2 / jl_BOLTZMANN_CONSTANT /
       temperature)) nondimensional_force;
     nondimensional_relative_helmholtz_free_energy_per_link := fun nondimensional_force temperature =>
       jl_efjc_isotensional_asymptotic_reduced_legendre.nondimensional_relative_helmholtz_free_energy_per_link
       (num (link_stiffness * spowi link_length 2 / jl_BOLTZMANN_CONSTANT / temperature))
       nondimensional_force |}.

End Model.
End J_efjc_isotensional_asymptotic_reduced_legendre.

(** /repo/src/physics/single_chain/ufjc/lennard_jones/thermodynamics/isometric/asymptotic/legendre/mod.jl *)
Module jl_lennard_jones_isometric_asymptotic_legendre.
Section Model.
Context {T : Type} {Sc : Scalar T}.

(* /repo/src/physics/single_chain/ufjc/lennard_jones/thermodynamics/isometric/asymptotic/legendre/mod.jl:81-114 *)
Definition force (number_of_links : jarray Z) (link_length : jarray T) (link_stiffness : jarray T)
    (end_to_end_length : jarray T) (temperature : jarray T) : result T :=
  broadcast [UInt8; Float64; Float64; Float64; Float64] (fun number_of_links_i link_length_i
      link_stiffness_i end_to_end_length_i temperature_i => ccall
      lib.physics_single_chain_ufjc_lennard_jones_thermodynamics_isometric_asymptotic_legendre_force
      [UInt8; Float64; Float64; Float64; Float64] number_of_links_i link_length_i link_stiffness_i
      end_to_end_length_i temperature_i) number_of_links link_length link_stiffness
      end_to_end_length temperature.

(* /repo/src/physics/single_chain/ufjc/lennard_jones/thermodynamics/isometric/asymptotic/legendre/mod.jl:122-141 *)
Definition nondimensional_force (nondimensional_link_stiffness : jarray T)
    (nondimensional_end_to_end_length_per_link : jarray T) : result T :=
  broadcast [Float64; Float64] (fun nondimensional_link_stiffness_i
      nondimensional_end_to_end_length_per_link_i => ccall
      lib.physics_single_chain_ufjc_lennard_jones_thermodynamics_isometric_asymptotic_legendre_nondimensional_force
      [Float64; Float64] nondimensional_link_stiffness_i
      nondimensional_end_to_end_length_per_link_i) nondimensional_link_stiffness
      nondimensional_end_to_end_length_per_link.

(* /repo/src/physics/single_chain/ufjc/lennard_jones/thermodynamics/isometric/asymptotic/legendre/mod.jl:155-192 *)
Definition helmholtz_free_energy (number_of_links : jarray Z) (link_length : jarray T) (hinge_mass :
    jarray T) (link_stiffness : jarray T) (end_to_end_length : jarray T) (temperature : jarray T) :
    result T :=
  broadcast [UInt8; Float64; Float64; Float64; Float64; Float64] (fun number_of_links_i
      link_length_i hinge_mass_i link_stiffness_i end_to_end_length_i temperature_i => ccall
      lib.physics_single_chain_ufjc_lennard_jones_thermodynamics_isometric_asymptotic_legendre_helmholtz_free_energy
      [UInt8; Float64; Float64; Float64; Float64; Float64] number_of_links_i link_length_i
      hinge_mass_i link_stiffness_i end_to_end_length_i temperature_i) number_of_links link_length
      hinge_mass link_stiffness end_to_end_length temperature.

(* /repo/src/physics/single_chain/ufjc/lennard_jones/thermodynamics/isometric/asymptotic/legendre/mod.jl:200-237 *)
Definition helmholtz_free_energy_per_link (number_of_links : jarray Z) (link_length : jarray T)
    (hinge_mass : jarray T) (link_stiffness : jarray T) (end_to_end_length : jarray T) (temperature
    : jarray T) : result T :=
  broadcast [UInt8; Float64; Float64; Float64; Float64; Float64] (fun number_of_links_i
      link_length_i hinge_mass_i link_stiffness_i end_to_end_length_i temperature_i => ccall
      lib.physics_single_chain_ufjc_lennard_jones_thermodynamics_isometric_asymptotic_legendre_helmholtz_free_energy_per_link
      [UInt8; Float64; Float64; Float64; Float64; Float64] number_of_links_i link_length_i
      hinge_mass_i link_stiffness_i end_to_end_length_i temperature_i) number_of_links link_length
      hinge_mass link_stiffness end_to_end_length temperature.

(* /repo/src/physics/single_chain/ufjc/lennard_jones/thermodynamics/isometric/asymptotic/legendre/mod.jl:245-278 *)
Definition relative_helmholtz_free_energy (number_of_links : jarray Z) (link_length : jarray T)
    (link_stiffness : jarray T) (end_to_end_length : jarray T) (temperature : jarray T) : result T
    :=
  broadcast [UInt8; Float64; Float64; Float64; Float64] (fun number_of_links_i link_length_i
      link_stiffness_i end_to_end_length_i temperature_i => ccall
      lib.physics_single_chain_ufjc_lennard_jones_thermodynamics_isometric_asymptotic_legendre_relative_helmholtz_free_energy
      [UInt8; Float64; Float64; Float64; Float64] number_of_links_i link_length_i link_stiffness_i
      end_to_end_length_i temperature_i) number_of_links link_length link_stiffness
      end_to_end_length temperature.

(* /repo/src/physics/single_chain/ufjc/lennard_jones/thermodynamics/isometric/asymptotic/legendre/mod.jl:286-319 *)
Definition relative_helmholtz_free_energy_per_link (number_of_links : jarray Z) (link_length :
    jarray T) (link_stiffness : jarray T) (end_to_end_length : jarray T) (temperature : jarray T) :
    result T :=
  broadcast [UInt8; Float64; Float64; Float64; Float64] (fun number_of_links_i link_length_i
      link_stiffness_i end_to_end_length_i temperature_i => ccall
      lib.physics_single_chain_ufjc_lennard_jones_thermodynamics_isometric_asymptotic_legendre_relative_helmholtz_free_energy_per_link
      [UInt8; Float64; Float64; Float64; Float64] number_of_links_i link_length_i link_stiffness_i
      end_to_end_length_i temperature_i) number_of_links link_length link_stiffness
      end_to_end_length temperature.

(* /repo/src/physics/single_chain/ufjc/lennard_jones/thermodynamics/isometric/asymptotic/legendre/mod.jl:327-364 *)
Definition nondimensional_helmholtz_free_energy (number_of_links : jarray Z) (link_length : jarray
    T) (hinge_mass : jarray T) (nondimensional_link_stiffness : jarray T)
    (nondimensional_end_to_end_length_per_link : jarray T) (temperature : jarray T) : result T :=
  broadcast [UInt8; Float64; Float64; Float64; Float64; Float64] (fun number_of_links_i
      link_length_i hinge_mass_i nondimensional_link_stiffness_i
      nondimensional_end_to_end_length_per_link_i temperature_i => ccall
      lib.physics_single_chain_ufjc_lennard_jones_thermodynamics_isometric_asymptotic_legendre_nondimensional_helmholtz_free_energy
      [UInt8; Float64; Float64; Float64; Float64; Float64] number_of_links_i link_length_i
      hinge_mass_i nondimensional_link_stiffness_i nondimensional_end_to_end_length_per_link_i
      temperature_i) number_of_links link_length hinge_mass nondimensional_link_stiffness
      nondimensional_end_to_end_length_per_link temperature.

(* /repo/src/physics/single_chain/ufjc/lennard_jones/thermodynamics/isometric/asymptotic/legendre/mod.jl:372-409 *)
Definition nondimensional_helmholtz_free_energy_per_link (number_of_links : jarray Z) (link_length :
    jarray T) (hinge_mass : jarray T) (nondimensional_link_stiffness : jarray T)
    (nondimensional_end_to_end_length_per_link : jarray T) (temperature : jarray T) : result T :=
  broadcast [UInt8; Float64; Float64; Float64; Float64; Float64] (fun number_of_links_i
      link_length_i hinge_mass_i nondimensional_link_stiffness_i
      nondimensional_end_to_end_length_per_link_i temperature_i => ccall
      lib.physics_single_chain_ufjc_lennard_jones_thermodynamics_isometric_asymptotic_legendre_nondimensional_helmholtz_free_energy_per_link
      [UInt8; Float64; Float64; Float64; Float64; Float64] number_of_links_i link_length_i
      hinge_mass_i nondimensional_link_stiffness_i nondimensional_end_to_end_length_per_link_i
      temperature_i) number_of_links link_length hinge_mass nondimensional_link_stiffness
      nondimensional_end_to_end_length_per_link temperature.

(* /repo/src/physics/single_chain/ufjc/lennard_jones/thermodynamics/isometric/asymptotic/legendre/mod.jl:417-442 *)
Definition nondimensional_relative_helmholtz_free_energy (number_of_links : jarray Z)
    (nondimensional_link_stiffness : jarray T) (nondimensional_end_to_end_length_per_link : jarray
    T) : result T :=
  broadcast [UInt8; Float64; Float64] (fun number_of_links_i nondimensional_link_stiffness_i
      nondimensional_end_to_end_length_per_link_i => ccall
      lib.physics_single_chain_ufjc_lennard_jones_thermodynamics_isometric_asymptotic_legendre_nondimensional_relative_helmholtz_free_energy
      [UInt8; Float64; Float64] number_of_links_i nondimensional_link_stiffness_i
      nondimensional_end_to_end_length_per_link_i) number_of_links nondimensional_link_stiffness
      nondimensional_end_to_end_length_per_link.

(* /repo/src/physics/single_chain/ufjc/lennard_jones/thermodynamics/isometric/asymptotic/legendre/mod.jl:450-469 *)
Definition nondimensional_relative_helmholtz_free_energy_per_link (nondimensional_link_stiffness :
    jarray T) (nondimensional_end_to_end_length_per_link : jarray T) : result T :=
  broadcast [Float64; Float64] (fun nondimensional_link_stiffness_i
      nondimensional_end_to_end_length_per_link_i => ccall
      lib.physics_single_chain_ufjc_lennard_jones_thermodynamics_isometric_asymptotic_legendre_nondimensional_relative_helmholtz_free_energy_per_link
      [Float64; Float64] nondimensional_link_stiffness_i
      nondimensional_end_to_end_length_per_link_i) nondimensional_link_stiffness
      nondimensional_end_to_end_length_per_link.

End Model.
End jl_lennard_jones_isometric_asymptotic_legendre.

(** /repo/src/physics/single_chain/ufjc/lennard_jones/thermodynamics/isometric/asymptotic/legendre/mod.jl: struct LENNARDJONESFJC *)
Module J_lennard_jones_isometric_asymptotic_legendre.
(* /repo/src/physics/single_chain/ufjc/lennard_jones/thermodynamics/isometric/asymptotic/legendre/mod.jl:16-73 *)
Record t {T : Type} := {
  number_of_links : Z;
  link_length : T;
  hinge_mass : T;
  link_stiffness : T;
  force : jarray T -> jarray T -> result T;
  nondimensional_force : jarray T -> T -> result T;
  helmholtz_free_energy : jarray T -> jarray T -> result T;
  helmholtz_free_energy_per_link : jarray T -> jarray T -> result T;
  relative_helmholtz_free_energy : jarray T -> jarray T -> result T;
  relative_helmholtz_free_energy_per_link : jarray T -> jarray T -> result T;
  nondimensional_helmholtz_free_energy : jarray T -> T -> result T;
  nondimensional_helmholtz_free_energy_per_link : jarray T -> T -> result T;
  nondimensional_relative_helmholtz_free_energy : jarray T -> T -> result T;
  nondimensional_relative_helmholtz_free_energy_per_link : jarray T -> T -> result T }.
Arguments t : clear implicits.
Section Model.
Context {T : Type} {Sc : Scalar T}.

(* /repo/src/physics/single_chain/ufjc/lennard_jones/thermodynamics/isometric/asymptotic/legendre/mod.jl:476-559 *)
Definition init (number_of_links : Z) (link_length : T) (hinge_mass : T) (link_stiffness : T) : t T
    :=
  {| number_of_links := number_of_links;
     link_length := link_length;
     hinge_mass := hinge_mass;
     link_stiffness := link_stiffness;
     force := fun end_to_end_length temperature => jl_lennard_jones_isometric_asymptotic_legendre.force
       (num number_of_links) (num link_length) (num link_stiffness) end_to_end_length temperature;
     nondimensional_force := fun nondimensional_end_to_end_length_per_link temperature =>
       jl_lennard_jones_isometric_asymptotic_legendre.nondimensional_force (num (link_stiffness *
       spowi link_length 2 / jl_BOLTZMANN_CONSTANT / temperature))
       nondimensional_end_to_end_length_per_link;
     helmholtz_free_energy := fun end_to_end_length temperature =>
       jl_lennard_jones_isometric_asymptotic_legendre.helmholtz_free_energy (num number_of_links)
       (num link_length) (num hinge_mass) (num link_stiffness) end_to_end_length temperature;
     helmholtz_free_energy_per_link := fun end_to_end_length temperature =>
       jl_lennard_jones_isometric_asymptotic_legendre.helmholtz_free_energy_per_link (num
       number_of_links) (num link_length) (num hinge_mass) (num link_stiffness) end_to_end_length
       temperature;
     relative_helmholtz_free_energy := fun end_to_end_length temperature =>
       jl_lennard_jones_isometric_asymptotic_legendre.relative_helmholtz_free_energy (num
       number_of_links) (num link_length) (num link_stiffness) end_to_end_length temperature;
     relative_helmholtz_free_energy_per_link := fun end_to_end_length temperature =>
       jl_lennard_jones_isometric_asymptotic_legendre.relative_helmholtz_free_energy_per_link (num
       number_of_links) (num link_length) (num link_stiffness) end_to_end_length temperature;
     nondimensional_helmholtz_free_energy := fun nondimensional_end_to_end_length_per_link temperature =>
       jl_lennard_jones_isometric_asymptotic_legendre.nondimensional_helmholtz_free_energy (num
       number_of_links) (num link_length) (num hinge_mass) (num (link_stiffness * spowi link_length
       2 / jl_BOLTZMANN_CONSTANT / temperature)) nondimensional_end_to_end_length_per_link (num
       temperature);
     nondimensional_helmholtz_free_energy_per_link := fun nondimensional_end_to_end_length_per_link
       temperature =>
       jl_lennard_jones_isometric_asymptotic_legendre.nondimensional_helmholtz_free_energy_per_link
       (num number_of_links) (num link_length) (num hinge_mass) (num (link_stiffness * spowi
       link_length 2 / jl_BOLTZMANN_CONSTANT / temperature))
       nondimensional_end_to_end_length_per_link (num temperature);
     nondimensional_relative_helmholtz_free_energy := fun nondimensional_end_to_end_length_per_link
       temperature =>
       jl_lennard_jones_isometric_asymptotic_legendre.nondimensional_relative_helmholtz_free_energy
       (num number_of_links) (num (link_stiffness * spowi link_length 2 / jl_BOLTZMANN_CONSTANT /
       temperature)) nondimensional_end_to_end_length_per_link;
     nondimensional_relative_helmholtz_free_energy_per_link := fun
       nondimensional_end_to_end_length_per_link temperature =>
       jl_lennard_jones_isometric_asymptotic_legendre.nondimensional_relative_helmholtz_free_energy_per_link
       (num (link_stiffness * spowi link_length 2 / jl_BOLTZMANN_CONSTANT / temperature))
       nondimensional_end_to_end_length_per_link |}.

End Model.
End J_lennard_jones_isometric_asymptotic_legendre.

(** /repo/src/physics/single_chain/ufjc/lennard_jones/thermodynamics/isometric/asymptotic/reduced/mod.jl: struct LENNARDJONESFJC *)
Module J_lennard_jones_isometric_asymptotic_reduced.
(* /repo/src/physics/single_chain/ufjc/lennard_jones/thermodynamics/isometric/asymptotic/reduced/mod.jl:16-37 *)
Record t {T : Type} := {
  number_of_links : Z;
  link_length : T;
  hinge_mass : T;
  link_stiffness : T;
  legendre : J_lennard_jones_isometric_asymptotic_reduced_legendre.t T }.
Arguments t : clear implicits.
Section Model.
Context {T : Type} {Sc : Scalar T}.

(* /repo/src/physics/single_chain/ufjc/lennard_jones/thermodynamics/isometric/asymptotic/reduced/mod.jl:44-57 *)
Definition init (number_of_links : Z) (link_length : T) (hinge_mass : T) (link_stiffness : T) : t T
    :=
  {| number_of_links := number_of_links;
     link_length := link_length;
     hinge_mass := hinge_mass;
     link_stiffness := link_stiffness;
     legendre := J_lennard_jones_isometric_asymptotic_reduced_legendre.init number_of_links link_length
       hinge_mass link_stiffness |}.

End Model.
End J_lennard_jones_isometric_asymptotic_reduced.

(** /repo/src/physics/single_chain/ufjc/lennard_jones/thermodynamics/isotensional/asymptotic/legendre/mod.jl *)
Module jl_lennard_jones_isotensional_asymptotic_legendre.
Section Model.
Context {T : Type} {Sc : Scalar T}.

(* /repo/src/physics/single_chain/ufjc/lennard_jones/thermodynamics/isotensional/asymptotic/legendre/mod.jl:77-114 *)
Definition helmholtz_free_energy (number_of_links : jarray Z) (link_length : jarray T) (hinge_mass :
    jarray T) (link_stiffness : jarray T) (force : jarray T) (temperature : jarray T) : result T :=
  broadcast [UInt8; Float64; Float64; Float64; Float64; Float64] (fun number_of_links_i
      link_length_i hinge_mass_i link_stiffness_i force_i temperature_i => ccall
      lib.physics_single_chain_ufjc_lennard_jones_thermodynamics_isotensional_asymptotic_legendre_helmholtz_free_energy
      [UInt8; Float64; Float64; Float64; Float64; Float64] number_of_links_i link_length_i
      hinge_mass_i link_stiffness_i force_i temperature_i) number_of_links link_length hinge_mass
      link_stiffness force temperature.

(* /repo/src/physics/single_chain/ufjc/lennard_jones/thermodynamics/isotensional/asymptotic/legendre/mod.jl:122-149 *)
Definition helmholtz_free_energy_per_link (link_length : jarray T) (hinge_mass : jarray T)
    (link_stiffness : jarray T) (force : jarray T) (temperature : jarray T) : result T :=
  broadcast [Float64; Float64; Float64; Float64; Float64] (fun link_length_i hinge_mass_i
      link_stiffness_i force_i temperature_i => ccall
      lib.physics_single_chain_ufjc_lennard_jones_thermodynamics_isotensional_asymptotic_legendre_helmholtz_free_energy_per_link
      [Float64; Float64; Float64; Float64; Float64] link_length_i hinge_mass_i link_stiffness_i
      force_i temperature_i) link_length hinge_mass link_stiffness force temperature.

(* /repo/src/physics/single_chain/ufjc/lennard_jones/thermodynamics/isotensional/asymptotic/legendre/mod.jl:157-185 *)
Definition relative_helmholtz_free_energy (number_of_links : jarray Z) (link_length : jarray T)
    (link_stiffness : jarray T) (force : jarray T) (temperature : jarray T) : result T :=
  broadcast [UInt8; Float64; Float64; Float64; Float64] (fun number_of_links_i link_length_i
      link_stiffness_i force_i temperature_i => ccall
      lib.physics_single_chain_ufjc_lennard_jones_thermodynamics_isotensional_asymptotic_legendre_relative_helmholtz_free_energy
      [UInt8; Float64; Float64; Float64; Float64] number_of_links_i link_length_i link_stiffness_i
      force_i temperature_i) number_of_links link_length link_stiffness force temperature.

(* /repo/src/physics/single_chain/ufjc/lennard_jones/thermodynamics/isotensional/asymptotic/legendre/mod.jl:193-217 *)
Definition relative_helmholtz_free_energy_per_link (link_length : jarray T) (link_stiffness : jarray
    T) (force : jarray T) (temperature : jarray T) : result T :=
  broadcast [Float64; Float64; Float64; Float64] (fun link_length_i link_stiffness_i force_i
      temperature_i => ccall
      lib.physics_single_chain_ufjc_lennard_jones_thermodynamics_isotensional_asymptotic_legendre_relative_helmholtz_free_energy_per_link
      [Float64; Float64; Float64; Float64] link_length_i link_stiffness_i force_i temperature_i)
      link_length link_stiffness force temperature.

(* /repo/src/physics/single_chain/ufjc/lennard_jones/thermodynamics/isotensional/asymptotic/legendre/mod.jl:225-262 *)
Definition nondimensional_helmholtz_free_energy (number_of_links : jarray Z) (link_length : jarray
    T) (hinge_mass : jarray T) (nondimensional_link_stiffness : jarray T) (nondimensional_force :
    jarray T) (temperature : jarray T) : result T :=
  broadcast [UInt8; Float64; Float64; Float64; Float64; Float64] (fun number_of_links_i
      link_length_i hinge_mass_i nondimensional_link_stiffness_i nondimensional_force_i
      temperature_i => ccall
      lib.physics_single_chain_ufjc_lennard_jones_thermodynamics_isotensional_asymptotic_legendre_nondimensional_helmholtz_free_energy
      [UInt8; Float64; Float64; Float64; Float64; Float64] number_of_links_i link_length_i
      hinge_mass_i nondimensional_link_stiffness_i nondimensional_force_i temperature_i)
      number_of_links link_length hinge_mass nondimensional_link_stiffness nondimensional_force
      temperature.

(* /repo/src/physics/single_chain/ufjc/lennard_jones/thermodynamics/isotensional/asymptotic/legendre/mod.jl:270-303 *)
Definition nondimensional_helmholtz_free_energy_per_link (link_length : jarray T) (hinge_mass :
    jarray T) (nondimensional_link_stiffness : jarray T) (nondimensional_force : jarray T)
    (temperature : jarray T) : result T :=
  broadcast [Float64; Float64; Float64; Float64; Float64] (fun link_length_i hinge_mass_i
      link_stiffness_i nondimensional_force_i temperature_i => ccall
      lib.physics_single_chain_ufjc_lennard_jones_thermodynamics_isotensional_asymptotic_legendre_nondimensional_helmholtz_free_energy_per_link
      [Float64; Float64; Float64; Float64; Float64] link_length_i hinge_mass_i link_stiffness_i
      nondimensional_force_i temperature_i) link_length hinge_mass nondimensional_link_stiffness
      nondimensional_force temperature.

(* /repo/src/physics/single_chain/ufjc/lennard_jones/thermodynamics/isotensional/asymptotic/legendre/mod.jl:311-333 *)
Definition nondimensional_relative_helmholtz_free_energy (number_of_links : jarray Z)
    (nondimensional_link_stiffness : jarray T) (nondimensional_force : jarray T) : result T :=
  broadcast [UInt8; Float64; Float64] (fun number_of_links_i nondimensional_link_stiffness_i
      nondimensional_force_i => ccall
      lib.physics_single_chain_ufjc_lennard_jones_thermodynamics_isotensional_asymptotic_legendre_nondimensional_relative_helmholtz_free_energy
      [UInt8; Float64; Float64] number_of_links_i nondimensional_link_stiffness_i
      nondimensional_force_i) number_of_links nondimensional_link_stiffness nondimensional_force.

(* /repo/src/physics/single_chain/ufjc/lennard_jones/thermodynamics/isotensional/asymptotic/legendre/mod.jl:341-359 *)
Definition nondimensional_relative_helmholtz_free_energy_per_link (nondimensional_link_stiffness :
    jarray T) (nondimensional_force : jarray T) : result T :=
  broadcast [Float64; Float64] (fun nondimensional_link_stiffness_i nondimensional_force_i => ccall
      lib.physics_single_chain_ufjc_lennard_jones_thermodynamics_isotensional_asymptotic_legendre_nondimensional_relative_helmholtz_free_energy_per_link
      [Float64; Float64] nondimensional_link_stiffness_i nondimensional_force_i)
      nondimensional_link_stiffness nondimensional_force.

End Model.
End jl_lennard_jones_isotensional_asymptotic_legendre.

(** /repo/src/physics/single_chain/ufjc/lennard_jones/thermodynamics/isotensional/asymptotic/legendre/mod.jl: struct LENNARDJONESFJC *)
Module J_lennard_jones_isotensional_asymptotic_legendre.
(* /repo/src/physics/single_chain/ufjc/lennard_jones/thermodynamics/isotensional/asymptotic/legendre/mod.jl:16-65 *)
Record t {T : Type} := {
  number_of_links : Z;
  link_length : T;
  hinge_mass : T;
  link_stiffness : T;
  helmholtz_free_energy : jarray T -> jarray T -> result T;
  helmholtz_free_energy_per_link : jarray T -> jarray T -> result T;
  relative_helmholtz_free_energy : jarray T -> jarray T -> result T;
  relative_helmholtz_free_energy_per_link : jarray T -> jarray T -> result T;
  nondimensional_helmholtz_free_energy : jarray T -> T -> result T;
  nondimensional_helmholtz_free_energy_per_link : jarray T -> T -> result T;
  nondimensional_relative_helmholtz_free_energy : jarray T -> T -> result T;
  nondimensional_relative_helmholtz_free_energy_per_link : jarray T -> T -> result T }.
Arguments t : clear implicits.
Section Model.
Context {T : Type} {Sc : Scalar T}.

(* /repo/src/physics/single_chain/ufjc/lennard_jones/thermodynamics/isotensional/asymptotic/legendre/mod.jl:366-434 *)
Definition init (number_of_links : Z) (link_length : T) (hinge_mass : T) (link_stiffness : T) : t T
    :=
  {| number_of_links := number_of_links;
     link_length := link_length;
     hinge_mass := hinge_mass;
     link_stiffness := link_stiffness;
     helmholtz_free_energy := fun force temperature =>
       jl_lennard_jones_isotensional_asymptotic_legendre.helmholtz_free_energy (num number_of_links)
       (num link_length) (num hinge_mass) (num link_stiffness) force temperature;
     helmholtz_free_energy_per_link := fun force temperature =>
       jl_lennard_jones_isotensional_asymptotic_legendre.helmholtz_free_energy_per_link (num
       link_length) (num hinge_mass) (num link_stiffness) force temperature;
     relative_helmholtz_free_energy := fun force temperature =>
       jl_lennard_jones_isotensional_asymptotic_legendre.relative_helmholtz_free_energy (num
       number_of_links) (num link_length) (num link_stiffness) force temperature;
     relative_helmholtz_free_energy_per_link := fun force temperature =>
       jl_lennard_jones_isotensional_asymptotic_legendre.relative_helmholtz_free_energy_per_link
       (num link_length) (num link_stiffness) force temperature;
     nondimensional_helmholtz_free_energy := fun nondimensional_force temperature =>
       jl_lennard_jones_isotensional_asymptotic_legendre.nondimensional_helmholtz_free_energy (num
       number_of_links) (num link_length) (num hinge_mass) (num (link_stiffness * spowi link_length
       2 / jl_BOLTZMANN_CONSTANT / temperature)) nondimensional_force (num temperature);
     nondimensional_helmholtz_free_energy_per_link := fun nondimensional_force temperature =>
       jl_lennard_jones_isotensional_asymptotic_legendre.nondimensional_helmholtz_free_energy_per_link
       (num link_length) (num hinge_mass) (num (link_stiffness * spowi link_length 2 /
       jl_BOLTZMANN_CONSTANT / temperature)) nondimensional_force (num temperature);
     nondimensional_relative_helmholtz_free_energy := fun nondimensional_force temperature =>
       jl_lennard_jones_isotensional_asymptotic_legendre.nondimensional_relative_helmholtz_free_energy
       (num number_of_links) (num (link_stiffness * spowi link_length 2 / jl_BOLTZMANN_CONSTANT /
       temperature)) nondimensional_force;
     nondimensional_relative_helmholtz_free_energy_per_link := fun nondimensional_force temperature =>
       jl_lennard_jones_isotensional_asymptotic_legendre.nondimensional_relative_helmholtz_free_energy_per_link
       (num (link_stiffness * spowi link_length 2 / jl_BOLTZMANN_CONSTANT / temperature))
       nondimensional_force |}.

End Model.
End J_lennard_jones_isotensional_asymptotic_legendre.

(** /repo/src/physics/single_chain/ufjc/lennard_jones/thermodynamics/isotensional/asymptotic/reduced/mod.jl *)
Module jl_lennard_jones_isotensional_asymptotic_reduced.
Section Model.
Context {T : Type} {Sc : Scalar T}.

(* /repo/src/physics/single_chain/ufjc/lennard_jones/thermodynamics/isotensional/asymptotic/reduced/mod.jl:100-128 *)
Definition end_to_end_length (number_of_links : jarray Z) (link_length : jarray T) (link_stiffness :
    jarray T) (force : jarray T) (temperature : jarray T) : result T :=
  broadcast [UInt8; Float64; Float64; Float64; Float64] (fun number_of_links_i link_length_i
      link_stiffness_i force_i temperature_i => ccall
      lib.physics_single_chain_ufjc_lennard_jones_thermodynamics_isotensional_asymptotic_reduced_end_to_end_length
      [UInt8; Float64; Float64; Float64; Float64] number_of_links_i link_length_i link_stiffness_i
      force_i temperature_i) number_of_links link_length link_stiffness force temperature.

(* /repo/src/physics/single_chain/ufjc/lennard_jones/thermodynamics/isotensional/asymptotic/reduced/mod.jl:136-160 *)
Definition end_to_end_length_per_link (link_length : jarray T) (link_stiffness : jarray T) (force :
    jarray T) (temperature : jarray T) : result T :=
  broadcast [Float64; Float64; Float64; Float64] (fun link_length_i link_stiffness_i force_i
      temperature_i => ccall
      lib.physics_single_chain_ufjc_lennard_jones_thermodynamics_isotensional_asymptotic_reduced_end_to_end_length_per_link
      [Float64; Float64; Float64; Float64] link_length_i link_stiffness_i force_i temperature_i)
      link_length link_stiffness force temperature.

(* /repo/src/physics/single_chain/ufjc/lennard_jones/thermodynamics/isotensional/asymptotic/reduced/mod.jl:168-190 *)
Definition nondimensional_end_to_end_length (number_of_links : jarray Z)
    (nondimensional_link_stiffness : jarray T) (nondimensional_force : jarray T) : result T :=
  broadcast [UInt8; Float64; Float64] (fun number_of_links_i nondimensional_link_stiffness_i
      nondimensional_force_i => ccall
      lib.physics_single_chain_ufjc_lennard_jones_thermodynamics_isotensional_asymptotic_reduced_nondimensional_end_to_end_length
      [UInt8; Float64; Float64] number_of_links_i nondimensional_link_stiffness_i
      nondimensional_force_i) number_of_links nondimensional_link_stiffness nondimensional_force.

(* /repo/src/physics/single_chain/ufjc/lennard_jones/thermodynamics/isotensional/asymptotic/reduced/mod.jl:209-227 *)
Definition nondimensional_end_to_end_length_per_link (nondimensional_link_stiffness : jarray T)
    (nondimensional_force : jarray T) : result T :=
  broadcast [Float64; Float64] (fun nondimensional_link_stiffness_i nondimensional_force_i => ccall
      lib.physics_single_chain_ufjc_lennard_jones_thermodynamics_isotensional_asymptotic_reduced_nondimensional_end_to_end_length_per_link
      [Float64; Float64] nondimensional_link_stiffness_i nondimensional_force_i)
      nondimensional_link_stiffness nondimensional_force.

(* /repo/src/physics/single_chain/ufjc/lennard_jones/thermodynamics/isotensional/asymptotic/reduced/mod.jl:239-276 *)
Definition gibbs_free_energy (number_of_links : jarray Z) (link_length : jarray T) (hinge_mass :
    jarray T) (link_stiffness : jarray T) (force : jarray T) (temperature : jarray T) : result T :=
  broadcast [UInt8; Float64; Float64; Float64; Float64; Float64] (fun number_of_links_i
      link_length_i hinge_mass_i link_stiffness_i force_i temperature_i => ccall
      lib.physics_single_chain_ufjc_lennard_jones_thermodynamics_isotensional_asymptotic_reduced_gibbs_free_energy
      [UInt8; Float64; Float64; Float64; Float64; Float64] number_of_links_i link_length_i
      hinge_mass_i link_stiffness_i force_i temperature_i) number_of_links link_length hinge_mass
      link_stiffness force temperature.

(* /repo/src/physics/single_chain/ufjc/lennard_jones/thermodynamics/isotensional/asymptotic/reduced/mod.jl:284-311 *)
Definition gibbs_free_energy_per_link (link_length : jarray T) (hinge_mass : jarray T)
    (link_stiffness : jarray T) (force : jarray T) (temperature : jarray T) : result T :=
  broadcast [Float64; Float64; Float64; Float64; Float64] (fun link_length_i hinge_mass_i
      link_stiffness_i force_i temperature_i => ccall
      lib.physics_single_chain_ufjc_lennard_jones_thermodynamics_isotensional_asymptotic_reduced_gibbs_free_energy_per_link
      [Float64; Float64; Float64; Float64; Float64] link_length_i hinge_mass_i link_stiffness_i
      force_i temperature_i) link_length hinge_mass link_stiffness force temperature.

(* /repo/src/physics/single_chain/ufjc/lennard_jones/thermodynamics/isotensional/asymptotic/reduced/mod.jl:319-347 *)
Definition relative_gibbs_free_energy (number_of_links : jarray Z) (link_length : jarray T)
    (link_stiffness : jarray T) (force : jarray T) (temperature : jarray T) : result T :=
  broadcast [UInt8; Float64; Float64; Float64; Float64] (fun number_of_links_i link_length_i
      link_stiffness_i force_i temperature_i => ccall
      lib.physics_single_chain_ufjc_lennard_jones_thermodynamics_isotensional_asymptotic_reduced_relative_gibbs_free_energy
      [UInt8; Float64; Float64; Float64; Float64] number_of_links_i link_length_i link_stiffness_i
      force_i temperature_i) number_of_links link_length link_stiffness force temperature.

(* /repo/src/physics/single_chain/ufjc/lennard_jones/thermodynamics/isotensional/asymptotic/reduced/mod.jl:355-379 *)
Definition relative_gibbs_free_energy_per_link (link_length : jarray T) (link_stiffness : jarray T)
    (force : jarray T) (temperature : jarray T) : result T :=
  broadcast [Float64; Float64; Float64; Float64] (fun link_length_i link_stiffness_i force_i
      temperature_i => ccall
      lib.physics_single_chain_ufjc_lennard_jones_thermodynamics_isotensional_asymptotic_reduced_relative_gibbs_free_energy_per_link
      [Float64; Float64; Float64; Float64] link_length_i link_stiffness_i force_i temperature_i)
      link_length link_stiffness force temperature.

(* /repo/src/physics/single_chain/ufjc/lennard_jones/thermodynamics/isotensional/asymptotic/reduced/mod.jl:387-424 *)
Definition nondimensional_gibbs_free_energy (number_of_links : jarray Z) (link_length : jarray T)
    (hinge_mass : jarray T) (nondimensional_link_stiffness : jarray T) (nondimensional_force :
    jarray T) (temperature : jarray T) : result T :=
  broadcast [UInt8; Float64; Float64; Float64; Float64; Float64] (fun number_of_links_i
      link_length_i hinge_mass_i nondimensional_link_stiffness_i nondimensional_force_i
      temperature_i => ccall
      lib.physics_single_chain_ufjc_lennard_jones_thermodynamics_isotensional_asymptotic_reduced_nondimensional_gibbs_free_energy
      [UInt8; Float64; Float64; Float64; Float64; Float64] number_of_links_i link_length_i
      hinge_mass_i nondimensional_link_stiffness_i nondimensional_force_i temperature_i)
      number_of_links link_length hinge_mass nondimensional_link_stiffness nondimensional_force
      temperature.

(* /repo/src/physics/single_chain/ufjc/lennard_jones/thermodynamics/isotensional/asymptotic/reduced/mod.jl:432-465 *)
Definition nondimensional_gibbs_free_energy_per_link (link_length : jarray T) (hinge_mass : jarray
    T) (nondimensional_link_stiffness : jarray T) (nondimensional_force : jarray T) (temperature :
    jarray T) : result T :=
  broadcast [Float64; Float64; Float64; Float64; Float64] (fun link_length_i hinge_mass_i
      nondimensional_link_stiffness_i nondimensional_force_i temperature_i => ccall
      lib.physics_single_chain_ufjc_lennard_jones_thermodynamics_isotensional_asymptotic_reduced_nondimensional_gibbs_free_energy_per_link
      [Float64; Float64; Float64; Float64; Float64] link_length_i hinge_mass_i
      nondimensional_link_stiffness_i nondimensional_force_i temperature_i) link_length hinge_mass
      nondimensional_link_stiffness nondimensional_force temperature.

(* /repo/src/physics/single_chain/ufjc/lennard_jones/thermodynamics/isotensional/asymptotic/reduced/mod.jl:473-495 *)
Definition nondimensional_relative_gibbs_free_energy (number_of_links : jarray Z)
    (nondimensional_link_stiffness : jarray T) (nondimensional_force : jarray T) : result T :=
  broadcast [UInt8; Float64; Float64] (fun number_of_links_i nondimensional_link_stiffness_i
      nondimensional_force_i => ccall
      lib.physics_single_chain_ufjc_lennard_jones_thermodynamics_isotensional_asymptotic_reduced_nondimensional_relative_gibbs_free_energy
      [UInt8; Float64; Float64] number_of_links_i nondimensional_link_stiffness_i
      nondimensional_force_i) number_of_links nondimensional_link_stiffness nondimensional_force.

(* /repo/src/physics/single_chain/ufjc/lennard_jones/thermodynamics/isotensional/asymptotic/reduced/mod.jl:516-534 *)
Definition nondimensional_relative_gibbs_free_energy_per_link (nondimensional_link_stiffness :
    jarray T) (nondimensional_force : jarray T) : result T :=
  broadcast [Float64; Float64] (fun nondimensional_link_stiffness_i nondimensional_force_i => ccall
      lib.physics_single_chain_ufjc_lennard_jones_thermodynamics_isotensional_asymptotic_reduced_nondimensional_relative_gibbs_free_energy_per_link
      [Float64; Float64] nondimensional_link_stiffness_i nondimensional_force_i)
      nondimensional_link_stiffness nondimensional_force.

End Model.
End jl_lennard_jones_isotensional_asymptotic_reduced.

(** /repo/src/physics/single_chain/ufjc/lennard_jones/thermodynamics/isotensional/asymptotic/reduced/mod.jl: struct LENNARDJONESFJC *)
Module J_lennard_jones_isotensional_asymptotic_reduced.
(* /repo/src/physics/single_chain/ufjc/lennard_jones/thermodynamics/isotensional/asymptotic/reduced/mod.jl:19-88 *)
Record t {T : Type} := {
  number_of_links : Z;
  link_length : T;
  hinge_mass : T;
  link_stiffness : T;
  legendre : J_lennard_jones_isotensional_asymptotic_reduced_legendre.t T;
  end_to_end_length : jarray T -> jarray T -> result T;
  end_to_end_length_per_link : jarray T -> jarray T -> result T;
  nondimensional_end_to_end_length : jarray T -> T -> result T;
  nondimensional_end_to_end_length_per_link : jarray T -> T -> result T;
  gibbs_free_energy : jarray T -> jarray T -> result T;
  gibbs_free_energy_per_link : jarray T -> jarray T -> result T;
  relative_gibbs_free_energy : jarray T -> jarray T -> result T;
  relative_gibbs_free_energy_per_link : jarray T -> jarray T -> result T;
  nondimensional_gibbs_free_energy : jarray T -> T -> result T;
  nondimensional_gibbs_free_energy_per_link : jarray T -> T -> result T;
  nondimensional_relative_gibbs_free_energy : jarray T -> T -> result T;
  nondimensional_relative_gibbs_free_energy_per_link : jarray T -> T -> result T }.
Arguments t : clear implicits.
Section Model.
Context {T : Type} {Sc : Scalar T}.

(* /repo/src/physics/single_chain/ufjc/lennard_jones/thermodynamics/isotensional/asymptotic/reduced/mod.jl:541-626 *)
Definition init (number_of_links : Z) (link_length : T) (hinge_mass : T) (link_stiffness : T) : t T
    :=
  {| number_of_links := number_of_links;
     link_length := link_length;
     hinge_mass := hinge_mass;
     link_stiffness := link_stiffness;
     legendre := J_lennard_jones_isotensional_asymptotic_reduced_legendre.init number_of_links
       link_length hinge_mass link_stiffness;
     end_to_end_length := fun force temperature =>
       jl_lennard_jones_isotensional_asymptotic_reduced.end_to_end_length (num number_of_links) (num
       link_length) (num link_stiffness) force temperature;
     end_to_end_length_per_link := fun force temperature =>
       jl_lennard_jones_isotensional_asymptotic_reduced.end_to_end_length_per_link (num link_length)
       (num link_stiffness) force temperature;
     nondimensional_end_to_end_length := fun nondimensional_force temperature =>
       jl_lennard_jones_isotensional_asymptotic_reduced.nondimensional_end_to_end_length (num
       number_of_links) (num (link_stiffness * spowi link_length 2 / jl_BOLTZMANN_CONSTANT /
       temperature)) nondimensional_force;
     nondimensional_end_to_end_length_per_link := fun nondimensional_force temperature =>
       jl_lennard_jones_isotensional_asymptotic_reduced.nondimensional_end_to_end_length_per_link
       (num (link_stiffness * spowi link_length 2 / jl_BOLTZMANN_CONSTANT / temperature))
       nondimensional_force;
     gibbs_free_energy := fun force temperature =>
       jl_lennard_jones_isotensional_asymptotic_reduced.gibbs_free_energy (num number_of_links) (num
       link_length) (num hinge_mass) (num link_stiffness) force temperature;
     gibbs_free_energy_per_link := fun force temperature =>
       jl_lennard_jones_isotensional_asymptotic_reduced.gibbs_free_energy_per_link (num link_length)
       (num hinge_mass) (num link_stiffness) force temperature;
     relative_gibbs_free_energy := fun force temperature =>
       jl_lennard_jones_isotensional_asymptotic_reduced.relative_gibbs_free_energy (num
       number_of_links) (num link_length) (num link_stiffness) force temperature;
     relative_gibbs_free_energy_per_link := fun force temperature =>
       jl_lennard_jones_isotensional_asymptotic_reduced.relative_gibbs_free_energy_per_link (num
       link_length) (num link_stiffness) force temperature;
     nondimensional_gibbs_free_energy := fun nondimensional_force temperature =>
       jl_lennard_jones_isotensional_asymptotic_reduced.nondimensional_gibbs_free_energy (num
       number_of_links) (num link_length) (num hinge_mass) (num (link_stiffness * spowi link_length
       2 / jl_BOLTZMANN_CONSTANT / temperature)) nondimensional_force (num temperature);
     nondimensional_gibbs_free_energy_per_link := fun nondimensional_force temperature =>
       jl_lennard_jones_isotensional_asymptotic_reduced.nondimensional_gibbs_free_energy_per_link
       (num link_length) (num hinge_mass) (num (link_stiffness * spowi link_length 2 /
       jl_BOLTZMANN_CONSTANT / temperature)) nondimensional_force (num temperature);
     nondimensional_relative_gibbs_free_energy := fun nondimensional_force temperature =>
       jl_lennard_jones_isotensional_asymptotic_reduced.nondimensional_relative_gibbs_free_energy
       (num number_of_links) (num (link_stiffness * spowi link_length 2 / jl_BOLTZMANN_CONSTANT /
       temperature)) nondimensional_force;
     nondimensional_relative_gibbs_free_energy_per_link := fun nondimensional_force temperature =>
       jl_lennard_jones_isotensional_asymptotic_reduced.nondimensional_relative_gibbs_free_energy_per_link
       (num (link_stiffness * spowi link_length 2 / jl_BOLTZMANN_CONSTANT / temperature))
       nondimensional_force |}.

End Model.
End J_lennard_jones_isotensional_asymptotic_reduced.

(** /repo/src/physics/single_chain/ufjc/log_squared/thermodynamics/isometric/asymptotic/legendre/mod.jl *)
Module jl_log_squared_isometric_asymptotic_legendre.
Section Model.
Context {T : Type} {Sc : Scalar T}.

(* /repo/src/physics/single_chain/ufjc/log_squared/thermodynamics/isometric/asymptotic/legendre/mod.jl:81-114 *)
Definition force (number_of_links : jarray Z) (link_length : jarray T) (link_stiffness : jarray T)
    (end_to_end_length : jarray T) (temperature : jarray T) : result T :=
  broadcast [UInt8; Float64; Float64; Float64; Float64] (fun number_of_links_i link_length_i
      link_stiffness_i end_to_end_length_i temperature_i => ccall
      lib.physics_single_chain_ufjc_log_squared_thermodynamics_isometric_asymptotic_legendre_force
      [UInt8; Float64; Float64; Float64; Float64] number_of_links_i link_length_i link_stiffness_i
      end_to_end_length_i temperature_i) number_of_links link_length link_stiffness
      end_to_end_length temperature.

(* /repo/src/physics/single_chain/ufjc/log_squared/thermodynamics/isometric/asymptotic/legendre/mod.jl:122-141 *)
Definition nondimensional_force (nondimensional_link_stiffness : jarray T)
    (nondimensional_end_to_end_length_per_link : jarray T) : result T :=
  broadcast [Float64; Float64] (fun nondimensional_link_stiffness_i
      nondimensional_end_to_end_length_per_link_i => ccall
      lib.physics_single_chain_ufjc_log_squared_thermodynamics_isometric_asymptotic_legendre_nondimensional_force
      [Float64; Float64] nondimensional_link_stiffness_i
      nondimensional_end_to_end_length_per_link_i) nondimensional_link_stiffness
      nondimensional_end_to_end_length_per_link.

(* /repo/src/physics/single_chain/ufjc/log_squared/thermodynamics/isometric/asymptotic/legendre/mod.jl:155-192 *)
Definition helmholtz_free_energy (number_of_links : jarray Z) (link_length : jarray T) (hinge_mass :
    jarray T) (link_stiffness : jarray T) (end_to_end_length : jarray T) (temperature : jarray T) :
    result T :=
  broadcast [UInt8; Float64; Float64; Float64; Float64; Float64] (fun number_of_links_i
      link_length_i hinge_mass_i link_stiffness_i end_to_end_length_i temperature_i => ccall
      lib.physics_single_chain_ufjc_log_squared_thermodynamics_isometric_asymptotic_legendre_helmholtz_free_energy
      [UInt8; Float64; Float64; Float64; Float64; Float64] number_of_links_i link_length_i
      hinge_mass_i link_stiffness_i end_to_end_length_i temperature_i) number_of_links link_length
      hinge_mass link_stiffness end_to_end_length temperature.

(* /repo/src/physics/single_chain/ufjc/log_squared/thermodynamics/isometric/asymptotic/legendre/mod.jl:200-237 *)
Definition helmholtz_free_energy_per_link (number_of_links : jarray Z) (link_length : jarray T)
    (hinge_mass : jarray T) (link_stiffness : jarray T) (end_to_end_length : jarray T) (temperature
    : jarray T) : result T :=
  broadcast [UInt8; Float64; Float64; Float64; Float64; Float64] (fun number_of_links_i
      link_length_i hinge_mass_i link_stiffness_i end_to_end_length_i temperature_i => ccall
      lib.physics_single_chain_ufjc_log_squared_thermodynamics_isometric_asymptotic_legendre_helmholtz_free_energy_per_link
      [UInt8; Float64; Float64; Float64; Float64; Float64] number_of_links_i link_length_i
      hinge_mass_i link_stiffness_i end_to_end_length_i temperature_i) number_of_links link_length
      hinge_mass link_stiffness end_to_end_length temperature.

(* /repo/src/physics/single_chain/ufjc/log_squared/thermodynamics/isometric/asymptotic/legendre/mod.jl:245-278 *)
Definition relative_helmholtz_free_energy (number_of_links : jarray Z) (link_length : jarray T)
    (link_stiffness : jarray T) (end_to_end_length : jarray T) (temperature : jarray T) : result T
    :=
  broadcast [UInt8; Float64; Float64; Float64; Float64] (fun number_of_links_i link_length_i
      link_stiffness_i end_to_end_length_i temperature_i => ccall
      lib.physics_single_chain_ufjc_log_squared_thermodynamics_isometric_asymptotic_legendre_relative_helmholtz_free_energy
      [UInt8; Float64; Float64; Float64; Float64] number_of_links_i link_length_i link_stiffness_i
      end_to_end_length_i temperature_i) number_of_links link_length link_stiffness
      end_to_end_length temperature.

(* /repo/src/physics/single_chain/ufjc/log_squared/thermodynamics/isometric/asymptotic/legendre/mod.jl:286-319 *)
Definition relative_helmholtz_free_energy_per_link (number_of_links : jarray Z) (link_length :
    jarray T) (link_stiffness : jarray T) (end_to_end_length : jarray T) (temperature : jarray T) :
    result T :=
  broadcast [UInt8; Float64; Float64; Float64; Float64] (fun number_of_links_i link_length_i
      link_stiffness_i end_to_end_length_i temperature_i => ccall
      lib.physics_single_chain_ufjc_log_squared_thermodynamics_isometric_asymptotic_legendre_relative_helmholtz_free_energy_per_link
      [UInt8; Float64; Float64; Float64; Float64] number_of_links_i link_length_i link_stiffness_i
      end_to_end_length_i temperature_i) number_of_links link_length link_stiffness
      end_to_end_length temperature.

(* /repo/src/physics/single_chain/ufjc/log_squared/thermodynamics/isometric/asymptotic/legendre/mod.jl:327-364 *)
Definition nondimensional_helmholtz_free_energy (number_of_links : jarray Z) (link_length : jarray
    T) (hinge_mass : jarray T) (nondimensional_link_stiffness : jarray T)
    (nondimensional_end_to_end_length_per_link : jarray T) (temperature : jarray T) : result T :=
  broadcast [UInt8; Float64; Float64; Float64; Float64; Float64] (fun number_of_links_i
      link_length_i hinge_mass_i nondimensional_link_stiffness_i
      nondimensional_end_to_end_length_per_link_i temperature_i => ccall
      lib.physics_single_chain_ufjc_log_squared_thermodynamics_isometric_asymptotic_legendre_nondimensional_helmholtz_free_energy
      [UInt8; Float64; Float64; Float64; Float64; Float64] number_of_links_i link_length_i
      hinge_mass_i nondimensional_link_stiffness_i nondimensional_end_to_end_length_per_link_i
      temperature_i) number_of_links link_length hinge_mass nondimensional_link_stiffness
      nondimensional_end_to_end_length_per_link temperature.

(* /repo/src/physics/single_chain/ufjc/log_squared/thermodynamics/isometric/asymptotic/legendre/mod.jl:372-409 *)
Definition nondimensional_helmholtz_free_energy_per_link (number_of_links : jarray Z) (link_length :
    jarray T) (hinge_mass : jarray T) (nondimensional_link_stiffness : jarray T)
    (nondimensional_end_to_end_length_per_link : jarray T) (temperature : jarray T) : result T :=
  broadcast [UInt8; Float64; Float64; Float64; Float64; Float64] (fun number_of_links_i
      link_length_i hinge_mass_i nondimensional_link_stiffness_i
      nondimensional_end_to_end_length_per_link_i temperature_i => ccall
      lib.physics_single_chain_ufjc_log_squared_thermodynamics_isometric_asymptotic_legendre_nondimensional_helmholtz_free_energy_per_link
      [UInt8; Float64; Float64; Float64; Float64; Float64] number_of_links_i link_length_i
      hinge_mass_i nondimensional_link_stiffness_i nondimensional_end_to_end_length_per_link_i
      temperature_i) number_of_links link_length hinge_mass nondimensional_link_stiffness
      nondimensional_end_to_end_length_per_link temperature.

(* /repo/src/physics/single_chain/ufjc/log_squared/thermodynamics/isometric/asymptotic/legendre/mod.jl:417-442 *)
Definition nondimensional_relative_helmholtz_free_energy (number_of_links : jarray Z)
    (nondimensional_link_stiffness : jarray T) (nondimensional_end_to_end_length_per_link : jarray
    T) : result T :=
  broadcast [UInt8; Float64; Float64] (fun number_of_links_i nondimensional_link_stiffness_i
      nondimensional_end_to_end_length_per_link_i => ccall
      lib.physics_single_chain_ufjc_log_squared_thermodynamics_isometric_asymptotic_legendre_nondimensional_relative_helmholtz_free_energy
      [UInt8; Float64; Float64] number_of_links_i nondimensional_link_stiffness_i
      nondimensional_end_to_end_length_per_link_i) number_of_links nondimensional_link_stiffness
      nondimensional_end_to_end_length_per_link.

(* /repo/src/physics/single_chain/ufjc/log_squared/thermodynamics/isometric/asymptotic/legendre/mod.jl:450-469 *)
Definition nondimensional_relative_helmholtz_free_energy_per_link (nondimensional_link_stiffness :
    jarray T) (nondimensional_end_to_end_length_per_link : jarray T) : result T :=
  broadcast [Float64; Float64] (fun nondimensional_link_stiffness_i
      nondimensional_end_to_end_length_per_link_i => ccall
      lib.physics_single_chain_ufjc_log_squared_thermodynamics_isometric_asymptotic_legendre_nondimensional_relative_helmholtz_free_energy_per_link
      [Float64; Float64] nondimensional_link_stiffness_i
      nondimensional_end_to_end_length_per_link_i) nondimensional_link_stiffness
      nondimensional_end_to_end_length_per_link.

End Model.
End jl_log_squared_isometric_asymptotic_legendre.

(** /repo/src/physics/single_chain/ufjc/log_squared/thermodynamics/isometric/asymptotic/legendre/mod.jl: struct LOGSQUAREDFJC *)
Module J_log_squared_isometric_asymptotic_legendre.
(* /repo/src/physics/single_chain/ufjc/log_squared/thermodynamics/isometric/asymptotic/legendre/mod.jl:16-73 *)
Record t {T : Type} := {
  number_of_links : Z;
  link_length : T;
  hinge_mass : T;
  link_stiffness : T;
  force : jarray T -> jarray T -> result T;
  nondimensional_force : jarray T -> T -> result T;
  helmholtz_free_energy : jarray T -> jarray T -> result T;
  helmholtz_free_energy_per_link : jarray T -> jarray T -> result T;
  relative_helmholtz_free_energy : jarray T -> jarray T -> result T;
  relative_helmholtz_free_energy_per_link : jarray T -> jarray T -> result T;
  nondimensional_helmholtz_free_energy : jarray T -> T -> result T;
  nondimensional_helmholtz_free_energy_per_link : jarray T -> T -> result T;
  nondimensional_relative_helmholtz_free_energy : jarray T -> T -> result T;
  nondimensional_relative_helmholtz_free_energy_per_link : jarray T -> T -> result T }.
Arguments t : clear implicits.
Section Model.
Context {T : Type} {Sc : Scalar T}.

(* /repo/src/physics/single_chain/ufjc/log_squared/thermodynamics/isometric/asymptotic/legendre/mod.jl:476-559 *)
Definition init (number_of_links : Z) (link_length : T) (hinge_mass : T) (link_stiffness : T) : t T
    :=
  {| number_of_links := number_of_links;
     link_length := link_length;
     hinge_mass := hinge_mass;
     link_stiffness := link_stiffness;
     force := fun end_to_end_length temperature => jl_log_squared_isometric_asymptotic_legendre.force
       (num number_of_links) (num link_length) (num link_stiffness) end_to_end_length temperature;
     nondimensional_force := fun nondimensional_end_to_end_length_per_link temperature =>
       jl_log_squared_isometric_asymptotic_legendre.nondimensional_force (num (link_stiffness *
       spowi link_length 2 / jl_BOLTZMANN_CONSTANT / temperature))
       nondimensional_end_to_end_length_per_link;
     helmholtz_free_energy := fun end_to_end_length temperature =>
       jl_log_squared_isometric_asymptotic_legendre.helmholtz_free_energy (num number_of_links) (num
       link_length) (num hinge_mass) (num link_stiffness) end_to_end_length temperature;
     helmholtz_free_energy_per_link := fun end_to_end_length temperature =>
       jl_log_squared_isometric_asymptotic_legendre.helmholtz_free_energy_per_link (num
       number_of_links) (num link_length) (num hinge_mass) (num link_stiffness) end_to_end_length
       temperature;
     relative_helmholtz_free_energy := fun end_to_end_length temperature =>
       jl_log_squared_isometric_asymptotic_legendre.relative_helmholtz_free_energy (num
       number_of_links) (num link_length) (num link_stiffness) end_to_end_length temperature;
     relative_helmholtz_free_energy_per_link := fun end_to_end_length temperature =>
       jl_log_squared_isometric_asymptotic_legendre.relative_helmholtz_free_energy_per_link (num
       number_of_links) (num link_length) (num link_stiffness) end_to_end_length temperature;
     nondimensional_helmholtz_free_energy := fun nondimensional_end_to_end_length_per_link temperature =>
       jl_log_squared_isometric_asymptotic_legendre.nondimensional_helmholtz_free_energy (num
       number_of_links) (num link_length) (num hinge_mass) (num (link_stiffness * spowi link_length
       2 / jl_BOLTZMANN_CONSTANT / temperature)) nondimensional_end_to_end_length_per_link (num
       temperature);
     nondimensional_helmholtz_free_energy_per_link := fun nondimensional_end_to_end_length_per_link
       temperature =>
       jl_log_squared_isometric_asymptotic_legendre.nondimensional_helmholtz_free_energy_per_link
       (num number_of_links) (num link_length) (num hinge_mass) (num (link_stiffness * spowi
       link_length 2 / jl_BOLTZMANN_CONSTANT / temperature))
       nondimensional_end_to_end_length_per_link (num temperature);
     nondimensional_relative_helmholtz_free_energy := fun nondimensional_end_to_end_length_per_link
       temperature =>
       jl_log_squared_isometric_asymptotic_legendre.nondimensional_relative_helmholtz_free_energy
       (num number_of_links) (num (link_stiffness * spowi link_length 2 / jl_BOLTZMANN_CONSTANT /
       temperature)) nondimensional_end_to_end_length_per_link;
     nondimensional_relative_helmholtz_free_energy_per_link := fun
       nondimensional_end_to_end_length_per_link temperature =>
       jl_log_squared_isometric_asymptotic_legendre.nondimensional_relative_helmholtz_free_energy_per_link
       (num (link_stiffness * spowi link_length 2 / jl_BOLTZMANN_CONSTANT / temperature))
       nondimensional_end_to_end_length_per_link |}.

End Model.
End J_log_squared_isometric_asymptotic_legendre.

(** /repo/src/physics/single_chain/ufjc/log_squared/thermodynamics/isometric/asymptotic/reduced/mod.jl: struct LOGSQUAREDFJC *)
Module J_log_squared_isometric_asymptotic_reduced.
(* /repo/src/physics/single_chain/ufjc/log_squared/thermodynamics/isometric/asymptotic/reduced/mod.jl:16-37 *)
Record t {T : Type} := {
  number_of_links : Z;
  link_length : T;
  hinge_mass : T;
  link_stiffness : T;
  legendre : J_log_squared_isometric_asymptotic_reduced_legendre.t T }.
Arguments t : clear implicits.
Section Model.
Context {T : Type} {Sc : Scalar T}.

(* /repo/src/physics/single_chain/ufjc/log_squared/thermodynamics/isometric/asymptotic/reduced/mod.jl:44-57 *)
Definition init (number_of_links : Z) (link_length : T) (hinge_mass : T) (link_stiffness : T) : t T
    :=
  {| number_of_links := number_of_links;
     link_length := link_length;
     hinge_mass := hinge_mass;
     link_stiffness := link_stiffness;
     legendre := J_log_squared_isometric_asymptotic_reduced_legendre.init number_of_links link_length
       hinge_mass link_stiffness |}.

End Model.
End J_log_squared_isometric_asymptotic_reduced.

(** /repo/src/physics/single_chain/ufjc/log_squared/thermodynamics/isotensional/asymptotic/legendre/mod.jl *)
Module jl_log_squared_isotensional_asymptotic_legendre.
Section Model.
Context {T : Type} {Sc : Scalar T}.

(* /repo/src/physics/single_chain/ufjc/log_squared/thermodynamics/isotensional/asymptotic/legendre/mod.jl:77-114 *)
Definition helmholtz_free_energy (number_of_links : jarray Z) (link_length : jarray T) (hinge_mass :
    jarray T) (link_stiffness : jarray T) (force : jarray T) (temperature : jarray T) : result T :=
  broadcast [UInt8; Float64; Float64; Float64; Float64; Float64] (fun number_of_links_i
      link_length_i hinge_mass_i link_stiffness_i force_i temperature_i => ccall
      lib.physics_single_chain_ufjc_log_squared_thermodynamics_isotensional_asymptotic_legendre_helmholtz_free_energy
      [UInt8; Float64; Float64; Float64; Float64; Float64] number_of_links_i link_length_i
      hinge_mass_i link_stiffness_i force_i temperature_i) number_of_links link_length hinge_mass
      link_stiffness force temperature.

(* /repo/src/physics/single_chain/ufjc/log_squared/thermodynamics/isotensional/asymptotic/legendre/mod.jl:122-149 *)
Definition helmholtz_free_energy_per_link (link_length : jarray T) (hinge_mass : jarray T)
    (link_stiffness : jarray T) (force : jarray T) (temperature : jarray T) : result T :=
  broadcast [Float64; Float64; Float64; Float64; Float64] (fun link_length_i hinge_mass_i
      link_stiffness_i force_i temperature_i => ccall
      lib.physics_single_chain_ufjc_log_squared_thermodynamics_isotensional_asymptotic_legendre_helmholtz_free_energy_per_link
      [Float64; Float64; Float64; Float64; Float64] link_length_i hinge_mass_i link_stiffness_i
      force_i temperature_i) link_length hinge_mass link_stiffness force temperature.

(* /repo/src/physics/single_chain/ufjc/log_squared/thermodynamics/isotensional/asymptotic/legendre/mod.jl:157-185 *)
Definition relative_helmholtz_free_energy (number_of_links : jarray Z) (link_length : jarray T)
    (link_stiffness : jarray T) (force : jarray T) (temperature : jarray T) : result T :=
  broadcast [UInt8; Float64; Float64; Float64; Float64] (fun number_of_links_i link_length_i
      link_stiffness_i force_i temperature_i => ccall
      lib.physics_single_chain_ufjc_log_squared_thermodynamics_isotensional_asymptotic_legendre_relative_helmholtz_free_energy
      [UInt8; Float64; Float64; Float64; Float64] number_of_links_i link_length_i link_stiffness_i
      force_i temperature_i) number_of_links link_length link_stiffness force temperature.

(* /repo/src/physics/single_chain/ufjc/log_squared/thermodynamics/isotensional/asymptotic/legendre/mod.jl:193-217 *)
Definition relative_helmholtz_free_energy_per_link (link_length : jarray T) (link_stiffness : jarray
    T) (force : jarray T) (temperature : jarray T) : result T :=
  broadcast [Float64; Float64; Float64; Float64] (fun link_length_i link_stiffness_i force_i
      temperature_i => ccall
      lib.physics_single_chain_ufjc_log_squared_thermodynamics_isotensional_asymptotic_legendre_relative_helmholtz_free_energy_per_link
      [Float64; Float64; Float64; Float64] link_length_i link_stiffness_i force_i temperature_i)
      link_length link_stiffness force temperature.

(* /repo/src/physics/single_chain/ufjc/log_squared/thermodynamics/isotensional/asymptotic/legendre/mod.jl:225-262 *)
Definition nondimensional_helmholtz_free_energy (number_of_links : jarray Z) (link_length : jarray
    T) (hinge_mass : jarray T) (nondimensional_link_stiffness : jarray T) (nondimensional_force :
    jarray T) (temperature : jarray T) : result T :=
  broadcast [UInt8; Float64; Float64; Float64; Float64; Float64] (fun number_of_links_i
      link_length_i hinge_mass_i nondimensional_link_stiffness_i nondimensional_force_i
      temperature_i => ccall
      lib.physics_single_chain_ufjc_log_squared_thermodynamics_isotensional_asymptotic_legendre_nondimensional_helmholtz_free_energy
      [UInt8; Float64; Float64; Float64; Float64; Float64] number_of_links_i link_length_i
      hinge_mass_i nondimensional_link_stiffness_i nondimensional_force_i temperature_i)
      number_of_links link_length hinge_mass nondimensional_link_stiffness nondimensional_force
      temperature.

(* /repo/src/physics/single_chain/ufjc/log_squared/thermodynamics/isotensional/asymptotic/legendre/mod.jl:270-303 *)
Definition nondimensional_helmholtz_free_energy_per_link (link_length : jarray T) (hinge_mass :
    jarray T) (nondimensional_link_stiffness : jarray T) (nondimensional_force : jarray T)
    (temperature : jarray T) : result T :=
  broadcast [Float64; Float64; Float64; Float64; Float64] (fun link_length_i hinge_mass_i
      link_stiffness_i nondimensional_force_i temperature_i => ccall
      lib.physics_single_chain_ufjc_log_squared_thermodynamics_isotensional_asymptotic_legendre_nondimensional_helmholtz_free_energy_per_link
      [Float64; Float64; Float64; Float64; Float64] link_length_i hinge_mass_i link_stiffness_i
      nondimensional_force_i temperature_i) link_length hinge_mass nondimensional_link_stiffness
      nondimensional_force temperature.

(* /repo/src/physics/single_chain/ufjc/log_squared/thermodynamics/isotensional/asymptotic/legendre/mod.jl:311-333 *)
Definition nondimensional_relative_helmholtz_free_energy (number_of_links : jarray Z)
    (nondimensional_link_stiffness : jarray T) (nondimensional_force : jarray T) : result T :=
  broadcast [UInt8; Float64; Float64] (fun number_of_links_i nondimensional_link_stiffness_i
      nondimensional_force_i => ccall
      lib.physics_single_chain_ufjc_log_squared_thermodynamics_isotensional_asymptotic_legendre_nondimensional_relative_helmholtz_free_energy
      [UInt8; Float64; Float64] number_of_links_i nondimensional_link_stiffness_i
      nondimensional_force_i) number_of_links nondimensional_link_stiffness nondimensional_force.

(* /repo/src/physics/single_chain/ufjc/log_squared/thermodynamics/isotensional/asymptotic/legendre/mod.jl:341-359 *)
Definition nondimensional_relative_helmholtz_free_energy_per_link (nondimensional_link_stiffness :
    jarray T) (nondimensional_force : jarray T) : result T :=
  broadcast [Float64; Float64] (fun nondimensional_link_stiffness_i nondimensional_force_i => ccall
      lib.physics_single_chain_ufjc_log_squared_thermodynamics_isotensional_asymptotic_legendre_nondimensional_relative_helmholtz_free_energy_per_link
      [Float64; Float64] nondimensional_link_stiffness_i nondimensional_force_i)
      nondimensional_link_stiffness nondimensional_force.

End Model.
End jl_log_squared_isotensional_asymptotic_legendre.

(** /repo/src/physics/single_chain/ufjc/log_squared/thermodynamics/isotensional/asymptotic/legendre/mod.jl: struct LOGSQUAREDFJC *)
Module J_log_squared_isotensional_asymptotic_legendre.
(* /repo/src/physics/single_chain/ufjc/log_squared/thermodynamics/isotensional/asymptotic/legendre/mod.jl:16-65 *)
Record t {T : Type} := {
  number_of_links : Z;
  link_length : T;
  hinge_mass : T;
  link_stiffness : T;
  helmholtz_free_energy : jarray T -> jarray T -> result T;
  helmholtz_free_energy_per_link : jarray T -> jarray T -> result T;
  relative_helmholtz_free_energy : jarray T -> jarray T -> result T;
  relative_helmholtz_free_energy_per_link : jarray T -> jarray T -> result T;
  nondimensional_helmholtz_free_energy : jarray T -> T -> result T;
  nondimensional_helmholtz_free_energy_per_link : jarray T -> T -> result T;
  nondimensional_relative_helmholtz_free_energy : jarray T -> T -> result T;
  nondimensional_relative_helmholtz_free_energy_per_link : jarray T -> T -> result T }.
Arguments t : clear implicits.
Section Model.
Context {T : Type} {Sc : Scalar T}.

(* /repo/src/physics/single_chain/ufjc/log_squared/thermodynamics/isotensional/asymptotic/legendre/mod.jl:366-434 *)
Definition init (number_of_links : Z) (link_length : T) (hinge_mass : T) (link_stiffness : T) : t T
    :=
  {| number_of_links := number_of_links;
     link_length := link_length;
     hinge_mass := hinge_mass;
     link_stiffness := link_stiffness;
     helmholtz_free_energy := fun force temperature =>
       jl_log_squared_isotensional_asymptotic_legendre.helmholtz_free_energy (num number_of_links)
       (num link_length) (num hinge_mass) (num link_stiffness) force temperature;
     helmholtz_free_energy_per_link := fun force temperature =>
       jl_log_squared_isotensional_asymptotic_legendre.helmholtz_free_energy_per_link (num
       link_length) (num hinge_mass) (num link_stiffness) force temperature;
     relative_helmholtz_free_energy := fun force temperature =>
       jl_log_squared_isotensional_asymptotic_legendre.relative_helmholtz_free_energy (num
       number_of_links) (num link_length) (num link_stiffness) force temperature;
     relative_helmholtz_free_energy_per_link := fun force temperature =>
       jl_log_squared_isotensional_asymptotic_legendre.relative_helmholtz_free_energy_per_link (num
       link_length) (num link_stiffness) force temperature;
     nondimensional_helmholtz_free_energy := fun nondimensional_force temperature =>
       jl_log_squared_isotensional_asymptotic_legendre.nondimensional_helmholtz_free_energy (num
       number_of_links) (num link_length) (num hinge_mass) (num (link_stiffness * spowi link_length
       2 / jl_BOLTZMANN_CONSTANT / temperature)) nondimensional_force (num temperature);
     nondimensional_helmholtz_free_energy_per_link := fun nondimensional_force temperature =>
       jl_log_squared_isotensional_asymptotic_legendre.nondimensional_helmholtz_free_energy_per_link
       (num link_length) (num hinge_mass) (num (link_stiffness * spowi link_length 2 /
       jl_BOLTZMANN_CONSTANT / temperature)) nondimensional_force (num temperature);
     nondimensional_relative_helmholtz_free_energy := fun nondimensional_force temperature =>
       jl_log_squared_isotensional_asymptotic_legendre.nondimensional_relative_helmholtz_free_energy
       (num number_of_links) (num (link_stiffness * spowi link_length 2 / jl_BOLTZMANN_CONSTANT /
       temperature)) nondimensional_force;
     nondimensional_relative_helmholtz_free_energy_per_link := fun nondimensional_force temperature =>
       jl_log_squared_isotensional_asymptotic_legendre.nondimensional_relative_helmholtz_free_energy_per_link
       (num (link_stiffness * spowi link_length 2 / jl_BOLTZMANN_CONSTANT / temperature))
       nondimensional_force |}.

End Model.
End J_log_squared_isotensional_asymptotic_legendre.

(** /repo/src/physics/single_chain/ufjc/log_squared/thermodynamics/isotensional/asymptotic/reduced/mod.jl *)
Module jl_log_squared_isotensional_asymptotic_reduced.
Section Model.
Context {T : Type} {Sc : Scalar T}.

(* /repo/src/physics/single_chain/ufjc/log_squared/thermodynamics/isotensional/asymptotic/reduced/mod.jl:100-128 *)
Definition end_to_end_length (number_of_links : jarray Z) (link_length : jarray T) (link_stiffness :
    jarray T) (force : jarray T) (temperature : jarray T) : result T :=
  broadcast [UInt8; Float64; Float64; Float64; Float64] (fun number_of_links_i link_length_i
      link_stiffness_i force_i temperature_i => ccall
      lib.physics_single_chain_ufjc_log_squared_thermodynamics_isotensional_asymptotic_reduced_end_to_end_length
      [UInt8; Float64; Float64; Float64; Float64] number_of_links_i link_length_i link_stiffness_i
      force_i temperature_i) number_of_links link_length link_stiffness force temperature.

(* /repo/src/physics/single_chain/ufjc/log_squared/thermodynamics/isotensional/asymptotic/reduced/mod.jl:136-160 *)
Definition end_to_end_length_per_link (link_length : jarray T) (link_stiffness : jarray T) (force :
    jarray T) (temperature : jarray T) : result T :=
  broadcast [Float64; Float64; Float64; Float64] (fun link_length_i link_stiffness_i force_i
      temperature_i => ccall
      lib.physics_single_chain_ufjc_log_squared_thermodynamics_isotensional_asymptotic_reduced_end_to_end_length_per_link
      [Float64; Float64; Float64; Float64] link_length_i link_stiffness_i force_i temperature_i)
      link_length link_stiffness force temperature.

(* /repo/src/physics/single_chain/ufjc/log_squared/thermodynamics/isotensional/asymptotic/reduced/mod.jl:168-190 *)
Definition nondimensional_end_to_end_length (number_of_links : jarray Z)
    (nondimensional_link_stiffness : jarray T) (nondimensional_force : jarray T) : result T :=
  broadcast [UInt8; Float64; Float64] (fun number_of_links_i nondimensional_link_stiffness_i
      nondimensional_force_i => ccall
      lib.physics_single_chain_ufjc_log_squared_thermodynamics_isotensional_asymptotic_reduced_nondimensional_end_to_end_length
      [UInt8; Float64; Float64] number_of_links_i nondimensional_link_stiffness_i
      nondimensional_force_i) number_of_links nondimensional_link_stiffness nondimensional_force.

(* /repo/src/physics/single_chain/ufjc/log_squared/thermodynamics/isotensional/asymptotic/reduced/mod.jl:211-229 *)
Definition nondimensional_end_to_end_length_per_link (nondimensional_link_stiffness : jarray T)
    (nondimensional_force : jarray T) : result T :=
  broadcast [Float64; Float64] (fun nondimensional_link_stiffness_i nondimensional_force_i => ccall
      lib.physics_single_chain_ufjc_log_squared_thermodynamics_isotensional_asymptotic_reduced_nondimensional_end_to_end_length_per_link
      [Float64; Float64] nondimensional_link_stiffness_i nondimensional_force_i)
      nondimensional_link_stiffness nondimensional_force.

(* /repo/src/physics/single_chain/ufjc/log_squared/thermodynamics/isotensional/asymptotic/reduced/mod.jl:241-278 *)
Definition gibbs_free_energy (number_of_links : jarray Z) (link_length : jarray T) (hinge_mass :
    jarray T) (link_stiffness : jarray T) (force : jarray T) (temperature : jarray T) : result T :=
  broadcast [UInt8; Float64; Float64; Float64; Float64; Float64] (fun number_of_links_i
      link_length_i hinge_mass_i link_stiffness_i force_i temperature_i => ccall
      lib.physics_single_chain_ufjc_log_squared_thermodynamics_isotensional_asymptotic_reduced_gibbs_free_energy
      [UInt8; Float64; Float64; Float64; Float64; Float64] number_of_links_i link_length_i
      hinge_mass_i link_stiffness_i force_i temperature_i) number_of_links link_length hinge_mass
      link_stiffness force temperature.

(* /repo/src/physics/single_chain/ufjc/log_squared/thermodynamics/isotensional/asymptotic/reduced/mod.jl:286-313 *)
Definition gibbs_free_energy_per_link (link_length : jarray T) (hinge_mass : jarray T)
    (link_stiffness : jarray T) (force : jarray T) (temperature : jarray T) : result T :=
  broadcast [Float64; Float64; Float64; Float64; Float64] (fun link_length_i hinge_mass_i
      link_stiffness_i force_i temperature_i => ccall
      lib.physics_single_chain_ufjc_log_squared_thermodynamics_isotensional_asymptotic_reduced_gibbs_free_energy_per_link
      [Float64; Float64; Float64; Float64; Float64] link_length_i hinge_mass_i link_stiffness_i
      force_i temperature_i) link_length hinge_mass link_stiffness force temperature.

(* /repo/src/physics/single_chain/ufjc/log_squared/thermodynamics/isotensional/asymptotic/reduced/mod.jl:321-349 *)
Definition relative_gibbs_free_energy (number_of_links : jarray Z) (link_length : jarray T)
    (link_stiffness : jarray T) (force : jarray T) (temperature : jarray T) : result T :=
  broadcast [UInt8; Float64; Float64; Float64; Float64] (fun number_of_links_i link_length_i
      link_stiffness_i force_i temperature_i => ccall
      lib.physics_single_chain_ufjc_log_squared_thermodynamics_isotensional_asymptotic_reduced_relative_gibbs_free_energy
      [UInt8; Float64; Float64; Float64; Float64] number_of_links_i link_length_i link_stiffness_i
      force_i temperature_i) number_of_links link_length link_stiffness force temperature.

(* /repo/src/physics/single_chain/ufjc/log_squared/thermodynamics/isotensional/asymptotic/reduced/mod.jl:357-381 *)
Definition relative_gibbs_free_energy_per_link (link_length : jarray T) (link_stiffness : jarray T)
    (force : jarray T) (temperature : jarray T) : result T :=
  broadcast [Float64; Float64; Float64; Float64] (fun link_length_i link_stiffness_i force_i
      temperature_i => ccall
      lib.physics_single_chain_ufjc_log_squared_thermodynamics_isotensional_asymptotic_reduced_relative_gibbs_free_energy_per_link
      [Float64; Float64; Float64; Float64] link_length_i link_stiffness_i force_i temperature_i)
      link_length link_stiffness force temperature.

(* /repo/src/physics/single_chain/ufjc/log_squared/thermodynamics/isotensional/asymptotic/reduced/mod.jl:389-426 *)
Definition nondimensional_gibbs_free_energy (number_of_links : jarray Z) (link_length : jarray T)
    (hinge_mass : jarray T) (nondimensional_link_stiffness : jarray T) (nondimensional_force :
    jarray T) (temperature : jarray T) : result T :=
  broadcast [UInt8; Float64; Float64; Float64; Float64; Float64] (fun number_of_links_i
      link_length_i hinge_mass_i nondimensional_link_stiffness_i nondimensional_force_i
      temperature_i => ccall
      lib.physics_single_chain_ufjc_log_squared_thermodynamics_isotensional_asymptotic_reduced_nondimensional_gibbs_free_energy
      [UInt8; Float64; Float64; Float64; Float64; Float64] number_of_links_i link_length_i
      hinge_mass_i nondimensional_link_stiffness_i nondimensional_force_i temperature_i)
      number_of_links link_length hinge_mass nondimensional_link_stiffness nondimensional_force
      temperature.

(* /repo/src/physics/single_chain/ufjc/log_squared/thermodynamics/isotensional/asymptotic/reduced/mod.jl:434-467 *)
Definition nondimensional_gibbs_free_energy_per_link (link_length : jarray T) (hinge_mass : jarray
    T) (nondimensional_link_stiffness : jarray T) (nondimensional_force : jarray T) (temperature :
    jarray T) : result T :=
  broadcast [Float64; Float64; Float64; Float64; Float64] (fun link_length_i hinge_mass_i
      nondimensional_link_stiffness_i nondimensional_force_i temperature_i => ccall
      lib.physics_single_chain_ufjc_log_squared_thermodynamics_isotensional_asymptotic_reduced_nondimensional_gibbs_free_energy_per_link
      [Float64; Float64; Float64; Float64; Float64] link_length_i hinge_mass_i
      nondimensional_link_stiffness_i nondimensional_force_i temperature_i) link_length hinge_mass
      nondimensional_link_stiffness nondimensional_force temperature.

(* /repo/src/physics/single_chain/ufjc/log_squared/thermodynamics/isotensional/asymptotic/reduced/mod.jl:475-497 *)
Definition nondimensional_relative_gibbs_free_energy (number_of_links : jarray Z)
    (nondimensional_link_stiffness : jarray T) (nondimensional_force : jarray T) : result T :=
  broadcast [UInt8; Float64; Float64] (fun number_of_links_i nondimensional_link_stiffness_i
      nondimensional_force_i => ccall
      lib.physics_single_chain_ufjc_log_squared_thermodynamics_isotensional_asymptotic_reduced_nondimensional_relative_gibbs_free_energy
      [UInt8; Float64; Float64] number_of_links_i nondimensional_link_stiffness_i
      nondimensional_force_i) number_of_links nondimensional_link_stiffness nondimensional_force.

(* /repo/src/physics/single_chain/ufjc/log_squared/thermodynamics/isotensional/asymptotic/reduced/mod.jl:518-536 *)
Definition nondimensional_relative_gibbs_free_energy_per_link (nondimensional_link_stiffness :
    jarray T) (nondimensional_force : jarray T) : result T :=
  broadcast [Float64; Float64] (fun nondimensional_link_stiffness_i nondimensional_force_i => ccall
      lib.physics_single_chain_ufjc_log_squared_thermodynamics_isotensional_asymptotic_reduced_nondimensional_relative_gibbs_free_energy_per_link
      [Float64; Float64] nondimensional_link_stiffness_i nondimensional_force_i)
      nondimensional_link_stiffness nondimensional_force.

End Model.
End jl_log_squared_isotensional_asymptotic_reduced.

(** /repo/src/physics/single_chain/ufjc/log_squared/thermodynamics/isotensional/asymptotic/reduced/mod.jl: struct LOGSQUAREDFJC *)
Module J_log_squared_isotensional_asymptotic_reduced.
(* /repo/src/physics/single_chain/ufjc/log_squared/thermodynamics/isotensional/asymptotic/reduced/mod.jl:19-88 *)
Record t {T : Type} := {
  number_of_links : Z;
  link_length : T;
  hinge_mass : T;
  link_stiffness : T;
  legendre : J_log_squared_isotensional_asymptotic_reduced_legendre.t T;
  end_to_end_length : jarray T -> jarray T -> result T;
  end_to_end_length_per_link : jarray T -> jarray T -> result T;
  nondimensional_end_to_end_length : jarray T -> T -> result T;
  nondimensional_end_to_end_length_per_link : jarray T -> T -> result T;
  gibbs_free_energy : jarray T -> jarray T -> result T;
  gibbs_free_energy_per_link : jarray T -> jarray T -> result T;
  relative_gibbs_free_energy : jarray T -> jarray T -> result T;
  relative_gibbs_free_energy_per_link : jarray T -> jarray T -> result T;
  nondimensional_gibbs_free_energy : jarray T -> T -> result T;
  nondimensional_gibbs_free_energy_per_link : jarray T -> T -> result T;
  nondimensional_relative_gibbs_free_energy : jarray T -> T -> result T;
  nondimensional_relative_gibbs_free_energy_per_link : jarray T -> T -> result T }.
Arguments t : clear implicits.
Section Model.
Context {T : Type} {Sc : Scalar T}.

(* /repo/src/physics/single_chain/ufjc/log_squared/thermodynamics/isotensional/asymptotic/reduced/mod.jl:543-628 *)
Definition init (number_of_links : Z) (link_length : T) (hinge_mass : T) (link_stiffness : T) : t T
    :=
  {| number_of_links := number_of_links;
     link_length := link_length;
     hinge_mass := hinge_mass;
     link_stiffness := link_stiffness;
     legendre := J_log_squared_isotensional_asymptotic_reduced_legendre.init number_of_links link_length
       hinge_mass link_stiffness;
     end_to_end_length := fun force temperature =>
       jl_log_squared_isotensional_asymptotic_reduced.end_to_end_length (num number_of_links) (num
       link_length) (num link_stiffness) force temperature;
     end_to_end_length_per_link := fun force temperature =>
       jl_log_squared_isotensional_asymptotic_reduced.end_to_end_length_per_link (num link_length)
       (num link_stiffness) force temperature;
     nondimensional_end_to_end_length := fun nondimensional_force temperature =>
       jl_log_squared_isotensional_asymptotic_reduced.nondimensional_end_to_end_length (num
       number_of_links) (num (link_stiffness * spowi link_length 2 / jl_BOLTZMANN_CONSTANT /
       temperature)) nondimensional_force;
     nondimensional_end_to_end_length_per_link := fun nondimensional_force temperature =>
       jl_log_squared_isotensional_asymptotic_reduced.nondimensional_end_to_end_length_per_link (num
       (link_stiffness * spowi link_length 2 / jl_BOLTZMANN_CONSTANT / temperature))
       nondimensional_force;
     gibbs_free_energy := fun force temperature =>
       jl_log_squared_isotensional_asymptotic_reduced.gibbs_free_energy (num number_of_links) (num
       link_length) (num hinge_mass) (num link_stiffness) force temperature;
     gibbs_free_energy_per_link := fun force temperature =>
       jl_log_squared_isotensional_asymptotic_reduced.gibbs_free_energy_per_link (num link_length)
       (num hinge_mass) (num link_stiffness) force temperature;
     relative_gibbs_free_energy := fun force temperature =>
       jl_log_squared_isotensional_asymptotic_reduced.relative_gibbs_free_energy (num
       number_of_links) (num link_length) (num link_stiffness) force temperature;
     relative_gibbs_free_energy_per_link := fun force temperature =>
       jl_log_squared_isotensional_asymptotic_reduced.relative_gibbs_free_energy_per_link (num
       link_length) (num link_stiffness) force temperature;
     nondimensional_gibbs_free_energy := fun nondimensional_force temperature =>
       jl_log_squared_isotensional_asymptotic_reduced.nondimensional_gibbs_free_energy (num
       number_of_links) (num link_length) (num hinge_mass) (num (link_stiffness * spowi link_length
       2 / jl_BOLTZMANN_CONSTANT / temperature)) nondimensional_force (num temperature);
     nondimensional_gibbs_free_energy_per_link := fun nondimensional_force temperature =>
       jl_log_squared_isotensional_asymptotic_reduced.nondimensional_gibbs_free_energy_per_link (num
       link_length) (num hinge_mass) (num (link_stiffness * spowi link_length 2 /
       jl_BOLTZMANN_CONSTANT / temperature)) nondimensional_force (num temperature);
     nondimensional_relative_gibbs_free_energy := fun nondimensional_force temperature =>
       jl_log_squared_isotensional_asymptotic_reduced.nondimensional_relative_gibbs_free_energy (num
       number_of_links) (num (link_stiffness * spowi link_length 2 / jl_BOLTZMANN_CONSTANT /
       temperature)) nondimensional_force;
     nondimensional_relative_gibbs_free_energy_per_link := fun nondimensional_force temperature =>
       jl_log_squared_isotensional_asymptotic_reduced.nondimensional_relative_gibbs_free_energy_per_link
       (num (link_stiffness * spowi link_length 2 / jl_BOLTZMANN_CONSTANT / temperature))
       nondimensional_force |}.

End Model.
End J_log_squared_isotensional_asymptotic_reduced.

(** /repo/src/physics/single_chain/ufjc/morse/thermodynamics/isometric/asymptotic/legendre/mod.jl *)
Module jl_morse_isometric_asymptotic_legendre.
Section Model.
Context {T : Type} {Sc : Scalar T}.

(* /repo/src/physics/single_chain/ufjc/morse/thermodynamics/isometric/asymptotic/legendre/mod.jl:85-122 *)
Definition force (number_of_links : jarray Z) (link_length : jarray T) (link_stiffness : jarray T)
    (link_energy : jarray T) (end_to_end_length : jarray T) (temperature : jarray T) : result T :=
  broadcast [UInt8; Float64; Float64; Float64; Float64; Float64] (fun number_of_links_i
      link_length_i link_stiffness_i link_energy_i end_to_end_length_i temperature_i => ccall
      lib.physics_single_chain_ufjc_morse_thermodynamics_isometric_asymptotic_legendre_force [UInt8;
      Float64; Float64; Float64; Float64; Float64] number_of_links_i link_length_i link_stiffness_i
      link_energy_i end_to_end_length_i temperature_i) number_of_links link_length link_stiffness
      link_energy end_to_end_length temperature.

(* /repo/src/physics/single_chain/ufjc/morse/thermodynamics/isometric/asymptotic/legendre/mod.jl:130-155 *)
Definition nondimensional_force (nondimensional_link_stiffness : jarray T)
    (nondimensional_link_energy : jarray T) (nondimensional_end_to_end_length_per_link : jarray T) :
    result T :=
  broadcast [Float64; Float64; Float64] (fun nondimensional_link_stiffness_i
      nondimensional_link_energy_i nondimensional_end_to_end_length_per_link_i => ccall
      lib.physics_single_chain_ufjc_morse_thermodynamics_isometric_asymptotic_legendre_nondimensional_force
      [Float64; Float64; Float64] nondimensional_link_stiffness_i nondimensional_link_energy_i
      nondimensional_end_to_end_length_per_link_i) nondimensional_link_stiffness
      nondimensional_link_energy nondimensional_end_to_end_length_per_link.

(* /repo/src/physics/single_chain/ufjc/morse/thermodynamics/isometric/asymptotic/legendre/mod.jl:169-210 *)
Definition helmholtz_free_energy (number_of_links : jarray Z) (link_length : jarray T) (hinge_mass :
    jarray T) (link_stiffness : jarray T) (link_energy : jarray T) (end_to_end_length : jarray T)
    (temperature : jarray T) : result T :=
  broadcast [UInt8; Float64; Float64; Float64; Float64; Float64; Float64] (fun number_of_links_i
      link_length_i hinge_mass_i link_stiffness_i link_energy_i end_to_end_length_i temperature_i =>
      ccall
      lib.physics_single_chain_ufjc_morse_thermodynamics_isometric_asymptotic_legendre_helmholtz_free_energy
      [UInt8; Float64; Float64; Float64; Float64; Float64; Float64] number_of_links_i link_length_i
      hinge_mass_i link_stiffness_i link_energy_i end_to_end_length_i temperature_i) number_of_links
      link_length hinge_mass link_stiffness link_energy end_to_end_length temperature.

(* /repo/src/physics/single_chain/ufjc/morse/thermodynamics/isometric/asymptotic/legendre/mod.jl:218-259 *)
Definition helmholtz_free_energy_per_link (number_of_links : jarray Z) (link_length : jarray T)
    (hinge_mass : jarray T) (link_stiffness : jarray T) (link_energy : jarray T) (end_to_end_length
    : jarray T) (temperature : jarray T) : result T :=
  broadcast [UInt8; Float64; Float64; Float64; Float64; Float64; Float64] (fun number_of_links_i
      link_length_i hinge_mass_i link_stiffness_i link_energy_i end_to_end_length_i temperature_i =>
      ccall
      lib.physics_single_chain_ufjc_morse_thermodynamics_isometric_asymptotic_legendre_helmholtz_free_energy_per_link
      [UInt8; Float64; Float64; Float64; Float64; Float64; Float64] number_of_links_i link_length_i
      hinge_mass_i link_stiffness_i link_energy_i end_to_end_length_i temperature_i) number_of_links
      link_length hinge_mass link_stiffness link_energy end_to_end_length temperature.

(* /repo/src/physics/single_chain/ufjc/morse/thermodynamics/isometric/asymptotic/legendre/mod.jl:267-304 *)
Definition relative_helmholtz_free_energy (number_of_links : jarray Z) (link_length : jarray T)
    (link_stiffness : jarray T) (link_energy : jarray T) (end_to_end_length : jarray T) (temperature
    : jarray T) : result T :=
  broadcast [UInt8; Float64; Float64; Float64; Float64; Float64] (fun number_of_links_i
      link_length_i link_stiffness_i link_energy_i end_to_end_length_i temperature_i => ccall
      lib.physics_single_chain_ufjc_morse_thermodynamics_isometric_asymptotic_legendre_relative_helmholtz_free_energy
      [UInt8; Float64; Float64; Float64; Float64; Float64] number_of_links_i link_length_i
      link_stiffness_i link_energy_i end_to_end_length_i temperature_i) number_of_links link_length
      link_stiffness link_energy end_to_end_length temperature.

(* /repo/src/physics/single_chain/ufjc/morse/thermodynamics/isometric/asymptotic/legendre/mod.jl:312-349 *)
Definition relative_helmholtz_free_energy_per_link (number_of_links : jarray Z) (link_length :
    jarray T) (link_stiffness : jarray T) (link_energy : jarray T) (end_to_end_length : jarray T)
    (temperature : jarray T) : result T :=
  broadcast [UInt8; Float64; Float64; Float64; Float64; Float64] (fun number_of_links_i
      link_length_i link_stiffness_i link_energy_i end_to_end_length_i temperature_i => ccall
      lib.physics_single_chain_ufjc_morse_thermodynamics_isometric_asymptotic_legendre_relative_helmholtz_free_energy_per_link
      [UInt8; Float64; Float64; Float64; Float64; Float64] number_of_links_i link_length_i
      link_stiffness_i link_energy_i end_to_end_length_i temperature_i) number_of_links link_length
      link_stiffness link_energy end_to_end_length temperature.

(* /repo/src/physics/single_chain/ufjc/morse/thermodynamics/isometric/asymptotic/legendre/mod.jl:357-398 *)
Definition nondimensional_helmholtz_free_energy (number_of_links : jarray Z) (link_length : jarray
    T) (hinge_mass : jarray T) (nondimensional_link_stiffness : jarray T)
    (nondimensional_link_energy : jarray T) (nondimensional_end_to_end_length_per_link : jarray T)
    (temperature : jarray T) : result T :=
  broadcast [UInt8; Float64; Float64; Float64; Float64; Float64; Float64] (fun number_of_links_i
      link_length_i hinge_mass_i nondimensional_link_stiffness_i nondimensional_link_energy_i
      nondimensional_end_to_end_length_per_link_i temperature_i => ccall
      lib.physics_single_chain_ufjc_morse_thermodynamics_isometric_asymptotic_legendre_nondimensional_helmholtz_free_energy
      [UInt8; Float64; Float64; Float64; Float64; Float64; Float64] number_of_links_i link_length_i
      hinge_mass_i nondimensional_link_stiffness_i nondimensional_link_energy_i
      nondimensional_end_to_end_length_per_link_i temperature_i) number_of_links link_length
      hinge_mass nondimensional_link_stiffness nondimensional_link_energy
      nondimensional_end_to_end_length_per_link temperature.

(* /repo/src/physics/single_chain/ufjc/morse/thermodynamics/isometric/asymptotic/legendre/mod.jl:406-447 *)
Definition nondimensional_helmholtz_free_energy_per_link (number_of_links : jarray Z) (link_length :
    jarray T) (hinge_mass : jarray T) (nondimensional_link_stiffness : jarray T)
    (nondimensional_link_energy : jarray T) (nondimensional_end_to_end_length_per_link : jarray T)
    (temperature : jarray T) : result T :=
  broadcast [UInt8; Float64; Float64; Float64; Float64; Float64; Float64] (fun number_of_links_i
      link_length_i hinge_mass_i nondimensional_link_stiffness_i nondimensional_link_energy_i
      nondimensional_end_to_end_length_per_link_i temperature_i => ccall
      lib.physics_single_chain_ufjc_morse_thermodynamics_isometric_asymptotic_legendre_nondimensional_helmholtz_free_energy_per_link
      [UInt8; Float64; Float64; Float64; Float64; Float64; Float64] number_of_links_i link_length_i
      hinge_mass_i nondimensional_link_stiffness_i nondimensional_link_energy_i
      nondimensional_end_to_end_length_per_link_i temperature_i) number_of_links link_length
      hinge_mass nondimensional_link_stiffness nondimensional_link_energy
      nondimensional_end_to_end_length_per_link temperature.

(* /repo/src/physics/single_chain/ufjc/morse/thermodynamics/isometric/asymptotic/legendre/mod.jl:455-484 *)
Definition nondimensional_relative_helmholtz_free_energy (number_of_links : jarray Z)
    (nondimensional_link_stiffness : jarray T) (nondimensional_link_energy : jarray T)
    (nondimensional_end_to_end_length_per_link : jarray T) : result T :=
  broadcast [UInt8; Float64; Float64; Float64] (fun number_of_links_i
      nondimensional_link_stiffness_i nondimensional_link_energy_i
      nondimensional_end_to_end_length_per_link_i => ccall
      lib.physics_single_chain_ufjc_morse_thermodynamics_isometric_asymptotic_legendre_nondimensional_relative_helmholtz_free_energy
      [UInt8; Float64; Float64; Float64] number_of_links_i nondimensional_link_stiffness_i
      nondimensional_link_energy_i nondimensional_end_to_end_length_per_link_i) number_of_links
      nondimensional_link_stiffness nondimensional_link_energy
      nondimensional_end_to_end_length_per_link.

(* /repo/src/physics/single_chain/ufjc/morse/thermodynamics/isometric/asymptotic/legendre/mod.jl:492-517 *)
Definition nondimensional_relative_helmholtz_free_energy_per_link (nondimensional_link_stiffness :
    jarray T) (nondimensional_link_energy : jarray T) (nondimensional_end_to_end_length_per_link :
    jarray T) : result T :=
  broadcast [Float64; Float64; Float64] (fun nondimensional_link_stiffness_i
      nondimensional_link_energy_i nondimensional_end_to_end_length_per_link_i => ccall
      lib.physics_single_chain_ufjc_morse_thermodynamics_isometric_asymptotic_legendre_nondimensional_relative_helmholtz_free_energy_per_link
      [Float64; Float64; Float64] nondimensional_link_stiffness_i nondimensional_link_energy_i
      nondimensional_end_to_end_length_per_link_i) nondimensional_link_stiffness
      nondimensional_link_energy nondimensional_end_to_end_length_per_link.

End Model.
End jl_morse_isometric_asymptotic_legendre.

(** /repo/src/physics/single_chain/ufjc/morse/thermodynamics/isometric/asymptotic/legendre/mod.jl: struct MORSEFJC *)
Module J_morse_isometric_asymptotic_legendre.
(* /repo/src/physics/single_chain/ufjc/morse/thermodynamics/isometric/asymptotic/legendre/mod.jl:16-77 *)
Record t {T : Type} := {
  number_of_links : Z;
  link_length : T;
  hinge_mass : T;
  link_stiffness : T;
  link_energy : T;
  force : jarray T -> jarray T -> result T;
  nondimensional_force : jarray T -> T -> result T;
  helmholtz_free_energy : jarray T -> jarray T -> result T;
  helmholtz_free_energy_per_link : jarray T -> jarray T -> result T;
  relative_helmholtz_free_energy : jarray T -> jarray T -> result T;
  relative_helmholtz_free_energy_per_link : jarray T -> jarray T -> result T;
  nondimensional_helmholtz_free_energy : jarray T -> T -> result T;
  nondimensional_helmholtz_free_energy_per_link : jarray T -> T -> result T;
  nondimensional_relative_helmholtz_free_energy : jarray T -> T -> result T;
  nondimensional_relative_helmholtz_free_energy_per_link : jarray T -> T -> result T }.
Arguments t : clear implicits.
Section Model.
Context {T : Type} {Sc : Scalar T}.

(* /repo/src/physics/single_chain/ufjc/morse/thermodynamics/isometric/asymptotic/legendre/mod.jl:524-619 *)
Definition init (number_of_links : Z) (link_length : T) (hinge_mass : T) (link_stiffness : T)
    (link_energy : T) : t T :=
  {| number_of_links := number_of_links;
     link_length := link_length;
     hinge_mass := hinge_mass;
     link_stiffness := link_stiffness;
     link_energy := link_energy;
     force := fun end_to_end_length temperature => jl_morse_isometric_asymptotic_legendre.force (num
       number_of_links) (num link_length) (num link_stiffness) (num link_energy) end_to_end_length
       temperature;
     nondimensional_force := fun nondimensional_end_to_end_length_per_link temperature =>
       jl_morse_isometric_asymptotic_legendre.nondimensional_force (num (link_stiffness * spowi
       link_length 2 / jl_BOLTZMANN_CONSTANT / temperature)) (num (link_energy /
       jl_BOLTZMANN_CONSTANT / temperature)) nondimensional_end_to_end_length_per_link;
     helmholtz_free_energy := fun end_to_end_length temperature =>
       jl_morse_isometric_asymptotic_legendre.helmholtz_free_energy (num number_of_links) (num
       link_length) (num hinge_mass) (num link_stiffness) (num link_energy) end_to_end_length
       temperature;
     helmholtz_free_energy_per_link := fun end_to_end_length temperature =>
       jl_morse_isometric_asymptotic_legendre.helmholtz_free_energy_per_link (num number_of_links)
       (num link_length) (num hinge_mass) (num link_stiffness) (num link_energy) end_to_end_length
       temperature;
     relative_helmholtz_free_energy := fun end_to_end_length temperature =>
       jl_morse_isometric_asymptotic_legendre.relative_helmholtz_free_energy (num number_of_links)
       (num link_length) (num link_stiffness) (num link_energy) end_to_end_length temperature;
     relative_helmholtz_free_energy_per_link := fun end_to_end_length temperature =>
       jl_morse_isometric_asymptotic_legendre.relative_helmholtz_free_energy_per_link (num
       number_of_links) (num link_length) (num link_stiffness) (num link_energy) end_to_end_length
       temperature;
     nondimensional_helmholtz_free_energy := fun nondimensional_end_to_end_length_per_link temperature =>
       jl_morse_isometric_asymptotic_legendre.nondimensional_helmholtz_free_energy (num
       number_of_links) (num link_length) (num hinge_mass) (num (link_stiffness * spowi link_length
       2 / jl_BOLTZMANN_CONSTANT / temperature)) (num (link_energy / jl_BOLTZMANN_CONSTANT /
       temperature)) nondimensional_end_to_end_length_per_link (num temperature);
     nondimensional_helmholtz_free_energy_per_link := fun nondimensional_end_to_end_length_per_link
       temperature =>
       jl_morse_isometric_asymptotic_legendre.nondimensional_helmholtz_free_energy_per_link (num
       number_of_links) (num link_length) (num hinge_mass) (num (link_stiffness * spowi link_length
       2 / jl_BOLTZMANN_CONSTANT / temperature)) (num (link_energy / jl_BOLTZMANN_CONSTANT /
       temperature)) nondimensional_end_to_end_length_per_link (num temperature);
     nondimensional_relative_helmholtz_free_energy := fun nondimensional_end_to_end_length_per_link
       temperature =>
       jl_morse_isometric_asymptotic_legendre.nondimensional_relative_helmholtz_free_energy (num
       number_of_links) (num (link_stiffness * spowi link_length 2 / jl_BOLTZMANN_CONSTANT /
       temperature)) (num (link_energy / jl_BOLTZMANN_CONSTANT / temperature))
       nondimensional_end_to_end_length_per_link;
     nondimensional_relative_helmholtz_free_energy_per_link := fun
       nondimensional_end_to_end_length_per_link temperature =>
       jl_morse_isometric_asymptotic_legendre.nondimensional_relative_helmholtz_free_energy_per_link
       (num (link_stiffness * spowi link_length 2 / jl_BOLTZMANN_CONSTANT / temperature)) (num
       (link_energy / jl_BOLTZMANN_CONSTANT / temperature))
       nondimensional_end_to_end_length_per_link |}.

End Model.
End J_morse_isometric_asymptotic_legendre.

(** /repo/src/physics/single_chain/ufjc/morse/thermodynamics/isometric/asymptotic/reduced/mod.jl: struct MORSEFJC *)
Module J_morse_isometric_asymptotic_reduced.
(* /repo/src/physics/single_chain/ufjc/morse/thermodynamics/isometric/asymptotic/reduced/mod.jl:16-41 *)
Record t {T : Type} := {
  number_of_links : Z;
  link_length : T;
  hinge_mass : T;
  link_stiffness : T;
  link_energy : T;
  legendre : J_morse_isometric_asymptotic_reduced_legendre.t T }.
Arguments t : clear implicits.
Section Model.
Context {T : Type} {Sc : Scalar T}.

(* /repo/src/physics/single_chain/ufjc/morse/thermodynamics/isometric/asymptotic/reduced/mod.jl:48-69 *)
Definition init (number_of_links : Z) (link_length : T) (hinge_mass : T) (link_stiffness : T)
    (link_energy : T) : t T :=
  {| number_of_links := number_of_links;
     link_length := link_length;
     hinge_mass := hinge_mass;
     link_stiffness := link_stiffness;
     link_energy := link_energy;
     legendre := J_morse_isometric_asymptotic_reduced_legendre.init number_of_links link_length
       hinge_mass link_stiffness link_energy |}.

End Model.
End J_morse_isometric_asymptotic_reduced.

(** /repo/src/physics/single_chain/ufjc/morse/thermodynamics/isotensional/asymptotic/legendre/mod.jl *)
Module jl_morse_isotensional_asymptotic_legendre.
Section Model.
Context {T : Type} {Sc : Scalar T}.

(* /repo/src/physics/single_chain/ufjc/morse/thermodynamics/isotensional/asymptotic/legendre/mod.jl:81-122 *)
Definition helmholtz_free_energy (number_of_links : jarray Z) (link_length : jarray T) (hinge_mass :
    jarray T) (link_stiffness : jarray T) (link_energy : jarray T) (force : jarray T) (temperature :
    jarray T) : result T :=
  broadcast [UInt8; Float64; Float64; Float64; Float64; Float64; Float64] (fun number_of_links_i
      link_length_i hinge_mass_i link_stiffness_i link_energy_i force_i temperature_i => ccall
      lib.physics_single_chain_ufjc_morse_thermodynamics_isotensional_asymptotic_legendre_helmholtz_free_energy
      [UInt8; Float64; Float64; Float64; Float64; Float64; Float64] number_of_links_i link_length_i
      hinge_mass_i link_stiffness_i link_energy_i force_i temperature_i) number_of_links link_length
      hinge_mass link_stiffness link_energy force temperature.

(* /repo/src/physics/single_chain/ufjc/morse/thermodynamics/isotensional/asymptotic/legendre/mod.jl:130-167 *)
Definition helmholtz_free_energy_per_link (link_length : jarray T) (hinge_mass : jarray T)
    (link_stiffness : jarray T) (link_energy : jarray T) (force : jarray T) (temperature : jarray T)
    : result T :=
  broadcast [Float64; Float64; Float64; Float64; Float64; Float64] (fun link_length_i hinge_mass_i
      link_stiffness_i link_energy_i force_i temperature_i => ccall
      lib.physics_single_chain_ufjc_morse_thermodynamics_isotensional_asymptotic_legendre_helmholtz_free_energy_per_link
      [Float64; Float64; Float64; Float64; Float64; Float64] link_length_i hinge_mass_i
      link_stiffness_i link_energy_i force_i temperature_i) link_length hinge_mass link_stiffness
      link_energy force temperature.

(* /repo/src/physics/single_chain/ufjc/morse/thermodynamics/isotensional/asymptotic/legendre/mod.jl:175-212 *)
Definition relative_helmholtz_free_energy (number_of_links : jarray Z) (link_length : jarray T)
    (link_stiffness : jarray T) (link_energy : jarray T) (force : jarray T) (temperature : jarray T)
    : result T :=
  broadcast [UInt8; Float64; Float64; Float64; Float64; Float64] (fun number_of_links_i
      link_length_i link_stiffness_i link_energy_i force_i temperature_i => ccall
      lib.physics_single_chain_ufjc_morse_thermodynamics_isotensional_asymptotic_legendre_relative_helmholtz_free_energy
      [UInt8; Float64; Float64; Float64; Float64; Float64] number_of_links_i link_length_i
      link_stiffness_i link_energy_i force_i temperature_i) number_of_links link_length
      link_stiffness link_energy force temperature.

(* /repo/src/physics/single_chain/ufjc/morse/thermodynamics/isotensional/asymptotic/legendre/mod.jl:220-247 *)
Definition relative_helmholtz_free_energy_per_link (link_length : jarray T) (link_stiffness : jarray
    T) (link_energy : jarray T) (force : jarray T) (temperature : jarray T) : result T :=
  broadcast [Float64; Float64; Float64; Float64; Float64] (fun link_length_i link_stiffness_i
      link_energy_i force_i temperature_i => ccall
      lib.physics_single_chain_ufjc_morse_thermodynamics_isotensional_asymptotic_legendre_relative_helmholtz_free_energy_per_link
      [Float64; Float64; Float64; Float64; Float64] link_length_i link_stiffness_i link_energy_i
      force_i temperature_i) link_length link_stiffness link_energy force temperature.

(* /repo/src/physics/single_chain/ufjc/morse/thermodynamics/isotensional/asymptotic/legendre/mod.jl:255-296 *)
Definition nondimensional_helmholtz_free_energy (number_of_links : jarray Z) (link_length : jarray
    T) (hinge_mass : jarray T) (nondimensional_link_stiffness : jarray T)
    (nondimensional_link_energy : jarray T) (nondimensional_force : jarray T) (temperature : jarray
    T) : result T :=
  broadcast [UInt8; Float64; Float64; Float64; Float64; Float64; Float64] (fun number_of_links_i
      link_length_i hinge_mass_i nondimensional_link_stiffness_i nondimensional_link_energy_i
      nondimensional_force_i temperature_i => ccall
      lib.physics_single_chain_ufjc_morse_thermodynamics_isotensional_asymptotic_legendre_nondimensional_helmholtz_free_energy
      [UInt8; Float64; Float64; Float64; Float64; Float64; Float64] number_of_links_i link_length_i
      hinge_mass_i nondimensional_link_stiffness_i nondimensional_link_energy_i
      nondimensional_force_i temperature_i) number_of_links link_length hinge_mass
      nondimensional_link_stiffness nondimensional_link_energy nondimensional_force temperature.

(* /repo/src/physics/single_chain/ufjc/morse/thermodynamics/isotensional/asymptotic/legendre/mod.jl:304-341 *)
Definition nondimensional_helmholtz_free_energy_per_link (link_length : jarray T) (hinge_mass :
    jarray T) (nondimensional_link_stiffness : jarray T) (nondimensional_link_energy : jarray T)
    (nondimensional_force : jarray T) (temperature : jarray T) : result T :=
  broadcast [Float64; Float64; Float64; Float64; Float64; Float64] (fun link_length_i hinge_mass_i
      nondimensional_link_stiffness_i nondimensional_link_energy_i nondimensional_force_i
      temperature_i => ccall
      lib.physics_single_chain_ufjc_morse_thermodynamics_isotensional_asymptotic_legendre_nondimensional_helmholtz_free_energy_per_link
      [Float64; Float64; Float64; Float64; Float64; Float64] link_length_i hinge_mass_i
      nondimensional_link_stiffness_i nondimensional_link_energy_i nondimensional_force_i
      temperature_i) link_length hinge_mass nondimensional_link_stiffness nondimensional_link_energy
      nondimensional_force temperature.

(* /repo/src/physics/single_chain/ufjc/morse/thermodynamics/isotensional/asymptotic/legendre/mod.jl:349-378 *)
Definition nondimensional_relative_helmholtz_free_energy (number_of_links : jarray Z)
    (nondimensional_link_stiffness : jarray T) (nondimensional_link_energy : jarray T)
    (nondimensional_force : jarray T) : result T :=
  broadcast [UInt8; Float64; Float64; Float64] (fun number_of_links_i
      nondimensional_link_stiffness_i nondimensional_link_energy_i nondimensional_force_i => ccall
      lib.physics_single_chain_ufjc_morse_thermodynamics_isotensional_asymptotic_legendre_nondimensional_relative_helmholtz_free_energy
      [UInt8; Float64; Float64; Float64] number_of_links_i nondimensional_link_stiffness_i
      nondimensional_link_energy_i nondimensional_force_i) number_of_links
      nondimensional_link_stiffness nondimensional_link_energy nondimensional_force.

(* /repo/src/physics/single_chain/ufjc/morse/thermodynamics/isotensional/asymptotic/legendre/mod.jl:386-411 *)
Definition nondimensional_relative_helmholtz_free_energy_per_link (nondimensional_link_stiffness :
    jarray T) (nondimensional_link_energy : jarray T) (nondimensional_force : jarray T) : result T
    :=
  broadcast [Float64; Float64; Float64] (fun nondimensional_link_stiffness_i
      nondimensional_link_energy_i nondimensional_force_i => ccall
      lib.physics_single_chain_ufjc_morse_thermodynamics_isotensional_asymptotic_legendre_nondimensional_relative_helmholtz_free_energy_per_link
      [Float64; Float64; Float64] nondimensional_link_stiffness_i nondimensional_link_energy_i
      nondimensional_force_i) nondimensional_link_stiffness nondimensional_link_energy
      nondimensional_force.

End Model.
End jl_morse_isotensional_asymptotic_legendre.

(** /repo/src/physics/single_chain/ufjc/morse/thermodynamics/isotensional/asymptotic/legendre/mod.jl: struct MORSEFJC *)
Module J_morse_isotensional_asymptotic_legendre.
(* /repo/src/physics/single_chain/ufjc/morse/thermodynamics/isotensional/asymptotic/legendre/mod.jl:16-69 *)
Record t {T : Type} := {
  number_of_links : Z;
  link_length : T;
  hinge_mass : T;
  link_stiffness : T;
  link_energy : T;
  helmholtz_free_energy : jarray T -> jarray T -> result T;
  helmholtz_free_energy_per_link : jarray T -> jarray T -> result T;
  relative_helmholtz_free_energy : jarray T -> jarray T -> result T;
  relative_helmholtz_free_energy_per_link : jarray T -> jarray T -> result T;
  nondimensional_helmholtz_free_energy : jarray T -> T -> result T;
  nondimensional_helmholtz_free_energy_per_link : jarray T -> T -> result T;
  nondimensional_relative_helmholtz_free_energy : jarray T -> T -> result T;
  nondimensional_relative_helmholtz_free_energy_per_link : jarray T -> T -> result T }.
Arguments t : clear implicits.
Section Model.
Context {T : Type} {Sc : Scalar T}.

(* /repo/src/physics/single_chain/ufjc/morse/thermodynamics/isotensional/asymptotic/legendre/mod.jl:418-496 *)
Definition init (number_of_links : Z) (link_length : T) (hinge_mass : T) (link_stiffness : T)
    (link_energy : T) : t T :=
  {| number_of_links := number_of_links;
     link_length := link_length;
     hinge_mass := hinge_mass;
     link_stiffness := link_stiffness;
     link_energy := link_energy;
     helmholtz_free_energy := fun force temperature =>
       jl_morse_isotensional_asymptotic_legendre.helmholtz_free_energy (num number_of_links) (num
       link_length) (num hinge_mass) (num link_stiffness) (num link_energy) force temperature;
     helmholtz_free_energy_per_link := fun force temperature =>
       jl_morse_isotensional_asymptotic_legendre.helmholtz_free_energy_per_link (num link_length)
       (num hinge_mass) (num link_stiffness) (num link_energy) force temperature;
     relative_helmholtz_free_energy := fun force temperature =>
       jl_morse_isotensional_asymptotic_legendre.relative_helmholtz_free_energy (num
       number_of_links) (num link_length) (num link_stiffness) (num link_energy) force temperature;
     relative_helmholtz_free_energy_per_link := fun force temperature =>
       jl_morse_isotensional_asymptotic_legendre.relative_helmholtz_free_energy_per_link (num
       link_length) (num link_stiffness) (num link_energy) force temperature;
     nondimensional_helmholtz_free_energy := fun nondimensional_force temperature =>
       jl_morse_isotensional_asymptotic_legendre.nondimensional_helmholtz_free_energy (num
       number_of_links) (num link_length) (num hinge_mass) (num (link_stiffness * spowi link_length
       2 / jl_BOLTZMANN_CONSTANT / temperature)) (num (link_energy / jl_BOLTZMANN_CONSTANT /
       temperature)) nondimensional_force (num temperature);
     nondimensional_helmholtz_free_energy_per_link := fun nondimensional_force temperature =>
       jl_morse_isotensional_asymptotic_legendre.nondimensional_helmholtz_free_energy_per_link (num
       link_length) (num hinge_mass) (num (link_stiffness * spowi link_length 2 /
       jl_BOLTZMANN_CONSTANT / temperature)) (num (link_energy / jl_BOLTZMANN_CONSTANT /
       temperature)) nondimensional_force (num temperature);
     nondimensional_relative_helmholtz_free_energy := fun nondimensional_force temperature =>
       jl_morse_isotensional_asymptotic_legendre.nondimensional_relative_helmholtz_free_energy (num
       number_of_links) (num (link_stiffness * spowi link_length 2 / jl_BOLTZMANN_CONSTANT /
       temperature)) (num (link_energy / jl_BOLTZMANN_CONSTANT / temperature)) nondimensional_force;
     nondimensional_relative_helmholtz_free_energy_per_link := fun nondimensional_force temperature =>
       jl_morse_isotensional_asymptotic_legendre.nondimensional_relative_helmholtz_free_energy_per_link
       (num (link_stiffness * spowi link_length 2 / jl_BOLTZMANN_CONSTANT / temperature)) (num
       (link_energy / jl_BOLTZMANN_CONSTANT / temperature)) nondimensional_force |}.

End Model.
End J_morse_isotensional_asymptotic_legendre.

(** /repo/src/physics/single_chain/ufjc/morse/thermodynamics/isotensional/asymptotic/reduced/mod.jl *)
Module jl_morse_isotensional_asymptotic_reduced.
Section Model.
Context {T : Type} {Sc : Scalar T}.

(* /repo/src/physics/single_chain/ufjc/morse/thermodynamics/isotensional/asymptotic/reduced/mod.jl:104-141 *)
Definition end_to_end_length (number_of_links : jarray Z) (link_length : jarray T) (link_stiffness :
    jarray T) (link_energy : jarray T) (force : jarray T) (temperature : jarray T) : result T :=
  broadcast [UInt8; Float64; Float64; Float64; Float64; Float64] (fun number_of_links_i
      link_length_i link_stiffness_i link_energy_i force_i temperature_i => ccall
      lib.physics_single_chain_ufjc_morse_thermodynamics_isotensional_asymptotic_reduced_end_to_end_length
      [UInt8; Float64; Float64; Float64; Float64; Float64] number_of_links_i link_length_i
      link_stiffness_i link_energy_i force_i temperature_i) number_of_links link_length
      link_stiffness link_energy force temperature.

(* /repo/src/physics/single_chain/ufjc/morse/thermodynamics/isotensional/asymptotic/reduced/mod.jl:149-176 *)
Definition end_to_end_length_per_link (link_length : jarray T) (link_stiffness : jarray T)
    (link_energy : jarray T) (force : jarray T) (temperature : jarray T) : result T :=
  broadcast [Float64; Float64; Float64; Float64; Float64] (fun link_length_i link_stiffness_i
      link_energy_i force_i temperature_i => ccall
      lib.physics_single_chain_ufjc_morse_thermodynamics_isotensional_asymptotic_reduced_end_to_end_length_per_link
      [Float64; Float64; Float64; Float64; Float64] link_length_i link_stiffness_i link_energy_i
      force_i temperature_i) link_length link_stiffness link_energy force temperature.

(* /repo/src/physics/single_chain/ufjc/morse/thermodynamics/isotensional/asymptotic/reduced/mod.jl:184-213 *)
Definition nondimensional_end_to_end_length (number_of_links : jarray Z)
    (nondimensional_link_stiffness : jarray T) (nondimensional_link_energy : jarray T)
    (nondimensional_force : jarray T) : result T :=
  broadcast [UInt8; Float64; Float64; Float64] (fun number_of_links_i
      nondimensional_link_stiffness_i nondimensional_link_energy_i nondimensional_force_i => ccall
      lib.physics_single_chain_ufjc_morse_thermodynamics_isotensional_asymptotic_reduced_nondimensional_end_to_end_length
      [UInt8; Float64; Float64; Float64] number_of_links_i nondimensional_link_stiffness_i
      nondimensional_link_energy_i nondimensional_force_i) number_of_links
      nondimensional_link_stiffness nondimensional_link_energy nondimensional_force.

(* /repo/src/physics/single_chain/ufjc/morse/thermodynamics/isotensional/asymptotic/reduced/mod.jl:234-259 *)
Definition nondimensional_end_to_end_length_per_link (nondimensional_link_stiffness : jarray T)
    (nondimensional_link_energy : jarray T) (nondimensional_force : jarray T) : result T :=
  broadcast [Float64; Float64; Float64] (fun nondimensional_link_stiffness_i
      nondimensional_link_energy_i nondimensional_force_i => ccall
      lib.physics_single_chain_ufjc_morse_thermodynamics_isotensional_asymptotic_reduced_nondimensional_end_to_end_length_per_link
      [Float64; Float64; Float64] nondimensional_link_stiffness_i nondimensional_link_energy_i
      nondimensional_force_i) nondimensional_link_stiffness nondimensional_link_energy
      nondimensional_force.

(* /repo/src/physics/single_chain/ufjc/morse/thermodynamics/isotensional/asymptotic/reduced/mod.jl:271-312 *)
Definition gibbs_free_energy (number_of_links : jarray Z) (link_length : jarray T) (hinge_mass :
    jarray T) (link_stiffness : jarray T) (link_energy : jarray T) (force : jarray T) (temperature :
    jarray T) : result T :=
  broadcast [UInt8; Float64; Float64; Float64; Float64; Float64; Float64] (fun number_of_links_i
      link_length_i hinge_mass_i link_stiffness_i link_energy_i force_i temperature_i => ccall
      lib.physics_single_chain_ufjc_morse_thermodynamics_isotensional_asymptotic_reduced_gibbs_free_energy
      [UInt8; Float64; Float64; Float64; Float64; Float64; Float64] number_of_links_i link_length_i
      hinge_mass_i link_stiffness_i link_energy_i force_i temperature_i) number_of_links link_length
      hinge_mass link_stiffness link_energy force temperature.

(* /repo/src/physics/single_chain/ufjc/morse/thermodynamics/isotensional/asymptotic/reduced/mod.jl:320-357 *)
Definition gibbs_free_energy_per_link (link_length : jarray T) (hinge_mass : jarray T)
    (link_stiffness : jarray T) (link_energy : jarray T) (force : jarray T) (temperature : jarray T)
    : result T :=
  broadcast [Float64; Float64; Float64; Float64; Float64; Float64] (fun link_length_i hinge_mass_i
      link_stiffness_i link_energy_i force_i temperature_i => ccall
      lib.physics_single_chain_ufjc_morse_thermodynamics_isotensional_asymptotic_reduced_gibbs_free_energy_per_link
      [Float64; Float64; Float64; Float64; Float64; Float64] link_length_i hinge_mass_i
      link_stiffness_i link_energy_i force_i temperature_i) link_length hinge_mass link_stiffness
      link_energy force temperature.

(* /repo/src/physics/single_chain/ufjc/morse/thermodynamics/isotensional/asymptotic/reduced/mod.jl:365-402 *)
Definition relative_gibbs_free_energy (number_of_links : jarray Z) (link_length : jarray T)
    (link_stiffness : jarray T) (link_energy : jarray T) (force : jarray T) (temperature : jarray T)
    : result T :=
  broadcast [UInt8; Float64; Float64; Float64; Float64; Float64] (fun number_of_links_i
      link_length_i link_stiffness_i link_energy_i force_i temperature_i => ccall
      lib.physics_single_chain_ufjc_morse_thermodynamics_isotensional_asymptotic_reduced_relative_gibbs_free_energy
      [UInt8; Float64; Float64; Float64; Float64; Float64] number_of_links_i link_length_i
      link_stiffness_i link_energy_i force_i temperature_i) number_of_links link_length
      link_stiffness link_energy force temperature.

(* /repo/src/physics/single_chain/ufjc/morse/thermodynamics/isotensional/asymptotic/reduced/mod.jl:410-437 *)
Definition relative_gibbs_free_energy_per_link (link_length : jarray T) (link_stiffness : jarray T)
    (link_energy : jarray T) (force : jarray T) (temperature : jarray T) : result T :=
  broadcast [Float64; Float64; Float64; Float64; Float64] (fun link_length_i link_stiffness_i
      link_energy_i force_i temperature_i => ccall
      lib.physics_single_chain_ufjc_morse_thermodynamics_isotensional_asymptotic_reduced_relative_gibbs_free_energy_per_link
      [Float64; Float64; Float64; Float64; Float64] link_length_i link_stiffness_i link_energy_i
      force_i temperature_i) link_length link_stiffness link_energy force temperature.

(* /repo/src/physics/single_chain/ufjc/morse/thermodynamics/isotensional/asymptotic/reduced/mod.jl:445-486 *)
Definition nondimensional_gibbs_free_energy (number_of_links : jarray Z) (link_length : jarray T)
    (hinge_mass : jarray T) (nondimensional_link_stiffness : jarray T) (nondimensional_link_energy :
    jarray T) (nondimensional_force : jarray T) (temperature : jarray T) : result T :=
  broadcast [UInt8; Float64; Float64; Float64; Float64; Float64; Float64] (fun number_of_links_i
      link_length_i hinge_mass_i nondimensional_link_stiffness_i nondimensional_link_energy_i
      nondimensional_force_i temperature_i => ccall
      lib.physics_single_chain_ufjc_morse_thermodynamics_isotensional_asymptotic_reduced_nondimensional_gibbs_free_energy
      [UInt8; Float64; Float64; Float64; Float64; Float64; Float64] number_of_links_i link_length_i
      hinge_mass_i nondimensional_link_stiffness_i nondimensional_link_energy_i
      nondimensional_force_i temperature_i) number_of_links link_length hinge_mass
      nondimensional_link_stiffness nondimensional_link_energy nondimensional_force temperature.

(* /repo/src/physics/single_chain/ufjc/morse/thermodynamics/isotensional/asymptotic/reduced/mod.jl:494-531 *)
Definition nondimensional_gibbs_free_energy_per_link (link_length : jarray T) (hinge_mass : jarray
    T) (nondimensional_link_stiffness : jarray T) (nondimensional_link_energy : jarray T)
    (nondimensional_force : jarray T) (temperature : jarray T) : result T :=
  broadcast [Float64; Float64; Float64; Float64; Float64; Float64] (fun link_length_i hinge_mass_i
      nondimensional_link_stiffness_i nondimensional_link_energy_i nondimensional_force_i
      temperature_i => ccall
      lib.physics_single_chain_ufjc_morse_thermodynamics_isotensional_asymptotic_reduced_nondimensional_gibbs_free_energy_per_link
      [Float64; Float64; Float64; Float64; Float64; Float64] link_length_i hinge_mass_i
      nondimensional_link_stiffness_i nondimensional_link_energy_i nondimensional_force_i
      temperature_i) link_length hinge_mass nondimensional_link_stiffness nondimensional_link_energy
      nondimensional_force temperature.

(* /repo/src/physics/single_chain/ufjc/morse/thermodynamics/isotensional/asymptotic/reduced/mod.jl:539-568 *)
Definition nondimensional_relative_gibbs_free_energy (number_of_links : jarray Z)
    (nondimensional_link_stiffness : jarray T) (nondimensional_link_energy : jarray T)
    (nondimensional_force : jarray T) : result T :=
  broadcast [UInt8; Float64; Float64; Float64] (fun number_of_links_i
      nondimensional_link_stiffness_i nondimensional_link_energy_i nondimensional_force_i => ccall
      lib.physics_single_chain_ufjc_morse_thermodynamics_isotensional_asymptotic_reduced_nondimensional_relative_gibbs_free_energy
      [UInt8; Float64; Float64; Float64] number_of_links_i nondimensional_link_stiffness_i
      nondimensional_link_energy_i nondimensional_force_i) number_of_links
      nondimensional_link_stiffness nondimensional_link_energy nondimensional_force.

(* /repo/src/physics/single_chain/ufjc/morse/thermodynamics/isotensional/asymptotic/reduced/mod.jl:589-614 *)
Definition nondimensional_relative_gibbs_free_energy_per_link (nondimensional_link_stiffness :
    jarray T) (nondimensional_link_energy : jarray T) (nondimensional_force : jarray T) : result T
    :=
  broadcast [Float64; Float64; Float64] (fun nondimensional_link_stiffness_i
      nondimensional_link_energy_i nondimensional_force_i => ccall
      lib.physics_single_chain_ufjc_morse_thermodynamics_isotensional_asymptotic_reduced_nondimensional_relative_gibbs_free_energy_per_link
      [Float64; Float64; Float64] nondimensional_link_stiffness_i nondimensional_link_energy_i
      nondimensional_force_i) nondimensional_link_stiffness nondimensional_link_energy
      nondimensional_force.

End Model.
End jl_morse_isotensional_asymptotic_reduced.

(** /repo/src/physics/single_chain/ufjc/morse/thermodynamics/isotensional/asymptotic/reduced/mod.jl: struct MORSEFJC *)
Module J_morse_isotensional_asymptotic_reduced.
(* /repo/src/physics/single_chain/ufjc/morse/thermodynamics/isotensional/asymptotic/reduced/mod.jl:19-92 *)
Record t {T : Type} := {
  number_of_links : Z;
  link_length : T;
  hinge_mass : T;
  link_stiffness : T;
  link_energy : T;
  legendre : J_morse_isotensional_asymptotic_reduced_legendre.t T;
  end_to_end_length : jarray T -> jarray T -> result T;
  end_to_end_length_per_link : jarray T -> jarray T -> result T;
  nondimensional_end_to_end_length : jarray T -> T -> result T;
  nondimensional_end_to_end_length_per_link : jarray T -> T -> result T;
  gibbs_free_energy : jarray T -> jarray T -> result T;
  gibbs_free_energy_per_link : jarray T -> jarray T -> result T;
  relative_gibbs_free_energy : jarray T -> jarray T -> result T;
  relative_gibbs_free_energy_per_link : jarray T -> jarray T -> result T;
  nondimensional_gibbs_free_energy : jarray T -> T -> result T;
  nondimensional_gibbs_free_energy_per_link : jarray T -> T -> result T;
  nondimensional_relative_gibbs_free_energy : jarray T -> T -> result T;
  nondimensional_relative_gibbs_free_energy_per_link : jarray T -> T -> result T }.
Arguments t : clear implicits.
Section Model.
Context {T : Type} {Sc : Scalar T}.

(* /repo/src/physics/single_chain/ufjc/morse/thermodynamics/isotensional/asymptotic/reduced/mod.jl:621-730 *)
Definition init (number_of_links : Z) (link_length : T) (hinge_mass : T) (link_stiffness : T)
    (link_energy : T) : t T :=
  {| number_of_links := number_of_links;
     link_length := link_length;
     hinge_mass := hinge_mass;
     link_stiffness := link_stiffness;
     link_energy := link_energy;
     legendre := J_morse_isotensional_asymptotic_reduced_legendre.init number_of_links link_length
       hinge_mass link_stiffness link_energy;
     end_to_end_length := fun force temperature =>
       jl_morse_isotensional_asymptotic_reduced.end_to_end_length (num number_of_links) (num
       link_length) (num link_stiffness) (num link_energy) force temperature;
     end_to_end_length_per_link := fun force temperature =>
       jl_morse_isotensional_asymptotic_reduced.end_to_end_length_per_link (num link_length) (num
       link_stiffness) (num link_energy) force temperature;
     nondimensional_end_to_end_length := fun nondimensional_force temperature =>
       jl_morse_isotensional_asymptotic_reduced.nondimensional_end_to_end_length (num
       number_of_links) (num (link_stiffness * spowi link_length 2 / jl_BOLTZMANN_CONSTANT /
       temperature)) (num (link_energy / jl_BOLTZMANN_CONSTANT / temperature)) nondimensional_force;
     nondimensional_end_to_end_length_per_link := fun nondimensional_force temperature =>
       jl_morse_isotensional_asymptotic_reduced.nondimensional_end_to_end_length_per_link (num
       (link_stiffness * spowi link_length 2 / jl_BOLTZMANN_CONSTANT / temperature)) (num
       (link_energy / jl_BOLTZMANN_CONSTANT / temperature)) nondimensional_force;
     gibbs_free_energy := fun force temperature =>
       jl_morse_isotensional_asymptotic_reduced.gibbs_free_energy (num number_of_links) (num
       link_length) (num hinge_mass) (num link_stiffness) (num link_energy) force temperature;
     gibbs_free_energy_per_link := fun force temperature =>
       jl_morse_isotensional_asymptotic_reduced.gibbs_free_energy_per_link (num link_length) (num
       hinge_mass) (num link_stiffness) (num link_energy) force temperature;
     relative_gibbs_free_energy := fun force temperature =>
       jl_morse_isotensional_asymptotic_reduced.relative_gibbs_free_energy (num number_of_links)
       (num link_length) (num link_stiffness) (num link_energy) force temperature;
     relative_gibbs_free_energy_per_link := fun force temperature =>
       jl_morse_isotensional_asymptotic_reduced.relative_gibbs_free_energy_per_link (num
       link_length) (num link_stiffness) (num link_energy) force temperature;
     nondimensional_gibbs_free_energy := fun nondimensional_force temperature =>
       jl_morse_isotensional_asymptotic_reduced.nondimensional_gibbs_free_energy (num
       number_of_links) (num link_length) (num hinge_mass) (num (link_stiffness * spowi link_length
       2 / jl_BOLTZMANN_CONSTANT / temperature)) (num (link_energy / jl_BOLTZMANN_CONSTANT /
       temperature)) nondimensional_force (num temperature);
     nondimensional_gibbs_free_energy_per_link := fun nondimensional_force temperature =>
       jl_morse_isotensional_asymptotic_reduced.nondimensional_gibbs_free_energy_per_link (num
       link_length) (num hinge_mass) (num (link_stiffness * spowi link_length 2 /
       jl_BOLTZMANN_CONSTANT / temperature)) (num (link_energy / jl_BOLTZMANN_CONSTANT /
       temperature)) nondimensional_force (num temperature);
     nondimensional_relative_gibbs_free_energy := fun nondimensional_force temperature =>
       jl_morse_isotensional_asymptotic_reduced.nondimensional_relative_gibbs_free_energy (num
       number_of_links) (num (link_stiffness * spowi link_length 2 / jl_BOLTZMANN_CONSTANT /
       temperature)) (num (link_energy / jl_BOLTZMANN_CONSTANT / temperature)) nondimensional_force;
     nondimensional_relative_gibbs_free_energy_per_link := fun nondimensional_force temperature =>
       jl_morse_isotensional_asymptotic_reduced.nondimensional_relative_gibbs_free_energy_per_link
       (num (link_stiffness * spowi link_length 2 / jl_BOLTZMANN_CONSTANT / temperature)) (num
       (link_energy / jl_BOLTZMANN_CONSTANT / temperature)) nondimensional_force |}.

End Model.
End J_morse_isotensional_asymptotic_reduced.

(** /repo/src/physics/single_chain/efjc/thermodynamics/isometric/asymptotic/alternative/mod.jl: struct EFJC *)
Module J_efjc_isometric_asymptotic_alternative.
(* /repo/src/physics/single_chain/efjc/thermodynamics/isometric/asymptotic/alternative/mod.jl:16-37 *)
Record t {T : Type} := {
  number_of_links : Z;
  link_length : T;
  hinge_mass : T;
  link_stiffness : T;
  legendre : J_efjc_isometric_asymptotic_alternative_legendre.t T }.
Arguments t : clear implicits.
Section Model.
Context {T : Type} {Sc : Scalar T}.

(* /repo/src/physics/single_chain/efjc/thermodynamics/isometric/asymptotic/alternative/mod.jl:44-57 *)
Definition init (number_of_links : Z) (link_length : T) (hinge_mass : T) (link_stiffness : T) : t T
    :=
  {| number_of_links := number_of_links;
     link_length := link_length;
     hinge_mass := hinge_mass;
     link_stiffness := link_stiffness;
     legendre := J_efjc_isometric_asymptotic_alternative_legendre.init number_of_links link_length
       hinge_mass link_stiffness |}.

End Model.
End J_efjc_isometric_asymptotic_alternative.

(** /repo/src/physics/single_chain/efjc/thermodynamics/isometric/asymptotic/legendre/mod.jl *)
Module jl_efjc_isometric_asymptotic_legendre.
Section Model.
Context {T : Type} {Sc : Scalar T}.

(* /repo/src/physics/single_chain/efjc/thermodynamics/isometric/asymptotic/legendre/mod.jl:81-114 *)
Definition force (number_of_links : jarray Z) (link_length : jarray T) (link_stiffness : jarray T)
    (end_to_end_length : jarray T) (temperature : jarray T) : result T :=
  broadcast [UInt8; Float64; Float64; Float64; Float64] (fun number_of_links_i link_length_i
      link_stiffness_i end_to_end_length_i temperature_i => ccall
      lib.physics_single_chain_efjc_thermodynamics_isometric_asymptotic_legendre_force [UInt8;
      Float64; Float64; Float64; Float64] number_of_links_i link_length_i link_stiffness_i
      end_to_end_length_i temperature_i) number_of_links link_length link_stiffness
      end_to_end_length temperature.

(* /repo/src/physics/single_chain/efjc/thermodynamics/isometric/asymptotic/legendre/mod.jl:122-141 *)
Definition nondimensional_force (nondimensional_link_stiffness : jarray T)
    (nondimensional_end_to_end_length_per_link : jarray T) : result T :=
  broadcast [Float64; Float64] (fun nondimensional_link_stiffness_i
      nondimensional_end_to_end_length_per_link_i => ccall
      lib.physics_single_chain_efjc_thermodynamics_isometric_asymptotic_legendre_nondimensional_force
      [Float64; Float64] nondimensional_link_stiffness_i
      nondimensional_end_to_end_length_per_link_i) nondimensional_link_stiffness
      nondimensional_end_to_end_length_per_link.

(* /repo/src/physics/single_chain/efjc/thermodynamics/isometric/asymptotic/legendre/mod.jl:155-192 *)
Definition helmholtz_free_energy (number_of_links : jarray Z) (link_length : jarray T) (hinge_mass :
    jarray T) (link_stiffness : jarray T) (end_to_end_length : jarray T) (temperature : jarray T) :
    result T :=
  broadcast [UInt8; Float64; Float64; Float64; Float64; Float64] (fun number_of_links_i
      link_length_i hinge_mass_i link_stiffness_i end_to_end_length_i temperature_i => ccall
      lib.physics_single_chain_efjc_thermodynamics_isometric_asymptotic_legendre_helmholtz_free_energy
      [UInt8; Float64; Float64; Float64; Float64; Float64] number_of_links_i link_length_i
      hinge_mass_i link_stiffness_i end_to_end_length_i temperature_i) number_of_links link_length
      hinge_mass link_stiffness end_to_end_length temperature.

(* /repo/src/physics/single_chain/efjc/thermodynamics/isometric/asymptotic/legendre/mod.jl:200-237 *)
Definition helmholtz_free_energy_per_link (number_of_links : jarray Z) (link_length : jarray T)
    (hinge_mass : jarray T) (link_stiffness : jarray T) (end_to_end_length : jarray T) (temperature
    : jarray T) : result T :=
  broadcast [UInt8; Float64; Float64; Float64; Float64; Float64] (fun number_of_links_i
      link_length_i hinge_mass_i link_stiffness_i end_to_end_length_i temperature_i => ccall
      lib.physics_single_chain_efjc_thermodynamics_isometric_asymptotic_legendre_helmholtz_free_energy_per_link
      [UInt8; Float64; Float64; Float64; Float64; Float64] number_of_links_i link_length_i
      hinge_mass_i link_stiffness_i end_to_end_length_i temperature_i) number_of_links link_length
      hinge_mass link_stiffness end_to_end_length temperature.

(* /repo/src/physics/single_chain/efjc/thermodynamics/isometric/asymptotic/legendre/mod.jl:245-278 *)
Definition relative_helmholtz_free_energy (number_of_links : jarray Z) (link_length : jarray T)
    (link_stiffness : jarray T) (end_to_end_length : jarray T) (temperature : jarray T) : result T
    :=
  broadcast [UInt8; Float64; Float64; Float64; Float64] (fun number_of_links_i link_length_i
      link_stiffness_i end_to_end_length_i temperature_i => ccall
      lib.physics_single_chain_efjc_thermodynamics_isometric_asymptotic_legendre_relative_helmholtz_free_energy
      [UInt8; Float64; Float64; Float64; Float64] number_of_links_i link_length_i link_stiffness_i
      end_to_end_length_i temperature_i) number_of_links link_length link_stiffness
      end_to_end_length temperature.

(* /repo/src/physics/single_chain/efjc/thermodynamics/isometric/asymptotic/legendre/mod.jl:286-319 *)
Definition relative_helmholtz_free_energy_per_link (number_of_links : jarray Z) (link_length :
    jarray T) (link_stiffness : jarray T) (end_to_end_length : jarray T) (temperature : jarray T) :
    result T :=
  broadcast [UInt8; Float64; Float64; Float64; Float64] (fun number_of_links_i link_length_i
      link_stiffness_i end_to_end_length_i temperature_i => ccall
      lib.physics_single_chain_efjc_thermodynamics_isometric_asymptotic_legendre_relative_helmholtz_free_energy_per_link
      [UInt8; Float64; Float64; Float64; Float64] number_of_links_i link_length_i link_stiffness_i
      end_to_end_length_i temperature_i) number_of_links link_length link_stiffness
      end_to_end_length temperature.

(* /repo/src/physics/single_chain/efjc/thermodynamics/isometric/asymptotic/legendre/mod.jl:327-364 *)
Definition nondimensional_helmholtz_free_energy (number_of_links : jarray Z) (link_length : jarray
    T) (hinge_mass : jarray T) (nondimensional_link_stiffness : jarray T)
    (nondimensional_end_to_end_length_per_link : jarray T) (temperature : jarray T) : result T :=
  broadcast [UInt8; Float64; Float64; Float64; Float64; Float64] (fun number_of_links_i
      link_length_i hinge_mass_i nondimensional_link_stiffness_i
      nondimensional_end_to_end_length_per_link_i temperature_i => ccall
      lib.physics_single_chain_efjc_thermodynamics_isometric_asymptotic_legendre_nondimensional_helmholtz_free_energy
      [UInt8; Float64; Float64; Float64; Float64; Float64] number_of_links_i link_length_i
      hinge_mass_i nondimensional_link_stiffness_i nondimensional_end_to_end_length_per_link_i
      temperature_i) number_of_links link_length hinge_mass nondimensional_link_stiffness
      nondimensional_end_to_end_length_per_link temperature.

(* /repo/src/physics/single_chain/efjc/thermodynamics/isometric/asymptotic/legendre/mod.jl:372-409 *)
Definition nondimensional_helmholtz_free_energy_per_link (number_of_links : jarray Z) (link_length :
    jarray T) (hinge_mass : jarray T) (nondimensional_link_stiffness : jarray T)
    (nondimensional_end_to_end_length_per_link : jarray T) (temperature : jarray T) : result T :=
  broadcast [UInt8; Float64; Float64; Float64; Float64; Float64] (fun number_of_links_i
      link_length_i hinge_mass_i nondimensional_link_stiffness_i
      nondimensional_end_to_end_length_per_link_i temperature_i => ccall
      lib.physics_single_chain_efjc_thermodynamics_isometric_asymptotic_legendre_nondimensional_helmholtz_free_energy_per_link
      [UInt8; Float64; Float64; Float64; Float64; Float64] number_of_links_i link_length_i
      hinge_mass_i nondimensional_link_stiffness_i nondimensional_end_to_end_length_per_link_i
      temperature_i) number_of_links link_length hinge_mass nondimensional_link_stiffness
      nondimensional_end_to_end_length_per_link temperature.

(* /repo/src/physics/single_chain/efjc/thermodynamics/isometric/asymptotic/legendre/mod.jl:417-442 *)
Definition nondimensional_relative_helmholtz_free_energy (number_of_links : jarray Z)
    (nondimensional_link_stiffness : jarray T) (nondimensional_end_to_end_length_per_link : jarray
    T) : result T :=
  broadcast [UInt8; Float64; Float64] (fun number_of_links_i nondimensional_link_stiffness_i
      nondimensional_end_to_end_length_per_link_i => ccall
      lib.physics_single_chain_efjc_thermodynamics_isometric_asymptotic_legendre_nondimensional_relative_helmholtz_free_energy
      [UInt8; Float64; Float64] number_of_links_i nondimensional_link_stiffness_i
      nondimensional_end_to_end_length_per_link_i) number_of_links nondimensional_link_stiffness
      nondimensional_end_to_end_length_per_link.

(* /repo/src/physics/single_chain/efjc/thermodynamics/isometric/asymptotic/legendre/mod.jl:450-469 *)
Definition nondimensional_relative_helmholtz_free_energy_per_link (nondimensional_link_stiffness :
    jarray T) (nondimensional_end_to_end_length_per_link : jarray T) : result T :=
  broadcast [Float64; Float64] (fun nondimensional_link_stiffness_i
      nondimensional_end_to_end_length_per_link_i => ccall
      lib.physics_single_chain_efjc_thermodynamics_isometric_asymptotic_legendre_nondimensional_relative_helmholtz_free_energy_per_link
      [Float64; Float64] nondimensional_link_stiffness_i
      nondimensional_end_to_end_length_per_link_i) nondimensional_link_stiffness
      nondimensional_end_to_end_length_per_link.

End Model.
End jl_efjc_isometric_asymptotic_legendre.

(** /repo/src/physics/single_chain/efjc/thermodynamics/isometric/asymptotic/legendre/mod.jl: struct EFJC *)
Module J_efjc_isometric_asymptotic_legendre.
(* /repo/src/physics/single_chain/efjc/thermodynamics/isometric/asymptotic/legendre/mod.jl:16-73 *)
Record t {T : Type} := {
  number_of_links : Z;
  link_length : T;
  hinge_mass : T;
  link_stiffness : T;
  force : jarray T -> jarray T -> result T;
  nondimensional_force : jarray T -> T -> result T;
  helmholtz_free_energy : jarray T -> jarray T -> result T;
  helmholtz_free_energy_per_link : jarray T -> jarray T -> result T;
  relative_helmholtz_free_energy : jarray T -> jarray T -> result T;
  relative_helmholtz_free_energy_per_link : jarray T -> jarray T -> result T;
  nondimensional_helmholtz_free_energy : jarray T -> T -> result T;
  nondimensional_helmholtz_free_energy_per_link : jarray T -> T -> result T;
  nondimensional_relative_helmholtz_free_energy : jarray T -> T -> result T;
  nondimensional_relative_helmholtz_free_energy_per_link : jarray T -> T -> result T }.
Arguments t : clear implicits.
Section Model.
Context {T : Type} {Sc : Scalar T}.

(* /repo/src/physics/single_chain/efjc/thermodynamics/isometric/asymptotic/legendre/mod.jl:476-559 *)
Definition init (number_of_links : Z) (link_length : T) (hinge_mass : T) (link_stiffness : T) : t T
    :=
  {| number_of_links := number_of_links;
     link_length := link_length;
     hinge_mass := hinge_mass;
     link_stiffness := link_stiffness;
     force := fun end_to_end_length temperature => jl_efjc_isometric_asymptotic_legendre.force (num
       number_of_links) (num link_length) (num link_stiffness) end_to_end_length temperature;
     nondimensional_force := fun nondimensional_end_to_end_length_per_link temperature =>
       jl_efjc_isometric_asymptotic_legendre.nondimensional_force (num (link_stiffness * spowi
       link_length 2 / jl_BOLTZMANN_CONSTANT / temperature))
       nondimensional_end_to_end_length_per_link;
     helmholtz_free_energy := fun end_to_end_length temperature =>
       jl_efjc_isometric_asymptotic_legendre.helmholtz_free_energy (num number_of_links) (num
       link_length) (num hinge_mass) (num link_stiffness) end_to_end_length temperature;
     helmholtz_free_energy_per_link := fun end_to_end_length temperature =>
       jl_efjc_isometric_asymptotic_legendre.helmholtz_free_energy_per_link (num number_of_links)
       (num link_length) (num hinge_mass) (num link_stiffness) end_to_end_length temperature;
     relative_helmholtz_free_energy := fun end_to_end_length temperature =>
       jl_efjc_isometric_asymptotic_legendre.relative_helmholtz_free_energy (num number_of_links)
       (num link_length) (num link_stiffness) end_to_end_length temperature;
     relative_helmholtz_free_energy_per_link := fun end_to_end_length temperature =>
       jl_efjc_isometric_asymptotic_legendre.relative_helmholtz_free_energy_per_link (num
       number_of_links) (num link_length) (num link_stiffness) end_to_end_length temperature;
     nondimensional_helmholtz_free_energy := fun nondimensional_end_to_end_length_per_link temperature =>
       jl_efjc_isometric_asymptotic_legendre.nondimensional_helmholtz_free_energy (num
       number_of_links) (num link_length) (num hinge_mass) (num (link_stiffness * spowi link_length
       2 / jl_BOLTZMANN_CONSTANT / temperature)) nondimensional_end_to_end_length_per_link (num
       temperature);
     nondimensional_helmholtz_free_energy_per_link := fun nondimensional_end_to_end_length_per_link
       temperature =>
       jl_efjc_isometric_asymptotic_legendre.nondimensional_helmholtz_free_energy_per_link (num
       number_of_links) (num link_length) (num hinge_mass) (num (link_stiffness * spowi link_length
       2 / jl_BOLTZMANN_CONSTANT / temperature)) nondimensional_end_to_end_length_per_link (num
       temperature);
     nondimensional_relative_helmholtz_free_energy := fun nondimensional_end_to_end_length_per_link
       temperature =>
       jl_efjc_isometric_asymptotic_legendre.nondimensional_relative_helmholtz_free_energy (num
       number_of_links) (num (link_stiffness * spowi link_length 2 / jl_BOLTZMANN_CONSTANT /
       temperature)) nondimensional_end_to_end_length_per_link;
     nondimensional_relative_helmholtz_free_energy_per_link := fun
       nondimensional_end_to_end_length_per_link temperature =>
       jl_efjc_isometric_asymptotic_legendre.nondimensional_relative_helmholtz_free_energy_per_link
       (num (link_stiffness * spowi link_length 2 / jl_BOLTZMANN_CONSTANT / temperature))
       nondimensional_end_to_end_length_per_link |}.

End Model.
End J_efjc_isometric_asymptotic_legendre.

(** /repo/src/physics/single_chain/efjc/thermodynamics/isometric/asymptotic/reduced/mod.jl: struct EFJC *)
Module J_efjc_isometric_asymptotic_reduced.
(* /repo/src/physics/single_chain/efjc/thermodynamics/isometric/asymptotic/reduced/mod.jl:16-37 *)
Record t {T : Type} := {
  number_of_links : Z;
  link_length : T;
  hinge_mass : T;
  link_stiffness : T;
  legendre : J_efjc_isometric_asymptotic_reduced_legendre.t T }.
Arguments t : clear implicits.
Section Model.
Context {T : Type} {Sc : Scalar T}.

(* /repo/src/physics/single_chain/efjc/thermodynamics/isometric/asymptotic/reduced/mod.jl:44-57 *)
Definition init (number_of_links : Z) (link_length : T) (hinge_mass : T) (link_stiffness : T) : t T
    :=
  {| number_of_links := number_of_links;
     link_length := link_length;
     hinge_mass := hinge_mass;
     link_stiffness := link_stiffness;
     legendre := J_efjc_isometric_asymptotic_reduced_legendre.init number_of_links link_length hinge_mass
       link_stiffness |}.

End Model.
End J_efjc_isometric_asymptotic_reduced.

(** /repo/src/physics/single_chain/efjc/thermodynamics/isotensional/asymptotic/alternative/mod.jl *)
Module jl_efjc_isotensional_asymptotic_alternative.
Section Model.
Context {T : Type} {Sc : Scalar T}.

(* /repo/src/physics/single_chain/efjc/thermodynamics/isotensional/asymptotic/alternative/mod.jl:100-128 *)
Definition end_to_end_length (number_of_links : jarray Z) (link_length : jarray T) (link_stiffness :
    jarray T) (force : jarray T) (temperature : jarray T) : result T :=
  broadcast [UInt8; Float64; Float64; Float64; Float64] (fun number_of_links_i link_length_i
      link_stiffness_i force_i temperature_i => ccall
      lib.physics_single_chain_efjc_thermodynamics_isotensional_asymptotic_alternative_end_to_end_length
      [UInt8; Float64; Float64; Float64; Float64] number_of_links_i link_length_i link_stiffness_i
      force_i temperature_i) number_of_links link_length link_stiffness force temperature.

(* /repo/src/physics/single_chain/efjc/thermodynamics/isotensional/asymptotic/alternative/mod.jl:136-160 *)
Definition end_to_end_length_per_link (link_length : jarray T) (link_stiffness : jarray T) (force :
    jarray T) (temperature : jarray T) : result T :=
  broadcast [Float64; Float64; Float64; Float64] (fun link_length_i link_stiffness_i force_i
      temperature_i => ccall
      lib.physics_single_chain_efjc_thermodynamics_isotensional_asymptotic_alternative_end_to_end_length_per_link
      [Float64; Float64; Float64; Float64] link_length_i link_stiffness_i force_i temperature_i)
      link_length link_stiffness force temperature.

(* /repo/src/physics/single_chain/efjc/thermodynamics/isotensional/asymptotic/alternative/mod.jl:168-190 *)
Definition nondimensional_end_to_end_length (number_of_links : jarray Z)
    (nondimensional_link_stiffness : jarray T) (nondimensional_force : jarray T) : result T :=
  broadcast [UInt8; Float64; Float64] (fun number_of_links_i nondimensional_link_stiffness_i
      nondimensional_force_i => ccall
      lib.physics_single_chain_efjc_thermodynamics_isotensional_asymptotic_alternative_nondimensional_end_to_end_length
      [UInt8; Float64; Float64] number_of_links_i nondimensional_link_stiffness_i
      nondimensional_force_i) number_of_links nondimensional_link_stiffness nondimensional_force.

(* /repo/src/physics/single_chain/efjc/thermodynamics/isotensional/asymptotic/alternative/mod.jl:205-223 *)
Definition nondimensional_end_to_end_length_per_link (nondimensional_link_stiffness : jarray T)
    (nondimensional_force : jarray T) : result T :=
  broadcast [Float64; Float64] (fun nondimensional_link_stiffness_i nondimensional_force_i => ccall
      lib.physics_single_chain_efjc_thermodynamics_isotensional_asymptotic_alternative_nondimensional_end_to_end_length_per_link
      [Float64; Float64] nondimensional_link_stiffness_i nondimensional_force_i)
      nondimensional_link_stiffness nondimensional_force.

(* /repo/src/physics/single_chain/efjc/thermodynamics/isotensional/asymptotic/alternative/mod.jl:235-272 *)
Definition gibbs_free_energy (number_of_links : jarray Z) (link_length : jarray T) (hinge_mass :
    jarray T) (link_stiffness : jarray T) (force : jarray T) (temperature : jarray T) : result T :=
  broadcast [UInt8; Float64; Float64; Float64; Float64; Float64] (fun number_of_links_i
      link_length_i hinge_mass_i link_stiffness_i force_i temperature_i => ccall
      lib.physics_single_chain_efjc_thermodynamics_isotensional_asymptotic_alternative_gibbs_free_energy
      [UInt8; Float64; Float64; Float64; Float64; Float64] number_of_links_i link_length_i
      hinge_mass_i link_stiffness_i force_i temperature_i) number_of_links link_length hinge_mass
      link_stiffness force temperature.

(* /repo/src/physics/single_chain/efjc/thermodynamics/isotensional/asymptotic/alternative/mod.jl:280-307 *)
Definition gibbs_free_energy_per_link (link_length : jarray T) (hinge_mass : jarray T)
    (link_stiffness : jarray T) (force : jarray T) (temperature : jarray T) : result T :=
  broadcast [Float64; Float64; Float64; Float64; Float64] (fun link_length_i hinge_mass_i
      link_stiffness_i force_i temperature_i => ccall
      lib.physics_single_chain_efjc_thermodynamics_isotensional_asymptotic_alternative_gibbs_free_energy_per_link
      [Float64; Float64; Float64; Float64; Float64] link_length_i hinge_mass_i link_stiffness_i
      force_i temperature_i) link_length hinge_mass link_stiffness force temperature.

(* /repo/src/physics/single_chain/efjc/thermodynamics/isotensional/asymptotic/alternative/mod.jl:315-343 *)
Definition relative_gibbs_free_energy (number_of_links : jarray Z) (link_length : jarray T)
    (link_stiffness : jarray T) (force : jarray T) (temperature : jarray T) : result T :=
  broadcast [UInt8; Float64; Float64; Float64; Float64] (fun number_of_links_i link_length_i
      link_stiffness_i force_i temperature_i => ccall
      lib.physics_single_chain_efjc_thermodynamics_isotensional_asymptotic_alternative_relative_gibbs_free_energy
      [UInt8; Float64; Float64; Float64; Float64] number_of_links_i link_length_i link_stiffness_i
      force_i temperature_i) number_of_links link_length link_stiffness force temperature.

(* /repo/src/physics/single_chain/efjc/thermodynamics/isotensional/asymptotic/alternative/mod.jl:351-375 *)
Definition relative_gibbs_free_energy_per_link (link_length : jarray T) (link_stiffness : jarray T)
    (force : jarray T) (temperature : jarray T) : result T :=
  broadcast [Float64; Float64; Float64; Float64] (fun link_length_i link_stiffness_i force_i
      temperature_i => ccall
      lib.physics_single_chain_efjc_thermodynamics_isotensional_asymptotic_alternative_relative_gibbs_free_energy_per_link
      [Float64; Float64; Float64; Float64] link_length_i link_stiffness_i force_i temperature_i)
      link_length link_stiffness force temperature.

(* /repo/src/physics/single_chain/efjc/thermodynamics/isotensional/asymptotic/alternative/mod.jl:383-420 *)
Definition nondimensional_gibbs_free_energy (number_of_links : jarray Z) (link_length : jarray T)
    (hinge_mass : jarray T) (nondimensional_link_stiffness : jarray T) (nondimensional_force :
    jarray T) (temperature : jarray T) : result T :=
  broadcast [UInt8; Float64; Float64; Float64; Float64; Float64] (fun number_of_links_i
      link_length_i hinge_mass_i nondimensional_link_stiffness_i nondimensional_force_i
      temperature_i => ccall
      lib.physics_single_chain_efjc_thermodynamics_isotensional_asymptotic_alternative_nondimensional_gibbs_free_energy
      [UInt8; Float64; Float64; Float64; Float64; Float64] number_of_links_i link_length_i
      hinge_mass_i nondimensional_link_stiffness_i nondimensional_force_i temperature_i)
      number_of_links link_length hinge_mass nondimensional_link_stiffness nondimensional_force
      temperature.

(* /repo/src/physics/single_chain/efjc/thermodynamics/isotensional/asymptotic/alternative/mod.jl:428-461 *)
Definition nondimensional_gibbs_free_energy_per_link (link_length : jarray T) (hinge_mass : jarray
    T) (nondimensional_link_stiffness : jarray T) (nondimensional_force : jarray T) (temperature :
    jarray T) : result T :=
  broadcast [Float64; Float64; Float64; Float64; Float64] (fun link_length_i hinge_mass_i
      nondimensional_link_stiffness_i nondimensional_force_i temperature_i => ccall
      lib.physics_single_chain_efjc_thermodynamics_isotensional_asymptotic_alternative_nondimensional_gibbs_free_energy_per_link
      [Float64; Float64; Float64; Float64; Float64] link_length_i hinge_mass_i
      nondimensional_link_stiffness_i nondimensional_force_i temperature_i) link_length hinge_mass
      nondimensional_link_stiffness nondimensional_force temperature.

(* /repo/src/physics/single_chain/efjc/thermodynamics/isotensional/asymptotic/alternative/mod.jl:469-491 *)
Definition nondimensional_relative_gibbs_free_energy (number_of_links : jarray Z)
    (nondimensional_link_stiffness : jarray T) (nondimensional_force : jarray T) : result T :=
  broadcast [UInt8; Float64; Float64] (fun number_of_links_i nondimensional_link_stiffness_i
      nondimensional_force_i => ccall
      lib.physics_single_chain_efjc_thermodynamics_isotensional_asymptotic_alternative_nondimensional_relative_gibbs_free_energy
      [UInt8; Float64; Float64] number_of_links_i nondimensional_link_stiffness_i
      nondimensional_force_i) number_of_links nondimensional_link_stiffness nondimensional_force.

(* /repo/src/physics/single_chain/efjc/thermodynamics/isotensional/asymptotic/alternative/mod.jl:504-522 *)
Definition nondimensional_relative_gibbs_free_energy_per_link (nondimensional_link_stiffness :
    jarray T) (nondimensional_force : jarray T) : result T :=
  broadcast [Float64; Float64] (fun nondimensional_link_stiffness_i nondimensional_force_i => ccall
      lib.physics_single_chain_efjc_thermodynamics_isotensional_asymptotic_alternative_nondimensional_relative_gibbs_free_energy_per_link
      [Float64; Float64] nondimensional_link_stiffness_i nondimensional_force_i)
      nondimensional_link_stiffness nondimensional_force.

End Model.
End jl_efjc_isotensional_asymptotic_alternative.

(** /repo/src/physics/single_chain/efjc/thermodynamics/isotensional/asymptotic/alternative/mod.jl: struct EFJC *)
Module J_efjc_isotensional_asymptotic_alternative.
(* /repo/src/physics/single_chain/efjc/thermodynamics/isotensional/asymptotic/alternative/mod.jl:19-88 *)
Record t {T : Type} := {
  number_of_links : Z;
  link_length : T;
  hinge_mass : T;
  link_stiffness : T;
  legendre : J_efjc_isotensional_asymptotic_alternative_legendre.t T;
  end_to_end_length : jarray T -> jarray T -> result T;
  end_to_end_length_per_link : jarray T -> jarray T -> result T;
  nondimensional_end_to_end_length : jarray T -> T -> result T;
  nondimensional_end_to_end_length_per_link : jarray T -> T -> result T;
  gibbs_free_energy : jarray T -> jarray T -> result T;
  gibbs_free_energy_per_link : jarray T -> jarray T -> result T;
  relative_gibbs_free_energy : jarray T -> jarray T -> result T;
  relative_gibbs_free_energy_per_link : jarray T -> jarray T -> result T;
  nondimensional_gibbs_free_energy : jarray T -> T -> result T;
  nondimensional_gibbs_free_energy_per_link : jarray T -> T -> result T;
  nondimensional_relative_gibbs_free_energy : jarray T -> T -> result T;
  nondimensional_relative_gibbs_free_energy_per_link : jarray T -> T -> result T }.
Arguments t : clear implicits.
Section Model.
Context {T : Type} {Sc : Scalar T}.

(* /repo/src/physics/single_chain/efjc/thermodynamics/isotensional/asymptotic/alternative/mod.jl:529-614 *)
Definition init (number_of_links : Z) (link_length : T) (hinge_mass : T) (link_stiffness : T) : t T
    :=
  {| number_of_links := number_of_links;
     link_length := link_length;
     hinge_mass := hinge_mass;
     link_stiffness := link_stiffness;
     legendre := J_efjc_isotensional_asymptotic_alternative_legendre.init number_of_links link_length
       hinge_mass link_stiffness;
     end_to_end_length := fun force temperature =>
       jl_efjc_isotensional_asymptotic_alternative.end_to_end_length (num number_of_links) (num
       link_length) (num link_stiffness) force temperature;
     end_to_end_length_per_link := fun force temperature =>
       jl_efjc_isotensional_asymptotic_alternative.end_to_end_length_per_link (num link_length) (num
       link_stiffness) force temperature;
     nondimensional_end_to_end_length := fun nondimensional_force temperature =>
       jl_efjc_isotensional_asymptotic_alternative.nondimensional_end_to_end_length (num
       number_of_links) (num (link_stiffness * spowi link_length 2 / jl_BOLTZMANN_CONSTANT /
       temperature)) nondimensional_force;
     nondimensional_end_to_end_length_per_link := fun nondimensional_force temperature =>
       jl_efjc_isotensional_asymptotic_alternative.nondimensional_end_to_end_length_per_link (num
       (link_stiffness * spowi link_length 2 / jl_BOLTZMANN_CONSTANT / temperature))
       nondimensional_force;
     gibbs_free_energy := fun force temperature =>
       jl_efjc_isotensional_asymptotic_alternative.gibbs_free_energy (num number_of_links) (num
       link_length) (num hinge_mass) (num link_stiffness) force temperature;
     gibbs_free_energy_per_link := fun force temperature =>
       jl_efjc_isotensional_asymptotic_alternative.gibbs_free_energy_per_link (num link_length) (num
       hinge_mass) (num link_stiffness) force temperature;
     relative_gibbs_free_energy := fun force temperature =>
       jl_efjc_isotensional_asymptotic_alternative.relative_gibbs_free_energy (num number_of_links)
       (num link_length) (num link_stiffness) force temperature;
     relative_gibbs_free_energy_per_link := fun force temperature =>
       jl_efjc_isotensional_asymptotic_alternative.relative_gibbs_free_energy_per_link (num
       link_length) (num link_stiffness) force temperature;
     nondimensional_gibbs_free_energy := fun nondimensional_force temperature =>
       jl_efjc_isotensional_asymptotic_alternative.nondimensional_gibbs_free_energy (num
       number_of_links) (num link_length) (num hinge_mass) (num (link_stiffness * spowi link_length
       2 / jl_BOLTZMANN_CONSTANT / temperature)) nondimensional_force (num temperature);
     nondimensional_gibbs_free_energy_per_link := fun nondimensional_force temperature =>
       jl_efjc_isotensional_asymptotic_alternative.nondimensional_gibbs_free_energy_per_link (num
       link_length) (num hinge_mass) (num (link_stiffness * spowi link_length 2 /
       jl_BOLTZMANN_CONSTANT / temperature)) nondimensional_force (num temperature);
     nondimensional_relative_gibbs_free_energy := fun nondimensional_force temperature =>
       jl_efjc_isotensional_asymptotic_alternative.nondimensional_relative_gibbs_free_energy (num
       number_of_links) (num (link_stiffness * spowi link_length 2 / jl_BOLTZMANN_CONSTANT /
       temperature)) nondimensional_force;
     nondimensional_relative_gibbs_free_energy_per_link := fun nondimensional_force temperature =>
       jl_efjc_isotensional_asymptotic_alternative.nondimensional_relative_gibbs_free_energy_per_link
       (num (link_stiffness * spowi link_length 2 / jl_BOLTZMANN_CONSTANT / temperature))
       nondimensional_force |}.

End Model.
End J_efjc_isotensional_asymptotic_alternative.

(** /repo/src/physics/single_chain/efjc/thermodynamics/isotensional/asymptotic/legendre/mod.jl *)
Module jl_efjc_isotensional_asymptotic_legendre.
Section Model.
Context {T : Type} {Sc : Scalar T}.

(* /repo/src/physics/single_chain/efjc/thermodynamics/isotensional/asymptotic/legendre/mod.jl:77-114 *)
Definition helmholtz_free_energy (number_of_links : jarray Z) (link_length : jarray T) (hinge_mass :
    jarray T) (link_stiffness : jarray T) (force : jarray T) (temperature : jarray T) : result T :=
  broadcast [UInt8; Float64; Float64; Float64; Float64; Float64] (fun number_of_links_i
      link_length_i hinge_mass_i link_stiffness_i force_i temperature_i => ccall
      lib.physics_single_chain_efjc_thermodynamics_isotensional_asymptotic_legendre_helmholtz_free_energy
      [UInt8; Float64; Float64; Float64; Float64; Float64] number_of_links_i link_length_i
      hinge_mass_i link_stiffness_i force_i temperature_i) number_of_links link_length hinge_mass
      link_stiffness force temperature.

(* /repo/src/physics/single_chain/efjc/thermodynamics/isotensional/asymptotic/legendre/mod.jl:122-149 *)
Definition helmholtz_free_energy_per_link (link_length : jarray T) (hinge_mass : jarray T)
    (link_stiffness : jarray T) (force : jarray T) (temperature : jarray T) : result T :=
  broadcast [Float64; Float64; Float64; Float64; Float64] (fun link_length_i hinge_mass_i
      link_stiffness_i force_i temperature_i => ccall
      lib.physics_single_chain_efjc_thermodynamics_isotensional_asymptotic_legendre_helmholtz_free_energy_per_link
      [Float64; Float64; Float64; Float64; Float64] link_length_i hinge_mass_i link_stiffness_i
      force_i temperature_i) link_length hinge_mass link_stiffness force temperature.

(* /repo/src/physics/single_chain/efjc/thermodynamics/isotensional/asymptotic/legendre/mod.jl:157-185 *)
Definition relative_helmholtz_free_energy (number_of_links : jarray Z) (link_length : jarray T)
    (link_stiffness : jarray T) (force : jarray T) (temperature : jarray T) : result T :=
  broadcast [UInt8; Float64; Float64; Float64; Float64] (fun number_of_links_i link_length_i
      link_stiffness_i force_i temperature_i => ccall
      lib.physics_single_chain_efjc_thermodynamics_isotensional_asymptotic_legendre_relative_helmholtz_free_energy
      [UInt8; Float64; Float64; Float64; Float64] number_of_links_i link_length_i link_stiffness_i
      force_i temperature_i) number_of_links link_length link_stiffness force temperature.

(* /repo/src/physics/single_chain/efjc/thermodynamics/isotensional/asymptotic/legendre/mod.jl:193-217 *)
Definition relative_helmholtz_free_energy_per_link (link_length : jarray T) (link_stiffness : jarray
    T) (force : jarray T) (temperature : jarray T) : result T :=
  broadcast [Float64; Float64; Float64; Float64] (fun link_length_i link_stiffness_i force_i
      temperature_i => ccall
      lib.physics_single_chain_efjc_thermodynamics_isotensional_asymptotic_legendre_relative_helmholtz_free_energy_per_link
      [Float64; Float64; Float64; Float64] link_length_i link_stiffness_i force_i temperature_i)
      link_length link_stiffness force temperature.

(* /repo/src/physics/single_chain/efjc/thermodynamics/isotensional/asymptotic/legendre/mod.jl:225-262 *)
Definition nondimensional_helmholtz_free_energy (number_of_links : jarray Z) (link_length : jarray
    T) (hinge_mass : jarray T) (nondimensional_link_stiffness : jarray T) (nondimensional_force :
    jarray T) (temperature : jarray T) : result T :=
  broadcast [UInt8; Float64; Float64; Float64; Float64; Float64] (fun number_of_links_i
      link_length_i hinge_mass_i nondimensional_link_stiffness_i nondimensional_force_i
      temperature_i => ccall
      lib.physics_single_chain_efjc_thermodynamics_isotensional_asymptotic_legendre_nondimensional_helmholtz_free_energy
      [UInt8; Float64; Float64; Float64; Float64; Float64] number_of_links_i link_length_i
      hinge_mass_i nondimensional_link_stiffness_i nondimensional_force_i temperature_i)
      number_of_links link_length hinge_mass nondimensional_link_stiffness nondimensional_force
      temperature.

(* /repo/src/physics/single_chain/efjc/thermodynamics/isotensional/asymptotic/legendre/mod.jl:270-303 *)
Definition nondimensional_helmholtz_free_energy_per_link (link_length : jarray T) (hinge_mass :
    jarray T) (nondimensional_link_stiffness : jarray T) (nondimensional_force : jarray T)
    (temperature : jarray T) : result T :=
  broadcast [Float64; Float64; Float64; Float64; Float64] (fun link_length_i hinge_mass_i
      nondimensional_link_stiffness_i nondimensional_force_i temperature_i => ccall
      lib.physics_single_chain_efjc_thermodynamics_isotensional_asymptotic_legendre_nondimensional_helmholtz_free_energy_per_link
      [Float64; Float64; Float64; Float64; Float64] link_length_i hinge_mass_i
      nondimensional_link_stiffness_i nondimensional_force_i temperature_i) link_length hinge_mass
      nondimensional_link_stiffness nondimensional_force temperature.

(* /repo/src/physics/single_chain/efjc/thermodynamics/isotensional/asymptotic/legendre/mod.jl:311-333 *)
Definition nondimensional_relative_helmholtz_free_energy (number_of_links : jarray Z)
    (nondimensional_link_stiffness : jarray T) (nondimensional_force : jarray T) : result T :=
  broadcast [UInt8; Float64; Float64] (fun number_of_links_i nondimensional_link_stiffness_i
      nondimensional_force_i => ccall
      lib.physics_single_chain_efjc_thermodynamics_isotensional_asymptotic_legendre_nondimensional_relative_helmholtz_free_energy
      [UInt8; Float64; Float64] number_of_links_i nondimensional_link_stiffness_i
      nondimensional_force_i) number_of_links nondimensional_link_stiffness nondimensional_force.

(* /repo/src/physics/single_chain/efjc/thermodynamics/isotensional/asymptotic/legendre/mod.jl:341-359 *)
Definition nondimensional_relative_helmholtz_free_energy_per_link (nondimensional_link_stiffness :
    jarray T) (nondimensional_force : jarray T) : result T :=
  broadcast [Float64; Float64] (fun nondimensional_link_stiffness_i nondimensional_force_i => ccall
      lib.physics_single_chain_efjc_thermodynamics_isotensional_asymptotic_legendre_nondimensional_relative_helmholtz_free_energy_per_link
      [Float64; Float64] nondimensional_link_stiffness_i nondimensional_force_i)
      nondimensional_link_stiffness nondimensional_force.

End Model.
End jl_efjc_isotensional_asymptotic_legendre.

(** /repo/src/physics/single_chain/efjc/thermodynamics/isotensional/asymptotic/legendre/mod.jl: struct EFJC *)
Module J_efjc_isotensional_asymptotic_legendre.
(* /repo/src/physics/single_chain/efjc/thermodynamics/isotensional/asymptotic/legendre/mod.jl:16-65 *)
Record t {T : Type} := {
  number_of_links : Z;
  link_length : T;
  hinge_mass : T;
  link_stiffness : T;
  helmholtz_free_energy : jarray T -> jarray T -> result T;
  helmholtz_free_energy_per_link : jarray T -> jarray T -> result T;
  relative_helmholtz_free_energy : jarray T -> jarray T -> result T;
  relative_helmholtz_free_energy_per_link : jarray T -> jarray T -> result T;
  nondimensional_helmholtz_free_energy : jarray T -> T -> result T;
  nondimensional_helmholtz_free_energy_per_link : jarray T -> T -> result T;
  nondimensional_relative_helmholtz_free_energy : jarray T -> T -> result T;
  nondimensional_relative_helmholtz_free_energy_per_link : jarray T -> T -> result T }.
Arguments t : clear implicits.
Section Model.
Context {T : Type} {Sc : Scalar T}.

(* /repo/src/physics/single_chain/efjc/thermodynamics/isotensional/asymptotic/legendre/mod.jl:366-434 *)
Definition init (number_of_links : Z) (link_length : T) (hinge_mass : T) (link_stiffness : T) : t T
    :=
  {| number_of_links := number_of_links;
     link_length := link_length;
     hinge_mass := hinge_mass;
     link_stiffness := link_stiffness;
     helmholtz_free_energy := fun force temperature =>
       jl_efjc_isotensional_asymptotic_legendre.helmholtz_free_energy (num number_of_links) (num
       link_length) (num hinge_mass) (num link_stiffness) force temperature;
     helmholtz_free_energy_per_link := fun force temperature =>
       jl_efjc_isotensional_asymptotic_legendre.helmholtz_free_energy_per_link (num link_length)
       (num hinge_mass) (num link_stiffness) force temperature;
     relative_helmholtz_free_energy := fun force temperature =>
       jl_efjc_isotensional_asymptotic_legendre.relative_helmholtz_free_energy (num number_of_links)
       (num link_length) (num link_stiffness) force temperature;
     relative_helmholtz_free_energy_per_link := fun force temperature =>
       jl_efjc_isotensional_asymptotic_legendre.relative_helmholtz_free_energy_per_link (num
       link_length) (num link_stiffness) force temperature;
     nondimensional_helmholtz_free_energy := fun nondimensional_force temperature =>
       jl_efjc_isotensional_asymptotic_legendre.nondimensional_helmholtz_free_energy (num
       number_of_links) (num link_length) (num hinge_mass) (num (link_stiffness * spowi link_length
       2 / jl_BOLTZMANN_CONSTANT / temperature)) nondimensional_force (num temperature);
     nondimensional_helmholtz_free_energy_per_link := fun nondimensional_force temperature =>
       jl_efjc_isotensional_asymptotic_legendre.nondimensional_helmholtz_free_energy_per_link (num
       link_length) (num hinge_mass) (num (link_stiffness * spowi link_length 2 /
       jl_BOLTZMANN_CONSTANT / temperature)) nondimensional_force (num temperature);
     nondimensional_relative_helmholtz_free_energy := fun nondimensional_force temperature =>
       jl_efjc_isotensional_asymptotic_legendre.nondimensional_relative_helmholtz_free_energy (num
       number_of_links) (num (link_stiffness * spowi link_length 2 / jl_BOLTZMANN_CONSTANT /
       temperature)) nondimensional_force;
     nondimensional_relative_helmholtz_free_energy_per_link := fun nondimensional_force temperature =>
       jl_efjc_isotensional_asymptotic_legendre.nondimensional_relative_helmholtz_free_energy_per_link
       (num (link_stiffness * spowi link_length 2 / jl_BOLTZMANN_CONSTANT / temperature))
       nondimensional_force |}.

End Model.
End J_efjc_isotensional_asymptotic_legendre.

(** /repo/src/physics/single_chain/efjc/thermodynamics/isotensional/asymptotic/reduced/mod.jl *)
Module jl_efjc_isotensional_asymptotic_reduced.
Section Model.
Context {T : Type} {Sc : Scalar T}.

(* /repo/src/physics/single_chain/efjc/thermodynamics/isotensional/asymptotic/reduced/mod.jl:100-128 *)
Definition end_to_end_length (number_of_links : jarray Z) (link_length : jarray T) (link_stiffness :
    jarray T) (force : jarray T) (temperature : jarray T) : result T :=
  broadcast [UInt8; Float64; Float64; Float64; Float64] (fun number_of_links_i link_length_i
      link_stiffness_i force_i temperature_i => ccall
      lib.physics_single_chain_efjc_thermodynamics_isotensional_asymptotic_reduced_end_to_end_length
      [UInt8; Float64; Float64; Float64; Float64] number_of_links_i link_length_i link_stiffness_i
      force_i temperature_i) number_of_links link_length link_stiffness force temperature.

(* /repo/src/physics/single_chain/efjc/thermodynamics/isotensional/asymptotic/reduced/mod.jl:136-160 *)
Definition end_to_end_length_per_link (link_length : jarray T) (link_stiffness : jarray T) (force :
    jarray T) (temperature : jarray T) : result T :=
  broadcast [Float64; Float64; Float64; Float64] (fun link_length_i link_stiffness_i force_i
      temperature_i => ccall
      lib.physics_single_chain_efjc_thermodynamics_isotensional_asymptotic_reduced_end_to_end_length_per_link
      [Float64; Float64; Float64; Float64] link_length_i link_stiffness_i force_i temperature_i)
      link_length link_stiffness force temperature.

(* /repo/src/physics/single_chain/efjc/thermodynamics/isotensional/asymptotic/reduced/mod.jl:168-190 *)
Definition nondimensional_end_to_end_length (number_of_links : jarray Z)
    (nondimensional_link_stiffness : jarray T) (nondimensional_force : jarray T) : result T :=
  broadcast [UInt8; Float64; Float64] (fun number_of_links_i nondimensional_link_stiffness_i
      nondimensional_force_i => ccall
      lib.physics_single_chain_efjc_thermodynamics_isotensional_asymptotic_reduced_nondimensional_end_to_end_length
      [UInt8; Float64; Float64] number_of_links_i nondimensional_link_stiffness_i
      nondimensional_force_i) number_of_links nondimensional_link_stiffness nondimensional_force.

(* /repo/src/physics/single_chain/efjc/thermodynamics/isotensional/asymptotic/reduced/mod.jl:205-223 *)
Definition nondimensional_end_to_end_length_per_link (nondimensional_link_stiffness : jarray T)
    (nondimensional_force : jarray T) : result T :=
  broadcast [Float64; Float64] (fun nondimensional_link_stiffness_i nondimensional_force_i => ccall
      lib.physics_single_chain_efjc_thermodynamics_isotensional_asymptotic_reduced_nondimensional_end_to_end_length_per_link
      [Float64; Float64] nondimensional_link_stiffness_i nondimensional_force_i)
      nondimensional_link_stiffness nondimensional_force.

(* /repo/src/physics/single_chain/efjc/thermodynamics/isotensional/asymptotic/reduced/mod.jl:235-272 *)
Definition gibbs_free_energy (number_of_links : jarray Z) (link_length : jarray T) (hinge_mass :
    jarray T) (link_stiffness : jarray T) (force : jarray T) (temperature : jarray T) : result T :=
  broadcast [UInt8; Float64; Float64; Float64; Float64; Float64] (fun number_of_links_i
      link_length_i hinge_mass_i link_stiffness_i force_i temperature_i => ccall
      lib.physics_single_chain_efjc_thermodynamics_isotensional_asymptotic_reduced_gibbs_free_energy
      [UInt8; Float64; Float64; Float64; Float64; Float64] number_of_links_i link_length_i
      hinge_mass_i link_stiffness_i force_i temperature_i) number_of_links link_length hinge_mass
      link_stiffness force temperature.

(* /repo/src/physics/single_chain/efjc/thermodynamics/isotensional/asymptotic/reduced/mod.jl:280-307 *)
Definition gibbs_free_energy_per_link (link_length : jarray T) (hinge_mass : jarray T)
    (link_stiffness : jarray T) (force : jarray T) (temperature : jarray T) : result T :=
  broadcast [Float64; Float64; Float64; Float64; Float64] (fun link_length_i hinge_mass_i
      link_stiffness_i force_i temperature_i => ccall
      lib.physics_single_chain_efjc_thermodynamics_isotensional_asymptotic_reduced_gibbs_free_energy_per_link
      [Float64; Float64; Float64; Float64; Float64] link_length_i hinge_mass_i link_stiffness_i
      force_i temperature_i) link_length hinge_mass link_stiffness force temperature.

(* /repo/src/physics/single_chain/efjc/thermodynamics/isotensional/asymptotic/reduced/mod.jl:315-343 *)
Definition relative_gibbs_free_energy (number_of_links : jarray Z) (link_length : jarray T)
    (link_stiffness : jarray T) (force : jarray T) (temperature : jarray T) : result T :=
  broadcast [UInt8; Float64; Float64; Float64; Float64] (fun number_of_links_i link_length_i
      link_stiffness_i force_i temperature_i => ccall
      lib.physics_single_chain_efjc_thermodynamics_isotensional_asymptotic_reduced_relative_gibbs_free_energy
      [UInt8; Float64; Float64; Float64; Float64] number_of_links_i link_length_i link_stiffness_i
      force_i temperature_i) number_of_links link_length link_stiffness force temperature.

(* /repo/src/physics/single_chain/efjc/thermodynamics/isotensional/asymptotic/reduced/mod.jl:351-375 *)
Definition relative_gibbs_free_energy_per_link (link_length : jarray T) (link_stiffness : jarray T)
    (force : jarray T) (temperature : jarray T) : result T :=
  broadcast [Float64; Float64; Float64; Float64] (fun link_length_i link_stiffness_i force_i
      temperature_i => ccall
      lib.physics_single_chain_efjc_thermodynamics_isotensional_asymptotic_reduced_relative_gibbs_free_energy_per_link
      [Float64; Float64; Float64; Float64] link_length_i link_stiffness_i force_i temperature_i)
      link_length link_stiffness force temperature.

(* /repo/src/physics/single_chain/efjc/thermodynamics/isotensional/asymptotic/reduced/mod.jl:383-420 *)
Definition nondimensional_gibbs_free_energy (number_of_links : jarray Z) (link_length : jarray T)
    (hinge_mass : jarray T) (nondimensional_link_stiffness : jarray T) (nondimensional_force :
    jarray T) (temperature : jarray T) : result T :=
  broadcast [UInt8; Float64; Float64; Float64; Float64; Float64] (fun number_of_links_i
      link_length_i hinge_mass_i nondimensional_link_stiffness_i nondimensional_force_i
      temperature_i => ccall
      lib.physics_single_chain_efjc_thermodynamics_isotensional_asymptotic_reduced_nondimensional_gibbs_free_energy
      [UInt8; Float64; Float64; Float64; Float64; Float64] number_of_links_i link_length_i
      hinge_mass_i nondimensional_link_stiffness_i nondimensional_force_i temperature_i)
      number_of_links link_length hinge_mass nondimensional_link_stiffness nondimensional_force
      temperature.

(* /repo/src/physics/single_chain/efjc/thermodynamics/isotensional/asymptotic/reduced/mod.jl:428-461 *)
Definition nondimensional_gibbs_free_energy_per_link (link_length : jarray T) (hinge_mass : jarray
    T) (nondimensional_link_stiffness : jarray T) (nondimensional_force : jarray T) (temperature :
    jarray T) : result T :=
  broadcast [Float64; Float64; Float64; Float64; Float64] (fun link_length_i hinge_mass_i
      nondimensional_link_stiffness_i nondimensional_force_i temperature_i => ccall
      lib.physics_single_chain_efjc_thermodynamics_isotensional_asymptotic_reduced_nondimensional_gibbs_free_energy_per_link
      [Float64; Float64; Float64; Float64; Float64] link_length_i hinge_mass_i
      nondimensional_link_stiffness_i nondimensional_force_i temperature_i) link_length hinge_mass
      nondimensional_link_stiffness nondimensional_force temperature.

(* /repo/src/physics/single_chain/efjc/thermodynamics/isotensional/asymptotic/reduced/mod.jl:469-491 *)
Definition nondimensional_relative_gibbs_free_energy (number_of_links : jarray Z)
    (nondimensional_link_stiffness : jarray T) (nondimensional_force : jarray T) : result T :=
  broadcast [UInt8; Float64; Float64] (fun number_of_links_i nondimensional_link_stiffness_i
      nondimensional_force_i => ccall
      lib.physics_single_chain_efjc_thermodynamics_isotensional_asymptotic_reduced_nondimensional_relative_gibbs_free_energy
      [UInt8; Float64; Float64] number_of_links_i nondimensional_link_stiffness_i
      nondimensional_force_i) number_of_links nondimensional_link_stiffness nondimensional_force.

(* /repo/src/physics/single_chain/efjc/thermodynamics/isotensional/asymptotic/reduced/mod.jl:504-522 *)
Definition nondimensional_relative_gibbs_free_energy_per_link (nondimensional_link_stiffness :
    jarray T) (nondimensional_force : jarray T) : result T :=
  broadcast [Float64; Float64] (fun nondimensional_link_stiffness_i nondimensional_force_i => ccall
      lib.physics_single_chain_efjc_thermodynamics_isotensional_asymptotic_reduced_nondimensional_relative_gibbs_free_energy_per_link
      [Float64; Float64] nondimensional_link_stiffness_i nondimensional_force_i)
      nondimensional_link_stiffness nondimensional_force.

End Model.
End jl_efjc_isotensional_asymptotic_reduced.

(** /repo/src/physics/single_chain/efjc/thermodynamics/isotensional/asymptotic/reduced/mod.jl: struct EFJC *)
Module J_efjc_isotensional_asymptotic_reduced.
(* /repo/src/physics/single_chain/efjc/thermodynamics/isotensional/asymptotic/reduced/mod.jl:19-88 *)
Record t {T : Type} := {
  number_of_links : Z;
  link_length : T;
  hinge_mass : T;
  link_stiffness : T;
  legendre : J_efjc_isotensional_asymptotic_reduced_legendre.t T;
  end_to_end_length : jarray T -> jarray T -> result T;
  end_to_end_length_per_link : jarray T -> jarray T -> result T;
  nondimensional_end_to_end_length : jarray T -> T -> result T;
  nondimensional_end_to_end_length_per_link : jarray T -> T -> result T;
  gibbs_free_energy : jarray T -> jarray T -> result T;
  gibbs_free_energy_per_link : jarray T -> jarray T -> result T;
  relative_gibbs_free_energy : jarray T -> jarray T -> result T;
  relative_gibbs_free_energy_per_link : jarray T -> jarray T -> result T;
  nondimensional_gibbs_free_energy : jarray T -> T -> result T;
  nondimensional_gibbs_free_energy_per_link : jarray T -> T -> result T;
  nondimensional_relative_gibbs_free_energy : jarray T -> T -> result T;
  nondimensional_relative_gibbs_free_energy_per_link : jarray T -> T -> result T }.
Arguments t : clear implicits.
Section Model.
Context {T : Type} {Sc : Scalar T}.

(* /repo/src/physics/single_chain/efjc/thermodynamics/isotensional/asymptotic/reduced/mod.jl:529-614 *)
Definition init (number_of_links : Z) (link_length : T) (hinge_mass : T) (link_stiffness : T) : t T
    :=
  {| number_of_links := number_of_links;
     link_length := link_length;
     hinge_mass := hinge_mass;
     link_stiffness := link_stiffness;
     legendre := J_efjc_isotensional_asymptotic_reduced_legendre.init number_of_links link_length
       hinge_mass link_stiffness;
     end_to_end_length := fun force temperature =>
       jl_efjc_isotensional_asymptotic_reduced.end_to_end_length (num number_of_links) (num
       link_length) (num link_stiffness) force temperature;
     end_to_end_length_per_link := fun force temperature =>
       jl_efjc_isotensional_asymptotic_reduced.end_to_end_length_per_link (num link_length) (num
       link_stiffness) force temperature;
     nondimensional_end_to_end_length := fun nondimensional_force temperature =>
       jl_efjc_isotensional_asymptotic_reduced.nondimensional_end_to_end_length (num
       number_of_links) (num (link_stiffness * spowi link_length 2 / jl_BOLTZMANN_CONSTANT /
       temperature)) nondimensional_force;
     nondimensional_end_to_end_length_per_link := fun nondimensional_force temperature =>
       jl_efjc_isotensional_asymptotic_reduced.nondimensional_end_to_end_length_per_link (num
       (link_stiffness * spowi link_length 2 / jl_BOLTZMANN_CONSTANT / temperature))
       nondimensional_force;
     gibbs_free_energy := fun force temperature =>
       jl_efjc_isotensional_asymptotic_reduced.gibbs_free_energy (num number_of_links) (num
       link_length) (num hinge_mass) (num link_stiffness) force temperature;
     gibbs_free_energy_per_link := fun force temperature =>
       jl_efjc_isotensional_asymptotic_reduced.gibbs_free_energy_per_link (num link_length) (num
       hinge_mass) (num link_stiffness) force temperature;
     relative_gibbs_free_energy := fun force temperature =>
       jl_efjc_isotensional_asymptotic_reduced.relative_gibbs_free_energy (num number_of_links) (num
       link_length) (num link_stiffness) force temperature;
     relative_gibbs_free_energy_per_link := fun force temperature =>
       jl_efjc_isotensional_asymptotic_reduced.relative_gibbs_free_energy_per_link (num link_length)
       (num link_stiffness) force temperature;
     nondimensional_gibbs_free_energy := fun nondimensional_force temperature =>
       jl_efjc_isotensional_asymptotic_reduced.nondimensional_gibbs_free_energy (num
       number_of_links) (num link_length) (num hinge_mass) (num (link_stiffness * spowi link_length
       2 / jl_BOLTZMANN_CONSTANT / temperature)) nondimensional_force (num temperature);
     nondimensional_gibbs_free_energy_per_link := fun nondimensional_force temperature =>
       jl_efjc_isotensional_asymptotic_reduced.nondimensional_gibbs_free_energy_per_link (num
       link_length) (num hinge_mass) (num (link_stiffness * spowi link_length 2 /
       jl_BOLTZMANN_CONSTANT / temperature)) nondimensional_force (num temperature);
     nondimensional_relative_gibbs_free_energy := fun nondimensional_force temperature =>
       jl_efjc_isotensional_asymptotic_reduced.nondimensional_relative_gibbs_free_energy (num
       number_of_links) (num (link_stiffness * spowi link_length 2 / jl_BOLTZMANN_CONSTANT /
       temperature)) nondimensional_force;
     nondimensional_relative_gibbs_free_energy_per_link := fun nondimensional_force temperature =>
       jl_efjc_isotensional_asymptotic_reduced.nondimensional_relative_gibbs_free_energy_per_link
       (num (link_stiffness * spowi link_length 2 / jl_BOLTZMANN_CONSTANT / temperature))
       nondimensional_force |}.

End Model.
End J_efjc_isotensional_asymptotic_reduced.

(** /repo/src/physics/single_chain/fjc/thermodynamics/modified_canonical/asymptotic/strong_potential/mod.jl *)
Module jl_fjc_modified_canonical_asymptotic_strong_potential.
Section Model.
Context {T : Type} {Sc : Scalar T}.

(* /repo/src/physics/single_chain/fjc/thermodynamics/modified_canonical/asymptotic/strong_potential/mod.jl:76-109 *)
Definition force (prof : profile) (number_of_links : jarray Z) (link_length : jarray T)
    (potential_distance : jarray T) (potential_stiffness : jarray T) (temperature : jarray T) :
    result T :=
  broadcast [UInt8; Float64; Float64; Float64; Float64] (fun number_of_links_i link_length_i
      potential_distance_i potential_stiffness_i temperature_i => ccall
      (lib.physics_single_chain_fjc_thermodynamics_modified_canonical_asymptotic_strong_potential_force
      prof) [UInt8; Float64; Float64; Float64; Float64] number_of_links_i link_length_i
      potential_distance_i potential_stiffness_i temperature_i) number_of_links link_length
      potential_distance potential_stiffness temperature.

(* /repo/src/physics/single_chain/fjc/thermodynamics/modified_canonical/asymptotic/strong_potential/mod.jl:123-148 *)
Definition nondimensional_force (prof : profile) (number_of_links : jarray Z)
    (nondimensional_potential_distance : jarray T) (nondimensional_potential_stiffness : jarray T) :
    result T :=
  broadcast [UInt8; Float64; Float64] (fun number_of_links_i nondimensional_potential_distance_i
      nondimensional_potential_stiffness_i => ccall
      (lib.physics_single_chain_fjc_thermodynamics_modified_canonical_asymptotic_strong_potential_nondimensional_force
      prof) [UInt8; Float64; Float64] number_of_links_i nondimensional_potential_distance_i
      nondimensional_potential_stiffness_i) number_of_links nondimensional_potential_distance
      nondimensional_potential_stiffness.

(* /repo/src/physics/single_chain/fjc/thermodynamics/modified_canonical/asymptotic/strong_potential/mod.jl:156-193 *)
Definition helmholtz_free_energy (prof : profile) (number_of_links : jarray Z) (link_length : jarray
    T) (hinge_mass : jarray T) (potential_distance : jarray T) (potential_stiffness : jarray T)
    (temperature : jarray T) : result T :=
  broadcast [UInt8; Float64; Float64; Float64; Float64; Float64] (fun number_of_links_i
      link_length_i hinge_mass_i potential_distance_i potential_stiffness_i temperature_i => ccall
      (lib.physics_single_chain_fjc_thermodynamics_modified_canonical_asymptotic_strong_potential_helmholtz_free_energy
      prof) [UInt8; Float64; Float64; Float64; Float64; Float64] number_of_links_i link_length_i
      hinge_mass_i potential_distance_i potential_stiffness_i temperature_i) number_of_links
      link_length hinge_mass potential_distance potential_stiffness temperature.

(* /repo/src/physics/single_chain/fjc/thermodynamics/modified_canonical/asymptotic/strong_potential/mod.jl:201-238 *)
Definition helmholtz_free_energy_per_link (prof : profile) (number_of_links : jarray Z) (link_length
    : jarray T) (hinge_mass : jarray T) (potential_distance : jarray T) (potential_stiffness :
    jarray T) (temperature : jarray T) : result T :=
  broadcast [UInt8; Float64; Float64; Float64; Float64; Float64] (fun number_of_links_i
      link_length_i hinge_mass_i potential_distance_i potential_stiffness_i temperature_i => ccall
      (lib.physics_single_chain_fjc_thermodynamics_modified_canonical_asymptotic_strong_potential_helmholtz_free_energy_per_link
      prof) [UInt8; Float64; Float64; Float64; Float64; Float64] number_of_links_i link_length_i
      hinge_mass_i potential_distance_i potential_stiffness_i temperature_i) number_of_links
      link_length hinge_mass potential_distance potential_stiffness temperature.

(* /repo/src/physics/single_chain/fjc/thermodynamics/modified_canonical/asymptotic/strong_potential/mod.jl:246-279 *)
Definition relative_helmholtz_free_energy (prof : profile) (number_of_links : jarray Z) (link_length
    : jarray T) (potential_distance : jarray T) (potential_stiffness : jarray T) (temperature :
    jarray T) : result T :=
  broadcast [UInt8; Float64; Float64; Float64; Float64] (fun number_of_links_i link_length_i
      potential_distance_i potential_stiffness_i temperature_i => ccall
      (lib.physics_single_chain_fjc_thermodynamics_modified_canonical_asymptotic_strong_potential_relative_helmholtz_free_energy
      prof) [UInt8; Float64; Float64; Float64; Float64] number_of_links_i link_length_i
      potential_distance_i potential_stiffness_i temperature_i) number_of_links link_length
      potential_distance potential_stiffness temperature.

(* /repo/src/physics/single_chain/fjc/thermodynamics/modified_canonical/asymptotic/strong_potential/mod.jl:287-320 *)
Definition relative_helmholtz_free_energy_per_link (prof : profile) (number_of_links : jarray Z)
    (link_length : jarray T) (potential_distance : jarray T) (potential_stiffness : jarray T)
    (temperature : jarray T) : result T :=
  broadcast [UInt8; Float64; Float64; Float64; Float64] (fun number_of_links_i link_length_i
      potential_distance_i potential_stiffness_i temperature_i => ccall
      (lib.physics_single_chain_fjc_thermodynamics_modified_canonical_asymptotic_strong_potential_relative_helmholtz_free_energy_per_link
      prof) [UInt8; Float64; Float64; Float64; Float64] number_of_links_i link_length_i
      potential_distance_i potential_stiffness_i temperature_i) number_of_links link_length
      potential_distance potential_stiffness temperature.

(* /repo/src/physics/single_chain/fjc/thermodynamics/modified_canonical/asymptotic/strong_potential/mod.jl:328-365 *)
Definition nondimensional_helmholtz_free_energy (prof : profile) (number_of_links : jarray Z)
    (link_length : jarray T) (hinge_mass : jarray T) (nondimensional_potential_distance : jarray T)
    (nondimensional_potential_stiffness : jarray T) (temperature : jarray T) : result T :=
  broadcast [UInt8; Float64; Float64; Float64; Float64; Float64] (fun number_of_links_i
      link_length_i hinge_mass_i nondimensional_potential_distance_i
      nondimensional_potential_stiffness_i temperature_i => ccall
      (lib.physics_single_chain_fjc_thermodynamics_modified_canonical_asymptotic_strong_potential_nondimensional_helmholtz_free_energy
      prof) [UInt8; Float64; Float64; Float64; Float64; Float64] number_of_links_i link_length_i
      hinge_mass_i nondimensional_potential_distance_i nondimensional_potential_stiffness_i
      temperature_i) number_of_links link_length hinge_mass nondimensional_potential_distance
      nondimensional_potential_stiffness temperature.

(* /repo/src/physics/single_chain/fjc/thermodynamics/modified_canonical/asymptotic/strong_potential/mod.jl:373-410 *)
Definition nondimensional_helmholtz_free_energy_per_link (prof : profile) (number_of_links : jarray
    Z) (link_length : jarray T) (hinge_mass : jarray T) (nondimensional_potential_distance : jarray
    T) (nondimensional_potential_stiffness : jarray T) (temperature : jarray T) : result T :=
  broadcast [UInt8; Float64; Float64; Float64; Float64; Float64] (fun number_of_links_i
      link_length_i hinge_mass_i nondimensional_potential_distance_i
      nondimensional_potential_stiffness_i temperature_i => ccall
      (lib.physics_single_chain_fjc_thermodynamics_modified_canonical_asymptotic_strong_potential_nondimensional_helmholtz_free_energy_per_link
      prof) [UInt8; Float64; Float64; Float64; Float64; Float64] number_of_links_i link_length_i
      hinge_mass_i nondimensional_potential_distance_i nondimensional_potential_stiffness_i
      temperature_i) number_of_links link_length hinge_mass nondimensional_potential_distance
      nondimensional_potential_stiffness temperature.

(* /repo/src/physics/single_chain/fjc/thermodynamics/modified_canonical/asymptotic/strong_potential/mod.jl:418-443 *)
Definition nondimensional_relative_helmholtz_free_energy (prof : profile) (number_of_links : jarray
    Z) (nondimensional_potential_distance : jarray T) (nondimensional_potential_stiffness : jarray
    T) : result T :=
  broadcast [UInt8; Float64; Float64] (fun number_of_links_i nondimensional_potential_distance_i
      nondimensional_potential_stiffness_i => ccall
      (lib.physics_single_chain_fjc_thermodynamics_modified_canonical_asymptotic_strong_potential_nondimensional_relative_helmholtz_free_energy
      prof) [UInt8; Float64; Float64] number_of_links_i nondimensional_potential_distance_i
      nondimensional_potential_stiffness_i) number_of_links nondimensional_potential_distance
      nondimensional_potential_stiffness.

(* /repo/src/physics/single_chain/fjc/thermodynamics/modified_canonical/asymptotic/strong_potential/mod.jl:451-476 *)
Definition nondimensional_relative_helmholtz_free_energy_per_link (prof : profile) (number_of_links
    : jarray Z) (nondimensional_potential_distance : jarray T) (nondimensional_potential_stiffness :
    jarray T) : result T :=
  broadcast [UInt8; Float64; Float64] (fun number_of_links_i nondimensional_potential_distance_i
      nondimensional_potential_stiffness_i => ccall
      (lib.physics_single_chain_fjc_thermodynamics_modified_canonical_asymptotic_strong_potential_nondimensional_relative_helmholtz_free_energy_per_link
      prof) [UInt8; Float64; Float64] number_of_links_i nondimensional_potential_distance_i
      nondimensional_potential_stiffness_i) number_of_links nondimensional_potential_distance
      nondimensional_potential_stiffness.

End Model.
End jl_fjc_modified_canonical_asymptotic_strong_potential.

(** /repo/src/physics/single_chain/fjc/thermodynamics/modified_canonical/asymptotic/strong_potential/mod.jl: struct FJC *)
Module J_fjc_modified_canonical_asymptotic_strong_potential.
(* /repo/src/physics/single_chain/fjc/thermodynamics/modified_canonical/asymptotic/strong_potential/mod.jl:15-68 *)
Record t {T : Type} := {
  number_of_links : Z;
  link_length : T;
  hinge_mass : T;
  force : jarray T -> jarray T -> jarray T -> result T;
  nondimensional_force : jarray T -> jarray T -> result T;
  helmholtz_free_energy : jarray T -> jarray T -> jarray T -> result T;
  helmholtz_free_energy_per_link : jarray T -> jarray T -> jarray T -> result T;
  relative_helmholtz_free_energy : jarray T -> jarray T -> jarray T -> result T;
  relative_helmholtz_free_energy_per_link : jarray T -> jarray T -> jarray T -> result T;
  nondimensional_helmholtz_free_energy : jarray T -> jarray T -> jarray T -> result T;
  nondimensional_helmholtz_free_energy_per_link : jarray T -> jarray T -> jarray T -> result T;
  nondimensional_relative_helmholtz_free_energy : jarray T -> jarray T -> result T;
  nondimensional_relative_helmholtz_free_energy_per_link : jarray T -> jarray T -> result T }.
Arguments t : clear implicits.
Section Model.
Context {T : Type} {Sc : Scalar T}.

(* /repo/src/physics/single_chain/fjc/thermodynamics/modified_canonical/asymptotic/strong_potential/mod.jl:483-571 *)
Definition init (prof : profile) (number_of_links : Z) (link_length : T) (hinge_mass : T) : t T :=
  {| number_of_links := number_of_links;
     link_length := link_length;
     hinge_mass := hinge_mass;
     force := fun potential_distance potential_stiffness temperature =>
       jl_fjc_modified_canonical_asymptotic_strong_potential.force prof (num number_of_links) (num
       link_length) potential_distance potential_stiffness temperature;
     nondimensional_force := fun nondimensional_potential_distance nondimensional_potential_stiffness =>
       jl_fjc_modified_canonical_asymptotic_strong_potential.nondimensional_force prof (num
       number_of_links) nondimensional_potential_distance nondimensional_potential_stiffness;
     helmholtz_free_energy := fun potential_distance potential_stiffness temperature =>
       jl_fjc_modified_canonical_asymptotic_strong_potential.helmholtz_free_energy prof (num
       number_of_links) (num link_length) (num hinge_mass) potential_distance potential_stiffness
       temperature;
     helmholtz_free_energy_per_link := fun potential_distance potential_stiffness temperature =>
       jl_fjc_modified_canonical_asymptotic_strong_potential.helmholtz_free_energy_per_link prof
       (num number_of_links) (num link_length) (num hinge_mass) potential_distance
       potential_stiffness temperature;
     relative_helmholtz_free_energy := fun potential_distance potential_stiffness temperature =>
       jl_fjc_modified_canonical_asymptotic_strong_potential.relative_helmholtz_free_energy prof
       (num number_of_links) (num link_length) potential_distance potential_stiffness temperature;
     relative_helmholtz_free_energy_per_link := fun potential_distance potential_stiffness temperature =>
       jl_fjc_modified_canonical_asymptotic_strong_potential.relative_helmholtz_free_energy_per_link
       prof (num number_of_links) (num link_length) potential_distance potential_stiffness
       temperature;
     nondimensional_helmholtz_free_energy := fun nondimensional_potential_distance
       nondimensional_potential_stiffness temperature =>
       jl_fjc_modified_canonical_asymptotic_strong_potential.nondimensional_helmholtz_free_energy
       prof (num number_of_links) (num link_length) (num hinge_mass)
       nondimensional_potential_distance nondimensional_potential_stiffness temperature;
     nondimensional_helmholtz_free_energy_per_link := fun nondimensional_potential_distance
       nondimensional_potential_stiffness temperature =>
       jl_fjc_modified_canonical_asymptotic_strong_potential.nondimensional_helmholtz_free_energy_per_link
       prof (num number_of_links) (num link_length) (num hinge_mass)
       nondimensional_potential_distance nondimensional_potential_stiffness temperature;
     nondimensional_relative_helmholtz_free_energy := fun nondimensional_potential_distance
       nondimensional_potential_stiffness =>
       jl_fjc_modified_canonical_asymptotic_strong_potential.nondimensional_relative_helmholtz_free_energy
       prof (num number_of_links) nondimensional_potential_distance
       nondimensional_potential_stiffness;
     nondimensional_relative_helmholtz_free_energy_per_link := fun nondimensional_potential_distance
       nondimensional_potential_stiffness =>
       jl_fjc_modified_canonical_asymptotic_strong_potential.nondimensional_relative_helmholtz_free_energy_per_link
       prof (num number_of_links) nondimensional_potential_distance
       nondimensional_potential_stiffness |}.

End Model.
End J_fjc_modified_canonical_asymptotic_strong_potential.

(** /repo/src/physics/single_chain/fjc/thermodynamics/modified_canonical/asymptotic/weak_potential/mod.jl *)
Module jl_fjc_modified_canonical_asymptotic_weak_potential.
Section Model.
Context {T : Type} {Sc : Scalar T}.

(* /repo/src/physics/single_chain/fjc/thermodynamics/modified_canonical/asymptotic/weak_potential/mod.jl:92-125 *)
Definition end_to_end_length (number_of_links : jarray Z) (link_length : jarray T)
    (potential_distance : jarray T) (potential_stiffness : jarray T) (temperature : jarray T) :
    result T :=
  broadcast [UInt8; Float64; Float64; Float64; Float64] (fun number_of_links_i link_length_i
      potential_distance_i potential_stiffness_i temperature_i => ccall
      lib.physics_single_chain_fjc_thermodynamics_modified_canonical_asymptotic_weak_potential_end_to_end_length
      [UInt8; Float64; Float64; Float64; Float64] number_of_links_i link_length_i
      potential_distance_i potential_stiffness_i temperature_i) number_of_links link_length
      potential_distance potential_stiffness temperature.

(* /repo/src/physics/single_chain/fjc/thermodynamics/modified_canonical/asymptotic/weak_potential/mod.jl:133-166 *)
Definition end_to_end_length_per_link (number_of_links : jarray Z) (link_length : jarray T)
    (potential_distance : jarray T) (potential_stiffness : jarray T) (temperature : jarray T) :
    result T :=
  broadcast [UInt8; Float64; Float64; Float64; Float64] (fun number_of_links_i link_length_i
      potential_distance_i potential_stiffness_i temperature_i => ccall
      lib.physics_single_chain_fjc_thermodynamics_modified_canonical_asymptotic_weak_potential_end_to_end_length_per_link
      [UInt8; Float64; Float64; Float64; Float64] number_of_links_i link_length_i
      potential_distance_i potential_stiffness_i temperature_i) number_of_links link_length
      potential_distance potential_stiffness temperature.

(* /repo/src/physics/single_chain/fjc/thermodynamics/modified_canonical/asymptotic/weak_potential/mod.jl:174-199 *)
Definition nondimensional_end_to_end_length (number_of_links : jarray Z)
    (nondimensional_potential_distance : jarray T) (nondimensional_potential_stiffness : jarray T) :
    result T :=
  broadcast [UInt8; Float64; Float64] (fun number_of_links_i nondimensional_potential_distance_i
      nondimensional_potential_stiffness_i => ccall
      lib.physics_single_chain_fjc_thermodynamics_modified_canonical_asymptotic_weak_potential_nondimensional_end_to_end_length
      [UInt8; Float64; Float64] number_of_links_i nondimensional_potential_distance_i
      nondimensional_potential_stiffness_i) number_of_links nondimensional_potential_distance
      nondimensional_potential_stiffness.

(* /repo/src/physics/single_chain/fjc/thermodynamics/modified_canonical/asymptotic/weak_potential/mod.jl:213-238 *)
Definition nondimensional_end_to_end_length_per_link (number_of_links : jarray Z)
    (nondimensional_potential_distance : jarray T) (nondimensional_potential_stiffness : jarray T) :
    result T :=
  broadcast [UInt8; Float64; Float64] (fun number_of_links_i nondimensional_potential_distance_i
      nondimensional_potential_stiffness_i => ccall
      lib.physics_single_chain_fjc_thermodynamics_modified_canonical_asymptotic_weak_potential_nondimensional_end_to_end_length_per_link
      [UInt8; Float64; Float64] number_of_links_i nondimensional_potential_distance_i
      nondimensional_potential_stiffness_i) number_of_links nondimensional_potential_distance
      nondimensional_potential_stiffness.

(* /repo/src/physics/single_chain/fjc/thermodynamics/modified_canonical/asymptotic/weak_potential/mod.jl:245-263 *)
Definition force (potential_distance : jarray T) (potential_stiffness : jarray T) : result T :=
  broadcast [Float64; Float64] (fun potential_distance_i potential_stiffness_i => ccall
      lib.physics_single_chain_fjc_thermodynamics_modified_canonical_asymptotic_weak_potential_force
      [Float64; Float64] potential_distance_i potential_stiffness_i) potential_distance
      potential_stiffness.

(* /repo/src/physics/single_chain/fjc/thermodynamics/modified_canonical/asymptotic/weak_potential/mod.jl:270-295 *)
Definition nondimensional_force (number_of_links : jarray Z) (nondimensional_potential_distance :
    jarray T) (nondimensional_potential_stiffness : jarray T) : result T :=
  broadcast [UInt8; Float64; Float64] (fun number_of_links_i nondimensional_potential_distance_i
      nondimensional_potential_stiffness_i => ccall
      lib.physics_single_chain_fjc_thermodynamics_modified_canonical_asymptotic_weak_potential_nondimensional_force
      [UInt8; Float64; Float64] number_of_links_i nondimensional_potential_distance_i
      nondimensional_potential_stiffness_i) number_of_links nondimensional_potential_distance
      nondimensional_potential_stiffness.

(* /repo/src/physics/single_chain/fjc/thermodynamics/modified_canonical/asymptotic/weak_potential/mod.jl:303-340 *)
Definition gibbs_free_energy (number_of_links : jarray Z) (link_length : jarray T) (hinge_mass :
    jarray T) (potential_distance : jarray T) (potential_stiffness : jarray T) (temperature : jarray
    T) : result T :=
  broadcast [UInt8; Float64; Float64; Float64; Float64; Float64] (fun number_of_links_i
      link_length_i hinge_mass_i potential_distance_i potential_stiffness_i temperature_i => ccall
      lib.physics_single_chain_fjc_thermodynamics_modified_canonical_asymptotic_weak_potential_gibbs_free_energy
      [UInt8; Float64; Float64; Float64; Float64; Float64] number_of_links_i link_length_i
      hinge_mass_i potential_distance_i potential_stiffness_i temperature_i) number_of_links
      link_length hinge_mass potential_distance potential_stiffness temperature.

(* /repo/src/physics/single_chain/fjc/thermodynamics/modified_canonical/asymptotic/weak_potential/mod.jl:348-385 *)
Definition gibbs_free_energy_per_link (number_of_links : jarray Z) (link_length : jarray T)
    (hinge_mass : jarray T) (potential_distance : jarray T) (potential_stiffness : jarray T)
    (temperature : jarray T) : result T :=
  broadcast [UInt8; Float64; Float64; Float64; Float64; Float64] (fun number_of_links_i
      link_length_i hinge_mass_i potential_distance_i potential_stiffness_i temperature_i => ccall
      lib.physics_single_chain_fjc_thermodynamics_modified_canonical_asymptotic_weak_potential_gibbs_free_energy_per_link
      [UInt8; Float64; Float64; Float64; Float64; Float64] number_of_links_i link_length_i
      hinge_mass_i potential_distance_i potential_stiffness_i temperature_i) number_of_links
      link_length hinge_mass potential_distance potential_stiffness temperature.

(* /repo/src/physics/single_chain/fjc/thermodynamics/modified_canonical/asymptotic/weak_potential/mod.jl:393-426 *)
Definition relative_gibbs_free_energy (number_of_links : jarray Z) (link_length : jarray T)
    (potential_distance : jarray T) (potential_stiffness : jarray T) (temperature : jarray T) :
    result T :=
  broadcast [UInt8; Float64; Float64; Float64; Float64] (fun number_of_links_i link_length_i
      potential_distance_i potential_stiffness_i temperature_i => ccall
      lib.physics_single_chain_fjc_thermodynamics_modified_canonical_asymptotic_weak_potential_relative_gibbs_free_energy
      [UInt8; Float64; Float64; Float64; Float64] number_of_links_i link_length_i
      potential_distance_i potential_stiffness_i temperature_i) number_of_links link_length
      potential_distance potential_stiffness temperature.

(* /repo/src/physics/single_chain/fjc/thermodynamics/modified_canonical/asymptotic/weak_potential/mod.jl:434-467 *)
Definition relative_gibbs_free_energy_per_link (number_of_links : jarray Z) (link_length : jarray T)
    (potential_distance : jarray T) (potential_stiffness : jarray T) (temperature : jarray T) :
    result T :=
  broadcast [UInt8; Float64; Float64; Float64; Float64] (fun number_of_links_i link_length_i
      potential_distance_i potential_stiffness_i temperature_i => ccall
      lib.physics_single_chain_fjc_thermodynamics_modified_canonical_asymptotic_weak_potential_relative_gibbs_free_energy_per_link
      [UInt8; Float64; Float64; Float64; Float64] number_of_links_i link_length_i
      potential_distance_i potential_stiffness_i temperature_i) number_of_links link_length
      potential_distance potential_stiffness temperature.

(* /repo/src/physics/single_chain/fjc/thermodynamics/modified_canonical/asymptotic/weak_potential/mod.jl:475-512 *)
Definition nondimensional_gibbs_free_energy (number_of_links : jarray Z) (link_length : jarray T)
    (hinge_mass : jarray T) (nondimensional_potential_distance : jarray T)
    (nondimensional_potential_stiffness : jarray T) (temperature : jarray T) : result T :=
  broadcast [UInt8; Float64; Float64; Float64; Float64; Float64] (fun number_of_links_i
      link_length_i hinge_mass_i nondimensional_potential_distance_i
      nondimensional_potential_stiffness_i temperature_i => ccall
      lib.physics_single_chain_fjc_thermodynamics_modified_canonical_asymptotic_weak_potential_nondimensional_gibbs_free_energy
      [UInt8; Float64; Float64; Float64; Float64; Float64] number_of_links_i link_length_i
      hinge_mass_i nondimensional_potential_distance_i nondimensional_potential_stiffness_i
      temperature_i) number_of_links link_length hinge_mass nondimensional_potential_distance
      nondimensional_potential_stiffness temperature.

(* /repo/src/physics/single_chain/fjc/thermodynamics/modified_canonical/asymptotic/weak_potential/mod.jl:520-557 *)
Definition nondimensional_gibbs_free_energy_per_link (number_of_links : jarray Z) (link_length :
    jarray T) (hinge_mass : jarray T) (nondimensional_potential_distance : jarray T)
    (nondimensional_potential_stiffness : jarray T) (temperature : jarray T) : result T :=
  broadcast [UInt8; Float64; Float64; Float64; Float64; Float64] (fun number_of_links_i
      link_length_i hinge_mass_i nondimensional_potential_distance_i
      nondimensional_potential_stiffness_i temperature_i => ccall
      lib.physics_single_chain_fjc_thermodynamics_modified_canonical_asymptotic_weak_potential_nondimensional_gibbs_free_energy_per_link
      [UInt8; Float64; Float64; Float64; Float64; Float64] number_of_links_i link_length_i
      hinge_mass_i nondimensional_potential_distance_i nondimensional_potential_stiffness_i
      temperature_i) number_of_links link_length hinge_mass nondimensional_potential_distance
      nondimensional_potential_stiffness temperature.

(* /repo/src/physics/single_chain/fjc/thermodynamics/modified_canonical/asymptotic/weak_potential/mod.jl:565-590 *)
Definition nondimensional_relative_gibbs_free_energy (number_of_links : jarray Z)
    (nondimensional_potential_distance : jarray T) (nondimensional_potential_stiffness : jarray T) :
    result T :=
  broadcast [UInt8; Float64; Float64] (fun number_of_links_i nondimensional_potential_distance_i
      nondimensional_potential_stiffness_i => ccall
      lib.physics_single_chain_fjc_thermodynamics_modified_canonical_asymptotic_weak_potential_nondimensional_relative_gibbs_free_energy
      [UInt8; Float64; Float64] number_of_links_i nondimensional_potential_distance_i
      nondimensional_potential_stiffness_i) number_of_links nondimensional_potential_distance
      nondimensional_potential_stiffness.

(* /repo/src/physics/single_chain/fjc/thermodynamics/modified_canonical/asymptotic/weak_potential/mod.jl:598-623 *)
Definition nondimensional_relative_gibbs_free_energy_per_link (number_of_links : jarray Z)
    (nondimensional_potential_distance : jarray T) (nondimensional_potential_stiffness : jarray T) :
    result T :=
  broadcast [UInt8; Float64; Float64] (fun number_of_links_i nondimensional_potential_distance_i
      nondimensional_potential_stiffness_i => ccall
      lib.physics_single_chain_fjc_thermodynamics_modified_canonical_asymptotic_weak_potential_nondimensional_relative_gibbs_free_energy_per_link
      [UInt8; Float64; Float64] number_of_links_i nondimensional_potential_distance_i
      nondimensional_potential_stiffness_i) number_of_links nondimensional_potential_distance
      nondimensional_potential_stiffness.

End Model.
End jl_fjc_modified_canonical_asymptotic_weak_potential.

(** /repo/src/physics/single_chain/fjc/thermodynamics/modified_canonical/asymptotic/weak_potential/mod.jl: struct FJC *)
Module J_fjc_modified_canonical_asymptotic_weak_potential.
(* /repo/src/physics/single_chain/fjc/thermodynamics/modified_canonical/asymptotic/weak_potential/mod.jl:15-84 *)
Record t {T : Type} := {
  number_of_links : Z;
  link_length : T;
  hinge_mass : T;
  end_to_end_length : jarray T -> jarray T -> jarray T -> result T;
  end_to_end_length_per_link : jarray T -> jarray T -> jarray T -> result T;
  nondimensional_end_to_end_length : jarray T -> jarray T -> result T;
  nondimensional_end_to_end_length_per_link : jarray T -> jarray T -> result T;
  force : jarray T -> jarray T -> result T;
  nondimensional_force : jarray T -> jarray T -> result T;
  gibbs_free_energy : jarray T -> jarray T -> jarray T -> result T;
  gibbs_free_energy_per_link : jarray T -> jarray T -> jarray T -> result T;
  relative_gibbs_free_energy : jarray T -> jarray T -> jarray T -> result T;
  relative_gibbs_free_energy_per_link : jarray T -> jarray T -> jarray T -> result T;
  nondimensional_gibbs_free_energy : jarray T -> jarray T -> jarray T -> result T;
  nondimensional_gibbs_free_energy_per_link : jarray T -> jarray T -> jarray T -> result T;
  nondimensional_relative_gibbs_free_energy : jarray T -> jarray T -> result T;
  nondimensional_relative_gibbs_free_energy_per_link : jarray T -> jarray T -> result T }.
Arguments t : clear implicits.
Section Model.
Context {T : Type} {Sc : Scalar T}.

(* /repo/src/physics/single_chain/fjc/thermodynamics/modified_canonical/asymptotic/weak_potential/mod.jl:630-740 *)
Definition init (number_of_links : Z) (link_length : T) (hinge_mass : T) : t T :=
  {| number_of_links := number_of_links;
     link_length := link_length;
     hinge_mass := hinge_mass;
     end_to_end_length := fun potential_distance potential_stiffness temperature =>
       jl_fjc_modified_canonical_asymptotic_weak_potential.end_to_end_length (num number_of_links)
       (num link_length) potential_distance potential_stiffness temperature;
     end_to_end_length_per_link := fun potential_distance potential_stiffness temperature =>
       jl_fjc_modified_canonical_asymptotic_weak_potential.end_to_end_length_per_link (num
       number_of_links) (num link_length) potential_distance potential_stiffness temperature;
     nondimensional_end_to_end_length := fun nondimensional_potential_distance
       nondimensional_potential_stiffness =>
       jl_fjc_modified_canonical_asymptotic_weak_potential.nondimensional_end_to_end_length (num
       number_of_links) nondimensional_potential_distance nondimensional_potential_stiffness;
     nondimensional_end_to_end_length_per_link := fun nondimensional_potential_distance
       nondimensional_potential_stiffness =>
       jl_fjc_modified_canonical_asymptotic_weak_potential.nondimensional_end_to_end_length_per_link
       (num number_of_links) nondimensional_potential_distance nondimensional_potential_stiffness;
     force := fun potential_distance potential_stiffness =>
       jl_fjc_modified_canonical_asymptotic_weak_potential.force potential_distance
       potential_stiffness;
     nondimensional_force := fun nondimensional_potential_distance nondimensional_potential_stiffness =>
       jl_fjc_modified_canonical_asymptotic_weak_potential.nondimensional_force (num
       number_of_links) nondimensional_potential_distance nondimensional_potential_stiffness;
     gibbs_free_energy := fun potential_distance potential_stiffness temperature =>
       jl_fjc_modified_canonical_asymptotic_weak_potential.gibbs_free_energy (num number_of_links)
       (num link_length) (num hinge_mass) potential_distance potential_stiffness temperature;
     gibbs_free_energy_per_link := fun potential_distance potential_stiffness temperature =>
       jl_fjc_modified_canonical_asymptotic_weak_potential.gibbs_free_energy_per_link (num
       number_of_links) (num link_length) (num hinge_mass) potential_distance potential_stiffness
       temperature;
     relative_gibbs_free_energy := fun potential_distance potential_stiffness temperature =>
       jl_fjc_modified_canonical_asymptotic_weak_potential.relative_gibbs_free_energy (num
       number_of_links) (num link_length) potential_distance potential_stiffness temperature;
     relative_gibbs_free_energy_per_link := fun potential_distance potential_stiffness temperature =>
       jl_fjc_modified_canonical_asymptotic_weak_potential.relative_gibbs_free_energy_per_link (num
       number_of_links) (num link_length) potential_distance potential_stiffness temperature;
     nondimensional_gibbs_free_energy := fun nondimensional_potential_distance
       nondimensional_potential_stiffness temperature =>
       jl_fjc_modified_canonical_asymptotic_weak_potential.nondimensional_gibbs_free_energy (num
       number_of_links) (num link_length) (num hinge_mass) nondimensional_potential_distance
       nondimensional_potential_stiffness temperature;
     nondimensional_gibbs_free_energy_per_link := fun nondimensional_potential_distance
       nondimensional_potential_stiffness temperature =>
       jl_fjc_modified_canonical_asymptotic_weak_potential.nondimensional_gibbs_free_energy_per_link
       (num number_of_links) (num link_length) (num hinge_mass) nondimensional_potential_distance
       nondimensional_potential_stiffness temperature;
     nondimensional_relative_gibbs_free_energy := fun nondimensional_potential_distance
       nondimensional_potential_stiffness =>
       jl_fjc_modified_canonical_asymptotic_weak_potential.nondimensional_relative_gibbs_free_energy
       (num number_of_links) nondimensional_potential_distance nondimensional_potential_stiffness;
     nondimensional_relative_gibbs_free_energy_per_link := fun nondimensional_potential_distance
       nondimensional_potential_stiffness =>
       jl_fjc_modified_canonical_asymptotic_weak_potential.nondimensional_relative_gibbs_free_energy_per_link
       (num number_of_links) nondimensional_potential_distance nondimensional_potential_stiffness |}.

End Model.
End J_fjc_modified_canonical_asymptotic_weak_potential.

(** /repo/src/physics/single_chain/ufjc/lennard_jones/thermodynamics/isometric/asymptotic/mod.jl: struct LENNARDJONESFJC *)
Module J_lennard_jones_isometric_asymptotic.
(* /repo/src/physics/single_chain/ufjc/lennard_jones/thermodynamics/isometric/asymptotic/mod.jl:17-42 *)
Record t {T : Type} := {
  number_of_links : Z;
  link_length : T;
  hinge_mass : T;
  link_stiffness : T;
  reduced : J_lennard_jones_isometric_asymptotic_reduced.t T;
  legendre : J_lennard_jones_isometric_asymptotic_legendre.t T }.
Arguments t : clear implicits.
Section Model.
Context {T : Type} {Sc : Scalar T}.

(* /repo/src/physics/single_chain/ufjc/lennard_jones/thermodynamics/isometric/asymptotic/mod.jl:49-63 *)
Definition init (number_of_links : Z) (link_length : T) (hinge_mass : T) (link_stiffness : T) : t T
    :=
  {| number_of_links := number_of_links;
     link_length := link_length;
     hinge_mass := hinge_mass;
     link_stiffness := link_stiffness;
     reduced := J_lennard_jones_isometric_asymptotic_reduced.init number_of_links link_length hinge_mass
       link_stiffness;
     legendre := J_lennard_jones_isometric_asymptotic_legendre.init number_of_links link_length
       hinge_mass link_stiffness |}.

End Model.
End J_lennard_jones_isometric_asymptotic.

(** /repo/src/physics/single_chain/ufjc/lennard_jones/thermodynamics/isotensional/asymptotic/mod.jl *)
Module jl_lennard_jones_isotensional_asymptotic.
Section Model.
Context {T : Type} {Sc : Scalar T}.

(* /repo/src/physics/single_chain/ufjc/lennard_jones/thermodynamics/isotensional/asymptotic/mod.jl:105-133 *)
Definition end_to_end_length (number_of_links : jarray Z) (link_length : jarray T) (link_stiffness :
    jarray T) (force : jarray T) (temperature : jarray T) : result T :=
  broadcast [UInt8; Float64; Float64; Float64; Float64] (fun number_of_links_i link_length_i
      link_stiffness_i force_i temperature_i => ccall
      lib.physics_single_chain_ufjc_lennard_jones_thermodynamics_isotensional_asymptotic_end_to_end_length
      [UInt8; Float64; Float64; Float64; Float64] number_of_links_i link_length_i link_stiffness_i
      force_i temperature_i) number_of_links link_length link_stiffness force temperature.

(* /repo/src/physics/single_chain/ufjc/lennard_jones/thermodynamics/isotensional/asymptotic/mod.jl:141-165 *)
Definition end_to_end_length_per_link (link_length : jarray T) (link_stiffness : jarray T) (force :
    jarray T) (temperature : jarray T) : result T :=
  broadcast [Float64; Float64; Float64; Float64] (fun link_length_i link_stiffness_i force_i
      temperature_i => ccall
      lib.physics_single_chain_ufjc_lennard_jones_thermodynamics_isotensional_asymptotic_end_to_end_length_per_link
      [Float64; Float64; Float64; Float64] link_length_i link_stiffness_i force_i temperature_i)
      link_length link_stiffness force temperature.

(* /repo/src/physics/single_chain/ufjc/lennard_jones/thermodynamics/isotensional/asymptotic/mod.jl:173-195 *)
Definition nondimensional_end_to_end_length (number_of_links : jarray Z)
    (nondimensional_link_stiffness : jarray T) (nondimensional_force : jarray T) : result T :=
  broadcast [UInt8; Float64; Float64] (fun number_of_links_i nondimensional_link_stiffness_i
      nondimensional_force_i => ccall
      lib.physics_single_chain_ufjc_lennard_jones_thermodynamics_isotensional_asymptotic_nondimensional_end_to_end_length
      [UInt8; Float64; Float64] number_of_links_i nondimensional_link_stiffness_i
      nondimensional_force_i) number_of_links nondimensional_link_stiffness nondimensional_force.

(* /repo/src/physics/single_chain/ufjc/lennard_jones/thermodynamics/isotensional/asymptotic/mod.jl:214-232 *)
Definition nondimensional_end_to_end_length_per_link (nondimensional_link_stiffness_i : jarray T)
    (nondimensional_force : jarray T) : result T :=
  broadcast [Float64; Float64] (fun nondimensional_link_stiffness_i nondimensional_force_i => ccall
      lib.physics_single_chain_ufjc_lennard_jones_thermodynamics_isotensional_asymptotic_nondimensional_end_to_end_length_per_link
      [Float64; Float64] nondimensional_link_stiffness_i nondimensional_force_i)
      nondimensional_link_stiffness_i nondimensional_force.

(* /repo/src/physics/single_chain/ufjc/lennard_jones/thermodynamics/isotensional/asymptotic/mod.jl:244-281 *)
Definition gibbs_free_energy (number_of_links : jarray Z) (link_length : jarray T) (hinge_mass :
    jarray T) (link_stiffness : jarray T) (force : jarray T) (temperature : jarray T) : result T :=
  broadcast [UInt8; Float64; Float64; Float64; Float64; Float64] (fun number_of_links_i
      link_length_i hinge_mass_i link_stiffness_i force_i temperature_i => ccall
      lib.physics_single_chain_ufjc_lennard_jones_thermodynamics_isotensional_asymptotic_gibbs_free_energy
      [UInt8; Float64; Float64; Float64; Float64; Float64] number_of_links_i link_length_i
      hinge_mass_i link_stiffness_i force_i temperature_i) number_of_links link_length hinge_mass
      link_stiffness force temperature.

(* /repo/src/physics/single_chain/ufjc/lennard_jones/thermodynamics/isotensional/asymptotic/mod.jl:289-316 *)
Definition gibbs_free_energy_per_link (link_length : jarray T) (hinge_mass : jarray T)
    (link_stiffness : jarray T) (force : jarray T) (temperature : jarray T) : result T :=
  broadcast [Float64; Float64; Float64; Float64; Float64] (fun link_length_i hinge_mass_i
      link_stiffness_i force_i temperature_i => ccall
      lib.physics_single_chain_ufjc_lennard_jones_thermodynamics_isotensional_asymptotic_gibbs_free_energy_per_link
      [Float64; Float64; Float64; Float64; Float64] link_length_i hinge_mass_i link_stiffness_i
      force_i temperature_i) link_length hinge_mass link_stiffness force temperature.

(* /repo/src/physics/single_chain/ufjc/lennard_jones/thermodynamics/isotensional/asymptotic/mod.jl:324-352 *)
Definition relative_gibbs_free_energy (number_of_links : jarray Z) (link_length : jarray T)
    (link_stiffness : jarray T) (force : jarray T) (temperature : jarray T) : result T :=
  broadcast [UInt8; Float64; Float64; Float64; Float64] (fun number_of_links_i link_length_i
      link_stiffness_i force_i temperature_i => ccall
      lib.physics_single_chain_ufjc_lennard_jones_thermodynamics_isotensional_asymptotic_relative_gibbs_free_energy
      [UInt8; Float64; Float64; Float64; Float64] number_of_links_i link_length_i link_stiffness_i
      force_i temperature_i) number_of_links link_length link_stiffness force temperature.

(* /repo/src/physics/single_chain/ufjc/lennard_jones/thermodynamics/isotensional/asymptotic/mod.jl:360-384 *)
Definition relative_gibbs_free_energy_per_link (link_length : jarray T) (link_stiffness : jarray T)
    (force : jarray T) (temperature : jarray T) : result T :=
  broadcast [Float64; Float64; Float64; Float64] (fun link_length_i link_stiffness_i force_i
      temperature_i => ccall
      lib.physics_single_chain_ufjc_lennard_jones_thermodynamics_isotensional_asymptotic_relative_gibbs_free_energy_per_link
      [Float64; Float64; Float64; Float64] link_length_i link_stiffness_i force_i temperature_i)
      link_length link_stiffness force temperature.

(* /repo/src/physics/single_chain/ufjc/lennard_jones/thermodynamics/isotensional/asymptotic/mod.jl:392-429 *)
Definition nondimensional_gibbs_free_energy (number_of_links : jarray Z) (link_length : jarray T)
    (hinge_mass : jarray T) (nondimensional_link_stiffness : jarray T) (nondimensional_force :
    jarray T) (temperature : jarray T) : result T :=
  broadcast [UInt8; Float64; Float64; Float64; Float64; Float64] (fun number_of_links_i
      link_length_i hinge_mass_i nondimensional_link_stiffness_i nondimensional_force_i
      temperature_i => ccall
      lib.physics_single_chain_ufjc_lennard_jones_thermodynamics_isotensional_asymptotic_nondimensional_gibbs_free_energy
      [UInt8; Float64; Float64; Float64; Float64; Float64] number_of_links_i link_length_i
      hinge_mass_i nondimensional_link_stiffness_i nondimensional_force_i temperature_i)
      number_of_links link_length hinge_mass nondimensional_link_stiffness nondimensional_force
      temperature.

(* /repo/src/physics/single_chain/ufjc/lennard_jones/thermodynamics/isotensional/asymptotic/mod.jl:437-470 *)
Definition nondimensional_gibbs_free_energy_per_link (link_length : jarray T) (hinge_mass : jarray
    T) (nondimensional_link_stiffness : jarray T) (nondimensional_force : jarray T) (temperature :
    jarray T) : result T :=
  broadcast [Float64; Float64; Float64; Float64; Float64] (fun link_length_i hinge_mass_i
      nondimensional_link_stiffness_i nondimensional_force_i temperature_i => ccall
      lib.physics_single_chain_ufjc_lennard_jones_thermodynamics_isotensional_asymptotic_nondimensional_gibbs_free_energy_per_link
      [Float64; Float64; Float64; Float64; Float64] link_length_i hinge_mass_i
      nondimensional_link_stiffness_i nondimensional_force_i temperature_i) link_length hinge_mass
      nondimensional_link_stiffness nondimensional_force temperature.

(* /repo/src/physics/single_chain/ufjc/lennard_jones/thermodynamics/isotensional/asymptotic/mod.jl:478-500 *)
Definition nondimensional_relative_gibbs_free_energy (number_of_links : jarray Z)
    (nondimensional_link_stiffness : jarray T) (nondimensional_force : jarray T) : result T :=
  broadcast [UInt8; Float64; Float64] (fun number_of_links_i nondimensional_link_stiffness_i
      nondimensional_force_i => ccall
      lib.physics_single_chain_ufjc_lennard_jones_thermodynamics_isotensional_asymptotic_nondimensional_relative_gibbs_free_energy
      [UInt8; Float64; Float64] number_of_links_i nondimensional_link_stiffness_i
      nondimensional_force_i) number_of_links nondimensional_link_stiffness nondimensional_force.

(* /repo/src/physics/single_chain/ufjc/lennard_jones/thermodynamics/isotensional/asymptotic/mod.jl:521-539 *)
Definition nondimensional_relative_gibbs_free_energy_per_link (nondimensional_link_stiffness :
    jarray T) (nondimensional_force : jarray T) : result T :=
  broadcast [Float64; Float64] (fun nondimensional_link_stiffness_i nondimensional_force_i => ccall
      lib.physics_single_chain_ufjc_lennard_jones_thermodynamics_isotensional_asymptotic_nondimensional_relative_gibbs_free_energy_per_link
      [Float64; Float64] nondimensional_link_stiffness_i nondimensional_force_i)
      nondimensional_link_stiffness nondimensional_force.

End Model.
End jl_lennard_jones_isotensional_asymptotic.

(** /repo/src/physics/single_chain/ufjc/lennard_jones/thermodynamics/isotensional/asymptotic/mod.jl: struct LENNARDJONESFJC *)
Module J_lennard_jones_isotensional_asymptotic.
(* /repo/src/physics/single_chain/ufjc/lennard_jones/thermodynamics/isotensional/asymptotic/mod.jl:20-93 *)
Record t {T : Type} := {
  number_of_links : Z;
  link_length : T;
  hinge_mass : T;
  link_stiffness : T;
  reduced : J_lennard_jones_isotensional_asymptotic_reduced.t T;
  legendre : J_lennard_jones_isotensional_asymptotic_legendre.t T;
  end_to_end_length : jarray T -> jarray T -> result T;
  end_to_end_length_per_link : jarray T -> jarray T -> result T;
  nondimensional_end_to_end_length : jarray T -> T -> result T;
  nondimensional_end_to_end_length_per_link : jarray T -> T -> result T;
  gibbs_free_energy : jarray T -> jarray T -> result T;
  gibbs_free_energy_per_link : jarray T -> jarray T -> result T;
  relative_gibbs_free_energy : jarray T -> jarray T -> result T;
  relative_gibbs_free_energy_per_link : jarray T -> jarray T -> result T;
  nondimensional_gibbs_free_energy : jarray T -> T -> result T;
  nondimensional_gibbs_free_energy_per_link : jarray T -> T -> result T;
  nondimensional_relative_gibbs_free_energy : jarray T -> T -> result T;
  nondimensional_relative_gibbs_free_energy_per_link : jarray T -> T -> result T }.
Arguments t : clear implicits.
Section Model.
Context {T : Type} {Sc : Scalar T}.

(* /repo/src/physics/single_chain/ufjc/lennard_jones/thermodynamics/isotensional/asymptotic/mod.jl:546-632 *)
Definition init (number_of_links : Z) (link_length : T) (hinge_mass : T) (link_stiffness : T) : t T
    :=
  {| number_of_links := number_of_links;
     link_length := link_length;
     hinge_mass := hinge_mass;
     link_stiffness := link_stiffness;
     reduced := J_lennard_jones_isotensional_asymptotic_reduced.init number_of_links link_length
       hinge_mass link_stiffness;
     legendre := J_lennard_jones_isotensional_asymptotic_legendre.init number_of_links link_length
       hinge_mass link_stiffness;
     end_to_end_length := fun force temperature =>
       jl_lennard_jones_isotensional_asymptotic.end_to_end_length (num number_of_links) (num
       link_length) (num link_stiffness) force temperature;
     end_to_end_length_per_link := fun force temperature =>
       jl_lennard_jones_isotensional_asymptotic.end_to_end_length_per_link (num link_length) (num
       link_stiffness) force temperature;
     nondimensional_end_to_end_length := fun nondimensional_force temperature =>
       jl_lennard_jones_isotensional_asymptotic.nondimensional_end_to_end_length (num
       number_of_links) (num (link_stiffness * spowi link_length 2 / jl_BOLTZMANN_CONSTANT /
       temperature)) nondimensional_force;
     nondimensional_end_to_end_length_per_link := fun nondimensional_force temperature =>
       jl_lennard_jones_isotensional_asymptotic.nondimensional_end_to_end_length_per_link (num
       (link_stiffness * spowi link_length 2 / jl_BOLTZMANN_CONSTANT / temperature))
       nondimensional_force;
     gibbs_free_energy := fun force temperature =>
       jl_lennard_jones_isotensional_asymptotic.gibbs_free_energy (num number_of_links) (num
       link_length) (num hinge_mass) (num link_stiffness) force temperature;
     gibbs_free_energy_per_link := fun force temperature =>
       jl_lennard_jones_isotensional_asymptotic.gibbs_free_energy_per_link (num link_length) (num
       hinge_mass) (num link_stiffness) force temperature;
     relative_gibbs_free_energy := fun force temperature =>
       jl_lennard_jones_isotensional_asymptotic.relative_gibbs_free_energy (num number_of_links)
       (num link_length) (num link_stiffness) force temperature;
     relative_gibbs_free_energy_per_link := fun force temperature =>
       jl_lennard_jones_isotensional_asymptotic.relative_gibbs_free_energy_per_link (num
       link_length) (num link_stiffness) force temperature;
     nondimensional_gibbs_free_energy := fun nondimensional_force temperature =>
       jl_lennard_jones_isotensional_asymptotic.nondimensional_gibbs_free_energy (num
       number_of_links) (num link_length) (num hinge_mass) (num (link_stiffness * spowi link_length
       2 / jl_BOLTZMANN_CONSTANT / temperature)) nondimensional_force (num temperature);
     nondimensional_gibbs_free_energy_per_link := fun nondimensional_force temperature =>
       jl_lennard_jones_isotensional_asymptotic.nondimensional_gibbs_free_energy_per_link (num
       link_length) (num hinge_mass) (num (link_stiffness * spowi link_length 2 /
       jl_BOLTZMANN_CONSTANT / temperature)) nondimensional_force (num temperature);
     nondimensional_relative_gibbs_free_energy := fun nondimensional_force temperature =>
       jl_lennard_jones_isotensional_asymptotic.nondimensional_relative_gibbs_free_energy (num
       number_of_links) (num (link_stiffness * spowi link_length 2 / jl_BOLTZMANN_CONSTANT /
       temperature)) nondimensional_force;
     nondimensional_relative_gibbs_free_energy_per_link := fun nondimensional_force temperature =>
       jl_lennard_jones_isotensional_asymptotic.nondimensional_relative_gibbs_free_energy_per_link
       (num (link_stiffness * spowi link_length 2 / jl_BOLTZMANN_CONSTANT / temperature))
       nondimensional_force |}.

End Model.
End J_lennard_jones_isotensional_asymptotic.

(** /repo/src/physics/single_chain/ufjc/lennard_jones/thermodynamics/isotensional/legendre/mod.jl *)
Module jl_lennard_jones_isotensional_legendre.
Section Model.
Context {T : Type} {Sc : Scalar T}.

(* /repo/src/physics/single_chain/ufjc/lennard_jones/thermodynamics/isotensional/legendre/mod.jl:78-115 *)
Definition helmholtz_free_energy (number_of_links : jarray Z) (link_length : jarray T) (hinge_mass :
    jarray T) (link_stiffness : jarray T) (force : jarray T) (temperature : jarray T) : result T :=
  broadcast [UInt8; Float64; Float64; Float64; Float64; Float64] (fun number_of_links_i
      link_length_i hinge_mass_i link_stiffness_i force_i temperature_i => ccall
      lib.physics_single_chain_ufjc_lennard_jones_thermodynamics_isotensional_legendre_helmholtz_free_energy
      [UInt8; Float64; Float64; Float64; Float64; Float64] number_of_links_i link_length_i
      hinge_mass_i link_stiffness_i force_i temperature_i) number_of_links link_length hinge_mass
      link_stiffness force temperature.

(* /repo/src/physics/single_chain/ufjc/lennard_jones/thermodynamics/isotensional/legendre/mod.jl:123-150 *)
Definition helmholtz_free_energy_per_link (link_length : jarray T) (hinge_mass : jarray T)
    (link_stiffness : jarray T) (force : jarray T) (temperature : jarray T) : result T :=
  broadcast [Float64; Float64; Float64; Float64; Float64] (fun link_length_i hinge_mass_i
      link_stiffness_i force_i temperature_i => ccall
      lib.physics_single_chain_ufjc_lennard_jones_thermodynamics_isotensional_legendre_helmholtz_free_energy_per_link
      [Float64; Float64; Float64; Float64; Float64] link_length_i hinge_mass_i link_stiffness_i
      force_i temperature_i) link_length hinge_mass link_stiffness force temperature.

(* /repo/src/physics/single_chain/ufjc/lennard_jones/thermodynamics/isotensional/legendre/mod.jl:158-186 *)
Definition relative_helmholtz_free_energy (number_of_links : jarray Z) (link_length : jarray T)
    (link_stiffness : jarray T) (force : jarray T) (temperature : jarray T) : result T :=
  broadcast [UInt8; Float64; Float64; Float64; Float64] (fun number_of_links_i link_length_i
      link_stiffness_i force_i temperature_i => ccall
      lib.physics_single_chain_ufjc_lennard_jones_thermodynamics_isotensional_legendre_relative_helmholtz_free_energy
      [UInt8; Float64; Float64; Float64; Float64] number_of_links_i link_length_i link_stiffness_i
      force_i temperature_i) number_of_links link_length link_stiffness force temperature.

(* /repo/src/physics/single_chain/ufjc/lennard_jones/thermodynamics/isotensional/legendre/mod.jl:194-218 *)
Definition relative_helmholtz_free_energy_per_link (link_length : jarray T) (link_stiffness : jarray
    T) (force : jarray T) (temperature : jarray T) : result T :=
  broadcast [Float64; Float64; Float64; Float64] (fun link_length_i link_stiffness_i force_i
      temperature_i => ccall
      lib.physics_single_chain_ufjc_lennard_jones_thermodynamics_isotensional_legendre_relative_helmholtz_free_energy_per_link
      [Float64; Float64; Float64; Float64] link_length_i link_stiffness_i force_i temperature_i)
      link_length link_stiffness force temperature.

(* /repo/src/physics/single_chain/ufjc/lennard_jones/thermodynamics/isotensional/legendre/mod.jl:226-263 *)
Definition nondimensional_helmholtz_free_energy (number_of_links : jarray Z) (link_length : jarray
    T) (hinge_mass : jarray T) (nondimensional_link_stiffness : jarray T) (nondimensional_force :
    jarray T) (temperature : jarray T) : result T :=
  broadcast [UInt8; Float64; Float64; Float64; Float64; Float64] (fun number_of_links_i
      link_length_i hinge_mass_i nondimensional_link_stiffness_i nondimensional_force_i
      temperature_i => ccall
      lib.physics_single_chain_ufjc_lennard_jones_thermodynamics_isotensional_legendre_nondimensional_helmholtz_free_energy
      [UInt8; Float64; Float64; Float64; Float64; Float64] number_of_links_i link_length_i
      hinge_mass_i nondimensional_link_stiffness_i nondimensional_force_i temperature_i)
      number_of_links link_length hinge_mass nondimensional_link_stiffness nondimensional_force
      temperature.

(* /repo/src/physics/single_chain/ufjc/lennard_jones/thermodynamics/isotensional/legendre/mod.jl:271-304 *)
Definition nondimensional_helmholtz_free_energy_per_link (link_length : jarray T) (hinge_mass :
    jarray T) (nondimensional_link_stiffness : jarray T) (nondimensional_force : jarray T)
    (temperature : jarray T) : result T :=
  broadcast [Float64; Float64; Float64; Float64; Float64] (fun link_length_i hinge_mass_i
      link_stiffness_i nondimensional_force_i temperature_i => ccall
      lib.physics_single_chain_ufjc_lennard_jones_thermodynamics_isotensional_legendre_nondimensional_helmholtz_free_energy_per_link
      [Float64; Float64; Float64; Float64; Float64] link_length_i hinge_mass_i link_stiffness_i
      nondimensional_force_i temperature_i) link_length hinge_mass nondimensional_link_stiffness
      nondimensional_force temperature.

(* /repo/src/physics/single_chain/ufjc/lennard_jones/thermodynamics/isotensional/legendre/mod.jl:312-334 *)
Definition nondimensional_relative_helmholtz_free_energy (number_of_links : jarray Z)
    (nondimensional_link_stiffness : jarray T) (nondimensional_force : jarray T) : result T :=
  broadcast [UInt8; Float64; Float64] (fun number_of_links_i nondimensional_link_stiffness_i
      nondimensional_force_i => ccall
      lib.physics_single_chain_ufjc_lennard_jones_thermodynamics_isotensional_legendre_nondimensional_relative_helmholtz_free_energy
      [UInt8; Float64; Float64] number_of_links_i nondimensional_link_stiffness_i
      nondimensional_force_i) number_of_links nondimensional_link_stiffness nondimensional_force.

(* /repo/src/physics/single_chain/ufjc/lennard_jones/thermodynamics/isotensional/legendre/mod.jl:342-360 *)
Definition nondimensional_relative_helmholtz_free_energy_per_link (nondimensional_link_stiffness :
    jarray T) (nondimensional_force : jarray T) : result T :=
  broadcast [Float64; Float64] (fun nondimensional_link_stiffness_i nondimensional_force_i => ccall
      lib.physics_single_chain_ufjc_lennard_jones_thermodynamics_isotensional_legendre_nondimensional_relative_helmholtz_free_energy_per_link
      [Float64; Float64] nondimensional_link_stiffness_i nondimensional_force_i)
      nondimensional_link_stiffness nondimensional_force.

End Model.
End jl_lennard_jones_isotensional_legendre.

(** /repo/src/physics/single_chain/ufjc/lennard_jones/thermodynamics/isotensional/legendre/mod.jl: struct LENNARDJONESFJC *)
Module J_lennard_jones_isotensional_legendre.
(* /repo/src/physics/single_chain/ufjc/lennard_jones/thermodynamics/isotensional/legendre/mod.jl:17-66 *)
Record t {T : Type} := {
  number_of_links : Z;
  link_length : T;
  hinge_mass : T;
  link_stiffness : T;
  helmholtz_free_energy : jarray T -> jarray T -> result T;
  helmholtz_free_energy_per_link : jarray T -> jarray T -> result T;
  relative_helmholtz_free_energy : jarray T -> jarray T -> result T;
  relative_helmholtz_free_energy_per_link : jarray T -> jarray T -> result T;
  nondimensional_helmholtz_free_energy : jarray T -> T -> result T;
  nondimensional_helmholtz_free_energy_per_link : jarray T -> T -> result T;
  nondimensional_relative_helmholtz_free_energy : jarray T -> T -> result T;
  nondimensional_relative_helmholtz_free_energy_per_link : jarray T -> T -> result T }.
Arguments t : clear implicits.
Section Model.
Context {T : Type} {Sc : Scalar T}.

(* /repo/src/physics/single_chain/ufjc/lennard_jones/thermodynamics/isotensional/legendre/mod.jl:367-435 *)
Definition init (number_of_links : Z) (link_length : T) (hinge_mass : T) (link_stiffness : T) : t T
    :=
  {| number_of_links := number_of_links;
     link_length := link_length;
     hinge_mass := hinge_mass;
     link_stiffness := link_stiffness;
     helmholtz_free_energy := fun force temperature =>
       jl_lennard_jones_isotensional_legendre.helmholtz_free_energy (num number_of_links) (num
       link_length) (num hinge_mass) (num link_stiffness) force temperature;
     helmholtz_free_energy_per_link := fun force temperature =>
       jl_lennard_jones_isotensional_legendre.helmholtz_free_energy_per_link (num link_length) (num
       hinge_mass) (num link_stiffness) force temperature;
     relative_helmholtz_free_energy := fun force temperature =>
       jl_lennard_jones_isotensional_legendre.relative_helmholtz_free_energy (num number_of_links)
       (num link_length) (num link_stiffness) force temperature;
     relative_helmholtz_free_energy_per_link := fun force temperature =>
       jl_lennard_jones_isotensional_legendre.relative_helmholtz_free_energy_per_link (num
       link_length) (num link_stiffness) force temperature;
     nondimensional_helmholtz_free_energy := fun nondimensional_force temperature =>
       jl_lennard_jones_isotensional_legendre.nondimensional_helmholtz_free_energy (num
       number_of_links) (num link_length) (num hinge_mass) (num (link_stiffness * spowi link_length
       2 / jl_BOLTZMANN_CONSTANT / temperature)) nondimensional_force (num temperature);
     nondimensional_helmholtz_free_energy_per_link := fun nondimensional_force temperature =>
       jl_lennard_jones_isotensional_legendre.nondimensional_helmholtz_free_energy_per_link (num
       link_length) (num hinge_mass) (num (link_stiffness * spowi link_length 2 /
       jl_BOLTZMANN_CONSTANT / temperature)) nondimensional_force (num temperature);
     nondimensional_relative_helmholtz_free_energy := fun nondimensional_force temperature =>
       jl_lennard_jones_isotensional_legendre.nondimensional_relative_helmholtz_free_energy (num
       number_of_links) (num (link_stiffness * spowi link_length 2 / jl_BOLTZMANN_CONSTANT /
       temperature)) nondimensional_force;
     nondimensional_relative_helmholtz_free_energy_per_link := fun nondimensional_force temperature =>
       jl_lennard_jones_isotensional_legendre.nondimensional_relative_helmholtz_free_energy_per_link
       (num (link_stiffness * spowi link_length 2 / jl_BOLTZMANN_CONSTANT / temperature))
       nondimensional_force |}.

End Model.
End J_lennard_jones_isotensional_legendre.

(** /repo/src/physics/single_chain/ufjc/log_squared/thermodynamics/isometric/asymptotic/mod.jl: struct LOGSQUAREDFJC *)
Module J_log_squared_isometric_asymptotic.
(* /repo/src/physics/single_chain/ufjc/log_squared/thermodynamics/isometric/asymptotic/mod.jl:17-42 *)
Record t {T : Type} := {
  number_of_links : Z;
  link_length : T;
  hinge_mass : T;
  link_stiffness : T;
  reduced : J_log_squared_isometric_asymptotic_reduced.t T;
  legendre : J_log_squared_isometric_asymptotic_legendre.t T }.
Arguments t : clear implicits.
Section Model.
Context {T : Type} {Sc : Scalar T}.

(* /repo/src/physics/single_chain/ufjc/log_squared/thermodynamics/isometric/asymptotic/mod.jl:49-63 *)
Definition init (number_of_links : Z) (link_length : T) (hinge_mass : T) (link_stiffness : T) : t T
    :=
  {| number_of_links := number_of_links;
     link_length := link_length;
     hinge_mass := hinge_mass;
     link_stiffness := link_stiffness;
     reduced := J_log_squared_isometric_asymptotic_reduced.init number_of_links link_length hinge_mass
       link_stiffness;
     legendre := J_log_squared_isometric_asymptotic_legendre.init number_of_links link_length hinge_mass
       link_stiffness |}.

End Model.
End J_log_squared_isometric_asymptotic.

(** /repo/src/physics/single_chain/ufjc/log_squared/thermodynamics/isotensional/asymptotic/mod.jl *)
Module jl_log_squared_isotensional_asymptotic.
Section Model.
Context {T : Type} {Sc : Scalar T}.

(* /repo/src/physics/single_chain/ufjc/log_squared/thermodynamics/isotensional/asymptotic/mod.jl:105-133 *)
Definition end_to_end_length (number_of_links : jarray Z) (link_length : jarray T) (link_stiffness :
    jarray T) (force : jarray T) (temperature : jarray T) : result T :=
  broadcast [UInt8; Float64; Float64; Float64; Float64] (fun number_of_links_i link_length_i
      link_stiffness_i force_i temperature_i => ccall
      lib.physics_single_chain_ufjc_log_squared_thermodynamics_isotensional_asymptotic_end_to_end_length
      [UInt8; Float64; Float64; Float64; Float64] number_of_links_i link_length_i link_stiffness_i
      force_i temperature_i) number_of_links link_length link_stiffness force temperature.

(* /repo/src/physics/single_chain/ufjc/log_squared/thermodynamics/isotensional/asymptotic/mod.jl:141-165 *)
Definition end_to_end_length_per_link (link_length : jarray T) (link_stiffness : jarray T) (force :
    jarray T) (temperature : jarray T) : result T :=
  broadcast [Float64; Float64; Float64; Float64] (fun link_length_i link_stiffness_i force_i
      temperature_i => ccall
      lib.physics_single_chain_ufjc_log_squared_thermodynamics_isotensional_asymptotic_end_to_end_length_per_link
      [Float64; Float64; Float64; Float64] link_length_i link_stiffness_i force_i temperature_i)
      link_length link_stiffness force temperature.

(* /repo/src/physics/single_chain/ufjc/log_squared/thermodynamics/isotensional/asymptotic/mod.jl:173-195 *)
Definition nondimensional_end_to_end_length (number_of_links : jarray Z)
    (nondimensional_link_stiffness : jarray T) (nondimensional_force : jarray T) : result T :=
  broadcast [UInt8; Float64; Float64] (fun number_of_links_i nondimensional_link_stiffness_i
      nondimensional_force_i => ccall
      lib.physics_single_chain_ufjc_log_squared_thermodynamics_isotensional_asymptotic_nondimensional_end_to_end_length
      [UInt8; Float64; Float64] number_of_links_i nondimensional_link_stiffness_i
      nondimensional_force_i) number_of_links nondimensional_link_stiffness nondimensional_force.

(* /repo/src/physics/single_chain/ufjc/log_squared/thermodynamics/isotensional/asymptotic/mod.jl:216-234 *)
Definition nondimensional_end_to_end_length_per_link (nondimensional_link_stiffness_i : jarray T)
    (nondimensional_force : jarray T) : result T :=
  broadcast [Float64; Float64] (fun nondimensional_link_stiffness_i nondimensional_force_i => ccall
      lib.physics_single_chain_ufjc_log_squared_thermodynamics_isotensional_asymptotic_nondimensional_end_to_end_length_per_link
      [Float64; Float64] nondimensional_link_stiffness_i nondimensional_force_i)
      nondimensional_link_stiffness_i nondimensional_force.

(* /repo/src/physics/single_chain/ufjc/log_squared/thermodynamics/isotensional/asymptotic/mod.jl:246-283 *)
Definition gibbs_free_energy (number_of_links : jarray Z) (link_length : jarray T) (hinge_mass :
    jarray T) (link_stiffness : jarray T) (force : jarray T) (temperature : jarray T) : result T :=
  broadcast [UInt8; Float64; Float64; Float64; Float64; Float64] (fun number_of_links_i
      link_length_i hinge_mass_i link_stiffness_i force_i temperature_i => ccall
      lib.physics_single_chain_ufjc_log_squared_thermodynamics_isotensional_asymptotic_gibbs_free_energy
      [UInt8; Float64; Float64; Float64; Float64; Float64] number_of_links_i link_length_i
      hinge_mass_i link_stiffness_i force_i temperature_i) number_of_links link_length hinge_mass
      link_stiffness force temperature.

(* /repo/src/physics/single_chain/ufjc/log_squared/thermodynamics/isotensional/asymptotic/mod.jl:291-318 *)
Definition gibbs_free_energy_per_link (link_length : jarray T) (hinge_mass : jarray T)
    (link_stiffness : jarray T) (force : jarray T) (temperature : jarray T) : result T :=
  broadcast [Float64; Float64; Float64; Float64; Float64] (fun link_length_i hinge_mass_i
      link_stiffness_i force_i temperature_i => ccall
      lib.physics_single_chain_ufjc_log_squared_thermodynamics_isotensional_asymptotic_gibbs_free_energy_per_link
      [Float64; Float64; Float64; Float64; Float64] link_length_i hinge_mass_i link_stiffness_i
      force_i temperature_i) link_length hinge_mass link_stiffness force temperature.

(* /repo/src/physics/single_chain/ufjc/log_squared/thermodynamics/isotensional/asymptotic/mod.jl:326-354 *)
Definition relative_gibbs_free_energy (number_of_links : jarray Z) (link_length : jarray T)
    (link_stiffness : jarray T) (force : jarray T) (temperature : jarray T) : result T :=
  broadcast [UInt8; Float64; Float64; Float64; Float64] (fun number_of_links_i link_length_i
      link_stiffness_i force_i temperature_i => ccall
      lib.physics_single_chain_ufjc_log_squared_thermodynamics_isotensional_asymptotic_relative_gibbs_free_energy
      [UInt8; Float64; Float64; Float64; Float64] number_of_links_i link_length_i link_stiffness_i
      force_i temperature_i) number_of_links link_length link_stiffness force temperature.

(* /repo/src/physics/single_chain/ufjc/log_squared/thermodynamics/isotensional/asymptotic/mod.jl:362-386 *)
Definition relative_gibbs_free_energy_per_link (link_length : jarray T) (link_stiffness : jarray T)
    (force : jarray T) (temperature : jarray T) : result T :=
  broadcast [Float64; Float64; Float64; Float64] (fun link_length_i link_stiffness_i force_i
      temperature_i => ccall
      lib.physics_single_chain_ufjc_log_squared_thermodynamics_isotensional_asymptotic_relative_gibbs_free_energy_per_link
      [Float64; Float64; Float64; Float64] link_length_i link_stiffness_i force_i temperature_i)
      link_length link_stiffness force temperature.

(* /repo/src/physics/single_chain/ufjc/log_squared/thermodynamics/isotensional/asymptotic/mod.jl:394-431 *)
Definition nondimensional_gibbs_free_energy (number_of_links : jarray Z) (link_length : jarray T)
    (hinge_mass : jarray T) (nondimensional_link_stiffness : jarray T) (nondimensional_force :
    jarray T) (temperature : jarray T) : result T :=
  broadcast [UInt8; Float64; Float64; Float64; Float64; Float64] (fun number_of_links_i
      link_length_i hinge_mass_i nondimensional_link_stiffness_i nondimensional_force_i
      temperature_i => ccall
      lib.physics_single_chain_ufjc_log_squared_thermodynamics_isotensional_asymptotic_nondimensional_gibbs_free_energy
      [UInt8; Float64; Float64; Float64; Float64; Float64] number_of_links_i link_length_i
      hinge_mass_i nondimensional_link_stiffness_i nondimensional_force_i temperature_i)
      number_of_links link_length hinge_mass nondimensional_link_stiffness nondimensional_force
      temperature.

(* /repo/src/physics/single_chain/ufjc/log_squared/thermodynamics/isotensional/asymptotic/mod.jl:439-472 *)
Definition nondimensional_gibbs_free_energy_per_link (link_length : jarray T) (hinge_mass : jarray
    T) (nondimensional_link_stiffness : jarray T) (nondimensional_force : jarray T) (temperature :
    jarray T) : result T :=
  broadcast [Float64; Float64; Float64; Float64; Float64] (fun link_length_i hinge_mass_i
      nondimensional_link_stiffness_i nondimensional_force_i temperature_i => ccall
      lib.physics_single_chain_ufjc_log_squared_thermodynamics_isotensional_asymptotic_nondimensional_gibbs_free_energy_per_link
      [Float64; Float64; Float64; Float64; Float64] link_length_i hinge_mass_i
      nondimensional_link_stiffness_i nondimensional_force_i temperature_i) link_length hinge_mass
      nondimensional_link_stiffness nondimensional_force temperature.

(* /repo/src/physics/single_chain/ufjc/log_squared/thermodynamics/isotensional/asymptotic/mod.jl:480-502 *)
Definition nondimensional_relative_gibbs_free_energy (number_of_links : jarray Z)
    (nondimensional_link_stiffness : jarray T) (nondimensional_force : jarray T) : result T :=
  broadcast [UInt8; Float64; Float64] (fun number_of_links_i nondimensional_link_stiffness_i
      nondimensional_force_i => ccall
      lib.physics_single_chain_ufjc_log_squared_thermodynamics_isotensional_asymptotic_nondimensional_relative_gibbs_free_energy
      [UInt8; Float64; Float64] number_of_links_i nondimensional_link_stiffness_i
      nondimensional_force_i) number_of_links nondimensional_link_stiffness nondimensional_force.

(* /repo/src/physics/single_chain/ufjc/log_squared/thermodynamics/isotensional/asymptotic/mod.jl:523-541 *)
Definition nondimensional_relative_gibbs_free_energy_per_link (nondimensional_link_stiffness :
    jarray T) (nondimensional_force : jarray T) : result T :=
  broadcast [Float64; Float64] (fun nondimensional_link_stiffness_i nondimensional_force_i => ccall
      lib.physics_single_chain_ufjc_log_squared_thermodynamics_isotensional_asymptotic_nondimensional_relative_gibbs_free_energy_per_link
      [Float64; Float64] nondimensional_link_stiffness_i nondimensional_force_i)
      nondimensional_link_stiffness nondimensional_force.

End Model.
End jl_log_squared_isotensional_asymptotic.

(** /repo/src/physics/single_chain/ufjc/log_squared/thermodynamics/isotensional/asymptotic/mod.jl: struct LOGSQUAREDFJC *)
Module J_log_squared_isotensional_asymptotic.
(* /repo/src/physics/single_chain/ufjc/log_squared/thermodynamics/isotensional/asymptotic/mod.jl:20-93 *)
Record t {T : Type} := {
  number_of_links : Z;
  link_length : T;
  hinge_mass : T;
  link_stiffness : T;
  reduced : J_log_squared_isotensional_asymptotic_reduced.t T;
  legendre : J_log_squared_isotensional_asymptotic_legendre.t T;
  end_to_end_length : jarray T -> jarray T -> result T;
  end_to_end_length_per_link : jarray T -> jarray T -> result T;
  nondimensional_end_to_end_length : jarray T -> T -> result T;
  nondimensional_end_to_end_length_per_link : jarray T -> T -> result T;
  gibbs_free_energy : jarray T -> jarray T -> result T;
  gibbs_free_energy_per_link : jarray T -> jarray T -> result T;
  relative_gibbs_free_energy : jarray T -> jarray T -> result T;
  relative_gibbs_free_energy_per_link : jarray T -> jarray T -> result T;
  nondimensional_gibbs_free_energy : jarray T -> T -> result T;
  nondimensional_gibbs_free_energy_per_link : jarray T -> T -> result T;
  nondimensional_relative_gibbs_free_energy : jarray T -> T -> result T;
  nondimensional_relative_gibbs_free_energy_per_link : jarray T -> T -> result T }.
Arguments t : clear implicits.
Section Model.
Context {T : Type} {Sc : Scalar T}.

(* /repo/src/physics/single_chain/ufjc/log_squared/thermodynamics/isotensional/asymptotic/mod.jl:548-634 *)
Definition init (number_of_links : Z) (link_length : T) (hinge_mass : T) (link_stiffness : T) : t T
    :=
  {| number_of_links := number_of_links;
     link_length := link_length;
     hinge_mass := hinge_mass;
     link_stiffness := link_stiffness;
     reduced := J_log_squared_isotensional_asymptotic_reduced.init number_of_links link_length hinge_mass
       link_stiffness;
     legendre := J_log_squared_isotensional_asymptotic_legendre.init number_of_links link_length
       hinge_mass link_stiffness;
     end_to_end_length := fun force temperature =>
       jl_log_squared_isotensional_asymptotic.end_to_end_length (num number_of_links) (num
       link_length) (num link_stiffness) force temperature;
     end_to_end_length_per_link := fun force temperature =>
       jl_log_squared_isotensional_asymptotic.end_to_end_length_per_link (num link_length) (num
       link_stiffness) force temperature;
     nondimensional_end_to_end_length := fun nondimensional_force temperature =>
       jl_log_squared_isotensional_asymptotic.nondimensional_end_to_end_length (num number_of_links)
       (num (link_stiffness * spowi link_length 2 / jl_BOLTZMANN_CONSTANT / temperature))
       nondimensional_force;
     nondimensional_end_to_end_length_per_link := fun nondimensional_force temperature =>
       jl_log_squared_isotensional_asymptotic.nondimensional_end_to_end_length_per_link (num
       (link_stiffness * spowi link_length 2 / jl_BOLTZMANN_CONSTANT / temperature))
       nondimensional_force;
     gibbs_free_energy := fun force temperature =>
       jl_log_squared_isotensional_asymptotic.gibbs_free_energy (num number_of_links) (num
       link_length) (num hinge_mass) (num link_stiffness) force temperature;
     gibbs_free_energy_per_link := fun force temperature =>
       jl_log_squared_isotensional_asymptotic.gibbs_free_energy_per_link (num link_length) (num
       hinge_mass) (num link_stiffness) force temperature;
     relative_gibbs_free_energy := fun force temperature =>
       jl_log_squared_isotensional_asymptotic.relative_gibbs_free_energy (num number_of_links) (num
       link_length) (num link_stiffness) force temperature;
     relative_gibbs_free_energy_per_link := fun force temperature =>
       jl_log_squared_isotensional_asymptotic.relative_gibbs_free_energy_per_link (num link_length)
       (num link_stiffness) force temperature;
     nondimensional_gibbs_free_energy := fun nondimensional_force temperature =>
       jl_log_squared_isotensional_asymptotic.nondimensional_gibbs_free_energy (num number_of_links)
       (num link_length) (num hinge_mass) (num (link_stiffness * spowi link_length 2 /
       jl_BOLTZMANN_CONSTANT / temperature)) nondimensional_force (num temperature);
     nondimensional_gibbs_free_energy_per_link := fun nondimensional_force temperature =>
       jl_log_squared_isotensional_asymptotic.nondimensional_gibbs_free_energy_per_link (num
       link_length) (num hinge_mass) (num (link_stiffness * spowi link_length 2 /
       jl_BOLTZMANN_CONSTANT / temperature)) nondimensional_force (num temperature);
     nondimensional_relative_gibbs_free_energy := fun nondimensional_force temperature =>
       jl_log_squared_isotensional_asymptotic.nondimensional_relative_gibbs_free_energy (num
       number_of_links) (num (link_stiffness * spowi link_length 2 / jl_BOLTZMANN_CONSTANT /
       temperature)) nondimensional_force;
     nondimensional_relative_gibbs_free_energy_per_link := fun nondimensional_force temperature =>
       jl_log_squared_isotensional_asymptotic.nondimensional_relative_gibbs_free_energy_per_link
       (num (link_stiffness * spowi link_length 2 / jl_BOLTZMANN_CONSTANT / temperature))
       nondimensional_force |}.

End Model.
End J_log_squared_isotensional_asymptotic.

(** /repo/src/physics/single_chain/ufjc/log_squared/thermodynamics/isotensional/legendre/mod.jl *)
Module jl_log_squared_isotensional_legendre.
Section Model.
Context {T : Type} {Sc : Scalar T}.

(* /repo/src/physics/single_chain/ufjc/log_squared/thermodynamics/isotensional/legendre/mod.jl:77-114 *)
Definition helmholtz_free_energy (number_of_links : jarray Z) (link_length : jarray T) (hinge_mass :
    jarray T) (link_stiffness : jarray T) (force : jarray T) (temperature : jarray T) : result T :=
  broadcast [UInt8; Float64; Float64; Float64; Float64; Float64] (fun number_of_links_i
      link_length_i hinge_mass_i link_stiffness_i force_i temperature_i => ccall
      lib.physics_single_chain_ufjc_log_squared_thermodynamics_isotensional_legendre_helmholtz_free_energy
      [UInt8; Float64; Float64; Float64; Float64; Float64] number_of_links_i link_length_i
      hinge_mass_i link_stiffness_i force_i temperature_i) number_of_links link_length hinge_mass
      link_stiffness force temperature.

(* /repo/src/physics/single_chain/ufjc/log_squared/thermodynamics/isotensional/legendre/mod.jl:122-149 *)
Definition helmholtz_free_energy_per_link (link_length : jarray T) (hinge_mass : jarray T)
    (link_stiffness : jarray T) (force : jarray T) (temperature : jarray T) : result T :=
  broadcast [Float64; Float64; Float64; Float64; Float64] (fun link_length_i hinge_mass_i
      link_stiffness_i force_i temperature_i => ccall
      lib.physics_single_chain_ufjc_log_squared_thermodynamics_isotensional_legendre_helmholtz_free_energy_per_link
      [Float64; Float64; Float64; Float64; Float64] link_length_i hinge_mass_i link_stiffness_i
      force_i temperature_i) link_length hinge_mass link_stiffness force temperature.

(* /repo/src/physics/single_chain/ufjc/log_squared/thermodynamics/isotensional/legendre/mod.jl:157-185 *)
Definition relative_helmholtz_free_energy (number_of_links : jarray Z) (link_length : jarray T)
    (link_stiffness : jarray T) (force : jarray T) (temperature : jarray T) : result T :=
  broadcast [UInt8; Float64; Float64; Float64; Float64] (fun number_of_links_i link_length_i
      link_stiffness_i force_i temperature_i => ccall
      lib.physics_single_chain_ufjc_log_squared_thermodynamics_isotensional_legendre_relative_helmholtz_free_energy
      [UInt8; Float64; Float64; Float64; Float64] number_of_links_i link_length_i link_stiffness_i
      force_i temperature_i) number_of_links link_length link_stiffness force temperature.

(* /repo/src/physics/single_chain/ufjc/log_squared/thermodynamics/isotensional/legendre/mod.jl:193-217 *)
Definition relative_helmholtz_free_energy_per_link (link_length : jarray T) (link_stiffness : jarray
    T) (force : jarray T) (temperature : jarray T) : result T :=
  broadcast [Float64; Float64; Float64; Float64] (fun link_length_i link_stiffness_i force_i
      temperature_i => ccall
      lib.physics_single_chain_ufjc_log_squared_thermodynamics_isotensional_legendre_relative_helmholtz_free_energy_per_link
      [Float64; Float64; Float64; Float64] link_length_i link_stiffness_i force_i temperature_i)
      link_length link_stiffness force temperature.

(* /repo/src/physics/single_chain/ufjc/log_squared/thermodynamics/isotensional/legendre/mod.jl:225-262 *)
Definition nondimensional_helmholtz_free_energy (number_of_links : jarray Z) (link_length : jarray
    T) (hinge_mass : jarray T) (nondimensional_link_stiffness : jarray T) (nondimensional_force :
    jarray T) (temperature : jarray T) : result T :=
  broadcast [UInt8; Float64; Float64; Float64; Float64; Float64] (fun number_of_links_i
      link_length_i hinge_mass_i nondimensional_link_stiffness_i nondimensional_force_i
      temperature_i => ccall
      lib.physics_single_chain_ufjc_log_squared_thermodynamics_isotensional_legendre_nondimensional_helmholtz_free_energy
      [UInt8; Float64; Float64; Float64; Float64; Float64] number_of_links_i link_length_i
      hinge_mass_i nondimensional_link_stiffness_i nondimensional_force_i temperature_i)
      number_of_links link_length hinge_mass nondimensional_link_stiffness nondimensional_force
      temperature.

(* /repo/src/physics/single_chain/ufjc/log_squared/thermodynamics/isotensional/legendre/mod.jl:270-303 *)
Definition nondimensional_helmholtz_free_energy_per_link (link_length : jarray T) (hinge_mass :
    jarray T) (nondimensional_link_stiffness : jarray T) (nondimensional_force : jarray T)
    (temperature : jarray T) : result T :=
  broadcast [Float64; Float64; Float64; Float64; Float64] (fun link_length_i hinge_mass_i
      link_stiffness_i nondimensional_force_i temperature_i => ccall
      lib.physics_single_chain_ufjc_log_squared_thermodynamics_isotensional_legendre_nondimensional_helmholtz_free_energy_per_link
      [Float64; Float64; Float64; Float64; Float64] link_length_i hinge_mass_i link_stiffness_i
      nondimensional_force_i temperature_i) link_length hinge_mass nondimensional_link_stiffness
      nondimensional_force temperature.

(* /repo/src/physics/single_chain/ufjc/log_squared/thermodynamics/isotensional/legendre/mod.jl:311-333 *)
Definition nondimensional_relative_helmholtz_free_energy (number_of_links : jarray Z)
    (nondimensional_link_stiffness : jarray T) (nondimensional_force : jarray T) : result T :=
  broadcast [UInt8; Float64; Float64] (fun number_of_links_i nondimensional_link_stiffness_i
      nondimensional_force_i => ccall
      lib.physics_single_chain_ufjc_log_squared_thermodynamics_isotensional_legendre_nondimensional_relative_helmholtz_free_energy
      [UInt8; Float64; Float64] number_of_links_i nondimensional_link_stiffness_i
      nondimensional_force_i) number_of_links nondimensional_link_stiffness nondimensional_force.

(* /repo/src/physics/single_chain/ufjc/log_squared/thermodynamics/isotensional/legendre/mod.jl:341-359 *)
Definition nondimensional_relative_helmholtz_free_energy_per_link (nondimensional_link_stiffness :
    jarray T) (nondimensional_force : jarray T) : result T :=
  broadcast [Float64; Float64] (fun nondimensional_link_stiffness_i nondimensional_force_i => ccall
      lib.physics_single_chain_ufjc_log_squared_thermodynamics_isotensional_legendre_nondimensional_relative_helmholtz_free_energy_per_link
      [Float64; Float64] nondimensional_link_stiffness_i nondimensional_force_i)
      nondimensional_link_stiffness nondimensional_force.

End Model.
End jl_log_squared_isotensional_legendre.

(** /repo/src/physics/single_chain/ufjc/log_squared/thermodynamics/isotensional/legendre/mod.jl: struct LOGSQUAREDFJC *)
Module J_log_squared_isotensional_legendre.
(* /repo/src/physics/single_chain/ufjc/log_squared/thermodynamics/isotensional/legendre/mod.jl:16-65 *)
Record t {T : Type} := {
  number_of_links : Z;
  link_length : T;
  hinge_mass : T;
  link_stiffness : T;
  helmholtz_free_energy : jarray T -> jarray T -> result T;
  helmholtz_free_energy_per_link : jarray T -> jarray T -> result T;
  relative_helmholtz_free_energy : jarray T -> jarray T -> result T;
  relative_helmholtz_free_energy_per_link : jarray T -> jarray T -> result T;
  nondimensional_helmholtz_free_energy : jarray T -> T -> result T;
  nondimensional_helmholtz_free_energy_per_link : jarray T -> T -> result T;
  nondimensional_relative_helmholtz_free_energy : jarray T -> T -> result T;
  nondimensional_relative_helmholtz_free_energy_per_link : jarray T -> T -> result T }.
Arguments t : clear implicits.
Section Model.
Context {T : Type} {Sc : Scalar T}.

(* /repo/src/physics/single_chain/ufjc/log_squared/thermodynamics/isotensional/legendre/mod.jl:366-434 *)
Definition init (number_of_links : Z) (link_length : T) (hinge_mass : T) (link_stiffness : T) : t T
    :=
  {| number_of_links := number_of_links;
     link_length := link_length;
     hinge_mass := hinge_mass;
     link_stiffness := link_stiffness;
     helmholtz_free_energy := fun force temperature =>
       jl_log_squared_isotensional_legendre.helmholtz_free_energy (num number_of_links) (num
       link_length) (num hinge_mass) (num link_stiffness) force temperature;
     helmholtz_free_energy_per_link := fun force temperature =>
       jl_log_squared_isotensional_legendre.helmholtz_free_energy_per_link (num link_length) (num
       hinge_mass) (num link_stiffness) force temperature;
     relative_helmholtz_free_energy := fun force temperature =>
       jl_log_squared_isotensional_legendre.relative_helmholtz_free_energy (num number_of_links)
       (num link_length) (num link_stiffness) force temperature;
     relative_helmholtz_free_energy_per_link := fun force temperature =>
       jl_log_squared_isotensional_legendre.relative_helmholtz_free_energy_per_link (num
       link_length) (num link_stiffness) force temperature;
     nondimensional_helmholtz_free_energy := fun nondimensional_force temperature =>
       jl_log_squared_isotensional_legendre.nondimensional_helmholtz_free_energy (num
       number_of_links) (num link_length) (num hinge_mass) (num (link_stiffness * spowi link_length
       2 / jl_BOLTZMANN_CONSTANT / temperature)) nondimensional_force (num temperature);
     nondimensional_helmholtz_free_energy_per_link := fun nondimensional_force temperature =>
       jl_log_squared_isotensional_legendre.nondimensional_helmholtz_free_energy_per_link (num
       link_length) (num hinge_mass) (num (link_stiffness * spowi link_length 2 /
       jl_BOLTZMANN_CONSTANT / temperature)) nondimensional_force (num temperature);
     nondimensional_relative_helmholtz_free_energy := fun nondimensional_force temperature =>
       jl_log_squared_isotensional_legendre.nondimensional_relative_helmholtz_free_energy (num
       number_of_links) (num (link_stiffness * spowi link_length 2 / jl_BOLTZMANN_CONSTANT /
       temperature)) nondimensional_force;
     nondimensional_relative_helmholtz_free_energy_per_link := fun nondimensional_force temperature =>
       jl_log_squared_isotensional_legendre.nondimensional_relative_helmholtz_free_energy_per_link
       (num (link_stiffness * spowi link_length 2 / jl_BOLTZMANN_CONSTANT / temperature))
       nondimensional_force |}.

End Model.
End J_log_squared_isotensional_legendre.

(** /repo/src/physics/single_chain/ufjc/morse/thermodynamics/isometric/asymptotic/mod.jl: struct MORSEFJC *)
Module J_morse_isometric_asymptotic.
(* /repo/src/physics/single_chain/ufjc/morse/thermodynamics/isometric/asymptotic/mod.jl:17-46 *)
Record t {T : Type} := {
  number_of_links : Z;
  link_length : T;
  hinge_mass : T;
  link_stiffness : T;
  link_energy : T;
  reduced : J_morse_isometric_asymptotic_reduced.t T;
  legendre : J_morse_isometric_asymptotic_legendre.t T }.
Arguments t : clear implicits.
Section Model.
Context {T : Type} {Sc : Scalar T}.

(* /repo/src/physics/single_chain/ufjc/morse/thermodynamics/isometric/asymptotic/mod.jl:53-81 *)
Definition init (number_of_links : Z) (link_length : T) (hinge_mass : T) (link_stiffness : T)
    (link_energy : T) : t T :=
  {| number_of_links := number_of_links;
     link_length := link_length;
     hinge_mass := hinge_mass;
     link_stiffness := link_stiffness;
     link_energy := link_energy;
     reduced := J_morse_isometric_asymptotic_reduced.init number_of_links link_length hinge_mass
       link_stiffness link_energy;
     legendre := J_morse_isometric_asymptotic_legendre.init number_of_links link_length hinge_mass
       link_stiffness link_energy |}.

End Model.
End J_morse_isometric_asymptotic.

(** /repo/src/physics/single_chain/ufjc/morse/thermodynamics/isotensional/asymptotic/mod.jl *)
Module jl_morse_isotensional_asymptotic.
Section Model.
Context {T : Type} {Sc : Scalar T}.

(* /repo/src/physics/single_chain/ufjc/morse/thermodynamics/isotensional/asymptotic/mod.jl:109-146 *)
Definition end_to_end_length (number_of_links : jarray Z) (link_length : jarray T) (link_stiffness :
    jarray T) (link_energy : jarray T) (force : jarray T) (temperature : jarray T) : result T :=
  broadcast [UInt8; Float64; Float64; Float64; Float64; Float64] (fun number_of_links_i
      link_length_i link_stiffness_i link_energy_i force_i temperature_i => ccall
      lib.physics_single_chain_ufjc_morse_thermodynamics_isotensional_asymptotic_end_to_end_length
      [UInt8; Float64; Float64; Float64; Float64; Float64] number_of_links_i link_length_i
      link_stiffness_i link_energy_i force_i temperature_i) number_of_links link_length
      link_stiffness link_energy force temperature.

(* /repo/src/physics/single_chain/ufjc/morse/thermodynamics/isotensional/asymptotic/mod.jl:154-181 *)
Definition end_to_end_length_per_link (link_length : jarray T) (link_stiffness : jarray T)
    (link_energy : jarray T) (force : jarray T) (temperature : jarray T) : result T :=
  broadcast [Float64; Float64; Float64; Float64; Float64] (fun link_length_i link_stiffness_i
      link_energy_i force_i temperature_i => ccall
      lib.physics_single_chain_ufjc_morse_thermodynamics_isotensional_asymptotic_end_to_end_length_per_link
      [Float64; Float64; Float64; Float64; Float64] link_length_i link_stiffness_i link_energy_i
      force_i temperature_i) link_length link_stiffness link_energy force temperature.

(* /repo/src/physics/single_chain/ufjc/morse/thermodynamics/isotensional/asymptotic/mod.jl:189-218 *)
Definition nondimensional_end_to_end_length (number_of_links : jarray Z)
    (nondimensional_link_stiffness : jarray T) (nondimensional_link_energy : jarray T)
    (nondimensional_force : jarray T) : result T :=
  broadcast [UInt8; Float64; Float64; Float64] (fun number_of_links_i
      nondimensional_link_stiffness_i nondimensional_link_energy_i nondimensional_force_i => ccall
      lib.physics_single_chain_ufjc_morse_thermodynamics_isotensional_asymptotic_nondimensional_end_to_end_length
      [UInt8; Float64; Float64; Float64] number_of_links_i nondimensional_link_stiffness_i
      nondimensional_link_energy_i nondimensional_force_i) number_of_links
      nondimensional_link_stiffness nondimensional_link_energy nondimensional_force.

(* /repo/src/physics/single_chain/ufjc/morse/thermodynamics/isotensional/asymptotic/mod.jl:240-265 *)
Definition nondimensional_end_to_end_length_per_link (nondimensional_link_stiffness : jarray T)
    (nondimensional_link_energy : jarray T) (nondimensional_force : jarray T) : result T :=
  broadcast [Float64; Float64; Float64] (fun nondimensional_link_stiffness_i
      nondimensional_link_energy_i nondimensional_force_i => ccall
      lib.physics_single_chain_ufjc_morse_thermodynamics_isotensional_asymptotic_nondimensional_end_to_end_length_per_link
      [Float64; Float64; Float64] nondimensional_link_stiffness_i nondimensional_link_energy_i
      nondimensional_force_i) nondimensional_link_stiffness nondimensional_link_energy
      nondimensional_force.

(* /repo/src/physics/single_chain/ufjc/morse/thermodynamics/isotensional/asymptotic/mod.jl:277-318 *)
Definition gibbs_free_energy (number_of_links : jarray Z) (link_length : jarray T) (hinge_mass :
    jarray T) (link_stiffness : jarray T) (link_energy : jarray T) (force : jarray T) (temperature :
    jarray T) : result T :=
  broadcast [UInt8; Float64; Float64; Float64; Float64; Float64; Float64] (fun number_of_links_i
      link_length_i hinge_mass_i link_stiffness_i link_energy_i force_i temperature_i => ccall
      lib.physics_single_chain_ufjc_morse_thermodynamics_isotensional_asymptotic_gibbs_free_energy
      [UInt8; Float64; Float64; Float64; Float64; Float64; Float64] number_of_links_i link_length_i
      hinge_mass_i link_stiffness_i link_energy_i force_i temperature_i) number_of_links link_length
      hinge_mass link_stiffness link_energy force temperature.

(* /repo/src/physics/single_chain/ufjc/morse/thermodynamics/isotensional/asymptotic/mod.jl:326-363 *)
Definition gibbs_free_energy_per_link (link_length : jarray T) (hinge_mass : jarray T)
    (link_stiffness : jarray T) (link_energy : jarray T) (force : jarray T) (temperature : jarray T)
    : result T :=
  broadcast [Float64; Float64; Float64; Float64; Float64; Float64] (fun link_length_i hinge_mass_i
      link_stiffness_i link_energy_i force_i temperature_i => ccall
      lib.physics_single_chain_ufjc_morse_thermodynamics_isotensional_asymptotic_gibbs_free_energy_per_link
      [Float64; Float64; Float64; Float64; Float64; Float64] link_length_i hinge_mass_i
      link_stiffness_i link_energy_i force_i temperature_i) link_length hinge_mass link_stiffness
      link_energy force temperature.

(* /repo/src/physics/single_chain/ufjc/morse/thermodynamics/isotensional/asymptotic/mod.jl:371-408 *)
Definition relative_gibbs_free_energy (number_of_links : jarray Z) (link_length : jarray T)
    (link_stiffness : jarray T) (link_energy : jarray T) (force : jarray T) (temperature : jarray T)
    : result T :=
  broadcast [UInt8; Float64; Float64; Float64; Float64; Float64] (fun number_of_links_i
      link_length_i link_stiffness_i link_energy_i force_i temperature_i => ccall
      lib.physics_single_chain_ufjc_morse_thermodynamics_isotensional_asymptotic_relative_gibbs_free_energy
      [UInt8; Float64; Float64; Float64; Float64; Float64] number_of_links_i link_length_i
      link_stiffness_i link_energy_i force_i temperature_i) number_of_links link_length
      link_stiffness link_energy force temperature.

(* /repo/src/physics/single_chain/ufjc/morse/thermodynamics/isotensional/asymptotic/mod.jl:416-443 *)
Definition relative_gibbs_free_energy_per_link (link_length : jarray T) (link_stiffness : jarray T)
    (link_energy : jarray T) (force : jarray T) (temperature : jarray T) : result T :=
  broadcast [Float64; Float64; Float64; Float64; Float64] (fun link_length_i link_stiffness_i
      link_energy_i force_i temperature_i => ccall
      lib.physics_single_chain_ufjc_morse_thermodynamics_isotensional_asymptotic_relative_gibbs_free_energy_per_link
      [Float64; Float64; Float64; Float64; Float64] link_length_i link_stiffness_i link_energy_i
      force_i temperature_i) link_length link_stiffness link_energy force temperature.

(* /repo/src/physics/single_chain/ufjc/morse/thermodynamics/isotensional/asymptotic/mod.jl:451-492 *)
Definition nondimensional_gibbs_free_energy (number_of_links : jarray Z) (link_length : jarray T)
    (hinge_mass : jarray T) (nondimensional_link_stiffness : jarray T) (nondimensional_link_energy :
    jarray T) (nondimensional_force : jarray T) (temperature : jarray T) : result T :=
  broadcast [UInt8; Float64; Float64; Float64; Float64; Float64; Float64] (fun number_of_links_i
      link_length_i hinge_mass_i nondimensional_link_stiffness_i nondimensional_link_energy_i
      nondimensional_force_i temperature_i => ccall
      lib.physics_single_chain_ufjc_morse_thermodynamics_isotensional_asymptotic_nondimensional_gibbs_free_energy
      [UInt8; Float64; Float64; Float64; Float64; Float64; Float64] number_of_links_i link_length_i
      hinge_mass_i nondimensional_link_stiffness_i nondimensional_link_energy_i
      nondimensional_force_i temperature_i) number_of_links link_length hinge_mass
      nondimensional_link_stiffness nondimensional_link_energy nondimensional_force temperature.

(* /repo/src/physics/single_chain/ufjc/morse/thermodynamics/isotensional/asymptotic/mod.jl:500-537 *)
Definition nondimensional_gibbs_free_energy_per_link (link_length : jarray T) (hinge_mass : jarray
    T) (nondimensional_link_stiffness : jarray T) (nondimensional_link_energy : jarray T)
    (nondimensional_force : jarray T) (temperature : jarray T) : result T :=
  broadcast [Float64; Float64; Float64; Float64; Float64; Float64] (fun link_length_i hinge_mass_i
      nondimensional_link_stiffness_i nondimensional_link_energy_i nondimensional_force_i
      temperature_i => ccall
      lib.physics_single_chain_ufjc_morse_thermodynamics_isotensional_asymptotic_nondimensional_gibbs_free_energy_per_link
      [Float64; Float64; Float64; Float64; Float64; Float64] link_length_i hinge_mass_i
      nondimensional_link_stiffness_i nondimensional_link_energy_i nondimensional_force_i
      temperature_i) link_length hinge_mass nondimensional_link_stiffness nondimensional_link_energy
      nondimensional_force temperature.

(* /repo/src/physics/single_chain/ufjc/morse/thermodynamics/isotensional/asymptotic/mod.jl:545-574 *)
Definition nondimensional_relative_gibbs_free_energy (number_of_links : jarray Z)
    (nondimensional_link_stiffness : jarray T) (nondimensional_link_energy : jarray T)
    (nondimensional_force : jarray T) : result T :=
  broadcast [UInt8; Float64; Float64; Float64] (fun number_of_links_i
      nondimensional_link_stiffness_i nondimensional_link_energy_i nondimensional_force_i => ccall
      lib.physics_single_chain_ufjc_morse_thermodynamics_isotensional_asymptotic_nondimensional_relative_gibbs_free_energy
      [UInt8; Float64; Float64; Float64] number_of_links_i nondimensional_link_stiffness_i
      nondimensional_link_energy_i nondimensional_force_i) number_of_links
      nondimensional_link_stiffness nondimensional_link_energy nondimensional_force.

(* /repo/src/physics/single_chain/ufjc/morse/thermodynamics/isotensional/asymptotic/mod.jl:595-620 *)
Definition nondimensional_relative_gibbs_free_energy_per_link (nondimensional_link_stiffness :
    jarray T) (nondimensional_link_energy : jarray T) (nondimensional_force : jarray T) : result T
    :=
  broadcast [Float64; Float64; Float64] (fun nondimensional_link_stiffness_i
      nondimensional_link_energy_i nondimensional_force_i => ccall
      lib.physics_single_chain_ufjc_morse_thermodynamics_isotensional_asymptotic_nondimensional_relative_gibbs_free_energy_per_link
      [Float64; Float64; Float64] nondimensional_link_stiffness_i nondimensional_link_energy_i
      nondimensional_force_i) nondimensional_link_stiffness nondimensional_link_energy
      nondimensional_force.

End Model.
End jl_morse_isotensional_asymptotic.

(** /repo/src/physics/single_chain/ufjc/morse/thermodynamics/isotensional/asymptotic/mod.jl: struct MORSEFJC *)
Module J_morse_isotensional_asymptotic.
(* /repo/src/physics/single_chain/ufjc/morse/thermodynamics/isotensional/asymptotic/mod.jl:20-97 *)
Record t {T : Type} := {
  number_of_links : Z;
  link_length : T;
  hinge_mass : T;
  link_stiffness : T;
  link_energy : T;
  reduced : J_morse_isotensional_asymptotic_reduced.t T;
  legendre : J_morse_isotensional_asymptotic_legendre.t T;
  end_to_end_length : jarray T -> jarray T -> result T;
  end_to_end_length_per_link : jarray T -> jarray T -> result T;
  nondimensional_end_to_end_length : jarray T -> T -> result T;
  nondimensional_end_to_end_length_per_link : jarray T -> T -> result T;
  gibbs_free_energy : jarray T -> jarray T -> result T;
  gibbs_free_energy_per_link : jarray T -> jarray T -> result T;
  relative_gibbs_free_energy : jarray T -> jarray T -> result T;
  relative_gibbs_free_energy_per_link : jarray T -> jarray T -> result T;
  nondimensional_gibbs_free_energy : jarray T -> T -> result T;
  nondimensional_gibbs_free_energy_per_link : jarray T -> T -> result T;
  nondimensional_relative_gibbs_free_energy : jarray T -> T -> result T;
  nondimensional_relative_gibbs_free_energy_per_link : jarray T -> T -> result T }.
Arguments t : clear implicits.
Section Model.
Context {T : Type} {Sc : Scalar T}.

(* /repo/src/physics/single_chain/ufjc/morse/thermodynamics/isotensional/asymptotic/mod.jl:627-743 *)
Definition init (number_of_links : Z) (link_length : T) (hinge_mass : T) (link_stiffness : T)
    (link_energy : T) : t T :=
  {| number_of_links := number_of_links;
     link_length := link_length;
     hinge_mass := hinge_mass;
     link_stiffness := link_stiffness;
     link_energy := link_energy;
     reduced := J_morse_isotensional_asymptotic_reduced.init number_of_links link_length hinge_mass
       link_stiffness link_energy;
     legendre := J_morse_isotensional_asymptotic_legendre.init number_of_links link_length hinge_mass
       link_stiffness link_energy;
     end_to_end_length := fun force temperature => jl_morse_isotensional_asymptotic.end_to_end_length
       (num number_of_links) (num link_length) (num link_stiffness) (num link_energy) force
       temperature;
     end_to_end_length_per_link := fun force temperature =>
       jl_morse_isotensional_asymptotic.end_to_end_length_per_link (num link_length) (num
       link_stiffness) (num link_energy) force temperature;
     nondimensional_end_to_end_length := fun nondimensional_force temperature =>
       jl_morse_isotensional_asymptotic.nondimensional_end_to_end_length (num number_of_links) (num
       (link_stiffness * spowi link_length 2 / jl_BOLTZMANN_CONSTANT / temperature)) (num
       (link_energy / jl_BOLTZMANN_CONSTANT / temperature)) nondimensional_force;
     nondimensional_end_to_end_length_per_link := fun nondimensional_force temperature =>
       jl_morse_isotensional_asymptotic.nondimensional_end_to_end_length_per_link (num
       (link_stiffness * spowi link_length 2 / jl_BOLTZMANN_CONSTANT / temperature)) (num
       (link_energy / jl_BOLTZMANN_CONSTANT / temperature)) nondimensional_force;
     gibbs_free_energy := fun force temperature => jl_morse_isotensional_asymptotic.gibbs_free_energy
       (num number_of_links) (num link_length) (num hinge_mass) (num link_stiffness) (num
       link_energy) force temperature;
     gibbs_free_energy_per_link := fun force temperature =>
       jl_morse_isotensional_asymptotic.gibbs_free_energy_per_link (num link_length) (num
       hinge_mass) (num link_stiffness) (num link_energy) force temperature;
     relative_gibbs_free_energy := fun force temperature =>
       jl_morse_isotensional_asymptotic.relative_gibbs_free_energy (num number_of_links) (num
       link_length) (num link_stiffness) (num link_energy) force temperature;
     relative_gibbs_free_energy_per_link := fun force temperature =>
       jl_morse_isotensional_asymptotic.relative_gibbs_free_energy_per_link (num link_length) (num
       link_stiffness) (num link_energy) force temperature;
     nondimensional_gibbs_free_energy := fun nondimensional_force temperature =>
       jl_morse_isotensional_asymptotic.nondimensional_gibbs_free_energy (num number_of_links) (num
       link_length) (num hinge_mass) (num (link_stiffness * spowi link_length 2 /
       jl_BOLTZMANN_CONSTANT / temperature)) (num (link_energy / jl_BOLTZMANN_CONSTANT /
       temperature)) nondimensional_force (num temperature);
     nondimensional_gibbs_free_energy_per_link := fun nondimensional_force temperature =>
       jl_morse_isotensional_asymptotic.nondimensional_gibbs_free_energy_per_link (num link_length)
       (num hinge_mass) (num (link_stiffness * spowi link_length 2 / jl_BOLTZMANN_CONSTANT /
       temperature)) (num (link_energy / jl_BOLTZMANN_CONSTANT / temperature)) nondimensional_force
       (num temperature);
     nondimensional_relative_gibbs_free_energy := fun nondimensional_force temperature =>
       jl_morse_isotensional_asymptotic.nondimensional_relative_gibbs_free_energy (num
       number_of_links) (num (link_stiffness * spowi link_length 2 / jl_BOLTZMANN_CONSTANT /
       temperature)) (num (link_energy / jl_BOLTZMANN_CONSTANT / temperature)) nondimensional_force;
     nondimensional_relative_gibbs_free_energy_per_link := fun nondimensional_force temperature =>
       jl_morse_isotensional_asymptotic.nondimensional_relative_gibbs_free_energy_per_link (num
       (link_stiffness * spowi link_length 2 / jl_BOLTZMANN_CONSTANT / temperature)) (num
       (link_energy / jl_BOLTZMANN_CONSTANT / temperature)) nondimensional_force |}.

End Model.
End J_morse_isotensional_asymptotic.

(** /repo/src/physics/single_chain/ufjc/morse/thermodynamics/isotensional/legendre/mod.jl *)
Module jl_morse_isotensional_legendre.
Section Model.
Context {T : Type} {Sc : Scalar T}.

(* /repo/src/physics/single_chain/ufjc/morse/thermodynamics/isotensional/legendre/mod.jl:81-122 *)
Definition helmholtz_free_energy (number_of_links : jarray Z) (link_length : jarray T) (hinge_mass :
    jarray T) (link_stiffness : jarray T) (link_energy : jarray T) (force : jarray T) (temperature :
    jarray T) : result T :=
  broadcast [UInt8; Float64; Float64; Float64; Float64; Float64; Float64] (fun number_of_links_i
      link_length_i hinge_mass_i link_stiffness_i link_energy_i force_i temperature_i => ccall
      lib.physics_single_chain_ufjc_morse_thermodynamics_isotensional_legendre_helmholtz_free_energy
      [UInt8; Float64; Float64; Float64; Float64; Float64; Float64] number_of_links_i link_length_i
      hinge_mass_i link_stiffness_i link_energy_i force_i temperature_i) number_of_links link_length
      hinge_mass link_stiffness link_energy force temperature.

(* /repo/src/physics/single_chain/ufjc/morse/thermodynamics/isotensional/legendre/mod.jl:130-167 *)
Definition helmholtz_free_energy_per_link (link_length : jarray T) (hinge_mass : jarray T)
    (link_stiffness : jarray T) (link_energy : jarray T) (force : jarray T) (temperature : jarray T)
    : result T :=
  broadcast [Float64; Float64; Float64; Float64; Float64; Float64] (fun link_length_i hinge_mass_i
      link_stiffness_i link_energy_i force_i temperature_i => ccall
      lib.physics_single_chain_ufjc_morse_thermodynamics_isotensional_legendre_helmholtz_free_energy_per_link
      [Float64; Float64; Float64; Float64; Float64; Float64] link_length_i hinge_mass_i
      link_stiffness_i link_energy_i force_i temperature_i) link_length hinge_mass link_stiffness
      link_energy force temperature.

(* /repo/src/physics/single_chain/ufjc/morse/thermodynamics/isotensional/legendre/mod.jl:175-212 *)
Definition relative_helmholtz_free_energy (number_of_links : jarray Z) (link_length : jarray T)
    (link_stiffness : jarray T) (link_energy : jarray T) (force : jarray T) (temperature : jarray T)
    : result T :=
  broadcast [UInt8; Float64; Float64; Float64; Float64; Float64] (fun number_of_links_i
      link_length_i link_stiffness_i link_energy_i force_i temperature_i => ccall
      lib.physics_single_chain_ufjc_morse_thermodynamics_isotensional_legendre_relative_helmholtz_free_energy
      [UInt8; Float64; Float64; Float64; Float64; Float64] number_of_links_i link_length_i
      link_stiffness_i link_energy_i force_i temperature_i) number_of_links link_length
      link_stiffness link_energy force temperature.

(* /repo/src/physics/single_chain/ufjc/morse/thermodynamics/isotensional/legendre/mod.jl:220-247 *)
Definition relative_helmholtz_free_energy_per_link (link_length : jarray T) (link_stiffness : jarray
    T) (link_energy : jarray T) (force : jarray T) (temperature : jarray T) : result T :=
  broadcast [Float64; Float64; Float64; Float64; Float64] (fun link_length_i link_stiffness_i
      link_energy_i force_i temperature_i => ccall
      lib.physics_single_chain_ufjc_morse_thermodynamics_isotensional_legendre_relative_helmholtz_free_energy_per_link
      [Float64; Float64; Float64; Float64; Float64] link_length_i link_stiffness_i link_energy_i
      force_i temperature_i) link_length link_stiffness link_energy force temperature.

(* /repo/src/physics/single_chain/ufjc/morse/thermodynamics/isotensional/legendre/mod.jl:255-296 *)
Definition nondimensional_helmholtz_free_energy (number_of_links : jarray Z) (link_length : jarray
    T) (hinge_mass : jarray T) (nondimensional_link_stiffness : jarray T)
    (nondimensional_link_energy : jarray T) (nondimensional_force : jarray T) (temperature : jarray
    T) : result T :=
  broadcast [UInt8; Float64; Float64; Float64; Float64; Float64; Float64] (fun number_of_links_i
      link_length_i hinge_mass_i nondimensional_link_stiffness_i nondimensional_link_energy_i
      nondimensional_force_i temperature_i => ccall
      lib.physics_single_chain_ufjc_morse_thermodynamics_isotensional_legendre_nondimensional_helmholtz_free_energy
      [UInt8; Float64; Float64; Float64; Float64; Float64; Float64] number_of_links_i link_length_i
      hinge_mass_i nondimensional_link_stiffness_i nondimensional_link_energy_i
      nondimensional_force_i temperature_i) number_of_links link_length hinge_mass
      nondimensional_link_stiffness nondimensional_link_energy nondimensional_force temperature.

(* /repo/src/physics/single_chain/ufjc/morse/thermodynamics/isotensional/legendre/mod.jl:304-341 *)
Definition nondimensional_helmholtz_free_energy_per_link (link_length : jarray T) (hinge_mass :
    jarray T) (nondimensional_link_stiffness : jarray T) (nondimensional_link_energy : jarray T)
    (nondimensional_force : jarray T) (temperature : jarray T) : result T :=
  broadcast [Float64; Float64; Float64; Float64; Float64; Float64] (fun link_length_i hinge_mass_i
      nondimensional_link_stiffness_i nondimensional_link_energy_i nondimensional_force_i
      temperature_i => ccall
      lib.physics_single_chain_ufjc_morse_thermodynamics_isotensional_legendre_nondimensional_helmholtz_free_energy_per_link
      [Float64; Float64; Float64; Float64; Float64; Float64] link_length_i hinge_mass_i
      nondimensional_link_stiffness_i nondimensional_link_energy_i nondimensional_force_i
      temperature_i) link_length hinge_mass nondimensional_link_stiffness nondimensional_link_energy
      nondimensional_force temperature.

(* /repo/src/physics/single_chain/ufjc/morse/thermodynamics/isotensional/legendre/mod.jl:349-378 *)
Definition nondimensional_relative_helmholtz_free_energy (number_of_links : jarray Z)
    (nondimensional_link_stiffness : jarray T) (nondimensional_link_energy : jarray T)
    (nondimensional_force : jarray T) : result T :=
  broadcast [UInt8; Float64; Float64; Float64] (fun number_of_links_i
      nondimensional_link_stiffness_i nondimensional_link_energy_i nondimensional_force_i => ccall
      lib.physics_single_chain_ufjc_morse_thermodynamics_isotensional_legendre_nondimensional_relative_helmholtz_free_energy
      [UInt8; Float64; Float64; Float64] number_of_links_i nondimensional_link_stiffness_i
      nondimensional_link_energy_i nondimensional_force_i) number_of_links
      nondimensional_link_stiffness nondimensional_link_energy nondimensional_force.

(* /repo/src/physics/single_chain/ufjc/morse/thermodynamics/isotensional/legendre/mod.jl:386-411 *)
Definition nondimensional_relative_helmholtz_free_energy_per_link (nondimensional_link_stiffness :
    jarray T) (nondimensional_link_energy : jarray T) (nondimensional_force : jarray T) : result T
    :=
  broadcast [Float64; Float64; Float64] (fun nondimensional_link_stiffness_i
      nondimensional_link_energy_i nondimensional_force_i => ccall
      lib.physics_single_chain_ufjc_morse_thermodynamics_isotensional_legendre_nondimensional_relative_helmholtz_free_energy_per_link
      [Float64; Float64; Float64] nondimensional_link_stiffness_i nondimensional_link_energy_i
      nondimensional_force_i) nondimensional_link_stiffness nondimensional_link_energy
      nondimensional_force.

End Model.
End jl_morse_isotensional_legendre.

(** /repo/src/physics/single_chain/ufjc/morse/thermodynamics/isotensional/legendre/mod.jl: struct MORSEFJC *)
Module J_morse_isotensional_legendre.
(* /repo/src/physics/single_chain/ufjc/morse/thermodynamics/isotensional/legendre/mod.jl:16-69 *)
Record t {T : Type} := {
  number_of_links : Z;
  link_length : T;
  hinge_mass : T;
  link_stiffness : T;
  link_energy : T;
  helmholtz_free_energy : jarray T -> jarray T -> result T;
  helmholtz_free_energy_per_link : jarray T -> jarray T -> result T;
  relative_helmholtz_free_energy : jarray T -> jarray T -> result T;
  relative_helmholtz_free_energy_per_link : jarray T -> jarray T -> result T;
  nondimensional_helmholtz_free_energy : jarray T -> T -> result T;
  nondimensional_helmholtz_free_energy_per_link : jarray T -> T -> result T;
  nondimensional_relative_helmholtz_free_energy : jarray T -> T -> result T;
  nondimensional_relative_helmholtz_free_energy_per_link : jarray T -> T -> result T }.
Arguments t : clear implicits.
Section Model.
Context {T : Type} {Sc : Scalar T}.

(* /repo/src/physics/single_chain/ufjc/morse/thermodynamics/isotensional/legendre/mod.jl:418-496 *)
Definition init (number_of_links : Z) (link_length : T) (hinge_mass : T) (link_stiffness : T)
    (link_energy : T) : t T :=
  {| number_of_links := number_of_links;
     link_length := link_length;
     hinge_mass := hinge_mass;
     link_stiffness := link_stiffness;
     link_energy := link_energy;
     helmholtz_free_energy := fun force temperature =>
       jl_morse_isotensional_legendre.helmholtz_free_energy (num number_of_links) (num link_length)
       (num hinge_mass) (num link_stiffness) (num link_energy) force temperature;
     helmholtz_free_energy_per_link := fun force temperature =>
       jl_morse_isotensional_legendre.helmholtz_free_energy_per_link (num link_length) (num
       hinge_mass) (num link_stiffness) (num link_energy) force temperature;
     relative_helmholtz_free_energy := fun force temperature =>
       jl_morse_isotensional_legendre.relative_helmholtz_free_energy (num number_of_links) (num
       link_length) (num link_stiffness) (num link_energy) force temperature;
     relative_helmholtz_free_energy_per_link := fun force temperature =>
       jl_morse_isotensional_legendre.relative_helmholtz_free_energy_per_link (num link_length) (num
       link_stiffness) (num link_energy) force temperature;
     nondimensional_helmholtz_free_energy := fun nondimensional_force temperature =>
       jl_morse_isotensional_legendre.nondimensional_helmholtz_free_energy (num number_of_links)
       (num link_length) (num hinge_mass) (num (link_stiffness * spowi link_length 2 /
       jl_BOLTZMANN_CONSTANT / temperature)) (num (link_energy / jl_BOLTZMANN_CONSTANT /
       temperature)) nondimensional_force (num temperature);
     nondimensional_helmholtz_free_energy_per_link := fun nondimensional_force temperature =>
       jl_morse_isotensional_legendre.nondimensional_helmholtz_free_energy_per_link (num
       link_length) (num hinge_mass) (num (link_stiffness * spowi link_length 2 /
       jl_BOLTZMANN_CONSTANT / temperature)) (num (link_energy / jl_BOLTZMANN_CONSTANT /
       temperature)) nondimensional_force (num temperature);
     nondimensional_relative_helmholtz_free_energy := fun nondimensional_force temperature =>
       jl_morse_isotensional_legendre.nondimensional_relative_helmholtz_free_energy (num
       number_of_links) (num (link_stiffness * spowi link_length 2 / jl_BOLTZMANN_CONSTANT /
       temperature)) (num (link_energy / jl_BOLTZMANN_CONSTANT / temperature)) nondimensional_force;
     nondimensional_relative_helmholtz_free_energy_per_link := fun nondimensional_force temperature =>
       jl_morse_isotensional_legendre.nondimensional_relative_helmholtz_free_energy_per_link (num
       (link_stiffness * spowi link_length 2 / jl_BOLTZMANN_CONSTANT / temperature)) (num
       (link_energy / jl_BOLTZMANN_CONSTANT / temperature)) nondimensional_force |}.

End Model.
End J_morse_isotensional_legendre.

(** /repo/src/physics/single_chain/efjc/thermodynamics/isometric/asymptotic/mod.jl: struct EFJC *)
Module J_efjc_isometric_asymptotic.
(* /repo/src/physics/single_chain/efjc/thermodynamics/isometric/asymptotic/mod.jl:18-47 *)
Record t {T : Type} := {
  number_of_links : Z;
  link_length : T;
  hinge_mass : T;
  link_stiffness : T;
  alternative : J_efjc_isometric_asymptotic_alternative.t T;
  reduced : J_efjc_isometric_asymptotic_reduced.t T;
  legendre : J_efjc_isometric_asymptotic_legendre.t T }.
Arguments t : clear implicits.
Section Model.
Context {T : Type} {Sc : Scalar T}.

(* /repo/src/physics/single_chain/efjc/thermodynamics/isometric/asymptotic/mod.jl:54-69 *)
Definition init (number_of_links : Z) (link_length : T) (hinge_mass : T) (link_stiffness : T) : t T
    :=
  {| number_of_links := number_of_links;
     link_length := link_length;
     hinge_mass := hinge_mass;
     link_stiffness := link_stiffness;
     alternative := J_efjc_isometric_asymptotic_alternative.init number_of_links link_length hinge_mass
       link_stiffness;
     reduced := J_efjc_isometric_asymptotic_reduced.init number_of_links link_length hinge_mass
       link_stiffness;
     legendre := J_efjc_isometric_asymptotic_legendre.init number_of_links link_length hinge_mass
       link_stiffness |}.

End Model.
End J_efjc_isometric_asymptotic.

(** /repo/src/physics/single_chain/efjc/thermodynamics/isotensional/asymptotic/mod.jl *)
Module jl_efjc_isotensional_asymptotic.
Section Model.
Context {T : Type} {Sc : Scalar T}.

(* /repo/src/physics/single_chain/efjc/thermodynamics/isotensional/asymptotic/mod.jl:110-138 *)
Definition end_to_end_length (number_of_links : jarray Z) (link_length : jarray T) (link_stiffness :
    jarray T) (force : jarray T) (temperature : jarray T) : result T :=
  broadcast [UInt8; Float64; Float64; Float64; Float64] (fun number_of_links_i link_length_i
      link_stiffness_i force_i temperature_i => ccall
      lib.physics_single_chain_efjc_thermodynamics_isotensional_asymptotic_end_to_end_length [UInt8;
      Float64; Float64; Float64; Float64] number_of_links_i link_length_i link_stiffness_i force_i
      temperature_i) number_of_links link_length link_stiffness force temperature.

(* /repo/src/physics/single_chain/efjc/thermodynamics/isotensional/asymptotic/mod.jl:146-170 *)
Definition end_to_end_length_per_link (link_length : jarray T) (link_stiffness : jarray T) (force :
    jarray T) (temperature : jarray T) : result T :=
  broadcast [Float64; Float64; Float64; Float64] (fun link_length_i link_stiffness_i force_i
      temperature_i => ccall
      lib.physics_single_chain_efjc_thermodynamics_isotensional_asymptotic_end_to_end_length_per_link
      [Float64; Float64; Float64; Float64] link_length_i link_stiffness_i force_i temperature_i)
      link_length link_stiffness force temperature.

(* /repo/src/physics/single_chain/efjc/thermodynamics/isotensional/asymptotic/mod.jl:178-200 *)
Definition nondimensional_end_to_end_length (number_of_links : jarray Z)
    (nondimensional_link_stiffness : jarray T) (nondimensional_force : jarray T) : result T :=
  broadcast [UInt8; Float64; Float64] (fun number_of_links_i nondimensional_link_stiffness_i
      nondimensional_force_i => ccall
      lib.physics_single_chain_efjc_thermodynamics_isotensional_asymptotic_nondimensional_end_to_end_length
      [UInt8; Float64; Float64] number_of_links_i nondimensional_link_stiffness_i
      nondimensional_force_i) number_of_links nondimensional_link_stiffness nondimensional_force.

(* /repo/src/physics/single_chain/efjc/thermodynamics/isotensional/asymptotic/mod.jl:215-233 *)
Definition nondimensional_end_to_end_length_per_link (nondimensional_link_stiffness : jarray T)
    (nondimensional_force : jarray T) : result T :=
  broadcast [Float64; Float64] (fun nondimensional_link_stiffness_i nondimensional_force_i => ccall
      lib.physics_single_chain_efjc_thermodynamics_isotensional_asymptotic_nondimensional_end_to_end_length_per_link
      [Float64; Float64] nondimensional_link_stiffness_i nondimensional_force_i)
      nondimensional_link_stiffness nondimensional_force.

(* /repo/src/physics/single_chain/efjc/thermodynamics/isotensional/asymptotic/mod.jl:245-282 *)
Definition gibbs_free_energy (number_of_links : jarray Z) (link_length : jarray T) (hinge_mass :
    jarray T) (link_stiffness : jarray T) (force : jarray T) (temperature : jarray T) : result T :=
  broadcast [UInt8; Float64; Float64; Float64; Float64; Float64] (fun number_of_links_i
      link_length_i hinge_mass_i link_stiffness_i force_i temperature_i => ccall
      lib.physics_single_chain_efjc_thermodynamics_isotensional_asymptotic_gibbs_free_energy [UInt8;
      Float64; Float64; Float64; Float64; Float64] number_of_links_i link_length_i hinge_mass_i
      link_stiffness_i force_i temperature_i) number_of_links link_length hinge_mass link_stiffness
      force temperature.

(* /repo/src/physics/single_chain/efjc/thermodynamics/isotensional/asymptotic/mod.jl:290-317 *)
Definition gibbs_free_energy_per_link (link_length : jarray T) (hinge_mass : jarray T)
    (link_stiffness : jarray T) (force : jarray T) (temperature : jarray T) : result T :=
  broadcast [Float64; Float64; Float64; Float64; Float64] (fun link_length_i hinge_mass_i
      link_stiffness_i force_i temperature_i => ccall
      lib.physics_single_chain_efjc_thermodynamics_isotensional_asymptotic_gibbs_free_energy_per_link
      [Float64; Float64; Float64; Float64; Float64] link_length_i hinge_mass_i link_stiffness_i
      force_i temperature_i) link_length hinge_mass link_stiffness force temperature.

(* /repo/src/physics/single_chain/efjc/thermodynamics/isotensional/asymptotic/mod.jl:325-353 *)
Definition relative_gibbs_free_energy (number_of_links : jarray Z) (link_length : jarray T)
    (link_stiffness : jarray T) (force : jarray T) (temperature : jarray T) : result T :=
  broadcast [UInt8; Float64; Float64; Float64; Float64] (fun number_of_links_i link_length_i
      link_stiffness_i force_i temperature_i => ccall
      lib.physics_single_chain_efjc_thermodynamics_isotensional_asymptotic_relative_gibbs_free_energy
      [UInt8; Float64; Float64; Float64; Float64] number_of_links_i link_length_i link_stiffness_i
      force_i temperature_i) number_of_links link_length link_stiffness force temperature.

(* /repo/src/physics/single_chain/efjc/thermodynamics/isotensional/asymptotic/mod.jl:361-385 *)
Definition relative_gibbs_free_energy_per_link (link_length : jarray T) (link_stiffness : jarray T)
    (force : jarray T) (temperature : jarray T) : result T :=
  broadcast [Float64; Float64; Float64; Float64] (fun link_length_i link_stiffness_i force_i
      temperature_i => ccall
      lib.physics_single_chain_efjc_thermodynamics_isotensional_asymptotic_relative_gibbs_free_energy_per_link
      [Float64; Float64; Float64; Float64] link_length_i link_stiffness_i force_i temperature_i)
      link_length link_stiffness force temperature.

(* /repo/src/physics/single_chain/efjc/thermodynamics/isotensional/asymptotic/mod.jl:393-430 *)
Definition nondimensional_gibbs_free_energy (number_of_links : jarray Z) (link_length : jarray T)
    (hinge_mass : jarray T) (nondimensional_link_stiffness : jarray T) (nondimensional_force :
    jarray T) (temperature : jarray T) : result T :=
  broadcast [UInt8; Float64; Float64; Float64; Float64; Float64] (fun number_of_links_i
      link_length_i hinge_mass_i nondimensional_link_stiffness_i nondimensional_force_i
      temperature_i => ccall
      lib.physics_single_chain_efjc_thermodynamics_isotensional_asymptotic_nondimensional_gibbs_free_energy
      [UInt8; Float64; Float64; Float64; Float64; Float64] number_of_links_i link_length_i
      hinge_mass_i nondimensional_link_stiffness_i nondimensional_force_i temperature_i)
      number_of_links link_length hinge_mass nondimensional_link_stiffness nondimensional_force
      temperature.

(* /repo/src/physics/single_chain/efjc/thermodynamics/isotensional/asymptotic/mod.jl:438-471 *)
Definition nondimensional_gibbs_free_energy_per_link (link_length : jarray T) (hinge_mass : jarray
    T) (nondimensional_link_stiffness : jarray T) (nondimensional_force : jarray T) (temperature :
    jarray T) : result T :=
  broadcast [Float64; Float64; Float64; Float64; Float64] (fun link_length_i hinge_mass_i
      nondimensional_link_stiffness_i nondimensional_force_i temperature_i => ccall
      lib.physics_single_chain_efjc_thermodynamics_isotensional_asymptotic_nondimensional_gibbs_free_energy_per_link
      [Float64; Float64; Float64; Float64; Float64] link_length_i hinge_mass_i
      nondimensional_link_stiffness_i nondimensional_force_i temperature_i) link_length hinge_mass
      nondimensional_link_stiffness nondimensional_force temperature.

(* /repo/src/physics/single_chain/efjc/thermodynamics/isotensional/asymptotic/mod.jl:479-501 *)
Definition nondimensional_relative_gibbs_free_energy (number_of_links : jarray Z)
    (nondimensional_link_stiffness : jarray T) (nondimensional_force : jarray T) : result T :=
  broadcast [UInt8; Float64; Float64] (fun number_of_links_i nondimensional_link_stiffness_i
      nondimensional_force_i => ccall
      lib.physics_single_chain_efjc_thermodynamics_isotensional_asymptotic_nondimensional_relative_gibbs_free_energy
      [UInt8; Float64; Float64] number_of_links_i nondimensional_link_stiffness_i
      nondimensional_force_i) number_of_links nondimensional_link_stiffness nondimensional_force.

(* /repo/src/physics/single_chain/efjc/thermodynamics/isotensional/asymptotic/mod.jl:514-532 *)
Definition nondimensional_relative_gibbs_free_energy_per_link (nondimensional_link_stiffness :
    jarray T) (nondimensional_force : jarray T) : result T :=
  broadcast [Float64; Float64] (fun nondimensional_link_stiffness_i nondimensional_force_i => ccall
      lib.physics_single_chain_efjc_thermodynamics_isotensional_asymptotic_nondimensional_relative_gibbs_free_energy_per_link
      [Float64; Float64] nondimensional_link_stiffness_i nondimensional_force_i)
      nondimensional_link_stiffness nondimensional_force.

End Model.
End jl_efjc_isotensional_asymptotic.

(** /repo/src/physics/single_chain/efjc/thermodynamics/isotensional/asymptotic/mod.jl: struct EFJC *)
Module J_efjc_isotensional_asymptotic.
(* /repo/src/physics/single_chain/efjc/thermodynamics/isotensional/asymptotic/mod.jl:21-98 *)
Record t {T : Type} := {
  number_of_links : Z;
  link_length : T;
  hinge_mass : T;
  link_stiffness : T;
  alternative : J_efjc_isotensional_asymptotic_alternative.t T;
  reduced : J_efjc_isotensional_asymptotic_reduced.t T;
  legendre : J_efjc_isotensional_asymptotic_legendre.t T;
  end_to_end_length : jarray T -> jarray T -> result T;
  end_to_end_length_per_link : jarray T -> jarray T -> result T;
  nondimensional_end_to_end_length : jarray T -> T -> result T;
  nondimensional_end_to_end_length_per_link : jarray T -> T -> result T;
  gibbs_free_energy : jarray T -> jarray T -> result T;
  gibbs_free_energy_per_link : jarray T -> jarray T -> result T;
  relative_gibbs_free_energy : jarray T -> jarray T -> result T;
  relative_gibbs_free_energy_per_link : jarray T -> jarray T -> result T;
  nondimensional_gibbs_free_energy : jarray T -> T -> result T;
  nondimensional_gibbs_free_energy_per_link : jarray T -> T -> result T;
  nondimensional_relative_gibbs_free_energy : jarray T -> T -> result T;
  nondimensional_relative_gibbs_free_energy_per_link : jarray T -> T -> result T }.
Arguments t : clear implicits.
Section Model.
Context {T : Type} {Sc : Scalar T}.

(* /repo/src/physics/single_chain/efjc/thermodynamics/isotensional/asymptotic/mod.jl:539-626 *)
Definition init (number_of_links : Z) (link_length : T) (hinge_mass : T) (link_stiffness : T) : t T
    :=
  {| number_of_links := number_of_links;
     link_length := link_length;
     hinge_mass := hinge_mass;
     link_stiffness := link_stiffness;
     alternative := J_efjc_isotensional_asymptotic_alternative.init number_of_links link_length
       hinge_mass link_stiffness;
     reduced := J_efjc_isotensional_asymptotic_reduced.init number_of_links link_length hinge_mass
       link_stiffness;
     legendre := J_efjc_isotensional_asymptotic_legendre.init number_of_links link_length hinge_mass
       link_stiffness;
     end_to_end_length := fun force temperature => jl_efjc_isotensional_asymptotic.end_to_end_length (num
       number_of_links) (num link_length) (num link_stiffness) force temperature;
     end_to_end_length_per_link := fun force temperature =>
       jl_efjc_isotensional_asymptotic.end_to_end_length_per_link (num link_length) (num
       link_stiffness) force temperature;
     nondimensional_end_to_end_length := fun nondimensional_force temperature =>
       jl_efjc_isotensional_asymptotic.nondimensional_end_to_end_length (num number_of_links) (num
       (link_stiffness * spowi link_length 2 / jl_BOLTZMANN_CONSTANT / temperature))
       nondimensional_force;
     nondimensional_end_to_end_length_per_link := fun nondimensional_force temperature =>
       jl_efjc_isotensional_asymptotic.nondimensional_end_to_end_length_per_link (num
       (link_stiffness * spowi link_length 2 / jl_BOLTZMANN_CONSTANT / temperature))
       nondimensional_force;
     gibbs_free_energy := fun force temperature => jl_efjc_isotensional_asymptotic.gibbs_free_energy (num
       number_of_links) (num link_length) (num hinge_mass) (num link_stiffness) force temperature;
     gibbs_free_energy_per_link := fun force temperature =>
       jl_efjc_isotensional_asymptotic.gibbs_free_energy_per_link (num link_length) (num hinge_mass)
       (num link_stiffness) force temperature;
     relative_gibbs_free_energy := fun force temperature =>
       jl_efjc_isotensional_asymptotic.relative_gibbs_free_energy (num number_of_links) (num
       link_length) (num link_stiffness) force temperature;
     relative_gibbs_free_energy_per_link := fun force temperature =>
       jl_efjc_isotensional_asymptotic.relative_gibbs_free_energy_per_link (num link_length) (num
       link_stiffness) force temperature;
     nondimensional_gibbs_free_energy := fun nondimensional_force temperature =>
       jl_efjc_isotensional_asymptotic.nondimensional_gibbs_free_energy (num number_of_links) (num
       link_length) (num hinge_mass) (num (link_stiffness * spowi link_length 2 /
       jl_BOLTZMANN_CONSTANT / temperature)) nondimensional_force (num temperature);
     nondimensional_gibbs_free_energy_per_link := fun nondimensional_force temperature =>
       jl_efjc_isotensional_asymptotic.nondimensional_gibbs_free_energy_per_link (num link_length)
       (num hinge_mass) (num (link_stiffness * spowi link_length 2 / jl_BOLTZMANN_CONSTANT /
       temperature)) nondimensional_force (num temperature);
     nondimensional_relative_gibbs_free_energy := fun nondimensional_force temperature =>
       jl_efjc_isotensional_asymptotic.nondimensional_relative_gibbs_free_energy (num
       number_of_links) (num (link_stiffness * spowi link_length 2 / jl_BOLTZMANN_CONSTANT /
       temperature)) nondimensional_force;
     nondimensional_relative_gibbs_free_energy_per_link := fun nondimensional_force temperature =>
       jl_efjc_isotensional_asymptotic.nondimensional_relative_gibbs_free_energy_per_link (num
       (link_stiffness * spowi link_length 2 / jl_BOLTZMANN_CONSTANT / temperature))
       nondimensional_force |}.

End Model.
End J_efjc_isotensional_asymptotic.

(** /repo/src/physics/single_chain/efjc/thermodynamics/isotensional/legendre/mod.jl *)
Module jl_efjc_isotensional_legendre.
Section Model.
Context {T : Type} {Sc : Scalar T}.

(* /repo/src/physics/single_chain/efjc/thermodynamics/isotensional/legendre/mod.jl:77-114 *)
Definition helmholtz_free_energy (number_of_links : jarray Z) (link_length : jarray T) (hinge_mass :
    jarray T) (link_stiffness : jarray T) (force : jarray T) (temperature : jarray T) : result T :=
  broadcast [UInt8; Float64; Float64; Float64; Float64; Float64] (fun number_of_links_i
      link_length_i hinge_mass_i link_stiffness_i force_i temperature_i => ccall
      lib.physics_single_chain_efjc_thermodynamics_isotensional_legendre_helmholtz_free_energy
      [UInt8; Float64; Float64; Float64; Float64; Float64] number_of_links_i link_length_i
      hinge_mass_i link_stiffness_i force_i temperature_i) number_of_links link_length hinge_mass
      link_stiffness force temperature.

(* /repo/src/physics/single_chain/efjc/thermodynamics/isotensional/legendre/mod.jl:122-149 *)
Definition helmholtz_free_energy_per_link (link_length : jarray T) (hinge_mass : jarray T)
    (link_stiffness : jarray T) (force : jarray T) (temperature : jarray T) : result T :=
  broadcast [Float64; Float64; Float64; Float64; Float64] (fun link_length_i hinge_mass_i
      link_stiffness_i force_i temperature_i => ccall
      lib.physics_single_chain_efjc_thermodynamics_isotensional_legendre_helmholtz_free_energy_per_link
      [Float64; Float64; Float64; Float64; Float64] link_length_i hinge_mass_i link_stiffness_i
      force_i temperature_i) link_length hinge_mass link_stiffness force temperature.

(* /repo/src/physics/single_chain/efjc/thermodynamics/isotensional/legendre/mod.jl:157-185 *)
Definition relative_helmholtz_free_energy (number_of_links : jarray Z) (link_length : jarray T)
    (link_stiffness : jarray T) (force : jarray T) (temperature : jarray T) : result T :=
  broadcast [UInt8; Float64; Float64; Float64; Float64] (fun number_of_links_i link_length_i
      link_stiffness_i force_i temperature_i => ccall
      lib.physics_single_chain_efjc_thermodynamics_isotensional_legendre_relative_helmholtz_free_energy
      [UInt8; Float64; Float64; Float64; Float64] number_of_links_i link_length_i link_stiffness_i
      force_i temperature_i) number_of_links link_length link_stiffness force temperature.

(* /repo/src/physics/single_chain/efjc/thermodynamics/isotensional/legendre/mod.jl:193-217 *)
Definition relative_helmholtz_free_energy_per_link (link_length : jarray T) (link_stiffness : jarray
    T) (force : jarray T) (temperature : jarray T) : result T :=
  broadcast [Float64; Float64; Float64; Float64] (fun link_length_i link_stiffness_i force_i
      temperature_i => ccall
      lib.physics_single_chain_efjc_thermodynamics_isotensional_legendre_relative_helmholtz_free_energy_per_link
      [Float64; Float64; Float64; Float64] link_length_i link_stiffness_i force_i temperature_i)
      link_length link_stiffness force temperature.

(* /repo/src/physics/single_chain/efjc/thermodynamics/isotensional/legendre/mod.jl:225-262 *)
Definition nondimensional_helmholtz_free_energy (number_of_links : jarray Z) (link_length : jarray
    T) (hinge_mass : jarray T) (nondimensional_link_stiffness : jarray T) (nondimensional_force :
    jarray T) (temperature : jarray T) : result T :=
  broadcast [UInt8; Float64; Float64; Float64; Float64; Float64] (fun number_of_links_i
      link_length_i hinge_mass_i nondimensional_link_stiffness_i nondimensional_force_i
      temperature_i => ccall
      lib.physics_single_chain_efjc_thermodynamics_isotensional_legendre_nondimensional_helmholtz_free_energy
      [UInt8; Float64; Float64; Float64; Float64; Float64] number_of_links_i link_length_i
      hinge_mass_i nondimensional_link_stiffness_i nondimensional_force_i temperature_i)
      number_of_links link_length hinge_mass nondimensional_link_stiffness nondimensional_force
      temperature.

(* /repo/src/physics/single_chain/efjc/thermodynamics/isotensional/legendre/mod.jl:270-303 *)
Definition nondimensional_helmholtz_free_energy_per_link (link_length : jarray T) (hinge_mass :
    jarray T) (nondimensional_link_stiffness : jarray T) (nondimensional_force : jarray T)
    (temperature : jarray T) : result T :=
  broadcast [Float64; Float64; Float64; Float64; Float64] (fun link_length_i hinge_mass_i
      nondimensional_link_stiffness_i nondimensional_force_i temperature_i => ccall
      lib.physics_single_chain_efjc_thermodynamics_isotensional_legendre_nondimensional_helmholtz_free_energy_per_link
      [Float64; Float64; Float64; Float64; Float64] link_length_i hinge_mass_i
      nondimensional_link_stiffness_i nondimensional_force_i temperature_i) link_length hinge_mass
      nondimensional_link_stiffness nondimensional_force temperature.

(* /repo/src/physics/single_chain/efjc/thermodynamics/isotensional/legendre/mod.jl:311-333 *)
Definition nondimensional_relative_helmholtz_free_energy (number_of_links : jarray Z)
    (nondimensional_link_stiffness : jarray T) (nondimensional_force : jarray T) : result T :=
  broadcast [UInt8; Float64; Float64] (fun number_of_links_i nondimensional_link_stiffness_i
      nondimensional_force_i => ccall
      lib.physics_single_chain_efjc_thermodynamics_isotensional_legendre_nondimensional_relative_helmholtz_free_energy
      [UInt8; Float64; Float64] number_of_links_i nondimensional_link_stiffness_i
      nondimensional_force_i) number_of_links nondimensional_link_stiffness nondimensional_force.

(* /repo/src/physics/single_chain/efjc/thermodynamics/isotensional/legendre/mod.jl:341-359 *)
Definition nondimensional_relative_helmholtz_free_energy_per_link (nondimensional_link_stiffness :
    jarray T) (nondimensional_force : jarray T) : result T :=
  broadcast [Float64; Float64] (fun nondimensional_link_stiffness_i nondimensional_force_i => ccall
      lib.physics_single_chain_efjc_thermodynamics_isotensional_legendre_nondimensional_relative_helmholtz_free_energy_per_link
      [Float64; Float64] nondimensional_link_stiffness_i nondimensional_force_i)
      nondimensional_link_stiffness nondimensional_force.

End Model.
End jl_efjc_isotensional_legendre.

(** /repo/src/physics/single_chain/efjc/thermodynamics/isotensional/legendre/mod.jl: struct EFJC *)
Module J_efjc_isotensional_legendre.
(* /repo/src/physics/single_chain/efjc/thermodynamics/isotensional/legendre/mod.jl:16-65 *)
Record t {T : Type} := {
  number_of_links : Z;
  link_length : T;
  hinge_mass : T;
  link_stiffness : T;
  helmholtz_free_energy : jarray T -> jarray T -> result T;
  helmholtz_free_energy_per_link : jarray T -> jarray T -> result T;
  relative_helmholtz_free_energy : jarray T -> jarray T -> result T;
  relative_helmholtz_free_energy_per_link : jarray T -> jarray T -> result T;
  nondimensional_helmholtz_free_energy : jarray T -> T -> result T;
  nondimensional_helmholtz_free_energy_per_link : jarray T -> T -> result T;
  nondimensional_relative_helmholtz_free_energy : jarray T -> T -> result T;
  nondimensional_relative_helmholtz_free_energy_per_link : jarray T -> T -> result T }.
Arguments t : clear implicits.
Section Model.
Context {T : Type} {Sc : Scalar T}.

(* /repo/src/physics/single_chain/efjc/thermodynamics/isotensional/legendre/mod.jl:366-434 *)
Definition init (number_of_links : Z) (link_length : T) (hinge_mass : T) (link_stiffness : T) : t T
    :=
  {| number_of_links := number_of_links;
     link_length := link_length;
     hinge_mass := hinge_mass;
     link_stiffness := link_stiffness;
     helmholtz_free_energy := fun force temperature =>
       jl_efjc_isotensional_legendre.helmholtz_free_energy (num number_of_links) (num link_length)
       (num hinge_mass) (num link_stiffness) force temperature;
     helmholtz_free_energy_per_link := fun force temperature =>
       jl_efjc_isotensional_legendre.helmholtz_free_energy_per_link (num link_length) (num
       hinge_mass) (num link_stiffness) force temperature;
     relative_helmholtz_free_energy := fun force temperature =>
       jl_efjc_isotensional_legendre.relative_helmholtz_free_energy (num number_of_links) (num
       link_length) (num link_stiffness) force temperature;
     relative_helmholtz_free_energy_per_link := fun force temperature =>
       jl_efjc_isotensional_legendre.relative_helmholtz_free_energy_per_link (num link_length) (num
       link_stiffness) force temperature;
     nondimensional_helmholtz_free_energy := fun nondimensional_force temperature =>
       jl_efjc_isotensional_legendre.nondimensional_helmholtz_free_energy (num number_of_links) (num
       link_length) (num hinge_mass) (num (link_stiffness * spowi link_length 2 /
       jl_BOLTZMANN_CONSTANT / temperature)) nondimensional_force (num temperature);
     nondimensional_helmholtz_free_energy_per_link := fun nondimensional_force temperature =>
       jl_efjc_isotensional_legendre.nondimensional_helmholtz_free_energy_per_link (num link_length)
       (num hinge_mass) (num (link_stiffness * spowi link_length 2 / jl_BOLTZMANN_CONSTANT /
       temperature)) nondimensional_force (num temperature);
     nondimensional_relative_helmholtz_free_energy := fun nondimensional_force temperature =>
       jl_efjc_isotensional_legendre.nondimensional_relative_helmholtz_free_energy (num
       number_of_links) (num (link_stiffness * spowi link_length 2 / jl_BOLTZMANN_CONSTANT /
       temperature)) nondimensional_force;
     nondimensional_relative_helmholtz_free_energy_per_link := fun nondimensional_force temperature =>
       jl_efjc_isotensional_legendre.nondimensional_relative_helmholtz_free_energy_per_link (num
       (link_stiffness * spowi link_length 2 / jl_BOLTZMANN_CONSTANT / temperature))
       nondimensional_force |}.

End Model.
End J_efjc_isotensional_legendre.

(** /repo/src/physics/single_chain/fjc/thermodynamics/isometric/legendre/mod.jl *)
Module jl_fjc_isometric_legendre.
Section Model.
Context {T : Type} {Sc : Scalar T}.

(* /repo/src/physics/single_chain/fjc/thermodynamics/isometric/legendre/mod.jl:131-155 *)
Definition force (number_of_links : jarray Z) (link_length : jarray T) (end_to_end_length : jarray
    T) (temperature : jarray T) : result T :=
  broadcast [UInt8; Float64; Float64; Float64] (fun number_of_links_i link_length_i
      end_to_end_length_i temperature_i => ccall
      lib.physics_single_chain_fjc_thermodynamics_isometric_legendre_force [UInt8; Float64; Float64;
      Float64] number_of_links_i link_length_i end_to_end_length_i temperature_i) number_of_links
      link_length end_to_end_length temperature.

(* /repo/src/physics/single_chain/fjc/thermodynamics/isometric/legendre/mod.jl:168-183 *)
Definition nondimensional_force (nondimensional_end_to_end_length_per_link : jarray T) : result T :=
  broadcast [Float64] (fun nondimensional_end_to_end_length_per_link_i => ccall
      lib.physics_single_chain_fjc_thermodynamics_isometric_legendre_nondimensional_force [Float64]
      nondimensional_end_to_end_length_per_link_i) nondimensional_end_to_end_length_per_link.

(* /repo/src/physics/single_chain/fjc/thermodynamics/isometric/legendre/mod.jl:197-230 *)
Definition helmholtz_free_energy (number_of_links : jarray Z) (link_length : jarray T) (hinge_mass :
    jarray T) (end_to_end_length : jarray T) (temperature : jarray T) : result T :=
  broadcast [UInt8; Float64; Float64; Float64; Float64] (fun number_of_links_i link_length_i
      hinge_mass_i end_to_end_length_i temperature_i => ccall
      lib.physics_single_chain_fjc_thermodynamics_isometric_legendre_helmholtz_free_energy [UInt8;
      Float64; Float64; Float64; Float64] number_of_links_i link_length_i hinge_mass_i
      end_to_end_length_i temperature_i) number_of_links link_length hinge_mass end_to_end_length
      temperature.

(* /repo/src/physics/single_chain/fjc/thermodynamics/isometric/legendre/mod.jl:238-271 *)
Definition helmholtz_free_energy_per_link (number_of_links : jarray Z) (link_length : jarray T)
    (hinge_mass : jarray T) (end_to_end_length : jarray T) (temperature : jarray T) : result T :=
  broadcast [UInt8; Float64; Float64; Float64; Float64] (fun number_of_links_i link_length_i
      hinge_mass_i end_to_end_length_i temperature_i => ccall
      lib.physics_single_chain_fjc_thermodynamics_isometric_legendre_helmholtz_free_energy_per_link
      [UInt8; Float64; Float64; Float64; Float64] number_of_links_i link_length_i hinge_mass_i
      end_to_end_length_i temperature_i) number_of_links link_length hinge_mass end_to_end_length
      temperature.

(* /repo/src/physics/single_chain/fjc/thermodynamics/isometric/legendre/mod.jl:279-303 *)
Definition relative_helmholtz_free_energy (number_of_links : jarray Z) (link_length : jarray T)
    (end_to_end_length : jarray T) (temperature : jarray T) : result T :=
  broadcast [UInt8; Float64; Float64; Float64] (fun number_of_links_i link_length_i
      end_to_end_length_i temperature_i => ccall
      lib.physics_single_chain_fjc_thermodynamics_isometric_legendre_relative_helmholtz_free_energy
      [UInt8; Float64; Float64; Float64] number_of_links_i link_length_i end_to_end_length_i
      temperature_i) number_of_links link_length end_to_end_length temperature.

(* /repo/src/physics/single_chain/fjc/thermodynamics/isometric/legendre/mod.jl:311-335 *)
Definition relative_helmholtz_free_energy_per_link (number_of_links : jarray Z) (link_length :
    jarray T) (end_to_end_length : jarray T) (temperature : jarray T) : result T :=
  broadcast [UInt8; Float64; Float64; Float64] (fun number_of_links_i link_length_i
      end_to_end_length_i temperature_i => ccall
      lib.physics_single_chain_fjc_thermodynamics_isometric_legendre_relative_helmholtz_free_energy_per_link
      [UInt8; Float64; Float64; Float64] number_of_links_i link_length_i end_to_end_length_i
      temperature_i) number_of_links link_length end_to_end_length temperature.

(* /repo/src/physics/single_chain/fjc/thermodynamics/isometric/legendre/mod.jl:343-376 *)
Definition nondimensional_helmholtz_free_energy (number_of_links : jarray Z) (link_length : jarray
    T) (hinge_mass : jarray T) (nondimensional_end_to_end_length_per_link : jarray T) (temperature :
    jarray T) : result T :=
  broadcast [UInt8; Float64; Float64; Float64; Float64] (fun number_of_links_i link_length_i
      hinge_mass_i nondimensional_end_to_end_length_per_link_i temperature_i => ccall
      lib.physics_single_chain_fjc_thermodynamics_isometric_legendre_nondimensional_helmholtz_free_energy
      [UInt8; Float64; Float64; Float64; Float64] number_of_links_i link_length_i hinge_mass_i
      nondimensional_end_to_end_length_per_link_i temperature_i) number_of_links link_length
      hinge_mass nondimensional_end_to_end_length_per_link temperature.

(* /repo/src/physics/single_chain/fjc/thermodynamics/isometric/legendre/mod.jl:391-424 *)
Definition nondimensional_helmholtz_free_energy_per_link (number_of_links : jarray Z) (link_length :
    jarray T) (hinge_mass : jarray T) (nondimensional_end_to_end_length_per_link : jarray T)
    (temperature : jarray T) : result T :=
  broadcast [UInt8; Float64; Float64; Float64; Float64] (fun number_of_links_i link_length_i
      hinge_mass_i nondimensional_end_to_end_length_per_link_i temperature_i => ccall
      lib.physics_single_chain_fjc_thermodynamics_isometric_legendre_nondimensional_helmholtz_free_energy_per_link
      [UInt8; Float64; Float64; Float64; Float64] number_of_links_i link_length_i hinge_mass_i
      nondimensional_end_to_end_length_per_link_i temperature_i) number_of_links link_length
      hinge_mass nondimensional_end_to_end_length_per_link temperature.

(* /repo/src/physics/single_chain/fjc/thermodynamics/isometric/legendre/mod.jl:432-450 *)
Definition nondimensional_relative_helmholtz_free_energy (number_of_links : jarray Z)
    (nondimensional_end_to_end_length_per_link : jarray T) : result T :=
  broadcast [UInt8; Float64] (fun number_of_links_i nondimensional_end_to_end_length_per_link_i =>
      ccall
      lib.physics_single_chain_fjc_thermodynamics_isometric_legendre_nondimensional_relative_helmholtz_free_energy
      [UInt8; Float64] number_of_links_i nondimensional_end_to_end_length_per_link_i)
      number_of_links nondimensional_end_to_end_length_per_link.

(* /repo/src/physics/single_chain/fjc/thermodynamics/isometric/legendre/mod.jl:464-479 *)
Definition nondimensional_relative_helmholtz_free_energy_per_link
    (nondimensional_end_to_end_length_per_link : jarray T) : result T :=
  broadcast [Float64] (fun nondimensional_end_to_end_length_per_link_i => ccall
      lib.physics_single_chain_fjc_thermodynamics_isometric_legendre_nondimensional_relative_helmholtz_free_energy_per_link
      [Float64] nondimensional_end_to_end_length_per_link_i)
      nondimensional_end_to_end_length_per_link.

(* /repo/src/physics/single_chain/fjc/thermodynamics/isometric/legendre/mod.jl:491-514 *)
Definition equilibrium_distribution (number_of_links : jarray Z) (link_length : jarray T)
    (normalization_nondimensional_equilibrium_distribution : T) (end_to_end_length : jarray T) :
    result T :=
  broadcast [UInt8; Float64; Float64] (fun number_of_links_i link_length_i end_to_end_length_i =>
      ccall lib.physics_single_chain_fjc_thermodynamics_isometric_legendre_equilibrium_distribution
      [UInt8; Float64; Float64; Float64] number_of_links_i link_length_i
      normalization_nondimensional_equilibrium_distribution end_to_end_length_i) number_of_links
      link_length end_to_end_length.

(* /repo/src/physics/single_chain/fjc/thermodynamics/isometric/legendre/mod.jl:526-546 *)
Definition nondimensional_equilibrium_distribution (number_of_links : jarray Z)
    (normalization_nondimensional_equilibrium_distribution : T)
    (nondimensional_end_to_end_length_per_link : jarray T) : result T :=
  broadcast [UInt8; Float64] (fun number_of_links_i nondimensional_end_to_end_length_per_link_i =>
      ccall
      lib.physics_single_chain_fjc_thermodynamics_isometric_legendre_nondimensional_equilibrium_distribution
      [UInt8; Float64; Float64] number_of_links_i
      normalization_nondimensional_equilibrium_distribution
      nondimensional_end_to_end_length_per_link_i) number_of_links
      nondimensional_end_to_end_length_per_link.

(* /repo/src/physics/single_chain/fjc/thermodynamics/isometric/legendre/mod.jl:558-581 *)
Definition equilibrium_radial_distribution (number_of_links : jarray Z) (link_length : jarray T)
    (normalization_nondimensional_equilibrium_distribution : T) (end_to_end_length : jarray T) :
    result T :=
  broadcast [UInt8; Float64; Float64] (fun number_of_links_i link_length_i end_to_end_length_i =>
      ccall
      lib.physics_single_chain_fjc_thermodynamics_isometric_legendre_equilibrium_radial_distribution
      [UInt8; Float64; Float64; Float64] number_of_links_i link_length_i
      normalization_nondimensional_equilibrium_distribution end_to_end_length_i) number_of_links
      link_length end_to_end_length.

(* /repo/src/physics/single_chain/fjc/thermodynamics/isometric/legendre/mod.jl:593-613 *)
Definition nondimensional_equilibrium_radial_distribution (number_of_links : jarray Z)
    (normalization_nondimensional_equilibrium_distribution : T)
    (nondimensional_end_to_end_length_per_link : jarray T) : result T :=
  broadcast [UInt8; Float64] (fun number_of_links_i nondimensional_end_to_end_length_per_link_i =>
      ccall
      lib.physics_single_chain_fjc_thermodynamics_isometric_legendre_nondimensional_equilibrium_radial_distribution
      [UInt8; Float64; Float64] number_of_links_i
      normalization_nondimensional_equilibrium_distribution
      nondimensional_end_to_end_length_per_link_i) number_of_links
      nondimensional_end_to_end_length_per_link.

(* /repo/src/physics/single_chain/fjc/thermodynamics/isometric/legendre/mod.jl:627-660 *)
Definition gibbs_free_energy (prof : profile) (number_of_links : jarray Z) (link_length : jarray T)
    (hinge_mass : jarray T) (end_to_end_length : jarray T) (temperature : jarray T) : result T :=
  broadcast [UInt8; Float64; Float64; Float64; Float64] (fun number_of_links_i link_length_i
      hinge_mass_i end_to_end_length_i temperature_i => ccall
      (lib.physics_single_chain_fjc_thermodynamics_isometric_legendre_gibbs_free_energy prof)
      [UInt8; Float64; Float64; Float64; Float64] number_of_links_i link_length_i hinge_mass_i
      end_to_end_length_i temperature_i) number_of_links link_length hinge_mass end_to_end_length
      temperature.

(* /repo/src/physics/single_chain/fjc/thermodynamics/isometric/legendre/mod.jl:668-701 *)
Definition gibbs_free_energy_per_link (prof : profile) (number_of_links : jarray Z) (link_length :
    jarray T) (hinge_mass : jarray T) (end_to_end_length : jarray T) (temperature : jarray T) :
    result T :=
  broadcast [UInt8; Float64; Float64; Float64; Float64] (fun number_of_links_i link_length_i
      hinge_mass_i end_to_end_length_i temperature_i => ccall
      (lib.physics_single_chain_fjc_thermodynamics_isometric_legendre_gibbs_free_energy_per_link
      prof) [UInt8; Float64; Float64; Float64; Float64] number_of_links_i link_length_i hinge_mass_i
      end_to_end_length_i temperature_i) number_of_links link_length hinge_mass end_to_end_length
      temperature.

(* /repo/src/physics/single_chain/fjc/thermodynamics/isometric/legendre/mod.jl:709-733 *)
Definition relative_gibbs_free_energy (prof : profile) (number_of_links : jarray Z) (link_length :
    jarray T) (end_to_end_length : jarray T) (temperature : jarray T) : result T :=
  broadcast [UInt8; Float64; Float64; Float64] (fun number_of_links_i link_length_i
      end_to_end_length_i temperature_i => ccall
      (lib.physics_single_chain_fjc_thermodynamics_isometric_legendre_relative_gibbs_free_energy
      prof) [UInt8; Float64; Float64; Float64] number_of_links_i link_length_i end_to_end_length_i
      temperature_i) number_of_links link_length end_to_end_length temperature.

(* /repo/src/physics/single_chain/fjc/thermodynamics/isometric/legendre/mod.jl:741-765 *)
Definition relative_gibbs_free_energy_per_link (prof : profile) (number_of_links : jarray Z)
    (link_length : jarray T) (end_to_end_length : jarray T) (temperature : jarray T) : result T :=
  broadcast [UInt8; Float64; Float64; Float64] (fun number_of_links_i link_length_i
      end_to_end_length_i temperature_i => ccall
      (lib.physics_single_chain_fjc_thermodynamics_isometric_legendre_relative_gibbs_free_energy_per_link
      prof) [UInt8; Float64; Float64; Float64] number_of_links_i link_length_i end_to_end_length_i
      temperature_i) number_of_links link_length end_to_end_length temperature.

(* /repo/src/physics/single_chain/fjc/thermodynamics/isometric/legendre/mod.jl:773-806 *)
Definition nondimensional_gibbs_free_energy (prof : profile) (number_of_links : jarray Z)
    (link_length : jarray T) (hinge_mass : jarray T) (nondimensional_end_to_end_length_per_link :
    jarray T) (temperature : jarray T) : result T :=
  broadcast [UInt8; Float64; Float64; Float64; Float64] (fun number_of_links_i link_length_i
      hinge_mass_i nondimensional_end_to_end_length_per_link_i temperature_i => ccall
      (lib.physics_single_chain_fjc_thermodynamics_isometric_legendre_nondimensional_gibbs_free_energy
      prof) [UInt8; Float64; Float64; Float64; Float64] number_of_links_i link_length_i hinge_mass_i
      nondimensional_end_to_end_length_per_link_i temperature_i) number_of_links link_length
      hinge_mass nondimensional_end_to_end_length_per_link temperature.

(* /repo/src/physics/single_chain/fjc/thermodynamics/isometric/legendre/mod.jl:814-847 *)
Definition nondimensional_gibbs_free_energy_per_link (prof : profile) (number_of_links : jarray Z)
    (link_length : jarray T) (hinge_mass : jarray T) (nondimensional_end_to_end_length_per_link :
    jarray T) (temperature : jarray T) : result T :=
  broadcast [UInt8; Float64; Float64; Float64; Float64] (fun number_of_links_i link_length_i
      hinge_mass_i nondimensional_end_to_end_length_per_link_i temperature_i => ccall
      (lib.physics_single_chain_fjc_thermodynamics_isometric_legendre_nondimensional_gibbs_free_energy_per_link
      prof) [UInt8; Float64; Float64; Float64; Float64] number_of_links_i link_length_i hinge_mass_i
      nondimensional_end_to_end_length_per_link_i temperature_i) number_of_links link_length
      hinge_mass nondimensional_end_to_end_length_per_link temperature.

(* /repo/src/physics/single_chain/fjc/thermodynamics/isometric/legendre/mod.jl:855-873 *)
Definition nondimensional_relative_gibbs_free_energy (prof : profile) (number_of_links : jarray Z)
    (nondimensional_end_to_end_length_per_link : jarray T) : result T :=
  broadcast [UInt8; Float64] (fun number_of_links_i nondimensional_end_to_end_length_per_link_i =>
      ccall
      (lib.physics_single_chain_fjc_thermodynamics_isometric_legendre_nondimensional_relative_gibbs_free_energy
      prof) [UInt8; Float64] number_of_links_i nondimensional_end_to_end_length_per_link_i)
      number_of_links nondimensional_end_to_end_length_per_link.

(* /repo/src/physics/single_chain/fjc/thermodynamics/isometric/legendre/mod.jl:881-899 *)
Definition nondimensional_relative_gibbs_free_energy_per_link (prof : profile) (number_of_links :
    jarray Z) (nondimensional_end_to_end_length_per_link : jarray T) : result T :=
  broadcast [UInt8; Float64] (fun number_of_links_i nondimensional_end_to_end_length_per_link_i =>
      ccall
      (lib.physics_single_chain_fjc_thermodynamics_isometric_legendre_nondimensional_relative_gibbs_free_energy_per_link
      prof) [UInt8; Float64] number_of_links_i nondimensional_end_to_end_length_per_link_i)
      number_of_links nondimensional_end_to_end_length_per_link.

End Model.
End jl_fjc_isometric_legendre.

(** /repo/src/physics/single_chain/fjc/thermodynamics/isometric/legendre/mod.jl: struct FJC *)
Module J_fjc_isometric_legendre.
(* /repo/src/physics/single_chain/fjc/thermodynamics/isometric/legendre/mod.jl:15-117 *)
Record t {T : Type} := {
  number_of_links : Z;
  link_length : T;
  hinge_mass : T;
  normalization_nondimensional_equilibrium_distribution : T;
  force : jarray T -> jarray T -> result T;
  nondimensional_force : jarray T -> result T;
  helmholtz_free_energy : jarray T -> jarray T -> result T;
  helmholtz_free_energy_per_link : jarray T -> jarray T -> result T;
  relative_helmholtz_free_energy : jarray T -> jarray T -> result T;
  relative_helmholtz_free_energy_per_link : jarray T -> jarray T -> result T;
  nondimensional_helmholtz_free_energy : jarray T -> jarray T -> result T;
  nondimensional_helmholtz_free_energy_per_link : jarray T -> jarray T -> result T;
  nondimensional_relative_helmholtz_free_energy : jarray T -> result T;
  nondimensional_relative_helmholtz_free_energy_per_link : jarray T -> result T;
  equilibrium_distribution : jarray T -> result T;
  nondimensional_equilibrium_distribution : jarray T -> result T;
  equilibrium_radial_distribution : jarray T -> result T;
  nondimensional_equilibrium_radial_distribution : jarray T -> result T;
  gibbs_free_energy : jarray T -> jarray T -> result T;
  gibbs_free_energy_per_link : jarray T -> jarray T -> result T;
  relative_gibbs_free_energy : jarray T -> jarray T -> result T;
  relative_gibbs_free_energy_per_link : jarray T -> jarray T -> result T;
  nondimensional_gibbs_free_energy : jarray T -> jarray T -> result T;
  nondimensional_gibbs_free_energy_per_link : jarray T -> jarray T -> result T;
  nondimensional_relative_gibbs_free_energy : jarray T -> result T;
  nondimensional_relative_gibbs_free_energy_per_link : jarray T -> result T }.
Arguments t : clear implicits.
Section Model.
Context {T : Type} {Sc : Scalar T}.

(* /repo/src/physics/single_chain/fjc/thermodynamics/isometric/legendre/mod.jl:906-1055 *)
Definition init (prof : profile) (number_of_links : Z) (link_length : T) (hinge_mass : T) :
    c_outcome (t T) :=
  bind_outcome (integrate (fun nondimensional_end_to_end_length_per_link => jl_fjc_isometric_legendre.nondimensional_equilibrium_radial_distribution (num number_of_links) ((sdec 1 0)) (num nondimensional_end_to_end_length_per_link))
    (jl_ZERO) (jl_ONE) jl_POINTS) (fun normalization_nondimensional_equilibrium_distribution =>
  Finished (Some
  {| number_of_links := number_of_links;
     link_length := link_length;
     hinge_mass := hinge_mass;
     normalization_nondimensional_equilibrium_distribution :=
       normalization_nondimensional_equilibrium_distribution;
     force := fun end_to_end_length temperature => jl_fjc_isometric_legendre.force (num number_of_links)
       (num link_length) end_to_end_length temperature;
     nondimensional_force := fun nondimensional_end_to_end_length_per_link =>
       jl_fjc_isometric_legendre.nondimensional_force nondimensional_end_to_end_length_per_link;
     helmholtz_free_energy := fun end_to_end_length temperature =>
       jl_fjc_isometric_legendre.helmholtz_free_energy (num number_of_links) (num link_length) (num
       hinge_mass) end_to_end_length temperature;
     helmholtz_free_energy_per_link := fun end_to_end_length temperature =>
       jl_fjc_isometric_legendre.helmholtz_free_energy_per_link (num number_of_links) (num
       link_length) (num hinge_mass) end_to_end_length temperature;
     relative_helmholtz_free_energy := fun end_to_end_length temperature =>
       jl_fjc_isometric_legendre.relative_helmholtz_free_energy (num number_of_links) (num
       link_length) end_to_end_length temperature;
     relative_helmholtz_free_energy_per_link := fun end_to_end_length temperature =>
       jl_fjc_isometric_legendre.relative_helmholtz_free_energy_per_link (num number_of_links) (num
       link_length) end_to_end_length temperature;
     nondimensional_helmholtz_free_energy := fun nondimensional_end_to_end_length_per_link temperature =>
       jl_fjc_isometric_legendre.nondimensional_helmholtz_free_energy (num number_of_links) (num
       link_length) (num hinge_mass) nondimensional_end_to_end_length_per_link temperature;
     nondimensional_helmholtz_free_energy_per_link := fun nondimensional_end_to_end_length_per_link
       temperature => jl_fjc_isometric_legendre.nondimensional_helmholtz_free_energy_per_link (num
       number_of_links) (num link_length) (num hinge_mass) nondimensional_end_to_end_length_per_link
       temperature;
     nondimensional_relative_helmholtz_free_energy := fun nondimensional_end_to_end_length_per_link =>
       jl_fjc_isometric_legendre.nondimensional_relative_helmholtz_free_energy (num number_of_links)
       nondimensional_end_to_end_length_per_link;
     nondimensional_relative_helmholtz_free_energy_per_link := fun
       nondimensional_end_to_end_length_per_link =>
       jl_fjc_isometric_legendre.nondimensional_relative_helmholtz_free_energy_per_link
       nondimensional_end_to_end_length_per_link;
     equilibrium_distribution := fun end_to_end_length =>
       jl_fjc_isometric_legendre.equilibrium_distribution (num number_of_links) (num link_length)
       normalization_nondimensional_equilibrium_distribution end_to_end_length;
     nondimensional_equilibrium_distribution := fun nondimensional_end_to_end_length_per_link =>
       jl_fjc_isometric_legendre.nondimensional_equilibrium_distribution (num number_of_links)
       normalization_nondimensional_equilibrium_distribution
       nondimensional_end_to_end_length_per_link;
     equilibrium_radial_distribution := fun end_to_end_length =>
       jl_fjc_isometric_legendre.equilibrium_radial_distribution (num number_of_links) (num
       link_length) normalization_nondimensional_equilibrium_distribution end_to_end_length;
     nondimensional_equilibrium_radial_distribution := fun nondimensional_end_to_end_length_per_link =>
       jl_fjc_isometric_legendre.nondimensional_equilibrium_radial_distribution (num
       number_of_links) normalization_nondimensional_equilibrium_distribution
       nondimensional_end_to_end_length_per_link;
     gibbs_free_energy := fun end_to_end_length temperature =>
       jl_fjc_isometric_legendre.gibbs_free_energy prof (num number_of_links) (num link_length) (num
       hinge_mass) end_to_end_length temperature;
     gibbs_free_energy_per_link := fun end_to_end_length temperature =>
       jl_fjc_isometric_legendre.gibbs_free_energy_per_link prof (num number_of_links) (num
       link_length) (num hinge_mass) end_to_end_length temperature;
     relative_gibbs_free_energy := fun end_to_end_length temperature =>
       jl_fjc_isometric_legendre.relative_gibbs_free_energy prof (num number_of_links) (num
       link_length) end_to_end_length temperature;
     relative_gibbs_free_energy_per_link := fun end_to_end_length temperature =>
       jl_fjc_isometric_legendre.relative_gibbs_free_energy_per_link prof (num number_of_links) (num
       link_length) end_to_end_length temperature;
     nondimensional_gibbs_free_energy := fun nondimensional_end_to_end_length_per_link temperature =>
       jl_fjc_isometric_legendre.nondimensional_gibbs_free_energy prof (num number_of_links) (num
       link_length) (num hinge_mass) nondimensional_end_to_end_length_per_link temperature;
     nondimensional_gibbs_free_energy_per_link := fun nondimensional_end_to_end_length_per_link
       temperature => jl_fjc_isometric_legendre.nondimensional_gibbs_free_energy_per_link prof (num
       number_of_links) (num link_length) (num hinge_mass) nondimensional_end_to_end_length_per_link
       temperature;
     nondimensional_relative_gibbs_free_energy := fun nondimensional_end_to_end_length_per_link =>
       jl_fjc_isometric_legendre.nondimensional_relative_gibbs_free_energy prof (num
       number_of_links) nondimensional_end_to_end_length_per_link;
     nondimensional_relative_gibbs_free_energy_per_link := fun nondimensional_end_to_end_length_per_link
       => jl_fjc_isometric_legendre.nondimensional_relative_gibbs_free_energy_per_link prof (num
       number_of_links) nondimensional_end_to_end_length_per_link |})).

End Model.
End J_fjc_isometric_legendre.

(** /repo/src/physics/single_chain/fjc/thermodynamics/isotensional/legendre/mod.jl *)
Module jl_fjc_isotensional_legendre.
Section Model.
Context {T : Type} {Sc : Scalar T}.

(* /repo/src/physics/single_chain/fjc/thermodynamics/isotensional/legendre/mod.jl:71-98 *)
Definition helmholtz_free_energy (number_of_links : jarray Z) (link_length : jarray T) (hinge_mass :
    jarray T) (force : jarray T) (temperature : jarray T) : result T :=
  broadcast [UInt8; Float64; Float64; Float64; Float64] (fun number_of_links_i link_length_i
      hinge_mass_i force_i temperature_i => ccall
      lib.physics_single_chain_fjc_thermodynamics_isotensional_legendre_helmholtz_free_energy
      [UInt8; Float64; Float64; Float64; Float64] number_of_links_i link_length_i hinge_mass_i
      force_i temperature_i) number_of_links link_length hinge_mass force temperature.

(* /repo/src/physics/single_chain/fjc/thermodynamics/isotensional/legendre/mod.jl:106-130 *)
Definition helmholtz_free_energy_per_link (link_length : jarray T) (hinge_mass : jarray T) (force :
    jarray T) (temperature : jarray T) : result T :=
  broadcast [Float64; Float64; Float64; Float64] (fun link_length_i hinge_mass_i force_i
      temperature_i => ccall
      lib.physics_single_chain_fjc_thermodynamics_isotensional_legendre_helmholtz_free_energy_per_link
      [Float64; Float64; Float64; Float64] link_length_i hinge_mass_i force_i temperature_i)
      link_length hinge_mass force temperature.

(* /repo/src/physics/single_chain/fjc/thermodynamics/isotensional/legendre/mod.jl:138-162 *)
Definition relative_helmholtz_free_energy (number_of_links : jarray Z) (link_length : jarray T)
    (force : jarray T) (temperature : jarray T) : result T :=
  broadcast [UInt8; Float64; Float64; Float64] (fun number_of_links_i link_length_i force_i
      temperature_i => ccall
      lib.physics_single_chain_fjc_thermodynamics_isotensional_legendre_relative_helmholtz_free_energy
      [UInt8; Float64; Float64; Float64] number_of_links_i link_length_i force_i temperature_i)
      number_of_links link_length force temperature.

(* /repo/src/physics/single_chain/fjc/thermodynamics/isotensional/legendre/mod.jl:170-191 *)
Definition relative_helmholtz_free_energy_per_link (link_length : jarray T) (force : jarray T)
    (temperature : jarray T) : result T :=
  broadcast [Float64; Float64; Float64] (fun link_length_i force_i temperature_i => ccall
      lib.physics_single_chain_fjc_thermodynamics_isotensional_legendre_relative_helmholtz_free_energy_per_link
      [Float64; Float64; Float64] link_length_i force_i temperature_i) link_length force
      temperature.

(* /repo/src/physics/single_chain/fjc/thermodynamics/isotensional/legendre/mod.jl:199-232 *)
Definition nondimensional_helmholtz_free_energy (number_of_links : jarray Z) (link_length : jarray
    T) (hinge_mass : jarray T) (nondimensional_force : jarray T) (temperature : jarray T) : result T
    :=
  broadcast [UInt8; Float64; Float64; Float64; Float64] (fun number_of_links_i link_length_i
      hinge_mass_i nondimensional_force_i temperature_i => ccall
      lib.physics_single_chain_fjc_thermodynamics_isotensional_legendre_nondimensional_helmholtz_free_energy
      [UInt8; Float64; Float64; Float64; Float64] number_of_links_i link_length_i hinge_mass_i
      nondimensional_force_i temperature_i) number_of_links link_length hinge_mass
      nondimensional_force temperature.

(* /repo/src/physics/single_chain/fjc/thermodynamics/isotensional/legendre/mod.jl:240-264 *)
Definition nondimensional_helmholtz_free_energy_per_link (link_length : jarray T) (hinge_mass :
    jarray T) (nondimensional_force : jarray T) (temperature : jarray T) : result T :=
  broadcast [Float64; Float64; Float64; Float64] (fun link_length_i hinge_mass_i
      nondimensional_force_i temperature_i => ccall
      lib.physics_single_chain_fjc_thermodynamics_isotensional_legendre_nondimensional_helmholtz_free_energy_per_link
      [Float64; Float64; Float64; Float64] link_length_i hinge_mass_i nondimensional_force_i
      temperature_i) link_length hinge_mass nondimensional_force temperature.

(* /repo/src/physics/single_chain/fjc/thermodynamics/isotensional/legendre/mod.jl:272-290 *)
Definition nondimensional_relative_helmholtz_free_energy (number_of_links : jarray Z)
    (nondimensional_force : jarray T) : result T :=
  broadcast [UInt8; Float64] (fun number_of_links_i nondimensional_force_i => ccall
      lib.physics_single_chain_fjc_thermodynamics_isotensional_legendre_nondimensional_relative_helmholtz_free_energy
      [UInt8; Float64] number_of_links_i nondimensional_force_i) number_of_links
      nondimensional_force.

(* /repo/src/physics/single_chain/fjc/thermodynamics/isotensional/legendre/mod.jl:297-312 *)
Definition nondimensional_relative_helmholtz_free_energy_per_link (nondimensional_force : jarray T)
    : result T :=
  broadcast [Float64] (fun nondimensional_force_i => ccall
      lib.physics_single_chain_fjc_thermodynamics_isotensional_legendre_nondimensional_relative_helmholtz_free_energy_per_link
      [Float64] nondimensional_force_i) nondimensional_force.

End Model.
End jl_fjc_isotensional_legendre.

(** /repo/src/physics/single_chain/fjc/thermodynamics/isotensional/legendre/mod.jl: struct FJC *)
Module J_fjc_isotensional_legendre.
(* /repo/src/physics/single_chain/fjc/thermodynamics/isotensional/legendre/mod.jl:14-59 *)
Record t {T : Type} := {
  number_of_links : Z;
  link_length : T;
  hinge_mass : T;
  helmholtz_free_energy : jarray T -> jarray T -> result T;
  helmholtz_free_energy_per_link : jarray T -> jarray T -> result T;
  relative_helmholtz_free_energy : jarray T -> jarray T -> result T;
  relative_helmholtz_free_energy_per_link : jarray T -> jarray T -> result T;
  nondimensional_helmholtz_free_energy : jarray T -> jarray T -> result T;
  nondimensional_helmholtz_free_energy_per_link : jarray T -> jarray T -> result T;
  nondimensional_relative_helmholtz_free_energy : jarray T -> result T;
  nondimensional_relative_helmholtz_free_energy_per_link : jarray T -> result T }.
Arguments t : clear implicits.
Section Model.
Context {T : Type} {Sc : Scalar T}.

(* /repo/src/physics/single_chain/fjc/thermodynamics/isotensional/legendre/mod.jl:319-362 *)
Definition init (number_of_links : Z) (link_length : T) (hinge_mass : T) : t T :=
  {| number_of_links := number_of_links;
     link_length := link_length;
     hinge_mass := hinge_mass;
     helmholtz_free_energy := fun force temperature => jl_fjc_isotensional_legendre.helmholtz_free_energy
       (num number_of_links) (num link_length) (num hinge_mass) force temperature;
     helmholtz_free_energy_per_link := fun force temperature =>
       jl_fjc_isotensional_legendre.helmholtz_free_energy_per_link (num link_length) (num
       hinge_mass) force temperature;
     relative_helmholtz_free_energy := fun force temperature =>
       jl_fjc_isotensional_legendre.relative_helmholtz_free_energy (num number_of_links) (num
       link_length) force temperature;
     relative_helmholtz_free_energy_per_link := fun force temperature =>
       jl_fjc_isotensional_legendre.relative_helmholtz_free_energy_per_link (num link_length) force
       temperature;
     nondimensional_helmholtz_free_energy := fun nondimensional_force temperature =>
       jl_fjc_isotensional_legendre.nondimensional_helmholtz_free_energy (num number_of_links) (num
       link_length) (num hinge_mass) nondimensional_force temperature;
     nondimensional_helmholtz_free_energy_per_link := fun nondimensional_force temperature =>
       jl_fjc_isotensional_legendre.nondimensional_helmholtz_free_energy_per_link (num link_length)
       (num hinge_mass) nondimensional_force temperature;
     nondimensional_relative_helmholtz_free_energy := fun nondimensional_force =>
       jl_fjc_isotensional_legendre.nondimensional_relative_helmholtz_free_energy (num
       number_of_links) nondimensional_force;
     nondimensional_relative_helmholtz_free_energy_per_link := fun nondimensional_force =>
       jl_fjc_isotensional_legendre.nondimensional_relative_helmholtz_free_energy_per_link
       nondimensional_force |}.

End Model.
End J_fjc_isotensional_legendre.

(** /repo/src/physics/single_chain/fjc/thermodynamics/modified_canonical/asymptotic/mod.jl: struct FJC *)
Module J_fjc_modified_canonical_asymptotic.
(* /repo/src/physics/single_chain/fjc/thermodynamics/modified_canonical/asymptotic/mod.jl:17-38 *)
Record t {T : Type} := {
  number_of_links : Z;
  link_length : T;
  hinge_mass : T;
  strong_potential : J_fjc_modified_canonical_asymptotic_strong_potential.t T;
  weak_potential : J_fjc_modified_canonical_asymptotic_weak_potential.t T }.
Arguments t : clear implicits.
Section Model.
Context {T : Type} {Sc : Scalar T}.

(* /repo/src/physics/single_chain/fjc/thermodynamics/modified_canonical/asymptotic/mod.jl:45-53 *)
Definition init (prof : profile) (number_of_links : Z) (link_length : T) (hinge_mass : T) : t T :=
  {| number_of_links := number_of_links;
     link_length := link_length;
     hinge_mass := hinge_mass;
     strong_potential := J_fjc_modified_canonical_asymptotic_strong_potential.init prof number_of_links
       link_length hinge_mass;
     weak_potential := J_fjc_modified_canonical_asymptotic_weak_potential.init number_of_links
       link_length hinge_mass |}.

End Model.
End J_fjc_modified_canonical_asymptotic.

(** /repo/src/physics/single_chain/swfjc/thermodynamics/isometric/legendre/mod.jl *)
Module jl_swfjc_isometric_legendre.
Section Model.
Context {T : Type} {Sc : Scalar T}.

(* /repo/src/physics/single_chain/swfjc/thermodynamics/isometric/legendre/mod.jl:97-130 *)
Definition force (number_of_links : jarray Z) (link_length : jarray T) (well_width : jarray T)
    (end_to_end_length : jarray T) (temperature : jarray T) : result T :=
  broadcast [UInt8; Float64; Float64; Float64; Float64] (fun number_of_links_i link_length_i
      well_width_i end_to_end_length_i temperature_i => ccall
      lib.physics_single_chain_swfjc_thermodynamics_isometric_legendre_force [UInt8; Float64;
      Float64; Float64; Float64] number_of_links_i link_length_i well_width_i end_to_end_length_i
      temperature_i) number_of_links link_length well_width end_to_end_length temperature.

(* /repo/src/physics/single_chain/swfjc/thermodynamics/isometric/legendre/mod.jl:138-160 *)
Definition nondimensional_force (link_length : jarray T) (well_width : jarray T)
    (nondimensional_end_to_end_length_per_link : jarray T) : result T :=
  broadcast [Float64; Float64; Float64] (fun link_length_i well_width_i
      nondimensional_end_to_end_length_per_link_i => ccall
      lib.physics_single_chain_swfjc_thermodynamics_isometric_legendre_nondimensional_force
      [Float64; Float64; Float64] link_length_i well_width_i
      nondimensional_end_to_end_length_per_link_i) link_length well_width
      nondimensional_end_to_end_length_per_link.

(* /repo/src/physics/single_chain/swfjc/thermodynamics/isometric/legendre/mod.jl:174-211 *)
Definition helmholtz_free_energy (number_of_links : jarray Z) (link_length : jarray T) (hinge_mass :
    jarray T) (well_width : jarray T) (end_to_end_length : jarray T) (temperature : jarray T) :
    result T :=
  broadcast [UInt8; Float64; Float64; Float64; Float64; Float64] (fun number_of_links_i
      link_length_i hinge_mass_i well_width_i end_to_end_length_i temperature_i => ccall
      lib.physics_single_chain_swfjc_thermodynamics_isometric_legendre_helmholtz_free_energy [UInt8;
      Float64; Float64; Float64; Float64; Float64] number_of_links_i link_length_i hinge_mass_i
      well_width_i end_to_end_length_i temperature_i) number_of_links link_length hinge_mass
      well_width end_to_end_length temperature.

(* /repo/src/physics/single_chain/swfjc/thermodynamics/isometric/legendre/mod.jl:219-256 *)
Definition helmholtz_free_energy_per_link (number_of_links : jarray Z) (link_length : jarray T)
    (hinge_mass : jarray T) (well_width : jarray T) (end_to_end_length : jarray T) (temperature :
    jarray T) : result T :=
  broadcast [UInt8; Float64; Float64; Float64; Float64; Float64] (fun number_of_links_i
      link_length_i hinge_mass_i well_width_i end_to_end_length_i temperature_i => ccall
      lib.physics_single_chain_swfjc_thermodynamics_isometric_legendre_helmholtz_free_energy_per_link
      [UInt8; Float64; Float64; Float64; Float64; Float64] number_of_links_i link_length_i
      hinge_mass_i well_width_i end_to_end_length_i temperature_i) number_of_links link_length
      hinge_mass well_width end_to_end_length temperature.

(* /repo/src/physics/single_chain/swfjc/thermodynamics/isometric/legendre/mod.jl:264-297 *)
Definition relative_helmholtz_free_energy (number_of_links : jarray Z) (link_length : jarray T)
    (well_width : jarray T) (end_to_end_length : jarray T) (temperature : jarray T) : result T :=
  broadcast [UInt8; Float64; Float64; Float64; Float64] (fun number_of_links_i link_length_i
      well_width_i end_to_end_length_i temperature_i => ccall
      lib.physics_single_chain_swfjc_thermodynamics_isometric_legendre_relative_helmholtz_free_energy
      [UInt8; Float64; Float64; Float64; Float64] number_of_links_i link_length_i well_width_i
      end_to_end_length_i temperature_i) number_of_links link_length well_width end_to_end_length
      temperature.

(* /repo/src/physics/single_chain/swfjc/thermodynamics/isometric/legendre/mod.jl:305-338 *)
Definition relative_helmholtz_free_energy_per_link (number_of_links : jarray Z) (link_length :
    jarray T) (well_width : jarray T) (end_to_end_length : jarray T) (temperature : jarray T) :
    result T :=
  broadcast [UInt8; Float64; Float64; Float64; Float64] (fun number_of_links_i link_length_i
      well_width_i end_to_end_length_i temperature_i => ccall
      lib.physics_single_chain_swfjc_thermodynamics_isometric_legendre_relative_helmholtz_free_energy_per_link
      [UInt8; Float64; Float64; Float64; Float64] number_of_links_i link_length_i well_width_i
      end_to_end_length_i temperature_i) number_of_links link_length well_width end_to_end_length
      temperature.

(* /repo/src/physics/single_chain/swfjc/thermodynamics/isometric/legendre/mod.jl:346-383 *)
Definition nondimensional_helmholtz_free_energy (number_of_links : jarray Z) (link_length : jarray
    T) (hinge_mass : jarray T) (well_width : jarray T) (nondimensional_end_to_end_length_per_link :
    jarray T) (temperature : jarray T) : result T :=
  broadcast [UInt8; Float64; Float64; Float64; Float64; Float64] (fun number_of_links_i
      link_length_i hinge_mass_i well_width_i nondimensional_end_to_end_length_per_link_i
      temperature_i => ccall
      lib.physics_single_chain_swfjc_thermodynamics_isometric_legendre_nondimensional_helmholtz_free_energy
      [UInt8; Float64; Float64; Float64; Float64; Float64] number_of_links_i link_length_i
      hinge_mass_i well_width_i nondimensional_end_to_end_length_per_link_i temperature_i)
      number_of_links link_length hinge_mass well_width nondimensional_end_to_end_length_per_link
      temperature.

(* /repo/src/physics/single_chain/swfjc/thermodynamics/isometric/legendre/mod.jl:391-428 *)
Definition nondimensional_helmholtz_free_energy_per_link (number_of_links : jarray Z) (link_length :
    jarray T) (hinge_mass : jarray T) (well_width : jarray T)
    (nondimensional_end_to_end_length_per_link : jarray T) (temperature : jarray T) : result T :=
  broadcast [UInt8; Float64; Float64; Float64; Float64; Float64] (fun number_of_links_i
      link_length_i hinge_mass_i well_width_i nondimensional_end_to_end_length_per_link_i
      temperature_i => ccall
      lib.physics_single_chain_swfjc_thermodynamics_isometric_legendre_nondimensional_helmholtz_free_energy_per_link
      [UInt8; Float64; Float64; Float64; Float64; Float64] number_of_links_i link_length_i
      hinge_mass_i well_width_i nondimensional_end_to_end_length_per_link_i temperature_i)
      number_of_links link_length hinge_mass well_width nondimensional_end_to_end_length_per_link
      temperature.

(* /repo/src/physics/single_chain/swfjc/thermodynamics/isometric/legendre/mod.jl:436-465 *)
Definition nondimensional_relative_helmholtz_free_energy (number_of_links : jarray Z) (link_length :
    jarray T) (well_width : jarray T) (nondimensional_end_to_end_length_per_link : jarray T) :
    result T :=
  broadcast [UInt8; Float64; Float64; Float64] (fun number_of_links_i link_length_i well_width_i
      nondimensional_end_to_end_length_per_link_i => ccall
      lib.physics_single_chain_swfjc_thermodynamics_isometric_legendre_nondimensional_relative_helmholtz_free_energy
      [UInt8; Float64; Float64; Float64] number_of_links_i link_length_i well_width_i
      nondimensional_end_to_end_length_per_link_i) number_of_links link_length well_width
      nondimensional_end_to_end_length_per_link.

(* /repo/src/physics/single_chain/swfjc/thermodynamics/isometric/legendre/mod.jl:473-495 *)
Definition nondimensional_relative_helmholtz_free_energy_per_link (link_length : jarray T)
    (well_width : jarray T) (nondimensional_end_to_end_length_per_link : jarray T) : result T :=
  broadcast [Float64; Float64; Float64] (fun link_length_i well_width_i
      nondimensional_end_to_end_length_per_link_i => ccall
      lib.physics_single_chain_swfjc_thermodynamics_isometric_legendre_nondimensional_relative_helmholtz_free_energy_per_link
      [Float64; Float64; Float64] link_length_i well_width_i
      nondimensional_end_to_end_length_per_link_i) link_length well_width
      nondimensional_end_to_end_length_per_link.

(* /repo/src/physics/single_chain/swfjc/thermodynamics/isometric/legendre/mod.jl:507-533 *)
Definition equilibrium_distribution (number_of_links : jarray Z) (link_length : jarray T)
    (well_width : jarray T) (normalization_nondimensional_equilibrium_distribution : T)
    (end_to_end_length : jarray T) : result T :=
  broadcast [UInt8; Float64; Float64; Float64] (fun number_of_links_i link_length_i well_width_i
      end_to_end_length_i => ccall
      lib.physics_single_chain_swfjc_thermodynamics_isometric_legendre_equilibrium_distribution
      [UInt8; Float64; Float64; Float64; Float64] number_of_links_i link_length_i well_width_i
      normalization_nondimensional_equilibrium_distribution end_to_end_length_i) number_of_links
      link_length well_width end_to_end_length.

(* /repo/src/physics/single_chain/swfjc/thermodynamics/isometric/legendre/mod.jl:545-576 *)
Definition nondimensional_equilibrium_distribution (number_of_links : jarray Z) (link_length :
    jarray T) (well_width : jarray T) (normalization_nondimensional_equilibrium_distribution : T)
    (nondimensional_end_to_end_length_per_link : jarray T) : result T :=
  broadcast [UInt8; Float64; Float64; Float64] (fun number_of_links_i link_length_i well_width_i
      nondimensional_end_to_end_length_per_link_i => ccall
      lib.physics_single_chain_swfjc_thermodynamics_isometric_legendre_nondimensional_equilibrium_distribution
      [UInt8; Float64; Float64; Float64; Float64] number_of_links_i link_length_i well_width_i
      normalization_nondimensional_equilibrium_distribution
      nondimensional_end_to_end_length_per_link_i) number_of_links link_length well_width
      nondimensional_end_to_end_length_per_link.

(* /repo/src/physics/single_chain/swfjc/thermodynamics/isometric/legendre/mod.jl:588-614 *)
Definition equilibrium_radial_distribution (number_of_links : jarray Z) (link_length : jarray T)
    (well_width : jarray T) (normalization_nondimensional_equilibrium_distribution : T)
    (end_to_end_length : jarray T) : result T :=
  broadcast [UInt8; Float64; Float64; Float64] (fun number_of_links_i link_length_i well_width_i
      end_to_end_length_i => ccall
      lib.physics_single_chain_swfjc_thermodynamics_isometric_legendre_equilibrium_radial_distribution
      [UInt8; Float64; Float64; Float64; Float64] number_of_links_i link_length_i well_width_i
      normalization_nondimensional_equilibrium_distribution end_to_end_length_i) number_of_links
      link_length well_width end_to_end_length.

(* /repo/src/physics/single_chain/swfjc/thermodynamics/isometric/legendre/mod.jl:626-657 *)
Definition nondimensional_equilibrium_radial_distribution (number_of_links : jarray Z) (link_length
    : jarray T) (well_width : jarray T) (normalization_nondimensional_equilibrium_distribution : T)
    (nondimensional_end_to_end_length_per_link : jarray T) : result T :=
  broadcast [UInt8; Float64; Float64; Float64] (fun number_of_links_i link_length_i well_width_i
      nondimensional_end_to_end_length_per_link_i => ccall
      lib.physics_single_chain_swfjc_thermodynamics_isometric_legendre_nondimensional_equilibrium_radial_distribution
      [UInt8; Float64; Float64; Float64; Float64] number_of_links_i link_length_i well_width_i
      normalization_nondimensional_equilibrium_distribution
      nondimensional_end_to_end_length_per_link_i) number_of_links link_length well_width
      nondimensional_end_to_end_length_per_link.

End Model.
End jl_swfjc_isometric_legendre.

(** /repo/src/physics/single_chain/swfjc/thermodynamics/isometric/legendre/mod.jl: struct SWFJC *)
Module J_swfjc_isometric_legendre.
(* /repo/src/physics/single_chain/swfjc/thermodynamics/isometric/legendre/mod.jl:15-89 *)
Record t {T : Type} := {
  number_of_links : Z;
  link_length : T;
  hinge_mass : T;
  well_width : T;
  normalization_nondimensional_equilibrium_distribution : T;
  force : jarray T -> jarray T -> result T;
  nondimensional_force : jarray T -> result T;
  helmholtz_free_energy : jarray T -> jarray T -> result T;
  helmholtz_free_energy_per_link : jarray T -> jarray T -> result T;
  relative_helmholtz_free_energy : jarray T -> jarray T -> result T;
  relative_helmholtz_free_energy_per_link : jarray T -> jarray T -> result T;
  nondimensional_helmholtz_free_energy : jarray T -> jarray T -> result T;
  nondimensional_helmholtz_free_energy_per_link : jarray T -> jarray T -> result T;
  nondimensional_relative_helmholtz_free_energy : jarray T -> result T;
  nondimensional_relative_helmholtz_free_energy_per_link : jarray T -> result T;
  equilibrium_distribution : jarray T -> result T;
  nondimensional_equilibrium_distribution : jarray T -> result T;
  equilibrium_radial_distribution : jarray T -> result T;
  nondimensional_equilibrium_radial_distribution : jarray T -> result T }.
Arguments t : clear implicits.
Section Model.
Context {T : Type} {Sc : Scalar T}.

(* /repo/src/physics/single_chain/swfjc/thermodynamics/isometric/legendre/mod.jl:664-788 *)
Definition init (number_of_links : Z) (link_length : T) (hinge_mass : T) (well_width : T) :
    c_outcome (t T) :=
  bind_outcome (integrate (fun nondimensional_end_to_end_length_per_link => jl_swfjc_isometric_legendre.nondimensional_equilibrium_radial_distribution (num number_of_links) (num link_length) (num well_width) ((sdec 1 0)) (num nondimensional_end_to_end_length_per_link))
    (jl_ZERO) (jl_ONE * ((sdec 1 0) + (well_width / link_length))) jl_POINTS) (fun normalization_nondimensional_equilibrium_distribution =>
  Finished (Some
  {| number_of_links := number_of_links;
     link_length := link_length;
     hinge_mass := hinge_mass;
     well_width := well_width;
     normalization_nondimensional_equilibrium_distribution :=
       normalization_nondimensional_equilibrium_distribution;
     force := fun end_to_end_length temperature => jl_swfjc_isometric_legendre.force (num
       number_of_links) (num link_length) (num well_width) end_to_end_length temperature;
     nondimensional_force := fun nondimensional_end_to_end_length_per_link =>
       jl_swfjc_isometric_legendre.nondimensional_force (num link_length) (num well_width)
       nondimensional_end_to_end_length_per_link;
     helmholtz_free_energy := fun end_to_end_length temperature =>
       jl_swfjc_isometric_legendre.helmholtz_free_energy (num number_of_links) (num link_length)
       (num hinge_mass) (num well_width) end_to_end_length temperature;
     helmholtz_free_energy_per_link := fun end_to_end_length temperature =>
       jl_swfjc_isometric_legendre.helmholtz_free_energy_per_link (num number_of_links) (num
       link_length) (num hinge_mass) (num well_width) end_to_end_length temperature;
     relative_helmholtz_free_energy := fun end_to_end_length temperature =>
       jl_swfjc_isometric_legendre.relative_helmholtz_free_energy (num number_of_links) (num
       link_length) (num well_width) end_to_end_length temperature;
     relative_helmholtz_free_energy_per_link := fun end_to_end_length temperature =>
       jl_swfjc_isometric_legendre.relative_helmholtz_free_energy_per_link (num number_of_links)
       (num link_length) (num well_width) end_to_end_length temperature;
     nondimensional_helmholtz_free_energy := fun nondimensional_end_to_end_length_per_link temperature =>
       jl_swfjc_isometric_legendre.nondimensional_helmholtz_free_energy (num number_of_links) (num
       link_length) (num hinge_mass) (num well_width) nondimensional_end_to_end_length_per_link
       temperature;
     nondimensional_helmholtz_free_energy_per_link := fun nondimensional_end_to_end_length_per_link
       temperature => jl_swfjc_isometric_legendre.nondimensional_helmholtz_free_energy_per_link (num
       number_of_links) (num link_length) (num hinge_mass) (num well_width)
       nondimensional_end_to_end_length_per_link temperature;
     nondimensional_relative_helmholtz_free_energy := fun nondimensional_end_to_end_length_per_link =>
       jl_swfjc_isometric_legendre.nondimensional_relative_helmholtz_free_energy (num
       number_of_links) (num link_length) (num well_width) nondimensional_end_to_end_length_per_link;
     nondimensional_relative_helmholtz_free_energy_per_link := fun
       nondimensional_end_to_end_length_per_link =>
       jl_swfjc_isometric_legendre.nondimensional_relative_helmholtz_free_energy_per_link (num
       link_length) (num well_width) nondimensional_end_to_end_length_per_link;
     equilibrium_distribution := fun end_to_end_length =>
       jl_swfjc_isometric_legendre.equilibrium_distribution (num number_of_links) (num link_length)
       (num well_width) normalization_nondimensional_equilibrium_distribution end_to_end_length;
     nondimensional_equilibrium_distribution := fun nondimensional_end_to_end_length_per_link =>
       jl_swfjc_isometric_legendre.nondimensional_equilibrium_distribution (num number_of_links)
       (num link_length) (num well_width) normalization_nondimensional_equilibrium_distribution
       nondimensional_end_to_end_length_per_link;
     equilibrium_radial_distribution := fun end_to_end_length =>
       jl_swfjc_isometric_legendre.equilibrium_radial_distribution (num number_of_links) (num
       link_length) (num well_width) normalization_nondimensional_equilibrium_distribution
       end_to_end_length;
     nondimensional_equilibrium_radial_distribution := fun nondimensional_end_to_end_length_per_link =>
       jl_swfjc_isometric_legendre.nondimensional_equilibrium_radial_distribution (num
       number_of_links) (num link_length) (num well_width)
       normalization_nondimensional_equilibrium_distribution
       nondimensional_end_to_end_length_per_link |})).

End Model.
End J_swfjc_isometric_legendre.

(** /repo/src/physics/single_chain/swfjc/thermodynamics/isotensional/legendre/mod.jl *)
Module jl_swfjc_isotensional_legendre.
Section Model.
Context {T : Type} {Sc : Scalar T}.

(* /repo/src/physics/single_chain/swfjc/thermodynamics/isotensional/legendre/mod.jl:75-112 *)
Definition helmholtz_free_energy (number_of_links : jarray Z) (link_length : jarray T) (hinge_mass :
    jarray T) (well_width : jarray T) (force : jarray T) (temperature : jarray T) : result T :=
  broadcast [UInt8; Float64; Float64; Float64; Float64; Float64] (fun number_of_links_i
      link_length_i hinge_mass_i well_width_i force_i temperature_i => ccall
      lib.physics_single_chain_swfjc_thermodynamics_isotensional_legendre_helmholtz_free_energy
      [UInt8; Float64; Float64; Float64; Float64; Float64] number_of_links_i link_length_i
      hinge_mass_i well_width_i force_i temperature_i) number_of_links link_length hinge_mass
      well_width force temperature.

(* /repo/src/physics/single_chain/swfjc/thermodynamics/isotensional/legendre/mod.jl:120-147 *)
Definition helmholtz_free_energy_per_link (link_length : jarray T) (hinge_mass : jarray T)
    (well_width : jarray T) (force : jarray T) (temperature : jarray T) : result T :=
  broadcast [Float64; Float64; Float64; Float64; Float64] (fun link_length_i hinge_mass_i
      well_width_i force_i temperature_i => ccall
      lib.physics_single_chain_swfjc_thermodynamics_isotensional_legendre_helmholtz_free_energy_per_link
      [Float64; Float64; Float64; Float64; Float64] link_length_i hinge_mass_i well_width_i force_i
      temperature_i) link_length hinge_mass well_width force temperature.

(* /repo/src/physics/single_chain/swfjc/thermodynamics/isotensional/legendre/mod.jl:155-182 *)
Definition relative_helmholtz_free_energy (number_of_links : jarray Z) (link_length : jarray T)
    (well_width : jarray T) (force : jarray T) (temperature : jarray T) : result T :=
  broadcast [UInt8; Float64; Float64; Float64; Float64] (fun number_of_links_i link_length_i
      well_width_i force_i temperature_i => ccall
      lib.physics_single_chain_swfjc_thermodynamics_isotensional_legendre_relative_helmholtz_free_energy
      [UInt8; Float64; Float64; Float64; Float64] number_of_links_i link_length_i well_width_i
      force_i temperature_i) number_of_links link_length well_width force temperature.

(* /repo/src/physics/single_chain/swfjc/thermodynamics/isotensional/legendre/mod.jl:190-214 *)
Definition relative_helmholtz_free_energy_per_link (link_length : jarray T) (well_width : jarray T)
    (force : jarray T) (temperature : jarray T) : result T :=
  broadcast [Float64; Float64; Float64; Float64] (fun link_length_i well_width_i force_i
      temperature_i => ccall
      lib.physics_single_chain_swfjc_thermodynamics_isotensional_legendre_relative_helmholtz_free_energy_per_link
      [Float64; Float64; Float64; Float64] link_length_i well_width_i force_i temperature_i)
      link_length well_width force temperature.

(* /repo/src/physics/single_chain/swfjc/thermodynamics/isotensional/legendre/mod.jl:222-259 *)
Definition nondimensional_helmholtz_free_energy (number_of_links : jarray Z) (link_length : jarray
    T) (hinge_mass : jarray T) (well_width : jarray T) (nondimensional_force : jarray T)
    (temperature : jarray T) : result T :=
  broadcast [UInt8; Float64; Float64; Float64; Float64; Float64] (fun number_of_links_i
      link_length_i hinge_mass_i well_width_i nondimensional_force_i temperature_i => ccall
      lib.physics_single_chain_swfjc_thermodynamics_isotensional_legendre_nondimensional_helmholtz_free_energy
      [UInt8; Float64; Float64; Float64; Float64; Float64] number_of_links_i link_length_i
      hinge_mass_i well_width_i nondimensional_force_i temperature_i) number_of_links link_length
      hinge_mass well_width nondimensional_force temperature.

(* /repo/src/physics/single_chain/swfjc/thermodynamics/isotensional/legendre/mod.jl:267-300 *)
Definition nondimensional_helmholtz_free_energy_per_link (link_length : jarray T) (hinge_mass :
    jarray T) (well_width : jarray T) (nondimensional_force : jarray T) (temperature : jarray T) :
    result T :=
  broadcast [Float64; Float64; Float64; Float64; Float64] (fun link_length_i hinge_mass_i
      well_width_i nondimensional_force_i temperature_i => ccall
      lib.physics_single_chain_swfjc_thermodynamics_isotensional_legendre_nondimensional_helmholtz_free_energy_per_link
      [Float64; Float64; Float64; Float64; Float64] link_length_i hinge_mass_i well_width_i
      nondimensional_force_i temperature_i) link_length hinge_mass well_width nondimensional_force
      temperature.

(* /repo/src/physics/single_chain/swfjc/thermodynamics/isotensional/legendre/mod.jl:308-332 *)
Definition nondimensional_relative_helmholtz_free_energy (number_of_links : jarray Z) (link_length :
    jarray T) (well_width : jarray T) (nondimensional_force : jarray T) : result T :=
  broadcast [UInt8; Float64; Float64; Float64] (fun number_of_links_i link_length_i well_width_i
      nondimensional_force_i => ccall
      lib.physics_single_chain_swfjc_thermodynamics_isotensional_legendre_nondimensional_relative_helmholtz_free_energy
      [UInt8; Float64; Float64; Float64] number_of_links_i link_length_i well_width_i
      nondimensional_force_i) number_of_links link_length well_width nondimensional_force.

(* /repo/src/physics/single_chain/swfjc/thermodynamics/isotensional/legendre/mod.jl:340-361 *)
Definition nondimensional_relative_helmholtz_free_energy_per_link (link_length : jarray T)
    (well_width : jarray T) (nondimensional_force : jarray T) : result T :=
  broadcast [Float64; Float64; Float64] (fun link_length_i well_width_i nondimensional_force_i =>
      ccall
      lib.physics_single_chain_swfjc_thermodynamics_isotensional_legendre_nondimensional_relative_helmholtz_free_energy_per_link
      [Float64; Float64; Float64] link_length_i well_width_i nondimensional_force_i) link_length
      well_width nondimensional_force.

End Model.
End jl_swfjc_isotensional_legendre.

(** /repo/src/physics/single_chain/swfjc/thermodynamics/isotensional/legendre/mod.jl: struct SWFJC *)
Module J_swfjc_isotensional_legendre.
(* /repo/src/physics/single_chain/swfjc/thermodynamics/isotensional/legendre/mod.jl:14-63 *)
Record t {T : Type} := {
  number_of_links : Z;
  link_length : T;
  hinge_mass : T;
  well_width : T;
  helmholtz_free_energy : jarray T -> jarray T -> result T;
  helmholtz_free_energy_per_link : jarray T -> jarray T -> result T;
  relative_helmholtz_free_energy : jarray T -> jarray T -> result T;
  relative_helmholtz_free_energy_per_link : jarray T -> jarray T -> result T;
  nondimensional_helmholtz_free_energy : jarray T -> jarray T -> result T;
  nondimensional_helmholtz_free_energy_per_link : jarray T -> jarray T -> result T;
  nondimensional_relative_helmholtz_free_energy : jarray T -> result T;
  nondimensional_relative_helmholtz_free_energy_per_link : jarray T -> result T }.
Arguments t : clear implicits.
Section Model.
Context {T : Type} {Sc : Scalar T}.

(* /repo/src/physics/single_chain/swfjc/thermodynamics/isotensional/legendre/mod.jl:368-435 *)
Definition init (number_of_links : Z) (link_length : T) (hinge_mass : T) (well_width : T) : t T :=
  {| number_of_links := number_of_links;
     link_length := link_length;
     hinge_mass := hinge_mass;
     well_width := well_width;
     helmholtz_free_energy := fun force temperature =>
       jl_swfjc_isotensional_legendre.helmholtz_free_energy (num number_of_links) (num link_length)
       (num hinge_mass) (num well_width) force temperature;
     helmholtz_free_energy_per_link := fun force temperature =>
       jl_swfjc_isotensional_legendre.helmholtz_free_energy_per_link (num link_length) (num
       hinge_mass) (num well_width) force temperature;
     relative_helmholtz_free_energy := fun force temperature =>
       jl_swfjc_isotensional_legendre.relative_helmholtz_free_energy (num number_of_links) (num
       link_length) (num well_width) force temperature;
     relative_helmholtz_free_energy_per_link := fun force temperature =>
       jl_swfjc_isotensional_legendre.relative_helmholtz_free_energy_per_link (num link_length) (num
       well_width) force temperature;
     nondimensional_helmholtz_free_energy := fun nondimensional_force temperature =>
       jl_swfjc_isotensional_legendre.nondimensional_helmholtz_free_energy (num number_of_links)
       (num link_length) (num hinge_mass) (num well_width) nondimensional_force temperature;
     nondimensional_helmholtz_free_energy_per_link := fun nondimensional_force temperature =>
       jl_swfjc_isotensional_legendre.nondimensional_helmholtz_free_energy_per_link (num
       link_length) (num hinge_mass) (num well_width) nondimensional_force temperature;
     nondimensional_relative_helmholtz_free_energy := fun nondimensional_force =>
       jl_swfjc_isotensional_legendre.nondimensional_relative_helmholtz_free_energy (num
       number_of_links) (num link_length) (num well_width) nondimensional_force;
     nondimensional_relative_helmholtz_free_energy_per_link := fun nondimensional_force =>
       jl_swfjc_isotensional_legendre.nondimensional_relative_helmholtz_free_energy_per_link (num
       link_length) (num well_width) nondimensional_force |}.

End Model.
End J_swfjc_isotensional_legendre.

(** /repo/src/physics/single_chain/ufjc/lennard_jones/thermodynamics/isometric/mod.jl: struct LENNARDJONESFJC *)
Module J_lennard_jones_isometric.
(* /repo/src/physics/single_chain/ufjc/lennard_jones/thermodynamics/isometric/mod.jl:16-37 *)
Record t {T : Type} := {
  number_of_links : Z;
  link_length : T;
  hinge_mass : T;
  link_stiffness : T;
  asymptotic : J_lennard_jones_isometric_asymptotic.t T }.
Arguments t : clear implicits.
Section Model.
Context {T : Type} {Sc : Scalar T}.

(* /repo/src/physics/single_chain/ufjc/lennard_jones/thermodynamics/isometric/mod.jl:44-62 *)
Definition init (number_of_links : Z) (link_length : T) (hinge_mass : T) (link_stiffness : T) : t T
    :=
  {| number_of_links := number_of_links;
     link_length := link_length;
     hinge_mass := hinge_mass;
     link_stiffness := link_stiffness;
     asymptotic := J_lennard_jones_isometric_asymptotic.init number_of_links link_length hinge_mass
       link_stiffness |}.

End Model.
End J_lennard_jones_isometric.

(** /repo/src/physics/single_chain/ufjc/lennard_jones/thermodynamics/isotensional/mod.jl *)
Module jl_lennard_jones_isotensional.
Section Model.
Context {T : Type} {Sc : Scalar T}.

(* /repo/src/physics/single_chain/ufjc/lennard_jones/thermodynamics/isotensional/mod.jl:105-133 *)
Definition end_to_end_length (number_of_links : jarray Z) (link_length : jarray T) (link_stiffness :
    jarray T) (force : jarray T) (temperature : jarray T) : result T :=
  broadcast [UInt8; Float64; Float64; Float64; Float64] (fun number_of_links_i link_length_i
      link_stiffness_i force_i temperature_i => ccall
      lib.physics_single_chain_ufjc_lennard_jones_thermodynamics_isotensional_end_to_end_length
      [UInt8; Float64; Float64; Float64; Float64] number_of_links_i link_length_i link_stiffness_i
      force_i temperature_i) number_of_links link_length link_stiffness force temperature.

(* /repo/src/physics/single_chain/ufjc/lennard_jones/thermodynamics/isotensional/mod.jl:141-165 *)
Definition end_to_end_length_per_link (link_length : jarray T) (link_stiffness : jarray T) (force :
    jarray T) (temperature : jarray T) : result T :=
  broadcast [Float64; Float64; Float64; Float64] (fun link_length_i link_stiffness_i force_i
      temperature_i => ccall
      lib.physics_single_chain_ufjc_lennard_jones_thermodynamics_isotensional_end_to_end_length_per_link
      [Float64; Float64; Float64; Float64] link_length_i link_stiffness_i force_i temperature_i)
      link_length link_stiffness force temperature.

(* /repo/src/physics/single_chain/ufjc/lennard_jones/thermodynamics/isotensional/mod.jl:173-195 *)
Definition nondimensional_end_to_end_length (number_of_links : jarray Z)
    (nondimensional_link_stiffness : jarray T) (nondimensional_force : jarray T) : result T :=
  broadcast [UInt8; Float64; Float64] (fun number_of_links_i nondimensional_link_stiffness_i
      nondimensional_force_i => ccall
      lib.physics_single_chain_ufjc_lennard_jones_thermodynamics_isotensional_nondimensional_end_to_end_length
      [UInt8; Float64; Float64] number_of_links_i nondimensional_link_stiffness_i
      nondimensional_force_i) number_of_links nondimensional_link_stiffness nondimensional_force.

(* /repo/src/physics/single_chain/ufjc/lennard_jones/thermodynamics/isotensional/mod.jl:208-226 *)
Definition nondimensional_end_to_end_length_per_link (nondimensional_link_stiffness : jarray T)
    (nondimensional_force : jarray T) : result T :=
  broadcast [Float64; Float64] (fun nondimensional_link_stiffness_i nondimensional_force_i => ccall
      lib.physics_single_chain_ufjc_lennard_jones_thermodynamics_isotensional_nondimensional_end_to_end_length_per_link
      [Float64; Float64] nondimensional_link_stiffness_i nondimensional_force_i)
      nondimensional_link_stiffness nondimensional_force.

(* /repo/src/physics/single_chain/ufjc/lennard_jones/thermodynamics/isotensional/mod.jl:238-275 *)
Definition gibbs_free_energy (number_of_links : jarray Z) (link_length : jarray T) (hinge_mass :
    jarray T) (link_stiffness : jarray T) (force : jarray T) (temperature : jarray T) : result T :=
  broadcast [UInt8; Float64; Float64; Float64; Float64; Float64] (fun number_of_links_i
      link_length_i hinge_mass_i link_stiffness_i force_i temperature_i => ccall
      lib.physics_single_chain_ufjc_lennard_jones_thermodynamics_isotensional_gibbs_free_energy
      [UInt8; Float64; Float64; Float64; Float64; Float64] number_of_links_i link_length_i
      hinge_mass_i link_stiffness_i force_i temperature_i) number_of_links link_length hinge_mass
      link_stiffness force temperature.

(* /repo/src/physics/single_chain/ufjc/lennard_jones/thermodynamics/isotensional/mod.jl:283-310 *)
Definition gibbs_free_energy_per_link (link_length : jarray T) (hinge_mass : jarray T)
    (link_stiffness : jarray T) (force : jarray T) (temperature : jarray T) : result T :=
  broadcast [Float64; Float64; Float64; Float64; Float64] (fun link_length_i hinge_mass_i
      link_stiffness_i force_i temperature_i => ccall
      lib.physics_single_chain_ufjc_lennard_jones_thermodynamics_isotensional_gibbs_free_energy_per_link
      [Float64; Float64; Float64; Float64; Float64] link_length_i hinge_mass_i link_stiffness_i
      force_i temperature_i) link_length hinge_mass link_stiffness force temperature.

(* /repo/src/physics/single_chain/ufjc/lennard_jones/thermodynamics/isotensional/mod.jl:318-346 *)
Definition relative_gibbs_free_energy (number_of_links : jarray Z) (link_length : jarray T)
    (link_stiffness : jarray T) (force : jarray T) (temperature : jarray T) : result T :=
  broadcast [UInt8; Float64; Float64; Float64; Float64] (fun number_of_links_i link_length_i
      link_stiffness_i force_i temperature_i => ccall
      lib.physics_single_chain_ufjc_lennard_jones_thermodynamics_isotensional_relative_gibbs_free_energy
      [UInt8; Float64; Float64; Float64; Float64] number_of_links_i link_length_i link_stiffness_i
      force_i temperature_i) number_of_links link_length link_stiffness force temperature.

(* /repo/src/physics/single_chain/ufjc/lennard_jones/thermodynamics/isotensional/mod.jl:354-378 *)
Definition relative_gibbs_free_energy_per_link (link_length : jarray T) (link_stiffness : jarray T)
    (force : jarray T) (temperature : jarray T) : result T :=
  broadcast [Float64; Float64; Float64; Float64] (fun link_length_i link_stiffness_i force_i
      temperature_i => ccall
      lib.physics_single_chain_ufjc_lennard_jones_thermodynamics_isotensional_relative_gibbs_free_energy_per_link
      [Float64; Float64; Float64; Float64] link_length_i link_stiffness_i force_i temperature_i)
      link_length link_stiffness force temperature.

(* /repo/src/physics/single_chain/ufjc/lennard_jones/thermodynamics/isotensional/mod.jl:386-423 *)
Definition nondimensional_gibbs_free_energy (number_of_links : jarray Z) (link_length : jarray T)
    (hinge_mass : jarray T) (nondimensional_link_stiffness : jarray T) (nondimensional_force :
    jarray T) (temperature : jarray T) : result T :=
  broadcast [UInt8; Float64; Float64; Float64; Float64; Float64] (fun number_of_links_i
      link_length_i hinge_mass_i nondimensional_link_stiffness_i nondimensional_force_i
      temperature_i => ccall
      lib.physics_single_chain_ufjc_lennard_jones_thermodynamics_isotensional_nondimensional_gibbs_free_energy
      [UInt8; Float64; Float64; Float64; Float64; Float64] number_of_links_i link_length_i
      hinge_mass_i nondimensional_link_stiffness_i nondimensional_force_i temperature_i)
      number_of_links link_length hinge_mass nondimensional_link_stiffness nondimensional_force
      temperature.

(* /repo/src/physics/single_chain/ufjc/lennard_jones/thermodynamics/isotensional/mod.jl:431-464 *)
Definition nondimensional_gibbs_free_energy_per_link (link_length : jarray T) (hinge_mass : jarray
    T) (nondimensional_link_stiffness : jarray T) (nondimensional_force : jarray T) (temperature :
    jarray T) : result T :=
  broadcast [Float64; Float64; Float64; Float64; Float64] (fun link_length_i hinge_mass_i
      nondimensional_link_stiffness_i nondimensional_force_i temperature_i => ccall
      lib.physics_single_chain_ufjc_lennard_jones_thermodynamics_isotensional_nondimensional_gibbs_free_energy_per_link
      [Float64; Float64; Float64; Float64; Float64] link_length_i hinge_mass_i
      nondimensional_link_stiffness_i nondimensional_force_i temperature_i) link_length hinge_mass
      nondimensional_link_stiffness nondimensional_force temperature.

(* /repo/src/physics/single_chain/ufjc/lennard_jones/thermodynamics/isotensional/mod.jl:472-494 *)
Definition nondimensional_relative_gibbs_free_energy (number_of_links : jarray Z)
    (nondimensional_link_stiffness : jarray T) (nondimensional_force : jarray T) : result T :=
  broadcast [UInt8; Float64; Float64] (fun number_of_links_i nondimensional_link_stiffness_i
      nondimensional_force_i => ccall
      lib.physics_single_chain_ufjc_lennard_jones_thermodynamics_isotensional_nondimensional_relative_gibbs_free_energy
      [UInt8; Float64; Float64] number_of_links_i nondimensional_link_stiffness_i
      nondimensional_force_i) number_of_links nondimensional_link_stiffness nondimensional_force.

(* /repo/src/physics/single_chain/ufjc/lennard_jones/thermodynamics/isotensional/mod.jl:515-533 *)
Definition nondimensional_relative_gibbs_free_energy_per_link (nondimensional_link_stiffness :
    jarray T) (nondimensional_force : jarray T) : result T :=
  broadcast [Float64; Float64] (fun nondimensional_link_stiffness_i nondimensional_force_i => ccall
      lib.physics_single_chain_ufjc_lennard_jones_thermodynamics_isotensional_nondimensional_relative_gibbs_free_energy_per_link
      [Float64; Float64] nondimensional_link_stiffness_i nondimensional_force_i)
      nondimensional_link_stiffness nondimensional_force.

End Model.
End jl_lennard_jones_isotensional.

(** /repo/src/physics/single_chain/ufjc/lennard_jones/thermodynamics/isotensional/mod.jl: struct LENNARDJONESFJC *)
Module J_lennard_jones_isotensional.
(* /repo/src/physics/single_chain/ufjc/lennard_jones/thermodynamics/isotensional/mod.jl:20-93 *)
Record t {T : Type} := {
  number_of_links : Z;
  link_length : T;
  hinge_mass : T;
  link_stiffness : T;
  asymptotic : J_lennard_jones_isotensional_asymptotic.t T;
  legendre : J_lennard_jones_isotensional_legendre.t T;
  end_to_end_length : jarray T -> jarray T -> result T;
  end_to_end_length_per_link : jarray T -> jarray T -> result T;
  nondimensional_end_to_end_length : jarray T -> T -> result T;
  nondimensional_end_to_end_length_per_link : jarray T -> T -> result T;
  gibbs_free_energy : jarray T -> jarray T -> result T;
  gibbs_free_energy_per_link : jarray T -> jarray T -> result T;
  relative_gibbs_free_energy : jarray T -> jarray T -> result T;
  relative_gibbs_free_energy_per_link : jarray T -> jarray T -> result T;
  nondimensional_gibbs_free_energy : jarray T -> T -> result T;
  nondimensional_gibbs_free_energy_per_link : jarray T -> T -> result T;
  nondimensional_relative_gibbs_free_energy : jarray T -> T -> result T;
  nondimensional_relative_gibbs_free_energy_per_link : jarray T -> T -> result T }.
Arguments t : clear implicits.
Section Model.
Context {T : Type} {Sc : Scalar T}.

(* /repo/src/physics/single_chain/ufjc/lennard_jones/thermodynamics/isotensional/mod.jl:540-631 *)
Definition init (number_of_links : Z) (link_length : T) (hinge_mass : T) (link_stiffness : T) : t T
    :=
  {| number_of_links := number_of_links;
     link_length := link_length;
     hinge_mass := hinge_mass;
     link_stiffness := link_stiffness;
     asymptotic := J_lennard_jones_isotensional_asymptotic.init number_of_links link_length hinge_mass
       link_stiffness;
     legendre := J_lennard_jones_isotensional_legendre.init number_of_links link_length hinge_mass
       link_stiffness;
     end_to_end_length := fun force temperature => jl_lennard_jones_isotensional.end_to_end_length (num
       number_of_links) (num link_length) (num link_stiffness) force temperature;
     end_to_end_length_per_link := fun force temperature =>
       jl_lennard_jones_isotensional.end_to_end_length_per_link (num link_length) (num
       link_stiffness) force temperature;
     nondimensional_end_to_end_length := fun nondimensional_force temperature =>
       jl_lennard_jones_isotensional.nondimensional_end_to_end_length (num number_of_links) (num
       (link_stiffness * spowi link_length 2 / jl_BOLTZMANN_CONSTANT / temperature))
       nondimensional_force;
     nondimensional_end_to_end_length_per_link := fun nondimensional_force temperature =>
       jl_lennard_jones_isotensional.nondimensional_end_to_end_length_per_link (num (link_stiffness
       * spowi link_length 2 / jl_BOLTZMANN_CONSTANT / temperature)) nondimensional_force;
     gibbs_free_energy := fun force temperature => jl_lennard_jones_isotensional.gibbs_free_energy (num
       number_of_links) (num link_length) (num hinge_mass) (num link_stiffness) force temperature;
     gibbs_free_energy_per_link := fun force temperature =>
       jl_lennard_jones_isotensional.gibbs_free_energy_per_link (num link_length) (num hinge_mass)
       (num link_stiffness) force temperature;
     relative_gibbs_free_energy := fun force temperature =>
       jl_lennard_jones_isotensional.relative_gibbs_free_energy (num number_of_links) (num
       link_length) (num link_stiffness) force temperature;
     relative_gibbs_free_energy_per_link := fun force temperature =>
       jl_lennard_jones_isotensional.relative_gibbs_free_energy_per_link (num link_length) (num
       link_stiffness) force temperature;
     nondimensional_gibbs_free_energy := fun nondimensional_force temperature =>
       jl_lennard_jones_isotensional.nondimensional_gibbs_free_energy (num number_of_links) (num
       link_length) (num hinge_mass) (num (link_stiffness * spowi link_length 2 /
       jl_BOLTZMANN_CONSTANT / temperature)) nondimensional_force (num temperature);
     nondimensional_gibbs_free_energy_per_link := fun nondimensional_force temperature =>
       jl_lennard_jones_isotensional.nondimensional_gibbs_free_energy_per_link (num link_length)
       (num hinge_mass) (num (link_stiffness * spowi link_length 2 / jl_BOLTZMANN_CONSTANT /
       temperature)) nondimensional_force (num temperature);
     nondimensional_relative_gibbs_free_energy := fun nondimensional_force temperature =>
       jl_lennard_jones_isotensional.nondimensional_relative_gibbs_free_energy (num number_of_links)
       (num (link_stiffness * spowi link_length 2 / jl_BOLTZMANN_CONSTANT / temperature))
       nondimensional_force;
     nondimensional_relative_gibbs_free_energy_per_link := fun nondimensional_force temperature =>
       jl_lennard_jones_isotensional.nondimensional_relative_gibbs_free_energy_per_link (num
       (link_stiffness * spowi link_length 2 / jl_BOLTZMANN_CONSTANT / temperature))
       nondimensional_force |}.

End Model.
End J_lennard_jones_isotensional.

(** /repo/src/physics/single_chain/ufjc/log_squared/thermodynamics/isometric/mod.jl: struct LOGSQUAREDFJC *)
Module J_log_squared_isometric.
(* /repo/src/physics/single_chain/ufjc/log_squared/thermodynamics/isometric/mod.jl:16-37 *)
Record t {T : Type} := {
  number_of_links : Z;
  link_length : T;
  hinge_mass : T;
  link_stiffness : T;
  asymptotic : J_log_squared_isometric_asymptotic.t T }.
Arguments t : clear implicits.
Section Model.
Context {T : Type} {Sc : Scalar T}.

(* /repo/src/physics/single_chain/ufjc/log_squared/thermodynamics/isometric/mod.jl:44-57 *)
Definition init (number_of_links : Z) (link_length : T) (hinge_mass : T) (link_stiffness : T) : t T
    :=
  {| number_of_links := number_of_links;
     link_length := link_length;
     hinge_mass := hinge_mass;
     link_stiffness := link_stiffness;
     asymptotic := J_log_squared_isometric_asymptotic.init number_of_links link_length hinge_mass
       link_stiffness |}.

End Model.
End J_log_squared_isometric.

(** /repo/src/physics/single_chain/ufjc/log_squared/thermodynamics/isotensional/mod.jl *)
Module jl_log_squared_isotensional.
Section Model.
Context {T : Type} {Sc : Scalar T}.

(* /repo/src/physics/single_chain/ufjc/log_squared/thermodynamics/isotensional/mod.jl:105-133 *)
Definition end_to_end_length (number_of_links : jarray Z) (link_length : jarray T) (link_stiffness :
    jarray T) (force : jarray T) (temperature : jarray T) : result T :=
  broadcast [UInt8; Float64; Float64; Float64; Float64] (fun number_of_links_i link_length_i
      link_stiffness_i force_i temperature_i => ccall
      lib.physics_single_chain_ufjc_log_squared_thermodynamics_isotensional_end_to_end_length
      [UInt8; Float64; Float64; Float64; Float64] number_of_links_i link_length_i link_stiffness_i
      force_i temperature_i) number_of_links link_length link_stiffness force temperature.

(* /repo/src/physics/single_chain/ufjc/log_squared/thermodynamics/isotensional/mod.jl:141-165 *)
Definition end_to_end_length_per_link (link_length : jarray T) (link_stiffness : jarray T) (force :
    jarray T) (temperature : jarray T) : result T :=
  broadcast [Float64; Float64; Float64; Float64] (fun link_length_i link_stiffness_i force_i
      temperature_i => ccall
      lib.physics_single_chain_ufjc_log_squared_thermodynamics_isotensional_end_to_end_length_per_link
      [Float64; Float64; Float64; Float64] link_length_i link_stiffness_i force_i temperature_i)
      link_length link_stiffness force temperature.

(* /repo/src/physics/single_chain/ufjc/log_squared/thermodynamics/isotensional/mod.jl:173-195 *)
Definition nondimensional_end_to_end_length (number_of_links : jarray Z)
    (nondimensional_link_stiffness : jarray T) (nondimensional_force : jarray T) : result T :=
  broadcast [UInt8; Float64; Float64] (fun number_of_links_i nondimensional_link_stiffness_i
      nondimensional_force_i => ccall
      lib.physics_single_chain_ufjc_log_squared_thermodynamics_isotensional_nondimensional_end_to_end_length
      [UInt8; Float64; Float64] number_of_links_i nondimensional_link_stiffness_i
      nondimensional_force_i) number_of_links nondimensional_link_stiffness nondimensional_force.

(* /repo/src/physics/single_chain/ufjc/log_squared/thermodynamics/isotensional/mod.jl:208-226 *)
Definition nondimensional_end_to_end_length_per_link (nondimensional_link_stiffness : jarray T)
    (nondimensional_force : jarray T) : result T :=
  broadcast [Float64; Float64] (fun nondimensional_link_stiffness_i nondimensional_force_i => ccall
      lib.physics_single_chain_ufjc_log_squared_thermodynamics_isotensional_nondimensional_end_to_end_length_per_link
      [Float64; Float64] nondimensional_link_stiffness_i nondimensional_force_i)
      nondimensional_link_stiffness nondimensional_force.

(* /repo/src/physics/single_chain/ufjc/log_squared/thermodynamics/isotensional/mod.jl:238-275 *)
Definition gibbs_free_energy (number_of_links : jarray Z) (link_length : jarray T) (hinge_mass :
    jarray T) (link_stiffness : jarray T) (force : jarray T) (temperature : jarray T) : result T :=
  broadcast [UInt8; Float64; Float64; Float64; Float64; Float64] (fun number_of_links_i
      link_length_i hinge_mass_i link_stiffness_i force_i temperature_i => ccall
      lib.physics_single_chain_ufjc_log_squared_thermodynamics_isotensional_gibbs_free_energy
      [UInt8; Float64; Float64; Float64; Float64; Float64] number_of_links_i link_length_i
      hinge_mass_i link_stiffness_i force_i temperature_i) number_of_links link_length hinge_mass
      link_stiffness force temperature.

(* /repo/src/physics/single_chain/ufjc/log_squared/thermodynamics/isotensional/mod.jl:283-310 *)
Definition gibbs_free_energy_per_link (link_length : jarray T) (hinge_mass : jarray T)
    (link_stiffness : jarray T) (force : jarray T) (temperature : jarray T) : result T :=
  broadcast [Float64; Float64; Float64; Float64; Float64] (fun link_length_i hinge_mass_i
      link_stiffness_i force_i temperature_i => ccall
      lib.physics_single_chain_ufjc_log_squared_thermodynamics_isotensional_gibbs_free_energy_per_link
      [Float64; Float64; Float64; Float64; Float64] link_length_i hinge_mass_i link_stiffness_i
      force_i temperature_i) link_length hinge_mass link_stiffness force temperature.

(* /repo/src/physics/single_chain/ufjc/log_squared/thermodynamics/isotensional/mod.jl:318-346 *)
Definition relative_gibbs_free_energy (number_of_links : jarray Z) (link_length : jarray T)
    (link_stiffness : jarray T) (force : jarray T) (temperature : jarray T) : result T :=
  broadcast [UInt8; Float64; Float64; Float64; Float64] (fun number_of_links_i link_length_i
      link_stiffness_i force_i temperature_i => ccall
      lib.physics_single_chain_ufjc_log_squared_thermodynamics_isotensional_relative_gibbs_free_energy
      [UInt8; Float64; Float64; Float64; Float64] number_of_links_i link_length_i link_stiffness_i
      force_i temperature_i) number_of_links link_length link_stiffness force temperature.

(* /repo/src/physics/single_chain/ufjc/log_squared/thermodynamics/isotensional/mod.jl:354-378 *)
Definition relative_gibbs_free_energy_per_link (link_length : jarray T) (link_stiffness : jarray T)
    (force : jarray T) (temperature : jarray T) : result T :=
  broadcast [Float64; Float64; Float64; Float64] (fun link_length_i link_stiffness_i force_i
      temperature_i => ccall
      lib.physics_single_chain_ufjc_log_squared_thermodynamics_isotensional_relative_gibbs_free_energy_per_link
      [Float64; Float64; Float64; Float64] link_length_i link_stiffness_i force_i temperature_i)
      link_length link_stiffness force temperature.

(* /repo/src/physics/single_chain/ufjc/log_squared/thermodynamics/isotensional/mod.jl:386-423 *)
Definition nondimensional_gibbs_free_energy (number_of_links : jarray Z) (link_length : jarray T)
    (hinge_mass : jarray T) (nondimensional_link_stiffness : jarray T) (nondimensional_force :
    jarray T) (temperature : jarray T) : result T :=
  broadcast [UInt8; Float64; Float64; Float64; Float64; Float64] (fun number_of_links_i
      link_length_i hinge_mass_i nondimensional_link_stiffness_i nondimensional_force_i
      temperature_i => ccall
      lib.physics_single_chain_ufjc_log_squared_thermodynamics_isotensional_nondimensional_gibbs_free_energy
      [UInt8; Float64; Float64; Float64; Float64; Float64] number_of_links_i link_length_i
      hinge_mass_i nondimensional_link_stiffness_i nondimensional_force_i temperature_i)
      number_of_links link_length hinge_mass nondimensional_link_stiffness nondimensional_force
      temperature.

(* /repo/src/physics/single_chain/ufjc/log_squared/thermodynamics/isotensional/mod.jl:431-464 *)
Definition nondimensional_gibbs_free_energy_per_link (link_length : jarray T) (hinge_mass : jarray
    T) (nondimensional_link_stiffness : jarray T) (nondimensional_force : jarray T) (temperature :
    jarray T) : result T :=
  broadcast [Float64; Float64; Float64; Float64; Float64] (fun link_length_i hinge_mass_i
      nondimensional_link_stiffness_i nondimensional_force_i temperature_i => ccall
      lib.physics_single_chain_ufjc_log_squared_thermodynamics_isotensional_nondimensional_gibbs_free_energy_per_link
      [Float64; Float64; Float64; Float64; Float64] link_length_i hinge_mass_i
      nondimensional_link_stiffness_i nondimensional_force_i temperature_i) link_length hinge_mass
      nondimensional_link_stiffness nondimensional_force temperature.

(* /repo/src/physics/single_chain/ufjc/log_squared/thermodynamics/isotensional/mod.jl:472-494 *)
Definition nondimensional_relative_gibbs_free_energy (number_of_links : jarray Z)
    (nondimensional_link_stiffness : jarray T) (nondimensional_force : jarray T) : result T :=
  broadcast [UInt8; Float64; Float64] (fun number_of_links_i nondimensional_link_stiffness_i
      nondimensional_force_i => ccall
      lib.physics_single_chain_ufjc_log_squared_thermodynamics_isotensional_nondimensional_relative_gibbs_free_energy
      [UInt8; Float64; Float64] number_of_links_i nondimensional_link_stiffness_i
      nondimensional_force_i) number_of_links nondimensional_link_stiffness nondimensional_force.

(* /repo/src/physics/single_chain/ufjc/log_squared/thermodynamics/isotensional/mod.jl:515-533 *)
Definition nondimensional_relative_gibbs_free_energy_per_link (nondimensional_link_stiffness :
    jarray T) (nondimensional_force : jarray T) : result T :=
  broadcast [Float64; Float64] (fun nondimensional_link_stiffness_i nondimensional_force_i => ccall
      lib.physics_single_chain_ufjc_log_squared_thermodynamics_isotensional_nondimensional_relative_gibbs_free_energy_per_link
      [Float64; Float64] nondimensional_link_stiffness_i nondimensional_force_i)
      nondimensional_link_stiffness nondimensional_force.

End Model.
End jl_log_squared_isotensional.

(** /repo/src/physics/single_chain/ufjc/log_squared/thermodynamics/isotensional/mod.jl: struct LOGSQUAREDFJC *)
Module J_log_squared_isotensional.
(* /repo/src/physics/single_chain/ufjc/log_squared/thermodynamics/isotensional/mod.jl:20-93 *)
Record t {T : Type} := {
  number_of_links : Z;
  link_length : T;
  hinge_mass : T;
  link_stiffness : T;
  asymptotic : J_log_squared_isotensional_asymptotic.t T;
  legendre : J_log_squared_isotensional_legendre.t T;
  end_to_end_length : jarray T -> jarray T -> result T;
  end_to_end_length_per_link : jarray T -> jarray T -> result T;
  nondimensional_end_to_end_length : jarray T -> T -> result T;
  nondimensional_end_to_end_length_per_link : jarray T -> T -> result T;
  gibbs_free_energy : jarray T -> jarray T -> result T;
  gibbs_free_energy_per_link : jarray T -> jarray T -> result T;
  relative_gibbs_free_energy : jarray T -> jarray T -> result T;
  relative_gibbs_free_energy_per_link : jarray T -> jarray T -> result T;
  nondimensional_gibbs_free_energy : jarray T -> T -> result T;
  nondimensional_gibbs_free_energy_per_link : jarray T -> T -> result T;
  nondimensional_relative_gibbs_free_energy : jarray T -> T -> result T;
  nondimensional_relative_gibbs_free_energy_per_link : jarray T -> T -> result T }.
Arguments t : clear implicits.
Section Model.
Context {T : Type} {Sc : Scalar T}.

(* /repo/src/physics/single_chain/ufjc/log_squared/thermodynamics/isotensional/mod.jl:540-626 *)
Definition init (number_of_links : Z) (link_length : T) (hinge_mass : T) (link_stiffness : T) : t T
    :=
  {| number_of_links := number_of_links;
     link_length := link_length;
     hinge_mass := hinge_mass;
     link_stiffness := link_stiffness;
     asymptotic := J_log_squared_isotensional_asymptotic.init number_of_links link_length hinge_mass
       link_stiffness;
     legendre := J_log_squared_isotensional_legendre.init number_of_links link_length hinge_mass
       link_stiffness;
     end_to_end_length := fun force temperature => jl_log_squared_isotensional.end_to_end_length (num
       number_of_links) (num link_length) (num link_stiffness) force temperature;
     end_to_end_length_per_link := fun force temperature =>
       jl_log_squared_isotensional.end_to_end_length_per_link (num link_length) (num link_stiffness)
       force temperature;
     nondimensional_end_to_end_length := fun nondimensional_force temperature =>
       jl_log_squared_isotensional.nondimensional_end_to_end_length (num number_of_links) (num
       (link_stiffness * spowi link_length 2 / jl_BOLTZMANN_CONSTANT / temperature))
       nondimensional_force;
     nondimensional_end_to_end_length_per_link := fun nondimensional_force temperature =>
       jl_log_squared_isotensional.nondimensional_end_to_end_length_per_link (num (link_stiffness *
       spowi link_length 2 / jl_BOLTZMANN_CONSTANT / temperature)) nondimensional_force;
     gibbs_free_energy := fun force temperature => jl_log_squared_isotensional.gibbs_free_energy (num
       number_of_links) (num link_length) (num hinge_mass) (num link_stiffness) force temperature;
     gibbs_free_energy_per_link := fun force temperature =>
       jl_log_squared_isotensional.gibbs_free_energy_per_link (num link_length) (num hinge_mass)
       (num link_stiffness) force temperature;
     relative_gibbs_free_energy := fun force temperature =>
       jl_log_squared_isotensional.relative_gibbs_free_energy (num number_of_links) (num
       link_length) (num link_stiffness) force temperature;
     relative_gibbs_free_energy_per_link := fun force temperature =>
       jl_log_squared_isotensional.relative_gibbs_free_energy_per_link (num link_length) (num
       link_stiffness) force temperature;
     nondimensional_gibbs_free_energy := fun nondimensional_force temperature =>
       jl_log_squared_isotensional.nondimensional_gibbs_free_energy (num number_of_links) (num
       link_length) (num hinge_mass) (num (link_stiffness * spowi link_length 2 /
       jl_BOLTZMANN_CONSTANT / temperature)) nondimensional_force (num temperature);
     nondimensional_gibbs_free_energy_per_link := fun nondimensional_force temperature =>
       jl_log_squared_isotensional.nondimensional_gibbs_free_energy_per_link (num link_length) (num
       hinge_mass) (num (link_stiffness * spowi link_length 2 / jl_BOLTZMANN_CONSTANT /
       temperature)) nondimensional_force (num temperature);
     nondimensional_relative_gibbs_free_energy := fun nondimensional_force temperature =>
       jl_log_squared_isotensional.nondimensional_relative_gibbs_free_energy (num number_of_links)
       (num (link_stiffness * spowi link_length 2 / jl_BOLTZMANN_CONSTANT / temperature))
       nondimensional_force;
     nondimensional_relative_gibbs_free_energy_per_link := fun nondimensional_force temperature =>
       jl_log_squared_isotensional.nondimensional_relative_gibbs_free_energy_per_link (num
       (link_stiffness * spowi link_length 2 / jl_BOLTZMANN_CONSTANT / temperature))
       nondimensional_force |}.

End Model.
End J_log_squared_isotensional.

(** /repo/src/physics/single_chain/ufjc/morse/thermodynamics/isometric/mod.jl: struct MORSEFJC *)
Module J_morse_isometric.
(* /repo/src/physics/single_chain/ufjc/morse/thermodynamics/isometric/mod.jl:16-41 *)
Record t {T : Type} := {
  number_of_links : Z;
  link_length : T;
  hinge_mass : T;
  link_stiffness : T;
  link_energy : T;
  asymptotic : J_morse_isometric_asymptotic.t T }.
Arguments t : clear implicits.
Section Model.
Context {T : Type} {Sc : Scalar T}.

(* /repo/src/physics/single_chain/ufjc/morse/thermodynamics/isometric/mod.jl:48-69 *)
Definition init (number_of_links : Z) (link_length : T) (hinge_mass : T) (link_stiffness : T)
    (link_energy : T) : t T :=
  {| number_of_links := number_of_links;
     link_length := link_length;
     hinge_mass := hinge_mass;
     link_stiffness := link_stiffness;
     link_energy := link_energy;
     asymptotic := J_morse_isometric_asymptotic.init number_of_links link_length hinge_mass
       link_stiffness link_energy |}.

End Model.
End J_morse_isometric.

(** /repo/src/physics/single_chain/ufjc/morse/thermodynamics/isotensional/mod.jl *)
Module jl_morse_isotensional.
Section Model.
Context {T : Type} {Sc : Scalar T}.

(* /repo/src/physics/single_chain/ufjc/morse/thermodynamics/isotensional/mod.jl:109-146 *)
Definition end_to_end_length (number_of_links : jarray Z) (link_length : jarray T) (link_stiffness :
    jarray T) (link_energy : jarray T) (force : jarray T) (temperature : jarray T) : result T :=
  broadcast [UInt8; Float64; Float64; Float64; Float64; Float64] (fun number_of_links_i
      link_length_i link_stiffness_i link_energy_i force_i temperature_i => ccall
      lib.physics_single_chain_ufjc_morse_thermodynamics_isotensional_end_to_end_length [UInt8;
      Float64; Float64; Float64; Float64; Float64] number_of_links_i link_length_i link_stiffness_i
      link_energy_i force_i temperature_i) number_of_links link_length link_stiffness link_energy
      force temperature.

(* /repo/src/physics/single_chain/ufjc/morse/thermodynamics/isotensional/mod.jl:154-181 *)
Definition end_to_end_length_per_link (link_length : jarray T) (link_stiffness : jarray T)
    (link_energy : jarray T) (force : jarray T) (temperature : jarray T) : result T :=
  broadcast [Float64; Float64; Float64; Float64; Float64] (fun link_length_i link_stiffness_i
      link_energy_i force_i temperature_i => ccall
      lib.physics_single_chain_ufjc_morse_thermodynamics_isotensional_end_to_end_length_per_link
      [Float64; Float64; Float64; Float64; Float64] link_length_i link_stiffness_i link_energy_i
      force_i temperature_i) link_length link_stiffness link_energy force temperature.

(* /repo/src/physics/single_chain/ufjc/morse/thermodynamics/isotensional/mod.jl:189-218 *)
Definition nondimensional_end_to_end_length (number_of_links : jarray Z)
    (nondimensional_link_stiffness : jarray T) (nondimensional_link_energy : jarray T)
    (nondimensional_force : jarray T) : result T :=
  broadcast [UInt8; Float64; Float64; Float64] (fun number_of_links_i
      nondimensional_link_stiffness_i nondimensional_link_energy_i nondimensional_force_i => ccall
      lib.physics_single_chain_ufjc_morse_thermodynamics_isotensional_nondimensional_end_to_end_length
      [UInt8; Float64; Float64; Float64] number_of_links_i nondimensional_link_stiffness_i
      nondimensional_link_energy_i nondimensional_force_i) number_of_links
      nondimensional_link_stiffness nondimensional_link_energy nondimensional_force.

(* /repo/src/physics/single_chain/ufjc/morse/thermodynamics/isotensional/mod.jl:231-256 *)
Definition nondimensional_end_to_end_length_per_link (nondimensional_link_stiffness : jarray T)
    (nondimensional_link_energy : jarray T) (nondimensional_force : jarray T) : result T :=
  broadcast [Float64; Float64; Float64] (fun nondimensional_link_stiffness_i
      nondimensional_link_energy_i nondimensional_force_i => ccall
      lib.physics_single_chain_ufjc_morse_thermodynamics_isotensional_nondimensional_end_to_end_length_per_link
      [Float64; Float64; Float64] nondimensional_link_stiffness_i nondimensional_link_energy_i
      nondimensional_force_i) nondimensional_link_stiffness nondimensional_link_energy
      nondimensional_force.

(* /repo/src/physics/single_chain/ufjc/morse/thermodynamics/isotensional/mod.jl:268-309 *)
Definition gibbs_free_energy (number_of_links : jarray Z) (link_length : jarray T) (hinge_mass :
    jarray T) (link_stiffness : jarray T) (link_energy : jarray T) (force : jarray T) (temperature :
    jarray T) : result T :=
  broadcast [UInt8; Float64; Float64; Float64; Float64; Float64; Float64] (fun number_of_links_i
      link_length_i hinge_mass_i link_stiffness_i link_energy_i force_i temperature_i => ccall
      lib.physics_single_chain_ufjc_morse_thermodynamics_isotensional_gibbs_free_energy [UInt8;
      Float64; Float64; Float64; Float64; Float64; Float64] number_of_links_i link_length_i
      hinge_mass_i link_stiffness_i link_energy_i force_i temperature_i) number_of_links link_length
      hinge_mass link_stiffness link_energy force temperature.

(* /repo/src/physics/single_chain/ufjc/morse/thermodynamics/isotensional/mod.jl:317-354 *)
Definition gibbs_free_energy_per_link (link_length : jarray T) (hinge_mass : jarray T)
    (link_stiffness : jarray T) (link_energy : jarray T) (force : jarray T) (temperature : jarray T)
    : result T :=
  broadcast [Float64; Float64; Float64; Float64; Float64; Float64] (fun link_length_i hinge_mass_i
      link_stiffness_i link_energy_i force_i temperature_i => ccall
      lib.physics_single_chain_ufjc_morse_thermodynamics_isotensional_gibbs_free_energy_per_link
      [Float64; Float64; Float64; Float64; Float64; Float64] link_length_i hinge_mass_i
      link_stiffness_i link_energy_i force_i temperature_i) link_length hinge_mass link_stiffness
      link_energy force temperature.

(* /repo/src/physics/single_chain/ufjc/morse/thermodynamics/isotensional/mod.jl:362-399 *)
Definition relative_gibbs_free_energy (number_of_links : jarray Z) (link_length : jarray T)
    (link_stiffness : jarray T) (link_energy : jarray T) (force : jarray T) (temperature : jarray T)
    : result T :=
  broadcast [UInt8; Float64; Float64; Float64; Float64; Float64] (fun number_of_links_i
      link_length_i link_stiffness_i link_energy_i force_i temperature_i => ccall
      lib.physics_single_chain_ufjc_morse_thermodynamics_isotensional_relative_gibbs_free_energy
      [UInt8; Float64; Float64; Float64; Float64; Float64] number_of_links_i link_length_i
      link_stiffness_i link_energy_i force_i temperature_i) number_of_links link_length
      link_stiffness link_energy force temperature.

(* /repo/src/physics/single_chain/ufjc/morse/thermodynamics/isotensional/mod.jl:407-434 *)
Definition relative_gibbs_free_energy_per_link (link_length : jarray T) (link_stiffness : jarray T)
    (link_energy : jarray T) (force : jarray T) (temperature : jarray T) : result T :=
  broadcast [Float64; Float64; Float64; Float64; Float64] (fun link_length_i link_stiffness_i
      link_energy_i force_i temperature_i => ccall
      lib.physics_single_chain_ufjc_morse_thermodynamics_isotensional_relative_gibbs_free_energy_per_link
      [Float64; Float64; Float64; Float64; Float64] link_length_i link_stiffness_i link_energy_i
      force_i temperature_i) link_length link_stiffness link_energy force temperature.

(* /repo/src/physics/single_chain/ufjc/morse/thermodynamics/isotensional/mod.jl:442-483 *)
Definition nondimensional_gibbs_free_energy (number_of_links : jarray Z) (link_length : jarray T)
    (hinge_mass : jarray T) (nondimensional_link_stiffness : jarray T) (nondimensional_link_energy :
    jarray T) (nondimensional_force : jarray T) (temperature : jarray T) : result T :=
  broadcast [UInt8; Float64; Float64; Float64; Float64; Float64; Float64] (fun number_of_links_i
      link_length_i hinge_mass_i nondimensional_link_stiffness_i nondimensional_link_energy_i
      nondimensional_force_i temperature_i => ccall
      lib.physics_single_chain_ufjc_morse_thermodynamics_isotensional_nondimensional_gibbs_free_energy
      [UInt8; Float64; Float64; Float64; Float64; Float64; Float64] number_of_links_i link_length_i
      hinge_mass_i nondimensional_link_stiffness_i nondimensional_link_energy_i
      nondimensional_force_i temperature_i) number_of_links link_length hinge_mass
      nondimensional_link_stiffness nondimensional_link_energy nondimensional_force temperature.

(* /repo/src/physics/single_chain/ufjc/morse/thermodynamics/isotensional/mod.jl:491-528 *)
Definition nondimensional_gibbs_free_energy_per_link (link_length : jarray T) (hinge_mass : jarray
    T) (nondimensional_link_stiffness : jarray T) (nondimensional_link_energy : jarray T)
    (nondimensional_force : jarray T) (temperature : jarray T) : result T :=
  broadcast [Float64; Float64; Float64; Float64; Float64; Float64] (fun link_length_i hinge_mass_i
      nondimensional_link_stiffness_i nondimensional_link_energy_i nondimensional_force_i
      temperature_i => ccall
      lib.physics_single_chain_ufjc_morse_thermodynamics_isotensional_nondimensional_gibbs_free_energy_per_link
      [Float64; Float64; Float64; Float64; Float64; Float64] link_length_i hinge_mass_i
      nondimensional_link_stiffness_i nondimensional_link_energy_i nondimensional_force_i
      temperature_i) link_length hinge_mass nondimensional_link_stiffness nondimensional_link_energy
      nondimensional_force temperature.

(* /repo/src/physics/single_chain/ufjc/morse/thermodynamics/isotensional/mod.jl:536-565 *)
Definition nondimensional_relative_gibbs_free_energy (number_of_links : jarray Z)
    (nondimensional_link_stiffness : jarray T) (nondimensional_link_energy : jarray T)
    (nondimensional_force : jarray T) : result T :=
  broadcast [UInt8; Float64; Float64; Float64] (fun number_of_links_i
      nondimensional_link_stiffness_i nondimensional_link_energy_i nondimensional_force_i => ccall
      lib.physics_single_chain_ufjc_morse_thermodynamics_isotensional_nondimensional_relative_gibbs_free_energy
      [UInt8; Float64; Float64; Float64] number_of_links_i nondimensional_link_stiffness_i
      nondimensional_link_energy_i nondimensional_force_i) number_of_links
      nondimensional_link_stiffness nondimensional_link_energy nondimensional_force.

(* /repo/src/physics/single_chain/ufjc/morse/thermodynamics/isotensional/mod.jl:586-611 *)
Definition nondimensional_relative_gibbs_free_energy_per_link (nondimensional_link_stiffness :
    jarray T) (nondimensional_link_energy : jarray T) (nondimensional_force : jarray T) : result T
    :=
  broadcast [Float64; Float64; Float64] (fun nondimensional_link_stiffness_i
      nondimensional_link_energy_i nondimensional_force_i => ccall
      lib.physics_single_chain_ufjc_morse_thermodynamics_isotensional_nondimensional_relative_gibbs_free_energy_per_link
      [Float64; Float64; Float64] nondimensional_link_stiffness_i nondimensional_link_energy_i
      nondimensional_force_i) nondimensional_link_stiffness nondimensional_link_energy
      nondimensional_force.

End Model.
End jl_morse_isotensional.

(** /repo/src/physics/single_chain/ufjc/morse/thermodynamics/isotensional/mod.jl: struct MORSEFJC *)
Module J_morse_isotensional.
(* /repo/src/physics/single_chain/ufjc/morse/thermodynamics/isotensional/mod.jl:20-97 *)
Record t {T : Type} := {
  number_of_links : Z;
  link_length : T;
  hinge_mass : T;
  link_stiffness : T;
  link_energy : T;
  asymptotic : J_morse_isotensional_asymptotic.t T;
  legendre : J_morse_isotensional_legendre.t T;
  end_to_end_length : jarray T -> jarray T -> result T;
  end_to_end_length_per_link : jarray T -> jarray T -> result T;
  nondimensional_end_to_end_length : jarray T -> T -> result T;
  nondimensional_end_to_end_length_per_link : jarray T -> T -> result T;
  gibbs_free_energy : jarray T -> jarray T -> result T;
  gibbs_free_energy_per_link : jarray T -> jarray T -> result T;
  relative_gibbs_free_energy : jarray T -> jarray T -> result T;
  relative_gibbs_free_energy_per_link : jarray T -> jarray T -> result T;
  nondimensional_gibbs_free_energy : jarray T -> T -> result T;
  nondimensional_gibbs_free_energy_per_link : jarray T -> T -> result T;
  nondimensional_relative_gibbs_free_energy : jarray T -> T -> result T;
  nondimensional_relative_gibbs_free_energy_per_link : jarray T -> T -> result T }.
Arguments t : clear implicits.
Section Model.
Context {T : Type} {Sc : Scalar T}.

(* /repo/src/physics/single_chain/ufjc/morse/thermodynamics/isotensional/mod.jl:618-734 *)
Definition init (number_of_links : Z) (link_length : T) (hinge_mass : T) (link_stiffness : T)
    (link_energy : T) : t T :=
  {| number_of_links := number_of_links;
     link_length := link_length;
     hinge_mass := hinge_mass;
     link_stiffness := link_stiffness;
     link_energy := link_energy;
     asymptotic := J_morse_isotensional_asymptotic.init number_of_links link_length hinge_mass
       link_stiffness link_energy;
     legendre := J_morse_isotensional_legendre.init number_of_links link_length hinge_mass link_stiffness
       link_energy;
     end_to_end_length := fun force temperature => jl_morse_isotensional.end_to_end_length (num
       number_of_links) (num link_length) (num link_stiffness) (num link_energy) force temperature;
     end_to_end_length_per_link := fun force temperature =>
       jl_morse_isotensional.end_to_end_length_per_link (num link_length) (num link_stiffness) (num
       link_energy) force temperature;
     nondimensional_end_to_end_length := fun nondimensional_force temperature =>
       jl_morse_isotensional.nondimensional_end_to_end_length (num number_of_links) (num
       (link_stiffness * spowi link_length 2 / jl_BOLTZMANN_CONSTANT / temperature)) (num
       (link_energy / jl_BOLTZMANN_CONSTANT / temperature)) nondimensional_force;
     nondimensional_end_to_end_length_per_link := fun nondimensional_force temperature =>
       jl_morse_isotensional.nondimensional_end_to_end_length_per_link (num (link_stiffness * spowi
       link_length 2 / jl_BOLTZMANN_CONSTANT / temperature)) (num (link_energy /
       jl_BOLTZMANN_CONSTANT / temperature)) nondimensional_force;
     gibbs_free_energy := fun force temperature => jl_morse_isotensional.gibbs_free_energy (num
       number_of_links) (num link_length) (num hinge_mass) (num link_stiffness) (num link_energy)
       force temperature;
     gibbs_free_energy_per_link := fun force temperature =>
       jl_morse_isotensional.gibbs_free_energy_per_link (num link_length) (num hinge_mass) (num
       link_stiffness) (num link_energy) force temperature;
     relative_gibbs_free_energy := fun force temperature =>
       jl_morse_isotensional.relative_gibbs_free_energy (num number_of_links) (num link_length) (num
       link_stiffness) (num link_energy) force temperature;
     relative_gibbs_free_energy_per_link := fun force temperature =>
       jl_morse_isotensional.relative_gibbs_free_energy_per_link (num link_length) (num
       link_stiffness) (num link_energy) force temperature;
     nondimensional_gibbs_free_energy := fun nondimensional_force temperature =>
       jl_morse_isotensional.nondimensional_gibbs_free_energy (num number_of_links) (num
       link_length) (num hinge_mass) (num (link_stiffness * spowi link_length 2 /
       jl_BOLTZMANN_CONSTANT / temperature)) (num (link_energy / jl_BOLTZMANN_CONSTANT /
       temperature)) nondimensional_force (num temperature);
     nondimensional_gibbs_free_energy_per_link := fun nondimensional_force temperature =>
       jl_morse_isotensional.nondimensional_gibbs_free_energy_per_link (num link_length) (num
       hinge_mass) (num (link_stiffness * spowi link_length 2 / jl_BOLTZMANN_CONSTANT /
       temperature)) (num (link_energy / jl_BOLTZMANN_CONSTANT / temperature)) nondimensional_force
       (num temperature);
     nondimensional_relative_gibbs_free_energy := fun nondimensional_force temperature =>
       jl_morse_isotensional.nondimensional_relative_gibbs_free_energy (num number_of_links) (num
       (link_stiffness * spowi link_length 2 / jl_BOLTZMANN_CONSTANT / temperature)) (num
       (link_energy / jl_BOLTZMANN_CONSTANT / temperature)) nondimensional_force;
     nondimensional_relative_gibbs_free_energy_per_link := fun nondimensional_force temperature =>
       jl_morse_isotensional.nondimensional_relative_gibbs_free_energy_per_link (num (link_stiffness
       * spowi link_length 2 / jl_BOLTZMANN_CONSTANT / temperature)) (num (link_energy /
       jl_BOLTZMANN_CONSTANT / temperature)) nondimensional_force |}.

End Model.
End J_morse_isotensional.

(** /repo/src/physics/single_chain/wlc/thermodynamics/isometric/legendre/mod.jl *)
Module jl_wlc_isometric_legendre.
Section Model.
Context {T : Type} {Sc : Scalar T}.

(* /repo/src/physics/single_chain/wlc/thermodynamics/isometric/legendre/mod.jl:78-115 *)
Definition gibbs_free_energy (number_of_links : jarray Z) (link_length : jarray T) (hinge_mass :
    jarray T) (persistance_length : jarray T) (end_to_end_length : jarray T) (temperature : jarray
    T) : result T :=
  broadcast [UInt8; Float64; Float64; Float64; Float64; Float64] (fun number_of_links_i
      link_length_i hinge_mass_i persistance_length_i end_to_end_length_i temperature_i => ccall
      lib.physics_single_chain_wlc_thermodynamics_isometric_legendre_gibbs_free_energy [UInt8;
      Float64; Float64; Float64; Float64; Float64] number_of_links_i link_length_i hinge_mass_i
      persistance_length_i end_to_end_length_i temperature_i) number_of_links link_length hinge_mass
      persistance_length end_to_end_length temperature.

(* /repo/src/physics/single_chain/wlc/thermodynamics/isometric/legendre/mod.jl:123-160 *)
Definition gibbs_free_energy_per_link (number_of_links : jarray Z) (link_length : jarray T)
    (hinge_mass : jarray T) (persistance_length : jarray T) (end_to_end_length : jarray T)
    (temperature : jarray T) : result T :=
  broadcast [UInt8; Float64; Float64; Float64; Float64; Float64] (fun number_of_links_i
      link_length_i hinge_mass_i persistance_length_i end_to_end_length_i temperature_i => ccall
      lib.physics_single_chain_wlc_thermodynamics_isometric_legendre_gibbs_free_energy_per_link
      [UInt8; Float64; Float64; Float64; Float64; Float64] number_of_links_i link_length_i
      hinge_mass_i persistance_length_i end_to_end_length_i temperature_i) number_of_links
      link_length hinge_mass persistance_length end_to_end_length temperature.

(* /repo/src/physics/single_chain/wlc/thermodynamics/isometric/legendre/mod.jl:168-201 *)
Definition relative_gibbs_free_energy (number_of_links : jarray Z) (link_length : jarray T)
    (persistance_length : jarray T) (end_to_end_length : jarray T) (temperature : jarray T) : result
    T :=
  broadcast [UInt8; Float64; Float64; Float64; Float64] (fun number_of_links_i link_length_i
      persistance_length_i end_to_end_length_i temperature_i => ccall
      lib.physics_single_chain_wlc_thermodynamics_isometric_legendre_relative_gibbs_free_energy
      [UInt8; Float64; Float64; Float64; Float64] number_of_links_i link_length_i
      persistance_length_i end_to_end_length_i temperature_i) number_of_links link_length
      persistance_length end_to_end_length temperature.

(* /repo/src/physics/single_chain/wlc/thermodynamics/isometric/legendre/mod.jl:209-242 *)
Definition relative_gibbs_free_energy_per_link (number_of_links : jarray Z) (link_length : jarray T)
    (persistance_length : jarray T) (end_to_end_length : jarray T) (temperature : jarray T) : result
    T :=
  broadcast [UInt8; Float64; Float64; Float64; Float64] (fun number_of_links_i link_length_i
      persistance_length_i end_to_end_length_i temperature_i => ccall
      lib.physics_single_chain_wlc_thermodynamics_isometric_legendre_relative_gibbs_free_energy_per_link
      [UInt8; Float64; Float64; Float64; Float64] number_of_links_i link_length_i
      persistance_length_i end_to_end_length_i temperature_i) number_of_links link_length
      persistance_length end_to_end_length temperature.

(* /repo/src/physics/single_chain/wlc/thermodynamics/isometric/legendre/mod.jl:250-287 *)
Definition nondimensional_gibbs_free_energy (number_of_links : jarray Z) (link_length : jarray T)
    (hinge_mass : jarray T) (nondimensional_persistance_length : jarray T)
    (nondimensional_end_to_end_length_per_link : jarray T) (temperature : jarray T) : result T :=
  broadcast [UInt8; Float64; Float64; Float64; Float64; Float64] (fun number_of_links_i
      link_length_i hinge_mass_i nondimensional_persistance_length_i
      nondimensional_end_to_end_length_per_link_i temperature_i => ccall
      lib.physics_single_chain_wlc_thermodynamics_isometric_legendre_nondimensional_gibbs_free_energy
      [UInt8; Float64; Float64; Float64; Float64; Float64] number_of_links_i link_length_i
      hinge_mass_i nondimensional_persistance_length_i nondimensional_end_to_end_length_per_link_i
      temperature_i) number_of_links link_length hinge_mass nondimensional_persistance_length
      nondimensional_end_to_end_length_per_link temperature.

(* /repo/src/physics/single_chain/wlc/thermodynamics/isometric/legendre/mod.jl:295-332 *)
Definition nondimensional_gibbs_free_energy_per_link (number_of_links : jarray Z) (link_length :
    jarray T) (hinge_mass : jarray T) (nondimensional_persistance_length : jarray T)
    (nondimensional_end_to_end_length_per_link : jarray T) (temperature : jarray T) : result T :=
  broadcast [UInt8; Float64; Float64; Float64; Float64; Float64] (fun number_of_links_i
      link_length_i hinge_mass_i nondimensional_persistance_length_i
      nondimensional_end_to_end_length_per_link_i temperature_i => ccall
      lib.physics_single_chain_wlc_thermodynamics_isometric_legendre_nondimensional_gibbs_free_energy_per_link
      [UInt8; Float64; Float64; Float64; Float64; Float64] number_of_links_i link_length_i
      hinge_mass_i nondimensional_persistance_length_i nondimensional_end_to_end_length_per_link_i
      temperature_i) number_of_links link_length hinge_mass nondimensional_persistance_length
      nondimensional_end_to_end_length_per_link temperature.

(* /repo/src/physics/single_chain/wlc/thermodynamics/isometric/legendre/mod.jl:340-365 *)
Definition nondimensional_relative_gibbs_free_energy (number_of_links : jarray Z)
    (nondimensional_persistance_length : jarray T) (nondimensional_end_to_end_length_per_link :
    jarray T) : result T :=
  broadcast [UInt8; Float64; Float64] (fun number_of_links_i nondimensional_persistance_length_i
      nondimensional_end_to_end_length_per_link_i => ccall
      lib.physics_single_chain_wlc_thermodynamics_isometric_legendre_nondimensional_relative_gibbs_free_energy
      [UInt8; Float64; Float64] number_of_links_i nondimensional_persistance_length_i
      nondimensional_end_to_end_length_per_link_i) number_of_links nondimensional_persistance_length
      nondimensional_end_to_end_length_per_link.

(* /repo/src/physics/single_chain/wlc/thermodynamics/isometric/legendre/mod.jl:373-398 *)
Definition nondimensional_relative_gibbs_free_energy_per_link (number_of_links : jarray Z)
    (nondimensional_persistance_length : jarray T) (nondimensional_end_to_end_length_per_link :
    jarray T) : result T :=
  broadcast [UInt8; Float64; Float64] (fun number_of_links_i nondimensional_persistance_length_i
      nondimensional_end_to_end_length_per_link_i => ccall
      lib.physics_single_chain_wlc_thermodynamics_isometric_legendre_nondimensional_relative_gibbs_free_energy_per_link
      [UInt8; Float64; Float64] number_of_links_i nondimensional_persistance_length_i
      nondimensional_end_to_end_length_per_link_i) number_of_links nondimensional_persistance_length
      nondimensional_end_to_end_length_per_link.

End Model.
End jl_wlc_isometric_legendre.

(** /repo/src/physics/single_chain/wlc/thermodynamics/isometric/legendre/mod.jl: struct WLC *)
Module J_wlc_isometric_legendre.
(* /repo/src/physics/single_chain/wlc/thermodynamics/isometric/legendre/mod.jl:14-64 *)
Record t {T : Type} := {
  number_of_links : Z;
  link_length : T;
  hinge_mass : T;
  persistance_length : T;
  nondimensional_persistance_length : T;
  gibbs_free_energy : jarray T -> jarray T -> result T;
  gibbs_free_energy_per_link : jarray T -> jarray T -> result T;
  relative_gibbs_free_energy : jarray T -> jarray T -> result T;
  relative_gibbs_free_energy_per_link : jarray T -> jarray T -> result T;
  nondimensional_gibbs_free_energy : jarray T -> jarray T -> result T;
  nondimensional_gibbs_free_energy_per_link : jarray T -> jarray T -> result T;
  nondimensional_relative_gibbs_free_energy : jarray T -> result T;
  nondimensional_relative_gibbs_free_energy_per_link : jarray T -> result T }.
Arguments t : clear implicits.
Section Model.
Context {T : Type} {Sc : Scalar T}.

(* /repo/src/physics/single_chain/wlc/thermodynamics/isometric/legendre/mod.jl:405-479 *)
Definition init (number_of_links : Z) (link_length : T) (hinge_mass : T) (persistance_length : T) :
    t T :=
  let nondimensional_persistance_length := persistance_length / sofZ number_of_links / link_length in
  {| number_of_links := number_of_links;
     link_length := link_length;
     hinge_mass := hinge_mass;
     persistance_length := persistance_length;
     nondimensional_persistance_length := nondimensional_persistance_length;
     gibbs_free_energy := fun end_to_end_length temperature =>
       jl_wlc_isometric_legendre.gibbs_free_energy (num number_of_links) (num link_length) (num
       hinge_mass) (num persistance_length) end_to_end_length temperature;
     gibbs_free_energy_per_link := fun end_to_end_length temperature =>
       jl_wlc_isometric_legendre.gibbs_free_energy_per_link (num number_of_links) (num link_length)
       (num hinge_mass) (num persistance_length) end_to_end_length temperature;
     relative_gibbs_free_energy := fun end_to_end_length temperature =>
       jl_wlc_isometric_legendre.relative_gibbs_free_energy (num number_of_links) (num link_length)
       (num persistance_length) end_to_end_length temperature;
     relative_gibbs_free_energy_per_link := fun end_to_end_length temperature =>
       jl_wlc_isometric_legendre.relative_gibbs_free_energy_per_link (num number_of_links) (num
       link_length) (num persistance_length) end_to_end_length temperature;
     nondimensional_gibbs_free_energy := fun nondimensional_end_to_end_length_per_link temperature =>
       jl_wlc_isometric_legendre.nondimensional_gibbs_free_energy (num number_of_links) (num
       link_length) (num hinge_mass) (num nondimensional_persistance_length)
       nondimensional_end_to_end_length_per_link temperature;
     nondimensional_gibbs_free_energy_per_link := fun nondimensional_end_to_end_length_per_link
       temperature => jl_wlc_isometric_legendre.nondimensional_gibbs_free_energy_per_link (num
       number_of_links) (num link_length) (num hinge_mass) (num nondimensional_persistance_length)
       nondimensional_end_to_end_length_per_link temperature;
     nondimensional_relative_gibbs_free_energy := fun nondimensional_end_to_end_length_per_link =>
       jl_wlc_isometric_legendre.nondimensional_relative_gibbs_free_energy (num number_of_links)
       (num nondimensional_persistance_length) nondimensional_end_to_end_length_per_link;
     nondimensional_relative_gibbs_free_energy_per_link := fun nondimensional_end_to_end_length_per_link
       => jl_wlc_isometric_legendre.nondimensional_relative_gibbs_free_energy_per_link (num
       number_of_links) (num nondimensional_persistance_length)
       nondimensional_end_to_end_length_per_link |}.

End Model.
End J_wlc_isometric_legendre.

(** /repo/src/physics/single_chain/wlc/thermodynamics/isotensional/legendre/mod.jl *)
Module jl_wlc_isotensional_legendre.
Section Model.
Context {T : Type} {Sc : Scalar T}.

(* /repo/src/physics/single_chain/wlc/thermodynamics/isotensional/legendre/mod.jl:76-113 *)
Definition helmholtz_free_energy (number_of_links : jarray Z) (link_length : jarray T) (hinge_mass :
    jarray T) (persistance_length : jarray T) (force : jarray T) (temperature : jarray T) : result T
    :=
  broadcast [UInt8; Float64; Float64; Float64; Float64; Float64] (fun number_of_links_i
      link_length_i hinge_mass_i persistance_length_i force_i temperature_i => ccall
      lib.physics_single_chain_wlc_thermodynamics_isotensional_legendre_helmholtz_free_energy
      [UInt8; Float64; Float64; Float64; Float64; Float64] number_of_links_i link_length_i
      hinge_mass_i persistance_length_i force_i temperature_i) number_of_links link_length
      hinge_mass persistance_length force temperature.

(* /repo/src/physics/single_chain/wlc/thermodynamics/isotensional/legendre/mod.jl:121-158 *)
Definition helmholtz_free_energy_per_link (number_of_links : jarray Z) (link_length : jarray T)
    (hinge_mass : jarray T) (persistance_length : jarray T) (force : jarray T) (temperature : jarray
    T) : result T :=
  broadcast [UInt8; Float64; Float64; Float64; Float64; Float64] (fun number_of_links_i
      link_length_i hinge_mass_i persistance_length_i force_i temperature_i => ccall
      lib.physics_single_chain_wlc_thermodynamics_isotensional_legendre_helmholtz_free_energy_per_link
      [UInt8; Float64; Float64; Float64; Float64; Float64] number_of_links_i link_length_i
      hinge_mass_i persistance_length_i force_i temperature_i) number_of_links link_length
      hinge_mass persistance_length force temperature.

(* /repo/src/physics/single_chain/wlc/thermodynamics/isotensional/legendre/mod.jl:166-194 *)
Definition relative_helmholtz_free_energy (number_of_links : jarray Z) (link_length : jarray T)
    (persistance_length : jarray T) (force : jarray T) (temperature : jarray T) : result T :=
  broadcast [UInt8; Float64; Float64; Float64; Float64] (fun number_of_links_i link_length_i
      persistance_length_i force_i temperature_i => ccall
      lib.physics_single_chain_wlc_thermodynamics_isotensional_legendre_relative_helmholtz_free_energy
      [UInt8; Float64; Float64; Float64; Float64] number_of_links_i link_length_i
      persistance_length_i force_i temperature_i) number_of_links link_length persistance_length
      force temperature.

(* /repo/src/physics/single_chain/wlc/thermodynamics/isotensional/legendre/mod.jl:202-230 *)
Definition relative_helmholtz_free_energy_per_link (number_of_links : jarray Z) (link_length :
    jarray T) (persistance_length : jarray T) (force : jarray T) (temperature : jarray T) : result T
    :=
  broadcast [UInt8; Float64; Float64; Float64; Float64] (fun number_of_links_i link_length_i
      persistance_length_i force_i temperature_i => ccall
      lib.physics_single_chain_wlc_thermodynamics_isotensional_legendre_relative_helmholtz_free_energy_per_link
      [UInt8; Float64; Float64; Float64; Float64] number_of_links_i link_length_i
      persistance_length_i force_i temperature_i) number_of_links link_length persistance_length
      force temperature.

(* /repo/src/physics/single_chain/wlc/thermodynamics/isotensional/legendre/mod.jl:238-275 *)
Definition nondimensional_helmholtz_free_energy (number_of_links : jarray Z) (link_length : jarray
    T) (hinge_mass : jarray T) (nondimensional_persistance_length : jarray T) (nondimensional_force
    : jarray T) (temperature : jarray T) : result T :=
  broadcast [UInt8; Float64; Float64; Float64; Float64; Float64] (fun number_of_links_i
      link_length_i hinge_mass_i nondimensional_persistance_length_i nondimensional_force_i
      temperature_i => ccall
      lib.physics_single_chain_wlc_thermodynamics_isotensional_legendre_nondimensional_helmholtz_free_energy
      [UInt8; Float64; Float64; Float64; Float64; Float64] number_of_links_i link_length_i
      hinge_mass_i nondimensional_persistance_length_i nondimensional_force_i temperature_i)
      number_of_links link_length hinge_mass nondimensional_persistance_length nondimensional_force
      temperature.

(* /repo/src/physics/single_chain/wlc/thermodynamics/isotensional/legendre/mod.jl:283-320 *)
Definition nondimensional_helmholtz_free_energy_per_link (number_of_links : jarray Z) (link_length :
    jarray T) (hinge_mass : jarray T) (nondimensional_persistance_length : jarray T)
    (nondimensional_force : jarray T) (temperature : jarray T) : result T :=
  broadcast [UInt8; Float64; Float64; Float64; Float64; Float64] (fun number_of_links_i
      link_length_i hinge_mass_i nondimensional_persistance_length_i nondimensional_force_i
      temperature_i => ccall
      lib.physics_single_chain_wlc_thermodynamics_isotensional_legendre_nondimensional_helmholtz_free_energy_per_link
      [UInt8; Float64; Float64; Float64; Float64; Float64] number_of_links_i link_length_i
      hinge_mass_i nondimensional_persistance_length_i nondimensional_force_i temperature_i)
      number_of_links link_length hinge_mass nondimensional_persistance_length nondimensional_force
      temperature.

(* /repo/src/physics/single_chain/wlc/thermodynamics/isotensional/legendre/mod.jl:328-350 *)
Definition nondimensional_relative_helmholtz_free_energy (number_of_links : jarray Z)
    (nondimensional_persistance_length : jarray T) (nondimensional_force : jarray T) : result T :=
  broadcast [UInt8; Float64; Float64] (fun number_of_links_i nondimensional_persistance_length_i
      nondimensional_force_i => ccall
      lib.physics_single_chain_wlc_thermodynamics_isotensional_legendre_nondimensional_relative_helmholtz_free_energy
      [UInt8; Float64; Float64] number_of_links_i nondimensional_persistance_length_i
      nondimensional_force_i) number_of_links nondimensional_persistance_length
      nondimensional_force.

(* /repo/src/physics/single_chain/wlc/thermodynamics/isotensional/legendre/mod.jl:358-380 *)
Definition nondimensional_relative_helmholtz_free_energy_per_link (number_of_links : jarray Z)
    (nondimensional_persistance_length : jarray T) (nondimensional_force : jarray T) : result T :=
  broadcast [UInt8; Float64; Float64] (fun number_of_links_i nondimensional_persistance_length_i
      nondimensional_force_i => ccall
      lib.physics_single_chain_wlc_thermodynamics_isotensional_legendre_nondimensional_relative_helmholtz_free_energy_per_link
      [UInt8; Float64; Float64] number_of_links_i nondimensional_persistance_length_i
      nondimensional_force_i) number_of_links nondimensional_persistance_length
      nondimensional_force.

End Model.
End jl_wlc_isotensional_legendre.

(** /repo/src/physics/single_chain/wlc/thermodynamics/isotensional/legendre/mod.jl: struct WLC *)
Module J_wlc_isotensional_legendre.
(* /repo/src/physics/single_chain/wlc/thermodynamics/isotensional/legendre/mod.jl:14-64 *)
Record t {T : Type} := {
  number_of_links : Z;
  link_length : T;
  hinge_mass : T;
  persistance_length : T;
  nondimensional_persistance_length : T;
  helmholtz_free_energy : jarray T -> jarray T -> result T;
  helmholtz_free_energy_per_link : jarray T -> jarray T -> result T;
  relative_helmholtz_free_energy : jarray T -> jarray T -> result T;
  relative_helmholtz_free_energy_per_link : jarray T -> jarray T -> result T;
  nondimensional_helmholtz_free_energy : jarray T -> jarray T -> result T;
  nondimensional_helmholtz_free_energy_per_link : jarray T -> jarray T -> result T;
  nondimensional_relative_helmholtz_free_energy : jarray T -> result T;
  nondimensional_relative_helmholtz_free_energy_per_link : jarray T -> result T }.
Arguments t : clear implicits.
Section Model.
Context {T : Type} {Sc : Scalar T}.

(* /repo/src/physics/single_chain/wlc/thermodynamics/isotensional/legendre/mod.jl:387-458 *)
Definition init (number_of_links : Z) (link_length : T) (hinge_mass : T) (persistance_length : T) :
    t T :=
  let nondimensional_persistance_length := persistance_length / sofZ number_of_links / link_length in
  {| number_of_links := number_of_links;
     link_length := link_length;
     hinge_mass := hinge_mass;
     persistance_length := persistance_length;
     nondimensional_persistance_length := nondimensional_persistance_length;
     helmholtz_free_energy := fun force temperature => jl_wlc_isotensional_legendre.helmholtz_free_energy
       (num number_of_links) (num link_length) (num hinge_mass) (num persistance_length) force
       temperature;
     helmholtz_free_energy_per_link := fun force temperature =>
       jl_wlc_isotensional_legendre.helmholtz_free_energy_per_link (num number_of_links) (num
       link_length) (num hinge_mass) (num persistance_length) force temperature;
     relative_helmholtz_free_energy := fun force temperature =>
       jl_wlc_isotensional_legendre.relative_helmholtz_free_energy (num number_of_links) (num
       link_length) (num persistance_length) force temperature;
     relative_helmholtz_free_energy_per_link := fun force temperature =>
       jl_wlc_isotensional_legendre.relative_helmholtz_free_energy_per_link (num number_of_links)
       (num link_length) (num persistance_length) force temperature;
     nondimensional_helmholtz_free_energy := fun nondimensional_force temperature =>
       jl_wlc_isotensional_legendre.nondimensional_helmholtz_free_energy (num number_of_links) (num
       link_length) (num hinge_mass) (num nondimensional_persistance_length) nondimensional_force
       temperature;
     nondimensional_helmholtz_free_energy_per_link := fun nondimensional_force temperature =>
       jl_wlc_isotensional_legendre.nondimensional_helmholtz_free_energy_per_link (num
       number_of_links) (num link_length) (num hinge_mass) (num nondimensional_persistance_length)
       nondimensional_force temperature;
     nondimensional_relative_helmholtz_free_energy := fun nondimensional_force =>
       jl_wlc_isotensional_legendre.nondimensional_relative_helmholtz_free_energy (num
       number_of_links) (num nondimensional_persistance_length) nondimensional_force;
     nondimensional_relative_helmholtz_free_energy_per_link := fun nondimensional_force =>
       jl_wlc_isotensional_legendre.nondimensional_relative_helmholtz_free_energy_per_link (num
       number_of_links) (num nondimensional_persistance_length) nondimensional_force |}.

End Model.
End J_wlc_isotensional_legendre.

(** /repo/src/physics/single_chain/efjc/thermodynamics/isometric/mod.jl: struct EFJC *)
Module J_efjc_isometric.
(* /repo/src/physics/single_chain/efjc/thermodynamics/isometric/mod.jl:16-37 *)
Record t {T : Type} := {
  number_of_links : Z;
  link_length : T;
  hinge_mass : T;
  link_stiffness : T;
  asymptotic : J_efjc_isometric_asymptotic.t T }.
Arguments t : clear implicits.
Section Model.
Context {T : Type} {Sc : Scalar T}.

(* /repo/src/physics/single_chain/efjc/thermodynamics/isometric/mod.jl:44-57 *)
Definition init (number_of_links : Z) (link_length : T) (hinge_mass : T) (link_stiffness : T) : t T
    :=
  {| number_of_links := number_of_links;
     link_length := link_length;
     hinge_mass := hinge_mass;
     link_stiffness := link_stiffness;
     asymptotic := J_efjc_isometric_asymptotic.init number_of_links link_length hinge_mass link_stiffness |}.

End Model.
End J_efjc_isometric.

(** /repo/src/physics/single_chain/efjc/thermodynamics/isotensional/mod.jl *)
Module jl_efjc_isotensional.
Section Model.
Context {T : Type} {Sc : Scalar T}.

(* /repo/src/physics/single_chain/efjc/thermodynamics/isotensional/mod.jl:105-133 *)
Definition end_to_end_length (number_of_links : jarray Z) (link_length : jarray T) (link_stiffness :
    jarray T) (force : jarray T) (temperature : jarray T) : result T :=
  broadcast [UInt8; Float64; Float64; Float64; Float64] (fun number_of_links_i link_length_i
      link_stiffness_i force_i temperature_i => ccall
      lib.physics_single_chain_efjc_thermodynamics_isotensional_end_to_end_length [UInt8; Float64;
      Float64; Float64; Float64] number_of_links_i link_length_i link_stiffness_i force_i
      temperature_i) number_of_links link_length link_stiffness force temperature.

(* /repo/src/physics/single_chain/efjc/thermodynamics/isotensional/mod.jl:141-165 *)
Definition end_to_end_length_per_link (link_length : jarray T) (link_stiffness : jarray T) (force :
    jarray T) (temperature : jarray T) : result T :=
  broadcast [Float64; Float64; Float64; Float64] (fun link_length_i link_stiffness_i force_i
      temperature_i => ccall
      lib.physics_single_chain_efjc_thermodynamics_isotensional_end_to_end_length_per_link [Float64;
      Float64; Float64; Float64] link_length_i link_stiffness_i force_i temperature_i) link_length
      link_stiffness force temperature.

(* /repo/src/physics/single_chain/efjc/thermodynamics/isotensional/mod.jl:173-195 *)
Definition nondimensional_end_to_end_length (number_of_links : jarray Z)
    (nondimensional_link_stiffness : jarray T) (nondimensional_force : jarray T) : result T :=
  broadcast [UInt8; Float64; Float64] (fun number_of_links_i nondimensional_link_stiffness_i
      nondimensional_force_i => ccall
      lib.physics_single_chain_efjc_thermodynamics_isotensional_nondimensional_end_to_end_length
      [UInt8; Float64; Float64] number_of_links_i nondimensional_link_stiffness_i
      nondimensional_force_i) number_of_links nondimensional_link_stiffness nondimensional_force.

(* /repo/src/physics/single_chain/efjc/thermodynamics/isotensional/mod.jl:214-232 *)
Definition nondimensional_end_to_end_length_per_link (nondimensional_link_stiffness : jarray T)
    (nondimensional_force : jarray T) : result T :=
  broadcast [Float64; Float64] (fun nondimensional_link_stiffness_i nondimensional_force_i => ccall
      lib.physics_single_chain_efjc_thermodynamics_isotensional_nondimensional_end_to_end_length_per_link
      [Float64; Float64] nondimensional_link_stiffness_i nondimensional_force_i)
      nondimensional_link_stiffness nondimensional_force.

(* /repo/src/physics/single_chain/efjc/thermodynamics/isotensional/mod.jl:244-281 *)
Definition gibbs_free_energy (number_of_links : jarray Z) (link_length : jarray T) (hinge_mass :
    jarray T) (link_stiffness : jarray T) (force : jarray T) (temperature : jarray T) : result T :=
  broadcast [UInt8; Float64; Float64; Float64; Float64; Float64] (fun number_of_links_i
      link_length_i hinge_mass_i link_stiffness_i force_i temperature_i => ccall
      lib.physics_single_chain_efjc_thermodynamics_isotensional_gibbs_free_energy [UInt8; Float64;
      Float64; Float64; Float64; Float64] number_of_links_i link_length_i hinge_mass_i
      link_stiffness_i force_i temperature_i) number_of_links link_length hinge_mass link_stiffness
      force temperature.

(* /repo/src/physics/single_chain/efjc/thermodynamics/isotensional/mod.jl:289-316 *)
Definition gibbs_free_energy_per_link (link_length : jarray T) (hinge_mass : jarray T)
    (link_stiffness : jarray T) (force : jarray T) (temperature : jarray T) : result T :=
  broadcast [Float64; Float64; Float64; Float64; Float64] (fun link_length_i hinge_mass_i
      link_stiffness_i force_i temperature_i => ccall
      lib.physics_single_chain_efjc_thermodynamics_isotensional_gibbs_free_energy_per_link [Float64;
      Float64; Float64; Float64; Float64] link_length_i hinge_mass_i link_stiffness_i force_i
      temperature_i) link_length hinge_mass link_stiffness force temperature.

(* /repo/src/physics/single_chain/efjc/thermodynamics/isotensional/mod.jl:324-352 *)
Definition relative_gibbs_free_energy (number_of_links : jarray Z) (link_length : jarray T)
    (link_stiffness : jarray T) (force : jarray T) (temperature : jarray T) : result T :=
  broadcast [UInt8; Float64; Float64; Float64; Float64] (fun number_of_links_i link_length_i
      link_stiffness_i force_i temperature_i => ccall
      lib.physics_single_chain_efjc_thermodynamics_isotensional_relative_gibbs_free_energy [UInt8;
      Float64; Float64; Float64; Float64] number_of_links_i link_length_i link_stiffness_i force_i
      temperature_i) number_of_links link_length link_stiffness force temperature.

(* /repo/src/physics/single_chain/efjc/thermodynamics/isotensional/mod.jl:360-384 *)
Definition relative_gibbs_free_energy_per_link (link_length : jarray T) (link_stiffness : jarray T)
    (force : jarray T) (temperature : jarray T) : result T :=
  broadcast [Float64; Float64; Float64; Float64] (fun link_length_i link_stiffness_i force_i
      temperature_i => ccall
      lib.physics_single_chain_efjc_thermodynamics_isotensional_relative_gibbs_free_energy_per_link
      [Float64; Float64; Float64; Float64] link_length_i link_stiffness_i force_i temperature_i)
      link_length link_stiffness force temperature.

(* /repo/src/physics/single_chain/efjc/thermodynamics/isotensional/mod.jl:392-429 *)
Definition nondimensional_gibbs_free_energy (number_of_links : jarray Z) (link_length : jarray T)
    (hinge_mass : jarray T) (nondimensional_link_stiffness : jarray T) (nondimensional_force :
    jarray T) (temperature : jarray T) : result T :=
  broadcast [UInt8; Float64; Float64; Float64; Float64; Float64] (fun number_of_links_i
      link_length_i hinge_mass_i nondimensional_link_stiffness_i nondimensional_force_i
      temperature_i => ccall
      lib.physics_single_chain_efjc_thermodynamics_isotensional_nondimensional_gibbs_free_energy
      [UInt8; Float64; Float64; Float64; Float64; Float64] number_of_links_i link_length_i
      hinge_mass_i nondimensional_link_stiffness_i nondimensional_force_i temperature_i)
      number_of_links link_length hinge_mass nondimensional_link_stiffness nondimensional_force
      temperature.

(* /repo/src/physics/single_chain/efjc/thermodynamics/isotensional/mod.jl:437-470 *)
Definition nondimensional_gibbs_free_energy_per_link (link_length : jarray T) (hinge_mass : jarray
    T) (nondimensional_link_stiffness : jarray T) (nondimensional_force : jarray T) (temperature :
    jarray T) : result T :=
  broadcast [Float64; Float64; Float64; Float64; Float64] (fun link_length_i hinge_mass_i
      nondimensional_link_stiffness_i nondimensional_force_i temperature_i => ccall
      lib.physics_single_chain_efjc_thermodynamics_isotensional_nondimensional_gibbs_free_energy_per_link
      [Float64; Float64; Float64; Float64; Float64] link_length_i hinge_mass_i
      nondimensional_link_stiffness_i nondimensional_force_i temperature_i) link_length hinge_mass
      nondimensional_link_stiffness nondimensional_force temperature.

(* /repo/src/physics/single_chain/efjc/thermodynamics/isotensional/mod.jl:478-500 *)
Definition nondimensional_relative_gibbs_free_energy (number_of_links : jarray Z)
    (nondimensional_link_stiffness : jarray T) (nondimensional_force : jarray T) : result T :=
  broadcast [UInt8; Float64; Float64] (fun number_of_links_i nondimensional_link_stiffness_i
      nondimensional_force_i => ccall
      lib.physics_single_chain_efjc_thermodynamics_isotensional_nondimensional_relative_gibbs_free_energy
      [UInt8; Float64; Float64] number_of_links_i nondimensional_link_stiffness_i
      nondimensional_force_i) number_of_links nondimensional_link_stiffness nondimensional_force.

(* /repo/src/physics/single_chain/efjc/thermodynamics/isotensional/mod.jl:519-537 *)
Definition nondimensional_relative_gibbs_free_energy_per_link (nondimensional_link_stiffness :
    jarray T) (nondimensional_force : jarray T) : result T :=
  broadcast [Float64; Float64] (fun nondimensional_link_stiffness_i nondimensional_force_i => ccall
      lib.physics_single_chain_efjc_thermodynamics_isotensional_nondimensional_relative_gibbs_free_energy_per_link
      [Float64; Float64] nondimensional_link_stiffness_i nondimensional_force_i)
      nondimensional_link_stiffness nondimensional_force.

End Model.
End jl_efjc_isotensional.

(** /repo/src/physics/single_chain/efjc/thermodynamics/isotensional/mod.jl: struct EFJC *)
Module J_efjc_isotensional.
(* /repo/src/physics/single_chain/efjc/thermodynamics/isotensional/mod.jl:20-93 *)
Record t {T : Type} := {
  number_of_links : Z;
  link_length : T;
  hinge_mass : T;
  link_stiffness : T;
  asymptotic : J_efjc_isotensional_asymptotic.t T;
  legendre : J_efjc_isotensional_legendre.t T;
  end_to_end_length : jarray T -> jarray T -> result T;
  end_to_end_length_per_link : jarray T -> jarray T -> result T;
  nondimensional_end_to_end_length : jarray T -> T -> result T;
  nondimensional_end_to_end_length_per_link : jarray T -> T -> result T;
  gibbs_free_energy : jarray T -> jarray T -> result T;
  gibbs_free_energy_per_link : jarray T -> jarray T -> result T;
  relative_gibbs_free_energy : jarray T -> jarray T -> result T;
  relative_gibbs_free_energy_per_link : jarray T -> jarray T -> result T;
  nondimensional_gibbs_free_energy : jarray T -> T -> result T;
  nondimensional_gibbs_free_energy_per_link : jarray T -> T -> result T;
  nondimensional_relative_gibbs_free_energy : jarray T -> T -> result T;
  nondimensional_relative_gibbs_free_energy_per_link : jarray T -> T -> result T }.
Arguments t : clear implicits.
Section Model.
Context {T : Type} {Sc : Scalar T}.

(* /repo/src/physics/single_chain/efjc/thermodynamics/isotensional/mod.jl:544-630 *)
Definition init (number_of_links : Z) (link_length : T) (hinge_mass : T) (link_stiffness : T) : t T
    :=
  {| number_of_links := number_of_links;
     link_length := link_length;
     hinge_mass := hinge_mass;
     link_stiffness := link_stiffness;
     asymptotic := J_efjc_isotensional_asymptotic.init number_of_links link_length hinge_mass
       link_stiffness;
     legendre := J_efjc_isotensional_legendre.init number_of_links link_length hinge_mass link_stiffness;
     end_to_end_length := fun force temperature => jl_efjc_isotensional.end_to_end_length (num
       number_of_links) (num link_length) (num link_stiffness) force temperature;
     end_to_end_length_per_link := fun force temperature =>
       jl_efjc_isotensional.end_to_end_length_per_link (num link_length) (num link_stiffness) force
       temperature;
     nondimensional_end_to_end_length := fun nondimensional_force temperature =>
       jl_efjc_isotensional.nondimensional_end_to_end_length (num number_of_links) (num
       (link_stiffness * spowi link_length 2 / jl_BOLTZMANN_CONSTANT / temperature))
       nondimensional_force;
     nondimensional_end_to_end_length_per_link := fun nondimensional_force temperature =>
       jl_efjc_isotensional.nondimensional_end_to_end_length_per_link (num (link_stiffness * spowi
       link_length 2 / jl_BOLTZMANN_CONSTANT / temperature)) nondimensional_force;
     gibbs_free_energy := fun force temperature => jl_efjc_isotensional.gibbs_free_energy (num
       number_of_links) (num link_length) (num hinge_mass) (num link_stiffness) force temperature;
     gibbs_free_energy_per_link := fun force temperature =>
       jl_efjc_isotensional.gibbs_free_energy_per_link (num link_length) (num hinge_mass) (num
       link_stiffness) force temperature;
     relative_gibbs_free_energy := fun force temperature =>
       jl_efjc_isotensional.relative_gibbs_free_energy (num number_of_links) (num link_length) (num
       link_stiffness) force temperature;
     relative_gibbs_free_energy_per_link := fun force temperature =>
       jl_efjc_isotensional.relative_gibbs_free_energy_per_link (num link_length) (num
       link_stiffness) force temperature;
     nondimensional_gibbs_free_energy := fun nondimensional_force temperature =>
       jl_efjc_isotensional.nondimensional_gibbs_free_energy (num number_of_links) (num link_length)
       (num hinge_mass) (num (link_stiffness * spowi link_length 2 / jl_BOLTZMANN_CONSTANT /
       temperature)) nondimensional_force (num temperature);
     nondimensional_gibbs_free_energy_per_link := fun nondimensional_force temperature =>
       jl_efjc_isotensional.nondimensional_gibbs_free_energy_per_link (num link_length) (num
       hinge_mass) (num (link_stiffness * spowi link_length 2 / jl_BOLTZMANN_CONSTANT /
       temperature)) nondimensional_force (num temperature);
     nondimensional_relative_gibbs_free_energy := fun nondimensional_force temperature =>
       jl_efjc_isotensional.nondimensional_relative_gibbs_free_energy (num number_of_links) (num
       (link_stiffness * spowi link_length 2 / jl_BOLTZMANN_CONSTANT / temperature))
       nondimensional_force;
     nondimensional_relative_gibbs_free_energy_per_link := fun nondimensional_force temperature =>
       jl_efjc_isotensional.nondimensional_relative_gibbs_free_energy_per_link (num (link_stiffness
       * spowi link_length 2 / jl_BOLTZMANN_CONSTANT / temperature)) nondimensional_force |}.

End Model.
End J_efjc_isotensional.

(** /repo/src/physics/single_chain/fjc/thermodynamics/isometric/mod.jl *)
Module jl_fjc_isometric.
Section Model.
Context {T : Type} {Sc : Scalar T}.

(* /repo/src/physics/single_chain/fjc/thermodynamics/isometric/mod.jl:104-128 *)
Definition force (prof : profile) (number_of_links : jarray Z) (link_length : jarray T)
    (end_to_end_length : jarray T) (temperature : jarray T) : result T :=
  broadcast [UInt8; Float64; Float64; Float64] (fun number_of_links_i link_length_i
      end_to_end_length_i temperature_i => ccall
      (lib.physics_single_chain_fjc_thermodynamics_isometric_force prof) [UInt8; Float64; Float64;
      Float64] number_of_links_i link_length_i end_to_end_length_i temperature_i) number_of_links
      link_length end_to_end_length temperature.

(* /repo/src/physics/single_chain/fjc/thermodynamics/isometric/mod.jl:142-160 *)
Definition nondimensional_force (prof : profile) (number_of_links : jarray Z)
    (nondimensional_end_to_end_length_per_link : jarray T) : result T :=
  broadcast [UInt8; Float64] (fun number_of_links_i nondimensional_end_to_end_length_per_link_i =>
      ccall (lib.physics_single_chain_fjc_thermodynamics_isometric_nondimensional_force prof)
      [UInt8; Float64] number_of_links_i nondimensional_end_to_end_length_per_link_i)
      number_of_links nondimensional_end_to_end_length_per_link.

(* /repo/src/physics/single_chain/fjc/thermodynamics/isometric/mod.jl:172-205 *)
Definition helmholtz_free_energy (prof : profile) (number_of_links : jarray Z) (link_length : jarray
    T) (hinge_mass : jarray T) (end_to_end_length : jarray T) (temperature : jarray T) : result T :=
  broadcast [UInt8; Float64; Float64; Float64; Float64] (fun number_of_links_i link_length_i
      hinge_mass_i end_to_end_length_i temperature_i => ccall
      (lib.physics_single_chain_fjc_thermodynamics_isometric_helmholtz_free_energy prof) [UInt8;
      Float64; Float64; Float64; Float64] number_of_links_i link_length_i hinge_mass_i
      end_to_end_length_i temperature_i) number_of_links link_length hinge_mass end_to_end_length
      temperature.

(* /repo/src/physics/single_chain/fjc/thermodynamics/isometric/mod.jl:213-246 *)
Definition helmholtz_free_energy_per_link (prof : profile) (number_of_links : jarray Z) (link_length
    : jarray T) (hinge_mass : jarray T) (end_to_end_length : jarray T) (temperature : jarray T) :
    result T :=
  broadcast [UInt8; Float64; Float64; Float64; Float64] (fun number_of_links_i link_length_i
      hinge_mass_i end_to_end_length_i temperature_i => ccall
      (lib.physics_single_chain_fjc_thermodynamics_isometric_helmholtz_free_energy_per_link prof)
      [UInt8; Float64; Float64; Float64; Float64] number_of_links_i link_length_i hinge_mass_i
      end_to_end_length_i temperature_i) number_of_links link_length hinge_mass end_to_end_length
      temperature.

(* /repo/src/physics/single_chain/fjc/thermodynamics/isometric/mod.jl:258-282 *)
Definition relative_helmholtz_free_energy (prof : profile) (number_of_links : jarray Z) (link_length
    : jarray T) (end_to_end_length : jarray T) (temperature : jarray T) : result T :=
  broadcast [UInt8; Float64; Float64; Float64] (fun number_of_links_i link_length_i
      end_to_end_length_i temperature_i => ccall
      (lib.physics_single_chain_fjc_thermodynamics_isometric_relative_helmholtz_free_energy prof)
      [UInt8; Float64; Float64; Float64] number_of_links_i link_length_i end_to_end_length_i
      temperature_i) number_of_links link_length end_to_end_length temperature.

(* /repo/src/physics/single_chain/fjc/thermodynamics/isometric/mod.jl:290-314 *)
Definition relative_helmholtz_free_energy_per_link (prof : profile) (number_of_links : jarray Z)
    (link_length : jarray T) (end_to_end_length : jarray T) (temperature : jarray T) : result T :=
  broadcast [UInt8; Float64; Float64; Float64] (fun number_of_links_i link_length_i
      end_to_end_length_i temperature_i => ccall
      (lib.physics_single_chain_fjc_thermodynamics_isometric_relative_helmholtz_free_energy_per_link
      prof) [UInt8; Float64; Float64; Float64] number_of_links_i link_length_i end_to_end_length_i
      temperature_i) number_of_links link_length end_to_end_length temperature.

(* /repo/src/physics/single_chain/fjc/thermodynamics/isometric/mod.jl:322-355 *)
Definition nondimensional_helmholtz_free_energy (prof : profile) (number_of_links : jarray Z)
    (link_length : jarray T) (hinge_mass : jarray T) (nondimensional_end_to_end_length_per_link :
    jarray T) (temperature : jarray T) : result T :=
  broadcast [UInt8; Float64; Float64; Float64; Float64] (fun number_of_links_i link_length_i
      hinge_mass_i nondimensional_end_to_end_length_per_link_i temperature_i => ccall
      (lib.physics_single_chain_fjc_thermodynamics_isometric_nondimensional_helmholtz_free_energy
      prof) [UInt8; Float64; Float64; Float64; Float64] number_of_links_i link_length_i hinge_mass_i
      nondimensional_end_to_end_length_per_link_i temperature_i) number_of_links link_length
      hinge_mass nondimensional_end_to_end_length_per_link temperature.

(* /repo/src/physics/single_chain/fjc/thermodynamics/isometric/mod.jl:363-396 *)
Definition nondimensional_helmholtz_free_energy_per_link (prof : profile) (number_of_links : jarray
    Z) (link_length : jarray T) (hinge_mass : jarray T) (nondimensional_end_to_end_length_per_link :
    jarray T) (temperature : jarray T) : result T :=
  broadcast [UInt8; Float64; Float64; Float64; Float64] (fun number_of_links_i link_length_i
      hinge_mass_i nondimensional_end_to_end_length_per_link_i temperature_i => ccall
      (lib.physics_single_chain_fjc_thermodynamics_isometric_nondimensional_helmholtz_free_energy_per_link
      prof) [UInt8; Float64; Float64; Float64; Float64] number_of_links_i link_length_i hinge_mass_i
      nondimensional_end_to_end_length_per_link_i temperature_i) number_of_links link_length
      hinge_mass nondimensional_end_to_end_length_per_link temperature.

(* /repo/src/physics/single_chain/fjc/thermodynamics/isometric/mod.jl:408-426 *)
Definition nondimensional_relative_helmholtz_free_energy (prof : profile) (number_of_links : jarray
    Z) (nondimensional_end_to_end_length_per_link : jarray T) : result T :=
  broadcast [UInt8; Float64] (fun number_of_links_i nondimensional_end_to_end_length_per_link_i =>
      ccall
      (lib.physics_single_chain_fjc_thermodynamics_isometric_nondimensional_relative_helmholtz_free_energy
      prof) [UInt8; Float64] number_of_links_i nondimensional_end_to_end_length_per_link_i)
      number_of_links nondimensional_end_to_end_length_per_link.

(* /repo/src/physics/single_chain/fjc/thermodynamics/isometric/mod.jl:438-456 *)
Definition nondimensional_relative_helmholtz_free_energy_per_link (prof : profile) (number_of_links
    : jarray Z) (nondimensional_end_to_end_length_per_link : jarray T) : result T :=
  broadcast [UInt8; Float64] (fun number_of_links_i nondimensional_end_to_end_length_per_link_i =>
      ccall
      (lib.physics_single_chain_fjc_thermodynamics_isometric_nondimensional_relative_helmholtz_free_energy_per_link
      prof) [UInt8; Float64] number_of_links_i nondimensional_end_to_end_length_per_link_i)
      number_of_links nondimensional_end_to_end_length_per_link.

(* /repo/src/physics/single_chain/fjc/thermodynamics/isometric/mod.jl:470-491 *)
Definition equilibrium_distribution (prof : profile) (number_of_links : jarray Z) (link_length :
    jarray T) (end_to_end_length : jarray T) : result T :=
  broadcast [UInt8; Float64; Float64] (fun number_of_links_i link_length_i end_to_end_length_i =>
      ccall (lib.physics_single_chain_fjc_thermodynamics_isometric_equilibrium_distribution prof)
      [UInt8; Float64; Float64] number_of_links_i link_length_i end_to_end_length_i) number_of_links
      link_length end_to_end_length.

(* /repo/src/physics/single_chain/fjc/thermodynamics/isometric/mod.jl:505-523 *)
Definition nondimensional_equilibrium_distribution (prof : profile) (number_of_links : jarray Z)
    (nondimensional_end_to_end_length_per_link : jarray T) : result T :=
  broadcast [UInt8; Float64] (fun number_of_links_i nondimensional_end_to_end_length_per_link_i =>
      ccall
      (lib.physics_single_chain_fjc_thermodynamics_isometric_nondimensional_equilibrium_distribution
      prof) [UInt8; Float64] number_of_links_i nondimensional_end_to_end_length_per_link_i)
      number_of_links nondimensional_end_to_end_length_per_link.

(* /repo/src/physics/single_chain/fjc/thermodynamics/isometric/mod.jl:538-559 *)
Definition equilibrium_radial_distribution (prof : profile) (number_of_links : jarray Z)
    (link_length : jarray T) (end_to_end_length : jarray T) : result T :=
  broadcast [UInt8; Float64; Float64] (fun number_of_links_i link_length_i end_to_end_length_i =>
      ccall (lib.physics_single_chain_fjc_thermodynamics_isometric_equilibrium_radial_distribution
      prof) [UInt8; Float64; Float64] number_of_links_i link_length_i end_to_end_length_i)
      number_of_links link_length end_to_end_length.

(* /repo/src/physics/single_chain/fjc/thermodynamics/isometric/mod.jl:573-591 *)
Definition nondimensional_equilibrium_radial_distribution (prof : profile) (number_of_links : jarray
    Z) (nondimensional_end_to_end_length_per_link : jarray T) : result T :=
  broadcast [UInt8; Float64] (fun number_of_links_i nondimensional_end_to_end_length_per_link_i =>
      ccall
      (lib.physics_single_chain_fjc_thermodynamics_isometric_nondimensional_equilibrium_radial_distribution
      prof) [UInt8; Float64] number_of_links_i nondimensional_end_to_end_length_per_link_i)
      number_of_links nondimensional_end_to_end_length_per_link.

End Model.
End jl_fjc_isometric.

(** /repo/src/physics/single_chain/fjc/thermodynamics/isometric/mod.jl: struct FJC *)
Module J_fjc_isometric.
(* /repo/src/physics/single_chain/fjc/thermodynamics/isometric/mod.jl:17-90 *)
Record t {T : Type} := {
  number_of_links : Z;
  link_length : T;
  hinge_mass : T;
  legendre : J_fjc_isometric_legendre.t T;
  force : jarray T -> jarray T -> result T;
  nondimensional_force : jarray T -> result T;
  helmholtz_free_energy : jarray T -> jarray T -> result T;
  helmholtz_free_energy_per_link : jarray T -> jarray T -> result T;
  relative_helmholtz_free_energy : jarray T -> jarray T -> result T;
  relative_helmholtz_free_energy_per_link : jarray T -> jarray T -> result T;
  nondimensional_helmholtz_free_energy : jarray T -> jarray T -> result T;
  nondimensional_helmholtz_free_energy_per_link : jarray T -> jarray T -> result T;
  nondimensional_relative_helmholtz_free_energy : jarray T -> result T;
  nondimensional_relative_helmholtz_free_energy_per_link : jarray T -> result T;
  equilibrium_distribution : jarray T -> result T;
  nondimensional_equilibrium_distribution : jarray T -> result T;
  equilibrium_radial_distribution : jarray T -> result T;
  nondimensional_equilibrium_radial_distribution : jarray T -> result T }.
Arguments t : clear implicits.
Section Model.
Context {T : Type} {Sc : Scalar T}.

(* /repo/src/physics/single_chain/fjc/thermodynamics/isometric/mod.jl:598-680 *)
Definition init (prof : profile) (number_of_links : Z) (link_length : T) (hinge_mass : T) :
    c_outcome (t T) :=
  bind_outcome (J_fjc_isometric_legendre.init prof number_of_links link_length hinge_mass) (fun legendre_ =>
  Finished (Some
  {| number_of_links := number_of_links;
     link_length := link_length;
     hinge_mass := hinge_mass;
     legendre := legendre_;
     force := fun end_to_end_length temperature => jl_fjc_isometric.force prof (num number_of_links) (num
       link_length) end_to_end_length temperature;
     nondimensional_force := fun nondimensional_end_to_end_length_per_link =>
       jl_fjc_isometric.nondimensional_force prof (num number_of_links)
       nondimensional_end_to_end_length_per_link;
     helmholtz_free_energy := fun end_to_end_length temperature => jl_fjc_isometric.helmholtz_free_energy
       prof (num number_of_links) (num link_length) (num hinge_mass) end_to_end_length temperature;
     helmholtz_free_energy_per_link := fun end_to_end_length temperature =>
       jl_fjc_isometric.helmholtz_free_energy_per_link prof (num number_of_links) (num link_length)
       (num hinge_mass) end_to_end_length temperature;
     relative_helmholtz_free_energy := fun end_to_end_length temperature =>
       jl_fjc_isometric.relative_helmholtz_free_energy prof (num number_of_links) (num link_length)
       end_to_end_length temperature;
     relative_helmholtz_free_energy_per_link := fun end_to_end_length temperature =>
       jl_fjc_isometric.relative_helmholtz_free_energy_per_link prof (num number_of_links) (num
       link_length) end_to_end_length temperature;
     nondimensional_helmholtz_free_energy := fun nondimensional_end_to_end_length_per_link temperature =>
       jl_fjc_isometric.nondimensional_helmholtz_free_energy prof (num number_of_links) (num
       link_length) (num hinge_mass) nondimensional_end_to_end_length_per_link temperature;
     nondimensional_helmholtz_free_energy_per_link := fun nondimensional_end_to_end_length_per_link
       temperature => jl_fjc_isometric.nondimensional_helmholtz_free_energy_per_link prof (num
       number_of_links) (num link_length) (num hinge_mass) nondimensional_end_to_end_length_per_link
       temperature;
     nondimensional_relative_helmholtz_free_energy := fun nondimensional_end_to_end_length_per_link =>
       jl_fjc_isometric.nondimensional_relative_helmholtz_free_energy prof (num number_of_links)
       nondimensional_end_to_end_length_per_link;
     nondimensional_relative_helmholtz_free_energy_per_link := fun
       nondimensional_end_to_end_length_per_link =>
       jl_fjc_isometric.nondimensional_relative_helmholtz_free_energy_per_link prof (num
       number_of_links) nondimensional_end_to_end_length_per_link;
     equilibrium_distribution := fun end_to_end_length => jl_fjc_isometric.equilibrium_distribution prof
       (num number_of_links) (num link_length) end_to_end_length;
     nondimensional_equilibrium_distribution := fun nondimensional_end_to_end_length_per_link =>
       jl_fjc_isometric.nondimensional_equilibrium_distribution prof (num number_of_links)
       nondimensional_end_to_end_length_per_link;
     equilibrium_radial_distribution := fun end_to_end_length =>
       jl_fjc_isometric.equilibrium_radial_distribution prof (num number_of_links) (num link_length)
       end_to_end_length;
     nondimensional_equilibrium_radial_distribution := fun nondimensional_end_to_end_length_per_link =>
       jl_fjc_isometric.nondimensional_equilibrium_radial_distribution prof (num number_of_links)
       nondimensional_end_to_end_length_per_link |})).

End Model.
End J_fjc_isometric.

(** /repo/src/physics/single_chain/fjc/thermodynamics/isotensional/mod.jl *)
Module jl_fjc_isotensional.
Section Model.
Context {T : Type} {Sc : Scalar T}.

(* /repo/src/physics/single_chain/fjc/thermodynamics/isotensional/mod.jl:97-121 *)
Definition end_to_end_length (number_of_links : jarray Z) (link_length : jarray T) (force : jarray
    T) (temperature : jarray T) : result T :=
  broadcast [UInt8; Float64; Float64; Float64] (fun number_of_links_i link_length_i force_i
      temperature_i => ccall
      lib.physics_single_chain_fjc_thermodynamics_isotensional_end_to_end_length [UInt8; Float64;
      Float64; Float64] number_of_links_i link_length_i force_i temperature_i) number_of_links
      link_length force temperature.

(* /repo/src/physics/single_chain/fjc/thermodynamics/isotensional/mod.jl:129-150 *)
Definition end_to_end_length_per_link (link_length : jarray T) (force : jarray T) (temperature :
    jarray T) : result T :=
  broadcast [Float64; Float64; Float64] (fun link_length_i force_i temperature_i => ccall
      lib.physics_single_chain_fjc_thermodynamics_isotensional_end_to_end_length_per_link [Float64;
      Float64; Float64] link_length_i force_i temperature_i) link_length force temperature.

(* /repo/src/physics/single_chain/fjc/thermodynamics/isotensional/mod.jl:158-176 *)
Definition nondimensional_end_to_end_length (number_of_links : jarray Z) (nondimensional_force :
    jarray T) : result T :=
  broadcast [UInt8; Float64] (fun number_of_links_i nondimensional_force_i => ccall
      lib.physics_single_chain_fjc_thermodynamics_isotensional_nondimensional_end_to_end_length
      [UInt8; Float64] number_of_links_i nondimensional_force_i) number_of_links
      nondimensional_force.

(* /repo/src/physics/single_chain/fjc/thermodynamics/isotensional/mod.jl:183-198 *)
Definition nondimensional_end_to_end_length_per_link (nondimensional_force : jarray T) : result T :=
  broadcast [Float64] (fun nondimensional_force_i => ccall
      lib.physics_single_chain_fjc_thermodynamics_isotensional_nondimensional_end_to_end_length_per_link
      [Float64] nondimensional_force_i) nondimensional_force.

(* /repo/src/physics/single_chain/fjc/thermodynamics/isotensional/mod.jl:210-237 *)
Definition gibbs_free_energy (number_of_links : jarray Z) (link_length : jarray T) (hinge_mass :
    jarray T) (force : jarray T) (temperature : jarray T) : result T :=
  broadcast [UInt8; Float64; Float64; Float64; Float64] (fun number_of_links_i link_length_i
      hinge_mass_i force_i temperature_i => ccall
      lib.physics_single_chain_fjc_thermodynamics_isotensional_gibbs_free_energy [UInt8; Float64;
      Float64; Float64; Float64] number_of_links_i link_length_i hinge_mass_i force_i temperature_i)
      number_of_links link_length hinge_mass force temperature.

(* /repo/src/physics/single_chain/fjc/thermodynamics/isotensional/mod.jl:245-269 *)
Definition gibbs_free_energy_per_link (link_length : jarray T) (hinge_mass : jarray T) (force :
    jarray T) (temperature : jarray T) : result T :=
  broadcast [Float64; Float64; Float64; Float64] (fun link_length_i hinge_mass_i force_i
      temperature_i => ccall
      lib.physics_single_chain_fjc_thermodynamics_isotensional_gibbs_free_energy_per_link [Float64;
      Float64; Float64; Float64] link_length_i hinge_mass_i force_i temperature_i) link_length
      hinge_mass force temperature.

(* /repo/src/physics/single_chain/fjc/thermodynamics/isotensional/mod.jl:277-301 *)
Definition relative_gibbs_free_energy (number_of_links : jarray Z) (link_length : jarray T) (force :
    jarray T) (temperature : jarray T) : result T :=
  broadcast [UInt8; Float64; Float64; Float64] (fun number_of_links_i link_length_i force_i
      temperature_i => ccall
      lib.physics_single_chain_fjc_thermodynamics_isotensional_relative_gibbs_free_energy [UInt8;
      Float64; Float64; Float64] number_of_links_i link_length_i force_i temperature_i)
      number_of_links link_length force temperature.

(* /repo/src/physics/single_chain/fjc/thermodynamics/isotensional/mod.jl:309-330 *)
Definition relative_gibbs_free_energy_per_link (link_length : jarray T) (force : jarray T)
    (temperature : jarray T) : result T :=
  broadcast [Float64; Float64; Float64] (fun link_length_i force_i temperature_i => ccall
      lib.physics_single_chain_fjc_thermodynamics_isotensional_relative_gibbs_free_energy_per_link
      [Float64; Float64; Float64] link_length_i force_i temperature_i) link_length force
      temperature.

(* /repo/src/physics/single_chain/fjc/thermodynamics/isotensional/mod.jl:338-371 *)
Definition nondimensional_gibbs_free_energy (number_of_links : jarray Z) (link_length : jarray T)
    (hinge_mass : jarray T) (nondimensional_force : jarray T) (temperature : jarray T) : result T :=
  broadcast [UInt8; Float64; Float64; Float64; Float64] (fun number_of_links_i link_length_i
      hinge_mass_i nondimensional_force_i temperature_i => ccall
      lib.physics_single_chain_fjc_thermodynamics_isotensional_nondimensional_gibbs_free_energy
      [UInt8; Float64; Float64; Float64; Float64] number_of_links_i link_length_i hinge_mass_i
      nondimensional_force_i temperature_i) number_of_links link_length hinge_mass
      nondimensional_force temperature.

(* /repo/src/physics/single_chain/fjc/thermodynamics/isotensional/mod.jl:379-403 *)
Definition nondimensional_gibbs_free_energy_per_link (link_length : jarray T) (hinge_mass : jarray
    T) (nondimensional_force : jarray T) (temperature : jarray T) : result T :=
  broadcast [Float64; Float64; Float64; Float64] (fun link_length_i hinge_mass_i
      nondimensional_force_i temperature_i => ccall
      lib.physics_single_chain_fjc_thermodynamics_isotensional_nondimensional_gibbs_free_energy_per_link
      [Float64; Float64; Float64; Float64] link_length_i hinge_mass_i nondimensional_force_i
      temperature_i) link_length hinge_mass nondimensional_force temperature.

(* /repo/src/physics/single_chain/fjc/thermodynamics/isotensional/mod.jl:411-429 *)
Definition nondimensional_relative_gibbs_free_energy (number_of_links : jarray Z)
    (nondimensional_force : jarray T) : result T :=
  broadcast [UInt8; Float64] (fun number_of_links_i nondimensional_force_i => ccall
      lib.physics_single_chain_fjc_thermodynamics_isotensional_nondimensional_relative_gibbs_free_energy
      [UInt8; Float64] number_of_links_i nondimensional_force_i) number_of_links
      nondimensional_force.

(* /repo/src/physics/single_chain/fjc/thermodynamics/isotensional/mod.jl:436-451 *)
Definition nondimensional_relative_gibbs_free_energy_per_link (nondimensional_force : jarray T) :
    result T :=
  broadcast [Float64] (fun nondimensional_force_i => ccall
      lib.physics_single_chain_fjc_thermodynamics_isotensional_nondimensional_relative_gibbs_free_energy_per_link
      [Float64] nondimensional_force_i) nondimensional_force.

End Model.
End jl_fjc_isotensional.

(** /repo/src/physics/single_chain/fjc/thermodynamics/isotensional/mod.jl: struct FJC *)
Module J_fjc_isotensional.
(* /repo/src/physics/single_chain/fjc/thermodynamics/isotensional/mod.jl:17-82 *)
Record t {T : Type} := {
  number_of_links : Z;
  link_length : T;
  hinge_mass : T;
  legendre : J_fjc_isotensional_legendre.t T;
  end_to_end_length : jarray T -> jarray T -> result T;
  end_to_end_length_per_link : jarray T -> jarray T -> result T;
  nondimensional_end_to_end_length : jarray T -> result T;
  nondimensional_end_to_end_length_per_link : jarray T -> result T;
  gibbs_free_energy : jarray T -> jarray T -> result T;
  gibbs_free_energy_per_link : jarray T -> jarray T -> result T;
  relative_gibbs_free_energy : jarray T -> jarray T -> result T;
  relative_gibbs_free_energy_per_link : jarray T -> jarray T -> result T;
  nondimensional_gibbs_free_energy : jarray T -> jarray T -> result T;
  nondimensional_gibbs_free_energy_per_link : jarray T -> jarray T -> result T;
  nondimensional_relative_gibbs_free_energy : jarray T -> result T;
  nondimensional_relative_gibbs_free_energy_per_link : jarray T -> result T }.
Arguments t : clear implicits.
Section Model.
Context {T : Type} {Sc : Scalar T}.

(* /repo/src/physics/single_chain/fjc/thermodynamics/isotensional/mod.jl:458-499 *)
Definition init (number_of_links : Z) (link_length : T) (hinge_mass : T) : t T :=
  {| number_of_links := number_of_links;
     link_length := link_length;
     hinge_mass := hinge_mass;
     legendre := J_fjc_isotensional_legendre.init number_of_links link_length hinge_mass;
     end_to_end_length := fun force temperature => jl_fjc_isotensional.end_to_end_length (num
       number_of_links) (num link_length) force temperature;
     end_to_end_length_per_link := fun force temperature =>
       jl_fjc_isotensional.end_to_end_length_per_link (num link_length) force temperature;
     nondimensional_end_to_end_length := fun nondimensional_force =>
       jl_fjc_isotensional.nondimensional_end_to_end_length (num number_of_links)
       nondimensional_force;
     nondimensional_end_to_end_length_per_link := fun nondimensional_force =>
       jl_fjc_isotensional.nondimensional_end_to_end_length_per_link nondimensional_force;
     gibbs_free_energy := fun force temperature => jl_fjc_isotensional.gibbs_free_energy (num
       number_of_links) (num link_length) (num hinge_mass) force temperature;
     gibbs_free_energy_per_link := fun force temperature =>
       jl_fjc_isotensional.gibbs_free_energy_per_link (num link_length) (num hinge_mass) force
       temperature;
     relative_gibbs_free_energy := fun force temperature =>
       jl_fjc_isotensional.relative_gibbs_free_energy (num number_of_links) (num link_length) force
       temperature;
     relative_gibbs_free_energy_per_link := fun force temperature =>
       jl_fjc_isotensional.relative_gibbs_free_energy_per_link (num link_length) force temperature;
     nondimensional_gibbs_free_energy := fun nondimensional_force temperature =>
       jl_fjc_isotensional.nondimensional_gibbs_free_energy (num number_of_links) (num link_length)
       (num hinge_mass) nondimensional_force temperature;
     nondimensional_gibbs_free_energy_per_link := fun nondimensional_force temperature =>
       jl_fjc_isotensional.nondimensional_gibbs_free_energy_per_link (num link_length) (num
       hinge_mass) nondimensional_force temperature;
     nondimensional_relative_gibbs_free_energy := fun nondimensional_force =>
       jl_fjc_isotensional.nondimensional_relative_gibbs_free_energy (num number_of_links)
       nondimensional_force;
     nondimensional_relative_gibbs_free_energy_per_link := fun nondimensional_force =>
       jl_fjc_isotensional.nondimensional_relative_gibbs_free_energy_per_link nondimensional_force |}.

End Model.
End J_fjc_isotensional.

(** /repo/src/physics/single_chain/fjc/thermodynamics/modified_canonical/mod.jl *)
Module jl_fjc_modified_canonical.
Section Model.
Context {T : Type} {Sc : Scalar T}.

(* /repo/src/physics/single_chain/fjc/thermodynamics/modified_canonical/mod.jl:130-163 *)
Definition end_to_end_length (prof : profile) (number_of_links : jarray Z) (link_length : jarray T)
    (potential_distance : jarray T) (potential_stiffness : jarray T) (temperature : jarray T) :
    result T :=
  broadcast [UInt8; Float64; Float64; Float64; Float64] (fun number_of_links_i link_length_i
      potential_distance_i potential_stiffness_i temperature_i => ccall
      (lib.physics_single_chain_fjc_thermodynamics_modified_canonical_end_to_end_length prof)
      [UInt8; Float64; Float64; Float64; Float64] number_of_links_i link_length_i
      potential_distance_i potential_stiffness_i temperature_i) number_of_links link_length
      potential_distance potential_stiffness temperature.

(* /repo/src/physics/single_chain/fjc/thermodynamics/modified_canonical/mod.jl:171-204 *)
Definition end_to_end_length_per_link (prof : profile) (number_of_links : jarray Z) (link_length :
    jarray T) (potential_distance : jarray T) (potential_stiffness : jarray T) (temperature : jarray
    T) : result T :=
  broadcast [UInt8; Float64; Float64; Float64; Float64] (fun number_of_links_i link_length_i
      potential_distance_i potential_stiffness_i temperature_i => ccall
      (lib.physics_single_chain_fjc_thermodynamics_modified_canonical_end_to_end_length_per_link
      prof) [UInt8; Float64; Float64; Float64; Float64] number_of_links_i link_length_i
      potential_distance_i potential_stiffness_i temperature_i) number_of_links link_length
      potential_distance potential_stiffness temperature.

(* /repo/src/physics/single_chain/fjc/thermodynamics/modified_canonical/mod.jl:212-237 *)
Definition nondimensional_end_to_end_length (prof : profile) (number_of_links : jarray Z)
    (nondimensional_potential_distance : jarray T) (nondimensional_potential_stiffness : jarray T) :
    result T :=
  broadcast [UInt8; Float64; Float64] (fun number_of_links_i nondimensional_potential_distance_i
      nondimensional_potential_stiffness_i => ccall
      (lib.physics_single_chain_fjc_thermodynamics_modified_canonical_nondimensional_end_to_end_length
      prof) [UInt8; Float64; Float64] number_of_links_i nondimensional_potential_distance_i
      nondimensional_potential_stiffness_i) number_of_links nondimensional_potential_distance
      nondimensional_potential_stiffness.

(* /repo/src/physics/single_chain/fjc/thermodynamics/modified_canonical/mod.jl:245-270 *)
Definition nondimensional_end_to_end_length_per_link (prof : profile) (number_of_links : jarray Z)
    (nondimensional_potential_distance : jarray T) (nondimensional_potential_stiffness : jarray T) :
    result T :=
  broadcast [UInt8; Float64; Float64] (fun number_of_links_i nondimensional_potential_distance_i
      nondimensional_potential_stiffness_i => ccall
      (lib.physics_single_chain_fjc_thermodynamics_modified_canonical_nondimensional_end_to_end_length_per_link
      prof) [UInt8; Float64; Float64] number_of_links_i nondimensional_potential_distance_i
      nondimensional_potential_stiffness_i) number_of_links nondimensional_potential_distance
      nondimensional_potential_stiffness.

(* /repo/src/physics/single_chain/fjc/thermodynamics/modified_canonical/mod.jl:278-311 *)
Definition force (prof : profile) (number_of_links : jarray Z) (link_length : jarray T)
    (potential_distance : jarray T) (potential_stiffness : jarray T) (temperature : jarray T) :
    result T :=
  broadcast [UInt8; Float64; Float64; Float64; Float64] (fun number_of_links_i link_length_i
      potential_distance_i potential_stiffness_i temperature_i => ccall
      (lib.physics_single_chain_fjc_thermodynamics_modified_canonical_force prof) [UInt8; Float64;
      Float64; Float64; Float64] number_of_links_i link_length_i potential_distance_i
      potential_stiffness_i temperature_i) number_of_links link_length potential_distance
      potential_stiffness temperature.

(* /repo/src/physics/single_chain/fjc/thermodynamics/modified_canonical/mod.jl:319-344 *)
Definition nondimensional_force (prof : profile) (number_of_links : jarray Z)
    (nondimensional_potential_distance : jarray T) (nondimensional_potential_stiffness : jarray T) :
    result T :=
  broadcast [UInt8; Float64; Float64] (fun number_of_links_i nondimensional_potential_distance_i
      nondimensional_potential_stiffness_i => ccall
      (lib.physics_single_chain_fjc_thermodynamics_modified_canonical_nondimensional_force prof)
      [UInt8; Float64; Float64] number_of_links_i nondimensional_potential_distance_i
      nondimensional_potential_stiffness_i) number_of_links nondimensional_potential_distance
      nondimensional_potential_stiffness.

(* /repo/src/physics/single_chain/fjc/thermodynamics/modified_canonical/mod.jl:352-389 *)
Definition helmholtz_free_energy (prof : profile) (number_of_links : jarray Z) (link_length : jarray
    T) (hinge_mass : jarray T) (potential_distance : jarray T) (potential_stiffness : jarray T)
    (temperature : jarray T) : result T :=
  broadcast [UInt8; Float64; Float64; Float64; Float64; Float64] (fun number_of_links_i
      link_length_i hinge_mass_i potential_distance_i potential_stiffness_i temperature_i => ccall
      (lib.physics_single_chain_fjc_thermodynamics_modified_canonical_helmholtz_free_energy prof)
      [UInt8; Float64; Float64; Float64; Float64; Float64] number_of_links_i link_length_i
      hinge_mass_i potential_distance_i potential_stiffness_i temperature_i) number_of_links
      link_length hinge_mass potential_distance potential_stiffness temperature.

(* /repo/src/physics/single_chain/fjc/thermodynamics/modified_canonical/mod.jl:397-434 *)
Definition helmholtz_free_energy_per_link (prof : profile) (number_of_links : jarray Z) (link_length
    : jarray T) (hinge_mass : jarray T) (potential_distance : jarray T) (potential_stiffness :
    jarray T) (temperature : jarray T) : result T :=
  broadcast [UInt8; Float64; Float64; Float64; Float64; Float64] (fun number_of_links_i
      link_length_i hinge_mass_i potential_distance_i potential_stiffness_i temperature_i => ccall
      (lib.physics_single_chain_fjc_thermodynamics_modified_canonical_helmholtz_free_energy_per_link
      prof) [UInt8; Float64; Float64; Float64; Float64; Float64] number_of_links_i link_length_i
      hinge_mass_i potential_distance_i potential_stiffness_i temperature_i) number_of_links
      link_length hinge_mass potential_distance potential_stiffness temperature.

(* /repo/src/physics/single_chain/fjc/thermodynamics/modified_canonical/mod.jl:442-475 *)
Definition relative_helmholtz_free_energy (prof : profile) (number_of_links : jarray Z) (link_length
    : jarray T) (potential_distance : jarray T) (potential_stiffness : jarray T) (temperature :
    jarray T) : result T :=
  broadcast [UInt8; Float64; Float64; Float64; Float64] (fun number_of_links_i link_length_i
      potential_distance_i potential_stiffness_i temperature_i => ccall
      (lib.physics_single_chain_fjc_thermodynamics_modified_canonical_relative_helmholtz_free_energy
      prof) [UInt8; Float64; Float64; Float64; Float64] number_of_links_i link_length_i
      potential_distance_i potential_stiffness_i temperature_i) number_of_links link_length
      potential_distance potential_stiffness temperature.

(* /repo/src/physics/single_chain/fjc/thermodynamics/modified_canonical/mod.jl:483-516 *)
Definition relative_helmholtz_free_energy_per_link (prof : profile) (number_of_links : jarray Z)
    (link_length : jarray T) (potential_distance : jarray T) (potential_stiffness : jarray T)
    (temperature : jarray T) : result T :=
  broadcast [UInt8; Float64; Float64; Float64; Float64] (fun number_of_links_i link_length_i
      potential_distance_i potential_stiffness_i temperature_i => ccall
      (lib.physics_single_chain_fjc_thermodynamics_modified_canonical_relative_helmholtz_free_energy_per_link
      prof) [UInt8; Float64; Float64; Float64; Float64] number_of_links_i link_length_i
      potential_distance_i potential_stiffness_i temperature_i) number_of_links link_length
      potential_distance potential_stiffness temperature.

(* /repo/src/physics/single_chain/fjc/thermodynamics/modified_canonical/mod.jl:524-561 *)
Definition nondimensional_helmholtz_free_energy (prof : profile) (number_of_links : jarray Z)
    (link_length : jarray T) (hinge_mass : jarray T) (nondimensional_potential_distance : jarray T)
    (nondimensional_potential_stiffness : jarray T) (temperature : jarray T) : result T :=
  broadcast [UInt8; Float64; Float64; Float64; Float64; Float64] (fun number_of_links_i
      link_length_i hinge_mass_i nondimensional_potential_distance_i
      nondimensional_potential_stiffness_i temperature_i => ccall
      (lib.physics_single_chain_fjc_thermodynamics_modified_canonical_nondimensional_helmholtz_free_energy
      prof) [UInt8; Float64; Float64; Float64; Float64; Float64] number_of_links_i link_length_i
      hinge_mass_i nondimensional_potential_distance_i nondimensional_potential_stiffness_i
      temperature_i) number_of_links link_length hinge_mass nondimensional_potential_distance
      nondimensional_potential_stiffness temperature.

(* /repo/src/physics/single_chain/fjc/thermodynamics/modified_canonical/mod.jl:569-606 *)
Definition nondimensional_helmholtz_free_energy_per_link (prof : profile) (number_of_links : jarray
    Z) (link_length : jarray T) (hinge_mass : jarray T) (nondimensional_potential_distance : jarray
    T) (nondimensional_potential_stiffness : jarray T) (temperature : jarray T) : result T :=
  broadcast [UInt8; Float64; Float64; Float64; Float64; Float64] (fun number_of_links_i
      link_length_i hinge_mass_i nondimensional_potential_distance_i
      nondimensional_potential_stiffness_i temperature_i => ccall
      (lib.physics_single_chain_fjc_thermodynamics_modified_canonical_nondimensional_helmholtz_free_energy_per_link
      prof) [UInt8; Float64; Float64; Float64; Float64; Float64] number_of_links_i link_length_i
      hinge_mass_i nondimensional_potential_distance_i nondimensional_potential_stiffness_i
      temperature_i) number_of_links link_length hinge_mass nondimensional_potential_distance
      nondimensional_potential_stiffness temperature.

(* /repo/src/physics/single_chain/fjc/thermodynamics/modified_canonical/mod.jl:614-639 *)
Definition nondimensional_relative_helmholtz_free_energy (prof : profile) (number_of_links : jarray
    Z) (nondimensional_potential_distance : jarray T) (nondimensional_potential_stiffness : jarray
    T) : result T :=
  broadcast [UInt8; Float64; Float64] (fun number_of_links_i nondimensional_potential_distance_i
      nondimensional_potential_stiffness_i => ccall
      (lib.physics_single_chain_fjc_thermodynamics_modified_canonical_nondimensional_relative_helmholtz_free_energy
      prof) [UInt8; Float64; Float64] number_of_links_i nondimensional_potential_distance_i
      nondimensional_potential_stiffness_i) number_of_links nondimensional_potential_distance
      nondimensional_potential_stiffness.

(* /repo/src/physics/single_chain/fjc/thermodynamics/modified_canonical/mod.jl:647-672 *)
Definition nondimensional_relative_helmholtz_free_energy_per_link (prof : profile) (number_of_links
    : jarray Z) (nondimensional_potential_distance : jarray T) (nondimensional_potential_stiffness :
    jarray T) : result T :=
  broadcast [UInt8; Float64; Float64] (fun number_of_links_i nondimensional_potential_distance_i
      nondimensional_potential_stiffness_i => ccall
      (lib.physics_single_chain_fjc_thermodynamics_modified_canonical_nondimensional_relative_helmholtz_free_energy_per_link
      prof) [UInt8; Float64; Float64] number_of_links_i nondimensional_potential_distance_i
      nondimensional_potential_stiffness_i) number_of_links nondimensional_potential_distance
      nondimensional_potential_stiffness.

(* /repo/src/physics/single_chain/fjc/thermodynamics/modified_canonical/mod.jl:680-717 *)
Definition gibbs_free_energy (prof : profile) (number_of_links : jarray Z) (link_length : jarray T)
    (hinge_mass : jarray T) (potential_distance : jarray T) (potential_stiffness : jarray T)
    (temperature : jarray T) : result T :=
  broadcast [UInt8; Float64; Float64; Float64; Float64; Float64] (fun number_of_links_i
      link_length_i hinge_mass_i potential_distance_i potential_stiffness_i temperature_i => ccall
      (lib.physics_single_chain_fjc_thermodynamics_modified_canonical_gibbs_free_energy prof)
      [UInt8; Float64; Float64; Float64; Float64; Float64] number_of_links_i link_length_i
      hinge_mass_i potential_distance_i potential_stiffness_i temperature_i) number_of_links
      link_length hinge_mass potential_distance potential_stiffness temperature.

(* /repo/src/physics/single_chain/fjc/thermodynamics/modified_canonical/mod.jl:725-762 *)
Definition gibbs_free_energy_per_link (prof : profile) (number_of_links : jarray Z) (link_length :
    jarray T) (hinge_mass : jarray T) (potential_distance : jarray T) (potential_stiffness : jarray
    T) (temperature : jarray T) : result T :=
  broadcast [UInt8; Float64; Float64; Float64; Float64; Float64] (fun number_of_links_i
      link_length_i hinge_mass_i potential_distance_i potential_stiffness_i temperature_i => ccall
      (lib.physics_single_chain_fjc_thermodynamics_modified_canonical_gibbs_free_energy_per_link
      prof) [UInt8; Float64; Float64; Float64; Float64; Float64] number_of_links_i link_length_i
      hinge_mass_i potential_distance_i potential_stiffness_i temperature_i) number_of_links
      link_length hinge_mass potential_distance potential_stiffness temperature.

(* /repo/src/physics/single_chain/fjc/thermodynamics/modified_canonical/mod.jl:770-803 *)
Definition relative_gibbs_free_energy (prof : profile) (number_of_links : jarray Z) (link_length :
    jarray T) (potential_distance : jarray T) (potential_stiffness : jarray T) (temperature : jarray
    T) : result T :=
  broadcast [UInt8; Float64; Float64; Float64; Float64] (fun number_of_links_i link_length_i
      potential_distance_i potential_stiffness_i temperature_i => ccall
      (lib.physics_single_chain_fjc_thermodynamics_modified_canonical_relative_gibbs_free_energy
      prof) [UInt8; Float64; Float64; Float64; Float64] number_of_links_i link_length_i
      potential_distance_i potential_stiffness_i temperature_i) number_of_links link_length
      potential_distance potential_stiffness temperature.

(* /repo/src/physics/single_chain/fjc/thermodynamics/modified_canonical/mod.jl:811-844 *)
Definition relative_gibbs_free_energy_per_link (prof : profile) (number_of_links : jarray Z)
    (link_length : jarray T) (potential_distance : jarray T) (potential_stiffness : jarray T)
    (temperature : jarray T) : result T :=
  broadcast [UInt8; Float64; Float64; Float64; Float64] (fun number_of_links_i link_length_i
      potential_distance_i potential_stiffness_i temperature_i => ccall
      (lib.physics_single_chain_fjc_thermodynamics_modified_canonical_relative_gibbs_free_energy_per_link
      prof) [UInt8; Float64; Float64; Float64; Float64] number_of_links_i link_length_i
      potential_distance_i potential_stiffness_i temperature_i) number_of_links link_length
      potential_distance potential_stiffness temperature.

(* /repo/src/physics/single_chain/fjc/thermodynamics/modified_canonical/mod.jl:852-889 *)
Definition nondimensional_gibbs_free_energy (prof : profile) (number_of_links : jarray Z)
    (link_length : jarray T) (hinge_mass : jarray T) (nondimensional_potential_distance : jarray T)
    (nondimensional_potential_stiffness : jarray T) (temperature : jarray T) : result T :=
  broadcast [UInt8; Float64; Float64; Float64; Float64; Float64] (fun number_of_links_i
      link_length_i hinge_mass_i nondimensional_potential_distance_i
      nondimensional_potential_stiffness_i temperature_i => ccall
      (lib.physics_single_chain_fjc_thermodynamics_modified_canonical_nondimensional_gibbs_free_energy
      prof) [UInt8; Float64; Float64; Float64; Float64; Float64] number_of_links_i link_length_i
      hinge_mass_i nondimensional_potential_distance_i nondimensional_potential_stiffness_i
      temperature_i) number_of_links link_length hinge_mass nondimensional_potential_distance
      nondimensional_potential_stiffness temperature.

(* /repo/src/physics/single_chain/fjc/thermodynamics/modified_canonical/mod.jl:897-934 *)
Definition nondimensional_gibbs_free_energy_per_link (prof : profile) (number_of_links : jarray Z)
    (link_length : jarray T) (hinge_mass : jarray T) (nondimensional_potential_distance : jarray T)
    (nondimensional_potential_stiffness : jarray T) (temperature : jarray T) : result T :=
  broadcast [UInt8; Float64; Float64; Float64; Float64; Float64] (fun number_of_links_i
      link_length_i hinge_mass_i nondimensional_potential_distance_i
      nondimensional_potential_stiffness_i temperature_i => ccall
      (lib.physics_single_chain_fjc_thermodynamics_modified_canonical_nondimensional_gibbs_free_energy_per_link
      prof) [UInt8; Float64; Float64; Float64; Float64; Float64] number_of_links_i link_length_i
      hinge_mass_i nondimensional_potential_distance_i nondimensional_potential_stiffness_i
      temperature_i) number_of_links link_length hinge_mass nondimensional_potential_distance
      nondimensional_potential_stiffness temperature.

(* /repo/src/physics/single_chain/fjc/thermodynamics/modified_canonical/mod.jl:942-967 *)
Definition nondimensional_relative_gibbs_free_energy (prof : profile) (number_of_links : jarray Z)
    (nondimensional_potential_distance : jarray T) (nondimensional_potential_stiffness : jarray T) :
    result T :=
  broadcast [UInt8; Float64; Float64] (fun number_of_links_i nondimensional_potential_distance_i
      nondimensional_potential_stiffness_i => ccall
      (lib.physics_single_chain_fjc_thermodynamics_modified_canonical_nondimensional_relative_gibbs_free_energy
      prof) [UInt8; Float64; Float64] number_of_links_i nondimensional_potential_distance_i
      nondimensional_potential_stiffness_i) number_of_links nondimensional_potential_distance
      nondimensional_potential_stiffness.

(* /repo/src/physics/single_chain/fjc/thermodynamics/modified_canonical/mod.jl:975-1000 *)
Definition nondimensional_relative_gibbs_free_energy_per_link (prof : profile) (number_of_links :
    jarray Z) (nondimensional_potential_distance : jarray T) (nondimensional_potential_stiffness :
    jarray T) : result T :=
  broadcast [UInt8; Float64; Float64] (fun number_of_links_i nondimensional_potential_distance_i
      nondimensional_potential_stiffness_i => ccall
      (lib.physics_single_chain_fjc_thermodynamics_modified_canonical_nondimensional_relative_gibbs_free_energy_per_link
      prof) [UInt8; Float64; Float64] number_of_links_i nondimensional_potential_distance_i
      nondimensional_potential_stiffness_i) number_of_links nondimensional_potential_distance
      nondimensional_potential_stiffness.

End Model.
End jl_fjc_modified_canonical.

(** /repo/src/physics/single_chain/fjc/thermodynamics/modified_canonical/mod.jl: struct FJC *)
Module J_fjc_modified_canonical.
(* /repo/src/physics/single_chain/fjc/thermodynamics/modified_canonical/mod.jl:17-122 *)
Record t {T : Type} := {
  number_of_links : Z;
  link_length : T;
  hinge_mass : T;
  asymptotic : J_fjc_modified_canonical_asymptotic.t T;
  end_to_end_length : jarray T -> jarray T -> jarray T -> result T;
  end_to_end_length_per_link : jarray T -> jarray T -> jarray T -> result T;
  nondimensional_end_to_end_length : jarray T -> jarray T -> result T;
  nondimensional_end_to_end_length_per_link : jarray T -> jarray T -> result T;
  force : jarray T -> jarray T -> jarray T -> result T;
  nondimensional_force : jarray T -> jarray T -> result T;
  helmholtz_free_energy : jarray T -> jarray T -> jarray T -> result T;
  helmholtz_free_energy_per_link : jarray T -> jarray T -> jarray T -> result T;
  relative_helmholtz_free_energy : jarray T -> jarray T -> jarray T -> result T;
  relative_helmholtz_free_energy_per_link : jarray T -> jarray T -> jarray T -> result T;
  nondimensional_helmholtz_free_energy : jarray T -> jarray T -> jarray T -> result T;
  nondimensional_helmholtz_free_energy_per_link : jarray T -> jarray T -> jarray T -> result T;
  nondimensional_relative_helmholtz_free_energy : jarray T -> jarray T -> result T;
  nondimensional_relative_helmholtz_free_energy_per_link : jarray T -> jarray T -> result T;
  gibbs_free_energy : jarray T -> jarray T -> jarray T -> result T;
  gibbs_free_energy_per_link : jarray T -> jarray T -> jarray T -> result T;
  relative_gibbs_free_energy : jarray T -> jarray T -> jarray T -> result T;
  relative_gibbs_free_energy_per_link : jarray T -> jarray T -> jarray T -> result T;
  nondimensional_gibbs_free_energy : jarray T -> jarray T -> jarray T -> result T;
  nondimensional_gibbs_free_energy_per_link : jarray T -> jarray T -> jarray T -> result T;
  nondimensional_relative_gibbs_free_energy : jarray T -> jarray T -> result T;
  nondimensional_relative_gibbs_free_energy_per_link : jarray T -> jarray T -> result T }.
Arguments t : clear implicits.
Section Model.
Context {T : Type} {Sc : Scalar T}.

(* /repo/src/physics/single_chain/fjc/thermodynamics/modified_canonical/mod.jl:1007-1192 *)
Definition init (prof : profile) (number_of_links : Z) (link_length : T) (hinge_mass : T) : t T :=
  {| number_of_links := number_of_links;
     link_length := link_length;
     hinge_mass := hinge_mass;
     asymptotic := J_fjc_modified_canonical_asymptotic.init prof number_of_links link_length hinge_mass;
     end_to_end_length := fun potential_distance potential_stiffness temperature =>
       jl_fjc_modified_canonical.end_to_end_length prof (num number_of_links) (num link_length)
       potential_distance potential_stiffness temperature;
     end_to_end_length_per_link := fun potential_distance potential_stiffness temperature =>
       jl_fjc_modified_canonical.end_to_end_length_per_link prof (num number_of_links) (num
       link_length) potential_distance potential_stiffness temperature;
     nondimensional_end_to_end_length := fun nondimensional_potential_distance
       nondimensional_potential_stiffness =>
       jl_fjc_modified_canonical.nondimensional_end_to_end_length prof (num number_of_links)
       nondimensional_potential_distance nondimensional_potential_stiffness;
     nondimensional_end_to_end_length_per_link := fun nondimensional_potential_distance
       nondimensional_potential_stiffness =>
       jl_fjc_modified_canonical.nondimensional_end_to_end_length_per_link prof (num
       number_of_links) nondimensional_potential_distance nondimensional_potential_stiffness;
     force := fun potential_distance potential_stiffness temperature => jl_fjc_modified_canonical.force
       prof (num number_of_links) (num link_length) potential_distance potential_stiffness
       temperature;
     nondimensional_force := fun nondimensional_potential_distance nondimensional_potential_stiffness =>
       jl_fjc_modified_canonical.nondimensional_force prof (num number_of_links)
       nondimensional_potential_distance nondimensional_potential_stiffness;
     helmholtz_free_energy := fun potential_distance potential_stiffness temperature =>
       jl_fjc_modified_canonical.helmholtz_free_energy prof (num number_of_links) (num link_length)
       (num hinge_mass) potential_distance potential_stiffness temperature;
     helmholtz_free_energy_per_link := fun potential_distance potential_stiffness temperature =>
       jl_fjc_modified_canonical.helmholtz_free_energy_per_link prof (num number_of_links) (num
       link_length) (num hinge_mass) potential_distance potential_stiffness temperature;
     relative_helmholtz_free_energy := fun potential_distance potential_stiffness temperature =>
       jl_fjc_modified_canonical.relative_helmholtz_free_energy prof (num number_of_links) (num
       link_length) potential_distance potential_stiffness temperature;
     relative_helmholtz_free_energy_per_link := fun potential_distance potential_stiffness temperature =>
       jl_fjc_modified_canonical.relative_helmholtz_free_energy_per_link prof (num number_of_links)
       (num link_length) potential_distance potential_stiffness temperature;
     nondimensional_helmholtz_free_energy := fun nondimensional_potential_distance
       nondimensional_potential_stiffness temperature =>
       jl_fjc_modified_canonical.nondimensional_helmholtz_free_energy prof (num number_of_links)
       (num link_length) (num hinge_mass) nondimensional_potential_distance
       nondimensional_potential_stiffness temperature;
     nondimensional_helmholtz_free_energy_per_link := fun nondimensional_potential_distance
       nondimensional_potential_stiffness temperature =>
       jl_fjc_modified_canonical.nondimensional_helmholtz_free_energy_per_link prof (num
       number_of_links) (num link_length) (num hinge_mass) nondimensional_potential_distance
       nondimensional_potential_stiffness temperature;
     nondimensional_relative_helmholtz_free_energy := fun nondimensional_potential_distance
       nondimensional_potential_stiffness =>
       jl_fjc_modified_canonical.nondimensional_relative_helmholtz_free_energy prof (num
       number_of_links) nondimensional_potential_distance nondimensional_potential_stiffness;
     nondimensional_relative_helmholtz_free_energy_per_link := fun nondimensional_potential_distance
       nondimensional_potential_stiffness =>
       jl_fjc_modified_canonical.nondimensional_relative_helmholtz_free_energy_per_link prof (num
       number_of_links) nondimensional_potential_distance nondimensional_potential_stiffness;
     gibbs_free_energy := fun potential_distance potential_stiffness temperature =>
       jl_fjc_modified_canonical.gibbs_free_energy prof (num number_of_links) (num link_length) (num
       hinge_mass) potential_distance potential_stiffness temperature;
     gibbs_free_energy_per_link := fun potential_distance potential_stiffness temperature =>
       jl_fjc_modified_canonical.gibbs_free_energy_per_link prof (num number_of_links) (num
       link_length) (num hinge_mass) potential_distance potential_stiffness temperature;
     relative_gibbs_free_energy := fun potential_distance potential_stiffness temperature =>
       jl_fjc_modified_canonical.relative_gibbs_free_energy prof (num number_of_links) (num
       link_length) potential_distance potential_stiffness temperature;
     relative_gibbs_free_energy_per_link := fun potential_distance potential_stiffness temperature =>
       jl_fjc_modified_canonical.relative_gibbs_free_energy_per_link prof (num number_of_links) (num
       link_length) potential_distance potential_stiffness temperature;
     nondimensional_gibbs_free_energy := fun nondimensional_potential_distance
       nondimensional_potential_stiffness temperature =>
       jl_fjc_modified_canonical.nondimensional_gibbs_free_energy prof (num number_of_links) (num
       link_length) (num hinge_mass) nondimensional_potential_distance
       nondimensional_potential_stiffness temperature;
     nondimensional_gibbs_free_energy_per_link := fun nondimensional_potential_distance
       nondimensional_potential_stiffness temperature =>
       jl_fjc_modified_canonical.nondimensional_gibbs_free_energy_per_link prof (num
       number_of_links) (num link_length) (num hinge_mass) nondimensional_potential_distance
       nondimensional_potential_stiffness temperature;
     nondimensional_relative_gibbs_free_energy := fun nondimensional_potential_distance
       nondimensional_potential_stiffness =>
       jl_fjc_modified_canonical.nondimensional_relative_gibbs_free_energy prof (num
       number_of_links) nondimensional_potential_distance nondimensional_potential_stiffness;
     nondimensional_relative_gibbs_free_energy_per_link := fun nondimensional_potential_distance
       nondimensional_potential_stiffness =>
       jl_fjc_modified_canonical.nondimensional_relative_gibbs_free_energy_per_link prof (num
       number_of_links) nondimensional_potential_distance nondimensional_potential_stiffness |}.

End Model.
End J_fjc_modified_canonical.

(** /repo/src/physics/single_chain/ideal/thermodynamics/isometric/mod.jl *)
Module jl_ideal_isometric.
Section Model.
Context {T : Type} {Sc : Scalar T}.

(* /repo/src/physics/single_chain/ideal/thermodynamics/isometric/mod.jl:96-120 *)
Definition force (number_of_links : jarray Z) (link_length : jarray T) (end_to_end_length : jarray
    T) (temperature : jarray T) : result T :=
  broadcast [UInt8; Float64; Float64; Float64] (fun number_of_links_i link_length_i
      end_to_end_length_i temperature_i => ccall
      lib.physics_single_chain_ideal_thermodynamics_isometric_force [UInt8; Float64; Float64;
      Float64] number_of_links_i link_length_i end_to_end_length_i temperature_i) number_of_links
      link_length end_to_end_length temperature.

(* /repo/src/physics/single_chain/ideal/thermodynamics/isometric/mod.jl:131-146 *)
Definition nondimensional_force (nondimensional_end_to_end_length_per_link : jarray T) : result T :=
  broadcast [Float64] (fun nondimensional_end_to_end_length_per_link_i => ccall
      lib.physics_single_chain_ideal_thermodynamics_isometric_nondimensional_force [Float64]
      nondimensional_end_to_end_length_per_link_i) nondimensional_end_to_end_length_per_link.

(* /repo/src/physics/single_chain/ideal/thermodynamics/isometric/mod.jl:158-191 *)
Definition helmholtz_free_energy (number_of_links : jarray Z) (link_length : jarray T) (hinge_mass :
    jarray T) (end_to_end_length : jarray T) (temperature : jarray T) : result T :=
  broadcast [UInt8; Float64; Float64; Float64; Float64] (fun number_of_links_i link_length_i
      hinge_mass_i end_to_end_length_i temperature_i => ccall
      lib.physics_single_chain_ideal_thermodynamics_isometric_helmholtz_free_energy [UInt8; Float64;
      Float64; Float64; Float64] number_of_links_i link_length_i hinge_mass_i end_to_end_length_i
      temperature_i) number_of_links link_length hinge_mass end_to_end_length temperature.

(* /repo/src/physics/single_chain/ideal/thermodynamics/isometric/mod.jl:199-232 *)
Definition helmholtz_free_energy_per_link (number_of_links : jarray Z) (link_length : jarray T)
    (hinge_mass : jarray T) (end_to_end_length : jarray T) (temperature : jarray T) : result T :=
  broadcast [UInt8; Float64; Float64; Float64; Float64] (fun number_of_links_i link_length_i
      hinge_mass_i end_to_end_length_i temperature_i => ccall
      lib.physics_single_chain_ideal_thermodynamics_isometric_helmholtz_free_energy_per_link [UInt8;
      Float64; Float64; Float64; Float64] number_of_links_i link_length_i hinge_mass_i
      end_to_end_length_i temperature_i) number_of_links link_length hinge_mass end_to_end_length
      temperature.

(* /repo/src/physics/single_chain/ideal/thermodynamics/isometric/mod.jl:244-268 *)
Definition relative_helmholtz_free_energy (number_of_links : jarray Z) (link_length : jarray T)
    (end_to_end_length : jarray T) (temperature : jarray T) : result T :=
  broadcast [UInt8; Float64; Float64; Float64] (fun number_of_links_i link_length_i
      end_to_end_length_i temperature_i => ccall
      lib.physics_single_chain_ideal_thermodynamics_isometric_relative_helmholtz_free_energy [UInt8;
      Float64; Float64; Float64] number_of_links_i link_length_i end_to_end_length_i temperature_i)
      number_of_links link_length end_to_end_length temperature.

(* /repo/src/physics/single_chain/ideal/thermodynamics/isometric/mod.jl:276-300 *)
Definition relative_helmholtz_free_energy_per_link (number_of_links : jarray Z) (link_length :
    jarray T) (end_to_end_length : jarray T) (temperature : jarray T) : result T :=
  broadcast [UInt8; Float64; Float64; Float64] (fun number_of_links_i link_length_i
      end_to_end_length_i temperature_i => ccall
      lib.physics_single_chain_ideal_thermodynamics_isometric_relative_helmholtz_free_energy_per_link
      [UInt8; Float64; Float64; Float64] number_of_links_i link_length_i end_to_end_length_i
      temperature_i) number_of_links link_length end_to_end_length temperature.

(* /repo/src/physics/single_chain/ideal/thermodynamics/isometric/mod.jl:308-341 *)
Definition nondimensional_helmholtz_free_energy (number_of_links : jarray Z) (link_length : jarray
    T) (hinge_mass : jarray T) (nondimensional_end_to_end_length_per_link : jarray T) (temperature :
    jarray T) : result T :=
  broadcast [UInt8; Float64; Float64; Float64; Float64] (fun number_of_links_i link_length_i
      hinge_mass_i nondimensional_end_to_end_length_per_link_i temperature_i => ccall
      lib.physics_single_chain_ideal_thermodynamics_isometric_nondimensional_helmholtz_free_energy
      [UInt8; Float64; Float64; Float64; Float64] number_of_links_i link_length_i hinge_mass_i
      nondimensional_end_to_end_length_per_link_i temperature_i) number_of_links link_length
      hinge_mass nondimensional_end_to_end_length_per_link temperature.

(* /repo/src/physics/single_chain/ideal/thermodynamics/isometric/mod.jl:349-378 *)
Definition nondimensional_helmholtz_free_energy_per_link (link_length : jarray T) (hinge_mass :
    jarray T) (nondimensional_end_to_end_length_per_link : jarray T) (temperature : jarray T) :
    result T :=
  broadcast [Float64; Float64; Float64; Float64] (fun link_length_i hinge_mass_i
      nondimensional_end_to_end_length_per_link_i temperature_i => ccall
      lib.physics_single_chain_ideal_thermodynamics_isometric_nondimensional_helmholtz_free_energy_per_link
      [Float64; Float64; Float64; Float64] link_length_i hinge_mass_i
      nondimensional_end_to_end_length_per_link_i temperature_i) link_length hinge_mass
      nondimensional_end_to_end_length_per_link temperature.

(* /repo/src/physics/single_chain/ideal/thermodynamics/isometric/mod.jl:390-408 *)
Definition nondimensional_relative_helmholtz_free_energy (number_of_links : jarray Z)
    (nondimensional_end_to_end_length_per_link : jarray T) : result T :=
  broadcast [UInt8; Float64] (fun number_of_links_i nondimensional_end_to_end_length_per_link_i =>
      ccall
      lib.physics_single_chain_ideal_thermodynamics_isometric_nondimensional_relative_helmholtz_free_energy
      [UInt8; Float64] number_of_links_i nondimensional_end_to_end_length_per_link_i)
      number_of_links nondimensional_end_to_end_length_per_link.

(* /repo/src/physics/single_chain/ideal/thermodynamics/isometric/mod.jl:420-435 *)
Definition nondimensional_relative_helmholtz_free_energy_per_link
    (nondimensional_end_to_end_length_per_link : jarray T) : result T :=
  broadcast [Float64] (fun nondimensional_end_to_end_length_per_link_i => ccall
      lib.physics_single_chain_ideal_thermodynamics_isometric_nondimensional_relative_helmholtz_free_energy_per_link
      [Float64] nondimensional_end_to_end_length_per_link_i)
      nondimensional_end_to_end_length_per_link.

(* /repo/src/physics/single_chain/ideal/thermodynamics/isometric/mod.jl:447-468 *)
Definition equilibrium_distribution (number_of_links : jarray Z) (link_length : jarray T)
    (end_to_end_length : jarray T) : result T :=
  broadcast [UInt8; Float64; Float64] (fun number_of_links_i link_length_i end_to_end_length_i =>
      ccall lib.physics_single_chain_ideal_thermodynamics_isometric_equilibrium_distribution [UInt8;
      Float64; Float64] number_of_links_i link_length_i end_to_end_length_i) number_of_links
      link_length end_to_end_length.

(* /repo/src/physics/single_chain/ideal/thermodynamics/isometric/mod.jl:480-498 *)
Definition nondimensional_equilibrium_distribution (number_of_links : jarray Z)
    (nondimensional_end_to_end_length_per_link : jarray T) : result T :=
  broadcast [UInt8; Float64] (fun number_of_links_i nondimensional_end_to_end_length_per_link_i =>
      ccall
      lib.physics_single_chain_ideal_thermodynamics_isometric_nondimensional_equilibrium_distribution
      [UInt8; Float64] number_of_links_i nondimensional_end_to_end_length_per_link_i)
      number_of_links nondimensional_end_to_end_length_per_link.

(* /repo/src/physics/single_chain/ideal/thermodynamics/isometric/mod.jl:510-531 *)
Definition equilibrium_radial_distribution (number_of_links : jarray Z) (link_length : jarray T)
    (end_to_end_length : jarray T) : result T :=
  broadcast [UInt8; Float64; Float64] (fun number_of_links_i link_length_i end_to_end_length_i =>
      ccall lib.physics_single_chain_ideal_thermodynamics_isometric_equilibrium_radial_distribution
      [UInt8; Float64; Float64] number_of_links_i link_length_i end_to_end_length_i) number_of_links
      link_length end_to_end_length.

(* /repo/src/physics/single_chain/ideal/thermodynamics/isometric/mod.jl:543-561 *)
Definition nondimensional_equilibrium_radial_distribution (number_of_links : jarray Z)
    (nondimensional_end_to_end_length_per_link : jarray T) : result T :=
  broadcast [UInt8; Float64] (fun number_of_links_i nondimensional_end_to_end_length_per_link_i =>
      ccall
      lib.physics_single_chain_ideal_thermodynamics_isometric_nondimensional_equilibrium_radial_distribution
      [UInt8; Float64] number_of_links_i nondimensional_end_to_end_length_per_link_i)
      number_of_links nondimensional_end_to_end_length_per_link.

End Model.
End jl_ideal_isometric.

(** /repo/src/physics/single_chain/ideal/thermodynamics/isometric/mod.jl: struct IDEAL *)
Module J_ideal_isometric.
(* /repo/src/physics/single_chain/ideal/thermodynamics/isometric/mod.jl:15-84 *)
Record t {T : Type} := {
  number_of_links : Z;
  link_length : T;
  hinge_mass : T;
  force : jarray T -> jarray T -> result T;
  nondimensional_force : jarray T -> result T;
  helmholtz_free_energy : jarray T -> jarray T -> result T;
  helmholtz_free_energy_per_link : jarray T -> jarray T -> result T;
  relative_helmholtz_free_energy : jarray T -> jarray T -> result T;
  relative_helmholtz_free_energy_per_link : jarray T -> jarray T -> result T;
  nondimensional_helmholtz_free_energy : jarray T -> jarray T -> result T;
  nondimensional_helmholtz_free_energy_per_link : jarray T -> jarray T -> result T;
  nondimensional_relative_helmholtz_free_energy : jarray T -> result T;
  nondimensional_relative_helmholtz_free_energy_per_link : jarray T -> result T;
  equilibrium_distribution : jarray T -> result T;
  nondimensional_equilibrium_distribution : jarray T -> result T;
  equilibrium_radial_distribution : jarray T -> result T;
  nondimensional_equilibrium_radial_distribution : jarray T -> result T }.
Arguments t : clear implicits.
Section Model.
Context {T : Type} {Sc : Scalar T}.

(* /repo/src/physics/single_chain/ideal/thermodynamics/isometric/mod.jl:568-645 *)
Definition init (number_of_links : Z) (link_length : T) (hinge_mass : T) : t T :=
  {| number_of_links := number_of_links;
     link_length := link_length;
     hinge_mass := hinge_mass;
     force := fun end_to_end_length temperature => jl_ideal_isometric.force (num number_of_links) (num
       link_length) end_to_end_length temperature;
     nondimensional_force := fun nondimensional_end_to_end_length_per_link =>
       jl_ideal_isometric.nondimensional_force nondimensional_end_to_end_length_per_link;
     helmholtz_free_energy := fun end_to_end_length temperature =>
       jl_ideal_isometric.helmholtz_free_energy (num number_of_links) (num link_length) (num
       hinge_mass) end_to_end_length temperature;
     helmholtz_free_energy_per_link := fun end_to_end_length temperature =>
       jl_ideal_isometric.helmholtz_free_energy_per_link (num number_of_links) (num link_length)
       (num hinge_mass) end_to_end_length temperature;
     relative_helmholtz_free_energy := fun end_to_end_length temperature =>
       jl_ideal_isometric.relative_helmholtz_free_energy (num number_of_links) (num link_length)
       end_to_end_length temperature;
     relative_helmholtz_free_energy_per_link := fun end_to_end_length temperature =>
       jl_ideal_isometric.relative_helmholtz_free_energy_per_link (num number_of_links) (num
       link_length) end_to_end_length temperature;
     nondimensional_helmholtz_free_energy := fun nondimensional_end_to_end_length_per_link temperature =>
       jl_ideal_isometric.nondimensional_helmholtz_free_energy (num number_of_links) (num
       link_length) (num hinge_mass) nondimensional_end_to_end_length_per_link temperature;
     nondimensional_helmholtz_free_energy_per_link := fun nondimensional_end_to_end_length_per_link
       temperature => jl_ideal_isometric.nondimensional_helmholtz_free_energy_per_link (num
       link_length) (num hinge_mass) nondimensional_end_to_end_length_per_link temperature;
     nondimensional_relative_helmholtz_free_energy := fun nondimensional_end_to_end_length_per_link =>
       jl_ideal_isometric.nondimensional_relative_helmholtz_free_energy (num number_of_links)
       nondimensional_end_to_end_length_per_link;
     nondimensional_relative_helmholtz_free_energy_per_link := fun
       nondimensional_end_to_end_length_per_link =>
       jl_ideal_isometric.nondimensional_relative_helmholtz_free_energy_per_link
       nondimensional_end_to_end_length_per_link;
     equilibrium_distribution := fun end_to_end_length => jl_ideal_isometric.equilibrium_distribution
       (num number_of_links) (num link_length) end_to_end_length;
     nondimensional_equilibrium_distribution := fun nondimensional_end_to_end_length_per_link =>
       jl_ideal_isometric.nondimensional_equilibrium_distribution (num number_of_links)
       nondimensional_end_to_end_length_per_link;
     equilibrium_radial_distribution := fun end_to_end_length =>
       jl_ideal_isometric.equilibrium_radial_distribution (num number_of_links) (num link_length)
       end_to_end_length;
     nondimensional_equilibrium_radial_distribution := fun nondimensional_end_to_end_length_per_link =>
       jl_ideal_isometric.nondimensional_equilibrium_radial_distribution (num number_of_links)
       nondimensional_end_to_end_length_per_link |}.

End Model.
End J_ideal_isometric.

(** /repo/src/physics/single_chain/ideal/thermodynamics/isotensional/mod.jl *)
Module jl_ideal_isotensional.
Section Model.
Context {T : Type} {Sc : Scalar T}.

(* /repo/src/physics/single_chain/ideal/thermodynamics/isotensional/mod.jl:88-112 *)
Definition end_to_end_length (number_of_links : jarray Z) (link_length : jarray T) (force : jarray
    T) (temperature : jarray T) : result T :=
  broadcast [UInt8; Float64; Float64; Float64] (fun number_of_links_i link_length_i force_i
      temperature_i => ccall
      lib.physics_single_chain_ideal_thermodynamics_isotensional_end_to_end_length [UInt8; Float64;
      Float64; Float64] number_of_links_i link_length_i force_i temperature_i) number_of_links
      link_length force temperature.

(* /repo/src/physics/single_chain/ideal/thermodynamics/isotensional/mod.jl:120-141 *)
Definition end_to_end_length_per_link (link_length : jarray T) (force : jarray T) (temperature :
    jarray T) : result T :=
  broadcast [Float64; Float64; Float64] (fun link_length_i force_i temperature_i => ccall
      lib.physics_single_chain_ideal_thermodynamics_isotensional_end_to_end_length_per_link
      [Float64; Float64; Float64] link_length_i force_i temperature_i) link_length force
      temperature.

(* /repo/src/physics/single_chain/ideal/thermodynamics/isotensional/mod.jl:149-167 *)
Definition nondimensional_end_to_end_length (number_of_links : jarray Z) (nondimensional_force :
    jarray T) : result T :=
  broadcast [UInt8; Float64] (fun number_of_links_i nondimensional_force_i => ccall
      lib.physics_single_chain_ideal_thermodynamics_isotensional_nondimensional_end_to_end_length
      [UInt8; Float64] number_of_links_i nondimensional_force_i) number_of_links
      nondimensional_force.

(* /repo/src/physics/single_chain/ideal/thermodynamics/isotensional/mod.jl:178-193 *)
Definition nondimensional_end_to_end_length_per_link (nondimensional_force : jarray T) : result T :=
  broadcast [Float64] (fun nondimensional_force_i => ccall
      lib.physics_single_chain_ideal_thermodynamics_isotensional_nondimensional_end_to_end_length_per_link
      [Float64] nondimensional_force_i) nondimensional_force.

(* /repo/src/physics/single_chain/ideal/thermodynamics/isotensional/mod.jl:205-232 *)
Definition gibbs_free_energy (number_of_links : jarray Z) (link_length : jarray T) (hinge_mass :
    jarray T) (force : jarray T) (temperature : jarray T) : result T :=
  broadcast [UInt8; Float64; Float64; Float64; Float64] (fun number_of_links_i link_length_i
      hinge_mass_i force_i temperature_i => ccall
      lib.physics_single_chain_ideal_thermodynamics_isotensional_gibbs_free_energy [UInt8; Float64;
      Float64; Float64; Float64] number_of_links_i link_length_i hinge_mass_i force_i temperature_i)
      number_of_links link_length hinge_mass force temperature.

(* /repo/src/physics/single_chain/ideal/thermodynamics/isotensional/mod.jl:240-264 *)
Definition gibbs_free_energy_per_link (link_length : jarray T) (hinge_mass : jarray T) (force :
    jarray T) (temperature : jarray T) : result T :=
  broadcast [Float64; Float64; Float64; Float64] (fun link_length_i hinge_mass_i force_i
      temperature_i => ccall
      lib.physics_single_chain_ideal_thermodynamics_isotensional_gibbs_free_energy_per_link
      [Float64; Float64; Float64; Float64] link_length_i hinge_mass_i force_i temperature_i)
      link_length hinge_mass force temperature.

(* /repo/src/physics/single_chain/ideal/thermodynamics/isotensional/mod.jl:276-300 *)
Definition relative_gibbs_free_energy (number_of_links : jarray Z) (link_length : jarray T) (force :
    jarray T) (temperature : jarray T) : result T :=
  broadcast [UInt8; Float64; Float64; Float64] (fun number_of_links_i link_length_i force_i
      temperature_i => ccall
      lib.physics_single_chain_ideal_thermodynamics_isotensional_relative_gibbs_free_energy [UInt8;
      Float64; Float64; Float64] number_of_links_i link_length_i force_i temperature_i)
      number_of_links link_length force temperature.

(* /repo/src/physics/single_chain/ideal/thermodynamics/isotensional/mod.jl:308-329 *)
Definition relative_gibbs_free_energy_per_link (link_length : jarray T) (force : jarray T)
    (temperature : jarray T) : result T :=
  broadcast [Float64; Float64; Float64] (fun link_length_i force_i temperature_i => ccall
      lib.physics_single_chain_ideal_thermodynamics_isotensional_relative_gibbs_free_energy_per_link
      [Float64; Float64; Float64] link_length_i force_i temperature_i) link_length force
      temperature.

(* /repo/src/physics/single_chain/ideal/thermodynamics/isotensional/mod.jl:337-370 *)
Definition nondimensional_gibbs_free_energy (number_of_links : jarray Z) (link_length : jarray T)
    (hinge_mass : jarray T) (nondimensional_force : jarray T) (temperature : jarray T) : result T :=
  broadcast [UInt8; Float64; Float64; Float64; Float64] (fun number_of_links_i link_length_i
      hinge_mass_i nondimensional_force_i temperature_i => ccall
      lib.physics_single_chain_ideal_thermodynamics_isotensional_nondimensional_gibbs_free_energy
      [UInt8; Float64; Float64; Float64; Float64] number_of_links_i link_length_i hinge_mass_i
      nondimensional_force_i temperature_i) number_of_links link_length hinge_mass
      nondimensional_force temperature.

(* /repo/src/physics/single_chain/ideal/thermodynamics/isotensional/mod.jl:378-402 *)
Definition nondimensional_gibbs_free_energy_per_link (link_length : jarray T) (hinge_mass : jarray
    T) (nondimensional_force : jarray T) (temperature : jarray T) : result T :=
  broadcast [Float64; Float64; Float64; Float64] (fun link_length_i hinge_mass_i
      nondimensional_force_i temperature_i => ccall
      lib.physics_single_chain_ideal_thermodynamics_isotensional_nondimensional_gibbs_free_energy_per_link
      [Float64; Float64; Float64; Float64] link_length_i hinge_mass_i nondimensional_force_i
      temperature_i) link_length hinge_mass nondimensional_force temperature.

(* /repo/src/physics/single_chain/ideal/thermodynamics/isotensional/mod.jl:410-428 *)
Definition nondimensional_relative_gibbs_free_energy (number_of_links : jarray Z)
    (nondimensional_force : jarray T) : result T :=
  broadcast [UInt8; Float64] (fun number_of_links_i nondimensional_force_i => ccall
      lib.physics_single_chain_ideal_thermodynamics_isotensional_nondimensional_relative_gibbs_free_energy
      [UInt8; Float64] number_of_links_i nondimensional_force_i) number_of_links
      nondimensional_force.

(* /repo/src/physics/single_chain/ideal/thermodynamics/isotensional/mod.jl:439-454 *)
Definition nondimensional_relative_gibbs_free_energy_per_link (nondimensional_force : jarray T) :
    result T :=
  broadcast [Float64] (fun nondimensional_force_i => ccall
      lib.physics_single_chain_ideal_thermodynamics_isotensional_nondimensional_relative_gibbs_free_energy_per_link
      [Float64] nondimensional_force_i) nondimensional_force.

End Model.
End jl_ideal_isotensional.

(** /repo/src/physics/single_chain/ideal/thermodynamics/isotensional/mod.jl: struct IDEAL *)
Module J_ideal_isotensional.
(* /repo/src/physics/single_chain/ideal/thermodynamics/isotensional/mod.jl:15-76 *)
Record t {T : Type} := {
  number_of_links : Z;
  link_length : T;
  hinge_mass : T;
  end_to_end_length : jarray T -> jarray T -> result T;
  end_to_end_length_per_link : jarray T -> jarray T -> result T;
  nondimensional_end_to_end_length : jarray T -> result T;
  nondimensional_end_to_end_length_per_link : jarray T -> result T;
  gibbs_free_energy : jarray T -> jarray T -> result T;
  gibbs_free_energy_per_link : jarray T -> jarray T -> result T;
  relative_gibbs_free_energy : jarray T -> jarray T -> result T;
  relative_gibbs_free_energy_per_link : jarray T -> jarray T -> result T;
  nondimensional_gibbs_free_energy : jarray T -> jarray T -> result T;
  nondimensional_gibbs_free_energy_per_link : jarray T -> jarray T -> result T;
  nondimensional_relative_gibbs_free_energy : jarray T -> result T;
  nondimensional_relative_gibbs_free_energy_per_link : jarray T -> result T }.
Arguments t : clear implicits.
Section Model.
Context {T : Type} {Sc : Scalar T}.

(* /repo/src/physics/single_chain/ideal/thermodynamics/isotensional/mod.jl:461-501 *)
Definition init (number_of_links : Z) (link_length : T) (hinge_mass : T) : t T :=
  {| number_of_links := number_of_links;
     link_length := link_length;
     hinge_mass := hinge_mass;
     end_to_end_length := fun force temperature => jl_ideal_isotensional.end_to_end_length (num
       number_of_links) (num link_length) force temperature;
     end_to_end_length_per_link := fun force temperature =>
       jl_ideal_isotensional.end_to_end_length_per_link (num link_length) force temperature;
     nondimensional_end_to_end_length := fun nondimensional_force =>
       jl_ideal_isotensional.nondimensional_end_to_end_length (num number_of_links)
       nondimensional_force;
     nondimensional_end_to_end_length_per_link := fun nondimensional_force =>
       jl_ideal_isotensional.nondimensional_end_to_end_length_per_link nondimensional_force;
     gibbs_free_energy := fun force temperature => jl_ideal_isotensional.gibbs_free_energy (num
       number_of_links) (num link_length) (num hinge_mass) force temperature;
     gibbs_free_energy_per_link := fun force temperature =>
       jl_ideal_isotensional.gibbs_free_energy_per_link (num link_length) (num hinge_mass) force
       temperature;
     relative_gibbs_free_energy := fun force temperature =>
       jl_ideal_isotensional.relative_gibbs_free_energy (num number_of_links) (num link_length)
       force temperature;
     relative_gibbs_free_energy_per_link := fun force temperature =>
       jl_ideal_isotensional.relative_gibbs_free_energy_per_link (num link_length) force temperature;
     nondimensional_gibbs_free_energy := fun nondimensional_force temperature =>
       jl_ideal_isotensional.nondimensional_gibbs_free_energy (num number_of_links) (num
       link_length) (num hinge_mass) nondimensional_force temperature;
     nondimensional_gibbs_free_energy_per_link := fun nondimensional_force temperature =>
       jl_ideal_isotensional.nondimensional_gibbs_free_energy_per_link (num link_length) (num
       hinge_mass) nondimensional_force temperature;
     nondimensional_relative_gibbs_free_energy := fun nondimensional_force =>
       jl_ideal_isotensional.nondimensional_relative_gibbs_free_energy (num number_of_links)
       nondimensional_force;
     nondimensional_relative_gibbs_free_energy_per_link := fun nondimensional_force =>
       jl_ideal_isotensional.nondimensional_relative_gibbs_free_energy_per_link nondimensional_force |}.

End Model.
End J_ideal_isotensional.

(** /repo/src/physics/single_chain/swfjc/thermodynamics/isometric/mod.jl: struct SWFJC *)
Module J_swfjc_isometric.
(* /repo/src/physics/single_chain/swfjc/thermodynamics/isometric/mod.jl:16-37 *)
Record t {T : Type} := {
  number_of_links : Z;
  link_length : T;
  hinge_mass : T;
  well_width : T;
  legendre : J_swfjc_isometric_legendre.t T }.
Arguments t : clear implicits.
Section Model.
Context {T : Type} {Sc : Scalar T}.

(* /repo/src/physics/single_chain/swfjc/thermodynamics/isometric/mod.jl:44-57 *)
Definition init (number_of_links : Z) (link_length : T) (hinge_mass : T) (well_width : T) :
    c_outcome (t T) :=
  bind_outcome (J_swfjc_isometric_legendre.init number_of_links link_length hinge_mass well_width) (fun legendre_ =>
  Finished (Some
  {| number_of_links := number_of_links;
     link_length := link_length;
     hinge_mass := hinge_mass;
     well_width := well_width;
     legendre := legendre_ |})).

End Model.
End J_swfjc_isometric.

(** /repo/src/physics/single_chain/swfjc/thermodynamics/isotensional/mod.jl *)
Module jl_swfjc_isotensional.
Section Model.
Context {T : Type} {Sc : Scalar T}.

(* /repo/src/physics/single_chain/swfjc/thermodynamics/isotensional/mod.jl:98-125 *)
Definition end_to_end_length (number_of_links : jarray Z) (link_length : jarray T) (well_width :
    jarray T) (force : jarray T) (temperature : jarray T) : result T :=
  broadcast [UInt8; Float64; Float64; Float64; Float64] (fun number_of_links_i link_length_i
      well_width_i force_i temperature_i => ccall
      lib.physics_single_chain_swfjc_thermodynamics_isotensional_end_to_end_length [UInt8; Float64;
      Float64; Float64; Float64] number_of_links_i link_length_i well_width_i force_i temperature_i)
      number_of_links link_length well_width force temperature.

(* /repo/src/physics/single_chain/swfjc/thermodynamics/isotensional/mod.jl:133-157 *)
Definition end_to_end_length_per_link (link_length : jarray T) (well_width : jarray T) (force :
    jarray T) (temperature : jarray T) : result T :=
  broadcast [Float64; Float64; Float64; Float64] (fun link_length_i well_width_i force_i
      temperature_i => ccall
      lib.physics_single_chain_swfjc_thermodynamics_isotensional_end_to_end_length_per_link
      [Float64; Float64; Float64; Float64] link_length_i well_width_i force_i temperature_i)
      link_length well_width force temperature.

(* /repo/src/physics/single_chain/swfjc/thermodynamics/isotensional/mod.jl:165-189 *)
Definition nondimensional_end_to_end_length (number_of_links : jarray Z) (link_length : jarray T)
    (well_width : jarray T) (nondimensional_force : jarray T) : result T :=
  broadcast [UInt8; Float64; Float64; Float64] (fun number_of_links_i link_length_i well_width_i
      nondimensional_force_i => ccall
      lib.physics_single_chain_swfjc_thermodynamics_isotensional_nondimensional_end_to_end_length
      [UInt8; Float64; Float64; Float64] number_of_links_i link_length_i well_width_i
      nondimensional_force_i) number_of_links link_length well_width nondimensional_force.

(* /repo/src/physics/single_chain/swfjc/thermodynamics/isotensional/mod.jl:205-226 *)
Definition nondimensional_end_to_end_length_per_link (link_length : jarray T) (well_width : jarray
    T) (nondimensional_force : jarray T) : result T :=
  broadcast [Float64; Float64; Float64] (fun link_length_i well_width_i nondimensional_force_i =>
      ccall
      lib.physics_single_chain_swfjc_thermodynamics_isotensional_nondimensional_end_to_end_length_per_link
      [Float64; Float64; Float64] link_length_i well_width_i nondimensional_force_i) link_length
      well_width nondimensional_force.

(* /repo/src/physics/single_chain/swfjc/thermodynamics/isotensional/mod.jl:238-275 *)
Definition gibbs_free_energy (number_of_links : jarray Z) (link_length : jarray T) (hinge_mass :
    jarray T) (well_width : jarray T) (force : jarray T) (temperature : jarray T) : result T :=
  broadcast [UInt8; Float64; Float64; Float64; Float64; Float64] (fun number_of_links_i
      link_length_i hinge_mass_i well_width_i force_i temperature_i => ccall
      lib.physics_single_chain_swfjc_thermodynamics_isotensional_gibbs_free_energy [UInt8; Float64;
      Float64; Float64; Float64; Float64] number_of_links_i link_length_i hinge_mass_i well_width_i
      force_i temperature_i) number_of_links link_length hinge_mass well_width force temperature.

(* /repo/src/physics/single_chain/swfjc/thermodynamics/isotensional/mod.jl:283-310 *)
Definition gibbs_free_energy_per_link (link_length : jarray T) (hinge_mass : jarray T) (well_width :
    jarray T) (force : jarray T) (temperature : jarray T) : result T :=
  broadcast [Float64; Float64; Float64; Float64; Float64] (fun link_length_i hinge_mass_i
      well_width_i force_i temperature_i => ccall
      lib.physics_single_chain_swfjc_thermodynamics_isotensional_gibbs_free_energy_per_link
      [Float64; Float64; Float64; Float64; Float64] link_length_i hinge_mass_i well_width_i force_i
      temperature_i) link_length hinge_mass well_width force temperature.

(* /repo/src/physics/single_chain/swfjc/thermodynamics/isotensional/mod.jl:318-345 *)
Definition relative_gibbs_free_energy (number_of_links : jarray Z) (link_length : jarray T)
    (well_width : jarray T) (force : jarray T) (temperature : jarray T) : result T :=
  broadcast [UInt8; Float64; Float64; Float64; Float64] (fun number_of_links_i link_length_i
      well_width_i force_i temperature_i => ccall
      lib.physics_single_chain_swfjc_thermodynamics_isotensional_relative_gibbs_free_energy [UInt8;
      Float64; Float64; Float64; Float64] number_of_links_i link_length_i well_width_i force_i
      temperature_i) number_of_links link_length well_width force temperature.

(* /repo/src/physics/single_chain/swfjc/thermodynamics/isotensional/mod.jl:353-377 *)
Definition relative_gibbs_free_energy_per_link (link_length : jarray T) (well_width : jarray T)
    (force : jarray T) (temperature : jarray T) : result T :=
  broadcast [Float64; Float64; Float64; Float64] (fun link_length_i well_width_i force_i
      temperature_i => ccall
      lib.physics_single_chain_swfjc_thermodynamics_isotensional_relative_gibbs_free_energy_per_link
      [Float64; Float64; Float64; Float64] link_length_i well_width_i force_i temperature_i)
      link_length well_width force temperature.

(* /repo/src/physics/single_chain/swfjc/thermodynamics/isotensional/mod.jl:385-422 *)
Definition nondimensional_gibbs_free_energy (number_of_links : jarray Z) (link_length : jarray T)
    (hinge_mass : jarray T) (well_width : jarray T) (nondimensional_force : jarray T) (temperature :
    jarray T) : result T :=
  broadcast [UInt8; Float64; Float64; Float64; Float64; Float64] (fun number_of_links_i
      link_length_i hinge_mass_i well_width_i nondimensional_force_i temperature_i => ccall
      lib.physics_single_chain_swfjc_thermodynamics_isotensional_nondimensional_gibbs_free_energy
      [UInt8; Float64; Float64; Float64; Float64; Float64] number_of_links_i link_length_i
      hinge_mass_i well_width_i nondimensional_force_i temperature_i) number_of_links link_length
      hinge_mass well_width nondimensional_force temperature.

(* /repo/src/physics/single_chain/swfjc/thermodynamics/isotensional/mod.jl:430-463 *)
Definition nondimensional_gibbs_free_energy_per_link (link_length : jarray T) (hinge_mass : jarray
    T) (well_width : jarray T) (nondimensional_force : jarray T) (temperature : jarray T) : result T
    :=
  broadcast [Float64; Float64; Float64; Float64; Float64] (fun link_length_i hinge_mass_i
      well_width_i nondimensional_force_i temperature_i => ccall
      lib.physics_single_chain_swfjc_thermodynamics_isotensional_nondimensional_gibbs_free_energy_per_link
      [Float64; Float64; Float64; Float64; Float64] link_length_i hinge_mass_i well_width_i
      nondimensional_force_i temperature_i) link_length hinge_mass well_width nondimensional_force
      temperature.

(* /repo/src/physics/single_chain/swfjc/thermodynamics/isotensional/mod.jl:471-495 *)
Definition nondimensional_relative_gibbs_free_energy (number_of_links : jarray Z) (link_length :
    jarray T) (well_width : jarray T) (nondimensional_force : jarray T) : result T :=
  broadcast [UInt8; Float64; Float64; Float64] (fun number_of_links_i link_length_i well_width_i
      nondimensional_force_i => ccall
      lib.physics_single_chain_swfjc_thermodynamics_isotensional_nondimensional_relative_gibbs_free_energy
      [UInt8; Float64; Float64; Float64] number_of_links_i link_length_i well_width_i
      nondimensional_force_i) number_of_links link_length well_width nondimensional_force.

(* /repo/src/physics/single_chain/swfjc/thermodynamics/isotensional/mod.jl:511-532 *)
Definition nondimensional_relative_gibbs_free_energy_per_link (link_length : jarray T) (well_width :
    jarray T) (nondimensional_force : jarray T) : result T :=
  broadcast [Float64; Float64; Float64] (fun link_length_i well_width_i nondimensional_force_i =>
      ccall
      lib.physics_single_chain_swfjc_thermodynamics_isotensional_nondimensional_relative_gibbs_free_energy_per_link
      [Float64; Float64; Float64] link_length_i well_width_i nondimensional_force_i) link_length
      well_width nondimensional_force.

End Model.
End jl_swfjc_isotensional.

(** /repo/src/physics/single_chain/swfjc/thermodynamics/isotensional/mod.jl: struct SWFJC *)
Module J_swfjc_isotensional.
(* /repo/src/physics/single_chain/swfjc/thermodynamics/isotensional/mod.jl:17-86 *)
Record t {T : Type} := {
  number_of_links : Z;
  link_length : T;
  hinge_mass : T;
  well_width : T;
  legendre : J_swfjc_isotensional_legendre.t T;
  end_to_end_length : jarray T -> jarray T -> result T;
  end_to_end_length_per_link : jarray T -> jarray T -> result T;
  nondimensional_end_to_end_length : jarray T -> result T;
  nondimensional_end_to_end_length_per_link : jarray T -> result T;
  gibbs_free_energy : jarray T -> jarray T -> result T;
  gibbs_free_energy_per_link : jarray T -> jarray T -> result T;
  relative_gibbs_free_energy : jarray T -> jarray T -> result T;
  relative_gibbs_free_energy_per_link : jarray T -> jarray T -> result T;
  nondimensional_gibbs_free_energy : jarray T -> jarray T -> result T;
  nondimensional_gibbs_free_energy_per_link : jarray T -> jarray T -> result T;
  nondimensional_relative_gibbs_free_energy : jarray T -> result T;
  nondimensional_relative_gibbs_free_energy_per_link : jarray T -> result T }.
Arguments t : clear implicits.
Section Model.
Context {T : Type} {Sc : Scalar T}.

(* /repo/src/physics/single_chain/swfjc/thermodynamics/isotensional/mod.jl:539-621 *)
Definition init (number_of_links : Z) (link_length : T) (hinge_mass : T) (well_width : T) : t T :=
  {| number_of_links := number_of_links;
     link_length := link_length;
     hinge_mass := hinge_mass;
     well_width := well_width;
     legendre := J_swfjc_isotensional_legendre.init number_of_links link_length hinge_mass well_width;
     end_to_end_length := fun force temperature => jl_swfjc_isotensional.end_to_end_length (num
       number_of_links) (num link_length) (num well_width) force temperature;
     end_to_end_length_per_link := fun force temperature =>
       jl_swfjc_isotensional.end_to_end_length_per_link (num link_length) (num well_width) force
       temperature;
     nondimensional_end_to_end_length := fun nondimensional_force =>
       jl_swfjc_isotensional.nondimensional_end_to_end_length (num number_of_links) (num
       link_length) (num well_width) nondimensional_force;
     nondimensional_end_to_end_length_per_link := fun nondimensional_force =>
       jl_swfjc_isotensional.nondimensional_end_to_end_length_per_link (num link_length) (num
       well_width) nondimensional_force;
     gibbs_free_energy := fun force temperature => jl_swfjc_isotensional.gibbs_free_energy (num
       number_of_links) (num link_length) (num hinge_mass) (num well_width) force temperature;
     gibbs_free_energy_per_link := fun force temperature =>
       jl_swfjc_isotensional.gibbs_free_energy_per_link (num link_length) (num hinge_mass) (num
       well_width) force temperature;
     relative_gibbs_free_energy := fun force temperature =>
       jl_swfjc_isotensional.relative_gibbs_free_energy (num number_of_links) (num link_length) (num
       well_width) force temperature;
     relative_gibbs_free_energy_per_link := fun force temperature =>
       jl_swfjc_isotensional.relative_gibbs_free_energy_per_link (num link_length) (num well_width)
       force temperature;
     nondimensional_gibbs_free_energy := fun nondimensional_force temperature =>
       jl_swfjc_isotensional.nondimensional_gibbs_free_energy (num number_of_links) (num
       link_length) (num hinge_mass) (num well_width) nondimensional_force temperature;
     nondimensional_gibbs_free_energy_per_link := fun nondimensional_force temperature =>
       jl_swfjc_isotensional.nondimensional_gibbs_free_energy_per_link (num link_length) (num
       hinge_mass) (num well_width) nondimensional_force temperature;
     nondimensional_relative_gibbs_free_energy := fun nondimensional_force =>
       jl_swfjc_isotensional.nondimensional_relative_gibbs_free_energy (num number_of_links) (num
       link_length) (num well_width) nondimensional_force;
     nondimensional_relative_gibbs_free_energy_per_link := fun nondimensional_force =>
       jl_swfjc_isotensional.nondimensional_relative_gibbs_free_energy_per_link (num link_length)
       (num well_width) nondimensional_force |}.

End Model.
End J_swfjc_isotensional.

(** /repo/src/physics/single_chain/ufjc/lennard_jones/thermodynamics/mod.jl: struct LENNARDJONESFJC *)
Module J_lennard_jones_thermodynamics.
(* /repo/src/physics/single_chain/ufjc/lennard_jones/thermodynamics/mod.jl:16-41 *)
Record t {T : Type} := {
  number_of_links : Z;
  link_length : T;
  hinge_mass : T;
  link_stiffness : T;
  isometric : J_lennard_jones_isometric.t T;
  isotensional : J_lennard_jones_isotensional.t T }.
Arguments t : clear implicits.
Section Model.
Context {T : Type} {Sc : Scalar T}.

(* /repo/src/physics/single_chain/ufjc/lennard_jones/thermodynamics/mod.jl:48-67 *)
Definition init (number_of_links : Z) (link_length : T) (hinge_mass : T) (link_stiffness : T) : t T
    :=
  {| number_of_links := number_of_links;
     link_length := link_length;
     hinge_mass := hinge_mass;
     link_stiffness := link_stiffness;
     isometric := J_lennard_jones_isometric.init number_of_links link_length hinge_mass link_stiffness;
     isotensional := J_lennard_jones_isotensional.init number_of_links link_length hinge_mass
       link_stiffness |}.

End Model.
End J_lennard_jones_thermodynamics.

(** /repo/src/physics/single_chain/ufjc/log_squared/thermodynamics/mod.jl: struct LOGSQUAREDFJC *)
Module J_log_squared_thermodynamics.
(* /repo/src/physics/single_chain/ufjc/log_squared/thermodynamics/mod.jl:16-41 *)
Record t {T : Type} := {
  number_of_links : Z;
  link_length : T;
  hinge_mass : T;
  link_stiffness : T;
  isometric : J_log_squared_isometric.t T;
  isotensional : J_log_squared_isotensional.t T }.
Arguments t : clear implicits.
Section Model.
Context {T : Type} {Sc : Scalar T}.

(* /repo/src/physics/single_chain/ufjc/log_squared/thermodynamics/mod.jl:48-67 *)
Definition init (number_of_links : Z) (link_length : T) (hinge_mass : T) (link_stiffness : T) : t T
    :=
  {| number_of_links := number_of_links;
     link_length := link_length;
     hinge_mass := hinge_mass;
     link_stiffness := link_stiffness;
     isometric := J_log_squared_isometric.init number_of_links link_length hinge_mass link_stiffness;
     isotensional := J_log_squared_isotensional.init number_of_links link_length hinge_mass
       link_stiffness |}.

End Model.
End J_log_squared_thermodynamics.

(** /repo/src/physics/single_chain/ufjc/morse/thermodynamics/mod.jl: struct MORSEFJC *)
Module J_morse_thermodynamics.
(* /repo/src/physics/single_chain/ufjc/morse/thermodynamics/mod.jl:16-45 *)
Record t {T : Type} := {
  number_of_links : Z;
  link_length : T;
  hinge_mass : T;
  link_stiffness : T;
  link_energy : T;
  isometric : J_morse_isometric.t T;
  isotensional : J_morse_isotensional.t T }.
Arguments t : clear implicits.
Section Model.
Context {T : Type} {Sc : Scalar T}.

(* /repo/src/physics/single_chain/ufjc/morse/thermodynamics/mod.jl:52-80 *)
Definition init (number_of_links : Z) (link_length : T) (hinge_mass : T) (link_stiffness : T)
    (link_energy : T) : t T :=
  {| number_of_links := number_of_links;
     link_length := link_length;
     hinge_mass := hinge_mass;
     link_stiffness := link_stiffness;
     link_energy := link_energy;
     isometric := J_morse_isometric.init number_of_links link_length hinge_mass link_stiffness
       link_energy;
     isotensional := J_morse_isotensional.init number_of_links link_length hinge_mass link_stiffness
       link_energy |}.

End Model.
End J_morse_thermodynamics.

(** /repo/src/physics/single_chain/wlc/thermodynamics/isometric/mod.jl *)
Module jl_wlc_isometric.
Section Model.
Context {T : Type} {Sc : Scalar T}.

(* /repo/src/physics/single_chain/wlc/thermodynamics/isometric/mod.jl:109-142 *)
Definition force (number_of_links : jarray Z) (link_length : jarray T) (persistance_length : jarray
    T) (end_to_end_length : jarray T) (temperature : jarray T) : result T :=
  broadcast [UInt8; Float64; Float64; Float64; Float64] (fun number_of_links_i link_length_i
      persistance_length_i end_to_end_length_i temperature_i => ccall
      lib.physics_single_chain_wlc_thermodynamics_isometric_force [UInt8; Float64; Float64; Float64;
      Float64] number_of_links_i link_length_i persistance_length_i end_to_end_length_i
      temperature_i) number_of_links link_length persistance_length end_to_end_length temperature.

(* /repo/src/physics/single_chain/wlc/thermodynamics/isometric/mod.jl:154-179 *)
Definition nondimensional_force (number_of_links : jarray Z) (nondimensional_persistance_length :
    jarray T) (nondimensional_end_to_end_length_per_link : jarray T) : result T :=
  broadcast [UInt8; Float64; Float64] (fun number_of_links_i nondimensional_persistance_length_i
      nondimensional_end_to_end_length_per_link_i => ccall
      lib.physics_single_chain_wlc_thermodynamics_isometric_nondimensional_force [UInt8; Float64;
      Float64] number_of_links_i nondimensional_persistance_length_i
      nondimensional_end_to_end_length_per_link_i) number_of_links nondimensional_persistance_length
      nondimensional_end_to_end_length_per_link.

(* /repo/src/physics/single_chain/wlc/thermodynamics/isometric/mod.jl:191-228 *)
Definition helmholtz_free_energy (number_of_links : jarray Z) (link_length : jarray T) (hinge_mass :
    jarray T) (persistance_length : jarray T) (end_to_end_length : jarray T) (temperature : jarray
    T) : result T :=
  broadcast [UInt8; Float64; Float64; Float64; Float64; Float64] (fun number_of_links_i
      link_length_i hinge_mass_i persistance_length_i end_to_end_length_i temperature_i => ccall
      lib.physics_single_chain_wlc_thermodynamics_isometric_helmholtz_free_energy [UInt8; Float64;
      Float64; Float64; Float64; Float64] number_of_links_i link_length_i hinge_mass_i
      persistance_length_i end_to_end_length_i temperature_i) number_of_links link_length hinge_mass
      persistance_length end_to_end_length temperature.

(* /repo/src/physics/single_chain/wlc/thermodynamics/isometric/mod.jl:236-273 *)
Definition helmholtz_free_energy_per_link (number_of_links : jarray Z) (link_length : jarray T)
    (hinge_mass : jarray T) (persistance_length : jarray T) (end_to_end_length : jarray T)
    (temperature : jarray T) : result T :=
  broadcast [UInt8; Float64; Float64; Float64; Float64; Float64] (fun number_of_links_i
      link_length_i hinge_mass_i persistance_length_i end_to_end_length_i temperature_i => ccall
      lib.physics_single_chain_wlc_thermodynamics_isometric_helmholtz_free_energy_per_link [UInt8;
      Float64; Float64; Float64; Float64; Float64] number_of_links_i link_length_i hinge_mass_i
      persistance_length_i end_to_end_length_i temperature_i) number_of_links link_length hinge_mass
      persistance_length end_to_end_length temperature.

(* /repo/src/physics/single_chain/wlc/thermodynamics/isometric/mod.jl:285-318 *)
Definition relative_helmholtz_free_energy (number_of_links : jarray Z) (link_length : jarray T)
    (persistance_length : jarray T) (end_to_end_length : jarray T) (temperature : jarray T) : result
    T :=
  broadcast [UInt8; Float64; Float64; Float64; Float64] (fun number_of_links_i link_length_i
      persistance_length_i end_to_end_length_i temperature_i => ccall
      lib.physics_single_chain_wlc_thermodynamics_isometric_relative_helmholtz_free_energy [UInt8;
      Float64; Float64; Float64; Float64] number_of_links_i link_length_i persistance_length_i
      end_to_end_length_i temperature_i) number_of_links link_length persistance_length
      end_to_end_length temperature.

(* /repo/src/physics/single_chain/wlc/thermodynamics/isometric/mod.jl:326-359 *)
Definition relative_helmholtz_free_energy_per_link (number_of_links : jarray Z) (link_length :
    jarray T) (persistance_length : jarray T) (end_to_end_length : jarray T) (temperature : jarray
    T) : result T :=
  broadcast [UInt8; Float64; Float64; Float64; Float64] (fun number_of_links_i link_length_i
      persistance_length_i end_to_end_length_i temperature_i => ccall
      lib.physics_single_chain_wlc_thermodynamics_isometric_relative_helmholtz_free_energy_per_link
      [UInt8; Float64; Float64; Float64; Float64] number_of_links_i link_length_i
      persistance_length_i end_to_end_length_i temperature_i) number_of_links link_length
      persistance_length end_to_end_length temperature.

(* /repo/src/physics/single_chain/wlc/thermodynamics/isometric/mod.jl:367-404 *)
Definition nondimensional_helmholtz_free_energy (number_of_links : jarray Z) (link_length : jarray
    T) (hinge_mass : jarray T) (nondimensional_persistance_length : jarray T)
    (nondimensional_end_to_end_length_per_link : jarray T) (temperature : jarray T) : result T :=
  broadcast [UInt8; Float64; Float64; Float64; Float64; Float64] (fun number_of_links_i
      link_length_i hinge_mass_i nondimensional_persistance_length_i
      nondimensional_end_to_end_length_per_link_i temperature_i => ccall
      lib.physics_single_chain_wlc_thermodynamics_isometric_nondimensional_helmholtz_free_energy
      [UInt8; Float64; Float64; Float64; Float64; Float64] number_of_links_i link_length_i
      hinge_mass_i nondimensional_persistance_length_i nondimensional_end_to_end_length_per_link_i
      temperature_i) number_of_links link_length hinge_mass nondimensional_persistance_length
      nondimensional_end_to_end_length_per_link temperature.

(* /repo/src/physics/single_chain/wlc/thermodynamics/isometric/mod.jl:412-449 *)
Definition nondimensional_helmholtz_free_energy_per_link (number_of_links : jarray Z) (link_length :
    jarray T) (hinge_mass : jarray T) (nondimensional_persistance_length : jarray T)
    (nondimensional_end_to_end_length_per_link : jarray T) (temperature : jarray T) : result T :=
  broadcast [UInt8; Float64; Float64; Float64; Float64; Float64] (fun number_of_links_i
      link_length_i hinge_mass_i nondimensional_persistance_length_i
      nondimensional_end_to_end_length_per_link_i temperature_i => ccall
      lib.physics_single_chain_wlc_thermodynamics_isometric_nondimensional_helmholtz_free_energy_per_link
      [UInt8; Float64; Float64; Float64; Float64; Float64] number_of_links_i link_length_i
      hinge_mass_i nondimensional_persistance_length_i nondimensional_end_to_end_length_per_link_i
      temperature_i) number_of_links link_length hinge_mass nondimensional_persistance_length
      nondimensional_end_to_end_length_per_link temperature.

(* /repo/src/physics/single_chain/wlc/thermodynamics/isometric/mod.jl:461-482 *)
Definition nondimensional_relative_helmholtz_free_energy (nondimensional_persistance_length : jarray
    T) (nondimensional_end_to_end_length_per_link : jarray T) : result T :=
  broadcast [Float64; Float64] (fun nondimensional_persistance_length_i
      nondimensional_end_to_end_length_per_link_i => ccall
      lib.physics_single_chain_wlc_thermodynamics_isometric_nondimensional_relative_helmholtz_free_energy
      [Float64; Float64] nondimensional_persistance_length_i
      nondimensional_end_to_end_length_per_link_i) nondimensional_persistance_length
      nondimensional_end_to_end_length_per_link.

(* /repo/src/physics/single_chain/wlc/thermodynamics/isometric/mod.jl:494-519 *)
Definition nondimensional_relative_helmholtz_free_energy_per_link (number_of_links : jarray Z)
    (nondimensional_persistance_length : jarray T) (nondimensional_end_to_end_length_per_link :
    jarray T) : result T :=
  broadcast [UInt8; Float64; Float64] (fun number_of_links_i nondimensional_persistance_length_i
      nondimensional_end_to_end_length_per_link_i => ccall
      lib.physics_single_chain_wlc_thermodynamics_isometric_nondimensional_relative_helmholtz_free_energy_per_link
      [UInt8; Float64; Float64] number_of_links_i nondimensional_persistance_length_i
      nondimensional_end_to_end_length_per_link_i) number_of_links nondimensional_persistance_length
      nondimensional_end_to_end_length_per_link.

(* /repo/src/physics/single_chain/wlc/thermodynamics/isometric/mod.jl:531-558 *)
Definition equilibrium_distribution (number_of_links : jarray Z) (link_length : jarray T)
    (persistance_length : jarray T) (normalization_nondimensional_equilibrium_distribution : T)
    (end_to_end_length : jarray T) : result T :=
  broadcast [UInt8; Float64; Float64; Float64] (fun number_of_links_i link_length_i
      persistance_length_i end_to_end_length_i => ccall
      lib.physics_single_chain_wlc_thermodynamics_isometric_equilibrium_distribution [UInt8;
      Float64; Float64; Float64; Float64] number_of_links_i link_length_i persistance_length_i
      normalization_nondimensional_equilibrium_distribution end_to_end_length_i) number_of_links
      link_length persistance_length end_to_end_length.

(* /repo/src/physics/single_chain/wlc/thermodynamics/isometric/mod.jl:570-597 *)
Definition nondimensional_equilibrium_distribution (number_of_links : jarray Z)
    (nondimensional_persistance_length : jarray T)
    (normalization_nondimensional_equilibrium_distribution : T)
    (nondimensional_end_to_end_length_per_link : jarray T) : result T :=
  broadcast [UInt8; Float64; Float64] (fun number_of_links_i nondimensional_persistance_length_i
      nondimensional_end_to_end_length_per_link_i => ccall
      lib.physics_single_chain_wlc_thermodynamics_isometric_nondimensional_equilibrium_distribution
      [UInt8; Float64; Float64; Float64] number_of_links_i nondimensional_persistance_length_i
      normalization_nondimensional_equilibrium_distribution
      nondimensional_end_to_end_length_per_link_i) number_of_links nondimensional_persistance_length
      nondimensional_end_to_end_length_per_link.

(* /repo/src/physics/single_chain/wlc/thermodynamics/isometric/mod.jl:611-638 *)
Definition equilibrium_radial_distribution (number_of_links : jarray Z) (link_length : jarray T)
    (persistance_length : jarray T) (normalization_nondimensional_equilibrium_distribution : T)
    (end_to_end_length : jarray T) : result T :=
  broadcast [UInt8; Float64; Float64; Float64] (fun number_of_links_i link_length_i
      persistance_length_i end_to_end_length_i => ccall
      lib.physics_single_chain_wlc_thermodynamics_isometric_equilibrium_radial_distribution [UInt8;
      Float64; Float64; Float64; Float64] number_of_links_i link_length_i persistance_length_i
      normalization_nondimensional_equilibrium_distribution end_to_end_length_i) number_of_links
      link_length persistance_length end_to_end_length.

(* /repo/src/physics/single_chain/wlc/thermodynamics/isometric/mod.jl:650-677 *)
Definition nondimensional_equilibrium_radial_distribution (number_of_links : jarray Z)
    (nondimensional_persistance_length : jarray T)
    (normalization_nondimensional_equilibrium_distribution : T)
    (nondimensional_end_to_end_length_per_link : jarray T) : result T :=
  broadcast [UInt8; Float64; Float64] (fun number_of_links_i nondimensional_persistance_length_i
      nondimensional_end_to_end_length_per_link_i => ccall
      lib.physics_single_chain_wlc_thermodynamics_isometric_nondimensional_equilibrium_radial_distribution
      [UInt8; Float64; Float64; Float64] number_of_links_i nondimensional_persistance_length_i
      normalization_nondimensional_equilibrium_distribution
      nondimensional_end_to_end_length_per_link_i) number_of_links nondimensional_persistance_length
      nondimensional_end_to_end_length_per_link.

End Model.
End jl_wlc_isometric.

(** /repo/src/physics/single_chain/wlc/thermodynamics/isometric/mod.jl: struct WLC *)
Module J_wlc_isometric.
(* /repo/src/physics/single_chain/wlc/thermodynamics/isometric/mod.jl:18-97 *)
Record t {T : Type} := {
  number_of_links : Z;
  link_length : T;
  hinge_mass : T;
  persistance_length : T;
  nondimensional_persistance_length : T;
  normalization_nondimensional_equilibrium_distribution : T;
  legendre : J_wlc_isometric_legendre.t T;
  force : jarray T -> jarray T -> result T;
  nondimensional_force : jarray T -> result T;
  helmholtz_free_energy : jarray T -> jarray T -> result T;
  helmholtz_free_energy_per_link : jarray T -> jarray T -> result T;
  relative_helmholtz_free_energy : jarray T -> jarray T -> result T;
  relative_helmholtz_free_energy_per_link : jarray T -> jarray T -> result T;
  nondimensional_helmholtz_free_energy : jarray T -> jarray T -> result T;
  nondimensional_helmholtz_free_energy_per_link : jarray T -> jarray T -> result T;
  nondimensional_relative_helmholtz_free_energy : jarray T -> result T;
  nondimensional_relative_helmholtz_free_energy_per_link : jarray T -> result T;
  equilibrium_distribution : jarray T -> result T;
  nondimensional_equilibrium_distribution : jarray T -> result T;
  equilibrium_radial_distribution : jarray T -> result T;
  nondimensional_equilibrium_radial_distribution : jarray T -> result T }.
Arguments t : clear implicits.
Section Model.
Context {T : Type} {Sc : Scalar T}.

(* /repo/src/physics/single_chain/wlc/thermodynamics/isometric/mod.jl:684-811 *)
Definition init (number_of_links : Z) (link_length : T) (hinge_mass : T) (persistance_length : T) :
    c_outcome (t T) :=
  let nondimensional_persistance_length := persistance_length / sofZ number_of_links / link_length in
  bind_outcome (integrate (fun nondimensional_end_to_end_length_per_link => jl_wlc_isometric.nondimensional_equilibrium_radial_distribution (num number_of_links) (num nondimensional_persistance_length) ((sdec 1 0)) (num nondimensional_end_to_end_length_per_link))
    (jl_ZERO) (jl_ONE) jl_POINTS) (fun normalization_nondimensional_equilibrium_distribution =>
  Finished (Some
  {| number_of_links := number_of_links;
     link_length := link_length;
     hinge_mass := hinge_mass;
     persistance_length := persistance_length;
     nondimensional_persistance_length := nondimensional_persistance_length;
     normalization_nondimensional_equilibrium_distribution :=
       normalization_nondimensional_equilibrium_distribution;
     legendre := J_wlc_isometric_legendre.init number_of_links link_length hinge_mass persistance_length;
     force := fun end_to_end_length temperature => jl_wlc_isometric.force (num number_of_links) (num
       link_length) (num persistance_length) end_to_end_length temperature;
     nondimensional_force := fun nondimensional_end_to_end_length_per_link =>
       jl_wlc_isometric.nondimensional_force (num number_of_links) (num
       nondimensional_persistance_length) nondimensional_end_to_end_length_per_link;
     helmholtz_free_energy := fun end_to_end_length temperature => jl_wlc_isometric.helmholtz_free_energy
       (num number_of_links) (num link_length) (num hinge_mass) (num persistance_length)
       end_to_end_length temperature;
     helmholtz_free_energy_per_link := fun end_to_end_length temperature =>
       jl_wlc_isometric.helmholtz_free_energy_per_link (num number_of_links) (num link_length) (num
       hinge_mass) (num persistance_length) end_to_end_length temperature;
     relative_helmholtz_free_energy := fun end_to_end_length temperature =>
       jl_wlc_isometric.relative_helmholtz_free_energy (num number_of_links) (num link_length) (num
       persistance_length) end_to_end_length temperature;
     relative_helmholtz_free_energy_per_link := fun end_to_end_length temperature =>
       jl_wlc_isometric.relative_helmholtz_free_energy_per_link (num number_of_links) (num
       link_length) (num persistance_length) end_to_end_length temperature;
     nondimensional_helmholtz_free_energy := fun nondimensional_end_to_end_length_per_link temperature =>
       jl_wlc_isometric.nondimensional_helmholtz_free_energy (num number_of_links) (num link_length)
       (num hinge_mass) (num nondimensional_persistance_length)
       nondimensional_end_to_end_length_per_link temperature;
     nondimensional_helmholtz_free_energy_per_link := fun nondimensional_end_to_end_length_per_link
       temperature => jl_wlc_isometric.nondimensional_helmholtz_free_energy_per_link (num
       number_of_links) (num link_length) (num hinge_mass) (num nondimensional_persistance_length)
       nondimensional_end_to_end_length_per_link temperature;
     nondimensional_relative_helmholtz_free_energy := fun nondimensional_end_to_end_length_per_link =>
       jl_wlc_isometric.nondimensional_relative_helmholtz_free_energy (num
       nondimensional_persistance_length) nondimensional_end_to_end_length_per_link;
     nondimensional_relative_helmholtz_free_energy_per_link := fun
       nondimensional_end_to_end_length_per_link =>
       jl_wlc_isometric.nondimensional_relative_helmholtz_free_energy_per_link (num number_of_links)
       (num nondimensional_persistance_length) nondimensional_end_to_end_length_per_link;
     equilibrium_distribution := fun end_to_end_length => jl_wlc_isometric.equilibrium_distribution (num
       number_of_links) (num link_length) (num persistance_length)
       normalization_nondimensional_equilibrium_distribution end_to_end_length;
     nondimensional_equilibrium_distribution := fun nondimensional_end_to_end_length_per_link =>
       jl_wlc_isometric.nondimensional_equilibrium_distribution (num number_of_links) (num
       nondimensional_persistance_length) normalization_nondimensional_equilibrium_distribution
       nondimensional_end_to_end_length_per_link;
     equilibrium_radial_distribution := fun end_to_end_length =>
       jl_wlc_isometric.equilibrium_radial_distribution (num number_of_links) (num link_length) (num
       persistance_length) normalization_nondimensional_equilibrium_distribution end_to_end_length;
     nondimensional_equilibrium_radial_distribution := fun nondimensional_end_to_end_length_per_link =>
       jl_wlc_isometric.nondimensional_equilibrium_radial_distribution (num number_of_links) (num
       nondimensional_persistance_length) normalization_nondimensional_equilibrium_distribution
       nondimensional_end_to_end_length_per_link |})).

End Model.
End J_wlc_isometric.

(** /repo/src/physics/single_chain/wlc/thermodynamics/isotensional/mod.jl *)
Module jl_wlc_isotensional.
Section Model.
Context {T : Type} {Sc : Scalar T}.

(* /repo/src/physics/single_chain/wlc/thermodynamics/isotensional/mod.jl:95-123 *)
Definition end_to_end_length (number_of_links : jarray Z) (link_length : jarray T)
    (persistance_length : jarray T) (force : jarray T) (temperature : jarray T) : result T :=
  broadcast [UInt8; Float64; Float64; Float64; Float64] (fun number_of_links_i link_length_i
      persistance_length_i force_i temperature_i => ccall
      lib.physics_single_chain_wlc_thermodynamics_isotensional_end_to_end_length [UInt8; Float64;
      Float64; Float64; Float64] number_of_links_i link_length_i persistance_length_i force_i
      temperature_i) number_of_links link_length persistance_length force temperature.

(* /repo/src/physics/single_chain/wlc/thermodynamics/isotensional/mod.jl:131-159 *)
Definition end_to_end_length_per_link (number_of_links : jarray Z) (link_length : jarray T)
    (persistance_length : jarray T) (force : jarray T) (temperature : jarray T) : result T :=
  broadcast [UInt8; Float64; Float64; Float64; Float64] (fun number_of_links_i link_length_i
      persistance_length_i force_i temperature_i => ccall
      lib.physics_single_chain_wlc_thermodynamics_isotensional_end_to_end_length_per_link [UInt8;
      Float64; Float64; Float64; Float64] number_of_links_i link_length_i persistance_length_i
      force_i temperature_i) number_of_links link_length persistance_length force temperature.

(* /repo/src/physics/single_chain/wlc/thermodynamics/isotensional/mod.jl:167-189 *)
Definition nondimensional_end_to_end_length (number_of_links : jarray Z)
    (nondimensional_persistance_length : jarray T) (nondimensional_force : jarray T) : result T :=
  broadcast [UInt8; Float64; Float64] (fun number_of_links_i nondimensional_persistance_length_i
      nondimensional_force_i => ccall
      lib.physics_single_chain_wlc_thermodynamics_isotensional_nondimensional_end_to_end_length
      [UInt8; Float64; Float64] number_of_links_i nondimensional_persistance_length_i
      nondimensional_force_i) number_of_links nondimensional_persistance_length
      nondimensional_force.

(* /repo/src/physics/single_chain/wlc/thermodynamics/isotensional/mod.jl:197-219 *)
Definition nondimensional_end_to_end_length_per_link (number_of_links : jarray Z)
    (nondimensional_persistance_length : jarray T) (nondimensional_force : jarray T) : result T :=
  broadcast [UInt8; Float64; Float64] (fun number_of_links_i nondimensional_persistance_length_i
      nondimensional_force_i => ccall
      lib.physics_single_chain_wlc_thermodynamics_isotensional_nondimensional_end_to_end_length_per_link
      [UInt8; Float64; Float64] number_of_links_i nondimensional_persistance_length_i
      nondimensional_force_i) number_of_links nondimensional_persistance_length
      nondimensional_force.

(* /repo/src/physics/single_chain/wlc/thermodynamics/isotensional/mod.jl:227-264 *)
Definition gibbs_free_energy (number_of_links : jarray Z) (link_length : jarray T) (hinge_mass :
    jarray T) (persistance_length : jarray T) (end_to_end_length : jarray T) (temperature : jarray
    T) : result T :=
  broadcast [UInt8; Float64; Float64; Float64; Float64; Float64] (fun number_of_links_i
      link_length_i hinge_mass_i persistance_length_i end_to_end_length_i temperature_i => ccall
      lib.physics_single_chain_wlc_thermodynamics_isotensional_gibbs_free_energy [UInt8; Float64;
      Float64; Float64; Float64; Float64] number_of_links_i link_length_i hinge_mass_i
      persistance_length_i end_to_end_length_i temperature_i) number_of_links link_length hinge_mass
      persistance_length end_to_end_length temperature.

(* /repo/src/physics/single_chain/wlc/thermodynamics/isotensional/mod.jl:272-309 *)
Definition gibbs_free_energy_per_link (number_of_links : jarray Z) (link_length : jarray T)
    (hinge_mass : jarray T) (persistance_length : jarray T) (end_to_end_length : jarray T)
    (temperature : jarray T) : result T :=
  broadcast [UInt8; Float64; Float64; Float64; Float64; Float64] (fun number_of_links_i
      link_length_i hinge_mass_i persistance_length_i end_to_end_length_i temperature_i => ccall
      lib.physics_single_chain_wlc_thermodynamics_isotensional_gibbs_free_energy_per_link [UInt8;
      Float64; Float64; Float64; Float64; Float64] number_of_links_i link_length_i hinge_mass_i
      persistance_length_i end_to_end_length_i temperature_i) number_of_links link_length hinge_mass
      persistance_length end_to_end_length temperature.

(* /repo/src/physics/single_chain/wlc/thermodynamics/isotensional/mod.jl:317-350 *)
Definition relative_gibbs_free_energy (number_of_links : jarray Z) (link_length : jarray T)
    (persistance_length : jarray T) (end_to_end_length : jarray T) (temperature : jarray T) : result
    T :=
  broadcast [UInt8; Float64; Float64; Float64; Float64] (fun number_of_links_i link_length_i
      persistance_length_i end_to_end_length_i temperature_i => ccall
      lib.physics_single_chain_wlc_thermodynamics_isotensional_relative_gibbs_free_energy [UInt8;
      Float64; Float64; Float64; Float64] number_of_links_i link_length_i persistance_length_i
      end_to_end_length_i temperature_i) number_of_links link_length persistance_length
      end_to_end_length temperature.

(* /repo/src/physics/single_chain/wlc/thermodynamics/isotensional/mod.jl:358-391 *)
Definition relative_gibbs_free_energy_per_link (number_of_links : jarray Z) (link_length : jarray T)
    (persistance_length : jarray T) (end_to_end_length : jarray T) (temperature : jarray T) : result
    T :=
  broadcast [UInt8; Float64; Float64; Float64; Float64] (fun number_of_links_i link_length_i
      persistance_length_i end_to_end_length_i temperature_i => ccall
      lib.physics_single_chain_wlc_thermodynamics_isotensional_relative_gibbs_free_energy_per_link
      [UInt8; Float64; Float64; Float64; Float64] number_of_links_i link_length_i
      persistance_length_i end_to_end_length_i temperature_i) number_of_links link_length
      persistance_length end_to_end_length temperature.

(* /repo/src/physics/single_chain/wlc/thermodynamics/isotensional/mod.jl:399-436 *)
Definition nondimensional_gibbs_free_energy (number_of_links : jarray Z) (link_length : jarray T)
    (hinge_mass : jarray T) (nondimensional_persistance_length : jarray T)
    (nondimensional_end_to_end_length_per_link : jarray T) (temperature : jarray T) : result T :=
  broadcast [UInt8; Float64; Float64; Float64; Float64; Float64] (fun number_of_links_i
      link_length_i hinge_mass_i nondimensional_persistance_length_i
      nondimensional_end_to_end_length_per_link_i temperature_i => ccall
      lib.physics_single_chain_wlc_thermodynamics_isotensional_nondimensional_gibbs_free_energy
      [UInt8; Float64; Float64; Float64; Float64; Float64] number_of_links_i link_length_i
      hinge_mass_i nondimensional_persistance_length_i nondimensional_end_to_end_length_per_link_i
      temperature_i) number_of_links link_length hinge_mass nondimensional_persistance_length
      nondimensional_end_to_end_length_per_link temperature.

(* /repo/src/physics/single_chain/wlc/thermodynamics/isotensional/mod.jl:444-481 *)
Definition nondimensional_gibbs_free_energy_per_link (number_of_links : jarray Z) (link_length :
    jarray T) (hinge_mass : jarray T) (nondimensional_persistance_length : jarray T)
    (nondimensional_end_to_end_length_per_link : jarray T) (temperature : jarray T) : result T :=
  broadcast [UInt8; Float64; Float64; Float64; Float64; Float64] (fun number_of_links_i
      link_length_i hinge_mass_i nondimensional_persistance_length_i
      nondimensional_end_to_end_length_per_link_i temperature_i => ccall
      lib.physics_single_chain_wlc_thermodynamics_isotensional_nondimensional_gibbs_free_energy_per_link
      [UInt8; Float64; Float64; Float64; Float64; Float64] number_of_links_i link_length_i
      hinge_mass_i nondimensional_persistance_length_i nondimensional_end_to_end_length_per_link_i
      temperature_i) number_of_links link_length hinge_mass nondimensional_persistance_length
      nondimensional_end_to_end_length_per_link temperature.

(* /repo/src/physics/single_chain/wlc/thermodynamics/isotensional/mod.jl:490-515 *)
Definition nondimensional_relative_gibbs_free_energy (number_of_links : jarray Z)
    (nondimensional_persistance_length : jarray T) (nondimensional_end_to_end_length_per_link :
    jarray T) : result T :=
  broadcast [UInt8; Float64; Float64] (fun number_of_links_i nondimensional_persistance_length_i
      nondimensional_end_to_end_length_per_link_i => ccall
      lib.physics_single_chain_wlc_thermodynamics_isotensional_nondimensional_relative_gibbs_free_energy
      [UInt8; Float64; Float64] number_of_links_i nondimensional_persistance_length_i
      nondimensional_end_to_end_length_per_link_i) number_of_links nondimensional_persistance_length
      nondimensional_end_to_end_length_per_link.

(* /repo/src/physics/single_chain/wlc/thermodynamics/isotensional/mod.jl:523-548 *)
Definition nondimensional_relative_gibbs_free_energy_per_link (number_of_links : jarray Z)
    (nondimensional_persistance_length : jarray T) (nondimensional_end_to_end_length_per_link :
    jarray T) : result T :=
  broadcast [UInt8; Float64; Float64] (fun number_of_links_i nondimensional_persistance_length_i
      nondimensional_end_to_end_length_per_link_i => ccall
      lib.physics_single_chain_wlc_thermodynamics_isotensional_nondimensional_relative_gibbs_free_energy_per_link
      [UInt8; Float64; Float64] number_of_links_i nondimensional_persistance_length_i
      nondimensional_end_to_end_length_per_link_i) number_of_links nondimensional_persistance_length
      nondimensional_end_to_end_length_per_link.

End Model.
End jl_wlc_isotensional.

(** /repo/src/physics/single_chain/wlc/thermodynamics/isotensional/mod.jl: struct WLC *)
Module J_wlc_isotensional.
(* /repo/src/physics/single_chain/wlc/thermodynamics/isotensional/mod.jl:17-87 *)
Record t {T : Type} := {
  number_of_links : Z;
  link_length : T;
  hinge_mass : T;
  persistance_length : T;
  nondimensional_persistance_length : T;
  legendre : J_wlc_isotensional_legendre.t T;
  end_to_end_length : jarray T -> jarray T -> result T;
  end_to_end_length_per_link : jarray T -> jarray T -> result T;
  nondimensional_end_to_end_length : jarray T -> result T;
  nondimensional_end_to_end_length_per_link : jarray T -> result T;
  gibbs_free_energy : jarray T -> jarray T -> result T;
  gibbs_free_energy_per_link : jarray T -> jarray T -> result T;
  relative_gibbs_free_energy : jarray T -> jarray T -> result T;
  relative_gibbs_free_energy_per_link : jarray T -> jarray T -> result T;
  nondimensional_gibbs_free_energy : jarray T -> jarray T -> result T;
  nondimensional_gibbs_free_energy_per_link : jarray T -> jarray T -> result T;
  nondimensional_relative_gibbs_free_energy : jarray T -> result T;
  nondimensional_relative_gibbs_free_energy_per_link : jarray T -> result T }.
Arguments t : clear implicits.
Section Model.
Context {T : Type} {Sc : Scalar T}.

(* /repo/src/physics/single_chain/wlc/thermodynamics/isotensional/mod.jl:555-650 *)
Definition init (number_of_links : Z) (link_length : T) (hinge_mass : T) (persistance_length : T) :
    t T :=
  let nondimensional_persistance_length := persistance_length / sofZ number_of_links / link_length in
  {| number_of_links := number_of_links;
     link_length := link_length;
     hinge_mass := hinge_mass;
     persistance_length := persistance_length;
     nondimensional_persistance_length := nondimensional_persistance_length;
     legendre := J_wlc_isotensional_legendre.init number_of_links link_length hinge_mass
       persistance_length;
     end_to_end_length := fun force temperature => jl_wlc_isotensional.end_to_end_length (num
       number_of_links) (num link_length) (num persistance_length) force temperature;
     end_to_end_length_per_link := fun force temperature =>
       jl_wlc_isotensional.end_to_end_length_per_link (num number_of_links) (num link_length) (num
       persistance_length) force temperature;
     nondimensional_end_to_end_length := fun nondimensional_force =>
       jl_wlc_isotensional.nondimensional_end_to_end_length (num number_of_links) (num
       nondimensional_persistance_length) nondimensional_force;
     nondimensional_end_to_end_length_per_link := fun nondimensional_force =>
       jl_wlc_isotensional.nondimensional_end_to_end_length_per_link (num number_of_links) (num
       nondimensional_persistance_length) nondimensional_force;
     gibbs_free_energy := fun force temperature => jl_wlc_isotensional.gibbs_free_energy (num
       number_of_links) (num link_length) (num hinge_mass) (num persistance_length) force
       temperature;
     gibbs_free_energy_per_link := fun force temperature =>
       jl_wlc_isotensional.gibbs_free_energy_per_link (num number_of_links) (num link_length) (num
       hinge_mass) (num persistance_length) force temperature;
     relative_gibbs_free_energy := fun force temperature =>
       jl_wlc_isotensional.relative_gibbs_free_energy (num number_of_links) (num link_length) (num
       persistance_length) force temperature;
     relative_gibbs_free_energy_per_link := fun force temperature =>
       jl_wlc_isotensional.relative_gibbs_free_energy_per_link (num number_of_links) (num
       link_length) (num persistance_length) force temperature;
     nondimensional_gibbs_free_energy := fun nondimensional_force temperature =>
       jl_wlc_isotensional.nondimensional_gibbs_free_energy (num number_of_links) (num link_length)
       (num hinge_mass) (num nondimensional_persistance_length) nondimensional_force temperature;
     nondimensional_gibbs_free_energy_per_link := fun nondimensional_force temperature =>
       jl_wlc_isotensional.nondimensional_gibbs_free_energy_per_link (num number_of_links) (num
       link_length) (num hinge_mass) (num nondimensional_persistance_length) nondimensional_force
       temperature;
     nondimensional_relative_gibbs_free_energy := fun nondimensional_force =>
       jl_wlc_isotensional.nondimensional_relative_gibbs_free_energy (num number_of_links) (num
       nondimensional_persistance_length) nondimensional_force;
     nondimensional_relative_gibbs_free_energy_per_link := fun nondimensional_force =>
       jl_wlc_isotensional.nondimensional_relative_gibbs_free_energy_per_link (num number_of_links)
       (num nondimensional_persistance_length) nondimensional_force |}.

End Model.
End J_wlc_isotensional.

(** /repo/src/physics/single_chain/efjc/thermodynamics/mod.jl: struct EFJC *)
Module J_efjc_thermodynamics.
(* /repo/src/physics/single_chain/efjc/thermodynamics/mod.jl:16-41 *)
Record t {T : Type} := {
  number_of_links : Z;
  link_length : T;
  hinge_mass : T;
  link_stiffness : T;
  isometric : J_efjc_isometric.t T;
  isotensional : J_efjc_isotensional.t T }.
Arguments t : clear implicits.
Section Model.
Context {T : Type} {Sc : Scalar T}.

(* /repo/src/physics/single_chain/efjc/thermodynamics/mod.jl:48-62 *)
Definition init (number_of_links : Z) (link_length : T) (hinge_mass : T) (link_stiffness : T) : t T
    :=
  {| number_of_links := number_of_links;
     link_length := link_length;
     hinge_mass := hinge_mass;
     link_stiffness := link_stiffness;
     isometric := J_efjc_isometric.init number_of_links link_length hinge_mass link_stiffness;
     isotensional := J_efjc_isotensional.init number_of_links link_length hinge_mass link_stiffness |}.

End Model.
End J_efjc_thermodynamics.

(** /repo/src/physics/single_chain/fjc/thermodynamics/mod.jl: struct FJC *)
Module J_fjc_thermodynamics.
(* /repo/src/physics/single_chain/fjc/thermodynamics/mod.jl:17-42 *)
Record t {T : Type} := {
  number_of_links : Z;
  link_length : T;
  hinge_mass : T;
  isometric : J_fjc_isometric.t T;
  isotensional : J_fjc_isotensional.t T;
  modified_canonical : J_fjc_modified_canonical.t T }.
Arguments t : clear implicits.
Section Model.
Context {T : Type} {Sc : Scalar T}.

(* /repo/src/physics/single_chain/fjc/thermodynamics/mod.jl:49-58 *)
Definition init (prof : profile) (number_of_links : Z) (link_length : T) (hinge_mass : T) :
    c_outcome (t T) :=
  bind_outcome (J_fjc_isometric.init prof number_of_links link_length hinge_mass) (fun isometric_ =>
  Finished (Some
  {| number_of_links := number_of_links;
     link_length := link_length;
     hinge_mass := hinge_mass;
     isometric := isometric_;
     isotensional := J_fjc_isotensional.init number_of_links link_length hinge_mass;
     modified_canonical := J_fjc_modified_canonical.init prof number_of_links link_length hinge_mass |})).

End Model.
End J_fjc_thermodynamics.

(** /repo/src/physics/single_chain/ideal/thermodynamics/mod.jl: struct IDEAL *)
Module J_ideal_thermodynamics.
(* /repo/src/physics/single_chain/ideal/thermodynamics/mod.jl:16-37 *)
Record t {T : Type} := {
  number_of_links : Z;
  link_length : T;
  hinge_mass : T;
  isometric : J_ideal_isometric.t T;
  isotensional : J_ideal_isotensional.t T }.
Arguments t : clear implicits.
Section Model.
Context {T : Type} {Sc : Scalar T}.

(* /repo/src/physics/single_chain/ideal/thermodynamics/mod.jl:44-52 *)
Definition init (number_of_links : Z) (link_length : T) (hinge_mass : T) : t T :=
  {| number_of_links := number_of_links;
     link_length := link_length;
     hinge_mass := hinge_mass;
     isometric := J_ideal_isometric.init number_of_links link_length hinge_mass;
     isotensional := J_ideal_isotensional.init number_of_links link_length hinge_mass |}.

End Model.
End J_ideal_thermodynamics.

(** /repo/src/physics/single_chain/swfjc/thermodynamics/mod.jl: struct SWFJC *)
Module J_swfjc_thermodynamics.
(* /repo/src/physics/single_chain/swfjc/thermodynamics/mod.jl:16-41 *)
Record t {T : Type} := {
  number_of_links : Z;
  link_length : T;
  hinge_mass : T;
  well_width : T;
  isometric : J_swfjc_isometric.t T;
  isotensional : J_swfjc_isotensional.t T }.
Arguments t : clear implicits.
Section Model.
Context {T : Type} {Sc : Scalar T}.

(* /repo/src/physics/single_chain/swfjc/thermodynamics/mod.jl:48-62 *)
Definition init (number_of_links : Z) (link_length : T) (hinge_mass : T) (well_width : T) :
    c_outcome (t T) :=
  bind_outcome (J_swfjc_isometric.init number_of_links link_length hinge_mass well_width) (fun isometric_ =>
  Finished (Some
  {| number_of_links := number_of_links;
     link_length := link_length;
     hinge_mass := hinge_mass;
     well_width := well_width;
     isometric := isometric_;
     isotensional := J_swfjc_isotensional.init number_of_links link_length hinge_mass well_width |})).

End Model.
End J_swfjc_thermodynamics.

(** /repo/src/physics/single_chain/ufjc/lennard_jones/mod.jl: struct LENNARDJONESFJC *)
Module J_lennard_jones.
(* /repo/src/physics/single_chain/ufjc/lennard_jones/mod.jl:15-36 *)
Record t {T : Type} := {
  number_of_links : Z;
  link_length : T;
  hinge_mass : T;
  link_stiffness : T;
  thermodynamics : J_lennard_jones_thermodynamics.t T }.
Arguments t : clear implicits.
Section Model.
Context {T : Type} {Sc : Scalar T}.

(* /repo/src/physics/single_chain/ufjc/lennard_jones/mod.jl:43-61 *)
Definition init (number_of_links : Z) (link_length : T) (hinge_mass : T) (link_stiffness : T) : t T
    :=
  {| number_of_links := number_of_links;
     link_length := link_length;
     hinge_mass := hinge_mass;
     link_stiffness := link_stiffness;
     thermodynamics := J_lennard_jones_thermodynamics.init number_of_links link_length hinge_mass
       link_stiffness |}.

End Model.
End J_lennard_jones.

(** /repo/src/physics/single_chain/ufjc/log_squared/mod.jl: struct LOGSQUAREDFJC *)
Module J_log_squared.
(* /repo/src/physics/single_chain/ufjc/log_squared/mod.jl:15-36 *)
Record t {T : Type} := {
  number_of_links : Z;
  link_length : T;
  hinge_mass : T;
  link_stiffness : T;
  thermodynamics : J_log_squared_thermodynamics.t T }.
Arguments t : clear implicits.
Section Model.
Context {T : Type} {Sc : Scalar T}.

(* /repo/src/physics/single_chain/ufjc/log_squared/mod.jl:43-61 *)
Definition init (number_of_links : Z) (link_length : T) (hinge_mass : T) (link_stiffness : T) : t T
    :=
  {| number_of_links := number_of_links;
     link_length := link_length;
     hinge_mass := hinge_mass;
     link_stiffness := link_stiffness;
     thermodynamics := J_log_squared_thermodynamics.init number_of_links link_length hinge_mass
       link_stiffness |}.

End Model.
End J_log_squared.

(** /repo/src/physics/single_chain/ufjc/morse/mod.jl: struct MORSEFJC *)
Module J_morse.
(* /repo/src/physics/single_chain/ufjc/morse/mod.jl:15-40 *)
Record t {T : Type} := {
  number_of_links : Z;
  link_length : T;
  hinge_mass : T;
  link_stiffness : T;
  link_energy : T;
  thermodynamics : J_morse_thermodynamics.t T }.
Arguments t : clear implicits.
Section Model.
Context {T : Type} {Sc : Scalar T}.

(* /repo/src/physics/single_chain/ufjc/morse/mod.jl:47-68 *)
Definition init (number_of_links : Z) (link_length : T) (hinge_mass : T) (link_stiffness : T)
    (link_energy : T) : t T :=
  {| number_of_links := number_of_links;
     link_length := link_length;
     hinge_mass := hinge_mass;
     link_stiffness := link_stiffness;
     link_energy := link_energy;
     thermodynamics := J_morse_thermodynamics.init number_of_links link_length hinge_mass link_stiffness
       link_energy |}.

End Model.
End J_morse.

(** /repo/src/physics/single_chain/wlc/thermodynamics/mod.jl: struct WLC *)
Module J_wlc_thermodynamics.
(* /repo/src/physics/single_chain/wlc/thermodynamics/mod.jl:16-41 *)
Record t {T : Type} := {
  number_of_links : Z;
  link_length : T;
  hinge_mass : T;
  persistance_length : T;
  isometric : J_wlc_isometric.t T;
  isotensional : J_wlc_isotensional.t T }.
Arguments t : clear implicits.
Section Model.
Context {T : Type} {Sc : Scalar T}.

(* /repo/src/physics/single_chain/wlc/thermodynamics/mod.jl:48-62 *)
Definition init (number_of_links : Z) (link_length : T) (hinge_mass : T) (persistance_length : T) :
    c_outcome (t T) :=
  bind_outcome (J_wlc_isometric.init number_of_links link_length hinge_mass persistance_length) (fun isometric_ =>
  Finished (Some
  {| number_of_links := number_of_links;
     link_length := link_length;
     hinge_mass := hinge_mass;
     persistance_length := persistance_length;
     isometric := isometric_;
     isotensional := J_wlc_isotensional.init number_of_links link_length hinge_mass persistance_length |})).

End Model.
End J_wlc_thermodynamics.

(** /repo/src/physics/single_chain/efjc/mod.jl: struct EFJC *)
Module J_efjc.
(* /repo/src/physics/single_chain/efjc/mod.jl:15-36 *)
Record t {T : Type} := {
  number_of_links : Z;
  link_length : T;
  hinge_mass : T;
  link_stiffness : T;
  thermodynamics : J_efjc_thermodynamics.t T }.
Arguments t : clear implicits.
Section Model.
Context {T : Type} {Sc : Scalar T}.

(* /repo/src/physics/single_chain/efjc/mod.jl:43-56 *)
Definition init (number_of_links : Z) (link_length : T) (hinge_mass : T) (link_stiffness : T) : t T
    :=
  {| number_of_links := number_of_links;
     link_length := link_length;
     hinge_mass := hinge_mass;
     link_stiffness := link_stiffness;
     thermodynamics := J_efjc_thermodynamics.init number_of_links link_length hinge_mass link_stiffness |}.

End Model.
End J_efjc.

(** /repo/src/physics/single_chain/fjc/mod.jl: struct FJC *)
Module J_fjc.
(* /repo/src/physics/single_chain/fjc/mod.jl:15-32 *)
Record t {T : Type} := {
  number_of_links : Z;
  link_length : T;
  hinge_mass : T;
  thermodynamics : J_fjc_thermodynamics.t T }.
Arguments t : clear implicits.
Section Model.
Context {T : Type} {Sc : Scalar T}.

(* /repo/src/physics/single_chain/fjc/mod.jl:39-46 *)
Definition init (prof : profile) (number_of_links : Z) (link_length : T) (hinge_mass : T) :
    c_outcome (t T) :=
  bind_outcome (J_fjc_thermodynamics.init prof number_of_links link_length hinge_mass) (fun thermodynamics_ =>
  Finished (Some
  {| number_of_links := number_of_links;
     link_length := link_length;
     hinge_mass := hinge_mass;
     thermodynamics := thermodynamics_ |})).

End Model.
End J_fjc.

(** /repo/src/physics/single_chain/ideal/mod.jl: struct IDEAL *)
Module J_ideal.
(* /repo/src/physics/single_chain/ideal/mod.jl:15-32 *)
Record t {T : Type} := {
  number_of_links : Z;
  link_length : T;
  hinge_mass : T;
  thermodynamics : J_ideal_thermodynamics.t T }.
Arguments t : clear implicits.
Section Model.
Context {T : Type} {Sc : Scalar T}.

(* /repo/src/physics/single_chain/ideal/mod.jl:39-46 *)
Definition init (number_of_links : Z) (link_length : T) (hinge_mass : T) : t T :=
  {| number_of_links := number_of_links;
     link_length := link_length;
     hinge_mass := hinge_mass;
     thermodynamics := J_ideal_thermodynamics.init number_of_links link_length hinge_mass |}.

End Model.
End J_ideal.

(** /repo/src/physics/single_chain/swfjc/mod.jl: struct SWFJC *)
Module J_swfjc.
(* /repo/src/physics/single_chain/swfjc/mod.jl:15-36 *)
Record t {T : Type} := {
  number_of_links : Z;
  link_length : T;
  hinge_mass : T;
  well_width : T;
  thermodynamics : J_swfjc_thermodynamics.t T }.
Arguments t : clear implicits.
Section Model.
Context {T : Type} {Sc : Scalar T}.

(* /repo/src/physics/single_chain/swfjc/mod.jl:43-56 *)
Definition init (number_of_links : Z) (link_length : T) (hinge_mass : T) (well_width : T) :
    c_outcome (t T) :=
  bind_outcome (J_swfjc_thermodynamics.init number_of_links link_length hinge_mass well_width) (fun thermodynamics_ =>
  Finished (Some
  {| number_of_links := number_of_links;
     link_length := link_length;
     hinge_mass := hinge_mass;
     well_width := well_width;
     thermodynamics := thermodynamics_ |})).

End Model.
End J_swfjc.

(** /repo/src/physics/single_chain/wlc/mod.jl: struct WLC *)
Module J_wlc.
(* /repo/src/physics/single_chain/wlc/mod.jl:15-36 *)
Record t {T : Type} := {
  number_of_links : Z;
  link_length : T;
  hinge_mass : T;
  persistance_length : T;
  thermodynamics : J_wlc_thermodynamics.t T }.
Arguments t : clear implicits.
Section Model.
Context {T : Type} {Sc : Scalar T}.

(* /repo/src/physics/single_chain/wlc/mod.jl:43-56 *)
Definition init (number_of_links : Z) (link_length : T) (hinge_mass : T) (persistance_length : T) :
    c_outcome (t T) :=
  bind_outcome (J_wlc_thermodynamics.init number_of_links link_length hinge_mass persistance_length) (fun thermodynamics_ =>
  Finished (Some
  {| number_of_links := number_of_links;
     link_length := link_length;
     hinge_mass := hinge_mass;
     persistance_length := persistance_length;
     thermodynamics := thermodynamics_ |})).

End Model.
End J_wlc.
