(** C61: the Julia interface.  Every Julia function, applied to numbers and arrays that
    Julia can broadcast, gives at each entry what the Rust function with the same path
    returns for the arguments that meet there.  Every function stored in a Julia object
    does the same with the method of the same name of the Rust object built with the same
    parameters, and the numbers and objects stored there are those of the Rust object.

    Written by tools/gen_julia.py, which finds the Rust function from the path of the Julia
    module and matches arguments by parameter name.  The theorems range over every scalar
    type and both build profiles, except those on objects that store a normalization, which
    Julia and Rust sum from different ends: these are over the reals.  [broadcast] is
    described by C61_broadcast at the end.  *)
Require Import Verif.Scalar Verif.MConst Verif.MMath Verif.MBindConstitutive Verif.MExtern Verif.MJuliaBase Verif.PJuliaBase.
Require Import Verif.MIdeal Verif.MFjc Verif.MSwfjc Verif.MEfjc Verif.MMorse Verif.MLennardJones Verif.MLogSquared Verif.MWlc Verif.MJulia Verif.PJulia Verif.SpecJulia Verif.PJuliaExamples.
Require Import ZArith Reals List.
Import ListNotations.
Local Open Scope scalar_scope.

Theorem C61_functions_lennard_jones_isometric_asymptotic_reduced_legendre : forall (T : Type) (Sc : Scalar T),
  (forall (number_of_links : jarray Z) (link_length : jarray T) (link_stiffness : jarray T) (end_to_end_length : jarray T) (temperature : jarray T),
     jl_lennard_jones_isometric_asymptotic_reduced_legendre.force number_of_links link_length link_stiffness end_to_end_length temperature
     = broadcast [UInt8; Float64; Float64; Float64; Float64] (fun number_of_links link_length link_stiffness end_to_end_length temperature =>
         Finished (Some (lennard_jones_isometric_asymptotic_reduced_legendre.force number_of_links link_length link_stiffness end_to_end_length temperature))) number_of_links link_length link_stiffness end_to_end_length temperature)
  /\ (forall (nondimensional_link_stiffness : jarray T) (nondimensional_end_to_end_length_per_link : jarray T),
     jl_lennard_jones_isometric_asymptotic_reduced_legendre.nondimensional_force nondimensional_link_stiffness nondimensional_end_to_end_length_per_link
     = broadcast [Float64; Float64] (fun nondimensional_link_stiffness nondimensional_end_to_end_length_per_link =>
         Finished (Some (lennard_jones_isometric_asymptotic_reduced_legendre.nondimensional_force nondimensional_link_stiffness nondimensional_end_to_end_length_per_link))) nondimensional_link_stiffness nondimensional_end_to_end_length_per_link)
  /\ (forall (number_of_links : jarray Z) (link_length : jarray T) (hinge_mass : jarray T) (link_stiffness : jarray T) (end_to_end_length : jarray T) (temperature : jarray T),
     jl_lennard_jones_isometric_asymptotic_reduced_legendre.helmholtz_free_energy number_of_links link_length hinge_mass link_stiffness end_to_end_length temperature
     = broadcast [UInt8; Float64; Float64; Float64; Float64; Float64] (fun number_of_links link_length hinge_mass link_stiffness end_to_end_length temperature =>
         Finished (Some (lennard_jones_isometric_asymptotic_reduced_legendre.helmholtz_free_energy number_of_links link_length hinge_mass link_stiffness end_to_end_length temperature))) number_of_links link_length hinge_mass link_stiffness end_to_end_length temperature)
  /\ (forall (number_of_links : jarray Z) (link_length : jarray T) (hinge_mass : jarray T) (link_stiffness : jarray T) (end_to_end_length : jarray T) (temperature : jarray T),
     jl_lennard_jones_isometric_asymptotic_reduced_legendre.helmholtz_free_energy_per_link number_of_links link_length hinge_mass link_stiffness end_to_end_length temperature
     = broadcast [UInt8; Float64; Float64; Float64; Float64; Float64] (fun number_of_links link_length hinge_mass link_stiffness end_to_end_length temperature =>
         Finished (Some (lennard_jones_isometric_asymptotic_reduced_legendre.helmholtz_free_energy_per_link number_of_links link_length hinge_mass link_stiffness end_to_end_length temperature))) number_of_links link_length hinge_mass link_stiffness end_to_end_length temperature)
  /\ (forall (number_of_links : jarray Z) (link_length : jarray T) (link_stiffness : jarray T) (end_to_end_length : jarray T) (temperature : jarray T),
     jl_lennard_jones_isometric_asymptotic_reduced_legendre.relative_helmholtz_free_energy number_of_links link_length link_stiffness end_to_end_length temperature
     = broadcast [UInt8; Float64; Float64; Float64; Float64] (fun number_of_links link_length link_stiffness end_to_end_length temperature =>
         Finished (Some (lennard_jones_isometric_asymptotic_reduced_legendre.relative_helmholtz_free_energy number_of_links link_length link_stiffness end_to_end_length temperature))) number_of_links link_length link_stiffness end_to_end_length temperature)
  /\ (forall (number_of_links : jarray Z) (link_length : jarray T) (link_stiffness : jarray T) (end_to_end_length : jarray T) (temperature : jarray T),
     jl_lennard_jones_isometric_asymptotic_reduced_legendre.relative_helmholtz_free_energy_per_link number_of_links link_length link_stiffness end_to_end_length temperature
     = broadcast [UInt8; Float64; Float64; Float64; Float64] (fun number_of_links link_length link_stiffness end_to_end_length temperature =>
         Finished (Some (lennard_jones_isometric_asymptotic_reduced_legendre.relative_helmholtz_free_energy_per_link number_of_links link_length link_stiffness end_to_end_length temperature))) number_of_links link_length link_stiffness end_to_end_length temperature)
  /\ (forall (number_of_links : jarray Z) (link_length : jarray T) (hinge_mass : jarray T) (nondimensional_link_stiffness : jarray T) (nondimensional_end_to_end_length_per_link : jarray T) (temperature : jarray T),
     jl_lennard_jones_isometric_asymptotic_reduced_legendre.nondimensional_helmholtz_free_energy number_of_links link_length hinge_mass nondimensional_link_stiffness nondimensional_end_to_end_length_per_link temperature
     = broadcast [UInt8; Float64; Float64; Float64; Float64; Float64] (fun number_of_links link_length hinge_mass nondimensional_link_stiffness nondimensional_end_to_end_length_per_link temperature =>
         Finished (Some (lennard_jones_isometric_asymptotic_reduced_legendre.nondimensional_helmholtz_free_energy number_of_links link_length hinge_mass nondimensional_link_stiffness nondimensional_end_to_end_length_per_link temperature))) number_of_links link_length hinge_mass nondimensional_link_stiffness nondimensional_end_to_end_length_per_link temperature)
  /\ (forall (number_of_links : jarray Z) (link_length : jarray T) (hinge_mass : jarray T) (nondimensional_link_stiffness : jarray T) (nondimensional_end_to_end_length_per_link : jarray T) (temperature : jarray T),
     jl_lennard_jones_isometric_asymptotic_reduced_legendre.nondimensional_helmholtz_free_energy_per_link number_of_links link_length hinge_mass nondimensional_link_stiffness nondimensional_end_to_end_length_per_link temperature
     = broadcast [UInt8; Float64; Float64; Float64; Float64; Float64] (fun number_of_links link_length hinge_mass nondimensional_link_stiffness nondimensional_end_to_end_length_per_link temperature =>
         Finished (Some (lennard_jones_isometric_asymptotic_reduced_legendre.nondimensional_helmholtz_free_energy_per_link number_of_links link_length hinge_mass nondimensional_link_stiffness nondimensional_end_to_end_length_per_link temperature))) number_of_links link_length hinge_mass nondimensional_link_stiffness nondimensional_end_to_end_length_per_link temperature)
  /\ (forall (number_of_links : jarray Z) (nondimensional_link_stiffness : jarray T) (nondimensional_end_to_end_length_per_link : jarray T),
     jl_lennard_jones_isometric_asymptotic_reduced_legendre.nondimensional_relative_helmholtz_free_energy number_of_links nondimensional_link_stiffness nondimensional_end_to_end_length_per_link
     = broadcast [UInt8; Float64; Float64] (fun number_of_links nondimensional_link_stiffness nondimensional_end_to_end_length_per_link =>
         Finished (Some (lennard_jones_isometric_asymptotic_reduced_legendre.nondimensional_relative_helmholtz_free_energy number_of_links nondimensional_link_stiffness nondimensional_end_to_end_length_per_link))) number_of_links nondimensional_link_stiffness nondimensional_end_to_end_length_per_link)
  /\ (forall (nondimensional_link_stiffness : jarray T) (nondimensional_end_to_end_length_per_link : jarray T),
     jl_lennard_jones_isometric_asymptotic_reduced_legendre.nondimensional_relative_helmholtz_free_energy_per_link nondimensional_link_stiffness nondimensional_end_to_end_length_per_link
     = broadcast [Float64; Float64] (fun nondimensional_link_stiffness nondimensional_end_to_end_length_per_link =>
         Finished (Some (lennard_jones_isometric_asymptotic_reduced_legendre.nondimensional_relative_helmholtz_free_energy_per_link nondimensional_link_stiffness nondimensional_end_to_end_length_per_link))) nondimensional_link_stiffness nondimensional_end_to_end_length_per_link).
Proof.
  exact (fun T Sc => conj (@F_lennard_jones_isometric_asymptotic_reduced_legendre_force T Sc)
    (conj (@F_lennard_jones_isometric_asymptotic_reduced_legendre_nondimensional_force T Sc)
    (conj (@F_lennard_jones_isometric_asymptotic_reduced_legendre_helmholtz_free_energy T Sc)
    (conj (@F_lennard_jones_isometric_asymptotic_reduced_legendre_helmholtz_free_energy_per_link T Sc)
    (conj (@F_lennard_jones_isometric_asymptotic_reduced_legendre_relative_helmholtz_free_energy T Sc)
    (conj (@F_lennard_jones_isometric_asymptotic_reduced_legendre_relative_helmholtz_free_energy_per_link T Sc)
    (conj (@F_lennard_jones_isometric_asymptotic_reduced_legendre_nondimensional_helmholtz_free_energy T Sc)
    (conj (@F_lennard_jones_isometric_asymptotic_reduced_legendre_nondimensional_helmholtz_free_energy_per_link T Sc)
    (conj (@F_lennard_jones_isometric_asymptotic_reduced_legendre_nondimensional_relative_helmholtz_free_energy T Sc)
    (@F_lennard_jones_isometric_asymptotic_reduced_legendre_nondimensional_relative_helmholtz_free_energy_per_link T Sc)))))))))).
Qed.
Print Assumptions C61_functions_lennard_jones_isometric_asymptotic_reduced_legendre.

Theorem C61_object_lennard_jones_isometric_asymptotic_reduced_legendre : forall (T : Type) (Sc : Scalar T) (number_of_links : Z) (link_length : T) (hinge_mass : T) (link_stiffness : T),
  let j := J_lennard_jones_isometric_asymptotic_reduced_legendre.init number_of_links link_length hinge_mass link_stiffness in
  let r := O_lennard_jones_isometric_asymptotic_reduced_legendre.init number_of_links link_length hinge_mass link_stiffness in
  J_lennard_jones_isometric_asymptotic_reduced_legendre.number_of_links j = O_lennard_jones_isometric_asymptotic_reduced_legendre.number_of_links r
  /\ J_lennard_jones_isometric_asymptotic_reduced_legendre.link_length j = O_lennard_jones_isometric_asymptotic_reduced_legendre.link_length r
  /\ J_lennard_jones_isometric_asymptotic_reduced_legendre.hinge_mass j = O_lennard_jones_isometric_asymptotic_reduced_legendre.hinge_mass r
  /\ J_lennard_jones_isometric_asymptotic_reduced_legendre.link_stiffness j = O_lennard_jones_isometric_asymptotic_reduced_legendre.link_stiffness r
  /\ (forall (end_to_end_length : jarray T) (temperature : jarray T),
     J_lennard_jones_isometric_asymptotic_reduced_legendre.force j end_to_end_length temperature
     = broadcast [Float64; Float64] (fun end_to_end_length temperature =>
         Finished (Some (O_lennard_jones_isometric_asymptotic_reduced_legendre.force r end_to_end_length temperature))) end_to_end_length temperature)
  /\ (forall (nondimensional_end_to_end_length_per_link : jarray T) (temperature : T),
     J_lennard_jones_isometric_asymptotic_reduced_legendre.nondimensional_force j nondimensional_end_to_end_length_per_link temperature
     = broadcast [Float64] (fun nondimensional_end_to_end_length_per_link =>
         Finished (Some (O_lennard_jones_isometric_asymptotic_reduced_legendre.nondimensional_force r nondimensional_end_to_end_length_per_link temperature))) nondimensional_end_to_end_length_per_link)
  /\ (forall (end_to_end_length : jarray T) (temperature : jarray T),
     J_lennard_jones_isometric_asymptotic_reduced_legendre.helmholtz_free_energy j end_to_end_length temperature
     = broadcast [Float64; Float64] (fun end_to_end_length temperature =>
         Finished (Some (O_lennard_jones_isometric_asymptotic_reduced_legendre.helmholtz_free_energy r end_to_end_length temperature))) end_to_end_length temperature)
  /\ (forall (end_to_end_length : jarray T) (temperature : jarray T),
     J_lennard_jones_isometric_asymptotic_reduced_legendre.helmholtz_free_energy_per_link j end_to_end_length temperature
     = broadcast [Float64; Float64] (fun end_to_end_length temperature =>
         Finished (Some (O_lennard_jones_isometric_asymptotic_reduced_legendre.helmholtz_free_energy_per_link r end_to_end_length temperature))) end_to_end_length temperature)
  /\ (forall (end_to_end_length : jarray T) (temperature : jarray T),
     J_lennard_jones_isometric_asymptotic_reduced_legendre.relative_helmholtz_free_energy j end_to_end_length temperature
     = broadcast [Float64; Float64] (fun end_to_end_length temperature =>
         Finished (Some (O_lennard_jones_isometric_asymptotic_reduced_legendre.relative_helmholtz_free_energy r end_to_end_length temperature))) end_to_end_length temperature)
  /\ (forall (end_to_end_length : jarray T) (temperature : jarray T),
     J_lennard_jones_isometric_asymptotic_reduced_legendre.relative_helmholtz_free_energy_per_link j end_to_end_length temperature
     = broadcast [Float64; Float64] (fun end_to_end_length temperature =>
         Finished (Some (O_lennard_jones_isometric_asymptotic_reduced_legendre.relative_helmholtz_free_energy_per_link r end_to_end_length temperature))) end_to_end_length temperature)
  /\ (forall (nondimensional_end_to_end_length_per_link : jarray T) (temperature : T),
     J_lennard_jones_isometric_asymptotic_reduced_legendre.nondimensional_helmholtz_free_energy j nondimensional_end_to_end_length_per_link temperature
     = broadcast [Float64] (fun nondimensional_end_to_end_length_per_link =>
         Finished (Some (O_lennard_jones_isometric_asymptotic_reduced_legendre.nondimensional_helmholtz_free_energy r nondimensional_end_to_end_length_per_link temperature))) nondimensional_end_to_end_length_per_link)
  /\ (forall (nondimensional_end_to_end_length_per_link : jarray T) (temperature : T),
     J_lennard_jones_isometric_asymptotic_reduced_legendre.nondimensional_helmholtz_free_energy_per_link j nondimensional_end_to_end_length_per_link temperature
     = broadcast [Float64] (fun nondimensional_end_to_end_length_per_link =>
         Finished (Some (O_lennard_jones_isometric_asymptotic_reduced_legendre.nondimensional_helmholtz_free_energy_per_link r nondimensional_end_to_end_length_per_link temperature))) nondimensional_end_to_end_length_per_link)
  /\ (forall (nondimensional_end_to_end_length_per_link : jarray T) (temperature : T),
     J_lennard_jones_isometric_asymptotic_reduced_legendre.nondimensional_relative_helmholtz_free_energy j nondimensional_end_to_end_length_per_link temperature
     = broadcast [Float64] (fun nondimensional_end_to_end_length_per_link =>
         Finished (Some (O_lennard_jones_isometric_asymptotic_reduced_legendre.nondimensional_relative_helmholtz_free_energy r nondimensional_end_to_end_length_per_link temperature))) nondimensional_end_to_end_length_per_link)
  /\ (forall (nondimensional_end_to_end_length_per_link : jarray T) (temperature : T),
     J_lennard_jones_isometric_asymptotic_reduced_legendre.nondimensional_relative_helmholtz_free_energy_per_link j nondimensional_end_to_end_length_per_link temperature
     = broadcast [Float64] (fun nondimensional_end_to_end_length_per_link =>
         Finished (Some (O_lennard_jones_isometric_asymptotic_reduced_legendre.nondimensional_relative_helmholtz_free_energy_per_link r nondimensional_end_to_end_length_per_link temperature))) nondimensional_end_to_end_length_per_link).
Proof. intros T Sc number_of_links link_length hinge_mass link_stiffness j r.
  split; [reflexivity|].
  split; [reflexivity|].
  split; [reflexivity|].
  split; [reflexivity|].
  split; [intros; cbv [j J_lennard_jones_isometric_asymptotic_reduced_legendre.init J_lennard_jones_isometric_asymptotic_reduced_legendre.force]; rewrite F_lennard_jones_isometric_asymptotic_reduced_legendre_force; unfold O_lennard_jones_isometric_asymptotic_reduced_legendre.force; broadcast_numbers|].
  split; [intros; cbv [j J_lennard_jones_isometric_asymptotic_reduced_legendre.init J_lennard_jones_isometric_asymptotic_reduced_legendre.nondimensional_force]; rewrite F_lennard_jones_isometric_asymptotic_reduced_legendre_nondimensional_force; unfold O_lennard_jones_isometric_asymptotic_reduced_legendre.nondimensional_force; broadcast_numbers|].
  split; [intros; cbv [j J_lennard_jones_isometric_asymptotic_reduced_legendre.init J_lennard_jones_isometric_asymptotic_reduced_legendre.helmholtz_free_energy]; rewrite F_lennard_jones_isometric_asymptotic_reduced_legendre_helmholtz_free_energy; unfold O_lennard_jones_isometric_asymptotic_reduced_legendre.helmholtz_free_energy; broadcast_numbers|].
  split; [intros; cbv [j J_lennard_jones_isometric_asymptotic_reduced_legendre.init J_lennard_jones_isometric_asymptotic_reduced_legendre.helmholtz_free_energy_per_link]; rewrite F_lennard_jones_isometric_asymptotic_reduced_legendre_helmholtz_free_energy_per_link; unfold O_lennard_jones_isometric_asymptotic_reduced_legendre.helmholtz_free_energy_per_link; broadcast_numbers|].
  split; [intros; cbv [j J_lennard_jones_isometric_asymptotic_reduced_legendre.init J_lennard_jones_isometric_asymptotic_reduced_legendre.relative_helmholtz_free_energy]; rewrite F_lennard_jones_isometric_asymptotic_reduced_legendre_relative_helmholtz_free_energy; unfold O_lennard_jones_isometric_asymptotic_reduced_legendre.relative_helmholtz_free_energy; broadcast_numbers|].
  split; [intros; cbv [j J_lennard_jones_isometric_asymptotic_reduced_legendre.init J_lennard_jones_isometric_asymptotic_reduced_legendre.relative_helmholtz_free_energy_per_link]; rewrite F_lennard_jones_isometric_asymptotic_reduced_legendre_relative_helmholtz_free_energy_per_link; unfold O_lennard_jones_isometric_asymptotic_reduced_legendre.relative_helmholtz_free_energy_per_link; broadcast_numbers|].
  split; [intros; cbv [j J_lennard_jones_isometric_asymptotic_reduced_legendre.init J_lennard_jones_isometric_asymptotic_reduced_legendre.nondimensional_helmholtz_free_energy]; rewrite F_lennard_jones_isometric_asymptotic_reduced_legendre_nondimensional_helmholtz_free_energy; unfold O_lennard_jones_isometric_asymptotic_reduced_legendre.nondimensional_helmholtz_free_energy; broadcast_numbers|].
  split; [intros; cbv [j J_lennard_jones_isometric_asymptotic_reduced_legendre.init J_lennard_jones_isometric_asymptotic_reduced_legendre.nondimensional_helmholtz_free_energy_per_link]; rewrite F_lennard_jones_isometric_asymptotic_reduced_legendre_nondimensional_helmholtz_free_energy_per_link; unfold O_lennard_jones_isometric_asymptotic_reduced_legendre.nondimensional_helmholtz_free_energy_per_link; broadcast_numbers|].
  split; [intros; cbv [j J_lennard_jones_isometric_asymptotic_reduced_legendre.init J_lennard_jones_isometric_asymptotic_reduced_legendre.nondimensional_relative_helmholtz_free_energy]; rewrite F_lennard_jones_isometric_asymptotic_reduced_legendre_nondimensional_relative_helmholtz_free_energy; unfold O_lennard_jones_isometric_asymptotic_reduced_legendre.nondimensional_relative_helmholtz_free_energy; broadcast_numbers|].
  intros; cbv [j J_lennard_jones_isometric_asymptotic_reduced_legendre.init J_lennard_jones_isometric_asymptotic_reduced_legendre.nondimensional_relative_helmholtz_free_energy_per_link]; rewrite F_lennard_jones_isometric_asymptotic_reduced_legendre_nondimensional_relative_helmholtz_free_energy_per_link; unfold O_lennard_jones_isometric_asymptotic_reduced_legendre.nondimensional_relative_helmholtz_free_energy_per_link; broadcast_numbers.
Qed.
Print Assumptions C61_object_lennard_jones_isometric_asymptotic_reduced_legendre.

Theorem C61_functions_lennard_jones_isotensional_asymptotic_reduced_legendre : forall (T : Type) (Sc : Scalar T),
  (forall (number_of_links : jarray Z) (link_length : jarray T) (hinge_mass : jarray T) (link_stiffness : jarray T) (force : jarray T) (temperature : jarray T),
     jl_lennard_jones_isotensional_asymptotic_reduced_legendre.helmholtz_free_energy number_of_links link_length hinge_mass link_stiffness force temperature
     = broadcast [UInt8; Float64; Float64; Float64; Float64; Float64] (fun number_of_links link_length hinge_mass link_stiffness force temperature =>
         Finished (Some (lennard_jones_isotensional_asymptotic_reduced_legendre.helmholtz_free_energy number_of_links link_length hinge_mass link_stiffness force temperature))) number_of_links link_length hinge_mass link_stiffness force temperature)
  /\ (forall (link_length : jarray T) (hinge_mass : jarray T) (link_stiffness : jarray T) (force : jarray T) (temperature : jarray T),
     jl_lennard_jones_isotensional_asymptotic_reduced_legendre.helmholtz_free_energy_per_link link_length hinge_mass link_stiffness force temperature
     = broadcast [Float64; Float64; Float64; Float64; Float64] (fun link_length hinge_mass link_stiffness force temperature =>
         Finished (Some (lennard_jones_isotensional_asymptotic_reduced_legendre.helmholtz_free_energy_per_link link_length hinge_mass link_stiffness force temperature))) link_length hinge_mass link_stiffness force temperature)
  /\ (forall (number_of_links : jarray Z) (link_length : jarray T) (link_stiffness : jarray T) (force : jarray T) (temperature : jarray T),
     jl_lennard_jones_isotensional_asymptotic_reduced_legendre.relative_helmholtz_free_energy number_of_links link_length link_stiffness force temperature
     = broadcast [UInt8; Float64; Float64; Float64; Float64] (fun number_of_links link_length link_stiffness force temperature =>
         Finished (Some (lennard_jones_isotensional_asymptotic_reduced_legendre.relative_helmholtz_free_energy number_of_links link_length link_stiffness force temperature))) number_of_links link_length link_stiffness force temperature)
  /\ (forall (link_length : jarray T) (link_stiffness : jarray T) (force : jarray T) (temperature : jarray T),
     jl_lennard_jones_isotensional_asymptotic_reduced_legendre.relative_helmholtz_free_energy_per_link link_length link_stiffness force temperature
     = broadcast [Float64; Float64; Float64; Float64] (fun link_length link_stiffness force temperature =>
         Finished (Some (lennard_jones_isotensional_asymptotic_reduced_legendre.relative_helmholtz_free_energy_per_link link_length link_stiffness force temperature))) link_length link_stiffness force temperature)
  /\ (forall (number_of_links : jarray Z) (link_length : jarray T) (hinge_mass : jarray T) (nondimensional_link_stiffness : jarray T) (nondimensional_force : jarray T) (temperature : jarray T),
     jl_lennard_jones_isotensional_asymptotic_reduced_legendre.nondimensional_helmholtz_free_energy number_of_links link_length hinge_mass nondimensional_link_stiffness nondimensional_force temperature
     = broadcast [UInt8; Float64; Float64; Float64; Float64; Float64] (fun number_of_links link_length hinge_mass nondimensional_link_stiffness nondimensional_force temperature =>
         Finished (Some (lennard_jones_isotensional_asymptotic_reduced_legendre.nondimensional_helmholtz_free_energy number_of_links link_length hinge_mass nondimensional_link_stiffness nondimensional_force temperature))) number_of_links link_length hinge_mass nondimensional_link_stiffness nondimensional_force temperature)
  /\ (forall (link_length : jarray T) (hinge_mass : jarray T) (nondimensional_link_stiffness : jarray T) (nondimensional_force : jarray T) (temperature : jarray T),
     jl_lennard_jones_isotensional_asymptotic_reduced_legendre.nondimensional_helmholtz_free_energy_per_link link_length hinge_mass nondimensional_link_stiffness nondimensional_force temperature
     = broadcast [Float64; Float64; Float64; Float64; Float64] (fun link_length hinge_mass nondimensional_link_stiffness nondimensional_force temperature =>
         Finished (Some (lennard_jones_isotensional_asymptotic_reduced_legendre.nondimensional_helmholtz_free_energy_per_link link_length hinge_mass nondimensional_link_stiffness nondimensional_force temperature))) link_length hinge_mass nondimensional_link_stiffness nondimensional_force temperature)
  /\ (forall (number_of_links : jarray Z) (nondimensional_link_stiffness : jarray T) (nondimensional_force : jarray T),
     jl_lennard_jones_isotensional_asymptotic_reduced_legendre.nondimensional_relative_helmholtz_free_energy number_of_links nondimensional_link_stiffness nondimensional_force
     = broadcast [UInt8; Float64; Float64] (fun number_of_links nondimensional_link_stiffness nondimensional_force =>
         Finished (Some (lennard_jones_isotensional_asymptotic_reduced_legendre.nondimensional_relative_helmholtz_free_energy number_of_links nondimensional_link_stiffness nondimensional_force))) number_of_links nondimensional_link_stiffness nondimensional_force)
  /\ (forall (nondimensional_link_stiffness : jarray T) (nondimensional_force : jarray T),
     jl_lennard_jones_isotensional_asymptotic_reduced_legendre.nondimensional_relative_helmholtz_free_energy_per_link nondimensional_link_stiffness nondimensional_force
     = broadcast [Float64; Float64] (fun nondimensional_link_stiffness nondimensional_force =>
         Finished (Some (lennard_jones_isotensional_asymptotic_reduced_legendre.nondimensional_relative_helmholtz_free_energy_per_link nondimensional_link_stiffness nondimensional_force))) nondimensional_link_stiffness nondimensional_force).
Proof.
  exact (fun T Sc => conj (@F_lennard_jones_isotensional_asymptotic_reduced_legendre_helmholtz_free_energy T Sc)
    (conj (@F_lennard_jones_isotensional_asymptotic_reduced_legendre_helmholtz_free_energy_per_link T Sc)
    (conj (@F_lennard_jones_isotensional_asymptotic_reduced_legendre_relative_helmholtz_free_energy T Sc)
    (conj (@F_lennard_jones_isotensional_asymptotic_reduced_legendre_relative_helmholtz_free_energy_per_link T Sc)
    (conj (@F_lennard_jones_isotensional_asymptotic_reduced_legendre_nondimensional_helmholtz_free_energy T Sc)
    (conj (@F_lennard_jones_isotensional_asymptotic_reduced_legendre_nondimensional_helmholtz_free_energy_per_link T Sc)
    (conj (@F_lennard_jones_isotensional_asymptotic_reduced_legendre_nondimensional_relative_helmholtz_free_energy T Sc)
    (@F_lennard_jones_isotensional_asymptotic_reduced_legendre_nondimensional_relative_helmholtz_free_energy_per_link T Sc)))))))).
Qed.
Print Assumptions C61_functions_lennard_jones_isotensional_asymptotic_reduced_legendre.

Theorem C61_object_lennard_jones_isotensional_asymptotic_reduced_legendre : forall (T : Type) (Sc : Scalar T) (number_of_links : Z) (link_length : T) (hinge_mass : T) (link_stiffness : T),
  let j := J_lennard_jones_isotensional_asymptotic_reduced_legendre.init number_of_links link_length hinge_mass link_stiffness in
  let r := O_lennard_jones_isotensional_asymptotic_reduced_legendre.init number_of_links link_length hinge_mass link_stiffness in
  J_lennard_jones_isotensional_asymptotic_reduced_legendre.number_of_links j = O_lennard_jones_isotensional_asymptotic_reduced_legendre.number_of_links r
  /\ J_lennard_jones_isotensional_asymptotic_reduced_legendre.link_length j = O_lennard_jones_isotensional_asymptotic_reduced_legendre.link_length r
  /\ J_lennard_jones_isotensional_asymptotic_reduced_legendre.hinge_mass j = O_lennard_jones_isotensional_asymptotic_reduced_legendre.hinge_mass r
  /\ J_lennard_jones_isotensional_asymptotic_reduced_legendre.link_stiffness j = O_lennard_jones_isotensional_asymptotic_reduced_legendre.link_stiffness r
  /\ (forall (force : jarray T) (temperature : jarray T),
     J_lennard_jones_isotensional_asymptotic_reduced_legendre.helmholtz_free_energy j force temperature
     = broadcast [Float64; Float64] (fun force temperature =>
         Finished (Some (O_lennard_jones_isotensional_asymptotic_reduced_legendre.helmholtz_free_energy r force temperature))) force temperature)
  /\ (forall (force : jarray T) (temperature : jarray T),
     J_lennard_jones_isotensional_asymptotic_reduced_legendre.helmholtz_free_energy_per_link j force temperature
     = broadcast [Float64; Float64] (fun force temperature =>
         Finished (Some (O_lennard_jones_isotensional_asymptotic_reduced_legendre.helmholtz_free_energy_per_link r force temperature))) force temperature)
  /\ (forall (force : jarray T) (temperature : jarray T),
     J_lennard_jones_isotensional_asymptotic_reduced_legendre.relative_helmholtz_free_energy j force temperature
     = broadcast [Float64; Float64] (fun force temperature =>
         Finished (Some (O_lennard_jones_isotensional_asymptotic_reduced_legendre.relative_helmholtz_free_energy r force temperature))) force temperature)
  /\ (forall (force : jarray T) (temperature : jarray T),
     J_lennard_jones_isotensional_asymptotic_reduced_legendre.relative_helmholtz_free_energy_per_link j force temperature
     = broadcast [Float64; Float64] (fun force temperature =>
         Finished (Some (O_lennard_jones_isotensional_asymptotic_reduced_legendre.relative_helmholtz_free_energy_per_link r force temperature))) force temperature)
  /\ (forall (nondimensional_force : jarray T) (temperature : T),
     J_lennard_jones_isotensional_asymptotic_reduced_legendre.nondimensional_helmholtz_free_energy j nondimensional_force temperature
     = broadcast [Float64] (fun nondimensional_force =>
         Finished (Some (O_lennard_jones_isotensional_asymptotic_reduced_legendre.nondimensional_helmholtz_free_energy r nondimensional_force temperature))) nondimensional_force)
  /\ (forall (nondimensional_force : jarray T) (temperature : T),
     J_lennard_jones_isotensional_asymptotic_reduced_legendre.nondimensional_helmholtz_free_energy_per_link j nondimensional_force temperature
     = broadcast [Float64] (fun nondimensional_force =>
         Finished (Some (O_lennard_jones_isotensional_asymptotic_reduced_legendre.nondimensional_helmholtz_free_energy_per_link r nondimensional_force temperature))) nondimensional_force)
  /\ (forall (nondimensional_force : jarray T) (temperature : T),
     J_lennard_jones_isotensional_asymptotic_reduced_legendre.nondimensional_relative_helmholtz_free_energy j nondimensional_force temperature
     = broadcast [Float64] (fun nondimensional_force =>
         Finished (Some (O_lennard_jones_isotensional_asymptotic_reduced_legendre.nondimensional_relative_helmholtz_free_energy r nondimensional_force temperature))) nondimensional_force)
  /\ (forall (nondimensional_force : jarray T) (temperature : T),
     J_lennard_jones_isotensional_asymptotic_reduced_legendre.nondimensional_relative_helmholtz_free_energy_per_link j nondimensional_force temperature
     = broadcast [Float64] (fun nondimensional_force =>
         Finished (Some (O_lennard_jones_isotensional_asymptotic_reduced_legendre.nondimensional_relative_helmholtz_free_energy_per_link r nondimensional_force temperature))) nondimensional_force).
Proof. intros T Sc number_of_links link_length hinge_mass link_stiffness j r.
  split; [reflexivity|].
  split; [reflexivity|].
  split; [reflexivity|].
  split; [reflexivity|].
  split; [intros; cbv [j J_lennard_jones_isotensional_asymptotic_reduced_legendre.init J_lennard_jones_isotensional_asymptotic_reduced_legendre.helmholtz_free_energy]; rewrite F_lennard_jones_isotensional_asymptotic_reduced_legendre_helmholtz_free_energy; unfold O_lennard_jones_isotensional_asymptotic_reduced_legendre.helmholtz_free_energy; broadcast_numbers|].
  split; [intros; cbv [j J_lennard_jones_isotensional_asymptotic_reduced_legendre.init J_lennard_jones_isotensional_asymptotic_reduced_legendre.helmholtz_free_energy_per_link]; rewrite F_lennard_jones_isotensional_asymptotic_reduced_legendre_helmholtz_free_energy_per_link; unfold O_lennard_jones_isotensional_asymptotic_reduced_legendre.helmholtz_free_energy_per_link; broadcast_numbers|].
  split; [intros; cbv [j J_lennard_jones_isotensional_asymptotic_reduced_legendre.init J_lennard_jones_isotensional_asymptotic_reduced_legendre.relative_helmholtz_free_energy]; rewrite F_lennard_jones_isotensional_asymptotic_reduced_legendre_relative_helmholtz_free_energy; unfold O_lennard_jones_isotensional_asymptotic_reduced_legendre.relative_helmholtz_free_energy; broadcast_numbers|].
  split; [intros; cbv [j J_lennard_jones_isotensional_asymptotic_reduced_legendre.init J_lennard_jones_isotensional_asymptotic_reduced_legendre.relative_helmholtz_free_energy_per_link]; rewrite F_lennard_jones_isotensional_asymptotic_reduced_legendre_relative_helmholtz_free_energy_per_link; unfold O_lennard_jones_isotensional_asymptotic_reduced_legendre.relative_helmholtz_free_energy_per_link; broadcast_numbers|].
  split; [intros; cbv [j J_lennard_jones_isotensional_asymptotic_reduced_legendre.init J_lennard_jones_isotensional_asymptotic_reduced_legendre.nondimensional_helmholtz_free_energy]; rewrite F_lennard_jones_isotensional_asymptotic_reduced_legendre_nondimensional_helmholtz_free_energy; unfold O_lennard_jones_isotensional_asymptotic_reduced_legendre.nondimensional_helmholtz_free_energy; broadcast_numbers|].
  split; [intros; cbv [j J_lennard_jones_isotensional_asymptotic_reduced_legendre.init J_lennard_jones_isotensional_asymptotic_reduced_legendre.nondimensional_helmholtz_free_energy_per_link]; rewrite F_lennard_jones_isotensional_asymptotic_reduced_legendre_nondimensional_helmholtz_free_energy_per_link; unfold O_lennard_jones_isotensional_asymptotic_reduced_legendre.nondimensional_helmholtz_free_energy_per_link; broadcast_numbers|].
  split; [intros; cbv [j J_lennard_jones_isotensional_asymptotic_reduced_legendre.init J_lennard_jones_isotensional_asymptotic_reduced_legendre.nondimensional_relative_helmholtz_free_energy]; rewrite F_lennard_jones_isotensional_asymptotic_reduced_legendre_nondimensional_relative_helmholtz_free_energy; unfold O_lennard_jones_isotensional_asymptotic_reduced_legendre.nondimensional_relative_helmholtz_free_energy; broadcast_numbers|].
  intros; cbv [j J_lennard_jones_isotensional_asymptotic_reduced_legendre.init J_lennard_jones_isotensional_asymptotic_reduced_legendre.nondimensional_relative_helmholtz_free_energy_per_link]; rewrite F_lennard_jones_isotensional_asymptotic_reduced_legendre_nondimensional_relative_helmholtz_free_energy_per_link; unfold O_lennard_jones_isotensional_asymptotic_reduced_legendre.nondimensional_relative_helmholtz_free_energy_per_link; broadcast_numbers.
Qed.
Print Assumptions C61_object_lennard_jones_isotensional_asymptotic_reduced_legendre.

Theorem C61_functions_log_squared_isometric_asymptotic_reduced_legendre : forall (T : Type) (Sc : Scalar T),
  (forall (number_of_links : jarray Z) (link_length : jarray T) (link_stiffness : jarray T) (end_to_end_length : jarray T) (temperature : jarray T),
     jl_log_squared_isometric_asymptotic_reduced_legendre.force number_of_links link_length link_stiffness end_to_end_length temperature
     = broadcast [UInt8; Float64; Float64; Float64; Float64] (fun number_of_links link_length link_stiffness end_to_end_length temperature =>
         Finished (Some (log_squared_isometric_asymptotic_reduced_legendre.force number_of_links link_length link_stiffness end_to_end_length temperature))) number_of_links link_length link_stiffness end_to_end_length temperature)
  /\ (forall (nondimensional_link_stiffness : jarray T) (nondimensional_end_to_end_length_per_link : jarray T),
     jl_log_squared_isometric_asymptotic_reduced_legendre.nondimensional_force nondimensional_link_stiffness nondimensional_end_to_end_length_per_link
     = broadcast [Float64; Float64] (fun nondimensional_link_stiffness nondimensional_end_to_end_length_per_link =>
         Finished (Some (log_squared_isometric_asymptotic_reduced_legendre.nondimensional_force nondimensional_link_stiffness nondimensional_end_to_end_length_per_link))) nondimensional_link_stiffness nondimensional_end_to_end_length_per_link)
  /\ (forall (number_of_links : jarray Z) (link_length : jarray T) (hinge_mass : jarray T) (link_stiffness : jarray T) (end_to_end_length : jarray T) (temperature : jarray T),
     jl_log_squared_isometric_asymptotic_reduced_legendre.helmholtz_free_energy number_of_links link_length hinge_mass link_stiffness end_to_end_length temperature
     = broadcast [UInt8; Float64; Float64; Float64; Float64; Float64] (fun number_of_links link_length hinge_mass link_stiffness end_to_end_length temperature =>
         Finished (Some (log_squared_isometric_asymptotic_reduced_legendre.helmholtz_free_energy number_of_links link_length hinge_mass link_stiffness end_to_end_length temperature))) number_of_links link_length hinge_mass link_stiffness end_to_end_length temperature)
  /\ (forall (number_of_links : jarray Z) (link_length : jarray T) (hinge_mass : jarray T) (link_stiffness : jarray T) (end_to_end_length : jarray T) (temperature : jarray T),
     jl_log_squared_isometric_asymptotic_reduced_legendre.helmholtz_free_energy_per_link number_of_links link_length hinge_mass link_stiffness end_to_end_length temperature
     = broadcast [UInt8; Float64; Float64; Float64; Float64; Float64] (fun number_of_links link_length hinge_mass link_stiffness end_to_end_length temperature =>
         Finished (Some (log_squared_isometric_asymptotic_reduced_legendre.helmholtz_free_energy_per_link number_of_links link_length hinge_mass link_stiffness end_to_end_length temperature))) number_of_links link_length hinge_mass link_stiffness end_to_end_length temperature)
  /\ (forall (number_of_links : jarray Z) (link_length : jarray T) (link_stiffness : jarray T) (end_to_end_length : jarray T) (temperature : jarray T),
     jl_log_squared_isometric_asymptotic_reduced_legendre.relative_helmholtz_free_energy number_of_links link_length link_stiffness end_to_end_length temperature
     = broadcast [UInt8; Float64; Float64; Float64; Float64] (fun number_of_links link_length link_stiffness end_to_end_length temperature =>
         Finished (Some (log_squared_isometric_asymptotic_reduced_legendre.relative_helmholtz_free_energy number_of_links link_length link_stiffness end_to_end_length temperature))) number_of_links link_length link_stiffness end_to_end_length temperature)
  /\ (forall (number_of_links : jarray Z) (link_length : jarray T) (link_stiffness : jarray T) (end_to_end_length : jarray T) (temperature : jarray T),
     jl_log_squared_isometric_asymptotic_reduced_legendre.relative_helmholtz_free_energy_per_link number_of_links link_length link_stiffness end_to_end_length temperature
     = broadcast [UInt8; Float64; Float64; Float64; Float64] (fun number_of_links link_length link_stiffness end_to_end_length temperature =>
         Finished (Some (log_squared_isometric_asymptotic_reduced_legendre.relative_helmholtz_free_energy_per_link number_of_links link_length link_stiffness end_to_end_length temperature))) number_of_links link_length link_stiffness end_to_end_length temperature)
  /\ (forall (number_of_links : jarray Z) (link_length : jarray T) (hinge_mass : jarray T) (nondimensional_link_stiffness : jarray T) (nondimensional_end_to_end_length_per_link : jarray T) (temperature : jarray T),
     jl_log_squared_isometric_asymptotic_reduced_legendre.nondimensional_helmholtz_free_energy number_of_links link_length hinge_mass nondimensional_link_stiffness nondimensional_end_to_end_length_per_link temperature
     = broadcast [UInt8; Float64; Float64; Float64; Float64; Float64] (fun number_of_links link_length hinge_mass nondimensional_link_stiffness nondimensional_end_to_end_length_per_link temperature =>
         Finished (Some (log_squared_isometric_asymptotic_reduced_legendre.nondimensional_helmholtz_free_energy number_of_links link_length hinge_mass nondimensional_link_stiffness nondimensional_end_to_end_length_per_link temperature))) number_of_links link_length hinge_mass nondimensional_link_stiffness nondimensional_end_to_end_length_per_link temperature)
  /\ (forall (number_of_links : jarray Z) (link_length : jarray T) (hinge_mass : jarray T) (nondimensional_link_stiffness : jarray T) (nondimensional_end_to_end_length_per_link : jarray T) (temperature : jarray T),
     jl_log_squared_isometric_asymptotic_reduced_legendre.nondimensional_helmholtz_free_energy_per_link number_of_links link_length hinge_mass nondimensional_link_stiffness nondimensional_end_to_end_length_per_link temperature
     = broadcast [UInt8; Float64; Float64; Float64; Float64; Float64] (fun number_of_links link_length hinge_mass nondimensional_link_stiffness nondimensional_end_to_end_length_per_link temperature =>
         Finished (Some (log_squared_isometric_asymptotic_reduced_legendre.nondimensional_helmholtz_free_energy_per_link number_of_links link_length hinge_mass nondimensional_link_stiffness nondimensional_end_to_end_length_per_link temperature))) number_of_links link_length hinge_mass nondimensional_link_stiffness nondimensional_end_to_end_length_per_link temperature)
  /\ (forall (number_of_links : jarray Z) (nondimensional_link_stiffness : jarray T) (nondimensional_end_to_end_length_per_link : jarray T),
     jl_log_squared_isometric_asymptotic_reduced_legendre.nondimensional_relative_helmholtz_free_energy number_of_links nondimensional_link_stiffness nondimensional_end_to_end_length_per_link
     = broadcast [UInt8; Float64; Float64] (fun number_of_links nondimensional_link_stiffness nondimensional_end_to_end_length_per_link =>
         Finished (Some (log_squared_isometric_asymptotic_reduced_legendre.nondimensional_relative_helmholtz_free_energy number_of_links nondimensional_link_stiffness nondimensional_end_to_end_length_per_link))) number_of_links nondimensional_link_stiffness nondimensional_end_to_end_length_per_link)
  /\ (forall (nondimensional_link_stiffness : jarray T) (nondimensional_end_to_end_length_per_link : jarray T),
     jl_log_squared_isometric_asymptotic_reduced_legendre.nondimensional_relative_helmholtz_free_energy_per_link nondimensional_link_stiffness nondimensional_end_to_end_length_per_link
     = broadcast [Float64; Float64] (fun nondimensional_link_stiffness nondimensional_end_to_end_length_per_link =>
         Finished (Some (log_squared_isometric_asymptotic_reduced_legendre.nondimensional_relative_helmholtz_free_energy_per_link nondimensional_link_stiffness nondimensional_end_to_end_length_per_link))) nondimensional_link_stiffness nondimensional_end_to_end_length_per_link).
Proof.
  exact (fun T Sc => conj (@F_log_squared_isometric_asymptotic_reduced_legendre_force T Sc)
    (conj (@F_log_squared_isometric_asymptotic_reduced_legendre_nondimensional_force T Sc)
    (conj (@F_log_squared_isometric_asymptotic_reduced_legendre_helmholtz_free_energy T Sc)
    (conj (@F_log_squared_isometric_asymptotic_reduced_legendre_helmholtz_free_energy_per_link T Sc)
    (conj (@F_log_squared_isometric_asymptotic_reduced_legendre_relative_helmholtz_free_energy T Sc)
    (conj (@F_log_squared_isometric_asymptotic_reduced_legendre_relative_helmholtz_free_energy_per_link T Sc)
    (conj (@F_log_squared_isometric_asymptotic_reduced_legendre_nondimensional_helmholtz_free_energy T Sc)
    (conj (@F_log_squared_isometric_asymptotic_reduced_legendre_nondimensional_helmholtz_free_energy_per_link T Sc)
    (conj (@F_log_squared_isometric_asymptotic_reduced_legendre_nondimensional_relative_helmholtz_free_energy T Sc)
    (@F_log_squared_isometric_asymptotic_reduced_legendre_nondimensional_relative_helmholtz_free_energy_per_link T Sc)))))))))).
Qed.
Print Assumptions C61_functions_log_squared_isometric_asymptotic_reduced_legendre.

Theorem C61_object_log_squared_isometric_asymptotic_reduced_legendre : forall (T : Type) (Sc : Scalar T) (number_of_links : Z) (link_length : T) (hinge_mass : T) (link_stiffness : T),
  let j := J_log_squared_isometric_asymptotic_reduced_legendre.init number_of_links link_length hinge_mass link_stiffness in
  let r := O_log_squared_isometric_asymptotic_reduced_legendre.init number_of_links link_length hinge_mass link_stiffness in
  J_log_squared_isometric_asymptotic_reduced_legendre.number_of_links j = O_log_squared_isometric_asymptotic_reduced_legendre.number_of_links r
  /\ J_log_squared_isometric_asymptotic_reduced_legendre.link_length j = O_log_squared_isometric_asymptotic_reduced_legendre.link_length r
  /\ J_log_squared_isometric_asymptotic_reduced_legendre.hinge_mass j = O_log_squared_isometric_asymptotic_reduced_legendre.hinge_mass r
  /\ J_log_squared_isometric_asymptotic_reduced_legendre.link_stiffness j = O_log_squared_isometric_asymptotic_reduced_legendre.link_stiffness r
  /\ (forall (end_to_end_length : jarray T) (temperature : jarray T),
     J_log_squared_isometric_asymptotic_reduced_legendre.force j end_to_end_length temperature
     = broadcast [Float64; Float64] (fun end_to_end_length temperature =>
         Finished (Some (O_log_squared_isometric_asymptotic_reduced_legendre.force r end_to_end_length temperature))) end_to_end_length temperature)
  /\ (forall (nondimensional_end_to_end_length_per_link : jarray T) (temperature : T),
     J_log_squared_isometric_asymptotic_reduced_legendre.nondimensional_force j nondimensional_end_to_end_length_per_link temperature
     = broadcast [Float64] (fun nondimensional_end_to_end_length_per_link =>
         Finished (Some (O_log_squared_isometric_asymptotic_reduced_legendre.nondimensional_force r nondimensional_end_to_end_length_per_link temperature))) nondimensional_end_to_end_length_per_link)
  /\ (forall (end_to_end_length : jarray T) (temperature : jarray T),
     J_log_squared_isometric_asymptotic_reduced_legendre.helmholtz_free_energy j end_to_end_length temperature
     = broadcast [Float64; Float64] (fun end_to_end_length temperature =>
         Finished (Some (O_log_squared_isometric_asymptotic_reduced_legendre.helmholtz_free_energy r end_to_end_length temperature))) end_to_end_length temperature)
  /\ (forall (end_to_end_length : jarray T) (temperature : jarray T),
     J_log_squared_isometric_asymptotic_reduced_legendre.helmholtz_free_energy_per_link j end_to_end_length temperature
     = broadcast [Float64; Float64] (fun end_to_end_length temperature =>
         Finished (Some (O_log_squared_isometric_asymptotic_reduced_legendre.helmholtz_free_energy_per_link r end_to_end_length temperature))) end_to_end_length temperature)
  /\ (forall (end_to_end_length : jarray T) (temperature : jarray T),
     J_log_squared_isometric_asymptotic_reduced_legendre.relative_helmholtz_free_energy j end_to_end_length temperature
     = broadcast [Float64; Float64] (fun end_to_end_length temperature =>
         Finished (Some (O_log_squared_isometric_asymptotic_reduced_legendre.relative_helmholtz_free_energy r end_to_end_length temperature))) end_to_end_length temperature)
  /\ (forall (end_to_end_length : jarray T) (temperature : jarray T),
     J_log_squared_isometric_asymptotic_reduced_legendre.relative_helmholtz_free_energy_per_link j end_to_end_length temperature
     = broadcast [Float64; Float64] (fun end_to_end_length temperature =>
         Finished (Some (O_log_squared_isometric_asymptotic_reduced_legendre.relative_helmholtz_free_energy_per_link r end_to_end_length temperature))) end_to_end_length temperature)
  /\ (forall (nondimensional_end_to_end_length_per_link : jarray T) (temperature : T),
     J_log_squared_isometric_asymptotic_reduced_legendre.nondimensional_helmholtz_free_energy j nondimensional_end_to_end_length_per_link temperature
     = broadcast [Float64] (fun nondimensional_end_to_end_length_per_link =>
         Finished (Some (O_log_squared_isometric_asymptotic_reduced_legendre.nondimensional_helmholtz_free_energy r nondimensional_end_to_end_length_per_link temperature))) nondimensional_end_to_end_length_per_link)
  /\ (forall (nondimensional_end_to_end_length_per_link : jarray T) (temperature : T),
     J_log_squared_isometric_asymptotic_reduced_legendre.nondimensional_helmholtz_free_energy_per_link j nondimensional_end_to_end_length_per_link temperature
     = broadcast [Float64] (fun nondimensional_end_to_end_length_per_link =>
         Finished (Some (O_log_squared_isometric_asymptotic_reduced_legendre.nondimensional_helmholtz_free_energy_per_link r nondimensional_end_to_end_length_per_link temperature))) nondimensional_end_to_end_length_per_link)
  /\ (forall (nondimensional_end_to_end_length_per_link : jarray T) (temperature : T),
     J_log_squared_isometric_asymptotic_reduced_legendre.nondimensional_relative_helmholtz_free_energy j nondimensional_end_to_end_length_per_link temperature
     = broadcast [Float64] (fun nondimensional_end_to_end_length_per_link =>
         Finished (Some (O_log_squared_isometric_asymptotic_reduced_legendre.nondimensional_relative_helmholtz_free_energy r nondimensional_end_to_end_length_per_link temperature))) nondimensional_end_to_end_length_per_link)
  /\ (forall (nondimensional_end_to_end_length_per_link : jarray T) (temperature : T),
     J_log_squared_isometric_asymptotic_reduced_legendre.nondimensional_relative_helmholtz_free_energy_per_link j nondimensional_end_to_end_length_per_link temperature
     = broadcast [Float64] (fun nondimensional_end_to_end_length_per_link =>
         Finished (Some (O_log_squared_isometric_asymptotic_reduced_legendre.nondimensional_relative_helmholtz_free_energy_per_link r nondimensional_end_to_end_length_per_link temperature))) nondimensional_end_to_end_length_per_link).
Proof. intros T Sc number_of_links link_length hinge_mass link_stiffness j r.
  split; [reflexivity|].
  split; [reflexivity|].
  split; [reflexivity|].
  split; [reflexivity|].
  split; [intros; cbv [j J_log_squared_isometric_asymptotic_reduced_legendre.init J_log_squared_isometric_asymptotic_reduced_legendre.force]; rewrite F_log_squared_isometric_asymptotic_reduced_legendre_force; unfold O_log_squared_isometric_asymptotic_reduced_legendre.force; broadcast_numbers|].
  split; [intros; cbv [j J_log_squared_isometric_asymptotic_reduced_legendre.init J_log_squared_isometric_asymptotic_reduced_legendre.nondimensional_force]; rewrite F_log_squared_isometric_asymptotic_reduced_legendre_nondimensional_force; unfold O_log_squared_isometric_asymptotic_reduced_legendre.nondimensional_force; broadcast_numbers|].
  split; [intros; cbv [j J_log_squared_isometric_asymptotic_reduced_legendre.init J_log_squared_isometric_asymptotic_reduced_legendre.helmholtz_free_energy]; rewrite F_log_squared_isometric_asymptotic_reduced_legendre_helmholtz_free_energy; unfold O_log_squared_isometric_asymptotic_reduced_legendre.helmholtz_free_energy; broadcast_numbers|].
  split; [intros; cbv [j J_log_squared_isometric_asymptotic_reduced_legendre.init J_log_squared_isometric_asymptotic_reduced_legendre.helmholtz_free_energy_per_link]; rewrite F_log_squared_isometric_asymptotic_reduced_legendre_helmholtz_free_energy_per_link; unfold O_log_squared_isometric_asymptotic_reduced_legendre.helmholtz_free_energy_per_link; broadcast_numbers|].
  split; [intros; cbv [j J_log_squared_isometric_asymptotic_reduced_legendre.init J_log_squared_isometric_asymptotic_reduced_legendre.relative_helmholtz_free_energy]; rewrite F_log_squared_isometric_asymptotic_reduced_legendre_relative_helmholtz_free_energy; unfold O_log_squared_isometric_asymptotic_reduced_legendre.relative_helmholtz_free_energy; broadcast_numbers|].
  split; [intros; cbv [j J_log_squared_isometric_asymptotic_reduced_legendre.init J_log_squared_isometric_asymptotic_reduced_legendre.relative_helmholtz_free_energy_per_link]; rewrite F_log_squared_isometric_asymptotic_reduced_legendre_relative_helmholtz_free_energy_per_link; unfold O_log_squared_isometric_asymptotic_reduced_legendre.relative_helmholtz_free_energy_per_link; broadcast_numbers|].
  split; [intros; cbv [j J_log_squared_isometric_asymptotic_reduced_legendre.init J_log_squared_isometric_asymptotic_reduced_legendre.nondimensional_helmholtz_free_energy]; rewrite F_log_squared_isometric_asymptotic_reduced_legendre_nondimensional_helmholtz_free_energy; unfold O_log_squared_isometric_asymptotic_reduced_legendre.nondimensional_helmholtz_free_energy; broadcast_numbers|].
  split; [intros; cbv [j J_log_squared_isometric_asymptotic_reduced_legendre.init J_log_squared_isometric_asymptotic_reduced_legendre.nondimensional_helmholtz_free_energy_per_link]; rewrite F_log_squared_isometric_asymptotic_reduced_legendre_nondimensional_helmholtz_free_energy_per_link; unfold O_log_squared_isometric_asymptotic_reduced_legendre.nondimensional_helmholtz_free_energy_per_link; broadcast_numbers|].
  split; [intros; cbv [j J_log_squared_isometric_asymptotic_reduced_legendre.init J_log_squared_isometric_asymptotic_reduced_legendre.nondimensional_relative_helmholtz_free_energy]; rewrite F_log_squared_isometric_asymptotic_reduced_legendre_nondimensional_relative_helmholtz_free_energy; unfold O_log_squared_isometric_asymptotic_reduced_legendre.nondimensional_relative_helmholtz_free_energy; broadcast_numbers|].
  intros; cbv [j J_log_squared_isometric_asymptotic_reduced_legendre.init J_log_squared_isometric_asymptotic_reduced_legendre.nondimensional_relative_helmholtz_free_energy_per_link]; rewrite F_log_squared_isometric_asymptotic_reduced_legendre_nondimensional_relative_helmholtz_free_energy_per_link; unfold O_log_squared_isometric_asymptotic_reduced_legendre.nondimensional_relative_helmholtz_free_energy_per_link; broadcast_numbers.
Qed.
Print Assumptions C61_object_log_squared_isometric_asymptotic_reduced_legendre.

Theorem C61_functions_log_squared_isotensional_asymptotic_reduced_legendre : forall (T : Type) (Sc : Scalar T),
  (forall (number_of_links : jarray Z) (link_length : jarray T) (hinge_mass : jarray T) (link_stiffness : jarray T) (force : jarray T) (temperature : jarray T),
     jl_log_squared_isotensional_asymptotic_reduced_legendre.helmholtz_free_energy number_of_links link_length hinge_mass link_stiffness force temperature
     = broadcast [UInt8; Float64; Float64; Float64; Float64; Float64] (fun number_of_links link_length hinge_mass link_stiffness force temperature =>
         Finished (Some (log_squared_isotensional_asymptotic_reduced_legendre.helmholtz_free_energy number_of_links link_length hinge_mass link_stiffness force temperature))) number_of_links link_length hinge_mass link_stiffness force temperature)
  /\ (forall (link_length : jarray T) (hinge_mass : jarray T) (link_stiffness : jarray T) (force : jarray T) (temperature : jarray T),
     jl_log_squared_isotensional_asymptotic_reduced_legendre.helmholtz_free_energy_per_link link_length hinge_mass link_stiffness force temperature
     = broadcast [Float64; Float64; Float64; Float64; Float64] (fun link_length hinge_mass link_stiffness force temperature =>
         Finished (Some (log_squared_isotensional_asymptotic_reduced_legendre.helmholtz_free_energy_per_link link_length hinge_mass link_stiffness force temperature))) link_length hinge_mass link_stiffness force temperature)
  /\ (forall (number_of_links : jarray Z) (link_length : jarray T) (link_stiffness : jarray T) (force : jarray T) (temperature : jarray T),
     jl_log_squared_isotensional_asymptotic_reduced_legendre.relative_helmholtz_free_energy number_of_links link_length link_stiffness force temperature
     = broadcast [UInt8; Float64; Float64; Float64; Float64] (fun number_of_links link_length link_stiffness force temperature =>
         Finished (Some (log_squared_isotensional_asymptotic_reduced_legendre.relative_helmholtz_free_energy number_of_links link_length link_stiffness force temperature))) number_of_links link_length link_stiffness force temperature)
  /\ (forall (link_length : jarray T) (link_stiffness : jarray T) (force : jarray T) (temperature : jarray T),
     jl_log_squared_isotensional_asymptotic_reduced_legendre.relative_helmholtz_free_energy_per_link link_length link_stiffness force temperature
     = broadcast [Float64; Float64; Float64; Float64] (fun link_length link_stiffness force temperature =>
         Finished (Some (log_squared_isotensional_asymptotic_reduced_legendre.relative_helmholtz_free_energy_per_link link_length link_stiffness force temperature))) link_length link_stiffness force temperature)
  /\ (forall (number_of_links : jarray Z) (link_length : jarray T) (hinge_mass : jarray T) (nondimensional_link_stiffness : jarray T) (nondimensional_force : jarray T) (temperature : jarray T),
     jl_log_squared_isotensional_asymptotic_reduced_legendre.nondimensional_helmholtz_free_energy number_of_links link_length hinge_mass nondimensional_link_stiffness nondimensional_force temperature
     = broadcast [UInt8; Float64; Float64; Float64; Float64; Float64] (fun number_of_links link_length hinge_mass nondimensional_link_stiffness nondimensional_force temperature =>
         Finished (Some (log_squared_isotensional_asymptotic_reduced_legendre.nondimensional_helmholtz_free_energy number_of_links link_length hinge_mass nondimensional_link_stiffness nondimensional_force temperature))) number_of_links link_length hinge_mass nondimensional_link_stiffness nondimensional_force temperature)
  /\ (forall (link_length : jarray T) (hinge_mass : jarray T) (nondimensional_link_stiffness : jarray T) (nondimensional_force : jarray T) (temperature : jarray T),
     jl_log_squared_isotensional_asymptotic_reduced_legendre.nondimensional_helmholtz_free_energy_per_link link_length hinge_mass nondimensional_link_stiffness nondimensional_force temperature
     = broadcast [Float64; Float64; Float64; Float64; Float64] (fun link_length hinge_mass nondimensional_link_stiffness nondimensional_force temperature =>
         Finished (Some (log_squared_isotensional_asymptotic_reduced_legendre.nondimensional_helmholtz_free_energy_per_link link_length hinge_mass nondimensional_link_stiffness nondimensional_force temperature))) link_length hinge_mass nondimensional_link_stiffness nondimensional_force temperature)
  /\ (forall (number_of_links : jarray Z) (nondimensional_link_stiffness : jarray T) (nondimensional_force : jarray T),
     jl_log_squared_isotensional_asymptotic_reduced_legendre.nondimensional_relative_helmholtz_free_energy number_of_links nondimensional_link_stiffness nondimensional_force
     = broadcast [UInt8; Float64; Float64] (fun number_of_links nondimensional_link_stiffness nondimensional_force =>
         Finished (Some (log_squared_isotensional_asymptotic_reduced_legendre.nondimensional_relative_helmholtz_free_energy number_of_links nondimensional_link_stiffness nondimensional_force))) number_of_links nondimensional_link_stiffness nondimensional_force)
  /\ (forall (nondimensional_link_stiffness : jarray T) (nondimensional_force : jarray T),
     jl_log_squared_isotensional_asymptotic_reduced_legendre.nondimensional_relative_helmholtz_free_energy_per_link nondimensional_link_stiffness nondimensional_force
     = broadcast [Float64; Float64] (fun nondimensional_link_stiffness nondimensional_force =>
         Finished (Some (log_squared_isotensional_asymptotic_reduced_legendre.nondimensional_relative_helmholtz_free_energy_per_link nondimensional_link_stiffness nondimensional_force))) nondimensional_link_stiffness nondimensional_force).
Proof.
  exact (fun T Sc => conj (@F_log_squared_isotensional_asymptotic_reduced_legendre_helmholtz_free_energy T Sc)
    (conj (@F_log_squared_isotensional_asymptotic_reduced_legendre_helmholtz_free_energy_per_link T Sc)
    (conj (@F_log_squared_isotensional_asymptotic_reduced_legendre_relative_helmholtz_free_energy T Sc)
    (conj (@F_log_squared_isotensional_asymptotic_reduced_legendre_relative_helmholtz_free_energy_per_link T Sc)
    (conj (@F_log_squared_isotensional_asymptotic_reduced_legendre_nondimensional_helmholtz_free_energy T Sc)
    (conj (@F_log_squared_isotensional_asymptotic_reduced_legendre_nondimensional_helmholtz_free_energy_per_link T Sc)
    (conj (@F_log_squared_isotensional_asymptotic_reduced_legendre_nondimensional_relative_helmholtz_free_energy T Sc)
    (@F_log_squared_isotensional_asymptotic_reduced_legendre_nondimensional_relative_helmholtz_free_energy_per_link T Sc)))))))).
Qed.
Print Assumptions C61_functions_log_squared_isotensional_asymptotic_reduced_legendre.

Theorem C61_object_log_squared_isotensional_asymptotic_reduced_legendre : forall (T : Type) (Sc : Scalar T) (number_of_links : Z) (link_length : T) (hinge_mass : T) (link_stiffness : T),
  let j := J_log_squared_isotensional_asymptotic_reduced_legendre.init number_of_links link_length hinge_mass link_stiffness in
  let r := O_log_squared_isotensional_asymptotic_reduced_legendre.init number_of_links link_length hinge_mass link_stiffness in
  J_log_squared_isotensional_asymptotic_reduced_legendre.number_of_links j = O_log_squared_isotensional_asymptotic_reduced_legendre.number_of_links r
  /\ J_log_squared_isotensional_asymptotic_reduced_legendre.link_length j = O_log_squared_isotensional_asymptotic_reduced_legendre.link_length r
  /\ J_log_squared_isotensional_asymptotic_reduced_legendre.hinge_mass j = O_log_squared_isotensional_asymptotic_reduced_legendre.hinge_mass r
  /\ J_log_squared_isotensional_asymptotic_reduced_legendre.link_stiffness j = O_log_squared_isotensional_asymptotic_reduced_legendre.link_stiffness r
  /\ (forall (force : jarray T) (temperature : jarray T),
     J_log_squared_isotensional_asymptotic_reduced_legendre.helmholtz_free_energy j force temperature
     = broadcast [Float64; Float64] (fun force temperature =>
         Finished (Some (O_log_squared_isotensional_asymptotic_reduced_legendre.helmholtz_free_energy r force temperature))) force temperature)
  /\ (forall (force : jarray T) (temperature : jarray T),
     J_log_squared_isotensional_asymptotic_reduced_legendre.helmholtz_free_energy_per_link j force temperature
     = broadcast [Float64; Float64] (fun force temperature =>
         Finished (Some (O_log_squared_isotensional_asymptotic_reduced_legendre.helmholtz_free_energy_per_link r force temperature))) force temperature)
  /\ (forall (force : jarray T) (temperature : jarray T),
     J_log_squared_isotensional_asymptotic_reduced_legendre.relative_helmholtz_free_energy j force temperature
     = broadcast [Float64; Float64] (fun force temperature =>
         Finished (Some (O_log_squared_isotensional_asymptotic_reduced_legendre.relative_helmholtz_free_energy r force temperature))) force temperature)
  /\ (forall (force : jarray T) (temperature : jarray T),
     J_log_squared_isotensional_asymptotic_reduced_legendre.relative_helmholtz_free_energy_per_link j force temperature
     = broadcast [Float64; Float64] (fun force temperature =>
         Finished (Some (O_log_squared_isotensional_asymptotic_reduced_legendre.relative_helmholtz_free_energy_per_link r force temperature))) force temperature)
  /\ (forall (nondimensional_force : jarray T) (temperature : T),
     J_log_squared_isotensional_asymptotic_reduced_legendre.nondimensional_helmholtz_free_energy j nondimensional_force temperature
     = broadcast [Float64] (fun nondimensional_force =>
         Finished (Some (O_log_squared_isotensional_asymptotic_reduced_legendre.nondimensional_helmholtz_free_energy r nondimensional_force temperature))) nondimensional_force)
  /\ (forall (nondimensional_force : jarray T) (temperature : T),
     J_log_squared_isotensional_asymptotic_reduced_legendre.nondimensional_helmholtz_free_energy_per_link j nondimensional_force temperature
     = broadcast [Float64] (fun nondimensional_force =>
         Finished (Some (O_log_squared_isotensional_asymptotic_reduced_legendre.nondimensional_helmholtz_free_energy_per_link r nondimensional_force temperature))) nondimensional_force)
  /\ (forall (nondimensional_force : jarray T) (temperature : T),
     J_log_squared_isotensional_asymptotic_reduced_legendre.nondimensional_relative_helmholtz_free_energy j nondimensional_force temperature
     = broadcast [Float64] (fun nondimensional_force =>
         Finished (Some (O_log_squared_isotensional_asymptotic_reduced_legendre.nondimensional_relative_helmholtz_free_energy r nondimensional_force temperature))) nondimensional_force)
  /\ (forall (nondimensional_force : jarray T) (temperature : T),
     J_log_squared_isotensional_asymptotic_reduced_legendre.nondimensional_relative_helmholtz_free_energy_per_link j nondimensional_force temperature
     = broadcast [Float64] (fun nondimensional_force =>
         Finished (Some (O_log_squared_isotensional_asymptotic_reduced_legendre.nondimensional_relative_helmholtz_free_energy_per_link r nondimensional_force temperature))) nondimensional_force).
Proof. intros T Sc number_of_links link_length hinge_mass link_stiffness j r.
  split; [reflexivity|].
  split; [reflexivity|].
  split; [reflexivity|].
  split; [reflexivity|].
  split; [intros; cbv [j J_log_squared_isotensional_asymptotic_reduced_legendre.init J_log_squared_isotensional_asymptotic_reduced_legendre.helmholtz_free_energy]; rewrite F_log_squared_isotensional_asymptotic_reduced_legendre_helmholtz_free_energy; unfold O_log_squared_isotensional_asymptotic_reduced_legendre.helmholtz_free_energy; broadcast_numbers|].
  split; [intros; cbv [j J_log_squared_isotensional_asymptotic_reduced_legendre.init J_log_squared_isotensional_asymptotic_reduced_legendre.helmholtz_free_energy_per_link]; rewrite F_log_squared_isotensional_asymptotic_reduced_legendre_helmholtz_free_energy_per_link; unfold O_log_squared_isotensional_asymptotic_reduced_legendre.helmholtz_free_energy_per_link; broadcast_numbers|].
  split; [intros; cbv [j J_log_squared_isotensional_asymptotic_reduced_legendre.init J_log_squared_isotensional_asymptotic_reduced_legendre.relative_helmholtz_free_energy]; rewrite F_log_squared_isotensional_asymptotic_reduced_legendre_relative_helmholtz_free_energy; unfold O_log_squared_isotensional_asymptotic_reduced_legendre.relative_helmholtz_free_energy; broadcast_numbers|].
  split; [intros; cbv [j J_log_squared_isotensional_asymptotic_reduced_legendre.init J_log_squared_isotensional_asymptotic_reduced_legendre.relative_helmholtz_free_energy_per_link]; rewrite F_log_squared_isotensional_asymptotic_reduced_legendre_relative_helmholtz_free_energy_per_link; unfold O_log_squared_isotensional_asymptotic_reduced_legendre.relative_helmholtz_free_energy_per_link; broadcast_numbers|].
  split; [intros; cbv [j J_log_squared_isotensional_asymptotic_reduced_legendre.init J_log_squared_isotensional_asymptotic_reduced_legendre.nondimensional_helmholtz_free_energy]; rewrite F_log_squared_isotensional_asymptotic_reduced_legendre_nondimensional_helmholtz_free_energy; unfold O_log_squared_isotensional_asymptotic_reduced_legendre.nondimensional_helmholtz_free_energy; broadcast_numbers|].
  split; [intros; cbv [j J_log_squared_isotensional_asymptotic_reduced_legendre.init J_log_squared_isotensional_asymptotic_reduced_legendre.nondimensional_helmholtz_free_energy_per_link]; rewrite F_log_squared_isotensional_asymptotic_reduced_legendre_nondimensional_helmholtz_free_energy_per_link; unfold O_log_squared_isotensional_asymptotic_reduced_legendre.nondimensional_helmholtz_free_energy_per_link; broadcast_numbers|].
  split; [intros; cbv [j J_log_squared_isotensional_asymptotic_reduced_legendre.init J_log_squared_isotensional_asymptotic_reduced_legendre.nondimensional_relative_helmholtz_free_energy]; rewrite F_log_squared_isotensional_asymptotic_reduced_legendre_nondimensional_relative_helmholtz_free_energy; unfold O_log_squared_isotensional_asymptotic_reduced_legendre.nondimensional_relative_helmholtz_free_energy; broadcast_numbers|].
  intros; cbv [j J_log_squared_isotensional_asymptotic_reduced_legendre.init J_log_squared_isotensional_asymptotic_reduced_legendre.nondimensional_relative_helmholtz_free_energy_per_link]; rewrite F_log_squared_isotensional_asymptotic_reduced_legendre_nondimensional_relative_helmholtz_free_energy_per_link; unfold O_log_squared_isotensional_asymptotic_reduced_legendre.nondimensional_relative_helmholtz_free_energy_per_link; broadcast_numbers.
Qed.
Print Assumptions C61_object_log_squared_isotensional_asymptotic_reduced_legendre.

Theorem C61_functions_morse_isometric_asymptotic_reduced_legendre : forall (T : Type) (Sc : Scalar T),
  (forall (number_of_links : jarray Z) (link_length : jarray T) (link_stiffness : jarray T) (link_energy : jarray T) (end_to_end_length : jarray T) (temperature : jarray T),
     jl_morse_isometric_asymptotic_reduced_legendre.force number_of_links link_length link_stiffness link_energy end_to_end_length temperature
     = broadcast [UInt8; Float64; Float64; Float64; Float64; Float64] (fun number_of_links link_length link_stiffness link_energy end_to_end_length temperature =>
         Finished (Some (morse_isometric_asymptotic_reduced_legendre.force number_of_links link_length link_stiffness link_energy end_to_end_length temperature))) number_of_links link_length link_stiffness link_energy end_to_end_length temperature)
  /\ (forall (nondimensional_link_stiffness : jarray T) (nondimensional_link_energy : jarray T) (nondimensional_end_to_end_length_per_link : jarray T),
     jl_morse_isometric_asymptotic_reduced_legendre.nondimensional_force nondimensional_link_stiffness nondimensional_link_energy nondimensional_end_to_end_length_per_link
     = broadcast [Float64; Float64; Float64] (fun nondimensional_link_stiffness nondimensional_link_energy nondimensional_end_to_end_length_per_link =>
         Finished (Some (morse_isometric_asymptotic_reduced_legendre.nondimensional_force nondimensional_link_stiffness nondimensional_link_energy nondimensional_end_to_end_length_per_link))) nondimensional_link_stiffness nondimensional_link_energy nondimensional_end_to_end_length_per_link)
  /\ (forall (number_of_links : jarray Z) (link_length : jarray T) (hinge_mass : jarray T) (link_stiffness : jarray T) (link_energy : jarray T) (end_to_end_length : jarray T) (temperature : jarray T),
     jl_morse_isometric_asymptotic_reduced_legendre.helmholtz_free_energy number_of_links link_length hinge_mass link_stiffness link_energy end_to_end_length temperature
     = broadcast [UInt8; Float64; Float64; Float64; Float64; Float64; Float64] (fun number_of_links link_length hinge_mass link_stiffness link_energy end_to_end_length temperature =>
         Finished (Some (morse_isometric_asymptotic_reduced_legendre.helmholtz_free_energy number_of_links link_length hinge_mass link_stiffness link_energy end_to_end_length temperature))) number_of_links link_length hinge_mass link_stiffness link_energy end_to_end_length temperature)
  /\ (forall (number_of_links : jarray Z) (link_length : jarray T) (hinge_mass : jarray T) (link_stiffness : jarray T) (link_energy : jarray T) (end_to_end_length : jarray T) (temperature : jarray T),
     jl_morse_isometric_asymptotic_reduced_legendre.helmholtz_free_energy_per_link number_of_links link_length hinge_mass link_stiffness link_energy end_to_end_length temperature
     = broadcast [UInt8; Float64; Float64; Float64; Float64; Float64; Float64] (fun number_of_links link_length hinge_mass link_stiffness link_energy end_to_end_length temperature =>
         Finished (Some (morse_isometric_asymptotic_reduced_legendre.helmholtz_free_energy_per_link number_of_links link_length hinge_mass link_stiffness link_energy end_to_end_length temperature))) number_of_links link_length hinge_mass link_stiffness link_energy end_to_end_length temperature)
  /\ (forall (number_of_links : jarray Z) (link_length : jarray T) (link_stiffness : jarray T) (link_energy : jarray T) (end_to_end_length : jarray T) (temperature : jarray T),
     jl_morse_isometric_asymptotic_reduced_legendre.relative_helmholtz_free_energy number_of_links link_length link_stiffness link_energy end_to_end_length temperature
     = broadcast [UInt8; Float64; Float64; Float64; Float64; Float64] (fun number_of_links link_length link_stiffness link_energy end_to_end_length temperature =>
         Finished (Some (morse_isometric_asymptotic_reduced_legendre.relative_helmholtz_free_energy number_of_links link_length link_stiffness link_energy end_to_end_length temperature))) number_of_links link_length link_stiffness link_energy end_to_end_length temperature)
  /\ (forall (number_of_links : jarray Z) (link_length : jarray T) (link_stiffness : jarray T) (link_energy : jarray T) (end_to_end_length : jarray T) (temperature : jarray T),
     jl_morse_isometric_asymptotic_reduced_legendre.relative_helmholtz_free_energy_per_link number_of_links link_length link_stiffness link_energy end_to_end_length temperature
     = broadcast [UInt8; Float64; Float64; Float64; Float64; Float64] (fun number_of_links link_length link_stiffness link_energy end_to_end_length temperature =>
         Finished (Some (morse_isometric_asymptotic_reduced_legendre.relative_helmholtz_free_energy_per_link number_of_links link_length link_stiffness link_energy end_to_end_length temperature))) number_of_links link_length link_stiffness link_energy end_to_end_length temperature)
  /\ (forall (number_of_links : jarray Z) (link_length : jarray T) (hinge_mass : jarray T) (nondimensional_link_stiffness : jarray T) (nondimensional_link_energy : jarray T) (nondimensional_end_to_end_length_per_link : jarray T) (temperature : jarray T),
     jl_morse_isometric_asymptotic_reduced_legendre.nondimensional_helmholtz_free_energy number_of_links link_length hinge_mass nondimensional_link_stiffness nondimensional_link_energy nondimensional_end_to_end_length_per_link temperature
     = broadcast [UInt8; Float64; Float64; Float64; Float64; Float64; Float64] (fun number_of_links link_length hinge_mass nondimensional_link_stiffness nondimensional_link_energy nondimensional_end_to_end_length_per_link temperature =>
         Finished (Some (morse_isometric_asymptotic_reduced_legendre.nondimensional_helmholtz_free_energy number_of_links link_length hinge_mass nondimensional_link_stiffness nondimensional_link_energy nondimensional_end_to_end_length_per_link temperature))) number_of_links link_length hinge_mass nondimensional_link_stiffness nondimensional_link_energy nondimensional_end_to_end_length_per_link temperature)
  /\ (forall (number_of_links : jarray Z) (link_length : jarray T) (hinge_mass : jarray T) (nondimensional_link_stiffness : jarray T) (nondimensional_link_energy : jarray T) (nondimensional_end_to_end_length_per_link : jarray T) (temperature : jarray T),
     jl_morse_isometric_asymptotic_reduced_legendre.nondimensional_helmholtz_free_energy_per_link number_of_links link_length hinge_mass nondimensional_link_stiffness nondimensional_link_energy nondimensional_end_to_end_length_per_link temperature
     = broadcast [UInt8; Float64; Float64; Float64; Float64; Float64; Float64] (fun number_of_links link_length hinge_mass nondimensional_link_stiffness nondimensional_link_energy nondimensional_end_to_end_length_per_link temperature =>
         Finished (Some (morse_isometric_asymptotic_reduced_legendre.nondimensional_helmholtz_free_energy_per_link number_of_links link_length hinge_mass nondimensional_link_stiffness nondimensional_link_energy nondimensional_end_to_end_length_per_link temperature))) number_of_links link_length hinge_mass nondimensional_link_stiffness nondimensional_link_energy nondimensional_end_to_end_length_per_link temperature)
  /\ (forall (number_of_links : jarray Z) (nondimensional_link_stiffness : jarray T) (nondimensional_link_energy : jarray T) (nondimensional_end_to_end_length_per_link : jarray T),
     jl_morse_isometric_asymptotic_reduced_legendre.nondimensional_relative_helmholtz_free_energy number_of_links nondimensional_link_stiffness nondimensional_link_energy nondimensional_end_to_end_length_per_link
     = broadcast [UInt8; Float64; Float64; Float64] (fun number_of_links nondimensional_link_stiffness nondimensional_link_energy nondimensional_end_to_end_length_per_link =>
         Finished (Some (morse_isometric_asymptotic_reduced_legendre.nondimensional_relative_helmholtz_free_energy number_of_links nondimensional_link_stiffness nondimensional_link_energy nondimensional_end_to_end_length_per_link))) number_of_links nondimensional_link_stiffness nondimensional_link_energy nondimensional_end_to_end_length_per_link)
  /\ (forall (nondimensional_link_stiffness : jarray T) (nondimensional_link_energy : jarray T) (nondimensional_end_to_end_length_per_link : jarray T),
     jl_morse_isometric_asymptotic_reduced_legendre.nondimensional_relative_helmholtz_free_energy_per_link nondimensional_link_stiffness nondimensional_link_energy nondimensional_end_to_end_length_per_link
     = broadcast [Float64; Float64; Float64] (fun nondimensional_link_stiffness nondimensional_link_energy nondimensional_end_to_end_length_per_link =>
         Finished (Some (morse_isometric_asymptotic_reduced_legendre.nondimensional_relative_helmholtz_free_energy_per_link nondimensional_link_stiffness nondimensional_link_energy nondimensional_end_to_end_length_per_link))) nondimensional_link_stiffness nondimensional_link_energy nondimensional_end_to_end_length_per_link).
Proof.
  exact (fun T Sc => conj (@F_morse_isometric_asymptotic_reduced_legendre_force T Sc)
    (conj (@F_morse_isometric_asymptotic_reduced_legendre_nondimensional_force T Sc)
    (conj (@F_morse_isometric_asymptotic_reduced_legendre_helmholtz_free_energy T Sc)
    (conj (@F_morse_isometric_asymptotic_reduced_legendre_helmholtz_free_energy_per_link T Sc)
    (conj (@F_morse_isometric_asymptotic_reduced_legendre_relative_helmholtz_free_energy T Sc)
    (conj (@F_morse_isometric_asymptotic_reduced_legendre_relative_helmholtz_free_energy_per_link T Sc)
    (conj (@F_morse_isometric_asymptotic_reduced_legendre_nondimensional_helmholtz_free_energy T Sc)
    (conj (@F_morse_isometric_asymptotic_reduced_legendre_nondimensional_helmholtz_free_energy_per_link T Sc)
    (conj (@F_morse_isometric_asymptotic_reduced_legendre_nondimensional_relative_helmholtz_free_energy T Sc)
    (@F_morse_isometric_asymptotic_reduced_legendre_nondimensional_relative_helmholtz_free_energy_per_link T Sc)))))))))).
Qed.
Print Assumptions C61_functions_morse_isometric_asymptotic_reduced_legendre.

Theorem C61_object_morse_isometric_asymptotic_reduced_legendre : forall (T : Type) (Sc : Scalar T) (number_of_links : Z) (link_length : T) (hinge_mass : T) (link_stiffness : T) (link_energy : T),
  let j := J_morse_isometric_asymptotic_reduced_legendre.init number_of_links link_length hinge_mass link_stiffness link_energy in
  let r := O_morse_isometric_asymptotic_reduced_legendre.init number_of_links link_length hinge_mass link_stiffness link_energy in
  J_morse_isometric_asymptotic_reduced_legendre.number_of_links j = O_morse_isometric_asymptotic_reduced_legendre.number_of_links r
  /\ J_morse_isometric_asymptotic_reduced_legendre.link_length j = O_morse_isometric_asymptotic_reduced_legendre.link_length r
  /\ J_morse_isometric_asymptotic_reduced_legendre.hinge_mass j = O_morse_isometric_asymptotic_reduced_legendre.hinge_mass r
  /\ J_morse_isometric_asymptotic_reduced_legendre.link_stiffness j = O_morse_isometric_asymptotic_reduced_legendre.link_stiffness r
  /\ J_morse_isometric_asymptotic_reduced_legendre.link_energy j = O_morse_isometric_asymptotic_reduced_legendre.link_energy r
  /\ (forall (end_to_end_length : jarray T) (temperature : jarray T),
     J_morse_isometric_asymptotic_reduced_legendre.force j end_to_end_length temperature
     = broadcast [Float64; Float64] (fun end_to_end_length temperature =>
         Finished (Some (O_morse_isometric_asymptotic_reduced_legendre.force r end_to_end_length temperature))) end_to_end_length temperature)
  /\ (forall (nondimensional_end_to_end_length_per_link : jarray T) (temperature : T),
     J_morse_isometric_asymptotic_reduced_legendre.nondimensional_force j nondimensional_end_to_end_length_per_link temperature
     = broadcast [Float64] (fun nondimensional_end_to_end_length_per_link =>
         Finished (Some (O_morse_isometric_asymptotic_reduced_legendre.nondimensional_force r nondimensional_end_to_end_length_per_link temperature))) nondimensional_end_to_end_length_per_link)
  /\ (forall (end_to_end_length : jarray T) (temperature : jarray T),
     J_morse_isometric_asymptotic_reduced_legendre.helmholtz_free_energy j end_to_end_length temperature
     = broadcast [Float64; Float64] (fun end_to_end_length temperature =>
         Finished (Some (O_morse_isometric_asymptotic_reduced_legendre.helmholtz_free_energy r end_to_end_length temperature))) end_to_end_length temperature)
  /\ (forall (end_to_end_length : jarray T) (temperature : jarray T),
     J_morse_isometric_asymptotic_reduced_legendre.helmholtz_free_energy_per_link j end_to_end_length temperature
     = broadcast [Float64; Float64] (fun end_to_end_length temperature =>
         Finished (Some (O_morse_isometric_asymptotic_reduced_legendre.helmholtz_free_energy_per_link r end_to_end_length temperature))) end_to_end_length temperature)
  /\ (forall (end_to_end_length : jarray T) (temperature : jarray T),
     J_morse_isometric_asymptotic_reduced_legendre.relative_helmholtz_free_energy j end_to_end_length temperature
     = broadcast [Float64; Float64] (fun end_to_end_length temperature =>
         Finished (Some (O_morse_isometric_asymptotic_reduced_legendre.relative_helmholtz_free_energy r end_to_end_length temperature))) end_to_end_length temperature)
  /\ (forall (end_to_end_length : jarray T) (temperature : jarray T),
     J_morse_isometric_asymptotic_reduced_legendre.relative_helmholtz_free_energy_per_link j end_to_end_length temperature
     = broadcast [Float64; Float64] (fun end_to_end_length temperature =>
         Finished (Some (O_morse_isometric_asymptotic_reduced_legendre.relative_helmholtz_free_energy_per_link r end_to_end_length temperature))) end_to_end_length temperature)
  /\ (forall (nondimensional_end_to_end_length_per_link : jarray T) (temperature : T),
     J_morse_isometric_asymptotic_reduced_legendre.nondimensional_helmholtz_free_energy j nondimensional_end_to_end_length_per_link temperature
     = broadcast [Float64] (fun nondimensional_end_to_end_length_per_link =>
         Finished (Some (O_morse_isometric_asymptotic_reduced_legendre.nondimensional_helmholtz_free_energy r nondimensional_end_to_end_length_per_link temperature))) nondimensional_end_to_end_length_per_link)
  /\ (forall (nondimensional_end_to_end_length_per_link : jarray T) (temperature : T),
     J_morse_isometric_asymptotic_reduced_legendre.nondimensional_helmholtz_free_energy_per_link j nondimensional_end_to_end_length_per_link temperature
     = broadcast [Float64] (fun nondimensional_end_to_end_length_per_link =>
         Finished (Some (O_morse_isometric_asymptotic_reduced_legendre.nondimensional_helmholtz_free_energy_per_link r nondimensional_end_to_end_length_per_link temperature))) nondimensional_end_to_end_length_per_link)
  /\ (forall (nondimensional_end_to_end_length_per_link : jarray T) (temperature : T),
     J_morse_isometric_asymptotic_reduced_legendre.nondimensional_relative_helmholtz_free_energy j nondimensional_end_to_end_length_per_link temperature
     = broadcast [Float64] (fun nondimensional_end_to_end_length_per_link =>
         Finished (Some (O_morse_isometric_asymptotic_reduced_legendre.nondimensional_relative_helmholtz_free_energy r nondimensional_end_to_end_length_per_link temperature))) nondimensional_end_to_end_length_per_link)
  /\ (forall (nondimensional_end_to_end_length_per_link : jarray T) (temperature : T),
     J_morse_isometric_asymptotic_reduced_legendre.nondimensional_relative_helmholtz_free_energy_per_link j nondimensional_end_to_end_length_per_link temperature
     = broadcast [Float64] (fun nondimensional_end_to_end_length_per_link =>
         Finished (Some (O_morse_isometric_asymptotic_reduced_legendre.nondimensional_relative_helmholtz_free_energy_per_link r nondimensional_end_to_end_length_per_link temperature))) nondimensional_end_to_end_length_per_link).
Proof. intros T Sc number_of_links link_length hinge_mass link_stiffness link_energy j r.
  split; [reflexivity|].
  split; [reflexivity|].
  split; [reflexivity|].
  split; [reflexivity|].
  split; [reflexivity|].
  split; [intros; cbv [j J_morse_isometric_asymptotic_reduced_legendre.init J_morse_isometric_asymptotic_reduced_legendre.force]; rewrite F_morse_isometric_asymptotic_reduced_legendre_force; unfold O_morse_isometric_asymptotic_reduced_legendre.force; broadcast_numbers|].
  split; [intros; cbv [j J_morse_isometric_asymptotic_reduced_legendre.init J_morse_isometric_asymptotic_reduced_legendre.nondimensional_force]; rewrite F_morse_isometric_asymptotic_reduced_legendre_nondimensional_force; unfold O_morse_isometric_asymptotic_reduced_legendre.nondimensional_force; broadcast_numbers|].
  split; [intros; cbv [j J_morse_isometric_asymptotic_reduced_legendre.init J_morse_isometric_asymptotic_reduced_legendre.helmholtz_free_energy]; rewrite F_morse_isometric_asymptotic_reduced_legendre_helmholtz_free_energy; unfold O_morse_isometric_asymptotic_reduced_legendre.helmholtz_free_energy; broadcast_numbers|].
  split; [intros; cbv [j J_morse_isometric_asymptotic_reduced_legendre.init J_morse_isometric_asymptotic_reduced_legendre.helmholtz_free_energy_per_link]; rewrite F_morse_isometric_asymptotic_reduced_legendre_helmholtz_free_energy_per_link; unfold O_morse_isometric_asymptotic_reduced_legendre.helmholtz_free_energy_per_link; broadcast_numbers|].
  split; [intros; cbv [j J_morse_isometric_asymptotic_reduced_legendre.init J_morse_isometric_asymptotic_reduced_legendre.relative_helmholtz_free_energy]; rewrite F_morse_isometric_asymptotic_reduced_legendre_relative_helmholtz_free_energy; unfold O_morse_isometric_asymptotic_reduced_legendre.relative_helmholtz_free_energy; broadcast_numbers|].
  split; [intros; cbv [j J_morse_isometric_asymptotic_reduced_legendre.init J_morse_isometric_asymptotic_reduced_legendre.relative_helmholtz_free_energy_per_link]; rewrite F_morse_isometric_asymptotic_reduced_legendre_relative_helmholtz_free_energy_per_link; unfold O_morse_isometric_asymptotic_reduced_legendre.relative_helmholtz_free_energy_per_link; broadcast_numbers|].
  split; [intros; cbv [j J_morse_isometric_asymptotic_reduced_legendre.init J_morse_isometric_asymptotic_reduced_legendre.nondimensional_helmholtz_free_energy]; rewrite F_morse_isometric_asymptotic_reduced_legendre_nondimensional_helmholtz_free_energy; unfold O_morse_isometric_asymptotic_reduced_legendre.nondimensional_helmholtz_free_energy; broadcast_numbers|].
  split; [intros; cbv [j J_morse_isometric_asymptotic_reduced_legendre.init J_morse_isometric_asymptotic_reduced_legendre.nondimensional_helmholtz_free_energy_per_link]; rewrite F_morse_isometric_asymptotic_reduced_legendre_nondimensional_helmholtz_free_energy_per_link; unfold O_morse_isometric_asymptotic_reduced_legendre.nondimensional_helmholtz_free_energy_per_link; broadcast_numbers|].
  split; [intros; cbv [j J_morse_isometric_asymptotic_reduced_legendre.init J_morse_isometric_asymptotic_reduced_legendre.nondimensional_relative_helmholtz_free_energy]; rewrite F_morse_isometric_asymptotic_reduced_legendre_nondimensional_relative_helmholtz_free_energy; unfold O_morse_isometric_asymptotic_reduced_legendre.nondimensional_relative_helmholtz_free_energy; broadcast_numbers|].
  intros; cbv [j J_morse_isometric_asymptotic_reduced_legendre.init J_morse_isometric_asymptotic_reduced_legendre.nondimensional_relative_helmholtz_free_energy_per_link]; rewrite F_morse_isometric_asymptotic_reduced_legendre_nondimensional_relative_helmholtz_free_energy_per_link; unfold O_morse_isometric_asymptotic_reduced_legendre.nondimensional_relative_helmholtz_free_energy_per_link; broadcast_numbers.
Qed.
Print Assumptions C61_object_morse_isometric_asymptotic_reduced_legendre.

Theorem C61_functions_morse_isotensional_asymptotic_reduced_legendre : forall (T : Type) (Sc : Scalar T),
  (forall (number_of_links : jarray Z) (link_length : jarray T) (hinge_mass : jarray T) (link_stiffness : jarray T) (link_energy : jarray T) (force : jarray T) (temperature : jarray T),
     jl_morse_isotensional_asymptotic_reduced_legendre.helmholtz_free_energy number_of_links link_length hinge_mass link_stiffness link_energy force temperature
     = broadcast [UInt8; Float64; Float64; Float64; Float64; Float64; Float64] (fun number_of_links link_length hinge_mass link_stiffness link_energy force temperature =>
         Finished (Some (morse_isotensional_asymptotic_reduced_legendre.helmholtz_free_energy number_of_links link_length hinge_mass link_stiffness link_energy force temperature))) number_of_links link_length hinge_mass link_stiffness link_energy force temperature)
  /\ (forall (link_length : jarray T) (hinge_mass : jarray T) (link_stiffness : jarray T) (link_energy : jarray T) (force : jarray T) (temperature : jarray T),
     jl_morse_isotensional_asymptotic_reduced_legendre.helmholtz_free_energy_per_link link_length hinge_mass link_stiffness link_energy force temperature
     = broadcast [Float64; Float64; Float64; Float64; Float64; Float64] (fun link_length hinge_mass link_stiffness link_energy force temperature =>
         Finished (Some (morse_isotensional_asymptotic_reduced_legendre.helmholtz_free_energy_per_link link_length hinge_mass link_stiffness link_energy force temperature))) link_length hinge_mass link_stiffness link_energy force temperature)
  /\ (forall (number_of_links : jarray Z) (link_length : jarray T) (link_stiffness : jarray T) (link_energy : jarray T) (force : jarray T) (temperature : jarray T),
     jl_morse_isotensional_asymptotic_reduced_legendre.relative_helmholtz_free_energy number_of_links link_length link_stiffness link_energy force temperature
     = broadcast [UInt8; Float64; Float64; Float64; Float64; Float64] (fun number_of_links link_length link_stiffness link_energy force temperature =>
         Finished (Some (morse_isotensional_asymptotic_reduced_legendre.relative_helmholtz_free_energy number_of_links link_length link_stiffness link_energy force temperature))) number_of_links link_length link_stiffness link_energy force temperature)
  /\ (forall (link_length : jarray T) (link_stiffness : jarray T) (link_energy : jarray T) (force : jarray T) (temperature : jarray T),
     jl_morse_isotensional_asymptotic_reduced_legendre.relative_helmholtz_free_energy_per_link link_length link_stiffness link_energy force temperature
     = broadcast [Float64; Float64; Float64; Float64; Float64] (fun link_length link_stiffness link_energy force temperature =>
         Finished (Some (morse_isotensional_asymptotic_reduced_legendre.relative_helmholtz_free_energy_per_link link_length link_stiffness link_energy force temperature))) link_length link_stiffness link_energy force temperature)
  /\ (forall (number_of_links : jarray Z) (link_length : jarray T) (hinge_mass : jarray T) (nondimensional_link_stiffness : jarray T) (nondimensional_link_energy : jarray T) (nondimensional_force : jarray T) (temperature : jarray T),
     jl_morse_isotensional_asymptotic_reduced_legendre.nondimensional_helmholtz_free_energy number_of_links link_length hinge_mass nondimensional_link_stiffness nondimensional_link_energy nondimensional_force temperature
     = broadcast [UInt8; Float64; Float64; Float64; Float64; Float64; Float64] (fun number_of_links link_length hinge_mass nondimensional_link_stiffness nondimensional_link_energy nondimensional_force temperature =>
         Finished (Some (morse_isotensional_asymptotic_reduced_legendre.nondimensional_helmholtz_free_energy number_of_links link_length hinge_mass nondimensional_link_stiffness nondimensional_link_energy nondimensional_force temperature))) number_of_links link_length hinge_mass nondimensional_link_stiffness nondimensional_link_energy nondimensional_force temperature)
  /\ (forall (link_length : jarray T) (hinge_mass : jarray T) (nondimensional_link_stiffness : jarray T) (nondimensional_link_energy : jarray T) (nondimensional_force : jarray T) (temperature : jarray T),
     jl_morse_isotensional_asymptotic_reduced_legendre.nondimensional_helmholtz_free_energy_per_link link_length hinge_mass nondimensional_link_stiffness nondimensional_link_energy nondimensional_force temperature
     = broadcast [Float64; Float64; Float64; Float64; Float64; Float64] (fun link_length hinge_mass nondimensional_link_stiffness nondimensional_link_energy nondimensional_force temperature =>
         Finished (Some (morse_isotensional_asymptotic_reduced_legendre.nondimensional_helmholtz_free_energy_per_link link_length hinge_mass nondimensional_link_stiffness nondimensional_link_energy nondimensional_force temperature))) link_length hinge_mass nondimensional_link_stiffness nondimensional_link_energy nondimensional_force temperature)
  /\ (forall (number_of_links : jarray Z) (nondimensional_link_stiffness : jarray T) (nondimensional_link_energy : jarray T) (nondimensional_force : jarray T),
     jl_morse_isotensional_asymptotic_reduced_legendre.nondimensional_relative_helmholtz_free_energy number_of_links nondimensional_link_stiffness nondimensional_link_energy nondimensional_force
     = broadcast [UInt8; Float64; Float64; Float64] (fun number_of_links nondimensional_link_stiffness nondimensional_link_energy nondimensional_force =>
         Finished (Some (morse_isotensional_asymptotic_reduced_legendre.nondimensional_relative_helmholtz_free_energy number_of_links nondimensional_link_stiffness nondimensional_link_energy nondimensional_force))) number_of_links nondimensional_link_stiffness nondimensional_link_energy nondimensional_force)
  /\ (forall (nondimensional_link_stiffness : jarray T) (nondimensional_link_energy : jarray T) (nondimensional_force : jarray T),
     jl_morse_isotensional_asymptotic_reduced_legendre.nondimensional_relative_helmholtz_free_energy_per_link nondimensional_link_stiffness nondimensional_link_energy nondimensional_force
     = broadcast [Float64; Float64; Float64] (fun nondimensional_link_stiffness nondimensional_link_energy nondimensional_force =>
         Finished (Some (morse_isotensional_asymptotic_reduced_legendre.nondimensional_relative_helmholtz_free_energy_per_link nondimensional_link_stiffness nondimensional_link_energy nondimensional_force))) nondimensional_link_stiffness nondimensional_link_energy nondimensional_force).
Proof.
  exact (fun T Sc => conj (@F_morse_isotensional_asymptotic_reduced_legendre_helmholtz_free_energy T Sc)
    (conj (@F_morse_isotensional_asymptotic_reduced_legendre_helmholtz_free_energy_per_link T Sc)
    (conj (@F_morse_isotensional_asymptotic_reduced_legendre_relative_helmholtz_free_energy T Sc)
    (conj (@F_morse_isotensional_asymptotic_reduced_legendre_relative_helmholtz_free_energy_per_link T Sc)
    (conj (@F_morse_isotensional_asymptotic_reduced_legendre_nondimensional_helmholtz_free_energy T Sc)
    (conj (@F_morse_isotensional_asymptotic_reduced_legendre_nondimensional_helmholtz_free_energy_per_link T Sc)
    (conj (@F_morse_isotensional_asymptotic_reduced_legendre_nondimensional_relative_helmholtz_free_energy T Sc)
    (@F_morse_isotensional_asymptotic_reduced_legendre_nondimensional_relative_helmholtz_free_energy_per_link T Sc)))))))).
Qed.
Print Assumptions C61_functions_morse_isotensional_asymptotic_reduced_legendre.

Theorem C61_object_morse_isotensional_asymptotic_reduced_legendre : forall (T : Type) (Sc : Scalar T) (number_of_links : Z) (link_length : T) (hinge_mass : T) (link_stiffness : T) (link_energy : T),
  let j := J_morse_isotensional_asymptotic_reduced_legendre.init number_of_links link_length hinge_mass link_stiffness link_energy in
  let r := O_morse_isotensional_asymptotic_reduced_legendre.init number_of_links link_length hinge_mass link_stiffness link_energy in
  J_morse_isotensional_asymptotic_reduced_legendre.number_of_links j = O_morse_isotensional_asymptotic_reduced_legendre.number_of_links r
  /\ J_morse_isotensional_asymptotic_reduced_legendre.link_length j = O_morse_isotensional_asymptotic_reduced_legendre.link_length r
  /\ J_morse_isotensional_asymptotic_reduced_legendre.hinge_mass j = O_morse_isotensional_asymptotic_reduced_legendre.hinge_mass r
  /\ J_morse_isotensional_asymptotic_reduced_legendre.link_stiffness j = O_morse_isotensional_asymptotic_reduced_legendre.link_stiffness r
  /\ J_morse_isotensional_asymptotic_reduced_legendre.link_energy j = O_morse_isotensional_asymptotic_reduced_legendre.link_energy r
  /\ (forall (force : jarray T) (temperature : jarray T),
     J_morse_isotensional_asymptotic_reduced_legendre.helmholtz_free_energy j force temperature
     = broadcast [Float64; Float64] (fun force temperature =>
         Finished (Some (O_morse_isotensional_asymptotic_reduced_legendre.helmholtz_free_energy r force temperature))) force temperature)
  /\ (forall (force : jarray T) (temperature : jarray T),
     J_morse_isotensional_asymptotic_reduced_legendre.helmholtz_free_energy_per_link j force temperature
     = broadcast [Float64; Float64] (fun force temperature =>
         Finished (Some (O_morse_isotensional_asymptotic_reduced_legendre.helmholtz_free_energy_per_link r force temperature))) force temperature)
  /\ (forall (force : jarray T) (temperature : jarray T),
     J_morse_isotensional_asymptotic_reduced_legendre.relative_helmholtz_free_energy j force temperature
     = broadcast [Float64; Float64] (fun force temperature =>
         Finished (Some (O_morse_isotensional_asymptotic_reduced_legendre.relative_helmholtz_free_energy r force temperature))) force temperature)
  /\ (forall (force : jarray T) (temperature : jarray T),
     J_morse_isotensional_asymptotic_reduced_legendre.relative_helmholtz_free_energy_per_link j force temperature
     = broadcast [Float64; Float64] (fun force temperature =>
         Finished (Some (O_morse_isotensional_asymptotic_reduced_legendre.relative_helmholtz_free_energy_per_link r force temperature))) force temperature)
  /\ (forall (nondimensional_force : jarray T) (temperature : T),
     J_morse_isotensional_asymptotic_reduced_legendre.nondimensional_helmholtz_free_energy j nondimensional_force temperature
     = broadcast [Float64] (fun nondimensional_force =>
         Finished (Some (O_morse_isotensional_asymptotic_reduced_legendre.nondimensional_helmholtz_free_energy r nondimensional_force temperature))) nondimensional_force)
  /\ (forall (nondimensional_force : jarray T) (temperature : T),
     J_morse_isotensional_asymptotic_reduced_legendre.nondimensional_helmholtz_free_energy_per_link j nondimensional_force temperature
     = broadcast [Float64] (fun nondimensional_force =>
         Finished (Some (O_morse_isotensional_asymptotic_reduced_legendre.nondimensional_helmholtz_free_energy_per_link r nondimensional_force temperature))) nondimensional_force)
  /\ (forall (nondimensional_force : jarray T) (temperature : T),
     J_morse_isotensional_asymptotic_reduced_legendre.nondimensional_relative_helmholtz_free_energy j nondimensional_force temperature
     = broadcast [Float64] (fun nondimensional_force =>
         Finished (Some (O_morse_isotensional_asymptotic_reduced_legendre.nondimensional_relative_helmholtz_free_energy r nondimensional_force temperature))) nondimensional_force)
  /\ (forall (nondimensional_force : jarray T) (temperature : T),
     J_morse_isotensional_asymptotic_reduced_legendre.nondimensional_relative_helmholtz_free_energy_per_link j nondimensional_force temperature
     = broadcast [Float64] (fun nondimensional_force =>
         Finished (Some (O_morse_isotensional_asymptotic_reduced_legendre.nondimensional_relative_helmholtz_free_energy_per_link r nondimensional_force temperature))) nondimensional_force).
Proof. intros T Sc number_of_links link_length hinge_mass link_stiffness link_energy j r.
  split; [reflexivity|].
  split; [reflexivity|].
  split; [reflexivity|].
  split; [reflexivity|].
  split; [reflexivity|].
  split; [intros; cbv [j J_morse_isotensional_asymptotic_reduced_legendre.init J_morse_isotensional_asymptotic_reduced_legendre.helmholtz_free_energy]; rewrite F_morse_isotensional_asymptotic_reduced_legendre_helmholtz_free_energy; unfold O_morse_isotensional_asymptotic_reduced_legendre.helmholtz_free_energy; broadcast_numbers|].
  split; [intros; cbv [j J_morse_isotensional_asymptotic_reduced_legendre.init J_morse_isotensional_asymptotic_reduced_legendre.helmholtz_free_energy_per_link]; rewrite F_morse_isotensional_asymptotic_reduced_legendre_helmholtz_free_energy_per_link; unfold O_morse_isotensional_asymptotic_reduced_legendre.helmholtz_free_energy_per_link; broadcast_numbers|].
  split; [intros; cbv [j J_morse_isotensional_asymptotic_reduced_legendre.init J_morse_isotensional_asymptotic_reduced_legendre.relative_helmholtz_free_energy]; rewrite F_morse_isotensional_asymptotic_reduced_legendre_relative_helmholtz_free_energy; unfold O_morse_isotensional_asymptotic_reduced_legendre.relative_helmholtz_free_energy; broadcast_numbers|].
  split; [intros; cbv [j J_morse_isotensional_asymptotic_reduced_legendre.init J_morse_isotensional_asymptotic_reduced_legendre.relative_helmholtz_free_energy_per_link]; rewrite F_morse_isotensional_asymptotic_reduced_legendre_relative_helmholtz_free_energy_per_link; unfold O_morse_isotensional_asymptotic_reduced_legendre.relative_helmholtz_free_energy_per_link; broadcast_numbers|].
  split; [intros; cbv [j J_morse_isotensional_asymptotic_reduced_legendre.init J_morse_isotensional_asymptotic_reduced_legendre.nondimensional_helmholtz_free_energy]; rewrite F_morse_isotensional_asymptotic_reduced_legendre_nondimensional_helmholtz_free_energy; unfold O_morse_isotensional_asymptotic_reduced_legendre.nondimensional_helmholtz_free_energy; broadcast_numbers|].
  split; [intros; cbv [j J_morse_isotensional_asymptotic_reduced_legendre.init J_morse_isotensional_asymptotic_reduced_legendre.nondimensional_helmholtz_free_energy_per_link]; rewrite F_morse_isotensional_asymptotic_reduced_legendre_nondimensional_helmholtz_free_energy_per_link; unfold O_morse_isotensional_asymptotic_reduced_legendre.nondimensional_helmholtz_free_energy_per_link; broadcast_numbers|].
  split; [intros; cbv [j J_morse_isotensional_asymptotic_reduced_legendre.init J_morse_isotensional_asymptotic_reduced_legendre.nondimensional_relative_helmholtz_free_energy]; rewrite F_morse_isotensional_asymptotic_reduced_legendre_nondimensional_relative_helmholtz_free_energy; unfold O_morse_isotensional_asymptotic_reduced_legendre.nondimensional_relative_helmholtz_free_energy; broadcast_numbers|].
  intros; cbv [j J_morse_isotensional_asymptotic_reduced_legendre.init J_morse_isotensional_asymptotic_reduced_legendre.nondimensional_relative_helmholtz_free_energy_per_link]; rewrite F_morse_isotensional_asymptotic_reduced_legendre_nondimensional_relative_helmholtz_free_energy_per_link; unfold O_morse_isotensional_asymptotic_reduced_legendre.nondimensional_relative_helmholtz_free_energy_per_link; broadcast_numbers.
Qed.
Print Assumptions C61_object_morse_isotensional_asymptotic_reduced_legendre.

Theorem C61_functions_efjc_isometric_asymptotic_alternative_legendre : forall (T : Type) (Sc : Scalar T),
  (forall (number_of_links : jarray Z) (link_length : jarray T) (link_stiffness : jarray T) (end_to_end_length : jarray T) (temperature : jarray T),
     jl_efjc_isometric_asymptotic_alternative_legendre.force number_of_links link_length link_stiffness end_to_end_length temperature
     = broadcast [UInt8; Float64; Float64; Float64; Float64] (fun number_of_links link_length link_stiffness end_to_end_length temperature =>
         Finished (Some (efjc_isometric_asymptotic_alternative_legendre.force number_of_links link_length link_stiffness end_to_end_length temperature))) number_of_links link_length link_stiffness end_to_end_length temperature)
  /\ (forall (nondimensional_link_stiffness : jarray T) (nondimensional_end_to_end_length_per_link : jarray T),
     jl_efjc_isometric_asymptotic_alternative_legendre.nondimensional_force nondimensional_link_stiffness nondimensional_end_to_end_length_per_link
     = broadcast [Float64; Float64] (fun nondimensional_link_stiffness nondimensional_end_to_end_length_per_link =>
         Finished (Some (efjc_isometric_asymptotic_alternative_legendre.nondimensional_force nondimensional_link_stiffness nondimensional_end_to_end_length_per_link))) nondimensional_link_stiffness nondimensional_end_to_end_length_per_link)
  /\ (forall (number_of_links : jarray Z) (link_length : jarray T) (hinge_mass : jarray T) (link_stiffness : jarray T) (end_to_end_length : jarray T) (temperature : jarray T),
     jl_efjc_isometric_asymptotic_alternative_legendre.helmholtz_free_energy number_of_links link_length hinge_mass link_stiffness end_to_end_length temperature
     = broadcast [UInt8; Float64; Float64; Float64; Float64; Float64] (fun number_of_links link_length hinge_mass link_stiffness end_to_end_length temperature =>
         Finished (Some (efjc_isometric_asymptotic_alternative_legendre.helmholtz_free_energy number_of_links link_length hinge_mass link_stiffness end_to_end_length temperature))) number_of_links link_length hinge_mass link_stiffness end_to_end_length temperature)
  /\ (forall (number_of_links : jarray Z) (link_length : jarray T) (hinge_mass : jarray T) (link_stiffness : jarray T) (end_to_end_length : jarray T) (temperature : jarray T),
     jl_efjc_isometric_asymptotic_alternative_legendre.helmholtz_free_energy_per_link number_of_links link_length hinge_mass link_stiffness end_to_end_length temperature
     = broadcast [UInt8; Float64; Float64; Float64; Float64; Float64] (fun number_of_links link_length hinge_mass link_stiffness end_to_end_length temperature =>
         Finished (Some (efjc_isometric_asymptotic_alternative_legendre.helmholtz_free_energy_per_link number_of_links link_length hinge_mass link_stiffness end_to_end_length temperature))) number_of_links link_length hinge_mass link_stiffness end_to_end_length temperature)
  /\ (forall (number_of_links : jarray Z) (link_length : jarray T) (link_stiffness : jarray T) (end_to_end_length : jarray T) (temperature : jarray T),
     jl_efjc_isometric_asymptotic_alternative_legendre.relative_helmholtz_free_energy number_of_links link_length link_stiffness end_to_end_length temperature
     = broadcast [UInt8; Float64; Float64; Float64; Float64] (fun number_of_links link_length link_stiffness end_to_end_length temperature =>
         Finished (Some (efjc_isometric_asymptotic_alternative_legendre.relative_helmholtz_free_energy number_of_links link_length link_stiffness end_to_end_length temperature))) number_of_links link_length link_stiffness end_to_end_length temperature)
  /\ (forall (number_of_links : jarray Z) (link_length : jarray T) (link_stiffness : jarray T) (end_to_end_length : jarray T) (temperature : jarray T),
     jl_efjc_isometric_asymptotic_alternative_legendre.relative_helmholtz_free_energy_per_link number_of_links link_length link_stiffness end_to_end_length temperature
     = broadcast [UInt8; Float64; Float64; Float64; Float64] (fun number_of_links link_length link_stiffness end_to_end_length temperature =>
         Finished (Some (efjc_isometric_asymptotic_alternative_legendre.relative_helmholtz_free_energy_per_link number_of_links link_length link_stiffness end_to_end_length temperature))) number_of_links link_length link_stiffness end_to_end_length temperature)
  /\ (forall (number_of_links : jarray Z) (link_length : jarray T) (hinge_mass : jarray T) (nondimensional_link_stiffness : jarray T) (nondimensional_end_to_end_length_per_link : jarray T) (temperature : jarray T),
     jl_efjc_isometric_asymptotic_alternative_legendre.nondimensional_helmholtz_free_energy number_of_links link_length hinge_mass nondimensional_link_stiffness nondimensional_end_to_end_length_per_link temperature
     = broadcast [UInt8; Float64; Float64; Float64; Float64; Float64] (fun number_of_links link_length hinge_mass nondimensional_link_stiffness nondimensional_end_to_end_length_per_link temperature =>
         Finished (Some (efjc_isometric_asymptotic_alternative_legendre.nondimensional_helmholtz_free_energy number_of_links link_length hinge_mass nondimensional_link_stiffness nondimensional_end_to_end_length_per_link temperature))) number_of_links link_length hinge_mass nondimensional_link_stiffness nondimensional_end_to_end_length_per_link temperature)
  /\ (forall (number_of_links : jarray Z) (link_length : jarray T) (hinge_mass : jarray T) (nondimensional_link_stiffness : jarray T) (nondimensional_end_to_end_length_per_link : jarray T) (temperature : jarray T),
     jl_efjc_isometric_asymptotic_alternative_legendre.nondimensional_helmholtz_free_energy_per_link number_of_links link_length hinge_mass nondimensional_link_stiffness nondimensional_end_to_end_length_per_link temperature
     = broadcast [UInt8; Float64; Float64; Float64; Float64; Float64] (fun number_of_links link_length hinge_mass nondimensional_link_stiffness nondimensional_end_to_end_length_per_link temperature =>
         Finished (Some (efjc_isometric_asymptotic_alternative_legendre.nondimensional_helmholtz_free_energy_per_link number_of_links link_length hinge_mass nondimensional_link_stiffness nondimensional_end_to_end_length_per_link temperature))) number_of_links link_length hinge_mass nondimensional_link_stiffness nondimensional_end_to_end_length_per_link temperature)
  /\ (forall (number_of_links : jarray Z) (nondimensional_link_stiffness : jarray T) (nondimensional_end_to_end_length_per_link : jarray T),
     jl_efjc_isometric_asymptotic_alternative_legendre.nondimensional_relative_helmholtz_free_energy number_of_links nondimensional_link_stiffness nondimensional_end_to_end_length_per_link
     = broadcast [UInt8; Float64; Float64] (fun number_of_links nondimensional_link_stiffness nondimensional_end_to_end_length_per_link =>
         Finished (Some (efjc_isometric_asymptotic_alternative_legendre.nondimensional_relative_helmholtz_free_energy number_of_links nondimensional_link_stiffness nondimensional_end_to_end_length_per_link))) number_of_links nondimensional_link_stiffness nondimensional_end_to_end_length_per_link)
  /\ (forall (nondimensional_link_stiffness : jarray T) (nondimensional_end_to_end_length_per_link : jarray T),
     jl_efjc_isometric_asymptotic_alternative_legendre.nondimensional_relative_helmholtz_free_energy_per_link nondimensional_link_stiffness nondimensional_end_to_end_length_per_link
     = broadcast [Float64; Float64] (fun nondimensional_link_stiffness nondimensional_end_to_end_length_per_link =>
         Finished (Some (efjc_isometric_asymptotic_alternative_legendre.nondimensional_relative_helmholtz_free_energy_per_link nondimensional_link_stiffness nondimensional_end_to_end_length_per_link))) nondimensional_link_stiffness nondimensional_end_to_end_length_per_link).
Proof.
  exact (fun T Sc => conj (@F_efjc_isometric_asymptotic_alternative_legendre_force T Sc)
    (conj (@F_efjc_isometric_asymptotic_alternative_legendre_nondimensional_force T Sc)
    (conj (@F_efjc_isometric_asymptotic_alternative_legendre_helmholtz_free_energy T Sc)
    (conj (@F_efjc_isometric_asymptotic_alternative_legendre_helmholtz_free_energy_per_link T Sc)
    (conj (@F_efjc_isometric_asymptotic_alternative_legendre_relative_helmholtz_free_energy T Sc)
    (conj (@F_efjc_isometric_asymptotic_alternative_legendre_relative_helmholtz_free_energy_per_link T Sc)
    (conj (@F_efjc_isometric_asymptotic_alternative_legendre_nondimensional_helmholtz_free_energy T Sc)
    (conj (@F_efjc_isometric_asymptotic_alternative_legendre_nondimensional_helmholtz_free_energy_per_link T Sc)
    (conj (@F_efjc_isometric_asymptotic_alternative_legendre_nondimensional_relative_helmholtz_free_energy T Sc)
    (@F_efjc_isometric_asymptotic_alternative_legendre_nondimensional_relative_helmholtz_free_energy_per_link T Sc)))))))))).
Qed.
Print Assumptions C61_functions_efjc_isometric_asymptotic_alternative_legendre.

Theorem C61_object_efjc_isometric_asymptotic_alternative_legendre : forall (T : Type) (Sc : Scalar T) (number_of_links : Z) (link_length : T) (hinge_mass : T) (link_stiffness : T),
  let j := J_efjc_isometric_asymptotic_alternative_legendre.init number_of_links link_length hinge_mass link_stiffness in
  let r := O_efjc_isometric_asymptotic_alternative_legendre.init number_of_links link_length hinge_mass link_stiffness in
  J_efjc_isometric_asymptotic_alternative_legendre.number_of_links j = O_efjc_isometric_asymptotic_alternative_legendre.number_of_links r
  /\ J_efjc_isometric_asymptotic_alternative_legendre.link_length j = O_efjc_isometric_asymptotic_alternative_legendre.link_length r
  /\ J_efjc_isometric_asymptotic_alternative_legendre.hinge_mass j = O_efjc_isometric_asymptotic_alternative_legendre.hinge_mass r
  /\ J_efjc_isometric_asymptotic_alternative_legendre.link_stiffness j = O_efjc_isometric_asymptotic_alternative_legendre.link_stiffness r
  /\ (forall (end_to_end_length : jarray T) (temperature : jarray T),
     J_efjc_isometric_asymptotic_alternative_legendre.force j end_to_end_length temperature
     = broadcast [Float64; Float64] (fun end_to_end_length temperature =>
         Finished (Some (O_efjc_isometric_asymptotic_alternative_legendre.force r end_to_end_length temperature))) end_to_end_length temperature)
  /\ (forall (nondimensional_end_to_end_length_per_link : jarray T) (temperature : T),
     J_efjc_isometric_asymptotic_alternative_legendre.nondimensional_force j nondimensional_end_to_end_length_per_link temperature
     = broadcast [Float64] (fun nondimensional_end_to_end_length_per_link =>
         Finished (Some (O_efjc_isometric_asymptotic_alternative_legendre.nondimensional_force r nondimensional_end_to_end_length_per_link temperature))) nondimensional_end_to_end_length_per_link)
  /\ (forall (end_to_end_length : jarray T) (temperature : jarray T),
     J_efjc_isometric_asymptotic_alternative_legendre.helmholtz_free_energy j end_to_end_length temperature
     = broadcast [Float64; Float64] (fun end_to_end_length temperature =>
         Finished (Some (O_efjc_isometric_asymptotic_alternative_legendre.helmholtz_free_energy r end_to_end_length temperature))) end_to_end_length temperature)
  /\ (forall (end_to_end_length : jarray T) (temperature : jarray T),
     J_efjc_isometric_asymptotic_alternative_legendre.helmholtz_free_energy_per_link j end_to_end_length temperature
     = broadcast [Float64; Float64] (fun end_to_end_length temperature =>
         Finished (Some (O_efjc_isometric_asymptotic_alternative_legendre.helmholtz_free_energy_per_link r end_to_end_length temperature))) end_to_end_length temperature)
  /\ (forall (end_to_end_length : jarray T) (temperature : jarray T),
     J_efjc_isometric_asymptotic_alternative_legendre.relative_helmholtz_free_energy j end_to_end_length temperature
     = broadcast [Float64; Float64] (fun end_to_end_length temperature =>
         Finished (Some (O_efjc_isometric_asymptotic_alternative_legendre.relative_helmholtz_free_energy r end_to_end_length temperature))) end_to_end_length temperature)
  /\ (forall (end_to_end_length : jarray T) (temperature : jarray T),
     J_efjc_isometric_asymptotic_alternative_legendre.relative_helmholtz_free_energy_per_link j end_to_end_length temperature
     = broadcast [Float64; Float64] (fun end_to_end_length temperature =>
         Finished (Some (O_efjc_isometric_asymptotic_alternative_legendre.relative_helmholtz_free_energy_per_link r end_to_end_length temperature))) end_to_end_length temperature)
  /\ (forall (nondimensional_end_to_end_length_per_link : jarray T) (temperature : T),
     J_efjc_isometric_asymptotic_alternative_legendre.nondimensional_helmholtz_free_energy j nondimensional_end_to_end_length_per_link temperature
     = broadcast [Float64] (fun nondimensional_end_to_end_length_per_link =>
         Finished (Some (O_efjc_isometric_asymptotic_alternative_legendre.nondimensional_helmholtz_free_energy r nondimensional_end_to_end_length_per_link temperature))) nondimensional_end_to_end_length_per_link)
  /\ (forall (nondimensional_end_to_end_length_per_link : jarray T) (temperature : T),
     J_efjc_isometric_asymptotic_alternative_legendre.nondimensional_helmholtz_free_energy_per_link j nondimensional_end_to_end_length_per_link temperature
     = broadcast [Float64] (fun nondimensional_end_to_end_length_per_link =>
         Finished (Some (O_efjc_isometric_asymptotic_alternative_legendre.nondimensional_helmholtz_free_energy_per_link r nondimensional_end_to_end_length_per_link temperature))) nondimensional_end_to_end_length_per_link)
  /\ (forall (nondimensional_end_to_end_length_per_link : jarray T) (temperature : T),
     J_efjc_isometric_asymptotic_alternative_legendre.nondimensional_relative_helmholtz_free_energy j nondimensional_end_to_end_length_per_link temperature
     = broadcast [Float64] (fun nondimensional_end_to_end_length_per_link =>
         Finished (Some (O_efjc_isometric_asymptotic_alternative_legendre.nondimensional_relative_helmholtz_free_energy r nondimensional_end_to_end_length_per_link temperature))) nondimensional_end_to_end_length_per_link)
  /\ (forall (nondimensional_end_to_end_length_per_link : jarray T) (temperature : T),
     J_efjc_isometric_asymptotic_alternative_legendre.nondimensional_relative_helmholtz_free_energy_per_link j nondimensional_end_to_end_length_per_link temperature
     = broadcast [Float64] (fun nondimensional_end_to_end_length_per_link =>
         Finished (Some (O_efjc_isometric_asymptotic_alternative_legendre.nondimensional_relative_helmholtz_free_energy_per_link r nondimensional_end_to_end_length_per_link temperature))) nondimensional_end_to_end_length_per_link).
Proof. intros T Sc number_of_links link_length hinge_mass link_stiffness j r.
  split; [reflexivity|].
  split; [reflexivity|].
  split; [reflexivity|].
  split; [reflexivity|].
  split; [intros; cbv [j J_efjc_isometric_asymptotic_alternative_legendre.init J_efjc_isometric_asymptotic_alternative_legendre.force]; rewrite F_efjc_isometric_asymptotic_alternative_legendre_force; unfold O_efjc_isometric_asymptotic_alternative_legendre.force; broadcast_numbers|].
  split; [intros; cbv [j J_efjc_isometric_asymptotic_alternative_legendre.init J_efjc_isometric_asymptotic_alternative_legendre.nondimensional_force]; rewrite F_efjc_isometric_asymptotic_alternative_legendre_nondimensional_force; unfold O_efjc_isometric_asymptotic_alternative_legendre.nondimensional_force; broadcast_numbers|].
  split; [intros; cbv [j J_efjc_isometric_asymptotic_alternative_legendre.init J_efjc_isometric_asymptotic_alternative_legendre.helmholtz_free_energy]; rewrite F_efjc_isometric_asymptotic_alternative_legendre_helmholtz_free_energy; unfold O_efjc_isometric_asymptotic_alternative_legendre.helmholtz_free_energy; broadcast_numbers|].
  split; [intros; cbv [j J_efjc_isometric_asymptotic_alternative_legendre.init J_efjc_isometric_asymptotic_alternative_legendre.helmholtz_free_energy_per_link]; rewrite F_efjc_isometric_asymptotic_alternative_legendre_helmholtz_free_energy_per_link; unfold O_efjc_isometric_asymptotic_alternative_legendre.helmholtz_free_energy_per_link; broadcast_numbers|].
  split; [intros; cbv [j J_efjc_isometric_asymptotic_alternative_legendre.init J_efjc_isometric_asymptotic_alternative_legendre.relative_helmholtz_free_energy]; rewrite F_efjc_isometric_asymptotic_alternative_legendre_relative_helmholtz_free_energy; unfold O_efjc_isometric_asymptotic_alternative_legendre.relative_helmholtz_free_energy; broadcast_numbers|].
  split; [intros; cbv [j J_efjc_isometric_asymptotic_alternative_legendre.init J_efjc_isometric_asymptotic_alternative_legendre.relative_helmholtz_free_energy_per_link]; rewrite F_efjc_isometric_asymptotic_alternative_legendre_relative_helmholtz_free_energy_per_link; unfold O_efjc_isometric_asymptotic_alternative_legendre.relative_helmholtz_free_energy_per_link; broadcast_numbers|].
  split; [intros; cbv [j J_efjc_isometric_asymptotic_alternative_legendre.init J_efjc_isometric_asymptotic_alternative_legendre.nondimensional_helmholtz_free_energy]; rewrite F_efjc_isometric_asymptotic_alternative_legendre_nondimensional_helmholtz_free_energy; unfold O_efjc_isometric_asymptotic_alternative_legendre.nondimensional_helmholtz_free_energy; broadcast_numbers|].
  split; [intros; cbv [j J_efjc_isometric_asymptotic_alternative_legendre.init J_efjc_isometric_asymptotic_alternative_legendre.nondimensional_helmholtz_free_energy_per_link]; rewrite F_efjc_isometric_asymptotic_alternative_legendre_nondimensional_helmholtz_free_energy_per_link; unfold O_efjc_isometric_asymptotic_alternative_legendre.nondimensional_helmholtz_free_energy_per_link; broadcast_numbers|].
  split; [intros; cbv [j J_efjc_isometric_asymptotic_alternative_legendre.init J_efjc_isometric_asymptotic_alternative_legendre.nondimensional_relative_helmholtz_free_energy]; rewrite F_efjc_isometric_asymptotic_alternative_legendre_nondimensional_relative_helmholtz_free_energy; unfold O_efjc_isometric_asymptotic_alternative_legendre.nondimensional_relative_helmholtz_free_energy; broadcast_numbers|].
  intros; cbv [j J_efjc_isometric_asymptotic_alternative_legendre.init J_efjc_isometric_asymptotic_alternative_legendre.nondimensional_relative_helmholtz_free_energy_per_link]; rewrite F_efjc_isometric_asymptotic_alternative_legendre_nondimensional_relative_helmholtz_free_energy_per_link; unfold O_efjc_isometric_asymptotic_alternative_legendre.nondimensional_relative_helmholtz_free_energy_per_link; broadcast_numbers.
Qed.
Print Assumptions C61_object_efjc_isometric_asymptotic_alternative_legendre.

Theorem C61_functions_efjc_isometric_asymptotic_reduced_legendre : forall (T : Type) (Sc : Scalar T),
  (forall (number_of_links : jarray Z) (link_length : jarray T) (link_stiffness : jarray T) (end_to_end_length : jarray T) (temperature : jarray T),
     jl_efjc_isometric_asymptotic_reduced_legendre.force number_of_links link_length link_stiffness end_to_end_length temperature
     = broadcast [UInt8; Float64; Float64; Float64; Float64] (fun number_of_links link_length link_stiffness end_to_end_length temperature =>
         Finished (Some (efjc_isometric_asymptotic_reduced_legendre.force number_of_links link_length link_stiffness end_to_end_length temperature))) number_of_links link_length link_stiffness end_to_end_length temperature)
  /\ (forall (nondimensional_link_stiffness : jarray T) (nondimensional_end_to_end_length_per_link : jarray T),
     jl_efjc_isometric_asymptotic_reduced_legendre.nondimensional_force nondimensional_link_stiffness nondimensional_end_to_end_length_per_link
     = broadcast [Float64; Float64] (fun nondimensional_link_stiffness nondimensional_end_to_end_length_per_link =>
         Finished (Some (efjc_isometric_asymptotic_reduced_legendre.nondimensional_force nondimensional_link_stiffness nondimensional_end_to_end_length_per_link))) nondimensional_link_stiffness nondimensional_end_to_end_length_per_link)
  /\ (forall (number_of_links : jarray Z) (link_length : jarray T) (hinge_mass : jarray T) (link_stiffness : jarray T) (end_to_end_length : jarray T) (temperature : jarray T),
     jl_efjc_isometric_asymptotic_reduced_legendre.helmholtz_free_energy number_of_links link_length hinge_mass link_stiffness end_to_end_length temperature
     = broadcast [UInt8; Float64; Float64; Float64; Float64; Float64] (fun number_of_links link_length hinge_mass link_stiffness end_to_end_length temperature =>
         Finished (Some (efjc_isometric_asymptotic_reduced_legendre.helmholtz_free_energy number_of_links link_length hinge_mass link_stiffness end_to_end_length temperature))) number_of_links link_length hinge_mass link_stiffness end_to_end_length temperature)
  /\ (forall (number_of_links : jarray Z) (link_length : jarray T) (hinge_mass : jarray T) (link_stiffness : jarray T) (end_to_end_length : jarray T) (temperature : jarray T),
     jl_efjc_isometric_asymptotic_reduced_legendre.helmholtz_free_energy_per_link number_of_links link_length hinge_mass link_stiffness end_to_end_length temperature
     = broadcast [UInt8; Float64; Float64; Float64; Float64; Float64] (fun number_of_links link_length hinge_mass link_stiffness end_to_end_length temperature =>
         Finished (Some (efjc_isometric_asymptotic_reduced_legendre.helmholtz_free_energy_per_link number_of_links link_length hinge_mass link_stiffness end_to_end_length temperature))) number_of_links link_length hinge_mass link_stiffness end_to_end_length temperature)
  /\ (forall (number_of_links : jarray Z) (link_length : jarray T) (link_stiffness : jarray T) (end_to_end_length : jarray T) (temperature : jarray T),
     jl_efjc_isometric_asymptotic_reduced_legendre.relative_helmholtz_free_energy number_of_links link_length link_stiffness end_to_end_length temperature
     = broadcast [UInt8; Float64; Float64; Float64; Float64] (fun number_of_links link_length link_stiffness end_to_end_length temperature =>
         Finished (Some (efjc_isometric_asymptotic_reduced_legendre.relative_helmholtz_free_energy number_of_links link_length link_stiffness end_to_end_length temperature))) number_of_links link_length link_stiffness end_to_end_length temperature)
  /\ (forall (number_of_links : jarray Z) (link_length : jarray T) (link_stiffness : jarray T) (end_to_end_length : jarray T) (temperature : jarray T),
     jl_efjc_isometric_asymptotic_reduced_legendre.relative_helmholtz_free_energy_per_link number_of_links link_length link_stiffness end_to_end_length temperature
     = broadcast [UInt8; Float64; Float64; Float64; Float64] (fun number_of_links link_length link_stiffness end_to_end_length temperature =>
         Finished (Some (efjc_isometric_asymptotic_reduced_legendre.relative_helmholtz_free_energy_per_link number_of_links link_length link_stiffness end_to_end_length temperature))) number_of_links link_length link_stiffness end_to_end_length temperature)
  /\ (forall (number_of_links : jarray Z) (link_length : jarray T) (hinge_mass : jarray T) (nondimensional_link_stiffness : jarray T) (nondimensional_end_to_end_length_per_link : jarray T) (temperature : jarray T),
     jl_efjc_isometric_asymptotic_reduced_legendre.nondimensional_helmholtz_free_energy number_of_links link_length hinge_mass nondimensional_link_stiffness nondimensional_end_to_end_length_per_link temperature
     = broadcast [UInt8; Float64; Float64; Float64; Float64; Float64] (fun number_of_links link_length hinge_mass nondimensional_link_stiffness nondimensional_end_to_end_length_per_link temperature =>
         Finished (Some (efjc_isometric_asymptotic_reduced_legendre.nondimensional_helmholtz_free_energy number_of_links link_length hinge_mass nondimensional_link_stiffness nondimensional_end_to_end_length_per_link temperature))) number_of_links link_length hinge_mass nondimensional_link_stiffness nondimensional_end_to_end_length_per_link temperature)
  /\ (forall (number_of_links : jarray Z) (link_length : jarray T) (hinge_mass : jarray T) (nondimensional_link_stiffness : jarray T) (nondimensional_end_to_end_length_per_link : jarray T) (temperature : jarray T),
     jl_efjc_isometric_asymptotic_reduced_legendre.nondimensional_helmholtz_free_energy_per_link number_of_links link_length hinge_mass nondimensional_link_stiffness nondimensional_end_to_end_length_per_link temperature
     = broadcast [UInt8; Float64; Float64; Float64; Float64; Float64] (fun number_of_links link_length hinge_mass nondimensional_link_stiffness nondimensional_end_to_end_length_per_link temperature =>
         Finished (Some (efjc_isometric_asymptotic_reduced_legendre.nondimensional_helmholtz_free_energy_per_link number_of_links link_length hinge_mass nondimensional_link_stiffness nondimensional_end_to_end_length_per_link temperature))) number_of_links link_length hinge_mass nondimensional_link_stiffness nondimensional_end_to_end_length_per_link temperature)
  /\ (forall (number_of_links : jarray Z) (nondimensional_link_stiffness : jarray T) (nondimensional_end_to_end_length_per_link : jarray T),
     jl_efjc_isometric_asymptotic_reduced_legendre.nondimensional_relative_helmholtz_free_energy number_of_links nondimensional_link_stiffness nondimensional_end_to_end_length_per_link
     = broadcast [UInt8; Float64; Float64] (fun number_of_links nondimensional_link_stiffness nondimensional_end_to_end_length_per_link =>
         Finished (Some (efjc_isometric_asymptotic_reduced_legendre.nondimensional_relative_helmholtz_free_energy number_of_links nondimensional_link_stiffness nondimensional_end_to_end_length_per_link))) number_of_links nondimensional_link_stiffness nondimensional_end_to_end_length_per_link)
  /\ (forall (nondimensional_link_stiffness : jarray T) (nondimensional_end_to_end_length_per_link : jarray T),
     jl_efjc_isometric_asymptotic_reduced_legendre.nondimensional_relative_helmholtz_free_energy_per_link nondimensional_link_stiffness nondimensional_end_to_end_length_per_link
     = broadcast [Float64; Float64] (fun nondimensional_link_stiffness nondimensional_end_to_end_length_per_link =>
         Finished (Some (efjc_isometric_asymptotic_reduced_legendre.nondimensional_relative_helmholtz_free_energy_per_link nondimensional_link_stiffness nondimensional_end_to_end_length_per_link))) nondimensional_link_stiffness nondimensional_end_to_end_length_per_link).
Proof.
  exact (fun T Sc => conj (@F_efjc_isometric_asymptotic_reduced_legendre_force T Sc)
    (conj (@F_efjc_isometric_asymptotic_reduced_legendre_nondimensional_force T Sc)
    (conj (@F_efjc_isometric_asymptotic_reduced_legendre_helmholtz_free_energy T Sc)
    (conj (@F_efjc_isometric_asymptotic_reduced_legendre_helmholtz_free_energy_per_link T Sc)
    (conj (@F_efjc_isometric_asymptotic_reduced_legendre_relative_helmholtz_free_energy T Sc)
    (conj (@F_efjc_isometric_asymptotic_reduced_legendre_relative_helmholtz_free_energy_per_link T Sc)
    (conj (@F_efjc_isometric_asymptotic_reduced_legendre_nondimensional_helmholtz_free_energy T Sc)
    (conj (@F_efjc_isometric_asymptotic_reduced_legendre_nondimensional_helmholtz_free_energy_per_link T Sc)
    (conj (@F_efjc_isometric_asymptotic_reduced_legendre_nondimensional_relative_helmholtz_free_energy T Sc)
    (@F_efjc_isometric_asymptotic_reduced_legendre_nondimensional_relative_helmholtz_free_energy_per_link T Sc)))))))))).
Qed.
Print Assumptions C61_functions_efjc_isometric_asymptotic_reduced_legendre.

Theorem C61_object_efjc_isometric_asymptotic_reduced_legendre : forall (T : Type) (Sc : Scalar T) (number_of_links : Z) (link_length : T) (hinge_mass : T) (link_stiffness : T),
  let j := J_efjc_isometric_asymptotic_reduced_legendre.init number_of_links link_length hinge_mass link_stiffness in
  let r := O_efjc_isometric_asymptotic_reduced_legendre.init number_of_links link_length hinge_mass link_stiffness in
  J_efjc_isometric_asymptotic_reduced_legendre.number_of_links j = O_efjc_isometric_asymptotic_reduced_legendre.number_of_links r
  /\ J_efjc_isometric_asymptotic_reduced_legendre.link_length j = O_efjc_isometric_asymptotic_reduced_legendre.link_length r
  /\ J_efjc_isometric_asymptotic_reduced_legendre.hinge_mass j = O_efjc_isometric_asymptotic_reduced_legendre.hinge_mass r
  /\ J_efjc_isometric_asymptotic_reduced_legendre.link_stiffness j = O_efjc_isometric_asymptotic_reduced_legendre.link_stiffness r
  /\ (forall (end_to_end_length : jarray T) (temperature : jarray T),
     J_efjc_isometric_asymptotic_reduced_legendre.force j end_to_end_length temperature
     = broadcast [Float64; Float64] (fun end_to_end_length temperature =>
         Finished (Some (O_efjc_isometric_asymptotic_reduced_legendre.force r end_to_end_length temperature))) end_to_end_length temperature)
  /\ (forall (nondimensional_end_to_end_length_per_link : jarray T) (temperature : T),
     J_efjc_isometric_asymptotic_reduced_legendre.nondimensional_force j nondimensional_end_to_end_length_per_link temperature
     = broadcast [Float64] (fun nondimensional_end_to_end_length_per_link =>
         Finished (Some (O_efjc_isometric_asymptotic_reduced_legendre.nondimensional_force r nondimensional_end_to_end_length_per_link temperature))) nondimensional_end_to_end_length_per_link)
  /\ (forall (end_to_end_length : jarray T) (temperature : jarray T),
     J_efjc_isometric_asymptotic_reduced_legendre.helmholtz_free_energy j end_to_end_length temperature
     = broadcast [Float64; Float64] (fun end_to_end_length temperature =>
         Finished (Some (O_efjc_isometric_asymptotic_reduced_legendre.helmholtz_free_energy r end_to_end_length temperature))) end_to_end_length temperature)
  /\ (forall (end_to_end_length : jarray T) (temperature : jarray T),
     J_efjc_isometric_asymptotic_reduced_legendre.helmholtz_free_energy_per_link j end_to_end_length temperature
     = broadcast [Float64; Float64] (fun end_to_end_length temperature =>
         Finished (Some (O_efjc_isometric_asymptotic_reduced_legendre.helmholtz_free_energy_per_link r end_to_end_length temperature))) end_to_end_length temperature)
  /\ (forall (end_to_end_length : jarray T) (temperature : jarray T),
     J_efjc_isometric_asymptotic_reduced_legendre.relative_helmholtz_free_energy j end_to_end_length temperature
     = broadcast [Float64; Float64] (fun end_to_end_length temperature =>
         Finished (Some (O_efjc_isometric_asymptotic_reduced_legendre.relative_helmholtz_free_energy r end_to_end_length temperature))) end_to_end_length temperature)
  /\ (forall (end_to_end_length : jarray T) (temperature : jarray T),
     J_efjc_isometric_asymptotic_reduced_legendre.relative_helmholtz_free_energy_per_link j end_to_end_length temperature
     = broadcast [Float64; Float64] (fun end_to_end_length temperature =>
         Finished (Some (O_efjc_isometric_asymptotic_reduced_legendre.relative_helmholtz_free_energy_per_link r end_to_end_length temperature))) end_to_end_length temperature)
  /\ (forall (nondimensional_end_to_end_length_per_link : jarray T) (temperature : T),
     J_efjc_isometric_asymptotic_reduced_legendre.nondimensional_helmholtz_free_energy j nondimensional_end_to_end_length_per_link temperature
     = broadcast [Float64] (fun nondimensional_end_to_end_length_per_link =>
         Finished (Some (O_efjc_isometric_asymptotic_reduced_legendre.nondimensional_helmholtz_free_energy r nondimensional_end_to_end_length_per_link temperature))) nondimensional_end_to_end_length_per_link)
  /\ (forall (nondimensional_end_to_end_length_per_link : jarray T) (temperature : T),
     J_efjc_isometric_asymptotic_reduced_legendre.nondimensional_helmholtz_free_energy_per_link j nondimensional_end_to_end_length_per_link temperature
     = broadcast [Float64] (fun nondimensional_end_to_end_length_per_link =>
         Finished (Some (O_efjc_isometric_asymptotic_reduced_legendre.nondimensional_helmholtz_free_energy_per_link r nondimensional_end_to_end_length_per_link temperature))) nondimensional_end_to_end_length_per_link)
  /\ (forall (nondimensional_end_to_end_length_per_link : jarray T) (temperature : T),
     J_efjc_isometric_asymptotic_reduced_legendre.nondimensional_relative_helmholtz_free_energy j nondimensional_end_to_end_length_per_link temperature
     = broadcast [Float64] (fun nondimensional_end_to_end_length_per_link =>
         Finished (Some (O_efjc_isometric_asymptotic_reduced_legendre.nondimensional_relative_helmholtz_free_energy r nondimensional_end_to_end_length_per_link temperature))) nondimensional_end_to_end_length_per_link)
  /\ (forall (nondimensional_end_to_end_length_per_link : jarray T) (temperature : T),
     J_efjc_isometric_asymptotic_reduced_legendre.nondimensional_relative_helmholtz_free_energy_per_link j nondimensional_end_to_end_length_per_link temperature
     = broadcast [Float64] (fun nondimensional_end_to_end_length_per_link =>
         Finished (Some (O_efjc_isometric_asymptotic_reduced_legendre.nondimensional_relative_helmholtz_free_energy_per_link r nondimensional_end_to_end_length_per_link temperature))) nondimensional_end_to_end_length_per_link).
Proof. intros T Sc number_of_links link_length hinge_mass link_stiffness j r.
  split; [reflexivity|].
  split; [reflexivity|].
  split; [reflexivity|].
  split; [reflexivity|].
  split; [intros; cbv [j J_efjc_isometric_asymptotic_reduced_legendre.init J_efjc_isometric_asymptotic_reduced_legendre.force]; rewrite F_efjc_isometric_asymptotic_reduced_legendre_force; unfold O_efjc_isometric_asymptotic_reduced_legendre.force; broadcast_numbers|].
  split; [intros; cbv [j J_efjc_isometric_asymptotic_reduced_legendre.init J_efjc_isometric_asymptotic_reduced_legendre.nondimensional_force]; rewrite F_efjc_isometric_asymptotic_reduced_legendre_nondimensional_force; unfold O_efjc_isometric_asymptotic_reduced_legendre.nondimensional_force; broadcast_numbers|].
  split; [intros; cbv [j J_efjc_isometric_asymptotic_reduced_legendre.init J_efjc_isometric_asymptotic_reduced_legendre.helmholtz_free_energy]; rewrite F_efjc_isometric_asymptotic_reduced_legendre_helmholtz_free_energy; unfold O_efjc_isometric_asymptotic_reduced_legendre.helmholtz_free_energy; broadcast_numbers|].
  split; [intros; cbv [j J_efjc_isometric_asymptotic_reduced_legendre.init J_efjc_isometric_asymptotic_reduced_legendre.helmholtz_free_energy_per_link]; rewrite F_efjc_isometric_asymptotic_reduced_legendre_helmholtz_free_energy_per_link; unfold O_efjc_isometric_asymptotic_reduced_legendre.helmholtz_free_energy_per_link; broadcast_numbers|].
  split; [intros; cbv [j J_efjc_isometric_asymptotic_reduced_legendre.init J_efjc_isometric_asymptotic_reduced_legendre.relative_helmholtz_free_energy]; rewrite F_efjc_isometric_asymptotic_reduced_legendre_relative_helmholtz_free_energy; unfold O_efjc_isometric_asymptotic_reduced_legendre.relative_helmholtz_free_energy; broadcast_numbers|].
  split; [intros; cbv [j J_efjc_isometric_asymptotic_reduced_legendre.init J_efjc_isometric_asymptotic_reduced_legendre.relative_helmholtz_free_energy_per_link]; rewrite F_efjc_isometric_asymptotic_reduced_legendre_relative_helmholtz_free_energy_per_link; unfold O_efjc_isometric_asymptotic_reduced_legendre.relative_helmholtz_free_energy_per_link; broadcast_numbers|].
  split; [intros; cbv [j J_efjc_isometric_asymptotic_reduced_legendre.init J_efjc_isometric_asymptotic_reduced_legendre.nondimensional_helmholtz_free_energy]; rewrite F_efjc_isometric_asymptotic_reduced_legendre_nondimensional_helmholtz_free_energy; unfold O_efjc_isometric_asymptotic_reduced_legendre.nondimensional_helmholtz_free_energy; broadcast_numbers|].
  split; [intros; cbv [j J_efjc_isometric_asymptotic_reduced_legendre.init J_efjc_isometric_asymptotic_reduced_legendre.nondimensional_helmholtz_free_energy_per_link]; rewrite F_efjc_isometric_asymptotic_reduced_legendre_nondimensional_helmholtz_free_energy_per_link; unfold O_efjc_isometric_asymptotic_reduced_legendre.nondimensional_helmholtz_free_energy_per_link; broadcast_numbers|].
  split; [intros; cbv [j J_efjc_isometric_asymptotic_reduced_legendre.init J_efjc_isometric_asymptotic_reduced_legendre.nondimensional_relative_helmholtz_free_energy]; rewrite F_efjc_isometric_asymptotic_reduced_legendre_nondimensional_relative_helmholtz_free_energy; unfold O_efjc_isometric_asymptotic_reduced_legendre.nondimensional_relative_helmholtz_free_energy; broadcast_numbers|].
  intros; cbv [j J_efjc_isometric_asymptotic_reduced_legendre.init J_efjc_isometric_asymptotic_reduced_legendre.nondimensional_relative_helmholtz_free_energy_per_link]; rewrite F_efjc_isometric_asymptotic_reduced_legendre_nondimensional_relative_helmholtz_free_energy_per_link; unfold O_efjc_isometric_asymptotic_reduced_legendre.nondimensional_relative_helmholtz_free_energy_per_link; broadcast_numbers.
Qed.
Print Assumptions C61_object_efjc_isometric_asymptotic_reduced_legendre.

Theorem C61_functions_efjc_isotensional_asymptotic_alternative_legendre : forall (T : Type) (Sc : Scalar T),
  (forall (number_of_links : jarray Z) (link_length : jarray T) (hinge_mass : jarray T) (link_stiffness : jarray T) (force : jarray T) (temperature : jarray T),
     jl_efjc_isotensional_asymptotic_alternative_legendre.helmholtz_free_energy number_of_links link_length hinge_mass link_stiffness force temperature
     = broadcast [UInt8; Float64; Float64; Float64; Float64; Float64] (fun number_of_links link_length hinge_mass link_stiffness force temperature =>
         Finished (Some (efjc_isotensional_asymptotic_alternative_legendre.helmholtz_free_energy number_of_links link_length hinge_mass link_stiffness force temperature))) number_of_links link_length hinge_mass link_stiffness force temperature)
  /\ (forall (link_length : jarray T) (hinge_mass : jarray T) (link_stiffness : jarray T) (force : jarray T) (temperature : jarray T),
     jl_efjc_isotensional_asymptotic_alternative_legendre.helmholtz_free_energy_per_link link_length hinge_mass link_stiffness force temperature
     = broadcast [Float64; Float64; Float64; Float64; Float64] (fun link_length hinge_mass link_stiffness force temperature =>
         Finished (Some (efjc_isotensional_asymptotic_alternative_legendre.helmholtz_free_energy_per_link link_length hinge_mass link_stiffness force temperature))) link_length hinge_mass link_stiffness force temperature)
  /\ (forall (number_of_links : jarray Z) (link_length : jarray T) (link_stiffness : jarray T) (force : jarray T) (temperature : jarray T),
     jl_efjc_isotensional_asymptotic_alternative_legendre.relative_helmholtz_free_energy number_of_links link_length link_stiffness force temperature
     = broadcast [UInt8; Float64; Float64; Float64; Float64] (fun number_of_links link_length link_stiffness force temperature =>
         Finished (Some (efjc_isotensional_asymptotic_alternative_legendre.relative_helmholtz_free_energy number_of_links link_length link_stiffness force temperature))) number_of_links link_length link_stiffness force temperature)
  /\ (forall (link_length : jarray T) (link_stiffness : jarray T) (force : jarray T) (temperature : jarray T),
     jl_efjc_isotensional_asymptotic_alternative_legendre.relative_helmholtz_free_energy_per_link link_length link_stiffness force temperature
     = broadcast [Float64; Float64; Float64; Float64] (fun link_length link_stiffness force temperature =>
         Finished (Some (efjc_isotensional_asymptotic_alternative_legendre.relative_helmholtz_free_energy_per_link link_length link_stiffness force temperature))) link_length link_stiffness force temperature)
  /\ (forall (number_of_links : jarray Z) (link_length : jarray T) (hinge_mass : jarray T) (nondimensional_link_stiffness : jarray T) (nondimensional_force : jarray T) (temperature : jarray T),
     jl_efjc_isotensional_asymptotic_alternative_legendre.nondimensional_helmholtz_free_energy number_of_links link_length hinge_mass nondimensional_link_stiffness nondimensional_force temperature
     = broadcast [UInt8; Float64; Float64; Float64; Float64; Float64] (fun number_of_links link_length hinge_mass nondimensional_link_stiffness nondimensional_force temperature =>
         Finished (Some (efjc_isotensional_asymptotic_alternative_legendre.nondimensional_helmholtz_free_energy number_of_links link_length hinge_mass nondimensional_link_stiffness nondimensional_force temperature))) number_of_links link_length hinge_mass nondimensional_link_stiffness nondimensional_force temperature)
  /\ (forall (link_length : jarray T) (hinge_mass : jarray T) (nondimensional_link_stiffness : jarray T) (nondimensional_force : jarray T) (temperature : jarray T),
     jl_efjc_isotensional_asymptotic_alternative_legendre.nondimensional_helmholtz_free_energy_per_link link_length hinge_mass nondimensional_link_stiffness nondimensional_force temperature
     = broadcast [Float64; Float64; Float64; Float64; Float64] (fun link_length hinge_mass nondimensional_link_stiffness nondimensional_force temperature =>
         Finished (Some (efjc_isotensional_asymptotic_alternative_legendre.nondimensional_helmholtz_free_energy_per_link link_length hinge_mass nondimensional_link_stiffness nondimensional_force temperature))) link_length hinge_mass nondimensional_link_stiffness nondimensional_force temperature)
  /\ (forall (number_of_links : jarray Z) (nondimensional_link_stiffness : jarray T) (nondimensional_force : jarray T),
     jl_efjc_isotensional_asymptotic_alternative_legendre.nondimensional_relative_helmholtz_free_energy number_of_links nondimensional_link_stiffness nondimensional_force
     = broadcast [UInt8; Float64; Float64] (fun number_of_links nondimensional_link_stiffness nondimensional_force =>
         Finished (Some (efjc_isotensional_asymptotic_alternative_legendre.nondimensional_relative_helmholtz_free_energy number_of_links nondimensional_link_stiffness nondimensional_force))) number_of_links nondimensional_link_stiffness nondimensional_force)
  /\ (forall (nondimensional_link_stiffness : jarray T) (nondimensional_force : jarray T),
     jl_efjc_isotensional_asymptotic_alternative_legendre.nondimensional_relative_helmholtz_free_energy_per_link nondimensional_link_stiffness nondimensional_force
     = broadcast [Float64; Float64] (fun nondimensional_link_stiffness nondimensional_force =>
         Finished (Some (efjc_isotensional_asymptotic_alternative_legendre.nondimensional_relative_helmholtz_free_energy_per_link nondimensional_link_stiffness nondimensional_force))) nondimensional_link_stiffness nondimensional_force).
Proof.
  exact (fun T Sc => conj (@F_efjc_isotensional_asymptotic_alternative_legendre_helmholtz_free_energy T Sc)
    (conj (@F_efjc_isotensional_asymptotic_alternative_legendre_helmholtz_free_energy_per_link T Sc)
    (conj (@F_efjc_isotensional_asymptotic_alternative_legendre_relative_helmholtz_free_energy T Sc)
    (conj (@F_efjc_isotensional_asymptotic_alternative_legendre_relative_helmholtz_free_energy_per_link T Sc)
    (conj (@F_efjc_isotensional_asymptotic_alternative_legendre_nondimensional_helmholtz_free_energy T Sc)
    (conj (@F_efjc_isotensional_asymptotic_alternative_legendre_nondimensional_helmholtz_free_energy_per_link T Sc)
    (conj (@F_efjc_isotensional_asymptotic_alternative_legendre_nondimensional_relative_helmholtz_free_energy T Sc)
    (@F_efjc_isotensional_asymptotic_alternative_legendre_nondimensional_relative_helmholtz_free_energy_per_link T Sc)))))))).
Qed.
Print Assumptions C61_functions_efjc_isotensional_asymptotic_alternative_legendre.

Theorem C61_object_efjc_isotensional_asymptotic_alternative_legendre : forall (T : Type) (Sc : Scalar T) (number_of_links : Z) (link_length : T) (hinge_mass : T) (link_stiffness : T),
  let j := J_efjc_isotensional_asymptotic_alternative_legendre.init number_of_links link_length hinge_mass link_stiffness in
  let r := O_efjc_isotensional_asymptotic_alternative_legendre.init number_of_links link_length hinge_mass link_stiffness in
  J_efjc_isotensional_asymptotic_alternative_legendre.number_of_links j = O_efjc_isotensional_asymptotic_alternative_legendre.number_of_links r
  /\ J_efjc_isotensional_asymptotic_alternative_legendre.link_length j = O_efjc_isotensional_asymptotic_alternative_legendre.link_length r
  /\ J_efjc_isotensional_asymptotic_alternative_legendre.hinge_mass j = O_efjc_isotensional_asymptotic_alternative_legendre.hinge_mass r
  /\ J_efjc_isotensional_asymptotic_alternative_legendre.link_stiffness j = O_efjc_isotensional_asymptotic_alternative_legendre.link_stiffness r
  /\ (forall (force : jarray T) (temperature : jarray T),
     J_efjc_isotensional_asymptotic_alternative_legendre.helmholtz_free_energy j force temperature
     = broadcast [Float64; Float64] (fun force temperature =>
         Finished (Some (O_efjc_isotensional_asymptotic_alternative_legendre.helmholtz_free_energy r force temperature))) force temperature)
  /\ (forall (force : jarray T) (temperature : jarray T),
     J_efjc_isotensional_asymptotic_alternative_legendre.helmholtz_free_energy_per_link j force temperature
     = broadcast [Float64; Float64] (fun force temperature =>
         Finished (Some (O_efjc_isotensional_asymptotic_alternative_legendre.helmholtz_free_energy_per_link r force temperature))) force temperature)
  /\ (forall (force : jarray T) (temperature : jarray T),
     J_efjc_isotensional_asymptotic_alternative_legendre.relative_helmholtz_free_energy j force temperature
     = broadcast [Float64; Float64] (fun force temperature =>
         Finished (Some (O_efjc_isotensional_asymptotic_alternative_legendre.relative_helmholtz_free_energy r force temperature))) force temperature)
  /\ (forall (force : jarray T) (temperature : jarray T),
     J_efjc_isotensional_asymptotic_alternative_legendre.relative_helmholtz_free_energy_per_link j force temperature
     = broadcast [Float64; Float64] (fun force temperature =>
         Finished (Some (O_efjc_isotensional_asymptotic_alternative_legendre.relative_helmholtz_free_energy_per_link r force temperature))) force temperature)
  /\ (forall (nondimensional_force : jarray T) (temperature : T),
     J_efjc_isotensional_asymptotic_alternative_legendre.nondimensional_helmholtz_free_energy j nondimensional_force temperature
     = broadcast [Float64] (fun nondimensional_force =>
         Finished (Some (O_efjc_isotensional_asymptotic_alternative_legendre.nondimensional_helmholtz_free_energy r nondimensional_force temperature))) nondimensional_force)
  /\ (forall (nondimensional_force : jarray T) (temperature : T),
     J_efjc_isotensional_asymptotic_alternative_legendre.nondimensional_helmholtz_free_energy_per_link j nondimensional_force temperature
     = broadcast [Float64] (fun nondimensional_force =>
         Finished (Some (O_efjc_isotensional_asymptotic_alternative_legendre.nondimensional_helmholtz_free_energy_per_link r nondimensional_force temperature))) nondimensional_force)
  /\ (forall (nondimensional_force : jarray T) (temperature : T),
     J_efjc_isotensional_asymptotic_alternative_legendre.nondimensional_relative_helmholtz_free_energy j nondimensional_force temperature
     = broadcast [Float64] (fun nondimensional_force =>
         Finished (Some (O_efjc_isotensional_asymptotic_alternative_legendre.nondimensional_relative_helmholtz_free_energy r nondimensional_force temperature))) nondimensional_force)
  /\ (forall (nondimensional_force : jarray T) (temperature : T),
     J_efjc_isotensional_asymptotic_alternative_legendre.nondimensional_relative_helmholtz_free_energy_per_link j nondimensional_force temperature
     = broadcast [Float64] (fun nondimensional_force =>
         Finished (Some (O_efjc_isotensional_asymptotic_alternative_legendre.nondimensional_relative_helmholtz_free_energy_per_link r nondimensional_force temperature))) nondimensional_force).
Proof. intros T Sc number_of_links link_length hinge_mass link_stiffness j r.
  split; [reflexivity|].
  split; [reflexivity|].
  split; [reflexivity|].
  split; [reflexivity|].
  split; [intros; cbv [j J_efjc_isotensional_asymptotic_alternative_legendre.init J_efjc_isotensional_asymptotic_alternative_legendre.helmholtz_free_energy]; rewrite F_efjc_isotensional_asymptotic_alternative_legendre_helmholtz_free_energy; unfold O_efjc_isotensional_asymptotic_alternative_legendre.helmholtz_free_energy; broadcast_numbers|].
  split; [intros; cbv [j J_efjc_isotensional_asymptotic_alternative_legendre.init J_efjc_isotensional_asymptotic_alternative_legendre.helmholtz_free_energy_per_link]; rewrite F_efjc_isotensional_asymptotic_alternative_legendre_helmholtz_free_energy_per_link; unfold O_efjc_isotensional_asymptotic_alternative_legendre.helmholtz_free_energy_per_link; broadcast_numbers|].
  split; [intros; cbv [j J_efjc_isotensional_asymptotic_alternative_legendre.init J_efjc_isotensional_asymptotic_alternative_legendre.relative_helmholtz_free_energy]; rewrite F_efjc_isotensional_asymptotic_alternative_legendre_relative_helmholtz_free_energy; unfold O_efjc_isotensional_asymptotic_alternative_legendre.relative_helmholtz_free_energy; broadcast_numbers|].
  split; [intros; cbv [j J_efjc_isotensional_asymptotic_alternative_legendre.init J_efjc_isotensional_asymptotic_alternative_legendre.relative_helmholtz_free_energy_per_link]; rewrite F_efjc_isotensional_asymptotic_alternative_legendre_relative_helmholtz_free_energy_per_link; unfold O_efjc_isotensional_asymptotic_alternative_legendre.relative_helmholtz_free_energy_per_link; broadcast_numbers|].
  split; [intros; cbv [j J_efjc_isotensional_asymptotic_alternative_legendre.init J_efjc_isotensional_asymptotic_alternative_legendre.nondimensional_helmholtz_free_energy]; rewrite F_efjc_isotensional_asymptotic_alternative_legendre_nondimensional_helmholtz_free_energy; unfold O_efjc_isotensional_asymptotic_alternative_legendre.nondimensional_helmholtz_free_energy; broadcast_numbers|].
  split; [intros; cbv [j J_efjc_isotensional_asymptotic_alternative_legendre.init J_efjc_isotensional_asymptotic_alternative_legendre.nondimensional_helmholtz_free_energy_per_link]; rewrite F_efjc_isotensional_asymptotic_alternative_legendre_nondimensional_helmholtz_free_energy_per_link; unfold O_efjc_isotensional_asymptotic_alternative_legendre.nondimensional_helmholtz_free_energy_per_link; broadcast_numbers|].
  split; [intros; cbv [j J_efjc_isotensional_asymptotic_alternative_legendre.init J_efjc_isotensional_asymptotic_alternative_legendre.nondimensional_relative_helmholtz_free_energy]; rewrite F_efjc_isotensional_asymptotic_alternative_legendre_nondimensional_relative_helmholtz_free_energy; unfold O_efjc_isotensional_asymptotic_alternative_legendre.nondimensional_relative_helmholtz_free_energy; broadcast_numbers|].
  intros; cbv [j J_efjc_isotensional_asymptotic_alternative_legendre.init J_efjc_isotensional_asymptotic_alternative_legendre.nondimensional_relative_helmholtz_free_energy_per_link]; rewrite F_efjc_isotensional_asymptotic_alternative_legendre_nondimensional_relative_helmholtz_free_energy_per_link; unfold O_efjc_isotensional_asymptotic_alternative_legendre.nondimensional_relative_helmholtz_free_energy_per_link; broadcast_numbers.
Qed.
Print Assumptions C61_object_efjc_isotensional_asymptotic_alternative_legendre.

Theorem C61_functions_efjc_isotensional_asymptotic_reduced_legendre : forall (T : Type) (Sc : Scalar T),
  (forall (number_of_links : jarray Z) (link_length : jarray T) (hinge_mass : jarray T) (link_stiffness : jarray T) (force : jarray T) (temperature : jarray T),
     jl_efjc_isotensional_asymptotic_reduced_legendre.helmholtz_free_energy number_of_links link_length hinge_mass link_stiffness force temperature
     = broadcast [UInt8; Float64; Float64; Float64; Float64; Float64] (fun number_of_links link_length hinge_mass link_stiffness force temperature =>
         Finished (Some (efjc_isotensional_asymptotic_reduced_legendre.helmholtz_free_energy number_of_links link_length hinge_mass link_stiffness force temperature))) number_of_links link_length hinge_mass link_stiffness force temperature)
  /\ (forall (link_length : jarray T) (hinge_mass : jarray T) (link_stiffness : jarray T) (force : jarray T) (temperature : jarray T),
     jl_efjc_isotensional_asymptotic_reduced_legendre.helmholtz_free_energy_per_link link_length hinge_mass link_stiffness force temperature
     = broadcast [Float64; Float64; Float64; Float64; Float64] (fun link_length hinge_mass link_stiffness force temperature =>
         Finished (Some (efjc_isotensional_asymptotic_reduced_legendre.helmholtz_free_energy_per_link link_length hinge_mass link_stiffness force temperature))) link_length hinge_mass link_stiffness force temperature)
  /\ (forall (number_of_links : jarray Z) (link_length : jarray T) (link_stiffness : jarray T) (force : jarray T) (temperature : jarray T),
     jl_efjc_isotensional_asymptotic_reduced_legendre.relative_helmholtz_free_energy number_of_links link_length link_stiffness force temperature
     = broadcast [UInt8; Float64; Float64; Float64; Float64] (fun number_of_links link_length link_stiffness force temperature =>
         Finished (Some (efjc_isotensional_asymptotic_reduced_legendre.relative_helmholtz_free_energy number_of_links link_length link_stiffness force temperature))) number_of_links link_length link_stiffness force temperature)
  /\ (forall (link_length : jarray T) (link_stiffness : jarray T) (force : jarray T) (temperature : jarray T),
     jl_efjc_isotensional_asymptotic_reduced_legendre.relative_helmholtz_free_energy_per_link link_length link_stiffness force temperature
     = broadcast [Float64; Float64; Float64; Float64] (fun link_length link_stiffness force temperature =>
         Finished (Some (efjc_isotensional_asymptotic_reduced_legendre.relative_helmholtz_free_energy_per_link link_length link_stiffness force temperature))) link_length link_stiffness force temperature)
  /\ (forall (number_of_links : jarray Z) (link_length : jarray T) (hinge_mass : jarray T) (nondimensional_link_stiffness : jarray T) (nondimensional_force : jarray T) (temperature : jarray T),
     jl_efjc_isotensional_asymptotic_reduced_legendre.nondimensional_helmholtz_free_energy number_of_links link_length hinge_mass nondimensional_link_stiffness nondimensional_force temperature
     = broadcast [UInt8; Float64; Float64; Float64; Float64; Float64] (fun number_of_links link_length hinge_mass nondimensional_link_stiffness nondimensional_force temperature =>
         Finished (Some (efjc_isotensional_asymptotic_reduced_legendre.nondimensional_helmholtz_free_energy number_of_links link_length hinge_mass nondimensional_link_stiffness nondimensional_force temperature))) number_of_links link_length hinge_mass nondimensional_link_stiffness nondimensional_force temperature)
  /\ (forall (link_length : jarray T) (hinge_mass : jarray T) (nondimensional_link_stiffness : jarray T) (nondimensional_force : jarray T) (temperature : jarray T),
     jl_efjc_isotensional_asymptotic_reduced_legendre.nondimensional_helmholtz_free_energy_per_link link_length hinge_mass nondimensional_link_stiffness nondimensional_force temperature
     = broadcast [Float64; Float64; Float64; Float64; Float64] (fun link_length hinge_mass nondimensional_link_stiffness nondimensional_force temperature =>
         Finished (Some (efjc_isotensional_asymptotic_reduced_legendre.nondimensional_helmholtz_free_energy_per_link link_length hinge_mass nondimensional_link_stiffness nondimensional_force temperature))) link_length hinge_mass nondimensional_link_stiffness nondimensional_force temperature)
  /\ (forall (number_of_links : jarray Z) (nondimensional_link_stiffness : jarray T) (nondimensional_force : jarray T),
     jl_efjc_isotensional_asymptotic_reduced_legendre.nondimensional_relative_helmholtz_free_energy number_of_links nondimensional_link_stiffness nondimensional_force
     = broadcast [UInt8; Float64; Float64] (fun number_of_links nondimensional_link_stiffness nondimensional_force =>
         Finished (Some (efjc_isotensional_asymptotic_reduced_legendre.nondimensional_relative_helmholtz_free_energy number_of_links nondimensional_link_stiffness nondimensional_force))) number_of_links nondimensional_link_stiffness nondimensional_force)
  /\ (forall (nondimensional_link_stiffness : jarray T) (nondimensional_force : jarray T),
     jl_efjc_isotensional_asymptotic_reduced_legendre.nondimensional_relative_helmholtz_free_energy_per_link nondimensional_link_stiffness nondimensional_force
     = broadcast [Float64; Float64] (fun nondimensional_link_stiffness nondimensional_force =>
         Finished (Some (efjc_isotensional_asymptotic_reduced_legendre.nondimensional_relative_helmholtz_free_energy_per_link nondimensional_link_stiffness nondimensional_force))) nondimensional_link_stiffness nondimensional_force).
Proof.
  exact (fun T Sc => conj (@F_efjc_isotensional_asymptotic_reduced_legendre_helmholtz_free_energy T Sc)
    (conj (@F_efjc_isotensional_asymptotic_reduced_legendre_helmholtz_free_energy_per_link T Sc)
    (conj (@F_efjc_isotensional_asymptotic_reduced_legendre_relative_helmholtz_free_energy T Sc)
    (conj (@F_efjc_isotensional_asymptotic_reduced_legendre_relative_helmholtz_free_energy_per_link T Sc)
    (conj (@F_efjc_isotensional_asymptotic_reduced_legendre_nondimensional_helmholtz_free_energy T Sc)
    (conj (@F_efjc_isotensional_asymptotic_reduced_legendre_nondimensional_helmholtz_free_energy_per_link T Sc)
    (conj (@F_efjc_isotensional_asymptotic_reduced_legendre_nondimensional_relative_helmholtz_free_energy T Sc)
    (@F_efjc_isotensional_asymptotic_reduced_legendre_nondimensional_relative_helmholtz_free_energy_per_link T Sc)))))))).
Qed.
Print Assumptions C61_functions_efjc_isotensional_asymptotic_reduced_legendre.

Theorem C61_object_efjc_isotensional_asymptotic_reduced_legendre : forall (T : Type) (Sc : Scalar T) (number_of_links : Z) (link_length : T) (hinge_mass : T) (link_stiffness : T),
  let j := J_efjc_isotensional_asymptotic_reduced_legendre.init number_of_links link_length hinge_mass link_stiffness in
  let r := O_efjc_isotensional_asymptotic_reduced_legendre.init number_of_links link_length hinge_mass link_stiffness in
  J_efjc_isotensional_asymptotic_reduced_legendre.number_of_links j = O_efjc_isotensional_asymptotic_reduced_legendre.number_of_links r
  /\ J_efjc_isotensional_asymptotic_reduced_legendre.link_length j = O_efjc_isotensional_asymptotic_reduced_legendre.link_length r
  /\ J_efjc_isotensional_asymptotic_reduced_legendre.hinge_mass j = O_efjc_isotensional_asymptotic_reduced_legendre.hinge_mass r
  /\ J_efjc_isotensional_asymptotic_reduced_legendre.link_stiffness j = O_efjc_isotensional_asymptotic_reduced_legendre.link_stiffness r
  /\ (forall (force : jarray T) (temperature : jarray T),
     J_efjc_isotensional_asymptotic_reduced_legendre.helmholtz_free_energy j force temperature
     = broadcast [Float64; Float64] (fun force temperature =>
         Finished (Some (O_efjc_isotensional_asymptotic_reduced_legendre.helmholtz_free_energy r force temperature))) force temperature)
  /\ (forall (force : jarray T) (temperature : jarray T),
     J_efjc_isotensional_asymptotic_reduced_legendre.helmholtz_free_energy_per_link j force temperature
     = broadcast [Float64; Float64] (fun force temperature =>
         Finished (Some (O_efjc_isotensional_asymptotic_reduced_legendre.helmholtz_free_energy_per_link r force temperature))) force temperature)
  /\ (forall (force : jarray T) (temperature : jarray T),
     J_efjc_isotensional_asymptotic_reduced_legendre.relative_helmholtz_free_energy j force temperature
     = broadcast [Float64; Float64] (fun force temperature =>
         Finished (Some (O_efjc_isotensional_asymptotic_reduced_legendre.relative_helmholtz_free_energy r force temperature))) force temperature)
  /\ (forall (force : jarray T) (temperature : jarray T),
     J_efjc_isotensional_asymptotic_reduced_legendre.relative_helmholtz_free_energy_per_link j force temperature
     = broadcast [Float64; Float64] (fun force temperature =>
         Finished (Some (O_efjc_isotensional_asymptotic_reduced_legendre.relative_helmholtz_free_energy_per_link r force temperature))) force temperature)
  /\ (forall (nondimensional_force : jarray T) (temperature : T),
     J_efjc_isotensional_asymptotic_reduced_legendre.nondimensional_helmholtz_free_energy j nondimensional_force temperature
     = broadcast [Float64] (fun nondimensional_force =>
         Finished (Some (O_efjc_isotensional_asymptotic_reduced_legendre.nondimensional_helmholtz_free_energy r nondimensional_force temperature))) nondimensional_force)
  /\ (forall (nondimensional_force : jarray T) (temperature : T),
     J_efjc_isotensional_asymptotic_reduced_legendre.nondimensional_helmholtz_free_energy_per_link j nondimensional_force temperature
     = broadcast [Float64] (fun nondimensional_force =>
         Finished (Some (O_efjc_isotensional_asymptotic_reduced_legendre.nondimensional_helmholtz_free_energy_per_link r nondimensional_force temperature))) nondimensional_force)
  /\ (forall (nondimensional_force : jarray T) (temperature : T),
     J_efjc_isotensional_asymptotic_reduced_legendre.nondimensional_relative_helmholtz_free_energy j nondimensional_force temperature
     = broadcast [Float64] (fun nondimensional_force =>
         Finished (Some (O_efjc_isotensional_asymptotic_reduced_legendre.nondimensional_relative_helmholtz_free_energy r nondimensional_force temperature))) nondimensional_force)
  /\ (forall (nondimensional_force : jarray T) (temperature : T),
     J_efjc_isotensional_asymptotic_reduced_legendre.nondimensional_relative_helmholtz_free_energy_per_link j nondimensional_force temperature
     = broadcast [Float64] (fun nondimensional_force =>
         Finished (Some (O_efjc_isotensional_asymptotic_reduced_legendre.nondimensional_relative_helmholtz_free_energy_per_link r nondimensional_force temperature))) nondimensional_force).
Proof. intros T Sc number_of_links link_length hinge_mass link_stiffness j r.
  split; [reflexivity|].
  split; [reflexivity|].
  split; [reflexivity|].
  split; [reflexivity|].
  split; [intros; cbv [j J_efjc_isotensional_asymptotic_reduced_legendre.init J_efjc_isotensional_asymptotic_reduced_legendre.helmholtz_free_energy]; rewrite F_efjc_isotensional_asymptotic_reduced_legendre_helmholtz_free_energy; unfold O_efjc_isotensional_asymptotic_reduced_legendre.helmholtz_free_energy; broadcast_numbers|].
  split; [intros; cbv [j J_efjc_isotensional_asymptotic_reduced_legendre.init J_efjc_isotensional_asymptotic_reduced_legendre.helmholtz_free_energy_per_link]; rewrite F_efjc_isotensional_asymptotic_reduced_legendre_helmholtz_free_energy_per_link; unfold O_efjc_isotensional_asymptotic_reduced_legendre.helmholtz_free_energy_per_link; broadcast_numbers|].
  split; [intros; cbv [j J_efjc_isotensional_asymptotic_reduced_legendre.init J_efjc_isotensional_asymptotic_reduced_legendre.relative_helmholtz_free_energy]; rewrite F_efjc_isotensional_asymptotic_reduced_legendre_relative_helmholtz_free_energy; unfold O_efjc_isotensional_asymptotic_reduced_legendre.relative_helmholtz_free_energy; broadcast_numbers|].
  split; [intros; cbv [j J_efjc_isotensional_asymptotic_reduced_legendre.init J_efjc_isotensional_asymptotic_reduced_legendre.relative_helmholtz_free_energy_per_link]; rewrite F_efjc_isotensional_asymptotic_reduced_legendre_relative_helmholtz_free_energy_per_link; unfold O_efjc_isotensional_asymptotic_reduced_legendre.relative_helmholtz_free_energy_per_link; broadcast_numbers|].
  split; [intros; cbv [j J_efjc_isotensional_asymptotic_reduced_legendre.init J_efjc_isotensional_asymptotic_reduced_legendre.nondimensional_helmholtz_free_energy]; rewrite F_efjc_isotensional_asymptotic_reduced_legendre_nondimensional_helmholtz_free_energy; unfold O_efjc_isotensional_asymptotic_reduced_legendre.nondimensional_helmholtz_free_energy; broadcast_numbers|].
  split; [intros; cbv [j J_efjc_isotensional_asymptotic_reduced_legendre.init J_efjc_isotensional_asymptotic_reduced_legendre.nondimensional_helmholtz_free_energy_per_link]; rewrite F_efjc_isotensional_asymptotic_reduced_legendre_nondimensional_helmholtz_free_energy_per_link; unfold O_efjc_isotensional_asymptotic_reduced_legendre.nondimensional_helmholtz_free_energy_per_link; broadcast_numbers|].
  split; [intros; cbv [j J_efjc_isotensional_asymptotic_reduced_legendre.init J_efjc_isotensional_asymptotic_reduced_legendre.nondimensional_relative_helmholtz_free_energy]; rewrite F_efjc_isotensional_asymptotic_reduced_legendre_nondimensional_relative_helmholtz_free_energy; unfold O_efjc_isotensional_asymptotic_reduced_legendre.nondimensional_relative_helmholtz_free_energy; broadcast_numbers|].
  intros; cbv [j J_efjc_isotensional_asymptotic_reduced_legendre.init J_efjc_isotensional_asymptotic_reduced_legendre.nondimensional_relative_helmholtz_free_energy_per_link]; rewrite F_efjc_isotensional_asymptotic_reduced_legendre_nondimensional_relative_helmholtz_free_energy_per_link; unfold O_efjc_isotensional_asymptotic_reduced_legendre.nondimensional_relative_helmholtz_free_energy_per_link; broadcast_numbers.
Qed.
Print Assumptions C61_object_efjc_isotensional_asymptotic_reduced_legendre.

Theorem C61_functions_lennard_jones_isometric_asymptotic_legendre : forall (T : Type) (Sc : Scalar T),
  (forall (number_of_links : jarray Z) (link_length : jarray T) (link_stiffness : jarray T) (end_to_end_length : jarray T) (temperature : jarray T),
     jl_lennard_jones_isometric_asymptotic_legendre.force number_of_links link_length link_stiffness end_to_end_length temperature
     = broadcast [UInt8; Float64; Float64; Float64; Float64] (fun number_of_links link_length link_stiffness end_to_end_length temperature =>
         Finished (Some (lennard_jones_isometric_asymptotic_legendre.force number_of_links link_length link_stiffness end_to_end_length temperature))) number_of_links link_length link_stiffness end_to_end_length temperature)
  /\ (forall (nondimensional_link_stiffness : jarray T) (nondimensional_end_to_end_length_per_link : jarray T),
     jl_lennard_jones_isometric_asymptotic_legendre.nondimensional_force nondimensional_link_stiffness nondimensional_end_to_end_length_per_link
     = broadcast [Float64; Float64] (fun nondimensional_link_stiffness nondimensional_end_to_end_length_per_link =>
         Finished (Some (lennard_jones_isometric_asymptotic_legendre.nondimensional_force nondimensional_link_stiffness nondimensional_end_to_end_length_per_link))) nondimensional_link_stiffness nondimensional_end_to_end_length_per_link)
  /\ (forall (number_of_links : jarray Z) (link_length : jarray T) (hinge_mass : jarray T) (link_stiffness : jarray T) (end_to_end_length : jarray T) (temperature : jarray T),
     jl_lennard_jones_isometric_asymptotic_legendre.helmholtz_free_energy number_of_links link_length hinge_mass link_stiffness end_to_end_length temperature
     = broadcast [UInt8; Float64; Float64; Float64; Float64; Float64] (fun number_of_links link_length hinge_mass link_stiffness end_to_end_length temperature =>
         Finished (Some (lennard_jones_isometric_asymptotic_legendre.helmholtz_free_energy number_of_links link_length hinge_mass link_stiffness end_to_end_length temperature))) number_of_links link_length hinge_mass link_stiffness end_to_end_length temperature)
  /\ (forall (number_of_links : jarray Z) (link_length : jarray T) (hinge_mass : jarray T) (link_stiffness : jarray T) (end_to_end_length : jarray T) (temperature : jarray T),
     jl_lennard_jones_isometric_asymptotic_legendre.helmholtz_free_energy_per_link number_of_links link_length hinge_mass link_stiffness end_to_end_length temperature
     = broadcast [UInt8; Float64; Float64; Float64; Float64; Float64] (fun number_of_links link_length hinge_mass link_stiffness end_to_end_length temperature =>
         Finished (Some (lennard_jones_isometric_asymptotic_legendre.helmholtz_free_energy_per_link number_of_links link_length hinge_mass link_stiffness end_to_end_length temperature))) number_of_links link_length hinge_mass link_stiffness end_to_end_length temperature)
  /\ (forall (number_of_links : jarray Z) (link_length : jarray T) (link_stiffness : jarray T) (end_to_end_length : jarray T) (temperature : jarray T),
     jl_lennard_jones_isometric_asymptotic_legendre.relative_helmholtz_free_energy number_of_links link_length link_stiffness end_to_end_length temperature
     = broadcast [UInt8; Float64; Float64; Float64; Float64] (fun number_of_links link_length link_stiffness end_to_end_length temperature =>
         Finished (Some (lennard_jones_isometric_asymptotic_legendre.relative_helmholtz_free_energy number_of_links link_length link_stiffness end_to_end_length temperature))) number_of_links link_length link_stiffness end_to_end_length temperature)
  /\ (forall (number_of_links : jarray Z) (link_length : jarray T) (link_stiffness : jarray T) (end_to_end_length : jarray T) (temperature : jarray T),
     jl_lennard_jones_isometric_asymptotic_legendre.relative_helmholtz_free_energy_per_link number_of_links link_length link_stiffness end_to_end_length temperature
     = broadcast [UInt8; Float64; Float64; Float64; Float64] (fun number_of_links link_length link_stiffness end_to_end_length temperature =>
         Finished (Some (lennard_jones_isometric_asymptotic_legendre.relative_helmholtz_free_energy_per_link number_of_links link_length link_stiffness end_to_end_length temperature))) number_of_links link_length link_stiffness end_to_end_length temperature)
  /\ (forall (number_of_links : jarray Z) (link_length : jarray T) (hinge_mass : jarray T) (nondimensional_link_stiffness : jarray T) (nondimensional_end_to_end_length_per_link : jarray T) (temperature : jarray T),
     jl_lennard_jones_isometric_asymptotic_legendre.nondimensional_helmholtz_free_energy number_of_links link_length hinge_mass nondimensional_link_stiffness nondimensional_end_to_end_length_per_link temperature
     = broadcast [UInt8; Float64; Float64; Float64; Float64; Float64] (fun number_of_links link_length hinge_mass nondimensional_link_stiffness nondimensional_end_to_end_length_per_link temperature =>
         Finished (Some (lennard_jones_isometric_asymptotic_legendre.nondimensional_helmholtz_free_energy number_of_links link_length hinge_mass nondimensional_link_stiffness nondimensional_end_to_end_length_per_link temperature))) number_of_links link_length hinge_mass nondimensional_link_stiffness nondimensional_end_to_end_length_per_link temperature)
  /\ (forall (number_of_links : jarray Z) (link_length : jarray T) (hinge_mass : jarray T) (nondimensional_link_stiffness : jarray T) (nondimensional_end_to_end_length_per_link : jarray T) (temperature : jarray T),
     jl_lennard_jones_isometric_asymptotic_legendre.nondimensional_helmholtz_free_energy_per_link number_of_links link_length hinge_mass nondimensional_link_stiffness nondimensional_end_to_end_length_per_link temperature
     = broadcast [UInt8; Float64; Float64; Float64; Float64; Float64] (fun number_of_links link_length hinge_mass nondimensional_link_stiffness nondimensional_end_to_end_length_per_link temperature =>
         Finished (Some (lennard_jones_isometric_asymptotic_legendre.nondimensional_helmholtz_free_energy_per_link number_of_links link_length hinge_mass nondimensional_link_stiffness nondimensional_end_to_end_length_per_link temperature))) number_of_links link_length hinge_mass nondimensional_link_stiffness nondimensional_end_to_end_length_per_link temperature)
  /\ (forall (number_of_links : jarray Z) (nondimensional_link_stiffness : jarray T) (nondimensional_end_to_end_length_per_link : jarray T),
     jl_lennard_jones_isometric_asymptotic_legendre.nondimensional_relative_helmholtz_free_energy number_of_links nondimensional_link_stiffness nondimensional_end_to_end_length_per_link
     = broadcast [UInt8; Float64; Float64] (fun number_of_links nondimensional_link_stiffness nondimensional_end_to_end_length_per_link =>
         Finished (Some (lennard_jones_isometric_asymptotic_legendre.nondimensional_relative_helmholtz_free_energy number_of_links nondimensional_link_stiffness nondimensional_end_to_end_length_per_link))) number_of_links nondimensional_link_stiffness nondimensional_end_to_end_length_per_link)
  /\ (forall (nondimensional_link_stiffness : jarray T) (nondimensional_end_to_end_length_per_link : jarray T),
     jl_lennard_jones_isometric_asymptotic_legendre.nondimensional_relative_helmholtz_free_energy_per_link nondimensional_link_stiffness nondimensional_end_to_end_length_per_link
     = broadcast [Float64; Float64] (fun nondimensional_link_stiffness nondimensional_end_to_end_length_per_link =>
         Finished (Some (lennard_jones_isometric_asymptotic_legendre.nondimensional_relative_helmholtz_free_energy_per_link nondimensional_link_stiffness nondimensional_end_to_end_length_per_link))) nondimensional_link_stiffness nondimensional_end_to_end_length_per_link).
Proof.
  exact (fun T Sc => conj (@F_lennard_jones_isometric_asymptotic_legendre_force T Sc)
    (conj (@F_lennard_jones_isometric_asymptotic_legendre_nondimensional_force T Sc)
    (conj (@F_lennard_jones_isometric_asymptotic_legendre_helmholtz_free_energy T Sc)
    (conj (@F_lennard_jones_isometric_asymptotic_legendre_helmholtz_free_energy_per_link T Sc)
    (conj (@F_lennard_jones_isometric_asymptotic_legendre_relative_helmholtz_free_energy T Sc)
    (conj (@F_lennard_jones_isometric_asymptotic_legendre_relative_helmholtz_free_energy_per_link T Sc)
    (conj (@F_lennard_jones_isometric_asymptotic_legendre_nondimensional_helmholtz_free_energy T Sc)
    (conj (@F_lennard_jones_isometric_asymptotic_legendre_nondimensional_helmholtz_free_energy_per_link T Sc)
    (conj (@F_lennard_jones_isometric_asymptotic_legendre_nondimensional_relative_helmholtz_free_energy T Sc)
    (@F_lennard_jones_isometric_asymptotic_legendre_nondimensional_relative_helmholtz_free_energy_per_link T Sc)))))))))).
Qed.
Print Assumptions C61_functions_lennard_jones_isometric_asymptotic_legendre.

Theorem C61_object_lennard_jones_isometric_asymptotic_legendre : forall (T : Type) (Sc : Scalar T) (number_of_links : Z) (link_length : T) (hinge_mass : T) (link_stiffness : T),
  let j := J_lennard_jones_isometric_asymptotic_legendre.init number_of_links link_length hinge_mass link_stiffness in
  let r := O_lennard_jones_isometric_asymptotic_legendre.init number_of_links link_length hinge_mass link_stiffness in
  J_lennard_jones_isometric_asymptotic_legendre.number_of_links j = O_lennard_jones_isometric_asymptotic_legendre.number_of_links r
  /\ J_lennard_jones_isometric_asymptotic_legendre.link_length j = O_lennard_jones_isometric_asymptotic_legendre.link_length r
  /\ J_lennard_jones_isometric_asymptotic_legendre.hinge_mass j = O_lennard_jones_isometric_asymptotic_legendre.hinge_mass r
  /\ J_lennard_jones_isometric_asymptotic_legendre.link_stiffness j = O_lennard_jones_isometric_asymptotic_legendre.link_stiffness r
  /\ (forall (end_to_end_length : jarray T) (temperature : jarray T),
     J_lennard_jones_isometric_asymptotic_legendre.force j end_to_end_length temperature
     = broadcast [Float64; Float64] (fun end_to_end_length temperature =>
         Finished (Some (O_lennard_jones_isometric_asymptotic_legendre.force r end_to_end_length temperature))) end_to_end_length temperature)
  /\ (forall (nondimensional_end_to_end_length_per_link : jarray T) (temperature : T),
     J_lennard_jones_isometric_asymptotic_legendre.nondimensional_force j nondimensional_end_to_end_length_per_link temperature
     = broadcast [Float64] (fun nondimensional_end_to_end_length_per_link =>
         Finished (Some (O_lennard_jones_isometric_asymptotic_legendre.nondimensional_force r nondimensional_end_to_end_length_per_link temperature))) nondimensional_end_to_end_length_per_link)
  /\ (forall (end_to_end_length : jarray T) (temperature : jarray T),
     J_lennard_jones_isometric_asymptotic_legendre.helmholtz_free_energy j end_to_end_length temperature
     = broadcast [Float64; Float64] (fun end_to_end_length temperature =>
         Finished (Some (O_lennard_jones_isometric_asymptotic_legendre.helmholtz_free_energy r end_to_end_length temperature))) end_to_end_length temperature)
  /\ (forall (end_to_end_length : jarray T) (temperature : jarray T),
     J_lennard_jones_isometric_asymptotic_legendre.helmholtz_free_energy_per_link j end_to_end_length temperature
     = broadcast [Float64; Float64] (fun end_to_end_length temperature =>
         Finished (Some (O_lennard_jones_isometric_asymptotic_legendre.helmholtz_free_energy_per_link r end_to_end_length temperature))) end_to_end_length temperature)
  /\ (forall (end_to_end_length : jarray T) (temperature : jarray T),
     J_lennard_jones_isometric_asymptotic_legendre.relative_helmholtz_free_energy j end_to_end_length temperature
     = broadcast [Float64; Float64] (fun end_to_end_length temperature =>
         Finished (Some (O_lennard_jones_isometric_asymptotic_legendre.relative_helmholtz_free_energy r end_to_end_length temperature))) end_to_end_length temperature)
  /\ (forall (end_to_end_length : jarray T) (temperature : jarray T),
     J_lennard_jones_isometric_asymptotic_legendre.relative_helmholtz_free_energy_per_link j end_to_end_length temperature
     = broadcast [Float64; Float64] (fun end_to_end_length temperature =>
         Finished (Some (O_lennard_jones_isometric_asymptotic_legendre.relative_helmholtz_free_energy_per_link r end_to_end_length temperature))) end_to_end_length temperature)
  /\ (forall (nondimensional_end_to_end_length_per_link : jarray T) (temperature : T),
     J_lennard_jones_isometric_asymptotic_legendre.nondimensional_helmholtz_free_energy j nondimensional_end_to_end_length_per_link temperature
     = broadcast [Float64] (fun nondimensional_end_to_end_length_per_link =>
         Finished (Some (O_lennard_jones_isometric_asymptotic_legendre.nondimensional_helmholtz_free_energy r nondimensional_end_to_end_length_per_link temperature))) nondimensional_end_to_end_length_per_link)
  /\ (forall (nondimensional_end_to_end_length_per_link : jarray T) (temperature : T),
     J_lennard_jones_isometric_asymptotic_legendre.nondimensional_helmholtz_free_energy_per_link j nondimensional_end_to_end_length_per_link temperature
     = broadcast [Float64] (fun nondimensional_end_to_end_length_per_link =>
         Finished (Some (O_lennard_jones_isometric_asymptotic_legendre.nondimensional_helmholtz_free_energy_per_link r nondimensional_end_to_end_length_per_link temperature))) nondimensional_end_to_end_length_per_link)
  /\ (forall (nondimensional_end_to_end_length_per_link : jarray T) (temperature : T),
     J_lennard_jones_isometric_asymptotic_legendre.nondimensional_relative_helmholtz_free_energy j nondimensional_end_to_end_length_per_link temperature
     = broadcast [Float64] (fun nondimensional_end_to_end_length_per_link =>
         Finished (Some (O_lennard_jones_isometric_asymptotic_legendre.nondimensional_relative_helmholtz_free_energy r nondimensional_end_to_end_length_per_link temperature))) nondimensional_end_to_end_length_per_link)
  /\ (forall (nondimensional_end_to_end_length_per_link : jarray T) (temperature : T),
     J_lennard_jones_isometric_asymptotic_legendre.nondimensional_relative_helmholtz_free_energy_per_link j nondimensional_end_to_end_length_per_link temperature
     = broadcast [Float64] (fun nondimensional_end_to_end_length_per_link =>
         Finished (Some (O_lennard_jones_isometric_asymptotic_legendre.nondimensional_relative_helmholtz_free_energy_per_link r nondimensional_end_to_end_length_per_link temperature))) nondimensional_end_to_end_length_per_link).
Proof. intros T Sc number_of_links link_length hinge_mass link_stiffness j r.
  split; [reflexivity|].
  split; [reflexivity|].
  split; [reflexivity|].
  split; [reflexivity|].
  split; [intros; cbv [j J_lennard_jones_isometric_asymptotic_legendre.init J_lennard_jones_isometric_asymptotic_legendre.force]; rewrite F_lennard_jones_isometric_asymptotic_legendre_force; unfold O_lennard_jones_isometric_asymptotic_legendre.force; broadcast_numbers|].
  split; [intros; cbv [j J_lennard_jones_isometric_asymptotic_legendre.init J_lennard_jones_isometric_asymptotic_legendre.nondimensional_force]; rewrite F_lennard_jones_isometric_asymptotic_legendre_nondimensional_force; unfold O_lennard_jones_isometric_asymptotic_legendre.nondimensional_force; broadcast_numbers|].
  split; [intros; cbv [j J_lennard_jones_isometric_asymptotic_legendre.init J_lennard_jones_isometric_asymptotic_legendre.helmholtz_free_energy]; rewrite F_lennard_jones_isometric_asymptotic_legendre_helmholtz_free_energy; unfold O_lennard_jones_isometric_asymptotic_legendre.helmholtz_free_energy; broadcast_numbers|].
  split; [intros; cbv [j J_lennard_jones_isometric_asymptotic_legendre.init J_lennard_jones_isometric_asymptotic_legendre.helmholtz_free_energy_per_link]; rewrite F_lennard_jones_isometric_asymptotic_legendre_helmholtz_free_energy_per_link; unfold O_lennard_jones_isometric_asymptotic_legendre.helmholtz_free_energy_per_link; broadcast_numbers|].
  split; [intros; cbv [j J_lennard_jones_isometric_asymptotic_legendre.init J_lennard_jones_isometric_asymptotic_legendre.relative_helmholtz_free_energy]; rewrite F_lennard_jones_isometric_asymptotic_legendre_relative_helmholtz_free_energy; unfold O_lennard_jones_isometric_asymptotic_legendre.relative_helmholtz_free_energy; broadcast_numbers|].
  split; [intros; cbv [j J_lennard_jones_isometric_asymptotic_legendre.init J_lennard_jones_isometric_asymptotic_legendre.relative_helmholtz_free_energy_per_link]; rewrite F_lennard_jones_isometric_asymptotic_legendre_relative_helmholtz_free_energy_per_link; unfold O_lennard_jones_isometric_asymptotic_legendre.relative_helmholtz_free_energy_per_link; broadcast_numbers|].
  split; [intros; cbv [j J_lennard_jones_isometric_asymptotic_legendre.init J_lennard_jones_isometric_asymptotic_legendre.nondimensional_helmholtz_free_energy]; rewrite F_lennard_jones_isometric_asymptotic_legendre_nondimensional_helmholtz_free_energy; unfold O_lennard_jones_isometric_asymptotic_legendre.nondimensional_helmholtz_free_energy; broadcast_numbers|].
  split; [intros; cbv [j J_lennard_jones_isometric_asymptotic_legendre.init J_lennard_jones_isometric_asymptotic_legendre.nondimensional_helmholtz_free_energy_per_link]; rewrite F_lennard_jones_isometric_asymptotic_legendre_nondimensional_helmholtz_free_energy_per_link; unfold O_lennard_jones_isometric_asymptotic_legendre.nondimensional_helmholtz_free_energy_per_link; broadcast_numbers|].
  split; [intros; cbv [j J_lennard_jones_isometric_asymptotic_legendre.init J_lennard_jones_isometric_asymptotic_legendre.nondimensional_relative_helmholtz_free_energy]; rewrite F_lennard_jones_isometric_asymptotic_legendre_nondimensional_relative_helmholtz_free_energy; unfold O_lennard_jones_isometric_asymptotic_legendre.nondimensional_relative_helmholtz_free_energy; broadcast_numbers|].
  intros; cbv [j J_lennard_jones_isometric_asymptotic_legendre.init J_lennard_jones_isometric_asymptotic_legendre.nondimensional_relative_helmholtz_free_energy_per_link]; rewrite F_lennard_jones_isometric_asymptotic_legendre_nondimensional_relative_helmholtz_free_energy_per_link; unfold O_lennard_jones_isometric_asymptotic_legendre.nondimensional_relative_helmholtz_free_energy_per_link; broadcast_numbers.
Qed.
Print Assumptions C61_object_lennard_jones_isometric_asymptotic_legendre.

Theorem C61_object_lennard_jones_isometric_asymptotic_reduced : forall (T : Type) (Sc : Scalar T) (number_of_links : Z) (link_length : T) (hinge_mass : T) (link_stiffness : T),
  let j := J_lennard_jones_isometric_asymptotic_reduced.init number_of_links link_length hinge_mass link_stiffness in
  let r := O_lennard_jones_isometric_asymptotic_reduced.init number_of_links link_length hinge_mass link_stiffness in
  J_lennard_jones_isometric_asymptotic_reduced.number_of_links j = O_lennard_jones_isometric_asymptotic_reduced.number_of_links r
  /\ J_lennard_jones_isometric_asymptotic_reduced.link_length j = O_lennard_jones_isometric_asymptotic_reduced.link_length r
  /\ J_lennard_jones_isometric_asymptotic_reduced.hinge_mass j = O_lennard_jones_isometric_asymptotic_reduced.hinge_mass r
  /\ J_lennard_jones_isometric_asymptotic_reduced.link_stiffness j = O_lennard_jones_isometric_asymptotic_reduced.link_stiffness r
  /\ J_lennard_jones_isometric_asymptotic_reduced.legendre j = J_lennard_jones_isometric_asymptotic_reduced_legendre.init number_of_links link_length hinge_mass link_stiffness.
Proof. intros T Sc number_of_links link_length hinge_mass link_stiffness j r.
  split; [reflexivity|].
  split; [reflexivity|].
  split; [reflexivity|].
  split; [reflexivity|].
  reflexivity.
Qed.
Print Assumptions C61_object_lennard_jones_isometric_asymptotic_reduced.

Theorem C61_functions_lennard_jones_isotensional_asymptotic_legendre : forall (T : Type) (Sc : Scalar T),
  (forall (number_of_links : jarray Z) (link_length : jarray T) (hinge_mass : jarray T) (link_stiffness : jarray T) (force : jarray T) (temperature : jarray T),
     jl_lennard_jones_isotensional_asymptotic_legendre.helmholtz_free_energy number_of_links link_length hinge_mass link_stiffness force temperature
     = broadcast [UInt8; Float64; Float64; Float64; Float64; Float64] (fun number_of_links link_length hinge_mass link_stiffness force temperature =>
         Finished (Some (lennard_jones_isotensional_asymptotic_legendre.helmholtz_free_energy number_of_links link_length hinge_mass link_stiffness force temperature))) number_of_links link_length hinge_mass link_stiffness force temperature)
  /\ (forall (link_length : jarray T) (hinge_mass : jarray T) (link_stiffness : jarray T) (force : jarray T) (temperature : jarray T),
     jl_lennard_jones_isotensional_asymptotic_legendre.helmholtz_free_energy_per_link link_length hinge_mass link_stiffness force temperature
     = broadcast [Float64; Float64; Float64; Float64; Float64] (fun link_length hinge_mass link_stiffness force temperature =>
         Finished (Some (lennard_jones_isotensional_asymptotic_legendre.helmholtz_free_energy_per_link link_length hinge_mass link_stiffness force temperature))) link_length hinge_mass link_stiffness force temperature)
  /\ (forall (number_of_links : jarray Z) (link_length : jarray T) (link_stiffness : jarray T) (force : jarray T) (temperature : jarray T),
     jl_lennard_jones_isotensional_asymptotic_legendre.relative_helmholtz_free_energy number_of_links link_length link_stiffness force temperature
     = broadcast [UInt8; Float64; Float64; Float64; Float64] (fun number_of_links link_length link_stiffness force temperature =>
         Finished (Some (lennard_jones_isotensional_asymptotic_legendre.relative_helmholtz_free_energy number_of_links link_length link_stiffness force temperature))) number_of_links link_length link_stiffness force temperature)
  /\ (forall (link_length : jarray T) (link_stiffness : jarray T) (force : jarray T) (temperature : jarray T),
     jl_lennard_jones_isotensional_asymptotic_legendre.relative_helmholtz_free_energy_per_link link_length link_stiffness force temperature
     = broadcast [Float64; Float64; Float64; Float64] (fun link_length link_stiffness force temperature =>
         Finished (Some (lennard_jones_isotensional_asymptotic_legendre.relative_helmholtz_free_energy_per_link link_length link_stiffness force temperature))) link_length link_stiffness force temperature)
  /\ (forall (number_of_links : jarray Z) (link_length : jarray T) (hinge_mass : jarray T) (nondimensional_link_stiffness : jarray T) (nondimensional_force : jarray T) (temperature : jarray T),
     jl_lennard_jones_isotensional_asymptotic_legendre.nondimensional_helmholtz_free_energy number_of_links link_length hinge_mass nondimensional_link_stiffness nondimensional_force temperature
     = broadcast [UInt8; Float64; Float64; Float64; Float64; Float64] (fun number_of_links link_length hinge_mass nondimensional_link_stiffness nondimensional_force temperature =>
         Finished (Some (lennard_jones_isotensional_asymptotic_legendre.nondimensional_helmholtz_free_energy number_of_links link_length hinge_mass nondimensional_link_stiffness nondimensional_force temperature))) number_of_links link_length hinge_mass nondimensional_link_stiffness nondimensional_force temperature)
  /\ (forall (link_length : jarray T) (hinge_mass : jarray T) (nondimensional_link_stiffness : jarray T) (nondimensional_force : jarray T) (temperature : jarray T),
     jl_lennard_jones_isotensional_asymptotic_legendre.nondimensional_helmholtz_free_energy_per_link link_length hinge_mass nondimensional_link_stiffness nondimensional_force temperature
     = broadcast [Float64; Float64; Float64; Float64; Float64] (fun link_length hinge_mass nondimensional_link_stiffness nondimensional_force temperature =>
         Finished (Some (lennard_jones_isotensional_asymptotic_legendre.nondimensional_helmholtz_free_energy_per_link link_length hinge_mass nondimensional_link_stiffness nondimensional_force temperature))) link_length hinge_mass nondimensional_link_stiffness nondimensional_force temperature)
  /\ (forall (number_of_links : jarray Z) (nondimensional_link_stiffness : jarray T) (nondimensional_force : jarray T),
     jl_lennard_jones_isotensional_asymptotic_legendre.nondimensional_relative_helmholtz_free_energy number_of_links nondimensional_link_stiffness nondimensional_force
     = broadcast [UInt8; Float64; Float64] (fun number_of_links nondimensional_link_stiffness nondimensional_force =>
         Finished (Some (lennard_jones_isotensional_asymptotic_legendre.nondimensional_relative_helmholtz_free_energy number_of_links nondimensional_link_stiffness nondimensional_force))) number_of_links nondimensional_link_stiffness nondimensional_force)
  /\ (forall (nondimensional_link_stiffness : jarray T) (nondimensional_force : jarray T),
     jl_lennard_jones_isotensional_asymptotic_legendre.nondimensional_relative_helmholtz_free_energy_per_link nondimensional_link_stiffness nondimensional_force
     = broadcast [Float64; Float64] (fun nondimensional_link_stiffness nondimensional_force =>
         Finished (Some (lennard_jones_isotensional_asymptotic_legendre.nondimensional_relative_helmholtz_free_energy_per_link nondimensional_link_stiffness nondimensional_force))) nondimensional_link_stiffness nondimensional_force).
Proof.
  exact (fun T Sc => conj (@F_lennard_jones_isotensional_asymptotic_legendre_helmholtz_free_energy T Sc)
    (conj (@F_lennard_jones_isotensional_asymptotic_legendre_helmholtz_free_energy_per_link T Sc)
    (conj (@F_lennard_jones_isotensional_asymptotic_legendre_relative_helmholtz_free_energy T Sc)
    (conj (@F_lennard_jones_isotensional_asymptotic_legendre_relative_helmholtz_free_energy_per_link T Sc)
    (conj (@F_lennard_jones_isotensional_asymptotic_legendre_nondimensional_helmholtz_free_energy T Sc)
    (conj (@F_lennard_jones_isotensional_asymptotic_legendre_nondimensional_helmholtz_free_energy_per_link T Sc)
    (conj (@F_lennard_jones_isotensional_asymptotic_legendre_nondimensional_relative_helmholtz_free_energy T Sc)
    (@F_lennard_jones_isotensional_asymptotic_legendre_nondimensional_relative_helmholtz_free_energy_per_link T Sc)))))))).
Qed.
Print Assumptions C61_functions_lennard_jones_isotensional_asymptotic_legendre.

Theorem C61_object_lennard_jones_isotensional_asymptotic_legendre : forall (T : Type) (Sc : Scalar T) (number_of_links : Z) (link_length : T) (hinge_mass : T) (link_stiffness : T),
  let j := J_lennard_jones_isotensional_asymptotic_legendre.init number_of_links link_length hinge_mass link_stiffness in
  let r := O_lennard_jones_isotensional_asymptotic_legendre.init number_of_links link_length hinge_mass link_stiffness in
  J_lennard_jones_isotensional_asymptotic_legendre.number_of_links j = O_lennard_jones_isotensional_asymptotic_legendre.number_of_links r
  /\ J_lennard_jones_isotensional_asymptotic_legendre.link_length j = O_lennard_jones_isotensional_asymptotic_legendre.link_length r
  /\ J_lennard_jones_isotensional_asymptotic_legendre.hinge_mass j = O_lennard_jones_isotensional_asymptotic_legendre.hinge_mass r
  /\ J_lennard_jones_isotensional_asymptotic_legendre.link_stiffness j = O_lennard_jones_isotensional_asymptotic_legendre.link_stiffness r
  /\ (forall (force : jarray T) (temperature : jarray T),
     J_lennard_jones_isotensional_asymptotic_legendre.helmholtz_free_energy j force temperature
     = broadcast [Float64; Float64] (fun force temperature =>
         Finished (Some (O_lennard_jones_isotensional_asymptotic_legendre.helmholtz_free_energy r force temperature))) force temperature)
  /\ (forall (force : jarray T) (temperature : jarray T),
     J_lennard_jones_isotensional_asymptotic_legendre.helmholtz_free_energy_per_link j force temperature
     = broadcast [Float64; Float64] (fun force temperature =>
         Finished (Some (O_lennard_jones_isotensional_asymptotic_legendre.helmholtz_free_energy_per_link r force temperature))) force temperature)
  /\ (forall (force : jarray T) (temperature : jarray T),
     J_lennard_jones_isotensional_asymptotic_legendre.relative_helmholtz_free_energy j force temperature
     = broadcast [Float64; Float64] (fun force temperature =>
         Finished (Some (O_lennard_jones_isotensional_asymptotic_legendre.relative_helmholtz_free_energy r force temperature))) force temperature)
  /\ (forall (force : jarray T) (temperature : jarray T),
     J_lennard_jones_isotensional_asymptotic_legendre.relative_helmholtz_free_energy_per_link j force temperature
     = broadcast [Float64; Float64] (fun force temperature =>
         Finished (Some (O_lennard_jones_isotensional_asymptotic_legendre.relative_helmholtz_free_energy_per_link r force temperature))) force temperature)
  /\ (forall (nondimensional_force : jarray T) (temperature : T),
     J_lennard_jones_isotensional_asymptotic_legendre.nondimensional_helmholtz_free_energy j nondimensional_force temperature
     = broadcast [Float64] (fun nondimensional_force =>
         Finished (Some (O_lennard_jones_isotensional_asymptotic_legendre.nondimensional_helmholtz_free_energy r nondimensional_force temperature))) nondimensional_force)
  /\ (forall (nondimensional_force : jarray T) (temperature : T),
     J_lennard_jones_isotensional_asymptotic_legendre.nondimensional_helmholtz_free_energy_per_link j nondimensional_force temperature
     = broadcast [Float64] (fun nondimensional_force =>
         Finished (Some (O_lennard_jones_isotensional_asymptotic_legendre.nondimensional_helmholtz_free_energy_per_link r nondimensional_force temperature))) nondimensional_force)
  /\ (forall (nondimensional_force : jarray T) (temperature : T),
     J_lennard_jones_isotensional_asymptotic_legendre.nondimensional_relative_helmholtz_free_energy j nondimensional_force temperature
     = broadcast [Float64] (fun nondimensional_force =>
         Finished (Some (O_lennard_jones_isotensional_asymptotic_legendre.nondimensional_relative_helmholtz_free_energy r nondimensional_force temperature))) nondimensional_force)
  /\ (forall (nondimensional_force : jarray T) (temperature : T),
     J_lennard_jones_isotensional_asymptotic_legendre.nondimensional_relative_helmholtz_free_energy_per_link j nondimensional_force temperature
     = broadcast [Float64] (fun nondimensional_force =>
         Finished (Some (O_lennard_jones_isotensional_asymptotic_legendre.nondimensional_relative_helmholtz_free_energy_per_link r nondimensional_force temperature))) nondimensional_force).
Proof. intros T Sc number_of_links link_length hinge_mass link_stiffness j r.
  split; [reflexivity|].
  split; [reflexivity|].
  split; [reflexivity|].
  split; [reflexivity|].
  split; [intros; cbv [j J_lennard_jones_isotensional_asymptotic_legendre.init J_lennard_jones_isotensional_asymptotic_legendre.helmholtz_free_energy]; rewrite F_lennard_jones_isotensional_asymptotic_legendre_helmholtz_free_energy; unfold O_lennard_jones_isotensional_asymptotic_legendre.helmholtz_free_energy; broadcast_numbers|].
  split; [intros; cbv [j J_lennard_jones_isotensional_asymptotic_legendre.init J_lennard_jones_isotensional_asymptotic_legendre.helmholtz_free_energy_per_link]; rewrite F_lennard_jones_isotensional_asymptotic_legendre_helmholtz_free_energy_per_link; unfold O_lennard_jones_isotensional_asymptotic_legendre.helmholtz_free_energy_per_link; broadcast_numbers|].
  split; [intros; cbv [j J_lennard_jones_isotensional_asymptotic_legendre.init J_lennard_jones_isotensional_asymptotic_legendre.relative_helmholtz_free_energy]; rewrite F_lennard_jones_isotensional_asymptotic_legendre_relative_helmholtz_free_energy; unfold O_lennard_jones_isotensional_asymptotic_legendre.relative_helmholtz_free_energy; broadcast_numbers|].
  split; [intros; cbv [j J_lennard_jones_isotensional_asymptotic_legendre.init J_lennard_jones_isotensional_asymptotic_legendre.relative_helmholtz_free_energy_per_link]; rewrite F_lennard_jones_isotensional_asymptotic_legendre_relative_helmholtz_free_energy_per_link; unfold O_lennard_jones_isotensional_asymptotic_legendre.relative_helmholtz_free_energy_per_link; broadcast_numbers|].
  split; [intros; cbv [j J_lennard_jones_isotensional_asymptotic_legendre.init J_lennard_jones_isotensional_asymptotic_legendre.nondimensional_helmholtz_free_energy]; rewrite F_lennard_jones_isotensional_asymptotic_legendre_nondimensional_helmholtz_free_energy; unfold O_lennard_jones_isotensional_asymptotic_legendre.nondimensional_helmholtz_free_energy; broadcast_numbers|].
  split; [intros; cbv [j J_lennard_jones_isotensional_asymptotic_legendre.init J_lennard_jones_isotensional_asymptotic_legendre.nondimensional_helmholtz_free_energy_per_link]; rewrite F_lennard_jones_isotensional_asymptotic_legendre_nondimensional_helmholtz_free_energy_per_link; unfold O_lennard_jones_isotensional_asymptotic_legendre.nondimensional_helmholtz_free_energy_per_link; broadcast_numbers|].
  split; [intros; cbv [j J_lennard_jones_isotensional_asymptotic_legendre.init J_lennard_jones_isotensional_asymptotic_legendre.nondimensional_relative_helmholtz_free_energy]; rewrite F_lennard_jones_isotensional_asymptotic_legendre_nondimensional_relative_helmholtz_free_energy; unfold O_lennard_jones_isotensional_asymptotic_legendre.nondimensional_relative_helmholtz_free_energy; broadcast_numbers|].
  intros; cbv [j J_lennard_jones_isotensional_asymptotic_legendre.init J_lennard_jones_isotensional_asymptotic_legendre.nondimensional_relative_helmholtz_free_energy_per_link]; rewrite F_lennard_jones_isotensional_asymptotic_legendre_nondimensional_relative_helmholtz_free_energy_per_link; unfold O_lennard_jones_isotensional_asymptotic_legendre.nondimensional_relative_helmholtz_free_energy_per_link; broadcast_numbers.
Qed.
Print Assumptions C61_object_lennard_jones_isotensional_asymptotic_legendre.

Theorem C61_functions_lennard_jones_isotensional_asymptotic_reduced : forall (T : Type) (Sc : Scalar T),
  (forall (number_of_links : jarray Z) (link_length : jarray T) (link_stiffness : jarray T) (force : jarray T) (temperature : jarray T),
     jl_lennard_jones_isotensional_asymptotic_reduced.end_to_end_length number_of_links link_length link_stiffness force temperature
     = broadcast [UInt8; Float64; Float64; Float64; Float64] (fun number_of_links link_length link_stiffness force temperature =>
         Finished (Some (lennard_jones_isotensional_asymptotic_reduced.end_to_end_length number_of_links link_length link_stiffness force temperature))) number_of_links link_length link_stiffness force temperature)
  /\ (forall (link_length : jarray T) (link_stiffness : jarray T) (force : jarray T) (temperature : jarray T),
     jl_lennard_jones_isotensional_asymptotic_reduced.end_to_end_length_per_link link_length link_stiffness force temperature
     = broadcast [Float64; Float64; Float64; Float64] (fun link_length link_stiffness force temperature =>
         Finished (Some (lennard_jones_isotensional_asymptotic_reduced.end_to_end_length_per_link link_length link_stiffness force temperature))) link_length link_stiffness force temperature)
  /\ (forall (number_of_links : jarray Z) (nondimensional_link_stiffness : jarray T) (nondimensional_force : jarray T),
     jl_lennard_jones_isotensional_asymptotic_reduced.nondimensional_end_to_end_length number_of_links nondimensional_link_stiffness nondimensional_force
     = broadcast [UInt8; Float64; Float64] (fun number_of_links nondimensional_link_stiffness nondimensional_force =>
         Finished (Some (lennard_jones_isotensional_asymptotic_reduced.nondimensional_end_to_end_length number_of_links nondimensional_link_stiffness nondimensional_force))) number_of_links nondimensional_link_stiffness nondimensional_force)
  /\ (forall (nondimensional_link_stiffness : jarray T) (nondimensional_force : jarray T),
     jl_lennard_jones_isotensional_asymptotic_reduced.nondimensional_end_to_end_length_per_link nondimensional_link_stiffness nondimensional_force
     = broadcast [Float64; Float64] (fun nondimensional_link_stiffness nondimensional_force =>
         Finished (Some (lennard_jones_isotensional_asymptotic_reduced.nondimensional_end_to_end_length_per_link nondimensional_link_stiffness nondimensional_force))) nondimensional_link_stiffness nondimensional_force)
  /\ (forall (number_of_links : jarray Z) (link_length : jarray T) (hinge_mass : jarray T) (link_stiffness : jarray T) (force : jarray T) (temperature : jarray T),
     jl_lennard_jones_isotensional_asymptotic_reduced.gibbs_free_energy number_of_links link_length hinge_mass link_stiffness force temperature
     = broadcast [UInt8; Float64; Float64; Float64; Float64; Float64] (fun number_of_links link_length hinge_mass link_stiffness force temperature =>
         Finished (Some (lennard_jones_isotensional_asymptotic_reduced.gibbs_free_energy number_of_links link_length hinge_mass link_stiffness force temperature))) number_of_links link_length hinge_mass link_stiffness force temperature)
  /\ (forall (link_length : jarray T) (hinge_mass : jarray T) (link_stiffness : jarray T) (force : jarray T) (temperature : jarray T),
     jl_lennard_jones_isotensional_asymptotic_reduced.gibbs_free_energy_per_link link_length hinge_mass link_stiffness force temperature
     = broadcast [Float64; Float64; Float64; Float64; Float64] (fun link_length hinge_mass link_stiffness force temperature =>
         Finished (Some (lennard_jones_isotensional_asymptotic_reduced.gibbs_free_energy_per_link link_length hinge_mass link_stiffness force temperature))) link_length hinge_mass link_stiffness force temperature)
  /\ (forall (number_of_links : jarray Z) (link_length : jarray T) (link_stiffness : jarray T) (force : jarray T) (temperature : jarray T),
     jl_lennard_jones_isotensional_asymptotic_reduced.relative_gibbs_free_energy number_of_links link_length link_stiffness force temperature
     = broadcast [UInt8; Float64; Float64; Float64; Float64] (fun number_of_links link_length link_stiffness force temperature =>
         Finished (Some (lennard_jones_isotensional_asymptotic_reduced.relative_gibbs_free_energy number_of_links link_length link_stiffness force temperature))) number_of_links link_length link_stiffness force temperature)
  /\ (forall (link_length : jarray T) (link_stiffness : jarray T) (force : jarray T) (temperature : jarray T),
     jl_lennard_jones_isotensional_asymptotic_reduced.relative_gibbs_free_energy_per_link link_length link_stiffness force temperature
     = broadcast [Float64; Float64; Float64; Float64] (fun link_length link_stiffness force temperature =>
         Finished (Some (lennard_jones_isotensional_asymptotic_reduced.relative_gibbs_free_energy_per_link link_length link_stiffness force temperature))) link_length link_stiffness force temperature)
  /\ (forall (number_of_links : jarray Z) (link_length : jarray T) (hinge_mass : jarray T) (nondimensional_link_stiffness : jarray T) (nondimensional_force : jarray T) (temperature : jarray T),
     jl_lennard_jones_isotensional_asymptotic_reduced.nondimensional_gibbs_free_energy number_of_links link_length hinge_mass nondimensional_link_stiffness nondimensional_force temperature
     = broadcast [UInt8; Float64; Float64; Float64; Float64; Float64] (fun number_of_links link_length hinge_mass nondimensional_link_stiffness nondimensional_force temperature =>
         Finished (Some (lennard_jones_isotensional_asymptotic_reduced.nondimensional_gibbs_free_energy number_of_links link_length hinge_mass nondimensional_link_stiffness nondimensional_force temperature))) number_of_links link_length hinge_mass nondimensional_link_stiffness nondimensional_force temperature)
  /\ (forall (link_length : jarray T) (hinge_mass : jarray T) (nondimensional_link_stiffness : jarray T) (nondimensional_force : jarray T) (temperature : jarray T),
     jl_lennard_jones_isotensional_asymptotic_reduced.nondimensional_gibbs_free_energy_per_link link_length hinge_mass nondimensional_link_stiffness nondimensional_force temperature
     = broadcast [Float64; Float64; Float64; Float64; Float64] (fun link_length hinge_mass nondimensional_link_stiffness nondimensional_force temperature =>
         Finished (Some (lennard_jones_isotensional_asymptotic_reduced.nondimensional_gibbs_free_energy_per_link link_length hinge_mass nondimensional_link_stiffness nondimensional_force temperature))) link_length hinge_mass nondimensional_link_stiffness nondimensional_force temperature)
  /\ (forall (number_of_links : jarray Z) (nondimensional_link_stiffness : jarray T) (nondimensional_force : jarray T),
     jl_lennard_jones_isotensional_asymptotic_reduced.nondimensional_relative_gibbs_free_energy number_of_links nondimensional_link_stiffness nondimensional_force
     = broadcast [UInt8; Float64; Float64] (fun number_of_links nondimensional_link_stiffness nondimensional_force =>
         Finished (Some (lennard_jones_isotensional_asymptotic_reduced.nondimensional_relative_gibbs_free_energy number_of_links nondimensional_link_stiffness nondimensional_force))) number_of_links nondimensional_link_stiffness nondimensional_force)
  /\ (forall (nondimensional_link_stiffness : jarray T) (nondimensional_force : jarray T),
     jl_lennard_jones_isotensional_asymptotic_reduced.nondimensional_relative_gibbs_free_energy_per_link nondimensional_link_stiffness nondimensional_force
     = broadcast [Float64; Float64] (fun nondimensional_link_stiffness nondimensional_force =>
         Finished (Some (lennard_jones_isotensional_asymptotic_reduced.nondimensional_relative_gibbs_free_energy_per_link nondimensional_link_stiffness nondimensional_force))) nondimensional_link_stiffness nondimensional_force).
Proof.
  exact (fun T Sc => conj (@F_lennard_jones_isotensional_asymptotic_reduced_end_to_end_length T Sc)
    (conj (@F_lennard_jones_isotensional_asymptotic_reduced_end_to_end_length_per_link T Sc)
    (conj (@F_lennard_jones_isotensional_asymptotic_reduced_nondimensional_end_to_end_length T Sc)
    (conj (@F_lennard_jones_isotensional_asymptotic_reduced_nondimensional_end_to_end_length_per_link T Sc)
    (conj (@F_lennard_jones_isotensional_asymptotic_reduced_gibbs_free_energy T Sc)
    (conj (@F_lennard_jones_isotensional_asymptotic_reduced_gibbs_free_energy_per_link T Sc)
    (conj (@F_lennard_jones_isotensional_asymptotic_reduced_relative_gibbs_free_energy T Sc)
    (conj (@F_lennard_jones_isotensional_asymptotic_reduced_relative_gibbs_free_energy_per_link T Sc)
    (conj (@F_lennard_jones_isotensional_asymptotic_reduced_nondimensional_gibbs_free_energy T Sc)
    (conj (@F_lennard_jones_isotensional_asymptotic_reduced_nondimensional_gibbs_free_energy_per_link T Sc)
    (conj (@F_lennard_jones_isotensional_asymptotic_reduced_nondimensional_relative_gibbs_free_energy T Sc)
    (@F_lennard_jones_isotensional_asymptotic_reduced_nondimensional_relative_gibbs_free_energy_per_link T Sc)))))))))))).
Qed.
Print Assumptions C61_functions_lennard_jones_isotensional_asymptotic_reduced.

Theorem C61_object_lennard_jones_isotensional_asymptotic_reduced : forall (T : Type) (Sc : Scalar T) (number_of_links : Z) (link_length : T) (hinge_mass : T) (link_stiffness : T),
  let j := J_lennard_jones_isotensional_asymptotic_reduced.init number_of_links link_length hinge_mass link_stiffness in
  let r := O_lennard_jones_isotensional_asymptotic_reduced.init number_of_links link_length hinge_mass link_stiffness in
  J_lennard_jones_isotensional_asymptotic_reduced.number_of_links j = O_lennard_jones_isotensional_asymptotic_reduced.number_of_links r
  /\ J_lennard_jones_isotensional_asymptotic_reduced.link_length j = O_lennard_jones_isotensional_asymptotic_reduced.link_length r
  /\ J_lennard_jones_isotensional_asymptotic_reduced.hinge_mass j = O_lennard_jones_isotensional_asymptotic_reduced.hinge_mass r
  /\ J_lennard_jones_isotensional_asymptotic_reduced.link_stiffness j = O_lennard_jones_isotensional_asymptotic_reduced.link_stiffness r
  /\ J_lennard_jones_isotensional_asymptotic_reduced.legendre j = J_lennard_jones_isotensional_asymptotic_reduced_legendre.init number_of_links link_length hinge_mass link_stiffness
  /\ (forall (force : jarray T) (temperature : jarray T),
     J_lennard_jones_isotensional_asymptotic_reduced.end_to_end_length j force temperature
     = broadcast [Float64; Float64] (fun force temperature =>
         Finished (Some (O_lennard_jones_isotensional_asymptotic_reduced.end_to_end_length r force temperature))) force temperature)
  /\ (forall (force : jarray T) (temperature : jarray T),
     J_lennard_jones_isotensional_asymptotic_reduced.end_to_end_length_per_link j force temperature
     = broadcast [Float64; Float64] (fun force temperature =>
         Finished (Some (O_lennard_jones_isotensional_asymptotic_reduced.end_to_end_length_per_link r force temperature))) force temperature)
  /\ (forall (nondimensional_force : jarray T) (temperature : T),
     J_lennard_jones_isotensional_asymptotic_reduced.nondimensional_end_to_end_length j nondimensional_force temperature
     = broadcast [Float64] (fun nondimensional_force =>
         Finished (Some (O_lennard_jones_isotensional_asymptotic_reduced.nondimensional_end_to_end_length r nondimensional_force temperature))) nondimensional_force)
  /\ (forall (nondimensional_force : jarray T) (temperature : T),
     J_lennard_jones_isotensional_asymptotic_reduced.nondimensional_end_to_end_length_per_link j nondimensional_force temperature
     = broadcast [Float64] (fun nondimensional_force =>
         Finished (Some (O_lennard_jones_isotensional_asymptotic_reduced.nondimensional_end_to_end_length_per_link r nondimensional_force temperature))) nondimensional_force)
  /\ (forall (force : jarray T) (temperature : jarray T),
     J_lennard_jones_isotensional_asymptotic_reduced.gibbs_free_energy j force temperature
     = broadcast [Float64; Float64] (fun force temperature =>
         Finished (Some (O_lennard_jones_isotensional_asymptotic_reduced.gibbs_free_energy r force temperature))) force temperature)
  /\ (forall (force : jarray T) (temperature : jarray T),
     J_lennard_jones_isotensional_asymptotic_reduced.gibbs_free_energy_per_link j force temperature
     = broadcast [Float64; Float64] (fun force temperature =>
         Finished (Some (O_lennard_jones_isotensional_asymptotic_reduced.gibbs_free_energy_per_link r force temperature))) force temperature)
  /\ (forall (force : jarray T) (temperature : jarray T),
     J_lennard_jones_isotensional_asymptotic_reduced.relative_gibbs_free_energy j force temperature
     = broadcast [Float64; Float64] (fun force temperature =>
         Finished (Some (O_lennard_jones_isotensional_asymptotic_reduced.relative_gibbs_free_energy r force temperature))) force temperature)
  /\ (forall (force : jarray T) (temperature : jarray T),
     J_lennard_jones_isotensional_asymptotic_reduced.relative_gibbs_free_energy_per_link j force temperature
     = broadcast [Float64; Float64] (fun force temperature =>
         Finished (Some (O_lennard_jones_isotensional_asymptotic_reduced.relative_gibbs_free_energy_per_link r force temperature))) force temperature)
  /\ (forall (nondimensional_force : jarray T) (temperature : T),
     J_lennard_jones_isotensional_asymptotic_reduced.nondimensional_gibbs_free_energy j nondimensional_force temperature
     = broadcast [Float64] (fun nondimensional_force =>
         Finished (Some (O_lennard_jones_isotensional_asymptotic_reduced.nondimensional_gibbs_free_energy r nondimensional_force temperature))) nondimensional_force)
  /\ (forall (nondimensional_force : jarray T) (temperature : T),
     J_lennard_jones_isotensional_asymptotic_reduced.nondimensional_gibbs_free_energy_per_link j nondimensional_force temperature
     = broadcast [Float64] (fun nondimensional_force =>
         Finished (Some (O_lennard_jones_isotensional_asymptotic_reduced.nondimensional_gibbs_free_energy_per_link r nondimensional_force temperature))) nondimensional_force)
  /\ (forall (nondimensional_force : jarray T) (temperature : T),
     J_lennard_jones_isotensional_asymptotic_reduced.nondimensional_relative_gibbs_free_energy j nondimensional_force temperature
     = broadcast [Float64] (fun nondimensional_force =>
         Finished (Some (O_lennard_jones_isotensional_asymptotic_reduced.nondimensional_relative_gibbs_free_energy r nondimensional_force temperature))) nondimensional_force)
  /\ (forall (nondimensional_force : jarray T) (temperature : T),
     J_lennard_jones_isotensional_asymptotic_reduced.nondimensional_relative_gibbs_free_energy_per_link j nondimensional_force temperature
     = broadcast [Float64] (fun nondimensional_force =>
         Finished (Some (O_lennard_jones_isotensional_asymptotic_reduced.nondimensional_relative_gibbs_free_energy_per_link r nondimensional_force temperature))) nondimensional_force).
Proof. intros T Sc number_of_links link_length hinge_mass link_stiffness j r.
  split; [reflexivity|].
  split; [reflexivity|].
  split; [reflexivity|].
  split; [reflexivity|].
  split; [reflexivity|].
  split; [intros; cbv [j J_lennard_jones_isotensional_asymptotic_reduced.init J_lennard_jones_isotensional_asymptotic_reduced.end_to_end_length]; rewrite F_lennard_jones_isotensional_asymptotic_reduced_end_to_end_length; unfold O_lennard_jones_isotensional_asymptotic_reduced.end_to_end_length; broadcast_numbers|].
  split; [intros; cbv [j J_lennard_jones_isotensional_asymptotic_reduced.init J_lennard_jones_isotensional_asymptotic_reduced.end_to_end_length_per_link]; rewrite F_lennard_jones_isotensional_asymptotic_reduced_end_to_end_length_per_link; unfold O_lennard_jones_isotensional_asymptotic_reduced.end_to_end_length_per_link; broadcast_numbers|].
  split; [intros; cbv [j J_lennard_jones_isotensional_asymptotic_reduced.init J_lennard_jones_isotensional_asymptotic_reduced.nondimensional_end_to_end_length]; rewrite F_lennard_jones_isotensional_asymptotic_reduced_nondimensional_end_to_end_length; unfold O_lennard_jones_isotensional_asymptotic_reduced.nondimensional_end_to_end_length; broadcast_numbers|].
  split; [intros; cbv [j J_lennard_jones_isotensional_asymptotic_reduced.init J_lennard_jones_isotensional_asymptotic_reduced.nondimensional_end_to_end_length_per_link]; rewrite F_lennard_jones_isotensional_asymptotic_reduced_nondimensional_end_to_end_length_per_link; unfold O_lennard_jones_isotensional_asymptotic_reduced.nondimensional_end_to_end_length_per_link; broadcast_numbers|].
  split; [intros; cbv [j J_lennard_jones_isotensional_asymptotic_reduced.init J_lennard_jones_isotensional_asymptotic_reduced.gibbs_free_energy]; rewrite F_lennard_jones_isotensional_asymptotic_reduced_gibbs_free_energy; unfold O_lennard_jones_isotensional_asymptotic_reduced.gibbs_free_energy; broadcast_numbers|].
  split; [intros; cbv [j J_lennard_jones_isotensional_asymptotic_reduced.init J_lennard_jones_isotensional_asymptotic_reduced.gibbs_free_energy_per_link]; rewrite F_lennard_jones_isotensional_asymptotic_reduced_gibbs_free_energy_per_link; unfold O_lennard_jones_isotensional_asymptotic_reduced.gibbs_free_energy_per_link; broadcast_numbers|].
  split; [intros; cbv [j J_lennard_jones_isotensional_asymptotic_reduced.init J_lennard_jones_isotensional_asymptotic_reduced.relative_gibbs_free_energy]; rewrite F_lennard_jones_isotensional_asymptotic_reduced_relative_gibbs_free_energy; unfold O_lennard_jones_isotensional_asymptotic_reduced.relative_gibbs_free_energy; broadcast_numbers|].
  split; [intros; cbv [j J_lennard_jones_isotensional_asymptotic_reduced.init J_lennard_jones_isotensional_asymptotic_reduced.relative_gibbs_free_energy_per_link]; rewrite F_lennard_jones_isotensional_asymptotic_reduced_relative_gibbs_free_energy_per_link; unfold O_lennard_jones_isotensional_asymptotic_reduced.relative_gibbs_free_energy_per_link; broadcast_numbers|].
  split; [intros; cbv [j J_lennard_jones_isotensional_asymptotic_reduced.init J_lennard_jones_isotensional_asymptotic_reduced.nondimensional_gibbs_free_energy]; rewrite F_lennard_jones_isotensional_asymptotic_reduced_nondimensional_gibbs_free_energy; unfold O_lennard_jones_isotensional_asymptotic_reduced.nondimensional_gibbs_free_energy; broadcast_numbers|].
  split; [intros; cbv [j J_lennard_jones_isotensional_asymptotic_reduced.init J_lennard_jones_isotensional_asymptotic_reduced.nondimensional_gibbs_free_energy_per_link]; rewrite F_lennard_jones_isotensional_asymptotic_reduced_nondimensional_gibbs_free_energy_per_link; unfold O_lennard_jones_isotensional_asymptotic_reduced.nondimensional_gibbs_free_energy_per_link; broadcast_numbers|].
  split; [intros; cbv [j J_lennard_jones_isotensional_asymptotic_reduced.init J_lennard_jones_isotensional_asymptotic_reduced.nondimensional_relative_gibbs_free_energy]; rewrite F_lennard_jones_isotensional_asymptotic_reduced_nondimensional_relative_gibbs_free_energy; unfold O_lennard_jones_isotensional_asymptotic_reduced.nondimensional_relative_gibbs_free_energy; broadcast_numbers|].
  intros; cbv [j J_lennard_jones_isotensional_asymptotic_reduced.init J_lennard_jones_isotensional_asymptotic_reduced.nondimensional_relative_gibbs_free_energy_per_link]; rewrite F_lennard_jones_isotensional_asymptotic_reduced_nondimensional_relative_gibbs_free_energy_per_link; unfold O_lennard_jones_isotensional_asymptotic_reduced.nondimensional_relative_gibbs_free_energy_per_link; broadcast_numbers.
Qed.
Print Assumptions C61_object_lennard_jones_isotensional_asymptotic_reduced.

Theorem C61_functions_log_squared_isometric_asymptotic_legendre : forall (T : Type) (Sc : Scalar T),
  (forall (number_of_links : jarray Z) (link_length : jarray T) (link_stiffness : jarray T) (end_to_end_length : jarray T) (temperature : jarray T),
     jl_log_squared_isometric_asymptotic_legendre.force number_of_links link_length link_stiffness end_to_end_length temperature
     = broadcast [UInt8; Float64; Float64; Float64; Float64] (fun number_of_links link_length link_stiffness end_to_end_length temperature =>
         Finished (Some (log_squared_isometric_asymptotic_legendre.force number_of_links link_length link_stiffness end_to_end_length temperature))) number_of_links link_length link_stiffness end_to_end_length temperature)
  /\ (forall (nondimensional_link_stiffness : jarray T) (nondimensional_end_to_end_length_per_link : jarray T),
     jl_log_squared_isometric_asymptotic_legendre.nondimensional_force nondimensional_link_stiffness nondimensional_end_to_end_length_per_link
     = broadcast [Float64; Float64] (fun nondimensional_link_stiffness nondimensional_end_to_end_length_per_link =>
         Finished (Some (log_squared_isometric_asymptotic_legendre.nondimensional_force nondimensional_link_stiffness nondimensional_end_to_end_length_per_link))) nondimensional_link_stiffness nondimensional_end_to_end_length_per_link)
  /\ (forall (number_of_links : jarray Z) (link_length : jarray T) (hinge_mass : jarray T) (link_stiffness : jarray T) (end_to_end_length : jarray T) (temperature : jarray T),
     jl_log_squared_isometric_asymptotic_legendre.helmholtz_free_energy number_of_links link_length hinge_mass link_stiffness end_to_end_length temperature
     = broadcast [UInt8; Float64; Float64; Float64; Float64; Float64] (fun number_of_links link_length hinge_mass link_stiffness end_to_end_length temperature =>
         Finished (Some (log_squared_isometric_asymptotic_legendre.helmholtz_free_energy number_of_links link_length hinge_mass link_stiffness end_to_end_length temperature))) number_of_links link_length hinge_mass link_stiffness end_to_end_length temperature)
  /\ (forall (number_of_links : jarray Z) (link_length : jarray T) (hinge_mass : jarray T) (link_stiffness : jarray T) (end_to_end_length : jarray T) (temperature : jarray T),
     jl_log_squared_isometric_asymptotic_legendre.helmholtz_free_energy_per_link number_of_links link_length hinge_mass link_stiffness end_to_end_length temperature
     = broadcast [UInt8; Float64; Float64; Float64; Float64; Float64] (fun number_of_links link_length hinge_mass link_stiffness end_to_end_length temperature =>
         Finished (Some (log_squared_isometric_asymptotic_legendre.helmholtz_free_energy_per_link number_of_links link_length hinge_mass link_stiffness end_to_end_length temperature))) number_of_links link_length hinge_mass link_stiffness end_to_end_length temperature)
  /\ (forall (number_of_links : jarray Z) (link_length : jarray T) (link_stiffness : jarray T) (end_to_end_length : jarray T) (temperature : jarray T),
     jl_log_squared_isometric_asymptotic_legendre.relative_helmholtz_free_energy number_of_links link_length link_stiffness end_to_end_length temperature
     = broadcast [UInt8; Float64; Float64; Float64; Float64] (fun number_of_links link_length link_stiffness end_to_end_length temperature =>
         Finished (Some (log_squared_isometric_asymptotic_legendre.relative_helmholtz_free_energy number_of_links link_length link_stiffness end_to_end_length temperature))) number_of_links link_length link_stiffness end_to_end_length temperature)
  /\ (forall (number_of_links : jarray Z) (link_length : jarray T) (link_stiffness : jarray T) (end_to_end_length : jarray T) (temperature : jarray T),
     jl_log_squared_isometric_asymptotic_legendre.relative_helmholtz_free_energy_per_link number_of_links link_length link_stiffness end_to_end_length temperature
     = broadcast [UInt8; Float64; Float64; Float64; Float64] (fun number_of_links link_length link_stiffness end_to_end_length temperature =>
         Finished (Some (log_squared_isometric_asymptotic_legendre.relative_helmholtz_free_energy_per_link number_of_links link_length link_stiffness end_to_end_length temperature))) number_of_links link_length link_stiffness end_to_end_length temperature)
  /\ (forall (number_of_links : jarray Z) (link_length : jarray T) (hinge_mass : jarray T) (nondimensional_link_stiffness : jarray T) (nondimensional_end_to_end_length_per_link : jarray T) (temperature : jarray T),
     jl_log_squared_isometric_asymptotic_legendre.nondimensional_helmholtz_free_energy number_of_links link_length hinge_mass nondimensional_link_stiffness nondimensional_end_to_end_length_per_link temperature
     = broadcast [UInt8; Float64; Float64; Float64; Float64; Float64] (fun number_of_links link_length hinge_mass nondimensional_link_stiffness nondimensional_end_to_end_length_per_link temperature =>
         Finished (Some (log_squared_isometric_asymptotic_legendre.nondimensional_helmholtz_free_energy number_of_links link_length hinge_mass nondimensional_link_stiffness nondimensional_end_to_end_length_per_link temperature))) number_of_links link_length hinge_mass nondimensional_link_stiffness nondimensional_end_to_end_length_per_link temperature)
  /\ (forall (number_of_links : jarray Z) (link_length : jarray T) (hinge_mass : jarray T) (nondimensional_link_stiffness : jarray T) (nondimensional_end_to_end_length_per_link : jarray T) (temperature : jarray T),
     jl_log_squared_isometric_asymptotic_legendre.nondimensional_helmholtz_free_energy_per_link number_of_links link_length hinge_mass nondimensional_link_stiffness nondimensional_end_to_end_length_per_link temperature
     = broadcast [UInt8; Float64; Float64; Float64; Float64; Float64] (fun number_of_links link_length hinge_mass nondimensional_link_stiffness nondimensional_end_to_end_length_per_link temperature =>
         Finished (Some (log_squared_isometric_asymptotic_legendre.nondimensional_helmholtz_free_energy_per_link number_of_links link_length hinge_mass nondimensional_link_stiffness nondimensional_end_to_end_length_per_link temperature))) number_of_links link_length hinge_mass nondimensional_link_stiffness nondimensional_end_to_end_length_per_link temperature)
  /\ (forall (number_of_links : jarray Z) (nondimensional_link_stiffness : jarray T) (nondimensional_end_to_end_length_per_link : jarray T),
     jl_log_squared_isometric_asymptotic_legendre.nondimensional_relative_helmholtz_free_energy number_of_links nondimensional_link_stiffness nondimensional_end_to_end_length_per_link
     = broadcast [UInt8; Float64; Float64] (fun number_of_links nondimensional_link_stiffness nondimensional_end_to_end_length_per_link =>
         Finished (Some (log_squared_isometric_asymptotic_legendre.nondimensional_relative_helmholtz_free_energy number_of_links nondimensional_link_stiffness nondimensional_end_to_end_length_per_link))) number_of_links nondimensional_link_stiffness nondimensional_end_to_end_length_per_link)
  /\ (forall (nondimensional_link_stiffness : jarray T) (nondimensional_end_to_end_length_per_link : jarray T),
     jl_log_squared_isometric_asymptotic_legendre.nondimensional_relative_helmholtz_free_energy_per_link nondimensional_link_stiffness nondimensional_end_to_end_length_per_link
     = broadcast [Float64; Float64] (fun nondimensional_link_stiffness nondimensional_end_to_end_length_per_link =>
         Finished (Some (log_squared_isometric_asymptotic_legendre.nondimensional_relative_helmholtz_free_energy_per_link nondimensional_link_stiffness nondimensional_end_to_end_length_per_link))) nondimensional_link_stiffness nondimensional_end_to_end_length_per_link).
Proof.
  exact (fun T Sc => conj (@F_log_squared_isometric_asymptotic_legendre_force T Sc)
    (conj (@F_log_squared_isometric_asymptotic_legendre_nondimensional_force T Sc)
    (conj (@F_log_squared_isometric_asymptotic_legendre_helmholtz_free_energy T Sc)
    (conj (@F_log_squared_isometric_asymptotic_legendre_helmholtz_free_energy_per_link T Sc)
    (conj (@F_log_squared_isometric_asymptotic_legendre_relative_helmholtz_free_energy T Sc)
    (conj (@F_log_squared_isometric_asymptotic_legendre_relative_helmholtz_free_energy_per_link T Sc)
    (conj (@F_log_squared_isometric_asymptotic_legendre_nondimensional_helmholtz_free_energy T Sc)
    (conj (@F_log_squared_isometric_asymptotic_legendre_nondimensional_helmholtz_free_energy_per_link T Sc)
    (conj (@F_log_squared_isometric_asymptotic_legendre_nondimensional_relative_helmholtz_free_energy T Sc)
    (@F_log_squared_isometric_asymptotic_legendre_nondimensional_relative_helmholtz_free_energy_per_link T Sc)))))))))).
Qed.
Print Assumptions C61_functions_log_squared_isometric_asymptotic_legendre.

Theorem C61_object_log_squared_isometric_asymptotic_legendre : forall (T : Type) (Sc : Scalar T) (number_of_links : Z) (link_length : T) (hinge_mass : T) (link_stiffness : T),
  let j := J_log_squared_isometric_asymptotic_legendre.init number_of_links link_length hinge_mass link_stiffness in
  let r := O_log_squared_isometric_asymptotic_legendre.init number_of_links link_length hinge_mass link_stiffness in
  J_log_squared_isometric_asymptotic_legendre.number_of_links j = O_log_squared_isometric_asymptotic_legendre.number_of_links r
  /\ J_log_squared_isometric_asymptotic_legendre.link_length j = O_log_squared_isometric_asymptotic_legendre.link_length r
  /\ J_log_squared_isometric_asymptotic_legendre.hinge_mass j = O_log_squared_isometric_asymptotic_legendre.hinge_mass r
  /\ J_log_squared_isometric_asymptotic_legendre.link_stiffness j = O_log_squared_isometric_asymptotic_legendre.link_stiffness r
  /\ (forall (end_to_end_length : jarray T) (temperature : jarray T),
     J_log_squared_isometric_asymptotic_legendre.force j end_to_end_length temperature
     = broadcast [Float64; Float64] (fun end_to_end_length temperature =>
         Finished (Some (O_log_squared_isometric_asymptotic_legendre.force r end_to_end_length temperature))) end_to_end_length temperature)
  /\ (forall (nondimensional_end_to_end_length_per_link : jarray T) (temperature : T),
     J_log_squared_isometric_asymptotic_legendre.nondimensional_force j nondimensional_end_to_end_length_per_link temperature
     = broadcast [Float64] (fun nondimensional_end_to_end_length_per_link =>
         Finished (Some (O_log_squared_isometric_asymptotic_legendre.nondimensional_force r nondimensional_end_to_end_length_per_link temperature))) nondimensional_end_to_end_length_per_link)
  /\ (forall (end_to_end_length : jarray T) (temperature : jarray T),
     J_log_squared_isometric_asymptotic_legendre.helmholtz_free_energy j end_to_end_length temperature
     = broadcast [Float64; Float64] (fun end_to_end_length temperature =>
         Finished (Some (O_log_squared_isometric_asymptotic_legendre.helmholtz_free_energy r end_to_end_length temperature))) end_to_end_length temperature)
  /\ (forall (end_to_end_length : jarray T) (temperature : jarray T),
     J_log_squared_isometric_asymptotic_legendre.helmholtz_free_energy_per_link j end_to_end_length temperature
     = broadcast [Float64; Float64] (fun end_to_end_length temperature =>
         Finished (Some (O_log_squared_isometric_asymptotic_legendre.helmholtz_free_energy_per_link r end_to_end_length temperature))) end_to_end_length temperature)
  /\ (forall (end_to_end_length : jarray T) (temperature : jarray T),
     J_log_squared_isometric_asymptotic_legendre.relative_helmholtz_free_energy j end_to_end_length temperature
     = broadcast [Float64; Float64] (fun end_to_end_length temperature =>
         Finished (Some (O_log_squared_isometric_asymptotic_legendre.relative_helmholtz_free_energy r end_to_end_length temperature))) end_to_end_length temperature)
  /\ (forall (end_to_end_length : jarray T) (temperature : jarray T),
     J_log_squared_isometric_asymptotic_legendre.relative_helmholtz_free_energy_per_link j end_to_end_length temperature
     = broadcast [Float64; Float64] (fun end_to_end_length temperature =>
         Finished (Some (O_log_squared_isometric_asymptotic_legendre.relative_helmholtz_free_energy_per_link r end_to_end_length temperature))) end_to_end_length temperature)
  /\ (forall (nondimensional_end_to_end_length_per_link : jarray T) (temperature : T),
     J_log_squared_isometric_asymptotic_legendre.nondimensional_helmholtz_free_energy j nondimensional_end_to_end_length_per_link temperature
     = broadcast [Float64] (fun nondimensional_end_to_end_length_per_link =>
         Finished (Some (O_log_squared_isometric_asymptotic_legendre.nondimensional_helmholtz_free_energy r nondimensional_end_to_end_length_per_link temperature))) nondimensional_end_to_end_length_per_link)
  /\ (forall (nondimensional_end_to_end_length_per_link : jarray T) (temperature : T),
     J_log_squared_isometric_asymptotic_legendre.nondimensional_helmholtz_free_energy_per_link j nondimensional_end_to_end_length_per_link temperature
     = broadcast [Float64] (fun nondimensional_end_to_end_length_per_link =>
         Finished (Some (O_log_squared_isometric_asymptotic_legendre.nondimensional_helmholtz_free_energy_per_link r nondimensional_end_to_end_length_per_link temperature))) nondimensional_end_to_end_length_per_link)
  /\ (forall (nondimensional_end_to_end_length_per_link : jarray T) (temperature : T),
     J_log_squared_isometric_asymptotic_legendre.nondimensional_relative_helmholtz_free_energy j nondimensional_end_to_end_length_per_link temperature
     = broadcast [Float64] (fun nondimensional_end_to_end_length_per_link =>
         Finished (Some (O_log_squared_isometric_asymptotic_legendre.nondimensional_relative_helmholtz_free_energy r nondimensional_end_to_end_length_per_link temperature))) nondimensional_end_to_end_length_per_link)
  /\ (forall (nondimensional_end_to_end_length_per_link : jarray T) (temperature : T),
     J_log_squared_isometric_asymptotic_legendre.nondimensional_relative_helmholtz_free_energy_per_link j nondimensional_end_to_end_length_per_link temperature
     = broadcast [Float64] (fun nondimensional_end_to_end_length_per_link =>
         Finished (Some (O_log_squared_isometric_asymptotic_legendre.nondimensional_relative_helmholtz_free_energy_per_link r nondimensional_end_to_end_length_per_link temperature))) nondimensional_end_to_end_length_per_link).
Proof. intros T Sc number_of_links link_length hinge_mass link_stiffness j r.
  split; [reflexivity|].
  split; [reflexivity|].
  split; [reflexivity|].
  split; [reflexivity|].
  split; [intros; cbv [j J_log_squared_isometric_asymptotic_legendre.init J_log_squared_isometric_asymptotic_legendre.force]; rewrite F_log_squared_isometric_asymptotic_legendre_force; unfold O_log_squared_isometric_asymptotic_legendre.force; broadcast_numbers|].
  split; [intros; cbv [j J_log_squared_isometric_asymptotic_legendre.init J_log_squared_isometric_asymptotic_legendre.nondimensional_force]; rewrite F_log_squared_isometric_asymptotic_legendre_nondimensional_force; unfold O_log_squared_isometric_asymptotic_legendre.nondimensional_force; broadcast_numbers|].
  split; [intros; cbv [j J_log_squared_isometric_asymptotic_legendre.init J_log_squared_isometric_asymptotic_legendre.helmholtz_free_energy]; rewrite F_log_squared_isometric_asymptotic_legendre_helmholtz_free_energy; unfold O_log_squared_isometric_asymptotic_legendre.helmholtz_free_energy; broadcast_numbers|].
  split; [intros; cbv [j J_log_squared_isometric_asymptotic_legendre.init J_log_squared_isometric_asymptotic_legendre.helmholtz_free_energy_per_link]; rewrite F_log_squared_isometric_asymptotic_legendre_helmholtz_free_energy_per_link; unfold O_log_squared_isometric_asymptotic_legendre.helmholtz_free_energy_per_link; broadcast_numbers|].
  split; [intros; cbv [j J_log_squared_isometric_asymptotic_legendre.init J_log_squared_isometric_asymptotic_legendre.relative_helmholtz_free_energy]; rewrite F_log_squared_isometric_asymptotic_legendre_relative_helmholtz_free_energy; unfold O_log_squared_isometric_asymptotic_legendre.relative_helmholtz_free_energy; broadcast_numbers|].
  split; [intros; cbv [j J_log_squared_isometric_asymptotic_legendre.init J_log_squared_isometric_asymptotic_legendre.relative_helmholtz_free_energy_per_link]; rewrite F_log_squared_isometric_asymptotic_legendre_relative_helmholtz_free_energy_per_link; unfold O_log_squared_isometric_asymptotic_legendre.relative_helmholtz_free_energy_per_link; broadcast_numbers|].
  split; [intros; cbv [j J_log_squared_isometric_asymptotic_legendre.init J_log_squared_isometric_asymptotic_legendre.nondimensional_helmholtz_free_energy]; rewrite F_log_squared_isometric_asymptotic_legendre_nondimensional_helmholtz_free_energy; unfold O_log_squared_isometric_asymptotic_legendre.nondimensional_helmholtz_free_energy; broadcast_numbers|].
  split; [intros; cbv [j J_log_squared_isometric_asymptotic_legendre.init J_log_squared_isometric_asymptotic_legendre.nondimensional_helmholtz_free_energy_per_link]; rewrite F_log_squared_isometric_asymptotic_legendre_nondimensional_helmholtz_free_energy_per_link; unfold O_log_squared_isometric_asymptotic_legendre.nondimensional_helmholtz_free_energy_per_link; broadcast_numbers|].
  split; [intros; cbv [j J_log_squared_isometric_asymptotic_legendre.init J_log_squared_isometric_asymptotic_legendre.nondimensional_relative_helmholtz_free_energy]; rewrite F_log_squared_isometric_asymptotic_legendre_nondimensional_relative_helmholtz_free_energy; unfold O_log_squared_isometric_asymptotic_legendre.nondimensional_relative_helmholtz_free_energy; broadcast_numbers|].
  intros; cbv [j J_log_squared_isometric_asymptotic_legendre.init J_log_squared_isometric_asymptotic_legendre.nondimensional_relative_helmholtz_free_energy_per_link]; rewrite F_log_squared_isometric_asymptotic_legendre_nondimensional_relative_helmholtz_free_energy_per_link; unfold O_log_squared_isometric_asymptotic_legendre.nondimensional_relative_helmholtz_free_energy_per_link; broadcast_numbers.
Qed.
Print Assumptions C61_object_log_squared_isometric_asymptotic_legendre.

Theorem C61_object_log_squared_isometric_asymptotic_reduced : forall (T : Type) (Sc : Scalar T) (number_of_links : Z) (link_length : T) (hinge_mass : T) (link_stiffness : T),
  let j := J_log_squared_isometric_asymptotic_reduced.init number_of_links link_length hinge_mass link_stiffness in
  let r := O_log_squared_isometric_asymptotic_reduced.init number_of_links link_length hinge_mass link_stiffness in
  J_log_squared_isometric_asymptotic_reduced.number_of_links j = O_log_squared_isometric_asymptotic_reduced.number_of_links r
  /\ J_log_squared_isometric_asymptotic_reduced.link_length j = O_log_squared_isometric_asymptotic_reduced.link_length r
  /\ J_log_squared_isometric_asymptotic_reduced.hinge_mass j = O_log_squared_isometric_asymptotic_reduced.hinge_mass r
  /\ J_log_squared_isometric_asymptotic_reduced.link_stiffness j = O_log_squared_isometric_asymptotic_reduced.link_stiffness r
  /\ J_log_squared_isometric_asymptotic_reduced.legendre j = J_log_squared_isometric_asymptotic_reduced_legendre.init number_of_links link_length hinge_mass link_stiffness.
Proof. intros T Sc number_of_links link_length hinge_mass link_stiffness j r.
  split; [reflexivity|].
  split; [reflexivity|].
  split; [reflexivity|].
  split; [reflexivity|].
  reflexivity.
Qed.
Print Assumptions C61_object_log_squared_isometric_asymptotic_reduced.

Theorem C61_functions_log_squared_isotensional_asymptotic_legendre : forall (T : Type) (Sc : Scalar T),
  (forall (number_of_links : jarray Z) (link_length : jarray T) (hinge_mass : jarray T) (link_stiffness : jarray T) (force : jarray T) (temperature : jarray T),
     jl_log_squared_isotensional_asymptotic_legendre.helmholtz_free_energy number_of_links link_length hinge_mass link_stiffness force temperature
     = broadcast [UInt8; Float64; Float64; Float64; Float64; Float64] (fun number_of_links link_length hinge_mass link_stiffness force temperature =>
         Finished (Some (log_squared_isotensional_asymptotic_legendre.helmholtz_free_energy number_of_links link_length hinge_mass link_stiffness force temperature))) number_of_links link_length hinge_mass link_stiffness force temperature)
  /\ (forall (link_length : jarray T) (hinge_mass : jarray T) (link_stiffness : jarray T) (force : jarray T) (temperature : jarray T),
     jl_log_squared_isotensional_asymptotic_legendre.helmholtz_free_energy_per_link link_length hinge_mass link_stiffness force temperature
     = broadcast [Float64; Float64; Float64; Float64; Float64] (fun link_length hinge_mass link_stiffness force temperature =>
         Finished (Some (log_squared_isotensional_asymptotic_legendre.helmholtz_free_energy_per_link link_length hinge_mass link_stiffness force temperature))) link_length hinge_mass link_stiffness force temperature)
  /\ (forall (number_of_links : jarray Z) (link_length : jarray T) (link_stiffness : jarray T) (force : jarray T) (temperature : jarray T),
     jl_log_squared_isotensional_asymptotic_legendre.relative_helmholtz_free_energy number_of_links link_length link_stiffness force temperature
     = broadcast [UInt8; Float64; Float64; Float64; Float64] (fun number_of_links link_length link_stiffness force temperature =>
         Finished (Some (log_squared_isotensional_asymptotic_legendre.relative_helmholtz_free_energy number_of_links link_length link_stiffness force temperature))) number_of_links link_length link_stiffness force temperature)
  /\ (forall (link_length : jarray T) (link_stiffness : jarray T) (force : jarray T) (temperature : jarray T),
     jl_log_squared_isotensional_asymptotic_legendre.relative_helmholtz_free_energy_per_link link_length link_stiffness force temperature
     = broadcast [Float64; Float64; Float64; Float64] (fun link_length link_stiffness force temperature =>
         Finished (Some (log_squared_isotensional_asymptotic_legendre.relative_helmholtz_free_energy_per_link link_length link_stiffness force temperature))) link_length link_stiffness force temperature)
  /\ (forall (number_of_links : jarray Z) (link_length : jarray T) (hinge_mass : jarray T) (nondimensional_link_stiffness : jarray T) (nondimensional_force : jarray T) (temperature : jarray T),
     jl_log_squared_isotensional_asymptotic_legendre.nondimensional_helmholtz_free_energy number_of_links link_length hinge_mass nondimensional_link_stiffness nondimensional_force temperature
     = broadcast [UInt8; Float64; Float64; Float64; Float64; Float64] (fun number_of_links link_length hinge_mass nondimensional_link_stiffness nondimensional_force temperature =>
         Finished (Some (log_squared_isotensional_asymptotic_legendre.nondimensional_helmholtz_free_energy number_of_links link_length hinge_mass nondimensional_link_stiffness nondimensional_force temperature))) number_of_links link_length hinge_mass nondimensional_link_stiffness nondimensional_force temperature)
  /\ (forall (link_length : jarray T) (hinge_mass : jarray T) (nondimensional_link_stiffness : jarray T) (nondimensional_force : jarray T) (temperature : jarray T),
     jl_log_squared_isotensional_asymptotic_legendre.nondimensional_helmholtz_free_energy_per_link link_length hinge_mass nondimensional_link_stiffness nondimensional_force temperature
     = broadcast [Float64; Float64; Float64; Float64; Float64] (fun link_length hinge_mass nondimensional_link_stiffness nondimensional_force temperature =>
         Finished (Some (log_squared_isotensional_asymptotic_legendre.nondimensional_helmholtz_free_energy_per_link link_length hinge_mass nondimensional_link_stiffness nondimensional_force temperature))) link_length hinge_mass nondimensional_link_stiffness nondimensional_force temperature)
  /\ (forall (number_of_links : jarray Z) (nondimensional_link_stiffness : jarray T) (nondimensional_force : jarray T),
     jl_log_squared_isotensional_asymptotic_legendre.nondimensional_relative_helmholtz_free_energy number_of_links nondimensional_link_stiffness nondimensional_force
     = broadcast [UInt8; Float64; Float64] (fun number_of_links nondimensional_link_stiffness nondimensional_force =>
         Finished (Some (log_squared_isotensional_asymptotic_legendre.nondimensional_relative_helmholtz_free_energy number_of_links nondimensional_link_stiffness nondimensional_force))) number_of_links nondimensional_link_stiffness nondimensional_force)
  /\ (forall (nondimensional_link_stiffness : jarray T) (nondimensional_force : jarray T),
     jl_log_squared_isotensional_asymptotic_legendre.nondimensional_relative_helmholtz_free_energy_per_link nondimensional_link_stiffness nondimensional_force
     = broadcast [Float64; Float64] (fun nondimensional_link_stiffness nondimensional_force =>
         Finished (Some (log_squared_isotensional_asymptotic_legendre.nondimensional_relative_helmholtz_free_energy_per_link nondimensional_link_stiffness nondimensional_force))) nondimensional_link_stiffness nondimensional_force).
Proof.
  exact (fun T Sc => conj (@F_log_squared_isotensional_asymptotic_legendre_helmholtz_free_energy T Sc)
    (conj (@F_log_squared_isotensional_asymptotic_legendre_helmholtz_free_energy_per_link T Sc)
    (conj (@F_log_squared_isotensional_asymptotic_legendre_relative_helmholtz_free_energy T Sc)
    (conj (@F_log_squared_isotensional_asymptotic_legendre_relative_helmholtz_free_energy_per_link T Sc)
    (conj (@F_log_squared_isotensional_asymptotic_legendre_nondimensional_helmholtz_free_energy T Sc)
    (conj (@F_log_squared_isotensional_asymptotic_legendre_nondimensional_helmholtz_free_energy_per_link T Sc)
    (conj (@F_log_squared_isotensional_asymptotic_legendre_nondimensional_relative_helmholtz_free_energy T Sc)
    (@F_log_squared_isotensional_asymptotic_legendre_nondimensional_relative_helmholtz_free_energy_per_link T Sc)))))))).
Qed.
Print Assumptions C61_functions_log_squared_isotensional_asymptotic_legendre.

Theorem C61_object_log_squared_isotensional_asymptotic_legendre : forall (T : Type) (Sc : Scalar T) (number_of_links : Z) (link_length : T) (hinge_mass : T) (link_stiffness : T),
  let j := J_log_squared_isotensional_asymptotic_legendre.init number_of_links link_length hinge_mass link_stiffness in
  let r := O_log_squared_isotensional_asymptotic_legendre.init number_of_links link_length hinge_mass link_stiffness in
  J_log_squared_isotensional_asymptotic_legendre.number_of_links j = O_log_squared_isotensional_asymptotic_legendre.number_of_links r
  /\ J_log_squared_isotensional_asymptotic_legendre.link_length j = O_log_squared_isotensional_asymptotic_legendre.link_length r
  /\ J_log_squared_isotensional_asymptotic_legendre.hinge_mass j = O_log_squared_isotensional_asymptotic_legendre.hinge_mass r
  /\ J_log_squared_isotensional_asymptotic_legendre.link_stiffness j = O_log_squared_isotensional_asymptotic_legendre.link_stiffness r
  /\ (forall (force : jarray T) (temperature : jarray T),
     J_log_squared_isotensional_asymptotic_legendre.helmholtz_free_energy j force temperature
     = broadcast [Float64; Float64] (fun force temperature =>
         Finished (Some (O_log_squared_isotensional_asymptotic_legendre.helmholtz_free_energy r force temperature))) force temperature)
  /\ (forall (force : jarray T) (temperature : jarray T),
     J_log_squared_isotensional_asymptotic_legendre.helmholtz_free_energy_per_link j force temperature
     = broadcast [Float64; Float64] (fun force temperature =>
         Finished (Some (O_log_squared_isotensional_asymptotic_legendre.helmholtz_free_energy_per_link r force temperature))) force temperature)
  /\ (forall (force : jarray T) (temperature : jarray T),
     J_log_squared_isotensional_asymptotic_legendre.relative_helmholtz_free_energy j force temperature
     = broadcast [Float64; Float64] (fun force temperature =>
         Finished (Some (O_log_squared_isotensional_asymptotic_legendre.relative_helmholtz_free_energy r force temperature))) force temperature)
  /\ (forall (force : jarray T) (temperature : jarray T),
     J_log_squared_isotensional_asymptotic_legendre.relative_helmholtz_free_energy_per_link j force temperature
     = broadcast [Float64; Float64] (fun force temperature =>
         Finished (Some (O_log_squared_isotensional_asymptotic_legendre.relative_helmholtz_free_energy_per_link r force temperature))) force temperature)
  /\ (forall (nondimensional_force : jarray T) (temperature : T),
     J_log_squared_isotensional_asymptotic_legendre.nondimensional_helmholtz_free_energy j nondimensional_force temperature
     = broadcast [Float64] (fun nondimensional_force =>
         Finished (Some (O_log_squared_isotensional_asymptotic_legendre.nondimensional_helmholtz_free_energy r nondimensional_force temperature))) nondimensional_force)
  /\ (forall (nondimensional_force : jarray T) (temperature : T),
     J_log_squared_isotensional_asymptotic_legendre.nondimensional_helmholtz_free_energy_per_link j nondimensional_force temperature
     = broadcast [Float64] (fun nondimensional_force =>
         Finished (Some (O_log_squared_isotensional_asymptotic_legendre.nondimensional_helmholtz_free_energy_per_link r nondimensional_force temperature))) nondimensional_force)
  /\ (forall (nondimensional_force : jarray T) (temperature : T),
     J_log_squared_isotensional_asymptotic_legendre.nondimensional_relative_helmholtz_free_energy j nondimensional_force temperature
     = broadcast [Float64] (fun nondimensional_force =>
         Finished (Some (O_log_squared_isotensional_asymptotic_legendre.nondimensional_relative_helmholtz_free_energy r nondimensional_force temperature))) nondimensional_force)
  /\ (forall (nondimensional_force : jarray T) (temperature : T),
     J_log_squared_isotensional_asymptotic_legendre.nondimensional_relative_helmholtz_free_energy_per_link j nondimensional_force temperature
     = broadcast [Float64] (fun nondimensional_force =>
         Finished (Some (O_log_squared_isotensional_asymptotic_legendre.nondimensional_relative_helmholtz_free_energy_per_link r nondimensional_force temperature))) nondimensional_force).
Proof. intros T Sc number_of_links link_length hinge_mass link_stiffness j r.
  split; [reflexivity|].
  split; [reflexivity|].
  split; [reflexivity|].
  split; [reflexivity|].
  split; [intros; cbv [j J_log_squared_isotensional_asymptotic_legendre.init J_log_squared_isotensional_asymptotic_legendre.helmholtz_free_energy]; rewrite F_log_squared_isotensional_asymptotic_legendre_helmholtz_free_energy; unfold O_log_squared_isotensional_asymptotic_legendre.helmholtz_free_energy; broadcast_numbers|].
  split; [intros; cbv [j J_log_squared_isotensional_asymptotic_legendre.init J_log_squared_isotensional_asymptotic_legendre.helmholtz_free_energy_per_link]; rewrite F_log_squared_isotensional_asymptotic_legendre_helmholtz_free_energy_per_link; unfold O_log_squared_isotensional_asymptotic_legendre.helmholtz_free_energy_per_link; broadcast_numbers|].
  split; [intros; cbv [j J_log_squared_isotensional_asymptotic_legendre.init J_log_squared_isotensional_asymptotic_legendre.relative_helmholtz_free_energy]; rewrite F_log_squared_isotensional_asymptotic_legendre_relative_helmholtz_free_energy; unfold O_log_squared_isotensional_asymptotic_legendre.relative_helmholtz_free_energy; broadcast_numbers|].
  split; [intros; cbv [j J_log_squared_isotensional_asymptotic_legendre.init J_log_squared_isotensional_asymptotic_legendre.relative_helmholtz_free_energy_per_link]; rewrite F_log_squared_isotensional_asymptotic_legendre_relative_helmholtz_free_energy_per_link; unfold O_log_squared_isotensional_asymptotic_legendre.relative_helmholtz_free_energy_per_link; broadcast_numbers|].
  split; [intros; cbv [j J_log_squared_isotensional_asymptotic_legendre.init J_log_squared_isotensional_asymptotic_legendre.nondimensional_helmholtz_free_energy]; rewrite F_log_squared_isotensional_asymptotic_legendre_nondimensional_helmholtz_free_energy; unfold O_log_squared_isotensional_asymptotic_legendre.nondimensional_helmholtz_free_energy; broadcast_numbers|].
  split; [intros; cbv [j J_log_squared_isotensional_asymptotic_legendre.init J_log_squared_isotensional_asymptotic_legendre.nondimensional_helmholtz_free_energy_per_link]; rewrite F_log_squared_isotensional_asymptotic_legendre_nondimensional_helmholtz_free_energy_per_link; unfold O_log_squared_isotensional_asymptotic_legendre.nondimensional_helmholtz_free_energy_per_link; broadcast_numbers|].
  split; [intros; cbv [j J_log_squared_isotensional_asymptotic_legendre.init J_log_squared_isotensional_asymptotic_legendre.nondimensional_relative_helmholtz_free_energy]; rewrite F_log_squared_isotensional_asymptotic_legendre_nondimensional_relative_helmholtz_free_energy; unfold O_log_squared_isotensional_asymptotic_legendre.nondimensional_relative_helmholtz_free_energy; broadcast_numbers|].
  intros; cbv [j J_log_squared_isotensional_asymptotic_legendre.init J_log_squared_isotensional_asymptotic_legendre.nondimensional_relative_helmholtz_free_energy_per_link]; rewrite F_log_squared_isotensional_asymptotic_legendre_nondimensional_relative_helmholtz_free_energy_per_link; unfold O_log_squared_isotensional_asymptotic_legendre.nondimensional_relative_helmholtz_free_energy_per_link; broadcast_numbers.
Qed.
Print Assumptions C61_object_log_squared_isotensional_asymptotic_legendre.

Theorem C61_functions_log_squared_isotensional_asymptotic_reduced : forall (T : Type) (Sc : Scalar T),
  (forall (number_of_links : jarray Z) (link_length : jarray T) (link_stiffness : jarray T) (force : jarray T) (temperature : jarray T),
     jl_log_squared_isotensional_asymptotic_reduced.end_to_end_length number_of_links link_length link_stiffness force temperature
     = broadcast [UInt8; Float64; Float64; Float64; Float64] (fun number_of_links link_length link_stiffness force temperature =>
         Finished (Some (log_squared_isotensional_asymptotic_reduced.end_to_end_length number_of_links link_length link_stiffness force temperature))) number_of_links link_length link_stiffness force temperature)
  /\ (forall (link_length : jarray T) (link_stiffness : jarray T) (force : jarray T) (temperature : jarray T),
     jl_log_squared_isotensional_asymptotic_reduced.end_to_end_length_per_link link_length link_stiffness force temperature
     = broadcast [Float64; Float64; Float64; Float64] (fun link_length link_stiffness force temperature =>
         Finished (Some (log_squared_isotensional_asymptotic_reduced.end_to_end_length_per_link link_length link_stiffness force temperature))) link_length link_stiffness force temperature)
  /\ (forall (number_of_links : jarray Z) (nondimensional_link_stiffness : jarray T) (nondimensional_force : jarray T),
     jl_log_squared_isotensional_asymptotic_reduced.nondimensional_end_to_end_length number_of_links nondimensional_link_stiffness nondimensional_force
     = broadcast [UInt8; Float64; Float64] (fun number_of_links nondimensional_link_stiffness nondimensional_force =>
         Finished (Some (log_squared_isotensional_asymptotic_reduced.nondimensional_end_to_end_length number_of_links nondimensional_link_stiffness nondimensional_force))) number_of_links nondimensional_link_stiffness nondimensional_force)
  /\ (forall (nondimensional_link_stiffness : jarray T) (nondimensional_force : jarray T),
     jl_log_squared_isotensional_asymptotic_reduced.nondimensional_end_to_end_length_per_link nondimensional_link_stiffness nondimensional_force
     = broadcast [Float64; Float64] (fun nondimensional_link_stiffness nondimensional_force =>
         Finished (Some (log_squared_isotensional_asymptotic_reduced.nondimensional_end_to_end_length_per_link nondimensional_link_stiffness nondimensional_force))) nondimensional_link_stiffness nondimensional_force)
  /\ (forall (number_of_links : jarray Z) (link_length : jarray T) (hinge_mass : jarray T) (link_stiffness : jarray T) (force : jarray T) (temperature : jarray T),
     jl_log_squared_isotensional_asymptotic_reduced.gibbs_free_energy number_of_links link_length hinge_mass link_stiffness force temperature
     = broadcast [UInt8; Float64; Float64; Float64; Float64; Float64] (fun number_of_links link_length hinge_mass link_stiffness force temperature =>
         Finished (Some (log_squared_isotensional_asymptotic_reduced.gibbs_free_energy number_of_links link_length hinge_mass link_stiffness force temperature))) number_of_links link_length hinge_mass link_stiffness force temperature)
  /\ (forall (link_length : jarray T) (hinge_mass : jarray T) (link_stiffness : jarray T) (force : jarray T) (temperature : jarray T),
     jl_log_squared_isotensional_asymptotic_reduced.gibbs_free_energy_per_link link_length hinge_mass link_stiffness force temperature
     = broadcast [Float64; Float64; Float64; Float64; Float64] (fun link_length hinge_mass link_stiffness force temperature =>
         Finished (Some (log_squared_isotensional_asymptotic_reduced.gibbs_free_energy_per_link link_length hinge_mass link_stiffness force temperature))) link_length hinge_mass link_stiffness force temperature)
  /\ (forall (number_of_links : jarray Z) (link_length : jarray T) (link_stiffness : jarray T) (force : jarray T) (temperature : jarray T),
     jl_log_squared_isotensional_asymptotic_reduced.relative_gibbs_free_energy number_of_links link_length link_stiffness force temperature
     = broadcast [UInt8; Float64; Float64; Float64; Float64] (fun number_of_links link_length link_stiffness force temperature =>
         Finished (Some (log_squared_isotensional_asymptotic_reduced.relative_gibbs_free_energy number_of_links link_length link_stiffness force temperature))) number_of_links link_length link_stiffness force temperature)
  /\ (forall (link_length : jarray T) (link_stiffness : jarray T) (force : jarray T) (temperature : jarray T),
     jl_log_squared_isotensional_asymptotic_reduced.relative_gibbs_free_energy_per_link link_length link_stiffness force temperature
     = broadcast [Float64; Float64; Float64; Float64] (fun link_length link_stiffness force temperature =>
         Finished (Some (log_squared_isotensional_asymptotic_reduced.relative_gibbs_free_energy_per_link link_length link_stiffness force temperature))) link_length link_stiffness force temperature)
  /\ (forall (number_of_links : jarray Z) (link_length : jarray T) (hinge_mass : jarray T) (nondimensional_link_stiffness : jarray T) (nondimensional_force : jarray T) (temperature : jarray T),
     jl_log_squared_isotensional_asymptotic_reduced.nondimensional_gibbs_free_energy number_of_links link_length hinge_mass nondimensional_link_stiffness nondimensional_force temperature
     = broadcast [UInt8; Float64; Float64; Float64; Float64; Float64] (fun number_of_links link_length hinge_mass nondimensional_link_stiffness nondimensional_force temperature =>
         Finished (Some (log_squared_isotensional_asymptotic_reduced.nondimensional_gibbs_free_energy number_of_links link_length hinge_mass nondimensional_link_stiffness nondimensional_force temperature))) number_of_links link_length hinge_mass nondimensional_link_stiffness nondimensional_force temperature)
  /\ (forall (link_length : jarray T) (hinge_mass : jarray T) (nondimensional_link_stiffness : jarray T) (nondimensional_force : jarray T) (temperature : jarray T),
     jl_log_squared_isotensional_asymptotic_reduced.nondimensional_gibbs_free_energy_per_link link_length hinge_mass nondimensional_link_stiffness nondimensional_force temperature
     = broadcast [Float64; Float64; Float64; Float64; Float64] (fun link_length hinge_mass nondimensional_link_stiffness nondimensional_force temperature =>
         Finished (Some (log_squared_isotensional_asymptotic_reduced.nondimensional_gibbs_free_energy_per_link link_length hinge_mass nondimensional_link_stiffness nondimensional_force temperature))) link_length hinge_mass nondimensional_link_stiffness nondimensional_force temperature)
  /\ (forall (number_of_links : jarray Z) (nondimensional_link_stiffness : jarray T) (nondimensional_force : jarray T),
     jl_log_squared_isotensional_asymptotic_reduced.nondimensional_relative_gibbs_free_energy number_of_links nondimensional_link_stiffness nondimensional_force
     = broadcast [UInt8; Float64; Float64] (fun number_of_links nondimensional_link_stiffness nondimensional_force =>
         Finished (Some (log_squared_isotensional_asymptotic_reduced.nondimensional_relative_gibbs_free_energy number_of_links nondimensional_link_stiffness nondimensional_force))) number_of_links nondimensional_link_stiffness nondimensional_force)
  /\ (forall (nondimensional_link_stiffness : jarray T) (nondimensional_force : jarray T),
     jl_log_squared_isotensional_asymptotic_reduced.nondimensional_relative_gibbs_free_energy_per_link nondimensional_link_stiffness nondimensional_force
     = broadcast [Float64; Float64] (fun nondimensional_link_stiffness nondimensional_force =>
         Finished (Some (log_squared_isotensional_asymptotic_reduced.nondimensional_relative_gibbs_free_energy_per_link nondimensional_link_stiffness nondimensional_force))) nondimensional_link_stiffness nondimensional_force).
Proof.
  exact (fun T Sc => conj (@F_log_squared_isotensional_asymptotic_reduced_end_to_end_length T Sc)
    (conj (@F_log_squared_isotensional_asymptotic_reduced_end_to_end_length_per_link T Sc)
    (conj (@F_log_squared_isotensional_asymptotic_reduced_nondimensional_end_to_end_length T Sc)
    (conj (@F_log_squared_isotensional_asymptotic_reduced_nondimensional_end_to_end_length_per_link T Sc)
    (conj (@F_log_squared_isotensional_asymptotic_reduced_gibbs_free_energy T Sc)
    (conj (@F_log_squared_isotensional_asymptotic_reduced_gibbs_free_energy_per_link T Sc)
    (conj (@F_log_squared_isotensional_asymptotic_reduced_relative_gibbs_free_energy T Sc)
    (conj (@F_log_squared_isotensional_asymptotic_reduced_relative_gibbs_free_energy_per_link T Sc)
    (conj (@F_log_squared_isotensional_asymptotic_reduced_nondimensional_gibbs_free_energy T Sc)
    (conj (@F_log_squared_isotensional_asymptotic_reduced_nondimensional_gibbs_free_energy_per_link T Sc)
    (conj (@F_log_squared_isotensional_asymptotic_reduced_nondimensional_relative_gibbs_free_energy T Sc)
    (@F_log_squared_isotensional_asymptotic_reduced_nondimensional_relative_gibbs_free_energy_per_link T Sc)))))))))))).
Qed.
Print Assumptions C61_functions_log_squared_isotensional_asymptotic_reduced.

Theorem C61_object_log_squared_isotensional_asymptotic_reduced : forall (T : Type) (Sc : Scalar T) (number_of_links : Z) (link_length : T) (hinge_mass : T) (link_stiffness : T),
  let j := J_log_squared_isotensional_asymptotic_reduced.init number_of_links link_length hinge_mass link_stiffness in
  let r := O_log_squared_isotensional_asymptotic_reduced.init number_of_links link_length hinge_mass link_stiffness in
  J_log_squared_isotensional_asymptotic_reduced.number_of_links j = O_log_squared_isotensional_asymptotic_reduced.number_of_links r
  /\ J_log_squared_isotensional_asymptotic_reduced.link_length j = O_log_squared_isotensional_asymptotic_reduced.link_length r
  /\ J_log_squared_isotensional_asymptotic_reduced.hinge_mass j = O_log_squared_isotensional_asymptotic_reduced.hinge_mass r
  /\ J_log_squared_isotensional_asymptotic_reduced.link_stiffness j = O_log_squared_isotensional_asymptotic_reduced.link_stiffness r
  /\ J_log_squared_isotensional_asymptotic_reduced.legendre j = J_log_squared_isotensional_asymptotic_reduced_legendre.init number_of_links link_length hinge_mass link_stiffness
  /\ (forall (force : jarray T) (temperature : jarray T),
     J_log_squared_isotensional_asymptotic_reduced.end_to_end_length j force temperature
     = broadcast [Float64; Float64] (fun force temperature =>
         Finished (Some (O_log_squared_isotensional_asymptotic_reduced.end_to_end_length r force temperature))) force temperature)
  /\ (forall (force : jarray T) (temperature : jarray T),
     J_log_squared_isotensional_asymptotic_reduced.end_to_end_length_per_link j force temperature
     = broadcast [Float64; Float64] (fun force temperature =>
         Finished (Some (O_log_squared_isotensional_asymptotic_reduced.end_to_end_length_per_link r force temperature))) force temperature)
  /\ (forall (nondimensional_force : jarray T) (temperature : T),
     J_log_squared_isotensional_asymptotic_reduced.nondimensional_end_to_end_length j nondimensional_force temperature
     = broadcast [Float64] (fun nondimensional_force =>
         Finished (Some (O_log_squared_isotensional_asymptotic_reduced.nondimensional_end_to_end_length r nondimensional_force temperature))) nondimensional_force)
  /\ (forall (nondimensional_force : jarray T) (temperature : T),
     J_log_squared_isotensional_asymptotic_reduced.nondimensional_end_to_end_length_per_link j nondimensional_force temperature
     = broadcast [Float64] (fun nondimensional_force =>
         Finished (Some (O_log_squared_isotensional_asymptotic_reduced.nondimensional_end_to_end_length_per_link r nondimensional_force temperature))) nondimensional_force)
  /\ (forall (force : jarray T) (temperature : jarray T),
     J_log_squared_isotensional_asymptotic_reduced.gibbs_free_energy j force temperature
     = broadcast [Float64; Float64] (fun force temperature =>
         Finished (Some (O_log_squared_isotensional_asymptotic_reduced.gibbs_free_energy r force temperature))) force temperature)
  /\ (forall (force : jarray T) (temperature : jarray T),
     J_log_squared_isotensional_asymptotic_reduced.gibbs_free_energy_per_link j force temperature
     = broadcast [Float64; Float64] (fun force temperature =>
         Finished (Some (O_log_squared_isotensional_asymptotic_reduced.gibbs_free_energy_per_link r force temperature))) force temperature)
  /\ (forall (force : jarray T) (temperature : jarray T),
     J_log_squared_isotensional_asymptotic_reduced.relative_gibbs_free_energy j force temperature
     = broadcast [Float64; Float64] (fun force temperature =>
         Finished (Some (O_log_squared_isotensional_asymptotic_reduced.relative_gibbs_free_energy r force temperature))) force temperature)
  /\ (forall (force : jarray T) (temperature : jarray T),
     J_log_squared_isotensional_asymptotic_reduced.relative_gibbs_free_energy_per_link j force temperature
     = broadcast [Float64; Float64] (fun force temperature =>
         Finished (Some (O_log_squared_isotensional_asymptotic_reduced.relative_gibbs_free_energy_per_link r force temperature))) force temperature)
  /\ (forall (nondimensional_force : jarray T) (temperature : T),
     J_log_squared_isotensional_asymptotic_reduced.nondimensional_gibbs_free_energy j nondimensional_force temperature
     = broadcast [Float64] (fun nondimensional_force =>
         Finished (Some (O_log_squared_isotensional_asymptotic_reduced.nondimensional_gibbs_free_energy r nondimensional_force temperature))) nondimensional_force)
  /\ (forall (nondimensional_force : jarray T) (temperature : T),
     J_log_squared_isotensional_asymptotic_reduced.nondimensional_gibbs_free_energy_per_link j nondimensional_force temperature
     = broadcast [Float64] (fun nondimensional_force =>
         Finished (Some (O_log_squared_isotensional_asymptotic_reduced.nondimensional_gibbs_free_energy_per_link r nondimensional_force temperature))) nondimensional_force)
  /\ (forall (nondimensional_force : jarray T) (temperature : T),
     J_log_squared_isotensional_asymptotic_reduced.nondimensional_relative_gibbs_free_energy j nondimensional_force temperature
     = broadcast [Float64] (fun nondimensional_force =>
         Finished (Some (O_log_squared_isotensional_asymptotic_reduced.nondimensional_relative_gibbs_free_energy r nondimensional_force temperature))) nondimensional_force)
  /\ (forall (nondimensional_force : jarray T) (temperature : T),
     J_log_squared_isotensional_asymptotic_reduced.nondimensional_relative_gibbs_free_energy_per_link j nondimensional_force temperature
     = broadcast [Float64] (fun nondimensional_force =>
         Finished (Some (O_log_squared_isotensional_asymptotic_reduced.nondimensional_relative_gibbs_free_energy_per_link r nondimensional_force temperature))) nondimensional_force).
Proof. intros T Sc number_of_links link_length hinge_mass link_stiffness j r.
  split; [reflexivity|].
  split; [reflexivity|].
  split; [reflexivity|].
  split; [reflexivity|].
  split; [reflexivity|].
  split; [intros; cbv [j J_log_squared_isotensional_asymptotic_reduced.init J_log_squared_isotensional_asymptotic_reduced.end_to_end_length]; rewrite F_log_squared_isotensional_asymptotic_reduced_end_to_end_length; unfold O_log_squared_isotensional_asymptotic_reduced.end_to_end_length; broadcast_numbers|].
  split; [intros; cbv [j J_log_squared_isotensional_asymptotic_reduced.init J_log_squared_isotensional_asymptotic_reduced.end_to_end_length_per_link]; rewrite F_log_squared_isotensional_asymptotic_reduced_end_to_end_length_per_link; unfold O_log_squared_isotensional_asymptotic_reduced.end_to_end_length_per_link; broadcast_numbers|].
  split; [intros; cbv [j J_log_squared_isotensional_asymptotic_reduced.init J_log_squared_isotensional_asymptotic_reduced.nondimensional_end_to_end_length]; rewrite F_log_squared_isotensional_asymptotic_reduced_nondimensional_end_to_end_length; unfold O_log_squared_isotensional_asymptotic_reduced.nondimensional_end_to_end_length; broadcast_numbers|].
  split; [intros; cbv [j J_log_squared_isotensional_asymptotic_reduced.init J_log_squared_isotensional_asymptotic_reduced.nondimensional_end_to_end_length_per_link]; rewrite F_log_squared_isotensional_asymptotic_reduced_nondimensional_end_to_end_length_per_link; unfold O_log_squared_isotensional_asymptotic_reduced.nondimensional_end_to_end_length_per_link; broadcast_numbers|].
  split; [intros; cbv [j J_log_squared_isotensional_asymptotic_reduced.init J_log_squared_isotensional_asymptotic_reduced.gibbs_free_energy]; rewrite F_log_squared_isotensional_asymptotic_reduced_gibbs_free_energy; unfold O_log_squared_isotensional_asymptotic_reduced.gibbs_free_energy; broadcast_numbers|].
  split; [intros; cbv [j J_log_squared_isotensional_asymptotic_reduced.init J_log_squared_isotensional_asymptotic_reduced.gibbs_free_energy_per_link]; rewrite F_log_squared_isotensional_asymptotic_reduced_gibbs_free_energy_per_link; unfold O_log_squared_isotensional_asymptotic_reduced.gibbs_free_energy_per_link; broadcast_numbers|].
  split; [intros; cbv [j J_log_squared_isotensional_asymptotic_reduced.init J_log_squared_isotensional_asymptotic_reduced.relative_gibbs_free_energy]; rewrite F_log_squared_isotensional_asymptotic_reduced_relative_gibbs_free_energy; unfold O_log_squared_isotensional_asymptotic_reduced.relative_gibbs_free_energy; broadcast_numbers|].
  split; [intros; cbv [j J_log_squared_isotensional_asymptotic_reduced.init J_log_squared_isotensional_asymptotic_reduced.relative_gibbs_free_energy_per_link]; rewrite F_log_squared_isotensional_asymptotic_reduced_relative_gibbs_free_energy_per_link; unfold O_log_squared_isotensional_asymptotic_reduced.relative_gibbs_free_energy_per_link; broadcast_numbers|].
  split; [intros; cbv [j J_log_squared_isotensional_asymptotic_reduced.init J_log_squared_isotensional_asymptotic_reduced.nondimensional_gibbs_free_energy]; rewrite F_log_squared_isotensional_asymptotic_reduced_nondimensional_gibbs_free_energy; unfold O_log_squared_isotensional_asymptotic_reduced.nondimensional_gibbs_free_energy; broadcast_numbers|].
  split; [intros; cbv [j J_log_squared_isotensional_asymptotic_reduced.init J_log_squared_isotensional_asymptotic_reduced.nondimensional_gibbs_free_energy_per_link]; rewrite F_log_squared_isotensional_asymptotic_reduced_nondimensional_gibbs_free_energy_per_link; unfold O_log_squared_isotensional_asymptotic_reduced.nondimensional_gibbs_free_energy_per_link; broadcast_numbers|].
  split; [intros; cbv [j J_log_squared_isotensional_asymptotic_reduced.init J_log_squared_isotensional_asymptotic_reduced.nondimensional_relative_gibbs_free_energy]; rewrite F_log_squared_isotensional_asymptotic_reduced_nondimensional_relative_gibbs_free_energy; unfold O_log_squared_isotensional_asymptotic_reduced.nondimensional_relative_gibbs_free_energy; broadcast_numbers|].
  intros; cbv [j J_log_squared_isotensional_asymptotic_reduced.init J_log_squared_isotensional_asymptotic_reduced.nondimensional_relative_gibbs_free_energy_per_link]; rewrite F_log_squared_isotensional_asymptotic_reduced_nondimensional_relative_gibbs_free_energy_per_link; unfold O_log_squared_isotensional_asymptotic_reduced.nondimensional_relative_gibbs_free_energy_per_link; broadcast_numbers.
Qed.
Print Assumptions C61_object_log_squared_isotensional_asymptotic_reduced.

Theorem C61_functions_morse_isometric_asymptotic_legendre : forall (T : Type) (Sc : Scalar T),
  (forall (number_of_links : jarray Z) (link_length : jarray T) (link_stiffness : jarray T) (link_energy : jarray T) (end_to_end_length : jarray T) (temperature : jarray T),
     jl_morse_isometric_asymptotic_legendre.force number_of_links link_length link_stiffness link_energy end_to_end_length temperature
     = broadcast [UInt8; Float64; Float64; Float64; Float64; Float64] (fun number_of_links link_length link_stiffness link_energy end_to_end_length temperature =>
         Finished (Some (morse_isometric_asymptotic_legendre.force number_of_links link_length link_stiffness link_energy end_to_end_length temperature))) number_of_links link_length link_stiffness link_energy end_to_end_length temperature)
  /\ (forall (nondimensional_link_stiffness : jarray T) (nondimensional_link_energy : jarray T) (nondimensional_end_to_end_length_per_link : jarray T),
     jl_morse_isometric_asymptotic_legendre.nondimensional_force nondimensional_link_stiffness nondimensional_link_energy nondimensional_end_to_end_length_per_link
     = broadcast [Float64; Float64; Float64] (fun nondimensional_link_stiffness nondimensional_link_energy nondimensional_end_to_end_length_per_link =>
         Finished (Some (morse_isometric_asymptotic_legendre.nondimensional_force nondimensional_link_stiffness nondimensional_link_energy nondimensional_end_to_end_length_per_link))) nondimensional_link_stiffness nondimensional_link_energy nondimensional_end_to_end_length_per_link)
  /\ (forall (number_of_links : jarray Z) (link_length : jarray T) (hinge_mass : jarray T) (link_stiffness : jarray T) (link_energy : jarray T) (end_to_end_length : jarray T) (temperature : jarray T),
     jl_morse_isometric_asymptotic_legendre.helmholtz_free_energy number_of_links link_length hinge_mass link_stiffness link_energy end_to_end_length temperature
     = broadcast [UInt8; Float64; Float64; Float64; Float64; Float64; Float64] (fun number_of_links link_length hinge_mass link_stiffness link_energy end_to_end_length temperature =>
         Finished (Some (morse_isometric_asymptotic_legendre.helmholtz_free_energy number_of_links link_length hinge_mass link_stiffness link_energy end_to_end_length temperature))) number_of_links link_length hinge_mass link_stiffness link_energy end_to_end_length temperature)
  /\ (forall (number_of_links : jarray Z) (link_length : jarray T) (hinge_mass : jarray T) (link_stiffness : jarray T) (link_energy : jarray T) (end_to_end_length : jarray T) (temperature : jarray T),
     jl_morse_isometric_asymptotic_legendre.helmholtz_free_energy_per_link number_of_links link_length hinge_mass link_stiffness link_energy end_to_end_length temperature
     = broadcast [UInt8; Float64; Float64; Float64; Float64; Float64; Float64] (fun number_of_links link_length hinge_mass link_stiffness link_energy end_to_end_length temperature =>
         Finished (Some (morse_isometric_asymptotic_legendre.helmholtz_free_energy_per_link number_of_links link_length hinge_mass link_stiffness link_energy end_to_end_length temperature))) number_of_links link_length hinge_mass link_stiffness link_energy end_to_end_length temperature)
  /\ (forall (number_of_links : jarray Z) (link_length : jarray T) (link_stiffness : jarray T) (link_energy : jarray T) (end_to_end_length : jarray T) (temperature : jarray T),
     jl_morse_isometric_asymptotic_legendre.relative_helmholtz_free_energy number_of_links link_length link_stiffness link_energy end_to_end_length temperature
     = broadcast [UInt8; Float64; Float64; Float64; Float64; Float64] (fun number_of_links link_length link_stiffness link_energy end_to_end_length temperature =>
         Finished (Some (morse_isometric_asymptotic_legendre.relative_helmholtz_free_energy number_of_links link_length link_stiffness link_energy end_to_end_length temperature))) number_of_links link_length link_stiffness link_energy end_to_end_length temperature)
  /\ (forall (number_of_links : jarray Z) (link_length : jarray T) (link_stiffness : jarray T) (link_energy : jarray T) (end_to_end_length : jarray T) (temperature : jarray T),
     jl_morse_isometric_asymptotic_legendre.relative_helmholtz_free_energy_per_link number_of_links link_length link_stiffness link_energy end_to_end_length temperature
     = broadcast [UInt8; Float64; Float64; Float64; Float64; Float64] (fun number_of_links link_length link_stiffness link_energy end_to_end_length temperature =>
         Finished (Some (morse_isometric_asymptotic_legendre.relative_helmholtz_free_energy_per_link number_of_links link_length link_stiffness link_energy end_to_end_length temperature))) number_of_links link_length link_stiffness link_energy end_to_end_length temperature)
  /\ (forall (number_of_links : jarray Z) (link_length : jarray T) (hinge_mass : jarray T) (nondimensional_link_stiffness : jarray T) (nondimensional_link_energy : jarray T) (nondimensional_end_to_end_length_per_link : jarray T) (temperature : jarray T),
     jl_morse_isometric_asymptotic_legendre.nondimensional_helmholtz_free_energy number_of_links link_length hinge_mass nondimensional_link_stiffness nondimensional_link_energy nondimensional_end_to_end_length_per_link temperature
     = broadcast [UInt8; Float64; Float64; Float64; Float64; Float64; Float64] (fun number_of_links link_length hinge_mass nondimensional_link_stiffness nondimensional_link_energy nondimensional_end_to_end_length_per_link temperature =>
         Finished (Some (morse_isometric_asymptotic_legendre.nondimensional_helmholtz_free_energy number_of_links link_length hinge_mass nondimensional_link_stiffness nondimensional_link_energy nondimensional_end_to_end_length_per_link temperature))) number_of_links link_length hinge_mass nondimensional_link_stiffness nondimensional_link_energy nondimensional_end_to_end_length_per_link temperature)
  /\ (forall (number_of_links : jarray Z) (link_length : jarray T) (hinge_mass : jarray T) (nondimensional_link_stiffness : jarray T) (nondimensional_link_energy : jarray T) (nondimensional_end_to_end_length_per_link : jarray T) (temperature : jarray T),
     jl_morse_isometric_asymptotic_legendre.nondimensional_helmholtz_free_energy_per_link number_of_links link_length hinge_mass nondimensional_link_stiffness nondimensional_link_energy nondimensional_end_to_end_length_per_link temperature
     = broadcast [UInt8; Float64; Float64; Float64; Float64; Float64; Float64] (fun number_of_links link_length hinge_mass nondimensional_link_stiffness nondimensional_link_energy nondimensional_end_to_end_length_per_link temperature =>
         Finished (Some (morse_isometric_asymptotic_legendre.nondimensional_helmholtz_free_energy_per_link number_of_links link_length hinge_mass nondimensional_link_stiffness nondimensional_link_energy nondimensional_end_to_end_length_per_link temperature))) number_of_links link_length hinge_mass nondimensional_link_stiffness nondimensional_link_energy nondimensional_end_to_end_length_per_link temperature)
  /\ (forall (number_of_links : jarray Z) (nondimensional_link_stiffness : jarray T) (nondimensional_link_energy : jarray T) (nondimensional_end_to_end_length_per_link : jarray T),
     jl_morse_isometric_asymptotic_legendre.nondimensional_relative_helmholtz_free_energy number_of_links nondimensional_link_stiffness nondimensional_link_energy nondimensional_end_to_end_length_per_link
     = broadcast [UInt8; Float64; Float64; Float64] (fun number_of_links nondimensional_link_stiffness nondimensional_link_energy nondimensional_end_to_end_length_per_link =>
         Finished (Some (morse_isometric_asymptotic_legendre.nondimensional_relative_helmholtz_free_energy number_of_links nondimensional_link_stiffness nondimensional_link_energy nondimensional_end_to_end_length_per_link))) number_of_links nondimensional_link_stiffness nondimensional_link_energy nondimensional_end_to_end_length_per_link)
  /\ (forall (nondimensional_link_stiffness : jarray T) (nondimensional_link_energy : jarray T) (nondimensional_end_to_end_length_per_link : jarray T),
     jl_morse_isometric_asymptotic_legendre.nondimensional_relative_helmholtz_free_energy_per_link nondimensional_link_stiffness nondimensional_link_energy nondimensional_end_to_end_length_per_link
     = broadcast [Float64; Float64; Float64] (fun nondimensional_link_stiffness nondimensional_link_energy nondimensional_end_to_end_length_per_link =>
         Finished (Some (morse_isometric_asymptotic_legendre.nondimensional_relative_helmholtz_free_energy_per_link nondimensional_link_stiffness nondimensional_link_energy nondimensional_end_to_end_length_per_link))) nondimensional_link_stiffness nondimensional_link_energy nondimensional_end_to_end_length_per_link).
Proof.
  exact (fun T Sc => conj (@F_morse_isometric_asymptotic_legendre_force T Sc)
    (conj (@F_morse_isometric_asymptotic_legendre_nondimensional_force T Sc)
    (conj (@F_morse_isometric_asymptotic_legendre_helmholtz_free_energy T Sc)
    (conj (@F_morse_isometric_asymptotic_legendre_helmholtz_free_energy_per_link T Sc)
    (conj (@F_morse_isometric_asymptotic_legendre_relative_helmholtz_free_energy T Sc)
    (conj (@F_morse_isometric_asymptotic_legendre_relative_helmholtz_free_energy_per_link T Sc)
    (conj (@F_morse_isometric_asymptotic_legendre_nondimensional_helmholtz_free_energy T Sc)
    (conj (@F_morse_isometric_asymptotic_legendre_nondimensional_helmholtz_free_energy_per_link T Sc)
    (conj (@F_morse_isometric_asymptotic_legendre_nondimensional_relative_helmholtz_free_energy T Sc)
    (@F_morse_isometric_asymptotic_legendre_nondimensional_relative_helmholtz_free_energy_per_link T Sc)))))))))).
Qed.
Print Assumptions C61_functions_morse_isometric_asymptotic_legendre.

Theorem C61_object_morse_isometric_asymptotic_legendre : forall (T : Type) (Sc : Scalar T) (number_of_links : Z) (link_length : T) (hinge_mass : T) (link_stiffness : T) (link_energy : T),
  let j := J_morse_isometric_asymptotic_legendre.init number_of_links link_length hinge_mass link_stiffness link_energy in
  let r := O_morse_isometric_asymptotic_legendre.init number_of_links link_length hinge_mass link_stiffness link_energy in
  J_morse_isometric_asymptotic_legendre.number_of_links j = O_morse_isometric_asymptotic_legendre.number_of_links r
  /\ J_morse_isometric_asymptotic_legendre.link_length j = O_morse_isometric_asymptotic_legendre.link_length r
  /\ J_morse_isometric_asymptotic_legendre.hinge_mass j = O_morse_isometric_asymptotic_legendre.hinge_mass r
  /\ J_morse_isometric_asymptotic_legendre.link_stiffness j = O_morse_isometric_asymptotic_legendre.link_stiffness r
  /\ J_morse_isometric_asymptotic_legendre.link_energy j = O_morse_isometric_asymptotic_legendre.link_energy r
  /\ (forall (end_to_end_length : jarray T) (temperature : jarray T),
     J_morse_isometric_asymptotic_legendre.force j end_to_end_length temperature
     = broadcast [Float64; Float64] (fun end_to_end_length temperature =>
         Finished (Some (O_morse_isometric_asymptotic_legendre.force r end_to_end_length temperature))) end_to_end_length temperature)
  /\ (forall (nondimensional_end_to_end_length_per_link : jarray T) (temperature : T),
     J_morse_isometric_asymptotic_legendre.nondimensional_force j nondimensional_end_to_end_length_per_link temperature
     = broadcast [Float64] (fun nondimensional_end_to_end_length_per_link =>
         Finished (Some (O_morse_isometric_asymptotic_legendre.nondimensional_force r nondimensional_end_to_end_length_per_link temperature))) nondimensional_end_to_end_length_per_link)
  /\ (forall (end_to_end_length : jarray T) (temperature : jarray T),
     J_morse_isometric_asymptotic_legendre.helmholtz_free_energy j end_to_end_length temperature
     = broadcast [Float64; Float64] (fun end_to_end_length temperature =>
         Finished (Some (O_morse_isometric_asymptotic_legendre.helmholtz_free_energy r end_to_end_length temperature))) end_to_end_length temperature)
  /\ (forall (end_to_end_length : jarray T) (temperature : jarray T),
     J_morse_isometric_asymptotic_legendre.helmholtz_free_energy_per_link j end_to_end_length temperature
     = broadcast [Float64; Float64] (fun end_to_end_length temperature =>
         Finished (Some (O_morse_isometric_asymptotic_legendre.helmholtz_free_energy_per_link r end_to_end_length temperature))) end_to_end_length temperature)
  /\ (forall (end_to_end_length : jarray T) (temperature : jarray T),
     J_morse_isometric_asymptotic_legendre.relative_helmholtz_free_energy j end_to_end_length temperature
     = broadcast [Float64; Float64] (fun end_to_end_length temperature =>
         Finished (Some (O_morse_isometric_asymptotic_legendre.relative_helmholtz_free_energy r end_to_end_length temperature))) end_to_end_length temperature)
  /\ (forall (end_to_end_length : jarray T) (temperature : jarray T),
     J_morse_isometric_asymptotic_legendre.relative_helmholtz_free_energy_per_link j end_to_end_length temperature
     = broadcast [Float64; Float64] (fun end_to_end_length temperature =>
         Finished (Some (O_morse_isometric_asymptotic_legendre.relative_helmholtz_free_energy_per_link r end_to_end_length temperature))) end_to_end_length temperature)
  /\ (forall (nondimensional_end_to_end_length_per_link : jarray T) (temperature : T),
     J_morse_isometric_asymptotic_legendre.nondimensional_helmholtz_free_energy j nondimensional_end_to_end_length_per_link temperature
     = broadcast [Float64] (fun nondimensional_end_to_end_length_per_link =>
         Finished (Some (O_morse_isometric_asymptotic_legendre.nondimensional_helmholtz_free_energy r nondimensional_end_to_end_length_per_link temperature))) nondimensional_end_to_end_length_per_link)
  /\ (forall (nondimensional_end_to_end_length_per_link : jarray T) (temperature : T),
     J_morse_isometric_asymptotic_legendre.nondimensional_helmholtz_free_energy_per_link j nondimensional_end_to_end_length_per_link temperature
     = broadcast [Float64] (fun nondimensional_end_to_end_length_per_link =>
         Finished (Some (O_morse_isometric_asymptotic_legendre.nondimensional_helmholtz_free_energy_per_link r nondimensional_end_to_end_length_per_link temperature))) nondimensional_end_to_end_length_per_link)
  /\ (forall (nondimensional_end_to_end_length_per_link : jarray T) (temperature : T),
     J_morse_isometric_asymptotic_legendre.nondimensional_relative_helmholtz_free_energy j nondimensional_end_to_end_length_per_link temperature
     = broadcast [Float64] (fun nondimensional_end_to_end_length_per_link =>
         Finished (Some (O_morse_isometric_asymptotic_legendre.nondimensional_relative_helmholtz_free_energy r nondimensional_end_to_end_length_per_link temperature))) nondimensional_end_to_end_length_per_link)
  /\ (forall (nondimensional_end_to_end_length_per_link : jarray T) (temperature : T),
     J_morse_isometric_asymptotic_legendre.nondimensional_relative_helmholtz_free_energy_per_link j nondimensional_end_to_end_length_per_link temperature
     = broadcast [Float64] (fun nondimensional_end_to_end_length_per_link =>
         Finished (Some (O_morse_isometric_asymptotic_legendre.nondimensional_relative_helmholtz_free_energy_per_link r nondimensional_end_to_end_length_per_link temperature))) nondimensional_end_to_end_length_per_link).
Proof. intros T Sc number_of_links link_length hinge_mass link_stiffness link_energy j r.
  split; [reflexivity|].
  split; [reflexivity|].
  split; [reflexivity|].
  split; [reflexivity|].
  split; [reflexivity|].
  split; [intros; cbv [j J_morse_isometric_asymptotic_legendre.init J_morse_isometric_asymptotic_legendre.force]; rewrite F_morse_isometric_asymptotic_legendre_force; unfold O_morse_isometric_asymptotic_legendre.force; broadcast_numbers|].
  split; [intros; cbv [j J_morse_isometric_asymptotic_legendre.init J_morse_isometric_asymptotic_legendre.nondimensional_force]; rewrite F_morse_isometric_asymptotic_legendre_nondimensional_force; unfold O_morse_isometric_asymptotic_legendre.nondimensional_force; broadcast_numbers|].
  split; [intros; cbv [j J_morse_isometric_asymptotic_legendre.init J_morse_isometric_asymptotic_legendre.helmholtz_free_energy]; rewrite F_morse_isometric_asymptotic_legendre_helmholtz_free_energy; unfold O_morse_isometric_asymptotic_legendre.helmholtz_free_energy; broadcast_numbers|].
  split; [intros; cbv [j J_morse_isometric_asymptotic_legendre.init J_morse_isometric_asymptotic_legendre.helmholtz_free_energy_per_link]; rewrite F_morse_isometric_asymptotic_legendre_helmholtz_free_energy_per_link; unfold O_morse_isometric_asymptotic_legendre.helmholtz_free_energy_per_link; broadcast_numbers|].
  split; [intros; cbv [j J_morse_isometric_asymptotic_legendre.init J_morse_isometric_asymptotic_legendre.relative_helmholtz_free_energy]; rewrite F_morse_isometric_asymptotic_legendre_relative_helmholtz_free_energy; unfold O_morse_isometric_asymptotic_legendre.relative_helmholtz_free_energy; broadcast_numbers|].
  split; [intros; cbv [j J_morse_isometric_asymptotic_legendre.init J_morse_isometric_asymptotic_legendre.relative_helmholtz_free_energy_per_link]; rewrite F_morse_isometric_asymptotic_legendre_relative_helmholtz_free_energy_per_link; unfold O_morse_isometric_asymptotic_legendre.relative_helmholtz_free_energy_per_link; broadcast_numbers|].
  split; [intros; cbv [j J_morse_isometric_asymptotic_legendre.init J_morse_isometric_asymptotic_legendre.nondimensional_helmholtz_free_energy]; rewrite F_morse_isometric_asymptotic_legendre_nondimensional_helmholtz_free_energy; unfold O_morse_isometric_asymptotic_legendre.nondimensional_helmholtz_free_energy; broadcast_numbers|].
  split; [intros; cbv [j J_morse_isometric_asymptotic_legendre.init J_morse_isometric_asymptotic_legendre.nondimensional_helmholtz_free_energy_per_link]; rewrite F_morse_isometric_asymptotic_legendre_nondimensional_helmholtz_free_energy_per_link; unfold O_morse_isometric_asymptotic_legendre.nondimensional_helmholtz_free_energy_per_link; broadcast_numbers|].
  split; [intros; cbv [j J_morse_isometric_asymptotic_legendre.init J_morse_isometric_asymptotic_legendre.nondimensional_relative_helmholtz_free_energy]; rewrite F_morse_isometric_asymptotic_legendre_nondimensional_relative_helmholtz_free_energy; unfold O_morse_isometric_asymptotic_legendre.nondimensional_relative_helmholtz_free_energy; broadcast_numbers|].
  intros; cbv [j J_morse_isometric_asymptotic_legendre.init J_morse_isometric_asymptotic_legendre.nondimensional_relative_helmholtz_free_energy_per_link]; rewrite F_morse_isometric_asymptotic_legendre_nondimensional_relative_helmholtz_free_energy_per_link; unfold O_morse_isometric_asymptotic_legendre.nondimensional_relative_helmholtz_free_energy_per_link; broadcast_numbers.
Qed.
Print Assumptions C61_object_morse_isometric_asymptotic_legendre.

Theorem C61_object_morse_isometric_asymptotic_reduced : forall (T : Type) (Sc : Scalar T) (number_of_links : Z) (link_length : T) (hinge_mass : T) (link_stiffness : T) (link_energy : T),
  let j := J_morse_isometric_asymptotic_reduced.init number_of_links link_length hinge_mass link_stiffness link_energy in
  let r := O_morse_isometric_asymptotic_reduced.init number_of_links link_length hinge_mass link_stiffness link_energy in
  J_morse_isometric_asymptotic_reduced.number_of_links j = O_morse_isometric_asymptotic_reduced.number_of_links r
  /\ J_morse_isometric_asymptotic_reduced.link_length j = O_morse_isometric_asymptotic_reduced.link_length r
  /\ J_morse_isometric_asymptotic_reduced.hinge_mass j = O_morse_isometric_asymptotic_reduced.hinge_mass r
  /\ J_morse_isometric_asymptotic_reduced.link_stiffness j = O_morse_isometric_asymptotic_reduced.link_stiffness r
  /\ J_morse_isometric_asymptotic_reduced.link_energy j = O_morse_isometric_asymptotic_reduced.link_energy r
  /\ J_morse_isometric_asymptotic_reduced.legendre j = J_morse_isometric_asymptotic_reduced_legendre.init number_of_links link_length hinge_mass link_stiffness link_energy.
Proof. intros T Sc number_of_links link_length hinge_mass link_stiffness link_energy j r.
  split; [reflexivity|].
  split; [reflexivity|].
  split; [reflexivity|].
  split; [reflexivity|].
  split; [reflexivity|].
  reflexivity.
Qed.
Print Assumptions C61_object_morse_isometric_asymptotic_reduced.

Theorem C61_functions_morse_isotensional_asymptotic_legendre : forall (T : Type) (Sc : Scalar T),
  (forall (number_of_links : jarray Z) (link_length : jarray T) (hinge_mass : jarray T) (link_stiffness : jarray T) (link_energy : jarray T) (force : jarray T) (temperature : jarray T),
     jl_morse_isotensional_asymptotic_legendre.helmholtz_free_energy number_of_links link_length hinge_mass link_stiffness link_energy force temperature
     = broadcast [UInt8; Float64; Float64; Float64; Float64; Float64; Float64] (fun number_of_links link_length hinge_mass link_stiffness link_energy force temperature =>
         Finished (Some (morse_isotensional_asymptotic_legendre.helmholtz_free_energy number_of_links link_length hinge_mass link_stiffness link_energy force temperature))) number_of_links link_length hinge_mass link_stiffness link_energy force temperature)
  /\ (forall (link_length : jarray T) (hinge_mass : jarray T) (link_stiffness : jarray T) (link_energy : jarray T) (force : jarray T) (temperature : jarray T),
     jl_morse_isotensional_asymptotic_legendre.helmholtz_free_energy_per_link link_length hinge_mass link_stiffness link_energy force temperature
     = broadcast [Float64; Float64; Float64; Float64; Float64; Float64] (fun link_length hinge_mass link_stiffness link_energy force temperature =>
         Finished (Some (morse_isotensional_asymptotic_legendre.helmholtz_free_energy_per_link link_length hinge_mass link_stiffness link_energy force temperature))) link_length hinge_mass link_stiffness link_energy force temperature)
  /\ (forall (number_of_links : jarray Z) (link_length : jarray T) (link_stiffness : jarray T) (link_energy : jarray T) (force : jarray T) (temperature : jarray T),
     jl_morse_isotensional_asymptotic_legendre.relative_helmholtz_free_energy number_of_links link_length link_stiffness link_energy force temperature
     = broadcast [UInt8; Float64; Float64; Float64; Float64; Float64] (fun number_of_links link_length link_stiffness link_energy force temperature =>
         Finished (Some (morse_isotensional_asymptotic_legendre.relative_helmholtz_free_energy number_of_links link_length link_stiffness link_energy force temperature))) number_of_links link_length link_stiffness link_energy force temperature)
  /\ (forall (link_length : jarray T) (link_stiffness : jarray T) (link_energy : jarray T) (force : jarray T) (temperature : jarray T),
     jl_morse_isotensional_asymptotic_legendre.relative_helmholtz_free_energy_per_link link_length link_stiffness link_energy force temperature
     = broadcast [Float64; Float64; Float64; Float64; Float64] (fun link_length link_stiffness link_energy force temperature =>
         Finished (Some (morse_isotensional_asymptotic_legendre.relative_helmholtz_free_energy_per_link link_length link_stiffness link_energy force temperature))) link_length link_stiffness link_energy force temperature)
  /\ (forall (number_of_links : jarray Z) (link_length : jarray T) (hinge_mass : jarray T) (nondimensional_link_stiffness : jarray T) (nondimensional_link_energy : jarray T) (nondimensional_force : jarray T) (temperature : jarray T),
     jl_morse_isotensional_asymptotic_legendre.nondimensional_helmholtz_free_energy number_of_links link_length hinge_mass nondimensional_link_stiffness nondimensional_link_energy nondimensional_force temperature
     = broadcast [UInt8; Float64; Float64; Float64; Float64; Float64; Float64] (fun number_of_links link_length hinge_mass nondimensional_link_stiffness nondimensional_link_energy nondimensional_force temperature =>
         Finished (Some (morse_isotensional_asymptotic_legendre.nondimensional_helmholtz_free_energy number_of_links link_length hinge_mass nondimensional_link_stiffness nondimensional_link_energy nondimensional_force temperature))) number_of_links link_length hinge_mass nondimensional_link_stiffness nondimensional_link_energy nondimensional_force temperature)
  /\ (forall (link_length : jarray T) (hinge_mass : jarray T) (nondimensional_link_stiffness : jarray T) (nondimensional_link_energy : jarray T) (nondimensional_force : jarray T) (temperature : jarray T),
     jl_morse_isotensional_asymptotic_legendre.nondimensional_helmholtz_free_energy_per_link link_length hinge_mass nondimensional_link_stiffness nondimensional_link_energy nondimensional_force temperature
     = broadcast [Float64; Float64; Float64; Float64; Float64; Float64] (fun link_length hinge_mass nondimensional_link_stiffness nondimensional_link_energy nondimensional_force temperature =>
         Finished (Some (morse_isotensional_asymptotic_legendre.nondimensional_helmholtz_free_energy_per_link link_length hinge_mass nondimensional_link_stiffness nondimensional_link_energy nondimensional_force temperature))) link_length hinge_mass nondimensional_link_stiffness nondimensional_link_energy nondimensional_force temperature)
  /\ (forall (number_of_links : jarray Z) (nondimensional_link_stiffness : jarray T) (nondimensional_link_energy : jarray T) (nondimensional_force : jarray T),
     jl_morse_isotensional_asymptotic_legendre.nondimensional_relative_helmholtz_free_energy number_of_links nondimensional_link_stiffness nondimensional_link_energy nondimensional_force
     = broadcast [UInt8; Float64; Float64; Float64] (fun number_of_links nondimensional_link_stiffness nondimensional_link_energy nondimensional_force =>
         Finished (Some (morse_isotensional_asymptotic_legendre.nondimensional_relative_helmholtz_free_energy number_of_links nondimensional_link_stiffness nondimensional_link_energy nondimensional_force))) number_of_links nondimensional_link_stiffness nondimensional_link_energy nondimensional_force)
  /\ (forall (nondimensional_link_stiffness : jarray T) (nondimensional_link_energy : jarray T) (nondimensional_force : jarray T),
     jl_morse_isotensional_asymptotic_legendre.nondimensional_relative_helmholtz_free_energy_per_link nondimensional_link_stiffness nondimensional_link_energy nondimensional_force
     = broadcast [Float64; Float64; Float64] (fun nondimensional_link_stiffness nondimensional_link_energy nondimensional_force =>
         Finished (Some (morse_isotensional_asymptotic_legendre.nondimensional_relative_helmholtz_free_energy_per_link nondimensional_link_stiffness nondimensional_link_energy nondimensional_force))) nondimensional_link_stiffness nondimensional_link_energy nondimensional_force).
Proof.
  exact (fun T Sc => conj (@F_morse_isotensional_asymptotic_legendre_helmholtz_free_energy T Sc)
    (conj (@F_morse_isotensional_asymptotic_legendre_helmholtz_free_energy_per_link T Sc)
    (conj (@F_morse_isotensional_asymptotic_legendre_relative_helmholtz_free_energy T Sc)
    (conj (@F_morse_isotensional_asymptotic_legendre_relative_helmholtz_free_energy_per_link T Sc)
    (conj (@F_morse_isotensional_asymptotic_legendre_nondimensional_helmholtz_free_energy T Sc)
    (conj (@F_morse_isotensional_asymptotic_legendre_nondimensional_helmholtz_free_energy_per_link T Sc)
    (conj (@F_morse_isotensional_asymptotic_legendre_nondimensional_relative_helmholtz_free_energy T Sc)
    (@F_morse_isotensional_asymptotic_legendre_nondimensional_relative_helmholtz_free_energy_per_link T Sc)))))))).
Qed.
Print Assumptions C61_functions_morse_isotensional_asymptotic_legendre.

Theorem C61_object_morse_isotensional_asymptotic_legendre : forall (T : Type) (Sc : Scalar T) (number_of_links : Z) (link_length : T) (hinge_mass : T) (link_stiffness : T) (link_energy : T),
  let j := J_morse_isotensional_asymptotic_legendre.init number_of_links link_length hinge_mass link_stiffness link_energy in
  let r := O_morse_isotensional_asymptotic_legendre.init number_of_links link_length hinge_mass link_stiffness link_energy in
  J_morse_isotensional_asymptotic_legendre.number_of_links j = O_morse_isotensional_asymptotic_legendre.number_of_links r
  /\ J_morse_isotensional_asymptotic_legendre.link_length j = O_morse_isotensional_asymptotic_legendre.link_length r
  /\ J_morse_isotensional_asymptotic_legendre.hinge_mass j = O_morse_isotensional_asymptotic_legendre.hinge_mass r
  /\ J_morse_isotensional_asymptotic_legendre.link_stiffness j = O_morse_isotensional_asymptotic_legendre.link_stiffness r
  /\ J_morse_isotensional_asymptotic_legendre.link_energy j = O_morse_isotensional_asymptotic_legendre.link_energy r
  /\ (forall (force : jarray T) (temperature : jarray T),
     J_morse_isotensional_asymptotic_legendre.helmholtz_free_energy j force temperature
     = broadcast [Float64; Float64] (fun force temperature =>
         Finished (Some (O_morse_isotensional_asymptotic_legendre.helmholtz_free_energy r force temperature))) force temperature)
  /\ (forall (force : jarray T) (temperature : jarray T),
     J_morse_isotensional_asymptotic_legendre.helmholtz_free_energy_per_link j force temperature
     = broadcast [Float64; Float64] (fun force temperature =>
         Finished (Some (O_morse_isotensional_asymptotic_legendre.helmholtz_free_energy_per_link r force temperature))) force temperature)
  /\ (forall (force : jarray T) (temperature : jarray T),
     J_morse_isotensional_asymptotic_legendre.relative_helmholtz_free_energy j force temperature
     = broadcast [Float64; Float64] (fun force temperature =>
         Finished (Some (O_morse_isotensional_asymptotic_legendre.relative_helmholtz_free_energy r force temperature))) force temperature)
  /\ (forall (force : jarray T) (temperature : jarray T),
     J_morse_isotensional_asymptotic_legendre.relative_helmholtz_free_energy_per_link j force temperature
     = broadcast [Float64; Float64] (fun force temperature =>
         Finished (Some (O_morse_isotensional_asymptotic_legendre.relative_helmholtz_free_energy_per_link r force temperature))) force temperature)
  /\ (forall (nondimensional_force : jarray T) (temperature : T),
     J_morse_isotensional_asymptotic_legendre.nondimensional_helmholtz_free_energy j nondimensional_force temperature
     = broadcast [Float64] (fun nondimensional_force =>
         Finished (Some (O_morse_isotensional_asymptotic_legendre.nondimensional_helmholtz_free_energy r nondimensional_force temperature))) nondimensional_force)
  /\ (forall (nondimensional_force : jarray T) (temperature : T),
     J_morse_isotensional_asymptotic_legendre.nondimensional_helmholtz_free_energy_per_link j nondimensional_force temperature
     = broadcast [Float64] (fun nondimensional_force =>
         Finished (Some (O_morse_isotensional_asymptotic_legendre.nondimensional_helmholtz_free_energy_per_link r nondimensional_force temperature))) nondimensional_force)
  /\ (forall (nondimensional_force : jarray T) (temperature : T),
     J_morse_isotensional_asymptotic_legendre.nondimensional_relative_helmholtz_free_energy j nondimensional_force temperature
     = broadcast [Float64] (fun nondimensional_force =>
         Finished (Some (O_morse_isotensional_asymptotic_legendre.nondimensional_relative_helmholtz_free_energy r nondimensional_force temperature))) nondimensional_force)
  /\ (forall (nondimensional_force : jarray T) (temperature : T),
     J_morse_isotensional_asymptotic_legendre.nondimensional_relative_helmholtz_free_energy_per_link j nondimensional_force temperature
     = broadcast [Float64] (fun nondimensional_force =>
         Finished (Some (O_morse_isotensional_asymptotic_legendre.nondimensional_relative_helmholtz_free_energy_per_link r nondimensional_force temperature))) nondimensional_force).
Proof. intros T Sc number_of_links link_length hinge_mass link_stiffness link_energy j r.
  split; [reflexivity|].
  split; [reflexivity|].
  split; [reflexivity|].
  split; [reflexivity|].
  split; [reflexivity|].
  split; [intros; cbv [j J_morse_isotensional_asymptotic_legendre.init J_morse_isotensional_asymptotic_legendre.helmholtz_free_energy]; rewrite F_morse_isotensional_asymptotic_legendre_helmholtz_free_energy; unfold O_morse_isotensional_asymptotic_legendre.helmholtz_free_energy; broadcast_numbers|].
  split; [intros; cbv [j J_morse_isotensional_asymptotic_legendre.init J_morse_isotensional_asymptotic_legendre.helmholtz_free_energy_per_link]; rewrite F_morse_isotensional_asymptotic_legendre_helmholtz_free_energy_per_link; unfold O_morse_isotensional_asymptotic_legendre.helmholtz_free_energy_per_link; broadcast_numbers|].
  split; [intros; cbv [j J_morse_isotensional_asymptotic_legendre.init J_morse_isotensional_asymptotic_legendre.relative_helmholtz_free_energy]; rewrite F_morse_isotensional_asymptotic_legendre_relative_helmholtz_free_energy; unfold O_morse_isotensional_asymptotic_legendre.relative_helmholtz_free_energy; broadcast_numbers|].
  split; [intros; cbv [j J_morse_isotensional_asymptotic_legendre.init J_morse_isotensional_asymptotic_legendre.relative_helmholtz_free_energy_per_link]; rewrite F_morse_isotensional_asymptotic_legendre_relative_helmholtz_free_energy_per_link; unfold O_morse_isotensional_asymptotic_legendre.relative_helmholtz_free_energy_per_link; broadcast_numbers|].
  split; [intros; cbv [j J_morse_isotensional_asymptotic_legendre.init J_morse_isotensional_asymptotic_legendre.nondimensional_helmholtz_free_energy]; rewrite F_morse_isotensional_asymptotic_legendre_nondimensional_helmholtz_free_energy; unfold O_morse_isotensional_asymptotic_legendre.nondimensional_helmholtz_free_energy; broadcast_numbers|].
  split; [intros; cbv [j J_morse_isotensional_asymptotic_legendre.init J_morse_isotensional_asymptotic_legendre.nondimensional_helmholtz_free_energy_per_link]; rewrite F_morse_isotensional_asymptotic_legendre_nondimensional_helmholtz_free_energy_per_link; unfold O_morse_isotensional_asymptotic_legendre.nondimensional_helmholtz_free_energy_per_link; broadcast_numbers|].
  split; [intros; cbv [j J_morse_isotensional_asymptotic_legendre.init J_morse_isotensional_asymptotic_legendre.nondimensional_relative_helmholtz_free_energy]; rewrite F_morse_isotensional_asymptotic_legendre_nondimensional_relative_helmholtz_free_energy; unfold O_morse_isotensional_asymptotic_legendre.nondimensional_relative_helmholtz_free_energy; broadcast_numbers|].
  intros; cbv [j J_morse_isotensional_asymptotic_legendre.init J_morse_isotensional_asymptotic_legendre.nondimensional_relative_helmholtz_free_energy_per_link]; rewrite F_morse_isotensional_asymptotic_legendre_nondimensional_relative_helmholtz_free_energy_per_link; unfold O_morse_isotensional_asymptotic_legendre.nondimensional_relative_helmholtz_free_energy_per_link; broadcast_numbers.
Qed.
Print Assumptions C61_object_morse_isotensional_asymptotic_legendre.

Theorem C61_functions_morse_isotensional_asymptotic_reduced : forall (T : Type) (Sc : Scalar T),
  (forall (number_of_links : jarray Z) (link_length : jarray T) (link_stiffness : jarray T) (link_energy : jarray T) (force : jarray T) (temperature : jarray T),
     jl_morse_isotensional_asymptotic_reduced.end_to_end_length number_of_links link_length link_stiffness link_energy force temperature
     = broadcast [UInt8; Float64; Float64; Float64; Float64; Float64] (fun number_of_links link_length link_stiffness link_energy force temperature =>
         Finished (Some (morse_isotensional_asymptotic_reduced.end_to_end_length number_of_links link_length link_stiffness link_energy force temperature))) number_of_links link_length link_stiffness link_energy force temperature)
  /\ (forall (link_length : jarray T) (link_stiffness : jarray T) (link_energy : jarray T) (force : jarray T) (temperature : jarray T),
     jl_morse_isotensional_asymptotic_reduced.end_to_end_length_per_link link_length link_stiffness link_energy force temperature
     = broadcast [Float64; Float64; Float64; Float64; Float64] (fun link_length link_stiffness link_energy force temperature =>
         Finished (Some (morse_isotensional_asymptotic_reduced.end_to_end_length_per_link link_length link_stiffness link_energy force temperature))) link_length link_stiffness link_energy force temperature)
  /\ (forall (number_of_links : jarray Z) (nondimensional_link_stiffness : jarray T) (nondimensional_link_energy : jarray T) (nondimensional_force : jarray T),
     jl_morse_isotensional_asymptotic_reduced.nondimensional_end_to_end_length number_of_links nondimensional_link_stiffness nondimensional_link_energy nondimensional_force
     = broadcast [UInt8; Float64; Float64; Float64] (fun number_of_links nondimensional_link_stiffness nondimensional_link_energy nondimensional_force =>
         Finished (Some (morse_isotensional_asymptotic_reduced.nondimensional_end_to_end_length number_of_links nondimensional_link_stiffness nondimensional_link_energy nondimensional_force))) number_of_links nondimensional_link_stiffness nondimensional_link_energy nondimensional_force)
  /\ (forall (nondimensional_link_stiffness : jarray T) (nondimensional_link_energy : jarray T) (nondimensional_force : jarray T),
     jl_morse_isotensional_asymptotic_reduced.nondimensional_end_to_end_length_per_link nondimensional_link_stiffness nondimensional_link_energy nondimensional_force
     = broadcast [Float64; Float64; Float64] (fun nondimensional_link_stiffness nondimensional_link_energy nondimensional_force =>
         Finished (Some (morse_isotensional_asymptotic_reduced.nondimensional_end_to_end_length_per_link nondimensional_link_stiffness nondimensional_link_energy nondimensional_force))) nondimensional_link_stiffness nondimensional_link_energy nondimensional_force)
  /\ (forall (number_of_links : jarray Z) (link_length : jarray T) (hinge_mass : jarray T) (link_stiffness : jarray T) (link_energy : jarray T) (force : jarray T) (temperature : jarray T),
     jl_morse_isotensional_asymptotic_reduced.gibbs_free_energy number_of_links link_length hinge_mass link_stiffness link_energy force temperature
     = broadcast [UInt8; Float64; Float64; Float64; Float64; Float64; Float64] (fun number_of_links link_length hinge_mass link_stiffness link_energy force temperature =>
         Finished (Some (morse_isotensional_asymptotic_reduced.gibbs_free_energy number_of_links link_length hinge_mass link_stiffness link_energy force temperature))) number_of_links link_length hinge_mass link_stiffness link_energy force temperature)
  /\ (forall (link_length : jarray T) (hinge_mass : jarray T) (link_stiffness : jarray T) (link_energy : jarray T) (force : jarray T) (temperature : jarray T),
     jl_morse_isotensional_asymptotic_reduced.gibbs_free_energy_per_link link_length hinge_mass link_stiffness link_energy force temperature
     = broadcast [Float64; Float64; Float64; Float64; Float64; Float64] (fun link_length hinge_mass link_stiffness link_energy force temperature =>
         Finished (Some (morse_isotensional_asymptotic_reduced.gibbs_free_energy_per_link link_length hinge_mass link_stiffness link_energy force temperature))) link_length hinge_mass link_stiffness link_energy force temperature)
  /\ (forall (number_of_links : jarray Z) (link_length : jarray T) (link_stiffness : jarray T) (link_energy : jarray T) (force : jarray T) (temperature : jarray T),
     jl_morse_isotensional_asymptotic_reduced.relative_gibbs_free_energy number_of_links link_length link_stiffness link_energy force temperature
     = broadcast [UInt8; Float64; Float64; Float64; Float64; Float64] (fun number_of_links link_length link_stiffness link_energy force temperature =>
         Finished (Some (morse_isotensional_asymptotic_reduced.relative_gibbs_free_energy number_of_links link_length link_stiffness link_energy force temperature))) number_of_links link_length link_stiffness link_energy force temperature)
  /\ (forall (link_length : jarray T) (link_stiffness : jarray T) (link_energy : jarray T) (force : jarray T) (temperature : jarray T),
     jl_morse_isotensional_asymptotic_reduced.relative_gibbs_free_energy_per_link link_length link_stiffness link_energy force temperature
     = broadcast [Float64; Float64; Float64; Float64; Float64] (fun link_length link_stiffness link_energy force temperature =>
         Finished (Some (morse_isotensional_asymptotic_reduced.relative_gibbs_free_energy_per_link link_length link_stiffness link_energy force temperature))) link_length link_stiffness link_energy force temperature)
  /\ (forall (number_of_links : jarray Z) (link_length : jarray T) (hinge_mass : jarray T) (nondimensional_link_stiffness : jarray T) (nondimensional_link_energy : jarray T) (nondimensional_force : jarray T) (temperature : jarray T),
     jl_morse_isotensional_asymptotic_reduced.nondimensional_gibbs_free_energy number_of_links link_length hinge_mass nondimensional_link_stiffness nondimensional_link_energy nondimensional_force temperature
     = broadcast [UInt8; Float64; Float64; Float64; Float64; Float64; Float64] (fun number_of_links link_length hinge_mass nondimensional_link_stiffness nondimensional_link_energy nondimensional_force temperature =>
         Finished (Some (morse_isotensional_asymptotic_reduced.nondimensional_gibbs_free_energy number_of_links link_length hinge_mass nondimensional_link_stiffness nondimensional_link_energy nondimensional_force temperature))) number_of_links link_length hinge_mass nondimensional_link_stiffness nondimensional_link_energy nondimensional_force temperature)
  /\ (forall (link_length : jarray T) (hinge_mass : jarray T) (nondimensional_link_stiffness : jarray T) (nondimensional_link_energy : jarray T) (nondimensional_force : jarray T) (temperature : jarray T),
     jl_morse_isotensional_asymptotic_reduced.nondimensional_gibbs_free_energy_per_link link_length hinge_mass nondimensional_link_stiffness nondimensional_link_energy nondimensional_force temperature
     = broadcast [Float64; Float64; Float64; Float64; Float64; Float64] (fun link_length hinge_mass nondimensional_link_stiffness nondimensional_link_energy nondimensional_force temperature =>
         Finished (Some (morse_isotensional_asymptotic_reduced.nondimensional_gibbs_free_energy_per_link link_length hinge_mass nondimensional_link_stiffness nondimensional_link_energy nondimensional_force temperature))) link_length hinge_mass nondimensional_link_stiffness nondimensional_link_energy nondimensional_force temperature)
  /\ (forall (number_of_links : jarray Z) (nondimensional_link_stiffness : jarray T) (nondimensional_link_energy : jarray T) (nondimensional_force : jarray T),
     jl_morse_isotensional_asymptotic_reduced.nondimensional_relative_gibbs_free_energy number_of_links nondimensional_link_stiffness nondimensional_link_energy nondimensional_force
     = broadcast [UInt8; Float64; Float64; Float64] (fun number_of_links nondimensional_link_stiffness nondimensional_link_energy nondimensional_force =>
         Finished (Some (morse_isotensional_asymptotic_reduced.nondimensional_relative_gibbs_free_energy number_of_links nondimensional_link_stiffness nondimensional_link_energy nondimensional_force))) number_of_links nondimensional_link_stiffness nondimensional_link_energy nondimensional_force)
  /\ (forall (nondimensional_link_stiffness : jarray T) (nondimensional_link_energy : jarray T) (nondimensional_force : jarray T),
     jl_morse_isotensional_asymptotic_reduced.nondimensional_relative_gibbs_free_energy_per_link nondimensional_link_stiffness nondimensional_link_energy nondimensional_force
     = broadcast [Float64; Float64; Float64] (fun nondimensional_link_stiffness nondimensional_link_energy nondimensional_force =>
         Finished (Some (morse_isotensional_asymptotic_reduced.nondimensional_relative_gibbs_free_energy_per_link nondimensional_link_stiffness nondimensional_link_energy nondimensional_force))) nondimensional_link_stiffness nondimensional_link_energy nondimensional_force).
Proof.
  exact (fun T Sc => conj (@F_morse_isotensional_asymptotic_reduced_end_to_end_length T Sc)
    (conj (@F_morse_isotensional_asymptotic_reduced_end_to_end_length_per_link T Sc)
    (conj (@F_morse_isotensional_asymptotic_reduced_nondimensional_end_to_end_length T Sc)
    (conj (@F_morse_isotensional_asymptotic_reduced_nondimensional_end_to_end_length_per_link T Sc)
    (conj (@F_morse_isotensional_asymptotic_reduced_gibbs_free_energy T Sc)
    (conj (@F_morse_isotensional_asymptotic_reduced_gibbs_free_energy_per_link T Sc)
    (conj (@F_morse_isotensional_asymptotic_reduced_relative_gibbs_free_energy T Sc)
    (conj (@F_morse_isotensional_asymptotic_reduced_relative_gibbs_free_energy_per_link T Sc)
    (conj (@F_morse_isotensional_asymptotic_reduced_nondimensional_gibbs_free_energy T Sc)
    (conj (@F_morse_isotensional_asymptotic_reduced_nondimensional_gibbs_free_energy_per_link T Sc)
    (conj (@F_morse_isotensional_asymptotic_reduced_nondimensional_relative_gibbs_free_energy T Sc)
    (@F_morse_isotensional_asymptotic_reduced_nondimensional_relative_gibbs_free_energy_per_link T Sc)))))))))))).
Qed.
Print Assumptions C61_functions_morse_isotensional_asymptotic_reduced.

Theorem C61_object_morse_isotensional_asymptotic_reduced : forall (T : Type) (Sc : Scalar T) (number_of_links : Z) (link_length : T) (hinge_mass : T) (link_stiffness : T) (link_energy : T),
  let j := J_morse_isotensional_asymptotic_reduced.init number_of_links link_length hinge_mass link_stiffness link_energy in
  let r := O_morse_isotensional_asymptotic_reduced.init number_of_links link_length hinge_mass link_stiffness link_energy in
  J_morse_isotensional_asymptotic_reduced.number_of_links j = O_morse_isotensional_asymptotic_reduced.number_of_links r
  /\ J_morse_isotensional_asymptotic_reduced.link_length j = O_morse_isotensional_asymptotic_reduced.link_length r
  /\ J_morse_isotensional_asymptotic_reduced.hinge_mass j = O_morse_isotensional_asymptotic_reduced.hinge_mass r
  /\ J_morse_isotensional_asymptotic_reduced.link_stiffness j = O_morse_isotensional_asymptotic_reduced.link_stiffness r
  /\ J_morse_isotensional_asymptotic_reduced.link_energy j = O_morse_isotensional_asymptotic_reduced.link_energy r
  /\ J_morse_isotensional_asymptotic_reduced.legendre j = J_morse_isotensional_asymptotic_reduced_legendre.init number_of_links link_length hinge_mass link_stiffness link_energy
  /\ (forall (force : jarray T) (temperature : jarray T),
     J_morse_isotensional_asymptotic_reduced.end_to_end_length j force temperature
     = broadcast [Float64; Float64] (fun force temperature =>
         Finished (Some (O_morse_isotensional_asymptotic_reduced.end_to_end_length r force temperature))) force temperature)
  /\ (forall (force : jarray T) (temperature : jarray T),
     J_morse_isotensional_asymptotic_reduced.end_to_end_length_per_link j force temperature
     = broadcast [Float64; Float64] (fun force temperature =>
         Finished (Some (O_morse_isotensional_asymptotic_reduced.end_to_end_length_per_link r force temperature))) force temperature)
  /\ (forall (nondimensional_force : jarray T) (temperature : T),
     J_morse_isotensional_asymptotic_reduced.nondimensional_end_to_end_length j nondimensional_force temperature
     = broadcast [Float64] (fun nondimensional_force =>
         Finished (Some (O_morse_isotensional_asymptotic_reduced.nondimensional_end_to_end_length r nondimensional_force temperature))) nondimensional_force)
  /\ (forall (nondimensional_force : jarray T) (temperature : T),
     J_morse_isotensional_asymptotic_reduced.nondimensional_end_to_end_length_per_link j nondimensional_force temperature
     = broadcast [Float64] (fun nondimensional_force =>
         Finished (Some (O_morse_isotensional_asymptotic_reduced.nondimensional_end_to_end_length_per_link r nondimensional_force temperature))) nondimensional_force)
  /\ (forall (force : jarray T) (temperature : jarray T),
     J_morse_isotensional_asymptotic_reduced.gibbs_free_energy j force temperature
     = broadcast [Float64; Float64] (fun force temperature =>
         Finished (Some (O_morse_isotensional_asymptotic_reduced.gibbs_free_energy r force temperature))) force temperature)
  /\ (forall (force : jarray T) (temperature : jarray T),
     J_morse_isotensional_asymptotic_reduced.gibbs_free_energy_per_link j force temperature
     = broadcast [Float64; Float64] (fun force temperature =>
         Finished (Some (O_morse_isotensional_asymptotic_reduced.gibbs_free_energy_per_link r force temperature))) force temperature)
  /\ (forall (force : jarray T) (temperature : jarray T),
     J_morse_isotensional_asymptotic_reduced.relative_gibbs_free_energy j force temperature
     = broadcast [Float64; Float64] (fun force temperature =>
         Finished (Some (O_morse_isotensional_asymptotic_reduced.relative_gibbs_free_energy r force temperature))) force temperature)
  /\ (forall (force : jarray T) (temperature : jarray T),
     J_morse_isotensional_asymptotic_reduced.relative_gibbs_free_energy_per_link j force temperature
     = broadcast [Float64; Float64] (fun force temperature =>
         Finished (Some (O_morse_isotensional_asymptotic_reduced.relative_gibbs_free_energy_per_link r force temperature))) force temperature)
  /\ (forall (nondimensional_force : jarray T) (temperature : T),
     J_morse_isotensional_asymptotic_reduced.nondimensional_gibbs_free_energy j nondimensional_force temperature
     = broadcast [Float64] (fun nondimensional_force =>
         Finished (Some (O_morse_isotensional_asymptotic_reduced.nondimensional_gibbs_free_energy r nondimensional_force temperature))) nondimensional_force)
  /\ (forall (nondimensional_force : jarray T) (temperature : T),
     J_morse_isotensional_asymptotic_reduced.nondimensional_gibbs_free_energy_per_link j nondimensional_force temperature
     = broadcast [Float64] (fun nondimensional_force =>
         Finished (Some (O_morse_isotensional_asymptotic_reduced.nondimensional_gibbs_free_energy_per_link r nondimensional_force temperature))) nondimensional_force)
  /\ (forall (nondimensional_force : jarray T) (temperature : T),
     J_morse_isotensional_asymptotic_reduced.nondimensional_relative_gibbs_free_energy j nondimensional_force temperature
     = broadcast [Float64] (fun nondimensional_force =>
         Finished (Some (O_morse_isotensional_asymptotic_reduced.nondimensional_relative_gibbs_free_energy r nondimensional_force temperature))) nondimensional_force)
  /\ (forall (nondimensional_force : jarray T) (temperature : T),
     J_morse_isotensional_asymptotic_reduced.nondimensional_relative_gibbs_free_energy_per_link j nondimensional_force temperature
     = broadcast [Float64] (fun nondimensional_force =>
         Finished (Some (O_morse_isotensional_asymptotic_reduced.nondimensional_relative_gibbs_free_energy_per_link r nondimensional_force temperature))) nondimensional_force).
Proof. intros T Sc number_of_links link_length hinge_mass link_stiffness link_energy j r.
  split; [reflexivity|].
  split; [reflexivity|].
  split; [reflexivity|].
  split; [reflexivity|].
  split; [reflexivity|].
  split; [reflexivity|].
  split; [intros; cbv [j J_morse_isotensional_asymptotic_reduced.init J_morse_isotensional_asymptotic_reduced.end_to_end_length]; rewrite F_morse_isotensional_asymptotic_reduced_end_to_end_length; unfold O_morse_isotensional_asymptotic_reduced.end_to_end_length; broadcast_numbers|].
  split; [intros; cbv [j J_morse_isotensional_asymptotic_reduced.init J_morse_isotensional_asymptotic_reduced.end_to_end_length_per_link]; rewrite F_morse_isotensional_asymptotic_reduced_end_to_end_length_per_link; unfold O_morse_isotensional_asymptotic_reduced.end_to_end_length_per_link; broadcast_numbers|].
  split; [intros; cbv [j J_morse_isotensional_asymptotic_reduced.init J_morse_isotensional_asymptotic_reduced.nondimensional_end_to_end_length]; rewrite F_morse_isotensional_asymptotic_reduced_nondimensional_end_to_end_length; unfold O_morse_isotensional_asymptotic_reduced.nondimensional_end_to_end_length; broadcast_numbers|].
  split; [intros; cbv [j J_morse_isotensional_asymptotic_reduced.init J_morse_isotensional_asymptotic_reduced.nondimensional_end_to_end_length_per_link]; rewrite F_morse_isotensional_asymptotic_reduced_nondimensional_end_to_end_length_per_link; unfold O_morse_isotensional_asymptotic_reduced.nondimensional_end_to_end_length_per_link; broadcast_numbers|].
  split; [intros; cbv [j J_morse_isotensional_asymptotic_reduced.init J_morse_isotensional_asymptotic_reduced.gibbs_free_energy]; rewrite F_morse_isotensional_asymptotic_reduced_gibbs_free_energy; unfold O_morse_isotensional_asymptotic_reduced.gibbs_free_energy; broadcast_numbers|].
  split; [intros; cbv [j J_morse_isotensional_asymptotic_reduced.init J_morse_isotensional_asymptotic_reduced.gibbs_free_energy_per_link]; rewrite F_morse_isotensional_asymptotic_reduced_gibbs_free_energy_per_link; unfold O_morse_isotensional_asymptotic_reduced.gibbs_free_energy_per_link; broadcast_numbers|].
  split; [intros; cbv [j J_morse_isotensional_asymptotic_reduced.init J_morse_isotensional_asymptotic_reduced.relative_gibbs_free_energy]; rewrite F_morse_isotensional_asymptotic_reduced_relative_gibbs_free_energy; unfold O_morse_isotensional_asymptotic_reduced.relative_gibbs_free_energy; broadcast_numbers|].
  split; [intros; cbv [j J_morse_isotensional_asymptotic_reduced.init J_morse_isotensional_asymptotic_reduced.relative_gibbs_free_energy_per_link]; rewrite F_morse_isotensional_asymptotic_reduced_relative_gibbs_free_energy_per_link; unfold O_morse_isotensional_asymptotic_reduced.relative_gibbs_free_energy_per_link; broadcast_numbers|].
  split; [intros; cbv [j J_morse_isotensional_asymptotic_reduced.init J_morse_isotensional_asymptotic_reduced.nondimensional_gibbs_free_energy]; rewrite F_morse_isotensional_asymptotic_reduced_nondimensional_gibbs_free_energy; unfold O_morse_isotensional_asymptotic_reduced.nondimensional_gibbs_free_energy; broadcast_numbers|].
  split; [intros; cbv [j J_morse_isotensional_asymptotic_reduced.init J_morse_isotensional_asymptotic_reduced.nondimensional_gibbs_free_energy_per_link]; rewrite F_morse_isotensional_asymptotic_reduced_nondimensional_gibbs_free_energy_per_link; unfold O_morse_isotensional_asymptotic_reduced.nondimensional_gibbs_free_energy_per_link; broadcast_numbers|].
  split; [intros; cbv [j J_morse_isotensional_asymptotic_reduced.init J_morse_isotensional_asymptotic_reduced.nondimensional_relative_gibbs_free_energy]; rewrite F_morse_isotensional_asymptotic_reduced_nondimensional_relative_gibbs_free_energy; unfold O_morse_isotensional_asymptotic_reduced.nondimensional_relative_gibbs_free_energy; broadcast_numbers|].
  intros; cbv [j J_morse_isotensional_asymptotic_reduced.init J_morse_isotensional_asymptotic_reduced.nondimensional_relative_gibbs_free_energy_per_link]; rewrite F_morse_isotensional_asymptotic_reduced_nondimensional_relative_gibbs_free_energy_per_link; unfold O_morse_isotensional_asymptotic_reduced.nondimensional_relative_gibbs_free_energy_per_link; broadcast_numbers.
Qed.
Print Assumptions C61_object_morse_isotensional_asymptotic_reduced.

Theorem C61_object_efjc_isometric_asymptotic_alternative : forall (T : Type) (Sc : Scalar T) (number_of_links : Z) (link_length : T) (hinge_mass : T) (link_stiffness : T),
  let j := J_efjc_isometric_asymptotic_alternative.init number_of_links link_length hinge_mass link_stiffness in
  let r := O_efjc_isometric_asymptotic_alternative.init number_of_links link_length hinge_mass link_stiffness in
  J_efjc_isometric_asymptotic_alternative.number_of_links j = O_efjc_isometric_asymptotic_alternative.number_of_links r
  /\ J_efjc_isometric_asymptotic_alternative.link_length j = O_efjc_isometric_asymptotic_alternative.link_length r
  /\ J_efjc_isometric_asymptotic_alternative.hinge_mass j = O_efjc_isometric_asymptotic_alternative.hinge_mass r
  /\ J_efjc_isometric_asymptotic_alternative.link_stiffness j = O_efjc_isometric_asymptotic_alternative.link_stiffness r
  /\ J_efjc_isometric_asymptotic_alternative.legendre j = J_efjc_isometric_asymptotic_alternative_legendre.init number_of_links link_length hinge_mass link_stiffness.
Proof. intros T Sc number_of_links link_length hinge_mass link_stiffness j r.
  split; [reflexivity|].
  split; [reflexivity|].
  split; [reflexivity|].
  split; [reflexivity|].
  reflexivity.
Qed.
Print Assumptions C61_object_efjc_isometric_asymptotic_alternative.

Theorem C61_functions_efjc_isometric_asymptotic_legendre : forall (T : Type) (Sc : Scalar T),
  (forall (number_of_links : jarray Z) (link_length : jarray T) (link_stiffness : jarray T) (end_to_end_length : jarray T) (temperature : jarray T),
     jl_efjc_isometric_asymptotic_legendre.force number_of_links link_length link_stiffness end_to_end_length temperature
     = broadcast [UInt8; Float64; Float64; Float64; Float64] (fun number_of_links link_length link_stiffness end_to_end_length temperature =>
         Finished (Some (efjc_isometric_asymptotic_legendre.force number_of_links link_length link_stiffness end_to_end_length temperature))) number_of_links link_length link_stiffness end_to_end_length temperature)
  /\ (forall (nondimensional_link_stiffness : jarray T) (nondimensional_end_to_end_length_per_link : jarray T),
     jl_efjc_isometric_asymptotic_legendre.nondimensional_force nondimensional_link_stiffness nondimensional_end_to_end_length_per_link
     = broadcast [Float64; Float64] (fun nondimensional_link_stiffness nondimensional_end_to_end_length_per_link =>
         Finished (Some (efjc_isometric_asymptotic_legendre.nondimensional_force nondimensional_link_stiffness nondimensional_end_to_end_length_per_link))) nondimensional_link_stiffness nondimensional_end_to_end_length_per_link)
  /\ (forall (number_of_links : jarray Z) (link_length : jarray T) (hinge_mass : jarray T) (link_stiffness : jarray T) (end_to_end_length : jarray T) (temperature : jarray T),
     jl_efjc_isometric_asymptotic_legendre.helmholtz_free_energy number_of_links link_length hinge_mass link_stiffness end_to_end_length temperature
     = broadcast [UInt8; Float64; Float64; Float64; Float64; Float64] (fun number_of_links link_length hinge_mass link_stiffness end_to_end_length temperature =>
         Finished (Some (efjc_isometric_asymptotic_legendre.helmholtz_free_energy number_of_links link_length hinge_mass link_stiffness end_to_end_length temperature))) number_of_links link_length hinge_mass link_stiffness end_to_end_length temperature)
  /\ (forall (number_of_links : jarray Z) (link_length : jarray T) (hinge_mass : jarray T) (link_stiffness : jarray T) (end_to_end_length : jarray T) (temperature : jarray T),
     jl_efjc_isometric_asymptotic_legendre.helmholtz_free_energy_per_link number_of_links link_length hinge_mass link_stiffness end_to_end_length temperature
     = broadcast [UInt8; Float64; Float64; Float64; Float64; Float64] (fun number_of_links link_length hinge_mass link_stiffness end_to_end_length temperature =>
         Finished (Some (efjc_isometric_asymptotic_legendre.helmholtz_free_energy_per_link number_of_links link_length hinge_mass link_stiffness end_to_end_length temperature))) number_of_links link_length hinge_mass link_stiffness end_to_end_length temperature)
  /\ (forall (number_of_links : jarray Z) (link_length : jarray T) (link_stiffness : jarray T) (end_to_end_length : jarray T) (temperature : jarray T),
     jl_efjc_isometric_asymptotic_legendre.relative_helmholtz_free_energy number_of_links link_length link_stiffness end_to_end_length temperature
     = broadcast [UInt8; Float64; Float64; Float64; Float64] (fun number_of_links link_length link_stiffness end_to_end_length temperature =>
         Finished (Some (efjc_isometric_asymptotic_legendre.relative_helmholtz_free_energy number_of_links link_length link_stiffness end_to_end_length temperature))) number_of_links link_length link_stiffness end_to_end_length temperature)
  /\ (forall (number_of_links : jarray Z) (link_length : jarray T) (link_stiffness : jarray T) (end_to_end_length : jarray T) (temperature : jarray T),
     jl_efjc_isometric_asymptotic_legendre.relative_helmholtz_free_energy_per_link number_of_links link_length link_stiffness end_to_end_length temperature
     = broadcast [UInt8; Float64; Float64; Float64; Float64] (fun number_of_links link_length link_stiffness end_to_end_length temperature =>
         Finished (Some (efjc_isometric_asymptotic_legendre.relative_helmholtz_free_energy_per_link number_of_links link_length link_stiffness end_to_end_length temperature))) number_of_links link_length link_stiffness end_to_end_length temperature)
  /\ (forall (number_of_links : jarray Z) (link_length : jarray T) (hinge_mass : jarray T) (nondimensional_link_stiffness : jarray T) (nondimensional_end_to_end_length_per_link : jarray T) (temperature : jarray T),
     jl_efjc_isometric_asymptotic_legendre.nondimensional_helmholtz_free_energy number_of_links link_length hinge_mass nondimensional_link_stiffness nondimensional_end_to_end_length_per_link temperature
     = broadcast [UInt8; Float64; Float64; Float64; Float64; Float64] (fun number_of_links link_length hinge_mass nondimensional_link_stiffness nondimensional_end_to_end_length_per_link temperature =>
         Finished (Some (efjc_isometric_asymptotic_legendre.nondimensional_helmholtz_free_energy number_of_links link_length hinge_mass nondimensional_link_stiffness nondimensional_end_to_end_length_per_link temperature))) number_of_links link_length hinge_mass nondimensional_link_stiffness nondimensional_end_to_end_length_per_link temperature)
  /\ (forall (number_of_links : jarray Z) (link_length : jarray T) (hinge_mass : jarray T) (nondimensional_link_stiffness : jarray T) (nondimensional_end_to_end_length_per_link : jarray T) (temperature : jarray T),
     jl_efjc_isometric_asymptotic_legendre.nondimensional_helmholtz_free_energy_per_link number_of_links link_length hinge_mass nondimensional_link_stiffness nondimensional_end_to_end_length_per_link temperature
     = broadcast [UInt8; Float64; Float64; Float64; Float64; Float64] (fun number_of_links link_length hinge_mass nondimensional_link_stiffness nondimensional_end_to_end_length_per_link temperature =>
         Finished (Some (efjc_isometric_asymptotic_legendre.nondimensional_helmholtz_free_energy_per_link number_of_links link_length hinge_mass nondimensional_link_stiffness nondimensional_end_to_end_length_per_link temperature))) number_of_links link_length hinge_mass nondimensional_link_stiffness nondimensional_end_to_end_length_per_link temperature)
  /\ (forall (number_of_links : jarray Z) (nondimensional_link_stiffness : jarray T) (nondimensional_end_to_end_length_per_link : jarray T),
     jl_efjc_isometric_asymptotic_legendre.nondimensional_relative_helmholtz_free_energy number_of_links nondimensional_link_stiffness nondimensional_end_to_end_length_per_link
     = broadcast [UInt8; Float64; Float64] (fun number_of_links nondimensional_link_stiffness nondimensional_end_to_end_length_per_link =>
         Finished (Some (efjc_isometric_asymptotic_legendre.nondimensional_relative_helmholtz_free_energy number_of_links nondimensional_link_stiffness nondimensional_end_to_end_length_per_link))) number_of_links nondimensional_link_stiffness nondimensional_end_to_end_length_per_link)
  /\ (forall (nondimensional_link_stiffness : jarray T) (nondimensional_end_to_end_length_per_link : jarray T),
     jl_efjc_isometric_asymptotic_legendre.nondimensional_relative_helmholtz_free_energy_per_link nondimensional_link_stiffness nondimensional_end_to_end_length_per_link
     = broadcast [Float64; Float64] (fun nondimensional_link_stiffness nondimensional_end_to_end_length_per_link =>
         Finished (Some (efjc_isometric_asymptotic_legendre.nondimensional_relative_helmholtz_free_energy_per_link nondimensional_link_stiffness nondimensional_end_to_end_length_per_link))) nondimensional_link_stiffness nondimensional_end_to_end_length_per_link).
Proof.
  exact (fun T Sc => conj (@F_efjc_isometric_asymptotic_legendre_force T Sc)
    (conj (@F_efjc_isometric_asymptotic_legendre_nondimensional_force T Sc)
    (conj (@F_efjc_isometric_asymptotic_legendre_helmholtz_free_energy T Sc)
    (conj (@F_efjc_isometric_asymptotic_legendre_helmholtz_free_energy_per_link T Sc)
    (conj (@F_efjc_isometric_asymptotic_legendre_relative_helmholtz_free_energy T Sc)
    (conj (@F_efjc_isometric_asymptotic_legendre_relative_helmholtz_free_energy_per_link T Sc)
    (conj (@F_efjc_isometric_asymptotic_legendre_nondimensional_helmholtz_free_energy T Sc)
    (conj (@F_efjc_isometric_asymptotic_legendre_nondimensional_helmholtz_free_energy_per_link T Sc)
    (conj (@F_efjc_isometric_asymptotic_legendre_nondimensional_relative_helmholtz_free_energy T Sc)
    (@F_efjc_isometric_asymptotic_legendre_nondimensional_relative_helmholtz_free_energy_per_link T Sc)))))))))).
Qed.
Print Assumptions C61_functions_efjc_isometric_asymptotic_legendre.

Theorem C61_object_efjc_isometric_asymptotic_legendre : forall (T : Type) (Sc : Scalar T) (number_of_links : Z) (link_length : T) (hinge_mass : T) (link_stiffness : T),
  let j := J_efjc_isometric_asymptotic_legendre.init number_of_links link_length hinge_mass link_stiffness in
  let r := O_efjc_isometric_asymptotic_legendre.init number_of_links link_length hinge_mass link_stiffness in
  J_efjc_isometric_asymptotic_legendre.number_of_links j = O_efjc_isometric_asymptotic_legendre.number_of_links r
  /\ J_efjc_isometric_asymptotic_legendre.link_length j = O_efjc_isometric_asymptotic_legendre.link_length r
  /\ J_efjc_isometric_asymptotic_legendre.hinge_mass j = O_efjc_isometric_asymptotic_legendre.hinge_mass r
  /\ J_efjc_isometric_asymptotic_legendre.link_stiffness j = O_efjc_isometric_asymptotic_legendre.link_stiffness r
  /\ (forall (end_to_end_length : jarray T) (temperature : jarray T),
     J_efjc_isometric_asymptotic_legendre.force j end_to_end_length temperature
     = broadcast [Float64; Float64] (fun end_to_end_length temperature =>
         Finished (Some (O_efjc_isometric_asymptotic_legendre.force r end_to_end_length temperature))) end_to_end_length temperature)
  /\ (forall (nondimensional_end_to_end_length_per_link : jarray T) (temperature : T),
     J_efjc_isometric_asymptotic_legendre.nondimensional_force j nondimensional_end_to_end_length_per_link temperature
     = broadcast [Float64] (fun nondimensional_end_to_end_length_per_link =>
         Finished (Some (O_efjc_isometric_asymptotic_legendre.nondimensional_force r nondimensional_end_to_end_length_per_link temperature))) nondimensional_end_to_end_length_per_link)
  /\ (forall (end_to_end_length : jarray T) (temperature : jarray T),
     J_efjc_isometric_asymptotic_legendre.helmholtz_free_energy j end_to_end_length temperature
     = broadcast [Float64; Float64] (fun end_to_end_length temperature =>
         Finished (Some (O_efjc_isometric_asymptotic_legendre.helmholtz_free_energy r end_to_end_length temperature))) end_to_end_length temperature)
  /\ (forall (end_to_end_length : jarray T) (temperature : jarray T),
     J_efjc_isometric_asymptotic_legendre.helmholtz_free_energy_per_link j end_to_end_length temperature
     = broadcast [Float64; Float64] (fun end_to_end_length temperature =>
         Finished (Some (O_efjc_isometric_asymptotic_legendre.helmholtz_free_energy_per_link r end_to_end_length temperature))) end_to_end_length temperature)
  /\ (forall (end_to_end_length : jarray T) (temperature : jarray T),
     J_efjc_isometric_asymptotic_legendre.relative_helmholtz_free_energy j end_to_end_length temperature
     = broadcast [Float64; Float64] (fun end_to_end_length temperature =>
         Finished (Some (O_efjc_isometric_asymptotic_legendre.relative_helmholtz_free_energy r end_to_end_length temperature))) end_to_end_length temperature)
  /\ (forall (end_to_end_length : jarray T) (temperature : jarray T),
     J_efjc_isometric_asymptotic_legendre.relative_helmholtz_free_energy_per_link j end_to_end_length temperature
     = broadcast [Float64; Float64] (fun end_to_end_length temperature =>
         Finished (Some (O_efjc_isometric_asymptotic_legendre.relative_helmholtz_free_energy_per_link r end_to_end_length temperature))) end_to_end_length temperature)
  /\ (forall (nondimensional_end_to_end_length_per_link : jarray T) (temperature : T),
     J_efjc_isometric_asymptotic_legendre.nondimensional_helmholtz_free_energy j nondimensional_end_to_end_length_per_link temperature
     = broadcast [Float64] (fun nondimensional_end_to_end_length_per_link =>
         Finished (Some (O_efjc_isometric_asymptotic_legendre.nondimensional_helmholtz_free_energy r nondimensional_end_to_end_length_per_link temperature))) nondimensional_end_to_end_length_per_link)
  /\ (forall (nondimensional_end_to_end_length_per_link : jarray T) (temperature : T),
     J_efjc_isometric_asymptotic_legendre.nondimensional_helmholtz_free_energy_per_link j nondimensional_end_to_end_length_per_link temperature
     = broadcast [Float64] (fun nondimensional_end_to_end_length_per_link =>
         Finished (Some (O_efjc_isometric_asymptotic_legendre.nondimensional_helmholtz_free_energy_per_link r nondimensional_end_to_end_length_per_link temperature))) nondimensional_end_to_end_length_per_link)
  /\ (forall (nondimensional_end_to_end_length_per_link : jarray T) (temperature : T),
     J_efjc_isometric_asymptotic_legendre.nondimensional_relative_helmholtz_free_energy j nondimensional_end_to_end_length_per_link temperature
     = broadcast [Float64] (fun nondimensional_end_to_end_length_per_link =>
         Finished (Some (O_efjc_isometric_asymptotic_legendre.nondimensional_relative_helmholtz_free_energy r nondimensional_end_to_end_length_per_link temperature))) nondimensional_end_to_end_length_per_link)
  /\ (forall (nondimensional_end_to_end_length_per_link : jarray T) (temperature : T),
     J_efjc_isometric_asymptotic_legendre.nondimensional_relative_helmholtz_free_energy_per_link j nondimensional_end_to_end_length_per_link temperature
     = broadcast [Float64] (fun nondimensional_end_to_end_length_per_link =>
         Finished (Some (O_efjc_isometric_asymptotic_legendre.nondimensional_relative_helmholtz_free_energy_per_link r nondimensional_end_to_end_length_per_link temperature))) nondimensional_end_to_end_length_per_link).
Proof. intros T Sc number_of_links link_length hinge_mass link_stiffness j r.
  split; [reflexivity|].
  split; [reflexivity|].
  split; [reflexivity|].
  split; [reflexivity|].
  split; [intros; cbv [j J_efjc_isometric_asymptotic_legendre.init J_efjc_isometric_asymptotic_legendre.force]; rewrite F_efjc_isometric_asymptotic_legendre_force; unfold O_efjc_isometric_asymptotic_legendre.force; broadcast_numbers|].
  split; [intros; cbv [j J_efjc_isometric_asymptotic_legendre.init J_efjc_isometric_asymptotic_legendre.nondimensional_force]; rewrite F_efjc_isometric_asymptotic_legendre_nondimensional_force; unfold O_efjc_isometric_asymptotic_legendre.nondimensional_force; broadcast_numbers|].
  split; [intros; cbv [j J_efjc_isometric_asymptotic_legendre.init J_efjc_isometric_asymptotic_legendre.helmholtz_free_energy]; rewrite F_efjc_isometric_asymptotic_legendre_helmholtz_free_energy; unfold O_efjc_isometric_asymptotic_legendre.helmholtz_free_energy; broadcast_numbers|].
  split; [intros; cbv [j J_efjc_isometric_asymptotic_legendre.init J_efjc_isometric_asymptotic_legendre.helmholtz_free_energy_per_link]; rewrite F_efjc_isometric_asymptotic_legendre_helmholtz_free_energy_per_link; unfold O_efjc_isometric_asymptotic_legendre.helmholtz_free_energy_per_link; broadcast_numbers|].
  split; [intros; cbv [j J_efjc_isometric_asymptotic_legendre.init J_efjc_isometric_asymptotic_legendre.relative_helmholtz_free_energy]; rewrite F_efjc_isometric_asymptotic_legendre_relative_helmholtz_free_energy; unfold O_efjc_isometric_asymptotic_legendre.relative_helmholtz_free_energy; broadcast_numbers|].
  split; [intros; cbv [j J_efjc_isometric_asymptotic_legendre.init J_efjc_isometric_asymptotic_legendre.relative_helmholtz_free_energy_per_link]; rewrite F_efjc_isometric_asymptotic_legendre_relative_helmholtz_free_energy_per_link; unfold O_efjc_isometric_asymptotic_legendre.relative_helmholtz_free_energy_per_link; broadcast_numbers|].
  split; [intros; cbv [j J_efjc_isometric_asymptotic_legendre.init J_efjc_isometric_asymptotic_legendre.nondimensional_helmholtz_free_energy]; rewrite F_efjc_isometric_asymptotic_legendre_nondimensional_helmholtz_free_energy; unfold O_efjc_isometric_asymptotic_legendre.nondimensional_helmholtz_free_energy; broadcast_numbers|].
  split; [intros; cbv [j J_efjc_isometric_asymptotic_legendre.init J_efjc_isometric_asymptotic_legendre.nondimensional_helmholtz_free_energy_per_link]; rewrite F_efjc_isometric_asymptotic_legendre_nondimensional_helmholtz_free_energy_per_link; unfold O_efjc_isometric_asymptotic_legendre.nondimensional_helmholtz_free_energy_per_link; broadcast_numbers|].
  split; [intros; cbv [j J_efjc_isometric_asymptotic_legendre.init J_efjc_isometric_asymptotic_legendre.nondimensional_relative_helmholtz_free_energy]; rewrite F_efjc_isometric_asymptotic_legendre_nondimensional_relative_helmholtz_free_energy; unfold O_efjc_isometric_asymptotic_legendre.nondimensional_relative_helmholtz_free_energy; broadcast_numbers|].
  intros; cbv [j J_efjc_isometric_asymptotic_legendre.init J_efjc_isometric_asymptotic_legendre.nondimensional_relative_helmholtz_free_energy_per_link]; rewrite F_efjc_isometric_asymptotic_legendre_nondimensional_relative_helmholtz_free_energy_per_link; unfold O_efjc_isometric_asymptotic_legendre.nondimensional_relative_helmholtz_free_energy_per_link; broadcast_numbers.
Qed.
Print Assumptions C61_object_efjc_isometric_asymptotic_legendre.

Theorem C61_object_efjc_isometric_asymptotic_reduced : forall (T : Type) (Sc : Scalar T) (number_of_links : Z) (link_length : T) (hinge_mass : T) (link_stiffness : T),
  let j := J_efjc_isometric_asymptotic_reduced.init number_of_links link_length hinge_mass link_stiffness in
  let r := O_efjc_isometric_asymptotic_reduced.init number_of_links link_length hinge_mass link_stiffness in
  J_efjc_isometric_asymptotic_reduced.number_of_links j = O_efjc_isometric_asymptotic_reduced.number_of_links r
  /\ J_efjc_isometric_asymptotic_reduced.link_length j = O_efjc_isometric_asymptotic_reduced.link_length r
  /\ J_efjc_isometric_asymptotic_reduced.hinge_mass j = O_efjc_isometric_asymptotic_reduced.hinge_mass r
  /\ J_efjc_isometric_asymptotic_reduced.link_stiffness j = O_efjc_isometric_asymptotic_reduced.link_stiffness r
  /\ J_efjc_isometric_asymptotic_reduced.legendre j = J_efjc_isometric_asymptotic_reduced_legendre.init number_of_links link_length hinge_mass link_stiffness.
Proof. intros T Sc number_of_links link_length hinge_mass link_stiffness j r.
  split; [reflexivity|].
  split; [reflexivity|].
  split; [reflexivity|].
  split; [reflexivity|].
  reflexivity.
Qed.
Print Assumptions C61_object_efjc_isometric_asymptotic_reduced.

Theorem C61_functions_efjc_isotensional_asymptotic_alternative : forall (T : Type) (Sc : Scalar T),
  (forall (number_of_links : jarray Z) (link_length : jarray T) (link_stiffness : jarray T) (force : jarray T) (temperature : jarray T),
     jl_efjc_isotensional_asymptotic_alternative.end_to_end_length number_of_links link_length link_stiffness force temperature
     = broadcast [UInt8; Float64; Float64; Float64; Float64] (fun number_of_links link_length link_stiffness force temperature =>
         Finished (Some (efjc_isotensional_asymptotic_alternative.end_to_end_length number_of_links link_length link_stiffness force temperature))) number_of_links link_length link_stiffness force temperature)
  /\ (forall (link_length : jarray T) (link_stiffness : jarray T) (force : jarray T) (temperature : jarray T),
     jl_efjc_isotensional_asymptotic_alternative.end_to_end_length_per_link link_length link_stiffness force temperature
     = broadcast [Float64; Float64; Float64; Float64] (fun link_length link_stiffness force temperature =>
         Finished (Some (efjc_isotensional_asymptotic_alternative.end_to_end_length_per_link link_length link_stiffness force temperature))) link_length link_stiffness force temperature)
  /\ (forall (number_of_links : jarray Z) (nondimensional_link_stiffness : jarray T) (nondimensional_force : jarray T),
     jl_efjc_isotensional_asymptotic_alternative.nondimensional_end_to_end_length number_of_links nondimensional_link_stiffness nondimensional_force
     = broadcast [UInt8; Float64; Float64] (fun number_of_links nondimensional_link_stiffness nondimensional_force =>
         Finished (Some (efjc_isotensional_asymptotic_alternative.nondimensional_end_to_end_length number_of_links nondimensional_link_stiffness nondimensional_force))) number_of_links nondimensional_link_stiffness nondimensional_force)
  /\ (forall (nondimensional_link_stiffness : jarray T) (nondimensional_force : jarray T),
     jl_efjc_isotensional_asymptotic_alternative.nondimensional_end_to_end_length_per_link nondimensional_link_stiffness nondimensional_force
     = broadcast [Float64; Float64] (fun nondimensional_link_stiffness nondimensional_force =>
         Finished (Some (efjc_isotensional_asymptotic_alternative.nondimensional_end_to_end_length_per_link nondimensional_link_stiffness nondimensional_force))) nondimensional_link_stiffness nondimensional_force)
  /\ (forall (number_of_links : jarray Z) (link_length : jarray T) (hinge_mass : jarray T) (link_stiffness : jarray T) (force : jarray T) (temperature : jarray T),
     jl_efjc_isotensional_asymptotic_alternative.gibbs_free_energy number_of_links link_length hinge_mass link_stiffness force temperature
     = broadcast [UInt8; Float64; Float64; Float64; Float64; Float64] (fun number_of_links link_length hinge_mass link_stiffness force temperature =>
         Finished (Some (efjc_isotensional_asymptotic_alternative.gibbs_free_energy number_of_links link_length hinge_mass link_stiffness force temperature))) number_of_links link_length hinge_mass link_stiffness force temperature)
  /\ (forall (link_length : jarray T) (hinge_mass : jarray T) (link_stiffness : jarray T) (force : jarray T) (temperature : jarray T),
     jl_efjc_isotensional_asymptotic_alternative.gibbs_free_energy_per_link link_length hinge_mass link_stiffness force temperature
     = broadcast [Float64; Float64; Float64; Float64; Float64] (fun link_length hinge_mass link_stiffness force temperature =>
         Finished (Some (efjc_isotensional_asymptotic_alternative.gibbs_free_energy_per_link link_length hinge_mass link_stiffness force temperature))) link_length hinge_mass link_stiffness force temperature)
  /\ (forall (number_of_links : jarray Z) (link_length : jarray T) (link_stiffness : jarray T) (force : jarray T) (temperature : jarray T),
     jl_efjc_isotensional_asymptotic_alternative.relative_gibbs_free_energy number_of_links link_length link_stiffness force temperature
     = broadcast [UInt8; Float64; Float64; Float64; Float64] (fun number_of_links link_length link_stiffness force temperature =>
         Finished (Some (efjc_isotensional_asymptotic_alternative.relative_gibbs_free_energy number_of_links link_length link_stiffness force temperature))) number_of_links link_length link_stiffness force temperature)
  /\ (forall (link_length : jarray T) (link_stiffness : jarray T) (force : jarray T) (temperature : jarray T),
     jl_efjc_isotensional_asymptotic_alternative.relative_gibbs_free_energy_per_link link_length link_stiffness force temperature
     = broadcast [Float64; Float64; Float64; Float64] (fun link_length link_stiffness force temperature =>
         Finished (Some (efjc_isotensional_asymptotic_alternative.relative_gibbs_free_energy_per_link link_length link_stiffness force temperature))) link_length link_stiffness force temperature)
  /\ (forall (number_of_links : jarray Z) (link_length : jarray T) (hinge_mass : jarray T) (nondimensional_link_stiffness : jarray T) (nondimensional_force : jarray T) (temperature : jarray T),
     jl_efjc_isotensional_asymptotic_alternative.nondimensional_gibbs_free_energy number_of_links link_length hinge_mass nondimensional_link_stiffness nondimensional_force temperature
     = broadcast [UInt8; Float64; Float64; Float64; Float64; Float64] (fun number_of_links link_length hinge_mass nondimensional_link_stiffness nondimensional_force temperature =>
         Finished (Some (efjc_isotensional_asymptotic_alternative.nondimensional_gibbs_free_energy number_of_links link_length hinge_mass nondimensional_link_stiffness nondimensional_force temperature))) number_of_links link_length hinge_mass nondimensional_link_stiffness nondimensional_force temperature)
  /\ (forall (link_length : jarray T) (hinge_mass : jarray T) (nondimensional_link_stiffness : jarray T) (nondimensional_force : jarray T) (temperature : jarray T),
     jl_efjc_isotensional_asymptotic_alternative.nondimensional_gibbs_free_energy_per_link link_length hinge_mass nondimensional_link_stiffness nondimensional_force temperature
     = broadcast [Float64; Float64; Float64; Float64; Float64] (fun link_length hinge_mass nondimensional_link_stiffness nondimensional_force temperature =>
         Finished (Some (efjc_isotensional_asymptotic_alternative.nondimensional_gibbs_free_energy_per_link link_length hinge_mass nondimensional_link_stiffness nondimensional_force temperature))) link_length hinge_mass nondimensional_link_stiffness nondimensional_force temperature)
  /\ (forall (number_of_links : jarray Z) (nondimensional_link_stiffness : jarray T) (nondimensional_force : jarray T),
     jl_efjc_isotensional_asymptotic_alternative.nondimensional_relative_gibbs_free_energy number_of_links nondimensional_link_stiffness nondimensional_force
     = broadcast [UInt8; Float64; Float64] (fun number_of_links nondimensional_link_stiffness nondimensional_force =>
         Finished (Some (efjc_isotensional_asymptotic_alternative.nondimensional_relative_gibbs_free_energy number_of_links nondimensional_link_stiffness nondimensional_force))) number_of_links nondimensional_link_stiffness nondimensional_force)
  /\ (forall (nondimensional_link_stiffness : jarray T) (nondimensional_force : jarray T),
     jl_efjc_isotensional_asymptotic_alternative.nondimensional_relative_gibbs_free_energy_per_link nondimensional_link_stiffness nondimensional_force
     = broadcast [Float64; Float64] (fun nondimensional_link_stiffness nondimensional_force =>
         Finished (Some (efjc_isotensional_asymptotic_alternative.nondimensional_relative_gibbs_free_energy_per_link nondimensional_link_stiffness nondimensional_force))) nondimensional_link_stiffness nondimensional_force).
Proof.
  exact (fun T Sc => conj (@F_efjc_isotensional_asymptotic_alternative_end_to_end_length T Sc)
    (conj (@F_efjc_isotensional_asymptotic_alternative_end_to_end_length_per_link T Sc)
    (conj (@F_efjc_isotensional_asymptotic_alternative_nondimensional_end_to_end_length T Sc)
    (conj (@F_efjc_isotensional_asymptotic_alternative_nondimensional_end_to_end_length_per_link T Sc)
    (conj (@F_efjc_isotensional_asymptotic_alternative_gibbs_free_energy T Sc)
    (conj (@F_efjc_isotensional_asymptotic_alternative_gibbs_free_energy_per_link T Sc)
    (conj (@F_efjc_isotensional_asymptotic_alternative_relative_gibbs_free_energy T Sc)
    (conj (@F_efjc_isotensional_asymptotic_alternative_relative_gibbs_free_energy_per_link T Sc)
    (conj (@F_efjc_isotensional_asymptotic_alternative_nondimensional_gibbs_free_energy T Sc)
    (conj (@F_efjc_isotensional_asymptotic_alternative_nondimensional_gibbs_free_energy_per_link T Sc)
    (conj (@F_efjc_isotensional_asymptotic_alternative_nondimensional_relative_gibbs_free_energy T Sc)
    (@F_efjc_isotensional_asymptotic_alternative_nondimensional_relative_gibbs_free_energy_per_link T Sc)))))))))))).
Qed.
Print Assumptions C61_functions_efjc_isotensional_asymptotic_alternative.

Theorem C61_object_efjc_isotensional_asymptotic_alternative : forall (T : Type) (Sc : Scalar T) (number_of_links : Z) (link_length : T) (hinge_mass : T) (link_stiffness : T),
  let j := J_efjc_isotensional_asymptotic_alternative.init number_of_links link_length hinge_mass link_stiffness in
  let r := O_efjc_isotensional_asymptotic_alternative.init number_of_links link_length hinge_mass link_stiffness in
  J_efjc_isotensional_asymptotic_alternative.number_of_links j = O_efjc_isotensional_asymptotic_alternative.number_of_links r
  /\ J_efjc_isotensional_asymptotic_alternative.link_length j = O_efjc_isotensional_asymptotic_alternative.link_length r
  /\ J_efjc_isotensional_asymptotic_alternative.hinge_mass j = O_efjc_isotensional_asymptotic_alternative.hinge_mass r
  /\ J_efjc_isotensional_asymptotic_alternative.link_stiffness j = O_efjc_isotensional_asymptotic_alternative.link_stiffness r
  /\ J_efjc_isotensional_asymptotic_alternative.legendre j = J_efjc_isotensional_asymptotic_alternative_legendre.init number_of_links link_length hinge_mass link_stiffness
  /\ (forall (force : jarray T) (temperature : jarray T),
     J_efjc_isotensional_asymptotic_alternative.end_to_end_length j force temperature
     = broadcast [Float64; Float64] (fun force temperature =>
         Finished (Some (O_efjc_isotensional_asymptotic_alternative.end_to_end_length r force temperature))) force temperature)
  /\ (forall (force : jarray T) (temperature : jarray T),
     J_efjc_isotensional_asymptotic_alternative.end_to_end_length_per_link j force temperature
     = broadcast [Float64; Float64] (fun force temperature =>
         Finished (Some (O_efjc_isotensional_asymptotic_alternative.end_to_end_length_per_link r force temperature))) force temperature)
  /\ (forall (nondimensional_force : jarray T) (temperature : T),
     J_efjc_isotensional_asymptotic_alternative.nondimensional_end_to_end_length j nondimensional_force temperature
     = broadcast [Float64] (fun nondimensional_force =>
         Finished (Some (O_efjc_isotensional_asymptotic_alternative.nondimensional_end_to_end_length r nondimensional_force temperature))) nondimensional_force)
  /\ (forall (nondimensional_force : jarray T) (temperature : T),
     J_efjc_isotensional_asymptotic_alternative.nondimensional_end_to_end_length_per_link j nondimensional_force temperature
     = broadcast [Float64] (fun nondimensional_force =>
         Finished (Some (O_efjc_isotensional_asymptotic_alternative.nondimensional_end_to_end_length_per_link r nondimensional_force temperature))) nondimensional_force)
  /\ (forall (force : jarray T) (temperature : jarray T),
     J_efjc_isotensional_asymptotic_alternative.gibbs_free_energy j force temperature
     = broadcast [Float64; Float64] (fun force temperature =>
         Finished (Some (O_efjc_isotensional_asymptotic_alternative.gibbs_free_energy r force temperature))) force temperature)
  /\ (forall (force : jarray T) (temperature : jarray T),
     J_efjc_isotensional_asymptotic_alternative.gibbs_free_energy_per_link j force temperature
     = broadcast [Float64; Float64] (fun force temperature =>
         Finished (Some (O_efjc_isotensional_asymptotic_alternative.gibbs_free_energy_per_link r force temperature))) force temperature)
  /\ (forall (force : jarray T) (temperature : jarray T),
     J_efjc_isotensional_asymptotic_alternative.relative_gibbs_free_energy j force temperature
     = broadcast [Float64; Float64] (fun force temperature =>
         Finished (Some (O_efjc_isotensional_asymptotic_alternative.relative_gibbs_free_energy r force temperature))) force temperature)
  /\ (forall (force : jarray T) (temperature : jarray T),
     J_efjc_isotensional_asymptotic_alternative.relative_gibbs_free_energy_per_link j force temperature
     = broadcast [Float64; Float64] (fun force temperature =>
         Finished (Some (O_efjc_isotensional_asymptotic_alternative.relative_gibbs_free_energy_per_link r force temperature))) force temperature)
  /\ (forall (nondimensional_force : jarray T) (temperature : T),
     J_efjc_isotensional_asymptotic_alternative.nondimensional_gibbs_free_energy j nondimensional_force temperature
     = broadcast [Float64] (fun nondimensional_force =>
         Finished (Some (O_efjc_isotensional_asymptotic_alternative.nondimensional_gibbs_free_energy r nondimensional_force temperature))) nondimensional_force)
  /\ (forall (nondimensional_force : jarray T) (temperature : T),
     J_efjc_isotensional_asymptotic_alternative.nondimensional_gibbs_free_energy_per_link j nondimensional_force temperature
     = broadcast [Float64] (fun nondimensional_force =>
         Finished (Some (O_efjc_isotensional_asymptotic_alternative.nondimensional_gibbs_free_energy_per_link r nondimensional_force temperature))) nondimensional_force)
  /\ (forall (nondimensional_force : jarray T) (temperature : T),
     J_efjc_isotensional_asymptotic_alternative.nondimensional_relative_gibbs_free_energy j nondimensional_force temperature
     = broadcast [Float64] (fun nondimensional_force =>
         Finished (Some (O_efjc_isotensional_asymptotic_alternative.nondimensional_relative_gibbs_free_energy r nondimensional_force temperature))) nondimensional_force)
  /\ (forall (nondimensional_force : jarray T) (temperature : T),
     J_efjc_isotensional_asymptotic_alternative.nondimensional_relative_gibbs_free_energy_per_link j nondimensional_force temperature
     = broadcast [Float64] (fun nondimensional_force =>
         Finished (Some (O_efjc_isotensional_asymptotic_alternative.nondimensional_relative_gibbs_free_energy_per_link r nondimensional_force temperature))) nondimensional_force).
Proof. intros T Sc number_of_links link_length hinge_mass link_stiffness j r.
  split; [reflexivity|].
  split; [reflexivity|].
  split; [reflexivity|].
  split; [reflexivity|].
  split; [reflexivity|].
  split; [intros; cbv [j J_efjc_isotensional_asymptotic_alternative.init J_efjc_isotensional_asymptotic_alternative.end_to_end_length]; rewrite F_efjc_isotensional_asymptotic_alternative_end_to_end_length; unfold O_efjc_isotensional_asymptotic_alternative.end_to_end_length; broadcast_numbers|].
  split; [intros; cbv [j J_efjc_isotensional_asymptotic_alternative.init J_efjc_isotensional_asymptotic_alternative.end_to_end_length_per_link]; rewrite F_efjc_isotensional_asymptotic_alternative_end_to_end_length_per_link; unfold O_efjc_isotensional_asymptotic_alternative.end_to_end_length_per_link; broadcast_numbers|].
  split; [intros; cbv [j J_efjc_isotensional_asymptotic_alternative.init J_efjc_isotensional_asymptotic_alternative.nondimensional_end_to_end_length]; rewrite F_efjc_isotensional_asymptotic_alternative_nondimensional_end_to_end_length; unfold O_efjc_isotensional_asymptotic_alternative.nondimensional_end_to_end_length; broadcast_numbers|].
  split; [intros; cbv [j J_efjc_isotensional_asymptotic_alternative.init J_efjc_isotensional_asymptotic_alternative.nondimensional_end_to_end_length_per_link]; rewrite F_efjc_isotensional_asymptotic_alternative_nondimensional_end_to_end_length_per_link; unfold O_efjc_isotensional_asymptotic_alternative.nondimensional_end_to_end_length_per_link; broadcast_numbers|].
  split; [intros; cbv [j J_efjc_isotensional_asymptotic_alternative.init J_efjc_isotensional_asymptotic_alternative.gibbs_free_energy]; rewrite F_efjc_isotensional_asymptotic_alternative_gibbs_free_energy; unfold O_efjc_isotensional_asymptotic_alternative.gibbs_free_energy; broadcast_numbers|].
  split; [intros; cbv [j J_efjc_isotensional_asymptotic_alternative.init J_efjc_isotensional_asymptotic_alternative.gibbs_free_energy_per_link]; rewrite F_efjc_isotensional_asymptotic_alternative_gibbs_free_energy_per_link; unfold O_efjc_isotensional_asymptotic_alternative.gibbs_free_energy_per_link; broadcast_numbers|].
  split; [intros; cbv [j J_efjc_isotensional_asymptotic_alternative.init J_efjc_isotensional_asymptotic_alternative.relative_gibbs_free_energy]; rewrite F_efjc_isotensional_asymptotic_alternative_relative_gibbs_free_energy; unfold O_efjc_isotensional_asymptotic_alternative.relative_gibbs_free_energy; broadcast_numbers|].
  split; [intros; cbv [j J_efjc_isotensional_asymptotic_alternative.init J_efjc_isotensional_asymptotic_alternative.relative_gibbs_free_energy_per_link]; rewrite F_efjc_isotensional_asymptotic_alternative_relative_gibbs_free_energy_per_link; unfold O_efjc_isotensional_asymptotic_alternative.relative_gibbs_free_energy_per_link; broadcast_numbers|].
  split; [intros; cbv [j J_efjc_isotensional_asymptotic_alternative.init J_efjc_isotensional_asymptotic_alternative.nondimensional_gibbs_free_energy]; rewrite F_efjc_isotensional_asymptotic_alternative_nondimensional_gibbs_free_energy; unfold O_efjc_isotensional_asymptotic_alternative.nondimensional_gibbs_free_energy; broadcast_numbers|].
  split; [intros; cbv [j J_efjc_isotensional_asymptotic_alternative.init J_efjc_isotensional_asymptotic_alternative.nondimensional_gibbs_free_energy_per_link]; rewrite F_efjc_isotensional_asymptotic_alternative_nondimensional_gibbs_free_energy_per_link; unfold O_efjc_isotensional_asymptotic_alternative.nondimensional_gibbs_free_energy_per_link; broadcast_numbers|].
  split; [intros; cbv [j J_efjc_isotensional_asymptotic_alternative.init J_efjc_isotensional_asymptotic_alternative.nondimensional_relative_gibbs_free_energy]; rewrite F_efjc_isotensional_asymptotic_alternative_nondimensional_relative_gibbs_free_energy; unfold O_efjc_isotensional_asymptotic_alternative.nondimensional_relative_gibbs_free_energy; broadcast_numbers|].
  intros; cbv [j J_efjc_isotensional_asymptotic_alternative.init J_efjc_isotensional_asymptotic_alternative.nondimensional_relative_gibbs_free_energy_per_link]; rewrite F_efjc_isotensional_asymptotic_alternative_nondimensional_relative_gibbs_free_energy_per_link; unfold O_efjc_isotensional_asymptotic_alternative.nondimensional_relative_gibbs_free_energy_per_link; broadcast_numbers.
Qed.
Print Assumptions C61_object_efjc_isotensional_asymptotic_alternative.

Theorem C61_functions_efjc_isotensional_asymptotic_legendre : forall (T : Type) (Sc : Scalar T),
  (forall (number_of_links : jarray Z) (link_length : jarray T) (hinge_mass : jarray T) (link_stiffness : jarray T) (force : jarray T) (temperature : jarray T),
     jl_efjc_isotensional_asymptotic_legendre.helmholtz_free_energy number_of_links link_length hinge_mass link_stiffness force temperature
     = broadcast [UInt8; Float64; Float64; Float64; Float64; Float64] (fun number_of_links link_length hinge_mass link_stiffness force temperature =>
         Finished (Some (efjc_isotensional_asymptotic_legendre.helmholtz_free_energy number_of_links link_length hinge_mass link_stiffness force temperature))) number_of_links link_length hinge_mass link_stiffness force temperature)
  /\ (forall (link_length : jarray T) (hinge_mass : jarray T) (link_stiffness : jarray T) (force : jarray T) (temperature : jarray T),
     jl_efjc_isotensional_asymptotic_legendre.helmholtz_free_energy_per_link link_length hinge_mass link_stiffness force temperature
     = broadcast [Float64; Float64; Float64; Float64; Float64] (fun link_length hinge_mass link_stiffness force temperature =>
         Finished (Some (efjc_isotensional_asymptotic_legendre.helmholtz_free_energy_per_link link_length hinge_mass link_stiffness force temperature))) link_length hinge_mass link_stiffness force temperature)
  /\ (forall (number_of_links : jarray Z) (link_length : jarray T) (link_stiffness : jarray T) (force : jarray T) (temperature : jarray T),
     jl_efjc_isotensional_asymptotic_legendre.relative_helmholtz_free_energy number_of_links link_length link_stiffness force temperature
     = broadcast [UInt8; Float64; Float64; Float64; Float64] (fun number_of_links link_length link_stiffness force temperature =>
         Finished (Some (efjc_isotensional_asymptotic_legendre.relative_helmholtz_free_energy number_of_links link_length link_stiffness force temperature))) number_of_links link_length link_stiffness force temperature)
  /\ (forall (link_length : jarray T) (link_stiffness : jarray T) (force : jarray T) (temperature : jarray T),
     jl_efjc_isotensional_asymptotic_legendre.relative_helmholtz_free_energy_per_link link_length link_stiffness force temperature
     = broadcast [Float64; Float64; Float64; Float64] (fun link_length link_stiffness force temperature =>
         Finished (Some (efjc_isotensional_asymptotic_legendre.relative_helmholtz_free_energy_per_link link_length link_stiffness force temperature))) link_length link_stiffness force temperature)
  /\ (forall (number_of_links : jarray Z) (link_length : jarray T) (hinge_mass : jarray T) (nondimensional_link_stiffness : jarray T) (nondimensional_force : jarray T) (temperature : jarray T),
     jl_efjc_isotensional_asymptotic_legendre.nondimensional_helmholtz_free_energy number_of_links link_length hinge_mass nondimensional_link_stiffness nondimensional_force temperature
     = broadcast [UInt8; Float64; Float64; Float64; Float64; Float64] (fun number_of_links link_length hinge_mass nondimensional_link_stiffness nondimensional_force temperature =>
         Finished (Some (efjc_isotensional_asymptotic_legendre.nondimensional_helmholtz_free_energy number_of_links link_length hinge_mass nondimensional_link_stiffness nondimensional_force temperature))) number_of_links link_length hinge_mass nondimensional_link_stiffness nondimensional_force temperature)
  /\ (forall (link_length : jarray T) (hinge_mass : jarray T) (nondimensional_link_stiffness : jarray T) (nondimensional_force : jarray T) (temperature : jarray T),
     jl_efjc_isotensional_asymptotic_legendre.nondimensional_helmholtz_free_energy_per_link link_length hinge_mass nondimensional_link_stiffness nondimensional_force temperature
     = broadcast [Float64; Float64; Float64; Float64; Float64] (fun link_length hinge_mass nondimensional_link_stiffness nondimensional_force temperature =>
         Finished (Some (efjc_isotensional_asymptotic_legendre.nondimensional_helmholtz_free_energy_per_link link_length hinge_mass nondimensional_link_stiffness nondimensional_force temperature))) link_length hinge_mass nondimensional_link_stiffness nondimensional_force temperature)
  /\ (forall (number_of_links : jarray Z) (nondimensional_link_stiffness : jarray T) (nondimensional_force : jarray T),
     jl_efjc_isotensional_asymptotic_legendre.nondimensional_relative_helmholtz_free_energy number_of_links nondimensional_link_stiffness nondimensional_force
     = broadcast [UInt8; Float64; Float64] (fun number_of_links nondimensional_link_stiffness nondimensional_force =>
         Finished (Some (efjc_isotensional_asymptotic_legendre.nondimensional_relative_helmholtz_free_energy number_of_links nondimensional_link_stiffness nondimensional_force))) number_of_links nondimensional_link_stiffness nondimensional_force)
  /\ (forall (nondimensional_link_stiffness : jarray T) (nondimensional_force : jarray T),
     jl_efjc_isotensional_asymptotic_legendre.nondimensional_relative_helmholtz_free_energy_per_link nondimensional_link_stiffness nondimensional_force
     = broadcast [Float64; Float64] (fun nondimensional_link_stiffness nondimensional_force =>
         Finished (Some (efjc_isotensional_asymptotic_legendre.nondimensional_relative_helmholtz_free_energy_per_link nondimensional_link_stiffness nondimensional_force))) nondimensional_link_stiffness nondimensional_force).
Proof.
  exact (fun T Sc => conj (@F_efjc_isotensional_asymptotic_legendre_helmholtz_free_energy T Sc)
    (conj (@F_efjc_isotensional_asymptotic_legendre_helmholtz_free_energy_per_link T Sc)
    (conj (@F_efjc_isotensional_asymptotic_legendre_relative_helmholtz_free_energy T Sc)
    (conj (@F_efjc_isotensional_asymptotic_legendre_relative_helmholtz_free_energy_per_link T Sc)
    (conj (@F_efjc_isotensional_asymptotic_legendre_nondimensional_helmholtz_free_energy T Sc)
    (conj (@F_efjc_isotensional_asymptotic_legendre_nondimensional_helmholtz_free_energy_per_link T Sc)
    (conj (@F_efjc_isotensional_asymptotic_legendre_nondimensional_relative_helmholtz_free_energy T Sc)
    (@F_efjc_isotensional_asymptotic_legendre_nondimensional_relative_helmholtz_free_energy_per_link T Sc)))))))).
Qed.
Print Assumptions C61_functions_efjc_isotensional_asymptotic_legendre.

Theorem C61_object_efjc_isotensional_asymptotic_legendre : forall (T : Type) (Sc : Scalar T) (number_of_links : Z) (link_length : T) (hinge_mass : T) (link_stiffness : T),
  let j := J_efjc_isotensional_asymptotic_legendre.init number_of_links link_length hinge_mass link_stiffness in
  let r := O_efjc_isotensional_asymptotic_legendre.init number_of_links link_length hinge_mass link_stiffness in
  J_efjc_isotensional_asymptotic_legendre.number_of_links j = O_efjc_isotensional_asymptotic_legendre.number_of_links r
  /\ J_efjc_isotensional_asymptotic_legendre.link_length j = O_efjc_isotensional_asymptotic_legendre.link_length r
  /\ J_efjc_isotensional_asymptotic_legendre.hinge_mass j = O_efjc_isotensional_asymptotic_legendre.hinge_mass r
  /\ J_efjc_isotensional_asymptotic_legendre.link_stiffness j = O_efjc_isotensional_asymptotic_legendre.link_stiffness r
  /\ (forall (force : jarray T) (temperature : jarray T),
     J_efjc_isotensional_asymptotic_legendre.helmholtz_free_energy j force temperature
     = broadcast [Float64; Float64] (fun force temperature =>
         Finished (Some (O_efjc_isotensional_asymptotic_legendre.helmholtz_free_energy r force temperature))) force temperature)
  /\ (forall (force : jarray T) (temperature : jarray T),
     J_efjc_isotensional_asymptotic_legendre.helmholtz_free_energy_per_link j force temperature
     = broadcast [Float64; Float64] (fun force temperature =>
         Finished (Some (O_efjc_isotensional_asymptotic_legendre.helmholtz_free_energy_per_link r force temperature))) force temperature)
  /\ (forall (force : jarray T) (temperature : jarray T),
     J_efjc_isotensional_asymptotic_legendre.relative_helmholtz_free_energy j force temperature
     = broadcast [Float64; Float64] (fun force temperature =>
         Finished (Some (O_efjc_isotensional_asymptotic_legendre.relative_helmholtz_free_energy r force temperature))) force temperature)
  /\ (forall (force : jarray T) (temperature : jarray T),
     J_efjc_isotensional_asymptotic_legendre.relative_helmholtz_free_energy_per_link j force temperature
     = broadcast [Float64; Float64] (fun force temperature =>
         Finished (Some (O_efjc_isotensional_asymptotic_legendre.relative_helmholtz_free_energy_per_link r force temperature))) force temperature)
  /\ (forall (nondimensional_force : jarray T) (temperature : T),
     J_efjc_isotensional_asymptotic_legendre.nondimensional_helmholtz_free_energy j nondimensional_force temperature
     = broadcast [Float64] (fun nondimensional_force =>
         Finished (Some (O_efjc_isotensional_asymptotic_legendre.nondimensional_helmholtz_free_energy r nondimensional_force temperature))) nondimensional_force)
  /\ (forall (nondimensional_force : jarray T) (temperature : T),
     J_efjc_isotensional_asymptotic_legendre.nondimensional_relative_helmholtz_free_energy j nondimensional_force temperature
     = broadcast [Float64] (fun nondimensional_force =>
         Finished (Some (O_efjc_isotensional_asymptotic_legendre.nondimensional_relative_helmholtz_free_energy r nondimensional_force temperature))) nondimensional_force)
  /\ (forall (nondimensional_force : jarray T) (temperature : T),
     J_efjc_isotensional_asymptotic_legendre.nondimensional_relative_helmholtz_free_energy_per_link j nondimensional_force temperature
     = broadcast [Float64] (fun nondimensional_force =>
         Finished (Some (O_efjc_isotensional_asymptotic_legendre.nondimensional_relative_helmholtz_free_energy_per_link r nondimensional_force temperature))) nondimensional_force).
Proof. intros T Sc number_of_links link_length hinge_mass link_stiffness j r.
  split; [reflexivity|].
  split; [reflexivity|].
  split; [reflexivity|].
  split; [reflexivity|].
  split; [intros; cbv [j J_efjc_isotensional_asymptotic_legendre.init J_efjc_isotensional_asymptotic_legendre.helmholtz_free_energy]; rewrite F_efjc_isotensional_asymptotic_legendre_helmholtz_free_energy; unfold O_efjc_isotensional_asymptotic_legendre.helmholtz_free_energy; broadcast_numbers|].
  split; [intros; cbv [j J_efjc_isotensional_asymptotic_legendre.init J_efjc_isotensional_asymptotic_legendre.helmholtz_free_energy_per_link]; rewrite F_efjc_isotensional_asymptotic_legendre_helmholtz_free_energy_per_link; unfold O_efjc_isotensional_asymptotic_legendre.helmholtz_free_energy_per_link; broadcast_numbers|].
  split; [intros; cbv [j J_efjc_isotensional_asymptotic_legendre.init J_efjc_isotensional_asymptotic_legendre.relative_helmholtz_free_energy]; rewrite F_efjc_isotensional_asymptotic_legendre_relative_helmholtz_free_energy; unfold O_efjc_isotensional_asymptotic_legendre.relative_helmholtz_free_energy; broadcast_numbers|].
  split; [intros; cbv [j J_efjc_isotensional_asymptotic_legendre.init J_efjc_isotensional_asymptotic_legendre.relative_helmholtz_free_energy_per_link]; rewrite F_efjc_isotensional_asymptotic_legendre_relative_helmholtz_free_energy_per_link; unfold O_efjc_isotensional_asymptotic_legendre.relative_helmholtz_free_energy_per_link; broadcast_numbers|].
  split; [intros; cbv [j J_efjc_isotensional_asymptotic_legendre.init J_efjc_isotensional_asymptotic_legendre.nondimensional_helmholtz_free_energy]; rewrite F_efjc_isotensional_asymptotic_legendre_nondimensional_helmholtz_free_energy; unfold O_efjc_isotensional_asymptotic_legendre.nondimensional_helmholtz_free_energy; broadcast_numbers|].
  split; [intros; cbv [j J_efjc_isotensional_asymptotic_legendre.init J_efjc_isotensional_asymptotic_legendre.nondimensional_relative_helmholtz_free_energy]; rewrite F_efjc_isotensional_asymptotic_legendre_nondimensional_relative_helmholtz_free_energy; unfold O_efjc_isotensional_asymptotic_legendre.nondimensional_relative_helmholtz_free_energy; broadcast_numbers|].
  intros; cbv [j J_efjc_isotensional_asymptotic_legendre.init J_efjc_isotensional_asymptotic_legendre.nondimensional_relative_helmholtz_free_energy_per_link]; rewrite F_efjc_isotensional_asymptotic_legendre_nondimensional_relative_helmholtz_free_energy_per_link; unfold O_efjc_isotensional_asymptotic_legendre.nondimensional_relative_helmholtz_free_energy_per_link; broadcast_numbers.
Qed.
Print Assumptions C61_object_efjc_isotensional_asymptotic_legendre.

Theorem C61_functions_efjc_isotensional_asymptotic_reduced : forall (T : Type) (Sc : Scalar T),
  (forall (number_of_links : jarray Z) (link_length : jarray T) (link_stiffness : jarray T) (force : jarray T) (temperature : jarray T),
     jl_efjc_isotensional_asymptotic_reduced.end_to_end_length number_of_links link_length link_stiffness force temperature
     = broadcast [UInt8; Float64; Float64; Float64; Float64] (fun number_of_links link_length link_stiffness force temperature =>
         Finished (Some (efjc_isotensional_asymptotic_reduced.end_to_end_length number_of_links link_length link_stiffness force temperature))) number_of_links link_length link_stiffness force temperature)
  /\ (forall (link_length : jarray T) (link_stiffness : jarray T) (force : jarray T) (temperature : jarray T),
     jl_efjc_isotensional_asymptotic_reduced.end_to_end_length_per_link link_length link_stiffness force temperature
     = broadcast [Float64; Float64; Float64; Float64] (fun link_length link_stiffness force temperature =>
         Finished (Some (efjc_isotensional_asymptotic_reduced.end_to_end_length_per_link link_length link_stiffness force temperature))) link_length link_stiffness force temperature)
  /\ (forall (number_of_links : jarray Z) (nondimensional_link_stiffness : jarray T) (nondimensional_force : jarray T),
     jl_efjc_isotensional_asymptotic_reduced.nondimensional_end_to_end_length number_of_links nondimensional_link_stiffness nondimensional_force
     = broadcast [UInt8; Float64; Float64] (fun number_of_links nondimensional_link_stiffness nondimensional_force =>
         Finished (Some (efjc_isotensional_asymptotic_reduced.nondimensional_end_to_end_length number_of_links nondimensional_link_stiffness nondimensional_force))) number_of_links nondimensional_link_stiffness nondimensional_force)
  /\ (forall (nondimensional_link_stiffness : jarray T) (nondimensional_force : jarray T),
     jl_efjc_isotensional_asymptotic_reduced.nondimensional_end_to_end_length_per_link nondimensional_link_stiffness nondimensional_force
     = broadcast [Float64; Float64] (fun nondimensional_link_stiffness nondimensional_force =>
         Finished (Some (efjc_isotensional_asymptotic_reduced.nondimensional_end_to_end_length_per_link nondimensional_link_stiffness nondimensional_force))) nondimensional_link_stiffness nondimensional_force)
  /\ (forall (number_of_links : jarray Z) (link_length : jarray T) (hinge_mass : jarray T) (link_stiffness : jarray T) (force : jarray T) (temperature : jarray T),
     jl_efjc_isotensional_asymptotic_reduced.gibbs_free_energy number_of_links link_length hinge_mass link_stiffness force temperature
     = broadcast [UInt8; Float64; Float64; Float64; Float64; Float64] (fun number_of_links link_length hinge_mass link_stiffness force temperature =>
         Finished (Some (efjc_isotensional_asymptotic_reduced.gibbs_free_energy number_of_links link_length hinge_mass link_stiffness force temperature))) number_of_links link_length hinge_mass link_stiffness force temperature)
  /\ (forall (link_length : jarray T) (hinge_mass : jarray T) (link_stiffness : jarray T) (force : jarray T) (temperature : jarray T),
     jl_efjc_isotensional_asymptotic_reduced.gibbs_free_energy_per_link link_length hinge_mass link_stiffness force temperature
     = broadcast [Float64; Float64; Float64; Float64; Float64] (fun link_length hinge_mass link_stiffness force temperature =>
         Finished (Some (efjc_isotensional_asymptotic_reduced.gibbs_free_energy_per_link link_length hinge_mass link_stiffness force temperature))) link_length hinge_mass link_stiffness force temperature)
  /\ (forall (number_of_links : jarray Z) (link_length : jarray T) (link_stiffness : jarray T) (force : jarray T) (temperature : jarray T),
     jl_efjc_isotensional_asymptotic_reduced.relative_gibbs_free_energy number_of_links link_length link_stiffness force temperature
     = broadcast [UInt8; Float64; Float64; Float64; Float64] (fun number_of_links link_length link_stiffness force temperature =>
         Finished (Some (efjc_isotensional_asymptotic_reduced.relative_gibbs_free_energy number_of_links link_length link_stiffness force temperature))) number_of_links link_length link_stiffness force temperature)
  /\ (forall (link_length : jarray T) (link_stiffness : jarray T) (force : jarray T) (temperature : jarray T),
     jl_efjc_isotensional_asymptotic_reduced.relative_gibbs_free_energy_per_link link_length link_stiffness force temperature
     = broadcast [Float64; Float64; Float64; Float64] (fun link_length link_stiffness force temperature =>
         Finished (Some (efjc_isotensional_asymptotic_reduced.relative_gibbs_free_energy_per_link link_length link_stiffness force temperature))) link_length link_stiffness force temperature)
  /\ (forall (number_of_links : jarray Z) (link_length : jarray T) (hinge_mass : jarray T) (nondimensional_link_stiffness : jarray T) (nondimensional_force : jarray T) (temperature : jarray T),
     jl_efjc_isotensional_asymptotic_reduced.nondimensional_gibbs_free_energy number_of_links link_length hinge_mass nondimensional_link_stiffness nondimensional_force temperature
     = broadcast [UInt8; Float64; Float64; Float64; Float64; Float64] (fun number_of_links link_length hinge_mass nondimensional_link_stiffness nondimensional_force temperature =>
         Finished (Some (efjc_isotensional_asymptotic_reduced.nondimensional_gibbs_free_energy number_of_links link_length hinge_mass nondimensional_link_stiffness nondimensional_force temperature))) number_of_links link_length hinge_mass nondimensional_link_stiffness nondimensional_force temperature)
  /\ (forall (link_length : jarray T) (hinge_mass : jarray T) (nondimensional_link_stiffness : jarray T) (nondimensional_force : jarray T) (temperature : jarray T),
     jl_efjc_isotensional_asymptotic_reduced.nondimensional_gibbs_free_energy_per_link link_length hinge_mass nondimensional_link_stiffness nondimensional_force temperature
     = broadcast [Float64; Float64; Float64; Float64; Float64] (fun link_length hinge_mass nondimensional_link_stiffness nondimensional_force temperature =>
         Finished (Some (efjc_isotensional_asymptotic_reduced.nondimensional_gibbs_free_energy_per_link link_length hinge_mass nondimensional_link_stiffness nondimensional_force temperature))) link_length hinge_mass nondimensional_link_stiffness nondimensional_force temperature)
  /\ (forall (number_of_links : jarray Z) (nondimensional_link_stiffness : jarray T) (nondimensional_force : jarray T),
     jl_efjc_isotensional_asymptotic_reduced.nondimensional_relative_gibbs_free_energy number_of_links nondimensional_link_stiffness nondimensional_force
     = broadcast [UInt8; Float64; Float64] (fun number_of_links nondimensional_link_stiffness nondimensional_force =>
         Finished (Some (efjc_isotensional_asymptotic_reduced.nondimensional_relative_gibbs_free_energy number_of_links nondimensional_link_stiffness nondimensional_force))) number_of_links nondimensional_link_stiffness nondimensional_force)
  /\ (forall (nondimensional_link_stiffness : jarray T) (nondimensional_force : jarray T),
     jl_efjc_isotensional_asymptotic_reduced.nondimensional_relative_gibbs_free_energy_per_link nondimensional_link_stiffness nondimensional_force
     = broadcast [Float64; Float64] (fun nondimensional_link_stiffness nondimensional_force =>
         Finished (Some (efjc_isotensional_asymptotic_reduced.nondimensional_relative_gibbs_free_energy_per_link nondimensional_link_stiffness nondimensional_force))) nondimensional_link_stiffness nondimensional_force).
Proof.
  exact (fun T Sc => conj (@F_efjc_isotensional_asymptotic_reduced_end_to_end_length T Sc)
    (conj (@F_efjc_isotensional_asymptotic_reduced_end_to_end_length_per_link T Sc)
    (conj (@F_efjc_isotensional_asymptotic_reduced_nondimensional_end_to_end_length T Sc)
    (conj (@F_efjc_isotensional_asymptotic_reduced_nondimensional_end_to_end_length_per_link T Sc)
    (conj (@F_efjc_isotensional_asymptotic_reduced_gibbs_free_energy T Sc)
    (conj (@F_efjc_isotensional_asymptotic_reduced_gibbs_free_energy_per_link T Sc)
    (conj (@F_efjc_isotensional_asymptotic_reduced_relative_gibbs_free_energy T Sc)
    (conj (@F_efjc_isotensional_asymptotic_reduced_relative_gibbs_free_energy_per_link T Sc)
    (conj (@F_efjc_isotensional_asymptotic_reduced_nondimensional_gibbs_free_energy T Sc)
    (conj (@F_efjc_isotensional_asymptotic_reduced_nondimensional_gibbs_free_energy_per_link T Sc)
    (conj (@F_efjc_isotensional_asymptotic_reduced_nondimensional_relative_gibbs_free_energy T Sc)
    (@F_efjc_isotensional_asymptotic_reduced_nondimensional_relative_gibbs_free_energy_per_link T Sc)))))))))))).
Qed.
Print Assumptions C61_functions_efjc_isotensional_asymptotic_reduced.

Theorem C61_object_efjc_isotensional_asymptotic_reduced : forall (T : Type) (Sc : Scalar T) (number_of_links : Z) (link_length : T) (hinge_mass : T) (link_stiffness : T),
  let j := J_efjc_isotensional_asymptotic_reduced.init number_of_links link_length hinge_mass link_stiffness in
  let r := O_efjc_isotensional_asymptotic_reduced.init number_of_links link_length hinge_mass link_stiffness in
  J_efjc_isotensional_asymptotic_reduced.number_of_links j = O_efjc_isotensional_asymptotic_reduced.number_of_links r
  /\ J_efjc_isotensional_asymptotic_reduced.link_length j = O_efjc_isotensional_asymptotic_reduced.link_length r
  /\ J_efjc_isotensional_asymptotic_reduced.hinge_mass j = O_efjc_isotensional_asymptotic_reduced.hinge_mass r
  /\ J_efjc_isotensional_asymptotic_reduced.link_stiffness j = O_efjc_isotensional_asymptotic_reduced.link_stiffness r
  /\ J_efjc_isotensional_asymptotic_reduced.legendre j = J_efjc_isotensional_asymptotic_reduced_legendre.init number_of_links link_length hinge_mass link_stiffness
  /\ (forall (force : jarray T) (temperature : jarray T),
     J_efjc_isotensional_asymptotic_reduced.end_to_end_length j force temperature
     = broadcast [Float64; Float64] (fun force temperature =>
         Finished (Some (O_efjc_isotensional_asymptotic_reduced.end_to_end_length r force temperature))) force temperature)
  /\ (forall (force : jarray T) (temperature : jarray T),
     J_efjc_isotensional_asymptotic_reduced.end_to_end_length_per_link j force temperature
     = broadcast [Float64; Float64] (fun force temperature =>
         Finished (Some (O_efjc_isotensional_asymptotic_reduced.end_to_end_length_per_link r force temperature))) force temperature)
  /\ (forall (nondimensional_force : jarray T) (temperature : T),
     J_efjc_isotensional_asymptotic_reduced.nondimensional_end_to_end_length j nondimensional_force temperature
     = broadcast [Float64] (fun nondimensional_force =>
         Finished (Some (O_efjc_isotensional_asymptotic_reduced.nondimensional_end_to_end_length r nondimensional_force temperature))) nondimensional_force)
  /\ (forall (nondimensional_force : jarray T) (temperature : T),
     J_efjc_isotensional_asymptotic_reduced.nondimensional_end_to_end_length_per_link j nondimensional_force temperature
     = broadcast [Float64] (fun nondimensional_force =>
         Finished (Some (O_efjc_isotensional_asymptotic_reduced.nondimensional_end_to_end_length_per_link r nondimensional_force temperature))) nondimensional_force)
  /\ (forall (force : jarray T) (temperature : jarray T),
     J_efjc_isotensional_asymptotic_reduced.gibbs_free_energy j force temperature
     = broadcast [Float64; Float64] (fun force temperature =>
         Finished (Some (O_efjc_isotensional_asymptotic_reduced.gibbs_free_energy r force temperature))) force temperature)
  /\ (forall (force : jarray T) (temperature : jarray T),
     J_efjc_isotensional_asymptotic_reduced.gibbs_free_energy_per_link j force temperature
     = broadcast [Float64; Float64] (fun force temperature =>
         Finished (Some (O_efjc_isotensional_asymptotic_reduced.gibbs_free_energy_per_link r force temperature))) force temperature)
  /\ (forall (force : jarray T) (temperature : jarray T),
     J_efjc_isotensional_asymptotic_reduced.relative_gibbs_free_energy j force temperature
     = broadcast [Float64; Float64] (fun force temperature =>
         Finished (Some (O_efjc_isotensional_asymptotic_reduced.relative_gibbs_free_energy r force temperature))) force temperature)
  /\ (forall (force : jarray T) (temperature : jarray T),
     J_efjc_isotensional_asymptotic_reduced.relative_gibbs_free_energy_per_link j force temperature
     = broadcast [Float64; Float64] (fun force temperature =>
         Finished (Some (O_efjc_isotensional_asymptotic_reduced.relative_gibbs_free_energy_per_link r force temperature))) force temperature)
  /\ (forall (nondimensional_force : jarray T) (temperature : T),
     J_efjc_isotensional_asymptotic_reduced.nondimensional_gibbs_free_energy j nondimensional_force temperature
     = broadcast [Float64] (fun nondimensional_force =>
         Finished (Some (O_efjc_isotensional_asymptotic_reduced.nondimensional_gibbs_free_energy r nondimensional_force temperature))) nondimensional_force)
  /\ (forall (nondimensional_force : jarray T) (temperature : T),
     J_efjc_isotensional_asymptotic_reduced.nondimensional_gibbs_free_energy_per_link j nondimensional_force temperature
     = broadcast [Float64] (fun nondimensional_force =>
         Finished (Some (O_efjc_isotensional_asymptotic_reduced.nondimensional_gibbs_free_energy_per_link r nondimensional_force temperature))) nondimensional_force)
  /\ (forall (nondimensional_force : jarray T) (temperature : T),
     J_efjc_isotensional_asymptotic_reduced.nondimensional_relative_gibbs_free_energy j nondimensional_force temperature
     = broadcast [Float64] (fun nondimensional_force =>
         Finished (Some (O_efjc_isotensional_asymptotic_reduced.nondimensional_relative_gibbs_free_energy r nondimensional_force temperature))) nondimensional_force)
  /\ (forall (nondimensional_force : jarray T) (temperature : T),
     J_efjc_isotensional_asymptotic_reduced.nondimensional_relative_gibbs_free_energy_per_link j nondimensional_force temperature
     = broadcast [Float64] (fun nondimensional_force =>
         Finished (Some (O_efjc_isotensional_asymptotic_reduced.nondimensional_relative_gibbs_free_energy_per_link r nondimensional_force temperature))) nondimensional_force).
Proof. intros T Sc number_of_links link_length hinge_mass link_stiffness j r.
  split; [reflexivity|].
  split; [reflexivity|].
  split; [reflexivity|].
  split; [reflexivity|].
  split; [reflexivity|].
  split; [intros; cbv [j J_efjc_isotensional_asymptotic_reduced.init J_efjc_isotensional_asymptotic_reduced.end_to_end_length]; rewrite F_efjc_isotensional_asymptotic_reduced_end_to_end_length; unfold O_efjc_isotensional_asymptotic_reduced.end_to_end_length; broadcast_numbers|].
  split; [intros; cbv [j J_efjc_isotensional_asymptotic_reduced.init J_efjc_isotensional_asymptotic_reduced.end_to_end_length_per_link]; rewrite F_efjc_isotensional_asymptotic_reduced_end_to_end_length_per_link; unfold O_efjc_isotensional_asymptotic_reduced.end_to_end_length_per_link; broadcast_numbers|].
  split; [intros; cbv [j J_efjc_isotensional_asymptotic_reduced.init J_efjc_isotensional_asymptotic_reduced.nondimensional_end_to_end_length]; rewrite F_efjc_isotensional_asymptotic_reduced_nondimensional_end_to_end_length; unfold O_efjc_isotensional_asymptotic_reduced.nondimensional_end_to_end_length; broadcast_numbers|].
  split; [intros; cbv [j J_efjc_isotensional_asymptotic_reduced.init J_efjc_isotensional_asymptotic_reduced.nondimensional_end_to_end_length_per_link]; rewrite F_efjc_isotensional_asymptotic_reduced_nondimensional_end_to_end_length_per_link; unfold O_efjc_isotensional_asymptotic_reduced.nondimensional_end_to_end_length_per_link; broadcast_numbers|].
  split; [intros; cbv [j J_efjc_isotensional_asymptotic_reduced.init J_efjc_isotensional_asymptotic_reduced.gibbs_free_energy]; rewrite F_efjc_isotensional_asymptotic_reduced_gibbs_free_energy; unfold O_efjc_isotensional_asymptotic_reduced.gibbs_free_energy; broadcast_numbers|].
  split; [intros; cbv [j J_efjc_isotensional_asymptotic_reduced.init J_efjc_isotensional_asymptotic_reduced.gibbs_free_energy_per_link]; rewrite F_efjc_isotensional_asymptotic_reduced_gibbs_free_energy_per_link; unfold O_efjc_isotensional_asymptotic_reduced.gibbs_free_energy_per_link; broadcast_numbers|].
  split; [intros; cbv [j J_efjc_isotensional_asymptotic_reduced.init J_efjc_isotensional_asymptotic_reduced.relative_gibbs_free_energy]; rewrite F_efjc_isotensional_asymptotic_reduced_relative_gibbs_free_energy; unfold O_efjc_isotensional_asymptotic_reduced.relative_gibbs_free_energy; broadcast_numbers|].
  split; [intros; cbv [j J_efjc_isotensional_asymptotic_reduced.init J_efjc_isotensional_asymptotic_reduced.relative_gibbs_free_energy_per_link]; rewrite F_efjc_isotensional_asymptotic_reduced_relative_gibbs_free_energy_per_link; unfold O_efjc_isotensional_asymptotic_reduced.relative_gibbs_free_energy_per_link; broadcast_numbers|].
  split; [intros; cbv [j J_efjc_isotensional_asymptotic_reduced.init J_efjc_isotensional_asymptotic_reduced.nondimensional_gibbs_free_energy]; rewrite F_efjc_isotensional_asymptotic_reduced_nondimensional_gibbs_free_energy; unfold O_efjc_isotensional_asymptotic_reduced.nondimensional_gibbs_free_energy; broadcast_numbers|].
  split; [intros; cbv [j J_efjc_isotensional_asymptotic_reduced.init J_efjc_isotensional_asymptotic_reduced.nondimensional_gibbs_free_energy_per_link]; rewrite F_efjc_isotensional_asymptotic_reduced_nondimensional_gibbs_free_energy_per_link; unfold O_efjc_isotensional_asymptotic_reduced.nondimensional_gibbs_free_energy_per_link; broadcast_numbers|].
  split; [intros; cbv [j J_efjc_isotensional_asymptotic_reduced.init J_efjc_isotensional_asymptotic_reduced.nondimensional_relative_gibbs_free_energy]; rewrite F_efjc_isotensional_asymptotic_reduced_nondimensional_relative_gibbs_free_energy; unfold O_efjc_isotensional_asymptotic_reduced.nondimensional_relative_gibbs_free_energy; broadcast_numbers|].
  intros; cbv [j J_efjc_isotensional_asymptotic_reduced.init J_efjc_isotensional_asymptotic_reduced.nondimensional_relative_gibbs_free_energy_per_link]; rewrite F_efjc_isotensional_asymptotic_reduced_nondimensional_relative_gibbs_free_energy_per_link; unfold O_efjc_isotensional_asymptotic_reduced.nondimensional_relative_gibbs_free_energy_per_link; broadcast_numbers.
Qed.
Print Assumptions C61_object_efjc_isotensional_asymptotic_reduced.

Theorem C61_functions_fjc_modified_canonical_asymptotic_strong_potential : forall (T : Type) (Sc : Scalar T),
  (forall (prof : profile) (number_of_links : jarray Z) (link_length : jarray T) (potential_distance : jarray T) (potential_stiffness : jarray T) (temperature : jarray T),
     jl_fjc_modified_canonical_asymptotic_strong_potential.force prof number_of_links link_length potential_distance potential_stiffness temperature
     = broadcast [UInt8; Float64; Float64; Float64; Float64] (fun number_of_links link_length potential_distance potential_stiffness temperature =>
         Finished (fjc_modified_canonical_asymptotic_strong_potential.force prof number_of_links link_length potential_distance potential_stiffness temperature)) number_of_links link_length potential_distance potential_stiffness temperature)
  /\ (forall (prof : profile) (number_of_links : jarray Z) (nondimensional_potential_distance : jarray T) (nondimensional_potential_stiffness : jarray T),
     jl_fjc_modified_canonical_asymptotic_strong_potential.nondimensional_force prof number_of_links nondimensional_potential_distance nondimensional_potential_stiffness
     = broadcast [UInt8; Float64; Float64] (fun number_of_links nondimensional_potential_distance nondimensional_potential_stiffness =>
         Finished (fjc_modified_canonical_asymptotic_strong_potential.nondimensional_force prof number_of_links nondimensional_potential_distance nondimensional_potential_stiffness)) number_of_links nondimensional_potential_distance nondimensional_potential_stiffness)
  /\ (forall (prof : profile) (number_of_links : jarray Z) (link_length : jarray T) (hinge_mass : jarray T) (potential_distance : jarray T) (potential_stiffness : jarray T) (temperature : jarray T),
     jl_fjc_modified_canonical_asymptotic_strong_potential.helmholtz_free_energy prof number_of_links link_length hinge_mass potential_distance potential_stiffness temperature
     = broadcast [UInt8; Float64; Float64; Float64; Float64; Float64] (fun number_of_links link_length hinge_mass potential_distance potential_stiffness temperature =>
         Finished (fjc_modified_canonical_asymptotic_strong_potential.helmholtz_free_energy prof number_of_links link_length hinge_mass potential_distance potential_stiffness temperature)) number_of_links link_length hinge_mass potential_distance potential_stiffness temperature)
  /\ (forall (prof : profile) (number_of_links : jarray Z) (link_length : jarray T) (hinge_mass : jarray T) (potential_distance : jarray T) (potential_stiffness : jarray T) (temperature : jarray T),
     jl_fjc_modified_canonical_asymptotic_strong_potential.helmholtz_free_energy_per_link prof number_of_links link_length hinge_mass potential_distance potential_stiffness temperature
     = broadcast [UInt8; Float64; Float64; Float64; Float64; Float64] (fun number_of_links link_length hinge_mass potential_distance potential_stiffness temperature =>
         Finished (fjc_modified_canonical_asymptotic_strong_potential.helmholtz_free_energy_per_link prof number_of_links link_length hinge_mass potential_distance potential_stiffness temperature)) number_of_links link_length hinge_mass potential_distance potential_stiffness temperature)
  /\ (forall (prof : profile) (number_of_links : jarray Z) (link_length : jarray T) (potential_distance : jarray T) (potential_stiffness : jarray T) (temperature : jarray T),
     jl_fjc_modified_canonical_asymptotic_strong_potential.relative_helmholtz_free_energy prof number_of_links link_length potential_distance potential_stiffness temperature
     = broadcast [UInt8; Float64; Float64; Float64; Float64] (fun number_of_links link_length potential_distance potential_stiffness temperature =>
         Finished (fjc_modified_canonical_asymptotic_strong_potential.relative_helmholtz_free_energy prof number_of_links link_length potential_distance potential_stiffness temperature)) number_of_links link_length potential_distance potential_stiffness temperature)
  /\ (forall (prof : profile) (number_of_links : jarray Z) (link_length : jarray T) (potential_distance : jarray T) (potential_stiffness : jarray T) (temperature : jarray T),
     jl_fjc_modified_canonical_asymptotic_strong_potential.relative_helmholtz_free_energy_per_link prof number_of_links link_length potential_distance potential_stiffness temperature
     = broadcast [UInt8; Float64; Float64; Float64; Float64] (fun number_of_links link_length potential_distance potential_stiffness temperature =>
         Finished (fjc_modified_canonical_asymptotic_strong_potential.relative_helmholtz_free_energy_per_link prof number_of_links link_length potential_distance potential_stiffness temperature)) number_of_links link_length potential_distance potential_stiffness temperature)
  /\ (forall (prof : profile) (number_of_links : jarray Z) (link_length : jarray T) (hinge_mass : jarray T) (nondimensional_potential_distance : jarray T) (nondimensional_potential_stiffness : jarray T) (temperature : jarray T),
     jl_fjc_modified_canonical_asymptotic_strong_potential.nondimensional_helmholtz_free_energy prof number_of_links link_length hinge_mass nondimensional_potential_distance nondimensional_potential_stiffness temperature
     = broadcast [UInt8; Float64; Float64; Float64; Float64; Float64] (fun number_of_links link_length hinge_mass nondimensional_potential_distance nondimensional_potential_stiffness temperature =>
         Finished (fjc_modified_canonical_asymptotic_strong_potential.nondimensional_helmholtz_free_energy prof number_of_links link_length hinge_mass nondimensional_potential_distance nondimensional_potential_stiffness temperature)) number_of_links link_length hinge_mass nondimensional_potential_distance nondimensional_potential_stiffness temperature)
  /\ (forall (prof : profile) (number_of_links : jarray Z) (link_length : jarray T) (hinge_mass : jarray T) (nondimensional_potential_distance : jarray T) (nondimensional_potential_stiffness : jarray T) (temperature : jarray T),
     jl_fjc_modified_canonical_asymptotic_strong_potential.nondimensional_helmholtz_free_energy_per_link prof number_of_links link_length hinge_mass nondimensional_potential_distance nondimensional_potential_stiffness temperature
     = broadcast [UInt8; Float64; Float64; Float64; Float64; Float64] (fun number_of_links link_length hinge_mass nondimensional_potential_distance nondimensional_potential_stiffness temperature =>
         Finished (fjc_modified_canonical_asymptotic_strong_potential.nondimensional_helmholtz_free_energy_per_link prof number_of_links link_length hinge_mass nondimensional_potential_distance nondimensional_potential_stiffness temperature)) number_of_links link_length hinge_mass nondimensional_potential_distance nondimensional_potential_stiffness temperature)
  /\ (forall (prof : profile) (number_of_links : jarray Z) (nondimensional_potential_distance : jarray T) (nondimensional_potential_stiffness : jarray T),
     jl_fjc_modified_canonical_asymptotic_strong_potential.nondimensional_relative_helmholtz_free_energy prof number_of_links nondimensional_potential_distance nondimensional_potential_stiffness
     = broadcast [UInt8; Float64; Float64] (fun number_of_links nondimensional_potential_distance nondimensional_potential_stiffness =>
         Finished (fjc_modified_canonical_asymptotic_strong_potential.nondimensional_relative_helmholtz_free_energy prof number_of_links nondimensional_potential_distance nondimensional_potential_stiffness)) number_of_links nondimensional_potential_distance nondimensional_potential_stiffness)
  /\ (forall (prof : profile) (number_of_links : jarray Z) (nondimensional_potential_distance : jarray T) (nondimensional_potential_stiffness : jarray T),
     jl_fjc_modified_canonical_asymptotic_strong_potential.nondimensional_relative_helmholtz_free_energy_per_link prof number_of_links nondimensional_potential_distance nondimensional_potential_stiffness
     = broadcast [UInt8; Float64; Float64] (fun number_of_links nondimensional_potential_distance nondimensional_potential_stiffness =>
         Finished (fjc_modified_canonical_asymptotic_strong_potential.nondimensional_relative_helmholtz_free_energy_per_link prof number_of_links nondimensional_potential_distance nondimensional_potential_stiffness)) number_of_links nondimensional_potential_distance nondimensional_potential_stiffness).
Proof.
  exact (fun T Sc => conj (@F_fjc_modified_canonical_asymptotic_strong_potential_force T Sc)
    (conj (@F_fjc_modified_canonical_asymptotic_strong_potential_nondimensional_force T Sc)
    (conj (@F_fjc_modified_canonical_asymptotic_strong_potential_helmholtz_free_energy T Sc)
    (conj (@F_fjc_modified_canonical_asymptotic_strong_potential_helmholtz_free_energy_per_link T Sc)
    (conj (@F_fjc_modified_canonical_asymptotic_strong_potential_relative_helmholtz_free_energy T Sc)
    (conj (@F_fjc_modified_canonical_asymptotic_strong_potential_relative_helmholtz_free_energy_per_link T Sc)
    (conj (@F_fjc_modified_canonical_asymptotic_strong_potential_nondimensional_helmholtz_free_energy T Sc)
    (conj (@F_fjc_modified_canonical_asymptotic_strong_potential_nondimensional_helmholtz_free_energy_per_link T Sc)
    (conj (@F_fjc_modified_canonical_asymptotic_strong_potential_nondimensional_relative_helmholtz_free_energy T Sc)
    (@F_fjc_modified_canonical_asymptotic_strong_potential_nondimensional_relative_helmholtz_free_energy_per_link T Sc)))))))))).
Qed.
Print Assumptions C61_functions_fjc_modified_canonical_asymptotic_strong_potential.

Theorem C61_object_fjc_modified_canonical_asymptotic_strong_potential : forall (T : Type) (Sc : Scalar T) (prof : profile) (number_of_links : Z) (link_length : T) (hinge_mass : T),
  let j := J_fjc_modified_canonical_asymptotic_strong_potential.init prof number_of_links link_length hinge_mass in
  let r := O_fjc_modified_canonical_asymptotic_strong_potential.init number_of_links link_length hinge_mass in
  J_fjc_modified_canonical_asymptotic_strong_potential.number_of_links j = O_fjc_modified_canonical_asymptotic_strong_potential.number_of_links r
  /\ J_fjc_modified_canonical_asymptotic_strong_potential.link_length j = O_fjc_modified_canonical_asymptotic_strong_potential.link_length r
  /\ J_fjc_modified_canonical_asymptotic_strong_potential.hinge_mass j = O_fjc_modified_canonical_asymptotic_strong_potential.hinge_mass r
  /\ (forall (potential_distance : jarray T) (potential_stiffness : jarray T) (temperature : jarray T),
     J_fjc_modified_canonical_asymptotic_strong_potential.force j potential_distance potential_stiffness temperature
     = broadcast [Float64; Float64; Float64] (fun potential_distance potential_stiffness temperature =>
         Finished (O_fjc_modified_canonical_asymptotic_strong_potential.force prof r potential_distance potential_stiffness temperature)) potential_distance potential_stiffness temperature)
  /\ (forall (nondimensional_potential_distance : jarray T) (nondimensional_potential_stiffness : jarray T),
     J_fjc_modified_canonical_asymptotic_strong_potential.nondimensional_force j nondimensional_potential_distance nondimensional_potential_stiffness
     = broadcast [Float64; Float64] (fun nondimensional_potential_distance nondimensional_potential_stiffness =>
         Finished (O_fjc_modified_canonical_asymptotic_strong_potential.nondimensional_force prof r nondimensional_potential_distance nondimensional_potential_stiffness)) nondimensional_potential_distance nondimensional_potential_stiffness)
  /\ (forall (potential_distance : jarray T) (potential_stiffness : jarray T) (temperature : jarray T),
     J_fjc_modified_canonical_asymptotic_strong_potential.helmholtz_free_energy j potential_distance potential_stiffness temperature
     = broadcast [Float64; Float64; Float64] (fun potential_distance potential_stiffness temperature =>
         Finished (O_fjc_modified_canonical_asymptotic_strong_potential.helmholtz_free_energy prof r potential_distance potential_stiffness temperature)) potential_distance potential_stiffness temperature)
  /\ (forall (potential_distance : jarray T) (potential_stiffness : jarray T) (temperature : jarray T),
     J_fjc_modified_canonical_asymptotic_strong_potential.helmholtz_free_energy_per_link j potential_distance potential_stiffness temperature
     = broadcast [Float64; Float64; Float64] (fun potential_distance potential_stiffness temperature =>
         Finished (O_fjc_modified_canonical_asymptotic_strong_potential.helmholtz_free_energy_per_link prof r potential_distance potential_stiffness temperature)) potential_distance potential_stiffness temperature)
  /\ (forall (potential_distance : jarray T) (potential_stiffness : jarray T) (temperature : jarray T),
     J_fjc_modified_canonical_asymptotic_strong_potential.relative_helmholtz_free_energy j potential_distance potential_stiffness temperature
     = broadcast [Float64; Float64; Float64] (fun potential_distance potential_stiffness temperature =>
         Finished (O_fjc_modified_canonical_asymptotic_strong_potential.relative_helmholtz_free_energy prof r potential_distance potential_stiffness temperature)) potential_distance potential_stiffness temperature)
  /\ (forall (potential_distance : jarray T) (potential_stiffness : jarray T) (temperature : jarray T),
     J_fjc_modified_canonical_asymptotic_strong_potential.relative_helmholtz_free_energy_per_link j potential_distance potential_stiffness temperature
     = broadcast [Float64; Float64; Float64] (fun potential_distance potential_stiffness temperature =>
         Finished (O_fjc_modified_canonical_asymptotic_strong_potential.relative_helmholtz_free_energy_per_link prof r potential_distance potential_stiffness temperature)) potential_distance potential_stiffness temperature)
  /\ (forall (nondimensional_potential_distance : jarray T) (nondimensional_potential_stiffness : jarray T) (temperature : jarray T),
     J_fjc_modified_canonical_asymptotic_strong_potential.nondimensional_helmholtz_free_energy j nondimensional_potential_distance nondimensional_potential_stiffness temperature
     = broadcast [Float64; Float64; Float64] (fun nondimensional_potential_distance nondimensional_potential_stiffness temperature =>
         Finished (O_fjc_modified_canonical_asymptotic_strong_potential.nondimensional_helmholtz_free_energy prof r nondimensional_potential_distance nondimensional_potential_stiffness temperature)) nondimensional_potential_distance nondimensional_potential_stiffness temperature)
  /\ (forall (nondimensional_potential_distance : jarray T) (nondimensional_potential_stiffness : jarray T) (temperature : jarray T),
     J_fjc_modified_canonical_asymptotic_strong_potential.nondimensional_helmholtz_free_energy_per_link j nondimensional_potential_distance nondimensional_potential_stiffness temperature
     = broadcast [Float64; Float64; Float64] (fun nondimensional_potential_distance nondimensional_potential_stiffness temperature =>
         Finished (O_fjc_modified_canonical_asymptotic_strong_potential.nondimensional_helmholtz_free_energy_per_link prof r nondimensional_potential_distance nondimensional_potential_stiffness temperature)) nondimensional_potential_distance nondimensional_potential_stiffness temperature)
  /\ (forall (nondimensional_potential_distance : jarray T) (nondimensional_potential_stiffness : jarray T),
     J_fjc_modified_canonical_asymptotic_strong_potential.nondimensional_relative_helmholtz_free_energy j nondimensional_potential_distance nondimensional_potential_stiffness
     = broadcast [Float64; Float64] (fun nondimensional_potential_distance nondimensional_potential_stiffness =>
         Finished (O_fjc_modified_canonical_asymptotic_strong_potential.nondimensional_relative_helmholtz_free_energy prof r nondimensional_potential_distance nondimensional_potential_stiffness)) nondimensional_potential_distance nondimensional_potential_stiffness)
  /\ (forall (nondimensional_potential_distance : jarray T) (nondimensional_potential_stiffness : jarray T),
     J_fjc_modified_canonical_asymptotic_strong_potential.nondimensional_relative_helmholtz_free_energy_per_link j nondimensional_potential_distance nondimensional_potential_stiffness
     = broadcast [Float64; Float64] (fun nondimensional_potential_distance nondimensional_potential_stiffness =>
         Finished (O_fjc_modified_canonical_asymptotic_strong_potential.nondimensional_relative_helmholtz_free_energy_per_link prof r nondimensional_potential_distance nondimensional_potential_stiffness)) nondimensional_potential_distance nondimensional_potential_stiffness).
Proof. intros T Sc prof number_of_links link_length hinge_mass j r.
  split; [reflexivity|].
  split; [reflexivity|].
  split; [reflexivity|].
  split; [intros; cbv [j J_fjc_modified_canonical_asymptotic_strong_potential.init J_fjc_modified_canonical_asymptotic_strong_potential.force]; rewrite F_fjc_modified_canonical_asymptotic_strong_potential_force; unfold O_fjc_modified_canonical_asymptotic_strong_potential.force; broadcast_numbers|].
  split; [intros; cbv [j J_fjc_modified_canonical_asymptotic_strong_potential.init J_fjc_modified_canonical_asymptotic_strong_potential.nondimensional_force]; rewrite F_fjc_modified_canonical_asymptotic_strong_potential_nondimensional_force; unfold O_fjc_modified_canonical_asymptotic_strong_potential.nondimensional_force; broadcast_numbers|].
  split; [intros; cbv [j J_fjc_modified_canonical_asymptotic_strong_potential.init J_fjc_modified_canonical_asymptotic_strong_potential.helmholtz_free_energy]; rewrite F_fjc_modified_canonical_asymptotic_strong_potential_helmholtz_free_energy; unfold O_fjc_modified_canonical_asymptotic_strong_potential.helmholtz_free_energy; broadcast_numbers|].
  split; [intros; cbv [j J_fjc_modified_canonical_asymptotic_strong_potential.init J_fjc_modified_canonical_asymptotic_strong_potential.helmholtz_free_energy_per_link]; rewrite F_fjc_modified_canonical_asymptotic_strong_potential_helmholtz_free_energy_per_link; unfold O_fjc_modified_canonical_asymptotic_strong_potential.helmholtz_free_energy_per_link; broadcast_numbers|].
  split; [intros; cbv [j J_fjc_modified_canonical_asymptotic_strong_potential.init J_fjc_modified_canonical_asymptotic_strong_potential.relative_helmholtz_free_energy]; rewrite F_fjc_modified_canonical_asymptotic_strong_potential_relative_helmholtz_free_energy; unfold O_fjc_modified_canonical_asymptotic_strong_potential.relative_helmholtz_free_energy; broadcast_numbers|].
  split; [intros; cbv [j J_fjc_modified_canonical_asymptotic_strong_potential.init J_fjc_modified_canonical_asymptotic_strong_potential.relative_helmholtz_free_energy_per_link]; rewrite F_fjc_modified_canonical_asymptotic_strong_potential_relative_helmholtz_free_energy_per_link; unfold O_fjc_modified_canonical_asymptotic_strong_potential.relative_helmholtz_free_energy_per_link; broadcast_numbers|].
  split; [intros; cbv [j J_fjc_modified_canonical_asymptotic_strong_potential.init J_fjc_modified_canonical_asymptotic_strong_potential.nondimensional_helmholtz_free_energy]; rewrite F_fjc_modified_canonical_asymptotic_strong_potential_nondimensional_helmholtz_free_energy; unfold O_fjc_modified_canonical_asymptotic_strong_potential.nondimensional_helmholtz_free_energy; broadcast_numbers|].
  split; [intros; cbv [j J_fjc_modified_canonical_asymptotic_strong_potential.init J_fjc_modified_canonical_asymptotic_strong_potential.nondimensional_helmholtz_free_energy_per_link]; rewrite F_fjc_modified_canonical_asymptotic_strong_potential_nondimensional_helmholtz_free_energy_per_link; unfold O_fjc_modified_canonical_asymptotic_strong_potential.nondimensional_helmholtz_free_energy_per_link; broadcast_numbers|].
  split; [intros; cbv [j J_fjc_modified_canonical_asymptotic_strong_potential.init J_fjc_modified_canonical_asymptotic_strong_potential.nondimensional_relative_helmholtz_free_energy]; rewrite F_fjc_modified_canonical_asymptotic_strong_potential_nondimensional_relative_helmholtz_free_energy; unfold O_fjc_modified_canonical_asymptotic_strong_potential.nondimensional_relative_helmholtz_free_energy; broadcast_numbers|].
  intros; cbv [j J_fjc_modified_canonical_asymptotic_strong_potential.init J_fjc_modified_canonical_asymptotic_strong_potential.nondimensional_relative_helmholtz_free_energy_per_link]; rewrite F_fjc_modified_canonical_asymptotic_strong_potential_nondimensional_relative_helmholtz_free_energy_per_link; unfold O_fjc_modified_canonical_asymptotic_strong_potential.nondimensional_relative_helmholtz_free_energy_per_link; broadcast_numbers.
Qed.
Print Assumptions C61_object_fjc_modified_canonical_asymptotic_strong_potential.

Theorem C61_functions_fjc_modified_canonical_asymptotic_weak_potential : forall (T : Type) (Sc : Scalar T),
  (forall (number_of_links : jarray Z) (link_length : jarray T) (potential_distance : jarray T) (potential_stiffness : jarray T) (temperature : jarray T),
     jl_fjc_modified_canonical_asymptotic_weak_potential.end_to_end_length number_of_links link_length potential_distance potential_stiffness temperature
     = broadcast [UInt8; Float64; Float64; Float64; Float64] (fun number_of_links link_length potential_distance potential_stiffness temperature =>
         Finished (Some (fjc_modified_canonical_asymptotic_weak_potential.end_to_end_length number_of_links link_length potential_distance potential_stiffness temperature))) number_of_links link_length potential_distance potential_stiffness temperature)
  /\ (forall (number_of_links : jarray Z) (link_length : jarray T) (potential_distance : jarray T) (potential_stiffness : jarray T) (temperature : jarray T),
     jl_fjc_modified_canonical_asymptotic_weak_potential.end_to_end_length_per_link number_of_links link_length potential_distance potential_stiffness temperature
     = broadcast [UInt8; Float64; Float64; Float64; Float64] (fun number_of_links link_length potential_distance potential_stiffness temperature =>
         Finished (Some (fjc_modified_canonical_asymptotic_weak_potential.end_to_end_length_per_link number_of_links link_length potential_distance potential_stiffness temperature))) number_of_links link_length potential_distance potential_stiffness temperature)
  /\ (forall (number_of_links : jarray Z) (nondimensional_potential_distance : jarray T) (nondimensional_potential_stiffness : jarray T),
     jl_fjc_modified_canonical_asymptotic_weak_potential.nondimensional_end_to_end_length number_of_links nondimensional_potential_distance nondimensional_potential_stiffness
     = broadcast [UInt8; Float64; Float64] (fun number_of_links nondimensional_potential_distance nondimensional_potential_stiffness =>
         Finished (Some (fjc_modified_canonical_asymptotic_weak_potential.nondimensional_end_to_end_length number_of_links nondimensional_potential_distance nondimensional_potential_stiffness))) number_of_links nondimensional_potential_distance nondimensional_potential_stiffness)
  /\ (forall (number_of_links : jarray Z) (nondimensional_potential_distance : jarray T) (nondimensional_potential_stiffness : jarray T),
     jl_fjc_modified_canonical_asymptotic_weak_potential.nondimensional_end_to_end_length_per_link number_of_links nondimensional_potential_distance nondimensional_potential_stiffness
     = broadcast [UInt8; Float64; Float64] (fun number_of_links nondimensional_potential_distance nondimensional_potential_stiffness =>
         Finished (Some (fjc_modified_canonical_asymptotic_weak_potential.nondimensional_end_to_end_length_per_link number_of_links nondimensional_potential_distance nondimensional_potential_stiffness))) number_of_links nondimensional_potential_distance nondimensional_potential_stiffness)
  /\ (forall (potential_distance : jarray T) (potential_stiffness : jarray T),
     jl_fjc_modified_canonical_asymptotic_weak_potential.force potential_distance potential_stiffness
     = broadcast [Float64; Float64] (fun potential_distance potential_stiffness =>
         Finished (Some (fjc_modified_canonical_asymptotic_weak_potential.force potential_distance potential_stiffness))) potential_distance potential_stiffness)
  /\ (forall (number_of_links : jarray Z) (nondimensional_potential_distance : jarray T) (nondimensional_potential_stiffness : jarray T),
     jl_fjc_modified_canonical_asymptotic_weak_potential.nondimensional_force number_of_links nondimensional_potential_distance nondimensional_potential_stiffness
     = broadcast [UInt8; Float64; Float64] (fun number_of_links nondimensional_potential_distance nondimensional_potential_stiffness =>
         Finished (Some (fjc_modified_canonical_asymptotic_weak_potential.nondimensional_force number_of_links nondimensional_potential_distance nondimensional_potential_stiffness))) number_of_links nondimensional_potential_distance nondimensional_potential_stiffness)
  /\ (forall (number_of_links : jarray Z) (link_length : jarray T) (hinge_mass : jarray T) (potential_distance : jarray T) (potential_stiffness : jarray T) (temperature : jarray T),
     jl_fjc_modified_canonical_asymptotic_weak_potential.gibbs_free_energy number_of_links link_length hinge_mass potential_distance potential_stiffness temperature
     = broadcast [UInt8; Float64; Float64; Float64; Float64; Float64] (fun number_of_links link_length hinge_mass potential_distance potential_stiffness temperature =>
         Finished (Some (fjc_modified_canonical_asymptotic_weak_potential.gibbs_free_energy number_of_links link_length hinge_mass potential_distance potential_stiffness temperature))) number_of_links link_length hinge_mass potential_distance potential_stiffness temperature)
  /\ (forall (number_of_links : jarray Z) (link_length : jarray T) (hinge_mass : jarray T) (potential_distance : jarray T) (potential_stiffness : jarray T) (temperature : jarray T),
     jl_fjc_modified_canonical_asymptotic_weak_potential.gibbs_free_energy_per_link number_of_links link_length hinge_mass potential_distance potential_stiffness temperature
     = broadcast [UInt8; Float64; Float64; Float64; Float64; Float64] (fun number_of_links link_length hinge_mass potential_distance potential_stiffness temperature =>
         Finished (Some (fjc_modified_canonical_asymptotic_weak_potential.gibbs_free_energy_per_link number_of_links link_length hinge_mass potential_distance potential_stiffness temperature))) number_of_links link_length hinge_mass potential_distance potential_stiffness temperature)
  /\ (forall (number_of_links : jarray Z) (link_length : jarray T) (potential_distance : jarray T) (potential_stiffness : jarray T) (temperature : jarray T),
     jl_fjc_modified_canonical_asymptotic_weak_potential.relative_gibbs_free_energy number_of_links link_length potential_distance potential_stiffness temperature
     = broadcast [UInt8; Float64; Float64; Float64; Float64] (fun number_of_links link_length potential_distance potential_stiffness temperature =>
         Finished (Some (fjc_modified_canonical_asymptotic_weak_potential.relative_gibbs_free_energy number_of_links link_length potential_distance potential_stiffness temperature))) number_of_links link_length potential_distance potential_stiffness temperature)
  /\ (forall (number_of_links : jarray Z) (link_length : jarray T) (potential_distance : jarray T) (potential_stiffness : jarray T) (temperature : jarray T),
     jl_fjc_modified_canonical_asymptotic_weak_potential.relative_gibbs_free_energy_per_link number_of_links link_length potential_distance potential_stiffness temperature
     = broadcast [UInt8; Float64; Float64; Float64; Float64] (fun number_of_links link_length potential_distance potential_stiffness temperature =>
         Finished (Some (fjc_modified_canonical_asymptotic_weak_potential.relative_gibbs_free_energy_per_link number_of_links link_length potential_distance potential_stiffness temperature))) number_of_links link_length potential_distance potential_stiffness temperature)
  /\ (forall (number_of_links : jarray Z) (link_length : jarray T) (hinge_mass : jarray T) (nondimensional_potential_distance : jarray T) (nondimensional_potential_stiffness : jarray T) (temperature : jarray T),
     jl_fjc_modified_canonical_asymptotic_weak_potential.nondimensional_gibbs_free_energy number_of_links link_length hinge_mass nondimensional_potential_distance nondimensional_potential_stiffness temperature
     = broadcast [UInt8; Float64; Float64; Float64; Float64; Float64] (fun number_of_links link_length hinge_mass nondimensional_potential_distance nondimensional_potential_stiffness temperature =>
         Finished (Some (fjc_modified_canonical_asymptotic_weak_potential.nondimensional_gibbs_free_energy number_of_links link_length hinge_mass nondimensional_potential_distance nondimensional_potential_stiffness temperature))) number_of_links link_length hinge_mass nondimensional_potential_distance nondimensional_potential_stiffness temperature)
  /\ (forall (number_of_links : jarray Z) (link_length : jarray T) (hinge_mass : jarray T) (nondimensional_potential_distance : jarray T) (nondimensional_potential_stiffness : jarray T) (temperature : jarray T),
     jl_fjc_modified_canonical_asymptotic_weak_potential.nondimensional_gibbs_free_energy_per_link number_of_links link_length hinge_mass nondimensional_potential_distance nondimensional_potential_stiffness temperature
     = broadcast [UInt8; Float64; Float64; Float64; Float64; Float64] (fun number_of_links link_length hinge_mass nondimensional_potential_distance nondimensional_potential_stiffness temperature =>
         Finished (Some (fjc_modified_canonical_asymptotic_weak_potential.nondimensional_gibbs_free_energy_per_link number_of_links link_length hinge_mass nondimensional_potential_distance nondimensional_potential_stiffness temperature))) number_of_links link_length hinge_mass nondimensional_potential_distance nondimensional_potential_stiffness temperature)
  /\ (forall (number_of_links : jarray Z) (nondimensional_potential_distance : jarray T) (nondimensional_potential_stiffness : jarray T),
     jl_fjc_modified_canonical_asymptotic_weak_potential.nondimensional_relative_gibbs_free_energy number_of_links nondimensional_potential_distance nondimensional_potential_stiffness
     = broadcast [UInt8; Float64; Float64] (fun number_of_links nondimensional_potential_distance nondimensional_potential_stiffness =>
         Finished (Some (fjc_modified_canonical_asymptotic_weak_potential.nondimensional_relative_gibbs_free_energy number_of_links nondimensional_potential_distance nondimensional_potential_stiffness))) number_of_links nondimensional_potential_distance nondimensional_potential_stiffness)
  /\ (forall (number_of_links : jarray Z) (nondimensional_potential_distance : jarray T) (nondimensional_potential_stiffness : jarray T),
     jl_fjc_modified_canonical_asymptotic_weak_potential.nondimensional_relative_gibbs_free_energy_per_link number_of_links nondimensional_potential_distance nondimensional_potential_stiffness
     = broadcast [UInt8; Float64; Float64] (fun number_of_links nondimensional_potential_distance nondimensional_potential_stiffness =>
         Finished (Some (fjc_modified_canonical_asymptotic_weak_potential.nondimensional_relative_gibbs_free_energy_per_link number_of_links nondimensional_potential_distance nondimensional_potential_stiffness))) number_of_links nondimensional_potential_distance nondimensional_potential_stiffness).
Proof.
  exact (fun T Sc => conj (@F_fjc_modified_canonical_asymptotic_weak_potential_end_to_end_length T Sc)
    (conj (@F_fjc_modified_canonical_asymptotic_weak_potential_end_to_end_length_per_link T Sc)
    (conj (@F_fjc_modified_canonical_asymptotic_weak_potential_nondimensional_end_to_end_length T Sc)
    (conj (@F_fjc_modified_canonical_asymptotic_weak_potential_nondimensional_end_to_end_length_per_link T Sc)
    (conj (@F_fjc_modified_canonical_asymptotic_weak_potential_force T Sc)
    (conj (@F_fjc_modified_canonical_asymptotic_weak_potential_nondimensional_force T Sc)
    (conj (@F_fjc_modified_canonical_asymptotic_weak_potential_gibbs_free_energy T Sc)
    (conj (@F_fjc_modified_canonical_asymptotic_weak_potential_gibbs_free_energy_per_link T Sc)
    (conj (@F_fjc_modified_canonical_asymptotic_weak_potential_relative_gibbs_free_energy T Sc)
    (conj (@F_fjc_modified_canonical_asymptotic_weak_potential_relative_gibbs_free_energy_per_link T Sc)
    (conj (@F_fjc_modified_canonical_asymptotic_weak_potential_nondimensional_gibbs_free_energy T Sc)
    (conj (@F_fjc_modified_canonical_asymptotic_weak_potential_nondimensional_gibbs_free_energy_per_link T Sc)
    (conj (@F_fjc_modified_canonical_asymptotic_weak_potential_nondimensional_relative_gibbs_free_energy T Sc)
    (@F_fjc_modified_canonical_asymptotic_weak_potential_nondimensional_relative_gibbs_free_energy_per_link T Sc)))))))))))))).
Qed.
Print Assumptions C61_functions_fjc_modified_canonical_asymptotic_weak_potential.

Theorem C61_object_fjc_modified_canonical_asymptotic_weak_potential : forall (T : Type) (Sc : Scalar T) (number_of_links : Z) (link_length : T) (hinge_mass : T),
  let j := J_fjc_modified_canonical_asymptotic_weak_potential.init number_of_links link_length hinge_mass in
  let r := O_fjc_modified_canonical_asymptotic_weak_potential.init number_of_links link_length hinge_mass in
  J_fjc_modified_canonical_asymptotic_weak_potential.number_of_links j = O_fjc_modified_canonical_asymptotic_weak_potential.number_of_links r
  /\ J_fjc_modified_canonical_asymptotic_weak_potential.link_length j = O_fjc_modified_canonical_asymptotic_weak_potential.link_length r
  /\ J_fjc_modified_canonical_asymptotic_weak_potential.hinge_mass j = O_fjc_modified_canonical_asymptotic_weak_potential.hinge_mass r
  /\ (forall (potential_distance : jarray T) (potential_stiffness : jarray T) (temperature : jarray T),
     J_fjc_modified_canonical_asymptotic_weak_potential.end_to_end_length j potential_distance potential_stiffness temperature
     = broadcast [Float64; Float64; Float64] (fun potential_distance potential_stiffness temperature =>
         Finished (Some (O_fjc_modified_canonical_asymptotic_weak_potential.end_to_end_length r potential_distance potential_stiffness temperature))) potential_distance potential_stiffness temperature)
  /\ (forall (potential_distance : jarray T) (potential_stiffness : jarray T) (temperature : jarray T),
     J_fjc_modified_canonical_asymptotic_weak_potential.end_to_end_length_per_link j potential_distance potential_stiffness temperature
     = broadcast [Float64; Float64; Float64] (fun potential_distance potential_stiffness temperature =>
         Finished (Some (O_fjc_modified_canonical_asymptotic_weak_potential.end_to_end_length_per_link r potential_distance potential_stiffness temperature))) potential_distance potential_stiffness temperature)
  /\ (forall (nondimensional_potential_distance : jarray T) (nondimensional_potential_stiffness : jarray T),
     J_fjc_modified_canonical_asymptotic_weak_potential.nondimensional_end_to_end_length j nondimensional_potential_distance nondimensional_potential_stiffness
     = broadcast [Float64; Float64] (fun nondimensional_potential_distance nondimensional_potential_stiffness =>
         Finished (Some (O_fjc_modified_canonical_asymptotic_weak_potential.nondimensional_end_to_end_length r nondimensional_potential_distance nondimensional_potential_stiffness))) nondimensional_potential_distance nondimensional_potential_stiffness)
  /\ (forall (nondimensional_potential_distance : jarray T) (nondimensional_potential_stiffness : jarray T),
     J_fjc_modified_canonical_asymptotic_weak_potential.nondimensional_end_to_end_length_per_link j nondimensional_potential_distance nondimensional_potential_stiffness
     = broadcast [Float64; Float64] (fun nondimensional_potential_distance nondimensional_potential_stiffness =>
         Finished (Some (O_fjc_modified_canonical_asymptotic_weak_potential.nondimensional_end_to_end_length_per_link r nondimensional_potential_distance nondimensional_potential_stiffness))) nondimensional_potential_distance nondimensional_potential_stiffness)
  /\ (forall (potential_distance : jarray T) (potential_stiffness : jarray T),
     J_fjc_modified_canonical_asymptotic_weak_potential.force j potential_distance potential_stiffness
     = broadcast [Float64; Float64] (fun potential_distance potential_stiffness =>
         Finished (Some (O_fjc_modified_canonical_asymptotic_weak_potential.force r potential_distance potential_stiffness))) potential_distance potential_stiffness)
  /\ (forall (nondimensional_potential_distance : jarray T) (nondimensional_potential_stiffness : jarray T),
     J_fjc_modified_canonical_asymptotic_weak_potential.nondimensional_force j nondimensional_potential_distance nondimensional_potential_stiffness
     = broadcast [Float64; Float64] (fun nondimensional_potential_distance nondimensional_potential_stiffness =>
         Finished (Some (O_fjc_modified_canonical_asymptotic_weak_potential.nondimensional_force r nondimensional_potential_distance nondimensional_potential_stiffness))) nondimensional_potential_distance nondimensional_potential_stiffness)
  /\ (forall (potential_distance : jarray T) (potential_stiffness : jarray T) (temperature : jarray T),
     J_fjc_modified_canonical_asymptotic_weak_potential.gibbs_free_energy j potential_distance potential_stiffness temperature
     = broadcast [Float64; Float64; Float64] (fun potential_distance potential_stiffness temperature =>
         Finished (Some (O_fjc_modified_canonical_asymptotic_weak_potential.gibbs_free_energy r potential_distance potential_stiffness temperature))) potential_distance potential_stiffness temperature)
  /\ (forall (potential_distance : jarray T) (potential_stiffness : jarray T) (temperature : jarray T),
     J_fjc_modified_canonical_asymptotic_weak_potential.gibbs_free_energy_per_link j potential_distance potential_stiffness temperature
     = broadcast [Float64; Float64; Float64] (fun potential_distance potential_stiffness temperature =>
         Finished (Some (O_fjc_modified_canonical_asymptotic_weak_potential.gibbs_free_energy_per_link r potential_distance potential_stiffness temperature))) potential_distance potential_stiffness temperature)
  /\ (forall (potential_distance : jarray T) (potential_stiffness : jarray T) (temperature : jarray T),
     J_fjc_modified_canonical_asymptotic_weak_potential.relative_gibbs_free_energy j potential_distance potential_stiffness temperature
     = broadcast [Float64; Float64; Float64] (fun potential_distance potential_stiffness temperature =>
         Finished (Some (O_fjc_modified_canonical_asymptotic_weak_potential.relative_gibbs_free_energy r potential_distance potential_stiffness temperature))) potential_distance potential_stiffness temperature)
  /\ (forall (potential_distance : jarray T) (potential_stiffness : jarray T) (temperature : jarray T),
     J_fjc_modified_canonical_asymptotic_weak_potential.relative_gibbs_free_energy_per_link j potential_distance potential_stiffness temperature
     = broadcast [Float64; Float64; Float64] (fun potential_distance potential_stiffness temperature =>
         Finished (Some (O_fjc_modified_canonical_asymptotic_weak_potential.relative_gibbs_free_energy_per_link r potential_distance potential_stiffness temperature))) potential_distance potential_stiffness temperature)
  /\ (forall (nondimensional_potential_distance : jarray T) (nondimensional_potential_stiffness : jarray T) (temperature : jarray T),
     J_fjc_modified_canonical_asymptotic_weak_potential.nondimensional_gibbs_free_energy j nondimensional_potential_distance nondimensional_potential_stiffness temperature
     = broadcast [Float64; Float64; Float64] (fun nondimensional_potential_distance nondimensional_potential_stiffness temperature =>
         Finished (Some (O_fjc_modified_canonical_asymptotic_weak_potential.nondimensional_gibbs_free_energy r nondimensional_potential_distance nondimensional_potential_stiffness temperature))) nondimensional_potential_distance nondimensional_potential_stiffness temperature)
  /\ (forall (nondimensional_potential_distance : jarray T) (nondimensional_potential_stiffness : jarray T) (temperature : jarray T),
     J_fjc_modified_canonical_asymptotic_weak_potential.nondimensional_gibbs_free_energy_per_link j nondimensional_potential_distance nondimensional_potential_stiffness temperature
     = broadcast [Float64; Float64; Float64] (fun nondimensional_potential_distance nondimensional_potential_stiffness temperature =>
         Finished (Some (O_fjc_modified_canonical_asymptotic_weak_potential.nondimensional_gibbs_free_energy_per_link r nondimensional_potential_distance nondimensional_potential_stiffness temperature))) nondimensional_potential_distance nondimensional_potential_stiffness temperature)
  /\ (forall (nondimensional_potential_distance : jarray T) (nondimensional_potential_stiffness : jarray T),
     J_fjc_modified_canonical_asymptotic_weak_potential.nondimensional_relative_gibbs_free_energy j nondimensional_potential_distance nondimensional_potential_stiffness
     = broadcast [Float64; Float64] (fun nondimensional_potential_distance nondimensional_potential_stiffness =>
         Finished (Some (O_fjc_modified_canonical_asymptotic_weak_potential.nondimensional_relative_gibbs_free_energy r nondimensional_potential_distance nondimensional_potential_stiffness))) nondimensional_potential_distance nondimensional_potential_stiffness)
  /\ (forall (nondimensional_potential_distance : jarray T) (nondimensional_potential_stiffness : jarray T),
     J_fjc_modified_canonical_asymptotic_weak_potential.nondimensional_relative_gibbs_free_energy_per_link j nondimensional_potential_distance nondimensional_potential_stiffness
     = broadcast [Float64; Float64] (fun nondimensional_potential_distance nondimensional_potential_stiffness =>
         Finished (Some (O_fjc_modified_canonical_asymptotic_weak_potential.nondimensional_relative_gibbs_free_energy_per_link r nondimensional_potential_distance nondimensional_potential_stiffness))) nondimensional_potential_distance nondimensional_potential_stiffness).
Proof. intros T Sc number_of_links link_length hinge_mass j r.
  split; [reflexivity|].
  split; [reflexivity|].
  split; [reflexivity|].
  split; [intros; cbv [j J_fjc_modified_canonical_asymptotic_weak_potential.init J_fjc_modified_canonical_asymptotic_weak_potential.end_to_end_length]; rewrite F_fjc_modified_canonical_asymptotic_weak_potential_end_to_end_length; unfold O_fjc_modified_canonical_asymptotic_weak_potential.end_to_end_length; broadcast_numbers|].
  split; [intros; cbv [j J_fjc_modified_canonical_asymptotic_weak_potential.init J_fjc_modified_canonical_asymptotic_weak_potential.end_to_end_length_per_link]; rewrite F_fjc_modified_canonical_asymptotic_weak_potential_end_to_end_length_per_link; unfold O_fjc_modified_canonical_asymptotic_weak_potential.end_to_end_length_per_link; broadcast_numbers|].
  split; [intros; cbv [j J_fjc_modified_canonical_asymptotic_weak_potential.init J_fjc_modified_canonical_asymptotic_weak_potential.nondimensional_end_to_end_length]; rewrite F_fjc_modified_canonical_asymptotic_weak_potential_nondimensional_end_to_end_length; unfold O_fjc_modified_canonical_asymptotic_weak_potential.nondimensional_end_to_end_length; broadcast_numbers|].
  split; [intros; cbv [j J_fjc_modified_canonical_asymptotic_weak_potential.init J_fjc_modified_canonical_asymptotic_weak_potential.nondimensional_end_to_end_length_per_link]; rewrite F_fjc_modified_canonical_asymptotic_weak_potential_nondimensional_end_to_end_length_per_link; unfold O_fjc_modified_canonical_asymptotic_weak_potential.nondimensional_end_to_end_length_per_link; broadcast_numbers|].
  split; [intros; cbv [j J_fjc_modified_canonical_asymptotic_weak_potential.init J_fjc_modified_canonical_asymptotic_weak_potential.force]; rewrite F_fjc_modified_canonical_asymptotic_weak_potential_force; unfold O_fjc_modified_canonical_asymptotic_weak_potential.force; broadcast_numbers|].
  split; [intros; cbv [j J_fjc_modified_canonical_asymptotic_weak_potential.init J_fjc_modified_canonical_asymptotic_weak_potential.nondimensional_force]; rewrite F_fjc_modified_canonical_asymptotic_weak_potential_nondimensional_force; unfold O_fjc_modified_canonical_asymptotic_weak_potential.nondimensional_force; broadcast_numbers|].
  split; [intros; cbv [j J_fjc_modified_canonical_asymptotic_weak_potential.init J_fjc_modified_canonical_asymptotic_weak_potential.gibbs_free_energy]; rewrite F_fjc_modified_canonical_asymptotic_weak_potential_gibbs_free_energy; unfold O_fjc_modified_canonical_asymptotic_weak_potential.gibbs_free_energy; broadcast_numbers|].
  split; [intros; cbv [j J_fjc_modified_canonical_asymptotic_weak_potential.init J_fjc_modified_canonical_asymptotic_weak_potential.gibbs_free_energy_per_link]; rewrite F_fjc_modified_canonical_asymptotic_weak_potential_gibbs_free_energy_per_link; unfold O_fjc_modified_canonical_asymptotic_weak_potential.gibbs_free_energy_per_link; broadcast_numbers|].
  split; [intros; cbv [j J_fjc_modified_canonical_asymptotic_weak_potential.init J_fjc_modified_canonical_asymptotic_weak_potential.relative_gibbs_free_energy]; rewrite F_fjc_modified_canonical_asymptotic_weak_potential_relative_gibbs_free_energy; unfold O_fjc_modified_canonical_asymptotic_weak_potential.relative_gibbs_free_energy; broadcast_numbers|].
  split; [intros; cbv [j J_fjc_modified_canonical_asymptotic_weak_potential.init J_fjc_modified_canonical_asymptotic_weak_potential.relative_gibbs_free_energy_per_link]; rewrite F_fjc_modified_canonical_asymptotic_weak_potential_relative_gibbs_free_energy_per_link; unfold O_fjc_modified_canonical_asymptotic_weak_potential.relative_gibbs_free_energy_per_link; broadcast_numbers|].
  split; [intros; cbv [j J_fjc_modified_canonical_asymptotic_weak_potential.init J_fjc_modified_canonical_asymptotic_weak_potential.nondimensional_gibbs_free_energy]; rewrite F_fjc_modified_canonical_asymptotic_weak_potential_nondimensional_gibbs_free_energy; unfold O_fjc_modified_canonical_asymptotic_weak_potential.nondimensional_gibbs_free_energy; broadcast_numbers|].
  split; [intros; cbv [j J_fjc_modified_canonical_asymptotic_weak_potential.init J_fjc_modified_canonical_asymptotic_weak_potential.nondimensional_gibbs_free_energy_per_link]; rewrite F_fjc_modified_canonical_asymptotic_weak_potential_nondimensional_gibbs_free_energy_per_link; unfold O_fjc_modified_canonical_asymptotic_weak_potential.nondimensional_gibbs_free_energy_per_link; broadcast_numbers|].
  split; [intros; cbv [j J_fjc_modified_canonical_asymptotic_weak_potential.init J_fjc_modified_canonical_asymptotic_weak_potential.nondimensional_relative_gibbs_free_energy]; rewrite F_fjc_modified_canonical_asymptotic_weak_potential_nondimensional_relative_gibbs_free_energy; unfold O_fjc_modified_canonical_asymptotic_weak_potential.nondimensional_relative_gibbs_free_energy; broadcast_numbers|].
  intros; cbv [j J_fjc_modified_canonical_asymptotic_weak_potential.init J_fjc_modified_canonical_asymptotic_weak_potential.nondimensional_relative_gibbs_free_energy_per_link]; rewrite F_fjc_modified_canonical_asymptotic_weak_potential_nondimensional_relative_gibbs_free_energy_per_link; unfold O_fjc_modified_canonical_asymptotic_weak_potential.nondimensional_relative_gibbs_free_energy_per_link; broadcast_numbers.
Qed.
Print Assumptions C61_object_fjc_modified_canonical_asymptotic_weak_potential.

Theorem C61_object_lennard_jones_isometric_asymptotic : forall (T : Type) (Sc : Scalar T) (number_of_links : Z) (link_length : T) (hinge_mass : T) (link_stiffness : T),
  let j := J_lennard_jones_isometric_asymptotic.init number_of_links link_length hinge_mass link_stiffness in
  let r := O_lennard_jones_isometric_asymptotic.init number_of_links link_length hinge_mass link_stiffness in
  J_lennard_jones_isometric_asymptotic.number_of_links j = O_lennard_jones_isometric_asymptotic.number_of_links r
  /\ J_lennard_jones_isometric_asymptotic.link_length j = O_lennard_jones_isometric_asymptotic.link_length r
  /\ J_lennard_jones_isometric_asymptotic.hinge_mass j = O_lennard_jones_isometric_asymptotic.hinge_mass r
  /\ J_lennard_jones_isometric_asymptotic.link_stiffness j = O_lennard_jones_isometric_asymptotic.link_stiffness r
  /\ J_lennard_jones_isometric_asymptotic.reduced j = J_lennard_jones_isometric_asymptotic_reduced.init number_of_links link_length hinge_mass link_stiffness
  /\ J_lennard_jones_isometric_asymptotic.legendre j = J_lennard_jones_isometric_asymptotic_legendre.init number_of_links link_length hinge_mass link_stiffness.
Proof. intros T Sc number_of_links link_length hinge_mass link_stiffness j r.
  split; [reflexivity|].
  split; [reflexivity|].
  split; [reflexivity|].
  split; [reflexivity|].
  split; [reflexivity|].
  reflexivity.
Qed.
Print Assumptions C61_object_lennard_jones_isometric_asymptotic.

Theorem C61_functions_lennard_jones_isotensional_asymptotic : forall (T : Type) (Sc : Scalar T),
  (forall (number_of_links : jarray Z) (link_length : jarray T) (link_stiffness : jarray T) (force : jarray T) (temperature : jarray T),
     jl_lennard_jones_isotensional_asymptotic.end_to_end_length number_of_links link_length link_stiffness force temperature
     = broadcast [UInt8; Float64; Float64; Float64; Float64] (fun number_of_links link_length link_stiffness force temperature =>
         Finished (Some (lennard_jones_isotensional_asymptotic.end_to_end_length number_of_links link_length link_stiffness force temperature))) number_of_links link_length link_stiffness force temperature)
  /\ (forall (link_length : jarray T) (link_stiffness : jarray T) (force : jarray T) (temperature : jarray T),
     jl_lennard_jones_isotensional_asymptotic.end_to_end_length_per_link link_length link_stiffness force temperature
     = broadcast [Float64; Float64; Float64; Float64] (fun link_length link_stiffness force temperature =>
         Finished (Some (lennard_jones_isotensional_asymptotic.end_to_end_length_per_link link_length link_stiffness force temperature))) link_length link_stiffness force temperature)
  /\ (forall (number_of_links : jarray Z) (nondimensional_link_stiffness : jarray T) (nondimensional_force : jarray T),
     jl_lennard_jones_isotensional_asymptotic.nondimensional_end_to_end_length number_of_links nondimensional_link_stiffness nondimensional_force
     = broadcast [UInt8; Float64; Float64] (fun number_of_links nondimensional_link_stiffness nondimensional_force =>
         Finished (Some (lennard_jones_isotensional_asymptotic.nondimensional_end_to_end_length number_of_links nondimensional_link_stiffness nondimensional_force))) number_of_links nondimensional_link_stiffness nondimensional_force)
  /\ (forall (nondimensional_link_stiffness : jarray T) (nondimensional_force : jarray T),
     jl_lennard_jones_isotensional_asymptotic.nondimensional_end_to_end_length_per_link nondimensional_link_stiffness nondimensional_force
     = broadcast [Float64; Float64] (fun nondimensional_link_stiffness nondimensional_force =>
         Finished (Some (lennard_jones_isotensional_asymptotic.nondimensional_end_to_end_length_per_link nondimensional_link_stiffness nondimensional_force))) nondimensional_link_stiffness nondimensional_force)
  /\ (forall (number_of_links : jarray Z) (link_length : jarray T) (hinge_mass : jarray T) (link_stiffness : jarray T) (force : jarray T) (temperature : jarray T),
     jl_lennard_jones_isotensional_asymptotic.gibbs_free_energy number_of_links link_length hinge_mass link_stiffness force temperature
     = broadcast [UInt8; Float64; Float64; Float64; Float64; Float64] (fun number_of_links link_length hinge_mass link_stiffness force temperature =>
         Finished (Some (lennard_jones_isotensional_asymptotic.gibbs_free_energy number_of_links link_length hinge_mass link_stiffness force temperature))) number_of_links link_length hinge_mass link_stiffness force temperature)
  /\ (forall (link_length : jarray T) (hinge_mass : jarray T) (link_stiffness : jarray T) (force : jarray T) (temperature : jarray T),
     jl_lennard_jones_isotensional_asymptotic.gibbs_free_energy_per_link link_length hinge_mass link_stiffness force temperature
     = broadcast [Float64; Float64; Float64; Float64; Float64] (fun link_length hinge_mass link_stiffness force temperature =>
         Finished (Some (lennard_jones_isotensional_asymptotic.gibbs_free_energy_per_link link_length hinge_mass link_stiffness force temperature))) link_length hinge_mass link_stiffness force temperature)
  /\ (forall (number_of_links : jarray Z) (link_length : jarray T) (link_stiffness : jarray T) (force : jarray T) (temperature : jarray T),
     jl_lennard_jones_isotensional_asymptotic.relative_gibbs_free_energy number_of_links link_length link_stiffness force temperature
     = broadcast [UInt8; Float64; Float64; Float64; Float64] (fun number_of_links link_length link_stiffness force temperature =>
         Finished (Some (lennard_jones_isotensional_asymptotic.relative_gibbs_free_energy number_of_links link_length link_stiffness force temperature))) number_of_links link_length link_stiffness force temperature)
  /\ (forall (link_length : jarray T) (link_stiffness : jarray T) (force : jarray T) (temperature : jarray T),
     jl_lennard_jones_isotensional_asymptotic.relative_gibbs_free_energy_per_link link_length link_stiffness force temperature
     = broadcast [Float64; Float64; Float64; Float64] (fun link_length link_stiffness force temperature =>
         Finished (Some (lennard_jones_isotensional_asymptotic.relative_gibbs_free_energy_per_link link_length link_stiffness force temperature))) link_length link_stiffness force temperature)
  /\ (forall (number_of_links : jarray Z) (link_length : jarray T) (hinge_mass : jarray T) (nondimensional_link_stiffness : jarray T) (nondimensional_force : jarray T) (temperature : jarray T),
     jl_lennard_jones_isotensional_asymptotic.nondimensional_gibbs_free_energy number_of_links link_length hinge_mass nondimensional_link_stiffness nondimensional_force temperature
     = broadcast [UInt8; Float64; Float64; Float64; Float64; Float64] (fun number_of_links link_length hinge_mass nondimensional_link_stiffness nondimensional_force temperature =>
         Finished (Some (lennard_jones_isotensional_asymptotic.nondimensional_gibbs_free_energy number_of_links link_length hinge_mass nondimensional_link_stiffness nondimensional_force temperature))) number_of_links link_length hinge_mass nondimensional_link_stiffness nondimensional_force temperature)
  /\ (forall (link_length : jarray T) (hinge_mass : jarray T) (nondimensional_link_stiffness : jarray T) (nondimensional_force : jarray T) (temperature : jarray T),
     jl_lennard_jones_isotensional_asymptotic.nondimensional_gibbs_free_energy_per_link link_length hinge_mass nondimensional_link_stiffness nondimensional_force temperature
     = broadcast [Float64; Float64; Float64; Float64; Float64] (fun link_length hinge_mass nondimensional_link_stiffness nondimensional_force temperature =>
         Finished (Some (lennard_jones_isotensional_asymptotic.nondimensional_gibbs_free_energy_per_link link_length hinge_mass nondimensional_link_stiffness nondimensional_force temperature))) link_length hinge_mass nondimensional_link_stiffness nondimensional_force temperature)
  /\ (forall (number_of_links : jarray Z) (nondimensional_link_stiffness : jarray T) (nondimensional_force : jarray T),
     jl_lennard_jones_isotensional_asymptotic.nondimensional_relative_gibbs_free_energy number_of_links nondimensional_link_stiffness nondimensional_force
     = broadcast [UInt8; Float64; Float64] (fun number_of_links nondimensional_link_stiffness nondimensional_force =>
         Finished (Some (lennard_jones_isotensional_asymptotic.nondimensional_relative_gibbs_free_energy number_of_links nondimensional_link_stiffness nondimensional_force))) number_of_links nondimensional_link_stiffness nondimensional_force)
  /\ (forall (nondimensional_link_stiffness : jarray T) (nondimensional_force : jarray T),
     jl_lennard_jones_isotensional_asymptotic.nondimensional_relative_gibbs_free_energy_per_link nondimensional_link_stiffness nondimensional_force
     = broadcast [Float64; Float64] (fun nondimensional_link_stiffness nondimensional_force =>
         Finished (Some (lennard_jones_isotensional_asymptotic.nondimensional_relative_gibbs_free_energy_per_link nondimensional_link_stiffness nondimensional_force))) nondimensional_link_stiffness nondimensional_force).
Proof.
  exact (fun T Sc => conj (@F_lennard_jones_isotensional_asymptotic_end_to_end_length T Sc)
    (conj (@F_lennard_jones_isotensional_asymptotic_end_to_end_length_per_link T Sc)
    (conj (@F_lennard_jones_isotensional_asymptotic_nondimensional_end_to_end_length T Sc)
    (conj (@F_lennard_jones_isotensional_asymptotic_nondimensional_end_to_end_length_per_link T Sc)
    (conj (@F_lennard_jones_isotensional_asymptotic_gibbs_free_energy T Sc)
    (conj (@F_lennard_jones_isotensional_asymptotic_gibbs_free_energy_per_link T Sc)
    (conj (@F_lennard_jones_isotensional_asymptotic_relative_gibbs_free_energy T Sc)
    (conj (@F_lennard_jones_isotensional_asymptotic_relative_gibbs_free_energy_per_link T Sc)
    (conj (@F_lennard_jones_isotensional_asymptotic_nondimensional_gibbs_free_energy T Sc)
    (conj (@F_lennard_jones_isotensional_asymptotic_nondimensional_gibbs_free_energy_per_link T Sc)
    (conj (@F_lennard_jones_isotensional_asymptotic_nondimensional_relative_gibbs_free_energy T Sc)
    (@F_lennard_jones_isotensional_asymptotic_nondimensional_relative_gibbs_free_energy_per_link T Sc)))))))))))).
Qed.
Print Assumptions C61_functions_lennard_jones_isotensional_asymptotic.

Theorem C61_object_lennard_jones_isotensional_asymptotic : forall (T : Type) (Sc : Scalar T) (number_of_links : Z) (link_length : T) (hinge_mass : T) (link_stiffness : T),
  let j := J_lennard_jones_isotensional_asymptotic.init number_of_links link_length hinge_mass link_stiffness in
  let r := O_lennard_jones_isotensional_asymptotic.init number_of_links link_length hinge_mass link_stiffness in
  J_lennard_jones_isotensional_asymptotic.number_of_links j = O_lennard_jones_isotensional_asymptotic.number_of_links r
  /\ J_lennard_jones_isotensional_asymptotic.link_length j = O_lennard_jones_isotensional_asymptotic.link_length r
  /\ J_lennard_jones_isotensional_asymptotic.hinge_mass j = O_lennard_jones_isotensional_asymptotic.hinge_mass r
  /\ J_lennard_jones_isotensional_asymptotic.link_stiffness j = O_lennard_jones_isotensional_asymptotic.link_stiffness r
  /\ J_lennard_jones_isotensional_asymptotic.reduced j = J_lennard_jones_isotensional_asymptotic_reduced.init number_of_links link_length hinge_mass link_stiffness
  /\ J_lennard_jones_isotensional_asymptotic.legendre j = J_lennard_jones_isotensional_asymptotic_legendre.init number_of_links link_length hinge_mass link_stiffness
  /\ (forall (force : jarray T) (temperature : jarray T),
     J_lennard_jones_isotensional_asymptotic.end_to_end_length j force temperature
     = broadcast [Float64; Float64] (fun force temperature =>
         Finished (Some (O_lennard_jones_isotensional_asymptotic.end_to_end_length r force temperature))) force temperature)
  /\ (forall (force : jarray T) (temperature : jarray T),
     J_lennard_jones_isotensional_asymptotic.end_to_end_length_per_link j force temperature
     = broadcast [Float64; Float64] (fun force temperature =>
         Finished (Some (O_lennard_jones_isotensional_asymptotic.end_to_end_length_per_link r force temperature))) force temperature)
  /\ (forall (nondimensional_force : jarray T) (temperature : T),
     J_lennard_jones_isotensional_asymptotic.nondimensional_end_to_end_length j nondimensional_force temperature
     = broadcast [Float64] (fun nondimensional_force =>
         Finished (Some (O_lennard_jones_isotensional_asymptotic.nondimensional_end_to_end_length r nondimensional_force temperature))) nondimensional_force)
  /\ (forall (nondimensional_force : jarray T) (temperature : T),
     J_lennard_jones_isotensional_asymptotic.nondimensional_end_to_end_length_per_link j nondimensional_force temperature
     = broadcast [Float64] (fun nondimensional_force =>
         Finished (Some (O_lennard_jones_isotensional_asymptotic.nondimensional_end_to_end_length_per_link r nondimensional_force temperature))) nondimensional_force)
  /\ (forall (force : jarray T) (temperature : jarray T),
     J_lennard_jones_isotensional_asymptotic.gibbs_free_energy j force temperature
     = broadcast [Float64; Float64] (fun force temperature =>
         Finished (Some (O_lennard_jones_isotensional_asymptotic.gibbs_free_energy r force temperature))) force temperature)
  /\ (forall (force : jarray T) (temperature : jarray T),
     J_lennard_jones_isotensional_asymptotic.gibbs_free_energy_per_link j force temperature
     = broadcast [Float64; Float64] (fun force temperature =>
         Finished (Some (O_lennard_jones_isotensional_asymptotic.gibbs_free_energy_per_link r force temperature))) force temperature)
  /\ (forall (force : jarray T) (temperature : jarray T),
     J_lennard_jones_isotensional_asymptotic.relative_gibbs_free_energy j force temperature
     = broadcast [Float64; Float64] (fun force temperature =>
         Finished (Some (O_lennard_jones_isotensional_asymptotic.relative_gibbs_free_energy r force temperature))) force temperature)
  /\ (forall (force : jarray T) (temperature : jarray T),
     J_lennard_jones_isotensional_asymptotic.relative_gibbs_free_energy_per_link j force temperature
     = broadcast [Float64; Float64] (fun force temperature =>
         Finished (Some (O_lennard_jones_isotensional_asymptotic.relative_gibbs_free_energy_per_link r force temperature))) force temperature)
  /\ (forall (nondimensional_force : jarray T) (temperature : T),
     J_lennard_jones_isotensional_asymptotic.nondimensional_gibbs_free_energy j nondimensional_force temperature
     = broadcast [Float64] (fun nondimensional_force =>
         Finished (Some (O_lennard_jones_isotensional_asymptotic.nondimensional_gibbs_free_energy r nondimensional_force temperature))) nondimensional_force)
  /\ (forall (nondimensional_force : jarray T) (temperature : T),
     J_lennard_jones_isotensional_asymptotic.nondimensional_gibbs_free_energy_per_link j nondimensional_force temperature
     = broadcast [Float64] (fun nondimensional_force =>
         Finished (Some (O_lennard_jones_isotensional_asymptotic.nondimensional_gibbs_free_energy_per_link r nondimensional_force temperature))) nondimensional_force)
  /\ (forall (nondimensional_force : jarray T) (temperature : T),
     J_lennard_jones_isotensional_asymptotic.nondimensional_relative_gibbs_free_energy j nondimensional_force temperature
     = broadcast [Float64] (fun nondimensional_force =>
         Finished (Some (O_lennard_jones_isotensional_asymptotic.nondimensional_relative_gibbs_free_energy r nondimensional_force temperature))) nondimensional_force)
  /\ (forall (nondimensional_force : jarray T) (temperature : T),
     J_lennard_jones_isotensional_asymptotic.nondimensional_relative_gibbs_free_energy_per_link j nondimensional_force temperature
     = broadcast [Float64] (fun nondimensional_force =>
         Finished (Some (O_lennard_jones_isotensional_asymptotic.nondimensional_relative_gibbs_free_energy_per_link r nondimensional_force temperature))) nondimensional_force).
Proof. intros T Sc number_of_links link_length hinge_mass link_stiffness j r.
  split; [reflexivity|].
  split; [reflexivity|].
  split; [reflexivity|].
  split; [reflexivity|].
  split; [reflexivity|].
  split; [reflexivity|].
  split; [intros; cbv [j J_lennard_jones_isotensional_asymptotic.init J_lennard_jones_isotensional_asymptotic.end_to_end_length]; rewrite F_lennard_jones_isotensional_asymptotic_end_to_end_length; unfold O_lennard_jones_isotensional_asymptotic.end_to_end_length; broadcast_numbers|].
  split; [intros; cbv [j J_lennard_jones_isotensional_asymptotic.init J_lennard_jones_isotensional_asymptotic.end_to_end_length_per_link]; rewrite F_lennard_jones_isotensional_asymptotic_end_to_end_length_per_link; unfold O_lennard_jones_isotensional_asymptotic.end_to_end_length_per_link; broadcast_numbers|].
  split; [intros; cbv [j J_lennard_jones_isotensional_asymptotic.init J_lennard_jones_isotensional_asymptotic.nondimensional_end_to_end_length]; rewrite F_lennard_jones_isotensional_asymptotic_nondimensional_end_to_end_length; unfold O_lennard_jones_isotensional_asymptotic.nondimensional_end_to_end_length; broadcast_numbers|].
  split; [intros; cbv [j J_lennard_jones_isotensional_asymptotic.init J_lennard_jones_isotensional_asymptotic.nondimensional_end_to_end_length_per_link]; rewrite F_lennard_jones_isotensional_asymptotic_nondimensional_end_to_end_length_per_link; unfold O_lennard_jones_isotensional_asymptotic.nondimensional_end_to_end_length_per_link; broadcast_numbers|].
  split; [intros; cbv [j J_lennard_jones_isotensional_asymptotic.init J_lennard_jones_isotensional_asymptotic.gibbs_free_energy]; rewrite F_lennard_jones_isotensional_asymptotic_gibbs_free_energy; unfold O_lennard_jones_isotensional_asymptotic.gibbs_free_energy; broadcast_numbers|].
  split; [intros; cbv [j J_lennard_jones_isotensional_asymptotic.init J_lennard_jones_isotensional_asymptotic.gibbs_free_energy_per_link]; rewrite F_lennard_jones_isotensional_asymptotic_gibbs_free_energy_per_link; unfold O_lennard_jones_isotensional_asymptotic.gibbs_free_energy_per_link; broadcast_numbers|].
  split; [intros; cbv [j J_lennard_jones_isotensional_asymptotic.init J_lennard_jones_isotensional_asymptotic.relative_gibbs_free_energy]; rewrite F_lennard_jones_isotensional_asymptotic_relative_gibbs_free_energy; unfold O_lennard_jones_isotensional_asymptotic.relative_gibbs_free_energy; broadcast_numbers|].
  split; [intros; cbv [j J_lennard_jones_isotensional_asymptotic.init J_lennard_jones_isotensional_asymptotic.relative_gibbs_free_energy_per_link]; rewrite F_lennard_jones_isotensional_asymptotic_relative_gibbs_free_energy_per_link; unfold O_lennard_jones_isotensional_asymptotic.relative_gibbs_free_energy_per_link; broadcast_numbers|].
  split; [intros; cbv [j J_lennard_jones_isotensional_asymptotic.init J_lennard_jones_isotensional_asymptotic.nondimensional_gibbs_free_energy]; rewrite F_lennard_jones_isotensional_asymptotic_nondimensional_gibbs_free_energy; unfold O_lennard_jones_isotensional_asymptotic.nondimensional_gibbs_free_energy; broadcast_numbers|].
  split; [intros; cbv [j J_lennard_jones_isotensional_asymptotic.init J_lennard_jones_isotensional_asymptotic.nondimensional_gibbs_free_energy_per_link]; rewrite F_lennard_jones_isotensional_asymptotic_nondimensional_gibbs_free_energy_per_link; unfold O_lennard_jones_isotensional_asymptotic.nondimensional_gibbs_free_energy_per_link; broadcast_numbers|].
  split; [intros; cbv [j J_lennard_jones_isotensional_asymptotic.init J_lennard_jones_isotensional_asymptotic.nondimensional_relative_gibbs_free_energy]; rewrite F_lennard_jones_isotensional_asymptotic_nondimensional_relative_gibbs_free_energy; unfold O_lennard_jones_isotensional_asymptotic.nondimensional_relative_gibbs_free_energy; broadcast_numbers|].
  intros; cbv [j J_lennard_jones_isotensional_asymptotic.init J_lennard_jones_isotensional_asymptotic.nondimensional_relative_gibbs_free_energy_per_link]; rewrite F_lennard_jones_isotensional_asymptotic_nondimensional_relative_gibbs_free_energy_per_link; unfold O_lennard_jones_isotensional_asymptotic.nondimensional_relative_gibbs_free_energy_per_link; broadcast_numbers.
Qed.
Print Assumptions C61_object_lennard_jones_isotensional_asymptotic.

Theorem C61_functions_lennard_jones_isotensional_legendre : forall (T : Type) (Sc : Scalar T),
  (forall (number_of_links : jarray Z) (link_length : jarray T) (hinge_mass : jarray T) (link_stiffness : jarray T) (force : jarray T) (temperature : jarray T),
     jl_lennard_jones_isotensional_legendre.helmholtz_free_energy number_of_links link_length hinge_mass link_stiffness force temperature
     = broadcast [UInt8; Float64; Float64; Float64; Float64; Float64] (fun number_of_links link_length hinge_mass link_stiffness force temperature =>
         Finished (Some (lennard_jones_isotensional_legendre.helmholtz_free_energy number_of_links link_length hinge_mass link_stiffness force temperature))) number_of_links link_length hinge_mass link_stiffness force temperature)
  /\ (forall (link_length : jarray T) (hinge_mass : jarray T) (link_stiffness : jarray T) (force : jarray T) (temperature : jarray T),
     jl_lennard_jones_isotensional_legendre.helmholtz_free_energy_per_link link_length hinge_mass link_stiffness force temperature
     = broadcast [Float64; Float64; Float64; Float64; Float64] (fun link_length hinge_mass link_stiffness force temperature =>
         Finished (Some (lennard_jones_isotensional_legendre.helmholtz_free_energy_per_link link_length hinge_mass link_stiffness force temperature))) link_length hinge_mass link_stiffness force temperature)
  /\ (forall (number_of_links : jarray Z) (link_length : jarray T) (link_stiffness : jarray T) (force : jarray T) (temperature : jarray T),
     jl_lennard_jones_isotensional_legendre.relative_helmholtz_free_energy number_of_links link_length link_stiffness force temperature
     = broadcast [UInt8; Float64; Float64; Float64; Float64] (fun number_of_links link_length link_stiffness force temperature =>
         Finished (Some (lennard_jones_isotensional_legendre.relative_helmholtz_free_energy number_of_links link_length link_stiffness force temperature))) number_of_links link_length link_stiffness force temperature)
  /\ (forall (link_length : jarray T) (link_stiffness : jarray T) (force : jarray T) (temperature : jarray T),
     jl_lennard_jones_isotensional_legendre.relative_helmholtz_free_energy_per_link link_length link_stiffness force temperature
     = broadcast [Float64; Float64; Float64; Float64] (fun link_length link_stiffness force temperature =>
         Finished (Some (lennard_jones_isotensional_legendre.relative_helmholtz_free_energy_per_link link_length link_stiffness force temperature))) link_length link_stiffness force temperature)
  /\ (forall (number_of_links : jarray Z) (link_length : jarray T) (hinge_mass : jarray T) (nondimensional_link_stiffness : jarray T) (nondimensional_force : jarray T) (temperature : jarray T),
     jl_lennard_jones_isotensional_legendre.nondimensional_helmholtz_free_energy number_of_links link_length hinge_mass nondimensional_link_stiffness nondimensional_force temperature
     = broadcast [UInt8; Float64; Float64; Float64; Float64; Float64] (fun number_of_links link_length hinge_mass nondimensional_link_stiffness nondimensional_force temperature =>
         Finished (Some (lennard_jones_isotensional_legendre.nondimensional_helmholtz_free_energy number_of_links link_length hinge_mass nondimensional_link_stiffness nondimensional_force temperature))) number_of_links link_length hinge_mass nondimensional_link_stiffness nondimensional_force temperature)
  /\ (forall (link_length : jarray T) (hinge_mass : jarray T) (nondimensional_link_stiffness : jarray T) (nondimensional_force : jarray T) (temperature : jarray T),
     jl_lennard_jones_isotensional_legendre.nondimensional_helmholtz_free_energy_per_link link_length hinge_mass nondimensional_link_stiffness nondimensional_force temperature
     = broadcast [Float64; Float64; Float64; Float64; Float64] (fun link_length hinge_mass nondimensional_link_stiffness nondimensional_force temperature =>
         Finished (Some (lennard_jones_isotensional_legendre.nondimensional_helmholtz_free_energy_per_link link_length hinge_mass nondimensional_link_stiffness nondimensional_force temperature))) link_length hinge_mass nondimensional_link_stiffness nondimensional_force temperature)
  /\ (forall (number_of_links : jarray Z) (nondimensional_link_stiffness : jarray T) (nondimensional_force : jarray T),
     jl_lennard_jones_isotensional_legendre.nondimensional_relative_helmholtz_free_energy number_of_links nondimensional_link_stiffness nondimensional_force
     = broadcast [UInt8; Float64; Float64] (fun number_of_links nondimensional_link_stiffness nondimensional_force =>
         Finished (Some (lennard_jones_isotensional_legendre.nondimensional_relative_helmholtz_free_energy number_of_links nondimensional_link_stiffness nondimensional_force))) number_of_links nondimensional_link_stiffness nondimensional_force)
  /\ (forall (nondimensional_link_stiffness : jarray T) (nondimensional_force : jarray T),
     jl_lennard_jones_isotensional_legendre.nondimensional_relative_helmholtz_free_energy_per_link nondimensional_link_stiffness nondimensional_force
     = broadcast [Float64; Float64] (fun nondimensional_link_stiffness nondimensional_force =>
         Finished (Some (lennard_jones_isotensional_legendre.nondimensional_relative_helmholtz_free_energy_per_link nondimensional_link_stiffness nondimensional_force))) nondimensional_link_stiffness nondimensional_force).
Proof.
  exact (fun T Sc => conj (@F_lennard_jones_isotensional_legendre_helmholtz_free_energy T Sc)
    (conj (@F_lennard_jones_isotensional_legendre_helmholtz_free_energy_per_link T Sc)
    (conj (@F_lennard_jones_isotensional_legendre_relative_helmholtz_free_energy T Sc)
    (conj (@F_lennard_jones_isotensional_legendre_relative_helmholtz_free_energy_per_link T Sc)
    (conj (@F_lennard_jones_isotensional_legendre_nondimensional_helmholtz_free_energy T Sc)
    (conj (@F_lennard_jones_isotensional_legendre_nondimensional_helmholtz_free_energy_per_link T Sc)
    (conj (@F_lennard_jones_isotensional_legendre_nondimensional_relative_helmholtz_free_energy T Sc)
    (@F_lennard_jones_isotensional_legendre_nondimensional_relative_helmholtz_free_energy_per_link T Sc)))))))).
Qed.
Print Assumptions C61_functions_lennard_jones_isotensional_legendre.

Theorem C61_object_lennard_jones_isotensional_legendre : forall (T : Type) (Sc : Scalar T) (number_of_links : Z) (link_length : T) (hinge_mass : T) (link_stiffness : T),
  let j := J_lennard_jones_isotensional_legendre.init number_of_links link_length hinge_mass link_stiffness in
  let r := O_lennard_jones_isotensional_legendre.init number_of_links link_length hinge_mass link_stiffness in
  J_lennard_jones_isotensional_legendre.number_of_links j = O_lennard_jones_isotensional_legendre.number_of_links r
  /\ J_lennard_jones_isotensional_legendre.link_length j = O_lennard_jones_isotensional_legendre.link_length r
  /\ J_lennard_jones_isotensional_legendre.hinge_mass j = O_lennard_jones_isotensional_legendre.hinge_mass r
  /\ J_lennard_jones_isotensional_legendre.link_stiffness j = O_lennard_jones_isotensional_legendre.link_stiffness r
  /\ (forall (force : jarray T) (temperature : jarray T),
     J_lennard_jones_isotensional_legendre.helmholtz_free_energy j force temperature
     = broadcast [Float64; Float64] (fun force temperature =>
         Finished (Some (O_lennard_jones_isotensional_legendre.helmholtz_free_energy r force temperature))) force temperature)
  /\ (forall (force : jarray T) (temperature : jarray T),
     J_lennard_jones_isotensional_legendre.helmholtz_free_energy_per_link j force temperature
     = broadcast [Float64; Float64] (fun force temperature =>
         Finished (Some (O_lennard_jones_isotensional_legendre.helmholtz_free_energy_per_link r force temperature))) force temperature)
  /\ (forall (force : jarray T) (temperature : jarray T),
     J_lennard_jones_isotensional_legendre.relative_helmholtz_free_energy j force temperature
     = broadcast [Float64; Float64] (fun force temperature =>
         Finished (Some (O_lennard_jones_isotensional_legendre.relative_helmholtz_free_energy r force temperature))) force temperature)
  /\ (forall (force : jarray T) (temperature : jarray T),
     J_lennard_jones_isotensional_legendre.relative_helmholtz_free_energy_per_link j force temperature
     = broadcast [Float64; Float64] (fun force temperature =>
         Finished (Some (O_lennard_jones_isotensional_legendre.relative_helmholtz_free_energy_per_link r force temperature))) force temperature)
  /\ (forall (nondimensional_force : jarray T) (temperature : T),
     J_lennard_jones_isotensional_legendre.nondimensional_helmholtz_free_energy j nondimensional_force temperature
     = broadcast [Float64] (fun nondimensional_force =>
         Finished (Some (O_lennard_jones_isotensional_legendre.nondimensional_helmholtz_free_energy r nondimensional_force temperature))) nondimensional_force)
  /\ (forall (nondimensional_force : jarray T) (temperature : T),
     J_lennard_jones_isotensional_legendre.nondimensional_helmholtz_free_energy_per_link j nondimensional_force temperature
     = broadcast [Float64] (fun nondimensional_force =>
         Finished (Some (O_lennard_jones_isotensional_legendre.nondimensional_helmholtz_free_energy_per_link r nondimensional_force temperature))) nondimensional_force)
  /\ (forall (nondimensional_force : jarray T) (temperature : T),
     J_lennard_jones_isotensional_legendre.nondimensional_relative_helmholtz_free_energy j nondimensional_force temperature
     = broadcast [Float64] (fun nondimensional_force =>
         Finished (Some (O_lennard_jones_isotensional_legendre.nondimensional_relative_helmholtz_free_energy r nondimensional_force temperature))) nondimensional_force)
  /\ (forall (nondimensional_force : jarray T) (temperature : T),
     J_lennard_jones_isotensional_legendre.nondimensional_relative_helmholtz_free_energy_per_link j nondimensional_force temperature
     = broadcast [Float64] (fun nondimensional_force =>
         Finished (Some (O_lennard_jones_isotensional_legendre.nondimensional_relative_helmholtz_free_energy_per_link r nondimensional_force temperature))) nondimensional_force).
Proof. intros T Sc number_of_links link_length hinge_mass link_stiffness j r.
  split; [reflexivity|].
  split; [reflexivity|].
  split; [reflexivity|].
  split; [reflexivity|].
  split; [intros; cbv [j J_lennard_jones_isotensional_legendre.init J_lennard_jones_isotensional_legendre.helmholtz_free_energy]; rewrite F_lennard_jones_isotensional_legendre_helmholtz_free_energy; unfold O_lennard_jones_isotensional_legendre.helmholtz_free_energy; broadcast_numbers|].
  split; [intros; cbv [j J_lennard_jones_isotensional_legendre.init J_lennard_jones_isotensional_legendre.helmholtz_free_energy_per_link]; rewrite F_lennard_jones_isotensional_legendre_helmholtz_free_energy_per_link; unfold O_lennard_jones_isotensional_legendre.helmholtz_free_energy_per_link; broadcast_numbers|].
  split; [intros; cbv [j J_lennard_jones_isotensional_legendre.init J_lennard_jones_isotensional_legendre.relative_helmholtz_free_energy]; rewrite F_lennard_jones_isotensional_legendre_relative_helmholtz_free_energy; unfold O_lennard_jones_isotensional_legendre.relative_helmholtz_free_energy; broadcast_numbers|].
  split; [intros; cbv [j J_lennard_jones_isotensional_legendre.init J_lennard_jones_isotensional_legendre.relative_helmholtz_free_energy_per_link]; rewrite F_lennard_jones_isotensional_legendre_relative_helmholtz_free_energy_per_link; unfold O_lennard_jones_isotensional_legendre.relative_helmholtz_free_energy_per_link; broadcast_numbers|].
  split; [intros; cbv [j J_lennard_jones_isotensional_legendre.init J_lennard_jones_isotensional_legendre.nondimensional_helmholtz_free_energy]; rewrite F_lennard_jones_isotensional_legendre_nondimensional_helmholtz_free_energy; unfold O_lennard_jones_isotensional_legendre.nondimensional_helmholtz_free_energy; broadcast_numbers|].
  split; [intros; cbv [j J_lennard_jones_isotensional_legendre.init J_lennard_jones_isotensional_legendre.nondimensional_helmholtz_free_energy_per_link]; rewrite F_lennard_jones_isotensional_legendre_nondimensional_helmholtz_free_energy_per_link; unfold O_lennard_jones_isotensional_legendre.nondimensional_helmholtz_free_energy_per_link; broadcast_numbers|].
  split; [intros; cbv [j J_lennard_jones_isotensional_legendre.init J_lennard_jones_isotensional_legendre.nondimensional_relative_helmholtz_free_energy]; rewrite F_lennard_jones_isotensional_legendre_nondimensional_relative_helmholtz_free_energy; unfold O_lennard_jones_isotensional_legendre.nondimensional_relative_helmholtz_free_energy; broadcast_numbers|].
  intros; cbv [j J_lennard_jones_isotensional_legendre.init J_lennard_jones_isotensional_legendre.nondimensional_relative_helmholtz_free_energy_per_link]; rewrite F_lennard_jones_isotensional_legendre_nondimensional_relative_helmholtz_free_energy_per_link; unfold O_lennard_jones_isotensional_legendre.nondimensional_relative_helmholtz_free_energy_per_link; broadcast_numbers.
Qed.
Print Assumptions C61_object_lennard_jones_isotensional_legendre.

Theorem C61_object_log_squared_isometric_asymptotic : forall (T : Type) (Sc : Scalar T) (number_of_links : Z) (link_length : T) (hinge_mass : T) (link_stiffness : T),
  let j := J_log_squared_isometric_asymptotic.init number_of_links link_length hinge_mass link_stiffness in
  let r := O_log_squared_isometric_asymptotic.init number_of_links link_length hinge_mass link_stiffness in
  J_log_squared_isometric_asymptotic.number_of_links j = O_log_squared_isometric_asymptotic.number_of_links r
  /\ J_log_squared_isometric_asymptotic.link_length j = O_log_squared_isometric_asymptotic.link_length r
  /\ J_log_squared_isometric_asymptotic.hinge_mass j = O_log_squared_isometric_asymptotic.hinge_mass r
  /\ J_log_squared_isometric_asymptotic.link_stiffness j = O_log_squared_isometric_asymptotic.link_stiffness r
  /\ J_log_squared_isometric_asymptotic.reduced j = J_log_squared_isometric_asymptotic_reduced.init number_of_links link_length hinge_mass link_stiffness
  /\ J_log_squared_isometric_asymptotic.legendre j = J_log_squared_isometric_asymptotic_legendre.init number_of_links link_length hinge_mass link_stiffness.
Proof. intros T Sc number_of_links link_length hinge_mass link_stiffness j r.
  split; [reflexivity|].
  split; [reflexivity|].
  split; [reflexivity|].
  split; [reflexivity|].
  split; [reflexivity|].
  reflexivity.
Qed.
Print Assumptions C61_object_log_squared_isometric_asymptotic.

Theorem C61_functions_log_squared_isotensional_asymptotic : forall (T : Type) (Sc : Scalar T),
  (forall (number_of_links : jarray Z) (link_length : jarray T) (link_stiffness : jarray T) (force : jarray T) (temperature : jarray T),
     jl_log_squared_isotensional_asymptotic.end_to_end_length number_of_links link_length link_stiffness force temperature
     = broadcast [UInt8; Float64; Float64; Float64; Float64] (fun number_of_links link_length link_stiffness force temperature =>
         Finished (Some (log_squared_isotensional_asymptotic.end_to_end_length number_of_links link_length link_stiffness force temperature))) number_of_links link_length link_stiffness force temperature)
  /\ (forall (link_length : jarray T) (link_stiffness : jarray T) (force : jarray T) (temperature : jarray T),
     jl_log_squared_isotensional_asymptotic.end_to_end_length_per_link link_length link_stiffness force temperature
     = broadcast [Float64; Float64; Float64; Float64] (fun link_length link_stiffness force temperature =>
         Finished (Some (log_squared_isotensional_asymptotic.end_to_end_length_per_link link_length link_stiffness force temperature))) link_length link_stiffness force temperature)
  /\ (forall (number_of_links : jarray Z) (nondimensional_link_stiffness : jarray T) (nondimensional_force : jarray T),
     jl_log_squared_isotensional_asymptotic.nondimensional_end_to_end_length number_of_links nondimensional_link_stiffness nondimensional_force
     = broadcast [UInt8; Float64; Float64] (fun number_of_links nondimensional_link_stiffness nondimensional_force =>
         Finished (Some (log_squared_isotensional_asymptotic.nondimensional_end_to_end_length number_of_links nondimensional_link_stiffness nondimensional_force))) number_of_links nondimensional_link_stiffness nondimensional_force)
  /\ (forall (nondimensional_link_stiffness : jarray T) (nondimensional_force : jarray T),
     jl_log_squared_isotensional_asymptotic.nondimensional_end_to_end_length_per_link nondimensional_link_stiffness nondimensional_force
     = broadcast [Float64; Float64] (fun nondimensional_link_stiffness nondimensional_force =>
         Finished (Some (log_squared_isotensional_asymptotic.nondimensional_end_to_end_length_per_link nondimensional_link_stiffness nondimensional_force))) nondimensional_link_stiffness nondimensional_force)
  /\ (forall (number_of_links : jarray Z) (link_length : jarray T) (hinge_mass : jarray T) (link_stiffness : jarray T) (force : jarray T) (temperature : jarray T),
     jl_log_squared_isotensional_asymptotic.gibbs_free_energy number_of_links link_length hinge_mass link_stiffness force temperature
     = broadcast [UInt8; Float64; Float64; Float64; Float64; Float64] (fun number_of_links link_length hinge_mass link_stiffness force temperature =>
         Finished (Some (log_squared_isotensional_asymptotic.gibbs_free_energy number_of_links link_length hinge_mass link_stiffness force temperature))) number_of_links link_length hinge_mass link_stiffness force temperature)
  /\ (forall (link_length : jarray T) (hinge_mass : jarray T) (link_stiffness : jarray T) (force : jarray T) (temperature : jarray T),
     jl_log_squared_isotensional_asymptotic.gibbs_free_energy_per_link link_length hinge_mass link_stiffness force temperature
     = broadcast [Float64; Float64; Float64; Float64; Float64] (fun link_length hinge_mass link_stiffness force temperature =>
         Finished (Some (log_squared_isotensional_asymptotic.gibbs_free_energy_per_link link_length hinge_mass link_stiffness force temperature))) link_length hinge_mass link_stiffness force temperature)
  /\ (forall (number_of_links : jarray Z) (link_length : jarray T) (link_stiffness : jarray T) (force : jarray T) (temperature : jarray T),
     jl_log_squared_isotensional_asymptotic.relative_gibbs_free_energy number_of_links link_length link_stiffness force temperature
     = broadcast [UInt8; Float64; Float64; Float64; Float64] (fun number_of_links link_length link_stiffness force temperature =>
         Finished (Some (log_squared_isotensional_asymptotic.relative_gibbs_free_energy number_of_links link_length link_stiffness force temperature))) number_of_links link_length link_stiffness force temperature)
  /\ (forall (link_length : jarray T) (link_stiffness : jarray T) (force : jarray T) (temperature : jarray T),
     jl_log_squared_isotensional_asymptotic.relative_gibbs_free_energy_per_link link_length link_stiffness force temperature
     = broadcast [Float64; Float64; Float64; Float64] (fun link_length link_stiffness force temperature =>
         Finished (Some (log_squared_isotensional_asymptotic.relative_gibbs_free_energy_per_link link_length link_stiffness force temperature))) link_length link_stiffness force temperature)
  /\ (forall (number_of_links : jarray Z) (link_length : jarray T) (hinge_mass : jarray T) (nondimensional_link_stiffness : jarray T) (nondimensional_force : jarray T) (temperature : jarray T),
     jl_log_squared_isotensional_asymptotic.nondimensional_gibbs_free_energy number_of_links link_length hinge_mass nondimensional_link_stiffness nondimensional_force temperature
     = broadcast [UInt8; Float64; Float64; Float64; Float64; Float64] (fun number_of_links link_length hinge_mass nondimensional_link_stiffness nondimensional_force temperature =>
         Finished (Some (log_squared_isotensional_asymptotic.nondimensional_gibbs_free_energy number_of_links link_length hinge_mass nondimensional_link_stiffness nondimensional_force temperature))) number_of_links link_length hinge_mass nondimensional_link_stiffness nondimensional_force temperature)
  /\ (forall (link_length : jarray T) (hinge_mass : jarray T) (nondimensional_link_stiffness : jarray T) (nondimensional_force : jarray T) (temperature : jarray T),
     jl_log_squared_isotensional_asymptotic.nondimensional_gibbs_free_energy_per_link link_length hinge_mass nondimensional_link_stiffness nondimensional_force temperature
     = broadcast [Float64; Float64; Float64; Float64; Float64] (fun link_length hinge_mass nondimensional_link_stiffness nondimensional_force temperature =>
         Finished (Some (log_squared_isotensional_asymptotic.nondimensional_gibbs_free_energy_per_link link_length hinge_mass nondimensional_link_stiffness nondimensional_force temperature))) link_length hinge_mass nondimensional_link_stiffness nondimensional_force temperature)
  /\ (forall (number_of_links : jarray Z) (nondimensional_link_stiffness : jarray T) (nondimensional_force : jarray T),
     jl_log_squared_isotensional_asymptotic.nondimensional_relative_gibbs_free_energy number_of_links nondimensional_link_stiffness nondimensional_force
     = broadcast [UInt8; Float64; Float64] (fun number_of_links nondimensional_link_stiffness nondimensional_force =>
         Finished (Some (log_squared_isotensional_asymptotic.nondimensional_relative_gibbs_free_energy number_of_links nondimensional_link_stiffness nondimensional_force))) number_of_links nondimensional_link_stiffness nondimensional_force)
  /\ (forall (nondimensional_link_stiffness : jarray T) (nondimensional_force : jarray T),
     jl_log_squared_isotensional_asymptotic.nondimensional_relative_gibbs_free_energy_per_link nondimensional_link_stiffness nondimensional_force
     = broadcast [Float64; Float64] (fun nondimensional_link_stiffness nondimensional_force =>
         Finished (Some (log_squared_isotensional_asymptotic.nondimensional_relative_gibbs_free_energy_per_link nondimensional_link_stiffness nondimensional_force))) nondimensional_link_stiffness nondimensional_force).
Proof.
  exact (fun T Sc => conj (@F_log_squared_isotensional_asymptotic_end_to_end_length T Sc)
    (conj (@F_log_squared_isotensional_asymptotic_end_to_end_length_per_link T Sc)
    (conj (@F_log_squared_isotensional_asymptotic_nondimensional_end_to_end_length T Sc)
    (conj (@F_log_squared_isotensional_asymptotic_nondimensional_end_to_end_length_per_link T Sc)
    (conj (@F_log_squared_isotensional_asymptotic_gibbs_free_energy T Sc)
    (conj (@F_log_squared_isotensional_asymptotic_gibbs_free_energy_per_link T Sc)
    (conj (@F_log_squared_isotensional_asymptotic_relative_gibbs_free_energy T Sc)
    (conj (@F_log_squared_isotensional_asymptotic_relative_gibbs_free_energy_per_link T Sc)
    (conj (@F_log_squared_isotensional_asymptotic_nondimensional_gibbs_free_energy T Sc)
    (conj (@F_log_squared_isotensional_asymptotic_nondimensional_gibbs_free_energy_per_link T Sc)
    (conj (@F_log_squared_isotensional_asymptotic_nondimensional_relative_gibbs_free_energy T Sc)
    (@F_log_squared_isotensional_asymptotic_nondimensional_relative_gibbs_free_energy_per_link T Sc)))))))))))).
Qed.
Print Assumptions C61_functions_log_squared_isotensional_asymptotic.

Theorem C61_object_log_squared_isotensional_asymptotic : forall (T : Type) (Sc : Scalar T) (number_of_links : Z) (link_length : T) (hinge_mass : T) (link_stiffness : T),
  let j := J_log_squared_isotensional_asymptotic.init number_of_links link_length hinge_mass link_stiffness in
  let r := O_log_squared_isotensional_asymptotic.init number_of_links link_length hinge_mass link_stiffness in
  J_log_squared_isotensional_asymptotic.number_of_links j = O_log_squared_isotensional_asymptotic.number_of_links r
  /\ J_log_squared_isotensional_asymptotic.link_length j = O_log_squared_isotensional_asymptotic.link_length r
  /\ J_log_squared_isotensional_asymptotic.hinge_mass j = O_log_squared_isotensional_asymptotic.hinge_mass r
  /\ J_log_squared_isotensional_asymptotic.link_stiffness j = O_log_squared_isotensional_asymptotic.link_stiffness r
  /\ J_log_squared_isotensional_asymptotic.reduced j = J_log_squared_isotensional_asymptotic_reduced.init number_of_links link_length hinge_mass link_stiffness
  /\ J_log_squared_isotensional_asymptotic.legendre j = J_log_squared_isotensional_asymptotic_legendre.init number_of_links link_length hinge_mass link_stiffness
  /\ (forall (force : jarray T) (temperature : jarray T),
     J_log_squared_isotensional_asymptotic.end_to_end_length j force temperature
     = broadcast [Float64; Float64] (fun force temperature =>
         Finished (Some (O_log_squared_isotensional_asymptotic.end_to_end_length r force temperature))) force temperature)
  /\ (forall (force : jarray T) (temperature : jarray T),
     J_log_squared_isotensional_asymptotic.end_to_end_length_per_link j force temperature
     = broadcast [Float64; Float64] (fun force temperature =>
         Finished (Some (O_log_squared_isotensional_asymptotic.end_to_end_length_per_link r force temperature))) force temperature)
  /\ (forall (nondimensional_force : jarray T) (temperature : T),
     J_log_squared_isotensional_asymptotic.nondimensional_end_to_end_length j nondimensional_force temperature
     = broadcast [Float64] (fun nondimensional_force =>
         Finished (Some (O_log_squared_isotensional_asymptotic.nondimensional_end_to_end_length r nondimensional_force temperature))) nondimensional_force)
  /\ (forall (nondimensional_force : jarray T) (temperature : T),
     J_log_squared_isotensional_asymptotic.nondimensional_end_to_end_length_per_link j nondimensional_force temperature
     = broadcast [Float64] (fun nondimensional_force =>
         Finished (Some (O_log_squared_isotensional_asymptotic.nondimensional_end_to_end_length_per_link r nondimensional_force temperature))) nondimensional_force)
  /\ (forall (force : jarray T) (temperature : jarray T),
     J_log_squared_isotensional_asymptotic.gibbs_free_energy j force temperature
     = broadcast [Float64; Float64] (fun force temperature =>
         Finished (Some (O_log_squared_isotensional_asymptotic.gibbs_free_energy r force temperature))) force temperature)
  /\ (forall (force : jarray T) (temperature : jarray T),
     J_log_squared_isotensional_asymptotic.gibbs_free_energy_per_link j force temperature
     = broadcast [Float64; Float64] (fun force temperature =>
         Finished (Some (O_log_squared_isotensional_asymptotic.gibbs_free_energy_per_link r force temperature))) force temperature)
  /\ (forall (force : jarray T) (temperature : jarray T),
     J_log_squared_isotensional_asymptotic.relative_gibbs_free_energy j force temperature
     = broadcast [Float64; Float64] (fun force temperature =>
         Finished (Some (O_log_squared_isotensional_asymptotic.relative_gibbs_free_energy r force temperature))) force temperature)
  /\ (forall (force : jarray T) (temperature : jarray T),
     J_log_squared_isotensional_asymptotic.relative_gibbs_free_energy_per_link j force temperature
     = broadcast [Float64; Float64] (fun force temperature =>
         Finished (Some (O_log_squared_isotensional_asymptotic.relative_gibbs_free_energy_per_link r force temperature))) force temperature)
  /\ (forall (nondimensional_force : jarray T) (temperature : T),
     J_log_squared_isotensional_asymptotic.nondimensional_gibbs_free_energy j nondimensional_force temperature
     = broadcast [Float64] (fun nondimensional_force =>
         Finished (Some (O_log_squared_isotensional_asymptotic.nondimensional_gibbs_free_energy r nondimensional_force temperature))) nondimensional_force)
  /\ (forall (nondimensional_force : jarray T) (temperature : T),
     J_log_squared_isotensional_asymptotic.nondimensional_gibbs_free_energy_per_link j nondimensional_force temperature
     = broadcast [Float64] (fun nondimensional_force =>
         Finished (Some (O_log_squared_isotensional_asymptotic.nondimensional_gibbs_free_energy_per_link r nondimensional_force temperature))) nondimensional_force)
  /\ (forall (nondimensional_force : jarray T) (temperature : T),
     J_log_squared_isotensional_asymptotic.nondimensional_relative_gibbs_free_energy j nondimensional_force temperature
     = broadcast [Float64] (fun nondimensional_force =>
         Finished (Some (O_log_squared_isotensional_asymptotic.nondimensional_relative_gibbs_free_energy r nondimensional_force temperature))) nondimensional_force)
  /\ (forall (nondimensional_force : jarray T) (temperature : T),
     J_log_squared_isotensional_asymptotic.nondimensional_relative_gibbs_free_energy_per_link j nondimensional_force temperature
     = broadcast [Float64] (fun nondimensional_force =>
         Finished (Some (O_log_squared_isotensional_asymptotic.nondimensional_relative_gibbs_free_energy_per_link r nondimensional_force temperature))) nondimensional_force).
Proof. intros T Sc number_of_links link_length hinge_mass link_stiffness j r.
  split; [reflexivity|].
  split; [reflexivity|].
  split; [reflexivity|].
  split; [reflexivity|].
  split; [reflexivity|].
  split; [reflexivity|].
  split; [intros; cbv [j J_log_squared_isotensional_asymptotic.init J_log_squared_isotensional_asymptotic.end_to_end_length]; rewrite F_log_squared_isotensional_asymptotic_end_to_end_length; unfold O_log_squared_isotensional_asymptotic.end_to_end_length; broadcast_numbers|].
  split; [intros; cbv [j J_log_squared_isotensional_asymptotic.init J_log_squared_isotensional_asymptotic.end_to_end_length_per_link]; rewrite F_log_squared_isotensional_asymptotic_end_to_end_length_per_link; unfold O_log_squared_isotensional_asymptotic.end_to_end_length_per_link; broadcast_numbers|].
  split; [intros; cbv [j J_log_squared_isotensional_asymptotic.init J_log_squared_isotensional_asymptotic.nondimensional_end_to_end_length]; rewrite F_log_squared_isotensional_asymptotic_nondimensional_end_to_end_length; unfold O_log_squared_isotensional_asymptotic.nondimensional_end_to_end_length; broadcast_numbers|].
  split; [intros; cbv [j J_log_squared_isotensional_asymptotic.init J_log_squared_isotensional_asymptotic.nondimensional_end_to_end_length_per_link]; rewrite F_log_squared_isotensional_asymptotic_nondimensional_end_to_end_length_per_link; unfold O_log_squared_isotensional_asymptotic.nondimensional_end_to_end_length_per_link; broadcast_numbers|].
  split; [intros; cbv [j J_log_squared_isotensional_asymptotic.init J_log_squared_isotensional_asymptotic.gibbs_free_energy]; rewrite F_log_squared_isotensional_asymptotic_gibbs_free_energy; unfold O_log_squared_isotensional_asymptotic.gibbs_free_energy; broadcast_numbers|].
  split; [intros; cbv [j J_log_squared_isotensional_asymptotic.init J_log_squared_isotensional_asymptotic.gibbs_free_energy_per_link]; rewrite F_log_squared_isotensional_asymptotic_gibbs_free_energy_per_link; unfold O_log_squared_isotensional_asymptotic.gibbs_free_energy_per_link; broadcast_numbers|].
  split; [intros; cbv [j J_log_squared_isotensional_asymptotic.init J_log_squared_isotensional_asymptotic.relative_gibbs_free_energy]; rewrite F_log_squared_isotensional_asymptotic_relative_gibbs_free_energy; unfold O_log_squared_isotensional_asymptotic.relative_gibbs_free_energy; broadcast_numbers|].
  split; [intros; cbv [j J_log_squared_isotensional_asymptotic.init J_log_squared_isotensional_asymptotic.relative_gibbs_free_energy_per_link]; rewrite F_log_squared_isotensional_asymptotic_relative_gibbs_free_energy_per_link; unfold O_log_squared_isotensional_asymptotic.relative_gibbs_free_energy_per_link; broadcast_numbers|].
  split; [intros; cbv [j J_log_squared_isotensional_asymptotic.init J_log_squared_isotensional_asymptotic.nondimensional_gibbs_free_energy]; rewrite F_log_squared_isotensional_asymptotic_nondimensional_gibbs_free_energy; unfold O_log_squared_isotensional_asymptotic.nondimensional_gibbs_free_energy; broadcast_numbers|].
  split; [intros; cbv [j J_log_squared_isotensional_asymptotic.init J_log_squared_isotensional_asymptotic.nondimensional_gibbs_free_energy_per_link]; rewrite F_log_squared_isotensional_asymptotic_nondimensional_gibbs_free_energy_per_link; unfold O_log_squared_isotensional_asymptotic.nondimensional_gibbs_free_energy_per_link; broadcast_numbers|].
  split; [intros; cbv [j J_log_squared_isotensional_asymptotic.init J_log_squared_isotensional_asymptotic.nondimensional_relative_gibbs_free_energy]; rewrite F_log_squared_isotensional_asymptotic_nondimensional_relative_gibbs_free_energy; unfold O_log_squared_isotensional_asymptotic.nondimensional_relative_gibbs_free_energy; broadcast_numbers|].
  intros; cbv [j J_log_squared_isotensional_asymptotic.init J_log_squared_isotensional_asymptotic.nondimensional_relative_gibbs_free_energy_per_link]; rewrite F_log_squared_isotensional_asymptotic_nondimensional_relative_gibbs_free_energy_per_link; unfold O_log_squared_isotensional_asymptotic.nondimensional_relative_gibbs_free_energy_per_link; broadcast_numbers.
Qed.
Print Assumptions C61_object_log_squared_isotensional_asymptotic.

Theorem C61_functions_log_squared_isotensional_legendre : forall (T : Type) (Sc : Scalar T),
  (forall (number_of_links : jarray Z) (link_length : jarray T) (hinge_mass : jarray T) (link_stiffness : jarray T) (force : jarray T) (temperature : jarray T),
     jl_log_squared_isotensional_legendre.helmholtz_free_energy number_of_links link_length hinge_mass link_stiffness force temperature
     = broadcast [UInt8; Float64; Float64; Float64; Float64; Float64] (fun number_of_links link_length hinge_mass link_stiffness force temperature =>
         Finished (Some (log_squared_isotensional_legendre.helmholtz_free_energy number_of_links link_length hinge_mass link_stiffness force temperature))) number_of_links link_length hinge_mass link_stiffness force temperature)
  /\ (forall (link_length : jarray T) (hinge_mass : jarray T) (link_stiffness : jarray T) (force : jarray T) (temperature : jarray T),
     jl_log_squared_isotensional_legendre.helmholtz_free_energy_per_link link_length hinge_mass link_stiffness force temperature
     = broadcast [Float64; Float64; Float64; Float64; Float64] (fun link_length hinge_mass link_stiffness force temperature =>
         Finished (Some (log_squared_isotensional_legendre.helmholtz_free_energy_per_link link_length hinge_mass link_stiffness force temperature))) link_length hinge_mass link_stiffness force temperature)
  /\ (forall (number_of_links : jarray Z) (link_length : jarray T) (link_stiffness : jarray T) (force : jarray T) (temperature : jarray T),
     jl_log_squared_isotensional_legendre.relative_helmholtz_free_energy number_of_links link_length link_stiffness force temperature
     = broadcast [UInt8; Float64; Float64; Float64; Float64] (fun number_of_links link_length link_stiffness force temperature =>
         Finished (Some (log_squared_isotensional_legendre.relative_helmholtz_free_energy number_of_links link_length link_stiffness force temperature))) number_of_links link_length link_stiffness force temperature)
  /\ (forall (link_length : jarray T) (link_stiffness : jarray T) (force : jarray T) (temperature : jarray T),
     jl_log_squared_isotensional_legendre.relative_helmholtz_free_energy_per_link link_length link_stiffness force temperature
     = broadcast [Float64; Float64; Float64; Float64] (fun link_length link_stiffness force temperature =>
         Finished (Some (log_squared_isotensional_legendre.relative_helmholtz_free_energy_per_link link_length link_stiffness force temperature))) link_length link_stiffness force temperature)
  /\ (forall (number_of_links : jarray Z) (link_length : jarray T) (hinge_mass : jarray T) (nondimensional_link_stiffness : jarray T) (nondimensional_force : jarray T) (temperature : jarray T),
     jl_log_squared_isotensional_legendre.nondimensional_helmholtz_free_energy number_of_links link_length hinge_mass nondimensional_link_stiffness nondimensional_force temperature
     = broadcast [UInt8; Float64; Float64; Float64; Float64; Float64] (fun number_of_links link_length hinge_mass nondimensional_link_stiffness nondimensional_force temperature =>
         Finished (Some (log_squared_isotensional_legendre.nondimensional_helmholtz_free_energy number_of_links link_length hinge_mass nondimensional_link_stiffness nondimensional_force temperature))) number_of_links link_length hinge_mass nondimensional_link_stiffness nondimensional_force temperature)
  /\ (forall (link_length : jarray T) (hinge_mass : jarray T) (nondimensional_link_stiffness : jarray T) (nondimensional_force : jarray T) (temperature : jarray T),
     jl_log_squared_isotensional_legendre.nondimensional_helmholtz_free_energy_per_link link_length hinge_mass nondimensional_link_stiffness nondimensional_force temperature
     = broadcast [Float64; Float64; Float64; Float64; Float64] (fun link_length hinge_mass nondimensional_link_stiffness nondimensional_force temperature =>
         Finished (Some (log_squared_isotensional_legendre.nondimensional_helmholtz_free_energy_per_link link_length hinge_mass nondimensional_link_stiffness nondimensional_force temperature))) link_length hinge_mass nondimensional_link_stiffness nondimensional_force temperature)
  /\ (forall (number_of_links : jarray Z) (nondimensional_link_stiffness : jarray T) (nondimensional_force : jarray T),
     jl_log_squared_isotensional_legendre.nondimensional_relative_helmholtz_free_energy number_of_links nondimensional_link_stiffness nondimensional_force
     = broadcast [UInt8; Float64; Float64] (fun number_of_links nondimensional_link_stiffness nondimensional_force =>
         Finished (Some (log_squared_isotensional_legendre.nondimensional_relative_helmholtz_free_energy number_of_links nondimensional_link_stiffness nondimensional_force))) number_of_links nondimensional_link_stiffness nondimensional_force)
  /\ (forall (nondimensional_link_stiffness : jarray T) (nondimensional_force : jarray T),
     jl_log_squared_isotensional_legendre.nondimensional_relative_helmholtz_free_energy_per_link nondimensional_link_stiffness nondimensional_force
     = broadcast [Float64; Float64] (fun nondimensional_link_stiffness nondimensional_force =>
         Finished (Some (log_squared_isotensional_legendre.nondimensional_relative_helmholtz_free_energy_per_link nondimensional_link_stiffness nondimensional_force))) nondimensional_link_stiffness nondimensional_force).
Proof.
  exact (fun T Sc => conj (@F_log_squared_isotensional_legendre_helmholtz_free_energy T Sc)
    (conj (@F_log_squared_isotensional_legendre_helmholtz_free_energy_per_link T Sc)
    (conj (@F_log_squared_isotensional_legendre_relative_helmholtz_free_energy T Sc)
    (conj (@F_log_squared_isotensional_legendre_relative_helmholtz_free_energy_per_link T Sc)
    (conj (@F_log_squared_isotensional_legendre_nondimensional_helmholtz_free_energy T Sc)
    (conj (@F_log_squared_isotensional_legendre_nondimensional_helmholtz_free_energy_per_link T Sc)
    (conj (@F_log_squared_isotensional_legendre_nondimensional_relative_helmholtz_free_energy T Sc)
    (@F_log_squared_isotensional_legendre_nondimensional_relative_helmholtz_free_energy_per_link T Sc)))))))).
Qed.
Print Assumptions C61_functions_log_squared_isotensional_legendre.

Theorem C61_object_log_squared_isotensional_legendre : forall (T : Type) (Sc : Scalar T) (number_of_links : Z) (link_length : T) (hinge_mass : T) (link_stiffness : T),
  let j := J_log_squared_isotensional_legendre.init number_of_links link_length hinge_mass link_stiffness in
  let r := O_log_squared_isotensional_legendre.init number_of_links link_length hinge_mass link_stiffness in
  J_log_squared_isotensional_legendre.number_of_links j = O_log_squared_isotensional_legendre.number_of_links r
  /\ J_log_squared_isotensional_legendre.link_length j = O_log_squared_isotensional_legendre.link_length r
  /\ J_log_squared_isotensional_legendre.hinge_mass j = O_log_squared_isotensional_legendre.hinge_mass r
  /\ J_log_squared_isotensional_legendre.link_stiffness j = O_log_squared_isotensional_legendre.link_stiffness r
  /\ (forall (force : jarray T) (temperature : jarray T),
     J_log_squared_isotensional_legendre.helmholtz_free_energy j force temperature
     = broadcast [Float64; Float64] (fun force temperature =>
         Finished (Some (O_log_squared_isotensional_legendre.helmholtz_free_energy r force temperature))) force temperature)
  /\ (forall (force : jarray T) (temperature : jarray T),
     J_log_squared_isotensional_legendre.helmholtz_free_energy_per_link j force temperature
     = broadcast [Float64; Float64] (fun force temperature =>
         Finished (Some (O_log_squared_isotensional_legendre.helmholtz_free_energy_per_link r force temperature))) force temperature)
  /\ (forall (force : jarray T) (temperature : jarray T),
     J_log_squared_isotensional_legendre.relative_helmholtz_free_energy j force temperature
     = broadcast [Float64; Float64] (fun force temperature =>
         Finished (Some (O_log_squared_isotensional_legendre.relative_helmholtz_free_energy r force temperature))) force temperature)
  /\ (forall (force : jarray T) (temperature : jarray T),
     J_log_squared_isotensional_legendre.relative_helmholtz_free_energy_per_link j force temperature
     = broadcast [Float64; Float64] (fun force temperature =>
         Finished (Some (O_log_squared_isotensional_legendre.relative_helmholtz_free_energy_per_link r force temperature))) force temperature)
  /\ (forall (nondimensional_force : jarray T) (temperature : T),
     J_log_squared_isotensional_legendre.nondimensional_helmholtz_free_energy j nondimensional_force temperature
     = broadcast [Float64] (fun nondimensional_force =>
         Finished (Some (O_log_squared_isotensional_legendre.nondimensional_helmholtz_free_energy r nondimensional_force temperature))) nondimensional_force)
  /\ (forall (nondimensional_force : jarray T) (temperature : T),
     J_log_squared_isotensional_legendre.nondimensional_helmholtz_free_energy_per_link j nondimensional_force temperature
     = broadcast [Float64] (fun nondimensional_force =>
         Finished (Some (O_log_squared_isotensional_legendre.nondimensional_helmholtz_free_energy_per_link r nondimensional_force temperature))) nondimensional_force)
  /\ (forall (nondimensional_force : jarray T) (temperature : T),
     J_log_squared_isotensional_legendre.nondimensional_relative_helmholtz_free_energy j nondimensional_force temperature
     = broadcast [Float64] (fun nondimensional_force =>
         Finished (Some (O_log_squared_isotensional_legendre.nondimensional_relative_helmholtz_free_energy r nondimensional_force temperature))) nondimensional_force)
  /\ (forall (nondimensional_force : jarray T) (temperature : T),
     J_log_squared_isotensional_legendre.nondimensional_relative_helmholtz_free_energy_per_link j nondimensional_force temperature
     = broadcast [Float64] (fun nondimensional_force =>
         Finished (Some (O_log_squared_isotensional_legendre.nondimensional_relative_helmholtz_free_energy_per_link r nondimensional_force temperature))) nondimensional_force).
Proof. intros T Sc number_of_links link_length hinge_mass link_stiffness j r.
  split; [reflexivity|].
  split; [reflexivity|].
  split; [reflexivity|].
  split; [reflexivity|].
  split; [intros; cbv [j J_log_squared_isotensional_legendre.init J_log_squared_isotensional_legendre.helmholtz_free_energy]; rewrite F_log_squared_isotensional_legendre_helmholtz_free_energy; unfold O_log_squared_isotensional_legendre.helmholtz_free_energy; broadcast_numbers|].
  split; [intros; cbv [j J_log_squared_isotensional_legendre.init J_log_squared_isotensional_legendre.helmholtz_free_energy_per_link]; rewrite F_log_squared_isotensional_legendre_helmholtz_free_energy_per_link; unfold O_log_squared_isotensional_legendre.helmholtz_free_energy_per_link; broadcast_numbers|].
  split; [intros; cbv [j J_log_squared_isotensional_legendre.init J_log_squared_isotensional_legendre.relative_helmholtz_free_energy]; rewrite F_log_squared_isotensional_legendre_relative_helmholtz_free_energy; unfold O_log_squared_isotensional_legendre.relative_helmholtz_free_energy; broadcast_numbers|].
  split; [intros; cbv [j J_log_squared_isotensional_legendre.init J_log_squared_isotensional_legendre.relative_helmholtz_free_energy_per_link]; rewrite F_log_squared_isotensional_legendre_relative_helmholtz_free_energy_per_link; unfold O_log_squared_isotensional_legendre.relative_helmholtz_free_energy_per_link; broadcast_numbers|].
  split; [intros; cbv [j J_log_squared_isotensional_legendre.init J_log_squared_isotensional_legendre.nondimensional_helmholtz_free_energy]; rewrite F_log_squared_isotensional_legendre_nondimensional_helmholtz_free_energy; unfold O_log_squared_isotensional_legendre.nondimensional_helmholtz_free_energy; broadcast_numbers|].
  split; [intros; cbv [j J_log_squared_isotensional_legendre.init J_log_squared_isotensional_legendre.nondimensional_helmholtz_free_energy_per_link]; rewrite F_log_squared_isotensional_legendre_nondimensional_helmholtz_free_energy_per_link; unfold O_log_squared_isotensional_legendre.nondimensional_helmholtz_free_energy_per_link; broadcast_numbers|].
  split; [intros; cbv [j J_log_squared_isotensional_legendre.init J_log_squared_isotensional_legendre.nondimensional_relative_helmholtz_free_energy]; rewrite F_log_squared_isotensional_legendre_nondimensional_relative_helmholtz_free_energy; unfold O_log_squared_isotensional_legendre.nondimensional_relative_helmholtz_free_energy; broadcast_numbers|].
  intros; cbv [j J_log_squared_isotensional_legendre.init J_log_squared_isotensional_legendre.nondimensional_relative_helmholtz_free_energy_per_link]; rewrite F_log_squared_isotensional_legendre_nondimensional_relative_helmholtz_free_energy_per_link; unfold O_log_squared_isotensional_legendre.nondimensional_relative_helmholtz_free_energy_per_link; broadcast_numbers.
Qed.
Print Assumptions C61_object_log_squared_isotensional_legendre.

Theorem C61_object_morse_isometric_asymptotic : forall (T : Type) (Sc : Scalar T) (number_of_links : Z) (link_length : T) (hinge_mass : T) (link_stiffness : T) (link_energy : T),
  let j := J_morse_isometric_asymptotic.init number_of_links link_length hinge_mass link_stiffness link_energy in
  let r := O_morse_isometric_asymptotic.init number_of_links link_length hinge_mass link_stiffness link_energy in
  J_morse_isometric_asymptotic.number_of_links j = O_morse_isometric_asymptotic.number_of_links r
  /\ J_morse_isometric_asymptotic.link_length j = O_morse_isometric_asymptotic.link_length r
  /\ J_morse_isometric_asymptotic.hinge_mass j = O_morse_isometric_asymptotic.hinge_mass r
  /\ J_morse_isometric_asymptotic.link_stiffness j = O_morse_isometric_asymptotic.link_stiffness r
  /\ J_morse_isometric_asymptotic.link_energy j = O_morse_isometric_asymptotic.link_energy r
  /\ J_morse_isometric_asymptotic.reduced j = J_morse_isometric_asymptotic_reduced.init number_of_links link_length hinge_mass link_stiffness link_energy
  /\ J_morse_isometric_asymptotic.legendre j = J_morse_isometric_asymptotic_legendre.init number_of_links link_length hinge_mass link_stiffness link_energy.
Proof. intros T Sc number_of_links link_length hinge_mass link_stiffness link_energy j r.
  split; [reflexivity|].
  split; [reflexivity|].
  split; [reflexivity|].
  split; [reflexivity|].
  split; [reflexivity|].
  split; [reflexivity|].
  reflexivity.
Qed.
Print Assumptions C61_object_morse_isometric_asymptotic.

Theorem C61_functions_morse_isotensional_asymptotic : forall (T : Type) (Sc : Scalar T),
  (forall (number_of_links : jarray Z) (link_length : jarray T) (link_stiffness : jarray T) (link_energy : jarray T) (force : jarray T) (temperature : jarray T),
     jl_morse_isotensional_asymptotic.end_to_end_length number_of_links link_length link_stiffness link_energy force temperature
     = broadcast [UInt8; Float64; Float64; Float64; Float64; Float64] (fun number_of_links link_length link_stiffness link_energy force temperature =>
         Finished (Some (morse_isotensional_asymptotic.end_to_end_length number_of_links link_length link_stiffness link_energy force temperature))) number_of_links link_length link_stiffness link_energy force temperature)
  /\ (forall (link_length : jarray T) (link_stiffness : jarray T) (link_energy : jarray T) (force : jarray T) (temperature : jarray T),
     jl_morse_isotensional_asymptotic.end_to_end_length_per_link link_length link_stiffness link_energy force temperature
     = broadcast [Float64; Float64; Float64; Float64; Float64] (fun link_length link_stiffness link_energy force temperature =>
         Finished (Some (morse_isotensional_asymptotic.end_to_end_length_per_link link_length link_stiffness link_energy force temperature))) link_length link_stiffness link_energy force temperature)
  /\ (forall (number_of_links : jarray Z) (nondimensional_link_stiffness : jarray T) (nondimensional_link_energy : jarray T) (nondimensional_force : jarray T),
     jl_morse_isotensional_asymptotic.nondimensional_end_to_end_length number_of_links nondimensional_link_stiffness nondimensional_link_energy nondimensional_force
     = broadcast [UInt8; Float64; Float64; Float64] (fun number_of_links nondimensional_link_stiffness nondimensional_link_energy nondimensional_force =>
         Finished (Some (morse_isotensional_asymptotic.nondimensional_end_to_end_length number_of_links nondimensional_link_stiffness nondimensional_link_energy nondimensional_force))) number_of_links nondimensional_link_stiffness nondimensional_link_energy nondimensional_force)
  /\ (forall (nondimensional_link_stiffness : jarray T) (nondimensional_link_energy : jarray T) (nondimensional_force : jarray T),
     jl_morse_isotensional_asymptotic.nondimensional_end_to_end_length_per_link nondimensional_link_stiffness nondimensional_link_energy nondimensional_force
     = broadcast [Float64; Float64; Float64] (fun nondimensional_link_stiffness nondimensional_link_energy nondimensional_force =>
         Finished (Some (morse_isotensional_asymptotic.nondimensional_end_to_end_length_per_link nondimensional_link_stiffness nondimensional_link_energy nondimensional_force))) nondimensional_link_stiffness nondimensional_link_energy nondimensional_force)
  /\ (forall (number_of_links : jarray Z) (link_length : jarray T) (hinge_mass : jarray T) (link_stiffness : jarray T) (link_energy : jarray T) (force : jarray T) (temperature : jarray T),
     jl_morse_isotensional_asymptotic.gibbs_free_energy number_of_links link_length hinge_mass link_stiffness link_energy force temperature
     = broadcast [UInt8; Float64; Float64; Float64; Float64; Float64; Float64] (fun number_of_links link_length hinge_mass link_stiffness link_energy force temperature =>
         Finished (Some (morse_isotensional_asymptotic.gibbs_free_energy number_of_links link_length hinge_mass link_stiffness link_energy force temperature))) number_of_links link_length hinge_mass link_stiffness link_energy force temperature)
  /\ (forall (link_length : jarray T) (hinge_mass : jarray T) (link_stiffness : jarray T) (link_energy : jarray T) (force : jarray T) (temperature : jarray T),
     jl_morse_isotensional_asymptotic.gibbs_free_energy_per_link link_length hinge_mass link_stiffness link_energy force temperature
     = broadcast [Float64; Float64; Float64; Float64; Float64; Float64] (fun link_length hinge_mass link_stiffness link_energy force temperature =>
         Finished (Some (morse_isotensional_asymptotic.gibbs_free_energy_per_link link_length hinge_mass link_stiffness link_energy force temperature))) link_length hinge_mass link_stiffness link_energy force temperature)
  /\ (forall (number_of_links : jarray Z) (link_length : jarray T) (link_stiffness : jarray T) (link_energy : jarray T) (force : jarray T) (temperature : jarray T),
     jl_morse_isotensional_asymptotic.relative_gibbs_free_energy number_of_links link_length link_stiffness link_energy force temperature
     = broadcast [UInt8; Float64; Float64; Float64; Float64; Float64] (fun number_of_links link_length link_stiffness link_energy force temperature =>
         Finished (Some (morse_isotensional_asymptotic.relative_gibbs_free_energy number_of_links link_length link_stiffness link_energy force temperature))) number_of_links link_length link_stiffness link_energy force temperature)
  /\ (forall (link_length : jarray T) (link_stiffness : jarray T) (link_energy : jarray T) (force : jarray T) (temperature : jarray T),
     jl_morse_isotensional_asymptotic.relative_gibbs_free_energy_per_link link_length link_stiffness link_energy force temperature
     = broadcast [Float64; Float64; Float64; Float64; Float64] (fun link_length link_stiffness link_energy force temperature =>
         Finished (Some (morse_isotensional_asymptotic.relative_gibbs_free_energy_per_link link_length link_stiffness link_energy force temperature))) link_length link_stiffness link_energy force temperature)
  /\ (forall (number_of_links : jarray Z) (link_length : jarray T) (hinge_mass : jarray T) (nondimensional_link_stiffness : jarray T) (nondimensional_link_energy : jarray T) (nondimensional_force : jarray T) (temperature : jarray T),
     jl_morse_isotensional_asymptotic.nondimensional_gibbs_free_energy number_of_links link_length hinge_mass nondimensional_link_stiffness nondimensional_link_energy nondimensional_force temperature
     = broadcast [UInt8; Float64; Float64; Float64; Float64; Float64; Float64] (fun number_of_links link_length hinge_mass nondimensional_link_stiffness nondimensional_link_energy nondimensional_force temperature =>
         Finished (Some (morse_isotensional_asymptotic.nondimensional_gibbs_free_energy number_of_links link_length hinge_mass nondimensional_link_stiffness nondimensional_link_energy nondimensional_force temperature))) number_of_links link_length hinge_mass nondimensional_link_stiffness nondimensional_link_energy nondimensional_force temperature)
  /\ (forall (link_length : jarray T) (hinge_mass : jarray T) (nondimensional_link_stiffness : jarray T) (nondimensional_link_energy : jarray T) (nondimensional_force : jarray T) (temperature : jarray T),
     jl_morse_isotensional_asymptotic.nondimensional_gibbs_free_energy_per_link link_length hinge_mass nondimensional_link_stiffness nondimensional_link_energy nondimensional_force temperature
     = broadcast [Float64; Float64; Float64; Float64; Float64; Float64] (fun link_length hinge_mass nondimensional_link_stiffness nondimensional_link_energy nondimensional_force temperature =>
         Finished (Some (morse_isotensional_asymptotic.nondimensional_gibbs_free_energy_per_link link_length hinge_mass nondimensional_link_stiffness nondimensional_link_energy nondimensional_force temperature))) link_length hinge_mass nondimensional_link_stiffness nondimensional_link_energy nondimensional_force temperature)
  /\ (forall (number_of_links : jarray Z) (nondimensional_link_stiffness : jarray T) (nondimensional_link_energy : jarray T) (nondimensional_force : jarray T),
     jl_morse_isotensional_asymptotic.nondimensional_relative_gibbs_free_energy number_of_links nondimensional_link_stiffness nondimensional_link_energy nondimensional_force
     = broadcast [UInt8; Float64; Float64; Float64] (fun number_of_links nondimensional_link_stiffness nondimensional_link_energy nondimensional_force =>
         Finished (Some (morse_isotensional_asymptotic.nondimensional_relative_gibbs_free_energy number_of_links nondimensional_link_stiffness nondimensional_link_energy nondimensional_force))) number_of_links nondimensional_link_stiffness nondimensional_link_energy nondimensional_force)
  /\ (forall (nondimensional_link_stiffness : jarray T) (nondimensional_link_energy : jarray T) (nondimensional_force : jarray T),
     jl_morse_isotensional_asymptotic.nondimensional_relative_gibbs_free_energy_per_link nondimensional_link_stiffness nondimensional_link_energy nondimensional_force
     = broadcast [Float64; Float64; Float64] (fun nondimensional_link_stiffness nondimensional_link_energy nondimensional_force =>
         Finished (Some (morse_isotensional_asymptotic.nondimensional_relative_gibbs_free_energy_per_link nondimensional_link_stiffness nondimensional_link_energy nondimensional_force))) nondimensional_link_stiffness nondimensional_link_energy nondimensional_force).
Proof.
  exact (fun T Sc => conj (@F_morse_isotensional_asymptotic_end_to_end_length T Sc)
    (conj (@F_morse_isotensional_asymptotic_end_to_end_length_per_link T Sc)
    (conj (@F_morse_isotensional_asymptotic_nondimensional_end_to_end_length T Sc)
    (conj (@F_morse_isotensional_asymptotic_nondimensional_end_to_end_length_per_link T Sc)
    (conj (@F_morse_isotensional_asymptotic_gibbs_free_energy T Sc)
    (conj (@F_morse_isotensional_asymptotic_gibbs_free_energy_per_link T Sc)
    (conj (@F_morse_isotensional_asymptotic_relative_gibbs_free_energy T Sc)
    (conj (@F_morse_isotensional_asymptotic_relative_gibbs_free_energy_per_link T Sc)
    (conj (@F_morse_isotensional_asymptotic_nondimensional_gibbs_free_energy T Sc)
    (conj (@F_morse_isotensional_asymptotic_nondimensional_gibbs_free_energy_per_link T Sc)
    (conj (@F_morse_isotensional_asymptotic_nondimensional_relative_gibbs_free_energy T Sc)
    (@F_morse_isotensional_asymptotic_nondimensional_relative_gibbs_free_energy_per_link T Sc)))))))))))).
Qed.
Print Assumptions C61_functions_morse_isotensional_asymptotic.

Theorem C61_object_morse_isotensional_asymptotic : forall (T : Type) (Sc : Scalar T) (number_of_links : Z) (link_length : T) (hinge_mass : T) (link_stiffness : T) (link_energy : T),
  let j := J_morse_isotensional_asymptotic.init number_of_links link_length hinge_mass link_stiffness link_energy in
  let r := O_morse_isotensional_asymptotic.init number_of_links link_length hinge_mass link_stiffness link_energy in
  J_morse_isotensional_asymptotic.number_of_links j = O_morse_isotensional_asymptotic.number_of_links r
  /\ J_morse_isotensional_asymptotic.link_length j = O_morse_isotensional_asymptotic.link_length r
  /\ J_morse_isotensional_asymptotic.hinge_mass j = O_morse_isotensional_asymptotic.hinge_mass r
  /\ J_morse_isotensional_asymptotic.link_stiffness j = O_morse_isotensional_asymptotic.link_stiffness r
  /\ J_morse_isotensional_asymptotic.link_energy j = O_morse_isotensional_asymptotic.link_energy r
  /\ J_morse_isotensional_asymptotic.reduced j = J_morse_isotensional_asymptotic_reduced.init number_of_links link_length hinge_mass link_stiffness link_energy
  /\ J_morse_isotensional_asymptotic.legendre j = J_morse_isotensional_asymptotic_legendre.init number_of_links link_length hinge_mass link_stiffness link_energy
  /\ (forall (force : jarray T) (temperature : jarray T),
     J_morse_isotensional_asymptotic.end_to_end_length j force temperature
     = broadcast [Float64; Float64] (fun force temperature =>
         Finished (Some (O_morse_isotensional_asymptotic.end_to_end_length r force temperature))) force temperature)
  /\ (forall (force : jarray T) (temperature : jarray T),
     J_morse_isotensional_asymptotic.end_to_end_length_per_link j force temperature
     = broadcast [Float64; Float64] (fun force temperature =>
         Finished (Some (O_morse_isotensional_asymptotic.end_to_end_length_per_link r force temperature))) force temperature)
  /\ (forall (nondimensional_force : jarray T) (temperature : T),
     J_morse_isotensional_asymptotic.nondimensional_end_to_end_length j nondimensional_force temperature
     = broadcast [Float64] (fun nondimensional_force =>
         Finished (Some (O_morse_isotensional_asymptotic.nondimensional_end_to_end_length r nondimensional_force temperature))) nondimensional_force)
  /\ (forall (nondimensional_force : jarray T) (temperature : T),
     J_morse_isotensional_asymptotic.nondimensional_end_to_end_length_per_link j nondimensional_force temperature
     = broadcast [Float64] (fun nondimensional_force =>
         Finished (Some (O_morse_isotensional_asymptotic.nondimensional_end_to_end_length_per_link r nondimensional_force temperature))) nondimensional_force)
  /\ (forall (force : jarray T) (temperature : jarray T),
     J_morse_isotensional_asymptotic.gibbs_free_energy j force temperature
     = broadcast [Float64; Float64] (fun force temperature =>
         Finished (Some (O_morse_isotensional_asymptotic.gibbs_free_energy r force temperature))) force temperature)
  /\ (forall (force : jarray T) (temperature : jarray T),
     J_morse_isotensional_asymptotic.gibbs_free_energy_per_link j force temperature
     = broadcast [Float64; Float64] (fun force temperature =>
         Finished (Some (O_morse_isotensional_asymptotic.gibbs_free_energy_per_link r force temperature))) force temperature)
  /\ (forall (force : jarray T) (temperature : jarray T),
     J_morse_isotensional_asymptotic.relative_gibbs_free_energy j force temperature
     = broadcast [Float64; Float64] (fun force temperature =>
         Finished (Some (O_morse_isotensional_asymptotic.relative_gibbs_free_energy r force temperature))) force temperature)
  /\ (forall (force : jarray T) (temperature : jarray T),
     J_morse_isotensional_asymptotic.relative_gibbs_free_energy_per_link j force temperature
     = broadcast [Float64; Float64] (fun force temperature =>
         Finished (Some (O_morse_isotensional_asymptotic.relative_gibbs_free_energy_per_link r force temperature))) force temperature)
  /\ (forall (nondimensional_force : jarray T) (temperature : T),
     J_morse_isotensional_asymptotic.nondimensional_gibbs_free_energy j nondimensional_force temperature
     = broadcast [Float64] (fun nondimensional_force =>
         Finished (Some (O_morse_isotensional_asymptotic.nondimensional_gibbs_free_energy r nondimensional_force temperature))) nondimensional_force)
  /\ (forall (nondimensional_force : jarray T) (temperature : T),
     J_morse_isotensional_asymptotic.nondimensional_gibbs_free_energy_per_link j nondimensional_force temperature
     = broadcast [Float64] (fun nondimensional_force =>
         Finished (Some (O_morse_isotensional_asymptotic.nondimensional_gibbs_free_energy_per_link r nondimensional_force temperature))) nondimensional_force)
  /\ (forall (nondimensional_force : jarray T) (temperature : T),
     J_morse_isotensional_asymptotic.nondimensional_relative_gibbs_free_energy j nondimensional_force temperature
     = broadcast [Float64] (fun nondimensional_force =>
         Finished (Some (O_morse_isotensional_asymptotic.nondimensional_relative_gibbs_free_energy r nondimensional_force temperature))) nondimensional_force)
  /\ (forall (nondimensional_force : jarray T) (temperature : T),
     J_morse_isotensional_asymptotic.nondimensional_relative_gibbs_free_energy_per_link j nondimensional_force temperature
     = broadcast [Float64] (fun nondimensional_force =>
         Finished (Some (O_morse_isotensional_asymptotic.nondimensional_relative_gibbs_free_energy_per_link r nondimensional_force temperature))) nondimensional_force).
Proof. intros T Sc number_of_links link_length hinge_mass link_stiffness link_energy j r.
  split; [reflexivity|].
  split; [reflexivity|].
  split; [reflexivity|].
  split; [reflexivity|].
  split; [reflexivity|].
  split; [reflexivity|].
  split; [reflexivity|].
  split; [intros; cbv [j J_morse_isotensional_asymptotic.init J_morse_isotensional_asymptotic.end_to_end_length]; rewrite F_morse_isotensional_asymptotic_end_to_end_length; unfold O_morse_isotensional_asymptotic.end_to_end_length; broadcast_numbers|].
  split; [intros; cbv [j J_morse_isotensional_asymptotic.init J_morse_isotensional_asymptotic.end_to_end_length_per_link]; rewrite F_morse_isotensional_asymptotic_end_to_end_length_per_link; unfold O_morse_isotensional_asymptotic.end_to_end_length_per_link; broadcast_numbers|].
  split; [intros; cbv [j J_morse_isotensional_asymptotic.init J_morse_isotensional_asymptotic.nondimensional_end_to_end_length]; rewrite F_morse_isotensional_asymptotic_nondimensional_end_to_end_length; unfold O_morse_isotensional_asymptotic.nondimensional_end_to_end_length; broadcast_numbers|].
  split; [intros; cbv [j J_morse_isotensional_asymptotic.init J_morse_isotensional_asymptotic.nondimensional_end_to_end_length_per_link]; rewrite F_morse_isotensional_asymptotic_nondimensional_end_to_end_length_per_link; unfold O_morse_isotensional_asymptotic.nondimensional_end_to_end_length_per_link; broadcast_numbers|].
  split; [intros; cbv [j J_morse_isotensional_asymptotic.init J_morse_isotensional_asymptotic.gibbs_free_energy]; rewrite F_morse_isotensional_asymptotic_gibbs_free_energy; unfold O_morse_isotensional_asymptotic.gibbs_free_energy; broadcast_numbers|].
  split; [intros; cbv [j J_morse_isotensional_asymptotic.init J_morse_isotensional_asymptotic.gibbs_free_energy_per_link]; rewrite F_morse_isotensional_asymptotic_gibbs_free_energy_per_link; unfold O_morse_isotensional_asymptotic.gibbs_free_energy_per_link; broadcast_numbers|].
  split; [intros; cbv [j J_morse_isotensional_asymptotic.init J_morse_isotensional_asymptotic.relative_gibbs_free_energy]; rewrite F_morse_isotensional_asymptotic_relative_gibbs_free_energy; unfold O_morse_isotensional_asymptotic.relative_gibbs_free_energy; broadcast_numbers|].
  split; [intros; cbv [j J_morse_isotensional_asymptotic.init J_morse_isotensional_asymptotic.relative_gibbs_free_energy_per_link]; rewrite F_morse_isotensional_asymptotic_relative_gibbs_free_energy_per_link; unfold O_morse_isotensional_asymptotic.relative_gibbs_free_energy_per_link; broadcast_numbers|].
  split; [intros; cbv [j J_morse_isotensional_asymptotic.init J_morse_isotensional_asymptotic.nondimensional_gibbs_free_energy]; rewrite F_morse_isotensional_asymptotic_nondimensional_gibbs_free_energy; unfold O_morse_isotensional_asymptotic.nondimensional_gibbs_free_energy; broadcast_numbers|].
  split; [intros; cbv [j J_morse_isotensional_asymptotic.init J_morse_isotensional_asymptotic.nondimensional_gibbs_free_energy_per_link]; rewrite F_morse_isotensional_asymptotic_nondimensional_gibbs_free_energy_per_link; unfold O_morse_isotensional_asymptotic.nondimensional_gibbs_free_energy_per_link; broadcast_numbers|].
  split; [intros; cbv [j J_morse_isotensional_asymptotic.init J_morse_isotensional_asymptotic.nondimensional_relative_gibbs_free_energy]; rewrite F_morse_isotensional_asymptotic_nondimensional_relative_gibbs_free_energy; unfold O_morse_isotensional_asymptotic.nondimensional_relative_gibbs_free_energy; broadcast_numbers|].
  intros; cbv [j J_morse_isotensional_asymptotic.init J_morse_isotensional_asymptotic.nondimensional_relative_gibbs_free_energy_per_link]; rewrite F_morse_isotensional_asymptotic_nondimensional_relative_gibbs_free_energy_per_link; unfold O_morse_isotensional_asymptotic.nondimensional_relative_gibbs_free_energy_per_link; broadcast_numbers.
Qed.
Print Assumptions C61_object_morse_isotensional_asymptotic.

Theorem C61_functions_morse_isotensional_legendre : forall (T : Type) (Sc : Scalar T),
  (forall (number_of_links : jarray Z) (link_length : jarray T) (hinge_mass : jarray T) (link_stiffness : jarray T) (link_energy : jarray T) (force : jarray T) (temperature : jarray T),
     jl_morse_isotensional_legendre.helmholtz_free_energy number_of_links link_length hinge_mass link_stiffness link_energy force temperature
     = broadcast [UInt8; Float64; Float64; Float64; Float64; Float64; Float64] (fun number_of_links link_length hinge_mass link_stiffness link_energy force temperature =>
         Finished (Some (morse_isotensional_legendre.helmholtz_free_energy number_of_links link_length hinge_mass link_stiffness link_energy force temperature))) number_of_links link_length hinge_mass link_stiffness link_energy force temperature)
  /\ (forall (link_length : jarray T) (hinge_mass : jarray T) (link_stiffness : jarray T) (link_energy : jarray T) (force : jarray T) (temperature : jarray T),
     jl_morse_isotensional_legendre.helmholtz_free_energy_per_link link_length hinge_mass link_stiffness link_energy force temperature
     = broadcast [Float64; Float64; Float64; Float64; Float64; Float64] (fun link_length hinge_mass link_stiffness link_energy force temperature =>
         Finished (Some (morse_isotensional_legendre.helmholtz_free_energy_per_link link_length hinge_mass link_stiffness link_energy force temperature))) link_length hinge_mass link_stiffness link_energy force temperature)
  /\ (forall (number_of_links : jarray Z) (link_length : jarray T) (link_stiffness : jarray T) (link_energy : jarray T) (force : jarray T) (temperature : jarray T),
     jl_morse_isotensional_legendre.relative_helmholtz_free_energy number_of_links link_length link_stiffness link_energy force temperature
     = broadcast [UInt8; Float64; Float64; Float64; Float64; Float64] (fun number_of_links link_length link_stiffness link_energy force temperature =>
         Finished (Some (morse_isotensional_legendre.relative_helmholtz_free_energy number_of_links link_length link_stiffness link_energy force temperature))) number_of_links link_length link_stiffness link_energy force temperature)
  /\ (forall (link_length : jarray T) (link_stiffness : jarray T) (link_energy : jarray T) (force : jarray T) (temperature : jarray T),
     jl_morse_isotensional_legendre.relative_helmholtz_free_energy_per_link link_length link_stiffness link_energy force temperature
     = broadcast [Float64; Float64; Float64; Float64; Float64] (fun link_length link_stiffness link_energy force temperature =>
         Finished (Some (morse_isotensional_legendre.relative_helmholtz_free_energy_per_link link_length link_stiffness link_energy force temperature))) link_length link_stiffness link_energy force temperature)
  /\ (forall (number_of_links : jarray Z) (link_length : jarray T) (hinge_mass : jarray T) (nondimensional_link_stiffness : jarray T) (nondimensional_link_energy : jarray T) (nondimensional_force : jarray T) (temperature : jarray T),
     jl_morse_isotensional_legendre.nondimensional_helmholtz_free_energy number_of_links link_length hinge_mass nondimensional_link_stiffness nondimensional_link_energy nondimensional_force temperature
     = broadcast [UInt8; Float64; Float64; Float64; Float64; Float64; Float64] (fun number_of_links link_length hinge_mass nondimensional_link_stiffness nondimensional_link_energy nondimensional_force temperature =>
         Finished (Some (morse_isotensional_legendre.nondimensional_helmholtz_free_energy number_of_links link_length hinge_mass nondimensional_link_stiffness nondimensional_link_energy nondimensional_force temperature))) number_of_links link_length hinge_mass nondimensional_link_stiffness nondimensional_link_energy nondimensional_force temperature)
  /\ (forall (link_length : jarray T) (hinge_mass : jarray T) (nondimensional_link_stiffness : jarray T) (nondimensional_link_energy : jarray T) (nondimensional_force : jarray T) (temperature : jarray T),
     jl_morse_isotensional_legendre.nondimensional_helmholtz_free_energy_per_link link_length hinge_mass nondimensional_link_stiffness nondimensional_link_energy nondimensional_force temperature
     = broadcast [Float64; Float64; Float64; Float64; Float64; Float64] (fun link_length hinge_mass nondimensional_link_stiffness nondimensional_link_energy nondimensional_force temperature =>
         Finished (Some (morse_isotensional_legendre.nondimensional_helmholtz_free_energy_per_link link_length hinge_mass nondimensional_link_stiffness nondimensional_link_energy nondimensional_force temperature))) link_length hinge_mass nondimensional_link_stiffness nondimensional_link_energy nondimensional_force temperature)
  /\ (forall (number_of_links : jarray Z) (nondimensional_link_stiffness : jarray T) (nondimensional_link_energy : jarray T) (nondimensional_force : jarray T),
     jl_morse_isotensional_legendre.nondimensional_relative_helmholtz_free_energy number_of_links nondimensional_link_stiffness nondimensional_link_energy nondimensional_force
     = broadcast [UInt8; Float64; Float64; Float64] (fun number_of_links nondimensional_link_stiffness nondimensional_link_energy nondimensional_force =>
         Finished (Some (morse_isotensional_legendre.nondimensional_relative_helmholtz_free_energy number_of_links nondimensional_link_stiffness nondimensional_link_energy nondimensional_force))) number_of_links nondimensional_link_stiffness nondimensional_link_energy nondimensional_force)
  /\ (forall (nondimensional_link_stiffness : jarray T) (nondimensional_link_energy : jarray T) (nondimensional_force : jarray T),
     jl_morse_isotensional_legendre.nondimensional_relative_helmholtz_free_energy_per_link nondimensional_link_stiffness nondimensional_link_energy nondimensional_force
     = broadcast [Float64; Float64; Float64] (fun nondimensional_link_stiffness nondimensional_link_energy nondimensional_force =>
         Finished (Some (morse_isotensional_legendre.nondimensional_relative_helmholtz_free_energy_per_link nondimensional_link_stiffness nondimensional_link_energy nondimensional_force))) nondimensional_link_stiffness nondimensional_link_energy nondimensional_force).
Proof.
  exact (fun T Sc => conj (@F_morse_isotensional_legendre_helmholtz_free_energy T Sc)
    (conj (@F_morse_isotensional_legendre_helmholtz_free_energy_per_link T Sc)
    (conj (@F_morse_isotensional_legendre_relative_helmholtz_free_energy T Sc)
    (conj (@F_morse_isotensional_legendre_relative_helmholtz_free_energy_per_link T Sc)
    (conj (@F_morse_isotensional_legendre_nondimensional_helmholtz_free_energy T Sc)
    (conj (@F_morse_isotensional_legendre_nondimensional_helmholtz_free_energy_per_link T Sc)
    (conj (@F_morse_isotensional_legendre_nondimensional_relative_helmholtz_free_energy T Sc)
    (@F_morse_isotensional_legendre_nondimensional_relative_helmholtz_free_energy_per_link T Sc)))))))).
Qed.
Print Assumptions C61_functions_morse_isotensional_legendre.

Theorem C61_object_morse_isotensional_legendre : forall (T : Type) (Sc : Scalar T) (number_of_links : Z) (link_length : T) (hinge_mass : T) (link_stiffness : T) (link_energy : T),
  let j := J_morse_isotensional_legendre.init number_of_links link_length hinge_mass link_stiffness link_energy in
  let r := O_morse_isotensional_legendre.init number_of_links link_length hinge_mass link_stiffness link_energy in
  J_morse_isotensional_legendre.number_of_links j = O_morse_isotensional_legendre.number_of_links r
  /\ J_morse_isotensional_legendre.link_length j = O_morse_isotensional_legendre.link_length r
  /\ J_morse_isotensional_legendre.hinge_mass j = O_morse_isotensional_legendre.hinge_mass r
  /\ J_morse_isotensional_legendre.link_stiffness j = O_morse_isotensional_legendre.link_stiffness r
  /\ J_morse_isotensional_legendre.link_energy j = O_morse_isotensional_legendre.link_energy r
  /\ (forall (force : jarray T) (temperature : jarray T),
     J_morse_isotensional_legendre.helmholtz_free_energy j force temperature
     = broadcast [Float64; Float64] (fun force temperature =>
         Finished (Some (O_morse_isotensional_legendre.helmholtz_free_energy r force temperature))) force temperature)
  /\ (forall (force : jarray T) (temperature : jarray T),
     J_morse_isotensional_legendre.helmholtz_free_energy_per_link j force temperature
     = broadcast [Float64; Float64] (fun force temperature =>
         Finished (Some (O_morse_isotensional_legendre.helmholtz_free_energy_per_link r force temperature))) force temperature)
  /\ (forall (force : jarray T) (temperature : jarray T),
     J_morse_isotensional_legendre.relative_helmholtz_free_energy j force temperature
     = broadcast [Float64; Float64] (fun force temperature =>
         Finished (Some (O_morse_isotensional_legendre.relative_helmholtz_free_energy r force temperature))) force temperature)
  /\ (forall (force : jarray T) (temperature : jarray T),
     J_morse_isotensional_legendre.relative_helmholtz_free_energy_per_link j force temperature
     = broadcast [Float64; Float64] (fun force temperature =>
         Finished (Some (O_morse_isotensional_legendre.relative_helmholtz_free_energy_per_link r force temperature))) force temperature)
  /\ (forall (nondimensional_force : jarray T) (temperature : T),
     J_morse_isotensional_legendre.nondimensional_helmholtz_free_energy j nondimensional_force temperature
     = broadcast [Float64] (fun nondimensional_force =>
         Finished (Some (O_morse_isotensional_legendre.nondimensional_helmholtz_free_energy r nondimensional_force temperature))) nondimensional_force)
  /\ (forall (nondimensional_force : jarray T) (temperature : T),
     J_morse_isotensional_legendre.nondimensional_helmholtz_free_energy_per_link j nondimensional_force temperature
     = broadcast [Float64] (fun nondimensional_force =>
         Finished (Some (O_morse_isotensional_legendre.nondimensional_helmholtz_free_energy_per_link r nondimensional_force temperature))) nondimensional_force)
  /\ (forall (nondimensional_force : jarray T) (temperature : T),
     J_morse_isotensional_legendre.nondimensional_relative_helmholtz_free_energy j nondimensional_force temperature
     = broadcast [Float64] (fun nondimensional_force =>
         Finished (Some (O_morse_isotensional_legendre.nondimensional_relative_helmholtz_free_energy r nondimensional_force temperature))) nondimensional_force)
  /\ (forall (nondimensional_force : jarray T) (temperature : T),
     J_morse_isotensional_legendre.nondimensional_relative_helmholtz_free_energy_per_link j nondimensional_force temperature
     = broadcast [Float64] (fun nondimensional_force =>
         Finished (Some (O_morse_isotensional_legendre.nondimensional_relative_helmholtz_free_energy_per_link r nondimensional_force temperature))) nondimensional_force).
Proof. intros T Sc number_of_links link_length hinge_mass link_stiffness link_energy j r.
  split; [reflexivity|].
  split; [reflexivity|].
  split; [reflexivity|].
  split; [reflexivity|].
  split; [reflexivity|].
  split; [intros; cbv [j J_morse_isotensional_legendre.init J_morse_isotensional_legendre.helmholtz_free_energy]; rewrite F_morse_isotensional_legendre_helmholtz_free_energy; unfold O_morse_isotensional_legendre.helmholtz_free_energy; broadcast_numbers|].
  split; [intros; cbv [j J_morse_isotensional_legendre.init J_morse_isotensional_legendre.helmholtz_free_energy_per_link]; rewrite F_morse_isotensional_legendre_helmholtz_free_energy_per_link; unfold O_morse_isotensional_legendre.helmholtz_free_energy_per_link; broadcast_numbers|].
  split; [intros; cbv [j J_morse_isotensional_legendre.init J_morse_isotensional_legendre.relative_helmholtz_free_energy]; rewrite F_morse_isotensional_legendre_relative_helmholtz_free_energy; unfold O_morse_isotensional_legendre.relative_helmholtz_free_energy; broadcast_numbers|].
  split; [intros; cbv [j J_morse_isotensional_legendre.init J_morse_isotensional_legendre.relative_helmholtz_free_energy_per_link]; rewrite F_morse_isotensional_legendre_relative_helmholtz_free_energy_per_link; unfold O_morse_isotensional_legendre.relative_helmholtz_free_energy_per_link; broadcast_numbers|].
  split; [intros; cbv [j J_morse_isotensional_legendre.init J_morse_isotensional_legendre.nondimensional_helmholtz_free_energy]; rewrite F_morse_isotensional_legendre_nondimensional_helmholtz_free_energy; unfold O_morse_isotensional_legendre.nondimensional_helmholtz_free_energy; broadcast_numbers|].
  split; [intros; cbv [j J_morse_isotensional_legendre.init J_morse_isotensional_legendre.nondimensional_helmholtz_free_energy_per_link]; rewrite F_morse_isotensional_legendre_nondimensional_helmholtz_free_energy_per_link; unfold O_morse_isotensional_legendre.nondimensional_helmholtz_free_energy_per_link; broadcast_numbers|].
  split; [intros; cbv [j J_morse_isotensional_legendre.init J_morse_isotensional_legendre.nondimensional_relative_helmholtz_free_energy]; rewrite F_morse_isotensional_legendre_nondimensional_relative_helmholtz_free_energy; unfold O_morse_isotensional_legendre.nondimensional_relative_helmholtz_free_energy; broadcast_numbers|].
  intros; cbv [j J_morse_isotensional_legendre.init J_morse_isotensional_legendre.nondimensional_relative_helmholtz_free_energy_per_link]; rewrite F_morse_isotensional_legendre_nondimensional_relative_helmholtz_free_energy_per_link; unfold O_morse_isotensional_legendre.nondimensional_relative_helmholtz_free_energy_per_link; broadcast_numbers.
Qed.
Print Assumptions C61_object_morse_isotensional_legendre.

Theorem C61_object_efjc_isometric_asymptotic : forall (T : Type) (Sc : Scalar T) (number_of_links : Z) (link_length : T) (hinge_mass : T) (link_stiffness : T),
  let j := J_efjc_isometric_asymptotic.init number_of_links link_length hinge_mass link_stiffness in
  let r := O_efjc_isometric_asymptotic.init number_of_links link_length hinge_mass link_stiffness in
  J_efjc_isometric_asymptotic.number_of_links j = O_efjc_isometric_asymptotic.number_of_links r
  /\ J_efjc_isometric_asymptotic.link_length j = O_efjc_isometric_asymptotic.link_length r
  /\ J_efjc_isometric_asymptotic.hinge_mass j = O_efjc_isometric_asymptotic.hinge_mass r
  /\ J_efjc_isometric_asymptotic.link_stiffness j = O_efjc_isometric_asymptotic.link_stiffness r
  /\ J_efjc_isometric_asymptotic.alternative j = J_efjc_isometric_asymptotic_alternative.init number_of_links link_length hinge_mass link_stiffness
  /\ J_efjc_isometric_asymptotic.reduced j = J_efjc_isometric_asymptotic_reduced.init number_of_links link_length hinge_mass link_stiffness
  /\ J_efjc_isometric_asymptotic.legendre j = J_efjc_isometric_asymptotic_legendre.init number_of_links link_length hinge_mass link_stiffness.
Proof. intros T Sc number_of_links link_length hinge_mass link_stiffness j r.
  split; [reflexivity|].
  split; [reflexivity|].
  split; [reflexivity|].
  split; [reflexivity|].
  split; [reflexivity|].
  split; [reflexivity|].
  reflexivity.
Qed.
Print Assumptions C61_object_efjc_isometric_asymptotic.

Theorem C61_functions_efjc_isotensional_asymptotic : forall (T : Type) (Sc : Scalar T),
  (forall (number_of_links : jarray Z) (link_length : jarray T) (link_stiffness : jarray T) (force : jarray T) (temperature : jarray T),
     jl_efjc_isotensional_asymptotic.end_to_end_length number_of_links link_length link_stiffness force temperature
     = broadcast [UInt8; Float64; Float64; Float64; Float64] (fun number_of_links link_length link_stiffness force temperature =>
         Finished (Some (efjc_isotensional_asymptotic.end_to_end_length number_of_links link_length link_stiffness force temperature))) number_of_links link_length link_stiffness force temperature)
  /\ (forall (link_length : jarray T) (link_stiffness : jarray T) (force : jarray T) (temperature : jarray T),
     jl_efjc_isotensional_asymptotic.end_to_end_length_per_link link_length link_stiffness force temperature
     = broadcast [Float64; Float64; Float64; Float64] (fun link_length link_stiffness force temperature =>
         Finished (Some (efjc_isotensional_asymptotic.end_to_end_length_per_link link_length link_stiffness force temperature))) link_length link_stiffness force temperature)
  /\ (forall (number_of_links : jarray Z) (nondimensional_link_stiffness : jarray T) (nondimensional_force : jarray T),
     jl_efjc_isotensional_asymptotic.nondimensional_end_to_end_length number_of_links nondimensional_link_stiffness nondimensional_force
     = broadcast [UInt8; Float64; Float64] (fun number_of_links nondimensional_link_stiffness nondimensional_force =>
         Finished (Some (efjc_isotensional_asymptotic.nondimensional_end_to_end_length number_of_links nondimensional_link_stiffness nondimensional_force))) number_of_links nondimensional_link_stiffness nondimensional_force)
  /\ (forall (nondimensional_link_stiffness : jarray T) (nondimensional_force : jarray T),
     jl_efjc_isotensional_asymptotic.nondimensional_end_to_end_length_per_link nondimensional_link_stiffness nondimensional_force
     = broadcast [Float64; Float64] (fun nondimensional_link_stiffness nondimensional_force =>
         Finished (Some (efjc_isotensional_asymptotic.nondimensional_end_to_end_length_per_link nondimensional_link_stiffness nondimensional_force))) nondimensional_link_stiffness nondimensional_force)
  /\ (forall (number_of_links : jarray Z) (link_length : jarray T) (hinge_mass : jarray T) (link_stiffness : jarray T) (force : jarray T) (temperature : jarray T),
     jl_efjc_isotensional_asymptotic.gibbs_free_energy number_of_links link_length hinge_mass link_stiffness force temperature
     = broadcast [UInt8; Float64; Float64; Float64; Float64; Float64] (fun number_of_links link_length hinge_mass link_stiffness force temperature =>
         Finished (Some (efjc_isotensional_asymptotic.gibbs_free_energy number_of_links link_length hinge_mass link_stiffness force temperature))) number_of_links link_length hinge_mass link_stiffness force temperature)
  /\ (forall (link_length : jarray T) (hinge_mass : jarray T) (link_stiffness : jarray T) (force : jarray T) (temperature : jarray T),
     jl_efjc_isotensional_asymptotic.gibbs_free_energy_per_link link_length hinge_mass link_stiffness force temperature
     = broadcast [Float64; Float64; Float64; Float64; Float64] (fun link_length hinge_mass link_stiffness force temperature =>
         Finished (Some (efjc_isotensional_asymptotic.gibbs_free_energy_per_link link_length hinge_mass link_stiffness force temperature))) link_length hinge_mass link_stiffness force temperature)
  /\ (forall (number_of_links : jarray Z) (link_length : jarray T) (link_stiffness : jarray T) (force : jarray T) (temperature : jarray T),
     jl_efjc_isotensional_asymptotic.relative_gibbs_free_energy number_of_links link_length link_stiffness force temperature
     = broadcast [UInt8; Float64; Float64; Float64; Float64] (fun number_of_links link_length link_stiffness force temperature =>
         Finished (Some (efjc_isotensional_asymptotic.relative_gibbs_free_energy number_of_links link_length link_stiffness force temperature))) number_of_links link_length link_stiffness force temperature)
  /\ (forall (link_length : jarray T) (link_stiffness : jarray T) (force : jarray T) (temperature : jarray T),
     jl_efjc_isotensional_asymptotic.relative_gibbs_free_energy_per_link link_length link_stiffness force temperature
     = broadcast [Float64; Float64; Float64; Float64] (fun link_length link_stiffness force temperature =>
         Finished (Some (efjc_isotensional_asymptotic.relative_gibbs_free_energy_per_link link_length link_stiffness force temperature))) link_length link_stiffness force temperature)
  /\ (forall (number_of_links : jarray Z) (link_length : jarray T) (hinge_mass : jarray T) (nondimensional_link_stiffness : jarray T) (nondimensional_force : jarray T) (temperature : jarray T),
     jl_efjc_isotensional_asymptotic.nondimensional_gibbs_free_energy number_of_links link_length hinge_mass nondimensional_link_stiffness nondimensional_force temperature
     = broadcast [UInt8; Float64; Float64; Float64; Float64; Float64] (fun number_of_links link_length hinge_mass nondimensional_link_stiffness nondimensional_force temperature =>
         Finished (Some (efjc_isotensional_asymptotic.nondimensional_gibbs_free_energy number_of_links link_length hinge_mass nondimensional_link_stiffness nondimensional_force temperature))) number_of_links link_length hinge_mass nondimensional_link_stiffness nondimensional_force temperature)
  /\ (forall (link_length : jarray T) (hinge_mass : jarray T) (nondimensional_link_stiffness : jarray T) (nondimensional_force : jarray T) (temperature : jarray T),
     jl_efjc_isotensional_asymptotic.nondimensional_gibbs_free_energy_per_link link_length hinge_mass nondimensional_link_stiffness nondimensional_force temperature
     = broadcast [Float64; Float64; Float64; Float64; Float64] (fun link_length hinge_mass nondimensional_link_stiffness nondimensional_force temperature =>
         Finished (Some (efjc_isotensional_asymptotic.nondimensional_gibbs_free_energy_per_link link_length hinge_mass nondimensional_link_stiffness nondimensional_force temperature))) link_length hinge_mass nondimensional_link_stiffness nondimensional_force temperature)
  /\ (forall (number_of_links : jarray Z) (nondimensional_link_stiffness : jarray T) (nondimensional_force : jarray T),
     jl_efjc_isotensional_asymptotic.nondimensional_relative_gibbs_free_energy number_of_links nondimensional_link_stiffness nondimensional_force
     = broadcast [UInt8; Float64; Float64] (fun number_of_links nondimensional_link_stiffness nondimensional_force =>
         Finished (Some (efjc_isotensional_asymptotic.nondimensional_relative_gibbs_free_energy number_of_links nondimensional_link_stiffness nondimensional_force))) number_of_links nondimensional_link_stiffness nondimensional_force)
  /\ (forall (nondimensional_link_stiffness : jarray T) (nondimensional_force : jarray T),
     jl_efjc_isotensional_asymptotic.nondimensional_relative_gibbs_free_energy_per_link nondimensional_link_stiffness nondimensional_force
     = broadcast [Float64; Float64] (fun nondimensional_link_stiffness nondimensional_force =>
         Finished (Some (efjc_isotensional_asymptotic.nondimensional_relative_gibbs_free_energy_per_link nondimensional_link_stiffness nondimensional_force))) nondimensional_link_stiffness nondimensional_force).
Proof.
  exact (fun T Sc => conj (@F_efjc_isotensional_asymptotic_end_to_end_length T Sc)
    (conj (@F_efjc_isotensional_asymptotic_end_to_end_length_per_link T Sc)
    (conj (@F_efjc_isotensional_asymptotic_nondimensional_end_to_end_length T Sc)
    (conj (@F_efjc_isotensional_asymptotic_nondimensional_end_to_end_length_per_link T Sc)
    (conj (@F_efjc_isotensional_asymptotic_gibbs_free_energy T Sc)
    (conj (@F_efjc_isotensional_asymptotic_gibbs_free_energy_per_link T Sc)
    (conj (@F_efjc_isotensional_asymptotic_relative_gibbs_free_energy T Sc)
    (conj (@F_efjc_isotensional_asymptotic_relative_gibbs_free_energy_per_link T Sc)
    (conj (@F_efjc_isotensional_asymptotic_nondimensional_gibbs_free_energy T Sc)
    (conj (@F_efjc_isotensional_asymptotic_nondimensional_gibbs_free_energy_per_link T Sc)
    (conj (@F_efjc_isotensional_asymptotic_nondimensional_relative_gibbs_free_energy T Sc)
    (@F_efjc_isotensional_asymptotic_nondimensional_relative_gibbs_free_energy_per_link T Sc)))))))))))).
Qed.
Print Assumptions C61_functions_efjc_isotensional_asymptotic.

Theorem C61_object_efjc_isotensional_asymptotic : forall (T : Type) (Sc : Scalar T) (number_of_links : Z) (link_length : T) (hinge_mass : T) (link_stiffness : T),
  let j := J_efjc_isotensional_asymptotic.init number_of_links link_length hinge_mass link_stiffness in
  let r := O_efjc_isotensional_asymptotic.init number_of_links link_length hinge_mass link_stiffness in
  J_efjc_isotensional_asymptotic.number_of_links j = O_efjc_isotensional_asymptotic.number_of_links r
  /\ J_efjc_isotensional_asymptotic.link_length j = O_efjc_isotensional_asymptotic.link_length r
  /\ J_efjc_isotensional_asymptotic.hinge_mass j = O_efjc_isotensional_asymptotic.hinge_mass r
  /\ J_efjc_isotensional_asymptotic.link_stiffness j = O_efjc_isotensional_asymptotic.link_stiffness r
  /\ J_efjc_isotensional_asymptotic.alternative j = J_efjc_isotensional_asymptotic_alternative.init number_of_links link_length hinge_mass link_stiffness
  /\ J_efjc_isotensional_asymptotic.reduced j = J_efjc_isotensional_asymptotic_reduced.init number_of_links link_length hinge_mass link_stiffness
  /\ J_efjc_isotensional_asymptotic.legendre j = J_efjc_isotensional_asymptotic_legendre.init number_of_links link_length hinge_mass link_stiffness
  /\ (forall (force : jarray T) (temperature : jarray T),
     J_efjc_isotensional_asymptotic.end_to_end_length j force temperature
     = broadcast [Float64; Float64] (fun force temperature =>
         Finished (Some (O_efjc_isotensional_asymptotic.end_to_end_length r force temperature))) force temperature)
  /\ (forall (force : jarray T) (temperature : jarray T),
     J_efjc_isotensional_asymptotic.end_to_end_length_per_link j force temperature
     = broadcast [Float64; Float64] (fun force temperature =>
         Finished (Some (O_efjc_isotensional_asymptotic.end_to_end_length_per_link r force temperature))) force temperature)
  /\ (forall (nondimensional_force : jarray T) (temperature : T),
     J_efjc_isotensional_asymptotic.nondimensional_end_to_end_length j nondimensional_force temperature
     = broadcast [Float64] (fun nondimensional_force =>
         Finished (Some (O_efjc_isotensional_asymptotic.nondimensional_end_to_end_length r nondimensional_force temperature))) nondimensional_force)
  /\ (forall (nondimensional_force : jarray T) (temperature : T),
     J_efjc_isotensional_asymptotic.nondimensional_end_to_end_length_per_link j nondimensional_force temperature
     = broadcast [Float64] (fun nondimensional_force =>
         Finished (Some (O_efjc_isotensional_asymptotic.nondimensional_end_to_end_length_per_link r nondimensional_force temperature))) nondimensional_force)
  /\ (forall (force : jarray T) (temperature : jarray T),
     J_efjc_isotensional_asymptotic.gibbs_free_energy j force temperature
     = broadcast [Float64; Float64] (fun force temperature =>
         Finished (Some (O_efjc_isotensional_asymptotic.gibbs_free_energy r force temperature))) force temperature)
  /\ (forall (force : jarray T) (temperature : jarray T),
     J_efjc_isotensional_asymptotic.gibbs_free_energy_per_link j force temperature
     = broadcast [Float64; Float64] (fun force temperature =>
         Finished (Some (O_efjc_isotensional_asymptotic.gibbs_free_energy_per_link r force temperature))) force temperature)
  /\ (forall (force : jarray T) (temperature : jarray T),
     J_efjc_isotensional_asymptotic.relative_gibbs_free_energy j force temperature
     = broadcast [Float64; Float64] (fun force temperature =>
         Finished (Some (O_efjc_isotensional_asymptotic.relative_gibbs_free_energy r force temperature))) force temperature)
  /\ (forall (force : jarray T) (temperature : jarray T),
     J_efjc_isotensional_asymptotic.relative_gibbs_free_energy_per_link j force temperature
     = broadcast [Float64; Float64] (fun force temperature =>
         Finished (Some (O_efjc_isotensional_asymptotic.relative_gibbs_free_energy_per_link r force temperature))) force temperature)
  /\ (forall (nondimensional_force : jarray T) (temperature : T),
     J_efjc_isotensional_asymptotic.nondimensional_gibbs_free_energy j nondimensional_force temperature
     = broadcast [Float64] (fun nondimensional_force =>
         Finished (Some (O_efjc_isotensional_asymptotic.nondimensional_gibbs_free_energy r nondimensional_force temperature))) nondimensional_force)
  /\ (forall (nondimensional_force : jarray T) (temperature : T),
     J_efjc_isotensional_asymptotic.nondimensional_gibbs_free_energy_per_link j nondimensional_force temperature
     = broadcast [Float64] (fun nondimensional_force =>
         Finished (Some (O_efjc_isotensional_asymptotic.nondimensional_gibbs_free_energy_per_link r nondimensional_force temperature))) nondimensional_force)
  /\ (forall (nondimensional_force : jarray T) (temperature : T),
     J_efjc_isotensional_asymptotic.nondimensional_relative_gibbs_free_energy j nondimensional_force temperature
     = broadcast [Float64] (fun nondimensional_force =>
         Finished (Some (O_efjc_isotensional_asymptotic.nondimensional_relative_gibbs_free_energy r nondimensional_force temperature))) nondimensional_force)
  /\ (forall (nondimensional_force : jarray T) (temperature : T),
     J_efjc_isotensional_asymptotic.nondimensional_relative_gibbs_free_energy_per_link j nondimensional_force temperature
     = broadcast [Float64] (fun nondimensional_force =>
         Finished (Some (O_efjc_isotensional_asymptotic.nondimensional_relative_gibbs_free_energy_per_link r nondimensional_force temperature))) nondimensional_force).
Proof. intros T Sc number_of_links link_length hinge_mass link_stiffness j r.
  split; [reflexivity|].
  split; [reflexivity|].
  split; [reflexivity|].
  split; [reflexivity|].
  split; [reflexivity|].
  split; [reflexivity|].
  split; [reflexivity|].
  split; [intros; cbv [j J_efjc_isotensional_asymptotic.init J_efjc_isotensional_asymptotic.end_to_end_length]; rewrite F_efjc_isotensional_asymptotic_end_to_end_length; unfold O_efjc_isotensional_asymptotic.end_to_end_length; broadcast_numbers|].
  split; [intros; cbv [j J_efjc_isotensional_asymptotic.init J_efjc_isotensional_asymptotic.end_to_end_length_per_link]; rewrite F_efjc_isotensional_asymptotic_end_to_end_length_per_link; unfold O_efjc_isotensional_asymptotic.end_to_end_length_per_link; broadcast_numbers|].
  split; [intros; cbv [j J_efjc_isotensional_asymptotic.init J_efjc_isotensional_asymptotic.nondimensional_end_to_end_length]; rewrite F_efjc_isotensional_asymptotic_nondimensional_end_to_end_length; unfold O_efjc_isotensional_asymptotic.nondimensional_end_to_end_length; broadcast_numbers|].
  split; [intros; cbv [j J_efjc_isotensional_asymptotic.init J_efjc_isotensional_asymptotic.nondimensional_end_to_end_length_per_link]; rewrite F_efjc_isotensional_asymptotic_nondimensional_end_to_end_length_per_link; unfold O_efjc_isotensional_asymptotic.nondimensional_end_to_end_length_per_link; broadcast_numbers|].
  split; [intros; cbv [j J_efjc_isotensional_asymptotic.init J_efjc_isotensional_asymptotic.gibbs_free_energy]; rewrite F_efjc_isotensional_asymptotic_gibbs_free_energy; unfold O_efjc_isotensional_asymptotic.gibbs_free_energy; broadcast_numbers|].
  split; [intros; cbv [j J_efjc_isotensional_asymptotic.init J_efjc_isotensional_asymptotic.gibbs_free_energy_per_link]; rewrite F_efjc_isotensional_asymptotic_gibbs_free_energy_per_link; unfold O_efjc_isotensional_asymptotic.gibbs_free_energy_per_link; broadcast_numbers|].
  split; [intros; cbv [j J_efjc_isotensional_asymptotic.init J_efjc_isotensional_asymptotic.relative_gibbs_free_energy]; rewrite F_efjc_isotensional_asymptotic_relative_gibbs_free_energy; unfold O_efjc_isotensional_asymptotic.relative_gibbs_free_energy; broadcast_numbers|].
  split; [intros; cbv [j J_efjc_isotensional_asymptotic.init J_efjc_isotensional_asymptotic.relative_gibbs_free_energy_per_link]; rewrite F_efjc_isotensional_asymptotic_relative_gibbs_free_energy_per_link; unfold O_efjc_isotensional_asymptotic.relative_gibbs_free_energy_per_link; broadcast_numbers|].
  split; [intros; cbv [j J_efjc_isotensional_asymptotic.init J_efjc_isotensional_asymptotic.nondimensional_gibbs_free_energy]; rewrite F_efjc_isotensional_asymptotic_nondimensional_gibbs_free_energy; unfold O_efjc_isotensional_asymptotic.nondimensional_gibbs_free_energy; broadcast_numbers|].
  split; [intros; cbv [j J_efjc_isotensional_asymptotic.init J_efjc_isotensional_asymptotic.nondimensional_gibbs_free_energy_per_link]; rewrite F_efjc_isotensional_asymptotic_nondimensional_gibbs_free_energy_per_link; unfold O_efjc_isotensional_asymptotic.nondimensional_gibbs_free_energy_per_link; broadcast_numbers|].
  split; [intros; cbv [j J_efjc_isotensional_asymptotic.init J_efjc_isotensional_asymptotic.nondimensional_relative_gibbs_free_energy]; rewrite F_efjc_isotensional_asymptotic_nondimensional_relative_gibbs_free_energy; unfold O_efjc_isotensional_asymptotic.nondimensional_relative_gibbs_free_energy; broadcast_numbers|].
  intros; cbv [j J_efjc_isotensional_asymptotic.init J_efjc_isotensional_asymptotic.nondimensional_relative_gibbs_free_energy_per_link]; rewrite F_efjc_isotensional_asymptotic_nondimensional_relative_gibbs_free_energy_per_link; unfold O_efjc_isotensional_asymptotic.nondimensional_relative_gibbs_free_energy_per_link; broadcast_numbers.
Qed.
Print Assumptions C61_object_efjc_isotensional_asymptotic.

Theorem C61_functions_efjc_isotensional_legendre : forall (T : Type) (Sc : Scalar T),
  (forall (number_of_links : jarray Z) (link_length : jarray T) (hinge_mass : jarray T) (link_stiffness : jarray T) (force : jarray T) (temperature : jarray T),
     jl_efjc_isotensional_legendre.helmholtz_free_energy number_of_links link_length hinge_mass link_stiffness force temperature
     = broadcast [UInt8; Float64; Float64; Float64; Float64; Float64] (fun number_of_links link_length hinge_mass link_stiffness force temperature =>
         Finished (Some (efjc_isotensional_legendre.helmholtz_free_energy number_of_links link_length hinge_mass link_stiffness force temperature))) number_of_links link_length hinge_mass link_stiffness force temperature)
  /\ (forall (link_length : jarray T) (hinge_mass : jarray T) (link_stiffness : jarray T) (force : jarray T) (temperature : jarray T),
     jl_efjc_isotensional_legendre.helmholtz_free_energy_per_link link_length hinge_mass link_stiffness force temperature
     = broadcast [Float64; Float64; Float64; Float64; Float64] (fun link_length hinge_mass link_stiffness force temperature =>
         Finished (Some (efjc_isotensional_legendre.helmholtz_free_energy_per_link link_length hinge_mass link_stiffness force temperature))) link_length hinge_mass link_stiffness force temperature)
  /\ (forall (number_of_links : jarray Z) (link_length : jarray T) (link_stiffness : jarray T) (force : jarray T) (temperature : jarray T),
     jl_efjc_isotensional_legendre.relative_helmholtz_free_energy number_of_links link_length link_stiffness force temperature
     = broadcast [UInt8; Float64; Float64; Float64; Float64] (fun number_of_links link_length link_stiffness force temperature =>
         Finished (Some (efjc_isotensional_legendre.relative_helmholtz_free_energy number_of_links link_length link_stiffness force temperature))) number_of_links link_length link_stiffness force temperature)
  /\ (forall (link_length : jarray T) (link_stiffness : jarray T) (force : jarray T) (temperature : jarray T),
     jl_efjc_isotensional_legendre.relative_helmholtz_free_energy_per_link link_length link_stiffness force temperature
     = broadcast [Float64; Float64; Float64; Float64] (fun link_length link_stiffness force temperature =>
         Finished (Some (efjc_isotensional_legendre.relative_helmholtz_free_energy_per_link link_length link_stiffness force temperature))) link_length link_stiffness force temperature)
  /\ (forall (number_of_links : jarray Z) (link_length : jarray T) (hinge_mass : jarray T) (nondimensional_link_stiffness : jarray T) (nondimensional_force : jarray T) (temperature : jarray T),
     jl_efjc_isotensional_legendre.nondimensional_helmholtz_free_energy number_of_links link_length hinge_mass nondimensional_link_stiffness nondimensional_force temperature
     = broadcast [UInt8; Float64; Float64; Float64; Float64; Float64] (fun number_of_links link_length hinge_mass nondimensional_link_stiffness nondimensional_force temperature =>
         Finished (Some (efjc_isotensional_legendre.nondimensional_helmholtz_free_energy number_of_links link_length hinge_mass nondimensional_link_stiffness nondimensional_force temperature))) number_of_links link_length hinge_mass nondimensional_link_stiffness nondimensional_force temperature)
  /\ (forall (link_length : jarray T) (hinge_mass : jarray T) (nondimensional_link_stiffness : jarray T) (nondimensional_force : jarray T) (temperature : jarray T),
     jl_efjc_isotensional_legendre.nondimensional_helmholtz_free_energy_per_link link_length hinge_mass nondimensional_link_stiffness nondimensional_force temperature
     = broadcast [Float64; Float64; Float64; Float64; Float64] (fun link_length hinge_mass nondimensional_link_stiffness nondimensional_force temperature =>
         Finished (Some (efjc_isotensional_legendre.nondimensional_helmholtz_free_energy_per_link link_length hinge_mass nondimensional_link_stiffness nondimensional_force temperature))) link_length hinge_mass nondimensional_link_stiffness nondimensional_force temperature)
  /\ (forall (number_of_links : jarray Z) (nondimensional_link_stiffness : jarray T) (nondimensional_force : jarray T),
     jl_efjc_isotensional_legendre.nondimensional_relative_helmholtz_free_energy number_of_links nondimensional_link_stiffness nondimensional_force
     = broadcast [UInt8; Float64; Float64] (fun number_of_links nondimensional_link_stiffness nondimensional_force =>
         Finished (Some (efjc_isotensional_legendre.nondimensional_relative_helmholtz_free_energy number_of_links nondimensional_link_stiffness nondimensional_force))) number_of_links nondimensional_link_stiffness nondimensional_force)
  /\ (forall (nondimensional_link_stiffness : jarray T) (nondimensional_force : jarray T),
     jl_efjc_isotensional_legendre.nondimensional_relative_helmholtz_free_energy_per_link nondimensional_link_stiffness nondimensional_force
     = broadcast [Float64; Float64] (fun nondimensional_link_stiffness nondimensional_force =>
         Finished (Some (efjc_isotensional_legendre.nondimensional_relative_helmholtz_free_energy_per_link nondimensional_link_stiffness nondimensional_force))) nondimensional_link_stiffness nondimensional_force).
Proof.
  exact (fun T Sc => conj (@F_efjc_isotensional_legendre_helmholtz_free_energy T Sc)
    (conj (@F_efjc_isotensional_legendre_helmholtz_free_energy_per_link T Sc)
    (conj (@F_efjc_isotensional_legendre_relative_helmholtz_free_energy T Sc)
    (conj (@F_efjc_isotensional_legendre_relative_helmholtz_free_energy_per_link T Sc)
    (conj (@F_efjc_isotensional_legendre_nondimensional_helmholtz_free_energy T Sc)
    (conj (@F_efjc_isotensional_legendre_nondimensional_helmholtz_free_energy_per_link T Sc)
    (conj (@F_efjc_isotensional_legendre_nondimensional_relative_helmholtz_free_energy T Sc)
    (@F_efjc_isotensional_legendre_nondimensional_relative_helmholtz_free_energy_per_link T Sc)))))))).
Qed.
Print Assumptions C61_functions_efjc_isotensional_legendre.

Theorem C61_object_efjc_isotensional_legendre : forall (T : Type) (Sc : Scalar T) (number_of_links : Z) (link_length : T) (hinge_mass : T) (link_stiffness : T),
  let j := J_efjc_isotensional_legendre.init number_of_links link_length hinge_mass link_stiffness in
  let r := O_efjc_isotensional_legendre.init number_of_links link_length hinge_mass link_stiffness in
  J_efjc_isotensional_legendre.number_of_links j = O_efjc_isotensional_legendre.number_of_links r
  /\ J_efjc_isotensional_legendre.link_length j = O_efjc_isotensional_legendre.link_length r
  /\ J_efjc_isotensional_legendre.hinge_mass j = O_efjc_isotensional_legendre.hinge_mass r
  /\ J_efjc_isotensional_legendre.link_stiffness j = O_efjc_isotensional_legendre.link_stiffness r
  /\ (forall (force : jarray T) (temperature : jarray T),
     J_efjc_isotensional_legendre.helmholtz_free_energy j force temperature
     = broadcast [Float64; Float64] (fun force temperature =>
         Finished (Some (O_efjc_isotensional_legendre.helmholtz_free_energy r force temperature))) force temperature)
  /\ (forall (force : jarray T) (temperature : jarray T),
     J_efjc_isotensional_legendre.helmholtz_free_energy_per_link j force temperature
     = broadcast [Float64; Float64] (fun force temperature =>
         Finished (Some (O_efjc_isotensional_legendre.helmholtz_free_energy_per_link r force temperature))) force temperature)
  /\ (forall (force : jarray T) (temperature : jarray T),
     J_efjc_isotensional_legendre.relative_helmholtz_free_energy j force temperature
     = broadcast [Float64; Float64] (fun force temperature =>
         Finished (Some (O_efjc_isotensional_legendre.relative_helmholtz_free_energy r force temperature))) force temperature)
  /\ (forall (force : jarray T) (temperature : jarray T),
     J_efjc_isotensional_legendre.relative_helmholtz_free_energy_per_link j force temperature
     = broadcast [Float64; Float64] (fun force temperature =>
         Finished (Some (O_efjc_isotensional_legendre.relative_helmholtz_free_energy_per_link r force temperature))) force temperature)
  /\ (forall (nondimensional_force : jarray T) (temperature : T),
     J_efjc_isotensional_legendre.nondimensional_helmholtz_free_energy j nondimensional_force temperature
     = broadcast [Float64] (fun nondimensional_force =>
         Finished (Some (O_efjc_isotensional_legendre.nondimensional_helmholtz_free_energy r nondimensional_force temperature))) nondimensional_force)
  /\ (forall (nondimensional_force : jarray T) (temperature : T),
     J_efjc_isotensional_legendre.nondimensional_helmholtz_free_energy_per_link j nondimensional_force temperature
     = broadcast [Float64] (fun nondimensional_force =>
         Finished (Some (O_efjc_isotensional_legendre.nondimensional_helmholtz_free_energy_per_link r nondimensional_force temperature))) nondimensional_force)
  /\ (forall (nondimensional_force : jarray T) (temperature : T),
     J_efjc_isotensional_legendre.nondimensional_relative_helmholtz_free_energy j nondimensional_force temperature
     = broadcast [Float64] (fun nondimensional_force =>
         Finished (Some (O_efjc_isotensional_legendre.nondimensional_relative_helmholtz_free_energy r nondimensional_force temperature))) nondimensional_force)
  /\ (forall (nondimensional_force : jarray T) (temperature : T),
     J_efjc_isotensional_legendre.nondimensional_relative_helmholtz_free_energy_per_link j nondimensional_force temperature
     = broadcast [Float64] (fun nondimensional_force =>
         Finished (Some (O_efjc_isotensional_legendre.nondimensional_relative_helmholtz_free_energy_per_link r nondimensional_force temperature))) nondimensional_force).
Proof. intros T Sc number_of_links link_length hinge_mass link_stiffness j r.
  split; [reflexivity|].
  split; [reflexivity|].
  split; [reflexivity|].
  split; [reflexivity|].
  split; [intros; cbv [j J_efjc_isotensional_legendre.init J_efjc_isotensional_legendre.helmholtz_free_energy]; rewrite F_efjc_isotensional_legendre_helmholtz_free_energy; unfold O_efjc_isotensional_legendre.helmholtz_free_energy; broadcast_numbers|].
  split; [intros; cbv [j J_efjc_isotensional_legendre.init J_efjc_isotensional_legendre.helmholtz_free_energy_per_link]; rewrite F_efjc_isotensional_legendre_helmholtz_free_energy_per_link; unfold O_efjc_isotensional_legendre.helmholtz_free_energy_per_link; broadcast_numbers|].
  split; [intros; cbv [j J_efjc_isotensional_legendre.init J_efjc_isotensional_legendre.relative_helmholtz_free_energy]; rewrite F_efjc_isotensional_legendre_relative_helmholtz_free_energy; unfold O_efjc_isotensional_legendre.relative_helmholtz_free_energy; broadcast_numbers|].
  split; [intros; cbv [j J_efjc_isotensional_legendre.init J_efjc_isotensional_legendre.relative_helmholtz_free_energy_per_link]; rewrite F_efjc_isotensional_legendre_relative_helmholtz_free_energy_per_link; unfold O_efjc_isotensional_legendre.relative_helmholtz_free_energy_per_link; broadcast_numbers|].
  split; [intros; cbv [j J_efjc_isotensional_legendre.init J_efjc_isotensional_legendre.nondimensional_helmholtz_free_energy]; rewrite F_efjc_isotensional_legendre_nondimensional_helmholtz_free_energy; unfold O_efjc_isotensional_legendre.nondimensional_helmholtz_free_energy; broadcast_numbers|].
  split; [intros; cbv [j J_efjc_isotensional_legendre.init J_efjc_isotensional_legendre.nondimensional_helmholtz_free_energy_per_link]; rewrite F_efjc_isotensional_legendre_nondimensional_helmholtz_free_energy_per_link; unfold O_efjc_isotensional_legendre.nondimensional_helmholtz_free_energy_per_link; broadcast_numbers|].
  split; [intros; cbv [j J_efjc_isotensional_legendre.init J_efjc_isotensional_legendre.nondimensional_relative_helmholtz_free_energy]; rewrite F_efjc_isotensional_legendre_nondimensional_relative_helmholtz_free_energy; unfold O_efjc_isotensional_legendre.nondimensional_relative_helmholtz_free_energy; broadcast_numbers|].
  intros; cbv [j J_efjc_isotensional_legendre.init J_efjc_isotensional_legendre.nondimensional_relative_helmholtz_free_energy_per_link]; rewrite F_efjc_isotensional_legendre_nondimensional_relative_helmholtz_free_energy_per_link; unfold O_efjc_isotensional_legendre.nondimensional_relative_helmholtz_free_energy_per_link; broadcast_numbers.
Qed.
Print Assumptions C61_object_efjc_isotensional_legendre.

Theorem C61_functions_fjc_isometric_legendre : forall (T : Type) (Sc : Scalar T),
  (forall (number_of_links : jarray Z) (link_length : jarray T) (end_to_end_length : jarray T) (temperature : jarray T),
     jl_fjc_isometric_legendre.force number_of_links link_length end_to_end_length temperature
     = broadcast [UInt8; Float64; Float64; Float64] (fun number_of_links link_length end_to_end_length temperature =>
         Finished (Some (fjc_isometric_legendre.force number_of_links link_length end_to_end_length temperature))) number_of_links link_length end_to_end_length temperature)
  /\ (forall (nondimensional_end_to_end_length_per_link : jarray T),
     jl_fjc_isometric_legendre.nondimensional_force nondimensional_end_to_end_length_per_link
     = broadcast [Float64] (fun nondimensional_end_to_end_length_per_link =>
         Finished (Some (fjc_isometric_legendre.nondimensional_force nondimensional_end_to_end_length_per_link))) nondimensional_end_to_end_length_per_link)
  /\ (forall (number_of_links : jarray Z) (link_length : jarray T) (hinge_mass : jarray T) (end_to_end_length : jarray T) (temperature : jarray T),
     jl_fjc_isometric_legendre.helmholtz_free_energy number_of_links link_length hinge_mass end_to_end_length temperature
     = broadcast [UInt8; Float64; Float64; Float64; Float64] (fun number_of_links link_length hinge_mass end_to_end_length temperature =>
         Finished (Some (fjc_isometric_legendre.helmholtz_free_energy number_of_links link_length hinge_mass end_to_end_length temperature))) number_of_links link_length hinge_mass end_to_end_length temperature)
  /\ (forall (number_of_links : jarray Z) (link_length : jarray T) (hinge_mass : jarray T) (end_to_end_length : jarray T) (temperature : jarray T),
     jl_fjc_isometric_legendre.helmholtz_free_energy_per_link number_of_links link_length hinge_mass end_to_end_length temperature
     = broadcast [UInt8; Float64; Float64; Float64; Float64] (fun number_of_links link_length hinge_mass end_to_end_length temperature =>
         Finished (Some (fjc_isometric_legendre.helmholtz_free_energy_per_link number_of_links link_length hinge_mass end_to_end_length temperature))) number_of_links link_length hinge_mass end_to_end_length temperature)
  /\ (forall (number_of_links : jarray Z) (link_length : jarray T) (end_to_end_length : jarray T) (temperature : jarray T),
     jl_fjc_isometric_legendre.relative_helmholtz_free_energy number_of_links link_length end_to_end_length temperature
     = broadcast [UInt8; Float64; Float64; Float64] (fun number_of_links link_length end_to_end_length temperature =>
         Finished (Some (fjc_isometric_legendre.relative_helmholtz_free_energy number_of_links link_length end_to_end_length temperature))) number_of_links link_length end_to_end_length temperature)
  /\ (forall (number_of_links : jarray Z) (link_length : jarray T) (end_to_end_length : jarray T) (temperature : jarray T),
     jl_fjc_isometric_legendre.relative_helmholtz_free_energy_per_link number_of_links link_length end_to_end_length temperature
     = broadcast [UInt8; Float64; Float64; Float64] (fun number_of_links link_length end_to_end_length temperature =>
         Finished (Some (fjc_isometric_legendre.relative_helmholtz_free_energy_per_link number_of_links link_length end_to_end_length temperature))) number_of_links link_length end_to_end_length temperature)
  /\ (forall (number_of_links : jarray Z) (link_length : jarray T) (hinge_mass : jarray T) (nondimensional_end_to_end_length_per_link : jarray T) (temperature : jarray T),
     jl_fjc_isometric_legendre.nondimensional_helmholtz_free_energy number_of_links link_length hinge_mass nondimensional_end_to_end_length_per_link temperature
     = broadcast [UInt8; Float64; Float64; Float64; Float64] (fun number_of_links link_length hinge_mass nondimensional_end_to_end_length_per_link temperature =>
         Finished (Some (fjc_isometric_legendre.nondimensional_helmholtz_free_energy number_of_links link_length hinge_mass nondimensional_end_to_end_length_per_link temperature))) number_of_links link_length hinge_mass nondimensional_end_to_end_length_per_link temperature)
  /\ (forall (number_of_links : jarray Z) (link_length : jarray T) (hinge_mass : jarray T) (nondimensional_end_to_end_length_per_link : jarray T) (temperature : jarray T),
     jl_fjc_isometric_legendre.nondimensional_helmholtz_free_energy_per_link number_of_links link_length hinge_mass nondimensional_end_to_end_length_per_link temperature
     = broadcast [UInt8; Float64; Float64; Float64; Float64] (fun number_of_links link_length hinge_mass nondimensional_end_to_end_length_per_link temperature =>
         Finished (Some (fjc_isometric_legendre.nondimensional_helmholtz_free_energy_per_link number_of_links link_length hinge_mass nondimensional_end_to_end_length_per_link temperature))) number_of_links link_length hinge_mass nondimensional_end_to_end_length_per_link temperature)
  /\ (forall (number_of_links : jarray Z) (nondimensional_end_to_end_length_per_link : jarray T),
     jl_fjc_isometric_legendre.nondimensional_relative_helmholtz_free_energy number_of_links nondimensional_end_to_end_length_per_link
     = broadcast [UInt8; Float64] (fun number_of_links nondimensional_end_to_end_length_per_link =>
         Finished (Some (fjc_isometric_legendre.nondimensional_relative_helmholtz_free_energy number_of_links nondimensional_end_to_end_length_per_link))) number_of_links nondimensional_end_to_end_length_per_link)
  /\ (forall (nondimensional_end_to_end_length_per_link : jarray T),
     jl_fjc_isometric_legendre.nondimensional_relative_helmholtz_free_energy_per_link nondimensional_end_to_end_length_per_link
     = broadcast [Float64] (fun nondimensional_end_to_end_length_per_link =>
         Finished (Some (fjc_isometric_legendre.nondimensional_relative_helmholtz_free_energy_per_link nondimensional_end_to_end_length_per_link))) nondimensional_end_to_end_length_per_link)
  /\ (forall (number_of_links : jarray Z) (link_length : jarray T) (normalization_nondimensional_equilibrium_distribution : T) (end_to_end_length : jarray T),
     jl_fjc_isometric_legendre.equilibrium_distribution number_of_links link_length normalization_nondimensional_equilibrium_distribution end_to_end_length
     = broadcast [UInt8; Float64; Float64] (fun number_of_links link_length end_to_end_length =>
         Finished (Some (fjc_isometric_legendre.equilibrium_distribution number_of_links link_length normalization_nondimensional_equilibrium_distribution end_to_end_length))) number_of_links link_length end_to_end_length)
  /\ (forall (number_of_links : jarray Z) (normalization_nondimensional_equilibrium_distribution : T) (nondimensional_end_to_end_length_per_link : jarray T),
     jl_fjc_isometric_legendre.nondimensional_equilibrium_distribution number_of_links normalization_nondimensional_equilibrium_distribution nondimensional_end_to_end_length_per_link
     = broadcast [UInt8; Float64] (fun number_of_links nondimensional_end_to_end_length_per_link =>
         Finished (Some (fjc_isometric_legendre.nondimensional_equilibrium_distribution number_of_links normalization_nondimensional_equilibrium_distribution nondimensional_end_to_end_length_per_link))) number_of_links nondimensional_end_to_end_length_per_link)
  /\ (forall (number_of_links : jarray Z) (link_length : jarray T) (normalization_nondimensional_equilibrium_distribution : T) (end_to_end_length : jarray T),
     jl_fjc_isometric_legendre.equilibrium_radial_distribution number_of_links link_length normalization_nondimensional_equilibrium_distribution end_to_end_length
     = broadcast [UInt8; Float64; Float64] (fun number_of_links link_length end_to_end_length =>
         Finished (Some (fjc_isometric_legendre.equilibrium_radial_distribution number_of_links link_length normalization_nondimensional_equilibrium_distribution end_to_end_length))) number_of_links link_length end_to_end_length)
  /\ (forall (number_of_links : jarray Z) (normalization_nondimensional_equilibrium_distribution : T) (nondimensional_end_to_end_length_per_link : jarray T),
     jl_fjc_isometric_legendre.nondimensional_equilibrium_radial_distribution number_of_links normalization_nondimensional_equilibrium_distribution nondimensional_end_to_end_length_per_link
     = broadcast [UInt8; Float64] (fun number_of_links nondimensional_end_to_end_length_per_link =>
         Finished (Some (fjc_isometric_legendre.nondimensional_equilibrium_radial_distribution number_of_links normalization_nondimensional_equilibrium_distribution nondimensional_end_to_end_length_per_link))) number_of_links nondimensional_end_to_end_length_per_link)
  /\ (forall (prof : profile) (number_of_links : jarray Z) (link_length : jarray T) (hinge_mass : jarray T) (end_to_end_length : jarray T) (temperature : jarray T),
     jl_fjc_isometric_legendre.gibbs_free_energy prof number_of_links link_length hinge_mass end_to_end_length temperature
     = broadcast [UInt8; Float64; Float64; Float64; Float64] (fun number_of_links link_length hinge_mass end_to_end_length temperature =>
         Finished (fjc_isometric_legendre.gibbs_free_energy prof number_of_links link_length hinge_mass end_to_end_length temperature)) number_of_links link_length hinge_mass end_to_end_length temperature)
  /\ (forall (prof : profile) (number_of_links : jarray Z) (link_length : jarray T) (hinge_mass : jarray T) (end_to_end_length : jarray T) (temperature : jarray T),
     jl_fjc_isometric_legendre.gibbs_free_energy_per_link prof number_of_links link_length hinge_mass end_to_end_length temperature
     = broadcast [UInt8; Float64; Float64; Float64; Float64] (fun number_of_links link_length hinge_mass end_to_end_length temperature =>
         Finished (fjc_isometric_legendre.gibbs_free_energy_per_link prof number_of_links link_length hinge_mass end_to_end_length temperature)) number_of_links link_length hinge_mass end_to_end_length temperature)
  /\ (forall (prof : profile) (number_of_links : jarray Z) (link_length : jarray T) (end_to_end_length : jarray T) (temperature : jarray T),
     jl_fjc_isometric_legendre.relative_gibbs_free_energy prof number_of_links link_length end_to_end_length temperature
     = broadcast [UInt8; Float64; Float64; Float64] (fun number_of_links link_length end_to_end_length temperature =>
         Finished (fjc_isometric_legendre.relative_gibbs_free_energy prof number_of_links link_length end_to_end_length temperature)) number_of_links link_length end_to_end_length temperature)
  /\ (forall (prof : profile) (number_of_links : jarray Z) (link_length : jarray T) (end_to_end_length : jarray T) (temperature : jarray T),
     jl_fjc_isometric_legendre.relative_gibbs_free_energy_per_link prof number_of_links link_length end_to_end_length temperature
     = broadcast [UInt8; Float64; Float64; Float64] (fun number_of_links link_length end_to_end_length temperature =>
         Finished (fjc_isometric_legendre.relative_gibbs_free_energy_per_link prof number_of_links link_length end_to_end_length temperature)) number_of_links link_length end_to_end_length temperature)
  /\ (forall (prof : profile) (number_of_links : jarray Z) (link_length : jarray T) (hinge_mass : jarray T) (nondimensional_end_to_end_length_per_link : jarray T) (temperature : jarray T),
     jl_fjc_isometric_legendre.nondimensional_gibbs_free_energy prof number_of_links link_length hinge_mass nondimensional_end_to_end_length_per_link temperature
     = broadcast [UInt8; Float64; Float64; Float64; Float64] (fun number_of_links link_length hinge_mass nondimensional_end_to_end_length_per_link temperature =>
         Finished (fjc_isometric_legendre.nondimensional_gibbs_free_energy prof number_of_links link_length hinge_mass nondimensional_end_to_end_length_per_link temperature)) number_of_links link_length hinge_mass nondimensional_end_to_end_length_per_link temperature)
  /\ (forall (prof : profile) (number_of_links : jarray Z) (link_length : jarray T) (hinge_mass : jarray T) (nondimensional_end_to_end_length_per_link : jarray T) (temperature : jarray T),
     jl_fjc_isometric_legendre.nondimensional_gibbs_free_energy_per_link prof number_of_links link_length hinge_mass nondimensional_end_to_end_length_per_link temperature
     = broadcast [UInt8; Float64; Float64; Float64; Float64] (fun number_of_links link_length hinge_mass nondimensional_end_to_end_length_per_link temperature =>
         Finished (fjc_isometric_legendre.nondimensional_gibbs_free_energy_per_link prof number_of_links link_length hinge_mass nondimensional_end_to_end_length_per_link temperature)) number_of_links link_length hinge_mass nondimensional_end_to_end_length_per_link temperature)
  /\ (forall (prof : profile) (number_of_links : jarray Z) (nondimensional_end_to_end_length_per_link : jarray T),
     jl_fjc_isometric_legendre.nondimensional_relative_gibbs_free_energy prof number_of_links nondimensional_end_to_end_length_per_link
     = broadcast [UInt8; Float64] (fun number_of_links nondimensional_end_to_end_length_per_link =>
         Finished (fjc_isometric_legendre.nondimensional_relative_gibbs_free_energy prof number_of_links nondimensional_end_to_end_length_per_link)) number_of_links nondimensional_end_to_end_length_per_link)
  /\ (forall (prof : profile) (number_of_links : jarray Z) (nondimensional_end_to_end_length_per_link : jarray T),
     jl_fjc_isometric_legendre.nondimensional_relative_gibbs_free_energy_per_link prof number_of_links nondimensional_end_to_end_length_per_link
     = broadcast [UInt8; Float64] (fun number_of_links nondimensional_end_to_end_length_per_link =>
         Finished (fjc_isometric_legendre.nondimensional_relative_gibbs_free_energy_per_link prof number_of_links nondimensional_end_to_end_length_per_link)) number_of_links nondimensional_end_to_end_length_per_link).
Proof.
  exact (fun T Sc => conj (@F_fjc_isometric_legendre_force T Sc)
    (conj (@F_fjc_isometric_legendre_nondimensional_force T Sc)
    (conj (@F_fjc_isometric_legendre_helmholtz_free_energy T Sc)
    (conj (@F_fjc_isometric_legendre_helmholtz_free_energy_per_link T Sc)
    (conj (@F_fjc_isometric_legendre_relative_helmholtz_free_energy T Sc)
    (conj (@F_fjc_isometric_legendre_relative_helmholtz_free_energy_per_link T Sc)
    (conj (@F_fjc_isometric_legendre_nondimensional_helmholtz_free_energy T Sc)
    (conj (@F_fjc_isometric_legendre_nondimensional_helmholtz_free_energy_per_link T Sc)
    (conj (@F_fjc_isometric_legendre_nondimensional_relative_helmholtz_free_energy T Sc)
    (conj (@F_fjc_isometric_legendre_nondimensional_relative_helmholtz_free_energy_per_link T Sc)
    (conj (@F_fjc_isometric_legendre_equilibrium_distribution T Sc)
    (conj (@F_fjc_isometric_legendre_nondimensional_equilibrium_distribution T Sc)
    (conj (@F_fjc_isometric_legendre_equilibrium_radial_distribution T Sc)
    (conj (@F_fjc_isometric_legendre_nondimensional_equilibrium_radial_distribution T Sc)
    (conj (@F_fjc_isometric_legendre_gibbs_free_energy T Sc)
    (conj (@F_fjc_isometric_legendre_gibbs_free_energy_per_link T Sc)
    (conj (@F_fjc_isometric_legendre_relative_gibbs_free_energy T Sc)
    (conj (@F_fjc_isometric_legendre_relative_gibbs_free_energy_per_link T Sc)
    (conj (@F_fjc_isometric_legendre_nondimensional_gibbs_free_energy T Sc)
    (conj (@F_fjc_isometric_legendre_nondimensional_gibbs_free_energy_per_link T Sc)
    (conj (@F_fjc_isometric_legendre_nondimensional_relative_gibbs_free_energy T Sc)
    (@F_fjc_isometric_legendre_nondimensional_relative_gibbs_free_energy_per_link T Sc)))))))))))))))))))))).
Qed.
Print Assumptions C61_functions_fjc_isometric_legendre.

Theorem C61_object_fjc_isometric_legendre : forall (prof : profile) (number_of_links : Z) (link_length : R) (hinge_mass : R),
  exists j, J_fjc_isometric_legendre.init prof number_of_links link_length hinge_mass = Finished (Some j) /\
  let r := O_fjc_isometric_legendre.init number_of_links link_length hinge_mass in
  J_fjc_isometric_legendre.number_of_links j = O_fjc_isometric_legendre.number_of_links r
  /\ J_fjc_isometric_legendre.link_length j = O_fjc_isometric_legendre.link_length r
  /\ J_fjc_isometric_legendre.hinge_mass j = O_fjc_isometric_legendre.hinge_mass r
  /\ J_fjc_isometric_legendre.normalization_nondimensional_equilibrium_distribution j = O_fjc_isometric_legendre.normalization_nondimensional_equilibrium_distribution r
  /\ (forall (end_to_end_length : jarray R) (temperature : jarray R),
     J_fjc_isometric_legendre.force j end_to_end_length temperature
     = broadcast [Float64; Float64] (fun end_to_end_length temperature =>
         Finished (Some (O_fjc_isometric_legendre.force r end_to_end_length temperature))) end_to_end_length temperature)
  /\ (forall (nondimensional_end_to_end_length_per_link : jarray R),
     J_fjc_isometric_legendre.nondimensional_force j nondimensional_end_to_end_length_per_link
     = broadcast [Float64] (fun nondimensional_end_to_end_length_per_link =>
         Finished (Some (O_fjc_isometric_legendre.nondimensional_force r nondimensional_end_to_end_length_per_link))) nondimensional_end_to_end_length_per_link)
  /\ (forall (end_to_end_length : jarray R) (temperature : jarray R),
     J_fjc_isometric_legendre.helmholtz_free_energy j end_to_end_length temperature
     = broadcast [Float64; Float64] (fun end_to_end_length temperature =>
         Finished (Some (O_fjc_isometric_legendre.helmholtz_free_energy r end_to_end_length temperature))) end_to_end_length temperature)
  /\ (forall (end_to_end_length : jarray R) (temperature : jarray R),
     J_fjc_isometric_legendre.helmholtz_free_energy_per_link j end_to_end_length temperature
     = broadcast [Float64; Float64] (fun end_to_end_length temperature =>
         Finished (Some (O_fjc_isometric_legendre.helmholtz_free_energy_per_link r end_to_end_length temperature))) end_to_end_length temperature)
  /\ (forall (end_to_end_length : jarray R) (temperature : jarray R),
     J_fjc_isometric_legendre.relative_helmholtz_free_energy j end_to_end_length temperature
     = broadcast [Float64; Float64] (fun end_to_end_length temperature =>
         Finished (Some (O_fjc_isometric_legendre.relative_helmholtz_free_energy r end_to_end_length temperature))) end_to_end_length temperature)
  /\ (forall (end_to_end_length : jarray R) (temperature : jarray R),
     J_fjc_isometric_legendre.relative_helmholtz_free_energy_per_link j end_to_end_length temperature
     = broadcast [Float64; Float64] (fun end_to_end_length temperature =>
         Finished (Some (O_fjc_isometric_legendre.relative_helmholtz_free_energy_per_link r end_to_end_length temperature))) end_to_end_length temperature)
  /\ (forall (nondimensional_end_to_end_length_per_link : jarray R) (temperature : jarray R),
     J_fjc_isometric_legendre.nondimensional_helmholtz_free_energy j nondimensional_end_to_end_length_per_link temperature
     = broadcast [Float64; Float64] (fun nondimensional_end_to_end_length_per_link temperature =>
         Finished (Some (O_fjc_isometric_legendre.nondimensional_helmholtz_free_energy r nondimensional_end_to_end_length_per_link temperature))) nondimensional_end_to_end_length_per_link temperature)
  /\ (forall (nondimensional_end_to_end_length_per_link : jarray R) (temperature : jarray R),
     J_fjc_isometric_legendre.nondimensional_helmholtz_free_energy_per_link j nondimensional_end_to_end_length_per_link temperature
     = broadcast [Float64; Float64] (fun nondimensional_end_to_end_length_per_link temperature =>
         Finished (Some (O_fjc_isometric_legendre.nondimensional_helmholtz_free_energy_per_link r nondimensional_end_to_end_length_per_link temperature))) nondimensional_end_to_end_length_per_link temperature)
  /\ (forall (nondimensional_end_to_end_length_per_link : jarray R),
     J_fjc_isometric_legendre.nondimensional_relative_helmholtz_free_energy j nondimensional_end_to_end_length_per_link
     = broadcast [Float64] (fun nondimensional_end_to_end_length_per_link =>
         Finished (Some (O_fjc_isometric_legendre.nondimensional_relative_helmholtz_free_energy r nondimensional_end_to_end_length_per_link))) nondimensional_end_to_end_length_per_link)
  /\ (forall (nondimensional_end_to_end_length_per_link : jarray R),
     J_fjc_isometric_legendre.nondimensional_relative_helmholtz_free_energy_per_link j nondimensional_end_to_end_length_per_link
     = broadcast [Float64] (fun nondimensional_end_to_end_length_per_link =>
         Finished (Some (O_fjc_isometric_legendre.nondimensional_relative_helmholtz_free_energy_per_link r nondimensional_end_to_end_length_per_link))) nondimensional_end_to_end_length_per_link)
  /\ (forall (end_to_end_length : jarray R),
     J_fjc_isometric_legendre.equilibrium_distribution j end_to_end_length
     = broadcast [Float64] (fun end_to_end_length =>
         Finished (Some (O_fjc_isometric_legendre.equilibrium_distribution r end_to_end_length))) end_to_end_length)
  /\ (forall (nondimensional_end_to_end_length_per_link : jarray R),
     J_fjc_isometric_legendre.nondimensional_equilibrium_distribution j nondimensional_end_to_end_length_per_link
     = broadcast [Float64] (fun nondimensional_end_to_end_length_per_link =>
         Finished (Some (O_fjc_isometric_legendre.nondimensional_equilibrium_distribution r nondimensional_end_to_end_length_per_link))) nondimensional_end_to_end_length_per_link)
  /\ (forall (end_to_end_length : jarray R),
     J_fjc_isometric_legendre.equilibrium_radial_distribution j end_to_end_length
     = broadcast [Float64] (fun end_to_end_length =>
         Finished (Some (O_fjc_isometric_legendre.equilibrium_radial_distribution r end_to_end_length))) end_to_end_length)
  /\ (forall (nondimensional_end_to_end_length_per_link : jarray R),
     J_fjc_isometric_legendre.nondimensional_equilibrium_radial_distribution j nondimensional_end_to_end_length_per_link
     = broadcast [Float64] (fun nondimensional_end_to_end_length_per_link =>
         Finished (Some (O_fjc_isometric_legendre.nondimensional_equilibrium_radial_distribution r nondimensional_end_to_end_length_per_link))) nondimensional_end_to_end_length_per_link)
  /\ (forall (end_to_end_length : jarray R) (temperature : jarray R),
     J_fjc_isometric_legendre.gibbs_free_energy j end_to_end_length temperature
     = broadcast [Float64; Float64] (fun end_to_end_length temperature =>
         Finished (O_fjc_isometric_legendre.gibbs_free_energy prof r end_to_end_length temperature)) end_to_end_length temperature)
  /\ (forall (end_to_end_length : jarray R) (temperature : jarray R),
     J_fjc_isometric_legendre.gibbs_free_energy_per_link j end_to_end_length temperature
     = broadcast [Float64; Float64] (fun end_to_end_length temperature =>
         Finished (O_fjc_isometric_legendre.gibbs_free_energy_per_link prof r end_to_end_length temperature)) end_to_end_length temperature)
  /\ (forall (end_to_end_length : jarray R) (temperature : jarray R),
     J_fjc_isometric_legendre.relative_gibbs_free_energy j end_to_end_length temperature
     = broadcast [Float64; Float64] (fun end_to_end_length temperature =>
         Finished (O_fjc_isometric_legendre.relative_gibbs_free_energy prof r end_to_end_length temperature)) end_to_end_length temperature)
  /\ (forall (end_to_end_length : jarray R) (temperature : jarray R),
     J_fjc_isometric_legendre.relative_gibbs_free_energy_per_link j end_to_end_length temperature
     = broadcast [Float64; Float64] (fun end_to_end_length temperature =>
         Finished (O_fjc_isometric_legendre.relative_gibbs_free_energy_per_link prof r end_to_end_length temperature)) end_to_end_length temperature)
  /\ (forall (nondimensional_end_to_end_length_per_link : jarray R) (temperature : jarray R),
     J_fjc_isometric_legendre.nondimensional_gibbs_free_energy j nondimensional_end_to_end_length_per_link temperature
     = broadcast [Float64; Float64] (fun nondimensional_end_to_end_length_per_link temperature =>
         Finished (O_fjc_isometric_legendre.nondimensional_gibbs_free_energy prof r nondimensional_end_to_end_length_per_link temperature)) nondimensional_end_to_end_length_per_link temperature)
  /\ (forall (nondimensional_end_to_end_length_per_link : jarray R) (temperature : jarray R),
     J_fjc_isometric_legendre.nondimensional_gibbs_free_energy_per_link j nondimensional_end_to_end_length_per_link temperature
     = broadcast [Float64; Float64] (fun nondimensional_end_to_end_length_per_link temperature =>
         Finished (O_fjc_isometric_legendre.nondimensional_gibbs_free_energy_per_link prof r nondimensional_end_to_end_length_per_link temperature)) nondimensional_end_to_end_length_per_link temperature)
  /\ (forall (nondimensional_end_to_end_length_per_link : jarray R),
     J_fjc_isometric_legendre.nondimensional_relative_gibbs_free_energy j nondimensional_end_to_end_length_per_link
     = broadcast [Float64] (fun nondimensional_end_to_end_length_per_link =>
         Finished (O_fjc_isometric_legendre.nondimensional_relative_gibbs_free_energy prof r nondimensional_end_to_end_length_per_link)) nondimensional_end_to_end_length_per_link)
  /\ (forall (nondimensional_end_to_end_length_per_link : jarray R),
     J_fjc_isometric_legendre.nondimensional_relative_gibbs_free_energy_per_link j nondimensional_end_to_end_length_per_link
     = broadcast [Float64] (fun nondimensional_end_to_end_length_per_link =>
         Finished (O_fjc_isometric_legendre.nondimensional_relative_gibbs_free_energy_per_link prof r nondimensional_end_to_end_length_per_link)) nondimensional_end_to_end_length_per_link).
Proof.
  intros prof number_of_links link_length hinge_mass.
  eexists; split.
  { unfold J_fjc_isometric_legendre.init.
    change jl_POINTS with (Z.to_nat POINTS).
    rewrite (integrate_pure _ (fun nondimensional_end_to_end_length_per_link => fjc_isometric_legendre.nondimensional_equilibrium_radial_distribution number_of_links ((sdec 1 0)) nondimensional_end_to_end_length_per_link)); [|discriminate|reflexivity].
    reflexivity. }
  intros r.
  split; [reflexivity|].
  split; [reflexivity|].
  split; [reflexivity|].
  split; [reflexivity|].
  split; [intros; cbv [J_fjc_isometric_legendre.force]; rewrite F_fjc_isometric_legendre_force; unfold O_fjc_isometric_legendre.force; broadcast_numbers|].
  split; [intros; cbv [J_fjc_isometric_legendre.nondimensional_force]; rewrite F_fjc_isometric_legendre_nondimensional_force; unfold O_fjc_isometric_legendre.nondimensional_force; broadcast_numbers|].
  split; [intros; cbv [J_fjc_isometric_legendre.helmholtz_free_energy]; rewrite F_fjc_isometric_legendre_helmholtz_free_energy; unfold O_fjc_isometric_legendre.helmholtz_free_energy; broadcast_numbers|].
  split; [intros; cbv [J_fjc_isometric_legendre.helmholtz_free_energy_per_link]; rewrite F_fjc_isometric_legendre_helmholtz_free_energy_per_link; unfold O_fjc_isometric_legendre.helmholtz_free_energy_per_link; broadcast_numbers|].
  split; [intros; cbv [J_fjc_isometric_legendre.relative_helmholtz_free_energy]; rewrite F_fjc_isometric_legendre_relative_helmholtz_free_energy; unfold O_fjc_isometric_legendre.relative_helmholtz_free_energy; broadcast_numbers|].
  split; [intros; cbv [J_fjc_isometric_legendre.relative_helmholtz_free_energy_per_link]; rewrite F_fjc_isometric_legendre_relative_helmholtz_free_energy_per_link; unfold O_fjc_isometric_legendre.relative_helmholtz_free_energy_per_link; broadcast_numbers|].
  split; [intros; cbv [J_fjc_isometric_legendre.nondimensional_helmholtz_free_energy]; rewrite F_fjc_isometric_legendre_nondimensional_helmholtz_free_energy; unfold O_fjc_isometric_legendre.nondimensional_helmholtz_free_energy; broadcast_numbers|].
  split; [intros; cbv [J_fjc_isometric_legendre.nondimensional_helmholtz_free_energy_per_link]; rewrite F_fjc_isometric_legendre_nondimensional_helmholtz_free_energy_per_link; unfold O_fjc_isometric_legendre.nondimensional_helmholtz_free_energy_per_link; broadcast_numbers|].
  split; [intros; cbv [J_fjc_isometric_legendre.nondimensional_relative_helmholtz_free_energy]; rewrite F_fjc_isometric_legendre_nondimensional_relative_helmholtz_free_energy; unfold O_fjc_isometric_legendre.nondimensional_relative_helmholtz_free_energy; broadcast_numbers|].
  split; [intros; cbv [J_fjc_isometric_legendre.nondimensional_relative_helmholtz_free_energy_per_link]; rewrite F_fjc_isometric_legendre_nondimensional_relative_helmholtz_free_energy_per_link; unfold O_fjc_isometric_legendre.nondimensional_relative_helmholtz_free_energy_per_link; broadcast_numbers|].
  split; [intros; cbv [J_fjc_isometric_legendre.equilibrium_distribution]; rewrite F_fjc_isometric_legendre_equilibrium_distribution; unfold O_fjc_isometric_legendre.equilibrium_distribution; broadcast_numbers|].
  split; [intros; cbv [J_fjc_isometric_legendre.nondimensional_equilibrium_distribution]; rewrite F_fjc_isometric_legendre_nondimensional_equilibrium_distribution; unfold O_fjc_isometric_legendre.nondimensional_equilibrium_distribution; broadcast_numbers|].
  split; [intros; cbv [J_fjc_isometric_legendre.equilibrium_radial_distribution]; rewrite F_fjc_isometric_legendre_equilibrium_radial_distribution; unfold O_fjc_isometric_legendre.equilibrium_radial_distribution; broadcast_numbers|].
  split; [intros; cbv [J_fjc_isometric_legendre.nondimensional_equilibrium_radial_distribution]; rewrite F_fjc_isometric_legendre_nondimensional_equilibrium_radial_distribution; unfold O_fjc_isometric_legendre.nondimensional_equilibrium_radial_distribution; broadcast_numbers|].
  split; [intros; cbv [J_fjc_isometric_legendre.gibbs_free_energy]; rewrite F_fjc_isometric_legendre_gibbs_free_energy; unfold O_fjc_isometric_legendre.gibbs_free_energy; broadcast_numbers|].
  split; [intros; cbv [J_fjc_isometric_legendre.gibbs_free_energy_per_link]; rewrite F_fjc_isometric_legendre_gibbs_free_energy_per_link; unfold O_fjc_isometric_legendre.gibbs_free_energy_per_link; broadcast_numbers|].
  split; [intros; cbv [J_fjc_isometric_legendre.relative_gibbs_free_energy]; rewrite F_fjc_isometric_legendre_relative_gibbs_free_energy; unfold O_fjc_isometric_legendre.relative_gibbs_free_energy; broadcast_numbers|].
  split; [intros; cbv [J_fjc_isometric_legendre.relative_gibbs_free_energy_per_link]; rewrite F_fjc_isometric_legendre_relative_gibbs_free_energy_per_link; unfold O_fjc_isometric_legendre.relative_gibbs_free_energy_per_link; broadcast_numbers|].
  split; [intros; cbv [J_fjc_isometric_legendre.nondimensional_gibbs_free_energy]; rewrite F_fjc_isometric_legendre_nondimensional_gibbs_free_energy; unfold O_fjc_isometric_legendre.nondimensional_gibbs_free_energy; broadcast_numbers|].
  split; [intros; cbv [J_fjc_isometric_legendre.nondimensional_gibbs_free_energy_per_link]; rewrite F_fjc_isometric_legendre_nondimensional_gibbs_free_energy_per_link; unfold O_fjc_isometric_legendre.nondimensional_gibbs_free_energy_per_link; broadcast_numbers|].
  split; [intros; cbv [J_fjc_isometric_legendre.nondimensional_relative_gibbs_free_energy]; rewrite F_fjc_isometric_legendre_nondimensional_relative_gibbs_free_energy; unfold O_fjc_isometric_legendre.nondimensional_relative_gibbs_free_energy; broadcast_numbers|].
  intros; cbv [J_fjc_isometric_legendre.nondimensional_relative_gibbs_free_energy_per_link]; rewrite F_fjc_isometric_legendre_nondimensional_relative_gibbs_free_energy_per_link; unfold O_fjc_isometric_legendre.nondimensional_relative_gibbs_free_energy_per_link; broadcast_numbers.
Qed.
Print Assumptions C61_object_fjc_isometric_legendre.

Theorem C61_functions_fjc_isotensional_legendre : forall (T : Type) (Sc : Scalar T),
  (forall (number_of_links : jarray Z) (link_length : jarray T) (hinge_mass : jarray T) (force : jarray T) (temperature : jarray T),
     jl_fjc_isotensional_legendre.helmholtz_free_energy number_of_links link_length hinge_mass force temperature
     = broadcast [UInt8; Float64; Float64; Float64; Float64] (fun number_of_links link_length hinge_mass force temperature =>
         Finished (Some (fjc_isotensional_legendre.helmholtz_free_energy number_of_links link_length hinge_mass force temperature))) number_of_links link_length hinge_mass force temperature)
  /\ (forall (link_length : jarray T) (hinge_mass : jarray T) (force : jarray T) (temperature : jarray T),
     jl_fjc_isotensional_legendre.helmholtz_free_energy_per_link link_length hinge_mass force temperature
     = broadcast [Float64; Float64; Float64; Float64] (fun link_length hinge_mass force temperature =>
         Finished (Some (fjc_isotensional_legendre.helmholtz_free_energy_per_link link_length hinge_mass force temperature))) link_length hinge_mass force temperature)
  /\ (forall (number_of_links : jarray Z) (link_length : jarray T) (force : jarray T) (temperature : jarray T),
     jl_fjc_isotensional_legendre.relative_helmholtz_free_energy number_of_links link_length force temperature
     = broadcast [UInt8; Float64; Float64; Float64] (fun number_of_links link_length force temperature =>
         Finished (Some (fjc_isotensional_legendre.relative_helmholtz_free_energy number_of_links link_length force temperature))) number_of_links link_length force temperature)
  /\ (forall (link_length : jarray T) (force : jarray T) (temperature : jarray T),
     jl_fjc_isotensional_legendre.relative_helmholtz_free_energy_per_link link_length force temperature
     = broadcast [Float64; Float64; Float64] (fun link_length force temperature =>
         Finished (Some (fjc_isotensional_legendre.relative_helmholtz_free_energy_per_link link_length force temperature))) link_length force temperature)
  /\ (forall (number_of_links : jarray Z) (link_length : jarray T) (hinge_mass : jarray T) (nondimensional_force : jarray T) (temperature : jarray T),
     jl_fjc_isotensional_legendre.nondimensional_helmholtz_free_energy number_of_links link_length hinge_mass nondimensional_force temperature
     = broadcast [UInt8; Float64; Float64; Float64; Float64] (fun number_of_links link_length hinge_mass nondimensional_force temperature =>
         Finished (Some (fjc_isotensional_legendre.nondimensional_helmholtz_free_energy number_of_links link_length hinge_mass nondimensional_force temperature))) number_of_links link_length hinge_mass nondimensional_force temperature)
  /\ (forall (link_length : jarray T) (hinge_mass : jarray T) (nondimensional_force : jarray T) (temperature : jarray T),
     jl_fjc_isotensional_legendre.nondimensional_helmholtz_free_energy_per_link link_length hinge_mass nondimensional_force temperature
     = broadcast [Float64; Float64; Float64; Float64] (fun link_length hinge_mass nondimensional_force temperature =>
         Finished (Some (fjc_isotensional_legendre.nondimensional_helmholtz_free_energy_per_link link_length hinge_mass nondimensional_force temperature))) link_length hinge_mass nondimensional_force temperature)
  /\ (forall (number_of_links : jarray Z) (nondimensional_force : jarray T),
     jl_fjc_isotensional_legendre.nondimensional_relative_helmholtz_free_energy number_of_links nondimensional_force
     = broadcast [UInt8; Float64] (fun number_of_links nondimensional_force =>
         Finished (Some (fjc_isotensional_legendre.nondimensional_relative_helmholtz_free_energy number_of_links nondimensional_force))) number_of_links nondimensional_force)
  /\ (forall (nondimensional_force : jarray T),
     jl_fjc_isotensional_legendre.nondimensional_relative_helmholtz_free_energy_per_link nondimensional_force
     = broadcast [Float64] (fun nondimensional_force =>
         Finished (Some (fjc_isotensional_legendre.nondimensional_relative_helmholtz_free_energy_per_link nondimensional_force))) nondimensional_force).
Proof.
  exact (fun T Sc => conj (@F_fjc_isotensional_legendre_helmholtz_free_energy T Sc)
    (conj (@F_fjc_isotensional_legendre_helmholtz_free_energy_per_link T Sc)
    (conj (@F_fjc_isotensional_legendre_relative_helmholtz_free_energy T Sc)
    (conj (@F_fjc_isotensional_legendre_relative_helmholtz_free_energy_per_link T Sc)
    (conj (@F_fjc_isotensional_legendre_nondimensional_helmholtz_free_energy T Sc)
    (conj (@F_fjc_isotensional_legendre_nondimensional_helmholtz_free_energy_per_link T Sc)
    (conj (@F_fjc_isotensional_legendre_nondimensional_relative_helmholtz_free_energy T Sc)
    (@F_fjc_isotensional_legendre_nondimensional_relative_helmholtz_free_energy_per_link T Sc)))))))).
Qed.
Print Assumptions C61_functions_fjc_isotensional_legendre.

Theorem C61_object_fjc_isotensional_legendre : forall (T : Type) (Sc : Scalar T) (number_of_links : Z) (link_length : T) (hinge_mass : T),
  let j := J_fjc_isotensional_legendre.init number_of_links link_length hinge_mass in
  let r := O_fjc_isotensional_legendre.init number_of_links link_length hinge_mass in
  J_fjc_isotensional_legendre.number_of_links j = O_fjc_isotensional_legendre.number_of_links r
  /\ J_fjc_isotensional_legendre.link_length j = O_fjc_isotensional_legendre.link_length r
  /\ J_fjc_isotensional_legendre.hinge_mass j = O_fjc_isotensional_legendre.hinge_mass r
  /\ (forall (force : jarray T) (temperature : jarray T),
     J_fjc_isotensional_legendre.helmholtz_free_energy j force temperature
     = broadcast [Float64; Float64] (fun force temperature =>
         Finished (Some (O_fjc_isotensional_legendre.helmholtz_free_energy r force temperature))) force temperature)
  /\ (forall (force : jarray T) (temperature : jarray T),
     J_fjc_isotensional_legendre.helmholtz_free_energy_per_link j force temperature
     = broadcast [Float64; Float64] (fun force temperature =>
         Finished (Some (O_fjc_isotensional_legendre.helmholtz_free_energy_per_link r force temperature))) force temperature)
  /\ (forall (force : jarray T) (temperature : jarray T),
     J_fjc_isotensional_legendre.relative_helmholtz_free_energy j force temperature
     = broadcast [Float64; Float64] (fun force temperature =>
         Finished (Some (O_fjc_isotensional_legendre.relative_helmholtz_free_energy r force temperature))) force temperature)
  /\ (forall (force : jarray T) (temperature : jarray T),
     J_fjc_isotensional_legendre.relative_helmholtz_free_energy_per_link j force temperature
     = broadcast [Float64; Float64] (fun force temperature =>
         Finished (Some (O_fjc_isotensional_legendre.relative_helmholtz_free_energy_per_link r force temperature))) force temperature)
  /\ (forall (nondimensional_force : jarray T) (temperature : jarray T),
     J_fjc_isotensional_legendre.nondimensional_helmholtz_free_energy j nondimensional_force temperature
     = broadcast [Float64; Float64] (fun nondimensional_force temperature =>
         Finished (Some (O_fjc_isotensional_legendre.nondimensional_helmholtz_free_energy r nondimensional_force temperature))) nondimensional_force temperature)
  /\ (forall (nondimensional_force : jarray T) (temperature : jarray T),
     J_fjc_isotensional_legendre.nondimensional_helmholtz_free_energy_per_link j nondimensional_force temperature
     = broadcast [Float64; Float64] (fun nondimensional_force temperature =>
         Finished (Some (O_fjc_isotensional_legendre.nondimensional_helmholtz_free_energy_per_link r nondimensional_force temperature))) nondimensional_force temperature)
  /\ (forall (nondimensional_force : jarray T),
     J_fjc_isotensional_legendre.nondimensional_relative_helmholtz_free_energy j nondimensional_force
     = broadcast [Float64] (fun nondimensional_force =>
         Finished (Some (O_fjc_isotensional_legendre.nondimensional_relative_helmholtz_free_energy r nondimensional_force))) nondimensional_force)
  /\ (forall (nondimensional_force : jarray T),
     J_fjc_isotensional_legendre.nondimensional_relative_helmholtz_free_energy_per_link j nondimensional_force
     = broadcast [Float64] (fun nondimensional_force =>
         Finished (Some (O_fjc_isotensional_legendre.nondimensional_relative_helmholtz_free_energy_per_link r nondimensional_force))) nondimensional_force).
Proof. intros T Sc number_of_links link_length hinge_mass j r.
  split; [reflexivity|].
  split; [reflexivity|].
  split; [reflexivity|].
  split; [intros; cbv [j J_fjc_isotensional_legendre.init J_fjc_isotensional_legendre.helmholtz_free_energy]; rewrite F_fjc_isotensional_legendre_helmholtz_free_energy; unfold O_fjc_isotensional_legendre.helmholtz_free_energy; broadcast_numbers|].
  split; [intros; cbv [j J_fjc_isotensional_legendre.init J_fjc_isotensional_legendre.helmholtz_free_energy_per_link]; rewrite F_fjc_isotensional_legendre_helmholtz_free_energy_per_link; unfold O_fjc_isotensional_legendre.helmholtz_free_energy_per_link; broadcast_numbers|].
  split; [intros; cbv [j J_fjc_isotensional_legendre.init J_fjc_isotensional_legendre.relative_helmholtz_free_energy]; rewrite F_fjc_isotensional_legendre_relative_helmholtz_free_energy; unfold O_fjc_isotensional_legendre.relative_helmholtz_free_energy; broadcast_numbers|].
  split; [intros; cbv [j J_fjc_isotensional_legendre.init J_fjc_isotensional_legendre.relative_helmholtz_free_energy_per_link]; rewrite F_fjc_isotensional_legendre_relative_helmholtz_free_energy_per_link; unfold O_fjc_isotensional_legendre.relative_helmholtz_free_energy_per_link; broadcast_numbers|].
  split; [intros; cbv [j J_fjc_isotensional_legendre.init J_fjc_isotensional_legendre.nondimensional_helmholtz_free_energy]; rewrite F_fjc_isotensional_legendre_nondimensional_helmholtz_free_energy; unfold O_fjc_isotensional_legendre.nondimensional_helmholtz_free_energy; broadcast_numbers|].
  split; [intros; cbv [j J_fjc_isotensional_legendre.init J_fjc_isotensional_legendre.nondimensional_helmholtz_free_energy_per_link]; rewrite F_fjc_isotensional_legendre_nondimensional_helmholtz_free_energy_per_link; unfold O_fjc_isotensional_legendre.nondimensional_helmholtz_free_energy_per_link; broadcast_numbers|].
  split; [intros; cbv [j J_fjc_isotensional_legendre.init J_fjc_isotensional_legendre.nondimensional_relative_helmholtz_free_energy]; rewrite F_fjc_isotensional_legendre_nondimensional_relative_helmholtz_free_energy; unfold O_fjc_isotensional_legendre.nondimensional_relative_helmholtz_free_energy; broadcast_numbers|].
  intros; cbv [j J_fjc_isotensional_legendre.init J_fjc_isotensional_legendre.nondimensional_relative_helmholtz_free_energy_per_link]; rewrite F_fjc_isotensional_legendre_nondimensional_relative_helmholtz_free_energy_per_link; unfold O_fjc_isotensional_legendre.nondimensional_relative_helmholtz_free_energy_per_link; broadcast_numbers.
Qed.
Print Assumptions C61_object_fjc_isotensional_legendre.

Theorem C61_object_fjc_modified_canonical_asymptotic : forall (T : Type) (Sc : Scalar T) (prof : profile) (number_of_links : Z) (link_length : T) (hinge_mass : T),
  let j := J_fjc_modified_canonical_asymptotic.init prof number_of_links link_length hinge_mass in
  let r := O_fjc_modified_canonical_asymptotic.init number_of_links link_length hinge_mass in
  J_fjc_modified_canonical_asymptotic.number_of_links j = O_fjc_modified_canonical_asymptotic.number_of_links r
  /\ J_fjc_modified_canonical_asymptotic.link_length j = O_fjc_modified_canonical_asymptotic.link_length r
  /\ J_fjc_modified_canonical_asymptotic.hinge_mass j = O_fjc_modified_canonical_asymptotic.hinge_mass r
  /\ J_fjc_modified_canonical_asymptotic.strong_potential j = J_fjc_modified_canonical_asymptotic_strong_potential.init prof number_of_links link_length hinge_mass
  /\ J_fjc_modified_canonical_asymptotic.weak_potential j = J_fjc_modified_canonical_asymptotic_weak_potential.init number_of_links link_length hinge_mass.
Proof. intros T Sc prof number_of_links link_length hinge_mass j r.
  split; [reflexivity|].
  split; [reflexivity|].
  split; [reflexivity|].
  split; [reflexivity|].
  reflexivity.
Qed.
Print Assumptions C61_object_fjc_modified_canonical_asymptotic.

Theorem C61_functions_swfjc_isometric_legendre : forall (T : Type) (Sc : Scalar T),
  (forall (number_of_links : jarray Z) (link_length : jarray T) (well_width : jarray T) (end_to_end_length : jarray T) (temperature : jarray T),
     jl_swfjc_isometric_legendre.force number_of_links link_length well_width end_to_end_length temperature
     = broadcast [UInt8; Float64; Float64; Float64; Float64] (fun number_of_links link_length well_width end_to_end_length temperature =>
         Finished (Some (swfjc_isometric_legendre.force number_of_links link_length well_width end_to_end_length temperature))) number_of_links link_length well_width end_to_end_length temperature)
  /\ (forall (link_length : jarray T) (well_width : jarray T) (nondimensional_end_to_end_length_per_link : jarray T),
     jl_swfjc_isometric_legendre.nondimensional_force link_length well_width nondimensional_end_to_end_length_per_link
     = broadcast [Float64; Float64; Float64] (fun link_length well_width nondimensional_end_to_end_length_per_link =>
         Finished (Some (swfjc_isometric_legendre.nondimensional_force link_length well_width nondimensional_end_to_end_length_per_link))) link_length well_width nondimensional_end_to_end_length_per_link)
  /\ (forall (number_of_links : jarray Z) (link_length : jarray T) (hinge_mass : jarray T) (well_width : jarray T) (end_to_end_length : jarray T) (temperature : jarray T),
     jl_swfjc_isometric_legendre.helmholtz_free_energy number_of_links link_length hinge_mass well_width end_to_end_length temperature
     = broadcast [UInt8; Float64; Float64; Float64; Float64; Float64] (fun number_of_links link_length hinge_mass well_width end_to_end_length temperature =>
         Finished (Some (swfjc_isometric_legendre.helmholtz_free_energy number_of_links link_length hinge_mass well_width end_to_end_length temperature))) number_of_links link_length hinge_mass well_width end_to_end_length temperature)
  /\ (forall (number_of_links : jarray Z) (link_length : jarray T) (hinge_mass : jarray T) (well_width : jarray T) (end_to_end_length : jarray T) (temperature : jarray T),
     jl_swfjc_isometric_legendre.helmholtz_free_energy_per_link number_of_links link_length hinge_mass well_width end_to_end_length temperature
     = broadcast [UInt8; Float64; Float64; Float64; Float64; Float64] (fun number_of_links link_length hinge_mass well_width end_to_end_length temperature =>
         Finished (Some (swfjc_isometric_legendre.helmholtz_free_energy_per_link number_of_links link_length hinge_mass well_width end_to_end_length temperature))) number_of_links link_length hinge_mass well_width end_to_end_length temperature)
  /\ (forall (number_of_links : jarray Z) (link_length : jarray T) (well_width : jarray T) (end_to_end_length : jarray T) (temperature : jarray T),
     jl_swfjc_isometric_legendre.relative_helmholtz_free_energy number_of_links link_length well_width end_to_end_length temperature
     = broadcast [UInt8; Float64; Float64; Float64; Float64] (fun number_of_links link_length well_width end_to_end_length temperature =>
         Finished (Some (swfjc_isometric_legendre.relative_helmholtz_free_energy number_of_links link_length well_width end_to_end_length temperature))) number_of_links link_length well_width end_to_end_length temperature)
  /\ (forall (number_of_links : jarray Z) (link_length : jarray T) (well_width : jarray T) (end_to_end_length : jarray T) (temperature : jarray T),
     jl_swfjc_isometric_legendre.relative_helmholtz_free_energy_per_link number_of_links link_length well_width end_to_end_length temperature
     = broadcast [UInt8; Float64; Float64; Float64; Float64] (fun number_of_links link_length well_width end_to_end_length temperature =>
         Finished (Some (swfjc_isometric_legendre.relative_helmholtz_free_energy_per_link number_of_links link_length well_width end_to_end_length temperature))) number_of_links link_length well_width end_to_end_length temperature)
  /\ (forall (number_of_links : jarray Z) (link_length : jarray T) (hinge_mass : jarray T) (well_width : jarray T) (nondimensional_end_to_end_length_per_link : jarray T) (temperature : jarray T),
     jl_swfjc_isometric_legendre.nondimensional_helmholtz_free_energy number_of_links link_length hinge_mass well_width nondimensional_end_to_end_length_per_link temperature
     = broadcast [UInt8; Float64; Float64; Float64; Float64; Float64] (fun number_of_links link_length hinge_mass well_width nondimensional_end_to_end_length_per_link temperature =>
         Finished (Some (swfjc_isometric_legendre.nondimensional_helmholtz_free_energy number_of_links link_length hinge_mass well_width nondimensional_end_to_end_length_per_link temperature))) number_of_links link_length hinge_mass well_width nondimensional_end_to_end_length_per_link temperature)
  /\ (forall (number_of_links : jarray Z) (link_length : jarray T) (hinge_mass : jarray T) (well_width : jarray T) (nondimensional_end_to_end_length_per_link : jarray T) (temperature : jarray T),
     jl_swfjc_isometric_legendre.nondimensional_helmholtz_free_energy_per_link number_of_links link_length hinge_mass well_width nondimensional_end_to_end_length_per_link temperature
     = broadcast [UInt8; Float64; Float64; Float64; Float64; Float64] (fun number_of_links link_length hinge_mass well_width nondimensional_end_to_end_length_per_link temperature =>
         Finished (Some (swfjc_isometric_legendre.nondimensional_helmholtz_free_energy_per_link number_of_links link_length hinge_mass well_width nondimensional_end_to_end_length_per_link temperature))) number_of_links link_length hinge_mass well_width nondimensional_end_to_end_length_per_link temperature)
  /\ (forall (number_of_links : jarray Z) (link_length : jarray T) (well_width : jarray T) (nondimensional_end_to_end_length_per_link : jarray T),
     jl_swfjc_isometric_legendre.nondimensional_relative_helmholtz_free_energy number_of_links link_length well_width nondimensional_end_to_end_length_per_link
     = broadcast [UInt8; Float64; Float64; Float64] (fun number_of_links link_length well_width nondimensional_end_to_end_length_per_link =>
         Finished (Some (swfjc_isometric_legendre.nondimensional_relative_helmholtz_free_energy number_of_links link_length well_width nondimensional_end_to_end_length_per_link))) number_of_links link_length well_width nondimensional_end_to_end_length_per_link)
  /\ (forall (link_length : jarray T) (well_width : jarray T) (nondimensional_end_to_end_length_per_link : jarray T),
     jl_swfjc_isometric_legendre.nondimensional_relative_helmholtz_free_energy_per_link link_length well_width nondimensional_end_to_end_length_per_link
     = broadcast [Float64; Float64; Float64] (fun link_length well_width nondimensional_end_to_end_length_per_link =>
         Finished (Some (swfjc_isometric_legendre.nondimensional_relative_helmholtz_free_energy_per_link link_length well_width nondimensional_end_to_end_length_per_link))) link_length well_width nondimensional_end_to_end_length_per_link)
  /\ (forall (number_of_links : jarray Z) (link_length : jarray T) (well_width : jarray T) (normalization_nondimensional_equilibrium_distribution : T) (end_to_end_length : jarray T),
     jl_swfjc_isometric_legendre.equilibrium_distribution number_of_links link_length well_width normalization_nondimensional_equilibrium_distribution end_to_end_length
     = broadcast [UInt8; Float64; Float64; Float64] (fun number_of_links link_length well_width end_to_end_length =>
         Finished (Some (swfjc_isometric_legendre.equilibrium_distribution number_of_links link_length well_width normalization_nondimensional_equilibrium_distribution end_to_end_length))) number_of_links link_length well_width end_to_end_length)
  /\ (forall (number_of_links : jarray Z) (link_length : jarray T) (well_width : jarray T) (normalization_nondimensional_equilibrium_distribution : T) (nondimensional_end_to_end_length_per_link : jarray T),
     jl_swfjc_isometric_legendre.nondimensional_equilibrium_distribution number_of_links link_length well_width normalization_nondimensional_equilibrium_distribution nondimensional_end_to_end_length_per_link
     = broadcast [UInt8; Float64; Float64; Float64] (fun number_of_links link_length well_width nondimensional_end_to_end_length_per_link =>
         Finished (Some (swfjc_isometric_legendre.nondimensional_equilibrium_distribution number_of_links link_length well_width normalization_nondimensional_equilibrium_distribution nondimensional_end_to_end_length_per_link))) number_of_links link_length well_width nondimensional_end_to_end_length_per_link)
  /\ (forall (number_of_links : jarray Z) (link_length : jarray T) (well_width : jarray T) (normalization_nondimensional_equilibrium_distribution : T) (end_to_end_length : jarray T),
     jl_swfjc_isometric_legendre.equilibrium_radial_distribution number_of_links link_length well_width normalization_nondimensional_equilibrium_distribution end_to_end_length
     = broadcast [UInt8; Float64; Float64; Float64] (fun number_of_links link_length well_width end_to_end_length =>
         Finished (Some (swfjc_isometric_legendre.equilibrium_radial_distribution number_of_links link_length well_width normalization_nondimensional_equilibrium_distribution end_to_end_length))) number_of_links link_length well_width end_to_end_length)
  /\ (forall (number_of_links : jarray Z) (link_length : jarray T) (well_width : jarray T) (normalization_nondimensional_equilibrium_distribution : T) (nondimensional_end_to_end_length_per_link : jarray T),
     jl_swfjc_isometric_legendre.nondimensional_equilibrium_radial_distribution number_of_links link_length well_width normalization_nondimensional_equilibrium_distribution nondimensional_end_to_end_length_per_link
     = broadcast [UInt8; Float64; Float64; Float64] (fun number_of_links link_length well_width nondimensional_end_to_end_length_per_link =>
         Finished (Some (swfjc_isometric_legendre.nondimensional_equilibrium_radial_distribution number_of_links link_length well_width normalization_nondimensional_equilibrium_distribution nondimensional_end_to_end_length_per_link))) number_of_links link_length well_width nondimensional_end_to_end_length_per_link).
Proof.
  exact (fun T Sc => conj (@F_swfjc_isometric_legendre_force T Sc)
    (conj (@F_swfjc_isometric_legendre_nondimensional_force T Sc)
    (conj (@F_swfjc_isometric_legendre_helmholtz_free_energy T Sc)
    (conj (@F_swfjc_isometric_legendre_helmholtz_free_energy_per_link T Sc)
    (conj (@F_swfjc_isometric_legendre_relative_helmholtz_free_energy T Sc)
    (conj (@F_swfjc_isometric_legendre_relative_helmholtz_free_energy_per_link T Sc)
    (conj (@F_swfjc_isometric_legendre_nondimensional_helmholtz_free_energy T Sc)
    (conj (@F_swfjc_isometric_legendre_nondimensional_helmholtz_free_energy_per_link T Sc)
    (conj (@F_swfjc_isometric_legendre_nondimensional_relative_helmholtz_free_energy T Sc)
    (conj (@F_swfjc_isometric_legendre_nondimensional_relative_helmholtz_free_energy_per_link T Sc)
    (conj (@F_swfjc_isometric_legendre_equilibrium_distribution T Sc)
    (conj (@F_swfjc_isometric_legendre_nondimensional_equilibrium_distribution T Sc)
    (conj (@F_swfjc_isometric_legendre_equilibrium_radial_distribution T Sc)
    (@F_swfjc_isometric_legendre_nondimensional_equilibrium_radial_distribution T Sc)))))))))))))).
Qed.
Print Assumptions C61_functions_swfjc_isometric_legendre.

Theorem C61_object_swfjc_isometric_legendre : forall (number_of_links : Z) (link_length : R) (hinge_mass : R) (well_width : R),
  exists j, J_swfjc_isometric_legendre.init number_of_links link_length hinge_mass well_width = Finished (Some j) /\
  let r := O_swfjc_isometric_legendre.init number_of_links link_length hinge_mass well_width in
  J_swfjc_isometric_legendre.number_of_links j = O_swfjc_isometric_legendre.number_of_links r
  /\ J_swfjc_isometric_legendre.link_length j = O_swfjc_isometric_legendre.link_length r
  /\ J_swfjc_isometric_legendre.hinge_mass j = O_swfjc_isometric_legendre.hinge_mass r
  /\ J_swfjc_isometric_legendre.well_width j = O_swfjc_isometric_legendre.well_width r
  /\ J_swfjc_isometric_legendre.normalization_nondimensional_equilibrium_distribution j = O_swfjc_isometric_legendre.normalization_nondimensional_equilibrium_distribution r
  /\ (forall (end_to_end_length : jarray R) (temperature : jarray R),
     J_swfjc_isometric_legendre.force j end_to_end_length temperature
     = broadcast [Float64; Float64] (fun end_to_end_length temperature =>
         Finished (Some (O_swfjc_isometric_legendre.force r end_to_end_length temperature))) end_to_end_length temperature)
  /\ (forall (nondimensional_end_to_end_length_per_link : jarray R),
     J_swfjc_isometric_legendre.nondimensional_force j nondimensional_end_to_end_length_per_link
     = broadcast [Float64] (fun nondimensional_end_to_end_length_per_link =>
         Finished (Some (O_swfjc_isometric_legendre.nondimensional_force r nondimensional_end_to_end_length_per_link))) nondimensional_end_to_end_length_per_link)
  /\ (forall (end_to_end_length : jarray R) (temperature : jarray R),
     J_swfjc_isometric_legendre.helmholtz_free_energy j end_to_end_length temperature
     = broadcast [Float64; Float64] (fun end_to_end_length temperature =>
         Finished (Some (O_swfjc_isometric_legendre.helmholtz_free_energy r end_to_end_length temperature))) end_to_end_length temperature)
  /\ (forall (end_to_end_length : jarray R) (temperature : jarray R),
     J_swfjc_isometric_legendre.helmholtz_free_energy_per_link j end_to_end_length temperature
     = broadcast [Float64; Float64] (fun end_to_end_length temperature =>
         Finished (Some (O_swfjc_isometric_legendre.helmholtz_free_energy_per_link r end_to_end_length temperature))) end_to_end_length temperature)
  /\ (forall (end_to_end_length : jarray R) (temperature : jarray R),
     J_swfjc_isometric_legendre.relative_helmholtz_free_energy j end_to_end_length temperature
     = broadcast [Float64; Float64] (fun end_to_end_length temperature =>
         Finished (Some (O_swfjc_isometric_legendre.relative_helmholtz_free_energy r end_to_end_length temperature))) end_to_end_length temperature)
  /\ (forall (end_to_end_length : jarray R) (temperature : jarray R),
     J_swfjc_isometric_legendre.relative_helmholtz_free_energy_per_link j end_to_end_length temperature
     = broadcast [Float64; Float64] (fun end_to_end_length temperature =>
         Finished (Some (O_swfjc_isometric_legendre.relative_helmholtz_free_energy_per_link r end_to_end_length temperature))) end_to_end_length temperature)
  /\ (forall (nondimensional_end_to_end_length_per_link : jarray R) (temperature : jarray R),
     J_swfjc_isometric_legendre.nondimensional_helmholtz_free_energy j nondimensional_end_to_end_length_per_link temperature
     = broadcast [Float64; Float64] (fun nondimensional_end_to_end_length_per_link temperature =>
         Finished (Some (O_swfjc_isometric_legendre.nondimensional_helmholtz_free_energy r nondimensional_end_to_end_length_per_link temperature))) nondimensional_end_to_end_length_per_link temperature)
  /\ (forall (nondimensional_end_to_end_length_per_link : jarray R) (temperature : jarray R),
     J_swfjc_isometric_legendre.nondimensional_helmholtz_free_energy_per_link j nondimensional_end_to_end_length_per_link temperature
     = broadcast [Float64; Float64] (fun nondimensional_end_to_end_length_per_link temperature =>
         Finished (Some (O_swfjc_isometric_legendre.nondimensional_helmholtz_free_energy_per_link r nondimensional_end_to_end_length_per_link temperature))) nondimensional_end_to_end_length_per_link temperature)
  /\ (forall (nondimensional_end_to_end_length_per_link : jarray R),
     J_swfjc_isometric_legendre.nondimensional_relative_helmholtz_free_energy j nondimensional_end_to_end_length_per_link
     = broadcast [Float64] (fun nondimensional_end_to_end_length_per_link =>
         Finished (Some (O_swfjc_isometric_legendre.nondimensional_relative_helmholtz_free_energy r nondimensional_end_to_end_length_per_link))) nondimensional_end_to_end_length_per_link)
  /\ (forall (nondimensional_end_to_end_length_per_link : jarray R),
     J_swfjc_isometric_legendre.nondimensional_relative_helmholtz_free_energy_per_link j nondimensional_end_to_end_length_per_link
     = broadcast [Float64] (fun nondimensional_end_to_end_length_per_link =>
         Finished (Some (O_swfjc_isometric_legendre.nondimensional_relative_helmholtz_free_energy_per_link r nondimensional_end_to_end_length_per_link))) nondimensional_end_to_end_length_per_link)
  /\ (forall (end_to_end_length : jarray R),
     J_swfjc_isometric_legendre.equilibrium_distribution j end_to_end_length
     = broadcast [Float64] (fun end_to_end_length =>
         Finished (Some (O_swfjc_isometric_legendre.equilibrium_distribution r end_to_end_length))) end_to_end_length)
  /\ (forall (nondimensional_end_to_end_length_per_link : jarray R),
     J_swfjc_isometric_legendre.nondimensional_equilibrium_distribution j nondimensional_end_to_end_length_per_link
     = broadcast [Float64] (fun nondimensional_end_to_end_length_per_link =>
         Finished (Some (O_swfjc_isometric_legendre.nondimensional_equilibrium_distribution r nondimensional_end_to_end_length_per_link))) nondimensional_end_to_end_length_per_link)
  /\ (forall (end_to_end_length : jarray R),
     J_swfjc_isometric_legendre.equilibrium_radial_distribution j end_to_end_length
     = broadcast [Float64] (fun end_to_end_length =>
         Finished (Some (O_swfjc_isometric_legendre.equilibrium_radial_distribution r end_to_end_length))) end_to_end_length)
  /\ (forall (nondimensional_end_to_end_length_per_link : jarray R),
     J_swfjc_isometric_legendre.nondimensional_equilibrium_radial_distribution j nondimensional_end_to_end_length_per_link
     = broadcast [Float64] (fun nondimensional_end_to_end_length_per_link =>
         Finished (Some (O_swfjc_isometric_legendre.nondimensional_equilibrium_radial_distribution r nondimensional_end_to_end_length_per_link))) nondimensional_end_to_end_length_per_link).
Proof.
  intros number_of_links link_length hinge_mass well_width.
  eexists; split.
  { unfold J_swfjc_isometric_legendre.init.
    change jl_POINTS with (Z.to_nat POINTS).
    rewrite (integrate_pure _ (fun nondimensional_end_to_end_length_per_link => swfjc_isometric_legendre.nondimensional_equilibrium_radial_distribution number_of_links link_length well_width ((sdec 1 0)) nondimensional_end_to_end_length_per_link)); [|discriminate|reflexivity].
    reflexivity. }
  intros r.
  split; [reflexivity|].
  split; [reflexivity|].
  split; [reflexivity|].
  split; [reflexivity|].
  split; [reflexivity|].
  split; [intros; cbv [J_swfjc_isometric_legendre.force]; rewrite F_swfjc_isometric_legendre_force; unfold O_swfjc_isometric_legendre.force; broadcast_numbers|].
  split; [intros; cbv [J_swfjc_isometric_legendre.nondimensional_force]; rewrite F_swfjc_isometric_legendre_nondimensional_force; unfold O_swfjc_isometric_legendre.nondimensional_force; broadcast_numbers|].
  split; [intros; cbv [J_swfjc_isometric_legendre.helmholtz_free_energy]; rewrite F_swfjc_isometric_legendre_helmholtz_free_energy; unfold O_swfjc_isometric_legendre.helmholtz_free_energy; broadcast_numbers|].
  split; [intros; cbv [J_swfjc_isometric_legendre.helmholtz_free_energy_per_link]; rewrite F_swfjc_isometric_legendre_helmholtz_free_energy_per_link; unfold O_swfjc_isometric_legendre.helmholtz_free_energy_per_link; broadcast_numbers|].
  split; [intros; cbv [J_swfjc_isometric_legendre.relative_helmholtz_free_energy]; rewrite F_swfjc_isometric_legendre_relative_helmholtz_free_energy; unfold O_swfjc_isometric_legendre.relative_helmholtz_free_energy; broadcast_numbers|].
  split; [intros; cbv [J_swfjc_isometric_legendre.relative_helmholtz_free_energy_per_link]; rewrite F_swfjc_isometric_legendre_relative_helmholtz_free_energy_per_link; unfold O_swfjc_isometric_legendre.relative_helmholtz_free_energy_per_link; broadcast_numbers|].
  split; [intros; cbv [J_swfjc_isometric_legendre.nondimensional_helmholtz_free_energy]; rewrite F_swfjc_isometric_legendre_nondimensional_helmholtz_free_energy; unfold O_swfjc_isometric_legendre.nondimensional_helmholtz_free_energy; broadcast_numbers|].
  split; [intros; cbv [J_swfjc_isometric_legendre.nondimensional_helmholtz_free_energy_per_link]; rewrite F_swfjc_isometric_legendre_nondimensional_helmholtz_free_energy_per_link; unfold O_swfjc_isometric_legendre.nondimensional_helmholtz_free_energy_per_link; broadcast_numbers|].
  split; [intros; cbv [J_swfjc_isometric_legendre.nondimensional_relative_helmholtz_free_energy]; rewrite F_swfjc_isometric_legendre_nondimensional_relative_helmholtz_free_energy; unfold O_swfjc_isometric_legendre.nondimensional_relative_helmholtz_free_energy; broadcast_numbers|].
  split; [intros; cbv [J_swfjc_isometric_legendre.nondimensional_relative_helmholtz_free_energy_per_link]; rewrite F_swfjc_isometric_legendre_nondimensional_relative_helmholtz_free_energy_per_link; unfold O_swfjc_isometric_legendre.nondimensional_relative_helmholtz_free_energy_per_link; broadcast_numbers|].
  split; [intros; cbv [J_swfjc_isometric_legendre.equilibrium_distribution]; rewrite F_swfjc_isometric_legendre_equilibrium_distribution; unfold O_swfjc_isometric_legendre.equilibrium_distribution; broadcast_numbers|].
  split; [intros; cbv [J_swfjc_isometric_legendre.nondimensional_equilibrium_distribution]; rewrite F_swfjc_isometric_legendre_nondimensional_equilibrium_distribution; unfold O_swfjc_isometric_legendre.nondimensional_equilibrium_distribution; broadcast_numbers|].
  split; [intros; cbv [J_swfjc_isometric_legendre.equilibrium_radial_distribution]; rewrite F_swfjc_isometric_legendre_equilibrium_radial_distribution; unfold O_swfjc_isometric_legendre.equilibrium_radial_distribution; broadcast_numbers|].
  intros; cbv [J_swfjc_isometric_legendre.nondimensional_equilibrium_radial_distribution]; rewrite F_swfjc_isometric_legendre_nondimensional_equilibrium_radial_distribution; unfold O_swfjc_isometric_legendre.nondimensional_equilibrium_radial_distribution; broadcast_numbers.
Qed.
Print Assumptions C61_object_swfjc_isometric_legendre.

Theorem C61_functions_swfjc_isotensional_legendre : forall (T : Type) (Sc : Scalar T),
  (forall (number_of_links : jarray Z) (link_length : jarray T) (hinge_mass : jarray T) (well_width : jarray T) (force : jarray T) (temperature : jarray T),
     jl_swfjc_isotensional_legendre.helmholtz_free_energy number_of_links link_length hinge_mass well_width force temperature
     = broadcast [UInt8; Float64; Float64; Float64; Float64; Float64] (fun number_of_links link_length hinge_mass well_width force temperature =>
         Finished (Some (swfjc_isotensional_legendre.helmholtz_free_energy number_of_links link_length hinge_mass well_width force temperature))) number_of_links link_length hinge_mass well_width force temperature)
  /\ (forall (link_length : jarray T) (hinge_mass : jarray T) (well_width : jarray T) (force : jarray T) (temperature : jarray T),
     jl_swfjc_isotensional_legendre.helmholtz_free_energy_per_link link_length hinge_mass well_width force temperature
     = broadcast [Float64; Float64; Float64; Float64; Float64] (fun link_length hinge_mass well_width force temperature =>
         Finished (Some (swfjc_isotensional_legendre.helmholtz_free_energy_per_link link_length hinge_mass well_width force temperature))) link_length hinge_mass well_width force temperature)
  /\ (forall (number_of_links : jarray Z) (link_length : jarray T) (well_width : jarray T) (force : jarray T) (temperature : jarray T),
     jl_swfjc_isotensional_legendre.relative_helmholtz_free_energy number_of_links link_length well_width force temperature
     = broadcast [UInt8; Float64; Float64; Float64; Float64] (fun number_of_links link_length well_width force temperature =>
         Finished (Some (swfjc_isotensional_legendre.relative_helmholtz_free_energy number_of_links link_length well_width force temperature))) number_of_links link_length well_width force temperature)
  /\ (forall (link_length : jarray T) (well_width : jarray T) (force : jarray T) (temperature : jarray T),
     jl_swfjc_isotensional_legendre.relative_helmholtz_free_energy_per_link link_length well_width force temperature
     = broadcast [Float64; Float64; Float64; Float64] (fun link_length well_width force temperature =>
         Finished (Some (swfjc_isotensional_legendre.relative_helmholtz_free_energy_per_link link_length well_width force temperature))) link_length well_width force temperature)
  /\ (forall (number_of_links : jarray Z) (link_length : jarray T) (hinge_mass : jarray T) (well_width : jarray T) (nondimensional_force : jarray T) (temperature : jarray T),
     jl_swfjc_isotensional_legendre.nondimensional_helmholtz_free_energy number_of_links link_length hinge_mass well_width nondimensional_force temperature
     = broadcast [UInt8; Float64; Float64; Float64; Float64; Float64] (fun number_of_links link_length hinge_mass well_width nondimensional_force temperature =>
         Finished (Some (swfjc_isotensional_legendre.nondimensional_helmholtz_free_energy number_of_links link_length hinge_mass well_width nondimensional_force temperature))) number_of_links link_length hinge_mass well_width nondimensional_force temperature)
  /\ (forall (link_length : jarray T) (hinge_mass : jarray T) (well_width : jarray T) (nondimensional_force : jarray T) (temperature : jarray T),
     jl_swfjc_isotensional_legendre.nondimensional_helmholtz_free_energy_per_link link_length hinge_mass well_width nondimensional_force temperature
     = broadcast [Float64; Float64; Float64; Float64; Float64] (fun link_length hinge_mass well_width nondimensional_force temperature =>
         Finished (Some (swfjc_isotensional_legendre.nondimensional_helmholtz_free_energy_per_link link_length hinge_mass well_width nondimensional_force temperature))) link_length hinge_mass well_width nondimensional_force temperature)
  /\ (forall (number_of_links : jarray Z) (link_length : jarray T) (well_width : jarray T) (nondimensional_force : jarray T),
     jl_swfjc_isotensional_legendre.nondimensional_relative_helmholtz_free_energy number_of_links link_length well_width nondimensional_force
     = broadcast [UInt8; Float64; Float64; Float64] (fun number_of_links link_length well_width nondimensional_force =>
         Finished (Some (swfjc_isotensional_legendre.nondimensional_relative_helmholtz_free_energy number_of_links link_length well_width nondimensional_force))) number_of_links link_length well_width nondimensional_force)
  /\ (forall (link_length : jarray T) (well_width : jarray T) (nondimensional_force : jarray T),
     jl_swfjc_isotensional_legendre.nondimensional_relative_helmholtz_free_energy_per_link link_length well_width nondimensional_force
     = broadcast [Float64; Float64; Float64] (fun link_length well_width nondimensional_force =>
         Finished (Some (swfjc_isotensional_legendre.nondimensional_relative_helmholtz_free_energy_per_link link_length well_width nondimensional_force))) link_length well_width nondimensional_force).
Proof.
  exact (fun T Sc => conj (@F_swfjc_isotensional_legendre_helmholtz_free_energy T Sc)
    (conj (@F_swfjc_isotensional_legendre_helmholtz_free_energy_per_link T Sc)
    (conj (@F_swfjc_isotensional_legendre_relative_helmholtz_free_energy T Sc)
    (conj (@F_swfjc_isotensional_legendre_relative_helmholtz_free_energy_per_link T Sc)
    (conj (@F_swfjc_isotensional_legendre_nondimensional_helmholtz_free_energy T Sc)
    (conj (@F_swfjc_isotensional_legendre_nondimensional_helmholtz_free_energy_per_link T Sc)
    (conj (@F_swfjc_isotensional_legendre_nondimensional_relative_helmholtz_free_energy T Sc)
    (@F_swfjc_isotensional_legendre_nondimensional_relative_helmholtz_free_energy_per_link T Sc)))))))).
Qed.
Print Assumptions C61_functions_swfjc_isotensional_legendre.

Theorem C61_object_swfjc_isotensional_legendre : forall (T : Type) (Sc : Scalar T) (number_of_links : Z) (link_length : T) (hinge_mass : T) (well_width : T),
  let j := J_swfjc_isotensional_legendre.init number_of_links link_length hinge_mass well_width in
  let r := O_swfjc_isotensional_legendre.init number_of_links link_length hinge_mass well_width in
  J_swfjc_isotensional_legendre.number_of_links j = O_swfjc_isotensional_legendre.number_of_links r
  /\ J_swfjc_isotensional_legendre.link_length j = O_swfjc_isotensional_legendre.link_length r
  /\ J_swfjc_isotensional_legendre.hinge_mass j = O_swfjc_isotensional_legendre.hinge_mass r
  /\ J_swfjc_isotensional_legendre.well_width j = O_swfjc_isotensional_legendre.well_width r
  /\ (forall (force : jarray T) (temperature : jarray T),
     J_swfjc_isotensional_legendre.helmholtz_free_energy j force temperature
     = broadcast [Float64; Float64] (fun force temperature =>
         Finished (Some (O_swfjc_isotensional_legendre.helmholtz_free_energy r force temperature))) force temperature)
  /\ (forall (force : jarray T) (temperature : jarray T),
     J_swfjc_isotensional_legendre.helmholtz_free_energy_per_link j force temperature
     = broadcast [Float64; Float64] (fun force temperature =>
         Finished (Some (O_swfjc_isotensional_legendre.helmholtz_free_energy_per_link r force temperature))) force temperature)
  /\ (forall (force : jarray T) (temperature : jarray T),
     J_swfjc_isotensional_legendre.relative_helmholtz_free_energy j force temperature
     = broadcast [Float64; Float64] (fun force temperature =>
         Finished (Some (O_swfjc_isotensional_legendre.relative_helmholtz_free_energy r force temperature))) force temperature)
  /\ (forall (force : jarray T) (temperature : jarray T),
     J_swfjc_isotensional_legendre.relative_helmholtz_free_energy_per_link j force temperature
     = broadcast [Float64; Float64] (fun force temperature =>
         Finished (Some (O_swfjc_isotensional_legendre.relative_helmholtz_free_energy_per_link r force temperature))) force temperature)
  /\ (forall (nondimensional_force : jarray T) (temperature : jarray T),
     J_swfjc_isotensional_legendre.nondimensional_helmholtz_free_energy j nondimensional_force temperature
     = broadcast [Float64; Float64] (fun nondimensional_force temperature =>
         Finished (Some (O_swfjc_isotensional_legendre.nondimensional_helmholtz_free_energy r nondimensional_force temperature))) nondimensional_force temperature)
  /\ (forall (nondimensional_force : jarray T) (temperature : jarray T),
     J_swfjc_isotensional_legendre.nondimensional_helmholtz_free_energy_per_link j nondimensional_force temperature
     = broadcast [Float64; Float64] (fun nondimensional_force temperature =>
         Finished (Some (O_swfjc_isotensional_legendre.nondimensional_helmholtz_free_energy_per_link r nondimensional_force temperature))) nondimensional_force temperature)
  /\ (forall (nondimensional_force : jarray T),
     J_swfjc_isotensional_legendre.nondimensional_relative_helmholtz_free_energy j nondimensional_force
     = broadcast [Float64] (fun nondimensional_force =>
         Finished (Some (O_swfjc_isotensional_legendre.nondimensional_relative_helmholtz_free_energy r nondimensional_force))) nondimensional_force)
  /\ (forall (nondimensional_force : jarray T),
     J_swfjc_isotensional_legendre.nondimensional_relative_helmholtz_free_energy_per_link j nondimensional_force
     = broadcast [Float64] (fun nondimensional_force =>
         Finished (Some (O_swfjc_isotensional_legendre.nondimensional_relative_helmholtz_free_energy_per_link r nondimensional_force))) nondimensional_force).
Proof. intros T Sc number_of_links link_length hinge_mass well_width j r.
  split; [reflexivity|].
  split; [reflexivity|].
  split; [reflexivity|].
  split; [reflexivity|].
  split; [intros; cbv [j J_swfjc_isotensional_legendre.init J_swfjc_isotensional_legendre.helmholtz_free_energy]; rewrite F_swfjc_isotensional_legendre_helmholtz_free_energy; unfold O_swfjc_isotensional_legendre.helmholtz_free_energy; broadcast_numbers|].
  split; [intros; cbv [j J_swfjc_isotensional_legendre.init J_swfjc_isotensional_legendre.helmholtz_free_energy_per_link]; rewrite F_swfjc_isotensional_legendre_helmholtz_free_energy_per_link; unfold O_swfjc_isotensional_legendre.helmholtz_free_energy_per_link; broadcast_numbers|].
  split; [intros; cbv [j J_swfjc_isotensional_legendre.init J_swfjc_isotensional_legendre.relative_helmholtz_free_energy]; rewrite F_swfjc_isotensional_legendre_relative_helmholtz_free_energy; unfold O_swfjc_isotensional_legendre.relative_helmholtz_free_energy; broadcast_numbers|].
  split; [intros; cbv [j J_swfjc_isotensional_legendre.init J_swfjc_isotensional_legendre.relative_helmholtz_free_energy_per_link]; rewrite F_swfjc_isotensional_legendre_relative_helmholtz_free_energy_per_link; unfold O_swfjc_isotensional_legendre.relative_helmholtz_free_energy_per_link; broadcast_numbers|].
  split; [intros; cbv [j J_swfjc_isotensional_legendre.init J_swfjc_isotensional_legendre.nondimensional_helmholtz_free_energy]; rewrite F_swfjc_isotensional_legendre_nondimensional_helmholtz_free_energy; unfold O_swfjc_isotensional_legendre.nondimensional_helmholtz_free_energy; broadcast_numbers|].
  split; [intros; cbv [j J_swfjc_isotensional_legendre.init J_swfjc_isotensional_legendre.nondimensional_helmholtz_free_energy_per_link]; rewrite F_swfjc_isotensional_legendre_nondimensional_helmholtz_free_energy_per_link; unfold O_swfjc_isotensional_legendre.nondimensional_helmholtz_free_energy_per_link; broadcast_numbers|].
  split; [intros; cbv [j J_swfjc_isotensional_legendre.init J_swfjc_isotensional_legendre.nondimensional_relative_helmholtz_free_energy]; rewrite F_swfjc_isotensional_legendre_nondimensional_relative_helmholtz_free_energy; unfold O_swfjc_isotensional_legendre.nondimensional_relative_helmholtz_free_energy; broadcast_numbers|].
  intros; cbv [j J_swfjc_isotensional_legendre.init J_swfjc_isotensional_legendre.nondimensional_relative_helmholtz_free_energy_per_link]; rewrite F_swfjc_isotensional_legendre_nondimensional_relative_helmholtz_free_energy_per_link; unfold O_swfjc_isotensional_legendre.nondimensional_relative_helmholtz_free_energy_per_link; broadcast_numbers.
Qed.
Print Assumptions C61_object_swfjc_isotensional_legendre.

Theorem C61_object_lennard_jones_isometric : forall (T : Type) (Sc : Scalar T) (number_of_links : Z) (link_length : T) (hinge_mass : T) (link_stiffness : T),
  let j := J_lennard_jones_isometric.init number_of_links link_length hinge_mass link_stiffness in
  let r := O_lennard_jones_isometric.init number_of_links link_length hinge_mass link_stiffness in
  J_lennard_jones_isometric.number_of_links j = O_lennard_jones_isometric.number_of_links r
  /\ J_lennard_jones_isometric.link_length j = O_lennard_jones_isometric.link_length r
  /\ J_lennard_jones_isometric.hinge_mass j = O_lennard_jones_isometric.hinge_mass r
  /\ J_lennard_jones_isometric.link_stiffness j = O_lennard_jones_isometric.link_stiffness r
  /\ J_lennard_jones_isometric.asymptotic j = J_lennard_jones_isometric_asymptotic.init number_of_links link_length hinge_mass link_stiffness.
Proof. intros T Sc number_of_links link_length hinge_mass link_stiffness j r.
  split; [reflexivity|].
  split; [reflexivity|].
  split; [reflexivity|].
  split; [reflexivity|].
  reflexivity.
Qed.
Print Assumptions C61_object_lennard_jones_isometric.

Theorem C61_functions_lennard_jones_isotensional : forall (T : Type) (Sc : Scalar T),
  (forall (number_of_links : jarray Z) (link_length : jarray T) (link_stiffness : jarray T) (force : jarray T) (temperature : jarray T),
     jl_lennard_jones_isotensional.end_to_end_length number_of_links link_length link_stiffness force temperature
     = broadcast [UInt8; Float64; Float64; Float64; Float64] (fun number_of_links link_length link_stiffness force temperature =>
         Finished (Some (lennard_jones_isotensional.end_to_end_length number_of_links link_length link_stiffness force temperature))) number_of_links link_length link_stiffness force temperature)
  /\ (forall (link_length : jarray T) (link_stiffness : jarray T) (force : jarray T) (temperature : jarray T),
     jl_lennard_jones_isotensional.end_to_end_length_per_link link_length link_stiffness force temperature
     = broadcast [Float64; Float64; Float64; Float64] (fun link_length link_stiffness force temperature =>
         Finished (Some (lennard_jones_isotensional.end_to_end_length_per_link link_length link_stiffness force temperature))) link_length link_stiffness force temperature)
  /\ (forall (number_of_links : jarray Z) (nondimensional_link_stiffness : jarray T) (nondimensional_force : jarray T),
     jl_lennard_jones_isotensional.nondimensional_end_to_end_length number_of_links nondimensional_link_stiffness nondimensional_force
     = broadcast [UInt8; Float64; Float64] (fun number_of_links nondimensional_link_stiffness nondimensional_force =>
         Finished (Some (lennard_jones_isotensional.nondimensional_end_to_end_length number_of_links nondimensional_link_stiffness nondimensional_force))) number_of_links nondimensional_link_stiffness nondimensional_force)
  /\ (forall (nondimensional_link_stiffness : jarray T) (nondimensional_force : jarray T),
     jl_lennard_jones_isotensional.nondimensional_end_to_end_length_per_link nondimensional_link_stiffness nondimensional_force
     = broadcast [Float64; Float64] (fun nondimensional_link_stiffness nondimensional_force =>
         Finished (Some (lennard_jones_isotensional.nondimensional_end_to_end_length_per_link nondimensional_link_stiffness nondimensional_force))) nondimensional_link_stiffness nondimensional_force)
  /\ (forall (number_of_links : jarray Z) (link_length : jarray T) (hinge_mass : jarray T) (link_stiffness : jarray T) (force : jarray T) (temperature : jarray T),
     jl_lennard_jones_isotensional.gibbs_free_energy number_of_links link_length hinge_mass link_stiffness force temperature
     = broadcast [UInt8; Float64; Float64; Float64; Float64; Float64] (fun number_of_links link_length hinge_mass link_stiffness force temperature =>
         Finished (Some (lennard_jones_isotensional.gibbs_free_energy number_of_links link_length hinge_mass link_stiffness force temperature))) number_of_links link_length hinge_mass link_stiffness force temperature)
  /\ (forall (link_length : jarray T) (hinge_mass : jarray T) (link_stiffness : jarray T) (force : jarray T) (temperature : jarray T),
     jl_lennard_jones_isotensional.gibbs_free_energy_per_link link_length hinge_mass link_stiffness force temperature
     = broadcast [Float64; Float64; Float64; Float64; Float64] (fun link_length hinge_mass link_stiffness force temperature =>
         Finished (Some (lennard_jones_isotensional.gibbs_free_energy_per_link link_length hinge_mass link_stiffness force temperature))) link_length hinge_mass link_stiffness force temperature)
  /\ (forall (number_of_links : jarray Z) (link_length : jarray T) (link_stiffness : jarray T) (force : jarray T) (temperature : jarray T),
     jl_lennard_jones_isotensional.relative_gibbs_free_energy number_of_links link_length link_stiffness force temperature
     = broadcast [UInt8; Float64; Float64; Float64; Float64] (fun number_of_links link_length link_stiffness force temperature =>
         Finished (Some (lennard_jones_isotensional.relative_gibbs_free_energy number_of_links link_length link_stiffness force temperature))) number_of_links link_length link_stiffness force temperature)
  /\ (forall (link_length : jarray T) (link_stiffness : jarray T) (force : jarray T) (temperature : jarray T),
     jl_lennard_jones_isotensional.relative_gibbs_free_energy_per_link link_length link_stiffness force temperature
     = broadcast [Float64; Float64; Float64; Float64] (fun link_length link_stiffness force temperature =>
         Finished (Some (lennard_jones_isotensional.relative_gibbs_free_energy_per_link link_length link_stiffness force temperature))) link_length link_stiffness force temperature)
  /\ (forall (number_of_links : jarray Z) (link_length : jarray T) (hinge_mass : jarray T) (nondimensional_link_stiffness : jarray T) (nondimensional_force : jarray T) (temperature : jarray T),
     jl_lennard_jones_isotensional.nondimensional_gibbs_free_energy number_of_links link_length hinge_mass nondimensional_link_stiffness nondimensional_force temperature
     = broadcast [UInt8; Float64; Float64; Float64; Float64; Float64] (fun number_of_links link_length hinge_mass nondimensional_link_stiffness nondimensional_force temperature =>
         Finished (Some (lennard_jones_isotensional.nondimensional_gibbs_free_energy number_of_links link_length hinge_mass nondimensional_link_stiffness nondimensional_force temperature))) number_of_links link_length hinge_mass nondimensional_link_stiffness nondimensional_force temperature)
  /\ (forall (link_length : jarray T) (hinge_mass : jarray T) (nondimensional_link_stiffness : jarray T) (nondimensional_force : jarray T) (temperature : jarray T),
     jl_lennard_jones_isotensional.nondimensional_gibbs_free_energy_per_link link_length hinge_mass nondimensional_link_stiffness nondimensional_force temperature
     = broadcast [Float64; Float64; Float64; Float64; Float64] (fun link_length hinge_mass nondimensional_link_stiffness nondimensional_force temperature =>
         Finished (Some (lennard_jones_isotensional.nondimensional_gibbs_free_energy_per_link link_length hinge_mass nondimensional_link_stiffness nondimensional_force temperature))) link_length hinge_mass nondimensional_link_stiffness nondimensional_force temperature)
  /\ (forall (number_of_links : jarray Z) (nondimensional_link_stiffness : jarray T) (nondimensional_force : jarray T),
     jl_lennard_jones_isotensional.nondimensional_relative_gibbs_free_energy number_of_links nondimensional_link_stiffness nondimensional_force
     = broadcast [UInt8; Float64; Float64] (fun number_of_links nondimensional_link_stiffness nondimensional_force =>
         Finished (Some (lennard_jones_isotensional.nondimensional_relative_gibbs_free_energy number_of_links nondimensional_link_stiffness nondimensional_force))) number_of_links nondimensional_link_stiffness nondimensional_force)
  /\ (forall (nondimensional_link_stiffness : jarray T) (nondimensional_force : jarray T),
     jl_lennard_jones_isotensional.nondimensional_relative_gibbs_free_energy_per_link nondimensional_link_stiffness nondimensional_force
     = broadcast [Float64; Float64] (fun nondimensional_link_stiffness nondimensional_force =>
         Finished (Some (lennard_jones_isotensional.nondimensional_relative_gibbs_free_energy_per_link nondimensional_link_stiffness nondimensional_force))) nondimensional_link_stiffness nondimensional_force).
Proof.
  exact (fun T Sc => conj (@F_lennard_jones_isotensional_end_to_end_length T Sc)
    (conj (@F_lennard_jones_isotensional_end_to_end_length_per_link T Sc)
    (conj (@F_lennard_jones_isotensional_nondimensional_end_to_end_length T Sc)
    (conj (@F_lennard_jones_isotensional_nondimensional_end_to_end_length_per_link T Sc)
    (conj (@F_lennard_jones_isotensional_gibbs_free_energy T Sc)
    (conj (@F_lennard_jones_isotensional_gibbs_free_energy_per_link T Sc)
    (conj (@F_lennard_jones_isotensional_relative_gibbs_free_energy T Sc)
    (conj (@F_lennard_jones_isotensional_relative_gibbs_free_energy_per_link T Sc)
    (conj (@F_lennard_jones_isotensional_nondimensional_gibbs_free_energy T Sc)
    (conj (@F_lennard_jones_isotensional_nondimensional_gibbs_free_energy_per_link T Sc)
    (conj (@F_lennard_jones_isotensional_nondimensional_relative_gibbs_free_energy T Sc)
    (@F_lennard_jones_isotensional_nondimensional_relative_gibbs_free_energy_per_link T Sc)))))))))))).
Qed.
Print Assumptions C61_functions_lennard_jones_isotensional.

Theorem C61_object_lennard_jones_isotensional : forall (T : Type) (Sc : Scalar T) (number_of_links : Z) (link_length : T) (hinge_mass : T) (link_stiffness : T),
  let j := J_lennard_jones_isotensional.init number_of_links link_length hinge_mass link_stiffness in
  let r := O_lennard_jones_isotensional.init number_of_links link_length hinge_mass link_stiffness in
  J_lennard_jones_isotensional.number_of_links j = O_lennard_jones_isotensional.number_of_links r
  /\ J_lennard_jones_isotensional.link_length j = O_lennard_jones_isotensional.link_length r
  /\ J_lennard_jones_isotensional.hinge_mass j = O_lennard_jones_isotensional.hinge_mass r
  /\ J_lennard_jones_isotensional.link_stiffness j = O_lennard_jones_isotensional.link_stiffness r
  /\ J_lennard_jones_isotensional.asymptotic j = J_lennard_jones_isotensional_asymptotic.init number_of_links link_length hinge_mass link_stiffness
  /\ J_lennard_jones_isotensional.legendre j = J_lennard_jones_isotensional_legendre.init number_of_links link_length hinge_mass link_stiffness
  /\ (forall (force : jarray T) (temperature : jarray T),
     J_lennard_jones_isotensional.end_to_end_length j force temperature
     = broadcast [Float64; Float64] (fun force temperature =>
         Finished (Some (O_lennard_jones_isotensional.end_to_end_length r force temperature))) force temperature)
  /\ (forall (force : jarray T) (temperature : jarray T),
     J_lennard_jones_isotensional.end_to_end_length_per_link j force temperature
     = broadcast [Float64; Float64] (fun force temperature =>
         Finished (Some (O_lennard_jones_isotensional.end_to_end_length_per_link r force temperature))) force temperature)
  /\ (forall (nondimensional_force : jarray T) (temperature : T),
     J_lennard_jones_isotensional.nondimensional_end_to_end_length j nondimensional_force temperature
     = broadcast [Float64] (fun nondimensional_force =>
         Finished (Some (O_lennard_jones_isotensional.nondimensional_end_to_end_length r nondimensional_force temperature))) nondimensional_force)
  /\ (forall (nondimensional_force : jarray T) (temperature : T),
     J_lennard_jones_isotensional.nondimensional_end_to_end_length_per_link j nondimensional_force temperature
     = broadcast [Float64] (fun nondimensional_force =>
         Finished (Some (O_lennard_jones_isotensional.nondimensional_end_to_end_length_per_link r nondimensional_force temperature))) nondimensional_force)
  /\ (forall (force : jarray T) (temperature : jarray T),
     J_lennard_jones_isotensional.gibbs_free_energy j force temperature
     = broadcast [Float64; Float64] (fun force temperature =>
         Finished (Some (O_lennard_jones_isotensional.gibbs_free_energy r force temperature))) force temperature)
  /\ (forall (force : jarray T) (temperature : jarray T),
     J_lennard_jones_isotensional.gibbs_free_energy_per_link j force temperature
     = broadcast [Float64; Float64] (fun force temperature =>
         Finished (Some (O_lennard_jones_isotensional.gibbs_free_energy_per_link r force temperature))) force temperature)
  /\ (forall (force : jarray T) (temperature : jarray T),
     J_lennard_jones_isotensional.relative_gibbs_free_energy j force temperature
     = broadcast [Float64; Float64] (fun force temperature =>
         Finished (Some (O_lennard_jones_isotensional.relative_gibbs_free_energy r force temperature))) force temperature)
  /\ (forall (force : jarray T) (temperature : jarray T),
     J_lennard_jones_isotensional.relative_gibbs_free_energy_per_link j force temperature
     = broadcast [Float64; Float64] (fun force temperature =>
         Finished (Some (O_lennard_jones_isotensional.relative_gibbs_free_energy_per_link r force temperature))) force temperature)
  /\ (forall (nondimensional_force : jarray T) (temperature : T),
     J_lennard_jones_isotensional.nondimensional_gibbs_free_energy j nondimensional_force temperature
     = broadcast [Float64] (fun nondimensional_force =>
         Finished (Some (O_lennard_jones_isotensional.nondimensional_gibbs_free_energy r nondimensional_force temperature))) nondimensional_force)
  /\ (forall (nondimensional_force : jarray T) (temperature : T),
     J_lennard_jones_isotensional.nondimensional_gibbs_free_energy_per_link j nondimensional_force temperature
     = broadcast [Float64] (fun nondimensional_force =>
         Finished (Some (O_lennard_jones_isotensional.nondimensional_gibbs_free_energy_per_link r nondimensional_force temperature))) nondimensional_force)
  /\ (forall (nondimensional_force : jarray T) (temperature : T),
     J_lennard_jones_isotensional.nondimensional_relative_gibbs_free_energy j nondimensional_force temperature
     = broadcast [Float64] (fun nondimensional_force =>
         Finished (Some (O_lennard_jones_isotensional.nondimensional_relative_gibbs_free_energy r nondimensional_force temperature))) nondimensional_force)
  /\ (forall (nondimensional_force : jarray T) (temperature : T),
     J_lennard_jones_isotensional.nondimensional_relative_gibbs_free_energy_per_link j nondimensional_force temperature
     = broadcast [Float64] (fun nondimensional_force =>
         Finished (Some (O_lennard_jones_isotensional.nondimensional_relative_gibbs_free_energy_per_link r nondimensional_force temperature))) nondimensional_force).
Proof. intros T Sc number_of_links link_length hinge_mass link_stiffness j r.
  split; [reflexivity|].
  split; [reflexivity|].
  split; [reflexivity|].
  split; [reflexivity|].
  split; [reflexivity|].
  split; [reflexivity|].
  split; [intros; cbv [j J_lennard_jones_isotensional.init J_lennard_jones_isotensional.end_to_end_length]; rewrite F_lennard_jones_isotensional_end_to_end_length; unfold O_lennard_jones_isotensional.end_to_end_length; broadcast_numbers|].
  split; [intros; cbv [j J_lennard_jones_isotensional.init J_lennard_jones_isotensional.end_to_end_length_per_link]; rewrite F_lennard_jones_isotensional_end_to_end_length_per_link; unfold O_lennard_jones_isotensional.end_to_end_length_per_link; broadcast_numbers|].
  split; [intros; cbv [j J_lennard_jones_isotensional.init J_lennard_jones_isotensional.nondimensional_end_to_end_length]; rewrite F_lennard_jones_isotensional_nondimensional_end_to_end_length; unfold O_lennard_jones_isotensional.nondimensional_end_to_end_length; broadcast_numbers|].
  split; [intros; cbv [j J_lennard_jones_isotensional.init J_lennard_jones_isotensional.nondimensional_end_to_end_length_per_link]; rewrite F_lennard_jones_isotensional_nondimensional_end_to_end_length_per_link; unfold O_lennard_jones_isotensional.nondimensional_end_to_end_length_per_link; broadcast_numbers|].
  split; [intros; cbv [j J_lennard_jones_isotensional.init J_lennard_jones_isotensional.gibbs_free_energy]; rewrite F_lennard_jones_isotensional_gibbs_free_energy; unfold O_lennard_jones_isotensional.gibbs_free_energy; broadcast_numbers|].
  split; [intros; cbv [j J_lennard_jones_isotensional.init J_lennard_jones_isotensional.gibbs_free_energy_per_link]; rewrite F_lennard_jones_isotensional_gibbs_free_energy_per_link; unfold O_lennard_jones_isotensional.gibbs_free_energy_per_link; broadcast_numbers|].
  split; [intros; cbv [j J_lennard_jones_isotensional.init J_lennard_jones_isotensional.relative_gibbs_free_energy]; rewrite F_lennard_jones_isotensional_relative_gibbs_free_energy; unfold O_lennard_jones_isotensional.relative_gibbs_free_energy; broadcast_numbers|].
  split; [intros; cbv [j J_lennard_jones_isotensional.init J_lennard_jones_isotensional.relative_gibbs_free_energy_per_link]; rewrite F_lennard_jones_isotensional_relative_gibbs_free_energy_per_link; unfold O_lennard_jones_isotensional.relative_gibbs_free_energy_per_link; broadcast_numbers|].
  split; [intros; cbv [j J_lennard_jones_isotensional.init J_lennard_jones_isotensional.nondimensional_gibbs_free_energy]; rewrite F_lennard_jones_isotensional_nondimensional_gibbs_free_energy; unfold O_lennard_jones_isotensional.nondimensional_gibbs_free_energy; broadcast_numbers|].
  split; [intros; cbv [j J_lennard_jones_isotensional.init J_lennard_jones_isotensional.nondimensional_gibbs_free_energy_per_link]; rewrite F_lennard_jones_isotensional_nondimensional_gibbs_free_energy_per_link; unfold O_lennard_jones_isotensional.nondimensional_gibbs_free_energy_per_link; broadcast_numbers|].
  split; [intros; cbv [j J_lennard_jones_isotensional.init J_lennard_jones_isotensional.nondimensional_relative_gibbs_free_energy]; rewrite F_lennard_jones_isotensional_nondimensional_relative_gibbs_free_energy; unfold O_lennard_jones_isotensional.nondimensional_relative_gibbs_free_energy; broadcast_numbers|].
  intros; cbv [j J_lennard_jones_isotensional.init J_lennard_jones_isotensional.nondimensional_relative_gibbs_free_energy_per_link]; rewrite F_lennard_jones_isotensional_nondimensional_relative_gibbs_free_energy_per_link; unfold O_lennard_jones_isotensional.nondimensional_relative_gibbs_free_energy_per_link; broadcast_numbers.
Qed.
Print Assumptions C61_object_lennard_jones_isotensional.

Theorem C61_object_log_squared_isometric : forall (T : Type) (Sc : Scalar T) (number_of_links : Z) (link_length : T) (hinge_mass : T) (link_stiffness : T),
  let j := J_log_squared_isometric.init number_of_links link_length hinge_mass link_stiffness in
  let r := O_log_squared_isometric.init number_of_links link_length hinge_mass link_stiffness in
  J_log_squared_isometric.number_of_links j = O_log_squared_isometric.number_of_links r
  /\ J_log_squared_isometric.link_length j = O_log_squared_isometric.link_length r
  /\ J_log_squared_isometric.hinge_mass j = O_log_squared_isometric.hinge_mass r
  /\ J_log_squared_isometric.link_stiffness j = O_log_squared_isometric.link_stiffness r
  /\ J_log_squared_isometric.asymptotic j = J_log_squared_isometric_asymptotic.init number_of_links link_length hinge_mass link_stiffness.
Proof. intros T Sc number_of_links link_length hinge_mass link_stiffness j r.
  split; [reflexivity|].
  split; [reflexivity|].
  split; [reflexivity|].
  split; [reflexivity|].
  reflexivity.
Qed.
Print Assumptions C61_object_log_squared_isometric.

Theorem C61_functions_log_squared_isotensional : forall (T : Type) (Sc : Scalar T),
  (forall (number_of_links : jarray Z) (link_length : jarray T) (link_stiffness : jarray T) (force : jarray T) (temperature : jarray T),
     jl_log_squared_isotensional.end_to_end_length number_of_links link_length link_stiffness force temperature
     = broadcast [UInt8; Float64; Float64; Float64; Float64] (fun number_of_links link_length link_stiffness force temperature =>
         Finished (Some (log_squared_isotensional.end_to_end_length number_of_links link_length link_stiffness force temperature))) number_of_links link_length link_stiffness force temperature)
  /\ (forall (link_length : jarray T) (link_stiffness : jarray T) (force : jarray T) (temperature : jarray T),
     jl_log_squared_isotensional.end_to_end_length_per_link link_length link_stiffness force temperature
     = broadcast [Float64; Float64; Float64; Float64] (fun link_length link_stiffness force temperature =>
         Finished (Some (log_squared_isotensional.end_to_end_length_per_link link_length link_stiffness force temperature))) link_length link_stiffness force temperature)
  /\ (forall (number_of_links : jarray Z) (nondimensional_link_stiffness : jarray T) (nondimensional_force : jarray T),
     jl_log_squared_isotensional.nondimensional_end_to_end_length number_of_links nondimensional_link_stiffness nondimensional_force
     = broadcast [UInt8; Float64; Float64] (fun number_of_links nondimensional_link_stiffness nondimensional_force =>
         Finished (Some (log_squared_isotensional.nondimensional_end_to_end_length number_of_links nondimensional_link_stiffness nondimensional_force))) number_of_links nondimensional_link_stiffness nondimensional_force)
  /\ (forall (nondimensional_link_stiffness : jarray T) (nondimensional_force : jarray T),
     jl_log_squared_isotensional.nondimensional_end_to_end_length_per_link nondimensional_link_stiffness nondimensional_force
     = broadcast [Float64; Float64] (fun nondimensional_link_stiffness nondimensional_force =>
         Finished (Some (log_squared_isotensional.nondimensional_end_to_end_length_per_link nondimensional_link_stiffness nondimensional_force))) nondimensional_link_stiffness nondimensional_force)
  /\ (forall (number_of_links : jarray Z) (link_length : jarray T) (hinge_mass : jarray T) (link_stiffness : jarray T) (force : jarray T) (temperature : jarray T),
     jl_log_squared_isotensional.gibbs_free_energy number_of_links link_length hinge_mass link_stiffness force temperature
     = broadcast [UInt8; Float64; Float64; Float64; Float64; Float64] (fun number_of_links link_length hinge_mass link_stiffness force temperature =>
         Finished (Some (log_squared_isotensional.gibbs_free_energy number_of_links link_length hinge_mass link_stiffness force temperature))) number_of_links link_length hinge_mass link_stiffness force temperature)
  /\ (forall (link_length : jarray T) (hinge_mass : jarray T) (link_stiffness : jarray T) (force : jarray T) (temperature : jarray T),
     jl_log_squared_isotensional.gibbs_free_energy_per_link link_length hinge_mass link_stiffness force temperature
     = broadcast [Float64; Float64; Float64; Float64; Float64] (fun link_length hinge_mass link_stiffness force temperature =>
         Finished (Some (log_squared_isotensional.gibbs_free_energy_per_link link_length hinge_mass link_stiffness force temperature))) link_length hinge_mass link_stiffness force temperature)
  /\ (forall (number_of_links : jarray Z) (link_length : jarray T) (link_stiffness : jarray T) (force : jarray T) (temperature : jarray T),
     jl_log_squared_isotensional.relative_gibbs_free_energy number_of_links link_length link_stiffness force temperature
     = broadcast [UInt8; Float64; Float64; Float64; Float64] (fun number_of_links link_length link_stiffness force temperature =>
         Finished (Some (log_squared_isotensional.relative_gibbs_free_energy number_of_links link_length link_stiffness force temperature))) number_of_links link_length link_stiffness force temperature)
  /\ (forall (link_length : jarray T) (link_stiffness : jarray T) (force : jarray T) (temperature : jarray T),
     jl_log_squared_isotensional.relative_gibbs_free_energy_per_link link_length link_stiffness force temperature
     = broadcast [Float64; Float64; Float64; Float64] (fun link_length link_stiffness force temperature =>
         Finished (Some (log_squared_isotensional.relative_gibbs_free_energy_per_link link_length link_stiffness force temperature))) link_length link_stiffness force temperature)
  /\ (forall (number_of_links : jarray Z) (link_length : jarray T) (hinge_mass : jarray T) (nondimensional_link_stiffness : jarray T) (nondimensional_force : jarray T) (temperature : jarray T),
     jl_log_squared_isotensional.nondimensional_gibbs_free_energy number_of_links link_length hinge_mass nondimensional_link_stiffness nondimensional_force temperature
     = broadcast [UInt8; Float64; Float64; Float64; Float64; Float64] (fun number_of_links link_length hinge_mass nondimensional_link_stiffness nondimensional_force temperature =>
         Finished (Some (log_squared_isotensional.nondimensional_gibbs_free_energy number_of_links link_length hinge_mass nondimensional_link_stiffness nondimensional_force temperature))) number_of_links link_length hinge_mass nondimensional_link_stiffness nondimensional_force temperature)
  /\ (forall (link_length : jarray T) (hinge_mass : jarray T) (nondimensional_link_stiffness : jarray T) (nondimensional_force : jarray T) (temperature : jarray T),
     jl_log_squared_isotensional.nondimensional_gibbs_free_energy_per_link link_length hinge_mass nondimensional_link_stiffness nondimensional_force temperature
     = broadcast [Float64; Float64; Float64; Float64; Float64] (fun link_length hinge_mass nondimensional_link_stiffness nondimensional_force temperature =>
         Finished (Some (log_squared_isotensional.nondimensional_gibbs_free_energy_per_link link_length hinge_mass nondimensional_link_stiffness nondimensional_force temperature))) link_length hinge_mass nondimensional_link_stiffness nondimensional_force temperature)
  /\ (forall (number_of_links : jarray Z) (nondimensional_link_stiffness : jarray T) (nondimensional_force : jarray T),
     jl_log_squared_isotensional.nondimensional_relative_gibbs_free_energy number_of_links nondimensional_link_stiffness nondimensional_force
     = broadcast [UInt8; Float64; Float64] (fun number_of_links nondimensional_link_stiffness nondimensional_force =>
         Finished (Some (log_squared_isotensional.nondimensional_relative_gibbs_free_energy number_of_links nondimensional_link_stiffness nondimensional_force))) number_of_links nondimensional_link_stiffness nondimensional_force)
  /\ (forall (nondimensional_link_stiffness : jarray T) (nondimensional_force : jarray T),
     jl_log_squared_isotensional.nondimensional_relative_gibbs_free_energy_per_link nondimensional_link_stiffness nondimensional_force
     = broadcast [Float64; Float64] (fun nondimensional_link_stiffness nondimensional_force =>
         Finished (Some (log_squared_isotensional.nondimensional_relative_gibbs_free_energy_per_link nondimensional_link_stiffness nondimensional_force))) nondimensional_link_stiffness nondimensional_force).
Proof.
  exact (fun T Sc => conj (@F_log_squared_isotensional_end_to_end_length T Sc)
    (conj (@F_log_squared_isotensional_end_to_end_length_per_link T Sc)
    (conj (@F_log_squared_isotensional_nondimensional_end_to_end_length T Sc)
    (conj (@F_log_squared_isotensional_nondimensional_end_to_end_length_per_link T Sc)
    (conj (@F_log_squared_isotensional_gibbs_free_energy T Sc)
    (conj (@F_log_squared_isotensional_gibbs_free_energy_per_link T Sc)
    (conj (@F_log_squared_isotensional_relative_gibbs_free_energy T Sc)
    (conj (@F_log_squared_isotensional_relative_gibbs_free_energy_per_link T Sc)
    (conj (@F_log_squared_isotensional_nondimensional_gibbs_free_energy T Sc)
    (conj (@F_log_squared_isotensional_nondimensional_gibbs_free_energy_per_link T Sc)
    (conj (@F_log_squared_isotensional_nondimensional_relative_gibbs_free_energy T Sc)
    (@F_log_squared_isotensional_nondimensional_relative_gibbs_free_energy_per_link T Sc)))))))))))).
Qed.
Print Assumptions C61_functions_log_squared_isotensional.

Theorem C61_object_log_squared_isotensional : forall (T : Type) (Sc : Scalar T) (number_of_links : Z) (link_length : T) (hinge_mass : T) (link_stiffness : T),
  let j := J_log_squared_isotensional.init number_of_links link_length hinge_mass link_stiffness in
  let r := O_log_squared_isotensional.init number_of_links link_length hinge_mass link_stiffness in
  J_log_squared_isotensional.number_of_links j = O_log_squared_isotensional.number_of_links r
  /\ J_log_squared_isotensional.link_length j = O_log_squared_isotensional.link_length r
  /\ J_log_squared_isotensional.hinge_mass j = O_log_squared_isotensional.hinge_mass r
  /\ J_log_squared_isotensional.link_stiffness j = O_log_squared_isotensional.link_stiffness r
  /\ J_log_squared_isotensional.asymptotic j = J_log_squared_isotensional_asymptotic.init number_of_links link_length hinge_mass link_stiffness
  /\ J_log_squared_isotensional.legendre j = J_log_squared_isotensional_legendre.init number_of_links link_length hinge_mass link_stiffness
  /\ (forall (force : jarray T) (temperature : jarray T),
     J_log_squared_isotensional.end_to_end_length j force temperature
     = broadcast [Float64; Float64] (fun force temperature =>
         Finished (Some (O_log_squared_isotensional.end_to_end_length r force temperature))) force temperature)
  /\ (forall (force : jarray T) (temperature : jarray T),
     J_log_squared_isotensional.end_to_end_length_per_link j force temperature
     = broadcast [Float64; Float64] (fun force temperature =>
         Finished (Some (O_log_squared_isotensional.end_to_end_length_per_link r force temperature))) force temperature)
  /\ (forall (nondimensional_force : jarray T) (temperature : T),
     J_log_squared_isotensional.nondimensional_end_to_end_length j nondimensional_force temperature
     = broadcast [Float64] (fun nondimensional_force =>
         Finished (Some (O_log_squared_isotensional.nondimensional_end_to_end_length r nondimensional_force temperature))) nondimensional_force)
  /\ (forall (nondimensional_force : jarray T) (temperature : T),
     J_log_squared_isotensional.nondimensional_end_to_end_length_per_link j nondimensional_force temperature
     = broadcast [Float64] (fun nondimensional_force =>
         Finished (Some (O_log_squared_isotensional.nondimensional_end_to_end_length_per_link r nondimensional_force temperature))) nondimensional_force)
  /\ (forall (force : jarray T) (temperature : jarray T),
     J_log_squared_isotensional.gibbs_free_energy j force temperature
     = broadcast [Float64; Float64] (fun force temperature =>
         Finished (Some (O_log_squared_isotensional.gibbs_free_energy r force temperature))) force temperature)
  /\ (forall (force : jarray T) (temperature : jarray T),
     J_log_squared_isotensional.gibbs_free_energy_per_link j force temperature
     = broadcast [Float64; Float64] (fun force temperature =>
         Finished (Some (O_log_squared_isotensional.gibbs_free_energy_per_link r force temperature))) force temperature)
  /\ (forall (force : jarray T) (temperature : jarray T),
     J_log_squared_isotensional.relative_gibbs_free_energy j force temperature
     = broadcast [Float64; Float64] (fun force temperature =>
         Finished (Some (O_log_squared_isotensional.relative_gibbs_free_energy r force temperature))) force temperature)
  /\ (forall (force : jarray T) (temperature : jarray T),
     J_log_squared_isotensional.relative_gibbs_free_energy_per_link j force temperature
     = broadcast [Float64; Float64] (fun force temperature =>
         Finished (Some (O_log_squared_isotensional.relative_gibbs_free_energy_per_link r force temperature))) force temperature)
  /\ (forall (nondimensional_force : jarray T) (temperature : T),
     J_log_squared_isotensional.nondimensional_gibbs_free_energy j nondimensional_force temperature
     = broadcast [Float64] (fun nondimensional_force =>
         Finished (Some (O_log_squared_isotensional.nondimensional_gibbs_free_energy r nondimensional_force temperature))) nondimensional_force)
  /\ (forall (nondimensional_force : jarray T) (temperature : T),
     J_log_squared_isotensional.nondimensional_gibbs_free_energy_per_link j nondimensional_force temperature
     = broadcast [Float64] (fun nondimensional_force =>
         Finished (Some (O_log_squared_isotensional.nondimensional_gibbs_free_energy_per_link r nondimensional_force temperature))) nondimensional_force)
  /\ (forall (nondimensional_force : jarray T) (temperature : T),
     J_log_squared_isotensional.nondimensional_relative_gibbs_free_energy j nondimensional_force temperature
     = broadcast [Float64] (fun nondimensional_force =>
         Finished (Some (O_log_squared_isotensional.nondimensional_relative_gibbs_free_energy r nondimensional_force temperature))) nondimensional_force)
  /\ (forall (nondimensional_force : jarray T) (temperature : T),
     J_log_squared_isotensional.nondimensional_relative_gibbs_free_energy_per_link j nondimensional_force temperature
     = broadcast [Float64] (fun nondimensional_force =>
         Finished (Some (O_log_squared_isotensional.nondimensional_relative_gibbs_free_energy_per_link r nondimensional_force temperature))) nondimensional_force).
Proof. intros T Sc number_of_links link_length hinge_mass link_stiffness j r.
  split; [reflexivity|].
  split; [reflexivity|].
  split; [reflexivity|].
  split; [reflexivity|].
  split; [reflexivity|].
  split; [reflexivity|].
  split; [intros; cbv [j J_log_squared_isotensional.init J_log_squared_isotensional.end_to_end_length]; rewrite F_log_squared_isotensional_end_to_end_length; unfold O_log_squared_isotensional.end_to_end_length; broadcast_numbers|].
  split; [intros; cbv [j J_log_squared_isotensional.init J_log_squared_isotensional.end_to_end_length_per_link]; rewrite F_log_squared_isotensional_end_to_end_length_per_link; unfold O_log_squared_isotensional.end_to_end_length_per_link; broadcast_numbers|].
  split; [intros; cbv [j J_log_squared_isotensional.init J_log_squared_isotensional.nondimensional_end_to_end_length]; rewrite F_log_squared_isotensional_nondimensional_end_to_end_length; unfold O_log_squared_isotensional.nondimensional_end_to_end_length; broadcast_numbers|].
  split; [intros; cbv [j J_log_squared_isotensional.init J_log_squared_isotensional.nondimensional_end_to_end_length_per_link]; rewrite F_log_squared_isotensional_nondimensional_end_to_end_length_per_link; unfold O_log_squared_isotensional.nondimensional_end_to_end_length_per_link; broadcast_numbers|].
  split; [intros; cbv [j J_log_squared_isotensional.init J_log_squared_isotensional.gibbs_free_energy]; rewrite F_log_squared_isotensional_gibbs_free_energy; unfold O_log_squared_isotensional.gibbs_free_energy; broadcast_numbers|].
  split; [intros; cbv [j J_log_squared_isotensional.init J_log_squared_isotensional.gibbs_free_energy_per_link]; rewrite F_log_squared_isotensional_gibbs_free_energy_per_link; unfold O_log_squared_isotensional.gibbs_free_energy_per_link; broadcast_numbers|].
  split; [intros; cbv [j J_log_squared_isotensional.init J_log_squared_isotensional.relative_gibbs_free_energy]; rewrite F_log_squared_isotensional_relative_gibbs_free_energy; unfold O_log_squared_isotensional.relative_gibbs_free_energy; broadcast_numbers|].
  split; [intros; cbv [j J_log_squared_isotensional.init J_log_squared_isotensional.relative_gibbs_free_energy_per_link]; rewrite F_log_squared_isotensional_relative_gibbs_free_energy_per_link; unfold O_log_squared_isotensional.relative_gibbs_free_energy_per_link; broadcast_numbers|].
  split; [intros; cbv [j J_log_squared_isotensional.init J_log_squared_isotensional.nondimensional_gibbs_free_energy]; rewrite F_log_squared_isotensional_nondimensional_gibbs_free_energy; unfold O_log_squared_isotensional.nondimensional_gibbs_free_energy; broadcast_numbers|].
  split; [intros; cbv [j J_log_squared_isotensional.init J_log_squared_isotensional.nondimensional_gibbs_free_energy_per_link]; rewrite F_log_squared_isotensional_nondimensional_gibbs_free_energy_per_link; unfold O_log_squared_isotensional.nondimensional_gibbs_free_energy_per_link; broadcast_numbers|].
  split; [intros; cbv [j J_log_squared_isotensional.init J_log_squared_isotensional.nondimensional_relative_gibbs_free_energy]; rewrite F_log_squared_isotensional_nondimensional_relative_gibbs_free_energy; unfold O_log_squared_isotensional.nondimensional_relative_gibbs_free_energy; broadcast_numbers|].
  intros; cbv [j J_log_squared_isotensional.init J_log_squared_isotensional.nondimensional_relative_gibbs_free_energy_per_link]; rewrite F_log_squared_isotensional_nondimensional_relative_gibbs_free_energy_per_link; unfold O_log_squared_isotensional.nondimensional_relative_gibbs_free_energy_per_link; broadcast_numbers.
Qed.
Print Assumptions C61_object_log_squared_isotensional.

Theorem C61_object_morse_isometric : forall (T : Type) (Sc : Scalar T) (number_of_links : Z) (link_length : T) (hinge_mass : T) (link_stiffness : T) (link_energy : T),
  let j := J_morse_isometric.init number_of_links link_length hinge_mass link_stiffness link_energy in
  let r := O_morse_isometric.init number_of_links link_length hinge_mass link_stiffness link_energy in
  J_morse_isometric.number_of_links j = O_morse_isometric.number_of_links r
  /\ J_morse_isometric.link_length j = O_morse_isometric.link_length r
  /\ J_morse_isometric.hinge_mass j = O_morse_isometric.hinge_mass r
  /\ J_morse_isometric.link_stiffness j = O_morse_isometric.link_stiffness r
  /\ J_morse_isometric.link_energy j = O_morse_isometric.link_energy r
  /\ J_morse_isometric.asymptotic j = J_morse_isometric_asymptotic.init number_of_links link_length hinge_mass link_stiffness link_energy.
Proof. intros T Sc number_of_links link_length hinge_mass link_stiffness link_energy j r.
  split; [reflexivity|].
  split; [reflexivity|].
  split; [reflexivity|].
  split; [reflexivity|].
  split; [reflexivity|].
  reflexivity.
Qed.
Print Assumptions C61_object_morse_isometric.

Theorem C61_functions_morse_isotensional : forall (T : Type) (Sc : Scalar T),
  (forall (number_of_links : jarray Z) (link_length : jarray T) (link_stiffness : jarray T) (link_energy : jarray T) (force : jarray T) (temperature : jarray T),
     jl_morse_isotensional.end_to_end_length number_of_links link_length link_stiffness link_energy force temperature
     = broadcast [UInt8; Float64; Float64; Float64; Float64; Float64] (fun number_of_links link_length link_stiffness link_energy force temperature =>
         Finished (Some (morse_isotensional.end_to_end_length number_of_links link_length link_stiffness link_energy force temperature))) number_of_links link_length link_stiffness link_energy force temperature)
  /\ (forall (link_length : jarray T) (link_stiffness : jarray T) (link_energy : jarray T) (force : jarray T) (temperature : jarray T),
     jl_morse_isotensional.end_to_end_length_per_link link_length link_stiffness link_energy force temperature
     = broadcast [Float64; Float64; Float64; Float64; Float64] (fun link_length link_stiffness link_energy force temperature =>
         Finished (Some (morse_isotensional.end_to_end_length_per_link link_length link_stiffness link_energy force temperature))) link_length link_stiffness link_energy force temperature)
  /\ (forall (number_of_links : jarray Z) (nondimensional_link_stiffness : jarray T) (nondimensional_link_energy : jarray T) (nondimensional_force : jarray T),
     jl_morse_isotensional.nondimensional_end_to_end_length number_of_links nondimensional_link_stiffness nondimensional_link_energy nondimensional_force
     = broadcast [UInt8; Float64; Float64; Float64] (fun number_of_links nondimensional_link_stiffness nondimensional_link_energy nondimensional_force =>
         Finished (Some (morse_isotensional.nondimensional_end_to_end_length number_of_links nondimensional_link_stiffness nondimensional_link_energy nondimensional_force))) number_of_links nondimensional_link_stiffness nondimensional_link_energy nondimensional_force)
  /\ (forall (nondimensional_link_stiffness : jarray T) (nondimensional_link_energy : jarray T) (nondimensional_force : jarray T),
     jl_morse_isotensional.nondimensional_end_to_end_length_per_link nondimensional_link_stiffness nondimensional_link_energy nondimensional_force
     = broadcast [Float64; Float64; Float64] (fun nondimensional_link_stiffness nondimensional_link_energy nondimensional_force =>
         Finished (Some (morse_isotensional.nondimensional_end_to_end_length_per_link nondimensional_link_stiffness nondimensional_link_energy nondimensional_force))) nondimensional_link_stiffness nondimensional_link_energy nondimensional_force)
  /\ (forall (number_of_links : jarray Z) (link_length : jarray T) (hinge_mass : jarray T) (link_stiffness : jarray T) (link_energy : jarray T) (force : jarray T) (temperature : jarray T),
     jl_morse_isotensional.gibbs_free_energy number_of_links link_length hinge_mass link_stiffness link_energy force temperature
     = broadcast [UInt8; Float64; Float64; Float64; Float64; Float64; Float64] (fun number_of_links link_length hinge_mass link_stiffness link_energy force temperature =>
         Finished (Some (morse_isotensional.gibbs_free_energy number_of_links link_length hinge_mass link_stiffness link_energy force temperature))) number_of_links link_length hinge_mass link_stiffness link_energy force temperature)
  /\ (forall (link_length : jarray T) (hinge_mass : jarray T) (link_stiffness : jarray T) (link_energy : jarray T) (force : jarray T) (temperature : jarray T),
     jl_morse_isotensional.gibbs_free_energy_per_link link_length hinge_mass link_stiffness link_energy force temperature
     = broadcast [Float64; Float64; Float64; Float64; Float64; Float64] (fun link_length hinge_mass link_stiffness link_energy force temperature =>
         Finished (Some (morse_isotensional.gibbs_free_energy_per_link link_length hinge_mass link_stiffness link_energy force temperature))) link_length hinge_mass link_stiffness link_energy force temperature)
  /\ (forall (number_of_links : jarray Z) (link_length : jarray T) (link_stiffness : jarray T) (link_energy : jarray T) (force : jarray T) (temperature : jarray T),
     jl_morse_isotensional.relative_gibbs_free_energy number_of_links link_length link_stiffness link_energy force temperature
     = broadcast [UInt8; Float64; Float64; Float64; Float64; Float64] (fun number_of_links link_length link_stiffness link_energy force temperature =>
         Finished (Some (morse_isotensional.relative_gibbs_free_energy number_of_links link_length link_stiffness link_energy force temperature))) number_of_links link_length link_stiffness link_energy force temperature)
  /\ (forall (link_length : jarray T) (link_stiffness : jarray T) (link_energy : jarray T) (force : jarray T) (temperature : jarray T),
     jl_morse_isotensional.relative_gibbs_free_energy_per_link link_length link_stiffness link_energy force temperature
     = broadcast [Float64; Float64; Float64; Float64; Float64] (fun link_length link_stiffness link_energy force temperature =>
         Finished (Some (morse_isotensional.relative_gibbs_free_energy_per_link link_length link_stiffness link_energy force temperature))) link_length link_stiffness link_energy force temperature)
  /\ (forall (number_of_links : jarray Z) (link_length : jarray T) (hinge_mass : jarray T) (nondimensional_link_stiffness : jarray T) (nondimensional_link_energy : jarray T) (nondimensional_force : jarray T) (temperature : jarray T),
     jl_morse_isotensional.nondimensional_gibbs_free_energy number_of_links link_length hinge_mass nondimensional_link_stiffness nondimensional_link_energy nondimensional_force temperature
     = broadcast [UInt8; Float64; Float64; Float64; Float64; Float64; Float64] (fun number_of_links link_length hinge_mass nondimensional_link_stiffness nondimensional_link_energy nondimensional_force temperature =>
         Finished (Some (morse_isotensional.nondimensional_gibbs_free_energy number_of_links link_length hinge_mass nondimensional_link_stiffness nondimensional_link_energy nondimensional_force temperature))) number_of_links link_length hinge_mass nondimensional_link_stiffness nondimensional_link_energy nondimensional_force temperature)
  /\ (forall (link_length : jarray T) (hinge_mass : jarray T) (nondimensional_link_stiffness : jarray T) (nondimensional_link_energy : jarray T) (nondimensional_force : jarray T) (temperature : jarray T),
     jl_morse_isotensional.nondimensional_gibbs_free_energy_per_link link_length hinge_mass nondimensional_link_stiffness nondimensional_link_energy nondimensional_force temperature
     = broadcast [Float64; Float64; Float64; Float64; Float64; Float64] (fun link_length hinge_mass nondimensional_link_stiffness nondimensional_link_energy nondimensional_force temperature =>
         Finished (Some (morse_isotensional.nondimensional_gibbs_free_energy_per_link link_length hinge_mass nondimensional_link_stiffness nondimensional_link_energy nondimensional_force temperature))) link_length hinge_mass nondimensional_link_stiffness nondimensional_link_energy nondimensional_force temperature)
  /\ (forall (number_of_links : jarray Z) (nondimensional_link_stiffness : jarray T) (nondimensional_link_energy : jarray T) (nondimensional_force : jarray T),
     jl_morse_isotensional.nondimensional_relative_gibbs_free_energy number_of_links nondimensional_link_stiffness nondimensional_link_energy nondimensional_force
     = broadcast [UInt8; Float64; Float64; Float64] (fun number_of_links nondimensional_link_stiffness nondimensional_link_energy nondimensional_force =>
         Finished (Some (morse_isotensional.nondimensional_relative_gibbs_free_energy number_of_links nondimensional_link_stiffness nondimensional_link_energy nondimensional_force))) number_of_links nondimensional_link_stiffness nondimensional_link_energy nondimensional_force)
  /\ (forall (nondimensional_link_stiffness : jarray T) (nondimensional_link_energy : jarray T) (nondimensional_force : jarray T),
     jl_morse_isotensional.nondimensional_relative_gibbs_free_energy_per_link nondimensional_link_stiffness nondimensional_link_energy nondimensional_force
     = broadcast [Float64; Float64; Float64] (fun nondimensional_link_stiffness nondimensional_link_energy nondimensional_force =>
         Finished (Some (morse_isotensional.nondimensional_relative_gibbs_free_energy_per_link nondimensional_link_stiffness nondimensional_link_energy nondimensional_force))) nondimensional_link_stiffness nondimensional_link_energy nondimensional_force).
Proof.
  exact (fun T Sc => conj (@F_morse_isotensional_end_to_end_length T Sc)
    (conj (@F_morse_isotensional_end_to_end_length_per_link T Sc)
    (conj (@F_morse_isotensional_nondimensional_end_to_end_length T Sc)
    (conj (@F_morse_isotensional_nondimensional_end_to_end_length_per_link T Sc)
    (conj (@F_morse_isotensional_gibbs_free_energy T Sc)
    (conj (@F_morse_isotensional_gibbs_free_energy_per_link T Sc)
    (conj (@F_morse_isotensional_relative_gibbs_free_energy T Sc)
    (conj (@F_morse_isotensional_relative_gibbs_free_energy_per_link T Sc)
    (conj (@F_morse_isotensional_nondimensional_gibbs_free_energy T Sc)
    (conj (@F_morse_isotensional_nondimensional_gibbs_free_energy_per_link T Sc)
    (conj (@F_morse_isotensional_nondimensional_relative_gibbs_free_energy T Sc)
    (@F_morse_isotensional_nondimensional_relative_gibbs_free_energy_per_link T Sc)))))))))))).
Qed.
Print Assumptions C61_functions_morse_isotensional.

Theorem C61_object_morse_isotensional : forall (T : Type) (Sc : Scalar T) (number_of_links : Z) (link_length : T) (hinge_mass : T) (link_stiffness : T) (link_energy : T),
  let j := J_morse_isotensional.init number_of_links link_length hinge_mass link_stiffness link_energy in
  let r := O_morse_isotensional.init number_of_links link_length hinge_mass link_stiffness link_energy in
  J_morse_isotensional.number_of_links j = O_morse_isotensional.number_of_links r
  /\ J_morse_isotensional.link_length j = O_morse_isotensional.link_length r
  /\ J_morse_isotensional.hinge_mass j = O_morse_isotensional.hinge_mass r
  /\ J_morse_isotensional.link_stiffness j = O_morse_isotensional.link_stiffness r
  /\ J_morse_isotensional.link_energy j = O_morse_isotensional.link_energy r
  /\ J_morse_isotensional.asymptotic j = J_morse_isotensional_asymptotic.init number_of_links link_length hinge_mass link_stiffness link_energy
  /\ J_morse_isotensional.legendre j = J_morse_isotensional_legendre.init number_of_links link_length hinge_mass link_stiffness link_energy
  /\ (forall (force : jarray T) (temperature : jarray T),
     J_morse_isotensional.end_to_end_length j force temperature
     = broadcast [Float64; Float64] (fun force temperature =>
         Finished (Some (O_morse_isotensional.end_to_end_length r force temperature))) force temperature)
  /\ (forall (force : jarray T) (temperature : jarray T),
     J_morse_isotensional.end_to_end_length_per_link j force temperature
     = broadcast [Float64; Float64] (fun force temperature =>
         Finished (Some (O_morse_isotensional.end_to_end_length_per_link r force temperature))) force temperature)
  /\ (forall (nondimensional_force : jarray T) (temperature : T),
     J_morse_isotensional.nondimensional_end_to_end_length j nondimensional_force temperature
     = broadcast [Float64] (fun nondimensional_force =>
         Finished (Some (O_morse_isotensional.nondimensional_end_to_end_length r nondimensional_force temperature))) nondimensional_force)
  /\ (forall (nondimensional_force : jarray T) (temperature : T),
     J_morse_isotensional.nondimensional_end_to_end_length_per_link j nondimensional_force temperature
     = broadcast [Float64] (fun nondimensional_force =>
         Finished (Some (O_morse_isotensional.nondimensional_end_to_end_length_per_link r nondimensional_force temperature))) nondimensional_force)
  /\ (forall (force : jarray T) (temperature : jarray T),
     J_morse_isotensional.gibbs_free_energy j force temperature
     = broadcast [Float64; Float64] (fun force temperature =>
         Finished (Some (O_morse_isotensional.gibbs_free_energy r force temperature))) force temperature)
  /\ (forall (force : jarray T) (temperature : jarray T),
     J_morse_isotensional.gibbs_free_energy_per_link j force temperature
     = broadcast [Float64; Float64] (fun force temperature =>
         Finished (Some (O_morse_isotensional.gibbs_free_energy_per_link r force temperature))) force temperature)
  /\ (forall (force : jarray T) (temperature : jarray T),
     J_morse_isotensional.relative_gibbs_free_energy j force temperature
     = broadcast [Float64; Float64] (fun force temperature =>
         Finished (Some (O_morse_isotensional.relative_gibbs_free_energy r force temperature))) force temperature)
  /\ (forall (force : jarray T) (temperature : jarray T),
     J_morse_isotensional.relative_gibbs_free_energy_per_link j force temperature
     = broadcast [Float64; Float64] (fun force temperature =>
         Finished (Some (O_morse_isotensional.relative_gibbs_free_energy_per_link r force temperature))) force temperature)
  /\ (forall (nondimensional_force : jarray T) (temperature : T),
     J_morse_isotensional.nondimensional_gibbs_free_energy j nondimensional_force temperature
     = broadcast [Float64] (fun nondimensional_force =>
         Finished (Some (O_morse_isotensional.nondimensional_gibbs_free_energy r nondimensional_force temperature))) nondimensional_force)
  /\ (forall (nondimensional_force : jarray T) (temperature : T),
     J_morse_isotensional.nondimensional_gibbs_free_energy_per_link j nondimensional_force temperature
     = broadcast [Float64] (fun nondimensional_force =>
         Finished (Some (O_morse_isotensional.nondimensional_gibbs_free_energy_per_link r nondimensional_force temperature))) nondimensional_force)
  /\ (forall (nondimensional_force : jarray T) (temperature : T),
     J_morse_isotensional.nondimensional_relative_gibbs_free_energy j nondimensional_force temperature
     = broadcast [Float64] (fun nondimensional_force =>
         Finished (Some (O_morse_isotensional.nondimensional_relative_gibbs_free_energy r nondimensional_force temperature))) nondimensional_force)
  /\ (forall (nondimensional_force : jarray T) (temperature : T),
     J_morse_isotensional.nondimensional_relative_gibbs_free_energy_per_link j nondimensional_force temperature
     = broadcast [Float64] (fun nondimensional_force =>
         Finished (Some (O_morse_isotensional.nondimensional_relative_gibbs_free_energy_per_link r nondimensional_force temperature))) nondimensional_force).
Proof. intros T Sc number_of_links link_length hinge_mass link_stiffness link_energy j r.
  split; [reflexivity|].
  split; [reflexivity|].
  split; [reflexivity|].
  split; [reflexivity|].
  split; [reflexivity|].
  split; [reflexivity|].
  split; [reflexivity|].
  split; [intros; cbv [j J_morse_isotensional.init J_morse_isotensional.end_to_end_length]; rewrite F_morse_isotensional_end_to_end_length; unfold O_morse_isotensional.end_to_end_length; broadcast_numbers|].
  split; [intros; cbv [j J_morse_isotensional.init J_morse_isotensional.end_to_end_length_per_link]; rewrite F_morse_isotensional_end_to_end_length_per_link; unfold O_morse_isotensional.end_to_end_length_per_link; broadcast_numbers|].
  split; [intros; cbv [j J_morse_isotensional.init J_morse_isotensional.nondimensional_end_to_end_length]; rewrite F_morse_isotensional_nondimensional_end_to_end_length; unfold O_morse_isotensional.nondimensional_end_to_end_length; broadcast_numbers|].
  split; [intros; cbv [j J_morse_isotensional.init J_morse_isotensional.nondimensional_end_to_end_length_per_link]; rewrite F_morse_isotensional_nondimensional_end_to_end_length_per_link; unfold O_morse_isotensional.nondimensional_end_to_end_length_per_link; broadcast_numbers|].
  split; [intros; cbv [j J_morse_isotensional.init J_morse_isotensional.gibbs_free_energy]; rewrite F_morse_isotensional_gibbs_free_energy; unfold O_morse_isotensional.gibbs_free_energy; broadcast_numbers|].
  split; [intros; cbv [j J_morse_isotensional.init J_morse_isotensional.gibbs_free_energy_per_link]; rewrite F_morse_isotensional_gibbs_free_energy_per_link; unfold O_morse_isotensional.gibbs_free_energy_per_link; broadcast_numbers|].
  split; [intros; cbv [j J_morse_isotensional.init J_morse_isotensional.relative_gibbs_free_energy]; rewrite F_morse_isotensional_relative_gibbs_free_energy; unfold O_morse_isotensional.relative_gibbs_free_energy; broadcast_numbers|].
  split; [intros; cbv [j J_morse_isotensional.init J_morse_isotensional.relative_gibbs_free_energy_per_link]; rewrite F_morse_isotensional_relative_gibbs_free_energy_per_link; unfold O_morse_isotensional.relative_gibbs_free_energy_per_link; broadcast_numbers|].
  split; [intros; cbv [j J_morse_isotensional.init J_morse_isotensional.nondimensional_gibbs_free_energy]; rewrite F_morse_isotensional_nondimensional_gibbs_free_energy; unfold O_morse_isotensional.nondimensional_gibbs_free_energy; broadcast_numbers|].
  split; [intros; cbv [j J_morse_isotensional.init J_morse_isotensional.nondimensional_gibbs_free_energy_per_link]; rewrite F_morse_isotensional_nondimensional_gibbs_free_energy_per_link; unfold O_morse_isotensional.nondimensional_gibbs_free_energy_per_link; broadcast_numbers|].
  split; [intros; cbv [j J_morse_isotensional.init J_morse_isotensional.nondimensional_relative_gibbs_free_energy]; rewrite F_morse_isotensional_nondimensional_relative_gibbs_free_energy; unfold O_morse_isotensional.nondimensional_relative_gibbs_free_energy; broadcast_numbers|].
  intros; cbv [j J_morse_isotensional.init J_morse_isotensional.nondimensional_relative_gibbs_free_energy_per_link]; rewrite F_morse_isotensional_nondimensional_relative_gibbs_free_energy_per_link; unfold O_morse_isotensional.nondimensional_relative_gibbs_free_energy_per_link; broadcast_numbers.
Qed.
Print Assumptions C61_object_morse_isotensional.

Theorem C61_functions_wlc_isometric_legendre : forall (T : Type) (Sc : Scalar T),
  (forall (number_of_links : jarray Z) (link_length : jarray T) (hinge_mass : jarray T) (persistance_length : jarray T) (end_to_end_length : jarray T) (temperature : jarray T),
     jl_wlc_isometric_legendre.gibbs_free_energy number_of_links link_length hinge_mass persistance_length end_to_end_length temperature
     = broadcast [UInt8; Float64; Float64; Float64; Float64; Float64] (fun number_of_links link_length hinge_mass persistance_length end_to_end_length temperature =>
         Finished (Some (wlc_isometric_legendre.gibbs_free_energy number_of_links link_length hinge_mass persistance_length end_to_end_length temperature))) number_of_links link_length hinge_mass persistance_length end_to_end_length temperature)
  /\ (forall (number_of_links : jarray Z) (link_length : jarray T) (hinge_mass : jarray T) (persistance_length : jarray T) (end_to_end_length : jarray T) (temperature : jarray T),
     jl_wlc_isometric_legendre.gibbs_free_energy_per_link number_of_links link_length hinge_mass persistance_length end_to_end_length temperature
     = broadcast [UInt8; Float64; Float64; Float64; Float64; Float64] (fun number_of_links link_length hinge_mass persistance_length end_to_end_length temperature =>
         Finished (Some (wlc_isometric_legendre.gibbs_free_energy_per_link number_of_links link_length hinge_mass persistance_length end_to_end_length temperature))) number_of_links link_length hinge_mass persistance_length end_to_end_length temperature)
  /\ (forall (number_of_links : jarray Z) (link_length : jarray T) (persistance_length : jarray T) (end_to_end_length : jarray T) (temperature : jarray T),
     jl_wlc_isometric_legendre.relative_gibbs_free_energy number_of_links link_length persistance_length end_to_end_length temperature
     = broadcast [UInt8; Float64; Float64; Float64; Float64] (fun number_of_links link_length persistance_length end_to_end_length temperature =>
         Finished (Some (wlc_isometric_legendre.relative_gibbs_free_energy number_of_links link_length persistance_length end_to_end_length temperature))) number_of_links link_length persistance_length end_to_end_length temperature)
  /\ (forall (number_of_links : jarray Z) (link_length : jarray T) (persistance_length : jarray T) (end_to_end_length : jarray T) (temperature : jarray T),
     jl_wlc_isometric_legendre.relative_gibbs_free_energy_per_link number_of_links link_length persistance_length end_to_end_length temperature
     = broadcast [UInt8; Float64; Float64; Float64; Float64] (fun number_of_links link_length persistance_length end_to_end_length temperature =>
         Finished (Some (wlc_isometric_legendre.relative_gibbs_free_energy_per_link number_of_links link_length persistance_length end_to_end_length temperature))) number_of_links link_length persistance_length end_to_end_length temperature)
  /\ (forall (number_of_links : jarray Z) (link_length : jarray T) (hinge_mass : jarray T) (nondimensional_persistance_length : jarray T) (nondimensional_end_to_end_length_per_link : jarray T) (temperature : jarray T),
     jl_wlc_isometric_legendre.nondimensional_gibbs_free_energy number_of_links link_length hinge_mass nondimensional_persistance_length nondimensional_end_to_end_length_per_link temperature
     = broadcast [UInt8; Float64; Float64; Float64; Float64; Float64] (fun number_of_links link_length hinge_mass nondimensional_persistance_length nondimensional_end_to_end_length_per_link temperature =>
         Finished (Some (wlc_isometric_legendre.nondimensional_gibbs_free_energy number_of_links link_length hinge_mass nondimensional_persistance_length nondimensional_end_to_end_length_per_link temperature))) number_of_links link_length hinge_mass nondimensional_persistance_length nondimensional_end_to_end_length_per_link temperature)
  /\ (forall (number_of_links : jarray Z) (link_length : jarray T) (hinge_mass : jarray T) (nondimensional_persistance_length : jarray T) (nondimensional_end_to_end_length_per_link : jarray T) (temperature : jarray T),
     jl_wlc_isometric_legendre.nondimensional_gibbs_free_energy_per_link number_of_links link_length hinge_mass nondimensional_persistance_length nondimensional_end_to_end_length_per_link temperature
     = broadcast [UInt8; Float64; Float64; Float64; Float64; Float64] (fun number_of_links link_length hinge_mass nondimensional_persistance_length nondimensional_end_to_end_length_per_link temperature =>
         Finished (Some (wlc_isometric_legendre.nondimensional_gibbs_free_energy_per_link number_of_links link_length hinge_mass nondimensional_persistance_length nondimensional_end_to_end_length_per_link temperature))) number_of_links link_length hinge_mass nondimensional_persistance_length nondimensional_end_to_end_length_per_link temperature)
  /\ (forall (number_of_links : jarray Z) (nondimensional_persistance_length : jarray T) (nondimensional_end_to_end_length_per_link : jarray T),
     jl_wlc_isometric_legendre.nondimensional_relative_gibbs_free_energy number_of_links nondimensional_persistance_length nondimensional_end_to_end_length_per_link
     = broadcast [UInt8; Float64; Float64] (fun number_of_links nondimensional_persistance_length nondimensional_end_to_end_length_per_link =>
         Finished (Some (wlc_isometric_legendre.nondimensional_relative_gibbs_free_energy number_of_links nondimensional_persistance_length nondimensional_end_to_end_length_per_link))) number_of_links nondimensional_persistance_length nondimensional_end_to_end_length_per_link)
  /\ (forall (number_of_links : jarray Z) (nondimensional_persistance_length : jarray T) (nondimensional_end_to_end_length_per_link : jarray T),
     jl_wlc_isometric_legendre.nondimensional_relative_gibbs_free_energy_per_link number_of_links nondimensional_persistance_length nondimensional_end_to_end_length_per_link
     = broadcast [UInt8; Float64; Float64] (fun number_of_links nondimensional_persistance_length nondimensional_end_to_end_length_per_link =>
         Finished (Some (wlc_isometric_legendre.nondimensional_relative_gibbs_free_energy_per_link number_of_links nondimensional_persistance_length nondimensional_end_to_end_length_per_link))) number_of_links nondimensional_persistance_length nondimensional_end_to_end_length_per_link).
Proof.
  exact (fun T Sc => conj (@F_wlc_isometric_legendre_gibbs_free_energy T Sc)
    (conj (@F_wlc_isometric_legendre_gibbs_free_energy_per_link T Sc)
    (conj (@F_wlc_isometric_legendre_relative_gibbs_free_energy T Sc)
    (conj (@F_wlc_isometric_legendre_relative_gibbs_free_energy_per_link T Sc)
    (conj (@F_wlc_isometric_legendre_nondimensional_gibbs_free_energy T Sc)
    (conj (@F_wlc_isometric_legendre_nondimensional_gibbs_free_energy_per_link T Sc)
    (conj (@F_wlc_isometric_legendre_nondimensional_relative_gibbs_free_energy T Sc)
    (@F_wlc_isometric_legendre_nondimensional_relative_gibbs_free_energy_per_link T Sc)))))))).
Qed.
Print Assumptions C61_functions_wlc_isometric_legendre.

Theorem C61_object_wlc_isometric_legendre : forall (T : Type) (Sc : Scalar T) (number_of_links : Z) (link_length : T) (hinge_mass : T) (persistance_length : T),
  let j := J_wlc_isometric_legendre.init number_of_links link_length hinge_mass persistance_length in
  let r := O_wlc_isometric_legendre.init number_of_links link_length hinge_mass persistance_length in
  J_wlc_isometric_legendre.number_of_links j = O_wlc_isometric_legendre.number_of_links r
  /\ J_wlc_isometric_legendre.link_length j = O_wlc_isometric_legendre.link_length r
  /\ J_wlc_isometric_legendre.hinge_mass j = O_wlc_isometric_legendre.hinge_mass r
  /\ J_wlc_isometric_legendre.persistance_length j = O_wlc_isometric_legendre.persistance_length r
  /\ J_wlc_isometric_legendre.nondimensional_persistance_length j = O_wlc_isometric_legendre.nondimensional_persistance_length r
  /\ (forall (end_to_end_length : jarray T) (temperature : jarray T),
     J_wlc_isometric_legendre.gibbs_free_energy j end_to_end_length temperature
     = broadcast [Float64; Float64] (fun end_to_end_length temperature =>
         Finished (Some (O_wlc_isometric_legendre.gibbs_free_energy r end_to_end_length temperature))) end_to_end_length temperature)
  /\ (forall (end_to_end_length : jarray T) (temperature : jarray T),
     J_wlc_isometric_legendre.gibbs_free_energy_per_link j end_to_end_length temperature
     = broadcast [Float64; Float64] (fun end_to_end_length temperature =>
         Finished (Some (O_wlc_isometric_legendre.gibbs_free_energy_per_link r end_to_end_length temperature))) end_to_end_length temperature)
  /\ (forall (end_to_end_length : jarray T) (temperature : jarray T),
     J_wlc_isometric_legendre.relative_gibbs_free_energy j end_to_end_length temperature
     = broadcast [Float64; Float64] (fun end_to_end_length temperature =>
         Finished (Some (O_wlc_isometric_legendre.relative_gibbs_free_energy r end_to_end_length temperature))) end_to_end_length temperature)
  /\ (forall (end_to_end_length : jarray T) (temperature : jarray T),
     J_wlc_isometric_legendre.relative_gibbs_free_energy_per_link j end_to_end_length temperature
     = broadcast [Float64; Float64] (fun end_to_end_length temperature =>
         Finished (Some (O_wlc_isometric_legendre.relative_gibbs_free_energy_per_link r end_to_end_length temperature))) end_to_end_length temperature)
  /\ (forall (nondimensional_end_to_end_length_per_link : jarray T) (temperature : jarray T),
     J_wlc_isometric_legendre.nondimensional_gibbs_free_energy j nondimensional_end_to_end_length_per_link temperature
     = broadcast [Float64; Float64] (fun nondimensional_end_to_end_length_per_link temperature =>
         Finished (Some (O_wlc_isometric_legendre.nondimensional_gibbs_free_energy r nondimensional_end_to_end_length_per_link temperature))) nondimensional_end_to_end_length_per_link temperature)
  /\ (forall (nondimensional_end_to_end_length_per_link : jarray T) (temperature : jarray T),
     J_wlc_isometric_legendre.nondimensional_gibbs_free_energy_per_link j nondimensional_end_to_end_length_per_link temperature
     = broadcast [Float64; Float64] (fun nondimensional_end_to_end_length_per_link temperature =>
         Finished (Some (O_wlc_isometric_legendre.nondimensional_gibbs_free_energy_per_link r nondimensional_end_to_end_length_per_link temperature))) nondimensional_end_to_end_length_per_link temperature)
  /\ (forall (nondimensional_end_to_end_length_per_link : jarray T),
     J_wlc_isometric_legendre.nondimensional_relative_gibbs_free_energy j nondimensional_end_to_end_length_per_link
     = broadcast [Float64] (fun nondimensional_end_to_end_length_per_link =>
         Finished (Some (O_wlc_isometric_legendre.nondimensional_relative_gibbs_free_energy r nondimensional_end_to_end_length_per_link))) nondimensional_end_to_end_length_per_link)
  /\ (forall (nondimensional_end_to_end_length_per_link : jarray T),
     J_wlc_isometric_legendre.nondimensional_relative_gibbs_free_energy_per_link j nondimensional_end_to_end_length_per_link
     = broadcast [Float64] (fun nondimensional_end_to_end_length_per_link =>
         Finished (Some (O_wlc_isometric_legendre.nondimensional_relative_gibbs_free_energy_per_link r nondimensional_end_to_end_length_per_link))) nondimensional_end_to_end_length_per_link).
Proof. intros T Sc number_of_links link_length hinge_mass persistance_length j r.
  split; [reflexivity|].
  split; [reflexivity|].
  split; [reflexivity|].
  split; [reflexivity|].
  split; [reflexivity|].
  split; [intros; cbv [j J_wlc_isometric_legendre.init J_wlc_isometric_legendre.gibbs_free_energy]; rewrite F_wlc_isometric_legendre_gibbs_free_energy; unfold O_wlc_isometric_legendre.gibbs_free_energy; broadcast_numbers|].
  split; [intros; cbv [j J_wlc_isometric_legendre.init J_wlc_isometric_legendre.gibbs_free_energy_per_link]; rewrite F_wlc_isometric_legendre_gibbs_free_energy_per_link; unfold O_wlc_isometric_legendre.gibbs_free_energy_per_link; broadcast_numbers|].
  split; [intros; cbv [j J_wlc_isometric_legendre.init J_wlc_isometric_legendre.relative_gibbs_free_energy]; rewrite F_wlc_isometric_legendre_relative_gibbs_free_energy; unfold O_wlc_isometric_legendre.relative_gibbs_free_energy; broadcast_numbers|].
  split; [intros; cbv [j J_wlc_isometric_legendre.init J_wlc_isometric_legendre.relative_gibbs_free_energy_per_link]; rewrite F_wlc_isometric_legendre_relative_gibbs_free_energy_per_link; unfold O_wlc_isometric_legendre.relative_gibbs_free_energy_per_link; broadcast_numbers|].
  split; [intros; cbv [j J_wlc_isometric_legendre.init J_wlc_isometric_legendre.nondimensional_gibbs_free_energy]; rewrite F_wlc_isometric_legendre_nondimensional_gibbs_free_energy; unfold O_wlc_isometric_legendre.nondimensional_gibbs_free_energy; broadcast_numbers|].
  split; [intros; cbv [j J_wlc_isometric_legendre.init J_wlc_isometric_legendre.nondimensional_gibbs_free_energy_per_link]; rewrite F_wlc_isometric_legendre_nondimensional_gibbs_free_energy_per_link; unfold O_wlc_isometric_legendre.nondimensional_gibbs_free_energy_per_link; broadcast_numbers|].
  split; [intros; cbv [j J_wlc_isometric_legendre.init J_wlc_isometric_legendre.nondimensional_relative_gibbs_free_energy]; rewrite F_wlc_isometric_legendre_nondimensional_relative_gibbs_free_energy; unfold O_wlc_isometric_legendre.nondimensional_relative_gibbs_free_energy; broadcast_numbers|].
  intros; cbv [j J_wlc_isometric_legendre.init J_wlc_isometric_legendre.nondimensional_relative_gibbs_free_energy_per_link]; rewrite F_wlc_isometric_legendre_nondimensional_relative_gibbs_free_energy_per_link; unfold O_wlc_isometric_legendre.nondimensional_relative_gibbs_free_energy_per_link; broadcast_numbers.
Qed.
Print Assumptions C61_object_wlc_isometric_legendre.

Theorem C61_functions_wlc_isotensional_legendre : forall (T : Type) (Sc : Scalar T),
  (forall (number_of_links : jarray Z) (link_length : jarray T) (hinge_mass : jarray T) (persistance_length : jarray T) (force : jarray T) (temperature : jarray T),
     jl_wlc_isotensional_legendre.helmholtz_free_energy number_of_links link_length hinge_mass persistance_length force temperature
     = broadcast [UInt8; Float64; Float64; Float64; Float64; Float64] (fun number_of_links link_length hinge_mass persistance_length force temperature =>
         Finished (wlc_isotensional_legendre.helmholtz_free_energy number_of_links link_length hinge_mass persistance_length force temperature)) number_of_links link_length hinge_mass persistance_length force temperature)
  /\ (forall (number_of_links : jarray Z) (link_length : jarray T) (hinge_mass : jarray T) (persistance_length : jarray T) (force : jarray T) (temperature : jarray T),
     jl_wlc_isotensional_legendre.helmholtz_free_energy_per_link number_of_links link_length hinge_mass persistance_length force temperature
     = broadcast [UInt8; Float64; Float64; Float64; Float64; Float64] (fun number_of_links link_length hinge_mass persistance_length force temperature =>
         Finished (wlc_isotensional_legendre.helmholtz_free_energy_per_link number_of_links link_length hinge_mass persistance_length force temperature)) number_of_links link_length hinge_mass persistance_length force temperature)
  /\ (forall (number_of_links : jarray Z) (link_length : jarray T) (persistance_length : jarray T) (force : jarray T) (temperature : jarray T),
     jl_wlc_isotensional_legendre.relative_helmholtz_free_energy number_of_links link_length persistance_length force temperature
     = broadcast [UInt8; Float64; Float64; Float64; Float64] (fun number_of_links link_length persistance_length force temperature =>
         Finished (wlc_isotensional_legendre.relative_helmholtz_free_energy number_of_links link_length persistance_length force temperature)) number_of_links link_length persistance_length force temperature)
  /\ (forall (number_of_links : jarray Z) (link_length : jarray T) (persistance_length : jarray T) (force : jarray T) (temperature : jarray T),
     jl_wlc_isotensional_legendre.relative_helmholtz_free_energy_per_link number_of_links link_length persistance_length force temperature
     = broadcast [UInt8; Float64; Float64; Float64; Float64] (fun number_of_links link_length persistance_length force temperature =>
         Finished (wlc_isotensional_legendre.relative_helmholtz_free_energy_per_link number_of_links link_length persistance_length force temperature)) number_of_links link_length persistance_length force temperature)
  /\ (forall (number_of_links : jarray Z) (link_length : jarray T) (hinge_mass : jarray T) (nondimensional_persistance_length : jarray T) (nondimensional_force : jarray T) (temperature : jarray T),
     jl_wlc_isotensional_legendre.nondimensional_helmholtz_free_energy number_of_links link_length hinge_mass nondimensional_persistance_length nondimensional_force temperature
     = broadcast [UInt8; Float64; Float64; Float64; Float64; Float64] (fun number_of_links link_length hinge_mass nondimensional_persistance_length nondimensional_force temperature =>
         Finished (wlc_isotensional_legendre.nondimensional_helmholtz_free_energy number_of_links link_length hinge_mass nondimensional_persistance_length nondimensional_force temperature)) number_of_links link_length hinge_mass nondimensional_persistance_length nondimensional_force temperature)
  /\ (forall (number_of_links : jarray Z) (link_length : jarray T) (hinge_mass : jarray T) (nondimensional_persistance_length : jarray T) (nondimensional_force : jarray T) (temperature : jarray T),
     jl_wlc_isotensional_legendre.nondimensional_helmholtz_free_energy_per_link number_of_links link_length hinge_mass nondimensional_persistance_length nondimensional_force temperature
     = broadcast [UInt8; Float64; Float64; Float64; Float64; Float64] (fun number_of_links link_length hinge_mass nondimensional_persistance_length nondimensional_force temperature =>
         Finished (wlc_isotensional_legendre.nondimensional_helmholtz_free_energy_per_link number_of_links link_length hinge_mass nondimensional_persistance_length nondimensional_force temperature)) number_of_links link_length hinge_mass nondimensional_persistance_length nondimensional_force temperature)
  /\ (forall (number_of_links : jarray Z) (nondimensional_persistance_length : jarray T) (nondimensional_force : jarray T),
     jl_wlc_isotensional_legendre.nondimensional_relative_helmholtz_free_energy number_of_links nondimensional_persistance_length nondimensional_force
     = broadcast [UInt8; Float64; Float64] (fun number_of_links nondimensional_persistance_length nondimensional_force =>
         Finished (wlc_isotensional_legendre.nondimensional_relative_helmholtz_free_energy number_of_links nondimensional_persistance_length nondimensional_force)) number_of_links nondimensional_persistance_length nondimensional_force)
  /\ (forall (number_of_links : jarray Z) (nondimensional_persistance_length : jarray T) (nondimensional_force : jarray T),
     jl_wlc_isotensional_legendre.nondimensional_relative_helmholtz_free_energy_per_link number_of_links nondimensional_persistance_length nondimensional_force
     = broadcast [UInt8; Float64; Float64] (fun number_of_links nondimensional_persistance_length nondimensional_force =>
         Finished (wlc_isotensional_legendre.nondimensional_relative_helmholtz_free_energy_per_link number_of_links nondimensional_persistance_length nondimensional_force)) number_of_links nondimensional_persistance_length nondimensional_force).
Proof.
  exact (fun T Sc => conj (@F_wlc_isotensional_legendre_helmholtz_free_energy T Sc)
    (conj (@F_wlc_isotensional_legendre_helmholtz_free_energy_per_link T Sc)
    (conj (@F_wlc_isotensional_legendre_relative_helmholtz_free_energy T Sc)
    (conj (@F_wlc_isotensional_legendre_relative_helmholtz_free_energy_per_link T Sc)
    (conj (@F_wlc_isotensional_legendre_nondimensional_helmholtz_free_energy T Sc)
    (conj (@F_wlc_isotensional_legendre_nondimensional_helmholtz_free_energy_per_link T Sc)
    (conj (@F_wlc_isotensional_legendre_nondimensional_relative_helmholtz_free_energy T Sc)
    (@F_wlc_isotensional_legendre_nondimensional_relative_helmholtz_free_energy_per_link T Sc)))))))).
Qed.
Print Assumptions C61_functions_wlc_isotensional_legendre.

Theorem C61_object_wlc_isotensional_legendre : forall (T : Type) (Sc : Scalar T) (number_of_links : Z) (link_length : T) (hinge_mass : T) (persistance_length : T),
  let j := J_wlc_isotensional_legendre.init number_of_links link_length hinge_mass persistance_length in
  let r := O_wlc_isotensional_legendre.init number_of_links link_length hinge_mass persistance_length in
  J_wlc_isotensional_legendre.number_of_links j = O_wlc_isotensional_legendre.number_of_links r
  /\ J_wlc_isotensional_legendre.link_length j = O_wlc_isotensional_legendre.link_length r
  /\ J_wlc_isotensional_legendre.hinge_mass j = O_wlc_isotensional_legendre.hinge_mass r
  /\ J_wlc_isotensional_legendre.persistance_length j = O_wlc_isotensional_legendre.persistance_length r
  /\ J_wlc_isotensional_legendre.nondimensional_persistance_length j = O_wlc_isotensional_legendre.nondimensional_persistance_length r
  /\ (forall (force : jarray T) (temperature : jarray T),
     J_wlc_isotensional_legendre.helmholtz_free_energy j force temperature
     = broadcast [Float64; Float64] (fun force temperature =>
         Finished (O_wlc_isotensional_legendre.helmholtz_free_energy r force temperature)) force temperature)
  /\ (forall (force : jarray T) (temperature : jarray T),
     J_wlc_isotensional_legendre.helmholtz_free_energy_per_link j force temperature
     = broadcast [Float64; Float64] (fun force temperature =>
         Finished (O_wlc_isotensional_legendre.helmholtz_free_energy_per_link r force temperature)) force temperature)
  /\ (forall (force : jarray T) (temperature : jarray T),
     J_wlc_isotensional_legendre.relative_helmholtz_free_energy j force temperature
     = broadcast [Float64; Float64] (fun force temperature =>
         Finished (O_wlc_isotensional_legendre.relative_helmholtz_free_energy r force temperature)) force temperature)
  /\ (forall (force : jarray T) (temperature : jarray T),
     J_wlc_isotensional_legendre.relative_helmholtz_free_energy_per_link j force temperature
     = broadcast [Float64; Float64] (fun force temperature =>
         Finished (O_wlc_isotensional_legendre.relative_helmholtz_free_energy_per_link r force temperature)) force temperature)
  /\ (forall (nondimensional_force : jarray T) (temperature : jarray T),
     J_wlc_isotensional_legendre.nondimensional_helmholtz_free_energy j nondimensional_force temperature
     = broadcast [Float64; Float64] (fun nondimensional_force temperature =>
         Finished (O_wlc_isotensional_legendre.nondimensional_helmholtz_free_energy r nondimensional_force temperature)) nondimensional_force temperature)
  /\ (forall (nondimensional_force : jarray T) (temperature : jarray T),
     J_wlc_isotensional_legendre.nondimensional_helmholtz_free_energy_per_link j nondimensional_force temperature
     = broadcast [Float64; Float64] (fun nondimensional_force temperature =>
         Finished (O_wlc_isotensional_legendre.nondimensional_helmholtz_free_energy_per_link r nondimensional_force temperature)) nondimensional_force temperature)
  /\ (forall (nondimensional_force : jarray T),
     J_wlc_isotensional_legendre.nondimensional_relative_helmholtz_free_energy j nondimensional_force
     = broadcast [Float64] (fun nondimensional_force =>
         Finished (O_wlc_isotensional_legendre.nondimensional_relative_helmholtz_free_energy r nondimensional_force)) nondimensional_force)
  /\ (forall (nondimensional_force : jarray T),
     J_wlc_isotensional_legendre.nondimensional_relative_helmholtz_free_energy_per_link j nondimensional_force
     = broadcast [Float64] (fun nondimensional_force =>
         Finished (O_wlc_isotensional_legendre.nondimensional_relative_helmholtz_free_energy_per_link r nondimensional_force)) nondimensional_force).
Proof. intros T Sc number_of_links link_length hinge_mass persistance_length j r.
  split; [reflexivity|].
  split; [reflexivity|].
  split; [reflexivity|].
  split; [reflexivity|].
  split; [reflexivity|].
  split; [intros; cbv [j J_wlc_isotensional_legendre.init J_wlc_isotensional_legendre.helmholtz_free_energy]; rewrite F_wlc_isotensional_legendre_helmholtz_free_energy; unfold O_wlc_isotensional_legendre.helmholtz_free_energy; broadcast_numbers|].
  split; [intros; cbv [j J_wlc_isotensional_legendre.init J_wlc_isotensional_legendre.helmholtz_free_energy_per_link]; rewrite F_wlc_isotensional_legendre_helmholtz_free_energy_per_link; unfold O_wlc_isotensional_legendre.helmholtz_free_energy_per_link; broadcast_numbers|].
  split; [intros; cbv [j J_wlc_isotensional_legendre.init J_wlc_isotensional_legendre.relative_helmholtz_free_energy]; rewrite F_wlc_isotensional_legendre_relative_helmholtz_free_energy; unfold O_wlc_isotensional_legendre.relative_helmholtz_free_energy; broadcast_numbers|].
  split; [intros; cbv [j J_wlc_isotensional_legendre.init J_wlc_isotensional_legendre.relative_helmholtz_free_energy_per_link]; rewrite F_wlc_isotensional_legendre_relative_helmholtz_free_energy_per_link; unfold O_wlc_isotensional_legendre.relative_helmholtz_free_energy_per_link; broadcast_numbers|].
  split; [intros; cbv [j J_wlc_isotensional_legendre.init J_wlc_isotensional_legendre.nondimensional_helmholtz_free_energy]; rewrite F_wlc_isotensional_legendre_nondimensional_helmholtz_free_energy; unfold O_wlc_isotensional_legendre.nondimensional_helmholtz_free_energy; broadcast_numbers|].
  split; [intros; cbv [j J_wlc_isotensional_legendre.init J_wlc_isotensional_legendre.nondimensional_helmholtz_free_energy_per_link]; rewrite F_wlc_isotensional_legendre_nondimensional_helmholtz_free_energy_per_link; unfold O_wlc_isotensional_legendre.nondimensional_helmholtz_free_energy_per_link; broadcast_numbers|].
  split; [intros; cbv [j J_wlc_isotensional_legendre.init J_wlc_isotensional_legendre.nondimensional_relative_helmholtz_free_energy]; rewrite F_wlc_isotensional_legendre_nondimensional_relative_helmholtz_free_energy; unfold O_wlc_isotensional_legendre.nondimensional_relative_helmholtz_free_energy; broadcast_numbers|].
  intros; cbv [j J_wlc_isotensional_legendre.init J_wlc_isotensional_legendre.nondimensional_relative_helmholtz_free_energy_per_link]; rewrite F_wlc_isotensional_legendre_nondimensional_relative_helmholtz_free_energy_per_link; unfold O_wlc_isotensional_legendre.nondimensional_relative_helmholtz_free_energy_per_link; broadcast_numbers.
Qed.
Print Assumptions C61_object_wlc_isotensional_legendre.

Theorem C61_object_efjc_isometric : forall (T : Type) (Sc : Scalar T) (number_of_links : Z) (link_length : T) (hinge_mass : T) (link_stiffness : T),
  let j := J_efjc_isometric.init number_of_links link_length hinge_mass link_stiffness in
  let r := O_efjc_isometric.init number_of_links link_length hinge_mass link_stiffness in
  J_efjc_isometric.number_of_links j = O_efjc_isometric.number_of_links r
  /\ J_efjc_isometric.link_length j = O_efjc_isometric.link_length r
  /\ J_efjc_isometric.hinge_mass j = O_efjc_isometric.hinge_mass r
  /\ J_efjc_isometric.link_stiffness j = O_efjc_isometric.link_stiffness r
  /\ J_efjc_isometric.asymptotic j = J_efjc_isometric_asymptotic.init number_of_links link_length hinge_mass link_stiffness.
Proof. intros T Sc number_of_links link_length hinge_mass link_stiffness j r.
  split; [reflexivity|].
  split; [reflexivity|].
  split; [reflexivity|].
  split; [reflexivity|].
  reflexivity.
Qed.
Print Assumptions C61_object_efjc_isometric.

Theorem C61_functions_efjc_isotensional : forall (T : Type) (Sc : Scalar T),
  (forall (number_of_links : jarray Z) (link_length : jarray T) (link_stiffness : jarray T) (force : jarray T) (temperature : jarray T),
     jl_efjc_isotensional.end_to_end_length number_of_links link_length link_stiffness force temperature
     = broadcast [UInt8; Float64; Float64; Float64; Float64] (fun number_of_links link_length link_stiffness force temperature =>
         Finished (Some (efjc_isotensional.end_to_end_length number_of_links link_length link_stiffness force temperature))) number_of_links link_length link_stiffness force temperature)
  /\ (forall (link_length : jarray T) (link_stiffness : jarray T) (force : jarray T) (temperature : jarray T),
     jl_efjc_isotensional.end_to_end_length_per_link link_length link_stiffness force temperature
     = broadcast [Float64; Float64; Float64; Float64] (fun link_length link_stiffness force temperature =>
         Finished (Some (efjc_isotensional.end_to_end_length_per_link link_length link_stiffness force temperature))) link_length link_stiffness force temperature)
  /\ (forall (number_of_links : jarray Z) (nondimensional_link_stiffness : jarray T) (nondimensional_force : jarray T),
     jl_efjc_isotensional.nondimensional_end_to_end_length number_of_links nondimensional_link_stiffness nondimensional_force
     = broadcast [UInt8; Float64; Float64] (fun number_of_links nondimensional_link_stiffness nondimensional_force =>
         Finished (Some (efjc_isotensional.nondimensional_end_to_end_length number_of_links nondimensional_link_stiffness nondimensional_force))) number_of_links nondimensional_link_stiffness nondimensional_force)
  /\ (forall (nondimensional_link_stiffness : jarray T) (nondimensional_force : jarray T),
     jl_efjc_isotensional.nondimensional_end_to_end_length_per_link nondimensional_link_stiffness nondimensional_force
     = broadcast [Float64; Float64] (fun nondimensional_link_stiffness nondimensional_force =>
         Finished (Some (efjc_isotensional.nondimensional_end_to_end_length_per_link nondimensional_link_stiffness nondimensional_force))) nondimensional_link_stiffness nondimensional_force)
  /\ (forall (number_of_links : jarray Z) (link_length : jarray T) (hinge_mass : jarray T) (link_stiffness : jarray T) (force : jarray T) (temperature : jarray T),
     jl_efjc_isotensional.gibbs_free_energy number_of_links link_length hinge_mass link_stiffness force temperature
     = broadcast [UInt8; Float64; Float64; Float64; Float64; Float64] (fun number_of_links link_length hinge_mass link_stiffness force temperature =>
         Finished (Some (efjc_isotensional.gibbs_free_energy number_of_links link_length hinge_mass link_stiffness force temperature))) number_of_links link_length hinge_mass link_stiffness force temperature)
  /\ (forall (link_length : jarray T) (hinge_mass : jarray T) (link_stiffness : jarray T) (force : jarray T) (temperature : jarray T),
     jl_efjc_isotensional.gibbs_free_energy_per_link link_length hinge_mass link_stiffness force temperature
     = broadcast [Float64; Float64; Float64; Float64; Float64] (fun link_length hinge_mass link_stiffness force temperature =>
         Finished (Some (efjc_isotensional.gibbs_free_energy_per_link link_length hinge_mass link_stiffness force temperature))) link_length hinge_mass link_stiffness force temperature)
  /\ (forall (number_of_links : jarray Z) (link_length : jarray T) (link_stiffness : jarray T) (force : jarray T) (temperature : jarray T),
     jl_efjc_isotensional.relative_gibbs_free_energy number_of_links link_length link_stiffness force temperature
     = broadcast [UInt8; Float64; Float64; Float64; Float64] (fun number_of_links link_length link_stiffness force temperature =>
         Finished (Some (efjc_isotensional.relative_gibbs_free_energy number_of_links link_length link_stiffness force temperature))) number_of_links link_length link_stiffness force temperature)
  /\ (forall (link_length : jarray T) (link_stiffness : jarray T) (force : jarray T) (temperature : jarray T),
     jl_efjc_isotensional.relative_gibbs_free_energy_per_link link_length link_stiffness force temperature
     = broadcast [Float64; Float64; Float64; Float64] (fun link_length link_stiffness force temperature =>
         Finished (Some (efjc_isotensional.relative_gibbs_free_energy_per_link link_length link_stiffness force temperature))) link_length link_stiffness force temperature)
  /\ (forall (number_of_links : jarray Z) (link_length : jarray T) (hinge_mass : jarray T) (nondimensional_link_stiffness : jarray T) (nondimensional_force : jarray T) (temperature : jarray T),
     jl_efjc_isotensional.nondimensional_gibbs_free_energy number_of_links link_length hinge_mass nondimensional_link_stiffness nondimensional_force temperature
     = broadcast [UInt8; Float64; Float64; Float64; Float64; Float64] (fun number_of_links link_length hinge_mass nondimensional_link_stiffness nondimensional_force temperature =>
         Finished (Some (efjc_isotensional.nondimensional_gibbs_free_energy number_of_links link_length hinge_mass nondimensional_link_stiffness nondimensional_force temperature))) number_of_links link_length hinge_mass nondimensional_link_stiffness nondimensional_force temperature)
  /\ (forall (link_length : jarray T) (hinge_mass : jarray T) (nondimensional_link_stiffness : jarray T) (nondimensional_force : jarray T) (temperature : jarray T),
     jl_efjc_isotensional.nondimensional_gibbs_free_energy_per_link link_length hinge_mass nondimensional_link_stiffness nondimensional_force temperature
     = broadcast [Float64; Float64; Float64; Float64; Float64] (fun link_length hinge_mass nondimensional_link_stiffness nondimensional_force temperature =>
         Finished (Some (efjc_isotensional.nondimensional_gibbs_free_energy_per_link link_length hinge_mass nondimensional_link_stiffness nondimensional_force temperature))) link_length hinge_mass nondimensional_link_stiffness nondimensional_force temperature)
  /\ (forall (number_of_links : jarray Z) (nondimensional_link_stiffness : jarray T) (nondimensional_force : jarray T),
     jl_efjc_isotensional.nondimensional_relative_gibbs_free_energy number_of_links nondimensional_link_stiffness nondimensional_force
     = broadcast [UInt8; Float64; Float64] (fun number_of_links nondimensional_link_stiffness nondimensional_force =>
         Finished (Some (efjc_isotensional.nondimensional_relative_gibbs_free_energy number_of_links nondimensional_link_stiffness nondimensional_force))) number_of_links nondimensional_link_stiffness nondimensional_force)
  /\ (forall (nondimensional_link_stiffness : jarray T) (nondimensional_force : jarray T),
     jl_efjc_isotensional.nondimensional_relative_gibbs_free_energy_per_link nondimensional_link_stiffness nondimensional_force
     = broadcast [Float64; Float64] (fun nondimensional_link_stiffness nondimensional_force =>
         Finished (Some (efjc_isotensional.nondimensional_relative_gibbs_free_energy_per_link nondimensional_link_stiffness nondimensional_force))) nondimensional_link_stiffness nondimensional_force).
Proof.
  exact (fun T Sc => conj (@F_efjc_isotensional_end_to_end_length T Sc)
    (conj (@F_efjc_isotensional_end_to_end_length_per_link T Sc)
    (conj (@F_efjc_isotensional_nondimensional_end_to_end_length T Sc)
    (conj (@F_efjc_isotensional_nondimensional_end_to_end_length_per_link T Sc)
    (conj (@F_efjc_isotensional_gibbs_free_energy T Sc)
    (conj (@F_efjc_isotensional_gibbs_free_energy_per_link T Sc)
    (conj (@F_efjc_isotensional_relative_gibbs_free_energy T Sc)
    (conj (@F_efjc_isotensional_relative_gibbs_free_energy_per_link T Sc)
    (conj (@F_efjc_isotensional_nondimensional_gibbs_free_energy T Sc)
    (conj (@F_efjc_isotensional_nondimensional_gibbs_free_energy_per_link T Sc)
    (conj (@F_efjc_isotensional_nondimensional_relative_gibbs_free_energy T Sc)
    (@F_efjc_isotensional_nondimensional_relative_gibbs_free_energy_per_link T Sc)))))))))))).
Qed.
Print Assumptions C61_functions_efjc_isotensional.

Theorem C61_object_efjc_isotensional : forall (T : Type) (Sc : Scalar T) (number_of_links : Z) (link_length : T) (hinge_mass : T) (link_stiffness : T),
  let j := J_efjc_isotensional.init number_of_links link_length hinge_mass link_stiffness in
  let r := O_efjc_isotensional.init number_of_links link_length hinge_mass link_stiffness in
  J_efjc_isotensional.number_of_links j = O_efjc_isotensional.number_of_links r
  /\ J_efjc_isotensional.link_length j = O_efjc_isotensional.link_length r
  /\ J_efjc_isotensional.hinge_mass j = O_efjc_isotensional.hinge_mass r
  /\ J_efjc_isotensional.link_stiffness j = O_efjc_isotensional.link_stiffness r
  /\ J_efjc_isotensional.asymptotic j = J_efjc_isotensional_asymptotic.init number_of_links link_length hinge_mass link_stiffness
  /\ J_efjc_isotensional.legendre j = J_efjc_isotensional_legendre.init number_of_links link_length hinge_mass link_stiffness
  /\ (forall (force : jarray T) (temperature : jarray T),
     J_efjc_isotensional.end_to_end_length j force temperature
     = broadcast [Float64; Float64] (fun force temperature =>
         Finished (Some (O_efjc_isotensional.end_to_end_length r force temperature))) force temperature)
  /\ (forall (force : jarray T) (temperature : jarray T),
     J_efjc_isotensional.end_to_end_length_per_link j force temperature
     = broadcast [Float64; Float64] (fun force temperature =>
         Finished (Some (O_efjc_isotensional.end_to_end_length_per_link r force temperature))) force temperature)
  /\ (forall (nondimensional_force : jarray T) (temperature : T),
     J_efjc_isotensional.nondimensional_end_to_end_length j nondimensional_force temperature
     = broadcast [Float64] (fun nondimensional_force =>
         Finished (Some (O_efjc_isotensional.nondimensional_end_to_end_length r nondimensional_force temperature))) nondimensional_force)
  /\ (forall (nondimensional_force : jarray T) (temperature : T),
     J_efjc_isotensional.nondimensional_end_to_end_length_per_link j nondimensional_force temperature
     = broadcast [Float64] (fun nondimensional_force =>
         Finished (Some (O_efjc_isotensional.nondimensional_end_to_end_length_per_link r nondimensional_force temperature))) nondimensional_force)
  /\ (forall (force : jarray T) (temperature : jarray T),
     J_efjc_isotensional.gibbs_free_energy j force temperature
     = broadcast [Float64; Float64] (fun force temperature =>
         Finished (Some (O_efjc_isotensional.gibbs_free_energy r force temperature))) force temperature)
  /\ (forall (force : jarray T) (temperature : jarray T),
     J_efjc_isotensional.gibbs_free_energy_per_link j force temperature
     = broadcast [Float64; Float64] (fun force temperature =>
         Finished (Some (O_efjc_isotensional.gibbs_free_energy_per_link r force temperature))) force temperature)
  /\ (forall (force : jarray T) (temperature : jarray T),
     J_efjc_isotensional.relative_gibbs_free_energy j force temperature
     = broadcast [Float64; Float64] (fun force temperature =>
         Finished (Some (O_efjc_isotensional.relative_gibbs_free_energy r force temperature))) force temperature)
  /\ (forall (force : jarray T) (temperature : jarray T),
     J_efjc_isotensional.relative_gibbs_free_energy_per_link j force temperature
     = broadcast [Float64; Float64] (fun force temperature =>
         Finished (Some (O_efjc_isotensional.relative_gibbs_free_energy_per_link r force temperature))) force temperature)
  /\ (forall (nondimensional_force : jarray T) (temperature : T),
     J_efjc_isotensional.nondimensional_gibbs_free_energy j nondimensional_force temperature
     = broadcast [Float64] (fun nondimensional_force =>
         Finished (Some (O_efjc_isotensional.nondimensional_gibbs_free_energy r nondimensional_force temperature))) nondimensional_force)
  /\ (forall (nondimensional_force : jarray T) (temperature : T),
     J_efjc_isotensional.nondimensional_gibbs_free_energy_per_link j nondimensional_force temperature
     = broadcast [Float64] (fun nondimensional_force =>
         Finished (Some (O_efjc_isotensional.nondimensional_gibbs_free_energy_per_link r nondimensional_force temperature))) nondimensional_force)
  /\ (forall (nondimensional_force : jarray T) (temperature : T),
     J_efjc_isotensional.nondimensional_relative_gibbs_free_energy j nondimensional_force temperature
     = broadcast [Float64] (fun nondimensional_force =>
         Finished (Some (O_efjc_isotensional.nondimensional_relative_gibbs_free_energy r nondimensional_force temperature))) nondimensional_force)
  /\ (forall (nondimensional_force : jarray T) (temperature : T),
     J_efjc_isotensional.nondimensional_relative_gibbs_free_energy_per_link j nondimensional_force temperature
     = broadcast [Float64] (fun nondimensional_force =>
         Finished (Some (O_efjc_isotensional.nondimensional_relative_gibbs_free_energy_per_link r nondimensional_force temperature))) nondimensional_force).
Proof. intros T Sc number_of_links link_length hinge_mass link_stiffness j r.
  split; [reflexivity|].
  split; [reflexivity|].
  split; [reflexivity|].
  split; [reflexivity|].
  split; [reflexivity|].
  split; [reflexivity|].
  split; [intros; cbv [j J_efjc_isotensional.init J_efjc_isotensional.end_to_end_length]; rewrite F_efjc_isotensional_end_to_end_length; unfold O_efjc_isotensional.end_to_end_length; broadcast_numbers|].
  split; [intros; cbv [j J_efjc_isotensional.init J_efjc_isotensional.end_to_end_length_per_link]; rewrite F_efjc_isotensional_end_to_end_length_per_link; unfold O_efjc_isotensional.end_to_end_length_per_link; broadcast_numbers|].
  split; [intros; cbv [j J_efjc_isotensional.init J_efjc_isotensional.nondimensional_end_to_end_length]; rewrite F_efjc_isotensional_nondimensional_end_to_end_length; unfold O_efjc_isotensional.nondimensional_end_to_end_length; broadcast_numbers|].
  split; [intros; cbv [j J_efjc_isotensional.init J_efjc_isotensional.nondimensional_end_to_end_length_per_link]; rewrite F_efjc_isotensional_nondimensional_end_to_end_length_per_link; unfold O_efjc_isotensional.nondimensional_end_to_end_length_per_link; broadcast_numbers|].
  split; [intros; cbv [j J_efjc_isotensional.init J_efjc_isotensional.gibbs_free_energy]; rewrite F_efjc_isotensional_gibbs_free_energy; unfold O_efjc_isotensional.gibbs_free_energy; broadcast_numbers|].
  split; [intros; cbv [j J_efjc_isotensional.init J_efjc_isotensional.gibbs_free_energy_per_link]; rewrite F_efjc_isotensional_gibbs_free_energy_per_link; unfold O_efjc_isotensional.gibbs_free_energy_per_link; broadcast_numbers|].
  split; [intros; cbv [j J_efjc_isotensional.init J_efjc_isotensional.relative_gibbs_free_energy]; rewrite F_efjc_isotensional_relative_gibbs_free_energy; unfold O_efjc_isotensional.relative_gibbs_free_energy; broadcast_numbers|].
  split; [intros; cbv [j J_efjc_isotensional.init J_efjc_isotensional.relative_gibbs_free_energy_per_link]; rewrite F_efjc_isotensional_relative_gibbs_free_energy_per_link; unfold O_efjc_isotensional.relative_gibbs_free_energy_per_link; broadcast_numbers|].
  split; [intros; cbv [j J_efjc_isotensional.init J_efjc_isotensional.nondimensional_gibbs_free_energy]; rewrite F_efjc_isotensional_nondimensional_gibbs_free_energy; unfold O_efjc_isotensional.nondimensional_gibbs_free_energy; broadcast_numbers|].
  split; [intros; cbv [j J_efjc_isotensional.init J_efjc_isotensional.nondimensional_gibbs_free_energy_per_link]; rewrite F_efjc_isotensional_nondimensional_gibbs_free_energy_per_link; unfold O_efjc_isotensional.nondimensional_gibbs_free_energy_per_link; broadcast_numbers|].
  split; [intros; cbv [j J_efjc_isotensional.init J_efjc_isotensional.nondimensional_relative_gibbs_free_energy]; rewrite F_efjc_isotensional_nondimensional_relative_gibbs_free_energy; unfold O_efjc_isotensional.nondimensional_relative_gibbs_free_energy; broadcast_numbers|].
  intros; cbv [j J_efjc_isotensional.init J_efjc_isotensional.nondimensional_relative_gibbs_free_energy_per_link]; rewrite F_efjc_isotensional_nondimensional_relative_gibbs_free_energy_per_link; unfold O_efjc_isotensional.nondimensional_relative_gibbs_free_energy_per_link; broadcast_numbers.
Qed.
Print Assumptions C61_object_efjc_isotensional.

Theorem C61_functions_fjc_isometric : forall (T : Type) (Sc : Scalar T),
  (forall (prof : profile) (number_of_links : jarray Z) (link_length : jarray T) (end_to_end_length : jarray T) (temperature : jarray T),
     jl_fjc_isometric.force prof number_of_links link_length end_to_end_length temperature
     = broadcast [UInt8; Float64; Float64; Float64] (fun number_of_links link_length end_to_end_length temperature =>
         Finished (fjc_isometric.force prof number_of_links link_length end_to_end_length temperature)) number_of_links link_length end_to_end_length temperature)
  /\ (forall (prof : profile) (number_of_links : jarray Z) (nondimensional_end_to_end_length_per_link : jarray T),
     jl_fjc_isometric.nondimensional_force prof number_of_links nondimensional_end_to_end_length_per_link
     = broadcast [UInt8; Float64] (fun number_of_links nondimensional_end_to_end_length_per_link =>
         Finished (fjc_isometric.nondimensional_force prof number_of_links nondimensional_end_to_end_length_per_link)) number_of_links nondimensional_end_to_end_length_per_link)
  /\ (forall (prof : profile) (number_of_links : jarray Z) (link_length : jarray T) (hinge_mass : jarray T) (end_to_end_length : jarray T) (temperature : jarray T),
     jl_fjc_isometric.helmholtz_free_energy prof number_of_links link_length hinge_mass end_to_end_length temperature
     = broadcast [UInt8; Float64; Float64; Float64; Float64] (fun number_of_links link_length hinge_mass end_to_end_length temperature =>
         Finished (fjc_isometric.helmholtz_free_energy prof number_of_links link_length hinge_mass end_to_end_length temperature)) number_of_links link_length hinge_mass end_to_end_length temperature)
  /\ (forall (prof : profile) (number_of_links : jarray Z) (link_length : jarray T) (hinge_mass : jarray T) (end_to_end_length : jarray T) (temperature : jarray T),
     jl_fjc_isometric.helmholtz_free_energy_per_link prof number_of_links link_length hinge_mass end_to_end_length temperature
     = broadcast [UInt8; Float64; Float64; Float64; Float64] (fun number_of_links link_length hinge_mass end_to_end_length temperature =>
         Finished (fjc_isometric.helmholtz_free_energy_per_link prof number_of_links link_length hinge_mass end_to_end_length temperature)) number_of_links link_length hinge_mass end_to_end_length temperature)
  /\ (forall (prof : profile) (number_of_links : jarray Z) (link_length : jarray T) (end_to_end_length : jarray T) (temperature : jarray T),
     jl_fjc_isometric.relative_helmholtz_free_energy prof number_of_links link_length end_to_end_length temperature
     = broadcast [UInt8; Float64; Float64; Float64] (fun number_of_links link_length end_to_end_length temperature =>
         Finished (fjc_isometric.relative_helmholtz_free_energy prof number_of_links link_length end_to_end_length temperature)) number_of_links link_length end_to_end_length temperature)
  /\ (forall (prof : profile) (number_of_links : jarray Z) (link_length : jarray T) (end_to_end_length : jarray T) (temperature : jarray T),
     jl_fjc_isometric.relative_helmholtz_free_energy_per_link prof number_of_links link_length end_to_end_length temperature
     = broadcast [UInt8; Float64; Float64; Float64] (fun number_of_links link_length end_to_end_length temperature =>
         Finished (fjc_isometric.relative_helmholtz_free_energy_per_link prof number_of_links link_length end_to_end_length temperature)) number_of_links link_length end_to_end_length temperature)
  /\ (forall (prof : profile) (number_of_links : jarray Z) (link_length : jarray T) (hinge_mass : jarray T) (nondimensional_end_to_end_length_per_link : jarray T) (temperature : jarray T),
     jl_fjc_isometric.nondimensional_helmholtz_free_energy prof number_of_links link_length hinge_mass nondimensional_end_to_end_length_per_link temperature
     = broadcast [UInt8; Float64; Float64; Float64; Float64] (fun number_of_links link_length hinge_mass nondimensional_end_to_end_length_per_link temperature =>
         Finished (fjc_isometric.nondimensional_helmholtz_free_energy prof number_of_links link_length hinge_mass nondimensional_end_to_end_length_per_link temperature)) number_of_links link_length hinge_mass nondimensional_end_to_end_length_per_link temperature)
  /\ (forall (prof : profile) (number_of_links : jarray Z) (link_length : jarray T) (hinge_mass : jarray T) (nondimensional_end_to_end_length_per_link : jarray T) (temperature : jarray T),
     jl_fjc_isometric.nondimensional_helmholtz_free_energy_per_link prof number_of_links link_length hinge_mass nondimensional_end_to_end_length_per_link temperature
     = broadcast [UInt8; Float64; Float64; Float64; Float64] (fun number_of_links link_length hinge_mass nondimensional_end_to_end_length_per_link temperature =>
         Finished (fjc_isometric.nondimensional_helmholtz_free_energy_per_link prof number_of_links link_length hinge_mass nondimensional_end_to_end_length_per_link temperature)) number_of_links link_length hinge_mass nondimensional_end_to_end_length_per_link temperature)
  /\ (forall (prof : profile) (number_of_links : jarray Z) (nondimensional_end_to_end_length_per_link : jarray T),
     jl_fjc_isometric.nondimensional_relative_helmholtz_free_energy prof number_of_links nondimensional_end_to_end_length_per_link
     = broadcast [UInt8; Float64] (fun number_of_links nondimensional_end_to_end_length_per_link =>
         Finished (fjc_isometric.nondimensional_relative_helmholtz_free_energy prof number_of_links nondimensional_end_to_end_length_per_link)) number_of_links nondimensional_end_to_end_length_per_link)
  /\ (forall (prof : profile) (number_of_links : jarray Z) (nondimensional_end_to_end_length_per_link : jarray T),
     jl_fjc_isometric.nondimensional_relative_helmholtz_free_energy_per_link prof number_of_links nondimensional_end_to_end_length_per_link
     = broadcast [UInt8; Float64] (fun number_of_links nondimensional_end_to_end_length_per_link =>
         Finished (fjc_isometric.nondimensional_relative_helmholtz_free_energy_per_link prof number_of_links nondimensional_end_to_end_length_per_link)) number_of_links nondimensional_end_to_end_length_per_link)
  /\ (forall (prof : profile) (number_of_links : jarray Z) (link_length : jarray T) (end_to_end_length : jarray T),
     jl_fjc_isometric.equilibrium_distribution prof number_of_links link_length end_to_end_length
     = broadcast [UInt8; Float64; Float64] (fun number_of_links link_length end_to_end_length =>
         Finished (fjc_isometric.equilibrium_distribution prof number_of_links link_length end_to_end_length)) number_of_links link_length end_to_end_length)
  /\ (forall (prof : profile) (number_of_links : jarray Z) (nondimensional_end_to_end_length_per_link : jarray T),
     jl_fjc_isometric.nondimensional_equilibrium_distribution prof number_of_links nondimensional_end_to_end_length_per_link
     = broadcast [UInt8; Float64] (fun number_of_links nondimensional_end_to_end_length_per_link =>
         Finished (fjc_isometric.nondimensional_equilibrium_distribution prof number_of_links nondimensional_end_to_end_length_per_link)) number_of_links nondimensional_end_to_end_length_per_link)
  /\ (forall (prof : profile) (number_of_links : jarray Z) (link_length : jarray T) (end_to_end_length : jarray T),
     jl_fjc_isometric.equilibrium_radial_distribution prof number_of_links link_length end_to_end_length
     = broadcast [UInt8; Float64; Float64] (fun number_of_links link_length end_to_end_length =>
         Finished (fjc_isometric.equilibrium_radial_distribution prof number_of_links link_length end_to_end_length)) number_of_links link_length end_to_end_length)
  /\ (forall (prof : profile) (number_of_links : jarray Z) (nondimensional_end_to_end_length_per_link : jarray T),
     jl_fjc_isometric.nondimensional_equilibrium_radial_distribution prof number_of_links nondimensional_end_to_end_length_per_link
     = broadcast [UInt8; Float64] (fun number_of_links nondimensional_end_to_end_length_per_link =>
         Finished (fjc_isometric.nondimensional_equilibrium_radial_distribution prof number_of_links nondimensional_end_to_end_length_per_link)) number_of_links nondimensional_end_to_end_length_per_link).
Proof.
  exact (fun T Sc => conj (@F_fjc_isometric_force T Sc)
    (conj (@F_fjc_isometric_nondimensional_force T Sc)
    (conj (@F_fjc_isometric_helmholtz_free_energy T Sc)
    (conj (@F_fjc_isometric_helmholtz_free_energy_per_link T Sc)
    (conj (@F_fjc_isometric_relative_helmholtz_free_energy T Sc)
    (conj (@F_fjc_isometric_relative_helmholtz_free_energy_per_link T Sc)
    (conj (@F_fjc_isometric_nondimensional_helmholtz_free_energy T Sc)
    (conj (@F_fjc_isometric_nondimensional_helmholtz_free_energy_per_link T Sc)
    (conj (@F_fjc_isometric_nondimensional_relative_helmholtz_free_energy T Sc)
    (conj (@F_fjc_isometric_nondimensional_relative_helmholtz_free_energy_per_link T Sc)
    (conj (@F_fjc_isometric_equilibrium_distribution T Sc)
    (conj (@F_fjc_isometric_nondimensional_equilibrium_distribution T Sc)
    (conj (@F_fjc_isometric_equilibrium_radial_distribution T Sc)
    (@F_fjc_isometric_nondimensional_equilibrium_radial_distribution T Sc)))))))))))))).
Qed.
Print Assumptions C61_functions_fjc_isometric.

Theorem C61_object_fjc_isometric : forall (prof : profile) (number_of_links : Z) (link_length : R) (hinge_mass : R),
  exists j, J_fjc_isometric.init prof number_of_links link_length hinge_mass = Finished (Some j) /\
  let r := O_fjc_isometric.init number_of_links link_length hinge_mass in
  J_fjc_isometric.number_of_links j = O_fjc_isometric.number_of_links r
  /\ J_fjc_isometric.link_length j = O_fjc_isometric.link_length r
  /\ J_fjc_isometric.hinge_mass j = O_fjc_isometric.hinge_mass r
  /\ J_fjc_isometric_legendre.init prof number_of_links link_length hinge_mass = Finished (Some (J_fjc_isometric.legendre j))
  /\ (forall (end_to_end_length : jarray R) (temperature : jarray R),
     J_fjc_isometric.force j end_to_end_length temperature
     = broadcast [Float64; Float64] (fun end_to_end_length temperature =>
         Finished (O_fjc_isometric.force prof r end_to_end_length temperature)) end_to_end_length temperature)
  /\ (forall (nondimensional_end_to_end_length_per_link : jarray R),
     J_fjc_isometric.nondimensional_force j nondimensional_end_to_end_length_per_link
     = broadcast [Float64] (fun nondimensional_end_to_end_length_per_link =>
         Finished (O_fjc_isometric.nondimensional_force prof r nondimensional_end_to_end_length_per_link)) nondimensional_end_to_end_length_per_link)
  /\ (forall (end_to_end_length : jarray R) (temperature : jarray R),
     J_fjc_isometric.helmholtz_free_energy j end_to_end_length temperature
     = broadcast [Float64; Float64] (fun end_to_end_length temperature =>
         Finished (O_fjc_isometric.helmholtz_free_energy prof r end_to_end_length temperature)) end_to_end_length temperature)
  /\ (forall (end_to_end_length : jarray R) (temperature : jarray R),
     J_fjc_isometric.helmholtz_free_energy_per_link j end_to_end_length temperature
     = broadcast [Float64; Float64] (fun end_to_end_length temperature =>
         Finished (O_fjc_isometric.helmholtz_free_energy_per_link prof r end_to_end_length temperature)) end_to_end_length temperature)
  /\ (forall (end_to_end_length : jarray R) (temperature : jarray R),
     J_fjc_isometric.relative_helmholtz_free_energy j end_to_end_length temperature
     = broadcast [Float64; Float64] (fun end_to_end_length temperature =>
         Finished (O_fjc_isometric.relative_helmholtz_free_energy prof r end_to_end_length temperature)) end_to_end_length temperature)
  /\ (forall (end_to_end_length : jarray R) (temperature : jarray R),
     J_fjc_isometric.relative_helmholtz_free_energy_per_link j end_to_end_length temperature
     = broadcast [Float64; Float64] (fun end_to_end_length temperature =>
         Finished (O_fjc_isometric.relative_helmholtz_free_energy_per_link prof r end_to_end_length temperature)) end_to_end_length temperature)
  /\ (forall (nondimensional_end_to_end_length_per_link : jarray R) (temperature : jarray R),
     J_fjc_isometric.nondimensional_helmholtz_free_energy j nondimensional_end_to_end_length_per_link temperature
     = broadcast [Float64; Float64] (fun nondimensional_end_to_end_length_per_link temperature =>
         Finished (O_fjc_isometric.nondimensional_helmholtz_free_energy prof r nondimensional_end_to_end_length_per_link temperature)) nondimensional_end_to_end_length_per_link temperature)
  /\ (forall (nondimensional_end_to_end_length_per_link : jarray R) (temperature : jarray R),
     J_fjc_isometric.nondimensional_helmholtz_free_energy_per_link j nondimensional_end_to_end_length_per_link temperature
     = broadcast [Float64; Float64] (fun nondimensional_end_to_end_length_per_link temperature =>
         Finished (O_fjc_isometric.nondimensional_helmholtz_free_energy_per_link prof r nondimensional_end_to_end_length_per_link temperature)) nondimensional_end_to_end_length_per_link temperature)
  /\ (forall (nondimensional_end_to_end_length_per_link : jarray R),
     J_fjc_isometric.nondimensional_relative_helmholtz_free_energy j nondimensional_end_to_end_length_per_link
     = broadcast [Float64] (fun nondimensional_end_to_end_length_per_link =>
         Finished (O_fjc_isometric.nondimensional_relative_helmholtz_free_energy prof r nondimensional_end_to_end_length_per_link)) nondimensional_end_to_end_length_per_link)
  /\ (forall (nondimensional_end_to_end_length_per_link : jarray R),
     J_fjc_isometric.nondimensional_relative_helmholtz_free_energy_per_link j nondimensional_end_to_end_length_per_link
     = broadcast [Float64] (fun nondimensional_end_to_end_length_per_link =>
         Finished (O_fjc_isometric.nondimensional_relative_helmholtz_free_energy_per_link prof r nondimensional_end_to_end_length_per_link)) nondimensional_end_to_end_length_per_link)
  /\ (forall (end_to_end_length : jarray R),
     J_fjc_isometric.equilibrium_distribution j end_to_end_length
     = broadcast [Float64] (fun end_to_end_length =>
         Finished (O_fjc_isometric.equilibrium_distribution prof r end_to_end_length)) end_to_end_length)
  /\ (forall (nondimensional_end_to_end_length_per_link : jarray R),
     J_fjc_isometric.nondimensional_equilibrium_distribution j nondimensional_end_to_end_length_per_link
     = broadcast [Float64] (fun nondimensional_end_to_end_length_per_link =>
         Finished (O_fjc_isometric.nondimensional_equilibrium_distribution prof r nondimensional_end_to_end_length_per_link)) nondimensional_end_to_end_length_per_link)
  /\ (forall (end_to_end_length : jarray R),
     J_fjc_isometric.equilibrium_radial_distribution j end_to_end_length
     = broadcast [Float64] (fun end_to_end_length =>
         Finished (O_fjc_isometric.equilibrium_radial_distribution prof r end_to_end_length)) end_to_end_length)
  /\ (forall (nondimensional_end_to_end_length_per_link : jarray R),
     J_fjc_isometric.nondimensional_equilibrium_radial_distribution j nondimensional_end_to_end_length_per_link
     = broadcast [Float64] (fun nondimensional_end_to_end_length_per_link =>
         Finished (O_fjc_isometric.nondimensional_equilibrium_radial_distribution prof r nondimensional_end_to_end_length_per_link)) nondimensional_end_to_end_length_per_link).
Proof.
  intros prof number_of_links link_length hinge_mass.
  destruct (C61_object_fjc_isometric_legendre prof number_of_links link_length hinge_mass) as (sub & H & _).
  eexists; split.
  { unfold J_fjc_isometric.init.
    rewrite H.
    reflexivity. }
  intros r.
  split; [reflexivity|].
  split; [reflexivity|].
  split; [reflexivity|].
  split; [exact H|].
  split; [intros; cbv [J_fjc_isometric.force]; rewrite F_fjc_isometric_force; unfold O_fjc_isometric.force; broadcast_numbers|].
  split; [intros; cbv [J_fjc_isometric.nondimensional_force]; rewrite F_fjc_isometric_nondimensional_force; unfold O_fjc_isometric.nondimensional_force; broadcast_numbers|].
  split; [intros; cbv [J_fjc_isometric.helmholtz_free_energy]; rewrite F_fjc_isometric_helmholtz_free_energy; unfold O_fjc_isometric.helmholtz_free_energy; broadcast_numbers|].
  split; [intros; cbv [J_fjc_isometric.helmholtz_free_energy_per_link]; rewrite F_fjc_isometric_helmholtz_free_energy_per_link; unfold O_fjc_isometric.helmholtz_free_energy_per_link; broadcast_numbers|].
  split; [intros; cbv [J_fjc_isometric.relative_helmholtz_free_energy]; rewrite F_fjc_isometric_relative_helmholtz_free_energy; unfold O_fjc_isometric.relative_helmholtz_free_energy; broadcast_numbers|].
  split; [intros; cbv [J_fjc_isometric.relative_helmholtz_free_energy_per_link]; rewrite F_fjc_isometric_relative_helmholtz_free_energy_per_link; unfold O_fjc_isometric.relative_helmholtz_free_energy_per_link; broadcast_numbers|].
  split; [intros; cbv [J_fjc_isometric.nondimensional_helmholtz_free_energy]; rewrite F_fjc_isometric_nondimensional_helmholtz_free_energy; unfold O_fjc_isometric.nondimensional_helmholtz_free_energy; broadcast_numbers|].
  split; [intros; cbv [J_fjc_isometric.nondimensional_helmholtz_free_energy_per_link]; rewrite F_fjc_isometric_nondimensional_helmholtz_free_energy_per_link; unfold O_fjc_isometric.nondimensional_helmholtz_free_energy_per_link; broadcast_numbers|].
  split; [intros; cbv [J_fjc_isometric.nondimensional_relative_helmholtz_free_energy]; rewrite F_fjc_isometric_nondimensional_relative_helmholtz_free_energy; unfold O_fjc_isometric.nondimensional_relative_helmholtz_free_energy; broadcast_numbers|].
  split; [intros; cbv [J_fjc_isometric.nondimensional_relative_helmholtz_free_energy_per_link]; rewrite F_fjc_isometric_nondimensional_relative_helmholtz_free_energy_per_link; unfold O_fjc_isometric.nondimensional_relative_helmholtz_free_energy_per_link; broadcast_numbers|].
  split; [intros; cbv [J_fjc_isometric.equilibrium_distribution]; rewrite F_fjc_isometric_equilibrium_distribution; unfold O_fjc_isometric.equilibrium_distribution; broadcast_numbers|].
  split; [intros; cbv [J_fjc_isometric.nondimensional_equilibrium_distribution]; rewrite F_fjc_isometric_nondimensional_equilibrium_distribution; unfold O_fjc_isometric.nondimensional_equilibrium_distribution; broadcast_numbers|].
  split; [intros; cbv [J_fjc_isometric.equilibrium_radial_distribution]; rewrite F_fjc_isometric_equilibrium_radial_distribution; unfold O_fjc_isometric.equilibrium_radial_distribution; broadcast_numbers|].
  intros; cbv [J_fjc_isometric.nondimensional_equilibrium_radial_distribution]; rewrite F_fjc_isometric_nondimensional_equilibrium_radial_distribution; unfold O_fjc_isometric.nondimensional_equilibrium_radial_distribution; broadcast_numbers.
Qed.
Print Assumptions C61_object_fjc_isometric.

Theorem C61_functions_fjc_isotensional : forall (T : Type) (Sc : Scalar T),
  (forall (number_of_links : jarray Z) (link_length : jarray T) (force : jarray T) (temperature : jarray T),
     jl_fjc_isotensional.end_to_end_length number_of_links link_length force temperature
     = broadcast [UInt8; Float64; Float64; Float64] (fun number_of_links link_length force temperature =>
         Finished (Some (fjc_isotensional.end_to_end_length number_of_links link_length force temperature))) number_of_links link_length force temperature)
  /\ (forall (link_length : jarray T) (force : jarray T) (temperature : jarray T),
     jl_fjc_isotensional.end_to_end_length_per_link link_length force temperature
     = broadcast [Float64; Float64; Float64] (fun link_length force temperature =>
         Finished (Some (fjc_isotensional.end_to_end_length_per_link link_length force temperature))) link_length force temperature)
  /\ (forall (number_of_links : jarray Z) (nondimensional_force : jarray T),
     jl_fjc_isotensional.nondimensional_end_to_end_length number_of_links nondimensional_force
     = broadcast [UInt8; Float64] (fun number_of_links nondimensional_force =>
         Finished (Some (fjc_isotensional.nondimensional_end_to_end_length number_of_links nondimensional_force))) number_of_links nondimensional_force)
  /\ (forall (nondimensional_force : jarray T),
     jl_fjc_isotensional.nondimensional_end_to_end_length_per_link nondimensional_force
     = broadcast [Float64] (fun nondimensional_force =>
         Finished (Some (fjc_isotensional.nondimensional_end_to_end_length_per_link nondimensional_force))) nondimensional_force)
  /\ (forall (number_of_links : jarray Z) (link_length : jarray T) (hinge_mass : jarray T) (force : jarray T) (temperature : jarray T),
     jl_fjc_isotensional.gibbs_free_energy number_of_links link_length hinge_mass force temperature
     = broadcast [UInt8; Float64; Float64; Float64; Float64] (fun number_of_links link_length hinge_mass force temperature =>
         Finished (Some (fjc_isotensional.gibbs_free_energy number_of_links link_length hinge_mass force temperature))) number_of_links link_length hinge_mass force temperature)
  /\ (forall (link_length : jarray T) (hinge_mass : jarray T) (force : jarray T) (temperature : jarray T),
     jl_fjc_isotensional.gibbs_free_energy_per_link link_length hinge_mass force temperature
     = broadcast [Float64; Float64; Float64; Float64] (fun link_length hinge_mass force temperature =>
         Finished (Some (fjc_isotensional.gibbs_free_energy_per_link link_length hinge_mass force temperature))) link_length hinge_mass force temperature)
  /\ (forall (number_of_links : jarray Z) (link_length : jarray T) (force : jarray T) (temperature : jarray T),
     jl_fjc_isotensional.relative_gibbs_free_energy number_of_links link_length force temperature
     = broadcast [UInt8; Float64; Float64; Float64] (fun number_of_links link_length force temperature =>
         Finished (Some (fjc_isotensional.relative_gibbs_free_energy number_of_links link_length force temperature))) number_of_links link_length force temperature)
  /\ (forall (link_length : jarray T) (force : jarray T) (temperature : jarray T),
     jl_fjc_isotensional.relative_gibbs_free_energy_per_link link_length force temperature
     = broadcast [Float64; Float64; Float64] (fun link_length force temperature =>
         Finished (Some (fjc_isotensional.relative_gibbs_free_energy_per_link link_length force temperature))) link_length force temperature)
  /\ (forall (number_of_links : jarray Z) (link_length : jarray T) (hinge_mass : jarray T) (nondimensional_force : jarray T) (temperature : jarray T),
     jl_fjc_isotensional.nondimensional_gibbs_free_energy number_of_links link_length hinge_mass nondimensional_force temperature
     = broadcast [UInt8; Float64; Float64; Float64; Float64] (fun number_of_links link_length hinge_mass nondimensional_force temperature =>
         Finished (Some (fjc_isotensional.nondimensional_gibbs_free_energy number_of_links link_length hinge_mass nondimensional_force temperature))) number_of_links link_length hinge_mass nondimensional_force temperature)
  /\ (forall (link_length : jarray T) (hinge_mass : jarray T) (nondimensional_force : jarray T) (temperature : jarray T),
     jl_fjc_isotensional.nondimensional_gibbs_free_energy_per_link link_length hinge_mass nondimensional_force temperature
     = broadcast [Float64; Float64; Float64; Float64] (fun link_length hinge_mass nondimensional_force temperature =>
         Finished (Some (fjc_isotensional.nondimensional_gibbs_free_energy_per_link link_length hinge_mass nondimensional_force temperature))) link_length hinge_mass nondimensional_force temperature)
  /\ (forall (number_of_links : jarray Z) (nondimensional_force : jarray T),
     jl_fjc_isotensional.nondimensional_relative_gibbs_free_energy number_of_links nondimensional_force
     = broadcast [UInt8; Float64] (fun number_of_links nondimensional_force =>
         Finished (Some (fjc_isotensional.nondimensional_relative_gibbs_free_energy number_of_links nondimensional_force))) number_of_links nondimensional_force)
  /\ (forall (nondimensional_force : jarray T),
     jl_fjc_isotensional.nondimensional_relative_gibbs_free_energy_per_link nondimensional_force
     = broadcast [Float64] (fun nondimensional_force =>
         Finished (Some (fjc_isotensional.nondimensional_relative_gibbs_free_energy_per_link nondimensional_force))) nondimensional_force).
Proof.
  exact (fun T Sc => conj (@F_fjc_isotensional_end_to_end_length T Sc)
    (conj (@F_fjc_isotensional_end_to_end_length_per_link T Sc)
    (conj (@F_fjc_isotensional_nondimensional_end_to_end_length T Sc)
    (conj (@F_fjc_isotensional_nondimensional_end_to_end_length_per_link T Sc)
    (conj (@F_fjc_isotensional_gibbs_free_energy T Sc)
    (conj (@F_fjc_isotensional_gibbs_free_energy_per_link T Sc)
    (conj (@F_fjc_isotensional_relative_gibbs_free_energy T Sc)
    (conj (@F_fjc_isotensional_relative_gibbs_free_energy_per_link T Sc)
    (conj (@F_fjc_isotensional_nondimensional_gibbs_free_energy T Sc)
    (conj (@F_fjc_isotensional_nondimensional_gibbs_free_energy_per_link T Sc)
    (conj (@F_fjc_isotensional_nondimensional_relative_gibbs_free_energy T Sc)
    (@F_fjc_isotensional_nondimensional_relative_gibbs_free_energy_per_link T Sc)))))))))))).
Qed.
Print Assumptions C61_functions_fjc_isotensional.

Theorem C61_object_fjc_isotensional : forall (T : Type) (Sc : Scalar T) (number_of_links : Z) (link_length : T) (hinge_mass : T),
  let j := J_fjc_isotensional.init number_of_links link_length hinge_mass in
  let r := O_fjc_isotensional.init number_of_links link_length hinge_mass in
  J_fjc_isotensional.number_of_links j = O_fjc_isotensional.number_of_links r
  /\ J_fjc_isotensional.link_length j = O_fjc_isotensional.link_length r
  /\ J_fjc_isotensional.hinge_mass j = O_fjc_isotensional.hinge_mass r
  /\ J_fjc_isotensional.legendre j = J_fjc_isotensional_legendre.init number_of_links link_length hinge_mass
  /\ (forall (force : jarray T) (temperature : jarray T),
     J_fjc_isotensional.end_to_end_length j force temperature
     = broadcast [Float64; Float64] (fun force temperature =>
         Finished (Some (O_fjc_isotensional.end_to_end_length r force temperature))) force temperature)
  /\ (forall (force : jarray T) (temperature : jarray T),
     J_fjc_isotensional.end_to_end_length_per_link j force temperature
     = broadcast [Float64; Float64] (fun force temperature =>
         Finished (Some (O_fjc_isotensional.end_to_end_length_per_link r force temperature))) force temperature)
  /\ (forall (nondimensional_force : jarray T),
     J_fjc_isotensional.nondimensional_end_to_end_length j nondimensional_force
     = broadcast [Float64] (fun nondimensional_force =>
         Finished (Some (O_fjc_isotensional.nondimensional_end_to_end_length r nondimensional_force))) nondimensional_force)
  /\ (forall (nondimensional_force : jarray T),
     J_fjc_isotensional.nondimensional_end_to_end_length_per_link j nondimensional_force
     = broadcast [Float64] (fun nondimensional_force =>
         Finished (Some (O_fjc_isotensional.nondimensional_end_to_end_length_per_link r nondimensional_force))) nondimensional_force)
  /\ (forall (force : jarray T) (temperature : jarray T),
     J_fjc_isotensional.gibbs_free_energy j force temperature
     = broadcast [Float64; Float64] (fun force temperature =>
         Finished (Some (O_fjc_isotensional.gibbs_free_energy r force temperature))) force temperature)
  /\ (forall (force : jarray T) (temperature : jarray T),
     J_fjc_isotensional.gibbs_free_energy_per_link j force temperature
     = broadcast [Float64; Float64] (fun force temperature =>
         Finished (Some (O_fjc_isotensional.gibbs_free_energy_per_link r force temperature))) force temperature)
  /\ (forall (force : jarray T) (temperature : jarray T),
     J_fjc_isotensional.relative_gibbs_free_energy j force temperature
     = broadcast [Float64; Float64] (fun force temperature =>
         Finished (Some (O_fjc_isotensional.relative_gibbs_free_energy r force temperature))) force temperature)
  /\ (forall (force : jarray T) (temperature : jarray T),
     J_fjc_isotensional.relative_gibbs_free_energy_per_link j force temperature
     = broadcast [Float64; Float64] (fun force temperature =>
         Finished (Some (O_fjc_isotensional.relative_gibbs_free_energy_per_link r force temperature))) force temperature)
  /\ (forall (nondimensional_force : jarray T) (temperature : jarray T),
     J_fjc_isotensional.nondimensional_gibbs_free_energy j nondimensional_force temperature
     = broadcast [Float64; Float64] (fun nondimensional_force temperature =>
         Finished (Some (O_fjc_isotensional.nondimensional_gibbs_free_energy r nondimensional_force temperature))) nondimensional_force temperature)
  /\ (forall (nondimensional_force : jarray T) (temperature : jarray T),
     J_fjc_isotensional.nondimensional_gibbs_free_energy_per_link j nondimensional_force temperature
     = broadcast [Float64; Float64] (fun nondimensional_force temperature =>
         Finished (Some (O_fjc_isotensional.nondimensional_gibbs_free_energy_per_link r nondimensional_force temperature))) nondimensional_force temperature)
  /\ (forall (nondimensional_force : jarray T),
     J_fjc_isotensional.nondimensional_relative_gibbs_free_energy j nondimensional_force
     = broadcast [Float64] (fun nondimensional_force =>
         Finished (Some (O_fjc_isotensional.nondimensional_relative_gibbs_free_energy r nondimensional_force))) nondimensional_force)
  /\ (forall (nondimensional_force : jarray T),
     J_fjc_isotensional.nondimensional_relative_gibbs_free_energy_per_link j nondimensional_force
     = broadcast [Float64] (fun nondimensional_force =>
         Finished (Some (O_fjc_isotensional.nondimensional_relative_gibbs_free_energy_per_link r nondimensional_force))) nondimensional_force).
Proof. intros T Sc number_of_links link_length hinge_mass j r.
  split; [reflexivity|].
  split; [reflexivity|].
  split; [reflexivity|].
  split; [reflexivity|].
  split; [intros; cbv [j J_fjc_isotensional.init J_fjc_isotensional.end_to_end_length]; rewrite F_fjc_isotensional_end_to_end_length; unfold O_fjc_isotensional.end_to_end_length; broadcast_numbers|].
  split; [intros; cbv [j J_fjc_isotensional.init J_fjc_isotensional.end_to_end_length_per_link]; rewrite F_fjc_isotensional_end_to_end_length_per_link; unfold O_fjc_isotensional.end_to_end_length_per_link; broadcast_numbers|].
  split; [intros; cbv [j J_fjc_isotensional.init J_fjc_isotensional.nondimensional_end_to_end_length]; rewrite F_fjc_isotensional_nondimensional_end_to_end_length; unfold O_fjc_isotensional.nondimensional_end_to_end_length; broadcast_numbers|].
  split; [intros; cbv [j J_fjc_isotensional.init J_fjc_isotensional.nondimensional_end_to_end_length_per_link]; rewrite F_fjc_isotensional_nondimensional_end_to_end_length_per_link; unfold O_fjc_isotensional.nondimensional_end_to_end_length_per_link; broadcast_numbers|].
  split; [intros; cbv [j J_fjc_isotensional.init J_fjc_isotensional.gibbs_free_energy]; rewrite F_fjc_isotensional_gibbs_free_energy; unfold O_fjc_isotensional.gibbs_free_energy; broadcast_numbers|].
  split; [intros; cbv [j J_fjc_isotensional.init J_fjc_isotensional.gibbs_free_energy_per_link]; rewrite F_fjc_isotensional_gibbs_free_energy_per_link; unfold O_fjc_isotensional.gibbs_free_energy_per_link; broadcast_numbers|].
  split; [intros; cbv [j J_fjc_isotensional.init J_fjc_isotensional.relative_gibbs_free_energy]; rewrite F_fjc_isotensional_relative_gibbs_free_energy; unfold O_fjc_isotensional.relative_gibbs_free_energy; broadcast_numbers|].
  split; [intros; cbv [j J_fjc_isotensional.init J_fjc_isotensional.relative_gibbs_free_energy_per_link]; rewrite F_fjc_isotensional_relative_gibbs_free_energy_per_link; unfold O_fjc_isotensional.relative_gibbs_free_energy_per_link; broadcast_numbers|].
  split; [intros; cbv [j J_fjc_isotensional.init J_fjc_isotensional.nondimensional_gibbs_free_energy]; rewrite F_fjc_isotensional_nondimensional_gibbs_free_energy; unfold O_fjc_isotensional.nondimensional_gibbs_free_energy; broadcast_numbers|].
  split; [intros; cbv [j J_fjc_isotensional.init J_fjc_isotensional.nondimensional_gibbs_free_energy_per_link]; rewrite F_fjc_isotensional_nondimensional_gibbs_free_energy_per_link; unfold O_fjc_isotensional.nondimensional_gibbs_free_energy_per_link; broadcast_numbers|].
  split; [intros; cbv [j J_fjc_isotensional.init J_fjc_isotensional.nondimensional_relative_gibbs_free_energy]; rewrite F_fjc_isotensional_nondimensional_relative_gibbs_free_energy; unfold O_fjc_isotensional.nondimensional_relative_gibbs_free_energy; broadcast_numbers|].
  intros; cbv [j J_fjc_isotensional.init J_fjc_isotensional.nondimensional_relative_gibbs_free_energy_per_link]; rewrite F_fjc_isotensional_nondimensional_relative_gibbs_free_energy_per_link; unfold O_fjc_isotensional.nondimensional_relative_gibbs_free_energy_per_link; broadcast_numbers.
Qed.
Print Assumptions C61_object_fjc_isotensional.

Theorem C61_functions_fjc_modified_canonical : forall (T : Type) (Sc : Scalar T),
  (forall (prof : profile) (number_of_links : jarray Z) (link_length : jarray T) (potential_distance : jarray T) (potential_stiffness : jarray T) (temperature : jarray T),
     jl_fjc_modified_canonical.end_to_end_length prof number_of_links link_length potential_distance potential_stiffness temperature
     = broadcast [UInt8; Float64; Float64; Float64; Float64] (fun number_of_links link_length potential_distance potential_stiffness temperature =>
         Finished (fjc_modified_canonical.end_to_end_length prof number_of_links link_length potential_distance potential_stiffness temperature)) number_of_links link_length potential_distance potential_stiffness temperature)
  /\ (forall (prof : profile) (number_of_links : jarray Z) (link_length : jarray T) (potential_distance : jarray T) (potential_stiffness : jarray T) (temperature : jarray T),
     jl_fjc_modified_canonical.end_to_end_length_per_link prof number_of_links link_length potential_distance potential_stiffness temperature
     = broadcast [UInt8; Float64; Float64; Float64; Float64] (fun number_of_links link_length potential_distance potential_stiffness temperature =>
         Finished (fjc_modified_canonical.end_to_end_length_per_link prof number_of_links link_length potential_distance potential_stiffness temperature)) number_of_links link_length potential_distance potential_stiffness temperature)
  /\ (forall (prof : profile) (number_of_links : jarray Z) (nondimensional_potential_distance : jarray T) (nondimensional_potential_stiffness : jarray T),
     jl_fjc_modified_canonical.nondimensional_end_to_end_length prof number_of_links nondimensional_potential_distance nondimensional_potential_stiffness
     = broadcast [UInt8; Float64; Float64] (fun number_of_links nondimensional_potential_distance nondimensional_potential_stiffness =>
         Finished (fjc_modified_canonical.nondimensional_end_to_end_length prof number_of_links nondimensional_potential_distance nondimensional_potential_stiffness)) number_of_links nondimensional_potential_distance nondimensional_potential_stiffness)
  /\ (forall (prof : profile) (number_of_links : jarray Z) (nondimensional_potential_distance : jarray T) (nondimensional_potential_stiffness : jarray T),
     jl_fjc_modified_canonical.nondimensional_end_to_end_length_per_link prof number_of_links nondimensional_potential_distance nondimensional_potential_stiffness
     = broadcast [UInt8; Float64; Float64] (fun number_of_links nondimensional_potential_distance nondimensional_potential_stiffness =>
         Finished (fjc_modified_canonical.nondimensional_end_to_end_length_per_link prof number_of_links nondimensional_potential_distance nondimensional_potential_stiffness)) number_of_links nondimensional_potential_distance nondimensional_potential_stiffness)
  /\ (forall (prof : profile) (number_of_links : jarray Z) (link_length : jarray T) (potential_distance : jarray T) (potential_stiffness : jarray T) (temperature : jarray T),
     jl_fjc_modified_canonical.force prof number_of_links link_length potential_distance potential_stiffness temperature
     = broadcast [UInt8; Float64; Float64; Float64; Float64] (fun number_of_links link_length potential_distance potential_stiffness temperature =>
         Finished (fjc_modified_canonical.force prof number_of_links link_length potential_distance potential_stiffness temperature)) number_of_links link_length potential_distance potential_stiffness temperature)
  /\ (forall (prof : profile) (number_of_links : jarray Z) (nondimensional_potential_distance : jarray T) (nondimensional_potential_stiffness : jarray T),
     jl_fjc_modified_canonical.nondimensional_force prof number_of_links nondimensional_potential_distance nondimensional_potential_stiffness
     = broadcast [UInt8; Float64; Float64] (fun number_of_links nondimensional_potential_distance nondimensional_potential_stiffness =>
         Finished (fjc_modified_canonical.nondimensional_force prof number_of_links nondimensional_potential_distance nondimensional_potential_stiffness)) number_of_links nondimensional_potential_distance nondimensional_potential_stiffness)
  /\ (forall (prof : profile) (number_of_links : jarray Z) (link_length : jarray T) (hinge_mass : jarray T) (potential_distance : jarray T) (potential_stiffness : jarray T) (temperature : jarray T),
     jl_fjc_modified_canonical.helmholtz_free_energy prof number_of_links link_length hinge_mass potential_distance potential_stiffness temperature
     = broadcast [UInt8; Float64; Float64; Float64; Float64; Float64] (fun number_of_links link_length hinge_mass potential_distance potential_stiffness temperature =>
         Finished (fjc_modified_canonical.helmholtz_free_energy prof number_of_links link_length hinge_mass potential_distance potential_stiffness temperature)) number_of_links link_length hinge_mass potential_distance potential_stiffness temperature)
  /\ (forall (prof : profile) (number_of_links : jarray Z) (link_length : jarray T) (hinge_mass : jarray T) (potential_distance : jarray T) (potential_stiffness : jarray T) (temperature : jarray T),
     jl_fjc_modified_canonical.helmholtz_free_energy_per_link prof number_of_links link_length hinge_mass potential_distance potential_stiffness temperature
     = broadcast [UInt8; Float64; Float64; Float64; Float64; Float64] (fun number_of_links link_length hinge_mass potential_distance potential_stiffness temperature =>
         Finished (fjc_modified_canonical.helmholtz_free_energy_per_link prof number_of_links link_length hinge_mass potential_distance potential_stiffness temperature)) number_of_links link_length hinge_mass potential_distance potential_stiffness temperature)
  /\ (forall (prof : profile) (number_of_links : jarray Z) (link_length : jarray T) (potential_distance : jarray T) (potential_stiffness : jarray T) (temperature : jarray T),
     jl_fjc_modified_canonical.relative_helmholtz_free_energy prof number_of_links link_length potential_distance potential_stiffness temperature
     = broadcast [UInt8; Float64; Float64; Float64; Float64] (fun number_of_links link_length potential_distance potential_stiffness temperature =>
         Finished (fjc_modified_canonical.relative_helmholtz_free_energy prof number_of_links link_length potential_distance potential_stiffness temperature)) number_of_links link_length potential_distance potential_stiffness temperature)
  /\ (forall (prof : profile) (number_of_links : jarray Z) (link_length : jarray T) (potential_distance : jarray T) (potential_stiffness : jarray T) (temperature : jarray T),
     jl_fjc_modified_canonical.relative_helmholtz_free_energy_per_link prof number_of_links link_length potential_distance potential_stiffness temperature
     = broadcast [UInt8; Float64; Float64; Float64; Float64] (fun number_of_links link_length potential_distance potential_stiffness temperature =>
         Finished (fjc_modified_canonical.relative_helmholtz_free_energy_per_link prof number_of_links link_length potential_distance potential_stiffness temperature)) number_of_links link_length potential_distance potential_stiffness temperature)
  /\ (forall (prof : profile) (number_of_links : jarray Z) (link_length : jarray T) (hinge_mass : jarray T) (nondimensional_potential_distance : jarray T) (nondimensional_potential_stiffness : jarray T) (temperature : jarray T),
     jl_fjc_modified_canonical.nondimensional_helmholtz_free_energy prof number_of_links link_length hinge_mass nondimensional_potential_distance nondimensional_potential_stiffness temperature
     = broadcast [UInt8; Float64; Float64; Float64; Float64; Float64] (fun number_of_links link_length hinge_mass nondimensional_potential_distance nondimensional_potential_stiffness temperature =>
         Finished (fjc_modified_canonical.nondimensional_helmholtz_free_energy prof number_of_links link_length hinge_mass nondimensional_potential_distance nondimensional_potential_stiffness temperature)) number_of_links link_length hinge_mass nondimensional_potential_distance nondimensional_potential_stiffness temperature)
  /\ (forall (prof : profile) (number_of_links : jarray Z) (link_length : jarray T) (hinge_mass : jarray T) (nondimensional_potential_distance : jarray T) (nondimensional_potential_stiffness : jarray T) (temperature : jarray T),
     jl_fjc_modified_canonical.nondimensional_helmholtz_free_energy_per_link prof number_of_links link_length hinge_mass nondimensional_potential_distance nondimensional_potential_stiffness temperature
     = broadcast [UInt8; Float64; Float64; Float64; Float64; Float64] (fun number_of_links link_length hinge_mass nondimensional_potential_distance nondimensional_potential_stiffness temperature =>
         Finished (fjc_modified_canonical.nondimensional_helmholtz_free_energy_per_link prof number_of_links link_length hinge_mass nondimensional_potential_distance nondimensional_potential_stiffness temperature)) number_of_links link_length hinge_mass nondimensional_potential_distance nondimensional_potential_stiffness temperature)
  /\ (forall (prof : profile) (number_of_links : jarray Z) (nondimensional_potential_distance : jarray T) (nondimensional_potential_stiffness : jarray T),
     jl_fjc_modified_canonical.nondimensional_relative_helmholtz_free_energy prof number_of_links nondimensional_potential_distance nondimensional_potential_stiffness
     = broadcast [UInt8; Float64; Float64] (fun number_of_links nondimensional_potential_distance nondimensional_potential_stiffness =>
         Finished (fjc_modified_canonical.nondimensional_relative_helmholtz_free_energy prof number_of_links nondimensional_potential_distance nondimensional_potential_stiffness)) number_of_links nondimensional_potential_distance nondimensional_potential_stiffness)
  /\ (forall (prof : profile) (number_of_links : jarray Z) (nondimensional_potential_distance : jarray T) (nondimensional_potential_stiffness : jarray T),
     jl_fjc_modified_canonical.nondimensional_relative_helmholtz_free_energy_per_link prof number_of_links nondimensional_potential_distance nondimensional_potential_stiffness
     = broadcast [UInt8; Float64; Float64] (fun number_of_links nondimensional_potential_distance nondimensional_potential_stiffness =>
         Finished (fjc_modified_canonical.nondimensional_relative_helmholtz_free_energy_per_link prof number_of_links nondimensional_potential_distance nondimensional_potential_stiffness)) number_of_links nondimensional_potential_distance nondimensional_potential_stiffness)
  /\ (forall (prof : profile) (number_of_links : jarray Z) (link_length : jarray T) (hinge_mass : jarray T) (potential_distance : jarray T) (potential_stiffness : jarray T) (temperature : jarray T),
     jl_fjc_modified_canonical.gibbs_free_energy prof number_of_links link_length hinge_mass potential_distance potential_stiffness temperature
     = broadcast [UInt8; Float64; Float64; Float64; Float64; Float64] (fun number_of_links link_length hinge_mass potential_distance potential_stiffness temperature =>
         Finished (fjc_modified_canonical.gibbs_free_energy prof number_of_links link_length hinge_mass potential_distance potential_stiffness temperature)) number_of_links link_length hinge_mass potential_distance potential_stiffness temperature)
  /\ (forall (prof : profile) (number_of_links : jarray Z) (link_length : jarray T) (hinge_mass : jarray T) (potential_distance : jarray T) (potential_stiffness : jarray T) (temperature : jarray T),
     jl_fjc_modified_canonical.gibbs_free_energy_per_link prof number_of_links link_length hinge_mass potential_distance potential_stiffness temperature
     = broadcast [UInt8; Float64; Float64; Float64; Float64; Float64] (fun number_of_links link_length hinge_mass potential_distance potential_stiffness temperature =>
         Finished (fjc_modified_canonical.gibbs_free_energy_per_link prof number_of_links link_length hinge_mass potential_distance potential_stiffness temperature)) number_of_links link_length hinge_mass potential_distance potential_stiffness temperature)
  /\ (forall (prof : profile) (number_of_links : jarray Z) (link_length : jarray T) (potential_distance : jarray T) (potential_stiffness : jarray T) (temperature : jarray T),
     jl_fjc_modified_canonical.relative_gibbs_free_energy prof number_of_links link_length potential_distance potential_stiffness temperature
     = broadcast [UInt8; Float64; Float64; Float64; Float64] (fun number_of_links link_length potential_distance potential_stiffness temperature =>
         Finished (fjc_modified_canonical.relative_gibbs_free_energy prof number_of_links link_length potential_distance potential_stiffness temperature)) number_of_links link_length potential_distance potential_stiffness temperature)
  /\ (forall (prof : profile) (number_of_links : jarray Z) (link_length : jarray T) (potential_distance : jarray T) (potential_stiffness : jarray T) (temperature : jarray T),
     jl_fjc_modified_canonical.relative_gibbs_free_energy_per_link prof number_of_links link_length potential_distance potential_stiffness temperature
     = broadcast [UInt8; Float64; Float64; Float64; Float64] (fun number_of_links link_length potential_distance potential_stiffness temperature =>
         Finished (fjc_modified_canonical.relative_gibbs_free_energy_per_link prof number_of_links link_length potential_distance potential_stiffness temperature)) number_of_links link_length potential_distance potential_stiffness temperature)
  /\ (forall (prof : profile) (number_of_links : jarray Z) (link_length : jarray T) (hinge_mass : jarray T) (nondimensional_potential_distance : jarray T) (nondimensional_potential_stiffness : jarray T) (temperature : jarray T),
     jl_fjc_modified_canonical.nondimensional_gibbs_free_energy prof number_of_links link_length hinge_mass nondimensional_potential_distance nondimensional_potential_stiffness temperature
     = broadcast [UInt8; Float64; Float64; Float64; Float64; Float64] (fun number_of_links link_length hinge_mass nondimensional_potential_distance nondimensional_potential_stiffness temperature =>
         Finished (fjc_modified_canonical.nondimensional_gibbs_free_energy prof number_of_links link_length hinge_mass nondimensional_potential_distance nondimensional_potential_stiffness temperature)) number_of_links link_length hinge_mass nondimensional_potential_distance nondimensional_potential_stiffness temperature)
  /\ (forall (prof : profile) (number_of_links : jarray Z) (link_length : jarray T) (hinge_mass : jarray T) (nondimensional_potential_distance : jarray T) (nondimensional_potential_stiffness : jarray T) (temperature : jarray T),
     jl_fjc_modified_canonical.nondimensional_gibbs_free_energy_per_link prof number_of_links link_length hinge_mass nondimensional_potential_distance nondimensional_potential_stiffness temperature
     = broadcast [UInt8; Float64; Float64; Float64; Float64; Float64] (fun number_of_links link_length hinge_mass nondimensional_potential_distance nondimensional_potential_stiffness temperature =>
         Finished (fjc_modified_canonical.nondimensional_gibbs_free_energy_per_link prof number_of_links link_length hinge_mass nondimensional_potential_distance nondimensional_potential_stiffness temperature)) number_of_links link_length hinge_mass nondimensional_potential_distance nondimensional_potential_stiffness temperature)
  /\ (forall (prof : profile) (number_of_links : jarray Z) (nondimensional_potential_distance : jarray T) (nondimensional_potential_stiffness : jarray T),
     jl_fjc_modified_canonical.nondimensional_relative_gibbs_free_energy prof number_of_links nondimensional_potential_distance nondimensional_potential_stiffness
     = broadcast [UInt8; Float64; Float64] (fun number_of_links nondimensional_potential_distance nondimensional_potential_stiffness =>
         Finished (fjc_modified_canonical.nondimensional_relative_gibbs_free_energy prof number_of_links nondimensional_potential_distance nondimensional_potential_stiffness)) number_of_links nondimensional_potential_distance nondimensional_potential_stiffness)
  /\ (forall (prof : profile) (number_of_links : jarray Z) (nondimensional_potential_distance : jarray T) (nondimensional_potential_stiffness : jarray T),
     jl_fjc_modified_canonical.nondimensional_relative_gibbs_free_energy_per_link prof number_of_links nondimensional_potential_distance nondimensional_potential_stiffness
     = broadcast [UInt8; Float64; Float64] (fun number_of_links nondimensional_potential_distance nondimensional_potential_stiffness =>
         Finished (fjc_modified_canonical.nondimensional_relative_gibbs_free_energy_per_link prof number_of_links nondimensional_potential_distance nondimensional_potential_stiffness)) number_of_links nondimensional_potential_distance nondimensional_potential_stiffness).
Proof.
  exact (fun T Sc => conj (@F_fjc_modified_canonical_end_to_end_length T Sc)
    (conj (@F_fjc_modified_canonical_end_to_end_length_per_link T Sc)
    (conj (@F_fjc_modified_canonical_nondimensional_end_to_end_length T Sc)
    (conj (@F_fjc_modified_canonical_nondimensional_end_to_end_length_per_link T Sc)
    (conj (@F_fjc_modified_canonical_force T Sc)
    (conj (@F_fjc_modified_canonical_nondimensional_force T Sc)
    (conj (@F_fjc_modified_canonical_helmholtz_free_energy T Sc)
    (conj (@F_fjc_modified_canonical_helmholtz_free_energy_per_link T Sc)
    (conj (@F_fjc_modified_canonical_relative_helmholtz_free_energy T Sc)
    (conj (@F_fjc_modified_canonical_relative_helmholtz_free_energy_per_link T Sc)
    (conj (@F_fjc_modified_canonical_nondimensional_helmholtz_free_energy T Sc)
    (conj (@F_fjc_modified_canonical_nondimensional_helmholtz_free_energy_per_link T Sc)
    (conj (@F_fjc_modified_canonical_nondimensional_relative_helmholtz_free_energy T Sc)
    (conj (@F_fjc_modified_canonical_nondimensional_relative_helmholtz_free_energy_per_link T Sc)
    (conj (@F_fjc_modified_canonical_gibbs_free_energy T Sc)
    (conj (@F_fjc_modified_canonical_gibbs_free_energy_per_link T Sc)
    (conj (@F_fjc_modified_canonical_relative_gibbs_free_energy T Sc)
    (conj (@F_fjc_modified_canonical_relative_gibbs_free_energy_per_link T Sc)
    (conj (@F_fjc_modified_canonical_nondimensional_gibbs_free_energy T Sc)
    (conj (@F_fjc_modified_canonical_nondimensional_gibbs_free_energy_per_link T Sc)
    (conj (@F_fjc_modified_canonical_nondimensional_relative_gibbs_free_energy T Sc)
    (@F_fjc_modified_canonical_nondimensional_relative_gibbs_free_energy_per_link T Sc)))))))))))))))))))))).
Qed.
Print Assumptions C61_functions_fjc_modified_canonical.

Theorem C61_object_fjc_modified_canonical : forall (T : Type) (Sc : Scalar T) (prof : profile) (number_of_links : Z) (link_length : T) (hinge_mass : T),
  let j := J_fjc_modified_canonical.init prof number_of_links link_length hinge_mass in
  let r := O_fjc_modified_canonical.init number_of_links link_length hinge_mass in
  J_fjc_modified_canonical.number_of_links j = O_fjc_modified_canonical.number_of_links r
  /\ J_fjc_modified_canonical.link_length j = O_fjc_modified_canonical.link_length r
  /\ J_fjc_modified_canonical.hinge_mass j = O_fjc_modified_canonical.hinge_mass r
  /\ J_fjc_modified_canonical.asymptotic j = J_fjc_modified_canonical_asymptotic.init prof number_of_links link_length hinge_mass
  /\ (forall (potential_distance : jarray T) (potential_stiffness : jarray T) (temperature : jarray T),
     J_fjc_modified_canonical.end_to_end_length j potential_distance potential_stiffness temperature
     = broadcast [Float64; Float64; Float64] (fun potential_distance potential_stiffness temperature =>
         Finished (O_fjc_modified_canonical.end_to_end_length prof r potential_distance potential_stiffness temperature)) potential_distance potential_stiffness temperature)
  /\ (forall (potential_distance : jarray T) (potential_stiffness : jarray T) (temperature : jarray T),
     J_fjc_modified_canonical.end_to_end_length_per_link j potential_distance potential_stiffness temperature
     = broadcast [Float64; Float64; Float64] (fun potential_distance potential_stiffness temperature =>
         Finished (O_fjc_modified_canonical.end_to_end_length_per_link prof r potential_distance potential_stiffness temperature)) potential_distance potential_stiffness temperature)
  /\ (forall (nondimensional_potential_distance : jarray T) (nondimensional_potential_stiffness : jarray T),
     J_fjc_modified_canonical.nondimensional_end_to_end_length j nondimensional_potential_distance nondimensional_potential_stiffness
     = broadcast [Float64; Float64] (fun nondimensional_potential_distance nondimensional_potential_stiffness =>
         Finished (O_fjc_modified_canonical.nondimensional_end_to_end_length prof r nondimensional_potential_distance nondimensional_potential_stiffness)) nondimensional_potential_distance nondimensional_potential_stiffness)
  /\ (forall (nondimensional_potential_distance : jarray T) (nondimensional_potential_stiffness : jarray T),
     J_fjc_modified_canonical.nondimensional_end_to_end_length_per_link j nondimensional_potential_distance nondimensional_potential_stiffness
     = broadcast [Float64; Float64] (fun nondimensional_potential_distance nondimensional_potential_stiffness =>
         Finished (O_fjc_modified_canonical.nondimensional_end_to_end_length_per_link prof r nondimensional_potential_distance nondimensional_potential_stiffness)) nondimensional_potential_distance nondimensional_potential_stiffness)
  /\ (forall (potential_distance : jarray T) (potential_stiffness : jarray T) (temperature : jarray T),
     J_fjc_modified_canonical.force j potential_distance potential_stiffness temperature
     = broadcast [Float64; Float64; Float64] (fun potential_distance potential_stiffness temperature =>
         Finished (O_fjc_modified_canonical.force prof r potential_distance potential_stiffness temperature)) potential_distance potential_stiffness temperature)
  /\ (forall (nondimensional_potential_distance : jarray T) (nondimensional_potential_stiffness : jarray T),
     J_fjc_modified_canonical.nondimensional_force j nondimensional_potential_distance nondimensional_potential_stiffness
     = broadcast [Float64; Float64] (fun nondimensional_potential_distance nondimensional_potential_stiffness =>
         Finished (O_fjc_modified_canonical.nondimensional_force prof r nondimensional_potential_distance nondimensional_potential_stiffness)) nondimensional_potential_distance nondimensional_potential_stiffness)
  /\ (forall (potential_distance : jarray T) (potential_stiffness : jarray T) (temperature : jarray T),
     J_fjc_modified_canonical.helmholtz_free_energy j potential_distance potential_stiffness temperature
     = broadcast [Float64; Float64; Float64] (fun potential_distance potential_stiffness temperature =>
         Finished (O_fjc_modified_canonical.helmholtz_free_energy prof r potential_distance potential_stiffness temperature)) potential_distance potential_stiffness temperature)
  /\ (forall (potential_distance : jarray T) (potential_stiffness : jarray T) (temperature : jarray T),
     J_fjc_modified_canonical.helmholtz_free_energy_per_link j potential_distance potential_stiffness temperature
     = broadcast [Float64; Float64; Float64] (fun potential_distance potential_stiffness temperature =>
         Finished (O_fjc_modified_canonical.helmholtz_free_energy_per_link prof r potential_distance potential_stiffness temperature)) potential_distance potential_stiffness temperature)
  /\ (forall (potential_distance : jarray T) (potential_stiffness : jarray T) (temperature : jarray T),
     J_fjc_modified_canonical.relative_helmholtz_free_energy j potential_distance potential_stiffness temperature
     = broadcast [Float64; Float64; Float64] (fun potential_distance potential_stiffness temperature =>
         Finished (O_fjc_modified_canonical.relative_helmholtz_free_energy prof r potential_distance potential_stiffness temperature)) potential_distance potential_stiffness temperature)
  /\ (forall (potential_distance : jarray T) (potential_stiffness : jarray T) (temperature : jarray T),
     J_fjc_modified_canonical.relative_helmholtz_free_energy_per_link j potential_distance potential_stiffness temperature
     = broadcast [Float64; Float64; Float64] (fun potential_distance potential_stiffness temperature =>
         Finished (O_fjc_modified_canonical.relative_helmholtz_free_energy_per_link prof r potential_distance potential_stiffness temperature)) potential_distance potential_stiffness temperature)
  /\ (forall (nondimensional_potential_distance : jarray T) (nondimensional_potential_stiffness : jarray T) (temperature : jarray T),
     J_fjc_modified_canonical.nondimensional_helmholtz_free_energy j nondimensional_potential_distance nondimensional_potential_stiffness temperature
     = broadcast [Float64; Float64; Float64] (fun nondimensional_potential_distance nondimensional_potential_stiffness temperature =>
         Finished (O_fjc_modified_canonical.nondimensional_helmholtz_free_energy prof r nondimensional_potential_distance nondimensional_potential_stiffness temperature)) nondimensional_potential_distance nondimensional_potential_stiffness temperature)
  /\ (forall (nondimensional_potential_distance : jarray T) (nondimensional_potential_stiffness : jarray T) (temperature : jarray T),
     J_fjc_modified_canonical.nondimensional_helmholtz_free_energy_per_link j nondimensional_potential_distance nondimensional_potential_stiffness temperature
     = broadcast [Float64; Float64; Float64] (fun nondimensional_potential_distance nondimensional_potential_stiffness temperature =>
         Finished (O_fjc_modified_canonical.nondimensional_helmholtz_free_energy_per_link prof r nondimensional_potential_distance nondimensional_potential_stiffness temperature)) nondimensional_potential_distance nondimensional_potential_stiffness temperature)
  /\ (forall (nondimensional_potential_distance : jarray T) (nondimensional_potential_stiffness : jarray T),
     J_fjc_modified_canonical.nondimensional_relative_helmholtz_free_energy j nondimensional_potential_distance nondimensional_potential_stiffness
     = broadcast [Float64; Float64] (fun nondimensional_potential_distance nondimensional_potential_stiffness =>
         Finished (O_fjc_modified_canonical.nondimensional_relative_helmholtz_free_energy prof r nondimensional_potential_distance nondimensional_potential_stiffness)) nondimensional_potential_distance nondimensional_potential_stiffness)
  /\ (forall (nondimensional_potential_distance : jarray T) (nondimensional_potential_stiffness : jarray T),
     J_fjc_modified_canonical.nondimensional_relative_helmholtz_free_energy_per_link j nondimensional_potential_distance nondimensional_potential_stiffness
     = broadcast [Float64; Float64] (fun nondimensional_potential_distance nondimensional_potential_stiffness =>
         Finished (O_fjc_modified_canonical.nondimensional_relative_helmholtz_free_energy_per_link prof r nondimensional_potential_distance nondimensional_potential_stiffness)) nondimensional_potential_distance nondimensional_potential_stiffness)
  /\ (forall (potential_distance : jarray T) (potential_stiffness : jarray T) (temperature : jarray T),
     J_fjc_modified_canonical.gibbs_free_energy j potential_distance potential_stiffness temperature
     = broadcast [Float64; Float64; Float64] (fun potential_distance potential_stiffness temperature =>
         Finished (O_fjc_modified_canonical.gibbs_free_energy prof r potential_distance potential_stiffness temperature)) potential_distance potential_stiffness temperature)
  /\ (forall (potential_distance : jarray T) (potential_stiffness : jarray T) (temperature : jarray T),
     J_fjc_modified_canonical.gibbs_free_energy_per_link j potential_distance potential_stiffness temperature
     = broadcast [Float64; Float64; Float64] (fun potential_distance potential_stiffness temperature =>
         Finished (O_fjc_modified_canonical.gibbs_free_energy_per_link prof r potential_distance potential_stiffness temperature)) potential_distance potential_stiffness temperature)
  /\ (forall (potential_distance : jarray T) (potential_stiffness : jarray T) (temperature : jarray T),
     J_fjc_modified_canonical.relative_gibbs_free_energy j potential_distance potential_stiffness temperature
     = broadcast [Float64; Float64; Float64] (fun potential_distance potential_stiffness temperature =>
         Finished (O_fjc_modified_canonical.relative_gibbs_free_energy prof r potential_distance potential_stiffness temperature)) potential_distance potential_stiffness temperature)
  /\ (forall (potential_distance : jarray T) (potential_stiffness : jarray T) (temperature : jarray T),
     J_fjc_modified_canonical.relative_gibbs_free_energy_per_link j potential_distance potential_stiffness temperature
     = broadcast [Float64; Float64; Float64] (fun potential_distance potential_stiffness temperature =>
         Finished (O_fjc_modified_canonical.relative_gibbs_free_energy_per_link prof r potential_distance potential_stiffness temperature)) potential_distance potential_stiffness temperature)
  /\ (forall (nondimensional_potential_distance : jarray T) (nondimensional_potential_stiffness : jarray T) (temperature : jarray T),
     J_fjc_modified_canonical.nondimensional_gibbs_free_energy j nondimensional_potential_distance nondimensional_potential_stiffness temperature
     = broadcast [Float64; Float64; Float64] (fun nondimensional_potential_distance nondimensional_potential_stiffness temperature =>
         Finished (O_fjc_modified_canonical.nondimensional_gibbs_free_energy prof r nondimensional_potential_distance nondimensional_potential_stiffness temperature)) nondimensional_potential_distance nondimensional_potential_stiffness temperature)
  /\ (forall (nondimensional_potential_distance : jarray T) (nondimensional_potential_stiffness : jarray T) (temperature : jarray T),
     J_fjc_modified_canonical.nondimensional_gibbs_free_energy_per_link j nondimensional_potential_distance nondimensional_potential_stiffness temperature
     = broadcast [Float64; Float64; Float64] (fun nondimensional_potential_distance nondimensional_potential_stiffness temperature =>
         Finished (O_fjc_modified_canonical.nondimensional_gibbs_free_energy_per_link prof r nondimensional_potential_distance nondimensional_potential_stiffness temperature)) nondimensional_potential_distance nondimensional_potential_stiffness temperature)
  /\ (forall (nondimensional_potential_distance : jarray T) (nondimensional_potential_stiffness : jarray T),
     J_fjc_modified_canonical.nondimensional_relative_gibbs_free_energy j nondimensional_potential_distance nondimensional_potential_stiffness
     = broadcast [Float64; Float64] (fun nondimensional_potential_distance nondimensional_potential_stiffness =>
         Finished (O_fjc_modified_canonical.nondimensional_relative_gibbs_free_energy prof r nondimensional_potential_distance nondimensional_potential_stiffness)) nondimensional_potential_distance nondimensional_potential_stiffness)
  /\ (forall (nondimensional_potential_distance : jarray T) (nondimensional_potential_stiffness : jarray T),
     J_fjc_modified_canonical.nondimensional_relative_gibbs_free_energy_per_link j nondimensional_potential_distance nondimensional_potential_stiffness
     = broadcast [Float64; Float64] (fun nondimensional_potential_distance nondimensional_potential_stiffness =>
         Finished (O_fjc_modified_canonical.nondimensional_relative_gibbs_free_energy_per_link prof r nondimensional_potential_distance nondimensional_potential_stiffness)) nondimensional_potential_distance nondimensional_potential_stiffness).
Proof. intros T Sc prof number_of_links link_length hinge_mass j r.
  split; [reflexivity|].
  split; [reflexivity|].
  split; [reflexivity|].
  split; [reflexivity|].
  split; [intros; cbv [j J_fjc_modified_canonical.init J_fjc_modified_canonical.end_to_end_length]; rewrite F_fjc_modified_canonical_end_to_end_length; unfold O_fjc_modified_canonical.end_to_end_length; broadcast_numbers|].
  split; [intros; cbv [j J_fjc_modified_canonical.init J_fjc_modified_canonical.end_to_end_length_per_link]; rewrite F_fjc_modified_canonical_end_to_end_length_per_link; unfold O_fjc_modified_canonical.end_to_end_length_per_link; broadcast_numbers|].
  split; [intros; cbv [j J_fjc_modified_canonical.init J_fjc_modified_canonical.nondimensional_end_to_end_length]; rewrite F_fjc_modified_canonical_nondimensional_end_to_end_length; unfold O_fjc_modified_canonical.nondimensional_end_to_end_length; broadcast_numbers|].
  split; [intros; cbv [j J_fjc_modified_canonical.init J_fjc_modified_canonical.nondimensional_end_to_end_length_per_link]; rewrite F_fjc_modified_canonical_nondimensional_end_to_end_length_per_link; unfold O_fjc_modified_canonical.nondimensional_end_to_end_length_per_link; broadcast_numbers|].
  split; [intros; cbv [j J_fjc_modified_canonical.init J_fjc_modified_canonical.force]; rewrite F_fjc_modified_canonical_force; unfold O_fjc_modified_canonical.force; broadcast_numbers|].
  split; [intros; cbv [j J_fjc_modified_canonical.init J_fjc_modified_canonical.nondimensional_force]; rewrite F_fjc_modified_canonical_nondimensional_force; unfold O_fjc_modified_canonical.nondimensional_force; broadcast_numbers|].
  split; [intros; cbv [j J_fjc_modified_canonical.init J_fjc_modified_canonical.helmholtz_free_energy]; rewrite F_fjc_modified_canonical_helmholtz_free_energy; unfold O_fjc_modified_canonical.helmholtz_free_energy; broadcast_numbers|].
  split; [intros; cbv [j J_fjc_modified_canonical.init J_fjc_modified_canonical.helmholtz_free_energy_per_link]; rewrite F_fjc_modified_canonical_helmholtz_free_energy_per_link; unfold O_fjc_modified_canonical.helmholtz_free_energy_per_link; broadcast_numbers|].
  split; [intros; cbv [j J_fjc_modified_canonical.init J_fjc_modified_canonical.relative_helmholtz_free_energy]; rewrite F_fjc_modified_canonical_relative_helmholtz_free_energy; unfold O_fjc_modified_canonical.relative_helmholtz_free_energy; broadcast_numbers|].
  split; [intros; cbv [j J_fjc_modified_canonical.init J_fjc_modified_canonical.relative_helmholtz_free_energy_per_link]; rewrite F_fjc_modified_canonical_relative_helmholtz_free_energy_per_link; unfold O_fjc_modified_canonical.relative_helmholtz_free_energy_per_link; broadcast_numbers|].
  split; [intros; cbv [j J_fjc_modified_canonical.init J_fjc_modified_canonical.nondimensional_helmholtz_free_energy]; rewrite F_fjc_modified_canonical_nondimensional_helmholtz_free_energy; unfold O_fjc_modified_canonical.nondimensional_helmholtz_free_energy; broadcast_numbers|].
  split; [intros; cbv [j J_fjc_modified_canonical.init J_fjc_modified_canonical.nondimensional_helmholtz_free_energy_per_link]; rewrite F_fjc_modified_canonical_nondimensional_helmholtz_free_energy_per_link; unfold O_fjc_modified_canonical.nondimensional_helmholtz_free_energy_per_link; broadcast_numbers|].
  split; [intros; cbv [j J_fjc_modified_canonical.init J_fjc_modified_canonical.nondimensional_relative_helmholtz_free_energy]; rewrite F_fjc_modified_canonical_nondimensional_relative_helmholtz_free_energy; unfold O_fjc_modified_canonical.nondimensional_relative_helmholtz_free_energy; broadcast_numbers|].
  split; [intros; cbv [j J_fjc_modified_canonical.init J_fjc_modified_canonical.nondimensional_relative_helmholtz_free_energy_per_link]; rewrite F_fjc_modified_canonical_nondimensional_relative_helmholtz_free_energy_per_link; unfold O_fjc_modified_canonical.nondimensional_relative_helmholtz_free_energy_per_link; broadcast_numbers|].
  split; [intros; cbv [j J_fjc_modified_canonical.init J_fjc_modified_canonical.gibbs_free_energy]; rewrite F_fjc_modified_canonical_gibbs_free_energy; unfold O_fjc_modified_canonical.gibbs_free_energy; broadcast_numbers|].
  split; [intros; cbv [j J_fjc_modified_canonical.init J_fjc_modified_canonical.gibbs_free_energy_per_link]; rewrite F_fjc_modified_canonical_gibbs_free_energy_per_link; unfold O_fjc_modified_canonical.gibbs_free_energy_per_link; broadcast_numbers|].
  split; [intros; cbv [j J_fjc_modified_canonical.init J_fjc_modified_canonical.relative_gibbs_free_energy]; rewrite F_fjc_modified_canonical_relative_gibbs_free_energy; unfold O_fjc_modified_canonical.relative_gibbs_free_energy; broadcast_numbers|].
  split; [intros; cbv [j J_fjc_modified_canonical.init J_fjc_modified_canonical.relative_gibbs_free_energy_per_link]; rewrite F_fjc_modified_canonical_relative_gibbs_free_energy_per_link; unfold O_fjc_modified_canonical.relative_gibbs_free_energy_per_link; broadcast_numbers|].
  split; [intros; cbv [j J_fjc_modified_canonical.init J_fjc_modified_canonical.nondimensional_gibbs_free_energy]; rewrite F_fjc_modified_canonical_nondimensional_gibbs_free_energy; unfold O_fjc_modified_canonical.nondimensional_gibbs_free_energy; broadcast_numbers|].
  split; [intros; cbv [j J_fjc_modified_canonical.init J_fjc_modified_canonical.nondimensional_gibbs_free_energy_per_link]; rewrite F_fjc_modified_canonical_nondimensional_gibbs_free_energy_per_link; unfold O_fjc_modified_canonical.nondimensional_gibbs_free_energy_per_link; broadcast_numbers|].
  split; [intros; cbv [j J_fjc_modified_canonical.init J_fjc_modified_canonical.nondimensional_relative_gibbs_free_energy]; rewrite F_fjc_modified_canonical_nondimensional_relative_gibbs_free_energy; unfold O_fjc_modified_canonical.nondimensional_relative_gibbs_free_energy; broadcast_numbers|].
  intros; cbv [j J_fjc_modified_canonical.init J_fjc_modified_canonical.nondimensional_relative_gibbs_free_energy_per_link]; rewrite F_fjc_modified_canonical_nondimensional_relative_gibbs_free_energy_per_link; unfold O_fjc_modified_canonical.nondimensional_relative_gibbs_free_energy_per_link; broadcast_numbers.
Qed.
Print Assumptions C61_object_fjc_modified_canonical.

Theorem C61_functions_ideal_isometric : forall (T : Type) (Sc : Scalar T),
  (forall (number_of_links : jarray Z) (link_length : jarray T) (end_to_end_length : jarray T) (temperature : jarray T),
     jl_ideal_isometric.force number_of_links link_length end_to_end_length temperature
     = broadcast [UInt8; Float64; Float64; Float64] (fun number_of_links link_length end_to_end_length temperature =>
         Finished (Some (ideal_isometric.force number_of_links link_length end_to_end_length temperature))) number_of_links link_length end_to_end_length temperature)
  /\ (forall (nondimensional_end_to_end_length_per_link : jarray T),
     jl_ideal_isometric.nondimensional_force nondimensional_end_to_end_length_per_link
     = broadcast [Float64] (fun nondimensional_end_to_end_length_per_link =>
         Finished (Some (ideal_isometric.nondimensional_force nondimensional_end_to_end_length_per_link))) nondimensional_end_to_end_length_per_link)
  /\ (forall (number_of_links : jarray Z) (link_length : jarray T) (hinge_mass : jarray T) (end_to_end_length : jarray T) (temperature : jarray T),
     jl_ideal_isometric.helmholtz_free_energy number_of_links link_length hinge_mass end_to_end_length temperature
     = broadcast [UInt8; Float64; Float64; Float64; Float64] (fun number_of_links link_length hinge_mass end_to_end_length temperature =>
         Finished (Some (ideal_isometric.helmholtz_free_energy number_of_links link_length hinge_mass end_to_end_length temperature))) number_of_links link_length hinge_mass end_to_end_length temperature)
  /\ (forall (number_of_links : jarray Z) (link_length : jarray T) (hinge_mass : jarray T) (end_to_end_length : jarray T) (temperature : jarray T),
     jl_ideal_isometric.helmholtz_free_energy_per_link number_of_links link_length hinge_mass end_to_end_length temperature
     = broadcast [UInt8; Float64; Float64; Float64; Float64] (fun number_of_links link_length hinge_mass end_to_end_length temperature =>
         Finished (Some (ideal_isometric.helmholtz_free_energy_per_link number_of_links link_length hinge_mass end_to_end_length temperature))) number_of_links link_length hinge_mass end_to_end_length temperature)
  /\ (forall (number_of_links : jarray Z) (link_length : jarray T) (end_to_end_length : jarray T) (temperature : jarray T),
     jl_ideal_isometric.relative_helmholtz_free_energy number_of_links link_length end_to_end_length temperature
     = broadcast [UInt8; Float64; Float64; Float64] (fun number_of_links link_length end_to_end_length temperature =>
         Finished (Some (ideal_isometric.relative_helmholtz_free_energy number_of_links link_length end_to_end_length temperature))) number_of_links link_length end_to_end_length temperature)
  /\ (forall (number_of_links : jarray Z) (link_length : jarray T) (end_to_end_length : jarray T) (temperature : jarray T),
     jl_ideal_isometric.relative_helmholtz_free_energy_per_link number_of_links link_length end_to_end_length temperature
     = broadcast [UInt8; Float64; Float64; Float64] (fun number_of_links link_length end_to_end_length temperature =>
         Finished (Some (ideal_isometric.relative_helmholtz_free_energy_per_link number_of_links link_length end_to_end_length temperature))) number_of_links link_length end_to_end_length temperature)
  /\ (forall (number_of_links : jarray Z) (link_length : jarray T) (hinge_mass : jarray T) (nondimensional_end_to_end_length_per_link : jarray T) (temperature : jarray T),
     jl_ideal_isometric.nondimensional_helmholtz_free_energy number_of_links link_length hinge_mass nondimensional_end_to_end_length_per_link temperature
     = broadcast [UInt8; Float64; Float64; Float64; Float64] (fun number_of_links link_length hinge_mass nondimensional_end_to_end_length_per_link temperature =>
         Finished (Some (ideal_isometric.nondimensional_helmholtz_free_energy number_of_links link_length hinge_mass nondimensional_end_to_end_length_per_link temperature))) number_of_links link_length hinge_mass nondimensional_end_to_end_length_per_link temperature)
  /\ (forall (link_length : jarray T) (hinge_mass : jarray T) (nondimensional_end_to_end_length_per_link : jarray T) (temperature : jarray T),
     jl_ideal_isometric.nondimensional_helmholtz_free_energy_per_link link_length hinge_mass nondimensional_end_to_end_length_per_link temperature
     = broadcast [Float64; Float64; Float64; Float64] (fun link_length hinge_mass nondimensional_end_to_end_length_per_link temperature =>
         Finished (Some (ideal_isometric.nondimensional_helmholtz_free_energy_per_link link_length hinge_mass nondimensional_end_to_end_length_per_link temperature))) link_length hinge_mass nondimensional_end_to_end_length_per_link temperature)
  /\ (forall (number_of_links : jarray Z) (nondimensional_end_to_end_length_per_link : jarray T),
     jl_ideal_isometric.nondimensional_relative_helmholtz_free_energy number_of_links nondimensional_end_to_end_length_per_link
     = broadcast [UInt8; Float64] (fun number_of_links nondimensional_end_to_end_length_per_link =>
         Finished (Some (ideal_isometric.nondimensional_relative_helmholtz_free_energy number_of_links nondimensional_end_to_end_length_per_link))) number_of_links nondimensional_end_to_end_length_per_link)
  /\ (forall (nondimensional_end_to_end_length_per_link : jarray T),
     jl_ideal_isometric.nondimensional_relative_helmholtz_free_energy_per_link nondimensional_end_to_end_length_per_link
     = broadcast [Float64] (fun nondimensional_end_to_end_length_per_link =>
         Finished (Some (ideal_isometric.nondimensional_relative_helmholtz_free_energy_per_link nondimensional_end_to_end_length_per_link))) nondimensional_end_to_end_length_per_link)
  /\ (forall (number_of_links : jarray Z) (link_length : jarray T) (end_to_end_length : jarray T),
     jl_ideal_isometric.equilibrium_distribution number_of_links link_length end_to_end_length
     = broadcast [UInt8; Float64; Float64] (fun number_of_links link_length end_to_end_length =>
         Finished (Some (ideal_isometric.equilibrium_distribution number_of_links link_length end_to_end_length))) number_of_links link_length end_to_end_length)
  /\ (forall (number_of_links : jarray Z) (nondimensional_end_to_end_length_per_link : jarray T),
     jl_ideal_isometric.nondimensional_equilibrium_distribution number_of_links nondimensional_end_to_end_length_per_link
     = broadcast [UInt8; Float64] (fun number_of_links nondimensional_end_to_end_length_per_link =>
         Finished (Some (ideal_isometric.nondimensional_equilibrium_distribution number_of_links nondimensional_end_to_end_length_per_link))) number_of_links nondimensional_end_to_end_length_per_link)
  /\ (forall (number_of_links : jarray Z) (link_length : jarray T) (end_to_end_length : jarray T),
     jl_ideal_isometric.equilibrium_radial_distribution number_of_links link_length end_to_end_length
     = broadcast [UInt8; Float64; Float64] (fun number_of_links link_length end_to_end_length =>
         Finished (Some (ideal_isometric.equilibrium_radial_distribution number_of_links link_length end_to_end_length))) number_of_links link_length end_to_end_length)
  /\ (forall (number_of_links : jarray Z) (nondimensional_end_to_end_length_per_link : jarray T),
     jl_ideal_isometric.nondimensional_equilibrium_radial_distribution number_of_links nondimensional_end_to_end_length_per_link
     = broadcast [UInt8; Float64] (fun number_of_links nondimensional_end_to_end_length_per_link =>
         Finished (Some (ideal_isometric.nondimensional_equilibrium_radial_distribution number_of_links nondimensional_end_to_end_length_per_link))) number_of_links nondimensional_end_to_end_length_per_link).
Proof.
  exact (fun T Sc => conj (@F_ideal_isometric_force T Sc)
    (conj (@F_ideal_isometric_nondimensional_force T Sc)
    (conj (@F_ideal_isometric_helmholtz_free_energy T Sc)
    (conj (@F_ideal_isometric_helmholtz_free_energy_per_link T Sc)
    (conj (@F_ideal_isometric_relative_helmholtz_free_energy T Sc)
    (conj (@F_ideal_isometric_relative_helmholtz_free_energy_per_link T Sc)
    (conj (@F_ideal_isometric_nondimensional_helmholtz_free_energy T Sc)
    (conj (@F_ideal_isometric_nondimensional_helmholtz_free_energy_per_link T Sc)
    (conj (@F_ideal_isometric_nondimensional_relative_helmholtz_free_energy T Sc)
    (conj (@F_ideal_isometric_nondimensional_relative_helmholtz_free_energy_per_link T Sc)
    (conj (@F_ideal_isometric_equilibrium_distribution T Sc)
    (conj (@F_ideal_isometric_nondimensional_equilibrium_distribution T Sc)
    (conj (@F_ideal_isometric_equilibrium_radial_distribution T Sc)
    (@F_ideal_isometric_nondimensional_equilibrium_radial_distribution T Sc)))))))))))))).
Qed.
Print Assumptions C61_functions_ideal_isometric.

Theorem C61_object_ideal_isometric : forall (T : Type) (Sc : Scalar T) (number_of_links : Z) (link_length : T) (hinge_mass : T),
  let j := J_ideal_isometric.init number_of_links link_length hinge_mass in
  let r := O_ideal_isometric.init number_of_links link_length hinge_mass in
  J_ideal_isometric.number_of_links j = O_ideal_isometric.number_of_links r
  /\ J_ideal_isometric.link_length j = O_ideal_isometric.link_length r
  /\ J_ideal_isometric.hinge_mass j = O_ideal_isometric.hinge_mass r
  /\ (forall (end_to_end_length : jarray T) (temperature : jarray T),
     J_ideal_isometric.force j end_to_end_length temperature
     = broadcast [Float64; Float64] (fun end_to_end_length temperature =>
         Finished (Some (O_ideal_isometric.force r end_to_end_length temperature))) end_to_end_length temperature)
  /\ (forall (nondimensional_end_to_end_length_per_link : jarray T),
     J_ideal_isometric.nondimensional_force j nondimensional_end_to_end_length_per_link
     = broadcast [Float64] (fun nondimensional_end_to_end_length_per_link =>
         Finished (Some (O_ideal_isometric.nondimensional_force r nondimensional_end_to_end_length_per_link))) nondimensional_end_to_end_length_per_link)
  /\ (forall (end_to_end_length : jarray T) (temperature : jarray T),
     J_ideal_isometric.helmholtz_free_energy j end_to_end_length temperature
     = broadcast [Float64; Float64] (fun end_to_end_length temperature =>
         Finished (Some (O_ideal_isometric.helmholtz_free_energy r end_to_end_length temperature))) end_to_end_length temperature)
  /\ (forall (end_to_end_length : jarray T) (temperature : jarray T),
     J_ideal_isometric.helmholtz_free_energy_per_link j end_to_end_length temperature
     = broadcast [Float64; Float64] (fun end_to_end_length temperature =>
         Finished (Some (O_ideal_isometric.helmholtz_free_energy_per_link r end_to_end_length temperature))) end_to_end_length temperature)
  /\ (forall (end_to_end_length : jarray T) (temperature : jarray T),
     J_ideal_isometric.relative_helmholtz_free_energy j end_to_end_length temperature
     = broadcast [Float64; Float64] (fun end_to_end_length temperature =>
         Finished (Some (O_ideal_isometric.relative_helmholtz_free_energy r end_to_end_length temperature))) end_to_end_length temperature)
  /\ (forall (end_to_end_length : jarray T) (temperature : jarray T),
     J_ideal_isometric.relative_helmholtz_free_energy_per_link j end_to_end_length temperature
     = broadcast [Float64; Float64] (fun end_to_end_length temperature =>
         Finished (Some (O_ideal_isometric.relative_helmholtz_free_energy_per_link r end_to_end_length temperature))) end_to_end_length temperature)
  /\ (forall (nondimensional_end_to_end_length_per_link : jarray T) (temperature : jarray T),
     J_ideal_isometric.nondimensional_helmholtz_free_energy j nondimensional_end_to_end_length_per_link temperature
     = broadcast [Float64; Float64] (fun nondimensional_end_to_end_length_per_link temperature =>
         Finished (Some (O_ideal_isometric.nondimensional_helmholtz_free_energy r nondimensional_end_to_end_length_per_link temperature))) nondimensional_end_to_end_length_per_link temperature)
  /\ (forall (nondimensional_end_to_end_length_per_link : jarray T) (temperature : jarray T),
     J_ideal_isometric.nondimensional_helmholtz_free_energy_per_link j nondimensional_end_to_end_length_per_link temperature
     = broadcast [Float64; Float64] (fun nondimensional_end_to_end_length_per_link temperature =>
         Finished (Some (O_ideal_isometric.nondimensional_helmholtz_free_energy_per_link r nondimensional_end_to_end_length_per_link temperature))) nondimensional_end_to_end_length_per_link temperature)
  /\ (forall (nondimensional_end_to_end_length_per_link : jarray T),
     J_ideal_isometric.nondimensional_relative_helmholtz_free_energy j nondimensional_end_to_end_length_per_link
     = broadcast [Float64] (fun nondimensional_end_to_end_length_per_link =>
         Finished (Some (O_ideal_isometric.nondimensional_relative_helmholtz_free_energy r nondimensional_end_to_end_length_per_link))) nondimensional_end_to_end_length_per_link)
  /\ (forall (nondimensional_end_to_end_length_per_link : jarray T),
     J_ideal_isometric.nondimensional_relative_helmholtz_free_energy_per_link j nondimensional_end_to_end_length_per_link
     = broadcast [Float64] (fun nondimensional_end_to_end_length_per_link =>
         Finished (Some (O_ideal_isometric.nondimensional_relative_helmholtz_free_energy_per_link r nondimensional_end_to_end_length_per_link))) nondimensional_end_to_end_length_per_link)
  /\ (forall (end_to_end_length : jarray T),
     J_ideal_isometric.equilibrium_distribution j end_to_end_length
     = broadcast [Float64] (fun end_to_end_length =>
         Finished (Some (O_ideal_isometric.equilibrium_distribution r end_to_end_length))) end_to_end_length)
  /\ (forall (nondimensional_end_to_end_length_per_link : jarray T),
     J_ideal_isometric.nondimensional_equilibrium_distribution j nondimensional_end_to_end_length_per_link
     = broadcast [Float64] (fun nondimensional_end_to_end_length_per_link =>
         Finished (Some (O_ideal_isometric.nondimensional_equilibrium_distribution r nondimensional_end_to_end_length_per_link))) nondimensional_end_to_end_length_per_link)
  /\ (forall (end_to_end_length : jarray T),
     J_ideal_isometric.equilibrium_radial_distribution j end_to_end_length
     = broadcast [Float64] (fun end_to_end_length =>
         Finished (Some (O_ideal_isometric.equilibrium_radial_distribution r end_to_end_length))) end_to_end_length)
  /\ (forall (nondimensional_end_to_end_length_per_link : jarray T),
     J_ideal_isometric.nondimensional_equilibrium_radial_distribution j nondimensional_end_to_end_length_per_link
     = broadcast [Float64] (fun nondimensional_end_to_end_length_per_link =>
         Finished (Some (O_ideal_isometric.nondimensional_equilibrium_radial_distribution r nondimensional_end_to_end_length_per_link))) nondimensional_end_to_end_length_per_link).
Proof. intros T Sc number_of_links link_length hinge_mass j r.
  split; [reflexivity|].
  split; [reflexivity|].
  split; [reflexivity|].
  split; [intros; cbv [j J_ideal_isometric.init J_ideal_isometric.force]; rewrite F_ideal_isometric_force; unfold O_ideal_isometric.force; broadcast_numbers|].
  split; [intros; cbv [j J_ideal_isometric.init J_ideal_isometric.nondimensional_force]; rewrite F_ideal_isometric_nondimensional_force; unfold O_ideal_isometric.nondimensional_force; broadcast_numbers|].
  split; [intros; cbv [j J_ideal_isometric.init J_ideal_isometric.helmholtz_free_energy]; rewrite F_ideal_isometric_helmholtz_free_energy; unfold O_ideal_isometric.helmholtz_free_energy; broadcast_numbers|].
  split; [intros; cbv [j J_ideal_isometric.init J_ideal_isometric.helmholtz_free_energy_per_link]; rewrite F_ideal_isometric_helmholtz_free_energy_per_link; unfold O_ideal_isometric.helmholtz_free_energy_per_link; broadcast_numbers|].
  split; [intros; cbv [j J_ideal_isometric.init J_ideal_isometric.relative_helmholtz_free_energy]; rewrite F_ideal_isometric_relative_helmholtz_free_energy; unfold O_ideal_isometric.relative_helmholtz_free_energy; broadcast_numbers|].
  split; [intros; cbv [j J_ideal_isometric.init J_ideal_isometric.relative_helmholtz_free_energy_per_link]; rewrite F_ideal_isometric_relative_helmholtz_free_energy_per_link; unfold O_ideal_isometric.relative_helmholtz_free_energy_per_link; broadcast_numbers|].
  split; [intros; cbv [j J_ideal_isometric.init J_ideal_isometric.nondimensional_helmholtz_free_energy]; rewrite F_ideal_isometric_nondimensional_helmholtz_free_energy; unfold O_ideal_isometric.nondimensional_helmholtz_free_energy; broadcast_numbers|].
  split; [intros; cbv [j J_ideal_isometric.init J_ideal_isometric.nondimensional_helmholtz_free_energy_per_link]; rewrite F_ideal_isometric_nondimensional_helmholtz_free_energy_per_link; unfold O_ideal_isometric.nondimensional_helmholtz_free_energy_per_link; broadcast_numbers|].
  split; [intros; cbv [j J_ideal_isometric.init J_ideal_isometric.nondimensional_relative_helmholtz_free_energy]; rewrite F_ideal_isometric_nondimensional_relative_helmholtz_free_energy; unfold O_ideal_isometric.nondimensional_relative_helmholtz_free_energy; broadcast_numbers|].
  split; [intros; cbv [j J_ideal_isometric.init J_ideal_isometric.nondimensional_relative_helmholtz_free_energy_per_link]; rewrite F_ideal_isometric_nondimensional_relative_helmholtz_free_energy_per_link; unfold O_ideal_isometric.nondimensional_relative_helmholtz_free_energy_per_link; broadcast_numbers|].
  split; [intros; cbv [j J_ideal_isometric.init J_ideal_isometric.equilibrium_distribution]; rewrite F_ideal_isometric_equilibrium_distribution; unfold O_ideal_isometric.equilibrium_distribution; broadcast_numbers|].
  split; [intros; cbv [j J_ideal_isometric.init J_ideal_isometric.nondimensional_equilibrium_distribution]; rewrite F_ideal_isometric_nondimensional_equilibrium_distribution; unfold O_ideal_isometric.nondimensional_equilibrium_distribution; broadcast_numbers|].
  split; [intros; cbv [j J_ideal_isometric.init J_ideal_isometric.equilibrium_radial_distribution]; rewrite F_ideal_isometric_equilibrium_radial_distribution; unfold O_ideal_isometric.equilibrium_radial_distribution; broadcast_numbers|].
  intros; cbv [j J_ideal_isometric.init J_ideal_isometric.nondimensional_equilibrium_radial_distribution]; rewrite F_ideal_isometric_nondimensional_equilibrium_radial_distribution; unfold O_ideal_isometric.nondimensional_equilibrium_radial_distribution; broadcast_numbers.
Qed.
Print Assumptions C61_object_ideal_isometric.

Theorem C61_functions_ideal_isotensional : forall (T : Type) (Sc : Scalar T),
  (forall (number_of_links : jarray Z) (link_length : jarray T) (force : jarray T) (temperature : jarray T),
     jl_ideal_isotensional.end_to_end_length number_of_links link_length force temperature
     = broadcast [UInt8; Float64; Float64; Float64] (fun number_of_links link_length force temperature =>
         Finished (Some (ideal_isotensional.end_to_end_length number_of_links link_length force temperature))) number_of_links link_length force temperature)
  /\ (forall (link_length : jarray T) (force : jarray T) (temperature : jarray T),
     jl_ideal_isotensional.end_to_end_length_per_link link_length force temperature
     = broadcast [Float64; Float64; Float64] (fun link_length force temperature =>
         Finished (Some (ideal_isotensional.end_to_end_length_per_link link_length force temperature))) link_length force temperature)
  /\ (forall (number_of_links : jarray Z) (nondimensional_force : jarray T),
     jl_ideal_isotensional.nondimensional_end_to_end_length number_of_links nondimensional_force
     = broadcast [UInt8; Float64] (fun number_of_links nondimensional_force =>
         Finished (Some (ideal_isotensional.nondimensional_end_to_end_length number_of_links nondimensional_force))) number_of_links nondimensional_force)
  /\ (forall (nondimensional_force : jarray T),
     jl_ideal_isotensional.nondimensional_end_to_end_length_per_link nondimensional_force
     = broadcast [Float64] (fun nondimensional_force =>
         Finished (Some (ideal_isotensional.nondimensional_end_to_end_length_per_link nondimensional_force))) nondimensional_force)
  /\ (forall (number_of_links : jarray Z) (link_length : jarray T) (hinge_mass : jarray T) (force : jarray T) (temperature : jarray T),
     jl_ideal_isotensional.gibbs_free_energy number_of_links link_length hinge_mass force temperature
     = broadcast [UInt8; Float64; Float64; Float64; Float64] (fun number_of_links link_length hinge_mass force temperature =>
         Finished (Some (ideal_isotensional.gibbs_free_energy number_of_links link_length hinge_mass force temperature))) number_of_links link_length hinge_mass force temperature)
  /\ (forall (link_length : jarray T) (hinge_mass : jarray T) (force : jarray T) (temperature : jarray T),
     jl_ideal_isotensional.gibbs_free_energy_per_link link_length hinge_mass force temperature
     = broadcast [Float64; Float64; Float64; Float64] (fun link_length hinge_mass force temperature =>
         Finished (Some (ideal_isotensional.gibbs_free_energy_per_link link_length hinge_mass force temperature))) link_length hinge_mass force temperature)
  /\ (forall (number_of_links : jarray Z) (link_length : jarray T) (force : jarray T) (temperature : jarray T),
     jl_ideal_isotensional.relative_gibbs_free_energy number_of_links link_length force temperature
     = broadcast [UInt8; Float64; Float64; Float64] (fun number_of_links link_length force temperature =>
         Finished (Some (ideal_isotensional.relative_gibbs_free_energy number_of_links link_length force temperature))) number_of_links link_length force temperature)
  /\ (forall (link_length : jarray T) (force : jarray T) (temperature : jarray T),
     jl_ideal_isotensional.relative_gibbs_free_energy_per_link link_length force temperature
     = broadcast [Float64; Float64; Float64] (fun link_length force temperature =>
         Finished (Some (ideal_isotensional.relative_gibbs_free_energy_per_link link_length force temperature))) link_length force temperature)
  /\ (forall (number_of_links : jarray Z) (link_length : jarray T) (hinge_mass : jarray T) (nondimensional_force : jarray T) (temperature : jarray T),
     jl_ideal_isotensional.nondimensional_gibbs_free_energy number_of_links link_length hinge_mass nondimensional_force temperature
     = broadcast [UInt8; Float64; Float64; Float64; Float64] (fun number_of_links link_length hinge_mass nondimensional_force temperature =>
         Finished (Some (ideal_isotensional.nondimensional_gibbs_free_energy number_of_links link_length hinge_mass nondimensional_force temperature))) number_of_links link_length hinge_mass nondimensional_force temperature)
  /\ (forall (link_length : jarray T) (hinge_mass : jarray T) (nondimensional_force : jarray T) (temperature : jarray T),
     jl_ideal_isotensional.nondimensional_gibbs_free_energy_per_link link_length hinge_mass nondimensional_force temperature
     = broadcast [Float64; Float64; Float64; Float64] (fun link_length hinge_mass nondimensional_force temperature =>
         Finished (Some (ideal_isotensional.nondimensional_gibbs_free_energy_per_link link_length hinge_mass nondimensional_force temperature))) link_length hinge_mass nondimensional_force temperature)
  /\ (forall (number_of_links : jarray Z) (nondimensional_force : jarray T),
     jl_ideal_isotensional.nondimensional_relative_gibbs_free_energy number_of_links nondimensional_force
     = broadcast [UInt8; Float64] (fun number_of_links nondimensional_force =>
         Finished (Some (ideal_isotensional.nondimensional_relative_gibbs_free_energy number_of_links nondimensional_force))) number_of_links nondimensional_force)
  /\ (forall (nondimensional_force : jarray T),
     jl_ideal_isotensional.nondimensional_relative_gibbs_free_energy_per_link nondimensional_force
     = broadcast [Float64] (fun nondimensional_force =>
         Finished (Some (ideal_isotensional.nondimensional_relative_gibbs_free_energy_per_link nondimensional_force))) nondimensional_force).
Proof.
  exact (fun T Sc => conj (@F_ideal_isotensional_end_to_end_length T Sc)
    (conj (@F_ideal_isotensional_end_to_end_length_per_link T Sc)
    (conj (@F_ideal_isotensional_nondimensional_end_to_end_length T Sc)
    (conj (@F_ideal_isotensional_nondimensional_end_to_end_length_per_link T Sc)
    (conj (@F_ideal_isotensional_gibbs_free_energy T Sc)
    (conj (@F_ideal_isotensional_gibbs_free_energy_per_link T Sc)
    (conj (@F_ideal_isotensional_relative_gibbs_free_energy T Sc)
    (conj (@F_ideal_isotensional_relative_gibbs_free_energy_per_link T Sc)
    (conj (@F_ideal_isotensional_nondimensional_gibbs_free_energy T Sc)
    (conj (@F_ideal_isotensional_nondimensional_gibbs_free_energy_per_link T Sc)
    (conj (@F_ideal_isotensional_nondimensional_relative_gibbs_free_energy T Sc)
    (@F_ideal_isotensional_nondimensional_relative_gibbs_free_energy_per_link T Sc)))))))))))).
Qed.
Print Assumptions C61_functions_ideal_isotensional.

Theorem C61_object_ideal_isotensional : forall (T : Type) (Sc : Scalar T) (number_of_links : Z) (link_length : T) (hinge_mass : T),
  let j := J_ideal_isotensional.init number_of_links link_length hinge_mass in
  let r := O_ideal_isotensional.init number_of_links link_length hinge_mass in
  J_ideal_isotensional.number_of_links j = O_ideal_isotensional.number_of_links r
  /\ J_ideal_isotensional.link_length j = O_ideal_isotensional.link_length r
  /\ J_ideal_isotensional.hinge_mass j = O_ideal_isotensional.hinge_mass r
  /\ (forall (force : jarray T) (temperature : jarray T),
     J_ideal_isotensional.end_to_end_length j force temperature
     = broadcast [Float64; Float64] (fun force temperature =>
         Finished (Some (O_ideal_isotensional.end_to_end_length r force temperature))) force temperature)
  /\ (forall (force : jarray T) (temperature : jarray T),
     J_ideal_isotensional.end_to_end_length_per_link j force temperature
     = broadcast [Float64; Float64] (fun force temperature =>
         Finished (Some (O_ideal_isotensional.end_to_end_length_per_link r force temperature))) force temperature)
  /\ (forall (nondimensional_force : jarray T),
     J_ideal_isotensional.nondimensional_end_to_end_length j nondimensional_force
     = broadcast [Float64] (fun nondimensional_force =>
         Finished (Some (O_ideal_isotensional.nondimensional_end_to_end_length r nondimensional_force))) nondimensional_force)
  /\ (forall (nondimensional_force : jarray T),
     J_ideal_isotensional.nondimensional_end_to_end_length_per_link j nondimensional_force
     = broadcast [Float64] (fun nondimensional_force =>
         Finished (Some (O_ideal_isotensional.nondimensional_end_to_end_length_per_link r nondimensional_force))) nondimensional_force)
  /\ (forall (force : jarray T) (temperature : jarray T),
     J_ideal_isotensional.gibbs_free_energy j force temperature
     = broadcast [Float64; Float64] (fun force temperature =>
         Finished (Some (O_ideal_isotensional.gibbs_free_energy r force temperature))) force temperature)
  /\ (forall (force : jarray T) (temperature : jarray T),
     J_ideal_isotensional.gibbs_free_energy_per_link j force temperature
     = broadcast [Float64; Float64] (fun force temperature =>
         Finished (Some (O_ideal_isotensional.gibbs_free_energy_per_link r force temperature))) force temperature)
  /\ (forall (force : jarray T) (temperature : jarray T),
     J_ideal_isotensional.relative_gibbs_free_energy j force temperature
     = broadcast [Float64; Float64] (fun force temperature =>
         Finished (Some (O_ideal_isotensional.relative_gibbs_free_energy r force temperature))) force temperature)
  /\ (forall (force : jarray T) (temperature : jarray T),
     J_ideal_isotensional.relative_gibbs_free_energy_per_link j force temperature
     = broadcast [Float64; Float64] (fun force temperature =>
         Finished (Some (O_ideal_isotensional.relative_gibbs_free_energy_per_link r force temperature))) force temperature)
  /\ (forall (nondimensional_force : jarray T) (temperature : jarray T),
     J_ideal_isotensional.nondimensional_gibbs_free_energy j nondimensional_force temperature
     = broadcast [Float64; Float64] (fun nondimensional_force temperature =>
         Finished (Some (O_ideal_isotensional.nondimensional_gibbs_free_energy r nondimensional_force temperature))) nondimensional_force temperature)
  /\ (forall (nondimensional_force : jarray T) (temperature : jarray T),
     J_ideal_isotensional.nondimensional_gibbs_free_energy_per_link j nondimensional_force temperature
     = broadcast [Float64; Float64] (fun nondimensional_force temperature =>
         Finished (Some (O_ideal_isotensional.nondimensional_gibbs_free_energy_per_link r nondimensional_force temperature))) nondimensional_force temperature)
  /\ (forall (nondimensional_force : jarray T),
     J_ideal_isotensional.nondimensional_relative_gibbs_free_energy j nondimensional_force
     = broadcast [Float64] (fun nondimensional_force =>
         Finished (Some (O_ideal_isotensional.nondimensional_relative_gibbs_free_energy r nondimensional_force))) nondimensional_force)
  /\ (forall (nondimensional_force : jarray T),
     J_ideal_isotensional.nondimensional_relative_gibbs_free_energy_per_link j nondimensional_force
     = broadcast [Float64] (fun nondimensional_force =>
         Finished (Some (O_ideal_isotensional.nondimensional_relative_gibbs_free_energy_per_link r nondimensional_force))) nondimensional_force).
Proof. intros T Sc number_of_links link_length hinge_mass j r.
  split; [reflexivity|].
  split; [reflexivity|].
  split; [reflexivity|].
  split; [intros; cbv [j J_ideal_isotensional.init J_ideal_isotensional.end_to_end_length]; rewrite F_ideal_isotensional_end_to_end_length; unfold O_ideal_isotensional.end_to_end_length; broadcast_numbers|].
  split; [intros; cbv [j J_ideal_isotensional.init J_ideal_isotensional.end_to_end_length_per_link]; rewrite F_ideal_isotensional_end_to_end_length_per_link; unfold O_ideal_isotensional.end_to_end_length_per_link; broadcast_numbers|].
  split; [intros; cbv [j J_ideal_isotensional.init J_ideal_isotensional.nondimensional_end_to_end_length]; rewrite F_ideal_isotensional_nondimensional_end_to_end_length; unfold O_ideal_isotensional.nondimensional_end_to_end_length; broadcast_numbers|].
  split; [intros; cbv [j J_ideal_isotensional.init J_ideal_isotensional.nondimensional_end_to_end_length_per_link]; rewrite F_ideal_isotensional_nondimensional_end_to_end_length_per_link; unfold O_ideal_isotensional.nondimensional_end_to_end_length_per_link; broadcast_numbers|].
  split; [intros; cbv [j J_ideal_isotensional.init J_ideal_isotensional.gibbs_free_energy]; rewrite F_ideal_isotensional_gibbs_free_energy; unfold O_ideal_isotensional.gibbs_free_energy; broadcast_numbers|].
  split; [intros; cbv [j J_ideal_isotensional.init J_ideal_isotensional.gibbs_free_energy_per_link]; rewrite F_ideal_isotensional_gibbs_free_energy_per_link; unfold O_ideal_isotensional.gibbs_free_energy_per_link; broadcast_numbers|].
  split; [intros; cbv [j J_ideal_isotensional.init J_ideal_isotensional.relative_gibbs_free_energy]; rewrite F_ideal_isotensional_relative_gibbs_free_energy; unfold O_ideal_isotensional.relative_gibbs_free_energy; broadcast_numbers|].
  split; [intros; cbv [j J_ideal_isotensional.init J_ideal_isotensional.relative_gibbs_free_energy_per_link]; rewrite F_ideal_isotensional_relative_gibbs_free_energy_per_link; unfold O_ideal_isotensional.relative_gibbs_free_energy_per_link; broadcast_numbers|].
  split; [intros; cbv [j J_ideal_isotensional.init J_ideal_isotensional.nondimensional_gibbs_free_energy]; rewrite F_ideal_isotensional_nondimensional_gibbs_free_energy; unfold O_ideal_isotensional.nondimensional_gibbs_free_energy; broadcast_numbers|].
  split; [intros; cbv [j J_ideal_isotensional.init J_ideal_isotensional.nondimensional_gibbs_free_energy_per_link]; rewrite F_ideal_isotensional_nondimensional_gibbs_free_energy_per_link; unfold O_ideal_isotensional.nondimensional_gibbs_free_energy_per_link; broadcast_numbers|].
  split; [intros; cbv [j J_ideal_isotensional.init J_ideal_isotensional.nondimensional_relative_gibbs_free_energy]; rewrite F_ideal_isotensional_nondimensional_relative_gibbs_free_energy; unfold O_ideal_isotensional.nondimensional_relative_gibbs_free_energy; broadcast_numbers|].
  intros; cbv [j J_ideal_isotensional.init J_ideal_isotensional.nondimensional_relative_gibbs_free_energy_per_link]; rewrite F_ideal_isotensional_nondimensional_relative_gibbs_free_energy_per_link; unfold O_ideal_isotensional.nondimensional_relative_gibbs_free_energy_per_link; broadcast_numbers.
Qed.
Print Assumptions C61_object_ideal_isotensional.

Theorem C61_object_swfjc_isometric : forall (number_of_links : Z) (link_length : R) (hinge_mass : R) (well_width : R),
  exists j, J_swfjc_isometric.init number_of_links link_length hinge_mass well_width = Finished (Some j) /\
  let r := O_swfjc_isometric.init number_of_links link_length hinge_mass well_width in
  J_swfjc_isometric.number_of_links j = O_swfjc_isometric.number_of_links r
  /\ J_swfjc_isometric.link_length j = O_swfjc_isometric.link_length r
  /\ J_swfjc_isometric.hinge_mass j = O_swfjc_isometric.hinge_mass r
  /\ J_swfjc_isometric.well_width j = O_swfjc_isometric.well_width r
  /\ J_swfjc_isometric_legendre.init number_of_links link_length hinge_mass well_width = Finished (Some (J_swfjc_isometric.legendre j)).
Proof.
  intros number_of_links link_length hinge_mass well_width.
  destruct (C61_object_swfjc_isometric_legendre number_of_links link_length hinge_mass well_width) as (sub & H & _).
  eexists; split.
  { unfold J_swfjc_isometric.init.
    rewrite H.
    reflexivity. }
  intros r.
  split; [reflexivity|].
  split; [reflexivity|].
  split; [reflexivity|].
  split; [reflexivity|].
  exact H.
Qed.
Print Assumptions C61_object_swfjc_isometric.

Theorem C61_functions_swfjc_isotensional : forall (T : Type) (Sc : Scalar T),
  (forall (number_of_links : jarray Z) (link_length : jarray T) (well_width : jarray T) (force : jarray T) (temperature : jarray T),
     jl_swfjc_isotensional.end_to_end_length number_of_links link_length well_width force temperature
     = broadcast [UInt8; Float64; Float64; Float64; Float64] (fun number_of_links link_length well_width force temperature =>
         Finished (Some (swfjc_isotensional.end_to_end_length number_of_links link_length well_width force temperature))) number_of_links link_length well_width force temperature)
  /\ (forall (link_length : jarray T) (well_width : jarray T) (force : jarray T) (temperature : jarray T),
     jl_swfjc_isotensional.end_to_end_length_per_link link_length well_width force temperature
     = broadcast [Float64; Float64; Float64; Float64] (fun link_length well_width force temperature =>
         Finished (Some (swfjc_isotensional.end_to_end_length_per_link link_length well_width force temperature))) link_length well_width force temperature)
  /\ (forall (number_of_links : jarray Z) (link_length : jarray T) (well_width : jarray T) (nondimensional_force : jarray T),
     jl_swfjc_isotensional.nondimensional_end_to_end_length number_of_links link_length well_width nondimensional_force
     = broadcast [UInt8; Float64; Float64; Float64] (fun number_of_links link_length well_width nondimensional_force =>
         Finished (Some (swfjc_isotensional.nondimensional_end_to_end_length number_of_links link_length well_width nondimensional_force))) number_of_links link_length well_width nondimensional_force)
  /\ (forall (link_length : jarray T) (well_width : jarray T) (nondimensional_force : jarray T),
     jl_swfjc_isotensional.nondimensional_end_to_end_length_per_link link_length well_width nondimensional_force
     = broadcast [Float64; Float64; Float64] (fun link_length well_width nondimensional_force =>
         Finished (Some (swfjc_isotensional.nondimensional_end_to_end_length_per_link link_length well_width nondimensional_force))) link_length well_width nondimensional_force)
  /\ (forall (number_of_links : jarray Z) (link_length : jarray T) (hinge_mass : jarray T) (well_width : jarray T) (force : jarray T) (temperature : jarray T),
     jl_swfjc_isotensional.gibbs_free_energy number_of_links link_length hinge_mass well_width force temperature
     = broadcast [UInt8; Float64; Float64; Float64; Float64; Float64] (fun number_of_links link_length hinge_mass well_width force temperature =>
         Finished (Some (swfjc_isotensional.gibbs_free_energy number_of_links link_length hinge_mass well_width force temperature))) number_of_links link_length hinge_mass well_width force temperature)
  /\ (forall (link_length : jarray T) (hinge_mass : jarray T) (well_width : jarray T) (force : jarray T) (temperature : jarray T),
     jl_swfjc_isotensional.gibbs_free_energy_per_link link_length hinge_mass well_width force temperature
     = broadcast [Float64; Float64; Float64; Float64; Float64] (fun link_length hinge_mass well_width force temperature =>
         Finished (Some (swfjc_isotensional.gibbs_free_energy_per_link link_length hinge_mass well_width force temperature))) link_length hinge_mass well_width force temperature)
  /\ (forall (number_of_links : jarray Z) (link_length : jarray T) (well_width : jarray T) (force : jarray T) (temperature : jarray T),
     jl_swfjc_isotensional.relative_gibbs_free_energy number_of_links link_length well_width force temperature
     = broadcast [UInt8; Float64; Float64; Float64; Float64] (fun number_of_links link_length well_width force temperature =>
         Finished (Some (swfjc_isotensional.relative_gibbs_free_energy number_of_links link_length well_width force temperature))) number_of_links link_length well_width force temperature)
  /\ (forall (link_length : jarray T) (well_width : jarray T) (force : jarray T) (temperature : jarray T),
     jl_swfjc_isotensional.relative_gibbs_free_energy_per_link link_length well_width force temperature
     = broadcast [Float64; Float64; Float64; Float64] (fun link_length well_width force temperature =>
         Finished (Some (swfjc_isotensional.relative_gibbs_free_energy_per_link link_length well_width force temperature))) link_length well_width force temperature)
  /\ (forall (number_of_links : jarray Z) (link_length : jarray T) (hinge_mass : jarray T) (well_width : jarray T) (nondimensional_force : jarray T) (temperature : jarray T),
     jl_swfjc_isotensional.nondimensional_gibbs_free_energy number_of_links link_length hinge_mass well_width nondimensional_force temperature
     = broadcast [UInt8; Float64; Float64; Float64; Float64; Float64] (fun number_of_links link_length hinge_mass well_width nondimensional_force temperature =>
         Finished (Some (swfjc_isotensional.nondimensional_gibbs_free_energy number_of_links link_length hinge_mass well_width nondimensional_force temperature))) number_of_links link_length hinge_mass well_width nondimensional_force temperature)
  /\ (forall (link_length : jarray T) (hinge_mass : jarray T) (well_width : jarray T) (nondimensional_force : jarray T) (temperature : jarray T),
     jl_swfjc_isotensional.nondimensional_gibbs_free_energy_per_link link_length hinge_mass well_width nondimensional_force temperature
     = broadcast [Float64; Float64; Float64; Float64; Float64] (fun link_length hinge_mass well_width nondimensional_force temperature =>
         Finished (Some (swfjc_isotensional.nondimensional_gibbs_free_energy_per_link link_length hinge_mass well_width nondimensional_force temperature))) link_length hinge_mass well_width nondimensional_force temperature)
  /\ (forall (number_of_links : jarray Z) (link_length : jarray T) (well_width : jarray T) (nondimensional_force : jarray T),
     jl_swfjc_isotensional.nondimensional_relative_gibbs_free_energy number_of_links link_length well_width nondimensional_force
     = broadcast [UInt8; Float64; Float64; Float64] (fun number_of_links link_length well_width nondimensional_force =>
         Finished (Some (swfjc_isotensional.nondimensional_relative_gibbs_free_energy number_of_links link_length well_width nondimensional_force))) number_of_links link_length well_width nondimensional_force)
  /\ (forall (link_length : jarray T) (well_width : jarray T) (nondimensional_force : jarray T),
     jl_swfjc_isotensional.nondimensional_relative_gibbs_free_energy_per_link link_length well_width nondimensional_force
     = broadcast [Float64; Float64; Float64] (fun link_length well_width nondimensional_force =>
         Finished (Some (swfjc_isotensional.nondimensional_relative_gibbs_free_energy_per_link link_length well_width nondimensional_force))) link_length well_width nondimensional_force).
Proof.
  exact (fun T Sc => conj (@F_swfjc_isotensional_end_to_end_length T Sc)
    (conj (@F_swfjc_isotensional_end_to_end_length_per_link T Sc)
    (conj (@F_swfjc_isotensional_nondimensional_end_to_end_length T Sc)
    (conj (@F_swfjc_isotensional_nondimensional_end_to_end_length_per_link T Sc)
    (conj (@F_swfjc_isotensional_gibbs_free_energy T Sc)
    (conj (@F_swfjc_isotensional_gibbs_free_energy_per_link T Sc)
    (conj (@F_swfjc_isotensional_relative_gibbs_free_energy T Sc)
    (conj (@F_swfjc_isotensional_relative_gibbs_free_energy_per_link T Sc)
    (conj (@F_swfjc_isotensional_nondimensional_gibbs_free_energy T Sc)
    (conj (@F_swfjc_isotensional_nondimensional_gibbs_free_energy_per_link T Sc)
    (conj (@F_swfjc_isotensional_nondimensional_relative_gibbs_free_energy T Sc)
    (@F_swfjc_isotensional_nondimensional_relative_gibbs_free_energy_per_link T Sc)))))))))))).
Qed.
Print Assumptions C61_functions_swfjc_isotensional.

Theorem C61_object_swfjc_isotensional : forall (T : Type) (Sc : Scalar T) (number_of_links : Z) (link_length : T) (hinge_mass : T) (well_width : T),
  let j := J_swfjc_isotensional.init number_of_links link_length hinge_mass well_width in
  let r := O_swfjc_isotensional.init number_of_links link_length hinge_mass well_width in
  J_swfjc_isotensional.number_of_links j = O_swfjc_isotensional.number_of_links r
  /\ J_swfjc_isotensional.link_length j = O_swfjc_isotensional.link_length r
  /\ J_swfjc_isotensional.hinge_mass j = O_swfjc_isotensional.hinge_mass r
  /\ J_swfjc_isotensional.well_width j = O_swfjc_isotensional.well_width r
  /\ J_swfjc_isotensional.legendre j = J_swfjc_isotensional_legendre.init number_of_links link_length hinge_mass well_width
  /\ (forall (force : jarray T) (temperature : jarray T),
     J_swfjc_isotensional.end_to_end_length j force temperature
     = broadcast [Float64; Float64] (fun force temperature =>
         Finished (Some (O_swfjc_isotensional.end_to_end_length r force temperature))) force temperature)
  /\ (forall (force : jarray T) (temperature : jarray T),
     J_swfjc_isotensional.end_to_end_length_per_link j force temperature
     = broadcast [Float64; Float64] (fun force temperature =>
         Finished (Some (O_swfjc_isotensional.end_to_end_length_per_link r force temperature))) force temperature)
  /\ (forall (nondimensional_force : jarray T),
     J_swfjc_isotensional.nondimensional_end_to_end_length j nondimensional_force
     = broadcast [Float64] (fun nondimensional_force =>
         Finished (Some (O_swfjc_isotensional.nondimensional_end_to_end_length r nondimensional_force))) nondimensional_force)
  /\ (forall (nondimensional_force : jarray T),
     J_swfjc_isotensional.nondimensional_end_to_end_length_per_link j nondimensional_force
     = broadcast [Float64] (fun nondimensional_force =>
         Finished (Some (O_swfjc_isotensional.nondimensional_end_to_end_length_per_link r nondimensional_force))) nondimensional_force)
  /\ (forall (force : jarray T) (temperature : jarray T),
     J_swfjc_isotensional.gibbs_free_energy j force temperature
     = broadcast [Float64; Float64] (fun force temperature =>
         Finished (Some (O_swfjc_isotensional.gibbs_free_energy r force temperature))) force temperature)
  /\ (forall (force : jarray T) (temperature : jarray T),
     J_swfjc_isotensional.gibbs_free_energy_per_link j force temperature
     = broadcast [Float64; Float64] (fun force temperature =>
         Finished (Some (O_swfjc_isotensional.gibbs_free_energy_per_link r force temperature))) force temperature)
  /\ (forall (force : jarray T) (temperature : jarray T),
     J_swfjc_isotensional.relative_gibbs_free_energy j force temperature
     = broadcast [Float64; Float64] (fun force temperature =>
         Finished (Some (O_swfjc_isotensional.relative_gibbs_free_energy r force temperature))) force temperature)
  /\ (forall (force : jarray T) (temperature : jarray T),
     J_swfjc_isotensional.relative_gibbs_free_energy_per_link j force temperature
     = broadcast [Float64; Float64] (fun force temperature =>
         Finished (Some (O_swfjc_isotensional.relative_gibbs_free_energy_per_link r force temperature))) force temperature)
  /\ (forall (nondimensional_force : jarray T) (temperature : jarray T),
     J_swfjc_isotensional.nondimensional_gibbs_free_energy j nondimensional_force temperature
     = broadcast [Float64; Float64] (fun nondimensional_force temperature =>
         Finished (Some (O_swfjc_isotensional.nondimensional_gibbs_free_energy r nondimensional_force temperature))) nondimensional_force temperature)
  /\ (forall (nondimensional_force : jarray T) (temperature : jarray T),
     J_swfjc_isotensional.nondimensional_gibbs_free_energy_per_link j nondimensional_force temperature
     = broadcast [Float64; Float64] (fun nondimensional_force temperature =>
         Finished (Some (O_swfjc_isotensional.nondimensional_gibbs_free_energy_per_link r nondimensional_force temperature))) nondimensional_force temperature)
  /\ (forall (nondimensional_force : jarray T),
     J_swfjc_isotensional.nondimensional_relative_gibbs_free_energy j nondimensional_force
     = broadcast [Float64] (fun nondimensional_force =>
         Finished (Some (O_swfjc_isotensional.nondimensional_relative_gibbs_free_energy r nondimensional_force))) nondimensional_force)
  /\ (forall (nondimensional_force : jarray T),
     J_swfjc_isotensional.nondimensional_relative_gibbs_free_energy_per_link j nondimensional_force
     = broadcast [Float64] (fun nondimensional_force =>
         Finished (Some (O_swfjc_isotensional.nondimensional_relative_gibbs_free_energy_per_link r nondimensional_force))) nondimensional_force).
Proof. intros T Sc number_of_links link_length hinge_mass well_width j r.
  split; [reflexivity|].
  split; [reflexivity|].
  split; [reflexivity|].
  split; [reflexivity|].
  split; [reflexivity|].
  split; [intros; cbv [j J_swfjc_isotensional.init J_swfjc_isotensional.end_to_end_length]; rewrite F_swfjc_isotensional_end_to_end_length; unfold O_swfjc_isotensional.end_to_end_length; broadcast_numbers|].
  split; [intros; cbv [j J_swfjc_isotensional.init J_swfjc_isotensional.end_to_end_length_per_link]; rewrite F_swfjc_isotensional_end_to_end_length_per_link; unfold O_swfjc_isotensional.end_to_end_length_per_link; broadcast_numbers|].
  split; [intros; cbv [j J_swfjc_isotensional.init J_swfjc_isotensional.nondimensional_end_to_end_length]; rewrite F_swfjc_isotensional_nondimensional_end_to_end_length; unfold O_swfjc_isotensional.nondimensional_end_to_end_length; broadcast_numbers|].
  split; [intros; cbv [j J_swfjc_isotensional.init J_swfjc_isotensional.nondimensional_end_to_end_length_per_link]; rewrite F_swfjc_isotensional_nondimensional_end_to_end_length_per_link; unfold O_swfjc_isotensional.nondimensional_end_to_end_length_per_link; broadcast_numbers|].
  split; [intros; cbv [j J_swfjc_isotensional.init J_swfjc_isotensional.gibbs_free_energy]; rewrite F_swfjc_isotensional_gibbs_free_energy; unfold O_swfjc_isotensional.gibbs_free_energy; broadcast_numbers|].
  split; [intros; cbv [j J_swfjc_isotensional.init J_swfjc_isotensional.gibbs_free_energy_per_link]; rewrite F_swfjc_isotensional_gibbs_free_energy_per_link; unfold O_swfjc_isotensional.gibbs_free_energy_per_link; broadcast_numbers|].
  split; [intros; cbv [j J_swfjc_isotensional.init J_swfjc_isotensional.relative_gibbs_free_energy]; rewrite F_swfjc_isotensional_relative_gibbs_free_energy; unfold O_swfjc_isotensional.relative_gibbs_free_energy; broadcast_numbers|].
  split; [intros; cbv [j J_swfjc_isotensional.init J_swfjc_isotensional.relative_gibbs_free_energy_per_link]; rewrite F_swfjc_isotensional_relative_gibbs_free_energy_per_link; unfold O_swfjc_isotensional.relative_gibbs_free_energy_per_link; broadcast_numbers|].
  split; [intros; cbv [j J_swfjc_isotensional.init J_swfjc_isotensional.nondimensional_gibbs_free_energy]; rewrite F_swfjc_isotensional_nondimensional_gibbs_free_energy; unfold O_swfjc_isotensional.nondimensional_gibbs_free_energy; broadcast_numbers|].
  split; [intros; cbv [j J_swfjc_isotensional.init J_swfjc_isotensional.nondimensional_gibbs_free_energy_per_link]; rewrite F_swfjc_isotensional_nondimensional_gibbs_free_energy_per_link; unfold O_swfjc_isotensional.nondimensional_gibbs_free_energy_per_link; broadcast_numbers|].
  split; [intros; cbv [j J_swfjc_isotensional.init J_swfjc_isotensional.nondimensional_relative_gibbs_free_energy]; rewrite F_swfjc_isotensional_nondimensional_relative_gibbs_free_energy; unfold O_swfjc_isotensional.nondimensional_relative_gibbs_free_energy; broadcast_numbers|].
  intros; cbv [j J_swfjc_isotensional.init J_swfjc_isotensional.nondimensional_relative_gibbs_free_energy_per_link]; rewrite F_swfjc_isotensional_nondimensional_relative_gibbs_free_energy_per_link; unfold O_swfjc_isotensional.nondimensional_relative_gibbs_free_energy_per_link; broadcast_numbers.
Qed.
Print Assumptions C61_object_swfjc_isotensional.

Theorem C61_object_lennard_jones_thermodynamics : forall (T : Type) (Sc : Scalar T) (number_of_links : Z) (link_length : T) (hinge_mass : T) (link_stiffness : T),
  let j := J_lennard_jones_thermodynamics.init number_of_links link_length hinge_mass link_stiffness in
  let r := O_lennard_jones_thermodynamics.init number_of_links link_length hinge_mass link_stiffness in
  J_lennard_jones_thermodynamics.number_of_links j = O_lennard_jones_thermodynamics.number_of_links r
  /\ J_lennard_jones_thermodynamics.link_length j = O_lennard_jones_thermodynamics.link_length r
  /\ J_lennard_jones_thermodynamics.hinge_mass j = O_lennard_jones_thermodynamics.hinge_mass r
  /\ J_lennard_jones_thermodynamics.link_stiffness j = O_lennard_jones_thermodynamics.link_stiffness r
  /\ J_lennard_jones_thermodynamics.isometric j = J_lennard_jones_isometric.init number_of_links link_length hinge_mass link_stiffness
  /\ J_lennard_jones_thermodynamics.isotensional j = J_lennard_jones_isotensional.init number_of_links link_length hinge_mass link_stiffness.
Proof. intros T Sc number_of_links link_length hinge_mass link_stiffness j r.
  split; [reflexivity|].
  split; [reflexivity|].
  split; [reflexivity|].
  split; [reflexivity|].
  split; [reflexivity|].
  reflexivity.
Qed.
Print Assumptions C61_object_lennard_jones_thermodynamics.

Theorem C61_object_log_squared_thermodynamics : forall (T : Type) (Sc : Scalar T) (number_of_links : Z) (link_length : T) (hinge_mass : T) (link_stiffness : T),
  let j := J_log_squared_thermodynamics.init number_of_links link_length hinge_mass link_stiffness in
  let r := O_log_squared_thermodynamics.init number_of_links link_length hinge_mass link_stiffness in
  J_log_squared_thermodynamics.number_of_links j = O_log_squared_thermodynamics.number_of_links r
  /\ J_log_squared_thermodynamics.link_length j = O_log_squared_thermodynamics.link_length r
  /\ J_log_squared_thermodynamics.hinge_mass j = O_log_squared_thermodynamics.hinge_mass r
  /\ J_log_squared_thermodynamics.link_stiffness j = O_log_squared_thermodynamics.link_stiffness r
  /\ J_log_squared_thermodynamics.isometric j = J_log_squared_isometric.init number_of_links link_length hinge_mass link_stiffness
  /\ J_log_squared_thermodynamics.isotensional j = J_log_squared_isotensional.init number_of_links link_length hinge_mass link_stiffness.
Proof. intros T Sc number_of_links link_length hinge_mass link_stiffness j r.
  split; [reflexivity|].
  split; [reflexivity|].
  split; [reflexivity|].
  split; [reflexivity|].
  split; [reflexivity|].
  reflexivity.
Qed.
Print Assumptions C61_object_log_squared_thermodynamics.

Theorem C61_object_morse_thermodynamics : forall (T : Type) (Sc : Scalar T) (number_of_links : Z) (link_length : T) (hinge_mass : T) (link_stiffness : T) (link_energy : T),
  let j := J_morse_thermodynamics.init number_of_links link_length hinge_mass link_stiffness link_energy in
  let r := O_morse_thermodynamics.init number_of_links link_length hinge_mass link_stiffness link_energy in
  J_morse_thermodynamics.number_of_links j = O_morse_thermodynamics.number_of_links r
  /\ J_morse_thermodynamics.link_length j = O_morse_thermodynamics.link_length r
  /\ J_morse_thermodynamics.hinge_mass j = O_morse_thermodynamics.hinge_mass r
  /\ J_morse_thermodynamics.link_stiffness j = O_morse_thermodynamics.link_stiffness r
  /\ J_morse_thermodynamics.link_energy j = O_morse_thermodynamics.link_energy r
  /\ J_morse_thermodynamics.isometric j = J_morse_isometric.init number_of_links link_length hinge_mass link_stiffness link_energy
  /\ J_morse_thermodynamics.isotensional j = J_morse_isotensional.init number_of_links link_length hinge_mass link_stiffness link_energy.
Proof. intros T Sc number_of_links link_length hinge_mass link_stiffness link_energy j r.
  split; [reflexivity|].
  split; [reflexivity|].
  split; [reflexivity|].
  split; [reflexivity|].
  split; [reflexivity|].
  split; [reflexivity|].
  reflexivity.
Qed.
Print Assumptions C61_object_morse_thermodynamics.

Theorem C61_functions_wlc_isometric : forall (T : Type) (Sc : Scalar T),
  (forall (number_of_links : jarray Z) (link_length : jarray T) (persistance_length : jarray T) (end_to_end_length : jarray T) (temperature : jarray T),
     jl_wlc_isometric.force number_of_links link_length persistance_length end_to_end_length temperature
     = broadcast [UInt8; Float64; Float64; Float64; Float64] (fun number_of_links link_length persistance_length end_to_end_length temperature =>
         Finished (Some (wlc_isometric.force number_of_links link_length persistance_length end_to_end_length temperature))) number_of_links link_length persistance_length end_to_end_length temperature)
  /\ (forall (number_of_links : jarray Z) (nondimensional_persistance_length : jarray T) (nondimensional_end_to_end_length_per_link : jarray T),
     jl_wlc_isometric.nondimensional_force number_of_links nondimensional_persistance_length nondimensional_end_to_end_length_per_link
     = broadcast [UInt8; Float64; Float64] (fun number_of_links nondimensional_persistance_length nondimensional_end_to_end_length_per_link =>
         Finished (Some (wlc_isometric.nondimensional_force number_of_links nondimensional_persistance_length nondimensional_end_to_end_length_per_link))) number_of_links nondimensional_persistance_length nondimensional_end_to_end_length_per_link)
  /\ (forall (number_of_links : jarray Z) (link_length : jarray T) (hinge_mass : jarray T) (persistance_length : jarray T) (end_to_end_length : jarray T) (temperature : jarray T),
     jl_wlc_isometric.helmholtz_free_energy number_of_links link_length hinge_mass persistance_length end_to_end_length temperature
     = broadcast [UInt8; Float64; Float64; Float64; Float64; Float64] (fun number_of_links link_length hinge_mass persistance_length end_to_end_length temperature =>
         Finished (Some (wlc_isometric.helmholtz_free_energy number_of_links link_length hinge_mass persistance_length end_to_end_length temperature))) number_of_links link_length hinge_mass persistance_length end_to_end_length temperature)
  /\ (forall (number_of_links : jarray Z) (link_length : jarray T) (hinge_mass : jarray T) (persistance_length : jarray T) (end_to_end_length : jarray T) (temperature : jarray T),
     jl_wlc_isometric.helmholtz_free_energy_per_link number_of_links link_length hinge_mass persistance_length end_to_end_length temperature
     = broadcast [UInt8; Float64; Float64; Float64; Float64; Float64] (fun number_of_links link_length hinge_mass persistance_length end_to_end_length temperature =>
         Finished (Some (wlc_isometric.helmholtz_free_energy_per_link number_of_links link_length hinge_mass persistance_length end_to_end_length temperature))) number_of_links link_length hinge_mass persistance_length end_to_end_length temperature)
  /\ (forall (number_of_links : jarray Z) (link_length : jarray T) (persistance_length : jarray T) (end_to_end_length : jarray T) (temperature : jarray T),
     jl_wlc_isometric.relative_helmholtz_free_energy number_of_links link_length persistance_length end_to_end_length temperature
     = broadcast [UInt8; Float64; Float64; Float64; Float64] (fun number_of_links link_length persistance_length end_to_end_length temperature =>
         Finished (Some (wlc_isometric.relative_helmholtz_free_energy number_of_links link_length persistance_length end_to_end_length temperature))) number_of_links link_length persistance_length end_to_end_length temperature)
  /\ (forall (number_of_links : jarray Z) (link_length : jarray T) (persistance_length : jarray T) (end_to_end_length : jarray T) (temperature : jarray T),
     jl_wlc_isometric.relative_helmholtz_free_energy_per_link number_of_links link_length persistance_length end_to_end_length temperature
     = broadcast [UInt8; Float64; Float64; Float64; Float64] (fun number_of_links link_length persistance_length end_to_end_length temperature =>
         Finished (Some (wlc_isometric.relative_helmholtz_free_energy_per_link number_of_links link_length persistance_length end_to_end_length temperature))) number_of_links link_length persistance_length end_to_end_length temperature)
  /\ (forall (number_of_links : jarray Z) (link_length : jarray T) (hinge_mass : jarray T) (nondimensional_persistance_length : jarray T) (nondimensional_end_to_end_length_per_link : jarray T) (temperature : jarray T),
     jl_wlc_isometric.nondimensional_helmholtz_free_energy number_of_links link_length hinge_mass nondimensional_persistance_length nondimensional_end_to_end_length_per_link temperature
     = broadcast [UInt8; Float64; Float64; Float64; Float64; Float64] (fun number_of_links link_length hinge_mass nondimensional_persistance_length nondimensional_end_to_end_length_per_link temperature =>
         Finished (Some (wlc_isometric.nondimensional_helmholtz_free_energy number_of_links link_length hinge_mass nondimensional_persistance_length nondimensional_end_to_end_length_per_link temperature))) number_of_links link_length hinge_mass nondimensional_persistance_length nondimensional_end_to_end_length_per_link temperature)
  /\ (forall (number_of_links : jarray Z) (link_length : jarray T) (hinge_mass : jarray T) (nondimensional_persistance_length : jarray T) (nondimensional_end_to_end_length_per_link : jarray T) (temperature : jarray T),
     jl_wlc_isometric.nondimensional_helmholtz_free_energy_per_link number_of_links link_length hinge_mass nondimensional_persistance_length nondimensional_end_to_end_length_per_link temperature
     = broadcast [UInt8; Float64; Float64; Float64; Float64; Float64] (fun number_of_links link_length hinge_mass nondimensional_persistance_length nondimensional_end_to_end_length_per_link temperature =>
         Finished (Some (wlc_isometric.nondimensional_helmholtz_free_energy_per_link number_of_links link_length hinge_mass nondimensional_persistance_length nondimensional_end_to_end_length_per_link temperature))) number_of_links link_length hinge_mass nondimensional_persistance_length nondimensional_end_to_end_length_per_link temperature)
  /\ (forall (nondimensional_persistance_length : jarray T) (nondimensional_end_to_end_length_per_link : jarray T),
     jl_wlc_isometric.nondimensional_relative_helmholtz_free_energy nondimensional_persistance_length nondimensional_end_to_end_length_per_link
     = broadcast [Float64; Float64] (fun nondimensional_persistance_length nondimensional_end_to_end_length_per_link =>
         Finished (Some (wlc_isometric.nondimensional_relative_helmholtz_free_energy nondimensional_persistance_length nondimensional_end_to_end_length_per_link))) nondimensional_persistance_length nondimensional_end_to_end_length_per_link)
  /\ (forall (number_of_links : jarray Z) (nondimensional_persistance_length : jarray T) (nondimensional_end_to_end_length_per_link : jarray T),
     jl_wlc_isometric.nondimensional_relative_helmholtz_free_energy_per_link number_of_links nondimensional_persistance_length nondimensional_end_to_end_length_per_link
     = broadcast [UInt8; Float64; Float64] (fun number_of_links nondimensional_persistance_length nondimensional_end_to_end_length_per_link =>
         Finished (Some (wlc_isometric.nondimensional_relative_helmholtz_free_energy_per_link number_of_links nondimensional_persistance_length nondimensional_end_to_end_length_per_link))) number_of_links nondimensional_persistance_length nondimensional_end_to_end_length_per_link)
  /\ (forall (number_of_links : jarray Z) (link_length : jarray T) (persistance_length : jarray T) (normalization_nondimensional_equilibrium_distribution : T) (end_to_end_length : jarray T),
     jl_wlc_isometric.equilibrium_distribution number_of_links link_length persistance_length normalization_nondimensional_equilibrium_distribution end_to_end_length
     = broadcast [UInt8; Float64; Float64; Float64] (fun number_of_links link_length persistance_length end_to_end_length =>
         Finished (Some (wlc_isometric.equilibrium_distribution number_of_links link_length persistance_length normalization_nondimensional_equilibrium_distribution end_to_end_length))) number_of_links link_length persistance_length end_to_end_length)
  /\ (forall (number_of_links : jarray Z) (link_length : jarray T) (persistance_length : jarray T) (normalization_nondimensional_equilibrium_distribution : T) (end_to_end_length : jarray T),
     jl_wlc_isometric.equilibrium_radial_distribution number_of_links link_length persistance_length normalization_nondimensional_equilibrium_distribution end_to_end_length
     = broadcast [UInt8; Float64; Float64; Float64] (fun number_of_links link_length persistance_length end_to_end_length =>
         Finished (Some (wlc_isometric.equilibrium_radial_distribution number_of_links link_length persistance_length normalization_nondimensional_equilibrium_distribution end_to_end_length))) number_of_links link_length persistance_length end_to_end_length).
Proof.
  exact (fun T Sc => conj (@F_wlc_isometric_force T Sc)
    (conj (@F_wlc_isometric_nondimensional_force T Sc)
    (conj (@F_wlc_isometric_helmholtz_free_energy T Sc)
    (conj (@F_wlc_isometric_helmholtz_free_energy_per_link T Sc)
    (conj (@F_wlc_isometric_relative_helmholtz_free_energy T Sc)
    (conj (@F_wlc_isometric_relative_helmholtz_free_energy_per_link T Sc)
    (conj (@F_wlc_isometric_nondimensional_helmholtz_free_energy T Sc)
    (conj (@F_wlc_isometric_nondimensional_helmholtz_free_energy_per_link T Sc)
    (conj (@F_wlc_isometric_nondimensional_relative_helmholtz_free_energy T Sc)
    (conj (@F_wlc_isometric_nondimensional_relative_helmholtz_free_energy_per_link T Sc)
    (conj (@F_wlc_isometric_equilibrium_distribution T Sc)
    (@F_wlc_isometric_equilibrium_radial_distribution T Sc)))))))))))).
Qed.
Print Assumptions C61_functions_wlc_isometric.

Theorem C61_functions_wlc_isotensional : forall (T : Type) (Sc : Scalar T),
  (forall (number_of_links : jarray Z) (link_length : jarray T) (persistance_length : jarray T) (force : jarray T) (temperature : jarray T),
     jl_wlc_isotensional.end_to_end_length number_of_links link_length persistance_length force temperature
     = broadcast [UInt8; Float64; Float64; Float64; Float64] (fun number_of_links link_length persistance_length force temperature =>
         Finished (wlc_isotensional.end_to_end_length number_of_links link_length persistance_length force temperature)) number_of_links link_length persistance_length force temperature)
  /\ (forall (number_of_links : jarray Z) (link_length : jarray T) (persistance_length : jarray T) (force : jarray T) (temperature : jarray T),
     jl_wlc_isotensional.end_to_end_length_per_link number_of_links link_length persistance_length force temperature
     = broadcast [UInt8; Float64; Float64; Float64; Float64] (fun number_of_links link_length persistance_length force temperature =>
         Finished (wlc_isotensional.end_to_end_length_per_link number_of_links link_length persistance_length force temperature)) number_of_links link_length persistance_length force temperature)
  /\ (forall (number_of_links : jarray Z) (nondimensional_persistance_length : jarray T) (nondimensional_force : jarray T),
     jl_wlc_isotensional.nondimensional_end_to_end_length number_of_links nondimensional_persistance_length nondimensional_force
     = broadcast [UInt8; Float64; Float64] (fun number_of_links nondimensional_persistance_length nondimensional_force =>
         Finished (wlc_isotensional.nondimensional_end_to_end_length number_of_links nondimensional_persistance_length nondimensional_force)) number_of_links nondimensional_persistance_length nondimensional_force)
  /\ (forall (number_of_links : jarray Z) (nondimensional_persistance_length : jarray T) (nondimensional_force : jarray T),
     jl_wlc_isotensional.nondimensional_end_to_end_length_per_link number_of_links nondimensional_persistance_length nondimensional_force
     = broadcast [UInt8; Float64; Float64] (fun number_of_links nondimensional_persistance_length nondimensional_force =>
         Finished (wlc_isotensional.nondimensional_end_to_end_length_per_link number_of_links nondimensional_persistance_length nondimensional_force)) number_of_links nondimensional_persistance_length nondimensional_force)
  /\ (forall (number_of_links : jarray Z) (link_length : jarray T) (hinge_mass : jarray T) (persistance_length : jarray T) (force : jarray T) (temperature : jarray T),
     jl_wlc_isotensional.gibbs_free_energy number_of_links link_length hinge_mass persistance_length force temperature
     = broadcast [UInt8; Float64; Float64; Float64; Float64; Float64] (fun number_of_links link_length hinge_mass persistance_length force temperature =>
         Finished (wlc_isotensional.gibbs_free_energy number_of_links link_length hinge_mass persistance_length force temperature)) number_of_links link_length hinge_mass persistance_length force temperature)
  /\ (forall (number_of_links : jarray Z) (link_length : jarray T) (hinge_mass : jarray T) (persistance_length : jarray T) (force : jarray T) (temperature : jarray T),
     jl_wlc_isotensional.gibbs_free_energy_per_link number_of_links link_length hinge_mass persistance_length force temperature
     = broadcast [UInt8; Float64; Float64; Float64; Float64; Float64] (fun number_of_links link_length hinge_mass persistance_length force temperature =>
         Finished (wlc_isotensional.gibbs_free_energy_per_link number_of_links link_length hinge_mass persistance_length force temperature)) number_of_links link_length hinge_mass persistance_length force temperature)
  /\ (forall (number_of_links : jarray Z) (link_length : jarray T) (persistance_length : jarray T) (force : jarray T) (temperature : jarray T),
     jl_wlc_isotensional.relative_gibbs_free_energy number_of_links link_length persistance_length force temperature
     = broadcast [UInt8; Float64; Float64; Float64; Float64] (fun number_of_links link_length persistance_length force temperature =>
         Finished (wlc_isotensional.relative_gibbs_free_energy number_of_links link_length persistance_length force temperature)) number_of_links link_length persistance_length force temperature)
  /\ (forall (number_of_links : jarray Z) (link_length : jarray T) (persistance_length : jarray T) (force : jarray T) (temperature : jarray T),
     jl_wlc_isotensional.relative_gibbs_free_energy_per_link number_of_links link_length persistance_length force temperature
     = broadcast [UInt8; Float64; Float64; Float64; Float64] (fun number_of_links link_length persistance_length force temperature =>
         Finished (wlc_isotensional.relative_gibbs_free_energy_per_link number_of_links link_length persistance_length force temperature)) number_of_links link_length persistance_length force temperature)
  /\ (forall (number_of_links : jarray Z) (link_length : jarray T) (hinge_mass : jarray T) (nondimensional_persistance_length : jarray T) (nondimensional_force : jarray T) (temperature : jarray T),
     jl_wlc_isotensional.nondimensional_gibbs_free_energy number_of_links link_length hinge_mass nondimensional_persistance_length nondimensional_force temperature
     = broadcast [UInt8; Float64; Float64; Float64; Float64; Float64] (fun number_of_links link_length hinge_mass nondimensional_persistance_length nondimensional_force temperature =>
         Finished (wlc_isotensional.nondimensional_gibbs_free_energy number_of_links link_length hinge_mass nondimensional_persistance_length nondimensional_force temperature)) number_of_links link_length hinge_mass nondimensional_persistance_length nondimensional_force temperature)
  /\ (forall (number_of_links : jarray Z) (link_length : jarray T) (hinge_mass : jarray T) (nondimensional_persistance_length : jarray T) (nondimensional_force : jarray T) (temperature : jarray T),
     jl_wlc_isotensional.nondimensional_gibbs_free_energy_per_link number_of_links link_length hinge_mass nondimensional_persistance_length nondimensional_force temperature
     = broadcast [UInt8; Float64; Float64; Float64; Float64; Float64] (fun number_of_links link_length hinge_mass nondimensional_persistance_length nondimensional_force temperature =>
         Finished (wlc_isotensional.nondimensional_gibbs_free_energy_per_link number_of_links link_length hinge_mass nondimensional_persistance_length nondimensional_force temperature)) number_of_links link_length hinge_mass nondimensional_persistance_length nondimensional_force temperature)
  /\ (forall (number_of_links : jarray Z) (nondimensional_persistance_length : jarray T) (nondimensional_force : jarray T),
     jl_wlc_isotensional.nondimensional_relative_gibbs_free_energy number_of_links nondimensional_persistance_length nondimensional_force
     = broadcast [UInt8; Float64; Float64] (fun number_of_links nondimensional_persistance_length nondimensional_force =>
         Finished (wlc_isotensional.nondimensional_relative_gibbs_free_energy number_of_links nondimensional_persistance_length nondimensional_force)) number_of_links nondimensional_persistance_length nondimensional_force)
  /\ (forall (number_of_links : jarray Z) (nondimensional_persistance_length : jarray T) (nondimensional_force : jarray T),
     jl_wlc_isotensional.nondimensional_relative_gibbs_free_energy_per_link number_of_links nondimensional_persistance_length nondimensional_force
     = broadcast [UInt8; Float64; Float64] (fun number_of_links nondimensional_persistance_length nondimensional_force =>
         Finished (wlc_isotensional.nondimensional_relative_gibbs_free_energy_per_link number_of_links nondimensional_persistance_length nondimensional_force)) number_of_links nondimensional_persistance_length nondimensional_force).
Proof.
  exact (fun T Sc => conj (@F_wlc_isotensional_end_to_end_length T Sc)
    (conj (@F_wlc_isotensional_end_to_end_length_per_link T Sc)
    (conj (@F_wlc_isotensional_nondimensional_end_to_end_length T Sc)
    (conj (@F_wlc_isotensional_nondimensional_end_to_end_length_per_link T Sc)
    (conj (@F_wlc_isotensional_gibbs_free_energy T Sc)
    (conj (@F_wlc_isotensional_gibbs_free_energy_per_link T Sc)
    (conj (@F_wlc_isotensional_relative_gibbs_free_energy T Sc)
    (conj (@F_wlc_isotensional_relative_gibbs_free_energy_per_link T Sc)
    (conj (@F_wlc_isotensional_nondimensional_gibbs_free_energy T Sc)
    (conj (@F_wlc_isotensional_nondimensional_gibbs_free_energy_per_link T Sc)
    (conj (@F_wlc_isotensional_nondimensional_relative_gibbs_free_energy T Sc)
    (@F_wlc_isotensional_nondimensional_relative_gibbs_free_energy_per_link T Sc)))))))))))).
Qed.
Print Assumptions C61_functions_wlc_isotensional.

Theorem C61_object_wlc_isotensional : forall (T : Type) (Sc : Scalar T) (number_of_links : Z) (link_length : T) (hinge_mass : T) (persistance_length : T),
  let j := J_wlc_isotensional.init number_of_links link_length hinge_mass persistance_length in
  let r := O_wlc_isotensional.init number_of_links link_length hinge_mass persistance_length in
  J_wlc_isotensional.number_of_links j = O_wlc_isotensional.number_of_links r
  /\ J_wlc_isotensional.link_length j = O_wlc_isotensional.link_length r
  /\ J_wlc_isotensional.hinge_mass j = O_wlc_isotensional.hinge_mass r
  /\ J_wlc_isotensional.persistance_length j = O_wlc_isotensional.persistance_length r
  /\ J_wlc_isotensional.nondimensional_persistance_length j = O_wlc_isotensional.nondimensional_persistance_length r
  /\ J_wlc_isotensional.legendre j = J_wlc_isotensional_legendre.init number_of_links link_length hinge_mass persistance_length
  /\ (forall (force : jarray T) (temperature : jarray T),
     J_wlc_isotensional.end_to_end_length j force temperature
     = broadcast [Float64; Float64] (fun force temperature =>
         Finished (O_wlc_isotensional.end_to_end_length r force temperature)) force temperature)
  /\ (forall (force : jarray T) (temperature : jarray T),
     J_wlc_isotensional.end_to_end_length_per_link j force temperature
     = broadcast [Float64; Float64] (fun force temperature =>
         Finished (O_wlc_isotensional.end_to_end_length_per_link r force temperature)) force temperature)
  /\ (forall (nondimensional_force : jarray T),
     J_wlc_isotensional.nondimensional_end_to_end_length j nondimensional_force
     = broadcast [Float64] (fun nondimensional_force =>
         Finished (O_wlc_isotensional.nondimensional_end_to_end_length r nondimensional_force)) nondimensional_force)
  /\ (forall (nondimensional_force : jarray T),
     J_wlc_isotensional.nondimensional_end_to_end_length_per_link j nondimensional_force
     = broadcast [Float64] (fun nondimensional_force =>
         Finished (O_wlc_isotensional.nondimensional_end_to_end_length_per_link r nondimensional_force)) nondimensional_force)
  /\ (forall (force : jarray T) (temperature : jarray T),
     J_wlc_isotensional.gibbs_free_energy j force temperature
     = broadcast [Float64; Float64] (fun force temperature =>
         Finished (O_wlc_isotensional.gibbs_free_energy r force temperature)) force temperature)
  /\ (forall (force : jarray T) (temperature : jarray T),
     J_wlc_isotensional.gibbs_free_energy_per_link j force temperature
     = broadcast [Float64; Float64] (fun force temperature =>
         Finished (O_wlc_isotensional.gibbs_free_energy_per_link r force temperature)) force temperature)
  /\ (forall (force : jarray T) (temperature : jarray T),
     J_wlc_isotensional.relative_gibbs_free_energy j force temperature
     = broadcast [Float64; Float64] (fun force temperature =>
         Finished (O_wlc_isotensional.relative_gibbs_free_energy r force temperature)) force temperature)
  /\ (forall (force : jarray T) (temperature : jarray T),
     J_wlc_isotensional.relative_gibbs_free_energy_per_link j force temperature
     = broadcast [Float64; Float64] (fun force temperature =>
         Finished (O_wlc_isotensional.relative_gibbs_free_energy_per_link r force temperature)) force temperature)
  /\ (forall (nondimensional_force : jarray T) (temperature : jarray T),
     J_wlc_isotensional.nondimensional_gibbs_free_energy j nondimensional_force temperature
     = broadcast [Float64; Float64] (fun nondimensional_force temperature =>
         Finished (O_wlc_isotensional.nondimensional_gibbs_free_energy r nondimensional_force temperature)) nondimensional_force temperature)
  /\ (forall (nondimensional_force : jarray T) (temperature : jarray T),
     J_wlc_isotensional.nondimensional_gibbs_free_energy_per_link j nondimensional_force temperature
     = broadcast [Float64; Float64] (fun nondimensional_force temperature =>
         Finished (O_wlc_isotensional.nondimensional_gibbs_free_energy_per_link r nondimensional_force temperature)) nondimensional_force temperature)
  /\ (forall (nondimensional_force : jarray T),
     J_wlc_isotensional.nondimensional_relative_gibbs_free_energy j nondimensional_force
     = broadcast [Float64] (fun nondimensional_force =>
         Finished (O_wlc_isotensional.nondimensional_relative_gibbs_free_energy r nondimensional_force)) nondimensional_force)
  /\ (forall (nondimensional_force : jarray T),
     J_wlc_isotensional.nondimensional_relative_gibbs_free_energy_per_link j nondimensional_force
     = broadcast [Float64] (fun nondimensional_force =>
         Finished (O_wlc_isotensional.nondimensional_relative_gibbs_free_energy_per_link r nondimensional_force)) nondimensional_force).
Proof. intros T Sc number_of_links link_length hinge_mass persistance_length j r.
  split; [reflexivity|].
  split; [reflexivity|].
  split; [reflexivity|].
  split; [reflexivity|].
  split; [reflexivity|].
  split; [reflexivity|].
  split; [intros; cbv [j J_wlc_isotensional.init J_wlc_isotensional.end_to_end_length]; rewrite F_wlc_isotensional_end_to_end_length; unfold O_wlc_isotensional.end_to_end_length; broadcast_numbers|].
  split; [intros; cbv [j J_wlc_isotensional.init J_wlc_isotensional.end_to_end_length_per_link]; rewrite F_wlc_isotensional_end_to_end_length_per_link; unfold O_wlc_isotensional.end_to_end_length_per_link; broadcast_numbers|].
  split; [intros; cbv [j J_wlc_isotensional.init J_wlc_isotensional.nondimensional_end_to_end_length]; rewrite F_wlc_isotensional_nondimensional_end_to_end_length; unfold O_wlc_isotensional.nondimensional_end_to_end_length; broadcast_numbers|].
  split; [intros; cbv [j J_wlc_isotensional.init J_wlc_isotensional.nondimensional_end_to_end_length_per_link]; rewrite F_wlc_isotensional_nondimensional_end_to_end_length_per_link; unfold O_wlc_isotensional.nondimensional_end_to_end_length_per_link; broadcast_numbers|].
  split; [intros; cbv [j J_wlc_isotensional.init J_wlc_isotensional.gibbs_free_energy]; rewrite F_wlc_isotensional_gibbs_free_energy; unfold O_wlc_isotensional.gibbs_free_energy; broadcast_numbers|].
  split; [intros; cbv [j J_wlc_isotensional.init J_wlc_isotensional.gibbs_free_energy_per_link]; rewrite F_wlc_isotensional_gibbs_free_energy_per_link; unfold O_wlc_isotensional.gibbs_free_energy_per_link; broadcast_numbers|].
  split; [intros; cbv [j J_wlc_isotensional.init J_wlc_isotensional.relative_gibbs_free_energy]; rewrite F_wlc_isotensional_relative_gibbs_free_energy; unfold O_wlc_isotensional.relative_gibbs_free_energy; broadcast_numbers|].
  split; [intros; cbv [j J_wlc_isotensional.init J_wlc_isotensional.relative_gibbs_free_energy_per_link]; rewrite F_wlc_isotensional_relative_gibbs_free_energy_per_link; unfold O_wlc_isotensional.relative_gibbs_free_energy_per_link; broadcast_numbers|].
  split; [intros; cbv [j J_wlc_isotensional.init J_wlc_isotensional.nondimensional_gibbs_free_energy]; rewrite F_wlc_isotensional_nondimensional_gibbs_free_energy; unfold O_wlc_isotensional.nondimensional_gibbs_free_energy; broadcast_numbers|].
  split; [intros; cbv [j J_wlc_isotensional.init J_wlc_isotensional.nondimensional_gibbs_free_energy_per_link]; rewrite F_wlc_isotensional_nondimensional_gibbs_free_energy_per_link; unfold O_wlc_isotensional.nondimensional_gibbs_free_energy_per_link; broadcast_numbers|].
  split; [intros; cbv [j J_wlc_isotensional.init J_wlc_isotensional.nondimensional_relative_gibbs_free_energy]; rewrite F_wlc_isotensional_nondimensional_relative_gibbs_free_energy; unfold O_wlc_isotensional.nondimensional_relative_gibbs_free_energy; broadcast_numbers|].
  intros; cbv [j J_wlc_isotensional.init J_wlc_isotensional.nondimensional_relative_gibbs_free_energy_per_link]; rewrite F_wlc_isotensional_nondimensional_relative_gibbs_free_energy_per_link; unfold O_wlc_isotensional.nondimensional_relative_gibbs_free_energy_per_link; broadcast_numbers.
Qed.
Print Assumptions C61_object_wlc_isotensional.

Theorem C61_object_efjc_thermodynamics : forall (T : Type) (Sc : Scalar T) (number_of_links : Z) (link_length : T) (hinge_mass : T) (link_stiffness : T),
  let j := J_efjc_thermodynamics.init number_of_links link_length hinge_mass link_stiffness in
  let r := O_efjc_thermodynamics.init number_of_links link_length hinge_mass link_stiffness in
  J_efjc_thermodynamics.number_of_links j = O_efjc_thermodynamics.number_of_links r
  /\ J_efjc_thermodynamics.link_length j = O_efjc_thermodynamics.link_length r
  /\ J_efjc_thermodynamics.hinge_mass j = O_efjc_thermodynamics.hinge_mass r
  /\ J_efjc_thermodynamics.link_stiffness j = O_efjc_thermodynamics.link_stiffness r
  /\ J_efjc_thermodynamics.isometric j = J_efjc_isometric.init number_of_links link_length hinge_mass link_stiffness
  /\ J_efjc_thermodynamics.isotensional j = J_efjc_isotensional.init number_of_links link_length hinge_mass link_stiffness.
Proof. intros T Sc number_of_links link_length hinge_mass link_stiffness j r.
  split; [reflexivity|].
  split; [reflexivity|].
  split; [reflexivity|].
  split; [reflexivity|].
  split; [reflexivity|].
  reflexivity.
Qed.
Print Assumptions C61_object_efjc_thermodynamics.

Theorem C61_object_fjc_thermodynamics : forall (prof : profile) (number_of_links : Z) (link_length : R) (hinge_mass : R),
  exists j, J_fjc_thermodynamics.init prof number_of_links link_length hinge_mass = Finished (Some j) /\
  let r := O_fjc_thermodynamics.init number_of_links link_length hinge_mass in
  J_fjc_thermodynamics.number_of_links j = O_fjc_thermodynamics.number_of_links r
  /\ J_fjc_thermodynamics.link_length j = O_fjc_thermodynamics.link_length r
  /\ J_fjc_thermodynamics.hinge_mass j = O_fjc_thermodynamics.hinge_mass r
  /\ J_fjc_isometric.init prof number_of_links link_length hinge_mass = Finished (Some (J_fjc_thermodynamics.isometric j))
  /\ J_fjc_thermodynamics.isotensional j = J_fjc_isotensional.init number_of_links link_length hinge_mass
  /\ J_fjc_thermodynamics.modified_canonical j = J_fjc_modified_canonical.init prof number_of_links link_length hinge_mass.
Proof.
  intros prof number_of_links link_length hinge_mass.
  destruct (C61_object_fjc_isometric prof number_of_links link_length hinge_mass) as (sub & H & _).
  eexists; split.
  { unfold J_fjc_thermodynamics.init.
    rewrite H.
    reflexivity. }
  intros r.
  split; [reflexivity|].
  split; [reflexivity|].
  split; [reflexivity|].
  split; [exact H|].
  split; [reflexivity|].
  reflexivity.
Qed.
Print Assumptions C61_object_fjc_thermodynamics.

Theorem C61_object_ideal_thermodynamics : forall (T : Type) (Sc : Scalar T) (number_of_links : Z) (link_length : T) (hinge_mass : T),
  let j := J_ideal_thermodynamics.init number_of_links link_length hinge_mass in
  let r := O_ideal_thermodynamics.init number_of_links link_length hinge_mass in
  J_ideal_thermodynamics.number_of_links j = O_ideal_thermodynamics.number_of_links r
  /\ J_ideal_thermodynamics.link_length j = O_ideal_thermodynamics.link_length r
  /\ J_ideal_thermodynamics.hinge_mass j = O_ideal_thermodynamics.hinge_mass r
  /\ J_ideal_thermodynamics.isometric j = J_ideal_isometric.init number_of_links link_length hinge_mass
  /\ J_ideal_thermodynamics.isotensional j = J_ideal_isotensional.init number_of_links link_length hinge_mass.
Proof. intros T Sc number_of_links link_length hinge_mass j r.
  split; [reflexivity|].
  split; [reflexivity|].
  split; [reflexivity|].
  split; [reflexivity|].
  reflexivity.
Qed.
Print Assumptions C61_object_ideal_thermodynamics.

Theorem C61_object_swfjc_thermodynamics : forall (number_of_links : Z) (link_length : R) (hinge_mass : R) (well_width : R),
  exists j, J_swfjc_thermodynamics.init number_of_links link_length hinge_mass well_width = Finished (Some j) /\
  let r := O_swfjc_thermodynamics.init number_of_links link_length hinge_mass well_width in
  J_swfjc_thermodynamics.number_of_links j = O_swfjc_thermodynamics.number_of_links r
  /\ J_swfjc_thermodynamics.link_length j = O_swfjc_thermodynamics.link_length r
  /\ J_swfjc_thermodynamics.hinge_mass j = O_swfjc_thermodynamics.hinge_mass r
  /\ J_swfjc_thermodynamics.well_width j = O_swfjc_thermodynamics.well_width r
  /\ J_swfjc_isometric.init number_of_links link_length hinge_mass well_width = Finished (Some (J_swfjc_thermodynamics.isometric j))
  /\ J_swfjc_thermodynamics.isotensional j = J_swfjc_isotensional.init number_of_links link_length hinge_mass well_width.
Proof.
  intros number_of_links link_length hinge_mass well_width.
  destruct (C61_object_swfjc_isometric number_of_links link_length hinge_mass well_width) as (sub & H & _).
  eexists; split.
  { unfold J_swfjc_thermodynamics.init.
    rewrite H.
    reflexivity. }
  intros r.
  split; [reflexivity|].
  split; [reflexivity|].
  split; [reflexivity|].
  split; [reflexivity|].
  split; [exact H|].
  reflexivity.
Qed.
Print Assumptions C61_object_swfjc_thermodynamics.

Theorem C61_object_lennard_jones : forall (T : Type) (Sc : Scalar T) (number_of_links : Z) (link_length : T) (hinge_mass : T) (link_stiffness : T),
  let j := J_lennard_jones.init number_of_links link_length hinge_mass link_stiffness in
  let r := O_lennard_jones.init number_of_links link_length hinge_mass link_stiffness in
  J_lennard_jones.number_of_links j = O_lennard_jones.number_of_links r
  /\ J_lennard_jones.link_length j = O_lennard_jones.link_length r
  /\ J_lennard_jones.hinge_mass j = O_lennard_jones.hinge_mass r
  /\ J_lennard_jones.link_stiffness j = O_lennard_jones.link_stiffness r
  /\ J_lennard_jones.thermodynamics j = J_lennard_jones_thermodynamics.init number_of_links link_length hinge_mass link_stiffness.
Proof. intros T Sc number_of_links link_length hinge_mass link_stiffness j r.
  split; [reflexivity|].
  split; [reflexivity|].
  split; [reflexivity|].
  split; [reflexivity|].
  reflexivity.
Qed.
Print Assumptions C61_object_lennard_jones.

Theorem C61_object_log_squared : forall (T : Type) (Sc : Scalar T) (number_of_links : Z) (link_length : T) (hinge_mass : T) (link_stiffness : T),
  let j := J_log_squared.init number_of_links link_length hinge_mass link_stiffness in
  let r := O_log_squared.init number_of_links link_length hinge_mass link_stiffness in
  J_log_squared.number_of_links j = O_log_squared.number_of_links r
  /\ J_log_squared.link_length j = O_log_squared.link_length r
  /\ J_log_squared.hinge_mass j = O_log_squared.hinge_mass r
  /\ J_log_squared.link_stiffness j = O_log_squared.link_stiffness r
  /\ J_log_squared.thermodynamics j = J_log_squared_thermodynamics.init number_of_links link_length hinge_mass link_stiffness.
Proof. intros T Sc number_of_links link_length hinge_mass link_stiffness j r.
  split; [reflexivity|].
  split; [reflexivity|].
  split; [reflexivity|].
  split; [reflexivity|].
  reflexivity.
Qed.
Print Assumptions C61_object_log_squared.

Theorem C61_object_morse : forall (T : Type) (Sc : Scalar T) (number_of_links : Z) (link_length : T) (hinge_mass : T) (link_stiffness : T) (link_energy : T),
  let j := J_morse.init number_of_links link_length hinge_mass link_stiffness link_energy in
  let r := O_morse.init number_of_links link_length hinge_mass link_stiffness link_energy in
  J_morse.number_of_links j = O_morse.number_of_links r
  /\ J_morse.link_length j = O_morse.link_length r
  /\ J_morse.hinge_mass j = O_morse.hinge_mass r
  /\ J_morse.link_stiffness j = O_morse.link_stiffness r
  /\ J_morse.link_energy j = O_morse.link_energy r
  /\ J_morse.thermodynamics j = J_morse_thermodynamics.init number_of_links link_length hinge_mass link_stiffness link_energy.
Proof. intros T Sc number_of_links link_length hinge_mass link_stiffness link_energy j r.
  split; [reflexivity|].
  split; [reflexivity|].
  split; [reflexivity|].
  split; [reflexivity|].
  split; [reflexivity|].
  reflexivity.
Qed.
Print Assumptions C61_object_morse.

Theorem C61_object_efjc : forall (T : Type) (Sc : Scalar T) (number_of_links : Z) (link_length : T) (hinge_mass : T) (link_stiffness : T),
  let j := J_efjc.init number_of_links link_length hinge_mass link_stiffness in
  let r := O_efjc.init number_of_links link_length hinge_mass link_stiffness in
  J_efjc.number_of_links j = O_efjc.number_of_links r
  /\ J_efjc.link_length j = O_efjc.link_length r
  /\ J_efjc.hinge_mass j = O_efjc.hinge_mass r
  /\ J_efjc.link_stiffness j = O_efjc.link_stiffness r
  /\ J_efjc.thermodynamics j = J_efjc_thermodynamics.init number_of_links link_length hinge_mass link_stiffness.
Proof. intros T Sc number_of_links link_length hinge_mass link_stiffness j r.
  split; [reflexivity|].
  split; [reflexivity|].
  split; [reflexivity|].
  split; [reflexivity|].
  reflexivity.
Qed.
Print Assumptions C61_object_efjc.

Theorem C61_object_fjc : forall (prof : profile) (number_of_links : Z) (link_length : R) (hinge_mass : R),
  exists j, J_fjc.init prof number_of_links link_length hinge_mass = Finished (Some j) /\
  let r := O_fjc.init number_of_links link_length hinge_mass in
  J_fjc.number_of_links j = O_fjc.number_of_links r
  /\ J_fjc.link_length j = O_fjc.link_length r
  /\ J_fjc.hinge_mass j = O_fjc.hinge_mass r
  /\ J_fjc_thermodynamics.init prof number_of_links link_length hinge_mass = Finished (Some (J_fjc.thermodynamics j)).
Proof.
  intros prof number_of_links link_length hinge_mass.
  destruct (C61_object_fjc_thermodynamics prof number_of_links link_length hinge_mass) as (sub & H & _).
  eexists; split.
  { unfold J_fjc.init.
    rewrite H.
    reflexivity. }
  intros r.
  split; [reflexivity|].
  split; [reflexivity|].
  split; [reflexivity|].
  exact H.
Qed.
Print Assumptions C61_object_fjc.

Theorem C61_object_ideal : forall (T : Type) (Sc : Scalar T) (number_of_links : Z) (link_length : T) (hinge_mass : T),
  let j := J_ideal.init number_of_links link_length hinge_mass in
  let r := O_ideal.init number_of_links link_length hinge_mass in
  J_ideal.number_of_links j = O_ideal.number_of_links r
  /\ J_ideal.link_length j = O_ideal.link_length r
  /\ J_ideal.hinge_mass j = O_ideal.hinge_mass r
  /\ J_ideal.thermodynamics j = J_ideal_thermodynamics.init number_of_links link_length hinge_mass.
Proof. intros T Sc number_of_links link_length hinge_mass j r.
  split; [reflexivity|].
  split; [reflexivity|].
  split; [reflexivity|].
  reflexivity.
Qed.
Print Assumptions C61_object_ideal.

Theorem C61_object_swfjc : forall (number_of_links : Z) (link_length : R) (hinge_mass : R) (well_width : R),
  exists j, J_swfjc.init number_of_links link_length hinge_mass well_width = Finished (Some j) /\
  let r := O_swfjc.init number_of_links link_length hinge_mass well_width in
  J_swfjc.number_of_links j = O_swfjc.number_of_links r
  /\ J_swfjc.link_length j = O_swfjc.link_length r
  /\ J_swfjc.hinge_mass j = O_swfjc.hinge_mass r
  /\ J_swfjc.well_width j = O_swfjc.well_width r
  /\ J_swfjc_thermodynamics.init number_of_links link_length hinge_mass well_width = Finished (Some (J_swfjc.thermodynamics j)).
Proof.
  intros number_of_links link_length hinge_mass well_width.
  destruct (C61_object_swfjc_thermodynamics number_of_links link_length hinge_mass well_width) as (sub & H & _).
  eexists; split.
  { unfold J_swfjc.init.
    rewrite H.
    reflexivity. }
  intros r.
  split; [reflexivity|].
  split; [reflexivity|].
  split; [reflexivity|].
  split; [reflexivity|].
  exact H.
Qed.
Print Assumptions C61_object_swfjc.

(** One Rust method repeats the formula of the free function that Julia calls; the two
    agree over the reals for every link length, stiffness and temperature other than zero. *)
Theorem C61_efjc_isotensional_asymptotic_legendre_per_link :
  forall (number_of_links : Z) (link_length hinge_mass link_stiffness temperature : R)
    (nondimensional_force : jarray R) out,
  link_length <> 0%R -> link_stiffness <> 0%R -> temperature <> 0%R ->
  J_efjc_isotensional_asymptotic_legendre.nondimensional_helmholtz_free_energy_per_link
    (J_efjc_isotensional_asymptotic_legendre.init number_of_links link_length hinge_mass link_stiffness)
    nondimensional_force temperature = Some out ->
  dims out = dims nondimensional_force /\
  forall index, valid index (dims out) ->
  at_ out index = Finished (Some
    (O_efjc_isotensional_asymptotic_legendre.nondimensional_helmholtz_free_energy_per_link
      (O_efjc_isotensional_asymptotic_legendre.init number_of_links link_length hinge_mass link_stiffness)
      (at_ nondimensional_force index) temperature)).
Proof. exact efjc_per_link. Qed.
Print Assumptions C61_efjc_isotensional_asymptotic_legendre_per_link.

(** ** What [broadcast] does *)

(** For any number of arguments and any function of numbers, [broadcast] is the broadcast of
    that function over the arguments, as SpecJulia.v describes it: it fails exactly when the
    sizes of two arguments clash along a dimension, and otherwise gives, at each index, the
    function of the entries that meet there. *)
Theorem C61_broadcast : forall (T r : Type) (s : list ctype) (f : cfun (T := T) s r) (a : arrays s),
  broadcasts s f a (apply_arrays s (broadcast s f) a).
Proof. exact (fun T r s f a => broadcast_broadcasts r s f a). Qed.
Print Assumptions C61_broadcast.

(** The failure is real: arguments that clash are never broadcast. *)
Theorem C61_broadcast_fails : forall (T r : Type) (s : list ctype) (f : cfun (T := T) s r) (a : arrays s) d1 d2,
  In d1 (shapes s a) -> In d2 (shapes s a) -> clash d1 d2 ->
  apply_arrays s (broadcast s f) a = None.
Proof. exact (fun T r s f a => broadcast_clash r s f a). Qed.
Print Assumptions C61_broadcast_fails.

(** The entry that meets an index is the number itself for a number, and the entry at that
    index for an array of the shape of the result. *)
Theorem C61_entries :
  (forall index own, meets index own [] -> own = [])
  /\ (forall index own d, valid index d -> meets index own d -> own = index).
Proof. exact (conj meets_number meets_same). Qed.
Print Assumptions C61_entries.

(** ** The worm-like chain *)

(** Two functions of the isometric worm-like chain declare one parameter more than the C
    function has, a leading UInt8: such a call has undefined behaviour.  (On x86-64 systems
    that pass integers and floating-point numbers in separate registers it may go unnoticed;
    where all arguments share their positions, as on Windows, the function reads the wrong
    ones.) *)
Theorem C61_wlc_distributions_refuted :
  forall (T : Type) (Sc : Scalar T) (number_of_links : jarray Z)
    (nondimensional_persistance_length : jarray T) (normalization_nondimensional_equilibrium_distribution : T)
    (nondimensional_end_to_end_length_per_link : jarray T) out index,
  (jl_wlc_isometric.nondimensional_equilibrium_distribution number_of_links
     nondimensional_persistance_length normalization_nondimensional_equilibrium_distribution
     nondimensional_end_to_end_length_per_link = Some out -> at_ out index = Undefined)
  /\ (jl_wlc_isometric.nondimensional_equilibrium_radial_distribution number_of_links
     nondimensional_persistance_length normalization_nondimensional_equilibrium_distribution
     nondimensional_end_to_end_length_per_link = Some out -> at_ out index = Undefined).
Proof. exact wlc_distributions. Qed.
Print Assumptions C61_wlc_distributions_refuted.

(** The constructor of the isometric worm-like chain integrates one of them, so that no
    worm-like chain can be constructed from Julia without undefined behaviour, whatever its
    parameters. *)
Theorem C61_wlc_constructors_refuted :
  forall (T : Type) (Sc : Scalar T) (prof : profile) (number_of_links : Z) (link_length hinge_mass persistance_length : T),
  J_wlc_isometric.init number_of_links link_length hinge_mass persistance_length = Undefined
  /\ J_wlc_thermodynamics.init number_of_links link_length hinge_mass persistance_length = Undefined
  /\ J_wlc.init number_of_links link_length hinge_mass persistance_length = Undefined.
Proof. exact wlc_constructors. Qed.
Print Assumptions C61_wlc_constructors_refuted.

(** ** Examples *)

(** A vector of two forces with one temperature: the Langevin extension at each. *)
Example julia_vector : forall (number_of_links : Z) (link_length hinge_mass f1 f2 temperature : R),
  let j := J_fjc_isotensional.init number_of_links link_length hinge_mass in
  let r := O_fjc_isotensional.init number_of_links link_length hinge_mass in
  exists out,
    J_fjc_isotensional.end_to_end_length j
      {| dims := [2%nat]; at_ := fun index => if Nat.eqb (hd O index) O then f1 else f2 |} (MJuliaBase.num temperature) = Some out
    /\ dims out = [2%nat]
    /\ at_ out [0%nat] = Finished (Some (O_fjc_isotensional.end_to_end_length r f1 temperature))
    /\ at_ out [1%nat] = Finished (Some (O_fjc_isotensional.end_to_end_length r f2 temperature)).
Proof. exact vector_of_forces. Qed.

(** A vector of two forces and one of three temperatures clash. *)
Example julia_mismatch : forall (number_of_links : Z) (link_length hinge_mass : R) f t,
  J_fjc_isotensional.end_to_end_length (J_fjc_isotensional.init number_of_links link_length hinge_mass)
    {| dims := [2%nat]; at_ := f |} {| dims := [3%nat]; at_ := t |} = None.
Proof. exact vectors_clash. Qed.

(** A column of two forces and a row of three temperatures make a matrix. *)
Example julia_outer : forall (number_of_links : Z) (link_length hinge_mass : R) f t,
  exists out,
    J_fjc_isotensional.end_to_end_length (J_fjc_isotensional.init number_of_links link_length hinge_mass)
      {| dims := [2%nat]; at_ := f |} {| dims := [1%nat; 3%nat]; at_ := t |} = Some out
    /\ dims out = [2%nat; 3%nat]
    /\ at_ out [1%nat; 2%nat] = Finished (Some
         (O_fjc_isotensional.end_to_end_length (O_fjc_isotensional.init number_of_links link_length hinge_mass)
           (f [1%nat]) (t [0%nat; 2%nat]))).
Proof. exact outer_product. Qed.
