(** What each Julia function returns.  Written by tools/gen_julia.py. *)
Require Import Verif.Scalar Verif.MConst Verif.MMath Verif.MBindConstitutive Verif.MExtern Verif.MJuliaBase.
Require Import Verif.MIdeal Verif.MFjc Verif.MSwfjc Verif.MEfjc Verif.MMorse Verif.MLennardJones Verif.MLogSquared Verif.MWlc Verif.MJulia.
Require Import ZArith List.
Import ListNotations.

Lemma F_lennard_jones_isometric_asymptotic_reduced_legendre_force : forall (T : Type) (Sc : Scalar T) (number_of_links : jarray Z) (link_length : jarray T) (link_stiffness : jarray T) (end_to_end_length : jarray T) (temperature : jarray T),
     jl_lennard_jones_isometric_asymptotic_reduced_legendre.force number_of_links link_length link_stiffness end_to_end_length temperature
     = broadcast [UInt8; Float64; Float64; Float64; Float64] (fun number_of_links link_length link_stiffness end_to_end_length temperature =>
         Finished (Some (lennard_jones_isometric_asymptotic_reduced_legendre.force number_of_links link_length link_stiffness end_to_end_length temperature))) number_of_links link_length link_stiffness end_to_end_length temperature.
Proof. reflexivity. Qed.

Lemma F_lennard_jones_isometric_asymptotic_reduced_legendre_nondimensional_force : forall (T : Type) (Sc : Scalar T) (nondimensional_link_stiffness : jarray T) (nondimensional_end_to_end_length_per_link : jarray T),
     jl_lennard_jones_isometric_asymptotic_reduced_legendre.nondimensional_force nondimensional_link_stiffness nondimensional_end_to_end_length_per_link
     = broadcast [Float64; Float64] (fun nondimensional_link_stiffness nondimensional_end_to_end_length_per_link =>
         Finished (Some (lennard_jones_isometric_asymptotic_reduced_legendre.nondimensional_force nondimensional_link_stiffness nondimensional_end_to_end_length_per_link))) nondimensional_link_stiffness nondimensional_end_to_end_length_per_link.
Proof. reflexivity. Qed.

Lemma F_lennard_jones_isometric_asymptotic_reduced_legendre_helmholtz_free_energy : forall (T : Type) (Sc : Scalar T) (number_of_links : jarray Z) (link_length : jarray T) (hinge_mass : jarray T) (link_stiffness : jarray T) (end_to_end_length : jarray T) (temperature : jarray T),
     jl_lennard_jones_isometric_asymptotic_reduced_legendre.helmholtz_free_energy number_of_links link_length hinge_mass link_stiffness end_to_end_length temperature
     = broadcast [UInt8; Float64; Float64; Float64; Float64; Float64] (fun number_of_links link_length hinge_mass link_stiffness end_to_end_length temperature =>
         Finished (Some (lennard_jones_isometric_asymptotic_reduced_legendre.helmholtz_free_energy number_of_links link_length hinge_mass link_stiffness end_to_end_length temperature))) number_of_links link_length hinge_mass link_stiffness end_to_end_length temperature.
Proof. reflexivity. Qed.

Lemma F_lennard_jones_isometric_asymptotic_reduced_legendre_helmholtz_free_energy_per_link : forall (T : Type) (Sc : Scalar T) (number_of_links : jarray Z) (link_length : jarray T) (hinge_mass : jarray T) (link_stiffness : jarray T) (end_to_end_length : jarray T) (temperature : jarray T),
     jl_lennard_jones_isometric_asymptotic_reduced_legendre.helmholtz_free_energy_per_link number_of_links link_length hinge_mass link_stiffness end_to_end_length temperature
     = broadcast [UInt8; Float64; Float64; Float64; Float64; Float64] (fun number_of_links link_length hinge_mass link_stiffness end_to_end_length temperature =>
         Finished (Some (lennard_jones_isometric_asymptotic_reduced_legendre.helmholtz_free_energy_per_link number_of_links link_length hinge_mass link_stiffness end_to_end_length temperature))) number_of_links link_length hinge_mass link_stiffness end_to_end_length temperature.
Proof. reflexivity. Qed.

Lemma F_lennard_jones_isometric_asymptotic_reduced_legendre_relative_helmholtz_free_energy : forall (T : Type) (Sc : Scalar T) (number_of_links : jarray Z) (link_length : jarray T) (link_stiffness : jarray T) (end_to_end_length : jarray T) (temperature : jarray T),
     jl_lennard_jones_isometric_asymptotic_reduced_legendre.relative_helmholtz_free_energy number_of_links link_length link_stiffness end_to_end_length temperature
     = broadcast [UInt8; Float64; Float64; Float64; Float64] (fun number_of_links link_length link_stiffness end_to_end_length temperature =>
         Finished (Some (lennard_jones_isometric_asymptotic_reduced_legendre.relative_helmholtz_free_energy number_of_links link_length link_stiffness end_to_end_length temperature))) number_of_links link_length link_stiffness end_to_end_length temperature.
Proof. reflexivity. Qed.

Lemma F_lennard_jones_isometric_asymptotic_reduced_legendre_relative_helmholtz_free_energy_per_link : forall (T : Type) (Sc : Scalar T) (number_of_links : jarray Z) (link_length : jarray T) (link_stiffness : jarray T) (end_to_end_length : jarray T) (temperature : jarray T),
     jl_lennard_jones_isometric_asymptotic_reduced_legendre.relative_helmholtz_free_energy_per_link number_of_links link_length link_stiffness end_to_end_length temperature
     = broadcast [UInt8; Float64; Float64; Float64; Float64] (fun number_of_links link_length link_stiffness end_to_end_length temperature =>
         Finished (Some (lennard_jones_isometric_asymptotic_reduced_legendre.relative_helmholtz_free_energy_per_link number_of_links link_length link_stiffness end_to_end_length temperature))) number_of_links link_length link_stiffness end_to_end_length temperature.
Proof. reflexivity. Qed.

Lemma F_lennard_jones_isometric_asymptotic_reduced_legendre_nondimensional_helmholtz_free_energy : forall (T : Type) (Sc : Scalar T) (number_of_links : jarray Z) (link_length : jarray T) (hinge_mass : jarray T) (nondimensional_link_stiffness : jarray T) (nondimensional_end_to_end_length_per_link : jarray T) (temperature : jarray T),
     jl_lennard_jones_isometric_asymptotic_reduced_legendre.nondimensional_helmholtz_free_energy number_of_links link_length hinge_mass nondimensional_link_stiffness nondimensional_end_to_end_length_per_link temperature
     = broadcast [UInt8; Float64; Float64; Float64; Float64; Float64] (fun number_of_links link_length hinge_mass nondimensional_link_stiffness nondimensional_end_to_end_length_per_link temperature =>
         Finished (Some (lennard_jones_isometric_asymptotic_reduced_legendre.nondimensional_helmholtz_free_energy number_of_links link_length hinge_mass nondimensional_link_stiffness nondimensional_end_to_end_length_per_link temperature))) number_of_links link_length hinge_mass nondimensional_link_stiffness nondimensional_end_to_end_length_per_link temperature.
Proof. reflexivity. Qed.

Lemma F_lennard_jones_isometric_asymptotic_reduced_legendre_nondimensional_helmholtz_free_energy_per_link : forall (T : Type) (Sc : Scalar T) (number_of_links : jarray Z) (link_length : jarray T) (hinge_mass : jarray T) (nondimensional_link_stiffness : jarray T) (nondimensional_end_to_end_length_per_link : jarray T) (temperature : jarray T),
     jl_lennard_jones_isometric_asymptotic_reduced_legendre.nondimensional_helmholtz_free_energy_per_link number_of_links link_length hinge_mass nondimensional_link_stiffness nondimensional_end_to_end_length_per_link temperature
     = broadcast [UInt8; Float64; Float64; Float64; Float64; Float64] (fun number_of_links link_length hinge_mass nondimensional_link_stiffness nondimensional_end_to_end_length_per_link temperature =>
         Finished (Some (lennard_jones_isometric_asymptotic_reduced_legendre.nondimensional_helmholtz_free_energy_per_link number_of_links link_length hinge_mass nondimensional_link_stiffness nondimensional_end_to_end_length_per_link temperature))) number_of_links link_length hinge_mass nondimensional_link_stiffness nondimensional_end_to_end_length_per_link temperature.
Proof. reflexivity. Qed.

Lemma F_lennard_jones_isometric_asymptotic_reduced_legendre_nondimensional_relative_helmholtz_free_energy : forall (T : Type) (Sc : Scalar T) (number_of_links : jarray Z) (nondimensional_link_stiffness : jarray T) (nondimensional_end_to_end_length_per_link : jarray T),
     jl_lennard_jones_isometric_asymptotic_reduced_legendre.nondimensional_relative_helmholtz_free_energy number_of_links nondimensional_link_stiffness nondimensional_end_to_end_length_per_link
     = broadcast [UInt8; Float64; Float64] (fun number_of_links nondimensional_link_stiffness nondimensional_end_to_end_length_per_link =>
         Finished (Some (lennard_jones_isometric_asymptotic_reduced_legendre.nondimensional_relative_helmholtz_free_energy number_of_links nondimensional_link_stiffness nondimensional_end_to_end_length_per_link))) number_of_links nondimensional_link_stiffness nondimensional_end_to_end_length_per_link.
Proof. reflexivity. Qed.

Lemma F_lennard_jones_isometric_asymptotic_reduced_legendre_nondimensional_relative_helmholtz_free_energy_per_link : forall (T : Type) (Sc : Scalar T) (nondimensional_link_stiffness : jarray T) (nondimensional_end_to_end_length_per_link : jarray T),
     jl_lennard_jones_isometric_asymptotic_reduced_legendre.nondimensional_relative_helmholtz_free_energy_per_link nondimensional_link_stiffness nondimensional_end_to_end_length_per_link
     = broadcast [Float64; Float64] (fun nondimensional_link_stiffness nondimensional_end_to_end_length_per_link =>
         Finished (Some (lennard_jones_isometric_asymptotic_reduced_legendre.nondimensional_relative_helmholtz_free_energy_per_link nondimensional_link_stiffness nondimensional_end_to_end_length_per_link))) nondimensional_link_stiffness nondimensional_end_to_end_length_per_link.
Proof. reflexivity. Qed.

Lemma F_lennard_jones_isotensional_asymptotic_reduced_legendre_helmholtz_free_energy : forall (T : Type) (Sc : Scalar T) (number_of_links : jarray Z) (link_length : jarray T) (hinge_mass : jarray T) (link_stiffness : jarray T) (force : jarray T) (temperature : jarray T),
     jl_lennard_jones_isotensional_asymptotic_reduced_legendre.helmholtz_free_energy number_of_links link_length hinge_mass link_stiffness force temperature
     = broadcast [UInt8; Float64; Float64; Float64; Float64; Float64] (fun number_of_links link_length hinge_mass link_stiffness force temperature =>
         Finished (Some (lennard_jones_isotensional_asymptotic_reduced_legendre.helmholtz_free_energy number_of_links link_length hinge_mass link_stiffness force temperature))) number_of_links link_length hinge_mass link_stiffness force temperature.
Proof. reflexivity. Qed.

Lemma F_lennard_jones_isotensional_asymptotic_reduced_legendre_helmholtz_free_energy_per_link : forall (T : Type) (Sc : Scalar T) (link_length : jarray T) (hinge_mass : jarray T) (link_stiffness : jarray T) (force : jarray T) (temperature : jarray T),
     jl_lennard_jones_isotensional_asymptotic_reduced_legendre.helmholtz_free_energy_per_link link_length hinge_mass link_stiffness force temperature
     = broadcast [Float64; Float64; Float64; Float64; Float64] (fun link_length hinge_mass link_stiffness force temperature =>
         Finished (Some (lennard_jones_isotensional_asymptotic_reduced_legendre.helmholtz_free_energy_per_link link_length hinge_mass link_stiffness force temperature))) link_length hinge_mass link_stiffness force temperature.
Proof. reflexivity. Qed.

Lemma F_lennard_jones_isotensional_asymptotic_reduced_legendre_relative_helmholtz_free_energy : forall (T : Type) (Sc : Scalar T) (number_of_links : jarray Z) (link_length : jarray T) (link_stiffness : jarray T) (force : jarray T) (temperature : jarray T),
     jl_lennard_jones_isotensional_asymptotic_reduced_legendre.relative_helmholtz_free_energy number_of_links link_length link_stiffness force temperature
     = broadcast [UInt8; Float64; Float64; Float64; Float64] (fun number_of_links link_length link_stiffness force temperature =>
         Finished (Some (lennard_jones_isotensional_asymptotic_reduced_legendre.relative_helmholtz_free_energy number_of_links link_length link_stiffness force temperature))) number_of_links link_length link_stiffness force temperature.
Proof. reflexivity. Qed.

Lemma F_lennard_jones_isotensional_asymptotic_reduced_legendre_relative_helmholtz_free_energy_per_link : forall (T : Type) (Sc : Scalar T) (link_length : jarray T) (link_stiffness : jarray T) (force : jarray T) (temperature : jarray T),
     jl_lennard_jones_isotensional_asymptotic_reduced_legendre.relative_helmholtz_free_energy_per_link link_length link_stiffness force temperature
     = broadcast [Float64; Float64; Float64; Float64] (fun link_length link_stiffness force temperature =>
         Finished (Some (lennard_jones_isotensional_asymptotic_reduced_legendre.relative_helmholtz_free_energy_per_link link_length link_stiffness force temperature))) link_length link_stiffness force temperature.
Proof. reflexivity. Qed.

Lemma F_lennard_jones_isotensional_asymptotic_reduced_legendre_nondimensional_helmholtz_free_energy : forall (T : Type) (Sc : Scalar T) (number_of_links : jarray Z) (link_length : jarray T) (hinge_mass : jarray T) (nondimensional_link_stiffness : jarray T) (nondimensional_force : jarray T) (temperature : jarray T),
     jl_lennard_jones_isotensional_asymptotic_reduced_legendre.nondimensional_helmholtz_free_energy number_of_links link_length hinge_mass nondimensional_link_stiffness nondimensional_force temperature
     = broadcast [UInt8; Float64; Float64; Float64; Float64; Float64] (fun number_of_links link_length hinge_mass nondimensional_link_stiffness nondimensional_force temperature =>
         Finished (Some (lennard_jones_isotensional_asymptotic_reduced_legendre.nondimensional_helmholtz_free_energy number_of_links link_length hinge_mass nondimensional_link_stiffness nondimensional_force temperature))) number_of_links link_length hinge_mass nondimensional_link_stiffness nondimensional_force temperature.
Proof. reflexivity. Qed.

Lemma F_lennard_jones_isotensional_asymptotic_reduced_legendre_nondimensional_helmholtz_free_energy_per_link : forall (T : Type) (Sc : Scalar T) (link_length : jarray T) (hinge_mass : jarray T) (nondimensional_link_stiffness : jarray T) (nondimensional_force : jarray T) (temperature : jarray T),
     jl_lennard_jones_isotensional_asymptotic_reduced_legendre.nondimensional_helmholtz_free_energy_per_link link_length hinge_mass nondimensional_link_stiffness nondimensional_force temperature
     = broadcast [Float64; Float64; Float64; Float64; Float64] (fun link_length hinge_mass nondimensional_link_stiffness nondimensional_force temperature =>
         Finished (Some (lennard_jones_isotensional_asymptotic_reduced_legendre.nondimensional_helmholtz_free_energy_per_link link_length hinge_mass nondimensional_link_stiffness nondimensional_force temperature))) link_length hinge_mass nondimensional_link_stiffness nondimensional_force temperature.
Proof. reflexivity. Qed.

Lemma F_lennard_jones_isotensional_asymptotic_reduced_legendre_nondimensional_relative_helmholtz_free_energy : forall (T : Type) (Sc : Scalar T) (number_of_links : jarray Z) (nondimensional_link_stiffness : jarray T) (nondimensional_force : jarray T),
     jl_lennard_jones_isotensional_asymptotic_reduced_legendre.nondimensional_relative_helmholtz_free_energy number_of_links nondimensional_link_stiffness nondimensional_force
     = broadcast [UInt8; Float64; Float64] (fun number_of_links nondimensional_link_stiffness nondimensional_force =>
         Finished (Some (lennard_jones_isotensional_asymptotic_reduced_legendre.nondimensional_relative_helmholtz_free_energy number_of_links nondimensional_link_stiffness nondimensional_force))) number_of_links nondimensional_link_stiffness nondimensional_force.
Proof. reflexivity. Qed.

Lemma F_lennard_jones_isotensional_asymptotic_reduced_legendre_nondimensional_relative_helmholtz_free_energy_per_link : forall (T : Type) (Sc : Scalar T) (nondimensional_link_stiffness : jarray T) (nondimensional_force : jarray T),
     jl_lennard_jones_isotensional_asymptotic_reduced_legendre.nondimensional_relative_helmholtz_free_energy_per_link nondimensional_link_stiffness nondimensional_force
     = broadcast [Float64; Float64] (fun nondimensional_link_stiffness nondimensional_force =>
         Finished (Some (lennard_jones_isotensional_asymptotic_reduced_legendre.nondimensional_relative_helmholtz_free_energy_per_link nondimensional_link_stiffness nondimensional_force))) nondimensional_link_stiffness nondimensional_force.
Proof. reflexivity. Qed.

Lemma F_log_squared_isometric_asymptotic_reduced_legendre_force : forall (T : Type) (Sc : Scalar T) (number_of_links : jarray Z) (link_length : jarray T) (link_stiffness : jarray T) (end_to_end_length : jarray T) (temperature : jarray T),
     jl_log_squared_isometric_asymptotic_reduced_legendre.force number_of_links link_length link_stiffness end_to_end_length temperature
     = broadcast [UInt8; Float64; Float64; Float64; Float64] (fun number_of_links link_length link_stiffness end_to_end_length temperature =>
         Finished (Some (log_squared_isometric_asymptotic_reduced_legendre.force number_of_links link_length link_stiffness end_to_end_length temperature))) number_of_links link_length link_stiffness end_to_end_length temperature.
Proof. reflexivity. Qed.

Lemma F_log_squared_isometric_asymptotic_reduced_legendre_nondimensional_force : forall (T : Type) (Sc : Scalar T) (nondimensional_link_stiffness : jarray T) (nondimensional_end_to_end_length_per_link : jarray T),
     jl_log_squared_isometric_asymptotic_reduced_legendre.nondimensional_force nondimensional_link_stiffness nondimensional_end_to_end_length_per_link
     = broadcast [Float64; Float64] (fun nondimensional_link_stiffness nondimensional_end_to_end_length_per_link =>
         Finished (Some (log_squared_isometric_asymptotic_reduced_legendre.nondimensional_force nondimensional_link_stiffness nondimensional_end_to_end_length_per_link))) nondimensional_link_stiffness nondimensional_end_to_end_length_per_link.
Proof. reflexivity. Qed.

Lemma F_log_squared_isometric_asymptotic_reduced_legendre_helmholtz_free_energy : forall (T : Type) (Sc : Scalar T) (number_of_links : jarray Z) (link_length : jarray T) (hinge_mass : jarray T) (link_stiffness : jarray T) (end_to_end_length : jarray T) (temperature : jarray T),
     jl_log_squared_isometric_asymptotic_reduced_legendre.helmholtz_free_energy number_of_links link_length hinge_mass link_stiffness end_to_end_length temperature
     = broadcast [UInt8; Float64; Float64; Float64; Float64; Float64] (fun number_of_links link_length hinge_mass link_stiffness end_to_end_length temperature =>
         Finished (Some (log_squared_isometric_asymptotic_reduced_legendre.helmholtz_free_energy number_of_links link_length hinge_mass link_stiffness end_to_end_length temperature))) number_of_links link_length hinge_mass link_stiffness end_to_end_length temperature.
Proof. reflexivity. Qed.

Lemma F_log_squared_isometric_asymptotic_reduced_legendre_helmholtz_free_energy_per_link : forall (T : Type) (Sc : Scalar T) (number_of_links : jarray Z) (link_length : jarray T) (hinge_mass : jarray T) (link_stiffness : jarray T) (end_to_end_length : jarray T) (temperature : jarray T),
     jl_log_squared_isometric_asymptotic_reduced_legendre.helmholtz_free_energy_per_link number_of_links link_length hinge_mass link_stiffness end_to_end_length temperature
     = broadcast [UInt8; Float64; Float64; Float64; Float64; Float64] (fun number_of_links link_length hinge_mass link_stiffness end_to_end_length temperature =>
         Finished (Some (log_squared_isometric_asymptotic_reduced_legendre.helmholtz_free_energy_per_link number_of_links link_length hinge_mass link_stiffness end_to_end_length temperature))) number_of_links link_length hinge_mass link_stiffness end_to_end_length temperature.
Proof. reflexivity. Qed.

Lemma F_log_squared_isometric_asymptotic_reduced_legendre_relative_helmholtz_free_energy : forall (T : Type) (Sc : Scalar T) (number_of_links : jarray Z) (link_length : jarray T) (link_stiffness : jarray T) (end_to_end_length : jarray T) (temperature : jarray T),
     jl_log_squared_isometric_asymptotic_reduced_legendre.relative_helmholtz_free_energy number_of_links link_length link_stiffness end_to_end_length temperature
     = broadcast [UInt8; Float64; Float64; Float64; Float64] (fun number_of_links link_length link_stiffness end_to_end_length temperature =>
         Finished (Some (log_squared_isometric_asymptotic_reduced_legendre.relative_helmholtz_free_energy number_of_links link_length link_stiffness end_to_end_length temperature))) number_of_links link_length link_stiffness end_to_end_length temperature.
Proof. reflexivity. Qed.

Lemma F_log_squared_isometric_asymptotic_reduced_legendre_relative_helmholtz_free_energy_per_link : forall (T : Type) (Sc : Scalar T) (number_of_links : jarray Z) (link_length : jarray T) (link_stiffness : jarray T) (end_to_end_length : jarray T) (temperature : jarray T),
     jl_log_squared_isometric_asymptotic_reduced_legendre.relative_helmholtz_free_energy_per_link number_of_links link_length link_stiffness end_to_end_length temperature
     = broadcast [UInt8; Float64; Float64; Float64; Float64] (fun number_of_links link_length link_stiffness end_to_end_length temperature =>
         Finished (Some (log_squared_isometric_asymptotic_reduced_legendre.relative_helmholtz_free_energy_per_link number_of_links link_length link_stiffness end_to_end_length temperature))) number_of_links link_length link_stiffness end_to_end_length temperature.
Proof. reflexivity. Qed.

Lemma F_log_squared_isometric_asymptotic_reduced_legendre_nondimensional_helmholtz_free_energy : forall (T : Type) (Sc : Scalar T) (number_of_links : jarray Z) (link_length : jarray T) (hinge_mass : jarray T) (nondimensional_link_stiffness : jarray T) (nondimensional_end_to_end_length_per_link : jarray T) (temperature : jarray T),
     jl_log_squared_isometric_asymptotic_reduced_legendre.nondimensional_helmholtz_free_energy number_of_links link_length hinge_mass nondimensional_link_stiffness nondimensional_end_to_end_length_per_link temperature
     = broadcast [UInt8; Float64; Float64; Float64; Float64; Float64] (fun number_of_links link_length hinge_mass nondimensional_link_stiffness nondimensional_end_to_end_length_per_link temperature =>
         Finished (Some (log_squared_isometric_asymptotic_reduced_legendre.nondimensional_helmholtz_free_energy number_of_links link_length hinge_mass nondimensional_link_stiffness nondimensional_end_to_end_length_per_link temperature))) number_of_links link_length hinge_mass nondimensional_link_stiffness nondimensional_end_to_end_length_per_link temperature.
Proof. reflexivity. Qed.

Lemma F_log_squared_isometric_asymptotic_reduced_legendre_nondimensional_helmholtz_free_energy_per_link : forall (T : Type) (Sc : Scalar T) (number_of_links : jarray Z) (link_length : jarray T) (hinge_mass : jarray T) (nondimensional_link_stiffness : jarray T) (nondimensional_end_to_end_length_per_link : jarray T) (temperature : jarray T),
     jl_log_squared_isometric_asymptotic_reduced_legendre.nondimensional_helmholtz_free_energy_per_link number_of_links link_length hinge_mass nondimensional_link_stiffness nondimensional_end_to_end_length_per_link temperature
     = broadcast [UInt8; Float64; Float64; Float64; Float64; Float64] (fun number_of_links link_length hinge_mass nondimensional_link_stiffness nondimensional_end_to_end_length_per_link temperature =>
         Finished (Some (log_squared_isometric_asymptotic_reduced_legendre.nondimensional_helmholtz_free_energy_per_link number_of_links link_length hinge_mass nondimensional_link_stiffness nondimensional_end_to_end_length_per_link temperature))) number_of_links link_length hinge_mass nondimensional_link_stiffness nondimensional_end_to_end_length_per_link temperature.
Proof. reflexivity. Qed.

Lemma F_log_squared_isometric_asymptotic_reduced_legendre_nondimensional_relative_helmholtz_free_energy : forall (T : Type) (Sc : Scalar T) (number_of_links : jarray Z) (nondimensional_link_stiffness : jarray T) (nondimensional_end_to_end_length_per_link : jarray T),
     jl_log_squared_isometric_asymptotic_reduced_legendre.nondimensional_relative_helmholtz_free_energy number_of_links nondimensional_link_stiffness nondimensional_end_to_end_length_per_link
     = broadcast [UInt8; Float64; Float64] (fun number_of_links nondimensional_link_stiffness nondimensional_end_to_end_length_per_link =>
         Finished (Some (log_squared_isometric_asymptotic_reduced_legendre.nondimensional_relative_helmholtz_free_energy number_of_links nondimensional_link_stiffness nondimensional_end_to_end_length_per_link))) number_of_links nondimensional_link_stiffness nondimensional_end_to_end_length_per_link.
Proof. reflexivity. Qed.

Lemma F_log_squared_isometric_asymptotic_reduced_legendre_nondimensional_relative_helmholtz_free_energy_per_link : forall (T : Type) (Sc : Scalar T) (nondimensional_link_stiffness : jarray T) (nondimensional_end_to_end_length_per_link : jarray T),
     jl_log_squared_isometric_asymptotic_reduced_legendre.nondimensional_relative_helmholtz_free_energy_per_link nondimensional_link_stiffness nondimensional_end_to_end_length_per_link
     = broadcast [Float64; Float64] (fun nondimensional_link_stiffness nondimensional_end_to_end_length_per_link =>
         Finished (Some (log_squared_isometric_asymptotic_reduced_legendre.nondimensional_relative_helmholtz_free_energy_per_link nondimensional_link_stiffness nondimensional_end_to_end_length_per_link))) nondimensional_link_stiffness nondimensional_end_to_end_length_per_link.
Proof. reflexivity. Qed.

Lemma F_log_squared_isotensional_asymptotic_reduced_legendre_helmholtz_free_energy : forall (T : Type) (Sc : Scalar T) (number_of_links : jarray Z) (link_length : jarray T) (hinge_mass : jarray T) (link_stiffness : jarray T) (force : jarray T) (temperature : jarray T),
     jl_log_squared_isotensional_asymptotic_reduced_legendre.helmholtz_free_energy number_of_links link_length hinge_mass link_stiffness force temperature
     = broadcast [UInt8; Float64; Float64; Float64; Float64; Float64] (fun number_of_links link_length hinge_mass link_stiffness force temperature =>
         Finished (Some (log_squared_isotensional_asymptotic_reduced_legendre.helmholtz_free_energy number_of_links link_length hinge_mass link_stiffness force temperature))) number_of_links link_length hinge_mass link_stiffness force temperature.
Proof. reflexivity. Qed.

Lemma F_log_squared_isotensional_asymptotic_reduced_legendre_helmholtz_free_energy_per_link : forall (T : Type) (Sc : Scalar T) (link_length : jarray T) (hinge_mass : jarray T) (link_stiffness : jarray T) (force : jarray T) (temperature : jarray T),
     jl_log_squared_isotensional_asymptotic_reduced_legendre.helmholtz_free_energy_per_link link_length hinge_mass link_stiffness force temperature
     = broadcast [Float64; Float64; Float64; Float64; Float64] (fun link_length hinge_mass link_stiffness force temperature =>
         Finished (Some (log_squared_isotensional_asymptotic_reduced_legendre.helmholtz_free_energy_per_link link_length hinge_mass link_stiffness force temperature))) link_length hinge_mass link_stiffness force temperature.
Proof. reflexivity. Qed.

Lemma F_log_squared_isotensional_asymptotic_reduced_legendre_relative_helmholtz_free_energy : forall (T : Type) (Sc : Scalar T) (number_of_links : jarray Z) (link_length : jarray T) (link_stiffness : jarray T) (force : jarray T) (temperature : jarray T),
     jl_log_squared_isotensional_asymptotic_reduced_legendre.relative_helmholtz_free_energy number_of_links link_length link_stiffness force temperature
     = broadcast [UInt8; Float64; Float64; Float64; Float64] (fun number_of_links link_length link_stiffness force temperature =>
         Finished (Some (log_squared_isotensional_asymptotic_reduced_legendre.relative_helmholtz_free_energy number_of_links link_length link_stiffness force temperature))) number_of_links link_length link_stiffness force temperature.
Proof. reflexivity. Qed.

Lemma F_log_squared_isotensional_asymptotic_reduced_legendre_relative_helmholtz_free_energy_per_link : forall (T : Type) (Sc : Scalar T) (link_length : jarray T) (link_stiffness : jarray T) (force : jarray T) (temperature : jarray T),
     jl_log_squared_isotensional_asymptotic_reduced_legendre.relative_helmholtz_free_energy_per_link link_length link_stiffness force temperature
     = broadcast [Float64; Float64; Float64; Float64] (fun link_length link_stiffness force temperature =>
         Finished (Some (log_squared_isotensional_asymptotic_reduced_legendre.relative_helmholtz_free_energy_per_link link_length link_stiffness force temperature))) link_length link_stiffness force temperature.
Proof. reflexivity. Qed.

Lemma F_log_squared_isotensional_asymptotic_reduced_legendre_nondimensional_helmholtz_free_energy : forall (T : Type) (Sc : Scalar T) (number_of_links : jarray Z) (link_length : jarray T) (hinge_mass : jarray T) (nondimensional_link_stiffness : jarray T) (nondimensional_force : jarray T) (temperature : jarray T),
     jl_log_squared_isotensional_asymptotic_reduced_legendre.nondimensional_helmholtz_free_energy number_of_links link_length hinge_mass nondimensional_link_stiffness nondimensional_force temperature
     = broadcast [UInt8; Float64; Float64; Float64; Float64; Float64] (fun number_of_links link_length hinge_mass nondimensional_link_stiffness nondimensional_force temperature =>
         Finished (Some (log_squared_isotensional_asymptotic_reduced_legendre.nondimensional_helmholtz_free_energy number_of_links link_length hinge_mass nondimensional_link_stiffness nondimensional_force temperature))) number_of_links link_length hinge_mass nondimensional_link_stiffness nondimensional_force temperature.
Proof. reflexivity. Qed.

Lemma F_log_squared_isotensional_asymptotic_reduced_legendre_nondimensional_helmholtz_free_energy_per_link : forall (T : Type) (Sc : Scalar T) (link_length : jarray T) (hinge_mass : jarray T) (nondimensional_link_stiffness : jarray T) (nondimensional_force : jarray T) (temperature : jarray T),
     jl_log_squared_isotensional_asymptotic_reduced_legendre.nondimensional_helmholtz_free_energy_per_link link_length hinge_mass nondimensional_link_stiffness nondimensional_force temperature
     = broadcast [Float64; Float64; Float64; Float64; Float64] (fun link_length hinge_mass nondimensional_link_stiffness nondimensional_force temperature =>
         Finished (Some (log_squared_isotensional_asymptotic_reduced_legendre.nondimensional_helmholtz_free_energy_per_link link_length hinge_mass nondimensional_link_stiffness nondimensional_force temperature))) link_length hinge_mass nondimensional_link_stiffness nondimensional_force temperature.
Proof. reflexivity. Qed.

Lemma F_log_squared_isotensional_asymptotic_reduced_legendre_nondimensional_relative_helmholtz_free_energy : forall (T : Type) (Sc : Scalar T) (number_of_links : jarray Z) (nondimensional_link_stiffness : jarray T) (nondimensional_force : jarray T),
     jl_log_squared_isotensional_asymptotic_reduced_legendre.nondimensional_relative_helmholtz_free_energy number_of_links nondimensional_link_stiffness nondimensional_force
     = broadcast [UInt8; Float64; Float64] (fun number_of_links nondimensional_link_stiffness nondimensional_force =>
         Finished (Some (log_squared_isotensional_asymptotic_reduced_legendre.nondimensional_relative_helmholtz_free_energy number_of_links nondimensional_link_stiffness nondimensional_force))) number_of_links nondimensional_link_stiffness nondimensional_force.
Proof. reflexivity. Qed.

Lemma F_log_squared_isotensional_asymptotic_reduced_legendre_nondimensional_relative_helmholtz_free_energy_per_link : forall (T : Type) (Sc : Scalar T) (nondimensional_link_stiffness : jarray T) (nondimensional_force : jarray T),
     jl_log_squared_isotensional_asymptotic_reduced_legendre.nondimensional_relative_helmholtz_free_energy_per_link nondimensional_link_stiffness nondimensional_force
     = broadcast [Float64; Float64] (fun nondimensional_link_stiffness nondimensional_force =>
         Finished (Some (log_squared_isotensional_asymptotic_reduced_legendre.nondimensional_relative_helmholtz_free_energy_per_link nondimensional_link_stiffness nondimensional_force))) nondimensional_link_stiffness nondimensional_force.
Proof. reflexivity. Qed.

Lemma F_morse_isometric_asymptotic_reduced_legendre_force : forall (T : Type) (Sc : Scalar T) (number_of_links : jarray Z) (link_length : jarray T) (link_stiffness : jarray T) (link_energy : jarray T) (end_to_end_length : jarray T) (temperature : jarray T),
     jl_morse_isometric_asymptotic_reduced_legendre.force number_of_links link_length link_stiffness link_energy end_to_end_length temperature
     = broadcast [UInt8; Float64; Float64; Float64; Float64; Float64] (fun number_of_links link_length link_stiffness link_energy end_to_end_length temperature =>
         Finished (Some (morse_isometric_asymptotic_reduced_legendre.force number_of_links link_length link_stiffness link_energy end_to_end_length temperature))) number_of_links link_length link_stiffness link_energy end_to_end_length temperature.
Proof. reflexivity. Qed.

Lemma F_morse_isometric_asymptotic_reduced_legendre_nondimensional_force : forall (T : Type) (Sc : Scalar T) (nondimensional_link_stiffness : jarray T) (nondimensional_link_energy : jarray T) (nondimensional_end_to_end_length_per_link : jarray T),
     jl_morse_isometric_asymptotic_reduced_legendre.nondimensional_force nondimensional_link_stiffness nondimensional_link_energy nondimensional_end_to_end_length_per_link
     = broadcast [Float64; Float64; Float64] (fun nondimensional_link_stiffness nondimensional_link_energy nondimensional_end_to_end_length_per_link =>
         Finished (Some (morse_isometric_asymptotic_reduced_legendre.nondimensional_force nondimensional_link_stiffness nondimensional_link_energy nondimensional_end_to_end_length_per_link))) nondimensional_link_stiffness nondimensional_link_energy nondimensional_end_to_end_length_per_link.
Proof. reflexivity. Qed.

Lemma F_morse_isometric_asymptotic_reduced_legendre_helmholtz_free_energy : forall (T : Type) (Sc : Scalar T) (number_of_links : jarray Z) (link_length : jarray T) (hinge_mass : jarray T) (link_stiffness : jarray T) (link_energy : jarray T) (end_to_end_length : jarray T) (temperature : jarray T),
     jl_morse_isometric_asymptotic_reduced_legendre.helmholtz_free_energy number_of_links link_length hinge_mass link_stiffness link_energy end_to_end_length temperature
     = broadcast [UInt8; Float64; Float64; Float64; Float64; Float64; Float64] (fun number_of_links link_length hinge_mass link_stiffness link_energy end_to_end_length temperature =>
         Finished (Some (morse_isometric_asymptotic_reduced_legendre.helmholtz_free_energy number_of_links link_length hinge_mass link_stiffness link_energy end_to_end_length temperature))) number_of_links link_length hinge_mass link_stiffness link_energy end_to_end_length temperature.
Proof. reflexivity. Qed.

Lemma F_morse_isometric_asymptotic_reduced_legendre_helmholtz_free_energy_per_link : forall (T : Type) (Sc : Scalar T) (number_of_links : jarray Z) (link_length : jarray T) (hinge_mass : jarray T) (link_stiffness : jarray T) (link_energy : jarray T) (end_to_end_length : jarray T) (temperature : jarray T),
     jl_morse_isometric_asymptotic_reduced_legendre.helmholtz_free_energy_per_link number_of_links link_length hinge_mass link_stiffness link_energy end_to_end_length temperature
     = broadcast [UInt8; Float64; Float64; Float64; Float64; Float64; Float64] (fun number_of_links link_length hinge_mass link_stiffness link_energy end_to_end_length temperature =>
         Finished (Some (morse_isometric_asymptotic_reduced_legendre.helmholtz_free_energy_per_link number_of_links link_length hinge_mass link_stiffness link_energy end_to_end_length temperature))) number_of_links link_length hinge_mass link_stiffness link_energy end_to_end_length temperature.
Proof. reflexivity. Qed.

Lemma F_morse_isometric_asymptotic_reduced_legendre_relative_helmholtz_free_energy : forall (T : Type) (Sc : Scalar T) (number_of_links : jarray Z) (link_length : jarray T) (link_stiffness : jarray T) (link_energy : jarray T) (end_to_end_length : jarray T) (temperature : jarray T),
     jl_morse_isometric_asymptotic_reduced_legendre.relative_helmholtz_free_energy number_of_links link_length link_stiffness link_energy end_to_end_length temperature
     = broadcast [UInt8; Float64; Float64; Float64; Float64; Float64] (fun number_of_links link_length link_stiffness link_energy end_to_end_length temperature =>
         Finished (Some (morse_isometric_asymptotic_reduced_legendre.relative_helmholtz_free_energy number_of_links link_length link_stiffness link_energy end_to_end_length temperature))) number_of_links link_length link_stiffness link_energy end_to_end_length temperature.
Proof. reflexivity. Qed.

Lemma F_morse_isometric_asymptotic_reduced_legendre_relative_helmholtz_free_energy_per_link : forall (T : Type) (Sc : Scalar T) (number_of_links : jarray Z) (link_length : jarray T) (link_stiffness : jarray T) (link_energy : jarray T) (end_to_end_length : jarray T) (temperature : jarray T),
     jl_morse_isometric_asymptotic_reduced_legendre.relative_helmholtz_free_energy_per_link number_of_links link_length link_stiffness link_energy end_to_end_length temperature
     = broadcast [UInt8; Float64; Float64; Float64; Float64; Float64] (fun number_of_links link_length link_stiffness link_energy end_to_end_length temperature =>
         Finished (Some (morse_isometric_asymptotic_reduced_legendre.relative_helmholtz_free_energy_per_link number_of_links link_length link_stiffness link_energy end_to_end_length temperature))) number_of_links link_length link_stiffness link_energy end_to_end_length temperature.
Proof. reflexivity. Qed.

Lemma F_morse_isometric_asymptotic_reduced_legendre_nondimensional_helmholtz_free_energy : forall (T : Type) (Sc : Scalar T) (number_of_links : jarray Z) (link_length : jarray T) (hinge_mass : jarray T) (nondimensional_link_stiffness : jarray T) (nondimensional_link_energy : jarray T) (nondimensional_end_to_end_length_per_link : jarray T) (temperature : jarray T),
     jl_morse_isometric_asymptotic_reduced_legendre.nondimensional_helmholtz_free_energy number_of_links link_length hinge_mass nondimensional_link_stiffness nondimensional_link_energy nondimensional_end_to_end_length_per_link temperature
     = broadcast [UInt8; Float64; Float64; Float64; Float64; Float64; Float64] (fun number_of_links link_length hinge_mass nondimensional_link_stiffness nondimensional_link_energy nondimensional_end_to_end_length_per_link temperature =>
         Finished (Some (morse_isometric_asymptotic_reduced_legendre.nondimensional_helmholtz_free_energy number_of_links link_length hinge_mass nondimensional_link_stiffness nondimensional_link_energy nondimensional_end_to_end_length_per_link temperature))) number_of_links link_length hinge_mass nondimensional_link_stiffness nondimensional_link_energy nondimensional_end_to_end_length_per_link temperature.
Proof. reflexivity. Qed.

Lemma F_morse_isometric_asymptotic_reduced_legendre_nondimensional_helmholtz_free_energy_per_link : forall (T : Type) (Sc : Scalar T) (number_of_links : jarray Z) (link_length : jarray T) (hinge_mass : jarray T) (nondimensional_link_stiffness : jarray T) (nondimensional_link_energy : jarray T) (nondimensional_end_to_end_length_per_link : jarray T) (temperature : jarray T),
     jl_morse_isometric_asymptotic_reduced_legendre.nondimensional_helmholtz_free_energy_per_link number_of_links link_length hinge_mass nondimensional_link_stiffness nondimensional_link_energy nondimensional_end_to_end_length_per_link temperature
     = broadcast [UInt8; Float64; Float64; Float64; Float64; Float64; Float64] (fun number_of_links link_length hinge_mass nondimensional_link_stiffness nondimensional_link_energy nondimensional_end_to_end_length_per_link temperature =>
         Finished (Some (morse_isometric_asymptotic_reduced_legendre.nondimensional_helmholtz_free_energy_per_link number_of_links link_length hinge_mass nondimensional_link_stiffness nondimensional_link_energy nondimensional_end_to_end_length_per_link temperature))) number_of_links link_length hinge_mass nondimensional_link_stiffness nondimensional_link_energy nondimensional_end_to_end_length_per_link temperature.
Proof. reflexivity. Qed.

Lemma F_morse_isometric_asymptotic_reduced_legendre_nondimensional_relative_helmholtz_free_energy : forall (T : Type) (Sc : Scalar T) (number_of_links : jarray Z) (nondimensional_link_stiffness : jarray T) (nondimensional_link_energy : jarray T) (nondimensional_end_to_end_length_per_link : jarray T),
     jl_morse_isometric_asymptotic_reduced_legendre.nondimensional_relative_helmholtz_free_energy number_of_links nondimensional_link_stiffness nondimensional_link_energy nondimensional_end_to_end_length_per_link
     = broadcast [UInt8; Float64; Float64; Float64] (fun number_of_links nondimensional_link_stiffness nondimensional_link_energy nondimensional_end_to_end_length_per_link =>
         Finished (Some (morse_isometric_asymptotic_reduced_legendre.nondimensional_relative_helmholtz_free_energy number_of_links nondimensional_link_stiffness nondimensional_link_energy nondimensional_end_to_end_length_per_link))) number_of_links nondimensional_link_stiffness nondimensional_link_energy nondimensional_end_to_end_length_per_link.
Proof. reflexivity. Qed.

Lemma F_morse_isometric_asymptotic_reduced_legendre_nondimensional_relative_helmholtz_free_energy_per_link : forall (T : Type) (Sc : Scalar T) (nondimensional_link_stiffness : jarray T) (nondimensional_link_energy : jarray T) (nondimensional_end_to_end_length_per_link : jarray T),
     jl_morse_isometric_asymptotic_reduced_legendre.nondimensional_relative_helmholtz_free_energy_per_link nondimensional_link_stiffness nondimensional_link_energy nondimensional_end_to_end_length_per_link
     = broadcast [Float64; Float64; Float64] (fun nondimensional_link_stiffness nondimensional_link_energy nondimensional_end_to_end_length_per_link =>
         Finished (Some (morse_isometric_asymptotic_reduced_legendre.nondimensional_relative_helmholtz_free_energy_per_link nondimensional_link_stiffness nondimensional_link_energy nondimensional_end_to_end_length_per_link))) nondimensional_link_stiffness nondimensional_link_energy nondimensional_end_to_end_length_per_link.
Proof. reflexivity. Qed.

Lemma F_morse_isotensional_asymptotic_reduced_legendre_helmholtz_free_energy : forall (T : Type) (Sc : Scalar T) (number_of_links : jarray Z) (link_length : jarray T) (hinge_mass : jarray T) (link_stiffness : jarray T) (link_energy : jarray T) (force : jarray T) (temperature : jarray T),
     jl_morse_isotensional_asymptotic_reduced_legendre.helmholtz_free_energy number_of_links link_length hinge_mass link_stiffness link_energy force temperature
     = broadcast [UInt8; Float64; Float64; Float64; Float64; Float64; Float64] (fun number_of_links link_length hinge_mass link_stiffness link_energy force temperature =>
         Finished (Some (morse_isotensional_asymptotic_reduced_legendre.helmholtz_free_energy number_of_links link_length hinge_mass link_stiffness link_energy force temperature))) number_of_links link_length hinge_mass link_stiffness link_energy force temperature.
Proof. reflexivity. Qed.

Lemma F_morse_isotensional_asymptotic_reduced_legendre_helmholtz_free_energy_per_link : forall (T : Type) (Sc : Scalar T) (link_length : jarray T) (hinge_mass : jarray T) (link_stiffness : jarray T) (link_energy : jarray T) (force : jarray T) (temperature : jarray T),
     jl_morse_isotensional_asymptotic_reduced_legendre.helmholtz_free_energy_per_link link_length hinge_mass link_stiffness link_energy force temperature
     = broadcast [Float64; Float64; Float64; Float64; Float64; Float64] (fun link_length hinge_mass link_stiffness link_energy force temperature =>
         Finished (Some (morse_isotensional_asymptotic_reduced_legendre.helmholtz_free_energy_per_link link_length hinge_mass link_stiffness link_energy force temperature))) link_length hinge_mass link_stiffness link_energy force temperature.
Proof. reflexivity. Qed.

Lemma F_morse_isotensional_asymptotic_reduced_legendre_relative_helmholtz_free_energy : forall (T : Type) (Sc : Scalar T) (number_of_links : jarray Z) (link_length : jarray T) (link_stiffness : jarray T) (link_energy : jarray T) (force : jarray T) (temperature : jarray T),
     jl_morse_isotensional_asymptotic_reduced_legendre.relative_helmholtz_free_energy number_of_links link_length link_stiffness link_energy force temperature
     = broadcast [UInt8; Float64; Float64; Float64; Float64; Float64] (fun number_of_links link_length link_stiffness link_energy force temperature =>
         Finished (Some (morse_isotensional_asymptotic_reduced_legendre.relative_helmholtz_free_energy number_of_links link_length link_stiffness link_energy force temperature))) number_of_links link_length link_stiffness link_energy force temperature.
Proof. reflexivity. Qed.

Lemma F_morse_isotensional_asymptotic_reduced_legendre_relative_helmholtz_free_energy_per_link : forall (T : Type) (Sc : Scalar T) (link_length : jarray T) (link_stiffness : jarray T) (link_energy : jarray T) (force : jarray T) (temperature : jarray T),
     jl_morse_isotensional_asymptotic_reduced_legendre.relative_helmholtz_free_energy_per_link link_length link_stiffness link_energy force temperature
     = broadcast [Float64; Float64; Float64; Float64; Float64] (fun link_length link_stiffness link_energy force temperature =>
         Finished (Some (morse_isotensional_asymptotic_reduced_legendre.relative_helmholtz_free_energy_per_link link_length link_stiffness link_energy force temperature))) link_length link_stiffness link_energy force temperature.
Proof. reflexivity. Qed.

Lemma F_morse_isotensional_asymptotic_reduced_legendre_nondimensional_helmholtz_free_energy : forall (T : Type) (Sc : Scalar T) (number_of_links : jarray Z) (link_length : jarray T) (hinge_mass : jarray T) (nondimensional_link_stiffness : jarray T) (nondimensional_link_energy : jarray T) (nondimensional_force : jarray T) (temperature : jarray T),
     jl_morse_isotensional_asymptotic_reduced_legendre.nondimensional_helmholtz_free_energy number_of_links link_length hinge_mass nondimensional_link_stiffness nondimensional_link_energy nondimensional_force temperature
     = broadcast [UInt8; Float64; Float64; Float64; Float64; Float64; Float64] (fun number_of_links link_length hinge_mass nondimensional_link_stiffness nondimensional_link_energy nondimensional_force temperature =>
         Finished (Some (morse_isotensional_asymptotic_reduced_legendre.nondimensional_helmholtz_free_energy number_of_links link_length hinge_mass nondimensional_link_stiffness nondimensional_link_energy nondimensional_force temperature))) number_of_links link_length hinge_mass nondimensional_link_stiffness nondimensional_link_energy nondimensional_force temperature.
Proof. reflexivity. Qed.

Lemma F_morse_isotensional_asymptotic_reduced_legendre_nondimensional_helmholtz_free_energy_per_link : forall (T : Type) (Sc : Scalar T) (link_length : jarray T) (hinge_mass : jarray T) (nondimensional_link_stiffness : jarray T) (nondimensional_link_energy : jarray T) (nondimensional_force : jarray T) (temperature : jarray T),
     jl_morse_isotensional_asymptotic_reduced_legendre.nondimensional_helmholtz_free_energy_per_link link_length hinge_mass nondimensional_link_stiffness nondimensional_link_energy nondimensional_force temperature
     = broadcast [Float64; Float64; Float64; Float64; Float64; Float64] (fun link_length hinge_mass nondimensional_link_stiffness nondimensional_link_energy nondimensional_force temperature =>
         Finished (Some (morse_isotensional_asymptotic_reduced_legendre.nondimensional_helmholtz_free_energy_per_link link_length hinge_mass nondimensional_link_stiffness nondimensional_link_energy nondimensional_force temperature))) link_length hinge_mass nondimensional_link_stiffness nondimensional_link_energy nondimensional_force temperature.
Proof. reflexivity. Qed.

Lemma F_morse_isotensional_asymptotic_reduced_legendre_nondimensional_relative_helmholtz_free_energy : forall (T : Type) (Sc : Scalar T) (number_of_links : jarray Z) (nondimensional_link_stiffness : jarray T) (nondimensional_link_energy : jarray T) (nondimensional_force : jarray T),
     jl_morse_isotensional_asymptotic_reduced_legendre.nondimensional_relative_helmholtz_free_energy number_of_links nondimensional_link_stiffness nondimensional_link_energy nondimensional_force
     = broadcast [UInt8; Float64; Float64; Float64] (fun number_of_links nondimensional_link_stiffness nondimensional_link_energy nondimensional_force =>
         Finished (Some (morse_isotensional_asymptotic_reduced_legendre.nondimensional_relative_helmholtz_free_energy number_of_links nondimensional_link_stiffness nondimensional_link_energy nondimensional_force))) number_of_links nondimensional_link_stiffness nondimensional_link_energy nondimensional_force.
Proof. reflexivity. Qed.

Lemma F_morse_isotensional_asymptotic_reduced_legendre_nondimensional_relative_helmholtz_free_energy_per_link : forall (T : Type) (Sc : Scalar T) (nondimensional_link_stiffness : jarray T) (nondimensional_link_energy : jarray T) (nondimensional_force : jarray T),
     jl_morse_isotensional_asymptotic_reduced_legendre.nondimensional_relative_helmholtz_free_energy_per_link nondimensional_link_stiffness nondimensional_link_energy nondimensional_force
     = broadcast [Float64; Float64; Float64] (fun nondimensional_link_stiffness nondimensional_link_energy nondimensional_force =>
         Finished (Some (morse_isotensional_asymptotic_reduced_legendre.nondimensional_relative_helmholtz_free_energy_per_link nondimensional_link_stiffness nondimensional_link_energy nondimensional_force))) nondimensional_link_stiffness nondimensional_link_energy nondimensional_force.
Proof. reflexivity. Qed.

Lemma F_efjc_isometric_asymptotic_alternative_legendre_force : forall (T : Type) (Sc : Scalar T) (number_of_links : jarray Z) (link_length : jarray T) (link_stiffness : jarray T) (end_to_end_length : jarray T) (temperature : jarray T),
     jl_efjc_isometric_asymptotic_alternative_legendre.force number_of_links link_length link_stiffness end_to_end_length temperature
     = broadcast [UInt8; Float64; Float64; Float64; Float64] (fun number_of_links link_length link_stiffness end_to_end_length temperature =>
         Finished (Some (efjc_isometric_asymptotic_alternative_legendre.force number_of_links link_length link_stiffness end_to_end_length temperature))) number_of_links link_length link_stiffness end_to_end_length temperature.
Proof. reflexivity. Qed.

Lemma F_efjc_isometric_asymptotic_alternative_legendre_nondimensional_force : forall (T : Type) (Sc : Scalar T) (nondimensional_link_stiffness : jarray T) (nondimensional_end_to_end_length_per_link : jarray T),
     jl_efjc_isometric_asymptotic_alternative_legendre.nondimensional_force nondimensional_link_stiffness nondimensional_end_to_end_length_per_link
     = broadcast [Float64; Float64] (fun nondimensional_link_stiffness nondimensional_end_to_end_length_per_link =>
         Finished (Some (efjc_isometric_asymptotic_alternative_legendre.nondimensional_force nondimensional_link_stiffness nondimensional_end_to_end_length_per_link))) nondimensional_link_stiffness nondimensional_end_to_end_length_per_link.
Proof. reflexivity. Qed.

Lemma F_efjc_isometric_asymptotic_alternative_legendre_helmholtz_free_energy : forall (T : Type) (Sc : Scalar T) (number_of_links : jarray Z) (link_length : jarray T) (hinge_mass : jarray T) (link_stiffness : jarray T) (end_to_end_length : jarray T) (temperature : jarray T),
     jl_efjc_isometric_asymptotic_alternative_legendre.helmholtz_free_energy number_of_links link_length hinge_mass link_stiffness end_to_end_length temperature
     = broadcast [UInt8; Float64; Float64; Float64; Float64; Float64] (fun number_of_links link_length hinge_mass link_stiffness end_to_end_length temperature =>
         Finished (Some (efjc_isometric_asymptotic_alternative_legendre.helmholtz_free_energy number_of_links link_length hinge_mass link_stiffness end_to_end_length temperature))) number_of_links link_length hinge_mass link_stiffness end_to_end_length temperature.
Proof. reflexivity. Qed.

Lemma F_efjc_isometric_asymptotic_alternative_legendre_helmholtz_free_energy_per_link : forall (T : Type) (Sc : Scalar T) (number_of_links : jarray Z) (link_length : jarray T) (hinge_mass : jarray T) (link_stiffness : jarray T) (end_to_end_length : jarray T) (temperature : jarray T),
     jl_efjc_isometric_asymptotic_alternative_legendre.helmholtz_free_energy_per_link number_of_links link_length hinge_mass link_stiffness end_to_end_length temperature
     = broadcast [UInt8; Float64; Float64; Float64; Float64; Float64] (fun number_of_links link_length hinge_mass link_stiffness end_to_end_length temperature =>
         Finished (Some (efjc_isometric_asymptotic_alternative_legendre.helmholtz_free_energy_per_link number_of_links link_length hinge_mass link_stiffness end_to_end_length temperature))) number_of_links link_length hinge_mass link_stiffness end_to_end_length temperature.
Proof. reflexivity. Qed.

Lemma F_efjc_isometric_asymptotic_alternative_legendre_relative_helmholtz_free_energy : forall (T : Type) (Sc : Scalar T) (number_of_links : jarray Z) (link_length : jarray T) (link_stiffness : jarray T) (end_to_end_length : jarray T) (temperature : jarray T),
     jl_efjc_isometric_asymptotic_alternative_legendre.relative_helmholtz_free_energy number_of_links link_length link_stiffness end_to_end_length temperature
     = broadcast [UInt8; Float64; Float64; Float64; Float64] (fun number_of_links link_length link_stiffness end_to_end_length temperature =>
         Finished (Some (efjc_isometric_asymptotic_alternative_legendre.relative_helmholtz_free_energy number_of_links link_length link_stiffness end_to_end_length temperature))) number_of_links link_length link_stiffness end_to_end_length temperature.
Proof. reflexivity. Qed.

Lemma F_efjc_isometric_asymptotic_alternative_legendre_relative_helmholtz_free_energy_per_link : forall (T : Type) (Sc : Scalar T) (number_of_links : jarray Z) (link_length : jarray T) (link_stiffness : jarray T) (end_to_end_length : jarray T) (temperature : jarray T),
     jl_efjc_isometric_asymptotic_alternative_legendre.relative_helmholtz_free_energy_per_link number_of_links link_length link_stiffness end_to_end_length temperature
     = broadcast [UInt8; Float64; Float64; Float64; Float64] (fun number_of_links link_length link_stiffness end_to_end_length temperature =>
         Finished (Some (efjc_isometric_asymptotic_alternative_legendre.relative_helmholtz_free_energy_per_link number_of_links link_length link_stiffness end_to_end_length temperature))) number_of_links link_length link_stiffness end_to_end_length temperature.
Proof. reflexivity. Qed.

Lemma F_efjc_isometric_asymptotic_alternative_legendre_nondimensional_helmholtz_free_energy : forall (T : Type) (Sc : Scalar T) (number_of_links : jarray Z) (link_length : jarray T) (hinge_mass : jarray T) (nondimensional_link_stiffness : jarray T) (nondimensional_end_to_end_length_per_link : jarray T) (temperature : jarray T),
     jl_efjc_isometric_asymptotic_alternative_legendre.nondimensional_helmholtz_free_energy number_of_links link_length hinge_mass nondimensional_link_stiffness nondimensional_end_to_end_length_per_link temperature
     = broadcast [UInt8; Float64; Float64; Float64; Float64; Float64] (fun number_of_links link_length hinge_mass nondimensional_link_stiffness nondimensional_end_to_end_length_per_link temperature =>
         Finished (Some (efjc_isometric_asymptotic_alternative_legendre.nondimensional_helmholtz_free_energy number_of_links link_length hinge_mass nondimensional_link_stiffness nondimensional_end_to_end_length_per_link temperature))) number_of_links link_length hinge_mass nondimensional_link_stiffness nondimensional_end_to_end_length_per_link temperature.
Proof. reflexivity. Qed.

Lemma F_efjc_isometric_asymptotic_alternative_legendre_nondimensional_helmholtz_free_energy_per_link : forall (T : Type) (Sc : Scalar T) (number_of_links : jarray Z) (link_length : jarray T) (hinge_mass : jarray T) (nondimensional_link_stiffness : jarray T) (nondimensional_end_to_end_length_per_link : jarray T) (temperature : jarray T),
     jl_efjc_isometric_asymptotic_alternative_legendre.nondimensional_helmholtz_free_energy_per_link number_of_links link_length hinge_mass nondimensional_link_stiffness nondimensional_end_to_end_length_per_link temperature
     = broadcast [UInt8; Float64; Float64; Float64; Float64; Float64] (fun number_of_links link_length hinge_mass nondimensional_link_stiffness nondimensional_end_to_end_length_per_link temperature =>
         Finished (Some (efjc_isometric_asymptotic_alternative_legendre.nondimensional_helmholtz_free_energy_per_link number_of_links link_length hinge_mass nondimensional_link_stiffness nondimensional_end_to_end_length_per_link temperature))) number_of_links link_length hinge_mass nondimensional_link_stiffness nondimensional_end_to_end_length_per_link temperature.
Proof. reflexivity. Qed.

Lemma F_efjc_isometric_asymptotic_alternative_legendre_nondimensional_relative_helmholtz_free_energy : forall (T : Type) (Sc : Scalar T) (number_of_links : jarray Z) (nondimensional_link_stiffness : jarray T) (nondimensional_end_to_end_length_per_link : jarray T),
     jl_efjc_isometric_asymptotic_alternative_legendre.nondimensional_relative_helmholtz_free_energy number_of_links nondimensional_link_stiffness nondimensional_end_to_end_length_per_link
     = broadcast [UInt8; Float64; Float64] (fun number_of_links nondimensional_link_stiffness nondimensional_end_to_end_length_per_link =>
         Finished (Some (efjc_isometric_asymptotic_alternative_legendre.nondimensional_relative_helmholtz_free_energy number_of_links nondimensional_link_stiffness nondimensional_end_to_end_length_per_link))) number_of_links nondimensional_link_stiffness nondimensional_end_to_end_length_per_link.
Proof. reflexivity. Qed.

Lemma F_efjc_isometric_asymptotic_alternative_legendre_nondimensional_relative_helmholtz_free_energy_per_link : forall (T : Type) (Sc : Scalar T) (nondimensional_link_stiffness : jarray T) (nondimensional_end_to_end_length_per_link : jarray T),
     jl_efjc_isometric_asymptotic_alternative_legendre.nondimensional_relative_helmholtz_free_energy_per_link nondimensional_link_stiffness nondimensional_end_to_end_length_per_link
     = broadcast [Float64; Float64] (fun nondimensional_link_stiffness nondimensional_end_to_end_length_per_link =>
         Finished (Some (efjc_isometric_asymptotic_alternative_legendre.nondimensional_relative_helmholtz_free_energy_per_link nondimensional_link_stiffness nondimensional_end_to_end_length_per_link))) nondimensional_link_stiffness nondimensional_end_to_end_length_per_link.
Proof. reflexivity. Qed.

Lemma F_efjc_isometric_asymptotic_reduced_legendre_force : forall (T : Type) (Sc : Scalar T) (number_of_links : jarray Z) (link_length : jarray T) (link_stiffness : jarray T) (end_to_end_length : jarray T) (temperature : jarray T),
     jl_efjc_isometric_asymptotic_reduced_legendre.force number_of_links link_length link_stiffness end_to_end_length temperature
     = broadcast [UInt8; Float64; Float64; Float64; Float64] (fun number_of_links link_length link_stiffness end_to_end_length temperature =>
         Finished (Some (efjc_isometric_asymptotic_reduced_legendre.force number_of_links link_length link_stiffness end_to_end_length temperature))) number_of_links link_length link_stiffness end_to_end_length temperature.
Proof. reflexivity. Qed.

Lemma F_efjc_isometric_asymptotic_reduced_legendre_nondimensional_force : forall (T : Type) (Sc : Scalar T) (nondimensional_link_stiffness : jarray T) (nondimensional_end_to_end_length_per_link : jarray T),
     jl_efjc_isometric_asymptotic_reduced_legendre.nondimensional_force nondimensional_link_stiffness nondimensional_end_to_end_length_per_link
     = broadcast [Float64; Float64] (fun nondimensional_link_stiffness nondimensional_end_to_end_length_per_link =>
         Finished (Some (efjc_isometric_asymptotic_reduced_legendre.nondimensional_force nondimensional_link_stiffness nondimensional_end_to_end_length_per_link))) nondimensional_link_stiffness nondimensional_end_to_end_length_per_link.
Proof. reflexivity. Qed.

Lemma F_efjc_isometric_asymptotic_reduced_legendre_helmholtz_free_energy : forall (T : Type) (Sc : Scalar T) (number_of_links : jarray Z) (link_length : jarray T) (hinge_mass : jarray T) (link_stiffness : jarray T) (end_to_end_length : jarray T) (temperature : jarray T),
     jl_efjc_isometric_asymptotic_reduced_legendre.helmholtz_free_energy number_of_links link_length hinge_mass link_stiffness end_to_end_length temperature
     = broadcast [UInt8; Float64; Float64; Float64; Float64; Float64] (fun number_of_links link_length hinge_mass link_stiffness end_to_end_length temperature =>
         Finished (Some (efjc_isometric_asymptotic_reduced_legendre.helmholtz_free_energy number_of_links link_length hinge_mass link_stiffness end_to_end_length temperature))) number_of_links link_length hinge_mass link_stiffness end_to_end_length temperature.
Proof. reflexivity. Qed.

Lemma F_efjc_isometric_asymptotic_reduced_legendre_helmholtz_free_energy_per_link : forall (T : Type) (Sc : Scalar T) (number_of_links : jarray Z) (link_length : jarray T) (hinge_mass : jarray T) (link_stiffness : jarray T) (end_to_end_length : jarray T) (temperature : jarray T),
     jl_efjc_isometric_asymptotic_reduced_legendre.helmholtz_free_energy_per_link number_of_links link_length hinge_mass link_stiffness end_to_end_length temperature
     = broadcast [UInt8; Float64; Float64; Float64; Float64; Float64] (fun number_of_links link_length hinge_mass link_stiffness end_to_end_length temperature =>
         Finished (Some (efjc_isometric_asymptotic_reduced_legendre.helmholtz_free_energy_per_link number_of_links link_length hinge_mass link_stiffness end_to_end_length temperature))) number_of_links link_length hinge_mass link_stiffness end_to_end_length temperature.
Proof. reflexivity. Qed.

Lemma F_efjc_isometric_asymptotic_reduced_legendre_relative_helmholtz_free_energy : forall (T : Type) (Sc : Scalar T) (number_of_links : jarray Z) (link_length : jarray T) (link_stiffness : jarray T) (end_to_end_length : jarray T) (temperature : jarray T),
     jl_efjc_isometric_asymptotic_reduced_legendre.relative_helmholtz_free_energy number_of_links link_length link_stiffness end_to_end_length temperature
     = broadcast [UInt8; Float64; Float64; Float64; Float64] (fun number_of_links link_length link_stiffness end_to_end_length temperature =>
         Finished (Some (efjc_isometric_asymptotic_reduced_legendre.relative_helmholtz_free_energy number_of_links link_length link_stiffness end_to_end_length temperature))) number_of_links link_length link_stiffness end_to_end_length temperature.
Proof. reflexivity. Qed.

Lemma F_efjc_isometric_asymptotic_reduced_legendre_relative_helmholtz_free_energy_per_link : forall (T : Type) (Sc : Scalar T) (number_of_links : jarray Z) (link_length : jarray T) (link_stiffness : jarray T) (end_to_end_length : jarray T) (temperature : jarray T),
     jl_efjc_isometric_asymptotic_reduced_legendre.relative_helmholtz_free_energy_per_link number_of_links link_length link_stiffness end_to_end_length temperature
     = broadcast [UInt8; Float64; Float64; Float64; Float64] (fun number_of_links link_length link_stiffness end_to_end_length temperature =>
         Finished (Some (efjc_isometric_asymptotic_reduced_legendre.relative_helmholtz_free_energy_per_link number_of_links link_length link_stiffness end_to_end_length temperature))) number_of_links link_length link_stiffness end_to_end_length temperature.
Proof. reflexivity. Qed.

Lemma F_efjc_isometric_asymptotic_reduced_legendre_nondimensional_helmholtz_free_energy : forall (T : Type) (Sc : Scalar T) (number_of_links : jarray Z) (link_length : jarray T) (hinge_mass : jarray T) (nondimensional_link_stiffness : jarray T) (nondimensional_end_to_end_length_per_link : jarray T) (temperature : jarray T),
     jl_efjc_isometric_asymptotic_reduced_legendre.nondimensional_helmholtz_free_energy number_of_links link_length hinge_mass nondimensional_link_stiffness nondimensional_end_to_end_length_per_link temperature
     = broadcast [UInt8; Float64; Float64; Float64; Float64; Float64] (fun number_of_links link_length hinge_mass nondimensional_link_stiffness nondimensional_end_to_end_length_per_link temperature =>
         Finished (Some (efjc_isometric_asymptotic_reduced_legendre.nondimensional_helmholtz_free_energy number_of_links link_length hinge_mass nondimensional_link_stiffness nondimensional_end_to_end_length_per_link temperature))) number_of_links link_length hinge_mass nondimensional_link_stiffness nondimensional_end_to_end_length_per_link temperature.
Proof. reflexivity. Qed.

Lemma F_efjc_isometric_asymptotic_reduced_legendre_nondimensional_helmholtz_free_energy_per_link : forall (T : Type) (Sc : Scalar T) (number_of_links : jarray Z) (link_length : jarray T) (hinge_mass : jarray T) (nondimensional_link_stiffness : jarray T) (nondimensional_end_to_end_length_per_link : jarray T) (temperature : jarray T),
     jl_efjc_isometric_asymptotic_reduced_legendre.nondimensional_helmholtz_free_energy_per_link number_of_links link_length hinge_mass nondimensional_link_stiffness nondimensional_end_to_end_length_per_link temperature
     = broadcast [UInt8; Float64; Float64; Float64; Float64; Float64] (fun number_of_links link_length hinge_mass nondimensional_link_stiffness nondimensional_end_to_end_length_per_link temperature =>
         Finished (Some (efjc_isometric_asymptotic_reduced_legendre.nondimensional_helmholtz_free_energy_per_link number_of_links link_length hinge_mass nondimensional_link_stiffness nondimensional_end_to_end_length_per_link temperature))) number_of_links link_length hinge_mass nondimensional_link_stiffness nondimensional_end_to_end_length_per_link temperature.
Proof. reflexivity. Qed.

Lemma F_efjc_isometric_asymptotic_reduced_legendre_nondimensional_relative_helmholtz_free_energy : forall (T : Type) (Sc : Scalar T) (number_of_links : jarray Z) (nondimensional_link_stiffness : jarray T) (nondimensional_end_to_end_length_per_link : jarray T),
     jl_efjc_isometric_asymptotic_reduced_legendre.nondimensional_relative_helmholtz_free_energy number_of_links nondimensional_link_stiffness nondimensional_end_to_end_length_per_link
     = broadcast [UInt8; Float64; Float64] (fun number_of_links nondimensional_link_stiffness nondimensional_end_to_end_length_per_link =>
         Finished (Some (efjc_isometric_asymptotic_reduced_legendre.nondimensional_relative_helmholtz_free_energy number_of_links nondimensional_link_stiffness nondimensional_end_to_end_length_per_link))) number_of_links nondimensional_link_stiffness nondimensional_end_to_end_length_per_link.
Proof. reflexivity. Qed.

Lemma F_efjc_isometric_asymptotic_reduced_legendre_nondimensional_relative_helmholtz_free_energy_per_link : forall (T : Type) (Sc : Scalar T) (nondimensional_link_stiffness : jarray T) (nondimensional_end_to_end_length_per_link : jarray T),
     jl_efjc_isometric_asymptotic_reduced_legendre.nondimensional_relative_helmholtz_free_energy_per_link nondimensional_link_stiffness nondimensional_end_to_end_length_per_link
     = broadcast [Float64; Float64] (fun nondimensional_link_stiffness nondimensional_end_to_end_length_per_link =>
         Finished (Some (efjc_isometric_asymptotic_reduced_legendre.nondimensional_relative_helmholtz_free_energy_per_link nondimensional_link_stiffness nondimensional_end_to_end_length_per_link))) nondimensional_link_stiffness nondimensional_end_to_end_length_per_link.
Proof. reflexivity. Qed.

Lemma F_efjc_isotensional_asymptotic_alternative_legendre_helmholtz_free_energy : forall (T : Type) (Sc : Scalar T) (number_of_links : jarray Z) (link_length : jarray T) (hinge_mass : jarray T) (link_stiffness : jarray T) (force : jarray T) (temperature : jarray T),
     jl_efjc_isotensional_asymptotic_alternative_legendre.helmholtz_free_energy number_of_links link_length hinge_mass link_stiffness force temperature
     = broadcast [UInt8; Float64; Float64; Float64; Float64; Float64] (fun number_of_links link_length hinge_mass link_stiffness force temperature =>
         Finished (Some (efjc_isotensional_asymptotic_alternative_legendre.helmholtz_free_energy number_of_links link_length hinge_mass link_stiffness force temperature))) number_of_links link_length hinge_mass link_stiffness force temperature.
Proof. reflexivity. Qed.

Lemma F_efjc_isotensional_asymptotic_alternative_legendre_helmholtz_free_energy_per_link : forall (T : Type) (Sc : Scalar T) (link_length : jarray T) (hinge_mass : jarray T) (link_stiffness : jarray T) (force : jarray T) (temperature : jarray T),
     jl_efjc_isotensional_asymptotic_alternative_legendre.helmholtz_free_energy_per_link link_length hinge_mass link_stiffness force temperature
     = broadcast [Float64; Float64; Float64; Float64; Float64] (fun link_length hinge_mass link_stiffness force temperature =>
         Finished (Some (efjc_isotensional_asymptotic_alternative_legendre.helmholtz_free_energy_per_link link_length hinge_mass link_stiffness force temperature))) link_length hinge_mass link_stiffness force temperature.
Proof. reflexivity. Qed.

Lemma F_efjc_isotensional_asymptotic_alternative_legendre_relative_helmholtz_free_energy : forall (T : Type) (Sc : Scalar T) (number_of_links : jarray Z) (link_length : jarray T) (link_stiffness : jarray T) (force : jarray T) (temperature : jarray T),
     jl_efjc_isotensional_asymptotic_alternative_legendre.relative_helmholtz_free_energy number_of_links link_length link_stiffness force temperature
     = broadcast [UInt8; Float64; Float64; Float64; Float64] (fun number_of_links link_length link_stiffness force temperature =>
         Finished (Some (efjc_isotensional_asymptotic_alternative_legendre.relative_helmholtz_free_energy number_of_links link_length link_stiffness force temperature))) number_of_links link_length link_stiffness force temperature.
Proof. reflexivity. Qed.

Lemma F_efjc_isotensional_asymptotic_alternative_legendre_relative_helmholtz_free_energy_per_link : forall (T : Type) (Sc : Scalar T) (link_length : jarray T) (link_stiffness : jarray T) (force : jarray T) (temperature : jarray T),
     jl_efjc_isotensional_asymptotic_alternative_legendre.relative_helmholtz_free_energy_per_link link_length link_stiffness force temperature
     = broadcast [Float64; Float64; Float64; Float64] (fun link_length link_stiffness force temperature =>
         Finished (Some (efjc_isotensional_asymptotic_alternative_legendre.relative_helmholtz_free_energy_per_link link_length link_stiffness force temperature))) link_length link_stiffness force temperature.
Proof. reflexivity. Qed.

Lemma F_efjc_isotensional_asymptotic_alternative_legendre_nondimensional_helmholtz_free_energy : forall (T : Type) (Sc : Scalar T) (number_of_links : jarray Z) (link_length : jarray T) (hinge_mass : jarray T) (nondimensional_link_stiffness : jarray T) (nondimensional_force : jarray T) (temperature : jarray T),
     jl_efjc_isotensional_asymptotic_alternative_legendre.nondimensional_helmholtz_free_energy number_of_links link_length hinge_mass nondimensional_link_stiffness nondimensional_force temperature
     = broadcast [UInt8; Float64; Float64; Float64; Float64; Float64] (fun number_of_links link_length hinge_mass nondimensional_link_stiffness nondimensional_force temperature =>
         Finished (Some (efjc_isotensional_asymptotic_alternative_legendre.nondimensional_helmholtz_free_energy number_of_links link_length hinge_mass nondimensional_link_stiffness nondimensional_force temperature))) number_of_links link_length hinge_mass nondimensional_link_stiffness nondimensional_force temperature.
Proof. reflexivity. Qed.

Lemma F_efjc_isotensional_asymptotic_alternative_legendre_nondimensional_helmholtz_free_energy_per_link : forall (T : Type) (Sc : Scalar T) (link_length : jarray T) (hinge_mass : jarray T) (nondimensional_link_stiffness : jarray T) (nondimensional_force : jarray T) (temperature : jarray T),
     jl_efjc_isotensional_asymptotic_alternative_legendre.nondimensional_helmholtz_free_energy_per_link link_length hinge_mass nondimensional_link_stiffness nondimensional_force temperature
     = broadcast [Float64; Float64; Float64; Float64; Float64] (fun link_length hinge_mass nondimensional_link_stiffness nondimensional_force temperature =>
         Finished (Some (efjc_isotensional_asymptotic_alternative_legendre.nondimensional_helmholtz_free_energy_per_link link_length hinge_mass nondimensional_link_stiffness nondimensional_force temperature))) link_length hinge_mass nondimensional_link_stiffness nondimensional_force temperature.
Proof. reflexivity. Qed.

Lemma F_efjc_isotensional_asymptotic_alternative_legendre_nondimensional_relative_helmholtz_free_energy : forall (T : Type) (Sc : Scalar T) (number_of_links : jarray Z) (nondimensional_link_stiffness : jarray T) (nondimensional_force : jarray T),
     jl_efjc_isotensional_asymptotic_alternative_legendre.nondimensional_relative_helmholtz_free_energy number_of_links nondimensional_link_stiffness nondimensional_force
     = broadcast [UInt8; Float64; Float64] (fun number_of_links nondimensional_link_stiffness nondimensional_force =>
         Finished (Some (efjc_isotensional_asymptotic_alternative_legendre.nondimensional_relative_helmholtz_free_energy number_of_links nondimensional_link_stiffness nondimensional_force))) number_of_links nondimensional_link_stiffness nondimensional_force.
Proof. reflexivity. Qed.

Lemma F_efjc_isotensional_asymptotic_alternative_legendre_nondimensional_relative_helmholtz_free_energy_per_link : forall (T : Type) (Sc : Scalar T) (nondimensional_link_stiffness : jarray T) (nondimensional_force : jarray T),
     jl_efjc_isotensional_asymptotic_alternative_legendre.nondimensional_relative_helmholtz_free_energy_per_link nondimensional_link_stiffness nondimensional_force
     = broadcast [Float64; Float64] (fun nondimensional_link_stiffness nondimensional_force =>
         Finished (Some (efjc_isotensional_asymptotic_alternative_legendre.nondimensional_relative_helmholtz_free_energy_per_link nondimensional_link_stiffness nondimensional_force))) nondimensional_link_stiffness nondimensional_force.
Proof. reflexivity. Qed.

Lemma F_efjc_isotensional_asymptotic_reduced_legendre_helmholtz_free_energy : forall (T : Type) (Sc : Scalar T) (number_of_links : jarray Z) (link_length : jarray T) (hinge_mass : jarray T) (link_stiffness : jarray T) (force : jarray T) (temperature : jarray T),
     jl_efjc_isotensional_asymptotic_reduced_legendre.helmholtz_free_energy number_of_links link_length hinge_mass link_stiffness force temperature
     = broadcast [UInt8; Float64; Float64; Float64; Float64; Float64] (fun number_of_links link_length hinge_mass link_stiffness force temperature =>
         Finished (Some (efjc_isotensional_asymptotic_reduced_legendre.helmholtz_free_energy number_of_links link_length hinge_mass link_stiffness force temperature))) number_of_links link_length hinge_mass link_stiffness force temperature.
Proof. reflexivity. Qed.

Lemma F_efjc_isotensional_asymptotic_reduced_legendre_helmholtz_free_energy_per_link : forall (T : Type) (Sc : Scalar T) (link_length : jarray T) (hinge_mass : jarray T) (link_stiffness : jarray T) (force : jarray T) (temperature : jarray T),
     jl_efjc_isotensional_asymptotic_reduced_legendre.helmholtz_free_energy_per_link link_length hinge_mass link_stiffness force temperature
     = broadcast [Float64; Float64; Float64; Float64; Float64] (fun link_length hinge_mass link_stiffness force temperature =>
         Finished (Some (efjc_isotensional_asymptotic_reduced_legendre.helmholtz_free_energy_per_link link_length hinge_mass link_stiffness force temperature))) link_length hinge_mass link_stiffness force temperature.
Proof. reflexivity. Qed.

Lemma F_efjc_isotensional_asymptotic_reduced_legendre_relative_helmholtz_free_energy : forall (T : Type) (Sc : Scalar T) (number_of_links : jarray Z) (link_length : jarray T) (link_stiffness : jarray T) (force : jarray T) (temperature : jarray T),
     jl_efjc_isotensional_asymptotic_reduced_legendre.relative_helmholtz_free_energy number_of_links link_length link_stiffness force temperature
     = broadcast [UInt8; Float64; Float64; Float64; Float64] (fun number_of_links link_length link_stiffness force temperature =>
         Finished (Some (efjc_isotensional_asymptotic_reduced_legendre.relative_helmholtz_free_energy number_of_links link_length link_stiffness force temperature))) number_of_links link_length link_stiffness force temperature.
Proof. reflexivity. Qed.

Lemma F_efjc_isotensional_asymptotic_reduced_legendre_relative_helmholtz_free_energy_per_link : forall (T : Type) (Sc : Scalar T) (link_length : jarray T) (link_stiffness : jarray T) (force : jarray T) (temperature : jarray T),
     jl_efjc_isotensional_asymptotic_reduced_legendre.relative_helmholtz_free_energy_per_link link_length link_stiffness force temperature
     = broadcast [Float64; Float64; Float64; Float64] (fun link_length link_stiffness force temperature =>
         Finished (Some (efjc_isotensional_asymptotic_reduced_legendre.relative_helmholtz_free_energy_per_link link_length link_stiffness force temperature))) link_length link_stiffness force temperature.
Proof. reflexivity. Qed.

Lemma F_efjc_isotensional_asymptotic_reduced_legendre_nondimensional_helmholtz_free_energy : forall (T : Type) (Sc : Scalar T) (number_of_links : jarray Z) (link_length : jarray T) (hinge_mass : jarray T) (nondimensional_link_stiffness : jarray T) (nondimensional_force : jarray T) (temperature : jarray T),
     jl_efjc_isotensional_asymptotic_reduced_legendre.nondimensional_helmholtz_free_energy number_of_links link_length hinge_mass nondimensional_link_stiffness nondimensional_force temperature
     = broadcast [UInt8; Float64; Float64; Float64; Float64; Float64] (fun number_of_links link_length hinge_mass nondimensional_link_stiffness nondimensional_force temperature =>
         Finished (Some (efjc_isotensional_asymptotic_reduced_legendre.nondimensional_helmholtz_free_energy number_of_links link_length hinge_mass nondimensional_link_stiffness nondimensional_force temperature))) number_of_links link_length hinge_mass nondimensional_link_stiffness nondimensional_force temperature.
Proof. reflexivity. Qed.

Lemma F_efjc_isotensional_asymptotic_reduced_legendre_nondimensional_helmholtz_free_energy_per_link : forall (T : Type) (Sc : Scalar T) (link_length : jarray T) (hinge_mass : jarray T) (nondimensional_link_stiffness : jarray T) (nondimensional_force : jarray T) (temperature : jarray T),
     jl_efjc_isotensional_asymptotic_reduced_legendre.nondimensional_helmholtz_free_energy_per_link link_length hinge_mass nondimensional_link_stiffness nondimensional_force temperature
     = broadcast [Float64; Float64; Float64; Float64; Float64] (fun link_length hinge_mass nondimensional_link_stiffness nondimensional_force temperature =>
         Finished (Some (efjc_isotensional_asymptotic_reduced_legendre.nondimensional_helmholtz_free_energy_per_link link_length hinge_mass nondimensional_link_stiffness nondimensional_force temperature))) link_length hinge_mass nondimensional_link_stiffness nondimensional_force temperature.
Proof. reflexivity. Qed.

Lemma F_efjc_isotensional_asymptotic_reduced_legendre_nondimensional_relative_helmholtz_free_energy : forall (T : Type) (Sc : Scalar T) (number_of_links : jarray Z) (nondimensional_link_stiffness : jarray T) (nondimensional_force : jarray T),
     jl_efjc_isotensional_asymptotic_reduced_legendre.nondimensional_relative_helmholtz_free_energy number_of_links nondimensional_link_stiffness nondimensional_force
     = broadcast [UInt8; Float64; Float64] (fun number_of_links nondimensional_link_stiffness nondimensional_force =>
         Finished (Some (efjc_isotensional_asymptotic_reduced_legendre.nondimensional_relative_helmholtz_free_energy number_of_links nondimensional_link_stiffness nondimensional_force))) number_of_links nondimensional_link_stiffness nondimensional_force.
Proof. reflexivity. Qed.

Lemma F_efjc_isotensional_asymptotic_reduced_legendre_nondimensional_relative_helmholtz_free_energy_per_link : forall (T : Type) (Sc : Scalar T) (nondimensional_link_stiffness : jarray T) (nondimensional_force : jarray T),
     jl_efjc_isotensional_asymptotic_reduced_legendre.nondimensional_relative_helmholtz_free_energy_per_link nondimensional_link_stiffness nondimensional_force
     = broadcast [Float64; Float64] (fun nondimensional_link_stiffness nondimensional_force =>
         Finished (Some (efjc_isotensional_asymptotic_reduced_legendre.nondimensional_relative_helmholtz_free_energy_per_link nondimensional_link_stiffness nondimensional_force))) nondimensional_link_stiffness nondimensional_force.
Proof. reflexivity. Qed.

Lemma F_lennard_jones_isometric_asymptotic_legendre_force : forall (T : Type) (Sc : Scalar T) (number_of_links : jarray Z) (link_length : jarray T) (link_stiffness : jarray T) (end_to_end_length : jarray T) (temperature : jarray T),
     jl_lennard_jones_isometric_asymptotic_legendre.force number_of_links link_length link_stiffness end_to_end_length temperature
     = broadcast [UInt8; Float64; Float64; Float64; Float64] (fun number_of_links link_length link_stiffness end_to_end_length temperature =>
         Finished (Some (lennard_jones_isometric_asymptotic_legendre.force number_of_links link_length link_stiffness end_to_end_length temperature))) number_of_links link_length link_stiffness end_to_end_length temperature.
Proof. reflexivity. Qed.

Lemma F_lennard_jones_isometric_asymptotic_legendre_nondimensional_force : forall (T : Type) (Sc : Scalar T) (nondimensional_link_stiffness : jarray T) (nondimensional_end_to_end_length_per_link : jarray T),
     jl_lennard_jones_isometric_asymptotic_legendre.nondimensional_force nondimensional_link_stiffness nondimensional_end_to_end_length_per_link
     = broadcast [Float64; Float64] (fun nondimensional_link_stiffness nondimensional_end_to_end_length_per_link =>
         Finished (Some (lennard_jones_isometric_asymptotic_legendre.nondimensional_force nondimensional_link_stiffness nondimensional_end_to_end_length_per_link))) nondimensional_link_stiffness nondimensional_end_to_end_length_per_link.
Proof. reflexivity. Qed.

Lemma F_lennard_jones_isometric_asymptotic_legendre_helmholtz_free_energy : forall (T : Type) (Sc : Scalar T) (number_of_links : jarray Z) (link_length : jarray T) (hinge_mass : jarray T) (link_stiffness : jarray T) (end_to_end_length : jarray T) (temperature : jarray T),
     jl_lennard_jones_isometric_asymptotic_legendre.helmholtz_free_energy number_of_links link_length hinge_mass link_stiffness end_to_end_length temperature
     = broadcast [UInt8; Float64; Float64; Float64; Float64; Float64] (fun number_of_links link_length hinge_mass link_stiffness end_to_end_length temperature =>
         Finished (Some (lennard_jones_isometric_asymptotic_legendre.helmholtz_free_energy number_of_links link_length hinge_mass link_stiffness end_to_end_length temperature))) number_of_links link_length hinge_mass link_stiffness end_to_end_length temperature.
Proof. reflexivity. Qed.

Lemma F_lennard_jones_isometric_asymptotic_legendre_helmholtz_free_energy_per_link : forall (T : Type) (Sc : Scalar T) (number_of_links : jarray Z) (link_length : jarray T) (hinge_mass : jarray T) (link_stiffness : jarray T) (end_to_end_length : jarray T) (temperature : jarray T),
     jl_lennard_jones_isometric_asymptotic_legendre.helmholtz_free_energy_per_link number_of_links link_length hinge_mass link_stiffness end_to_end_length temperature
     = broadcast [UInt8; Float64; Float64; Float64; Float64; Float64] (fun number_of_links link_length hinge_mass link_stiffness end_to_end_length temperature =>
         Finished (Some (lennard_jones_isometric_asymptotic_legendre.helmholtz_free_energy_per_link number_of_links link_length hinge_mass link_stiffness end_to_end_length temperature))) number_of_links link_length hinge_mass link_stiffness end_to_end_length temperature.
Proof. reflexivity. Qed.

Lemma F_lennard_jones_isometric_asymptotic_legendre_relative_helmholtz_free_energy : forall (T : Type) (Sc : Scalar T) (number_of_links : jarray Z) (link_length : jarray T) (link_stiffness : jarray T) (end_to_end_length : jarray T) (temperature : jarray T),
     jl_lennard_jones_isometric_asymptotic_legendre.relative_helmholtz_free_energy number_of_links link_length link_stiffness end_to_end_length temperature
     = broadcast [UInt8; Float64; Float64; Float64; Float64] (fun number_of_links link_length link_stiffness end_to_end_length temperature =>
         Finished (Some (lennard_jones_isometric_asymptotic_legendre.relative_helmholtz_free_energy number_of_links link_length link_stiffness end_to_end_length temperature))) number_of_links link_length link_stiffness end_to_end_length temperature.
Proof. reflexivity. Qed.

Lemma F_lennard_jones_isometric_asymptotic_legendre_relative_helmholtz_free_energy_per_link : forall (T : Type) (Sc : Scalar T) (number_of_links : jarray Z) (link_length : jarray T) (link_stiffness : jarray T) (end_to_end_length : jarray T) (temperature : jarray T),
     jl_lennard_jones_isometric_asymptotic_legendre.relative_helmholtz_free_energy_per_link number_of_links link_length link_stiffness end_to_end_length temperature
     = broadcast [UInt8; Float64; Float64; Float64; Float64] (fun number_of_links link_length link_stiffness end_to_end_length temperature =>
         Finished (Some (lennard_jones_isometric_asymptotic_legendre.relative_helmholtz_free_energy_per_link number_of_links link_length link_stiffness end_to_end_length temperature))) number_of_links link_length link_stiffness end_to_end_length temperature.
Proof. reflexivity. Qed.

Lemma F_lennard_jones_isometric_asymptotic_legendre_nondimensional_helmholtz_free_energy : forall (T : Type) (Sc : Scalar T) (number_of_links : jarray Z) (link_length : jarray T) (hinge_mass : jarray T) (nondimensional_link_stiffness : jarray T) (nondimensional_end_to_end_length_per_link : jarray T) (temperature : jarray T),
     jl_lennard_jones_isometric_asymptotic_legendre.nondimensional_helmholtz_free_energy number_of_links link_length hinge_mass nondimensional_link_stiffness nondimensional_end_to_end_length_per_link temperature
     = broadcast [UInt8; Float64; Float64; Float64; Float64; Float64] (fun number_of_links link_length hinge_mass nondimensional_link_stiffness nondimensional_end_to_end_length_per_link temperature =>
         Finished (Some (lennard_jones_isometric_asymptotic_legendre.nondimensional_helmholtz_free_energy number_of_links link_length hinge_mass nondimensional_link_stiffness nondimensional_end_to_end_length_per_link temperature))) number_of_links link_length hinge_mass nondimensional_link_stiffness nondimensional_end_to_end_length_per_link temperature.
Proof. reflexivity. Qed.

Lemma F_lennard_jones_isometric_asymptotic_legendre_nondimensional_helmholtz_free_energy_per_link : forall (T : Type) (Sc : Scalar T) (number_of_links : jarray Z) (link_length : jarray T) (hinge_mass : jarray T) (nondimensional_link_stiffness : jarray T) (nondimensional_end_to_end_length_per_link : jarray T) (temperature : jarray T),
     jl_lennard_jones_isometric_asymptotic_legendre.nondimensional_helmholtz_free_energy_per_link number_of_links link_length hinge_mass nondimensional_link_stiffness nondimensional_end_to_end_length_per_link temperature
     = broadcast [UInt8; Float64; Float64; Float64; Float64; Float64] (fun number_of_links link_length hinge_mass nondimensional_link_stiffness nondimensional_end_to_end_length_per_link temperature =>
         Finished (Some (lennard_jones_isometric_asymptotic_legendre.nondimensional_helmholtz_free_energy_per_link number_of_links link_length hinge_mass nondimensional_link_stiffness nondimensional_end_to_end_length_per_link temperature))) number_of_links link_length hinge_mass nondimensional_link_stiffness nondimensional_end_to_end_length_per_link temperature.
Proof. reflexivity. Qed.

Lemma F_lennard_jones_isometric_asymptotic_legendre_nondimensional_relative_helmholtz_free_energy : forall (T : Type) (Sc : Scalar T) (number_of_links : jarray Z) (nondimensional_link_stiffness : jarray T) (nondimensional_end_to_end_length_per_link : jarray T),
     jl_lennard_jones_isometric_asymptotic_legendre.nondimensional_relative_helmholtz_free_energy number_of_links nondimensional_link_stiffness nondimensional_end_to_end_length_per_link
     = broadcast [UInt8; Float64; Float64] (fun number_of_links nondimensional_link_stiffness nondimensional_end_to_end_length_per_link =>
         Finished (Some (lennard_jones_isometric_asymptotic_legendre.nondimensional_relative_helmholtz_free_energy number_of_links nondimensional_link_stiffness nondimensional_end_to_end_length_per_link))) number_of_links nondimensional_link_stiffness nondimensional_end_to_end_length_per_link.
Proof. reflexivity. Qed.

Lemma F_lennard_jones_isometric_asymptotic_legendre_nondimensional_relative_helmholtz_free_energy_per_link : forall (T : Type) (Sc : Scalar T) (nondimensional_link_stiffness : jarray T) (nondimensional_end_to_end_length_per_link : jarray T),
     jl_lennard_jones_isometric_asymptotic_legendre.nondimensional_relative_helmholtz_free_energy_per_link nondimensional_link_stiffness nondimensional_end_to_end_length_per_link
     = broadcast [Float64; Float64] (fun nondimensional_link_stiffness nondimensional_end_to_end_length_per_link =>
         Finished (Some (lennard_jones_isometric_asymptotic_legendre.nondimensional_relative_helmholtz_free_energy_per_link nondimensional_link_stiffness nondimensional_end_to_end_length_per_link))) nondimensional_link_stiffness nondimensional_end_to_end_length_per_link.
Proof. reflexivity. Qed.

Lemma F_lennard_jones_isotensional_asymptotic_legendre_helmholtz_free_energy : forall (T : Type) (Sc : Scalar T) (number_of_links : jarray Z) (link_length : jarray T) (hinge_mass : jarray T) (link_stiffness : jarray T) (force : jarray T) (temperature : jarray T),
     jl_lennard_jones_isotensional_asymptotic_legendre.helmholtz_free_energy number_of_links link_length hinge_mass link_stiffness force temperature
     = broadcast [UInt8; Float64; Float64; Float64; Float64; Float64] (fun number_of_links link_length hinge_mass link_stiffness force temperature =>
         Finished (Some (lennard_jones_isotensional_asymptotic_legendre.helmholtz_free_energy number_of_links link_length hinge_mass link_stiffness force temperature))) number_of_links link_length hinge_mass link_stiffness force temperature.
Proof. reflexivity. Qed.

Lemma F_lennard_jones_isotensional_asymptotic_legendre_helmholtz_free_energy_per_link : forall (T : Type) (Sc : Scalar T) (link_length : jarray T) (hinge_mass : jarray T) (link_stiffness : jarray T) (force : jarray T) (temperature : jarray T),
     jl_lennard_jones_isotensional_asymptotic_legendre.helmholtz_free_energy_per_link link_length hinge_mass link_stiffness force temperature
     = broadcast [Float64; Float64; Float64; Float64; Float64] (fun link_length hinge_mass link_stiffness force temperature =>
         Finished (Some (lennard_jones_isotensional_asymptotic_legendre.helmholtz_free_energy_per_link link_length hinge_mass link_stiffness force temperature))) link_length hinge_mass link_stiffness force temperature.
Proof. reflexivity. Qed.

Lemma F_lennard_jones_isotensional_asymptotic_legendre_relative_helmholtz_free_energy : forall (T : Type) (Sc : Scalar T) (number_of_links : jarray Z) (link_length : jarray T) (link_stiffness : jarray T) (force : jarray T) (temperature : jarray T),
     jl_lennard_jones_isotensional_asymptotic_legendre.relative_helmholtz_free_energy number_of_links link_length link_stiffness force temperature
     = broadcast [UInt8; Float64; Float64; Float64; Float64] (fun number_of_links link_length link_stiffness force temperature =>
         Finished (Some (lennard_jones_isotensional_asymptotic_legendre.relative_helmholtz_free_energy number_of_links link_length link_stiffness force temperature))) number_of_links link_length link_stiffness force temperature.
Proof. reflexivity. Qed.

Lemma F_lennard_jones_isotensional_asymptotic_legendre_relative_helmholtz_free_energy_per_link : forall (T : Type) (Sc : Scalar T) (link_length : jarray T) (link_stiffness : jarray T) (force : jarray T) (temperature : jarray T),
     jl_lennard_jones_isotensional_asymptotic_legendre.relative_helmholtz_free_energy_per_link link_length link_stiffness force temperature
     = broadcast [Float64; Float64; Float64; Float64] (fun link_length link_stiffness force temperature =>
         Finished (Some (lennard_jones_isotensional_asymptotic_legendre.relative_helmholtz_free_energy_per_link link_length link_stiffness force temperature))) link_length link_stiffness force temperature.
Proof. reflexivity. Qed.

Lemma F_lennard_jones_isotensional_asymptotic_legendre_nondimensional_helmholtz_free_energy : forall (T : Type) (Sc : Scalar T) (number_of_links : jarray Z) (link_length : jarray T) (hinge_mass : jarray T) (nondimensional_link_stiffness : jarray T) (nondimensional_force : jarray T) (temperature : jarray T),
     jl_lennard_jones_isotensional_asymptotic_legendre.nondimensional_helmholtz_free_energy number_of_links link_length hinge_mass nondimensional_link_stiffness nondimensional_force temperature
     = broadcast [UInt8; Float64; Float64; Float64; Float64; Float64] (fun number_of_links link_length hinge_mass nondimensional_link_stiffness nondimensional_force temperature =>
         Finished (Some (lennard_jones_isotensional_asymptotic_legendre.nondimensional_helmholtz_free_energy number_of_links link_length hinge_mass nondimensional_link_stiffness nondimensional_force temperature))) number_of_links link_length hinge_mass nondimensional_link_stiffness nondimensional_force temperature.
Proof. reflexivity. Qed.

Lemma F_lennard_jones_isotensional_asymptotic_legendre_nondimensional_helmholtz_free_energy_per_link : forall (T : Type) (Sc : Scalar T) (link_length : jarray T) (hinge_mass : jarray T) (nondimensional_link_stiffness : jarray T) (nondimensional_force : jarray T) (temperature : jarray T),
     jl_lennard_jones_isotensional_asymptotic_legendre.nondimensional_helmholtz_free_energy_per_link link_length hinge_mass nondimensional_link_stiffness nondimensional_force temperature
     = broadcast [Float64; Float64; Float64; Float64; Float64] (fun link_length hinge_mass nondimensional_link_stiffness nondimensional_force temperature =>
         Finished (Some (lennard_jones_isotensional_asymptotic_legendre.nondimensional_helmholtz_free_energy_per_link link_length hinge_mass nondimensional_link_stiffness nondimensional_force temperature))) link_length hinge_mass nondimensional_link_stiffness nondimensional_force temperature.
Proof. reflexivity. Qed.

Lemma F_lennard_jones_isotensional_asymptotic_legendre_nondimensional_relative_helmholtz_free_energy : forall (T : Type) (Sc : Scalar T) (number_of_links : jarray Z) (nondimensional_link_stiffness : jarray T) (nondimensional_force : jarray T),
     jl_lennard_jones_isotensional_asymptotic_legendre.nondimensional_relative_helmholtz_free_energy number_of_links nondimensional_link_stiffness nondimensional_force
     = broadcast [UInt8; Float64; Float64] (fun number_of_links nondimensional_link_stiffness nondimensional_force =>
         Finished (Some (lennard_jones_isotensional_asymptotic_legendre.nondimensional_relative_helmholtz_free_energy number_of_links nondimensional_link_stiffness nondimensional_force))) number_of_links nondimensional_link_stiffness nondimensional_force.
Proof. reflexivity. Qed.

Lemma F_lennard_jones_isotensional_asymptotic_legendre_nondimensional_relative_helmholtz_free_energy_per_link : forall (T : Type) (Sc : Scalar T) (nondimensional_link_stiffness : jarray T) (nondimensional_force : jarray T),
     jl_lennard_jones_isotensional_asymptotic_legendre.nondimensional_relative_helmholtz_free_energy_per_link nondimensional_link_stiffness nondimensional_force
     = broadcast [Float64; Float64] (fun nondimensional_link_stiffness nondimensional_force =>
         Finished (Some (lennard_jones_isotensional_asymptotic_legendre.nondimensional_relative_helmholtz_free_energy_per_link nondimensional_link_stiffness nondimensional_force))) nondimensional_link_stiffness nondimensional_force.
Proof. reflexivity. Qed.

Lemma F_lennard_jones_isotensional_asymptotic_reduced_end_to_end_length : forall (T : Type) (Sc : Scalar T) (number_of_links : jarray Z) (link_length : jarray T) (link_stiffness : jarray T) (force : jarray T) (temperature : jarray T),
     jl_lennard_jones_isotensional_asymptotic_reduced.end_to_end_length number_of_links link_length link_stiffness force temperature
     = broadcast [UInt8; Float64; Float64; Float64; Float64] (fun number_of_links link_length link_stiffness force temperature =>
         Finished (Some (lennard_jones_isotensional_asymptotic_reduced.end_to_end_length number_of_links link_length link_stiffness force temperature))) number_of_links link_length link_stiffness force temperature.
Proof. reflexivity. Qed.

Lemma F_lennard_jones_isotensional_asymptotic_reduced_end_to_end_length_per_link : forall (T : Type) (Sc : Scalar T) (link_length : jarray T) (link_stiffness : jarray T) (force : jarray T) (temperature : jarray T),
     jl_lennard_jones_isotensional_asymptotic_reduced.end_to_end_length_per_link link_length link_stiffness force temperature
     = broadcast [Float64; Float64; Float64; Float64] (fun link_length link_stiffness force temperature =>
         Finished (Some (lennard_jones_isotensional_asymptotic_reduced.end_to_end_length_per_link link_length link_stiffness force temperature))) link_length link_stiffness force temperature.
Proof. reflexivity. Qed.

Lemma F_lennard_jones_isotensional_asymptotic_reduced_nondimensional_end_to_end_length : forall (T : Type) (Sc : Scalar T) (number_of_links : jarray Z) (nondimensional_link_stiffness : jarray T) (nondimensional_force : jarray T),
     jl_lennard_jones_isotensional_asymptotic_reduced.nondimensional_end_to_end_length number_of_links nondimensional_link_stiffness nondimensional_force
     = broadcast [UInt8; Float64; Float64] (fun number_of_links nondimensional_link_stiffness nondimensional_force =>
         Finished (Some (lennard_jones_isotensional_asymptotic_reduced.nondimensional_end_to_end_length number_of_links nondimensional_link_stiffness nondimensional_force))) number_of_links nondimensional_link_stiffness nondimensional_force.
Proof. reflexivity. Qed.

Lemma F_lennard_jones_isotensional_asymptotic_reduced_nondimensional_end_to_end_length_per_link : forall (T : Type) (Sc : Scalar T) (nondimensional_link_stiffness : jarray T) (nondimensional_force : jarray T),
     jl_lennard_jones_isotensional_asymptotic_reduced.nondimensional_end_to_end_length_per_link nondimensional_link_stiffness nondimensional_force
     = broadcast [Float64; Float64] (fun nondimensional_link_stiffness nondimensional_force =>
         Finished (Some (lennard_jones_isotensional_asymptotic_reduced.nondimensional_end_to_end_length_per_link nondimensional_link_stiffness nondimensional_force))) nondimensional_link_stiffness nondimensional_force.
Proof. reflexivity. Qed.

Lemma F_lennard_jones_isotensional_asymptotic_reduced_gibbs_free_energy : forall (T : Type) (Sc : Scalar T) (number_of_links : jarray Z) (link_length : jarray T) (hinge_mass : jarray T) (link_stiffness : jarray T) (force : jarray T) (temperature : jarray T),
     jl_lennard_jones_isotensional_asymptotic_reduced.gibbs_free_energy number_of_links link_length hinge_mass link_stiffness force temperature
     = broadcast [UInt8; Float64; Float64; Float64; Float64; Float64] (fun number_of_links link_length hinge_mass link_stiffness force temperature =>
         Finished (Some (lennard_jones_isotensional_asymptotic_reduced.gibbs_free_energy number_of_links link_length hinge_mass link_stiffness force temperature))) number_of_links link_length hinge_mass link_stiffness force temperature.
Proof. reflexivity. Qed.

Lemma F_lennard_jones_isotensional_asymptotic_reduced_gibbs_free_energy_per_link : forall (T : Type) (Sc : Scalar T) (link_length : jarray T) (hinge_mass : jarray T) (link_stiffness : jarray T) (force : jarray T) (temperature : jarray T),
     jl_lennard_jones_isotensional_asymptotic_reduced.gibbs_free_energy_per_link link_length hinge_mass link_stiffness force temperature
     = broadcast [Float64; Float64; Float64; Float64; Float64] (fun link_length hinge_mass link_stiffness force temperature =>
         Finished (Some (lennard_jones_isotensional_asymptotic_reduced.gibbs_free_energy_per_link link_length hinge_mass link_stiffness force temperature))) link_length hinge_mass link_stiffness force temperature.
Proof. reflexivity. Qed.

Lemma F_lennard_jones_isotensional_asymptotic_reduced_relative_gibbs_free_energy : forall (T : Type) (Sc : Scalar T) (number_of_links : jarray Z) (link_length : jarray T) (link_stiffness : jarray T) (force : jarray T) (temperature : jarray T),
     jl_lennard_jones_isotensional_asymptotic_reduced.relative_gibbs_free_energy number_of_links link_length link_stiffness force temperature
     = broadcast [UInt8; Float64; Float64; Float64; Float64] (fun number_of_links link_length link_stiffness force temperature =>
         Finished (Some (lennard_jones_isotensional_asymptotic_reduced.relative_gibbs_free_energy number_of_links link_length link_stiffness force temperature))) number_of_links link_length link_stiffness force temperature.
Proof. reflexivity. Qed.

Lemma F_lennard_jones_isotensional_asymptotic_reduced_relative_gibbs_free_energy_per_link : forall (T : Type) (Sc : Scalar T) (link_length : jarray T) (link_stiffness : jarray T) (force : jarray T) (temperature : jarray T),
     jl_lennard_jones_isotensional_asymptotic_reduced.relative_gibbs_free_energy_per_link link_length link_stiffness force temperature
     = broadcast [Float64; Float64; Float64; Float64] (fun link_length link_stiffness force temperature =>
         Finished (Some (lennard_jones_isotensional_asymptotic_reduced.relative_gibbs_free_energy_per_link link_length link_stiffness force temperature))) link_length link_stiffness force temperature.
Proof. reflexivity. Qed.

Lemma F_lennard_jones_isotensional_asymptotic_reduced_nondimensional_gibbs_free_energy : forall (T : Type) (Sc : Scalar T) (number_of_links : jarray Z) (link_length : jarray T) (hinge_mass : jarray T) (nondimensional_link_stiffness : jarray T) (nondimensional_force : jarray T) (temperature : jarray T),
     jl_lennard_jones_isotensional_asymptotic_reduced.nondimensional_gibbs_free_energy number_of_links link_length hinge_mass nondimensional_link_stiffness nondimensional_force temperature
     = broadcast [UInt8; Float64; Float64; Float64; Float64; Float64] (fun number_of_links link_length hinge_mass nondimensional_link_stiffness nondimensional_force temperature =>
         Finished (Some (lennard_jones_isotensional_asymptotic_reduced.nondimensional_gibbs_free_energy number_of_links link_length hinge_mass nondimensional_link_stiffness nondimensional_force temperature))) number_of_links link_length hinge_mass nondimensional_link_stiffness nondimensional_force temperature.
Proof. reflexivity. Qed.

Lemma F_lennard_jones_isotensional_asymptotic_reduced_nondimensional_gibbs_free_energy_per_link : forall (T : Type) (Sc : Scalar T) (link_length : jarray T) (hinge_mass : jarray T) (nondimensional_link_stiffness : jarray T) (nondimensional_force : jarray T) (temperature : jarray T),
     jl_lennard_jones_isotensional_asymptotic_reduced.nondimensional_gibbs_free_energy_per_link link_length hinge_mass nondimensional_link_stiffness nondimensional_force temperature
     = broadcast [Float64; Float64; Float64; Float64; Float64] (fun link_length hinge_mass nondimensional_link_stiffness nondimensional_force temperature =>
         Finished (Some (lennard_jones_isotensional_asymptotic_reduced.nondimensional_gibbs_free_energy_per_link link_length hinge_mass nondimensional_link_stiffness nondimensional_force temperature))) link_length hinge_mass nondimensional_link_stiffness nondimensional_force temperature.
Proof. reflexivity. Qed.

Lemma F_lennard_jones_isotensional_asymptotic_reduced_nondimensional_relative_gibbs_free_energy : forall (T : Type) (Sc : Scalar T) (number_of_links : jarray Z) (nondimensional_link_stiffness : jarray T) (nondimensional_force : jarray T),
     jl_lennard_jones_isotensional_asymptotic_reduced.nondimensional_relative_gibbs_free_energy number_of_links nondimensional_link_stiffness nondimensional_force
     = broadcast [UInt8; Float64; Float64] (fun number_of_links nondimensional_link_stiffness nondimensional_force =>
         Finished (Some (lennard_jones_isotensional_asymptotic_reduced.nondimensional_relative_gibbs_free_energy number_of_links nondimensional_link_stiffness nondimensional_force))) number_of_links nondimensional_link_stiffness nondimensional_force.
Proof. reflexivity. Qed.

Lemma F_lennard_jones_isotensional_asymptotic_reduced_nondimensional_relative_gibbs_free_energy_per_link : forall (T : Type) (Sc : Scalar T) (nondimensional_link_stiffness : jarray T) (nondimensional_force : jarray T),
     jl_lennard_jones_isotensional_asymptotic_reduced.nondimensional_relative_gibbs_free_energy_per_link nondimensional_link_stiffness nondimensional_force
     = broadcast [Float64; Float64] (fun nondimensional_link_stiffness nondimensional_force =>
         Finished (Some (lennard_jones_isotensional_asymptotic_reduced.nondimensional_relative_gibbs_free_energy_per_link nondimensional_link_stiffness nondimensional_force))) nondimensional_link_stiffness nondimensional_force.
Proof. reflexivity. Qed.

Lemma F_log_squared_isometric_asymptotic_legendre_force : forall (T : Type) (Sc : Scalar T) (number_of_links : jarray Z) (link_length : jarray T) (link_stiffness : jarray T) (end_to_end_length : jarray T) (temperature : jarray T),
     jl_log_squared_isometric_asymptotic_legendre.force number_of_links link_length link_stiffness end_to_end_length temperature
     = broadcast [UInt8; Float64; Float64; Float64; Float64] (fun number_of_links link_length link_stiffness end_to_end_length temperature =>
         Finished (Some (log_squared_isometric_asymptotic_legendre.force number_of_links link_length link_stiffness end_to_end_length temperature))) number_of_links link_length link_stiffness end_to_end_length temperature.
Proof. reflexivity. Qed.

Lemma F_log_squared_isometric_asymptotic_legendre_nondimensional_force : forall (T : Type) (Sc : Scalar T) (nondimensional_link_stiffness : jarray T) (nondimensional_end_to_end_length_per_link : jarray T),
     jl_log_squared_isometric_asymptotic_legendre.nondimensional_force nondimensional_link_stiffness nondimensional_end_to_end_length_per_link
     = broadcast [Float64; Float64] (fun nondimensional_link_stiffness nondimensional_end_to_end_length_per_link =>
         Finished (Some (log_squared_isometric_asymptotic_legendre.nondimensional_force nondimensional_link_stiffness nondimensional_end_to_end_length_per_link))) nondimensional_link_stiffness nondimensional_end_to_end_length_per_link.
Proof. reflexivity. Qed.

Lemma F_log_squared_isometric_asymptotic_legendre_helmholtz_free_energy : forall (T : Type) (Sc : Scalar T) (number_of_links : jarray Z) (link_length : jarray T) (hinge_mass : jarray T) (link_stiffness : jarray T) (end_to_end_length : jarray T) (temperature : jarray T),
     jl_log_squared_isometric_asymptotic_legendre.helmholtz_free_energy number_of_links link_length hinge_mass link_stiffness end_to_end_length temperature
     = broadcast [UInt8; Float64; Float64; Float64; Float64; Float64] (fun number_of_links link_length hinge_mass link_stiffness end_to_end_length temperature =>
         Finished (Some (log_squared_isometric_asymptotic_legendre.helmholtz_free_energy number_of_links link_length hinge_mass link_stiffness end_to_end_length temperature))) number_of_links link_length hinge_mass link_stiffness end_to_end_length temperature.
Proof. reflexivity. Qed.

Lemma F_log_squared_isometric_asymptotic_legendre_helmholtz_free_energy_per_link : forall (T : Type) (Sc : Scalar T) (number_of_links : jarray Z) (link_length : jarray T) (hinge_mass : jarray T) (link_stiffness : jarray T) (end_to_end_length : jarray T) (temperature : jarray T),
     jl_log_squared_isometric_asymptotic_legendre.helmholtz_free_energy_per_link number_of_links link_length hinge_mass link_stiffness end_to_end_length temperature
     = broadcast [UInt8; Float64; Float64; Float64; Float64; Float64] (fun number_of_links link_length hinge_mass link_stiffness end_to_end_length temperature =>
         Finished (Some (log_squared_isometric_asymptotic_legendre.helmholtz_free_energy_per_link number_of_links link_length hinge_mass link_stiffness end_to_end_length temperature))) number_of_links link_length hinge_mass link_stiffness end_to_end_length temperature.
Proof. reflexivity. Qed.

Lemma F_log_squared_isometric_asymptotic_legendre_relative_helmholtz_free_energy : forall (T : Type) (Sc : Scalar T) (number_of_links : jarray Z) (link_length : jarray T) (link_stiffness : jarray T) (end_to_end_length : jarray T) (temperature : jarray T),
     jl_log_squared_isometric_asymptotic_legendre.relative_helmholtz_free_energy number_of_links link_length link_stiffness end_to_end_length temperature
     = broadcast [UInt8; Float64; Float64; Float64; Float64] (fun number_of_links link_length link_stiffness end_to_end_length temperature =>
         Finished (Some (log_squared_isometric_asymptotic_legendre.relative_helmholtz_free_energy number_of_links link_length link_stiffness end_to_end_length temperature))) number_of_links link_length link_stiffness end_to_end_length temperature.
Proof. reflexivity. Qed.

Lemma F_log_squared_isometric_asymptotic_legendre_relative_helmholtz_free_energy_per_link : forall (T : Type) (Sc : Scalar T) (number_of_links : jarray Z) (link_length : jarray T) (link_stiffness : jarray T) (end_to_end_length : jarray T) (temperature : jarray T),
     jl_log_squared_isometric_asymptotic_legendre.relative_helmholtz_free_energy_per_link number_of_links link_length link_stiffness end_to_end_length temperature
     = broadcast [UInt8; Float64; Float64; Float64; Float64] (fun number_of_links link_length link_stiffness end_to_end_length temperature =>
         Finished (Some (log_squared_isometric_asymptotic_legendre.relative_helmholtz_free_energy_per_link number_of_links link_length link_stiffness end_to_end_length temperature))) number_of_links link_length link_stiffness end_to_end_length temperature.
Proof. reflexivity. Qed.

Lemma F_log_squared_isometric_asymptotic_legendre_nondimensional_helmholtz_free_energy : forall (T : Type) (Sc : Scalar T) (number_of_links : jarray Z) (link_length : jarray T) (hinge_mass : jarray T) (nondimensional_link_stiffness : jarray T) (nondimensional_end_to_end_length_per_link : jarray T) (temperature : jarray T),
     jl_log_squared_isometric_asymptotic_legendre.nondimensional_helmholtz_free_energy number_of_links link_length hinge_mass nondimensional_link_stiffness nondimensional_end_to_end_length_per_link temperature
     = broadcast [UInt8; Float64; Float64; Float64; Float64; Float64] (fun number_of_links link_length hinge_mass nondimensional_link_stiffness nondimensional_end_to_end_length_per_link temperature =>
         Finished (Some (log_squared_isometric_asymptotic_legendre.nondimensional_helmholtz_free_energy number_of_links link_length hinge_mass nondimensional_link_stiffness nondimensional_end_to_end_length_per_link temperature))) number_of_links link_length hinge_mass nondimensional_link_stiffness nondimensional_end_to_end_length_per_link temperature.
Proof. reflexivity. Qed.

Lemma F_log_squared_isometric_asymptotic_legendre_nondimensional_helmholtz_free_energy_per_link : forall (T : Type) (Sc : Scalar T) (number_of_links : jarray Z) (link_length : jarray T) (hinge_mass : jarray T) (nondimensional_link_stiffness : jarray T) (nondimensional_end_to_end_length_per_link : jarray T) (temperature : jarray T),
     jl_log_squared_isometric_asymptotic_legendre.nondimensional_helmholtz_free_energy_per_link number_of_links link_length hinge_mass nondimensional_link_stiffness nondimensional_end_to_end_length_per_link temperature
     = broadcast [UInt8; Float64; Float64; Float64; Float64; Float64] (fun number_of_links link_length hinge_mass nondimensional_link_stiffness nondimensional_end_to_end_length_per_link temperature =>
         Finished (Some (log_squared_isometric_asymptotic_legendre.nondimensional_helmholtz_free_energy_per_link number_of_links link_length hinge_mass nondimensional_link_stiffness nondimensional_end_to_end_length_per_link temperature))) number_of_links link_length hinge_mass nondimensional_link_stiffness nondimensional_end_to_end_length_per_link temperature.
Proof. reflexivity. Qed.

Lemma F_log_squared_isometric_asymptotic_legendre_nondimensional_relative_helmholtz_free_energy : forall (T : Type) (Sc : Scalar T) (number_of_links : jarray Z) (nondimensional_link_stiffness : jarray T) (nondimensional_end_to_end_length_per_link : jarray T),
     jl_log_squared_isometric_asymptotic_legendre.nondimensional_relative_helmholtz_free_energy number_of_links nondimensional_link_stiffness nondimensional_end_to_end_length_per_link
     = broadcast [UInt8; Float64; Float64] (fun number_of_links nondimensional_link_stiffness nondimensional_end_to_end_length_per_link =>
         Finished (Some (log_squared_isometric_asymptotic_legendre.nondimensional_relative_helmholtz_free_energy number_of_links nondimensional_link_stiffness nondimensional_end_to_end_length_per_link))) number_of_links nondimensional_link_stiffness nondimensional_end_to_end_length_per_link.
Proof. reflexivity. Qed.

Lemma F_log_squared_isometric_asymptotic_legendre_nondimensional_relative_helmholtz_free_energy_per_link : forall (T : Type) (Sc : Scalar T) (nondimensional_link_stiffness : jarray T) (nondimensional_end_to_end_length_per_link : jarray T),
     jl_log_squared_isometric_asymptotic_legendre.nondimensional_relative_helmholtz_free_energy_per_link nondimensional_link_stiffness nondimensional_end_to_end_length_per_link
     = broadcast [Float64; Float64] (fun nondimensional_link_stiffness nondimensional_end_to_end_length_per_link =>
         Finished (Some (log_squared_isometric_asymptotic_legendre.nondimensional_relative_helmholtz_free_energy_per_link nondimensional_link_stiffness nondimensional_end_to_end_length_per_link))) nondimensional_link_stiffness nondimensional_end_to_end_length_per_link.
Proof. reflexivity. Qed.

Lemma F_log_squared_isotensional_asymptotic_legendre_helmholtz_free_energy : forall (T : Type) (Sc : Scalar T) (number_of_links : jarray Z) (link_length : jarray T) (hinge_mass : jarray T) (link_stiffness : jarray T) (force : jarray T) (temperature : jarray T),
     jl_log_squared_isotensional_asymptotic_legendre.helmholtz_free_energy number_of_links link_length hinge_mass link_stiffness force temperature
     = broadcast [UInt8; Float64; Float64; Float64; Float64; Float64] (fun number_of_links link_length hinge_mass link_stiffness force temperature =>
         Finished (Some (log_squared_isotensional_asymptotic_legendre.helmholtz_free_energy number_of_links link_length hinge_mass link_stiffness force temperature))) number_of_links link_length hinge_mass link_stiffness force temperature.
Proof. reflexivity. Qed.

Lemma F_log_squared_isotensional_asymptotic_legendre_helmholtz_free_energy_per_link : forall (T : Type) (Sc : Scalar T) (link_length : jarray T) (hinge_mass : jarray T) (link_stiffness : jarray T) (force : jarray T) (temperature : jarray T),
     jl_log_squared_isotensional_asymptotic_legendre.helmholtz_free_energy_per_link link_length hinge_mass link_stiffness force temperature
     = broadcast [Float64; Float64; Float64; Float64; Float64] (fun link_length hinge_mass link_stiffness force temperature =>
         Finished (Some (log_squared_isotensional_asymptotic_legendre.helmholtz_free_energy_per_link link_length hinge_mass link_stiffness force temperature))) link_length hinge_mass link_stiffness force temperature.
Proof. reflexivity. Qed.

Lemma F_log_squared_isotensional_asymptotic_legendre_relative_helmholtz_free_energy : forall (T : Type) (Sc : Scalar T) (number_of_links : jarray Z) (link_length : jarray T) (link_stiffness : jarray T) (force : jarray T) (temperature : jarray T),
     jl_log_squared_isotensional_asymptotic_legendre.relative_helmholtz_free_energy number_of_links link_length link_stiffness force temperature
     = broadcast [UInt8; Float64; Float64; Float64; Float64] (fun number_of_links link_length link_stiffness force temperature =>
         Finished (Some (log_squared_isotensional_asymptotic_legendre.relative_helmholtz_free_energy number_of_links link_length link_stiffness force temperature))) number_of_links link_length link_stiffness force temperature.
Proof. reflexivity. Qed.

Lemma F_log_squared_isotensional_asymptotic_legendre_relative_helmholtz_free_energy_per_link : forall (T : Type) (Sc : Scalar T) (link_length : jarray T) (link_stiffness : jarray T) (force : jarray T) (temperature : jarray T),
     jl_log_squared_isotensional_asymptotic_legendre.relative_helmholtz_free_energy_per_link link_length link_stiffness force temperature
     = broadcast [Float64; Float64; Float64; Float64] (fun link_length link_stiffness force temperature =>
         Finished (Some (log_squared_isotensional_asymptotic_legendre.relative_helmholtz_free_energy_per_link link_length link_stiffness force temperature))) link_length link_stiffness force temperature.
Proof. reflexivity. Qed.

Lemma F_log_squared_isotensional_asymptotic_legendre_nondimensional_helmholtz_free_energy : forall (T : Type) (Sc : Scalar T) (number_of_links : jarray Z) (link_length : jarray T) (hinge_mass : jarray T) (nondimensional_link_stiffness : jarray T) (nondimensional_force : jarray T) (temperature : jarray T),
     jl_log_squared_isotensional_asymptotic_legendre.nondimensional_helmholtz_free_energy number_of_links link_length hinge_mass nondimensional_link_stiffness nondimensional_force temperature
     = broadcast [UInt8; Float64; Float64; Float64; Float64; Float64] (fun number_of_links link_length hinge_mass nondimensional_link_stiffness nondimensional_force temperature =>
         Finished (Some (log_squared_isotensional_asymptotic_legendre.nondimensional_helmholtz_free_energy number_of_links link_length hinge_mass nondimensional_link_stiffness nondimensional_force temperature))) number_of_links link_length hinge_mass nondimensional_link_stiffness nondimensional_force temperature.
Proof. reflexivity. Qed.

Lemma F_log_squared_isotensional_asymptotic_legendre_nondimensional_helmholtz_free_energy_per_link : forall (T : Type) (Sc : Scalar T) (link_length : jarray T) (hinge_mass : jarray T) (nondimensional_link_stiffness : jarray T) (nondimensional_force : jarray T) (temperature : jarray T),
     jl_log_squared_isotensional_asymptotic_legendre.nondimensional_helmholtz_free_energy_per_link link_length hinge_mass nondimensional_link_stiffness nondimensional_force temperature
     = broadcast [Float64; Float64; Float64; Float64; Float64] (fun link_length hinge_mass nondimensional_link_stiffness nondimensional_force temperature =>
         Finished (Some (log_squared_isotensional_asymptotic_legendre.nondimensional_helmholtz_free_energy_per_link link_length hinge_mass nondimensional_link_stiffness nondimensional_force temperature))) link_length hinge_mass nondimensional_link_stiffness nondimensional_force temperature.
Proof. reflexivity. Qed.

Lemma F_log_squared_isotensional_asymptotic_legendre_nondimensional_relative_helmholtz_free_energy : forall (T : Type) (Sc : Scalar T) (number_of_links : jarray Z) (nondimensional_link_stiffness : jarray T) (nondimensional_force : jarray T),
     jl_log_squared_isotensional_asymptotic_legendre.nondimensional_relative_helmholtz_free_energy number_of_links nondimensional_link_stiffness nondimensional_force
     = broadcast [UInt8; Float64; Float64] (fun number_of_links nondimensional_link_stiffness nondimensional_force =>
         Finished (Some (log_squared_isotensional_asymptotic_legendre.nondimensional_relative_helmholtz_free_energy number_of_links nondimensional_link_stiffness nondimensional_force))) number_of_links nondimensional_link_stiffness nondimensional_force.
Proof. reflexivity. Qed.

Lemma F_log_squared_isotensional_asymptotic_legendre_nondimensional_relative_helmholtz_free_energy_per_link : forall (T : Type) (Sc : Scalar T) (nondimensional_link_stiffness : jarray T) (nondimensional_force : jarray T),
     jl_log_squared_isotensional_asymptotic_legendre.nondimensional_relative_helmholtz_free_energy_per_link nondimensional_link_stiffness nondimensional_force
     = broadcast [Float64; Float64] (fun nondimensional_link_stiffness nondimensional_force =>
         Finished (Some (log_squared_isotensional_asymptotic_legendre.nondimensional_relative_helmholtz_free_energy_per_link nondimensional_link_stiffness nondimensional_force))) nondimensional_link_stiffness nondimensional_force.
Proof. reflexivity. Qed.

Lemma F_log_squared_isotensional_asymptotic_reduced_end_to_end_length : forall (T : Type) (Sc : Scalar T) (number_of_links : jarray Z) (link_length : jarray T) (link_stiffness : jarray T) (force : jarray T) (temperature : jarray T),
     jl_log_squared_isotensional_asymptotic_reduced.end_to_end_length number_of_links link_length link_stiffness force temperature
     = broadcast [UInt8; Float64; Float64; Float64; Float64] (fun number_of_links link_length link_stiffness force temperature =>
         Finished (Some (log_squared_isotensional_asymptotic_reduced.end_to_end_length number_of_links link_length link_stiffness force temperature))) number_of_links link_length link_stiffness force temperature.
Proof. reflexivity. Qed.

Lemma F_log_squared_isotensional_asymptotic_reduced_end_to_end_length_per_link : forall (T : Type) (Sc : Scalar T) (link_length : jarray T) (link_stiffness : jarray T) (force : jarray T) (temperature : jarray T),
     jl_log_squared_isotensional_asymptotic_reduced.end_to_end_length_per_link link_length link_stiffness force temperature
     = broadcast [Float64; Float64; Float64; Float64] (fun link_length link_stiffness force temperature =>
         Finished (Some (log_squared_isotensional_asymptotic_reduced.end_to_end_length_per_link link_length link_stiffness force temperature))) link_length link_stiffness force temperature.
Proof. reflexivity. Qed.

Lemma F_log_squared_isotensional_asymptotic_reduced_nondimensional_end_to_end_length : forall (T : Type) (Sc : Scalar T) (number_of_links : jarray Z) (nondimensional_link_stiffness : jarray T) (nondimensional_force : jarray T),
     jl_log_squared_isotensional_asymptotic_reduced.nondimensional_end_to_end_length number_of_links nondimensional_link_stiffness nondimensional_force
     = broadcast [UInt8; Float64; Float64] (fun number_of_links nondimensional_link_stiffness nondimensional_force =>
         Finished (Some (log_squared_isotensional_asymptotic_reduced.nondimensional_end_to_end_length number_of_links nondimensional_link_stiffness nondimensional_force))) number_of_links nondimensional_link_stiffness nondimensional_force.
Proof. reflexivity. Qed.

Lemma F_log_squared_isotensional_asymptotic_reduced_nondimensional_end_to_end_length_per_link : forall (T : Type) (Sc : Scalar T) (nondimensional_link_stiffness : jarray T) (nondimensional_force : jarray T),
     jl_log_squared_isotensional_asymptotic_reduced.nondimensional_end_to_end_length_per_link nondimensional_link_stiffness nondimensional_force
     = broadcast [Float64; Float64] (fun nondimensional_link_stiffness nondimensional_force =>
         Finished (Some (log_squared_isotensional_asymptotic_reduced.nondimensional_end_to_end_length_per_link nondimensional_link_stiffness nondimensional_force))) nondimensional_link_stiffness nondimensional_force.
Proof. reflexivity. Qed.

Lemma F_log_squared_isotensional_asymptotic_reduced_gibbs_free_energy : forall (T : Type) (Sc : Scalar T) (number_of_links : jarray Z) (link_length : jarray T) (hinge_mass : jarray T) (link_stiffness : jarray T) (force : jarray T) (temperature : jarray T),
     jl_log_squared_isotensional_asymptotic_reduced.gibbs_free_energy number_of_links link_length hinge_mass link_stiffness force temperature
     = broadcast [UInt8; Float64; Float64; Float64; Float64; Float64] (fun number_of_links link_length hinge_mass link_stiffness force temperature =>
         Finished (Some (log_squared_isotensional_asymptotic_reduced.gibbs_free_energy number_of_links link_length hinge_mass link_stiffness force temperature))) number_of_links link_length hinge_mass link_stiffness force temperature.
Proof. reflexivity. Qed.

Lemma F_log_squared_isotensional_asymptotic_reduced_gibbs_free_energy_per_link : forall (T : Type) (Sc : Scalar T) (link_length : jarray T) (hinge_mass : jarray T) (link_stiffness : jarray T) (force : jarray T) (temperature : jarray T),
     jl_log_squared_isotensional_asymptotic_reduced.gibbs_free_energy_per_link link_length hinge_mass link_stiffness force temperature
     = broadcast [Float64; Float64; Float64; Float64; Float64] (fun link_length hinge_mass link_stiffness force temperature =>
         Finished (Some (log_squared_isotensional_asymptotic_reduced.gibbs_free_energy_per_link link_length hinge_mass link_stiffness force temperature))) link_length hinge_mass link_stiffness force temperature.
Proof. reflexivity. Qed.

Lemma F_log_squared_isotensional_asymptotic_reduced_relative_gibbs_free_energy : forall (T : Type) (Sc : Scalar T) (number_of_links : jarray Z) (link_length : jarray T) (link_stiffness : jarray T) (force : jarray T) (temperature : jarray T),
     jl_log_squared_isotensional_asymptotic_reduced.relative_gibbs_free_energy number_of_links link_length link_stiffness force temperature
     = broadcast [UInt8; Float64; Float64; Float64; Float64] (fun number_of_links link_length link_stiffness force temperature =>
         Finished (Some (log_squared_isotensional_asymptotic_reduced.relative_gibbs_free_energy number_of_links link_length link_stiffness force temperature))) number_of_links link_length link_stiffness force temperature.
Proof. reflexivity. Qed.

Lemma F_log_squared_isotensional_asymptotic_reduced_relative_gibbs_free_energy_per_link : forall (T : Type) (Sc : Scalar T) (link_length : jarray T) (link_stiffness : jarray T) (force : jarray T) (temperature : jarray T),
     jl_log_squared_isotensional_asymptotic_reduced.relative_gibbs_free_energy_per_link link_length link_stiffness force temperature
     = broadcast [Float64; Float64; Float64; Float64] (fun link_length link_stiffness force temperature =>
         Finished (Some (log_squared_isotensional_asymptotic_reduced.relative_gibbs_free_energy_per_link link_length link_stiffness force temperature))) link_length link_stiffness force temperature.
Proof. reflexivity. Qed.

Lemma F_log_squared_isotensional_asymptotic_reduced_nondimensional_gibbs_free_energy : forall (T : Type) (Sc : Scalar T) (number_of_links : jarray Z) (link_length : jarray T) (hinge_mass : jarray T) (nondimensional_link_stiffness : jarray T) (nondimensional_force : jarray T) (temperature : jarray T),
     jl_log_squared_isotensional_asymptotic_reduced.nondimensional_gibbs_free_energy number_of_links link_length hinge_mass nondimensional_link_stiffness nondimensional_force temperature
     = broadcast [UInt8; Float64; Float64; Float64; Float64; Float64] (fun number_of_links link_length hinge_mass nondimensional_link_stiffness nondimensional_force temperature =>
         Finished (Some (log_squared_isotensional_asymptotic_reduced.nondimensional_gibbs_free_energy number_of_links link_length hinge_mass nondimensional_link_stiffness nondimensional_force temperature))) number_of_links link_length hinge_mass nondimensional_link_stiffness nondimensional_force temperature.
Proof. reflexivity. Qed.

Lemma F_log_squared_isotensional_asymptotic_reduced_nondimensional_gibbs_free_energy_per_link : forall (T : Type) (Sc : Scalar T) (link_length : jarray T) (hinge_mass : jarray T) (nondimensional_link_stiffness : jarray T) (nondimensional_force : jarray T) (temperature : jarray T),
     jl_log_squared_isotensional_asymptotic_reduced.nondimensional_gibbs_free_energy_per_link link_length hinge_mass nondimensional_link_stiffness nondimensional_force temperature
     = broadcast [Float64; Float64; Float64; Float64; Float64] (fun link_length hinge_mass nondimensional_link_stiffness nondimensional_force temperature =>
         Finished (Some (log_squared_isotensional_asymptotic_reduced.nondimensional_gibbs_free_energy_per_link link_length hinge_mass nondimensional_link_stiffness nondimensional_force temperature))) link_length hinge_mass nondimensional_link_stiffness nondimensional_force temperature.
Proof. reflexivity. Qed.

Lemma F_log_squared_isotensional_asymptotic_reduced_nondimensional_relative_gibbs_free_energy : forall (T : Type) (Sc : Scalar T) (number_of_links : jarray Z) (nondimensional_link_stiffness : jarray T) (nondimensional_force : jarray T),
     jl_log_squared_isotensional_asymptotic_reduced.nondimensional_relative_gibbs_free_energy number_of_links nondimensional_link_stiffness nondimensional_force
     = broadcast [UInt8; Float64; Float64] (fun number_of_links nondimensional_link_stiffness nondimensional_force =>
         Finished (Some (log_squared_isotensional_asymptotic_reduced.nondimensional_relative_gibbs_free_energy number_of_links nondimensional_link_stiffness nondimensional_force))) number_of_links nondimensional_link_stiffness nondimensional_force.
Proof. reflexivity. Qed.

Lemma F_log_squared_isotensional_asymptotic_reduced_nondimensional_relative_gibbs_free_energy_per_link : forall (T : Type) (Sc : Scalar T) (nondimensional_link_stiffness : jarray T) (nondimensional_force : jarray T),
     jl_log_squared_isotensional_asymptotic_reduced.nondimensional_relative_gibbs_free_energy_per_link nondimensional_link_stiffness nondimensional_force
     = broadcast [Float64; Float64] (fun nondimensional_link_stiffness nondimensional_force =>
         Finished (Some (log_squared_isotensional_asymptotic_reduced.nondimensional_relative_gibbs_free_energy_per_link nondimensional_link_stiffness nondimensional_force))) nondimensional_link_stiffness nondimensional_force.
Proof. reflexivity. Qed.

Lemma F_morse_isometric_asymptotic_legendre_force : forall (T : Type) (Sc : Scalar T) (number_of_links : jarray Z) (link_length : jarray T) (link_stiffness : jarray T) (link_energy : jarray T) (end_to_end_length : jarray T) (temperature : jarray T),
     jl_morse_isometric_asymptotic_legendre.force number_of_links link_length link_stiffness link_energy end_to_end_length temperature
     = broadcast [UInt8; Float64; Float64; Float64; Float64; Float64] (fun number_of_links link_length link_stiffness link_energy end_to_end_length temperature =>
         Finished (Some (morse_isometric_asymptotic_legendre.force number_of_links link_length link_stiffness link_energy end_to_end_length temperature))) number_of_links link_length link_stiffness link_energy end_to_end_length temperature.
Proof. reflexivity. Qed.

Lemma F_morse_isometric_asymptotic_legendre_nondimensional_force : forall (T : Type) (Sc : Scalar T) (nondimensional_link_stiffness : jarray T) (nondimensional_link_energy : jarray T) (nondimensional_end_to_end_length_per_link : jarray T),
     jl_morse_isometric_asymptotic_legendre.nondimensional_force nondimensional_link_stiffness nondimensional_link_energy nondimensional_end_to_end_length_per_link
     = broadcast [Float64; Float64; Float64] (fun nondimensional_link_stiffness nondimensional_link_energy nondimensional_end_to_end_length_per_link =>
         Finished (Some (morse_isometric_asymptotic_legendre.nondimensional_force nondimensional_link_stiffness nondimensional_link_energy nondimensional_end_to_end_length_per_link))) nondimensional_link_stiffness nondimensional_link_energy nondimensional_end_to_end_length_per_link.
Proof. reflexivity. Qed.

Lemma F_morse_isometric_asymptotic_legendre_helmholtz_free_energy : forall (T : Type) (Sc : Scalar T) (number_of_links : jarray Z) (link_length : jarray T) (hinge_mass : jarray T) (link_stiffness : jarray T) (link_energy : jarray T) (end_to_end_length : jarray T) (temperature : jarray T),
     jl_morse_isometric_asymptotic_legendre.helmholtz_free_energy number_of_links link_length hinge_mass link_stiffness link_energy end_to_end_length temperature
     = broadcast [UInt8; Float64; Float64; Float64; Float64; Float64; Float64] (fun number_of_links link_length hinge_mass link_stiffness link_energy end_to_end_length temperature =>
         Finished (Some (morse_isometric_asymptotic_legendre.helmholtz_free_energy number_of_links link_length hinge_mass link_stiffness link_energy end_to_end_length temperature))) number_of_links link_length hinge_mass link_stiffness link_energy end_to_end_length temperature.
Proof. reflexivity. Qed.

Lemma F_morse_isometric_asymptotic_legendre_helmholtz_free_energy_per_link : forall (T : Type) (Sc : Scalar T) (number_of_links : jarray Z) (link_length : jarray T) (hinge_mass : jarray T) (link_stiffness : jarray T) (link_energy : jarray T) (end_to_end_length : jarray T) (temperature : jarray T),
     jl_morse_isometric_asymptotic_legendre.helmholtz_free_energy_per_link number_of_links link_length hinge_mass link_stiffness link_energy end_to_end_length temperature
     = broadcast [UInt8; Float64; Float64; Float64; Float64; Float64; Float64] (fun number_of_links link_length hinge_mass link_stiffness link_energy end_to_end_length temperature =>
         Finished (Some (morse_isometric_asymptotic_legendre.helmholtz_free_energy_per_link number_of_links link_length hinge_mass link_stiffness link_energy end_to_end_length temperature))) number_of_links link_length hinge_mass link_stiffness link_energy end_to_end_length temperature.
Proof. reflexivity. Qed.

Lemma F_morse_isometric_asymptotic_legendre_relative_helmholtz_free_energy : forall (T : Type) (Sc : Scalar T) (number_of_links : jarray Z) (link_length : jarray T) (link_stiffness : jarray T) (link_energy : jarray T) (end_to_end_length : jarray T) (temperature : jarray T),
     jl_morse_isometric_asymptotic_legendre.relative_helmholtz_free_energy number_of_links link_length link_stiffness link_energy end_to_end_length temperature
     = broadcast [UInt8; Float64; Float64; Float64; Float64; Float64] (fun number_of_links link_length link_stiffness link_energy end_to_end_length temperature =>
         Finished (Some (morse_isometric_asymptotic_legendre.relative_helmholtz_free_energy number_of_links link_length link_stiffness link_energy end_to_end_length temperature))) number_of_links link_length link_stiffness link_energy end_to_end_length temperature.
Proof. reflexivity. Qed.

Lemma F_morse_isometric_asymptotic_legendre_relative_helmholtz_free_energy_per_link : forall (T : Type) (Sc : Scalar T) (number_of_links : jarray Z) (link_length : jarray T) (link_stiffness : jarray T) (link_energy : jarray T) (end_to_end_length : jarray T) (temperature : jarray T),
     jl_morse_isometric_asymptotic_legendre.relative_helmholtz_free_energy_per_link number_of_links link_length link_stiffness link_energy end_to_end_length temperature
     = broadcast [UInt8; Float64; Float64; Float64; Float64; Float64] (fun number_of_links link_length link_stiffness link_energy end_to_end_length temperature =>
         Finished (Some (morse_isometric_asymptotic_legendre.relative_helmholtz_free_energy_per_link number_of_links link_length link_stiffness link_energy end_to_end_length temperature))) number_of_links link_length link_stiffness link_energy end_to_end_length temperature.
Proof. reflexivity. Qed.

Lemma F_morse_isometric_asymptotic_legendre_nondimensional_helmholtz_free_energy : forall (T : Type) (Sc : Scalar T) (number_of_links : jarray Z) (link_length : jarray T) (hinge_mass : jarray T) (nondimensional_link_stiffness : jarray T) (nondimensional_link_energy : jarray T) (nondimensional_end_to_end_length_per_link : jarray T) (temperature : jarray T),
     jl_morse_isometric_asymptotic_legendre.nondimensional_helmholtz_free_energy number_of_links link_length hinge_mass nondimensional_link_stiffness nondimensional_link_energy nondimensional_end_to_end_length_per_link temperature
     = broadcast [UInt8; Float64; Float64; Float64; Float64; Float64; Float64] (fun number_of_links link_length hinge_mass nondimensional_link_stiffness nondimensional_link_energy nondimensional_end_to_end_length_per_link temperature =>
         Finished (Some (morse_isometric_asymptotic_legendre.nondimensional_helmholtz_free_energy number_of_links link_length hinge_mass nondimensional_link_stiffness nondimensional_link_energy nondimensional_end_to_end_length_per_link temperature))) number_of_links link_length hinge_mass nondimensional_link_stiffness nondimensional_link_energy nondimensional_end_to_end_length_per_link temperature.
Proof. reflexivity. Qed.

Lemma F_morse_isometric_asymptotic_legendre_nondimensional_helmholtz_free_energy_per_link : forall (T : Type) (Sc : Scalar T) (number_of_links : jarray Z) (link_length : jarray T) (hinge_mass : jarray T) (nondimensional_link_stiffness : jarray T) (nondimensional_link_energy : jarray T) (nondimensional_end_to_end_length_per_link : jarray T) (temperature : jarray T),
     jl_morse_isometric_asymptotic_legendre.nondimensional_helmholtz_free_energy_per_link number_of_links link_length hinge_mass nondimensional_link_stiffness nondimensional_link_energy nondimensional_end_to_end_length_per_link temperature
     = broadcast [UInt8; Float64; Float64; Float64; Float64; Float64; Float64] (fun number_of_links link_length hinge_mass nondimensional_link_stiffness nondimensional_link_energy nondimensional_end_to_end_length_per_link temperature =>
         Finished (Some (morse_isometric_asymptotic_legendre.nondimensional_helmholtz_free_energy_per_link number_of_links link_length hinge_mass nondimensional_link_stiffness nondimensional_link_energy nondimensional_end_to_end_length_per_link temperature))) number_of_links link_length hinge_mass nondimensional_link_stiffness nondimensional_link_energy nondimensional_end_to_end_length_per_link temperature.
Proof. reflexivity. Qed.

Lemma F_morse_isometric_asymptotic_legendre_nondimensional_relative_helmholtz_free_energy : forall (T : Type) (Sc : Scalar T) (number_of_links : jarray Z) (nondimensional_link_stiffness : jarray T) (nondimensional_link_energy : jarray T) (nondimensional_end_to_end_length_per_link : jarray T),
     jl_morse_isometric_asymptotic_legendre.nondimensional_relative_helmholtz_free_energy number_of_links nondimensional_link_stiffness nondimensional_link_energy nondimensional_end_to_end_length_per_link
     = broadcast [UInt8; Float64; Float64; Float64] (fun number_of_links nondimensional_link_stiffness nondimensional_link_energy nondimensional_end_to_end_length_per_link =>
         Finished (Some (morse_isometric_asymptotic_legendre.nondimensional_relative_helmholtz_free_energy number_of_links nondimensional_link_stiffness nondimensional_link_energy nondimensional_end_to_end_length_per_link))) number_of_links nondimensional_link_stiffness nondimensional_link_energy nondimensional_end_to_end_length_per_link.
Proof. reflexivity. Qed.

Lemma F_morse_isometric_asymptotic_legendre_nondimensional_relative_helmholtz_free_energy_per_link : forall (T : Type) (Sc : Scalar T) (nondimensional_link_stiffness : jarray T) (nondimensional_link_energy : jarray T) (nondimensional_end_to_end_length_per_link : jarray T),
     jl_morse_isometric_asymptotic_legendre.nondimensional_relative_helmholtz_free_energy_per_link nondimensional_link_stiffness nondimensional_link_energy nondimensional_end_to_end_length_per_link
     = broadcast [Float64; Float64; Float64] (fun nondimensional_link_stiffness nondimensional_link_energy nondimensional_end_to_end_length_per_link =>
         Finished (Some (morse_isometric_asymptotic_legendre.nondimensional_relative_helmholtz_free_energy_per_link nondimensional_link_stiffness nondimensional_link_energy nondimensional_end_to_end_length_per_link))) nondimensional_link_stiffness nondimensional_link_energy nondimensional_end_to_end_length_per_link.
Proof. reflexivity. Qed.

Lemma F_morse_isotensional_asymptotic_legendre_helmholtz_free_energy : forall (T : Type) (Sc : Scalar T) (number_of_links : jarray Z) (link_length : jarray T) (hinge_mass : jarray T) (link_stiffness : jarray T) (link_energy : jarray T) (force : jarray T) (temperature : jarray T),
     jl_morse_isotensional_asymptotic_legendre.helmholtz_free_energy number_of_links link_length hinge_mass link_stiffness link_energy force temperature
     = broadcast [UInt8; Float64; Float64; Float64; Float64; Float64; Float64] (fun number_of_links link_length hinge_mass link_stiffness link_energy force temperature =>
         Finished (Some (morse_isotensional_asymptotic_legendre.helmholtz_free_energy number_of_links link_length hinge_mass link_stiffness link_energy force temperature))) number_of_links link_length hinge_mass link_stiffness link_energy force temperature.
Proof. reflexivity. Qed.

Lemma F_morse_isotensional_asymptotic_legendre_helmholtz_free_energy_per_link : forall (T : Type) (Sc : Scalar T) (link_length : jarray T) (hinge_mass : jarray T) (link_stiffness : jarray T) (link_energy : jarray T) (force : jarray T) (temperature : jarray T),
     jl_morse_isotensional_asymptotic_legendre.helmholtz_free_energy_per_link link_length hinge_mass link_stiffness link_energy force temperature
     = broadcast [Float64; Float64; Float64; Float64; Float64; Float64] (fun link_length hinge_mass link_stiffness link_energy force temperature =>
         Finished (Some (morse_isotensional_asymptotic_legendre.helmholtz_free_energy_per_link link_length hinge_mass link_stiffness link_energy force temperature))) link_length hinge_mass link_stiffness link_energy force temperature.
Proof. reflexivity. Qed.

Lemma F_morse_isotensional_asymptotic_legendre_relative_helmholtz_free_energy : forall (T : Type) (Sc : Scalar T) (number_of_links : jarray Z) (link_length : jarray T) (link_stiffness : jarray T) (link_energy : jarray T) (force : jarray T) (temperature : jarray T),
     jl_morse_isotensional_asymptotic_legendre.relative_helmholtz_free_energy number_of_links link_length link_stiffness link_energy force temperature
     = broadcast [UInt8; Float64; Float64; Float64; Float64; Float64] (fun number_of_links link_length link_stiffness link_energy force temperature =>
         Finished (Some (morse_isotensional_asymptotic_legendre.relative_helmholtz_free_energy number_of_links link_length link_stiffness link_energy force temperature))) number_of_links link_length link_stiffness link_energy force temperature.
Proof. reflexivity. Qed.

Lemma F_morse_isotensional_asymptotic_legendre_relative_helmholtz_free_energy_per_link : forall (T : Type) (Sc : Scalar T) (link_length : jarray T) (link_stiffness : jarray T) (link_energy : jarray T) (force : jarray T) (temperature : jarray T),
     jl_morse_isotensional_asymptotic_legendre.relative_helmholtz_free_energy_per_link link_length link_stiffness link_energy force temperature
     = broadcast [Float64; Float64; Float64; Float64; Float64] (fun link_length link_stiffness link_energy force temperature =>
         Finished (Some (morse_isotensional_asymptotic_legendre.relative_helmholtz_free_energy_per_link link_length link_stiffness link_energy force temperature))) link_length link_stiffness link_energy force temperature.
Proof. reflexivity. Qed.

Lemma F_morse_isotensional_asymptotic_legendre_nondimensional_helmholtz_free_energy : forall (T : Type) (Sc : Scalar T) (number_of_links : jarray Z) (link_length : jarray T) (hinge_mass : jarray T) (nondimensional_link_stiffness : jarray T) (nondimensional_link_energy : jarray T) (nondimensional_force : jarray T) (temperature : jarray T),
     jl_morse_isotensional_asymptotic_legendre.nondimensional_helmholtz_free_energy number_of_links link_length hinge_mass nondimensional_link_stiffness nondimensional_link_energy nondimensional_force temperature
     = broadcast [UInt8; Float64; Float64; Float64; Float64; Float64; Float64] (fun number_of_links link_length hinge_mass nondimensional_link_stiffness nondimensional_link_energy nondimensional_force temperature =>
         Finished (Some (morse_isotensional_asymptotic_legendre.nondimensional_helmholtz_free_energy number_of_links link_length hinge_mass nondimensional_link_stiffness nondimensional_link_energy nondimensional_force temperature))) number_of_links link_length hinge_mass nondimensional_link_stiffness nondimensional_link_energy nondimensional_force temperature.
Proof. reflexivity. Qed.

Lemma F_morse_isotensional_asymptotic_legendre_nondimensional_helmholtz_free_energy_per_link : forall (T : Type) (Sc : Scalar T) (link_length : jarray T) (hinge_mass : jarray T) (nondimensional_link_stiffness : jarray T) (nondimensional_link_energy : jarray T) (nondimensional_force : jarray T) (temperature : jarray T),
     jl_morse_isotensional_asymptotic_legendre.nondimensional_helmholtz_free_energy_per_link link_length hinge_mass nondimensional_link_stiffness nondimensional_link_energy nondimensional_force temperature
     = broadcast [Float64; Float64; Float64; Float64; Float64; Float64] (fun link_length hinge_mass nondimensional_link_stiffness nondimensional_link_energy nondimensional_force temperature =>
         Finished (Some (morse_isotensional_asymptotic_legendre.nondimensional_helmholtz_free_energy_per_link link_length hinge_mass nondimensional_link_stiffness nondimensional_link_energy nondimensional_force temperature))) link_length hinge_mass nondimensional_link_stiffness nondimensional_link_energy nondimensional_force temperature.
Proof. reflexivity. Qed.

Lemma F_morse_isotensional_asymptotic_legendre_nondimensional_relative_helmholtz_free_energy : forall (T : Type) (Sc : Scalar T) (number_of_links : jarray Z) (nondimensional_link_stiffness : jarray T) (nondimensional_link_energy : jarray T) (nondimensional_force : jarray T),
     jl_morse_isotensional_asymptotic_legendre.nondimensional_relative_helmholtz_free_energy number_of_links nondimensional_link_stiffness nondimensional_link_energy nondimensional_force
     = broadcast [UInt8; Float64; Float64; Float64] (fun number_of_links nondimensional_link_stiffness nondimensional_link_energy nondimensional_force =>
         Finished (Some (morse_isotensional_asymptotic_legendre.nondimensional_relative_helmholtz_free_energy number_of_links nondimensional_link_stiffness nondimensional_link_energy nondimensional_force))) number_of_links nondimensional_link_stiffness nondimensional_link_energy nondimensional_force.
Proof. reflexivity. Qed.

Lemma F_morse_isotensional_asymptotic_legendre_nondimensional_relative_helmholtz_free_energy_per_link : forall (T : Type) (Sc : Scalar T) (nondimensional_link_stiffness : jarray T) (nondimensional_link_energy : jarray T) (nondimensional_force : jarray T),
     jl_morse_isotensional_asymptotic_legendre.nondimensional_relative_helmholtz_free_energy_per_link nondimensional_link_stiffness nondimensional_link_energy nondimensional_force
     = broadcast [Float64; Float64; Float64] (fun nondimensional_link_stiffness nondimensional_link_energy nondimensional_force =>
         Finished (Some (morse_isotensional_asymptotic_legendre.nondimensional_relative_helmholtz_free_energy_per_link nondimensional_link_stiffness nondimensional_link_energy nondimensional_force))) nondimensional_link_stiffness nondimensional_link_energy nondimensional_force.
Proof. reflexivity. Qed.

Lemma F_morse_isotensional_asymptotic_reduced_end_to_end_length : forall (T : Type) (Sc : Scalar T) (number_of_links : jarray Z) (link_length : jarray T) (link_stiffness : jarray T) (link_energy : jarray T) (force : jarray T) (temperature : jarray T),
     jl_morse_isotensional_asymptotic_reduced.end_to_end_length number_of_links link_length link_stiffness link_energy force temperature
     = broadcast [UInt8; Float64; Float64; Float64; Float64; Float64] (fun number_of_links link_length link_stiffness link_energy force temperature =>
         Finished (Some (morse_isotensional_asymptotic_reduced.end_to_end_length number_of_links link_length link_stiffness link_energy force temperature))) number_of_links link_length link_stiffness link_energy force temperature.
Proof. reflexivity. Qed.

Lemma F_morse_isotensional_asymptotic_reduced_end_to_end_length_per_link : forall (T : Type) (Sc : Scalar T) (link_length : jarray T) (link_stiffness : jarray T) (link_energy : jarray T) (force : jarray T) (temperature : jarray T),
     jl_morse_isotensional_asymptotic_reduced.end_to_end_length_per_link link_length link_stiffness link_energy force temperature
     = broadcast [Float64; Float64; Float64; Float64; Float64] (fun link_length link_stiffness link_energy force temperature =>
         Finished (Some (morse_isotensional_asymptotic_reduced.end_to_end_length_per_link link_length link_stiffness link_energy force temperature))) link_length link_stiffness link_energy force temperature.
Proof. reflexivity. Qed.

Lemma F_morse_isotensional_asymptotic_reduced_nondimensional_end_to_end_length : forall (T : Type) (Sc : Scalar T) (number_of_links : jarray Z) (nondimensional_link_stiffness : jarray T) (nondimensional_link_energy : jarray T) (nondimensional_force : jarray T),
     jl_morse_isotensional_asymptotic_reduced.nondimensional_end_to_end_length number_of_links nondimensional_link_stiffness nondimensional_link_energy nondimensional_force
     = broadcast [UInt8; Float64; Float64; Float64] (fun number_of_links nondimensional_link_stiffness nondimensional_link_energy nondimensional_force =>
         Finished (Some (morse_isotensional_asymptotic_reduced.nondimensional_end_to_end_length number_of_links nondimensional_link_stiffness nondimensional_link_energy nondimensional_force))) number_of_links nondimensional_link_stiffness nondimensional_link_energy nondimensional_force.
Proof. reflexivity. Qed.

Lemma F_morse_isotensional_asymptotic_reduced_nondimensional_end_to_end_length_per_link : forall (T : Type) (Sc : Scalar T) (nondimensional_link_stiffness : jarray T) (nondimensional_link_energy : jarray T) (nondimensional_force : jarray T),
     jl_morse_isotensional_asymptotic_reduced.nondimensional_end_to_end_length_per_link nondimensional_link_stiffness nondimensional_link_energy nondimensional_force
     = broadcast [Float64; Float64; Float64] (fun nondimensional_link_stiffness nondimensional_link_energy nondimensional_force =>
         Finished (Some (morse_isotensional_asymptotic_reduced.nondimensional_end_to_end_length_per_link nondimensional_link_stiffness nondimensional_link_energy nondimensional_force))) nondimensional_link_stiffness nondimensional_link_energy nondimensional_force.
Proof. reflexivity. Qed.

Lemma F_morse_isotensional_asymptotic_reduced_gibbs_free_energy : forall (T : Type) (Sc : Scalar T) (number_of_links : jarray Z) (link_length : jarray T) (hinge_mass : jarray T) (link_stiffness : jarray T) (link_energy : jarray T) (force : jarray T) (temperature : jarray T),
     jl_morse_isotensional_asymptotic_reduced.gibbs_free_energy number_of_links link_length hinge_mass link_stiffness link_energy force temperature
     = broadcast [UInt8; Float64; Float64; Float64; Float64; Float64; Float64] (fun number_of_links link_length hinge_mass link_stiffness link_energy force temperature =>
         Finished (Some (morse_isotensional_asymptotic_reduced.gibbs_free_energy number_of_links link_length hinge_mass link_stiffness link_energy force temperature))) number_of_links link_length hinge_mass link_stiffness link_energy force temperature.
Proof. reflexivity. Qed.

Lemma F_morse_isotensional_asymptotic_reduced_gibbs_free_energy_per_link : forall (T : Type) (Sc : Scalar T) (link_length : jarray T) (hinge_mass : jarray T) (link_stiffness : jarray T) (link_energy : jarray T) (force : jarray T) (temperature : jarray T),
     jl_morse_isotensional_asymptotic_reduced.gibbs_free_energy_per_link link_length hinge_mass link_stiffness link_energy force temperature
     = broadcast [Float64; Float64; Float64; Float64; Float64; Float64] (fun link_length hinge_mass link_stiffness link_energy force temperature =>
         Finished (Some (morse_isotensional_asymptotic_reduced.gibbs_free_energy_per_link link_length hinge_mass link_stiffness link_energy force temperature))) link_length hinge_mass link_stiffness link_energy force temperature.
Proof. reflexivity. Qed.

Lemma F_morse_isotensional_asymptotic_reduced_relative_gibbs_free_energy : forall (T : Type) (Sc : Scalar T) (number_of_links : jarray Z) (link_length : jarray T) (link_stiffness : jarray T) (link_energy : jarray T) (force : jarray T) (temperature : jarray T),
     jl_morse_isotensional_asymptotic_reduced.relative_gibbs_free_energy number_of_links link_length link_stiffness link_energy force temperature
     = broadcast [UInt8; Float64; Float64; Float64; Float64; Float64] (fun number_of_links link_length link_stiffness link_energy force temperature =>
         Finished (Some (morse_isotensional_asymptotic_reduced.relative_gibbs_free_energy number_of_links link_length link_stiffness link_energy force temperature))) number_of_links link_length link_stiffness link_energy force temperature.
Proof. reflexivity. Qed.

Lemma F_morse_isotensional_asymptotic_reduced_relative_gibbs_free_energy_per_link : forall (T : Type) (Sc : Scalar T) (link_length : jarray T) (link_stiffness : jarray T) (link_energy : jarray T) (force : jarray T) (temperature : jarray T),
     jl_morse_isotensional_asymptotic_reduced.relative_gibbs_free_energy_per_link link_length link_stiffness link_energy force temperature
     = broadcast [Float64; Float64; Float64; Float64; Float64] (fun link_length link_stiffness link_energy force temperature =>
         Finished (Some (morse_isotensional_asymptotic_reduced.relative_gibbs_free_energy_per_link link_length link_stiffness link_energy force temperature))) link_length link_stiffness link_energy force temperature.
Proof. reflexivity. Qed.

Lemma F_morse_isotensional_asymptotic_reduced_nondimensional_gibbs_free_energy : forall (T : Type) (Sc : Scalar T) (number_of_links : jarray Z) (link_length : jarray T) (hinge_mass : jarray T) (nondimensional_link_stiffness : jarray T) (nondimensional_link_energy : jarray T) (nondimensional_force : jarray T) (temperature : jarray T),
     jl_morse_isotensional_asymptotic_reduced.nondimensional_gibbs_free_energy number_of_links link_length hinge_mass nondimensional_link_stiffness nondimensional_link_energy nondimensional_force temperature
     = broadcast [UInt8; Float64; Float64; Float64; Float64; Float64; Float64] (fun number_of_links link_length hinge_mass nondimensional_link_stiffness nondimensional_link_energy nondimensional_force temperature =>
         Finished (Some (morse_isotensional_asymptotic_reduced.nondimensional_gibbs_free_energy number_of_links link_length hinge_mass nondimensional_link_stiffness nondimensional_link_energy nondimensional_force temperature))) number_of_links link_length hinge_mass nondimensional_link_stiffness nondimensional_link_energy nondimensional_force temperature.
Proof. reflexivity. Qed.

Lemma F_morse_isotensional_asymptotic_reduced_nondimensional_gibbs_free_energy_per_link : forall (T : Type) (Sc : Scalar T) (link_length : jarray T) (hinge_mass : jarray T) (nondimensional_link_stiffness : jarray T) (nondimensional_link_energy : jarray T) (nondimensional_force : jarray T) (temperature : jarray T),
     jl_morse_isotensional_asymptotic_reduced.nondimensional_gibbs_free_energy_per_link link_length hinge_mass nondimensional_link_stiffness nondimensional_link_energy nondimensional_force temperature
     = broadcast [Float64; Float64; Float64; Float64; Float64; Float64] (fun link_length hinge_mass nondimensional_link_stiffness nondimensional_link_energy nondimensional_force temperature =>
         Finished (Some (morse_isotensional_asymptotic_reduced.nondimensional_gibbs_free_energy_per_link link_length hinge_mass nondimensional_link_stiffness nondimensional_link_energy nondimensional_force temperature))) link_length hinge_mass nondimensional_link_stiffness nondimensional_link_energy nondimensional_force temperature.
Proof. reflexivity. Qed.

Lemma F_morse_isotensional_asymptotic_reduced_nondimensional_relative_gibbs_free_energy : forall (T : Type) (Sc : Scalar T) (number_of_links : jarray Z) (nondimensional_link_stiffness : jarray T) (nondimensional_link_energy : jarray T) (nondimensional_force : jarray T),
     jl_morse_isotensional_asymptotic_reduced.nondimensional_relative_gibbs_free_energy number_of_links nondimensional_link_stiffness nondimensional_link_energy nondimensional_force
     = broadcast [UInt8; Float64; Float64; Float64] (fun number_of_links nondimensional_link_stiffness nondimensional_link_energy nondimensional_force =>
         Finished (Some (morse_isotensional_asymptotic_reduced.nondimensional_relative_gibbs_free_energy number_of_links nondimensional_link_stiffness nondimensional_link_energy nondimensional_force))) number_of_links nondimensional_link_stiffness nondimensional_link_energy nondimensional_force.
Proof. reflexivity. Qed.

Lemma F_morse_isotensional_asymptotic_reduced_nondimensional_relative_gibbs_free_energy_per_link : forall (T : Type) (Sc : Scalar T) (nondimensional_link_stiffness : jarray T) (nondimensional_link_energy : jarray T) (nondimensional_force : jarray T),
     jl_morse_isotensional_asymptotic_reduced.nondimensional_relative_gibbs_free_energy_per_link nondimensional_link_stiffness nondimensional_link_energy nondimensional_force
     = broadcast [Float64; Float64; Float64] (fun nondimensional_link_stiffness nondimensional_link_energy nondimensional_force =>
         Finished (Some (morse_isotensional_asymptotic_reduced.nondimensional_relative_gibbs_free_energy_per_link nondimensional_link_stiffness nondimensional_link_energy nondimensional_force))) nondimensional_link_stiffness nondimensional_link_energy nondimensional_force.
Proof. reflexivity. Qed.

Lemma F_efjc_isometric_asymptotic_legendre_force : forall (T : Type) (Sc : Scalar T) (number_of_links : jarray Z) (link_length : jarray T) (link_stiffness : jarray T) (end_to_end_length : jarray T) (temperature : jarray T),
     jl_efjc_isometric_asymptotic_legendre.force number_of_links link_length link_stiffness end_to_end_length temperature
     = broadcast [UInt8; Float64; Float64; Float64; Float64] (fun number_of_links link_length link_stiffness end_to_end_length temperature =>
         Finished (Some (efjc_isometric_asymptotic_legendre.force number_of_links link_length link_stiffness end_to_end_length temperature))) number_of_links link_length link_stiffness end_to_end_length temperature.
Proof. reflexivity. Qed.

Lemma F_efjc_isometric_asymptotic_legendre_nondimensional_force : forall (T : Type) (Sc : Scalar T) (nondimensional_link_stiffness : jarray T) (nondimensional_end_to_end_length_per_link : jarray T),
     jl_efjc_isometric_asymptotic_legendre.nondimensional_force nondimensional_link_stiffness nondimensional_end_to_end_length_per_link
     = broadcast [Float64; Float64] (fun nondimensional_link_stiffness nondimensional_end_to_end_length_per_link =>
         Finished (Some (efjc_isometric_asymptotic_legendre.nondimensional_force nondimensional_link_stiffness nondimensional_end_to_end_length_per_link))) nondimensional_link_stiffness nondimensional_end_to_end_length_per_link.
Proof. reflexivity. Qed.

Lemma F_efjc_isometric_asymptotic_legendre_helmholtz_free_energy : forall (T : Type) (Sc : Scalar T) (number_of_links : jarray Z) (link_length : jarray T) (hinge_mass : jarray T) (link_stiffness : jarray T) (end_to_end_length : jarray T) (temperature : jarray T),
     jl_efjc_isometric_asymptotic_legendre.helmholtz_free_energy number_of_links link_length hinge_mass link_stiffness end_to_end_length temperature
     = broadcast [UInt8; Float64; Float64; Float64; Float64; Float64] (fun number_of_links link_length hinge_mass link_stiffness end_to_end_length temperature =>
         Finished (Some (efjc_isometric_asymptotic_legendre.helmholtz_free_energy number_of_links link_length hinge_mass link_stiffness end_to_end_length temperature))) number_of_links link_length hinge_mass link_stiffness end_to_end_length temperature.
Proof. reflexivity. Qed.

Lemma F_efjc_isometric_asymptotic_legendre_helmholtz_free_energy_per_link : forall (T : Type) (Sc : Scalar T) (number_of_links : jarray Z) (link_length : jarray T) (hinge_mass : jarray T) (link_stiffness : jarray T) (end_to_end_length : jarray T) (temperature : jarray T),
     jl_efjc_isometric_asymptotic_legendre.helmholtz_free_energy_per_link number_of_links link_length hinge_mass link_stiffness end_to_end_length temperature
     = broadcast [UInt8; Float64; Float64; Float64; Float64; Float64] (fun number_of_links link_length hinge_mass link_stiffness end_to_end_length temperature =>
         Finished (Some (efjc_isometric_asymptotic_legendre.helmholtz_free_energy_per_link number_of_links link_length hinge_mass link_stiffness end_to_end_length temperature))) number_of_links link_length hinge_mass link_stiffness end_to_end_length temperature.
Proof. reflexivity. Qed.

Lemma F_efjc_isometric_asymptotic_legendre_relative_helmholtz_free_energy : forall (T : Type) (Sc : Scalar T) (number_of_links : jarray Z) (link_length : jarray T) (link_stiffness : jarray T) (end_to_end_length : jarray T) (temperature : jarray T),
     jl_efjc_isometric_asymptotic_legendre.relative_helmholtz_free_energy number_of_links link_length link_stiffness end_to_end_length temperature
     = broadcast [UInt8; Float64; Float64; Float64; Float64] (fun number_of_links link_length link_stiffness end_to_end_length temperature =>
         Finished (Some (efjc_isometric_asymptotic_legendre.relative_helmholtz_free_energy number_of_links link_length link_stiffness end_to_end_length temperature))) number_of_links link_length link_stiffness end_to_end_length temperature.
Proof. reflexivity. Qed.

Lemma F_efjc_isometric_asymptotic_legendre_relative_helmholtz_free_energy_per_link : forall (T : Type) (Sc : Scalar T) (number_of_links : jarray Z) (link_length : jarray T) (link_stiffness : jarray T) (end_to_end_length : jarray T) (temperature : jarray T),
     jl_efjc_isometric_asymptotic_legendre.relative_helmholtz_free_energy_per_link number_of_links link_length link_stiffness end_to_end_length temperature
     = broadcast [UInt8; Float64; Float64; Float64; Float64] (fun number_of_links link_length link_stiffness end_to_end_length temperature =>
         Finished (Some (efjc_isometric_asymptotic_legendre.relative_helmholtz_free_energy_per_link number_of_links link_length link_stiffness end_to_end_length temperature))) number_of_links link_length link_stiffness end_to_end_length temperature.
Proof. reflexivity. Qed.

Lemma F_efjc_isometric_asymptotic_legendre_nondimensional_helmholtz_free_energy : forall (T : Type) (Sc : Scalar T) (number_of_links : jarray Z) (link_length : jarray T) (hinge_mass : jarray T) (nondimensional_link_stiffness : jarray T) (nondimensional_end_to_end_length_per_link : jarray T) (temperature : jarray T),
     jl_efjc_isometric_asymptotic_legendre.nondimensional_helmholtz_free_energy number_of_links link_length hinge_mass nondimensional_link_stiffness nondimensional_end_to_end_length_per_link temperature
     = broadcast [UInt8; Float64; Float64; Float64; Float64; Float64] (fun number_of_links link_length hinge_mass nondimensional_link_stiffness nondimensional_end_to_end_length_per_link temperature =>
         Finished (Some (efjc_isometric_asymptotic_legendre.nondimensional_helmholtz_free_energy number_of_links link_length hinge_mass nondimensional_link_stiffness nondimensional_end_to_end_length_per_link temperature))) number_of_links link_length hinge_mass nondimensional_link_stiffness nondimensional_end_to_end_length_per_link temperature.
Proof. reflexivity. Qed.

Lemma F_efjc_isometric_asymptotic_legendre_nondimensional_helmholtz_free_energy_per_link : forall (T : Type) (Sc : Scalar T) (number_of_links : jarray Z) (link_length : jarray T) (hinge_mass : jarray T) (nondimensional_link_stiffness : jarray T) (nondimensional_end_to_end_length_per_link : jarray T) (temperature : jarray T),
     jl_efjc_isometric_asymptotic_legendre.nondimensional_helmholtz_free_energy_per_link number_of_links link_length hinge_mass nondimensional_link_stiffness nondimensional_end_to_end_length_per_link temperature
     = broadcast [UInt8; Float64; Float64; Float64; Float64; Float64] (fun number_of_links link_length hinge_mass nondimensional_link_stiffness nondimensional_end_to_end_length_per_link temperature =>
         Finished (Some (efjc_isometric_asymptotic_legendre.nondimensional_helmholtz_free_energy_per_link number_of_links link_length hinge_mass nondimensional_link_stiffness nondimensional_end_to_end_length_per_link temperature))) number_of_links link_length hinge_mass nondimensional_link_stiffness nondimensional_end_to_end_length_per_link temperature.
Proof. reflexivity. Qed.

Lemma F_efjc_isometric_asymptotic_legendre_nondimensional_relative_helmholtz_free_energy : forall (T : Type) (Sc : Scalar T) (number_of_links : jarray Z) (nondimensional_link_stiffness : jarray T) (nondimensional_end_to_end_length_per_link : jarray T),
     jl_efjc_isometric_asymptotic_legendre.nondimensional_relative_helmholtz_free_energy number_of_links nondimensional_link_stiffness nondimensional_end_to_end_length_per_link
     = broadcast [UInt8; Float64; Float64] (fun number_of_links nondimensional_link_stiffness nondimensional_end_to_end_length_per_link =>
         Finished (Some (efjc_isometric_asymptotic_legendre.nondimensional_relative_helmholtz_free_energy number_of_links nondimensional_link_stiffness nondimensional_end_to_end_length_per_link))) number_of_links nondimensional_link_stiffness nondimensional_end_to_end_length_per_link.
Proof. reflexivity. Qed.

Lemma F_efjc_isometric_asymptotic_legendre_nondimensional_relative_helmholtz_free_energy_per_link : forall (T : Type) (Sc : Scalar T) (nondimensional_link_stiffness : jarray T) (nondimensional_end_to_end_length_per_link : jarray T),
     jl_efjc_isometric_asymptotic_legendre.nondimensional_relative_helmholtz_free_energy_per_link nondimensional_link_stiffness nondimensional_end_to_end_length_per_link
     = broadcast [Float64; Float64] (fun nondimensional_link_stiffness nondimensional_end_to_end_length_per_link =>
         Finished (Some (efjc_isometric_asymptotic_legendre.nondimensional_relative_helmholtz_free_energy_per_link nondimensional_link_stiffness nondimensional_end_to_end_length_per_link))) nondimensional_link_stiffness nondimensional_end_to_end_length_per_link.
Proof. reflexivity. Qed.

Lemma F_efjc_isotensional_asymptotic_alternative_end_to_end_length : forall (T : Type) (Sc : Scalar T) (number_of_links : jarray Z) (link_length : jarray T) (link_stiffness : jarray T) (force : jarray T) (temperature : jarray T),
     jl_efjc_isotensional_asymptotic_alternative.end_to_end_length number_of_links link_length link_stiffness force temperature
     = broadcast [UInt8; Float64; Float64; Float64; Float64] (fun number_of_links link_length link_stiffness force temperature =>
         Finished (Some (efjc_isotensional_asymptotic_alternative.end_to_end_length number_of_links link_length link_stiffness force temperature))) number_of_links link_length link_stiffness force temperature.
Proof. reflexivity. Qed.

Lemma F_efjc_isotensional_asymptotic_alternative_end_to_end_length_per_link : forall (T : Type) (Sc : Scalar T) (link_length : jarray T) (link_stiffness : jarray T) (force : jarray T) (temperature : jarray T),
     jl_efjc_isotensional_asymptotic_alternative.end_to_end_length_per_link link_length link_stiffness force temperature
     = broadcast [Float64; Float64; Float64; Float64] (fun link_length link_stiffness force temperature =>
         Finished (Some (efjc_isotensional_asymptotic_alternative.end_to_end_length_per_link link_length link_stiffness force temperature))) link_length link_stiffness force temperature.
Proof. reflexivity. Qed.

Lemma F_efjc_isotensional_asymptotic_alternative_nondimensional_end_to_end_length : forall (T : Type) (Sc : Scalar T) (number_of_links : jarray Z) (nondimensional_link_stiffness : jarray T) (nondimensional_force : jarray T),
     jl_efjc_isotensional_asymptotic_alternative.nondimensional_end_to_end_length number_of_links nondimensional_link_stiffness nondimensional_force
     = broadcast [UInt8; Float64; Float64] (fun number_of_links nondimensional_link_stiffness nondimensional_force =>
         Finished (Some (efjc_isotensional_asymptotic_alternative.nondimensional_end_to_end_length number_of_links nondimensional_link_stiffness nondimensional_force))) number_of_links nondimensional_link_stiffness nondimensional_force.
Proof. reflexivity. Qed.

Lemma F_efjc_isotensional_asymptotic_alternative_nondimensional_end_to_end_length_per_link : forall (T : Type) (Sc : Scalar T) (nondimensional_link_stiffness : jarray T) (nondimensional_force : jarray T),
     jl_efjc_isotensional_asymptotic_alternative.nondimensional_end_to_end_length_per_link nondimensional_link_stiffness nondimensional_force
     = broadcast [Float64; Float64] (fun nondimensional_link_stiffness nondimensional_force =>
         Finished (Some (efjc_isotensional_asymptotic_alternative.nondimensional_end_to_end_length_per_link nondimensional_link_stiffness nondimensional_force))) nondimensional_link_stiffness nondimensional_force.
Proof. reflexivity. Qed.

Lemma F_efjc_isotensional_asymptotic_alternative_gibbs_free_energy : forall (T : Type) (Sc : Scalar T) (number_of_links : jarray Z) (link_length : jarray T) (hinge_mass : jarray T) (link_stiffness : jarray T) (force : jarray T) (temperature : jarray T),
     jl_efjc_isotensional_asymptotic_alternative.gibbs_free_energy number_of_links link_length hinge_mass link_stiffness force temperature
     = broadcast [UInt8; Float64; Float64; Float64; Float64; Float64] (fun number_of_links link_length hinge_mass link_stiffness force temperature =>
         Finished (Some (efjc_isotensional_asymptotic_alternative.gibbs_free_energy number_of_links link_length hinge_mass link_stiffness force temperature))) number_of_links link_length hinge_mass link_stiffness force temperature.
Proof. reflexivity. Qed.

Lemma F_efjc_isotensional_asymptotic_alternative_gibbs_free_energy_per_link : forall (T : Type) (Sc : Scalar T) (link_length : jarray T) (hinge_mass : jarray T) (link_stiffness : jarray T) (force : jarray T) (temperature : jarray T),
     jl_efjc_isotensional_asymptotic_alternative.gibbs_free_energy_per_link link_length hinge_mass link_stiffness force temperature
     = broadcast [Float64; Float64; Float64; Float64; Float64] (fun link_length hinge_mass link_stiffness force temperature =>
         Finished (Some (efjc_isotensional_asymptotic_alternative.gibbs_free_energy_per_link link_length hinge_mass link_stiffness force temperature))) link_length hinge_mass link_stiffness force temperature.
Proof. reflexivity. Qed.

Lemma F_efjc_isotensional_asymptotic_alternative_relative_gibbs_free_energy : forall (T : Type) (Sc : Scalar T) (number_of_links : jarray Z) (link_length : jarray T) (link_stiffness : jarray T) (force : jarray T) (temperature : jarray T),
     jl_efjc_isotensional_asymptotic_alternative.relative_gibbs_free_energy number_of_links link_length link_stiffness force temperature
     = broadcast [UInt8; Float64; Float64; Float64; Float64] (fun number_of_links link_length link_stiffness force temperature =>
         Finished (Some (efjc_isotensional_asymptotic_alternative.relative_gibbs_free_energy number_of_links link_length link_stiffness force temperature))) number_of_links link_length link_stiffness force temperature.
Proof. reflexivity. Qed.

Lemma F_efjc_isotensional_asymptotic_alternative_relative_gibbs_free_energy_per_link : forall (T : Type) (Sc : Scalar T) (link_length : jarray T) (link_stiffness : jarray T) (force : jarray T) (temperature : jarray T),
     jl_efjc_isotensional_asymptotic_alternative.relative_gibbs_free_energy_per_link link_length link_stiffness force temperature
     = broadcast [Float64; Float64; Float64; Float64] (fun link_length link_stiffness force temperature =>
         Finished (Some (efjc_isotensional_asymptotic_alternative.relative_gibbs_free_energy_per_link link_length link_stiffness force temperature))) link_length link_stiffness force temperature.
Proof. reflexivity. Qed.

Lemma F_efjc_isotensional_asymptotic_alternative_nondimensional_gibbs_free_energy : forall (T : Type) (Sc : Scalar T) (number_of_links : jarray Z) (link_length : jarray T) (hinge_mass : jarray T) (nondimensional_link_stiffness : jarray T) (nondimensional_force : jarray T) (temperature : jarray T),
     jl_efjc_isotensional_asymptotic_alternative.nondimensional_gibbs_free_energy number_of_links link_length hinge_mass nondimensional_link_stiffness nondimensional_force temperature
     = broadcast [UInt8; Float64; Float64; Float64; Float64; Float64] (fun number_of_links link_length hinge_mass nondimensional_link_stiffness nondimensional_force temperature =>
         Finished (Some (efjc_isotensional_asymptotic_alternative.nondimensional_gibbs_free_energy number_of_links link_length hinge_mass nondimensional_link_stiffness nondimensional_force temperature))) number_of_links link_length hinge_mass nondimensional_link_stiffness nondimensional_force temperature.
Proof. reflexivity. Qed.

Lemma F_efjc_isotensional_asymptotic_alternative_nondimensional_gibbs_free_energy_per_link : forall (T : Type) (Sc : Scalar T) (link_length : jarray T) (hinge_mass : jarray T) (nondimensional_link_stiffness : jarray T) (nondimensional_force : jarray T) (temperature : jarray T),
     jl_efjc_isotensional_asymptotic_alternative.nondimensional_gibbs_free_energy_per_link link_length hinge_mass nondimensional_link_stiffness nondimensional_force temperature
     = broadcast [Float64; Float64; Float64; Float64; Float64] (fun link_length hinge_mass nondimensional_link_stiffness nondimensional_force temperature =>
         Finished (Some (efjc_isotensional_asymptotic_alternative.nondimensional_gibbs_free_energy_per_link link_length hinge_mass nondimensional_link_stiffness nondimensional_force temperature))) link_length hinge_mass nondimensional_link_stiffness nondimensional_force temperature.
Proof. reflexivity. Qed.

Lemma F_efjc_isotensional_asymptotic_alternative_nondimensional_relative_gibbs_free_energy : forall (T : Type) (Sc : Scalar T) (number_of_links : jarray Z) (nondimensional_link_stiffness : jarray T) (nondimensional_force : jarray T),
     jl_efjc_isotensional_asymptotic_alternative.nondimensional_relative_gibbs_free_energy number_of_links nondimensional_link_stiffness nondimensional_force
     = broadcast [UInt8; Float64; Float64] (fun number_of_links nondimensional_link_stiffness nondimensional_force =>
         Finished (Some (efjc_isotensional_asymptotic_alternative.nondimensional_relative_gibbs_free_energy number_of_links nondimensional_link_stiffness nondimensional_force))) number_of_links nondimensional_link_stiffness nondimensional_force.
Proof. reflexivity. Qed.

Lemma F_efjc_isotensional_asymptotic_alternative_nondimensional_relative_gibbs_free_energy_per_link : forall (T : Type) (Sc : Scalar T) (nondimensional_link_stiffness : jarray T) (nondimensional_force : jarray T),
     jl_efjc_isotensional_asymptotic_alternative.nondimensional_relative_gibbs_free_energy_per_link nondimensional_link_stiffness nondimensional_force
     = broadcast [Float64; Float64] (fun nondimensional_link_stiffness nondimensional_force =>
         Finished (Some (efjc_isotensional_asymptotic_alternative.nondimensional_relative_gibbs_free_energy_per_link nondimensional_link_stiffness nondimensional_force))) nondimensional_link_stiffness nondimensional_force.
Proof. reflexivity. Qed.

Lemma F_efjc_isotensional_asymptotic_legendre_helmholtz_free_energy : forall (T : Type) (Sc : Scalar T) (number_of_links : jarray Z) (link_length : jarray T) (hinge_mass : jarray T) (link_stiffness : jarray T) (force : jarray T) (temperature : jarray T),
     jl_efjc_isotensional_asymptotic_legendre.helmholtz_free_energy number_of_links link_length hinge_mass link_stiffness force temperature
     = broadcast [UInt8; Float64; Float64; Float64; Float64; Float64] (fun number_of_links link_length hinge_mass link_stiffness force temperature =>
         Finished (Some (efjc_isotensional_asymptotic_legendre.helmholtz_free_energy number_of_links link_length hinge_mass link_stiffness force temperature))) number_of_links link_length hinge_mass link_stiffness force temperature.
Proof. reflexivity. Qed.

Lemma F_efjc_isotensional_asymptotic_legendre_helmholtz_free_energy_per_link : forall (T : Type) (Sc : Scalar T) (link_length : jarray T) (hinge_mass : jarray T) (link_stiffness : jarray T) (force : jarray T) (temperature : jarray T),
     jl_efjc_isotensional_asymptotic_legendre.helmholtz_free_energy_per_link link_length hinge_mass link_stiffness force temperature
     = broadcast [Float64; Float64; Float64; Float64; Float64] (fun link_length hinge_mass link_stiffness force temperature =>
         Finished (Some (efjc_isotensional_asymptotic_legendre.helmholtz_free_energy_per_link link_length hinge_mass link_stiffness force temperature))) link_length hinge_mass link_stiffness force temperature.
Proof. reflexivity. Qed.

Lemma F_efjc_isotensional_asymptotic_legendre_relative_helmholtz_free_energy : forall (T : Type) (Sc : Scalar T) (number_of_links : jarray Z) (link_length : jarray T) (link_stiffness : jarray T) (force : jarray T) (temperature : jarray T),
     jl_efjc_isotensional_asymptotic_legendre.relative_helmholtz_free_energy number_of_links link_length link_stiffness force temperature
     = broadcast [UInt8; Float64; Float64; Float64; Float64] (fun number_of_links link_length link_stiffness force temperature =>
         Finished (Some (efjc_isotensional_asymptotic_legendre.relative_helmholtz_free_energy number_of_links link_length link_stiffness force temperature))) number_of_links link_length link_stiffness force temperature.
Proof. reflexivity. Qed.

Lemma F_efjc_isotensional_asymptotic_legendre_relative_helmholtz_free_energy_per_link : forall (T : Type) (Sc : Scalar T) (link_length : jarray T) (link_stiffness : jarray T) (force : jarray T) (temperature : jarray T),
     jl_efjc_isotensional_asymptotic_legendre.relative_helmholtz_free_energy_per_link link_length link_stiffness force temperature
     = broadcast [Float64; Float64; Float64; Float64] (fun link_length link_stiffness force temperature =>
         Finished (Some (efjc_isotensional_asymptotic_legendre.relative_helmholtz_free_energy_per_link link_length link_stiffness force temperature))) link_length link_stiffness force temperature.
Proof. reflexivity. Qed.

Lemma F_efjc_isotensional_asymptotic_legendre_nondimensional_helmholtz_free_energy : forall (T : Type) (Sc : Scalar T) (number_of_links : jarray Z) (link_length : jarray T) (hinge_mass : jarray T) (nondimensional_link_stiffness : jarray T) (nondimensional_force : jarray T) (temperature : jarray T),
     jl_efjc_isotensional_asymptotic_legendre.nondimensional_helmholtz_free_energy number_of_links link_length hinge_mass nondimensional_link_stiffness nondimensional_force temperature
     = broadcast [UInt8; Float64; Float64; Float64; Float64; Float64] (fun number_of_links link_length hinge_mass nondimensional_link_stiffness nondimensional_force temperature =>
         Finished (Some (efjc_isotensional_asymptotic_legendre.nondimensional_helmholtz_free_energy number_of_links link_length hinge_mass nondimensional_link_stiffness nondimensional_force temperature))) number_of_links link_length hinge_mass nondimensional_link_stiffness nondimensional_force temperature.
Proof. reflexivity. Qed.

Lemma F_efjc_isotensional_asymptotic_legendre_nondimensional_helmholtz_free_energy_per_link : forall (T : Type) (Sc : Scalar T) (link_length : jarray T) (hinge_mass : jarray T) (nondimensional_link_stiffness : jarray T) (nondimensional_force : jarray T) (temperature : jarray T),
     jl_efjc_isotensional_asymptotic_legendre.nondimensional_helmholtz_free_energy_per_link link_length hinge_mass nondimensional_link_stiffness nondimensional_force temperature
     = broadcast [Float64; Float64; Float64; Float64; Float64] (fun link_length hinge_mass nondimensional_link_stiffness nondimensional_force temperature =>
         Finished (Some (efjc_isotensional_asymptotic_legendre.nondimensional_helmholtz_free_energy_per_link link_length hinge_mass nondimensional_link_stiffness nondimensional_force temperature))) link_length hinge_mass nondimensional_link_stiffness nondimensional_force temperature.
Proof. reflexivity. Qed.

Lemma F_efjc_isotensional_asymptotic_legendre_nondimensional_relative_helmholtz_free_energy : forall (T : Type) (Sc : Scalar T) (number_of_links : jarray Z) (nondimensional_link_stiffness : jarray T) (nondimensional_force : jarray T),
     jl_efjc_isotensional_asymptotic_legendre.nondimensional_relative_helmholtz_free_energy number_of_links nondimensional_link_stiffness nondimensional_force
     = broadcast [UInt8; Float64; Float64] (fun number_of_links nondimensional_link_stiffness nondimensional_force =>
         Finished (Some (efjc_isotensional_asymptotic_legendre.nondimensional_relative_helmholtz_free_energy number_of_links nondimensional_link_stiffness nondimensional_force))) number_of_links nondimensional_link_stiffness nondimensional_force.
Proof. reflexivity. Qed.

Lemma F_efjc_isotensional_asymptotic_legendre_nondimensional_relative_helmholtz_free_energy_per_link : forall (T : Type) (Sc : Scalar T) (nondimensional_link_stiffness : jarray T) (nondimensional_force : jarray T),
     jl_efjc_isotensional_asymptotic_legendre.nondimensional_relative_helmholtz_free_energy_per_link nondimensional_link_stiffness nondimensional_force
     = broadcast [Float64; Float64] (fun nondimensional_link_stiffness nondimensional_force =>
         Finished (Some (efjc_isotensional_asymptotic_legendre.nondimensional_relative_helmholtz_free_energy_per_link nondimensional_link_stiffness nondimensional_force))) nondimensional_link_stiffness nondimensional_force.
Proof. reflexivity. Qed.

Lemma F_efjc_isotensional_asymptotic_reduced_end_to_end_length : forall (T : Type) (Sc : Scalar T) (number_of_links : jarray Z) (link_length : jarray T) (link_stiffness : jarray T) (force : jarray T) (temperature : jarray T),
     jl_efjc_isotensional_asymptotic_reduced.end_to_end_length number_of_links link_length link_stiffness force temperature
     = broadcast [UInt8; Float64; Float64; Float64; Float64] (fun number_of_links link_length link_stiffness force temperature =>
         Finished (Some (efjc_isotensional_asymptotic_reduced.end_to_end_length number_of_links link_length link_stiffness force temperature))) number_of_links link_length link_stiffness force temperature.
Proof. reflexivity. Qed.

Lemma F_efjc_isotensional_asymptotic_reduced_end_to_end_length_per_link : forall (T : Type) (Sc : Scalar T) (link_length : jarray T) (link_stiffness : jarray T) (force : jarray T) (temperature : jarray T),
     jl_efjc_isotensional_asymptotic_reduced.end_to_end_length_per_link link_length link_stiffness force temperature
     = broadcast [Float64; Float64; Float64; Float64] (fun link_length link_stiffness force temperature =>
         Finished (Some (efjc_isotensional_asymptotic_reduced.end_to_end_length_per_link link_length link_stiffness force temperature))) link_length link_stiffness force temperature.
Proof. reflexivity. Qed.

Lemma F_efjc_isotensional_asymptotic_reduced_nondimensional_end_to_end_length : forall (T : Type) (Sc : Scalar T) (number_of_links : jarray Z) (nondimensional_link_stiffness : jarray T) (nondimensional_force : jarray T),
     jl_efjc_isotensional_asymptotic_reduced.nondimensional_end_to_end_length number_of_links nondimensional_link_stiffness nondimensional_force
     = broadcast [UInt8; Float64; Float64] (fun number_of_links nondimensional_link_stiffness nondimensional_force =>
         Finished (Some (efjc_isotensional_asymptotic_reduced.nondimensional_end_to_end_length number_of_links nondimensional_link_stiffness nondimensional_force))) number_of_links nondimensional_link_stiffness nondimensional_force.
Proof. reflexivity. Qed.

Lemma F_efjc_isotensional_asymptotic_reduced_nondimensional_end_to_end_length_per_link : forall (T : Type) (Sc : Scalar T) (nondimensional_link_stiffness : jarray T) (nondimensional_force : jarray T),
     jl_efjc_isotensional_asymptotic_reduced.nondimensional_end_to_end_length_per_link nondimensional_link_stiffness nondimensional_force
     = broadcast [Float64; Float64] (fun nondimensional_link_stiffness nondimensional_force =>
         Finished (Some (efjc_isotensional_asymptotic_reduced.nondimensional_end_to_end_length_per_link nondimensional_link_stiffness nondimensional_force))) nondimensional_link_stiffness nondimensional_force.
Proof. reflexivity. Qed.

Lemma F_efjc_isotensional_asymptotic_reduced_gibbs_free_energy : forall (T : Type) (Sc : Scalar T) (number_of_links : jarray Z) (link_length : jarray T) (hinge_mass : jarray T) (link_stiffness : jarray T) (force : jarray T) (temperature : jarray T),
     jl_efjc_isotensional_asymptotic_reduced.gibbs_free_energy number_of_links link_length hinge_mass link_stiffness force temperature
     = broadcast [UInt8; Float64; Float64; Float64; Float64; Float64] (fun number_of_links link_length hinge_mass link_stiffness force temperature =>
         Finished (Some (efjc_isotensional_asymptotic_reduced.gibbs_free_energy number_of_links link_length hinge_mass link_stiffness force temperature))) number_of_links link_length hinge_mass link_stiffness force temperature.
Proof. reflexivity. Qed.

Lemma F_efjc_isotensional_asymptotic_reduced_gibbs_free_energy_per_link : forall (T : Type) (Sc : Scalar T) (link_length : jarray T) (hinge_mass : jarray T) (link_stiffness : jarray T) (force : jarray T) (temperature : jarray T),
     jl_efjc_isotensional_asymptotic_reduced.gibbs_free_energy_per_link link_length hinge_mass link_stiffness force temperature
     = broadcast [Float64; Float64; Float64; Float64; Float64] (fun link_length hinge_mass link_stiffness force temperature =>
         Finished (Some (efjc_isotensional_asymptotic_reduced.gibbs_free_energy_per_link link_length hinge_mass link_stiffness force temperature))) link_length hinge_mass link_stiffness force temperature.
Proof. reflexivity. Qed.

Lemma F_efjc_isotensional_asymptotic_reduced_relative_gibbs_free_energy : forall (T : Type) (Sc : Scalar T) (number_of_links : jarray Z) (link_length : jarray T) (link_stiffness : jarray T) (force : jarray T) (temperature : jarray T),
     jl_efjc_isotensional_asymptotic_reduced.relative_gibbs_free_energy number_of_links link_length link_stiffness force temperature
     = broadcast [UInt8; Float64; Float64; Float64; Float64] (fun number_of_links link_length link_stiffness force temperature =>
         Finished (Some (efjc_isotensional_asymptotic_reduced.relative_gibbs_free_energy number_of_links link_length link_stiffness force temperature))) number_of_links link_length link_stiffness force temperature.
Proof. reflexivity. Qed.

Lemma F_efjc_isotensional_asymptotic_reduced_relative_gibbs_free_energy_per_link : forall (T : Type) (Sc : Scalar T) (link_length : jarray T) (link_stiffness : jarray T) (force : jarray T) (temperature : jarray T),
     jl_efjc_isotensional_asymptotic_reduced.relative_gibbs_free_energy_per_link link_length link_stiffness force temperature
     = broadcast [Float64; Float64; Float64; Float64] (fun link_length link_stiffness force temperature =>
         Finished (Some (efjc_isotensional_asymptotic_reduced.relative_gibbs_free_energy_per_link link_length link_stiffness force temperature))) link_length link_stiffness force temperature.
Proof. reflexivity. Qed.

Lemma F_efjc_isotensional_asymptotic_reduced_nondimensional_gibbs_free_energy : forall (T : Type) (Sc : Scalar T) (number_of_links : jarray Z) (link_length : jarray T) (hinge_mass : jarray T) (nondimensional_link_stiffness : jarray T) (nondimensional_force : jarray T) (temperature : jarray T),
     jl_efjc_isotensional_asymptotic_reduced.nondimensional_gibbs_free_energy number_of_links link_length hinge_mass nondimensional_link_stiffness nondimensional_force temperature
     = broadcast [UInt8; Float64; Float64; Float64; Float64; Float64] (fun number_of_links link_length hinge_mass nondimensional_link_stiffness nondimensional_force temperature =>
         Finished (Some (efjc_isotensional_asymptotic_reduced.nondimensional_gibbs_free_energy number_of_links link_length hinge_mass nondimensional_link_stiffness nondimensional_force temperature))) number_of_links link_length hinge_mass nondimensional_link_stiffness nondimensional_force temperature.
Proof. reflexivity. Qed.

Lemma F_efjc_isotensional_asymptotic_reduced_nondimensional_gibbs_free_energy_per_link : forall (T : Type) (Sc : Scalar T) (link_length : jarray T) (hinge_mass : jarray T) (nondimensional_link_stiffness : jarray T) (nondimensional_force : jarray T) (temperature : jarray T),
     jl_efjc_isotensional_asymptotic_reduced.nondimensional_gibbs_free_energy_per_link link_length hinge_mass nondimensional_link_stiffness nondimensional_force temperature
     = broadcast [Float64; Float64; Float64; Float64; Float64] (fun link_length hinge_mass nondimensional_link_stiffness nondimensional_force temperature =>
         Finished (Some (efjc_isotensional_asymptotic_reduced.nondimensional_gibbs_free_energy_per_link link_length hinge_mass nondimensional_link_stiffness nondimensional_force temperature))) link_length hinge_mass nondimensional_link_stiffness nondimensional_force temperature.
Proof. reflexivity. Qed.

Lemma F_efjc_isotensional_asymptotic_reduced_nondimensional_relative_gibbs_free_energy : forall (T : Type) (Sc : Scalar T) (number_of_links : jarray Z) (nondimensional_link_stiffness : jarray T) (nondimensional_force : jarray T),
     jl_efjc_isotensional_asymptotic_reduced.nondimensional_relative_gibbs_free_energy number_of_links nondimensional_link_stiffness nondimensional_force
     = broadcast [UInt8; Float64; Float64] (fun number_of_links nondimensional_link_stiffness nondimensional_force =>
         Finished (Some (efjc_isotensional_asymptotic_reduced.nondimensional_relative_gibbs_free_energy number_of_links nondimensional_link_stiffness nondimensional_force))) number_of_links nondimensional_link_stiffness nondimensional_force.
Proof. reflexivity. Qed.

Lemma F_efjc_isotensional_asymptotic_reduced_nondimensional_relative_gibbs_free_energy_per_link : forall (T : Type) (Sc : Scalar T) (nondimensional_link_stiffness : jarray T) (nondimensional_force : jarray T),
     jl_efjc_isotensional_asymptotic_reduced.nondimensional_relative_gibbs_free_energy_per_link nondimensional_link_stiffness nondimensional_force
     = broadcast [Float64; Float64] (fun nondimensional_link_stiffness nondimensional_force =>
         Finished (Some (efjc_isotensional_asymptotic_reduced.nondimensional_relative_gibbs_free_energy_per_link nondimensional_link_stiffness nondimensional_force))) nondimensional_link_stiffness nondimensional_force.
Proof. reflexivity. Qed.

Lemma F_fjc_modified_canonical_asymptotic_strong_potential_force : forall (T : Type) (Sc : Scalar T) (prof : profile) (number_of_links : jarray Z) (link_length : jarray T) (potential_distance : jarray T) (potential_stiffness : jarray T) (temperature : jarray T),
     jl_fjc_modified_canonical_asymptotic_strong_potential.force prof number_of_links link_length potential_distance potential_stiffness temperature
     = broadcast [UInt8; Float64; Float64; Float64; Float64] (fun number_of_links link_length potential_distance potential_stiffness temperature =>
         Finished (fjc_modified_canonical_asymptotic_strong_potential.force prof number_of_links link_length potential_distance potential_stiffness temperature)) number_of_links link_length potential_distance potential_stiffness temperature.
Proof. reflexivity. Qed.

Lemma F_fjc_modified_canonical_asymptotic_strong_potential_nondimensional_force : forall (T : Type) (Sc : Scalar T) (prof : profile) (number_of_links : jarray Z) (nondimensional_potential_distance : jarray T) (nondimensional_potential_stiffness : jarray T),
     jl_fjc_modified_canonical_asymptotic_strong_potential.nondimensional_force prof number_of_links nondimensional_potential_distance nondimensional_potential_stiffness
     = broadcast [UInt8; Float64; Float64] (fun number_of_links nondimensional_potential_distance nondimensional_potential_stiffness =>
         Finished (fjc_modified_canonical_asymptotic_strong_potential.nondimensional_force prof number_of_links nondimensional_potential_distance nondimensional_potential_stiffness)) number_of_links nondimensional_potential_distance nondimensional_potential_stiffness.
Proof. reflexivity. Qed.

Lemma F_fjc_modified_canonical_asymptotic_strong_potential_helmholtz_free_energy : forall (T : Type) (Sc : Scalar T) (prof : profile) (number_of_links : jarray Z) (link_length : jarray T) (hinge_mass : jarray T) (potential_distance : jarray T) (potential_stiffness : jarray T) (temperature : jarray T),
     jl_fjc_modified_canonical_asymptotic_strong_potential.helmholtz_free_energy prof number_of_links link_length hinge_mass potential_distance potential_stiffness temperature
     = broadcast [UInt8; Float64; Float64; Float64; Float64; Float64] (fun number_of_links link_length hinge_mass potential_distance potential_stiffness temperature =>
         Finished (fjc_modified_canonical_asymptotic_strong_potential.helmholtz_free_energy prof number_of_links link_length hinge_mass potential_distance potential_stiffness temperature)) number_of_links link_length hinge_mass potential_distance potential_stiffness temperature.
Proof. reflexivity. Qed.

Lemma F_fjc_modified_canonical_asymptotic_strong_potential_helmholtz_free_energy_per_link : forall (T : Type) (Sc : Scalar T) (prof : profile) (number_of_links : jarray Z) (link_length : jarray T) (hinge_mass : jarray T) (potential_distance : jarray T) (potential_stiffness : jarray T) (temperature : jarray T),
     jl_fjc_modified_canonical_asymptotic_strong_potential.helmholtz_free_energy_per_link prof number_of_links link_length hinge_mass potential_distance potential_stiffness temperature
     = broadcast [UInt8; Float64; Float64; Float64; Float64; Float64] (fun number_of_links link_length hinge_mass potential_distance potential_stiffness temperature =>
         Finished (fjc_modified_canonical_asymptotic_strong_potential.helmholtz_free_energy_per_link prof number_of_links link_length hinge_mass potential_distance potential_stiffness temperature)) number_of_links link_length hinge_mass potential_distance potential_stiffness temperature.
Proof. reflexivity. Qed.

Lemma F_fjc_modified_canonical_asymptotic_strong_potential_relative_helmholtz_free_energy : forall (T : Type) (Sc : Scalar T) (prof : profile) (number_of_links : jarray Z) (link_length : jarray T) (potential_distance : jarray T) (potential_stiffness : jarray T) (temperature : jarray T),
     jl_fjc_modified_canonical_asymptotic_strong_potential.relative_helmholtz_free_energy prof number_of_links link_length potential_distance potential_stiffness temperature
     = broadcast [UInt8; Float64; Float64; Float64; Float64] (fun number_of_links link_length potential_distance potential_stiffness temperature =>
         Finished (fjc_modified_canonical_asymptotic_strong_potential.relative_helmholtz_free_energy prof number_of_links link_length potential_distance potential_stiffness temperature)) number_of_links link_length potential_distance potential_stiffness temperature.
Proof. reflexivity. Qed.

Lemma F_fjc_modified_canonical_asymptotic_strong_potential_relative_helmholtz_free_energy_per_link : forall (T : Type) (Sc : Scalar T) (prof : profile) (number_of_links : jarray Z) (link_length : jarray T) (potential_distance : jarray T) (potential_stiffness : jarray T) (temperature : jarray T),
     jl_fjc_modified_canonical_asymptotic_strong_potential.relative_helmholtz_free_energy_per_link prof number_of_links link_length potential_distance potential_stiffness temperature
     = broadcast [UInt8; Float64; Float64; Float64; Float64] (fun number_of_links link_length potential_distance potential_stiffness temperature =>
         Finished (fjc_modified_canonical_asymptotic_strong_potential.relative_helmholtz_free_energy_per_link prof number_of_links link_length potential_distance potential_stiffness temperature)) number_of_links link_length potential_distance potential_stiffness temperature.
Proof. reflexivity. Qed.

Lemma F_fjc_modified_canonical_asymptotic_strong_potential_nondimensional_helmholtz_free_energy : forall (T : Type) (Sc : Scalar T) (prof : profile) (number_of_links : jarray Z) (link_length : jarray T) (hinge_mass : jarray T) (nondimensional_potential_distance : jarray T) (nondimensional_potential_stiffness : jarray T) (temperature : jarray T),
     jl_fjc_modified_canonical_asymptotic_strong_potential.nondimensional_helmholtz_free_energy prof number_of_links link_length hinge_mass nondimensional_potential_distance nondimensional_potential_stiffness temperature
     = broadcast [UInt8; Float64; Float64; Float64; Float64; Float64] (fun number_of_links link_length hinge_mass nondimensional_potential_distance nondimensional_potential_stiffness temperature =>
         Finished (fjc_modified_canonical_asymptotic_strong_potential.nondimensional_helmholtz_free_energy prof number_of_links link_length hinge_mass nondimensional_potential_distance nondimensional_potential_stiffness temperature)) number_of_links link_length hinge_mass nondimensional_potential_distance nondimensional_potential_stiffness temperature.
Proof. reflexivity. Qed.

Lemma F_fjc_modified_canonical_asymptotic_strong_potential_nondimensional_helmholtz_free_energy_per_link : forall (T : Type) (Sc : Scalar T) (prof : profile) (number_of_links : jarray Z) (link_length : jarray T) (hinge_mass : jarray T) (nondimensional_potential_distance : jarray T) (nondimensional_potential_stiffness : jarray T) (temperature : jarray T),
     jl_fjc_modified_canonical_asymptotic_strong_potential.nondimensional_helmholtz_free_energy_per_link prof number_of_links link_length hinge_mass nondimensional_potential_distance nondimensional_potential_stiffness temperature
     = broadcast [UInt8; Float64; Float64; Float64; Float64; Float64] (fun number_of_links link_length hinge_mass nondimensional_potential_distance nondimensional_potential_stiffness temperature =>
         Finished (fjc_modified_canonical_asymptotic_strong_potential.nondimensional_helmholtz_free_energy_per_link prof number_of_links link_length hinge_mass nondimensional_potential_distance nondimensional_potential_stiffness temperature)) number_of_links link_length hinge_mass nondimensional_potential_distance nondimensional_potential_stiffness temperature.
Proof. reflexivity. Qed.

Lemma F_fjc_modified_canonical_asymptotic_strong_potential_nondimensional_relative_helmholtz_free_energy : forall (T : Type) (Sc : Scalar T) (prof : profile) (number_of_links : jarray Z) (nondimensional_potential_distance : jarray T) (nondimensional_potential_stiffness : jarray T),
     jl_fjc_modified_canonical_asymptotic_strong_potential.nondimensional_relative_helmholtz_free_energy prof number_of_links nondimensional_potential_distance nondimensional_potential_stiffness
     = broadcast [UInt8; Float64; Float64] (fun number_of_links nondimensional_potential_distance nondimensional_potential_stiffness =>
         Finished (fjc_modified_canonical_asymptotic_strong_potential.nondimensional_relative_helmholtz_free_energy prof number_of_links nondimensional_potential_distance nondimensional_potential_stiffness)) number_of_links nondimensional_potential_distance nondimensional_potential_stiffness.
Proof. reflexivity. Qed.

Lemma F_fjc_modified_canonical_asymptotic_strong_potential_nondimensional_relative_helmholtz_free_energy_per_link : forall (T : Type) (Sc : Scalar T) (prof : profile) (number_of_links : jarray Z) (nondimensional_potential_distance : jarray T) (nondimensional_potential_stiffness : jarray T),
     jl_fjc_modified_canonical_asymptotic_strong_potential.nondimensional_relative_helmholtz_free_energy_per_link prof number_of_links nondimensional_potential_distance nondimensional_potential_stiffness
     = broadcast [UInt8; Float64; Float64] (fun number_of_links nondimensional_potential_distance nondimensional_potential_stiffness =>
         Finished (fjc_modified_canonical_asymptotic_strong_potential.nondimensional_relative_helmholtz_free_energy_per_link prof number_of_links nondimensional_potential_distance nondimensional_potential_stiffness)) number_of_links nondimensional_potential_distance nondimensional_potential_stiffness.
Proof. reflexivity. Qed.

Lemma F_fjc_modified_canonical_asymptotic_weak_potential_end_to_end_length : forall (T : Type) (Sc : Scalar T) (number_of_links : jarray Z) (link_length : jarray T) (potential_distance : jarray T) (potential_stiffness : jarray T) (temperature : jarray T),
     jl_fjc_modified_canonical_asymptotic_weak_potential.end_to_end_length number_of_links link_length potential_distance potential_stiffness temperature
     = broadcast [UInt8; Float64; Float64; Float64; Float64] (fun number_of_links link_length potential_distance potential_stiffness temperature =>
         Finished (Some (fjc_modified_canonical_asymptotic_weak_potential.end_to_end_length number_of_links link_length potential_distance potential_stiffness temperature))) number_of_links link_length potential_distance potential_stiffness temperature.
Proof. reflexivity. Qed.

Lemma F_fjc_modified_canonical_asymptotic_weak_potential_end_to_end_length_per_link : forall (T : Type) (Sc : Scalar T) (number_of_links : jarray Z) (link_length : jarray T) (potential_distance : jarray T) (potential_stiffness : jarray T) (temperature : jarray T),
     jl_fjc_modified_canonical_asymptotic_weak_potential.end_to_end_length_per_link number_of_links link_length potential_distance potential_stiffness temperature
     = broadcast [UInt8; Float64; Float64; Float64; Float64] (fun number_of_links link_length potential_distance potential_stiffness temperature =>
         Finished (Some (fjc_modified_canonical_asymptotic_weak_potential.end_to_end_length_per_link number_of_links link_length potential_distance potential_stiffness temperature))) number_of_links link_length potential_distance potential_stiffness temperature.
Proof. reflexivity. Qed.

Lemma F_fjc_modified_canonical_asymptotic_weak_potential_nondimensional_end_to_end_length : forall (T : Type) (Sc : Scalar T) (number_of_links : jarray Z) (nondimensional_potential_distance : jarray T) (nondimensional_potential_stiffness : jarray T),
     jl_fjc_modified_canonical_asymptotic_weak_potential.nondimensional_end_to_end_length number_of_links nondimensional_potential_distance nondimensional_potential_stiffness
     = broadcast [UInt8; Float64; Float64] (fun number_of_links nondimensional_potential_distance nondimensional_potential_stiffness =>
         Finished (Some (fjc_modified_canonical_asymptotic_weak_potential.nondimensional_end_to_end_length number_of_links nondimensional_potential_distance nondimensional_potential_stiffness))) number_of_links nondimensional_potential_distance nondimensional_potential_stiffness.
Proof. reflexivity. Qed.

Lemma F_fjc_modified_canonical_asymptotic_weak_potential_nondimensional_end_to_end_length_per_link : forall (T : Type) (Sc : Scalar T) (number_of_links : jarray Z) (nondimensional_potential_distance : jarray T) (nondimensional_potential_stiffness : jarray T),
     jl_fjc_modified_canonical_asymptotic_weak_potential.nondimensional_end_to_end_length_per_link number_of_links nondimensional_potential_distance nondimensional_potential_stiffness
     = broadcast [UInt8; Float64; Float64] (fun number_of_links nondimensional_potential_distance nondimensional_potential_stiffness =>
         Finished (Some (fjc_modified_canonical_asymptotic_weak_potential.nondimensional_end_to_end_length_per_link number_of_links nondimensional_potential_distance nondimensional_potential_stiffness))) number_of_links nondimensional_potential_distance nondimensional_potential_stiffness.
Proof. reflexivity. Qed.

Lemma F_fjc_modified_canonical_asymptotic_weak_potential_force : forall (T : Type) (Sc : Scalar T) (potential_distance : jarray T) (potential_stiffness : jarray T),
     jl_fjc_modified_canonical_asymptotic_weak_potential.force potential_distance potential_stiffness
     = broadcast [Float64; Float64] (fun potential_distance potential_stiffness =>
         Finished (Some (fjc_modified_canonical_asymptotic_weak_potential.force potential_distance potential_stiffness))) potential_distance potential_stiffness.
Proof. reflexivity. Qed.

Lemma F_fjc_modified_canonical_asymptotic_weak_potential_nondimensional_force : forall (T : Type) (Sc : Scalar T) (number_of_links : jarray Z) (nondimensional_potential_distance : jarray T) (nondimensional_potential_stiffness : jarray T),
     jl_fjc_modified_canonical_asymptotic_weak_potential.nondimensional_force number_of_links nondimensional_potential_distance nondimensional_potential_stiffness
     = broadcast [UInt8; Float64; Float64] (fun number_of_links nondimensional_potential_distance nondimensional_potential_stiffness =>
         Finished (Some (fjc_modified_canonical_asymptotic_weak_potential.nondimensional_force number_of_links nondimensional_potential_distance nondimensional_potential_stiffness))) number_of_links nondimensional_potential_distance nondimensional_potential_stiffness.
Proof. reflexivity. Qed.

Lemma F_fjc_modified_canonical_asymptotic_weak_potential_gibbs_free_energy : forall (T : Type) (Sc : Scalar T) (number_of_links : jarray Z) (link_length : jarray T) (hinge_mass : jarray T) (potential_distance : jarray T) (potential_stiffness : jarray T) (temperature : jarray T),
     jl_fjc_modified_canonical_asymptotic_weak_potential.gibbs_free_energy number_of_links link_length hinge_mass potential_distance potential_stiffness temperature
     = broadcast [UInt8; Float64; Float64; Float64; Float64; Float64] (fun number_of_links link_length hinge_mass potential_distance potential_stiffness temperature =>
         Finished (Some (fjc_modified_canonical_asymptotic_weak_potential.gibbs_free_energy number_of_links link_length hinge_mass potential_distance potential_stiffness temperature))) number_of_links link_length hinge_mass potential_distance potential_stiffness temperature.
Proof. reflexivity. Qed.

Lemma F_fjc_modified_canonical_asymptotic_weak_potential_gibbs_free_energy_per_link : forall (T : Type) (Sc : Scalar T) (number_of_links : jarray Z) (link_length : jarray T) (hinge_mass : jarray T) (potential_distance : jarray T) (potential_stiffness : jarray T) (temperature : jarray T),
     jl_fjc_modified_canonical_asymptotic_weak_potential.gibbs_free_energy_per_link number_of_links link_length hinge_mass potential_distance potential_stiffness temperature
     = broadcast [UInt8; Float64; Float64; Float64; Float64; Float64] (fun number_of_links link_length hinge_mass potential_distance potential_stiffness temperature =>
         Finished (Some (fjc_modified_canonical_asymptotic_weak_potential.gibbs_free_energy_per_link number_of_links link_length hinge_mass potential_distance potential_stiffness temperature))) number_of_links link_length hinge_mass potential_distance potential_stiffness temperature.
Proof. reflexivity. Qed.

Lemma F_fjc_modified_canonical_asymptotic_weak_potential_relative_gibbs_free_energy : forall (T : Type) (Sc : Scalar T) (number_of_links : jarray Z) (link_length : jarray T) (potential_distance : jarray T) (potential_stiffness : jarray T) (temperature : jarray T),
     jl_fjc_modified_canonical_asymptotic_weak_potential.relative_gibbs_free_energy number_of_links link_length potential_distance potential_stiffness temperature
     = broadcast [UInt8; Float64; Float64; Float64; Float64] (fun number_of_links link_length potential_distance potential_stiffness temperature =>
         Finished (Some (fjc_modified_canonical_asymptotic_weak_potential.relative_gibbs_free_energy number_of_links link_length potential_distance potential_stiffness temperature))) number_of_links link_length potential_distance potential_stiffness temperature.
Proof. reflexivity. Qed.

Lemma F_fjc_modified_canonical_asymptotic_weak_potential_relative_gibbs_free_energy_per_link : forall (T : Type) (Sc : Scalar T) (number_of_links : jarray Z) (link_length : jarray T) (potential_distance : jarray T) (potential_stiffness : jarray T) (temperature : jarray T),
     jl_fjc_modified_canonical_asymptotic_weak_potential.relative_gibbs_free_energy_per_link number_of_links link_length potential_distance potential_stiffness temperature
     = broadcast [UInt8; Float64; Float64; Float64; Float64] (fun number_of_links link_length potential_distance potential_stiffness temperature =>
         Finished (Some (fjc_modified_canonical_asymptotic_weak_potential.relative_gibbs_free_energy_per_link number_of_links link_length potential_distance potential_stiffness temperature))) number_of_links link_length potential_distance potential_stiffness temperature.
Proof. reflexivity. Qed.

Lemma F_fjc_modified_canonical_asymptotic_weak_potential_nondimensional_gibbs_free_energy : forall (T : Type) (Sc : Scalar T) (number_of_links : jarray Z) (link_length : jarray T) (hinge_mass : jarray T) (nondimensional_potential_distance : jarray T) (nondimensional_potential_stiffness : jarray T) (temperature : jarray T),
     jl_fjc_modified_canonical_asymptotic_weak_potential.nondimensional_gibbs_free_energy number_of_links link_length hinge_mass nondimensional_potential_distance nondimensional_potential_stiffness temperature
     = broadcast [UInt8; Float64; Float64; Float64; Float64; Float64] (fun number_of_links link_length hinge_mass nondimensional_potential_distance nondimensional_potential_stiffness temperature =>
         Finished (Some (fjc_modified_canonical_asymptotic_weak_potential.nondimensional_gibbs_free_energy number_of_links link_length hinge_mass nondimensional_potential_distance nondimensional_potential_stiffness temperature))) number_of_links link_length hinge_mass nondimensional_potential_distance nondimensional_potential_stiffness temperature.
Proof. reflexivity. Qed.

Lemma F_fjc_modified_canonical_asymptotic_weak_potential_nondimensional_gibbs_free_energy_per_link : forall (T : Type) (Sc : Scalar T) (number_of_links : jarray Z) (link_length : jarray T) (hinge_mass : jarray T) (nondimensional_potential_distance : jarray T) (nondimensional_potential_stiffness : jarray T) (temperature : jarray T),
     jl_fjc_modified_canonical_asymptotic_weak_potential.nondimensional_gibbs_free_energy_per_link number_of_links link_length hinge_mass nondimensional_potential_distance nondimensional_potential_stiffness temperature
     = broadcast [UInt8; Float64; Float64; Float64; Float64; Float64] (fun number_of_links link_length hinge_mass nondimensional_potential_distance nondimensional_potential_stiffness temperature =>
         Finished (Some (fjc_modified_canonical_asymptotic_weak_potential.nondimensional_gibbs_free_energy_per_link number_of_links link_length hinge_mass nondimensional_potential_distance nondimensional_potential_stiffness temperature))) number_of_links link_length hinge_mass nondimensional_potential_distance nondimensional_potential_stiffness temperature.
Proof. reflexivity. Qed.

Lemma F_fjc_modified_canonical_asymptotic_weak_potential_nondimensional_relative_gibbs_free_energy : forall (T : Type) (Sc : Scalar T) (number_of_links : jarray Z) (nondimensional_potential_distance : jarray T) (nondimensional_potential_stiffness : jarray T),
     jl_fjc_modified_canonical_asymptotic_weak_potential.nondimensional_relative_gibbs_free_energy number_of_links nondimensional_potential_distance nondimensional_potential_stiffness
     = broadcast [UInt8; Float64; Float64] (fun number_of_links nondimensional_potential_distance nondimensional_potential_stiffness =>
         Finished (Some (fjc_modified_canonical_asymptotic_weak_potential.nondimensional_relative_gibbs_free_energy number_of_links nondimensional_potential_distance nondimensional_potential_stiffness))) number_of_links nondimensional_potential_distance nondimensional_potential_stiffness.
Proof. reflexivity. Qed.

Lemma F_fjc_modified_canonical_asymptotic_weak_potential_nondimensional_relative_gibbs_free_energy_per_link : forall (T : Type) (Sc : Scalar T) (number_of_links : jarray Z) (nondimensional_potential_distance : jarray T) (nondimensional_potential_stiffness : jarray T),
     jl_fjc_modified_canonical_asymptotic_weak_potential.nondimensional_relative_gibbs_free_energy_per_link number_of_links nondimensional_potential_distance nondimensional_potential_stiffness
     = broadcast [UInt8; Float64; Float64] (fun number_of_links nondimensional_potential_distance nondimensional_potential_stiffness =>
         Finished (Some (fjc_modified_canonical_asymptotic_weak_potential.nondimensional_relative_gibbs_free_energy_per_link number_of_links nondimensional_potential_distance nondimensional_potential_stiffness))) number_of_links nondimensional_potential_distance nondimensional_potential_stiffness.
Proof. reflexivity. Qed.

Lemma F_lennard_jones_isotensional_asymptotic_end_to_end_length : forall (T : Type) (Sc : Scalar T) (number_of_links : jarray Z) (link_length : jarray T) (link_stiffness : jarray T) (force : jarray T) (temperature : jarray T),
     jl_lennard_jones_isotensional_asymptotic.end_to_end_length number_of_links link_length link_stiffness force temperature
     = broadcast [UInt8; Float64; Float64; Float64; Float64] (fun number_of_links link_length link_stiffness force temperature =>
         Finished (Some (lennard_jones_isotensional_asymptotic.end_to_end_length number_of_links link_length link_stiffness force temperature))) number_of_links link_length link_stiffness force temperature.
Proof. reflexivity. Qed.

Lemma F_lennard_jones_isotensional_asymptotic_end_to_end_length_per_link : forall (T : Type) (Sc : Scalar T) (link_length : jarray T) (link_stiffness : jarray T) (force : jarray T) (temperature : jarray T),
     jl_lennard_jones_isotensional_asymptotic.end_to_end_length_per_link link_length link_stiffness force temperature
     = broadcast [Float64; Float64; Float64; Float64] (fun link_length link_stiffness force temperature =>
         Finished (Some (lennard_jones_isotensional_asymptotic.end_to_end_length_per_link link_length link_stiffness force temperature))) link_length link_stiffness force temperature.
Proof. reflexivity. Qed.

Lemma F_lennard_jones_isotensional_asymptotic_nondimensional_end_to_end_length : forall (T : Type) (Sc : Scalar T) (number_of_links : jarray Z) (nondimensional_link_stiffness : jarray T) (nondimensional_force : jarray T),
     jl_lennard_jones_isotensional_asymptotic.nondimensional_end_to_end_length number_of_links nondimensional_link_stiffness nondimensional_force
     = broadcast [UInt8; Float64; Float64] (fun number_of_links nondimensional_link_stiffness nondimensional_force =>
         Finished (Some (lennard_jones_isotensional_asymptotic.nondimensional_end_to_end_length number_of_links nondimensional_link_stiffness nondimensional_force))) number_of_links nondimensional_link_stiffness nondimensional_force.
Proof. reflexivity. Qed.

Lemma F_lennard_jones_isotensional_asymptotic_nondimensional_end_to_end_length_per_link : forall (T : Type) (Sc : Scalar T) (nondimensional_link_stiffness : jarray T) (nondimensional_force : jarray T),
     jl_lennard_jones_isotensional_asymptotic.nondimensional_end_to_end_length_per_link nondimensional_link_stiffness nondimensional_force
     = broadcast [Float64; Float64] (fun nondimensional_link_stiffness nondimensional_force =>
         Finished (Some (lennard_jones_isotensional_asymptotic.nondimensional_end_to_end_length_per_link nondimensional_link_stiffness nondimensional_force))) nondimensional_link_stiffness nondimensional_force.
Proof. reflexivity. Qed.

Lemma F_lennard_jones_isotensional_asymptotic_gibbs_free_energy : forall (T : Type) (Sc : Scalar T) (number_of_links : jarray Z) (link_length : jarray T) (hinge_mass : jarray T) (link_stiffness : jarray T) (force : jarray T) (temperature : jarray T),
     jl_lennard_jones_isotensional_asymptotic.gibbs_free_energy number_of_links link_length hinge_mass link_stiffness force temperature
     = broadcast [UInt8; Float64; Float64; Float64; Float64; Float64] (fun number_of_links link_length hinge_mass link_stiffness force temperature =>
         Finished (Some (lennard_jones_isotensional_asymptotic.gibbs_free_energy number_of_links link_length hinge_mass link_stiffness force temperature))) number_of_links link_length hinge_mass link_stiffness force temperature.
Proof. reflexivity. Qed.

Lemma F_lennard_jones_isotensional_asymptotic_gibbs_free_energy_per_link : forall (T : Type) (Sc : Scalar T) (link_length : jarray T) (hinge_mass : jarray T) (link_stiffness : jarray T) (force : jarray T) (temperature : jarray T),
     jl_lennard_jones_isotensional_asymptotic.gibbs_free_energy_per_link link_length hinge_mass link_stiffness force temperature
     = broadcast [Float64; Float64; Float64; Float64; Float64] (fun link_length hinge_mass link_stiffness force temperature =>
         Finished (Some (lennard_jones_isotensional_asymptotic.gibbs_free_energy_per_link link_length hinge_mass link_stiffness force temperature))) link_length hinge_mass link_stiffness force temperature.
Proof. reflexivity. Qed.

Lemma F_lennard_jones_isotensional_asymptotic_relative_gibbs_free_energy : forall (T : Type) (Sc : Scalar T) (number_of_links : jarray Z) (link_length : jarray T) (link_stiffness : jarray T) (force : jarray T) (temperature : jarray T),
     jl_lennard_jones_isotensional_asymptotic.relative_gibbs_free_energy number_of_links link_length link_stiffness force temperature
     = broadcast [UInt8; Float64; Float64; Float64; Float64] (fun number_of_links link_length link_stiffness force temperature =>
         Finished (Some (lennard_jones_isotensional_asymptotic.relative_gibbs_free_energy number_of_links link_length link_stiffness force temperature))) number_of_links link_length link_stiffness force temperature.
Proof. reflexivity. Qed.

Lemma F_lennard_jones_isotensional_asymptotic_relative_gibbs_free_energy_per_link : forall (T : Type) (Sc : Scalar T) (link_length : jarray T) (link_stiffness : jarray T) (force : jarray T) (temperature : jarray T),
     jl_lennard_jones_isotensional_asymptotic.relative_gibbs_free_energy_per_link link_length link_stiffness force temperature
     = broadcast [Float64; Float64; Float64; Float64] (fun link_length link_stiffness force temperature =>
         Finished (Some (lennard_jones_isotensional_asymptotic.relative_gibbs_free_energy_per_link link_length link_stiffness force temperature))) link_length link_stiffness force temperature.
Proof. reflexivity. Qed.

Lemma F_lennard_jones_isotensional_asymptotic_nondimensional_gibbs_free_energy : forall (T : Type) (Sc : Scalar T) (number_of_links : jarray Z) (link_length : jarray T) (hinge_mass : jarray T) (nondimensional_link_stiffness : jarray T) (nondimensional_force : jarray T) (temperature : jarray T),
     jl_lennard_jones_isotensional_asymptotic.nondimensional_gibbs_free_energy number_of_links link_length hinge_mass nondimensional_link_stiffness nondimensional_force temperature
     = broadcast [UInt8; Float64; Float64; Float64; Float64; Float64] (fun number_of_links link_length hinge_mass nondimensional_link_stiffness nondimensional_force temperature =>
         Finished (Some (lennard_jones_isotensional_asymptotic.nondimensional_gibbs_free_energy number_of_links link_length hinge_mass nondimensional_link_stiffness nondimensional_force temperature))) number_of_links link_length hinge_mass nondimensional_link_stiffness nondimensional_force temperature.
Proof. reflexivity. Qed.

Lemma F_lennard_jones_isotensional_asymptotic_nondimensional_gibbs_free_energy_per_link : forall (T : Type) (Sc : Scalar T) (link_length : jarray T) (hinge_mass : jarray T) (nondimensional_link_stiffness : jarray T) (nondimensional_force : jarray T) (temperature : jarray T),
     jl_lennard_jones_isotensional_asymptotic.nondimensional_gibbs_free_energy_per_link link_length hinge_mass nondimensional_link_stiffness nondimensional_force temperature
     = broadcast [Float64; Float64; Float64; Float64; Float64] (fun link_length hinge_mass nondimensional_link_stiffness nondimensional_force temperature =>
         Finished (Some (lennard_jones_isotensional_asymptotic.nondimensional_gibbs_free_energy_per_link link_length hinge_mass nondimensional_link_stiffness nondimensional_force temperature))) link_length hinge_mass nondimensional_link_stiffness nondimensional_force temperature.
Proof. reflexivity. Qed.

Lemma F_lennard_jones_isotensional_asymptotic_nondimensional_relative_gibbs_free_energy : forall (T : Type) (Sc : Scalar T) (number_of_links : jarray Z) (nondimensional_link_stiffness : jarray T) (nondimensional_force : jarray T),
     jl_lennard_jones_isotensional_asymptotic.nondimensional_relative_gibbs_free_energy number_of_links nondimensional_link_stiffness nondimensional_force
     = broadcast [UInt8; Float64; Float64] (fun number_of_links nondimensional_link_stiffness nondimensional_force =>
         Finished (Some (lennard_jones_isotensional_asymptotic.nondimensional_relative_gibbs_free_energy number_of_links nondimensional_link_stiffness nondimensional_force))) number_of_links nondimensional_link_stiffness nondimensional_force.
Proof. reflexivity. Qed.

Lemma F_lennard_jones_isotensional_asymptotic_nondimensional_relative_gibbs_free_energy_per_link : forall (T : Type) (Sc : Scalar T) (nondimensional_link_stiffness : jarray T) (nondimensional_force : jarray T),
     jl_lennard_jones_isotensional_asymptotic.nondimensional_relative_gibbs_free_energy_per_link nondimensional_link_stiffness nondimensional_force
     = broadcast [Float64; Float64] (fun nondimensional_link_stiffness nondimensional_force =>
         Finished (Some (lennard_jones_isotensional_asymptotic.nondimensional_relative_gibbs_free_energy_per_link nondimensional_link_stiffness nondimensional_force))) nondimensional_link_stiffness nondimensional_force.
Proof. reflexivity. Qed.

Lemma F_lennard_jones_isotensional_legendre_helmholtz_free_energy : forall (T : Type) (Sc : Scalar T) (number_of_links : jarray Z) (link_length : jarray T) (hinge_mass : jarray T) (link_stiffness : jarray T) (force : jarray T) (temperature : jarray T),
     jl_lennard_jones_isotensional_legendre.helmholtz_free_energy number_of_links link_length hinge_mass link_stiffness force temperature
     = broadcast [UInt8; Float64; Float64; Float64; Float64; Float64] (fun number_of_links link_length hinge_mass link_stiffness force temperature =>
         Finished (Some (lennard_jones_isotensional_legendre.helmholtz_free_energy number_of_links link_length hinge_mass link_stiffness force temperature))) number_of_links link_length hinge_mass link_stiffness force temperature.
Proof. reflexivity. Qed.

Lemma F_lennard_jones_isotensional_legendre_helmholtz_free_energy_per_link : forall (T : Type) (Sc : Scalar T) (link_length : jarray T) (hinge_mass : jarray T) (link_stiffness : jarray T) (force : jarray T) (temperature : jarray T),
     jl_lennard_jones_isotensional_legendre.helmholtz_free_energy_per_link link_length hinge_mass link_stiffness force temperature
     = broadcast [Float64; Float64; Float64; Float64; Float64] (fun link_length hinge_mass link_stiffness force temperature =>
         Finished (Some (lennard_jones_isotensional_legendre.helmholtz_free_energy_per_link link_length hinge_mass link_stiffness force temperature))) link_length hinge_mass link_stiffness force temperature.
Proof. reflexivity. Qed.

Lemma F_lennard_jones_isotensional_legendre_relative_helmholtz_free_energy : forall (T : Type) (Sc : Scalar T) (number_of_links : jarray Z) (link_length : jarray T) (link_stiffness : jarray T) (force : jarray T) (temperature : jarray T),
     jl_lennard_jones_isotensional_legendre.relative_helmholtz_free_energy number_of_links link_length link_stiffness force temperature
     = broadcast [UInt8; Float64; Float64; Float64; Float64] (fun number_of_links link_length link_stiffness force temperature =>
         Finished (Some (lennard_jones_isotensional_legendre.relative_helmholtz_free_energy number_of_links link_length link_stiffness force temperature))) number_of_links link_length link_stiffness force temperature.
Proof. reflexivity. Qed.

Lemma F_lennard_jones_isotensional_legendre_relative_helmholtz_free_energy_per_link : forall (T : Type) (Sc : Scalar T) (link_length : jarray T) (link_stiffness : jarray T) (force : jarray T) (temperature : jarray T),
     jl_lennard_jones_isotensional_legendre.relative_helmholtz_free_energy_per_link link_length link_stiffness force temperature
     = broadcast [Float64; Float64; Float64; Float64] (fun link_length link_stiffness force temperature =>
         Finished (Some (lennard_jones_isotensional_legendre.relative_helmholtz_free_energy_per_link link_length link_stiffness force temperature))) link_length link_stiffness force temperature.
Proof. reflexivity. Qed.

Lemma F_lennard_jones_isotensional_legendre_nondimensional_helmholtz_free_energy : forall (T : Type) (Sc : Scalar T) (number_of_links : jarray Z) (link_length : jarray T) (hinge_mass : jarray T) (nondimensional_link_stiffness : jarray T) (nondimensional_force : jarray T) (temperature : jarray T),
     jl_lennard_jones_isotensional_legendre.nondimensional_helmholtz_free_energy number_of_links link_length hinge_mass nondimensional_link_stiffness nondimensional_force temperature
     = broadcast [UInt8; Float64; Float64; Float64; Float64; Float64] (fun number_of_links link_length hinge_mass nondimensional_link_stiffness nondimensional_force temperature =>
         Finished (Some (lennard_jones_isotensional_legendre.nondimensional_helmholtz_free_energy number_of_links link_length hinge_mass nondimensional_link_stiffness nondimensional_force temperature))) number_of_links link_length hinge_mass nondimensional_link_stiffness nondimensional_force temperature.
Proof. reflexivity. Qed.

Lemma F_lennard_jones_isotensional_legendre_nondimensional_helmholtz_free_energy_per_link : forall (T : Type) (Sc : Scalar T) (link_length : jarray T) (hinge_mass : jarray T) (nondimensional_link_stiffness : jarray T) (nondimensional_force : jarray T) (temperature : jarray T),
     jl_lennard_jones_isotensional_legendre.nondimensional_helmholtz_free_energy_per_link link_length hinge_mass nondimensional_link_stiffness nondimensional_force temperature
     = broadcast [Float64; Float64; Float64; Float64; Float64] (fun link_length hinge_mass nondimensional_link_stiffness nondimensional_force temperature =>
         Finished (Some (lennard_jones_isotensional_legendre.nondimensional_helmholtz_free_energy_per_link link_length hinge_mass nondimensional_link_stiffness nondimensional_force temperature))) link_length hinge_mass nondimensional_link_stiffness nondimensional_force temperature.
Proof. reflexivity. Qed.

Lemma F_lennard_jones_isotensional_legendre_nondimensional_relative_helmholtz_free_energy : forall (T : Type) (Sc : Scalar T) (number_of_links : jarray Z) (nondimensional_link_stiffness : jarray T) (nondimensional_force : jarray T),
     jl_lennard_jones_isotensional_legendre.nondimensional_relative_helmholtz_free_energy number_of_links nondimensional_link_stiffness nondimensional_force
     = broadcast [UInt8; Float64; Float64] (fun number_of_links nondimensional_link_stiffness nondimensional_force =>
         Finished (Some (lennard_jones_isotensional_legendre.nondimensional_relative_helmholtz_free_energy number_of_links nondimensional_link_stiffness nondimensional_force))) number_of_links nondimensional_link_stiffness nondimensional_force.
Proof. reflexivity. Qed.

Lemma F_lennard_jones_isotensional_legendre_nondimensional_relative_helmholtz_free_energy_per_link : forall (T : Type) (Sc : Scalar T) (nondimensional_link_stiffness : jarray T) (nondimensional_force : jarray T),
     jl_lennard_jones_isotensional_legendre.nondimensional_relative_helmholtz_free_energy_per_link nondimensional_link_stiffness nondimensional_force
     = broadcast [Float64; Float64] (fun nondimensional_link_stiffness nondimensional_force =>
         Finished (Some (lennard_jones_isotensional_legendre.nondimensional_relative_helmholtz_free_energy_per_link nondimensional_link_stiffness nondimensional_force))) nondimensional_link_stiffness nondimensional_force.
Proof. reflexivity. Qed.

Lemma F_log_squared_isotensional_asymptotic_end_to_end_length : forall (T : Type) (Sc : Scalar T) (number_of_links : jarray Z) (link_length : jarray T) (link_stiffness : jarray T) (force : jarray T) (temperature : jarray T),
     jl_log_squared_isotensional_asymptotic.end_to_end_length number_of_links link_length link_stiffness force temperature
     = broadcast [UInt8; Float64; Float64; Float64; Float64] (fun number_of_links link_length link_stiffness force temperature =>
         Finished (Some (log_squared_isotensional_asymptotic.end_to_end_length number_of_links link_length link_stiffness force temperature))) number_of_links link_length link_stiffness force temperature.
Proof. reflexivity. Qed.

Lemma F_log_squared_isotensional_asymptotic_end_to_end_length_per_link : forall (T : Type) (Sc : Scalar T) (link_length : jarray T) (link_stiffness : jarray T) (force : jarray T) (temperature : jarray T),
     jl_log_squared_isotensional_asymptotic.end_to_end_length_per_link link_length link_stiffness force temperature
     = broadcast [Float64; Float64; Float64; Float64] (fun link_length link_stiffness force temperature =>
         Finished (Some (log_squared_isotensional_asymptotic.end_to_end_length_per_link link_length link_stiffness force temperature))) link_length link_stiffness force temperature.
Proof. reflexivity. Qed.

Lemma F_log_squared_isotensional_asymptotic_nondimensional_end_to_end_length : forall (T : Type) (Sc : Scalar T) (number_of_links : jarray Z) (nondimensional_link_stiffness : jarray T) (nondimensional_force : jarray T),
     jl_log_squared_isotensional_asymptotic.nondimensional_end_to_end_length number_of_links nondimensional_link_stiffness nondimensional_force
     = broadcast [UInt8; Float64; Float64] (fun number_of_links nondimensional_link_stiffness nondimensional_force =>
         Finished (Some (log_squared_isotensional_asymptotic.nondimensional_end_to_end_length number_of_links nondimensional_link_stiffness nondimensional_force))) number_of_links nondimensional_link_stiffness nondimensional_force.
Proof. reflexivity. Qed.

Lemma F_log_squared_isotensional_asymptotic_nondimensional_end_to_end_length_per_link : forall (T : Type) (Sc : Scalar T) (nondimensional_link_stiffness : jarray T) (nondimensional_force : jarray T),
     jl_log_squared_isotensional_asymptotic.nondimensional_end_to_end_length_per_link nondimensional_link_stiffness nondimensional_force
     = broadcast [Float64; Float64] (fun nondimensional_link_stiffness nondimensional_force =>
         Finished (Some (log_squared_isotensional_asymptotic.nondimensional_end_to_end_length_per_link nondimensional_link_stiffness nondimensional_force))) nondimensional_link_stiffness nondimensional_force.
Proof. reflexivity. Qed.

Lemma F_log_squared_isotensional_asymptotic_gibbs_free_energy : forall (T : Type) (Sc : Scalar T) (number_of_links : jarray Z) (link_length : jarray T) (hinge_mass : jarray T) (link_stiffness : jarray T) (force : jarray T) (temperature : jarray T),
     jl_log_squared_isotensional_asymptotic.gibbs_free_energy number_of_links link_length hinge_mass link_stiffness force temperature
     = broadcast [UInt8; Float64; Float64; Float64; Float64; Float64] (fun number_of_links link_length hinge_mass link_stiffness force temperature =>
         Finished (Some (log_squared_isotensional_asymptotic.gibbs_free_energy number_of_links link_length hinge_mass link_stiffness force temperature))) number_of_links link_length hinge_mass link_stiffness force temperature.
Proof. reflexivity. Qed.

Lemma F_log_squared_isotensional_asymptotic_gibbs_free_energy_per_link : forall (T : Type) (Sc : Scalar T) (link_length : jarray T) (hinge_mass : jarray T) (link_stiffness : jarray T) (force : jarray T) (temperature : jarray T),
     jl_log_squared_isotensional_asymptotic.gibbs_free_energy_per_link link_length hinge_mass link_stiffness force temperature
     = broadcast [Float64; Float64; Float64; Float64; Float64] (fun link_length hinge_mass link_stiffness force temperature =>
         Finished (Some (log_squared_isotensional_asymptotic.gibbs_free_energy_per_link link_length hinge_mass link_stiffness force temperature))) link_length hinge_mass link_stiffness force temperature.
Proof. reflexivity. Qed.

Lemma F_log_squared_isotensional_asymptotic_relative_gibbs_free_energy : forall (T : Type) (Sc : Scalar T) (number_of_links : jarray Z) (link_length : jarray T) (link_stiffness : jarray T) (force : jarray T) (temperature : jarray T),
     jl_log_squared_isotensional_asymptotic.relative_gibbs_free_energy number_of_links link_length link_stiffness force temperature
     = broadcast [UInt8; Float64; Float64; Float64; Float64] (fun number_of_links link_length link_stiffness force temperature =>
         Finished (Some (log_squared_isotensional_asymptotic.relative_gibbs_free_energy number_of_links link_length link_stiffness force temperature))) number_of_links link_length link_stiffness force temperature.
Proof. reflexivity. Qed.

Lemma F_log_squared_isotensional_asymptotic_relative_gibbs_free_energy_per_link : forall (T : Type) (Sc : Scalar T) (link_length : jarray T) (link_stiffness : jarray T) (force : jarray T) (temperature : jarray T),
     jl_log_squared_isotensional_asymptotic.relative_gibbs_free_energy_per_link link_length link_stiffness force temperature
     = broadcast [Float64; Float64; Float64; Float64] (fun link_length link_stiffness force temperature =>
         Finished (Some (log_squared_isotensional_asymptotic.relative_gibbs_free_energy_per_link link_length link_stiffness force temperature))) link_length link_stiffness force temperature.
Proof. reflexivity. Qed.

Lemma F_log_squared_isotensional_asymptotic_nondimensional_gibbs_free_energy : forall (T : Type) (Sc : Scalar T) (number_of_links : jarray Z) (link_length : jarray T) (hinge_mass : jarray T) (nondimensional_link_stiffness : jarray T) (nondimensional_force : jarray T) (temperature : jarray T),
     jl_log_squared_isotensional_asymptotic.nondimensional_gibbs_free_energy number_of_links link_length hinge_mass nondimensional_link_stiffness nondimensional_force temperature
     = broadcast [UInt8; Float64; Float64; Float64; Float64; Float64] (fun number_of_links link_length hinge_mass nondimensional_link_stiffness nondimensional_force temperature =>
         Finished (Some (log_squared_isotensional_asymptotic.nondimensional_gibbs_free_energy number_of_links link_length hinge_mass nondimensional_link_stiffness nondimensional_force temperature))) number_of_links link_length hinge_mass nondimensional_link_stiffness nondimensional_force temperature.
Proof. reflexivity. Qed.

Lemma F_log_squared_isotensional_asymptotic_nondimensional_gibbs_free_energy_per_link : forall (T : Type) (Sc : Scalar T) (link_length : jarray T) (hinge_mass : jarray T) (nondimensional_link_stiffness : jarray T) (nondimensional_force : jarray T) (temperature : jarray T),
     jl_log_squared_isotensional_asymptotic.nondimensional_gibbs_free_energy_per_link link_length hinge_mass nondimensional_link_stiffness nondimensional_force temperature
     = broadcast [Float64; Float64; Float64; Float64; Float64] (fun link_length hinge_mass nondimensional_link_stiffness nondimensional_force temperature =>
         Finished (Some (log_squared_isotensional_asymptotic.nondimensional_gibbs_free_energy_per_link link_length hinge_mass nondimensional_link_stiffness nondimensional_force temperature))) link_length hinge_mass nondimensional_link_stiffness nondimensional_force temperature.
Proof. reflexivity. Qed.

Lemma F_log_squared_isotensional_asymptotic_nondimensional_relative_gibbs_free_energy : forall (T : Type) (Sc : Scalar T) (number_of_links : jarray Z) (nondimensional_link_stiffness : jarray T) (nondimensional_force : jarray T),
     jl_log_squared_isotensional_asymptotic.nondimensional_relative_gibbs_free_energy number_of_links nondimensional_link_stiffness nondimensional_force
     = broadcast [UInt8; Float64; Float64] (fun number_of_links nondimensional_link_stiffness nondimensional_force =>
         Finished (Some (log_squared_isotensional_asymptotic.nondimensional_relative_gibbs_free_energy number_of_links nondimensional_link_stiffness nondimensional_force))) number_of_links nondimensional_link_stiffness nondimensional_force.
Proof. reflexivity. Qed.

Lemma F_log_squared_isotensional_asymptotic_nondimensional_relative_gibbs_free_energy_per_link : forall (T : Type) (Sc : Scalar T) (nondimensional_link_stiffness : jarray T) (nondimensional_force : jarray T),
     jl_log_squared_isotensional_asymptotic.nondimensional_relative_gibbs_free_energy_per_link nondimensional_link_stiffness nondimensional_force
     = broadcast [Float64; Float64] (fun nondimensional_link_stiffness nondimensional_force =>
         Finished (Some (log_squared_isotensional_asymptotic.nondimensional_relative_gibbs_free_energy_per_link nondimensional_link_stiffness nondimensional_force))) nondimensional_link_stiffness nondimensional_force.
Proof. reflexivity. Qed.

Lemma F_log_squared_isotensional_legendre_helmholtz_free_energy : forall (T : Type) (Sc : Scalar T) (number_of_links : jarray Z) (link_length : jarray T) (hinge_mass : jarray T) (link_stiffness : jarray T) (force : jarray T) (temperature : jarray T),
     jl_log_squared_isotensional_legendre.helmholtz_free_energy number_of_links link_length hinge_mass link_stiffness force temperature
     = broadcast [UInt8; Float64; Float64; Float64; Float64; Float64] (fun number_of_links link_length hinge_mass link_stiffness force temperature =>
         Finished (Some (log_squared_isotensional_legendre.helmholtz_free_energy number_of_links link_length hinge_mass link_stiffness force temperature))) number_of_links link_length hinge_mass link_stiffness force temperature.
Proof. reflexivity. Qed.

Lemma F_log_squared_isotensional_legendre_helmholtz_free_energy_per_link : forall (T : Type) (Sc : Scalar T) (link_length : jarray T) (hinge_mass : jarray T) (link_stiffness : jarray T) (force : jarray T) (temperature : jarray T),
     jl_log_squared_isotensional_legendre.helmholtz_free_energy_per_link link_length hinge_mass link_stiffness force temperature
     = broadcast [Float64; Float64; Float64; Float64; Float64] (fun link_length hinge_mass link_stiffness force temperature =>
         Finished (Some (log_squared_isotensional_legendre.helmholtz_free_energy_per_link link_length hinge_mass link_stiffness force temperature))) link_length hinge_mass link_stiffness force temperature.
Proof. reflexivity. Qed.

Lemma F_log_squared_isotensional_legendre_relative_helmholtz_free_energy : forall (T : Type) (Sc : Scalar T) (number_of_links : jarray Z) (link_length : jarray T) (link_stiffness : jarray T) (force : jarray T) (temperature : jarray T),
     jl_log_squared_isotensional_legendre.relative_helmholtz_free_energy number_of_links link_length link_stiffness force temperature
     = broadcast [UInt8; Float64; Float64; Float64; Float64] (fun number_of_links link_length link_stiffness force temperature =>
         Finished (Some (log_squared_isotensional_legendre.relative_helmholtz_free_energy number_of_links link_length link_stiffness force temperature))) number_of_links link_length link_stiffness force temperature.
Proof. reflexivity. Qed.

Lemma F_log_squared_isotensional_legendre_relative_helmholtz_free_energy_per_link : forall (T : Type) (Sc : Scalar T) (link_length : jarray T) (link_stiffness : jarray T) (force : jarray T) (temperature : jarray T),
     jl_log_squared_isotensional_legendre.relative_helmholtz_free_energy_per_link link_length link_stiffness force temperature
     = broadcast [Float64; Float64; Float64; Float64] (fun link_length link_stiffness force temperature =>
         Finished (Some (log_squared_isotensional_legendre.relative_helmholtz_free_energy_per_link link_length link_stiffness force temperature))) link_length link_stiffness force temperature.
Proof. reflexivity. Qed.

Lemma F_log_squared_isotensional_legendre_nondimensional_helmholtz_free_energy : forall (T : Type) (Sc : Scalar T) (number_of_links : jarray Z) (link_length : jarray T) (hinge_mass : jarray T) (nondimensional_link_stiffness : jarray T) (nondimensional_force : jarray T) (temperature : jarray T),
     jl_log_squared_isotensional_legendre.nondimensional_helmholtz_free_energy number_of_links link_length hinge_mass nondimensional_link_stiffness nondimensional_force temperature
     = broadcast [UInt8; Float64; Float64; Float64; Float64; Float64] (fun number_of_links link_length hinge_mass nondimensional_link_stiffness nondimensional_force temperature =>
         Finished (Some (log_squared_isotensional_legendre.nondimensional_helmholtz_free_energy number_of_links link_length hinge_mass nondimensional_link_stiffness nondimensional_force temperature))) number_of_links link_length hinge_mass nondimensional_link_stiffness nondimensional_force temperature.
Proof. reflexivity. Qed.

Lemma F_log_squared_isotensional_legendre_nondimensional_helmholtz_free_energy_per_link : forall (T : Type) (Sc : Scalar T) (link_length : jarray T) (hinge_mass : jarray T) (nondimensional_link_stiffness : jarray T) (nondimensional_force : jarray T) (temperature : jarray T),
     jl_log_squared_isotensional_legendre.nondimensional_helmholtz_free_energy_per_link link_length hinge_mass nondimensional_link_stiffness nondimensional_force temperature
     = broadcast [Float64; Float64; Float64; Float64; Float64] (fun link_length hinge_mass nondimensional_link_stiffness nondimensional_force temperature =>
         Finished (Some (log_squared_isotensional_legendre.nondimensional_helmholtz_free_energy_per_link link_length hinge_mass nondimensional_link_stiffness nondimensional_force temperature))) link_length hinge_mass nondimensional_link_stiffness nondimensional_force temperature.
Proof. reflexivity. Qed.

Lemma F_log_squared_isotensional_legendre_nondimensional_relative_helmholtz_free_energy : forall (T : Type) (Sc : Scalar T) (number_of_links : jarray Z) (nondimensional_link_stiffness : jarray T) (nondimensional_force : jarray T),
     jl_log_squared_isotensional_legendre.nondimensional_relative_helmholtz_free_energy number_of_links nondimensional_link_stiffness nondimensional_force
     = broadcast [UInt8; Float64; Float64] (fun number_of_links nondimensional_link_stiffness nondimensional_force =>
         Finished (Some (log_squared_isotensional_legendre.nondimensional_relative_helmholtz_free_energy number_of_links nondimensional_link_stiffness nondimensional_force))) number_of_links nondimensional_link_stiffness nondimensional_force.
Proof. reflexivity. Qed.

Lemma F_log_squared_isotensional_legendre_nondimensional_relative_helmholtz_free_energy_per_link : forall (T : Type) (Sc : Scalar T) (nondimensional_link_stiffness : jarray T) (nondimensional_force : jarray T),
     jl_log_squared_isotensional_legendre.nondimensional_relative_helmholtz_free_energy_per_link nondimensional_link_stiffness nondimensional_force
     = broadcast [Float64; Float64] (fun nondimensional_link_stiffness nondimensional_force =>
         Finished (Some (log_squared_isotensional_legendre.nondimensional_relative_helmholtz_free_energy_per_link nondimensional_link_stiffness nondimensional_force))) nondimensional_link_stiffness nondimensional_force.
Proof. reflexivity. Qed.

Lemma F_morse_isotensional_asymptotic_end_to_end_length : forall (T : Type) (Sc : Scalar T) (number_of_links : jarray Z) (link_length : jarray T) (link_stiffness : jarray T) (link_energy : jarray T) (force : jarray T) (temperature : jarray T),
     jl_morse_isotensional_asymptotic.end_to_end_length number_of_links link_length link_stiffness link_energy force temperature
     = broadcast [UInt8; Float64; Float64; Float64; Float64; Float64] (fun number_of_links link_length link_stiffness link_energy force temperature =>
         Finished (Some (morse_isotensional_asymptotic.end_to_end_length number_of_links link_length link_stiffness link_energy force temperature))) number_of_links link_length link_stiffness link_energy force temperature.
Proof. reflexivity. Qed.

Lemma F_morse_isotensional_asymptotic_end_to_end_length_per_link : forall (T : Type) (Sc : Scalar T) (link_length : jarray T) (link_stiffness : jarray T) (link_energy : jarray T) (force : jarray T) (temperature : jarray T),
     jl_morse_isotensional_asymptotic.end_to_end_length_per_link link_length link_stiffness link_energy force temperature
     = broadcast [Float64; Float64; Float64; Float64; Float64] (fun link_length link_stiffness link_energy force temperature =>
         Finished (Some (morse_isotensional_asymptotic.end_to_end_length_per_link link_length link_stiffness link_energy force temperature))) link_length link_stiffness link_energy force temperature.
Proof. reflexivity. Qed.

Lemma F_morse_isotensional_asymptotic_nondimensional_end_to_end_length : forall (T : Type) (Sc : Scalar T) (number_of_links : jarray Z) (nondimensional_link_stiffness : jarray T) (nondimensional_link_energy : jarray T) (nondimensional_force : jarray T),
     jl_morse_isotensional_asymptotic.nondimensional_end_to_end_length number_of_links nondimensional_link_stiffness nondimensional_link_energy nondimensional_force
     = broadcast [UInt8; Float64; Float64; Float64] (fun number_of_links nondimensional_link_stiffness nondimensional_link_energy nondimensional_force =>
         Finished (Some (morse_isotensional_asymptotic.nondimensional_end_to_end_length number_of_links nondimensional_link_stiffness nondimensional_link_energy nondimensional_force))) number_of_links nondimensional_link_stiffness nondimensional_link_energy nondimensional_force.
Proof. reflexivity. Qed.

Lemma F_morse_isotensional_asymptotic_nondimensional_end_to_end_length_per_link : forall (T : Type) (Sc : Scalar T) (nondimensional_link_stiffness : jarray T) (nondimensional_link_energy : jarray T) (nondimensional_force : jarray T),
     jl_morse_isotensional_asymptotic.nondimensional_end_to_end_length_per_link nondimensional_link_stiffness nondimensional_link_energy nondimensional_force
     = broadcast [Float64; Float64; Float64] (fun nondimensional_link_stiffness nondimensional_link_energy nondimensional_force =>
         Finished (Some (morse_isotensional_asymptotic.nondimensional_end_to_end_length_per_link nondimensional_link_stiffness nondimensional_link_energy nondimensional_force))) nondimensional_link_stiffness nondimensional_link_energy nondimensional_force.
Proof. reflexivity. Qed.

Lemma F_morse_isotensional_asymptotic_gibbs_free_energy : forall (T : Type) (Sc : Scalar T) (number_of_links : jarray Z) (link_length : jarray T) (hinge_mass : jarray T) (link_stiffness : jarray T) (link_energy : jarray T) (force : jarray T) (temperature : jarray T),
     jl_morse_isotensional_asymptotic.gibbs_free_energy number_of_links link_length hinge_mass link_stiffness link_energy force temperature
     = broadcast [UInt8; Float64; Float64; Float64; Float64; Float64; Float64] (fun number_of_links link_length hinge_mass link_stiffness link_energy force temperature =>
         Finished (Some (morse_isotensional_asymptotic.gibbs_free_energy number_of_links link_length hinge_mass link_stiffness link_energy force temperature))) number_of_links link_length hinge_mass link_stiffness link_energy force temperature.
Proof. reflexivity. Qed.

Lemma F_morse_isotensional_asymptotic_gibbs_free_energy_per_link : forall (T : Type) (Sc : Scalar T) (link_length : jarray T) (hinge_mass : jarray T) (link_stiffness : jarray T) (link_energy : jarray T) (force : jarray T) (temperature : jarray T),
     jl_morse_isotensional_asymptotic.gibbs_free_energy_per_link link_length hinge_mass link_stiffness link_energy force temperature
     = broadcast [Float64; Float64; Float64; Float64; Float64; Float64] (fun link_length hinge_mass link_stiffness link_energy force temperature =>
         Finished (Some (morse_isotensional_asymptotic.gibbs_free_energy_per_link link_length hinge_mass link_stiffness link_energy force temperature))) link_length hinge_mass link_stiffness link_energy force temperature.
Proof. reflexivity. Qed.

Lemma F_morse_isotensional_asymptotic_relative_gibbs_free_energy : forall (T : Type) (Sc : Scalar T) (number_of_links : jarray Z) (link_length : jarray T) (link_stiffness : jarray T) (link_energy : jarray T) (force : jarray T) (temperature : jarray T),
     jl_morse_isotensional_asymptotic.relative_gibbs_free_energy number_of_links link_length link_stiffness link_energy force temperature
     = broadcast [UInt8; Float64; Float64; Float64; Float64; Float64] (fun number_of_links link_length link_stiffness link_energy force temperature =>
         Finished (Some (morse_isotensional_asymptotic.relative_gibbs_free_energy number_of_links link_length link_stiffness link_energy force temperature))) number_of_links link_length link_stiffness link_energy force temperature.
Proof. reflexivity. Qed.

Lemma F_morse_isotensional_asymptotic_relative_gibbs_free_energy_per_link : forall (T : Type) (Sc : Scalar T) (link_length : jarray T) (link_stiffness : jarray T) (link_energy : jarray T) (force : jarray T) (temperature : jarray T),
     jl_morse_isotensional_asymptotic.relative_gibbs_free_energy_per_link link_length link_stiffness link_energy force temperature
     = broadcast [Float64; Float64; Float64; Float64; Float64] (fun link_length link_stiffness link_energy force temperature =>
         Finished (Some (morse_isotensional_asymptotic.relative_gibbs_free_energy_per_link link_length link_stiffness link_energy force temperature))) link_length link_stiffness link_energy force temperature.
Proof. reflexivity. Qed.

Lemma F_morse_isotensional_asymptotic_nondimensional_gibbs_free_energy : forall (T : Type) (Sc : Scalar T) (number_of_links : jarray Z) (link_length : jarray T) (hinge_mass : jarray T) (nondimensional_link_stiffness : jarray T) (nondimensional_link_energy : jarray T) (nondimensional_force : jarray T) (temperature : jarray T),
     jl_morse_isotensional_asymptotic.nondimensional_gibbs_free_energy number_of_links link_length hinge_mass nondimensional_link_stiffness nondimensional_link_energy nondimensional_force temperature
     = broadcast [UInt8; Float64; Float64; Float64; Float64; Float64; Float64] (fun number_of_links link_length hinge_mass nondimensional_link_stiffness nondimensional_link_energy nondimensional_force temperature =>
         Finished (Some (morse_isotensional_asymptotic.nondimensional_gibbs_free_energy number_of_links link_length hinge_mass nondimensional_link_stiffness nondimensional_link_energy nondimensional_force temperature))) number_of_links link_length hinge_mass nondimensional_link_stiffness nondimensional_link_energy nondimensional_force temperature.
Proof. reflexivity. Qed.

Lemma F_morse_isotensional_asymptotic_nondimensional_gibbs_free_energy_per_link : forall (T : Type) (Sc : Scalar T) (link_length : jarray T) (hinge_mass : jarray T) (nondimensional_link_stiffness : jarray T) (nondimensional_link_energy : jarray T) (nondimensional_force : jarray T) (temperature : jarray T),
     jl_morse_isotensional_asymptotic.nondimensional_gibbs_free_energy_per_link link_length hinge_mass nondimensional_link_stiffness nondimensional_link_energy nondimensional_force temperature
     = broadcast [Float64; Float64; Float64; Float64; Float64; Float64] (fun link_length hinge_mass nondimensional_link_stiffness nondimensional_link_energy nondimensional_force temperature =>
         Finished (Some (morse_isotensional_asymptotic.nondimensional_gibbs_free_energy_per_link link_length hinge_mass nondimensional_link_stiffness nondimensional_link_energy nondimensional_force temperature))) link_length hinge_mass nondimensional_link_stiffness nondimensional_link_energy nondimensional_force temperature.
Proof. reflexivity. Qed.

Lemma F_morse_isotensional_asymptotic_nondimensional_relative_gibbs_free_energy : forall (T : Type) (Sc : Scalar T) (number_of_links : jarray Z) (nondimensional_link_stiffness : jarray T) (nondimensional_link_energy : jarray T) (nondimensional_force : jarray T),
     jl_morse_isotensional_asymptotic.nondimensional_relative_gibbs_free_energy number_of_links nondimensional_link_stiffness nondimensional_link_energy nondimensional_force
     = broadcast [UInt8; Float64; Float64; Float64] (fun number_of_links nondimensional_link_stiffness nondimensional_link_energy nondimensional_force =>
         Finished (Some (morse_isotensional_asymptotic.nondimensional_relative_gibbs_free_energy number_of_links nondimensional_link_stiffness nondimensional_link_energy nondimensional_force))) number_of_links nondimensional_link_stiffness nondimensional_link_energy nondimensional_force.
Proof. reflexivity. Qed.

Lemma F_morse_isotensional_asymptotic_nondimensional_relative_gibbs_free_energy_per_link : forall (T : Type) (Sc : Scalar T) (nondimensional_link_stiffness : jarray T) (nondimensional_link_energy : jarray T) (nondimensional_force : jarray T),
     jl_morse_isotensional_asymptotic.nondimensional_relative_gibbs_free_energy_per_link nondimensional_link_stiffness nondimensional_link_energy nondimensional_force
     = broadcast [Float64; Float64; Float64] (fun nondimensional_link_stiffness nondimensional_link_energy nondimensional_force =>
         Finished (Some (morse_isotensional_asymptotic.nondimensional_relative_gibbs_free_energy_per_link nondimensional_link_stiffness nondimensional_link_energy nondimensional_force))) nondimensional_link_stiffness nondimensional_link_energy nondimensional_force.
Proof. reflexivity. Qed.

Lemma F_morse_isotensional_legendre_helmholtz_free_energy : forall (T : Type) (Sc : Scalar T) (number_of_links : jarray Z) (link_length : jarray T) (hinge_mass : jarray T) (link_stiffness : jarray T) (link_energy : jarray T) (force : jarray T) (temperature : jarray T),
     jl_morse_isotensional_legendre.helmholtz_free_energy number_of_links link_length hinge_mass link_stiffness link_energy force temperature
     = broadcast [UInt8; Float64; Float64; Float64; Float64; Float64; Float64] (fun number_of_links link_length hinge_mass link_stiffness link_energy force temperature =>
         Finished (Some (morse_isotensional_legendre.helmholtz_free_energy number_of_links link_length hinge_mass link_stiffness link_energy force temperature))) number_of_links link_length hinge_mass link_stiffness link_energy force temperature.
Proof. reflexivity. Qed.

Lemma F_morse_isotensional_legendre_helmholtz_free_energy_per_link : forall (T : Type) (Sc : Scalar T) (link_length : jarray T) (hinge_mass : jarray T) (link_stiffness : jarray T) (link_energy : jarray T) (force : jarray T) (temperature : jarray T),
     jl_morse_isotensional_legendre.helmholtz_free_energy_per_link link_length hinge_mass link_stiffness link_energy force temperature
     = broadcast [Float64; Float64; Float64; Float64; Float64; Float64] (fun link_length hinge_mass link_stiffness link_energy force temperature =>
         Finished (Some (morse_isotensional_legendre.helmholtz_free_energy_per_link link_length hinge_mass link_stiffness link_energy force temperature))) link_length hinge_mass link_stiffness link_energy force temperature.
Proof. reflexivity. Qed.

Lemma F_morse_isotensional_legendre_relative_helmholtz_free_energy : forall (T : Type) (Sc : Scalar T) (number_of_links : jarray Z) (link_length : jarray T) (link_stiffness : jarray T) (link_energy : jarray T) (force : jarray T) (temperature : jarray T),
     jl_morse_isotensional_legendre.relative_helmholtz_free_energy number_of_links link_length link_stiffness link_energy force temperature
     = broadcast [UInt8; Float64; Float64; Float64; Float64; Float64] (fun number_of_links link_length link_stiffness link_energy force temperature =>
         Finished (Some (morse_isotensional_legendre.relative_helmholtz_free_energy number_of_links link_length link_stiffness link_energy force temperature))) number_of_links link_length link_stiffness link_energy force temperature.
Proof. reflexivity. Qed.

Lemma F_morse_isotensional_legendre_relative_helmholtz_free_energy_per_link : forall (T : Type) (Sc : Scalar T) (link_length : jarray T) (link_stiffness : jarray T) (link_energy : jarray T) (force : jarray T) (temperature : jarray T),
     jl_morse_isotensional_legendre.relative_helmholtz_free_energy_per_link link_length link_stiffness link_energy force temperature
     = broadcast [Float64; Float64; Float64; Float64; Float64] (fun link_length link_stiffness link_energy force temperature =>
         Finished (Some (morse_isotensional_legendre.relative_helmholtz_free_energy_per_link link_length link_stiffness link_energy force temperature))) link_length link_stiffness link_energy force temperature.
Proof. reflexivity. Qed.

Lemma F_morse_isotensional_legendre_nondimensional_helmholtz_free_energy : forall (T : Type) (Sc : Scalar T) (number_of_links : jarray Z) (link_length : jarray T) (hinge_mass : jarray T) (nondimensional_link_stiffness : jarray T) (nondimensional_link_energy : jarray T) (nondimensional_force : jarray T) (temperature : jarray T),
     jl_morse_isotensional_legendre.nondimensional_helmholtz_free_energy number_of_links link_length hinge_mass nondimensional_link_stiffness nondimensional_link_energy nondimensional_force temperature
     = broadcast [UInt8; Float64; Float64; Float64; Float64; Float64; Float64] (fun number_of_links link_length hinge_mass nondimensional_link_stiffness nondimensional_link_energy nondimensional_force temperature =>
         Finished (Some (morse_isotensional_legendre.nondimensional_helmholtz_free_energy number_of_links link_length hinge_mass nondimensional_link_stiffness nondimensional_link_energy nondimensional_force temperature))) number_of_links link_length hinge_mass nondimensional_link_stiffness nondimensional_link_energy nondimensional_force temperature.
Proof. reflexivity. Qed.

Lemma F_morse_isotensional_legendre_nondimensional_helmholtz_free_energy_per_link : forall (T : Type) (Sc : Scalar T) (link_length : jarray T) (hinge_mass : jarray T) (nondimensional_link_stiffness : jarray T) (nondimensional_link_energy : jarray T) (nondimensional_force : jarray T) (temperature : jarray T),
     jl_morse_isotensional_legendre.nondimensional_helmholtz_free_energy_per_link link_length hinge_mass nondimensional_link_stiffness nondimensional_link_energy nondimensional_force temperature
     = broadcast [Float64; Float64; Float64; Float64; Float64; Float64] (fun link_length hinge_mass nondimensional_link_stiffness nondimensional_link_energy nondimensional_force temperature =>
         Finished (Some (morse_isotensional_legendre.nondimensional_helmholtz_free_energy_per_link link_length hinge_mass nondimensional_link_stiffness nondimensional_link_energy nondimensional_force temperature))) link_length hinge_mass nondimensional_link_stiffness nondimensional_link_energy nondimensional_force temperature.
Proof. reflexivity. Qed.

Lemma F_morse_isotensional_legendre_nondimensional_relative_helmholtz_free_energy : forall (T : Type) (Sc : Scalar T) (number_of_links : jarray Z) (nondimensional_link_stiffness : jarray T) (nondimensional_link_energy : jarray T) (nondimensional_force : jarray T),
     jl_morse_isotensional_legendre.nondimensional_relative_helmholtz_free_energy number_of_links nondimensional_link_stiffness nondimensional_link_energy nondimensional_force
     = broadcast [UInt8; Float64; Float64; Float64] (fun number_of_links nondimensional_link_stiffness nondimensional_link_energy nondimensional_force =>
         Finished (Some (morse_isotensional_legendre.nondimensional_relative_helmholtz_free_energy number_of_links nondimensional_link_stiffness nondimensional_link_energy nondimensional_force))) number_of_links nondimensional_link_stiffness nondimensional_link_energy nondimensional_force.
Proof. reflexivity. Qed.

Lemma F_morse_isotensional_legendre_nondimensional_relative_helmholtz_free_energy_per_link : forall (T : Type) (Sc : Scalar T) (nondimensional_link_stiffness : jarray T) (nondimensional_link_energy : jarray T) (nondimensional_force : jarray T),
     jl_morse_isotensional_legendre.nondimensional_relative_helmholtz_free_energy_per_link nondimensional_link_stiffness nondimensional_link_energy nondimensional_force
     = broadcast [Float64; Float64; Float64] (fun nondimensional_link_stiffness nondimensional_link_energy nondimensional_force =>
         Finished (Some (morse_isotensional_legendre.nondimensional_relative_helmholtz_free_energy_per_link nondimensional_link_stiffness nondimensional_link_energy nondimensional_force))) nondimensional_link_stiffness nondimensional_link_energy nondimensional_force.
Proof. reflexivity. Qed.

Lemma F_efjc_isotensional_asymptotic_end_to_end_length : forall (T : Type) (Sc : Scalar T) (number_of_links : jarray Z) (link_length : jarray T) (link_stiffness : jarray T) (force : jarray T) (temperature : jarray T),
     jl_efjc_isotensional_asymptotic.end_to_end_length number_of_links link_length link_stiffness force temperature
     = broadcast [UInt8; Float64; Float64; Float64; Float64] (fun number_of_links link_length link_stiffness force temperature =>
         Finished (Some (efjc_isotensional_asymptotic.end_to_end_length number_of_links link_length link_stiffness force temperature))) number_of_links link_length link_stiffness force temperature.
Proof. reflexivity. Qed.

Lemma F_efjc_isotensional_asymptotic_end_to_end_length_per_link : forall (T : Type) (Sc : Scalar T) (link_length : jarray T) (link_stiffness : jarray T) (force : jarray T) (temperature : jarray T),
     jl_efjc_isotensional_asymptotic.end_to_end_length_per_link link_length link_stiffness force temperature
     = broadcast [Float64; Float64; Float64; Float64] (fun link_length link_stiffness force temperature =>
         Finished (Some (efjc_isotensional_asymptotic.end_to_end_length_per_link link_length link_stiffness force temperature))) link_length link_stiffness force temperature.
Proof. reflexivity. Qed.

Lemma F_efjc_isotensional_asymptotic_nondimensional_end_to_end_length : forall (T : Type) (Sc : Scalar T) (number_of_links : jarray Z) (nondimensional_link_stiffness : jarray T) (nondimensional_force : jarray T),
     jl_efjc_isotensional_asymptotic.nondimensional_end_to_end_length number_of_links nondimensional_link_stiffness nondimensional_force
     = broadcast [UInt8; Float64; Float64] (fun number_of_links nondimensional_link_stiffness nondimensional_force =>
         Finished (Some (efjc_isotensional_asymptotic.nondimensional_end_to_end_length number_of_links nondimensional_link_stiffness nondimensional_force))) number_of_links nondimensional_link_stiffness nondimensional_force.
Proof. reflexivity. Qed.

Lemma F_efjc_isotensional_asymptotic_nondimensional_end_to_end_length_per_link : forall (T : Type) (Sc : Scalar T) (nondimensional_link_stiffness : jarray T) (nondimensional_force : jarray T),
     jl_efjc_isotensional_asymptotic.nondimensional_end_to_end_length_per_link nondimensional_link_stiffness nondimensional_force
     = broadcast [Float64; Float64] (fun nondimensional_link_stiffness nondimensional_force =>
         Finished (Some (efjc_isotensional_asymptotic.nondimensional_end_to_end_length_per_link nondimensional_link_stiffness nondimensional_force))) nondimensional_link_stiffness nondimensional_force.
Proof. reflexivity. Qed.

Lemma F_efjc_isotensional_asymptotic_gibbs_free_energy : forall (T : Type) (Sc : Scalar T) (number_of_links : jarray Z) (link_length : jarray T) (hinge_mass : jarray T) (link_stiffness : jarray T) (force : jarray T) (temperature : jarray T),
     jl_efjc_isotensional_asymptotic.gibbs_free_energy number_of_links link_length hinge_mass link_stiffness force temperature
     = broadcast [UInt8; Float64; Float64; Float64; Float64; Float64] (fun number_of_links link_length hinge_mass link_stiffness force temperature =>
         Finished (Some (efjc_isotensional_asymptotic.gibbs_free_energy number_of_links link_length hinge_mass link_stiffness force temperature))) number_of_links link_length hinge_mass link_stiffness force temperature.
Proof. reflexivity. Qed.

Lemma F_efjc_isotensional_asymptotic_gibbs_free_energy_per_link : forall (T : Type) (Sc : Scalar T) (link_length : jarray T) (hinge_mass : jarray T) (link_stiffness : jarray T) (force : jarray T) (temperature : jarray T),
     jl_efjc_isotensional_asymptotic.gibbs_free_energy_per_link link_length hinge_mass link_stiffness force temperature
     = broadcast [Float64; Float64; Float64; Float64; Float64] (fun link_length hinge_mass link_stiffness force temperature =>
         Finished (Some (efjc_isotensional_asymptotic.gibbs_free_energy_per_link link_length hinge_mass link_stiffness force temperature))) link_length hinge_mass link_stiffness force temperature.
Proof. reflexivity. Qed.

Lemma F_efjc_isotensional_asymptotic_relative_gibbs_free_energy : forall (T : Type) (Sc : Scalar T) (number_of_links : jarray Z) (link_length : jarray T) (link_stiffness : jarray T) (force : jarray T) (temperature : jarray T),
     jl_efjc_isotensional_asymptotic.relative_gibbs_free_energy number_of_links link_length link_stiffness force temperature
     = broadcast [UInt8; Float64; Float64; Float64; Float64] (fun number_of_links link_length link_stiffness force temperature =>
         Finished (Some (efjc_isotensional_asymptotic.relative_gibbs_free_energy number_of_links link_length link_stiffness force temperature))) number_of_links link_length link_stiffness force temperature.
Proof. reflexivity. Qed.

Lemma F_efjc_isotensional_asymptotic_relative_gibbs_free_energy_per_link : forall (T : Type) (Sc : Scalar T) (link_length : jarray T) (link_stiffness : jarray T) (force : jarray T) (temperature : jarray T),
     jl_efjc_isotensional_asymptotic.relative_gibbs_free_energy_per_link link_length link_stiffness force temperature
     = broadcast [Float64; Float64; Float64; Float64] (fun link_length link_stiffness force temperature =>
         Finished (Some (efjc_isotensional_asymptotic.relative_gibbs_free_energy_per_link link_length link_stiffness force temperature))) link_length link_stiffness force temperature.
Proof. reflexivity. Qed.

Lemma F_efjc_isotensional_asymptotic_nondimensional_gibbs_free_energy : forall (T : Type) (Sc : Scalar T) (number_of_links : jarray Z) (link_length : jarray T) (hinge_mass : jarray T) (nondimensional_link_stiffness : jarray T) (nondimensional_force : jarray T) (temperature : jarray T),
     jl_efjc_isotensional_asymptotic.nondimensional_gibbs_free_energy number_of_links link_length hinge_mass nondimensional_link_stiffness nondimensional_force temperature
     = broadcast [UInt8; Float64; Float64; Float64; Float64; Float64] (fun number_of_links link_length hinge_mass nondimensional_link_stiffness nondimensional_force temperature =>
         Finished (Some (efjc_isotensional_asymptotic.nondimensional_gibbs_free_energy number_of_links link_length hinge_mass nondimensional_link_stiffness nondimensional_force temperature))) number_of_links link_length hinge_mass nondimensional_link_stiffness nondimensional_force temperature.
Proof. reflexivity. Qed.

Lemma F_efjc_isotensional_asymptotic_nondimensional_gibbs_free_energy_per_link : forall (T : Type) (Sc : Scalar T) (link_length : jarray T) (hinge_mass : jarray T) (nondimensional_link_stiffness : jarray T) (nondimensional_force : jarray T) (temperature : jarray T),
     jl_efjc_isotensional_asymptotic.nondimensional_gibbs_free_energy_per_link link_length hinge_mass nondimensional_link_stiffness nondimensional_force temperature
     = broadcast [Float64; Float64; Float64; Float64; Float64] (fun link_length hinge_mass nondimensional_link_stiffness nondimensional_force temperature =>
         Finished (Some (efjc_isotensional_asymptotic.nondimensional_gibbs_free_energy_per_link link_length hinge_mass nondimensional_link_stiffness nondimensional_force temperature))) link_length hinge_mass nondimensional_link_stiffness nondimensional_force temperature.
Proof. reflexivity. Qed.

Lemma F_efjc_isotensional_asymptotic_nondimensional_relative_gibbs_free_energy : forall (T : Type) (Sc : Scalar T) (number_of_links : jarray Z) (nondimensional_link_stiffness : jarray T) (nondimensional_force : jarray T),
     jl_efjc_isotensional_asymptotic.nondimensional_relative_gibbs_free_energy number_of_links nondimensional_link_stiffness nondimensional_force
     = broadcast [UInt8; Float64; Float64] (fun number_of_links nondimensional_link_stiffness nondimensional_force =>
         Finished (Some (efjc_isotensional_asymptotic.nondimensional_relative_gibbs_free_energy number_of_links nondimensional_link_stiffness nondimensional_force))) number_of_links nondimensional_link_stiffness nondimensional_force.
Proof. reflexivity. Qed.

Lemma F_efjc_isotensional_asymptotic_nondimensional_relative_gibbs_free_energy_per_link : forall (T : Type) (Sc : Scalar T) (nondimensional_link_stiffness : jarray T) (nondimensional_force : jarray T),
     jl_efjc_isotensional_asymptotic.nondimensional_relative_gibbs_free_energy_per_link nondimensional_link_stiffness nondimensional_force
     = broadcast [Float64; Float64] (fun nondimensional_link_stiffness nondimensional_force =>
         Finished (Some (efjc_isotensional_asymptotic.nondimensional_relative_gibbs_free_energy_per_link nondimensional_link_stiffness nondimensional_force))) nondimensional_link_stiffness nondimensional_force.
Proof. reflexivity. Qed.

Lemma F_efjc_isotensional_legendre_helmholtz_free_energy : forall (T : Type) (Sc : Scalar T) (number_of_links : jarray Z) (link_length : jarray T) (hinge_mass : jarray T) (link_stiffness : jarray T) (force : jarray T) (temperature : jarray T),
     jl_efjc_isotensional_legendre.helmholtz_free_energy number_of_links link_length hinge_mass link_stiffness force temperature
     = broadcast [UInt8; Float64; Float64; Float64; Float64; Float64] (fun number_of_links link_length hinge_mass link_stiffness force temperature =>
         Finished (Some (efjc_isotensional_legendre.helmholtz_free_energy number_of_links link_length hinge_mass link_stiffness force temperature))) number_of_links link_length hinge_mass link_stiffness force temperature.
Proof. reflexivity. Qed.

Lemma F_efjc_isotensional_legendre_helmholtz_free_energy_per_link : forall (T : Type) (Sc : Scalar T) (link_length : jarray T) (hinge_mass : jarray T) (link_stiffness : jarray T) (force : jarray T) (temperature : jarray T),
     jl_efjc_isotensional_legendre.helmholtz_free_energy_per_link link_length hinge_mass link_stiffness force temperature
     = broadcast [Float64; Float64; Float64; Float64; Float64] (fun link_length hinge_mass link_stiffness force temperature =>
         Finished (Some (efjc_isotensional_legendre.helmholtz_free_energy_per_link link_length hinge_mass link_stiffness force temperature))) link_length hinge_mass link_stiffness force temperature.
Proof. reflexivity. Qed.

Lemma F_efjc_isotensional_legendre_relative_helmholtz_free_energy : forall (T : Type) (Sc : Scalar T) (number_of_links : jarray Z) (link_length : jarray T) (link_stiffness : jarray T) (force : jarray T) (temperature : jarray T),
     jl_efjc_isotensional_legendre.relative_helmholtz_free_energy number_of_links link_length link_stiffness force temperature
     = broadcast [UInt8; Float64; Float64; Float64; Float64] (fun number_of_links link_length link_stiffness force temperature =>
         Finished (Some (efjc_isotensional_legendre.relative_helmholtz_free_energy number_of_links link_length link_stiffness force temperature))) number_of_links link_length link_stiffness force temperature.
Proof. reflexivity. Qed.

Lemma F_efjc_isotensional_legendre_relative_helmholtz_free_energy_per_link : forall (T : Type) (Sc : Scalar T) (link_length : jarray T) (link_stiffness : jarray T) (force : jarray T) (temperature : jarray T),
     jl_efjc_isotensional_legendre.relative_helmholtz_free_energy_per_link link_length link_stiffness force temperature
     = broadcast [Float64; Float64; Float64; Float64] (fun link_length link_stiffness force temperature =>
         Finished (Some (efjc_isotensional_legendre.relative_helmholtz_free_energy_per_link link_length link_stiffness force temperature))) link_length link_stiffness force temperature.
Proof. reflexivity. Qed.

Lemma F_efjc_isotensional_legendre_nondimensional_helmholtz_free_energy : forall (T : Type) (Sc : Scalar T) (number_of_links : jarray Z) (link_length : jarray T) (hinge_mass : jarray T) (nondimensional_link_stiffness : jarray T) (nondimensional_force : jarray T) (temperature : jarray T),
     jl_efjc_isotensional_legendre.nondimensional_helmholtz_free_energy number_of_links link_length hinge_mass nondimensional_link_stiffness nondimensional_force temperature
     = broadcast [UInt8; Float64; Float64; Float64; Float64; Float64] (fun number_of_links link_length hinge_mass nondimensional_link_stiffness nondimensional_force temperature =>
         Finished (Some (efjc_isotensional_legendre.nondimensional_helmholtz_free_energy number_of_links link_length hinge_mass nondimensional_link_stiffness nondimensional_force temperature))) number_of_links link_length hinge_mass nondimensional_link_stiffness nondimensional_force temperature.
Proof. reflexivity. Qed.

Lemma F_efjc_isotensional_legendre_nondimensional_helmholtz_free_energy_per_link : forall (T : Type) (Sc : Scalar T) (link_length : jarray T) (hinge_mass : jarray T) (nondimensional_link_stiffness : jarray T) (nondimensional_force : jarray T) (temperature : jarray T),
     jl_efjc_isotensional_legendre.nondimensional_helmholtz_free_energy_per_link link_length hinge_mass nondimensional_link_stiffness nondimensional_force temperature
     = broadcast [Float64; Float64; Float64; Float64; Float64] (fun link_length hinge_mass nondimensional_link_stiffness nondimensional_force temperature =>
         Finished (Some (efjc_isotensional_legendre.nondimensional_helmholtz_free_energy_per_link link_length hinge_mass nondimensional_link_stiffness nondimensional_force temperature))) link_length hinge_mass nondimensional_link_stiffness nondimensional_force temperature.
Proof. reflexivity. Qed.

Lemma F_efjc_isotensional_legendre_nondimensional_relative_helmholtz_free_energy : forall (T : Type) (Sc : Scalar T) (number_of_links : jarray Z) (nondimensional_link_stiffness : jarray T) (nondimensional_force : jarray T),
     jl_efjc_isotensional_legendre.nondimensional_relative_helmholtz_free_energy number_of_links nondimensional_link_stiffness nondimensional_force
     = broadcast [UInt8; Float64; Float64] (fun number_of_links nondimensional_link_stiffness nondimensional_force =>
         Finished (Some (efjc_isotensional_legendre.nondimensional_relative_helmholtz_free_energy number_of_links nondimensional_link_stiffness nondimensional_force))) number_of_links nondimensional_link_stiffness nondimensional_force.
Proof. reflexivity. Qed.

Lemma F_efjc_isotensional_legendre_nondimensional_relative_helmholtz_free_energy_per_link : forall (T : Type) (Sc : Scalar T) (nondimensional_link_stiffness : jarray T) (nondimensional_force : jarray T),
     jl_efjc_isotensional_legendre.nondimensional_relative_helmholtz_free_energy_per_link nondimensional_link_stiffness nondimensional_force
     = broadcast [Float64; Float64] (fun nondimensional_link_stiffness nondimensional_force =>
         Finished (Some (efjc_isotensional_legendre.nondimensional_relative_helmholtz_free_energy_per_link nondimensional_link_stiffness nondimensional_force))) nondimensional_link_stiffness nondimensional_force.
Proof. reflexivity. Qed.

Lemma F_fjc_isometric_legendre_force : forall (T : Type) (Sc : Scalar T) (number_of_links : jarray Z) (link_length : jarray T) (end_to_end_length : jarray T) (temperature : jarray T),
     jl_fjc_isometric_legendre.force number_of_links link_length end_to_end_length temperature
     = broadcast [UInt8; Float64; Float64; Float64] (fun number_of_links link_length end_to_end_length temperature =>
         Finished (Some (fjc_isometric_legendre.force number_of_links link_length end_to_end_length temperature))) number_of_links link_length end_to_end_length temperature.
Proof. reflexivity. Qed.

Lemma F_fjc_isometric_legendre_nondimensional_force : forall (T : Type) (Sc : Scalar T) (nondimensional_end_to_end_length_per_link : jarray T),
     jl_fjc_isometric_legendre.nondimensional_force nondimensional_end_to_end_length_per_link
     = broadcast [Float64] (fun nondimensional_end_to_end_length_per_link =>
         Finished (Some (fjc_isometric_legendre.nondimensional_force nondimensional_end_to_end_length_per_link))) nondimensional_end_to_end_length_per_link.
Proof. reflexivity. Qed.

Lemma F_fjc_isometric_legendre_helmholtz_free_energy : forall (T : Type) (Sc : Scalar T) (number_of_links : jarray Z) (link_length : jarray T) (hinge_mass : jarray T) (end_to_end_length : jarray T) (temperature : jarray T),
     jl_fjc_isometric_legendre.helmholtz_free_energy number_of_links link_length hinge_mass end_to_end_length temperature
     = broadcast [UInt8; Float64; Float64; Float64; Float64] (fun number_of_links link_length hinge_mass end_to_end_length temperature =>
         Finished (Some (fjc_isometric_legendre.helmholtz_free_energy number_of_links link_length hinge_mass end_to_end_length temperature))) number_of_links link_length hinge_mass end_to_end_length temperature.
Proof. reflexivity. Qed.

Lemma F_fjc_isometric_legendre_helmholtz_free_energy_per_link : forall (T : Type) (Sc : Scalar T) (number_of_links : jarray Z) (link_length : jarray T) (hinge_mass : jarray T) (end_to_end_length : jarray T) (temperature : jarray T),
     jl_fjc_isometric_legendre.helmholtz_free_energy_per_link number_of_links link_length hinge_mass end_to_end_length temperature
     = broadcast [UInt8; Float64; Float64; Float64; Float64] (fun number_of_links link_length hinge_mass end_to_end_length temperature =>
         Finished (Some (fjc_isometric_legendre.helmholtz_free_energy_per_link number_of_links link_length hinge_mass end_to_end_length temperature))) number_of_links link_length hinge_mass end_to_end_length temperature.
Proof. reflexivity. Qed.

Lemma F_fjc_isometric_legendre_relative_helmholtz_free_energy : forall (T : Type) (Sc : Scalar T) (number_of_links : jarray Z) (link_length : jarray T) (end_to_end_length : jarray T) (temperature : jarray T),
     jl_fjc_isometric_legendre.relative_helmholtz_free_energy number_of_links link_length end_to_end_length temperature
     = broadcast [UInt8; Float64; Float64; Float64] (fun number_of_links link_length end_to_end_length temperature =>
         Finished (Some (fjc_isometric_legendre.relative_helmholtz_free_energy number_of_links link_length end_to_end_length temperature))) number_of_links link_length end_to_end_length temperature.
Proof. reflexivity. Qed.

Lemma F_fjc_isometric_legendre_relative_helmholtz_free_energy_per_link : forall (T : Type) (Sc : Scalar T) (number_of_links : jarray Z) (link_length : jarray T) (end_to_end_length : jarray T) (temperature : jarray T),
     jl_fjc_isometric_legendre.relative_helmholtz_free_energy_per_link number_of_links link_length end_to_end_length temperature
     = broadcast [UInt8; Float64; Float64; Float64] (fun number_of_links link_length end_to_end_length temperature =>
         Finished (Some (fjc_isometric_legendre.relative_helmholtz_free_energy_per_link number_of_links link_length end_to_end_length temperature))) number_of_links link_length end_to_end_length temperature.
Proof. reflexivity. Qed.

Lemma F_fjc_isometric_legendre_nondimensional_helmholtz_free_energy : forall (T : Type) (Sc : Scalar T) (number_of_links : jarray Z) (link_length : jarray T) (hinge_mass : jarray T) (nondimensional_end_to_end_length_per_link : jarray T) (temperature : jarray T),
     jl_fjc_isometric_legendre.nondimensional_helmholtz_free_energy number_of_links link_length hinge_mass nondimensional_end_to_end_length_per_link temperature
     = broadcast [UInt8; Float64; Float64; Float64; Float64] (fun number_of_links link_length hinge_mass nondimensional_end_to_end_length_per_link temperature =>
         Finished (Some (fjc_isometric_legendre.nondimensional_helmholtz_free_energy number_of_links link_length hinge_mass nondimensional_end_to_end_length_per_link temperature))) number_of_links link_length hinge_mass nondimensional_end_to_end_length_per_link temperature.
Proof. reflexivity. Qed.

Lemma F_fjc_isometric_legendre_nondimensional_helmholtz_free_energy_per_link : forall (T : Type) (Sc : Scalar T) (number_of_links : jarray Z) (link_length : jarray T) (hinge_mass : jarray T) (nondimensional_end_to_end_length_per_link : jarray T) (temperature : jarray T),
     jl_fjc_isometric_legendre.nondimensional_helmholtz_free_energy_per_link number_of_links link_length hinge_mass nondimensional_end_to_end_length_per_link temperature
     = broadcast [UInt8; Float64; Float64; Float64; Float64] (fun number_of_links link_length hinge_mass nondimensional_end_to_end_length_per_link temperature =>
         Finished (Some (fjc_isometric_legendre.nondimensional_helmholtz_free_energy_per_link number_of_links link_length hinge_mass nondimensional_end_to_end_length_per_link temperature))) number_of_links link_length hinge_mass nondimensional_end_to_end_length_per_link temperature.
Proof. reflexivity. Qed.

Lemma F_fjc_isometric_legendre_nondimensional_relative_helmholtz_free_energy : forall (T : Type) (Sc : Scalar T) (number_of_links : jarray Z) (nondimensional_end_to_end_length_per_link : jarray T),
     jl_fjc_isometric_legendre.nondimensional_relative_helmholtz_free_energy number_of_links nondimensional_end_to_end_length_per_link
     = broadcast [UInt8; Float64] (fun number_of_links nondimensional_end_to_end_length_per_link =>
         Finished (Some (fjc_isometric_legendre.nondimensional_relative_helmholtz_free_energy number_of_links nondimensional_end_to_end_length_per_link))) number_of_links nondimensional_end_to_end_length_per_link.
Proof. reflexivity. Qed.

Lemma F_fjc_isometric_legendre_nondimensional_relative_helmholtz_free_energy_per_link : forall (T : Type) (Sc : Scalar T) (nondimensional_end_to_end_length_per_link : jarray T),
     jl_fjc_isometric_legendre.nondimensional_relative_helmholtz_free_energy_per_link nondimensional_end_to_end_length_per_link
     = broadcast [Float64] (fun nondimensional_end_to_end_length_per_link =>
         Finished (Some (fjc_isometric_legendre.nondimensional_relative_helmholtz_free_energy_per_link nondimensional_end_to_end_length_per_link))) nondimensional_end_to_end_length_per_link.
Proof. reflexivity. Qed.

Lemma F_fjc_isometric_legendre_equilibrium_distribution : forall (T : Type) (Sc : Scalar T) (number_of_links : jarray Z) (link_length : jarray T) (normalization_nondimensional_equilibrium_distribution : T) (end_to_end_length : jarray T),
     jl_fjc_isometric_legendre.equilibrium_distribution number_of_links link_length normalization_nondimensional_equilibrium_distribution end_to_end_length
     = broadcast [UInt8; Float64; Float64] (fun number_of_links link_length end_to_end_length =>
         Finished (Some (fjc_isometric_legendre.equilibrium_distribution number_of_links link_length normalization_nondimensional_equilibrium_distribution end_to_end_length))) number_of_links link_length end_to_end_length.
Proof. reflexivity. Qed.

Lemma F_fjc_isometric_legendre_nondimensional_equilibrium_distribution : forall (T : Type) (Sc : Scalar T) (number_of_links : jarray Z) (normalization_nondimensional_equilibrium_distribution : T) (nondimensional_end_to_end_length_per_link : jarray T),
     jl_fjc_isometric_legendre.nondimensional_equilibrium_distribution number_of_links normalization_nondimensional_equilibrium_distribution nondimensional_end_to_end_length_per_link
     = broadcast [UInt8; Float64] (fun number_of_links nondimensional_end_to_end_length_per_link =>
         Finished (Some (fjc_isometric_legendre.nondimensional_equilibrium_distribution number_of_links normalization_nondimensional_equilibrium_distribution nondimensional_end_to_end_length_per_link))) number_of_links nondimensional_end_to_end_length_per_link.
Proof. reflexivity. Qed.

Lemma F_fjc_isometric_legendre_equilibrium_radial_distribution : forall (T : Type) (Sc : Scalar T) (number_of_links : jarray Z) (link_length : jarray T) (normalization_nondimensional_equilibrium_distribution : T) (end_to_end_length : jarray T),
     jl_fjc_isometric_legendre.equilibrium_radial_distribution number_of_links link_length normalization_nondimensional_equilibrium_distribution end_to_end_length
     = broadcast [UInt8; Float64; Float64] (fun number_of_links link_length end_to_end_length =>
         Finished (Some (fjc_isometric_legendre.equilibrium_radial_distribution number_of_links link_length normalization_nondimensional_equilibrium_distribution end_to_end_length))) number_of_links link_length end_to_end_length.
Proof. reflexivity. Qed.

Lemma F_fjc_isometric_legendre_nondimensional_equilibrium_radial_distribution : forall (T : Type) (Sc : Scalar T) (number_of_links : jarray Z) (normalization_nondimensional_equilibrium_distribution : T) (nondimensional_end_to_end_length_per_link : jarray T),
     jl_fjc_isometric_legendre.nondimensional_equilibrium_radial_distribution number_of_links normalization_nondimensional_equilibrium_distribution nondimensional_end_to_end_length_per_link
     = broadcast [UInt8; Float64] (fun number_of_links nondimensional_end_to_end_length_per_link =>
         Finished (Some (fjc_isometric_legendre.nondimensional_equilibrium_radial_distribution number_of_links normalization_nondimensional_equilibrium_distribution nondimensional_end_to_end_length_per_link))) number_of_links nondimensional_end_to_end_length_per_link.
Proof. reflexivity. Qed.

Lemma F_fjc_isometric_legendre_gibbs_free_energy : forall (T : Type) (Sc : Scalar T) (prof : profile) (number_of_links : jarray Z) (link_length : jarray T) (hinge_mass : jarray T) (end_to_end_length : jarray T) (temperature : jarray T),
     jl_fjc_isometric_legendre.gibbs_free_energy prof number_of_links link_length hinge_mass end_to_end_length temperature
     = broadcast [UInt8; Float64; Float64; Float64; Float64] (fun number_of_links link_length hinge_mass end_to_end_length temperature =>
         Finished (fjc_isometric_legendre.gibbs_free_energy prof number_of_links link_length hinge_mass end_to_end_length temperature)) number_of_links link_length hinge_mass end_to_end_length temperature.
Proof. reflexivity. Qed.

Lemma F_fjc_isometric_legendre_gibbs_free_energy_per_link : forall (T : Type) (Sc : Scalar T) (prof : profile) (number_of_links : jarray Z) (link_length : jarray T) (hinge_mass : jarray T) (end_to_end_length : jarray T) (temperature : jarray T),
     jl_fjc_isometric_legendre.gibbs_free_energy_per_link prof number_of_links link_length hinge_mass end_to_end_length temperature
     = broadcast [UInt8; Float64; Float64; Float64; Float64] (fun number_of_links link_length hinge_mass end_to_end_length temperature =>
         Finished (fjc_isometric_legendre.gibbs_free_energy_per_link prof number_of_links link_length hinge_mass end_to_end_length temperature)) number_of_links link_length hinge_mass end_to_end_length temperature.
Proof. reflexivity. Qed.

Lemma F_fjc_isometric_legendre_relative_gibbs_free_energy : forall (T : Type) (Sc : Scalar T) (prof : profile) (number_of_links : jarray Z) (link_length : jarray T) (end_to_end_length : jarray T) (temperature : jarray T),
     jl_fjc_isometric_legendre.relative_gibbs_free_energy prof number_of_links link_length end_to_end_length temperature
     = broadcast [UInt8; Float64; Float64; Float64] (fun number_of_links link_length end_to_end_length temperature =>
         Finished (fjc_isometric_legendre.relative_gibbs_free_energy prof number_of_links link_length end_to_end_length temperature)) number_of_links link_length end_to_end_length temperature.
Proof. reflexivity. Qed.

Lemma F_fjc_isometric_legendre_relative_gibbs_free_energy_per_link : forall (T : Type) (Sc : Scalar T) (prof : profile) (number_of_links : jarray Z) (link_length : jarray T) (end_to_end_length : jarray T) (temperature : jarray T),
     jl_fjc_isometric_legendre.relative_gibbs_free_energy_per_link prof number_of_links link_length end_to_end_length temperature
     = broadcast [UInt8; Float64; Float64; Float64] (fun number_of_links link_length end_to_end_length temperature =>
         Finished (fjc_isometric_legendre.relative_gibbs_free_energy_per_link prof number_of_links link_length end_to_end_length temperature)) number_of_links link_length end_to_end_length temperature.
Proof. reflexivity. Qed.

Lemma F_fjc_isometric_legendre_nondimensional_gibbs_free_energy : forall (T : Type) (Sc : Scalar T) (prof : profile) (number_of_links : jarray Z) (link_length : jarray T) (hinge_mass : jarray T) (nondimensional_end_to_end_length_per_link : jarray T) (temperature : jarray T),
     jl_fjc_isometric_legendre.nondimensional_gibbs_free_energy prof number_of_links link_length hinge_mass nondimensional_end_to_end_length_per_link temperature
     = broadcast [UInt8; Float64; Float64; Float64; Float64] (fun number_of_links link_length hinge_mass nondimensional_end_to_end_length_per_link temperature =>
         Finished (fjc_isometric_legendre.nondimensional_gibbs_free_energy prof number_of_links link_length hinge_mass nondimensional_end_to_end_length_per_link temperature)) number_of_links link_length hinge_mass nondimensional_end_to_end_length_per_link temperature.
Proof. reflexivity. Qed.

Lemma F_fjc_isometric_legendre_nondimensional_gibbs_free_energy_per_link : forall (T : Type) (Sc : Scalar T) (prof : profile) (number_of_links : jarray Z) (link_length : jarray T) (hinge_mass : jarray T) (nondimensional_end_to_end_length_per_link : jarray T) (temperature : jarray T),
     jl_fjc_isometric_legendre.nondimensional_gibbs_free_energy_per_link prof number_of_links link_length hinge_mass nondimensional_end_to_end_length_per_link temperature
     = broadcast [UInt8; Float64; Float64; Float64; Float64] (fun number_of_links link_length hinge_mass nondimensional_end_to_end_length_per_link temperature =>
         Finished (fjc_isometric_legendre.nondimensional_gibbs_free_energy_per_link prof number_of_links link_length hinge_mass nondimensional_end_to_end_length_per_link temperature)) number_of_links link_length hinge_mass nondimensional_end_to_end_length_per_link temperature.
Proof. reflexivity. Qed.

Lemma F_fjc_isometric_legendre_nondimensional_relative_gibbs_free_energy : forall (T : Type) (Sc : Scalar T) (prof : profile) (number_of_links : jarray Z) (nondimensional_end_to_end_length_per_link : jarray T),
     jl_fjc_isometric_legendre.nondimensional_relative_gibbs_free_energy prof number_of_links nondimensional_end_to_end_length_per_link
     = broadcast [UInt8; Float64] (fun number_of_links nondimensional_end_to_end_length_per_link =>
         Finished (fjc_isometric_legendre.nondimensional_relative_gibbs_free_energy prof number_of_links nondimensional_end_to_end_length_per_link)) number_of_links nondimensional_end_to_end_length_per_link.
Proof. reflexivity. Qed.

Lemma F_fjc_isometric_legendre_nondimensional_relative_gibbs_free_energy_per_link : forall (T : Type) (Sc : Scalar T) (prof : profile) (number_of_links : jarray Z) (nondimensional_end_to_end_length_per_link : jarray T),
     jl_fjc_isometric_legendre.nondimensional_relative_gibbs_free_energy_per_link prof number_of_links nondimensional_end_to_end_length_per_link
     = broadcast [UInt8; Float64] (fun number_of_links nondimensional_end_to_end_length_per_link =>
         Finished (fjc_isometric_legendre.nondimensional_relative_gibbs_free_energy_per_link prof number_of_links nondimensional_end_to_end_length_per_link)) number_of_links nondimensional_end_to_end_length_per_link.
Proof. reflexivity. Qed.

Lemma F_fjc_isotensional_legendre_helmholtz_free_energy : forall (T : Type) (Sc : Scalar T) (number_of_links : jarray Z) (link_length : jarray T) (hinge_mass : jarray T) (force : jarray T) (temperature : jarray T),
     jl_fjc_isotensional_legendre.helmholtz_free_energy number_of_links link_length hinge_mass force temperature
     = broadcast [UInt8; Float64; Float64; Float64; Float64] (fun number_of_links link_length hinge_mass force temperature =>
         Finished (Some (fjc_isotensional_legendre.helmholtz_free_energy number_of_links link_length hinge_mass force temperature))) number_of_links link_length hinge_mass force temperature.
Proof. reflexivity. Qed.

Lemma F_fjc_isotensional_legendre_helmholtz_free_energy_per_link : forall (T : Type) (Sc : Scalar T) (link_length : jarray T) (hinge_mass : jarray T) (force : jarray T) (temperature : jarray T),
     jl_fjc_isotensional_legendre.helmholtz_free_energy_per_link link_length hinge_mass force temperature
     = broadcast [Float64; Float64; Float64; Float64] (fun link_length hinge_mass force temperature =>
         Finished (Some (fjc_isotensional_legendre.helmholtz_free_energy_per_link link_length hinge_mass force temperature))) link_length hinge_mass force temperature.
Proof. reflexivity. Qed.

Lemma F_fjc_isotensional_legendre_relative_helmholtz_free_energy : forall (T : Type) (Sc : Scalar T) (number_of_links : jarray Z) (link_length : jarray T) (force : jarray T) (temperature : jarray T),
     jl_fjc_isotensional_legendre.relative_helmholtz_free_energy number_of_links link_length force temperature
     = broadcast [UInt8; Float64; Float64; Float64] (fun number_of_links link_length force temperature =>
         Finished (Some (fjc_isotensional_legendre.relative_helmholtz_free_energy number_of_links link_length force temperature))) number_of_links link_length force temperature.
Proof. reflexivity. Qed.

Lemma F_fjc_isotensional_legendre_relative_helmholtz_free_energy_per_link : forall (T : Type) (Sc : Scalar T) (link_length : jarray T) (force : jarray T) (temperature : jarray T),
     jl_fjc_isotensional_legendre.relative_helmholtz_free_energy_per_link link_length force temperature
     = broadcast [Float64; Float64; Float64] (fun link_length force temperature =>
         Finished (Some (fjc_isotensional_legendre.relative_helmholtz_free_energy_per_link link_length force temperature))) link_length force temperature.
Proof. reflexivity. Qed.

Lemma F_fjc_isotensional_legendre_nondimensional_helmholtz_free_energy : forall (T : Type) (Sc : Scalar T) (number_of_links : jarray Z) (link_length : jarray T) (hinge_mass : jarray T) (nondimensional_force : jarray T) (temperature : jarray T),
     jl_fjc_isotensional_legendre.nondimensional_helmholtz_free_energy number_of_links link_length hinge_mass nondimensional_force temperature
     = broadcast [UInt8; Float64; Float64; Float64; Float64] (fun number_of_links link_length hinge_mass nondimensional_force temperature =>
         Finished (Some (fjc_isotensional_legendre.nondimensional_helmholtz_free_energy number_of_links link_length hinge_mass nondimensional_force temperature))) number_of_links link_length hinge_mass nondimensional_force temperature.
Proof. reflexivity. Qed.

Lemma F_fjc_isotensional_legendre_nondimensional_helmholtz_free_energy_per_link : forall (T : Type) (Sc : Scalar T) (link_length : jarray T) (hinge_mass : jarray T) (nondimensional_force : jarray T) (temperature : jarray T),
     jl_fjc_isotensional_legendre.nondimensional_helmholtz_free_energy_per_link link_length hinge_mass nondimensional_force temperature
     = broadcast [Float64; Float64; Float64; Float64] (fun link_length hinge_mass nondimensional_force temperature =>
         Finished (Some (fjc_isotensional_legendre.nondimensional_helmholtz_free_energy_per_link link_length hinge_mass nondimensional_force temperature))) link_length hinge_mass nondimensional_force temperature.
Proof. reflexivity. Qed.

Lemma F_fjc_isotensional_legendre_nondimensional_relative_helmholtz_free_energy : forall (T : Type) (Sc : Scalar T) (number_of_links : jarray Z) (nondimensional_force : jarray T),
     jl_fjc_isotensional_legendre.nondimensional_relative_helmholtz_free_energy number_of_links nondimensional_force
     = broadcast [UInt8; Float64] (fun number_of_links nondimensional_force =>
         Finished (Some (fjc_isotensional_legendre.nondimensional_relative_helmholtz_free_energy number_of_links nondimensional_force))) number_of_links nondimensional_force.
Proof. reflexivity. Qed.

Lemma F_fjc_isotensional_legendre_nondimensional_relative_helmholtz_free_energy_per_link : forall (T : Type) (Sc : Scalar T) (nondimensional_force : jarray T),
     jl_fjc_isotensional_legendre.nondimensional_relative_helmholtz_free_energy_per_link nondimensional_force
     = broadcast [Float64] (fun nondimensional_force =>
         Finished (Some (fjc_isotensional_legendre.nondimensional_relative_helmholtz_free_energy_per_link nondimensional_force))) nondimensional_force.
Proof. reflexivity. Qed.

Lemma F_swfjc_isometric_legendre_force : forall (T : Type) (Sc : Scalar T) (number_of_links : jarray Z) (link_length : jarray T) (well_width : jarray T) (end_to_end_length : jarray T) (temperature : jarray T),
     jl_swfjc_isometric_legendre.force number_of_links link_length well_width end_to_end_length temperature
     = broadcast [UInt8; Float64; Float64; Float64; Float64] (fun number_of_links link_length well_width end_to_end_length temperature =>
         Finished (Some (swfjc_isometric_legendre.force number_of_links link_length well_width end_to_end_length temperature))) number_of_links link_length well_width end_to_end_length temperature.
Proof. reflexivity. Qed.

Lemma F_swfjc_isometric_legendre_nondimensional_force : forall (T : Type) (Sc : Scalar T) (link_length : jarray T) (well_width : jarray T) (nondimensional_end_to_end_length_per_link : jarray T),
     jl_swfjc_isometric_legendre.nondimensional_force link_length well_width nondimensional_end_to_end_length_per_link
     = broadcast [Float64; Float64; Float64] (fun link_length well_width nondimensional_end_to_end_length_per_link =>
         Finished (Some (swfjc_isometric_legendre.nondimensional_force link_length well_width nondimensional_end_to_end_length_per_link))) link_length well_width nondimensional_end_to_end_length_per_link.
Proof. reflexivity. Qed.

Lemma F_swfjc_isometric_legendre_helmholtz_free_energy : forall (T : Type) (Sc : Scalar T) (number_of_links : jarray Z) (link_length : jarray T) (hinge_mass : jarray T) (well_width : jarray T) (end_to_end_length : jarray T) (temperature : jarray T),
     jl_swfjc_isometric_legendre.helmholtz_free_energy number_of_links link_length hinge_mass well_width end_to_end_length temperature
     = broadcast [UInt8; Float64; Float64; Float64; Float64; Float64] (fun number_of_links link_length hinge_mass well_width end_to_end_length temperature =>
         Finished (Some (swfjc_isometric_legendre.helmholtz_free_energy number_of_links link_length hinge_mass well_width end_to_end_length temperature))) number_of_links link_length hinge_mass well_width end_to_end_length temperature.
Proof. reflexivity. Qed.

Lemma F_swfjc_isometric_legendre_helmholtz_free_energy_per_link : forall (T : Type) (Sc : Scalar T) (number_of_links : jarray Z) (link_length : jarray T) (hinge_mass : jarray T) (well_width : jarray T) (end_to_end_length : jarray T) (temperature : jarray T),
     jl_swfjc_isometric_legendre.helmholtz_free_energy_per_link number_of_links link_length hinge_mass well_width end_to_end_length temperature
     = broadcast [UInt8; Float64; Float64; Float64; Float64; Float64] (fun number_of_links link_length hinge_mass well_width end_to_end_length temperature =>
         Finished (Some (swfjc_isometric_legendre.helmholtz_free_energy_per_link number_of_links link_length hinge_mass well_width end_to_end_length temperature))) number_of_links link_length hinge_mass well_width end_to_end_length temperature.
Proof. reflexivity. Qed.

Lemma F_swfjc_isometric_legendre_relative_helmholtz_free_energy : forall (T : Type) (Sc : Scalar T) (number_of_links : jarray Z) (link_length : jarray T) (well_width : jarray T) (end_to_end_length : jarray T) (temperature : jarray T),
     jl_swfjc_isometric_legendre.relative_helmholtz_free_energy number_of_links link_length well_width end_to_end_length temperature
     = broadcast [UInt8; Float64; Float64; Float64; Float64] (fun number_of_links link_length well_width end_to_end_length temperature =>
         Finished (Some (swfjc_isometric_legendre.relative_helmholtz_free_energy number_of_links link_length well_width end_to_end_length temperature))) number_of_links link_length well_width end_to_end_length temperature.
Proof. reflexivity. Qed.

Lemma F_swfjc_isometric_legendre_relative_helmholtz_free_energy_per_link : forall (T : Type) (Sc : Scalar T) (number_of_links : jarray Z) (link_length : jarray T) (well_width : jarray T) (end_to_end_length : jarray T) (temperature : jarray T),
     jl_swfjc_isometric_legendre.relative_helmholtz_free_energy_per_link number_of_links link_length well_width end_to_end_length temperature
     = broadcast [UInt8; Float64; Float64; Float64; Float64] (fun number_of_links link_length well_width end_to_end_length temperature =>
         Finished (Some (swfjc_isometric_legendre.relative_helmholtz_free_energy_per_link number_of_links link_length well_width end_to_end_length temperature))) number_of_links link_length well_width end_to_end_length temperature.
Proof. reflexivity. Qed.

Lemma F_swfjc_isometric_legendre_nondimensional_helmholtz_free_energy : forall (T : Type) (Sc : Scalar T) (number_of_links : jarray Z) (link_length : jarray T) (hinge_mass : jarray T) (well_width : jarray T) (nondimensional_end_to_end_length_per_link : jarray T) (temperature : jarray T),
     jl_swfjc_isometric_legendre.nondimensional_helmholtz_free_energy number_of_links link_length hinge_mass well_width nondimensional_end_to_end_length_per_link temperature
     = broadcast [UInt8; Float64; Float64; Float64; Float64; Float64] (fun number_of_links link_length hinge_mass well_width nondimensional_end_to_end_length_per_link temperature =>
         Finished (Some (swfjc_isometric_legendre.nondimensional_helmholtz_free_energy number_of_links link_length hinge_mass well_width nondimensional_end_to_end_length_per_link temperature))) number_of_links link_length hinge_mass well_width nondimensional_end_to_end_length_per_link temperature.
Proof. reflexivity. Qed.

Lemma F_swfjc_isometric_legendre_nondimensional_helmholtz_free_energy_per_link : forall (T : Type) (Sc : Scalar T) (number_of_links : jarray Z) (link_length : jarray T) (hinge_mass : jarray T) (well_width : jarray T) (nondimensional_end_to_end_length_per_link : jarray T) (temperature : jarray T),
     jl_swfjc_isometric_legendre.nondimensional_helmholtz_free_energy_per_link number_of_links link_length hinge_mass well_width nondimensional_end_to_end_length_per_link temperature
     = broadcast [UInt8; Float64; Float64; Float64; Float64; Float64] (fun number_of_links link_length hinge_mass well_width nondimensional_end_to_end_length_per_link temperature =>
         Finished (Some (swfjc_isometric_legendre.nondimensional_helmholtz_free_energy_per_link number_of_links link_length hinge_mass well_width nondimensional_end_to_end_length_per_link temperature))) number_of_links link_length hinge_mass well_width nondimensional_end_to_end_length_per_link temperature.
Proof. reflexivity. Qed.

Lemma F_swfjc_isometric_legendre_nondimensional_relative_helmholtz_free_energy : forall (T : Type) (Sc : Scalar T) (number_of_links : jarray Z) (link_length : jarray T) (well_width : jarray T) (nondimensional_end_to_end_length_per_link : jarray T),
     jl_swfjc_isometric_legendre.nondimensional_relative_helmholtz_free_energy number_of_links link_length well_width nondimensional_end_to_end_length_per_link
     = broadcast [UInt8; Float64; Float64; Float64] (fun number_of_links link_length well_width nondimensional_end_to_end_length_per_link =>
         Finished (Some (swfjc_isometric_legendre.nondimensional_relative_helmholtz_free_energy number_of_links link_length well_width nondimensional_end_to_end_length_per_link))) number_of_links link_length well_width nondimensional_end_to_end_length_per_link.
Proof. reflexivity. Qed.

Lemma F_swfjc_isometric_legendre_nondimensional_relative_helmholtz_free_energy_per_link : forall (T : Type) (Sc : Scalar T) (link_length : jarray T) (well_width : jarray T) (nondimensional_end_to_end_length_per_link : jarray T),
     jl_swfjc_isometric_legendre.nondimensional_relative_helmholtz_free_energy_per_link link_length well_width nondimensional_end_to_end_length_per_link
     = broadcast [Float64; Float64; Float64] (fun link_length well_width nondimensional_end_to_end_length_per_link =>
         Finished (Some (swfjc_isometric_legendre.nondimensional_relative_helmholtz_free_energy_per_link link_length well_width nondimensional_end_to_end_length_per_link))) link_length well_width nondimensional_end_to_end_length_per_link.
Proof. reflexivity. Qed.

Lemma F_swfjc_isometric_legendre_equilibrium_distribution : forall (T : Type) (Sc : Scalar T) (number_of_links : jarray Z) (link_length : jarray T) (well_width : jarray T) (normalization_nondimensional_equilibrium_distribution : T) (end_to_end_length : jarray T),
     jl_swfjc_isometric_legendre.equilibrium_distribution number_of_links link_length well_width normalization_nondimensional_equilibrium_distribution end_to_end_length
     = broadcast [UInt8; Float64; Float64; Float64] (fun number_of_links link_length well_width end_to_end_length =>
         Finished (Some (swfjc_isometric_legendre.equilibrium_distribution number_of_links link_length well_width normalization_nondimensional_equilibrium_distribution end_to_end_length))) number_of_links link_length well_width end_to_end_length.
Proof. reflexivity. Qed.

Lemma F_swfjc_isometric_legendre_nondimensional_equilibrium_distribution : forall (T : Type) (Sc : Scalar T) (number_of_links : jarray Z) (link_length : jarray T) (well_width : jarray T) (normalization_nondimensional_equilibrium_distribution : T) (nondimensional_end_to_end_length_per_link : jarray T),
     jl_swfjc_isometric_legendre.nondimensional_equilibrium_distribution number_of_links link_length well_width normalization_nondimensional_equilibrium_distribution nondimensional_end_to_end_length_per_link
     = broadcast [UInt8; Float64; Float64; Float64] (fun number_of_links link_length well_width nondimensional_end_to_end_length_per_link =>
         Finished (Some (swfjc_isometric_legendre.nondimensional_equilibrium_distribution number_of_links link_length well_width normalization_nondimensional_equilibrium_distribution nondimensional_end_to_end_length_per_link))) number_of_links link_length well_width nondimensional_end_to_end_length_per_link.
Proof. reflexivity. Qed.

Lemma F_swfjc_isometric_legendre_equilibrium_radial_distribution : forall (T : Type) (Sc : Scalar T) (number_of_links : jarray Z) (link_length : jarray T) (well_width : jarray T) (normalization_nondimensional_equilibrium_distribution : T) (end_to_end_length : jarray T),
     jl_swfjc_isometric_legendre.equilibrium_radial_distribution number_of_links link_length well_width normalization_nondimensional_equilibrium_distribution end_to_end_length
     = broadcast [UInt8; Float64; Float64; Float64] (fun number_of_links link_length well_width end_to_end_length =>
         Finished (Some (swfjc_isometric_legendre.equilibrium_radial_distribution number_of_links link_length well_width normalization_nondimensional_equilibrium_distribution end_to_end_length))) number_of_links link_length well_width end_to_end_length.
Proof. reflexivity. Qed.

Lemma F_swfjc_isometric_legendre_nondimensional_equilibrium_radial_distribution : forall (T : Type) (Sc : Scalar T) (number_of_links : jarray Z) (link_length : jarray T) (well_width : jarray T) (normalization_nondimensional_equilibrium_distribution : T) (nondimensional_end_to_end_length_per_link : jarray T),
     jl_swfjc_isometric_legendre.nondimensional_equilibrium_radial_distribution number_of_links link_length well_width normalization_nondimensional_equilibrium_distribution nondimensional_end_to_end_length_per_link
     = broadcast [UInt8; Float64; Float64; Float64] (fun number_of_links link_length well_width nondimensional_end_to_end_length_per_link =>
         Finished (Some (swfjc_isometric_legendre.nondimensional_equilibrium_radial_distribution number_of_links link_length well_width normalization_nondimensional_equilibrium_distribution nondimensional_end_to_end_length_per_link))) number_of_links link_length well_width nondimensional_end_to_end_length_per_link.
Proof. reflexivity. Qed.

Lemma F_swfjc_isotensional_legendre_helmholtz_free_energy : forall (T : Type) (Sc : Scalar T) (number_of_links : jarray Z) (link_length : jarray T) (hinge_mass : jarray T) (well_width : jarray T) (force : jarray T) (temperature : jarray T),
     jl_swfjc_isotensional_legendre.helmholtz_free_energy number_of_links link_length hinge_mass well_width force temperature
     = broadcast [UInt8; Float64; Float64; Float64; Float64; Float64] (fun number_of_links link_length hinge_mass well_width force temperature =>
         Finished (Some (swfjc_isotensional_legendre.helmholtz_free_energy number_of_links link_length hinge_mass well_width force temperature))) number_of_links link_length hinge_mass well_width force temperature.
Proof. reflexivity. Qed.

Lemma F_swfjc_isotensional_legendre_helmholtz_free_energy_per_link : forall (T : Type) (Sc : Scalar T) (link_length : jarray T) (hinge_mass : jarray T) (well_width : jarray T) (force : jarray T) (temperature : jarray T),
     jl_swfjc_isotensional_legendre.helmholtz_free_energy_per_link link_length hinge_mass well_width force temperature
     = broadcast [Float64; Float64; Float64; Float64; Float64] (fun link_length hinge_mass well_width force temperature =>
         Finished (Some (swfjc_isotensional_legendre.helmholtz_free_energy_per_link link_length hinge_mass well_width force temperature))) link_length hinge_mass well_width force temperature.
Proof. reflexivity. Qed.

Lemma F_swfjc_isotensional_legendre_relative_helmholtz_free_energy : forall (T : Type) (Sc : Scalar T) (number_of_links : jarray Z) (link_length : jarray T) (well_width : jarray T) (force : jarray T) (temperature : jarray T),
     jl_swfjc_isotensional_legendre.relative_helmholtz_free_energy number_of_links link_length well_width force temperature
     = broadcast [UInt8; Float64; Float64; Float64; Float64] (fun number_of_links link_length well_width force temperature =>
         Finished (Some (swfjc_isotensional_legendre.relative_helmholtz_free_energy number_of_links link_length well_width force temperature))) number_of_links link_length well_width force temperature.
Proof. reflexivity. Qed.

Lemma F_swfjc_isotensional_legendre_relative_helmholtz_free_energy_per_link : forall (T : Type) (Sc : Scalar T) (link_length : jarray T) (well_width : jarray T) (force : jarray T) (temperature : jarray T),
     jl_swfjc_isotensional_legendre.relative_helmholtz_free_energy_per_link link_length well_width force temperature
     = broadcast [Float64; Float64; Float64; Float64] (fun link_length well_width force temperature =>
         Finished (Some (swfjc_isotensional_legendre.relative_helmholtz_free_energy_per_link link_length well_width force temperature))) link_length well_width force temperature.
Proof. reflexivity. Qed.

Lemma F_swfjc_isotensional_legendre_nondimensional_helmholtz_free_energy : forall (T : Type) (Sc : Scalar T) (number_of_links : jarray Z) (link_length : jarray T) (hinge_mass : jarray T) (well_width : jarray T) (nondimensional_force : jarray T) (temperature : jarray T),
     jl_swfjc_isotensional_legendre.nondimensional_helmholtz_free_energy number_of_links link_length hinge_mass well_width nondimensional_force temperature
     = broadcast [UInt8; Float64; Float64; Float64; Float64; Float64] (fun number_of_links link_length hinge_mass well_width nondimensional_force temperature =>
         Finished (Some (swfjc_isotensional_legendre.nondimensional_helmholtz_free_energy number_of_links link_length hinge_mass well_width nondimensional_force temperature))) number_of_links link_length hinge_mass well_width nondimensional_force temperature.
Proof. reflexivity. Qed.

Lemma F_swfjc_isotensional_legendre_nondimensional_helmholtz_free_energy_per_link : forall (T : Type) (Sc : Scalar T) (link_length : jarray T) (hinge_mass : jarray T) (well_width : jarray T) (nondimensional_force : jarray T) (temperature : jarray T),
     jl_swfjc_isotensional_legendre.nondimensional_helmholtz_free_energy_per_link link_length hinge_mass well_width nondimensional_force temperature
     = broadcast [Float64; Float64; Float64; Float64; Float64] (fun link_length hinge_mass well_width nondimensional_force temperature =>
         Finished (Some (swfjc_isotensional_legendre.nondimensional_helmholtz_free_energy_per_link link_length hinge_mass well_width nondimensional_force temperature))) link_length hinge_mass well_width nondimensional_force temperature.
Proof. reflexivity. Qed.

Lemma F_swfjc_isotensional_legendre_nondimensional_relative_helmholtz_free_energy : forall (T : Type) (Sc : Scalar T) (number_of_links : jarray Z) (link_length : jarray T) (well_width : jarray T) (nondimensional_force : jarray T),
     jl_swfjc_isotensional_legendre.nondimensional_relative_helmholtz_free_energy number_of_links link_length well_width nondimensional_force
     = broadcast [UInt8; Float64; Float64; Float64] (fun number_of_links link_length well_width nondimensional_force =>
         Finished (Some (swfjc_isotensional_legendre.nondimensional_relative_helmholtz_free_energy number_of_links link_length well_width nondimensional_force))) number_of_links link_length well_width nondimensional_force.
Proof. reflexivity. Qed.

Lemma F_swfjc_isotensional_legendre_nondimensional_relative_helmholtz_free_energy_per_link : forall (T : Type) (Sc : Scalar T) (link_length : jarray T) (well_width : jarray T) (nondimensional_force : jarray T),
     jl_swfjc_isotensional_legendre.nondimensional_relative_helmholtz_free_energy_per_link link_length well_width nondimensional_force
     = broadcast [Float64; Float64; Float64] (fun link_length well_width nondimensional_force =>
         Finished (Some (swfjc_isotensional_legendre.nondimensional_relative_helmholtz_free_energy_per_link link_length well_width nondimensional_force))) link_length well_width nondimensional_force.
Proof. reflexivity. Qed.

Lemma F_lennard_jones_isotensional_end_to_end_length : forall (T : Type) (Sc : Scalar T) (number_of_links : jarray Z) (link_length : jarray T) (link_stiffness : jarray T) (force : jarray T) (temperature : jarray T),
     jl_lennard_jones_isotensional.end_to_end_length number_of_links link_length link_stiffness force temperature
     = broadcast [UInt8; Float64; Float64; Float64; Float64] (fun number_of_links link_length link_stiffness force temperature =>
         Finished (Some (lennard_jones_isotensional.end_to_end_length number_of_links link_length link_stiffness force temperature))) number_of_links link_length link_stiffness force temperature.
Proof. reflexivity. Qed.

Lemma F_lennard_jones_isotensional_end_to_end_length_per_link : forall (T : Type) (Sc : Scalar T) (link_length : jarray T) (link_stiffness : jarray T) (force : jarray T) (temperature : jarray T),
     jl_lennard_jones_isotensional.end_to_end_length_per_link link_length link_stiffness force temperature
     = broadcast [Float64; Float64; Float64; Float64] (fun link_length link_stiffness force temperature =>
         Finished (Some (lennard_jones_isotensional.end_to_end_length_per_link link_length link_stiffness force temperature))) link_length link_stiffness force temperature.
Proof. reflexivity. Qed.

Lemma F_lennard_jones_isotensional_nondimensional_end_to_end_length : forall (T : Type) (Sc : Scalar T) (number_of_links : jarray Z) (nondimensional_link_stiffness : jarray T) (nondimensional_force : jarray T),
     jl_lennard_jones_isotensional.nondimensional_end_to_end_length number_of_links nondimensional_link_stiffness nondimensional_force
     = broadcast [UInt8; Float64; Float64] (fun number_of_links nondimensional_link_stiffness nondimensional_force =>
         Finished (Some (lennard_jones_isotensional.nondimensional_end_to_end_length number_of_links nondimensional_link_stiffness nondimensional_force))) number_of_links nondimensional_link_stiffness nondimensional_force.
Proof. reflexivity. Qed.

Lemma F_lennard_jones_isotensional_nondimensional_end_to_end_length_per_link : forall (T : Type) (Sc : Scalar T) (nondimensional_link_stiffness : jarray T) (nondimensional_force : jarray T),
     jl_lennard_jones_isotensional.nondimensional_end_to_end_length_per_link nondimensional_link_stiffness nondimensional_force
     = broadcast [Float64; Float64] (fun nondimensional_link_stiffness nondimensional_force =>
         Finished (Some (lennard_jones_isotensional.nondimensional_end_to_end_length_per_link nondimensional_link_stiffness nondimensional_force))) nondimensional_link_stiffness nondimensional_force.
Proof. reflexivity. Qed.

Lemma F_lennard_jones_isotensional_gibbs_free_energy : forall (T : Type) (Sc : Scalar T) (number_of_links : jarray Z) (link_length : jarray T) (hinge_mass : jarray T) (link_stiffness : jarray T) (force : jarray T) (temperature : jarray T),
     jl_lennard_jones_isotensional.gibbs_free_energy number_of_links link_length hinge_mass link_stiffness force temperature
     = broadcast [UInt8; Float64; Float64; Float64; Float64; Float64] (fun number_of_links link_length hinge_mass link_stiffness force temperature =>
         Finished (Some (lennard_jones_isotensional.gibbs_free_energy number_of_links link_length hinge_mass link_stiffness force temperature))) number_of_links link_length hinge_mass link_stiffness force temperature.
Proof. reflexivity. Qed.

Lemma F_lennard_jones_isotensional_gibbs_free_energy_per_link : forall (T : Type) (Sc : Scalar T) (link_length : jarray T) (hinge_mass : jarray T) (link_stiffness : jarray T) (force : jarray T) (temperature : jarray T),
     jl_lennard_jones_isotensional.gibbs_free_energy_per_link link_length hinge_mass link_stiffness force temperature
     = broadcast [Float64; Float64; Float64; Float64; Float64] (fun link_length hinge_mass link_stiffness force temperature =>
         Finished (Some (lennard_jones_isotensional.gibbs_free_energy_per_link link_length hinge_mass link_stiffness force temperature))) link_length hinge_mass link_stiffness force temperature.
Proof. reflexivity. Qed.

Lemma F_lennard_jones_isotensional_relative_gibbs_free_energy : forall (T : Type) (Sc : Scalar T) (number_of_links : jarray Z) (link_length : jarray T) (link_stiffness : jarray T) (force : jarray T) (temperature : jarray T),
     jl_lennard_jones_isotensional.relative_gibbs_free_energy number_of_links link_length link_stiffness force temperature
     = broadcast [UInt8; Float64; Float64; Float64; Float64] (fun number_of_links link_length link_stiffness force temperature =>
         Finished (Some (lennard_jones_isotensional.relative_gibbs_free_energy number_of_links link_length link_stiffness force temperature))) number_of_links link_length link_stiffness force temperature.
Proof. reflexivity. Qed.

Lemma F_lennard_jones_isotensional_relative_gibbs_free_energy_per_link : forall (T : Type) (Sc : Scalar T) (link_length : jarray T) (link_stiffness : jarray T) (force : jarray T) (temperature : jarray T),
     jl_lennard_jones_isotensional.relative_gibbs_free_energy_per_link link_length link_stiffness force temperature
     = broadcast [Float64; Float64; Float64; Float64] (fun link_length link_stiffness force temperature =>
         Finished (Some (lennard_jones_isotensional.relative_gibbs_free_energy_per_link link_length link_stiffness force temperature))) link_length link_stiffness force temperature.
Proof. reflexivity. Qed.

Lemma F_lennard_jones_isotensional_nondimensional_gibbs_free_energy : forall (T : Type) (Sc : Scalar T) (number_of_links : jarray Z) (link_length : jarray T) (hinge_mass : jarray T) (nondimensional_link_stiffness : jarray T) (nondimensional_force : jarray T) (temperature : jarray T),
     jl_lennard_jones_isotensional.nondimensional_gibbs_free_energy number_of_links link_length hinge_mass nondimensional_link_stiffness nondimensional_force temperature
     = broadcast [UInt8; Float64; Float64; Float64; Float64; Float64] (fun number_of_links link_length hinge_mass nondimensional_link_stiffness nondimensional_force temperature =>
         Finished (Some (lennard_jones_isotensional.nondimensional_gibbs_free_energy number_of_links link_length hinge_mass nondimensional_link_stiffness nondimensional_force temperature))) number_of_links link_length hinge_mass nondimensional_link_stiffness nondimensional_force temperature.
Proof. reflexivity. Qed.

Lemma F_lennard_jones_isotensional_nondimensional_gibbs_free_energy_per_link : forall (T : Type) (Sc : Scalar T) (link_length : jarray T) (hinge_mass : jarray T) (nondimensional_link_stiffness : jarray T) (nondimensional_force : jarray T) (temperature : jarray T),
     jl_lennard_jones_isotensional.nondimensional_gibbs_free_energy_per_link link_length hinge_mass nondimensional_link_stiffness nondimensional_force temperature
     = broadcast [Float64; Float64; Float64; Float64; Float64] (fun link_length hinge_mass nondimensional_link_stiffness nondimensional_force temperature =>
         Finished (Some (lennard_jones_isotensional.nondimensional_gibbs_free_energy_per_link link_length hinge_mass nondimensional_link_stiffness nondimensional_force temperature))) link_length hinge_mass nondimensional_link_stiffness nondimensional_force temperature.
Proof. reflexivity. Qed.

Lemma F_lennard_jones_isotensional_nondimensional_relative_gibbs_free_energy : forall (T : Type) (Sc : Scalar T) (number_of_links : jarray Z) (nondimensional_link_stiffness : jarray T) (nondimensional_force : jarray T),
     jl_lennard_jones_isotensional.nondimensional_relative_gibbs_free_energy number_of_links nondimensional_link_stiffness nondimensional_force
     = broadcast [UInt8; Float64; Float64] (fun number_of_links nondimensional_link_stiffness nondimensional_force =>
         Finished (Some (lennard_jones_isotensional.nondimensional_relative_gibbs_free_energy number_of_links nondimensional_link_stiffness nondimensional_force))) number_of_links nondimensional_link_stiffness nondimensional_force.
Proof. reflexivity. Qed.

Lemma F_lennard_jones_isotensional_nondimensional_relative_gibbs_free_energy_per_link : forall (T : Type) (Sc : Scalar T) (nondimensional_link_stiffness : jarray T) (nondimensional_force : jarray T),
     jl_lennard_jones_isotensional.nondimensional_relative_gibbs_free_energy_per_link nondimensional_link_stiffness nondimensional_force
     = broadcast [Float64; Float64] (fun nondimensional_link_stiffness nondimensional_force =>
         Finished (Some (lennard_jones_isotensional.nondimensional_relative_gibbs_free_energy_per_link nondimensional_link_stiffness nondimensional_force))) nondimensional_link_stiffness nondimensional_force.
Proof. reflexivity. Qed.

Lemma F_log_squared_isotensional_end_to_end_length : forall (T : Type) (Sc : Scalar T) (number_of_links : jarray Z) (link_length : jarray T) (link_stiffness : jarray T) (force : jarray T) (temperature : jarray T),
     jl_log_squared_isotensional.end_to_end_length number_of_links link_length link_stiffness force temperature
     = broadcast [UInt8; Float64; Float64; Float64; Float64] (fun number_of_links link_length link_stiffness force temperature =>
         Finished (Some (log_squared_isotensional.end_to_end_length number_of_links link_length link_stiffness force temperature))) number_of_links link_length link_stiffness force temperature.
Proof. reflexivity. Qed.

Lemma F_log_squared_isotensional_end_to_end_length_per_link : forall (T : Type) (Sc : Scalar T) (link_length : jarray T) (link_stiffness : jarray T) (force : jarray T) (temperature : jarray T),
     jl_log_squared_isotensional.end_to_end_length_per_link link_length link_stiffness force temperature
     = broadcast [Float64; Float64; Float64; Float64] (fun link_length link_stiffness force temperature =>
         Finished (Some (log_squared_isotensional.end_to_end_length_per_link link_length link_stiffness force temperature))) link_length link_stiffness force temperature.
Proof. reflexivity. Qed.

Lemma F_log_squared_isotensional_nondimensional_end_to_end_length : forall (T : Type) (Sc : Scalar T) (number_of_links : jarray Z) (nondimensional_link_stiffness : jarray T) (nondimensional_force : jarray T),
     jl_log_squared_isotensional.nondimensional_end_to_end_length number_of_links nondimensional_link_stiffness nondimensional_force
     = broadcast [UInt8; Float64; Float64] (fun number_of_links nondimensional_link_stiffness nondimensional_force =>
         Finished (Some (log_squared_isotensional.nondimensional_end_to_end_length number_of_links nondimensional_link_stiffness nondimensional_force))) number_of_links nondimensional_link_stiffness nondimensional_force.
Proof. reflexivity. Qed.

Lemma F_log_squared_isotensional_nondimensional_end_to_end_length_per_link : forall (T : Type) (Sc : Scalar T) (nondimensional_link_stiffness : jarray T) (nondimensional_force : jarray T),
     jl_log_squared_isotensional.nondimensional_end_to_end_length_per_link nondimensional_link_stiffness nondimensional_force
     = broadcast [Float64; Float64] (fun nondimensional_link_stiffness nondimensional_force =>
         Finished (Some (log_squared_isotensional.nondimensional_end_to_end_length_per_link nondimensional_link_stiffness nondimensional_force))) nondimensional_link_stiffness nondimensional_force.
Proof. reflexivity. Qed.

Lemma F_log_squared_isotensional_gibbs_free_energy : forall (T : Type) (Sc : Scalar T) (number_of_links : jarray Z) (link_length : jarray T) (hinge_mass : jarray T) (link_stiffness : jarray T) (force : jarray T) (temperature : jarray T),
     jl_log_squared_isotensional.gibbs_free_energy number_of_links link_length hinge_mass link_stiffness force temperature
     = broadcast [UInt8; Float64; Float64; Float64; Float64; Float64] (fun number_of_links link_length hinge_mass link_stiffness force temperature =>
         Finished (Some (log_squared_isotensional.gibbs_free_energy number_of_links link_length hinge_mass link_stiffness force temperature))) number_of_links link_length hinge_mass link_stiffness force temperature.
Proof. reflexivity. Qed.

Lemma F_log_squared_isotensional_gibbs_free_energy_per_link : forall (T : Type) (Sc : Scalar T) (link_length : jarray T) (hinge_mass : jarray T) (link_stiffness : jarray T) (force : jarray T) (temperature : jarray T),
     jl_log_squared_isotensional.gibbs_free_energy_per_link link_length hinge_mass link_stiffness force temperature
     = broadcast [Float64; Float64; Float64; Float64; Float64] (fun link_length hinge_mass link_stiffness force temperature =>
         Finished (Some (log_squared_isotensional.gibbs_free_energy_per_link link_length hinge_mass link_stiffness force temperature))) link_length hinge_mass link_stiffness force temperature.
Proof. reflexivity. Qed.

Lemma F_log_squared_isotensional_relative_gibbs_free_energy : forall (T : Type) (Sc : Scalar T) (number_of_links : jarray Z) (link_length : jarray T) (link_stiffness : jarray T) (force : jarray T) (temperature : jarray T),
     jl_log_squared_isotensional.relative_gibbs_free_energy number_of_links link_length link_stiffness force temperature
     = broadcast [UInt8; Float64; Float64; Float64; Float64] (fun number_of_links link_length link_stiffness force temperature =>
         Finished (Some (log_squared_isotensional.relative_gibbs_free_energy number_of_links link_length link_stiffness force temperature))) number_of_links link_length link_stiffness force temperature.
Proof. reflexivity. Qed.

Lemma F_log_squared_isotensional_relative_gibbs_free_energy_per_link : forall (T : Type) (Sc : Scalar T) (link_length : jarray T) (link_stiffness : jarray T) (force : jarray T) (temperature : jarray T),
     jl_log_squared_isotensional.relative_gibbs_free_energy_per_link link_length link_stiffness force temperature
     = broadcast [Float64; Float64; Float64; Float64] (fun link_length link_stiffness force temperature =>
         Finished (Some (log_squared_isotensional.relative_gibbs_free_energy_per_link link_length link_stiffness force temperature))) link_length link_stiffness force temperature.
Proof. reflexivity. Qed.

Lemma F_log_squared_isotensional_nondimensional_gibbs_free_energy : forall (T : Type) (Sc : Scalar T) (number_of_links : jarray Z) (link_length : jarray T) (hinge_mass : jarray T) (nondimensional_link_stiffness : jarray T) (nondimensional_force : jarray T) (temperature : jarray T),
     jl_log_squared_isotensional.nondimensional_gibbs_free_energy number_of_links link_length hinge_mass nondimensional_link_stiffness nondimensional_force temperature
     = broadcast [UInt8; Float64; Float64; Float64; Float64; Float64] (fun number_of_links link_length hinge_mass nondimensional_link_stiffness nondimensional_force temperature =>
         Finished (Some (log_squared_isotensional.nondimensional_gibbs_free_energy number_of_links link_length hinge_mass nondimensional_link_stiffness nondimensional_force temperature))) number_of_links link_length hinge_mass nondimensional_link_stiffness nondimensional_force temperature.
Proof. reflexivity. Qed.

Lemma F_log_squared_isotensional_nondimensional_gibbs_free_energy_per_link : forall (T : Type) (Sc : Scalar T) (link_length : jarray T) (hinge_mass : jarray T) (nondimensional_link_stiffness : jarray T) (nondimensional_force : jarray T) (temperature : jarray T),
     jl_log_squared_isotensional.nondimensional_gibbs_free_energy_per_link link_length hinge_mass nondimensional_link_stiffness nondimensional_force temperature
     = broadcast [Float64; Float64; Float64; Float64; Float64] (fun link_length hinge_mass nondimensional_link_stiffness nondimensional_force temperature =>
         Finished (Some (log_squared_isotensional.nondimensional_gibbs_free_energy_per_link link_length hinge_mass nondimensional_link_stiffness nondimensional_force temperature))) link_length hinge_mass nondimensional_link_stiffness nondimensional_force temperature.
Proof. reflexivity. Qed.

Lemma F_log_squared_isotensional_nondimensional_relative_gibbs_free_energy : forall (T : Type) (Sc : Scalar T) (number_of_links : jarray Z) (nondimensional_link_stiffness : jarray T) (nondimensional_force : jarray T),
     jl_log_squared_isotensional.nondimensional_relative_gibbs_free_energy number_of_links nondimensional_link_stiffness nondimensional_force
     = broadcast [UInt8; Float64; Float64] (fun number_of_links nondimensional_link_stiffness nondimensional_force =>
         Finished (Some (log_squared_isotensional.nondimensional_relative_gibbs_free_energy number_of_links nondimensional_link_stiffness nondimensional_force))) number_of_links nondimensional_link_stiffness nondimensional_force.
Proof. reflexivity. Qed.

Lemma F_log_squared_isotensional_nondimensional_relative_gibbs_free_energy_per_link : forall (T : Type) (Sc : Scalar T) (nondimensional_link_stiffness : jarray T) (nondimensional_force : jarray T),
     jl_log_squared_isotensional.nondimensional_relative_gibbs_free_energy_per_link nondimensional_link_stiffness nondimensional_force
     = broadcast [Float64; Float64] (fun nondimensional_link_stiffness nondimensional_force =>
         Finished (Some (log_squared_isotensional.nondimensional_relative_gibbs_free_energy_per_link nondimensional_link_stiffness nondimensional_force))) nondimensional_link_stiffness nondimensional_force.
Proof. reflexivity. Qed.

Lemma F_morse_isotensional_end_to_end_length : forall (T : Type) (Sc : Scalar T) (number_of_links : jarray Z) (link_length : jarray T) (link_stiffness : jarray T) (link_energy : jarray T) (force : jarray T) (temperature : jarray T),
     jl_morse_isotensional.end_to_end_length number_of_links link_length link_stiffness link_energy force temperature
     = broadcast [UInt8; Float64; Float64; Float64; Float64; Float64] (fun number_of_links link_length link_stiffness link_energy force temperature =>
         Finished (Some (morse_isotensional.end_to_end_length number_of_links link_length link_stiffness link_energy force temperature))) number_of_links link_length link_stiffness link_energy force temperature.
Proof. reflexivity. Qed.

Lemma F_morse_isotensional_end_to_end_length_per_link : forall (T : Type) (Sc : Scalar T) (link_length : jarray T) (link_stiffness : jarray T) (link_energy : jarray T) (force : jarray T) (temperature : jarray T),
     jl_morse_isotensional.end_to_end_length_per_link link_length link_stiffness link_energy force temperature
     = broadcast [Float64; Float64; Float64; Float64; Float64] (fun link_length link_stiffness link_energy force temperature =>
         Finished (Some (morse_isotensional.end_to_end_length_per_link link_length link_stiffness link_energy force temperature))) link_length link_stiffness link_energy force temperature.
Proof. reflexivity. Qed.

Lemma F_morse_isotensional_nondimensional_end_to_end_length : forall (T : Type) (Sc : Scalar T) (number_of_links : jarray Z) (nondimensional_link_stiffness : jarray T) (nondimensional_link_energy : jarray T) (nondimensional_force : jarray T),
     jl_morse_isotensional.nondimensional_end_to_end_length number_of_links nondimensional_link_stiffness nondimensional_link_energy nondimensional_force
     = broadcast [UInt8; Float64; Float64; Float64] (fun number_of_links nondimensional_link_stiffness nondimensional_link_energy nondimensional_force =>
         Finished (Some (morse_isotensional.nondimensional_end_to_end_length number_of_links nondimensional_link_stiffness nondimensional_link_energy nondimensional_force))) number_of_links nondimensional_link_stiffness nondimensional_link_energy nondimensional_force.
Proof. reflexivity. Qed.

Lemma F_morse_isotensional_nondimensional_end_to_end_length_per_link : forall (T : Type) (Sc : Scalar T) (nondimensional_link_stiffness : jarray T) (nondimensional_link_energy : jarray T) (nondimensional_force : jarray T),
     jl_morse_isotensional.nondimensional_end_to_end_length_per_link nondimensional_link_stiffness nondimensional_link_energy nondimensional_force
     = broadcast [Float64; Float64; Float64] (fun nondimensional_link_stiffness nondimensional_link_energy nondimensional_force =>
         Finished (Some (morse_isotensional.nondimensional_end_to_end_length_per_link nondimensional_link_stiffness nondimensional_link_energy nondimensional_force))) nondimensional_link_stiffness nondimensional_link_energy nondimensional_force.
Proof. reflexivity. Qed.

Lemma F_morse_isotensional_gibbs_free_energy : forall (T : Type) (Sc : Scalar T) (number_of_links : jarray Z) (link_length : jarray T) (hinge_mass : jarray T) (link_stiffness : jarray T) (link_energy : jarray T) (force : jarray T) (temperature : jarray T),
     jl_morse_isotensional.gibbs_free_energy number_of_links link_length hinge_mass link_stiffness link_energy force temperature
     = broadcast [UInt8; Float64; Float64; Float64; Float64; Float64; Float64] (fun number_of_links link_length hinge_mass link_stiffness link_energy force temperature =>
         Finished (Some (morse_isotensional.gibbs_free_energy number_of_links link_length hinge_mass link_stiffness link_energy force temperature))) number_of_links link_length hinge_mass link_stiffness link_energy force temperature.
Proof. reflexivity. Qed.

Lemma F_morse_isotensional_gibbs_free_energy_per_link : forall (T : Type) (Sc : Scalar T) (link_length : jarray T) (hinge_mass : jarray T) (link_stiffness : jarray T) (link_energy : jarray T) (force : jarray T) (temperature : jarray T),
     jl_morse_isotensional.gibbs_free_energy_per_link link_length hinge_mass link_stiffness link_energy force temperature
     = broadcast [Float64; Float64; Float64; Float64; Float64; Float64] (fun link_length hinge_mass link_stiffness link_energy force temperature =>
         Finished (Some (morse_isotensional.gibbs_free_energy_per_link link_length hinge_mass link_stiffness link_energy force temperature))) link_length hinge_mass link_stiffness link_energy force temperature.
Proof. reflexivity. Qed.

Lemma F_morse_isotensional_relative_gibbs_free_energy : forall (T : Type) (Sc : Scalar T) (number_of_links : jarray Z) (link_length : jarray T) (link_stiffness : jarray T) (link_energy : jarray T) (force : jarray T) (temperature : jarray T),
     jl_morse_isotensional.relative_gibbs_free_energy number_of_links link_length link_stiffness link_energy force temperature
     = broadcast [UInt8; Float64; Float64; Float64; Float64; Float64] (fun number_of_links link_length link_stiffness link_energy force temperature =>
         Finished (Some (morse_isotensional.relative_gibbs_free_energy number_of_links link_length link_stiffness link_energy force temperature))) number_of_links link_length link_stiffness link_energy force temperature.
Proof. reflexivity. Qed.

Lemma F_morse_isotensional_relative_gibbs_free_energy_per_link : forall (T : Type) (Sc : Scalar T) (link_length : jarray T) (link_stiffness : jarray T) (link_energy : jarray T) (force : jarray T) (temperature : jarray T),
     jl_morse_isotensional.relative_gibbs_free_energy_per_link link_length link_stiffness link_energy force temperature
     = broadcast [Float64; Float64; Float64; Float64; Float64] (fun link_length link_stiffness link_energy force temperature =>
         Finished (Some (morse_isotensional.relative_gibbs_free_energy_per_link link_length link_stiffness link_energy force temperature))) link_length link_stiffness link_energy force temperature.
Proof. reflexivity. Qed.

Lemma F_morse_isotensional_nondimensional_gibbs_free_energy : forall (T : Type) (Sc : Scalar T) (number_of_links : jarray Z) (link_length : jarray T) (hinge_mass : jarray T) (nondimensional_link_stiffness : jarray T) (nondimensional_link_energy : jarray T) (nondimensional_force : jarray T) (temperature : jarray T),
     jl_morse_isotensional.nondimensional_gibbs_free_energy number_of_links link_length hinge_mass nondimensional_link_stiffness nondimensional_link_energy nondimensional_force temperature
     = broadcast [UInt8; Float64; Float64; Float64; Float64; Float64; Float64] (fun number_of_links link_length hinge_mass nondimensional_link_stiffness nondimensional_link_energy nondimensional_force temperature =>
         Finished (Some (morse_isotensional.nondimensional_gibbs_free_energy number_of_links link_length hinge_mass nondimensional_link_stiffness nondimensional_link_energy nondimensional_force temperature))) number_of_links link_length hinge_mass nondimensional_link_stiffness nondimensional_link_energy nondimensional_force temperature.
Proof. reflexivity. Qed.

Lemma F_morse_isotensional_nondimensional_gibbs_free_energy_per_link : forall (T : Type) (Sc : Scalar T) (link_length : jarray T) (hinge_mass : jarray T) (nondimensional_link_stiffness : jarray T) (nondimensional_link_energy : jarray T) (nondimensional_force : jarray T) (temperature : jarray T),
     jl_morse_isotensional.nondimensional_gibbs_free_energy_per_link link_length hinge_mass nondimensional_link_stiffness nondimensional_link_energy nondimensional_force temperature
     = broadcast [Float64; Float64; Float64; Float64; Float64; Float64] (fun link_length hinge_mass nondimensional_link_stiffness nondimensional_link_energy nondimensional_force temperature =>
         Finished (Some (morse_isotensional.nondimensional_gibbs_free_energy_per_link link_length hinge_mass nondimensional_link_stiffness nondimensional_link_energy nondimensional_force temperature))) link_length hinge_mass nondimensional_link_stiffness nondimensional_link_energy nondimensional_force temperature.
Proof. reflexivity. Qed.

Lemma F_morse_isotensional_nondimensional_relative_gibbs_free_energy : forall (T : Type) (Sc : Scalar T) (number_of_links : jarray Z) (nondimensional_link_stiffness : jarray T) (nondimensional_link_energy : jarray T) (nondimensional_force : jarray T),
     jl_morse_isotensional.nondimensional_relative_gibbs_free_energy number_of_links nondimensional_link_stiffness nondimensional_link_energy nondimensional_force
     = broadcast [UInt8; Float64; Float64; Float64] (fun number_of_links nondimensional_link_stiffness nondimensional_link_energy nondimensional_force =>
         Finished (Some (morse_isotensional.nondimensional_relative_gibbs_free_energy number_of_links nondimensional_link_stiffness nondimensional_link_energy nondimensional_force))) number_of_links nondimensional_link_stiffness nondimensional_link_energy nondimensional_force.
Proof. reflexivity. Qed.

Lemma F_morse_isotensional_nondimensional_relative_gibbs_free_energy_per_link : forall (T : Type) (Sc : Scalar T) (nondimensional_link_stiffness : jarray T) (nondimensional_link_energy : jarray T) (nondimensional_force : jarray T),
     jl_morse_isotensional.nondimensional_relative_gibbs_free_energy_per_link nondimensional_link_stiffness nondimensional_link_energy nondimensional_force
     = broadcast [Float64; Float64; Float64] (fun nondimensional_link_stiffness nondimensional_link_energy nondimensional_force =>
         Finished (Some (morse_isotensional.nondimensional_relative_gibbs_free_energy_per_link nondimensional_link_stiffness nondimensional_link_energy nondimensional_force))) nondimensional_link_stiffness nondimensional_link_energy nondimensional_force.
Proof. reflexivity. Qed.

Lemma F_wlc_isometric_legendre_gibbs_free_energy : forall (T : Type) (Sc : Scalar T) (number_of_links : jarray Z) (link_length : jarray T) (hinge_mass : jarray T) (persistance_length : jarray T) (end_to_end_length : jarray T) (temperature : jarray T),
     jl_wlc_isometric_legendre.gibbs_free_energy number_of_links link_length hinge_mass persistance_length end_to_end_length temperature
     = broadcast [UInt8; Float64; Float64; Float64; Float64; Float64] (fun number_of_links link_length hinge_mass persistance_length end_to_end_length temperature =>
         Finished (Some (wlc_isometric_legendre.gibbs_free_energy number_of_links link_length hinge_mass persistance_length end_to_end_length temperature))) number_of_links link_length hinge_mass persistance_length end_to_end_length temperature.
Proof. reflexivity. Qed.

Lemma F_wlc_isometric_legendre_gibbs_free_energy_per_link : forall (T : Type) (Sc : Scalar T) (number_of_links : jarray Z) (link_length : jarray T) (hinge_mass : jarray T) (persistance_length : jarray T) (end_to_end_length : jarray T) (temperature : jarray T),
     jl_wlc_isometric_legendre.gibbs_free_energy_per_link number_of_links link_length hinge_mass persistance_length end_to_end_length temperature
     = broadcast [UInt8; Float64; Float64; Float64; Float64; Float64] (fun number_of_links link_length hinge_mass persistance_length end_to_end_length temperature =>
         Finished (Some (wlc_isometric_legendre.gibbs_free_energy_per_link number_of_links link_length hinge_mass persistance_length end_to_end_length temperature))) number_of_links link_length hinge_mass persistance_length end_to_end_length temperature.
Proof. reflexivity. Qed.

Lemma F_wlc_isometric_legendre_relative_gibbs_free_energy : forall (T : Type) (Sc : Scalar T) (number_of_links : jarray Z) (link_length : jarray T) (persistance_length : jarray T) (end_to_end_length : jarray T) (temperature : jarray T),
     jl_wlc_isometric_legendre.relative_gibbs_free_energy number_of_links link_length persistance_length end_to_end_length temperature
     = broadcast [UInt8; Float64; Float64; Float64; Float64] (fun number_of_links link_length persistance_length end_to_end_length temperature =>
         Finished (Some (wlc_isometric_legendre.relative_gibbs_free_energy number_of_links link_length persistance_length end_to_end_length temperature))) number_of_links link_length persistance_length end_to_end_length temperature.
Proof. reflexivity. Qed.

Lemma F_wlc_isometric_legendre_relative_gibbs_free_energy_per_link : forall (T : Type) (Sc : Scalar T) (number_of_links : jarray Z) (link_length : jarray T) (persistance_length : jarray T) (end_to_end_length : jarray T) (temperature : jarray T),
     jl_wlc_isometric_legendre.relative_gibbs_free_energy_per_link number_of_links link_length persistance_length end_to_end_length temperature
     = broadcast [UInt8; Float64; Float64; Float64; Float64] (fun number_of_links link_length persistance_length end_to_end_length temperature =>
         Finished (Some (wlc_isometric_legendre.relative_gibbs_free_energy_per_link number_of_links link_length persistance_length end_to_end_length temperature))) number_of_links link_length persistance_length end_to_end_length temperature.
Proof. reflexivity. Qed.

Lemma F_wlc_isometric_legendre_nondimensional_gibbs_free_energy : forall (T : Type) (Sc : Scalar T) (number_of_links : jarray Z) (link_length : jarray T) (hinge_mass : jarray T) (nondimensional_persistance_length : jarray T) (nondimensional_end_to_end_length_per_link : jarray T) (temperature : jarray T),
     jl_wlc_isometric_legendre.nondimensional_gibbs_free_energy number_of_links link_length hinge_mass nondimensional_persistance_length nondimensional_end_to_end_length_per_link temperature
     = broadcast [UInt8; Float64; Float64; Float64; Float64; Float64] (fun number_of_links link_length hinge_mass nondimensional_persistance_length nondimensional_end_to_end_length_per_link temperature =>
         Finished (Some (wlc_isometric_legendre.nondimensional_gibbs_free_energy number_of_links link_length hinge_mass nondimensional_persistance_length nondimensional_end_to_end_length_per_link temperature))) number_of_links link_length hinge_mass nondimensional_persistance_length nondimensional_end_to_end_length_per_link temperature.
Proof. reflexivity. Qed.

Lemma F_wlc_isometric_legendre_nondimensional_gibbs_free_energy_per_link : forall (T : Type) (Sc : Scalar T) (number_of_links : jarray Z) (link_length : jarray T) (hinge_mass : jarray T) (nondimensional_persistance_length : jarray T) (nondimensional_end_to_end_length_per_link : jarray T) (temperature : jarray T),
     jl_wlc_isometric_legendre.nondimensional_gibbs_free_energy_per_link number_of_links link_length hinge_mass nondimensional_persistance_length nondimensional_end_to_end_length_per_link temperature
     = broadcast [UInt8; Float64; Float64; Float64; Float64; Float64] (fun number_of_links link_length hinge_mass nondimensional_persistance_length nondimensional_end_to_end_length_per_link temperature =>
         Finished (Some (wlc_isometric_legendre.nondimensional_gibbs_free_energy_per_link number_of_links link_length hinge_mass nondimensional_persistance_length nondimensional_end_to_end_length_per_link temperature))) number_of_links link_length hinge_mass nondimensional_persistance_length nondimensional_end_to_end_length_per_link temperature.
Proof. reflexivity. Qed.

Lemma F_wlc_isometric_legendre_nondimensional_relative_gibbs_free_energy : forall (T : Type) (Sc : Scalar T) (number_of_links : jarray Z) (nondimensional_persistance_length : jarray T) (nondimensional_end_to_end_length_per_link : jarray T),
     jl_wlc_isometric_legendre.nondimensional_relative_gibbs_free_energy number_of_links nondimensional_persistance_length nondimensional_end_to_end_length_per_link
     = broadcast [UInt8; Float64; Float64] (fun number_of_links nondimensional_persistance_length nondimensional_end_to_end_length_per_link =>
         Finished (Some (wlc_isometric_legendre.nondimensional_relative_gibbs_free_energy number_of_links nondimensional_persistance_length nondimensional_end_to_end_length_per_link))) number_of_links nondimensional_persistance_length nondimensional_end_to_end_length_per_link.
Proof. reflexivity. Qed.

Lemma F_wlc_isometric_legendre_nondimensional_relative_gibbs_free_energy_per_link : forall (T : Type) (Sc : Scalar T) (number_of_links : jarray Z) (nondimensional_persistance_length : jarray T) (nondimensional_end_to_end_length_per_link : jarray T),
     jl_wlc_isometric_legendre.nondimensional_relative_gibbs_free_energy_per_link number_of_links nondimensional_persistance_length nondimensional_end_to_end_length_per_link
     = broadcast [UInt8; Float64; Float64] (fun number_of_links nondimensional_persistance_length nondimensional_end_to_end_length_per_link =>
         Finished (Some (wlc_isometric_legendre.nondimensional_relative_gibbs_free_energy_per_link number_of_links nondimensional_persistance_length nondimensional_end_to_end_length_per_link))) number_of_links nondimensional_persistance_length nondimensional_end_to_end_length_per_link.
Proof. reflexivity. Qed.

Lemma F_wlc_isotensional_legendre_helmholtz_free_energy : forall (T : Type) (Sc : Scalar T) (number_of_links : jarray Z) (link_length : jarray T) (hinge_mass : jarray T) (persistance_length : jarray T) (force : jarray T) (temperature : jarray T),
     jl_wlc_isotensional_legendre.helmholtz_free_energy number_of_links link_length hinge_mass persistance_length force temperature
     = broadcast [UInt8; Float64; Float64; Float64; Float64; Float64] (fun number_of_links link_length hinge_mass persistance_length force temperature =>
         Finished (wlc_isotensional_legendre.helmholtz_free_energy number_of_links link_length hinge_mass persistance_length force temperature)) number_of_links link_length hinge_mass persistance_length force temperature.
Proof. reflexivity. Qed.

Lemma F_wlc_isotensional_legendre_helmholtz_free_energy_per_link : forall (T : Type) (Sc : Scalar T) (number_of_links : jarray Z) (link_length : jarray T) (hinge_mass : jarray T) (persistance_length : jarray T) (force : jarray T) (temperature : jarray T),
     jl_wlc_isotensional_legendre.helmholtz_free_energy_per_link number_of_links link_length hinge_mass persistance_length force temperature
     = broadcast [UInt8; Float64; Float64; Float64; Float64; Float64] (fun number_of_links link_length hinge_mass persistance_length force temperature =>
         Finished (wlc_isotensional_legendre.helmholtz_free_energy_per_link number_of_links link_length hinge_mass persistance_length force temperature)) number_of_links link_length hinge_mass persistance_length force temperature.
Proof. reflexivity. Qed.

Lemma F_wlc_isotensional_legendre_relative_helmholtz_free_energy : forall (T : Type) (Sc : Scalar T) (number_of_links : jarray Z) (link_length : jarray T) (persistance_length : jarray T) (force : jarray T) (temperature : jarray T),
     jl_wlc_isotensional_legendre.relative_helmholtz_free_energy number_of_links link_length persistance_length force temperature
     = broadcast [UInt8; Float64; Float64; Float64; Float64] (fun number_of_links link_length persistance_length force temperature =>
         Finished (wlc_isotensional_legendre.relative_helmholtz_free_energy number_of_links link_length persistance_length force temperature)) number_of_links link_length persistance_length force temperature.
Proof. reflexivity. Qed.

Lemma F_wlc_isotensional_legendre_relative_helmholtz_free_energy_per_link : forall (T : Type) (Sc : Scalar T) (number_of_links : jarray Z) (link_length : jarray T) (persistance_length : jarray T) (force : jarray T) (temperature : jarray T),
     jl_wlc_isotensional_legendre.relative_helmholtz_free_energy_per_link number_of_links link_length persistance_length force temperature
     = broadcast [UInt8; Float64; Float64; Float64; Float64] (fun number_of_links link_length persistance_length force temperature =>
         Finished (wlc_isotensional_legendre.relative_helmholtz_free_energy_per_link number_of_links link_length persistance_length force temperature)) number_of_links link_length persistance_length force temperature.
Proof. reflexivity. Qed.

Lemma F_wlc_isotensional_legendre_nondimensional_helmholtz_free_energy : forall (T : Type) (Sc : Scalar T) (number_of_links : jarray Z) (link_length : jarray T) (hinge_mass : jarray T) (nondimensional_persistance_length : jarray T) (nondimensional_force : jarray T) (temperature : jarray T),
     jl_wlc_isotensional_legendre.nondimensional_helmholtz_free_energy number_of_links link_length hinge_mass nondimensional_persistance_length nondimensional_force temperature
     = broadcast [UInt8; Float64; Float64; Float64; Float64; Float64] (fun number_of_links link_length hinge_mass nondimensional_persistance_length nondimensional_force temperature =>
         Finished (wlc_isotensional_legendre.nondimensional_helmholtz_free_energy number_of_links link_length hinge_mass nondimensional_persistance_length nondimensional_force temperature)) number_of_links link_length hinge_mass nondimensional_persistance_length nondimensional_force temperature.
Proof. reflexivity. Qed.

Lemma F_wlc_isotensional_legendre_nondimensional_helmholtz_free_energy_per_link : forall (T : Type) (Sc : Scalar T) (number_of_links : jarray Z) (link_length : jarray T) (hinge_mass : jarray T) (nondimensional_persistance_length : jarray T) (nondimensional_force : jarray T) (temperature : jarray T),
     jl_wlc_isotensional_legendre.nondimensional_helmholtz_free_energy_per_link number_of_links link_length hinge_mass nondimensional_persistance_length nondimensional_force temperature
     = broadcast [UInt8; Float64; Float64; Float64; Float64; Float64] (fun number_of_links link_length hinge_mass nondimensional_persistance_length nondimensional_force temperature =>
         Finished (wlc_isotensional_legendre.nondimensional_helmholtz_free_energy_per_link number_of_links link_length hinge_mass nondimensional_persistance_length nondimensional_force temperature)) number_of_links link_length hinge_mass nondimensional_persistance_length nondimensional_force temperature.
Proof. reflexivity. Qed.

Lemma F_wlc_isotensional_legendre_nondimensional_relative_helmholtz_free_energy : forall (T : Type) (Sc : Scalar T) (number_of_links : jarray Z) (nondimensional_persistance_length : jarray T) (nondimensional_force : jarray T),
     jl_wlc_isotensional_legendre.nondimensional_relative_helmholtz_free_energy number_of_links nondimensional_persistance_length nondimensional_force
     = broadcast [UInt8; Float64; Float64] (fun number_of_links nondimensional_persistance_length nondimensional_force =>
         Finished (wlc_isotensional_legendre.nondimensional_relative_helmholtz_free_energy number_of_links nondimensional_persistance_length nondimensional_force)) number_of_links nondimensional_persistance_length nondimensional_force.
Proof. reflexivity. Qed.

Lemma F_wlc_isotensional_legendre_nondimensional_relative_helmholtz_free_energy_per_link : forall (T : Type) (Sc : Scalar T) (number_of_links : jarray Z) (nondimensional_persistance_length : jarray T) (nondimensional_force : jarray T),
     jl_wlc_isotensional_legendre.nondimensional_relative_helmholtz_free_energy_per_link number_of_links nondimensional_persistance_length nondimensional_force
     = broadcast [UInt8; Float64; Float64] (fun number_of_links nondimensional_persistance_length nondimensional_force =>
         Finished (wlc_isotensional_legendre.nondimensional_relative_helmholtz_free_energy_per_link number_of_links nondimensional_persistance_length nondimensional_force)) number_of_links nondimensional_persistance_length nondimensional_force.
Proof. reflexivity. Qed.

Lemma F_efjc_isotensional_end_to_end_length : forall (T : Type) (Sc : Scalar T) (number_of_links : jarray Z) (link_length : jarray T) (link_stiffness : jarray T) (force : jarray T) (temperature : jarray T),
     jl_efjc_isotensional.end_to_end_length number_of_links link_length link_stiffness force temperature
     = broadcast [UInt8; Float64; Float64; Float64; Float64] (fun number_of_links link_length link_stiffness force temperature =>
         Finished (Some (efjc_isotensional.end_to_end_length number_of_links link_length link_stiffness force temperature))) number_of_links link_length link_stiffness force temperature.
Proof. reflexivity. Qed.

Lemma F_efjc_isotensional_end_to_end_length_per_link : forall (T : Type) (Sc : Scalar T) (link_length : jarray T) (link_stiffness : jarray T) (force : jarray T) (temperature : jarray T),
     jl_efjc_isotensional.end_to_end_length_per_link link_length link_stiffness force temperature
     = broadcast [Float64; Float64; Float64; Float64] (fun link_length link_stiffness force temperature =>
         Finished (Some (efjc_isotensional.end_to_end_length_per_link link_length link_stiffness force temperature))) link_length link_stiffness force temperature.
Proof. reflexivity. Qed.

Lemma F_efjc_isotensional_nondimensional_end_to_end_length : forall (T : Type) (Sc : Scalar T) (number_of_links : jarray Z) (nondimensional_link_stiffness : jarray T) (nondimensional_force : jarray T),
     jl_efjc_isotensional.nondimensional_end_to_end_length number_of_links nondimensional_link_stiffness nondimensional_force
     = broadcast [UInt8; Float64; Float64] (fun number_of_links nondimensional_link_stiffness nondimensional_force =>
         Finished (Some (efjc_isotensional.nondimensional_end_to_end_length number_of_links nondimensional_link_stiffness nondimensional_force))) number_of_links nondimensional_link_stiffness nondimensional_force.
Proof. reflexivity. Qed.

Lemma F_efjc_isotensional_nondimensional_end_to_end_length_per_link : forall (T : Type) (Sc : Scalar T) (nondimensional_link_stiffness : jarray T) (nondimensional_force : jarray T),
     jl_efjc_isotensional.nondimensional_end_to_end_length_per_link nondimensional_link_stiffness nondimensional_force
     = broadcast [Float64; Float64] (fun nondimensional_link_stiffness nondimensional_force =>
         Finished (Some (efjc_isotensional.nondimensional_end_to_end_length_per_link nondimensional_link_stiffness nondimensional_force))) nondimensional_link_stiffness nondimensional_force.
Proof. reflexivity. Qed.

Lemma F_efjc_isotensional_gibbs_free_energy : forall (T : Type) (Sc : Scalar T) (number_of_links : jarray Z) (link_length : jarray T) (hinge_mass : jarray T) (link_stiffness : jarray T) (force : jarray T) (temperature : jarray T),
     jl_efjc_isotensional.gibbs_free_energy number_of_links link_length hinge_mass link_stiffness force temperature
     = broadcast [UInt8; Float64; Float64; Float64; Float64; Float64] (fun number_of_links link_length hinge_mass link_stiffness force temperature =>
         Finished (Some (efjc_isotensional.gibbs_free_energy number_of_links link_length hinge_mass link_stiffness force temperature))) number_of_links link_length hinge_mass link_stiffness force temperature.
Proof. reflexivity. Qed.

Lemma F_efjc_isotensional_gibbs_free_energy_per_link : forall (T : Type) (Sc : Scalar T) (link_length : jarray T) (hinge_mass : jarray T) (link_stiffness : jarray T) (force : jarray T) (temperature : jarray T),
     jl_efjc_isotensional.gibbs_free_energy_per_link link_length hinge_mass link_stiffness force temperature
     = broadcast [Float64; Float64; Float64; Float64; Float64] (fun link_length hinge_mass link_stiffness force temperature =>
         Finished (Some (efjc_isotensional.gibbs_free_energy_per_link link_length hinge_mass link_stiffness force temperature))) link_length hinge_mass link_stiffness force temperature.
Proof. reflexivity. Qed.

Lemma F_efjc_isotensional_relative_gibbs_free_energy : forall (T : Type) (Sc : Scalar T) (number_of_links : jarray Z) (link_length : jarray T) (link_stiffness : jarray T) (force : jarray T) (temperature : jarray T),
     jl_efjc_isotensional.relative_gibbs_free_energy number_of_links link_length link_stiffness force temperature
     = broadcast [UInt8; Float64; Float64; Float64; Float64] (fun number_of_links link_length link_stiffness force temperature =>
         Finished (Some (efjc_isotensional.relative_gibbs_free_energy number_of_links link_length link_stiffness force temperature))) number_of_links link_length link_stiffness force temperature.
Proof. reflexivity. Qed.

Lemma F_efjc_isotensional_relative_gibbs_free_energy_per_link : forall (T : Type) (Sc : Scalar T) (link_length : jarray T) (link_stiffness : jarray T) (force : jarray T) (temperature : jarray T),
     jl_efjc_isotensional.relative_gibbs_free_energy_per_link link_length link_stiffness force temperature
     = broadcast [Float64; Float64; Float64; Float64] (fun link_length link_stiffness force temperature =>
         Finished (Some (efjc_isotensional.relative_gibbs_free_energy_per_link link_length link_stiffness force temperature))) link_length link_stiffness force temperature.
Proof. reflexivity. Qed.

Lemma F_efjc_isotensional_nondimensional_gibbs_free_energy : forall (T : Type) (Sc : Scalar T) (number_of_links : jarray Z) (link_length : jarray T) (hinge_mass : jarray T) (nondimensional_link_stiffness : jarray T) (nondimensional_force : jarray T) (temperature : jarray T),
     jl_efjc_isotensional.nondimensional_gibbs_free_energy number_of_links link_length hinge_mass nondimensional_link_stiffness nondimensional_force temperature
     = broadcast [UInt8; Float64; Float64; Float64; Float64; Float64] (fun number_of_links link_length hinge_mass nondimensional_link_stiffness nondimensional_force temperature =>
         Finished (Some (efjc_isotensional.nondimensional_gibbs_free_energy number_of_links link_length hinge_mass nondimensional_link_stiffness nondimensional_force temperature))) number_of_links link_length hinge_mass nondimensional_link_stiffness nondimensional_force temperature.
Proof. reflexivity. Qed.

Lemma F_efjc_isotensional_nondimensional_gibbs_free_energy_per_link : forall (T : Type) (Sc : Scalar T) (link_length : jarray T) (hinge_mass : jarray T) (nondimensional_link_stiffness : jarray T) (nondimensional_force : jarray T) (temperature : jarray T),
     jl_efjc_isotensional.nondimensional_gibbs_free_energy_per_link link_length hinge_mass nondimensional_link_stiffness nondimensional_force temperature
     = broadcast [Float64; Float64; Float64; Float64; Float64] (fun link_length hinge_mass nondimensional_link_stiffness nondimensional_force temperature =>
         Finished (Some (efjc_isotensional.nondimensional_gibbs_free_energy_per_link link_length hinge_mass nondimensional_link_stiffness nondimensional_force temperature))) link_length hinge_mass nondimensional_link_stiffness nondimensional_force temperature.
Proof. reflexivity. Qed.

Lemma F_efjc_isotensional_nondimensional_relative_gibbs_free_energy : forall (T : Type) (Sc : Scalar T) (number_of_links : jarray Z) (nondimensional_link_stiffness : jarray T) (nondimensional_force : jarray T),
     jl_efjc_isotensional.nondimensional_relative_gibbs_free_energy number_of_links nondimensional_link_stiffness nondimensional_force
     = broadcast [UInt8; Float64; Float64] (fun number_of_links nondimensional_link_stiffness nondimensional_force =>
         Finished (Some (efjc_isotensional.nondimensional_relative_gibbs_free_energy number_of_links nondimensional_link_stiffness nondimensional_force))) number_of_links nondimensional_link_stiffness nondimensional_force.
Proof. reflexivity. Qed.

Lemma F_efjc_isotensional_nondimensional_relative_gibbs_free_energy_per_link : forall (T : Type) (Sc : Scalar T) (nondimensional_link_stiffness : jarray T) (nondimensional_force : jarray T),
     jl_efjc_isotensional.nondimensional_relative_gibbs_free_energy_per_link nondimensional_link_stiffness nondimensional_force
     = broadcast [Float64; Float64] (fun nondimensional_link_stiffness nondimensional_force =>
         Finished (Some (efjc_isotensional.nondimensional_relative_gibbs_free_energy_per_link nondimensional_link_stiffness nondimensional_force))) nondimensional_link_stiffness nondimensional_force.
Proof. reflexivity. Qed.

Lemma F_fjc_isometric_force : forall (T : Type) (Sc : Scalar T) (prof : profile) (number_of_links : jarray Z) (link_length : jarray T) (end_to_end_length : jarray T) (temperature : jarray T),
     jl_fjc_isometric.force prof number_of_links link_length end_to_end_length temperature
     = broadcast [UInt8; Float64; Float64; Float64] (fun number_of_links link_length end_to_end_length temperature =>
         Finished (fjc_isometric.force prof number_of_links link_length end_to_end_length temperature)) number_of_links link_length end_to_end_length temperature.
Proof. reflexivity. Qed.

Lemma F_fjc_isometric_nondimensional_force : forall (T : Type) (Sc : Scalar T) (prof : profile) (number_of_links : jarray Z) (nondimensional_end_to_end_length_per_link : jarray T),
     jl_fjc_isometric.nondimensional_force prof number_of_links nondimensional_end_to_end_length_per_link
     = broadcast [UInt8; Float64] (fun number_of_links nondimensional_end_to_end_length_per_link =>
         Finished (fjc_isometric.nondimensional_force prof number_of_links nondimensional_end_to_end_length_per_link)) number_of_links nondimensional_end_to_end_length_per_link.
Proof. reflexivity. Qed.

Lemma F_fjc_isometric_helmholtz_free_energy : forall (T : Type) (Sc : Scalar T) (prof : profile) (number_of_links : jarray Z) (link_length : jarray T) (hinge_mass : jarray T) (end_to_end_length : jarray T) (temperature : jarray T),
     jl_fjc_isometric.helmholtz_free_energy prof number_of_links link_length hinge_mass end_to_end_length temperature
     = broadcast [UInt8; Float64; Float64; Float64; Float64] (fun number_of_links link_length hinge_mass end_to_end_length temperature =>
         Finished (fjc_isometric.helmholtz_free_energy prof number_of_links link_length hinge_mass end_to_end_length temperature)) number_of_links link_length hinge_mass end_to_end_length temperature.
Proof. reflexivity. Qed.

Lemma F_fjc_isometric_helmholtz_free_energy_per_link : forall (T : Type) (Sc : Scalar T) (prof : profile) (number_of_links : jarray Z) (link_length : jarray T) (hinge_mass : jarray T) (end_to_end_length : jarray T) (temperature : jarray T),
     jl_fjc_isometric.helmholtz_free_energy_per_link prof number_of_links link_length hinge_mass end_to_end_length temperature
     = broadcast [UInt8; Float64; Float64; Float64; Float64] (fun number_of_links link_length hinge_mass end_to_end_length temperature =>
         Finished (fjc_isometric.helmholtz_free_energy_per_link prof number_of_links link_length hinge_mass end_to_end_length temperature)) number_of_links link_length hinge_mass end_to_end_length temperature.
Proof. reflexivity. Qed.

Lemma F_fjc_isometric_relative_helmholtz_free_energy : forall (T : Type) (Sc : Scalar T) (prof : profile) (number_of_links : jarray Z) (link_length : jarray T) (end_to_end_length : jarray T) (temperature : jarray T),
     jl_fjc_isometric.relative_helmholtz_free_energy prof number_of_links link_length end_to_end_length temperature
     = broadcast [UInt8; Float64; Float64; Float64] (fun number_of_links link_length end_to_end_length temperature =>
         Finished (fjc_isometric.relative_helmholtz_free_energy prof number_of_links link_length end_to_end_length temperature)) number_of_links link_length end_to_end_length temperature.
Proof. reflexivity. Qed.

Lemma F_fjc_isometric_relative_helmholtz_free_energy_per_link : forall (T : Type) (Sc : Scalar T) (prof : profile) (number_of_links : jarray Z) (link_length : jarray T) (end_to_end_length : jarray T) (temperature : jarray T),
     jl_fjc_isometric.relative_helmholtz_free_energy_per_link prof number_of_links link_length end_to_end_length temperature
     = broadcast [UInt8; Float64; Float64; Float64] (fun number_of_links link_length end_to_end_length temperature =>
         Finished (fjc_isometric.relative_helmholtz_free_energy_per_link prof number_of_links link_length end_to_end_length temperature)) number_of_links link_length end_to_end_length temperature.
Proof. reflexivity. Qed.

Lemma F_fjc_isometric_nondimensional_helmholtz_free_energy : forall (T : Type) (Sc : Scalar T) (prof : profile) (number_of_links : jarray Z) (link_length : jarray T) (hinge_mass : jarray T) (nondimensional_end_to_end_length_per_link : jarray T) (temperature : jarray T),
     jl_fjc_isometric.nondimensional_helmholtz_free_energy prof number_of_links link_length hinge_mass nondimensional_end_to_end_length_per_link temperature
     = broadcast [UInt8; Float64; Float64; Float64; Float64] (fun number_of_links link_length hinge_mass nondimensional_end_to_end_length_per_link temperature =>
         Finished (fjc_isometric.nondimensional_helmholtz_free_energy prof number_of_links link_length hinge_mass nondimensional_end_to_end_length_per_link temperature)) number_of_links link_length hinge_mass nondimensional_end_to_end_length_per_link temperature.
Proof. reflexivity. Qed.

Lemma F_fjc_isometric_nondimensional_helmholtz_free_energy_per_link : forall (T : Type) (Sc : Scalar T) (prof : profile) (number_of_links : jarray Z) (link_length : jarray T) (hinge_mass : jarray T) (nondimensional_end_to_end_length_per_link : jarray T) (temperature : jarray T),
     jl_fjc_isometric.nondimensional_helmholtz_free_energy_per_link prof number_of_links link_length hinge_mass nondimensional_end_to_end_length_per_link temperature
     = broadcast [UInt8; Float64; Float64; Float64; Float64] (fun number_of_links link_length hinge_mass nondimensional_end_to_end_length_per_link temperature =>
         Finished (fjc_isometric.nondimensional_helmholtz_free_energy_per_link prof number_of_links link_length hinge_mass nondimensional_end_to_end_length_per_link temperature)) number_of_links link_length hinge_mass nondimensional_end_to_end_length_per_link temperature.
Proof. reflexivity. Qed.

Lemma F_fjc_isometric_nondimensional_relative_helmholtz_free_energy : forall (T : Type) (Sc : Scalar T) (prof : profile) (number_of_links : jarray Z) (nondimensional_end_to_end_length_per_link : jarray T),
     jl_fjc_isometric.nondimensional_relative_helmholtz_free_energy prof number_of_links nondimensional_end_to_end_length_per_link
     = broadcast [UInt8; Float64] (fun number_of_links nondimensional_end_to_end_length_per_link =>
         Finished (fjc_isometric.nondimensional_relative_helmholtz_free_energy prof number_of_links nondimensional_end_to_end_length_per_link)) number_of_links nondimensional_end_to_end_length_per_link.
Proof. reflexivity. Qed.

Lemma F_fjc_isometric_nondimensional_relative_helmholtz_free_energy_per_link : forall (T : Type) (Sc : Scalar T) (prof : profile) (number_of_links : jarray Z) (nondimensional_end_to_end_length_per_link : jarray T),
     jl_fjc_isometric.nondimensional_relative_helmholtz_free_energy_per_link prof number_of_links nondimensional_end_to_end_length_per_link
     = broadcast [UInt8; Float64] (fun number_of_links nondimensional_end_to_end_length_per_link =>
         Finished (fjc_isometric.nondimensional_relative_helmholtz_free_energy_per_link prof number_of_links nondimensional_end_to_end_length_per_link)) number_of_links nondimensional_end_to_end_length_per_link.
Proof. reflexivity. Qed.

Lemma F_fjc_isometric_equilibrium_distribution : forall (T : Type) (Sc : Scalar T) (prof : profile) (number_of_links : jarray Z) (link_length : jarray T) (end_to_end_length : jarray T),
     jl_fjc_isometric.equilibrium_distribution prof number_of_links link_length end_to_end_length
     = broadcast [UInt8; Float64; Float64] (fun number_of_links link_length end_to_end_length =>
         Finished (fjc_isometric.equilibrium_distribution prof number_of_links link_length end_to_end_length)) number_of_links link_length end_to_end_length.
Proof. reflexivity. Qed.

Lemma F_fjc_isometric_nondimensional_equilibrium_distribution : forall (T : Type) (Sc : Scalar T) (prof : profile) (number_of_links : jarray Z) (nondimensional_end_to_end_length_per_link : jarray T),
     jl_fjc_isometric.nondimensional_equilibrium_distribution prof number_of_links nondimensional_end_to_end_length_per_link
     = broadcast [UInt8; Float64] (fun number_of_links nondimensional_end_to_end_length_per_link =>
         Finished (fjc_isometric.nondimensional_equilibrium_distribution prof number_of_links nondimensional_end_to_end_length_per_link)) number_of_links nondimensional_end_to_end_length_per_link.
Proof. reflexivity. Qed.

Lemma F_fjc_isometric_equilibrium_radial_distribution : forall (T : Type) (Sc : Scalar T) (prof : profile) (number_of_links : jarray Z) (link_length : jarray T) (end_to_end_length : jarray T),
     jl_fjc_isometric.equilibrium_radial_distribution prof number_of_links link_length end_to_end_length
     = broadcast [UInt8; Float64; Float64] (fun number_of_links link_length end_to_end_length =>
         Finished (fjc_isometric.equilibrium_radial_distribution prof number_of_links link_length end_to_end_length)) number_of_links link_length end_to_end_length.
Proof. reflexivity. Qed.

Lemma F_fjc_isometric_nondimensional_equilibrium_radial_distribution : forall (T : Type) (Sc : Scalar T) (prof : profile) (number_of_links : jarray Z) (nondimensional_end_to_end_length_per_link : jarray T),
     jl_fjc_isometric.nondimensional_equilibrium_radial_distribution prof number_of_links nondimensional_end_to_end_length_per_link
     = broadcast [UInt8; Float64] (fun number_of_links nondimensional_end_to_end_length_per_link =>
         Finished (fjc_isometric.nondimensional_equilibrium_radial_distribution prof number_of_links nondimensional_end_to_end_length_per_link)) number_of_links nondimensional_end_to_end_length_per_link.
Proof. reflexivity. Qed.

Lemma F_fjc_isotensional_end_to_end_length : forall (T : Type) (Sc : Scalar T) (number_of_links : jarray Z) (link_length : jarray T) (force : jarray T) (temperature : jarray T),
     jl_fjc_isotensional.end_to_end_length number_of_links link_length force temperature
     = broadcast [UInt8; Float64; Float64; Float64] (fun number_of_links link_length force temperature =>
         Finished (Some (fjc_isotensional.end_to_end_length number_of_links link_length force temperature))) number_of_links link_length force temperature.
Proof. reflexivity. Qed.

Lemma F_fjc_isotensional_end_to_end_length_per_link : forall (T : Type) (Sc : Scalar T) (link_length : jarray T) (force : jarray T) (temperature : jarray T),
     jl_fjc_isotensional.end_to_end_length_per_link link_length force temperature
     = broadcast [Float64; Float64; Float64] (fun link_length force temperature =>
         Finished (Some (fjc_isotensional.end_to_end_length_per_link link_length force temperature))) link_length force temperature.
Proof. reflexivity. Qed.

Lemma F_fjc_isotensional_nondimensional_end_to_end_length : forall (T : Type) (Sc : Scalar T) (number_of_links : jarray Z) (nondimensional_force : jarray T),
     jl_fjc_isotensional.nondimensional_end_to_end_length number_of_links nondimensional_force
     = broadcast [UInt8; Float64] (fun number_of_links nondimensional_force =>
         Finished (Some (fjc_isotensional.nondimensional_end_to_end_length number_of_links nondimensional_force))) number_of_links nondimensional_force.
Proof. reflexivity. Qed.

Lemma F_fjc_isotensional_nondimensional_end_to_end_length_per_link : forall (T : Type) (Sc : Scalar T) (nondimensional_force : jarray T),
     jl_fjc_isotensional.nondimensional_end_to_end_length_per_link nondimensional_force
     = broadcast [Float64] (fun nondimensional_force =>
         Finished (Some (fjc_isotensional.nondimensional_end_to_end_length_per_link nondimensional_force))) nondimensional_force.
Proof. reflexivity. Qed.

Lemma F_fjc_isotensional_gibbs_free_energy : forall (T : Type) (Sc : Scalar T) (number_of_links : jarray Z) (link_length : jarray T) (hinge_mass : jarray T) (force : jarray T) (temperature : jarray T),
     jl_fjc_isotensional.gibbs_free_energy number_of_links link_length hinge_mass force temperature
     = broadcast [UInt8; Float64; Float64; Float64; Float64] (fun number_of_links link_length hinge_mass force temperature =>
         Finished (Some (fjc_isotensional.gibbs_free_energy number_of_links link_length hinge_mass force temperature))) number_of_links link_length hinge_mass force temperature.
Proof. reflexivity. Qed.

Lemma F_fjc_isotensional_gibbs_free_energy_per_link : forall (T : Type) (Sc : Scalar T) (link_length : jarray T) (hinge_mass : jarray T) (force : jarray T) (temperature : jarray T),
     jl_fjc_isotensional.gibbs_free_energy_per_link link_length hinge_mass force temperature
     = broadcast [Float64; Float64; Float64; Float64] (fun link_length hinge_mass force temperature =>
         Finished (Some (fjc_isotensional.gibbs_free_energy_per_link link_length hinge_mass force temperature))) link_length hinge_mass force temperature.
Proof. reflexivity. Qed.

Lemma F_fjc_isotensional_relative_gibbs_free_energy : forall (T : Type) (Sc : Scalar T) (number_of_links : jarray Z) (link_length : jarray T) (force : jarray T) (temperature : jarray T),
     jl_fjc_isotensional.relative_gibbs_free_energy number_of_links link_length force temperature
     = broadcast [UInt8; Float64; Float64; Float64] (fun number_of_links link_length force temperature =>
         Finished (Some (fjc_isotensional.relative_gibbs_free_energy number_of_links link_length force temperature))) number_of_links link_length force temperature.
Proof. reflexivity. Qed.

Lemma F_fjc_isotensional_relative_gibbs_free_energy_per_link : forall (T : Type) (Sc : Scalar T) (link_length : jarray T) (force : jarray T) (temperature : jarray T),
     jl_fjc_isotensional.relative_gibbs_free_energy_per_link link_length force temperature
     = broadcast [Float64; Float64; Float64] (fun link_length force temperature =>
         Finished (Some (fjc_isotensional.relative_gibbs_free_energy_per_link link_length force temperature))) link_length force temperature.
Proof. reflexivity. Qed.

Lemma F_fjc_isotensional_nondimensional_gibbs_free_energy : forall (T : Type) (Sc : Scalar T) (number_of_links : jarray Z) (link_length : jarray T) (hinge_mass : jarray T) (nondimensional_force : jarray T) (temperature : jarray T),
     jl_fjc_isotensional.nondimensional_gibbs_free_energy number_of_links link_length hinge_mass nondimensional_force temperature
     = broadcast [UInt8; Float64; Float64; Float64; Float64] (fun number_of_links link_length hinge_mass nondimensional_force temperature =>
         Finished (Some (fjc_isotensional.nondimensional_gibbs_free_energy number_of_links link_length hinge_mass nondimensional_force temperature))) number_of_links link_length hinge_mass nondimensional_force temperature.
Proof. reflexivity. Qed.

Lemma F_fjc_isotensional_nondimensional_gibbs_free_energy_per_link : forall (T : Type) (Sc : Scalar T) (link_length : jarray T) (hinge_mass : jarray T) (nondimensional_force : jarray T) (temperature : jarray T),
     jl_fjc_isotensional.nondimensional_gibbs_free_energy_per_link link_length hinge_mass nondimensional_force temperature
     = broadcast [Float64; Float64; Float64; Float64] (fun link_length hinge_mass nondimensional_force temperature =>
         Finished (Some (fjc_isotensional.nondimensional_gibbs_free_energy_per_link link_length hinge_mass nondimensional_force temperature))) link_length hinge_mass nondimensional_force temperature.
Proof. reflexivity. Qed.

Lemma F_fjc_isotensional_nondimensional_relative_gibbs_free_energy : forall (T : Type) (Sc : Scalar T) (number_of_links : jarray Z) (nondimensional_force : jarray T),
     jl_fjc_isotensional.nondimensional_relative_gibbs_free_energy number_of_links nondimensional_force
     = broadcast [UInt8; Float64] (fun number_of_links nondimensional_force =>
         Finished (Some (fjc_isotensional.nondimensional_relative_gibbs_free_energy number_of_links nondimensional_force))) number_of_links nondimensional_force.
Proof. reflexivity. Qed.

Lemma F_fjc_isotensional_nondimensional_relative_gibbs_free_energy_per_link : forall (T : Type) (Sc : Scalar T) (nondimensional_force : jarray T),
     jl_fjc_isotensional.nondimensional_relative_gibbs_free_energy_per_link nondimensional_force
     = broadcast [Float64] (fun nondimensional_force =>
         Finished (Some (fjc_isotensional.nondimensional_relative_gibbs_free_energy_per_link nondimensional_force))) nondimensional_force.
Proof. reflexivity. Qed.

Lemma F_fjc_modified_canonical_end_to_end_length : forall (T : Type) (Sc : Scalar T) (prof : profile) (number_of_links : jarray Z) (link_length : jarray T) (potential_distance : jarray T) (potential_stiffness : jarray T) (temperature : jarray T),
     jl_fjc_modified_canonical.end_to_end_length prof number_of_links link_length potential_distance potential_stiffness temperature
     = broadcast [UInt8; Float64; Float64; Float64; Float64] (fun number_of_links link_length potential_distance potential_stiffness temperature =>
         Finished (fjc_modified_canonical.end_to_end_length prof number_of_links link_length potential_distance potential_stiffness temperature)) number_of_links link_length potential_distance potential_stiffness temperature.
Proof. reflexivity. Qed.

Lemma F_fjc_modified_canonical_end_to_end_length_per_link : forall (T : Type) (Sc : Scalar T) (prof : profile) (number_of_links : jarray Z) (link_length : jarray T) (potential_distance : jarray T) (potential_stiffness : jarray T) (temperature : jarray T),
     jl_fjc_modified_canonical.end_to_end_length_per_link prof number_of_links link_length potential_distance potential_stiffness temperature
     = broadcast [UInt8; Float64; Float64; Float64; Float64] (fun number_of_links link_length potential_distance potential_stiffness temperature =>
         Finished (fjc_modified_canonical.end_to_end_length_per_link prof number_of_links link_length potential_distance potential_stiffness temperature)) number_of_links link_length potential_distance potential_stiffness temperature.
Proof. reflexivity. Qed.

Lemma F_fjc_modified_canonical_nondimensional_end_to_end_length : forall (T : Type) (Sc : Scalar T) (prof : profile) (number_of_links : jarray Z) (nondimensional_potential_distance : jarray T) (nondimensional_potential_stiffness : jarray T),
     jl_fjc_modified_canonical.nondimensional_end_to_end_length prof number_of_links nondimensional_potential_distance nondimensional_potential_stiffness
     = broadcast [UInt8; Float64; Float64] (fun number_of_links nondimensional_potential_distance nondimensional_potential_stiffness =>
         Finished (fjc_modified_canonical.nondimensional_end_to_end_length prof number_of_links nondimensional_potential_distance nondimensional_potential_stiffness)) number_of_links nondimensional_potential_distance nondimensional_potential_stiffness.
Proof. reflexivity. Qed.

Lemma F_fjc_modified_canonical_nondimensional_end_to_end_length_per_link : forall (T : Type) (Sc : Scalar T) (prof : profile) (number_of_links : jarray Z) (nondimensional_potential_distance : jarray T) (nondimensional_potential_stiffness : jarray T),
     jl_fjc_modified_canonical.nondimensional_end_to_end_length_per_link prof number_of_links nondimensional_potential_distance nondimensional_potential_stiffness
     = broadcast [UInt8; Float64; Float64] (fun number_of_links nondimensional_potential_distance nondimensional_potential_stiffness =>
         Finished (fjc_modified_canonical.nondimensional_end_to_end_length_per_link prof number_of_links nondimensional_potential_distance nondimensional_potential_stiffness)) number_of_links nondimensional_potential_distance nondimensional_potential_stiffness.
Proof. reflexivity. Qed.

Lemma F_fjc_modified_canonical_force : forall (T : Type) (Sc : Scalar T) (prof : profile) (number_of_links : jarray Z) (link_length : jarray T) (potential_distance : jarray T) (potential_stiffness : jarray T) (temperature : jarray T),
     jl_fjc_modified_canonical.force prof number_of_links link_length potential_distance potential_stiffness temperature
     = broadcast [UInt8; Float64; Float64; Float64; Float64] (fun number_of_links link_length potential_distance potential_stiffness temperature =>
         Finished (fjc_modified_canonical.force prof number_of_links link_length potential_distance potential_stiffness temperature)) number_of_links link_length potential_distance potential_stiffness temperature.
Proof. reflexivity. Qed.

Lemma F_fjc_modified_canonical_nondimensional_force : forall (T : Type) (Sc : Scalar T) (prof : profile) (number_of_links : jarray Z) (nondimensional_potential_distance : jarray T) (nondimensional_potential_stiffness : jarray T),
     jl_fjc_modified_canonical.nondimensional_force prof number_of_links nondimensional_potential_distance nondimensional_potential_stiffness
     = broadcast [UInt8; Float64; Float64] (fun number_of_links nondimensional_potential_distance nondimensional_potential_stiffness =>
         Finished (fjc_modified_canonical.nondimensional_force prof number_of_links nondimensional_potential_distance nondimensional_potential_stiffness)) number_of_links nondimensional_potential_distance nondimensional_potential_stiffness.
Proof. reflexivity. Qed.

Lemma F_fjc_modified_canonical_helmholtz_free_energy : forall (T : Type) (Sc : Scalar T) (prof : profile) (number_of_links : jarray Z) (link_length : jarray T) (hinge_mass : jarray T) (potential_distance : jarray T) (potential_stiffness : jarray T) (temperature : jarray T),
     jl_fjc_modified_canonical.helmholtz_free_energy prof number_of_links link_length hinge_mass potential_distance potential_stiffness temperature
     = broadcast [UInt8; Float64; Float64; Float64; Float64; Float64] (fun number_of_links link_length hinge_mass potential_distance potential_stiffness temperature =>
         Finished (fjc_modified_canonical.helmholtz_free_energy prof number_of_links link_length hinge_mass potential_distance potential_stiffness temperature)) number_of_links link_length hinge_mass potential_distance potential_stiffness temperature.
Proof. reflexivity. Qed.

Lemma F_fjc_modified_canonical_helmholtz_free_energy_per_link : forall (T : Type) (Sc : Scalar T) (prof : profile) (number_of_links : jarray Z) (link_length : jarray T) (hinge_mass : jarray T) (potential_distance : jarray T) (potential_stiffness : jarray T) (temperature : jarray T),
     jl_fjc_modified_canonical.helmholtz_free_energy_per_link prof number_of_links link_length hinge_mass potential_distance potential_stiffness temperature
     = broadcast [UInt8; Float64; Float64; Float64; Float64; Float64] (fun number_of_links link_length hinge_mass potential_distance potential_stiffness temperature =>
         Finished (fjc_modified_canonical.helmholtz_free_energy_per_link prof number_of_links link_length hinge_mass potential_distance potential_stiffness temperature)) number_of_links link_length hinge_mass potential_distance potential_stiffness temperature.
Proof. reflexivity. Qed.

Lemma F_fjc_modified_canonical_relative_helmholtz_free_energy : forall (T : Type) (Sc : Scalar T) (prof : profile) (number_of_links : jarray Z) (link_length : jarray T) (potential_distance : jarray T) (potential_stiffness : jarray T) (temperature : jarray T),
     jl_fjc_modified_canonical.relative_helmholtz_free_energy prof number_of_links link_length potential_distance potential_stiffness temperature
     = broadcast [UInt8; Float64; Float64; Float64; Float64] (fun number_of_links link_length potential_distance potential_stiffness temperature =>
         Finished (fjc_modified_canonical.relative_helmholtz_free_energy prof number_of_links link_length potential_distance potential_stiffness temperature)) number_of_links link_length potential_distance potential_stiffness temperature.
Proof. reflexivity. Qed.

Lemma F_fjc_modified_canonical_relative_helmholtz_free_energy_per_link : forall (T : Type) (Sc : Scalar T) (prof : profile) (number_of_links : jarray Z) (link_length : jarray T) (potential_distance : jarray T) (potential_stiffness : jarray T) (temperature : jarray T),
     jl_fjc_modified_canonical.relative_helmholtz_free_energy_per_link prof number_of_links link_length potential_distance potential_stiffness temperature
     = broadcast [UInt8; Float64; Float64; Float64; Float64] (fun number_of_links link_length potential_distance potential_stiffness temperature =>
         Finished (fjc_modified_canonical.relative_helmholtz_free_energy_per_link prof number_of_links link_length potential_distance potential_stiffness temperature)) number_of_links link_length potential_distance potential_stiffness temperature.
Proof. reflexivity. Qed.

Lemma F_fjc_modified_canonical_nondimensional_helmholtz_free_energy : forall (T : Type) (Sc : Scalar T) (prof : profile) (number_of_links : jarray Z) (link_length : jarray T) (hinge_mass : jarray T) (nondimensional_potential_distance : jarray T) (nondimensional_potential_stiffness : jarray T) (temperature : jarray T),
     jl_fjc_modified_canonical.nondimensional_helmholtz_free_energy prof number_of_links link_length hinge_mass nondimensional_potential_distance nondimensional_potential_stiffness temperature
     = broadcast [UInt8; Float64; Float64; Float64; Float64; Float64] (fun number_of_links link_length hinge_mass nondimensional_potential_distance nondimensional_potential_stiffness temperature =>
         Finished (fjc_modified_canonical.nondimensional_helmholtz_free_energy prof number_of_links link_length hinge_mass nondimensional_potential_distance nondimensional_potential_stiffness temperature)) number_of_links link_length hinge_mass nondimensional_potential_distance nondimensional_potential_stiffness temperature.
Proof. reflexivity. Qed.

Lemma F_fjc_modified_canonical_nondimensional_helmholtz_free_energy_per_link : forall (T : Type) (Sc : Scalar T) (prof : profile) (number_of_links : jarray Z) (link_length : jarray T) (hinge_mass : jarray T) (nondimensional_potential_distance : jarray T) (nondimensional_potential_stiffness : jarray T) (temperature : jarray T),
     jl_fjc_modified_canonical.nondimensional_helmholtz_free_energy_per_link prof number_of_links link_length hinge_mass nondimensional_potential_distance nondimensional_potential_stiffness temperature
     = broadcast [UInt8; Float64; Float64; Float64; Float64; Float64] (fun number_of_links link_length hinge_mass nondimensional_potential_distance nondimensional_potential_stiffness temperature =>
         Finished (fjc_modified_canonical.nondimensional_helmholtz_free_energy_per_link prof number_of_links link_length hinge_mass nondimensional_potential_distance nondimensional_potential_stiffness temperature)) number_of_links link_length hinge_mass nondimensional_potential_distance nondimensional_potential_stiffness temperature.
Proof. reflexivity. Qed.

Lemma F_fjc_modified_canonical_nondimensional_relative_helmholtz_free_energy : forall (T : Type) (Sc : Scalar T) (prof : profile) (number_of_links : jarray Z) (nondimensional_potential_distance : jarray T) (nondimensional_potential_stiffness : jarray T),
     jl_fjc_modified_canonical.nondimensional_relative_helmholtz_free_energy prof number_of_links nondimensional_potential_distance nondimensional_potential_stiffness
     = broadcast [UInt8; Float64; Float64] (fun number_of_links nondimensional_potential_distance nondimensional_potential_stiffness =>
         Finished (fjc_modified_canonical.nondimensional_relative_helmholtz_free_energy prof number_of_links nondimensional_potential_distance nondimensional_potential_stiffness)) number_of_links nondimensional_potential_distance nondimensional_potential_stiffness.
Proof. reflexivity. Qed.

Lemma F_fjc_modified_canonical_nondimensional_relative_helmholtz_free_energy_per_link : forall (T : Type) (Sc : Scalar T) (prof : profile) (number_of_links : jarray Z) (nondimensional_potential_distance : jarray T) (nondimensional_potential_stiffness : jarray T),
     jl_fjc_modified_canonical.nondimensional_relative_helmholtz_free_energy_per_link prof number_of_links nondimensional_potential_distance nondimensional_potential_stiffness
     = broadcast [UInt8; Float64; Float64] (fun number_of_links nondimensional_potential_distance nondimensional_potential_stiffness =>
         Finished (fjc_modified_canonical.nondimensional_relative_helmholtz_free_energy_per_link prof number_of_links nondimensional_potential_distance nondimensional_potential_stiffness)) number_of_links nondimensional_potential_distance nondimensional_potential_stiffness.
Proof. reflexivity. Qed.

Lemma F_fjc_modified_canonical_gibbs_free_energy : forall (T : Type) (Sc : Scalar T) (prof : profile) (number_of_links : jarray Z) (link_length : jarray T) (hinge_mass : jarray T) (potential_distance : jarray T) (potential_stiffness : jarray T) (temperature : jarray T),
     jl_fjc_modified_canonical.gibbs_free_energy prof number_of_links link_length hinge_mass potential_distance potential_stiffness temperature
     = broadcast [UInt8; Float64; Float64; Float64; Float64; Float64] (fun number_of_links link_length hinge_mass potential_distance potential_stiffness temperature =>
         Finished (fjc_modified_canonical.gibbs_free_energy prof number_of_links link_length hinge_mass potential_distance potential_stiffness temperature)) number_of_links link_length hinge_mass potential_distance potential_stiffness temperature.
Proof. reflexivity. Qed.

Lemma F_fjc_modified_canonical_gibbs_free_energy_per_link : forall (T : Type) (Sc : Scalar T) (prof : profile) (number_of_links : jarray Z) (link_length : jarray T) (hinge_mass : jarray T) (potential_distance : jarray T) (potential_stiffness : jarray T) (temperature : jarray T),
     jl_fjc_modified_canonical.gibbs_free_energy_per_link prof number_of_links link_length hinge_mass potential_distance potential_stiffness temperature
     = broadcast [UInt8; Float64; Float64; Float64; Float64; Float64] (fun number_of_links link_length hinge_mass potential_distance potential_stiffness temperature =>
         Finished (fjc_modified_canonical.gibbs_free_energy_per_link prof number_of_links link_length hinge_mass potential_distance potential_stiffness temperature)) number_of_links link_length hinge_mass potential_distance potential_stiffness temperature.
Proof. reflexivity. Qed.

Lemma F_fjc_modified_canonical_relative_gibbs_free_energy : forall (T : Type) (Sc : Scalar T) (prof : profile) (number_of_links : jarray Z) (link_length : jarray T) (potential_distance : jarray T) (potential_stiffness : jarray T) (temperature : jarray T),
     jl_fjc_modified_canonical.relative_gibbs_free_energy prof number_of_links link_length potential_distance potential_stiffness temperature
     = broadcast [UInt8; Float64; Float64; Float64; Float64] (fun number_of_links link_length potential_distance potential_stiffness temperature =>
         Finished (fjc_modified_canonical.relative_gibbs_free_energy prof number_of_links link_length potential_distance potential_stiffness temperature)) number_of_links link_length potential_distance potential_stiffness temperature.
Proof. reflexivity. Qed.

Lemma F_fjc_modified_canonical_relative_gibbs_free_energy_per_link : forall (T : Type) (Sc : Scalar T) (prof : profile) (number_of_links : jarray Z) (link_length : jarray T) (potential_distance : jarray T) (potential_stiffness : jarray T) (temperature : jarray T),
     jl_fjc_modified_canonical.relative_gibbs_free_energy_per_link prof number_of_links link_length potential_distance potential_stiffness temperature
     = broadcast [UInt8; Float64; Float64; Float64; Float64] (fun number_of_links link_length potential_distance potential_stiffness temperature =>
         Finished (fjc_modified_canonical.relative_gibbs_free_energy_per_link prof number_of_links link_length potential_distance potential_stiffness temperature)) number_of_links link_length potential_distance potential_stiffness temperature.
Proof. reflexivity. Qed.

Lemma F_fjc_modified_canonical_nondimensional_gibbs_free_energy : forall (T : Type) (Sc : Scalar T) (prof : profile) (number_of_links : jarray Z) (link_length : jarray T) (hinge_mass : jarray T) (nondimensional_potential_distance : jarray T) (nondimensional_potential_stiffness : jarray T) (temperature : jarray T),
     jl_fjc_modified_canonical.nondimensional_gibbs_free_energy prof number_of_links link_length hinge_mass nondimensional_potential_distance nondimensional_potential_stiffness temperature
     = broadcast [UInt8; Float64; Float64; Float64; Float64; Float64] (fun number_of_links link_length hinge_mass nondimensional_potential_distance nondimensional_potential_stiffness temperature =>
         Finished (fjc_modified_canonical.nondimensional_gibbs_free_energy prof number_of_links link_length hinge_mass nondimensional_potential_distance nondimensional_potential_stiffness temperature)) number_of_links link_length hinge_mass nondimensional_potential_distance nondimensional_potential_stiffness temperature.
Proof. reflexivity. Qed.

Lemma F_fjc_modified_canonical_nondimensional_gibbs_free_energy_per_link : forall (T : Type) (Sc : Scalar T) (prof : profile) (number_of_links : jarray Z) (link_length : jarray T) (hinge_mass : jarray T) (nondimensional_potential_distance : jarray T) (nondimensional_potential_stiffness : jarray T) (temperature : jarray T),
     jl_fjc_modified_canonical.nondimensional_gibbs_free_energy_per_link prof number_of_links link_length hinge_mass nondimensional_potential_distance nondimensional_potential_stiffness temperature
     = broadcast [UInt8; Float64; Float64; Float64; Float64; Float64] (fun number_of_links link_length hinge_mass nondimensional_potential_distance nondimensional_potential_stiffness temperature =>
         Finished (fjc_modified_canonical.nondimensional_gibbs_free_energy_per_link prof number_of_links link_length hinge_mass nondimensional_potential_distance nondimensional_potential_stiffness temperature)) number_of_links link_length hinge_mass nondimensional_potential_distance nondimensional_potential_stiffness temperature.
Proof. reflexivity. Qed.

Lemma F_fjc_modified_canonical_nondimensional_relative_gibbs_free_energy : forall (T : Type) (Sc : Scalar T) (prof : profile) (number_of_links : jarray Z) (nondimensional_potential_distance : jarray T) (nondimensional_potential_stiffness : jarray T),
     jl_fjc_modified_canonical.nondimensional_relative_gibbs_free_energy prof number_of_links nondimensional_potential_distance nondimensional_potential_stiffness
     = broadcast [UInt8; Float64; Float64] (fun number_of_links nondimensional_potential_distance nondimensional_potential_stiffness =>
         Finished (fjc_modified_canonical.nondimensional_relative_gibbs_free_energy prof number_of_links nondimensional_potential_distance nondimensional_potential_stiffness)) number_of_links nondimensional_potential_distance nondimensional_potential_stiffness.
Proof. reflexivity. Qed.

Lemma F_fjc_modified_canonical_nondimensional_relative_gibbs_free_energy_per_link : forall (T : Type) (Sc : Scalar T) (prof : profile) (number_of_links : jarray Z) (nondimensional_potential_distance : jarray T) (nondimensional_potential_stiffness : jarray T),
     jl_fjc_modified_canonical.nondimensional_relative_gibbs_free_energy_per_link prof number_of_links nondimensional_potential_distance nondimensional_potential_stiffness
     = broadcast [UInt8; Float64; Float64] (fun number_of_links nondimensional_potential_distance nondimensional_potential_stiffness =>
         Finished (fjc_modified_canonical.nondimensional_relative_gibbs_free_energy_per_link prof number_of_links nondimensional_potential_distance nondimensional_potential_stiffness)) number_of_links nondimensional_potential_distance nondimensional_potential_stiffness.
Proof. reflexivity. Qed.

Lemma F_ideal_isometric_force : forall (T : Type) (Sc : Scalar T) (number_of_links : jarray Z) (link_length : jarray T) (end_to_end_length : jarray T) (temperature : jarray T),
     jl_ideal_isometric.force number_of_links link_length end_to_end_length temperature
     = broadcast [UInt8; Float64; Float64; Float64] (fun number_of_links link_length end_to_end_length temperature =>
         Finished (Some (ideal_isometric.force number_of_links link_length end_to_end_length temperature))) number_of_links link_length end_to_end_length temperature.
Proof. reflexivity. Qed.

Lemma F_ideal_isometric_nondimensional_force : forall (T : Type) (Sc : Scalar T) (nondimensional_end_to_end_length_per_link : jarray T),
     jl_ideal_isometric.nondimensional_force nondimensional_end_to_end_length_per_link
     = broadcast [Float64] (fun nondimensional_end_to_end_length_per_link =>
         Finished (Some (ideal_isometric.nondimensional_force nondimensional_end_to_end_length_per_link))) nondimensional_end_to_end_length_per_link.
Proof. reflexivity. Qed.

Lemma F_ideal_isometric_helmholtz_free_energy : forall (T : Type) (Sc : Scalar T) (number_of_links : jarray Z) (link_length : jarray T) (hinge_mass : jarray T) (end_to_end_length : jarray T) (temperature : jarray T),
     jl_ideal_isometric.helmholtz_free_energy number_of_links link_length hinge_mass end_to_end_length temperature
     = broadcast [UInt8; Float64; Float64; Float64; Float64] (fun number_of_links link_length hinge_mass end_to_end_length temperature =>
         Finished (Some (ideal_isometric.helmholtz_free_energy number_of_links link_length hinge_mass end_to_end_length temperature))) number_of_links link_length hinge_mass end_to_end_length temperature.
Proof. reflexivity. Qed.

Lemma F_ideal_isometric_helmholtz_free_energy_per_link : forall (T : Type) (Sc : Scalar T) (number_of_links : jarray Z) (link_length : jarray T) (hinge_mass : jarray T) (end_to_end_length : jarray T) (temperature : jarray T),
     jl_ideal_isometric.helmholtz_free_energy_per_link number_of_links link_length hinge_mass end_to_end_length temperature
     = broadcast [UInt8; Float64; Float64; Float64; Float64] (fun number_of_links link_length hinge_mass end_to_end_length temperature =>
         Finished (Some (ideal_isometric.helmholtz_free_energy_per_link number_of_links link_length hinge_mass end_to_end_length temperature))) number_of_links link_length hinge_mass end_to_end_length temperature.
Proof. reflexivity. Qed.

Lemma F_ideal_isometric_relative_helmholtz_free_energy : forall (T : Type) (Sc : Scalar T) (number_of_links : jarray Z) (link_length : jarray T) (end_to_end_length : jarray T) (temperature : jarray T),
     jl_ideal_isometric.relative_helmholtz_free_energy number_of_links link_length end_to_end_length temperature
     = broadcast [UInt8; Float64; Float64; Float64] (fun number_of_links link_length end_to_end_length temperature =>
         Finished (Some (ideal_isometric.relative_helmholtz_free_energy number_of_links link_length end_to_end_length temperature))) number_of_links link_length end_to_end_length temperature.
Proof. reflexivity. Qed.

Lemma F_ideal_isometric_relative_helmholtz_free_energy_per_link : forall (T : Type) (Sc : Scalar T) (number_of_links : jarray Z) (link_length : jarray T) (end_to_end_length : jarray T) (temperature : jarray T),
     jl_ideal_isometric.relative_helmholtz_free_energy_per_link number_of_links link_length end_to_end_length temperature
     = broadcast [UInt8; Float64; Float64; Float64] (fun number_of_links link_length end_to_end_length temperature =>
         Finished (Some (ideal_isometric.relative_helmholtz_free_energy_per_link number_of_links link_length end_to_end_length temperature))) number_of_links link_length end_to_end_length temperature.
Proof. reflexivity. Qed.

Lemma F_ideal_isometric_nondimensional_helmholtz_free_energy : forall (T : Type) (Sc : Scalar T) (number_of_links : jarray Z) (link_length : jarray T) (hinge_mass : jarray T) (nondimensional_end_to_end_length_per_link : jarray T) (temperature : jarray T),
     jl_ideal_isometric.nondimensional_helmholtz_free_energy number_of_links link_length hinge_mass nondimensional_end_to_end_length_per_link temperature
     = broadcast [UInt8; Float64; Float64; Float64; Float64] (fun number_of_links link_length hinge_mass nondimensional_end_to_end_length_per_link temperature =>
         Finished (Some (ideal_isometric.nondimensional_helmholtz_free_energy number_of_links link_length hinge_mass nondimensional_end_to_end_length_per_link temperature))) number_of_links link_length hinge_mass nondimensional_end_to_end_length_per_link temperature.
Proof. reflexivity. Qed.

Lemma F_ideal_isometric_nondimensional_helmholtz_free_energy_per_link : forall (T : Type) (Sc : Scalar T) (link_length : jarray T) (hinge_mass : jarray T) (nondimensional_end_to_end_length_per_link : jarray T) (temperature : jarray T),
     jl_ideal_isometric.nondimensional_helmholtz_free_energy_per_link link_length hinge_mass nondimensional_end_to_end_length_per_link temperature
     = broadcast [Float64; Float64; Float64; Float64] (fun link_length hinge_mass nondimensional_end_to_end_length_per_link temperature =>
         Finished (Some (ideal_isometric.nondimensional_helmholtz_free_energy_per_link link_length hinge_mass nondimensional_end_to_end_length_per_link temperature))) link_length hinge_mass nondimensional_end_to_end_length_per_link temperature.
Proof. reflexivity. Qed.

Lemma F_ideal_isometric_nondimensional_relative_helmholtz_free_energy : forall (T : Type) (Sc : Scalar T) (number_of_links : jarray Z) (nondimensional_end_to_end_length_per_link : jarray T),
     jl_ideal_isometric.nondimensional_relative_helmholtz_free_energy number_of_links nondimensional_end_to_end_length_per_link
     = broadcast [UInt8; Float64] (fun number_of_links nondimensional_end_to_end_length_per_link =>
         Finished (Some (ideal_isometric.nondimensional_relative_helmholtz_free_energy number_of_links nondimensional_end_to_end_length_per_link))) number_of_links nondimensional_end_to_end_length_per_link.
Proof. reflexivity. Qed.

Lemma F_ideal_isometric_nondimensional_relative_helmholtz_free_energy_per_link : forall (T : Type) (Sc : Scalar T) (nondimensional_end_to_end_length_per_link : jarray T),
     jl_ideal_isometric.nondimensional_relative_helmholtz_free_energy_per_link nondimensional_end_to_end_length_per_link
     = broadcast [Float64] (fun nondimensional_end_to_end_length_per_link =>
         Finished (Some (ideal_isometric.nondimensional_relative_helmholtz_free_energy_per_link nondimensional_end_to_end_length_per_link))) nondimensional_end_to_end_length_per_link.
Proof. reflexivity. Qed.

Lemma F_ideal_isometric_equilibrium_distribution : forall (T : Type) (Sc : Scalar T) (number_of_links : jarray Z) (link_length : jarray T) (end_to_end_length : jarray T),
     jl_ideal_isometric.equilibrium_distribution number_of_links link_length end_to_end_length
     = broadcast [UInt8; Float64; Float64] (fun number_of_links link_length end_to_end_length =>
         Finished (Some (ideal_isometric.equilibrium_distribution number_of_links link_length end_to_end_length))) number_of_links link_length end_to_end_length.
Proof. reflexivity. Qed.

Lemma F_ideal_isometric_nondimensional_equilibrium_distribution : forall (T : Type) (Sc : Scalar T) (number_of_links : jarray Z) (nondimensional_end_to_end_length_per_link : jarray T),
     jl_ideal_isometric.nondimensional_equilibrium_distribution number_of_links nondimensional_end_to_end_length_per_link
     = broadcast [UInt8; Float64] (fun number_of_links nondimensional_end_to_end_length_per_link =>
         Finished (Some (ideal_isometric.nondimensional_equilibrium_distribution number_of_links nondimensional_end_to_end_length_per_link))) number_of_links nondimensional_end_to_end_length_per_link.
Proof. reflexivity. Qed.

Lemma F_ideal_isometric_equilibrium_radial_distribution : forall (T : Type) (Sc : Scalar T) (number_of_links : jarray Z) (link_length : jarray T) (end_to_end_length : jarray T),
     jl_ideal_isometric.equilibrium_radial_distribution number_of_links link_length end_to_end_length
     = broadcast [UInt8; Float64; Float64] (fun number_of_links link_length end_to_end_length =>
         Finished (Some (ideal_isometric.equilibrium_radial_distribution number_of_links link_length end_to_end_length))) number_of_links link_length end_to_end_length.
Proof. reflexivity. Qed.

Lemma F_ideal_isometric_nondimensional_equilibrium_radial_distribution : forall (T : Type) (Sc : Scalar T) (number_of_links : jarray Z) (nondimensional_end_to_end_length_per_link : jarray T),
     jl_ideal_isometric.nondimensional_equilibrium_radial_distribution number_of_links nondimensional_end_to_end_length_per_link
     = broadcast [UInt8; Float64] (fun number_of_links nondimensional_end_to_end_length_per_link =>
         Finished (Some (ideal_isometric.nondimensional_equilibrium_radial_distribution number_of_links nondimensional_end_to_end_length_per_link))) number_of_links nondimensional_end_to_end_length_per_link.
Proof. reflexivity. Qed.

Lemma F_ideal_isotensional_end_to_end_length : forall (T : Type) (Sc : Scalar T) (number_of_links : jarray Z) (link_length : jarray T) (force : jarray T) (temperature : jarray T),
     jl_ideal_isotensional.end_to_end_length number_of_links link_length force temperature
     = broadcast [UInt8; Float64; Float64; Float64] (fun number_of_links link_length force temperature =>
         Finished (Some (ideal_isotensional.end_to_end_length number_of_links link_length force temperature))) number_of_links link_length force temperature.
Proof. reflexivity. Qed.

Lemma F_ideal_isotensional_end_to_end_length_per_link : forall (T : Type) (Sc : Scalar T) (link_length : jarray T) (force : jarray T) (temperature : jarray T),
     jl_ideal_isotensional.end_to_end_length_per_link link_length force temperature
     = broadcast [Float64; Float64; Float64] (fun link_length force temperature =>
         Finished (Some (ideal_isotensional.end_to_end_length_per_link link_length force temperature))) link_length force temperature.
Proof. reflexivity. Qed.

Lemma F_ideal_isotensional_nondimensional_end_to_end_length : forall (T : Type) (Sc : Scalar T) (number_of_links : jarray Z) (nondimensional_force : jarray T),
     jl_ideal_isotensional.nondimensional_end_to_end_length number_of_links nondimensional_force
     = broadcast [UInt8; Float64] (fun number_of_links nondimensional_force =>
         Finished (Some (ideal_isotensional.nondimensional_end_to_end_length number_of_links nondimensional_force))) number_of_links nondimensional_force.
Proof. reflexivity. Qed.

Lemma F_ideal_isotensional_nondimensional_end_to_end_length_per_link : forall (T : Type) (Sc : Scalar T) (nondimensional_force : jarray T),
     jl_ideal_isotensional.nondimensional_end_to_end_length_per_link nondimensional_force
     = broadcast [Float64] (fun nondimensional_force =>
         Finished (Some (ideal_isotensional.nondimensional_end_to_end_length_per_link nondimensional_force))) nondimensional_force.
Proof. reflexivity. Qed.

Lemma F_ideal_isotensional_gibbs_free_energy : forall (T : Type) (Sc : Scalar T) (number_of_links : jarray Z) (link_length : jarray T) (hinge_mass : jarray T) (force : jarray T) (temperature : jarray T),
     jl_ideal_isotensional.gibbs_free_energy number_of_links link_length hinge_mass force temperature
     = broadcast [UInt8; Float64; Float64; Float64; Float64] (fun number_of_links link_length hinge_mass force temperature =>
         Finished (Some (ideal_isotensional.gibbs_free_energy number_of_links link_length hinge_mass force temperature))) number_of_links link_length hinge_mass force temperature.
Proof. reflexivity. Qed.

Lemma F_ideal_isotensional_gibbs_free_energy_per_link : forall (T : Type) (Sc : Scalar T) (link_length : jarray T) (hinge_mass : jarray T) (force : jarray T) (temperature : jarray T),
     jl_ideal_isotensional.gibbs_free_energy_per_link link_length hinge_mass force temperature
     = broadcast [Float64; Float64; Float64; Float64] (fun link_length hinge_mass force temperature =>
         Finished (Some (ideal_isotensional.gibbs_free_energy_per_link link_length hinge_mass force temperature))) link_length hinge_mass force temperature.
Proof. reflexivity. Qed.

Lemma F_ideal_isotensional_relative_gibbs_free_energy : forall (T : Type) (Sc : Scalar T) (number_of_links : jarray Z) (link_length : jarray T) (force : jarray T) (temperature : jarray T),
     jl_ideal_isotensional.relative_gibbs_free_energy number_of_links link_length force temperature
     = broadcast [UInt8; Float64; Float64; Float64] (fun number_of_links link_length force temperature =>
         Finished (Some (ideal_isotensional.relative_gibbs_free_energy number_of_links link_length force temperature))) number_of_links link_length force temperature.
Proof. reflexivity. Qed.

Lemma F_ideal_isotensional_relative_gibbs_free_energy_per_link : forall (T : Type) (Sc : Scalar T) (link_length : jarray T) (force : jarray T) (temperature : jarray T),
     jl_ideal_isotensional.relative_gibbs_free_energy_per_link link_length force temperature
     = broadcast [Float64; Float64; Float64] (fun link_length force temperature =>
         Finished (Some (ideal_isotensional.relative_gibbs_free_energy_per_link link_length force temperature))) link_length force temperature.
Proof. reflexivity. Qed.

Lemma F_ideal_isotensional_nondimensional_gibbs_free_energy : forall (T : Type) (Sc : Scalar T) (number_of_links : jarray Z) (link_length : jarray T) (hinge_mass : jarray T) (nondimensional_force : jarray T) (temperature : jarray T),
     jl_ideal_isotensional.nondimensional_gibbs_free_energy number_of_links link_length hinge_mass nondimensional_force temperature
     = broadcast [UInt8; Float64; Float64; Float64; Float64] (fun number_of_links link_length hinge_mass nondimensional_force temperature =>
         Finished (Some (ideal_isotensional.nondimensional_gibbs_free_energy number_of_links link_length hinge_mass nondimensional_force temperature))) number_of_links link_length hinge_mass nondimensional_force temperature.
Proof. reflexivity. Qed.

Lemma F_ideal_isotensional_nondimensional_gibbs_free_energy_per_link : forall (T : Type) (Sc : Scalar T) (link_length : jarray T) (hinge_mass : jarray T) (nondimensional_force : jarray T) (temperature : jarray T),
     jl_ideal_isotensional.nondimensional_gibbs_free_energy_per_link link_length hinge_mass nondimensional_force temperature
     = broadcast [Float64; Float64; Float64; Float64] (fun link_length hinge_mass nondimensional_force temperature =>
         Finished (Some (ideal_isotensional.nondimensional_gibbs_free_energy_per_link link_length hinge_mass nondimensional_force temperature))) link_length hinge_mass nondimensional_force temperature.
Proof. reflexivity. Qed.

Lemma F_ideal_isotensional_nondimensional_relative_gibbs_free_energy : forall (T : Type) (Sc : Scalar T) (number_of_links : jarray Z) (nondimensional_force : jarray T),
     jl_ideal_isotensional.nondimensional_relative_gibbs_free_energy number_of_links nondimensional_force
     = broadcast [UInt8; Float64] (fun number_of_links nondimensional_force =>
         Finished (Some (ideal_isotensional.nondimensional_relative_gibbs_free_energy number_of_links nondimensional_force))) number_of_links nondimensional_force.
Proof. reflexivity. Qed.

Lemma F_ideal_isotensional_nondimensional_relative_gibbs_free_energy_per_link : forall (T : Type) (Sc : Scalar T) (nondimensional_force : jarray T),
     jl_ideal_isotensional.nondimensional_relative_gibbs_free_energy_per_link nondimensional_force
     = broadcast [Float64] (fun nondimensional_force =>
         Finished (Some (ideal_isotensional.nondimensional_relative_gibbs_free_energy_per_link nondimensional_force))) nondimensional_force.
Proof. reflexivity. Qed.

Lemma F_swfjc_isotensional_end_to_end_length : forall (T : Type) (Sc : Scalar T) (number_of_links : jarray Z) (link_length : jarray T) (well_width : jarray T) (force : jarray T) (temperature : jarray T),
     jl_swfjc_isotensional.end_to_end_length number_of_links link_length well_width force temperature
     = broadcast [UInt8; Float64; Float64; Float64; Float64] (fun number_of_links link_length well_width force temperature =>
         Finished (Some (swfjc_isotensional.end_to_end_length number_of_links link_length well_width force temperature))) number_of_links link_length well_width force temperature.
Proof. reflexivity. Qed.

Lemma F_swfjc_isotensional_end_to_end_length_per_link : forall (T : Type) (Sc : Scalar T) (link_length : jarray T) (well_width : jarray T) (force : jarray T) (temperature : jarray T),
     jl_swfjc_isotensional.end_to_end_length_per_link link_length well_width force temperature
     = broadcast [Float64; Float64; Float64; Float64] (fun link_length well_width force temperature =>
         Finished (Some (swfjc_isotensional.end_to_end_length_per_link link_length well_width force temperature))) link_length well_width force temperature.
Proof. reflexivity. Qed.

Lemma F_swfjc_isotensional_nondimensional_end_to_end_length : forall (T : Type) (Sc : Scalar T) (number_of_links : jarray Z) (link_length : jarray T) (well_width : jarray T) (nondimensional_force : jarray T),
     jl_swfjc_isotensional.nondimensional_end_to_end_length number_of_links link_length well_width nondimensional_force
     = broadcast [UInt8; Float64; Float64; Float64] (fun number_of_links link_length well_width nondimensional_force =>
         Finished (Some (swfjc_isotensional.nondimensional_end_to_end_length number_of_links link_length well_width nondimensional_force))) number_of_links link_length well_width nondimensional_force.
Proof. reflexivity. Qed.

Lemma F_swfjc_isotensional_nondimensional_end_to_end_length_per_link : forall (T : Type) (Sc : Scalar T) (link_length : jarray T) (well_width : jarray T) (nondimensional_force : jarray T),
     jl_swfjc_isotensional.nondimensional_end_to_end_length_per_link link_length well_width nondimensional_force
     = broadcast [Float64; Float64; Float64] (fun link_length well_width nondimensional_force =>
         Finished (Some (swfjc_isotensional.nondimensional_end_to_end_length_per_link link_length well_width nondimensional_force))) link_length well_width nondimensional_force.
Proof. reflexivity. Qed.

Lemma F_swfjc_isotensional_gibbs_free_energy : forall (T : Type) (Sc : Scalar T) (number_of_links : jarray Z) (link_length : jarray T) (hinge_mass : jarray T) (well_width : jarray T) (force : jarray T) (temperature : jarray T),
     jl_swfjc_isotensional.gibbs_free_energy number_of_links link_length hinge_mass well_width force temperature
     = broadcast [UInt8; Float64; Float64; Float64; Float64; Float64] (fun number_of_links link_length hinge_mass well_width force temperature =>
         Finished (Some (swfjc_isotensional.gibbs_free_energy number_of_links link_length hinge_mass well_width force temperature))) number_of_links link_length hinge_mass well_width force temperature.
Proof. reflexivity. Qed.

Lemma F_swfjc_isotensional_gibbs_free_energy_per_link : forall (T : Type) (Sc : Scalar T) (link_length : jarray T) (hinge_mass : jarray T) (well_width : jarray T) (force : jarray T) (temperature : jarray T),
     jl_swfjc_isotensional.gibbs_free_energy_per_link link_length hinge_mass well_width force temperature
     = broadcast [Float64; Float64; Float64; Float64; Float64] (fun link_length hinge_mass well_width force temperature =>
         Finished (Some (swfjc_isotensional.gibbs_free_energy_per_link link_length hinge_mass well_width force temperature))) link_length hinge_mass well_width force temperature.
Proof. reflexivity. Qed.

Lemma F_swfjc_isotensional_relative_gibbs_free_energy : forall (T : Type) (Sc : Scalar T) (number_of_links : jarray Z) (link_length : jarray T) (well_width : jarray T) (force : jarray T) (temperature : jarray T),
     jl_swfjc_isotensional.relative_gibbs_free_energy number_of_links link_length well_width force temperature
     = broadcast [UInt8; Float64; Float64; Float64; Float64] (fun number_of_links link_length well_width force temperature =>
         Finished (Some (swfjc_isotensional.relative_gibbs_free_energy number_of_links link_length well_width force temperature))) number_of_links link_length well_width force temperature.
Proof. reflexivity. Qed.

Lemma F_swfjc_isotensional_relative_gibbs_free_energy_per_link : forall (T : Type) (Sc : Scalar T) (link_length : jarray T) (well_width : jarray T) (force : jarray T) (temperature : jarray T),
     jl_swfjc_isotensional.relative_gibbs_free_energy_per_link link_length well_width force temperature
     = broadcast [Float64; Float64; Float64; Float64] (fun link_length well_width force temperature =>
         Finished (Some (swfjc_isotensional.relative_gibbs_free_energy_per_link link_length well_width force temperature))) link_length well_width force temperature.
Proof. reflexivity. Qed.

Lemma F_swfjc_isotensional_nondimensional_gibbs_free_energy : forall (T : Type) (Sc : Scalar T) (number_of_links : jarray Z) (link_length : jarray T) (hinge_mass : jarray T) (well_width : jarray T) (nondimensional_force : jarray T) (temperature : jarray T),
     jl_swfjc_isotensional.nondimensional_gibbs_free_energy number_of_links link_length hinge_mass well_width nondimensional_force temperature
     = broadcast [UInt8; Float64; Float64; Float64; Float64; Float64] (fun number_of_links link_length hinge_mass well_width nondimensional_force temperature =>
         Finished (Some (swfjc_isotensional.nondimensional_gibbs_free_energy number_of_links link_length hinge_mass well_width nondimensional_force temperature))) number_of_links link_length hinge_mass well_width nondimensional_force temperature.
Proof. reflexivity. Qed.

Lemma F_swfjc_isotensional_nondimensional_gibbs_free_energy_per_link : forall (T : Type) (Sc : Scalar T) (link_length : jarray T) (hinge_mass : jarray T) (well_width : jarray T) (nondimensional_force : jarray T) (temperature : jarray T),
     jl_swfjc_isotensional.nondimensional_gibbs_free_energy_per_link link_length hinge_mass well_width nondimensional_force temperature
     = broadcast [Float64; Float64; Float64; Float64; Float64] (fun link_length hinge_mass well_width nondimensional_force temperature =>
         Finished (Some (swfjc_isotensional.nondimensional_gibbs_free_energy_per_link link_length hinge_mass well_width nondimensional_force temperature))) link_length hinge_mass well_width nondimensional_force temperature.
Proof. reflexivity. Qed.

Lemma F_swfjc_isotensional_nondimensional_relative_gibbs_free_energy : forall (T : Type) (Sc : Scalar T) (number_of_links : jarray Z) (link_length : jarray T) (well_width : jarray T) (nondimensional_force : jarray T),
     jl_swfjc_isotensional.nondimensional_relative_gibbs_free_energy number_of_links link_length well_width nondimensional_force
     = broadcast [UInt8; Float64; Float64; Float64] (fun number_of_links link_length well_width nondimensional_force =>
         Finished (Some (swfjc_isotensional.nondimensional_relative_gibbs_free_energy number_of_links link_length well_width nondimensional_force))) number_of_links link_length well_width nondimensional_force.
Proof. reflexivity. Qed.

Lemma F_swfjc_isotensional_nondimensional_relative_gibbs_free_energy_per_link : forall (T : Type) (Sc : Scalar T) (link_length : jarray T) (well_width : jarray T) (nondimensional_force : jarray T),
     jl_swfjc_isotensional.nondimensional_relative_gibbs_free_energy_per_link link_length well_width nondimensional_force
     = broadcast [Float64; Float64; Float64] (fun link_length well_width nondimensional_force =>
         Finished (Some (swfjc_isotensional.nondimensional_relative_gibbs_free_energy_per_link link_length well_width nondimensional_force))) link_length well_width nondimensional_force.
Proof. reflexivity. Qed.

Lemma F_wlc_isometric_force : forall (T : Type) (Sc : Scalar T) (number_of_links : jarray Z) (link_length : jarray T) (persistance_length : jarray T) (end_to_end_length : jarray T) (temperature : jarray T),
     jl_wlc_isometric.force number_of_links link_length persistance_length end_to_end_length temperature
     = broadcast [UInt8; Float64; Float64; Float64; Float64] (fun number_of_links link_length persistance_length end_to_end_length temperature =>
         Finished (Some (wlc_isometric.force number_of_links link_length persistance_length end_to_end_length temperature))) number_of_links link_length persistance_length end_to_end_length temperature.
Proof. reflexivity. Qed.

Lemma F_wlc_isometric_nondimensional_force : forall (T : Type) (Sc : Scalar T) (number_of_links : jarray Z) (nondimensional_persistance_length : jarray T) (nondimensional_end_to_end_length_per_link : jarray T),
     jl_wlc_isometric.nondimensional_force number_of_links nondimensional_persistance_length nondimensional_end_to_end_length_per_link
     = broadcast [UInt8; Float64; Float64] (fun number_of_links nondimensional_persistance_length nondimensional_end_to_end_length_per_link =>
         Finished (Some (wlc_isometric.nondimensional_force number_of_links nondimensional_persistance_length nondimensional_end_to_end_length_per_link))) number_of_links nondimensional_persistance_length nondimensional_end_to_end_length_per_link.
Proof. reflexivity. Qed.

Lemma F_wlc_isometric_helmholtz_free_energy : forall (T : Type) (Sc : Scalar T) (number_of_links : jarray Z) (link_length : jarray T) (hinge_mass : jarray T) (persistance_length : jarray T) (end_to_end_length : jarray T) (temperature : jarray T),
     jl_wlc_isometric.helmholtz_free_energy number_of_links link_length hinge_mass persistance_length end_to_end_length temperature
     = broadcast [UInt8; Float64; Float64; Float64; Float64; Float64] (fun number_of_links link_length hinge_mass persistance_length end_to_end_length temperature =>
         Finished (Some (wlc_isometric.helmholtz_free_energy number_of_links link_length hinge_mass persistance_length end_to_end_length temperature))) number_of_links link_length hinge_mass persistance_length end_to_end_length temperature.
Proof. reflexivity. Qed.

Lemma F_wlc_isometric_helmholtz_free_energy_per_link : forall (T : Type) (Sc : Scalar T) (number_of_links : jarray Z) (link_length : jarray T) (hinge_mass : jarray T) (persistance_length : jarray T) (end_to_end_length : jarray T) (temperature : jarray T),
     jl_wlc_isometric.helmholtz_free_energy_per_link number_of_links link_length hinge_mass persistance_length end_to_end_length temperature
     = broadcast [UInt8; Float64; Float64; Float64; Float64; Float64] (fun number_of_links link_length hinge_mass persistance_length end_to_end_length temperature =>
         Finished (Some (wlc_isometric.helmholtz_free_energy_per_link number_of_links link_length hinge_mass persistance_length end_to_end_length temperature))) number_of_links link_length hinge_mass persistance_length end_to_end_length temperature.
Proof. reflexivity. Qed.

Lemma F_wlc_isometric_relative_helmholtz_free_energy : forall (T : Type) (Sc : Scalar T) (number_of_links : jarray Z) (link_length : jarray T) (persistance_length : jarray T) (end_to_end_length : jarray T) (temperature : jarray T),
     jl_wlc_isometric.relative_helmholtz_free_energy number_of_links link_length persistance_length end_to_end_length temperature
     = broadcast [UInt8; Float64; Float64; Float64; Float64] (fun number_of_links link_length persistance_length end_to_end_length temperature =>
         Finished (Some (wlc_isometric.relative_helmholtz_free_energy number_of_links link_length persistance_length end_to_end_length temperature))) number_of_links link_length persistance_length end_to_end_length temperature.
Proof. reflexivity. Qed.

Lemma F_wlc_isometric_relative_helmholtz_free_energy_per_link : forall (T : Type) (Sc : Scalar T) (number_of_links : jarray Z) (link_length : jarray T) (persistance_length : jarray T) (end_to_end_length : jarray T) (temperature : jarray T),
     jl_wlc_isometric.relative_helmholtz_free_energy_per_link number_of_links link_length persistance_length end_to_end_length temperature
     = broadcast [UInt8; Float64; Float64; Float64; Float64] (fun number_of_links link_length persistance_length end_to_end_length temperature =>
         Finished (Some (wlc_isometric.relative_helmholtz_free_energy_per_link number_of_links link_length persistance_length end_to_end_length temperature))) number_of_links link_length persistance_length end_to_end_length temperature.
Proof. reflexivity. Qed.

Lemma F_wlc_isometric_nondimensional_helmholtz_free_energy : forall (T : Type) (Sc : Scalar T) (number_of_links : jarray Z) (link_length : jarray T) (hinge_mass : jarray T) (nondimensional_persistance_length : jarray T) (nondimensional_end_to_end_length_per_link : jarray T) (temperature : jarray T),
     jl_wlc_isometric.nondimensional_helmholtz_free_energy number_of_links link_length hinge_mass nondimensional_persistance_length nondimensional_end_to_end_length_per_link temperature
     = broadcast [UInt8; Float64; Float64; Float64; Float64; Float64] (fun number_of_links link_length hinge_mass nondimensional_persistance_length nondimensional_end_to_end_length_per_link temperature =>
         Finished (Some (wlc_isometric.nondimensional_helmholtz_free_energy number_of_links link_length hinge_mass nondimensional_persistance_length nondimensional_end_to_end_length_per_link temperature))) number_of_links link_length hinge_mass nondimensional_persistance_length nondimensional_end_to_end_length_per_link temperature.
Proof. reflexivity. Qed.

Lemma F_wlc_isometric_nondimensional_helmholtz_free_energy_per_link : forall (T : Type) (Sc : Scalar T) (number_of_links : jarray Z) (link_length : jarray T) (hinge_mass : jarray T) (nondimensional_persistance_length : jarray T) (nondimensional_end_to_end_length_per_link : jarray T) (temperature : jarray T),
     jl_wlc_isometric.nondimensional_helmholtz_free_energy_per_link number_of_links link_length hinge_mass nondimensional_persistance_length nondimensional_end_to_end_length_per_link temperature
     = broadcast [UInt8; Float64; Float64; Float64; Float64; Float64] (fun number_of_links link_length hinge_mass nondimensional_persistance_length nondimensional_end_to_end_length_per_link temperature =>
         Finished (Some (wlc_isometric.nondimensional_helmholtz_free_energy_per_link number_of_links link_length hinge_mass nondimensional_persistance_length nondimensional_end_to_end_length_per_link temperature))) number_of_links link_length hinge_mass nondimensional_persistance_length nondimensional_end_to_end_length_per_link temperature.
Proof. reflexivity. Qed.

Lemma F_wlc_isometric_nondimensional_relative_helmholtz_free_energy : forall (T : Type) (Sc : Scalar T) (nondimensional_persistance_length : jarray T) (nondimensional_end_to_end_length_per_link : jarray T),
     jl_wlc_isometric.nondimensional_relative_helmholtz_free_energy nondimensional_persistance_length nondimensional_end_to_end_length_per_link
     = broadcast [Float64; Float64] (fun nondimensional_persistance_length nondimensional_end_to_end_length_per_link =>
         Finished (Some (wlc_isometric.nondimensional_relative_helmholtz_free_energy nondimensional_persistance_length nondimensional_end_to_end_length_per_link))) nondimensional_persistance_length nondimensional_end_to_end_length_per_link.
Proof. reflexivity. Qed.

Lemma F_wlc_isometric_nondimensional_relative_helmholtz_free_energy_per_link : forall (T : Type) (Sc : Scalar T) (number_of_links : jarray Z) (nondimensional_persistance_length : jarray T) (nondimensional_end_to_end_length_per_link : jarray T),
     jl_wlc_isometric.nondimensional_relative_helmholtz_free_energy_per_link number_of_links nondimensional_persistance_length nondimensional_end_to_end_length_per_link
     = broadcast [UInt8; Float64; Float64] (fun number_of_links nondimensional_persistance_length nondimensional_end_to_end_length_per_link =>
         Finished (Some (wlc_isometric.nondimensional_relative_helmholtz_free_energy_per_link number_of_links nondimensional_persistance_length nondimensional_end_to_end_length_per_link))) number_of_links nondimensional_persistance_length nondimensional_end_to_end_length_per_link.
Proof. reflexivity. Qed.

Lemma F_wlc_isometric_equilibrium_distribution : forall (T : Type) (Sc : Scalar T) (number_of_links : jarray Z) (link_length : jarray T) (persistance_length : jarray T) (normalization_nondimensional_equilibrium_distribution : T) (end_to_end_length : jarray T),
     jl_wlc_isometric.equilibrium_distribution number_of_links link_length persistance_length normalization_nondimensional_equilibrium_distribution end_to_end_length
     = broadcast [UInt8; Float64; Float64; Float64] (fun number_of_links link_length persistance_length end_to_end_length =>
         Finished (Some (wlc_isometric.equilibrium_distribution number_of_links link_length persistance_length normalization_nondimensional_equilibrium_distribution end_to_end_length))) number_of_links link_length persistance_length end_to_end_length.
Proof. reflexivity. Qed.

Lemma F_wlc_isometric_equilibrium_radial_distribution : forall (T : Type) (Sc : Scalar T) (number_of_links : jarray Z) (link_length : jarray T) (persistance_length : jarray T) (normalization_nondimensional_equilibrium_distribution : T) (end_to_end_length : jarray T),
     jl_wlc_isometric.equilibrium_radial_distribution number_of_links link_length persistance_length normalization_nondimensional_equilibrium_distribution end_to_end_length
     = broadcast [UInt8; Float64; Float64; Float64] (fun number_of_links link_length persistance_length end_to_end_length =>
         Finished (Some (wlc_isometric.equilibrium_radial_distribution number_of_links link_length persistance_length normalization_nondimensional_equilibrium_distribution end_to_end_length))) number_of_links link_length persistance_length end_to_end_length.
Proof. reflexivity. Qed.

Lemma F_wlc_isotensional_end_to_end_length : forall (T : Type) (Sc : Scalar T) (number_of_links : jarray Z) (link_length : jarray T) (persistance_length : jarray T) (force : jarray T) (temperature : jarray T),
     jl_wlc_isotensional.end_to_end_length number_of_links link_length persistance_length force temperature
     = broadcast [UInt8; Float64; Float64; Float64; Float64] (fun number_of_links link_length persistance_length force temperature =>
         Finished (wlc_isotensional.end_to_end_length number_of_links link_length persistance_length force temperature)) number_of_links link_length persistance_length force temperature.
Proof. reflexivity. Qed.

Lemma F_wlc_isotensional_end_to_end_length_per_link : forall (T : Type) (Sc : Scalar T) (number_of_links : jarray Z) (link_length : jarray T) (persistance_length : jarray T) (force : jarray T) (temperature : jarray T),
     jl_wlc_isotensional.end_to_end_length_per_link number_of_links link_length persistance_length force temperature
     = broadcast [UInt8; Float64; Float64; Float64; Float64] (fun number_of_links link_length persistance_length force temperature =>
         Finished (wlc_isotensional.end_to_end_length_per_link number_of_links link_length persistance_length force temperature)) number_of_links link_length persistance_length force temperature.
Proof. reflexivity. Qed.

Lemma F_wlc_isotensional_nondimensional_end_to_end_length : forall (T : Type) (Sc : Scalar T) (number_of_links : jarray Z) (nondimensional_persistance_length : jarray T) (nondimensional_force : jarray T),
     jl_wlc_isotensional.nondimensional_end_to_end_length number_of_links nondimensional_persistance_length nondimensional_force
     = broadcast [UInt8; Float64; Float64] (fun number_of_links nondimensional_persistance_length nondimensional_force =>
         Finished (wlc_isotensional.nondimensional_end_to_end_length number_of_links nondimensional_persistance_length nondimensional_force)) number_of_links nondimensional_persistance_length nondimensional_force.
Proof. reflexivity. Qed.

Lemma F_wlc_isotensional_nondimensional_end_to_end_length_per_link : forall (T : Type) (Sc : Scalar T) (number_of_links : jarray Z) (nondimensional_persistance_length : jarray T) (nondimensional_force : jarray T),
     jl_wlc_isotensional.nondimensional_end_to_end_length_per_link number_of_links nondimensional_persistance_length nondimensional_force
     = broadcast [UInt8; Float64; Float64] (fun number_of_links nondimensional_persistance_length nondimensional_force =>
         Finished (wlc_isotensional.nondimensional_end_to_end_length_per_link number_of_links nondimensional_persistance_length nondimensional_force)) number_of_links nondimensional_persistance_length nondimensional_force.
Proof. reflexivity. Qed.

Lemma F_wlc_isotensional_gibbs_free_energy : forall (T : Type) (Sc : Scalar T) (number_of_links : jarray Z) (link_length : jarray T) (hinge_mass : jarray T) (persistance_length : jarray T) (force : jarray T) (temperature : jarray T),
     jl_wlc_isotensional.gibbs_free_energy number_of_links link_length hinge_mass persistance_length force temperature
     = broadcast [UInt8; Float64; Float64; Float64; Float64; Float64] (fun number_of_links link_length hinge_mass persistance_length force temperature =>
         Finished (wlc_isotensional.gibbs_free_energy number_of_links link_length hinge_mass persistance_length force temperature)) number_of_links link_length hinge_mass persistance_length force temperature.
Proof. reflexivity. Qed.

Lemma F_wlc_isotensional_gibbs_free_energy_per_link : forall (T : Type) (Sc : Scalar T) (number_of_links : jarray Z) (link_length : jarray T) (hinge_mass : jarray T) (persistance_length : jarray T) (force : jarray T) (temperature : jarray T),
     jl_wlc_isotensional.gibbs_free_energy_per_link number_of_links link_length hinge_mass persistance_length force temperature
     = broadcast [UInt8; Float64; Float64; Float64; Float64; Float64] (fun number_of_links link_length hinge_mass persistance_length force temperature =>
         Finished (wlc_isotensional.gibbs_free_energy_per_link number_of_links link_length hinge_mass persistance_length force temperature)) number_of_links link_length hinge_mass persistance_length force temperature.
Proof. reflexivity. Qed.

Lemma F_wlc_isotensional_relative_gibbs_free_energy : forall (T : Type) (Sc : Scalar T) (number_of_links : jarray Z) (link_length : jarray T) (persistance_length : jarray T) (force : jarray T) (temperature : jarray T),
     jl_wlc_isotensional.relative_gibbs_free_energy number_of_links link_length persistance_length force temperature
     = broadcast [UInt8; Float64; Float64; Float64; Float64] (fun number_of_links link_length persistance_length force temperature =>
         Finished (wlc_isotensional.relative_gibbs_free_energy number_of_links link_length persistance_length force temperature)) number_of_links link_length persistance_length force temperature.
Proof. reflexivity. Qed.

Lemma F_wlc_isotensional_relative_gibbs_free_energy_per_link : forall (T : Type) (Sc : Scalar T) (number_of_links : jarray Z) (link_length : jarray T) (persistance_length : jarray T) (force : jarray T) (temperature : jarray T),
     jl_wlc_isotensional.relative_gibbs_free_energy_per_link number_of_links link_length persistance_length force temperature
     = broadcast [UInt8; Float64; Float64; Float64; Float64] (fun number_of_links link_length persistance_length force temperature =>
         Finished (wlc_isotensional.relative_gibbs_free_energy_per_link number_of_links link_length persistance_length force temperature)) number_of_links link_length persistance_length force temperature.
Proof. reflexivity. Qed.

Lemma F_wlc_isotensional_nondimensional_gibbs_free_energy : forall (T : Type) (Sc : Scalar T) (number_of_links : jarray Z) (link_length : jarray T) (hinge_mass : jarray T) (nondimensional_persistance_length : jarray T) (nondimensional_force : jarray T) (temperature : jarray T),
     jl_wlc_isotensional.nondimensional_gibbs_free_energy number_of_links link_length hinge_mass nondimensional_persistance_length nondimensional_force temperature
     = broadcast [UInt8; Float64; Float64; Float64; Float64; Float64] (fun number_of_links link_length hinge_mass nondimensional_persistance_length nondimensional_force temperature =>
         Finished (wlc_isotensional.nondimensional_gibbs_free_energy number_of_links link_length hinge_mass nondimensional_persistance_length nondimensional_force temperature)) number_of_links link_length hinge_mass nondimensional_persistance_length nondimensional_force temperature.
Proof. reflexivity. Qed.

Lemma F_wlc_isotensional_nondimensional_gibbs_free_energy_per_link : forall (T : Type) (Sc : Scalar T) (number_of_links : jarray Z) (link_length : jarray T) (hinge_mass : jarray T) (nondimensional_persistance_length : jarray T) (nondimensional_force : jarray T) (temperature : jarray T),
     jl_wlc_isotensional.nondimensional_gibbs_free_energy_per_link number_of_links link_length hinge_mass nondimensional_persistance_length nondimensional_force temperature
     = broadcast [UInt8; Float64; Float64; Float64; Float64; Float64] (fun number_of_links link_length hinge_mass nondimensional_persistance_length nondimensional_force temperature =>
         Finished (wlc_isotensional.nondimensional_gibbs_free_energy_per_link number_of_links link_length hinge_mass nondimensional_persistance_length nondimensional_force temperature)) number_of_links link_length hinge_mass nondimensional_persistance_length nondimensional_force temperature.
Proof. reflexivity. Qed.

Lemma F_wlc_isotensional_nondimensional_relative_gibbs_free_energy : forall (T : Type) (Sc : Scalar T) (number_of_links : jarray Z) (nondimensional_persistance_length : jarray T) (nondimensional_force : jarray T),
     jl_wlc_isotensional.nondimensional_relative_gibbs_free_energy number_of_links nondimensional_persistance_length nondimensional_force
     = broadcast [UInt8; Float64; Float64] (fun number_of_links nondimensional_persistance_length nondimensional_force =>
         Finished (wlc_isotensional.nondimensional_relative_gibbs_free_energy number_of_links nondimensional_persistance_length nondimensional_force)) number_of_links nondimensional_persistance_length nondimensional_force.
Proof. reflexivity. Qed.

Lemma F_wlc_isotensional_nondimensional_relative_gibbs_free_energy_per_link : forall (T : Type) (Sc : Scalar T) (number_of_links : jarray Z) (nondimensional_persistance_length : jarray T) (nondimensional_force : jarray T),
     jl_wlc_isotensional.nondimensional_relative_gibbs_free_energy_per_link number_of_links nondimensional_persistance_length nondimensional_force
     = broadcast [UInt8; Float64; Float64] (fun number_of_links nondimensional_persistance_length nondimensional_force =>
         Finished (wlc_isotensional.nondimensional_relative_gibbs_free_energy_per_link number_of_links nondimensional_persistance_length nondimensional_force)) number_of_links nondimensional_persistance_length nondimensional_force.
Proof. reflexivity. Qed.
