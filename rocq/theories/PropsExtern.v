(** C59: the C interface.  The name of every exported symbol is the path of a Rust
    function with `::` replaced by `_`; calling the symbol returns what that function
    returns, whatever the arguments, in every build profile.

    Written by tools/gen_bindings.py, which finds the Rust function from the NAME of the
    symbol and matches its arguments by parameter name.  The theorems range over every
    scalar type, so they hold of binary64 arithmetic as well as of the reals.  *)
Require Import Verif.Scalar Verif.MConst Verif.MMath Verif.MExtern.
Require Import Verif.MIdeal Verif.MFjc Verif.MSwfjc Verif.MEfjc Verif.MMorse Verif.MLennardJones Verif.MLogSquared Verif.MWlc.
Require Import ZArith Reals.

Theorem C59_efjc_isometric_asymptotic_alternative_legendre : forall (T : Type) (Sc : Scalar T),
  (forall (number_of_links : Z) (link_length : T) (link_stiffness : T) (end_to_end_length : T) (temperature : T),
     extern.physics_single_chain_efjc_thermodynamics_isometric_asymptotic_alternative_legendre_force number_of_links link_length link_stiffness end_to_end_length temperature
     = efjc_isometric_asymptotic_alternative_legendre.force number_of_links link_length link_stiffness end_to_end_length temperature)
  /\ (forall (nondimensional_link_stiffness : T) (nondimensional_end_to_end_length_per_link : T),
     extern.physics_single_chain_efjc_thermodynamics_isometric_asymptotic_alternative_legendre_nondimensional_force nondimensional_link_stiffness nondimensional_end_to_end_length_per_link
     = efjc_isometric_asymptotic_alternative_legendre.nondimensional_force nondimensional_link_stiffness nondimensional_end_to_end_length_per_link)
  /\ (forall (number_of_links : Z) (link_length : T) (hinge_mass : T) (link_stiffness : T) (end_to_end_length : T) (temperature : T),
     extern.physics_single_chain_efjc_thermodynamics_isometric_asymptotic_alternative_legendre_helmholtz_free_energy number_of_links link_length hinge_mass link_stiffness end_to_end_length temperature
     = efjc_isometric_asymptotic_alternative_legendre.helmholtz_free_energy number_of_links link_length hinge_mass link_stiffness end_to_end_length temperature)
  /\ (forall (number_of_links : Z) (link_length : T) (hinge_mass : T) (link_stiffness : T) (end_to_end_length : T) (temperature : T),
     extern.physics_single_chain_efjc_thermodynamics_isometric_asymptotic_alternative_legendre_helmholtz_free_energy_per_link number_of_links link_length hinge_mass link_stiffness end_to_end_length temperature
     = efjc_isometric_asymptotic_alternative_legendre.helmholtz_free_energy_per_link number_of_links link_length hinge_mass link_stiffness end_to_end_length temperature)
  /\ (forall (number_of_links : Z) (link_length : T) (link_stiffness : T) (end_to_end_length : T) (temperature : T),
     extern.physics_single_chain_efjc_thermodynamics_isometric_asymptotic_alternative_legendre_relative_helmholtz_free_energy number_of_links link_length link_stiffness end_to_end_length temperature
     = efjc_isometric_asymptotic_alternative_legendre.relative_helmholtz_free_energy number_of_links link_length link_stiffness end_to_end_length temperature)
  /\ (forall (number_of_links : Z) (link_length : T) (link_stiffness : T) (end_to_end_length : T) (temperature : T),
     extern.physics_single_chain_efjc_thermodynamics_isometric_asymptotic_alternative_legendre_relative_helmholtz_free_energy_per_link number_of_links link_length link_stiffness end_to_end_length temperature
     = efjc_isometric_asymptotic_alternative_legendre.relative_helmholtz_free_energy_per_link number_of_links link_length link_stiffness end_to_end_length temperature)
  /\ (forall (number_of_links : Z) (link_length : T) (hinge_mass : T) (nondimensional_link_stiffness : T) (nondimensional_end_to_end_length_per_link : T) (temperature : T),
     extern.physics_single_chain_efjc_thermodynamics_isometric_asymptotic_alternative_legendre_nondimensional_helmholtz_free_energy number_of_links link_length hinge_mass nondimensional_link_stiffness nondimensional_end_to_end_length_per_link temperature
     = efjc_isometric_asymptotic_alternative_legendre.nondimensional_helmholtz_free_energy number_of_links link_length hinge_mass nondimensional_link_stiffness nondimensional_end_to_end_length_per_link temperature)
  /\ (forall (number_of_links : Z) (link_length : T) (hinge_mass : T) (nondimensional_link_stiffness : T) (nondimensional_end_to_end_length_per_link : T) (temperature : T),
     extern.physics_single_chain_efjc_thermodynamics_isometric_asymptotic_alternative_legendre_nondimensional_helmholtz_free_energy_per_link number_of_links link_length hinge_mass nondimensional_link_stiffness nondimensional_end_to_end_length_per_link temperature
     = efjc_isometric_asymptotic_alternative_legendre.nondimensional_helmholtz_free_energy_per_link number_of_links link_length hinge_mass nondimensional_link_stiffness nondimensional_end_to_end_length_per_link temperature)
  /\ (forall (number_of_links : Z) (nondimensional_link_stiffness : T) (nondimensional_end_to_end_length_per_link : T),
     extern.physics_single_chain_efjc_thermodynamics_isometric_asymptotic_alternative_legendre_nondimensional_relative_helmholtz_free_energy number_of_links nondimensional_link_stiffness nondimensional_end_to_end_length_per_link
     = efjc_isometric_asymptotic_alternative_legendre.nondimensional_relative_helmholtz_free_energy number_of_links nondimensional_link_stiffness nondimensional_end_to_end_length_per_link)
  /\ (forall (nondimensional_link_stiffness : T) (nondimensional_end_to_end_length_per_link : T),
     extern.physics_single_chain_efjc_thermodynamics_isometric_asymptotic_alternative_legendre_nondimensional_relative_helmholtz_free_energy_per_link nondimensional_link_stiffness nondimensional_end_to_end_length_per_link
     = efjc_isometric_asymptotic_alternative_legendre.nondimensional_relative_helmholtz_free_energy_per_link nondimensional_link_stiffness nondimensional_end_to_end_length_per_link).
Proof. intros; repeat split. Qed.
Print Assumptions C59_efjc_isometric_asymptotic_alternative_legendre.

Theorem C59_efjc_isometric_asymptotic_legendre : forall (T : Type) (Sc : Scalar T),
  (forall (number_of_links : Z) (link_length : T) (link_stiffness : T) (end_to_end_length : T) (temperature : T),
     extern.physics_single_chain_efjc_thermodynamics_isometric_asymptotic_legendre_force number_of_links link_length link_stiffness end_to_end_length temperature
     = efjc_isometric_asymptotic_legendre.force number_of_links link_length link_stiffness end_to_end_length temperature)
  /\ (forall (nondimensional_link_stiffness : T) (nondimensional_end_to_end_length_per_link : T),
     extern.physics_single_chain_efjc_thermodynamics_isometric_asymptotic_legendre_nondimensional_force nondimensional_link_stiffness nondimensional_end_to_end_length_per_link
     = efjc_isometric_asymptotic_legendre.nondimensional_force nondimensional_link_stiffness nondimensional_end_to_end_length_per_link)
  /\ (forall (number_of_links : Z) (link_length : T) (hinge_mass : T) (link_stiffness : T) (end_to_end_length : T) (temperature : T),
     extern.physics_single_chain_efjc_thermodynamics_isometric_asymptotic_legendre_helmholtz_free_energy number_of_links link_length hinge_mass link_stiffness end_to_end_length temperature
     = efjc_isometric_asymptotic_legendre.helmholtz_free_energy number_of_links link_length hinge_mass link_stiffness end_to_end_length temperature)
  /\ (forall (number_of_links : Z) (link_length : T) (hinge_mass : T) (link_stiffness : T) (end_to_end_length : T) (temperature : T),
     extern.physics_single_chain_efjc_thermodynamics_isometric_asymptotic_legendre_helmholtz_free_energy_per_link number_of_links link_length hinge_mass link_stiffness end_to_end_length temperature
     = efjc_isometric_asymptotic_legendre.helmholtz_free_energy_per_link number_of_links link_length hinge_mass link_stiffness end_to_end_length temperature)
  /\ (forall (number_of_links : Z) (link_length : T) (link_stiffness : T) (end_to_end_length : T) (temperature : T),
     extern.physics_single_chain_efjc_thermodynamics_isometric_asymptotic_legendre_relative_helmholtz_free_energy number_of_links link_length link_stiffness end_to_end_length temperature
     = efjc_isometric_asymptotic_legendre.relative_helmholtz_free_energy number_of_links link_length link_stiffness end_to_end_length temperature)
  /\ (forall (number_of_links : Z) (link_length : T) (link_stiffness : T) (end_to_end_length : T) (temperature : T),
     extern.physics_single_chain_efjc_thermodynamics_isometric_asymptotic_legendre_relative_helmholtz_free_energy_per_link number_of_links link_length link_stiffness end_to_end_length temperature
     = efjc_isometric_asymptotic_legendre.relative_helmholtz_free_energy_per_link number_of_links link_length link_stiffness end_to_end_length temperature)
  /\ (forall (number_of_links : Z) (link_length : T) (hinge_mass : T) (nondimensional_link_stiffness : T) (nondimensional_end_to_end_length_per_link : T) (temperature : T),
     extern.physics_single_chain_efjc_thermodynamics_isometric_asymptotic_legendre_nondimensional_helmholtz_free_energy number_of_links link_length hinge_mass nondimensional_link_stiffness nondimensional_end_to_end_length_per_link temperature
     = efjc_isometric_asymptotic_legendre.nondimensional_helmholtz_free_energy number_of_links link_length hinge_mass nondimensional_link_stiffness nondimensional_end_to_end_length_per_link temperature)
  /\ (forall (number_of_links : Z) (link_length : T) (hinge_mass : T) (nondimensional_link_stiffness : T) (nondimensional_end_to_end_length_per_link : T) (temperature : T),
     extern.physics_single_chain_efjc_thermodynamics_isometric_asymptotic_legendre_nondimensional_helmholtz_free_energy_per_link number_of_links link_length hinge_mass nondimensional_link_stiffness nondimensional_end_to_end_length_per_link temperature
     = efjc_isometric_asymptotic_legendre.nondimensional_helmholtz_free_energy_per_link number_of_links link_length hinge_mass nondimensional_link_stiffness nondimensional_end_to_end_length_per_link temperature)
  /\ (forall (number_of_links : Z) (nondimensional_link_stiffness : T) (nondimensional_end_to_end_length_per_link : T),
     extern.physics_single_chain_efjc_thermodynamics_isometric_asymptotic_legendre_nondimensional_relative_helmholtz_free_energy number_of_links nondimensional_link_stiffness nondimensional_end_to_end_length_per_link
     = efjc_isometric_asymptotic_legendre.nondimensional_relative_helmholtz_free_energy number_of_links nondimensional_link_stiffness nondimensional_end_to_end_length_per_link)
  /\ (forall (nondimensional_link_stiffness : T) (nondimensional_end_to_end_length_per_link : T),
     extern.physics_single_chain_efjc_thermodynamics_isometric_asymptotic_legendre_nondimensional_relative_helmholtz_free_energy_per_link nondimensional_link_stiffness nondimensional_end_to_end_length_per_link
     = efjc_isometric_asymptotic_legendre.nondimensional_relative_helmholtz_free_energy_per_link nondimensional_link_stiffness nondimensional_end_to_end_length_per_link).
Proof. intros; repeat split. Qed.
Print Assumptions C59_efjc_isometric_asymptotic_legendre.

Theorem C59_efjc_isometric_asymptotic_reduced_legendre : forall (T : Type) (Sc : Scalar T),
  (forall (number_of_links : Z) (link_length : T) (link_stiffness : T) (end_to_end_length : T) (temperature : T),
     extern.physics_single_chain_efjc_thermodynamics_isometric_asymptotic_reduced_legendre_force number_of_links link_length link_stiffness end_to_end_length temperature
     = efjc_isometric_asymptotic_reduced_legendre.force number_of_links link_length link_stiffness end_to_end_length temperature)
  /\ (forall (nondimensional_link_stiffness : T) (nondimensional_end_to_end_length_per_link : T),
     extern.physics_single_chain_efjc_thermodynamics_isometric_asymptotic_reduced_legendre_nondimensional_force nondimensional_link_stiffness nondimensional_end_to_end_length_per_link
     = efjc_isometric_asymptotic_reduced_legendre.nondimensional_force nondimensional_link_stiffness nondimensional_end_to_end_length_per_link)
  /\ (forall (number_of_links : Z) (link_length : T) (hinge_mass : T) (link_stiffness : T) (end_to_end_length : T) (temperature : T),
     extern.physics_single_chain_efjc_thermodynamics_isometric_asymptotic_reduced_legendre_helmholtz_free_energy number_of_links link_length hinge_mass link_stiffness end_to_end_length temperature
     = efjc_isometric_asymptotic_reduced_legendre.helmholtz_free_energy number_of_links link_length hinge_mass link_stiffness end_to_end_length temperature)
  /\ (forall (number_of_links : Z) (link_length : T) (hinge_mass : T) (link_stiffness : T) (end_to_end_length : T) (temperature : T),
     extern.physics_single_chain_efjc_thermodynamics_isometric_asymptotic_reduced_legendre_helmholtz_free_energy_per_link number_of_links link_length hinge_mass link_stiffness end_to_end_length temperature
     = efjc_isometric_asymptotic_reduced_legendre.helmholtz_free_energy_per_link number_of_links link_length hinge_mass link_stiffness end_to_end_length temperature)
  /\ (forall (number_of_links : Z) (link_length : T) (link_stiffness : T) (end_to_end_length : T) (temperature : T),
     extern.physics_single_chain_efjc_thermodynamics_isometric_asymptotic_reduced_legendre_relative_helmholtz_free_energy number_of_links link_length link_stiffness end_to_end_length temperature
     = efjc_isometric_asymptotic_reduced_legendre.relative_helmholtz_free_energy number_of_links link_length link_stiffness end_to_end_length temperature)
  /\ (forall (number_of_links : Z) (link_length : T) (link_stiffness : T) (end_to_end_length : T) (temperature : T),
     extern.physics_single_chain_efjc_thermodynamics_isometric_asymptotic_reduced_legendre_relative_helmholtz_free_energy_per_link number_of_links link_length link_stiffness end_to_end_length temperature
     = efjc_isometric_asymptotic_reduced_legendre.relative_helmholtz_free_energy_per_link number_of_links link_length link_stiffness end_to_end_length temperature)
  /\ (forall (number_of_links : Z) (link_length : T) (hinge_mass : T) (nondimensional_link_stiffness : T) (nondimensional_end_to_end_length_per_link : T) (temperature : T),
     extern.physics_single_chain_efjc_thermodynamics_isometric_asymptotic_reduced_legendre_nondimensional_helmholtz_free_energy number_of_links link_length hinge_mass nondimensional_link_stiffness nondimensional_end_to_end_length_per_link temperature
     = efjc_isometric_asymptotic_reduced_legendre.nondimensional_helmholtz_free_energy number_of_links link_length hinge_mass nondimensional_link_stiffness nondimensional_end_to_end_length_per_link temperature)
  /\ (forall (number_of_links : Z) (link_length : T) (hinge_mass : T) (nondimensional_link_stiffness : T) (nondimensional_end_to_end_length_per_link : T) (temperature : T),
     extern.physics_single_chain_efjc_thermodynamics_isometric_asymptotic_reduced_legendre_nondimensional_helmholtz_free_energy_per_link number_of_links link_length hinge_mass nondimensional_link_stiffness nondimensional_end_to_end_length_per_link temperature
     = efjc_isometric_asymptotic_reduced_legendre.nondimensional_helmholtz_free_energy_per_link number_of_links link_length hinge_mass nondimensional_link_stiffness nondimensional_end_to_end_length_per_link temperature)
  /\ (forall (number_of_links : Z) (nondimensional_link_stiffness : T) (nondimensional_end_to_end_length_per_link : T),
     extern.physics_single_chain_efjc_thermodynamics_isometric_asymptotic_reduced_legendre_nondimensional_relative_helmholtz_free_energy number_of_links nondimensional_link_stiffness nondimensional_end_to_end_length_per_link
     = efjc_isometric_asymptotic_reduced_legendre.nondimensional_relative_helmholtz_free_energy number_of_links nondimensional_link_stiffness nondimensional_end_to_end_length_per_link)
  /\ (forall (nondimensional_link_stiffness : T) (nondimensional_end_to_end_length_per_link : T),
     extern.physics_single_chain_efjc_thermodynamics_isometric_asymptotic_reduced_legendre_nondimensional_relative_helmholtz_free_energy_per_link nondimensional_link_stiffness nondimensional_end_to_end_length_per_link
     = efjc_isometric_asymptotic_reduced_legendre.nondimensional_relative_helmholtz_free_energy_per_link nondimensional_link_stiffness nondimensional_end_to_end_length_per_link).
Proof. intros; repeat split. Qed.
Print Assumptions C59_efjc_isometric_asymptotic_reduced_legendre.

Theorem C59_efjc_isotensional : forall (T : Type) (Sc : Scalar T),
  (forall (number_of_links : Z) (link_length : T) (link_stiffness : T) (force : T) (temperature : T),
     extern.physics_single_chain_efjc_thermodynamics_isotensional_end_to_end_length number_of_links link_length link_stiffness force temperature
     = efjc_isotensional.end_to_end_length number_of_links link_length link_stiffness force temperature)
  /\ (forall (link_length : T) (link_stiffness : T) (force : T) (temperature : T),
     extern.physics_single_chain_efjc_thermodynamics_isotensional_end_to_end_length_per_link link_length link_stiffness force temperature
     = efjc_isotensional.end_to_end_length_per_link link_length link_stiffness force temperature)
  /\ (forall (number_of_links : Z) (nondimensional_link_stiffness : T) (nondimensional_force : T),
     extern.physics_single_chain_efjc_thermodynamics_isotensional_nondimensional_end_to_end_length number_of_links nondimensional_link_stiffness nondimensional_force
     = efjc_isotensional.nondimensional_end_to_end_length number_of_links nondimensional_link_stiffness nondimensional_force)
  /\ (forall (nondimensional_link_stiffness : T) (nondimensional_force : T),
     extern.physics_single_chain_efjc_thermodynamics_isotensional_nondimensional_end_to_end_length_per_link nondimensional_link_stiffness nondimensional_force
     = efjc_isotensional.nondimensional_end_to_end_length_per_link nondimensional_link_stiffness nondimensional_force)
  /\ (forall (number_of_links : Z) (link_length : T) (hinge_mass : T) (link_stiffness : T) (force : T) (temperature : T),
     extern.physics_single_chain_efjc_thermodynamics_isotensional_gibbs_free_energy number_of_links link_length hinge_mass link_stiffness force temperature
     = efjc_isotensional.gibbs_free_energy number_of_links link_length hinge_mass link_stiffness force temperature)
  /\ (forall (link_length : T) (hinge_mass : T) (link_stiffness : T) (force : T) (temperature : T),
     extern.physics_single_chain_efjc_thermodynamics_isotensional_gibbs_free_energy_per_link link_length hinge_mass link_stiffness force temperature
     = efjc_isotensional.gibbs_free_energy_per_link link_length hinge_mass link_stiffness force temperature)
  /\ (forall (number_of_links : Z) (link_length : T) (link_stiffness : T) (force : T) (temperature : T),
     extern.physics_single_chain_efjc_thermodynamics_isotensional_relative_gibbs_free_energy number_of_links link_length link_stiffness force temperature
     = efjc_isotensional.relative_gibbs_free_energy number_of_links link_length link_stiffness force temperature)
  /\ (forall (link_length : T) (link_stiffness : T) (force : T) (temperature : T),
     extern.physics_single_chain_efjc_thermodynamics_isotensional_relative_gibbs_free_energy_per_link link_length link_stiffness force temperature
     = efjc_isotensional.relative_gibbs_free_energy_per_link link_length link_stiffness force temperature)
  /\ (forall (number_of_links : Z) (link_length : T) (hinge_mass : T) (nondimensional_link_stiffness : T) (nondimensional_force : T) (temperature : T),
     extern.physics_single_chain_efjc_thermodynamics_isotensional_nondimensional_gibbs_free_energy number_of_links link_length hinge_mass nondimensional_link_stiffness nondimensional_force temperature
     = efjc_isotensional.nondimensional_gibbs_free_energy number_of_links link_length hinge_mass nondimensional_link_stiffness nondimensional_force temperature)
  /\ (forall (link_length : T) (hinge_mass : T) (nondimensional_link_stiffness : T) (nondimensional_force : T) (temperature : T),
     extern.physics_single_chain_efjc_thermodynamics_isotensional_nondimensional_gibbs_free_energy_per_link link_length hinge_mass nondimensional_link_stiffness nondimensional_force temperature
     = efjc_isotensional.nondimensional_gibbs_free_energy_per_link link_length hinge_mass nondimensional_link_stiffness nondimensional_force temperature)
  /\ (forall (number_of_links : Z) (nondimensional_link_stiffness : T) (nondimensional_force : T),
     extern.physics_single_chain_efjc_thermodynamics_isotensional_nondimensional_relative_gibbs_free_energy number_of_links nondimensional_link_stiffness nondimensional_force
     = efjc_isotensional.nondimensional_relative_gibbs_free_energy number_of_links nondimensional_link_stiffness nondimensional_force)
  /\ (forall (nondimensional_link_stiffness : T) (nondimensional_force : T),
     extern.physics_single_chain_efjc_thermodynamics_isotensional_nondimensional_relative_gibbs_free_energy_per_link nondimensional_link_stiffness nondimensional_force
     = efjc_isotensional.nondimensional_relative_gibbs_free_energy_per_link nondimensional_link_stiffness nondimensional_force).
Proof. intros; repeat split. Qed.
Print Assumptions C59_efjc_isotensional.

Theorem C59_efjc_isotensional_asymptotic : forall (T : Type) (Sc : Scalar T),
  (forall (number_of_links : Z) (link_length : T) (link_stiffness : T) (force : T) (temperature : T),
     extern.physics_single_chain_efjc_thermodynamics_isotensional_asymptotic_end_to_end_length number_of_links link_length link_stiffness force temperature
     = efjc_isotensional_asymptotic.end_to_end_length number_of_links link_length link_stiffness force temperature)
  /\ (forall (link_length : T) (link_stiffness : T) (force : T) (temperature : T),
     extern.physics_single_chain_efjc_thermodynamics_isotensional_asymptotic_end_to_end_length_per_link link_length link_stiffness force temperature
     = efjc_isotensional_asymptotic.end_to_end_length_per_link link_length link_stiffness force temperature)
  /\ (forall (number_of_links : Z) (nondimensional_link_stiffness : T) (nondimensional_force : T),
     extern.physics_single_chain_efjc_thermodynamics_isotensional_asymptotic_nondimensional_end_to_end_length number_of_links nondimensional_link_stiffness nondimensional_force
     = efjc_isotensional_asymptotic.nondimensional_end_to_end_length number_of_links nondimensional_link_stiffness nondimensional_force)
  /\ (forall (nondimensional_link_stiffness : T) (nondimensional_force : T),
     extern.physics_single_chain_efjc_thermodynamics_isotensional_asymptotic_nondimensional_end_to_end_length_per_link nondimensional_link_stiffness nondimensional_force
     = efjc_isotensional_asymptotic.nondimensional_end_to_end_length_per_link nondimensional_link_stiffness nondimensional_force)
  /\ (forall (number_of_links : Z) (link_length : T) (hinge_mass : T) (link_stiffness : T) (force : T) (temperature : T),
     extern.physics_single_chain_efjc_thermodynamics_isotensional_asymptotic_gibbs_free_energy number_of_links link_length hinge_mass link_stiffness force temperature
     = efjc_isotensional_asymptotic.gibbs_free_energy number_of_links link_length hinge_mass link_stiffness force temperature)
  /\ (forall (link_length : T) (hinge_mass : T) (link_stiffness : T) (force : T) (temperature : T),
     extern.physics_single_chain_efjc_thermodynamics_isotensional_asymptotic_gibbs_free_energy_per_link link_length hinge_mass link_stiffness force temperature
     = efjc_isotensional_asymptotic.gibbs_free_energy_per_link link_length hinge_mass link_stiffness force temperature)
  /\ (forall (number_of_links : Z) (link_length : T) (link_stiffness : T) (force : T) (temperature : T),
     extern.physics_single_chain_efjc_thermodynamics_isotensional_asymptotic_relative_gibbs_free_energy number_of_links link_length link_stiffness force temperature
     = efjc_isotensional_asymptotic.relative_gibbs_free_energy number_of_links link_length link_stiffness force temperature)
  /\ (forall (link_length : T) (link_stiffness : T) (force : T) (temperature : T),
     extern.physics_single_chain_efjc_thermodynamics_isotensional_asymptotic_relative_gibbs_free_energy_per_link link_length link_stiffness force temperature
     = efjc_isotensional_asymptotic.relative_gibbs_free_energy_per_link link_length link_stiffness force temperature)
  /\ (forall (number_of_links : Z) (link_length : T) (hinge_mass : T) (nondimensional_link_stiffness : T) (nondimensional_force : T) (temperature : T),
     extern.physics_single_chain_efjc_thermodynamics_isotensional_asymptotic_nondimensional_gibbs_free_energy number_of_links link_length hinge_mass nondimensional_link_stiffness nondimensional_force temperature
     = efjc_isotensional_asymptotic.nondimensional_gibbs_free_energy number_of_links link_length hinge_mass nondimensional_link_stiffness nondimensional_force temperature)
  /\ (forall (link_length : T) (hinge_mass : T) (nondimensional_link_stiffness : T) (nondimensional_force : T) (temperature : T),
     extern.physics_single_chain_efjc_thermodynamics_isotensional_asymptotic_nondimensional_gibbs_free_energy_per_link link_length hinge_mass nondimensional_link_stiffness nondimensional_force temperature
     = efjc_isotensional_asymptotic.nondimensional_gibbs_free_energy_per_link link_length hinge_mass nondimensional_link_stiffness nondimensional_force temperature)
  /\ (forall (number_of_links : Z) (nondimensional_link_stiffness : T) (nondimensional_force : T),
     extern.physics_single_chain_efjc_thermodynamics_isotensional_asymptotic_nondimensional_relative_gibbs_free_energy number_of_links nondimensional_link_stiffness nondimensional_force
     = efjc_isotensional_asymptotic.nondimensional_relative_gibbs_free_energy number_of_links nondimensional_link_stiffness nondimensional_force)
  /\ (forall (nondimensional_link_stiffness : T) (nondimensional_force : T),
     extern.physics_single_chain_efjc_thermodynamics_isotensional_asymptotic_nondimensional_relative_gibbs_free_energy_per_link nondimensional_link_stiffness nondimensional_force
     = efjc_isotensional_asymptotic.nondimensional_relative_gibbs_free_energy_per_link nondimensional_link_stiffness nondimensional_force).
Proof. intros; repeat split. Qed.
Print Assumptions C59_efjc_isotensional_asymptotic.

Theorem C59_efjc_isotensional_asymptotic_alternative : forall (T : Type) (Sc : Scalar T),
  (forall (number_of_links : Z) (link_length : T) (link_stiffness : T) (force : T) (temperature : T),
     extern.physics_single_chain_efjc_thermodynamics_isotensional_asymptotic_alternative_end_to_end_length number_of_links link_length link_stiffness force temperature
     = efjc_isotensional_asymptotic_alternative.end_to_end_length number_of_links link_length link_stiffness force temperature)
  /\ (forall (link_length : T) (link_stiffness : T) (force : T) (temperature : T),
     extern.physics_single_chain_efjc_thermodynamics_isotensional_asymptotic_alternative_end_to_end_length_per_link link_length link_stiffness force temperature
     = efjc_isotensional_asymptotic_alternative.end_to_end_length_per_link link_length link_stiffness force temperature)
  /\ (forall (number_of_links : Z) (nondimensional_link_stiffness : T) (nondimensional_force : T),
     extern.physics_single_chain_efjc_thermodynamics_isotensional_asymptotic_alternative_nondimensional_end_to_end_length number_of_links nondimensional_link_stiffness nondimensional_force
     = efjc_isotensional_asymptotic_alternative.nondimensional_end_to_end_length number_of_links nondimensional_link_stiffness nondimensional_force)
  /\ (forall (nondimensional_link_stiffness : T) (nondimensional_force : T),
     extern.physics_single_chain_efjc_thermodynamics_isotensional_asymptotic_alternative_nondimensional_end_to_end_length_per_link nondimensional_link_stiffness nondimensional_force
     = efjc_isotensional_asymptotic_alternative.nondimensional_end_to_end_length_per_link nondimensional_link_stiffness nondimensional_force)
  /\ (forall (number_of_links : Z) (link_length : T) (hinge_mass : T) (link_stiffness : T) (force : T) (temperature : T),
     extern.physics_single_chain_efjc_thermodynamics_isotensional_asymptotic_alternative_gibbs_free_energy number_of_links link_length hinge_mass link_stiffness force temperature
     = efjc_isotensional_asymptotic_alternative.gibbs_free_energy number_of_links link_length hinge_mass link_stiffness force temperature)
  /\ (forall (link_length : T) (hinge_mass : T) (link_stiffness : T) (force : T) (temperature : T),
     extern.physics_single_chain_efjc_thermodynamics_isotensional_asymptotic_alternative_gibbs_free_energy_per_link link_length hinge_mass link_stiffness force temperature
     = efjc_isotensional_asymptotic_alternative.gibbs_free_energy_per_link link_length hinge_mass link_stiffness force temperature)
  /\ (forall (number_of_links : Z) (link_length : T) (link_stiffness : T) (force : T) (temperature : T),
     extern.physics_single_chain_efjc_thermodynamics_isotensional_asymptotic_alternative_relative_gibbs_free_energy number_of_links link_length link_stiffness force temperature
     = efjc_isotensional_asymptotic_alternative.relative_gibbs_free_energy number_of_links link_length link_stiffness force temperature)
  /\ (forall (link_length : T) (link_stiffness : T) (force : T) (temperature : T),
     extern.physics_single_chain_efjc_thermodynamics_isotensional_asymptotic_alternative_relative_gibbs_free_energy_per_link link_length link_stiffness force temperature
     = efjc_isotensional_asymptotic_alternative.relative_gibbs_free_energy_per_link link_length link_stiffness force temperature)
  /\ (forall (number_of_links : Z) (link_length : T) (hinge_mass : T) (nondimensional_link_stiffness : T) (nondimensional_force : T) (temperature : T),
     extern.physics_single_chain_efjc_thermodynamics_isotensional_asymptotic_alternative_nondimensional_gibbs_free_energy number_of_links link_length hinge_mass nondimensional_link_stiffness nondimensional_force temperature
     = efjc_isotensional_asymptotic_alternative.nondimensional_gibbs_free_energy number_of_links link_length hinge_mass nondimensional_link_stiffness nondimensional_force temperature)
  /\ (forall (link_length : T) (hinge_mass : T) (nondimensional_link_stiffness : T) (nondimensional_force : T) (temperature : T),
     extern.physics_single_chain_efjc_thermodynamics_isotensional_asymptotic_alternative_nondimensional_gibbs_free_energy_per_link link_length hinge_mass nondimensional_link_stiffness nondimensional_force temperature
     = efjc_isotensional_asymptotic_alternative.nondimensional_gibbs_free_energy_per_link link_length hinge_mass nondimensional_link_stiffness nondimensional_force temperature)
  /\ (forall (number_of_links : Z) (nondimensional_link_stiffness : T) (nondimensional_force : T),
     extern.physics_single_chain_efjc_thermodynamics_isotensional_asymptotic_alternative_nondimensional_relative_gibbs_free_energy number_of_links nondimensional_link_stiffness nondimensional_force
     = efjc_isotensional_asymptotic_alternative.nondimensional_relative_gibbs_free_energy number_of_links nondimensional_link_stiffness nondimensional_force)
  /\ (forall (nondimensional_link_stiffness : T) (nondimensional_force : T),
     extern.physics_single_chain_efjc_thermodynamics_isotensional_asymptotic_alternative_nondimensional_relative_gibbs_free_energy_per_link nondimensional_link_stiffness nondimensional_force
     = efjc_isotensional_asymptotic_alternative.nondimensional_relative_gibbs_free_energy_per_link nondimensional_link_stiffness nondimensional_force).
Proof. intros; repeat split. Qed.
Print Assumptions C59_efjc_isotensional_asymptotic_alternative.

Theorem C59_efjc_isotensional_asymptotic_alternative_legendre : forall (T : Type) (Sc : Scalar T),
  (forall (number_of_links : Z) (link_length : T) (hinge_mass : T) (link_stiffness : T) (force : T) (temperature : T),
     extern.physics_single_chain_efjc_thermodynamics_isotensional_asymptotic_alternative_legendre_helmholtz_free_energy number_of_links link_length hinge_mass link_stiffness force temperature
     = efjc_isotensional_asymptotic_alternative_legendre.helmholtz_free_energy number_of_links link_length hinge_mass link_stiffness force temperature)
  /\ (forall (link_length : T) (hinge_mass : T) (link_stiffness : T) (force : T) (temperature : T),
     extern.physics_single_chain_efjc_thermodynamics_isotensional_asymptotic_alternative_legendre_helmholtz_free_energy_per_link link_length hinge_mass link_stiffness force temperature
     = efjc_isotensional_asymptotic_alternative_legendre.helmholtz_free_energy_per_link link_length hinge_mass link_stiffness force temperature)
  /\ (forall (number_of_links : Z) (link_length : T) (link_stiffness : T) (force : T) (temperature : T),
     extern.physics_single_chain_efjc_thermodynamics_isotensional_asymptotic_alternative_legendre_relative_helmholtz_free_energy number_of_links link_length link_stiffness force temperature
     = efjc_isotensional_asymptotic_alternative_legendre.relative_helmholtz_free_energy number_of_links link_length link_stiffness force temperature)
  /\ (forall (link_length : T) (link_stiffness : T) (force : T) (temperature : T),
     extern.physics_single_chain_efjc_thermodynamics_isotensional_asymptotic_alternative_legendre_relative_helmholtz_free_energy_per_link link_length link_stiffness force temperature
     = efjc_isotensional_asymptotic_alternative_legendre.relative_helmholtz_free_energy_per_link link_length link_stiffness force temperature)
  /\ (forall (number_of_links : Z) (link_length : T) (hinge_mass : T) (nondimensional_link_stiffness : T) (nondimensional_force : T) (temperature : T),
     extern.physics_single_chain_efjc_thermodynamics_isotensional_asymptotic_alternative_legendre_nondimensional_helmholtz_free_energy number_of_links link_length hinge_mass nondimensional_link_stiffness nondimensional_force temperature
     = efjc_isotensional_asymptotic_alternative_legendre.nondimensional_helmholtz_free_energy number_of_links link_length hinge_mass nondimensional_link_stiffness nondimensional_force temperature)
  /\ (forall (link_length : T) (hinge_mass : T) (nondimensional_link_stiffness : T) (nondimensional_force : T) (temperature : T),
     extern.physics_single_chain_efjc_thermodynamics_isotensional_asymptotic_alternative_legendre_nondimensional_helmholtz_free_energy_per_link link_length hinge_mass nondimensional_link_stiffness nondimensional_force temperature
     = efjc_isotensional_asymptotic_alternative_legendre.nondimensional_helmholtz_free_energy_per_link link_length hinge_mass nondimensional_link_stiffness nondimensional_force temperature)
  /\ (forall (number_of_links : Z) (nondimensional_link_stiffness : T) (nondimensional_force : T),
     extern.physics_single_chain_efjc_thermodynamics_isotensional_asymptotic_alternative_legendre_nondimensional_relative_helmholtz_free_energy number_of_links nondimensional_link_stiffness nondimensional_force
     = efjc_isotensional_asymptotic_alternative_legendre.nondimensional_relative_helmholtz_free_energy number_of_links nondimensional_link_stiffness nondimensional_force)
  /\ (forall (nondimensional_link_stiffness : T) (nondimensional_force : T),
     extern.physics_single_chain_efjc_thermodynamics_isotensional_asymptotic_alternative_legendre_nondimensional_relative_helmholtz_free_energy_per_link nondimensional_link_stiffness nondimensional_force
     = efjc_isotensional_asymptotic_alternative_legendre.nondimensional_relative_helmholtz_free_energy_per_link nondimensional_link_stiffness nondimensional_force).
Proof. intros; repeat split. Qed.
Print Assumptions C59_efjc_isotensional_asymptotic_alternative_legendre.

Theorem C59_efjc_isotensional_asymptotic_legendre : forall (T : Type) (Sc : Scalar T),
  (forall (number_of_links : Z) (link_length : T) (hinge_mass : T) (link_stiffness : T) (force : T) (temperature : T),
     extern.physics_single_chain_efjc_thermodynamics_isotensional_asymptotic_legendre_helmholtz_free_energy number_of_links link_length hinge_mass link_stiffness force temperature
     = efjc_isotensional_asymptotic_legendre.helmholtz_free_energy number_of_links link_length hinge_mass link_stiffness force temperature)
  /\ (forall (link_length : T) (hinge_mass : T) (link_stiffness : T) (force : T) (temperature : T),
     extern.physics_single_chain_efjc_thermodynamics_isotensional_asymptotic_legendre_helmholtz_free_energy_per_link link_length hinge_mass link_stiffness force temperature
     = efjc_isotensional_asymptotic_legendre.helmholtz_free_energy_per_link link_length hinge_mass link_stiffness force temperature)
  /\ (forall (number_of_links : Z) (link_length : T) (link_stiffness : T) (force : T) (temperature : T),
     extern.physics_single_chain_efjc_thermodynamics_isotensional_asymptotic_legendre_relative_helmholtz_free_energy number_of_links link_length link_stiffness force temperature
     = efjc_isotensional_asymptotic_legendre.relative_helmholtz_free_energy number_of_links link_length link_stiffness force temperature)
  /\ (forall (link_length : T) (link_stiffness : T) (force : T) (temperature : T),
     extern.physics_single_chain_efjc_thermodynamics_isotensional_asymptotic_legendre_relative_helmholtz_free_energy_per_link link_length link_stiffness force temperature
     = efjc_isotensional_asymptotic_legendre.relative_helmholtz_free_energy_per_link link_length link_stiffness force temperature)
  /\ (forall (number_of_links : Z) (link_length : T) (hinge_mass : T) (nondimensional_link_stiffness : T) (nondimensional_force : T) (temperature : T),
     extern.physics_single_chain_efjc_thermodynamics_isotensional_asymptotic_legendre_nondimensional_helmholtz_free_energy number_of_links link_length hinge_mass nondimensional_link_stiffness nondimensional_force temperature
     = efjc_isotensional_asymptotic_legendre.nondimensional_helmholtz_free_energy number_of_links link_length hinge_mass nondimensional_link_stiffness nondimensional_force temperature)
  /\ (forall (link_length : T) (hinge_mass : T) (nondimensional_link_stiffness : T) (nondimensional_force : T) (temperature : T),
     extern.physics_single_chain_efjc_thermodynamics_isotensional_asymptotic_legendre_nondimensional_helmholtz_free_energy_per_link link_length hinge_mass nondimensional_link_stiffness nondimensional_force temperature
     = efjc_isotensional_asymptotic_legendre.nondimensional_helmholtz_free_energy_per_link link_length hinge_mass nondimensional_link_stiffness nondimensional_force temperature)
  /\ (forall (number_of_links : Z) (nondimensional_link_stiffness : T) (nondimensional_force : T),
     extern.physics_single_chain_efjc_thermodynamics_isotensional_asymptotic_legendre_nondimensional_relative_helmholtz_free_energy number_of_links nondimensional_link_stiffness nondimensional_force
     = efjc_isotensional_asymptotic_legendre.nondimensional_relative_helmholtz_free_energy number_of_links nondimensional_link_stiffness nondimensional_force)
  /\ (forall (nondimensional_link_stiffness : T) (nondimensional_force : T),
     extern.physics_single_chain_efjc_thermodynamics_isotensional_asymptotic_legendre_nondimensional_relative_helmholtz_free_energy_per_link nondimensional_link_stiffness nondimensional_force
     = efjc_isotensional_asymptotic_legendre.nondimensional_relative_helmholtz_free_energy_per_link nondimensional_link_stiffness nondimensional_force).
Proof. intros; repeat split. Qed.
Print Assumptions C59_efjc_isotensional_asymptotic_legendre.

Theorem C59_efjc_isotensional_asymptotic_reduced : forall (T : Type) (Sc : Scalar T),
  (forall (number_of_links : Z) (link_length : T) (link_stiffness : T) (force : T) (temperature : T),
     extern.physics_single_chain_efjc_thermodynamics_isotensional_asymptotic_reduced_end_to_end_length number_of_links link_length link_stiffness force temperature
     = efjc_isotensional_asymptotic_reduced.end_to_end_length number_of_links link_length link_stiffness force temperature)
  /\ (forall (link_length : T) (link_stiffness : T) (force : T) (temperature : T),
     extern.physics_single_chain_efjc_thermodynamics_isotensional_asymptotic_reduced_end_to_end_length_per_link link_length link_stiffness force temperature
     = efjc_isotensional_asymptotic_reduced.end_to_end_length_per_link link_length link_stiffness force temperature)
  /\ (forall (number_of_links : Z) (nondimensional_link_stiffness : T) (nondimensional_force : T),
     extern.physics_single_chain_efjc_thermodynamics_isotensional_asymptotic_reduced_nondimensional_end_to_end_length number_of_links nondimensional_link_stiffness nondimensional_force
     = efjc_isotensional_asymptotic_reduced.nondimensional_end_to_end_length number_of_links nondimensional_link_stiffness nondimensional_force)
  /\ (forall (nondimensional_link_stiffness : T) (nondimensional_force : T),
     extern.physics_single_chain_efjc_thermodynamics_isotensional_asymptotic_reduced_nondimensional_end_to_end_length_per_link nondimensional_link_stiffness nondimensional_force
     = efjc_isotensional_asymptotic_reduced.nondimensional_end_to_end_length_per_link nondimensional_link_stiffness nondimensional_force)
  /\ (forall (number_of_links : Z) (link_length : T) (hinge_mass : T) (link_stiffness : T) (force : T) (temperature : T),
     extern.physics_single_chain_efjc_thermodynamics_isotensional_asymptotic_reduced_gibbs_free_energy number_of_links link_length hinge_mass link_stiffness force temperature
     = efjc_isotensional_asymptotic_reduced.gibbs_free_energy number_of_links link_length hinge_mass link_stiffness force temperature)
  /\ (forall (link_length : T) (hinge_mass : T) (link_stiffness : T) (force : T) (temperature : T),
     extern.physics_single_chain_efjc_thermodynamics_isotensional_asymptotic_reduced_gibbs_free_energy_per_link link_length hinge_mass link_stiffness force temperature
     = efjc_isotensional_asymptotic_reduced.gibbs_free_energy_per_link link_length hinge_mass link_stiffness force temperature)
  /\ (forall (number_of_links : Z) (link_length : T) (link_stiffness : T) (force : T) (temperature : T),
     extern.physics_single_chain_efjc_thermodynamics_isotensional_asymptotic_reduced_relative_gibbs_free_energy number_of_links link_length link_stiffness force temperature
     = efjc_isotensional_asymptotic_reduced.relative_gibbs_free_energy number_of_links link_length link_stiffness force temperature)
  /\ (forall (link_length : T) (link_stiffness : T) (force : T) (temperature : T),
     extern.physics_single_chain_efjc_thermodynamics_isotensional_asymptotic_reduced_relative_gibbs_free_energy_per_link link_length link_stiffness force temperature
     = efjc_isotensional_asymptotic_reduced.relative_gibbs_free_energy_per_link link_length link_stiffness force temperature)
  /\ (forall (number_of_links : Z) (link_length : T) (hinge_mass : T) (nondimensional_link_stiffness : T) (nondimensional_force : T) (temperature : T),
     extern.physics_single_chain_efjc_thermodynamics_isotensional_asymptotic_reduced_nondimensional_gibbs_free_energy number_of_links link_length hinge_mass nondimensional_link_stiffness nondimensional_force temperature
     = efjc_isotensional_asymptotic_reduced.nondimensional_gibbs_free_energy number_of_links link_length hinge_mass nondimensional_link_stiffness nondimensional_force temperature)
  /\ (forall (link_length : T) (hinge_mass : T) (nondimensional_link_stiffness : T) (nondimensional_force : T) (temperature : T),
     extern.physics_single_chain_efjc_thermodynamics_isotensional_asymptotic_reduced_nondimensional_gibbs_free_energy_per_link link_length hinge_mass nondimensional_link_stiffness nondimensional_force temperature
     = efjc_isotensional_asymptotic_reduced.nondimensional_gibbs_free_energy_per_link link_length hinge_mass nondimensional_link_stiffness nondimensional_force temperature)
  /\ (forall (number_of_links : Z) (nondimensional_link_stiffness : T) (nondimensional_force : T),
     extern.physics_single_chain_efjc_thermodynamics_isotensional_asymptotic_reduced_nondimensional_relative_gibbs_free_energy number_of_links nondimensional_link_stiffness nondimensional_force
     = efjc_isotensional_asymptotic_reduced.nondimensional_relative_gibbs_free_energy number_of_links nondimensional_link_stiffness nondimensional_force)
  /\ (forall (nondimensional_link_stiffness : T) (nondimensional_force : T),
     extern.physics_single_chain_efjc_thermodynamics_isotensional_asymptotic_reduced_nondimensional_relative_gibbs_free_energy_per_link nondimensional_link_stiffness nondimensional_force
     = efjc_isotensional_asymptotic_reduced.nondimensional_relative_gibbs_free_energy_per_link nondimensional_link_stiffness nondimensional_force).
Proof. intros; repeat split. Qed.
Print Assumptions C59_efjc_isotensional_asymptotic_reduced.

Theorem C59_efjc_isotensional_asymptotic_reduced_legendre : forall (T : Type) (Sc : Scalar T),
  (forall (number_of_links : Z) (link_length : T) (hinge_mass : T) (link_stiffness : T) (force : T) (temperature : T),
     extern.physics_single_chain_efjc_thermodynamics_isotensional_asymptotic_reduced_legendre_helmholtz_free_energy number_of_links link_length hinge_mass link_stiffness force temperature
     = efjc_isotensional_asymptotic_reduced_legendre.helmholtz_free_energy number_of_links link_length hinge_mass link_stiffness force temperature)
  /\ (forall (link_length : T) (hinge_mass : T) (link_stiffness : T) (force : T) (temperature : T),
     extern.physics_single_chain_efjc_thermodynamics_isotensional_asymptotic_reduced_legendre_helmholtz_free_energy_per_link link_length hinge_mass link_stiffness force temperature
     = efjc_isotensional_asymptotic_reduced_legendre.helmholtz_free_energy_per_link link_length hinge_mass link_stiffness force temperature)
  /\ (forall (number_of_links : Z) (link_length : T) (link_stiffness : T) (force : T) (temperature : T),
     extern.physics_single_chain_efjc_thermodynamics_isotensional_asymptotic_reduced_legendre_relative_helmholtz_free_energy number_of_links link_length link_stiffness force temperature
     = efjc_isotensional_asymptotic_reduced_legendre.relative_helmholtz_free_energy number_of_links link_length link_stiffness force temperature)
  /\ (forall (link_length : T) (link_stiffness : T) (force : T) (temperature : T),
     extern.physics_single_chain_efjc_thermodynamics_isotensional_asymptotic_reduced_legendre_relative_helmholtz_free_energy_per_link link_length link_stiffness force temperature
     = efjc_isotensional_asymptotic_reduced_legendre.relative_helmholtz_free_energy_per_link link_length link_stiffness force temperature)
  /\ (forall (number_of_links : Z) (link_length : T) (hinge_mass : T) (nondimensional_link_stiffness : T) (nondimensional_force : T) (temperature : T),
     extern.physics_single_chain_efjc_thermodynamics_isotensional_asymptotic_reduced_legendre_nondimensional_helmholtz_free_energy number_of_links link_length hinge_mass nondimensional_link_stiffness nondimensional_force temperature
     = efjc_isotensional_asymptotic_reduced_legendre.nondimensional_helmholtz_free_energy number_of_links link_length hinge_mass nondimensional_link_stiffness nondimensional_force temperature)
  /\ (forall (link_length : T) (hinge_mass : T) (nondimensional_link_stiffness : T) (nondimensional_force : T) (temperature : T),
     extern.physics_single_chain_efjc_thermodynamics_isotensional_asymptotic_reduced_legendre_nondimensional_helmholtz_free_energy_per_link link_length hinge_mass nondimensional_link_stiffness nondimensional_force temperature
     = efjc_isotensional_asymptotic_reduced_legendre.nondimensional_helmholtz_free_energy_per_link link_length hinge_mass nondimensional_link_stiffness nondimensional_force temperature)
  /\ (forall (number_of_links : Z) (nondimensional_link_stiffness : T) (nondimensional_force : T),
     extern.physics_single_chain_efjc_thermodynamics_isotensional_asymptotic_reduced_legendre_nondimensional_relative_helmholtz_free_energy number_of_links nondimensional_link_stiffness nondimensional_force
     = efjc_isotensional_asymptotic_reduced_legendre.nondimensional_relative_helmholtz_free_energy number_of_links nondimensional_link_stiffness nondimensional_force)
  /\ (forall (nondimensional_link_stiffness : T) (nondimensional_force : T),
     extern.physics_single_chain_efjc_thermodynamics_isotensional_asymptotic_reduced_legendre_nondimensional_relative_helmholtz_free_energy_per_link nondimensional_link_stiffness nondimensional_force
     = efjc_isotensional_asymptotic_reduced_legendre.nondimensional_relative_helmholtz_free_energy_per_link nondimensional_link_stiffness nondimensional_force).
Proof. intros; repeat split. Qed.
Print Assumptions C59_efjc_isotensional_asymptotic_reduced_legendre.

Theorem C59_efjc_isotensional_legendre : forall (T : Type) (Sc : Scalar T),
  (forall (number_of_links : Z) (link_length : T) (hinge_mass : T) (link_stiffness : T) (force : T) (temperature : T),
     extern.physics_single_chain_efjc_thermodynamics_isotensional_legendre_helmholtz_free_energy number_of_links link_length hinge_mass link_stiffness force temperature
     = efjc_isotensional_legendre.helmholtz_free_energy number_of_links link_length hinge_mass link_stiffness force temperature)
  /\ (forall (link_length : T) (hinge_mass : T) (link_stiffness : T) (force : T) (temperature : T),
     extern.physics_single_chain_efjc_thermodynamics_isotensional_legendre_helmholtz_free_energy_per_link link_length hinge_mass link_stiffness force temperature
     = efjc_isotensional_legendre.helmholtz_free_energy_per_link link_length hinge_mass link_stiffness force temperature)
  /\ (forall (number_of_links : Z) (link_length : T) (link_stiffness : T) (force : T) (temperature : T),
     extern.physics_single_chain_efjc_thermodynamics_isotensional_legendre_relative_helmholtz_free_energy number_of_links link_length link_stiffness force temperature
     = efjc_isotensional_legendre.relative_helmholtz_free_energy number_of_links link_length link_stiffness force temperature)
  /\ (forall (link_length : T) (link_stiffness : T) (force : T) (temperature : T),
     extern.physics_single_chain_efjc_thermodynamics_isotensional_legendre_relative_helmholtz_free_energy_per_link link_length link_stiffness force temperature
     = efjc_isotensional_legendre.relative_helmholtz_free_energy_per_link link_length link_stiffness force temperature)
  /\ (forall (number_of_links : Z) (link_length : T) (hinge_mass : T) (nondimensional_link_stiffness : T) (nondimensional_force : T) (temperature : T),
     extern.physics_single_chain_efjc_thermodynamics_isotensional_legendre_nondimensional_helmholtz_free_energy number_of_links link_length hinge_mass nondimensional_link_stiffness nondimensional_force temperature
     = efjc_isotensional_legendre.nondimensional_helmholtz_free_energy number_of_links link_length hinge_mass nondimensional_link_stiffness nondimensional_force temperature)
  /\ (forall (link_length : T) (hinge_mass : T) (nondimensional_link_stiffness : T) (nondimensional_force : T) (temperature : T),
     extern.physics_single_chain_efjc_thermodynamics_isotensional_legendre_nondimensional_helmholtz_free_energy_per_link link_length hinge_mass nondimensional_link_stiffness nondimensional_force temperature
     = efjc_isotensional_legendre.nondimensional_helmholtz_free_energy_per_link link_length hinge_mass nondimensional_link_stiffness nondimensional_force temperature)
  /\ (forall (number_of_links : Z) (nondimensional_link_stiffness : T) (nondimensional_force : T),
     extern.physics_single_chain_efjc_thermodynamics_isotensional_legendre_nondimensional_relative_helmholtz_free_energy number_of_links nondimensional_link_stiffness nondimensional_force
     = efjc_isotensional_legendre.nondimensional_relative_helmholtz_free_energy number_of_links nondimensional_link_stiffness nondimensional_force)
  /\ (forall (nondimensional_link_stiffness : T) (nondimensional_force : T),
     extern.physics_single_chain_efjc_thermodynamics_isotensional_legendre_nondimensional_relative_helmholtz_free_energy_per_link nondimensional_link_stiffness nondimensional_force
     = efjc_isotensional_legendre.nondimensional_relative_helmholtz_free_energy_per_link nondimensional_link_stiffness nondimensional_force).
Proof. intros; repeat split. Qed.
Print Assumptions C59_efjc_isotensional_legendre.

Theorem C59_fjc_isometric : forall (T : Type) (Sc : Scalar T),
  (forall (prof : profile) (number_of_links : Z) (link_length : T) (end_to_end_length : T) (temperature : T),
     extern.physics_single_chain_fjc_thermodynamics_isometric_force prof number_of_links link_length end_to_end_length temperature
     = fjc_isometric.force prof number_of_links link_length end_to_end_length temperature)
  /\ (forall (prof : profile) (number_of_links : Z) (nondimensional_end_to_end_length_per_link : T),
     extern.physics_single_chain_fjc_thermodynamics_isometric_nondimensional_force prof number_of_links nondimensional_end_to_end_length_per_link
     = fjc_isometric.nondimensional_force prof number_of_links nondimensional_end_to_end_length_per_link)
  /\ (forall (prof : profile) (number_of_links : Z) (link_length : T) (hinge_mass : T) (end_to_end_length : T) (temperature : T),
     extern.physics_single_chain_fjc_thermodynamics_isometric_helmholtz_free_energy prof number_of_links link_length hinge_mass end_to_end_length temperature
     = fjc_isometric.helmholtz_free_energy prof number_of_links link_length hinge_mass end_to_end_length temperature)
  /\ (forall (prof : profile) (number_of_links : Z) (link_length : T) (hinge_mass : T) (end_to_end_length : T) (temperature : T),
     extern.physics_single_chain_fjc_thermodynamics_isometric_helmholtz_free_energy_per_link prof number_of_links link_length hinge_mass end_to_end_length temperature
     = fjc_isometric.helmholtz_free_energy_per_link prof number_of_links link_length hinge_mass end_to_end_length temperature)
  /\ (forall (prof : profile) (number_of_links : Z) (link_length : T) (end_to_end_length : T) (temperature : T),
     extern.physics_single_chain_fjc_thermodynamics_isometric_relative_helmholtz_free_energy prof number_of_links link_length end_to_end_length temperature
     = fjc_isometric.relative_helmholtz_free_energy prof number_of_links link_length end_to_end_length temperature)
  /\ (forall (prof : profile) (number_of_links : Z) (link_length : T) (end_to_end_length : T) (temperature : T),
     extern.physics_single_chain_fjc_thermodynamics_isometric_relative_helmholtz_free_energy_per_link prof number_of_links link_length end_to_end_length temperature
     = fjc_isometric.relative_helmholtz_free_energy_per_link prof number_of_links link_length end_to_end_length temperature)
  /\ (forall (prof : profile) (number_of_links : Z) (link_length : T) (hinge_mass : T) (nondimensional_end_to_end_length_per_link : T) (temperature : T),
     extern.physics_single_chain_fjc_thermodynamics_isometric_nondimensional_helmholtz_free_energy prof number_of_links link_length hinge_mass nondimensional_end_to_end_length_per_link temperature
     = fjc_isometric.nondimensional_helmholtz_free_energy prof number_of_links link_length hinge_mass nondimensional_end_to_end_length_per_link temperature)
  /\ (forall (prof : profile) (number_of_links : Z) (link_length : T) (hinge_mass : T) (nondimensional_end_to_end_length_per_link : T) (temperature : T),
     extern.physics_single_chain_fjc_thermodynamics_isometric_nondimensional_helmholtz_free_energy_per_link prof number_of_links link_length hinge_mass nondimensional_end_to_end_length_per_link temperature
     = fjc_isometric.nondimensional_helmholtz_free_energy_per_link prof number_of_links link_length hinge_mass nondimensional_end_to_end_length_per_link temperature)
  /\ (forall (prof : profile) (number_of_links : Z) (nondimensional_end_to_end_length_per_link : T),
     extern.physics_single_chain_fjc_thermodynamics_isometric_nondimensional_relative_helmholtz_free_energy prof number_of_links nondimensional_end_to_end_length_per_link
     = fjc_isometric.nondimensional_relative_helmholtz_free_energy prof number_of_links nondimensional_end_to_end_length_per_link)
  /\ (forall (prof : profile) (number_of_links : Z) (nondimensional_end_to_end_length_per_link : T),
     extern.physics_single_chain_fjc_thermodynamics_isometric_nondimensional_relative_helmholtz_free_energy_per_link prof number_of_links nondimensional_end_to_end_length_per_link
     = fjc_isometric.nondimensional_relative_helmholtz_free_energy_per_link prof number_of_links nondimensional_end_to_end_length_per_link)
  /\ (forall (prof : profile) (number_of_links : Z) (link_length : T) (end_to_end_length : T),
     extern.physics_single_chain_fjc_thermodynamics_isometric_equilibrium_distribution prof number_of_links link_length end_to_end_length
     = fjc_isometric.equilibrium_distribution prof number_of_links link_length end_to_end_length)
  /\ (forall (prof : profile) (number_of_links : Z) (nondimensional_end_to_end_length_per_link : T),
     extern.physics_single_chain_fjc_thermodynamics_isometric_nondimensional_equilibrium_distribution prof number_of_links nondimensional_end_to_end_length_per_link
     = fjc_isometric.nondimensional_equilibrium_distribution prof number_of_links nondimensional_end_to_end_length_per_link)
  /\ (forall (prof : profile) (number_of_links : Z) (link_length : T) (end_to_end_length : T),
     extern.physics_single_chain_fjc_thermodynamics_isometric_equilibrium_radial_distribution prof number_of_links link_length end_to_end_length
     = fjc_isometric.equilibrium_radial_distribution prof number_of_links link_length end_to_end_length)
  /\ (forall (prof : profile) (number_of_links : Z) (nondimensional_end_to_end_length_per_link : T),
     extern.physics_single_chain_fjc_thermodynamics_isometric_nondimensional_equilibrium_radial_distribution prof number_of_links nondimensional_end_to_end_length_per_link
     = fjc_isometric.nondimensional_equilibrium_radial_distribution prof number_of_links nondimensional_end_to_end_length_per_link).
Proof. intros; repeat split. Qed.
Print Assumptions C59_fjc_isometric.

Theorem C59_fjc_isometric_legendre : forall (T : Type) (Sc : Scalar T),
  (forall (number_of_links : Z) (link_length : T) (end_to_end_length : T) (temperature : T),
     extern.physics_single_chain_fjc_thermodynamics_isometric_legendre_force number_of_links link_length end_to_end_length temperature
     = fjc_isometric_legendre.force number_of_links link_length end_to_end_length temperature)
  /\ (forall (nondimensional_end_to_end_length_per_link : T),
     extern.physics_single_chain_fjc_thermodynamics_isometric_legendre_nondimensional_force nondimensional_end_to_end_length_per_link
     = fjc_isometric_legendre.nondimensional_force nondimensional_end_to_end_length_per_link)
  /\ (forall (number_of_links : Z) (link_length : T) (hinge_mass : T) (end_to_end_length : T) (temperature : T),
     extern.physics_single_chain_fjc_thermodynamics_isometric_legendre_helmholtz_free_energy number_of_links link_length hinge_mass end_to_end_length temperature
     = fjc_isometric_legendre.helmholtz_free_energy number_of_links link_length hinge_mass end_to_end_length temperature)
  /\ (forall (number_of_links : Z) (link_length : T) (hinge_mass : T) (end_to_end_length : T) (temperature : T),
     extern.physics_single_chain_fjc_thermodynamics_isometric_legendre_helmholtz_free_energy_per_link number_of_links link_length hinge_mass end_to_end_length temperature
     = fjc_isometric_legendre.helmholtz_free_energy_per_link number_of_links link_length hinge_mass end_to_end_length temperature)
  /\ (forall (number_of_links : Z) (link_length : T) (end_to_end_length : T) (temperature : T),
     extern.physics_single_chain_fjc_thermodynamics_isometric_legendre_relative_helmholtz_free_energy number_of_links link_length end_to_end_length temperature
     = fjc_isometric_legendre.relative_helmholtz_free_energy number_of_links link_length end_to_end_length temperature)
  /\ (forall (number_of_links : Z) (link_length : T) (end_to_end_length : T) (temperature : T),
     extern.physics_single_chain_fjc_thermodynamics_isometric_legendre_relative_helmholtz_free_energy_per_link number_of_links link_length end_to_end_length temperature
     = fjc_isometric_legendre.relative_helmholtz_free_energy_per_link number_of_links link_length end_to_end_length temperature)
  /\ (forall (number_of_links : Z) (link_length : T) (hinge_mass : T) (nondimensional_end_to_end_length_per_link : T) (temperature : T),
     extern.physics_single_chain_fjc_thermodynamics_isometric_legendre_nondimensional_helmholtz_free_energy number_of_links link_length hinge_mass nondimensional_end_to_end_length_per_link temperature
     = fjc_isometric_legendre.nondimensional_helmholtz_free_energy number_of_links link_length hinge_mass nondimensional_end_to_end_length_per_link temperature)
  /\ (forall (number_of_links : Z) (link_length : T) (hinge_mass : T) (nondimensional_end_to_end_length_per_link : T) (temperature : T),
     extern.physics_single_chain_fjc_thermodynamics_isometric_legendre_nondimensional_helmholtz_free_energy_per_link number_of_links link_length hinge_mass nondimensional_end_to_end_length_per_link temperature
     = fjc_isometric_legendre.nondimensional_helmholtz_free_energy_per_link number_of_links link_length hinge_mass nondimensional_end_to_end_length_per_link temperature)
  /\ (forall (number_of_links : Z) (nondimensional_end_to_end_length_per_link : T),
     extern.physics_single_chain_fjc_thermodynamics_isometric_legendre_nondimensional_relative_helmholtz_free_energy number_of_links nondimensional_end_to_end_length_per_link
     = fjc_isometric_legendre.nondimensional_relative_helmholtz_free_energy number_of_links nondimensional_end_to_end_length_per_link)
  /\ (forall (nondimensional_end_to_end_length_per_link : T),
     extern.physics_single_chain_fjc_thermodynamics_isometric_legendre_nondimensional_relative_helmholtz_free_energy_per_link nondimensional_end_to_end_length_per_link
     = fjc_isometric_legendre.nondimensional_relative_helmholtz_free_energy_per_link nondimensional_end_to_end_length_per_link)
  /\ (forall (number_of_links : Z) (link_length : T) (normalization_nondimensional_equilibrium_distribution : T) (end_to_end_length : T),
     extern.physics_single_chain_fjc_thermodynamics_isometric_legendre_equilibrium_distribution number_of_links link_length normalization_nondimensional_equilibrium_distribution end_to_end_length
     = fjc_isometric_legendre.equilibrium_distribution number_of_links link_length normalization_nondimensional_equilibrium_distribution end_to_end_length)
  /\ (forall (number_of_links : Z) (normalization_nondimensional_equilibrium_distribution : T) (nondimensional_end_to_end_length_per_link : T),
     extern.physics_single_chain_fjc_thermodynamics_isometric_legendre_nondimensional_equilibrium_distribution number_of_links normalization_nondimensional_equilibrium_distribution nondimensional_end_to_end_length_per_link
     = fjc_isometric_legendre.nondimensional_equilibrium_distribution number_of_links normalization_nondimensional_equilibrium_distribution nondimensional_end_to_end_length_per_link)
  /\ (forall (number_of_links : Z) (link_length : T) (normalization_nondimensional_equilibrium_distribution : T) (end_to_end_length : T),
     extern.physics_single_chain_fjc_thermodynamics_isometric_legendre_equilibrium_radial_distribution number_of_links link_length normalization_nondimensional_equilibrium_distribution end_to_end_length
     = fjc_isometric_legendre.equilibrium_radial_distribution number_of_links link_length normalization_nondimensional_equilibrium_distribution end_to_end_length)
  /\ (forall (number_of_links : Z) (normalization_nondimensional_equilibrium_distribution : T) (nondimensional_end_to_end_length_per_link : T),
     extern.physics_single_chain_fjc_thermodynamics_isometric_legendre_nondimensional_equilibrium_radial_distribution number_of_links normalization_nondimensional_equilibrium_distribution nondimensional_end_to_end_length_per_link
     = fjc_isometric_legendre.nondimensional_equilibrium_radial_distribution number_of_links normalization_nondimensional_equilibrium_distribution nondimensional_end_to_end_length_per_link)
  /\ (forall (prof : profile) (number_of_links : Z) (link_length : T) (hinge_mass : T) (end_to_end_length : T) (temperature : T),
     extern.physics_single_chain_fjc_thermodynamics_isometric_legendre_gibbs_free_energy prof number_of_links link_length hinge_mass end_to_end_length temperature
     = fjc_isometric_legendre.gibbs_free_energy prof number_of_links link_length hinge_mass end_to_end_length temperature)
  /\ (forall (prof : profile) (number_of_links : Z) (link_length : T) (hinge_mass : T) (end_to_end_length : T) (temperature : T),
     extern.physics_single_chain_fjc_thermodynamics_isometric_legendre_gibbs_free_energy_per_link prof number_of_links link_length hinge_mass end_to_end_length temperature
     = fjc_isometric_legendre.gibbs_free_energy_per_link prof number_of_links link_length hinge_mass end_to_end_length temperature)
  /\ (forall (prof : profile) (number_of_links : Z) (link_length : T) (end_to_end_length : T) (temperature : T),
     extern.physics_single_chain_fjc_thermodynamics_isometric_legendre_relative_gibbs_free_energy prof number_of_links link_length end_to_end_length temperature
     = fjc_isometric_legendre.relative_gibbs_free_energy prof number_of_links link_length end_to_end_length temperature)
  /\ (forall (prof : profile) (number_of_links : Z) (link_length : T) (end_to_end_length : T) (temperature : T),
     extern.physics_single_chain_fjc_thermodynamics_isometric_legendre_relative_gibbs_free_energy_per_link prof number_of_links link_length end_to_end_length temperature
     = fjc_isometric_legendre.relative_gibbs_free_energy_per_link prof number_of_links link_length end_to_end_length temperature)
  /\ (forall (prof : profile) (number_of_links : Z) (link_length : T) (hinge_mass : T) (nondimensional_end_to_end_length_per_link : T) (temperature : T),
     extern.physics_single_chain_fjc_thermodynamics_isometric_legendre_nondimensional_gibbs_free_energy prof number_of_links link_length hinge_mass nondimensional_end_to_end_length_per_link temperature
     = fjc_isometric_legendre.nondimensional_gibbs_free_energy prof number_of_links link_length hinge_mass nondimensional_end_to_end_length_per_link temperature)
  /\ (forall (prof : profile) (number_of_links : Z) (link_length : T) (hinge_mass : T) (nondimensional_end_to_end_length_per_link : T) (temperature : T),
     extern.physics_single_chain_fjc_thermodynamics_isometric_legendre_nondimensional_gibbs_free_energy_per_link prof number_of_links link_length hinge_mass nondimensional_end_to_end_length_per_link temperature
     = fjc_isometric_legendre.nondimensional_gibbs_free_energy_per_link prof number_of_links link_length hinge_mass nondimensional_end_to_end_length_per_link temperature)
  /\ (forall (prof : profile) (number_of_links : Z) (nondimensional_end_to_end_length_per_link : T),
     extern.physics_single_chain_fjc_thermodynamics_isometric_legendre_nondimensional_relative_gibbs_free_energy prof number_of_links nondimensional_end_to_end_length_per_link
     = fjc_isometric_legendre.nondimensional_relative_gibbs_free_energy prof number_of_links nondimensional_end_to_end_length_per_link)
  /\ (forall (prof : profile) (number_of_links : Z) (nondimensional_end_to_end_length_per_link : T),
     extern.physics_single_chain_fjc_thermodynamics_isometric_legendre_nondimensional_relative_gibbs_free_energy_per_link prof number_of_links nondimensional_end_to_end_length_per_link
     = fjc_isometric_legendre.nondimensional_relative_gibbs_free_energy_per_link prof number_of_links nondimensional_end_to_end_length_per_link).
Proof. intros; repeat split. Qed.
Print Assumptions C59_fjc_isometric_legendre.

Theorem C59_fjc_isotensional : forall (T : Type) (Sc : Scalar T),
  (forall (number_of_links : Z) (link_length : T) (force : T) (temperature : T),
     extern.physics_single_chain_fjc_thermodynamics_isotensional_end_to_end_length number_of_links link_length force temperature
     = fjc_isotensional.end_to_end_length number_of_links link_length force temperature)
  /\ (forall (link_length : T) (force : T) (temperature : T),
     extern.physics_single_chain_fjc_thermodynamics_isotensional_end_to_end_length_per_link link_length force temperature
     = fjc_isotensional.end_to_end_length_per_link link_length force temperature)
  /\ (forall (number_of_links : Z) (nondimensional_force : T),
     extern.physics_single_chain_fjc_thermodynamics_isotensional_nondimensional_end_to_end_length number_of_links nondimensional_force
     = fjc_isotensional.nondimensional_end_to_end_length number_of_links nondimensional_force)
  /\ (forall (nondimensional_force : T),
     extern.physics_single_chain_fjc_thermodynamics_isotensional_nondimensional_end_to_end_length_per_link nondimensional_force
     = fjc_isotensional.nondimensional_end_to_end_length_per_link nondimensional_force)
  /\ (forall (number_of_links : Z) (link_length : T) (hinge_mass : T) (force : T) (temperature : T),
     extern.physics_single_chain_fjc_thermodynamics_isotensional_gibbs_free_energy number_of_links link_length hinge_mass force temperature
     = fjc_isotensional.gibbs_free_energy number_of_links link_length hinge_mass force temperature)
  /\ (forall (link_length : T) (hinge_mass : T) (force : T) (temperature : T),
     extern.physics_single_chain_fjc_thermodynamics_isotensional_gibbs_free_energy_per_link link_length hinge_mass force temperature
     = fjc_isotensional.gibbs_free_energy_per_link link_length hinge_mass force temperature)
  /\ (forall (number_of_links : Z) (link_length : T) (force : T) (temperature : T),
     extern.physics_single_chain_fjc_thermodynamics_isotensional_relative_gibbs_free_energy number_of_links link_length force temperature
     = fjc_isotensional.relative_gibbs_free_energy number_of_links link_length force temperature)
  /\ (forall (link_length : T) (force : T) (temperature : T),
     extern.physics_single_chain_fjc_thermodynamics_isotensional_relative_gibbs_free_energy_per_link link_length force temperature
     = fjc_isotensional.relative_gibbs_free_energy_per_link link_length force temperature)
  /\ (forall (number_of_links : Z) (link_length : T) (hinge_mass : T) (nondimensional_force : T) (temperature : T),
     extern.physics_single_chain_fjc_thermodynamics_isotensional_nondimensional_gibbs_free_energy number_of_links link_length hinge_mass nondimensional_force temperature
     = fjc_isotensional.nondimensional_gibbs_free_energy number_of_links link_length hinge_mass nondimensional_force temperature)
  /\ (forall (link_length : T) (hinge_mass : T) (nondimensional_force : T) (temperature : T),
     extern.physics_single_chain_fjc_thermodynamics_isotensional_nondimensional_gibbs_free_energy_per_link link_length hinge_mass nondimensional_force temperature
     = fjc_isotensional.nondimensional_gibbs_free_energy_per_link link_length hinge_mass nondimensional_force temperature)
  /\ (forall (number_of_links : Z) (nondimensional_force : T),
     extern.physics_single_chain_fjc_thermodynamics_isotensional_nondimensional_relative_gibbs_free_energy number_of_links nondimensional_force
     = fjc_isotensional.nondimensional_relative_gibbs_free_energy number_of_links nondimensional_force)
  /\ (forall (nondimensional_force : T),
     extern.physics_single_chain_fjc_thermodynamics_isotensional_nondimensional_relative_gibbs_free_energy_per_link nondimensional_force
     = fjc_isotensional.nondimensional_relative_gibbs_free_energy_per_link nondimensional_force).
Proof. intros; repeat split. Qed.
Print Assumptions C59_fjc_isotensional.

Theorem C59_fjc_isotensional_legendre : forall (T : Type) (Sc : Scalar T),
  (forall (number_of_links : Z) (link_length : T) (hinge_mass : T) (force : T) (temperature : T),
     extern.physics_single_chain_fjc_thermodynamics_isotensional_legendre_helmholtz_free_energy number_of_links link_length hinge_mass force temperature
     = fjc_isotensional_legendre.helmholtz_free_energy number_of_links link_length hinge_mass force temperature)
  /\ (forall (link_length : T) (hinge_mass : T) (force : T) (temperature : T),
     extern.physics_single_chain_fjc_thermodynamics_isotensional_legendre_helmholtz_free_energy_per_link link_length hinge_mass force temperature
     = fjc_isotensional_legendre.helmholtz_free_energy_per_link link_length hinge_mass force temperature)
  /\ (forall (number_of_links : Z) (link_length : T) (force : T) (temperature : T),
     extern.physics_single_chain_fjc_thermodynamics_isotensional_legendre_relative_helmholtz_free_energy number_of_links link_length force temperature
     = fjc_isotensional_legendre.relative_helmholtz_free_energy number_of_links link_length force temperature)
  /\ (forall (link_length : T) (force : T) (temperature : T),
     extern.physics_single_chain_fjc_thermodynamics_isotensional_legendre_relative_helmholtz_free_energy_per_link link_length force temperature
     = fjc_isotensional_legendre.relative_helmholtz_free_energy_per_link link_length force temperature)
  /\ (forall (number_of_links : Z) (link_length : T) (hinge_mass : T) (nondimensional_force : T) (temperature : T),
     extern.physics_single_chain_fjc_thermodynamics_isotensional_legendre_nondimensional_helmholtz_free_energy number_of_links link_length hinge_mass nondimensional_force temperature
     = fjc_isotensional_legendre.nondimensional_helmholtz_free_energy number_of_links link_length hinge_mass nondimensional_force temperature)
  /\ (forall (link_length : T) (hinge_mass : T) (nondimensional_force : T) (temperature : T),
     extern.physics_single_chain_fjc_thermodynamics_isotensional_legendre_nondimensional_helmholtz_free_energy_per_link link_length hinge_mass nondimensional_force temperature
     = fjc_isotensional_legendre.nondimensional_helmholtz_free_energy_per_link link_length hinge_mass nondimensional_force temperature)
  /\ (forall (number_of_links : Z) (nondimensional_force : T),
     extern.physics_single_chain_fjc_thermodynamics_isotensional_legendre_nondimensional_relative_helmholtz_free_energy number_of_links nondimensional_force
     = fjc_isotensional_legendre.nondimensional_relative_helmholtz_free_energy number_of_links nondimensional_force)
  /\ (forall (nondimensional_force : T),
     extern.physics_single_chain_fjc_thermodynamics_isotensional_legendre_nondimensional_relative_helmholtz_free_energy_per_link nondimensional_force
     = fjc_isotensional_legendre.nondimensional_relative_helmholtz_free_energy_per_link nondimensional_force).
Proof. intros; repeat split. Qed.
Print Assumptions C59_fjc_isotensional_legendre.

Theorem C59_fjc_modified_canonical : forall (T : Type) (Sc : Scalar T),
  (forall (prof : profile) (number_of_links : Z) (link_length : T) (potential_distance : T) (potential_stiffness : T) (temperature : T),
     extern.physics_single_chain_fjc_thermodynamics_modified_canonical_end_to_end_length prof number_of_links link_length potential_distance potential_stiffness temperature
     = fjc_modified_canonical.end_to_end_length prof number_of_links link_length potential_distance potential_stiffness temperature)
  /\ (forall (prof : profile) (number_of_links : Z) (link_length : T) (potential_distance : T) (potential_stiffness : T) (temperature : T),
     extern.physics_single_chain_fjc_thermodynamics_modified_canonical_end_to_end_length_per_link prof number_of_links link_length potential_distance potential_stiffness temperature
     = fjc_modified_canonical.end_to_end_length_per_link prof number_of_links link_length potential_distance potential_stiffness temperature)
  /\ (forall (prof : profile) (number_of_links : Z) (nondimensional_potential_distance : T) (nondimensional_potential_stiffness : T),
     extern.physics_single_chain_fjc_thermodynamics_modified_canonical_nondimensional_end_to_end_length prof number_of_links nondimensional_potential_distance nondimensional_potential_stiffness
     = fjc_modified_canonical.nondimensional_end_to_end_length prof number_of_links nondimensional_potential_distance nondimensional_potential_stiffness)
  /\ (forall (prof : profile) (number_of_links : Z) (nondimensional_potential_distance : T) (nondimensional_potential_stiffness : T),
     extern.physics_single_chain_fjc_thermodynamics_modified_canonical_nondimensional_end_to_end_length_per_link prof number_of_links nondimensional_potential_distance nondimensional_potential_stiffness
     = fjc_modified_canonical.nondimensional_end_to_end_length_per_link prof number_of_links nondimensional_potential_distance nondimensional_potential_stiffness)
  /\ (forall (prof : profile) (number_of_links : Z) (link_length : T) (potential_distance : T) (potential_stiffness : T) (temperature : T),
     extern.physics_single_chain_fjc_thermodynamics_modified_canonical_force prof number_of_links link_length potential_distance potential_stiffness temperature
     = fjc_modified_canonical.force prof number_of_links link_length potential_distance potential_stiffness temperature)
  /\ (forall (prof : profile) (number_of_links : Z) (nondimensional_potential_distance : T) (nondimensional_potential_stiffness : T),
     extern.physics_single_chain_fjc_thermodynamics_modified_canonical_nondimensional_force prof number_of_links nondimensional_potential_distance nondimensional_potential_stiffness
     = fjc_modified_canonical.nondimensional_force prof number_of_links nondimensional_potential_distance nondimensional_potential_stiffness)
  /\ (forall (prof : profile) (number_of_links : Z) (link_length : T) (hinge_mass : T) (potential_distance : T) (potential_stiffness : T) (temperature : T),
     extern.physics_single_chain_fjc_thermodynamics_modified_canonical_helmholtz_free_energy prof number_of_links link_length hinge_mass potential_distance potential_stiffness temperature
     = fjc_modified_canonical.helmholtz_free_energy prof number_of_links link_length hinge_mass potential_distance potential_stiffness temperature)
  /\ (forall (prof : profile) (number_of_links : Z) (link_length : T) (hinge_mass : T) (potential_distance : T) (potential_stiffness : T) (temperature : T),
     extern.physics_single_chain_fjc_thermodynamics_modified_canonical_helmholtz_free_energy_per_link prof number_of_links link_length hinge_mass potential_distance potential_stiffness temperature
     = fjc_modified_canonical.helmholtz_free_energy_per_link prof number_of_links link_length hinge_mass potential_distance potential_stiffness temperature)
  /\ (forall (prof : profile) (number_of_links : Z) (link_length : T) (potential_distance : T) (potential_stiffness : T) (temperature : T),
     extern.physics_single_chain_fjc_thermodynamics_modified_canonical_relative_helmholtz_free_energy prof number_of_links link_length potential_distance potential_stiffness temperature
     = fjc_modified_canonical.relative_helmholtz_free_energy prof number_of_links link_length potential_distance potential_stiffness temperature)
  /\ (forall (prof : profile) (number_of_links : Z) (link_length : T) (potential_distance : T) (potential_stiffness : T) (temperature : T),
     extern.physics_single_chain_fjc_thermodynamics_modified_canonical_relative_helmholtz_free_energy_per_link prof number_of_links link_length potential_distance potential_stiffness temperature
     = fjc_modified_canonical.relative_helmholtz_free_energy_per_link prof number_of_links link_length potential_distance potential_stiffness temperature)
  /\ (forall (prof : profile) (number_of_links : Z) (link_length : T) (hinge_mass : T) (nondimensional_potential_distance : T) (nondimensional_potential_stiffness : T) (temperature : T),
     extern.physics_single_chain_fjc_thermodynamics_modified_canonical_nondimensional_helmholtz_free_energy prof number_of_links link_length hinge_mass nondimensional_potential_distance nondimensional_potential_stiffness temperature
     = fjc_modified_canonical.nondimensional_helmholtz_free_energy prof number_of_links link_length hinge_mass nondimensional_potential_distance nondimensional_potential_stiffness temperature)
  /\ (forall (prof : profile) (number_of_links : Z) (link_length : T) (hinge_mass : T) (nondimensional_potential_distance : T) (nondimensional_potential_stiffness : T) (temperature : T),
     extern.physics_single_chain_fjc_thermodynamics_modified_canonical_nondimensional_helmholtz_free_energy_per_link prof number_of_links link_length hinge_mass nondimensional_potential_distance nondimensional_potential_stiffness temperature
     = fjc_modified_canonical.nondimensional_helmholtz_free_energy_per_link prof number_of_links link_length hinge_mass nondimensional_potential_distance nondimensional_potential_stiffness temperature)
  /\ (forall (prof : profile) (number_of_links : Z) (nondimensional_potential_distance : T) (nondimensional_potential_stiffness : T),
     extern.physics_single_chain_fjc_thermodynamics_modified_canonical_nondimensional_relative_helmholtz_free_energy prof number_of_links nondimensional_potential_distance nondimensional_potential_stiffness
     = fjc_modified_canonical.nondimensional_relative_helmholtz_free_energy prof number_of_links nondimensional_potential_distance nondimensional_potential_stiffness)
  /\ (forall (prof : profile) (number_of_links : Z) (nondimensional_potential_distance : T) (nondimensional_potential_stiffness : T),
     extern.physics_single_chain_fjc_thermodynamics_modified_canonical_nondimensional_relative_helmholtz_free_energy_per_link prof number_of_links nondimensional_potential_distance nondimensional_potential_stiffness
     = fjc_modified_canonical.nondimensional_relative_helmholtz_free_energy_per_link prof number_of_links nondimensional_potential_distance nondimensional_potential_stiffness)
  /\ (forall (prof : profile) (number_of_links : Z) (link_length : T) (hinge_mass : T) (potential_distance : T) (potential_stiffness : T) (temperature : T),
     extern.physics_single_chain_fjc_thermodynamics_modified_canonical_gibbs_free_energy prof number_of_links link_length hinge_mass potential_distance potential_stiffness temperature
     = fjc_modified_canonical.gibbs_free_energy prof number_of_links link_length hinge_mass potential_distance potential_stiffness temperature)
  /\ (forall (prof : profile) (number_of_links : Z) (link_length : T) (hinge_mass : T) (potential_distance : T) (potential_stiffness : T) (temperature : T),
     extern.physics_single_chain_fjc_thermodynamics_modified_canonical_gibbs_free_energy_per_link prof number_of_links link_length hinge_mass potential_distance potential_stiffness temperature
     = fjc_modified_canonical.gibbs_free_energy_per_link prof number_of_links link_length hinge_mass potential_distance potential_stiffness temperature)
  /\ (forall (prof : profile) (number_of_links : Z) (link_length : T) (potential_distance : T) (potential_stiffness : T) (temperature : T),
     extern.physics_single_chain_fjc_thermodynamics_modified_canonical_relative_gibbs_free_energy prof number_of_links link_length potential_distance potential_stiffness temperature
     = fjc_modified_canonical.relative_gibbs_free_energy prof number_of_links link_length potential_distance potential_stiffness temperature)
  /\ (forall (prof : profile) (number_of_links : Z) (link_length : T) (potential_distance : T) (potential_stiffness : T) (temperature : T),
     extern.physics_single_chain_fjc_thermodynamics_modified_canonical_relative_gibbs_free_energy_per_link prof number_of_links link_length potential_distance potential_stiffness temperature
     = fjc_modified_canonical.relative_gibbs_free_energy_per_link prof number_of_links link_length potential_distance potential_stiffness temperature)
  /\ (forall (prof : profile) (number_of_links : Z) (link_length : T) (hinge_mass : T) (nondimensional_potential_distance : T) (nondimensional_potential_stiffness : T) (temperature : T),
     extern.physics_single_chain_fjc_thermodynamics_modified_canonical_nondimensional_gibbs_free_energy prof number_of_links link_length hinge_mass nondimensional_potential_distance nondimensional_potential_stiffness temperature
     = fjc_modified_canonical.nondimensional_gibbs_free_energy prof number_of_links link_length hinge_mass nondimensional_potential_distance nondimensional_potential_stiffness temperature)
  /\ (forall (prof : profile) (number_of_links : Z) (link_length : T) (hinge_mass : T) (nondimensional_potential_distance : T) (nondimensional_potential_stiffness : T) (temperature : T),
     extern.physics_single_chain_fjc_thermodynamics_modified_canonical_nondimensional_gibbs_free_energy_per_link prof number_of_links link_length hinge_mass nondimensional_potential_distance nondimensional_potential_stiffness temperature
     = fjc_modified_canonical.nondimensional_gibbs_free_energy_per_link prof number_of_links link_length hinge_mass nondimensional_potential_distance nondimensional_potential_stiffness temperature)
  /\ (forall (prof : profile) (number_of_links : Z) (nondimensional_potential_distance : T) (nondimensional_potential_stiffness : T),
     extern.physics_single_chain_fjc_thermodynamics_modified_canonical_nondimensional_relative_gibbs_free_energy prof number_of_links nondimensional_potential_distance nondimensional_potential_stiffness
     = fjc_modified_canonical.nondimensional_relative_gibbs_free_energy prof number_of_links nondimensional_potential_distance nondimensional_potential_stiffness)
  /\ (forall (prof : profile) (number_of_links : Z) (nondimensional_potential_distance : T) (nondimensional_potential_stiffness : T),
     extern.physics_single_chain_fjc_thermodynamics_modified_canonical_nondimensional_relative_gibbs_free_energy_per_link prof number_of_links nondimensional_potential_distance nondimensional_potential_stiffness
     = fjc_modified_canonical.nondimensional_relative_gibbs_free_energy_per_link prof number_of_links nondimensional_potential_distance nondimensional_potential_stiffness).
Proof. intros; repeat split. Qed.
Print Assumptions C59_fjc_modified_canonical.

Theorem C59_fjc_modified_canonical_asymptotic_strong_potential : forall (T : Type) (Sc : Scalar T),
  (forall (prof : profile) (number_of_links : Z) (link_length : T) (potential_distance : T) (potential_stiffness : T) (temperature : T),
     extern.physics_single_chain_fjc_thermodynamics_modified_canonical_asymptotic_strong_potential_force prof number_of_links link_length potential_distance potential_stiffness temperature
     = fjc_modified_canonical_asymptotic_strong_potential.force prof number_of_links link_length potential_distance potential_stiffness temperature)
  /\ (forall (prof : profile) (number_of_links : Z) (nondimensional_potential_distance : T) (nondimensional_potential_stiffness : T),
     extern.physics_single_chain_fjc_thermodynamics_modified_canonical_asymptotic_strong_potential_nondimensional_force prof number_of_links nondimensional_potential_distance nondimensional_potential_stiffness
     = fjc_modified_canonical_asymptotic_strong_potential.nondimensional_force prof number_of_links nondimensional_potential_distance nondimensional_potential_stiffness)
  /\ (forall (prof : profile) (number_of_links : Z) (link_length : T) (hinge_mass : T) (potential_distance : T) (potential_stiffness : T) (temperature : T),
     extern.physics_single_chain_fjc_thermodynamics_modified_canonical_asymptotic_strong_potential_helmholtz_free_energy prof number_of_links link_length hinge_mass potential_distance potential_stiffness temperature
     = fjc_modified_canonical_asymptotic_strong_potential.helmholtz_free_energy prof number_of_links link_length hinge_mass potential_distance potential_stiffness temperature)
  /\ (forall (prof : profile) (number_of_links : Z) (link_length : T) (hinge_mass : T) (potential_distance : T) (potential_stiffness : T) (temperature : T),
     extern.physics_single_chain_fjc_thermodynamics_modified_canonical_asymptotic_strong_potential_helmholtz_free_energy_per_link prof number_of_links link_length hinge_mass potential_distance potential_stiffness temperature
     = fjc_modified_canonical_asymptotic_strong_potential.helmholtz_free_energy_per_link prof number_of_links link_length hinge_mass potential_distance potential_stiffness temperature)
  /\ (forall (prof : profile) (number_of_links : Z) (link_length : T) (potential_distance : T) (potential_stiffness : T) (temperature : T),
     extern.physics_single_chain_fjc_thermodynamics_modified_canonical_asymptotic_strong_potential_relative_helmholtz_free_energy prof number_of_links link_length potential_distance potential_stiffness temperature
     = fjc_modified_canonical_asymptotic_strong_potential.relative_helmholtz_free_energy prof number_of_links link_length potential_distance potential_stiffness temperature)
  /\ (forall (prof : profile) (number_of_links : Z) (link_length : T) (potential_distance : T) (potential_stiffness : T) (temperature : T),
     extern.physics_single_chain_fjc_thermodynamics_modified_canonical_asymptotic_strong_potential_relative_helmholtz_free_energy_per_link prof number_of_links link_length potential_distance potential_stiffness temperature
     = fjc_modified_canonical_asymptotic_strong_potential.relative_helmholtz_free_energy_per_link prof number_of_links link_length potential_distance potential_stiffness temperature)
  /\ (forall (prof : profile) (number_of_links : Z) (link_length : T) (hinge_mass : T) (nondimensional_potential_distance : T) (nondimensional_potential_stiffness : T) (temperature : T),
     extern.physics_single_chain_fjc_thermodynamics_modified_canonical_asymptotic_strong_potential_nondimensional_helmholtz_free_energy prof number_of_links link_length hinge_mass nondimensional_potential_distance nondimensional_potential_stiffness temperature
     = fjc_modified_canonical_asymptotic_strong_potential.nondimensional_helmholtz_free_energy prof number_of_links link_length hinge_mass nondimensional_potential_distance nondimensional_potential_stiffness temperature)
  /\ (forall (prof : profile) (number_of_links : Z) (link_length : T) (hinge_mass : T) (nondimensional_potential_distance : T) (nondimensional_potential_stiffness : T) (temperature : T),
     extern.physics_single_chain_fjc_thermodynamics_modified_canonical_asymptotic_strong_potential_nondimensional_helmholtz_free_energy_per_link prof number_of_links link_length hinge_mass nondimensional_potential_distance nondimensional_potential_stiffness temperature
     = fjc_modified_canonical_asymptotic_strong_potential.nondimensional_helmholtz_free_energy_per_link prof number_of_links link_length hinge_mass nondimensional_potential_distance nondimensional_potential_stiffness temperature)
  /\ (forall (prof : profile) (number_of_links : Z) (nondimensional_potential_distance : T) (nondimensional_potential_stiffness : T),
     extern.physics_single_chain_fjc_thermodynamics_modified_canonical_asymptotic_strong_potential_nondimensional_relative_helmholtz_free_energy prof number_of_links nondimensional_potential_distance nondimensional_potential_stiffness
     = fjc_modified_canonical_asymptotic_strong_potential.nondimensional_relative_helmholtz_free_energy prof number_of_links nondimensional_potential_distance nondimensional_potential_stiffness)
  /\ (forall (prof : profile) (number_of_links : Z) (nondimensional_potential_distance : T) (nondimensional_potential_stiffness : T),
     extern.physics_single_chain_fjc_thermodynamics_modified_canonical_asymptotic_strong_potential_nondimensional_relative_helmholtz_free_energy_per_link prof number_of_links nondimensional_potential_distance nondimensional_potential_stiffness
     = fjc_modified_canonical_asymptotic_strong_potential.nondimensional_relative_helmholtz_free_energy_per_link prof number_of_links nondimensional_potential_distance nondimensional_potential_stiffness).
Proof. intros; repeat split. Qed.
Print Assumptions C59_fjc_modified_canonical_asymptotic_strong_potential.

Theorem C59_fjc_modified_canonical_asymptotic_weak_potential : forall (T : Type) (Sc : Scalar T),
  (forall (number_of_links : Z) (link_length : T) (potential_distance : T) (potential_stiffness : T) (temperature : T),
     extern.physics_single_chain_fjc_thermodynamics_modified_canonical_asymptotic_weak_potential_end_to_end_length number_of_links link_length potential_distance potential_stiffness temperature
     = fjc_modified_canonical_asymptotic_weak_potential.end_to_end_length number_of_links link_length potential_distance potential_stiffness temperature)
  /\ (forall (number_of_links : Z) (link_length : T) (potential_distance : T) (potential_stiffness : T) (temperature : T),
     extern.physics_single_chain_fjc_thermodynamics_modified_canonical_asymptotic_weak_potential_end_to_end_length_per_link number_of_links link_length potential_distance potential_stiffness temperature
     = fjc_modified_canonical_asymptotic_weak_potential.end_to_end_length_per_link number_of_links link_length potential_distance potential_stiffness temperature)
  /\ (forall (number_of_links : Z) (nondimensional_potential_distance : T) (nondimensional_potential_stiffness : T),
     extern.physics_single_chain_fjc_thermodynamics_modified_canonical_asymptotic_weak_potential_nondimensional_end_to_end_length number_of_links nondimensional_potential_distance nondimensional_potential_stiffness
     = fjc_modified_canonical_asymptotic_weak_potential.nondimensional_end_to_end_length number_of_links nondimensional_potential_distance nondimensional_potential_stiffness)
  /\ (forall (number_of_links : Z) (nondimensional_potential_distance : T) (nondimensional_potential_stiffness : T),
     extern.physics_single_chain_fjc_thermodynamics_modified_canonical_asymptotic_weak_potential_nondimensional_end_to_end_length_per_link number_of_links nondimensional_potential_distance nondimensional_potential_stiffness
     = fjc_modified_canonical_asymptotic_weak_potential.nondimensional_end_to_end_length_per_link number_of_links nondimensional_potential_distance nondimensional_potential_stiffness)
  /\ (forall (potential_distance : T) (potential_stiffness : T),
     extern.physics_single_chain_fjc_thermodynamics_modified_canonical_asymptotic_weak_potential_force potential_distance potential_stiffness
     = fjc_modified_canonical_asymptotic_weak_potential.force potential_distance potential_stiffness)
  /\ (forall (number_of_links : Z) (nondimensional_potential_distance : T) (nondimensional_potential_stiffness : T),
     extern.physics_single_chain_fjc_thermodynamics_modified_canonical_asymptotic_weak_potential_nondimensional_force number_of_links nondimensional_potential_distance nondimensional_potential_stiffness
     = fjc_modified_canonical_asymptotic_weak_potential.nondimensional_force number_of_links nondimensional_potential_distance nondimensional_potential_stiffness)
  /\ (forall (number_of_links : Z) (link_length : T) (hinge_mass : T) (potential_distance : T) (potential_stiffness : T) (temperature : T),
     extern.physics_single_chain_fjc_thermodynamics_modified_canonical_asymptotic_weak_potential_gibbs_free_energy number_of_links link_length hinge_mass potential_distance potential_stiffness temperature
     = fjc_modified_canonical_asymptotic_weak_potential.gibbs_free_energy number_of_links link_length hinge_mass potential_distance potential_stiffness temperature)
  /\ (forall (number_of_links : Z) (link_length : T) (hinge_mass : T) (potential_distance : T) (potential_stiffness : T) (temperature : T),
     extern.physics_single_chain_fjc_thermodynamics_modified_canonical_asymptotic_weak_potential_gibbs_free_energy_per_link number_of_links link_length hinge_mass potential_distance potential_stiffness temperature
     = fjc_modified_canonical_asymptotic_weak_potential.gibbs_free_energy_per_link number_of_links link_length hinge_mass potential_distance potential_stiffness temperature)
  /\ (forall (number_of_links : Z) (link_length : T) (potential_distance : T) (potential_stiffness : T) (temperature : T),
     extern.physics_single_chain_fjc_thermodynamics_modified_canonical_asymptotic_weak_potential_relative_gibbs_free_energy number_of_links link_length potential_distance potential_stiffness temperature
     = fjc_modified_canonical_asymptotic_weak_potential.relative_gibbs_free_energy number_of_links link_length potential_distance potential_stiffness temperature)
  /\ (forall (number_of_links : Z) (link_length : T) (potential_distance : T) (potential_stiffness : T) (temperature : T),
     extern.physics_single_chain_fjc_thermodynamics_modified_canonical_asymptotic_weak_potential_relative_gibbs_free_energy_per_link number_of_links link_length potential_distance potential_stiffness temperature
     = fjc_modified_canonical_asymptotic_weak_potential.relative_gibbs_free_energy_per_link number_of_links link_length potential_distance potential_stiffness temperature)
  /\ (forall (number_of_links : Z) (link_length : T) (hinge_mass : T) (nondimensional_potential_distance : T) (nondimensional_potential_stiffness : T) (temperature : T),
     extern.physics_single_chain_fjc_thermodynamics_modified_canonical_asymptotic_weak_potential_nondimensional_gibbs_free_energy number_of_links link_length hinge_mass nondimensional_potential_distance nondimensional_potential_stiffness temperature
     = fjc_modified_canonical_asymptotic_weak_potential.nondimensional_gibbs_free_energy number_of_links link_length hinge_mass nondimensional_potential_distance nondimensional_potential_stiffness temperature)
  /\ (forall (number_of_links : Z) (link_length : T) (hinge_mass : T) (nondimensional_potential_distance : T) (nondimensional_potential_stiffness : T) (temperature : T),
     extern.physics_single_chain_fjc_thermodynamics_modified_canonical_asymptotic_weak_potential_nondimensional_gibbs_free_energy_per_link number_of_links link_length hinge_mass nondimensional_potential_distance nondimensional_potential_stiffness temperature
     = fjc_modified_canonical_asymptotic_weak_potential.nondimensional_gibbs_free_energy_per_link number_of_links link_length hinge_mass nondimensional_potential_distance nondimensional_potential_stiffness temperature)
  /\ (forall (number_of_links : Z) (nondimensional_potential_distance : T) (nondimensional_potential_stiffness : T),
     extern.physics_single_chain_fjc_thermodynamics_modified_canonical_asymptotic_weak_potential_nondimensional_relative_gibbs_free_energy number_of_links nondimensional_potential_distance nondimensional_potential_stiffness
     = fjc_modified_canonical_asymptotic_weak_potential.nondimensional_relative_gibbs_free_energy number_of_links nondimensional_potential_distance nondimensional_potential_stiffness)
  /\ (forall (number_of_links : Z) (nondimensional_potential_distance : T) (nondimensional_potential_stiffness : T),
     extern.physics_single_chain_fjc_thermodynamics_modified_canonical_asymptotic_weak_potential_nondimensional_relative_gibbs_free_energy_per_link number_of_links nondimensional_potential_distance nondimensional_potential_stiffness
     = fjc_modified_canonical_asymptotic_weak_potential.nondimensional_relative_gibbs_free_energy_per_link number_of_links nondimensional_potential_distance nondimensional_potential_stiffness).
Proof. intros; repeat split. Qed.
Print Assumptions C59_fjc_modified_canonical_asymptotic_weak_potential.

Theorem C59_ideal_isometric : forall (T : Type) (Sc : Scalar T),
  (forall (number_of_links : Z) (link_length : T) (end_to_end_length : T) (temperature : T),
     extern.physics_single_chain_ideal_thermodynamics_isometric_force number_of_links link_length end_to_end_length temperature
     = ideal_isometric.force number_of_links link_length end_to_end_length temperature)
  /\ (forall (nondimensional_end_to_end_length_per_link : T),
     extern.physics_single_chain_ideal_thermodynamics_isometric_nondimensional_force nondimensional_end_to_end_length_per_link
     = ideal_isometric.nondimensional_force nondimensional_end_to_end_length_per_link)
  /\ (forall (number_of_links : Z) (link_length : T) (hinge_mass : T) (end_to_end_length : T) (temperature : T),
     extern.physics_single_chain_ideal_thermodynamics_isometric_helmholtz_free_energy number_of_links link_length hinge_mass end_to_end_length temperature
     = ideal_isometric.helmholtz_free_energy number_of_links link_length hinge_mass end_to_end_length temperature)
  /\ (forall (number_of_links : Z) (link_length : T) (hinge_mass : T) (end_to_end_length : T) (temperature : T),
     extern.physics_single_chain_ideal_thermodynamics_isometric_helmholtz_free_energy_per_link number_of_links link_length hinge_mass end_to_end_length temperature
     = ideal_isometric.helmholtz_free_energy_per_link number_of_links link_length hinge_mass end_to_end_length temperature)
  /\ (forall (number_of_links : Z) (link_length : T) (end_to_end_length : T) (temperature : T),
     extern.physics_single_chain_ideal_thermodynamics_isometric_relative_helmholtz_free_energy number_of_links link_length end_to_end_length temperature
     = ideal_isometric.relative_helmholtz_free_energy number_of_links link_length end_to_end_length temperature)
  /\ (forall (number_of_links : Z) (link_length : T) (end_to_end_length : T) (temperature : T),
     extern.physics_single_chain_ideal_thermodynamics_isometric_relative_helmholtz_free_energy_per_link number_of_links link_length end_to_end_length temperature
     = ideal_isometric.relative_helmholtz_free_energy_per_link number_of_links link_length end_to_end_length temperature)
  /\ (forall (number_of_links : Z) (link_length : T) (hinge_mass : T) (nondimensional_end_to_end_length_per_link : T) (temperature : T),
     extern.physics_single_chain_ideal_thermodynamics_isometric_nondimensional_helmholtz_free_energy number_of_links link_length hinge_mass nondimensional_end_to_end_length_per_link temperature
     = ideal_isometric.nondimensional_helmholtz_free_energy number_of_links link_length hinge_mass nondimensional_end_to_end_length_per_link temperature)
  /\ (forall (link_length : T) (hinge_mass : T) (nondimensional_end_to_end_length_per_link : T) (temperature : T),
     extern.physics_single_chain_ideal_thermodynamics_isometric_nondimensional_helmholtz_free_energy_per_link link_length hinge_mass nondimensional_end_to_end_length_per_link temperature
     = ideal_isometric.nondimensional_helmholtz_free_energy_per_link link_length hinge_mass nondimensional_end_to_end_length_per_link temperature)
  /\ (forall (number_of_links : Z) (nondimensional_end_to_end_length_per_link : T),
     extern.physics_single_chain_ideal_thermodynamics_isometric_nondimensional_relative_helmholtz_free_energy number_of_links nondimensional_end_to_end_length_per_link
     = ideal_isometric.nondimensional_relative_helmholtz_free_energy number_of_links nondimensional_end_to_end_length_per_link)
  /\ (forall (nondimensional_end_to_end_length_per_link : T),
     extern.physics_single_chain_ideal_thermodynamics_isometric_nondimensional_relative_helmholtz_free_energy_per_link nondimensional_end_to_end_length_per_link
     = ideal_isometric.nondimensional_relative_helmholtz_free_energy_per_link nondimensional_end_to_end_length_per_link)
  /\ (forall (number_of_links : Z) (link_length : T) (end_to_end_length : T),
     extern.physics_single_chain_ideal_thermodynamics_isometric_equilibrium_distribution number_of_links link_length end_to_end_length
     = ideal_isometric.equilibrium_distribution number_of_links link_length end_to_end_length)
  /\ (forall (number_of_links : Z) (nondimensional_end_to_end_length_per_link : T),
     extern.physics_single_chain_ideal_thermodynamics_isometric_nondimensional_equilibrium_distribution number_of_links nondimensional_end_to_end_length_per_link
     = ideal_isometric.nondimensional_equilibrium_distribution number_of_links nondimensional_end_to_end_length_per_link)
  /\ (forall (number_of_links : Z) (link_length : T) (end_to_end_length : T),
     extern.physics_single_chain_ideal_thermodynamics_isometric_equilibrium_radial_distribution number_of_links link_length end_to_end_length
     = ideal_isometric.equilibrium_radial_distribution number_of_links link_length end_to_end_length)
  /\ (forall (number_of_links : Z) (nondimensional_end_to_end_length_per_link : T),
     extern.physics_single_chain_ideal_thermodynamics_isometric_nondimensional_equilibrium_radial_distribution number_of_links nondimensional_end_to_end_length_per_link
     = ideal_isometric.nondimensional_equilibrium_radial_distribution number_of_links nondimensional_end_to_end_length_per_link).
Proof. intros; repeat split. Qed.
Print Assumptions C59_ideal_isometric.

Theorem C59_ideal_isotensional : forall (T : Type) (Sc : Scalar T),
  (forall (number_of_links : Z) (link_length : T) (force : T) (temperature : T),
     extern.physics_single_chain_ideal_thermodynamics_isotensional_end_to_end_length number_of_links link_length force temperature
     = ideal_isotensional.end_to_end_length number_of_links link_length force temperature)
  /\ (forall (link_length : T) (force : T) (temperature : T),
     extern.physics_single_chain_ideal_thermodynamics_isotensional_end_to_end_length_per_link link_length force temperature
     = ideal_isotensional.end_to_end_length_per_link link_length force temperature)
  /\ (forall (number_of_links : Z) (nondimensional_force : T),
     extern.physics_single_chain_ideal_thermodynamics_isotensional_nondimensional_end_to_end_length number_of_links nondimensional_force
     = ideal_isotensional.nondimensional_end_to_end_length number_of_links nondimensional_force)
  /\ (forall (nondimensional_force : T),
     extern.physics_single_chain_ideal_thermodynamics_isotensional_nondimensional_end_to_end_length_per_link nondimensional_force
     = ideal_isotensional.nondimensional_end_to_end_length_per_link nondimensional_force)
  /\ (forall (number_of_links : Z) (link_length : T) (hinge_mass : T) (force : T) (temperature : T),
     extern.physics_single_chain_ideal_thermodynamics_isotensional_gibbs_free_energy number_of_links link_length hinge_mass force temperature
     = ideal_isotensional.gibbs_free_energy number_of_links link_length hinge_mass force temperature)
  /\ (forall (link_length : T) (hinge_mass : T) (force : T) (temperature : T),
     extern.physics_single_chain_ideal_thermodynamics_isotensional_gibbs_free_energy_per_link link_length hinge_mass force temperature
     = ideal_isotensional.gibbs_free_energy_per_link link_length hinge_mass force temperature)
  /\ (forall (number_of_links : Z) (link_length : T) (force : T) (temperature : T),
     extern.physics_single_chain_ideal_thermodynamics_isotensional_relative_gibbs_free_energy number_of_links link_length force temperature
     = ideal_isotensional.relative_gibbs_free_energy number_of_links link_length force temperature)
  /\ (forall (link_length : T) (force : T) (temperature : T),
     extern.physics_single_chain_ideal_thermodynamics_isotensional_relative_gibbs_free_energy_per_link link_length force temperature
     = ideal_isotensional.relative_gibbs_free_energy_per_link link_length force temperature)
  /\ (forall (number_of_links : Z) (link_length : T) (hinge_mass : T) (nondimensional_force : T) (temperature : T),
     extern.physics_single_chain_ideal_thermodynamics_isotensional_nondimensional_gibbs_free_energy number_of_links link_length hinge_mass nondimensional_force temperature
     = ideal_isotensional.nondimensional_gibbs_free_energy number_of_links link_length hinge_mass nondimensional_force temperature)
  /\ (forall (link_length : T) (hinge_mass : T) (nondimensional_force : T) (temperature : T),
     extern.physics_single_chain_ideal_thermodynamics_isotensional_nondimensional_gibbs_free_energy_per_link link_length hinge_mass nondimensional_force temperature
     = ideal_isotensional.nondimensional_gibbs_free_energy_per_link link_length hinge_mass nondimensional_force temperature)
  /\ (forall (number_of_links : Z) (nondimensional_force : T),
     extern.physics_single_chain_ideal_thermodynamics_isotensional_nondimensional_relative_gibbs_free_energy number_of_links nondimensional_force
     = ideal_isotensional.nondimensional_relative_gibbs_free_energy number_of_links nondimensional_force)
  /\ (forall (nondimensional_force : T),
     extern.physics_single_chain_ideal_thermodynamics_isotensional_nondimensional_relative_gibbs_free_energy_per_link nondimensional_force
     = ideal_isotensional.nondimensional_relative_gibbs_free_energy_per_link nondimensional_force).
Proof. intros; repeat split. Qed.
Print Assumptions C59_ideal_isotensional.

Theorem C59_swfjc_isometric_legendre : forall (T : Type) (Sc : Scalar T),
  (forall (number_of_links : Z) (link_length : T) (well_width : T) (end_to_end_length : T) (temperature : T),
     extern.physics_single_chain_swfjc_thermodynamics_isometric_legendre_force number_of_links link_length well_width end_to_end_length temperature
     = swfjc_isometric_legendre.force number_of_links link_length well_width end_to_end_length temperature)
  /\ (forall (link_length : T) (well_width : T) (nondimensional_end_to_end_length_per_link : T),
     extern.physics_single_chain_swfjc_thermodynamics_isometric_legendre_nondimensional_force link_length well_width nondimensional_end_to_end_length_per_link
     = swfjc_isometric_legendre.nondimensional_force link_length well_width nondimensional_end_to_end_length_per_link)
  /\ (forall (number_of_links : Z) (link_length : T) (hinge_mass : T) (well_width : T) (end_to_end_length : T) (temperature : T),
     extern.physics_single_chain_swfjc_thermodynamics_isometric_legendre_helmholtz_free_energy number_of_links link_length hinge_mass well_width end_to_end_length temperature
     = swfjc_isometric_legendre.helmholtz_free_energy number_of_links link_length hinge_mass well_width end_to_end_length temperature)
  /\ (forall (number_of_links : Z) (link_length : T) (hinge_mass : T) (well_width : T) (end_to_end_length : T) (temperature : T),
     extern.physics_single_chain_swfjc_thermodynamics_isometric_legendre_helmholtz_free_energy_per_link number_of_links link_length hinge_mass well_width end_to_end_length temperature
     = swfjc_isometric_legendre.helmholtz_free_energy_per_link number_of_links link_length hinge_mass well_width end_to_end_length temperature)
  /\ (forall (number_of_links : Z) (link_length : T) (well_width : T) (end_to_end_length : T) (temperature : T),
     extern.physics_single_chain_swfjc_thermodynamics_isometric_legendre_relative_helmholtz_free_energy number_of_links link_length well_width end_to_end_length temperature
     = swfjc_isometric_legendre.relative_helmholtz_free_energy number_of_links link_length well_width end_to_end_length temperature)
  /\ (forall (number_of_links : Z) (link_length : T) (well_width : T) (end_to_end_length : T) (temperature : T),
     extern.physics_single_chain_swfjc_thermodynamics_isometric_legendre_relative_helmholtz_free_energy_per_link number_of_links link_length well_width end_to_end_length temperature
     = swfjc_isometric_legendre.relative_helmholtz_free_energy_per_link number_of_links link_length well_width end_to_end_length temperature)
  /\ (forall (number_of_links : Z) (link_length : T) (hinge_mass : T) (well_width : T) (nondimensional_end_to_end_length_per_link : T) (temperature : T),
     extern.physics_single_chain_swfjc_thermodynamics_isometric_legendre_nondimensional_helmholtz_free_energy number_of_links link_length hinge_mass well_width nondimensional_end_to_end_length_per_link temperature
     = swfjc_isometric_legendre.nondimensional_helmholtz_free_energy number_of_links link_length hinge_mass well_width nondimensional_end_to_end_length_per_link temperature)
  /\ (forall (number_of_links : Z) (link_length : T) (hinge_mass : T) (well_width : T) (nondimensional_end_to_end_length_per_link : T) (temperature : T),
     extern.physics_single_chain_swfjc_thermodynamics_isometric_legendre_nondimensional_helmholtz_free_energy_per_link number_of_links link_length hinge_mass well_width nondimensional_end_to_end_length_per_link temperature
     = swfjc_isometric_legendre.nondimensional_helmholtz_free_energy_per_link number_of_links link_length hinge_mass well_width nondimensional_end_to_end_length_per_link temperature)
  /\ (forall (number_of_links : Z) (link_length : T) (well_width : T) (nondimensional_end_to_end_length_per_link : T),
     extern.physics_single_chain_swfjc_thermodynamics_isometric_legendre_nondimensional_relative_helmholtz_free_energy number_of_links link_length well_width nondimensional_end_to_end_length_per_link
     = swfjc_isometric_legendre.nondimensional_relative_helmholtz_free_energy number_of_links link_length well_width nondimensional_end_to_end_length_per_link)
  /\ (forall (link_length : T) (well_width : T) (nondimensional_end_to_end_length_per_link : T),
     extern.physics_single_chain_swfjc_thermodynamics_isometric_legendre_nondimensional_relative_helmholtz_free_energy_per_link link_length well_width nondimensional_end_to_end_length_per_link
     = swfjc_isometric_legendre.nondimensional_relative_helmholtz_free_energy_per_link link_length well_width nondimensional_end_to_end_length_per_link)
  /\ (forall (number_of_links : Z) (link_length : T) (well_width : T) (normalization_nondimensional_equilibrium_distribution : T) (end_to_end_length : T),
     extern.physics_single_chain_swfjc_thermodynamics_isometric_legendre_equilibrium_distribution number_of_links link_length well_width normalization_nondimensional_equilibrium_distribution end_to_end_length
     = swfjc_isometric_legendre.equilibrium_distribution number_of_links link_length well_width normalization_nondimensional_equilibrium_distribution end_to_end_length)
  /\ (forall (number_of_links : Z) (link_length : T) (well_width : T) (normalization_nondimensional_equilibrium_distribution : T) (nondimensional_end_to_end_length_per_link : T),
     extern.physics_single_chain_swfjc_thermodynamics_isometric_legendre_nondimensional_equilibrium_distribution number_of_links link_length well_width normalization_nondimensional_equilibrium_distribution nondimensional_end_to_end_length_per_link
     = swfjc_isometric_legendre.nondimensional_equilibrium_distribution number_of_links link_length well_width normalization_nondimensional_equilibrium_distribution nondimensional_end_to_end_length_per_link)
  /\ (forall (number_of_links : Z) (link_length : T) (well_width : T) (normalization_nondimensional_equilibrium_distribution : T) (end_to_end_length : T),
     extern.physics_single_chain_swfjc_thermodynamics_isometric_legendre_equilibrium_radial_distribution number_of_links link_length well_width normalization_nondimensional_equilibrium_distribution end_to_end_length
     = swfjc_isometric_legendre.equilibrium_radial_distribution number_of_links link_length well_width normalization_nondimensional_equilibrium_distribution end_to_end_length)
  /\ (forall (number_of_links : Z) (link_length : T) (well_width : T) (normalization_nondimensional_equilibrium_distribution : T) (nondimensional_end_to_end_length_per_link : T),
     extern.physics_single_chain_swfjc_thermodynamics_isometric_legendre_nondimensional_equilibrium_radial_distribution number_of_links link_length well_width normalization_nondimensional_equilibrium_distribution nondimensional_end_to_end_length_per_link
     = swfjc_isometric_legendre.nondimensional_equilibrium_radial_distribution number_of_links link_length well_width normalization_nondimensional_equilibrium_distribution nondimensional_end_to_end_length_per_link).
Proof. intros; repeat split. Qed.
Print Assumptions C59_swfjc_isometric_legendre.

Theorem C59_swfjc_isotensional : forall (T : Type) (Sc : Scalar T),
  (forall (number_of_links : Z) (link_length : T) (well_width : T) (force : T) (temperature : T),
     extern.physics_single_chain_swfjc_thermodynamics_isotensional_end_to_end_length number_of_links link_length well_width force temperature
     = swfjc_isotensional.end_to_end_length number_of_links link_length well_width force temperature)
  /\ (forall (link_length : T) (well_width : T) (force : T) (temperature : T),
     extern.physics_single_chain_swfjc_thermodynamics_isotensional_end_to_end_length_per_link link_length well_width force temperature
     = swfjc_isotensional.end_to_end_length_per_link link_length well_width force temperature)
  /\ (forall (number_of_links : Z) (link_length : T) (well_width : T) (nondimensional_force : T),
     extern.physics_single_chain_swfjc_thermodynamics_isotensional_nondimensional_end_to_end_length number_of_links link_length well_width nondimensional_force
     = swfjc_isotensional.nondimensional_end_to_end_length number_of_links link_length well_width nondimensional_force)
  /\ (forall (link_length : T) (well_width : T) (nondimensional_force : T),
     extern.physics_single_chain_swfjc_thermodynamics_isotensional_nondimensional_end_to_end_length_per_link link_length well_width nondimensional_force
     = swfjc_isotensional.nondimensional_end_to_end_length_per_link link_length well_width nondimensional_force)
  /\ (forall (number_of_links : Z) (link_length : T) (hinge_mass : T) (well_width : T) (force : T) (temperature : T),
     extern.physics_single_chain_swfjc_thermodynamics_isotensional_gibbs_free_energy number_of_links link_length hinge_mass well_width force temperature
     = swfjc_isotensional.gibbs_free_energy number_of_links link_length hinge_mass well_width force temperature)
  /\ (forall (link_length : T) (hinge_mass : T) (well_width : T) (force : T) (temperature : T),
     extern.physics_single_chain_swfjc_thermodynamics_isotensional_gibbs_free_energy_per_link link_length hinge_mass well_width force temperature
     = swfjc_isotensional.gibbs_free_energy_per_link link_length hinge_mass well_width force temperature)
  /\ (forall (number_of_links : Z) (link_length : T) (well_width : T) (force : T) (temperature : T),
     extern.physics_single_chain_swfjc_thermodynamics_isotensional_relative_gibbs_free_energy number_of_links link_length well_width force temperature
     = swfjc_isotensional.relative_gibbs_free_energy number_of_links link_length well_width force temperature)
  /\ (forall (link_length : T) (well_width : T) (force : T) (temperature : T),
     extern.physics_single_chain_swfjc_thermodynamics_isotensional_relative_gibbs_free_energy_per_link link_length well_width force temperature
     = swfjc_isotensional.relative_gibbs_free_energy_per_link link_length well_width force temperature)
  /\ (forall (number_of_links : Z) (link_length : T) (hinge_mass : T) (well_width : T) (nondimensional_force : T) (temperature : T),
     extern.physics_single_chain_swfjc_thermodynamics_isotensional_nondimensional_gibbs_free_energy number_of_links link_length hinge_mass well_width nondimensional_force temperature
     = swfjc_isotensional.nondimensional_gibbs_free_energy number_of_links link_length hinge_mass well_width nondimensional_force temperature)
  /\ (forall (link_length : T) (hinge_mass : T) (well_width : T) (nondimensional_force : T) (temperature : T),
     extern.physics_single_chain_swfjc_thermodynamics_isotensional_nondimensional_gibbs_free_energy_per_link link_length hinge_mass well_width nondimensional_force temperature
     = swfjc_isotensional.nondimensional_gibbs_free_energy_per_link link_length hinge_mass well_width nondimensional_force temperature)
  /\ (forall (number_of_links : Z) (link_length : T) (well_width : T) (nondimensional_force : T),
     extern.physics_single_chain_swfjc_thermodynamics_isotensional_nondimensional_relative_gibbs_free_energy number_of_links link_length well_width nondimensional_force
     = swfjc_isotensional.nondimensional_relative_gibbs_free_energy number_of_links link_length well_width nondimensional_force)
  /\ (forall (link_length : T) (well_width : T) (nondimensional_force : T),
     extern.physics_single_chain_swfjc_thermodynamics_isotensional_nondimensional_relative_gibbs_free_energy_per_link link_length well_width nondimensional_force
     = swfjc_isotensional.nondimensional_relative_gibbs_free_energy_per_link link_length well_width nondimensional_force).
Proof. intros; repeat split. Qed.
Print Assumptions C59_swfjc_isotensional.

Theorem C59_swfjc_isotensional_legendre : forall (T : Type) (Sc : Scalar T),
  (forall (number_of_links : Z) (link_length : T) (hinge_mass : T) (well_width : T) (force : T) (temperature : T),
     extern.physics_single_chain_swfjc_thermodynamics_isotensional_legendre_helmholtz_free_energy number_of_links link_length hinge_mass well_width force temperature
     = swfjc_isotensional_legendre.helmholtz_free_energy number_of_links link_length hinge_mass well_width force temperature)
  /\ (forall (link_length : T) (hinge_mass : T) (well_width : T) (force : T) (temperature : T),
     extern.physics_single_chain_swfjc_thermodynamics_isotensional_legendre_helmholtz_free_energy_per_link link_length hinge_mass well_width force temperature
     = swfjc_isotensional_legendre.helmholtz_free_energy_per_link link_length hinge_mass well_width force temperature)
  /\ (forall (number_of_links : Z) (link_length : T) (well_width : T) (force : T) (temperature : T),
     extern.physics_single_chain_swfjc_thermodynamics_isotensional_legendre_relative_helmholtz_free_energy number_of_links link_length well_width force temperature
     = swfjc_isotensional_legendre.relative_helmholtz_free_energy number_of_links link_length well_width force temperature)
  /\ (forall (link_length : T) (well_width : T) (force : T) (temperature : T),
     extern.physics_single_chain_swfjc_thermodynamics_isotensional_legendre_relative_helmholtz_free_energy_per_link link_length well_width force temperature
     = swfjc_isotensional_legendre.relative_helmholtz_free_energy_per_link link_length well_width force temperature)
  /\ (forall (number_of_links : Z) (link_length : T) (hinge_mass : T) (well_width : T) (nondimensional_force : T) (temperature : T),
     extern.physics_single_chain_swfjc_thermodynamics_isotensional_legendre_nondimensional_helmholtz_free_energy number_of_links link_length hinge_mass well_width nondimensional_force temperature
     = swfjc_isotensional_legendre.nondimensional_helmholtz_free_energy number_of_links link_length hinge_mass well_width nondimensional_force temperature)
  /\ (forall (link_length : T) (hinge_mass : T) (well_width : T) (nondimensional_force : T) (temperature : T),
     extern.physics_single_chain_swfjc_thermodynamics_isotensional_legendre_nondimensional_helmholtz_free_energy_per_link link_length hinge_mass well_width nondimensional_force temperature
     = swfjc_isotensional_legendre.nondimensional_helmholtz_free_energy_per_link link_length hinge_mass well_width nondimensional_force temperature)
  /\ (forall (number_of_links : Z) (link_length : T) (well_width : T) (nondimensional_force : T),
     extern.physics_single_chain_swfjc_thermodynamics_isotensional_legendre_nondimensional_relative_helmholtz_free_energy number_of_links link_length well_width nondimensional_force
     = swfjc_isotensional_legendre.nondimensional_relative_helmholtz_free_energy number_of_links link_length well_width nondimensional_force)
  /\ (forall (link_length : T) (well_width : T) (nondimensional_force : T),
     extern.physics_single_chain_swfjc_thermodynamics_isotensional_legendre_nondimensional_relative_helmholtz_free_energy_per_link link_length well_width nondimensional_force
     = swfjc_isotensional_legendre.nondimensional_relative_helmholtz_free_energy_per_link link_length well_width nondimensional_force).
Proof. intros; repeat split. Qed.
Print Assumptions C59_swfjc_isotensional_legendre.

Theorem C59_lennard_jones_isometric_asymptotic_legendre : forall (T : Type) (Sc : Scalar T),
  (forall (number_of_links : Z) (link_length : T) (link_stiffness : T) (end_to_end_length : T) (temperature : T),
     extern.physics_single_chain_ufjc_lennard_jones_thermodynamics_isometric_asymptotic_legendre_force number_of_links link_length link_stiffness end_to_end_length temperature
     = lennard_jones_isometric_asymptotic_legendre.force number_of_links link_length link_stiffness end_to_end_length temperature)
  /\ (forall (nondimensional_link_stiffness : T) (nondimensional_end_to_end_length_per_link : T),
     extern.physics_single_chain_ufjc_lennard_jones_thermodynamics_isometric_asymptotic_legendre_nondimensional_force nondimensional_link_stiffness nondimensional_end_to_end_length_per_link
     = lennard_jones_isometric_asymptotic_legendre.nondimensional_force nondimensional_link_stiffness nondimensional_end_to_end_length_per_link)
  /\ (forall (number_of_links : Z) (link_length : T) (hinge_mass : T) (link_stiffness : T) (end_to_end_length : T) (temperature : T),
     extern.physics_single_chain_ufjc_lennard_jones_thermodynamics_isometric_asymptotic_legendre_helmholtz_free_energy number_of_links link_length hinge_mass link_stiffness end_to_end_length temperature
     = lennard_jones_isometric_asymptotic_legendre.helmholtz_free_energy number_of_links link_length hinge_mass link_stiffness end_to_end_length temperature)
  /\ (forall (number_of_links : Z) (link_length : T) (hinge_mass : T) (link_stiffness : T) (end_to_end_length : T) (temperature : T),
     extern.physics_single_chain_ufjc_lennard_jones_thermodynamics_isometric_asymptotic_legendre_helmholtz_free_energy_per_link number_of_links link_length hinge_mass link_stiffness end_to_end_length temperature
     = lennard_jones_isometric_asymptotic_legendre.helmholtz_free_energy_per_link number_of_links link_length hinge_mass link_stiffness end_to_end_length temperature)
  /\ (forall (number_of_links : Z) (link_length : T) (link_stiffness : T) (end_to_end_length : T) (temperature : T),
     extern.physics_single_chain_ufjc_lennard_jones_thermodynamics_isometric_asymptotic_legendre_relative_helmholtz_free_energy number_of_links link_length link_stiffness end_to_end_length temperature
     = lennard_jones_isometric_asymptotic_legendre.relative_helmholtz_free_energy number_of_links link_length link_stiffness end_to_end_length temperature)
  /\ (forall (number_of_links : Z) (link_length : T) (link_stiffness : T) (end_to_end_length : T) (temperature : T),
     extern.physics_single_chain_ufjc_lennard_jones_thermodynamics_isometric_asymptotic_legendre_relative_helmholtz_free_energy_per_link number_of_links link_length link_stiffness end_to_end_length temperature
     = lennard_jones_isometric_asymptotic_legendre.relative_helmholtz_free_energy_per_link number_of_links link_length link_stiffness end_to_end_length temperature)
  /\ (forall (number_of_links : Z) (link_length : T) (hinge_mass : T) (nondimensional_link_stiffness : T) (nondimensional_end_to_end_length_per_link : T) (temperature : T),
     extern.physics_single_chain_ufjc_lennard_jones_thermodynamics_isometric_asymptotic_legendre_nondimensional_helmholtz_free_energy number_of_links link_length hinge_mass nondimensional_link_stiffness nondimensional_end_to_end_length_per_link temperature
     = lennard_jones_isometric_asymptotic_legendre.nondimensional_helmholtz_free_energy number_of_links link_length hinge_mass nondimensional_link_stiffness nondimensional_end_to_end_length_per_link temperature)
  /\ (forall (number_of_links : Z) (link_length : T) (hinge_mass : T) (nondimensional_link_stiffness : T) (nondimensional_end_to_end_length_per_link : T) (temperature : T),
     extern.physics_single_chain_ufjc_lennard_jones_thermodynamics_isometric_asymptotic_legendre_nondimensional_helmholtz_free_energy_per_link number_of_links link_length hinge_mass nondimensional_link_stiffness nondimensional_end_to_end_length_per_link temperature
     = lennard_jones_isometric_asymptotic_legendre.nondimensional_helmholtz_free_energy_per_link number_of_links link_length hinge_mass nondimensional_link_stiffness nondimensional_end_to_end_length_per_link temperature)
  /\ (forall (number_of_links : Z) (nondimensional_link_stiffness : T) (nondimensional_end_to_end_length_per_link : T),
     extern.physics_single_chain_ufjc_lennard_jones_thermodynamics_isometric_asymptotic_legendre_nondimensional_relative_helmholtz_free_energy number_of_links nondimensional_link_stiffness nondimensional_end_to_end_length_per_link
     = lennard_jones_isometric_asymptotic_legendre.nondimensional_relative_helmholtz_free_energy number_of_links nondimensional_link_stiffness nondimensional_end_to_end_length_per_link)
  /\ (forall (nondimensional_link_stiffness : T) (nondimensional_end_to_end_length_per_link : T),
     extern.physics_single_chain_ufjc_lennard_jones_thermodynamics_isometric_asymptotic_legendre_nondimensional_relative_helmholtz_free_energy_per_link nondimensional_link_stiffness nondimensional_end_to_end_length_per_link
     = lennard_jones_isometric_asymptotic_legendre.nondimensional_relative_helmholtz_free_energy_per_link nondimensional_link_stiffness nondimensional_end_to_end_length_per_link).
Proof. intros; repeat split. Qed.
Print Assumptions C59_lennard_jones_isometric_asymptotic_legendre.

Theorem C59_lennard_jones_isometric_asymptotic_reduced_legendre : forall (T : Type) (Sc : Scalar T),
  (forall (number_of_links : Z) (link_length : T) (link_stiffness : T) (end_to_end_length : T) (temperature : T),
     extern.physics_single_chain_ufjc_lennard_jones_thermodynamics_isometric_asymptotic_reduced_legendre_force number_of_links link_length link_stiffness end_to_end_length temperature
     = lennard_jones_isometric_asymptotic_reduced_legendre.force number_of_links link_length link_stiffness end_to_end_length temperature)
  /\ (forall (nondimensional_link_stiffness : T) (nondimensional_end_to_end_length_per_link : T),
     extern.physics_single_chain_ufjc_lennard_jones_thermodynamics_isometric_asymptotic_reduced_legendre_nondimensional_force nondimensional_link_stiffness nondimensional_end_to_end_length_per_link
     = lennard_jones_isometric_asymptotic_reduced_legendre.nondimensional_force nondimensional_link_stiffness nondimensional_end_to_end_length_per_link)
  /\ (forall (number_of_links : Z) (link_length : T) (hinge_mass : T) (link_stiffness : T) (end_to_end_length : T) (temperature : T),
     extern.physics_single_chain_ufjc_lennard_jones_thermodynamics_isometric_asymptotic_reduced_legendre_helmholtz_free_energy number_of_links link_length hinge_mass link_stiffness end_to_end_length temperature
     = lennard_jones_isometric_asymptotic_reduced_legendre.helmholtz_free_energy number_of_links link_length hinge_mass link_stiffness end_to_end_length temperature)
  /\ (forall (number_of_links : Z) (link_length : T) (hinge_mass : T) (link_stiffness : T) (end_to_end_length : T) (temperature : T),
     extern.physics_single_chain_ufjc_lennard_jones_thermodynamics_isometric_asymptotic_reduced_legendre_helmholtz_free_energy_per_link number_of_links link_length hinge_mass link_stiffness end_to_end_length temperature
     = lennard_jones_isometric_asymptotic_reduced_legendre.helmholtz_free_energy_per_link number_of_links link_length hinge_mass link_stiffness end_to_end_length temperature)
  /\ (forall (number_of_links : Z) (link_length : T) (link_stiffness : T) (end_to_end_length : T) (temperature : T),
     extern.physics_single_chain_ufjc_lennard_jones_thermodynamics_isometric_asymptotic_reduced_legendre_relative_helmholtz_free_energy number_of_links link_length link_stiffness end_to_end_length temperature
     = lennard_jones_isometric_asymptotic_reduced_legendre.relative_helmholtz_free_energy number_of_links link_length link_stiffness end_to_end_length temperature)
  /\ (forall (number_of_links : Z) (link_length : T) (link_stiffness : T) (end_to_end_length : T) (temperature : T),
     extern.physics_single_chain_ufjc_lennard_jones_thermodynamics_isometric_asymptotic_reduced_legendre_relative_helmholtz_free_energy_per_link number_of_links link_length link_stiffness end_to_end_length temperature
     = lennard_jones_isometric_asymptotic_reduced_legendre.relative_helmholtz_free_energy_per_link number_of_links link_length link_stiffness end_to_end_length temperature)
  /\ (forall (number_of_links : Z) (link_length : T) (hinge_mass : T) (nondimensional_link_stiffness : T) (nondimensional_end_to_end_length_per_link : T) (temperature : T),
     extern.physics_single_chain_ufjc_lennard_jones_thermodynamics_isometric_asymptotic_reduced_legendre_nondimensional_helmholtz_free_energy number_of_links link_length hinge_mass nondimensional_link_stiffness nondimensional_end_to_end_length_per_link temperature
     = lennard_jones_isometric_asymptotic_reduced_legendre.nondimensional_helmholtz_free_energy number_of_links link_length hinge_mass nondimensional_link_stiffness nondimensional_end_to_end_length_per_link temperature)
  /\ (forall (number_of_links : Z) (link_length : T) (hinge_mass : T) (nondimensional_link_stiffness : T) (nondimensional_end_to_end_length_per_link : T) (temperature : T),
     extern.physics_single_chain_ufjc_lennard_jones_thermodynamics_isometric_asymptotic_reduced_legendre_nondimensional_helmholtz_free_energy_per_link number_of_links link_length hinge_mass nondimensional_link_stiffness nondimensional_end_to_end_length_per_link temperature
     = lennard_jones_isometric_asymptotic_reduced_legendre.nondimensional_helmholtz_free_energy_per_link number_of_links link_length hinge_mass nondimensional_link_stiffness nondimensional_end_to_end_length_per_link temperature)
  /\ (forall (number_of_links : Z) (nondimensional_link_stiffness : T) (nondimensional_end_to_end_length_per_link : T),
     extern.physics_single_chain_ufjc_lennard_jones_thermodynamics_isometric_asymptotic_reduced_legendre_nondimensional_relative_helmholtz_free_energy number_of_links nondimensional_link_stiffness nondimensional_end_to_end_length_per_link
     = lennard_jones_isometric_asymptotic_reduced_legendre.nondimensional_relative_helmholtz_free_energy number_of_links nondimensional_link_stiffness nondimensional_end_to_end_length_per_link)
  /\ (forall (nondimensional_link_stiffness : T) (nondimensional_end_to_end_length_per_link : T),
     extern.physics_single_chain_ufjc_lennard_jones_thermodynamics_isometric_asymptotic_reduced_legendre_nondimensional_relative_helmholtz_free_energy_per_link nondimensional_link_stiffness nondimensional_end_to_end_length_per_link
     = lennard_jones_isometric_asymptotic_reduced_legendre.nondimensional_relative_helmholtz_free_energy_per_link nondimensional_link_stiffness nondimensional_end_to_end_length_per_link).
Proof. intros; repeat split. Qed.
Print Assumptions C59_lennard_jones_isometric_asymptotic_reduced_legendre.

Theorem C59_lennard_jones_isotensional : forall (T : Type) (Sc : Scalar T),
  (forall (number_of_links : Z) (link_length : T) (link_stiffness : T) (force : T) (temperature : T),
     extern.physics_single_chain_ufjc_lennard_jones_thermodynamics_isotensional_end_to_end_length number_of_links link_length link_stiffness force temperature
     = lennard_jones_isotensional.end_to_end_length number_of_links link_length link_stiffness force temperature)
  /\ (forall (link_length : T) (link_stiffness : T) (force : T) (temperature : T),
     extern.physics_single_chain_ufjc_lennard_jones_thermodynamics_isotensional_end_to_end_length_per_link link_length link_stiffness force temperature
     = lennard_jones_isotensional.end_to_end_length_per_link link_length link_stiffness force temperature)
  /\ (forall (number_of_links : Z) (nondimensional_link_stiffness : T) (nondimensional_force : T),
     extern.physics_single_chain_ufjc_lennard_jones_thermodynamics_isotensional_nondimensional_end_to_end_length number_of_links nondimensional_link_stiffness nondimensional_force
     = lennard_jones_isotensional.nondimensional_end_to_end_length number_of_links nondimensional_link_stiffness nondimensional_force)
  /\ (forall (nondimensional_link_stiffness : T) (nondimensional_force : T),
     extern.physics_single_chain_ufjc_lennard_jones_thermodynamics_isotensional_nondimensional_end_to_end_length_per_link nondimensional_link_stiffness nondimensional_force
     = lennard_jones_isotensional.nondimensional_end_to_end_length_per_link nondimensional_link_stiffness nondimensional_force)
  /\ (forall (number_of_links : Z) (link_length : T) (hinge_mass : T) (link_stiffness : T) (force : T) (temperature : T),
     extern.physics_single_chain_ufjc_lennard_jones_thermodynamics_isotensional_gibbs_free_energy number_of_links link_length hinge_mass link_stiffness force temperature
     = lennard_jones_isotensional.gibbs_free_energy number_of_links link_length hinge_mass link_stiffness force temperature)
  /\ (forall (link_length : T) (hinge_mass : T) (link_stiffness : T) (force : T) (temperature : T),
     extern.physics_single_chain_ufjc_lennard_jones_thermodynamics_isotensional_gibbs_free_energy_per_link link_length hinge_mass link_stiffness force temperature
     = lennard_jones_isotensional.gibbs_free_energy_per_link link_length hinge_mass link_stiffness force temperature)
  /\ (forall (number_of_links : Z) (link_length : T) (link_stiffness : T) (force : T) (temperature : T),
     extern.physics_single_chain_ufjc_lennard_jones_thermodynamics_isotensional_relative_gibbs_free_energy number_of_links link_length link_stiffness force temperature
     = lennard_jones_isotensional.relative_gibbs_free_energy number_of_links link_length link_stiffness force temperature)
  /\ (forall (link_length : T) (link_stiffness : T) (force : T) (temperature : T),
     extern.physics_single_chain_ufjc_lennard_jones_thermodynamics_isotensional_relative_gibbs_free_energy_per_link link_length link_stiffness force temperature
     = lennard_jones_isotensional.relative_gibbs_free_energy_per_link link_length link_stiffness force temperature)
  /\ (forall (number_of_links : Z) (link_length : T) (hinge_mass : T) (nondimensional_link_stiffness : T) (nondimensional_force : T) (temperature : T),
     extern.physics_single_chain_ufjc_lennard_jones_thermodynamics_isotensional_nondimensional_gibbs_free_energy number_of_links link_length hinge_mass nondimensional_link_stiffness nondimensional_force temperature
     = lennard_jones_isotensional.nondimensional_gibbs_free_energy number_of_links link_length hinge_mass nondimensional_link_stiffness nondimensional_force temperature)
  /\ (forall (link_length : T) (hinge_mass : T) (nondimensional_link_stiffness : T) (nondimensional_force : T) (temperature : T),
     extern.physics_single_chain_ufjc_lennard_jones_thermodynamics_isotensional_nondimensional_gibbs_free_energy_per_link link_length hinge_mass nondimensional_link_stiffness nondimensional_force temperature
     = lennard_jones_isotensional.nondimensional_gibbs_free_energy_per_link link_length hinge_mass nondimensional_link_stiffness nondimensional_force temperature)
  /\ (forall (number_of_links : Z) (nondimensional_link_stiffness : T) (nondimensional_force : T),
     extern.physics_single_chain_ufjc_lennard_jones_thermodynamics_isotensional_nondimensional_relative_gibbs_free_energy number_of_links nondimensional_link_stiffness nondimensional_force
     = lennard_jones_isotensional.nondimensional_relative_gibbs_free_energy number_of_links nondimensional_link_stiffness nondimensional_force)
  /\ (forall (nondimensional_link_stiffness : T) (nondimensional_force : T),
     extern.physics_single_chain_ufjc_lennard_jones_thermodynamics_isotensional_nondimensional_relative_gibbs_free_energy_per_link nondimensional_link_stiffness nondimensional_force
     = lennard_jones_isotensional.nondimensional_relative_gibbs_free_energy_per_link nondimensional_link_stiffness nondimensional_force).
Proof. intros; repeat split. Qed.
Print Assumptions C59_lennard_jones_isotensional.

Theorem C59_lennard_jones_isotensional_asymptotic : forall (T : Type) (Sc : Scalar T),
  (forall (number_of_links : Z) (link_length : T) (link_stiffness : T) (force : T) (temperature : T),
     extern.physics_single_chain_ufjc_lennard_jones_thermodynamics_isotensional_asymptotic_end_to_end_length number_of_links link_length link_stiffness force temperature
     = lennard_jones_isotensional_asymptotic.end_to_end_length number_of_links link_length link_stiffness force temperature)
  /\ (forall (link_length : T) (link_stiffness : T) (force : T) (temperature : T),
     extern.physics_single_chain_ufjc_lennard_jones_thermodynamics_isotensional_asymptotic_end_to_end_length_per_link link_length link_stiffness force temperature
     = lennard_jones_isotensional_asymptotic.end_to_end_length_per_link link_length link_stiffness force temperature)
  /\ (forall (number_of_links : Z) (nondimensional_link_stiffness : T) (nondimensional_force : T),
     extern.physics_single_chain_ufjc_lennard_jones_thermodynamics_isotensional_asymptotic_nondimensional_end_to_end_length number_of_links nondimensional_link_stiffness nondimensional_force
     = lennard_jones_isotensional_asymptotic.nondimensional_end_to_end_length number_of_links nondimensional_link_stiffness nondimensional_force)
  /\ (forall (nondimensional_link_stiffness : T) (nondimensional_force : T),
     extern.physics_single_chain_ufjc_lennard_jones_thermodynamics_isotensional_asymptotic_nondimensional_end_to_end_length_per_link nondimensional_link_stiffness nondimensional_force
     = lennard_jones_isotensional_asymptotic.nondimensional_end_to_end_length_per_link nondimensional_link_stiffness nondimensional_force)
  /\ (forall (number_of_links : Z) (link_length : T) (hinge_mass : T) (link_stiffness : T) (force : T) (temperature : T),
     extern.physics_single_chain_ufjc_lennard_jones_thermodynamics_isotensional_asymptotic_gibbs_free_energy number_of_links link_length hinge_mass link_stiffness force temperature
     = lennard_jones_isotensional_asymptotic.gibbs_free_energy number_of_links link_length hinge_mass link_stiffness force temperature)
  /\ (forall (link_length : T) (hinge_mass : T) (link_stiffness : T) (force : T) (temperature : T),
     extern.physics_single_chain_ufjc_lennard_jones_thermodynamics_isotensional_asymptotic_gibbs_free_energy_per_link link_length hinge_mass link_stiffness force temperature
     = lennard_jones_isotensional_asymptotic.gibbs_free_energy_per_link link_length hinge_mass link_stiffness force temperature)
  /\ (forall (number_of_links : Z) (link_length : T) (link_stiffness : T) (force : T) (temperature : T),
     extern.physics_single_chain_ufjc_lennard_jones_thermodynamics_isotensional_asymptotic_relative_gibbs_free_energy number_of_links link_length link_stiffness force temperature
     = lennard_jones_isotensional_asymptotic.relative_gibbs_free_energy number_of_links link_length link_stiffness force temperature)
  /\ (forall (link_length : T) (link_stiffness : T) (force : T) (temperature : T),
     extern.physics_single_chain_ufjc_lennard_jones_thermodynamics_isotensional_asymptotic_relative_gibbs_free_energy_per_link link_length link_stiffness force temperature
     = lennard_jones_isotensional_asymptotic.relative_gibbs_free_energy_per_link link_length link_stiffness force temperature)
  /\ (forall (number_of_links : Z) (link_length : T) (hinge_mass : T) (nondimensional_link_stiffness : T) (nondimensional_force : T) (temperature : T),
     extern.physics_single_chain_ufjc_lennard_jones_thermodynamics_isotensional_asymptotic_nondimensional_gibbs_free_energy number_of_links link_length hinge_mass nondimensional_link_stiffness nondimensional_force temperature
     = lennard_jones_isotensional_asymptotic.nondimensional_gibbs_free_energy number_of_links link_length hinge_mass nondimensional_link_stiffness nondimensional_force temperature)
  /\ (forall (link_length : T) (hinge_mass : T) (nondimensional_link_stiffness : T) (nondimensional_force : T) (temperature : T),
     extern.physics_single_chain_ufjc_lennard_jones_thermodynamics_isotensional_asymptotic_nondimensional_gibbs_free_energy_per_link link_length hinge_mass nondimensional_link_stiffness nondimensional_force temperature
     = lennard_jones_isotensional_asymptotic.nondimensional_gibbs_free_energy_per_link link_length hinge_mass nondimensional_link_stiffness nondimensional_force temperature)
  /\ (forall (number_of_links : Z) (nondimensional_link_stiffness : T) (nondimensional_force : T),
     extern.physics_single_chain_ufjc_lennard_jones_thermodynamics_isotensional_asymptotic_nondimensional_relative_gibbs_free_energy number_of_links nondimensional_link_stiffness nondimensional_force
     = lennard_jones_isotensional_asymptotic.nondimensional_relative_gibbs_free_energy number_of_links nondimensional_link_stiffness nondimensional_force)
  /\ (forall (nondimensional_link_stiffness : T) (nondimensional_force : T),
     extern.physics_single_chain_ufjc_lennard_jones_thermodynamics_isotensional_asymptotic_nondimensional_relative_gibbs_free_energy_per_link nondimensional_link_stiffness nondimensional_force
     = lennard_jones_isotensional_asymptotic.nondimensional_relative_gibbs_free_energy_per_link nondimensional_link_stiffness nondimensional_force).
Proof. intros; repeat split. Qed.
Print Assumptions C59_lennard_jones_isotensional_asymptotic.

Theorem C59_lennard_jones_isotensional_asymptotic_legendre : forall (T : Type) (Sc : Scalar T),
  (forall (number_of_links : Z) (link_length : T) (hinge_mass : T) (link_stiffness : T) (force : T) (temperature : T),
     extern.physics_single_chain_ufjc_lennard_jones_thermodynamics_isotensional_asymptotic_legendre_helmholtz_free_energy number_of_links link_length hinge_mass link_stiffness force temperature
     = lennard_jones_isotensional_asymptotic_legendre.helmholtz_free_energy number_of_links link_length hinge_mass link_stiffness force temperature)
  /\ (forall (link_length : T) (hinge_mass : T) (link_stiffness : T) (force : T) (temperature : T),
     extern.physics_single_chain_ufjc_lennard_jones_thermodynamics_isotensional_asymptotic_legendre_helmholtz_free_energy_per_link link_length hinge_mass link_stiffness force temperature
     = lennard_jones_isotensional_asymptotic_legendre.helmholtz_free_energy_per_link link_length hinge_mass link_stiffness force temperature)
  /\ (forall (number_of_links : Z) (link_length : T) (link_stiffness : T) (force : T) (temperature : T),
     extern.physics_single_chain_ufjc_lennard_jones_thermodynamics_isotensional_asymptotic_legendre_relative_helmholtz_free_energy number_of_links link_length link_stiffness force temperature
     = lennard_jones_isotensional_asymptotic_legendre.relative_helmholtz_free_energy number_of_links link_length link_stiffness force temperature)
  /\ (forall (link_length : T) (link_stiffness : T) (force : T) (temperature : T),
     extern.physics_single_chain_ufjc_lennard_jones_thermodynamics_isotensional_asymptotic_legendre_relative_helmholtz_free_energy_per_link link_length link_stiffness force temperature
     = lennard_jones_isotensional_asymptotic_legendre.relative_helmholtz_free_energy_per_link link_length link_stiffness force temperature)
  /\ (forall (number_of_links : Z) (link_length : T) (hinge_mass : T) (nondimensional_link_stiffness : T) (nondimensional_force : T) (temperature : T),
     extern.physics_single_chain_ufjc_lennard_jones_thermodynamics_isotensional_asymptotic_legendre_nondimensional_helmholtz_free_energy number_of_links link_length hinge_mass nondimensional_link_stiffness nondimensional_force temperature
     = lennard_jones_isotensional_asymptotic_legendre.nondimensional_helmholtz_free_energy number_of_links link_length hinge_mass nondimensional_link_stiffness nondimensional_force temperature)
  /\ (forall (link_length : T) (hinge_mass : T) (nondimensional_link_stiffness : T) (nondimensional_force : T) (temperature : T),
     extern.physics_single_chain_ufjc_lennard_jones_thermodynamics_isotensional_asymptotic_legendre_nondimensional_helmholtz_free_energy_per_link link_length hinge_mass nondimensional_link_stiffness nondimensional_force temperature
     = lennard_jones_isotensional_asymptotic_legendre.nondimensional_helmholtz_free_energy_per_link link_length hinge_mass nondimensional_link_stiffness nondimensional_force temperature)
  /\ (forall (number_of_links : Z) (nondimensional_link_stiffness : T) (nondimensional_force : T),
     extern.physics_single_chain_ufjc_lennard_jones_thermodynamics_isotensional_asymptotic_legendre_nondimensional_relative_helmholtz_free_energy number_of_links nondimensional_link_stiffness nondimensional_force
     = lennard_jones_isotensional_asymptotic_legendre.nondimensional_relative_helmholtz_free_energy number_of_links nondimensional_link_stiffness nondimensional_force)
  /\ (forall (nondimensional_link_stiffness : T) (nondimensional_force : T),
     extern.physics_single_chain_ufjc_lennard_jones_thermodynamics_isotensional_asymptotic_legendre_nondimensional_relative_helmholtz_free_energy_per_link nondimensional_link_stiffness nondimensional_force
     = lennard_jones_isotensional_asymptotic_legendre.nondimensional_relative_helmholtz_free_energy_per_link nondimensional_link_stiffness nondimensional_force).
Proof. intros; repeat split. Qed.
Print Assumptions C59_lennard_jones_isotensional_asymptotic_legendre.

Theorem C59_lennard_jones_isotensional_asymptotic_reduced : forall (T : Type) (Sc : Scalar T),
  (forall (number_of_links : Z) (link_length : T) (link_stiffness : T) (force : T) (temperature : T),
     extern.physics_single_chain_ufjc_lennard_jones_thermodynamics_isotensional_asymptotic_reduced_end_to_end_length number_of_links link_length link_stiffness force temperature
     = lennard_jones_isotensional_asymptotic_reduced.end_to_end_length number_of_links link_length link_stiffness force temperature)
  /\ (forall (link_length : T) (link_stiffness : T) (force : T) (temperature : T),
     extern.physics_single_chain_ufjc_lennard_jones_thermodynamics_isotensional_asymptotic_reduced_end_to_end_length_per_link link_length link_stiffness force temperature
     = lennard_jones_isotensional_asymptotic_reduced.end_to_end_length_per_link link_length link_stiffness force temperature)
  /\ (forall (number_of_links : Z) (nondimensional_link_stiffness : T) (nondimensional_force : T),
     extern.physics_single_chain_ufjc_lennard_jones_thermodynamics_isotensional_asymptotic_reduced_nondimensional_end_to_end_length number_of_links nondimensional_link_stiffness nondimensional_force
     = lennard_jones_isotensional_asymptotic_reduced.nondimensional_end_to_end_length number_of_links nondimensional_link_stiffness nondimensional_force)
  /\ (forall (nondimensional_link_stiffness : T) (nondimensional_force : T),
     extern.physics_single_chain_ufjc_lennard_jones_thermodynamics_isotensional_asymptotic_reduced_nondimensional_end_to_end_length_per_link nondimensional_link_stiffness nondimensional_force
     = lennard_jones_isotensional_asymptotic_reduced.nondimensional_end_to_end_length_per_link nondimensional_link_stiffness nondimensional_force)
  /\ (forall (number_of_links : Z) (link_length : T) (hinge_mass : T) (link_stiffness : T) (force : T) (temperature : T),
     extern.physics_single_chain_ufjc_lennard_jones_thermodynamics_isotensional_asymptotic_reduced_gibbs_free_energy number_of_links link_length hinge_mass link_stiffness force temperature
     = lennard_jones_isotensional_asymptotic_reduced.gibbs_free_energy number_of_links link_length hinge_mass link_stiffness force temperature)
  /\ (forall (link_length : T) (hinge_mass : T) (link_stiffness : T) (force : T) (temperature : T),
     extern.physics_single_chain_ufjc_lennard_jones_thermodynamics_isotensional_asymptotic_reduced_gibbs_free_energy_per_link link_length hinge_mass link_stiffness force temperature
     = lennard_jones_isotensional_asymptotic_reduced.gibbs_free_energy_per_link link_length hinge_mass link_stiffness force temperature)
  /\ (forall (number_of_links : Z) (link_length : T) (link_stiffness : T) (force : T) (temperature : T),
     extern.physics_single_chain_ufjc_lennard_jones_thermodynamics_isotensional_asymptotic_reduced_relative_gibbs_free_energy number_of_links link_length link_stiffness force temperature
     = lennard_jones_isotensional_asymptotic_reduced.relative_gibbs_free_energy number_of_links link_length link_stiffness force temperature)
  /\ (forall (link_length : T) (link_stiffness : T) (force : T) (temperature : T),
     extern.physics_single_chain_ufjc_lennard_jones_thermodynamics_isotensional_asymptotic_reduced_relative_gibbs_free_energy_per_link link_length link_stiffness force temperature
     = lennard_jones_isotensional_asymptotic_reduced.relative_gibbs_free_energy_per_link link_length link_stiffness force temperature)
  /\ (forall (number_of_links : Z) (link_length : T) (hinge_mass : T) (nondimensional_link_stiffness : T) (nondimensional_force : T) (temperature : T),
     extern.physics_single_chain_ufjc_lennard_jones_thermodynamics_isotensional_asymptotic_reduced_nondimensional_gibbs_free_energy number_of_links link_length hinge_mass nondimensional_link_stiffness nondimensional_force temperature
     = lennard_jones_isotensional_asymptotic_reduced.nondimensional_gibbs_free_energy number_of_links link_length hinge_mass nondimensional_link_stiffness nondimensional_force temperature)
  /\ (forall (link_length : T) (hinge_mass : T) (nondimensional_link_stiffness : T) (nondimensional_force : T) (temperature : T),
     extern.physics_single_chain_ufjc_lennard_jones_thermodynamics_isotensional_asymptotic_reduced_nondimensional_gibbs_free_energy_per_link link_length hinge_mass nondimensional_link_stiffness nondimensional_force temperature
     = lennard_jones_isotensional_asymptotic_reduced.nondimensional_gibbs_free_energy_per_link link_length hinge_mass nondimensional_link_stiffness nondimensional_force temperature)
  /\ (forall (number_of_links : Z) (nondimensional_link_stiffness : T) (nondimensional_force : T),
     extern.physics_single_chain_ufjc_lennard_jones_thermodynamics_isotensional_asymptotic_reduced_nondimensional_relative_gibbs_free_energy number_of_links nondimensional_link_stiffness nondimensional_force
     = lennard_jones_isotensional_asymptotic_reduced.nondimensional_relative_gibbs_free_energy number_of_links nondimensional_link_stiffness nondimensional_force)
  /\ (forall (nondimensional_link_stiffness : T) (nondimensional_force : T),
     extern.physics_single_chain_ufjc_lennard_jones_thermodynamics_isotensional_asymptotic_reduced_nondimensional_relative_gibbs_free_energy_per_link nondimensional_link_stiffness nondimensional_force
     = lennard_jones_isotensional_asymptotic_reduced.nondimensional_relative_gibbs_free_energy_per_link nondimensional_link_stiffness nondimensional_force).
Proof. intros; repeat split. Qed.
Print Assumptions C59_lennard_jones_isotensional_asymptotic_reduced.

Theorem C59_lennard_jones_isotensional_asymptotic_reduced_legendre : forall (T : Type) (Sc : Scalar T),
  (forall (number_of_links : Z) (link_length : T) (hinge_mass : T) (link_stiffness : T) (force : T) (temperature : T),
     extern.physics_single_chain_ufjc_lennard_jones_thermodynamics_isotensional_asymptotic_reduced_legendre_helmholtz_free_energy number_of_links link_length hinge_mass link_stiffness force temperature
     = lennard_jones_isotensional_asymptotic_reduced_legendre.helmholtz_free_energy number_of_links link_length hinge_mass link_stiffness force temperature)
  /\ (forall (link_length : T) (hinge_mass : T) (link_stiffness : T) (force : T) (temperature : T),
     extern.physics_single_chain_ufjc_lennard_jones_thermodynamics_isotensional_asymptotic_reduced_legendre_helmholtz_free_energy_per_link link_length hinge_mass link_stiffness force temperature
     = lennard_jones_isotensional_asymptotic_reduced_legendre.helmholtz_free_energy_per_link link_length hinge_mass link_stiffness force temperature)
  /\ (forall (number_of_links : Z) (link_length : T) (link_stiffness : T) (force : T) (temperature : T),
     extern.physics_single_chain_ufjc_lennard_jones_thermodynamics_isotensional_asymptotic_reduced_legendre_relative_helmholtz_free_energy number_of_links link_length link_stiffness force temperature
     = lennard_jones_isotensional_asymptotic_reduced_legendre.relative_helmholtz_free_energy number_of_links link_length link_stiffness force temperature)
  /\ (forall (link_length : T) (link_stiffness : T) (force : T) (temperature : T),
     extern.physics_single_chain_ufjc_lennard_jones_thermodynamics_isotensional_asymptotic_reduced_legendre_relative_helmholtz_free_energy_per_link link_length link_stiffness force temperature
     = lennard_jones_isotensional_asymptotic_reduced_legendre.relative_helmholtz_free_energy_per_link link_length link_stiffness force temperature)
  /\ (forall (number_of_links : Z) (link_length : T) (hinge_mass : T) (nondimensional_link_stiffness : T) (nondimensional_force : T) (temperature : T),
     extern.physics_single_chain_ufjc_lennard_jones_thermodynamics_isotensional_asymptotic_reduced_legendre_nondimensional_helmholtz_free_energy number_of_links link_length hinge_mass nondimensional_link_stiffness nondimensional_force temperature
     = lennard_jones_isotensional_asymptotic_reduced_legendre.nondimensional_helmholtz_free_energy number_of_links link_length hinge_mass nondimensional_link_stiffness nondimensional_force temperature)
  /\ (forall (link_length : T) (hinge_mass : T) (nondimensional_link_stiffness : T) (nondimensional_force : T) (temperature : T),
     extern.physics_single_chain_ufjc_lennard_jones_thermodynamics_isotensional_asymptotic_reduced_legendre_nondimensional_helmholtz_free_energy_per_link link_length hinge_mass nondimensional_link_stiffness nondimensional_force temperature
     = lennard_jones_isotensional_asymptotic_reduced_legendre.nondimensional_helmholtz_free_energy_per_link link_length hinge_mass nondimensional_link_stiffness nondimensional_force temperature)
  /\ (forall (number_of_links : Z) (nondimensional_link_stiffness : T) (nondimensional_force : T),
     extern.physics_single_chain_ufjc_lennard_jones_thermodynamics_isotensional_asymptotic_reduced_legendre_nondimensional_relative_helmholtz_free_energy number_of_links nondimensional_link_stiffness nondimensional_force
     = lennard_jones_isotensional_asymptotic_reduced_legendre.nondimensional_relative_helmholtz_free_energy number_of_links nondimensional_link_stiffness nondimensional_force)
  /\ (forall (nondimensional_link_stiffness : T) (nondimensional_force : T),
     extern.physics_single_chain_ufjc_lennard_jones_thermodynamics_isotensional_asymptotic_reduced_legendre_nondimensional_relative_helmholtz_free_energy_per_link nondimensional_link_stiffness nondimensional_force
     = lennard_jones_isotensional_asymptotic_reduced_legendre.nondimensional_relative_helmholtz_free_energy_per_link nondimensional_link_stiffness nondimensional_force).
Proof. intros; repeat split. Qed.
Print Assumptions C59_lennard_jones_isotensional_asymptotic_reduced_legendre.

Theorem C59_lennard_jones_isotensional_legendre : forall (T : Type) (Sc : Scalar T),
  (forall (number_of_links : Z) (link_length : T) (hinge_mass : T) (link_stiffness : T) (force : T) (temperature : T),
     extern.physics_single_chain_ufjc_lennard_jones_thermodynamics_isotensional_legendre_helmholtz_free_energy number_of_links link_length hinge_mass link_stiffness force temperature
     = lennard_jones_isotensional_legendre.helmholtz_free_energy number_of_links link_length hinge_mass link_stiffness force temperature)
  /\ (forall (link_length : T) (hinge_mass : T) (link_stiffness : T) (force : T) (temperature : T),
     extern.physics_single_chain_ufjc_lennard_jones_thermodynamics_isotensional_legendre_helmholtz_free_energy_per_link link_length hinge_mass link_stiffness force temperature
     = lennard_jones_isotensional_legendre.helmholtz_free_energy_per_link link_length hinge_mass link_stiffness force temperature)
  /\ (forall (number_of_links : Z) (link_length : T) (link_stiffness : T) (force : T) (temperature : T),
     extern.physics_single_chain_ufjc_lennard_jones_thermodynamics_isotensional_legendre_relative_helmholtz_free_energy number_of_links link_length link_stiffness force temperature
     = lennard_jones_isotensional_legendre.relative_helmholtz_free_energy number_of_links link_length link_stiffness force temperature)
  /\ (forall (link_length : T) (link_stiffness : T) (force : T) (temperature : T),
     extern.physics_single_chain_ufjc_lennard_jones_thermodynamics_isotensional_legendre_relative_helmholtz_free_energy_per_link link_length link_stiffness force temperature
     = lennard_jones_isotensional_legendre.relative_helmholtz_free_energy_per_link link_length link_stiffness force temperature)
  /\ (forall (number_of_links : Z) (link_length : T) (hinge_mass : T) (nondimensional_link_stiffness : T) (nondimensional_force : T) (temperature : T),
     extern.physics_single_chain_ufjc_lennard_jones_thermodynamics_isotensional_legendre_nondimensional_helmholtz_free_energy number_of_links link_length hinge_mass nondimensional_link_stiffness nondimensional_force temperature
     = lennard_jones_isotensional_legendre.nondimensional_helmholtz_free_energy number_of_links link_length hinge_mass nondimensional_link_stiffness nondimensional_force temperature)
  /\ (forall (link_length : T) (hinge_mass : T) (nondimensional_link_stiffness : T) (nondimensional_force : T) (temperature : T),
     extern.physics_single_chain_ufjc_lennard_jones_thermodynamics_isotensional_legendre_nondimensional_helmholtz_free_energy_per_link link_length hinge_mass nondimensional_link_stiffness nondimensional_force temperature
     = lennard_jones_isotensional_legendre.nondimensional_helmholtz_free_energy_per_link link_length hinge_mass nondimensional_link_stiffness nondimensional_force temperature)
  /\ (forall (number_of_links : Z) (nondimensional_link_stiffness : T) (nondimensional_force : T),
     extern.physics_single_chain_ufjc_lennard_jones_thermodynamics_isotensional_legendre_nondimensional_relative_helmholtz_free_energy number_of_links nondimensional_link_stiffness nondimensional_force
     = lennard_jones_isotensional_legendre.nondimensional_relative_helmholtz_free_energy number_of_links nondimensional_link_stiffness nondimensional_force)
  /\ (forall (nondimensional_link_stiffness : T) (nondimensional_force : T),
     extern.physics_single_chain_ufjc_lennard_jones_thermodynamics_isotensional_legendre_nondimensional_relative_helmholtz_free_energy_per_link nondimensional_link_stiffness nondimensional_force
     = lennard_jones_isotensional_legendre.nondimensional_relative_helmholtz_free_energy_per_link nondimensional_link_stiffness nondimensional_force).
Proof. intros; repeat split. Qed.
Print Assumptions C59_lennard_jones_isotensional_legendre.

Theorem C59_log_squared_isometric_asymptotic_legendre : forall (T : Type) (Sc : Scalar T),
  (forall (number_of_links : Z) (link_length : T) (link_stiffness : T) (end_to_end_length : T) (temperature : T),
     extern.physics_single_chain_ufjc_log_squared_thermodynamics_isometric_asymptotic_legendre_force number_of_links link_length link_stiffness end_to_end_length temperature
     = log_squared_isometric_asymptotic_legendre.force number_of_links link_length link_stiffness end_to_end_length temperature)
  /\ (forall (nondimensional_link_stiffness : T) (nondimensional_end_to_end_length_per_link : T),
     extern.physics_single_chain_ufjc_log_squared_thermodynamics_isometric_asymptotic_legendre_nondimensional_force nondimensional_link_stiffness nondimensional_end_to_end_length_per_link
     = log_squared_isometric_asymptotic_legendre.nondimensional_force nondimensional_link_stiffness nondimensional_end_to_end_length_per_link)
  /\ (forall (number_of_links : Z) (link_length : T) (hinge_mass : T) (link_stiffness : T) (end_to_end_length : T) (temperature : T),
     extern.physics_single_chain_ufjc_log_squared_thermodynamics_isometric_asymptotic_legendre_helmholtz_free_energy number_of_links link_length hinge_mass link_stiffness end_to_end_length temperature
     = log_squared_isometric_asymptotic_legendre.helmholtz_free_energy number_of_links link_length hinge_mass link_stiffness end_to_end_length temperature)
  /\ (forall (number_of_links : Z) (link_length : T) (hinge_mass : T) (link_stiffness : T) (end_to_end_length : T) (temperature : T),
     extern.physics_single_chain_ufjc_log_squared_thermodynamics_isometric_asymptotic_legendre_helmholtz_free_energy_per_link number_of_links link_length hinge_mass link_stiffness end_to_end_length temperature
     = log_squared_isometric_asymptotic_legendre.helmholtz_free_energy_per_link number_of_links link_length hinge_mass link_stiffness end_to_end_length temperature)
  /\ (forall (number_of_links : Z) (link_length : T) (link_stiffness : T) (end_to_end_length : T) (temperature : T),
     extern.physics_single_chain_ufjc_log_squared_thermodynamics_isometric_asymptotic_legendre_relative_helmholtz_free_energy number_of_links link_length link_stiffness end_to_end_length temperature
     = log_squared_isometric_asymptotic_legendre.relative_helmholtz_free_energy number_of_links link_length link_stiffness end_to_end_length temperature)
  /\ (forall (number_of_links : Z) (link_length : T) (link_stiffness : T) (end_to_end_length : T) (temperature : T),
     extern.physics_single_chain_ufjc_log_squared_thermodynamics_isometric_asymptotic_legendre_relative_helmholtz_free_energy_per_link number_of_links link_length link_stiffness end_to_end_length temperature
     = log_squared_isometric_asymptotic_legendre.relative_helmholtz_free_energy_per_link number_of_links link_length link_stiffness end_to_end_length temperature)
  /\ (forall (number_of_links : Z) (link_length : T) (hinge_mass : T) (nondimensional_link_stiffness : T) (nondimensional_end_to_end_length_per_link : T) (temperature : T),
     extern.physics_single_chain_ufjc_log_squared_thermodynamics_isometric_asymptotic_legendre_nondimensional_helmholtz_free_energy number_of_links link_length hinge_mass nondimensional_link_stiffness nondimensional_end_to_end_length_per_link temperature
     = log_squared_isometric_asymptotic_legendre.nondimensional_helmholtz_free_energy number_of_links link_length hinge_mass nondimensional_link_stiffness nondimensional_end_to_end_length_per_link temperature)
  /\ (forall (number_of_links : Z) (link_length : T) (hinge_mass : T) (nondimensional_link_stiffness : T) (nondimensional_end_to_end_length_per_link : T) (temperature : T),
     extern.physics_single_chain_ufjc_log_squared_thermodynamics_isometric_asymptotic_legendre_nondimensional_helmholtz_free_energy_per_link number_of_links link_length hinge_mass nondimensional_link_stiffness nondimensional_end_to_end_length_per_link temperature
     = log_squared_isometric_asymptotic_legendre.nondimensional_helmholtz_free_energy_per_link number_of_links link_length hinge_mass nondimensional_link_stiffness nondimensional_end_to_end_length_per_link temperature)
  /\ (forall (number_of_links : Z) (nondimensional_link_stiffness : T) (nondimensional_end_to_end_length_per_link : T),
     extern.physics_single_chain_ufjc_log_squared_thermodynamics_isometric_asymptotic_legendre_nondimensional_relative_helmholtz_free_energy number_of_links nondimensional_link_stiffness nondimensional_end_to_end_length_per_link
     = log_squared_isometric_asymptotic_legendre.nondimensional_relative_helmholtz_free_energy number_of_links nondimensional_link_stiffness nondimensional_end_to_end_length_per_link)
  /\ (forall (nondimensional_link_stiffness : T) (nondimensional_end_to_end_length_per_link : T),
     extern.physics_single_chain_ufjc_log_squared_thermodynamics_isometric_asymptotic_legendre_nondimensional_relative_helmholtz_free_energy_per_link nondimensional_link_stiffness nondimensional_end_to_end_length_per_link
     = log_squared_isometric_asymptotic_legendre.nondimensional_relative_helmholtz_free_energy_per_link nondimensional_link_stiffness nondimensional_end_to_end_length_per_link).
Proof. intros; repeat split. Qed.
Print Assumptions C59_log_squared_isometric_asymptotic_legendre.

Theorem C59_log_squared_isometric_asymptotic_reduced_legendre : forall (T : Type) (Sc : Scalar T),
  (forall (number_of_links : Z) (link_length : T) (link_stiffness : T) (end_to_end_length : T) (temperature : T),
     extern.physics_single_chain_ufjc_log_squared_thermodynamics_isometric_asymptotic_reduced_legendre_force number_of_links link_length link_stiffness end_to_end_length temperature
     = log_squared_isometric_asymptotic_reduced_legendre.force number_of_links link_length link_stiffness end_to_end_length temperature)
  /\ (forall (nondimensional_link_stiffness : T) (nondimensional_end_to_end_length_per_link : T),
     extern.physics_single_chain_ufjc_log_squared_thermodynamics_isometric_asymptotic_reduced_legendre_nondimensional_force nondimensional_link_stiffness nondimensional_end_to_end_length_per_link
     = log_squared_isometric_asymptotic_reduced_legendre.nondimensional_force nondimensional_link_stiffness nondimensional_end_to_end_length_per_link)
  /\ (forall (number_of_links : Z) (link_length : T) (hinge_mass : T) (link_stiffness : T) (end_to_end_length : T) (temperature : T),
     extern.physics_single_chain_ufjc_log_squared_thermodynamics_isometric_asymptotic_reduced_legendre_helmholtz_free_energy number_of_links link_length hinge_mass link_stiffness end_to_end_length temperature
     = log_squared_isometric_asymptotic_reduced_legendre.helmholtz_free_energy number_of_links link_length hinge_mass link_stiffness end_to_end_length temperature)
  /\ (forall (number_of_links : Z) (link_length : T) (hinge_mass : T) (link_stiffness : T) (end_to_end_length : T) (temperature : T),
     extern.physics_single_chain_ufjc_log_squared_thermodynamics_isometric_asymptotic_reduced_legendre_helmholtz_free_energy_per_link number_of_links link_length hinge_mass link_stiffness end_to_end_length temperature
     = log_squared_isometric_asymptotic_reduced_legendre.helmholtz_free_energy_per_link number_of_links link_length hinge_mass link_stiffness end_to_end_length temperature)
  /\ (forall (number_of_links : Z) (link_length : T) (link_stiffness : T) (end_to_end_length : T) (temperature : T),
     extern.physics_single_chain_ufjc_log_squared_thermodynamics_isometric_asymptotic_reduced_legendre_relative_helmholtz_free_energy number_of_links link_length link_stiffness end_to_end_length temperature
     = log_squared_isometric_asymptotic_reduced_legendre.relative_helmholtz_free_energy number_of_links link_length link_stiffness end_to_end_length temperature)
  /\ (forall (number_of_links : Z) (link_length : T) (link_stiffness : T) (end_to_end_length : T) (temperature : T),
     extern.physics_single_chain_ufjc_log_squared_thermodynamics_isometric_asymptotic_reduced_legendre_relative_helmholtz_free_energy_per_link number_of_links link_length link_stiffness end_to_end_length temperature
     = log_squared_isometric_asymptotic_reduced_legendre.relative_helmholtz_free_energy_per_link number_of_links link_length link_stiffness end_to_end_length temperature)
  /\ (forall (number_of_links : Z) (link_length : T) (hinge_mass : T) (nondimensional_link_stiffness : T) (nondimensional_end_to_end_length_per_link : T) (temperature : T),
     extern.physics_single_chain_ufjc_log_squared_thermodynamics_isometric_asymptotic_reduced_legendre_nondimensional_helmholtz_free_energy number_of_links link_length hinge_mass nondimensional_link_stiffness nondimensional_end_to_end_length_per_link temperature
     = log_squared_isometric_asymptotic_reduced_legendre.nondimensional_helmholtz_free_energy number_of_links link_length hinge_mass nondimensional_link_stiffness nondimensional_end_to_end_length_per_link temperature)
  /\ (forall (number_of_links : Z) (link_length : T) (hinge_mass : T) (nondimensional_link_stiffness : T) (nondimensional_end_to_end_length_per_link : T) (temperature : T),
     extern.physics_single_chain_ufjc_log_squared_thermodynamics_isometric_asymptotic_reduced_legendre_nondimensional_helmholtz_free_energy_per_link number_of_links link_length hinge_mass nondimensional_link_stiffness nondimensional_end_to_end_length_per_link temperature
     = log_squared_isometric_asymptotic_reduced_legendre.nondimensional_helmholtz_free_energy_per_link number_of_links link_length hinge_mass nondimensional_link_stiffness nondimensional_end_to_end_length_per_link temperature)
  /\ (forall (number_of_links : Z) (nondimensional_link_stiffness : T) (nondimensional_end_to_end_length_per_link : T),
     extern.physics_single_chain_ufjc_log_squared_thermodynamics_isometric_asymptotic_reduced_legendre_nondimensional_relative_helmholtz_free_energy number_of_links nondimensional_link_stiffness nondimensional_end_to_end_length_per_link
     = log_squared_isometric_asymptotic_reduced_legendre.nondimensional_relative_helmholtz_free_energy number_of_links nondimensional_link_stiffness nondimensional_end_to_end_length_per_link)
  /\ (forall (nondimensional_link_stiffness : T) (nondimensional_end_to_end_length_per_link : T),
     extern.physics_single_chain_ufjc_log_squared_thermodynamics_isometric_asymptotic_reduced_legendre_nondimensional_relative_helmholtz_free_energy_per_link nondimensional_link_stiffness nondimensional_end_to_end_length_per_link
     = log_squared_isometric_asymptotic_reduced_legendre.nondimensional_relative_helmholtz_free_energy_per_link nondimensional_link_stiffness nondimensional_end_to_end_length_per_link).
Proof. intros; repeat split. Qed.
Print Assumptions C59_log_squared_isometric_asymptotic_reduced_legendre.

Theorem C59_log_squared_isotensional : forall (T : Type) (Sc : Scalar T),
  (forall (number_of_links : Z) (link_length : T) (link_stiffness : T) (force : T) (temperature : T),
     extern.physics_single_chain_ufjc_log_squared_thermodynamics_isotensional_end_to_end_length number_of_links link_length link_stiffness force temperature
     = log_squared_isotensional.end_to_end_length number_of_links link_length link_stiffness force temperature)
  /\ (forall (link_length : T) (link_stiffness : T) (force : T) (temperature : T),
     extern.physics_single_chain_ufjc_log_squared_thermodynamics_isotensional_end_to_end_length_per_link link_length link_stiffness force temperature
     = log_squared_isotensional.end_to_end_length_per_link link_length link_stiffness force temperature)
  /\ (forall (number_of_links : Z) (nondimensional_link_stiffness : T) (nondimensional_force : T),
     extern.physics_single_chain_ufjc_log_squared_thermodynamics_isotensional_nondimensional_end_to_end_length number_of_links nondimensional_link_stiffness nondimensional_force
     = log_squared_isotensional.nondimensional_end_to_end_length number_of_links nondimensional_link_stiffness nondimensional_force)
  /\ (forall (nondimensional_link_stiffness : T) (nondimensional_force : T),
     extern.physics_single_chain_ufjc_log_squared_thermodynamics_isotensional_nondimensional_end_to_end_length_per_link nondimensional_link_stiffness nondimensional_force
     = log_squared_isotensional.nondimensional_end_to_end_length_per_link nondimensional_link_stiffness nondimensional_force)
  /\ (forall (number_of_links : Z) (link_length : T) (hinge_mass : T) (link_stiffness : T) (force : T) (temperature : T),
     extern.physics_single_chain_ufjc_log_squared_thermodynamics_isotensional_gibbs_free_energy number_of_links link_length hinge_mass link_stiffness force temperature
     = log_squared_isotensional.gibbs_free_energy number_of_links link_length hinge_mass link_stiffness force temperature)
  /\ (forall (link_length : T) (hinge_mass : T) (link_stiffness : T) (force : T) (temperature : T),
     extern.physics_single_chain_ufjc_log_squared_thermodynamics_isotensional_gibbs_free_energy_per_link link_length hinge_mass link_stiffness force temperature
     = log_squared_isotensional.gibbs_free_energy_per_link link_length hinge_mass link_stiffness force temperature)
  /\ (forall (number_of_links : Z) (link_length : T) (link_stiffness : T) (force : T) (temperature : T),
     extern.physics_single_chain_ufjc_log_squared_thermodynamics_isotensional_relative_gibbs_free_energy number_of_links link_length link_stiffness force temperature
     = log_squared_isotensional.relative_gibbs_free_energy number_of_links link_length link_stiffness force temperature)
  /\ (forall (link_length : T) (link_stiffness : T) (force : T) (temperature : T),
     extern.physics_single_chain_ufjc_log_squared_thermodynamics_isotensional_relative_gibbs_free_energy_per_link link_length link_stiffness force temperature
     = log_squared_isotensional.relative_gibbs_free_energy_per_link link_length link_stiffness force temperature)
  /\ (forall (number_of_links : Z) (link_length : T) (hinge_mass : T) (nondimensional_link_stiffness : T) (nondimensional_force : T) (temperature : T),
     extern.physics_single_chain_ufjc_log_squared_thermodynamics_isotensional_nondimensional_gibbs_free_energy number_of_links link_length hinge_mass nondimensional_link_stiffness nondimensional_force temperature
     = log_squared_isotensional.nondimensional_gibbs_free_energy number_of_links link_length hinge_mass nondimensional_link_stiffness nondimensional_force temperature)
  /\ (forall (link_length : T) (hinge_mass : T) (nondimensional_link_stiffness : T) (nondimensional_force : T) (temperature : T),
     extern.physics_single_chain_ufjc_log_squared_thermodynamics_isotensional_nondimensional_gibbs_free_energy_per_link link_length hinge_mass nondimensional_link_stiffness nondimensional_force temperature
     = log_squared_isotensional.nondimensional_gibbs_free_energy_per_link link_length hinge_mass nondimensional_link_stiffness nondimensional_force temperature)
  /\ (forall (number_of_links : Z) (nondimensional_link_stiffness : T) (nondimensional_force : T),
     extern.physics_single_chain_ufjc_log_squared_thermodynamics_isotensional_nondimensional_relative_gibbs_free_energy number_of_links nondimensional_link_stiffness nondimensional_force
     = log_squared_isotensional.nondimensional_relative_gibbs_free_energy number_of_links nondimensional_link_stiffness nondimensional_force)
  /\ (forall (nondimensional_link_stiffness : T) (nondimensional_force : T),
     extern.physics_single_chain_ufjc_log_squared_thermodynamics_isotensional_nondimensional_relative_gibbs_free_energy_per_link nondimensional_link_stiffness nondimensional_force
     = log_squared_isotensional.nondimensional_relative_gibbs_free_energy_per_link nondimensional_link_stiffness nondimensional_force).
Proof. intros; repeat split. Qed.
Print Assumptions C59_log_squared_isotensional.

Theorem C59_log_squared_isotensional_asymptotic : forall (T : Type) (Sc : Scalar T),
  (forall (number_of_links : Z) (link_length : T) (link_stiffness : T) (force : T) (temperature : T),
     extern.physics_single_chain_ufjc_log_squared_thermodynamics_isotensional_asymptotic_end_to_end_length number_of_links link_length link_stiffness force temperature
     = log_squared_isotensional_asymptotic.end_to_end_length number_of_links link_length link_stiffness force temperature)
  /\ (forall (link_length : T) (link_stiffness : T) (force : T) (temperature : T),
     extern.physics_single_chain_ufjc_log_squared_thermodynamics_isotensional_asymptotic_end_to_end_length_per_link link_length link_stiffness force temperature
     = log_squared_isotensional_asymptotic.end_to_end_length_per_link link_length link_stiffness force temperature)
  /\ (forall (number_of_links : Z) (nondimensional_link_stiffness : T) (nondimensional_force : T),
     extern.physics_single_chain_ufjc_log_squared_thermodynamics_isotensional_asymptotic_nondimensional_end_to_end_length number_of_links nondimensional_link_stiffness nondimensional_force
     = log_squared_isotensional_asymptotic.nondimensional_end_to_end_length number_of_links nondimensional_link_stiffness nondimensional_force)
  /\ (forall (nondimensional_link_stiffness : T) (nondimensional_force : T),
     extern.physics_single_chain_ufjc_log_squared_thermodynamics_isotensional_asymptotic_nondimensional_end_to_end_length_per_link nondimensional_link_stiffness nondimensional_force
     = log_squared_isotensional_asymptotic.nondimensional_end_to_end_length_per_link nondimensional_link_stiffness nondimensional_force)
  /\ (forall (number_of_links : Z) (link_length : T) (hinge_mass : T) (link_stiffness : T) (force : T) (temperature : T),
     extern.physics_single_chain_ufjc_log_squared_thermodynamics_isotensional_asymptotic_gibbs_free_energy number_of_links link_length hinge_mass link_stiffness force temperature
     = log_squared_isotensional_asymptotic.gibbs_free_energy number_of_links link_length hinge_mass link_stiffness force temperature)
  /\ (forall (link_length : T) (hinge_mass : T) (link_stiffness : T) (force : T) (temperature : T),
     extern.physics_single_chain_ufjc_log_squared_thermodynamics_isotensional_asymptotic_gibbs_free_energy_per_link link_length hinge_mass link_stiffness force temperature
     = log_squared_isotensional_asymptotic.gibbs_free_energy_per_link link_length hinge_mass link_stiffness force temperature)
  /\ (forall (number_of_links : Z) (link_length : T) (link_stiffness : T) (force : T) (temperature : T),
     extern.physics_single_chain_ufjc_log_squared_thermodynamics_isotensional_asymptotic_relative_gibbs_free_energy number_of_links link_length link_stiffness force temperature
     = log_squared_isotensional_asymptotic.relative_gibbs_free_energy number_of_links link_length link_stiffness force temperature)
  /\ (forall (link_length : T) (link_stiffness : T) (force : T) (temperature : T),
     extern.physics_single_chain_ufjc_log_squared_thermodynamics_isotensional_asymptotic_relative_gibbs_free_energy_per_link link_length link_stiffness force temperature
     = log_squared_isotensional_asymptotic.relative_gibbs_free_energy_per_link link_length link_stiffness force temperature)
  /\ (forall (number_of_links : Z) (link_length : T) (hinge_mass : T) (nondimensional_link_stiffness : T) (nondimensional_force : T) (temperature : T),
     extern.physics_single_chain_ufjc_log_squared_thermodynamics_isotensional_asymptotic_nondimensional_gibbs_free_energy number_of_links link_length hinge_mass nondimensional_link_stiffness nondimensional_force temperature
     = log_squared_isotensional_asymptotic.nondimensional_gibbs_free_energy number_of_links link_length hinge_mass nondimensional_link_stiffness nondimensional_force temperature)
  /\ (forall (link_length : T) (hinge_mass : T) (nondimensional_link_stiffness : T) (nondimensional_force : T) (temperature : T),
     extern.physics_single_chain_ufjc_log_squared_thermodynamics_isotensional_asymptotic_nondimensional_gibbs_free_energy_per_link link_length hinge_mass nondimensional_link_stiffness nondimensional_force temperature
     = log_squared_isotensional_asymptotic.nondimensional_gibbs_free_energy_per_link link_length hinge_mass nondimensional_link_stiffness nondimensional_force temperature)
  /\ (forall (number_of_links : Z) (nondimensional_link_stiffness : T) (nondimensional_force : T),
     extern.physics_single_chain_ufjc_log_squared_thermodynamics_isotensional_asymptotic_nondimensional_relative_gibbs_free_energy number_of_links nondimensional_link_stiffness nondimensional_force
     = log_squared_isotensional_asymptotic.nondimensional_relative_gibbs_free_energy number_of_links nondimensional_link_stiffness nondimensional_force)
  /\ (forall (nondimensional_link_stiffness : T) (nondimensional_force : T),
     extern.physics_single_chain_ufjc_log_squared_thermodynamics_isotensional_asymptotic_nondimensional_relative_gibbs_free_energy_per_link nondimensional_link_stiffness nondimensional_force
     = log_squared_isotensional_asymptotic.nondimensional_relative_gibbs_free_energy_per_link nondimensional_link_stiffness nondimensional_force).
Proof. intros; repeat split. Qed.
Print Assumptions C59_log_squared_isotensional_asymptotic.

Theorem C59_log_squared_isotensional_asymptotic_legendre : forall (T : Type) (Sc : Scalar T),
  (forall (number_of_links : Z) (link_length : T) (hinge_mass : T) (link_stiffness : T) (force : T) (temperature : T),
     extern.physics_single_chain_ufjc_log_squared_thermodynamics_isotensional_asymptotic_legendre_helmholtz_free_energy number_of_links link_length hinge_mass link_stiffness force temperature
     = log_squared_isotensional_asymptotic_legendre.helmholtz_free_energy number_of_links link_length hinge_mass link_stiffness force temperature)
  /\ (forall (link_length : T) (hinge_mass : T) (link_stiffness : T) (force : T) (temperature : T),
     extern.physics_single_chain_ufjc_log_squared_thermodynamics_isotensional_asymptotic_legendre_helmholtz_free_energy_per_link link_length hinge_mass link_stiffness force temperature
     = log_squared_isotensional_asymptotic_legendre.helmholtz_free_energy_per_link link_length hinge_mass link_stiffness force temperature)
  /\ (forall (number_of_links : Z) (link_length : T) (link_stiffness : T) (force : T) (temperature : T),
     extern.physics_single_chain_ufjc_log_squared_thermodynamics_isotensional_asymptotic_legendre_relative_helmholtz_free_energy number_of_links link_length link_stiffness force temperature
     = log_squared_isotensional_asymptotic_legendre.relative_helmholtz_free_energy number_of_links link_length link_stiffness force temperature)
  /\ (forall (link_length : T) (link_stiffness : T) (force : T) (temperature : T),
     extern.physics_single_chain_ufjc_log_squared_thermodynamics_isotensional_asymptotic_legendre_relative_helmholtz_free_energy_per_link link_length link_stiffness force temperature
     = log_squared_isotensional_asymptotic_legendre.relative_helmholtz_free_energy_per_link link_length link_stiffness force temperature)
  /\ (forall (number_of_links : Z) (link_length : T) (hinge_mass : T) (nondimensional_link_stiffness : T) (nondimensional_force : T) (temperature : T),
     extern.physics_single_chain_ufjc_log_squared_thermodynamics_isotensional_asymptotic_legendre_nondimensional_helmholtz_free_energy number_of_links link_length hinge_mass nondimensional_link_stiffness nondimensional_force temperature
     = log_squared_isotensional_asymptotic_legendre.nondimensional_helmholtz_free_energy number_of_links link_length hinge_mass nondimensional_link_stiffness nondimensional_force temperature)
  /\ (forall (link_length : T) (hinge_mass : T) (nondimensional_link_stiffness : T) (nondimensional_force : T) (temperature : T),
     extern.physics_single_chain_ufjc_log_squared_thermodynamics_isotensional_asymptotic_legendre_nondimensional_helmholtz_free_energy_per_link link_length hinge_mass nondimensional_link_stiffness nondimensional_force temperature
     = log_squared_isotensional_asymptotic_legendre.nondimensional_helmholtz_free_energy_per_link link_length hinge_mass nondimensional_link_stiffness nondimensional_force temperature)
  /\ (forall (number_of_links : Z) (nondimensional_link_stiffness : T) (nondimensional_force : T),
     extern.physics_single_chain_ufjc_log_squared_thermodynamics_isotensional_asymptotic_legendre_nondimensional_relative_helmholtz_free_energy number_of_links nondimensional_link_stiffness nondimensional_force
     = log_squared_isotensional_asymptotic_legendre.nondimensional_relative_helmholtz_free_energy number_of_links nondimensional_link_stiffness nondimensional_force)
  /\ (forall (nondimensional_link_stiffness : T) (nondimensional_force : T),
     extern.physics_single_chain_ufjc_log_squared_thermodynamics_isotensional_asymptotic_legendre_nondimensional_relative_helmholtz_free_energy_per_link nondimensional_link_stiffness nondimensional_force
     = log_squared_isotensional_asymptotic_legendre.nondimensional_relative_helmholtz_free_energy_per_link nondimensional_link_stiffness nondimensional_force).
Proof. intros; repeat split. Qed.
Print Assumptions C59_log_squared_isotensional_asymptotic_legendre.

Theorem C59_log_squared_isotensional_asymptotic_reduced : forall (T : Type) (Sc : Scalar T),
  (forall (number_of_links : Z) (link_length : T) (link_stiffness : T) (force : T) (temperature : T),
     extern.physics_single_chain_ufjc_log_squared_thermodynamics_isotensional_asymptotic_reduced_end_to_end_length number_of_links link_length link_stiffness force temperature
     = log_squared_isotensional_asymptotic_reduced.end_to_end_length number_of_links link_length link_stiffness force temperature)
  /\ (forall (link_length : T) (link_stiffness : T) (force : T) (temperature : T),
     extern.physics_single_chain_ufjc_log_squared_thermodynamics_isotensional_asymptotic_reduced_end_to_end_length_per_link link_length link_stiffness force temperature
     = log_squared_isotensional_asymptotic_reduced.end_to_end_length_per_link link_length link_stiffness force temperature)
  /\ (forall (number_of_links : Z) (nondimensional_link_stiffness : T) (nondimensional_force : T),
     extern.physics_single_chain_ufjc_log_squared_thermodynamics_isotensional_asymptotic_reduced_nondimensional_end_to_end_length number_of_links nondimensional_link_stiffness nondimensional_force
     = log_squared_isotensional_asymptotic_reduced.nondimensional_end_to_end_length number_of_links nondimensional_link_stiffness nondimensional_force)
  /\ (forall (nondimensional_link_stiffness : T) (nondimensional_force : T),
     extern.physics_single_chain_ufjc_log_squared_thermodynamics_isotensional_asymptotic_reduced_nondimensional_end_to_end_length_per_link nondimensional_link_stiffness nondimensional_force
     = log_squared_isotensional_asymptotic_reduced.nondimensional_end_to_end_length_per_link nondimensional_link_stiffness nondimensional_force)
  /\ (forall (number_of_links : Z) (link_length : T) (hinge_mass : T) (link_stiffness : T) (force : T) (temperature : T),
     extern.physics_single_chain_ufjc_log_squared_thermodynamics_isotensional_asymptotic_reduced_gibbs_free_energy number_of_links link_length hinge_mass link_stiffness force temperature
     = log_squared_isotensional_asymptotic_reduced.gibbs_free_energy number_of_links link_length hinge_mass link_stiffness force temperature)
  /\ (forall (link_length : T) (hinge_mass : T) (link_stiffness : T) (force : T) (temperature : T),
     extern.physics_single_chain_ufjc_log_squared_thermodynamics_isotensional_asymptotic_reduced_gibbs_free_energy_per_link link_length hinge_mass link_stiffness force temperature
     = log_squared_isotensional_asymptotic_reduced.gibbs_free_energy_per_link link_length hinge_mass link_stiffness force temperature)
  /\ (forall (number_of_links : Z) (link_length : T) (link_stiffness : T) (force : T) (temperature : T),
     extern.physics_single_chain_ufjc_log_squared_thermodynamics_isotensional_asymptotic_reduced_relative_gibbs_free_energy number_of_links link_length link_stiffness force temperature
     = log_squared_isotensional_asymptotic_reduced.relative_gibbs_free_energy number_of_links link_length link_stiffness force temperature)
  /\ (forall (link_length : T) (link_stiffness : T) (force : T) (temperature : T),
     extern.physics_single_chain_ufjc_log_squared_thermodynamics_isotensional_asymptotic_reduced_relative_gibbs_free_energy_per_link link_length link_stiffness force temperature
     = log_squared_isotensional_asymptotic_reduced.relative_gibbs_free_energy_per_link link_length link_stiffness force temperature)
  /\ (forall (number_of_links : Z) (link_length : T) (hinge_mass : T) (nondimensional_link_stiffness : T) (nondimensional_force : T) (temperature : T),
     extern.physics_single_chain_ufjc_log_squared_thermodynamics_isotensional_asymptotic_reduced_nondimensional_gibbs_free_energy number_of_links link_length hinge_mass nondimensional_link_stiffness nondimensional_force temperature
     = log_squared_isotensional_asymptotic_reduced.nondimensional_gibbs_free_energy number_of_links link_length hinge_mass nondimensional_link_stiffness nondimensional_force temperature)
  /\ (forall (link_length : T) (hinge_mass : T) (nondimensional_link_stiffness : T) (nondimensional_force : T) (temperature : T),
     extern.physics_single_chain_ufjc_log_squared_thermodynamics_isotensional_asymptotic_reduced_nondimensional_gibbs_free_energy_per_link link_length hinge_mass nondimensional_link_stiffness nondimensional_force temperature
     = log_squared_isotensional_asymptotic_reduced.nondimensional_gibbs_free_energy_per_link link_length hinge_mass nondimensional_link_stiffness nondimensional_force temperature)
  /\ (forall (number_of_links : Z) (nondimensional_link_stiffness : T) (nondimensional_force : T),
     extern.physics_single_chain_ufjc_log_squared_thermodynamics_isotensional_asymptotic_reduced_nondimensional_relative_gibbs_free_energy number_of_links nondimensional_link_stiffness nondimensional_force
     = log_squared_isotensional_asymptotic_reduced.nondimensional_relative_gibbs_free_energy number_of_links nondimensional_link_stiffness nondimensional_force)
  /\ (forall (nondimensional_link_stiffness : T) (nondimensional_force : T),
     extern.physics_single_chain_ufjc_log_squared_thermodynamics_isotensional_asymptotic_reduced_nondimensional_relative_gibbs_free_energy_per_link nondimensional_link_stiffness nondimensional_force
     = log_squared_isotensional_asymptotic_reduced.nondimensional_relative_gibbs_free_energy_per_link nondimensional_link_stiffness nondimensional_force).
Proof. intros; repeat split. Qed.
Print Assumptions C59_log_squared_isotensional_asymptotic_reduced.

Theorem C59_log_squared_isotensional_asymptotic_reduced_legendre : forall (T : Type) (Sc : Scalar T),
  (forall (number_of_links : Z) (link_length : T) (hinge_mass : T) (link_stiffness : T) (force : T) (temperature : T),
     extern.physics_single_chain_ufjc_log_squared_thermodynamics_isotensional_asymptotic_reduced_legendre_helmholtz_free_energy number_of_links link_length hinge_mass link_stiffness force temperature
     = log_squared_isotensional_asymptotic_reduced_legendre.helmholtz_free_energy number_of_links link_length hinge_mass link_stiffness force temperature)
  /\ (forall (link_length : T) (hinge_mass : T) (link_stiffness : T) (force : T) (temperature : T),
     extern.physics_single_chain_ufjc_log_squared_thermodynamics_isotensional_asymptotic_reduced_legendre_helmholtz_free_energy_per_link link_length hinge_mass link_stiffness force temperature
     = log_squared_isotensional_asymptotic_reduced_legendre.helmholtz_free_energy_per_link link_length hinge_mass link_stiffness force temperature)
  /\ (forall (number_of_links : Z) (link_length : T) (link_stiffness : T) (force : T) (temperature : T),
     extern.physics_single_chain_ufjc_log_squared_thermodynamics_isotensional_asymptotic_reduced_legendre_relative_helmholtz_free_energy number_of_links link_length link_stiffness force temperature
     = log_squared_isotensional_asymptotic_reduced_legendre.relative_helmholtz_free_energy number_of_links link_length link_stiffness force temperature)
  /\ (forall (link_length : T) (link_stiffness : T) (force : T) (temperature : T),
     extern.physics_single_chain_ufjc_log_squared_thermodynamics_isotensional_asymptotic_reduced_legendre_relative_helmholtz_free_energy_per_link link_length link_stiffness force temperature
     = log_squared_isotensional_asymptotic_reduced_legendre.relative_helmholtz_free_energy_per_link link_length link_stiffness force temperature)
  /\ (forall (number_of_links : Z) (link_length : T) (hinge_mass : T) (nondimensional_link_stiffness : T) (nondimensional_force : T) (temperature : T),
     extern.physics_single_chain_ufjc_log_squared_thermodynamics_isotensional_asymptotic_reduced_legendre_nondimensional_helmholtz_free_energy number_of_links link_length hinge_mass nondimensional_link_stiffness nondimensional_force temperature
     = log_squared_isotensional_asymptotic_reduced_legendre.nondimensional_helmholtz_free_energy number_of_links link_length hinge_mass nondimensional_link_stiffness nondimensional_force temperature)
  /\ (forall (link_length : T) (hinge_mass : T) (nondimensional_link_stiffness : T) (nondimensional_force : T) (temperature : T),
     extern.physics_single_chain_ufjc_log_squared_thermodynamics_isotensional_asymptotic_reduced_legendre_nondimensional_helmholtz_free_energy_per_link link_length hinge_mass nondimensional_link_stiffness nondimensional_force temperature
     = log_squared_isotensional_asymptotic_reduced_legendre.nondimensional_helmholtz_free_energy_per_link link_length hinge_mass nondimensional_link_stiffness nondimensional_force temperature)
  /\ (forall (number_of_links : Z) (nondimensional_link_stiffness : T) (nondimensional_force : T),
     extern.physics_single_chain_ufjc_log_squared_thermodynamics_isotensional_asymptotic_reduced_legendre_nondimensional_relative_helmholtz_free_energy number_of_links nondimensional_link_stiffness nondimensional_force
     = log_squared_isotensional_asymptotic_reduced_legendre.nondimensional_relative_helmholtz_free_energy number_of_links nondimensional_link_stiffness nondimensional_force)
  /\ (forall (nondimensional_link_stiffness : T) (nondimensional_force : T),
     extern.physics_single_chain_ufjc_log_squared_thermodynamics_isotensional_asymptotic_reduced_legendre_nondimensional_relative_helmholtz_free_energy_per_link nondimensional_link_stiffness nondimensional_force
     = log_squared_isotensional_asymptotic_reduced_legendre.nondimensional_relative_helmholtz_free_energy_per_link nondimensional_link_stiffness nondimensional_force).
Proof. intros; repeat split. Qed.
Print Assumptions C59_log_squared_isotensional_asymptotic_reduced_legendre.

Theorem C59_log_squared_isotensional_legendre : forall (T : Type) (Sc : Scalar T),
  (forall (number_of_links : Z) (link_length : T) (hinge_mass : T) (link_stiffness : T) (force : T) (temperature : T),
     extern.physics_single_chain_ufjc_log_squared_thermodynamics_isotensional_legendre_helmholtz_free_energy number_of_links link_length hinge_mass link_stiffness force temperature
     = log_squared_isotensional_legendre.helmholtz_free_energy number_of_links link_length hinge_mass link_stiffness force temperature)
  /\ (forall (link_length : T) (hinge_mass : T) (link_stiffness : T) (force : T) (temperature : T),
     extern.physics_single_chain_ufjc_log_squared_thermodynamics_isotensional_legendre_helmholtz_free_energy_per_link link_length hinge_mass link_stiffness force temperature
     = log_squared_isotensional_legendre.helmholtz_free_energy_per_link link_length hinge_mass link_stiffness force temperature)
  /\ (forall (number_of_links : Z) (link_length : T) (link_stiffness : T) (force : T) (temperature : T),
     extern.physics_single_chain_ufjc_log_squared_thermodynamics_isotensional_legendre_relative_helmholtz_free_energy number_of_links link_length link_stiffness force temperature
     = log_squared_isotensional_legendre.relative_helmholtz_free_energy number_of_links link_length link_stiffness force temperature)
  /\ (forall (link_length : T) (link_stiffness : T) (force : T) (temperature : T),
     extern.physics_single_chain_ufjc_log_squared_thermodynamics_isotensional_legendre_relative_helmholtz_free_energy_per_link link_length link_stiffness force temperature
     = log_squared_isotensional_legendre.relative_helmholtz_free_energy_per_link link_length link_stiffness force temperature)
  /\ (forall (number_of_links : Z) (link_length : T) (hinge_mass : T) (nondimensional_link_stiffness : T) (nondimensional_force : T) (temperature : T),
     extern.physics_single_chain_ufjc_log_squared_thermodynamics_isotensional_legendre_nondimensional_helmholtz_free_energy number_of_links link_length hinge_mass nondimensional_link_stiffness nondimensional_force temperature
     = log_squared_isotensional_legendre.nondimensional_helmholtz_free_energy number_of_links link_length hinge_mass nondimensional_link_stiffness nondimensional_force temperature)
  /\ (forall (link_length : T) (hinge_mass : T) (nondimensional_link_stiffness : T) (nondimensional_force : T) (temperature : T),
     extern.physics_single_chain_ufjc_log_squared_thermodynamics_isotensional_legendre_nondimensional_helmholtz_free_energy_per_link link_length hinge_mass nondimensional_link_stiffness nondimensional_force temperature
     = log_squared_isotensional_legendre.nondimensional_helmholtz_free_energy_per_link link_length hinge_mass nondimensional_link_stiffness nondimensional_force temperature)
  /\ (forall (number_of_links : Z) (nondimensional_link_stiffness : T) (nondimensional_force : T),
     extern.physics_single_chain_ufjc_log_squared_thermodynamics_isotensional_legendre_nondimensional_relative_helmholtz_free_energy number_of_links nondimensional_link_stiffness nondimensional_force
     = log_squared_isotensional_legendre.nondimensional_relative_helmholtz_free_energy number_of_links nondimensional_link_stiffness nondimensional_force)
  /\ (forall (nondimensional_link_stiffness : T) (nondimensional_force : T),
     extern.physics_single_chain_ufjc_log_squared_thermodynamics_isotensional_legendre_nondimensional_relative_helmholtz_free_energy_per_link nondimensional_link_stiffness nondimensional_force
     = log_squared_isotensional_legendre.nondimensional_relative_helmholtz_free_energy_per_link nondimensional_link_stiffness nondimensional_force).
Proof. intros; repeat split. Qed.
Print Assumptions C59_log_squared_isotensional_legendre.

Theorem C59_morse_isometric_asymptotic_legendre : forall (T : Type) (Sc : Scalar T),
  (forall (number_of_links : Z) (link_length : T) (link_stiffness : T) (link_energy : T) (end_to_end_length : T) (temperature : T),
     extern.physics_single_chain_ufjc_morse_thermodynamics_isometric_asymptotic_legendre_force number_of_links link_length link_stiffness link_energy end_to_end_length temperature
     = morse_isometric_asymptotic_legendre.force number_of_links link_length link_stiffness link_energy end_to_end_length temperature)
  /\ (forall (nondimensional_link_stiffness : T) (nondimensional_link_energy : T) (nondimensional_end_to_end_length_per_link : T),
     extern.physics_single_chain_ufjc_morse_thermodynamics_isometric_asymptotic_legendre_nondimensional_force nondimensional_link_stiffness nondimensional_link_energy nondimensional_end_to_end_length_per_link
     = morse_isometric_asymptotic_legendre.nondimensional_force nondimensional_link_stiffness nondimensional_link_energy nondimensional_end_to_end_length_per_link)
  /\ (forall (number_of_links : Z) (link_length : T) (hinge_mass : T) (link_stiffness : T) (link_energy : T) (end_to_end_length : T) (temperature : T),
     extern.physics_single_chain_ufjc_morse_thermodynamics_isometric_asymptotic_legendre_helmholtz_free_energy number_of_links link_length hinge_mass link_stiffness link_energy end_to_end_length temperature
     = morse_isometric_asymptotic_legendre.helmholtz_free_energy number_of_links link_length hinge_mass link_stiffness link_energy end_to_end_length temperature)
  /\ (forall (number_of_links : Z) (link_length : T) (hinge_mass : T) (link_stiffness : T) (link_energy : T) (end_to_end_length : T) (temperature : T),
     extern.physics_single_chain_ufjc_morse_thermodynamics_isometric_asymptotic_legendre_helmholtz_free_energy_per_link number_of_links link_length hinge_mass link_stiffness link_energy end_to_end_length temperature
     = morse_isometric_asymptotic_legendre.helmholtz_free_energy_per_link number_of_links link_length hinge_mass link_stiffness link_energy end_to_end_length temperature)
  /\ (forall (number_of_links : Z) (link_length : T) (link_stiffness : T) (link_energy : T) (end_to_end_length : T) (temperature : T),
     extern.physics_single_chain_ufjc_morse_thermodynamics_isometric_asymptotic_legendre_relative_helmholtz_free_energy number_of_links link_length link_stiffness link_energy end_to_end_length temperature
     = morse_isometric_asymptotic_legendre.relative_helmholtz_free_energy number_of_links link_length link_stiffness link_energy end_to_end_length temperature)
  /\ (forall (number_of_links : Z) (link_length : T) (link_stiffness : T) (link_energy : T) (end_to_end_length : T) (temperature : T),
     extern.physics_single_chain_ufjc_morse_thermodynamics_isometric_asymptotic_legendre_relative_helmholtz_free_energy_per_link number_of_links link_length link_stiffness link_energy end_to_end_length temperature
     = morse_isometric_asymptotic_legendre.relative_helmholtz_free_energy_per_link number_of_links link_length link_stiffness link_energy end_to_end_length temperature)
  /\ (forall (number_of_links : Z) (link_length : T) (hinge_mass : T) (nondimensional_link_stiffness : T) (nondimensional_link_energy : T) (nondimensional_end_to_end_length_per_link : T) (temperature : T),
     extern.physics_single_chain_ufjc_morse_thermodynamics_isometric_asymptotic_legendre_nondimensional_helmholtz_free_energy number_of_links link_length hinge_mass nondimensional_link_stiffness nondimensional_link_energy nondimensional_end_to_end_length_per_link temperature
     = morse_isometric_asymptotic_legendre.nondimensional_helmholtz_free_energy number_of_links link_length hinge_mass nondimensional_link_stiffness nondimensional_link_energy nondimensional_end_to_end_length_per_link temperature)
  /\ (forall (number_of_links : Z) (link_length : T) (hinge_mass : T) (nondimensional_link_stiffness : T) (nondimensional_link_energy : T) (nondimensional_end_to_end_length_per_link : T) (temperature : T),
     extern.physics_single_chain_ufjc_morse_thermodynamics_isometric_asymptotic_legendre_nondimensional_helmholtz_free_energy_per_link number_of_links link_length hinge_mass nondimensional_link_stiffness nondimensional_link_energy nondimensional_end_to_end_length_per_link temperature
     = morse_isometric_asymptotic_legendre.nondimensional_helmholtz_free_energy_per_link number_of_links link_length hinge_mass nondimensional_link_stiffness nondimensional_link_energy nondimensional_end_to_end_length_per_link temperature)
  /\ (forall (number_of_links : Z) (nondimensional_link_stiffness : T) (nondimensional_link_energy : T) (nondimensional_end_to_end_length_per_link : T),
     extern.physics_single_chain_ufjc_morse_thermodynamics_isometric_asymptotic_legendre_nondimensional_relative_helmholtz_free_energy number_of_links nondimensional_link_stiffness nondimensional_link_energy nondimensional_end_to_end_length_per_link
     = morse_isometric_asymptotic_legendre.nondimensional_relative_helmholtz_free_energy number_of_links nondimensional_link_stiffness nondimensional_link_energy nondimensional_end_to_end_length_per_link)
  /\ (forall (nondimensional_link_stiffness : T) (nondimensional_link_energy : T) (nondimensional_end_to_end_length_per_link : T),
     extern.physics_single_chain_ufjc_morse_thermodynamics_isometric_asymptotic_legendre_nondimensional_relative_helmholtz_free_energy_per_link nondimensional_link_stiffness nondimensional_link_energy nondimensional_end_to_end_length_per_link
     = morse_isometric_asymptotic_legendre.nondimensional_relative_helmholtz_free_energy_per_link nondimensional_link_stiffness nondimensional_link_energy nondimensional_end_to_end_length_per_link).
Proof. intros; repeat split. Qed.
Print Assumptions C59_morse_isometric_asymptotic_legendre.

Theorem C59_morse_isometric_asymptotic_reduced_legendre : forall (T : Type) (Sc : Scalar T),
  (forall (number_of_links : Z) (link_length : T) (link_stiffness : T) (link_energy : T) (end_to_end_length : T) (temperature : T),
     extern.physics_single_chain_ufjc_morse_thermodynamics_isometric_asymptotic_reduced_legendre_force number_of_links link_length link_stiffness link_energy end_to_end_length temperature
     = morse_isometric_asymptotic_reduced_legendre.force number_of_links link_length link_stiffness link_energy end_to_end_length temperature)
  /\ (forall (nondimensional_link_stiffness : T) (nondimensional_link_energy : T) (nondimensional_end_to_end_length_per_link : T),
     extern.physics_single_chain_ufjc_morse_thermodynamics_isometric_asymptotic_reduced_legendre_nondimensional_force nondimensional_link_stiffness nondimensional_link_energy nondimensional_end_to_end_length_per_link
     = morse_isometric_asymptotic_reduced_legendre.nondimensional_force nondimensional_link_stiffness nondimensional_link_energy nondimensional_end_to_end_length_per_link)
  /\ (forall (number_of_links : Z) (link_length : T) (hinge_mass : T) (link_stiffness : T) (link_energy : T) (end_to_end_length : T) (temperature : T),
     extern.physics_single_chain_ufjc_morse_thermodynamics_isometric_asymptotic_reduced_legendre_helmholtz_free_energy number_of_links link_length hinge_mass link_stiffness link_energy end_to_end_length temperature
     = morse_isometric_asymptotic_reduced_legendre.helmholtz_free_energy number_of_links link_length hinge_mass link_stiffness link_energy end_to_end_length temperature)
  /\ (forall (number_of_links : Z) (link_length : T) (hinge_mass : T) (link_stiffness : T) (link_energy : T) (end_to_end_length : T) (temperature : T),
     extern.physics_single_chain_ufjc_morse_thermodynamics_isometric_asymptotic_reduced_legendre_helmholtz_free_energy_per_link number_of_links link_length hinge_mass link_stiffness link_energy end_to_end_length temperature
     = morse_isometric_asymptotic_reduced_legendre.helmholtz_free_energy_per_link number_of_links link_length hinge_mass link_stiffness link_energy end_to_end_length temperature)
  /\ (forall (number_of_links : Z) (link_length : T) (link_stiffness : T) (link_energy : T) (end_to_end_length : T) (temperature : T),
     extern.physics_single_chain_ufjc_morse_thermodynamics_isometric_asymptotic_reduced_legendre_relative_helmholtz_free_energy number_of_links link_length link_stiffness link_energy end_to_end_length temperature
     = morse_isometric_asymptotic_reduced_legendre.relative_helmholtz_free_energy number_of_links link_length link_stiffness link_energy end_to_end_length temperature)
  /\ (forall (number_of_links : Z) (link_length : T) (link_stiffness : T) (link_energy : T) (end_to_end_length : T) (temperature : T),
     extern.physics_single_chain_ufjc_morse_thermodynamics_isometric_asymptotic_reduced_legendre_relative_helmholtz_free_energy_per_link number_of_links link_length link_stiffness link_energy end_to_end_length temperature
     = morse_isometric_asymptotic_reduced_legendre.relative_helmholtz_free_energy_per_link number_of_links link_length link_stiffness link_energy end_to_end_length temperature)
  /\ (forall (number_of_links : Z) (link_length : T) (hinge_mass : T) (nondimensional_link_stiffness : T) (nondimensional_link_energy : T) (nondimensional_end_to_end_length_per_link : T) (temperature : T),
     extern.physics_single_chain_ufjc_morse_thermodynamics_isometric_asymptotic_reduced_legendre_nondimensional_helmholtz_free_energy number_of_links link_length hinge_mass nondimensional_link_stiffness nondimensional_link_energy nondimensional_end_to_end_length_per_link temperature
     = morse_isometric_asymptotic_reduced_legendre.nondimensional_helmholtz_free_energy number_of_links link_length hinge_mass nondimensional_link_stiffness nondimensional_link_energy nondimensional_end_to_end_length_per_link temperature)
  /\ (forall (number_of_links : Z) (link_length : T) (hinge_mass : T) (nondimensional_link_stiffness : T) (nondimensional_link_energy : T) (nondimensional_end_to_end_length_per_link : T) (temperature : T),
     extern.physics_single_chain_ufjc_morse_thermodynamics_isometric_asymptotic_reduced_legendre_nondimensional_helmholtz_free_energy_per_link number_of_links link_length hinge_mass nondimensional_link_stiffness nondimensional_link_energy nondimensional_end_to_end_length_per_link temperature
     = morse_isometric_asymptotic_reduced_legendre.nondimensional_helmholtz_free_energy_per_link number_of_links link_length hinge_mass nondimensional_link_stiffness nondimensional_link_energy nondimensional_end_to_end_length_per_link temperature)
  /\ (forall (number_of_links : Z) (nondimensional_link_stiffness : T) (nondimensional_link_energy : T) (nondimensional_end_to_end_length_per_link : T),
     extern.physics_single_chain_ufjc_morse_thermodynamics_isometric_asymptotic_reduced_legendre_nondimensional_relative_helmholtz_free_energy number_of_links nondimensional_link_stiffness nondimensional_link_energy nondimensional_end_to_end_length_per_link
     = morse_isometric_asymptotic_reduced_legendre.nondimensional_relative_helmholtz_free_energy number_of_links nondimensional_link_stiffness nondimensional_link_energy nondimensional_end_to_end_length_per_link)
  /\ (forall (nondimensional_link_stiffness : T) (nondimensional_link_energy : T) (nondimensional_end_to_end_length_per_link : T),
     extern.physics_single_chain_ufjc_morse_thermodynamics_isometric_asymptotic_reduced_legendre_nondimensional_relative_helmholtz_free_energy_per_link nondimensional_link_stiffness nondimensional_link_energy nondimensional_end_to_end_length_per_link
     = morse_isometric_asymptotic_reduced_legendre.nondimensional_relative_helmholtz_free_energy_per_link nondimensional_link_stiffness nondimensional_link_energy nondimensional_end_to_end_length_per_link).
Proof. intros; repeat split. Qed.
Print Assumptions C59_morse_isometric_asymptotic_reduced_legendre.

Theorem C59_morse_isotensional : forall (T : Type) (Sc : Scalar T),
  (forall (number_of_links : Z) (link_length : T) (link_stiffness : T) (link_energy : T) (force : T) (temperature : T),
     extern.physics_single_chain_ufjc_morse_thermodynamics_isotensional_end_to_end_length number_of_links link_length link_stiffness link_energy force temperature
     = morse_isotensional.end_to_end_length number_of_links link_length link_stiffness link_energy force temperature)
  /\ (forall (link_length : T) (link_stiffness : T) (link_energy : T) (force : T) (temperature : T),
     extern.physics_single_chain_ufjc_morse_thermodynamics_isotensional_end_to_end_length_per_link link_length link_stiffness link_energy force temperature
     = morse_isotensional.end_to_end_length_per_link link_length link_stiffness link_energy force temperature)
  /\ (forall (number_of_links : Z) (nondimensional_link_stiffness : T) (nondimensional_link_energy : T) (nondimensional_force : T),
     extern.physics_single_chain_ufjc_morse_thermodynamics_isotensional_nondimensional_end_to_end_length number_of_links nondimensional_link_stiffness nondimensional_link_energy nondimensional_force
     = morse_isotensional.nondimensional_end_to_end_length number_of_links nondimensional_link_stiffness nondimensional_link_energy nondimensional_force)
  /\ (forall (nondimensional_link_stiffness : T) (nondimensional_link_energy : T) (nondimensional_force : T),
     extern.physics_single_chain_ufjc_morse_thermodynamics_isotensional_nondimensional_end_to_end_length_per_link nondimensional_link_stiffness nondimensional_link_energy nondimensional_force
     = morse_isotensional.nondimensional_end_to_end_length_per_link nondimensional_link_stiffness nondimensional_link_energy nondimensional_force)
  /\ (forall (number_of_links : Z) (link_length : T) (hinge_mass : T) (link_stiffness : T) (link_energy : T) (force : T) (temperature : T),
     extern.physics_single_chain_ufjc_morse_thermodynamics_isotensional_gibbs_free_energy number_of_links link_length hinge_mass link_stiffness link_energy force temperature
     = morse_isotensional.gibbs_free_energy number_of_links link_length hinge_mass link_stiffness link_energy force temperature)
  /\ (forall (link_length : T) (hinge_mass : T) (link_stiffness : T) (link_energy : T) (force : T) (temperature : T),
     extern.physics_single_chain_ufjc_morse_thermodynamics_isotensional_gibbs_free_energy_per_link link_length hinge_mass link_stiffness link_energy force temperature
     = morse_isotensional.gibbs_free_energy_per_link link_length hinge_mass link_stiffness link_energy force temperature)
  /\ (forall (number_of_links : Z) (link_length : T) (link_stiffness : T) (link_energy : T) (force : T) (temperature : T),
     extern.physics_single_chain_ufjc_morse_thermodynamics_isotensional_relative_gibbs_free_energy number_of_links link_length link_stiffness link_energy force temperature
     = morse_isotensional.relative_gibbs_free_energy number_of_links link_length link_stiffness link_energy force temperature)
  /\ (forall (link_length : T) (link_stiffness : T) (link_energy : T) (force : T) (temperature : T),
     extern.physics_single_chain_ufjc_morse_thermodynamics_isotensional_relative_gibbs_free_energy_per_link link_length link_stiffness link_energy force temperature
     = morse_isotensional.relative_gibbs_free_energy_per_link link_length link_stiffness link_energy force temperature)
  /\ (forall (number_of_links : Z) (link_length : T) (hinge_mass : T) (nondimensional_link_stiffness : T) (nondimensional_link_energy : T) (nondimensional_force : T) (temperature : T),
     extern.physics_single_chain_ufjc_morse_thermodynamics_isotensional_nondimensional_gibbs_free_energy number_of_links link_length hinge_mass nondimensional_link_stiffness nondimensional_link_energy nondimensional_force temperature
     = morse_isotensional.nondimensional_gibbs_free_energy number_of_links link_length hinge_mass nondimensional_link_stiffness nondimensional_link_energy nondimensional_force temperature)
  /\ (forall (link_length : T) (hinge_mass : T) (nondimensional_link_stiffness : T) (nondimensional_link_energy : T) (nondimensional_force : T) (temperature : T),
     extern.physics_single_chain_ufjc_morse_thermodynamics_isotensional_nondimensional_gibbs_free_energy_per_link link_length hinge_mass nondimensional_link_stiffness nondimensional_link_energy nondimensional_force temperature
     = morse_isotensional.nondimensional_gibbs_free_energy_per_link link_length hinge_mass nondimensional_link_stiffness nondimensional_link_energy nondimensional_force temperature)
  /\ (forall (number_of_links : Z) (nondimensional_link_stiffness : T) (nondimensional_link_energy : T) (nondimensional_force : T),
     extern.physics_single_chain_ufjc_morse_thermodynamics_isotensional_nondimensional_relative_gibbs_free_energy number_of_links nondimensional_link_stiffness nondimensional_link_energy nondimensional_force
     = morse_isotensional.nondimensional_relative_gibbs_free_energy number_of_links nondimensional_link_stiffness nondimensional_link_energy nondimensional_force)
  /\ (forall (nondimensional_link_stiffness : T) (nondimensional_link_energy : T) (nondimensional_force : T),
     extern.physics_single_chain_ufjc_morse_thermodynamics_isotensional_nondimensional_relative_gibbs_free_energy_per_link nondimensional_link_stiffness nondimensional_link_energy nondimensional_force
     = morse_isotensional.nondimensional_relative_gibbs_free_energy_per_link nondimensional_link_stiffness nondimensional_link_energy nondimensional_force).
Proof. intros; repeat split. Qed.
Print Assumptions C59_morse_isotensional.

Theorem C59_morse_isotensional_asymptotic : forall (T : Type) (Sc : Scalar T),
  (forall (number_of_links : Z) (link_length : T) (link_stiffness : T) (link_energy : T) (force : T) (temperature : T),
     extern.physics_single_chain_ufjc_morse_thermodynamics_isotensional_asymptotic_end_to_end_length number_of_links link_length link_stiffness link_energy force temperature
     = morse_isotensional_asymptotic.end_to_end_length number_of_links link_length link_stiffness link_energy force temperature)
  /\ (forall (link_length : T) (link_stiffness : T) (link_energy : T) (force : T) (temperature : T),
     extern.physics_single_chain_ufjc_morse_thermodynamics_isotensional_asymptotic_end_to_end_length_per_link link_length link_stiffness link_energy force temperature
     = morse_isotensional_asymptotic.end_to_end_length_per_link link_length link_stiffness link_energy force temperature)
  /\ (forall (number_of_links : Z) (nondimensional_link_stiffness : T) (nondimensional_link_energy : T) (nondimensional_force : T),
     extern.physics_single_chain_ufjc_morse_thermodynamics_isotensional_asymptotic_nondimensional_end_to_end_length number_of_links nondimensional_link_stiffness nondimensional_link_energy nondimensional_force
     = morse_isotensional_asymptotic.nondimensional_end_to_end_length number_of_links nondimensional_link_stiffness nondimensional_link_energy nondimensional_force)
  /\ (forall (nondimensional_link_stiffness : T) (nondimensional_link_energy : T) (nondimensional_force : T),
     extern.physics_single_chain_ufjc_morse_thermodynamics_isotensional_asymptotic_nondimensional_end_to_end_length_per_link nondimensional_link_stiffness nondimensional_link_energy nondimensional_force
     = morse_isotensional_asymptotic.nondimensional_end_to_end_length_per_link nondimensional_link_stiffness nondimensional_link_energy nondimensional_force)
  /\ (forall (number_of_links : Z) (link_length : T) (hinge_mass : T) (link_stiffness : T) (link_energy : T) (force : T) (temperature : T),
     extern.physics_single_chain_ufjc_morse_thermodynamics_isotensional_asymptotic_gibbs_free_energy number_of_links link_length hinge_mass link_stiffness link_energy force temperature
     = morse_isotensional_asymptotic.gibbs_free_energy number_of_links link_length hinge_mass link_stiffness link_energy force temperature)
  /\ (forall (link_length : T) (hinge_mass : T) (link_stiffness : T) (link_energy : T) (force : T) (temperature : T),
     extern.physics_single_chain_ufjc_morse_thermodynamics_isotensional_asymptotic_gibbs_free_energy_per_link link_length hinge_mass link_stiffness link_energy force temperature
     = morse_isotensional_asymptotic.gibbs_free_energy_per_link link_length hinge_mass link_stiffness link_energy force temperature)
  /\ (forall (number_of_links : Z) (link_length : T) (link_stiffness : T) (link_energy : T) (force : T) (temperature : T),
     extern.physics_single_chain_ufjc_morse_thermodynamics_isotensional_asymptotic_relative_gibbs_free_energy number_of_links link_length link_stiffness link_energy force temperature
     = morse_isotensional_asymptotic.relative_gibbs_free_energy number_of_links link_length link_stiffness link_energy force temperature)
  /\ (forall (link_length : T) (link_stiffness : T) (link_energy : T) (force : T) (temperature : T),
     extern.physics_single_chain_ufjc_morse_thermodynamics_isotensional_asymptotic_relative_gibbs_free_energy_per_link link_length link_stiffness link_energy force temperature
     = morse_isotensional_asymptotic.relative_gibbs_free_energy_per_link link_length link_stiffness link_energy force temperature)
  /\ (forall (number_of_links : Z) (link_length : T) (hinge_mass : T) (nondimensional_link_stiffness : T) (nondimensional_link_energy : T) (nondimensional_force : T) (temperature : T),
     extern.physics_single_chain_ufjc_morse_thermodynamics_isotensional_asymptotic_nondimensional_gibbs_free_energy number_of_links link_length hinge_mass nondimensional_link_stiffness nondimensional_link_energy nondimensional_force temperature
     = morse_isotensional_asymptotic.nondimensional_gibbs_free_energy number_of_links link_length hinge_mass nondimensional_link_stiffness nondimensional_link_energy nondimensional_force temperature)
  /\ (forall (link_length : T) (hinge_mass : T) (nondimensional_link_stiffness : T) (nondimensional_link_energy : T) (nondimensional_force : T) (temperature : T),
     extern.physics_single_chain_ufjc_morse_thermodynamics_isotensional_asymptotic_nondimensional_gibbs_free_energy_per_link link_length hinge_mass nondimensional_link_stiffness nondimensional_link_energy nondimensional_force temperature
     = morse_isotensional_asymptotic.nondimensional_gibbs_free_energy_per_link link_length hinge_mass nondimensional_link_stiffness nondimensional_link_energy nondimensional_force temperature)
  /\ (forall (number_of_links : Z) (nondimensional_link_stiffness : T) (nondimensional_link_energy : T) (nondimensional_force : T),
     extern.physics_single_chain_ufjc_morse_thermodynamics_isotensional_asymptotic_nondimensional_relative_gibbs_free_energy number_of_links nondimensional_link_stiffness nondimensional_link_energy nondimensional_force
     = morse_isotensional_asymptotic.nondimensional_relative_gibbs_free_energy number_of_links nondimensional_link_stiffness nondimensional_link_energy nondimensional_force)
  /\ (forall (nondimensional_link_stiffness : T) (nondimensional_link_energy : T) (nondimensional_force : T),
     extern.physics_single_chain_ufjc_morse_thermodynamics_isotensional_asymptotic_nondimensional_relative_gibbs_free_energy_per_link nondimensional_link_stiffness nondimensional_link_energy nondimensional_force
     = morse_isotensional_asymptotic.nondimensional_relative_gibbs_free_energy_per_link nondimensional_link_stiffness nondimensional_link_energy nondimensional_force).
Proof. intros; repeat split. Qed.
Print Assumptions C59_morse_isotensional_asymptotic.

Theorem C59_morse_isotensional_asymptotic_legendre : forall (T : Type) (Sc : Scalar T),
  (forall (number_of_links : Z) (link_length : T) (hinge_mass : T) (link_stiffness : T) (link_energy : T) (force : T) (temperature : T),
     extern.physics_single_chain_ufjc_morse_thermodynamics_isotensional_asymptotic_legendre_helmholtz_free_energy number_of_links link_length hinge_mass link_stiffness link_energy force temperature
     = morse_isotensional_asymptotic_legendre.helmholtz_free_energy number_of_links link_length hinge_mass link_stiffness link_energy force temperature)
  /\ (forall (link_length : T) (hinge_mass : T) (link_stiffness : T) (link_energy : T) (force : T) (temperature : T),
     extern.physics_single_chain_ufjc_morse_thermodynamics_isotensional_asymptotic_legendre_helmholtz_free_energy_per_link link_length hinge_mass link_stiffness link_energy force temperature
     = morse_isotensional_asymptotic_legendre.helmholtz_free_energy_per_link link_length hinge_mass link_stiffness link_energy force temperature)
  /\ (forall (number_of_links : Z) (link_length : T) (link_stiffness : T) (link_energy : T) (force : T) (temperature : T),
     extern.physics_single_chain_ufjc_morse_thermodynamics_isotensional_asymptotic_legendre_relative_helmholtz_free_energy number_of_links link_length link_stiffness link_energy force temperature
     = morse_isotensional_asymptotic_legendre.relative_helmholtz_free_energy number_of_links link_length link_stiffness link_energy force temperature)
  /\ (forall (link_length : T) (link_stiffness : T) (link_energy : T) (force : T) (temperature : T),
     extern.physics_single_chain_ufjc_morse_thermodynamics_isotensional_asymptotic_legendre_relative_helmholtz_free_energy_per_link link_length link_stiffness link_energy force temperature
     = morse_isotensional_asymptotic_legendre.relative_helmholtz_free_energy_per_link link_length link_stiffness link_energy force temperature)
  /\ (forall (number_of_links : Z) (link_length : T) (hinge_mass : T) (nondimensional_link_stiffness : T) (nondimensional_link_energy : T) (nondimensional_force : T) (temperature : T),
     extern.physics_single_chain_ufjc_morse_thermodynamics_isotensional_asymptotic_legendre_nondimensional_helmholtz_free_energy number_of_links link_length hinge_mass nondimensional_link_stiffness nondimensional_link_energy nondimensional_force temperature
     = morse_isotensional_asymptotic_legendre.nondimensional_helmholtz_free_energy number_of_links link_length hinge_mass nondimensional_link_stiffness nondimensional_link_energy nondimensional_force temperature)
  /\ (forall (link_length : T) (hinge_mass : T) (nondimensional_link_stiffness : T) (nondimensional_link_energy : T) (nondimensional_force : T) (temperature : T),
     extern.physics_single_chain_ufjc_morse_thermodynamics_isotensional_asymptotic_legendre_nondimensional_helmholtz_free_energy_per_link link_length hinge_mass nondimensional_link_stiffness nondimensional_link_energy nondimensional_force temperature
     = morse_isotensional_asymptotic_legendre.nondimensional_helmholtz_free_energy_per_link link_length hinge_mass nondimensional_link_stiffness nondimensional_link_energy nondimensional_force temperature)
  /\ (forall (number_of_links : Z) (nondimensional_link_stiffness : T) (nondimensional_link_energy : T) (nondimensional_force : T),
     extern.physics_single_chain_ufjc_morse_thermodynamics_isotensional_asymptotic_legendre_nondimensional_relative_helmholtz_free_energy number_of_links nondimensional_link_stiffness nondimensional_link_energy nondimensional_force
     = morse_isotensional_asymptotic_legendre.nondimensional_relative_helmholtz_free_energy number_of_links nondimensional_link_stiffness nondimensional_link_energy nondimensional_force)
  /\ (forall (nondimensional_link_stiffness : T) (nondimensional_link_energy : T) (nondimensional_force : T),
     extern.physics_single_chain_ufjc_morse_thermodynamics_isotensional_asymptotic_legendre_nondimensional_relative_helmholtz_free_energy_per_link nondimensional_link_stiffness nondimensional_link_energy nondimensional_force
     = morse_isotensional_asymptotic_legendre.nondimensional_relative_helmholtz_free_energy_per_link nondimensional_link_stiffness nondimensional_link_energy nondimensional_force).
Proof. intros; repeat split. Qed.
Print Assumptions C59_morse_isotensional_asymptotic_legendre.

Theorem C59_morse_isotensional_asymptotic_reduced : forall (T : Type) (Sc : Scalar T),
  (forall (number_of_links : Z) (link_length : T) (link_stiffness : T) (link_energy : T) (force : T) (temperature : T),
     extern.physics_single_chain_ufjc_morse_thermodynamics_isotensional_asymptotic_reduced_end_to_end_length number_of_links link_length link_stiffness link_energy force temperature
     = morse_isotensional_asymptotic_reduced.end_to_end_length number_of_links link_length link_stiffness link_energy force temperature)
  /\ (forall (link_length : T) (link_stiffness : T) (link_energy : T) (force : T) (temperature : T),
     extern.physics_single_chain_ufjc_morse_thermodynamics_isotensional_asymptotic_reduced_end_to_end_length_per_link link_length link_stiffness link_energy force temperature
     = morse_isotensional_asymptotic_reduced.end_to_end_length_per_link link_length link_stiffness link_energy force temperature)
  /\ (forall (number_of_links : Z) (nondimensional_link_stiffness : T) (nondimensional_link_energy : T) (nondimensional_force : T),
     extern.physics_single_chain_ufjc_morse_thermodynamics_isotensional_asymptotic_reduced_nondimensional_end_to_end_length number_of_links nondimensional_link_stiffness nondimensional_link_energy nondimensional_force
     = morse_isotensional_asymptotic_reduced.nondimensional_end_to_end_length number_of_links nondimensional_link_stiffness nondimensional_link_energy nondimensional_force)
  /\ (forall (nondimensional_link_stiffness : T) (nondimensional_link_energy : T) (nondimensional_force : T),
     extern.physics_single_chain_ufjc_morse_thermodynamics_isotensional_asymptotic_reduced_nondimensional_end_to_end_length_per_link nondimensional_link_stiffness nondimensional_link_energy nondimensional_force
     = morse_isotensional_asymptotic_reduced.nondimensional_end_to_end_length_per_link nondimensional_link_stiffness nondimensional_link_energy nondimensional_force)
  /\ (forall (number_of_links : Z) (link_length : T) (hinge_mass : T) (link_stiffness : T) (link_energy : T) (force : T) (temperature : T),
     extern.physics_single_chain_ufjc_morse_thermodynamics_isotensional_asymptotic_reduced_gibbs_free_energy number_of_links link_length hinge_mass link_stiffness link_energy force temperature
     = morse_isotensional_asymptotic_reduced.gibbs_free_energy number_of_links link_length hinge_mass link_stiffness link_energy force temperature)
  /\ (forall (link_length : T) (hinge_mass : T) (link_stiffness : T) (link_energy : T) (force : T) (temperature : T),
     extern.physics_single_chain_ufjc_morse_thermodynamics_isotensional_asymptotic_reduced_gibbs_free_energy_per_link link_length hinge_mass link_stiffness link_energy force temperature
     = morse_isotensional_asymptotic_reduced.gibbs_free_energy_per_link link_length hinge_mass link_stiffness link_energy force temperature)
  /\ (forall (number_of_links : Z) (link_length : T) (link_stiffness : T) (link_energy : T) (force : T) (temperature : T),
     extern.physics_single_chain_ufjc_morse_thermodynamics_isotensional_asymptotic_reduced_relative_gibbs_free_energy number_of_links link_length link_stiffness link_energy force temperature
     = morse_isotensional_asymptotic_reduced.relative_gibbs_free_energy number_of_links link_length link_stiffness link_energy force temperature)
  /\ (forall (link_length : T) (link_stiffness : T) (link_energy : T) (force : T) (temperature : T),
     extern.physics_single_chain_ufjc_morse_thermodynamics_isotensional_asymptotic_reduced_relative_gibbs_free_energy_per_link link_length link_stiffness link_energy force temperature
     = morse_isotensional_asymptotic_reduced.relative_gibbs_free_energy_per_link link_length link_stiffness link_energy force temperature)
  /\ (forall (number_of_links : Z) (link_length : T) (hinge_mass : T) (nondimensional_link_stiffness : T) (nondimensional_link_energy : T) (nondimensional_force : T) (temperature : T),
     extern.physics_single_chain_ufjc_morse_thermodynamics_isotensional_asymptotic_reduced_nondimensional_gibbs_free_energy number_of_links link_length hinge_mass nondimensional_link_stiffness nondimensional_link_energy nondimensional_force temperature
     = morse_isotensional_asymptotic_reduced.nondimensional_gibbs_free_energy number_of_links link_length hinge_mass nondimensional_link_stiffness nondimensional_link_energy nondimensional_force temperature)
  /\ (forall (link_length : T) (hinge_mass : T) (nondimensional_link_stiffness : T) (nondimensional_link_energy : T) (nondimensional_force : T) (temperature : T),
     extern.physics_single_chain_ufjc_morse_thermodynamics_isotensional_asymptotic_reduced_nondimensional_gibbs_free_energy_per_link link_length hinge_mass nondimensional_link_stiffness nondimensional_link_energy nondimensional_force temperature
     = morse_isotensional_asymptotic_reduced.nondimensional_gibbs_free_energy_per_link link_length hinge_mass nondimensional_link_stiffness nondimensional_link_energy nondimensional_force temperature)
  /\ (forall (number_of_links : Z) (nondimensional_link_stiffness : T) (nondimensional_link_energy : T) (nondimensional_force : T),
     extern.physics_single_chain_ufjc_morse_thermodynamics_isotensional_asymptotic_reduced_nondimensional_relative_gibbs_free_energy number_of_links nondimensional_link_stiffness nondimensional_link_energy nondimensional_force
     = morse_isotensional_asymptotic_reduced.nondimensional_relative_gibbs_free_energy number_of_links nondimensional_link_stiffness nondimensional_link_energy nondimensional_force)
  /\ (forall (nondimensional_link_stiffness : T) (nondimensional_link_energy : T) (nondimensional_force : T),
     extern.physics_single_chain_ufjc_morse_thermodynamics_isotensional_asymptotic_reduced_nondimensional_relative_gibbs_free_energy_per_link nondimensional_link_stiffness nondimensional_link_energy nondimensional_force
     = morse_isotensional_asymptotic_reduced.nondimensional_relative_gibbs_free_energy_per_link nondimensional_link_stiffness nondimensional_link_energy nondimensional_force).
Proof. intros; repeat split. Qed.
Print Assumptions C59_morse_isotensional_asymptotic_reduced.

Theorem C59_morse_isotensional_asymptotic_reduced_legendre : forall (T : Type) (Sc : Scalar T),
  (forall (number_of_links : Z) (link_length : T) (hinge_mass : T) (link_stiffness : T) (link_energy : T) (force : T) (temperature : T),
     extern.physics_single_chain_ufjc_morse_thermodynamics_isotensional_asymptotic_reduced_legendre_helmholtz_free_energy number_of_links link_length hinge_mass link_stiffness link_energy force temperature
     = morse_isotensional_asymptotic_reduced_legendre.helmholtz_free_energy number_of_links link_length hinge_mass link_stiffness link_energy force temperature)
  /\ (forall (link_length : T) (hinge_mass : T) (link_stiffness : T) (link_energy : T) (force : T) (temperature : T),
     extern.physics_single_chain_ufjc_morse_thermodynamics_isotensional_asymptotic_reduced_legendre_helmholtz_free_energy_per_link link_length hinge_mass link_stiffness link_energy force temperature
     = morse_isotensional_asymptotic_reduced_legendre.helmholtz_free_energy_per_link link_length hinge_mass link_stiffness link_energy force temperature)
  /\ (forall (number_of_links : Z) (link_length : T) (link_stiffness : T) (link_energy : T) (force : T) (temperature : T),
     extern.physics_single_chain_ufjc_morse_thermodynamics_isotensional_asymptotic_reduced_legendre_relative_helmholtz_free_energy number_of_links link_length link_stiffness link_energy force temperature
     = morse_isotensional_asymptotic_reduced_legendre.relative_helmholtz_free_energy number_of_links link_length link_stiffness link_energy force temperature)
  /\ (forall (link_length : T) (link_stiffness : T) (link_energy : T) (force : T) (temperature : T),
     extern.physics_single_chain_ufjc_morse_thermodynamics_isotensional_asymptotic_reduced_legendre_relative_helmholtz_free_energy_per_link link_length link_stiffness link_energy force temperature
     = morse_isotensional_asymptotic_reduced_legendre.relative_helmholtz_free_energy_per_link link_length link_stiffness link_energy force temperature)
  /\ (forall (number_of_links : Z) (link_length : T) (hinge_mass : T) (nondimensional_link_stiffness : T) (nondimensional_link_energy : T) (nondimensional_force : T) (temperature : T),
     extern.physics_single_chain_ufjc_morse_thermodynamics_isotensional_asymptotic_reduced_legendre_nondimensional_helmholtz_free_energy number_of_links link_length hinge_mass nondimensional_link_stiffness nondimensional_link_energy nondimensional_force temperature
     = morse_isotensional_asymptotic_reduced_legendre.nondimensional_helmholtz_free_energy number_of_links link_length hinge_mass nondimensional_link_stiffness nondimensional_link_energy nondimensional_force temperature)
  /\ (forall (link_length : T) (hinge_mass : T) (nondimensional_link_stiffness : T) (nondimensional_link_energy : T) (nondimensional_force : T) (temperature : T),
     extern.physics_single_chain_ufjc_morse_thermodynamics_isotensional_asymptotic_reduced_legendre_nondimensional_helmholtz_free_energy_per_link link_length hinge_mass nondimensional_link_stiffness nondimensional_link_energy nondimensional_force temperature
     = morse_isotensional_asymptotic_reduced_legendre.nondimensional_helmholtz_free_energy_per_link link_length hinge_mass nondimensional_link_stiffness nondimensional_link_energy nondimensional_force temperature)
  /\ (forall (number_of_links : Z) (nondimensional_link_stiffness : T) (nondimensional_link_energy : T) (nondimensional_force : T),
     extern.physics_single_chain_ufjc_morse_thermodynamics_isotensional_asymptotic_reduced_legendre_nondimensional_relative_helmholtz_free_energy number_of_links nondimensional_link_stiffness nondimensional_link_energy nondimensional_force
     = morse_isotensional_asymptotic_reduced_legendre.nondimensional_relative_helmholtz_free_energy number_of_links nondimensional_link_stiffness nondimensional_link_energy nondimensional_force)
  /\ (forall (nondimensional_link_stiffness : T) (nondimensional_link_energy : T) (nondimensional_force : T),
     extern.physics_single_chain_ufjc_morse_thermodynamics_isotensional_asymptotic_reduced_legendre_nondimensional_relative_helmholtz_free_energy_per_link nondimensional_link_stiffness nondimensional_link_energy nondimensional_force
     = morse_isotensional_asymptotic_reduced_legendre.nondimensional_relative_helmholtz_free_energy_per_link nondimensional_link_stiffness nondimensional_link_energy nondimensional_force).
Proof. intros; repeat split. Qed.
Print Assumptions C59_morse_isotensional_asymptotic_reduced_legendre.

Theorem C59_morse_isotensional_legendre : forall (T : Type) (Sc : Scalar T),
  (forall (number_of_links : Z) (link_length : T) (hinge_mass : T) (link_stiffness : T) (link_energy : T) (force : T) (temperature : T),
     extern.physics_single_chain_ufjc_morse_thermodynamics_isotensional_legendre_helmholtz_free_energy number_of_links link_length hinge_mass link_stiffness link_energy force temperature
     = morse_isotensional_legendre.helmholtz_free_energy number_of_links link_length hinge_mass link_stiffness link_energy force temperature)
  /\ (forall (link_length : T) (hinge_mass : T) (link_stiffness : T) (link_energy : T) (force : T) (temperature : T),
     extern.physics_single_chain_ufjc_morse_thermodynamics_isotensional_legendre_helmholtz_free_energy_per_link link_length hinge_mass link_stiffness link_energy force temperature
     = morse_isotensional_legendre.helmholtz_free_energy_per_link link_length hinge_mass link_stiffness link_energy force temperature)
  /\ (forall (number_of_links : Z) (link_length : T) (link_stiffness : T) (link_energy : T) (force : T) (temperature : T),
     extern.physics_single_chain_ufjc_morse_thermodynamics_isotensional_legendre_relative_helmholtz_free_energy number_of_links link_length link_stiffness link_energy force temperature
     = morse_isotensional_legendre.relative_helmholtz_free_energy number_of_links link_length link_stiffness link_energy force temperature)
  /\ (forall (link_length : T) (link_stiffness : T) (link_energy : T) (force : T) (temperature : T),
     extern.physics_single_chain_ufjc_morse_thermodynamics_isotensional_legendre_relative_helmholtz_free_energy_per_link link_length link_stiffness link_energy force temperature
     = morse_isotensional_legendre.relative_helmholtz_free_energy_per_link link_length link_stiffness link_energy force temperature)
  /\ (forall (number_of_links : Z) (link_length : T) (hinge_mass : T) (nondimensional_link_stiffness : T) (nondimensional_link_energy : T) (nondimensional_force : T) (temperature : T),
     extern.physics_single_chain_ufjc_morse_thermodynamics_isotensional_legendre_nondimensional_helmholtz_free_energy number_of_links link_length hinge_mass nondimensional_link_stiffness nondimensional_link_energy nondimensional_force temperature
     = morse_isotensional_legendre.nondimensional_helmholtz_free_energy number_of_links link_length hinge_mass nondimensional_link_stiffness nondimensional_link_energy nondimensional_force temperature)
  /\ (forall (link_length : T) (hinge_mass : T) (nondimensional_link_stiffness : T) (nondimensional_link_energy : T) (nondimensional_force : T) (temperature : T),
     extern.physics_single_chain_ufjc_morse_thermodynamics_isotensional_legendre_nondimensional_helmholtz_free_energy_per_link link_length hinge_mass nondimensional_link_stiffness nondimensional_link_energy nondimensional_force temperature
     = morse_isotensional_legendre.nondimensional_helmholtz_free_energy_per_link link_length hinge_mass nondimensional_link_stiffness nondimensional_link_energy nondimensional_force temperature)
  /\ (forall (number_of_links : Z) (nondimensional_link_stiffness : T) (nondimensional_link_energy : T) (nondimensional_force : T),
     extern.physics_single_chain_ufjc_morse_thermodynamics_isotensional_legendre_nondimensional_relative_helmholtz_free_energy number_of_links nondimensional_link_stiffness nondimensional_link_energy nondimensional_force
     = morse_isotensional_legendre.nondimensional_relative_helmholtz_free_energy number_of_links nondimensional_link_stiffness nondimensional_link_energy nondimensional_force)
  /\ (forall (nondimensional_link_stiffness : T) (nondimensional_link_energy : T) (nondimensional_force : T),
     extern.physics_single_chain_ufjc_morse_thermodynamics_isotensional_legendre_nondimensional_relative_helmholtz_free_energy_per_link nondimensional_link_stiffness nondimensional_link_energy nondimensional_force
     = morse_isotensional_legendre.nondimensional_relative_helmholtz_free_energy_per_link nondimensional_link_stiffness nondimensional_link_energy nondimensional_force).
Proof. intros; repeat split. Qed.
Print Assumptions C59_morse_isotensional_legendre.

Theorem C59_wlc_isometric : forall (T : Type) (Sc : Scalar T),
  (forall (number_of_links : Z) (link_length : T) (persistance_length : T) (end_to_end_length : T) (temperature : T),
     extern.physics_single_chain_wlc_thermodynamics_isometric_force number_of_links link_length persistance_length end_to_end_length temperature
     = wlc_isometric.force number_of_links link_length persistance_length end_to_end_length temperature)
  /\ (forall (number_of_links : Z) (nondimensional_persistance_length : T) (nondimensional_end_to_end_length_per_link : T),
     extern.physics_single_chain_wlc_thermodynamics_isometric_nondimensional_force number_of_links nondimensional_persistance_length nondimensional_end_to_end_length_per_link
     = wlc_isometric.nondimensional_force number_of_links nondimensional_persistance_length nondimensional_end_to_end_length_per_link)
  /\ (forall (number_of_links : Z) (link_length : T) (hinge_mass : T) (persistance_length : T) (end_to_end_length : T) (temperature : T),
     extern.physics_single_chain_wlc_thermodynamics_isometric_helmholtz_free_energy number_of_links link_length hinge_mass persistance_length end_to_end_length temperature
     = wlc_isometric.helmholtz_free_energy number_of_links link_length hinge_mass persistance_length end_to_end_length temperature)
  /\ (forall (number_of_links : Z) (link_length : T) (hinge_mass : T) (persistance_length : T) (end_to_end_length : T) (temperature : T),
     extern.physics_single_chain_wlc_thermodynamics_isometric_helmholtz_free_energy_per_link number_of_links link_length hinge_mass persistance_length end_to_end_length temperature
     = wlc_isometric.helmholtz_free_energy_per_link number_of_links link_length hinge_mass persistance_length end_to_end_length temperature)
  /\ (forall (number_of_links : Z) (link_length : T) (persistance_length : T) (end_to_end_length : T) (temperature : T),
     extern.physics_single_chain_wlc_thermodynamics_isometric_relative_helmholtz_free_energy number_of_links link_length persistance_length end_to_end_length temperature
     = wlc_isometric.relative_helmholtz_free_energy number_of_links link_length persistance_length end_to_end_length temperature)
  /\ (forall (number_of_links : Z) (link_length : T) (persistance_length : T) (end_to_end_length : T) (temperature : T),
     extern.physics_single_chain_wlc_thermodynamics_isometric_relative_helmholtz_free_energy_per_link number_of_links link_length persistance_length end_to_end_length temperature
     = wlc_isometric.relative_helmholtz_free_energy_per_link number_of_links link_length persistance_length end_to_end_length temperature)
  /\ (forall (number_of_links : Z) (link_length : T) (hinge_mass : T) (nondimensional_persistance_length : T) (nondimensional_end_to_end_length_per_link : T) (temperature : T),
     extern.physics_single_chain_wlc_thermodynamics_isometric_nondimensional_helmholtz_free_energy number_of_links link_length hinge_mass nondimensional_persistance_length nondimensional_end_to_end_length_per_link temperature
     = wlc_isometric.nondimensional_helmholtz_free_energy number_of_links link_length hinge_mass nondimensional_persistance_length nondimensional_end_to_end_length_per_link temperature)
  /\ (forall (number_of_links : Z) (link_length : T) (hinge_mass : T) (nondimensional_persistance_length : T) (nondimensional_end_to_end_length_per_link : T) (temperature : T),
     extern.physics_single_chain_wlc_thermodynamics_isometric_nondimensional_helmholtz_free_energy_per_link number_of_links link_length hinge_mass nondimensional_persistance_length nondimensional_end_to_end_length_per_link temperature
     = wlc_isometric.nondimensional_helmholtz_free_energy_per_link number_of_links link_length hinge_mass nondimensional_persistance_length nondimensional_end_to_end_length_per_link temperature)
  /\ (forall (nondimensional_persistance_length : T) (nondimensional_end_to_end_length_per_link : T),
     extern.physics_single_chain_wlc_thermodynamics_isometric_nondimensional_relative_helmholtz_free_energy nondimensional_persistance_length nondimensional_end_to_end_length_per_link
     = wlc_isometric.nondimensional_relative_helmholtz_free_energy nondimensional_persistance_length nondimensional_end_to_end_length_per_link)
  /\ (forall (number_of_links : Z) (nondimensional_persistance_length : T) (nondimensional_end_to_end_length_per_link : T),
     extern.physics_single_chain_wlc_thermodynamics_isometric_nondimensional_relative_helmholtz_free_energy_per_link number_of_links nondimensional_persistance_length nondimensional_end_to_end_length_per_link
     = wlc_isometric.nondimensional_relative_helmholtz_free_energy_per_link number_of_links nondimensional_persistance_length nondimensional_end_to_end_length_per_link)
  /\ (forall (number_of_links : Z) (link_length : T) (persistance_length : T) (normalization_nondimensional_equilibrium_distribution : T) (end_to_end_length : T),
     extern.physics_single_chain_wlc_thermodynamics_isometric_equilibrium_distribution number_of_links link_length persistance_length normalization_nondimensional_equilibrium_distribution end_to_end_length
     = wlc_isometric.equilibrium_distribution number_of_links link_length persistance_length normalization_nondimensional_equilibrium_distribution end_to_end_length)
  /\ (forall (nondimensional_persistance_length : T) (normalization_nondimensional_equilibrium_distribution : T) (nondimensional_end_to_end_length_per_link : T),
     extern.physics_single_chain_wlc_thermodynamics_isometric_nondimensional_equilibrium_distribution nondimensional_persistance_length normalization_nondimensional_equilibrium_distribution nondimensional_end_to_end_length_per_link
     = wlc_isometric.nondimensional_equilibrium_distribution nondimensional_persistance_length normalization_nondimensional_equilibrium_distribution nondimensional_end_to_end_length_per_link)
  /\ (forall (number_of_links : Z) (link_length : T) (persistance_length : T) (normalization_nondimensional_equilibrium_distribution : T) (end_to_end_length : T),
     extern.physics_single_chain_wlc_thermodynamics_isometric_equilibrium_radial_distribution number_of_links link_length persistance_length normalization_nondimensional_equilibrium_distribution end_to_end_length
     = wlc_isometric.equilibrium_radial_distribution number_of_links link_length persistance_length normalization_nondimensional_equilibrium_distribution end_to_end_length)
  /\ (forall (nondimensional_persistance_length : T) (normalization_nondimensional_equilibrium_distribution : T) (nondimensional_end_to_end_length_per_link : T),
     extern.physics_single_chain_wlc_thermodynamics_isometric_nondimensional_equilibrium_radial_distribution nondimensional_persistance_length normalization_nondimensional_equilibrium_distribution nondimensional_end_to_end_length_per_link
     = wlc_isometric.nondimensional_equilibrium_radial_distribution nondimensional_persistance_length normalization_nondimensional_equilibrium_distribution nondimensional_end_to_end_length_per_link).
Proof. intros; repeat split. Qed.
Print Assumptions C59_wlc_isometric.

Theorem C59_wlc_isometric_legendre : forall (T : Type) (Sc : Scalar T),
  (forall (number_of_links : Z) (link_length : T) (hinge_mass : T) (persistance_length : T) (end_to_end_length : T) (temperature : T),
     extern.physics_single_chain_wlc_thermodynamics_isometric_legendre_gibbs_free_energy number_of_links link_length hinge_mass persistance_length end_to_end_length temperature
     = wlc_isometric_legendre.gibbs_free_energy number_of_links link_length hinge_mass persistance_length end_to_end_length temperature)
  /\ (forall (number_of_links : Z) (link_length : T) (hinge_mass : T) (persistance_length : T) (end_to_end_length : T) (temperature : T),
     extern.physics_single_chain_wlc_thermodynamics_isometric_legendre_gibbs_free_energy_per_link number_of_links link_length hinge_mass persistance_length end_to_end_length temperature
     = wlc_isometric_legendre.gibbs_free_energy_per_link number_of_links link_length hinge_mass persistance_length end_to_end_length temperature)
  /\ (forall (number_of_links : Z) (link_length : T) (persistance_length : T) (end_to_end_length : T) (temperature : T),
     extern.physics_single_chain_wlc_thermodynamics_isometric_legendre_relative_gibbs_free_energy number_of_links link_length persistance_length end_to_end_length temperature
     = wlc_isometric_legendre.relative_gibbs_free_energy number_of_links link_length persistance_length end_to_end_length temperature)
  /\ (forall (number_of_links : Z) (link_length : T) (persistance_length : T) (end_to_end_length : T) (temperature : T),
     extern.physics_single_chain_wlc_thermodynamics_isometric_legendre_relative_gibbs_free_energy_per_link number_of_links link_length persistance_length end_to_end_length temperature
     = wlc_isometric_legendre.relative_gibbs_free_energy_per_link number_of_links link_length persistance_length end_to_end_length temperature)
  /\ (forall (number_of_links : Z) (link_length : T) (hinge_mass : T) (nondimensional_persistance_length : T) (nondimensional_end_to_end_length_per_link : T) (temperature : T),
     extern.physics_single_chain_wlc_thermodynamics_isometric_legendre_nondimensional_gibbs_free_energy number_of_links link_length hinge_mass nondimensional_persistance_length nondimensional_end_to_end_length_per_link temperature
     = wlc_isometric_legendre.nondimensional_gibbs_free_energy number_of_links link_length hinge_mass nondimensional_persistance_length nondimensional_end_to_end_length_per_link temperature)
  /\ (forall (number_of_links : Z) (link_length : T) (hinge_mass : T) (nondimensional_persistance_length : T) (nondimensional_end_to_end_length_per_link : T) (temperature : T),
     extern.physics_single_chain_wlc_thermodynamics_isometric_legendre_nondimensional_gibbs_free_energy_per_link number_of_links link_length hinge_mass nondimensional_persistance_length nondimensional_end_to_end_length_per_link temperature
     = wlc_isometric_legendre.nondimensional_gibbs_free_energy_per_link number_of_links link_length hinge_mass nondimensional_persistance_length nondimensional_end_to_end_length_per_link temperature)
  /\ (forall (number_of_links : Z) (nondimensional_persistance_length : T) (nondimensional_end_to_end_length_per_link : T),
     extern.physics_single_chain_wlc_thermodynamics_isometric_legendre_nondimensional_relative_gibbs_free_energy number_of_links nondimensional_persistance_length nondimensional_end_to_end_length_per_link
     = wlc_isometric_legendre.nondimensional_relative_gibbs_free_energy number_of_links nondimensional_persistance_length nondimensional_end_to_end_length_per_link)
  /\ (forall (number_of_links : Z) (nondimensional_persistance_length : T) (nondimensional_end_to_end_length_per_link : T),
     extern.physics_single_chain_wlc_thermodynamics_isometric_legendre_nondimensional_relative_gibbs_free_energy_per_link number_of_links nondimensional_persistance_length nondimensional_end_to_end_length_per_link
     = wlc_isometric_legendre.nondimensional_relative_gibbs_free_energy_per_link number_of_links nondimensional_persistance_length nondimensional_end_to_end_length_per_link).
Proof. intros; repeat split. Qed.
Print Assumptions C59_wlc_isometric_legendre.

Theorem C59_wlc_isotensional : forall (T : Type) (Sc : Scalar T),
  (forall (number_of_links : Z) (link_length : T) (persistance_length : T) (force : T) (temperature : T),
     extern.physics_single_chain_wlc_thermodynamics_isotensional_end_to_end_length number_of_links link_length persistance_length force temperature
     = wlc_isotensional.end_to_end_length number_of_links link_length persistance_length force temperature)
  /\ (forall (number_of_links : Z) (link_length : T) (persistance_length : T) (force : T) (temperature : T),
     extern.physics_single_chain_wlc_thermodynamics_isotensional_end_to_end_length_per_link number_of_links link_length persistance_length force temperature
     = wlc_isotensional.end_to_end_length_per_link number_of_links link_length persistance_length force temperature)
  /\ (forall (number_of_links : Z) (nondimensional_persistance_length : T) (nondimensional_force : T),
     extern.physics_single_chain_wlc_thermodynamics_isotensional_nondimensional_end_to_end_length number_of_links nondimensional_persistance_length nondimensional_force
     = wlc_isotensional.nondimensional_end_to_end_length number_of_links nondimensional_persistance_length nondimensional_force)
  /\ (forall (number_of_links : Z) (nondimensional_persistance_length : T) (nondimensional_force : T),
     extern.physics_single_chain_wlc_thermodynamics_isotensional_nondimensional_end_to_end_length_per_link number_of_links nondimensional_persistance_length nondimensional_force
     = wlc_isotensional.nondimensional_end_to_end_length_per_link number_of_links nondimensional_persistance_length nondimensional_force)
  /\ (forall (number_of_links : Z) (link_length : T) (hinge_mass : T) (persistance_length : T) (force : T) (temperature : T),
     extern.physics_single_chain_wlc_thermodynamics_isotensional_gibbs_free_energy number_of_links link_length hinge_mass persistance_length force temperature
     = wlc_isotensional.gibbs_free_energy number_of_links link_length hinge_mass persistance_length force temperature)
  /\ (forall (number_of_links : Z) (link_length : T) (hinge_mass : T) (persistance_length : T) (force : T) (temperature : T),
     extern.physics_single_chain_wlc_thermodynamics_isotensional_gibbs_free_energy_per_link number_of_links link_length hinge_mass persistance_length force temperature
     = wlc_isotensional.gibbs_free_energy_per_link number_of_links link_length hinge_mass persistance_length force temperature)
  /\ (forall (number_of_links : Z) (link_length : T) (persistance_length : T) (force : T) (temperature : T),
     extern.physics_single_chain_wlc_thermodynamics_isotensional_relative_gibbs_free_energy number_of_links link_length persistance_length force temperature
     = wlc_isotensional.relative_gibbs_free_energy number_of_links link_length persistance_length force temperature)
  /\ (forall (number_of_links : Z) (link_length : T) (persistance_length : T) (force : T) (temperature : T),
     extern.physics_single_chain_wlc_thermodynamics_isotensional_relative_gibbs_free_energy_per_link number_of_links link_length persistance_length force temperature
     = wlc_isotensional.relative_gibbs_free_energy_per_link number_of_links link_length persistance_length force temperature)
  /\ (forall (number_of_links : Z) (link_length : T) (hinge_mass : T) (nondimensional_persistance_length : T) (nondimensional_force : T) (temperature : T),
     extern.physics_single_chain_wlc_thermodynamics_isotensional_nondimensional_gibbs_free_energy number_of_links link_length hinge_mass nondimensional_persistance_length nondimensional_force temperature
     = wlc_isotensional.nondimensional_gibbs_free_energy number_of_links link_length hinge_mass nondimensional_persistance_length nondimensional_force temperature)
  /\ (forall (number_of_links : Z) (link_length : T) (hinge_mass : T) (nondimensional_persistance_length : T) (nondimensional_force : T) (temperature : T),
     extern.physics_single_chain_wlc_thermodynamics_isotensional_nondimensional_gibbs_free_energy_per_link number_of_links link_length hinge_mass nondimensional_persistance_length nondimensional_force temperature
     = wlc_isotensional.nondimensional_gibbs_free_energy_per_link number_of_links link_length hinge_mass nondimensional_persistance_length nondimensional_force temperature)
  /\ (forall (number_of_links : Z) (nondimensional_persistance_length : T) (nondimensional_force : T),
     extern.physics_single_chain_wlc_thermodynamics_isotensional_nondimensional_relative_gibbs_free_energy number_of_links nondimensional_persistance_length nondimensional_force
     = wlc_isotensional.nondimensional_relative_gibbs_free_energy number_of_links nondimensional_persistance_length nondimensional_force)
  /\ (forall (number_of_links : Z) (nondimensional_persistance_length : T) (nondimensional_force : T),
     extern.physics_single_chain_wlc_thermodynamics_isotensional_nondimensional_relative_gibbs_free_energy_per_link number_of_links nondimensional_persistance_length nondimensional_force
     = wlc_isotensional.nondimensional_relative_gibbs_free_energy_per_link number_of_links nondimensional_persistance_length nondimensional_force).
Proof. intros; repeat split. Qed.
Print Assumptions C59_wlc_isotensional.

Theorem C59_wlc_isotensional_legendre : forall (T : Type) (Sc : Scalar T),
  (forall (number_of_links : Z) (link_length : T) (hinge_mass : T) (persistance_length : T) (force : T) (temperature : T),
     extern.physics_single_chain_wlc_thermodynamics_isotensional_legendre_helmholtz_free_energy number_of_links link_length hinge_mass persistance_length force temperature
     = wlc_isotensional_legendre.helmholtz_free_energy number_of_links link_length hinge_mass persistance_length force temperature)
  /\ (forall (number_of_links : Z) (link_length : T) (hinge_mass : T) (persistance_length : T) (force : T) (temperature : T),
     extern.physics_single_chain_wlc_thermodynamics_isotensional_legendre_helmholtz_free_energy_per_link number_of_links link_length hinge_mass persistance_length force temperature
     = wlc_isotensional_legendre.helmholtz_free_energy_per_link number_of_links link_length hinge_mass persistance_length force temperature)
  /\ (forall (number_of_links : Z) (link_length : T) (persistance_length : T) (force : T) (temperature : T),
     extern.physics_single_chain_wlc_thermodynamics_isotensional_legendre_relative_helmholtz_free_energy number_of_links link_length persistance_length force temperature
     = wlc_isotensional_legendre.relative_helmholtz_free_energy number_of_links link_length persistance_length force temperature)
  /\ (forall (number_of_links : Z) (link_length : T) (persistance_length : T) (force : T) (temperature : T),
     extern.physics_single_chain_wlc_thermodynamics_isotensional_legendre_relative_helmholtz_free_energy_per_link number_of_links link_length persistance_length force temperature
     = wlc_isotensional_legendre.relative_helmholtz_free_energy_per_link number_of_links link_length persistance_length force temperature)
  /\ (forall (number_of_links : Z) (link_length : T) (hinge_mass : T) (nondimensional_persistance_length : T) (nondimensional_force : T) (temperature : T),
     extern.physics_single_chain_wlc_thermodynamics_isotensional_legendre_nondimensional_helmholtz_free_energy number_of_links link_length hinge_mass nondimensional_persistance_length nondimensional_force temperature
     = wlc_isotensional_legendre.nondimensional_helmholtz_free_energy number_of_links link_length hinge_mass nondimensional_persistance_length nondimensional_force temperature)
  /\ (forall (number_of_links : Z) (link_length : T) (hinge_mass : T) (nondimensional_persistance_length : T) (nondimensional_force : T) (temperature : T),
     extern.physics_single_chain_wlc_thermodynamics_isotensional_legendre_nondimensional_helmholtz_free_energy_per_link number_of_links link_length hinge_mass nondimensional_persistance_length nondimensional_force temperature
     = wlc_isotensional_legendre.nondimensional_helmholtz_free_energy_per_link number_of_links link_length hinge_mass nondimensional_persistance_length nondimensional_force temperature)
  /\ (forall (number_of_links : Z) (nondimensional_persistance_length : T) (nondimensional_force : T),
     extern.physics_single_chain_wlc_thermodynamics_isotensional_legendre_nondimensional_relative_helmholtz_free_energy number_of_links nondimensional_persistance_length nondimensional_force
     = wlc_isotensional_legendre.nondimensional_relative_helmholtz_free_energy number_of_links nondimensional_persistance_length nondimensional_force)
  /\ (forall (number_of_links : Z) (nondimensional_persistance_length : T) (nondimensional_force : T),
     extern.physics_single_chain_wlc_thermodynamics_isotensional_legendre_nondimensional_relative_helmholtz_free_energy_per_link number_of_links nondimensional_persistance_length nondimensional_force
     = wlc_isotensional_legendre.nondimensional_relative_helmholtz_free_energy_per_link number_of_links nondimensional_persistance_length nondimensional_force).
Proof. intros; repeat split. Qed.
Print Assumptions C59_wlc_isotensional_legendre.
