(** C15: every method of every object obtained from [init] returns what the free
    function of the same name returns at the parameters given to [init].

    Written by tools/gen_objects.py, which matches the arguments of the free
    functions by parameter name.  The theorems range over every scalar type, so
    they hold of binary64 arithmetic as well as of the reals.  *)
Require Import Verif.Scalar Verif.MConst Verif.MMath.
Require Import Verif.MIdeal Verif.MFjc Verif.MSwfjc Verif.MEfjc Verif.MMorse Verif.MLennardJones Verif.MLogSquared Verif.MWlc.
Require Import Verif.PObjects.
Require Import ZArith Reals.
Local Open Scope scalar_scope.

(** /repo/src/physics/mod.rs: the constant used by the objects that convert a
    stiffness or an energy into its nondimensional counterpart is the public
    [BOLTZMANN_CONSTANT]; quadratures of the objects run over [ZERO, ONE] with
    [POINTS] points. *)

Theorem C15_ideal : forall (T : Type) (Sc : Scalar T) (number_of_links : Z) (link_length : T) (hinge_mass : T),
  let o := O_ideal.init number_of_links link_length hinge_mass in
  O_ideal.hinge_mass o = hinge_mass
  /\ O_ideal.link_length o = link_length
  /\ O_ideal.number_of_links o = number_of_links.
Proof. intros; repeat split. Qed.
Print Assumptions C15_ideal.

Theorem C15_ideal_thermodynamics : forall (T : Type) (Sc : Scalar T) (number_of_links : Z) (link_length : T) (hinge_mass : T),
  let o := O_ideal.thermodynamics (O_ideal.init number_of_links link_length hinge_mass) in
  O_ideal_thermodynamics.hinge_mass o = hinge_mass
  /\ O_ideal_thermodynamics.link_length o = link_length
  /\ O_ideal_thermodynamics.number_of_links o = number_of_links.
Proof. intros; repeat split. Qed.
Print Assumptions C15_ideal_thermodynamics.

Theorem C15_ideal_isometric : forall (T : Type) (Sc : Scalar T) (number_of_links : Z) (link_length : T) (hinge_mass : T),
  let o := O_ideal_thermodynamics.isometric (O_ideal.thermodynamics (O_ideal.init number_of_links link_length hinge_mass)) in
  O_ideal_isometric.hinge_mass o = hinge_mass
  /\ O_ideal_isometric.link_length o = link_length
  /\ O_ideal_isometric.number_of_links o = number_of_links
  /\ (forall (end_to_end_length : T) (temperature : T), O_ideal_isometric.force o end_to_end_length temperature = ideal_isometric.force number_of_links link_length end_to_end_length temperature)
  /\ (forall (nondimensional_end_to_end_length_per_link : T), O_ideal_isometric.nondimensional_force o nondimensional_end_to_end_length_per_link = ideal_isometric.nondimensional_force nondimensional_end_to_end_length_per_link)
  /\ (forall (end_to_end_length : T) (temperature : T), O_ideal_isometric.helmholtz_free_energy o end_to_end_length temperature = ideal_isometric.helmholtz_free_energy number_of_links link_length hinge_mass end_to_end_length temperature)
  /\ (forall (end_to_end_length : T) (temperature : T), O_ideal_isometric.helmholtz_free_energy_per_link o end_to_end_length temperature = ideal_isometric.helmholtz_free_energy_per_link number_of_links link_length hinge_mass end_to_end_length temperature)
  /\ (forall (end_to_end_length : T) (temperature : T), O_ideal_isometric.relative_helmholtz_free_energy o end_to_end_length temperature = ideal_isometric.relative_helmholtz_free_energy number_of_links link_length end_to_end_length temperature)
  /\ (forall (end_to_end_length : T) (temperature : T), O_ideal_isometric.relative_helmholtz_free_energy_per_link o end_to_end_length temperature = ideal_isometric.relative_helmholtz_free_energy_per_link number_of_links link_length end_to_end_length temperature)
  /\ (forall (nondimensional_end_to_end_length_per_link : T) (temperature : T), O_ideal_isometric.nondimensional_helmholtz_free_energy o nondimensional_end_to_end_length_per_link temperature = ideal_isometric.nondimensional_helmholtz_free_energy number_of_links link_length hinge_mass nondimensional_end_to_end_length_per_link temperature)
  /\ (forall (nondimensional_end_to_end_length_per_link : T) (temperature : T), O_ideal_isometric.nondimensional_helmholtz_free_energy_per_link o nondimensional_end_to_end_length_per_link temperature = ideal_isometric.nondimensional_helmholtz_free_energy_per_link link_length hinge_mass nondimensional_end_to_end_length_per_link temperature)
  /\ (forall (nondimensional_end_to_end_length_per_link : T), O_ideal_isometric.nondimensional_relative_helmholtz_free_energy o nondimensional_end_to_end_length_per_link = ideal_isometric.nondimensional_relative_helmholtz_free_energy number_of_links nondimensional_end_to_end_length_per_link)
  /\ (forall (nondimensional_end_to_end_length_per_link : T), O_ideal_isometric.nondimensional_relative_helmholtz_free_energy_per_link o nondimensional_end_to_end_length_per_link = ideal_isometric.nondimensional_relative_helmholtz_free_energy_per_link nondimensional_end_to_end_length_per_link)
  /\ (forall (end_to_end_length : T), O_ideal_isometric.equilibrium_distribution o end_to_end_length = ideal_isometric.equilibrium_distribution number_of_links link_length end_to_end_length)
  /\ (forall (nondimensional_end_to_end_length_per_link : T), O_ideal_isometric.nondimensional_equilibrium_distribution o nondimensional_end_to_end_length_per_link = ideal_isometric.nondimensional_equilibrium_distribution number_of_links nondimensional_end_to_end_length_per_link)
  /\ (forall (end_to_end_length : T), O_ideal_isometric.equilibrium_radial_distribution o end_to_end_length = ideal_isometric.equilibrium_radial_distribution number_of_links link_length end_to_end_length)
  /\ (forall (nondimensional_end_to_end_length_per_link : T), O_ideal_isometric.nondimensional_equilibrium_radial_distribution o nondimensional_end_to_end_length_per_link = ideal_isometric.nondimensional_equilibrium_radial_distribution number_of_links nondimensional_end_to_end_length_per_link).
Proof. intros; repeat split. Qed.
Print Assumptions C15_ideal_isometric.

Theorem C15_ideal_isotensional : forall (T : Type) (Sc : Scalar T) (number_of_links : Z) (link_length : T) (hinge_mass : T),
  let o := O_ideal_thermodynamics.isotensional (O_ideal.thermodynamics (O_ideal.init number_of_links link_length hinge_mass)) in
  O_ideal_isotensional.hinge_mass o = hinge_mass
  /\ O_ideal_isotensional.link_length o = link_length
  /\ O_ideal_isotensional.number_of_links o = number_of_links
  /\ (forall (force : T) (temperature : T), O_ideal_isotensional.end_to_end_length o force temperature = ideal_isotensional.end_to_end_length number_of_links link_length force temperature)
  /\ (forall (force : T) (temperature : T), O_ideal_isotensional.end_to_end_length_per_link o force temperature = ideal_isotensional.end_to_end_length_per_link link_length force temperature)
  /\ (forall (nondimensional_force : T), O_ideal_isotensional.nondimensional_end_to_end_length o nondimensional_force = ideal_isotensional.nondimensional_end_to_end_length number_of_links nondimensional_force)
  /\ (forall (nondimensional_force : T), O_ideal_isotensional.nondimensional_end_to_end_length_per_link o nondimensional_force = ideal_isotensional.nondimensional_end_to_end_length_per_link nondimensional_force)
  /\ (forall (force : T) (temperature : T), O_ideal_isotensional.gibbs_free_energy o force temperature = ideal_isotensional.gibbs_free_energy number_of_links link_length hinge_mass force temperature)
  /\ (forall (force : T) (temperature : T), O_ideal_isotensional.gibbs_free_energy_per_link o force temperature = ideal_isotensional.gibbs_free_energy_per_link link_length hinge_mass force temperature)
  /\ (forall (force : T) (temperature : T), O_ideal_isotensional.relative_gibbs_free_energy o force temperature = ideal_isotensional.relative_gibbs_free_energy number_of_links link_length force temperature)
  /\ (forall (force : T) (temperature : T), O_ideal_isotensional.relative_gibbs_free_energy_per_link o force temperature = ideal_isotensional.relative_gibbs_free_energy_per_link link_length force temperature)
  /\ (forall (nondimensional_force : T) (temperature : T), O_ideal_isotensional.nondimensional_gibbs_free_energy o nondimensional_force temperature = ideal_isotensional.nondimensional_gibbs_free_energy number_of_links link_length hinge_mass nondimensional_force temperature)
  /\ (forall (nondimensional_force : T) (temperature : T), O_ideal_isotensional.nondimensional_gibbs_free_energy_per_link o nondimensional_force temperature = ideal_isotensional.nondimensional_gibbs_free_energy_per_link link_length hinge_mass nondimensional_force temperature)
  /\ (forall (nondimensional_force : T), O_ideal_isotensional.nondimensional_relative_gibbs_free_energy o nondimensional_force = ideal_isotensional.nondimensional_relative_gibbs_free_energy number_of_links nondimensional_force)
  /\ (forall (nondimensional_force : T), O_ideal_isotensional.nondimensional_relative_gibbs_free_energy_per_link o nondimensional_force = ideal_isotensional.nondimensional_relative_gibbs_free_energy_per_link nondimensional_force).
Proof. intros; repeat split. Qed.
Print Assumptions C15_ideal_isotensional.

Theorem C15_fjc : forall (T : Type) (Sc : Scalar T) (number_of_links : Z) (link_length : T) (hinge_mass : T),
  let o := O_fjc.init number_of_links link_length hinge_mass in
  O_fjc.hinge_mass o = hinge_mass
  /\ O_fjc.link_length o = link_length
  /\ O_fjc.number_of_links o = number_of_links.
Proof. intros; repeat split. Qed.
Print Assumptions C15_fjc.

Theorem C15_fjc_thermodynamics : forall (T : Type) (Sc : Scalar T) (number_of_links : Z) (link_length : T) (hinge_mass : T),
  let o := O_fjc.thermodynamics (O_fjc.init number_of_links link_length hinge_mass) in
  O_fjc_thermodynamics.hinge_mass o = hinge_mass
  /\ O_fjc_thermodynamics.link_length o = link_length
  /\ O_fjc_thermodynamics.number_of_links o = number_of_links.
Proof. intros; repeat split. Qed.
Print Assumptions C15_fjc_thermodynamics.

Theorem C15_fjc_isometric : forall (T : Type) (Sc : Scalar T) (number_of_links : Z) (link_length : T) (hinge_mass : T),
  let o := O_fjc_thermodynamics.isometric (O_fjc.thermodynamics (O_fjc.init number_of_links link_length hinge_mass)) in
  O_fjc_isometric.hinge_mass o = hinge_mass
  /\ O_fjc_isometric.link_length o = link_length
  /\ O_fjc_isometric.number_of_links o = number_of_links
  /\ (forall (prof : profile) (end_to_end_length : T) (temperature : T), O_fjc_isometric.force prof o end_to_end_length temperature = fjc_isometric.force prof number_of_links link_length end_to_end_length temperature)
  /\ (forall (prof : profile) (nondimensional_end_to_end_length_per_link : T), O_fjc_isometric.nondimensional_force prof o nondimensional_end_to_end_length_per_link = fjc_isometric.nondimensional_force prof number_of_links nondimensional_end_to_end_length_per_link)
  /\ (forall (prof : profile) (end_to_end_length : T) (temperature : T), O_fjc_isometric.helmholtz_free_energy prof o end_to_end_length temperature = fjc_isometric.helmholtz_free_energy prof number_of_links link_length hinge_mass end_to_end_length temperature)
  /\ (forall (prof : profile) (end_to_end_length : T) (temperature : T), O_fjc_isometric.helmholtz_free_energy_per_link prof o end_to_end_length temperature = fjc_isometric.helmholtz_free_energy_per_link prof number_of_links link_length hinge_mass end_to_end_length temperature)
  /\ (forall (prof : profile) (end_to_end_length : T) (temperature : T), O_fjc_isometric.relative_helmholtz_free_energy prof o end_to_end_length temperature = fjc_isometric.relative_helmholtz_free_energy prof number_of_links link_length end_to_end_length temperature)
  /\ (forall (prof : profile) (end_to_end_length : T) (temperature : T), O_fjc_isometric.relative_helmholtz_free_energy_per_link prof o end_to_end_length temperature = fjc_isometric.relative_helmholtz_free_energy_per_link prof number_of_links link_length end_to_end_length temperature)
  /\ (forall (prof : profile) (nondimensional_end_to_end_length_per_link : T) (temperature : T), O_fjc_isometric.nondimensional_helmholtz_free_energy prof o nondimensional_end_to_end_length_per_link temperature = fjc_isometric.nondimensional_helmholtz_free_energy prof number_of_links link_length hinge_mass nondimensional_end_to_end_length_per_link temperature)
  /\ (forall (prof : profile) (nondimensional_end_to_end_length_per_link : T) (temperature : T), O_fjc_isometric.nondimensional_helmholtz_free_energy_per_link prof o nondimensional_end_to_end_length_per_link temperature = fjc_isometric.nondimensional_helmholtz_free_energy_per_link prof number_of_links link_length hinge_mass nondimensional_end_to_end_length_per_link temperature)
  /\ (forall (prof : profile) (nondimensional_end_to_end_length_per_link : T), O_fjc_isometric.nondimensional_relative_helmholtz_free_energy prof o nondimensional_end_to_end_length_per_link = fjc_isometric.nondimensional_relative_helmholtz_free_energy prof number_of_links nondimensional_end_to_end_length_per_link)
  /\ (forall (prof : profile) (nondimensional_end_to_end_length_per_link : T), O_fjc_isometric.nondimensional_relative_helmholtz_free_energy_per_link prof o nondimensional_end_to_end_length_per_link = fjc_isometric.nondimensional_relative_helmholtz_free_energy_per_link prof number_of_links nondimensional_end_to_end_length_per_link)
  /\ (forall (prof : profile) (end_to_end_length : T), O_fjc_isometric.equilibrium_distribution prof o end_to_end_length = fjc_isometric.equilibrium_distribution prof number_of_links link_length end_to_end_length)
  /\ (forall (prof : profile) (nondimensional_end_to_end_length_per_link : T), O_fjc_isometric.nondimensional_equilibrium_distribution prof o nondimensional_end_to_end_length_per_link = fjc_isometric.nondimensional_equilibrium_distribution prof number_of_links nondimensional_end_to_end_length_per_link)
  /\ (forall (prof : profile) (end_to_end_length : T), O_fjc_isometric.equilibrium_radial_distribution prof o end_to_end_length = fjc_isometric.equilibrium_radial_distribution prof number_of_links link_length end_to_end_length)
  /\ (forall (prof : profile) (nondimensional_end_to_end_length_per_link : T), O_fjc_isometric.nondimensional_equilibrium_radial_distribution prof o nondimensional_end_to_end_length_per_link = fjc_isometric.nondimensional_equilibrium_radial_distribution prof number_of_links nondimensional_end_to_end_length_per_link).
Proof. intros; repeat split. Qed.
Print Assumptions C15_fjc_isometric.

Theorem C15_fjc_isometric_legendre : forall (T : Type) (Sc : Scalar T) (number_of_links : Z) (link_length : T) (hinge_mass : T),
  let o := O_fjc_isometric.legendre (O_fjc_thermodynamics.isometric (O_fjc.thermodynamics (O_fjc.init number_of_links link_length hinge_mass))) in
  O_fjc_isometric_legendre.hinge_mass o = hinge_mass
  /\ O_fjc_isometric_legendre.link_length o = link_length
  /\ O_fjc_isometric_legendre.number_of_links o = number_of_links
  /\ O_fjc_isometric_legendre.normalization_nondimensional_equilibrium_distribution o = (math.integrate_1d (fun gamma => fjc_isometric_legendre.nondimensional_equilibrium_radial_distribution number_of_links (sdec 1 0) gamma) ZERO ONE POINTS)
  /\ (forall (end_to_end_length : T) (temperature : T), O_fjc_isometric_legendre.force o end_to_end_length temperature = fjc_isometric_legendre.force number_of_links link_length end_to_end_length temperature)
  /\ (forall (nondimensional_end_to_end_length_per_link : T), O_fjc_isometric_legendre.nondimensional_force o nondimensional_end_to_end_length_per_link = fjc_isometric_legendre.nondimensional_force nondimensional_end_to_end_length_per_link)
  /\ (forall (end_to_end_length : T) (temperature : T), O_fjc_isometric_legendre.helmholtz_free_energy o end_to_end_length temperature = fjc_isometric_legendre.helmholtz_free_energy number_of_links link_length hinge_mass end_to_end_length temperature)
  /\ (forall (end_to_end_length : T) (temperature : T), O_fjc_isometric_legendre.helmholtz_free_energy_per_link o end_to_end_length temperature = fjc_isometric_legendre.helmholtz_free_energy_per_link number_of_links link_length hinge_mass end_to_end_length temperature)
  /\ (forall (end_to_end_length : T) (temperature : T), O_fjc_isometric_legendre.relative_helmholtz_free_energy o end_to_end_length temperature = fjc_isometric_legendre.relative_helmholtz_free_energy number_of_links link_length end_to_end_length temperature)
  /\ (forall (end_to_end_length : T) (temperature : T), O_fjc_isometric_legendre.relative_helmholtz_free_energy_per_link o end_to_end_length temperature = fjc_isometric_legendre.relative_helmholtz_free_energy_per_link number_of_links link_length end_to_end_length temperature)
  /\ (forall (nondimensional_end_to_end_length_per_link : T) (temperature : T), O_fjc_isometric_legendre.nondimensional_helmholtz_free_energy o nondimensional_end_to_end_length_per_link temperature = fjc_isometric_legendre.nondimensional_helmholtz_free_energy number_of_links link_length hinge_mass nondimensional_end_to_end_length_per_link temperature)
  /\ (forall (nondimensional_end_to_end_length_per_link : T) (temperature : T), O_fjc_isometric_legendre.nondimensional_helmholtz_free_energy_per_link o nondimensional_end_to_end_length_per_link temperature = fjc_isometric_legendre.nondimensional_helmholtz_free_energy_per_link number_of_links link_length hinge_mass nondimensional_end_to_end_length_per_link temperature)
  /\ (forall (nondimensional_end_to_end_length_per_link : T), O_fjc_isometric_legendre.nondimensional_relative_helmholtz_free_energy o nondimensional_end_to_end_length_per_link = fjc_isometric_legendre.nondimensional_relative_helmholtz_free_energy number_of_links nondimensional_end_to_end_length_per_link)
  /\ (forall (nondimensional_end_to_end_length_per_link : T), O_fjc_isometric_legendre.nondimensional_relative_helmholtz_free_energy_per_link o nondimensional_end_to_end_length_per_link = fjc_isometric_legendre.nondimensional_relative_helmholtz_free_energy_per_link nondimensional_end_to_end_length_per_link)
  /\ (forall (end_to_end_length : T), O_fjc_isometric_legendre.equilibrium_distribution o end_to_end_length = fjc_isometric_legendre.equilibrium_distribution number_of_links link_length (math.integrate_1d (fun gamma => fjc_isometric_legendre.nondimensional_equilibrium_radial_distribution number_of_links (sdec 1 0) gamma) ZERO ONE POINTS) end_to_end_length)
  /\ (forall (nondimensional_end_to_end_length_per_link : T), O_fjc_isometric_legendre.nondimensional_equilibrium_distribution o nondimensional_end_to_end_length_per_link = fjc_isometric_legendre.nondimensional_equilibrium_distribution number_of_links (math.integrate_1d (fun gamma => fjc_isometric_legendre.nondimensional_equilibrium_radial_distribution number_of_links (sdec 1 0) gamma) ZERO ONE POINTS) nondimensional_end_to_end_length_per_link)
  /\ (forall (end_to_end_length : T), O_fjc_isometric_legendre.equilibrium_radial_distribution o end_to_end_length = fjc_isometric_legendre.equilibrium_radial_distribution number_of_links link_length (math.integrate_1d (fun gamma => fjc_isometric_legendre.nondimensional_equilibrium_radial_distribution number_of_links (sdec 1 0) gamma) ZERO ONE POINTS) end_to_end_length)
  /\ (forall (nondimensional_end_to_end_length_per_link : T), O_fjc_isometric_legendre.nondimensional_equilibrium_radial_distribution o nondimensional_end_to_end_length_per_link = fjc_isometric_legendre.nondimensional_equilibrium_radial_distribution number_of_links (math.integrate_1d (fun gamma => fjc_isometric_legendre.nondimensional_equilibrium_radial_distribution number_of_links (sdec 1 0) gamma) ZERO ONE POINTS) nondimensional_end_to_end_length_per_link)
  /\ (forall (prof : profile) (end_to_end_length : T) (temperature : T), O_fjc_isometric_legendre.gibbs_free_energy prof o end_to_end_length temperature = fjc_isometric_legendre.gibbs_free_energy prof number_of_links link_length hinge_mass end_to_end_length temperature)
  /\ (forall (prof : profile) (end_to_end_length : T) (temperature : T), O_fjc_isometric_legendre.gibbs_free_energy_per_link prof o end_to_end_length temperature = fjc_isometric_legendre.gibbs_free_energy_per_link prof number_of_links link_length hinge_mass end_to_end_length temperature)
  /\ (forall (prof : profile) (end_to_end_length : T) (temperature : T), O_fjc_isometric_legendre.relative_gibbs_free_energy prof o end_to_end_length temperature = fjc_isometric_legendre.relative_gibbs_free_energy prof number_of_links link_length end_to_end_length temperature)
  /\ (forall (prof : profile) (end_to_end_length : T) (temperature : T), O_fjc_isometric_legendre.relative_gibbs_free_energy_per_link prof o end_to_end_length temperature = fjc_isometric_legendre.relative_gibbs_free_energy_per_link prof number_of_links link_length end_to_end_length temperature)
  /\ (forall (prof : profile) (nondimensional_end_to_end_length_per_link : T) (temperature : T), O_fjc_isometric_legendre.nondimensional_gibbs_free_energy prof o nondimensional_end_to_end_length_per_link temperature = fjc_isometric_legendre.nondimensional_gibbs_free_energy prof number_of_links link_length hinge_mass nondimensional_end_to_end_length_per_link temperature)
  /\ (forall (prof : profile) (nondimensional_end_to_end_length_per_link : T) (temperature : T), O_fjc_isometric_legendre.nondimensional_gibbs_free_energy_per_link prof o nondimensional_end_to_end_length_per_link temperature = fjc_isometric_legendre.nondimensional_gibbs_free_energy_per_link prof number_of_links link_length hinge_mass nondimensional_end_to_end_length_per_link temperature)
  /\ (forall (prof : profile) (nondimensional_end_to_end_length_per_link : T), O_fjc_isometric_legendre.nondimensional_relative_gibbs_free_energy prof o nondimensional_end_to_end_length_per_link = fjc_isometric_legendre.nondimensional_relative_gibbs_free_energy prof number_of_links nondimensional_end_to_end_length_per_link)
  /\ (forall (prof : profile) (nondimensional_end_to_end_length_per_link : T), O_fjc_isometric_legendre.nondimensional_relative_gibbs_free_energy_per_link prof o nondimensional_end_to_end_length_per_link = fjc_isometric_legendre.nondimensional_relative_gibbs_free_energy_per_link prof number_of_links nondimensional_end_to_end_length_per_link).
Proof. intros; repeat split. Qed.
Print Assumptions C15_fjc_isometric_legendre.

Theorem C15_fjc_isotensional : forall (T : Type) (Sc : Scalar T) (number_of_links : Z) (link_length : T) (hinge_mass : T),
  let o := O_fjc_thermodynamics.isotensional (O_fjc.thermodynamics (O_fjc.init number_of_links link_length hinge_mass)) in
  O_fjc_isotensional.hinge_mass o = hinge_mass
  /\ O_fjc_isotensional.link_length o = link_length
  /\ O_fjc_isotensional.number_of_links o = number_of_links
  /\ (forall (force : T) (temperature : T), O_fjc_isotensional.end_to_end_length o force temperature = fjc_isotensional.end_to_end_length number_of_links link_length force temperature)
  /\ (forall (force : T) (temperature : T), O_fjc_isotensional.end_to_end_length_per_link o force temperature = fjc_isotensional.end_to_end_length_per_link link_length force temperature)
  /\ (forall (nondimensional_force : T), O_fjc_isotensional.nondimensional_end_to_end_length o nondimensional_force = fjc_isotensional.nondimensional_end_to_end_length number_of_links nondimensional_force)
  /\ (forall (nondimensional_force : T), O_fjc_isotensional.nondimensional_end_to_end_length_per_link o nondimensional_force = fjc_isotensional.nondimensional_end_to_end_length_per_link nondimensional_force)
  /\ (forall (force : T) (temperature : T), O_fjc_isotensional.gibbs_free_energy o force temperature = fjc_isotensional.gibbs_free_energy number_of_links link_length hinge_mass force temperature)
  /\ (forall (force : T) (temperature : T), O_fjc_isotensional.gibbs_free_energy_per_link o force temperature = fjc_isotensional.gibbs_free_energy_per_link link_length hinge_mass force temperature)
  /\ (forall (force : T) (temperature : T), O_fjc_isotensional.relative_gibbs_free_energy o force temperature = fjc_isotensional.relative_gibbs_free_energy number_of_links link_length force temperature)
  /\ (forall (force : T) (temperature : T), O_fjc_isotensional.relative_gibbs_free_energy_per_link o force temperature = fjc_isotensional.relative_gibbs_free_energy_per_link link_length force temperature)
  /\ (forall (nondimensional_force : T) (temperature : T), O_fjc_isotensional.nondimensional_gibbs_free_energy o nondimensional_force temperature = fjc_isotensional.nondimensional_gibbs_free_energy number_of_links link_length hinge_mass nondimensional_force temperature)
  /\ (forall (nondimensional_force : T) (temperature : T), O_fjc_isotensional.nondimensional_gibbs_free_energy_per_link o nondimensional_force temperature = fjc_isotensional.nondimensional_gibbs_free_energy_per_link link_length hinge_mass nondimensional_force temperature)
  /\ (forall (nondimensional_force : T), O_fjc_isotensional.nondimensional_relative_gibbs_free_energy o nondimensional_force = fjc_isotensional.nondimensional_relative_gibbs_free_energy number_of_links nondimensional_force)
  /\ (forall (nondimensional_force : T), O_fjc_isotensional.nondimensional_relative_gibbs_free_energy_per_link o nondimensional_force = fjc_isotensional.nondimensional_relative_gibbs_free_energy_per_link nondimensional_force).
Proof. intros; repeat split. Qed.
Print Assumptions C15_fjc_isotensional.

Theorem C15_fjc_isotensional_legendre : forall (T : Type) (Sc : Scalar T) (number_of_links : Z) (link_length : T) (hinge_mass : T),
  let o := O_fjc_isotensional.legendre (O_fjc_thermodynamics.isotensional (O_fjc.thermodynamics (O_fjc.init number_of_links link_length hinge_mass))) in
  O_fjc_isotensional_legendre.hinge_mass o = hinge_mass
  /\ O_fjc_isotensional_legendre.link_length o = link_length
  /\ O_fjc_isotensional_legendre.number_of_links o = number_of_links
  /\ (forall (force : T) (temperature : T), O_fjc_isotensional_legendre.helmholtz_free_energy o force temperature = fjc_isotensional_legendre.helmholtz_free_energy number_of_links link_length hinge_mass force temperature)
  /\ (forall (force : T) (temperature : T), O_fjc_isotensional_legendre.helmholtz_free_energy_per_link o force temperature = fjc_isotensional_legendre.helmholtz_free_energy_per_link link_length hinge_mass force temperature)
  /\ (forall (force : T) (temperature : T), O_fjc_isotensional_legendre.relative_helmholtz_free_energy o force temperature = fjc_isotensional_legendre.relative_helmholtz_free_energy number_of_links link_length force temperature)
  /\ (forall (force : T) (temperature : T), O_fjc_isotensional_legendre.relative_helmholtz_free_energy_per_link o force temperature = fjc_isotensional_legendre.relative_helmholtz_free_energy_per_link link_length force temperature)
  /\ (forall (nondimensional_force : T) (temperature : T), O_fjc_isotensional_legendre.nondimensional_helmholtz_free_energy o nondimensional_force temperature = fjc_isotensional_legendre.nondimensional_helmholtz_free_energy number_of_links link_length hinge_mass nondimensional_force temperature)
  /\ (forall (nondimensional_force : T) (temperature : T), O_fjc_isotensional_legendre.nondimensional_helmholtz_free_energy_per_link o nondimensional_force temperature = fjc_isotensional_legendre.nondimensional_helmholtz_free_energy_per_link link_length hinge_mass nondimensional_force temperature)
  /\ (forall (nondimensional_force : T), O_fjc_isotensional_legendre.nondimensional_relative_helmholtz_free_energy o nondimensional_force = fjc_isotensional_legendre.nondimensional_relative_helmholtz_free_energy number_of_links nondimensional_force)
  /\ (forall (nondimensional_force : T), O_fjc_isotensional_legendre.nondimensional_relative_helmholtz_free_energy_per_link o nondimensional_force = fjc_isotensional_legendre.nondimensional_relative_helmholtz_free_energy_per_link nondimensional_force).
Proof. intros; repeat split. Qed.
Print Assumptions C15_fjc_isotensional_legendre.

Theorem C15_fjc_modified_canonical : forall (T : Type) (Sc : Scalar T) (number_of_links : Z) (link_length : T) (hinge_mass : T),
  let o := O_fjc_thermodynamics.modified_canonical (O_fjc.thermodynamics (O_fjc.init number_of_links link_length hinge_mass)) in
  O_fjc_modified_canonical.hinge_mass o = hinge_mass
  /\ O_fjc_modified_canonical.link_length o = link_length
  /\ O_fjc_modified_canonical.number_of_links o = number_of_links
  /\ (forall (prof : profile) (potential_distance : T) (potential_stiffness : T) (temperature : T), O_fjc_modified_canonical.end_to_end_length prof o potential_distance potential_stiffness temperature = fjc_modified_canonical.end_to_end_length prof number_of_links link_length potential_distance potential_stiffness temperature)
  /\ (forall (prof : profile) (potential_distance : T) (potential_stiffness : T) (temperature : T), O_fjc_modified_canonical.end_to_end_length_per_link prof o potential_distance potential_stiffness temperature = fjc_modified_canonical.end_to_end_length_per_link prof number_of_links link_length potential_distance potential_stiffness temperature)
  /\ (forall (prof : profile) (nondimensional_potential_distance : T) (nondimensional_potential_stiffness : T), O_fjc_modified_canonical.nondimensional_end_to_end_length prof o nondimensional_potential_distance nondimensional_potential_stiffness = fjc_modified_canonical.nondimensional_end_to_end_length prof number_of_links nondimensional_potential_distance nondimensional_potential_stiffness)
  /\ (forall (prof : profile) (nondimensional_potential_distance : T) (nondimensional_potential_stiffness : T), O_fjc_modified_canonical.nondimensional_end_to_end_length_per_link prof o nondimensional_potential_distance nondimensional_potential_stiffness = fjc_modified_canonical.nondimensional_end_to_end_length_per_link prof number_of_links nondimensional_potential_distance nondimensional_potential_stiffness)
  /\ (forall (prof : profile) (potential_distance : T) (potential_stiffness : T) (temperature : T), O_fjc_modified_canonical.force prof o potential_distance potential_stiffness temperature = fjc_modified_canonical.force prof number_of_links link_length potential_distance potential_stiffness temperature)
  /\ (forall (prof : profile) (nondimensional_potential_distance : T) (nondimensional_potential_stiffness : T), O_fjc_modified_canonical.nondimensional_force prof o nondimensional_potential_distance nondimensional_potential_stiffness = fjc_modified_canonical.nondimensional_force prof number_of_links nondimensional_potential_distance nondimensional_potential_stiffness)
  /\ (forall (prof : profile) (potential_distance : T) (potential_stiffness : T) (temperature : T), O_fjc_modified_canonical.helmholtz_free_energy prof o potential_distance potential_stiffness temperature = fjc_modified_canonical.helmholtz_free_energy prof number_of_links link_length hinge_mass potential_distance potential_stiffness temperature)
  /\ (forall (prof : profile) (potential_distance : T) (potential_stiffness : T) (temperature : T), O_fjc_modified_canonical.helmholtz_free_energy_per_link prof o potential_distance potential_stiffness temperature = fjc_modified_canonical.helmholtz_free_energy_per_link prof number_of_links link_length hinge_mass potential_distance potential_stiffness temperature)
  /\ (forall (prof : profile) (potential_distance : T) (potential_stiffness : T) (temperature : T), O_fjc_modified_canonical.relative_helmholtz_free_energy prof o potential_distance potential_stiffness temperature = fjc_modified_canonical.relative_helmholtz_free_energy prof number_of_links link_length potential_distance potential_stiffness temperature)
  /\ (forall (prof : profile) (potential_distance : T) (potential_stiffness : T) (temperature : T), O_fjc_modified_canonical.relative_helmholtz_free_energy_per_link prof o potential_distance potential_stiffness temperature = fjc_modified_canonical.relative_helmholtz_free_energy_per_link prof number_of_links link_length potential_distance potential_stiffness temperature)
  /\ (forall (prof : profile) (nondimensional_potential_distance : T) (nondimensional_potential_stiffness : T) (temperature : T), O_fjc_modified_canonical.nondimensional_helmholtz_free_energy prof o nondimensional_potential_distance nondimensional_potential_stiffness temperature = fjc_modified_canonical.nondimensional_helmholtz_free_energy prof number_of_links link_length hinge_mass nondimensional_potential_distance nondimensional_potential_stiffness temperature)
  /\ (forall (prof : profile) (nondimensional_potential_distance : T) (nondimensional_potential_stiffness : T) (temperature : T), O_fjc_modified_canonical.nondimensional_helmholtz_free_energy_per_link prof o nondimensional_potential_distance nondimensional_potential_stiffness temperature = fjc_modified_canonical.nondimensional_helmholtz_free_energy_per_link prof number_of_links link_length hinge_mass nondimensional_potential_distance nondimensional_potential_stiffness temperature)
  /\ (forall (prof : profile) (nondimensional_potential_distance : T) (nondimensional_potential_stiffness : T), O_fjc_modified_canonical.nondimensional_relative_helmholtz_free_energy prof o nondimensional_potential_distance nondimensional_potential_stiffness = fjc_modified_canonical.nondimensional_relative_helmholtz_free_energy prof number_of_links nondimensional_potential_distance nondimensional_potential_stiffness)
  /\ (forall (prof : profile) (nondimensional_potential_distance : T) (nondimensional_potential_stiffness : T), O_fjc_modified_canonical.nondimensional_relative_helmholtz_free_energy_per_link prof o nondimensional_potential_distance nondimensional_potential_stiffness = fjc_modified_canonical.nondimensional_relative_helmholtz_free_energy_per_link prof number_of_links nondimensional_potential_distance nondimensional_potential_stiffness)
  /\ (forall (prof : profile) (potential_distance : T) (potential_stiffness : T) (temperature : T), O_fjc_modified_canonical.gibbs_free_energy prof o potential_distance potential_stiffness temperature = fjc_modified_canonical.gibbs_free_energy prof number_of_links link_length hinge_mass potential_distance potential_stiffness temperature)
  /\ (forall (prof : profile) (potential_distance : T) (potential_stiffness : T) (temperature : T), O_fjc_modified_canonical.gibbs_free_energy_per_link prof o potential_distance potential_stiffness temperature = fjc_modified_canonical.gibbs_free_energy_per_link prof number_of_links link_length hinge_mass potential_distance potential_stiffness temperature)
  /\ (forall (prof : profile) (potential_distance : T) (potential_stiffness : T) (temperature : T), O_fjc_modified_canonical.relative_gibbs_free_energy prof o potential_distance potential_stiffness temperature = fjc_modified_canonical.relative_gibbs_free_energy prof number_of_links link_length potential_distance potential_stiffness temperature)
  /\ (forall (prof : profile) (potential_distance : T) (potential_stiffness : T) (temperature : T), O_fjc_modified_canonical.relative_gibbs_free_energy_per_link prof o potential_distance potential_stiffness temperature = fjc_modified_canonical.relative_gibbs_free_energy_per_link prof number_of_links link_length potential_distance potential_stiffness temperature)
  /\ (forall (prof : profile) (nondimensional_potential_distance : T) (nondimensional_potential_stiffness : T) (temperature : T), O_fjc_modified_canonical.nondimensional_gibbs_free_energy prof o nondimensional_potential_distance nondimensional_potential_stiffness temperature = fjc_modified_canonical.nondimensional_gibbs_free_energy prof number_of_links link_length hinge_mass nondimensional_potential_distance nondimensional_potential_stiffness temperature)
  /\ (forall (prof : profile) (nondimensional_potential_distance : T) (nondimensional_potential_stiffness : T) (temperature : T), O_fjc_modified_canonical.nondimensional_gibbs_free_energy_per_link prof o nondimensional_potential_distance nondimensional_potential_stiffness temperature = fjc_modified_canonical.nondimensional_gibbs_free_energy_per_link prof number_of_links link_length hinge_mass nondimensional_potential_distance nondimensional_potential_stiffness temperature)
  /\ (forall (prof : profile) (nondimensional_potential_distance : T) (nondimensional_potential_stiffness : T), O_fjc_modified_canonical.nondimensional_relative_gibbs_free_energy prof o nondimensional_potential_distance nondimensional_potential_stiffness = fjc_modified_canonical.nondimensional_relative_gibbs_free_energy prof number_of_links nondimensional_potential_distance nondimensional_potential_stiffness)
  /\ (forall (prof : profile) (nondimensional_potential_distance : T) (nondimensional_potential_stiffness : T), O_fjc_modified_canonical.nondimensional_relative_gibbs_free_energy_per_link prof o nondimensional_potential_distance nondimensional_potential_stiffness = fjc_modified_canonical.nondimensional_relative_gibbs_free_energy_per_link prof number_of_links nondimensional_potential_distance nondimensional_potential_stiffness).
Proof. intros; repeat split. Qed.
Print Assumptions C15_fjc_modified_canonical.

Theorem C15_fjc_modified_canonical_asymptotic : forall (T : Type) (Sc : Scalar T) (number_of_links : Z) (link_length : T) (hinge_mass : T),
  let o := O_fjc_modified_canonical.asymptotic (O_fjc_thermodynamics.modified_canonical (O_fjc.thermodynamics (O_fjc.init number_of_links link_length hinge_mass))) in
  O_fjc_modified_canonical_asymptotic.hinge_mass o = hinge_mass
  /\ O_fjc_modified_canonical_asymptotic.link_length o = link_length
  /\ O_fjc_modified_canonical_asymptotic.number_of_links o = number_of_links.
Proof. intros; repeat split. Qed.
Print Assumptions C15_fjc_modified_canonical_asymptotic.

Theorem C15_fjc_modified_canonical_asymptotic_weak_potential : forall (T : Type) (Sc : Scalar T) (number_of_links : Z) (link_length : T) (hinge_mass : T),
  let o := O_fjc_modified_canonical_asymptotic.weak_potential (O_fjc_modified_canonical.asymptotic (O_fjc_thermodynamics.modified_canonical (O_fjc.thermodynamics (O_fjc.init number_of_links link_length hinge_mass)))) in
  O_fjc_modified_canonical_asymptotic_weak_potential.hinge_mass o = hinge_mass
  /\ O_fjc_modified_canonical_asymptotic_weak_potential.link_length o = link_length
  /\ O_fjc_modified_canonical_asymptotic_weak_potential.number_of_links o = number_of_links
  /\ (forall (potential_distance : T) (potential_stiffness : T) (temperature : T), O_fjc_modified_canonical_asymptotic_weak_potential.end_to_end_length o potential_distance potential_stiffness temperature = fjc_modified_canonical_asymptotic_weak_potential.end_to_end_length number_of_links link_length potential_distance potential_stiffness temperature)
  /\ (forall (potential_distance : T) (potential_stiffness : T) (temperature : T), O_fjc_modified_canonical_asymptotic_weak_potential.end_to_end_length_per_link o potential_distance potential_stiffness temperature = fjc_modified_canonical_asymptotic_weak_potential.end_to_end_length_per_link number_of_links link_length potential_distance potential_stiffness temperature)
  /\ (forall (nondimensional_potential_distance : T) (nondimensional_potential_stiffness : T), O_fjc_modified_canonical_asymptotic_weak_potential.nondimensional_end_to_end_length o nondimensional_potential_distance nondimensional_potential_stiffness = fjc_modified_canonical_asymptotic_weak_potential.nondimensional_end_to_end_length number_of_links nondimensional_potential_distance nondimensional_potential_stiffness)
  /\ (forall (nondimensional_potential_distance : T) (nondimensional_potential_stiffness : T), O_fjc_modified_canonical_asymptotic_weak_potential.nondimensional_end_to_end_length_per_link o nondimensional_potential_distance nondimensional_potential_stiffness = fjc_modified_canonical_asymptotic_weak_potential.nondimensional_end_to_end_length_per_link number_of_links nondimensional_potential_distance nondimensional_potential_stiffness)
  /\ (forall (potential_distance : T) (potential_stiffness : T), O_fjc_modified_canonical_asymptotic_weak_potential.force o potential_distance potential_stiffness = fjc_modified_canonical_asymptotic_weak_potential.force potential_distance potential_stiffness)
  /\ (forall (nondimensional_potential_distance : T) (nondimensional_potential_stiffness : T), O_fjc_modified_canonical_asymptotic_weak_potential.nondimensional_force o nondimensional_potential_distance nondimensional_potential_stiffness = fjc_modified_canonical_asymptotic_weak_potential.nondimensional_force number_of_links nondimensional_potential_distance nondimensional_potential_stiffness)
  /\ (forall (potential_distance : T) (potential_stiffness : T) (temperature : T), O_fjc_modified_canonical_asymptotic_weak_potential.gibbs_free_energy o potential_distance potential_stiffness temperature = fjc_modified_canonical_asymptotic_weak_potential.gibbs_free_energy number_of_links link_length hinge_mass potential_distance potential_stiffness temperature)
  /\ (forall (potential_distance : T) (potential_stiffness : T) (temperature : T), O_fjc_modified_canonical_asymptotic_weak_potential.gibbs_free_energy_per_link o potential_distance potential_stiffness temperature = fjc_modified_canonical_asymptotic_weak_potential.gibbs_free_energy_per_link number_of_links link_length hinge_mass potential_distance potential_stiffness temperature)
  /\ (forall (potential_distance : T) (potential_stiffness : T) (temperature : T), O_fjc_modified_canonical_asymptotic_weak_potential.relative_gibbs_free_energy o potential_distance potential_stiffness temperature = fjc_modified_canonical_asymptotic_weak_potential.relative_gibbs_free_energy number_of_links link_length potential_distance potential_stiffness temperature)
  /\ (forall (potential_distance : T) (potential_stiffness : T) (temperature : T), O_fjc_modified_canonical_asymptotic_weak_potential.relative_gibbs_free_energy_per_link o potential_distance potential_stiffness temperature = fjc_modified_canonical_asymptotic_weak_potential.relative_gibbs_free_energy_per_link number_of_links link_length potential_distance potential_stiffness temperature)
  /\ (forall (nondimensional_potential_distance : T) (nondimensional_potential_stiffness : T) (temperature : T), O_fjc_modified_canonical_asymptotic_weak_potential.nondimensional_gibbs_free_energy o nondimensional_potential_distance nondimensional_potential_stiffness temperature = fjc_modified_canonical_asymptotic_weak_potential.nondimensional_gibbs_free_energy number_of_links link_length hinge_mass nondimensional_potential_distance nondimensional_potential_stiffness temperature)
  /\ (forall (nondimensional_potential_distance : T) (nondimensional_potential_stiffness : T) (temperature : T), O_fjc_modified_canonical_asymptotic_weak_potential.nondimensional_gibbs_free_energy_per_link o nondimensional_potential_distance nondimensional_potential_stiffness temperature = fjc_modified_canonical_asymptotic_weak_potential.nondimensional_gibbs_free_energy_per_link number_of_links link_length hinge_mass nondimensional_potential_distance nondimensional_potential_stiffness temperature)
  /\ (forall (nondimensional_potential_distance : T) (nondimensional_potential_stiffness : T), O_fjc_modified_canonical_asymptotic_weak_potential.nondimensional_relative_gibbs_free_energy o nondimensional_potential_distance nondimensional_potential_stiffness = fjc_modified_canonical_asymptotic_weak_potential.nondimensional_relative_gibbs_free_energy number_of_links nondimensional_potential_distance nondimensional_potential_stiffness)
  /\ (forall (nondimensional_potential_distance : T) (nondimensional_potential_stiffness : T), O_fjc_modified_canonical_asymptotic_weak_potential.nondimensional_relative_gibbs_free_energy_per_link o nondimensional_potential_distance nondimensional_potential_stiffness = fjc_modified_canonical_asymptotic_weak_potential.nondimensional_relative_gibbs_free_energy_per_link number_of_links nondimensional_potential_distance nondimensional_potential_stiffness).
Proof. intros; repeat split. Qed.
Print Assumptions C15_fjc_modified_canonical_asymptotic_weak_potential.

Theorem C15_fjc_modified_canonical_asymptotic_strong_potential : forall (T : Type) (Sc : Scalar T) (number_of_links : Z) (link_length : T) (hinge_mass : T),
  let o := O_fjc_modified_canonical_asymptotic.strong_potential (O_fjc_modified_canonical.asymptotic (O_fjc_thermodynamics.modified_canonical (O_fjc.thermodynamics (O_fjc.init number_of_links link_length hinge_mass)))) in
  O_fjc_modified_canonical_asymptotic_strong_potential.hinge_mass o = hinge_mass
  /\ O_fjc_modified_canonical_asymptotic_strong_potential.link_length o = link_length
  /\ O_fjc_modified_canonical_asymptotic_strong_potential.number_of_links o = number_of_links
  /\ (forall (prof : profile) (potential_distance : T) (potential_stiffness : T) (temperature : T), O_fjc_modified_canonical_asymptotic_strong_potential.force prof o potential_distance potential_stiffness temperature = fjc_modified_canonical_asymptotic_strong_potential.force prof number_of_links link_length potential_distance potential_stiffness temperature)
  /\ (forall (prof : profile) (nondimensional_potential_distance : T) (nondimensional_potential_stiffness : T), O_fjc_modified_canonical_asymptotic_strong_potential.nondimensional_force prof o nondimensional_potential_distance nondimensional_potential_stiffness = fjc_modified_canonical_asymptotic_strong_potential.nondimensional_force prof number_of_links nondimensional_potential_distance nondimensional_potential_stiffness)
  /\ (forall (prof : profile) (potential_distance : T) (potential_stiffness : T) (temperature : T), O_fjc_modified_canonical_asymptotic_strong_potential.helmholtz_free_energy prof o potential_distance potential_stiffness temperature = fjc_modified_canonical_asymptotic_strong_potential.helmholtz_free_energy prof number_of_links link_length hinge_mass potential_distance potential_stiffness temperature)
  /\ (forall (prof : profile) (potential_distance : T) (potential_stiffness : T) (temperature : T), O_fjc_modified_canonical_asymptotic_strong_potential.helmholtz_free_energy_per_link prof o potential_distance potential_stiffness temperature = fjc_modified_canonical_asymptotic_strong_potential.helmholtz_free_energy_per_link prof number_of_links link_length hinge_mass potential_distance potential_stiffness temperature)
  /\ (forall (prof : profile) (potential_distance : T) (potential_stiffness : T) (temperature : T), O_fjc_modified_canonical_asymptotic_strong_potential.relative_helmholtz_free_energy prof o potential_distance potential_stiffness temperature = fjc_modified_canonical_asymptotic_strong_potential.relative_helmholtz_free_energy prof number_of_links link_length potential_distance potential_stiffness temperature)
  /\ (forall (prof : profile) (potential_distance : T) (potential_stiffness : T) (temperature : T), O_fjc_modified_canonical_asymptotic_strong_potential.relative_helmholtz_free_energy_per_link prof o potential_distance potential_stiffness temperature = fjc_modified_canonical_asymptotic_strong_potential.relative_helmholtz_free_energy_per_link prof number_of_links link_length potential_distance potential_stiffness temperature)
  /\ (forall (prof : profile) (nondimensional_potential_distance : T) (nondimensional_potential_stiffness : T) (temperature : T), O_fjc_modified_canonical_asymptotic_strong_potential.nondimensional_helmholtz_free_energy prof o nondimensional_potential_distance nondimensional_potential_stiffness temperature = fjc_modified_canonical_asymptotic_strong_potential.nondimensional_helmholtz_free_energy prof number_of_links link_length hinge_mass nondimensional_potential_distance nondimensional_potential_stiffness temperature)
  /\ (forall (prof : profile) (nondimensional_potential_distance : T) (nondimensional_potential_stiffness : T) (temperature : T), O_fjc_modified_canonical_asymptotic_strong_potential.nondimensional_helmholtz_free_energy_per_link prof o nondimensional_potential_distance nondimensional_potential_stiffness temperature = fjc_modified_canonical_asymptotic_strong_potential.nondimensional_helmholtz_free_energy_per_link prof number_of_links link_length hinge_mass nondimensional_potential_distance nondimensional_potential_stiffness temperature)
  /\ (forall (prof : profile) (nondimensional_potential_distance : T) (nondimensional_potential_stiffness : T), O_fjc_modified_canonical_asymptotic_strong_potential.nondimensional_relative_helmholtz_free_energy prof o nondimensional_potential_distance nondimensional_potential_stiffness = fjc_modified_canonical_asymptotic_strong_potential.nondimensional_relative_helmholtz_free_energy prof number_of_links nondimensional_potential_distance nondimensional_potential_stiffness)
  /\ (forall (prof : profile) (nondimensional_potential_distance : T) (nondimensional_potential_stiffness : T), O_fjc_modified_canonical_asymptotic_strong_potential.nondimensional_relative_helmholtz_free_energy_per_link prof o nondimensional_potential_distance nondimensional_potential_stiffness = fjc_modified_canonical_asymptotic_strong_potential.nondimensional_relative_helmholtz_free_energy_per_link prof number_of_links nondimensional_potential_distance nondimensional_potential_stiffness).
Proof. intros; repeat split. Qed.
Print Assumptions C15_fjc_modified_canonical_asymptotic_strong_potential.

Theorem C15_swfjc : forall (T : Type) (Sc : Scalar T) (number_of_links : Z) (link_length : T) (hinge_mass : T) (well_width : T),
  let o := O_swfjc.init number_of_links link_length hinge_mass well_width in
  O_swfjc.hinge_mass o = hinge_mass
  /\ O_swfjc.link_length o = link_length
  /\ O_swfjc.number_of_links o = number_of_links
  /\ O_swfjc.well_width o = well_width.
Proof. intros; repeat split. Qed.
Print Assumptions C15_swfjc.

Theorem C15_swfjc_thermodynamics : forall (T : Type) (Sc : Scalar T) (number_of_links : Z) (link_length : T) (hinge_mass : T) (well_width : T),
  let o := O_swfjc.thermodynamics (O_swfjc.init number_of_links link_length hinge_mass well_width) in
  O_swfjc_thermodynamics.hinge_mass o = hinge_mass
  /\ O_swfjc_thermodynamics.link_length o = link_length
  /\ O_swfjc_thermodynamics.number_of_links o = number_of_links
  /\ O_swfjc_thermodynamics.well_width o = well_width.
Proof. intros; repeat split. Qed.
Print Assumptions C15_swfjc_thermodynamics.

Theorem C15_swfjc_isometric : forall (T : Type) (Sc : Scalar T) (number_of_links : Z) (link_length : T) (hinge_mass : T) (well_width : T),
  let o := O_swfjc_thermodynamics.isometric (O_swfjc.thermodynamics (O_swfjc.init number_of_links link_length hinge_mass well_width)) in
  O_swfjc_isometric.hinge_mass o = hinge_mass
  /\ O_swfjc_isometric.link_length o = link_length
  /\ O_swfjc_isometric.number_of_links o = number_of_links
  /\ O_swfjc_isometric.well_width o = well_width.
Proof. intros; repeat split. Qed.
Print Assumptions C15_swfjc_isometric.

Theorem C15_swfjc_isometric_legendre : forall (T : Type) (Sc : Scalar T) (number_of_links : Z) (link_length : T) (hinge_mass : T) (well_width : T),
  let o := O_swfjc_isometric.legendre (O_swfjc_thermodynamics.isometric (O_swfjc.thermodynamics (O_swfjc.init number_of_links link_length hinge_mass well_width))) in
  O_swfjc_isometric_legendre.hinge_mass o = hinge_mass
  /\ O_swfjc_isometric_legendre.link_length o = link_length
  /\ O_swfjc_isometric_legendre.number_of_links o = number_of_links
  /\ O_swfjc_isometric_legendre.well_width o = well_width
  /\ O_swfjc_isometric_legendre.normalization_nondimensional_equilibrium_distribution o = (math.integrate_1d (fun gamma => swfjc_isometric_legendre.nondimensional_equilibrium_radial_distribution number_of_links link_length well_width (sdec 1 0) gamma) ZERO (ONE * (sdec 1 0 + well_width / link_length)) POINTS)
  /\ (forall (end_to_end_length : T) (temperature : T), O_swfjc_isometric_legendre.force o end_to_end_length temperature = swfjc_isometric_legendre.force number_of_links link_length well_width end_to_end_length temperature)
  /\ (forall (nondimensional_end_to_end_length_per_link : T), O_swfjc_isometric_legendre.nondimensional_force o nondimensional_end_to_end_length_per_link = swfjc_isometric_legendre.nondimensional_force link_length well_width nondimensional_end_to_end_length_per_link)
  /\ (forall (end_to_end_length : T) (temperature : T), O_swfjc_isometric_legendre.helmholtz_free_energy o end_to_end_length temperature = swfjc_isometric_legendre.helmholtz_free_energy number_of_links link_length hinge_mass well_width end_to_end_length temperature)
  /\ (forall (end_to_end_length : T) (temperature : T), O_swfjc_isometric_legendre.helmholtz_free_energy_per_link o end_to_end_length temperature = swfjc_isometric_legendre.helmholtz_free_energy_per_link number_of_links link_length hinge_mass well_width end_to_end_length temperature)
  /\ (forall (end_to_end_length : T) (temperature : T), O_swfjc_isometric_legendre.relative_helmholtz_free_energy o end_to_end_length temperature = swfjc_isometric_legendre.relative_helmholtz_free_energy number_of_links link_length well_width end_to_end_length temperature)
  /\ (forall (end_to_end_length : T) (temperature : T), O_swfjc_isometric_legendre.relative_helmholtz_free_energy_per_link o end_to_end_length temperature = swfjc_isometric_legendre.relative_helmholtz_free_energy_per_link number_of_links link_length well_width end_to_end_length temperature)
  /\ (forall (nondimensional_end_to_end_length_per_link : T) (temperature : T), O_swfjc_isometric_legendre.nondimensional_helmholtz_free_energy o nondimensional_end_to_end_length_per_link temperature = swfjc_isometric_legendre.nondimensional_helmholtz_free_energy number_of_links link_length hinge_mass well_width nondimensional_end_to_end_length_per_link temperature)
  /\ (forall (nondimensional_end_to_end_length_per_link : T) (temperature : T), O_swfjc_isometric_legendre.nondimensional_helmholtz_free_energy_per_link o nondimensional_end_to_end_length_per_link temperature = swfjc_isometric_legendre.nondimensional_helmholtz_free_energy_per_link number_of_links link_length hinge_mass well_width nondimensional_end_to_end_length_per_link temperature)
  /\ (forall (nondimensional_end_to_end_length_per_link : T), O_swfjc_isometric_legendre.nondimensional_relative_helmholtz_free_energy o nondimensional_end_to_end_length_per_link = swfjc_isometric_legendre.nondimensional_relative_helmholtz_free_energy number_of_links link_length well_width nondimensional_end_to_end_length_per_link)
  /\ (forall (nondimensional_end_to_end_length_per_link : T), O_swfjc_isometric_legendre.nondimensional_relative_helmholtz_free_energy_per_link o nondimensional_end_to_end_length_per_link = swfjc_isometric_legendre.nondimensional_relative_helmholtz_free_energy_per_link link_length well_width nondimensional_end_to_end_length_per_link)
  /\ (forall (end_to_end_length : T), O_swfjc_isometric_legendre.equilibrium_distribution o end_to_end_length = swfjc_isometric_legendre.equilibrium_distribution number_of_links link_length well_width (math.integrate_1d (fun gamma => swfjc_isometric_legendre.nondimensional_equilibrium_radial_distribution number_of_links link_length well_width (sdec 1 0) gamma) ZERO (ONE * (sdec 1 0 + well_width / link_length)) POINTS) end_to_end_length)
  /\ (forall (nondimensional_end_to_end_length_per_link : T), O_swfjc_isometric_legendre.nondimensional_equilibrium_distribution o nondimensional_end_to_end_length_per_link = swfjc_isometric_legendre.nondimensional_equilibrium_distribution number_of_links link_length well_width (math.integrate_1d (fun gamma => swfjc_isometric_legendre.nondimensional_equilibrium_radial_distribution number_of_links link_length well_width (sdec 1 0) gamma) ZERO (ONE * (sdec 1 0 + well_width / link_length)) POINTS) nondimensional_end_to_end_length_per_link)
  /\ (forall (end_to_end_length : T), O_swfjc_isometric_legendre.equilibrium_radial_distribution o end_to_end_length = swfjc_isometric_legendre.equilibrium_radial_distribution number_of_links link_length well_width (math.integrate_1d (fun gamma => swfjc_isometric_legendre.nondimensional_equilibrium_radial_distribution number_of_links link_length well_width (sdec 1 0) gamma) ZERO (ONE * (sdec 1 0 + well_width / link_length)) POINTS) end_to_end_length)
  /\ (forall (nondimensional_end_to_end_length_per_link : T), O_swfjc_isometric_legendre.nondimensional_equilibrium_radial_distribution o nondimensional_end_to_end_length_per_link = swfjc_isometric_legendre.nondimensional_equilibrium_radial_distribution number_of_links link_length well_width (math.integrate_1d (fun gamma => swfjc_isometric_legendre.nondimensional_equilibrium_radial_distribution number_of_links link_length well_width (sdec 1 0) gamma) ZERO (ONE * (sdec 1 0 + well_width / link_length)) POINTS) nondimensional_end_to_end_length_per_link).
Proof. intros; repeat split. Qed.
Print Assumptions C15_swfjc_isometric_legendre.

Theorem C15_swfjc_isotensional : forall (T : Type) (Sc : Scalar T) (number_of_links : Z) (link_length : T) (hinge_mass : T) (well_width : T),
  let o := O_swfjc_thermodynamics.isotensional (O_swfjc.thermodynamics (O_swfjc.init number_of_links link_length hinge_mass well_width)) in
  O_swfjc_isotensional.hinge_mass o = hinge_mass
  /\ O_swfjc_isotensional.link_length o = link_length
  /\ O_swfjc_isotensional.number_of_links o = number_of_links
  /\ O_swfjc_isotensional.well_width o = well_width
  /\ (forall (force : T) (temperature : T), O_swfjc_isotensional.end_to_end_length o force temperature = swfjc_isotensional.end_to_end_length number_of_links link_length well_width force temperature)
  /\ (forall (force : T) (temperature : T), O_swfjc_isotensional.end_to_end_length_per_link o force temperature = swfjc_isotensional.end_to_end_length_per_link link_length well_width force temperature)
  /\ (forall (nondimensional_force : T), O_swfjc_isotensional.nondimensional_end_to_end_length o nondimensional_force = swfjc_isotensional.nondimensional_end_to_end_length number_of_links link_length well_width nondimensional_force)
  /\ (forall (nondimensional_force : T), O_swfjc_isotensional.nondimensional_end_to_end_length_per_link o nondimensional_force = swfjc_isotensional.nondimensional_end_to_end_length_per_link link_length well_width nondimensional_force)
  /\ (forall (force : T) (temperature : T), O_swfjc_isotensional.gibbs_free_energy o force temperature = swfjc_isotensional.gibbs_free_energy number_of_links link_length hinge_mass well_width force temperature)
  /\ (forall (force : T) (temperature : T), O_swfjc_isotensional.gibbs_free_energy_per_link o force temperature = swfjc_isotensional.gibbs_free_energy_per_link link_length hinge_mass well_width force temperature)
  /\ (forall (force : T) (temperature : T), O_swfjc_isotensional.relative_gibbs_free_energy o force temperature = swfjc_isotensional.relative_gibbs_free_energy number_of_links link_length well_width force temperature)
  /\ (forall (force : T) (temperature : T), O_swfjc_isotensional.relative_gibbs_free_energy_per_link o force temperature = swfjc_isotensional.relative_gibbs_free_energy_per_link link_length well_width force temperature)
  /\ (forall (nondimensional_force : T) (temperature : T), O_swfjc_isotensional.nondimensional_gibbs_free_energy o nondimensional_force temperature = swfjc_isotensional.nondimensional_gibbs_free_energy number_of_links link_length hinge_mass well_width nondimensional_force temperature)
  /\ (forall (nondimensional_force : T) (temperature : T), O_swfjc_isotensional.nondimensional_gibbs_free_energy_per_link o nondimensional_force temperature = swfjc_isotensional.nondimensional_gibbs_free_energy_per_link link_length hinge_mass well_width nondimensional_force temperature)
  /\ (forall (nondimensional_force : T), O_swfjc_isotensional.nondimensional_relative_gibbs_free_energy o nondimensional_force = swfjc_isotensional.nondimensional_relative_gibbs_free_energy number_of_links link_length well_width nondimensional_force)
  /\ (forall (nondimensional_force : T), O_swfjc_isotensional.nondimensional_relative_gibbs_free_energy_per_link o nondimensional_force = swfjc_isotensional.nondimensional_relative_gibbs_free_energy_per_link link_length well_width nondimensional_force).
Proof. intros; repeat split. Qed.
Print Assumptions C15_swfjc_isotensional.

Theorem C15_swfjc_isotensional_legendre : forall (T : Type) (Sc : Scalar T) (number_of_links : Z) (link_length : T) (hinge_mass : T) (well_width : T),
  let o := O_swfjc_isotensional.legendre (O_swfjc_thermodynamics.isotensional (O_swfjc.thermodynamics (O_swfjc.init number_of_links link_length hinge_mass well_width))) in
  O_swfjc_isotensional_legendre.hinge_mass o = hinge_mass
  /\ O_swfjc_isotensional_legendre.link_length o = link_length
  /\ O_swfjc_isotensional_legendre.number_of_links o = number_of_links
  /\ O_swfjc_isotensional_legendre.well_width o = well_width
  /\ (forall (force : T) (temperature : T), O_swfjc_isotensional_legendre.helmholtz_free_energy o force temperature = swfjc_isotensional_legendre.helmholtz_free_energy number_of_links link_length hinge_mass well_width force temperature)
  /\ (forall (force : T) (temperature : T), O_swfjc_isotensional_legendre.helmholtz_free_energy_per_link o force temperature = swfjc_isotensional_legendre.helmholtz_free_energy_per_link link_length hinge_mass well_width force temperature)
  /\ (forall (force : T) (temperature : T), O_swfjc_isotensional_legendre.relative_helmholtz_free_energy o force temperature = swfjc_isotensional_legendre.relative_helmholtz_free_energy number_of_links link_length well_width force temperature)
  /\ (forall (force : T) (temperature : T), O_swfjc_isotensional_legendre.relative_helmholtz_free_energy_per_link o force temperature = swfjc_isotensional_legendre.relative_helmholtz_free_energy_per_link link_length well_width force temperature)
  /\ (forall (nondimensional_force : T) (temperature : T), O_swfjc_isotensional_legendre.nondimensional_helmholtz_free_energy o nondimensional_force temperature = swfjc_isotensional_legendre.nondimensional_helmholtz_free_energy number_of_links link_length hinge_mass well_width nondimensional_force temperature)
  /\ (forall (nondimensional_force : T) (temperature : T), O_swfjc_isotensional_legendre.nondimensional_helmholtz_free_energy_per_link o nondimensional_force temperature = swfjc_isotensional_legendre.nondimensional_helmholtz_free_energy_per_link link_length hinge_mass well_width nondimensional_force temperature)
  /\ (forall (nondimensional_force : T), O_swfjc_isotensional_legendre.nondimensional_relative_helmholtz_free_energy o nondimensional_force = swfjc_isotensional_legendre.nondimensional_relative_helmholtz_free_energy number_of_links link_length well_width nondimensional_force)
  /\ (forall (nondimensional_force : T), O_swfjc_isotensional_legendre.nondimensional_relative_helmholtz_free_energy_per_link o nondimensional_force = swfjc_isotensional_legendre.nondimensional_relative_helmholtz_free_energy_per_link link_length well_width nondimensional_force).
Proof. intros; repeat split. Qed.
Print Assumptions C15_swfjc_isotensional_legendre.

Theorem C15_efjc : forall (T : Type) (Sc : Scalar T) (number_of_links : Z) (link_length : T) (hinge_mass : T) (link_stiffness : T),
  let o := O_efjc.init number_of_links link_length hinge_mass link_stiffness in
  O_efjc.hinge_mass o = hinge_mass
  /\ O_efjc.link_length o = link_length
  /\ O_efjc.number_of_links o = number_of_links
  /\ O_efjc.link_stiffness o = link_stiffness.
Proof. intros; repeat split. Qed.
Print Assumptions C15_efjc.

Theorem C15_efjc_thermodynamics : forall (T : Type) (Sc : Scalar T) (number_of_links : Z) (link_length : T) (hinge_mass : T) (link_stiffness : T),
  let o := O_efjc.thermodynamics (O_efjc.init number_of_links link_length hinge_mass link_stiffness) in
  O_efjc_thermodynamics.hinge_mass o = hinge_mass
  /\ O_efjc_thermodynamics.link_length o = link_length
  /\ O_efjc_thermodynamics.number_of_links o = number_of_links
  /\ O_efjc_thermodynamics.link_stiffness o = link_stiffness.
Proof. intros; repeat split. Qed.
Print Assumptions C15_efjc_thermodynamics.

Theorem C15_efjc_isometric : forall (T : Type) (Sc : Scalar T) (number_of_links : Z) (link_length : T) (hinge_mass : T) (link_stiffness : T),
  let o := O_efjc_thermodynamics.isometric (O_efjc.thermodynamics (O_efjc.init number_of_links link_length hinge_mass link_stiffness)) in
  O_efjc_isometric.hinge_mass o = hinge_mass
  /\ O_efjc_isometric.link_length o = link_length
  /\ O_efjc_isometric.number_of_links o = number_of_links
  /\ O_efjc_isometric.link_stiffness o = link_stiffness.
Proof. intros; repeat split. Qed.
Print Assumptions C15_efjc_isometric.

Theorem C15_efjc_isometric_asymptotic : forall (T : Type) (Sc : Scalar T) (number_of_links : Z) (link_length : T) (hinge_mass : T) (link_stiffness : T),
  let o := O_efjc_isometric.asymptotic (O_efjc_thermodynamics.isometric (O_efjc.thermodynamics (O_efjc.init number_of_links link_length hinge_mass link_stiffness))) in
  O_efjc_isometric_asymptotic.hinge_mass o = hinge_mass
  /\ O_efjc_isometric_asymptotic.link_length o = link_length
  /\ O_efjc_isometric_asymptotic.number_of_links o = number_of_links
  /\ O_efjc_isometric_asymptotic.link_stiffness o = link_stiffness.
Proof. intros; repeat split. Qed.
Print Assumptions C15_efjc_isometric_asymptotic.

Theorem C15_efjc_isometric_asymptotic_alternative : forall (T : Type) (Sc : Scalar T) (number_of_links : Z) (link_length : T) (hinge_mass : T) (link_stiffness : T),
  let o := O_efjc_isometric_asymptotic.alternative (O_efjc_isometric.asymptotic (O_efjc_thermodynamics.isometric (O_efjc.thermodynamics (O_efjc.init number_of_links link_length hinge_mass link_stiffness)))) in
  O_efjc_isometric_asymptotic_alternative.hinge_mass o = hinge_mass
  /\ O_efjc_isometric_asymptotic_alternative.link_length o = link_length
  /\ O_efjc_isometric_asymptotic_alternative.number_of_links o = number_of_links
  /\ O_efjc_isometric_asymptotic_alternative.link_stiffness o = link_stiffness.
Proof. intros; repeat split. Qed.
Print Assumptions C15_efjc_isometric_asymptotic_alternative.

Theorem C15_efjc_isometric_asymptotic_alternative_legendre : forall (T : Type) (Sc : Scalar T) (number_of_links : Z) (link_length : T) (hinge_mass : T) (link_stiffness : T),
  let o := O_efjc_isometric_asymptotic_alternative.legendre (O_efjc_isometric_asymptotic.alternative (O_efjc_isometric.asymptotic (O_efjc_thermodynamics.isometric (O_efjc.thermodynamics (O_efjc.init number_of_links link_length hinge_mass link_stiffness))))) in
  O_efjc_isometric_asymptotic_alternative_legendre.hinge_mass o = hinge_mass
  /\ O_efjc_isometric_asymptotic_alternative_legendre.link_length o = link_length
  /\ O_efjc_isometric_asymptotic_alternative_legendre.number_of_links o = number_of_links
  /\ O_efjc_isometric_asymptotic_alternative_legendre.link_stiffness o = link_stiffness
  /\ (forall (end_to_end_length : T) (temperature : T), O_efjc_isometric_asymptotic_alternative_legendre.force o end_to_end_length temperature = efjc_isometric_asymptotic_alternative_legendre.force number_of_links link_length link_stiffness end_to_end_length temperature)
  /\ (forall (nondimensional_end_to_end_length_per_link : T) (temperature : T), O_efjc_isometric_asymptotic_alternative_legendre.nondimensional_force o nondimensional_end_to_end_length_per_link temperature = efjc_isometric_asymptotic_alternative_legendre.nondimensional_force (link_stiffness * spowi link_length 2 / BOLTZMANN_CONSTANT / temperature) nondimensional_end_to_end_length_per_link)
  /\ (forall (end_to_end_length : T) (temperature : T), O_efjc_isometric_asymptotic_alternative_legendre.helmholtz_free_energy o end_to_end_length temperature = efjc_isometric_asymptotic_alternative_legendre.helmholtz_free_energy number_of_links link_length hinge_mass link_stiffness end_to_end_length temperature)
  /\ (forall (end_to_end_length : T) (temperature : T), O_efjc_isometric_asymptotic_alternative_legendre.helmholtz_free_energy_per_link o end_to_end_length temperature = efjc_isometric_asymptotic_alternative_legendre.helmholtz_free_energy_per_link number_of_links link_length hinge_mass link_stiffness end_to_end_length temperature)
  /\ (forall (end_to_end_length : T) (temperature : T), O_efjc_isometric_asymptotic_alternative_legendre.relative_helmholtz_free_energy o end_to_end_length temperature = efjc_isometric_asymptotic_alternative_legendre.relative_helmholtz_free_energy number_of_links link_length link_stiffness end_to_end_length temperature)
  /\ (forall (end_to_end_length : T) (temperature : T), O_efjc_isometric_asymptotic_alternative_legendre.relative_helmholtz_free_energy_per_link o end_to_end_length temperature = efjc_isometric_asymptotic_alternative_legendre.relative_helmholtz_free_energy_per_link number_of_links link_length link_stiffness end_to_end_length temperature)
  /\ (forall (nondimensional_end_to_end_length_per_link : T) (temperature : T), O_efjc_isometric_asymptotic_alternative_legendre.nondimensional_helmholtz_free_energy o nondimensional_end_to_end_length_per_link temperature = efjc_isometric_asymptotic_alternative_legendre.nondimensional_helmholtz_free_energy number_of_links link_length hinge_mass (link_stiffness * spowi link_length 2 / BOLTZMANN_CONSTANT / temperature) nondimensional_end_to_end_length_per_link temperature)
  /\ (forall (nondimensional_end_to_end_length_per_link : T) (temperature : T), O_efjc_isometric_asymptotic_alternative_legendre.nondimensional_helmholtz_free_energy_per_link o nondimensional_end_to_end_length_per_link temperature = efjc_isometric_asymptotic_alternative_legendre.nondimensional_helmholtz_free_energy_per_link number_of_links link_length hinge_mass (link_stiffness * spowi link_length 2 / BOLTZMANN_CONSTANT / temperature) nondimensional_end_to_end_length_per_link temperature)
  /\ (forall (nondimensional_end_to_end_length_per_link : T) (temperature : T), O_efjc_isometric_asymptotic_alternative_legendre.nondimensional_relative_helmholtz_free_energy o nondimensional_end_to_end_length_per_link temperature = efjc_isometric_asymptotic_alternative_legendre.nondimensional_relative_helmholtz_free_energy number_of_links (link_stiffness * spowi link_length 2 / BOLTZMANN_CONSTANT / temperature) nondimensional_end_to_end_length_per_link)
  /\ (forall (nondimensional_end_to_end_length_per_link : T) (temperature : T), O_efjc_isometric_asymptotic_alternative_legendre.nondimensional_relative_helmholtz_free_energy_per_link o nondimensional_end_to_end_length_per_link temperature = efjc_isometric_asymptotic_alternative_legendre.nondimensional_relative_helmholtz_free_energy_per_link (link_stiffness * spowi link_length 2 / BOLTZMANN_CONSTANT / temperature) nondimensional_end_to_end_length_per_link).
Proof. intros; repeat split. Qed.
Print Assumptions C15_efjc_isometric_asymptotic_alternative_legendre.

Theorem C15_efjc_isometric_asymptotic_reduced : forall (T : Type) (Sc : Scalar T) (number_of_links : Z) (link_length : T) (hinge_mass : T) (link_stiffness : T),
  let o := O_efjc_isometric_asymptotic.reduced (O_efjc_isometric.asymptotic (O_efjc_thermodynamics.isometric (O_efjc.thermodynamics (O_efjc.init number_of_links link_length hinge_mass link_stiffness)))) in
  O_efjc_isometric_asymptotic_reduced.hinge_mass o = hinge_mass
  /\ O_efjc_isometric_asymptotic_reduced.link_length o = link_length
  /\ O_efjc_isometric_asymptotic_reduced.number_of_links o = number_of_links
  /\ O_efjc_isometric_asymptotic_reduced.link_stiffness o = link_stiffness.
Proof. intros; repeat split. Qed.
Print Assumptions C15_efjc_isometric_asymptotic_reduced.

Theorem C15_efjc_isometric_asymptotic_reduced_legendre : forall (T : Type) (Sc : Scalar T) (number_of_links : Z) (link_length : T) (hinge_mass : T) (link_stiffness : T),
  let o := O_efjc_isometric_asymptotic_reduced.legendre (O_efjc_isometric_asymptotic.reduced (O_efjc_isometric.asymptotic (O_efjc_thermodynamics.isometric (O_efjc.thermodynamics (O_efjc.init number_of_links link_length hinge_mass link_stiffness))))) in
  O_efjc_isometric_asymptotic_reduced_legendre.hinge_mass o = hinge_mass
  /\ O_efjc_isometric_asymptotic_reduced_legendre.link_length o = link_length
  /\ O_efjc_isometric_asymptotic_reduced_legendre.number_of_links o = number_of_links
  /\ O_efjc_isometric_asymptotic_reduced_legendre.link_stiffness o = link_stiffness
  /\ (forall (end_to_end_length : T) (temperature : T), O_efjc_isometric_asymptotic_reduced_legendre.force o end_to_end_length temperature = efjc_isometric_asymptotic_reduced_legendre.force number_of_links link_length link_stiffness end_to_end_length temperature)
  /\ (forall (nondimensional_end_to_end_length_per_link : T) (temperature : T), O_efjc_isometric_asymptotic_reduced_legendre.nondimensional_force o nondimensional_end_to_end_length_per_link temperature = efjc_isometric_asymptotic_reduced_legendre.nondimensional_force (link_stiffness * spowi link_length 2 / BOLTZMANN_CONSTANT / temperature) nondimensional_end_to_end_length_per_link)
  /\ (forall (end_to_end_length : T) (temperature : T), O_efjc_isometric_asymptotic_reduced_legendre.helmholtz_free_energy o end_to_end_length temperature = efjc_isometric_asymptotic_reduced_legendre.helmholtz_free_energy number_of_links link_length hinge_mass link_stiffness end_to_end_length temperature)
  /\ (forall (end_to_end_length : T) (temperature : T), O_efjc_isometric_asymptotic_reduced_legendre.helmholtz_free_energy_per_link o end_to_end_length temperature = efjc_isometric_asymptotic_reduced_legendre.helmholtz_free_energy_per_link number_of_links link_length hinge_mass link_stiffness end_to_end_length temperature)
  /\ (forall (end_to_end_length : T) (temperature : T), O_efjc_isometric_asymptotic_reduced_legendre.relative_helmholtz_free_energy o end_to_end_length temperature = efjc_isometric_asymptotic_reduced_legendre.relative_helmholtz_free_energy number_of_links link_length link_stiffness end_to_end_length temperature)
  /\ (forall (end_to_end_length : T) (temperature : T), O_efjc_isometric_asymptotic_reduced_legendre.relative_helmholtz_free_energy_per_link o end_to_end_length temperature = efjc_isometric_asymptotic_reduced_legendre.relative_helmholtz_free_energy_per_link number_of_links link_length link_stiffness end_to_end_length temperature)
  /\ (forall (nondimensional_end_to_end_length_per_link : T) (temperature : T), O_efjc_isometric_asymptotic_reduced_legendre.nondimensional_helmholtz_free_energy o nondimensional_end_to_end_length_per_link temperature = efjc_isometric_asymptotic_reduced_legendre.nondimensional_helmholtz_free_energy number_of_links link_length hinge_mass (link_stiffness * spowi link_length 2 / BOLTZMANN_CONSTANT / temperature) nondimensional_end_to_end_length_per_link temperature)
  /\ (forall (nondimensional_end_to_end_length_per_link : T) (temperature : T), O_efjc_isometric_asymptotic_reduced_legendre.nondimensional_helmholtz_free_energy_per_link o nondimensional_end_to_end_length_per_link temperature = efjc_isometric_asymptotic_reduced_legendre.nondimensional_helmholtz_free_energy_per_link number_of_links link_length hinge_mass (link_stiffness * spowi link_length 2 / BOLTZMANN_CONSTANT / temperature) nondimensional_end_to_end_length_per_link temperature)
  /\ (forall (nondimensional_end_to_end_length_per_link : T) (temperature : T), O_efjc_isometric_asymptotic_reduced_legendre.nondimensional_relative_helmholtz_free_energy o nondimensional_end_to_end_length_per_link temperature = efjc_isometric_asymptotic_reduced_legendre.nondimensional_relative_helmholtz_free_energy number_of_links (link_stiffness * spowi link_length 2 / BOLTZMANN_CONSTANT / temperature) nondimensional_end_to_end_length_per_link)
  /\ (forall (nondimensional_end_to_end_length_per_link : T) (temperature : T), O_efjc_isometric_asymptotic_reduced_legendre.nondimensional_relative_helmholtz_free_energy_per_link o nondimensional_end_to_end_length_per_link temperature = efjc_isometric_asymptotic_reduced_legendre.nondimensional_relative_helmholtz_free_energy_per_link (link_stiffness * spowi link_length 2 / BOLTZMANN_CONSTANT / temperature) nondimensional_end_to_end_length_per_link).
Proof. intros; repeat split. Qed.
Print Assumptions C15_efjc_isometric_asymptotic_reduced_legendre.

Theorem C15_efjc_isometric_asymptotic_legendre : forall (T : Type) (Sc : Scalar T) (number_of_links : Z) (link_length : T) (hinge_mass : T) (link_stiffness : T),
  let o := O_efjc_isometric_asymptotic.legendre (O_efjc_isometric.asymptotic (O_efjc_thermodynamics.isometric (O_efjc.thermodynamics (O_efjc.init number_of_links link_length hinge_mass link_stiffness)))) in
  O_efjc_isometric_asymptotic_legendre.hinge_mass o = hinge_mass
  /\ O_efjc_isometric_asymptotic_legendre.link_length o = link_length
  /\ O_efjc_isometric_asymptotic_legendre.number_of_links o = number_of_links
  /\ O_efjc_isometric_asymptotic_legendre.link_stiffness o = link_stiffness
  /\ (forall (end_to_end_length : T) (temperature : T), O_efjc_isometric_asymptotic_legendre.force o end_to_end_length temperature = efjc_isometric_asymptotic_legendre.force number_of_links link_length link_stiffness end_to_end_length temperature)
  /\ (forall (nondimensional_end_to_end_length_per_link : T) (temperature : T), O_efjc_isometric_asymptotic_legendre.nondimensional_force o nondimensional_end_to_end_length_per_link temperature = efjc_isometric_asymptotic_legendre.nondimensional_force (link_stiffness * spowi link_length 2 / BOLTZMANN_CONSTANT / temperature) nondimensional_end_to_end_length_per_link)
  /\ (forall (end_to_end_length : T) (temperature : T), O_efjc_isometric_asymptotic_legendre.helmholtz_free_energy o end_to_end_length temperature = efjc_isometric_asymptotic_legendre.helmholtz_free_energy number_of_links link_length hinge_mass link_stiffness end_to_end_length temperature)
  /\ (forall (end_to_end_length : T) (temperature : T), O_efjc_isometric_asymptotic_legendre.helmholtz_free_energy_per_link o end_to_end_length temperature = efjc_isometric_asymptotic_legendre.helmholtz_free_energy_per_link number_of_links link_length hinge_mass link_stiffness end_to_end_length temperature)
  /\ (forall (end_to_end_length : T) (temperature : T), O_efjc_isometric_asymptotic_legendre.relative_helmholtz_free_energy o end_to_end_length temperature = efjc_isometric_asymptotic_legendre.relative_helmholtz_free_energy number_of_links link_length link_stiffness end_to_end_length temperature)
  /\ (forall (end_to_end_length : T) (temperature : T), O_efjc_isometric_asymptotic_legendre.relative_helmholtz_free_energy_per_link o end_to_end_length temperature = efjc_isometric_asymptotic_legendre.relative_helmholtz_free_energy_per_link number_of_links link_length link_stiffness end_to_end_length temperature)
  /\ (forall (nondimensional_end_to_end_length_per_link : T) (temperature : T), O_efjc_isometric_asymptotic_legendre.nondimensional_helmholtz_free_energy o nondimensional_end_to_end_length_per_link temperature = efjc_isometric_asymptotic_legendre.nondimensional_helmholtz_free_energy number_of_links link_length hinge_mass (link_stiffness * spowi link_length 2 / BOLTZMANN_CONSTANT / temperature) nondimensional_end_to_end_length_per_link temperature)
  /\ (forall (nondimensional_end_to_end_length_per_link : T) (temperature : T), O_efjc_isometric_asymptotic_legendre.nondimensional_helmholtz_free_energy_per_link o nondimensional_end_to_end_length_per_link temperature = efjc_isometric_asymptotic_legendre.nondimensional_helmholtz_free_energy_per_link number_of_links link_length hinge_mass (link_stiffness * spowi link_length 2 / BOLTZMANN_CONSTANT / temperature) nondimensional_end_to_end_length_per_link temperature)
  /\ (forall (nondimensional_end_to_end_length_per_link : T) (temperature : T), O_efjc_isometric_asymptotic_legendre.nondimensional_relative_helmholtz_free_energy o nondimensional_end_to_end_length_per_link temperature = efjc_isometric_asymptotic_legendre.nondimensional_relative_helmholtz_free_energy number_of_links (link_stiffness * spowi link_length 2 / BOLTZMANN_CONSTANT / temperature) nondimensional_end_to_end_length_per_link)
  /\ (forall (nondimensional_end_to_end_length_per_link : T) (temperature : T), O_efjc_isometric_asymptotic_legendre.nondimensional_relative_helmholtz_free_energy_per_link o nondimensional_end_to_end_length_per_link temperature = efjc_isometric_asymptotic_legendre.nondimensional_relative_helmholtz_free_energy_per_link (link_stiffness * spowi link_length 2 / BOLTZMANN_CONSTANT / temperature) nondimensional_end_to_end_length_per_link).
Proof. intros; repeat split. Qed.
Print Assumptions C15_efjc_isometric_asymptotic_legendre.

Theorem C15_efjc_isotensional : forall (T : Type) (Sc : Scalar T) (number_of_links : Z) (link_length : T) (hinge_mass : T) (link_stiffness : T),
  let o := O_efjc_thermodynamics.isotensional (O_efjc.thermodynamics (O_efjc.init number_of_links link_length hinge_mass link_stiffness)) in
  O_efjc_isotensional.hinge_mass o = hinge_mass
  /\ O_efjc_isotensional.link_length o = link_length
  /\ O_efjc_isotensional.number_of_links o = number_of_links
  /\ O_efjc_isotensional.link_stiffness o = link_stiffness
  /\ (forall (force : T) (temperature : T), O_efjc_isotensional.end_to_end_length o force temperature = efjc_isotensional.end_to_end_length number_of_links link_length link_stiffness force temperature)
  /\ (forall (force : T) (temperature : T), O_efjc_isotensional.end_to_end_length_per_link o force temperature = efjc_isotensional.end_to_end_length_per_link link_length link_stiffness force temperature)
  /\ (forall (nondimensional_force : T) (temperature : T), O_efjc_isotensional.nondimensional_end_to_end_length o nondimensional_force temperature = efjc_isotensional.nondimensional_end_to_end_length number_of_links (link_stiffness * spowi link_length 2 / BOLTZMANN_CONSTANT / temperature) nondimensional_force)
  /\ (forall (nondimensional_force : T) (temperature : T), O_efjc_isotensional.nondimensional_end_to_end_length_per_link o nondimensional_force temperature = efjc_isotensional.nondimensional_end_to_end_length_per_link (link_stiffness * spowi link_length 2 / BOLTZMANN_CONSTANT / temperature) nondimensional_force)
  /\ (forall (force : T) (temperature : T), O_efjc_isotensional.gibbs_free_energy o force temperature = efjc_isotensional.gibbs_free_energy number_of_links link_length hinge_mass link_stiffness force temperature)
  /\ (forall (force : T) (temperature : T), O_efjc_isotensional.gibbs_free_energy_per_link o force temperature = efjc_isotensional.gibbs_free_energy_per_link link_length hinge_mass link_stiffness force temperature)
  /\ (forall (force : T) (temperature : T), O_efjc_isotensional.relative_gibbs_free_energy o force temperature = efjc_isotensional.relative_gibbs_free_energy number_of_links link_length link_stiffness force temperature)
  /\ (forall (force : T) (temperature : T), O_efjc_isotensional.relative_gibbs_free_energy_per_link o force temperature = efjc_isotensional.relative_gibbs_free_energy_per_link link_length link_stiffness force temperature)
  /\ (forall (nondimensional_force : T) (temperature : T), O_efjc_isotensional.nondimensional_gibbs_free_energy o nondimensional_force temperature = efjc_isotensional.nondimensional_gibbs_free_energy number_of_links link_length hinge_mass (link_stiffness * spowi link_length 2 / BOLTZMANN_CONSTANT / temperature) nondimensional_force temperature)
  /\ (forall (nondimensional_force : T) (temperature : T), O_efjc_isotensional.nondimensional_gibbs_free_energy_per_link o nondimensional_force temperature = efjc_isotensional.nondimensional_gibbs_free_energy_per_link link_length hinge_mass (link_stiffness * spowi link_length 2 / BOLTZMANN_CONSTANT / temperature) nondimensional_force temperature)
  /\ (forall (nondimensional_force : T) (temperature : T), O_efjc_isotensional.nondimensional_relative_gibbs_free_energy o nondimensional_force temperature = efjc_isotensional.nondimensional_relative_gibbs_free_energy number_of_links (link_stiffness * spowi link_length 2 / BOLTZMANN_CONSTANT / temperature) nondimensional_force)
  /\ (forall (nondimensional_force : T) (temperature : T), O_efjc_isotensional.nondimensional_relative_gibbs_free_energy_per_link o nondimensional_force temperature = efjc_isotensional.nondimensional_relative_gibbs_free_energy_per_link (link_stiffness * spowi link_length 2 / BOLTZMANN_CONSTANT / temperature) nondimensional_force).
Proof. intros; repeat split. Qed.
Print Assumptions C15_efjc_isotensional.

Theorem C15_efjc_isotensional_asymptotic : forall (T : Type) (Sc : Scalar T) (number_of_links : Z) (link_length : T) (hinge_mass : T) (link_stiffness : T),
  let o := O_efjc_isotensional.asymptotic (O_efjc_thermodynamics.isotensional (O_efjc.thermodynamics (O_efjc.init number_of_links link_length hinge_mass link_stiffness))) in
  O_efjc_isotensional_asymptotic.hinge_mass o = hinge_mass
  /\ O_efjc_isotensional_asymptotic.link_length o = link_length
  /\ O_efjc_isotensional_asymptotic.number_of_links o = number_of_links
  /\ O_efjc_isotensional_asymptotic.link_stiffness o = link_stiffness
  /\ (forall (force : T) (temperature : T), O_efjc_isotensional_asymptotic.end_to_end_length o force temperature = efjc_isotensional_asymptotic.end_to_end_length number_of_links link_length link_stiffness force temperature)
  /\ (forall (force : T) (temperature : T), O_efjc_isotensional_asymptotic.end_to_end_length_per_link o force temperature = efjc_isotensional_asymptotic.end_to_end_length_per_link link_length link_stiffness force temperature)
  /\ (forall (nondimensional_force : T) (temperature : T), O_efjc_isotensional_asymptotic.nondimensional_end_to_end_length o nondimensional_force temperature = efjc_isotensional_asymptotic.nondimensional_end_to_end_length number_of_links (link_stiffness * spowi link_length 2 / BOLTZMANN_CONSTANT / temperature) nondimensional_force)
  /\ (forall (nondimensional_force : T) (temperature : T), O_efjc_isotensional_asymptotic.nondimensional_end_to_end_length_per_link o nondimensional_force temperature = efjc_isotensional_asymptotic.nondimensional_end_to_end_length_per_link (link_stiffness * spowi link_length 2 / BOLTZMANN_CONSTANT / temperature) nondimensional_force)
  /\ (forall (force : T) (temperature : T), O_efjc_isotensional_asymptotic.gibbs_free_energy o force temperature = efjc_isotensional_asymptotic.gibbs_free_energy number_of_links link_length hinge_mass link_stiffness force temperature)
  /\ (forall (force : T) (temperature : T), O_efjc_isotensional_asymptotic.gibbs_free_energy_per_link o force temperature = efjc_isotensional_asymptotic.gibbs_free_energy_per_link link_length hinge_mass link_stiffness force temperature)
  /\ (forall (force : T) (temperature : T), O_efjc_isotensional_asymptotic.relative_gibbs_free_energy o force temperature = efjc_isotensional_asymptotic.relative_gibbs_free_energy number_of_links link_length link_stiffness force temperature)
  /\ (forall (force : T) (temperature : T), O_efjc_isotensional_asymptotic.relative_gibbs_free_energy_per_link o force temperature = efjc_isotensional_asymptotic.relative_gibbs_free_energy_per_link link_length link_stiffness force temperature)
  /\ (forall (nondimensional_force : T) (temperature : T), O_efjc_isotensional_asymptotic.nondimensional_gibbs_free_energy o nondimensional_force temperature = efjc_isotensional_asymptotic.nondimensional_gibbs_free_energy number_of_links link_length hinge_mass (link_stiffness * spowi link_length 2 / BOLTZMANN_CONSTANT / temperature) nondimensional_force temperature)
  /\ (forall (nondimensional_force : T) (temperature : T), O_efjc_isotensional_asymptotic.nondimensional_gibbs_free_energy_per_link o nondimensional_force temperature = efjc_isotensional_asymptotic.nondimensional_gibbs_free_energy_per_link link_length hinge_mass (link_stiffness * spowi link_length 2 / BOLTZMANN_CONSTANT / temperature) nondimensional_force temperature)
  /\ (forall (nondimensional_force : T) (temperature : T), O_efjc_isotensional_asymptotic.nondimensional_relative_gibbs_free_energy o nondimensional_force temperature = efjc_isotensional_asymptotic.nondimensional_relative_gibbs_free_energy number_of_links (link_stiffness * spowi link_length 2 / BOLTZMANN_CONSTANT / temperature) nondimensional_force)
  /\ (forall (nondimensional_force : T) (temperature : T), O_efjc_isotensional_asymptotic.nondimensional_relative_gibbs_free_energy_per_link o nondimensional_force temperature = efjc_isotensional_asymptotic.nondimensional_relative_gibbs_free_energy_per_link (link_stiffness * spowi link_length 2 / BOLTZMANN_CONSTANT / temperature) nondimensional_force).
Proof. intros; repeat split. Qed.
Print Assumptions C15_efjc_isotensional_asymptotic.

Theorem C15_efjc_isotensional_asymptotic_alternative : forall (T : Type) (Sc : Scalar T) (number_of_links : Z) (link_length : T) (hinge_mass : T) (link_stiffness : T),
  let o := O_efjc_isotensional_asymptotic.alternative (O_efjc_isotensional.asymptotic (O_efjc_thermodynamics.isotensional (O_efjc.thermodynamics (O_efjc.init number_of_links link_length hinge_mass link_stiffness)))) in
  O_efjc_isotensional_asymptotic_alternative.hinge_mass o = hinge_mass
  /\ O_efjc_isotensional_asymptotic_alternative.link_length o = link_length
  /\ O_efjc_isotensional_asymptotic_alternative.number_of_links o = number_of_links
  /\ O_efjc_isotensional_asymptotic_alternative.link_stiffness o = link_stiffness
  /\ (forall (force : T) (temperature : T), O_efjc_isotensional_asymptotic_alternative.end_to_end_length o force temperature = efjc_isotensional_asymptotic_alternative.end_to_end_length number_of_links link_length link_stiffness force temperature)
  /\ (forall (force : T) (temperature : T), O_efjc_isotensional_asymptotic_alternative.end_to_end_length_per_link o force temperature = efjc_isotensional_asymptotic_alternative.end_to_end_length_per_link link_length link_stiffness force temperature)
  /\ (forall (nondimensional_force : T) (temperature : T), O_efjc_isotensional_asymptotic_alternative.nondimensional_end_to_end_length o nondimensional_force temperature = efjc_isotensional_asymptotic_alternative.nondimensional_end_to_end_length number_of_links (link_stiffness * spowi link_length 2 / BOLTZMANN_CONSTANT / temperature) nondimensional_force)
  /\ (forall (nondimensional_force : T) (temperature : T), O_efjc_isotensional_asymptotic_alternative.nondimensional_end_to_end_length_per_link o nondimensional_force temperature = efjc_isotensional_asymptotic_alternative.nondimensional_end_to_end_length_per_link (link_stiffness * spowi link_length 2 / BOLTZMANN_CONSTANT / temperature) nondimensional_force)
  /\ (forall (force : T) (temperature : T), O_efjc_isotensional_asymptotic_alternative.gibbs_free_energy o force temperature = efjc_isotensional_asymptotic_alternative.gibbs_free_energy number_of_links link_length hinge_mass link_stiffness force temperature)
  /\ (forall (force : T) (temperature : T), O_efjc_isotensional_asymptotic_alternative.gibbs_free_energy_per_link o force temperature = efjc_isotensional_asymptotic_alternative.gibbs_free_energy_per_link link_length hinge_mass link_stiffness force temperature)
  /\ (forall (force : T) (temperature : T), O_efjc_isotensional_asymptotic_alternative.relative_gibbs_free_energy o force temperature = efjc_isotensional_asymptotic_alternative.relative_gibbs_free_energy number_of_links link_length link_stiffness force temperature)
  /\ (forall (force : T) (temperature : T), O_efjc_isotensional_asymptotic_alternative.relative_gibbs_free_energy_per_link o force temperature = efjc_isotensional_asymptotic_alternative.relative_gibbs_free_energy_per_link link_length link_stiffness force temperature)
  /\ (forall (nondimensional_force : T) (temperature : T), O_efjc_isotensional_asymptotic_alternative.nondimensional_gibbs_free_energy o nondimensional_force temperature = efjc_isotensional_asymptotic_alternative.nondimensional_gibbs_free_energy number_of_links link_length hinge_mass (link_stiffness * spowi link_length 2 / BOLTZMANN_CONSTANT / temperature) nondimensional_force temperature)
  /\ (forall (nondimensional_force : T) (temperature : T), O_efjc_isotensional_asymptotic_alternative.nondimensional_gibbs_free_energy_per_link o nondimensional_force temperature = efjc_isotensional_asymptotic_alternative.nondimensional_gibbs_free_energy_per_link link_length hinge_mass (link_stiffness * spowi link_length 2 / BOLTZMANN_CONSTANT / temperature) nondimensional_force temperature)
  /\ (forall (nondimensional_force : T) (temperature : T), O_efjc_isotensional_asymptotic_alternative.nondimensional_relative_gibbs_free_energy o nondimensional_force temperature = efjc_isotensional_asymptotic_alternative.nondimensional_relative_gibbs_free_energy number_of_links (link_stiffness * spowi link_length 2 / BOLTZMANN_CONSTANT / temperature) nondimensional_force)
  /\ (forall (nondimensional_force : T) (temperature : T), O_efjc_isotensional_asymptotic_alternative.nondimensional_relative_gibbs_free_energy_per_link o nondimensional_force temperature = efjc_isotensional_asymptotic_alternative.nondimensional_relative_gibbs_free_energy_per_link (link_stiffness * spowi link_length 2 / BOLTZMANN_CONSTANT / temperature) nondimensional_force).
Proof. intros; repeat split. Qed.
Print Assumptions C15_efjc_isotensional_asymptotic_alternative.

Theorem C15_efjc_isotensional_asymptotic_alternative_legendre : forall (T : Type) (Sc : Scalar T) (number_of_links : Z) (link_length : T) (hinge_mass : T) (link_stiffness : T),
  let o := O_efjc_isotensional_asymptotic_alternative.legendre (O_efjc_isotensional_asymptotic.alternative (O_efjc_isotensional.asymptotic (O_efjc_thermodynamics.isotensional (O_efjc.thermodynamics (O_efjc.init number_of_links link_length hinge_mass link_stiffness))))) in
  O_efjc_isotensional_asymptotic_alternative_legendre.hinge_mass o = hinge_mass
  /\ O_efjc_isotensional_asymptotic_alternative_legendre.link_length o = link_length
  /\ O_efjc_isotensional_asymptotic_alternative_legendre.number_of_links o = number_of_links
  /\ O_efjc_isotensional_asymptotic_alternative_legendre.link_stiffness o = link_stiffness
  /\ (forall (force : T) (temperature : T), O_efjc_isotensional_asymptotic_alternative_legendre.helmholtz_free_energy o force temperature = efjc_isotensional_asymptotic_alternative_legendre.helmholtz_free_energy number_of_links link_length hinge_mass link_stiffness force temperature)
  /\ (forall (force : T) (temperature : T), O_efjc_isotensional_asymptotic_alternative_legendre.helmholtz_free_energy_per_link o force temperature = efjc_isotensional_asymptotic_alternative_legendre.helmholtz_free_energy_per_link link_length hinge_mass link_stiffness force temperature)
  /\ (forall (force : T) (temperature : T), O_efjc_isotensional_asymptotic_alternative_legendre.relative_helmholtz_free_energy o force temperature = efjc_isotensional_asymptotic_alternative_legendre.relative_helmholtz_free_energy number_of_links link_length link_stiffness force temperature)
  /\ (forall (force : T) (temperature : T), O_efjc_isotensional_asymptotic_alternative_legendre.relative_helmholtz_free_energy_per_link o force temperature = efjc_isotensional_asymptotic_alternative_legendre.relative_helmholtz_free_energy_per_link link_length link_stiffness force temperature)
  /\ (forall (nondimensional_force : T) (temperature : T), O_efjc_isotensional_asymptotic_alternative_legendre.nondimensional_helmholtz_free_energy o nondimensional_force temperature = efjc_isotensional_asymptotic_alternative_legendre.nondimensional_helmholtz_free_energy number_of_links link_length hinge_mass (link_stiffness * spowi link_length 2 / BOLTZMANN_CONSTANT / temperature) nondimensional_force temperature)
  /\ (forall (nondimensional_force : T) (temperature : T), O_efjc_isotensional_asymptotic_alternative_legendre.nondimensional_helmholtz_free_energy_per_link o nondimensional_force temperature = efjc_isotensional_asymptotic_alternative_legendre.nondimensional_helmholtz_free_energy_per_link link_length hinge_mass (link_stiffness * spowi link_length 2 / BOLTZMANN_CONSTANT / temperature) nondimensional_force temperature)
  /\ (forall (nondimensional_force : T) (temperature : T), O_efjc_isotensional_asymptotic_alternative_legendre.nondimensional_relative_helmholtz_free_energy o nondimensional_force temperature = efjc_isotensional_asymptotic_alternative_legendre.nondimensional_relative_helmholtz_free_energy number_of_links (link_stiffness * spowi link_length 2 / BOLTZMANN_CONSTANT / temperature) nondimensional_force)
  /\ (forall (nondimensional_force : T) (temperature : T), O_efjc_isotensional_asymptotic_alternative_legendre.nondimensional_relative_helmholtz_free_energy_per_link o nondimensional_force temperature = efjc_isotensional_asymptotic_alternative_legendre.nondimensional_relative_helmholtz_free_energy_per_link (link_stiffness * spowi link_length 2 / BOLTZMANN_CONSTANT / temperature) nondimensional_force).
Proof. intros; repeat split. Qed.
Print Assumptions C15_efjc_isotensional_asymptotic_alternative_legendre.

Theorem C15_efjc_isotensional_asymptotic_reduced : forall (T : Type) (Sc : Scalar T) (number_of_links : Z) (link_length : T) (hinge_mass : T) (link_stiffness : T),
  let o := O_efjc_isotensional_asymptotic.reduced (O_efjc_isotensional.asymptotic (O_efjc_thermodynamics.isotensional (O_efjc.thermodynamics (O_efjc.init number_of_links link_length hinge_mass link_stiffness)))) in
  O_efjc_isotensional_asymptotic_reduced.hinge_mass o = hinge_mass
  /\ O_efjc_isotensional_asymptotic_reduced.link_length o = link_length
  /\ O_efjc_isotensional_asymptotic_reduced.number_of_links o = number_of_links
  /\ O_efjc_isotensional_asymptotic_reduced.link_stiffness o = link_stiffness
  /\ (forall (force : T) (temperature : T), O_efjc_isotensional_asymptotic_reduced.end_to_end_length o force temperature = efjc_isotensional_asymptotic_reduced.end_to_end_length number_of_links link_length link_stiffness force temperature)
  /\ (forall (force : T) (temperature : T), O_efjc_isotensional_asymptotic_reduced.end_to_end_length_per_link o force temperature = efjc_isotensional_asymptotic_reduced.end_to_end_length_per_link link_length link_stiffness force temperature)
  /\ (forall (nondimensional_force : T) (temperature : T), O_efjc_isotensional_asymptotic_reduced.nondimensional_end_to_end_length o nondimensional_force temperature = efjc_isotensional_asymptotic_reduced.nondimensional_end_to_end_length number_of_links (link_stiffness * spowi link_length 2 / BOLTZMANN_CONSTANT / temperature) nondimensional_force)
  /\ (forall (nondimensional_force : T) (temperature : T), O_efjc_isotensional_asymptotic_reduced.nondimensional_end_to_end_length_per_link o nondimensional_force temperature = efjc_isotensional_asymptotic_reduced.nondimensional_end_to_end_length_per_link (link_stiffness * spowi link_length 2 / BOLTZMANN_CONSTANT / temperature) nondimensional_force)
  /\ (forall (force : T) (temperature : T), O_efjc_isotensional_asymptotic_reduced.gibbs_free_energy o force temperature = efjc_isotensional_asymptotic_reduced.gibbs_free_energy number_of_links link_length hinge_mass link_stiffness force temperature)
  /\ (forall (force : T) (temperature : T), O_efjc_isotensional_asymptotic_reduced.gibbs_free_energy_per_link o force temperature = efjc_isotensional_asymptotic_reduced.gibbs_free_energy_per_link link_length hinge_mass link_stiffness force temperature)
  /\ (forall (force : T) (temperature : T), O_efjc_isotensional_asymptotic_reduced.relative_gibbs_free_energy o force temperature = efjc_isotensional_asymptotic_reduced.relative_gibbs_free_energy number_of_links link_length link_stiffness force temperature)
  /\ (forall (force : T) (temperature : T), O_efjc_isotensional_asymptotic_reduced.relative_gibbs_free_energy_per_link o force temperature = efjc_isotensional_asymptotic_reduced.relative_gibbs_free_energy_per_link link_length link_stiffness force temperature)
  /\ (forall (nondimensional_force : T) (temperature : T), O_efjc_isotensional_asymptotic_reduced.nondimensional_gibbs_free_energy o nondimensional_force temperature = efjc_isotensional_asymptotic_reduced.nondimensional_gibbs_free_energy number_of_links link_length hinge_mass (link_stiffness * spowi link_length 2 / BOLTZMANN_CONSTANT / temperature) nondimensional_force temperature)
  /\ (forall (nondimensional_force : T) (temperature : T), O_efjc_isotensional_asymptotic_reduced.nondimensional_gibbs_free_energy_per_link o nondimensional_force temperature = efjc_isotensional_asymptotic_reduced.nondimensional_gibbs_free_energy_per_link link_length hinge_mass (link_stiffness * spowi link_length 2 / BOLTZMANN_CONSTANT / temperature) nondimensional_force temperature)
  /\ (forall (nondimensional_force : T) (temperature : T), O_efjc_isotensional_asymptotic_reduced.nondimensional_relative_gibbs_free_energy o nondimensional_force temperature = efjc_isotensional_asymptotic_reduced.nondimensional_relative_gibbs_free_energy number_of_links (link_stiffness * spowi link_length 2 / BOLTZMANN_CONSTANT / temperature) nondimensional_force)
  /\ (forall (nondimensional_force : T) (temperature : T), O_efjc_isotensional_asymptotic_reduced.nondimensional_relative_gibbs_free_energy_per_link o nondimensional_force temperature = efjc_isotensional_asymptotic_reduced.nondimensional_relative_gibbs_free_energy_per_link (link_stiffness * spowi link_length 2 / BOLTZMANN_CONSTANT / temperature) nondimensional_force).
Proof. intros; repeat split. Qed.
Print Assumptions C15_efjc_isotensional_asymptotic_reduced.

Theorem C15_efjc_isotensional_asymptotic_reduced_legendre : forall (T : Type) (Sc : Scalar T) (number_of_links : Z) (link_length : T) (hinge_mass : T) (link_stiffness : T),
  let o := O_efjc_isotensional_asymptotic_reduced.legendre (O_efjc_isotensional_asymptotic.reduced (O_efjc_isotensional.asymptotic (O_efjc_thermodynamics.isotensional (O_efjc.thermodynamics (O_efjc.init number_of_links link_length hinge_mass link_stiffness))))) in
  O_efjc_isotensional_asymptotic_reduced_legendre.hinge_mass o = hinge_mass
  /\ O_efjc_isotensional_asymptotic_reduced_legendre.link_length o = link_length
  /\ O_efjc_isotensional_asymptotic_reduced_legendre.number_of_links o = number_of_links
  /\ O_efjc_isotensional_asymptotic_reduced_legendre.link_stiffness o = link_stiffness
  /\ (forall (force : T) (temperature : T), O_efjc_isotensional_asymptotic_reduced_legendre.helmholtz_free_energy o force temperature = efjc_isotensional_asymptotic_reduced_legendre.helmholtz_free_energy number_of_links link_length hinge_mass link_stiffness force temperature)
  /\ (forall (force : T) (temperature : T), O_efjc_isotensional_asymptotic_reduced_legendre.helmholtz_free_energy_per_link o force temperature = efjc_isotensional_asymptotic_reduced_legendre.helmholtz_free_energy_per_link link_length hinge_mass link_stiffness force temperature)
  /\ (forall (force : T) (temperature : T), O_efjc_isotensional_asymptotic_reduced_legendre.relative_helmholtz_free_energy o force temperature = efjc_isotensional_asymptotic_reduced_legendre.relative_helmholtz_free_energy number_of_links link_length link_stiffness force temperature)
  /\ (forall (force : T) (temperature : T), O_efjc_isotensional_asymptotic_reduced_legendre.relative_helmholtz_free_energy_per_link o force temperature = efjc_isotensional_asymptotic_reduced_legendre.relative_helmholtz_free_energy_per_link link_length link_stiffness force temperature)
  /\ (forall (nondimensional_force : T) (temperature : T), O_efjc_isotensional_asymptotic_reduced_legendre.nondimensional_helmholtz_free_energy o nondimensional_force temperature = efjc_isotensional_asymptotic_reduced_legendre.nondimensional_helmholtz_free_energy number_of_links link_length hinge_mass (link_stiffness * spowi link_length 2 / BOLTZMANN_CONSTANT / temperature) nondimensional_force temperature)
  /\ (forall (nondimensional_force : T) (temperature : T), O_efjc_isotensional_asymptotic_reduced_legendre.nondimensional_helmholtz_free_energy_per_link o nondimensional_force temperature = efjc_isotensional_asymptotic_reduced_legendre.nondimensional_helmholtz_free_energy_per_link link_length hinge_mass (link_stiffness * spowi link_length 2 / BOLTZMANN_CONSTANT / temperature) nondimensional_force temperature)
  /\ (forall (nondimensional_force : T) (temperature : T), O_efjc_isotensional_asymptotic_reduced_legendre.nondimensional_relative_helmholtz_free_energy o nondimensional_force temperature = efjc_isotensional_asymptotic_reduced_legendre.nondimensional_relative_helmholtz_free_energy number_of_links (link_stiffness * spowi link_length 2 / BOLTZMANN_CONSTANT / temperature) nondimensional_force)
  /\ (forall (nondimensional_force : T) (temperature : T), O_efjc_isotensional_asymptotic_reduced_legendre.nondimensional_relative_helmholtz_free_energy_per_link o nondimensional_force temperature = efjc_isotensional_asymptotic_reduced_legendre.nondimensional_relative_helmholtz_free_energy_per_link (link_stiffness * spowi link_length 2 / BOLTZMANN_CONSTANT / temperature) nondimensional_force).
Proof. intros; repeat split. Qed.
Print Assumptions C15_efjc_isotensional_asymptotic_reduced_legendre.

Theorem C15_efjc_isotensional_asymptotic_legendre : forall (T : Type) (Sc : Scalar T) (number_of_links : Z) (link_length : T) (hinge_mass : T) (link_stiffness : T),
  let o := O_efjc_isotensional_asymptotic.legendre (O_efjc_isotensional.asymptotic (O_efjc_thermodynamics.isotensional (O_efjc.thermodynamics (O_efjc.init number_of_links link_length hinge_mass link_stiffness)))) in
  O_efjc_isotensional_asymptotic_legendre.hinge_mass o = hinge_mass
  /\ O_efjc_isotensional_asymptotic_legendre.link_length o = link_length
  /\ O_efjc_isotensional_asymptotic_legendre.number_of_links o = number_of_links
  /\ O_efjc_isotensional_asymptotic_legendre.link_stiffness o = link_stiffness
  /\ (forall (force : T) (temperature : T), O_efjc_isotensional_asymptotic_legendre.helmholtz_free_energy o force temperature = efjc_isotensional_asymptotic_legendre.helmholtz_free_energy number_of_links link_length hinge_mass link_stiffness force temperature)
  /\ (forall (force : T) (temperature : T), O_efjc_isotensional_asymptotic_legendre.helmholtz_free_energy_per_link o force temperature = efjc_isotensional_asymptotic_legendre.helmholtz_free_energy_per_link link_length hinge_mass link_stiffness force temperature)
  /\ (forall (force : T) (temperature : T), O_efjc_isotensional_asymptotic_legendre.relative_helmholtz_free_energy o force temperature = efjc_isotensional_asymptotic_legendre.relative_helmholtz_free_energy number_of_links link_length link_stiffness force temperature)
  /\ (forall (force : T) (temperature : T), O_efjc_isotensional_asymptotic_legendre.relative_helmholtz_free_energy_per_link o force temperature = efjc_isotensional_asymptotic_legendre.relative_helmholtz_free_energy_per_link link_length link_stiffness force temperature)
  /\ (forall (nondimensional_force : T) (temperature : T), O_efjc_isotensional_asymptotic_legendre.nondimensional_helmholtz_free_energy o nondimensional_force temperature = efjc_isotensional_asymptotic_legendre.nondimensional_helmholtz_free_energy number_of_links link_length hinge_mass (link_stiffness * spowi link_length 2 / BOLTZMANN_CONSTANT / temperature) nondimensional_force temperature)
  /\ (forall (nondimensional_force : T) (temperature : T), O_efjc_isotensional_asymptotic_legendre.nondimensional_relative_helmholtz_free_energy o nondimensional_force temperature = efjc_isotensional_asymptotic_legendre.nondimensional_relative_helmholtz_free_energy number_of_links (link_stiffness * spowi link_length 2 / BOLTZMANN_CONSTANT / temperature) nondimensional_force)
  /\ (forall (nondimensional_force : T) (temperature : T), O_efjc_isotensional_asymptotic_legendre.nondimensional_relative_helmholtz_free_energy_per_link o nondimensional_force temperature = efjc_isotensional_asymptotic_legendre.nondimensional_relative_helmholtz_free_energy_per_link (link_stiffness * spowi link_length 2 / BOLTZMANN_CONSTANT / temperature) nondimensional_force).
Proof. intros; repeat split. Qed.
Print Assumptions C15_efjc_isotensional_asymptotic_legendre.

Theorem C15_efjc_isotensional_legendre : forall (T : Type) (Sc : Scalar T) (number_of_links : Z) (link_length : T) (hinge_mass : T) (link_stiffness : T),
  let o := O_efjc_isotensional.legendre (O_efjc_thermodynamics.isotensional (O_efjc.thermodynamics (O_efjc.init number_of_links link_length hinge_mass link_stiffness))) in
  O_efjc_isotensional_legendre.hinge_mass o = hinge_mass
  /\ O_efjc_isotensional_legendre.link_length o = link_length
  /\ O_efjc_isotensional_legendre.number_of_links o = number_of_links
  /\ O_efjc_isotensional_legendre.link_stiffness o = link_stiffness
  /\ (forall (force : T) (temperature : T), O_efjc_isotensional_legendre.helmholtz_free_energy o force temperature = efjc_isotensional_legendre.helmholtz_free_energy number_of_links link_length hinge_mass link_stiffness force temperature)
  /\ (forall (force : T) (temperature : T), O_efjc_isotensional_legendre.helmholtz_free_energy_per_link o force temperature = efjc_isotensional_legendre.helmholtz_free_energy_per_link link_length hinge_mass link_stiffness force temperature)
  /\ (forall (force : T) (temperature : T), O_efjc_isotensional_legendre.relative_helmholtz_free_energy o force temperature = efjc_isotensional_legendre.relative_helmholtz_free_energy number_of_links link_length link_stiffness force temperature)
  /\ (forall (force : T) (temperature : T), O_efjc_isotensional_legendre.relative_helmholtz_free_energy_per_link o force temperature = efjc_isotensional_legendre.relative_helmholtz_free_energy_per_link link_length link_stiffness force temperature)
  /\ (forall (nondimensional_force : T) (temperature : T), O_efjc_isotensional_legendre.nondimensional_helmholtz_free_energy o nondimensional_force temperature = efjc_isotensional_legendre.nondimensional_helmholtz_free_energy number_of_links link_length hinge_mass (link_stiffness * spowi link_length 2 / BOLTZMANN_CONSTANT / temperature) nondimensional_force temperature)
  /\ (forall (nondimensional_force : T) (temperature : T), O_efjc_isotensional_legendre.nondimensional_helmholtz_free_energy_per_link o nondimensional_force temperature = efjc_isotensional_legendre.nondimensional_helmholtz_free_energy_per_link link_length hinge_mass (link_stiffness * spowi link_length 2 / BOLTZMANN_CONSTANT / temperature) nondimensional_force temperature)
  /\ (forall (nondimensional_force : T) (temperature : T), O_efjc_isotensional_legendre.nondimensional_relative_helmholtz_free_energy o nondimensional_force temperature = efjc_isotensional_legendre.nondimensional_relative_helmholtz_free_energy number_of_links (link_stiffness * spowi link_length 2 / BOLTZMANN_CONSTANT / temperature) nondimensional_force)
  /\ (forall (nondimensional_force : T) (temperature : T), O_efjc_isotensional_legendre.nondimensional_relative_helmholtz_free_energy_per_link o nondimensional_force temperature = efjc_isotensional_legendre.nondimensional_relative_helmholtz_free_energy_per_link (link_stiffness * spowi link_length 2 / BOLTZMANN_CONSTANT / temperature) nondimensional_force).
Proof. intros; repeat split. Qed.
Print Assumptions C15_efjc_isotensional_legendre.

Theorem C15_morse : forall (T : Type) (Sc : Scalar T) (number_of_links : Z) (link_length : T) (hinge_mass : T) (link_stiffness : T) (link_energy : T),
  let o := O_morse.init number_of_links link_length hinge_mass link_stiffness link_energy in
  O_morse.hinge_mass o = hinge_mass
  /\ O_morse.link_length o = link_length
  /\ O_morse.number_of_links o = number_of_links
  /\ O_morse.link_stiffness o = link_stiffness
  /\ O_morse.link_energy o = link_energy.
Proof. intros; repeat split. Qed.
Print Assumptions C15_morse.

Theorem C15_morse_thermodynamics : forall (T : Type) (Sc : Scalar T) (number_of_links : Z) (link_length : T) (hinge_mass : T) (link_stiffness : T) (link_energy : T),
  let o := O_morse.thermodynamics (O_morse.init number_of_links link_length hinge_mass link_stiffness link_energy) in
  O_morse_thermodynamics.hinge_mass o = hinge_mass
  /\ O_morse_thermodynamics.link_length o = link_length
  /\ O_morse_thermodynamics.number_of_links o = number_of_links
  /\ O_morse_thermodynamics.link_stiffness o = link_stiffness
  /\ O_morse_thermodynamics.link_energy o = link_energy.
Proof. intros; repeat split. Qed.
Print Assumptions C15_morse_thermodynamics.

Theorem C15_morse_isometric : forall (T : Type) (Sc : Scalar T) (number_of_links : Z) (link_length : T) (hinge_mass : T) (link_stiffness : T) (link_energy : T),
  let o := O_morse_thermodynamics.isometric (O_morse.thermodynamics (O_morse.init number_of_links link_length hinge_mass link_stiffness link_energy)) in
  O_morse_isometric.hinge_mass o = hinge_mass
  /\ O_morse_isometric.link_length o = link_length
  /\ O_morse_isometric.number_of_links o = number_of_links
  /\ O_morse_isometric.link_stiffness o = link_stiffness
  /\ O_morse_isometric.link_energy o = link_energy.
Proof. intros; repeat split. Qed.
Print Assumptions C15_morse_isometric.

Theorem C15_morse_isometric_asymptotic : forall (T : Type) (Sc : Scalar T) (number_of_links : Z) (link_length : T) (hinge_mass : T) (link_stiffness : T) (link_energy : T),
  let o := O_morse_isometric.asymptotic (O_morse_thermodynamics.isometric (O_morse.thermodynamics (O_morse.init number_of_links link_length hinge_mass link_stiffness link_energy))) in
  O_morse_isometric_asymptotic.hinge_mass o = hinge_mass
  /\ O_morse_isometric_asymptotic.link_length o = link_length
  /\ O_morse_isometric_asymptotic.number_of_links o = number_of_links
  /\ O_morse_isometric_asymptotic.link_stiffness o = link_stiffness
  /\ O_morse_isometric_asymptotic.link_energy o = link_energy.
Proof. intros; repeat split. Qed.
Print Assumptions C15_morse_isometric_asymptotic.

Theorem C15_morse_isometric_asymptotic_reduced : forall (T : Type) (Sc : Scalar T) (number_of_links : Z) (link_length : T) (hinge_mass : T) (link_stiffness : T) (link_energy : T),
  let o := O_morse_isometric_asymptotic.reduced (O_morse_isometric.asymptotic (O_morse_thermodynamics.isometric (O_morse.thermodynamics (O_morse.init number_of_links link_length hinge_mass link_stiffness link_energy)))) in
  O_morse_isometric_asymptotic_reduced.hinge_mass o = hinge_mass
  /\ O_morse_isometric_asymptotic_reduced.link_length o = link_length
  /\ O_morse_isometric_asymptotic_reduced.number_of_links o = number_of_links
  /\ O_morse_isometric_asymptotic_reduced.link_stiffness o = link_stiffness
  /\ O_morse_isometric_asymptotic_reduced.link_energy o = link_energy.
Proof. intros; repeat split. Qed.
Print Assumptions C15_morse_isometric_asymptotic_reduced.

Theorem C15_morse_isometric_asymptotic_reduced_legendre : forall (T : Type) (Sc : Scalar T) (number_of_links : Z) (link_length : T) (hinge_mass : T) (link_stiffness : T) (link_energy : T),
  let o := O_morse_isometric_asymptotic_reduced.legendre (O_morse_isometric_asymptotic.reduced (O_morse_isometric.asymptotic (O_morse_thermodynamics.isometric (O_morse.thermodynamics (O_morse.init number_of_links link_length hinge_mass link_stiffness link_energy))))) in
  O_morse_isometric_asymptotic_reduced_legendre.hinge_mass o = hinge_mass
  /\ O_morse_isometric_asymptotic_reduced_legendre.link_length o = link_length
  /\ O_morse_isometric_asymptotic_reduced_legendre.number_of_links o = number_of_links
  /\ O_morse_isometric_asymptotic_reduced_legendre.link_stiffness o = link_stiffness
  /\ O_morse_isometric_asymptotic_reduced_legendre.link_energy o = link_energy
  /\ (forall (end_to_end_length : T) (temperature : T), O_morse_isometric_asymptotic_reduced_legendre.force o end_to_end_length temperature = morse_isometric_asymptotic_reduced_legendre.force number_of_links link_length link_stiffness link_energy end_to_end_length temperature)
  /\ (forall (nondimensional_end_to_end_length_per_link : T) (temperature : T), O_morse_isometric_asymptotic_reduced_legendre.nondimensional_force o nondimensional_end_to_end_length_per_link temperature = morse_isometric_asymptotic_reduced_legendre.nondimensional_force (link_stiffness * spowi link_length 2 / BOLTZMANN_CONSTANT / temperature) (link_energy / BOLTZMANN_CONSTANT / temperature) nondimensional_end_to_end_length_per_link)
  /\ (forall (end_to_end_length : T) (temperature : T), O_morse_isometric_asymptotic_reduced_legendre.helmholtz_free_energy o end_to_end_length temperature = morse_isometric_asymptotic_reduced_legendre.helmholtz_free_energy number_of_links link_length hinge_mass link_stiffness link_energy end_to_end_length temperature)
  /\ (forall (end_to_end_length : T) (temperature : T), O_morse_isometric_asymptotic_reduced_legendre.helmholtz_free_energy_per_link o end_to_end_length temperature = morse_isometric_asymptotic_reduced_legendre.helmholtz_free_energy_per_link number_of_links link_length hinge_mass link_stiffness link_energy end_to_end_length temperature)
  /\ (forall (end_to_end_length : T) (temperature : T), O_morse_isometric_asymptotic_reduced_legendre.relative_helmholtz_free_energy o end_to_end_length temperature = morse_isometric_asymptotic_reduced_legendre.relative_helmholtz_free_energy number_of_links link_length link_stiffness link_energy end_to_end_length temperature)
  /\ (forall (end_to_end_length : T) (temperature : T), O_morse_isometric_asymptotic_reduced_legendre.relative_helmholtz_free_energy_per_link o end_to_end_length temperature = morse_isometric_asymptotic_reduced_legendre.relative_helmholtz_free_energy_per_link number_of_links link_length link_stiffness link_energy end_to_end_length temperature)
  /\ (forall (nondimensional_end_to_end_length_per_link : T) (temperature : T), O_morse_isometric_asymptotic_reduced_legendre.nondimensional_helmholtz_free_energy o nondimensional_end_to_end_length_per_link temperature = morse_isometric_asymptotic_reduced_legendre.nondimensional_helmholtz_free_energy number_of_links link_length hinge_mass (link_stiffness * spowi link_length 2 / BOLTZMANN_CONSTANT / temperature) (link_energy / BOLTZMANN_CONSTANT / temperature) nondimensional_end_to_end_length_per_link temperature)
  /\ (forall (nondimensional_end_to_end_length_per_link : T) (temperature : T), O_morse_isometric_asymptotic_reduced_legendre.nondimensional_helmholtz_free_energy_per_link o nondimensional_end_to_end_length_per_link temperature = morse_isometric_asymptotic_reduced_legendre.nondimensional_helmholtz_free_energy_per_link number_of_links link_length hinge_mass (link_stiffness * spowi link_length 2 / BOLTZMANN_CONSTANT / temperature) (link_energy / BOLTZMANN_CONSTANT / temperature) nondimensional_end_to_end_length_per_link temperature)
  /\ (forall (nondimensional_end_to_end_length_per_link : T) (temperature : T), O_morse_isometric_asymptotic_reduced_legendre.nondimensional_relative_helmholtz_free_energy o nondimensional_end_to_end_length_per_link temperature = morse_isometric_asymptotic_reduced_legendre.nondimensional_relative_helmholtz_free_energy number_of_links (link_stiffness * spowi link_length 2 / BOLTZMANN_CONSTANT / temperature) (link_energy / BOLTZMANN_CONSTANT / temperature) nondimensional_end_to_end_length_per_link)
  /\ (forall (nondimensional_end_to_end_length_per_link : T) (temperature : T), O_morse_isometric_asymptotic_reduced_legendre.nondimensional_relative_helmholtz_free_energy_per_link o nondimensional_end_to_end_length_per_link temperature = morse_isometric_asymptotic_reduced_legendre.nondimensional_relative_helmholtz_free_energy_per_link (link_stiffness * spowi link_length 2 / BOLTZMANN_CONSTANT / temperature) (link_energy / BOLTZMANN_CONSTANT / temperature) nondimensional_end_to_end_length_per_link).
Proof. intros; repeat split. Qed.
Print Assumptions C15_morse_isometric_asymptotic_reduced_legendre.

Theorem C15_morse_isometric_asymptotic_legendre : forall (T : Type) (Sc : Scalar T) (number_of_links : Z) (link_length : T) (hinge_mass : T) (link_stiffness : T) (link_energy : T),
  let o := O_morse_isometric_asymptotic.legendre (O_morse_isometric.asymptotic (O_morse_thermodynamics.isometric (O_morse.thermodynamics (O_morse.init number_of_links link_length hinge_mass link_stiffness link_energy)))) in
  O_morse_isometric_asymptotic_legendre.hinge_mass o = hinge_mass
  /\ O_morse_isometric_asymptotic_legendre.link_length o = link_length
  /\ O_morse_isometric_asymptotic_legendre.number_of_links o = number_of_links
  /\ O_morse_isometric_asymptotic_legendre.link_stiffness o = link_stiffness
  /\ O_morse_isometric_asymptotic_legendre.link_energy o = link_energy
  /\ (forall (end_to_end_length : T) (temperature : T), O_morse_isometric_asymptotic_legendre.force o end_to_end_length temperature = morse_isometric_asymptotic_legendre.force number_of_links link_length link_stiffness link_energy end_to_end_length temperature)
  /\ (forall (nondimensional_end_to_end_length_per_link : T) (temperature : T), O_morse_isometric_asymptotic_legendre.nondimensional_force o nondimensional_end_to_end_length_per_link temperature = morse_isometric_asymptotic_legendre.nondimensional_force (link_stiffness * spowi link_length 2 / BOLTZMANN_CONSTANT / temperature) (link_energy / BOLTZMANN_CONSTANT / temperature) nondimensional_end_to_end_length_per_link)
  /\ (forall (end_to_end_length : T) (temperature : T), O_morse_isometric_asymptotic_legendre.helmholtz_free_energy o end_to_end_length temperature = morse_isometric_asymptotic_legendre.helmholtz_free_energy number_of_links link_length hinge_mass link_stiffness link_energy end_to_end_length temperature)
  /\ (forall (end_to_end_length : T) (temperature : T), O_morse_isometric_asymptotic_legendre.helmholtz_free_energy_per_link o end_to_end_length temperature = morse_isometric_asymptotic_legendre.helmholtz_free_energy_per_link number_of_links link_length hinge_mass link_stiffness link_energy end_to_end_length temperature)
  /\ (forall (end_to_end_length : T) (temperature : T), O_morse_isometric_asymptotic_legendre.relative_helmholtz_free_energy o end_to_end_length temperature = morse_isometric_asymptotic_legendre.relative_helmholtz_free_energy number_of_links link_length link_stiffness link_energy end_to_end_length temperature)
  /\ (forall (end_to_end_length : T) (temperature : T), O_morse_isometric_asymptotic_legendre.relative_helmholtz_free_energy_per_link o end_to_end_length temperature = morse_isometric_asymptotic_legendre.relative_helmholtz_free_energy_per_link number_of_links link_length link_stiffness link_energy end_to_end_length temperature)
  /\ (forall (nondimensional_end_to_end_length_per_link : T) (temperature : T), O_morse_isometric_asymptotic_legendre.nondimensional_helmholtz_free_energy o nondimensional_end_to_end_length_per_link temperature = morse_isometric_asymptotic_legendre.nondimensional_helmholtz_free_energy number_of_links link_length hinge_mass (link_stiffness * spowi link_length 2 / BOLTZMANN_CONSTANT / temperature) (link_energy / BOLTZMANN_CONSTANT / temperature) nondimensional_end_to_end_length_per_link temperature)
  /\ (forall (nondimensional_end_to_end_length_per_link : T) (temperature : T), O_morse_isometric_asymptotic_legendre.nondimensional_helmholtz_free_energy_per_link o nondimensional_end_to_end_length_per_link temperature = morse_isometric_asymptotic_legendre.nondimensional_helmholtz_free_energy_per_link number_of_links link_length hinge_mass (link_stiffness * spowi link_length 2 / BOLTZMANN_CONSTANT / temperature) (link_energy / BOLTZMANN_CONSTANT / temperature) nondimensional_end_to_end_length_per_link temperature)
  /\ (forall (nondimensional_end_to_end_length_per_link : T) (temperature : T), O_morse_isometric_asymptotic_legendre.nondimensional_relative_helmholtz_free_energy o nondimensional_end_to_end_length_per_link temperature = morse_isometric_asymptotic_legendre.nondimensional_relative_helmholtz_free_energy number_of_links (link_stiffness * spowi link_length 2 / BOLTZMANN_CONSTANT / temperature) (link_energy / BOLTZMANN_CONSTANT / temperature) nondimensional_end_to_end_length_per_link)
  /\ (forall (nondimensional_end_to_end_length_per_link : T) (temperature : T), O_morse_isometric_asymptotic_legendre.nondimensional_relative_helmholtz_free_energy_per_link o nondimensional_end_to_end_length_per_link temperature = morse_isometric_asymptotic_legendre.nondimensional_relative_helmholtz_free_energy_per_link (link_stiffness * spowi link_length 2 / BOLTZMANN_CONSTANT / temperature) (link_energy / BOLTZMANN_CONSTANT / temperature) nondimensional_end_to_end_length_per_link).
Proof. intros; repeat split. Qed.
Print Assumptions C15_morse_isometric_asymptotic_legendre.

Theorem C15_morse_isotensional : forall (T : Type) (Sc : Scalar T) (number_of_links : Z) (link_length : T) (hinge_mass : T) (link_stiffness : T) (link_energy : T),
  let o := O_morse_thermodynamics.isotensional (O_morse.thermodynamics (O_morse.init number_of_links link_length hinge_mass link_stiffness link_energy)) in
  O_morse_isotensional.hinge_mass o = hinge_mass
  /\ O_morse_isotensional.link_length o = link_length
  /\ O_morse_isotensional.number_of_links o = number_of_links
  /\ O_morse_isotensional.link_stiffness o = link_stiffness
  /\ O_morse_isotensional.link_energy o = link_energy
  /\ (forall (force : T) (temperature : T), O_morse_isotensional.end_to_end_length o force temperature = morse_isotensional.end_to_end_length number_of_links link_length link_stiffness link_energy force temperature)
  /\ (forall (force : T) (temperature : T), O_morse_isotensional.end_to_end_length_per_link o force temperature = morse_isotensional.end_to_end_length_per_link link_length link_stiffness link_energy force temperature)
  /\ (forall (nondimensional_force : T) (temperature : T), O_morse_isotensional.nondimensional_end_to_end_length o nondimensional_force temperature = morse_isotensional.nondimensional_end_to_end_length number_of_links (link_stiffness * spowi link_length 2 / BOLTZMANN_CONSTANT / temperature) (link_energy / BOLTZMANN_CONSTANT / temperature) nondimensional_force)
  /\ (forall (nondimensional_force : T) (temperature : T), O_morse_isotensional.nondimensional_end_to_end_length_per_link o nondimensional_force temperature = morse_isotensional.nondimensional_end_to_end_length_per_link (link_stiffness * spowi link_length 2 / BOLTZMANN_CONSTANT / temperature) (link_energy / BOLTZMANN_CONSTANT / temperature) nondimensional_force)
  /\ (forall (force : T) (temperature : T), O_morse_isotensional.gibbs_free_energy o force temperature = morse_isotensional.gibbs_free_energy number_of_links link_length hinge_mass link_stiffness link_energy force temperature)
  /\ (forall (force : T) (temperature : T), O_morse_isotensional.gibbs_free_energy_per_link o force temperature = morse_isotensional.gibbs_free_energy_per_link link_length hinge_mass link_stiffness link_energy force temperature)
  /\ (forall (force : T) (temperature : T), O_morse_isotensional.relative_gibbs_free_energy o force temperature = morse_isotensional.relative_gibbs_free_energy number_of_links link_length link_stiffness link_energy force temperature)
  /\ (forall (force : T) (temperature : T), O_morse_isotensional.relative_gibbs_free_energy_per_link o force temperature = morse_isotensional.relative_gibbs_free_energy_per_link link_length link_stiffness link_energy force temperature)
  /\ (forall (nondimensional_force : T) (temperature : T), O_morse_isotensional.nondimensional_gibbs_free_energy o nondimensional_force temperature = morse_isotensional.nondimensional_gibbs_free_energy number_of_links link_length hinge_mass (link_stiffness * spowi link_length 2 / BOLTZMANN_CONSTANT / temperature) (link_energy / BOLTZMANN_CONSTANT / temperature) nondimensional_force temperature)
  /\ (forall (nondimensional_force : T) (temperature : T), O_morse_isotensional.nondimensional_gibbs_free_energy_per_link o nondimensional_force temperature = morse_isotensional.nondimensional_gibbs_free_energy_per_link link_length hinge_mass (link_stiffness * spowi link_length 2 / BOLTZMANN_CONSTANT / temperature) (link_energy / BOLTZMANN_CONSTANT / temperature) nondimensional_force temperature)
  /\ (forall (nondimensional_force : T) (temperature : T), O_morse_isotensional.nondimensional_relative_gibbs_free_energy o nondimensional_force temperature = morse_isotensional.nondimensional_relative_gibbs_free_energy number_of_links (link_stiffness * spowi link_length 2 / BOLTZMANN_CONSTANT / temperature) (link_energy / BOLTZMANN_CONSTANT / temperature) nondimensional_force)
  /\ (forall (nondimensional_force : T) (temperature : T), O_morse_isotensional.nondimensional_relative_gibbs_free_energy_per_link o nondimensional_force temperature = morse_isotensional.nondimensional_relative_gibbs_free_energy_per_link (link_stiffness * spowi link_length 2 / BOLTZMANN_CONSTANT / temperature) (link_energy / BOLTZMANN_CONSTANT / temperature) nondimensional_force).
Proof. intros; repeat split. Qed.
Print Assumptions C15_morse_isotensional.

Theorem C15_morse_isotensional_asymptotic : forall (T : Type) (Sc : Scalar T) (number_of_links : Z) (link_length : T) (hinge_mass : T) (link_stiffness : T) (link_energy : T),
  let o := O_morse_isotensional.asymptotic (O_morse_thermodynamics.isotensional (O_morse.thermodynamics (O_morse.init number_of_links link_length hinge_mass link_stiffness link_energy))) in
  O_morse_isotensional_asymptotic.hinge_mass o = hinge_mass
  /\ O_morse_isotensional_asymptotic.link_length o = link_length
  /\ O_morse_isotensional_asymptotic.number_of_links o = number_of_links
  /\ O_morse_isotensional_asymptotic.link_stiffness o = link_stiffness
  /\ O_morse_isotensional_asymptotic.link_energy o = link_energy
  /\ (forall (force : T) (temperature : T), O_morse_isotensional_asymptotic.end_to_end_length o force temperature = morse_isotensional_asymptotic.end_to_end_length number_of_links link_length link_stiffness link_energy force temperature)
  /\ (forall (force : T) (temperature : T), O_morse_isotensional_asymptotic.end_to_end_length_per_link o force temperature = morse_isotensional_asymptotic.end_to_end_length_per_link link_length link_stiffness link_energy force temperature)
  /\ (forall (nondimensional_force : T) (temperature : T), O_morse_isotensional_asymptotic.nondimensional_end_to_end_length o nondimensional_force temperature = morse_isotensional_asymptotic.nondimensional_end_to_end_length number_of_links (link_stiffness * spowi link_length 2 / BOLTZMANN_CONSTANT / temperature) (link_energy / BOLTZMANN_CONSTANT / temperature) nondimensional_force)
  /\ (forall (nondimensional_force : T) (temperature : T), O_morse_isotensional_asymptotic.nondimensional_end_to_end_length_per_link o nondimensional_force temperature = morse_isotensional_asymptotic.nondimensional_end_to_end_length_per_link (link_stiffness * spowi link_length 2 / BOLTZMANN_CONSTANT / temperature) (link_energy / BOLTZMANN_CONSTANT / temperature) nondimensional_force)
  /\ (forall (force : T) (temperature : T), O_morse_isotensional_asymptotic.gibbs_free_energy o force temperature = morse_isotensional_asymptotic.gibbs_free_energy number_of_links link_length hinge_mass link_stiffness link_energy force temperature)
  /\ (forall (force : T) (temperature : T), O_morse_isotensional_asymptotic.gibbs_free_energy_per_link o force temperature = morse_isotensional_asymptotic.gibbs_free_energy_per_link link_length hinge_mass link_stiffness link_energy force temperature)
  /\ (forall (force : T) (temperature : T), O_morse_isotensional_asymptotic.relative_gibbs_free_energy o force temperature = morse_isotensional_asymptotic.relative_gibbs_free_energy number_of_links link_length link_stiffness link_energy force temperature)
  /\ (forall (force : T) (temperature : T), O_morse_isotensional_asymptotic.relative_gibbs_free_energy_per_link o force temperature = morse_isotensional_asymptotic.relative_gibbs_free_energy_per_link link_length link_stiffness link_energy force temperature)
  /\ (forall (nondimensional_force : T) (temperature : T), O_morse_isotensional_asymptotic.nondimensional_gibbs_free_energy o nondimensional_force temperature = morse_isotensional_asymptotic.nondimensional_gibbs_free_energy number_of_links link_length hinge_mass (link_stiffness * spowi link_length 2 / BOLTZMANN_CONSTANT / temperature) (link_energy / BOLTZMANN_CONSTANT / temperature) nondimensional_force temperature)
  /\ (forall (nondimensional_force : T) (temperature : T), O_morse_isotensional_asymptotic.nondimensional_gibbs_free_energy_per_link o nondimensional_force temperature = morse_isotensional_asymptotic.nondimensional_gibbs_free_energy_per_link link_length hinge_mass (link_stiffness * spowi link_length 2 / BOLTZMANN_CONSTANT / temperature) (link_energy / BOLTZMANN_CONSTANT / temperature) nondimensional_force temperature)
  /\ (forall (nondimensional_force : T) (temperature : T), O_morse_isotensional_asymptotic.nondimensional_relative_gibbs_free_energy o nondimensional_force temperature = morse_isotensional_asymptotic.nondimensional_relative_gibbs_free_energy number_of_links (link_stiffness * spowi link_length 2 / BOLTZMANN_CONSTANT / temperature) (link_energy / BOLTZMANN_CONSTANT / temperature) nondimensional_force)
  /\ (forall (nondimensional_force : T) (temperature : T), O_morse_isotensional_asymptotic.nondimensional_relative_gibbs_free_energy_per_link o nondimensional_force temperature = morse_isotensional_asymptotic.nondimensional_relative_gibbs_free_energy_per_link (link_stiffness * spowi link_length 2 / BOLTZMANN_CONSTANT / temperature) (link_energy / BOLTZMANN_CONSTANT / temperature) nondimensional_force).
Proof. intros; repeat split. Qed.
Print Assumptions C15_morse_isotensional_asymptotic.

Theorem C15_morse_isotensional_asymptotic_reduced : forall (T : Type) (Sc : Scalar T) (number_of_links : Z) (link_length : T) (hinge_mass : T) (link_stiffness : T) (link_energy : T),
  let o := O_morse_isotensional_asymptotic.reduced (O_morse_isotensional.asymptotic (O_morse_thermodynamics.isotensional (O_morse.thermodynamics (O_morse.init number_of_links link_length hinge_mass link_stiffness link_energy)))) in
  O_morse_isotensional_asymptotic_reduced.hinge_mass o = hinge_mass
  /\ O_morse_isotensional_asymptotic_reduced.link_length o = link_length
  /\ O_morse_isotensional_asymptotic_reduced.number_of_links o = number_of_links
  /\ O_morse_isotensional_asymptotic_reduced.link_stiffness o = link_stiffness
  /\ O_morse_isotensional_asymptotic_reduced.link_energy o = link_energy
  /\ (forall (force : T) (temperature : T), O_morse_isotensional_asymptotic_reduced.end_to_end_length o force temperature = morse_isotensional_asymptotic_reduced.end_to_end_length number_of_links link_length link_stiffness link_energy force temperature)
  /\ (forall (force : T) (temperature : T), O_morse_isotensional_asymptotic_reduced.end_to_end_length_per_link o force temperature = morse_isotensional_asymptotic_reduced.end_to_end_length_per_link link_length link_stiffness link_energy force temperature)
  /\ (forall (nondimensional_force : T) (temperature : T), O_morse_isotensional_asymptotic_reduced.nondimensional_end_to_end_length o nondimensional_force temperature = morse_isotensional_asymptotic_reduced.nondimensional_end_to_end_length number_of_links (link_stiffness * spowi link_length 2 / BOLTZMANN_CONSTANT / temperature) (link_energy / BOLTZMANN_CONSTANT / temperature) nondimensional_force)
  /\ (forall (nondimensional_force : T) (temperature : T), O_morse_isotensional_asymptotic_reduced.nondimensional_end_to_end_length_per_link o nondimensional_force temperature = morse_isotensional_asymptotic_reduced.nondimensional_end_to_end_length_per_link (link_stiffness * spowi link_length 2 / BOLTZMANN_CONSTANT / temperature) (link_energy / BOLTZMANN_CONSTANT / temperature) nondimensional_force)
  /\ (forall (force : T) (temperature : T), O_morse_isotensional_asymptotic_reduced.gibbs_free_energy o force temperature = morse_isotensional_asymptotic_reduced.gibbs_free_energy number_of_links link_length hinge_mass link_stiffness link_energy force temperature)
  /\ (forall (force : T) (temperature : T), O_morse_isotensional_asymptotic_reduced.gibbs_free_energy_per_link o force temperature = morse_isotensional_asymptotic_reduced.gibbs_free_energy_per_link link_length hinge_mass link_stiffness link_energy force temperature)
  /\ (forall (force : T) (temperature : T), O_morse_isotensional_asymptotic_reduced.relative_gibbs_free_energy o force temperature = morse_isotensional_asymptotic_reduced.relative_gibbs_free_energy number_of_links link_length link_stiffness link_energy force temperature)
  /\ (forall (force : T) (temperature : T), O_morse_isotensional_asymptotic_reduced.relative_gibbs_free_energy_per_link o force temperature = morse_isotensional_asymptotic_reduced.relative_gibbs_free_energy_per_link link_length link_stiffness link_energy force temperature)
  /\ (forall (nondimensional_force : T) (temperature : T), O_morse_isotensional_asymptotic_reduced.nondimensional_gibbs_free_energy o nondimensional_force temperature = morse_isotensional_asymptotic_reduced.nondimensional_gibbs_free_energy number_of_links link_length hinge_mass (link_stiffness * spowi link_length 2 / BOLTZMANN_CONSTANT / temperature) (link_energy / BOLTZMANN_CONSTANT / temperature) nondimensional_force temperature)
  /\ (forall (nondimensional_force : T) (temperature : T), O_morse_isotensional_asymptotic_reduced.nondimensional_gibbs_free_energy_per_link o nondimensional_force temperature = morse_isotensional_asymptotic_reduced.nondimensional_gibbs_free_energy_per_link link_length hinge_mass (link_stiffness * spowi link_length 2 / BOLTZMANN_CONSTANT / temperature) (link_energy / BOLTZMANN_CONSTANT / temperature) nondimensional_force temperature)
  /\ (forall (nondimensional_force : T) (temperature : T), O_morse_isotensional_asymptotic_reduced.nondimensional_relative_gibbs_free_energy o nondimensional_force temperature = morse_isotensional_asymptotic_reduced.nondimensional_relative_gibbs_free_energy number_of_links (link_stiffness * spowi link_length 2 / BOLTZMANN_CONSTANT / temperature) (link_energy / BOLTZMANN_CONSTANT / temperature) nondimensional_force)
  /\ (forall (nondimensional_force : T) (temperature : T), O_morse_isotensional_asymptotic_reduced.nondimensional_relative_gibbs_free_energy_per_link o nondimensional_force temperature = morse_isotensional_asymptotic_reduced.nondimensional_relative_gibbs_free_energy_per_link (link_stiffness * spowi link_length 2 / BOLTZMANN_CONSTANT / temperature) (link_energy / BOLTZMANN_CONSTANT / temperature) nondimensional_force).
Proof. intros; repeat split. Qed.
Print Assumptions C15_morse_isotensional_asymptotic_reduced.

Theorem C15_morse_isotensional_asymptotic_reduced_legendre : forall (T : Type) (Sc : Scalar T) (number_of_links : Z) (link_length : T) (hinge_mass : T) (link_stiffness : T) (link_energy : T),
  let o := O_morse_isotensional_asymptotic_reduced.legendre (O_morse_isotensional_asymptotic.reduced (O_morse_isotensional.asymptotic (O_morse_thermodynamics.isotensional (O_morse.thermodynamics (O_morse.init number_of_links link_length hinge_mass link_stiffness link_energy))))) in
  O_morse_isotensional_asymptotic_reduced_legendre.hinge_mass o = hinge_mass
  /\ O_morse_isotensional_asymptotic_reduced_legendre.link_length o = link_length
  /\ O_morse_isotensional_asymptotic_reduced_legendre.number_of_links o = number_of_links
  /\ O_morse_isotensional_asymptotic_reduced_legendre.link_stiffness o = link_stiffness
  /\ O_morse_isotensional_asymptotic_reduced_legendre.link_energy o = link_energy
  /\ (forall (force : T) (temperature : T), O_morse_isotensional_asymptotic_reduced_legendre.helmholtz_free_energy o force temperature = morse_isotensional_asymptotic_reduced_legendre.helmholtz_free_energy number_of_links link_length hinge_mass link_stiffness link_energy force temperature)
  /\ (forall (force : T) (temperature : T), O_morse_isotensional_asymptotic_reduced_legendre.helmholtz_free_energy_per_link o force temperature = morse_isotensional_asymptotic_reduced_legendre.helmholtz_free_energy_per_link link_length hinge_mass link_stiffness link_energy force temperature)
  /\ (forall (force : T) (temperature : T), O_morse_isotensional_asymptotic_reduced_legendre.relative_helmholtz_free_energy o force temperature = morse_isotensional_asymptotic_reduced_legendre.relative_helmholtz_free_energy number_of_links link_length link_stiffness link_energy force temperature)
  /\ (forall (force : T) (temperature : T), O_morse_isotensional_asymptotic_reduced_legendre.relative_helmholtz_free_energy_per_link o force temperature = morse_isotensional_asymptotic_reduced_legendre.relative_helmholtz_free_energy_per_link link_length link_stiffness link_energy force temperature)
  /\ (forall (nondimensional_force : T) (temperature : T), O_morse_isotensional_asymptotic_reduced_legendre.nondimensional_helmholtz_free_energy o nondimensional_force temperature = morse_isotensional_asymptotic_reduced_legendre.nondimensional_helmholtz_free_energy number_of_links link_length hinge_mass (link_stiffness * spowi link_length 2 / BOLTZMANN_CONSTANT / temperature) (link_energy / BOLTZMANN_CONSTANT / temperature) nondimensional_force temperature)
  /\ (forall (nondimensional_force : T) (temperature : T), O_morse_isotensional_asymptotic_reduced_legendre.nondimensional_helmholtz_free_energy_per_link o nondimensional_force temperature = morse_isotensional_asymptotic_reduced_legendre.nondimensional_helmholtz_free_energy_per_link link_length hinge_mass (link_stiffness * spowi link_length 2 / BOLTZMANN_CONSTANT / temperature) (link_energy / BOLTZMANN_CONSTANT / temperature) nondimensional_force temperature)
  /\ (forall (nondimensional_force : T) (temperature : T), O_morse_isotensional_asymptotic_reduced_legendre.nondimensional_relative_helmholtz_free_energy o nondimensional_force temperature = morse_isotensional_asymptotic_reduced_legendre.nondimensional_relative_helmholtz_free_energy number_of_links (link_stiffness * spowi link_length 2 / BOLTZMANN_CONSTANT / temperature) (link_energy / BOLTZMANN_CONSTANT / temperature) nondimensional_force)
  /\ (forall (nondimensional_force : T) (temperature : T), O_morse_isotensional_asymptotic_reduced_legendre.nondimensional_relative_helmholtz_free_energy_per_link o nondimensional_force temperature = morse_isotensional_asymptotic_reduced_legendre.nondimensional_relative_helmholtz_free_energy_per_link (link_stiffness * spowi link_length 2 / BOLTZMANN_CONSTANT / temperature) (link_energy / BOLTZMANN_CONSTANT / temperature) nondimensional_force).
Proof. intros; repeat split. Qed.
Print Assumptions C15_morse_isotensional_asymptotic_reduced_legendre.

Theorem C15_morse_isotensional_asymptotic_legendre : forall (T : Type) (Sc : Scalar T) (number_of_links : Z) (link_length : T) (hinge_mass : T) (link_stiffness : T) (link_energy : T),
  let o := O_morse_isotensional_asymptotic.legendre (O_morse_isotensional.asymptotic (O_morse_thermodynamics.isotensional (O_morse.thermodynamics (O_morse.init number_of_links link_length hinge_mass link_stiffness link_energy)))) in
  O_morse_isotensional_asymptotic_legendre.hinge_mass o = hinge_mass
  /\ O_morse_isotensional_asymptotic_legendre.link_length o = link_length
  /\ O_morse_isotensional_asymptotic_legendre.number_of_links o = number_of_links
  /\ O_morse_isotensional_asymptotic_legendre.link_stiffness o = link_stiffness
  /\ O_morse_isotensional_asymptotic_legendre.link_energy o = link_energy
  /\ (forall (force : T) (temperature : T), O_morse_isotensional_asymptotic_legendre.helmholtz_free_energy o force temperature = morse_isotensional_asymptotic_legendre.helmholtz_free_energy number_of_links link_length hinge_mass link_stiffness link_energy force temperature)
  /\ (forall (force : T) (temperature : T), O_morse_isotensional_asymptotic_legendre.helmholtz_free_energy_per_link o force temperature = morse_isotensional_asymptotic_legendre.helmholtz_free_energy_per_link link_length hinge_mass link_stiffness link_energy force temperature)
  /\ (forall (force : T) (temperature : T), O_morse_isotensional_asymptotic_legendre.relative_helmholtz_free_energy o force temperature = morse_isotensional_asymptotic_legendre.relative_helmholtz_free_energy number_of_links link_length link_stiffness link_energy force temperature)
  /\ (forall (force : T) (temperature : T), O_morse_isotensional_asymptotic_legendre.relative_helmholtz_free_energy_per_link o force temperature = morse_isotensional_asymptotic_legendre.relative_helmholtz_free_energy_per_link link_length link_stiffness link_energy force temperature)
  /\ (forall (nondimensional_force : T) (temperature : T), O_morse_isotensional_asymptotic_legendre.nondimensional_helmholtz_free_energy o nondimensional_force temperature = morse_isotensional_asymptotic_legendre.nondimensional_helmholtz_free_energy number_of_links link_length hinge_mass (link_stiffness * spowi link_length 2 / BOLTZMANN_CONSTANT / temperature) (link_energy / BOLTZMANN_CONSTANT / temperature) nondimensional_force temperature)
  /\ (forall (nondimensional_force : T) (temperature : T), O_morse_isotensional_asymptotic_legendre.nondimensional_helmholtz_free_energy_per_link o nondimensional_force temperature = morse_isotensional_asymptotic_legendre.nondimensional_helmholtz_free_energy_per_link link_length hinge_mass (link_stiffness * spowi link_length 2 / BOLTZMANN_CONSTANT / temperature) (link_energy / BOLTZMANN_CONSTANT / temperature) nondimensional_force temperature)
  /\ (forall (nondimensional_force : T) (temperature : T), O_morse_isotensional_asymptotic_legendre.nondimensional_relative_helmholtz_free_energy o nondimensional_force temperature = morse_isotensional_asymptotic_legendre.nondimensional_relative_helmholtz_free_energy number_of_links (link_stiffness * spowi link_length 2 / BOLTZMANN_CONSTANT / temperature) (link_energy / BOLTZMANN_CONSTANT / temperature) nondimensional_force)
  /\ (forall (nondimensional_force : T) (temperature : T), O_morse_isotensional_asymptotic_legendre.nondimensional_relative_helmholtz_free_energy_per_link o nondimensional_force temperature = morse_isotensional_asymptotic_legendre.nondimensional_relative_helmholtz_free_energy_per_link (link_stiffness * spowi link_length 2 / BOLTZMANN_CONSTANT / temperature) (link_energy / BOLTZMANN_CONSTANT / temperature) nondimensional_force).
Proof. intros; repeat split. Qed.
Print Assumptions C15_morse_isotensional_asymptotic_legendre.

Theorem C15_morse_isotensional_legendre : forall (T : Type) (Sc : Scalar T) (number_of_links : Z) (link_length : T) (hinge_mass : T) (link_stiffness : T) (link_energy : T),
  let o := O_morse_isotensional.legendre (O_morse_thermodynamics.isotensional (O_morse.thermodynamics (O_morse.init number_of_links link_length hinge_mass link_stiffness link_energy))) in
  O_morse_isotensional_legendre.hinge_mass o = hinge_mass
  /\ O_morse_isotensional_legendre.link_length o = link_length
  /\ O_morse_isotensional_legendre.number_of_links o = number_of_links
  /\ O_morse_isotensional_legendre.link_stiffness o = link_stiffness
  /\ O_morse_isotensional_legendre.link_energy o = link_energy
  /\ (forall (force : T) (temperature : T), O_morse_isotensional_legendre.helmholtz_free_energy o force temperature = morse_isotensional_legendre.helmholtz_free_energy number_of_links link_length hinge_mass link_stiffness link_energy force temperature)
  /\ (forall (force : T) (temperature : T), O_morse_isotensional_legendre.helmholtz_free_energy_per_link o force temperature = morse_isotensional_legendre.helmholtz_free_energy_per_link link_length hinge_mass link_stiffness link_energy force temperature)
  /\ (forall (force : T) (temperature : T), O_morse_isotensional_legendre.relative_helmholtz_free_energy o force temperature = morse_isotensional_legendre.relative_helmholtz_free_energy number_of_links link_length link_stiffness link_energy force temperature)
  /\ (forall (force : T) (temperature : T), O_morse_isotensional_legendre.relative_helmholtz_free_energy_per_link o force temperature = morse_isotensional_legendre.relative_helmholtz_free_energy_per_link link_length link_stiffness link_energy force temperature)
  /\ (forall (nondimensional_force : T) (temperature : T), O_morse_isotensional_legendre.nondimensional_helmholtz_free_energy o nondimensional_force temperature = morse_isotensional_legendre.nondimensional_helmholtz_free_energy number_of_links link_length hinge_mass (link_stiffness * spowi link_length 2 / BOLTZMANN_CONSTANT / temperature) (link_energy / BOLTZMANN_CONSTANT / temperature) nondimensional_force temperature)
  /\ (forall (nondimensional_force : T) (temperature : T), O_morse_isotensional_legendre.nondimensional_helmholtz_free_energy_per_link o nondimensional_force temperature = morse_isotensional_legendre.nondimensional_helmholtz_free_energy_per_link link_length hinge_mass (link_stiffness * spowi link_length 2 / BOLTZMANN_CONSTANT / temperature) (link_energy / BOLTZMANN_CONSTANT / temperature) nondimensional_force temperature)
  /\ (forall (nondimensional_force : T) (temperature : T), O_morse_isotensional_legendre.nondimensional_relative_helmholtz_free_energy o nondimensional_force temperature = morse_isotensional_legendre.nondimensional_relative_helmholtz_free_energy number_of_links (link_stiffness * spowi link_length 2 / BOLTZMANN_CONSTANT / temperature) (link_energy / BOLTZMANN_CONSTANT / temperature) nondimensional_force)
  /\ (forall (nondimensional_force : T) (temperature : T), O_morse_isotensional_legendre.nondimensional_relative_helmholtz_free_energy_per_link o nondimensional_force temperature = morse_isotensional_legendre.nondimensional_relative_helmholtz_free_energy_per_link (link_stiffness * spowi link_length 2 / BOLTZMANN_CONSTANT / temperature) (link_energy / BOLTZMANN_CONSTANT / temperature) nondimensional_force).
Proof. intros; repeat split. Qed.
Print Assumptions C15_morse_isotensional_legendre.

Theorem C15_lennard_jones : forall (T : Type) (Sc : Scalar T) (number_of_links : Z) (link_length : T) (hinge_mass : T) (link_stiffness : T),
  let o := O_lennard_jones.init number_of_links link_length hinge_mass link_stiffness in
  O_lennard_jones.hinge_mass o = hinge_mass
  /\ O_lennard_jones.link_length o = link_length
  /\ O_lennard_jones.number_of_links o = number_of_links
  /\ O_lennard_jones.link_stiffness o = link_stiffness.
Proof. intros; repeat split. Qed.
Print Assumptions C15_lennard_jones.

Theorem C15_lennard_jones_thermodynamics : forall (T : Type) (Sc : Scalar T) (number_of_links : Z) (link_length : T) (hinge_mass : T) (link_stiffness : T),
  let o := O_lennard_jones.thermodynamics (O_lennard_jones.init number_of_links link_length hinge_mass link_stiffness) in
  O_lennard_jones_thermodynamics.hinge_mass o = hinge_mass
  /\ O_lennard_jones_thermodynamics.link_length o = link_length
  /\ O_lennard_jones_thermodynamics.number_of_links o = number_of_links
  /\ O_lennard_jones_thermodynamics.link_stiffness o = link_stiffness.
Proof. intros; repeat split. Qed.
Print Assumptions C15_lennard_jones_thermodynamics.

Theorem C15_lennard_jones_isometric : forall (T : Type) (Sc : Scalar T) (number_of_links : Z) (link_length : T) (hinge_mass : T) (link_stiffness : T),
  let o := O_lennard_jones_thermodynamics.isometric (O_lennard_jones.thermodynamics (O_lennard_jones.init number_of_links link_length hinge_mass link_stiffness)) in
  O_lennard_jones_isometric.hinge_mass o = hinge_mass
  /\ O_lennard_jones_isometric.link_length o = link_length
  /\ O_lennard_jones_isometric.number_of_links o = number_of_links
  /\ O_lennard_jones_isometric.link_stiffness o = link_stiffness.
Proof. intros; repeat split. Qed.
Print Assumptions C15_lennard_jones_isometric.

Theorem C15_lennard_jones_isometric_asymptotic : forall (T : Type) (Sc : Scalar T) (number_of_links : Z) (link_length : T) (hinge_mass : T) (link_stiffness : T),
  let o := O_lennard_jones_isometric.asymptotic (O_lennard_jones_thermodynamics.isometric (O_lennard_jones.thermodynamics (O_lennard_jones.init number_of_links link_length hinge_mass link_stiffness))) in
  O_lennard_jones_isometric_asymptotic.hinge_mass o = hinge_mass
  /\ O_lennard_jones_isometric_asymptotic.link_length o = link_length
  /\ O_lennard_jones_isometric_asymptotic.number_of_links o = number_of_links
  /\ O_lennard_jones_isometric_asymptotic.link_stiffness o = link_stiffness.
Proof. intros; repeat split. Qed.
Print Assumptions C15_lennard_jones_isometric_asymptotic.

Theorem C15_lennard_jones_isometric_asymptotic_reduced : forall (T : Type) (Sc : Scalar T) (number_of_links : Z) (link_length : T) (hinge_mass : T) (link_stiffness : T),
  let o := O_lennard_jones_isometric_asymptotic.reduced (O_lennard_jones_isometric.asymptotic (O_lennard_jones_thermodynamics.isometric (O_lennard_jones.thermodynamics (O_lennard_jones.init number_of_links link_length hinge_mass link_stiffness)))) in
  O_lennard_jones_isometric_asymptotic_reduced.hinge_mass o = hinge_mass
  /\ O_lennard_jones_isometric_asymptotic_reduced.link_length o = link_length
  /\ O_lennard_jones_isometric_asymptotic_reduced.number_of_links o = number_of_links
  /\ O_lennard_jones_isometric_asymptotic_reduced.link_stiffness o = link_stiffness.
Proof. intros; repeat split. Qed.
Print Assumptions C15_lennard_jones_isometric_asymptotic_reduced.

Theorem C15_lennard_jones_isometric_asymptotic_reduced_legendre : forall (T : Type) (Sc : Scalar T) (number_of_links : Z) (link_length : T) (hinge_mass : T) (link_stiffness : T),
  let o := O_lennard_jones_isometric_asymptotic_reduced.legendre (O_lennard_jones_isometric_asymptotic.reduced (O_lennard_jones_isometric.asymptotic (O_lennard_jones_thermodynamics.isometric (O_lennard_jones.thermodynamics (O_lennard_jones.init number_of_links link_length hinge_mass link_stiffness))))) in
  O_lennard_jones_isometric_asymptotic_reduced_legendre.hinge_mass o = hinge_mass
  /\ O_lennard_jones_isometric_asymptotic_reduced_legendre.link_length o = link_length
  /\ O_lennard_jones_isometric_asymptotic_reduced_legendre.number_of_links o = number_of_links
  /\ O_lennard_jones_isometric_asymptotic_reduced_legendre.link_stiffness o = link_stiffness
  /\ (forall (end_to_end_length : T) (temperature : T), O_lennard_jones_isometric_asymptotic_reduced_legendre.force o end_to_end_length temperature = lennard_jones_isometric_asymptotic_reduced_legendre.force number_of_links link_length link_stiffness end_to_end_length temperature)
  /\ (forall (nondimensional_end_to_end_length_per_link : T) (temperature : T), O_lennard_jones_isometric_asymptotic_reduced_legendre.nondimensional_force o nondimensional_end_to_end_length_per_link temperature = lennard_jones_isometric_asymptotic_reduced_legendre.nondimensional_force (link_stiffness * spowi link_length 2 / BOLTZMANN_CONSTANT / temperature) nondimensional_end_to_end_length_per_link)
  /\ (forall (end_to_end_length : T) (temperature : T), O_lennard_jones_isometric_asymptotic_reduced_legendre.helmholtz_free_energy o end_to_end_length temperature = lennard_jones_isometric_asymptotic_reduced_legendre.helmholtz_free_energy number_of_links link_length hinge_mass link_stiffness end_to_end_length temperature)
  /\ (forall (end_to_end_length : T) (temperature : T), O_lennard_jones_isometric_asymptotic_reduced_legendre.helmholtz_free_energy_per_link o end_to_end_length temperature = lennard_jones_isometric_asymptotic_reduced_legendre.helmholtz_free_energy_per_link number_of_links link_length hinge_mass link_stiffness end_to_end_length temperature)
  /\ (forall (end_to_end_length : T) (temperature : T), O_lennard_jones_isometric_asymptotic_reduced_legendre.relative_helmholtz_free_energy o end_to_end_length temperature = lennard_jones_isometric_asymptotic_reduced_legendre.relative_helmholtz_free_energy number_of_links link_length link_stiffness end_to_end_length temperature)
  /\ (forall (end_to_end_length : T) (temperature : T), O_lennard_jones_isometric_asymptotic_reduced_legendre.relative_helmholtz_free_energy_per_link o end_to_end_length temperature = lennard_jones_isometric_asymptotic_reduced_legendre.relative_helmholtz_free_energy_per_link number_of_links link_length link_stiffness end_to_end_length temperature)
  /\ (forall (nondimensional_end_to_end_length_per_link : T) (temperature : T), O_lennard_jones_isometric_asymptotic_reduced_legendre.nondimensional_helmholtz_free_energy o nondimensional_end_to_end_length_per_link temperature = lennard_jones_isometric_asymptotic_reduced_legendre.nondimensional_helmholtz_free_energy number_of_links link_length hinge_mass (link_stiffness * spowi link_length 2 / BOLTZMANN_CONSTANT / temperature) nondimensional_end_to_end_length_per_link temperature)
  /\ (forall (nondimensional_end_to_end_length_per_link : T) (temperature : T), O_lennard_jones_isometric_asymptotic_reduced_legendre.nondimensional_helmholtz_free_energy_per_link o nondimensional_end_to_end_length_per_link temperature = lennard_jones_isometric_asymptotic_reduced_legendre.nondimensional_helmholtz_free_energy_per_link number_of_links link_length hinge_mass (link_stiffness * spowi link_length 2 / BOLTZMANN_CONSTANT / temperature) nondimensional_end_to_end_length_per_link temperature)
  /\ (forall (nondimensional_end_to_end_length_per_link : T) (temperature : T), O_lennard_jones_isometric_asymptotic_reduced_legendre.nondimensional_relative_helmholtz_free_energy o nondimensional_end_to_end_length_per_link temperature = lennard_jones_isometric_asymptotic_reduced_legendre.nondimensional_relative_helmholtz_free_energy number_of_links (link_stiffness * spowi link_length 2 / BOLTZMANN_CONSTANT / temperature) nondimensional_end_to_end_length_per_link)
  /\ (forall (nondimensional_end_to_end_length_per_link : T) (temperature : T), O_lennard_jones_isometric_asymptotic_reduced_legendre.nondimensional_relative_helmholtz_free_energy_per_link o nondimensional_end_to_end_length_per_link temperature = lennard_jones_isometric_asymptotic_reduced_legendre.nondimensional_relative_helmholtz_free_energy_per_link (link_stiffness * spowi link_length 2 / BOLTZMANN_CONSTANT / temperature) nondimensional_end_to_end_length_per_link).
Proof. intros; repeat split. Qed.
Print Assumptions C15_lennard_jones_isometric_asymptotic_reduced_legendre.

Theorem C15_lennard_jones_isometric_asymptotic_legendre : forall (T : Type) (Sc : Scalar T) (number_of_links : Z) (link_length : T) (hinge_mass : T) (link_stiffness : T),
  let o := O_lennard_jones_isometric_asymptotic.legendre (O_lennard_jones_isometric.asymptotic (O_lennard_jones_thermodynamics.isometric (O_lennard_jones.thermodynamics (O_lennard_jones.init number_of_links link_length hinge_mass link_stiffness)))) in
  O_lennard_jones_isometric_asymptotic_legendre.hinge_mass o = hinge_mass
  /\ O_lennard_jones_isometric_asymptotic_legendre.link_length o = link_length
  /\ O_lennard_jones_isometric_asymptotic_legendre.number_of_links o = number_of_links
  /\ O_lennard_jones_isometric_asymptotic_legendre.link_stiffness o = link_stiffness
  /\ (forall (end_to_end_length : T) (temperature : T), O_lennard_jones_isometric_asymptotic_legendre.force o end_to_end_length temperature = lennard_jones_isometric_asymptotic_legendre.force number_of_links link_length link_stiffness end_to_end_length temperature)
  /\ (forall (nondimensional_end_to_end_length_per_link : T) (temperature : T), O_lennard_jones_isometric_asymptotic_legendre.nondimensional_force o nondimensional_end_to_end_length_per_link temperature = lennard_jones_isometric_asymptotic_legendre.nondimensional_force (link_stiffness * spowi link_length 2 / BOLTZMANN_CONSTANT / temperature) nondimensional_end_to_end_length_per_link)
  /\ (forall (end_to_end_length : T) (temperature : T), O_lennard_jones_isometric_asymptotic_legendre.helmholtz_free_energy o end_to_end_length temperature = lennard_jones_isometric_asymptotic_legendre.helmholtz_free_energy number_of_links link_length hinge_mass link_stiffness end_to_end_length temperature)
  /\ (forall (end_to_end_length : T) (temperature : T), O_lennard_jones_isometric_asymptotic_legendre.helmholtz_free_energy_per_link o end_to_end_length temperature = lennard_jones_isometric_asymptotic_legendre.helmholtz_free_energy_per_link number_of_links link_length hinge_mass link_stiffness end_to_end_length temperature)
  /\ (forall (end_to_end_length : T) (temperature : T), O_lennard_jones_isometric_asymptotic_legendre.relative_helmholtz_free_energy o end_to_end_length temperature = lennard_jones_isometric_asymptotic_legendre.relative_helmholtz_free_energy number_of_links link_length link_stiffness end_to_end_length temperature)
  /\ (forall (end_to_end_length : T) (temperature : T), O_lennard_jones_isometric_asymptotic_legendre.relative_helmholtz_free_energy_per_link o end_to_end_length temperature = lennard_jones_isometric_asymptotic_legendre.relative_helmholtz_free_energy_per_link number_of_links link_length link_stiffness end_to_end_length temperature)
  /\ (forall (nondimensional_end_to_end_length_per_link : T) (temperature : T), O_lennard_jones_isometric_asymptotic_legendre.nondimensional_helmholtz_free_energy o nondimensional_end_to_end_length_per_link temperature = lennard_jones_isometric_asymptotic_legendre.nondimensional_helmholtz_free_energy number_of_links link_length hinge_mass (link_stiffness * spowi link_length 2 / BOLTZMANN_CONSTANT / temperature) nondimensional_end_to_end_length_per_link temperature)
  /\ (forall (nondimensional_end_to_end_length_per_link : T) (temperature : T), O_lennard_jones_isometric_asymptotic_legendre.nondimensional_helmholtz_free_energy_per_link o nondimensional_end_to_end_length_per_link temperature = lennard_jones_isometric_asymptotic_legendre.nondimensional_helmholtz_free_energy_per_link number_of_links link_length hinge_mass (link_stiffness * spowi link_length 2 / BOLTZMANN_CONSTANT / temperature) nondimensional_end_to_end_length_per_link temperature)
  /\ (forall (nondimensional_end_to_end_length_per_link : T) (temperature : T), O_lennard_jones_isometric_asymptotic_legendre.nondimensional_relative_helmholtz_free_energy o nondimensional_end_to_end_length_per_link temperature = lennard_jones_isometric_asymptotic_legendre.nondimensional_relative_helmholtz_free_energy number_of_links (link_stiffness * spowi link_length 2 / BOLTZMANN_CONSTANT / temperature) nondimensional_end_to_end_length_per_link)
  /\ (forall (nondimensional_end_to_end_length_per_link : T) (temperature : T), O_lennard_jones_isometric_asymptotic_legendre.nondimensional_relative_helmholtz_free_energy_per_link o nondimensional_end_to_end_length_per_link temperature = lennard_jones_isometric_asymptotic_legendre.nondimensional_relative_helmholtz_free_energy_per_link (link_stiffness * spowi link_length 2 / BOLTZMANN_CONSTANT / temperature) nondimensional_end_to_end_length_per_link).
Proof. intros; repeat split. Qed.
Print Assumptions C15_lennard_jones_isometric_asymptotic_legendre.

Theorem C15_lennard_jones_isotensional : forall (T : Type) (Sc : Scalar T) (number_of_links : Z) (link_length : T) (hinge_mass : T) (link_stiffness : T),
  let o := O_lennard_jones_thermodynamics.isotensional (O_lennard_jones.thermodynamics (O_lennard_jones.init number_of_links link_length hinge_mass link_stiffness)) in
  O_lennard_jones_isotensional.hinge_mass o = hinge_mass
  /\ O_lennard_jones_isotensional.link_length o = link_length
  /\ O_lennard_jones_isotensional.number_of_links o = number_of_links
  /\ O_lennard_jones_isotensional.link_stiffness o = link_stiffness
  /\ (forall (force : T) (temperature : T), O_lennard_jones_isotensional.end_to_end_length o force temperature = lennard_jones_isotensional.end_to_end_length number_of_links link_length link_stiffness force temperature)
  /\ (forall (force : T) (temperature : T), O_lennard_jones_isotensional.end_to_end_length_per_link o force temperature = lennard_jones_isotensional.end_to_end_length_per_link link_length link_stiffness force temperature)
  /\ (forall (nondimensional_force : T) (temperature : T), O_lennard_jones_isotensional.nondimensional_end_to_end_length o nondimensional_force temperature = lennard_jones_isotensional.nondimensional_end_to_end_length number_of_links (link_stiffness * spowi link_length 2 / BOLTZMANN_CONSTANT / temperature) nondimensional_force)
  /\ (forall (nondimensional_force : T) (temperature : T), O_lennard_jones_isotensional.nondimensional_end_to_end_length_per_link o nondimensional_force temperature = lennard_jones_isotensional.nondimensional_end_to_end_length_per_link (link_stiffness * spowi link_length 2 / BOLTZMANN_CONSTANT / temperature) nondimensional_force)
  /\ (forall (force : T) (temperature : T), O_lennard_jones_isotensional.gibbs_free_energy o force temperature = lennard_jones_isotensional.gibbs_free_energy number_of_links link_length hinge_mass link_stiffness force temperature)
  /\ (forall (force : T) (temperature : T), O_lennard_jones_isotensional.gibbs_free_energy_per_link o force temperature = lennard_jones_isotensional.gibbs_free_energy_per_link link_length hinge_mass link_stiffness force temperature)
  /\ (forall (force : T) (temperature : T), O_lennard_jones_isotensional.relative_gibbs_free_energy o force temperature = lennard_jones_isotensional.relative_gibbs_free_energy number_of_links link_length link_stiffness force temperature)
  /\ (forall (force : T) (temperature : T), O_lennard_jones_isotensional.relative_gibbs_free_energy_per_link o force temperature = lennard_jones_isotensional.relative_gibbs_free_energy_per_link link_length link_stiffness force temperature)
  /\ (forall (nondimensional_force : T) (temperature : T), O_lennard_jones_isotensional.nondimensional_gibbs_free_energy o nondimensional_force temperature = lennard_jones_isotensional.nondimensional_gibbs_free_energy number_of_links link_length hinge_mass (link_stiffness * spowi link_length 2 / BOLTZMANN_CONSTANT / temperature) nondimensional_force temperature)
  /\ (forall (nondimensional_force : T) (temperature : T), O_lennard_jones_isotensional.nondimensional_gibbs_free_energy_per_link o nondimensional_force temperature = lennard_jones_isotensional.nondimensional_gibbs_free_energy_per_link link_length hinge_mass (link_stiffness * spowi link_length 2 / BOLTZMANN_CONSTANT / temperature) nondimensional_force temperature)
  /\ (forall (nondimensional_force : T) (temperature : T), O_lennard_jones_isotensional.nondimensional_relative_gibbs_free_energy o nondimensional_force temperature = lennard_jones_isotensional.nondimensional_relative_gibbs_free_energy number_of_links (link_stiffness * spowi link_length 2 / BOLTZMANN_CONSTANT / temperature) nondimensional_force)
  /\ (forall (nondimensional_force : T) (temperature : T), O_lennard_jones_isotensional.nondimensional_relative_gibbs_free_energy_per_link o nondimensional_force temperature = lennard_jones_isotensional.nondimensional_relative_gibbs_free_energy_per_link (link_stiffness * spowi link_length 2 / BOLTZMANN_CONSTANT / temperature) nondimensional_force).
Proof. intros; repeat split. Qed.
Print Assumptions C15_lennard_jones_isotensional.

Theorem C15_lennard_jones_isotensional_asymptotic : forall (T : Type) (Sc : Scalar T) (number_of_links : Z) (link_length : T) (hinge_mass : T) (link_stiffness : T),
  let o := O_lennard_jones_isotensional.asymptotic (O_lennard_jones_thermodynamics.isotensional (O_lennard_jones.thermodynamics (O_lennard_jones.init number_of_links link_length hinge_mass link_stiffness))) in
  O_lennard_jones_isotensional_asymptotic.hinge_mass o = hinge_mass
  /\ O_lennard_jones_isotensional_asymptotic.link_length o = link_length
  /\ O_lennard_jones_isotensional_asymptotic.number_of_links o = number_of_links
  /\ O_lennard_jones_isotensional_asymptotic.link_stiffness o = link_stiffness
  /\ (forall (force : T) (temperature : T), O_lennard_jones_isotensional_asymptotic.end_to_end_length o force temperature = lennard_jones_isotensional_asymptotic.end_to_end_length number_of_links link_length link_stiffness force temperature)
  /\ (forall (force : T) (temperature : T), O_lennard_jones_isotensional_asymptotic.end_to_end_length_per_link o force temperature = lennard_jones_isotensional_asymptotic.end_to_end_length_per_link link_length link_stiffness force temperature)
  /\ (forall (nondimensional_force : T) (temperature : T), O_lennard_jones_isotensional_asymptotic.nondimensional_end_to_end_length o nondimensional_force temperature = lennard_jones_isotensional_asymptotic.nondimensional_end_to_end_length number_of_links (link_stiffness * spowi link_length 2 / BOLTZMANN_CONSTANT / temperature) nondimensional_force)
  /\ (forall (nondimensional_force : T) (temperature : T), O_lennard_jones_isotensional_asymptotic.nondimensional_end_to_end_length_per_link o nondimensional_force temperature = lennard_jones_isotensional_asymptotic.nondimensional_end_to_end_length_per_link (link_stiffness * spowi link_length 2 / BOLTZMANN_CONSTANT / temperature) nondimensional_force)
  /\ (forall (force : T) (temperature : T), O_lennard_jones_isotensional_asymptotic.gibbs_free_energy o force temperature = lennard_jones_isotensional_asymptotic.gibbs_free_energy number_of_links link_length hinge_mass link_stiffness force temperature)
  /\ (forall (force : T) (temperature : T), O_lennard_jones_isotensional_asymptotic.gibbs_free_energy_per_link o force temperature = lennard_jones_isotensional_asymptotic.gibbs_free_energy_per_link link_length hinge_mass link_stiffness force temperature)
  /\ (forall (force : T) (temperature : T), O_lennard_jones_isotensional_asymptotic.relative_gibbs_free_energy o force temperature = lennard_jones_isotensional_asymptotic.relative_gibbs_free_energy number_of_links link_length link_stiffness force temperature)
  /\ (forall (force : T) (temperature : T), O_lennard_jones_isotensional_asymptotic.relative_gibbs_free_energy_per_link o force temperature = lennard_jones_isotensional_asymptotic.relative_gibbs_free_energy_per_link link_length link_stiffness force temperature)
  /\ (forall (nondimensional_force : T) (temperature : T), O_lennard_jones_isotensional_asymptotic.nondimensional_gibbs_free_energy o nondimensional_force temperature = lennard_jones_isotensional_asymptotic.nondimensional_gibbs_free_energy number_of_links link_length hinge_mass (link_stiffness * spowi link_length 2 / BOLTZMANN_CONSTANT / temperature) nondimensional_force temperature)
  /\ (forall (nondimensional_force : T) (temperature : T), O_lennard_jones_isotensional_asymptotic.nondimensional_gibbs_free_energy_per_link o nondimensional_force temperature = lennard_jones_isotensional_asymptotic.nondimensional_gibbs_free_energy_per_link link_length hinge_mass (link_stiffness * spowi link_length 2 / BOLTZMANN_CONSTANT / temperature) nondimensional_force temperature)
  /\ (forall (nondimensional_force : T) (temperature : T), O_lennard_jones_isotensional_asymptotic.nondimensional_relative_gibbs_free_energy o nondimensional_force temperature = lennard_jones_isotensional_asymptotic.nondimensional_relative_gibbs_free_energy number_of_links (link_stiffness * spowi link_length 2 / BOLTZMANN_CONSTANT / temperature) nondimensional_force)
  /\ (forall (nondimensional_force : T) (temperature : T), O_lennard_jones_isotensional_asymptotic.nondimensional_relative_gibbs_free_energy_per_link o nondimensional_force temperature = lennard_jones_isotensional_asymptotic.nondimensional_relative_gibbs_free_energy_per_link (link_stiffness * spowi link_length 2 / BOLTZMANN_CONSTANT / temperature) nondimensional_force).
Proof. intros; repeat split. Qed.
Print Assumptions C15_lennard_jones_isotensional_asymptotic.

Theorem C15_lennard_jones_isotensional_asymptotic_reduced : forall (T : Type) (Sc : Scalar T) (number_of_links : Z) (link_length : T) (hinge_mass : T) (link_stiffness : T),
  let o := O_lennard_jones_isotensional_asymptotic.reduced (O_lennard_jones_isotensional.asymptotic (O_lennard_jones_thermodynamics.isotensional (O_lennard_jones.thermodynamics (O_lennard_jones.init number_of_links link_length hinge_mass link_stiffness)))) in
  O_lennard_jones_isotensional_asymptotic_reduced.hinge_mass o = hinge_mass
  /\ O_lennard_jones_isotensional_asymptotic_reduced.link_length o = link_length
  /\ O_lennard_jones_isotensional_asymptotic_reduced.number_of_links o = number_of_links
  /\ O_lennard_jones_isotensional_asymptotic_reduced.link_stiffness o = link_stiffness
  /\ (forall (force : T) (temperature : T), O_lennard_jones_isotensional_asymptotic_reduced.end_to_end_length o force temperature = lennard_jones_isotensional_asymptotic_reduced.end_to_end_length number_of_links link_length link_stiffness force temperature)
  /\ (forall (force : T) (temperature : T), O_lennard_jones_isotensional_asymptotic_reduced.end_to_end_length_per_link o force temperature = lennard_jones_isotensional_asymptotic_reduced.end_to_end_length_per_link link_length link_stiffness force temperature)
  /\ (forall (nondimensional_force : T) (temperature : T), O_lennard_jones_isotensional_asymptotic_reduced.nondimensional_end_to_end_length o nondimensional_force temperature = lennard_jones_isotensional_asymptotic_reduced.nondimensional_end_to_end_length number_of_links (link_stiffness * spowi link_length 2 / BOLTZMANN_CONSTANT / temperature) nondimensional_force)
  /\ (forall (nondimensional_force : T) (temperature : T), O_lennard_jones_isotensional_asymptotic_reduced.nondimensional_end_to_end_length_per_link o nondimensional_force temperature = lennard_jones_isotensional_asymptotic_reduced.nondimensional_end_to_end_length_per_link (link_stiffness * spowi link_length 2 / BOLTZMANN_CONSTANT / temperature) nondimensional_force)
  /\ (forall (force : T) (temperature : T), O_lennard_jones_isotensional_asymptotic_reduced.gibbs_free_energy o force temperature = lennard_jones_isotensional_asymptotic_reduced.gibbs_free_energy number_of_links link_length hinge_mass link_stiffness force temperature)
  /\ (forall (force : T) (temperature : T), O_lennard_jones_isotensional_asymptotic_reduced.gibbs_free_energy_per_link o force temperature = lennard_jones_isotensional_asymptotic_reduced.gibbs_free_energy_per_link link_length hinge_mass link_stiffness force temperature)
  /\ (forall (force : T) (temperature : T), O_lennard_jones_isotensional_asymptotic_reduced.relative_gibbs_free_energy o force temperature = lennard_jones_isotensional_asymptotic_reduced.relative_gibbs_free_energy number_of_links link_length link_stiffness force temperature)
  /\ (forall (force : T) (temperature : T), O_lennard_jones_isotensional_asymptotic_reduced.relative_gibbs_free_energy_per_link o force temperature = lennard_jones_isotensional_asymptotic_reduced.relative_gibbs_free_energy_per_link link_length link_stiffness force temperature)
  /\ (forall (nondimensional_force : T) (temperature : T), O_lennard_jones_isotensional_asymptotic_reduced.nondimensional_gibbs_free_energy o nondimensional_force temperature = lennard_jones_isotensional_asymptotic_reduced.nondimensional_gibbs_free_energy number_of_links link_length hinge_mass (link_stiffness * spowi link_length 2 / BOLTZMANN_CONSTANT / temperature) nondimensional_force temperature)
  /\ (forall (nondimensional_force : T) (temperature : T), O_lennard_jones_isotensional_asymptotic_reduced.nondimensional_gibbs_free_energy_per_link o nondimensional_force temperature = lennard_jones_isotensional_asymptotic_reduced.nondimensional_gibbs_free_energy_per_link link_length hinge_mass (link_stiffness * spowi link_length 2 / BOLTZMANN_CONSTANT / temperature) nondimensional_force temperature)
  /\ (forall (nondimensional_force : T) (temperature : T), O_lennard_jones_isotensional_asymptotic_reduced.nondimensional_relative_gibbs_free_energy o nondimensional_force temperature = lennard_jones_isotensional_asymptotic_reduced.nondimensional_relative_gibbs_free_energy number_of_links (link_stiffness * spowi link_length 2 / BOLTZMANN_CONSTANT / temperature) nondimensional_force)
  /\ (forall (nondimensional_force : T) (temperature : T), O_lennard_jones_isotensional_asymptotic_reduced.nondimensional_relative_gibbs_free_energy_per_link o nondimensional_force temperature = lennard_jones_isotensional_asymptotic_reduced.nondimensional_relative_gibbs_free_energy_per_link (link_stiffness * spowi link_length 2 / BOLTZMANN_CONSTANT / temperature) nondimensional_force).
Proof. intros; repeat split. Qed.
Print Assumptions C15_lennard_jones_isotensional_asymptotic_reduced.

Theorem C15_lennard_jones_isotensional_asymptotic_reduced_legendre : forall (T : Type) (Sc : Scalar T) (number_of_links : Z) (link_length : T) (hinge_mass : T) (link_stiffness : T),
  let o := O_lennard_jones_isotensional_asymptotic_reduced.legendre (O_lennard_jones_isotensional_asymptotic.reduced (O_lennard_jones_isotensional.asymptotic (O_lennard_jones_thermodynamics.isotensional (O_lennard_jones.thermodynamics (O_lennard_jones.init number_of_links link_length hinge_mass link_stiffness))))) in
  O_lennard_jones_isotensional_asymptotic_reduced_legendre.hinge_mass o = hinge_mass
  /\ O_lennard_jones_isotensional_asymptotic_reduced_legendre.link_length o = link_length
  /\ O_lennard_jones_isotensional_asymptotic_reduced_legendre.number_of_links o = number_of_links
  /\ O_lennard_jones_isotensional_asymptotic_reduced_legendre.link_stiffness o = link_stiffness
  /\ (forall (force : T) (temperature : T), O_lennard_jones_isotensional_asymptotic_reduced_legendre.helmholtz_free_energy o force temperature = lennard_jones_isotensional_asymptotic_reduced_legendre.helmholtz_free_energy number_of_links link_length hinge_mass link_stiffness force temperature)
  /\ (forall (force : T) (temperature : T), O_lennard_jones_isotensional_asymptotic_reduced_legendre.helmholtz_free_energy_per_link o force temperature = lennard_jones_isotensional_asymptotic_reduced_legendre.helmholtz_free_energy_per_link link_length hinge_mass link_stiffness force temperature)
  /\ (forall (force : T) (temperature : T), O_lennard_jones_isotensional_asymptotic_reduced_legendre.relative_helmholtz_free_energy o force temperature = lennard_jones_isotensional_asymptotic_reduced_legendre.relative_helmholtz_free_energy number_of_links link_length link_stiffness force temperature)
  /\ (forall (force : T) (temperature : T), O_lennard_jones_isotensional_asymptotic_reduced_legendre.relative_helmholtz_free_energy_per_link o force temperature = lennard_jones_isotensional_asymptotic_reduced_legendre.relative_helmholtz_free_energy_per_link link_length link_stiffness force temperature)
  /\ (forall (nondimensional_force : T) (temperature : T), O_lennard_jones_isotensional_asymptotic_reduced_legendre.nondimensional_helmholtz_free_energy o nondimensional_force temperature = lennard_jones_isotensional_asymptotic_reduced_legendre.nondimensional_helmholtz_free_energy number_of_links link_length hinge_mass (link_stiffness * spowi link_length 2 / BOLTZMANN_CONSTANT / temperature) nondimensional_force temperature)
  /\ (forall (nondimensional_force : T) (temperature : T), O_lennard_jones_isotensional_asymptotic_reduced_legendre.nondimensional_helmholtz_free_energy_per_link o nondimensional_force temperature = lennard_jones_isotensional_asymptotic_reduced_legendre.nondimensional_helmholtz_free_energy_per_link link_length hinge_mass (link_stiffness * spowi link_length 2 / BOLTZMANN_CONSTANT / temperature) nondimensional_force temperature)
  /\ (forall (nondimensional_force : T) (temperature : T), O_lennard_jones_isotensional_asymptotic_reduced_legendre.nondimensional_relative_helmholtz_free_energy o nondimensional_force temperature = lennard_jones_isotensional_asymptotic_reduced_legendre.nondimensional_relative_helmholtz_free_energy number_of_links (link_stiffness * spowi link_length 2 / BOLTZMANN_CONSTANT / temperature) nondimensional_force)
  /\ (forall (nondimensional_force : T) (temperature : T), O_lennard_jones_isotensional_asymptotic_reduced_legendre.nondimensional_relative_helmholtz_free_energy_per_link o nondimensional_force temperature = lennard_jones_isotensional_asymptotic_reduced_legendre.nondimensional_relative_helmholtz_free_energy_per_link (link_stiffness * spowi link_length 2 / BOLTZMANN_CONSTANT / temperature) nondimensional_force).
Proof. intros; repeat split. Qed.
Print Assumptions C15_lennard_jones_isotensional_asymptotic_reduced_legendre.

Theorem C15_lennard_jones_isotensional_asymptotic_legendre : forall (T : Type) (Sc : Scalar T) (number_of_links : Z) (link_length : T) (hinge_mass : T) (link_stiffness : T),
  let o := O_lennard_jones_isotensional_asymptotic.legendre (O_lennard_jones_isotensional.asymptotic (O_lennard_jones_thermodynamics.isotensional (O_lennard_jones.thermodynamics (O_lennard_jones.init number_of_links link_length hinge_mass link_stiffness)))) in
  O_lennard_jones_isotensional_asymptotic_legendre.hinge_mass o = hinge_mass
  /\ O_lennard_jones_isotensional_asymptotic_legendre.link_length o = link_length
  /\ O_lennard_jones_isotensional_asymptotic_legendre.number_of_links o = number_of_links
  /\ O_lennard_jones_isotensional_asymptotic_legendre.link_stiffness o = link_stiffness
  /\ (forall (force : T) (temperature : T), O_lennard_jones_isotensional_asymptotic_legendre.helmholtz_free_energy o force temperature = lennard_jones_isotensional_asymptotic_legendre.helmholtz_free_energy number_of_links link_length hinge_mass link_stiffness force temperature)
  /\ (forall (force : T) (temperature : T), O_lennard_jones_isotensional_asymptotic_legendre.helmholtz_free_energy_per_link o force temperature = lennard_jones_isotensional_asymptotic_legendre.helmholtz_free_energy_per_link link_length hinge_mass link_stiffness force temperature)
  /\ (forall (force : T) (temperature : T), O_lennard_jones_isotensional_asymptotic_legendre.relative_helmholtz_free_energy o force temperature = lennard_jones_isotensional_asymptotic_legendre.relative_helmholtz_free_energy number_of_links link_length link_stiffness force temperature)
  /\ (forall (force : T) (temperature : T), O_lennard_jones_isotensional_asymptotic_legendre.relative_helmholtz_free_energy_per_link o force temperature = lennard_jones_isotensional_asymptotic_legendre.relative_helmholtz_free_energy_per_link link_length link_stiffness force temperature)
  /\ (forall (nondimensional_force : T) (temperature : T), O_lennard_jones_isotensional_asymptotic_legendre.nondimensional_helmholtz_free_energy o nondimensional_force temperature = lennard_jones_isotensional_asymptotic_legendre.nondimensional_helmholtz_free_energy number_of_links link_length hinge_mass (link_stiffness * spowi link_length 2 / BOLTZMANN_CONSTANT / temperature) nondimensional_force temperature)
  /\ (forall (nondimensional_force : T) (temperature : T), O_lennard_jones_isotensional_asymptotic_legendre.nondimensional_helmholtz_free_energy_per_link o nondimensional_force temperature = lennard_jones_isotensional_asymptotic_legendre.nondimensional_helmholtz_free_energy_per_link link_length hinge_mass (link_stiffness * spowi link_length 2 / BOLTZMANN_CONSTANT / temperature) nondimensional_force temperature)
  /\ (forall (nondimensional_force : T) (temperature : T), O_lennard_jones_isotensional_asymptotic_legendre.nondimensional_relative_helmholtz_free_energy o nondimensional_force temperature = lennard_jones_isotensional_asymptotic_legendre.nondimensional_relative_helmholtz_free_energy number_of_links (link_stiffness * spowi link_length 2 / BOLTZMANN_CONSTANT / temperature) nondimensional_force)
  /\ (forall (nondimensional_force : T) (temperature : T), O_lennard_jones_isotensional_asymptotic_legendre.nondimensional_relative_helmholtz_free_energy_per_link o nondimensional_force temperature = lennard_jones_isotensional_asymptotic_legendre.nondimensional_relative_helmholtz_free_energy_per_link (link_stiffness * spowi link_length 2 / BOLTZMANN_CONSTANT / temperature) nondimensional_force).
Proof. intros; repeat split. Qed.
Print Assumptions C15_lennard_jones_isotensional_asymptotic_legendre.

Theorem C15_lennard_jones_isotensional_legendre : forall (T : Type) (Sc : Scalar T) (number_of_links : Z) (link_length : T) (hinge_mass : T) (link_stiffness : T),
  let o := O_lennard_jones_isotensional.legendre (O_lennard_jones_thermodynamics.isotensional (O_lennard_jones.thermodynamics (O_lennard_jones.init number_of_links link_length hinge_mass link_stiffness))) in
  O_lennard_jones_isotensional_legendre.hinge_mass o = hinge_mass
  /\ O_lennard_jones_isotensional_legendre.link_length o = link_length
  /\ O_lennard_jones_isotensional_legendre.number_of_links o = number_of_links
  /\ O_lennard_jones_isotensional_legendre.link_stiffness o = link_stiffness
  /\ (forall (force : T) (temperature : T), O_lennard_jones_isotensional_legendre.helmholtz_free_energy o force temperature = lennard_jones_isotensional_legendre.helmholtz_free_energy number_of_links link_length hinge_mass link_stiffness force temperature)
  /\ (forall (force : T) (temperature : T), O_lennard_jones_isotensional_legendre.helmholtz_free_energy_per_link o force temperature = lennard_jones_isotensional_legendre.helmholtz_free_energy_per_link link_length hinge_mass link_stiffness force temperature)
  /\ (forall (force : T) (temperature : T), O_lennard_jones_isotensional_legendre.relative_helmholtz_free_energy o force temperature = lennard_jones_isotensional_legendre.relative_helmholtz_free_energy number_of_links link_length link_stiffness force temperature)
  /\ (forall (force : T) (temperature : T), O_lennard_jones_isotensional_legendre.relative_helmholtz_free_energy_per_link o force temperature = lennard_jones_isotensional_legendre.relative_helmholtz_free_energy_per_link link_length link_stiffness force temperature)
  /\ (forall (nondimensional_force : T) (temperature : T), O_lennard_jones_isotensional_legendre.nondimensional_helmholtz_free_energy o nondimensional_force temperature = lennard_jones_isotensional_legendre.nondimensional_helmholtz_free_energy number_of_links link_length hinge_mass (link_stiffness * spowi link_length 2 / BOLTZMANN_CONSTANT / temperature) nondimensional_force temperature)
  /\ (forall (nondimensional_force : T) (temperature : T), O_lennard_jones_isotensional_legendre.nondimensional_helmholtz_free_energy_per_link o nondimensional_force temperature = lennard_jones_isotensional_legendre.nondimensional_helmholtz_free_energy_per_link link_length hinge_mass (link_stiffness * spowi link_length 2 / BOLTZMANN_CONSTANT / temperature) nondimensional_force temperature)
  /\ (forall (nondimensional_force : T) (temperature : T), O_lennard_jones_isotensional_legendre.nondimensional_relative_helmholtz_free_energy o nondimensional_force temperature = lennard_jones_isotensional_legendre.nondimensional_relative_helmholtz_free_energy number_of_links (link_stiffness * spowi link_length 2 / BOLTZMANN_CONSTANT / temperature) nondimensional_force)
  /\ (forall (nondimensional_force : T) (temperature : T), O_lennard_jones_isotensional_legendre.nondimensional_relative_helmholtz_free_energy_per_link o nondimensional_force temperature = lennard_jones_isotensional_legendre.nondimensional_relative_helmholtz_free_energy_per_link (link_stiffness * spowi link_length 2 / BOLTZMANN_CONSTANT / temperature) nondimensional_force).
Proof. intros; repeat split. Qed.
Print Assumptions C15_lennard_jones_isotensional_legendre.

Theorem C15_log_squared : forall (T : Type) (Sc : Scalar T) (number_of_links : Z) (link_length : T) (hinge_mass : T) (link_stiffness : T),
  let o := O_log_squared.init number_of_links link_length hinge_mass link_stiffness in
  O_log_squared.hinge_mass o = hinge_mass
  /\ O_log_squared.link_length o = link_length
  /\ O_log_squared.number_of_links o = number_of_links
  /\ O_log_squared.link_stiffness o = link_stiffness.
Proof. intros; repeat split. Qed.
Print Assumptions C15_log_squared.

Theorem C15_log_squared_thermodynamics : forall (T : Type) (Sc : Scalar T) (number_of_links : Z) (link_length : T) (hinge_mass : T) (link_stiffness : T),
  let o := O_log_squared.thermodynamics (O_log_squared.init number_of_links link_length hinge_mass link_stiffness) in
  O_log_squared_thermodynamics.hinge_mass o = hinge_mass
  /\ O_log_squared_thermodynamics.link_length o = link_length
  /\ O_log_squared_thermodynamics.number_of_links o = number_of_links
  /\ O_log_squared_thermodynamics.link_stiffness o = link_stiffness.
Proof. intros; repeat split. Qed.
Print Assumptions C15_log_squared_thermodynamics.

Theorem C15_log_squared_isometric : forall (T : Type) (Sc : Scalar T) (number_of_links : Z) (link_length : T) (hinge_mass : T) (link_stiffness : T),
  let o := O_log_squared_thermodynamics.isometric (O_log_squared.thermodynamics (O_log_squared.init number_of_links link_length hinge_mass link_stiffness)) in
  O_log_squared_isometric.hinge_mass o = hinge_mass
  /\ O_log_squared_isometric.link_length o = link_length
  /\ O_log_squared_isometric.number_of_links o = number_of_links
  /\ O_log_squared_isometric.link_stiffness o = link_stiffness.
Proof. intros; repeat split. Qed.
Print Assumptions C15_log_squared_isometric.

Theorem C15_log_squared_isometric_asymptotic : forall (T : Type) (Sc : Scalar T) (number_of_links : Z) (link_length : T) (hinge_mass : T) (link_stiffness : T),
  let o := O_log_squared_isometric.asymptotic (O_log_squared_thermodynamics.isometric (O_log_squared.thermodynamics (O_log_squared.init number_of_links link_length hinge_mass link_stiffness))) in
  O_log_squared_isometric_asymptotic.hinge_mass o = hinge_mass
  /\ O_log_squared_isometric_asymptotic.link_length o = link_length
  /\ O_log_squared_isometric_asymptotic.number_of_links o = number_of_links
  /\ O_log_squared_isometric_asymptotic.link_stiffness o = link_stiffness.
Proof. intros; repeat split. Qed.
Print Assumptions C15_log_squared_isometric_asymptotic.

Theorem C15_log_squared_isometric_asymptotic_reduced : forall (T : Type) (Sc : Scalar T) (number_of_links : Z) (link_length : T) (hinge_mass : T) (link_stiffness : T),
  let o := O_log_squared_isometric_asymptotic.reduced (O_log_squared_isometric.asymptotic (O_log_squared_thermodynamics.isometric (O_log_squared.thermodynamics (O_log_squared.init number_of_links link_length hinge_mass link_stiffness)))) in
  O_log_squared_isometric_asymptotic_reduced.hinge_mass o = hinge_mass
  /\ O_log_squared_isometric_asymptotic_reduced.link_length o = link_length
  /\ O_log_squared_isometric_asymptotic_reduced.number_of_links o = number_of_links
  /\ O_log_squared_isometric_asymptotic_reduced.link_stiffness o = link_stiffness.
Proof. intros; repeat split. Qed.
Print Assumptions C15_log_squared_isometric_asymptotic_reduced.

Theorem C15_log_squared_isometric_asymptotic_reduced_legendre : forall (T : Type) (Sc : Scalar T) (number_of_links : Z) (link_length : T) (hinge_mass : T) (link_stiffness : T),
  let o := O_log_squared_isometric_asymptotic_reduced.legendre (O_log_squared_isometric_asymptotic.reduced (O_log_squared_isometric.asymptotic (O_log_squared_thermodynamics.isometric (O_log_squared.thermodynamics (O_log_squared.init number_of_links link_length hinge_mass link_stiffness))))) in
  O_log_squared_isometric_asymptotic_reduced_legendre.hinge_mass o = hinge_mass
  /\ O_log_squared_isometric_asymptotic_reduced_legendre.link_length o = link_length
  /\ O_log_squared_isometric_asymptotic_reduced_legendre.number_of_links o = number_of_links
  /\ O_log_squared_isometric_asymptotic_reduced_legendre.link_stiffness o = link_stiffness
  /\ (forall (end_to_end_length : T) (temperature : T), O_log_squared_isometric_asymptotic_reduced_legendre.force o end_to_end_length temperature = log_squared_isometric_asymptotic_reduced_legendre.force number_of_links link_length link_stiffness end_to_end_length temperature)
  /\ (forall (nondimensional_end_to_end_length_per_link : T) (temperature : T), O_log_squared_isometric_asymptotic_reduced_legendre.nondimensional_force o nondimensional_end_to_end_length_per_link temperature = log_squared_isometric_asymptotic_reduced_legendre.nondimensional_force (link_stiffness * spowi link_length 2 / BOLTZMANN_CONSTANT / temperature) nondimensional_end_to_end_length_per_link)
  /\ (forall (end_to_end_length : T) (temperature : T), O_log_squared_isometric_asymptotic_reduced_legendre.helmholtz_free_energy o end_to_end_length temperature = log_squared_isometric_asymptotic_reduced_legendre.helmholtz_free_energy number_of_links link_length hinge_mass link_stiffness end_to_end_length temperature)
  /\ (forall (end_to_end_length : T) (temperature : T), O_log_squared_isometric_asymptotic_reduced_legendre.helmholtz_free_energy_per_link o end_to_end_length temperature = log_squared_isometric_asymptotic_reduced_legendre.helmholtz_free_energy_per_link number_of_links link_length hinge_mass link_stiffness end_to_end_length temperature)
  /\ (forall (end_to_end_length : T) (temperature : T), O_log_squared_isometric_asymptotic_reduced_legendre.relative_helmholtz_free_energy o end_to_end_length temperature = log_squared_isometric_asymptotic_reduced_legendre.relative_helmholtz_free_energy number_of_links link_length link_stiffness end_to_end_length temperature)
  /\ (forall (end_to_end_length : T) (temperature : T), O_log_squared_isometric_asymptotic_reduced_legendre.relative_helmholtz_free_energy_per_link o end_to_end_length temperature = log_squared_isometric_asymptotic_reduced_legendre.relative_helmholtz_free_energy_per_link number_of_links link_length link_stiffness end_to_end_length temperature)
  /\ (forall (nondimensional_end_to_end_length_per_link : T) (temperature : T), O_log_squared_isometric_asymptotic_reduced_legendre.nondimensional_helmholtz_free_energy o nondimensional_end_to_end_length_per_link temperature = log_squared_isometric_asymptotic_reduced_legendre.nondimensional_helmholtz_free_energy number_of_links link_length hinge_mass (link_stiffness * spowi link_length 2 / BOLTZMANN_CONSTANT / temperature) nondimensional_end_to_end_length_per_link temperature)
  /\ (forall (nondimensional_end_to_end_length_per_link : T) (temperature : T), O_log_squared_isometric_asymptotic_reduced_legendre.nondimensional_helmholtz_free_energy_per_link o nondimensional_end_to_end_length_per_link temperature = log_squared_isometric_asymptotic_reduced_legendre.nondimensional_helmholtz_free_energy_per_link number_of_links link_length hinge_mass (link_stiffness * spowi link_length 2 / BOLTZMANN_CONSTANT / temperature) nondimensional_end_to_end_length_per_link temperature)
  /\ (forall (nondimensional_end_to_end_length_per_link : T) (temperature : T), O_log_squared_isometric_asymptotic_reduced_legendre.nondimensional_relative_helmholtz_free_energy o nondimensional_end_to_end_length_per_link temperature = log_squared_isometric_asymptotic_reduced_legendre.nondimensional_relative_helmholtz_free_energy number_of_links (link_stiffness * spowi link_length 2 / BOLTZMANN_CONSTANT / temperature) nondimensional_end_to_end_length_per_link)
  /\ (forall (nondimensional_end_to_end_length_per_link : T) (temperature : T), O_log_squared_isometric_asymptotic_reduced_legendre.nondimensional_relative_helmholtz_free_energy_per_link o nondimensional_end_to_end_length_per_link temperature = log_squared_isometric_asymptotic_reduced_legendre.nondimensional_relative_helmholtz_free_energy_per_link (link_stiffness * spowi link_length 2 / BOLTZMANN_CONSTANT / temperature) nondimensional_end_to_end_length_per_link).
Proof. intros; repeat split. Qed.
Print Assumptions C15_log_squared_isometric_asymptotic_reduced_legendre.

Theorem C15_log_squared_isometric_asymptotic_legendre : forall (T : Type) (Sc : Scalar T) (number_of_links : Z) (link_length : T) (hinge_mass : T) (link_stiffness : T),
  let o := O_log_squared_isometric_asymptotic.legendre (O_log_squared_isometric.asymptotic (O_log_squared_thermodynamics.isometric (O_log_squared.thermodynamics (O_log_squared.init number_of_links link_length hinge_mass link_stiffness)))) in
  O_log_squared_isometric_asymptotic_legendre.hinge_mass o = hinge_mass
  /\ O_log_squared_isometric_asymptotic_legendre.link_length o = link_length
  /\ O_log_squared_isometric_asymptotic_legendre.number_of_links o = number_of_links
  /\ O_log_squared_isometric_asymptotic_legendre.link_stiffness o = link_stiffness
  /\ (forall (end_to_end_length : T) (temperature : T), O_log_squared_isometric_asymptotic_legendre.force o end_to_end_length temperature = log_squared_isometric_asymptotic_legendre.force number_of_links link_length link_stiffness end_to_end_length temperature)
  /\ (forall (nondimensional_end_to_end_length_per_link : T) (temperature : T), O_log_squared_isometric_asymptotic_legendre.nondimensional_force o nondimensional_end_to_end_length_per_link temperature = log_squared_isometric_asymptotic_legendre.nondimensional_force (link_stiffness * spowi link_length 2 / BOLTZMANN_CONSTANT / temperature) nondimensional_end_to_end_length_per_link)
  /\ (forall (end_to_end_length : T) (temperature : T), O_log_squared_isometric_asymptotic_legendre.helmholtz_free_energy o end_to_end_length temperature = log_squared_isometric_asymptotic_legendre.helmholtz_free_energy number_of_links link_length hinge_mass link_stiffness end_to_end_length temperature)
  /\ (forall (end_to_end_length : T) (temperature : T), O_log_squared_isometric_asymptotic_legendre.helmholtz_free_energy_per_link o end_to_end_length temperature = log_squared_isometric_asymptotic_legendre.helmholtz_free_energy_per_link number_of_links link_length hinge_mass link_stiffness end_to_end_length temperature)
  /\ (forall (end_to_end_length : T) (temperature : T), O_log_squared_isometric_asymptotic_legendre.relative_helmholtz_free_energy o end_to_end_length temperature = log_squared_isometric_asymptotic_legendre.relative_helmholtz_free_energy number_of_links link_length link_stiffness end_to_end_length temperature)
  /\ (forall (end_to_end_length : T) (temperature : T), O_log_squared_isometric_asymptotic_legendre.relative_helmholtz_free_energy_per_link o end_to_end_length temperature = log_squared_isometric_asymptotic_legendre.relative_helmholtz_free_energy_per_link number_of_links link_length link_stiffness end_to_end_length temperature)
  /\ (forall (nondimensional_end_to_end_length_per_link : T) (temperature : T), O_log_squared_isometric_asymptotic_legendre.nondimensional_helmholtz_free_energy o nondimensional_end_to_end_length_per_link temperature = log_squared_isometric_asymptotic_legendre.nondimensional_helmholtz_free_energy number_of_links link_length hinge_mass (link_stiffness * spowi link_length 2 / BOLTZMANN_CONSTANT / temperature) nondimensional_end_to_end_length_per_link temperature)
  /\ (forall (nondimensional_end_to_end_length_per_link : T) (temperature : T), O_log_squared_isometric_asymptotic_legendre.nondimensional_helmholtz_free_energy_per_link o nondimensional_end_to_end_length_per_link temperature = log_squared_isometric_asymptotic_legendre.nondimensional_helmholtz_free_energy_per_link number_of_links link_length hinge_mass (link_stiffness * spowi link_length 2 / BOLTZMANN_CONSTANT / temperature) nondimensional_end_to_end_length_per_link temperature)
  /\ (forall (nondimensional_end_to_end_length_per_link : T) (temperature : T), O_log_squared_isometric_asymptotic_legendre.nondimensional_relative_helmholtz_free_energy o nondimensional_end_to_end_length_per_link temperature = log_squared_isometric_asymptotic_legendre.nondimensional_relative_helmholtz_free_energy number_of_links (link_stiffness * spowi link_length 2 / BOLTZMANN_CONSTANT / temperature) nondimensional_end_to_end_length_per_link)
  /\ (forall (nondimensional_end_to_end_length_per_link : T) (temperature : T), O_log_squared_isometric_asymptotic_legendre.nondimensional_relative_helmholtz_free_energy_per_link o nondimensional_end_to_end_length_per_link temperature = log_squared_isometric_asymptotic_legendre.nondimensional_relative_helmholtz_free_energy_per_link (link_stiffness * spowi link_length 2 / BOLTZMANN_CONSTANT / temperature) nondimensional_end_to_end_length_per_link).
Proof. intros; repeat split. Qed.
Print Assumptions C15_log_squared_isometric_asymptotic_legendre.

Theorem C15_log_squared_isotensional : forall (T : Type) (Sc : Scalar T) (number_of_links : Z) (link_length : T) (hinge_mass : T) (link_stiffness : T),
  let o := O_log_squared_thermodynamics.isotensional (O_log_squared.thermodynamics (O_log_squared.init number_of_links link_length hinge_mass link_stiffness)) in
  O_log_squared_isotensional.hinge_mass o = hinge_mass
  /\ O_log_squared_isotensional.link_length o = link_length
  /\ O_log_squared_isotensional.number_of_links o = number_of_links
  /\ O_log_squared_isotensional.link_stiffness o = link_stiffness
  /\ (forall (force : T) (temperature : T), O_log_squared_isotensional.end_to_end_length o force temperature = log_squared_isotensional.end_to_end_length number_of_links link_length link_stiffness force temperature)
  /\ (forall (force : T) (temperature : T), O_log_squared_isotensional.end_to_end_length_per_link o force temperature = log_squared_isotensional.end_to_end_length_per_link link_length link_stiffness force temperature)
  /\ (forall (nondimensional_force : T) (temperature : T), O_log_squared_isotensional.nondimensional_end_to_end_length o nondimensional_force temperature = log_squared_isotensional.nondimensional_end_to_end_length number_of_links (link_stiffness * spowi link_length 2 / BOLTZMANN_CONSTANT / temperature) nondimensional_force)
  /\ (forall (nondimensional_force : T) (temperature : T), O_log_squared_isotensional.nondimensional_end_to_end_length_per_link o nondimensional_force temperature = log_squared_isotensional.nondimensional_end_to_end_length_per_link (link_stiffness * spowi link_length 2 / BOLTZMANN_CONSTANT / temperature) nondimensional_force)
  /\ (forall (force : T) (temperature : T), O_log_squared_isotensional.gibbs_free_energy o force temperature = log_squared_isotensional.gibbs_free_energy number_of_links link_length hinge_mass link_stiffness force temperature)
  /\ (forall (force : T) (temperature : T), O_log_squared_isotensional.gibbs_free_energy_per_link o force temperature = log_squared_isotensional.gibbs_free_energy_per_link link_length hinge_mass link_stiffness force temperature)
  /\ (forall (force : T) (temperature : T), O_log_squared_isotensional.relative_gibbs_free_energy o force temperature = log_squared_isotensional.relative_gibbs_free_energy number_of_links link_length link_stiffness force temperature)
  /\ (forall (force : T) (temperature : T), O_log_squared_isotensional.relative_gibbs_free_energy_per_link o force temperature = log_squared_isotensional.relative_gibbs_free_energy_per_link link_length link_stiffness force temperature)
  /\ (forall (nondimensional_force : T) (temperature : T), O_log_squared_isotensional.nondimensional_gibbs_free_energy o nondimensional_force temperature = log_squared_isotensional.nondimensional_gibbs_free_energy number_of_links link_length hinge_mass (link_stiffness * spowi link_length 2 / BOLTZMANN_CONSTANT / temperature) nondimensional_force temperature)
  /\ (forall (nondimensional_force : T) (temperature : T), O_log_squared_isotensional.nondimensional_gibbs_free_energy_per_link o nondimensional_force temperature = log_squared_isotensional.nondimensional_gibbs_free_energy_per_link link_length hinge_mass (link_stiffness * spowi link_length 2 / BOLTZMANN_CONSTANT / temperature) nondimensional_force temperature)
  /\ (forall (nondimensional_force : T) (temperature : T), O_log_squared_isotensional.nondimensional_relative_gibbs_free_energy o nondimensional_force temperature = log_squared_isotensional.nondimensional_relative_gibbs_free_energy number_of_links (link_stiffness * spowi link_length 2 / BOLTZMANN_CONSTANT / temperature) nondimensional_force)
  /\ (forall (nondimensional_force : T) (temperature : T), O_log_squared_isotensional.nondimensional_relative_gibbs_free_energy_per_link o nondimensional_force temperature = log_squared_isotensional.nondimensional_relative_gibbs_free_energy_per_link (link_stiffness * spowi link_length 2 / BOLTZMANN_CONSTANT / temperature) nondimensional_force).
Proof. intros; repeat split. Qed.
Print Assumptions C15_log_squared_isotensional.

Theorem C15_log_squared_isotensional_asymptotic : forall (T : Type) (Sc : Scalar T) (number_of_links : Z) (link_length : T) (hinge_mass : T) (link_stiffness : T),
  let o := O_log_squared_isotensional.asymptotic (O_log_squared_thermodynamics.isotensional (O_log_squared.thermodynamics (O_log_squared.init number_of_links link_length hinge_mass link_stiffness))) in
  O_log_squared_isotensional_asymptotic.hinge_mass o = hinge_mass
  /\ O_log_squared_isotensional_asymptotic.link_length o = link_length
  /\ O_log_squared_isotensional_asymptotic.number_of_links o = number_of_links
  /\ O_log_squared_isotensional_asymptotic.link_stiffness o = link_stiffness
  /\ (forall (force : T) (temperature : T), O_log_squared_isotensional_asymptotic.end_to_end_length o force temperature = log_squared_isotensional_asymptotic.end_to_end_length number_of_links link_length link_stiffness force temperature)
  /\ (forall (force : T) (temperature : T), O_log_squared_isotensional_asymptotic.end_to_end_length_per_link o force temperature = log_squared_isotensional_asymptotic.end_to_end_length_per_link link_length link_stiffness force temperature)
  /\ (forall (nondimensional_force : T) (temperature : T), O_log_squared_isotensional_asymptotic.nondimensional_end_to_end_length o nondimensional_force temperature = log_squared_isotensional_asymptotic.nondimensional_end_to_end_length number_of_links (link_stiffness * spowi link_length 2 / BOLTZMANN_CONSTANT / temperature) nondimensional_force)
  /\ (forall (nondimensional_force : T) (temperature : T), O_log_squared_isotensional_asymptotic.nondimensional_end_to_end_length_per_link o nondimensional_force temperature = log_squared_isotensional_asymptotic.nondimensional_end_to_end_length_per_link (link_stiffness * spowi link_length 2 / BOLTZMANN_CONSTANT / temperature) nondimensional_force)
  /\ (forall (force : T) (temperature : T), O_log_squared_isotensional_asymptotic.gibbs_free_energy o force temperature = log_squared_isotensional_asymptotic.gibbs_free_energy number_of_links link_length hinge_mass link_stiffness force temperature)
  /\ (forall (force : T) (temperature : T), O_log_squared_isotensional_asymptotic.gibbs_free_energy_per_link o force temperature = log_squared_isotensional_asymptotic.gibbs_free_energy_per_link link_length hinge_mass link_stiffness force temperature)
  /\ (forall (force : T) (temperature : T), O_log_squared_isotensional_asymptotic.relative_gibbs_free_energy o force temperature = log_squared_isotensional_asymptotic.relative_gibbs_free_energy number_of_links link_length link_stiffness force temperature)
  /\ (forall (force : T) (temperature : T), O_log_squared_isotensional_asymptotic.relative_gibbs_free_energy_per_link o force temperature = log_squared_isotensional_asymptotic.relative_gibbs_free_energy_per_link link_length link_stiffness force temperature)
  /\ (forall (nondimensional_force : T) (temperature : T), O_log_squared_isotensional_asymptotic.nondimensional_gibbs_free_energy o nondimensional_force temperature = log_squared_isotensional_asymptotic.nondimensional_gibbs_free_energy number_of_links link_length hinge_mass (link_stiffness * spowi link_length 2 / BOLTZMANN_CONSTANT / temperature) nondimensional_force temperature)
  /\ (forall (nondimensional_force : T) (temperature : T), O_log_squared_isotensional_asymptotic.nondimensional_gibbs_free_energy_per_link o nondimensional_force temperature = log_squared_isotensional_asymptotic.nondimensional_gibbs_free_energy_per_link link_length hinge_mass (link_stiffness * spowi link_length 2 / BOLTZMANN_CONSTANT / temperature) nondimensional_force temperature)
  /\ (forall (nondimensional_force : T) (temperature : T), O_log_squared_isotensional_asymptotic.nondimensional_relative_gibbs_free_energy o nondimensional_force temperature = log_squared_isotensional_asymptotic.nondimensional_relative_gibbs_free_energy number_of_links (link_stiffness * spowi link_length 2 / BOLTZMANN_CONSTANT / temperature) nondimensional_force)
  /\ (forall (nondimensional_force : T) (temperature : T), O_log_squared_isotensional_asymptotic.nondimensional_relative_gibbs_free_energy_per_link o nondimensional_force temperature = log_squared_isotensional_asymptotic.nondimensional_relative_gibbs_free_energy_per_link (link_stiffness * spowi link_length 2 / BOLTZMANN_CONSTANT / temperature) nondimensional_force).
Proof. intros; repeat split. Qed.
Print Assumptions C15_log_squared_isotensional_asymptotic.

Theorem C15_log_squared_isotensional_asymptotic_reduced : forall (T : Type) (Sc : Scalar T) (number_of_links : Z) (link_length : T) (hinge_mass : T) (link_stiffness : T),
  let o := O_log_squared_isotensional_asymptotic.reduced (O_log_squared_isotensional.asymptotic (O_log_squared_thermodynamics.isotensional (O_log_squared.thermodynamics (O_log_squared.init number_of_links link_length hinge_mass link_stiffness)))) in
  O_log_squared_isotensional_asymptotic_reduced.hinge_mass o = hinge_mass
  /\ O_log_squared_isotensional_asymptotic_reduced.link_length o = link_length
  /\ O_log_squared_isotensional_asymptotic_reduced.number_of_links o = number_of_links
  /\ O_log_squared_isotensional_asymptotic_reduced.link_stiffness o = link_stiffness
  /\ (forall (force : T) (temperature : T), O_log_squared_isotensional_asymptotic_reduced.end_to_end_length o force temperature = log_squared_isotensional_asymptotic_reduced.end_to_end_length number_of_links link_length link_stiffness force temperature)
  /\ (forall (force : T) (temperature : T), O_log_squared_isotensional_asymptotic_reduced.end_to_end_length_per_link o force temperature = log_squared_isotensional_asymptotic_reduced.end_to_end_length_per_link link_length link_stiffness force temperature)
  /\ (forall (nondimensional_force : T) (temperature : T), O_log_squared_isotensional_asymptotic_reduced.nondimensional_end_to_end_length o nondimensional_force temperature = log_squared_isotensional_asymptotic_reduced.nondimensional_end_to_end_length number_of_links (link_stiffness * spowi link_length 2 / BOLTZMANN_CONSTANT / temperature) nondimensional_force)
  /\ (forall (nondimensional_force : T) (temperature : T), O_log_squared_isotensional_asymptotic_reduced.nondimensional_end_to_end_length_per_link o nondimensional_force temperature = log_squared_isotensional_asymptotic_reduced.nondimensional_end_to_end_length_per_link (link_stiffness * spowi link_length 2 / BOLTZMANN_CONSTANT / temperature) nondimensional_force)
  /\ (forall (force : T) (temperature : T), O_log_squared_isotensional_asymptotic_reduced.gibbs_free_energy o force temperature = log_squared_isotensional_asymptotic_reduced.gibbs_free_energy number_of_links link_length hinge_mass link_stiffness force temperature)
  /\ (forall (force : T) (temperature : T), O_log_squared_isotensional_asymptotic_reduced.gibbs_free_energy_per_link o force temperature = log_squared_isotensional_asymptotic_reduced.gibbs_free_energy_per_link link_length hinge_mass link_stiffness force temperature)
  /\ (forall (force : T) (temperature : T), O_log_squared_isotensional_asymptotic_reduced.relative_gibbs_free_energy o force temperature = log_squared_isotensional_asymptotic_reduced.relative_gibbs_free_energy number_of_links link_length link_stiffness force temperature)
  /\ (forall (force : T) (temperature : T), O_log_squared_isotensional_asymptotic_reduced.relative_gibbs_free_energy_per_link o force temperature = log_squared_isotensional_asymptotic_reduced.relative_gibbs_free_energy_per_link link_length link_stiffness force temperature)
  /\ (forall (nondimensional_force : T) (temperature : T), O_log_squared_isotensional_asymptotic_reduced.nondimensional_gibbs_free_energy o nondimensional_force temperature = log_squared_isotensional_asymptotic_reduced.nondimensional_gibbs_free_energy number_of_links link_length hinge_mass (link_stiffness * spowi link_length 2 / BOLTZMANN_CONSTANT / temperature) nondimensional_force temperature)
  /\ (forall (nondimensional_force : T) (temperature : T), O_log_squared_isotensional_asymptotic_reduced.nondimensional_gibbs_free_energy_per_link o nondimensional_force temperature = log_squared_isotensional_asymptotic_reduced.nondimensional_gibbs_free_energy_per_link link_length hinge_mass (link_stiffness * spowi link_length 2 / BOLTZMANN_CONSTANT / temperature) nondimensional_force temperature)
  /\ (forall (nondimensional_force : T) (temperature : T), O_log_squared_isotensional_asymptotic_reduced.nondimensional_relative_gibbs_free_energy o nondimensional_force temperature = log_squared_isotensional_asymptotic_reduced.nondimensional_relative_gibbs_free_energy number_of_links (link_stiffness * spowi link_length 2 / BOLTZMANN_CONSTANT / temperature) nondimensional_force)
  /\ (forall (nondimensional_force : T) (temperature : T), O_log_squared_isotensional_asymptotic_reduced.nondimensional_relative_gibbs_free_energy_per_link o nondimensional_force temperature = log_squared_isotensional_asymptotic_reduced.nondimensional_relative_gibbs_free_energy_per_link (link_stiffness * spowi link_length 2 / BOLTZMANN_CONSTANT / temperature) nondimensional_force).
Proof. intros; repeat split. Qed.
Print Assumptions C15_log_squared_isotensional_asymptotic_reduced.

Theorem C15_log_squared_isotensional_asymptotic_reduced_legendre : forall (T : Type) (Sc : Scalar T) (number_of_links : Z) (link_length : T) (hinge_mass : T) (link_stiffness : T),
  let o := O_log_squared_isotensional_asymptotic_reduced.legendre (O_log_squared_isotensional_asymptotic.reduced (O_log_squared_isotensional.asymptotic (O_log_squared_thermodynamics.isotensional (O_log_squared.thermodynamics (O_log_squared.init number_of_links link_length hinge_mass link_stiffness))))) in
  O_log_squared_isotensional_asymptotic_reduced_legendre.hinge_mass o = hinge_mass
  /\ O_log_squared_isotensional_asymptotic_reduced_legendre.link_length o = link_length
  /\ O_log_squared_isotensional_asymptotic_reduced_legendre.number_of_links o = number_of_links
  /\ O_log_squared_isotensional_asymptotic_reduced_legendre.link_stiffness o = link_stiffness
  /\ (forall (force : T) (temperature : T), O_log_squared_isotensional_asymptotic_reduced_legendre.helmholtz_free_energy o force temperature = log_squared_isotensional_asymptotic_reduced_legendre.helmholtz_free_energy number_of_links link_length hinge_mass link_stiffness force temperature)
  /\ (forall (force : T) (temperature : T), O_log_squared_isotensional_asymptotic_reduced_legendre.helmholtz_free_energy_per_link o force temperature = log_squared_isotensional_asymptotic_reduced_legendre.helmholtz_free_energy_per_link link_length hinge_mass link_stiffness force temperature)
  /\ (forall (force : T) (temperature : T), O_log_squared_isotensional_asymptotic_reduced_legendre.relative_helmholtz_free_energy o force temperature = log_squared_isotensional_asymptotic_reduced_legendre.relative_helmholtz_free_energy number_of_links link_length link_stiffness force temperature)
  /\ (forall (force : T) (temperature : T), O_log_squared_isotensional_asymptotic_reduced_legendre.relative_helmholtz_free_energy_per_link o force temperature = log_squared_isotensional_asymptotic_reduced_legendre.relative_helmholtz_free_energy_per_link link_length link_stiffness force temperature)
  /\ (forall (nondimensional_force : T) (temperature : T), O_log_squared_isotensional_asymptotic_reduced_legendre.nondimensional_helmholtz_free_energy o nondimensional_force temperature = log_squared_isotensional_asymptotic_reduced_legendre.nondimensional_helmholtz_free_energy number_of_links link_length hinge_mass (link_stiffness * spowi link_length 2 / BOLTZMANN_CONSTANT / temperature) nondimensional_force temperature)
  /\ (forall (nondimensional_force : T) (temperature : T), O_log_squared_isotensional_asymptotic_reduced_legendre.nondimensional_helmholtz_free_energy_per_link o nondimensional_force temperature = log_squared_isotensional_asymptotic_reduced_legendre.nondimensional_helmholtz_free_energy_per_link link_length hinge_mass (link_stiffness * spowi link_length 2 / BOLTZMANN_CONSTANT / temperature) nondimensional_force temperature)
  /\ (forall (nondimensional_force : T) (temperature : T), O_log_squared_isotensional_asymptotic_reduced_legendre.nondimensional_relative_helmholtz_free_energy o nondimensional_force temperature = log_squared_isotensional_asymptotic_reduced_legendre.nondimensional_relative_helmholtz_free_energy number_of_links (link_stiffness * spowi link_length 2 / BOLTZMANN_CONSTANT / temperature) nondimensional_force)
  /\ (forall (nondimensional_force : T) (temperature : T), O_log_squared_isotensional_asymptotic_reduced_legendre.nondimensional_relative_helmholtz_free_energy_per_link o nondimensional_force temperature = log_squared_isotensional_asymptotic_reduced_legendre.nondimensional_relative_helmholtz_free_energy_per_link (link_stiffness * spowi link_length 2 / BOLTZMANN_CONSTANT / temperature) nondimensional_force).
Proof. intros; repeat split. Qed.
Print Assumptions C15_log_squared_isotensional_asymptotic_reduced_legendre.

Theorem C15_log_squared_isotensional_asymptotic_legendre : forall (T : Type) (Sc : Scalar T) (number_of_links : Z) (link_length : T) (hinge_mass : T) (link_stiffness : T),
  let o := O_log_squared_isotensional_asymptotic.legendre (O_log_squared_isotensional.asymptotic (O_log_squared_thermodynamics.isotensional (O_log_squared.thermodynamics (O_log_squared.init number_of_links link_length hinge_mass link_stiffness)))) in
  O_log_squared_isotensional_asymptotic_legendre.hinge_mass o = hinge_mass
  /\ O_log_squared_isotensional_asymptotic_legendre.link_length o = link_length
  /\ O_log_squared_isotensional_asymptotic_legendre.number_of_links o = number_of_links
  /\ O_log_squared_isotensional_asymptotic_legendre.link_stiffness o = link_stiffness
  /\ (forall (force : T) (temperature : T), O_log_squared_isotensional_asymptotic_legendre.helmholtz_free_energy o force temperature = log_squared_isotensional_asymptotic_legendre.helmholtz_free_energy number_of_links link_length hinge_mass link_stiffness force temperature)
  /\ (forall (force : T) (temperature : T), O_log_squared_isotensional_asymptotic_legendre.helmholtz_free_energy_per_link o force temperature = log_squared_isotensional_asymptotic_legendre.helmholtz_free_energy_per_link link_length hinge_mass link_stiffness force temperature)
  /\ (forall (force : T) (temperature : T), O_log_squared_isotensional_asymptotic_legendre.relative_helmholtz_free_energy o force temperature = log_squared_isotensional_asymptotic_legendre.relative_helmholtz_free_energy number_of_links link_length link_stiffness force temperature)
  /\ (forall (force : T) (temperature : T), O_log_squared_isotensional_asymptotic_legendre.relative_helmholtz_free_energy_per_link o force temperature = log_squared_isotensional_asymptotic_legendre.relative_helmholtz_free_energy_per_link link_length link_stiffness force temperature)
  /\ (forall (nondimensional_force : T) (temperature : T), O_log_squared_isotensional_asymptotic_legendre.nondimensional_helmholtz_free_energy o nondimensional_force temperature = log_squared_isotensional_asymptotic_legendre.nondimensional_helmholtz_free_energy number_of_links link_length hinge_mass (link_stiffness * spowi link_length 2 / BOLTZMANN_CONSTANT / temperature) nondimensional_force temperature)
  /\ (forall (nondimensional_force : T) (temperature : T), O_log_squared_isotensional_asymptotic_legendre.nondimensional_helmholtz_free_energy_per_link o nondimensional_force temperature = log_squared_isotensional_asymptotic_legendre.nondimensional_helmholtz_free_energy_per_link link_length hinge_mass (link_stiffness * spowi link_length 2 / BOLTZMANN_CONSTANT / temperature) nondimensional_force temperature)
  /\ (forall (nondimensional_force : T) (temperature : T), O_log_squared_isotensional_asymptotic_legendre.nondimensional_relative_helmholtz_free_energy o nondimensional_force temperature = log_squared_isotensional_asymptotic_legendre.nondimensional_relative_helmholtz_free_energy number_of_links (link_stiffness * spowi link_length 2 / BOLTZMANN_CONSTANT / temperature) nondimensional_force)
  /\ (forall (nondimensional_force : T) (temperature : T), O_log_squared_isotensional_asymptotic_legendre.nondimensional_relative_helmholtz_free_energy_per_link o nondimensional_force temperature = log_squared_isotensional_asymptotic_legendre.nondimensional_relative_helmholtz_free_energy_per_link (link_stiffness * spowi link_length 2 / BOLTZMANN_CONSTANT / temperature) nondimensional_force).
Proof. intros; repeat split. Qed.
Print Assumptions C15_log_squared_isotensional_asymptotic_legendre.

Theorem C15_log_squared_isotensional_legendre : forall (T : Type) (Sc : Scalar T) (number_of_links : Z) (link_length : T) (hinge_mass : T) (link_stiffness : T),
  let o := O_log_squared_isotensional.legendre (O_log_squared_thermodynamics.isotensional (O_log_squared.thermodynamics (O_log_squared.init number_of_links link_length hinge_mass link_stiffness))) in
  O_log_squared_isotensional_legendre.hinge_mass o = hinge_mass
  /\ O_log_squared_isotensional_legendre.link_length o = link_length
  /\ O_log_squared_isotensional_legendre.number_of_links o = number_of_links
  /\ O_log_squared_isotensional_legendre.link_stiffness o = link_stiffness
  /\ (forall (force : T) (temperature : T), O_log_squared_isotensional_legendre.helmholtz_free_energy o force temperature = log_squared_isotensional_legendre.helmholtz_free_energy number_of_links link_length hinge_mass link_stiffness force temperature)
  /\ (forall (force : T) (temperature : T), O_log_squared_isotensional_legendre.helmholtz_free_energy_per_link o force temperature = log_squared_isotensional_legendre.helmholtz_free_energy_per_link link_length hinge_mass link_stiffness force temperature)
  /\ (forall (force : T) (temperature : T), O_log_squared_isotensional_legendre.relative_helmholtz_free_energy o force temperature = log_squared_isotensional_legendre.relative_helmholtz_free_energy number_of_links link_length link_stiffness force temperature)
  /\ (forall (force : T) (temperature : T), O_log_squared_isotensional_legendre.relative_helmholtz_free_energy_per_link o force temperature = log_squared_isotensional_legendre.relative_helmholtz_free_energy_per_link link_length link_stiffness force temperature)
  /\ (forall (nondimensional_force : T) (temperature : T), O_log_squared_isotensional_legendre.nondimensional_helmholtz_free_energy o nondimensional_force temperature = log_squared_isotensional_legendre.nondimensional_helmholtz_free_energy number_of_links link_length hinge_mass (link_stiffness * spowi link_length 2 / BOLTZMANN_CONSTANT / temperature) nondimensional_force temperature)
  /\ (forall (nondimensional_force : T) (temperature : T), O_log_squared_isotensional_legendre.nondimensional_helmholtz_free_energy_per_link o nondimensional_force temperature = log_squared_isotensional_legendre.nondimensional_helmholtz_free_energy_per_link link_length hinge_mass (link_stiffness * spowi link_length 2 / BOLTZMANN_CONSTANT / temperature) nondimensional_force temperature)
  /\ (forall (nondimensional_force : T) (temperature : T), O_log_squared_isotensional_legendre.nondimensional_relative_helmholtz_free_energy o nondimensional_force temperature = log_squared_isotensional_legendre.nondimensional_relative_helmholtz_free_energy number_of_links (link_stiffness * spowi link_length 2 / BOLTZMANN_CONSTANT / temperature) nondimensional_force)
  /\ (forall (nondimensional_force : T) (temperature : T), O_log_squared_isotensional_legendre.nondimensional_relative_helmholtz_free_energy_per_link o nondimensional_force temperature = log_squared_isotensional_legendre.nondimensional_relative_helmholtz_free_energy_per_link (link_stiffness * spowi link_length 2 / BOLTZMANN_CONSTANT / temperature) nondimensional_force).
Proof. intros; repeat split. Qed.
Print Assumptions C15_log_squared_isotensional_legendre.

Theorem C15_wlc : forall (T : Type) (Sc : Scalar T) (number_of_links : Z) (link_length : T) (hinge_mass : T) (persistance_length : T),
  let o := O_wlc.init number_of_links link_length hinge_mass persistance_length in
  O_wlc.hinge_mass o = hinge_mass
  /\ O_wlc.link_length o = link_length
  /\ O_wlc.number_of_links o = number_of_links
  /\ O_wlc.persistance_length o = persistance_length.
Proof. intros; repeat split. Qed.
Print Assumptions C15_wlc.

Theorem C15_wlc_thermodynamics : forall (T : Type) (Sc : Scalar T) (number_of_links : Z) (link_length : T) (hinge_mass : T) (persistance_length : T),
  let o := O_wlc.thermodynamics (O_wlc.init number_of_links link_length hinge_mass persistance_length) in
  O_wlc_thermodynamics.hinge_mass o = hinge_mass
  /\ O_wlc_thermodynamics.link_length o = link_length
  /\ O_wlc_thermodynamics.number_of_links o = number_of_links
  /\ O_wlc_thermodynamics.persistance_length o = persistance_length.
Proof. intros; repeat split. Qed.
Print Assumptions C15_wlc_thermodynamics.

Theorem C15_wlc_isometric : forall (T : Type) (Sc : Scalar T) (number_of_links : Z) (link_length : T) (hinge_mass : T) (persistance_length : T),
  let o := O_wlc_thermodynamics.isometric (O_wlc.thermodynamics (O_wlc.init number_of_links link_length hinge_mass persistance_length)) in
  O_wlc_isometric.hinge_mass o = hinge_mass
  /\ O_wlc_isometric.link_length o = link_length
  /\ O_wlc_isometric.number_of_links o = number_of_links
  /\ O_wlc_isometric.persistance_length o = persistance_length
  /\ O_wlc_isometric.nondimensional_persistance_length o = (persistance_length / sofZ number_of_links / link_length)
  /\ O_wlc_isometric.normalization_nondimensional_equilibrium_distribution o = (math.integrate_1d (fun gamma => wlc_isometric.nondimensional_equilibrium_radial_distribution (persistance_length / sofZ number_of_links / link_length) (sdec 1 0) gamma) ZERO ONE POINTS)
  /\ (forall (end_to_end_length : T) (temperature : T), O_wlc_isometric.force o end_to_end_length temperature = wlc_isometric.force number_of_links link_length persistance_length end_to_end_length temperature)
  /\ (forall (nondimensional_end_to_end_length_per_link : T), O_wlc_isometric.nondimensional_force o nondimensional_end_to_end_length_per_link = wlc_isometric.nondimensional_force number_of_links (persistance_length / sofZ number_of_links / link_length) nondimensional_end_to_end_length_per_link)
  /\ (forall (end_to_end_length : T) (temperature : T), O_wlc_isometric.helmholtz_free_energy o end_to_end_length temperature = wlc_isometric.helmholtz_free_energy number_of_links link_length hinge_mass persistance_length end_to_end_length temperature)
  /\ (forall (end_to_end_length : T) (temperature : T), O_wlc_isometric.helmholtz_free_energy_per_link o end_to_end_length temperature = wlc_isometric.helmholtz_free_energy_per_link number_of_links link_length hinge_mass persistance_length end_to_end_length temperature)
  /\ (forall (end_to_end_length : T) (temperature : T), O_wlc_isometric.relative_helmholtz_free_energy o end_to_end_length temperature = wlc_isometric.relative_helmholtz_free_energy number_of_links link_length persistance_length end_to_end_length temperature)
  /\ (forall (end_to_end_length : T) (temperature : T), O_wlc_isometric.relative_helmholtz_free_energy_per_link o end_to_end_length temperature = wlc_isometric.relative_helmholtz_free_energy_per_link number_of_links link_length persistance_length end_to_end_length temperature)
  /\ (forall (nondimensional_end_to_end_length_per_link : T) (temperature : T), O_wlc_isometric.nondimensional_helmholtz_free_energy o nondimensional_end_to_end_length_per_link temperature = wlc_isometric.nondimensional_helmholtz_free_energy number_of_links link_length hinge_mass (persistance_length / sofZ number_of_links / link_length) nondimensional_end_to_end_length_per_link temperature)
  /\ (forall (nondimensional_end_to_end_length_per_link : T) (temperature : T), O_wlc_isometric.nondimensional_helmholtz_free_energy_per_link o nondimensional_end_to_end_length_per_link temperature = wlc_isometric.nondimensional_helmholtz_free_energy_per_link number_of_links link_length hinge_mass (persistance_length / sofZ number_of_links / link_length) nondimensional_end_to_end_length_per_link temperature)
  /\ (forall (nondimensional_end_to_end_length_per_link : T), O_wlc_isometric.nondimensional_relative_helmholtz_free_energy o nondimensional_end_to_end_length_per_link = wlc_isometric.nondimensional_relative_helmholtz_free_energy (persistance_length / sofZ number_of_links / link_length) nondimensional_end_to_end_length_per_link)
  /\ (forall (nondimensional_end_to_end_length_per_link : T), O_wlc_isometric.nondimensional_relative_helmholtz_free_energy_per_link o nondimensional_end_to_end_length_per_link = wlc_isometric.nondimensional_relative_helmholtz_free_energy_per_link number_of_links (persistance_length / sofZ number_of_links / link_length) nondimensional_end_to_end_length_per_link)
  /\ (forall (end_to_end_length : T), O_wlc_isometric.equilibrium_distribution o end_to_end_length = wlc_isometric.equilibrium_distribution number_of_links link_length persistance_length (math.integrate_1d (fun gamma => wlc_isometric.nondimensional_equilibrium_radial_distribution (persistance_length / sofZ number_of_links / link_length) (sdec 1 0) gamma) ZERO ONE POINTS) end_to_end_length)
  /\ (forall (nondimensional_end_to_end_length_per_link : T), O_wlc_isometric.nondimensional_equilibrium_distribution o nondimensional_end_to_end_length_per_link = wlc_isometric.nondimensional_equilibrium_distribution (persistance_length / sofZ number_of_links / link_length) (math.integrate_1d (fun gamma => wlc_isometric.nondimensional_equilibrium_radial_distribution (persistance_length / sofZ number_of_links / link_length) (sdec 1 0) gamma) ZERO ONE POINTS) nondimensional_end_to_end_length_per_link)
  /\ (forall (end_to_end_length : T), O_wlc_isometric.equilibrium_radial_distribution o end_to_end_length = wlc_isometric.equilibrium_radial_distribution number_of_links link_length persistance_length (math.integrate_1d (fun gamma => wlc_isometric.nondimensional_equilibrium_radial_distribution (persistance_length / sofZ number_of_links / link_length) (sdec 1 0) gamma) ZERO ONE POINTS) end_to_end_length)
  /\ (forall (nondimensional_end_to_end_length_per_link : T), O_wlc_isometric.nondimensional_equilibrium_radial_distribution o nondimensional_end_to_end_length_per_link = wlc_isometric.nondimensional_equilibrium_radial_distribution (persistance_length / sofZ number_of_links / link_length) (math.integrate_1d (fun gamma => wlc_isometric.nondimensional_equilibrium_radial_distribution (persistance_length / sofZ number_of_links / link_length) (sdec 1 0) gamma) ZERO ONE POINTS) nondimensional_end_to_end_length_per_link).
Proof. intros; repeat split. Qed.
Print Assumptions C15_wlc_isometric.

Theorem C15_wlc_isometric_legendre : forall (T : Type) (Sc : Scalar T) (number_of_links : Z) (link_length : T) (hinge_mass : T) (persistance_length : T),
  let o := O_wlc_isometric.legendre (O_wlc_thermodynamics.isometric (O_wlc.thermodynamics (O_wlc.init number_of_links link_length hinge_mass persistance_length))) in
  O_wlc_isometric_legendre.hinge_mass o = hinge_mass
  /\ O_wlc_isometric_legendre.link_length o = link_length
  /\ O_wlc_isometric_legendre.number_of_links o = number_of_links
  /\ O_wlc_isometric_legendre.persistance_length o = persistance_length
  /\ O_wlc_isometric_legendre.nondimensional_persistance_length o = (persistance_length / sofZ number_of_links / link_length)
  /\ (forall (end_to_end_length : T) (temperature : T), O_wlc_isometric_legendre.gibbs_free_energy o end_to_end_length temperature = wlc_isometric_legendre.gibbs_free_energy number_of_links link_length hinge_mass persistance_length end_to_end_length temperature)
  /\ (forall (end_to_end_length : T) (temperature : T), O_wlc_isometric_legendre.gibbs_free_energy_per_link o end_to_end_length temperature = wlc_isometric_legendre.gibbs_free_energy_per_link number_of_links link_length hinge_mass persistance_length end_to_end_length temperature)
  /\ (forall (end_to_end_length : T) (temperature : T), O_wlc_isometric_legendre.relative_gibbs_free_energy o end_to_end_length temperature = wlc_isometric_legendre.relative_gibbs_free_energy number_of_links link_length persistance_length end_to_end_length temperature)
  /\ (forall (end_to_end_length : T) (temperature : T), O_wlc_isometric_legendre.relative_gibbs_free_energy_per_link o end_to_end_length temperature = wlc_isometric_legendre.relative_gibbs_free_energy_per_link number_of_links link_length persistance_length end_to_end_length temperature)
  /\ (forall (nondimensional_end_to_end_length_per_link : T) (temperature : T), O_wlc_isometric_legendre.nondimensional_gibbs_free_energy o nondimensional_end_to_end_length_per_link temperature = wlc_isometric_legendre.nondimensional_gibbs_free_energy number_of_links link_length hinge_mass (persistance_length / sofZ number_of_links / link_length) nondimensional_end_to_end_length_per_link temperature)
  /\ (forall (nondimensional_end_to_end_length_per_link : T) (temperature : T), O_wlc_isometric_legendre.nondimensional_gibbs_free_energy_per_link o nondimensional_end_to_end_length_per_link temperature = wlc_isometric_legendre.nondimensional_gibbs_free_energy_per_link number_of_links link_length hinge_mass (persistance_length / sofZ number_of_links / link_length) nondimensional_end_to_end_length_per_link temperature)
  /\ (forall (nondimensional_end_to_end_length_per_link : T), O_wlc_isometric_legendre.nondimensional_relative_gibbs_free_energy o nondimensional_end_to_end_length_per_link = wlc_isometric_legendre.nondimensional_relative_gibbs_free_energy number_of_links (persistance_length / sofZ number_of_links / link_length) nondimensional_end_to_end_length_per_link)
  /\ (forall (nondimensional_end_to_end_length_per_link : T), O_wlc_isometric_legendre.nondimensional_relative_gibbs_free_energy_per_link o nondimensional_end_to_end_length_per_link = wlc_isometric_legendre.nondimensional_relative_gibbs_free_energy_per_link number_of_links (persistance_length / sofZ number_of_links / link_length) nondimensional_end_to_end_length_per_link).
Proof. intros; repeat split. Qed.
Print Assumptions C15_wlc_isometric_legendre.

Theorem C15_wlc_isotensional : forall (T : Type) (Sc : Scalar T) (number_of_links : Z) (link_length : T) (hinge_mass : T) (persistance_length : T),
  let o := O_wlc_thermodynamics.isotensional (O_wlc.thermodynamics (O_wlc.init number_of_links link_length hinge_mass persistance_length)) in
  O_wlc_isotensional.hinge_mass o = hinge_mass
  /\ O_wlc_isotensional.link_length o = link_length
  /\ O_wlc_isotensional.number_of_links o = number_of_links
  /\ O_wlc_isotensional.persistance_length o = persistance_length
  /\ O_wlc_isotensional.nondimensional_persistance_length o = (persistance_length / sofZ number_of_links / link_length)
  /\ (forall (force : T) (temperature : T), O_wlc_isotensional.end_to_end_length o force temperature = wlc_isotensional.end_to_end_length number_of_links link_length persistance_length force temperature)
  /\ (forall (force : T) (temperature : T), O_wlc_isotensional.end_to_end_length_per_link o force temperature = wlc_isotensional.end_to_end_length_per_link number_of_links link_length persistance_length force temperature)
  /\ (forall (nondimensional_force : T), O_wlc_isotensional.nondimensional_end_to_end_length o nondimensional_force = wlc_isotensional.nondimensional_end_to_end_length number_of_links (persistance_length / sofZ number_of_links / link_length) nondimensional_force)
  /\ (forall (nondimensional_force : T), O_wlc_isotensional.nondimensional_end_to_end_length_per_link o nondimensional_force = wlc_isotensional.nondimensional_end_to_end_length_per_link number_of_links (persistance_length / sofZ number_of_links / link_length) nondimensional_force)
  /\ (forall (force : T) (temperature : T), O_wlc_isotensional.gibbs_free_energy o force temperature = wlc_isotensional.gibbs_free_energy number_of_links link_length hinge_mass persistance_length force temperature)
  /\ (forall (force : T) (temperature : T), O_wlc_isotensional.gibbs_free_energy_per_link o force temperature = wlc_isotensional.gibbs_free_energy_per_link number_of_links link_length hinge_mass persistance_length force temperature)
  /\ (forall (force : T) (temperature : T), O_wlc_isotensional.relative_gibbs_free_energy o force temperature = wlc_isotensional.relative_gibbs_free_energy number_of_links link_length persistance_length force temperature)
  /\ (forall (force : T) (temperature : T), O_wlc_isotensional.relative_gibbs_free_energy_per_link o force temperature = wlc_isotensional.relative_gibbs_free_energy_per_link number_of_links link_length persistance_length force temperature)
  /\ (forall (nondimensional_force : T) (temperature : T), O_wlc_isotensional.nondimensional_gibbs_free_energy o nondimensional_force temperature = wlc_isotensional.nondimensional_gibbs_free_energy number_of_links link_length hinge_mass (persistance_length / sofZ number_of_links / link_length) nondimensional_force temperature)
  /\ (forall (nondimensional_force : T) (temperature : T), O_wlc_isotensional.nondimensional_gibbs_free_energy_per_link o nondimensional_force temperature = wlc_isotensional.nondimensional_gibbs_free_energy_per_link number_of_links link_length hinge_mass (persistance_length / sofZ number_of_links / link_length) nondimensional_force temperature)
  /\ (forall (nondimensional_force : T), O_wlc_isotensional.nondimensional_relative_gibbs_free_energy o nondimensional_force = wlc_isotensional.nondimensional_relative_gibbs_free_energy number_of_links (persistance_length / sofZ number_of_links / link_length) nondimensional_force)
  /\ (forall (nondimensional_force : T), O_wlc_isotensional.nondimensional_relative_gibbs_free_energy_per_link o nondimensional_force = wlc_isotensional.nondimensional_relative_gibbs_free_energy_per_link number_of_links (persistance_length / sofZ number_of_links / link_length) nondimensional_force).
Proof. intros; repeat split. Qed.
Print Assumptions C15_wlc_isotensional.

Theorem C15_wlc_isotensional_legendre : forall (T : Type) (Sc : Scalar T) (number_of_links : Z) (link_length : T) (hinge_mass : T) (persistance_length : T),
  let o := O_wlc_isotensional.legendre (O_wlc_thermodynamics.isotensional (O_wlc.thermodynamics (O_wlc.init number_of_links link_length hinge_mass persistance_length))) in
  O_wlc_isotensional_legendre.hinge_mass o = hinge_mass
  /\ O_wlc_isotensional_legendre.link_length o = link_length
  /\ O_wlc_isotensional_legendre.number_of_links o = number_of_links
  /\ O_wlc_isotensional_legendre.persistance_length o = persistance_length
  /\ O_wlc_isotensional_legendre.nondimensional_persistance_length o = (persistance_length / sofZ number_of_links / link_length)
  /\ (forall (force : T) (temperature : T), O_wlc_isotensional_legendre.helmholtz_free_energy o force temperature = wlc_isotensional_legendre.helmholtz_free_energy number_of_links link_length hinge_mass persistance_length force temperature)
  /\ (forall (force : T) (temperature : T), O_wlc_isotensional_legendre.helmholtz_free_energy_per_link o force temperature = wlc_isotensional_legendre.helmholtz_free_energy_per_link number_of_links link_length hinge_mass persistance_length force temperature)
  /\ (forall (force : T) (temperature : T), O_wlc_isotensional_legendre.relative_helmholtz_free_energy o force temperature = wlc_isotensional_legendre.relative_helmholtz_free_energy number_of_links link_length persistance_length force temperature)
  /\ (forall (force : T) (temperature : T), O_wlc_isotensional_legendre.relative_helmholtz_free_energy_per_link o force temperature = wlc_isotensional_legendre.relative_helmholtz_free_energy_per_link number_of_links link_length persistance_length force temperature)
  /\ (forall (nondimensional_force : T) (temperature : T), O_wlc_isotensional_legendre.nondimensional_helmholtz_free_energy o nondimensional_force temperature = wlc_isotensional_legendre.nondimensional_helmholtz_free_energy number_of_links link_length hinge_mass (persistance_length / sofZ number_of_links / link_length) nondimensional_force temperature)
  /\ (forall (nondimensional_force : T) (temperature : T), O_wlc_isotensional_legendre.nondimensional_helmholtz_free_energy_per_link o nondimensional_force temperature = wlc_isotensional_legendre.nondimensional_helmholtz_free_energy_per_link number_of_links link_length hinge_mass (persistance_length / sofZ number_of_links / link_length) nondimensional_force temperature)
  /\ (forall (nondimensional_force : T), O_wlc_isotensional_legendre.nondimensional_relative_helmholtz_free_energy o nondimensional_force = wlc_isotensional_legendre.nondimensional_relative_helmholtz_free_energy number_of_links (persistance_length / sofZ number_of_links / link_length) nondimensional_force)
  /\ (forall (nondimensional_force : T), O_wlc_isotensional_legendre.nondimensional_relative_helmholtz_free_energy_per_link o nondimensional_force = wlc_isotensional_legendre.nondimensional_relative_helmholtz_free_energy_per_link number_of_links (persistance_length / sofZ number_of_links / link_length) nondimensional_force).
Proof. intros; repeat split. Qed.
Print Assumptions C15_wlc_isotensional_legendre.

(** The one method that repeats the formula of the free function: they agree over the
    reals for every link length, link stiffness and temperature other than zero. *)
Theorem C15_efjc_isotensional_asymptotic_legendre_per_link :
  forall (number_of_links : Z) (link_length hinge_mass link_stiffness : R)
    (nondimensional_force temperature : R),
  link_length <> 0%R -> link_stiffness <> 0%R -> temperature <> 0%R ->
  O_efjc_isotensional_asymptotic_legendre.nondimensional_helmholtz_free_energy_per_link
    (O_efjc_isotensional_asymptotic.legendre (O_efjc_isotensional.asymptotic
      (O_efjc_thermodynamics.isotensional (O_efjc.thermodynamics
        (O_efjc.init number_of_links link_length hinge_mass link_stiffness)))))
    nondimensional_force temperature
  = efjc_isotensional_asymptotic_legendre.nondimensional_helmholtz_free_energy_per_link
      link_length hinge_mass
      (link_stiffness * spowi link_length 2 / BOLTZMANN_CONSTANT / temperature)
      nondimensional_force temperature.
Proof. exact efjc_inlined_method. Qed.
Print Assumptions C15_efjc_isotensional_asymptotic_legendre_per_link.

(** A method is not the same function for every object: the extension of a freely
    jointed chain depends on the link length given to [init]. *)
Example objects_differ :
  O_fjc_isotensional.end_to_end_length
    (O_fjc_thermodynamics.isotensional (O_fjc.thermodynamics (O_fjc.init 8 1%R 1%R)))
    1%R 300%R
  <> O_fjc_isotensional.end_to_end_length
    (O_fjc_thermodynamics.isotensional (O_fjc.thermodynamics (O_fjc.init 16 1%R 1%R)))
    1%R 300%R.
Proof. exact fjc_objects_differ. Qed.
