(** C58: the Python interface.  Every method of every object reachable from the
    constructor of a Python class, applied to an array of any shape, returns an array of
    that shape whose entries are the values of the method of the same name of the Rust
    object built with the same parameters; it fails exactly when the Rust method fails on
    some entry.  The attributes Python can read hold the values the Rust object holds.

    Written by tools/gen_bindings.py, which matches arguments by parameter name.  The
    theorems range over every scalar type and both build profiles.  [elementwise] and
    [elementwise_panic] are in SpecArray.v.  *)
Require Import Verif.Scalar Verif.MConst Verif.MMath Verif.MArray Verif.SpecArray Verif.PArray.
Require Import Verif.PObjects Verif.PPython.
Require Import Verif.MIdeal Verif.MFjc Verif.MSwfjc Verif.MEfjc Verif.MMorse Verif.MLennardJones Verif.MLogSquared Verif.MWlc Verif.MPython.
Require Import ZArith Reals.
Local Open Scope scalar_scope.

Theorem C58_ideal : forall (T : Type) (Sc : Scalar T) (number_of_links : Z) (link_length : T) (hinge_mass : T),
  let p := P_ideal.init number_of_links link_length hinge_mass in
  let r := O_ideal.init number_of_links link_length hinge_mass in
  P_ideal.hinge_mass p = O_ideal.hinge_mass r
  /\ P_ideal.link_length p = O_ideal.link_length r
  /\ P_ideal.number_of_links p = O_ideal.number_of_links r.
Proof.
  intros T Sc number_of_links link_length hinge_mass p r.
  assert (P_ideal.hinge_mass p = O_ideal.hinge_mass r) by reflexivity.
  assert (P_ideal.link_length p = O_ideal.link_length r) by reflexivity.
  assert (P_ideal.number_of_links p = O_ideal.number_of_links r) by reflexivity.
  clearbody p r.
  elementwise_tac.
Qed.
Print Assumptions C58_ideal.

Theorem C58_ideal_thermodynamics : forall (T : Type) (Sc : Scalar T) (number_of_links : Z) (link_length : T) (hinge_mass : T),
  let p := P_ideal.thermodynamics (P_ideal.init number_of_links link_length hinge_mass) in
  let r := O_ideal.thermodynamics (O_ideal.init number_of_links link_length hinge_mass) in
  P_ideal_thermodynamics.hinge_mass p = O_ideal_thermodynamics.hinge_mass r
  /\ P_ideal_thermodynamics.link_length p = O_ideal_thermodynamics.link_length r
  /\ P_ideal_thermodynamics.number_of_links p = O_ideal_thermodynamics.number_of_links r.
Proof.
  intros T Sc number_of_links link_length hinge_mass p r.
  assert (P_ideal_thermodynamics.hinge_mass p = O_ideal_thermodynamics.hinge_mass r) by reflexivity.
  assert (P_ideal_thermodynamics.link_length p = O_ideal_thermodynamics.link_length r) by reflexivity.
  assert (P_ideal_thermodynamics.number_of_links p = O_ideal_thermodynamics.number_of_links r) by reflexivity.
  clearbody p r.
  elementwise_tac.
Qed.
Print Assumptions C58_ideal_thermodynamics.

Theorem C58_ideal_isometric : forall (T : Type) (Sc : Scalar T) (number_of_links : Z) (link_length : T) (hinge_mass : T),
  let p := P_ideal_thermodynamics.isometric (P_ideal.thermodynamics (P_ideal.init number_of_links link_length hinge_mass)) in
  let r := O_ideal_thermodynamics.isometric (O_ideal.thermodynamics (O_ideal.init number_of_links link_length hinge_mass)) in
  P_ideal_isometric.hinge_mass p = O_ideal_isometric.hinge_mass r
  /\ P_ideal_isometric.link_length p = O_ideal_isometric.link_length r
  /\ P_ideal_isometric.number_of_links p = O_ideal_isometric.number_of_links r
  /\ (forall (end_to_end_length : ndarray T) (temperature : T),
     elementwise (fun x => O_ideal_isometric.force r x temperature) end_to_end_length
       (P_ideal_isometric.force p end_to_end_length temperature))
  /\ (forall (nondimensional_end_to_end_length_per_link : ndarray T),
     elementwise (fun x => O_ideal_isometric.nondimensional_force r x) nondimensional_end_to_end_length_per_link
       (P_ideal_isometric.nondimensional_force p nondimensional_end_to_end_length_per_link))
  /\ (forall (end_to_end_length : ndarray T) (temperature : T),
     elementwise (fun x => O_ideal_isometric.helmholtz_free_energy r x temperature) end_to_end_length
       (P_ideal_isometric.helmholtz_free_energy p end_to_end_length temperature))
  /\ (forall (end_to_end_length : ndarray T) (temperature : T),
     elementwise (fun x => O_ideal_isometric.helmholtz_free_energy_per_link r x temperature) end_to_end_length
       (P_ideal_isometric.helmholtz_free_energy_per_link p end_to_end_length temperature))
  /\ (forall (end_to_end_length : ndarray T) (temperature : T),
     elementwise (fun x => O_ideal_isometric.relative_helmholtz_free_energy r x temperature) end_to_end_length
       (P_ideal_isometric.relative_helmholtz_free_energy p end_to_end_length temperature))
  /\ (forall (end_to_end_length : ndarray T) (temperature : T),
     elementwise (fun x => O_ideal_isometric.relative_helmholtz_free_energy_per_link r x temperature) end_to_end_length
       (P_ideal_isometric.relative_helmholtz_free_energy_per_link p end_to_end_length temperature))
  /\ (forall (nondimensional_end_to_end_length_per_link : ndarray T) (temperature : T),
     elementwise (fun x => O_ideal_isometric.nondimensional_helmholtz_free_energy r x temperature) nondimensional_end_to_end_length_per_link
       (P_ideal_isometric.nondimensional_helmholtz_free_energy p nondimensional_end_to_end_length_per_link temperature))
  /\ (forall (nondimensional_end_to_end_length_per_link : ndarray T) (temperature : T),
     elementwise (fun x => O_ideal_isometric.nondimensional_helmholtz_free_energy_per_link r x temperature) nondimensional_end_to_end_length_per_link
       (P_ideal_isometric.nondimensional_helmholtz_free_energy_per_link p nondimensional_end_to_end_length_per_link temperature))
  /\ (forall (nondimensional_end_to_end_length_per_link : ndarray T),
     elementwise (fun x => O_ideal_isometric.nondimensional_relative_helmholtz_free_energy r x) nondimensional_end_to_end_length_per_link
       (P_ideal_isometric.nondimensional_relative_helmholtz_free_energy p nondimensional_end_to_end_length_per_link))
  /\ (forall (nondimensional_end_to_end_length_per_link : ndarray T),
     elementwise (fun x => O_ideal_isometric.nondimensional_relative_helmholtz_free_energy_per_link r x) nondimensional_end_to_end_length_per_link
       (P_ideal_isometric.nondimensional_relative_helmholtz_free_energy_per_link p nondimensional_end_to_end_length_per_link))
  /\ (forall (end_to_end_length : ndarray T),
     elementwise (fun x => O_ideal_isometric.equilibrium_distribution r x) end_to_end_length
       (P_ideal_isometric.equilibrium_distribution p end_to_end_length))
  /\ (forall (nondimensional_end_to_end_length_per_link : ndarray T),
     elementwise (fun x => O_ideal_isometric.nondimensional_equilibrium_distribution r x) nondimensional_end_to_end_length_per_link
       (P_ideal_isometric.nondimensional_equilibrium_distribution p nondimensional_end_to_end_length_per_link))
  /\ (forall (end_to_end_length : ndarray T),
     elementwise (fun x => O_ideal_isometric.equilibrium_radial_distribution r x) end_to_end_length
       (P_ideal_isometric.equilibrium_radial_distribution p end_to_end_length))
  /\ (forall (nondimensional_end_to_end_length_per_link : ndarray T),
     elementwise (fun x => O_ideal_isometric.nondimensional_equilibrium_radial_distribution r x) nondimensional_end_to_end_length_per_link
       (P_ideal_isometric.nondimensional_equilibrium_radial_distribution p nondimensional_end_to_end_length_per_link)).
Proof.
  intros T Sc number_of_links link_length hinge_mass p r.
  assert (P_ideal_isometric.hinge_mass p = O_ideal_isometric.hinge_mass r) by reflexivity.
  assert (P_ideal_isometric.link_length p = O_ideal_isometric.link_length r) by reflexivity.
  assert (P_ideal_isometric.number_of_links p = O_ideal_isometric.number_of_links r) by reflexivity.
  clearbody p r.
  unfold P_ideal_isometric.force, P_ideal_isometric.nondimensional_force,
    P_ideal_isometric.helmholtz_free_energy, P_ideal_isometric.helmholtz_free_energy_per_link,
    P_ideal_isometric.relative_helmholtz_free_energy,
    P_ideal_isometric.relative_helmholtz_free_energy_per_link,
    P_ideal_isometric.nondimensional_helmholtz_free_energy,
    P_ideal_isometric.nondimensional_helmholtz_free_energy_per_link,
    P_ideal_isometric.nondimensional_relative_helmholtz_free_energy,
    P_ideal_isometric.nondimensional_relative_helmholtz_free_energy_per_link,
    P_ideal_isometric.equilibrium_distribution,
    P_ideal_isometric.nondimensional_equilibrium_distribution,
    P_ideal_isometric.equilibrium_radial_distribution,
    P_ideal_isometric.nondimensional_equilibrium_radial_distribution, O_ideal_isometric.force,
    O_ideal_isometric.nondimensional_force, O_ideal_isometric.helmholtz_free_energy,
    O_ideal_isometric.helmholtz_free_energy_per_link,
    O_ideal_isometric.relative_helmholtz_free_energy,
    O_ideal_isometric.relative_helmholtz_free_energy_per_link,
    O_ideal_isometric.nondimensional_helmholtz_free_energy,
    O_ideal_isometric.nondimensional_helmholtz_free_energy_per_link,
    O_ideal_isometric.nondimensional_relative_helmholtz_free_energy,
    O_ideal_isometric.nondimensional_relative_helmholtz_free_energy_per_link,
    O_ideal_isometric.equilibrium_distribution,
    O_ideal_isometric.nondimensional_equilibrium_distribution,
    O_ideal_isometric.equilibrium_radial_distribution,
    O_ideal_isometric.nondimensional_equilibrium_radial_distribution.
  elementwise_tac.
Qed.
Print Assumptions C58_ideal_isometric.

Theorem C58_ideal_isotensional : forall (T : Type) (Sc : Scalar T) (number_of_links : Z) (link_length : T) (hinge_mass : T),
  let p := P_ideal_thermodynamics.isotensional (P_ideal.thermodynamics (P_ideal.init number_of_links link_length hinge_mass)) in
  let r := O_ideal_thermodynamics.isotensional (O_ideal.thermodynamics (O_ideal.init number_of_links link_length hinge_mass)) in
  P_ideal_isotensional.hinge_mass p = O_ideal_isotensional.hinge_mass r
  /\ P_ideal_isotensional.link_length p = O_ideal_isotensional.link_length r
  /\ P_ideal_isotensional.number_of_links p = O_ideal_isotensional.number_of_links r
  /\ (forall (force : ndarray T) (temperature : T),
     elementwise (fun x => O_ideal_isotensional.end_to_end_length r x temperature) force
       (P_ideal_isotensional.end_to_end_length p force temperature))
  /\ (forall (force : ndarray T) (temperature : T),
     elementwise (fun x => O_ideal_isotensional.end_to_end_length_per_link r x temperature) force
       (P_ideal_isotensional.end_to_end_length_per_link p force temperature))
  /\ (forall (nondimensional_force : ndarray T),
     elementwise (fun x => O_ideal_isotensional.nondimensional_end_to_end_length r x) nondimensional_force
       (P_ideal_isotensional.nondimensional_end_to_end_length p nondimensional_force))
  /\ (forall (nondimensional_force : ndarray T),
     elementwise (fun x => O_ideal_isotensional.nondimensional_end_to_end_length_per_link r x) nondimensional_force
       (P_ideal_isotensional.nondimensional_end_to_end_length_per_link p nondimensional_force))
  /\ (forall (force : ndarray T) (temperature : T),
     elementwise (fun x => O_ideal_isotensional.gibbs_free_energy r x temperature) force
       (P_ideal_isotensional.gibbs_free_energy p force temperature))
  /\ (forall (force : ndarray T) (temperature : T),
     elementwise (fun x => O_ideal_isotensional.gibbs_free_energy_per_link r x temperature) force
       (P_ideal_isotensional.gibbs_free_energy_per_link p force temperature))
  /\ (forall (force : ndarray T) (temperature : T),
     elementwise (fun x => O_ideal_isotensional.relative_gibbs_free_energy r x temperature) force
       (P_ideal_isotensional.relative_gibbs_free_energy p force temperature))
  /\ (forall (force : ndarray T) (temperature : T),
     elementwise (fun x => O_ideal_isotensional.relative_gibbs_free_energy_per_link r x temperature) force
       (P_ideal_isotensional.relative_gibbs_free_energy_per_link p force temperature))
  /\ (forall (nondimensional_force : ndarray T) (temperature : T),
     elementwise (fun x => O_ideal_isotensional.nondimensional_gibbs_free_energy r x temperature) nondimensional_force
       (P_ideal_isotensional.nondimensional_gibbs_free_energy p nondimensional_force temperature))
  /\ (forall (nondimensional_force : ndarray T) (temperature : T),
     elementwise (fun x => O_ideal_isotensional.nondimensional_gibbs_free_energy_per_link r x temperature) nondimensional_force
       (P_ideal_isotensional.nondimensional_gibbs_free_energy_per_link p nondimensional_force temperature))
  /\ (forall (nondimensional_force : ndarray T),
     elementwise (fun x => O_ideal_isotensional.nondimensional_relative_gibbs_free_energy r x) nondimensional_force
       (P_ideal_isotensional.nondimensional_relative_gibbs_free_energy p nondimensional_force))
  /\ (forall (nondimensional_force : ndarray T),
     elementwise (fun x => O_ideal_isotensional.nondimensional_relative_gibbs_free_energy_per_link r x) nondimensional_force
       (P_ideal_isotensional.nondimensional_relative_gibbs_free_energy_per_link p nondimensional_force)).
Proof.
  intros T Sc number_of_links link_length hinge_mass p r.
  assert (P_ideal_isotensional.hinge_mass p = O_ideal_isotensional.hinge_mass r) by reflexivity.
  assert (P_ideal_isotensional.link_length p = O_ideal_isotensional.link_length r) by reflexivity.
  assert (P_ideal_isotensional.number_of_links p = O_ideal_isotensional.number_of_links r) by reflexivity.
  clearbody p r.
  unfold P_ideal_isotensional.end_to_end_length, P_ideal_isotensional.end_to_end_length_per_link,
    P_ideal_isotensional.nondimensional_end_to_end_length,
    P_ideal_isotensional.nondimensional_end_to_end_length_per_link,
    P_ideal_isotensional.gibbs_free_energy, P_ideal_isotensional.gibbs_free_energy_per_link,
    P_ideal_isotensional.relative_gibbs_free_energy,
    P_ideal_isotensional.relative_gibbs_free_energy_per_link,
    P_ideal_isotensional.nondimensional_gibbs_free_energy,
    P_ideal_isotensional.nondimensional_gibbs_free_energy_per_link,
    P_ideal_isotensional.nondimensional_relative_gibbs_free_energy,
    P_ideal_isotensional.nondimensional_relative_gibbs_free_energy_per_link,
    O_ideal_isotensional.end_to_end_length, O_ideal_isotensional.end_to_end_length_per_link,
    O_ideal_isotensional.nondimensional_end_to_end_length,
    O_ideal_isotensional.nondimensional_end_to_end_length_per_link,
    O_ideal_isotensional.gibbs_free_energy, O_ideal_isotensional.gibbs_free_energy_per_link,
    O_ideal_isotensional.relative_gibbs_free_energy,
    O_ideal_isotensional.relative_gibbs_free_energy_per_link,
    O_ideal_isotensional.nondimensional_gibbs_free_energy,
    O_ideal_isotensional.nondimensional_gibbs_free_energy_per_link,
    O_ideal_isotensional.nondimensional_relative_gibbs_free_energy,
    O_ideal_isotensional.nondimensional_relative_gibbs_free_energy_per_link.
  elementwise_tac.
Qed.
Print Assumptions C58_ideal_isotensional.

Theorem C58_fjc : forall (T : Type) (Sc : Scalar T) (number_of_links : Z) (link_length : T) (hinge_mass : T),
  let p := P_fjc.init number_of_links link_length hinge_mass in
  let r := O_fjc.init number_of_links link_length hinge_mass in
  P_fjc.hinge_mass p = O_fjc.hinge_mass r
  /\ P_fjc.link_length p = O_fjc.link_length r
  /\ P_fjc.number_of_links p = O_fjc.number_of_links r.
Proof.
  intros T Sc number_of_links link_length hinge_mass p r.
  assert (P_fjc.hinge_mass p = O_fjc.hinge_mass r) by reflexivity.
  assert (P_fjc.link_length p = O_fjc.link_length r) by reflexivity.
  assert (P_fjc.number_of_links p = O_fjc.number_of_links r) by reflexivity.
  clearbody p r.
  elementwise_tac.
Qed.
Print Assumptions C58_fjc.

Theorem C58_fjc_thermodynamics : forall (T : Type) (Sc : Scalar T) (number_of_links : Z) (link_length : T) (hinge_mass : T),
  let p := P_fjc.thermodynamics (P_fjc.init number_of_links link_length hinge_mass) in
  let r := O_fjc.thermodynamics (O_fjc.init number_of_links link_length hinge_mass) in
  P_fjc_thermodynamics.hinge_mass p = O_fjc_thermodynamics.hinge_mass r
  /\ P_fjc_thermodynamics.link_length p = O_fjc_thermodynamics.link_length r
  /\ P_fjc_thermodynamics.number_of_links p = O_fjc_thermodynamics.number_of_links r.
Proof.
  intros T Sc number_of_links link_length hinge_mass p r.
  assert (P_fjc_thermodynamics.hinge_mass p = O_fjc_thermodynamics.hinge_mass r) by reflexivity.
  assert (P_fjc_thermodynamics.link_length p = O_fjc_thermodynamics.link_length r) by reflexivity.
  assert (P_fjc_thermodynamics.number_of_links p = O_fjc_thermodynamics.number_of_links r) by reflexivity.
  clearbody p r.
  elementwise_tac.
Qed.
Print Assumptions C58_fjc_thermodynamics.

Theorem C58_fjc_isometric : forall (T : Type) (Sc : Scalar T) (number_of_links : Z) (link_length : T) (hinge_mass : T),
  let p := P_fjc_thermodynamics.isometric (P_fjc.thermodynamics (P_fjc.init number_of_links link_length hinge_mass)) in
  let r := O_fjc_thermodynamics.isometric (O_fjc.thermodynamics (O_fjc.init number_of_links link_length hinge_mass)) in
  P_fjc_isometric.hinge_mass p = O_fjc_isometric.hinge_mass r
  /\ P_fjc_isometric.link_length p = O_fjc_isometric.link_length r
  /\ P_fjc_isometric.number_of_links p = O_fjc_isometric.number_of_links r
  /\ (forall (prof : profile) (end_to_end_length : ndarray T) (temperature : T),
     elementwise_panic (fun x => O_fjc_isometric.force prof r x temperature) end_to_end_length
       (P_fjc_isometric.force prof p end_to_end_length temperature))
  /\ (forall (prof : profile) (nondimensional_end_to_end_length_per_link : ndarray T),
     elementwise_panic (fun x => O_fjc_isometric.nondimensional_force prof r x) nondimensional_end_to_end_length_per_link
       (P_fjc_isometric.nondimensional_force prof p nondimensional_end_to_end_length_per_link))
  /\ (forall (prof : profile) (end_to_end_length : ndarray T) (temperature : T),
     elementwise_panic (fun x => O_fjc_isometric.helmholtz_free_energy prof r x temperature) end_to_end_length
       (P_fjc_isometric.helmholtz_free_energy prof p end_to_end_length temperature))
  /\ (forall (prof : profile) (end_to_end_length : ndarray T) (temperature : T),
     elementwise_panic (fun x => O_fjc_isometric.helmholtz_free_energy_per_link prof r x temperature) end_to_end_length
       (P_fjc_isometric.helmholtz_free_energy_per_link prof p end_to_end_length temperature))
  /\ (forall (prof : profile) (end_to_end_length : ndarray T) (temperature : T),
     elementwise_panic (fun x => O_fjc_isometric.relative_helmholtz_free_energy prof r x temperature) end_to_end_length
       (P_fjc_isometric.relative_helmholtz_free_energy prof p end_to_end_length temperature))
  /\ (forall (prof : profile) (end_to_end_length : ndarray T) (temperature : T),
     elementwise_panic (fun x => O_fjc_isometric.relative_helmholtz_free_energy_per_link prof r x temperature) end_to_end_length
       (P_fjc_isometric.relative_helmholtz_free_energy_per_link prof p end_to_end_length temperature))
  /\ (forall (prof : profile) (nondimensional_end_to_end_length_per_link : ndarray T) (temperature : T),
     elementwise_panic (fun x => O_fjc_isometric.nondimensional_helmholtz_free_energy prof r x temperature) nondimensional_end_to_end_length_per_link
       (P_fjc_isometric.nondimensional_helmholtz_free_energy prof p nondimensional_end_to_end_length_per_link temperature))
  /\ (forall (prof : profile) (nondimensional_end_to_end_length_per_link : ndarray T) (temperature : T),
     elementwise_panic (fun x => O_fjc_isometric.nondimensional_helmholtz_free_energy_per_link prof r x temperature) nondimensional_end_to_end_length_per_link
       (P_fjc_isometric.nondimensional_helmholtz_free_energy_per_link prof p nondimensional_end_to_end_length_per_link temperature))
  /\ (forall (prof : profile) (nondimensional_end_to_end_length_per_link : ndarray T),
     elementwise_panic (fun x => O_fjc_isometric.nondimensional_relative_helmholtz_free_energy prof r x) nondimensional_end_to_end_length_per_link
       (P_fjc_isometric.nondimensional_relative_helmholtz_free_energy prof p nondimensional_end_to_end_length_per_link))
  /\ (forall (prof : profile) (nondimensional_end_to_end_length_per_link : ndarray T),
     elementwise_panic (fun x => O_fjc_isometric.nondimensional_relative_helmholtz_free_energy_per_link prof r x) nondimensional_end_to_end_length_per_link
       (P_fjc_isometric.nondimensional_relative_helmholtz_free_energy_per_link prof p nondimensional_end_to_end_length_per_link))
  /\ (forall (prof : profile) (end_to_end_length : ndarray T),
     elementwise_panic (fun x => O_fjc_isometric.equilibrium_distribution prof r x) end_to_end_length
       (P_fjc_isometric.equilibrium_distribution prof p end_to_end_length))
  /\ (forall (prof : profile) (nondimensional_end_to_end_length_per_link : ndarray T),
     elementwise_panic (fun x => O_fjc_isometric.nondimensional_equilibrium_distribution prof r x) nondimensional_end_to_end_length_per_link
       (P_fjc_isometric.nondimensional_equilibrium_distribution prof p nondimensional_end_to_end_length_per_link))
  /\ (forall (prof : profile) (end_to_end_length : ndarray T),
     elementwise_panic (fun x => O_fjc_isometric.equilibrium_radial_distribution prof r x) end_to_end_length
       (P_fjc_isometric.equilibrium_radial_distribution prof p end_to_end_length))
  /\ (forall (prof : profile) (nondimensional_end_to_end_length_per_link : ndarray T),
     elementwise_panic (fun x => O_fjc_isometric.nondimensional_equilibrium_radial_distribution prof r x) nondimensional_end_to_end_length_per_link
       (P_fjc_isometric.nondimensional_equilibrium_radial_distribution prof p nondimensional_end_to_end_length_per_link)).
Proof.
  intros T Sc number_of_links link_length hinge_mass p r.
  assert (P_fjc_isometric.hinge_mass p = O_fjc_isometric.hinge_mass r) by reflexivity.
  assert (P_fjc_isometric.link_length p = O_fjc_isometric.link_length r) by reflexivity.
  assert (P_fjc_isometric.number_of_links p = O_fjc_isometric.number_of_links r) by reflexivity.
  clearbody p r.
  unfold P_fjc_isometric.force, P_fjc_isometric.nondimensional_force,
    P_fjc_isometric.helmholtz_free_energy, P_fjc_isometric.helmholtz_free_energy_per_link,
    P_fjc_isometric.relative_helmholtz_free_energy,
    P_fjc_isometric.relative_helmholtz_free_energy_per_link,
    P_fjc_isometric.nondimensional_helmholtz_free_energy,
    P_fjc_isometric.nondimensional_helmholtz_free_energy_per_link,
    P_fjc_isometric.nondimensional_relative_helmholtz_free_energy,
    P_fjc_isometric.nondimensional_relative_helmholtz_free_energy_per_link,
    P_fjc_isometric.equilibrium_distribution,
    P_fjc_isometric.nondimensional_equilibrium_distribution,
    P_fjc_isometric.equilibrium_radial_distribution,
    P_fjc_isometric.nondimensional_equilibrium_radial_distribution, O_fjc_isometric.force,
    O_fjc_isometric.nondimensional_force, O_fjc_isometric.helmholtz_free_energy,
    O_fjc_isometric.helmholtz_free_energy_per_link, O_fjc_isometric.relative_helmholtz_free_energy,
    O_fjc_isometric.relative_helmholtz_free_energy_per_link,
    O_fjc_isometric.nondimensional_helmholtz_free_energy,
    O_fjc_isometric.nondimensional_helmholtz_free_energy_per_link,
    O_fjc_isometric.nondimensional_relative_helmholtz_free_energy,
    O_fjc_isometric.nondimensional_relative_helmholtz_free_energy_per_link,
    O_fjc_isometric.equilibrium_distribution,
    O_fjc_isometric.nondimensional_equilibrium_distribution,
    O_fjc_isometric.equilibrium_radial_distribution,
    O_fjc_isometric.nondimensional_equilibrium_radial_distribution.
  elementwise_tac.
Qed.
Print Assumptions C58_fjc_isometric.

Theorem C58_fjc_isometric_legendre : forall (T : Type) (Sc : Scalar T) (number_of_links : Z) (link_length : T) (hinge_mass : T),
  let p := P_fjc_isometric.legendre (P_fjc_thermodynamics.isometric (P_fjc.thermodynamics (P_fjc.init number_of_links link_length hinge_mass))) in
  let r := O_fjc_isometric.legendre (O_fjc_thermodynamics.isometric (O_fjc.thermodynamics (O_fjc.init number_of_links link_length hinge_mass))) in
  P_fjc_isometric_legendre.hinge_mass p = O_fjc_isometric_legendre.hinge_mass r
  /\ P_fjc_isometric_legendre.link_length p = O_fjc_isometric_legendre.link_length r
  /\ P_fjc_isometric_legendre.number_of_links p = O_fjc_isometric_legendre.number_of_links r
  /\ (forall (end_to_end_length : ndarray T) (temperature : T),
     elementwise (fun x => O_fjc_isometric_legendre.force r x temperature) end_to_end_length
       (P_fjc_isometric_legendre.force p end_to_end_length temperature))
  /\ (forall (nondimensional_end_to_end_length_per_link : ndarray T),
     elementwise (fun x => O_fjc_isometric_legendre.nondimensional_force r x) nondimensional_end_to_end_length_per_link
       (P_fjc_isometric_legendre.nondimensional_force p nondimensional_end_to_end_length_per_link))
  /\ (forall (end_to_end_length : ndarray T) (temperature : T),
     elementwise (fun x => O_fjc_isometric_legendre.helmholtz_free_energy r x temperature) end_to_end_length
       (P_fjc_isometric_legendre.helmholtz_free_energy p end_to_end_length temperature))
  /\ (forall (end_to_end_length : ndarray T) (temperature : T),
     elementwise (fun x => O_fjc_isometric_legendre.helmholtz_free_energy_per_link r x temperature) end_to_end_length
       (P_fjc_isometric_legendre.helmholtz_free_energy_per_link p end_to_end_length temperature))
  /\ (forall (end_to_end_length : ndarray T) (temperature : T),
     elementwise (fun x => O_fjc_isometric_legendre.relative_helmholtz_free_energy r x temperature) end_to_end_length
       (P_fjc_isometric_legendre.relative_helmholtz_free_energy p end_to_end_length temperature))
  /\ (forall (end_to_end_length : ndarray T) (temperature : T),
     elementwise (fun x => O_fjc_isometric_legendre.relative_helmholtz_free_energy_per_link r x temperature) end_to_end_length
       (P_fjc_isometric_legendre.relative_helmholtz_free_energy_per_link p end_to_end_length temperature))
  /\ (forall (nondimensional_end_to_end_length_per_link : ndarray T) (temperature : T),
     elementwise (fun x => O_fjc_isometric_legendre.nondimensional_helmholtz_free_energy r x temperature) nondimensional_end_to_end_length_per_link
       (P_fjc_isometric_legendre.nondimensional_helmholtz_free_energy p nondimensional_end_to_end_length_per_link temperature))
  /\ (forall (nondimensional_end_to_end_length_per_link : ndarray T) (temperature : T),
     elementwise (fun x => O_fjc_isometric_legendre.nondimensional_helmholtz_free_energy_per_link r x temperature) nondimensional_end_to_end_length_per_link
       (P_fjc_isometric_legendre.nondimensional_helmholtz_free_energy_per_link p nondimensional_end_to_end_length_per_link temperature))
  /\ (forall (nondimensional_end_to_end_length_per_link : ndarray T),
     elementwise (fun x => O_fjc_isometric_legendre.nondimensional_relative_helmholtz_free_energy r x) nondimensional_end_to_end_length_per_link
       (P_fjc_isometric_legendre.nondimensional_relative_helmholtz_free_energy p nondimensional_end_to_end_length_per_link))
  /\ (forall (nondimensional_end_to_end_length_per_link : ndarray T),
     elementwise (fun x => O_fjc_isometric_legendre.nondimensional_relative_helmholtz_free_energy_per_link r x) nondimensional_end_to_end_length_per_link
       (P_fjc_isometric_legendre.nondimensional_relative_helmholtz_free_energy_per_link p nondimensional_end_to_end_length_per_link))
  /\ (forall (end_to_end_length : ndarray T),
     elementwise (fun x => O_fjc_isometric_legendre.equilibrium_distribution r x) end_to_end_length
       (P_fjc_isometric_legendre.equilibrium_distribution p end_to_end_length))
  /\ (forall (nondimensional_end_to_end_length_per_link : ndarray T),
     elementwise (fun x => O_fjc_isometric_legendre.nondimensional_equilibrium_distribution r x) nondimensional_end_to_end_length_per_link
       (P_fjc_isometric_legendre.nondimensional_equilibrium_distribution p nondimensional_end_to_end_length_per_link))
  /\ (forall (end_to_end_length : ndarray T),
     elementwise (fun x => O_fjc_isometric_legendre.equilibrium_radial_distribution r x) end_to_end_length
       (P_fjc_isometric_legendre.equilibrium_radial_distribution p end_to_end_length))
  /\ (forall (nondimensional_end_to_end_length_per_link : ndarray T),
     elementwise (fun x => O_fjc_isometric_legendre.nondimensional_equilibrium_radial_distribution r x) nondimensional_end_to_end_length_per_link
       (P_fjc_isometric_legendre.nondimensional_equilibrium_radial_distribution p nondimensional_end_to_end_length_per_link))
  /\ (forall (prof : profile) (end_to_end_length : ndarray T) (temperature : T),
     elementwise_panic (fun x => O_fjc_isometric_legendre.gibbs_free_energy prof r x temperature) end_to_end_length
       (P_fjc_isometric_legendre.gibbs_free_energy prof p end_to_end_length temperature))
  /\ (forall (prof : profile) (end_to_end_length : ndarray T) (temperature : T),
     elementwise_panic (fun x => O_fjc_isometric_legendre.gibbs_free_energy_per_link prof r x temperature) end_to_end_length
       (P_fjc_isometric_legendre.gibbs_free_energy_per_link prof p end_to_end_length temperature))
  /\ (forall (prof : profile) (end_to_end_length : ndarray T) (temperature : T),
     elementwise_panic (fun x => O_fjc_isometric_legendre.relative_gibbs_free_energy prof r x temperature) end_to_end_length
       (P_fjc_isometric_legendre.relative_gibbs_free_energy prof p end_to_end_length temperature))
  /\ (forall (prof : profile) (end_to_end_length : ndarray T) (temperature : T),
     elementwise_panic (fun x => O_fjc_isometric_legendre.relative_gibbs_free_energy_per_link prof r x temperature) end_to_end_length
       (P_fjc_isometric_legendre.relative_gibbs_free_energy_per_link prof p end_to_end_length temperature))
  /\ (forall (prof : profile) (nondimensional_end_to_end_length_per_link : ndarray T) (temperature : T),
     elementwise_panic (fun x => O_fjc_isometric_legendre.nondimensional_gibbs_free_energy prof r x temperature) nondimensional_end_to_end_length_per_link
       (P_fjc_isometric_legendre.nondimensional_gibbs_free_energy prof p nondimensional_end_to_end_length_per_link temperature))
  /\ (forall (prof : profile) (nondimensional_end_to_end_length_per_link : ndarray T) (temperature : T),
     elementwise_panic (fun x => O_fjc_isometric_legendre.nondimensional_gibbs_free_energy_per_link prof r x temperature) nondimensional_end_to_end_length_per_link
       (P_fjc_isometric_legendre.nondimensional_gibbs_free_energy_per_link prof p nondimensional_end_to_end_length_per_link temperature))
  /\ (forall (prof : profile) (nondimensional_end_to_end_length_per_link : ndarray T),
     elementwise_panic (fun x => O_fjc_isometric_legendre.nondimensional_relative_gibbs_free_energy prof r x) nondimensional_end_to_end_length_per_link
       (P_fjc_isometric_legendre.nondimensional_relative_gibbs_free_energy prof p nondimensional_end_to_end_length_per_link))
  /\ (forall (prof : profile) (nondimensional_end_to_end_length_per_link : ndarray T),
     elementwise_panic (fun x => O_fjc_isometric_legendre.nondimensional_relative_gibbs_free_energy_per_link prof r x) nondimensional_end_to_end_length_per_link
       (P_fjc_isometric_legendre.nondimensional_relative_gibbs_free_energy_per_link prof p nondimensional_end_to_end_length_per_link)).
Proof.
  intros T Sc number_of_links link_length hinge_mass p r.
  assert (P_fjc_isometric_legendre.hinge_mass p = O_fjc_isometric_legendre.hinge_mass r) by reflexivity.
  assert (P_fjc_isometric_legendre.link_length p = O_fjc_isometric_legendre.link_length r) by reflexivity.
  assert (P_fjc_isometric_legendre.number_of_links p = O_fjc_isometric_legendre.number_of_links r) by reflexivity.
  assert (P_fjc_isometric_legendre.normalization_nondimensional_equilibrium_distribution p = O_fjc_isometric_legendre.normalization_nondimensional_equilibrium_distribution r) by reflexivity.
  clearbody p r.
  unfold P_fjc_isometric_legendre.force, P_fjc_isometric_legendre.nondimensional_force,
    P_fjc_isometric_legendre.helmholtz_free_energy,
    P_fjc_isometric_legendre.helmholtz_free_energy_per_link,
    P_fjc_isometric_legendre.relative_helmholtz_free_energy,
    P_fjc_isometric_legendre.relative_helmholtz_free_energy_per_link,
    P_fjc_isometric_legendre.nondimensional_helmholtz_free_energy,
    P_fjc_isometric_legendre.nondimensional_helmholtz_free_energy_per_link,
    P_fjc_isometric_legendre.nondimensional_relative_helmholtz_free_energy,
    P_fjc_isometric_legendre.nondimensional_relative_helmholtz_free_energy_per_link,
    P_fjc_isometric_legendre.equilibrium_distribution,
    P_fjc_isometric_legendre.nondimensional_equilibrium_distribution,
    P_fjc_isometric_legendre.equilibrium_radial_distribution,
    P_fjc_isometric_legendre.nondimensional_equilibrium_radial_distribution,
    P_fjc_isometric_legendre.gibbs_free_energy, P_fjc_isometric_legendre.gibbs_free_energy_per_link,
    P_fjc_isometric_legendre.relative_gibbs_free_energy,
    P_fjc_isometric_legendre.relative_gibbs_free_energy_per_link,
    P_fjc_isometric_legendre.nondimensional_gibbs_free_energy,
    P_fjc_isometric_legendre.nondimensional_gibbs_free_energy_per_link,
    P_fjc_isometric_legendre.nondimensional_relative_gibbs_free_energy,
    P_fjc_isometric_legendre.nondimensional_relative_gibbs_free_energy_per_link,
    O_fjc_isometric_legendre.force, O_fjc_isometric_legendre.nondimensional_force,
    O_fjc_isometric_legendre.helmholtz_free_energy,
    O_fjc_isometric_legendre.helmholtz_free_energy_per_link,
    O_fjc_isometric_legendre.relative_helmholtz_free_energy,
    O_fjc_isometric_legendre.relative_helmholtz_free_energy_per_link,
    O_fjc_isometric_legendre.nondimensional_helmholtz_free_energy,
    O_fjc_isometric_legendre.nondimensional_helmholtz_free_energy_per_link,
    O_fjc_isometric_legendre.nondimensional_relative_helmholtz_free_energy,
    O_fjc_isometric_legendre.nondimensional_relative_helmholtz_free_energy_per_link,
    O_fjc_isometric_legendre.equilibrium_distribution,
    O_fjc_isometric_legendre.nondimensional_equilibrium_distribution,
    O_fjc_isometric_legendre.equilibrium_radial_distribution,
    O_fjc_isometric_legendre.nondimensional_equilibrium_radial_distribution,
    O_fjc_isometric_legendre.gibbs_free_energy, O_fjc_isometric_legendre.gibbs_free_energy_per_link,
    O_fjc_isometric_legendre.relative_gibbs_free_energy,
    O_fjc_isometric_legendre.relative_gibbs_free_energy_per_link,
    O_fjc_isometric_legendre.nondimensional_gibbs_free_energy,
    O_fjc_isometric_legendre.nondimensional_gibbs_free_energy_per_link,
    O_fjc_isometric_legendre.nondimensional_relative_gibbs_free_energy,
    O_fjc_isometric_legendre.nondimensional_relative_gibbs_free_energy_per_link.
  elementwise_tac.
Qed.
Print Assumptions C58_fjc_isometric_legendre.

Theorem C58_fjc_isotensional : forall (T : Type) (Sc : Scalar T) (number_of_links : Z) (link_length : T) (hinge_mass : T),
  let p := P_fjc_thermodynamics.isotensional (P_fjc.thermodynamics (P_fjc.init number_of_links link_length hinge_mass)) in
  let r := O_fjc_thermodynamics.isotensional (O_fjc.thermodynamics (O_fjc.init number_of_links link_length hinge_mass)) in
  P_fjc_isotensional.hinge_mass p = O_fjc_isotensional.hinge_mass r
  /\ P_fjc_isotensional.link_length p = O_fjc_isotensional.link_length r
  /\ P_fjc_isotensional.number_of_links p = O_fjc_isotensional.number_of_links r
  /\ (forall (force : ndarray T) (temperature : T),
     elementwise (fun x => O_fjc_isotensional.end_to_end_length r x temperature) force
       (P_fjc_isotensional.end_to_end_length p force temperature))
  /\ (forall (force : ndarray T) (temperature : T),
     elementwise (fun x => O_fjc_isotensional.end_to_end_length_per_link r x temperature) force
       (P_fjc_isotensional.end_to_end_length_per_link p force temperature))
  /\ (forall (nondimensional_force : ndarray T),
     elementwise (fun x => O_fjc_isotensional.nondimensional_end_to_end_length r x) nondimensional_force
       (P_fjc_isotensional.nondimensional_end_to_end_length p nondimensional_force))
  /\ (forall (nondimensional_force : ndarray T),
     elementwise (fun x => O_fjc_isotensional.nondimensional_end_to_end_length_per_link r x) nondimensional_force
       (P_fjc_isotensional.nondimensional_end_to_end_length_per_link p nondimensional_force))
  /\ (forall (force : ndarray T) (temperature : T),
     elementwise (fun x => O_fjc_isotensional.gibbs_free_energy r x temperature) force
       (P_fjc_isotensional.gibbs_free_energy p force temperature))
  /\ (forall (force : ndarray T) (temperature : T),
     elementwise (fun x => O_fjc_isotensional.gibbs_free_energy_per_link r x temperature) force
       (P_fjc_isotensional.gibbs_free_energy_per_link p force temperature))
  /\ (forall (force : ndarray T) (temperature : T),
     elementwise (fun x => O_fjc_isotensional.relative_gibbs_free_energy r x temperature) force
       (P_fjc_isotensional.relative_gibbs_free_energy p force temperature))
  /\ (forall (force : ndarray T) (temperature : T),
     elementwise (fun x => O_fjc_isotensional.relative_gibbs_free_energy_per_link r x temperature) force
       (P_fjc_isotensional.relative_gibbs_free_energy_per_link p force temperature))
  /\ (forall (nondimensional_force : ndarray T) (temperature : T),
     elementwise (fun x => O_fjc_isotensional.nondimensional_gibbs_free_energy r x temperature) nondimensional_force
       (P_fjc_isotensional.nondimensional_gibbs_free_energy p nondimensional_force temperature))
  /\ (forall (nondimensional_force : ndarray T) (temperature : T),
     elementwise (fun x => O_fjc_isotensional.nondimensional_gibbs_free_energy_per_link r x temperature) nondimensional_force
       (P_fjc_isotensional.nondimensional_gibbs_free_energy_per_link p nondimensional_force temperature))
  /\ (forall (nondimensional_force : ndarray T),
     elementwise (fun x => O_fjc_isotensional.nondimensional_relative_gibbs_free_energy r x) nondimensional_force
       (P_fjc_isotensional.nondimensional_relative_gibbs_free_energy p nondimensional_force))
  /\ (forall (nondimensional_force : ndarray T),
     elementwise (fun x => O_fjc_isotensional.nondimensional_relative_gibbs_free_energy_per_link r x) nondimensional_force
       (P_fjc_isotensional.nondimensional_relative_gibbs_free_energy_per_link p nondimensional_force)).
Proof.
  intros T Sc number_of_links link_length hinge_mass p r.
  assert (P_fjc_isotensional.hinge_mass p = O_fjc_isotensional.hinge_mass r) by reflexivity.
  assert (P_fjc_isotensional.link_length p = O_fjc_isotensional.link_length r) by reflexivity.
  assert (P_fjc_isotensional.number_of_links p = O_fjc_isotensional.number_of_links r) by reflexivity.
  clearbody p r.
  unfold P_fjc_isotensional.end_to_end_length, P_fjc_isotensional.end_to_end_length_per_link,
    P_fjc_isotensional.nondimensional_end_to_end_length,
    P_fjc_isotensional.nondimensional_end_to_end_length_per_link,
    P_fjc_isotensional.gibbs_free_energy, P_fjc_isotensional.gibbs_free_energy_per_link,
    P_fjc_isotensional.relative_gibbs_free_energy,
    P_fjc_isotensional.relative_gibbs_free_energy_per_link,
    P_fjc_isotensional.nondimensional_gibbs_free_energy,
    P_fjc_isotensional.nondimensional_gibbs_free_energy_per_link,
    P_fjc_isotensional.nondimensional_relative_gibbs_free_energy,
    P_fjc_isotensional.nondimensional_relative_gibbs_free_energy_per_link,
    O_fjc_isotensional.end_to_end_length, O_fjc_isotensional.end_to_end_length_per_link,
    O_fjc_isotensional.nondimensional_end_to_end_length,
    O_fjc_isotensional.nondimensional_end_to_end_length_per_link,
    O_fjc_isotensional.gibbs_free_energy, O_fjc_isotensional.gibbs_free_energy_per_link,
    O_fjc_isotensional.relative_gibbs_free_energy,
    O_fjc_isotensional.relative_gibbs_free_energy_per_link,
    O_fjc_isotensional.nondimensional_gibbs_free_energy,
    O_fjc_isotensional.nondimensional_gibbs_free_energy_per_link,
    O_fjc_isotensional.nondimensional_relative_gibbs_free_energy,
    O_fjc_isotensional.nondimensional_relative_gibbs_free_energy_per_link.
  elementwise_tac.
Qed.
Print Assumptions C58_fjc_isotensional.

Theorem C58_fjc_isotensional_legendre : forall (T : Type) (Sc : Scalar T) (number_of_links : Z) (link_length : T) (hinge_mass : T),
  let p := P_fjc_isotensional.legendre (P_fjc_thermodynamics.isotensional (P_fjc.thermodynamics (P_fjc.init number_of_links link_length hinge_mass))) in
  let r := O_fjc_isotensional.legendre (O_fjc_thermodynamics.isotensional (O_fjc.thermodynamics (O_fjc.init number_of_links link_length hinge_mass))) in
  P_fjc_isotensional_legendre.hinge_mass p = O_fjc_isotensional_legendre.hinge_mass r
  /\ P_fjc_isotensional_legendre.link_length p = O_fjc_isotensional_legendre.link_length r
  /\ P_fjc_isotensional_legendre.number_of_links p = O_fjc_isotensional_legendre.number_of_links r
  /\ (forall (force : ndarray T) (temperature : T),
     elementwise (fun x => O_fjc_isotensional_legendre.helmholtz_free_energy r x temperature) force
       (P_fjc_isotensional_legendre.helmholtz_free_energy p force temperature))
  /\ (forall (force : ndarray T) (temperature : T),
     elementwise (fun x => O_fjc_isotensional_legendre.helmholtz_free_energy_per_link r x temperature) force
       (P_fjc_isotensional_legendre.helmholtz_free_energy_per_link p force temperature))
  /\ (forall (force : ndarray T) (temperature : T),
     elementwise (fun x => O_fjc_isotensional_legendre.relative_helmholtz_free_energy r x temperature) force
       (P_fjc_isotensional_legendre.relative_helmholtz_free_energy p force temperature))
  /\ (forall (force : ndarray T) (temperature : T),
     elementwise (fun x => O_fjc_isotensional_legendre.relative_helmholtz_free_energy_per_link r x temperature) force
       (P_fjc_isotensional_legendre.relative_helmholtz_free_energy_per_link p force temperature))
  /\ (forall (nondimensional_force : ndarray T) (temperature : T),
     elementwise (fun x => O_fjc_isotensional_legendre.nondimensional_helmholtz_free_energy r x temperature) nondimensional_force
       (P_fjc_isotensional_legendre.nondimensional_helmholtz_free_energy p nondimensional_force temperature))
  /\ (forall (nondimensional_force : ndarray T) (temperature : T),
     elementwise (fun x => O_fjc_isotensional_legendre.nondimensional_helmholtz_free_energy_per_link r x temperature) nondimensional_force
       (P_fjc_isotensional_legendre.nondimensional_helmholtz_free_energy_per_link p nondimensional_force temperature))
  /\ (forall (nondimensional_force : ndarray T),
     elementwise (fun x => O_fjc_isotensional_legendre.nondimensional_relative_helmholtz_free_energy r x) nondimensional_force
       (P_fjc_isotensional_legendre.nondimensional_relative_helmholtz_free_energy p nondimensional_force))
  /\ (forall (nondimensional_force : ndarray T),
     elementwise (fun x => O_fjc_isotensional_legendre.nondimensional_relative_helmholtz_free_energy_per_link r x) nondimensional_force
       (P_fjc_isotensional_legendre.nondimensional_relative_helmholtz_free_energy_per_link p nondimensional_force)).
Proof.
  intros T Sc number_of_links link_length hinge_mass p r.
  assert (P_fjc_isotensional_legendre.hinge_mass p = O_fjc_isotensional_legendre.hinge_mass r) by reflexivity.
  assert (P_fjc_isotensional_legendre.link_length p = O_fjc_isotensional_legendre.link_length r) by reflexivity.
  assert (P_fjc_isotensional_legendre.number_of_links p = O_fjc_isotensional_legendre.number_of_links r) by reflexivity.
  clearbody p r.
  unfold P_fjc_isotensional_legendre.helmholtz_free_energy,
    P_fjc_isotensional_legendre.helmholtz_free_energy_per_link,
    P_fjc_isotensional_legendre.relative_helmholtz_free_energy,
    P_fjc_isotensional_legendre.relative_helmholtz_free_energy_per_link,
    P_fjc_isotensional_legendre.nondimensional_helmholtz_free_energy,
    P_fjc_isotensional_legendre.nondimensional_helmholtz_free_energy_per_link,
    P_fjc_isotensional_legendre.nondimensional_relative_helmholtz_free_energy,
    P_fjc_isotensional_legendre.nondimensional_relative_helmholtz_free_energy_per_link,
    O_fjc_isotensional_legendre.helmholtz_free_energy,
    O_fjc_isotensional_legendre.helmholtz_free_energy_per_link,
    O_fjc_isotensional_legendre.relative_helmholtz_free_energy,
    O_fjc_isotensional_legendre.relative_helmholtz_free_energy_per_link,
    O_fjc_isotensional_legendre.nondimensional_helmholtz_free_energy,
    O_fjc_isotensional_legendre.nondimensional_helmholtz_free_energy_per_link,
    O_fjc_isotensional_legendre.nondimensional_relative_helmholtz_free_energy,
    O_fjc_isotensional_legendre.nondimensional_relative_helmholtz_free_energy_per_link.
  elementwise_tac.
Qed.
Print Assumptions C58_fjc_isotensional_legendre.

Theorem C58_fjc_modified_canonical : forall (T : Type) (Sc : Scalar T) (number_of_links : Z) (link_length : T) (hinge_mass : T),
  let p := P_fjc_thermodynamics.modified_canonical (P_fjc.thermodynamics (P_fjc.init number_of_links link_length hinge_mass)) in
  let r := O_fjc_thermodynamics.modified_canonical (O_fjc.thermodynamics (O_fjc.init number_of_links link_length hinge_mass)) in
  P_fjc_modified_canonical.hinge_mass p = O_fjc_modified_canonical.hinge_mass r
  /\ P_fjc_modified_canonical.link_length p = O_fjc_modified_canonical.link_length r
  /\ P_fjc_modified_canonical.number_of_links p = O_fjc_modified_canonical.number_of_links r
  /\ (forall (prof : profile) (potential_distance : ndarray T) (potential_stiffness : T) (temperature : T),
     elementwise_panic (fun x => O_fjc_modified_canonical.end_to_end_length prof r x potential_stiffness temperature) potential_distance
       (P_fjc_modified_canonical.end_to_end_length prof p potential_distance potential_stiffness temperature))
  /\ (forall (prof : profile) (potential_distance : ndarray T) (potential_stiffness : T) (temperature : T),
     elementwise_panic (fun x => O_fjc_modified_canonical.end_to_end_length_per_link prof r x potential_stiffness temperature) potential_distance
       (P_fjc_modified_canonical.end_to_end_length_per_link prof p potential_distance potential_stiffness temperature))
  /\ (forall (prof : profile) (nondimensional_potential_distance : ndarray T) (nondimensional_potential_stiffness : T),
     elementwise_panic (fun x => O_fjc_modified_canonical.nondimensional_end_to_end_length prof r x nondimensional_potential_stiffness) nondimensional_potential_distance
       (P_fjc_modified_canonical.nondimensional_end_to_end_length prof p nondimensional_potential_distance nondimensional_potential_stiffness))
  /\ (forall (prof : profile) (nondimensional_potential_distance : ndarray T) (nondimensional_potential_stiffness : T),
     elementwise_panic (fun x => O_fjc_modified_canonical.nondimensional_end_to_end_length_per_link prof r x nondimensional_potential_stiffness) nondimensional_potential_distance
       (P_fjc_modified_canonical.nondimensional_end_to_end_length_per_link prof p nondimensional_potential_distance nondimensional_potential_stiffness))
  /\ (forall (prof : profile) (potential_distance : ndarray T) (potential_stiffness : T) (temperature : T),
     elementwise_panic (fun x => O_fjc_modified_canonical.force prof r x potential_stiffness temperature) potential_distance
       (P_fjc_modified_canonical.force prof p potential_distance potential_stiffness temperature))
  /\ (forall (prof : profile) (nondimensional_potential_distance : ndarray T) (nondimensional_potential_stiffness : T),
     elementwise_panic (fun x => O_fjc_modified_canonical.nondimensional_force prof r x nondimensional_potential_stiffness) nondimensional_potential_distance
       (P_fjc_modified_canonical.nondimensional_force prof p nondimensional_potential_distance nondimensional_potential_stiffness))
  /\ (forall (prof : profile) (potential_distance : ndarray T) (potential_stiffness : T) (temperature : T),
     elementwise_panic (fun x => O_fjc_modified_canonical.helmholtz_free_energy prof r x potential_stiffness temperature) potential_distance
       (P_fjc_modified_canonical.helmholtz_free_energy prof p potential_distance potential_stiffness temperature))
  /\ (forall (prof : profile) (potential_distance : ndarray T) (potential_stiffness : T) (temperature : T),
     elementwise_panic (fun x => O_fjc_modified_canonical.helmholtz_free_energy_per_link prof r x potential_stiffness temperature) potential_distance
       (P_fjc_modified_canonical.helmholtz_free_energy_per_link prof p potential_distance potential_stiffness temperature))
  /\ (forall (prof : profile) (potential_distance : ndarray T) (potential_stiffness : T) (temperature : T),
     elementwise_panic (fun x => O_fjc_modified_canonical.relative_helmholtz_free_energy prof r x potential_stiffness temperature) potential_distance
       (P_fjc_modified_canonical.relative_helmholtz_free_energy prof p potential_distance potential_stiffness temperature))
  /\ (forall (prof : profile) (potential_distance : ndarray T) (potential_stiffness : T) (temperature : T),
     elementwise_panic (fun x => O_fjc_modified_canonical.relative_helmholtz_free_energy_per_link prof r x potential_stiffness temperature) potential_distance
       (P_fjc_modified_canonical.relative_helmholtz_free_energy_per_link prof p potential_distance potential_stiffness temperature))
  /\ (forall (prof : profile) (nondimensional_potential_distance : ndarray T) (nondimensional_potential_stiffness : T) (temperature : T),
     elementwise_panic (fun x => O_fjc_modified_canonical.nondimensional_helmholtz_free_energy prof r x nondimensional_potential_stiffness temperature) nondimensional_potential_distance
       (P_fjc_modified_canonical.nondimensional_helmholtz_free_energy prof p nondimensional_potential_distance nondimensional_potential_stiffness temperature))
  /\ (forall (prof : profile) (nondimensional_potential_distance : ndarray T) (nondimensional_potential_stiffness : T) (temperature : T),
     elementwise_panic (fun x => O_fjc_modified_canonical.nondimensional_helmholtz_free_energy_per_link prof r x nondimensional_potential_stiffness temperature) nondimensional_potential_distance
       (P_fjc_modified_canonical.nondimensional_helmholtz_free_energy_per_link prof p nondimensional_potential_distance nondimensional_potential_stiffness temperature))
  /\ (forall (prof : profile) (nondimensional_potential_distance : ndarray T) (nondimensional_potential_stiffness : T),
     elementwise_panic (fun x => O_fjc_modified_canonical.nondimensional_relative_helmholtz_free_energy prof r x nondimensional_potential_stiffness) nondimensional_potential_distance
       (P_fjc_modified_canonical.nondimensional_relative_helmholtz_free_energy prof p nondimensional_potential_distance nondimensional_potential_stiffness))
  /\ (forall (prof : profile) (nondimensional_potential_distance : ndarray T) (nondimensional_potential_stiffness : T),
     elementwise_panic (fun x => O_fjc_modified_canonical.nondimensional_relative_helmholtz_free_energy_per_link prof r x nondimensional_potential_stiffness) nondimensional_potential_distance
       (P_fjc_modified_canonical.nondimensional_relative_helmholtz_free_energy_per_link prof p nondimensional_potential_distance nondimensional_potential_stiffness))
  /\ (forall (prof : profile) (potential_distance : ndarray T) (potential_stiffness : T) (temperature : T),
     elementwise_panic (fun x => O_fjc_modified_canonical.gibbs_free_energy prof r x potential_stiffness temperature) potential_distance
       (P_fjc_modified_canonical.gibbs_free_energy prof p potential_distance potential_stiffness temperature))
  /\ (forall (prof : profile) (potential_distance : ndarray T) (potential_stiffness : T) (temperature : T),
     elementwise_panic (fun x => O_fjc_modified_canonical.gibbs_free_energy_per_link prof r x potential_stiffness temperature) potential_distance
       (P_fjc_modified_canonical.gibbs_free_energy_per_link prof p potential_distance potential_stiffness temperature))
  /\ (forall (prof : profile) (potential_distance : ndarray T) (potential_stiffness : T) (temperature : T),
     elementwise_panic (fun x => O_fjc_modified_canonical.relative_gibbs_free_energy prof r x potential_stiffness temperature) potential_distance
       (P_fjc_modified_canonical.relative_gibbs_free_energy prof p potential_distance potential_stiffness temperature))
  /\ (forall (prof : profile) (potential_distance : ndarray T) (potential_stiffness : T) (temperature : T),
     elementwise_panic (fun x => O_fjc_modified_canonical.relative_gibbs_free_energy_per_link prof r x potential_stiffness temperature) potential_distance
       (P_fjc_modified_canonical.relative_gibbs_free_energy_per_link prof p potential_distance potential_stiffness temperature))
  /\ (forall (prof : profile) (nondimensional_potential_distance : ndarray T) (nondimensional_potential_stiffness : T) (temperature : T),
     elementwise_panic (fun x => O_fjc_modified_canonical.nondimensional_gibbs_free_energy prof r x nondimensional_potential_stiffness temperature) nondimensional_potential_distance
       (P_fjc_modified_canonical.nondimensional_gibbs_free_energy prof p nondimensional_potential_distance nondimensional_potential_stiffness temperature))
  /\ (forall (prof : profile) (nondimensional_potential_distance : ndarray T) (nondimensional_potential_stiffness : T) (temperature : T),
     elementwise_panic (fun x => O_fjc_modified_canonical.nondimensional_gibbs_free_energy_per_link prof r x nondimensional_potential_stiffness temperature) nondimensional_potential_distance
       (P_fjc_modified_canonical.nondimensional_gibbs_free_energy_per_link prof p nondimensional_potential_distance nondimensional_potential_stiffness temperature))
  /\ (forall (prof : profile) (nondimensional_potential_distance : ndarray T) (nondimensional_potential_stiffness : T),
     elementwise_panic (fun x => O_fjc_modified_canonical.nondimensional_relative_gibbs_free_energy prof r x nondimensional_potential_stiffness) nondimensional_potential_distance
       (P_fjc_modified_canonical.nondimensional_relative_gibbs_free_energy prof p nondimensional_potential_distance nondimensional_potential_stiffness))
  /\ (forall (prof : profile) (nondimensional_potential_distance : ndarray T) (nondimensional_potential_stiffness : T),
     elementwise_panic (fun x => O_fjc_modified_canonical.nondimensional_relative_gibbs_free_energy_per_link prof r x nondimensional_potential_stiffness) nondimensional_potential_distance
       (P_fjc_modified_canonical.nondimensional_relative_gibbs_free_energy_per_link prof p nondimensional_potential_distance nondimensional_potential_stiffness)).
Proof.
  intros T Sc number_of_links link_length hinge_mass p r.
  assert (P_fjc_modified_canonical.hinge_mass p = O_fjc_modified_canonical.hinge_mass r) by reflexivity.
  assert (P_fjc_modified_canonical.link_length p = O_fjc_modified_canonical.link_length r) by reflexivity.
  assert (P_fjc_modified_canonical.number_of_links p = O_fjc_modified_canonical.number_of_links r) by reflexivity.
  clearbody p r.
  unfold P_fjc_modified_canonical.end_to_end_length,
    P_fjc_modified_canonical.end_to_end_length_per_link,
    P_fjc_modified_canonical.nondimensional_end_to_end_length,
    P_fjc_modified_canonical.nondimensional_end_to_end_length_per_link,
    P_fjc_modified_canonical.force, P_fjc_modified_canonical.nondimensional_force,
    P_fjc_modified_canonical.helmholtz_free_energy,
    P_fjc_modified_canonical.helmholtz_free_energy_per_link,
    P_fjc_modified_canonical.relative_helmholtz_free_energy,
    P_fjc_modified_canonical.relative_helmholtz_free_energy_per_link,
    P_fjc_modified_canonical.nondimensional_helmholtz_free_energy,
    P_fjc_modified_canonical.nondimensional_helmholtz_free_energy_per_link,
    P_fjc_modified_canonical.nondimensional_relative_helmholtz_free_energy,
    P_fjc_modified_canonical.nondimensional_relative_helmholtz_free_energy_per_link,
    P_fjc_modified_canonical.gibbs_free_energy, P_fjc_modified_canonical.gibbs_free_energy_per_link,
    P_fjc_modified_canonical.relative_gibbs_free_energy,
    P_fjc_modified_canonical.relative_gibbs_free_energy_per_link,
    P_fjc_modified_canonical.nondimensional_gibbs_free_energy,
    P_fjc_modified_canonical.nondimensional_gibbs_free_energy_per_link,
    P_fjc_modified_canonical.nondimensional_relative_gibbs_free_energy,
    P_fjc_modified_canonical.nondimensional_relative_gibbs_free_energy_per_link,
    O_fjc_modified_canonical.end_to_end_length, O_fjc_modified_canonical.end_to_end_length_per_link,
    O_fjc_modified_canonical.nondimensional_end_to_end_length,
    O_fjc_modified_canonical.nondimensional_end_to_end_length_per_link,
    O_fjc_modified_canonical.force, O_fjc_modified_canonical.nondimensional_force,
    O_fjc_modified_canonical.helmholtz_free_energy,
    O_fjc_modified_canonical.helmholtz_free_energy_per_link,
    O_fjc_modified_canonical.relative_helmholtz_free_energy,
    O_fjc_modified_canonical.relative_helmholtz_free_energy_per_link,
    O_fjc_modified_canonical.nondimensional_helmholtz_free_energy,
    O_fjc_modified_canonical.nondimensional_helmholtz_free_energy_per_link,
    O_fjc_modified_canonical.nondimensional_relative_helmholtz_free_energy,
    O_fjc_modified_canonical.nondimensional_relative_helmholtz_free_energy_per_link,
    O_fjc_modified_canonical.gibbs_free_energy, O_fjc_modified_canonical.gibbs_free_energy_per_link,
    O_fjc_modified_canonical.relative_gibbs_free_energy,
    O_fjc_modified_canonical.relative_gibbs_free_energy_per_link,
    O_fjc_modified_canonical.nondimensional_gibbs_free_energy,
    O_fjc_modified_canonical.nondimensional_gibbs_free_energy_per_link,
    O_fjc_modified_canonical.nondimensional_relative_gibbs_free_energy,
    O_fjc_modified_canonical.nondimensional_relative_gibbs_free_energy_per_link.
  elementwise_tac.
Qed.
Print Assumptions C58_fjc_modified_canonical.

Theorem C58_fjc_modified_canonical_asymptotic : forall (T : Type) (Sc : Scalar T) (number_of_links : Z) (link_length : T) (hinge_mass : T),
  let p := P_fjc_modified_canonical.asymptotic (P_fjc_thermodynamics.modified_canonical (P_fjc.thermodynamics (P_fjc.init number_of_links link_length hinge_mass))) in
  let r := O_fjc_modified_canonical.asymptotic (O_fjc_thermodynamics.modified_canonical (O_fjc.thermodynamics (O_fjc.init number_of_links link_length hinge_mass))) in
  P_fjc_modified_canonical_asymptotic.hinge_mass p = O_fjc_modified_canonical_asymptotic.hinge_mass r
  /\ P_fjc_modified_canonical_asymptotic.link_length p = O_fjc_modified_canonical_asymptotic.link_length r
  /\ P_fjc_modified_canonical_asymptotic.number_of_links p = O_fjc_modified_canonical_asymptotic.number_of_links r.
Proof.
  intros T Sc number_of_links link_length hinge_mass p r.
  assert (P_fjc_modified_canonical_asymptotic.hinge_mass p = O_fjc_modified_canonical_asymptotic.hinge_mass r) by reflexivity.
  assert (P_fjc_modified_canonical_asymptotic.link_length p = O_fjc_modified_canonical_asymptotic.link_length r) by reflexivity.
  assert (P_fjc_modified_canonical_asymptotic.number_of_links p = O_fjc_modified_canonical_asymptotic.number_of_links r) by reflexivity.
  clearbody p r.
  elementwise_tac.
Qed.
Print Assumptions C58_fjc_modified_canonical_asymptotic.

Theorem C58_fjc_modified_canonical_asymptotic_weak_potential : forall (T : Type) (Sc : Scalar T) (number_of_links : Z) (link_length : T) (hinge_mass : T),
  let p := P_fjc_modified_canonical_asymptotic.weak_potential (P_fjc_modified_canonical.asymptotic (P_fjc_thermodynamics.modified_canonical (P_fjc.thermodynamics (P_fjc.init number_of_links link_length hinge_mass)))) in
  let r := O_fjc_modified_canonical_asymptotic.weak_potential (O_fjc_modified_canonical.asymptotic (O_fjc_thermodynamics.modified_canonical (O_fjc.thermodynamics (O_fjc.init number_of_links link_length hinge_mass)))) in
  P_fjc_modified_canonical_asymptotic_weak_potential.hinge_mass p = O_fjc_modified_canonical_asymptotic_weak_potential.hinge_mass r
  /\ P_fjc_modified_canonical_asymptotic_weak_potential.link_length p = O_fjc_modified_canonical_asymptotic_weak_potential.link_length r
  /\ P_fjc_modified_canonical_asymptotic_weak_potential.number_of_links p = O_fjc_modified_canonical_asymptotic_weak_potential.number_of_links r
  /\ (forall (potential_distance : ndarray T) (potential_stiffness : T) (temperature : T),
     elementwise (fun x => O_fjc_modified_canonical_asymptotic_weak_potential.end_to_end_length r x potential_stiffness temperature) potential_distance
       (P_fjc_modified_canonical_asymptotic_weak_potential.end_to_end_length p potential_distance potential_stiffness temperature))
  /\ (forall (potential_distance : ndarray T) (potential_stiffness : T) (temperature : T),
     elementwise (fun x => O_fjc_modified_canonical_asymptotic_weak_potential.end_to_end_length_per_link r x potential_stiffness temperature) potential_distance
       (P_fjc_modified_canonical_asymptotic_weak_potential.end_to_end_length_per_link p potential_distance potential_stiffness temperature))
  /\ (forall (nondimensional_potential_distance : ndarray T) (nondimensional_potential_stiffness : T),
     elementwise (fun x => O_fjc_modified_canonical_asymptotic_weak_potential.nondimensional_end_to_end_length r x nondimensional_potential_stiffness) nondimensional_potential_distance
       (P_fjc_modified_canonical_asymptotic_weak_potential.nondimensional_end_to_end_length p nondimensional_potential_distance nondimensional_potential_stiffness))
  /\ (forall (nondimensional_potential_distance : ndarray T) (nondimensional_potential_stiffness : T),
     elementwise (fun x => O_fjc_modified_canonical_asymptotic_weak_potential.nondimensional_end_to_end_length_per_link r x nondimensional_potential_stiffness) nondimensional_potential_distance
       (P_fjc_modified_canonical_asymptotic_weak_potential.nondimensional_end_to_end_length_per_link p nondimensional_potential_distance nondimensional_potential_stiffness))
  /\ (forall (potential_distance : ndarray T) (potential_stiffness : T),
     elementwise (fun x => O_fjc_modified_canonical_asymptotic_weak_potential.force r x potential_stiffness) potential_distance
       (P_fjc_modified_canonical_asymptotic_weak_potential.force p potential_distance potential_stiffness))
  /\ (forall (nondimensional_potential_distance : ndarray T) (nondimensional_potential_stiffness : T),
     elementwise (fun x => O_fjc_modified_canonical_asymptotic_weak_potential.nondimensional_force r x nondimensional_potential_stiffness) nondimensional_potential_distance
       (P_fjc_modified_canonical_asymptotic_weak_potential.nondimensional_force p nondimensional_potential_distance nondimensional_potential_stiffness))
  /\ (forall (potential_distance : ndarray T) (potential_stiffness : T) (temperature : T),
     elementwise (fun x => O_fjc_modified_canonical_asymptotic_weak_potential.gibbs_free_energy r x potential_stiffness temperature) potential_distance
       (P_fjc_modified_canonical_asymptotic_weak_potential.gibbs_free_energy p potential_distance potential_stiffness temperature))
  /\ (forall (potential_distance : ndarray T) (potential_stiffness : T) (temperature : T),
     elementwise (fun x => O_fjc_modified_canonical_asymptotic_weak_potential.gibbs_free_energy_per_link r x potential_stiffness temperature) potential_distance
       (P_fjc_modified_canonical_asymptotic_weak_potential.gibbs_free_energy_per_link p potential_distance potential_stiffness temperature))
  /\ (forall (potential_distance : ndarray T) (potential_stiffness : T) (temperature : T),
     elementwise (fun x => O_fjc_modified_canonical_asymptotic_weak_potential.relative_gibbs_free_energy r x potential_stiffness temperature) potential_distance
       (P_fjc_modified_canonical_asymptotic_weak_potential.relative_gibbs_free_energy p potential_distance potential_stiffness temperature))
  /\ (forall (potential_distance : ndarray T) (potential_stiffness : T) (temperature : T),
     elementwise (fun x => O_fjc_modified_canonical_asymptotic_weak_potential.relative_gibbs_free_energy_per_link r x potential_stiffness temperature) potential_distance
       (P_fjc_modified_canonical_asymptotic_weak_potential.relative_gibbs_free_energy_per_link p potential_distance potential_stiffness temperature))
  /\ (forall (nondimensional_potential_distance : ndarray T) (nondimensional_potential_stiffness : T) (temperature : T),
     elementwise (fun x => O_fjc_modified_canonical_asymptotic_weak_potential.nondimensional_gibbs_free_energy r x nondimensional_potential_stiffness temperature) nondimensional_potential_distance
       (P_fjc_modified_canonical_asymptotic_weak_potential.nondimensional_gibbs_free_energy p nondimensional_potential_distance nondimensional_potential_stiffness temperature))
  /\ (forall (nondimensional_potential_distance : ndarray T) (nondimensional_potential_stiffness : T) (temperature : T),
     elementwise (fun x => O_fjc_modified_canonical_asymptotic_weak_potential.nondimensional_gibbs_free_energy_per_link r x nondimensional_potential_stiffness temperature) nondimensional_potential_distance
       (P_fjc_modified_canonical_asymptotic_weak_potential.nondimensional_gibbs_free_energy_per_link p nondimensional_potential_distance nondimensional_potential_stiffness temperature))
  /\ (forall (nondimensional_potential_distance : ndarray T) (nondimensional_potential_stiffness : T),
     elementwise (fun x => O_fjc_modified_canonical_asymptotic_weak_potential.nondimensional_relative_gibbs_free_energy r x nondimensional_potential_stiffness) nondimensional_potential_distance
       (P_fjc_modified_canonical_asymptotic_weak_potential.nondimensional_relative_gibbs_free_energy p nondimensional_potential_distance nondimensional_potential_stiffness))
  /\ (forall (nondimensional_potential_distance : ndarray T) (nondimensional_potential_stiffness : T),
     elementwise (fun x => O_fjc_modified_canonical_asymptotic_weak_potential.nondimensional_relative_gibbs_free_energy_per_link r x nondimensional_potential_stiffness) nondimensional_potential_distance
       (P_fjc_modified_canonical_asymptotic_weak_potential.nondimensional_relative_gibbs_free_energy_per_link p nondimensional_potential_distance nondimensional_potential_stiffness)).
Proof.
  intros T Sc number_of_links link_length hinge_mass p r.
  assert (P_fjc_modified_canonical_asymptotic_weak_potential.hinge_mass p = O_fjc_modified_canonical_asymptotic_weak_potential.hinge_mass r) by reflexivity.
  assert (P_fjc_modified_canonical_asymptotic_weak_potential.link_length p = O_fjc_modified_canonical_asymptotic_weak_potential.link_length r) by reflexivity.
  assert (P_fjc_modified_canonical_asymptotic_weak_potential.number_of_links p = O_fjc_modified_canonical_asymptotic_weak_potential.number_of_links r) by reflexivity.
  clearbody p r.
  unfold P_fjc_modified_canonical_asymptotic_weak_potential.end_to_end_length,
    P_fjc_modified_canonical_asymptotic_weak_potential.end_to_end_length_per_link,
    P_fjc_modified_canonical_asymptotic_weak_potential.nondimensional_end_to_end_length,
    P_fjc_modified_canonical_asymptotic_weak_potential.nondimensional_end_to_end_length_per_link,
    P_fjc_modified_canonical_asymptotic_weak_potential.force,
    P_fjc_modified_canonical_asymptotic_weak_potential.nondimensional_force,
    P_fjc_modified_canonical_asymptotic_weak_potential.gibbs_free_energy,
    P_fjc_modified_canonical_asymptotic_weak_potential.gibbs_free_energy_per_link,
    P_fjc_modified_canonical_asymptotic_weak_potential.relative_gibbs_free_energy,
    P_fjc_modified_canonical_asymptotic_weak_potential.relative_gibbs_free_energy_per_link,
    P_fjc_modified_canonical_asymptotic_weak_potential.nondimensional_gibbs_free_energy,
    P_fjc_modified_canonical_asymptotic_weak_potential.nondimensional_gibbs_free_energy_per_link,
    P_fjc_modified_canonical_asymptotic_weak_potential.nondimensional_relative_gibbs_free_energy,
    P_fjc_modified_canonical_asymptotic_weak_potential.nondimensional_relative_gibbs_free_energy_per_link,
    O_fjc_modified_canonical_asymptotic_weak_potential.end_to_end_length,
    O_fjc_modified_canonical_asymptotic_weak_potential.end_to_end_length_per_link,
    O_fjc_modified_canonical_asymptotic_weak_potential.nondimensional_end_to_end_length,
    O_fjc_modified_canonical_asymptotic_weak_potential.nondimensional_end_to_end_length_per_link,
    O_fjc_modified_canonical_asymptotic_weak_potential.force,
    O_fjc_modified_canonical_asymptotic_weak_potential.nondimensional_force,
    O_fjc_modified_canonical_asymptotic_weak_potential.gibbs_free_energy,
    O_fjc_modified_canonical_asymptotic_weak_potential.gibbs_free_energy_per_link,
    O_fjc_modified_canonical_asymptotic_weak_potential.relative_gibbs_free_energy,
    O_fjc_modified_canonical_asymptotic_weak_potential.relative_gibbs_free_energy_per_link,
    O_fjc_modified_canonical_asymptotic_weak_potential.nondimensional_gibbs_free_energy,
    O_fjc_modified_canonical_asymptotic_weak_potential.nondimensional_gibbs_free_energy_per_link,
    O_fjc_modified_canonical_asymptotic_weak_potential.nondimensional_relative_gibbs_free_energy,
    O_fjc_modified_canonical_asymptotic_weak_potential.nondimensional_relative_gibbs_free_energy_per_link.
  elementwise_tac.
Qed.
Print Assumptions C58_fjc_modified_canonical_asymptotic_weak_potential.

Theorem C58_fjc_modified_canonical_asymptotic_strong_potential : forall (T : Type) (Sc : Scalar T) (number_of_links : Z) (link_length : T) (hinge_mass : T),
  let p := P_fjc_modified_canonical_asymptotic.strong_potential (P_fjc_modified_canonical.asymptotic (P_fjc_thermodynamics.modified_canonical (P_fjc.thermodynamics (P_fjc.init number_of_links link_length hinge_mass)))) in
  let r := O_fjc_modified_canonical_asymptotic.strong_potential (O_fjc_modified_canonical.asymptotic (O_fjc_thermodynamics.modified_canonical (O_fjc.thermodynamics (O_fjc.init number_of_links link_length hinge_mass)))) in
  P_fjc_modified_canonical_asymptotic_strong_potential.hinge_mass p = O_fjc_modified_canonical_asymptotic_strong_potential.hinge_mass r
  /\ P_fjc_modified_canonical_asymptotic_strong_potential.link_length p = O_fjc_modified_canonical_asymptotic_strong_potential.link_length r
  /\ P_fjc_modified_canonical_asymptotic_strong_potential.number_of_links p = O_fjc_modified_canonical_asymptotic_strong_potential.number_of_links r
  /\ (forall (prof : profile) (potential_distance : ndarray T) (potential_stiffness : T) (temperature : T),
     elementwise_panic (fun x => O_fjc_modified_canonical_asymptotic_strong_potential.force prof r x potential_stiffness temperature) potential_distance
       (P_fjc_modified_canonical_asymptotic_strong_potential.force prof p potential_distance potential_stiffness temperature))
  /\ (forall (prof : profile) (nondimensional_potential_distance : ndarray T) (nondimensional_potential_stiffness : T),
     elementwise_panic (fun x => O_fjc_modified_canonical_asymptotic_strong_potential.nondimensional_force prof r x nondimensional_potential_stiffness) nondimensional_potential_distance
       (P_fjc_modified_canonical_asymptotic_strong_potential.nondimensional_force prof p nondimensional_potential_distance nondimensional_potential_stiffness))
  /\ (forall (prof : profile) (potential_distance : ndarray T) (potential_stiffness : T) (temperature : T),
     elementwise_panic (fun x => O_fjc_modified_canonical_asymptotic_strong_potential.helmholtz_free_energy prof r x potential_stiffness temperature) potential_distance
       (P_fjc_modified_canonical_asymptotic_strong_potential.helmholtz_free_energy prof p potential_distance potential_stiffness temperature))
  /\ (forall (prof : profile) (potential_distance : ndarray T) (potential_stiffness : T) (temperature : T),
     elementwise_panic (fun x => O_fjc_modified_canonical_asymptotic_strong_potential.helmholtz_free_energy_per_link prof r x potential_stiffness temperature) potential_distance
       (P_fjc_modified_canonical_asymptotic_strong_potential.helmholtz_free_energy_per_link prof p potential_distance potential_stiffness temperature))
  /\ (forall (prof : profile) (potential_distance : ndarray T) (potential_stiffness : T) (temperature : T),
     elementwise_panic (fun x => O_fjc_modified_canonical_asymptotic_strong_potential.relative_helmholtz_free_energy prof r x potential_stiffness temperature) potential_distance
       (P_fjc_modified_canonical_asymptotic_strong_potential.relative_helmholtz_free_energy prof p potential_distance potential_stiffness temperature))
  /\ (forall (prof : profile) (potential_distance : ndarray T) (potential_stiffness : T) (temperature : T),
     elementwise_panic (fun x => O_fjc_modified_canonical_asymptotic_strong_potential.relative_helmholtz_free_energy_per_link prof r x potential_stiffness temperature) potential_distance
       (P_fjc_modified_canonical_asymptotic_strong_potential.relative_helmholtz_free_energy_per_link prof p potential_distance potential_stiffness temperature))
  /\ (forall (prof : profile) (nondimensional_potential_distance : ndarray T) (nondimensional_potential_stiffness : T) (temperature : T),
     elementwise_panic (fun x => O_fjc_modified_canonical_asymptotic_strong_potential.nondimensional_helmholtz_free_energy prof r x nondimensional_potential_stiffness temperature) nondimensional_potential_distance
       (P_fjc_modified_canonical_asymptotic_strong_potential.nondimensional_helmholtz_free_energy prof p nondimensional_potential_distance nondimensional_potential_stiffness temperature))
  /\ (forall (prof : profile) (nondimensional_potential_distance : ndarray T) (nondimensional_potential_stiffness : T) (temperature : T),
     elementwise_panic (fun x => O_fjc_modified_canonical_asymptotic_strong_potential.nondimensional_helmholtz_free_energy_per_link prof r x nondimensional_potential_stiffness temperature) nondimensional_potential_distance
       (P_fjc_modified_canonical_asymptotic_strong_potential.nondimensional_helmholtz_free_energy_per_link prof p nondimensional_potential_distance nondimensional_potential_stiffness temperature))
  /\ (forall (prof : profile) (nondimensional_potential_distance : ndarray T) (nondimensional_potential_stiffness : T),
     elementwise_panic (fun x => O_fjc_modified_canonical_asymptotic_strong_potential.nondimensional_relative_helmholtz_free_energy prof r x nondimensional_potential_stiffness) nondimensional_potential_distance
       (P_fjc_modified_canonical_asymptotic_strong_potential.nondimensional_relative_helmholtz_free_energy prof p nondimensional_potential_distance nondimensional_potential_stiffness))
  /\ (forall (prof : profile) (nondimensional_potential_distance : ndarray T) (nondimensional_potential_stiffness : T),
     elementwise_panic (fun x => O_fjc_modified_canonical_asymptotic_strong_potential.nondimensional_relative_helmholtz_free_energy_per_link prof r x nondimensional_potential_stiffness) nondimensional_potential_distance
       (P_fjc_modified_canonical_asymptotic_strong_potential.nondimensional_relative_helmholtz_free_energy_per_link prof p nondimensional_potential_distance nondimensional_potential_stiffness)).
Proof.
  intros T Sc number_of_links link_length hinge_mass p r.
  assert (P_fjc_modified_canonical_asymptotic_strong_potential.hinge_mass p = O_fjc_modified_canonical_asymptotic_strong_potential.hinge_mass r) by reflexivity.
  assert (P_fjc_modified_canonical_asymptotic_strong_potential.link_length p = O_fjc_modified_canonical_asymptotic_strong_potential.link_length r) by reflexivity.
  assert (P_fjc_modified_canonical_asymptotic_strong_potential.number_of_links p = O_fjc_modified_canonical_asymptotic_strong_potential.number_of_links r) by reflexivity.
  clearbody p r.
  unfold P_fjc_modified_canonical_asymptotic_strong_potential.force,
    P_fjc_modified_canonical_asymptotic_strong_potential.nondimensional_force,
    P_fjc_modified_canonical_asymptotic_strong_potential.helmholtz_free_energy,
    P_fjc_modified_canonical_asymptotic_strong_potential.helmholtz_free_energy_per_link,
    P_fjc_modified_canonical_asymptotic_strong_potential.relative_helmholtz_free_energy,
    P_fjc_modified_canonical_asymptotic_strong_potential.relative_helmholtz_free_energy_per_link,
    P_fjc_modified_canonical_asymptotic_strong_potential.nondimensional_helmholtz_free_energy,
    P_fjc_modified_canonical_asymptotic_strong_potential.nondimensional_helmholtz_free_energy_per_link,
    P_fjc_modified_canonical_asymptotic_strong_potential.nondimensional_relative_helmholtz_free_energy,
    P_fjc_modified_canonical_asymptotic_strong_potential.nondimensional_relative_helmholtz_free_energy_per_link,
    O_fjc_modified_canonical_asymptotic_strong_potential.force,
    O_fjc_modified_canonical_asymptotic_strong_potential.nondimensional_force,
    O_fjc_modified_canonical_asymptotic_strong_potential.helmholtz_free_energy,
    O_fjc_modified_canonical_asymptotic_strong_potential.helmholtz_free_energy_per_link,
    O_fjc_modified_canonical_asymptotic_strong_potential.relative_helmholtz_free_energy,
    O_fjc_modified_canonical_asymptotic_strong_potential.relative_helmholtz_free_energy_per_link,
    O_fjc_modified_canonical_asymptotic_strong_potential.nondimensional_helmholtz_free_energy,
    O_fjc_modified_canonical_asymptotic_strong_potential.nondimensional_helmholtz_free_energy_per_link,
    O_fjc_modified_canonical_asymptotic_strong_potential.nondimensional_relative_helmholtz_free_energy,
    O_fjc_modified_canonical_asymptotic_strong_potential.nondimensional_relative_helmholtz_free_energy_per_link.
  elementwise_tac.
Qed.
Print Assumptions C58_fjc_modified_canonical_asymptotic_strong_potential.

Theorem C58_swfjc : forall (T : Type) (Sc : Scalar T) (number_of_links : Z) (link_length : T) (hinge_mass : T) (well_width : T),
  let p := P_swfjc.init number_of_links link_length hinge_mass well_width in
  let r := O_swfjc.init number_of_links link_length hinge_mass well_width in
  P_swfjc.hinge_mass p = O_swfjc.hinge_mass r
  /\ P_swfjc.link_length p = O_swfjc.link_length r
  /\ P_swfjc.number_of_links p = O_swfjc.number_of_links r
  /\ P_swfjc.well_width p = O_swfjc.well_width r.
Proof.
  intros T Sc number_of_links link_length hinge_mass well_width p r.
  assert (P_swfjc.hinge_mass p = O_swfjc.hinge_mass r) by reflexivity.
  assert (P_swfjc.link_length p = O_swfjc.link_length r) by reflexivity.
  assert (P_swfjc.number_of_links p = O_swfjc.number_of_links r) by reflexivity.
  assert (P_swfjc.well_width p = O_swfjc.well_width r) by reflexivity.
  clearbody p r.
  elementwise_tac.
Qed.
Print Assumptions C58_swfjc.

Theorem C58_swfjc_thermodynamics : forall (T : Type) (Sc : Scalar T) (number_of_links : Z) (link_length : T) (hinge_mass : T) (well_width : T),
  let p := P_swfjc.thermodynamics (P_swfjc.init number_of_links link_length hinge_mass well_width) in
  let r := O_swfjc.thermodynamics (O_swfjc.init number_of_links link_length hinge_mass well_width) in
  P_swfjc_thermodynamics.hinge_mass p = O_swfjc_thermodynamics.hinge_mass r
  /\ P_swfjc_thermodynamics.link_length p = O_swfjc_thermodynamics.link_length r
  /\ P_swfjc_thermodynamics.number_of_links p = O_swfjc_thermodynamics.number_of_links r
  /\ P_swfjc_thermodynamics.well_width p = O_swfjc_thermodynamics.well_width r.
Proof.
  intros T Sc number_of_links link_length hinge_mass well_width p r.
  assert (P_swfjc_thermodynamics.hinge_mass p = O_swfjc_thermodynamics.hinge_mass r) by reflexivity.
  assert (P_swfjc_thermodynamics.link_length p = O_swfjc_thermodynamics.link_length r) by reflexivity.
  assert (P_swfjc_thermodynamics.number_of_links p = O_swfjc_thermodynamics.number_of_links r) by reflexivity.
  assert (P_swfjc_thermodynamics.well_width p = O_swfjc_thermodynamics.well_width r) by reflexivity.
  clearbody p r.
  elementwise_tac.
Qed.
Print Assumptions C58_swfjc_thermodynamics.

Theorem C58_swfjc_isometric : forall (T : Type) (Sc : Scalar T) (number_of_links : Z) (link_length : T) (hinge_mass : T) (well_width : T),
  let p := P_swfjc_thermodynamics.isometric (P_swfjc.thermodynamics (P_swfjc.init number_of_links link_length hinge_mass well_width)) in
  let r := O_swfjc_thermodynamics.isometric (O_swfjc.thermodynamics (O_swfjc.init number_of_links link_length hinge_mass well_width)) in
  P_swfjc_isometric.hinge_mass p = O_swfjc_isometric.hinge_mass r
  /\ P_swfjc_isometric.link_length p = O_swfjc_isometric.link_length r
  /\ P_swfjc_isometric.number_of_links p = O_swfjc_isometric.number_of_links r
  /\ P_swfjc_isometric.well_width p = O_swfjc_isometric.well_width r.
Proof.
  intros T Sc number_of_links link_length hinge_mass well_width p r.
  assert (P_swfjc_isometric.hinge_mass p = O_swfjc_isometric.hinge_mass r) by reflexivity.
  assert (P_swfjc_isometric.link_length p = O_swfjc_isometric.link_length r) by reflexivity.
  assert (P_swfjc_isometric.number_of_links p = O_swfjc_isometric.number_of_links r) by reflexivity.
  assert (P_swfjc_isometric.well_width p = O_swfjc_isometric.well_width r) by reflexivity.
  clearbody p r.
  elementwise_tac.
Qed.
Print Assumptions C58_swfjc_isometric.

Theorem C58_swfjc_isometric_legendre : forall (T : Type) (Sc : Scalar T) (number_of_links : Z) (link_length : T) (hinge_mass : T) (well_width : T),
  let p := P_swfjc_isometric.legendre (P_swfjc_thermodynamics.isometric (P_swfjc.thermodynamics (P_swfjc.init number_of_links link_length hinge_mass well_width))) in
  let r := O_swfjc_isometric.legendre (O_swfjc_thermodynamics.isometric (O_swfjc.thermodynamics (O_swfjc.init number_of_links link_length hinge_mass well_width))) in
  P_swfjc_isometric_legendre.hinge_mass p = O_swfjc_isometric_legendre.hinge_mass r
  /\ P_swfjc_isometric_legendre.link_length p = O_swfjc_isometric_legendre.link_length r
  /\ P_swfjc_isometric_legendre.number_of_links p = O_swfjc_isometric_legendre.number_of_links r
  /\ P_swfjc_isometric_legendre.well_width p = O_swfjc_isometric_legendre.well_width r
  /\ (forall (end_to_end_length : ndarray T) (temperature : T),
     elementwise (fun x => O_swfjc_isometric_legendre.force r x temperature) end_to_end_length
       (P_swfjc_isometric_legendre.force p end_to_end_length temperature))
  /\ (forall (nondimensional_end_to_end_length_per_link : ndarray T),
     elementwise (fun x => O_swfjc_isometric_legendre.nondimensional_force r x) nondimensional_end_to_end_length_per_link
       (P_swfjc_isometric_legendre.nondimensional_force p nondimensional_end_to_end_length_per_link))
  /\ (forall (end_to_end_length : ndarray T) (temperature : T),
     elementwise (fun x => O_swfjc_isometric_legendre.helmholtz_free_energy r x temperature) end_to_end_length
       (P_swfjc_isometric_legendre.helmholtz_free_energy p end_to_end_length temperature))
  /\ (forall (end_to_end_length : ndarray T) (temperature : T),
     elementwise (fun x => O_swfjc_isometric_legendre.helmholtz_free_energy_per_link r x temperature) end_to_end_length
       (P_swfjc_isometric_legendre.helmholtz_free_energy_per_link p end_to_end_length temperature))
  /\ (forall (end_to_end_length : ndarray T) (temperature : T),
     elementwise (fun x => O_swfjc_isometric_legendre.relative_helmholtz_free_energy r x temperature) end_to_end_length
       (P_swfjc_isometric_legendre.relative_helmholtz_free_energy p end_to_end_length temperature))
  /\ (forall (end_to_end_length : ndarray T) (temperature : T),
     elementwise (fun x => O_swfjc_isometric_legendre.relative_helmholtz_free_energy_per_link r x temperature) end_to_end_length
       (P_swfjc_isometric_legendre.relative_helmholtz_free_energy_per_link p end_to_end_length temperature))
  /\ (forall (nondimensional_end_to_end_length_per_link : ndarray T) (temperature : T),
     elementwise (fun x => O_swfjc_isometric_legendre.nondimensional_helmholtz_free_energy r x temperature) nondimensional_end_to_end_length_per_link
       (P_swfjc_isometric_legendre.nondimensional_helmholtz_free_energy p nondimensional_end_to_end_length_per_link temperature))
  /\ (forall (nondimensional_end_to_end_length_per_link : ndarray T) (temperature : T),
     elementwise (fun x => O_swfjc_isometric_legendre.nondimensional_helmholtz_free_energy_per_link r x temperature) nondimensional_end_to_end_length_per_link
       (P_swfjc_isometric_legendre.nondimensional_helmholtz_free_energy_per_link p nondimensional_end_to_end_length_per_link temperature))
  /\ (forall (nondimensional_end_to_end_length_per_link : ndarray T),
     elementwise (fun x => O_swfjc_isometric_legendre.nondimensional_relative_helmholtz_free_energy r x) nondimensional_end_to_end_length_per_link
       (P_swfjc_isometric_legendre.nondimensional_relative_helmholtz_free_energy p nondimensional_end_to_end_length_per_link))
  /\ (forall (nondimensional_end_to_end_length_per_link : ndarray T),
     elementwise (fun x => O_swfjc_isometric_legendre.nondimensional_relative_helmholtz_free_energy_per_link r x) nondimensional_end_to_end_length_per_link
       (P_swfjc_isometric_legendre.nondimensional_relative_helmholtz_free_energy_per_link p nondimensional_end_to_end_length_per_link))
  /\ (forall (end_to_end_length : ndarray T),
     elementwise (fun x => O_swfjc_isometric_legendre.equilibrium_distribution r x) end_to_end_length
       (P_swfjc_isometric_legendre.equilibrium_distribution p end_to_end_length))
  /\ (forall (nondimensional_end_to_end_length_per_link : ndarray T),
     elementwise (fun x => O_swfjc_isometric_legendre.nondimensional_equilibrium_distribution r x) nondimensional_end_to_end_length_per_link
       (P_swfjc_isometric_legendre.nondimensional_equilibrium_distribution p nondimensional_end_to_end_length_per_link))
  /\ (forall (end_to_end_length : ndarray T),
     elementwise (fun x => O_swfjc_isometric_legendre.equilibrium_radial_distribution r x) end_to_end_length
       (P_swfjc_isometric_legendre.equilibrium_radial_distribution p end_to_end_length))
  /\ (forall (nondimensional_end_to_end_length_per_link : ndarray T),
     elementwise (fun x => O_swfjc_isometric_legendre.nondimensional_equilibrium_radial_distribution r x) nondimensional_end_to_end_length_per_link
       (P_swfjc_isometric_legendre.nondimensional_equilibrium_radial_distribution p nondimensional_end_to_end_length_per_link)).
Proof.
  intros T Sc number_of_links link_length hinge_mass well_width p r.
  assert (P_swfjc_isometric_legendre.hinge_mass p = O_swfjc_isometric_legendre.hinge_mass r) by reflexivity.
  assert (P_swfjc_isometric_legendre.link_length p = O_swfjc_isometric_legendre.link_length r) by reflexivity.
  assert (P_swfjc_isometric_legendre.number_of_links p = O_swfjc_isometric_legendre.number_of_links r) by reflexivity.
  assert (P_swfjc_isometric_legendre.well_width p = O_swfjc_isometric_legendre.well_width r) by reflexivity.
  assert (P_swfjc_isometric_legendre.normalization_nondimensional_equilibrium_distribution p = O_swfjc_isometric_legendre.normalization_nondimensional_equilibrium_distribution r) by reflexivity.
  clearbody p r.
  unfold P_swfjc_isometric_legendre.force, P_swfjc_isometric_legendre.nondimensional_force,
    P_swfjc_isometric_legendre.helmholtz_free_energy,
    P_swfjc_isometric_legendre.helmholtz_free_energy_per_link,
    P_swfjc_isometric_legendre.relative_helmholtz_free_energy,
    P_swfjc_isometric_legendre.relative_helmholtz_free_energy_per_link,
    P_swfjc_isometric_legendre.nondimensional_helmholtz_free_energy,
    P_swfjc_isometric_legendre.nondimensional_helmholtz_free_energy_per_link,
    P_swfjc_isometric_legendre.nondimensional_relative_helmholtz_free_energy,
    P_swfjc_isometric_legendre.nondimensional_relative_helmholtz_free_energy_per_link,
    P_swfjc_isometric_legendre.equilibrium_distribution,
    P_swfjc_isometric_legendre.nondimensional_equilibrium_distribution,
    P_swfjc_isometric_legendre.equilibrium_radial_distribution,
    P_swfjc_isometric_legendre.nondimensional_equilibrium_radial_distribution,
    O_swfjc_isometric_legendre.force, O_swfjc_isometric_legendre.nondimensional_force,
    O_swfjc_isometric_legendre.helmholtz_free_energy,
    O_swfjc_isometric_legendre.helmholtz_free_energy_per_link,
    O_swfjc_isometric_legendre.relative_helmholtz_free_energy,
    O_swfjc_isometric_legendre.relative_helmholtz_free_energy_per_link,
    O_swfjc_isometric_legendre.nondimensional_helmholtz_free_energy,
    O_swfjc_isometric_legendre.nondimensional_helmholtz_free_energy_per_link,
    O_swfjc_isometric_legendre.nondimensional_relative_helmholtz_free_energy,
    O_swfjc_isometric_legendre.nondimensional_relative_helmholtz_free_energy_per_link,
    O_swfjc_isometric_legendre.equilibrium_distribution,
    O_swfjc_isometric_legendre.nondimensional_equilibrium_distribution,
    O_swfjc_isometric_legendre.equilibrium_radial_distribution,
    O_swfjc_isometric_legendre.nondimensional_equilibrium_radial_distribution.
  elementwise_tac.
Qed.
Print Assumptions C58_swfjc_isometric_legendre.

Theorem C58_swfjc_isotensional : forall (T : Type) (Sc : Scalar T) (number_of_links : Z) (link_length : T) (hinge_mass : T) (well_width : T),
  let p := P_swfjc_thermodynamics.isotensional (P_swfjc.thermodynamics (P_swfjc.init number_of_links link_length hinge_mass well_width)) in
  let r := O_swfjc_thermodynamics.isotensional (O_swfjc.thermodynamics (O_swfjc.init number_of_links link_length hinge_mass well_width)) in
  P_swfjc_isotensional.hinge_mass p = O_swfjc_isotensional.hinge_mass r
  /\ P_swfjc_isotensional.link_length p = O_swfjc_isotensional.link_length r
  /\ P_swfjc_isotensional.number_of_links p = O_swfjc_isotensional.number_of_links r
  /\ P_swfjc_isotensional.well_width p = O_swfjc_isotensional.well_width r
  /\ (forall (force : ndarray T) (temperature : T),
     elementwise (fun x => O_swfjc_isotensional.end_to_end_length r x temperature) force
       (P_swfjc_isotensional.end_to_end_length p force temperature))
  /\ (forall (force : ndarray T) (temperature : T),
     elementwise (fun x => O_swfjc_isotensional.end_to_end_length_per_link r x temperature) force
       (P_swfjc_isotensional.end_to_end_length_per_link p force temperature))
  /\ (forall (nondimensional_force : ndarray T),
     elementwise (fun x => O_swfjc_isotensional.nondimensional_end_to_end_length r x) nondimensional_force
       (P_swfjc_isotensional.nondimensional_end_to_end_length p nondimensional_force))
  /\ (forall (nondimensional_force : ndarray T),
     elementwise (fun x => O_swfjc_isotensional.nondimensional_end_to_end_length_per_link r x) nondimensional_force
       (P_swfjc_isotensional.nondimensional_end_to_end_length_per_link p nondimensional_force))
  /\ (forall (force : ndarray T) (temperature : T),
     elementwise (fun x => O_swfjc_isotensional.gibbs_free_energy r x temperature) force
       (P_swfjc_isotensional.gibbs_free_energy p force temperature))
  /\ (forall (force : ndarray T) (temperature : T),
     elementwise (fun x => O_swfjc_isotensional.gibbs_free_energy_per_link r x temperature) force
       (P_swfjc_isotensional.gibbs_free_energy_per_link p force temperature))
  /\ (forall (force : ndarray T) (temperature : T),
     elementwise (fun x => O_swfjc_isotensional.relative_gibbs_free_energy r x temperature) force
       (P_swfjc_isotensional.relative_gibbs_free_energy p force temperature))
  /\ (forall (force : ndarray T) (temperature : T),
     elementwise (fun x => O_swfjc_isotensional.relative_gibbs_free_energy_per_link r x temperature) force
       (P_swfjc_isotensional.relative_gibbs_free_energy_per_link p force temperature))
  /\ (forall (nondimensional_force : ndarray T) (temperature : T),
     elementwise (fun x => O_swfjc_isotensional.nondimensional_gibbs_free_energy r x temperature) nondimensional_force
       (P_swfjc_isotensional.nondimensional_gibbs_free_energy p nondimensional_force temperature))
  /\ (forall (nondimensional_force : ndarray T) (temperature : T),
     elementwise (fun x => O_swfjc_isotensional.nondimensional_gibbs_free_energy_per_link r x temperature) nondimensional_force
       (P_swfjc_isotensional.nondimensional_gibbs_free_energy_per_link p nondimensional_force temperature))
  /\ (forall (nondimensional_force : ndarray T),
     elementwise (fun x => O_swfjc_isotensional.nondimensional_relative_gibbs_free_energy r x) nondimensional_force
       (P_swfjc_isotensional.nondimensional_relative_gibbs_free_energy p nondimensional_force))
  /\ (forall (nondimensional_force : ndarray T),
     elementwise (fun x => O_swfjc_isotensional.nondimensional_relative_gibbs_free_energy_per_link r x) nondimensional_force
       (P_swfjc_isotensional.nondimensional_relative_gibbs_free_energy_per_link p nondimensional_force)).
Proof.
  intros T Sc number_of_links link_length hinge_mass well_width p r.
  assert (P_swfjc_isotensional.hinge_mass p = O_swfjc_isotensional.hinge_mass r) by reflexivity.
  assert (P_swfjc_isotensional.link_length p = O_swfjc_isotensional.link_length r) by reflexivity.
  assert (P_swfjc_isotensional.number_of_links p = O_swfjc_isotensional.number_of_links r) by reflexivity.
  assert (P_swfjc_isotensional.well_width p = O_swfjc_isotensional.well_width r) by reflexivity.
  clearbody p r.
  unfold P_swfjc_isotensional.end_to_end_length, P_swfjc_isotensional.end_to_end_length_per_link,
    P_swfjc_isotensional.nondimensional_end_to_end_length,
    P_swfjc_isotensional.nondimensional_end_to_end_length_per_link,
    P_swfjc_isotensional.gibbs_free_energy, P_swfjc_isotensional.gibbs_free_energy_per_link,
    P_swfjc_isotensional.relative_gibbs_free_energy,
    P_swfjc_isotensional.relative_gibbs_free_energy_per_link,
    P_swfjc_isotensional.nondimensional_gibbs_free_energy,
    P_swfjc_isotensional.nondimensional_gibbs_free_energy_per_link,
    P_swfjc_isotensional.nondimensional_relative_gibbs_free_energy,
    P_swfjc_isotensional.nondimensional_relative_gibbs_free_energy_per_link,
    O_swfjc_isotensional.end_to_end_length, O_swfjc_isotensional.end_to_end_length_per_link,
    O_swfjc_isotensional.nondimensional_end_to_end_length,
    O_swfjc_isotensional.nondimensional_end_to_end_length_per_link,
    O_swfjc_isotensional.gibbs_free_energy, O_swfjc_isotensional.gibbs_free_energy_per_link,
    O_swfjc_isotensional.relative_gibbs_free_energy,
    O_swfjc_isotensional.relative_gibbs_free_energy_per_link,
    O_swfjc_isotensional.nondimensional_gibbs_free_energy,
    O_swfjc_isotensional.nondimensional_gibbs_free_energy_per_link,
    O_swfjc_isotensional.nondimensional_relative_gibbs_free_energy,
    O_swfjc_isotensional.nondimensional_relative_gibbs_free_energy_per_link.
  elementwise_tac.
Qed.
Print Assumptions C58_swfjc_isotensional.

Theorem C58_swfjc_isotensional_legendre : forall (T : Type) (Sc : Scalar T) (number_of_links : Z) (link_length : T) (hinge_mass : T) (well_width : T),
  let p := P_swfjc_isotensional.legendre (P_swfjc_thermodynamics.isotensional (P_swfjc.thermodynamics (P_swfjc.init number_of_links link_length hinge_mass well_width))) in
  let r := O_swfjc_isotensional.legendre (O_swfjc_thermodynamics.isotensional (O_swfjc.thermodynamics (O_swfjc.init number_of_links link_length hinge_mass well_width))) in
  P_swfjc_isotensional_legendre.hinge_mass p = O_swfjc_isotensional_legendre.hinge_mass r
  /\ P_swfjc_isotensional_legendre.link_length p = O_swfjc_isotensional_legendre.link_length r
  /\ P_swfjc_isotensional_legendre.number_of_links p = O_swfjc_isotensional_legendre.number_of_links r
  /\ P_swfjc_isotensional_legendre.well_width p = O_swfjc_isotensional_legendre.well_width r
  /\ (forall (force : ndarray T) (temperature : T),
     elementwise (fun x => O_swfjc_isotensional_legendre.helmholtz_free_energy r x temperature) force
       (P_swfjc_isotensional_legendre.helmholtz_free_energy p force temperature))
  /\ (forall (force : ndarray T) (temperature : T),
     elementwise (fun x => O_swfjc_isotensional_legendre.helmholtz_free_energy_per_link r x temperature) force
       (P_swfjc_isotensional_legendre.helmholtz_free_energy_per_link p force temperature))
  /\ (forall (force : ndarray T) (temperature : T),
     elementwise (fun x => O_swfjc_isotensional_legendre.relative_helmholtz_free_energy r x temperature) force
       (P_swfjc_isotensional_legendre.relative_helmholtz_free_energy p force temperature))
  /\ (forall (force : ndarray T) (temperature : T),
     elementwise (fun x => O_swfjc_isotensional_legendre.relative_helmholtz_free_energy_per_link r x temperature) force
       (P_swfjc_isotensional_legendre.relative_helmholtz_free_energy_per_link p force temperature))
  /\ (forall (nondimensional_force : ndarray T) (temperature : T),
     elementwise (fun x => O_swfjc_isotensional_legendre.nondimensional_helmholtz_free_energy r x temperature) nondimensional_force
       (P_swfjc_isotensional_legendre.nondimensional_helmholtz_free_energy p nondimensional_force temperature))
  /\ (forall (nondimensional_force : ndarray T) (temperature : T),
     elementwise (fun x => O_swfjc_isotensional_legendre.nondimensional_helmholtz_free_energy_per_link r x temperature) nondimensional_force
       (P_swfjc_isotensional_legendre.nondimensional_helmholtz_free_energy_per_link p nondimensional_force temperature))
  /\ (forall (nondimensional_force : ndarray T),
     elementwise (fun x => O_swfjc_isotensional_legendre.nondimensional_relative_helmholtz_free_energy r x) nondimensional_force
       (P_swfjc_isotensional_legendre.nondimensional_relative_helmholtz_free_energy p nondimensional_force))
  /\ (forall (nondimensional_force : ndarray T),
     elementwise (fun x => O_swfjc_isotensional_legendre.nondimensional_relative_helmholtz_free_energy_per_link r x) nondimensional_force
       (P_swfjc_isotensional_legendre.nondimensional_relative_helmholtz_free_energy_per_link p nondimensional_force)).
Proof.
  intros T Sc number_of_links link_length hinge_mass well_width p r.
  assert (P_swfjc_isotensional_legendre.hinge_mass p = O_swfjc_isotensional_legendre.hinge_mass r) by reflexivity.
  assert (P_swfjc_isotensional_legendre.link_length p = O_swfjc_isotensional_legendre.link_length r) by reflexivity.
  assert (P_swfjc_isotensional_legendre.number_of_links p = O_swfjc_isotensional_legendre.number_of_links r) by reflexivity.
  assert (P_swfjc_isotensional_legendre.well_width p = O_swfjc_isotensional_legendre.well_width r) by reflexivity.
  clearbody p r.
  unfold P_swfjc_isotensional_legendre.helmholtz_free_energy,
    P_swfjc_isotensional_legendre.helmholtz_free_energy_per_link,
    P_swfjc_isotensional_legendre.relative_helmholtz_free_energy,
    P_swfjc_isotensional_legendre.relative_helmholtz_free_energy_per_link,
    P_swfjc_isotensional_legendre.nondimensional_helmholtz_free_energy,
    P_swfjc_isotensional_legendre.nondimensional_helmholtz_free_energy_per_link,
    P_swfjc_isotensional_legendre.nondimensional_relative_helmholtz_free_energy,
    P_swfjc_isotensional_legendre.nondimensional_relative_helmholtz_free_energy_per_link,
    O_swfjc_isotensional_legendre.helmholtz_free_energy,
    O_swfjc_isotensional_legendre.helmholtz_free_energy_per_link,
    O_swfjc_isotensional_legendre.relative_helmholtz_free_energy,
    O_swfjc_isotensional_legendre.relative_helmholtz_free_energy_per_link,
    O_swfjc_isotensional_legendre.nondimensional_helmholtz_free_energy,
    O_swfjc_isotensional_legendre.nondimensional_helmholtz_free_energy_per_link,
    O_swfjc_isotensional_legendre.nondimensional_relative_helmholtz_free_energy,
    O_swfjc_isotensional_legendre.nondimensional_relative_helmholtz_free_energy_per_link.
  elementwise_tac.
Qed.
Print Assumptions C58_swfjc_isotensional_legendre.

Theorem C58_efjc : forall (T : Type) (Sc : Scalar T) (number_of_links : Z) (link_length : T) (hinge_mass : T) (link_stiffness : T),
  let p := P_efjc.init number_of_links link_length hinge_mass link_stiffness in
  let r := O_efjc.init number_of_links link_length hinge_mass link_stiffness in
  P_efjc.hinge_mass p = O_efjc.hinge_mass r
  /\ P_efjc.link_length p = O_efjc.link_length r
  /\ P_efjc.number_of_links p = O_efjc.number_of_links r
  /\ P_efjc.link_stiffness p = O_efjc.link_stiffness r.
Proof.
  intros T Sc number_of_links link_length hinge_mass link_stiffness p r.
  assert (P_efjc.hinge_mass p = O_efjc.hinge_mass r) by reflexivity.
  assert (P_efjc.link_length p = O_efjc.link_length r) by reflexivity.
  assert (P_efjc.number_of_links p = O_efjc.number_of_links r) by reflexivity.
  assert (P_efjc.link_stiffness p = O_efjc.link_stiffness r) by reflexivity.
  clearbody p r.
  elementwise_tac.
Qed.
Print Assumptions C58_efjc.

Theorem C58_efjc_thermodynamics : forall (T : Type) (Sc : Scalar T) (number_of_links : Z) (link_length : T) (hinge_mass : T) (link_stiffness : T),
  let p := P_efjc.thermodynamics (P_efjc.init number_of_links link_length hinge_mass link_stiffness) in
  let r := O_efjc.thermodynamics (O_efjc.init number_of_links link_length hinge_mass link_stiffness) in
  P_efjc_thermodynamics.hinge_mass p = O_efjc_thermodynamics.hinge_mass r
  /\ P_efjc_thermodynamics.link_length p = O_efjc_thermodynamics.link_length r
  /\ P_efjc_thermodynamics.number_of_links p = O_efjc_thermodynamics.number_of_links r
  /\ P_efjc_thermodynamics.link_stiffness p = O_efjc_thermodynamics.link_stiffness r.
Proof.
  intros T Sc number_of_links link_length hinge_mass link_stiffness p r.
  assert (P_efjc_thermodynamics.hinge_mass p = O_efjc_thermodynamics.hinge_mass r) by reflexivity.
  assert (P_efjc_thermodynamics.link_length p = O_efjc_thermodynamics.link_length r) by reflexivity.
  assert (P_efjc_thermodynamics.number_of_links p = O_efjc_thermodynamics.number_of_links r) by reflexivity.
  assert (P_efjc_thermodynamics.link_stiffness p = O_efjc_thermodynamics.link_stiffness r) by reflexivity.
  clearbody p r.
  elementwise_tac.
Qed.
Print Assumptions C58_efjc_thermodynamics.

Theorem C58_efjc_isometric : forall (T : Type) (Sc : Scalar T) (number_of_links : Z) (link_length : T) (hinge_mass : T) (link_stiffness : T),
  let p := P_efjc_thermodynamics.isometric (P_efjc.thermodynamics (P_efjc.init number_of_links link_length hinge_mass link_stiffness)) in
  let r := O_efjc_thermodynamics.isometric (O_efjc.thermodynamics (O_efjc.init number_of_links link_length hinge_mass link_stiffness)) in
  P_efjc_isometric.hinge_mass p = O_efjc_isometric.hinge_mass r
  /\ P_efjc_isometric.link_length p = O_efjc_isometric.link_length r
  /\ P_efjc_isometric.number_of_links p = O_efjc_isometric.number_of_links r
  /\ P_efjc_isometric.link_stiffness p = O_efjc_isometric.link_stiffness r.
Proof.
  intros T Sc number_of_links link_length hinge_mass link_stiffness p r.
  assert (P_efjc_isometric.hinge_mass p = O_efjc_isometric.hinge_mass r) by reflexivity.
  assert (P_efjc_isometric.link_length p = O_efjc_isometric.link_length r) by reflexivity.
  assert (P_efjc_isometric.number_of_links p = O_efjc_isometric.number_of_links r) by reflexivity.
  assert (P_efjc_isometric.link_stiffness p = O_efjc_isometric.link_stiffness r) by reflexivity.
  clearbody p r.
  elementwise_tac.
Qed.
Print Assumptions C58_efjc_isometric.

Theorem C58_efjc_isometric_asymptotic : forall (T : Type) (Sc : Scalar T) (number_of_links : Z) (link_length : T) (hinge_mass : T) (link_stiffness : T),
  let p := P_efjc_isometric.asymptotic (P_efjc_thermodynamics.isometric (P_efjc.thermodynamics (P_efjc.init number_of_links link_length hinge_mass link_stiffness))) in
  let r := O_efjc_isometric.asymptotic (O_efjc_thermodynamics.isometric (O_efjc.thermodynamics (O_efjc.init number_of_links link_length hinge_mass link_stiffness))) in
  P_efjc_isometric_asymptotic.hinge_mass p = O_efjc_isometric_asymptotic.hinge_mass r
  /\ P_efjc_isometric_asymptotic.link_length p = O_efjc_isometric_asymptotic.link_length r
  /\ P_efjc_isometric_asymptotic.number_of_links p = O_efjc_isometric_asymptotic.number_of_links r
  /\ P_efjc_isometric_asymptotic.link_stiffness p = O_efjc_isometric_asymptotic.link_stiffness r.
Proof.
  intros T Sc number_of_links link_length hinge_mass link_stiffness p r.
  assert (P_efjc_isometric_asymptotic.hinge_mass p = O_efjc_isometric_asymptotic.hinge_mass r) by reflexivity.
  assert (P_efjc_isometric_asymptotic.link_length p = O_efjc_isometric_asymptotic.link_length r) by reflexivity.
  assert (P_efjc_isometric_asymptotic.number_of_links p = O_efjc_isometric_asymptotic.number_of_links r) by reflexivity.
  assert (P_efjc_isometric_asymptotic.link_stiffness p = O_efjc_isometric_asymptotic.link_stiffness r) by reflexivity.
  clearbody p r.
  elementwise_tac.
Qed.
Print Assumptions C58_efjc_isometric_asymptotic.

Theorem C58_efjc_isometric_asymptotic_alternative : forall (T : Type) (Sc : Scalar T) (number_of_links : Z) (link_length : T) (hinge_mass : T) (link_stiffness : T),
  let p := P_efjc_isometric_asymptotic.alternative (P_efjc_isometric.asymptotic (P_efjc_thermodynamics.isometric (P_efjc.thermodynamics (P_efjc.init number_of_links link_length hinge_mass link_stiffness)))) in
  let r := O_efjc_isometric_asymptotic.alternative (O_efjc_isometric.asymptotic (O_efjc_thermodynamics.isometric (O_efjc.thermodynamics (O_efjc.init number_of_links link_length hinge_mass link_stiffness)))) in
  P_efjc_isometric_asymptotic_alternative.hinge_mass p = O_efjc_isometric_asymptotic_alternative.hinge_mass r
  /\ P_efjc_isometric_asymptotic_alternative.link_length p = O_efjc_isometric_asymptotic_alternative.link_length r
  /\ P_efjc_isometric_asymptotic_alternative.number_of_links p = O_efjc_isometric_asymptotic_alternative.number_of_links r
  /\ P_efjc_isometric_asymptotic_alternative.link_stiffness p = O_efjc_isometric_asymptotic_alternative.link_stiffness r.
Proof.
  intros T Sc number_of_links link_length hinge_mass link_stiffness p r.
  assert (P_efjc_isometric_asymptotic_alternative.hinge_mass p = O_efjc_isometric_asymptotic_alternative.hinge_mass r) by reflexivity.
  assert (P_efjc_isometric_asymptotic_alternative.link_length p = O_efjc_isometric_asymptotic_alternative.link_length r) by reflexivity.
  assert (P_efjc_isometric_asymptotic_alternative.number_of_links p = O_efjc_isometric_asymptotic_alternative.number_of_links r) by reflexivity.
  assert (P_efjc_isometric_asymptotic_alternative.link_stiffness p = O_efjc_isometric_asymptotic_alternative.link_stiffness r) by reflexivity.
  clearbody p r.
  elementwise_tac.
Qed.
Print Assumptions C58_efjc_isometric_asymptotic_alternative.

Theorem C58_efjc_isometric_asymptotic_alternative_legendre : forall (T : Type) (Sc : Scalar T) (number_of_links : Z) (link_length : T) (hinge_mass : T) (link_stiffness : T),
  let p := P_efjc_isometric_asymptotic_alternative.legendre (P_efjc_isometric_asymptotic.alternative (P_efjc_isometric.asymptotic (P_efjc_thermodynamics.isometric (P_efjc.thermodynamics (P_efjc.init number_of_links link_length hinge_mass link_stiffness))))) in
  let r := O_efjc_isometric_asymptotic_alternative.legendre (O_efjc_isometric_asymptotic.alternative (O_efjc_isometric.asymptotic (O_efjc_thermodynamics.isometric (O_efjc.thermodynamics (O_efjc.init number_of_links link_length hinge_mass link_stiffness))))) in
  P_efjc_isometric_asymptotic_alternative_legendre.hinge_mass p = O_efjc_isometric_asymptotic_alternative_legendre.hinge_mass r
  /\ P_efjc_isometric_asymptotic_alternative_legendre.link_length p = O_efjc_isometric_asymptotic_alternative_legendre.link_length r
  /\ P_efjc_isometric_asymptotic_alternative_legendre.number_of_links p = O_efjc_isometric_asymptotic_alternative_legendre.number_of_links r
  /\ P_efjc_isometric_asymptotic_alternative_legendre.link_stiffness p = O_efjc_isometric_asymptotic_alternative_legendre.link_stiffness r
  /\ (forall (end_to_end_length : ndarray T) (temperature : T),
     elementwise (fun x => O_efjc_isometric_asymptotic_alternative_legendre.force r x temperature) end_to_end_length
       (P_efjc_isometric_asymptotic_alternative_legendre.force p end_to_end_length temperature))
  /\ (forall (nondimensional_end_to_end_length_per_link : ndarray T) (temperature : T),
     elementwise (fun x => O_efjc_isometric_asymptotic_alternative_legendre.nondimensional_force r x temperature) nondimensional_end_to_end_length_per_link
       (P_efjc_isometric_asymptotic_alternative_legendre.nondimensional_force p nondimensional_end_to_end_length_per_link temperature))
  /\ (forall (end_to_end_length : ndarray T) (temperature : T),
     elementwise (fun x => O_efjc_isometric_asymptotic_alternative_legendre.helmholtz_free_energy r x temperature) end_to_end_length
       (P_efjc_isometric_asymptotic_alternative_legendre.helmholtz_free_energy p end_to_end_length temperature))
  /\ (forall (end_to_end_length : ndarray T) (temperature : T),
     elementwise (fun x => O_efjc_isometric_asymptotic_alternative_legendre.helmholtz_free_energy_per_link r x temperature) end_to_end_length
       (P_efjc_isometric_asymptotic_alternative_legendre.helmholtz_free_energy_per_link p end_to_end_length temperature))
  /\ (forall (end_to_end_length : ndarray T) (temperature : T),
     elementwise (fun x => O_efjc_isometric_asymptotic_alternative_legendre.relative_helmholtz_free_energy r x temperature) end_to_end_length
       (P_efjc_isometric_asymptotic_alternative_legendre.relative_helmholtz_free_energy p end_to_end_length temperature))
  /\ (forall (end_to_end_length : ndarray T) (temperature : T),
     elementwise (fun x => O_efjc_isometric_asymptotic_alternative_legendre.relative_helmholtz_free_energy_per_link r x temperature) end_to_end_length
       (P_efjc_isometric_asymptotic_alternative_legendre.relative_helmholtz_free_energy_per_link p end_to_end_length temperature))
  /\ (forall (nondimensional_end_to_end_length_per_link : ndarray T) (temperature : T),
     elementwise (fun x => O_efjc_isometric_asymptotic_alternative_legendre.nondimensional_helmholtz_free_energy r x temperature) nondimensional_end_to_end_length_per_link
       (P_efjc_isometric_asymptotic_alternative_legendre.nondimensional_helmholtz_free_energy p nondimensional_end_to_end_length_per_link temperature))
  /\ (forall (nondimensional_end_to_end_length_per_link : ndarray T) (temperature : T),
     elementwise (fun x => O_efjc_isometric_asymptotic_alternative_legendre.nondimensional_helmholtz_free_energy_per_link r x temperature) nondimensional_end_to_end_length_per_link
       (P_efjc_isometric_asymptotic_alternative_legendre.nondimensional_helmholtz_free_energy_per_link p nondimensional_end_to_end_length_per_link temperature))
  /\ (forall (nondimensional_end_to_end_length_per_link : ndarray T) (temperature : T),
     elementwise (fun x => O_efjc_isometric_asymptotic_alternative_legendre.nondimensional_relative_helmholtz_free_energy r x temperature) nondimensional_end_to_end_length_per_link
       (P_efjc_isometric_asymptotic_alternative_legendre.nondimensional_relative_helmholtz_free_energy p nondimensional_end_to_end_length_per_link temperature))
  /\ (forall (nondimensional_end_to_end_length_per_link : ndarray T) (temperature : T),
     elementwise (fun x => O_efjc_isometric_asymptotic_alternative_legendre.nondimensional_relative_helmholtz_free_energy_per_link r x temperature) nondimensional_end_to_end_length_per_link
       (P_efjc_isometric_asymptotic_alternative_legendre.nondimensional_relative_helmholtz_free_energy_per_link p nondimensional_end_to_end_length_per_link temperature)).
Proof.
  intros T Sc number_of_links link_length hinge_mass link_stiffness p r.
  assert (P_efjc_isometric_asymptotic_alternative_legendre.hinge_mass p = O_efjc_isometric_asymptotic_alternative_legendre.hinge_mass r) by reflexivity.
  assert (P_efjc_isometric_asymptotic_alternative_legendre.link_length p = O_efjc_isometric_asymptotic_alternative_legendre.link_length r) by reflexivity.
  assert (P_efjc_isometric_asymptotic_alternative_legendre.number_of_links p = O_efjc_isometric_asymptotic_alternative_legendre.number_of_links r) by reflexivity.
  assert (P_efjc_isometric_asymptotic_alternative_legendre.link_stiffness p = O_efjc_isometric_asymptotic_alternative_legendre.link_stiffness r) by reflexivity.
  clearbody p r.
  unfold P_efjc_isometric_asymptotic_alternative_legendre.force,
    P_efjc_isometric_asymptotic_alternative_legendre.nondimensional_force,
    P_efjc_isometric_asymptotic_alternative_legendre.helmholtz_free_energy,
    P_efjc_isometric_asymptotic_alternative_legendre.helmholtz_free_energy_per_link,
    P_efjc_isometric_asymptotic_alternative_legendre.relative_helmholtz_free_energy,
    P_efjc_isometric_asymptotic_alternative_legendre.relative_helmholtz_free_energy_per_link,
    P_efjc_isometric_asymptotic_alternative_legendre.nondimensional_helmholtz_free_energy,
    P_efjc_isometric_asymptotic_alternative_legendre.nondimensional_helmholtz_free_energy_per_link,
    P_efjc_isometric_asymptotic_alternative_legendre.nondimensional_relative_helmholtz_free_energy,
    P_efjc_isometric_asymptotic_alternative_legendre.nondimensional_relative_helmholtz_free_energy_per_link,
    O_efjc_isometric_asymptotic_alternative_legendre.force,
    O_efjc_isometric_asymptotic_alternative_legendre.nondimensional_force,
    O_efjc_isometric_asymptotic_alternative_legendre.helmholtz_free_energy,
    O_efjc_isometric_asymptotic_alternative_legendre.helmholtz_free_energy_per_link,
    O_efjc_isometric_asymptotic_alternative_legendre.relative_helmholtz_free_energy,
    O_efjc_isometric_asymptotic_alternative_legendre.relative_helmholtz_free_energy_per_link,
    O_efjc_isometric_asymptotic_alternative_legendre.nondimensional_helmholtz_free_energy,
    O_efjc_isometric_asymptotic_alternative_legendre.nondimensional_helmholtz_free_energy_per_link,
    O_efjc_isometric_asymptotic_alternative_legendre.nondimensional_relative_helmholtz_free_energy,
    O_efjc_isometric_asymptotic_alternative_legendre.nondimensional_relative_helmholtz_free_energy_per_link.
  elementwise_tac.
Qed.
Print Assumptions C58_efjc_isometric_asymptotic_alternative_legendre.

Theorem C58_efjc_isometric_asymptotic_reduced : forall (T : Type) (Sc : Scalar T) (number_of_links : Z) (link_length : T) (hinge_mass : T) (link_stiffness : T),
  let p := P_efjc_isometric_asymptotic.reduced (P_efjc_isometric.asymptotic (P_efjc_thermodynamics.isometric (P_efjc.thermodynamics (P_efjc.init number_of_links link_length hinge_mass link_stiffness)))) in
  let r := O_efjc_isometric_asymptotic.reduced (O_efjc_isometric.asymptotic (O_efjc_thermodynamics.isometric (O_efjc.thermodynamics (O_efjc.init number_of_links link_length hinge_mass link_stiffness)))) in
  P_efjc_isometric_asymptotic_reduced.hinge_mass p = O_efjc_isometric_asymptotic_reduced.hinge_mass r
  /\ P_efjc_isometric_asymptotic_reduced.link_length p = O_efjc_isometric_asymptotic_reduced.link_length r
  /\ P_efjc_isometric_asymptotic_reduced.number_of_links p = O_efjc_isometric_asymptotic_reduced.number_of_links r
  /\ P_efjc_isometric_asymptotic_reduced.link_stiffness p = O_efjc_isometric_asymptotic_reduced.link_stiffness r.
Proof.
  intros T Sc number_of_links link_length hinge_mass link_stiffness p r.
  assert (P_efjc_isometric_asymptotic_reduced.hinge_mass p = O_efjc_isometric_asymptotic_reduced.hinge_mass r) by reflexivity.
  assert (P_efjc_isometric_asymptotic_reduced.link_length p = O_efjc_isometric_asymptotic_reduced.link_length r) by reflexivity.
  assert (P_efjc_isometric_asymptotic_reduced.number_of_links p = O_efjc_isometric_asymptotic_reduced.number_of_links r) by reflexivity.
  assert (P_efjc_isometric_asymptotic_reduced.link_stiffness p = O_efjc_isometric_asymptotic_reduced.link_stiffness r) by reflexivity.
  clearbody p r.
  elementwise_tac.
Qed.
Print Assumptions C58_efjc_isometric_asymptotic_reduced.

Theorem C58_efjc_isometric_asymptotic_reduced_legendre : forall (T : Type) (Sc : Scalar T) (number_of_links : Z) (link_length : T) (hinge_mass : T) (link_stiffness : T),
  let p := P_efjc_isometric_asymptotic_reduced.legendre (P_efjc_isometric_asymptotic.reduced (P_efjc_isometric.asymptotic (P_efjc_thermodynamics.isometric (P_efjc.thermodynamics (P_efjc.init number_of_links link_length hinge_mass link_stiffness))))) in
  let r := O_efjc_isometric_asymptotic_reduced.legendre (O_efjc_isometric_asymptotic.reduced (O_efjc_isometric.asymptotic (O_efjc_thermodynamics.isometric (O_efjc.thermodynamics (O_efjc.init number_of_links link_length hinge_mass link_stiffness))))) in
  P_efjc_isometric_asymptotic_reduced_legendre.hinge_mass p = O_efjc_isometric_asymptotic_reduced_legendre.hinge_mass r
  /\ P_efjc_isometric_asymptotic_reduced_legendre.link_length p = O_efjc_isometric_asymptotic_reduced_legendre.link_length r
  /\ P_efjc_isometric_asymptotic_reduced_legendre.number_of_links p = O_efjc_isometric_asymptotic_reduced_legendre.number_of_links r
  /\ P_efjc_isometric_asymptotic_reduced_legendre.link_stiffness p = O_efjc_isometric_asymptotic_reduced_legendre.link_stiffness r
  /\ (forall (end_to_end_length : ndarray T) (temperature : T),
     elementwise (fun x => O_efjc_isometric_asymptotic_reduced_legendre.force r x temperature) end_to_end_length
       (P_efjc_isometric_asymptotic_reduced_legendre.force p end_to_end_length temperature))
  /\ (forall (nondimensional_end_to_end_length_per_link : ndarray T) (temperature : T),
     elementwise (fun x => O_efjc_isometric_asymptotic_reduced_legendre.nondimensional_force r x temperature) nondimensional_end_to_end_length_per_link
       (P_efjc_isometric_asymptotic_reduced_legendre.nondimensional_force p nondimensional_end_to_end_length_per_link temperature))
  /\ (forall (end_to_end_length : ndarray T) (temperature : T),
     elementwise (fun x => O_efjc_isometric_asymptotic_reduced_legendre.helmholtz_free_energy r x temperature) end_to_end_length
       (P_efjc_isometric_asymptotic_reduced_legendre.helmholtz_free_energy p end_to_end_length temperature))
  /\ (forall (end_to_end_length : ndarray T) (temperature : T),
     elementwise (fun x => O_efjc_isometric_asymptotic_reduced_legendre.helmholtz_free_energy_per_link r x temperature) end_to_end_length
       (P_efjc_isometric_asymptotic_reduced_legendre.helmholtz_free_energy_per_link p end_to_end_length temperature))
  /\ (forall (end_to_end_length : ndarray T) (temperature : T),
     elementwise (fun x => O_efjc_isometric_asymptotic_reduced_legendre.relative_helmholtz_free_energy r x temperature) end_to_end_length
       (P_efjc_isometric_asymptotic_reduced_legendre.relative_helmholtz_free_energy p end_to_end_length temperature))
  /\ (forall (end_to_end_length : ndarray T) (temperature : T),
     elementwise (fun x => O_efjc_isometric_asymptotic_reduced_legendre.relative_helmholtz_free_energy_per_link r x temperature) end_to_end_length
       (P_efjc_isometric_asymptotic_reduced_legendre.relative_helmholtz_free_energy_per_link p end_to_end_length temperature))
  /\ (forall (nondimensional_end_to_end_length_per_link : ndarray T) (temperature : T),
     elementwise (fun x => O_efjc_isometric_asymptotic_reduced_legendre.nondimensional_helmholtz_free_energy r x temperature) nondimensional_end_to_end_length_per_link
       (P_efjc_isometric_asymptotic_reduced_legendre.nondimensional_helmholtz_free_energy p nondimensional_end_to_end_length_per_link temperature))
  /\ (forall (nondimensional_end_to_end_length_per_link : ndarray T) (temperature : T),
     elementwise (fun x => O_efjc_isometric_asymptotic_reduced_legendre.nondimensional_helmholtz_free_energy_per_link r x temperature) nondimensional_end_to_end_length_per_link
       (P_efjc_isometric_asymptotic_reduced_legendre.nondimensional_helmholtz_free_energy_per_link p nondimensional_end_to_end_length_per_link temperature))
  /\ (forall (nondimensional_end_to_end_length_per_link : ndarray T) (temperature : T),
     elementwise (fun x => O_efjc_isometric_asymptotic_reduced_legendre.nondimensional_relative_helmholtz_free_energy r x temperature) nondimensional_end_to_end_length_per_link
       (P_efjc_isometric_asymptotic_reduced_legendre.nondimensional_relative_helmholtz_free_energy p nondimensional_end_to_end_length_per_link temperature))
  /\ (forall (nondimensional_end_to_end_length_per_link : ndarray T) (temperature : T),
     elementwise (fun x => O_efjc_isometric_asymptotic_reduced_legendre.nondimensional_relative_helmholtz_free_energy_per_link r x temperature) nondimensional_end_to_end_length_per_link
       (P_efjc_isometric_asymptotic_reduced_legendre.nondimensional_relative_helmholtz_free_energy_per_link p nondimensional_end_to_end_length_per_link temperature)).
Proof.
  intros T Sc number_of_links link_length hinge_mass link_stiffness p r.
  assert (P_efjc_isometric_asymptotic_reduced_legendre.hinge_mass p = O_efjc_isometric_asymptotic_reduced_legendre.hinge_mass r) by reflexivity.
  assert (P_efjc_isometric_asymptotic_reduced_legendre.link_length p = O_efjc_isometric_asymptotic_reduced_legendre.link_length r) by reflexivity.
  assert (P_efjc_isometric_asymptotic_reduced_legendre.number_of_links p = O_efjc_isometric_asymptotic_reduced_legendre.number_of_links r) by reflexivity.
  assert (P_efjc_isometric_asymptotic_reduced_legendre.link_stiffness p = O_efjc_isometric_asymptotic_reduced_legendre.link_stiffness r) by reflexivity.
  clearbody p r.
  unfold P_efjc_isometric_asymptotic_reduced_legendre.force,
    P_efjc_isometric_asymptotic_reduced_legendre.nondimensional_force,
    P_efjc_isometric_asymptotic_reduced_legendre.helmholtz_free_energy,
    P_efjc_isometric_asymptotic_reduced_legendre.helmholtz_free_energy_per_link,
    P_efjc_isometric_asymptotic_reduced_legendre.relative_helmholtz_free_energy,
    P_efjc_isometric_asymptotic_reduced_legendre.relative_helmholtz_free_energy_per_link,
    P_efjc_isometric_asymptotic_reduced_legendre.nondimensional_helmholtz_free_energy,
    P_efjc_isometric_asymptotic_reduced_legendre.nondimensional_helmholtz_free_energy_per_link,
    P_efjc_isometric_asymptotic_reduced_legendre.nondimensional_relative_helmholtz_free_energy,
    P_efjc_isometric_asymptotic_reduced_legendre.nondimensional_relative_helmholtz_free_energy_per_link,
    O_efjc_isometric_asymptotic_reduced_legendre.force,
    O_efjc_isometric_asymptotic_reduced_legendre.nondimensional_force,
    O_efjc_isometric_asymptotic_reduced_legendre.helmholtz_free_energy,
    O_efjc_isometric_asymptotic_reduced_legendre.helmholtz_free_energy_per_link,
    O_efjc_isometric_asymptotic_reduced_legendre.relative_helmholtz_free_energy,
    O_efjc_isometric_asymptotic_reduced_legendre.relative_helmholtz_free_energy_per_link,
    O_efjc_isometric_asymptotic_reduced_legendre.nondimensional_helmholtz_free_energy,
    O_efjc_isometric_asymptotic_reduced_legendre.nondimensional_helmholtz_free_energy_per_link,
    O_efjc_isometric_asymptotic_reduced_legendre.nondimensional_relative_helmholtz_free_energy,
    O_efjc_isometric_asymptotic_reduced_legendre.nondimensional_relative_helmholtz_free_energy_per_link.
  elementwise_tac.
Qed.
Print Assumptions C58_efjc_isometric_asymptotic_reduced_legendre.

Theorem C58_efjc_isometric_asymptotic_legendre : forall (T : Type) (Sc : Scalar T) (number_of_links : Z) (link_length : T) (hinge_mass : T) (link_stiffness : T),
  let p := P_efjc_isometric_asymptotic.legendre (P_efjc_isometric.asymptotic (P_efjc_thermodynamics.isometric (P_efjc.thermodynamics (P_efjc.init number_of_links link_length hinge_mass link_stiffness)))) in
  let r := O_efjc_isometric_asymptotic.legendre (O_efjc_isometric.asymptotic (O_efjc_thermodynamics.isometric (O_efjc.thermodynamics (O_efjc.init number_of_links link_length hinge_mass link_stiffness)))) in
  P_efjc_isometric_asymptotic_legendre.hinge_mass p = O_efjc_isometric_asymptotic_legendre.hinge_mass r
  /\ P_efjc_isometric_asymptotic_legendre.link_length p = O_efjc_isometric_asymptotic_legendre.link_length r
  /\ P_efjc_isometric_asymptotic_legendre.number_of_links p = O_efjc_isometric_asymptotic_legendre.number_of_links r
  /\ P_efjc_isometric_asymptotic_legendre.link_stiffness p = O_efjc_isometric_asymptotic_legendre.link_stiffness r
  /\ (forall (end_to_end_length : ndarray T) (temperature : T),
     elementwise (fun x => O_efjc_isometric_asymptotic_legendre.force r x temperature) end_to_end_length
       (P_efjc_isometric_asymptotic_legendre.force p end_to_end_length temperature))
  /\ (forall (nondimensional_end_to_end_length_per_link : ndarray T) (temperature : T),
     elementwise (fun x => O_efjc_isometric_asymptotic_legendre.nondimensional_force r x temperature) nondimensional_end_to_end_length_per_link
       (P_efjc_isometric_asymptotic_legendre.nondimensional_force p nondimensional_end_to_end_length_per_link temperature))
  /\ (forall (end_to_end_length : ndarray T) (temperature : T),
     elementwise (fun x => O_efjc_isometric_asymptotic_legendre.helmholtz_free_energy r x temperature) end_to_end_length
       (P_efjc_isometric_asymptotic_legendre.helmholtz_free_energy p end_to_end_length temperature))
  /\ (forall (end_to_end_length : ndarray T) (temperature : T),
     elementwise (fun x => O_efjc_isometric_asymptotic_legendre.helmholtz_free_energy_per_link r x temperature) end_to_end_length
       (P_efjc_isometric_asymptotic_legendre.helmholtz_free_energy_per_link p end_to_end_length temperature))
  /\ (forall (end_to_end_length : ndarray T) (temperature : T),
     elementwise (fun x => O_efjc_isometric_asymptotic_legendre.relative_helmholtz_free_energy r x temperature) end_to_end_length
       (P_efjc_isometric_asymptotic_legendre.relative_helmholtz_free_energy p end_to_end_length temperature))
  /\ (forall (end_to_end_length : ndarray T) (temperature : T),
     elementwise (fun x => O_efjc_isometric_asymptotic_legendre.relative_helmholtz_free_energy_per_link r x temperature) end_to_end_length
       (P_efjc_isometric_asymptotic_legendre.relative_helmholtz_free_energy_per_link p end_to_end_length temperature))
  /\ (forall (nondimensional_end_to_end_length_per_link : ndarray T) (temperature : T),
     elementwise (fun x => O_efjc_isometric_asymptotic_legendre.nondimensional_helmholtz_free_energy r x temperature) nondimensional_end_to_end_length_per_link
       (P_efjc_isometric_asymptotic_legendre.nondimensional_helmholtz_free_energy p nondimensional_end_to_end_length_per_link temperature))
  /\ (forall (nondimensional_end_to_end_length_per_link : ndarray T) (temperature : T),
     elementwise (fun x => O_efjc_isometric_asymptotic_legendre.nondimensional_helmholtz_free_energy_per_link r x temperature) nondimensional_end_to_end_length_per_link
       (P_efjc_isometric_asymptotic_legendre.nondimensional_helmholtz_free_energy_per_link p nondimensional_end_to_end_length_per_link temperature))
  /\ (forall (nondimensional_end_to_end_length_per_link : ndarray T) (temperature : T),
     elementwise (fun x => O_efjc_isometric_asymptotic_legendre.nondimensional_relative_helmholtz_free_energy r x temperature) nondimensional_end_to_end_length_per_link
       (P_efjc_isometric_asymptotic_legendre.nondimensional_relative_helmholtz_free_energy p nondimensional_end_to_end_length_per_link temperature))
  /\ (forall (nondimensional_end_to_end_length_per_link : ndarray T) (temperature : T),
     elementwise (fun x => O_efjc_isometric_asymptotic_legendre.nondimensional_relative_helmholtz_free_energy_per_link r x temperature) nondimensional_end_to_end_length_per_link
       (P_efjc_isometric_asymptotic_legendre.nondimensional_relative_helmholtz_free_energy_per_link p nondimensional_end_to_end_length_per_link temperature)).
Proof.
  intros T Sc number_of_links link_length hinge_mass link_stiffness p r.
  assert (P_efjc_isometric_asymptotic_legendre.hinge_mass p = O_efjc_isometric_asymptotic_legendre.hinge_mass r) by reflexivity.
  assert (P_efjc_isometric_asymptotic_legendre.link_length p = O_efjc_isometric_asymptotic_legendre.link_length r) by reflexivity.
  assert (P_efjc_isometric_asymptotic_legendre.number_of_links p = O_efjc_isometric_asymptotic_legendre.number_of_links r) by reflexivity.
  assert (P_efjc_isometric_asymptotic_legendre.link_stiffness p = O_efjc_isometric_asymptotic_legendre.link_stiffness r) by reflexivity.
  clearbody p r.
  unfold P_efjc_isometric_asymptotic_legendre.force,
    P_efjc_isometric_asymptotic_legendre.nondimensional_force,
    P_efjc_isometric_asymptotic_legendre.helmholtz_free_energy,
    P_efjc_isometric_asymptotic_legendre.helmholtz_free_energy_per_link,
    P_efjc_isometric_asymptotic_legendre.relative_helmholtz_free_energy,
    P_efjc_isometric_asymptotic_legendre.relative_helmholtz_free_energy_per_link,
    P_efjc_isometric_asymptotic_legendre.nondimensional_helmholtz_free_energy,
    P_efjc_isometric_asymptotic_legendre.nondimensional_helmholtz_free_energy_per_link,
    P_efjc_isometric_asymptotic_legendre.nondimensional_relative_helmholtz_free_energy,
    P_efjc_isometric_asymptotic_legendre.nondimensional_relative_helmholtz_free_energy_per_link,
    O_efjc_isometric_asymptotic_legendre.force,
    O_efjc_isometric_asymptotic_legendre.nondimensional_force,
    O_efjc_isometric_asymptotic_legendre.helmholtz_free_energy,
    O_efjc_isometric_asymptotic_legendre.helmholtz_free_energy_per_link,
    O_efjc_isometric_asymptotic_legendre.relative_helmholtz_free_energy,
    O_efjc_isometric_asymptotic_legendre.relative_helmholtz_free_energy_per_link,
    O_efjc_isometric_asymptotic_legendre.nondimensional_helmholtz_free_energy,
    O_efjc_isometric_asymptotic_legendre.nondimensional_helmholtz_free_energy_per_link,
    O_efjc_isometric_asymptotic_legendre.nondimensional_relative_helmholtz_free_energy,
    O_efjc_isometric_asymptotic_legendre.nondimensional_relative_helmholtz_free_energy_per_link.
  elementwise_tac.
Qed.
Print Assumptions C58_efjc_isometric_asymptotic_legendre.

Theorem C58_efjc_isotensional : forall (T : Type) (Sc : Scalar T) (number_of_links : Z) (link_length : T) (hinge_mass : T) (link_stiffness : T),
  let p := P_efjc_thermodynamics.isotensional (P_efjc.thermodynamics (P_efjc.init number_of_links link_length hinge_mass link_stiffness)) in
  let r := O_efjc_thermodynamics.isotensional (O_efjc.thermodynamics (O_efjc.init number_of_links link_length hinge_mass link_stiffness)) in
  P_efjc_isotensional.hinge_mass p = O_efjc_isotensional.hinge_mass r
  /\ P_efjc_isotensional.link_length p = O_efjc_isotensional.link_length r
  /\ P_efjc_isotensional.number_of_links p = O_efjc_isotensional.number_of_links r
  /\ P_efjc_isotensional.link_stiffness p = O_efjc_isotensional.link_stiffness r
  /\ (forall (force : ndarray T) (temperature : T),
     elementwise (fun x => O_efjc_isotensional.end_to_end_length r x temperature) force
       (P_efjc_isotensional.end_to_end_length p force temperature))
  /\ (forall (force : ndarray T) (temperature : T),
     elementwise (fun x => O_efjc_isotensional.end_to_end_length_per_link r x temperature) force
       (P_efjc_isotensional.end_to_end_length_per_link p force temperature))
  /\ (forall (nondimensional_force : ndarray T) (temperature : T),
     elementwise (fun x => O_efjc_isotensional.nondimensional_end_to_end_length r x temperature) nondimensional_force
       (P_efjc_isotensional.nondimensional_end_to_end_length p nondimensional_force temperature))
  /\ (forall (nondimensional_force : ndarray T) (temperature : T),
     elementwise (fun x => O_efjc_isotensional.nondimensional_end_to_end_length_per_link r x temperature) nondimensional_force
       (P_efjc_isotensional.nondimensional_end_to_end_length_per_link p nondimensional_force temperature))
  /\ (forall (force : ndarray T) (temperature : T),
     elementwise (fun x => O_efjc_isotensional.gibbs_free_energy r x temperature) force
       (P_efjc_isotensional.gibbs_free_energy p force temperature))
  /\ (forall (force : ndarray T) (temperature : T),
     elementwise (fun x => O_efjc_isotensional.gibbs_free_energy_per_link r x temperature) force
       (P_efjc_isotensional.gibbs_free_energy_per_link p force temperature))
  /\ (forall (force : ndarray T) (temperature : T),
     elementwise (fun x => O_efjc_isotensional.relative_gibbs_free_energy r x temperature) force
       (P_efjc_isotensional.relative_gibbs_free_energy p force temperature))
  /\ (forall (force : ndarray T) (temperature : T),
     elementwise (fun x => O_efjc_isotensional.relative_gibbs_free_energy_per_link r x temperature) force
       (P_efjc_isotensional.relative_gibbs_free_energy_per_link p force temperature))
  /\ (forall (nondimensional_force : ndarray T) (temperature : T),
     elementwise (fun x => O_efjc_isotensional.nondimensional_gibbs_free_energy r x temperature) nondimensional_force
       (P_efjc_isotensional.nondimensional_gibbs_free_energy p nondimensional_force temperature))
  /\ (forall (nondimensional_force : ndarray T) (temperature : T),
     elementwise (fun x => O_efjc_isotensional.nondimensional_gibbs_free_energy_per_link r x temperature) nondimensional_force
       (P_efjc_isotensional.nondimensional_gibbs_free_energy_per_link p nondimensional_force temperature))
  /\ (forall (nondimensional_force : ndarray T) (temperature : T),
     elementwise (fun x => O_efjc_isotensional.nondimensional_relative_gibbs_free_energy r x temperature) nondimensional_force
       (P_efjc_isotensional.nondimensional_relative_gibbs_free_energy p nondimensional_force temperature))
  /\ (forall (nondimensional_force : ndarray T) (temperature : T),
     elementwise (fun x => O_efjc_isotensional.nondimensional_relative_gibbs_free_energy_per_link r x temperature) nondimensional_force
       (P_efjc_isotensional.nondimensional_relative_gibbs_free_energy_per_link p nondimensional_force temperature)).
Proof.
  intros T Sc number_of_links link_length hinge_mass link_stiffness p r.
  assert (P_efjc_isotensional.hinge_mass p = O_efjc_isotensional.hinge_mass r) by reflexivity.
  assert (P_efjc_isotensional.link_length p = O_efjc_isotensional.link_length r) by reflexivity.
  assert (P_efjc_isotensional.number_of_links p = O_efjc_isotensional.number_of_links r) by reflexivity.
  assert (P_efjc_isotensional.link_stiffness p = O_efjc_isotensional.link_stiffness r) by reflexivity.
  clearbody p r.
  unfold P_efjc_isotensional.end_to_end_length, P_efjc_isotensional.end_to_end_length_per_link,
    P_efjc_isotensional.nondimensional_end_to_end_length,
    P_efjc_isotensional.nondimensional_end_to_end_length_per_link,
    P_efjc_isotensional.gibbs_free_energy, P_efjc_isotensional.gibbs_free_energy_per_link,
    P_efjc_isotensional.relative_gibbs_free_energy,
    P_efjc_isotensional.relative_gibbs_free_energy_per_link,
    P_efjc_isotensional.nondimensional_gibbs_free_energy,
    P_efjc_isotensional.nondimensional_gibbs_free_energy_per_link,
    P_efjc_isotensional.nondimensional_relative_gibbs_free_energy,
    P_efjc_isotensional.nondimensional_relative_gibbs_free_energy_per_link,
    O_efjc_isotensional.end_to_end_length, O_efjc_isotensional.end_to_end_length_per_link,
    O_efjc_isotensional.nondimensional_end_to_end_length,
    O_efjc_isotensional.nondimensional_end_to_end_length_per_link,
    O_efjc_isotensional.gibbs_free_energy, O_efjc_isotensional.gibbs_free_energy_per_link,
    O_efjc_isotensional.relative_gibbs_free_energy,
    O_efjc_isotensional.relative_gibbs_free_energy_per_link,
    O_efjc_isotensional.nondimensional_gibbs_free_energy,
    O_efjc_isotensional.nondimensional_gibbs_free_energy_per_link,
    O_efjc_isotensional.nondimensional_relative_gibbs_free_energy,
    O_efjc_isotensional.nondimensional_relative_gibbs_free_energy_per_link.
  elementwise_tac.
Qed.
Print Assumptions C58_efjc_isotensional.

Theorem C58_efjc_isotensional_asymptotic : forall (T : Type) (Sc : Scalar T) (number_of_links : Z) (link_length : T) (hinge_mass : T) (link_stiffness : T),
  let p := P_efjc_isotensional.asymptotic (P_efjc_thermodynamics.isotensional (P_efjc.thermodynamics (P_efjc.init number_of_links link_length hinge_mass link_stiffness))) in
  let r := O_efjc_isotensional.asymptotic (O_efjc_thermodynamics.isotensional (O_efjc.thermodynamics (O_efjc.init number_of_links link_length hinge_mass link_stiffness))) in
  P_efjc_isotensional_asymptotic.hinge_mass p = O_efjc_isotensional_asymptotic.hinge_mass r
  /\ P_efjc_isotensional_asymptotic.link_length p = O_efjc_isotensional_asymptotic.link_length r
  /\ P_efjc_isotensional_asymptotic.number_of_links p = O_efjc_isotensional_asymptotic.number_of_links r
  /\ P_efjc_isotensional_asymptotic.link_stiffness p = O_efjc_isotensional_asymptotic.link_stiffness r
  /\ (forall (force : ndarray T) (temperature : T),
     elementwise (fun x => O_efjc_isotensional_asymptotic.end_to_end_length r x temperature) force
       (P_efjc_isotensional_asymptotic.end_to_end_length p force temperature))
  /\ (forall (force : ndarray T) (temperature : T),
     elementwise (fun x => O_efjc_isotensional_asymptotic.end_to_end_length_per_link r x temperature) force
       (P_efjc_isotensional_asymptotic.end_to_end_length_per_link p force temperature))
  /\ (forall (nondimensional_force : ndarray T) (temperature : T),
     elementwise (fun x => O_efjc_isotensional_asymptotic.nondimensional_end_to_end_length r x temperature) nondimensional_force
       (P_efjc_isotensional_asymptotic.nondimensional_end_to_end_length p nondimensional_force temperature))
  /\ (forall (nondimensional_force : ndarray T) (temperature : T),
     elementwise (fun x => O_efjc_isotensional_asymptotic.nondimensional_end_to_end_length_per_link r x temperature) nondimensional_force
       (P_efjc_isotensional_asymptotic.nondimensional_end_to_end_length_per_link p nondimensional_force temperature))
  /\ (forall (force : ndarray T) (temperature : T),
     elementwise (fun x => O_efjc_isotensional_asymptotic.gibbs_free_energy r x temperature) force
       (P_efjc_isotensional_asymptotic.gibbs_free_energy p force temperature))
  /\ (forall (force : ndarray T) (temperature : T),
     elementwise (fun x => O_efjc_isotensional_asymptotic.gibbs_free_energy_per_link r x temperature) force
       (P_efjc_isotensional_asymptotic.gibbs_free_energy_per_link p force temperature))
  /\ (forall (force : ndarray T) (temperature : T),
     elementwise (fun x => O_efjc_isotensional_asymptotic.relative_gibbs_free_energy r x temperature) force
       (P_efjc_isotensional_asymptotic.relative_gibbs_free_energy p force temperature))
  /\ (forall (force : ndarray T) (temperature : T),
     elementwise (fun x => O_efjc_isotensional_asymptotic.relative_gibbs_free_energy_per_link r x temperature) force
       (P_efjc_isotensional_asymptotic.relative_gibbs_free_energy_per_link p force temperature))
  /\ (forall (nondimensional_force : ndarray T) (temperature : T),
     elementwise (fun x => O_efjc_isotensional_asymptotic.nondimensional_gibbs_free_energy r x temperature) nondimensional_force
       (P_efjc_isotensional_asymptotic.nondimensional_gibbs_free_energy p nondimensional_force temperature))
  /\ (forall (nondimensional_force : ndarray T) (temperature : T),
     elementwise (fun x => O_efjc_isotensional_asymptotic.nondimensional_gibbs_free_energy_per_link r x temperature) nondimensional_force
       (P_efjc_isotensional_asymptotic.nondimensional_gibbs_free_energy_per_link p nondimensional_force temperature))
  /\ (forall (nondimensional_force : ndarray T) (temperature : T),
     elementwise (fun x => O_efjc_isotensional_asymptotic.nondimensional_relative_gibbs_free_energy r x temperature) nondimensional_force
       (P_efjc_isotensional_asymptotic.nondimensional_relative_gibbs_free_energy p nondimensional_force temperature))
  /\ (forall (nondimensional_force : ndarray T) (temperature : T),
     elementwise (fun x => O_efjc_isotensional_asymptotic.nondimensional_relative_gibbs_free_energy_per_link r x temperature) nondimensional_force
       (P_efjc_isotensional_asymptotic.nondimensional_relative_gibbs_free_energy_per_link p nondimensional_force temperature)).
Proof.
  intros T Sc number_of_links link_length hinge_mass link_stiffness p r.
  assert (P_efjc_isotensional_asymptotic.hinge_mass p = O_efjc_isotensional_asymptotic.hinge_mass r) by reflexivity.
  assert (P_efjc_isotensional_asymptotic.link_length p = O_efjc_isotensional_asymptotic.link_length r) by reflexivity.
  assert (P_efjc_isotensional_asymptotic.number_of_links p = O_efjc_isotensional_asymptotic.number_of_links r) by reflexivity.
  assert (P_efjc_isotensional_asymptotic.link_stiffness p = O_efjc_isotensional_asymptotic.link_stiffness r) by reflexivity.
  clearbody p r.
  unfold P_efjc_isotensional_asymptotic.end_to_end_length,
    P_efjc_isotensional_asymptotic.end_to_end_length_per_link,
    P_efjc_isotensional_asymptotic.nondimensional_end_to_end_length,
    P_efjc_isotensional_asymptotic.nondimensional_end_to_end_length_per_link,
    P_efjc_isotensional_asymptotic.gibbs_free_energy,
    P_efjc_isotensional_asymptotic.gibbs_free_energy_per_link,
    P_efjc_isotensional_asymptotic.relative_gibbs_free_energy,
    P_efjc_isotensional_asymptotic.relative_gibbs_free_energy_per_link,
    P_efjc_isotensional_asymptotic.nondimensional_gibbs_free_energy,
    P_efjc_isotensional_asymptotic.nondimensional_gibbs_free_energy_per_link,
    P_efjc_isotensional_asymptotic.nondimensional_relative_gibbs_free_energy,
    P_efjc_isotensional_asymptotic.nondimensional_relative_gibbs_free_energy_per_link,
    O_efjc_isotensional_asymptotic.end_to_end_length,
    O_efjc_isotensional_asymptotic.end_to_end_length_per_link,
    O_efjc_isotensional_asymptotic.nondimensional_end_to_end_length,
    O_efjc_isotensional_asymptotic.nondimensional_end_to_end_length_per_link,
    O_efjc_isotensional_asymptotic.gibbs_free_energy,
    O_efjc_isotensional_asymptotic.gibbs_free_energy_per_link,
    O_efjc_isotensional_asymptotic.relative_gibbs_free_energy,
    O_efjc_isotensional_asymptotic.relative_gibbs_free_energy_per_link,
    O_efjc_isotensional_asymptotic.nondimensional_gibbs_free_energy,
    O_efjc_isotensional_asymptotic.nondimensional_gibbs_free_energy_per_link,
    O_efjc_isotensional_asymptotic.nondimensional_relative_gibbs_free_energy,
    O_efjc_isotensional_asymptotic.nondimensional_relative_gibbs_free_energy_per_link.
  elementwise_tac.
Qed.
Print Assumptions C58_efjc_isotensional_asymptotic.

Theorem C58_efjc_isotensional_asymptotic_alternative : forall (T : Type) (Sc : Scalar T) (number_of_links : Z) (link_length : T) (hinge_mass : T) (link_stiffness : T),
  let p := P_efjc_isotensional_asymptotic.alternative (P_efjc_isotensional.asymptotic (P_efjc_thermodynamics.isotensional (P_efjc.thermodynamics (P_efjc.init number_of_links link_length hinge_mass link_stiffness)))) in
  let r := O_efjc_isotensional_asymptotic.alternative (O_efjc_isotensional.asymptotic (O_efjc_thermodynamics.isotensional (O_efjc.thermodynamics (O_efjc.init number_of_links link_length hinge_mass link_stiffness)))) in
  P_efjc_isotensional_asymptotic_alternative.hinge_mass p = O_efjc_isotensional_asymptotic_alternative.hinge_mass r
  /\ P_efjc_isotensional_asymptotic_alternative.link_length p = O_efjc_isotensional_asymptotic_alternative.link_length r
  /\ P_efjc_isotensional_asymptotic_alternative.number_of_links p = O_efjc_isotensional_asymptotic_alternative.number_of_links r
  /\ P_efjc_isotensional_asymptotic_alternative.link_stiffness p = O_efjc_isotensional_asymptotic_alternative.link_stiffness r
  /\ (forall (force : ndarray T) (temperature : T),
     elementwise (fun x => O_efjc_isotensional_asymptotic_alternative.end_to_end_length r x temperature) force
       (P_efjc_isotensional_asymptotic_alternative.end_to_end_length p force temperature))
  /\ (forall (force : ndarray T) (temperature : T),
     elementwise (fun x => O_efjc_isotensional_asymptotic_alternative.end_to_end_length_per_link r x temperature) force
       (P_efjc_isotensional_asymptotic_alternative.end_to_end_length_per_link p force temperature))
  /\ (forall (nondimensional_force : ndarray T) (temperature : T),
     elementwise (fun x => O_efjc_isotensional_asymptotic_alternative.nondimensional_end_to_end_length r x temperature) nondimensional_force
       (P_efjc_isotensional_asymptotic_alternative.nondimensional_end_to_end_length p nondimensional_force temperature))
  /\ (forall (nondimensional_force : ndarray T) (temperature : T),
     elementwise (fun x => O_efjc_isotensional_asymptotic_alternative.nondimensional_end_to_end_length_per_link r x temperature) nondimensional_force
       (P_efjc_isotensional_asymptotic_alternative.nondimensional_end_to_end_length_per_link p nondimensional_force temperature))
  /\ (forall (force : ndarray T) (temperature : T),
     elementwise (fun x => O_efjc_isotensional_asymptotic_alternative.gibbs_free_energy r x temperature) force
       (P_efjc_isotensional_asymptotic_alternative.gibbs_free_energy p force temperature))
  /\ (forall (force : ndarray T) (temperature : T),
     elementwise (fun x => O_efjc_isotensional_asymptotic_alternative.gibbs_free_energy_per_link r x temperature) force
       (P_efjc_isotensional_asymptotic_alternative.gibbs_free_energy_per_link p force temperature))
  /\ (forall (force : ndarray T) (temperature : T),
     elementwise (fun x => O_efjc_isotensional_asymptotic_alternative.relative_gibbs_free_energy r x temperature) force
       (P_efjc_isotensional_asymptotic_alternative.relative_gibbs_free_energy p force temperature))
  /\ (forall (force : ndarray T) (temperature : T),
     elementwise (fun x => O_efjc_isotensional_asymptotic_alternative.relative_gibbs_free_energy_per_link r x temperature) force
       (P_efjc_isotensional_asymptotic_alternative.relative_gibbs_free_energy_per_link p force temperature))
  /\ (forall (nondimensional_force : ndarray T) (temperature : T),
     elementwise (fun x => O_efjc_isotensional_asymptotic_alternative.nondimensional_gibbs_free_energy r x temperature) nondimensional_force
       (P_efjc_isotensional_asymptotic_alternative.nondimensional_gibbs_free_energy p nondimensional_force temperature))
  /\ (forall (nondimensional_force : ndarray T) (temperature : T),
     elementwise (fun x => O_efjc_isotensional_asymptotic_alternative.nondimensional_gibbs_free_energy_per_link r x temperature) nondimensional_force
       (P_efjc_isotensional_asymptotic_alternative.nondimensional_gibbs_free_energy_per_link p nondimensional_force temperature))
  /\ (forall (nondimensional_force : ndarray T) (temperature : T),
     elementwise (fun x => O_efjc_isotensional_asymptotic_alternative.nondimensional_relative_gibbs_free_energy r x temperature) nondimensional_force
       (P_efjc_isotensional_asymptotic_alternative.nondimensional_relative_gibbs_free_energy p nondimensional_force temperature))
  /\ (forall (nondimensional_force : ndarray T) (temperature : T),
     elementwise (fun x => O_efjc_isotensional_asymptotic_alternative.nondimensional_relative_gibbs_free_energy_per_link r x temperature) nondimensional_force
       (P_efjc_isotensional_asymptotic_alternative.nondimensional_relative_gibbs_free_energy_per_link p nondimensional_force temperature)).
Proof.
  intros T Sc number_of_links link_length hinge_mass link_stiffness p r.
  assert (P_efjc_isotensional_asymptotic_alternative.hinge_mass p = O_efjc_isotensional_asymptotic_alternative.hinge_mass r) by reflexivity.
  assert (P_efjc_isotensional_asymptotic_alternative.link_length p = O_efjc_isotensional_asymptotic_alternative.link_length r) by reflexivity.
  assert (P_efjc_isotensional_asymptotic_alternative.number_of_links p = O_efjc_isotensional_asymptotic_alternative.number_of_links r) by reflexivity.
  assert (P_efjc_isotensional_asymptotic_alternative.link_stiffness p = O_efjc_isotensional_asymptotic_alternative.link_stiffness r) by reflexivity.
  clearbody p r.
  unfold P_efjc_isotensional_asymptotic_alternative.end_to_end_length,
    P_efjc_isotensional_asymptotic_alternative.end_to_end_length_per_link,
    P_efjc_isotensional_asymptotic_alternative.nondimensional_end_to_end_length,
    P_efjc_isotensional_asymptotic_alternative.nondimensional_end_to_end_length_per_link,
    P_efjc_isotensional_asymptotic_alternative.gibbs_free_energy,
    P_efjc_isotensional_asymptotic_alternative.gibbs_free_energy_per_link,
    P_efjc_isotensional_asymptotic_alternative.relative_gibbs_free_energy,
    P_efjc_isotensional_asymptotic_alternative.relative_gibbs_free_energy_per_link,
    P_efjc_isotensional_asymptotic_alternative.nondimensional_gibbs_free_energy,
    P_efjc_isotensional_asymptotic_alternative.nondimensional_gibbs_free_energy_per_link,
    P_efjc_isotensional_asymptotic_alternative.nondimensional_relative_gibbs_free_energy,
    P_efjc_isotensional_asymptotic_alternative.nondimensional_relative_gibbs_free_energy_per_link,
    O_efjc_isotensional_asymptotic_alternative.end_to_end_length,
    O_efjc_isotensional_asymptotic_alternative.end_to_end_length_per_link,
    O_efjc_isotensional_asymptotic_alternative.nondimensional_end_to_end_length,
    O_efjc_isotensional_asymptotic_alternative.nondimensional_end_to_end_length_per_link,
    O_efjc_isotensional_asymptotic_alternative.gibbs_free_energy,
    O_efjc_isotensional_asymptotic_alternative.gibbs_free_energy_per_link,
    O_efjc_isotensional_asymptotic_alternative.relative_gibbs_free_energy,
    O_efjc_isotensional_asymptotic_alternative.relative_gibbs_free_energy_per_link,
    O_efjc_isotensional_asymptotic_alternative.nondimensional_gibbs_free_energy,
    O_efjc_isotensional_asymptotic_alternative.nondimensional_gibbs_free_energy_per_link,
    O_efjc_isotensional_asymptotic_alternative.nondimensional_relative_gibbs_free_energy,
    O_efjc_isotensional_asymptotic_alternative.nondimensional_relative_gibbs_free_energy_per_link.
  elementwise_tac.
Qed.
Print Assumptions C58_efjc_isotensional_asymptotic_alternative.

Theorem C58_efjc_isotensional_asymptotic_alternative_legendre : forall (T : Type) (Sc : Scalar T) (number_of_links : Z) (link_length : T) (hinge_mass : T) (link_stiffness : T),
  let p := P_efjc_isotensional_asymptotic_alternative.legendre (P_efjc_isotensional_asymptotic.alternative (P_efjc_isotensional.asymptotic (P_efjc_thermodynamics.isotensional (P_efjc.thermodynamics (P_efjc.init number_of_links link_length hinge_mass link_stiffness))))) in
  let r := O_efjc_isotensional_asymptotic_alternative.legendre (O_efjc_isotensional_asymptotic.alternative (O_efjc_isotensional.asymptotic (O_efjc_thermodynamics.isotensional (O_efjc.thermodynamics (O_efjc.init number_of_links link_length hinge_mass link_stiffness))))) in
  P_efjc_isotensional_asymptotic_alternative_legendre.hinge_mass p = O_efjc_isotensional_asymptotic_alternative_legendre.hinge_mass r
  /\ P_efjc_isotensional_asymptotic_alternative_legendre.link_length p = O_efjc_isotensional_asymptotic_alternative_legendre.link_length r
  /\ P_efjc_isotensional_asymptotic_alternative_legendre.number_of_links p = O_efjc_isotensional_asymptotic_alternative_legendre.number_of_links r
  /\ P_efjc_isotensional_asymptotic_alternative_legendre.link_stiffness p = O_efjc_isotensional_asymptotic_alternative_legendre.link_stiffness r
  /\ (forall (force : ndarray T) (temperature : T),
     elementwise (fun x => O_efjc_isotensional_asymptotic_alternative_legendre.helmholtz_free_energy r x temperature) force
       (P_efjc_isotensional_asymptotic_alternative_legendre.helmholtz_free_energy p force temperature))
  /\ (forall (force : ndarray T) (temperature : T),
     elementwise (fun x => O_efjc_isotensional_asymptotic_alternative_legendre.helmholtz_free_energy_per_link r x temperature) force
       (P_efjc_isotensional_asymptotic_alternative_legendre.helmholtz_free_energy_per_link p force temperature))
  /\ (forall (force : ndarray T) (temperature : T),
     elementwise (fun x => O_efjc_isotensional_asymptotic_alternative_legendre.relative_helmholtz_free_energy r x temperature) force
       (P_efjc_isotensional_asymptotic_alternative_legendre.relative_helmholtz_free_energy p force temperature))
  /\ (forall (force : ndarray T) (temperature : T),
     elementwise (fun x => O_efjc_isotensional_asymptotic_alternative_legendre.relative_helmholtz_free_energy_per_link r x temperature) force
       (P_efjc_isotensional_asymptotic_alternative_legendre.relative_helmholtz_free_energy_per_link p force temperature))
  /\ (forall (nondimensional_force : ndarray T) (temperature : T),
     elementwise (fun x => O_efjc_isotensional_asymptotic_alternative_legendre.nondimensional_helmholtz_free_energy r x temperature) nondimensional_force
       (P_efjc_isotensional_asymptotic_alternative_legendre.nondimensional_helmholtz_free_energy p nondimensional_force temperature))
  /\ (forall (nondimensional_force : ndarray T) (temperature : T),
     elementwise (fun x => O_efjc_isotensional_asymptotic_alternative_legendre.nondimensional_helmholtz_free_energy_per_link r x temperature) nondimensional_force
       (P_efjc_isotensional_asymptotic_alternative_legendre.nondimensional_helmholtz_free_energy_per_link p nondimensional_force temperature))
  /\ (forall (nondimensional_force : ndarray T) (temperature : T),
     elementwise (fun x => O_efjc_isotensional_asymptotic_alternative_legendre.nondimensional_relative_helmholtz_free_energy r x temperature) nondimensional_force
       (P_efjc_isotensional_asymptotic_alternative_legendre.nondimensional_relative_helmholtz_free_energy p nondimensional_force temperature))
  /\ (forall (nondimensional_force : ndarray T) (temperature : T),
     elementwise (fun x => O_efjc_isotensional_asymptotic_alternative_legendre.nondimensional_relative_helmholtz_free_energy_per_link r x temperature) nondimensional_force
       (P_efjc_isotensional_asymptotic_alternative_legendre.nondimensional_relative_helmholtz_free_energy_per_link p nondimensional_force temperature)).
Proof.
  intros T Sc number_of_links link_length hinge_mass link_stiffness p r.
  assert (P_efjc_isotensional_asymptotic_alternative_legendre.hinge_mass p = O_efjc_isotensional_asymptotic_alternative_legendre.hinge_mass r) by reflexivity.
  assert (P_efjc_isotensional_asymptotic_alternative_legendre.link_length p = O_efjc_isotensional_asymptotic_alternative_legendre.link_length r) by reflexivity.
  assert (P_efjc_isotensional_asymptotic_alternative_legendre.number_of_links p = O_efjc_isotensional_asymptotic_alternative_legendre.number_of_links r) by reflexivity.
  assert (P_efjc_isotensional_asymptotic_alternative_legendre.link_stiffness p = O_efjc_isotensional_asymptotic_alternative_legendre.link_stiffness r) by reflexivity.
  clearbody p r.
  unfold P_efjc_isotensional_asymptotic_alternative_legendre.helmholtz_free_energy,
    P_efjc_isotensional_asymptotic_alternative_legendre.helmholtz_free_energy_per_link,
    P_efjc_isotensional_asymptotic_alternative_legendre.relative_helmholtz_free_energy,
    P_efjc_isotensional_asymptotic_alternative_legendre.relative_helmholtz_free_energy_per_link,
    P_efjc_isotensional_asymptotic_alternative_legendre.nondimensional_helmholtz_free_energy,
    P_efjc_isotensional_asymptotic_alternative_legendre.nondimensional_helmholtz_free_energy_per_link,
    P_efjc_isotensional_asymptotic_alternative_legendre.nondimensional_relative_helmholtz_free_energy,
    P_efjc_isotensional_asymptotic_alternative_legendre.nondimensional_relative_helmholtz_free_energy_per_link,
    O_efjc_isotensional_asymptotic_alternative_legendre.helmholtz_free_energy,
    O_efjc_isotensional_asymptotic_alternative_legendre.helmholtz_free_energy_per_link,
    O_efjc_isotensional_asymptotic_alternative_legendre.relative_helmholtz_free_energy,
    O_efjc_isotensional_asymptotic_alternative_legendre.relative_helmholtz_free_energy_per_link,
    O_efjc_isotensional_asymptotic_alternative_legendre.nondimensional_helmholtz_free_energy,
    O_efjc_isotensional_asymptotic_alternative_legendre.nondimensional_helmholtz_free_energy_per_link,
    O_efjc_isotensional_asymptotic_alternative_legendre.nondimensional_relative_helmholtz_free_energy,
    O_efjc_isotensional_asymptotic_alternative_legendre.nondimensional_relative_helmholtz_free_energy_per_link.
  elementwise_tac.
Qed.
Print Assumptions C58_efjc_isotensional_asymptotic_alternative_legendre.

Theorem C58_efjc_isotensional_asymptotic_reduced : forall (T : Type) (Sc : Scalar T) (number_of_links : Z) (link_length : T) (hinge_mass : T) (link_stiffness : T),
  let p := P_efjc_isotensional_asymptotic.reduced (P_efjc_isotensional.asymptotic (P_efjc_thermodynamics.isotensional (P_efjc.thermodynamics (P_efjc.init number_of_links link_length hinge_mass link_stiffness)))) in
  let r := O_efjc_isotensional_asymptotic.reduced (O_efjc_isotensional.asymptotic (O_efjc_thermodynamics.isotensional (O_efjc.thermodynamics (O_efjc.init number_of_links link_length hinge_mass link_stiffness)))) in
  P_efjc_isotensional_asymptotic_reduced.hinge_mass p = O_efjc_isotensional_asymptotic_reduced.hinge_mass r
  /\ P_efjc_isotensional_asymptotic_reduced.link_length p = O_efjc_isotensional_asymptotic_reduced.link_length r
  /\ P_efjc_isotensional_asymptotic_reduced.number_of_links p = O_efjc_isotensional_asymptotic_reduced.number_of_links r
  /\ P_efjc_isotensional_asymptotic_reduced.link_stiffness p = O_efjc_isotensional_asymptotic_reduced.link_stiffness r
  /\ (forall (force : ndarray T) (temperature : T),
     elementwise (fun x => O_efjc_isotensional_asymptotic_reduced.end_to_end_length r x temperature) force
       (P_efjc_isotensional_asymptotic_reduced.end_to_end_length p force temperature))
  /\ (forall (force : ndarray T) (temperature : T),
     elementwise (fun x => O_efjc_isotensional_asymptotic_reduced.end_to_end_length_per_link r x temperature) force
       (P_efjc_isotensional_asymptotic_reduced.end_to_end_length_per_link p force temperature))
  /\ (forall (nondimensional_force : ndarray T) (temperature : T),
     elementwise (fun x => O_efjc_isotensional_asymptotic_reduced.nondimensional_end_to_end_length r x temperature) nondimensional_force
       (P_efjc_isotensional_asymptotic_reduced.nondimensional_end_to_end_length p nondimensional_force temperature))
  /\ (forall (nondimensional_force : ndarray T) (temperature : T),
     elementwise (fun x => O_efjc_isotensional_asymptotic_reduced.nondimensional_end_to_end_length_per_link r x temperature) nondimensional_force
       (P_efjc_isotensional_asymptotic_reduced.nondimensional_end_to_end_length_per_link p nondimensional_force temperature))
  /\ (forall (force : ndarray T) (temperature : T),
     elementwise (fun x => O_efjc_isotensional_asymptotic_reduced.gibbs_free_energy r x temperature) force
       (P_efjc_isotensional_asymptotic_reduced.gibbs_free_energy p force temperature))
  /\ (forall (force : ndarray T) (temperature : T),
     elementwise (fun x => O_efjc_isotensional_asymptotic_reduced.gibbs_free_energy_per_link r x temperature) force
       (P_efjc_isotensional_asymptotic_reduced.gibbs_free_energy_per_link p force temperature))
  /\ (forall (force : ndarray T) (temperature : T),
     elementwise (fun x => O_efjc_isotensional_asymptotic_reduced.relative_gibbs_free_energy r x temperature) force
       (P_efjc_isotensional_asymptotic_reduced.relative_gibbs_free_energy p force temperature))
  /\ (forall (force : ndarray T) (temperature : T),
     elementwise (fun x => O_efjc_isotensional_asymptotic_reduced.relative_gibbs_free_energy_per_link r x temperature) force
       (P_efjc_isotensional_asymptotic_reduced.relative_gibbs_free_energy_per_link p force temperature))
  /\ (forall (nondimensional_force : ndarray T) (temperature : T),
     elementwise (fun x => O_efjc_isotensional_asymptotic_reduced.nondimensional_gibbs_free_energy r x temperature) nondimensional_force
       (P_efjc_isotensional_asymptotic_reduced.nondimensional_gibbs_free_energy p nondimensional_force temperature))
  /\ (forall (nondimensional_force : ndarray T) (temperature : T),
     elementwise (fun x => O_efjc_isotensional_asymptotic_reduced.nondimensional_gibbs_free_energy_per_link r x temperature) nondimensional_force
       (P_efjc_isotensional_asymptotic_reduced.nondimensional_gibbs_free_energy_per_link p nondimensional_force temperature))
  /\ (forall (nondimensional_force : ndarray T) (temperature : T),
     elementwise (fun x => O_efjc_isotensional_asymptotic_reduced.nondimensional_relative_gibbs_free_energy r x temperature) nondimensional_force
       (P_efjc_isotensional_asymptotic_reduced.nondimensional_relative_gibbs_free_energy p nondimensional_force temperature))
  /\ (forall (nondimensional_force : ndarray T) (temperature : T),
     elementwise (fun x => O_efjc_isotensional_asymptotic_reduced.nondimensional_relative_gibbs_free_energy_per_link r x temperature) nondimensional_force
       (P_efjc_isotensional_asymptotic_reduced.nondimensional_relative_gibbs_free_energy_per_link p nondimensional_force temperature)).
Proof.
  intros T Sc number_of_links link_length hinge_mass link_stiffness p r.
  assert (P_efjc_isotensional_asymptotic_reduced.hinge_mass p = O_efjc_isotensional_asymptotic_reduced.hinge_mass r) by reflexivity.
  assert (P_efjc_isotensional_asymptotic_reduced.link_length p = O_efjc_isotensional_asymptotic_reduced.link_length r) by reflexivity.
  assert (P_efjc_isotensional_asymptotic_reduced.number_of_links p = O_efjc_isotensional_asymptotic_reduced.number_of_links r) by reflexivity.
  assert (P_efjc_isotensional_asymptotic_reduced.link_stiffness p = O_efjc_isotensional_asymptotic_reduced.link_stiffness r) by reflexivity.
  clearbody p r.
  unfold P_efjc_isotensional_asymptotic_reduced.end_to_end_length,
    P_efjc_isotensional_asymptotic_reduced.end_to_end_length_per_link,
    P_efjc_isotensional_asymptotic_reduced.nondimensional_end_to_end_length,
    P_efjc_isotensional_asymptotic_reduced.nondimensional_end_to_end_length_per_link,
    P_efjc_isotensional_asymptotic_reduced.gibbs_free_energy,
    P_efjc_isotensional_asymptotic_reduced.gibbs_free_energy_per_link,
    P_efjc_isotensional_asymptotic_reduced.relative_gibbs_free_energy,
    P_efjc_isotensional_asymptotic_reduced.relative_gibbs_free_energy_per_link,
    P_efjc_isotensional_asymptotic_reduced.nondimensional_gibbs_free_energy,
    P_efjc_isotensional_asymptotic_reduced.nondimensional_gibbs_free_energy_per_link,
    P_efjc_isotensional_asymptotic_reduced.nondimensional_relative_gibbs_free_energy,
    P_efjc_isotensional_asymptotic_reduced.nondimensional_relative_gibbs_free_energy_per_link,
    O_efjc_isotensional_asymptotic_reduced.end_to_end_length,
    O_efjc_isotensional_asymptotic_reduced.end_to_end_length_per_link,
    O_efjc_isotensional_asymptotic_reduced.nondimensional_end_to_end_length,
    O_efjc_isotensional_asymptotic_reduced.nondimensional_end_to_end_length_per_link,
    O_efjc_isotensional_asymptotic_reduced.gibbs_free_energy,
    O_efjc_isotensional_asymptotic_reduced.gibbs_free_energy_per_link,
    O_efjc_isotensional_asymptotic_reduced.relative_gibbs_free_energy,
    O_efjc_isotensional_asymptotic_reduced.relative_gibbs_free_energy_per_link,
    O_efjc_isotensional_asymptotic_reduced.nondimensional_gibbs_free_energy,
    O_efjc_isotensional_asymptotic_reduced.nondimensional_gibbs_free_energy_per_link,
    O_efjc_isotensional_asymptotic_reduced.nondimensional_relative_gibbs_free_energy,
    O_efjc_isotensional_asymptotic_reduced.nondimensional_relative_gibbs_free_energy_per_link.
  elementwise_tac.
Qed.
Print Assumptions C58_efjc_isotensional_asymptotic_reduced.

Theorem C58_efjc_isotensional_asymptotic_reduced_legendre : forall (T : Type) (Sc : Scalar T) (number_of_links : Z) (link_length : T) (hinge_mass : T) (link_stiffness : T),
  let p := P_efjc_isotensional_asymptotic_reduced.legendre (P_efjc_isotensional_asymptotic.reduced (P_efjc_isotensional.asymptotic (P_efjc_thermodynamics.isotensional (P_efjc.thermodynamics (P_efjc.init number_of_links link_length hinge_mass link_stiffness))))) in
  let r := O_efjc_isotensional_asymptotic_reduced.legendre (O_efjc_isotensional_asymptotic.reduced (O_efjc_isotensional.asymptotic (O_efjc_thermodynamics.isotensional (O_efjc.thermodynamics (O_efjc.init number_of_links link_length hinge_mass link_stiffness))))) in
  P_efjc_isotensional_asymptotic_reduced_legendre.hinge_mass p = O_efjc_isotensional_asymptotic_reduced_legendre.hinge_mass r
  /\ P_efjc_isotensional_asymptotic_reduced_legendre.link_length p = O_efjc_isotensional_asymptotic_reduced_legendre.link_length r
  /\ P_efjc_isotensional_asymptotic_reduced_legendre.number_of_links p = O_efjc_isotensional_asymptotic_reduced_legendre.number_of_links r
  /\ P_efjc_isotensional_asymptotic_reduced_legendre.link_stiffness p = O_efjc_isotensional_asymptotic_reduced_legendre.link_stiffness r
  /\ (forall (force : ndarray T) (temperature : T),
     elementwise (fun x => O_efjc_isotensional_asymptotic_reduced_legendre.helmholtz_free_energy r x temperature) force
       (P_efjc_isotensional_asymptotic_reduced_legendre.helmholtz_free_energy p force temperature))
  /\ (forall (force : ndarray T) (temperature : T),
     elementwise (fun x => O_efjc_isotensional_asymptotic_reduced_legendre.helmholtz_free_energy_per_link r x temperature) force
       (P_efjc_isotensional_asymptotic_reduced_legendre.helmholtz_free_energy_per_link p force temperature))
  /\ (forall (force : ndarray T) (temperature : T),
     elementwise (fun x => O_efjc_isotensional_asymptotic_reduced_legendre.relative_helmholtz_free_energy r x temperature) force
       (P_efjc_isotensional_asymptotic_reduced_legendre.relative_helmholtz_free_energy p force temperature))
  /\ (forall (force : ndarray T) (temperature : T),
     elementwise (fun x => O_efjc_isotensional_asymptotic_reduced_legendre.relative_helmholtz_free_energy_per_link r x temperature) force
       (P_efjc_isotensional_asymptotic_reduced_legendre.relative_helmholtz_free_energy_per_link p force temperature))
  /\ (forall (nondimensional_force : ndarray T) (temperature : T),
     elementwise (fun x => O_efjc_isotensional_asymptotic_reduced_legendre.nondimensional_helmholtz_free_energy r x temperature) nondimensional_force
       (P_efjc_isotensional_asymptotic_reduced_legendre.nondimensional_helmholtz_free_energy p nondimensional_force temperature))
  /\ (forall (nondimensional_force : ndarray T) (temperature : T),
     elementwise (fun x => O_efjc_isotensional_asymptotic_reduced_legendre.nondimensional_helmholtz_free_energy_per_link r x temperature) nondimensional_force
       (P_efjc_isotensional_asymptotic_reduced_legendre.nondimensional_helmholtz_free_energy_per_link p nondimensional_force temperature))
  /\ (forall (nondimensional_force : ndarray T) (temperature : T),
     elementwise (fun x => O_efjc_isotensional_asymptotic_reduced_legendre.nondimensional_relative_helmholtz_free_energy r x temperature) nondimensional_force
       (P_efjc_isotensional_asymptotic_reduced_legendre.nondimensional_relative_helmholtz_free_energy p nondimensional_force temperature))
  /\ (forall (nondimensional_force : ndarray T) (temperature : T),
     elementwise (fun x => O_efjc_isotensional_asymptotic_reduced_legendre.nondimensional_relative_helmholtz_free_energy_per_link r x temperature) nondimensional_force
       (P_efjc_isotensional_asymptotic_reduced_legendre.nondimensional_relative_helmholtz_free_energy_per_link p nondimensional_force temperature)).
Proof.
  intros T Sc number_of_links link_length hinge_mass link_stiffness p r.
  assert (P_efjc_isotensional_asymptotic_reduced_legendre.hinge_mass p = O_efjc_isotensional_asymptotic_reduced_legendre.hinge_mass r) by reflexivity.
  assert (P_efjc_isotensional_asymptotic_reduced_legendre.link_length p = O_efjc_isotensional_asymptotic_reduced_legendre.link_length r) by reflexivity.
  assert (P_efjc_isotensional_asymptotic_reduced_legendre.number_of_links p = O_efjc_isotensional_asymptotic_reduced_legendre.number_of_links r) by reflexivity.
  assert (P_efjc_isotensional_asymptotic_reduced_legendre.link_stiffness p = O_efjc_isotensional_asymptotic_reduced_legendre.link_stiffness r) by reflexivity.
  clearbody p r.
  unfold P_efjc_isotensional_asymptotic_reduced_legendre.helmholtz_free_energy,
    P_efjc_isotensional_asymptotic_reduced_legendre.helmholtz_free_energy_per_link,
    P_efjc_isotensional_asymptotic_reduced_legendre.relative_helmholtz_free_energy,
    P_efjc_isotensional_asymptotic_reduced_legendre.relative_helmholtz_free_energy_per_link,
    P_efjc_isotensional_asymptotic_reduced_legendre.nondimensional_helmholtz_free_energy,
    P_efjc_isotensional_asymptotic_reduced_legendre.nondimensional_helmholtz_free_energy_per_link,
    P_efjc_isotensional_asymptotic_reduced_legendre.nondimensional_relative_helmholtz_free_energy,
    P_efjc_isotensional_asymptotic_reduced_legendre.nondimensional_relative_helmholtz_free_energy_per_link,
    O_efjc_isotensional_asymptotic_reduced_legendre.helmholtz_free_energy,
    O_efjc_isotensional_asymptotic_reduced_legendre.helmholtz_free_energy_per_link,
    O_efjc_isotensional_asymptotic_reduced_legendre.relative_helmholtz_free_energy,
    O_efjc_isotensional_asymptotic_reduced_legendre.relative_helmholtz_free_energy_per_link,
    O_efjc_isotensional_asymptotic_reduced_legendre.nondimensional_helmholtz_free_energy,
    O_efjc_isotensional_asymptotic_reduced_legendre.nondimensional_helmholtz_free_energy_per_link,
    O_efjc_isotensional_asymptotic_reduced_legendre.nondimensional_relative_helmholtz_free_energy,
    O_efjc_isotensional_asymptotic_reduced_legendre.nondimensional_relative_helmholtz_free_energy_per_link.
  elementwise_tac.
Qed.
Print Assumptions C58_efjc_isotensional_asymptotic_reduced_legendre.

Theorem C58_efjc_isotensional_asymptotic_legendre : forall (T : Type) (Sc : Scalar T) (number_of_links : Z) (link_length : T) (hinge_mass : T) (link_stiffness : T),
  let p := P_efjc_isotensional_asymptotic.legendre (P_efjc_isotensional.asymptotic (P_efjc_thermodynamics.isotensional (P_efjc.thermodynamics (P_efjc.init number_of_links link_length hinge_mass link_stiffness)))) in
  let r := O_efjc_isotensional_asymptotic.legendre (O_efjc_isotensional.asymptotic (O_efjc_thermodynamics.isotensional (O_efjc.thermodynamics (O_efjc.init number_of_links link_length hinge_mass link_stiffness)))) in
  P_efjc_isotensional_asymptotic_legendre.hinge_mass p = O_efjc_isotensional_asymptotic_legendre.hinge_mass r
  /\ P_efjc_isotensional_asymptotic_legendre.link_length p = O_efjc_isotensional_asymptotic_legendre.link_length r
  /\ P_efjc_isotensional_asymptotic_legendre.number_of_links p = O_efjc_isotensional_asymptotic_legendre.number_of_links r
  /\ P_efjc_isotensional_asymptotic_legendre.link_stiffness p = O_efjc_isotensional_asymptotic_legendre.link_stiffness r
  /\ (forall (force : ndarray T) (temperature : T),
     elementwise (fun x => O_efjc_isotensional_asymptotic_legendre.helmholtz_free_energy r x temperature) force
       (P_efjc_isotensional_asymptotic_legendre.helmholtz_free_energy p force temperature))
  /\ (forall (force : ndarray T) (temperature : T),
     elementwise (fun x => O_efjc_isotensional_asymptotic_legendre.helmholtz_free_energy_per_link r x temperature) force
       (P_efjc_isotensional_asymptotic_legendre.helmholtz_free_energy_per_link p force temperature))
  /\ (forall (force : ndarray T) (temperature : T),
     elementwise (fun x => O_efjc_isotensional_asymptotic_legendre.relative_helmholtz_free_energy r x temperature) force
       (P_efjc_isotensional_asymptotic_legendre.relative_helmholtz_free_energy p force temperature))
  /\ (forall (force : ndarray T) (temperature : T),
     elementwise (fun x => O_efjc_isotensional_asymptotic_legendre.relative_helmholtz_free_energy_per_link r x temperature) force
       (P_efjc_isotensional_asymptotic_legendre.relative_helmholtz_free_energy_per_link p force temperature))
  /\ (forall (nondimensional_force : ndarray T) (temperature : T),
     elementwise (fun x => O_efjc_isotensional_asymptotic_legendre.nondimensional_helmholtz_free_energy r x temperature) nondimensional_force
       (P_efjc_isotensional_asymptotic_legendre.nondimensional_helmholtz_free_energy p nondimensional_force temperature))
  /\ (forall (nondimensional_force : ndarray T) (temperature : T),
     elementwise (fun x => O_efjc_isotensional_asymptotic_legendre.nondimensional_relative_helmholtz_free_energy r x temperature) nondimensional_force
       (P_efjc_isotensional_asymptotic_legendre.nondimensional_relative_helmholtz_free_energy p nondimensional_force temperature))
  /\ (forall (nondimensional_force : ndarray T) (temperature : T),
     elementwise (fun x => O_efjc_isotensional_asymptotic_legendre.nondimensional_relative_helmholtz_free_energy_per_link r x temperature) nondimensional_force
       (P_efjc_isotensional_asymptotic_legendre.nondimensional_relative_helmholtz_free_energy_per_link p nondimensional_force temperature)).
Proof.
  intros T Sc number_of_links link_length hinge_mass link_stiffness p r.
  assert (P_efjc_isotensional_asymptotic_legendre.hinge_mass p = O_efjc_isotensional_asymptotic_legendre.hinge_mass r) by reflexivity.
  assert (P_efjc_isotensional_asymptotic_legendre.link_length p = O_efjc_isotensional_asymptotic_legendre.link_length r) by reflexivity.
  assert (P_efjc_isotensional_asymptotic_legendre.number_of_links p = O_efjc_isotensional_asymptotic_legendre.number_of_links r) by reflexivity.
  assert (P_efjc_isotensional_asymptotic_legendre.link_stiffness p = O_efjc_isotensional_asymptotic_legendre.link_stiffness r) by reflexivity.
  clearbody p r.
  unfold P_efjc_isotensional_asymptotic_legendre.helmholtz_free_energy,
    P_efjc_isotensional_asymptotic_legendre.helmholtz_free_energy_per_link,
    P_efjc_isotensional_asymptotic_legendre.relative_helmholtz_free_energy,
    P_efjc_isotensional_asymptotic_legendre.relative_helmholtz_free_energy_per_link,
    P_efjc_isotensional_asymptotic_legendre.nondimensional_helmholtz_free_energy,
    P_efjc_isotensional_asymptotic_legendre.nondimensional_helmholtz_free_energy_per_link,
    P_efjc_isotensional_asymptotic_legendre.nondimensional_relative_helmholtz_free_energy,
    P_efjc_isotensional_asymptotic_legendre.nondimensional_relative_helmholtz_free_energy_per_link,
    O_efjc_isotensional_asymptotic_legendre.helmholtz_free_energy,
    O_efjc_isotensional_asymptotic_legendre.helmholtz_free_energy_per_link,
    O_efjc_isotensional_asymptotic_legendre.relative_helmholtz_free_energy,
    O_efjc_isotensional_asymptotic_legendre.relative_helmholtz_free_energy_per_link,
    O_efjc_isotensional_asymptotic_legendre.nondimensional_helmholtz_free_energy,
    O_efjc_isotensional_asymptotic_legendre.nondimensional_helmholtz_free_energy_per_link,
    O_efjc_isotensional_asymptotic_legendre.nondimensional_relative_helmholtz_free_energy,
    O_efjc_isotensional_asymptotic_legendre.nondimensional_relative_helmholtz_free_energy_per_link.
  elementwise_tac.
Qed.
Print Assumptions C58_efjc_isotensional_asymptotic_legendre.

Theorem C58_efjc_isotensional_legendre : forall (T : Type) (Sc : Scalar T) (number_of_links : Z) (link_length : T) (hinge_mass : T) (link_stiffness : T),
  let p := P_efjc_isotensional.legendre (P_efjc_thermodynamics.isotensional (P_efjc.thermodynamics (P_efjc.init number_of_links link_length hinge_mass link_stiffness))) in
  let r := O_efjc_isotensional.legendre (O_efjc_thermodynamics.isotensional (O_efjc.thermodynamics (O_efjc.init number_of_links link_length hinge_mass link_stiffness))) in
  P_efjc_isotensional_legendre.hinge_mass p = O_efjc_isotensional_legendre.hinge_mass r
  /\ P_efjc_isotensional_legendre.link_length p = O_efjc_isotensional_legendre.link_length r
  /\ P_efjc_isotensional_legendre.number_of_links p = O_efjc_isotensional_legendre.number_of_links r
  /\ P_efjc_isotensional_legendre.link_stiffness p = O_efjc_isotensional_legendre.link_stiffness r
  /\ (forall (force : ndarray T) (temperature : T),
     elementwise (fun x => O_efjc_isotensional_legendre.helmholtz_free_energy r x temperature) force
       (P_efjc_isotensional_legendre.helmholtz_free_energy p force temperature))
  /\ (forall (force : ndarray T) (temperature : T),
     elementwise (fun x => O_efjc_isotensional_legendre.helmholtz_free_energy_per_link r x temperature) force
       (P_efjc_isotensional_legendre.helmholtz_free_energy_per_link p force temperature))
  /\ (forall (force : ndarray T) (temperature : T),
     elementwise (fun x => O_efjc_isotensional_legendre.relative_helmholtz_free_energy r x temperature) force
       (P_efjc_isotensional_legendre.relative_helmholtz_free_energy p force temperature))
  /\ (forall (force : ndarray T) (temperature : T),
     elementwise (fun x => O_efjc_isotensional_legendre.relative_helmholtz_free_energy_per_link r x temperature) force
       (P_efjc_isotensional_legendre.relative_helmholtz_free_energy_per_link p force temperature))
  /\ (forall (nondimensional_force : ndarray T) (temperature : T),
     elementwise (fun x => O_efjc_isotensional_legendre.nondimensional_helmholtz_free_energy r x temperature) nondimensional_force
       (P_efjc_isotensional_legendre.nondimensional_helmholtz_free_energy p nondimensional_force temperature))
  /\ (forall (nondimensional_force : ndarray T) (temperature : T),
     elementwise (fun x => O_efjc_isotensional_legendre.nondimensional_helmholtz_free_energy_per_link r x temperature) nondimensional_force
       (P_efjc_isotensional_legendre.nondimensional_helmholtz_free_energy_per_link p nondimensional_force temperature))
  /\ (forall (nondimensional_force : ndarray T) (temperature : T),
     elementwise (fun x => O_efjc_isotensional_legendre.nondimensional_relative_helmholtz_free_energy r x temperature) nondimensional_force
       (P_efjc_isotensional_legendre.nondimensional_relative_helmholtz_free_energy p nondimensional_force temperature))
  /\ (forall (nondimensional_force : ndarray T) (temperature : T),
     elementwise (fun x => O_efjc_isotensional_legendre.nondimensional_relative_helmholtz_free_energy_per_link r x temperature) nondimensional_force
       (P_efjc_isotensional_legendre.nondimensional_relative_helmholtz_free_energy_per_link p nondimensional_force temperature)).
Proof.
  intros T Sc number_of_links link_length hinge_mass link_stiffness p r.
  assert (P_efjc_isotensional_legendre.hinge_mass p = O_efjc_isotensional_legendre.hinge_mass r) by reflexivity.
  assert (P_efjc_isotensional_legendre.link_length p = O_efjc_isotensional_legendre.link_length r) by reflexivity.
  assert (P_efjc_isotensional_legendre.number_of_links p = O_efjc_isotensional_legendre.number_of_links r) by reflexivity.
  assert (P_efjc_isotensional_legendre.link_stiffness p = O_efjc_isotensional_legendre.link_stiffness r) by reflexivity.
  clearbody p r.
  unfold P_efjc_isotensional_legendre.helmholtz_free_energy,
    P_efjc_isotensional_legendre.helmholtz_free_energy_per_link,
    P_efjc_isotensional_legendre.relative_helmholtz_free_energy,
    P_efjc_isotensional_legendre.relative_helmholtz_free_energy_per_link,
    P_efjc_isotensional_legendre.nondimensional_helmholtz_free_energy,
    P_efjc_isotensional_legendre.nondimensional_helmholtz_free_energy_per_link,
    P_efjc_isotensional_legendre.nondimensional_relative_helmholtz_free_energy,
    P_efjc_isotensional_legendre.nondimensional_relative_helmholtz_free_energy_per_link,
    O_efjc_isotensional_legendre.helmholtz_free_energy,
    O_efjc_isotensional_legendre.helmholtz_free_energy_per_link,
    O_efjc_isotensional_legendre.relative_helmholtz_free_energy,
    O_efjc_isotensional_legendre.relative_helmholtz_free_energy_per_link,
    O_efjc_isotensional_legendre.nondimensional_helmholtz_free_energy,
    O_efjc_isotensional_legendre.nondimensional_helmholtz_free_energy_per_link,
    O_efjc_isotensional_legendre.nondimensional_relative_helmholtz_free_energy,
    O_efjc_isotensional_legendre.nondimensional_relative_helmholtz_free_energy_per_link.
  elementwise_tac.
Qed.
Print Assumptions C58_efjc_isotensional_legendre.

Theorem C58_morse : forall (T : Type) (Sc : Scalar T) (number_of_links : Z) (link_length : T) (hinge_mass : T) (link_stiffness : T) (link_energy : T),
  let p := P_morse.init number_of_links link_length hinge_mass link_stiffness link_energy in
  let r := O_morse.init number_of_links link_length hinge_mass link_stiffness link_energy in
  P_morse.hinge_mass p = O_morse.hinge_mass r
  /\ P_morse.link_length p = O_morse.link_length r
  /\ P_morse.number_of_links p = O_morse.number_of_links r
  /\ P_morse.link_stiffness p = O_morse.link_stiffness r
  /\ P_morse.link_energy p = O_morse.link_energy r.
Proof.
  intros T Sc number_of_links link_length hinge_mass link_stiffness link_energy p r.
  assert (P_morse.hinge_mass p = O_morse.hinge_mass r) by reflexivity.
  assert (P_morse.link_length p = O_morse.link_length r) by reflexivity.
  assert (P_morse.number_of_links p = O_morse.number_of_links r) by reflexivity.
  assert (P_morse.link_stiffness p = O_morse.link_stiffness r) by reflexivity.
  assert (P_morse.link_energy p = O_morse.link_energy r) by reflexivity.
  clearbody p r.
  elementwise_tac.
Qed.
Print Assumptions C58_morse.

Theorem C58_morse_thermodynamics : forall (T : Type) (Sc : Scalar T) (number_of_links : Z) (link_length : T) (hinge_mass : T) (link_stiffness : T) (link_energy : T),
  let p := P_morse.thermodynamics (P_morse.init number_of_links link_length hinge_mass link_stiffness link_energy) in
  let r := O_morse.thermodynamics (O_morse.init number_of_links link_length hinge_mass link_stiffness link_energy) in
  P_morse_thermodynamics.hinge_mass p = O_morse_thermodynamics.hinge_mass r
  /\ P_morse_thermodynamics.link_length p = O_morse_thermodynamics.link_length r
  /\ P_morse_thermodynamics.number_of_links p = O_morse_thermodynamics.number_of_links r
  /\ P_morse_thermodynamics.link_stiffness p = O_morse_thermodynamics.link_stiffness r
  /\ P_morse_thermodynamics.link_energy p = O_morse_thermodynamics.link_energy r.
Proof.
  intros T Sc number_of_links link_length hinge_mass link_stiffness link_energy p r.
  assert (P_morse_thermodynamics.hinge_mass p = O_morse_thermodynamics.hinge_mass r) by reflexivity.
  assert (P_morse_thermodynamics.link_length p = O_morse_thermodynamics.link_length r) by reflexivity.
  assert (P_morse_thermodynamics.number_of_links p = O_morse_thermodynamics.number_of_links r) by reflexivity.
  assert (P_morse_thermodynamics.link_stiffness p = O_morse_thermodynamics.link_stiffness r) by reflexivity.
  assert (P_morse_thermodynamics.link_energy p = O_morse_thermodynamics.link_energy r) by reflexivity.
  clearbody p r.
  elementwise_tac.
Qed.
Print Assumptions C58_morse_thermodynamics.

Theorem C58_morse_isometric : forall (T : Type) (Sc : Scalar T) (number_of_links : Z) (link_length : T) (hinge_mass : T) (link_stiffness : T) (link_energy : T),
  let p := P_morse_thermodynamics.isometric (P_morse.thermodynamics (P_morse.init number_of_links link_length hinge_mass link_stiffness link_energy)) in
  let r := O_morse_thermodynamics.isometric (O_morse.thermodynamics (O_morse.init number_of_links link_length hinge_mass link_stiffness link_energy)) in
  P_morse_isometric.hinge_mass p = O_morse_isometric.hinge_mass r
  /\ P_morse_isometric.link_length p = O_morse_isometric.link_length r
  /\ P_morse_isometric.number_of_links p = O_morse_isometric.number_of_links r
  /\ P_morse_isometric.link_stiffness p = O_morse_isometric.link_stiffness r
  /\ P_morse_isometric.link_energy p = O_morse_isometric.link_energy r.
Proof.
  intros T Sc number_of_links link_length hinge_mass link_stiffness link_energy p r.
  assert (P_morse_isometric.hinge_mass p = O_morse_isometric.hinge_mass r) by reflexivity.
  assert (P_morse_isometric.link_length p = O_morse_isometric.link_length r) by reflexivity.
  assert (P_morse_isometric.number_of_links p = O_morse_isometric.number_of_links r) by reflexivity.
  assert (P_morse_isometric.link_stiffness p = O_morse_isometric.link_stiffness r) by reflexivity.
  assert (P_morse_isometric.link_energy p = O_morse_isometric.link_energy r) by reflexivity.
  clearbody p r.
  elementwise_tac.
Qed.
Print Assumptions C58_morse_isometric.

Theorem C58_morse_isometric_asymptotic : forall (T : Type) (Sc : Scalar T) (number_of_links : Z) (link_length : T) (hinge_mass : T) (link_stiffness : T) (link_energy : T),
  let p := P_morse_isometric.asymptotic (P_morse_thermodynamics.isometric (P_morse.thermodynamics (P_morse.init number_of_links link_length hinge_mass link_stiffness link_energy))) in
  let r := O_morse_isometric.asymptotic (O_morse_thermodynamics.isometric (O_morse.thermodynamics (O_morse.init number_of_links link_length hinge_mass link_stiffness link_energy))) in
  P_morse_isometric_asymptotic.hinge_mass p = O_morse_isometric_asymptotic.hinge_mass r
  /\ P_morse_isometric_asymptotic.link_length p = O_morse_isometric_asymptotic.link_length r
  /\ P_morse_isometric_asymptotic.number_of_links p = O_morse_isometric_asymptotic.number_of_links r
  /\ P_morse_isometric_asymptotic.link_stiffness p = O_morse_isometric_asymptotic.link_stiffness r
  /\ P_morse_isometric_asymptotic.link_energy p = O_morse_isometric_asymptotic.link_energy r.
Proof.
  intros T Sc number_of_links link_length hinge_mass link_stiffness link_energy p r.
  assert (P_morse_isometric_asymptotic.hinge_mass p = O_morse_isometric_asymptotic.hinge_mass r) by reflexivity.
  assert (P_morse_isometric_asymptotic.link_length p = O_morse_isometric_asymptotic.link_length r) by reflexivity.
  assert (P_morse_isometric_asymptotic.number_of_links p = O_morse_isometric_asymptotic.number_of_links r) by reflexivity.
  assert (P_morse_isometric_asymptotic.link_stiffness p = O_morse_isometric_asymptotic.link_stiffness r) by reflexivity.
  assert (P_morse_isometric_asymptotic.link_energy p = O_morse_isometric_asymptotic.link_energy r) by reflexivity.
  clearbody p r.
  elementwise_tac.
Qed.
Print Assumptions C58_morse_isometric_asymptotic.

Theorem C58_morse_isometric_asymptotic_reduced : forall (T : Type) (Sc : Scalar T) (number_of_links : Z) (link_length : T) (hinge_mass : T) (link_stiffness : T) (link_energy : T),
  let p := P_morse_isometric_asymptotic.reduced (P_morse_isometric.asymptotic (P_morse_thermodynamics.isometric (P_morse.thermodynamics (P_morse.init number_of_links link_length hinge_mass link_stiffness link_energy)))) in
  let r := O_morse_isometric_asymptotic.reduced (O_morse_isometric.asymptotic (O_morse_thermodynamics.isometric (O_morse.thermodynamics (O_morse.init number_of_links link_length hinge_mass link_stiffness link_energy)))) in
  P_morse_isometric_asymptotic_reduced.hinge_mass p = O_morse_isometric_asymptotic_reduced.hinge_mass r
  /\ P_morse_isometric_asymptotic_reduced.link_length p = O_morse_isometric_asymptotic_reduced.link_length r
  /\ P_morse_isometric_asymptotic_reduced.number_of_links p = O_morse_isometric_asymptotic_reduced.number_of_links r
  /\ P_morse_isometric_asymptotic_reduced.link_stiffness p = O_morse_isometric_asymptotic_reduced.link_stiffness r
  /\ P_morse_isometric_asymptotic_reduced.link_energy p = O_morse_isometric_asymptotic_reduced.link_energy r.
Proof.
  intros T Sc number_of_links link_length hinge_mass link_stiffness link_energy p r.
  assert (P_morse_isometric_asymptotic_reduced.hinge_mass p = O_morse_isometric_asymptotic_reduced.hinge_mass r) by reflexivity.
  assert (P_morse_isometric_asymptotic_reduced.link_length p = O_morse_isometric_asymptotic_reduced.link_length r) by reflexivity.
  assert (P_morse_isometric_asymptotic_reduced.number_of_links p = O_morse_isometric_asymptotic_reduced.number_of_links r) by reflexivity.
  assert (P_morse_isometric_asymptotic_reduced.link_stiffness p = O_morse_isometric_asymptotic_reduced.link_stiffness r) by reflexivity.
  assert (P_morse_isometric_asymptotic_reduced.link_energy p = O_morse_isometric_asymptotic_reduced.link_energy r) by reflexivity.
  clearbody p r.
  elementwise_tac.
Qed.
Print Assumptions C58_morse_isometric_asymptotic_reduced.

Theorem C58_morse_isometric_asymptotic_reduced_legendre : forall (T : Type) (Sc : Scalar T) (number_of_links : Z) (link_length : T) (hinge_mass : T) (link_stiffness : T) (link_energy : T),
  let p := P_morse_isometric_asymptotic_reduced.legendre (P_morse_isometric_asymptotic.reduced (P_morse_isometric.asymptotic (P_morse_thermodynamics.isometric (P_morse.thermodynamics (P_morse.init number_of_links link_length hinge_mass link_stiffness link_energy))))) in
  let r := O_morse_isometric_asymptotic_reduced.legendre (O_morse_isometric_asymptotic.reduced (O_morse_isometric.asymptotic (O_morse_thermodynamics.isometric (O_morse.thermodynamics (O_morse.init number_of_links link_length hinge_mass link_stiffness link_energy))))) in
  P_morse_isometric_asymptotic_reduced_legendre.hinge_mass p = O_morse_isometric_asymptotic_reduced_legendre.hinge_mass r
  /\ P_morse_isometric_asymptotic_reduced_legendre.link_length p = O_morse_isometric_asymptotic_reduced_legendre.link_length r
  /\ P_morse_isometric_asymptotic_reduced_legendre.number_of_links p = O_morse_isometric_asymptotic_reduced_legendre.number_of_links r
  /\ P_morse_isometric_asymptotic_reduced_legendre.link_stiffness p = O_morse_isometric_asymptotic_reduced_legendre.link_stiffness r
  /\ P_morse_isometric_asymptotic_reduced_legendre.link_energy p = O_morse_isometric_asymptotic_reduced_legendre.link_energy r
  /\ (forall (end_to_end_length : ndarray T) (temperature : T),
     elementwise (fun x => O_morse_isometric_asymptotic_reduced_legendre.force r x temperature) end_to_end_length
       (P_morse_isometric_asymptotic_reduced_legendre.force p end_to_end_length temperature))
  /\ (forall (nondimensional_end_to_end_length_per_link : ndarray T) (temperature : T),
     elementwise (fun x => O_morse_isometric_asymptotic_reduced_legendre.nondimensional_force r x temperature) nondimensional_end_to_end_length_per_link
       (P_morse_isometric_asymptotic_reduced_legendre.nondimensional_force p nondimensional_end_to_end_length_per_link temperature))
  /\ (forall (end_to_end_length : ndarray T) (temperature : T),
     elementwise (fun x => O_morse_isometric_asymptotic_reduced_legendre.helmholtz_free_energy r x temperature) end_to_end_length
       (P_morse_isometric_asymptotic_reduced_legendre.helmholtz_free_energy p end_to_end_length temperature))
  /\ (forall (end_to_end_length : ndarray T) (temperature : T),
     elementwise (fun x => O_morse_isometric_asymptotic_reduced_legendre.helmholtz_free_energy_per_link r x temperature) end_to_end_length
       (P_morse_isometric_asymptotic_reduced_legendre.helmholtz_free_energy_per_link p end_to_end_length temperature))
  /\ (forall (end_to_end_length : ndarray T) (temperature : T),
     elementwise (fun x => O_morse_isometric_asymptotic_reduced_legendre.relative_helmholtz_free_energy r x temperature) end_to_end_length
       (P_morse_isometric_asymptotic_reduced_legendre.relative_helmholtz_free_energy p end_to_end_length temperature))
  /\ (forall (end_to_end_length : ndarray T) (temperature : T),
     elementwise (fun x => O_morse_isometric_asymptotic_reduced_legendre.relative_helmholtz_free_energy_per_link r x temperature) end_to_end_length
       (P_morse_isometric_asymptotic_reduced_legendre.relative_helmholtz_free_energy_per_link p end_to_end_length temperature))
  /\ (forall (nondimensional_end_to_end_length_per_link : ndarray T) (temperature : T),
     elementwise (fun x => O_morse_isometric_asymptotic_reduced_legendre.nondimensional_helmholtz_free_energy r x temperature) nondimensional_end_to_end_length_per_link
       (P_morse_isometric_asymptotic_reduced_legendre.nondimensional_helmholtz_free_energy p nondimensional_end_to_end_length_per_link temperature))
  /\ (forall (nondimensional_end_to_end_length_per_link : ndarray T) (temperature : T),
     elementwise (fun x => O_morse_isometric_asymptotic_reduced_legendre.nondimensional_helmholtz_free_energy_per_link r x temperature) nondimensional_end_to_end_length_per_link
       (P_morse_isometric_asymptotic_reduced_legendre.nondimensional_helmholtz_free_energy_per_link p nondimensional_end_to_end_length_per_link temperature))
  /\ (forall (nondimensional_end_to_end_length_per_link : ndarray T) (temperature : T),
     elementwise (fun x => O_morse_isometric_asymptotic_reduced_legendre.nondimensional_relative_helmholtz_free_energy r x temperature) nondimensional_end_to_end_length_per_link
       (P_morse_isometric_asymptotic_reduced_legendre.nondimensional_relative_helmholtz_free_energy p nondimensional_end_to_end_length_per_link temperature))
  /\ (forall (nondimensional_end_to_end_length_per_link : ndarray T) (temperature : T),
     elementwise (fun x => O_morse_isometric_asymptotic_reduced_legendre.nondimensional_relative_helmholtz_free_energy_per_link r x temperature) nondimensional_end_to_end_length_per_link
       (P_morse_isometric_asymptotic_reduced_legendre.nondimensional_relative_helmholtz_free_energy_per_link p nondimensional_end_to_end_length_per_link temperature)).
Proof.
  intros T Sc number_of_links link_length hinge_mass link_stiffness link_energy p r.
  assert (P_morse_isometric_asymptotic_reduced_legendre.hinge_mass p = O_morse_isometric_asymptotic_reduced_legendre.hinge_mass r) by reflexivity.
  assert (P_morse_isometric_asymptotic_reduced_legendre.link_length p = O_morse_isometric_asymptotic_reduced_legendre.link_length r) by reflexivity.
  assert (P_morse_isometric_asymptotic_reduced_legendre.number_of_links p = O_morse_isometric_asymptotic_reduced_legendre.number_of_links r) by reflexivity.
  assert (P_morse_isometric_asymptotic_reduced_legendre.link_stiffness p = O_morse_isometric_asymptotic_reduced_legendre.link_stiffness r) by reflexivity.
  assert (P_morse_isometric_asymptotic_reduced_legendre.link_energy p = O_morse_isometric_asymptotic_reduced_legendre.link_energy r) by reflexivity.
  clearbody p r.
  unfold P_morse_isometric_asymptotic_reduced_legendre.force,
    P_morse_isometric_asymptotic_reduced_legendre.nondimensional_force,
    P_morse_isometric_asymptotic_reduced_legendre.helmholtz_free_energy,
    P_morse_isometric_asymptotic_reduced_legendre.helmholtz_free_energy_per_link,
    P_morse_isometric_asymptotic_reduced_legendre.relative_helmholtz_free_energy,
    P_morse_isometric_asymptotic_reduced_legendre.relative_helmholtz_free_energy_per_link,
    P_morse_isometric_asymptotic_reduced_legendre.nondimensional_helmholtz_free_energy,
    P_morse_isometric_asymptotic_reduced_legendre.nondimensional_helmholtz_free_energy_per_link,
    P_morse_isometric_asymptotic_reduced_legendre.nondimensional_relative_helmholtz_free_energy,
    P_morse_isometric_asymptotic_reduced_legendre.nondimensional_relative_helmholtz_free_energy_per_link,
    O_morse_isometric_asymptotic_reduced_legendre.force,
    O_morse_isometric_asymptotic_reduced_legendre.nondimensional_force,
    O_morse_isometric_asymptotic_reduced_legendre.helmholtz_free_energy,
    O_morse_isometric_asymptotic_reduced_legendre.helmholtz_free_energy_per_link,
    O_morse_isometric_asymptotic_reduced_legendre.relative_helmholtz_free_energy,
    O_morse_isometric_asymptotic_reduced_legendre.relative_helmholtz_free_energy_per_link,
    O_morse_isometric_asymptotic_reduced_legendre.nondimensional_helmholtz_free_energy,
    O_morse_isometric_asymptotic_reduced_legendre.nondimensional_helmholtz_free_energy_per_link,
    O_morse_isometric_asymptotic_reduced_legendre.nondimensional_relative_helmholtz_free_energy,
    O_morse_isometric_asymptotic_reduced_legendre.nondimensional_relative_helmholtz_free_energy_per_link.
  elementwise_tac.
Qed.
Print Assumptions C58_morse_isometric_asymptotic_reduced_legendre.

Theorem C58_morse_isometric_asymptotic_legendre : forall (T : Type) (Sc : Scalar T) (number_of_links : Z) (link_length : T) (hinge_mass : T) (link_stiffness : T) (link_energy : T),
  let p := P_morse_isometric_asymptotic.legendre (P_morse_isometric.asymptotic (P_morse_thermodynamics.isometric (P_morse.thermodynamics (P_morse.init number_of_links link_length hinge_mass link_stiffness link_energy)))) in
  let r := O_morse_isometric_asymptotic.legendre (O_morse_isometric.asymptotic (O_morse_thermodynamics.isometric (O_morse.thermodynamics (O_morse.init number_of_links link_length hinge_mass link_stiffness link_energy)))) in
  P_morse_isometric_asymptotic_legendre.hinge_mass p = O_morse_isometric_asymptotic_legendre.hinge_mass r
  /\ P_morse_isometric_asymptotic_legendre.link_length p = O_morse_isometric_asymptotic_legendre.link_length r
  /\ P_morse_isometric_asymptotic_legendre.number_of_links p = O_morse_isometric_asymptotic_legendre.number_of_links r
  /\ P_morse_isometric_asymptotic_legendre.link_stiffness p = O_morse_isometric_asymptotic_legendre.link_stiffness r
  /\ P_morse_isometric_asymptotic_legendre.link_energy p = O_morse_isometric_asymptotic_legendre.link_energy r
  /\ (forall (end_to_end_length : ndarray T) (temperature : T),
     elementwise (fun x => O_morse_isometric_asymptotic_legendre.force r x temperature) end_to_end_length
       (P_morse_isometric_asymptotic_legendre.force p end_to_end_length temperature))
  /\ (forall (nondimensional_end_to_end_length_per_link : ndarray T) (temperature : T),
     elementwise (fun x => O_morse_isometric_asymptotic_legendre.nondimensional_force r x temperature) nondimensional_end_to_end_length_per_link
       (P_morse_isometric_asymptotic_legendre.nondimensional_force p nondimensional_end_to_end_length_per_link temperature))
  /\ (forall (end_to_end_length : ndarray T) (temperature : T),
     elementwise (fun x => O_morse_isometric_asymptotic_legendre.helmholtz_free_energy r x temperature) end_to_end_length
       (P_morse_isometric_asymptotic_legendre.helmholtz_free_energy p end_to_end_length temperature))
  /\ (forall (end_to_end_length : ndarray T) (temperature : T),
     elementwise (fun x => O_morse_isometric_asymptotic_legendre.helmholtz_free_energy_per_link r x temperature) end_to_end_length
       (P_morse_isometric_asymptotic_legendre.helmholtz_free_energy_per_link p end_to_end_length temperature))
  /\ (forall (end_to_end_length : ndarray T) (temperature : T),
     elementwise (fun x => O_morse_isometric_asymptotic_legendre.relative_helmholtz_free_energy r x temperature) end_to_end_length
       (P_morse_isometric_asymptotic_legendre.relative_helmholtz_free_energy p end_to_end_length temperature))
  /\ (forall (end_to_end_length : ndarray T) (temperature : T),
     elementwise (fun x => O_morse_isometric_asymptotic_legendre.relative_helmholtz_free_energy_per_link r x temperature) end_to_end_length
       (P_morse_isometric_asymptotic_legendre.relative_helmholtz_free_energy_per_link p end_to_end_length temperature))
  /\ (forall (nondimensional_end_to_end_length_per_link : ndarray T) (temperature : T),
     elementwise (fun x => O_morse_isometric_asymptotic_legendre.nondimensional_helmholtz_free_energy r x temperature) nondimensional_end_to_end_length_per_link
       (P_morse_isometric_asymptotic_legendre.nondimensional_helmholtz_free_energy p nondimensional_end_to_end_length_per_link temperature))
  /\ (forall (nondimensional_end_to_end_length_per_link : ndarray T) (temperature : T),
     elementwise (fun x => O_morse_isometric_asymptotic_legendre.nondimensional_helmholtz_free_energy_per_link r x temperature) nondimensional_end_to_end_length_per_link
       (P_morse_isometric_asymptotic_legendre.nondimensional_helmholtz_free_energy_per_link p nondimensional_end_to_end_length_per_link temperature))
  /\ (forall (nondimensional_end_to_end_length_per_link : ndarray T) (temperature : T),
     elementwise (fun x => O_morse_isometric_asymptotic_legendre.nondimensional_relative_helmholtz_free_energy r x temperature) nondimensional_end_to_end_length_per_link
       (P_morse_isometric_asymptotic_legendre.nondimensional_relative_helmholtz_free_energy p nondimensional_end_to_end_length_per_link temperature))
  /\ (forall (nondimensional_end_to_end_length_per_link : ndarray T) (temperature : T),
     elementwise (fun x => O_morse_isometric_asymptotic_legendre.nondimensional_relative_helmholtz_free_energy_per_link r x temperature) nondimensional_end_to_end_length_per_link
       (P_morse_isometric_asymptotic_legendre.nondimensional_relative_helmholtz_free_energy_per_link p nondimensional_end_to_end_length_per_link temperature)).
Proof.
  intros T Sc number_of_links link_length hinge_mass link_stiffness link_energy p r.
  assert (P_morse_isometric_asymptotic_legendre.hinge_mass p = O_morse_isometric_asymptotic_legendre.hinge_mass r) by reflexivity.
  assert (P_morse_isometric_asymptotic_legendre.link_length p = O_morse_isometric_asymptotic_legendre.link_length r) by reflexivity.
  assert (P_morse_isometric_asymptotic_legendre.number_of_links p = O_morse_isometric_asymptotic_legendre.number_of_links r) by reflexivity.
  assert (P_morse_isometric_asymptotic_legendre.link_stiffness p = O_morse_isometric_asymptotic_legendre.link_stiffness r) by reflexivity.
  assert (P_morse_isometric_asymptotic_legendre.link_energy p = O_morse_isometric_asymptotic_legendre.link_energy r) by reflexivity.
  clearbody p r.
  unfold P_morse_isometric_asymptotic_legendre.force,
    P_morse_isometric_asymptotic_legendre.nondimensional_force,
    P_morse_isometric_asymptotic_legendre.helmholtz_free_energy,
    P_morse_isometric_asymptotic_legendre.helmholtz_free_energy_per_link,
    P_morse_isometric_asymptotic_legendre.relative_helmholtz_free_energy,
    P_morse_isometric_asymptotic_legendre.relative_helmholtz_free_energy_per_link,
    P_morse_isometric_asymptotic_legendre.nondimensional_helmholtz_free_energy,
    P_morse_isometric_asymptotic_legendre.nondimensional_helmholtz_free_energy_per_link,
    P_morse_isometric_asymptotic_legendre.nondimensional_relative_helmholtz_free_energy,
    P_morse_isometric_asymptotic_legendre.nondimensional_relative_helmholtz_free_energy_per_link,
    O_morse_isometric_asymptotic_legendre.force,
    O_morse_isometric_asymptotic_legendre.nondimensional_force,
    O_morse_isometric_asymptotic_legendre.helmholtz_free_energy,
    O_morse_isometric_asymptotic_legendre.helmholtz_free_energy_per_link,
    O_morse_isometric_asymptotic_legendre.relative_helmholtz_free_energy,
    O_morse_isometric_asymptotic_legendre.relative_helmholtz_free_energy_per_link,
    O_morse_isometric_asymptotic_legendre.nondimensional_helmholtz_free_energy,
    O_morse_isometric_asymptotic_legendre.nondimensional_helmholtz_free_energy_per_link,
    O_morse_isometric_asymptotic_legendre.nondimensional_relative_helmholtz_free_energy,
    O_morse_isometric_asymptotic_legendre.nondimensional_relative_helmholtz_free_energy_per_link.
  elementwise_tac.
Qed.
Print Assumptions C58_morse_isometric_asymptotic_legendre.

Theorem C58_morse_isotensional : forall (T : Type) (Sc : Scalar T) (number_of_links : Z) (link_length : T) (hinge_mass : T) (link_stiffness : T) (link_energy : T),
  let p := P_morse_thermodynamics.isotensional (P_morse.thermodynamics (P_morse.init number_of_links link_length hinge_mass link_stiffness link_energy)) in
  let r := O_morse_thermodynamics.isotensional (O_morse.thermodynamics (O_morse.init number_of_links link_length hinge_mass link_stiffness link_energy)) in
  P_morse_isotensional.hinge_mass p = O_morse_isotensional.hinge_mass r
  /\ P_morse_isotensional.link_length p = O_morse_isotensional.link_length r
  /\ P_morse_isotensional.number_of_links p = O_morse_isotensional.number_of_links r
  /\ P_morse_isotensional.link_stiffness p = O_morse_isotensional.link_stiffness r
  /\ P_morse_isotensional.link_energy p = O_morse_isotensional.link_energy r
  /\ (forall (force : ndarray T) (temperature : T),
     elementwise (fun x => O_morse_isotensional.end_to_end_length r x temperature) force
       (P_morse_isotensional.end_to_end_length p force temperature))
  /\ (forall (force : ndarray T) (temperature : T),
     elementwise (fun x => O_morse_isotensional.end_to_end_length_per_link r x temperature) force
       (P_morse_isotensional.end_to_end_length_per_link p force temperature))
  /\ (forall (nondimensional_force : ndarray T) (temperature : T),
     elementwise (fun x => O_morse_isotensional.nondimensional_end_to_end_length r x temperature) nondimensional_force
       (P_morse_isotensional.nondimensional_end_to_end_length p nondimensional_force temperature))
  /\ (forall (nondimensional_force : ndarray T) (temperature : T),
     elementwise (fun x => O_morse_isotensional.nondimensional_end_to_end_length_per_link r x temperature) nondimensional_force
       (P_morse_isotensional.nondimensional_end_to_end_length_per_link p nondimensional_force temperature))
  /\ (forall (force : ndarray T) (temperature : T),
     elementwise (fun x => O_morse_isotensional.gibbs_free_energy r x temperature) force
       (P_morse_isotensional.gibbs_free_energy p force temperature))
  /\ (forall (force : ndarray T) (temperature : T),
     elementwise (fun x => O_morse_isotensional.gibbs_free_energy_per_link r x temperature) force
       (P_morse_isotensional.gibbs_free_energy_per_link p force temperature))
  /\ (forall (force : ndarray T) (temperature : T),
     elementwise (fun x => O_morse_isotensional.relative_gibbs_free_energy r x temperature) force
       (P_morse_isotensional.relative_gibbs_free_energy p force temperature))
  /\ (forall (force : ndarray T) (temperature : T),
     elementwise (fun x => O_morse_isotensional.relative_gibbs_free_energy_per_link r x temperature) force
       (P_morse_isotensional.relative_gibbs_free_energy_per_link p force temperature))
  /\ (forall (nondimensional_force : ndarray T) (temperature : T),
     elementwise (fun x => O_morse_isotensional.nondimensional_gibbs_free_energy r x temperature) nondimensional_force
       (P_morse_isotensional.nondimensional_gibbs_free_energy p nondimensional_force temperature))
  /\ (forall (nondimensional_force : ndarray T) (temperature : T),
     elementwise (fun x => O_morse_isotensional.nondimensional_gibbs_free_energy_per_link r x temperature) nondimensional_force
       (P_morse_isotensional.nondimensional_gibbs_free_energy_per_link p nondimensional_force temperature))
  /\ (forall (nondimensional_force : ndarray T) (temperature : T),
     elementwise (fun x => O_morse_isotensional.nondimensional_relative_gibbs_free_energy r x temperature) nondimensional_force
       (P_morse_isotensional.nondimensional_relative_gibbs_free_energy p nondimensional_force temperature))
  /\ (forall (nondimensional_force : ndarray T) (temperature : T),
     elementwise (fun x => O_morse_isotensional.nondimensional_relative_gibbs_free_energy_per_link r x temperature) nondimensional_force
       (P_morse_isotensional.nondimensional_relative_gibbs_free_energy_per_link p nondimensional_force temperature)).
Proof.
  intros T Sc number_of_links link_length hinge_mass link_stiffness link_energy p r.
  assert (P_morse_isotensional.hinge_mass p = O_morse_isotensional.hinge_mass r) by reflexivity.
  assert (P_morse_isotensional.link_length p = O_morse_isotensional.link_length r) by reflexivity.
  assert (P_morse_isotensional.number_of_links p = O_morse_isotensional.number_of_links r) by reflexivity.
  assert (P_morse_isotensional.link_stiffness p = O_morse_isotensional.link_stiffness r) by reflexivity.
  assert (P_morse_isotensional.link_energy p = O_morse_isotensional.link_energy r) by reflexivity.
  clearbody p r.
  unfold P_morse_isotensional.end_to_end_length, P_morse_isotensional.end_to_end_length_per_link,
    P_morse_isotensional.nondimensional_end_to_end_length,
    P_morse_isotensional.nondimensional_end_to_end_length_per_link,
    P_morse_isotensional.gibbs_free_energy, P_morse_isotensional.gibbs_free_energy_per_link,
    P_morse_isotensional.relative_gibbs_free_energy,
    P_morse_isotensional.relative_gibbs_free_energy_per_link,
    P_morse_isotensional.nondimensional_gibbs_free_energy,
    P_morse_isotensional.nondimensional_gibbs_free_energy_per_link,
    P_morse_isotensional.nondimensional_relative_gibbs_free_energy,
    P_morse_isotensional.nondimensional_relative_gibbs_free_energy_per_link,
    O_morse_isotensional.end_to_end_length, O_morse_isotensional.end_to_end_length_per_link,
    O_morse_isotensional.nondimensional_end_to_end_length,
    O_morse_isotensional.nondimensional_end_to_end_length_per_link,
    O_morse_isotensional.gibbs_free_energy, O_morse_isotensional.gibbs_free_energy_per_link,
    O_morse_isotensional.relative_gibbs_free_energy,
    O_morse_isotensional.relative_gibbs_free_energy_per_link,
    O_morse_isotensional.nondimensional_gibbs_free_energy,
    O_morse_isotensional.nondimensional_gibbs_free_energy_per_link,
    O_morse_isotensional.nondimensional_relative_gibbs_free_energy,
    O_morse_isotensional.nondimensional_relative_gibbs_free_energy_per_link.
  elementwise_tac.
Qed.
Print Assumptions C58_morse_isotensional.

Theorem C58_morse_isotensional_asymptotic : forall (T : Type) (Sc : Scalar T) (number_of_links : Z) (link_length : T) (hinge_mass : T) (link_stiffness : T) (link_energy : T),
  let p := P_morse_isotensional.asymptotic (P_morse_thermodynamics.isotensional (P_morse.thermodynamics (P_morse.init number_of_links link_length hinge_mass link_stiffness link_energy))) in
  let r := O_morse_isotensional.asymptotic (O_morse_thermodynamics.isotensional (O_morse.thermodynamics (O_morse.init number_of_links link_length hinge_mass link_stiffness link_energy))) in
  P_morse_isotensional_asymptotic.hinge_mass p = O_morse_isotensional_asymptotic.hinge_mass r
  /\ P_morse_isotensional_asymptotic.link_length p = O_morse_isotensional_asymptotic.link_length r
  /\ P_morse_isotensional_asymptotic.number_of_links p = O_morse_isotensional_asymptotic.number_of_links r
  /\ P_morse_isotensional_asymptotic.link_stiffness p = O_morse_isotensional_asymptotic.link_stiffness r
  /\ P_morse_isotensional_asymptotic.link_energy p = O_morse_isotensional_asymptotic.link_energy r
  /\ (forall (force : ndarray T) (temperature : T),
     elementwise (fun x => O_morse_isotensional_asymptotic.end_to_end_length r x temperature) force
       (P_morse_isotensional_asymptotic.end_to_end_length p force temperature))
  /\ (forall (force : ndarray T) (temperature : T),
     elementwise (fun x => O_morse_isotensional_asymptotic.end_to_end_length_per_link r x temperature) force
       (P_morse_isotensional_asymptotic.end_to_end_length_per_link p force temperature))
  /\ (forall (nondimensional_force : ndarray T) (temperature : T),
     elementwise (fun x => O_morse_isotensional_asymptotic.nondimensional_end_to_end_length r x temperature) nondimensional_force
       (P_morse_isotensional_asymptotic.nondimensional_end_to_end_length p nondimensional_force temperature))
  /\ (forall (nondimensional_force : ndarray T) (temperature : T),
     elementwise (fun x => O_morse_isotensional_asymptotic.nondimensional_end_to_end_length_per_link r x temperature) nondimensional_force
       (P_morse_isotensional_asymptotic.nondimensional_end_to_end_length_per_link p nondimensional_force temperature))
  /\ (forall (force : ndarray T) (temperature : T),
     elementwise (fun x => O_morse_isotensional_asymptotic.gibbs_free_energy r x temperature) force
       (P_morse_isotensional_asymptotic.gibbs_free_energy p force temperature))
  /\ (forall (force : ndarray T) (temperature : T),
     elementwise (fun x => O_morse_isotensional_asymptotic.gibbs_free_energy_per_link r x temperature) force
       (P_morse_isotensional_asymptotic.gibbs_free_energy_per_link p force temperature))
  /\ (forall (force : ndarray T) (temperature : T),
     elementwise (fun x => O_morse_isotensional_asymptotic.relative_gibbs_free_energy r x temperature) force
       (P_morse_isotensional_asymptotic.relative_gibbs_free_energy p force temperature))
  /\ (forall (force : ndarray T) (temperature : T),
     elementwise (fun x => O_morse_isotensional_asymptotic.relative_gibbs_free_energy_per_link r x temperature) force
       (P_morse_isotensional_asymptotic.relative_gibbs_free_energy_per_link p force temperature))
  /\ (forall (nondimensional_force : ndarray T) (temperature : T),
     elementwise (fun x => O_morse_isotensional_asymptotic.nondimensional_gibbs_free_energy r x temperature) nondimensional_force
       (P_morse_isotensional_asymptotic.nondimensional_gibbs_free_energy p nondimensional_force temperature))
  /\ (forall (nondimensional_force : ndarray T) (temperature : T),
     elementwise (fun x => O_morse_isotensional_asymptotic.nondimensional_gibbs_free_energy_per_link r x temperature) nondimensional_force
       (P_morse_isotensional_asymptotic.nondimensional_gibbs_free_energy_per_link p nondimensional_force temperature))
  /\ (forall (nondimensional_force : ndarray T) (temperature : T),
     elementwise (fun x => O_morse_isotensional_asymptotic.nondimensional_relative_gibbs_free_energy r x temperature) nondimensional_force
       (P_morse_isotensional_asymptotic.nondimensional_relative_gibbs_free_energy p nondimensional_force temperature))
  /\ (forall (nondimensional_force : ndarray T) (temperature : T),
     elementwise (fun x => O_morse_isotensional_asymptotic.nondimensional_relative_gibbs_free_energy_per_link r x temperature) nondimensional_force
       (P_morse_isotensional_asymptotic.nondimensional_relative_gibbs_free_energy_per_link p nondimensional_force temperature)).
Proof.
  intros T Sc number_of_links link_length hinge_mass link_stiffness link_energy p r.
  assert (P_morse_isotensional_asymptotic.hinge_mass p = O_morse_isotensional_asymptotic.hinge_mass r) by reflexivity.
  assert (P_morse_isotensional_asymptotic.link_length p = O_morse_isotensional_asymptotic.link_length r) by reflexivity.
  assert (P_morse_isotensional_asymptotic.number_of_links p = O_morse_isotensional_asymptotic.number_of_links r) by reflexivity.
  assert (P_morse_isotensional_asymptotic.link_stiffness p = O_morse_isotensional_asymptotic.link_stiffness r) by reflexivity.
  assert (P_morse_isotensional_asymptotic.link_energy p = O_morse_isotensional_asymptotic.link_energy r) by reflexivity.
  clearbody p r.
  unfold P_morse_isotensional_asymptotic.end_to_end_length,
    P_morse_isotensional_asymptotic.end_to_end_length_per_link,
    P_morse_isotensional_asymptotic.nondimensional_end_to_end_length,
    P_morse_isotensional_asymptotic.nondimensional_end_to_end_length_per_link,
    P_morse_isotensional_asymptotic.gibbs_free_energy,
    P_morse_isotensional_asymptotic.gibbs_free_energy_per_link,
    P_morse_isotensional_asymptotic.relative_gibbs_free_energy,
    P_morse_isotensional_asymptotic.relative_gibbs_free_energy_per_link,
    P_morse_isotensional_asymptotic.nondimensional_gibbs_free_energy,
    P_morse_isotensional_asymptotic.nondimensional_gibbs_free_energy_per_link,
    P_morse_isotensional_asymptotic.nondimensional_relative_gibbs_free_energy,
    P_morse_isotensional_asymptotic.nondimensional_relative_gibbs_free_energy_per_link,
    O_morse_isotensional_asymptotic.end_to_end_length,
    O_morse_isotensional_asymptotic.end_to_end_length_per_link,
    O_morse_isotensional_asymptotic.nondimensional_end_to_end_length,
    O_morse_isotensional_asymptotic.nondimensional_end_to_end_length_per_link,
    O_morse_isotensional_asymptotic.gibbs_free_energy,
    O_morse_isotensional_asymptotic.gibbs_free_energy_per_link,
    O_morse_isotensional_asymptotic.relative_gibbs_free_energy,
    O_morse_isotensional_asymptotic.relative_gibbs_free_energy_per_link,
    O_morse_isotensional_asymptotic.nondimensional_gibbs_free_energy,
    O_morse_isotensional_asymptotic.nondimensional_gibbs_free_energy_per_link,
    O_morse_isotensional_asymptotic.nondimensional_relative_gibbs_free_energy,
    O_morse_isotensional_asymptotic.nondimensional_relative_gibbs_free_energy_per_link.
  elementwise_tac.
Qed.
Print Assumptions C58_morse_isotensional_asymptotic.

Theorem C58_morse_isotensional_asymptotic_reduced : forall (T : Type) (Sc : Scalar T) (number_of_links : Z) (link_length : T) (hinge_mass : T) (link_stiffness : T) (link_energy : T),
  let p := P_morse_isotensional_asymptotic.reduced (P_morse_isotensional.asymptotic (P_morse_thermodynamics.isotensional (P_morse.thermodynamics (P_morse.init number_of_links link_length hinge_mass link_stiffness link_energy)))) in
  let r := O_morse_isotensional_asymptotic.reduced (O_morse_isotensional.asymptotic (O_morse_thermodynamics.isotensional (O_morse.thermodynamics (O_morse.init number_of_links link_length hinge_mass link_stiffness link_energy)))) in
  P_morse_isotensional_asymptotic_reduced.hinge_mass p = O_morse_isotensional_asymptotic_reduced.hinge_mass r
  /\ P_morse_isotensional_asymptotic_reduced.link_length p = O_morse_isotensional_asymptotic_reduced.link_length r
  /\ P_morse_isotensional_asymptotic_reduced.number_of_links p = O_morse_isotensional_asymptotic_reduced.number_of_links r
  /\ P_morse_isotensional_asymptotic_reduced.link_stiffness p = O_morse_isotensional_asymptotic_reduced.link_stiffness r
  /\ P_morse_isotensional_asymptotic_reduced.link_energy p = O_morse_isotensional_asymptotic_reduced.link_energy r
  /\ (forall (force : ndarray T) (temperature : T),
     elementwise (fun x => O_morse_isotensional_asymptotic_reduced.end_to_end_length r x temperature) force
       (P_morse_isotensional_asymptotic_reduced.end_to_end_length p force temperature))
  /\ (forall (force : ndarray T) (temperature : T),
     elementwise (fun x => O_morse_isotensional_asymptotic_reduced.end_to_end_length_per_link r x temperature) force
       (P_morse_isotensional_asymptotic_reduced.end_to_end_length_per_link p force temperature))
  /\ (forall (nondimensional_force : ndarray T) (temperature : T),
     elementwise (fun x => O_morse_isotensional_asymptotic_reduced.nondimensional_end_to_end_length r x temperature) nondimensional_force
       (P_morse_isotensional_asymptotic_reduced.nondimensional_end_to_end_length p nondimensional_force temperature))
  /\ (forall (nondimensional_force : ndarray T) (temperature : T),
     elementwise (fun x => O_morse_isotensional_asymptotic_reduced.nondimensional_end_to_end_length_per_link r x temperature) nondimensional_force
       (P_morse_isotensional_asymptotic_reduced.nondimensional_end_to_end_length_per_link p nondimensional_force temperature))
  /\ (forall (force : ndarray T) (temperature : T),
     elementwise (fun x => O_morse_isotensional_asymptotic_reduced.gibbs_free_energy r x temperature) force
       (P_morse_isotensional_asymptotic_reduced.gibbs_free_energy p force temperature))
  /\ (forall (force : ndarray T) (temperature : T),
     elementwise (fun x => O_morse_isotensional_asymptotic_reduced.gibbs_free_energy_per_link r x temperature) force
       (P_morse_isotensional_asymptotic_reduced.gibbs_free_energy_per_link p force temperature))
  /\ (forall (force : ndarray T) (temperature : T),
     elementwise (fun x => O_morse_isotensional_asymptotic_reduced.relative_gibbs_free_energy r x temperature) force
       (P_morse_isotensional_asymptotic_reduced.relative_gibbs_free_energy p force temperature))
  /\ (forall (force : ndarray T) (temperature : T),
     elementwise (fun x => O_morse_isotensional_asymptotic_reduced.relative_gibbs_free_energy_per_link r x temperature) force
       (P_morse_isotensional_asymptotic_reduced.relative_gibbs_free_energy_per_link p force temperature))
  /\ (forall (nondimensional_force : ndarray T) (temperature : T),
     elementwise (fun x => O_morse_isotensional_asymptotic_reduced.nondimensional_gibbs_free_energy r x temperature) nondimensional_force
       (P_morse_isotensional_asymptotic_reduced.nondimensional_gibbs_free_energy p nondimensional_force temperature))
  /\ (forall (nondimensional_force : ndarray T) (temperature : T),
     elementwise (fun x => O_morse_isotensional_asymptotic_reduced.nondimensional_gibbs_free_energy_per_link r x temperature) nondimensional_force
       (P_morse_isotensional_asymptotic_reduced.nondimensional_gibbs_free_energy_per_link p nondimensional_force temperature))
  /\ (forall (nondimensional_force : ndarray T) (temperature : T),
     elementwise (fun x => O_morse_isotensional_asymptotic_reduced.nondimensional_relative_gibbs_free_energy r x temperature) nondimensional_force
       (P_morse_isotensional_asymptotic_reduced.nondimensional_relative_gibbs_free_energy p nondimensional_force temperature))
  /\ (forall (nondimensional_force : ndarray T) (temperature : T),
     elementwise (fun x => O_morse_isotensional_asymptotic_reduced.nondimensional_relative_gibbs_free_energy_per_link r x temperature) nondimensional_force
       (P_morse_isotensional_asymptotic_reduced.nondimensional_relative_gibbs_free_energy_per_link p nondimensional_force temperature)).
Proof.
  intros T Sc number_of_links link_length hinge_mass link_stiffness link_energy p r.
  assert (P_morse_isotensional_asymptotic_reduced.hinge_mass p = O_morse_isotensional_asymptotic_reduced.hinge_mass r) by reflexivity.
  assert (P_morse_isotensional_asymptotic_reduced.link_length p = O_morse_isotensional_asymptotic_reduced.link_length r) by reflexivity.
  assert (P_morse_isotensional_asymptotic_reduced.number_of_links p = O_morse_isotensional_asymptotic_reduced.number_of_links r) by reflexivity.
  assert (P_morse_isotensional_asymptotic_reduced.link_stiffness p = O_morse_isotensional_asymptotic_reduced.link_stiffness r) by reflexivity.
  assert (P_morse_isotensional_asymptotic_reduced.link_energy p = O_morse_isotensional_asymptotic_reduced.link_energy r) by reflexivity.
  clearbody p r.
  unfold P_morse_isotensional_asymptotic_reduced.end_to_end_length,
    P_morse_isotensional_asymptotic_reduced.end_to_end_length_per_link,
    P_morse_isotensional_asymptotic_reduced.nondimensional_end_to_end_length,
    P_morse_isotensional_asymptotic_reduced.nondimensional_end_to_end_length_per_link,
    P_morse_isotensional_asymptotic_reduced.gibbs_free_energy,
    P_morse_isotensional_asymptotic_reduced.gibbs_free_energy_per_link,
    P_morse_isotensional_asymptotic_reduced.relative_gibbs_free_energy,
    P_morse_isotensional_asymptotic_reduced.relative_gibbs_free_energy_per_link,
    P_morse_isotensional_asymptotic_reduced.nondimensional_gibbs_free_energy,
    P_morse_isotensional_asymptotic_reduced.nondimensional_gibbs_free_energy_per_link,
    P_morse_isotensional_asymptotic_reduced.nondimensional_relative_gibbs_free_energy,
    P_morse_isotensional_asymptotic_reduced.nondimensional_relative_gibbs_free_energy_per_link,
    O_morse_isotensional_asymptotic_reduced.end_to_end_length,
    O_morse_isotensional_asymptotic_reduced.end_to_end_length_per_link,
    O_morse_isotensional_asymptotic_reduced.nondimensional_end_to_end_length,
    O_morse_isotensional_asymptotic_reduced.nondimensional_end_to_end_length_per_link,
    O_morse_isotensional_asymptotic_reduced.gibbs_free_energy,
    O_morse_isotensional_asymptotic_reduced.gibbs_free_energy_per_link,
    O_morse_isotensional_asymptotic_reduced.relative_gibbs_free_energy,
    O_morse_isotensional_asymptotic_reduced.relative_gibbs_free_energy_per_link,
    O_morse_isotensional_asymptotic_reduced.nondimensional_gibbs_free_energy,
    O_morse_isotensional_asymptotic_reduced.nondimensional_gibbs_free_energy_per_link,
    O_morse_isotensional_asymptotic_reduced.nondimensional_relative_gibbs_free_energy,
    O_morse_isotensional_asymptotic_reduced.nondimensional_relative_gibbs_free_energy_per_link.
  elementwise_tac.
Qed.
Print Assumptions C58_morse_isotensional_asymptotic_reduced.

Theorem C58_morse_isotensional_asymptotic_reduced_legendre : forall (T : Type) (Sc : Scalar T) (number_of_links : Z) (link_length : T) (hinge_mass : T) (link_stiffness : T) (link_energy : T),
  let p := P_morse_isotensional_asymptotic_reduced.legendre (P_morse_isotensional_asymptotic.reduced (P_morse_isotensional.asymptotic (P_morse_thermodynamics.isotensional (P_morse.thermodynamics (P_morse.init number_of_links link_length hinge_mass link_stiffness link_energy))))) in
  let r := O_morse_isotensional_asymptotic_reduced.legendre (O_morse_isotensional_asymptotic.reduced (O_morse_isotensional.asymptotic (O_morse_thermodynamics.isotensional (O_morse.thermodynamics (O_morse.init number_of_links link_length hinge_mass link_stiffness link_energy))))) in
  P_morse_isotensional_asymptotic_reduced_legendre.hinge_mass p = O_morse_isotensional_asymptotic_reduced_legendre.hinge_mass r
  /\ P_morse_isotensional_asymptotic_reduced_legendre.link_length p = O_morse_isotensional_asymptotic_reduced_legendre.link_length r
  /\ P_morse_isotensional_asymptotic_reduced_legendre.number_of_links p = O_morse_isotensional_asymptotic_reduced_legendre.number_of_links r
  /\ P_morse_isotensional_asymptotic_reduced_legendre.link_stiffness p = O_morse_isotensional_asymptotic_reduced_legendre.link_stiffness r
  /\ P_morse_isotensional_asymptotic_reduced_legendre.link_energy p = O_morse_isotensional_asymptotic_reduced_legendre.link_energy r
  /\ (forall (force : ndarray T) (temperature : T),
     elementwise (fun x => O_morse_isotensional_asymptotic_reduced_legendre.helmholtz_free_energy r x temperature) force
       (P_morse_isotensional_asymptotic_reduced_legendre.helmholtz_free_energy p force temperature))
  /\ (forall (force : ndarray T) (temperature : T),
     elementwise (fun x => O_morse_isotensional_asymptotic_reduced_legendre.helmholtz_free_energy_per_link r x temperature) force
       (P_morse_isotensional_asymptotic_reduced_legendre.helmholtz_free_energy_per_link p force temperature))
  /\ (forall (force : ndarray T) (temperature : T),
     elementwise (fun x => O_morse_isotensional_asymptotic_reduced_legendre.relative_helmholtz_free_energy r x temperature) force
       (P_morse_isotensional_asymptotic_reduced_legendre.relative_helmholtz_free_energy p force temperature))
  /\ (forall (force : ndarray T) (temperature : T),
     elementwise (fun x => O_morse_isotensional_asymptotic_reduced_legendre.relative_helmholtz_free_energy_per_link r x temperature) force
       (P_morse_isotensional_asymptotic_reduced_legendre.relative_helmholtz_free_energy_per_link p force temperature))
  /\ (forall (nondimensional_force : ndarray T) (temperature : T),
     elementwise (fun x => O_morse_isotensional_asymptotic_reduced_legendre.nondimensional_helmholtz_free_energy r x temperature) nondimensional_force
       (P_morse_isotensional_asymptotic_reduced_legendre.nondimensional_helmholtz_free_energy p nondimensional_force temperature))
  /\ (forall (nondimensional_force : ndarray T) (temperature : T),
     elementwise (fun x => O_morse_isotensional_asymptotic_reduced_legendre.nondimensional_helmholtz_free_energy_per_link r x temperature) nondimensional_force
       (P_morse_isotensional_asymptotic_reduced_legendre.nondimensional_helmholtz_free_energy_per_link p nondimensional_force temperature))
  /\ (forall (nondimensional_force : ndarray T) (temperature : T),
     elementwise (fun x => O_morse_isotensional_asymptotic_reduced_legendre.nondimensional_relative_helmholtz_free_energy r x temperature) nondimensional_force
       (P_morse_isotensional_asymptotic_reduced_legendre.nondimensional_relative_helmholtz_free_energy p nondimensional_force temperature))
  /\ (forall (nondimensional_force : ndarray T) (temperature : T),
     elementwise (fun x => O_morse_isotensional_asymptotic_reduced_legendre.nondimensional_relative_helmholtz_free_energy_per_link r x temperature) nondimensional_force
       (P_morse_isotensional_asymptotic_reduced_legendre.nondimensional_relative_helmholtz_free_energy_per_link p nondimensional_force temperature)).
Proof.
  intros T Sc number_of_links link_length hinge_mass link_stiffness link_energy p r.
  assert (P_morse_isotensional_asymptotic_reduced_legendre.hinge_mass p = O_morse_isotensional_asymptotic_reduced_legendre.hinge_mass r) by reflexivity.
  assert (P_morse_isotensional_asymptotic_reduced_legendre.link_length p = O_morse_isotensional_asymptotic_reduced_legendre.link_length r) by reflexivity.
  assert (P_morse_isotensional_asymptotic_reduced_legendre.number_of_links p = O_morse_isotensional_asymptotic_reduced_legendre.number_of_links r) by reflexivity.
  assert (P_morse_isotensional_asymptotic_reduced_legendre.link_stiffness p = O_morse_isotensional_asymptotic_reduced_legendre.link_stiffness r) by reflexivity.
  assert (P_morse_isotensional_asymptotic_reduced_legendre.link_energy p = O_morse_isotensional_asymptotic_reduced_legendre.link_energy r) by reflexivity.
  clearbody p r.
  unfold P_morse_isotensional_asymptotic_reduced_legendre.helmholtz_free_energy,
    P_morse_isotensional_asymptotic_reduced_legendre.helmholtz_free_energy_per_link,
    P_morse_isotensional_asymptotic_reduced_legendre.relative_helmholtz_free_energy,
    P_morse_isotensional_asymptotic_reduced_legendre.relative_helmholtz_free_energy_per_link,
    P_morse_isotensional_asymptotic_reduced_legendre.nondimensional_helmholtz_free_energy,
    P_morse_isotensional_asymptotic_reduced_legendre.nondimensional_helmholtz_free_energy_per_link,
    P_morse_isotensional_asymptotic_reduced_legendre.nondimensional_relative_helmholtz_free_energy,
    P_morse_isotensional_asymptotic_reduced_legendre.nondimensional_relative_helmholtz_free_energy_per_link,
    O_morse_isotensional_asymptotic_reduced_legendre.helmholtz_free_energy,
    O_morse_isotensional_asymptotic_reduced_legendre.helmholtz_free_energy_per_link,
    O_morse_isotensional_asymptotic_reduced_legendre.relative_helmholtz_free_energy,
    O_morse_isotensional_asymptotic_reduced_legendre.relative_helmholtz_free_energy_per_link,
    O_morse_isotensional_asymptotic_reduced_legendre.nondimensional_helmholtz_free_energy,
    O_morse_isotensional_asymptotic_reduced_legendre.nondimensional_helmholtz_free_energy_per_link,
    O_morse_isotensional_asymptotic_reduced_legendre.nondimensional_relative_helmholtz_free_energy,
    O_morse_isotensional_asymptotic_reduced_legendre.nondimensional_relative_helmholtz_free_energy_per_link.
  elementwise_tac.
Qed.
Print Assumptions C58_morse_isotensional_asymptotic_reduced_legendre.

Theorem C58_morse_isotensional_asymptotic_legendre : forall (T : Type) (Sc : Scalar T) (number_of_links : Z) (link_length : T) (hinge_mass : T) (link_stiffness : T) (link_energy : T),
  let p := P_morse_isotensional_asymptotic.legendre (P_morse_isotensional.asymptotic (P_morse_thermodynamics.isotensional (P_morse.thermodynamics (P_morse.init number_of_links link_length hinge_mass link_stiffness link_energy)))) in
  let r := O_morse_isotensional_asymptotic.legendre (O_morse_isotensional.asymptotic (O_morse_thermodynamics.isotensional (O_morse.thermodynamics (O_morse.init number_of_links link_length hinge_mass link_stiffness link_energy)))) in
  P_morse_isotensional_asymptotic_legendre.hinge_mass p = O_morse_isotensional_asymptotic_legendre.hinge_mass r
  /\ P_morse_isotensional_asymptotic_legendre.link_length p = O_morse_isotensional_asymptotic_legendre.link_length r
  /\ P_morse_isotensional_asymptotic_legendre.number_of_links p = O_morse_isotensional_asymptotic_legendre.number_of_links r
  /\ P_morse_isotensional_asymptotic_legendre.link_stiffness p = O_morse_isotensional_asymptotic_legendre.link_stiffness r
  /\ P_morse_isotensional_asymptotic_legendre.link_energy p = O_morse_isotensional_asymptotic_legendre.link_energy r
  /\ (forall (force : ndarray T) (temperature : T),
     elementwise (fun x => O_morse_isotensional_asymptotic_legendre.helmholtz_free_energy r x temperature) force
       (P_morse_isotensional_asymptotic_legendre.helmholtz_free_energy p force temperature))
  /\ (forall (force : ndarray T) (temperature : T),
     elementwise (fun x => O_morse_isotensional_asymptotic_legendre.helmholtz_free_energy_per_link r x temperature) force
       (P_morse_isotensional_asymptotic_legendre.helmholtz_free_energy_per_link p force temperature))
  /\ (forall (force : ndarray T) (temperature : T),
     elementwise (fun x => O_morse_isotensional_asymptotic_legendre.relative_helmholtz_free_energy r x temperature) force
       (P_morse_isotensional_asymptotic_legendre.relative_helmholtz_free_energy p force temperature))
  /\ (forall (force : ndarray T) (temperature : T),
     elementwise (fun x => O_morse_isotensional_asymptotic_legendre.relative_helmholtz_free_energy_per_link r x temperature) force
       (P_morse_isotensional_asymptotic_legendre.relative_helmholtz_free_energy_per_link p force temperature))
  /\ (forall (nondimensional_force : ndarray T) (temperature : T),
     elementwise (fun x => O_morse_isotensional_asymptotic_legendre.nondimensional_helmholtz_free_energy r x temperature) nondimensional_force
       (P_morse_isotensional_asymptotic_legendre.nondimensional_helmholtz_free_energy p nondimensional_force temperature))
  /\ (forall (nondimensional_force : ndarray T) (temperature : T),
     elementwise (fun x => O_morse_isotensional_asymptotic_legendre.nondimensional_helmholtz_free_energy_per_link r x temperature) nondimensional_force
       (P_morse_isotensional_asymptotic_legendre.nondimensional_helmholtz_free_energy_per_link p nondimensional_force temperature))
  /\ (forall (nondimensional_force : ndarray T) (temperature : T),
     elementwise (fun x => O_morse_isotensional_asymptotic_legendre.nondimensional_relative_helmholtz_free_energy r x temperature) nondimensional_force
       (P_morse_isotensional_asymptotic_legendre.nondimensional_relative_helmholtz_free_energy p nondimensional_force temperature))
  /\ (forall (nondimensional_force : ndarray T) (temperature : T),
     elementwise (fun x => O_morse_isotensional_asymptotic_legendre.nondimensional_relative_helmholtz_free_energy_per_link r x temperature) nondimensional_force
       (P_morse_isotensional_asymptotic_legendre.nondimensional_relative_helmholtz_free_energy_per_link p nondimensional_force temperature)).
Proof.
  intros T Sc number_of_links link_length hinge_mass link_stiffness link_energy p r.
  assert (P_morse_isotensional_asymptotic_legendre.hinge_mass p = O_morse_isotensional_asymptotic_legendre.hinge_mass r) by reflexivity.
  assert (P_morse_isotensional_asymptotic_legendre.link_length p = O_morse_isotensional_asymptotic_legendre.link_length r) by reflexivity.
  assert (P_morse_isotensional_asymptotic_legendre.number_of_links p = O_morse_isotensional_asymptotic_legendre.number_of_links r) by reflexivity.
  assert (P_morse_isotensional_asymptotic_legendre.link_stiffness p = O_morse_isotensional_asymptotic_legendre.link_stiffness r) by reflexivity.
  assert (P_morse_isotensional_asymptotic_legendre.link_energy p = O_morse_isotensional_asymptotic_legendre.link_energy r) by reflexivity.
  clearbody p r.
  unfold P_morse_isotensional_asymptotic_legendre.helmholtz_free_energy,
    P_morse_isotensional_asymptotic_legendre.helmholtz_free_energy_per_link,
    P_morse_isotensional_asymptotic_legendre.relative_helmholtz_free_energy,
    P_morse_isotensional_asymptotic_legendre.relative_helmholtz_free_energy_per_link,
    P_morse_isotensional_asymptotic_legendre.nondimensional_helmholtz_free_energy,
    P_morse_isotensional_asymptotic_legendre.nondimensional_helmholtz_free_energy_per_link,
    P_morse_isotensional_asymptotic_legendre.nondimensional_relative_helmholtz_free_energy,
    P_morse_isotensional_asymptotic_legendre.nondimensional_relative_helmholtz_free_energy_per_link,
    O_morse_isotensional_asymptotic_legendre.helmholtz_free_energy,
    O_morse_isotensional_asymptotic_legendre.helmholtz_free_energy_per_link,
    O_morse_isotensional_asymptotic_legendre.relative_helmholtz_free_energy,
    O_morse_isotensional_asymptotic_legendre.relative_helmholtz_free_energy_per_link,
    O_morse_isotensional_asymptotic_legendre.nondimensional_helmholtz_free_energy,
    O_morse_isotensional_asymptotic_legendre.nondimensional_helmholtz_free_energy_per_link,
    O_morse_isotensional_asymptotic_legendre.nondimensional_relative_helmholtz_free_energy,
    O_morse_isotensional_asymptotic_legendre.nondimensional_relative_helmholtz_free_energy_per_link.
  elementwise_tac.
Qed.
Print Assumptions C58_morse_isotensional_asymptotic_legendre.

Theorem C58_morse_isotensional_legendre : forall (T : Type) (Sc : Scalar T) (number_of_links : Z) (link_length : T) (hinge_mass : T) (link_stiffness : T) (link_energy : T),
  let p := P_morse_isotensional.legendre (P_morse_thermodynamics.isotensional (P_morse.thermodynamics (P_morse.init number_of_links link_length hinge_mass link_stiffness link_energy))) in
  let r := O_morse_isotensional.legendre (O_morse_thermodynamics.isotensional (O_morse.thermodynamics (O_morse.init number_of_links link_length hinge_mass link_stiffness link_energy))) in
  P_morse_isotensional_legendre.hinge_mass p = O_morse_isotensional_legendre.hinge_mass r
  /\ P_morse_isotensional_legendre.link_length p = O_morse_isotensional_legendre.link_length r
  /\ P_morse_isotensional_legendre.number_of_links p = O_morse_isotensional_legendre.number_of_links r
  /\ P_morse_isotensional_legendre.link_stiffness p = O_morse_isotensional_legendre.link_stiffness r
  /\ P_morse_isotensional_legendre.link_energy p = O_morse_isotensional_legendre.link_energy r
  /\ (forall (force : ndarray T) (temperature : T),
     elementwise (fun x => O_morse_isotensional_legendre.helmholtz_free_energy r x temperature) force
       (P_morse_isotensional_legendre.helmholtz_free_energy p force temperature))
  /\ (forall (force : ndarray T) (temperature : T),
     elementwise (fun x => O_morse_isotensional_legendre.helmholtz_free_energy_per_link r x temperature) force
       (P_morse_isotensional_legendre.helmholtz_free_energy_per_link p force temperature))
  /\ (forall (force : ndarray T) (temperature : T),
     elementwise (fun x => O_morse_isotensional_legendre.relative_helmholtz_free_energy r x temperature) force
       (P_morse_isotensional_legendre.relative_helmholtz_free_energy p force temperature))
  /\ (forall (force : ndarray T) (temperature : T),
     elementwise (fun x => O_morse_isotensional_legendre.relative_helmholtz_free_energy_per_link r x temperature) force
       (P_morse_isotensional_legendre.relative_helmholtz_free_energy_per_link p force temperature))
  /\ (forall (nondimensional_force : ndarray T) (temperature : T),
     elementwise (fun x => O_morse_isotensional_legendre.nondimensional_helmholtz_free_energy r x temperature) nondimensional_force
       (P_morse_isotensional_legendre.nondimensional_helmholtz_free_energy p nondimensional_force temperature))
  /\ (forall (nondimensional_force : ndarray T) (temperature : T),
     elementwise (fun x => O_morse_isotensional_legendre.nondimensional_helmholtz_free_energy_per_link r x temperature) nondimensional_force
       (P_morse_isotensional_legendre.nondimensional_helmholtz_free_energy_per_link p nondimensional_force temperature))
  /\ (forall (nondimensional_force : ndarray T) (temperature : T),
     elementwise (fun x => O_morse_isotensional_legendre.nondimensional_relative_helmholtz_free_energy r x temperature) nondimensional_force
       (P_morse_isotensional_legendre.nondimensional_relative_helmholtz_free_energy p nondimensional_force temperature))
  /\ (forall (nondimensional_force : ndarray T) (temperature : T),
     elementwise (fun x => O_morse_isotensional_legendre.nondimensional_relative_helmholtz_free_energy_per_link r x temperature) nondimensional_force
       (P_morse_isotensional_legendre.nondimensional_relative_helmholtz_free_energy_per_link p nondimensional_force temperature)).
Proof.
  intros T Sc number_of_links link_length hinge_mass link_stiffness link_energy p r.
  assert (P_morse_isotensional_legendre.hinge_mass p = O_morse_isotensional_legendre.hinge_mass r) by reflexivity.
  assert (P_morse_isotensional_legendre.link_length p = O_morse_isotensional_legendre.link_length r) by reflexivity.
  assert (P_morse_isotensional_legendre.number_of_links p = O_morse_isotensional_legendre.number_of_links r) by reflexivity.
  assert (P_morse_isotensional_legendre.link_stiffness p = O_morse_isotensional_legendre.link_stiffness r) by reflexivity.
  assert (P_morse_isotensional_legendre.link_energy p = O_morse_isotensional_legendre.link_energy r) by reflexivity.
  clearbody p r.
  unfold P_morse_isotensional_legendre.helmholtz_free_energy,
    P_morse_isotensional_legendre.helmholtz_free_energy_per_link,
    P_morse_isotensional_legendre.relative_helmholtz_free_energy,
    P_morse_isotensional_legendre.relative_helmholtz_free_energy_per_link,
    P_morse_isotensional_legendre.nondimensional_helmholtz_free_energy,
    P_morse_isotensional_legendre.nondimensional_helmholtz_free_energy_per_link,
    P_morse_isotensional_legendre.nondimensional_relative_helmholtz_free_energy,
    P_morse_isotensional_legendre.nondimensional_relative_helmholtz_free_energy_per_link,
    O_morse_isotensional_legendre.helmholtz_free_energy,
    O_morse_isotensional_legendre.helmholtz_free_energy_per_link,
    O_morse_isotensional_legendre.relative_helmholtz_free_energy,
    O_morse_isotensional_legendre.relative_helmholtz_free_energy_per_link,
    O_morse_isotensional_legendre.nondimensional_helmholtz_free_energy,
    O_morse_isotensional_legendre.nondimensional_helmholtz_free_energy_per_link,
    O_morse_isotensional_legendre.nondimensional_relative_helmholtz_free_energy,
    O_morse_isotensional_legendre.nondimensional_relative_helmholtz_free_energy_per_link.
  elementwise_tac.
Qed.
Print Assumptions C58_morse_isotensional_legendre.

Theorem C58_lennard_jones : forall (T : Type) (Sc : Scalar T) (number_of_links : Z) (link_length : T) (hinge_mass : T) (link_stiffness : T),
  let p := P_lennard_jones.init number_of_links link_length hinge_mass link_stiffness in
  let r := O_lennard_jones.init number_of_links link_length hinge_mass link_stiffness in
  P_lennard_jones.hinge_mass p = O_lennard_jones.hinge_mass r
  /\ P_lennard_jones.link_length p = O_lennard_jones.link_length r
  /\ P_lennard_jones.number_of_links p = O_lennard_jones.number_of_links r
  /\ P_lennard_jones.link_stiffness p = O_lennard_jones.link_stiffness r.
Proof.
  intros T Sc number_of_links link_length hinge_mass link_stiffness p r.
  assert (P_lennard_jones.hinge_mass p = O_lennard_jones.hinge_mass r) by reflexivity.
  assert (P_lennard_jones.link_length p = O_lennard_jones.link_length r) by reflexivity.
  assert (P_lennard_jones.number_of_links p = O_lennard_jones.number_of_links r) by reflexivity.
  assert (P_lennard_jones.link_stiffness p = O_lennard_jones.link_stiffness r) by reflexivity.
  clearbody p r.
  elementwise_tac.
Qed.
Print Assumptions C58_lennard_jones.

Theorem C58_lennard_jones_thermodynamics : forall (T : Type) (Sc : Scalar T) (number_of_links : Z) (link_length : T) (hinge_mass : T) (link_stiffness : T),
  let p := P_lennard_jones.thermodynamics (P_lennard_jones.init number_of_links link_length hinge_mass link_stiffness) in
  let r := O_lennard_jones.thermodynamics (O_lennard_jones.init number_of_links link_length hinge_mass link_stiffness) in
  P_lennard_jones_thermodynamics.hinge_mass p = O_lennard_jones_thermodynamics.hinge_mass r
  /\ P_lennard_jones_thermodynamics.link_length p = O_lennard_jones_thermodynamics.link_length r
  /\ P_lennard_jones_thermodynamics.number_of_links p = O_lennard_jones_thermodynamics.number_of_links r
  /\ P_lennard_jones_thermodynamics.link_stiffness p = O_lennard_jones_thermodynamics.link_stiffness r.
Proof.
  intros T Sc number_of_links link_length hinge_mass link_stiffness p r.
  assert (P_lennard_jones_thermodynamics.hinge_mass p = O_lennard_jones_thermodynamics.hinge_mass r) by reflexivity.
  assert (P_lennard_jones_thermodynamics.link_length p = O_lennard_jones_thermodynamics.link_length r) by reflexivity.
  assert (P_lennard_jones_thermodynamics.number_of_links p = O_lennard_jones_thermodynamics.number_of_links r) by reflexivity.
  assert (P_lennard_jones_thermodynamics.link_stiffness p = O_lennard_jones_thermodynamics.link_stiffness r) by reflexivity.
  clearbody p r.
  elementwise_tac.
Qed.
Print Assumptions C58_lennard_jones_thermodynamics.

Theorem C58_lennard_jones_isometric : forall (T : Type) (Sc : Scalar T) (number_of_links : Z) (link_length : T) (hinge_mass : T) (link_stiffness : T),
  let p := P_lennard_jones_thermodynamics.isometric (P_lennard_jones.thermodynamics (P_lennard_jones.init number_of_links link_length hinge_mass link_stiffness)) in
  let r := O_lennard_jones_thermodynamics.isometric (O_lennard_jones.thermodynamics (O_lennard_jones.init number_of_links link_length hinge_mass link_stiffness)) in
  P_lennard_jones_isometric.hinge_mass p = O_lennard_jones_isometric.hinge_mass r
  /\ P_lennard_jones_isometric.link_length p = O_lennard_jones_isometric.link_length r
  /\ P_lennard_jones_isometric.number_of_links p = O_lennard_jones_isometric.number_of_links r
  /\ P_lennard_jones_isometric.link_stiffness p = O_lennard_jones_isometric.link_stiffness r.
Proof.
  intros T Sc number_of_links link_length hinge_mass link_stiffness p r.
  assert (P_lennard_jones_isometric.hinge_mass p = O_lennard_jones_isometric.hinge_mass r) by reflexivity.
  assert (P_lennard_jones_isometric.link_length p = O_lennard_jones_isometric.link_length r) by reflexivity.
  assert (P_lennard_jones_isometric.number_of_links p = O_lennard_jones_isometric.number_of_links r) by reflexivity.
  assert (P_lennard_jones_isometric.link_stiffness p = O_lennard_jones_isometric.link_stiffness r) by reflexivity.
  clearbody p r.
  elementwise_tac.
Qed.
Print Assumptions C58_lennard_jones_isometric.

Theorem C58_lennard_jones_isometric_asymptotic : forall (T : Type) (Sc : Scalar T) (number_of_links : Z) (link_length : T) (hinge_mass : T) (link_stiffness : T),
  let p := P_lennard_jones_isometric.asymptotic (P_lennard_jones_thermodynamics.isometric (P_lennard_jones.thermodynamics (P_lennard_jones.init number_of_links link_length hinge_mass link_stiffness))) in
  let r := O_lennard_jones_isometric.asymptotic (O_lennard_jones_thermodynamics.isometric (O_lennard_jones.thermodynamics (O_lennard_jones.init number_of_links link_length hinge_mass link_stiffness))) in
  P_lennard_jones_isometric_asymptotic.hinge_mass p = O_lennard_jones_isometric_asymptotic.hinge_mass r
  /\ P_lennard_jones_isometric_asymptotic.link_length p = O_lennard_jones_isometric_asymptotic.link_length r
  /\ P_lennard_jones_isometric_asymptotic.number_of_links p = O_lennard_jones_isometric_asymptotic.number_of_links r
  /\ P_lennard_jones_isometric_asymptotic.link_stiffness p = O_lennard_jones_isometric_asymptotic.link_stiffness r.
Proof.
  intros T Sc number_of_links link_length hinge_mass link_stiffness p r.
  assert (P_lennard_jones_isometric_asymptotic.hinge_mass p = O_lennard_jones_isometric_asymptotic.hinge_mass r) by reflexivity.
  assert (P_lennard_jones_isometric_asymptotic.link_length p = O_lennard_jones_isometric_asymptotic.link_length r) by reflexivity.
  assert (P_lennard_jones_isometric_asymptotic.number_of_links p = O_lennard_jones_isometric_asymptotic.number_of_links r) by reflexivity.
  assert (P_lennard_jones_isometric_asymptotic.link_stiffness p = O_lennard_jones_isometric_asymptotic.link_stiffness r) by reflexivity.
  clearbody p r.
  elementwise_tac.
Qed.
Print Assumptions C58_lennard_jones_isometric_asymptotic.

Theorem C58_lennard_jones_isometric_asymptotic_reduced : forall (T : Type) (Sc : Scalar T) (number_of_links : Z) (link_length : T) (hinge_mass : T) (link_stiffness : T),
  let p := P_lennard_jones_isometric_asymptotic.reduced (P_lennard_jones_isometric.asymptotic (P_lennard_jones_thermodynamics.isometric (P_lennard_jones.thermodynamics (P_lennard_jones.init number_of_links link_length hinge_mass link_stiffness)))) in
  let r := O_lennard_jones_isometric_asymptotic.reduced (O_lennard_jones_isometric.asymptotic (O_lennard_jones_thermodynamics.isometric (O_lennard_jones.thermodynamics (O_lennard_jones.init number_of_links link_length hinge_mass link_stiffness)))) in
  P_lennard_jones_isometric_asymptotic_reduced.hinge_mass p = O_lennard_jones_isometric_asymptotic_reduced.hinge_mass r
  /\ P_lennard_jones_isometric_asymptotic_reduced.link_length p = O_lennard_jones_isometric_asymptotic_reduced.link_length r
  /\ P_lennard_jones_isometric_asymptotic_reduced.number_of_links p = O_lennard_jones_isometric_asymptotic_reduced.number_of_links r
  /\ P_lennard_jones_isometric_asymptotic_reduced.link_stiffness p = O_lennard_jones_isometric_asymptotic_reduced.link_stiffness r.
Proof.
  intros T Sc number_of_links link_length hinge_mass link_stiffness p r.
  assert (P_lennard_jones_isometric_asymptotic_reduced.hinge_mass p = O_lennard_jones_isometric_asymptotic_reduced.hinge_mass r) by reflexivity.
  assert (P_lennard_jones_isometric_asymptotic_reduced.link_length p = O_lennard_jones_isometric_asymptotic_reduced.link_length r) by reflexivity.
  assert (P_lennard_jones_isometric_asymptotic_reduced.number_of_links p = O_lennard_jones_isometric_asymptotic_reduced.number_of_links r) by reflexivity.
  assert (P_lennard_jones_isometric_asymptotic_reduced.link_stiffness p = O_lennard_jones_isometric_asymptotic_reduced.link_stiffness r) by reflexivity.
  clearbody p r.
  elementwise_tac.
Qed.
Print Assumptions C58_lennard_jones_isometric_asymptotic_reduced.

Theorem C58_lennard_jones_isometric_asymptotic_reduced_legendre : forall (T : Type) (Sc : Scalar T) (number_of_links : Z) (link_length : T) (hinge_mass : T) (link_stiffness : T),
  let p := P_lennard_jones_isometric_asymptotic_reduced.legendre (P_lennard_jones_isometric_asymptotic.reduced (P_lennard_jones_isometric.asymptotic (P_lennard_jones_thermodynamics.isometric (P_lennard_jones.thermodynamics (P_lennard_jones.init number_of_links link_length hinge_mass link_stiffness))))) in
  let r := O_lennard_jones_isometric_asymptotic_reduced.legendre (O_lennard_jones_isometric_asymptotic.reduced (O_lennard_jones_isometric.asymptotic (O_lennard_jones_thermodynamics.isometric (O_lennard_jones.thermodynamics (O_lennard_jones.init number_of_links link_length hinge_mass link_stiffness))))) in
  P_lennard_jones_isometric_asymptotic_reduced_legendre.hinge_mass p = O_lennard_jones_isometric_asymptotic_reduced_legendre.hinge_mass r
  /\ P_lennard_jones_isometric_asymptotic_reduced_legendre.link_length p = O_lennard_jones_isometric_asymptotic_reduced_legendre.link_length r
  /\ P_lennard_jones_isometric_asymptotic_reduced_legendre.number_of_links p = O_lennard_jones_isometric_asymptotic_reduced_legendre.number_of_links r
  /\ P_lennard_jones_isometric_asymptotic_reduced_legendre.link_stiffness p = O_lennard_jones_isometric_asymptotic_reduced_legendre.link_stiffness r
  /\ (forall (end_to_end_length : ndarray T) (temperature : T),
     elementwise (fun x => O_lennard_jones_isometric_asymptotic_reduced_legendre.force r x temperature) end_to_end_length
       (P_lennard_jones_isometric_asymptotic_reduced_legendre.force p end_to_end_length temperature))
  /\ (forall (nondimensional_end_to_end_length_per_link : ndarray T) (temperature : T),
     elementwise (fun x => O_lennard_jones_isometric_asymptotic_reduced_legendre.nondimensional_force r x temperature) nondimensional_end_to_end_length_per_link
       (P_lennard_jones_isometric_asymptotic_reduced_legendre.nondimensional_force p nondimensional_end_to_end_length_per_link temperature))
  /\ (forall (end_to_end_length : ndarray T) (temperature : T),
     elementwise (fun x => O_lennard_jones_isometric_asymptotic_reduced_legendre.helmholtz_free_energy r x temperature) end_to_end_length
       (P_lennard_jones_isometric_asymptotic_reduced_legendre.helmholtz_free_energy p end_to_end_length temperature))
  /\ (forall (end_to_end_length : ndarray T) (temperature : T),
     elementwise (fun x => O_lennard_jones_isometric_asymptotic_reduced_legendre.helmholtz_free_energy_per_link r x temperature) end_to_end_length
       (P_lennard_jones_isometric_asymptotic_reduced_legendre.helmholtz_free_energy_per_link p end_to_end_length temperature))
  /\ (forall (end_to_end_length : ndarray T) (temperature : T),
     elementwise (fun x => O_lennard_jones_isometric_asymptotic_reduced_legendre.relative_helmholtz_free_energy r x temperature) end_to_end_length
       (P_lennard_jones_isometric_asymptotic_reduced_legendre.relative_helmholtz_free_energy p end_to_end_length temperature))
  /\ (forall (end_to_end_length : ndarray T) (temperature : T),
     elementwise (fun x => O_lennard_jones_isometric_asymptotic_reduced_legendre.relative_helmholtz_free_energy_per_link r x temperature) end_to_end_length
       (P_lennard_jones_isometric_asymptotic_reduced_legendre.relative_helmholtz_free_energy_per_link p end_to_end_length temperature))
  /\ (forall (nondimensional_end_to_end_length_per_link : ndarray T) (temperature : T),
     elementwise (fun x => O_lennard_jones_isometric_asymptotic_reduced_legendre.nondimensional_helmholtz_free_energy r x temperature) nondimensional_end_to_end_length_per_link
       (P_lennard_jones_isometric_asymptotic_reduced_legendre.nondimensional_helmholtz_free_energy p nondimensional_end_to_end_length_per_link temperature))
  /\ (forall (nondimensional_end_to_end_length_per_link : ndarray T) (temperature : T),
     elementwise (fun x => O_lennard_jones_isometric_asymptotic_reduced_legendre.nondimensional_helmholtz_free_energy_per_link r x temperature) nondimensional_end_to_end_length_per_link
       (P_lennard_jones_isometric_asymptotic_reduced_legendre.nondimensional_helmholtz_free_energy_per_link p nondimensional_end_to_end_length_per_link temperature))
  /\ (forall (nondimensional_end_to_end_length_per_link : ndarray T) (temperature : T),
     elementwise (fun x => O_lennard_jones_isometric_asymptotic_reduced_legendre.nondimensional_relative_helmholtz_free_energy r x temperature) nondimensional_end_to_end_length_per_link
       (P_lennard_jones_isometric_asymptotic_reduced_legendre.nondimensional_relative_helmholtz_free_energy p nondimensional_end_to_end_length_per_link temperature))
  /\ (forall (nondimensional_end_to_end_length_per_link : ndarray T) (temperature : T),
     elementwise (fun x => O_lennard_jones_isometric_asymptotic_reduced_legendre.nondimensional_relative_helmholtz_free_energy_per_link r x temperature) nondimensional_end_to_end_length_per_link
       (P_lennard_jones_isometric_asymptotic_reduced_legendre.nondimensional_relative_helmholtz_free_energy_per_link p nondimensional_end_to_end_length_per_link temperature)).
Proof.
  intros T Sc number_of_links link_length hinge_mass link_stiffness p r.
  assert (P_lennard_jones_isometric_asymptotic_reduced_legendre.hinge_mass p = O_lennard_jones_isometric_asymptotic_reduced_legendre.hinge_mass r) by reflexivity.
  assert (P_lennard_jones_isometric_asymptotic_reduced_legendre.link_length p = O_lennard_jones_isometric_asymptotic_reduced_legendre.link_length r) by reflexivity.
  assert (P_lennard_jones_isometric_asymptotic_reduced_legendre.number_of_links p = O_lennard_jones_isometric_asymptotic_reduced_legendre.number_of_links r) by reflexivity.
  assert (P_lennard_jones_isometric_asymptotic_reduced_legendre.link_stiffness p = O_lennard_jones_isometric_asymptotic_reduced_legendre.link_stiffness r) by reflexivity.
  clearbody p r.
  unfold P_lennard_jones_isometric_asymptotic_reduced_legendre.force,
    P_lennard_jones_isometric_asymptotic_reduced_legendre.nondimensional_force,
    P_lennard_jones_isometric_asymptotic_reduced_legendre.helmholtz_free_energy,
    P_lennard_jones_isometric_asymptotic_reduced_legendre.helmholtz_free_energy_per_link,
    P_lennard_jones_isometric_asymptotic_reduced_legendre.relative_helmholtz_free_energy,
    P_lennard_jones_isometric_asymptotic_reduced_legendre.relative_helmholtz_free_energy_per_link,
    P_lennard_jones_isometric_asymptotic_reduced_legendre.nondimensional_helmholtz_free_energy,
    P_lennard_jones_isometric_asymptotic_reduced_legendre.nondimensional_helmholtz_free_energy_per_link,
    P_lennard_jones_isometric_asymptotic_reduced_legendre.nondimensional_relative_helmholtz_free_energy,
    P_lennard_jones_isometric_asymptotic_reduced_legendre.nondimensional_relative_helmholtz_free_energy_per_link,
    O_lennard_jones_isometric_asymptotic_reduced_legendre.force,
    O_lennard_jones_isometric_asymptotic_reduced_legendre.nondimensional_force,
    O_lennard_jones_isometric_asymptotic_reduced_legendre.helmholtz_free_energy,
    O_lennard_jones_isometric_asymptotic_reduced_legendre.helmholtz_free_energy_per_link,
    O_lennard_jones_isometric_asymptotic_reduced_legendre.relative_helmholtz_free_energy,
    O_lennard_jones_isometric_asymptotic_reduced_legendre.relative_helmholtz_free_energy_per_link,
    O_lennard_jones_isometric_asymptotic_reduced_legendre.nondimensional_helmholtz_free_energy,
    O_lennard_jones_isometric_asymptotic_reduced_legendre.nondimensional_helmholtz_free_energy_per_link,
    O_lennard_jones_isometric_asymptotic_reduced_legendre.nondimensional_relative_helmholtz_free_energy,
    O_lennard_jones_isometric_asymptotic_reduced_legendre.nondimensional_relative_helmholtz_free_energy_per_link.
  elementwise_tac.
Qed.
Print Assumptions C58_lennard_jones_isometric_asymptotic_reduced_legendre.

Theorem C58_lennard_jones_isometric_asymptotic_legendre : forall (T : Type) (Sc : Scalar T) (number_of_links : Z) (link_length : T) (hinge_mass : T) (link_stiffness : T),
  let p := P_lennard_jones_isometric_asymptotic.legendre (P_lennard_jones_isometric.asymptotic (P_lennard_jones_thermodynamics.isometric (P_lennard_jones.thermodynamics (P_lennard_jones.init number_of_links link_length hinge_mass link_stiffness)))) in
  let r := O_lennard_jones_isometric_asymptotic.legendre (O_lennard_jones_isometric.asymptotic (O_lennard_jones_thermodynamics.isometric (O_lennard_jones.thermodynamics (O_lennard_jones.init number_of_links link_length hinge_mass link_stiffness)))) in
  P_lennard_jones_isometric_asymptotic_legendre.hinge_mass p = O_lennard_jones_isometric_asymptotic_legendre.hinge_mass r
  /\ P_lennard_jones_isometric_asymptotic_legendre.link_length p = O_lennard_jones_isometric_asymptotic_legendre.link_length r
  /\ P_lennard_jones_isometric_asymptotic_legendre.number_of_links p = O_lennard_jones_isometric_asymptotic_legendre.number_of_links r
  /\ P_lennard_jones_isometric_asymptotic_legendre.link_stiffness p = O_lennard_jones_isometric_asymptotic_legendre.link_stiffness r
  /\ (forall (end_to_end_length : ndarray T) (temperature : T),
     elementwise (fun x => O_lennard_jones_isometric_asymptotic_legendre.force r x temperature) end_to_end_length
       (P_lennard_jones_isometric_asymptotic_legendre.force p end_to_end_length temperature))
  /\ (forall (nondimensional_end_to_end_length_per_link : ndarray T) (temperature : T),
     elementwise (fun x => O_lennard_jones_isometric_asymptotic_legendre.nondimensional_force r x temperature) nondimensional_end_to_end_length_per_link
       (P_lennard_jones_isometric_asymptotic_legendre.nondimensional_force p nondimensional_end_to_end_length_per_link temperature))
  /\ (forall (end_to_end_length : ndarray T) (temperature : T),
     elementwise (fun x => O_lennard_jones_isometric_asymptotic_legendre.helmholtz_free_energy r x temperature) end_to_end_length
       (P_lennard_jones_isometric_asymptotic_legendre.helmholtz_free_energy p end_to_end_length temperature))
  /\ (forall (end_to_end_length : ndarray T) (temperature : T),
     elementwise (fun x => O_lennard_jones_isometric_asymptotic_legendre.helmholtz_free_energy_per_link r x temperature) end_to_end_length
       (P_lennard_jones_isometric_asymptotic_legendre.helmholtz_free_energy_per_link p end_to_end_length temperature))
  /\ (forall (end_to_end_length : ndarray T) (temperature : T),
     elementwise (fun x => O_lennard_jones_isometric_asymptotic_legendre.relative_helmholtz_free_energy r x temperature) end_to_end_length
       (P_lennard_jones_isometric_asymptotic_legendre.relative_helmholtz_free_energy p end_to_end_length temperature))
  /\ (forall (end_to_end_length : ndarray T) (temperature : T),
     elementwise (fun x => O_lennard_jones_isometric_asymptotic_legendre.relative_helmholtz_free_energy_per_link r x temperature) end_to_end_length
       (P_lennard_jones_isometric_asymptotic_legendre.relative_helmholtz_free_energy_per_link p end_to_end_length temperature))
  /\ (forall (nondimensional_end_to_end_length_per_link : ndarray T) (temperature : T),
     elementwise (fun x => O_lennard_jones_isometric_asymptotic_legendre.nondimensional_helmholtz_free_energy r x temperature) nondimensional_end_to_end_length_per_link
       (P_lennard_jones_isometric_asymptotic_legendre.nondimensional_helmholtz_free_energy p nondimensional_end_to_end_length_per_link temperature))
  /\ (forall (nondimensional_end_to_end_length_per_link : ndarray T) (temperature : T),
     elementwise (fun x => O_lennard_jones_isometric_asymptotic_legendre.nondimensional_helmholtz_free_energy_per_link r x temperature) nondimensional_end_to_end_length_per_link
       (P_lennard_jones_isometric_asymptotic_legendre.nondimensional_helmholtz_free_energy_per_link p nondimensional_end_to_end_length_per_link temperature))
  /\ (forall (nondimensional_end_to_end_length_per_link : ndarray T) (temperature : T),
     elementwise (fun x => O_lennard_jones_isometric_asymptotic_legendre.nondimensional_relative_helmholtz_free_energy r x temperature) nondimensional_end_to_end_length_per_link
       (P_lennard_jones_isometric_asymptotic_legendre.nondimensional_relative_helmholtz_free_energy p nondimensional_end_to_end_length_per_link temperature))
  /\ (forall (nondimensional_end_to_end_length_per_link : ndarray T) (temperature : T),
     elementwise (fun x => O_lennard_jones_isometric_asymptotic_legendre.nondimensional_relative_helmholtz_free_energy_per_link r x temperature) nondimensional_end_to_end_length_per_link
       (P_lennard_jones_isometric_asymptotic_legendre.nondimensional_relative_helmholtz_free_energy_per_link p nondimensional_end_to_end_length_per_link temperature)).
Proof.
  intros T Sc number_of_links link_length hinge_mass link_stiffness p r.
  assert (P_lennard_jones_isometric_asymptotic_legendre.hinge_mass p = O_lennard_jones_isometric_asymptotic_legendre.hinge_mass r) by reflexivity.
  assert (P_lennard_jones_isometric_asymptotic_legendre.link_length p = O_lennard_jones_isometric_asymptotic_legendre.link_length r) by reflexivity.
  assert (P_lennard_jones_isometric_asymptotic_legendre.number_of_links p = O_lennard_jones_isometric_asymptotic_legendre.number_of_links r) by reflexivity.
  assert (P_lennard_jones_isometric_asymptotic_legendre.link_stiffness p = O_lennard_jones_isometric_asymptotic_legendre.link_stiffness r) by reflexivity.
  clearbody p r.
  unfold P_lennard_jones_isometric_asymptotic_legendre.force,
    P_lennard_jones_isometric_asymptotic_legendre.nondimensional_force,
    P_lennard_jones_isometric_asymptotic_legendre.helmholtz_free_energy,
    P_lennard_jones_isometric_asymptotic_legendre.helmholtz_free_energy_per_link,
    P_lennard_jones_isometric_asymptotic_legendre.relative_helmholtz_free_energy,
    P_lennard_jones_isometric_asymptotic_legendre.relative_helmholtz_free_energy_per_link,
    P_lennard_jones_isometric_asymptotic_legendre.nondimensional_helmholtz_free_energy,
    P_lennard_jones_isometric_asymptotic_legendre.nondimensional_helmholtz_free_energy_per_link,
    P_lennard_jones_isometric_asymptotic_legendre.nondimensional_relative_helmholtz_free_energy,
    P_lennard_jones_isometric_asymptotic_legendre.nondimensional_relative_helmholtz_free_energy_per_link,
    O_lennard_jones_isometric_asymptotic_legendre.force,
    O_lennard_jones_isometric_asymptotic_legendre.nondimensional_force,
    O_lennard_jones_isometric_asymptotic_legendre.helmholtz_free_energy,
    O_lennard_jones_isometric_asymptotic_legendre.helmholtz_free_energy_per_link,
    O_lennard_jones_isometric_asymptotic_legendre.relative_helmholtz_free_energy,
    O_lennard_jones_isometric_asymptotic_legendre.relative_helmholtz_free_energy_per_link,
    O_lennard_jones_isometric_asymptotic_legendre.nondimensional_helmholtz_free_energy,
    O_lennard_jones_isometric_asymptotic_legendre.nondimensional_helmholtz_free_energy_per_link,
    O_lennard_jones_isometric_asymptotic_legendre.nondimensional_relative_helmholtz_free_energy,
    O_lennard_jones_isometric_asymptotic_legendre.nondimensional_relative_helmholtz_free_energy_per_link.
  elementwise_tac.
Qed.
Print Assumptions C58_lennard_jones_isometric_asymptotic_legendre.

Theorem C58_lennard_jones_isotensional : forall (T : Type) (Sc : Scalar T) (number_of_links : Z) (link_length : T) (hinge_mass : T) (link_stiffness : T),
  let p := P_lennard_jones_thermodynamics.isotensional (P_lennard_jones.thermodynamics (P_lennard_jones.init number_of_links link_length hinge_mass link_stiffness)) in
  let r := O_lennard_jones_thermodynamics.isotensional (O_lennard_jones.thermodynamics (O_lennard_jones.init number_of_links link_length hinge_mass link_stiffness)) in
  P_lennard_jones_isotensional.hinge_mass p = O_lennard_jones_isotensional.hinge_mass r
  /\ P_lennard_jones_isotensional.link_length p = O_lennard_jones_isotensional.link_length r
  /\ P_lennard_jones_isotensional.number_of_links p = O_lennard_jones_isotensional.number_of_links r
  /\ P_lennard_jones_isotensional.link_stiffness p = O_lennard_jones_isotensional.link_stiffness r
  /\ (forall (force : ndarray T) (temperature : T),
     elementwise (fun x => O_lennard_jones_isotensional.end_to_end_length r x temperature) force
       (P_lennard_jones_isotensional.end_to_end_length p force temperature))
  /\ (forall (force : ndarray T) (temperature : T),
     elementwise (fun x => O_lennard_jones_isotensional.end_to_end_length_per_link r x temperature) force
       (P_lennard_jones_isotensional.end_to_end_length_per_link p force temperature))
  /\ (forall (nondimensional_force : ndarray T) (temperature : T),
     elementwise (fun x => O_lennard_jones_isotensional.nondimensional_end_to_end_length r x temperature) nondimensional_force
       (P_lennard_jones_isotensional.nondimensional_end_to_end_length p nondimensional_force temperature))
  /\ (forall (nondimensional_force : ndarray T) (temperature : T),
     elementwise (fun x => O_lennard_jones_isotensional.nondimensional_end_to_end_length_per_link r x temperature) nondimensional_force
       (P_lennard_jones_isotensional.nondimensional_end_to_end_length_per_link p nondimensional_force temperature))
  /\ (forall (force : ndarray T) (temperature : T),
     elementwise (fun x => O_lennard_jones_isotensional.gibbs_free_energy r x temperature) force
       (P_lennard_jones_isotensional.gibbs_free_energy p force temperature))
  /\ (forall (force : ndarray T) (temperature : T),
     elementwise (fun x => O_lennard_jones_isotensional.gibbs_free_energy_per_link r x temperature) force
       (P_lennard_jones_isotensional.gibbs_free_energy_per_link p force temperature))
  /\ (forall (force : ndarray T) (temperature : T),
     elementwise (fun x => O_lennard_jones_isotensional.relative_gibbs_free_energy r x temperature) force
       (P_lennard_jones_isotensional.relative_gibbs_free_energy p force temperature))
  /\ (forall (force : ndarray T) (temperature : T),
     elementwise (fun x => O_lennard_jones_isotensional.relative_gibbs_free_energy_per_link r x temperature) force
       (P_lennard_jones_isotensional.relative_gibbs_free_energy_per_link p force temperature))
  /\ (forall (nondimensional_force : ndarray T) (temperature : T),
     elementwise (fun x => O_lennard_jones_isotensional.nondimensional_gibbs_free_energy r x temperature) nondimensional_force
       (P_lennard_jones_isotensional.nondimensional_gibbs_free_energy p nondimensional_force temperature))
  /\ (forall (nondimensional_force : ndarray T) (temperature : T),
     elementwise (fun x => O_lennard_jones_isotensional.nondimensional_gibbs_free_energy_per_link r x temperature) nondimensional_force
       (P_lennard_jones_isotensional.nondimensional_gibbs_free_energy_per_link p nondimensional_force temperature))
  /\ (forall (nondimensional_force : ndarray T) (temperature : T),
     elementwise (fun x => O_lennard_jones_isotensional.nondimensional_relative_gibbs_free_energy r x temperature) nondimensional_force
       (P_lennard_jones_isotensional.nondimensional_relative_gibbs_free_energy p nondimensional_force temperature))
  /\ (forall (nondimensional_force : ndarray T) (temperature : T),
     elementwise (fun x => O_lennard_jones_isotensional.nondimensional_relative_gibbs_free_energy_per_link r x temperature) nondimensional_force
       (P_lennard_jones_isotensional.nondimensional_relative_gibbs_free_energy_per_link p nondimensional_force temperature)).
Proof.
  intros T Sc number_of_links link_length hinge_mass link_stiffness p r.
  assert (P_lennard_jones_isotensional.hinge_mass p = O_lennard_jones_isotensional.hinge_mass r) by reflexivity.
  assert (P_lennard_jones_isotensional.link_length p = O_lennard_jones_isotensional.link_length r) by reflexivity.
  assert (P_lennard_jones_isotensional.number_of_links p = O_lennard_jones_isotensional.number_of_links r) by reflexivity.
  assert (P_lennard_jones_isotensional.link_stiffness p = O_lennard_jones_isotensional.link_stiffness r) by reflexivity.
  clearbody p r.
  unfold P_lennard_jones_isotensional.end_to_end_length,
    P_lennard_jones_isotensional.end_to_end_length_per_link,
    P_lennard_jones_isotensional.nondimensional_end_to_end_length,
    P_lennard_jones_isotensional.nondimensional_end_to_end_length_per_link,
    P_lennard_jones_isotensional.gibbs_free_energy,
    P_lennard_jones_isotensional.gibbs_free_energy_per_link,
    P_lennard_jones_isotensional.relative_gibbs_free_energy,
    P_lennard_jones_isotensional.relative_gibbs_free_energy_per_link,
    P_lennard_jones_isotensional.nondimensional_gibbs_free_energy,
    P_lennard_jones_isotensional.nondimensional_gibbs_free_energy_per_link,
    P_lennard_jones_isotensional.nondimensional_relative_gibbs_free_energy,
    P_lennard_jones_isotensional.nondimensional_relative_gibbs_free_energy_per_link,
    O_lennard_jones_isotensional.end_to_end_length,
    O_lennard_jones_isotensional.end_to_end_length_per_link,
    O_lennard_jones_isotensional.nondimensional_end_to_end_length,
    O_lennard_jones_isotensional.nondimensional_end_to_end_length_per_link,
    O_lennard_jones_isotensional.gibbs_free_energy,
    O_lennard_jones_isotensional.gibbs_free_energy_per_link,
    O_lennard_jones_isotensional.relative_gibbs_free_energy,
    O_lennard_jones_isotensional.relative_gibbs_free_energy_per_link,
    O_lennard_jones_isotensional.nondimensional_gibbs_free_energy,
    O_lennard_jones_isotensional.nondimensional_gibbs_free_energy_per_link,
    O_lennard_jones_isotensional.nondimensional_relative_gibbs_free_energy,
    O_lennard_jones_isotensional.nondimensional_relative_gibbs_free_energy_per_link.
  elementwise_tac.
Qed.
Print Assumptions C58_lennard_jones_isotensional.

Theorem C58_lennard_jones_isotensional_asymptotic : forall (T : Type) (Sc : Scalar T) (number_of_links : Z) (link_length : T) (hinge_mass : T) (link_stiffness : T),
  let p := P_lennard_jones_isotensional.asymptotic (P_lennard_jones_thermodynamics.isotensional (P_lennard_jones.thermodynamics (P_lennard_jones.init number_of_links link_length hinge_mass link_stiffness))) in
  let r := O_lennard_jones_isotensional.asymptotic (O_lennard_jones_thermodynamics.isotensional (O_lennard_jones.thermodynamics (O_lennard_jones.init number_of_links link_length hinge_mass link_stiffness))) in
  P_lennard_jones_isotensional_asymptotic.hinge_mass p = O_lennard_jones_isotensional_asymptotic.hinge_mass r
  /\ P_lennard_jones_isotensional_asymptotic.link_length p = O_lennard_jones_isotensional_asymptotic.link_length r
  /\ P_lennard_jones_isotensional_asymptotic.number_of_links p = O_lennard_jones_isotensional_asymptotic.number_of_links r
  /\ P_lennard_jones_isotensional_asymptotic.link_stiffness p = O_lennard_jones_isotensional_asymptotic.link_stiffness r
  /\ (forall (force : ndarray T) (temperature : T),
     elementwise (fun x => O_lennard_jones_isotensional_asymptotic.end_to_end_length r x temperature) force
       (P_lennard_jones_isotensional_asymptotic.end_to_end_length p force temperature))
  /\ (forall (force : ndarray T) (temperature : T),
     elementwise (fun x => O_lennard_jones_isotensional_asymptotic.end_to_end_length_per_link r x temperature) force
       (P_lennard_jones_isotensional_asymptotic.end_to_end_length_per_link p force temperature))
  /\ (forall (nondimensional_force : ndarray T) (temperature : T),
     elementwise (fun x => O_lennard_jones_isotensional_asymptotic.nondimensional_end_to_end_length r x temperature) nondimensional_force
       (P_lennard_jones_isotensional_asymptotic.nondimensional_end_to_end_length p nondimensional_force temperature))
  /\ (forall (nondimensional_force : ndarray T) (temperature : T),
     elementwise (fun x => O_lennard_jones_isotensional_asymptotic.nondimensional_end_to_end_length_per_link r x temperature) nondimensional_force
       (P_lennard_jones_isotensional_asymptotic.nondimensional_end_to_end_length_per_link p nondimensional_force temperature))
  /\ (forall (force : ndarray T) (temperature : T),
     elementwise (fun x => O_lennard_jones_isotensional_asymptotic.gibbs_free_energy r x temperature) force
       (P_lennard_jones_isotensional_asymptotic.gibbs_free_energy p force temperature))
  /\ (forall (force : ndarray T) (temperature : T),
     elementwise (fun x => O_lennard_jones_isotensional_asymptotic.gibbs_free_energy_per_link r x temperature) force
       (P_lennard_jones_isotensional_asymptotic.gibbs_free_energy_per_link p force temperature))
  /\ (forall (force : ndarray T) (temperature : T),
     elementwise (fun x => O_lennard_jones_isotensional_asymptotic.relative_gibbs_free_energy r x temperature) force
       (P_lennard_jones_isotensional_asymptotic.relative_gibbs_free_energy p force temperature))
  /\ (forall (force : ndarray T) (temperature : T),
     elementwise (fun x => O_lennard_jones_isotensional_asymptotic.relative_gibbs_free_energy_per_link r x temperature) force
       (P_lennard_jones_isotensional_asymptotic.relative_gibbs_free_energy_per_link p force temperature))
  /\ (forall (nondimensional_force : ndarray T) (temperature : T),
     elementwise (fun x => O_lennard_jones_isotensional_asymptotic.nondimensional_gibbs_free_energy r x temperature) nondimensional_force
       (P_lennard_jones_isotensional_asymptotic.nondimensional_gibbs_free_energy p nondimensional_force temperature))
  /\ (forall (nondimensional_force : ndarray T) (temperature : T),
     elementwise (fun x => O_lennard_jones_isotensional_asymptotic.nondimensional_gibbs_free_energy_per_link r x temperature) nondimensional_force
       (P_lennard_jones_isotensional_asymptotic.nondimensional_gibbs_free_energy_per_link p nondimensional_force temperature))
  /\ (forall (nondimensional_force : ndarray T) (temperature : T),
     elementwise (fun x => O_lennard_jones_isotensional_asymptotic.nondimensional_relative_gibbs_free_energy r x temperature) nondimensional_force
       (P_lennard_jones_isotensional_asymptotic.nondimensional_relative_gibbs_free_energy p nondimensional_force temperature))
  /\ (forall (nondimensional_force : ndarray T) (temperature : T),
     elementwise (fun x => O_lennard_jones_isotensional_asymptotic.nondimensional_relative_gibbs_free_energy_per_link r x temperature) nondimensional_force
       (P_lennard_jones_isotensional_asymptotic.nondimensional_relative_gibbs_free_energy_per_link p nondimensional_force temperature)).
Proof.
  intros T Sc number_of_links link_length hinge_mass link_stiffness p r.
  assert (P_lennard_jones_isotensional_asymptotic.hinge_mass p = O_lennard_jones_isotensional_asymptotic.hinge_mass r) by reflexivity.
  assert (P_lennard_jones_isotensional_asymptotic.link_length p = O_lennard_jones_isotensional_asymptotic.link_length r) by reflexivity.
  assert (P_lennard_jones_isotensional_asymptotic.number_of_links p = O_lennard_jones_isotensional_asymptotic.number_of_links r) by reflexivity.
  assert (P_lennard_jones_isotensional_asymptotic.link_stiffness p = O_lennard_jones_isotensional_asymptotic.link_stiffness r) by reflexivity.
  clearbody p r.
  unfold P_lennard_jones_isotensional_asymptotic.end_to_end_length,
    P_lennard_jones_isotensional_asymptotic.end_to_end_length_per_link,
    P_lennard_jones_isotensional_asymptotic.nondimensional_end_to_end_length,
    P_lennard_jones_isotensional_asymptotic.nondimensional_end_to_end_length_per_link,
    P_lennard_jones_isotensional_asymptotic.gibbs_free_energy,
    P_lennard_jones_isotensional_asymptotic.gibbs_free_energy_per_link,
    P_lennard_jones_isotensional_asymptotic.relative_gibbs_free_energy,
    P_lennard_jones_isotensional_asymptotic.relative_gibbs_free_energy_per_link,
    P_lennard_jones_isotensional_asymptotic.nondimensional_gibbs_free_energy,
    P_lennard_jones_isotensional_asymptotic.nondimensional_gibbs_free_energy_per_link,
    P_lennard_jones_isotensional_asymptotic.nondimensional_relative_gibbs_free_energy,
    P_lennard_jones_isotensional_asymptotic.nondimensional_relative_gibbs_free_energy_per_link,
    O_lennard_jones_isotensional_asymptotic.end_to_end_length,
    O_lennard_jones_isotensional_asymptotic.end_to_end_length_per_link,
    O_lennard_jones_isotensional_asymptotic.nondimensional_end_to_end_length,
    O_lennard_jones_isotensional_asymptotic.nondimensional_end_to_end_length_per_link,
    O_lennard_jones_isotensional_asymptotic.gibbs_free_energy,
    O_lennard_jones_isotensional_asymptotic.gibbs_free_energy_per_link,
    O_lennard_jones_isotensional_asymptotic.relative_gibbs_free_energy,
    O_lennard_jones_isotensional_asymptotic.relative_gibbs_free_energy_per_link,
    O_lennard_jones_isotensional_asymptotic.nondimensional_gibbs_free_energy,
    O_lennard_jones_isotensional_asymptotic.nondimensional_gibbs_free_energy_per_link,
    O_lennard_jones_isotensional_asymptotic.nondimensional_relative_gibbs_free_energy,
    O_lennard_jones_isotensional_asymptotic.nondimensional_relative_gibbs_free_energy_per_link.
  elementwise_tac.
Qed.
Print Assumptions C58_lennard_jones_isotensional_asymptotic.

Theorem C58_lennard_jones_isotensional_asymptotic_reduced : forall (T : Type) (Sc : Scalar T) (number_of_links : Z) (link_length : T) (hinge_mass : T) (link_stiffness : T),
  let p := P_lennard_jones_isotensional_asymptotic.reduced (P_lennard_jones_isotensional.asymptotic (P_lennard_jones_thermodynamics.isotensional (P_lennard_jones.thermodynamics (P_lennard_jones.init number_of_links link_length hinge_mass link_stiffness)))) in
  let r := O_lennard_jones_isotensional_asymptotic.reduced (O_lennard_jones_isotensional.asymptotic (O_lennard_jones_thermodynamics.isotensional (O_lennard_jones.thermodynamics (O_lennard_jones.init number_of_links link_length hinge_mass link_stiffness)))) in
  P_lennard_jones_isotensional_asymptotic_reduced.hinge_mass p = O_lennard_jones_isotensional_asymptotic_reduced.hinge_mass r
  /\ P_lennard_jones_isotensional_asymptotic_reduced.link_length p = O_lennard_jones_isotensional_asymptotic_reduced.link_length r
  /\ P_lennard_jones_isotensional_asymptotic_reduced.number_of_links p = O_lennard_jones_isotensional_asymptotic_reduced.number_of_links r
  /\ P_lennard_jones_isotensional_asymptotic_reduced.link_stiffness p = O_lennard_jones_isotensional_asymptotic_reduced.link_stiffness r
  /\ (forall (force : ndarray T) (temperature : T),
     elementwise (fun x => O_lennard_jones_isotensional_asymptotic_reduced.end_to_end_length r x temperature) force
       (P_lennard_jones_isotensional_asymptotic_reduced.end_to_end_length p force temperature))
  /\ (forall (force : ndarray T) (temperature : T),
     elementwise (fun x => O_lennard_jones_isotensional_asymptotic_reduced.end_to_end_length_per_link r x temperature) force
       (P_lennard_jones_isotensional_asymptotic_reduced.end_to_end_length_per_link p force temperature))
  /\ (forall (nondimensional_force : ndarray T) (temperature : T),
     elementwise (fun x => O_lennard_jones_isotensional_asymptotic_reduced.nondimensional_end_to_end_length r x temperature) nondimensional_force
       (P_lennard_jones_isotensional_asymptotic_reduced.nondimensional_end_to_end_length p nondimensional_force temperature))
  /\ (forall (nondimensional_force : ndarray T) (temperature : T),
     elementwise (fun x => O_lennard_jones_isotensional_asymptotic_reduced.nondimensional_end_to_end_length_per_link r x temperature) nondimensional_force
       (P_lennard_jones_isotensional_asymptotic_reduced.nondimensional_end_to_end_length_per_link p nondimensional_force temperature))
  /\ (forall (force : ndarray T) (temperature : T),
     elementwise (fun x => O_lennard_jones_isotensional_asymptotic_reduced.gibbs_free_energy r x temperature) force
       (P_lennard_jones_isotensional_asymptotic_reduced.gibbs_free_energy p force temperature))
  /\ (forall (force : ndarray T) (temperature : T),
     elementwise (fun x => O_lennard_jones_isotensional_asymptotic_reduced.gibbs_free_energy_per_link r x temperature) force
       (P_lennard_jones_isotensional_asymptotic_reduced.gibbs_free_energy_per_link p force temperature))
  /\ (forall (force : ndarray T) (temperature : T),
     elementwise (fun x => O_lennard_jones_isotensional_asymptotic_reduced.relative_gibbs_free_energy r x temperature) force
       (P_lennard_jones_isotensional_asymptotic_reduced.relative_gibbs_free_energy p force temperature))
  /\ (forall (force : ndarray T) (temperature : T),
     elementwise (fun x => O_lennard_jones_isotensional_asymptotic_reduced.relative_gibbs_free_energy_per_link r x temperature) force
       (P_lennard_jones_isotensional_asymptotic_reduced.relative_gibbs_free_energy_per_link p force temperature))
  /\ (forall (nondimensional_force : ndarray T) (temperature : T),
     elementwise (fun x => O_lennard_jones_isotensional_asymptotic_reduced.nondimensional_gibbs_free_energy r x temperature) nondimensional_force
       (P_lennard_jones_isotensional_asymptotic_reduced.nondimensional_gibbs_free_energy p nondimensional_force temperature))
  /\ (forall (nondimensional_force : ndarray T) (temperature : T),
     elementwise (fun x => O_lennard_jones_isotensional_asymptotic_reduced.nondimensional_gibbs_free_energy_per_link r x temperature) nondimensional_force
       (P_lennard_jones_isotensional_asymptotic_reduced.nondimensional_gibbs_free_energy_per_link p nondimensional_force temperature))
  /\ (forall (nondimensional_force : ndarray T) (temperature : T),
     elementwise (fun x => O_lennard_jones_isotensional_asymptotic_reduced.nondimensional_relative_gibbs_free_energy r x temperature) nondimensional_force
       (P_lennard_jones_isotensional_asymptotic_reduced.nondimensional_relative_gibbs_free_energy p nondimensional_force temperature))
  /\ (forall (nondimensional_force : ndarray T) (temperature : T),
     elementwise (fun x => O_lennard_jones_isotensional_asymptotic_reduced.nondimensional_relative_gibbs_free_energy_per_link r x temperature) nondimensional_force
       (P_lennard_jones_isotensional_asymptotic_reduced.nondimensional_relative_gibbs_free_energy_per_link p nondimensional_force temperature)).
Proof.
  intros T Sc number_of_links link_length hinge_mass link_stiffness p r.
  assert (P_lennard_jones_isotensional_asymptotic_reduced.hinge_mass p = O_lennard_jones_isotensional_asymptotic_reduced.hinge_mass r) by reflexivity.
  assert (P_lennard_jones_isotensional_asymptotic_reduced.link_length p = O_lennard_jones_isotensional_asymptotic_reduced.link_length r) by reflexivity.
  assert (P_lennard_jones_isotensional_asymptotic_reduced.number_of_links p = O_lennard_jones_isotensional_asymptotic_reduced.number_of_links r) by reflexivity.
  assert (P_lennard_jones_isotensional_asymptotic_reduced.link_stiffness p = O_lennard_jones_isotensional_asymptotic_reduced.link_stiffness r) by reflexivity.
  clearbody p r.
  unfold P_lennard_jones_isotensional_asymptotic_reduced.end_to_end_length,
    P_lennard_jones_isotensional_asymptotic_reduced.end_to_end_length_per_link,
    P_lennard_jones_isotensional_asymptotic_reduced.nondimensional_end_to_end_length,
    P_lennard_jones_isotensional_asymptotic_reduced.nondimensional_end_to_end_length_per_link,
    P_lennard_jones_isotensional_asymptotic_reduced.gibbs_free_energy,
    P_lennard_jones_isotensional_asymptotic_reduced.gibbs_free_energy_per_link,
    P_lennard_jones_isotensional_asymptotic_reduced.relative_gibbs_free_energy,
    P_lennard_jones_isotensional_asymptotic_reduced.relative_gibbs_free_energy_per_link,
    P_lennard_jones_isotensional_asymptotic_reduced.nondimensional_gibbs_free_energy,
    P_lennard_jones_isotensional_asymptotic_reduced.nondimensional_gibbs_free_energy_per_link,
    P_lennard_jones_isotensional_asymptotic_reduced.nondimensional_relative_gibbs_free_energy,
    P_lennard_jones_isotensional_asymptotic_reduced.nondimensional_relative_gibbs_free_energy_per_link,
    O_lennard_jones_isotensional_asymptotic_reduced.end_to_end_length,
    O_lennard_jones_isotensional_asymptotic_reduced.end_to_end_length_per_link,
    O_lennard_jones_isotensional_asymptotic_reduced.nondimensional_end_to_end_length,
    O_lennard_jones_isotensional_asymptotic_reduced.nondimensional_end_to_end_length_per_link,
    O_lennard_jones_isotensional_asymptotic_reduced.gibbs_free_energy,
    O_lennard_jones_isotensional_asymptotic_reduced.gibbs_free_energy_per_link,
    O_lennard_jones_isotensional_asymptotic_reduced.relative_gibbs_free_energy,
    O_lennard_jones_isotensional_asymptotic_reduced.relative_gibbs_free_energy_per_link,
    O_lennard_jones_isotensional_asymptotic_reduced.nondimensional_gibbs_free_energy,
    O_lennard_jones_isotensional_asymptotic_reduced.nondimensional_gibbs_free_energy_per_link,
    O_lennard_jones_isotensional_asymptotic_reduced.nondimensional_relative_gibbs_free_energy,
    O_lennard_jones_isotensional_asymptotic_reduced.nondimensional_relative_gibbs_free_energy_per_link.
  elementwise_tac.
Qed.
Print Assumptions C58_lennard_jones_isotensional_asymptotic_reduced.

Theorem C58_lennard_jones_isotensional_asymptotic_reduced_legendre : forall (T : Type) (Sc : Scalar T) (number_of_links : Z) (link_length : T) (hinge_mass : T) (link_stiffness : T),
  let p := P_lennard_jones_isotensional_asymptotic_reduced.legendre (P_lennard_jones_isotensional_asymptotic.reduced (P_lennard_jones_isotensional.asymptotic (P_lennard_jones_thermodynamics.isotensional (P_lennard_jones.thermodynamics (P_lennard_jones.init number_of_links link_length hinge_mass link_stiffness))))) in
  let r := O_lennard_jones_isotensional_asymptotic_reduced.legendre (O_lennard_jones_isotensional_asymptotic.reduced (O_lennard_jones_isotensional.asymptotic (O_lennard_jones_thermodynamics.isotensional (O_lennard_jones.thermodynamics (O_lennard_jones.init number_of_links link_length hinge_mass link_stiffness))))) in
  P_lennard_jones_isotensional_asymptotic_reduced_legendre.hinge_mass p = O_lennard_jones_isotensional_asymptotic_reduced_legendre.hinge_mass r
  /\ P_lennard_jones_isotensional_asymptotic_reduced_legendre.link_length p = O_lennard_jones_isotensional_asymptotic_reduced_legendre.link_length r
  /\ P_lennard_jones_isotensional_asymptotic_reduced_legendre.number_of_links p = O_lennard_jones_isotensional_asymptotic_reduced_legendre.number_of_links r
  /\ P_lennard_jones_isotensional_asymptotic_reduced_legendre.link_stiffness p = O_lennard_jones_isotensional_asymptotic_reduced_legendre.link_stiffness r
  /\ (forall (force : ndarray T) (temperature : T),
     elementwise (fun x => O_lennard_jones_isotensional_asymptotic_reduced_legendre.helmholtz_free_energy r x temperature) force
       (P_lennard_jones_isotensional_asymptotic_reduced_legendre.helmholtz_free_energy p force temperature))
  /\ (forall (force : ndarray T) (temperature : T),
     elementwise (fun x => O_lennard_jones_isotensional_asymptotic_reduced_legendre.helmholtz_free_energy_per_link r x temperature) force
       (P_lennard_jones_isotensional_asymptotic_reduced_legendre.helmholtz_free_energy_per_link p force temperature))
  /\ (forall (force : ndarray T) (temperature : T),
     elementwise (fun x => O_lennard_jones_isotensional_asymptotic_reduced_legendre.relative_helmholtz_free_energy r x temperature) force
       (P_lennard_jones_isotensional_asymptotic_reduced_legendre.relative_helmholtz_free_energy p force temperature))
  /\ (forall (force : ndarray T) (temperature : T),
     elementwise (fun x => O_lennard_jones_isotensional_asymptotic_reduced_legendre.relative_helmholtz_free_energy_per_link r x temperature) force
       (P_lennard_jones_isotensional_asymptotic_reduced_legendre.relative_helmholtz_free_energy_per_link p force temperature))
  /\ (forall (nondimensional_force : ndarray T) (temperature : T),
     elementwise (fun x => O_lennard_jones_isotensional_asymptotic_reduced_legendre.nondimensional_helmholtz_free_energy r x temperature) nondimensional_force
       (P_lennard_jones_isotensional_asymptotic_reduced_legendre.nondimensional_helmholtz_free_energy p nondimensional_force temperature))
  /\ (forall (nondimensional_force : ndarray T) (temperature : T),
     elementwise (fun x => O_lennard_jones_isotensional_asymptotic_reduced_legendre.nondimensional_helmholtz_free_energy_per_link r x temperature) nondimensional_force
       (P_lennard_jones_isotensional_asymptotic_reduced_legendre.nondimensional_helmholtz_free_energy_per_link p nondimensional_force temperature))
  /\ (forall (nondimensional_force : ndarray T) (temperature : T),
     elementwise (fun x => O_lennard_jones_isotensional_asymptotic_reduced_legendre.nondimensional_relative_helmholtz_free_energy r x temperature) nondimensional_force
       (P_lennard_jones_isotensional_asymptotic_reduced_legendre.nondimensional_relative_helmholtz_free_energy p nondimensional_force temperature))
  /\ (forall (nondimensional_force : ndarray T) (temperature : T),
     elementwise (fun x => O_lennard_jones_isotensional_asymptotic_reduced_legendre.nondimensional_relative_helmholtz_free_energy_per_link r x temperature) nondimensional_force
       (P_lennard_jones_isotensional_asymptotic_reduced_legendre.nondimensional_relative_helmholtz_free_energy_per_link p nondimensional_force temperature)).
Proof.
  intros T Sc number_of_links link_length hinge_mass link_stiffness p r.
  assert (P_lennard_jones_isotensional_asymptotic_reduced_legendre.hinge_mass p = O_lennard_jones_isotensional_asymptotic_reduced_legendre.hinge_mass r) by reflexivity.
  assert (P_lennard_jones_isotensional_asymptotic_reduced_legendre.link_length p = O_lennard_jones_isotensional_asymptotic_reduced_legendre.link_length r) by reflexivity.
  assert (P_lennard_jones_isotensional_asymptotic_reduced_legendre.number_of_links p = O_lennard_jones_isotensional_asymptotic_reduced_legendre.number_of_links r) by reflexivity.
  assert (P_lennard_jones_isotensional_asymptotic_reduced_legendre.link_stiffness p = O_lennard_jones_isotensional_asymptotic_reduced_legendre.link_stiffness r) by reflexivity.
  clearbody p r.
  unfold P_lennard_jones_isotensional_asymptotic_reduced_legendre.helmholtz_free_energy,
    P_lennard_jones_isotensional_asymptotic_reduced_legendre.helmholtz_free_energy_per_link,
    P_lennard_jones_isotensional_asymptotic_reduced_legendre.relative_helmholtz_free_energy,
    P_lennard_jones_isotensional_asymptotic_reduced_legendre.relative_helmholtz_free_energy_per_link,
    P_lennard_jones_isotensional_asymptotic_reduced_legendre.nondimensional_helmholtz_free_energy,
    P_lennard_jones_isotensional_asymptotic_reduced_legendre.nondimensional_helmholtz_free_energy_per_link,
    P_lennard_jones_isotensional_asymptotic_reduced_legendre.nondimensional_relative_helmholtz_free_energy,
    P_lennard_jones_isotensional_asymptotic_reduced_legendre.nondimensional_relative_helmholtz_free_energy_per_link,
    O_lennard_jones_isotensional_asymptotic_reduced_legendre.helmholtz_free_energy,
    O_lennard_jones_isotensional_asymptotic_reduced_legendre.helmholtz_free_energy_per_link,
    O_lennard_jones_isotensional_asymptotic_reduced_legendre.relative_helmholtz_free_energy,
    O_lennard_jones_isotensional_asymptotic_reduced_legendre.relative_helmholtz_free_energy_per_link,
    O_lennard_jones_isotensional_asymptotic_reduced_legendre.nondimensional_helmholtz_free_energy,
    O_lennard_jones_isotensional_asymptotic_reduced_legendre.nondimensional_helmholtz_free_energy_per_link,
    O_lennard_jones_isotensional_asymptotic_reduced_legendre.nondimensional_relative_helmholtz_free_energy,
    O_lennard_jones_isotensional_asymptotic_reduced_legendre.nondimensional_relative_helmholtz_free_energy_per_link.
  elementwise_tac.
Qed.
Print Assumptions C58_lennard_jones_isotensional_asymptotic_reduced_legendre.

Theorem C58_lennard_jones_isotensional_asymptotic_legendre : forall (T : Type) (Sc : Scalar T) (number_of_links : Z) (link_length : T) (hinge_mass : T) (link_stiffness : T),
  let p := P_lennard_jones_isotensional_asymptotic.legendre (P_lennard_jones_isotensional.asymptotic (P_lennard_jones_thermodynamics.isotensional (P_lennard_jones.thermodynamics (P_lennard_jones.init number_of_links link_length hinge_mass link_stiffness)))) in
  let r := O_lennard_jones_isotensional_asymptotic.legendre (O_lennard_jones_isotensional.asymptotic (O_lennard_jones_thermodynamics.isotensional (O_lennard_jones.thermodynamics (O_lennard_jones.init number_of_links link_length hinge_mass link_stiffness)))) in
  P_lennard_jones_isotensional_asymptotic_legendre.hinge_mass p = O_lennard_jones_isotensional_asymptotic_legendre.hinge_mass r
  /\ P_lennard_jones_isotensional_asymptotic_legendre.link_length p = O_lennard_jones_isotensional_asymptotic_legendre.link_length r
  /\ P_lennard_jones_isotensional_asymptotic_legendre.number_of_links p = O_lennard_jones_isotensional_asymptotic_legendre.number_of_links r
  /\ P_lennard_jones_isotensional_asymptotic_legendre.link_stiffness p = O_lennard_jones_isotensional_asymptotic_legendre.link_stiffness r
  /\ (forall (force : ndarray T) (temperature : T),
     elementwise (fun x => O_lennard_jones_isotensional_asymptotic_legendre.helmholtz_free_energy r x temperature) force
       (P_lennard_jones_isotensional_asymptotic_legendre.helmholtz_free_energy p force temperature))
  /\ (forall (force : ndarray T) (temperature : T),
     elementwise (fun x => O_lennard_jones_isotensional_asymptotic_legendre.helmholtz_free_energy_per_link r x temperature) force
       (P_lennard_jones_isotensional_asymptotic_legendre.helmholtz_free_energy_per_link p force temperature))
  /\ (forall (force : ndarray T) (temperature : T),
     elementwise (fun x => O_lennard_jones_isotensional_asymptotic_legendre.relative_helmholtz_free_energy r x temperature) force
       (P_lennard_jones_isotensional_asymptotic_legendre.relative_helmholtz_free_energy p force temperature))
  /\ (forall (force : ndarray T) (temperature : T),
     elementwise (fun x => O_lennard_jones_isotensional_asymptotic_legendre.relative_helmholtz_free_energy_per_link r x temperature) force
       (P_lennard_jones_isotensional_asymptotic_legendre.relative_helmholtz_free_energy_per_link p force temperature))
  /\ (forall (nondimensional_force : ndarray T) (temperature : T),
     elementwise (fun x => O_lennard_jones_isotensional_asymptotic_legendre.nondimensional_helmholtz_free_energy r x temperature) nondimensional_force
       (P_lennard_jones_isotensional_asymptotic_legendre.nondimensional_helmholtz_free_energy p nondimensional_force temperature))
  /\ (forall (nondimensional_force : ndarray T) (temperature : T),
     elementwise (fun x => O_lennard_jones_isotensional_asymptotic_legendre.nondimensional_helmholtz_free_energy_per_link r x temperature) nondimensional_force
       (P_lennard_jones_isotensional_asymptotic_legendre.nondimensional_helmholtz_free_energy_per_link p nondimensional_force temperature))
  /\ (forall (nondimensional_force : ndarray T) (temperature : T),
     elementwise (fun x => O_lennard_jones_isotensional_asymptotic_legendre.nondimensional_relative_helmholtz_free_energy r x temperature) nondimensional_force
       (P_lennard_jones_isotensional_asymptotic_legendre.nondimensional_relative_helmholtz_free_energy p nondimensional_force temperature))
  /\ (forall (nondimensional_force : ndarray T) (temperature : T),
     elementwise (fun x => O_lennard_jones_isotensional_asymptotic_legendre.nondimensional_relative_helmholtz_free_energy_per_link r x temperature) nondimensional_force
       (P_lennard_jones_isotensional_asymptotic_legendre.nondimensional_relative_helmholtz_free_energy_per_link p nondimensional_force temperature)).
Proof.
  intros T Sc number_of_links link_length hinge_mass link_stiffness p r.
  assert (P_lennard_jones_isotensional_asymptotic_legendre.hinge_mass p = O_lennard_jones_isotensional_asymptotic_legendre.hinge_mass r) by reflexivity.
  assert (P_lennard_jones_isotensional_asymptotic_legendre.link_length p = O_lennard_jones_isotensional_asymptotic_legendre.link_length r) by reflexivity.
  assert (P_lennard_jones_isotensional_asymptotic_legendre.number_of_links p = O_lennard_jones_isotensional_asymptotic_legendre.number_of_links r) by reflexivity.
  assert (P_lennard_jones_isotensional_asymptotic_legendre.link_stiffness p = O_lennard_jones_isotensional_asymptotic_legendre.link_stiffness r) by reflexivity.
  clearbody p r.
  unfold P_lennard_jones_isotensional_asymptotic_legendre.helmholtz_free_energy,
    P_lennard_jones_isotensional_asymptotic_legendre.helmholtz_free_energy_per_link,
    P_lennard_jones_isotensional_asymptotic_legendre.relative_helmholtz_free_energy,
    P_lennard_jones_isotensional_asymptotic_legendre.relative_helmholtz_free_energy_per_link,
    P_lennard_jones_isotensional_asymptotic_legendre.nondimensional_helmholtz_free_energy,
    P_lennard_jones_isotensional_asymptotic_legendre.nondimensional_helmholtz_free_energy_per_link,
    P_lennard_jones_isotensional_asymptotic_legendre.nondimensional_relative_helmholtz_free_energy,
    P_lennard_jones_isotensional_asymptotic_legendre.nondimensional_relative_helmholtz_free_energy_per_link,
    O_lennard_jones_isotensional_asymptotic_legendre.helmholtz_free_energy,
    O_lennard_jones_isotensional_asymptotic_legendre.helmholtz_free_energy_per_link,
    O_lennard_jones_isotensional_asymptotic_legendre.relative_helmholtz_free_energy,
    O_lennard_jones_isotensional_asymptotic_legendre.relative_helmholtz_free_energy_per_link,
    O_lennard_jones_isotensional_asymptotic_legendre.nondimensional_helmholtz_free_energy,
    O_lennard_jones_isotensional_asymptotic_legendre.nondimensional_helmholtz_free_energy_per_link,
    O_lennard_jones_isotensional_asymptotic_legendre.nondimensional_relative_helmholtz_free_energy,
    O_lennard_jones_isotensional_asymptotic_legendre.nondimensional_relative_helmholtz_free_energy_per_link.
  elementwise_tac.
Qed.
Print Assumptions C58_lennard_jones_isotensional_asymptotic_legendre.

Theorem C58_lennard_jones_isotensional_legendre : forall (T : Type) (Sc : Scalar T) (number_of_links : Z) (link_length : T) (hinge_mass : T) (link_stiffness : T),
  let p := P_lennard_jones_isotensional.legendre (P_lennard_jones_thermodynamics.isotensional (P_lennard_jones.thermodynamics (P_lennard_jones.init number_of_links link_length hinge_mass link_stiffness))) in
  let r := O_lennard_jones_isotensional.legendre (O_lennard_jones_thermodynamics.isotensional (O_lennard_jones.thermodynamics (O_lennard_jones.init number_of_links link_length hinge_mass link_stiffness))) in
  P_lennard_jones_isotensional_legendre.hinge_mass p = O_lennard_jones_isotensional_legendre.hinge_mass r
  /\ P_lennard_jones_isotensional_legendre.link_length p = O_lennard_jones_isotensional_legendre.link_length r
  /\ P_lennard_jones_isotensional_legendre.number_of_links p = O_lennard_jones_isotensional_legendre.number_of_links r
  /\ P_lennard_jones_isotensional_legendre.link_stiffness p = O_lennard_jones_isotensional_legendre.link_stiffness r
  /\ (forall (force : ndarray T) (temperature : T),
     elementwise (fun x => O_lennard_jones_isotensional_legendre.helmholtz_free_energy r x temperature) force
       (P_lennard_jones_isotensional_legendre.helmholtz_free_energy p force temperature))
  /\ (forall (force : ndarray T) (temperature : T),
     elementwise (fun x => O_lennard_jones_isotensional_legendre.helmholtz_free_energy_per_link r x temperature) force
       (P_lennard_jones_isotensional_legendre.helmholtz_free_energy_per_link p force temperature))
  /\ (forall (force : ndarray T) (temperature : T),
     elementwise (fun x => O_lennard_jones_isotensional_legendre.relative_helmholtz_free_energy r x temperature) force
       (P_lennard_jones_isotensional_legendre.relative_helmholtz_free_energy p force temperature))
  /\ (forall (force : ndarray T) (temperature : T),
     elementwise (fun x => O_lennard_jones_isotensional_legendre.relative_helmholtz_free_energy_per_link r x temperature) force
       (P_lennard_jones_isotensional_legendre.relative_helmholtz_free_energy_per_link p force temperature))
  /\ (forall (nondimensional_force : ndarray T) (temperature : T),
     elementwise (fun x => O_lennard_jones_isotensional_legendre.nondimensional_helmholtz_free_energy r x temperature) nondimensional_force
       (P_lennard_jones_isotensional_legendre.nondimensional_helmholtz_free_energy p nondimensional_force temperature))
  /\ (forall (nondimensional_force : ndarray T) (temperature : T),
     elementwise (fun x => O_lennard_jones_isotensional_legendre.nondimensional_helmholtz_free_energy_per_link r x temperature) nondimensional_force
       (P_lennard_jones_isotensional_legendre.nondimensional_helmholtz_free_energy_per_link p nondimensional_force temperature))
  /\ (forall (nondimensional_force : ndarray T) (temperature : T),
     elementwise (fun x => O_lennard_jones_isotensional_legendre.nondimensional_relative_helmholtz_free_energy r x temperature) nondimensional_force
       (P_lennard_jones_isotensional_legendre.nondimensional_relative_helmholtz_free_energy p nondimensional_force temperature))
  /\ (forall (nondimensional_force : ndarray T) (temperature : T),
     elementwise (fun x => O_lennard_jones_isotensional_legendre.nondimensional_relative_helmholtz_free_energy_per_link r x temperature) nondimensional_force
       (P_lennard_jones_isotensional_legendre.nondimensional_relative_helmholtz_free_energy_per_link p nondimensional_force temperature)).
Proof.
  intros T Sc number_of_links link_length hinge_mass link_stiffness p r.
  assert (P_lennard_jones_isotensional_legendre.hinge_mass p = O_lennard_jones_isotensional_legendre.hinge_mass r) by reflexivity.
  assert (P_lennard_jones_isotensional_legendre.link_length p = O_lennard_jones_isotensional_legendre.link_length r) by reflexivity.
  assert (P_lennard_jones_isotensional_legendre.number_of_links p = O_lennard_jones_isotensional_legendre.number_of_links r) by reflexivity.
  assert (P_lennard_jones_isotensional_legendre.link_stiffness p = O_lennard_jones_isotensional_legendre.link_stiffness r) by reflexivity.
  clearbody p r.
  unfold P_lennard_jones_isotensional_legendre.helmholtz_free_energy,
    P_lennard_jones_isotensional_legendre.helmholtz_free_energy_per_link,
    P_lennard_jones_isotensional_legendre.relative_helmholtz_free_energy,
    P_lennard_jones_isotensional_legendre.relative_helmholtz_free_energy_per_link,
    P_lennard_jones_isotensional_legendre.nondimensional_helmholtz_free_energy,
    P_lennard_jones_isotensional_legendre.nondimensional_helmholtz_free_energy_per_link,
    P_lennard_jones_isotensional_legendre.nondimensional_relative_helmholtz_free_energy,
    P_lennard_jones_isotensional_legendre.nondimensional_relative_helmholtz_free_energy_per_link,
    O_lennard_jones_isotensional_legendre.helmholtz_free_energy,
    O_lennard_jones_isotensional_legendre.helmholtz_free_energy_per_link,
    O_lennard_jones_isotensional_legendre.relative_helmholtz_free_energy,
    O_lennard_jones_isotensional_legendre.relative_helmholtz_free_energy_per_link,
    O_lennard_jones_isotensional_legendre.nondimensional_helmholtz_free_energy,
    O_lennard_jones_isotensional_legendre.nondimensional_helmholtz_free_energy_per_link,
    O_lennard_jones_isotensional_legendre.nondimensional_relative_helmholtz_free_energy,
    O_lennard_jones_isotensional_legendre.nondimensional_relative_helmholtz_free_energy_per_link.
  elementwise_tac.
Qed.
Print Assumptions C58_lennard_jones_isotensional_legendre.

Theorem C58_log_squared : forall (T : Type) (Sc : Scalar T) (number_of_links : Z) (link_length : T) (hinge_mass : T) (link_stiffness : T),
  let p := P_log_squared.init number_of_links link_length hinge_mass link_stiffness in
  let r := O_log_squared.init number_of_links link_length hinge_mass link_stiffness in
  P_log_squared.hinge_mass p = O_log_squared.hinge_mass r
  /\ P_log_squared.link_length p = O_log_squared.link_length r
  /\ P_log_squared.number_of_links p = O_log_squared.number_of_links r
  /\ P_log_squared.link_stiffness p = O_log_squared.link_stiffness r.
Proof.
  intros T Sc number_of_links link_length hinge_mass link_stiffness p r.
  assert (P_log_squared.hinge_mass p = O_log_squared.hinge_mass r) by reflexivity.
  assert (P_log_squared.link_length p = O_log_squared.link_length r) by reflexivity.
  assert (P_log_squared.number_of_links p = O_log_squared.number_of_links r) by reflexivity.
  assert (P_log_squared.link_stiffness p = O_log_squared.link_stiffness r) by reflexivity.
  clearbody p r.
  elementwise_tac.
Qed.
Print Assumptions C58_log_squared.

Theorem C58_log_squared_thermodynamics : forall (T : Type) (Sc : Scalar T) (number_of_links : Z) (link_length : T) (hinge_mass : T) (link_stiffness : T),
  let p := P_log_squared.thermodynamics (P_log_squared.init number_of_links link_length hinge_mass link_stiffness) in
  let r := O_log_squared.thermodynamics (O_log_squared.init number_of_links link_length hinge_mass link_stiffness) in
  P_log_squared_thermodynamics.hinge_mass p = O_log_squared_thermodynamics.hinge_mass r
  /\ P_log_squared_thermodynamics.link_length p = O_log_squared_thermodynamics.link_length r
  /\ P_log_squared_thermodynamics.number_of_links p = O_log_squared_thermodynamics.number_of_links r
  /\ P_log_squared_thermodynamics.link_stiffness p = O_log_squared_thermodynamics.link_stiffness r.
Proof.
  intros T Sc number_of_links link_length hinge_mass link_stiffness p r.
  assert (P_log_squared_thermodynamics.hinge_mass p = O_log_squared_thermodynamics.hinge_mass r) by reflexivity.
  assert (P_log_squared_thermodynamics.link_length p = O_log_squared_thermodynamics.link_length r) by reflexivity.
  assert (P_log_squared_thermodynamics.number_of_links p = O_log_squared_thermodynamics.number_of_links r) by reflexivity.
  assert (P_log_squared_thermodynamics.link_stiffness p = O_log_squared_thermodynamics.link_stiffness r) by reflexivity.
  clearbody p r.
  elementwise_tac.
Qed.
Print Assumptions C58_log_squared_thermodynamics.

Theorem C58_log_squared_isometric : forall (T : Type) (Sc : Scalar T) (number_of_links : Z) (link_length : T) (hinge_mass : T) (link_stiffness : T),
  let p := P_log_squared_thermodynamics.isometric (P_log_squared.thermodynamics (P_log_squared.init number_of_links link_length hinge_mass link_stiffness)) in
  let r := O_log_squared_thermodynamics.isometric (O_log_squared.thermodynamics (O_log_squared.init number_of_links link_length hinge_mass link_stiffness)) in
  P_log_squared_isometric.hinge_mass p = O_log_squared_isometric.hinge_mass r
  /\ P_log_squared_isometric.link_length p = O_log_squared_isometric.link_length r
  /\ P_log_squared_isometric.number_of_links p = O_log_squared_isometric.number_of_links r
  /\ P_log_squared_isometric.link_stiffness p = O_log_squared_isometric.link_stiffness r.
Proof.
  intros T Sc number_of_links link_length hinge_mass link_stiffness p r.
  assert (P_log_squared_isometric.hinge_mass p = O_log_squared_isometric.hinge_mass r) by reflexivity.
  assert (P_log_squared_isometric.link_length p = O_log_squared_isometric.link_length r) by reflexivity.
  assert (P_log_squared_isometric.number_of_links p = O_log_squared_isometric.number_of_links r) by reflexivity.
  assert (P_log_squared_isometric.link_stiffness p = O_log_squared_isometric.link_stiffness r) by reflexivity.
  clearbody p r.
  elementwise_tac.
Qed.
Print Assumptions C58_log_squared_isometric.

Theorem C58_log_squared_isometric_asymptotic : forall (T : Type) (Sc : Scalar T) (number_of_links : Z) (link_length : T) (hinge_mass : T) (link_stiffness : T),
  let p := P_log_squared_isometric.asymptotic (P_log_squared_thermodynamics.isometric (P_log_squared.thermodynamics (P_log_squared.init number_of_links link_length hinge_mass link_stiffness))) in
  let r := O_log_squared_isometric.asymptotic (O_log_squared_thermodynamics.isometric (O_log_squared.thermodynamics (O_log_squared.init number_of_links link_length hinge_mass link_stiffness))) in
  P_log_squared_isometric_asymptotic.hinge_mass p = O_log_squared_isometric_asymptotic.hinge_mass r
  /\ P_log_squared_isometric_asymptotic.link_length p = O_log_squared_isometric_asymptotic.link_length r
  /\ P_log_squared_isometric_asymptotic.number_of_links p = O_log_squared_isometric_asymptotic.number_of_links r
  /\ P_log_squared_isometric_asymptotic.link_stiffness p = O_log_squared_isometric_asymptotic.link_stiffness r.
Proof.
  intros T Sc number_of_links link_length hinge_mass link_stiffness p r.
  assert (P_log_squared_isometric_asymptotic.hinge_mass p = O_log_squared_isometric_asymptotic.hinge_mass r) by reflexivity.
  assert (P_log_squared_isometric_asymptotic.link_length p = O_log_squared_isometric_asymptotic.link_length r) by reflexivity.
  assert (P_log_squared_isometric_asymptotic.number_of_links p = O_log_squared_isometric_asymptotic.number_of_links r) by reflexivity.
  assert (P_log_squared_isometric_asymptotic.link_stiffness p = O_log_squared_isometric_asymptotic.link_stiffness r) by reflexivity.
  clearbody p r.
  elementwise_tac.
Qed.
Print Assumptions C58_log_squared_isometric_asymptotic.

Theorem C58_log_squared_isometric_asymptotic_reduced : forall (T : Type) (Sc : Scalar T) (number_of_links : Z) (link_length : T) (hinge_mass : T) (link_stiffness : T),
  let p := P_log_squared_isometric_asymptotic.reduced (P_log_squared_isometric.asymptotic (P_log_squared_thermodynamics.isometric (P_log_squared.thermodynamics (P_log_squared.init number_of_links link_length hinge_mass link_stiffness)))) in
  let r := O_log_squared_isometric_asymptotic.reduced (O_log_squared_isometric.asymptotic (O_log_squared_thermodynamics.isometric (O_log_squared.thermodynamics (O_log_squared.init number_of_links link_length hinge_mass link_stiffness)))) in
  P_log_squared_isometric_asymptotic_reduced.hinge_mass p = O_log_squared_isometric_asymptotic_reduced.hinge_mass r
  /\ P_log_squared_isometric_asymptotic_reduced.link_length p = O_log_squared_isometric_asymptotic_reduced.link_length r
  /\ P_log_squared_isometric_asymptotic_reduced.number_of_links p = O_log_squared_isometric_asymptotic_reduced.number_of_links r
  /\ P_log_squared_isometric_asymptotic_reduced.link_stiffness p = O_log_squared_isometric_asymptotic_reduced.link_stiffness r.
Proof.
  intros T Sc number_of_links link_length hinge_mass link_stiffness p r.
  assert (P_log_squared_isometric_asymptotic_reduced.hinge_mass p = O_log_squared_isometric_asymptotic_reduced.hinge_mass r) by reflexivity.
  assert (P_log_squared_isometric_asymptotic_reduced.link_length p = O_log_squared_isometric_asymptotic_reduced.link_length r) by reflexivity.
  assert (P_log_squared_isometric_asymptotic_reduced.number_of_links p = O_log_squared_isometric_asymptotic_reduced.number_of_links r) by reflexivity.
  assert (P_log_squared_isometric_asymptotic_reduced.link_stiffness p = O_log_squared_isometric_asymptotic_reduced.link_stiffness r) by reflexivity.
  clearbody p r.
  elementwise_tac.
Qed.
Print Assumptions C58_log_squared_isometric_asymptotic_reduced.

Theorem C58_log_squared_isometric_asymptotic_reduced_legendre : forall (T : Type) (Sc : Scalar T) (number_of_links : Z) (link_length : T) (hinge_mass : T) (link_stiffness : T),
  let p := P_log_squared_isometric_asymptotic_reduced.legendre (P_log_squared_isometric_asymptotic.reduced (P_log_squared_isometric.asymptotic (P_log_squared_thermodynamics.isometric (P_log_squared.thermodynamics (P_log_squared.init number_of_links link_length hinge_mass link_stiffness))))) in
  let r := O_log_squared_isometric_asymptotic_reduced.legendre (O_log_squared_isometric_asymptotic.reduced (O_log_squared_isometric.asymptotic (O_log_squared_thermodynamics.isometric (O_log_squared.thermodynamics (O_log_squared.init number_of_links link_length hinge_mass link_stiffness))))) in
  P_log_squared_isometric_asymptotic_reduced_legendre.hinge_mass p = O_log_squared_isometric_asymptotic_reduced_legendre.hinge_mass r
  /\ P_log_squared_isometric_asymptotic_reduced_legendre.link_length p = O_log_squared_isometric_asymptotic_reduced_legendre.link_length r
  /\ P_log_squared_isometric_asymptotic_reduced_legendre.number_of_links p = O_log_squared_isometric_asymptotic_reduced_legendre.number_of_links r
  /\ P_log_squared_isometric_asymptotic_reduced_legendre.link_stiffness p = O_log_squared_isometric_asymptotic_reduced_legendre.link_stiffness r
  /\ (forall (end_to_end_length : ndarray T) (temperature : T),
     elementwise (fun x => O_log_squared_isometric_asymptotic_reduced_legendre.force r x temperature) end_to_end_length
       (P_log_squared_isometric_asymptotic_reduced_legendre.force p end_to_end_length temperature))
  /\ (forall (nondimensional_end_to_end_length_per_link : ndarray T) (temperature : T),
     elementwise (fun x => O_log_squared_isometric_asymptotic_reduced_legendre.nondimensional_force r x temperature) nondimensional_end_to_end_length_per_link
       (P_log_squared_isometric_asymptotic_reduced_legendre.nondimensional_force p nondimensional_end_to_end_length_per_link temperature))
  /\ (forall (end_to_end_length : ndarray T) (temperature : T),
     elementwise (fun x => O_log_squared_isometric_asymptotic_reduced_legendre.helmholtz_free_energy r x temperature) end_to_end_length
       (P_log_squared_isometric_asymptotic_reduced_legendre.helmholtz_free_energy p end_to_end_length temperature))
  /\ (forall (end_to_end_length : ndarray T) (temperature : T),
     elementwise (fun x => O_log_squared_isometric_asymptotic_reduced_legendre.helmholtz_free_energy_per_link r x temperature) end_to_end_length
       (P_log_squared_isometric_asymptotic_reduced_legendre.helmholtz_free_energy_per_link p end_to_end_length temperature))
  /\ (forall (end_to_end_length : ndarray T) (temperature : T),
     elementwise (fun x => O_log_squared_isometric_asymptotic_reduced_legendre.relative_helmholtz_free_energy r x temperature) end_to_end_length
       (P_log_squared_isometric_asymptotic_reduced_legendre.relative_helmholtz_free_energy p end_to_end_length temperature))
  /\ (forall (end_to_end_length : ndarray T) (temperature : T),
     elementwise (fun x => O_log_squared_isometric_asymptotic_reduced_legendre.relative_helmholtz_free_energy_per_link r x temperature) end_to_end_length
       (P_log_squared_isometric_asymptotic_reduced_legendre.relative_helmholtz_free_energy_per_link p end_to_end_length temperature))
  /\ (forall (nondimensional_end_to_end_length_per_link : ndarray T) (temperature : T),
     elementwise (fun x => O_log_squared_isometric_asymptotic_reduced_legendre.nondimensional_helmholtz_free_energy r x temperature) nondimensional_end_to_end_length_per_link
       (P_log_squared_isometric_asymptotic_reduced_legendre.nondimensional_helmholtz_free_energy p nondimensional_end_to_end_length_per_link temperature))
  /\ (forall (nondimensional_end_to_end_length_per_link : ndarray T) (temperature : T),
     elementwise (fun x => O_log_squared_isometric_asymptotic_reduced_legendre.nondimensional_helmholtz_free_energy_per_link r x temperature) nondimensional_end_to_end_length_per_link
       (P_log_squared_isometric_asymptotic_reduced_legendre.nondimensional_helmholtz_free_energy_per_link p nondimensional_end_to_end_length_per_link temperature))
  /\ (forall (nondimensional_end_to_end_length_per_link : ndarray T) (temperature : T),
     elementwise (fun x => O_log_squared_isometric_asymptotic_reduced_legendre.nondimensional_relative_helmholtz_free_energy r x temperature) nondimensional_end_to_end_length_per_link
       (P_log_squared_isometric_asymptotic_reduced_legendre.nondimensional_relative_helmholtz_free_energy p nondimensional_end_to_end_length_per_link temperature))
  /\ (forall (nondimensional_end_to_end_length_per_link : ndarray T) (temperature : T),
     elementwise (fun x => O_log_squared_isometric_asymptotic_reduced_legendre.nondimensional_relative_helmholtz_free_energy_per_link r x temperature) nondimensional_end_to_end_length_per_link
       (P_log_squared_isometric_asymptotic_reduced_legendre.nondimensional_relative_helmholtz_free_energy_per_link p nondimensional_end_to_end_length_per_link temperature)).
Proof.
  intros T Sc number_of_links link_length hinge_mass link_stiffness p r.
  assert (P_log_squared_isometric_asymptotic_reduced_legendre.hinge_mass p = O_log_squared_isometric_asymptotic_reduced_legendre.hinge_mass r) by reflexivity.
  assert (P_log_squared_isometric_asymptotic_reduced_legendre.link_length p = O_log_squared_isometric_asymptotic_reduced_legendre.link_length r) by reflexivity.
  assert (P_log_squared_isometric_asymptotic_reduced_legendre.number_of_links p = O_log_squared_isometric_asymptotic_reduced_legendre.number_of_links r) by reflexivity.
  assert (P_log_squared_isometric_asymptotic_reduced_legendre.link_stiffness p = O_log_squared_isometric_asymptotic_reduced_legendre.link_stiffness r) by reflexivity.
  clearbody p r.
  unfold P_log_squared_isometric_asymptotic_reduced_legendre.force,
    P_log_squared_isometric_asymptotic_reduced_legendre.nondimensional_force,
    P_log_squared_isometric_asymptotic_reduced_legendre.helmholtz_free_energy,
    P_log_squared_isometric_asymptotic_reduced_legendre.helmholtz_free_energy_per_link,
    P_log_squared_isometric_asymptotic_reduced_legendre.relative_helmholtz_free_energy,
    P_log_squared_isometric_asymptotic_reduced_legendre.relative_helmholtz_free_energy_per_link,
    P_log_squared_isometric_asymptotic_reduced_legendre.nondimensional_helmholtz_free_energy,
    P_log_squared_isometric_asymptotic_reduced_legendre.nondimensional_helmholtz_free_energy_per_link,
    P_log_squared_isometric_asymptotic_reduced_legendre.nondimensional_relative_helmholtz_free_energy,
    P_log_squared_isometric_asymptotic_reduced_legendre.nondimensional_relative_helmholtz_free_energy_per_link,
    O_log_squared_isometric_asymptotic_reduced_legendre.force,
    O_log_squared_isometric_asymptotic_reduced_legendre.nondimensional_force,
    O_log_squared_isometric_asymptotic_reduced_legendre.helmholtz_free_energy,
    O_log_squared_isometric_asymptotic_reduced_legendre.helmholtz_free_energy_per_link,
    O_log_squared_isometric_asymptotic_reduced_legendre.relative_helmholtz_free_energy,
    O_log_squared_isometric_asymptotic_reduced_legendre.relative_helmholtz_free_energy_per_link,
    O_log_squared_isometric_asymptotic_reduced_legendre.nondimensional_helmholtz_free_energy,
    O_log_squared_isometric_asymptotic_reduced_legendre.nondimensional_helmholtz_free_energy_per_link,
    O_log_squared_isometric_asymptotic_reduced_legendre.nondimensional_relative_helmholtz_free_energy,
    O_log_squared_isometric_asymptotic_reduced_legendre.nondimensional_relative_helmholtz_free_energy_per_link.
  elementwise_tac.
Qed.
Print Assumptions C58_log_squared_isometric_asymptotic_reduced_legendre.

Theorem C58_log_squared_isometric_asymptotic_legendre : forall (T : Type) (Sc : Scalar T) (number_of_links : Z) (link_length : T) (hinge_mass : T) (link_stiffness : T),
  let p := P_log_squared_isometric_asymptotic.legendre (P_log_squared_isometric.asymptotic (P_log_squared_thermodynamics.isometric (P_log_squared.thermodynamics (P_log_squared.init number_of_links link_length hinge_mass link_stiffness)))) in
  let r := O_log_squared_isometric_asymptotic.legendre (O_log_squared_isometric.asymptotic (O_log_squared_thermodynamics.isometric (O_log_squared.thermodynamics (O_log_squared.init number_of_links link_length hinge_mass link_stiffness)))) in
  P_log_squared_isometric_asymptotic_legendre.hinge_mass p = O_log_squared_isometric_asymptotic_legendre.hinge_mass r
  /\ P_log_squared_isometric_asymptotic_legendre.link_length p = O_log_squared_isometric_asymptotic_legendre.link_length r
  /\ P_log_squared_isometric_asymptotic_legendre.number_of_links p = O_log_squared_isometric_asymptotic_legendre.number_of_links r
  /\ P_log_squared_isometric_asymptotic_legendre.link_stiffness p = O_log_squared_isometric_asymptotic_legendre.link_stiffness r
  /\ (forall (end_to_end_length : ndarray T) (temperature : T),
     elementwise (fun x => O_log_squared_isometric_asymptotic_legendre.force r x temperature) end_to_end_length
       (P_log_squared_isometric_asymptotic_legendre.force p end_to_end_length temperature))
  /\ (forall (nondimensional_end_to_end_length_per_link : ndarray T) (temperature : T),
     elementwise (fun x => O_log_squared_isometric_asymptotic_legendre.nondimensional_force r x temperature) nondimensional_end_to_end_length_per_link
       (P_log_squared_isometric_asymptotic_legendre.nondimensional_force p nondimensional_end_to_end_length_per_link temperature))
  /\ (forall (end_to_end_length : ndarray T) (temperature : T),
     elementwise (fun x => O_log_squared_isometric_asymptotic_legendre.helmholtz_free_energy r x temperature) end_to_end_length
       (P_log_squared_isometric_asymptotic_legendre.helmholtz_free_energy p end_to_end_length temperature))
  /\ (forall (end_to_end_length : ndarray T) (temperature : T),
     elementwise (fun x => O_log_squared_isometric_asymptotic_legendre.helmholtz_free_energy_per_link r x temperature) end_to_end_length
       (P_log_squared_isometric_asymptotic_legendre.helmholtz_free_energy_per_link p end_to_end_length temperature))
  /\ (forall (end_to_end_length : ndarray T) (temperature : T),
     elementwise (fun x => O_log_squared_isometric_asymptotic_legendre.relative_helmholtz_free_energy r x temperature) end_to_end_length
       (P_log_squared_isometric_asymptotic_legendre.relative_helmholtz_free_energy p end_to_end_length temperature))
  /\ (forall (end_to_end_length : ndarray T) (temperature : T),
     elementwise (fun x => O_log_squared_isometric_asymptotic_legendre.relative_helmholtz_free_energy_per_link r x temperature) end_to_end_length
       (P_log_squared_isometric_asymptotic_legendre.relative_helmholtz_free_energy_per_link p end_to_end_length temperature))
  /\ (forall (nondimensional_end_to_end_length_per_link : ndarray T) (temperature : T),
     elementwise (fun x => O_log_squared_isometric_asymptotic_legendre.nondimensional_helmholtz_free_energy r x temperature) nondimensional_end_to_end_length_per_link
       (P_log_squared_isometric_asymptotic_legendre.nondimensional_helmholtz_free_energy p nondimensional_end_to_end_length_per_link temperature))
  /\ (forall (nondimensional_end_to_end_length_per_link : ndarray T) (temperature : T),
     elementwise (fun x => O_log_squared_isometric_asymptotic_legendre.nondimensional_helmholtz_free_energy_per_link r x temperature) nondimensional_end_to_end_length_per_link
       (P_log_squared_isometric_asymptotic_legendre.nondimensional_helmholtz_free_energy_per_link p nondimensional_end_to_end_length_per_link temperature))
  /\ (forall (nondimensional_end_to_end_length_per_link : ndarray T) (temperature : T),
     elementwise (fun x => O_log_squared_isometric_asymptotic_legendre.nondimensional_relative_helmholtz_free_energy r x temperature) nondimensional_end_to_end_length_per_link
       (P_log_squared_isometric_asymptotic_legendre.nondimensional_relative_helmholtz_free_energy p nondimensional_end_to_end_length_per_link temperature))
  /\ (forall (nondimensional_end_to_end_length_per_link : ndarray T) (temperature : T),
     elementwise (fun x => O_log_squared_isometric_asymptotic_legendre.nondimensional_relative_helmholtz_free_energy_per_link r x temperature) nondimensional_end_to_end_length_per_link
       (P_log_squared_isometric_asymptotic_legendre.nondimensional_relative_helmholtz_free_energy_per_link p nondimensional_end_to_end_length_per_link temperature)).
Proof.
  intros T Sc number_of_links link_length hinge_mass link_stiffness p r.
  assert (P_log_squared_isometric_asymptotic_legendre.hinge_mass p = O_log_squared_isometric_asymptotic_legendre.hinge_mass r) by reflexivity.
  assert (P_log_squared_isometric_asymptotic_legendre.link_length p = O_log_squared_isometric_asymptotic_legendre.link_length r) by reflexivity.
  assert (P_log_squared_isometric_asymptotic_legendre.number_of_links p = O_log_squared_isometric_asymptotic_legendre.number_of_links r) by reflexivity.
  assert (P_log_squared_isometric_asymptotic_legendre.link_stiffness p = O_log_squared_isometric_asymptotic_legendre.link_stiffness r) by reflexivity.
  clearbody p r.
  unfold P_log_squared_isometric_asymptotic_legendre.force,
    P_log_squared_isometric_asymptotic_legendre.nondimensional_force,
    P_log_squared_isometric_asymptotic_legendre.helmholtz_free_energy,
    P_log_squared_isometric_asymptotic_legendre.helmholtz_free_energy_per_link,
    P_log_squared_isometric_asymptotic_legendre.relative_helmholtz_free_energy,
    P_log_squared_isometric_asymptotic_legendre.relative_helmholtz_free_energy_per_link,
    P_log_squared_isometric_asymptotic_legendre.nondimensional_helmholtz_free_energy,
    P_log_squared_isometric_asymptotic_legendre.nondimensional_helmholtz_free_energy_per_link,
    P_log_squared_isometric_asymptotic_legendre.nondimensional_relative_helmholtz_free_energy,
    P_log_squared_isometric_asymptotic_legendre.nondimensional_relative_helmholtz_free_energy_per_link,
    O_log_squared_isometric_asymptotic_legendre.force,
    O_log_squared_isometric_asymptotic_legendre.nondimensional_force,
    O_log_squared_isometric_asymptotic_legendre.helmholtz_free_energy,
    O_log_squared_isometric_asymptotic_legendre.helmholtz_free_energy_per_link,
    O_log_squared_isometric_asymptotic_legendre.relative_helmholtz_free_energy,
    O_log_squared_isometric_asymptotic_legendre.relative_helmholtz_free_energy_per_link,
    O_log_squared_isometric_asymptotic_legendre.nondimensional_helmholtz_free_energy,
    O_log_squared_isometric_asymptotic_legendre.nondimensional_helmholtz_free_energy_per_link,
    O_log_squared_isometric_asymptotic_legendre.nondimensional_relative_helmholtz_free_energy,
    O_log_squared_isometric_asymptotic_legendre.nondimensional_relative_helmholtz_free_energy_per_link.
  elementwise_tac.
Qed.
Print Assumptions C58_log_squared_isometric_asymptotic_legendre.

Theorem C58_log_squared_isotensional : forall (T : Type) (Sc : Scalar T) (number_of_links : Z) (link_length : T) (hinge_mass : T) (link_stiffness : T),
  let p := P_log_squared_thermodynamics.isotensional (P_log_squared.thermodynamics (P_log_squared.init number_of_links link_length hinge_mass link_stiffness)) in
  let r := O_log_squared_thermodynamics.isotensional (O_log_squared.thermodynamics (O_log_squared.init number_of_links link_length hinge_mass link_stiffness)) in
  P_log_squared_isotensional.hinge_mass p = O_log_squared_isotensional.hinge_mass r
  /\ P_log_squared_isotensional.link_length p = O_log_squared_isotensional.link_length r
  /\ P_log_squared_isotensional.number_of_links p = O_log_squared_isotensional.number_of_links r
  /\ P_log_squared_isotensional.link_stiffness p = O_log_squared_isotensional.link_stiffness r
  /\ (forall (force : ndarray T) (temperature : T),
     elementwise (fun x => O_log_squared_isotensional.end_to_end_length r x temperature) force
       (P_log_squared_isotensional.end_to_end_length p force temperature))
  /\ (forall (force : ndarray T) (temperature : T),
     elementwise (fun x => O_log_squared_isotensional.end_to_end_length_per_link r x temperature) force
       (P_log_squared_isotensional.end_to_end_length_per_link p force temperature))
  /\ (forall (nondimensional_force : ndarray T) (temperature : T),
     elementwise (fun x => O_log_squared_isotensional.nondimensional_end_to_end_length r x temperature) nondimensional_force
       (P_log_squared_isotensional.nondimensional_end_to_end_length p nondimensional_force temperature))
  /\ (forall (nondimensional_force : ndarray T) (temperature : T),
     elementwise (fun x => O_log_squared_isotensional.nondimensional_end_to_end_length_per_link r x temperature) nondimensional_force
       (P_log_squared_isotensional.nondimensional_end_to_end_length_per_link p nondimensional_force temperature))
  /\ (forall (force : ndarray T) (temperature : T),
     elementwise (fun x => O_log_squared_isotensional.gibbs_free_energy r x temperature) force
       (P_log_squared_isotensional.gibbs_free_energy p force temperature))
  /\ (forall (force : ndarray T) (temperature : T),
     elementwise (fun x => O_log_squared_isotensional.gibbs_free_energy_per_link r x temperature) force
       (P_log_squared_isotensional.gibbs_free_energy_per_link p force temperature))
  /\ (forall (force : ndarray T) (temperature : T),
     elementwise (fun x => O_log_squared_isotensional.relative_gibbs_free_energy r x temperature) force
       (P_log_squared_isotensional.relative_gibbs_free_energy p force temperature))
  /\ (forall (force : ndarray T) (temperature : T),
     elementwise (fun x => O_log_squared_isotensional.relative_gibbs_free_energy_per_link r x temperature) force
       (P_log_squared_isotensional.relative_gibbs_free_energy_per_link p force temperature))
  /\ (forall (nondimensional_force : ndarray T) (temperature : T),
     elementwise (fun x => O_log_squared_isotensional.nondimensional_gibbs_free_energy r x temperature) nondimensional_force
       (P_log_squared_isotensional.nondimensional_gibbs_free_energy p nondimensional_force temperature))
  /\ (forall (nondimensional_force : ndarray T) (temperature : T),
     elementwise (fun x => O_log_squared_isotensional.nondimensional_gibbs_free_energy_per_link r x temperature) nondimensional_force
       (P_log_squared_isotensional.nondimensional_gibbs_free_energy_per_link p nondimensional_force temperature))
  /\ (forall (nondimensional_force : ndarray T) (temperature : T),
     elementwise (fun x => O_log_squared_isotensional.nondimensional_relative_gibbs_free_energy r x temperature) nondimensional_force
       (P_log_squared_isotensional.nondimensional_relative_gibbs_free_energy p nondimensional_force temperature))
  /\ (forall (nondimensional_force : ndarray T) (temperature : T),
     elementwise (fun x => O_log_squared_isotensional.nondimensional_relative_gibbs_free_energy_per_link r x temperature) nondimensional_force
       (P_log_squared_isotensional.nondimensional_relative_gibbs_free_energy_per_link p nondimensional_force temperature)).
Proof.
  intros T Sc number_of_links link_length hinge_mass link_stiffness p r.
  assert (P_log_squared_isotensional.hinge_mass p = O_log_squared_isotensional.hinge_mass r) by reflexivity.
  assert (P_log_squared_isotensional.link_length p = O_log_squared_isotensional.link_length r) by reflexivity.
  assert (P_log_squared_isotensional.number_of_links p = O_log_squared_isotensional.number_of_links r) by reflexivity.
  assert (P_log_squared_isotensional.link_stiffness p = O_log_squared_isotensional.link_stiffness r) by reflexivity.
  clearbody p r.
  unfold P_log_squared_isotensional.end_to_end_length,
    P_log_squared_isotensional.end_to_end_length_per_link,
    P_log_squared_isotensional.nondimensional_end_to_end_length,
    P_log_squared_isotensional.nondimensional_end_to_end_length_per_link,
    P_log_squared_isotensional.gibbs_free_energy,
    P_log_squared_isotensional.gibbs_free_energy_per_link,
    P_log_squared_isotensional.relative_gibbs_free_energy,
    P_log_squared_isotensional.relative_gibbs_free_energy_per_link,
    P_log_squared_isotensional.nondimensional_gibbs_free_energy,
    P_log_squared_isotensional.nondimensional_gibbs_free_energy_per_link,
    P_log_squared_isotensional.nondimensional_relative_gibbs_free_energy,
    P_log_squared_isotensional.nondimensional_relative_gibbs_free_energy_per_link,
    O_log_squared_isotensional.end_to_end_length,
    O_log_squared_isotensional.end_to_end_length_per_link,
    O_log_squared_isotensional.nondimensional_end_to_end_length,
    O_log_squared_isotensional.nondimensional_end_to_end_length_per_link,
    O_log_squared_isotensional.gibbs_free_energy,
    O_log_squared_isotensional.gibbs_free_energy_per_link,
    O_log_squared_isotensional.relative_gibbs_free_energy,
    O_log_squared_isotensional.relative_gibbs_free_energy_per_link,
    O_log_squared_isotensional.nondimensional_gibbs_free_energy,
    O_log_squared_isotensional.nondimensional_gibbs_free_energy_per_link,
    O_log_squared_isotensional.nondimensional_relative_gibbs_free_energy,
    O_log_squared_isotensional.nondimensional_relative_gibbs_free_energy_per_link.
  elementwise_tac.
Qed.
Print Assumptions C58_log_squared_isotensional.

Theorem C58_log_squared_isotensional_asymptotic : forall (T : Type) (Sc : Scalar T) (number_of_links : Z) (link_length : T) (hinge_mass : T) (link_stiffness : T),
  let p := P_log_squared_isotensional.asymptotic (P_log_squared_thermodynamics.isotensional (P_log_squared.thermodynamics (P_log_squared.init number_of_links link_length hinge_mass link_stiffness))) in
  let r := O_log_squared_isotensional.asymptotic (O_log_squared_thermodynamics.isotensional (O_log_squared.thermodynamics (O_log_squared.init number_of_links link_length hinge_mass link_stiffness))) in
  P_log_squared_isotensional_asymptotic.hinge_mass p = O_log_squared_isotensional_asymptotic.hinge_mass r
  /\ P_log_squared_isotensional_asymptotic.link_length p = O_log_squared_isotensional_asymptotic.link_length r
  /\ P_log_squared_isotensional_asymptotic.number_of_links p = O_log_squared_isotensional_asymptotic.number_of_links r
  /\ P_log_squared_isotensional_asymptotic.link_stiffness p = O_log_squared_isotensional_asymptotic.link_stiffness r
  /\ (forall (force : ndarray T) (temperature : T),
     elementwise (fun x => O_log_squared_isotensional_asymptotic.end_to_end_length r x temperature) force
       (P_log_squared_isotensional_asymptotic.end_to_end_length p force temperature))
  /\ (forall (force : ndarray T) (temperature : T),
     elementwise (fun x => O_log_squared_isotensional_asymptotic.end_to_end_length_per_link r x temperature) force
       (P_log_squared_isotensional_asymptotic.end_to_end_length_per_link p force temperature))
  /\ (forall (nondimensional_force : ndarray T) (temperature : T),
     elementwise (fun x => O_log_squared_isotensional_asymptotic.nondimensional_end_to_end_length r x temperature) nondimensional_force
       (P_log_squared_isotensional_asymptotic.nondimensional_end_to_end_length p nondimensional_force temperature))
  /\ (forall (nondimensional_force : ndarray T) (temperature : T),
     elementwise (fun x => O_log_squared_isotensional_asymptotic.nondimensional_end_to_end_length_per_link r x temperature) nondimensional_force
       (P_log_squared_isotensional_asymptotic.nondimensional_end_to_end_length_per_link p nondimensional_force temperature))
  /\ (forall (force : ndarray T) (temperature : T),
     elementwise (fun x => O_log_squared_isotensional_asymptotic.gibbs_free_energy r x temperature) force
       (P_log_squared_isotensional_asymptotic.gibbs_free_energy p force temperature))
  /\ (forall (force : ndarray T) (temperature : T),
     elementwise (fun x => O_log_squared_isotensional_asymptotic.gibbs_free_energy_per_link r x temperature) force
       (P_log_squared_isotensional_asymptotic.gibbs_free_energy_per_link p force temperature))
  /\ (forall (force : ndarray T) (temperature : T),
     elementwise (fun x => O_log_squared_isotensional_asymptotic.relative_gibbs_free_energy r x temperature) force
       (P_log_squared_isotensional_asymptotic.relative_gibbs_free_energy p force temperature))
  /\ (forall (force : ndarray T) (temperature : T),
     elementwise (fun x => O_log_squared_isotensional_asymptotic.relative_gibbs_free_energy_per_link r x temperature) force
       (P_log_squared_isotensional_asymptotic.relative_gibbs_free_energy_per_link p force temperature))
  /\ (forall (nondimensional_force : ndarray T) (temperature : T),
     elementwise (fun x => O_log_squared_isotensional_asymptotic.nondimensional_gibbs_free_energy r x temperature) nondimensional_force
       (P_log_squared_isotensional_asymptotic.nondimensional_gibbs_free_energy p nondimensional_force temperature))
  /\ (forall (nondimensional_force : ndarray T) (temperature : T),
     elementwise (fun x => O_log_squared_isotensional_asymptotic.nondimensional_gibbs_free_energy_per_link r x temperature) nondimensional_force
       (P_log_squared_isotensional_asymptotic.nondimensional_gibbs_free_energy_per_link p nondimensional_force temperature))
  /\ (forall (nondimensional_force : ndarray T) (temperature : T),
     elementwise (fun x => O_log_squared_isotensional_asymptotic.nondimensional_relative_gibbs_free_energy r x temperature) nondimensional_force
       (P_log_squared_isotensional_asymptotic.nondimensional_relative_gibbs_free_energy p nondimensional_force temperature))
  /\ (forall (nondimensional_force : ndarray T) (temperature : T),
     elementwise (fun x => O_log_squared_isotensional_asymptotic.nondimensional_relative_gibbs_free_energy_per_link r x temperature) nondimensional_force
       (P_log_squared_isotensional_asymptotic.nondimensional_relative_gibbs_free_energy_per_link p nondimensional_force temperature)).
Proof.
  intros T Sc number_of_links link_length hinge_mass link_stiffness p r.
  assert (P_log_squared_isotensional_asymptotic.hinge_mass p = O_log_squared_isotensional_asymptotic.hinge_mass r) by reflexivity.
  assert (P_log_squared_isotensional_asymptotic.link_length p = O_log_squared_isotensional_asymptotic.link_length r) by reflexivity.
  assert (P_log_squared_isotensional_asymptotic.number_of_links p = O_log_squared_isotensional_asymptotic.number_of_links r) by reflexivity.
  assert (P_log_squared_isotensional_asymptotic.link_stiffness p = O_log_squared_isotensional_asymptotic.link_stiffness r) by reflexivity.
  clearbody p r.
  unfold P_log_squared_isotensional_asymptotic.end_to_end_length,
    P_log_squared_isotensional_asymptotic.end_to_end_length_per_link,
    P_log_squared_isotensional_asymptotic.nondimensional_end_to_end_length,
    P_log_squared_isotensional_asymptotic.nondimensional_end_to_end_length_per_link,
    P_log_squared_isotensional_asymptotic.gibbs_free_energy,
    P_log_squared_isotensional_asymptotic.gibbs_free_energy_per_link,
    P_log_squared_isotensional_asymptotic.relative_gibbs_free_energy,
    P_log_squared_isotensional_asymptotic.relative_gibbs_free_energy_per_link,
    P_log_squared_isotensional_asymptotic.nondimensional_gibbs_free_energy,
    P_log_squared_isotensional_asymptotic.nondimensional_gibbs_free_energy_per_link,
    P_log_squared_isotensional_asymptotic.nondimensional_relative_gibbs_free_energy,
    P_log_squared_isotensional_asymptotic.nondimensional_relative_gibbs_free_energy_per_link,
    O_log_squared_isotensional_asymptotic.end_to_end_length,
    O_log_squared_isotensional_asymptotic.end_to_end_length_per_link,
    O_log_squared_isotensional_asymptotic.nondimensional_end_to_end_length,
    O_log_squared_isotensional_asymptotic.nondimensional_end_to_end_length_per_link,
    O_log_squared_isotensional_asymptotic.gibbs_free_energy,
    O_log_squared_isotensional_asymptotic.gibbs_free_energy_per_link,
    O_log_squared_isotensional_asymptotic.relative_gibbs_free_energy,
    O_log_squared_isotensional_asymptotic.relative_gibbs_free_energy_per_link,
    O_log_squared_isotensional_asymptotic.nondimensional_gibbs_free_energy,
    O_log_squared_isotensional_asymptotic.nondimensional_gibbs_free_energy_per_link,
    O_log_squared_isotensional_asymptotic.nondimensional_relative_gibbs_free_energy,
    O_log_squared_isotensional_asymptotic.nondimensional_relative_gibbs_free_energy_per_link.
  elementwise_tac.
Qed.
Print Assumptions C58_log_squared_isotensional_asymptotic.

Theorem C58_log_squared_isotensional_asymptotic_reduced : forall (T : Type) (Sc : Scalar T) (number_of_links : Z) (link_length : T) (hinge_mass : T) (link_stiffness : T),
  let p := P_log_squared_isotensional_asymptotic.reduced (P_log_squared_isotensional.asymptotic (P_log_squared_thermodynamics.isotensional (P_log_squared.thermodynamics (P_log_squared.init number_of_links link_length hinge_mass link_stiffness)))) in
  let r := O_log_squared_isotensional_asymptotic.reduced (O_log_squared_isotensional.asymptotic (O_log_squared_thermodynamics.isotensional (O_log_squared.thermodynamics (O_log_squared.init number_of_links link_length hinge_mass link_stiffness)))) in
  P_log_squared_isotensional_asymptotic_reduced.hinge_mass p = O_log_squared_isotensional_asymptotic_reduced.hinge_mass r
  /\ P_log_squared_isotensional_asymptotic_reduced.link_length p = O_log_squared_isotensional_asymptotic_reduced.link_length r
  /\ P_log_squared_isotensional_asymptotic_reduced.number_of_links p = O_log_squared_isotensional_asymptotic_reduced.number_of_links r
  /\ P_log_squared_isotensional_asymptotic_reduced.link_stiffness p = O_log_squared_isotensional_asymptotic_reduced.link_stiffness r
  /\ (forall (force : ndarray T) (temperature : T),
     elementwise (fun x => O_log_squared_isotensional_asymptotic_reduced.end_to_end_length r x temperature) force
       (P_log_squared_isotensional_asymptotic_reduced.end_to_end_length p force temperature))
  /\ (forall (force : ndarray T) (temperature : T),
     elementwise (fun x => O_log_squared_isotensional_asymptotic_reduced.end_to_end_length_per_link r x temperature) force
       (P_log_squared_isotensional_asymptotic_reduced.end_to_end_length_per_link p force temperature))
  /\ (forall (nondimensional_force : ndarray T) (temperature : T),
     elementwise (fun x => O_log_squared_isotensional_asymptotic_reduced.nondimensional_end_to_end_length r x temperature) nondimensional_force
       (P_log_squared_isotensional_asymptotic_reduced.nondimensional_end_to_end_length p nondimensional_force temperature))
  /\ (forall (nondimensional_force : ndarray T) (temperature : T),
     elementwise (fun x => O_log_squared_isotensional_asymptotic_reduced.nondimensional_end_to_end_length_per_link r x temperature) nondimensional_force
       (P_log_squared_isotensional_asymptotic_reduced.nondimensional_end_to_end_length_per_link p nondimensional_force temperature))
  /\ (forall (force : ndarray T) (temperature : T),
     elementwise (fun x => O_log_squared_isotensional_asymptotic_reduced.gibbs_free_energy r x temperature) force
       (P_log_squared_isotensional_asymptotic_reduced.gibbs_free_energy p force temperature))
  /\ (forall (force : ndarray T) (temperature : T),
     elementwise (fun x => O_log_squared_isotensional_asymptotic_reduced.gibbs_free_energy_per_link r x temperature) force
       (P_log_squared_isotensional_asymptotic_reduced.gibbs_free_energy_per_link p force temperature))
  /\ (forall (force : ndarray T) (temperature : T),
     elementwise (fun x => O_log_squared_isotensional_asymptotic_reduced.relative_gibbs_free_energy r x temperature) force
       (P_log_squared_isotensional_asymptotic_reduced.relative_gibbs_free_energy p force temperature))
  /\ (forall (force : ndarray T) (temperature : T),
     elementwise (fun x => O_log_squared_isotensional_asymptotic_reduced.relative_gibbs_free_energy_per_link r x temperature) force
       (P_log_squared_isotensional_asymptotic_reduced.relative_gibbs_free_energy_per_link p force temperature))
  /\ (forall (nondimensional_force : ndarray T) (temperature : T),
     elementwise (fun x => O_log_squared_isotensional_asymptotic_reduced.nondimensional_gibbs_free_energy r x temperature) nondimensional_force
       (P_log_squared_isotensional_asymptotic_reduced.nondimensional_gibbs_free_energy p nondimensional_force temperature))
  /\ (forall (nondimensional_force : ndarray T) (temperature : T),
     elementwise (fun x => O_log_squared_isotensional_asymptotic_reduced.nondimensional_gibbs_free_energy_per_link r x temperature) nondimensional_force
       (P_log_squared_isotensional_asymptotic_reduced.nondimensional_gibbs_free_energy_per_link p nondimensional_force temperature))
  /\ (forall (nondimensional_force : ndarray T) (temperature : T),
     elementwise (fun x => O_log_squared_isotensional_asymptotic_reduced.nondimensional_relative_gibbs_free_energy r x temperature) nondimensional_force
       (P_log_squared_isotensional_asymptotic_reduced.nondimensional_relative_gibbs_free_energy p nondimensional_force temperature))
  /\ (forall (nondimensional_force : ndarray T) (temperature : T),
     elementwise (fun x => O_log_squared_isotensional_asymptotic_reduced.nondimensional_relative_gibbs_free_energy_per_link r x temperature) nondimensional_force
       (P_log_squared_isotensional_asymptotic_reduced.nondimensional_relative_gibbs_free_energy_per_link p nondimensional_force temperature)).
Proof.
  intros T Sc number_of_links link_length hinge_mass link_stiffness p r.
  assert (P_log_squared_isotensional_asymptotic_reduced.hinge_mass p = O_log_squared_isotensional_asymptotic_reduced.hinge_mass r) by reflexivity.
  assert (P_log_squared_isotensional_asymptotic_reduced.link_length p = O_log_squared_isotensional_asymptotic_reduced.link_length r) by reflexivity.
  assert (P_log_squared_isotensional_asymptotic_reduced.number_of_links p = O_log_squared_isotensional_asymptotic_reduced.number_of_links r) by reflexivity.
  assert (P_log_squared_isotensional_asymptotic_reduced.link_stiffness p = O_log_squared_isotensional_asymptotic_reduced.link_stiffness r) by reflexivity.
  clearbody p r.
  unfold P_log_squared_isotensional_asymptotic_reduced.end_to_end_length,
    P_log_squared_isotensional_asymptotic_reduced.end_to_end_length_per_link,
    P_log_squared_isotensional_asymptotic_reduced.nondimensional_end_to_end_length,
    P_log_squared_isotensional_asymptotic_reduced.nondimensional_end_to_end_length_per_link,
    P_log_squared_isotensional_asymptotic_reduced.gibbs_free_energy,
    P_log_squared_isotensional_asymptotic_reduced.gibbs_free_energy_per_link,
    P_log_squared_isotensional_asymptotic_reduced.relative_gibbs_free_energy,
    P_log_squared_isotensional_asymptotic_reduced.relative_gibbs_free_energy_per_link,
    P_log_squared_isotensional_asymptotic_reduced.nondimensional_gibbs_free_energy,
    P_log_squared_isotensional_asymptotic_reduced.nondimensional_gibbs_free_energy_per_link,
    P_log_squared_isotensional_asymptotic_reduced.nondimensional_relative_gibbs_free_energy,
    P_log_squared_isotensional_asymptotic_reduced.nondimensional_relative_gibbs_free_energy_per_link,
    O_log_squared_isotensional_asymptotic_reduced.end_to_end_length,
    O_log_squared_isotensional_asymptotic_reduced.end_to_end_length_per_link,
    O_log_squared_isotensional_asymptotic_reduced.nondimensional_end_to_end_length,
    O_log_squared_isotensional_asymptotic_reduced.nondimensional_end_to_end_length_per_link,
    O_log_squared_isotensional_asymptotic_reduced.gibbs_free_energy,
    O_log_squared_isotensional_asymptotic_reduced.gibbs_free_energy_per_link,
    O_log_squared_isotensional_asymptotic_reduced.relative_gibbs_free_energy,
    O_log_squared_isotensional_asymptotic_reduced.relative_gibbs_free_energy_per_link,
    O_log_squared_isotensional_asymptotic_reduced.nondimensional_gibbs_free_energy,
    O_log_squared_isotensional_asymptotic_reduced.nondimensional_gibbs_free_energy_per_link,
    O_log_squared_isotensional_asymptotic_reduced.nondimensional_relative_gibbs_free_energy,
    O_log_squared_isotensional_asymptotic_reduced.nondimensional_relative_gibbs_free_energy_per_link.
  elementwise_tac.
Qed.
Print Assumptions C58_log_squared_isotensional_asymptotic_reduced.

Theorem C58_log_squared_isotensional_asymptotic_reduced_legendre : forall (T : Type) (Sc : Scalar T) (number_of_links : Z) (link_length : T) (hinge_mass : T) (link_stiffness : T),
  let p := P_log_squared_isotensional_asymptotic_reduced.legendre (P_log_squared_isotensional_asymptotic.reduced (P_log_squared_isotensional.asymptotic (P_log_squared_thermodynamics.isotensional (P_log_squared.thermodynamics (P_log_squared.init number_of_links link_length hinge_mass link_stiffness))))) in
  let r := O_log_squared_isotensional_asymptotic_reduced.legendre (O_log_squared_isotensional_asymptotic.reduced (O_log_squared_isotensional.asymptotic (O_log_squared_thermodynamics.isotensional (O_log_squared.thermodynamics (O_log_squared.init number_of_links link_length hinge_mass link_stiffness))))) in
  P_log_squared_isotensional_asymptotic_reduced_legendre.hinge_mass p = O_log_squared_isotensional_asymptotic_reduced_legendre.hinge_mass r
  /\ P_log_squared_isotensional_asymptotic_reduced_legendre.link_length p = O_log_squared_isotensional_asymptotic_reduced_legendre.link_length r
  /\ P_log_squared_isotensional_asymptotic_reduced_legendre.number_of_links p = O_log_squared_isotensional_asymptotic_reduced_legendre.number_of_links r
  /\ P_log_squared_isotensional_asymptotic_reduced_legendre.link_stiffness p = O_log_squared_isotensional_asymptotic_reduced_legendre.link_stiffness r
  /\ (forall (force : ndarray T) (temperature : T),
     elementwise (fun x => O_log_squared_isotensional_asymptotic_reduced_legendre.helmholtz_free_energy r x temperature) force
       (P_log_squared_isotensional_asymptotic_reduced_legendre.helmholtz_free_energy p force temperature))
  /\ (forall (force : ndarray T) (temperature : T),
     elementwise (fun x => O_log_squared_isotensional_asymptotic_reduced_legendre.helmholtz_free_energy_per_link r x temperature) force
       (P_log_squared_isotensional_asymptotic_reduced_legendre.helmholtz_free_energy_per_link p force temperature))
  /\ (forall (force : ndarray T) (temperature : T),
     elementwise (fun x => O_log_squared_isotensional_asymptotic_reduced_legendre.relative_helmholtz_free_energy r x temperature) force
       (P_log_squared_isotensional_asymptotic_reduced_legendre.relative_helmholtz_free_energy p force temperature))
  /\ (forall (force : ndarray T) (temperature : T),
     elementwise (fun x => O_log_squared_isotensional_asymptotic_reduced_legendre.relative_helmholtz_free_energy_per_link r x temperature) force
       (P_log_squared_isotensional_asymptotic_reduced_legendre.relative_helmholtz_free_energy_per_link p force temperature))
  /\ (forall (nondimensional_force : ndarray T) (temperature : T),
     elementwise (fun x => O_log_squared_isotensional_asymptotic_reduced_legendre.nondimensional_helmholtz_free_energy r x temperature) nondimensional_force
       (P_log_squared_isotensional_asymptotic_reduced_legendre.nondimensional_helmholtz_free_energy p nondimensional_force temperature))
  /\ (forall (nondimensional_force : ndarray T) (temperature : T),
     elementwise (fun x => O_log_squared_isotensional_asymptotic_reduced_legendre.nondimensional_helmholtz_free_energy_per_link r x temperature) nondimensional_force
       (P_log_squared_isotensional_asymptotic_reduced_legendre.nondimensional_helmholtz_free_energy_per_link p nondimensional_force temperature))
  /\ (forall (nondimensional_force : ndarray T) (temperature : T),
     elementwise (fun x => O_log_squared_isotensional_asymptotic_reduced_legendre.nondimensional_relative_helmholtz_free_energy r x temperature) nondimensional_force
       (P_log_squared_isotensional_asymptotic_reduced_legendre.nondimensional_relative_helmholtz_free_energy p nondimensional_force temperature))
  /\ (forall (nondimensional_force : ndarray T) (temperature : T),
     elementwise (fun x => O_log_squared_isotensional_asymptotic_reduced_legendre.nondimensional_relative_helmholtz_free_energy_per_link r x temperature) nondimensional_force
       (P_log_squared_isotensional_asymptotic_reduced_legendre.nondimensional_relative_helmholtz_free_energy_per_link p nondimensional_force temperature)).
Proof.
  intros T Sc number_of_links link_length hinge_mass link_stiffness p r.
  assert (P_log_squared_isotensional_asymptotic_reduced_legendre.hinge_mass p = O_log_squared_isotensional_asymptotic_reduced_legendre.hinge_mass r) by reflexivity.
  assert (P_log_squared_isotensional_asymptotic_reduced_legendre.link_length p = O_log_squared_isotensional_asymptotic_reduced_legendre.link_length r) by reflexivity.
  assert (P_log_squared_isotensional_asymptotic_reduced_legendre.number_of_links p = O_log_squared_isotensional_asymptotic_reduced_legendre.number_of_links r) by reflexivity.
  assert (P_log_squared_isotensional_asymptotic_reduced_legendre.link_stiffness p = O_log_squared_isotensional_asymptotic_reduced_legendre.link_stiffness r) by reflexivity.
  clearbody p r.
  unfold P_log_squared_isotensional_asymptotic_reduced_legendre.helmholtz_free_energy,
    P_log_squared_isotensional_asymptotic_reduced_legendre.helmholtz_free_energy_per_link,
    P_log_squared_isotensional_asymptotic_reduced_legendre.relative_helmholtz_free_energy,
    P_log_squared_isotensional_asymptotic_reduced_legendre.relative_helmholtz_free_energy_per_link,
    P_log_squared_isotensional_asymptotic_reduced_legendre.nondimensional_helmholtz_free_energy,
    P_log_squared_isotensional_asymptotic_reduced_legendre.nondimensional_helmholtz_free_energy_per_link,
    P_log_squared_isotensional_asymptotic_reduced_legendre.nondimensional_relative_helmholtz_free_energy,
    P_log_squared_isotensional_asymptotic_reduced_legendre.nondimensional_relative_helmholtz_free_energy_per_link,
    O_log_squared_isotensional_asymptotic_reduced_legendre.helmholtz_free_energy,
    O_log_squared_isotensional_asymptotic_reduced_legendre.helmholtz_free_energy_per_link,
    O_log_squared_isotensional_asymptotic_reduced_legendre.relative_helmholtz_free_energy,
    O_log_squared_isotensional_asymptotic_reduced_legendre.relative_helmholtz_free_energy_per_link,
    O_log_squared_isotensional_asymptotic_reduced_legendre.nondimensional_helmholtz_free_energy,
    O_log_squared_isotensional_asymptotic_reduced_legendre.nondimensional_helmholtz_free_energy_per_link,
    O_log_squared_isotensional_asymptotic_reduced_legendre.nondimensional_relative_helmholtz_free_energy,
    O_log_squared_isotensional_asymptotic_reduced_legendre.nondimensional_relative_helmholtz_free_energy_per_link.
  elementwise_tac.
Qed.
Print Assumptions C58_log_squared_isotensional_asymptotic_reduced_legendre.

Theorem C58_log_squared_isotensional_asymptotic_legendre : forall (T : Type) (Sc : Scalar T) (number_of_links : Z) (link_length : T) (hinge_mass : T) (link_stiffness : T),
  let p := P_log_squared_isotensional_asymptotic.legendre (P_log_squared_isotensional.asymptotic (P_log_squared_thermodynamics.isotensional (P_log_squared.thermodynamics (P_log_squared.init number_of_links link_length hinge_mass link_stiffness)))) in
  let r := O_log_squared_isotensional_asymptotic.legendre (O_log_squared_isotensional.asymptotic (O_log_squared_thermodynamics.isotensional (O_log_squared.thermodynamics (O_log_squared.init number_of_links link_length hinge_mass link_stiffness)))) in
  P_log_squared_isotensional_asymptotic_legendre.hinge_mass p = O_log_squared_isotensional_asymptotic_legendre.hinge_mass r
  /\ P_log_squared_isotensional_asymptotic_legendre.link_length p = O_log_squared_isotensional_asymptotic_legendre.link_length r
  /\ P_log_squared_isotensional_asymptotic_legendre.number_of_links p = O_log_squared_isotensional_asymptotic_legendre.number_of_links r
  /\ P_log_squared_isotensional_asymptotic_legendre.link_stiffness p = O_log_squared_isotensional_asymptotic_legendre.link_stiffness r
  /\ (forall (force : ndarray T) (temperature : T),
     elementwise (fun x => O_log_squared_isotensional_asymptotic_legendre.helmholtz_free_energy r x temperature) force
       (P_log_squared_isotensional_asymptotic_legendre.helmholtz_free_energy p force temperature))
  /\ (forall (force : ndarray T) (temperature : T),
     elementwise (fun x => O_log_squared_isotensional_asymptotic_legendre.helmholtz_free_energy_per_link r x temperature) force
       (P_log_squared_isotensional_asymptotic_legendre.helmholtz_free_energy_per_link p force temperature))
  /\ (forall (force : ndarray T) (temperature : T),
     elementwise (fun x => O_log_squared_isotensional_asymptotic_legendre.relative_helmholtz_free_energy r x temperature) force
       (P_log_squared_isotensional_asymptotic_legendre.relative_helmholtz_free_energy p force temperature))
  /\ (forall (force : ndarray T) (temperature : T),
     elementwise (fun x => O_log_squared_isotensional_asymptotic_legendre.relative_helmholtz_free_energy_per_link r x temperature) force
       (P_log_squared_isotensional_asymptotic_legendre.relative_helmholtz_free_energy_per_link p force temperature))
  /\ (forall (nondimensional_force : ndarray T) (temperature : T),
     elementwise (fun x => O_log_squared_isotensional_asymptotic_legendre.nondimensional_helmholtz_free_energy r x temperature) nondimensional_force
       (P_log_squared_isotensional_asymptotic_legendre.nondimensional_helmholtz_free_energy p nondimensional_force temperature))
  /\ (forall (nondimensional_force : ndarray T) (temperature : T),
     elementwise (fun x => O_log_squared_isotensional_asymptotic_legendre.nondimensional_helmholtz_free_energy_per_link r x temperature) nondimensional_force
       (P_log_squared_isotensional_asymptotic_legendre.nondimensional_helmholtz_free_energy_per_link p nondimensional_force temperature))
  /\ (forall (nondimensional_force : ndarray T) (temperature : T),
     elementwise (fun x => O_log_squared_isotensional_asymptotic_legendre.nondimensional_relative_helmholtz_free_energy r x temperature) nondimensional_force
       (P_log_squared_isotensional_asymptotic_legendre.nondimensional_relative_helmholtz_free_energy p nondimensional_force temperature))
  /\ (forall (nondimensional_force : ndarray T) (temperature : T),
     elementwise (fun x => O_log_squared_isotensional_asymptotic_legendre.nondimensional_relative_helmholtz_free_energy_per_link r x temperature) nondimensional_force
       (P_log_squared_isotensional_asymptotic_legendre.nondimensional_relative_helmholtz_free_energy_per_link p nondimensional_force temperature)).
Proof.
  intros T Sc number_of_links link_length hinge_mass link_stiffness p r.
  assert (P_log_squared_isotensional_asymptotic_legendre.hinge_mass p = O_log_squared_isotensional_asymptotic_legendre.hinge_mass r) by reflexivity.
  assert (P_log_squared_isotensional_asymptotic_legendre.link_length p = O_log_squared_isotensional_asymptotic_legendre.link_length r) by reflexivity.
  assert (P_log_squared_isotensional_asymptotic_legendre.number_of_links p = O_log_squared_isotensional_asymptotic_legendre.number_of_links r) by reflexivity.
  assert (P_log_squared_isotensional_asymptotic_legendre.link_stiffness p = O_log_squared_isotensional_asymptotic_legendre.link_stiffness r) by reflexivity.
  clearbody p r.
  unfold P_log_squared_isotensional_asymptotic_legendre.helmholtz_free_energy,
    P_log_squared_isotensional_asymptotic_legendre.helmholtz_free_energy_per_link,
    P_log_squared_isotensional_asymptotic_legendre.relative_helmholtz_free_energy,
    P_log_squared_isotensional_asymptotic_legendre.relative_helmholtz_free_energy_per_link,
    P_log_squared_isotensional_asymptotic_legendre.nondimensional_helmholtz_free_energy,
    P_log_squared_isotensional_asymptotic_legendre.nondimensional_helmholtz_free_energy_per_link,
    P_log_squared_isotensional_asymptotic_legendre.nondimensional_relative_helmholtz_free_energy,
    P_log_squared_isotensional_asymptotic_legendre.nondimensional_relative_helmholtz_free_energy_per_link,
    O_log_squared_isotensional_asymptotic_legendre.helmholtz_free_energy,
    O_log_squared_isotensional_asymptotic_legendre.helmholtz_free_energy_per_link,
    O_log_squared_isotensional_asymptotic_legendre.relative_helmholtz_free_energy,
    O_log_squared_isotensional_asymptotic_legendre.relative_helmholtz_free_energy_per_link,
    O_log_squared_isotensional_asymptotic_legendre.nondimensional_helmholtz_free_energy,
    O_log_squared_isotensional_asymptotic_legendre.nondimensional_helmholtz_free_energy_per_link,
    O_log_squared_isotensional_asymptotic_legendre.nondimensional_relative_helmholtz_free_energy,
    O_log_squared_isotensional_asymptotic_legendre.nondimensional_relative_helmholtz_free_energy_per_link.
  elementwise_tac.
Qed.
Print Assumptions C58_log_squared_isotensional_asymptotic_legendre.

Theorem C58_log_squared_isotensional_legendre : forall (T : Type) (Sc : Scalar T) (number_of_links : Z) (link_length : T) (hinge_mass : T) (link_stiffness : T),
  let p := P_log_squared_isotensional.legendre (P_log_squared_thermodynamics.isotensional (P_log_squared.thermodynamics (P_log_squared.init number_of_links link_length hinge_mass link_stiffness))) in
  let r := O_log_squared_isotensional.legendre (O_log_squared_thermodynamics.isotensional (O_log_squared.thermodynamics (O_log_squared.init number_of_links link_length hinge_mass link_stiffness))) in
  P_log_squared_isotensional_legendre.hinge_mass p = O_log_squared_isotensional_legendre.hinge_mass r
  /\ P_log_squared_isotensional_legendre.link_length p = O_log_squared_isotensional_legendre.link_length r
  /\ P_log_squared_isotensional_legendre.number_of_links p = O_log_squared_isotensional_legendre.number_of_links r
  /\ P_log_squared_isotensional_legendre.link_stiffness p = O_log_squared_isotensional_legendre.link_stiffness r
  /\ (forall (force : ndarray T) (temperature : T),
     elementwise (fun x => O_log_squared_isotensional_legendre.helmholtz_free_energy r x temperature) force
       (P_log_squared_isotensional_legendre.helmholtz_free_energy p force temperature))
  /\ (forall (force : ndarray T) (temperature : T),
     elementwise (fun x => O_log_squared_isotensional_legendre.helmholtz_free_energy_per_link r x temperature) force
       (P_log_squared_isotensional_legendre.helmholtz_free_energy_per_link p force temperature))
  /\ (forall (force : ndarray T) (temperature : T),
     elementwise (fun x => O_log_squared_isotensional_legendre.relative_helmholtz_free_energy r x temperature) force
       (P_log_squared_isotensional_legendre.relative_helmholtz_free_energy p force temperature))
  /\ (forall (force : ndarray T) (temperature : T),
     elementwise (fun x => O_log_squared_isotensional_legendre.relative_helmholtz_free_energy_per_link r x temperature) force
       (P_log_squared_isotensional_legendre.relative_helmholtz_free_energy_per_link p force temperature))
  /\ (forall (nondimensional_force : ndarray T) (temperature : T),
     elementwise (fun x => O_log_squared_isotensional_legendre.nondimensional_helmholtz_free_energy r x temperature) nondimensional_force
       (P_log_squared_isotensional_legendre.nondimensional_helmholtz_free_energy p nondimensional_force temperature))
  /\ (forall (nondimensional_force : ndarray T) (temperature : T),
     elementwise (fun x => O_log_squared_isotensional_legendre.nondimensional_helmholtz_free_energy_per_link r x temperature) nondimensional_force
       (P_log_squared_isotensional_legendre.nondimensional_helmholtz_free_energy_per_link p nondimensional_force temperature))
  /\ (forall (nondimensional_force : ndarray T) (temperature : T),
     elementwise (fun x => O_log_squared_isotensional_legendre.nondimensional_relative_helmholtz_free_energy r x temperature) nondimensional_force
       (P_log_squared_isotensional_legendre.nondimensional_relative_helmholtz_free_energy p nondimensional_force temperature))
  /\ (forall (nondimensional_force : ndarray T) (temperature : T),
     elementwise (fun x => O_log_squared_isotensional_legendre.nondimensional_relative_helmholtz_free_energy_per_link r x temperature) nondimensional_force
       (P_log_squared_isotensional_legendre.nondimensional_relative_helmholtz_free_energy_per_link p nondimensional_force temperature)).
Proof.
  intros T Sc number_of_links link_length hinge_mass link_stiffness p r.
  assert (P_log_squared_isotensional_legendre.hinge_mass p = O_log_squared_isotensional_legendre.hinge_mass r) by reflexivity.
  assert (P_log_squared_isotensional_legendre.link_length p = O_log_squared_isotensional_legendre.link_length r) by reflexivity.
  assert (P_log_squared_isotensional_legendre.number_of_links p = O_log_squared_isotensional_legendre.number_of_links r) by reflexivity.
  assert (P_log_squared_isotensional_legendre.link_stiffness p = O_log_squared_isotensional_legendre.link_stiffness r) by reflexivity.
  clearbody p r.
  unfold P_log_squared_isotensional_legendre.helmholtz_free_energy,
    P_log_squared_isotensional_legendre.helmholtz_free_energy_per_link,
    P_log_squared_isotensional_legendre.relative_helmholtz_free_energy,
    P_log_squared_isotensional_legendre.relative_helmholtz_free_energy_per_link,
    P_log_squared_isotensional_legendre.nondimensional_helmholtz_free_energy,
    P_log_squared_isotensional_legendre.nondimensional_helmholtz_free_energy_per_link,
    P_log_squared_isotensional_legendre.nondimensional_relative_helmholtz_free_energy,
    P_log_squared_isotensional_legendre.nondimensional_relative_helmholtz_free_energy_per_link,
    O_log_squared_isotensional_legendre.helmholtz_free_energy,
    O_log_squared_isotensional_legendre.helmholtz_free_energy_per_link,
    O_log_squared_isotensional_legendre.relative_helmholtz_free_energy,
    O_log_squared_isotensional_legendre.relative_helmholtz_free_energy_per_link,
    O_log_squared_isotensional_legendre.nondimensional_helmholtz_free_energy,
    O_log_squared_isotensional_legendre.nondimensional_helmholtz_free_energy_per_link,
    O_log_squared_isotensional_legendre.nondimensional_relative_helmholtz_free_energy,
    O_log_squared_isotensional_legendre.nondimensional_relative_helmholtz_free_energy_per_link.
  elementwise_tac.
Qed.
Print Assumptions C58_log_squared_isotensional_legendre.

Theorem C58_wlc : forall (T : Type) (Sc : Scalar T) (number_of_links : Z) (link_length : T) (hinge_mass : T) (persistance_length : T),
  let p := P_wlc.init number_of_links link_length hinge_mass persistance_length in
  let r := O_wlc.init number_of_links link_length hinge_mass persistance_length in
  P_wlc.hinge_mass p = O_wlc.hinge_mass r
  /\ P_wlc.link_length p = O_wlc.link_length r
  /\ P_wlc.number_of_links p = O_wlc.number_of_links r
  /\ P_wlc.persistance_length p = O_wlc.persistance_length r.
Proof.
  intros T Sc number_of_links link_length hinge_mass persistance_length p r.
  assert (P_wlc.hinge_mass p = O_wlc.hinge_mass r) by reflexivity.
  assert (P_wlc.link_length p = O_wlc.link_length r) by reflexivity.
  assert (P_wlc.number_of_links p = O_wlc.number_of_links r) by reflexivity.
  assert (P_wlc.persistance_length p = O_wlc.persistance_length r) by reflexivity.
  clearbody p r.
  elementwise_tac.
Qed.
Print Assumptions C58_wlc.

Theorem C58_wlc_thermodynamics : forall (T : Type) (Sc : Scalar T) (number_of_links : Z) (link_length : T) (hinge_mass : T) (persistance_length : T),
  let p := P_wlc.thermodynamics (P_wlc.init number_of_links link_length hinge_mass persistance_length) in
  let r := O_wlc.thermodynamics (O_wlc.init number_of_links link_length hinge_mass persistance_length) in
  P_wlc_thermodynamics.hinge_mass p = O_wlc_thermodynamics.hinge_mass r
  /\ P_wlc_thermodynamics.link_length p = O_wlc_thermodynamics.link_length r
  /\ P_wlc_thermodynamics.number_of_links p = O_wlc_thermodynamics.number_of_links r
  /\ P_wlc_thermodynamics.persistance_length p = O_wlc_thermodynamics.persistance_length r.
Proof.
  intros T Sc number_of_links link_length hinge_mass persistance_length p r.
  assert (P_wlc_thermodynamics.hinge_mass p = O_wlc_thermodynamics.hinge_mass r) by reflexivity.
  assert (P_wlc_thermodynamics.link_length p = O_wlc_thermodynamics.link_length r) by reflexivity.
  assert (P_wlc_thermodynamics.number_of_links p = O_wlc_thermodynamics.number_of_links r) by reflexivity.
  assert (P_wlc_thermodynamics.persistance_length p = O_wlc_thermodynamics.persistance_length r) by reflexivity.
  clearbody p r.
  elementwise_tac.
Qed.
Print Assumptions C58_wlc_thermodynamics.

Theorem C58_wlc_isometric : forall (T : Type) (Sc : Scalar T) (number_of_links : Z) (link_length : T) (hinge_mass : T) (persistance_length : T),
  let p := P_wlc_thermodynamics.isometric (P_wlc.thermodynamics (P_wlc.init number_of_links link_length hinge_mass persistance_length)) in
  let r := O_wlc_thermodynamics.isometric (O_wlc.thermodynamics (O_wlc.init number_of_links link_length hinge_mass persistance_length)) in
  P_wlc_isometric.hinge_mass p = O_wlc_isometric.hinge_mass r
  /\ P_wlc_isometric.link_length p = O_wlc_isometric.link_length r
  /\ P_wlc_isometric.number_of_links p = O_wlc_isometric.number_of_links r
  /\ P_wlc_isometric.persistance_length p = O_wlc_isometric.persistance_length r
  /\ (forall (end_to_end_length : ndarray T) (temperature : T),
     elementwise (fun x => O_wlc_isometric.force r x temperature) end_to_end_length
       (P_wlc_isometric.force p end_to_end_length temperature))
  /\ (forall (nondimensional_end_to_end_length_per_link : ndarray T),
     elementwise (fun x => O_wlc_isometric.nondimensional_force r x) nondimensional_end_to_end_length_per_link
       (P_wlc_isometric.nondimensional_force p nondimensional_end_to_end_length_per_link))
  /\ (forall (end_to_end_length : ndarray T) (temperature : T),
     elementwise (fun x => O_wlc_isometric.helmholtz_free_energy r x temperature) end_to_end_length
       (P_wlc_isometric.helmholtz_free_energy p end_to_end_length temperature))
  /\ (forall (end_to_end_length : ndarray T) (temperature : T),
     elementwise (fun x => O_wlc_isometric.helmholtz_free_energy_per_link r x temperature) end_to_end_length
       (P_wlc_isometric.helmholtz_free_energy_per_link p end_to_end_length temperature))
  /\ (forall (end_to_end_length : ndarray T) (temperature : T),
     elementwise (fun x => O_wlc_isometric.relative_helmholtz_free_energy r x temperature) end_to_end_length
       (P_wlc_isometric.relative_helmholtz_free_energy p end_to_end_length temperature))
  /\ (forall (end_to_end_length : ndarray T) (temperature : T),
     elementwise (fun x => O_wlc_isometric.relative_helmholtz_free_energy_per_link r x temperature) end_to_end_length
       (P_wlc_isometric.relative_helmholtz_free_energy_per_link p end_to_end_length temperature))
  /\ (forall (nondimensional_end_to_end_length_per_link : ndarray T) (temperature : T),
     elementwise (fun x => O_wlc_isometric.nondimensional_helmholtz_free_energy r x temperature) nondimensional_end_to_end_length_per_link
       (P_wlc_isometric.nondimensional_helmholtz_free_energy p nondimensional_end_to_end_length_per_link temperature))
  /\ (forall (nondimensional_end_to_end_length_per_link : ndarray T) (temperature : T),
     elementwise (fun x => O_wlc_isometric.nondimensional_helmholtz_free_energy_per_link r x temperature) nondimensional_end_to_end_length_per_link
       (P_wlc_isometric.nondimensional_helmholtz_free_energy_per_link p nondimensional_end_to_end_length_per_link temperature))
  /\ (forall (nondimensional_end_to_end_length_per_link : ndarray T),
     elementwise (fun x => O_wlc_isometric.nondimensional_relative_helmholtz_free_energy r x) nondimensional_end_to_end_length_per_link
       (P_wlc_isometric.nondimensional_relative_helmholtz_free_energy p nondimensional_end_to_end_length_per_link))
  /\ (forall (nondimensional_end_to_end_length_per_link : ndarray T),
     elementwise (fun x => O_wlc_isometric.nondimensional_relative_helmholtz_free_energy_per_link r x) nondimensional_end_to_end_length_per_link
       (P_wlc_isometric.nondimensional_relative_helmholtz_free_energy_per_link p nondimensional_end_to_end_length_per_link))
  /\ (forall (end_to_end_length : ndarray T),
     elementwise (fun x => O_wlc_isometric.equilibrium_distribution r x) end_to_end_length
       (P_wlc_isometric.equilibrium_distribution p end_to_end_length))
  /\ (forall (nondimensional_end_to_end_length_per_link : ndarray T),
     elementwise (fun x => O_wlc_isometric.nondimensional_equilibrium_distribution r x) nondimensional_end_to_end_length_per_link
       (P_wlc_isometric.nondimensional_equilibrium_distribution p nondimensional_end_to_end_length_per_link))
  /\ (forall (end_to_end_length : ndarray T),
     elementwise (fun x => O_wlc_isometric.equilibrium_radial_distribution r x) end_to_end_length
       (P_wlc_isometric.equilibrium_radial_distribution p end_to_end_length))
  /\ (forall (nondimensional_end_to_end_length_per_link : ndarray T),
     elementwise (fun x => O_wlc_isometric.nondimensional_equilibrium_radial_distribution r x) nondimensional_end_to_end_length_per_link
       (P_wlc_isometric.nondimensional_equilibrium_radial_distribution p nondimensional_end_to_end_length_per_link)).
Proof.
  intros T Sc number_of_links link_length hinge_mass persistance_length p r.
  assert (P_wlc_isometric.hinge_mass p = O_wlc_isometric.hinge_mass r) by reflexivity.
  assert (P_wlc_isometric.link_length p = O_wlc_isometric.link_length r) by reflexivity.
  assert (P_wlc_isometric.number_of_links p = O_wlc_isometric.number_of_links r) by reflexivity.
  assert (P_wlc_isometric.persistance_length p = O_wlc_isometric.persistance_length r) by reflexivity.
  assert (P_wlc_isometric.nondimensional_persistance_length p = O_wlc_isometric.nondimensional_persistance_length r) by reflexivity.
  assert (P_wlc_isometric.normalization_nondimensional_equilibrium_distribution p = O_wlc_isometric.normalization_nondimensional_equilibrium_distribution r) by reflexivity.
  clearbody p r.
  unfold P_wlc_isometric.force, P_wlc_isometric.nondimensional_force,
    P_wlc_isometric.helmholtz_free_energy, P_wlc_isometric.helmholtz_free_energy_per_link,
    P_wlc_isometric.relative_helmholtz_free_energy,
    P_wlc_isometric.relative_helmholtz_free_energy_per_link,
    P_wlc_isometric.nondimensional_helmholtz_free_energy,
    P_wlc_isometric.nondimensional_helmholtz_free_energy_per_link,
    P_wlc_isometric.nondimensional_relative_helmholtz_free_energy,
    P_wlc_isometric.nondimensional_relative_helmholtz_free_energy_per_link,
    P_wlc_isometric.equilibrium_distribution,
    P_wlc_isometric.nondimensional_equilibrium_distribution,
    P_wlc_isometric.equilibrium_radial_distribution,
    P_wlc_isometric.nondimensional_equilibrium_radial_distribution, O_wlc_isometric.force,
    O_wlc_isometric.nondimensional_force, O_wlc_isometric.helmholtz_free_energy,
    O_wlc_isometric.helmholtz_free_energy_per_link, O_wlc_isometric.relative_helmholtz_free_energy,
    O_wlc_isometric.relative_helmholtz_free_energy_per_link,
    O_wlc_isometric.nondimensional_helmholtz_free_energy,
    O_wlc_isometric.nondimensional_helmholtz_free_energy_per_link,
    O_wlc_isometric.nondimensional_relative_helmholtz_free_energy,
    O_wlc_isometric.nondimensional_relative_helmholtz_free_energy_per_link,
    O_wlc_isometric.equilibrium_distribution,
    O_wlc_isometric.nondimensional_equilibrium_distribution,
    O_wlc_isometric.equilibrium_radial_distribution,
    O_wlc_isometric.nondimensional_equilibrium_radial_distribution.
  elementwise_tac.
Qed.
Print Assumptions C58_wlc_isometric.

Theorem C58_wlc_isometric_legendre : forall (T : Type) (Sc : Scalar T) (number_of_links : Z) (link_length : T) (hinge_mass : T) (persistance_length : T),
  let p := P_wlc_isometric.legendre (P_wlc_thermodynamics.isometric (P_wlc.thermodynamics (P_wlc.init number_of_links link_length hinge_mass persistance_length))) in
  let r := O_wlc_isometric.legendre (O_wlc_thermodynamics.isometric (O_wlc.thermodynamics (O_wlc.init number_of_links link_length hinge_mass persistance_length))) in
  P_wlc_isometric_legendre.hinge_mass p = O_wlc_isometric_legendre.hinge_mass r
  /\ P_wlc_isometric_legendre.link_length p = O_wlc_isometric_legendre.link_length r
  /\ P_wlc_isometric_legendre.number_of_links p = O_wlc_isometric_legendre.number_of_links r
  /\ P_wlc_isometric_legendre.persistance_length p = O_wlc_isometric_legendre.persistance_length r
  /\ (forall (end_to_end_length : ndarray T) (temperature : T),
     elementwise (fun x => O_wlc_isometric_legendre.gibbs_free_energy r x temperature) end_to_end_length
       (P_wlc_isometric_legendre.gibbs_free_energy p end_to_end_length temperature))
  /\ (forall (end_to_end_length : ndarray T) (temperature : T),
     elementwise (fun x => O_wlc_isometric_legendre.gibbs_free_energy_per_link r x temperature) end_to_end_length
       (P_wlc_isometric_legendre.gibbs_free_energy_per_link p end_to_end_length temperature))
  /\ (forall (end_to_end_length : ndarray T) (temperature : T),
     elementwise (fun x => O_wlc_isometric_legendre.relative_gibbs_free_energy r x temperature) end_to_end_length
       (P_wlc_isometric_legendre.relative_gibbs_free_energy p end_to_end_length temperature))
  /\ (forall (end_to_end_length : ndarray T) (temperature : T),
     elementwise (fun x => O_wlc_isometric_legendre.relative_gibbs_free_energy_per_link r x temperature) end_to_end_length
       (P_wlc_isometric_legendre.relative_gibbs_free_energy_per_link p end_to_end_length temperature))
  /\ (forall (nondimensional_end_to_end_length_per_link : ndarray T) (temperature : T),
     elementwise (fun x => O_wlc_isometric_legendre.nondimensional_gibbs_free_energy r x temperature) nondimensional_end_to_end_length_per_link
       (P_wlc_isometric_legendre.nondimensional_gibbs_free_energy p nondimensional_end_to_end_length_per_link temperature))
  /\ (forall (nondimensional_end_to_end_length_per_link : ndarray T) (temperature : T),
     elementwise (fun x => O_wlc_isometric_legendre.nondimensional_gibbs_free_energy_per_link r x temperature) nondimensional_end_to_end_length_per_link
       (P_wlc_isometric_legendre.nondimensional_gibbs_free_energy_per_link p nondimensional_end_to_end_length_per_link temperature))
  /\ (forall (nondimensional_end_to_end_length_per_link : ndarray T),
     elementwise (fun x => O_wlc_isometric_legendre.nondimensional_relative_gibbs_free_energy r x) nondimensional_end_to_end_length_per_link
       (P_wlc_isometric_legendre.nondimensional_relative_gibbs_free_energy p nondimensional_end_to_end_length_per_link))
  /\ (forall (nondimensional_end_to_end_length_per_link : ndarray T),
     elementwise (fun x => O_wlc_isometric_legendre.nondimensional_relative_gibbs_free_energy_per_link r x) nondimensional_end_to_end_length_per_link
       (P_wlc_isometric_legendre.nondimensional_relative_gibbs_free_energy_per_link p nondimensional_end_to_end_length_per_link)).
Proof.
  intros T Sc number_of_links link_length hinge_mass persistance_length p r.
  assert (P_wlc_isometric_legendre.hinge_mass p = O_wlc_isometric_legendre.hinge_mass r) by reflexivity.
  assert (P_wlc_isometric_legendre.link_length p = O_wlc_isometric_legendre.link_length r) by reflexivity.
  assert (P_wlc_isometric_legendre.number_of_links p = O_wlc_isometric_legendre.number_of_links r) by reflexivity.
  assert (P_wlc_isometric_legendre.persistance_length p = O_wlc_isometric_legendre.persistance_length r) by reflexivity.
  assert (P_wlc_isometric_legendre.nondimensional_persistance_length p = O_wlc_isometric_legendre.nondimensional_persistance_length r) by reflexivity.
  clearbody p r.
  unfold P_wlc_isometric_legendre.gibbs_free_energy,
    P_wlc_isometric_legendre.gibbs_free_energy_per_link,
    P_wlc_isometric_legendre.relative_gibbs_free_energy,
    P_wlc_isometric_legendre.relative_gibbs_free_energy_per_link,
    P_wlc_isometric_legendre.nondimensional_gibbs_free_energy,
    P_wlc_isometric_legendre.nondimensional_gibbs_free_energy_per_link,
    P_wlc_isometric_legendre.nondimensional_relative_gibbs_free_energy,
    P_wlc_isometric_legendre.nondimensional_relative_gibbs_free_energy_per_link,
    O_wlc_isometric_legendre.gibbs_free_energy, O_wlc_isometric_legendre.gibbs_free_energy_per_link,
    O_wlc_isometric_legendre.relative_gibbs_free_energy,
    O_wlc_isometric_legendre.relative_gibbs_free_energy_per_link,
    O_wlc_isometric_legendre.nondimensional_gibbs_free_energy,
    O_wlc_isometric_legendre.nondimensional_gibbs_free_energy_per_link,
    O_wlc_isometric_legendre.nondimensional_relative_gibbs_free_energy,
    O_wlc_isometric_legendre.nondimensional_relative_gibbs_free_energy_per_link.
  elementwise_tac.
Qed.
Print Assumptions C58_wlc_isometric_legendre.

Theorem C58_wlc_isotensional : forall (T : Type) (Sc : Scalar T) (number_of_links : Z) (link_length : T) (hinge_mass : T) (persistance_length : T),
  let p := P_wlc_thermodynamics.isotensional (P_wlc.thermodynamics (P_wlc.init number_of_links link_length hinge_mass persistance_length)) in
  let r := O_wlc_thermodynamics.isotensional (O_wlc.thermodynamics (O_wlc.init number_of_links link_length hinge_mass persistance_length)) in
  P_wlc_isotensional.hinge_mass p = O_wlc_isotensional.hinge_mass r
  /\ P_wlc_isotensional.link_length p = O_wlc_isotensional.link_length r
  /\ P_wlc_isotensional.number_of_links p = O_wlc_isotensional.number_of_links r
  /\ P_wlc_isotensional.persistance_length p = O_wlc_isotensional.persistance_length r
  /\ (forall (force : ndarray T) (temperature : T),
     elementwise_panic (fun x => O_wlc_isotensional.end_to_end_length r x temperature) force
       (P_wlc_isotensional.end_to_end_length p force temperature))
  /\ (forall (force : ndarray T) (temperature : T),
     elementwise_panic (fun x => O_wlc_isotensional.end_to_end_length_per_link r x temperature) force
       (P_wlc_isotensional.end_to_end_length_per_link p force temperature))
  /\ (forall (nondimensional_force : ndarray T),
     elementwise_panic (fun x => O_wlc_isotensional.nondimensional_end_to_end_length r x) nondimensional_force
       (P_wlc_isotensional.nondimensional_end_to_end_length p nondimensional_force))
  /\ (forall (nondimensional_force : ndarray T),
     elementwise_panic (fun x => O_wlc_isotensional.nondimensional_end_to_end_length_per_link r x) nondimensional_force
       (P_wlc_isotensional.nondimensional_end_to_end_length_per_link p nondimensional_force))
  /\ (forall (force : ndarray T) (temperature : T),
     elementwise_panic (fun x => O_wlc_isotensional.gibbs_free_energy r x temperature) force
       (P_wlc_isotensional.gibbs_free_energy p force temperature))
  /\ (forall (force : ndarray T) (temperature : T),
     elementwise_panic (fun x => O_wlc_isotensional.gibbs_free_energy_per_link r x temperature) force
       (P_wlc_isotensional.gibbs_free_energy_per_link p force temperature))
  /\ (forall (force : ndarray T) (temperature : T),
     elementwise_panic (fun x => O_wlc_isotensional.relative_gibbs_free_energy r x temperature) force
       (P_wlc_isotensional.relative_gibbs_free_energy p force temperature))
  /\ (forall (force : ndarray T) (temperature : T),
     elementwise_panic (fun x => O_wlc_isotensional.relative_gibbs_free_energy_per_link r x temperature) force
       (P_wlc_isotensional.relative_gibbs_free_energy_per_link p force temperature))
  /\ (forall (nondimensional_force : ndarray T) (temperature : T),
     elementwise_panic (fun x => O_wlc_isotensional.nondimensional_gibbs_free_energy r x temperature) nondimensional_force
       (P_wlc_isotensional.nondimensional_gibbs_free_energy p nondimensional_force temperature))
  /\ (forall (nondimensional_force : ndarray T) (temperature : T),
     elementwise_panic (fun x => O_wlc_isotensional.nondimensional_gibbs_free_energy_per_link r x temperature) nondimensional_force
       (P_wlc_isotensional.nondimensional_gibbs_free_energy_per_link p nondimensional_force temperature))
  /\ (forall (nondimensional_force : ndarray T),
     elementwise_panic (fun x => O_wlc_isotensional.nondimensional_relative_gibbs_free_energy r x) nondimensional_force
       (P_wlc_isotensional.nondimensional_relative_gibbs_free_energy p nondimensional_force))
  /\ (forall (nondimensional_force : ndarray T),
     elementwise_panic (fun x => O_wlc_isotensional.nondimensional_relative_gibbs_free_energy_per_link r x) nondimensional_force
       (P_wlc_isotensional.nondimensional_relative_gibbs_free_energy_per_link p nondimensional_force)).
Proof.
  intros T Sc number_of_links link_length hinge_mass persistance_length p r.
  assert (P_wlc_isotensional.hinge_mass p = O_wlc_isotensional.hinge_mass r) by reflexivity.
  assert (P_wlc_isotensional.link_length p = O_wlc_isotensional.link_length r) by reflexivity.
  assert (P_wlc_isotensional.number_of_links p = O_wlc_isotensional.number_of_links r) by reflexivity.
  assert (P_wlc_isotensional.persistance_length p = O_wlc_isotensional.persistance_length r) by reflexivity.
  assert (P_wlc_isotensional.nondimensional_persistance_length p = O_wlc_isotensional.nondimensional_persistance_length r) by reflexivity.
  clearbody p r.
  unfold P_wlc_isotensional.end_to_end_length, P_wlc_isotensional.end_to_end_length_per_link,
    P_wlc_isotensional.nondimensional_end_to_end_length,
    P_wlc_isotensional.nondimensional_end_to_end_length_per_link,
    P_wlc_isotensional.gibbs_free_energy, P_wlc_isotensional.gibbs_free_energy_per_link,
    P_wlc_isotensional.relative_gibbs_free_energy,
    P_wlc_isotensional.relative_gibbs_free_energy_per_link,
    P_wlc_isotensional.nondimensional_gibbs_free_energy,
    P_wlc_isotensional.nondimensional_gibbs_free_energy_per_link,
    P_wlc_isotensional.nondimensional_relative_gibbs_free_energy,
    P_wlc_isotensional.nondimensional_relative_gibbs_free_energy_per_link,
    O_wlc_isotensional.end_to_end_length, O_wlc_isotensional.end_to_end_length_per_link,
    O_wlc_isotensional.nondimensional_end_to_end_length,
    O_wlc_isotensional.nondimensional_end_to_end_length_per_link,
    O_wlc_isotensional.gibbs_free_energy, O_wlc_isotensional.gibbs_free_energy_per_link,
    O_wlc_isotensional.relative_gibbs_free_energy,
    O_wlc_isotensional.relative_gibbs_free_energy_per_link,
    O_wlc_isotensional.nondimensional_gibbs_free_energy,
    O_wlc_isotensional.nondimensional_gibbs_free_energy_per_link,
    O_wlc_isotensional.nondimensional_relative_gibbs_free_energy,
    O_wlc_isotensional.nondimensional_relative_gibbs_free_energy_per_link.
  elementwise_tac.
Qed.
Print Assumptions C58_wlc_isotensional.

Theorem C58_wlc_isotensional_legendre : forall (T : Type) (Sc : Scalar T) (number_of_links : Z) (link_length : T) (hinge_mass : T) (persistance_length : T),
  let p := P_wlc_isotensional.legendre (P_wlc_thermodynamics.isotensional (P_wlc.thermodynamics (P_wlc.init number_of_links link_length hinge_mass persistance_length))) in
  let r := O_wlc_isotensional.legendre (O_wlc_thermodynamics.isotensional (O_wlc.thermodynamics (O_wlc.init number_of_links link_length hinge_mass persistance_length))) in
  P_wlc_isotensional_legendre.hinge_mass p = O_wlc_isotensional_legendre.hinge_mass r
  /\ P_wlc_isotensional_legendre.link_length p = O_wlc_isotensional_legendre.link_length r
  /\ P_wlc_isotensional_legendre.number_of_links p = O_wlc_isotensional_legendre.number_of_links r
  /\ P_wlc_isotensional_legendre.persistance_length p = O_wlc_isotensional_legendre.persistance_length r
  /\ (forall (force : ndarray T) (temperature : T),
     elementwise_panic (fun x => O_wlc_isotensional_legendre.helmholtz_free_energy r x temperature) force
       (P_wlc_isotensional_legendre.helmholtz_free_energy p force temperature))
  /\ (forall (force : ndarray T) (temperature : T),
     elementwise_panic (fun x => O_wlc_isotensional_legendre.helmholtz_free_energy_per_link r x temperature) force
       (P_wlc_isotensional_legendre.helmholtz_free_energy_per_link p force temperature))
  /\ (forall (force : ndarray T) (temperature : T),
     elementwise_panic (fun x => O_wlc_isotensional_legendre.relative_helmholtz_free_energy r x temperature) force
       (P_wlc_isotensional_legendre.relative_helmholtz_free_energy p force temperature))
  /\ (forall (force : ndarray T) (temperature : T),
     elementwise_panic (fun x => O_wlc_isotensional_legendre.relative_helmholtz_free_energy_per_link r x temperature) force
       (P_wlc_isotensional_legendre.relative_helmholtz_free_energy_per_link p force temperature))
  /\ (forall (nondimensional_force : ndarray T) (temperature : T),
     elementwise_panic (fun x => O_wlc_isotensional_legendre.nondimensional_helmholtz_free_energy r x temperature) nondimensional_force
       (P_wlc_isotensional_legendre.nondimensional_helmholtz_free_energy p nondimensional_force temperature))
  /\ (forall (nondimensional_force : ndarray T) (temperature : T),
     elementwise_panic (fun x => O_wlc_isotensional_legendre.nondimensional_helmholtz_free_energy_per_link r x temperature) nondimensional_force
       (P_wlc_isotensional_legendre.nondimensional_helmholtz_free_energy_per_link p nondimensional_force temperature))
  /\ (forall (nondimensional_force : ndarray T),
     elementwise_panic (fun x => O_wlc_isotensional_legendre.nondimensional_relative_helmholtz_free_energy r x) nondimensional_force
       (P_wlc_isotensional_legendre.nondimensional_relative_helmholtz_free_energy p nondimensional_force))
  /\ (forall (nondimensional_force : ndarray T),
     elementwise_panic (fun x => O_wlc_isotensional_legendre.nondimensional_relative_helmholtz_free_energy_per_link r x) nondimensional_force
       (P_wlc_isotensional_legendre.nondimensional_relative_helmholtz_free_energy_per_link p nondimensional_force)).
Proof.
  intros T Sc number_of_links link_length hinge_mass persistance_length p r.
  assert (P_wlc_isotensional_legendre.hinge_mass p = O_wlc_isotensional_legendre.hinge_mass r) by reflexivity.
  assert (P_wlc_isotensional_legendre.link_length p = O_wlc_isotensional_legendre.link_length r) by reflexivity.
  assert (P_wlc_isotensional_legendre.number_of_links p = O_wlc_isotensional_legendre.number_of_links r) by reflexivity.
  assert (P_wlc_isotensional_legendre.persistance_length p = O_wlc_isotensional_legendre.persistance_length r) by reflexivity.
  assert (P_wlc_isotensional_legendre.nondimensional_persistance_length p = O_wlc_isotensional_legendre.nondimensional_persistance_length r) by reflexivity.
  clearbody p r.
  unfold P_wlc_isotensional_legendre.helmholtz_free_energy,
    P_wlc_isotensional_legendre.helmholtz_free_energy_per_link,
    P_wlc_isotensional_legendre.relative_helmholtz_free_energy,
    P_wlc_isotensional_legendre.relative_helmholtz_free_energy_per_link,
    P_wlc_isotensional_legendre.nondimensional_helmholtz_free_energy,
    P_wlc_isotensional_legendre.nondimensional_helmholtz_free_energy_per_link,
    P_wlc_isotensional_legendre.nondimensional_relative_helmholtz_free_energy,
    P_wlc_isotensional_legendre.nondimensional_relative_helmholtz_free_energy_per_link,
    O_wlc_isotensional_legendre.helmholtz_free_energy,
    O_wlc_isotensional_legendre.helmholtz_free_energy_per_link,
    O_wlc_isotensional_legendre.relative_helmholtz_free_energy,
    O_wlc_isotensional_legendre.relative_helmholtz_free_energy_per_link,
    O_wlc_isotensional_legendre.nondimensional_helmholtz_free_energy,
    O_wlc_isotensional_legendre.nondimensional_helmholtz_free_energy_per_link,
    O_wlc_isotensional_legendre.nondimensional_relative_helmholtz_free_energy,
    O_wlc_isotensional_legendre.nondimensional_relative_helmholtz_free_energy_per_link.
  elementwise_tac.
Qed.
Print Assumptions C58_wlc_isotensional_legendre.

(** One Rust method repeats the formula of the free function that Python calls; the two
    agree over the reals for every link length, stiffness and temperature other than zero. *)
Theorem C58_efjc_isotensional_asymptotic_legendre_per_link :
  forall (number_of_links : Z) (link_length hinge_mass link_stiffness : R)
    (nondimensional_force : ndarray R) (temperature : R),
  link_length <> 0%R -> link_stiffness <> 0%R -> temperature <> 0%R ->
  let p := P_efjc_isotensional_asymptotic.legendre (P_efjc_isotensional.asymptotic
      (P_efjc_thermodynamics.isotensional (P_efjc.thermodynamics
        (P_efjc.init number_of_links link_length hinge_mass link_stiffness)))) in
  let r := O_efjc_isotensional_asymptotic.legendre (O_efjc_isotensional.asymptotic
      (O_efjc_thermodynamics.isotensional (O_efjc.thermodynamics
        (O_efjc.init number_of_links link_length hinge_mass link_stiffness)))) in
  elementwise (fun x => O_efjc_isotensional_asymptotic_legendre.nondimensional_helmholtz_free_energy_per_link r x temperature)
    nondimensional_force
    (P_efjc_isotensional_asymptotic_legendre.nondimensional_helmholtz_free_energy_per_link p nondimensional_force temperature).
Proof.
  intros N l m k a T Hl Hk HT p r.
  eapply elementwise_of_mapv; [reflexivity | intro x].
  symmetry; exact (PObjects.efjc_inlined_method N l m k x T Hl Hk HT).
Qed.
Print Assumptions C58_efjc_isotensional_asymptotic_legendre_per_link.

(** What [elementwise] says of a two by two array: the entries are mapped in place. *)
Example elementwise_example : forall (f : R -> R) b,
  elementwise f (mk_array (cons 2%nat (cons 2%nat nil)) (cons 1%R (cons 2%R (cons 3%R (cons 4%R nil))))) b ->
  b = mk_array (cons 2%nat (cons 2%nat nil)) (cons (f 1%R) (cons (f 2%R) (cons (f 3%R) (cons (f 4%R) nil)))).
Proof. exact elementwise_two_by_two. Qed.

(** A call can fail: the isometric force of a chain of one link panics in a debug build,
    because the number of links minus two underflows, so the call on an array with one
    entry panics. *)
Example python_panics : forall x temperature : R,
  P_fjc_isometric.force Debug
    (P_fjc_thermodynamics.isometric (P_fjc.thermodynamics (P_fjc.init 1 1%R 1%R)))
    (mk_array (cons 1%nat nil) (cons x nil)) temperature = None.
Proof. exact one_link_panics. Qed.
