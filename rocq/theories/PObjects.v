(** Lemmas about the objects that [PropsObjects] cannot close by computation. *)
Require Import Reals Lra Lia ZArith.
Require Import Verif.Scalar Verif.MConst Verif.MMath Verif.MFjc Verif.MEfjc Verif.SpecThermo Verif.SpecLangevin.
Require Import Verif.PBase Verif.PLangevin Verif.PSigmoid.
Local Open Scope R_scope.

Lemma efjc_inlined_method : forall (number_of_links : Z) (link_length hinge_mass link_stiffness : R)
    (nondimensional_force temperature : R),
  link_length <> 0%R -> link_stiffness <> 0%R -> temperature <> 0%R ->
  O_efjc_isotensional_asymptotic_legendre.nondimensional_helmholtz_free_energy_per_link
    (O_efjc_isotensional_asymptotic.legendre (O_efjc_isotensional.asymptotic
      (O_efjc_thermodynamics.isotensional (O_efjc.thermodynamics
        (O_efjc.init number_of_links link_length hinge_mass link_stiffness)))))
    nondimensional_force temperature
  = efjc_isotensional_asymptotic_legendre.nondimensional_helmholtz_free_energy_per_link
      link_length hinge_mass
      (link_stiffness * spowi link_length 2 / BOLTZMANN_CONSTANT / temperature)%S
      nondimensional_force temperature.
Proof.
  intros N l m k eta T Hl Hk HT.
  unfold O_efjc_isotensional_asymptotic_legendre.nondimensional_helmholtz_free_energy_per_link,
    efjc_isotensional_asymptotic_legendre.nondimensional_helmholtz_free_energy_per_link.
  simpl O_efjc_isotensional_asymptotic_legendre.link_length.
  simpl O_efjc_isotensional_asymptotic_legendre.link_stiffness.
  simpl O_efjc_isotensional_asymptotic_legendre.hinge_mass.
  replace (sdec 2 0 * spi * spowi l 2 / (k * spowi l 2 / BOLTZMANN_CONSTANT / T))%S
    with (sdec 2 0 * spi * BOLTZMANN_CONSTANT * T / k)%S; [reflexivity|].
  unR. change (@BOLTZMANN_CONSTANT R R_scalar) with kB. pose proof kB_pos.
  field. repeat split; lra.
Qed.

Lemma fjc_objects_differ :
  O_fjc_isotensional.end_to_end_length
    (O_fjc_thermodynamics.isotensional (O_fjc.thermodynamics (O_fjc.init 8 1%R 1%R)))
    1%R 300%R
  <> O_fjc_isotensional.end_to_end_length
    (O_fjc_thermodynamics.isotensional (O_fjc.thermodynamics (O_fjc.init 16 1%R 1%R)))
    1%R 300%R.
Proof.
  intro E.
  change (fjc_isotensional.end_to_end_length 8 1 1 300 = fjc_isotensional.end_to_end_length 16 1 1 300) in E.
  rewrite !(proj1 (length_scaled _ _ _ _)) in E. pose proof kB_pos.
  pose proof (langevin_pos (1 * 1 / (kB * 300))) as L.
  assert (0 < 1 * 1 / (kB * 300)) by (apply Rdiv_lt_0_compat; lra). lra.
Qed.
