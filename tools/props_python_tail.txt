(** One Rust method repeats the formula of the free function that Python calls; the two
    agree over the reals for every link length, stiffness and temperature other than zero. *)
Theorem C58_efjc_isotensional_asymptotic_legendre_per_link :
  forall (number_of_links : Z) (link_length hinge_mass link_stiffness : R)
    (nondimensional_force : ndarray R) (temperature : R),
  link_length <> 0%R -> link_stiffness <> 0%R -> temperature <> 0%R ->
  let p := P_efjc_isotensional_asymptotic.legendre (P_efjc_isotensional.asymptotic
      (P_efjc_thermodynamics.isotensional (P_efjc.thermodynamics
        (P_efjc.init number_of_links link_length hinge_mass link_stiffness)))) in
  let r := O_efjc_isotensional_asymptotic.legendre (O_efjc_isotensional.asymptotic
      (O_efjc_thermodynamics.isotensional (O_efjc.thermodynamics
        (O_efjc.init number_of_links link_length hinge_mass link_stiffness)))) in
  elementwise (fun x => O_efjc_isotensional_asymptotic_legendre.nondimensional_helmholtz_free_energy_per_link r x temperature)
    nondimensional_force
    (P_efjc_isotensional_asymptotic_legendre.nondimensional_helmholtz_free_energy_per_link p nondimensional_force temperature).
Proof.
  intros N l m k a T Hl Hk HT p r.
  eapply elementwise_of_mapv; [reflexivity | intro x].
  symmetry; exact (PObjects.efjc_inlined_method N l m k x T Hl Hk HT).
Qed.
Print Assumptions C58_efjc_isotensional_asymptotic_legendre_per_link.

(** What [elementwise] says of a two by two array: the entries are mapped in place. *)
Example elementwise_example : forall (f : R -> R) b,
  elementwise f (mk_array (cons 2%nat (cons 2%nat nil)) (cons 1%R (cons 2%R (cons 3%R (cons 4%R nil))))) b ->
  b = mk_array (cons 2%nat (cons 2%nat nil)) (cons (f 1%R) (cons (f 2%R) (cons (f 3%R) (cons (f 4%R) nil)))).
Proof. exact elementwise_two_by_two. Qed.

(** A call can fail: the isometric force of a chain of one link panics in a debug build,
    because the number of links minus two underflows, so the call on an array with one
    entry panics. *)
Example python_panics : forall x temperature : R,
  P_fjc_isometric.force Debug
    (P_fjc_thermodynamics.isometric (P_fjc.thermodynamics (P_fjc.init 1 1%R 1%R)))
    (mk_array (cons 1%nat nil) (cons x nil)) temperature = None.
Proof. exact one_link_panics. Qed.
