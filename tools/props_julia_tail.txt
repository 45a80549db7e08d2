(** One Rust method repeats the formula of the free function that Julia calls; the two
    agree over the reals for every link length, stiffness and temperature other than zero. *)
Theorem C61_efjc_isotensional_asymptotic_legendre_per_link :
  forall (number_of_links : Z) (link_length hinge_mass link_stiffness temperature : R)
    (nondimensional_force : jarray R) out,
  link_length <> 0%R -> link_stiffness <> 0%R -> temperature <> 0%R ->
  J_efjc_isotensional_asymptotic_legendre.nondimensional_helmholtz_free_energy_per_link
    (J_efjc_isotensional_asymptotic_legendre.init number_of_links link_length hinge_mass link_stiffness)
    nondimensional_force temperature = Some out ->
  dims out = dims nondimensional_force /\
  forall index, valid index (dims out) ->
  at_ out index = Finished (Some
    (O_efjc_isotensional_asymptotic_legendre.nondimensional_helmholtz_free_energy_per_link
      (O_efjc_isotensional_asymptotic_legendre.init number_of_links link_length hinge_mass link_stiffness)
      (at_ nondimensional_force index) temperature)).
Proof. exact efjc_per_link. Qed.
Print Assumptions C61_efjc_isotensional_asymptotic_legendre_per_link.

(** ** What [broadcast] does *)

(** For any number of arguments and any function of numbers, [broadcast] is the broadcast of
    that function over the arguments, as SpecJulia.v describes it: it fails exactly when the
    sizes of two arguments clash along a dimension, and otherwise gives, at each index, the
    function of the entries that meet there. *)
Theorem C61_broadcast : forall (T r : Type) (s : list ctype) (f : cfun (T := T) s r) (a : arrays s),
  broadcasts s f a (apply_arrays s (broadcast s f) a).
Proof. exact (fun T r s f a => broadcast_broadcasts r s f a). Qed.
Print Assumptions C61_broadcast.

(** The failure is real: arguments that clash are never broadcast. *)
Theorem C61_broadcast_fails : forall (T r : Type) (s : list ctype) (f : cfun (T := T) s r) (a : arrays s) d1 d2,
  In d1 (shapes s a) -> In d2 (shapes s a) -> clash d1 d2 ->
  apply_arrays s (broadcast s f) a = None.
Proof. exact (fun T r s f a => broadcast_clash r s f a). Qed.
Print Assumptions C61_broadcast_fails.

(** The entry that meets an index is the number itself for a number, and the entry at that
    index for an array of the shape of the result. *)
Theorem C61_entries :
  (forall index own, meets index own [] -> own = [])
  /\ (forall index own d, valid index d -> meets index own d -> own = index).
Proof. exact (conj meets_number meets_same). Qed.
Print Assumptions C61_entries.

(** ** The worm-like chain *)

(** Two functions of the isometric worm-like chain declare one parameter more than the C
    function has, a leading UInt8: such a call has undefined behaviour.  (On x86-64 systems
    that pass integers and floating-point numbers in separate registers it may go unnoticed;
    where all arguments share their positions, as on Windows, the function reads the wrong
    ones.) *)
Theorem C61_wlc_distributions_refuted :
  forall (T : Type) (Sc : Scalar T) (number_of_links : jarray Z)
    (nondimensional_persistance_length : jarray T) (normalization_nondimensional_equilibrium_distribution : T)
    (nondimensional_end_to_end_length_per_link : jarray T) out index,
  (jl_wlc_isometric.nondimensional_equilibrium_distribution number_of_links
     nondimensional_persistance_length normalization_nondimensional_equilibrium_distribution
     nondimensional_end_to_end_length_per_link = Some out -> at_ out index = Undefined)
  /\ (jl_wlc_isometric.nondimensional_equilibrium_radial_distribution number_of_links
     nondimensional_persistance_length normalization_nondimensional_equilibrium_distribution
     nondimensional_end_to_end_length_per_link = Some out -> at_ out index = Undefined).
Proof. exact wlc_distributions. Qed.
Print Assumptions C61_wlc_distributions_refuted.

(** The constructor of the isometric worm-like chain integrates one of them, so that no
    worm-like chain can be constructed from Julia without undefined behaviour, whatever its
    parameters. *)
Theorem C61_wlc_constructors_refuted :
  forall (T : Type) (Sc : Scalar T) (prof : profile) (number_of_links : Z) (link_length hinge_mass persistance_length : T),
  J_wlc_isometric.init number_of_links link_length hinge_mass persistance_length = Undefined
  /\ J_wlc_thermodynamics.init number_of_links link_length hinge_mass persistance_length = Undefined
  /\ J_wlc.init number_of_links link_length hinge_mass persistance_length = Undefined.
Proof. exact wlc_constructors. Qed.
Print Assumptions C61_wlc_constructors_refuted.

(** ** Examples *)

(** A vector of two forces with one temperature: the Langevin extension at each. *)
Example julia_vector : forall (number_of_links : Z) (link_length hinge_mass f1 f2 temperature : R),
  let j := J_fjc_isotensional.init number_of_links link_length hinge_mass in
  let r := O_fjc_isotensional.init number_of_links link_length hinge_mass in
  exists out,
    J_fjc_isotensional.end_to_end_length j
      {| dims := [2%nat]; at_ := fun index => if Nat.eqb (hd O index) O then f1 else f2 |} (MJuliaBase.num temperature) = Some out
    /\ dims out = [2%nat]
    /\ at_ out [0%nat] = Finished (Some (O_fjc_isotensional.end_to_end_length r f1 temperature))
    /\ at_ out [1%nat] = Finished (Some (O_fjc_isotensional.end_to_end_length r f2 temperature)).
Proof. exact vector_of_forces. Qed.

(** A vector of two forces and one of three temperatures clash. *)
Example julia_mismatch : forall (number_of_links : Z) (link_length hinge_mass : R) f t,
  J_fjc_isotensional.end_to_end_length (J_fjc_isotensional.init number_of_links link_length hinge_mass)
    {| dims := [2%nat]; at_ := f |} {| dims := [3%nat]; at_ := t |} = None.
Proof. exact vectors_clash. Qed.

(** A column of two forces and a row of three temperatures make a matrix. *)
Example julia_outer : forall (number_of_links : Z) (link_length hinge_mass : R) f t,
  exists out,
    J_fjc_isotensional.end_to_end_length (J_fjc_isotensional.init number_of_links link_length hinge_mass)
      {| dims := [2%nat]; at_ := f |} {| dims := [1%nat; 3%nat]; at_ := t |} = Some out
    /\ dims out = [2%nat; 3%nat]
    /\ at_ out [1%nat; 2%nat] = Finished (Some
         (O_fjc_isotensional.end_to_end_length (O_fjc_isotensional.init number_of_links link_length hinge_mass)
           (f [1%nat]) (t [0%nat; 2%nat]))).
Proof. exact outer_product. Qed.
