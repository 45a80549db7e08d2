(** Proofs about single functions of the Julia interface. *)
From Coq Require Import ZArith List Bool Arith Reals Lia.
From Verif Require Import Scalar MConst MMath MBindConstitutive MFjc MEfjc MWlc MExtern MJuliaBase SpecJulia PJuliaBase MJulia PJulia PObjects.
Import ListNotations.

Lemma shapes_clash_none : forall (T r : Type) s (f : cfun (T := T) s r) a d1 d2,
  In d1 (shapes s a) -> In d2 (shapes s a) -> clash d1 d2 ->
  apply_arrays s (broadcast s f) a = None.
Proof.
  intros T r s f a d1 d2 H1 H2 (k & K1 & K2 & K3).
  pose proof (broadcast_broadcasts r s f a) as B. unfold broadcasts in B.
  destruct (apply_arrays s (broadcast s f) a) as [out|]; [|reflexivity].
  destruct B as (B & _). exfalso.
  destruct (B d1 k H1) as [e1|e1]; [|contradiction].
  destruct (B d2 k H2) as [e2|e2]; [|contradiction].
  apply K3; congruence.
Qed.
Lemma broadcast_clash : forall (T r : Type) s (f : cfun (T := T) s r) a d1 d2,
  In d1 (shapes s a) -> In d2 (shapes s a) -> clash d1 d2 ->
  apply_arrays s (broadcast s f) a = None.
Proof. exact shapes_clash_none. Qed.
Arguments broadcast_clash {T}.

Lemma pick_valid : forall index d, valid index d -> pick d index = index.
Proof.
  intros index d V. apply (meets_same _ _ d V), pick_meets.
  rewrite (valid_length _ _ V). apply Nat.le_refl.
Qed.

Lemma efjc_per_link :
  forall (number_of_links : Z) (link_length hinge_mass link_stiffness temperature : R)
    (nondimensional_force : jarray R) out,
  link_length <> 0%R -> link_stiffness <> 0%R -> temperature <> 0%R ->
  J_efjc_isotensional_asymptotic_legendre.nondimensional_helmholtz_free_energy_per_link
    (J_efjc_isotensional_asymptotic_legendre.init number_of_links link_length hinge_mass link_stiffness)
    nondimensional_force temperature = Some out ->
  dims out = dims nondimensional_force /\
  forall index, valid index (dims out) ->
  at_ out index = Finished (Some
    (O_efjc_isotensional_asymptotic_legendre.nondimensional_helmholtz_free_energy_per_link
      (O_efjc_isotensional_asymptotic_legendre.init number_of_links link_length hinge_mass link_stiffness)
      (at_ nondimensional_force index) temperature)).
Proof.
  intros N l m k T a out Hl Hk HT.
  cbv [J_efjc_isotensional_asymptotic_legendre.nondimensional_helmholtz_free_energy_per_link
       J_efjc_isotensional_asymptotic_legendre.init].
  rewrite F_efjc_isotensional_asymptotic_legendre_nondimensional_helmholtz_free_energy_per_link.
  intros H.
  pose proof (efjc_inlined_method N l m k) as E.
  assert (S : dims out = dims a /\ forall index, at_ out index = Finished (Some
    (efjc_isotensional_asymptotic_legendre.nondimensional_helmholtz_free_energy_per_link l m
       (k * spowi l 2 / jl_BOLTZMANN_CONSTANT / T)%S (at_ a (pick (dims a) index)) T))).
  { destruct a as [[|d ds] e]; injection H as <-; split; reflexivity. }
  destruct S as (S1 & S2). split; [exact S1|]. intros index V.
  rewrite S2, pick_valid by (rewrite <- S1; exact V).
  do 2 f_equal. symmetry. exact (E (at_ a index) T Hl Hk HT).
Qed.

Lemma wlc_distributions :
  forall (T : Type) (Sc : Scalar T) (number_of_links : jarray Z)
    (nondimensional_persistance_length : jarray T) (normalization_nondimensional_equilibrium_distribution : T)
    (nondimensional_end_to_end_length_per_link : jarray T) out index,
  (jl_wlc_isometric.nondimensional_equilibrium_distribution number_of_links
     nondimensional_persistance_length normalization_nondimensional_equilibrium_distribution
     nondimensional_end_to_end_length_per_link = Some out -> at_ out index = Undefined)
  /\ (jl_wlc_isometric.nondimensional_equilibrium_radial_distribution number_of_links
     nondimensional_persistance_length normalization_nondimensional_equilibrium_distribution
     nondimensional_end_to_end_length_per_link = Some out -> at_ out index = Undefined).
Proof.
  intros T Sc a b c d out index.
  assert (G : forall f : cfun (T := T) [UInt8; Float64; Float64] (c_outcome T),
    (forall x y z, f x y z = Undefined) -> broadcast [UInt8; Float64; Float64] f a b d = Some out -> at_ out index = Undefined).
  { intros f Hf H. unfold broadcast in H. cbn [broadcast_from] in H.
    match type of H with match ?shape with _ => _ end = _ => destruct shape as [s|]; [|discriminate H] end.
    injection H as <-. apply Hf. }
  split; apply G; reflexivity.
Qed.

Lemma wlc_constructors :
  forall (T : Type) (Sc : Scalar T) (prof : profile) (number_of_links : Z) (link_length hinge_mass persistance_length : T),
  J_wlc_isometric.init number_of_links link_length hinge_mass persistance_length = Undefined
  /\ J_wlc_thermodynamics.init number_of_links link_length hinge_mass persistance_length = Undefined
  /\ J_wlc.init number_of_links link_length hinge_mass persistance_length = Undefined.
Proof.
  intros T Sc prof N l m p.
  assert (H : J_wlc_isometric.init N l m p = Undefined) by reflexivity.
  assert (H2 : J_wlc_thermodynamics.init N l m p = Undefined).
  { unfold J_wlc_thermodynamics.init. rewrite H. reflexivity. }
  split; [exact H|]. split; [exact H2|].
  unfold J_wlc.init. rewrite H2. reflexivity.
Qed.

Lemma vector_of_forces : forall (number_of_links : Z) (link_length hinge_mass f1 f2 temperature : R),
  let j := J_fjc_isotensional.init number_of_links link_length hinge_mass in
  let r := O_fjc_isotensional.init number_of_links link_length hinge_mass in
  exists out,
    J_fjc_isotensional.end_to_end_length j
      {| dims := [2%nat]; at_ := fun index => if Nat.eqb (hd O index) O then f1 else f2 |} (num temperature) = Some out
    /\ dims out = [2%nat]
    /\ at_ out [0%nat] = Finished (Some (O_fjc_isotensional.end_to_end_length r f1 temperature))
    /\ at_ out [1%nat] = Finished (Some (O_fjc_isotensional.end_to_end_length r f2 temperature)).
Proof.
  intros N l m f1 f2 T j r. cbv [j J_fjc_isotensional.init J_fjc_isotensional.end_to_end_length].
  rewrite F_fjc_isotensional_end_to_end_length. eexists. split; [reflexivity|].
  unfold O_fjc_isotensional.end_to_end_length. repeat split.
Qed.

Lemma vectors_clash : forall (number_of_links : Z) (link_length hinge_mass : R) f t,
  J_fjc_isotensional.end_to_end_length (J_fjc_isotensional.init number_of_links link_length hinge_mass)
    {| dims := [2%nat]; at_ := f |} {| dims := [3%nat]; at_ := t |} = None.
Proof. reflexivity. Qed.

Lemma outer_product : forall (number_of_links : Z) (link_length hinge_mass : R) f t,
  exists out,
    J_fjc_isotensional.end_to_end_length (J_fjc_isotensional.init number_of_links link_length hinge_mass)
      {| dims := [2%nat]; at_ := f |} {| dims := [1%nat; 3%nat]; at_ := t |} = Some out
    /\ dims out = [2%nat; 3%nat]
    /\ at_ out [1%nat; 2%nat] = Finished (Some
         (O_fjc_isotensional.end_to_end_length (O_fjc_isotensional.init number_of_links link_length hinge_mass)
           (f [1%nat]) (t [0%nat; 2%nat]))).
Proof.
  intros N l m f t. cbv [J_fjc_isotensional.init J_fjc_isotensional.end_to_end_length].
  rewrite F_fjc_isotensional_end_to_end_length. eexists. split; [reflexivity|].
  unfold O_fjc_isotensional.end_to_end_length. repeat split.
Qed.
