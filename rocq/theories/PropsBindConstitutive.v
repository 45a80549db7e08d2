(** C58 and C60: the Python and C interfaces of the constitutive models. *)
From Coq Require Import ZArith List Reals.
From Verif Require Import Scalar MArray MConstitutive MBindConstitutive SpecArray PBindConstitutive PBindExample.
Import ListNotations.

(** ** C58: Python

    The Python class is constructed exactly when the Rust object is; its methods act on
    the entries of an array as the methods of the Rust object. *)
Theorem C58_hyperelastic : forall (T : Type) (Sc : Scalar T) numgrid method (stiffness : T) links,
  match P_hyperelastic.init numgrid method stiffness links,
        hyperelastic.BucheSilberstein.init numgrid method stiffness links with
  | Some p, Some r =>
      P_hyperelastic.nondimensional_link_stiffness p = hyperelastic.BucheSilberstein.nondimensional_link_stiffness r
      /\ P_hyperelastic.number_of_links p = hyperelastic.BucheSilberstein.number_of_links r
      /\ (forall stretch, elementwise_panic (fun x => hyperelastic.BucheSilberstein.uniaxial_tension r x)
           stretch (P_hyperelastic.uniaxial_tension p stretch))
      /\ (forall stretch, elementwise_panic (fun x => hyperelastic.BucheSilberstein.equibiaxial_tension r x)
           stretch (P_hyperelastic.equibiaxial_tension p stretch))
  | None, None => True
  | _, _ => False
  end.
Proof. exact (fun T Sc => @python_hyperelastic T Sc). Qed.
Print Assumptions C58_hyperelastic.

(** The damage model takes the entries of the array as a loading history, in order, and
    returns the stresses and the intact fractions of the Rust object for that history. *)
Theorem C58_hyperelastic_damage : forall (T : Type) (Sc : Scalar T) numgrid method (critical stiffness : T) links swelling,
  match P_hyperelastic_damage.init numgrid method critical stiffness links swelling,
        hyperelastic_damage.BucheSilberstein.init numgrid method critical stiffness links swelling with
  | Some p, Some r =>
      P_hyperelastic_damage.nondimensional_critical_extension p
        = hyperelastic_damage.BucheSilberstein.nondimensional_critical_extension r
      /\ P_hyperelastic_damage.nondimensional_link_stiffness p
        = hyperelastic_damage.BucheSilberstein.nondimensional_link_stiffness r
      /\ P_hyperelastic_damage.number_of_links p = hyperelastic_damage.BucheSilberstein.number_of_links r
      /\ P_hyperelastic_damage.swelling_ratio p = hyperelastic_damage.BucheSilberstein.swelling_ratio r
      /\ (forall stretches,
           let l := length (entries stretches) in
           match P_hyperelastic_damage.uniaxial_tension p stretches,
                 hyperelastic_damage.BucheSilberstein.uniaxial_tension r l (entries stretches) with
           | Some (stress, probability), Some os =>
               shape stress = [l] /\ shape probability = [l]
               /\ entries stress = map fst os /\ entries probability = map snd os
           | None, None => True
           | _, _ => False
           end)
  | None, None => True
  | _, _ => False
  end.
Proof. exact (fun T Sc => @python_damage T Sc). Qed.
Print Assumptions C58_hyperelastic_damage.

(** Unlike every other method of the Python interface, this one does not return arrays of
    the shape it was given: a two-dimensional array of stretches that the model accepts
    comes back flattened. *)
Theorem C58_damage_shape_refuted : exists (p : P_hyperelastic_damage.t R) stretches stress probability,
  P_hyperelastic_damage.init hyperelastic_damage.NUMGRID 3 2%R 50%R 8 1%R = Some p
  /\ well_shaped stretches
  /\ P_hyperelastic_damage.uniaxial_tension p stretches = Some (stress, probability)
  /\ shape stress <> shape stretches.
Proof. exact damage_flattens. Qed.
Print Assumptions C58_damage_shape_refuted.

(** ** C60: C

    Called with the grid and the table of elements of a Rust object, followed by enough
    further readable memory, the exported functions return what the object's methods
    return. *)
Theorem C60_enough_memory_partial : forall (T : Type) (Sc : Scalar T) numgrid method (stiffness : T) links r more_element more_grid stretch,
  hyperelastic.BucheSilberstein.init numgrid method stiffness links = Some r ->
  (numgrid * numgrid * (numgrid * numgrid)
     <= length (concat (hyperelastic.BucheSilberstein.element r) ++ more_element))%nat ->
  (numgrid * numgrid <= length (hyperelastic.BucheSilberstein.grid r ++ more_grid))%nat ->
  extern_hyperelastic.constitutive_hyperelastic_buche_silberstein_uniaxial_tension numgrid
    (concat (hyperelastic.BucheSilberstein.element r) ++ more_element) (hyperelastic.BucheSilberstein.factor r)
    (hyperelastic.BucheSilberstein.grid r ++ more_grid) (hyperelastic.BucheSilberstein.normalization r)
    method stiffness links stretch
  = Finished (hyperelastic.BucheSilberstein.uniaxial_tension r stretch)
  /\ extern_hyperelastic.constitutive_hyperelastic_buche_silberstein_equibiaxial_tension numgrid
    (concat (hyperelastic.BucheSilberstein.element r) ++ more_element) (hyperelastic.BucheSilberstein.factor r)
    (hyperelastic.BucheSilberstein.grid r ++ more_grid) (hyperelastic.BucheSilberstein.normalization r)
    method stiffness links stretch
  = Finished (hyperelastic.BucheSilberstein.equibiaxial_tension r stretch).
Proof. exact (fun T Sc => @extern_enough T Sc). Qed.
Print Assumptions C60_enough_memory_partial.

(** Called with exactly the grid and the table of elements, which is all a caller has, both
    functions ask for slices that reach past the end of the buffers.  That is undefined
    behaviour for every object, whatever the stretch. *)
Theorem C60_refuted : forall (T : Type) (Sc : Scalar T) numgrid method (stiffness : T) links r stretch,
  hyperelastic.BucheSilberstein.init numgrid method stiffness links = Some r ->
  extern_hyperelastic.constitutive_hyperelastic_buche_silberstein_uniaxial_tension numgrid
    (concat (hyperelastic.BucheSilberstein.element r)) (hyperelastic.BucheSilberstein.factor r)
    (hyperelastic.BucheSilberstein.grid r) (hyperelastic.BucheSilberstein.normalization r)
    method stiffness links stretch = Undefined
  /\ extern_hyperelastic.constitutive_hyperelastic_buche_silberstein_equibiaxial_tension numgrid
    (concat (hyperelastic.BucheSilberstein.element r)) (hyperelastic.BucheSilberstein.factor r)
    (hyperelastic.BucheSilberstein.grid r) (hyperelastic.BucheSilberstein.normalization r)
    method stiffness links stretch = Undefined.
Proof. exact (fun T Sc => @extern_undefined T Sc). Qed.
Print Assumptions C60_refuted.

(** Objects as in C60 exist, with the grid the crate uses. *)
Example C60_example : exists r : hyperelastic.BucheSilberstein.t R,
  hyperelastic.BucheSilberstein.init hyperelastic.NUMGRID 3 50%R 8 = Some r.
Proof. exact hyperelastic_exists. Qed.
