(** How the Python package publishes its classes. Generated by tools/gen_pytree.py.

    A Python module is an object that is known by its address and has attributes. What
    PyO3 does besides setting attributes (the list [__all__], documentation, errors when
    memory runs out) is not modelled. *)
From Coq Require Import List String.
Import ListNotations.
Open Scope string_scope.
Open Scope list_scope.

Definition address := nat.
(** A class is known by the directory of the py.rs file that defines it and its name. *)
Inductive class := class_of (directory : list string) (name : string).
Inductive value := Submodule (a : address) | Class (c : class).
Record pymodule := { module_name : string; attributes : list (string * value) }.
Definition heap := list pymodule.

(** The last assignment to an attribute counts. *)
Fixpoint lookup (k : string) (l : list (string * value)) : option value :=
  match l with
  | [] => None
  | (k', v) :: l' => if String.eqb k k' then Some v else lookup k l'
  end.
Fixpoint set_attribute (a : address) (k : string) (v : value) (h : heap) : heap :=
  match h, a with
  | [], _ => []
  | m :: h', O => {| module_name := module_name m; attributes := (k, v) :: attributes m |} :: h'
  | m :: h', S a' => m :: set_attribute a' k v h'
  end.

(** PyO3: [PyModule::new], [PyModule::add_submodule], [PyModule::add_class]. *)
Definition PyModule_new (name : string) (h : heap) : address * heap :=
  (List.length h, h ++ [{| module_name := name; attributes := [] |}]).
Definition add_submodule (parent child : address) (h : heap) : heap :=
  match nth_error h child with
  | Some m => set_attribute parent (module_name m) (Submodule child) h
  | None => h
  end.
Definition add_class (a : address) (c : class) (h : heap) : heap :=
  match c with class_of _ name => set_attribute a name (Class c) h end.

Module T_constitutive_hyperelastic_buche_silberstein.
(* /repo/src/constitutive/hyperelastic/buche_silberstein/py.rs:14-18 *)
Definition register_module (parent_module : address) (h : heap) : heap :=
  let h := add_class parent_module (class_of ["constitutive"; "hyperelastic"; "buche_silberstein"] "BucheSilberstein") h in
  h.
End T_constitutive_hyperelastic_buche_silberstein.

Module T_constitutive_hyperelastic.
(* /repo/src/constitutive/hyperelastic/py.rs:3-9 *)
Definition register_module (parent_module : address) (h : heap) : heap :=
  let '(hyperelastic, h) := PyModule_new "hyperelastic" h in
  let h := T_constitutive_hyperelastic_buche_silberstein.register_module hyperelastic h in
  let h := add_submodule parent_module hyperelastic h in
  h.
End T_constitutive_hyperelastic.

Module T_constitutive_hyperelastic_damage_buche_silberstein.
(* /repo/src/constitutive/hyperelastic_damage/buche_silberstein/py.rs:14-18 *)
Definition register_module (parent_module : address) (h : heap) : heap :=
  let h := add_class parent_module (class_of ["constitutive"; "hyperelastic_damage"; "buche_silberstein"] "BucheSilberstein") h in
  h.
End T_constitutive_hyperelastic_damage_buche_silberstein.

Module T_constitutive_hyperelastic_damage.
(* /repo/src/constitutive/hyperelastic_damage/py.rs:3-9 *)
Definition register_module (parent_module : address) (h : heap) : heap :=
  let '(hyperelastic_damage, h) := PyModule_new "hyperelastic_damage" h in
  let h := T_constitutive_hyperelastic_damage_buche_silberstein.register_module hyperelastic_damage h in
  let h := add_submodule parent_module hyperelastic_damage h in
  h.
End T_constitutive_hyperelastic_damage.

Module T_constitutive.
(* /repo/src/constitutive/py.rs:3-10 *)
Definition register_module (parent_module : address) (h : heap) : heap :=
  let '(constitutive, h) := PyModule_new "constitutive" h in
  let h := T_constitutive_hyperelastic.register_module constitutive h in
  let h := T_constitutive_hyperelastic_damage.register_module constitutive h in
  let h := add_submodule parent_module constitutive h in
  h.
End T_constitutive.

Module T_physics_single_chain_ideal_thermodynamics_isometric.
(* /repo/src/physics/single_chain/ideal/thermodynamics/isometric/py.rs:9-15 *)
Definition register_module (parent_module : address) (h : heap) : heap :=
  let '(isometric, h) := PyModule_new "isometric" h in
  let h := add_submodule parent_module isometric h in
  let h := add_class isometric (class_of ["physics"; "single_chain"; "ideal"; "thermodynamics"; "isometric"] "Ideal") h in
  h.
End T_physics_single_chain_ideal_thermodynamics_isometric.

Module T_physics_single_chain_ideal_thermodynamics_isotensional.
(* /repo/src/physics/single_chain/ideal/thermodynamics/isotensional/py.rs:9-15 *)
Definition register_module (parent_module : address) (h : heap) : heap :=
  let '(isotensional, h) := PyModule_new "isotensional" h in
  let h := add_submodule parent_module isotensional h in
  let h := add_class isotensional (class_of ["physics"; "single_chain"; "ideal"; "thermodynamics"; "isotensional"] "Ideal") h in
  h.
End T_physics_single_chain_ideal_thermodynamics_isotensional.

Module T_physics_single_chain_ideal_thermodynamics.
(* /repo/src/physics/single_chain/ideal/thermodynamics/py.rs:3-11 *)
Definition register_module (parent_module : address) (h : heap) : heap :=
  let '(thermodynamics, h) := PyModule_new "thermodynamics" h in
  let h := T_physics_single_chain_ideal_thermodynamics_isometric.register_module thermodynamics h in
  let h := T_physics_single_chain_ideal_thermodynamics_isotensional.register_module thermodynamics h in
  let h := add_submodule parent_module thermodynamics h in
  let h := add_class thermodynamics (class_of ["physics"; "single_chain"; "ideal"; "thermodynamics"] "Ideal") h in
  h.
End T_physics_single_chain_ideal_thermodynamics.

Module T_physics_single_chain_ideal.
(* /repo/src/physics/single_chain/ideal/py.rs:3-10 *)
Definition register_module (parent_module : address) (h : heap) : heap :=
  let '(ideal, h) := PyModule_new "ideal" h in
  let h := T_physics_single_chain_ideal_thermodynamics.register_module ideal h in
  let h := add_submodule parent_module ideal h in
  let h := add_class ideal (class_of ["physics"; "single_chain"; "ideal"] "Ideal") h in
  h.
End T_physics_single_chain_ideal.

Module T_physics_single_chain_fjc_thermodynamics_isometric_legendre.
(* /repo/src/physics/single_chain/fjc/thermodynamics/isometric/legendre/py.rs:16-22 *)
Definition register_module (parent_module : address) (h : heap) : heap :=
  let '(legendre, h) := PyModule_new "legendre" h in
  let h := add_submodule parent_module legendre h in
  let h := add_class legendre (class_of ["physics"; "single_chain"; "fjc"; "thermodynamics"; "isometric"; "legendre"] "FJC") h in
  h.
End T_physics_single_chain_fjc_thermodynamics_isometric_legendre.

Module T_physics_single_chain_fjc_thermodynamics_isometric.
(* /repo/src/physics/single_chain/fjc/thermodynamics/isometric/py.rs:9-16 *)
Definition register_module (parent_module : address) (h : heap) : heap :=
  let '(isometric, h) := PyModule_new "isometric" h in
  let h := T_physics_single_chain_fjc_thermodynamics_isometric_legendre.register_module isometric h in
  let h := add_submodule parent_module isometric h in
  let h := add_class isometric (class_of ["physics"; "single_chain"; "fjc"; "thermodynamics"; "isometric"] "FJC") h in
  h.
End T_physics_single_chain_fjc_thermodynamics_isometric.

Module T_physics_single_chain_fjc_thermodynamics_isotensional_legendre.
(* /repo/src/physics/single_chain/fjc/thermodynamics/isotensional/legendre/py.rs:9-15 *)
Definition register_module (parent_module : address) (h : heap) : heap :=
  let '(legendre, h) := PyModule_new "legendre" h in
  let h := add_submodule parent_module legendre h in
  let h := add_class legendre (class_of ["physics"; "single_chain"; "fjc"; "thermodynamics"; "isotensional"; "legendre"] "FJC") h in
  h.
End T_physics_single_chain_fjc_thermodynamics_isotensional_legendre.

Module T_physics_single_chain_fjc_thermodynamics_isotensional.
(* /repo/src/physics/single_chain/fjc/thermodynamics/isotensional/py.rs:9-16 *)
Definition register_module (parent_module : address) (h : heap) : heap :=
  let '(isotensional, h) := PyModule_new "isotensional" h in
  let h := T_physics_single_chain_fjc_thermodynamics_isotensional_legendre.register_module isotensional h in
  let h := add_submodule parent_module isotensional h in
  let h := add_class isotensional (class_of ["physics"; "single_chain"; "fjc"; "thermodynamics"; "isotensional"] "FJC") h in
  h.
End T_physics_single_chain_fjc_thermodynamics_isotensional.

Module T_physics_single_chain_fjc_thermodynamics_modified_canonical_asymptotic_weak_potential.
(* /repo/src/physics/single_chain/fjc/thermodynamics/modified_canonical/asymptotic/weak_potential/py.rs:9-15 *)
Definition register_module (parent_module : address) (h : heap) : heap :=
  let '(weak_potential, h) := PyModule_new "weak_potential" h in
  let h := add_submodule parent_module weak_potential h in
  let h := add_class weak_potential (class_of ["physics"; "single_chain"; "fjc"; "thermodynamics"; "modified_canonical"; "asymptotic"; "weak_potential"] "FJC") h in
  h.
End T_physics_single_chain_fjc_thermodynamics_modified_canonical_asymptotic_weak_potential.

Module T_physics_single_chain_fjc_thermodynamics_modified_canonical_asymptotic_strong_potential.
(* /repo/src/physics/single_chain/fjc/thermodynamics/modified_canonical/asymptotic/strong_potential/py.rs:9-15 *)
Definition register_module (parent_module : address) (h : heap) : heap :=
  let '(strong_potential, h) := PyModule_new "strong_potential" h in
  let h := add_submodule parent_module strong_potential h in
  let h := add_class strong_potential (class_of ["physics"; "single_chain"; "fjc"; "thermodynamics"; "modified_canonical"; "asymptotic"; "strong_potential"] "FJC") h in
  h.
End T_physics_single_chain_fjc_thermodynamics_modified_canonical_asymptotic_strong_potential.

Module T_physics_single_chain_fjc_thermodynamics_modified_canonical_asymptotic.
(* /repo/src/physics/single_chain/fjc/thermodynamics/modified_canonical/asymptotic/py.rs:3-11 *)
Definition register_module (parent_module : address) (h : heap) : heap :=
  let '(asymptotic, h) := PyModule_new "asymptotic" h in
  let h := T_physics_single_chain_fjc_thermodynamics_modified_canonical_asymptotic_weak_potential.register_module asymptotic h in
  let h := T_physics_single_chain_fjc_thermodynamics_modified_canonical_asymptotic_strong_potential.register_module asymptotic h in
  let h := add_submodule parent_module asymptotic h in
  let h := add_class asymptotic (class_of ["physics"; "single_chain"; "fjc"; "thermodynamics"; "modified_canonical"; "asymptotic"] "FJC") h in
  h.
End T_physics_single_chain_fjc_thermodynamics_modified_canonical_asymptotic.

Module T_physics_single_chain_fjc_thermodynamics_modified_canonical.
(* /repo/src/physics/single_chain/fjc/thermodynamics/modified_canonical/py.rs:9-16 *)
Definition register_module (parent_module : address) (h : heap) : heap :=
  let '(modified_canonical, h) := PyModule_new "modified_canonical" h in
  let h := T_physics_single_chain_fjc_thermodynamics_modified_canonical_asymptotic.register_module modified_canonical h in
  let h := add_submodule parent_module modified_canonical h in
  let h := add_class modified_canonical (class_of ["physics"; "single_chain"; "fjc"; "thermodynamics"; "modified_canonical"] "FJC") h in
  h.
End T_physics_single_chain_fjc_thermodynamics_modified_canonical.

Module T_physics_single_chain_fjc_thermodynamics.
(* /repo/src/physics/single_chain/fjc/thermodynamics/py.rs:3-12 *)
Definition register_module (parent_module : address) (h : heap) : heap :=
  let '(thermodynamics, h) := PyModule_new "thermodynamics" h in
  let h := T_physics_single_chain_fjc_thermodynamics_isometric.register_module thermodynamics h in
  let h := T_physics_single_chain_fjc_thermodynamics_isotensional.register_module thermodynamics h in
  let h := T_physics_single_chain_fjc_thermodynamics_modified_canonical.register_module thermodynamics h in
  let h := add_submodule parent_module thermodynamics h in
  let h := add_class thermodynamics (class_of ["physics"; "single_chain"; "fjc"; "thermodynamics"] "FJC") h in
  h.
End T_physics_single_chain_fjc_thermodynamics.

Module T_physics_single_chain_fjc.
(* /repo/src/physics/single_chain/fjc/py.rs:3-10 *)
Definition register_module (parent_module : address) (h : heap) : heap :=
  let '(fjc, h) := PyModule_new "fjc" h in
  let h := T_physics_single_chain_fjc_thermodynamics.register_module fjc h in
  let h := add_submodule parent_module fjc h in
  let h := add_class fjc (class_of ["physics"; "single_chain"; "fjc"] "FJC") h in
  h.
End T_physics_single_chain_fjc.

Module T_physics_single_chain_efjc_thermodynamics_isometric_asymptotic_alternative_legendre.
(* /repo/src/physics/single_chain/efjc/thermodynamics/isometric/asymptotic/alternative/legendre/py.rs:10-16 *)
Definition register_module (parent_module : address) (h : heap) : heap :=
  let '(legendre, h) := PyModule_new "legendre" h in
  let h := add_submodule parent_module legendre h in
  let h := add_class legendre (class_of ["physics"; "single_chain"; "efjc"; "thermodynamics"; "isometric"; "asymptotic"; "alternative"; "legendre"] "EFJC") h in
  h.
End T_physics_single_chain_efjc_thermodynamics_isometric_asymptotic_alternative_legendre.

Module T_physics_single_chain_efjc_thermodynamics_isometric_asymptotic_alternative.
(* /repo/src/physics/single_chain/efjc/thermodynamics/isometric/asymptotic/alternative/py.rs:3-10 *)
Definition register_module (parent_module : address) (h : heap) : heap :=
  let '(alternative, h) := PyModule_new "alternative" h in
  let h := T_physics_single_chain_efjc_thermodynamics_isometric_asymptotic_alternative_legendre.register_module alternative h in
  let h := add_submodule parent_module alternative h in
  let h := add_class alternative (class_of ["physics"; "single_chain"; "efjc"; "thermodynamics"; "isometric"; "asymptotic"; "alternative"] "EFJC") h in
  h.
End T_physics_single_chain_efjc_thermodynamics_isometric_asymptotic_alternative.

Module T_physics_single_chain_efjc_thermodynamics_isometric_asymptotic_reduced_legendre.
(* /repo/src/physics/single_chain/efjc/thermodynamics/isometric/asymptotic/reduced/legendre/py.rs:10-16 *)
Definition register_module (parent_module : address) (h : heap) : heap :=
  let '(legendre, h) := PyModule_new "legendre" h in
  let h := add_submodule parent_module legendre h in
  let h := add_class legendre (class_of ["physics"; "single_chain"; "efjc"; "thermodynamics"; "isometric"; "asymptotic"; "reduced"; "legendre"] "EFJC") h in
  h.
End T_physics_single_chain_efjc_thermodynamics_isometric_asymptotic_reduced_legendre.

Module T_physics_single_chain_efjc_thermodynamics_isometric_asymptotic_reduced.
(* /repo/src/physics/single_chain/efjc/thermodynamics/isometric/asymptotic/reduced/py.rs:3-10 *)
Definition register_module (parent_module : address) (h : heap) : heap :=
  let '(reduced, h) := PyModule_new "reduced" h in
  let h := T_physics_single_chain_efjc_thermodynamics_isometric_asymptotic_reduced_legendre.register_module reduced h in
  let h := add_submodule parent_module reduced h in
  let h := add_class reduced (class_of ["physics"; "single_chain"; "efjc"; "thermodynamics"; "isometric"; "asymptotic"; "reduced"] "EFJC") h in
  h.
End T_physics_single_chain_efjc_thermodynamics_isometric_asymptotic_reduced.

Module T_physics_single_chain_efjc_thermodynamics_isometric_asymptotic_legendre.
(* /repo/src/physics/single_chain/efjc/thermodynamics/isometric/asymptotic/legendre/py.rs:10-16 *)
Definition register_module (parent_module : address) (h : heap) : heap :=
  let '(legendre, h) := PyModule_new "legendre" h in
  let h := add_submodule parent_module legendre h in
  let h := add_class legendre (class_of ["physics"; "single_chain"; "efjc"; "thermodynamics"; "isometric"; "asymptotic"; "legendre"] "EFJC") h in
  h.
End T_physics_single_chain_efjc_thermodynamics_isometric_asymptotic_legendre.

Module T_physics_single_chain_efjc_thermodynamics_isometric_asymptotic.
(* /repo/src/physics/single_chain/efjc/thermodynamics/isometric/asymptotic/py.rs:3-12 *)
Definition register_module (parent_module : address) (h : heap) : heap :=
  let '(asymptotic, h) := PyModule_new "asymptotic" h in
  let h := T_physics_single_chain_efjc_thermodynamics_isometric_asymptotic_alternative.register_module asymptotic h in
  let h := T_physics_single_chain_efjc_thermodynamics_isometric_asymptotic_reduced.register_module asymptotic h in
  let h := T_physics_single_chain_efjc_thermodynamics_isometric_asymptotic_legendre.register_module asymptotic h in
  let h := add_submodule parent_module asymptotic h in
  let h := add_class asymptotic (class_of ["physics"; "single_chain"; "efjc"; "thermodynamics"; "isometric"; "asymptotic"] "EFJC") h in
  h.
End T_physics_single_chain_efjc_thermodynamics_isometric_asymptotic.

Module T_physics_single_chain_efjc_thermodynamics_isometric.
(* /repo/src/physics/single_chain/efjc/thermodynamics/isometric/py.rs:3-10 *)
Definition register_module (parent_module : address) (h : heap) : heap :=
  let '(isometric, h) := PyModule_new "isometric" h in
  let h := T_physics_single_chain_efjc_thermodynamics_isometric_asymptotic.register_module isometric h in
  let h := add_submodule parent_module isometric h in
  let h := add_class isometric (class_of ["physics"; "single_chain"; "efjc"; "thermodynamics"; "isometric"] "EFJC") h in
  h.
End T_physics_single_chain_efjc_thermodynamics_isometric.

Module T_physics_single_chain_efjc_thermodynamics_isotensional_asymptotic_alternative_legendre.
(* /repo/src/physics/single_chain/efjc/thermodynamics/isotensional/asymptotic/alternative/legendre/py.rs:10-16 *)
Definition register_module (parent_module : address) (h : heap) : heap :=
  let '(legendre, h) := PyModule_new "legendre" h in
  let h := add_submodule parent_module legendre h in
  let h := add_class legendre (class_of ["physics"; "single_chain"; "efjc"; "thermodynamics"; "isotensional"; "asymptotic"; "alternative"; "legendre"] "EFJC") h in
  h.
End T_physics_single_chain_efjc_thermodynamics_isotensional_asymptotic_alternative_legendre.

Module T_physics_single_chain_efjc_thermodynamics_isotensional_asymptotic_alternative.
(* /repo/src/physics/single_chain/efjc/thermodynamics/isotensional/asymptotic/alternative/py.rs:10-17 *)
Definition register_module (parent_module : address) (h : heap) : heap :=
  let '(alternative, h) := PyModule_new "alternative" h in
  let h := T_physics_single_chain_efjc_thermodynamics_isotensional_asymptotic_alternative_legendre.register_module alternative h in
  let h := add_submodule parent_module alternative h in
  let h := add_class alternative (class_of ["physics"; "single_chain"; "efjc"; "thermodynamics"; "isotensional"; "asymptotic"; "alternative"] "EFJC") h in
  h.
End T_physics_single_chain_efjc_thermodynamics_isotensional_asymptotic_alternative.

Module T_physics_single_chain_efjc_thermodynamics_isotensional_asymptotic_reduced_legendre.
(* /repo/src/physics/single_chain/efjc/thermodynamics/isotensional/asymptotic/reduced/legendre/py.rs:10-16 *)
Definition register_module (parent_module : address) (h : heap) : heap :=
  let '(legendre, h) := PyModule_new "legendre" h in
  let h := add_submodule parent_module legendre h in
  let h := add_class legendre (class_of ["physics"; "single_chain"; "efjc"; "thermodynamics"; "isotensional"; "asymptotic"; "reduced"; "legendre"] "EFJC") h in
  h.
End T_physics_single_chain_efjc_thermodynamics_isotensional_asymptotic_reduced_legendre.

Module T_physics_single_chain_efjc_thermodynamics_isotensional_asymptotic_reduced.
(* /repo/src/physics/single_chain/efjc/thermodynamics/isotensional/asymptotic/reduced/py.rs:10-17 *)
Definition register_module (parent_module : address) (h : heap) : heap :=
  let '(reduced, h) := PyModule_new "reduced" h in
  let h := T_physics_single_chain_efjc_thermodynamics_isotensional_asymptotic_reduced_legendre.register_module reduced h in
  let h := add_submodule parent_module reduced h in
  let h := add_class reduced (class_of ["physics"; "single_chain"; "efjc"; "thermodynamics"; "isotensional"; "asymptotic"; "reduced"] "EFJC") h in
  h.
End T_physics_single_chain_efjc_thermodynamics_isotensional_asymptotic_reduced.

Module T_physics_single_chain_efjc_thermodynamics_isotensional_asymptotic_legendre.
(* /repo/src/physics/single_chain/efjc/thermodynamics/isotensional/asymptotic/legendre/py.rs:10-16 *)
Definition register_module (parent_module : address) (h : heap) : heap :=
  let '(legendre, h) := PyModule_new "legendre" h in
  let h := add_submodule parent_module legendre h in
  let h := add_class legendre (class_of ["physics"; "single_chain"; "efjc"; "thermodynamics"; "isotensional"; "asymptotic"; "legendre"] "EFJC") h in
  h.
End T_physics_single_chain_efjc_thermodynamics_isotensional_asymptotic_legendre.

Module T_physics_single_chain_efjc_thermodynamics_isotensional_asymptotic.
(* /repo/src/physics/single_chain/efjc/thermodynamics/isotensional/asymptotic/py.rs:10-19 *)
Definition register_module (parent_module : address) (h : heap) : heap :=
  let '(asymptotic, h) := PyModule_new "asymptotic" h in
  let h := T_physics_single_chain_efjc_thermodynamics_isotensional_asymptotic_alternative.register_module asymptotic h in
  let h := T_physics_single_chain_efjc_thermodynamics_isotensional_asymptotic_reduced.register_module asymptotic h in
  let h := T_physics_single_chain_efjc_thermodynamics_isotensional_asymptotic_legendre.register_module asymptotic h in
  let h := add_submodule parent_module asymptotic h in
  let h := add_class asymptotic (class_of ["physics"; "single_chain"; "efjc"; "thermodynamics"; "isotensional"; "asymptotic"] "EFJC") h in
  h.
End T_physics_single_chain_efjc_thermodynamics_isotensional_asymptotic.

Module T_physics_single_chain_efjc_thermodynamics_isotensional_legendre.
(* /repo/src/physics/single_chain/efjc/thermodynamics/isotensional/legendre/py.rs:10-16 *)
Definition register_module (parent_module : address) (h : heap) : heap :=
  let '(legendre, h) := PyModule_new "legendre" h in
  let h := add_submodule parent_module legendre h in
  let h := add_class legendre (class_of ["physics"; "single_chain"; "efjc"; "thermodynamics"; "isotensional"; "legendre"] "EFJC") h in
  h.
End T_physics_single_chain_efjc_thermodynamics_isotensional_legendre.

Module T_physics_single_chain_efjc_thermodynamics_isotensional.
(* /repo/src/physics/single_chain/efjc/thermodynamics/isotensional/py.rs:10-18 *)
Definition register_module (parent_module : address) (h : heap) : heap :=
  let '(isotensional, h) := PyModule_new "isotensional" h in
  let h := T_physics_single_chain_efjc_thermodynamics_isotensional_asymptotic.register_module isotensional h in
  let h := T_physics_single_chain_efjc_thermodynamics_isotensional_legendre.register_module isotensional h in
  let h := add_submodule parent_module isotensional h in
  let h := add_class isotensional (class_of ["physics"; "single_chain"; "efjc"; "thermodynamics"; "isotensional"] "EFJC") h in
  h.
End T_physics_single_chain_efjc_thermodynamics_isotensional.

Module T_physics_single_chain_efjc_thermodynamics.
(* /repo/src/physics/single_chain/efjc/thermodynamics/py.rs:3-11 *)
Definition register_module (parent_module : address) (h : heap) : heap :=
  let '(thermodynamics, h) := PyModule_new "thermodynamics" h in
  let h := T_physics_single_chain_efjc_thermodynamics_isometric.register_module thermodynamics h in
  let h := T_physics_single_chain_efjc_thermodynamics_isotensional.register_module thermodynamics h in
  let h := add_submodule parent_module thermodynamics h in
  let h := add_class thermodynamics (class_of ["physics"; "single_chain"; "efjc"; "thermodynamics"] "EFJC") h in
  h.
End T_physics_single_chain_efjc_thermodynamics.

Module T_physics_single_chain_efjc.
(* /repo/src/physics/single_chain/efjc/py.rs:3-10 *)
Definition register_module (parent_module : address) (h : heap) : heap :=
  let '(efjc, h) := PyModule_new "efjc" h in
  let h := T_physics_single_chain_efjc_thermodynamics.register_module efjc h in
  let h := add_submodule parent_module efjc h in
  let h := add_class efjc (class_of ["physics"; "single_chain"; "efjc"] "EFJC") h in
  h.
End T_physics_single_chain_efjc.

Module T_physics_single_chain_swfjc_thermodynamics_isometric_legendre.
(* /repo/src/physics/single_chain/swfjc/thermodynamics/isometric/legendre/py.rs:16-22 *)
Definition register_module (parent_module : address) (h : heap) : heap :=
  let '(legendre, h) := PyModule_new "legendre" h in
  let h := add_submodule parent_module legendre h in
  let h := add_class legendre (class_of ["physics"; "single_chain"; "swfjc"; "thermodynamics"; "isometric"; "legendre"] "SWFJC") h in
  h.
End T_physics_single_chain_swfjc_thermodynamics_isometric_legendre.

Module T_physics_single_chain_swfjc_thermodynamics_isometric.
(* /repo/src/physics/single_chain/swfjc/thermodynamics/isometric/py.rs:3-10 *)
Definition register_module (parent_module : address) (h : heap) : heap :=
  let '(isometric, h) := PyModule_new "isometric" h in
  let h := T_physics_single_chain_swfjc_thermodynamics_isometric_legendre.register_module isometric h in
  let h := add_submodule parent_module isometric h in
  let h := add_class isometric (class_of ["physics"; "single_chain"; "swfjc"; "thermodynamics"; "isometric"] "SWFJC") h in
  h.
End T_physics_single_chain_swfjc_thermodynamics_isometric.

Module T_physics_single_chain_swfjc_thermodynamics_isotensional_legendre.
(* /repo/src/physics/single_chain/swfjc/thermodynamics/isotensional/legendre/py.rs:9-15 *)
Definition register_module (parent_module : address) (h : heap) : heap :=
  let '(legendre, h) := PyModule_new "legendre" h in
  let h := add_submodule parent_module legendre h in
  let h := add_class legendre (class_of ["physics"; "single_chain"; "swfjc"; "thermodynamics"; "isotensional"; "legendre"] "SWFJC") h in
  h.
End T_physics_single_chain_swfjc_thermodynamics_isotensional_legendre.

Module T_physics_single_chain_swfjc_thermodynamics_isotensional.
(* /repo/src/physics/single_chain/swfjc/thermodynamics/isotensional/py.rs:9-16 *)
Definition register_module (parent_module : address) (h : heap) : heap :=
  let '(isotensional, h) := PyModule_new "isotensional" h in
  let h := T_physics_single_chain_swfjc_thermodynamics_isotensional_legendre.register_module isotensional h in
  let h := add_submodule parent_module isotensional h in
  let h := add_class isotensional (class_of ["physics"; "single_chain"; "swfjc"; "thermodynamics"; "isotensional"] "SWFJC") h in
  h.
End T_physics_single_chain_swfjc_thermodynamics_isotensional.

Module T_physics_single_chain_swfjc_thermodynamics.
(* /repo/src/physics/single_chain/swfjc/thermodynamics/py.rs:3-11 *)
Definition register_module (parent_module : address) (h : heap) : heap :=
  let '(thermodynamics, h) := PyModule_new "thermodynamics" h in
  let h := T_physics_single_chain_swfjc_thermodynamics_isometric.register_module thermodynamics h in
  let h := T_physics_single_chain_swfjc_thermodynamics_isotensional.register_module thermodynamics h in
  let h := add_submodule parent_module thermodynamics h in
  let h := add_class thermodynamics (class_of ["physics"; "single_chain"; "swfjc"; "thermodynamics"] "SWFJC") h in
  h.
End T_physics_single_chain_swfjc_thermodynamics.

Module T_physics_single_chain_swfjc.
(* /repo/src/physics/single_chain/swfjc/py.rs:3-10 *)
Definition register_module (parent_module : address) (h : heap) : heap :=
  let '(swfjc, h) := PyModule_new "swfjc" h in
  let h := T_physics_single_chain_swfjc_thermodynamics.register_module swfjc h in
  let h := add_submodule parent_module swfjc h in
  let h := add_class swfjc (class_of ["physics"; "single_chain"; "swfjc"] "SWFJC") h in
  h.
End T_physics_single_chain_swfjc.

Module T_physics_single_chain_ufjc_lennard_jones_thermodynamics_isometric_asymptotic_reduced_legendre.
(* /repo/src/physics/single_chain/ufjc/lennard_jones/thermodynamics/isometric/asymptotic/reduced/legendre/py.rs:10-16 *)
Definition register_module (parent_module : address) (h : heap) : heap :=
  let '(legendre, h) := PyModule_new "legendre" h in
  let h := add_submodule parent_module legendre h in
  let h := add_class legendre (class_of ["physics"; "single_chain"; "ufjc"; "lennard_jones"; "thermodynamics"; "isometric"; "asymptotic"; "reduced"; "legendre"] "LENNARDJONESFJC") h in
  h.
End T_physics_single_chain_ufjc_lennard_jones_thermodynamics_isometric_asymptotic_reduced_legendre.

Module T_physics_single_chain_ufjc_lennard_jones_thermodynamics_isometric_asymptotic_reduced.
(* /repo/src/physics/single_chain/ufjc/lennard_jones/thermodynamics/isometric/asymptotic/reduced/py.rs:3-10 *)
Definition register_module (parent_module : address) (h : heap) : heap :=
  let '(reduced, h) := PyModule_new "reduced" h in
  let h := T_physics_single_chain_ufjc_lennard_jones_thermodynamics_isometric_asymptotic_reduced_legendre.register_module reduced h in
  let h := add_submodule parent_module reduced h in
  let h := add_class reduced (class_of ["physics"; "single_chain"; "ufjc"; "lennard_jones"; "thermodynamics"; "isometric"; "asymptotic"; "reduced"] "LENNARDJONESFJC") h in
  h.
End T_physics_single_chain_ufjc_lennard_jones_thermodynamics_isometric_asymptotic_reduced.

Module T_physics_single_chain_ufjc_lennard_jones_thermodynamics_isometric_asymptotic_legendre.
(* /repo/src/physics/single_chain/ufjc/lennard_jones/thermodynamics/isometric/asymptotic/legendre/py.rs:10-16 *)
Definition register_module (parent_module : address) (h : heap) : heap :=
  let '(legendre, h) := PyModule_new "legendre" h in
  let h := add_submodule parent_module legendre h in
  let h := add_class legendre (class_of ["physics"; "single_chain"; "ufjc"; "lennard_jones"; "thermodynamics"; "isometric"; "asymptotic"; "legendre"] "LENNARDJONESFJC") h in
  h.
End T_physics_single_chain_ufjc_lennard_jones_thermodynamics_isometric_asymptotic_legendre.

Module T_physics_single_chain_ufjc_lennard_jones_thermodynamics_isometric_asymptotic.
(* /repo/src/physics/single_chain/ufjc/lennard_jones/thermodynamics/isometric/asymptotic/py.rs:3-11 *)
Definition register_module (parent_module : address) (h : heap) : heap :=
  let '(asymptotic, h) := PyModule_new "asymptotic" h in
  let h := T_physics_single_chain_ufjc_lennard_jones_thermodynamics_isometric_asymptotic_reduced.register_module asymptotic h in
  let h := T_physics_single_chain_ufjc_lennard_jones_thermodynamics_isometric_asymptotic_legendre.register_module asymptotic h in
  let h := add_submodule parent_module asymptotic h in
  let h := add_class asymptotic (class_of ["physics"; "single_chain"; "ufjc"; "lennard_jones"; "thermodynamics"; "isometric"; "asymptotic"] "LENNARDJONESFJC") h in
  h.
End T_physics_single_chain_ufjc_lennard_jones_thermodynamics_isometric_asymptotic.

Module T_physics_single_chain_ufjc_lennard_jones_thermodynamics_isometric.
(* /repo/src/physics/single_chain/ufjc/lennard_jones/thermodynamics/isometric/py.rs:3-10 *)
Definition register_module (parent_module : address) (h : heap) : heap :=
  let '(isometric, h) := PyModule_new "isometric" h in
  let h := T_physics_single_chain_ufjc_lennard_jones_thermodynamics_isometric_asymptotic.register_module isometric h in
  let h := add_submodule parent_module isometric h in
  let h := add_class isometric (class_of ["physics"; "single_chain"; "ufjc"; "lennard_jones"; "thermodynamics"; "isometric"] "LENNARDJONESFJC") h in
  h.
End T_physics_single_chain_ufjc_lennard_jones_thermodynamics_isometric.

Module T_physics_single_chain_ufjc_lennard_jones_thermodynamics_isotensional_asymptotic_reduced_legendre.
(* /repo/src/physics/single_chain/ufjc/lennard_jones/thermodynamics/isotensional/asymptotic/reduced/legendre/py.rs:10-16 *)
Definition register_module (parent_module : address) (h : heap) : heap :=
  let '(legendre, h) := PyModule_new "legendre" h in
  let h := add_submodule parent_module legendre h in
  let h := add_class legendre (class_of ["physics"; "single_chain"; "ufjc"; "lennard_jones"; "thermodynamics"; "isotensional"; "asymptotic"; "reduced"; "legendre"] "LENNARDJONESFJC") h in
  h.
End T_physics_single_chain_ufjc_lennard_jones_thermodynamics_isotensional_asymptotic_reduced_legendre.

Module T_physics_single_chain_ufjc_lennard_jones_thermodynamics_isotensional_asymptotic_reduced.
(* /repo/src/physics/single_chain/ufjc/lennard_jones/thermodynamics/isotensional/asymptotic/reduced/py.rs:10-17 *)
Definition register_module (parent_module : address) (h : heap) : heap :=
  let '(reduced, h) := PyModule_new "reduced" h in
  let h := T_physics_single_chain_ufjc_lennard_jones_thermodynamics_isotensional_asymptotic_reduced_legendre.register_module reduced h in
  let h := add_submodule parent_module reduced h in
  let h := add_class reduced (class_of ["physics"; "single_chain"; "ufjc"; "lennard_jones"; "thermodynamics"; "isotensional"; "asymptotic"; "reduced"] "LENNARDJONESFJC") h in
  h.
End T_physics_single_chain_ufjc_lennard_jones_thermodynamics_isotensional_asymptotic_reduced.

Module T_physics_single_chain_ufjc_lennard_jones_thermodynamics_isotensional_asymptotic_legendre.
(* /repo/src/physics/single_chain/ufjc/lennard_jones/thermodynamics/isotensional/asymptotic/legendre/py.rs:10-16 *)
Definition register_module (parent_module : address) (h : heap) : heap :=
  let '(legendre, h) := PyModule_new "legendre" h in
  let h := add_submodule parent_module legendre h in
  let h := add_class legendre (class_of ["physics"; "single_chain"; "ufjc"; "lennard_jones"; "thermodynamics"; "isotensional"; "asymptotic"; "legendre"] "LENNARDJONESFJC") h in
  h.
End T_physics_single_chain_ufjc_lennard_jones_thermodynamics_isotensional_asymptotic_legendre.

Module T_physics_single_chain_ufjc_lennard_jones_thermodynamics_isotensional_asymptotic.
(* /repo/src/physics/single_chain/ufjc/lennard_jones/thermodynamics/isotensional/asymptotic/py.rs:10-18 *)
Definition register_module (parent_module : address) (h : heap) : heap :=
  let '(asymptotic, h) := PyModule_new "asymptotic" h in
  let h := T_physics_single_chain_ufjc_lennard_jones_thermodynamics_isotensional_asymptotic_reduced.register_module asymptotic h in
  let h := T_physics_single_chain_ufjc_lennard_jones_thermodynamics_isotensional_asymptotic_legendre.register_module asymptotic h in
  let h := add_submodule parent_module asymptotic h in
  let h := add_class asymptotic (class_of ["physics"; "single_chain"; "ufjc"; "lennard_jones"; "thermodynamics"; "isotensional"; "asymptotic"] "LENNARDJONESFJC") h in
  h.
End T_physics_single_chain_ufjc_lennard_jones_thermodynamics_isotensional_asymptotic.

Module T_physics_single_chain_ufjc_lennard_jones_thermodynamics_isotensional_legendre.
(* /repo/src/physics/single_chain/ufjc/lennard_jones/thermodynamics/isotensional/legendre/py.rs:10-16 *)
Definition register_module (parent_module : address) (h : heap) : heap :=
  let '(legendre, h) := PyModule_new "legendre" h in
  let h := add_submodule parent_module legendre h in
  let h := add_class legendre (class_of ["physics"; "single_chain"; "ufjc"; "lennard_jones"; "thermodynamics"; "isotensional"; "legendre"] "LENNARDJONESFJC") h in
  h.
End T_physics_single_chain_ufjc_lennard_jones_thermodynamics_isotensional_legendre.

Module T_physics_single_chain_ufjc_lennard_jones_thermodynamics_isotensional.
(* /repo/src/physics/single_chain/ufjc/lennard_jones/thermodynamics/isotensional/py.rs:10-18 *)
Definition register_module (parent_module : address) (h : heap) : heap :=
  let '(isotensional, h) := PyModule_new "isotensional" h in
  let h := T_physics_single_chain_ufjc_lennard_jones_thermodynamics_isotensional_asymptotic.register_module isotensional h in
  let h := T_physics_single_chain_ufjc_lennard_jones_thermodynamics_isotensional_legendre.register_module isotensional h in
  let h := add_submodule parent_module isotensional h in
  let h := add_class isotensional (class_of ["physics"; "single_chain"; "ufjc"; "lennard_jones"; "thermodynamics"; "isotensional"] "LENNARDJONESFJC") h in
  h.
End T_physics_single_chain_ufjc_lennard_jones_thermodynamics_isotensional.

Module T_physics_single_chain_ufjc_lennard_jones_thermodynamics.
(* /repo/src/physics/single_chain/ufjc/lennard_jones/thermodynamics/py.rs:3-11 *)
Definition register_module (parent_module : address) (h : heap) : heap :=
  let '(thermodynamics, h) := PyModule_new "thermodynamics" h in
  let h := T_physics_single_chain_ufjc_lennard_jones_thermodynamics_isometric.register_module thermodynamics h in
  let h := T_physics_single_chain_ufjc_lennard_jones_thermodynamics_isotensional.register_module thermodynamics h in
  let h := add_submodule parent_module thermodynamics h in
  let h := add_class thermodynamics (class_of ["physics"; "single_chain"; "ufjc"; "lennard_jones"; "thermodynamics"] "LENNARDJONESFJC") h in
  h.
End T_physics_single_chain_ufjc_lennard_jones_thermodynamics.

Module T_physics_single_chain_ufjc_lennard_jones.
(* /repo/src/physics/single_chain/ufjc/lennard_jones/py.rs:3-10 *)
Definition register_module (parent_module : address) (h : heap) : heap :=
  let '(lennard_jones, h) := PyModule_new "lennard_jones" h in
  let h := T_physics_single_chain_ufjc_lennard_jones_thermodynamics.register_module lennard_jones h in
  let h := add_submodule parent_module lennard_jones h in
  let h := add_class lennard_jones (class_of ["physics"; "single_chain"; "ufjc"; "lennard_jones"] "LENNARDJONESFJC") h in
  h.
End T_physics_single_chain_ufjc_lennard_jones.

Module T_physics_single_chain_ufjc_log_squared_thermodynamics_isometric_asymptotic_reduced_legendre.
(* /repo/src/physics/single_chain/ufjc/log_squared/thermodynamics/isometric/asymptotic/reduced/legendre/py.rs:10-16 *)
Definition register_module (parent_module : address) (h : heap) : heap :=
  let '(legendre, h) := PyModule_new "legendre" h in
  let h := add_submodule parent_module legendre h in
  let h := add_class legendre (class_of ["physics"; "single_chain"; "ufjc"; "log_squared"; "thermodynamics"; "isometric"; "asymptotic"; "reduced"; "legendre"] "LOGSQUAREDFJC") h in
  h.
End T_physics_single_chain_ufjc_log_squared_thermodynamics_isometric_asymptotic_reduced_legendre.

Module T_physics_single_chain_ufjc_log_squared_thermodynamics_isometric_asymptotic_reduced.
(* /repo/src/physics/single_chain/ufjc/log_squared/thermodynamics/isometric/asymptotic/reduced/py.rs:3-10 *)
Definition register_module (parent_module : address) (h : heap) : heap :=
  let '(reduced, h) := PyModule_new "reduced" h in
  let h := T_physics_single_chain_ufjc_log_squared_thermodynamics_isometric_asymptotic_reduced_legendre.register_module reduced h in
  let h := add_submodule parent_module reduced h in
  let h := add_class reduced (class_of ["physics"; "single_chain"; "ufjc"; "log_squared"; "thermodynamics"; "isometric"; "asymptotic"; "reduced"] "LOGSQUAREDFJC") h in
  h.
End T_physics_single_chain_ufjc_log_squared_thermodynamics_isometric_asymptotic_reduced.

Module T_physics_single_chain_ufjc_log_squared_thermodynamics_isometric_asymptotic_legendre.
(* /repo/src/physics/single_chain/ufjc/log_squared/thermodynamics/isometric/asymptotic/legendre/py.rs:10-16 *)
Definition register_module (parent_module : address) (h : heap) : heap :=
  let '(legendre, h) := PyModule_new "legendre" h in
  let h := add_submodule parent_module legendre h in
  let h := add_class legendre (class_of ["physics"; "single_chain"; "ufjc"; "log_squared"; "thermodynamics"; "isometric"; "asymptotic"; "legendre"] "LOGSQUAREDFJC") h in
  h.
End T_physics_single_chain_ufjc_log_squared_thermodynamics_isometric_asymptotic_legendre.

Module T_physics_single_chain_ufjc_log_squared_thermodynamics_isometric_asymptotic.
(* /repo/src/physics/single_chain/ufjc/log_squared/thermodynamics/isometric/asymptotic/py.rs:3-11 *)
Definition register_module (parent_module : address) (h : heap) : heap :=
  let '(asymptotic, h) := PyModule_new "asymptotic" h in
  let h := T_physics_single_chain_ufjc_log_squared_thermodynamics_isometric_asymptotic_reduced.register_module asymptotic h in
  let h := T_physics_single_chain_ufjc_log_squared_thermodynamics_isometric_asymptotic_legendre.register_module asymptotic h in
  let h := add_submodule parent_module asymptotic h in
  let h := add_class asymptotic (class_of ["physics"; "single_chain"; "ufjc"; "log_squared"; "thermodynamics"; "isometric"; "asymptotic"] "LOGSQUAREDFJC") h in
  h.
End T_physics_single_chain_ufjc_log_squared_thermodynamics_isometric_asymptotic.

Module T_physics_single_chain_ufjc_log_squared_thermodynamics_isometric.
(* /repo/src/physics/single_chain/ufjc/log_squared/thermodynamics/isometric/py.rs:3-10 *)
Definition register_module (parent_module : address) (h : heap) : heap :=
  let '(isometric, h) := PyModule_new "isometric" h in
  let h := T_physics_single_chain_ufjc_log_squared_thermodynamics_isometric_asymptotic.register_module isometric h in
  let h := add_submodule parent_module isometric h in
  let h := add_class isometric (class_of ["physics"; "single_chain"; "ufjc"; "log_squared"; "thermodynamics"; "isometric"] "LOGSQUAREDFJC") h in
  h.
End T_physics_single_chain_ufjc_log_squared_thermodynamics_isometric.

Module T_physics_single_chain_ufjc_log_squared_thermodynamics_isotensional_asymptotic_reduced_legendre.
(* /repo/src/physics/single_chain/ufjc/log_squared/thermodynamics/isotensional/asymptotic/reduced/legendre/py.rs:10-16 *)
Definition register_module (parent_module : address) (h : heap) : heap :=
  let '(legendre, h) := PyModule_new "legendre" h in
  let h := add_submodule parent_module legendre h in
  let h := add_class legendre (class_of ["physics"; "single_chain"; "ufjc"; "log_squared"; "thermodynamics"; "isotensional"; "asymptotic"; "reduced"; "legendre"] "LOGSQUAREDFJC") h in
  h.
End T_physics_single_chain_ufjc_log_squared_thermodynamics_isotensional_asymptotic_reduced_legendre.

Module T_physics_single_chain_ufjc_log_squared_thermodynamics_isotensional_asymptotic_reduced.
(* /repo/src/physics/single_chain/ufjc/log_squared/thermodynamics/isotensional/asymptotic/reduced/py.rs:10-17 *)
Definition register_module (parent_module : address) (h : heap) : heap :=
  let '(reduced, h) := PyModule_new "reduced" h in
  let h := T_physics_single_chain_ufjc_log_squared_thermodynamics_isotensional_asymptotic_reduced_legendre.register_module reduced h in
  let h := add_submodule parent_module reduced h in
  let h := add_class reduced (class_of ["physics"; "single_chain"; "ufjc"; "log_squared"; "thermodynamics"; "isotensional"; "asymptotic"; "reduced"] "LOGSQUAREDFJC") h in
  h.
End T_physics_single_chain_ufjc_log_squared_thermodynamics_isotensional_asymptotic_reduced.

Module T_physics_single_chain_ufjc_log_squared_thermodynamics_isotensional_asymptotic_legendre.
(* /repo/src/physics/single_chain/ufjc/log_squared/thermodynamics/isotensional/asymptotic/legendre/py.rs:10-16 *)
Definition register_module (parent_module : address) (h : heap) : heap :=
  let '(legendre, h) := PyModule_new "legendre" h in
  let h := add_submodule parent_module legendre h in
  let h := add_class legendre (class_of ["physics"; "single_chain"; "ufjc"; "log_squared"; "thermodynamics"; "isotensional"; "asymptotic"; "legendre"] "LOGSQUAREDFJC") h in
  h.
End T_physics_single_chain_ufjc_log_squared_thermodynamics_isotensional_asymptotic_legendre.

Module T_physics_single_chain_ufjc_log_squared_thermodynamics_isotensional_asymptotic.
(* /repo/src/physics/single_chain/ufjc/log_squared/thermodynamics/isotensional/asymptotic/py.rs:10-18 *)
Definition register_module (parent_module : address) (h : heap) : heap :=
  let '(asymptotic, h) := PyModule_new "asymptotic" h in
  let h := T_physics_single_chain_ufjc_log_squared_thermodynamics_isotensional_asymptotic_reduced.register_module asymptotic h in
  let h := T_physics_single_chain_ufjc_log_squared_thermodynamics_isotensional_asymptotic_legendre.register_module asymptotic h in
  let h := add_submodule parent_module asymptotic h in
  let h := add_class asymptotic (class_of ["physics"; "single_chain"; "ufjc"; "log_squared"; "thermodynamics"; "isotensional"; "asymptotic"] "LOGSQUAREDFJC") h in
  h.
End T_physics_single_chain_ufjc_log_squared_thermodynamics_isotensional_asymptotic.

Module T_physics_single_chain_ufjc_log_squared_thermodynamics_isotensional_legendre.
(* /repo/src/physics/single_chain/ufjc/log_squared/thermodynamics/isotensional/legendre/py.rs:10-16 *)
Definition register_module (parent_module : address) (h : heap) : heap :=
  let '(legendre, h) := PyModule_new "legendre" h in
  let h := add_submodule parent_module legendre h in
  let h := add_class legendre (class_of ["physics"; "single_chain"; "ufjc"; "log_squared"; "thermodynamics"; "isotensional"; "legendre"] "LOGSQUAREDFJC") h in
  h.
End T_physics_single_chain_ufjc_log_squared_thermodynamics_isotensional_legendre.

Module T_physics_single_chain_ufjc_log_squared_thermodynamics_isotensional.
(* /repo/src/physics/single_chain/ufjc/log_squared/thermodynamics/isotensional/py.rs:10-18 *)
Definition register_module (parent_module : address) (h : heap) : heap :=
  let '(isotensional, h) := PyModule_new "isotensional" h in
  let h := T_physics_single_chain_ufjc_log_squared_thermodynamics_isotensional_asymptotic.register_module isotensional h in
  let h := T_physics_single_chain_ufjc_log_squared_thermodynamics_isotensional_legendre.register_module isotensional h in
  let h := add_submodule parent_module isotensional h in
  let h := add_class isotensional (class_of ["physics"; "single_chain"; "ufjc"; "log_squared"; "thermodynamics"; "isotensional"] "LOGSQUAREDFJC") h in
  h.
End T_physics_single_chain_ufjc_log_squared_thermodynamics_isotensional.

Module T_physics_single_chain_ufjc_log_squared_thermodynamics.
(* /repo/src/physics/single_chain/ufjc/log_squared/thermodynamics/py.rs:3-11 *)
Definition register_module (parent_module : address) (h : heap) : heap :=
  let '(thermodynamics, h) := PyModule_new "thermodynamics" h in
  let h := T_physics_single_chain_ufjc_log_squared_thermodynamics_isometric.register_module thermodynamics h in
  let h := T_physics_single_chain_ufjc_log_squared_thermodynamics_isotensional.register_module thermodynamics h in
  let h := add_submodule parent_module thermodynamics h in
  let h := add_class thermodynamics (class_of ["physics"; "single_chain"; "ufjc"; "log_squared"; "thermodynamics"] "LOGSQUAREDFJC") h in
  h.
End T_physics_single_chain_ufjc_log_squared_thermodynamics.

Module T_physics_single_chain_ufjc_log_squared.
(* /repo/src/physics/single_chain/ufjc/log_squared/py.rs:3-10 *)
Definition register_module (parent_module : address) (h : heap) : heap :=
  let '(log_squared, h) := PyModule_new "log_squared" h in
  let h := T_physics_single_chain_ufjc_log_squared_thermodynamics.register_module log_squared h in
  let h := add_submodule parent_module log_squared h in
  let h := add_class log_squared (class_of ["physics"; "single_chain"; "ufjc"; "log_squared"] "LOGSQUAREDFJC") h in
  h.
End T_physics_single_chain_ufjc_log_squared.

Module T_physics_single_chain_ufjc_morse_thermodynamics_isometric_asymptotic_reduced_legendre.
(* /repo/src/physics/single_chain/ufjc/morse/thermodynamics/isometric/asymptotic/reduced/legendre/py.rs:10-16 *)
Definition register_module (parent_module : address) (h : heap) : heap :=
  let '(legendre, h) := PyModule_new "legendre" h in
  let h := add_submodule parent_module legendre h in
  let h := add_class legendre (class_of ["physics"; "single_chain"; "ufjc"; "morse"; "thermodynamics"; "isometric"; "asymptotic"; "reduced"; "legendre"] "MORSEFJC") h in
  h.
End T_physics_single_chain_ufjc_morse_thermodynamics_isometric_asymptotic_reduced_legendre.

Module T_physics_single_chain_ufjc_morse_thermodynamics_isometric_asymptotic_reduced.
(* /repo/src/physics/single_chain/ufjc/morse/thermodynamics/isometric/asymptotic/reduced/py.rs:3-10 *)
Definition register_module (parent_module : address) (h : heap) : heap :=
  let '(reduced, h) := PyModule_new "reduced" h in
  let h := T_physics_single_chain_ufjc_morse_thermodynamics_isometric_asymptotic_reduced_legendre.register_module reduced h in
  let h := add_submodule parent_module reduced h in
  let h := add_class reduced (class_of ["physics"; "single_chain"; "ufjc"; "morse"; "thermodynamics"; "isometric"; "asymptotic"; "reduced"] "MORSEFJC") h in
  h.
End T_physics_single_chain_ufjc_morse_thermodynamics_isometric_asymptotic_reduced.

Module T_physics_single_chain_ufjc_morse_thermodynamics_isometric_asymptotic_legendre.
(* /repo/src/physics/single_chain/ufjc/morse/thermodynamics/isometric/asymptotic/legendre/py.rs:10-16 *)
Definition register_module (parent_module : address) (h : heap) : heap :=
  let '(legendre, h) := PyModule_new "legendre" h in
  let h := add_submodule parent_module legendre h in
  let h := add_class legendre (class_of ["physics"; "single_chain"; "ufjc"; "morse"; "thermodynamics"; "isometric"; "asymptotic"; "legendre"] "MORSEFJC") h in
  h.
End T_physics_single_chain_ufjc_morse_thermodynamics_isometric_asymptotic_legendre.

Module T_physics_single_chain_ufjc_morse_thermodynamics_isometric_asymptotic.
(* /repo/src/physics/single_chain/ufjc/morse/thermodynamics/isometric/asymptotic/py.rs:3-11 *)
Definition register_module (parent_module : address) (h : heap) : heap :=
  let '(asymptotic, h) := PyModule_new "asymptotic" h in
  let h := T_physics_single_chain_ufjc_morse_thermodynamics_isometric_asymptotic_reduced.register_module asymptotic h in
  let h := T_physics_single_chain_ufjc_morse_thermodynamics_isometric_asymptotic_legendre.register_module asymptotic h in
  let h := add_submodule parent_module asymptotic h in
  let h := add_class asymptotic (class_of ["physics"; "single_chain"; "ufjc"; "morse"; "thermodynamics"; "isometric"; "asymptotic"] "MORSEFJC") h in
  h.
End T_physics_single_chain_ufjc_morse_thermodynamics_isometric_asymptotic.

Module T_physics_single_chain_ufjc_morse_thermodynamics_isometric.
(* /repo/src/physics/single_chain/ufjc/morse/thermodynamics/isometric/py.rs:3-10 *)
Definition register_module (parent_module : address) (h : heap) : heap :=
  let '(isometric, h) := PyModule_new "isometric" h in
  let h := T_physics_single_chain_ufjc_morse_thermodynamics_isometric_asymptotic.register_module isometric h in
  let h := add_submodule parent_module isometric h in
  let h := add_class isometric (class_of ["physics"; "single_chain"; "ufjc"; "morse"; "thermodynamics"; "isometric"] "MORSEFJC") h in
  h.
End T_physics_single_chain_ufjc_morse_thermodynamics_isometric.

Module T_physics_single_chain_ufjc_morse_thermodynamics_isotensional_asymptotic_reduced_legendre.
(* /repo/src/physics/single_chain/ufjc/morse/thermodynamics/isotensional/asymptotic/reduced/legendre/py.rs:10-16 *)
Definition register_module (parent_module : address) (h : heap) : heap :=
  let '(legendre, h) := PyModule_new "legendre" h in
  let h := add_submodule parent_module legendre h in
  let h := add_class legendre (class_of ["physics"; "single_chain"; "ufjc"; "morse"; "thermodynamics"; "isotensional"; "asymptotic"; "reduced"; "legendre"] "MORSEFJC") h in
  h.
End T_physics_single_chain_ufjc_morse_thermodynamics_isotensional_asymptotic_reduced_legendre.

Module T_physics_single_chain_ufjc_morse_thermodynamics_isotensional_asymptotic_reduced.
(* /repo/src/physics/single_chain/ufjc/morse/thermodynamics/isotensional/asymptotic/reduced/py.rs:10-17 *)
Definition register_module (parent_module : address) (h : heap) : heap :=
  let '(reduced, h) := PyModule_new "reduced" h in
  let h := T_physics_single_chain_ufjc_morse_thermodynamics_isotensional_asymptotic_reduced_legendre.register_module reduced h in
  let h := add_submodule parent_module reduced h in
  let h := add_class reduced (class_of ["physics"; "single_chain"; "ufjc"; "morse"; "thermodynamics"; "isotensional"; "asymptotic"; "reduced"] "MORSEFJC") h in
  h.
End T_physics_single_chain_ufjc_morse_thermodynamics_isotensional_asymptotic_reduced.

Module T_physics_single_chain_ufjc_morse_thermodynamics_isotensional_asymptotic_legendre.
(* /repo/src/physics/single_chain/ufjc/morse/thermodynamics/isotensional/asymptotic/legendre/py.rs:10-16 *)
Definition register_module (parent_module : address) (h : heap) : heap :=
  let '(legendre, h) := PyModule_new "legendre" h in
  let h := add_submodule parent_module legendre h in
  let h := add_class legendre (class_of ["physics"; "single_chain"; "ufjc"; "morse"; "thermodynamics"; "isotensional"; "asymptotic"; "legendre"] "MORSEFJC") h in
  h.
End T_physics_single_chain_ufjc_morse_thermodynamics_isotensional_asymptotic_legendre.

Module T_physics_single_chain_ufjc_morse_thermodynamics_isotensional_asymptotic.
(* /repo/src/physics/single_chain/ufjc/morse/thermodynamics/isotensional/asymptotic/py.rs:10-18 *)
Definition register_module (parent_module : address) (h : heap) : heap :=
  let '(asymptotic, h) := PyModule_new "asymptotic" h in
  let h := T_physics_single_chain_ufjc_morse_thermodynamics_isotensional_asymptotic_reduced.register_module asymptotic h in
  let h := T_physics_single_chain_ufjc_morse_thermodynamics_isotensional_asymptotic_legendre.register_module asymptotic h in
  let h := add_submodule parent_module asymptotic h in
  let h := add_class asymptotic (class_of ["physics"; "single_chain"; "ufjc"; "morse"; "thermodynamics"; "isotensional"; "asymptotic"] "MORSEFJC") h in
  h.
End T_physics_single_chain_ufjc_morse_thermodynamics_isotensional_asymptotic.

Module T_physics_single_chain_ufjc_morse_thermodynamics_isotensional_legendre.
(* /repo/src/physics/single_chain/ufjc/morse/thermodynamics/isotensional/legendre/py.rs:10-16 *)
Definition register_module (parent_module : address) (h : heap) : heap :=
  let '(legendre, h) := PyModule_new "legendre" h in
  let h := add_submodule parent_module legendre h in
  let h := add_class legendre (class_of ["physics"; "single_chain"; "ufjc"; "morse"; "thermodynamics"; "isotensional"; "legendre"] "MORSEFJC") h in
  h.
End T_physics_single_chain_ufjc_morse_thermodynamics_isotensional_legendre.

Module T_physics_single_chain_ufjc_morse_thermodynamics_isotensional.
(* /repo/src/physics/single_chain/ufjc/morse/thermodynamics/isotensional/py.rs:10-18 *)
Definition register_module (parent_module : address) (h : heap) : heap :=
  let '(isotensional, h) := PyModule_new "isotensional" h in
  let h := T_physics_single_chain_ufjc_morse_thermodynamics_isotensional_asymptotic.register_module isotensional h in
  let h := T_physics_single_chain_ufjc_morse_thermodynamics_isotensional_legendre.register_module isotensional h in
  let h := add_submodule parent_module isotensional h in
  let h := add_class isotensional (class_of ["physics"; "single_chain"; "ufjc"; "morse"; "thermodynamics"; "isotensional"] "MORSEFJC") h in
  h.
End T_physics_single_chain_ufjc_morse_thermodynamics_isotensional.

Module T_physics_single_chain_ufjc_morse_thermodynamics.
(* /repo/src/physics/single_chain/ufjc/morse/thermodynamics/py.rs:3-11 *)
Definition register_module (parent_module : address) (h : heap) : heap :=
  let '(thermodynamics, h) := PyModule_new "thermodynamics" h in
  let h := T_physics_single_chain_ufjc_morse_thermodynamics_isometric.register_module thermodynamics h in
  let h := T_physics_single_chain_ufjc_morse_thermodynamics_isotensional.register_module thermodynamics h in
  let h := add_submodule parent_module thermodynamics h in
  let h := add_class thermodynamics (class_of ["physics"; "single_chain"; "ufjc"; "morse"; "thermodynamics"] "MORSEFJC") h in
  h.
End T_physics_single_chain_ufjc_morse_thermodynamics.

Module T_physics_single_chain_ufjc_morse.
(* /repo/src/physics/single_chain/ufjc/morse/py.rs:3-10 *)
Definition register_module (parent_module : address) (h : heap) : heap :=
  let '(morse, h) := PyModule_new "morse" h in
  let h := T_physics_single_chain_ufjc_morse_thermodynamics.register_module morse h in
  let h := add_submodule parent_module morse h in
  let h := add_class morse (class_of ["physics"; "single_chain"; "ufjc"; "morse"] "MORSEFJC") h in
  h.
End T_physics_single_chain_ufjc_morse.

Module T_physics_single_chain_ufjc.
(* /repo/src/physics/single_chain/ufjc/py.rs:3-11 *)
Definition register_module (parent_module : address) (h : heap) : heap :=
  let '(ufjc, h) := PyModule_new "ufjc" h in
  let h := T_physics_single_chain_ufjc_lennard_jones.register_module ufjc h in
  let h := T_physics_single_chain_ufjc_log_squared.register_module ufjc h in
  let h := T_physics_single_chain_ufjc_morse.register_module ufjc h in
  let h := add_submodule parent_module ufjc h in
  h.
End T_physics_single_chain_ufjc.

Module T_physics_single_chain_wlc_thermodynamics_isometric_legendre.
(* /repo/src/physics/single_chain/wlc/thermodynamics/isometric/legendre/py.rs:9-15 *)
Definition register_module (parent_module : address) (h : heap) : heap :=
  let '(legendre, h) := PyModule_new "legendre" h in
  let h := add_submodule parent_module legendre h in
  let h := add_class legendre (class_of ["physics"; "single_chain"; "wlc"; "thermodynamics"; "isometric"; "legendre"] "WLC") h in
  h.
End T_physics_single_chain_wlc_thermodynamics_isometric_legendre.

Module T_physics_single_chain_wlc_thermodynamics_isometric.
(* /repo/src/physics/single_chain/wlc/thermodynamics/isometric/py.rs:16-23 *)
Definition register_module (parent_module : address) (h : heap) : heap :=
  let '(isometric, h) := PyModule_new "isometric" h in
  let h := T_physics_single_chain_wlc_thermodynamics_isometric_legendre.register_module isometric h in
  let h := add_submodule parent_module isometric h in
  let h := add_class isometric (class_of ["physics"; "single_chain"; "wlc"; "thermodynamics"; "isometric"] "WLC") h in
  h.
End T_physics_single_chain_wlc_thermodynamics_isometric.

Module T_physics_single_chain_wlc_thermodynamics_isotensional_legendre.
(* /repo/src/physics/single_chain/wlc/thermodynamics/isotensional/legendre/py.rs:9-15 *)
Definition register_module (parent_module : address) (h : heap) : heap :=
  let '(legendre, h) := PyModule_new "legendre" h in
  let h := add_submodule parent_module legendre h in
  let h := add_class legendre (class_of ["physics"; "single_chain"; "wlc"; "thermodynamics"; "isotensional"; "legendre"] "WLC") h in
  h.
End T_physics_single_chain_wlc_thermodynamics_isotensional_legendre.

Module T_physics_single_chain_wlc_thermodynamics_isotensional.
(* /repo/src/physics/single_chain/wlc/thermodynamics/isotensional/py.rs:9-16 *)
Definition register_module (parent_module : address) (h : heap) : heap :=
  let '(isotensional, h) := PyModule_new "isotensional" h in
  let h := T_physics_single_chain_wlc_thermodynamics_isotensional_legendre.register_module isotensional h in
  let h := add_submodule parent_module isotensional h in
  let h := add_class isotensional (class_of ["physics"; "single_chain"; "wlc"; "thermodynamics"; "isotensional"] "WLC") h in
  h.
End T_physics_single_chain_wlc_thermodynamics_isotensional.

Module T_physics_single_chain_wlc_thermodynamics.
(* /repo/src/physics/single_chain/wlc/thermodynamics/py.rs:3-11 *)
Definition register_module (parent_module : address) (h : heap) : heap :=
  let '(thermodynamics, h) := PyModule_new "thermodynamics" h in
  let h := T_physics_single_chain_wlc_thermodynamics_isometric.register_module thermodynamics h in
  let h := T_physics_single_chain_wlc_thermodynamics_isotensional.register_module thermodynamics h in
  let h := add_submodule parent_module thermodynamics h in
  let h := add_class thermodynamics (class_of ["physics"; "single_chain"; "wlc"; "thermodynamics"] "WLC") h in
  h.
End T_physics_single_chain_wlc_thermodynamics.

Module T_physics_single_chain_wlc.
(* /repo/src/physics/single_chain/wlc/py.rs:3-10 *)
Definition register_module (parent_module : address) (h : heap) : heap :=
  let '(wlc, h) := PyModule_new "wlc" h in
  let h := T_physics_single_chain_wlc_thermodynamics.register_module wlc h in
  let h := add_submodule parent_module wlc h in
  let h := add_class wlc (class_of ["physics"; "single_chain"; "wlc"] "WLC") h in
  h.
End T_physics_single_chain_wlc.

Module T_physics_single_chain.
(* /repo/src/physics/single_chain/py.rs:3-14 *)
Definition register_module (parent_module : address) (h : heap) : heap :=
  let '(single_chain, h) := PyModule_new "single_chain" h in
  let h := T_physics_single_chain_ideal.register_module single_chain h in
  let h := T_physics_single_chain_fjc.register_module single_chain h in
  let h := T_physics_single_chain_efjc.register_module single_chain h in
  let h := T_physics_single_chain_swfjc.register_module single_chain h in
  let h := T_physics_single_chain_ufjc.register_module single_chain h in
  let h := T_physics_single_chain_wlc.register_module single_chain h in
  let h := add_submodule parent_module single_chain h in
  h.
End T_physics_single_chain.

Module T_physics.
(* /repo/src/physics/py.rs:3-9 *)
Definition register_module (parent_module : address) (h : heap) : heap :=
  let '(physics, h) := PyModule_new "physics" h in
  let h := T_physics_single_chain.register_module physics h in
  let h := add_submodule parent_module physics h in
  h.
End T_physics.

Module T_polymers.
(* /repo/src/py.rs:4-8 *)
Definition polymers (m : address) (h : heap) : heap :=
  let h := T_constitutive.register_module m h in
  let h := T_physics.register_module m h in
  h.
End T_polymers.

(** The package after it is imported: [polymers] is called on the new module. *)
Definition imported : heap := let '(m, h) := PyModule_new "polymers" [] in T_polymers.polymers m h.

(** The attribute [k1.k2. ... .kn] of the module at [a]. *)
Fixpoint attribute (h : heap) (a : address) (p : list string) : option value :=
  match p with
  | [] => Some (Submodule a)
  | k :: p' =>
      match nth_error h a with
      | None => None
      | Some m =>
          match lookup k (attributes m) with
          | Some (Submodule b) => attribute h b p'
          | Some (Class c) => match p' with [] => Some (Class c) | _ :: _ => None end
          | None => None
          end
      end
  end.
