(** The Python package publishes its classes: C63. *)
From Coq Require Import List String.
From Verif Require Import MPyTree SpecPyTree PPyTree.
Import ListNotations.
Open Scope string_scope.
Open Scope list_scope.

(** After [import polymers] a chain of attributes leads to a class exactly if the class
    is defined in some directory and the chain is the path that belongs to it. The
    package itself has address 0. *)
Theorem C63_classes : forall p d c,
  attribute imported 0 p = Some (Class (class_of d c)) <-> In (d, c) sources /\ p = path d c.
Proof. exact published. Qed.
Print Assumptions C63_classes.

(** It leads to a module exactly if it is the beginning of the path to a class. *)
Theorem C63_modules : forall p, (exists a, attribute imported 0 p = Some (Submodule a)) <-> package p.
Proof. exact modules. Qed.
Print Assumptions C63_modules.

Example C63_instance : attribute imported 0 ["physics"; "single_chain"; "fjc"; "thermodynamics"; "isometric"; "FJC"]
  = Some (Class (class_of ["physics"; "single_chain"; "fjc"; "thermodynamics"; "isometric"] "FJC")).
Proof. apply C63_classes. split; [|reflexivity]. cbn. tauto. Qed.

Example C63_constitutive : attribute imported 0 ["constitutive"; "hyperelastic"; "BucheSilberstein"]
  = Some (Class (class_of ["constitutive"; "hyperelastic"; "buche_silberstein"] "BucheSilberstein")).
Proof. apply C63_classes. split; [|reflexivity]. cbn. tauto. Qed.

Example C63_absent : ~ exists v, attribute imported 0 ["physics"; "single_chain"; "frc"] = Some v.
Proof. intros [v H]. vm_compute in H. discriminate. Qed.
