(** The Python and C interfaces of the constitutive models.  As in MConstitutive.v the grid
    size is a parameter. *)
From Coq Require Import ZArith List Bool.
From Verif Require Import Scalar MArray MConstitutive.
Import ListNotations.
Local Open Scope scalar_scope.

(** /repo/src/constitutive/hyperelastic/buche_silberstein/py.rs: class BucheSilberstein *)
Module P_hyperelastic.
(* /repo/src/constitutive/hyperelastic/buche_silberstein/py.rs:26-41 *)
Record t {T : Type} := {
  element : list (list T);
  factor : T;
  grid : list T;
  method : Z;
  normalization : T;
  nondimensional_link_stiffness : T;
  number_of_links : Z }.
Arguments t : clear implicits.
Section Model.
Context {T : Type} {Sc : Scalar T}.

(* /repo/src/constitutive/hyperelastic/buche_silberstein/py.rs:47-60 *)
Definition init (numgrid : nat) (method_ : Z) (nondimensional_link_stiffness_ : T) (number_of_links_ : Z) : option (t T) :=
  let! r := hyperelastic.init numgrid method_ nondimensional_link_stiffness_ number_of_links_ in
  let '(e, f, g, n) := r in
  Some {| element := e; factor := f; grid := g; method := method_; normalization := n;
          nondimensional_link_stiffness := nondimensional_link_stiffness_; number_of_links := number_of_links_ |}.

(* /repo/src/constitutive/hyperelastic/buche_silberstein/py.rs:74-82 *)
Definition uniaxial_tension (self : t T) (stretch : ndarray T) : option (ndarray T) :=
  mapv_panic (fun stretch => hyperelastic.uniaxial_tension (element self) (factor self) (grid self) (normalization self)
    (method self) (nondimensional_link_stiffness self) (number_of_links self) stretch) stretch.

(* /repo/src/constitutive/hyperelastic/buche_silberstein/py.rs:96-104 *)
Definition equibiaxial_tension (self : t T) (stretch : ndarray T) : option (ndarray T) :=
  mapv_panic (fun stretch => hyperelastic.equibiaxial_tension (element self) (factor self) (grid self) (normalization self)
    (method self) (nondimensional_link_stiffness self) (number_of_links self) stretch) stretch.
End Model.
End P_hyperelastic.

(** /repo/src/constitutive/hyperelastic_damage/buche_silberstein/py.rs: class BucheSilberstein *)
Module P_hyperelastic_damage.
(* /repo/src/constitutive/hyperelastic_damage/buche_silberstein/py.rs:26-49 *)
Record t {T : Type} := {
  element : list (list T);
  factor : T;
  grid : list T;
  method : Z;
  normalization : T;
  nondimensional_critical_extension : T;
  nondimensional_link_stiffness : T;
  number_of_links : Z;
  swelling_ratio : T }.
Arguments t : clear implicits.
Section Model.
Context {T : Type} {Sc : Scalar T}.

(* /repo/src/constitutive/hyperelastic_damage/buche_silberstein/py.rs:55-70 *)
Definition init (numgrid : nat) (method_ : Z) (nondimensional_critical_extension_ nondimensional_link_stiffness_ : T)
    (number_of_links_ : Z) (swelling_ratio_ : T) : option (t T) :=
  let! r := hyperelastic_damage.init numgrid method_ nondimensional_critical_extension_ nondimensional_link_stiffness_
    number_of_links_ swelling_ratio_ in
  let '(e, f, g, n) := r in
  Some {| element := e; factor := f; grid := g; method := method_; normalization := n;
          nondimensional_critical_extension := nondimensional_critical_extension_;
          nondimensional_link_stiffness := nondimensional_link_stiffness_; number_of_links := number_of_links_;
          swelling_ratio := swelling_ratio_ |}.

(* /repo/src/constitutive/hyperelastic_damage/buche_silberstein/py.rs:99-112: the stateful closure mapped over the entries *)
Fixpoint results (self : t T) (maximum_previous_stretch : T) (stretches : list T) : option (list (T * T)) :=
  match stretches with
  | [] => Some []
  | stretch :: rest =>
      let maximum_previous_stretch :=
        if maximum_previous_stretch <? stretch then stretch else maximum_previous_stretch in
      let! o := hyperelastic_damage.uniaxial_tension (element self) (factor self) (grid self) (normalization self)
        (method self) (nondimensional_critical_extension self) (nondimensional_link_stiffness self) (number_of_links self)
        (swelling_ratio self) stretch maximum_previous_stretch in
      let! os := results self maximum_previous_stretch rest in
      Some (o :: os)
  end.

(* /repo/src/constitutive/hyperelastic_damage/buche_silberstein/py.rs:96-116; [PyArray::from_vec] makes one-dimensional arrays *)
Definition uniaxial_tension (self : t T) (stretches : ndarray T) : option (ndarray T * ndarray T) :=
  let! results := results self (sdec 1 0) (entries stretches) in
  let results_1 := map fst results in
  let results_2 := map snd results in
  Some (mk_array [length results_1] results_1, mk_array [length results_2] results_2).
End Model.
End P_hyperelastic_damage.

(** ** The C interface

    A raw pointer to numbers is the list of the numbers that may be read through it: from
    the address it holds to the end of the allocation. *)
Inductive c_outcome (A : Type) : Type :=
| Undefined                  (* the behaviour of the program is undefined *)
| Finished (r : option A).   (* the function returned, or panicked *)
Arguments Undefined {A}.
Arguments Finished {A}.

(** [std::slice::from_raw_parts(p, len)[0]], where [p] points to arrays of [width] numbers.
    `from_raw_parts` requires that all [len] arrays can be read, even if one is. *)
Definition first_of_raw_parts {A : Type} (width len : nat) (p : list A) : option (list A) :=
  if (width * len <=? length p)%nat then Some (firstn width p) else None.

(** The rows of a [width] x [width] array stored as consecutive numbers. *)
Fixpoint rows {A : Type} (n width : nat) (l : list A) : list (list A) :=
  match n with
  | O => []
  | S n' => firstn width l :: rows n' width (skipn width l)
  end.

Module extern_hyperelastic.
Section Model.
Context {T : Type} {Sc : Scalar T}.

Definition with_raw_parts {A : Type} (numgrid : nat) (raw_element raw_grid : list T)
    (f : list (list T) -> list T -> option A) : c_outcome A :=
  match first_of_raw_parts numgrid numgrid raw_grid with
  | None => Undefined
  | Some grid =>
      match first_of_raw_parts (numgrid * numgrid) (numgrid * numgrid) raw_element with
      | None => Undefined
      | Some element => Finished (f (rows numgrid numgrid element) grid)
      end
  end.

(* /repo/src/constitutive/hyperelastic/buche_silberstein/ex.rs:2-7 *)
Definition constitutive_hyperelastic_buche_silberstein_uniaxial_tension (numgrid : nat) (raw_element : list T) (factor : T)
    (raw_grid : list T) (normalization : T) (method : Z) (nondimensional_link_stiffness : T) (number_of_links : Z)
    (stretch : T) : c_outcome T :=
  with_raw_parts numgrid raw_element raw_grid (fun element grid =>
    hyperelastic.uniaxial_tension element factor grid normalization method nondimensional_link_stiffness
      number_of_links stretch).

(* /repo/src/constitutive/hyperelastic/buche_silberstein/ex.rs:9-14 *)
Definition constitutive_hyperelastic_buche_silberstein_equibiaxial_tension (numgrid : nat) (raw_element : list T) (factor : T)
    (raw_grid : list T) (normalization : T) (method : Z) (nondimensional_link_stiffness : T) (number_of_links : Z)
    (stretch : T) : c_outcome T :=
  with_raw_parts numgrid raw_element raw_grid (fun element grid =>
    hyperelastic.equibiaxial_tension element factor grid normalization method nondimensional_link_stiffness
      number_of_links stretch).
End Model.
End extern_hyperelastic.
