(** Buche-Silberstein constitutive models.

    Arrays of length NUMGRID are lists; the grid size is a parameter [numgrid]
    (a nat), instantiated at 256 by [NUMGRID]. *)
From Coq Require Import ZArith List Bool.
From Verif Require Import Scalar MConst MEfjc.
Import ListNotations.
Local Open Scope scalar_scope.

(** /repo/src/constitutive/hyperelastic/buche_silberstein/mod.rs *)
Module hyperelastic.
(* /repo/src/constitutive/hyperelastic/buche_silberstein/mod.rs:18 *)
Definition NUMGRID : nat := 256.

Section Model.
Context {T : Type} {Sc : Scalar T}.

(* efjc isometric asymptotic reduced legendre, imported at /repo/src/constitutive/hyperelastic/buche_silberstein/mod.rs:7-11 *)
Definition nondimensional_force := efjc_isometric_asymptotic_reduced_legendre.nondimensional_force.
Definition nondimensional_relative_helmholtz_free_energy :=
  efjc_isometric_asymptotic_reduced_legendre.nondimensional_relative_helmholtz_free_energy.

Section Grid.
Context (numgrid : nat).

(* /repo/src/constitutive/hyperelastic/buche_silberstein/mod.rs:38-41 *)
Definition w_grid : list T :=
  let num_grid := sofZ (Z.of_nat numgrid) + sdec 1 0 in
  map (fun i => sofZ (Z.of_nat i + 1) / num_grid) (seq 0 numgrid).

(* /repo/src/constitutive/hyperelastic/buche_silberstein/mod.rs:42; indexing w[1] needs two grid points *)
Definition dw : option T :=
  let! w1 := nth_error w_grid 1 in let! w0 := nth_error w_grid 0 in Some (w1 - w0).

(* /repo/src/constitutive/hyperelastic/buche_silberstein/mod.rs:43-45 *)
Definition atanh_grid : list T := map satanh w_grid.

(* /repo/src/constitutive/hyperelastic/buche_silberstein/mod.rs:49-51 *)
Definition init_element (nondimensional_link_stiffness : T) (number_of_links : Z) (dw z_i w_i r_j w_j : T) : T :=
  nondimensional_force nondimensional_link_stiffness (ssqrt (spowi z_i 2 + spowi r_j 2))
    * (sdec 2 0 * spowi z_i 2 - spowi r_j 2) * sdec 2 0 * spi * sofZ number_of_links * r_j
    / ssqrt (spowi z_i 2 + spowi r_j 2) / (sdec 1 0 - spowi w_i 2) / (sdec 1 0 - spowi w_j 2) * spowi dw 2.

(* /repo/src/constitutive/hyperelastic/buche_silberstein/mod.rs:46-53 *)
Definition init_elements (nondimensional_link_stiffness : T) (number_of_links : Z) (dw : T) : list (list T) :=
  map (fun '(z_i, w_i) =>
    map (fun '(r_j, w_j) => init_element nondimensional_link_stiffness number_of_links dw z_i w_i r_j w_j)
      (combine atanh_grid w_grid))
    (combine atanh_grid w_grid).

(* /repo/src/constitutive/hyperelastic/buche_silberstein/mod.rs:67-69 *)
Definition gaussian_factor (nondimensional_link_stiffness : T) (number_of_links : Z) : T :=
  sdec 15 1 * sofZ number_of_links * nondimensional_link_stiffness * (nondimensional_link_stiffness + sdec 1 0)
    / (spowi nondimensional_link_stiffness 2 + sdec 6 0 * nondimensional_link_stiffness + sdec 3 0).

(* /repo/src/constitutive/hyperelastic/buche_silberstein/mod.rs:60-64 *)
Definition normalization_2 (nondimensional_link_stiffness : T) (number_of_links : Z) (dw : T) : T :=
  ssum (map (fun '(gamma_i, w_i) =>
      spowi gamma_i 2 / (sdec 1 0 - spowi w_i 2)
        / sexp (nondimensional_relative_helmholtz_free_energy number_of_links nondimensional_link_stiffness gamma_i))
      (combine atanh_grid w_grid)) * sdec 4 0 * spi * dw.

(* /repo/src/constitutive/hyperelastic/buche_silberstein/mod.rs:70-72 *)
Definition normalization_3 (factor : T) (dw : T) : T :=
  ssum (map (fun '(gamma_i, w_i) =>
      spowi gamma_i 2 / (sdec 1 0 - spowi w_i 2) / sexp (factor * spowi gamma_i 2))
      (combine atanh_grid w_grid)) * sdec 4 0 * spi * dw.

(* /repo/src/constitutive/hyperelastic/buche_silberstein/mod.rs:36-77 *)
Definition init (method : Z) (nondimensional_link_stiffness : T) (number_of_links : Z)
    : option (list (list T) * T * list T * T) :=
  let! dw := dw in
  let element := init_elements nondimensional_link_stiffness number_of_links dw in
  match method with
  | 1%Z => None
  | 2%Z => Some (element, sdec 0 0, atanh_grid, normalization_2 nondimensional_link_stiffness number_of_links dw)
  | 3%Z =>
      let factor := gaussian_factor nondimensional_link_stiffness number_of_links in
      Some (element, factor, atanh_grid, normalization_3 factor dw)
  | _ => None
  end.
End Grid.

(* [element.iter().zip(grid.iter()).flat_map(|(element_i, z_i)| element_i.iter().zip(grid.iter()).map(...)).sum()] *)
Definition grid_sum (term : T -> T -> T -> T) (element : list (list T)) (grid : list T) : T :=
  ssum (flat_map (fun '(element_i, z_i) =>
      map (fun '(element_ij, r_j) => term element_ij z_i r_j) (combine element_i grid)) (combine element grid)).

(* /repo/src/constitutive/hyperelastic/buche_silberstein/mod.rs:80-102 *)
Definition uniaxial_tension (element : list (list T)) (factor : T) (grid : list T) (normalization : T)
    (method : Z) (nondimensional_link_stiffness : T) (number_of_links : Z) (stretch : T) : option T :=
  match method with
  | 1%Z => None
  | 2%Z => Some (grid_sum (fun element_ij z_i r_j =>
      element_ij / sexp (nondimensional_relative_helmholtz_free_energy number_of_links nondimensional_link_stiffness
        (ssqrt (spowi (z_i / stretch) 2 + stretch * spowi r_j 2)))) element grid / normalization)
  | 3%Z => Some (grid_sum (fun element_ij z_i r_j =>
      element_ij / sexp (factor * (spowi (z_i / stretch) 2 + stretch * spowi r_j 2))) element grid / normalization)
  | _ => None
  end.

(* /repo/src/constitutive/hyperelastic/buche_silberstein/mod.rs:105-127 *)
Definition equibiaxial_tension (element : list (list T)) (factor : T) (grid : list T) (normalization : T)
    (method : Z) (nondimensional_link_stiffness : T) (number_of_links : Z) (stretch : T) : option T :=
  match method with
  | 1%Z => None
  | 2%Z => Some (grid_sum (fun element_ij z_i r_j =>
      - element_ij / sexp (nondimensional_relative_helmholtz_free_energy number_of_links nondimensional_link_stiffness
        (ssqrt (spowi (z_i * spowi stretch 2) 2 + spowi (r_j / stretch) 2)))) element grid / normalization)
  | 3%Z => Some (grid_sum (fun element_ij z_i r_j =>
      - element_ij / sexp (factor * (spowi (z_i * spowi stretch 2) 2 + spowi (r_j / stretch) 2))) element grid / normalization)
  | _ => None
  end.
End Model.

(** struct BucheSilberstein, /repo/src/constitutive/hyperelastic/buche_silberstein/mod.rs:21-34 *)
Module BucheSilberstein.
Record t {T : Type} := {
  element : list (list T);
  factor : T;
  grid : list T;
  method : Z;
  normalization : T;
  nondimensional_link_stiffness : T;
  number_of_links : Z }.
Arguments t : clear implicits.
Section Model.
Context {T : Type} {Sc : Scalar T}.

(* /repo/src/constitutive/hyperelastic/buche_silberstein/mod.rs:136-149 *)
Definition init (numgrid : nat) (method_ : Z) (nondimensional_link_stiffness_ : T) (number_of_links_ : Z) : option (t T) :=
  let! r := init numgrid method_ nondimensional_link_stiffness_ number_of_links_ in
  let '(e, f, g, n) := r in
  Some {| element := e; factor := f; grid := g; method := method_; normalization := n;
          nondimensional_link_stiffness := nondimensional_link_stiffness_; number_of_links := number_of_links_ |}.

(* /repo/src/constitutive/hyperelastic/buche_silberstein/mod.rs:151-154 *)
Definition uniaxial_tension (self : t T) (stretch : T) : option T :=
  uniaxial_tension (element self) (factor self) (grid self) (normalization self) (method self)
    (nondimensional_link_stiffness self) (number_of_links self) stretch.

(* /repo/src/constitutive/hyperelastic/buche_silberstein/mod.rs:156-159 *)
Definition equibiaxial_tension (self : t T) (stretch : T) : option T :=
  equibiaxial_tension (element self) (factor self) (grid self) (normalization self) (method self)
    (nondimensional_link_stiffness self) (number_of_links self) stretch.
End Model.
End BucheSilberstein.
End hyperelastic.

(** /repo/src/constitutive/hyperelastic_damage/buche_silberstein/mod.rs *)
Module hyperelastic_damage.
(* /repo/src/constitutive/hyperelastic_damage/buche_silberstein/mod.rs:18 *)
Definition NUMGRID : nat := 256.

Section Model.
Context {T : Type} {Sc : Scalar T}.

(* imported at /repo/src/constitutive/hyperelastic_damage/buche_silberstein/mod.rs:7-11 *)
Definition nondimensional_force := efjc_isometric_asymptotic_reduced_legendre.nondimensional_force.
Definition nondimensional_relative_helmholtz_free_energy :=
  efjc_isometric_asymptotic_reduced_legendre.nondimensional_relative_helmholtz_free_energy.

(* /repo/src/constitutive/hyperelastic_damage/buche_silberstein/mod.rs:44-46 *)
Definition init_grid (numgrid : nat) (nondimensional_critical_extension : T) : list T :=
  map (fun i => nondimensional_critical_extension * sofZ (Z.of_nat i + 1) / sofZ (Z.of_nat numgrid)) (seq 0 numgrid).

(* /repo/src/constitutive/hyperelastic_damage/buche_silberstein/mod.rs:47, :110, :128 [grid[1] - grid[0]]; indexing needs two grid points *)
Definition grid_step (grid : list T) : option T :=
  let! g1 := nth_error grid 1 in let! g0 := nth_error grid 0 in Some (g1 - g0).

(* /repo/src/constitutive/hyperelastic_damage/buche_silberstein/mod.rs:51-53 *)
Definition init_element (nondimensional_link_stiffness : T) (number_of_links : Z) (swelling_ratio dz z_i r_j : T) : T :=
  nondimensional_force nondimensional_link_stiffness (ssqrt (spowi z_i 2 + spowi r_j 2))
    * (sdec 2 0 * spowi z_i 2 - spowi r_j 2) * sdec 2 0 * spi * sofZ number_of_links * r_j
    / ssqrt (spowi z_i 2 + spowi r_j 2) * spowi dz 2 / spowi swelling_ratio 3.

(* /repo/src/constitutive/hyperelastic_damage/buche_silberstein/mod.rs:69-71 *)
Definition gaussian_factor (nondimensional_link_stiffness : T) (number_of_links : Z) : T :=
  sdec 15 1 * sofZ number_of_links * nondimensional_link_stiffness * (nondimensional_link_stiffness + sdec 1 0)
    / (spowi nondimensional_link_stiffness 2 + sdec 6 0 * nondimensional_link_stiffness + sdec 3 0).

(* /repo/src/constitutive/hyperelastic_damage/buche_silberstein/mod.rs:42-79 *)
Definition init (numgrid : nat) (method : Z) (nondimensional_critical_extension nondimensional_link_stiffness : T)
    (number_of_links : Z) (swelling_ratio : T) : option (list (list T) * T * list T * T) :=
  let grid := init_grid numgrid nondimensional_critical_extension in
  let! dz := grid_step grid in
  let element := map (fun z_i => map (fun r_j =>
      init_element nondimensional_link_stiffness number_of_links swelling_ratio dz z_i r_j) grid) grid in
  match method with
  | 1%Z => None
  | 2%Z => Some (element, sdec 0 0, grid,
      ssum (map (fun gamma_i => spowi gamma_i 2
        / sexp (nondimensional_relative_helmholtz_free_energy number_of_links nondimensional_link_stiffness gamma_i)) grid)
        * sdec 4 0 * spi * dz / swelling_ratio)
  | 3%Z =>
      let factor := gaussian_factor nondimensional_link_stiffness number_of_links in
      Some (element, factor, grid,
        ssum (map (fun gamma_i => spowi gamma_i 2 / sexp (factor * spowi gamma_i 2)) grid)
          * sdec 4 0 * spi * dz / swelling_ratio)
  | _ => None
  end.

(* /repo/src/constitutive/hyperelastic_damage/buche_silberstein/mod.rs:95-98, :105-108, :115-118, :123-126: [(... <= critical) as u8 as f64] *)
Definition survives (nondimensional_critical_extension stretch maximum_previous_stretch z_i r_j : T) : bool :=
  ssqrt (spowi (z_i * maximum_previous_stretch / stretch) 2
         + stretch / maximum_previous_stretch * spowi r_j 2) <=? nondimensional_critical_extension.
(* the cast [as u8 as f64] at /repo/src/constitutive/hyperelastic_damage/buche_silberstein/mod.rs:98 *)
Definition indicator (b : bool) : T := sofZ (if b then 1 else 0)%Z.

(* [element.iter().zip(grid.iter()).flat_map(...).sum()], /repo/src/constitutive/hyperelastic_damage/buche_silberstein/mod.rs:91-98 *)
Definition grid_sum (term : T -> T -> T -> T) (element : list (list T)) (grid : list T) : T :=
  ssum (flat_map (fun '(element_i, z_i) =>
      map (fun '(element_ij, r_j) => term element_ij z_i r_j) (combine element_i grid)) (combine element grid)).

(* [grid.iter().flat_map(|z_i| grid.iter().map(|r_j| ...)).sum()], /repo/src/constitutive/hyperelastic_damage/buche_silberstein/mod.rs:101-108 *)
Definition grid_sum_2 (term : T -> T -> T) (grid : list T) : T :=
  ssum (flat_map (fun z_i => map (fun r_j => term z_i r_j) grid) grid).

(* the weight of a grid cell for methods 2 (/repo/src/constitutive/hyperelastic_damage/buche_silberstein/mod.rs:93-95, :103-105) and 3 (:115, :123):
   the argument of [exp] dividing the element *)
Definition exponent_2 (nondimensional_link_stiffness : T) (number_of_links : Z) (stretch z_i r_j : T) : T :=
  nondimensional_relative_helmholtz_free_energy number_of_links nondimensional_link_stiffness
    (ssqrt (spowi (z_i / stretch) 2 + stretch * spowi r_j 2)).
(* /repo/src/constitutive/hyperelastic_damage/buche_silberstein/mod.rs:115, :123 *)
Definition exponent_3 (factor j_1_3 stretch z_i r_j : T) : T :=
  factor * (spowi (z_i / stretch) 2 + stretch * spowi r_j 2) / spowi j_1_3 2.

(* the two outputs of a method with exponent [exponent] (/repo/src/constitutive/hyperelastic_damage/buche_silberstein/mod.rs:91-110, :113-128) *)
Definition stress_and_probability (exponent : T -> T -> T) (element : list (list T)) (grid : list T)
    (normalization nondimensional_critical_extension swelling_ratio stretch maximum_previous_stretch : T)
    : option (T * T) :=
  let cauchy_stress := grid_sum (fun element_ij z_i r_j =>
      element_ij / sexp (exponent z_i r_j)
        * indicator (survives nondimensional_critical_extension stretch maximum_previous_stretch z_i r_j))
      element grid / normalization in
  let! dz := grid_step grid in
  let total_probability := grid_sum_2 (fun z_i r_j =>
      r_j / sexp (exponent z_i r_j)
        * indicator (survives nondimensional_critical_extension stretch maximum_previous_stretch z_i r_j))
      grid / normalization * sdec 4 0 * spi * spowi (dz / swelling_ratio) 2 in
  Some (cauchy_stress, total_probability).

(* /repo/src/constitutive/hyperelastic_damage/buche_silberstein/mod.rs:82-133; [assert!(stretch >= &1.0)] fails on unordered arguments too *)
Definition uniaxial_tension (element : list (list T)) (factor : T) (grid : list T) (normalization : T) (method : Z)
    (nondimensional_critical_extension nondimensional_link_stiffness : T) (number_of_links : Z)
    (swelling_ratio stretch maximum_previous_stretch : T) : option (T * T) :=
  if sdec 1 0 <=? stretch then
    let j_1_3 := spowf swelling_ratio (sdec 1 0 / sdec 3 0) in
    match method with
    | 1%Z => None
    | 2%Z => stress_and_probability (exponent_2 nondimensional_link_stiffness number_of_links stretch)
        element grid normalization nondimensional_critical_extension swelling_ratio stretch maximum_previous_stretch
    | 3%Z => stress_and_probability (exponent_3 factor j_1_3 stretch)
        element grid normalization nondimensional_critical_extension swelling_ratio stretch maximum_previous_stretch
    | _ => None
    end
  else None.
End Model.

(** struct BucheSilberstein, /repo/src/constitutive/hyperelastic_damage/buche_silberstein/mod.rs:21-40 *)
Module BucheSilberstein.
Record t {T : Type} := {
  element : list (list T);
  factor : T;
  grid : list T;
  method : Z;
  normalization : T;
  nondimensional_critical_extension : T;
  nondimensional_link_stiffness : T;
  number_of_links : Z;
  swelling_ratio : T }.
Arguments t : clear implicits.
Section Model.
Context {T : Type} {Sc : Scalar T}.

(* /repo/src/constitutive/hyperelastic_damage/buche_silberstein/mod.rs:142-157 *)
Definition init (numgrid : nat) (method_ : Z) (nondimensional_critical_extension_ nondimensional_link_stiffness_ : T)
    (number_of_links_ : Z) (swelling_ratio_ : T) : option (t T) :=
  let! r := init numgrid method_ nondimensional_critical_extension_ nondimensional_link_stiffness_ number_of_links_ swelling_ratio_ in
  let '(e, f, g, n) := r in
  Some {| element := e; factor := f; grid := g; method := method_; normalization := n;
          nondimensional_critical_extension := nondimensional_critical_extension_;
          nondimensional_link_stiffness := nondimensional_link_stiffness_; number_of_links := number_of_links_;
          swelling_ratio := swelling_ratio_ |}.

(* /repo/src/constitutive/hyperelastic_damage/buche_silberstein/mod.rs:162-170: the stateful closure of [from_fn], run for L entries; reading past
   the end of the slice panics *)
Fixpoint history (self : t T) (l : nat) (maximum_previous_stretch : T) (stretch : list T) : option (list (T * T)) :=
  match l with
  | O => Some []
  | S l' =>
      match stretch with
      | [] => None
      | stretch_i :: rest =>
          let maximum_previous_stretch :=
            if maximum_previous_stretch <? stretch_i then stretch_i else maximum_previous_stretch in
          let! o := uniaxial_tension (element self) (factor self) (grid self) (normalization self) (method self)
            (nondimensional_critical_extension self) (nondimensional_link_stiffness self) (number_of_links self)
            (swelling_ratio self) stretch_i maximum_previous_stretch in
          let! os := history self l' maximum_previous_stretch rest in
          Some (o :: os)
      end
  end.

(* /repo/src/constitutive/hyperelastic_damage/buche_silberstein/mod.rs:159-171; L is a const generic *)
Definition uniaxial_tension (self : t T) (l : nat) (stretch : list T) : option (list (T * T)) :=
  history self l (sdec 1 0) stretch.
End Model.
End BucheSilberstein.
End hyperelastic_damage.
