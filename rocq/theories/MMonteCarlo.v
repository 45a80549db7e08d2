(** Monte Carlo samplers of the FJC, EFJC, FRC and EFRC modules.

    The random number generator is an arbitrary state machine: [gen] is
    [rng.gen::<f64>()] and [sample] is [dist.sample(rng)], both threading the
    generator state as [&mut ThreadRng] does.  Const generics are [nat]s.  Bin
    counters (u128, incremented at most usize::MAX times) cannot overflow and are
    plain [Z]. *)
From Coq Require Import ZArith List Bool.
From Verif Require Import Scalar.
Import ListNotations.
Local Open Scope scalar_scope.

(** [f64; 3] *)
Definition vec (T : Type) : Type := (T * T * T)%type.

Module monte_carlo.
Section Model.
Context {T : Type} {Sc : Scalar T}.

(* std::f64::consts::TAU *)
Definition TWO_PI : T := sdec 2 0 * spi.

(* [[0.0; 3]], /repo/src/physics/single_chain/fjc/thermodynamics/isometric/monte_carlo/mod.rs:11 *)
Definition zero3 : vec T := (sdec 0 0, sdec 0 0, sdec 0 0).

(* [position_i += r_i] for the three components *)
Definition add3 (p r : vec T) : vec T :=
  let '(p0, p1, p2) := p in let '(r0, r1, r2) := r in (p0 + r0, p1 + r1, p2 + r2).

(* [.iter().map(|x| x * x).sum::<f64>().sqrt()] *)
Definition norm3 (p : vec T) : T :=
  let '(p0, p1, p2) := p in ssqrt (ssum [p0 * p0; p1 * p1; p2 * p2]).

(* [u.iter_mut().for_each(|u_i| *u_i /= c)] *)
Definition div3 (p : vec T) (c : T) : vec T :=
  let '(p0, p1, p2) := p in (p0 / c, p1 / c, p2 / c).

(* The last coordinate of a configuration and its length; indexing
   [NUMBER_OF_LINKS - 1] with no links is a panic.
   fjc: isometric/monte_carlo/mod.rs:28; frc: :53; efrc: :56; efjc: :32 *)
Definition end_to_end_length (number_of_links : nat) (configuration : list (vec T)) : option T :=
  match number_of_links with
  | O => None
  | S last => let! p := nth_error configuration last in Some (norm3 p)
  end.

(* The inner loop over the bins: the first bin with [gamma < edge] is
   incremented; with [limit = Some gamma_max] each visited bin first panics when
   [gamma > gamma_max].
   fjc: :43-50 (no limit); frc: :69-80; efrc: :72-83; efjc: :48-59 *)
Fixpoint count_sample (limit : option T) (gamma : T) (bin_edges : list T) (bin_counts : list Z)
    : option (list Z) :=
  match bin_edges, bin_counts with
  | bin_edge :: edges, bin_count :: counts =>
      if match limit with Some gamma_max => gamma_max <? gamma | None => false end then None
      else if gamma <? bin_edge then Some ((bin_count + 1)%Z :: counts)
      else let! counts' := count_sample limit gamma edges counts in Some (bin_count :: counts')
  | _, _ => Some bin_counts
  end.

Section Histogram.
Context {G : Type}.

(* The loop over the samples; [draw] is the random end-to-end length.
   fjc: :41-51; frc: :67-81; efrc: :70-84; efjc: :46-60 *)
Fixpoint count_samples (limit : option T) (draw : G -> option (T * G)) (number_of_links_f64 : T)
    (bin_edges : list T) (number_of_samples : nat) (bin_counts : list Z) (g : G) : option (list Z) :=
  match number_of_samples with
  | O => Some bin_counts
  | S rest =>
      let! r := draw g in
      let! counts := count_sample limit (fst r / number_of_links_f64) bin_edges bin_counts in
      count_samples limit draw number_of_links_f64 bin_edges rest counts (snd r)
  end.
End Histogram.

(* [0..NUMBER_OF_BINS], /repo/src/physics/single_chain/fjc/thermodynamics/isometric/monte_carlo/mod.rs:36-38 *)
Definition indices (number_of_bins : nat) : list Z := map Z.of_nat (seq 0 number_of_bins).

End Model.
End monte_carlo.
Import monte_carlo.

(** /repo/src/physics/single_chain/fjc/thermodynamics/isometric/monte_carlo/mod.rs *)
Module fjc_monte_carlo.
Section Model.
Context {T : Type} {Sc : Scalar T} {G : Type} (gen : G -> T * G).

(* /repo/src/physics/single_chain/fjc/thermodynamics/isometric/monte_carlo/mod.rs:14-18, the increment of one link *)
Definition random_link (g : G) : vec T * G :=
  let '(a, g) := gen g in
  let phi := TWO_PI * a in
  let '(b, g) := gen g in
  let theta := sacos (sdec 1 0 - sdec 2 0 * b) in
  ((ssin theta * scos phi, ssin theta * ssin phi, scos theta), g).

(* /repo/src/physics/single_chain/fjc/thermodynamics/isometric/monte_carlo/mod.rs:13-22 *)
Fixpoint walk (number_of_links : nat) (position : vec T) (g : G) : list (vec T) * G :=
  match number_of_links with
  | O => ([], g)
  | S rest =>
      let '(r, g) := random_link g in
      let position := add3 position r in
      let '(configuration, g) := walk rest position g in
      (position :: configuration, g)
  end.

(* /repo/src/physics/single_chain/fjc/thermodynamics/isometric/monte_carlo/mod.rs:7-24 *)
Definition random_configuration (number_of_links : nat) (g : G) : list (vec T) * G :=
  walk number_of_links zero3 g.

(* /repo/src/physics/single_chain/fjc/thermodynamics/isometric/monte_carlo/mod.rs:26-29 *)
Definition random_nondimensional_end_to_end_length (number_of_links : nat) (g : G) : option (T * G) :=
  let '(configuration, g) := random_configuration number_of_links g in
  let! l := end_to_end_length number_of_links configuration in Some (l, g).

(* /repo/src/physics/single_chain/fjc/thermodynamics/isometric/monte_carlo/mod.rs:36-38 *)
Definition bin_edges (number_of_bins : nat) : list T :=
  map (fun bin_index => (sofZ bin_index + sdec 1 0) / sofZ (Z.of_nat number_of_bins)) (indices number_of_bins).

(* /repo/src/physics/single_chain/fjc/thermodynamics/isometric/monte_carlo/mod.rs:57-60 *)
Definition bin_centers (number_of_bins : nat) : list T :=
  map (fun bin_index => (sofZ bin_index + sdec 5 1) / sofZ (Z.of_nat number_of_bins)) (indices number_of_bins).

(* /repo/src/physics/single_chain/fjc/thermodynamics/isometric/monte_carlo/mod.rs:31-62 *)
Definition nondimensional_equilibrium_radial_distribution (number_of_bins number_of_links number_of_samples : nat)
    (g : G) : option (list T * list T) :=
  let! bin_counts := count_samples None (random_nondimensional_end_to_end_length number_of_links)
      (sofZ (Z.of_nat number_of_links)) (bin_edges number_of_bins) number_of_samples
      (repeat 0%Z number_of_bins) g in
  let normalization := sofZ (Z.of_nat number_of_samples) / sofZ (Z.of_nat number_of_bins) in
  Some (bin_centers number_of_bins, map (fun bin_count => sofZ bin_count / normalization) bin_counts).
End Model.
End fjc_monte_carlo.

(** The binned output shared by the frc, efjc and efrc samplers (same text in
    the three files): edges, centres and normalisation scaled by gamma_max.
    frc: :61-64, :82-91; efjc: :40-43, :61-70; efrc: :64-67, :85-94 *)
Module scaled_bins.
Section Model.
Context {T : Type} {Sc : Scalar T}.
(* /repo/src/physics/single_chain/frc/thermodynamics/isometric/monte_carlo/mod.rs:61-64 *)
Definition bin_edges (gamma_max : T) (number_of_bins : nat) : list T :=
  map (fun bin_index => gamma_max * (sofZ bin_index + sdec 1 0) / sofZ (Z.of_nat number_of_bins)) (indices number_of_bins).
(* /repo/src/physics/single_chain/frc/thermodynamics/isometric/monte_carlo/mod.rs:86-89 *)
Definition bin_centers (gamma_max : T) (number_of_bins : nat) : list T :=
  map (fun bin_index => gamma_max * (sofZ bin_index + sdec 5 1) / sofZ (Z.of_nat number_of_bins)) (indices number_of_bins).
(* /repo/src/physics/single_chain/frc/thermodynamics/isometric/monte_carlo/mod.rs:65-91 *)
Definition histogram {G : Type} (gamma_max : T) (draw : G -> option (T * G))
    (number_of_bins number_of_links number_of_samples : nat) (g : G) : option (list T * list T) :=
  let! bin_counts := count_samples (Some gamma_max) draw (sofZ (Z.of_nat number_of_links))
      (bin_edges gamma_max number_of_bins) number_of_samples (repeat 0%Z number_of_bins) g in
  let normalization := gamma_max * sofZ (Z.of_nat number_of_samples) / sofZ (Z.of_nat number_of_bins) in
  Some (bin_centers gamma_max number_of_bins, map (fun bin_count => sofZ bin_count / normalization) bin_counts).
End Model.
End scaled_bins.

(** /repo/src/physics/single_chain/efjc/thermodynamics/isometric/monte_carlo/mod.rs *)
Module efjc_monte_carlo.
Section Model.
Context {T : Type} {Sc : Scalar T} {G : Type} (gen : G -> T * G).
(* [sample mean std_dev]: drawing from Normal::new(mean, std_dev) *)
Context (sample : T -> T -> G -> T * G).

(* /repo/src/physics/single_chain/efjc/thermodynamics/isometric/monte_carlo/mod.rs:17-22, the increment of one link; [dist] is the
   sampling function of the Normal distribution *)
Definition random_link (dist : G -> T * G) (g : G) : vec T * G :=
  let '(lambda, g) := dist g in
  let '(a, g) := gen g in
  let phi := TWO_PI * a in
  let '(b, g) := gen g in
  let theta := sacos (sdec 1 0 - sdec 2 0 * b) in
  ((lambda * (ssin theta * scos phi), lambda * (ssin theta * ssin phi), lambda * scos theta), g).

(* /repo/src/physics/single_chain/efjc/thermodynamics/isometric/monte_carlo/mod.rs:16-26 *)
Fixpoint walk (dist : G -> T * G) (number_of_links : nat) (position : vec T) (g : G) : list (vec T) * G :=
  match number_of_links with
  | O => ([], g)
  | S rest =>
      let '(r, g) := random_link dist g in
      let position := add3 position r in
      let '(configuration, g) := walk dist rest position g in
      (position :: configuration, g)
  end.

(* /repo/src/physics/single_chain/efjc/thermodynamics/isometric/monte_carlo/mod.rs:9-28 *)
Definition random_configuration (number_of_links : nat) (dist : G -> T * G) (g : G) : list (vec T) * G :=
  walk dist number_of_links zero3 g.

(* /repo/src/physics/single_chain/efjc/thermodynamics/isometric/monte_carlo/mod.rs:30-33 *)
Definition random_nondimensional_end_to_end_length (number_of_links : nat) (dist : G -> T * G) (g : G) : option (T * G) :=
  let '(configuration, g) := random_configuration number_of_links dist g in
  let! l := end_to_end_length number_of_links configuration in Some (l, g).

(* /repo/src/physics/single_chain/efjc/thermodynamics/isometric/monte_carlo/mod.rs:35-71; [Normal::new(1.0, 1.0/kappa.sqrt()).unwrap()]
   panics unless the standard deviation is finite, i.e. unless kappa > 0. *)
Definition nondimensional_equilibrium_radial_distribution (number_of_bins number_of_links : nat)
    (gamma_max kappa : T) (number_of_samples : nat) (g : G) : option (list T * list T) :=
  if sdec 0 0 <? kappa then
    let dist := sample (sdec 1 0) (sdec 1 0 / ssqrt kappa) in
    scaled_bins.histogram gamma_max (random_nondimensional_end_to_end_length number_of_links dist)
      number_of_bins number_of_links number_of_samples g
  else None.
End Model.
End efjc_monte_carlo.

(** /repo/src/physics/single_chain/frc/thermodynamics/isometric/monte_carlo/mod.rs *)
Module frc_monte_carlo.
Section Model.
Context {T : Type} {Sc : Scalar T} {G : Type} (gen : G -> T * G).

(* /repo/src/physics/single_chain/frc/thermodynamics/isometric/monte_carlo/mod.rs:8-13 *)
Definition cross (u v : vec T) : vec T :=
  let '(u0, u1, u2) := u in let '(v0, v1, v2) := v in
  (u1 * v2 - u2 * v1, u2 * v0 - u0 * v2, u0 * v1 - u1 * v0).

(* /repo/src/physics/single_chain/frc/thermodynamics/isometric/monte_carlo/mod.rs:38-40 *)
Definition rotate (phi_cos phi_sin theta_cos theta_sin : T) (r u v : vec T) : vec T :=
  let '(r0, r1, r2) := r in let '(u0, u1, u2) := u in let '(v0, v1, v2) := v in
  ((u0 * phi_cos + v0 * phi_sin) * theta_sin + r0 * theta_cos,
   (u1 * phi_cos + v1 * phi_sin) * theta_sin + r1 * theta_cos,
   (u2 * phi_cos + v2 * phi_sin) * theta_sin + r2 * theta_cos).

(* /repo/src/physics/single_chain/frc/thermodynamics/isometric/monte_carlo/mod.rs:30-40, the next link direction from the previous *)
Definition random_link (theta : T) (r : vec T) (g : G) : vec T * G :=
  let theta_cos := scos theta in
  let theta_sin := ssin theta in
  let '(a, g) := gen g in
  let phi := TWO_PI * a in
  let phi_cos := scos phi in
  let phi_sin := ssin phi in
  let '(t0, g) := gen g in
  let '(t1, g) := gen g in
  let '(t2, g) := gen g in
  let u := cross r (t0, t1, t2) in
  let u := div3 u (norm3 u) in
  let v := cross r u in
  (rotate phi_cos phi_sin theta_cos theta_sin r u v, g).

(* /repo/src/physics/single_chain/frc/thermodynamics/isometric/monte_carlo/mod.rs:29-47 *)
Fixpoint walk (theta : T) (number_of_links : nat) (r position : vec T) (g : G) : list (vec T) * G :=
  match number_of_links with
  | O => ([], g)
  | S rest =>
      let '(r, g) := random_link theta r g in
      let position := add3 position r in
      let '(configuration, g) := walk theta rest r position g in
      (position :: configuration, g)
  end.

(* /repo/src/physics/single_chain/frc/thermodynamics/isometric/monte_carlo/mod.rs:15-49 *)
Definition random_configuration (number_of_links : nat) (theta : T) (g : G) : list (vec T) * G :=
  walk theta number_of_links (sdec 1 0, sdec 0 0, sdec 0 0) zero3 g.

(* /repo/src/physics/single_chain/frc/thermodynamics/isometric/monte_carlo/mod.rs:51-54 *)
Definition random_nondimensional_end_to_end_length (number_of_links : nat) (theta : T) (g : G) : option (T * G) :=
  let '(configuration, g) := random_configuration number_of_links theta g in
  let! l := end_to_end_length number_of_links configuration in Some (l, g).

(* /repo/src/physics/single_chain/frc/thermodynamics/isometric/monte_carlo/mod.rs:60 *)
Definition gamma_max (theta : T) : T :=
  ssqrt (sdec 2 0 - sdec 2 0 * scos (spi - theta)) / sdec 2 0.

(* /repo/src/physics/single_chain/frc/thermodynamics/isometric/monte_carlo/mod.rs:56-92 *)
Definition nondimensional_equilibrium_radial_distribution (number_of_bins number_of_links : nat)
    (theta : T) (number_of_samples : nat) (g : G) : option (list T * list T) :=
  scaled_bins.histogram (gamma_max theta) (random_nondimensional_end_to_end_length number_of_links theta)
    number_of_bins number_of_links number_of_samples g.
End Model.
End frc_monte_carlo.

(** /repo/src/physics/single_chain/efrc/thermodynamics/isometric/monte_carlo/mod.rs *)
Module efrc_monte_carlo.
Section Model.
Context {T : Type} {Sc : Scalar T} {G : Type} (gen : G -> T * G).
Context (sample : T -> T -> G -> T * G).

(* /repo/src/physics/single_chain/efrc/thermodynamics/isometric/monte_carlo/mod.rs:41-43 *)
Definition rotate (lambda phi_cos phi_sin theta_cos theta_sin : T) (r_n u v : vec T) : vec T :=
  let '(r0, r1, r2) := r_n in let '(u0, u1, u2) := u in let '(v0, v1, v2) := v in
  (lambda * ((u0 * phi_cos + v0 * phi_sin) * theta_sin + r0 * theta_cos),
   lambda * ((u1 * phi_cos + v1 * phi_sin) * theta_sin + r1 * theta_cos),
   lambda * ((u2 * phi_cos + v2 * phi_sin) * theta_sin + r2 * theta_cos)).

(* /repo/src/physics/single_chain/efrc/thermodynamics/isometric/monte_carlo/mod.rs:29-43 *)
Definition random_link (theta : T) (dist : G -> T * G) (r : vec T) (g : G) : vec T * G :=
  let theta_cos := scos theta in
  let theta_sin := ssin theta in
  let '(lambda, g) := dist g in
  let r_n := div3 r (norm3 r) in
  let '(a, g) := gen g in
  let phi := TWO_PI * a in
  let phi_cos := scos phi in
  let phi_sin := ssin phi in
  let '(t0, g) := gen g in
  let '(t1, g) := gen g in
  let '(t2, g) := gen g in
  let u := frc_monte_carlo.cross r_n (t0, t1, t2) in
  let u := div3 u (norm3 u) in
  let v := frc_monte_carlo.cross r_n u in
  (rotate lambda phi_cos phi_sin theta_cos theta_sin r_n u v, g).

(* /repo/src/physics/single_chain/efrc/thermodynamics/isometric/monte_carlo/mod.rs:28-50 *)
Fixpoint walk (theta : T) (dist : G -> T * G) (number_of_links : nat) (r position : vec T) (g : G)
    : list (vec T) * G :=
  match number_of_links with
  | O => ([], g)
  | S rest =>
      let '(r, g) := random_link theta dist r g in
      let position := add3 position r in
      let '(configuration, g) := walk theta dist rest r position g in
      (position :: configuration, g)
  end.

(* /repo/src/physics/single_chain/efrc/thermodynamics/isometric/monte_carlo/mod.rs:11-52 *)
Definition random_configuration (number_of_links : nat) (theta : T) (dist : G -> T * G) (g : G) : list (vec T) * G :=
  walk theta dist number_of_links (sdec 1 0, sdec 0 0, sdec 0 0) zero3 g.

(* /repo/src/physics/single_chain/efrc/thermodynamics/isometric/monte_carlo/mod.rs:54-57 *)
Definition random_nondimensional_end_to_end_length (number_of_links : nat) (theta : T) (dist : G -> T * G) (g : G)
    : option (T * G) :=
  let '(configuration, g) := random_configuration number_of_links theta dist g in
  let! l := end_to_end_length number_of_links configuration in Some (l, g).

(* /repo/src/physics/single_chain/efrc/thermodynamics/isometric/monte_carlo/mod.rs:59-95; see efjc for the Normal::new panic *)
Definition nondimensional_equilibrium_radial_distribution (number_of_bins number_of_links : nat)
    (gamma_max kappa theta : T) (number_of_samples : nat) (g : G) : option (list T * list T) :=
  if sdec 0 0 <? kappa then
    let dist := sample (sdec 1 0) (sdec 1 0 / ssqrt kappa) in
    scaled_bins.histogram gamma_max (random_nondimensional_end_to_end_length number_of_links theta dist)
      number_of_bins number_of_links number_of_samples g
  else None.
End Model.
End efrc_monte_carlo.
