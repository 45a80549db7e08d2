(** Worm-like chain model.
    Generated by tools/translate.py from the files cited at each definition. *)
From Coq Require Import ZArith List Bool.
From Verif Require Import Scalar MMath MConst.
Import ListNotations.
Local Open Scope scalar_scope.

(** /repo/src/physics/single_chain/wlc/thermodynamics/isometric/mod.rs *)
Module wlc_isometric.
Section Model.
Context {T : Type} {Sc : Scalar T}.

(* /repo/src/physics/single_chain/wlc/thermodynamics/isometric/mod.rs:61-85 *)
Definition nondimensional_force (number_of_links : Z) (nondimensional_persistance_length : T)
    (nondimensional_end_to_end_length_per_link : T) : T :=
  let g2 := spowi nondimensional_end_to_end_length_per_link 2 in
  let a := sdec 14054 3 in
  let b := sdec 473 3 in
  let c : list (list T) := [[- sdec 75 2; sdec 359375 6; - sdec 109375 6]; [- sdec 5 1; sdec 10625
      4; - sdec 5625 4]] in
  let c0 := sdec 1 0 - spowf (sdec 1 0 + spowi (sdec 38 2 / spowf nondimensional_persistance_length
      (sdec 95 2)) (- 5)%Z) (- sdec 2 1) in
  let d := if nondimensional_persistance_length <? sdec 125 3 then sdec 1 0 else sdec 1 0 - sdec 1 0
      / (sdec 177 3 / (nondimensional_persistance_length - sdec 111 3) + sdec 64 1 * spowf
      (nondimensional_persistance_length - sdec 111 3) (sdec 783 3)) in
  let f := (sdec 1 0 - c0 * g2) / (sdec 1 0 - g2) in
  let h := nondimensional_end_to_end_length_per_link / (sdec 1 0 - spowi b 2 * g2) in
  let arg := - d * nondimensional_persistance_length * a * (sdec 1 0 + b) * h in
  let sum := ssum (map (fun i => ssum (map (fun j => nth (Z.to_nat (j - 1)%Z) (nth (Z.to_nat i) c
      []) (sdec 0 0) * (spowi nondimensional_persistance_length (i - 1)%Z * spowi g2 j)) (zrange 1
      4))) (zrange 0 2)) in
  let d_sum_dg := ssum (map (fun i => ssum (map (fun j => sofZ j * nth (Z.to_nat (j - 1)%Z) (nth
      (Z.to_nat i) c []) (sdec 0 0) * (spowi nondimensional_persistance_length (i - 1)%Z * spowi g2
      j)) (zrange 1 4))) (zrange 0 2)) * sdec 2 0 / nondimensional_end_to_end_length_per_link in
  - ((sdec 5 0 * nondimensional_end_to_end_length_per_link * (sdec 1 0 - c0 / f) + d_sum_dg + sdec 2
      0 * nondimensional_end_to_end_length_per_link * sum / (sdec 1 0 - g2)) / (sdec 1 0 - g2) +
      sdec 2 0 * b * arg * (sdec 1 0 + nondimensional_end_to_end_length_per_link * spowi b 2 * h) +
      arg * math.bessel_i 1 arg / math.bessel_i 0 arg * (sdec 1 0 /
      nondimensional_end_to_end_length_per_link + sdec 2 0 * spowi b 2 * h)) / sofZ number_of_links.

(* /repo/src/physics/single_chain/wlc/thermodynamics/isometric/mod.rs:54-58 *)
Definition force (number_of_links : Z) (link_length : T) (persistance_length : T) (end_to_end_length
    : T) (temperature : T) : T :=
  let contour_length := sofZ number_of_links * link_length in
  nondimensional_force number_of_links (persistance_length / contour_length) (end_to_end_length /
      contour_length) * BOLTZMANN_CONSTANT * temperature / link_length.

(* /repo/src/physics/single_chain/wlc/thermodynamics/isometric/mod.rs:116-146 *)
Definition nondimensional_helmholtz_free_energy (number_of_links : Z) (link_length : T) (hinge_mass
    : T) (nondimensional_persistance_length : T) (nondimensional_end_to_end_length_per_link : T)
    (temperature : T) : T :=
  let g2 := spowi nondimensional_end_to_end_length_per_link 2 in
  let a := sdec 14054 3 in
  let b := sdec 473 3 in
  let c : list (list T) := [[- sdec 75 2; sdec 359375 6; - sdec 109375 6]; [- sdec 5 1; sdec 10625
      4; - sdec 5625 4]] in
  let c0 := sdec 1 0 - spowf (sdec 1 0 + spowi (sdec 38 2 / spowf nondimensional_persistance_length
      (sdec 95 2)) (- 5)%Z) (- sdec 2 1) in
  let d := if nondimensional_persistance_length <? sdec 125 3 then sdec 1 0 else sdec 1 0 - sdec 1 0
      / (sdec 177 3 / (nondimensional_persistance_length - sdec 111 3) + sdec 64 1 * spowf
      (nondimensional_persistance_length - sdec 111 3) (sdec 783 3)) in
  let e := if nondimensional_persistance_length <? sdec 125 3 then spowf (sdec 75 2 / spi /
      nondimensional_persistance_length) (sdec 15 1) * (sdec 1 0 - sdec 125 2 *
      nondimensional_persistance_length) else sdec 11204 2 * spowi nondimensional_persistance_length
      2 * sexp (sdec 246 3 / nondimensional_persistance_length - a *
      nondimensional_persistance_length) in
  let f := (sdec 1 0 - c0 * g2) / (sdec 1 0 - g2) in
  let h := nondimensional_end_to_end_length_per_link / (sdec 1 0 - spowi b 2 * g2) in
  let arg := - d * nondimensional_persistance_length * a * (sdec 1 0 + b) * h in
  let sum := ssum (map (fun i => ssum (map (fun j => nth (Z.to_nat (j - 1)%Z) (nth (Z.to_nat i) c
      []) (sdec 0 0) * (spowi nondimensional_persistance_length (i - 1)%Z * spowi g2 j)) (zrange 1
      4))) (zrange 0 2)) in
  - sln e - sdec 25 1 * sln f - sum / (sdec 1 0 - g2) - arg * b *
      nondimensional_end_to_end_length_per_link - sln (math.bessel_i 0 arg) - (sofZ number_of_links
      - sdec 1 0) * sln (sdec 4 0 * ssin (sacos (sexp (- sdec 1 0 /
      nondimensional_persistance_length))) * spowi spi 2 * hinge_mass * spowi link_length 2 *
      BOLTZMANN_CONSTANT * temperature / spowi PLANCK_CONSTANT 2).

(* /repo/src/physics/single_chain/wlc/thermodynamics/isometric/mod.rs:88-92 *)
Definition helmholtz_free_energy (number_of_links : Z) (link_length : T) (hinge_mass : T)
    (persistance_length : T) (end_to_end_length : T) (temperature : T) : T :=
  let contour_length := sofZ number_of_links * link_length in
  nondimensional_helmholtz_free_energy number_of_links link_length hinge_mass (persistance_length /
      contour_length) (end_to_end_length / contour_length) temperature * BOLTZMANN_CONSTANT *
      temperature.

(* /repo/src/physics/single_chain/wlc/thermodynamics/isometric/mod.rs:149-152 *)
Definition nondimensional_helmholtz_free_energy_per_link (number_of_links : Z) (link_length : T)
    (hinge_mass : T) (nondimensional_persistance_length : T)
    (nondimensional_end_to_end_length_per_link : T) (temperature : T) : T :=
  nondimensional_helmholtz_free_energy number_of_links link_length hinge_mass
      nondimensional_persistance_length nondimensional_end_to_end_length_per_link temperature / sofZ
      number_of_links.

(* /repo/src/physics/single_chain/wlc/thermodynamics/isometric/mod.rs:95-99 *)
Definition helmholtz_free_energy_per_link (number_of_links : Z) (link_length : T) (hinge_mass : T)
    (persistance_length : T) (end_to_end_length : T) (temperature : T) : T :=
  let contour_length := sofZ number_of_links * link_length in
  nondimensional_helmholtz_free_energy_per_link number_of_links link_length hinge_mass
      (persistance_length / contour_length) (end_to_end_length / contour_length) temperature *
      BOLTZMANN_CONSTANT * temperature.

(* /repo/src/physics/single_chain/wlc/thermodynamics/isometric/mod.rs:155-158 *)
Definition nondimensional_relative_helmholtz_free_energy (nondimensional_persistance_length : T)
    (nondimensional_end_to_end_length_per_link : T) : T :=
  nondimensional_helmholtz_free_energy 8 (sdec 1 0) (sdec 1 0) nondimensional_persistance_length
      nondimensional_end_to_end_length_per_link (sdec 300 0) - nondimensional_helmholtz_free_energy
      8 (sdec 1 0) (sdec 1 0) nondimensional_persistance_length ZERO (sdec 300 0).

(* /repo/src/physics/single_chain/wlc/thermodynamics/isometric/mod.rs:102-106 *)
Definition relative_helmholtz_free_energy (number_of_links : Z) (link_length : T)
    (persistance_length : T) (end_to_end_length : T) (temperature : T) : T :=
  let contour_length := sofZ number_of_links * link_length in
  nondimensional_relative_helmholtz_free_energy (persistance_length / contour_length)
      (end_to_end_length / contour_length) * BOLTZMANN_CONSTANT * temperature.

(* /repo/src/physics/single_chain/wlc/thermodynamics/isometric/mod.rs:161-164 *)
Definition nondimensional_relative_helmholtz_free_energy_per_link (number_of_links : Z)
    (nondimensional_persistance_length : T) (nondimensional_end_to_end_length_per_link : T) : T :=
  nondimensional_relative_helmholtz_free_energy nondimensional_persistance_length
      nondimensional_end_to_end_length_per_link / sofZ number_of_links.

(* /repo/src/physics/single_chain/wlc/thermodynamics/isometric/mod.rs:109-113 *)
Definition relative_helmholtz_free_energy_per_link (number_of_links : Z) (link_length : T)
    (persistance_length : T) (end_to_end_length : T) (temperature : T) : T :=
  let contour_length := sofZ number_of_links * link_length in
  nondimensional_relative_helmholtz_free_energy_per_link number_of_links (persistance_length /
      contour_length) (end_to_end_length / contour_length) * BOLTZMANN_CONSTANT * temperature.

(* /repo/src/physics/single_chain/wlc/thermodynamics/isometric/mod.rs:174-201 *)
Definition nondimensional_equilibrium_distribution (nondimensional_persistance_length : T)
    (normalization_nondimensional_equilibrium_distribution : T)
    (nondimensional_end_to_end_length_per_link : T) : T :=
  let g2 := spowi nondimensional_end_to_end_length_per_link 2 in
  let a := sdec 14054 3 in
  let b := sdec 473 3 in
  let c : list (list T) := [[- sdec 75 2; sdec 359375 6; - sdec 109375 6]; [- sdec 5 1; sdec 10625
      4; - sdec 5625 4]] in
  let c0 := sdec 1 0 - spowf (sdec 1 0 + spowi (sdec 38 2 / spowf nondimensional_persistance_length
      (sdec 95 2)) (- 5)%Z) (- sdec 2 1) in
  let d := if nondimensional_persistance_length <? sdec 125 3 then sdec 1 0 else sdec 1 0 - sdec 1 0
      / (sdec 177 3 / (nondimensional_persistance_length - sdec 111 3) + sdec 64 1 * spowf
      (nondimensional_persistance_length - sdec 111 3) (sdec 783 3)) in
  let e := if nondimensional_persistance_length <? sdec 125 3 then spowf (sdec 75 2 / spi /
      nondimensional_persistance_length) (sdec 15 1) * (sdec 1 0 - sdec 125 2 *
      nondimensional_persistance_length) else sdec 11204 2 * spowi nondimensional_persistance_length
      2 * sexp (sdec 246 3 / nondimensional_persistance_length - a *
      nondimensional_persistance_length) in
  let f := (sdec 1 0 - c0 * g2) / (sdec 1 0 - g2) in
  let h := nondimensional_end_to_end_length_per_link / (sdec 1 0 - spowi b 2 * g2) in
  let arg := - d * nondimensional_persistance_length * a * (sdec 1 0 + b) * h in
  let sum := ssum (map (fun i => ssum (map (fun j => nth (Z.to_nat (j - 1)%Z) (nth (Z.to_nat i) c
      []) (sdec 0 0) * (spowi nondimensional_persistance_length (i - 1)%Z * spowi g2 j)) (zrange 1
      4))) (zrange 0 2)) in
  e * spowf f (sdec 25 1) * sexp (sum / (sdec 1 0 - g2) + arg * b *
      nondimensional_end_to_end_length_per_link) * math.bessel_i 0 arg /
      normalization_nondimensional_equilibrium_distribution.

(* /repo/src/physics/single_chain/wlc/thermodynamics/isometric/mod.rs:167-171 *)
Definition equilibrium_distribution (number_of_links : Z) (link_length : T) (persistance_length : T)
    (normalization_nondimensional_equilibrium_distribution : T) (end_to_end_length : T) : T :=
  let contour_length := sofZ number_of_links * link_length in
  nondimensional_equilibrium_distribution (persistance_length / contour_length)
      normalization_nondimensional_equilibrium_distribution (end_to_end_length / contour_length) /
      spowi contour_length 3.

(* /repo/src/physics/single_chain/wlc/thermodynamics/isometric/mod.rs:211-214 *)
Definition nondimensional_equilibrium_radial_distribution (nondimensional_persistance_length : T)
    (normalization_nondimensional_equilibrium_distribution : T)
    (nondimensional_end_to_end_length_per_link : T) : T :=
  sdec 4 0 * spi * spowi nondimensional_end_to_end_length_per_link 2 *
      nondimensional_equilibrium_distribution nondimensional_persistance_length
      normalization_nondimensional_equilibrium_distribution
      nondimensional_end_to_end_length_per_link.

(* /repo/src/physics/single_chain/wlc/thermodynamics/isometric/mod.rs:204-208 *)
Definition equilibrium_radial_distribution (number_of_links : Z) (link_length : T)
    (persistance_length : T) (normalization_nondimensional_equilibrium_distribution : T)
    (end_to_end_length : T) : T :=
  let contour_length := sofZ number_of_links * link_length in
  nondimensional_equilibrium_radial_distribution (persistance_length / contour_length)
      normalization_nondimensional_equilibrium_distribution (end_to_end_length / contour_length) /
      contour_length.

End Model.
End wlc_isometric.

(** /repo/src/physics/single_chain/wlc/thermodynamics/isometric/legendre/mod.rs *)
Module wlc_isometric_legendre.
Section Model.
Context {T : Type} {Sc : Scalar T}.

(* /repo/src/physics/single_chain/wlc/thermodynamics/isometric/legendre/mod.rs:64-67 *)
Definition nondimensional_gibbs_free_energy (number_of_links : Z) (link_length : T) (hinge_mass : T)
    (nondimensional_persistance_length : T) (nondimensional_end_to_end_length_per_link : T)
    (temperature : T) : T :=
  wlc_isometric.nondimensional_helmholtz_free_energy number_of_links link_length hinge_mass
      nondimensional_persistance_length nondimensional_end_to_end_length_per_link temperature -
      wlc_isometric.nondimensional_force number_of_links nondimensional_persistance_length
      nondimensional_end_to_end_length_per_link * nondimensional_end_to_end_length_per_link * sofZ
      number_of_links.

(* /repo/src/physics/single_chain/wlc/thermodynamics/isometric/legendre/mod.rs:36-40 *)
Definition gibbs_free_energy (number_of_links : Z) (link_length : T) (hinge_mass : T)
    (persistance_length : T) (end_to_end_length : T) (temperature : T) : T :=
  let contour_length := sofZ number_of_links * link_length in
  nondimensional_gibbs_free_energy number_of_links link_length hinge_mass (persistance_length /
      contour_length) (end_to_end_length / contour_length) temperature * BOLTZMANN_CONSTANT *
      temperature.

(* /repo/src/physics/single_chain/wlc/thermodynamics/isometric/legendre/mod.rs:70-73 *)
Definition nondimensional_gibbs_free_energy_per_link (number_of_links : Z) (link_length : T)
    (hinge_mass : T) (nondimensional_persistance_length : T)
    (nondimensional_end_to_end_length_per_link : T) (temperature : T) : T :=
  nondimensional_gibbs_free_energy number_of_links link_length hinge_mass
      nondimensional_persistance_length nondimensional_end_to_end_length_per_link temperature / sofZ
      number_of_links.

(* /repo/src/physics/single_chain/wlc/thermodynamics/isometric/legendre/mod.rs:43-47 *)
Definition gibbs_free_energy_per_link (number_of_links : Z) (link_length : T) (hinge_mass : T)
    (persistance_length : T) (end_to_end_length : T) (temperature : T) : T :=
  let contour_length := sofZ number_of_links * link_length in
  nondimensional_gibbs_free_energy_per_link number_of_links link_length hinge_mass
      (persistance_length / contour_length) (end_to_end_length / contour_length) temperature *
      BOLTZMANN_CONSTANT * temperature.

(* /repo/src/physics/single_chain/wlc/thermodynamics/isometric/legendre/mod.rs:76-79 *)
Definition nondimensional_relative_gibbs_free_energy (number_of_links : Z)
    (nondimensional_persistance_length : T) (nondimensional_end_to_end_length_per_link : T) : T :=
  nondimensional_gibbs_free_energy number_of_links (sdec 1 0) (sdec 1 0)
      nondimensional_persistance_length nondimensional_end_to_end_length_per_link (sdec 300 0) -
      nondimensional_gibbs_free_energy number_of_links (sdec 1 0) (sdec 1 0)
      nondimensional_persistance_length ZERO (sdec 300 0).

(* /repo/src/physics/single_chain/wlc/thermodynamics/isometric/legendre/mod.rs:50-54 *)
Definition relative_gibbs_free_energy (number_of_links : Z) (link_length : T) (persistance_length :
    T) (end_to_end_length : T) (temperature : T) : T :=
  let contour_length := sofZ number_of_links * link_length in
  nondimensional_relative_gibbs_free_energy number_of_links (persistance_length / contour_length)
      (end_to_end_length / contour_length) * BOLTZMANN_CONSTANT * temperature.

(* /repo/src/physics/single_chain/wlc/thermodynamics/isometric/legendre/mod.rs:82-85 *)
Definition nondimensional_relative_gibbs_free_energy_per_link (number_of_links : Z)
    (nondimensional_persistance_length : T) (nondimensional_end_to_end_length_per_link : T) : T :=
  nondimensional_gibbs_free_energy_per_link number_of_links (sdec 1 0) (sdec 1 0)
      nondimensional_persistance_length nondimensional_end_to_end_length_per_link (sdec 300 0) -
      nondimensional_gibbs_free_energy_per_link number_of_links (sdec 1 0) (sdec 1 0)
      nondimensional_persistance_length ZERO (sdec 300 0).

(* /repo/src/physics/single_chain/wlc/thermodynamics/isometric/legendre/mod.rs:57-61 *)
Definition relative_gibbs_free_energy_per_link (number_of_links : Z) (link_length : T)
    (persistance_length : T) (end_to_end_length : T) (temperature : T) : T :=
  let contour_length := sofZ number_of_links * link_length in
  nondimensional_relative_gibbs_free_energy_per_link number_of_links (persistance_length /
      contour_length) (end_to_end_length / contour_length) * BOLTZMANN_CONSTANT * temperature.

End Model.
End wlc_isometric_legendre.

(** /repo/src/physics/single_chain/wlc/thermodynamics/isotensional/mod.rs *)
Module wlc_isotensional.
Section Model.
Context {T : Type} {Sc : Scalar T}.

(* /repo/src/physics/single_chain/wlc/thermodynamics/isotensional/mod.rs:67-92 *)
Definition nondimensional_end_to_end_length (number_of_links : Z) (nondimensional_persistance_length
    : T) (nondimensional_force : T) : option T :=
  let f := fun nondimensional_end_to_end_length_per_link => wlc_isometric.nondimensional_force
      number_of_links nondimensional_persistance_length nondimensional_end_to_end_length_per_link in
  let fp := fun nondimensional_end_to_end_length_per_link => (wlc_isometric.nondimensional_force
      number_of_links nondimensional_persistance_length (nondimensional_end_to_end_length_per_link +
      sdec 1 8) - wlc_isometric.nondimensional_force number_of_links
      nondimensional_persistance_length (nondimensional_end_to_end_length_per_link - sdec 1 8)) /
      sdec 2 8 in
  let gamma_hat := math.inverse_newton_raphson_powered nondimensional_force f fp (sdec 9999 4) (sdec
      1 5) 100 2 in
  if negb ((sdec 0 0 <=? gamma_hat)%S && (gamma_hat <=? sdec 1 0)%S)%bool then None else
  let scale := sofZ number_of_links * nondimensional_force * gamma_hat -
      wlc_isometric.nondimensional_relative_helmholtz_free_energy nondimensional_persistance_length
      gamma_hat in
  let integrand_denominator := fun nondimensional_end_to_end_length_per_link => let beta_delta_psi
      := wlc_isometric.nondimensional_relative_helmholtz_free_energy
      nondimensional_persistance_length nondimensional_end_to_end_length_per_link in
  let beta_f_xi := sofZ number_of_links * nondimensional_force *
      nondimensional_end_to_end_length_per_link in
  (sexp (beta_f_xi - scale - beta_delta_psi) - sexp (- beta_f_xi - scale - beta_delta_psi)) *
      nondimensional_end_to_end_length_per_link / nondimensional_force in
  let integrand_numerator := fun nondimensional_end_to_end_length_per_link => let beta_delta_psi :=
      wlc_isometric.nondimensional_relative_helmholtz_free_energy nondimensional_persistance_length
      nondimensional_end_to_end_length_per_link in
  let beta_f_xi := sofZ number_of_links * nondimensional_force *
      nondimensional_end_to_end_length_per_link in
  let exp_1 := sexp (beta_f_xi - scale - beta_delta_psi) in
  let exp_2 := sexp (- beta_f_xi - scale - beta_delta_psi) in
  ((exp_1 + exp_2) * sofZ number_of_links * nondimensional_end_to_end_length_per_link - (exp_1 -
      exp_2) / nondimensional_force) * nondimensional_end_to_end_length_per_link /
      nondimensional_force in
  Some (math.integrate_1d integrand_numerator ZERO ONE POINTS / math.integrate_1d
      integrand_denominator ZERO ONE POINTS).

(* /repo/src/physics/single_chain/wlc/thermodynamics/isotensional/mod.rs:55-58 *)
Definition end_to_end_length (number_of_links : Z) (link_length : T) (persistance_length : T) (force
    : T) (temperature : T) : option T :=
  let! r1 := nondimensional_end_to_end_length number_of_links (persistance_length / (sofZ
      number_of_links * link_length)) (force * link_length / BOLTZMANN_CONSTANT / temperature) in
  Some (link_length * r1).

(* /repo/src/physics/single_chain/wlc/thermodynamics/isotensional/mod.rs:95-98 *)
Definition nondimensional_end_to_end_length_per_link (number_of_links : Z)
    (nondimensional_persistance_length : T) (nondimensional_force : T) : option T :=
  let! r1 := nondimensional_end_to_end_length number_of_links nondimensional_persistance_length
      nondimensional_force in
  Some (r1 / sofZ number_of_links).

(* /repo/src/physics/single_chain/wlc/thermodynamics/isotensional/mod.rs:61-64 *)
Definition end_to_end_length_per_link (number_of_links : Z) (link_length : T) (persistance_length :
    T) (force : T) (temperature : T) : option T :=
  let! r1 := nondimensional_end_to_end_length_per_link number_of_links (persistance_length / (sofZ
      number_of_links * link_length)) (force * link_length / BOLTZMANN_CONSTANT / temperature) in
  Some (link_length * r1).

(* /repo/src/physics/single_chain/wlc/thermodynamics/isotensional/mod.rs:125-151 *)
Definition nondimensional_gibbs_free_energy (number_of_links : Z) (link_length : T) (hinge_mass : T)
    (nondimensional_persistance_length : T) (nondimensional_force : T) (temperature : T) : option T
    :=
  let f := fun nondimensional_end_to_end_length_per_link => wlc_isometric.nondimensional_force
      number_of_links nondimensional_persistance_length nondimensional_end_to_end_length_per_link in
  let fp := fun nondimensional_end_to_end_length_per_link => (wlc_isometric.nondimensional_force
      number_of_links nondimensional_persistance_length (nondimensional_end_to_end_length_per_link +
      sdec 1 8) - wlc_isometric.nondimensional_force number_of_links
      nondimensional_persistance_length (nondimensional_end_to_end_length_per_link - sdec 1 8)) /
      sdec 2 8 in
  let fpp := fun x => (fp (x + sdec 1 8) - fp (x - sdec 1 8)) / sdec 2 8 in
  let gamma_hat := math.inverse_newton_raphson_powered nondimensional_force f fp (sdec 9999 4) (sdec
      1 5) 100 2 in
  if negb ((sdec 0 0 <=? gamma_hat)%S && (gamma_hat <=? sdec 1 0)%S)%bool then None else
  let scale := sofZ number_of_links * nondimensional_force * gamma_hat -
      wlc_isometric.nondimensional_helmholtz_free_energy number_of_links link_length hinge_mass
      nondimensional_persistance_length gamma_hat temperature in
  let log_integral := if sdec 100 0 <? nondimensional_force then - sln (ssqrt (sdec 8 0 * spowi spi
      2 / fpp gamma_hat)) - sln (sdec 5 1 * sofZ number_of_links * gamma_hat / nondimensional_force)
      else let integrand := fun nondimensional_end_to_end_length_per_link => let beta_psi :=
      wlc_isometric.nondimensional_helmholtz_free_energy number_of_links link_length hinge_mass
      nondimensional_persistance_length nondimensional_end_to_end_length_per_link temperature in
  let beta_f_xi := sofZ number_of_links * nondimensional_force *
      nondimensional_end_to_end_length_per_link in
  sdec 5 1 * (sexp (beta_f_xi - scale - beta_psi) - sexp (- beta_f_xi - scale - beta_psi)) * sofZ
      number_of_links * nondimensional_end_to_end_length_per_link / nondimensional_force in
  - sln (sdec 4 0 * spi * math.integrate_1d integrand ZERO ONE POINTS) in
  Some (log_integral - scale - sln (sdec 4 0 * ssin (sacos (sexp (- sdec 1 0 /
      nondimensional_persistance_length))) * spowi spi 2 * hinge_mass * spowi link_length 2 *
      BOLTZMANN_CONSTANT * temperature / spowi PLANCK_CONSTANT 2)).

(* /repo/src/physics/single_chain/wlc/thermodynamics/isotensional/mod.rs:101-104 *)
Definition gibbs_free_energy (number_of_links : Z) (link_length : T) (hinge_mass : T)
    (persistance_length : T) (force : T) (temperature : T) : option T :=
  let! r1 := nondimensional_gibbs_free_energy number_of_links link_length hinge_mass
      (persistance_length / (sofZ number_of_links * link_length)) (force * link_length /
      BOLTZMANN_CONSTANT / temperature) temperature in
  Some (r1 * BOLTZMANN_CONSTANT * temperature).

(* /repo/src/physics/single_chain/wlc/thermodynamics/isotensional/mod.rs:154-157 *)
Definition nondimensional_gibbs_free_energy_per_link (number_of_links : Z) (link_length : T)
    (hinge_mass : T) (nondimensional_persistance_length : T) (nondimensional_force : T) (temperature
    : T) : option T :=
  let! r1 := nondimensional_gibbs_free_energy number_of_links link_length hinge_mass
      nondimensional_persistance_length nondimensional_force temperature in
  Some (r1 / sofZ number_of_links).

(* /repo/src/physics/single_chain/wlc/thermodynamics/isotensional/mod.rs:107-110 *)
Definition gibbs_free_energy_per_link (number_of_links : Z) (link_length : T) (hinge_mass : T)
    (persistance_length : T) (force : T) (temperature : T) : option T :=
  let! r1 := nondimensional_gibbs_free_energy_per_link number_of_links link_length hinge_mass
      (persistance_length / (sofZ number_of_links * link_length)) (force * link_length /
      BOLTZMANN_CONSTANT / temperature) temperature in
  Some (r1 * BOLTZMANN_CONSTANT * temperature).

(* /repo/src/physics/single_chain/wlc/thermodynamics/isotensional/mod.rs:160-163 *)
Definition nondimensional_relative_gibbs_free_energy (number_of_links : Z)
    (nondimensional_persistance_length : T) (nondimensional_force : T) : option T :=
  let! r1 := nondimensional_gibbs_free_energy number_of_links (sdec 1 0) (sdec 1 0)
      nondimensional_persistance_length nondimensional_force (sdec 300 0) in
  let! r2 := nondimensional_gibbs_free_energy number_of_links (sdec 1 0) (sdec 1 0)
      nondimensional_persistance_length ZERO (sdec 300 0) in
  Some (r1 - r2).

(* /repo/src/physics/single_chain/wlc/thermodynamics/isotensional/mod.rs:113-116 *)
Definition relative_gibbs_free_energy (number_of_links : Z) (link_length : T) (persistance_length :
    T) (force : T) (temperature : T) : option T :=
  let! r1 := nondimensional_relative_gibbs_free_energy number_of_links (persistance_length / (sofZ
      number_of_links * link_length)) (force * link_length / BOLTZMANN_CONSTANT / temperature) in
  Some (r1 * BOLTZMANN_CONSTANT * temperature).

(* /repo/src/physics/single_chain/wlc/thermodynamics/isotensional/mod.rs:166-169 *)
Definition nondimensional_relative_gibbs_free_energy_per_link (number_of_links : Z)
    (nondimensional_persistance_length : T) (nondimensional_force : T) : option T :=
  let! r1 := nondimensional_gibbs_free_energy_per_link number_of_links (sdec 1 0) (sdec 1 0)
      nondimensional_persistance_length nondimensional_force (sdec 300 0) in
  let! r2 := nondimensional_gibbs_free_energy_per_link number_of_links (sdec 1 0) (sdec 1 0)
      nondimensional_persistance_length ZERO (sdec 300 0) in
  Some (r1 - r2).

(* /repo/src/physics/single_chain/wlc/thermodynamics/isotensional/mod.rs:119-122 *)
Definition relative_gibbs_free_energy_per_link (number_of_links : Z) (link_length : T)
    (persistance_length : T) (force : T) (temperature : T) : option T :=
  let! r1 := nondimensional_relative_gibbs_free_energy_per_link number_of_links (persistance_length
      / (sofZ number_of_links * link_length)) (force * link_length / BOLTZMANN_CONSTANT /
      temperature) in
  Some (r1 * BOLTZMANN_CONSTANT * temperature).

End Model.
End wlc_isotensional.

(** /repo/src/physics/single_chain/wlc/thermodynamics/isotensional/legendre/mod.rs *)
Module wlc_isotensional_legendre.
Section Model.
Context {T : Type} {Sc : Scalar T}.

(* /repo/src/physics/single_chain/wlc/thermodynamics/isotensional/legendre/mod.rs:63-66 *)
Definition nondimensional_helmholtz_free_energy (number_of_links : Z) (link_length : T) (hinge_mass
    : T) (nondimensional_persistance_length : T) (nondimensional_force : T) (temperature : T) :
    option T :=
  let! r1 := wlc_isotensional.nondimensional_gibbs_free_energy number_of_links link_length
      hinge_mass nondimensional_persistance_length nondimensional_force temperature in
  let! r2 := wlc_isotensional.nondimensional_end_to_end_length number_of_links
      nondimensional_persistance_length nondimensional_force in
  Some (r1 + nondimensional_force * r2).

(* /repo/src/physics/single_chain/wlc/thermodynamics/isotensional/legendre/mod.rs:39-42 *)
Definition helmholtz_free_energy (number_of_links : Z) (link_length : T) (hinge_mass : T)
    (persistance_length : T) (force : T) (temperature : T) : option T :=
  let! r1 := nondimensional_helmholtz_free_energy number_of_links link_length hinge_mass
      (persistance_length / (sofZ number_of_links * link_length)) (force * link_length /
      BOLTZMANN_CONSTANT / temperature) temperature in
  Some (r1 * BOLTZMANN_CONSTANT * temperature).

(* /repo/src/physics/single_chain/wlc/thermodynamics/isotensional/legendre/mod.rs:69-72 *)
Definition nondimensional_helmholtz_free_energy_per_link (number_of_links : Z) (link_length : T)
    (hinge_mass : T) (nondimensional_persistance_length : T) (nondimensional_force : T) (temperature
    : T) : option T :=
  let! r1 := nondimensional_helmholtz_free_energy number_of_links link_length hinge_mass
      nondimensional_persistance_length nondimensional_force temperature in
  Some (r1 / sofZ number_of_links).

(* /repo/src/physics/single_chain/wlc/thermodynamics/isotensional/legendre/mod.rs:45-48 *)
Definition helmholtz_free_energy_per_link (number_of_links : Z) (link_length : T) (hinge_mass : T)
    (persistance_length : T) (force : T) (temperature : T) : option T :=
  let! r1 := nondimensional_helmholtz_free_energy_per_link number_of_links link_length hinge_mass
      (persistance_length / (sofZ number_of_links * link_length)) (force * link_length /
      BOLTZMANN_CONSTANT / temperature) temperature in
  Some (r1 * BOLTZMANN_CONSTANT * temperature).

(* /repo/src/physics/single_chain/wlc/thermodynamics/isotensional/legendre/mod.rs:75-78 *)
Definition nondimensional_relative_helmholtz_free_energy (number_of_links : Z)
    (nondimensional_persistance_length : T) (nondimensional_force : T) : option T :=
  let! r1 := nondimensional_helmholtz_free_energy number_of_links (sdec 1 0) (sdec 1 0)
      nondimensional_persistance_length nondimensional_force (sdec 300 0) in
  let! r2 := nondimensional_helmholtz_free_energy number_of_links (sdec 1 0) (sdec 1 0)
      nondimensional_persistance_length ZERO (sdec 300 0) in
  Some (r1 - r2).

(* /repo/src/physics/single_chain/wlc/thermodynamics/isotensional/legendre/mod.rs:51-54 *)
Definition relative_helmholtz_free_energy (number_of_links : Z) (link_length : T)
    (persistance_length : T) (force : T) (temperature : T) : option T :=
  let! r1 := nondimensional_relative_helmholtz_free_energy number_of_links (persistance_length /
      (sofZ number_of_links * link_length)) (force * link_length / BOLTZMANN_CONSTANT / temperature)
      in
  Some (r1 * BOLTZMANN_CONSTANT * temperature).

(* /repo/src/physics/single_chain/wlc/thermodynamics/isotensional/legendre/mod.rs:81-84 *)
Definition nondimensional_relative_helmholtz_free_energy_per_link (number_of_links : Z)
    (nondimensional_persistance_length : T) (nondimensional_force : T) : option T :=
  let! r1 := nondimensional_helmholtz_free_energy_per_link number_of_links (sdec 1 0) (sdec 1 0)
      nondimensional_persistance_length nondimensional_force (sdec 300 0) in
  let! r2 := nondimensional_helmholtz_free_energy_per_link number_of_links (sdec 1 0) (sdec 1 0)
      nondimensional_persistance_length ZERO (sdec 300 0) in
  Some (r1 - r2).

(* /repo/src/physics/single_chain/wlc/thermodynamics/isotensional/legendre/mod.rs:57-60 *)
Definition relative_helmholtz_free_energy_per_link (number_of_links : Z) (link_length : T)
    (persistance_length : T) (force : T) (temperature : T) : option T :=
  let! r1 := nondimensional_relative_helmholtz_free_energy_per_link number_of_links
      (persistance_length / (sofZ number_of_links * link_length)) (force * link_length /
      BOLTZMANN_CONSTANT / temperature) in
  Some (r1 * BOLTZMANN_CONSTANT * temperature).

End Model.
End wlc_isotensional_legendre.

(** /repo/src/physics/single_chain/wlc/thermodynamics/isometric/legendre/mod.rs: struct WLC *)
Module O_wlc_isometric_legendre.
(* /repo/src/physics/single_chain/wlc/thermodynamics/isometric/legendre/mod.rs:18-33 *)
Record t {T : Type} := { hinge_mass : T; link_length : T; number_of_links : Z; persistance_length : T; nondimensional_persistance_length : T }.
Arguments t : clear implicits.
Section Model.
Context {T : Type} {Sc : Scalar T}.

(* /repo/src/physics/single_chain/wlc/thermodynamics/isometric/legendre/mod.rs:91-101 *)
Definition init (number_of_links : Z) (link_length : T) (hinge_mass : T) (persistance_length : T) :
    t T :=
  {| hinge_mass := hinge_mass; link_length := link_length; number_of_links := number_of_links;
      persistance_length := persistance_length; nondimensional_persistance_length :=
      persistance_length / sofZ number_of_links / link_length |}.

(* /repo/src/physics/single_chain/wlc/thermodynamics/isometric/legendre/mod.rs:103-106 *)
Definition gibbs_free_energy (self : t T) (end_to_end_length : T) (temperature : T) : T :=
  wlc_isometric_legendre.gibbs_free_energy (number_of_links self) (link_length self) (hinge_mass
      self) (persistance_length self) end_to_end_length temperature.

(* /repo/src/physics/single_chain/wlc/thermodynamics/isometric/legendre/mod.rs:108-111 *)
Definition gibbs_free_energy_per_link (self : t T) (end_to_end_length : T) (temperature : T) : T :=
  wlc_isometric_legendre.gibbs_free_energy_per_link (number_of_links self) (link_length self)
      (hinge_mass self) (persistance_length self) end_to_end_length temperature.

(* /repo/src/physics/single_chain/wlc/thermodynamics/isometric/legendre/mod.rs:113-116 *)
Definition relative_gibbs_free_energy (self : t T) (end_to_end_length : T) (temperature : T) : T :=
  wlc_isometric_legendre.relative_gibbs_free_energy (number_of_links self) (link_length self)
      (persistance_length self) end_to_end_length temperature.

(* /repo/src/physics/single_chain/wlc/thermodynamics/isometric/legendre/mod.rs:118-121 *)
Definition relative_gibbs_free_energy_per_link (self : t T) (end_to_end_length : T) (temperature :
    T) : T :=
  wlc_isometric_legendre.relative_gibbs_free_energy_per_link (number_of_links self) (link_length
      self) (persistance_length self) end_to_end_length temperature.

(* /repo/src/physics/single_chain/wlc/thermodynamics/isometric/legendre/mod.rs:123-126 *)
Definition nondimensional_gibbs_free_energy (self : t T) (nondimensional_end_to_end_length_per_link
    : T) (temperature : T) : T :=
  wlc_isometric_legendre.nondimensional_gibbs_free_energy (number_of_links self) (link_length self)
      (hinge_mass self) (nondimensional_persistance_length self)
      nondimensional_end_to_end_length_per_link temperature.

(* /repo/src/physics/single_chain/wlc/thermodynamics/isometric/legendre/mod.rs:128-131 *)
Definition nondimensional_gibbs_free_energy_per_link (self : t T)
    (nondimensional_end_to_end_length_per_link : T) (temperature : T) : T :=
  wlc_isometric_legendre.nondimensional_gibbs_free_energy_per_link (number_of_links self)
      (link_length self) (hinge_mass self) (nondimensional_persistance_length self)
      nondimensional_end_to_end_length_per_link temperature.

(* /repo/src/physics/single_chain/wlc/thermodynamics/isometric/legendre/mod.rs:133-136 *)
Definition nondimensional_relative_gibbs_free_energy (self : t T)
    (nondimensional_end_to_end_length_per_link : T) : T :=
  wlc_isometric_legendre.nondimensional_relative_gibbs_free_energy (number_of_links self)
      (nondimensional_persistance_length self) nondimensional_end_to_end_length_per_link.

(* /repo/src/physics/single_chain/wlc/thermodynamics/isometric/legendre/mod.rs:138-141 *)
Definition nondimensional_relative_gibbs_free_energy_per_link (self : t T)
    (nondimensional_end_to_end_length_per_link : T) : T :=
  wlc_isometric_legendre.nondimensional_relative_gibbs_free_energy_per_link (number_of_links self)
      (nondimensional_persistance_length self) nondimensional_end_to_end_length_per_link.

End Model.
End O_wlc_isometric_legendre.

(** /repo/src/physics/single_chain/wlc/thermodynamics/isotensional/legendre/mod.rs: struct WLC *)
Module O_wlc_isotensional_legendre.
(* /repo/src/physics/single_chain/wlc/thermodynamics/isotensional/legendre/mod.rs:21-36 *)
Record t {T : Type} := { hinge_mass : T; link_length : T; number_of_links : Z; persistance_length : T; nondimensional_persistance_length : T }.
Arguments t : clear implicits.
Section Model.
Context {T : Type} {Sc : Scalar T}.

(* /repo/src/physics/single_chain/wlc/thermodynamics/isotensional/legendre/mod.rs:90-100 *)
Definition init (number_of_links : Z) (link_length : T) (hinge_mass : T) (persistance_length : T) :
    t T :=
  {| hinge_mass := hinge_mass; link_length := link_length; number_of_links := number_of_links;
      persistance_length := persistance_length; nondimensional_persistance_length :=
      persistance_length / sofZ number_of_links / link_length |}.

(* /repo/src/physics/single_chain/wlc/thermodynamics/isotensional/legendre/mod.rs:102-105 *)
Definition helmholtz_free_energy (self : t T) (force : T) (temperature : T) : option T :=
  wlc_isotensional_legendre.helmholtz_free_energy (number_of_links self) (link_length self)
      (hinge_mass self) (persistance_length self) force temperature.

(* /repo/src/physics/single_chain/wlc/thermodynamics/isotensional/legendre/mod.rs:107-110 *)
Definition helmholtz_free_energy_per_link (self : t T) (force : T) (temperature : T) : option T :=
  wlc_isotensional_legendre.helmholtz_free_energy_per_link (number_of_links self) (link_length self)
      (hinge_mass self) (persistance_length self) force temperature.

(* /repo/src/physics/single_chain/wlc/thermodynamics/isotensional/legendre/mod.rs:112-115 *)
Definition relative_helmholtz_free_energy (self : t T) (force : T) (temperature : T) : option T :=
  wlc_isotensional_legendre.relative_helmholtz_free_energy (number_of_links self) (link_length self)
      (persistance_length self) force temperature.

(* /repo/src/physics/single_chain/wlc/thermodynamics/isotensional/legendre/mod.rs:117-120 *)
Definition relative_helmholtz_free_energy_per_link (self : t T) (force : T) (temperature : T) :
    option T :=
  wlc_isotensional_legendre.relative_helmholtz_free_energy_per_link (number_of_links self)
      (link_length self) (persistance_length self) force temperature.

(* /repo/src/physics/single_chain/wlc/thermodynamics/isotensional/legendre/mod.rs:122-125 *)
Definition nondimensional_helmholtz_free_energy (self : t T) (nondimensional_force : T) (temperature
    : T) : option T :=
  wlc_isotensional_legendre.nondimensional_helmholtz_free_energy (number_of_links self) (link_length
      self) (hinge_mass self) (nondimensional_persistance_length self) nondimensional_force
      temperature.

(* /repo/src/physics/single_chain/wlc/thermodynamics/isotensional/legendre/mod.rs:127-130 *)
Definition nondimensional_helmholtz_free_energy_per_link (self : t T) (nondimensional_force : T)
    (temperature : T) : option T :=
  wlc_isotensional_legendre.nondimensional_helmholtz_free_energy_per_link (number_of_links self)
      (link_length self) (hinge_mass self) (nondimensional_persistance_length self)
      nondimensional_force temperature.

(* /repo/src/physics/single_chain/wlc/thermodynamics/isotensional/legendre/mod.rs:132-135 *)
Definition nondimensional_relative_helmholtz_free_energy (self : t T) (nondimensional_force : T) :
    option T :=
  wlc_isotensional_legendre.nondimensional_relative_helmholtz_free_energy (number_of_links self)
      (nondimensional_persistance_length self) nondimensional_force.

(* /repo/src/physics/single_chain/wlc/thermodynamics/isotensional/legendre/mod.rs:137-140 *)
Definition nondimensional_relative_helmholtz_free_energy_per_link (self : t T) (nondimensional_force
    : T) : option T :=
  wlc_isotensional_legendre.nondimensional_relative_helmholtz_free_energy_per_link (number_of_links
      self) (nondimensional_persistance_length self) nondimensional_force.

End Model.
End O_wlc_isotensional_legendre.

(** /repo/src/physics/single_chain/wlc/thermodynamics/isometric/mod.rs: struct WLC *)
Module O_wlc_isometric.
(* /repo/src/physics/single_chain/wlc/thermodynamics/isometric/mod.rs:31-51 *)
Record t {T : Type} := { hinge_mass : T; link_length : T; number_of_links : Z; persistance_length : T; nondimensional_persistance_length : T; normalization_nondimensional_equilibrium_distribution : T; legendre : O_wlc_isometric_legendre.t T }.
Arguments t : clear implicits.
Section Model.
Context {T : Type} {Sc : Scalar T}.

(* /repo/src/physics/single_chain/wlc/thermodynamics/isometric/mod.rs:220-234 *)
Definition init (number_of_links : Z) (link_length : T) (hinge_mass : T) (persistance_length : T) :
    t T :=
  let nondimensional_persistance_length := persistance_length / sofZ number_of_links / link_length
      in
  let normalization_nondimensional_equilibrium_distribution := math.integrate_1d (fun
      nondimensional_end_to_end_length_per_link =>
      wlc_isometric.nondimensional_equilibrium_radial_distribution nondimensional_persistance_length
      (sdec 1 0) nondimensional_end_to_end_length_per_link) ZERO ONE POINTS in
  {| hinge_mass := hinge_mass; link_length := link_length; number_of_links := number_of_links;
      persistance_length := persistance_length; nondimensional_persistance_length :=
      nondimensional_persistance_length; normalization_nondimensional_equilibrium_distribution :=
      normalization_nondimensional_equilibrium_distribution; legendre :=
      O_wlc_isometric_legendre.init number_of_links link_length hinge_mass persistance_length |}.

(* /repo/src/physics/single_chain/wlc/thermodynamics/isometric/mod.rs:236-239 *)
Definition force (self : t T) (end_to_end_length : T) (temperature : T) : T :=
  wlc_isometric.force (number_of_links self) (link_length self) (persistance_length self)
      end_to_end_length temperature.

(* /repo/src/physics/single_chain/wlc/thermodynamics/isometric/mod.rs:241-244 *)
Definition nondimensional_force (self : t T) (nondimensional_end_to_end_length_per_link : T) : T :=
  wlc_isometric.nondimensional_force (number_of_links self) (nondimensional_persistance_length self)
      nondimensional_end_to_end_length_per_link.

(* /repo/src/physics/single_chain/wlc/thermodynamics/isometric/mod.rs:246-249 *)
Definition helmholtz_free_energy (self : t T) (end_to_end_length : T) (temperature : T) : T :=
  wlc_isometric.helmholtz_free_energy (number_of_links self) (link_length self) (hinge_mass self)
      (persistance_length self) end_to_end_length temperature.

(* /repo/src/physics/single_chain/wlc/thermodynamics/isometric/mod.rs:251-254 *)
Definition helmholtz_free_energy_per_link (self : t T) (end_to_end_length : T) (temperature : T) : T
    :=
  wlc_isometric.helmholtz_free_energy_per_link (number_of_links self) (link_length self) (hinge_mass
      self) (persistance_length self) end_to_end_length temperature.

(* /repo/src/physics/single_chain/wlc/thermodynamics/isometric/mod.rs:256-259 *)
Definition relative_helmholtz_free_energy (self : t T) (end_to_end_length : T) (temperature : T) : T
    :=
  wlc_isometric.relative_helmholtz_free_energy (number_of_links self) (link_length self)
      (persistance_length self) end_to_end_length temperature.

(* /repo/src/physics/single_chain/wlc/thermodynamics/isometric/mod.rs:261-264 *)
Definition relative_helmholtz_free_energy_per_link (self : t T) (end_to_end_length : T) (temperature
    : T) : T :=
  wlc_isometric.relative_helmholtz_free_energy_per_link (number_of_links self) (link_length self)
      (persistance_length self) end_to_end_length temperature.

(* /repo/src/physics/single_chain/wlc/thermodynamics/isometric/mod.rs:266-269 *)
Definition nondimensional_helmholtz_free_energy (self : t T)
    (nondimensional_end_to_end_length_per_link : T) (temperature : T) : T :=
  wlc_isometric.nondimensional_helmholtz_free_energy (number_of_links self) (link_length self)
      (hinge_mass self) (nondimensional_persistance_length self)
      nondimensional_end_to_end_length_per_link temperature.

(* /repo/src/physics/single_chain/wlc/thermodynamics/isometric/mod.rs:271-274 *)
Definition nondimensional_helmholtz_free_energy_per_link (self : t T)
    (nondimensional_end_to_end_length_per_link : T) (temperature : T) : T :=
  wlc_isometric.nondimensional_helmholtz_free_energy_per_link (number_of_links self) (link_length
      self) (hinge_mass self) (nondimensional_persistance_length self)
      nondimensional_end_to_end_length_per_link temperature.

(* /repo/src/physics/single_chain/wlc/thermodynamics/isometric/mod.rs:276-279 *)
Definition nondimensional_relative_helmholtz_free_energy (self : t T)
    (nondimensional_end_to_end_length_per_link : T) : T :=
  wlc_isometric.nondimensional_relative_helmholtz_free_energy (nondimensional_persistance_length
      self) nondimensional_end_to_end_length_per_link.

(* /repo/src/physics/single_chain/wlc/thermodynamics/isometric/mod.rs:281-284 *)
Definition nondimensional_relative_helmholtz_free_energy_per_link (self : t T)
    (nondimensional_end_to_end_length_per_link : T) : T :=
  wlc_isometric.nondimensional_relative_helmholtz_free_energy_per_link (number_of_links self)
      (nondimensional_persistance_length self) nondimensional_end_to_end_length_per_link.

(* /repo/src/physics/single_chain/wlc/thermodynamics/isometric/mod.rs:286-289 *)
Definition equilibrium_distribution (self : t T) (end_to_end_length : T) : T :=
  wlc_isometric.equilibrium_distribution (number_of_links self) (link_length self)
      (persistance_length self) (normalization_nondimensional_equilibrium_distribution self)
      end_to_end_length.

(* /repo/src/physics/single_chain/wlc/thermodynamics/isometric/mod.rs:291-294 *)
Definition nondimensional_equilibrium_distribution (self : t T)
    (nondimensional_end_to_end_length_per_link : T) : T :=
  wlc_isometric.nondimensional_equilibrium_distribution (nondimensional_persistance_length self)
      (normalization_nondimensional_equilibrium_distribution self)
      nondimensional_end_to_end_length_per_link.

(* /repo/src/physics/single_chain/wlc/thermodynamics/isometric/mod.rs:296-299 *)
Definition equilibrium_radial_distribution (self : t T) (end_to_end_length : T) : T :=
  wlc_isometric.equilibrium_radial_distribution (number_of_links self) (link_length self)
      (persistance_length self) (normalization_nondimensional_equilibrium_distribution self)
      end_to_end_length.

(* /repo/src/physics/single_chain/wlc/thermodynamics/isometric/mod.rs:301-304 *)
Definition nondimensional_equilibrium_radial_distribution (self : t T)
    (nondimensional_end_to_end_length_per_link : T) : T :=
  wlc_isometric.nondimensional_equilibrium_radial_distribution (nondimensional_persistance_length
      self) (normalization_nondimensional_equilibrium_distribution self)
      nondimensional_end_to_end_length_per_link.

End Model.
End O_wlc_isometric.

(** /repo/src/physics/single_chain/wlc/thermodynamics/isotensional/mod.rs: struct WLC *)
Module O_wlc_isotensional.
(* /repo/src/physics/single_chain/wlc/thermodynamics/isotensional/mod.rs:34-52 *)
Record t {T : Type} := { hinge_mass : T; link_length : T; number_of_links : Z; persistance_length : T; nondimensional_persistance_length : T; legendre : O_wlc_isotensional_legendre.t T }.
Arguments t : clear implicits.
Section Model.
Context {T : Type} {Sc : Scalar T}.

(* /repo/src/physics/single_chain/wlc/thermodynamics/isotensional/mod.rs:175-186 *)
Definition init (number_of_links : Z) (link_length : T) (hinge_mass : T) (persistance_length : T) :
    t T :=
  {| hinge_mass := hinge_mass; link_length := link_length; number_of_links := number_of_links;
      persistance_length := persistance_length; nondimensional_persistance_length :=
      persistance_length / sofZ number_of_links / link_length; legendre :=
      O_wlc_isotensional_legendre.init number_of_links link_length hinge_mass persistance_length |}.

(* /repo/src/physics/single_chain/wlc/thermodynamics/isotensional/mod.rs:188-191 *)
Definition end_to_end_length (self : t T) (force : T) (temperature : T) : option T :=
  wlc_isotensional.end_to_end_length (number_of_links self) (link_length self) (persistance_length
      self) force temperature.

(* /repo/src/physics/single_chain/wlc/thermodynamics/isotensional/mod.rs:193-196 *)
Definition end_to_end_length_per_link (self : t T) (force : T) (temperature : T) : option T :=
  wlc_isotensional.end_to_end_length_per_link (number_of_links self) (link_length self)
      (persistance_length self) force temperature.

(* /repo/src/physics/single_chain/wlc/thermodynamics/isotensional/mod.rs:198-201 *)
Definition nondimensional_end_to_end_length (self : t T) (nondimensional_force : T) : option T :=
  wlc_isotensional.nondimensional_end_to_end_length (number_of_links self)
      (nondimensional_persistance_length self) nondimensional_force.

(* /repo/src/physics/single_chain/wlc/thermodynamics/isotensional/mod.rs:203-206 *)
Definition nondimensional_end_to_end_length_per_link (self : t T) (nondimensional_force : T) :
    option T :=
  wlc_isotensional.nondimensional_end_to_end_length_per_link (number_of_links self)
      (nondimensional_persistance_length self) nondimensional_force.

(* /repo/src/physics/single_chain/wlc/thermodynamics/isotensional/mod.rs:208-211 *)
Definition gibbs_free_energy (self : t T) (force : T) (temperature : T) : option T :=
  wlc_isotensional.gibbs_free_energy (number_of_links self) (link_length self) (hinge_mass self)
      (persistance_length self) force temperature.

(* /repo/src/physics/single_chain/wlc/thermodynamics/isotensional/mod.rs:213-216 *)
Definition gibbs_free_energy_per_link (self : t T) (force : T) (temperature : T) : option T :=
  wlc_isotensional.gibbs_free_energy_per_link (number_of_links self) (link_length self) (hinge_mass
      self) (persistance_length self) force temperature.

(* /repo/src/physics/single_chain/wlc/thermodynamics/isotensional/mod.rs:218-221 *)
Definition relative_gibbs_free_energy (self : t T) (force : T) (temperature : T) : option T :=
  wlc_isotensional.relative_gibbs_free_energy (number_of_links self) (link_length self)
      (persistance_length self) force temperature.

(* /repo/src/physics/single_chain/wlc/thermodynamics/isotensional/mod.rs:223-226 *)
Definition relative_gibbs_free_energy_per_link (self : t T) (force : T) (temperature : T) : option T
    :=
  wlc_isotensional.relative_gibbs_free_energy_per_link (number_of_links self) (link_length self)
      (persistance_length self) force temperature.

(* /repo/src/physics/single_chain/wlc/thermodynamics/isotensional/mod.rs:228-231 *)
Definition nondimensional_gibbs_free_energy (self : t T) (nondimensional_force : T) (temperature :
    T) : option T :=
  wlc_isotensional.nondimensional_gibbs_free_energy (number_of_links self) (link_length self)
      (hinge_mass self) (nondimensional_persistance_length self) nondimensional_force temperature.

(* /repo/src/physics/single_chain/wlc/thermodynamics/isotensional/mod.rs:233-236 *)
Definition nondimensional_gibbs_free_energy_per_link (self : t T) (nondimensional_force : T)
    (temperature : T) : option T :=
  wlc_isotensional.nondimensional_gibbs_free_energy_per_link (number_of_links self) (link_length
      self) (hinge_mass self) (nondimensional_persistance_length self) nondimensional_force
      temperature.

(* /repo/src/physics/single_chain/wlc/thermodynamics/isotensional/mod.rs:238-241 *)
Definition nondimensional_relative_gibbs_free_energy (self : t T) (nondimensional_force : T) :
    option T :=
  wlc_isotensional.nondimensional_relative_gibbs_free_energy (number_of_links self)
      (nondimensional_persistance_length self) nondimensional_force.

(* /repo/src/physics/single_chain/wlc/thermodynamics/isotensional/mod.rs:243-246 *)
Definition nondimensional_relative_gibbs_free_energy_per_link (self : t T) (nondimensional_force :
    T) : option T :=
  wlc_isotensional.nondimensional_relative_gibbs_free_energy_per_link (number_of_links self)
      (nondimensional_persistance_length self) nondimensional_force.

End Model.
End O_wlc_isotensional.

(** /repo/src/physics/single_chain/wlc/thermodynamics/mod.rs: struct WLC *)
Module O_wlc_thermodynamics.
(* /repo/src/physics/single_chain/wlc/thermodynamics/mod.rs:13-32 *)
Record t {T : Type} := { hinge_mass : T; link_length : T; number_of_links : Z; persistance_length : T; isometric : O_wlc_isometric.t T; isotensional : O_wlc_isotensional.t T }.
Arguments t : clear implicits.
Section Model.
Context {T : Type} {Sc : Scalar T}.

(* /repo/src/physics/single_chain/wlc/thermodynamics/mod.rs:38-49 *)
Definition init (number_of_links : Z) (link_length : T) (hinge_mass : T) (persistance_length : T) :
    t T :=
  {| hinge_mass := hinge_mass; link_length := link_length; number_of_links := number_of_links;
      persistance_length := persistance_length; isometric := O_wlc_isometric.init number_of_links
      link_length hinge_mass persistance_length; isotensional := O_wlc_isotensional.init
      number_of_links link_length hinge_mass persistance_length |}.

End Model.
End O_wlc_thermodynamics.

(** /repo/src/physics/single_chain/wlc/mod.rs: struct WLC *)
Module O_wlc.
(* /repo/src/physics/single_chain/wlc/mod.rs:10-26 *)
Record t {T : Type} := { hinge_mass : T; link_length : T; number_of_links : Z; persistance_length : T; thermodynamics : O_wlc_thermodynamics.t T }.
Arguments t : clear implicits.
Section Model.
Context {T : Type} {Sc : Scalar T}.

(* /repo/src/physics/single_chain/wlc/mod.rs:32-42 *)
Definition init (number_of_links : Z) (link_length : T) (hinge_mass : T) (persistance_length : T) :
    t T :=
  {| hinge_mass := hinge_mass; link_length := link_length; number_of_links := number_of_links;
      persistance_length := persistance_length; thermodynamics := O_wlc_thermodynamics.init
      number_of_links link_length hinge_mass persistance_length |}.

End Model.
End O_wlc.

