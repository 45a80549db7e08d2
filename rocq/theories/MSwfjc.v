(** Square-well freely jointed chain model.
    Generated by tools/translate.py from the files cited at each definition. *)
From Coq Require Import ZArith List Bool.
From Verif Require Import Scalar MMath MConst.
Import ListNotations.
Local Open Scope scalar_scope.

(** /repo/src/physics/single_chain/swfjc/thermodynamics/isometric/legendre/mod.rs *)
Module swfjc_isometric_legendre.
Section Model.
Context {T : Type} {Sc : Scalar T}.

(* /repo/src/physics/single_chain/swfjc/thermodynamics/isometric/legendre/mod.rs:53-72 *)
Definition nondimensional_force (link_length : T) (well_width : T)
    (nondimensional_end_to_end_length_per_link : T) : T :=
  let nondimensional_well_parameter := sdec 1 0 + well_width / link_length in
  if nondimensional_end_to_end_length_per_link <=? sdec 1 3 then
      nondimensional_end_to_end_length_per_link * sdec 5 0 * (spowi nondimensional_well_parameter 2
      + nondimensional_well_parameter + sdec 1 0) / (spowi nondimensional_well_parameter 4 + spowi
      nondimensional_well_parameter 3 + spowi nondimensional_well_parameter 2 +
      nondimensional_well_parameter + sdec 1 0) else let guess := if
      nondimensional_end_to_end_length_per_link / nondimensional_well_parameter <? sdec 9 1 then
      math.inverse_langevin (nondimensional_end_to_end_length_per_link /
      nondimensional_well_parameter) else sdec 10 0 in
  math.inverse_newton_raphson nondimensional_end_to_end_length_per_link (fun nondimensional_force =>
      (spowi nondimensional_well_parameter 2 * nondimensional_force * ssinh
      (nondimensional_well_parameter * nondimensional_force) - nondimensional_force * ssinh
      nondimensional_force) / (nondimensional_well_parameter * nondimensional_force * scosh
      (nondimensional_well_parameter * nondimensional_force) - ssinh (nondimensional_well_parameter
      * nondimensional_force) - nondimensional_force * scosh nondimensional_force + ssinh
      nondimensional_force) - sdec 3 0 / nondimensional_force) (fun nondimensional_force => (ssinh
      nondimensional_force + nondimensional_force * scosh nondimensional_force - spowi
      nondimensional_well_parameter 3 * nondimensional_force * scosh (nondimensional_well_parameter
      * nondimensional_force) - spowi nondimensional_well_parameter 2 * ssinh
      (nondimensional_well_parameter * nondimensional_force)) / (ssinh
      (nondimensional_well_parameter * nondimensional_force) - nondimensional_well_parameter *
      nondimensional_force * scosh (nondimensional_well_parameter * nondimensional_force) - ssinh
      nondimensional_force + nondimensional_force * scosh nondimensional_force) - spowi
      nondimensional_force 2 * spowi (ssinh nondimensional_force - spowi
      nondimensional_well_parameter 2 * ssinh (nondimensional_well_parameter *
      nondimensional_force)) 2 / spowi (ssinh (nondimensional_well_parameter * nondimensional_force)
      - nondimensional_well_parameter * nondimensional_force * scosh (nondimensional_well_parameter
      * nondimensional_force) - ssinh nondimensional_force + nondimensional_force * scosh
      nondimensional_force) 2 + sdec 3 0 / spowi nondimensional_force 2) guess (sdec 1 6) 100.

(* /repo/src/physics/single_chain/swfjc/thermodynamics/isometric/legendre/mod.rs:47-50 *)
Definition force (number_of_links : Z) (link_length : T) (well_width : T) (end_to_end_length : T)
    (temperature : T) : T :=
  BOLTZMANN_CONSTANT * temperature / link_length * nondimensional_force link_length well_width
      (end_to_end_length / (sofZ number_of_links * link_length)).

(* /repo/src/physics/single_chain/swfjc/thermodynamics/isometric/legendre/mod.rs:105-110 *)
Definition nondimensional_helmholtz_free_energy_per_link (number_of_links : Z) (link_length : T)
    (hinge_mass : T) (well_width : T) (nondimensional_end_to_end_length_per_link : T) (temperature :
    T) : T :=
  let nondimensional_well_parameter := sdec 1 0 + well_width / link_length in
  let nondimensional_force := nondimensional_force link_length well_width
      nondimensional_end_to_end_length_per_link in
  nondimensional_force * nondimensional_end_to_end_length_per_link + sdec 3 0 * sln
      nondimensional_force - sln (nondimensional_well_parameter * nondimensional_force * scosh
      (nondimensional_well_parameter * nondimensional_force) - ssinh (nondimensional_well_parameter
      * nondimensional_force) - nondimensional_force * scosh nondimensional_force + ssinh
      nondimensional_force) - (sdec 1 0 - sdec 1 0 / sofZ number_of_links) * sln (sdec 8 0 * spowi
      spi 2 * hinge_mass * spowi link_length 2 * BOLTZMANN_CONSTANT * temperature / spowi
      PLANCK_CONSTANT 2).

(* /repo/src/physics/single_chain/swfjc/thermodynamics/isometric/legendre/mod.rs:81-84 *)
Definition helmholtz_free_energy_per_link (number_of_links : Z) (link_length : T) (hinge_mass : T)
    (well_width : T) (end_to_end_length : T) (temperature : T) : T :=
  nondimensional_helmholtz_free_energy_per_link number_of_links link_length hinge_mass well_width
      (end_to_end_length / (sofZ number_of_links * link_length)) temperature * BOLTZMANN_CONSTANT *
      temperature.

(* /repo/src/physics/single_chain/swfjc/thermodynamics/isometric/legendre/mod.rs:93-96 *)
Definition relative_helmholtz_free_energy_per_link (number_of_links : Z) (link_length : T)
    (well_width : T) (end_to_end_length : T) (temperature : T) : T :=
  helmholtz_free_energy_per_link number_of_links link_length (sdec 1 0) well_width end_to_end_length
      temperature - helmholtz_free_energy_per_link number_of_links link_length (sdec 1 0) well_width
      (ZERO * sofZ number_of_links * link_length) temperature.

(* /repo/src/physics/single_chain/swfjc/thermodynamics/isometric/legendre/mod.rs:99-102 *)
Definition nondimensional_helmholtz_free_energy (number_of_links : Z) (link_length : T) (hinge_mass
    : T) (well_width : T) (nondimensional_end_to_end_length_per_link : T) (temperature : T) : T :=
  sofZ number_of_links * nondimensional_helmholtz_free_energy_per_link number_of_links link_length
      hinge_mass well_width nondimensional_end_to_end_length_per_link temperature.

(* /repo/src/physics/single_chain/swfjc/thermodynamics/isometric/legendre/mod.rs:75-78 *)
Definition helmholtz_free_energy (number_of_links : Z) (link_length : T) (hinge_mass : T)
    (well_width : T) (end_to_end_length : T) (temperature : T) : T :=
  nondimensional_helmholtz_free_energy number_of_links link_length hinge_mass well_width
      (end_to_end_length / (sofZ number_of_links * link_length)) temperature * BOLTZMANN_CONSTANT *
      temperature.

(* /repo/src/physics/single_chain/swfjc/thermodynamics/isometric/legendre/mod.rs:87-90 *)
Definition relative_helmholtz_free_energy (number_of_links : Z) (link_length : T) (well_width : T)
    (end_to_end_length : T) (temperature : T) : T :=
  helmholtz_free_energy number_of_links link_length (sdec 1 0) well_width end_to_end_length
      temperature - helmholtz_free_energy number_of_links link_length (sdec 1 0) well_width (ZERO *
      sofZ number_of_links * link_length) temperature.

(* /repo/src/physics/single_chain/swfjc/thermodynamics/isometric/legendre/mod.rs:113-116 *)
Definition nondimensional_relative_helmholtz_free_energy (number_of_links : Z) (link_length : T)
    (well_width : T) (nondimensional_end_to_end_length_per_link : T) : T :=
  nondimensional_helmholtz_free_energy number_of_links link_length (sdec 1 0) well_width
      nondimensional_end_to_end_length_per_link (sdec 300 0) - nondimensional_helmholtz_free_energy
      number_of_links link_length (sdec 1 0) well_width ZERO (sdec 300 0).

(* /repo/src/physics/single_chain/swfjc/thermodynamics/isometric/legendre/mod.rs:119-122 *)
Definition nondimensional_relative_helmholtz_free_energy_per_link (link_length : T) (well_width : T)
    (nondimensional_end_to_end_length_per_link : T) : T :=
  nondimensional_helmholtz_free_energy_per_link 8 link_length (sdec 1 0) well_width
      nondimensional_end_to_end_length_per_link (sdec 300 0) -
      nondimensional_helmholtz_free_energy_per_link 8 link_length (sdec 1 0) well_width ZERO (sdec
      300 0).

(* /repo/src/physics/single_chain/swfjc/thermodynamics/isometric/legendre/mod.rs:132-137 *)
Definition nondimensional_equilibrium_distribution (number_of_links : Z) (link_length : T)
    (well_width : T) (normalization_nondimensional_equilibrium_distribution : T)
    (nondimensional_end_to_end_length_per_link : T) : T :=
  let nondimensional_well_parameter := sdec 1 0 + well_width / link_length in
  let nondimensional_force := nondimensional_force link_length well_width
      nondimensional_end_to_end_length_per_link in
  spowi ((nondimensional_well_parameter * nondimensional_force * scosh
      (nondimensional_well_parameter * nondimensional_force) - ssinh (nondimensional_well_parameter
      * nondimensional_force) - nondimensional_force * scosh nondimensional_force + ssinh
      nondimensional_force) / spowi nondimensional_force 3 * sexp (- nondimensional_force *
      nondimensional_end_to_end_length_per_link)) number_of_links /
      normalization_nondimensional_equilibrium_distribution.

(* /repo/src/physics/single_chain/swfjc/thermodynamics/isometric/legendre/mod.rs:125-129 *)
Definition equilibrium_distribution (number_of_links : Z) (link_length : T) (well_width : T)
    (normalization_nondimensional_equilibrium_distribution : T) (end_to_end_length : T) : T :=
  let contour_length := sofZ number_of_links * link_length in
  nondimensional_equilibrium_distribution number_of_links link_length well_width
      normalization_nondimensional_equilibrium_distribution (end_to_end_length / contour_length) /
      spowi contour_length 3.

(* /repo/src/physics/single_chain/swfjc/thermodynamics/isometric/legendre/mod.rs:147-150 *)
Definition nondimensional_equilibrium_radial_distribution (number_of_links : Z) (link_length : T)
    (well_width : T) (normalization_nondimensional_equilibrium_distribution : T)
    (nondimensional_end_to_end_length_per_link : T) : T :=
  sdec 4 0 * spi * spowi nondimensional_end_to_end_length_per_link 2 *
      nondimensional_equilibrium_distribution number_of_links link_length well_width
      normalization_nondimensional_equilibrium_distribution
      nondimensional_end_to_end_length_per_link.

(* /repo/src/physics/single_chain/swfjc/thermodynamics/isometric/legendre/mod.rs:140-144 *)
Definition equilibrium_radial_distribution (number_of_links : Z) (link_length : T) (well_width : T)
    (normalization_nondimensional_equilibrium_distribution : T) (end_to_end_length : T) : T :=
  let contour_length := sofZ number_of_links * link_length in
  nondimensional_equilibrium_radial_distribution number_of_links link_length well_width
      normalization_nondimensional_equilibrium_distribution (end_to_end_length / contour_length) /
      contour_length.

End Model.
End swfjc_isometric_legendre.

(** /repo/src/physics/single_chain/swfjc/thermodynamics/isotensional/mod.rs *)
Module swfjc_isotensional.
Section Model.
Context {T : Type} {Sc : Scalar T}.

(* /repo/src/physics/single_chain/swfjc/thermodynamics/isotensional/mod.rs:40-45 *)
Definition end_to_end_length (number_of_links : Z) (link_length : T) (well_width : T) (force : T)
    (temperature : T) : T :=
  let nondimensional_well_parameter := sdec 1 0 + well_width / link_length in
  let nondimensional_force := force * link_length / BOLTZMANN_CONSTANT / temperature in
  sofZ number_of_links * link_length * ((spowi nondimensional_well_parameter 2 *
      nondimensional_force * ssinh (nondimensional_well_parameter * nondimensional_force) -
      nondimensional_force * ssinh nondimensional_force) / (nondimensional_well_parameter *
      nondimensional_force * scosh (nondimensional_well_parameter * nondimensional_force) - ssinh
      (nondimensional_well_parameter * nondimensional_force) - nondimensional_force * scosh
      nondimensional_force + ssinh nondimensional_force) - sdec 3 0 / nondimensional_force).

(* /repo/src/physics/single_chain/swfjc/thermodynamics/isotensional/mod.rs:48-53 *)
Definition end_to_end_length_per_link (link_length : T) (well_width : T) (force : T) (temperature :
    T) : T :=
  let nondimensional_well_parameter := sdec 1 0 + well_width / link_length in
  let nondimensional_force := force * link_length / BOLTZMANN_CONSTANT / temperature in
  link_length * ((spowi nondimensional_well_parameter 2 * nondimensional_force * ssinh
      (nondimensional_well_parameter * nondimensional_force) - nondimensional_force * ssinh
      nondimensional_force) / (nondimensional_well_parameter * nondimensional_force * scosh
      (nondimensional_well_parameter * nondimensional_force) - ssinh (nondimensional_well_parameter
      * nondimensional_force) - nondimensional_force * scosh nondimensional_force + ssinh
      nondimensional_force) - sdec 3 0 / nondimensional_force).

(* /repo/src/physics/single_chain/swfjc/thermodynamics/isotensional/mod.rs:56-60 *)
Definition nondimensional_end_to_end_length (number_of_links : Z) (link_length : T) (well_width : T)
    (nondimensional_force : T) : T :=
  let nondimensional_well_parameter := sdec 1 0 + well_width / link_length in
  sofZ number_of_links * ((spowi nondimensional_well_parameter 2 * nondimensional_force * ssinh
      (nondimensional_well_parameter * nondimensional_force) - nondimensional_force * ssinh
      nondimensional_force) / (nondimensional_well_parameter * nondimensional_force * scosh
      (nondimensional_well_parameter * nondimensional_force) - ssinh (nondimensional_well_parameter
      * nondimensional_force) - nondimensional_force * scosh nondimensional_force + ssinh
      nondimensional_force) - sdec 3 0 / nondimensional_force).

(* /repo/src/physics/single_chain/swfjc/thermodynamics/isotensional/mod.rs:63-67 *)
Definition nondimensional_end_to_end_length_per_link (link_length : T) (well_width : T)
    (nondimensional_force : T) : T :=
  let nondimensional_well_parameter := sdec 1 0 + well_width / link_length in
  (spowi nondimensional_well_parameter 2 * nondimensional_force * ssinh
      (nondimensional_well_parameter * nondimensional_force) - nondimensional_force * ssinh
      nondimensional_force) / (nondimensional_well_parameter * nondimensional_force * scosh
      (nondimensional_well_parameter * nondimensional_force) - ssinh (nondimensional_well_parameter
      * nondimensional_force) - nondimensional_force * scosh nondimensional_force + ssinh
      nondimensional_force) - sdec 3 0 / nondimensional_force.

(* /repo/src/physics/single_chain/swfjc/thermodynamics/isotensional/mod.rs:70-75 *)
Definition gibbs_free_energy (number_of_links : Z) (link_length : T) (hinge_mass : T) (well_width :
    T) (force : T) (temperature : T) : T :=
  let nondimensional_well_parameter := sdec 1 0 + well_width / link_length in
  let nondimensional_force := force * link_length / BOLTZMANN_CONSTANT / temperature in
  sofZ number_of_links * BOLTZMANN_CONSTANT * temperature * (sdec 3 0 * sln nondimensional_force -
      sln (nondimensional_well_parameter * nondimensional_force * scosh
      (nondimensional_well_parameter * nondimensional_force) - ssinh (nondimensional_well_parameter
      * nondimensional_force) - nondimensional_force * scosh nondimensional_force + ssinh
      nondimensional_force) - sln (sdec 8 0 * spowi spi 2 * hinge_mass * spowi link_length 2 *
      BOLTZMANN_CONSTANT * temperature / spowi PLANCK_CONSTANT 2)).

(* /repo/src/physics/single_chain/swfjc/thermodynamics/isotensional/mod.rs:78-83 *)
Definition gibbs_free_energy_per_link (link_length : T) (hinge_mass : T) (well_width : T) (force :
    T) (temperature : T) : T :=
  let nondimensional_well_parameter := sdec 1 0 + well_width / link_length in
  let nondimensional_force := force * link_length / BOLTZMANN_CONSTANT / temperature in
  BOLTZMANN_CONSTANT * temperature * (sdec 3 0 * sln nondimensional_force - sln
      (nondimensional_well_parameter * nondimensional_force * scosh (nondimensional_well_parameter *
      nondimensional_force) - ssinh (nondimensional_well_parameter * nondimensional_force) -
      nondimensional_force * scosh nondimensional_force + ssinh nondimensional_force) - sln (sdec 8
      0 * spowi spi 2 * hinge_mass * spowi link_length 2 * BOLTZMANN_CONSTANT * temperature / spowi
      PLANCK_CONSTANT 2)).

(* /repo/src/physics/single_chain/swfjc/thermodynamics/isotensional/mod.rs:86-89 *)
Definition relative_gibbs_free_energy (number_of_links : Z) (link_length : T) (well_width : T)
    (force : T) (temperature : T) : T :=
  gibbs_free_energy number_of_links link_length (sdec 1 0) well_width force temperature -
      gibbs_free_energy number_of_links link_length (sdec 1 0) well_width (ZERO * BOLTZMANN_CONSTANT
      * temperature / link_length) temperature.

(* /repo/src/physics/single_chain/swfjc/thermodynamics/isotensional/mod.rs:92-95 *)
Definition relative_gibbs_free_energy_per_link (link_length : T) (well_width : T) (force : T)
    (temperature : T) : T :=
  gibbs_free_energy_per_link link_length (sdec 1 0) well_width force temperature -
      gibbs_free_energy_per_link link_length (sdec 1 0) well_width (ZERO * BOLTZMANN_CONSTANT *
      temperature / link_length) temperature.

(* /repo/src/physics/single_chain/swfjc/thermodynamics/isotensional/mod.rs:98-102 *)
Definition nondimensional_gibbs_free_energy (number_of_links : Z) (link_length : T) (hinge_mass : T)
    (well_width : T) (nondimensional_force : T) (temperature : T) : T :=
  let nondimensional_well_parameter := sdec 1 0 + well_width / link_length in
  sofZ number_of_links * (sdec 3 0 * sln nondimensional_force - sln (nondimensional_well_parameter *
      nondimensional_force * scosh (nondimensional_well_parameter * nondimensional_force) - ssinh
      (nondimensional_well_parameter * nondimensional_force) - nondimensional_force * scosh
      nondimensional_force + ssinh nondimensional_force) - sln (sdec 8 0 * spowi spi 2 * hinge_mass
      * spowi link_length 2 * BOLTZMANN_CONSTANT * temperature / spowi PLANCK_CONSTANT 2)).

(* /repo/src/physics/single_chain/swfjc/thermodynamics/isotensional/mod.rs:105-109 *)
Definition nondimensional_gibbs_free_energy_per_link (link_length : T) (hinge_mass : T) (well_width
    : T) (nondimensional_force : T) (temperature : T) : T :=
  let nondimensional_well_parameter := sdec 1 0 + well_width / link_length in
  sdec 3 0 * sln nondimensional_force - sln (nondimensional_well_parameter * nondimensional_force *
      scosh (nondimensional_well_parameter * nondimensional_force) - ssinh
      (nondimensional_well_parameter * nondimensional_force) - nondimensional_force * scosh
      nondimensional_force + ssinh nondimensional_force) - sln (sdec 8 0 * spowi spi 2 * hinge_mass
      * spowi link_length 2 * BOLTZMANN_CONSTANT * temperature / spowi PLANCK_CONSTANT 2).

(* /repo/src/physics/single_chain/swfjc/thermodynamics/isotensional/mod.rs:112-115 *)
Definition nondimensional_relative_gibbs_free_energy (number_of_links : Z) (link_length : T)
    (well_width : T) (nondimensional_force : T) : T :=
  nondimensional_gibbs_free_energy number_of_links link_length (sdec 1 0) well_width
      nondimensional_force (sdec 300 0) - nondimensional_gibbs_free_energy number_of_links
      link_length (sdec 1 0) well_width ZERO (sdec 300 0).

(* /repo/src/physics/single_chain/swfjc/thermodynamics/isotensional/mod.rs:118-121 *)
Definition nondimensional_relative_gibbs_free_energy_per_link (link_length : T) (well_width : T)
    (nondimensional_force : T) : T :=
  nondimensional_gibbs_free_energy_per_link link_length (sdec 1 0) well_width nondimensional_force
      (sdec 300 0) - nondimensional_gibbs_free_energy_per_link link_length (sdec 1 0) well_width
      ZERO (sdec 300 0).

End Model.
End swfjc_isotensional.

(** /repo/src/physics/single_chain/swfjc/thermodynamics/isotensional/legendre/mod.rs *)
Module swfjc_isotensional_legendre.
Section Model.
Context {T : Type} {Sc : Scalar T}.

(* /repo/src/physics/single_chain/swfjc/thermodynamics/isotensional/legendre/mod.rs:64-68 *)
Definition nondimensional_helmholtz_free_energy_per_link (link_length : T) (hinge_mass : T)
    (well_width : T) (nondimensional_force : T) (temperature : T) : T :=
  let nondimensional_well_parameter := sdec 1 0 + well_width / link_length in
  (spowi nondimensional_well_parameter 2 * spowi nondimensional_force 2 * ssinh
      (nondimensional_well_parameter * nondimensional_force) - spowi nondimensional_force 2 * ssinh
      nondimensional_force) / (nondimensional_well_parameter * nondimensional_force * scosh
      (nondimensional_well_parameter * nondimensional_force) - ssinh (nondimensional_well_parameter
      * nondimensional_force) - nondimensional_force * scosh nondimensional_force + ssinh
      nondimensional_force) - sdec 3 0 + sdec 3 0 * sln nondimensional_force - sln
      (nondimensional_well_parameter * nondimensional_force * scosh (nondimensional_well_parameter *
      nondimensional_force) - ssinh (nondimensional_well_parameter * nondimensional_force) -
      nondimensional_force * scosh nondimensional_force + ssinh nondimensional_force) - sln (sdec 8
      0 * spowi spi 2 * hinge_mass * spowi link_length 2 * BOLTZMANN_CONSTANT * temperature / spowi
      PLANCK_CONSTANT 2).

(* /repo/src/physics/single_chain/swfjc/thermodynamics/isotensional/legendre/mod.rs:40-43 *)
Definition helmholtz_free_energy_per_link (link_length : T) (hinge_mass : T) (well_width : T) (force
    : T) (temperature : T) : T :=
  nondimensional_helmholtz_free_energy_per_link link_length hinge_mass well_width (force /
      BOLTZMANN_CONSTANT / temperature * link_length) temperature * BOLTZMANN_CONSTANT *
      temperature.

(* /repo/src/physics/single_chain/swfjc/thermodynamics/isotensional/legendre/mod.rs:58-61 *)
Definition nondimensional_helmholtz_free_energy (number_of_links : Z) (link_length : T) (hinge_mass
    : T) (well_width : T) (nondimensional_force : T) (temperature : T) : T :=
  sofZ number_of_links * nondimensional_helmholtz_free_energy_per_link link_length hinge_mass
      well_width nondimensional_force temperature.

(* /repo/src/physics/single_chain/swfjc/thermodynamics/isotensional/legendre/mod.rs:34-37 *)
Definition helmholtz_free_energy (number_of_links : Z) (link_length : T) (hinge_mass : T)
    (well_width : T) (force : T) (temperature : T) : T :=
  nondimensional_helmholtz_free_energy number_of_links link_length hinge_mass well_width (force /
      BOLTZMANN_CONSTANT / temperature * link_length) temperature * BOLTZMANN_CONSTANT *
      temperature.

(* /repo/src/physics/single_chain/swfjc/thermodynamics/isotensional/legendre/mod.rs:71-74 *)
Definition nondimensional_relative_helmholtz_free_energy (number_of_links : Z) (link_length : T)
    (well_width : T) (nondimensional_force : T) : T :=
  nondimensional_helmholtz_free_energy number_of_links link_length (sdec 1 0) well_width
      nondimensional_force (sdec 300 0) - nondimensional_helmholtz_free_energy number_of_links
      link_length (sdec 1 0) well_width ZERO (sdec 300 0).

(* /repo/src/physics/single_chain/swfjc/thermodynamics/isotensional/legendre/mod.rs:46-49 *)
Definition relative_helmholtz_free_energy (number_of_links : Z) (link_length : T) (well_width : T)
    (force : T) (temperature : T) : T :=
  nondimensional_relative_helmholtz_free_energy number_of_links link_length well_width (force /
      BOLTZMANN_CONSTANT / temperature * link_length) * BOLTZMANN_CONSTANT * temperature.

(* /repo/src/physics/single_chain/swfjc/thermodynamics/isotensional/legendre/mod.rs:77-80 *)
Definition nondimensional_relative_helmholtz_free_energy_per_link (link_length : T) (well_width : T)
    (nondimensional_force : T) : T :=
  nondimensional_helmholtz_free_energy_per_link link_length (sdec 1 0) well_width
      nondimensional_force (sdec 300 0) - nondimensional_helmholtz_free_energy_per_link link_length
      (sdec 1 0) well_width ZERO (sdec 300 0).

(* /repo/src/physics/single_chain/swfjc/thermodynamics/isotensional/legendre/mod.rs:52-55 *)
Definition relative_helmholtz_free_energy_per_link (link_length : T) (well_width : T) (force : T)
    (temperature : T) : T :=
  nondimensional_relative_helmholtz_free_energy_per_link link_length well_width (force /
      BOLTZMANN_CONSTANT / temperature * link_length) * BOLTZMANN_CONSTANT * temperature.

End Model.
End swfjc_isotensional_legendre.

(** /repo/src/physics/single_chain/swfjc/thermodynamics/isometric/legendre/mod.rs: struct SWFJC *)
Module O_swfjc_isometric_legendre.
(* /repo/src/physics/single_chain/swfjc/thermodynamics/isometric/legendre/mod.rs:29-44 *)
Record t {T : Type} := { hinge_mass : T; link_length : T; number_of_links : Z; well_width : T; normalization_nondimensional_equilibrium_distribution : T }.
Arguments t : clear implicits.
Section Model.
Context {T : Type} {Sc : Scalar T}.

(* /repo/src/physics/single_chain/swfjc/thermodynamics/isometric/legendre/mod.rs:156-168 *)
Definition init (number_of_links : Z) (link_length : T) (hinge_mass : T) (well_width : T) : t T :=
  let nondimensional_well_parameter := sdec 1 0 + well_width / link_length in
  let normalization := math.integrate_1d (fun nondimensional_end_to_end_length_per_link =>
      swfjc_isometric_legendre.nondimensional_equilibrium_radial_distribution number_of_links
      link_length well_width (sdec 1 0) nondimensional_end_to_end_length_per_link) ZERO (ONE *
      nondimensional_well_parameter) POINTS in
  {| hinge_mass := hinge_mass; link_length := link_length; number_of_links := number_of_links;
      well_width := well_width; normalization_nondimensional_equilibrium_distribution :=
      normalization |}.

(* /repo/src/physics/single_chain/swfjc/thermodynamics/isometric/legendre/mod.rs:170-173 *)
Definition force (self : t T) (end_to_end_length : T) (temperature : T) : T :=
  swfjc_isometric_legendre.force (number_of_links self) (link_length self) (well_width self)
      end_to_end_length temperature.

(* /repo/src/physics/single_chain/swfjc/thermodynamics/isometric/legendre/mod.rs:175-178 *)
Definition nondimensional_force (self : t T) (nondimensional_end_to_end_length_per_link : T) : T :=
  swfjc_isometric_legendre.nondimensional_force (link_length self) (well_width self)
      nondimensional_end_to_end_length_per_link.

(* /repo/src/physics/single_chain/swfjc/thermodynamics/isometric/legendre/mod.rs:180-183 *)
Definition helmholtz_free_energy (self : t T) (end_to_end_length : T) (temperature : T) : T :=
  swfjc_isometric_legendre.helmholtz_free_energy (number_of_links self) (link_length self)
      (hinge_mass self) (well_width self) end_to_end_length temperature.

(* /repo/src/physics/single_chain/swfjc/thermodynamics/isometric/legendre/mod.rs:185-188 *)
Definition helmholtz_free_energy_per_link (self : t T) (end_to_end_length : T) (temperature : T) : T
    :=
  swfjc_isometric_legendre.helmholtz_free_energy_per_link (number_of_links self) (link_length self)
      (hinge_mass self) (well_width self) end_to_end_length temperature.

(* /repo/src/physics/single_chain/swfjc/thermodynamics/isometric/legendre/mod.rs:190-193 *)
Definition relative_helmholtz_free_energy (self : t T) (end_to_end_length : T) (temperature : T) : T
    :=
  swfjc_isometric_legendre.relative_helmholtz_free_energy (number_of_links self) (link_length self)
      (well_width self) end_to_end_length temperature.

(* /repo/src/physics/single_chain/swfjc/thermodynamics/isometric/legendre/mod.rs:195-198 *)
Definition relative_helmholtz_free_energy_per_link (self : t T) (end_to_end_length : T) (temperature
    : T) : T :=
  swfjc_isometric_legendre.relative_helmholtz_free_energy_per_link (number_of_links self)
      (link_length self) (well_width self) end_to_end_length temperature.

(* /repo/src/physics/single_chain/swfjc/thermodynamics/isometric/legendre/mod.rs:200-203 *)
Definition nondimensional_helmholtz_free_energy (self : t T)
    (nondimensional_end_to_end_length_per_link : T) (temperature : T) : T :=
  swfjc_isometric_legendre.nondimensional_helmholtz_free_energy (number_of_links self) (link_length
      self) (hinge_mass self) (well_width self) nondimensional_end_to_end_length_per_link
      temperature.

(* /repo/src/physics/single_chain/swfjc/thermodynamics/isometric/legendre/mod.rs:205-208 *)
Definition nondimensional_helmholtz_free_energy_per_link (self : t T)
    (nondimensional_end_to_end_length_per_link : T) (temperature : T) : T :=
  swfjc_isometric_legendre.nondimensional_helmholtz_free_energy_per_link (number_of_links self)
      (link_length self) (hinge_mass self) (well_width self)
      nondimensional_end_to_end_length_per_link temperature.

(* /repo/src/physics/single_chain/swfjc/thermodynamics/isometric/legendre/mod.rs:210-213 *)
Definition nondimensional_relative_helmholtz_free_energy (self : t T)
    (nondimensional_end_to_end_length_per_link : T) : T :=
  swfjc_isometric_legendre.nondimensional_relative_helmholtz_free_energy (number_of_links self)
      (link_length self) (well_width self) nondimensional_end_to_end_length_per_link.

(* /repo/src/physics/single_chain/swfjc/thermodynamics/isometric/legendre/mod.rs:215-218 *)
Definition nondimensional_relative_helmholtz_free_energy_per_link (self : t T)
    (nondimensional_end_to_end_length_per_link : T) : T :=
  swfjc_isometric_legendre.nondimensional_relative_helmholtz_free_energy_per_link (link_length self)
      (well_width self) nondimensional_end_to_end_length_per_link.

(* /repo/src/physics/single_chain/swfjc/thermodynamics/isometric/legendre/mod.rs:220-223 *)
Definition equilibrium_distribution (self : t T) (end_to_end_length : T) : T :=
  swfjc_isometric_legendre.equilibrium_distribution (number_of_links self) (link_length self)
      (well_width self) (normalization_nondimensional_equilibrium_distribution self)
      end_to_end_length.

(* /repo/src/physics/single_chain/swfjc/thermodynamics/isometric/legendre/mod.rs:225-228 *)
Definition nondimensional_equilibrium_distribution (self : t T)
    (nondimensional_end_to_end_length_per_link : T) : T :=
  swfjc_isometric_legendre.nondimensional_equilibrium_distribution (number_of_links self)
      (link_length self) (well_width self) (normalization_nondimensional_equilibrium_distribution
      self) nondimensional_end_to_end_length_per_link.

(* /repo/src/physics/single_chain/swfjc/thermodynamics/isometric/legendre/mod.rs:230-233 *)
Definition equilibrium_radial_distribution (self : t T) (end_to_end_length : T) : T :=
  swfjc_isometric_legendre.equilibrium_radial_distribution (number_of_links self) (link_length self)
      (well_width self) (normalization_nondimensional_equilibrium_distribution self)
      end_to_end_length.

(* /repo/src/physics/single_chain/swfjc/thermodynamics/isometric/legendre/mod.rs:235-238 *)
Definition nondimensional_equilibrium_radial_distribution (self : t T)
    (nondimensional_end_to_end_length_per_link : T) : T :=
  swfjc_isometric_legendre.nondimensional_equilibrium_radial_distribution (number_of_links self)
      (link_length self) (well_width self) (normalization_nondimensional_equilibrium_distribution
      self) nondimensional_end_to_end_length_per_link.

End Model.
End O_swfjc_isometric_legendre.

(** /repo/src/physics/single_chain/swfjc/thermodynamics/isotensional/legendre/mod.rs: struct SWFJC *)
Module O_swfjc_isotensional_legendre.
(* /repo/src/physics/single_chain/swfjc/thermodynamics/isotensional/legendre/mod.rs:18-31 *)
Record t {T : Type} := { hinge_mass : T; link_length : T; number_of_links : Z; well_width : T }.
Arguments t : clear implicits.
Section Model.
Context {T : Type} {Sc : Scalar T}.

(* /repo/src/physics/single_chain/swfjc/thermodynamics/isotensional/legendre/mod.rs:86-95 *)
Definition init (number_of_links : Z) (link_length : T) (hinge_mass : T) (well_width : T) : t T :=
  {| hinge_mass := hinge_mass; link_length := link_length; number_of_links := number_of_links;
      well_width := well_width |}.

(* /repo/src/physics/single_chain/swfjc/thermodynamics/isotensional/legendre/mod.rs:97-100 *)
Definition helmholtz_free_energy (self : t T) (force : T) (temperature : T) : T :=
  swfjc_isotensional_legendre.helmholtz_free_energy (number_of_links self) (link_length self)
      (hinge_mass self) (well_width self) force temperature.

(* /repo/src/physics/single_chain/swfjc/thermodynamics/isotensional/legendre/mod.rs:102-105 *)
Definition helmholtz_free_energy_per_link (self : t T) (force : T) (temperature : T) : T :=
  swfjc_isotensional_legendre.helmholtz_free_energy_per_link (link_length self) (hinge_mass self)
      (well_width self) force temperature.

(* /repo/src/physics/single_chain/swfjc/thermodynamics/isotensional/legendre/mod.rs:107-110 *)
Definition relative_helmholtz_free_energy (self : t T) (force : T) (temperature : T) : T :=
  swfjc_isotensional_legendre.relative_helmholtz_free_energy (number_of_links self) (link_length
      self) (well_width self) force temperature.

(* /repo/src/physics/single_chain/swfjc/thermodynamics/isotensional/legendre/mod.rs:112-115 *)
Definition relative_helmholtz_free_energy_per_link (self : t T) (force : T) (temperature : T) : T :=
  swfjc_isotensional_legendre.relative_helmholtz_free_energy_per_link (link_length self) (well_width
      self) force temperature.

(* /repo/src/physics/single_chain/swfjc/thermodynamics/isotensional/legendre/mod.rs:117-120 *)
Definition nondimensional_helmholtz_free_energy (self : t T) (nondimensional_force : T) (temperature
    : T) : T :=
  swfjc_isotensional_legendre.nondimensional_helmholtz_free_energy (number_of_links self)
      (link_length self) (hinge_mass self) (well_width self) nondimensional_force temperature.

(* /repo/src/physics/single_chain/swfjc/thermodynamics/isotensional/legendre/mod.rs:122-125 *)
Definition nondimensional_helmholtz_free_energy_per_link (self : t T) (nondimensional_force : T)
    (temperature : T) : T :=
  swfjc_isotensional_legendre.nondimensional_helmholtz_free_energy_per_link (link_length self)
      (hinge_mass self) (well_width self) nondimensional_force temperature.

(* /repo/src/physics/single_chain/swfjc/thermodynamics/isotensional/legendre/mod.rs:127-130 *)
Definition nondimensional_relative_helmholtz_free_energy (self : t T) (nondimensional_force : T) : T
    :=
  swfjc_isotensional_legendre.nondimensional_relative_helmholtz_free_energy (number_of_links self)
      (link_length self) (well_width self) nondimensional_force.

(* /repo/src/physics/single_chain/swfjc/thermodynamics/isotensional/legendre/mod.rs:132-135 *)
Definition nondimensional_relative_helmholtz_free_energy_per_link (self : t T) (nondimensional_force
    : T) : T :=
  swfjc_isotensional_legendre.nondimensional_relative_helmholtz_free_energy_per_link (link_length
      self) (well_width self) nondimensional_force.

End Model.
End O_swfjc_isotensional_legendre.

(** /repo/src/physics/single_chain/swfjc/thermodynamics/isometric/mod.rs: struct SWFJC *)
Module O_swfjc_isometric.
(* /repo/src/physics/single_chain/swfjc/thermodynamics/isometric/mod.rs:10-26 *)
Record t {T : Type} := { hinge_mass : T; link_length : T; number_of_links : Z; well_width : T; legendre : O_swfjc_isometric_legendre.t T }.
Arguments t : clear implicits.
Section Model.
Context {T : Type} {Sc : Scalar T}.

(* /repo/src/physics/single_chain/swfjc/thermodynamics/isometric/mod.rs:32-42 *)
Definition init (number_of_links : Z) (link_length : T) (hinge_mass : T) (well_width : T) : t T :=
  {| hinge_mass := hinge_mass; link_length := link_length; number_of_links := number_of_links;
      well_width := well_width; legendre := O_swfjc_isometric_legendre.init number_of_links
      link_length hinge_mass well_width |}.

End Model.
End O_swfjc_isometric.

(** /repo/src/physics/single_chain/swfjc/thermodynamics/isotensional/mod.rs: struct SWFJC *)
Module O_swfjc_isotensional.
(* /repo/src/physics/single_chain/swfjc/thermodynamics/isotensional/mod.rs:21-37 *)
Record t {T : Type} := { hinge_mass : T; link_length : T; number_of_links : Z; well_width : T; legendre : O_swfjc_isotensional_legendre.t T }.
Arguments t : clear implicits.
Section Model.
Context {T : Type} {Sc : Scalar T}.

(* /repo/src/physics/single_chain/swfjc/thermodynamics/isotensional/mod.rs:127-137 *)
Definition init (number_of_links : Z) (link_length : T) (hinge_mass : T) (well_width : T) : t T :=
  {| hinge_mass := hinge_mass; link_length := link_length; number_of_links := number_of_links;
      well_width := well_width; legendre := O_swfjc_isotensional_legendre.init number_of_links
      link_length hinge_mass well_width |}.

(* /repo/src/physics/single_chain/swfjc/thermodynamics/isotensional/mod.rs:139-142 *)
Definition end_to_end_length (self : t T) (force : T) (temperature : T) : T :=
  swfjc_isotensional.end_to_end_length (number_of_links self) (link_length self) (well_width self)
      force temperature.

(* /repo/src/physics/single_chain/swfjc/thermodynamics/isotensional/mod.rs:144-147 *)
Definition end_to_end_length_per_link (self : t T) (force : T) (temperature : T) : T :=
  swfjc_isotensional.end_to_end_length_per_link (link_length self) (well_width self) force
      temperature.

(* /repo/src/physics/single_chain/swfjc/thermodynamics/isotensional/mod.rs:149-152 *)
Definition nondimensional_end_to_end_length (self : t T) (nondimensional_force : T) : T :=
  swfjc_isotensional.nondimensional_end_to_end_length (number_of_links self) (link_length self)
      (well_width self) nondimensional_force.

(* /repo/src/physics/single_chain/swfjc/thermodynamics/isotensional/mod.rs:154-157 *)
Definition nondimensional_end_to_end_length_per_link (self : t T) (nondimensional_force : T) : T :=
  swfjc_isotensional.nondimensional_end_to_end_length_per_link (link_length self) (well_width self)
      nondimensional_force.

(* /repo/src/physics/single_chain/swfjc/thermodynamics/isotensional/mod.rs:159-162 *)
Definition gibbs_free_energy (self : t T) (force : T) (temperature : T) : T :=
  swfjc_isotensional.gibbs_free_energy (number_of_links self) (link_length self) (hinge_mass self)
      (well_width self) force temperature.

(* /repo/src/physics/single_chain/swfjc/thermodynamics/isotensional/mod.rs:164-167 *)
Definition gibbs_free_energy_per_link (self : t T) (force : T) (temperature : T) : T :=
  swfjc_isotensional.gibbs_free_energy_per_link (link_length self) (hinge_mass self) (well_width
      self) force temperature.

(* /repo/src/physics/single_chain/swfjc/thermodynamics/isotensional/mod.rs:169-172 *)
Definition relative_gibbs_free_energy (self : t T) (force : T) (temperature : T) : T :=
  swfjc_isotensional.relative_gibbs_free_energy (number_of_links self) (link_length self)
      (well_width self) force temperature.

(* /repo/src/physics/single_chain/swfjc/thermodynamics/isotensional/mod.rs:174-177 *)
Definition relative_gibbs_free_energy_per_link (self : t T) (force : T) (temperature : T) : T :=
  swfjc_isotensional.relative_gibbs_free_energy_per_link (link_length self) (well_width self) force
      temperature.

(* /repo/src/physics/single_chain/swfjc/thermodynamics/isotensional/mod.rs:179-182 *)
Definition nondimensional_gibbs_free_energy (self : t T) (nondimensional_force : T) (temperature :
    T) : T :=
  swfjc_isotensional.nondimensional_gibbs_free_energy (number_of_links self) (link_length self)
      (hinge_mass self) (well_width self) nondimensional_force temperature.

(* /repo/src/physics/single_chain/swfjc/thermodynamics/isotensional/mod.rs:184-187 *)
Definition nondimensional_gibbs_free_energy_per_link (self : t T) (nondimensional_force : T)
    (temperature : T) : T :=
  swfjc_isotensional.nondimensional_gibbs_free_energy_per_link (link_length self) (hinge_mass self)
      (well_width self) nondimensional_force temperature.

(* /repo/src/physics/single_chain/swfjc/thermodynamics/isotensional/mod.rs:189-192 *)
Definition nondimensional_relative_gibbs_free_energy (self : t T) (nondimensional_force : T) : T :=
  swfjc_isotensional.nondimensional_relative_gibbs_free_energy (number_of_links self) (link_length
      self) (well_width self) nondimensional_force.

(* /repo/src/physics/single_chain/swfjc/thermodynamics/isotensional/mod.rs:194-197 *)
Definition nondimensional_relative_gibbs_free_energy_per_link (self : t T) (nondimensional_force :
    T) : T :=
  swfjc_isotensional.nondimensional_relative_gibbs_free_energy_per_link (link_length self)
      (well_width self) nondimensional_force.

End Model.
End O_swfjc_isotensional.

(** /repo/src/physics/single_chain/swfjc/thermodynamics/mod.rs: struct SWFJC *)
Module O_swfjc_thermodynamics.
(* /repo/src/physics/single_chain/swfjc/thermodynamics/mod.rs:13-32 *)
Record t {T : Type} := { hinge_mass : T; link_length : T; number_of_links : Z; well_width : T; isometric : O_swfjc_isometric.t T; isotensional : O_swfjc_isotensional.t T }.
Arguments t : clear implicits.
Section Model.
Context {T : Type} {Sc : Scalar T}.

(* /repo/src/physics/single_chain/swfjc/thermodynamics/mod.rs:38-49 *)
Definition init (number_of_links : Z) (link_length : T) (hinge_mass : T) (well_width : T) : t T :=
  {| hinge_mass := hinge_mass; link_length := link_length; number_of_links := number_of_links;
      well_width := well_width; isometric := O_swfjc_isometric.init number_of_links link_length
      hinge_mass well_width; isotensional := O_swfjc_isotensional.init number_of_links link_length
      hinge_mass well_width |}.

End Model.
End O_swfjc_thermodynamics.

(** /repo/src/physics/single_chain/swfjc/mod.rs: struct SWFJC *)
Module O_swfjc.
(* /repo/src/physics/single_chain/swfjc/mod.rs:10-26 *)
Record t {T : Type} := { hinge_mass : T; link_length : T; number_of_links : Z; well_width : T; thermodynamics : O_swfjc_thermodynamics.t T }.
Arguments t : clear implicits.
Section Model.
Context {T : Type} {Sc : Scalar T}.

(* /repo/src/physics/single_chain/swfjc/mod.rs:32-42 *)
Definition init (number_of_links : Z) (link_length : T) (hinge_mass : T) (well_width : T) : t T :=
  {| hinge_mass := hinge_mass; link_length := link_length; number_of_links := number_of_links;
      well_width := well_width; thermodynamics := O_swfjc_thermodynamics.init number_of_links
      link_length hinge_mass well_width |}.

End Model.
End O_swfjc.

