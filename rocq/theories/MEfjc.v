(** Extensible freely jointed chain model.
    Generated by tools/translate.py from the files cited at each definition. *)
From Coq Require Import ZArith List Bool.
From Verif Require Import Scalar MMath MConst.
Import ListNotations.
Local Open Scope scalar_scope.

(** /repo/src/physics/single_chain/efjc/thermodynamics/isometric/asymptotic/alternative/legendre/mod.rs *)
Module efjc_isometric_asymptotic_alternative_legendre.
Section Model.
Context {T : Type} {Sc : Scalar T}.

(* /repo/src/physics/single_chain/efjc/thermodynamics/isometric/asymptotic/alternative/legendre/mod.rs:45-56 *)
Definition nondimensional_force (nondimensional_link_stiffness : T)
    (nondimensional_end_to_end_length_per_link : T) : T :=
  let guess := if nondimensional_end_to_end_length_per_link <? sdec 1 0 then math.inverse_langevin
      nondimensional_end_to_end_length_per_link else nondimensional_link_stiffness *
      (nondimensional_end_to_end_length_per_link - sdec 1 0) in
  math.inverse_newton_raphson nondimensional_end_to_end_length_per_link (fun nondimensional_force =>
      sdec 1 0 / stanh nondimensional_force - sdec 1 0 / nondimensional_force +
      (nondimensional_force + sdec 1 0 / stanh nondimensional_force - nondimensional_force / spowi
      (ssinh nondimensional_force) 2) / nondimensional_link_stiffness) (fun nondimensional_force =>
      sdec 1 0 / spowi nondimensional_force 2 - sdec 1 0 / spowi (ssinh nondimensional_force) 2 +
      (sdec 1 0 + sdec 2 0 * (nondimensional_force / stanh nondimensional_force - sdec 1 0) / spowi
      (ssinh nondimensional_force) 2) / nondimensional_link_stiffness) guess (sdec 1 6) 100.

(* /repo/src/physics/single_chain/efjc/thermodynamics/isometric/asymptotic/alternative/legendre/mod.rs:39-42 *)
Definition force (number_of_links : Z) (link_length : T) (link_stiffness : T) (end_to_end_length :
    T) (temperature : T) : T :=
  BOLTZMANN_CONSTANT * temperature / link_length * nondimensional_force (link_stiffness * spowi
      link_length 2 / BOLTZMANN_CONSTANT / temperature) (end_to_end_length / (sofZ number_of_links *
      link_length)).

(* /repo/src/physics/single_chain/efjc/thermodynamics/isometric/asymptotic/alternative/legendre/mod.rs:89-93 *)
Definition nondimensional_helmholtz_free_energy_per_link (number_of_links : Z) (link_length : T)
    (hinge_mass : T) (nondimensional_link_stiffness : T) (nondimensional_end_to_end_length_per_link
    : T) (temperature : T) : T :=
  let nondimensional_force := nondimensional_force nondimensional_link_stiffness
      nondimensional_end_to_end_length_per_link in
  - sln (ssinh nondimensional_force / nondimensional_force) - (sdec 5 1 * spowi nondimensional_force
      2 + nondimensional_force / stanh nondimensional_force) / nondimensional_link_stiffness +
      nondimensional_force * nondimensional_end_to_end_length_per_link - (sdec 1 0 - sdec 1 0 / sofZ
      number_of_links) * (sdec 5 1 * sln (sdec 2 0 * spi * spowi link_length 2 /
      nondimensional_link_stiffness) + sln (sdec 8 0 * spowi spi 2 * hinge_mass * spowi link_length
      2 * BOLTZMANN_CONSTANT * temperature / spowi PLANCK_CONSTANT 2)).

(* /repo/src/physics/single_chain/efjc/thermodynamics/isometric/asymptotic/alternative/legendre/mod.rs:65-68 *)
Definition helmholtz_free_energy_per_link (number_of_links : Z) (link_length : T) (hinge_mass : T)
    (link_stiffness : T) (end_to_end_length : T) (temperature : T) : T :=
  BOLTZMANN_CONSTANT * temperature * nondimensional_helmholtz_free_energy_per_link number_of_links
      link_length hinge_mass (link_stiffness * spowi link_length 2 / BOLTZMANN_CONSTANT /
      temperature) (end_to_end_length / sofZ number_of_links / link_length) temperature.

(* /repo/src/physics/single_chain/efjc/thermodynamics/isometric/asymptotic/alternative/legendre/mod.rs:77-80 *)
Definition relative_helmholtz_free_energy_per_link (number_of_links : Z) (link_length : T)
    (link_stiffness : T) (end_to_end_length : T) (temperature : T) : T :=
  helmholtz_free_energy_per_link number_of_links link_length (sdec 1 0) link_stiffness
      end_to_end_length temperature - helmholtz_free_energy_per_link number_of_links link_length
      (sdec 1 0) link_stiffness (ZERO * sofZ number_of_links * link_length) temperature.

(* /repo/src/physics/single_chain/efjc/thermodynamics/isometric/asymptotic/alternative/legendre/mod.rs:83-86 *)
Definition nondimensional_helmholtz_free_energy (number_of_links : Z) (link_length : T) (hinge_mass
    : T) (nondimensional_link_stiffness : T) (nondimensional_end_to_end_length_per_link : T)
    (temperature : T) : T :=
  sofZ number_of_links * nondimensional_helmholtz_free_energy_per_link number_of_links link_length
      hinge_mass nondimensional_link_stiffness nondimensional_end_to_end_length_per_link
      temperature.

(* /repo/src/physics/single_chain/efjc/thermodynamics/isometric/asymptotic/alternative/legendre/mod.rs:59-62 *)
Definition helmholtz_free_energy (number_of_links : Z) (link_length : T) (hinge_mass : T)
    (link_stiffness : T) (end_to_end_length : T) (temperature : T) : T :=
  BOLTZMANN_CONSTANT * temperature * nondimensional_helmholtz_free_energy number_of_links
      link_length hinge_mass (link_stiffness * spowi link_length 2 / BOLTZMANN_CONSTANT /
      temperature) (end_to_end_length / sofZ number_of_links / link_length) temperature.

(* /repo/src/physics/single_chain/efjc/thermodynamics/isometric/asymptotic/alternative/legendre/mod.rs:71-74 *)
Definition relative_helmholtz_free_energy (number_of_links : Z) (link_length : T) (link_stiffness :
    T) (end_to_end_length : T) (temperature : T) : T :=
  helmholtz_free_energy number_of_links link_length (sdec 1 0) link_stiffness end_to_end_length
      temperature - helmholtz_free_energy number_of_links link_length (sdec 1 0) link_stiffness
      (ZERO * sofZ number_of_links * link_length) temperature.

(* /repo/src/physics/single_chain/efjc/thermodynamics/isometric/asymptotic/alternative/legendre/mod.rs:96-99 *)
Definition nondimensional_relative_helmholtz_free_energy (number_of_links : Z)
    (nondimensional_link_stiffness : T) (nondimensional_end_to_end_length_per_link : T) : T :=
  nondimensional_helmholtz_free_energy number_of_links (sdec 1 0) (sdec 1 0)
      nondimensional_link_stiffness nondimensional_end_to_end_length_per_link (sdec 300 0) -
      nondimensional_helmholtz_free_energy number_of_links (sdec 1 0) (sdec 1 0)
      nondimensional_link_stiffness ZERO (sdec 300 0).

(* /repo/src/physics/single_chain/efjc/thermodynamics/isometric/asymptotic/alternative/legendre/mod.rs:102-105 *)
Definition nondimensional_relative_helmholtz_free_energy_per_link (nondimensional_link_stiffness :
    T) (nondimensional_end_to_end_length_per_link : T) : T :=
  nondimensional_helmholtz_free_energy_per_link 8 (sdec 1 0) (sdec 1 0)
      nondimensional_link_stiffness nondimensional_end_to_end_length_per_link (sdec 300 0) -
      nondimensional_helmholtz_free_energy_per_link 8 (sdec 1 0) (sdec 1 0)
      nondimensional_link_stiffness ZERO (sdec 300 0).

End Model.
End efjc_isometric_asymptotic_alternative_legendre.

(** /repo/src/physics/single_chain/efjc/thermodynamics/isometric/asymptotic/legendre/mod.rs *)
Module efjc_isometric_asymptotic_legendre.
Section Model.
Context {T : Type} {Sc : Scalar T}.

(* /repo/src/physics/single_chain/efjc/thermodynamics/isometric/asymptotic/legendre/mod.rs:45-56 *)
Definition nondimensional_force (nondimensional_link_stiffness : T)
    (nondimensional_end_to_end_length_per_link : T) : T :=
  let guess := if nondimensional_end_to_end_length_per_link <? sdec 1 0 then math.inverse_langevin
      nondimensional_end_to_end_length_per_link else nondimensional_link_stiffness *
      (nondimensional_end_to_end_length_per_link - sdec 1 0) in
  math.inverse_newton_raphson nondimensional_end_to_end_length_per_link (fun nondimensional_force =>
      sdec 1 0 / stanh nondimensional_force - sdec 1 0 / nondimensional_force + nondimensional_force
      / nondimensional_link_stiffness * (sdec 1 0 + (stanh nondimensional_force - sdec 1 0 / stanh
      nondimensional_force + sdec 1 0 / nondimensional_force) / (stanh nondimensional_force +
      nondimensional_force / nondimensional_link_stiffness))) (fun nondimensional_force => sdec 1 0
      / spowi nondimensional_force 2 - sdec 1 0 / spowi (ssinh nondimensional_force) 2 +
      (nondimensional_link_stiffness * spowi nondimensional_force 2 / spowi (ssinh
      nondimensional_force) 4 - (sdec 2 0 * nondimensional_link_stiffness + sdec 1 0) *
      (nondimensional_link_stiffness - spowi nondimensional_force 2) / spowi (ssinh
      nondimensional_force) 2 + sdec 2 0 * nondimensional_link_stiffness * nondimensional_force /
      stanh nondimensional_force * (nondimensional_link_stiffness / spowi (ssinh
      nondimensional_force) 2 + sdec 1 0) + (nondimensional_link_stiffness - sdec 1 0) *
      nondimensional_link_stiffness + spowi nondimensional_force 2) / spowi
      (nondimensional_link_stiffness + nondimensional_force / stanh nondimensional_force) 2 /
      nondimensional_link_stiffness) guess (sdec 1 6) 100.

(* /repo/src/physics/single_chain/efjc/thermodynamics/isometric/asymptotic/legendre/mod.rs:39-42 *)
Definition force (number_of_links : Z) (link_length : T) (link_stiffness : T) (end_to_end_length :
    T) (temperature : T) : T :=
  BOLTZMANN_CONSTANT * temperature / link_length * nondimensional_force (link_stiffness * spowi
      link_length 2 / BOLTZMANN_CONSTANT / temperature) (end_to_end_length / (sofZ number_of_links *
      link_length)).

(* /repo/src/physics/single_chain/efjc/thermodynamics/isometric/asymptotic/legendre/mod.rs:89-93 *)
Definition nondimensional_helmholtz_free_energy_per_link (number_of_links : Z) (link_length : T)
    (hinge_mass : T) (nondimensional_link_stiffness : T) (nondimensional_end_to_end_length_per_link
    : T) (temperature : T) : T :=
  let nondimensional_force := nondimensional_force nondimensional_link_stiffness
      nondimensional_end_to_end_length_per_link in
  - sln (ssinh nondimensional_force / nondimensional_force) - sdec 5 1 * spowi nondimensional_force
      2 / nondimensional_link_stiffness - sln (sdec 1 0 + nondimensional_force / stanh
      nondimensional_force / nondimensional_link_stiffness) + nondimensional_force *
      nondimensional_end_to_end_length_per_link - (sdec 1 0 - sdec 1 0 / sofZ number_of_links) *
      (sdec 5 1 * sln (sdec 2 0 * spi * spowi link_length 2 / nondimensional_link_stiffness) + sln
      (sdec 8 0 * spowi spi 2 * hinge_mass * spowi link_length 2 * BOLTZMANN_CONSTANT * temperature
      / spowi PLANCK_CONSTANT 2)).

(* /repo/src/physics/single_chain/efjc/thermodynamics/isometric/asymptotic/legendre/mod.rs:65-68 *)
Definition helmholtz_free_energy_per_link (number_of_links : Z) (link_length : T) (hinge_mass : T)
    (link_stiffness : T) (end_to_end_length : T) (temperature : T) : T :=
  BOLTZMANN_CONSTANT * temperature * nondimensional_helmholtz_free_energy_per_link number_of_links
      link_length hinge_mass (link_stiffness * spowi link_length 2 / BOLTZMANN_CONSTANT /
      temperature) (end_to_end_length / sofZ number_of_links / link_length) temperature.

(* /repo/src/physics/single_chain/efjc/thermodynamics/isometric/asymptotic/legendre/mod.rs:77-80 *)
Definition relative_helmholtz_free_energy_per_link (number_of_links : Z) (link_length : T)
    (link_stiffness : T) (end_to_end_length : T) (temperature : T) : T :=
  helmholtz_free_energy_per_link number_of_links link_length (sdec 1 0) link_stiffness
      end_to_end_length temperature - helmholtz_free_energy_per_link number_of_links link_length
      (sdec 1 0) link_stiffness (ZERO * sofZ number_of_links * link_length) temperature.

(* /repo/src/physics/single_chain/efjc/thermodynamics/isometric/asymptotic/legendre/mod.rs:83-86 *)
Definition nondimensional_helmholtz_free_energy (number_of_links : Z) (link_length : T) (hinge_mass
    : T) (nondimensional_link_stiffness : T) (nondimensional_end_to_end_length_per_link : T)
    (temperature : T) : T :=
  sofZ number_of_links * nondimensional_helmholtz_free_energy_per_link number_of_links link_length
      hinge_mass nondimensional_link_stiffness nondimensional_end_to_end_length_per_link
      temperature.

(* /repo/src/physics/single_chain/efjc/thermodynamics/isometric/asymptotic/legendre/mod.rs:59-62 *)
Definition helmholtz_free_energy (number_of_links : Z) (link_length : T) (hinge_mass : T)
    (link_stiffness : T) (end_to_end_length : T) (temperature : T) : T :=
  BOLTZMANN_CONSTANT * temperature * nondimensional_helmholtz_free_energy number_of_links
      link_length hinge_mass (link_stiffness * spowi link_length 2 / BOLTZMANN_CONSTANT /
      temperature) (end_to_end_length / sofZ number_of_links / link_length) temperature.

(* /repo/src/physics/single_chain/efjc/thermodynamics/isometric/asymptotic/legendre/mod.rs:71-74 *)
Definition relative_helmholtz_free_energy (number_of_links : Z) (link_length : T) (link_stiffness :
    T) (end_to_end_length : T) (temperature : T) : T :=
  helmholtz_free_energy number_of_links link_length (sdec 1 0) link_stiffness end_to_end_length
      temperature - helmholtz_free_energy number_of_links link_length (sdec 1 0) link_stiffness
      (ZERO * sofZ number_of_links * link_length) temperature.

(* /repo/src/physics/single_chain/efjc/thermodynamics/isometric/asymptotic/legendre/mod.rs:96-99 *)
Definition nondimensional_relative_helmholtz_free_energy (number_of_links : Z)
    (nondimensional_link_stiffness : T) (nondimensional_end_to_end_length_per_link : T) : T :=
  nondimensional_helmholtz_free_energy number_of_links (sdec 1 0) (sdec 1 0)
      nondimensional_link_stiffness nondimensional_end_to_end_length_per_link (sdec 300 0) -
      nondimensional_helmholtz_free_energy number_of_links (sdec 1 0) (sdec 1 0)
      nondimensional_link_stiffness ZERO (sdec 300 0).

(* /repo/src/physics/single_chain/efjc/thermodynamics/isometric/asymptotic/legendre/mod.rs:102-105 *)
Definition nondimensional_relative_helmholtz_free_energy_per_link (nondimensional_link_stiffness :
    T) (nondimensional_end_to_end_length_per_link : T) : T :=
  nondimensional_helmholtz_free_energy_per_link 8 (sdec 1 0) (sdec 1 0)
      nondimensional_link_stiffness nondimensional_end_to_end_length_per_link (sdec 300 0) -
      nondimensional_helmholtz_free_energy_per_link 8 (sdec 1 0) (sdec 1 0)
      nondimensional_link_stiffness ZERO (sdec 300 0).

End Model.
End efjc_isometric_asymptotic_legendre.

(** /repo/src/physics/single_chain/efjc/thermodynamics/isometric/asymptotic/reduced/legendre/mod.rs *)
Module efjc_isometric_asymptotic_reduced_legendre.
Section Model.
Context {T : Type} {Sc : Scalar T}.

(* /repo/src/physics/single_chain/efjc/thermodynamics/isometric/asymptotic/reduced/legendre/mod.rs:45-56 *)
Definition nondimensional_force (nondimensional_link_stiffness : T)
    (nondimensional_end_to_end_length_per_link : T) : T :=
  let guess := if nondimensional_end_to_end_length_per_link <? sdec 1 0 then math.inverse_langevin
      nondimensional_end_to_end_length_per_link else nondimensional_link_stiffness *
      (nondimensional_end_to_end_length_per_link - sdec 1 0) in
  math.inverse_newton_raphson nondimensional_end_to_end_length_per_link (fun nondimensional_force =>
      sdec 1 0 / stanh nondimensional_force - sdec 1 0 / nondimensional_force + nondimensional_force
      / nondimensional_link_stiffness) (fun nondimensional_force => sdec 1 0 / spowi
      nondimensional_force 2 - sdec 1 0 / spowi (ssinh nondimensional_force) 2 + sdec 1 0 /
      nondimensional_link_stiffness) guess (sdec 1 6) 100.

(* /repo/src/physics/single_chain/efjc/thermodynamics/isometric/asymptotic/reduced/legendre/mod.rs:39-42 *)
Definition force (number_of_links : Z) (link_length : T) (link_stiffness : T) (end_to_end_length :
    T) (temperature : T) : T :=
  BOLTZMANN_CONSTANT * temperature / link_length * nondimensional_force (link_stiffness * spowi
      link_length 2 / BOLTZMANN_CONSTANT / temperature) (end_to_end_length / (sofZ number_of_links *
      link_length)).

(* /repo/src/physics/single_chain/efjc/thermodynamics/isometric/asymptotic/reduced/legendre/mod.rs:89-93 *)
Definition nondimensional_helmholtz_free_energy_per_link (number_of_links : Z) (link_length : T)
    (hinge_mass : T) (nondimensional_link_stiffness : T) (nondimensional_end_to_end_length_per_link
    : T) (temperature : T) : T :=
  let nondimensional_force := nondimensional_force nondimensional_link_stiffness
      nondimensional_end_to_end_length_per_link in
  - sln (ssinh nondimensional_force / nondimensional_force) - sdec 5 1 * spowi nondimensional_force
      2 / nondimensional_link_stiffness + nondimensional_force *
      nondimensional_end_to_end_length_per_link - (sdec 1 0 - sdec 1 0 / sofZ number_of_links) *
      (sdec 5 1 * sln (sdec 2 0 * spi * spowi link_length 2 / nondimensional_link_stiffness) + sln
      (sdec 8 0 * spowi spi 2 * hinge_mass * spowi link_length 2 * BOLTZMANN_CONSTANT * temperature
      / spowi PLANCK_CONSTANT 2)).

(* /repo/src/physics/single_chain/efjc/thermodynamics/isometric/asymptotic/reduced/legendre/mod.rs:65-68 *)
Definition helmholtz_free_energy_per_link (number_of_links : Z) (link_length : T) (hinge_mass : T)
    (link_stiffness : T) (end_to_end_length : T) (temperature : T) : T :=
  BOLTZMANN_CONSTANT * temperature * nondimensional_helmholtz_free_energy_per_link number_of_links
      link_length hinge_mass (link_stiffness * spowi link_length 2 / BOLTZMANN_CONSTANT /
      temperature) (end_to_end_length / sofZ number_of_links / link_length) temperature.

(* /repo/src/physics/single_chain/efjc/thermodynamics/isometric/asymptotic/reduced/legendre/mod.rs:77-80 *)
Definition relative_helmholtz_free_energy_per_link (number_of_links : Z) (link_length : T)
    (link_stiffness : T) (end_to_end_length : T) (temperature : T) : T :=
  helmholtz_free_energy_per_link number_of_links link_length (sdec 1 0) link_stiffness
      end_to_end_length temperature - helmholtz_free_energy_per_link number_of_links link_length
      (sdec 1 0) link_stiffness (ZERO * sofZ number_of_links * link_length) temperature.

(* /repo/src/physics/single_chain/efjc/thermodynamics/isometric/asymptotic/reduced/legendre/mod.rs:83-86 *)
Definition nondimensional_helmholtz_free_energy (number_of_links : Z) (link_length : T) (hinge_mass
    : T) (nondimensional_link_stiffness : T) (nondimensional_end_to_end_length_per_link : T)
    (temperature : T) : T :=
  sofZ number_of_links * nondimensional_helmholtz_free_energy_per_link number_of_links link_length
      hinge_mass nondimensional_link_stiffness nondimensional_end_to_end_length_per_link
      temperature.

(* /repo/src/physics/single_chain/efjc/thermodynamics/isometric/asymptotic/reduced/legendre/mod.rs:59-62 *)
Definition helmholtz_free_energy (number_of_links : Z) (link_length : T) (hinge_mass : T)
    (link_stiffness : T) (end_to_end_length : T) (temperature : T) : T :=
  BOLTZMANN_CONSTANT * temperature * nondimensional_helmholtz_free_energy number_of_links
      link_length hinge_mass (link_stiffness * spowi link_length 2 / BOLTZMANN_CONSTANT /
      temperature) (end_to_end_length / sofZ number_of_links / link_length) temperature.

(* /repo/src/physics/single_chain/efjc/thermodynamics/isometric/asymptotic/reduced/legendre/mod.rs:71-74 *)
Definition relative_helmholtz_free_energy (number_of_links : Z) (link_length : T) (link_stiffness :
    T) (end_to_end_length : T) (temperature : T) : T :=
  helmholtz_free_energy number_of_links link_length (sdec 1 0) link_stiffness end_to_end_length
      temperature - helmholtz_free_energy number_of_links link_length (sdec 1 0) link_stiffness
      (ZERO * sofZ number_of_links * link_length) temperature.

(* /repo/src/physics/single_chain/efjc/thermodynamics/isometric/asymptotic/reduced/legendre/mod.rs:96-99 *)
Definition nondimensional_relative_helmholtz_free_energy (number_of_links : Z)
    (nondimensional_link_stiffness : T) (nondimensional_end_to_end_length_per_link : T) : T :=
  nondimensional_helmholtz_free_energy number_of_links (sdec 1 0) (sdec 1 0)
      nondimensional_link_stiffness nondimensional_end_to_end_length_per_link (sdec 300 0) -
      nondimensional_helmholtz_free_energy number_of_links (sdec 1 0) (sdec 1 0)
      nondimensional_link_stiffness ZERO (sdec 300 0).

(* /repo/src/physics/single_chain/efjc/thermodynamics/isometric/asymptotic/reduced/legendre/mod.rs:102-105 *)
Definition nondimensional_relative_helmholtz_free_energy_per_link (nondimensional_link_stiffness :
    T) (nondimensional_end_to_end_length_per_link : T) : T :=
  nondimensional_helmholtz_free_energy_per_link 8 (sdec 1 0) (sdec 1 0)
      nondimensional_link_stiffness nondimensional_end_to_end_length_per_link (sdec 300 0) -
      nondimensional_helmholtz_free_energy_per_link 8 (sdec 1 0) (sdec 1 0)
      nondimensional_link_stiffness ZERO (sdec 300 0).

End Model.
End efjc_isometric_asymptotic_reduced_legendre.

(** /repo/src/physics/single_chain/efjc/thermodynamics/isotensional/mod.rs *)
Module efjc_isotensional.
Section Model.
Context {T : Type} {Sc : Scalar T}.

(* /repo/src/physics/single_chain/efjc/thermodynamics/isotensional/mod.rs:65-70 *)
Definition nondimensional_end_to_end_length_per_link (nondimensional_link_stiffness : T)
    (nondimensional_force : T) : T :=
  let denominator := sdec 4 0 * ssinh nondimensional_force * (sdec 1 0 + nondimensional_force /
      stanh nondimensional_force / nondimensional_link_stiffness) in
  let fraction := ((nondimensional_force / nondimensional_link_stiffness + sdec 1 0) * sexp
      nondimensional_force * math.erf ((nondimensional_force + nondimensional_link_stiffness) /
      ssqrt (sdec 2 0 * nondimensional_link_stiffness)) - (nondimensional_force /
      nondimensional_link_stiffness - sdec 1 0) / sexp nondimensional_force * math.erf
      ((nondimensional_force - nondimensional_link_stiffness) / ssqrt (sdec 2 0 *
      nondimensional_link_stiffness))) / denominator in
  sdec 1 0 / stanh nondimensional_force - sdec 1 0 / nondimensional_force + nondimensional_force /
      nondimensional_link_stiffness * (sdec 1 0 + (stanh nondimensional_force - sdec 1 0 / stanh
      nondimensional_force + sdec 1 0 / nondimensional_force) / (stanh nondimensional_force +
      nondimensional_force / nondimensional_link_stiffness)) + (sexp nondimensional_force * (ssqrt
      (sdec 2 0 / spi / nondimensional_link_stiffness) * (nondimensional_force /
      nondimensional_link_stiffness + sdec 1 0) * sexp (- spowi (nondimensional_force +
      nondimensional_link_stiffness) 2 / sdec 2 0 / nondimensional_link_stiffness) + (sdec 1 0 +
      (sdec 1 0 + nondimensional_force) / nondimensional_link_stiffness)) - sdec 1 0 / sexp
      nondimensional_force * (ssqrt (sdec 2 0 / spi / nondimensional_link_stiffness) *
      (nondimensional_force / nondimensional_link_stiffness - sdec 1 0) * sexp (- spowi
      (nondimensional_force - nondimensional_link_stiffness) 2 / sdec 2 0 /
      nondimensional_link_stiffness) + (sdec 1 0 + (sdec 1 0 - nondimensional_force) /
      nondimensional_link_stiffness) * math.erf ((nondimensional_force -
      nondimensional_link_stiffness) / ssqrt (sdec 2 0 * nondimensional_link_stiffness))) - fraction
      * (sdec 4 0 * (scosh nondimensional_force * (sdec 1 0 + (sdec 1 0 + nondimensional_force /
      stanh nondimensional_force) / nondimensional_link_stiffness) - nondimensional_force /
      nondimensional_link_stiffness / ssinh nondimensional_force))) / denominator / (sdec 1 0 +
      fraction).

(* /repo/src/physics/single_chain/efjc/thermodynamics/isotensional/mod.rs:53-56 *)
Definition end_to_end_length_per_link (link_length : T) (link_stiffness : T) (force : T)
    (temperature : T) : T :=
  link_length * nondimensional_end_to_end_length_per_link (link_stiffness * spowi link_length 2 /
      BOLTZMANN_CONSTANT / temperature) (force * link_length / BOLTZMANN_CONSTANT / temperature).

(* /repo/src/physics/single_chain/efjc/thermodynamics/isotensional/mod.rs:59-62 *)
Definition nondimensional_end_to_end_length (number_of_links : Z) (nondimensional_link_stiffness :
    T) (nondimensional_force : T) : T :=
  sofZ number_of_links * nondimensional_end_to_end_length_per_link nondimensional_link_stiffness
      nondimensional_force.

(* /repo/src/physics/single_chain/efjc/thermodynamics/isotensional/mod.rs:47-50 *)
Definition end_to_end_length (number_of_links : Z) (link_length : T) (link_stiffness : T) (force :
    T) (temperature : T) : T :=
  link_length * nondimensional_end_to_end_length number_of_links (link_stiffness * spowi link_length
      2 / BOLTZMANN_CONSTANT / temperature) (force * link_length / BOLTZMANN_CONSTANT /
      temperature).

(* /repo/src/physics/single_chain/efjc/thermodynamics/isotensional/mod.rs:73-78 *)
Definition gibbs_free_energy (number_of_links : Z) (link_length : T) (hinge_mass : T)
    (link_stiffness : T) (force : T) (temperature : T) : T :=
  let nondimensional_force := force * link_length / BOLTZMANN_CONSTANT / temperature in
  let nondimensional_link_stiffness := link_stiffness * spowi link_length 2 / BOLTZMANN_CONSTANT /
      temperature in
  sofZ number_of_links * BOLTZMANN_CONSTANT * temperature * (- sln (ssinh nondimensional_force /
      nondimensional_force) - sdec 5 1 * spowi nondimensional_force 2 /
      nondimensional_link_stiffness - sln (sdec 1 0 + nondimensional_force / stanh
      nondimensional_force / nondimensional_link_stiffness) - sln (sdec 5 1 + ((nondimensional_force
      / nondimensional_link_stiffness + sdec 1 0) * sexp nondimensional_force * math.erf
      ((nondimensional_force + nondimensional_link_stiffness) / ssqrt (sdec 2 0 *
      nondimensional_link_stiffness)) - (nondimensional_force / nondimensional_link_stiffness - sdec
      1 0) / sexp nondimensional_force * math.erf ((nondimensional_force -
      nondimensional_link_stiffness) / ssqrt (sdec 2 0 * nondimensional_link_stiffness))) / (sdec 4
      0 * ssinh nondimensional_force * (sdec 1 0 + nondimensional_force / stanh nondimensional_force
      / nondimensional_link_stiffness))) - sdec 5 1 * sln (sdec 2 0 * spi * BOLTZMANN_CONSTANT *
      temperature / link_stiffness) - sln (sdec 8 0 * spowi spi 2 * hinge_mass * spowi link_length 2
      * BOLTZMANN_CONSTANT * temperature / spowi PLANCK_CONSTANT 2)).

(* /repo/src/physics/single_chain/efjc/thermodynamics/isotensional/mod.rs:81-86 *)
Definition gibbs_free_energy_per_link (link_length : T) (hinge_mass : T) (link_stiffness : T) (force
    : T) (temperature : T) : T :=
  let nondimensional_force := force * link_length / BOLTZMANN_CONSTANT / temperature in
  let nondimensional_link_stiffness := link_stiffness * spowi link_length 2 / BOLTZMANN_CONSTANT /
      temperature in
  BOLTZMANN_CONSTANT * temperature * (- sln (ssinh nondimensional_force / nondimensional_force) -
      sdec 5 1 * spowi nondimensional_force 2 / nondimensional_link_stiffness - sln (sdec 1 0 +
      nondimensional_force / stanh nondimensional_force / nondimensional_link_stiffness) - sln (sdec
      5 1 + ((nondimensional_force / nondimensional_link_stiffness + sdec 1 0) * sexp
      nondimensional_force * math.erf ((nondimensional_force + nondimensional_link_stiffness) /
      ssqrt (sdec 2 0 * nondimensional_link_stiffness)) - (nondimensional_force /
      nondimensional_link_stiffness - sdec 1 0) / sexp nondimensional_force * math.erf
      ((nondimensional_force - nondimensional_link_stiffness) / ssqrt (sdec 2 0 *
      nondimensional_link_stiffness))) / (sdec 4 0 * ssinh nondimensional_force * (sdec 1 0 +
      nondimensional_force / stanh nondimensional_force / nondimensional_link_stiffness))) - sdec 5
      1 * sln (sdec 2 0 * spi * BOLTZMANN_CONSTANT * temperature / link_stiffness) - sln (sdec 8 0 *
      spowi spi 2 * hinge_mass * spowi link_length 2 * BOLTZMANN_CONSTANT * temperature / spowi
      PLANCK_CONSTANT 2)).

(* /repo/src/physics/single_chain/efjc/thermodynamics/isotensional/mod.rs:89-92 *)
Definition relative_gibbs_free_energy (number_of_links : Z) (link_length : T) (link_stiffness : T)
    (force : T) (temperature : T) : T :=
  gibbs_free_energy number_of_links link_length (sdec 1 0) link_stiffness force temperature -
      gibbs_free_energy number_of_links link_length (sdec 1 0) link_stiffness (ZERO *
      BOLTZMANN_CONSTANT * temperature / link_length) temperature.

(* /repo/src/physics/single_chain/efjc/thermodynamics/isotensional/mod.rs:95-98 *)
Definition relative_gibbs_free_energy_per_link (link_length : T) (link_stiffness : T) (force : T)
    (temperature : T) : T :=
  gibbs_free_energy_per_link link_length (sdec 1 0) link_stiffness force temperature -
      gibbs_free_energy_per_link link_length (sdec 1 0) link_stiffness (ZERO * BOLTZMANN_CONSTANT *
      temperature / link_length) temperature.

(* /repo/src/physics/single_chain/efjc/thermodynamics/isotensional/mod.rs:101-104 *)
Definition nondimensional_gibbs_free_energy (number_of_links : Z) (link_length : T) (hinge_mass : T)
    (nondimensional_link_stiffness : T) (nondimensional_force : T) (temperature : T) : T :=
  sofZ number_of_links * (- sln (ssinh nondimensional_force / nondimensional_force) - sdec 5 1 *
      spowi nondimensional_force 2 / nondimensional_link_stiffness - sln (sdec 1 0 +
      nondimensional_force / stanh nondimensional_force / nondimensional_link_stiffness) - sln (sdec
      5 1 + ((nondimensional_force / nondimensional_link_stiffness + sdec 1 0) * sexp
      nondimensional_force * math.erf ((nondimensional_force + nondimensional_link_stiffness) /
      ssqrt (sdec 2 0 * nondimensional_link_stiffness)) - (nondimensional_force /
      nondimensional_link_stiffness - sdec 1 0) / sexp nondimensional_force * math.erf
      ((nondimensional_force - nondimensional_link_stiffness) / ssqrt (sdec 2 0 *
      nondimensional_link_stiffness))) / (sdec 4 0 * ssinh nondimensional_force * (sdec 1 0 +
      nondimensional_force / stanh nondimensional_force / nondimensional_link_stiffness))) - sdec 5
      1 * sln (sdec 2 0 * spi * spowi link_length 2 / nondimensional_link_stiffness) - sln (sdec 8 0
      * spowi spi 2 * hinge_mass * spowi link_length 2 * BOLTZMANN_CONSTANT * temperature / spowi
      PLANCK_CONSTANT 2)).

(* /repo/src/physics/single_chain/efjc/thermodynamics/isotensional/mod.rs:107-110 *)
Definition nondimensional_gibbs_free_energy_per_link (link_length : T) (hinge_mass : T)
    (nondimensional_link_stiffness : T) (nondimensional_force : T) (temperature : T) : T :=
  - sln (ssinh nondimensional_force / nondimensional_force) - sdec 5 1 * spowi nondimensional_force
      2 / nondimensional_link_stiffness - sln (sdec 1 0 + nondimensional_force / stanh
      nondimensional_force / nondimensional_link_stiffness) - sln (sdec 5 1 + ((nondimensional_force
      / nondimensional_link_stiffness + sdec 1 0) * sexp nondimensional_force * math.erf
      ((nondimensional_force + nondimensional_link_stiffness) / ssqrt (sdec 2 0 *
      nondimensional_link_stiffness)) - (nondimensional_force / nondimensional_link_stiffness - sdec
      1 0) / sexp nondimensional_force * math.erf ((nondimensional_force -
      nondimensional_link_stiffness) / ssqrt (sdec 2 0 * nondimensional_link_stiffness))) / (sdec 4
      0 * ssinh nondimensional_force * (sdec 1 0 + nondimensional_force / stanh nondimensional_force
      / nondimensional_link_stiffness))) - sdec 5 1 * sln (sdec 2 0 * spi * spowi link_length 2 /
      nondimensional_link_stiffness) - sln (sdec 8 0 * spowi spi 2 * hinge_mass * spowi link_length
      2 * BOLTZMANN_CONSTANT * temperature / spowi PLANCK_CONSTANT 2).

(* /repo/src/physics/single_chain/efjc/thermodynamics/isotensional/mod.rs:113-116 *)
Definition nondimensional_relative_gibbs_free_energy (number_of_links : Z)
    (nondimensional_link_stiffness : T) (nondimensional_force : T) : T :=
  nondimensional_gibbs_free_energy number_of_links (sdec 1 0) (sdec 1 0)
      nondimensional_link_stiffness nondimensional_force (sdec 300 0) -
      nondimensional_gibbs_free_energy number_of_links (sdec 1 0) (sdec 1 0)
      nondimensional_link_stiffness ZERO (sdec 300 0).

(* /repo/src/physics/single_chain/efjc/thermodynamics/isotensional/mod.rs:119-122 *)
Definition nondimensional_relative_gibbs_free_energy_per_link (nondimensional_link_stiffness : T)
    (nondimensional_force : T) : T :=
  nondimensional_gibbs_free_energy_per_link (sdec 1 0) (sdec 1 0) nondimensional_link_stiffness
      nondimensional_force (sdec 300 0) - nondimensional_gibbs_free_energy_per_link (sdec 1 0) (sdec
      1 0) nondimensional_link_stiffness ZERO (sdec 300 0).

End Model.
End efjc_isotensional.

(** /repo/src/physics/single_chain/efjc/thermodynamics/isotensional/asymptotic/mod.rs *)
Module efjc_isotensional_asymptotic.
Section Model.
Context {T : Type} {Sc : Scalar T}.

(* /repo/src/physics/single_chain/efjc/thermodynamics/isotensional/asymptotic/mod.rs:64-67 *)
Definition nondimensional_end_to_end_length (number_of_links : Z) (nondimensional_link_stiffness :
    T) (nondimensional_force : T) : T :=
  sofZ number_of_links * (sdec 1 0 / stanh nondimensional_force - sdec 1 0 / nondimensional_force +
      nondimensional_force / nondimensional_link_stiffness * (sdec 1 0 + (stanh nondimensional_force
      - sdec 1 0 / stanh nondimensional_force + sdec 1 0 / nondimensional_force) / (stanh
      nondimensional_force + nondimensional_force / nondimensional_link_stiffness))).

(* /repo/src/physics/single_chain/efjc/thermodynamics/isotensional/asymptotic/mod.rs:52-55 *)
Definition end_to_end_length (number_of_links : Z) (link_length : T) (link_stiffness : T) (force :
    T) (temperature : T) : T :=
  link_length * nondimensional_end_to_end_length number_of_links (link_stiffness * spowi link_length
      2 / BOLTZMANN_CONSTANT / temperature) (force * link_length / BOLTZMANN_CONSTANT /
      temperature).

(* /repo/src/physics/single_chain/efjc/thermodynamics/isotensional/asymptotic/mod.rs:70-73 *)
Definition nondimensional_end_to_end_length_per_link (nondimensional_link_stiffness : T)
    (nondimensional_force : T) : T :=
  sdec 1 0 / stanh nondimensional_force - sdec 1 0 / nondimensional_force + nondimensional_force /
      nondimensional_link_stiffness * (sdec 1 0 + (stanh nondimensional_force - sdec 1 0 / stanh
      nondimensional_force + sdec 1 0 / nondimensional_force) / (stanh nondimensional_force +
      nondimensional_force / nondimensional_link_stiffness)).

(* /repo/src/physics/single_chain/efjc/thermodynamics/isotensional/asymptotic/mod.rs:58-61 *)
Definition end_to_end_length_per_link (link_length : T) (link_stiffness : T) (force : T)
    (temperature : T) : T :=
  link_length * nondimensional_end_to_end_length_per_link (link_stiffness * spowi link_length 2 /
      BOLTZMANN_CONSTANT / temperature) (force * link_length / BOLTZMANN_CONSTANT / temperature).

(* /repo/src/physics/single_chain/efjc/thermodynamics/isotensional/asymptotic/mod.rs:76-81 *)
Definition gibbs_free_energy (number_of_links : Z) (link_length : T) (hinge_mass : T)
    (link_stiffness : T) (force : T) (temperature : T) : T :=
  let nondimensional_force := force * link_length / BOLTZMANN_CONSTANT / temperature in
  let nondimensional_link_stiffness := link_stiffness * spowi link_length 2 / BOLTZMANN_CONSTANT /
      temperature in
  sofZ number_of_links * BOLTZMANN_CONSTANT * temperature * (- sln (ssinh nondimensional_force /
      nondimensional_force) - sdec 5 1 * spowi nondimensional_force 2 /
      nondimensional_link_stiffness - sln (sdec 1 0 + nondimensional_force / stanh
      nondimensional_force / nondimensional_link_stiffness) - sdec 5 1 * sln (sdec 2 0 * spi *
      BOLTZMANN_CONSTANT * temperature / link_stiffness) - sln (sdec 8 0 * spowi spi 2 * hinge_mass
      * spowi link_length 2 * BOLTZMANN_CONSTANT * temperature / spowi PLANCK_CONSTANT 2)).

(* /repo/src/physics/single_chain/efjc/thermodynamics/isotensional/asymptotic/mod.rs:84-89 *)
Definition gibbs_free_energy_per_link (link_length : T) (hinge_mass : T) (link_stiffness : T) (force
    : T) (temperature : T) : T :=
  let nondimensional_force := force * link_length / BOLTZMANN_CONSTANT / temperature in
  let nondimensional_link_stiffness := link_stiffness * spowi link_length 2 / BOLTZMANN_CONSTANT /
      temperature in
  BOLTZMANN_CONSTANT * temperature * (- sln (ssinh nondimensional_force / nondimensional_force) -
      sdec 5 1 * spowi nondimensional_force 2 / nondimensional_link_stiffness - sln (sdec 1 0 +
      nondimensional_force / stanh nondimensional_force / nondimensional_link_stiffness) - sdec 5 1
      * sln (sdec 2 0 * spi * BOLTZMANN_CONSTANT * temperature / link_stiffness) - sln (sdec 8 0 *
      spowi spi 2 * hinge_mass * spowi link_length 2 * BOLTZMANN_CONSTANT * temperature / spowi
      PLANCK_CONSTANT 2)).

(* /repo/src/physics/single_chain/efjc/thermodynamics/isotensional/asymptotic/mod.rs:92-95 *)
Definition relative_gibbs_free_energy (number_of_links : Z) (link_length : T) (link_stiffness : T)
    (force : T) (temperature : T) : T :=
  gibbs_free_energy number_of_links link_length (sdec 1 0) link_stiffness force temperature -
      gibbs_free_energy number_of_links link_length (sdec 1 0) link_stiffness (ZERO *
      BOLTZMANN_CONSTANT * temperature / link_length) temperature.

(* /repo/src/physics/single_chain/efjc/thermodynamics/isotensional/asymptotic/mod.rs:98-101 *)
Definition relative_gibbs_free_energy_per_link (link_length : T) (link_stiffness : T) (force : T)
    (temperature : T) : T :=
  gibbs_free_energy_per_link link_length (sdec 1 0) link_stiffness force temperature -
      gibbs_free_energy_per_link link_length (sdec 1 0) link_stiffness (ZERO * BOLTZMANN_CONSTANT *
      temperature / link_length) temperature.

(* /repo/src/physics/single_chain/efjc/thermodynamics/isotensional/asymptotic/mod.rs:104-107 *)
Definition nondimensional_gibbs_free_energy (number_of_links : Z) (link_length : T) (hinge_mass : T)
    (nondimensional_link_stiffness : T) (nondimensional_force : T) (temperature : T) : T :=
  sofZ number_of_links * (- sln (ssinh nondimensional_force / nondimensional_force) - sdec 5 1 *
      spowi nondimensional_force 2 / nondimensional_link_stiffness - sln (sdec 1 0 +
      nondimensional_force / stanh nondimensional_force / nondimensional_link_stiffness) - sdec 5 1
      * sln (sdec 2 0 * spi * spowi link_length 2 / nondimensional_link_stiffness) - sln (sdec 8 0 *
      spowi spi 2 * hinge_mass * spowi link_length 2 * BOLTZMANN_CONSTANT * temperature / spowi
      PLANCK_CONSTANT 2)).

(* /repo/src/physics/single_chain/efjc/thermodynamics/isotensional/asymptotic/mod.rs:110-113 *)
Definition nondimensional_gibbs_free_energy_per_link (link_length : T) (hinge_mass : T)
    (nondimensional_link_stiffness : T) (nondimensional_force : T) (temperature : T) : T :=
  - sln (ssinh nondimensional_force / nondimensional_force) - sdec 5 1 * spowi nondimensional_force
      2 / nondimensional_link_stiffness - sln (sdec 1 0 + nondimensional_force / stanh
      nondimensional_force / nondimensional_link_stiffness) - sdec 5 1 * sln (sdec 2 0 * spi * spowi
      link_length 2 / nondimensional_link_stiffness) - sln (sdec 8 0 * spowi spi 2 * hinge_mass *
      spowi link_length 2 * BOLTZMANN_CONSTANT * temperature / spowi PLANCK_CONSTANT 2).

(* /repo/src/physics/single_chain/efjc/thermodynamics/isotensional/asymptotic/mod.rs:116-119 *)
Definition nondimensional_relative_gibbs_free_energy (number_of_links : Z)
    (nondimensional_link_stiffness : T) (nondimensional_force : T) : T :=
  nondimensional_gibbs_free_energy number_of_links (sdec 1 0) (sdec 1 0)
      nondimensional_link_stiffness nondimensional_force (sdec 300 0) -
      nondimensional_gibbs_free_energy number_of_links (sdec 1 0) (sdec 1 0)
      nondimensional_link_stiffness ZERO (sdec 300 0).

(* /repo/src/physics/single_chain/efjc/thermodynamics/isotensional/asymptotic/mod.rs:122-125 *)
Definition nondimensional_relative_gibbs_free_energy_per_link (nondimensional_link_stiffness : T)
    (nondimensional_force : T) : T :=
  nondimensional_gibbs_free_energy_per_link (sdec 1 0) (sdec 1 0) nondimensional_link_stiffness
      nondimensional_force (sdec 300 0) - nondimensional_gibbs_free_energy_per_link (sdec 1 0) (sdec
      1 0) nondimensional_link_stiffness ZERO (sdec 300 0).

End Model.
End efjc_isotensional_asymptotic.

(** /repo/src/physics/single_chain/efjc/thermodynamics/isotensional/asymptotic/alternative/mod.rs *)
Module efjc_isotensional_asymptotic_alternative.
Section Model.
Context {T : Type} {Sc : Scalar T}.

(* /repo/src/physics/single_chain/efjc/thermodynamics/isotensional/asymptotic/alternative/mod.rs:40-44 *)
Definition end_to_end_length (number_of_links : Z) (link_length : T) (link_stiffness : T) (force :
    T) (temperature : T) : T :=
  let nondimensional_force := force * link_length / BOLTZMANN_CONSTANT / temperature in
  sofZ number_of_links * link_length * (sdec 1 0 / stanh nondimensional_force - sdec 1 0 /
      nondimensional_force + (nondimensional_force + sdec 1 0 / stanh nondimensional_force -
      nondimensional_force / spowi (ssinh nondimensional_force) 2) / (link_stiffness * spowi
      link_length 2 / BOLTZMANN_CONSTANT / temperature)).

(* /repo/src/physics/single_chain/efjc/thermodynamics/isotensional/asymptotic/alternative/mod.rs:47-51 *)
Definition end_to_end_length_per_link (link_length : T) (link_stiffness : T) (force : T)
    (temperature : T) : T :=
  let nondimensional_force := force * link_length / BOLTZMANN_CONSTANT / temperature in
  link_length * (sdec 1 0 / stanh nondimensional_force - sdec 1 0 / nondimensional_force +
      (nondimensional_force + sdec 1 0 / stanh nondimensional_force - nondimensional_force / spowi
      (ssinh nondimensional_force) 2) / (link_stiffness * spowi link_length 2 / BOLTZMANN_CONSTANT /
      temperature)).

(* /repo/src/physics/single_chain/efjc/thermodynamics/isotensional/asymptotic/alternative/mod.rs:54-57 *)
Definition nondimensional_end_to_end_length (number_of_links : Z) (nondimensional_link_stiffness :
    T) (nondimensional_force : T) : T :=
  sofZ number_of_links * (sdec 1 0 / stanh nondimensional_force - sdec 1 0 / nondimensional_force +
      (nondimensional_force + sdec 1 0 / stanh nondimensional_force - nondimensional_force / spowi
      (ssinh nondimensional_force) 2) / nondimensional_link_stiffness).

(* /repo/src/physics/single_chain/efjc/thermodynamics/isotensional/asymptotic/alternative/mod.rs:60-63 *)
Definition nondimensional_end_to_end_length_per_link (nondimensional_link_stiffness : T)
    (nondimensional_force : T) : T :=
  sdec 1 0 / stanh nondimensional_force - sdec 1 0 / nondimensional_force + (nondimensional_force +
      sdec 1 0 / stanh nondimensional_force - nondimensional_force / spowi (ssinh
      nondimensional_force) 2) / nondimensional_link_stiffness.

(* /repo/src/physics/single_chain/efjc/thermodynamics/isotensional/asymptotic/alternative/mod.rs:66-70 *)
Definition gibbs_free_energy (number_of_links : Z) (link_length : T) (hinge_mass : T)
    (link_stiffness : T) (force : T) (temperature : T) : T :=
  let nondimensional_force := force * link_length / BOLTZMANN_CONSTANT / temperature in
  sofZ number_of_links * BOLTZMANN_CONSTANT * temperature * (- sln (ssinh nondimensional_force /
      nondimensional_force) - (sdec 5 1 * spowi nondimensional_force 2 + nondimensional_force /
      stanh nondimensional_force) / (link_stiffness * spowi link_length 2 / BOLTZMANN_CONSTANT /
      temperature) - sdec 5 1 * sln (sdec 2 0 * spi * BOLTZMANN_CONSTANT * temperature /
      link_stiffness) - sln (sdec 8 0 * spowi spi 2 * hinge_mass * spowi link_length 2 *
      BOLTZMANN_CONSTANT * temperature / spowi PLANCK_CONSTANT 2)).

(* /repo/src/physics/single_chain/efjc/thermodynamics/isotensional/asymptotic/alternative/mod.rs:73-77 *)
Definition gibbs_free_energy_per_link (link_length : T) (hinge_mass : T) (link_stiffness : T) (force
    : T) (temperature : T) : T :=
  let nondimensional_force := force * link_length / BOLTZMANN_CONSTANT / temperature in
  BOLTZMANN_CONSTANT * temperature * (- sln (ssinh nondimensional_force / nondimensional_force) -
      (sdec 5 1 * spowi nondimensional_force 2 + nondimensional_force / stanh nondimensional_force)
      / (link_stiffness * spowi link_length 2 / BOLTZMANN_CONSTANT / temperature) - sdec 5 1 * sln
      (sdec 2 0 * spi * BOLTZMANN_CONSTANT * temperature / link_stiffness) - sln (sdec 8 0 * spowi
      spi 2 * hinge_mass * spowi link_length 2 * BOLTZMANN_CONSTANT * temperature / spowi
      PLANCK_CONSTANT 2)).

(* /repo/src/physics/single_chain/efjc/thermodynamics/isotensional/asymptotic/alternative/mod.rs:80-83 *)
Definition relative_gibbs_free_energy (number_of_links : Z) (link_length : T) (link_stiffness : T)
    (force : T) (temperature : T) : T :=
  gibbs_free_energy number_of_links link_length (sdec 1 0) link_stiffness force temperature -
      gibbs_free_energy number_of_links link_length (sdec 1 0) link_stiffness (ZERO *
      BOLTZMANN_CONSTANT * temperature / link_length) temperature.

(* /repo/src/physics/single_chain/efjc/thermodynamics/isotensional/asymptotic/alternative/mod.rs:86-89 *)
Definition relative_gibbs_free_energy_per_link (link_length : T) (link_stiffness : T) (force : T)
    (temperature : T) : T :=
  gibbs_free_energy_per_link link_length (sdec 1 0) link_stiffness force temperature -
      gibbs_free_energy_per_link link_length (sdec 1 0) link_stiffness (ZERO * BOLTZMANN_CONSTANT *
      temperature / link_length) temperature.

(* /repo/src/physics/single_chain/efjc/thermodynamics/isotensional/asymptotic/alternative/mod.rs:92-95 *)
Definition nondimensional_gibbs_free_energy (number_of_links : Z) (link_length : T) (hinge_mass : T)
    (nondimensional_link_stiffness : T) (nondimensional_force : T) (temperature : T) : T :=
  sofZ number_of_links * (- sln (ssinh nondimensional_force / nondimensional_force) - (sdec 5 1 *
      spowi nondimensional_force 2 + nondimensional_force / stanh nondimensional_force) /
      nondimensional_link_stiffness - sdec 5 1 * sln (sdec 2 0 * spi * spowi link_length 2 /
      nondimensional_link_stiffness) - sln (sdec 8 0 * spowi spi 2 * hinge_mass * spowi link_length
      2 * BOLTZMANN_CONSTANT * temperature / spowi PLANCK_CONSTANT 2)).

(* /repo/src/physics/single_chain/efjc/thermodynamics/isotensional/asymptotic/alternative/mod.rs:98-101 *)
Definition nondimensional_gibbs_free_energy_per_link (link_length : T) (hinge_mass : T)
    (nondimensional_link_stiffness : T) (nondimensional_force : T) (temperature : T) : T :=
  - sln (ssinh nondimensional_force / nondimensional_force) - (sdec 5 1 * spowi nondimensional_force
      2 + nondimensional_force / stanh nondimensional_force) / nondimensional_link_stiffness - sdec
      5 1 * sln (sdec 2 0 * spi * spowi link_length 2 / nondimensional_link_stiffness) - sln (sdec 8
      0 * spowi spi 2 * hinge_mass * spowi link_length 2 * BOLTZMANN_CONSTANT * temperature / spowi
      PLANCK_CONSTANT 2).

(* /repo/src/physics/single_chain/efjc/thermodynamics/isotensional/asymptotic/alternative/mod.rs:104-107 *)
Definition nondimensional_relative_gibbs_free_energy (number_of_links : Z)
    (nondimensional_link_stiffness : T) (nondimensional_force : T) : T :=
  nondimensional_gibbs_free_energy number_of_links (sdec 1 0) (sdec 1 0)
      nondimensional_link_stiffness nondimensional_force (sdec 300 0) -
      nondimensional_gibbs_free_energy number_of_links (sdec 1 0) (sdec 1 0)
      nondimensional_link_stiffness ZERO (sdec 300 0).

(* /repo/src/physics/single_chain/efjc/thermodynamics/isotensional/asymptotic/alternative/mod.rs:110-113 *)
Definition nondimensional_relative_gibbs_free_energy_per_link (nondimensional_link_stiffness : T)
    (nondimensional_force : T) : T :=
  nondimensional_gibbs_free_energy_per_link (sdec 1 0) (sdec 1 0) nondimensional_link_stiffness
      nondimensional_force (sdec 300 0) - nondimensional_gibbs_free_energy_per_link (sdec 1 0) (sdec
      1 0) nondimensional_link_stiffness ZERO (sdec 300 0).

End Model.
End efjc_isotensional_asymptotic_alternative.

(** /repo/src/physics/single_chain/efjc/thermodynamics/isotensional/asymptotic/alternative/legendre/mod.rs *)
Module efjc_isotensional_asymptotic_alternative_legendre.
Section Model.
Context {T : Type} {Sc : Scalar T}.

(* /repo/src/physics/single_chain/efjc/thermodynamics/isotensional/asymptotic/alternative/legendre/mod.rs:64-67 *)
Definition nondimensional_helmholtz_free_energy_per_link (link_length : T) (hinge_mass : T)
    (nondimensional_link_stiffness : T) (nondimensional_force : T) (temperature : T) : T :=
  - sln (ssinh nondimensional_force / nondimensional_force) - (sdec 5 1 * spowi nondimensional_force
      2 + nondimensional_force / stanh nondimensional_force) / nondimensional_link_stiffness - sdec
      5 1 * sln (sdec 2 0 * spi * spowi link_length 2 / nondimensional_link_stiffness) - sln (sdec 8
      0 * spowi spi 2 * hinge_mass * spowi link_length 2 * BOLTZMANN_CONSTANT * temperature / spowi
      PLANCK_CONSTANT 2) + nondimensional_force / stanh nondimensional_force - sdec 1 0 +
      nondimensional_force * (nondimensional_force + sdec 1 0 / stanh nondimensional_force -
      nondimensional_force / spowi (ssinh nondimensional_force) 2) / nondimensional_link_stiffness.

(* /repo/src/physics/single_chain/efjc/thermodynamics/isotensional/asymptotic/alternative/legendre/mod.rs:40-43 *)
Definition helmholtz_free_energy_per_link (link_length : T) (hinge_mass : T) (link_stiffness : T)
    (force : T) (temperature : T) : T :=
  BOLTZMANN_CONSTANT * temperature * nondimensional_helmholtz_free_energy_per_link link_length
      hinge_mass (link_stiffness * spowi link_length 2 / BOLTZMANN_CONSTANT / temperature) (force /
      BOLTZMANN_CONSTANT / temperature * link_length) temperature.

(* /repo/src/physics/single_chain/efjc/thermodynamics/isotensional/asymptotic/alternative/legendre/mod.rs:52-55 *)
Definition relative_helmholtz_free_energy_per_link (link_length : T) (link_stiffness : T) (force :
    T) (temperature : T) : T :=
  helmholtz_free_energy_per_link link_length (sdec 1 0) link_stiffness force temperature -
      helmholtz_free_energy_per_link link_length (sdec 1 0) link_stiffness (ZERO *
      BOLTZMANN_CONSTANT * temperature / link_length) temperature.

(* /repo/src/physics/single_chain/efjc/thermodynamics/isotensional/asymptotic/alternative/legendre/mod.rs:58-61 *)
Definition nondimensional_helmholtz_free_energy (number_of_links : Z) (link_length : T) (hinge_mass
    : T) (nondimensional_link_stiffness : T) (nondimensional_force : T) (temperature : T) : T :=
  sofZ number_of_links * nondimensional_helmholtz_free_energy_per_link link_length hinge_mass
      nondimensional_link_stiffness nondimensional_force temperature.

(* /repo/src/physics/single_chain/efjc/thermodynamics/isotensional/asymptotic/alternative/legendre/mod.rs:34-37 *)
Definition helmholtz_free_energy (number_of_links : Z) (link_length : T) (hinge_mass : T)
    (link_stiffness : T) (force : T) (temperature : T) : T :=
  BOLTZMANN_CONSTANT * temperature * nondimensional_helmholtz_free_energy number_of_links
      link_length hinge_mass (link_stiffness * spowi link_length 2 / BOLTZMANN_CONSTANT /
      temperature) (force / BOLTZMANN_CONSTANT / temperature * link_length) temperature.

(* /repo/src/physics/single_chain/efjc/thermodynamics/isotensional/asymptotic/alternative/legendre/mod.rs:46-49 *)
Definition relative_helmholtz_free_energy (number_of_links : Z) (link_length : T) (link_stiffness :
    T) (force : T) (temperature : T) : T :=
  helmholtz_free_energy number_of_links link_length (sdec 1 0) link_stiffness force temperature -
      helmholtz_free_energy number_of_links link_length (sdec 1 0) link_stiffness (ZERO *
      BOLTZMANN_CONSTANT * temperature / link_length) temperature.

(* /repo/src/physics/single_chain/efjc/thermodynamics/isotensional/asymptotic/alternative/legendre/mod.rs:70-73 *)
Definition nondimensional_relative_helmholtz_free_energy (number_of_links : Z)
    (nondimensional_link_stiffness : T) (nondimensional_force : T) : T :=
  nondimensional_helmholtz_free_energy number_of_links (sdec 1 0) (sdec 1 0)
      nondimensional_link_stiffness nondimensional_force (sdec 300 0) -
      nondimensional_helmholtz_free_energy number_of_links (sdec 1 0) (sdec 1 0)
      nondimensional_link_stiffness ZERO (sdec 300 0).

(* /repo/src/physics/single_chain/efjc/thermodynamics/isotensional/asymptotic/alternative/legendre/mod.rs:76-79 *)
Definition nondimensional_relative_helmholtz_free_energy_per_link (nondimensional_link_stiffness :
    T) (nondimensional_force : T) : T :=
  nondimensional_helmholtz_free_energy_per_link (sdec 1 0) (sdec 1 0) nondimensional_link_stiffness
      nondimensional_force (sdec 300 0) - nondimensional_helmholtz_free_energy_per_link (sdec 1 0)
      (sdec 1 0) nondimensional_link_stiffness ZERO (sdec 300 0).

End Model.
End efjc_isotensional_asymptotic_alternative_legendre.

(** /repo/src/physics/single_chain/efjc/thermodynamics/isotensional/asymptotic/legendre/mod.rs *)
Module efjc_isotensional_asymptotic_legendre.
Section Model.
Context {T : Type} {Sc : Scalar T}.

(* /repo/src/physics/single_chain/efjc/thermodynamics/isotensional/asymptotic/legendre/mod.rs:64-67 *)
Definition nondimensional_helmholtz_free_energy_per_link (link_length : T) (hinge_mass : T)
    (nondimensional_link_stiffness : T) (nondimensional_force : T) (temperature : T) : T :=
  - sln (ssinh nondimensional_force / nondimensional_force) - sdec 5 1 * spowi nondimensional_force
      2 / nondimensional_link_stiffness - sln (sdec 1 0 + nondimensional_force /
      nondimensional_link_stiffness / stanh nondimensional_force) - sdec 5 1 * sln (sdec 2 0 * spi *
      spowi link_length 2 / nondimensional_link_stiffness) - sln (sdec 8 0 * spowi spi 2 *
      hinge_mass * spowi link_length 2 * BOLTZMANN_CONSTANT * temperature / spowi PLANCK_CONSTANT 2)
      + nondimensional_force / stanh nondimensional_force - sdec 1 0 + spowi nondimensional_force 2
      / nondimensional_link_stiffness * (sdec 1 0 + (stanh nondimensional_force - sdec 1 0 / stanh
      nondimensional_force + sdec 1 0 / nondimensional_force) / (stanh nondimensional_force +
      nondimensional_force / nondimensional_link_stiffness)).

(* /repo/src/physics/single_chain/efjc/thermodynamics/isotensional/asymptotic/legendre/mod.rs:40-43 *)
Definition helmholtz_free_energy_per_link (link_length : T) (hinge_mass : T) (link_stiffness : T)
    (force : T) (temperature : T) : T :=
  BOLTZMANN_CONSTANT * temperature * nondimensional_helmholtz_free_energy_per_link link_length
      hinge_mass (link_stiffness * spowi link_length 2 / BOLTZMANN_CONSTANT / temperature) (force /
      BOLTZMANN_CONSTANT / temperature * link_length) temperature.

(* /repo/src/physics/single_chain/efjc/thermodynamics/isotensional/asymptotic/legendre/mod.rs:52-55 *)
Definition relative_helmholtz_free_energy_per_link (link_length : T) (link_stiffness : T) (force :
    T) (temperature : T) : T :=
  helmholtz_free_energy_per_link link_length (sdec 1 0) link_stiffness force temperature -
      helmholtz_free_energy_per_link link_length (sdec 1 0) link_stiffness (ZERO *
      BOLTZMANN_CONSTANT * temperature / link_length) temperature.

(* /repo/src/physics/single_chain/efjc/thermodynamics/isotensional/asymptotic/legendre/mod.rs:58-61 *)
Definition nondimensional_helmholtz_free_energy (number_of_links : Z) (link_length : T) (hinge_mass
    : T) (nondimensional_link_stiffness : T) (nondimensional_force : T) (temperature : T) : T :=
  sofZ number_of_links * nondimensional_helmholtz_free_energy_per_link link_length hinge_mass
      nondimensional_link_stiffness nondimensional_force temperature.

(* /repo/src/physics/single_chain/efjc/thermodynamics/isotensional/asymptotic/legendre/mod.rs:34-37 *)
Definition helmholtz_free_energy (number_of_links : Z) (link_length : T) (hinge_mass : T)
    (link_stiffness : T) (force : T) (temperature : T) : T :=
  BOLTZMANN_CONSTANT * temperature * nondimensional_helmholtz_free_energy number_of_links
      link_length hinge_mass (link_stiffness * spowi link_length 2 / BOLTZMANN_CONSTANT /
      temperature) (force / BOLTZMANN_CONSTANT / temperature * link_length) temperature.

(* /repo/src/physics/single_chain/efjc/thermodynamics/isotensional/asymptotic/legendre/mod.rs:46-49 *)
Definition relative_helmholtz_free_energy (number_of_links : Z) (link_length : T) (link_stiffness :
    T) (force : T) (temperature : T) : T :=
  helmholtz_free_energy number_of_links link_length (sdec 1 0) link_stiffness force temperature -
      helmholtz_free_energy number_of_links link_length (sdec 1 0) link_stiffness (ZERO *
      BOLTZMANN_CONSTANT * temperature / link_length) temperature.

(* /repo/src/physics/single_chain/efjc/thermodynamics/isotensional/asymptotic/legendre/mod.rs:70-73 *)
Definition nondimensional_relative_helmholtz_free_energy (number_of_links : Z)
    (nondimensional_link_stiffness : T) (nondimensional_force : T) : T :=
  nondimensional_helmholtz_free_energy number_of_links (sdec 1 0) (sdec 1 0)
      nondimensional_link_stiffness nondimensional_force (sdec 300 0) -
      nondimensional_helmholtz_free_energy number_of_links (sdec 1 0) (sdec 1 0)
      nondimensional_link_stiffness ZERO (sdec 300 0).

(* /repo/src/physics/single_chain/efjc/thermodynamics/isotensional/asymptotic/legendre/mod.rs:76-79 *)
Definition nondimensional_relative_helmholtz_free_energy_per_link (nondimensional_link_stiffness :
    T) (nondimensional_force : T) : T :=
  nondimensional_helmholtz_free_energy_per_link (sdec 1 0) (sdec 1 0) nondimensional_link_stiffness
      nondimensional_force (sdec 300 0) - nondimensional_helmholtz_free_energy_per_link (sdec 1 0)
      (sdec 1 0) nondimensional_link_stiffness ZERO (sdec 300 0).

End Model.
End efjc_isotensional_asymptotic_legendre.

(** /repo/src/physics/single_chain/efjc/thermodynamics/isotensional/asymptotic/reduced/mod.rs *)
Module efjc_isotensional_asymptotic_reduced.
Section Model.
Context {T : Type} {Sc : Scalar T}.

(* /repo/src/physics/single_chain/efjc/thermodynamics/isotensional/asymptotic/reduced/mod.rs:40-43 *)
Definition end_to_end_length (number_of_links : Z) (link_length : T) (link_stiffness : T) (force :
    T) (temperature : T) : T :=
  sofZ number_of_links * (link_length / stanh (force * link_length / BOLTZMANN_CONSTANT /
      temperature) - BOLTZMANN_CONSTANT * temperature / force + force / link_stiffness).

(* /repo/src/physics/single_chain/efjc/thermodynamics/isotensional/asymptotic/reduced/mod.rs:46-49 *)
Definition end_to_end_length_per_link (link_length : T) (link_stiffness : T) (force : T)
    (temperature : T) : T :=
  link_length / stanh (force * link_length / BOLTZMANN_CONSTANT / temperature) - BOLTZMANN_CONSTANT
      * temperature / force + force / link_stiffness.

(* /repo/src/physics/single_chain/efjc/thermodynamics/isotensional/asymptotic/reduced/mod.rs:52-55 *)
Definition nondimensional_end_to_end_length (number_of_links : Z) (nondimensional_link_stiffness :
    T) (nondimensional_force : T) : T :=
  sofZ number_of_links * (sdec 1 0 / stanh nondimensional_force - sdec 1 0 / nondimensional_force +
      nondimensional_force / nondimensional_link_stiffness).

(* /repo/src/physics/single_chain/efjc/thermodynamics/isotensional/asymptotic/reduced/mod.rs:58-61 *)
Definition nondimensional_end_to_end_length_per_link (nondimensional_link_stiffness : T)
    (nondimensional_force : T) : T :=
  sdec 1 0 / stanh nondimensional_force - sdec 1 0 / nondimensional_force + nondimensional_force /
      nondimensional_link_stiffness.

(* /repo/src/physics/single_chain/efjc/thermodynamics/isotensional/asymptotic/reduced/mod.rs:64-68 *)
Definition gibbs_free_energy (number_of_links : Z) (link_length : T) (hinge_mass : T)
    (link_stiffness : T) (force : T) (temperature : T) : T :=
  let nondimensional_force := force * link_length / BOLTZMANN_CONSTANT / temperature in
  sofZ number_of_links * BOLTZMANN_CONSTANT * temperature * (- sln (ssinh nondimensional_force /
      nondimensional_force) - sdec 5 1 * spowi nondimensional_force 2 / (link_stiffness * spowi
      link_length 2 / BOLTZMANN_CONSTANT / temperature) - sdec 5 1 * sln (sdec 2 0 * spi *
      BOLTZMANN_CONSTANT * temperature / link_stiffness) - sln (sdec 8 0 * spowi spi 2 * hinge_mass
      * spowi link_length 2 * BOLTZMANN_CONSTANT * temperature / spowi PLANCK_CONSTANT 2)).

(* /repo/src/physics/single_chain/efjc/thermodynamics/isotensional/asymptotic/reduced/mod.rs:71-75 *)
Definition gibbs_free_energy_per_link (link_length : T) (hinge_mass : T) (link_stiffness : T) (force
    : T) (temperature : T) : T :=
  let nondimensional_force := force * link_length / BOLTZMANN_CONSTANT / temperature in
  BOLTZMANN_CONSTANT * temperature * (- sln (ssinh nondimensional_force / nondimensional_force) -
      sdec 5 1 * spowi nondimensional_force 2 / (link_stiffness * spowi link_length 2 /
      BOLTZMANN_CONSTANT / temperature) - sdec 5 1 * sln (sdec 2 0 * spi * BOLTZMANN_CONSTANT *
      temperature / link_stiffness) - sln (sdec 8 0 * spowi spi 2 * hinge_mass * spowi link_length 2
      * BOLTZMANN_CONSTANT * temperature / spowi PLANCK_CONSTANT 2)).

(* /repo/src/physics/single_chain/efjc/thermodynamics/isotensional/asymptotic/reduced/mod.rs:78-81 *)
Definition relative_gibbs_free_energy (number_of_links : Z) (link_length : T) (link_stiffness : T)
    (force : T) (temperature : T) : T :=
  gibbs_free_energy number_of_links link_length (sdec 1 0) link_stiffness force temperature -
      gibbs_free_energy number_of_links link_length (sdec 1 0) link_stiffness (ZERO *
      BOLTZMANN_CONSTANT * temperature / link_length) temperature.

(* /repo/src/physics/single_chain/efjc/thermodynamics/isotensional/asymptotic/reduced/mod.rs:84-87 *)
Definition relative_gibbs_free_energy_per_link (link_length : T) (link_stiffness : T) (force : T)
    (temperature : T) : T :=
  gibbs_free_energy_per_link link_length (sdec 1 0) link_stiffness force temperature -
      gibbs_free_energy_per_link link_length (sdec 1 0) link_stiffness (ZERO * BOLTZMANN_CONSTANT *
      temperature / link_length) temperature.

(* /repo/src/physics/single_chain/efjc/thermodynamics/isotensional/asymptotic/reduced/mod.rs:90-93 *)
Definition nondimensional_gibbs_free_energy (number_of_links : Z) (link_length : T) (hinge_mass : T)
    (nondimensional_link_stiffness : T) (nondimensional_force : T) (temperature : T) : T :=
  sofZ number_of_links * (- sln (ssinh nondimensional_force / nondimensional_force) - sdec 5 1 *
      spowi nondimensional_force 2 / nondimensional_link_stiffness - sdec 5 1 * sln (sdec 2 0 * spi
      * spowi link_length 2 / nondimensional_link_stiffness) - sln (sdec 8 0 * spowi spi 2 *
      hinge_mass * spowi link_length 2 * BOLTZMANN_CONSTANT * temperature / spowi PLANCK_CONSTANT
      2)).

(* /repo/src/physics/single_chain/efjc/thermodynamics/isotensional/asymptotic/reduced/mod.rs:96-99 *)
Definition nondimensional_gibbs_free_energy_per_link (link_length : T) (hinge_mass : T)
    (nondimensional_link_stiffness : T) (nondimensional_force : T) (temperature : T) : T :=
  - sln (ssinh nondimensional_force / nondimensional_force) - sdec 5 1 * spowi nondimensional_force
      2 / nondimensional_link_stiffness - sdec 5 1 * sln (sdec 2 0 * spi * spowi link_length 2 /
      nondimensional_link_stiffness) - sln (sdec 8 0 * spowi spi 2 * hinge_mass * spowi link_length
      2 * BOLTZMANN_CONSTANT * temperature / spowi PLANCK_CONSTANT 2).

(* /repo/src/physics/single_chain/efjc/thermodynamics/isotensional/asymptotic/reduced/mod.rs:102-105 *)
Definition nondimensional_relative_gibbs_free_energy (number_of_links : Z)
    (nondimensional_link_stiffness : T) (nondimensional_force : T) : T :=
  nondimensional_gibbs_free_energy number_of_links (sdec 1 0) (sdec 1 0)
      nondimensional_link_stiffness nondimensional_force (sdec 300 0) -
      nondimensional_gibbs_free_energy number_of_links (sdec 1 0) (sdec 1 0)
      nondimensional_link_stiffness ZERO (sdec 300 0).

(* /repo/src/physics/single_chain/efjc/thermodynamics/isotensional/asymptotic/reduced/mod.rs:108-111 *)
Definition nondimensional_relative_gibbs_free_energy_per_link (nondimensional_link_stiffness : T)
    (nondimensional_force : T) : T :=
  nondimensional_gibbs_free_energy_per_link (sdec 1 0) (sdec 1 0) nondimensional_link_stiffness
      nondimensional_force (sdec 300 0) - nondimensional_gibbs_free_energy_per_link (sdec 1 0) (sdec
      1 0) nondimensional_link_stiffness ZERO (sdec 300 0).

End Model.
End efjc_isotensional_asymptotic_reduced.

(** /repo/src/physics/single_chain/efjc/thermodynamics/isotensional/asymptotic/reduced/legendre/mod.rs *)
Module efjc_isotensional_asymptotic_reduced_legendre.
Section Model.
Context {T : Type} {Sc : Scalar T}.

(* /repo/src/physics/single_chain/efjc/thermodynamics/isotensional/asymptotic/reduced/legendre/mod.rs:64-67 *)
Definition nondimensional_helmholtz_free_energy_per_link (link_length : T) (hinge_mass : T)
    (nondimensional_link_stiffness : T) (nondimensional_force : T) (temperature : T) : T :=
  - sln (ssinh nondimensional_force / nondimensional_force) + sdec 5 1 * spowi nondimensional_force
      2 / nondimensional_link_stiffness - sdec 5 1 * sln (sdec 2 0 * spi * spowi link_length 2 /
      nondimensional_link_stiffness) - sln (sdec 8 0 * spowi spi 2 * hinge_mass * spowi link_length
      2 * BOLTZMANN_CONSTANT * temperature / spowi PLANCK_CONSTANT 2) + nondimensional_force / stanh
      nondimensional_force - sdec 1 0.

(* /repo/src/physics/single_chain/efjc/thermodynamics/isotensional/asymptotic/reduced/legendre/mod.rs:40-43 *)
Definition helmholtz_free_energy_per_link (link_length : T) (hinge_mass : T) (link_stiffness : T)
    (force : T) (temperature : T) : T :=
  BOLTZMANN_CONSTANT * temperature * nondimensional_helmholtz_free_energy_per_link link_length
      hinge_mass (link_stiffness * spowi link_length 2 / BOLTZMANN_CONSTANT / temperature) (force /
      BOLTZMANN_CONSTANT / temperature * link_length) temperature.

(* /repo/src/physics/single_chain/efjc/thermodynamics/isotensional/asymptotic/reduced/legendre/mod.rs:52-55 *)
Definition relative_helmholtz_free_energy_per_link (link_length : T) (link_stiffness : T) (force :
    T) (temperature : T) : T :=
  helmholtz_free_energy_per_link link_length (sdec 1 0) link_stiffness force temperature -
      helmholtz_free_energy_per_link link_length (sdec 1 0) link_stiffness (ZERO *
      BOLTZMANN_CONSTANT * temperature / link_length) temperature.

(* /repo/src/physics/single_chain/efjc/thermodynamics/isotensional/asymptotic/reduced/legendre/mod.rs:58-61 *)
Definition nondimensional_helmholtz_free_energy (number_of_links : Z) (link_length : T) (hinge_mass
    : T) (nondimensional_link_stiffness : T) (nondimensional_force : T) (temperature : T) : T :=
  sofZ number_of_links * nondimensional_helmholtz_free_energy_per_link link_length hinge_mass
      nondimensional_link_stiffness nondimensional_force temperature.

(* /repo/src/physics/single_chain/efjc/thermodynamics/isotensional/asymptotic/reduced/legendre/mod.rs:34-37 *)
Definition helmholtz_free_energy (number_of_links : Z) (link_length : T) (hinge_mass : T)
    (link_stiffness : T) (force : T) (temperature : T) : T :=
  BOLTZMANN_CONSTANT * temperature * nondimensional_helmholtz_free_energy number_of_links
      link_length hinge_mass (link_stiffness * spowi link_length 2 / BOLTZMANN_CONSTANT /
      temperature) (force / BOLTZMANN_CONSTANT / temperature * link_length) temperature.

(* /repo/src/physics/single_chain/efjc/thermodynamics/isotensional/asymptotic/reduced/legendre/mod.rs:46-49 *)
Definition relative_helmholtz_free_energy (number_of_links : Z) (link_length : T) (link_stiffness :
    T) (force : T) (temperature : T) : T :=
  helmholtz_free_energy number_of_links link_length (sdec 1 0) link_stiffness force temperature -
      helmholtz_free_energy number_of_links link_length (sdec 1 0) link_stiffness (ZERO *
      BOLTZMANN_CONSTANT * temperature / link_length) temperature.

(* /repo/src/physics/single_chain/efjc/thermodynamics/isotensional/asymptotic/reduced/legendre/mod.rs:70-73 *)
Definition nondimensional_relative_helmholtz_free_energy (number_of_links : Z)
    (nondimensional_link_stiffness : T) (nondimensional_force : T) : T :=
  nondimensional_helmholtz_free_energy number_of_links (sdec 1 0) (sdec 1 0)
      nondimensional_link_stiffness nondimensional_force (sdec 300 0) -
      nondimensional_helmholtz_free_energy number_of_links (sdec 1 0) (sdec 1 0)
      nondimensional_link_stiffness ZERO (sdec 300 0).

(* /repo/src/physics/single_chain/efjc/thermodynamics/isotensional/asymptotic/reduced/legendre/mod.rs:76-79 *)
Definition nondimensional_relative_helmholtz_free_energy_per_link (nondimensional_link_stiffness :
    T) (nondimensional_force : T) : T :=
  nondimensional_helmholtz_free_energy_per_link (sdec 1 0) (sdec 1 0) nondimensional_link_stiffness
      nondimensional_force (sdec 300 0) - nondimensional_helmholtz_free_energy_per_link (sdec 1 0)
      (sdec 1 0) nondimensional_link_stiffness ZERO (sdec 300 0).

End Model.
End efjc_isotensional_asymptotic_reduced_legendre.

(** /repo/src/physics/single_chain/efjc/thermodynamics/isotensional/legendre/mod.rs *)
Module efjc_isotensional_legendre.
Section Model.
Context {T : Type} {Sc : Scalar T}.

(* /repo/src/physics/single_chain/efjc/thermodynamics/isotensional/legendre/mod.rs:65-70 *)
Definition nondimensional_helmholtz_free_energy_per_link (link_length : T) (hinge_mass : T)
    (nondimensional_link_stiffness : T) (nondimensional_force : T) (temperature : T) : T :=
  let denominator := sdec 4 0 * ssinh nondimensional_force * (sdec 1 0 + nondimensional_force /
      stanh nondimensional_force / nondimensional_link_stiffness) in
  let fraction := ((nondimensional_force / nondimensional_link_stiffness + sdec 1 0) * sexp
      nondimensional_force * math.erf ((nondimensional_force + nondimensional_link_stiffness) /
      ssqrt (sdec 2 0 * nondimensional_link_stiffness)) - (nondimensional_force /
      nondimensional_link_stiffness - sdec 1 0) / sexp nondimensional_force * math.erf
      ((nondimensional_force - nondimensional_link_stiffness) / ssqrt (sdec 2 0 *
      nondimensional_link_stiffness))) / denominator in
  - sln (ssinh nondimensional_force / nondimensional_force) - sdec 5 1 * spowi nondimensional_force
      2 / nondimensional_link_stiffness - sln (sdec 1 0 + nondimensional_force / stanh
      nondimensional_force / nondimensional_link_stiffness) - sln (sdec 5 1 + ((nondimensional_force
      / nondimensional_link_stiffness + sdec 1 0) * sexp nondimensional_force * math.erf
      ((nondimensional_force + nondimensional_link_stiffness) / ssqrt (sdec 2 0 *
      nondimensional_link_stiffness)) - (nondimensional_force / nondimensional_link_stiffness - sdec
      1 0) / sexp nondimensional_force * math.erf ((nondimensional_force -
      nondimensional_link_stiffness) / ssqrt (sdec 2 0 * nondimensional_link_stiffness))) / (sdec 4
      0 * ssinh nondimensional_force * (sdec 1 0 + nondimensional_force / stanh nondimensional_force
      / nondimensional_link_stiffness))) - sdec 5 1 * sln (sdec 2 0 * spi * spowi link_length 2 /
      nondimensional_link_stiffness) - sln (sdec 8 0 * spowi spi 2 * hinge_mass * spowi link_length
      2 * BOLTZMANN_CONSTANT * temperature / spowi PLANCK_CONSTANT 2) + nondimensional_force * (sdec
      1 0 / stanh nondimensional_force - sdec 1 0 / nondimensional_force + nondimensional_force /
      nondimensional_link_stiffness * (sdec 1 0 + (stanh nondimensional_force - sdec 1 0 / stanh
      nondimensional_force + sdec 1 0 / nondimensional_force) / (stanh nondimensional_force +
      nondimensional_force / nondimensional_link_stiffness)) + (sexp nondimensional_force * (ssqrt
      (sdec 2 0 / spi / nondimensional_link_stiffness) * (nondimensional_force /
      nondimensional_link_stiffness + sdec 1 0) * sexp (- spowi (nondimensional_force +
      nondimensional_link_stiffness) 2 / sdec 2 0 / nondimensional_link_stiffness) + (sdec 1 0 +
      (sdec 1 0 + nondimensional_force) / nondimensional_link_stiffness)) - sdec 1 0 / sexp
      nondimensional_force * (ssqrt (sdec 2 0 / spi / nondimensional_link_stiffness) *
      (nondimensional_force / nondimensional_link_stiffness - sdec 1 0) * sexp (- spowi
      (nondimensional_force - nondimensional_link_stiffness) 2 / sdec 2 0 /
      nondimensional_link_stiffness) + (sdec 1 0 + (sdec 1 0 - nondimensional_force) /
      nondimensional_link_stiffness) * math.erf ((nondimensional_force -
      nondimensional_link_stiffness) / ssqrt (sdec 2 0 * nondimensional_link_stiffness))) - fraction
      * (sdec 4 0 * (scosh nondimensional_force * (sdec 1 0 + (sdec 1 0 + nondimensional_force /
      stanh nondimensional_force) / nondimensional_link_stiffness) - nondimensional_force /
      nondimensional_link_stiffness / ssinh nondimensional_force))) / denominator / (sdec 1 0 +
      fraction)).

(* /repo/src/physics/single_chain/efjc/thermodynamics/isotensional/legendre/mod.rs:41-44 *)
Definition helmholtz_free_energy_per_link (link_length : T) (hinge_mass : T) (link_stiffness : T)
    (force : T) (temperature : T) : T :=
  BOLTZMANN_CONSTANT * temperature * nondimensional_helmholtz_free_energy_per_link link_length
      hinge_mass (link_stiffness * spowi link_length 2 / BOLTZMANN_CONSTANT / temperature) (force /
      BOLTZMANN_CONSTANT / temperature * link_length) temperature.

(* /repo/src/physics/single_chain/efjc/thermodynamics/isotensional/legendre/mod.rs:53-56 *)
Definition relative_helmholtz_free_energy_per_link (link_length : T) (link_stiffness : T) (force :
    T) (temperature : T) : T :=
  helmholtz_free_energy_per_link link_length (sdec 1 0) link_stiffness force temperature -
      helmholtz_free_energy_per_link link_length (sdec 1 0) link_stiffness (ZERO *
      BOLTZMANN_CONSTANT * temperature / link_length) temperature.

(* /repo/src/physics/single_chain/efjc/thermodynamics/isotensional/legendre/mod.rs:59-62 *)
Definition nondimensional_helmholtz_free_energy (number_of_links : Z) (link_length : T) (hinge_mass
    : T) (nondimensional_link_stiffness : T) (nondimensional_force : T) (temperature : T) : T :=
  sofZ number_of_links * nondimensional_helmholtz_free_energy_per_link link_length hinge_mass
      nondimensional_link_stiffness nondimensional_force temperature.

(* /repo/src/physics/single_chain/efjc/thermodynamics/isotensional/legendre/mod.rs:35-38 *)
Definition helmholtz_free_energy (number_of_links : Z) (link_length : T) (hinge_mass : T)
    (link_stiffness : T) (force : T) (temperature : T) : T :=
  BOLTZMANN_CONSTANT * temperature * nondimensional_helmholtz_free_energy number_of_links
      link_length hinge_mass (link_stiffness * spowi link_length 2 / BOLTZMANN_CONSTANT /
      temperature) (force / BOLTZMANN_CONSTANT / temperature * link_length) temperature.

(* /repo/src/physics/single_chain/efjc/thermodynamics/isotensional/legendre/mod.rs:47-50 *)
Definition relative_helmholtz_free_energy (number_of_links : Z) (link_length : T) (link_stiffness :
    T) (force : T) (temperature : T) : T :=
  helmholtz_free_energy number_of_links link_length (sdec 1 0) link_stiffness force temperature -
      helmholtz_free_energy number_of_links link_length (sdec 1 0) link_stiffness (ZERO *
      BOLTZMANN_CONSTANT * temperature / link_length) temperature.

(* /repo/src/physics/single_chain/efjc/thermodynamics/isotensional/legendre/mod.rs:73-76 *)
Definition nondimensional_relative_helmholtz_free_energy (number_of_links : Z)
    (nondimensional_link_stiffness : T) (nondimensional_force : T) : T :=
  nondimensional_helmholtz_free_energy number_of_links (sdec 1 0) (sdec 1 0)
      nondimensional_link_stiffness nondimensional_force (sdec 300 0) -
      nondimensional_helmholtz_free_energy number_of_links (sdec 1 0) (sdec 1 0)
      nondimensional_link_stiffness ZERO (sdec 300 0).

(* /repo/src/physics/single_chain/efjc/thermodynamics/isotensional/legendre/mod.rs:79-82 *)
Definition nondimensional_relative_helmholtz_free_energy_per_link (nondimensional_link_stiffness :
    T) (nondimensional_force : T) : T :=
  nondimensional_helmholtz_free_energy_per_link (sdec 1 0) (sdec 1 0) nondimensional_link_stiffness
      nondimensional_force (sdec 300 0) - nondimensional_helmholtz_free_energy_per_link (sdec 1 0)
      (sdec 1 0) nondimensional_link_stiffness ZERO (sdec 300 0).

End Model.
End efjc_isotensional_legendre.

(** /repo/src/physics/single_chain/efjc/thermodynamics/isometric/asymptotic/alternative/legendre/mod.rs: struct EFJC *)
Module O_efjc_isometric_asymptotic_alternative_legendre.
(* /repo/src/physics/single_chain/efjc/thermodynamics/isometric/asymptotic/alternative/legendre/mod.rs:23-36 *)
Record t {T : Type} := { hinge_mass : T; link_length : T; number_of_links : Z; link_stiffness : T }.
Arguments t : clear implicits.
Section Model.
Context {T : Type} {Sc : Scalar T}.

(* /repo/src/physics/single_chain/efjc/thermodynamics/isometric/asymptotic/alternative/legendre/mod.rs:111-120 *)
Definition init (number_of_links : Z) (link_length : T) (hinge_mass : T) (link_stiffness : T) : t T
    :=
  {| hinge_mass := hinge_mass; link_length := link_length; number_of_links := number_of_links;
      link_stiffness := link_stiffness |}.

(* /repo/src/physics/single_chain/efjc/thermodynamics/isometric/asymptotic/alternative/legendre/mod.rs:122-125 *)
Definition force (self : t T) (end_to_end_length : T) (temperature : T) : T :=
  efjc_isometric_asymptotic_alternative_legendre.force (number_of_links self) (link_length self)
      (link_stiffness self) end_to_end_length temperature.

(* /repo/src/physics/single_chain/efjc/thermodynamics/isometric/asymptotic/alternative/legendre/mod.rs:127-130 *)
Definition nondimensional_force (self : t T) (nondimensional_end_to_end_length_per_link : T)
    (temperature : T) : T :=
  efjc_isometric_asymptotic_alternative_legendre.nondimensional_force (link_stiffness self * spowi
      (link_length self) 2 / BOLTZMANN_CONSTANT / temperature)
      nondimensional_end_to_end_length_per_link.

(* /repo/src/physics/single_chain/efjc/thermodynamics/isometric/asymptotic/alternative/legendre/mod.rs:132-135 *)
Definition helmholtz_free_energy (self : t T) (end_to_end_length : T) (temperature : T) : T :=
  efjc_isometric_asymptotic_alternative_legendre.helmholtz_free_energy (number_of_links self)
      (link_length self) (hinge_mass self) (link_stiffness self) end_to_end_length temperature.

(* /repo/src/physics/single_chain/efjc/thermodynamics/isometric/asymptotic/alternative/legendre/mod.rs:137-140 *)
Definition helmholtz_free_energy_per_link (self : t T) (end_to_end_length : T) (temperature : T) : T
    :=
  efjc_isometric_asymptotic_alternative_legendre.helmholtz_free_energy_per_link (number_of_links
      self) (link_length self) (hinge_mass self) (link_stiffness self) end_to_end_length
      temperature.

(* /repo/src/physics/single_chain/efjc/thermodynamics/isometric/asymptotic/alternative/legendre/mod.rs:142-145 *)
Definition relative_helmholtz_free_energy (self : t T) (end_to_end_length : T) (temperature : T) : T
    :=
  efjc_isometric_asymptotic_alternative_legendre.relative_helmholtz_free_energy (number_of_links
      self) (link_length self) (link_stiffness self) end_to_end_length temperature.

(* /repo/src/physics/single_chain/efjc/thermodynamics/isometric/asymptotic/alternative/legendre/mod.rs:147-150 *)
Definition relative_helmholtz_free_energy_per_link (self : t T) (end_to_end_length : T) (temperature
    : T) : T :=
  efjc_isometric_asymptotic_alternative_legendre.relative_helmholtz_free_energy_per_link
      (number_of_links self) (link_length self) (link_stiffness self) end_to_end_length temperature.

(* /repo/src/physics/single_chain/efjc/thermodynamics/isometric/asymptotic/alternative/legendre/mod.rs:152-155 *)
Definition nondimensional_helmholtz_free_energy (self : t T)
    (nondimensional_end_to_end_length_per_link : T) (temperature : T) : T :=
  efjc_isometric_asymptotic_alternative_legendre.nondimensional_helmholtz_free_energy
      (number_of_links self) (link_length self) (hinge_mass self) (link_stiffness self * spowi
      (link_length self) 2 / BOLTZMANN_CONSTANT / temperature)
      nondimensional_end_to_end_length_per_link temperature.

(* /repo/src/physics/single_chain/efjc/thermodynamics/isometric/asymptotic/alternative/legendre/mod.rs:157-160 *)
Definition nondimensional_helmholtz_free_energy_per_link (self : t T)
    (nondimensional_end_to_end_length_per_link : T) (temperature : T) : T :=
  efjc_isometric_asymptotic_alternative_legendre.nondimensional_helmholtz_free_energy_per_link
      (number_of_links self) (link_length self) (hinge_mass self) (link_stiffness self * spowi
      (link_length self) 2 / BOLTZMANN_CONSTANT / temperature)
      nondimensional_end_to_end_length_per_link temperature.

(* /repo/src/physics/single_chain/efjc/thermodynamics/isometric/asymptotic/alternative/legendre/mod.rs:162-165 *)
Definition nondimensional_relative_helmholtz_free_energy (self : t T)
    (nondimensional_end_to_end_length_per_link : T) (temperature : T) : T :=
  efjc_isometric_asymptotic_alternative_legendre.nondimensional_relative_helmholtz_free_energy
      (number_of_links self) (link_stiffness self * spowi (link_length self) 2 / BOLTZMANN_CONSTANT
      / temperature) nondimensional_end_to_end_length_per_link.

(* /repo/src/physics/single_chain/efjc/thermodynamics/isometric/asymptotic/alternative/legendre/mod.rs:167-170 *)
Definition nondimensional_relative_helmholtz_free_energy_per_link (self : t T)
    (nondimensional_end_to_end_length_per_link : T) (temperature : T) : T :=
  efjc_isometric_asymptotic_alternative_legendre.nondimensional_relative_helmholtz_free_energy_per_link
      (link_stiffness self * spowi (link_length self) 2 / BOLTZMANN_CONSTANT / temperature)
      nondimensional_end_to_end_length_per_link.

End Model.
End O_efjc_isometric_asymptotic_alternative_legendre.

(** /repo/src/physics/single_chain/efjc/thermodynamics/isometric/asymptotic/reduced/legendre/mod.rs: struct EFJC *)
Module O_efjc_isometric_asymptotic_reduced_legendre.
(* /repo/src/physics/single_chain/efjc/thermodynamics/isometric/asymptotic/reduced/legendre/mod.rs:23-36 *)
Record t {T : Type} := { hinge_mass : T; link_length : T; number_of_links : Z; link_stiffness : T }.
Arguments t : clear implicits.
Section Model.
Context {T : Type} {Sc : Scalar T}.

(* /repo/src/physics/single_chain/efjc/thermodynamics/isometric/asymptotic/reduced/legendre/mod.rs:111-120 *)
Definition init (number_of_links : Z) (link_length : T) (hinge_mass : T) (link_stiffness : T) : t T
    :=
  {| hinge_mass := hinge_mass; link_length := link_length; number_of_links := number_of_links;
      link_stiffness := link_stiffness |}.

(* /repo/src/physics/single_chain/efjc/thermodynamics/isometric/asymptotic/reduced/legendre/mod.rs:122-125 *)
Definition force (self : t T) (end_to_end_length : T) (temperature : T) : T :=
  efjc_isometric_asymptotic_reduced_legendre.force (number_of_links self) (link_length self)
      (link_stiffness self) end_to_end_length temperature.

(* /repo/src/physics/single_chain/efjc/thermodynamics/isometric/asymptotic/reduced/legendre/mod.rs:127-130 *)
Definition nondimensional_force (self : t T) (nondimensional_end_to_end_length_per_link : T)
    (temperature : T) : T :=
  efjc_isometric_asymptotic_reduced_legendre.nondimensional_force (link_stiffness self * spowi
      (link_length self) 2 / BOLTZMANN_CONSTANT / temperature)
      nondimensional_end_to_end_length_per_link.

(* /repo/src/physics/single_chain/efjc/thermodynamics/isometric/asymptotic/reduced/legendre/mod.rs:132-135 *)
Definition helmholtz_free_energy (self : t T) (end_to_end_length : T) (temperature : T) : T :=
  efjc_isometric_asymptotic_reduced_legendre.helmholtz_free_energy (number_of_links self)
      (link_length self) (hinge_mass self) (link_stiffness self) end_to_end_length temperature.

(* /repo/src/physics/single_chain/efjc/thermodynamics/isometric/asymptotic/reduced/legendre/mod.rs:137-140 *)
Definition helmholtz_free_energy_per_link (self : t T) (end_to_end_length : T) (temperature : T) : T
    :=
  efjc_isometric_asymptotic_reduced_legendre.helmholtz_free_energy_per_link (number_of_links self)
      (link_length self) (hinge_mass self) (link_stiffness self) end_to_end_length temperature.

(* /repo/src/physics/single_chain/efjc/thermodynamics/isometric/asymptotic/reduced/legendre/mod.rs:142-145 *)
Definition relative_helmholtz_free_energy (self : t T) (end_to_end_length : T) (temperature : T) : T
    :=
  efjc_isometric_asymptotic_reduced_legendre.relative_helmholtz_free_energy (number_of_links self)
      (link_length self) (link_stiffness self) end_to_end_length temperature.

(* /repo/src/physics/single_chain/efjc/thermodynamics/isometric/asymptotic/reduced/legendre/mod.rs:147-150 *)
Definition relative_helmholtz_free_energy_per_link (self : t T) (end_to_end_length : T) (temperature
    : T) : T :=
  efjc_isometric_asymptotic_reduced_legendre.relative_helmholtz_free_energy_per_link
      (number_of_links self) (link_length self) (link_stiffness self) end_to_end_length temperature.

(* /repo/src/physics/single_chain/efjc/thermodynamics/isometric/asymptotic/reduced/legendre/mod.rs:152-155 *)
Definition nondimensional_helmholtz_free_energy (self : t T)
    (nondimensional_end_to_end_length_per_link : T) (temperature : T) : T :=
  efjc_isometric_asymptotic_reduced_legendre.nondimensional_helmholtz_free_energy (number_of_links
      self) (link_length self) (hinge_mass self) (link_stiffness self * spowi (link_length self) 2 /
      BOLTZMANN_CONSTANT / temperature) nondimensional_end_to_end_length_per_link temperature.

(* /repo/src/physics/single_chain/efjc/thermodynamics/isometric/asymptotic/reduced/legendre/mod.rs:157-160 *)
Definition nondimensional_helmholtz_free_energy_per_link (self : t T)
    (nondimensional_end_to_end_length_per_link : T) (temperature : T) : T :=
  efjc_isometric_asymptotic_reduced_legendre.nondimensional_helmholtz_free_energy_per_link
      (number_of_links self) (link_length self) (hinge_mass self) (link_stiffness self * spowi
      (link_length self) 2 / BOLTZMANN_CONSTANT / temperature)
      nondimensional_end_to_end_length_per_link temperature.

(* /repo/src/physics/single_chain/efjc/thermodynamics/isometric/asymptotic/reduced/legendre/mod.rs:162-165 *)
Definition nondimensional_relative_helmholtz_free_energy (self : t T)
    (nondimensional_end_to_end_length_per_link : T) (temperature : T) : T :=
  efjc_isometric_asymptotic_reduced_legendre.nondimensional_relative_helmholtz_free_energy
      (number_of_links self) (link_stiffness self * spowi (link_length self) 2 / BOLTZMANN_CONSTANT
      / temperature) nondimensional_end_to_end_length_per_link.

(* /repo/src/physics/single_chain/efjc/thermodynamics/isometric/asymptotic/reduced/legendre/mod.rs:167-170 *)
Definition nondimensional_relative_helmholtz_free_energy_per_link (self : t T)
    (nondimensional_end_to_end_length_per_link : T) (temperature : T) : T :=
  efjc_isometric_asymptotic_reduced_legendre.nondimensional_relative_helmholtz_free_energy_per_link
      (link_stiffness self * spowi (link_length self) 2 / BOLTZMANN_CONSTANT / temperature)
      nondimensional_end_to_end_length_per_link.

End Model.
End O_efjc_isometric_asymptotic_reduced_legendre.

(** /repo/src/physics/single_chain/efjc/thermodynamics/isotensional/asymptotic/alternative/legendre/mod.rs: struct EFJC *)
Module O_efjc_isotensional_asymptotic_alternative_legendre.
(* /repo/src/physics/single_chain/efjc/thermodynamics/isotensional/asymptotic/alternative/legendre/mod.rs:18-31 *)
Record t {T : Type} := { hinge_mass : T; link_length : T; number_of_links : Z; link_stiffness : T }.
Arguments t : clear implicits.
Section Model.
Context {T : Type} {Sc : Scalar T}.

(* /repo/src/physics/single_chain/efjc/thermodynamics/isotensional/asymptotic/alternative/legendre/mod.rs:85-94 *)
Definition init (number_of_links : Z) (link_length : T) (hinge_mass : T) (link_stiffness : T) : t T
    :=
  {| hinge_mass := hinge_mass; link_length := link_length; number_of_links := number_of_links;
      link_stiffness := link_stiffness |}.

(* /repo/src/physics/single_chain/efjc/thermodynamics/isotensional/asymptotic/alternative/legendre/mod.rs:96-99 *)
Definition helmholtz_free_energy (self : t T) (force : T) (temperature : T) : T :=
  efjc_isotensional_asymptotic_alternative_legendre.helmholtz_free_energy (number_of_links self)
      (link_length self) (hinge_mass self) (link_stiffness self) force temperature.

(* /repo/src/physics/single_chain/efjc/thermodynamics/isotensional/asymptotic/alternative/legendre/mod.rs:101-104 *)
Definition helmholtz_free_energy_per_link (self : t T) (force : T) (temperature : T) : T :=
  efjc_isotensional_asymptotic_alternative_legendre.helmholtz_free_energy_per_link (link_length
      self) (hinge_mass self) (link_stiffness self) force temperature.

(* /repo/src/physics/single_chain/efjc/thermodynamics/isotensional/asymptotic/alternative/legendre/mod.rs:106-109 *)
Definition relative_helmholtz_free_energy (self : t T) (force : T) (temperature : T) : T :=
  efjc_isotensional_asymptotic_alternative_legendre.relative_helmholtz_free_energy (number_of_links
      self) (link_length self) (link_stiffness self) force temperature.

(* /repo/src/physics/single_chain/efjc/thermodynamics/isotensional/asymptotic/alternative/legendre/mod.rs:111-114 *)
Definition relative_helmholtz_free_energy_per_link (self : t T) (force : T) (temperature : T) : T :=
  efjc_isotensional_asymptotic_alternative_legendre.relative_helmholtz_free_energy_per_link
      (link_length self) (link_stiffness self) force temperature.

(* /repo/src/physics/single_chain/efjc/thermodynamics/isotensional/asymptotic/alternative/legendre/mod.rs:116-119 *)
Definition nondimensional_helmholtz_free_energy (self : t T) (nondimensional_force : T) (temperature
    : T) : T :=
  efjc_isotensional_asymptotic_alternative_legendre.nondimensional_helmholtz_free_energy
      (number_of_links self) (link_length self) (hinge_mass self) (link_stiffness self * spowi
      (link_length self) 2 / BOLTZMANN_CONSTANT / temperature) nondimensional_force temperature.

(* /repo/src/physics/single_chain/efjc/thermodynamics/isotensional/asymptotic/alternative/legendre/mod.rs:121-124 *)
Definition nondimensional_helmholtz_free_energy_per_link (self : t T) (nondimensional_force : T)
    (temperature : T) : T :=
  efjc_isotensional_asymptotic_alternative_legendre.nondimensional_helmholtz_free_energy_per_link
      (link_length self) (hinge_mass self) (link_stiffness self * spowi (link_length self) 2 /
      BOLTZMANN_CONSTANT / temperature) nondimensional_force temperature.

(* /repo/src/physics/single_chain/efjc/thermodynamics/isotensional/asymptotic/alternative/legendre/mod.rs:126-129 *)
Definition nondimensional_relative_helmholtz_free_energy (self : t T) (nondimensional_force : T)
    (temperature : T) : T :=
  efjc_isotensional_asymptotic_alternative_legendre.nondimensional_relative_helmholtz_free_energy
      (number_of_links self) (link_stiffness self * spowi (link_length self) 2 / BOLTZMANN_CONSTANT
      / temperature) nondimensional_force.

(* /repo/src/physics/single_chain/efjc/thermodynamics/isotensional/asymptotic/alternative/legendre/mod.rs:131-134 *)
Definition nondimensional_relative_helmholtz_free_energy_per_link (self : t T) (nondimensional_force
    : T) (temperature : T) : T :=
  efjc_isotensional_asymptotic_alternative_legendre.nondimensional_relative_helmholtz_free_energy_per_link
      (link_stiffness self * spowi (link_length self) 2 / BOLTZMANN_CONSTANT / temperature)
      nondimensional_force.

End Model.
End O_efjc_isotensional_asymptotic_alternative_legendre.

(** /repo/src/physics/single_chain/efjc/thermodynamics/isotensional/asymptotic/reduced/legendre/mod.rs: struct EFJC *)
Module O_efjc_isotensional_asymptotic_reduced_legendre.
(* /repo/src/physics/single_chain/efjc/thermodynamics/isotensional/asymptotic/reduced/legendre/mod.rs:18-31 *)
Record t {T : Type} := { hinge_mass : T; link_length : T; number_of_links : Z; link_stiffness : T }.
Arguments t : clear implicits.
Section Model.
Context {T : Type} {Sc : Scalar T}.

(* /repo/src/physics/single_chain/efjc/thermodynamics/isotensional/asymptotic/reduced/legendre/mod.rs:85-94 *)
Definition init (number_of_links : Z) (link_length : T) (hinge_mass : T) (link_stiffness : T) : t T
    :=
  {| hinge_mass := hinge_mass; link_length := link_length; number_of_links := number_of_links;
      link_stiffness := link_stiffness |}.

(* /repo/src/physics/single_chain/efjc/thermodynamics/isotensional/asymptotic/reduced/legendre/mod.rs:96-99 *)
Definition helmholtz_free_energy (self : t T) (force : T) (temperature : T) : T :=
  efjc_isotensional_asymptotic_reduced_legendre.helmholtz_free_energy (number_of_links self)
      (link_length self) (hinge_mass self) (link_stiffness self) force temperature.

(* /repo/src/physics/single_chain/efjc/thermodynamics/isotensional/asymptotic/reduced/legendre/mod.rs:101-104 *)
Definition helmholtz_free_energy_per_link (self : t T) (force : T) (temperature : T) : T :=
  efjc_isotensional_asymptotic_reduced_legendre.helmholtz_free_energy_per_link (link_length self)
      (hinge_mass self) (link_stiffness self) force temperature.

(* /repo/src/physics/single_chain/efjc/thermodynamics/isotensional/asymptotic/reduced/legendre/mod.rs:106-109 *)
Definition relative_helmholtz_free_energy (self : t T) (force : T) (temperature : T) : T :=
  efjc_isotensional_asymptotic_reduced_legendre.relative_helmholtz_free_energy (number_of_links
      self) (link_length self) (link_stiffness self) force temperature.

(* /repo/src/physics/single_chain/efjc/thermodynamics/isotensional/asymptotic/reduced/legendre/mod.rs:111-114 *)
Definition relative_helmholtz_free_energy_per_link (self : t T) (force : T) (temperature : T) : T :=
  efjc_isotensional_asymptotic_reduced_legendre.relative_helmholtz_free_energy_per_link (link_length
      self) (link_stiffness self) force temperature.

(* /repo/src/physics/single_chain/efjc/thermodynamics/isotensional/asymptotic/reduced/legendre/mod.rs:116-119 *)
Definition nondimensional_helmholtz_free_energy (self : t T) (nondimensional_force : T) (temperature
    : T) : T :=
  efjc_isotensional_asymptotic_reduced_legendre.nondimensional_helmholtz_free_energy
      (number_of_links self) (link_length self) (hinge_mass self) (link_stiffness self * spowi
      (link_length self) 2 / BOLTZMANN_CONSTANT / temperature) nondimensional_force temperature.

(* /repo/src/physics/single_chain/efjc/thermodynamics/isotensional/asymptotic/reduced/legendre/mod.rs:121-124 *)
Definition nondimensional_helmholtz_free_energy_per_link (self : t T) (nondimensional_force : T)
    (temperature : T) : T :=
  efjc_isotensional_asymptotic_reduced_legendre.nondimensional_helmholtz_free_energy_per_link
      (link_length self) (hinge_mass self) (link_stiffness self * spowi (link_length self) 2 /
      BOLTZMANN_CONSTANT / temperature) nondimensional_force temperature.

(* /repo/src/physics/single_chain/efjc/thermodynamics/isotensional/asymptotic/reduced/legendre/mod.rs:126-129 *)
Definition nondimensional_relative_helmholtz_free_energy (self : t T) (nondimensional_force : T)
    (temperature : T) : T :=
  efjc_isotensional_asymptotic_reduced_legendre.nondimensional_relative_helmholtz_free_energy
      (number_of_links self) (link_stiffness self * spowi (link_length self) 2 / BOLTZMANN_CONSTANT
      / temperature) nondimensional_force.

(* /repo/src/physics/single_chain/efjc/thermodynamics/isotensional/asymptotic/reduced/legendre/mod.rs:131-134 *)
Definition nondimensional_relative_helmholtz_free_energy_per_link (self : t T) (nondimensional_force
    : T) (temperature : T) : T :=
  efjc_isotensional_asymptotic_reduced_legendre.nondimensional_relative_helmholtz_free_energy_per_link
      (link_stiffness self * spowi (link_length self) 2 / BOLTZMANN_CONSTANT / temperature)
      nondimensional_force.

End Model.
End O_efjc_isotensional_asymptotic_reduced_legendre.

(** /repo/src/physics/single_chain/efjc/thermodynamics/isometric/asymptotic/alternative/mod.rs: struct EFJC *)
Module O_efjc_isometric_asymptotic_alternative.
(* /repo/src/physics/single_chain/efjc/thermodynamics/isometric/asymptotic/alternative/mod.rs:10-26 *)
Record t {T : Type} := { hinge_mass : T; link_length : T; number_of_links : Z; link_stiffness : T; legendre : O_efjc_isometric_asymptotic_alternative_legendre.t T }.
Arguments t : clear implicits.
Section Model.
Context {T : Type} {Sc : Scalar T}.

(* /repo/src/physics/single_chain/efjc/thermodynamics/isometric/asymptotic/alternative/mod.rs:32-42 *)
Definition init (number_of_links : Z) (link_length : T) (hinge_mass : T) (link_stiffness : T) : t T
    :=
  {| hinge_mass := hinge_mass; link_length := link_length; number_of_links := number_of_links;
      link_stiffness := link_stiffness; legendre :=
      O_efjc_isometric_asymptotic_alternative_legendre.init number_of_links link_length hinge_mass
      link_stiffness |}.

End Model.
End O_efjc_isometric_asymptotic_alternative.

(** /repo/src/physics/single_chain/efjc/thermodynamics/isometric/asymptotic/legendre/mod.rs: struct EFJC *)
Module O_efjc_isometric_asymptotic_legendre.
(* /repo/src/physics/single_chain/efjc/thermodynamics/isometric/asymptotic/legendre/mod.rs:23-36 *)
Record t {T : Type} := { hinge_mass : T; link_length : T; number_of_links : Z; link_stiffness : T }.
Arguments t : clear implicits.
Section Model.
Context {T : Type} {Sc : Scalar T}.

(* /repo/src/physics/single_chain/efjc/thermodynamics/isometric/asymptotic/legendre/mod.rs:111-120 *)
Definition init (number_of_links : Z) (link_length : T) (hinge_mass : T) (link_stiffness : T) : t T
    :=
  {| hinge_mass := hinge_mass; link_length := link_length; number_of_links := number_of_links;
      link_stiffness := link_stiffness |}.

(* /repo/src/physics/single_chain/efjc/thermodynamics/isometric/asymptotic/legendre/mod.rs:122-125 *)
Definition force (self : t T) (end_to_end_length : T) (temperature : T) : T :=
  efjc_isometric_asymptotic_legendre.force (number_of_links self) (link_length self) (link_stiffness
      self) end_to_end_length temperature.

(* /repo/src/physics/single_chain/efjc/thermodynamics/isometric/asymptotic/legendre/mod.rs:127-130 *)
Definition nondimensional_force (self : t T) (nondimensional_end_to_end_length_per_link : T)
    (temperature : T) : T :=
  efjc_isometric_asymptotic_legendre.nondimensional_force (link_stiffness self * spowi (link_length
      self) 2 / BOLTZMANN_CONSTANT / temperature) nondimensional_end_to_end_length_per_link.

(* /repo/src/physics/single_chain/efjc/thermodynamics/isometric/asymptotic/legendre/mod.rs:132-135 *)
Definition helmholtz_free_energy (self : t T) (end_to_end_length : T) (temperature : T) : T :=
  efjc_isometric_asymptotic_legendre.helmholtz_free_energy (number_of_links self) (link_length self)
      (hinge_mass self) (link_stiffness self) end_to_end_length temperature.

(* /repo/src/physics/single_chain/efjc/thermodynamics/isometric/asymptotic/legendre/mod.rs:137-140 *)
Definition helmholtz_free_energy_per_link (self : t T) (end_to_end_length : T) (temperature : T) : T
    :=
  efjc_isometric_asymptotic_legendre.helmholtz_free_energy_per_link (number_of_links self)
      (link_length self) (hinge_mass self) (link_stiffness self) end_to_end_length temperature.

(* /repo/src/physics/single_chain/efjc/thermodynamics/isometric/asymptotic/legendre/mod.rs:142-145 *)
Definition relative_helmholtz_free_energy (self : t T) (end_to_end_length : T) (temperature : T) : T
    :=
  efjc_isometric_asymptotic_legendre.relative_helmholtz_free_energy (number_of_links self)
      (link_length self) (link_stiffness self) end_to_end_length temperature.

(* /repo/src/physics/single_chain/efjc/thermodynamics/isometric/asymptotic/legendre/mod.rs:147-150 *)
Definition relative_helmholtz_free_energy_per_link (self : t T) (end_to_end_length : T) (temperature
    : T) : T :=
  efjc_isometric_asymptotic_legendre.relative_helmholtz_free_energy_per_link (number_of_links self)
      (link_length self) (link_stiffness self) end_to_end_length temperature.

(* /repo/src/physics/single_chain/efjc/thermodynamics/isometric/asymptotic/legendre/mod.rs:152-155 *)
Definition nondimensional_helmholtz_free_energy (self : t T)
    (nondimensional_end_to_end_length_per_link : T) (temperature : T) : T :=
  efjc_isometric_asymptotic_legendre.nondimensional_helmholtz_free_energy (number_of_links self)
      (link_length self) (hinge_mass self) (link_stiffness self * spowi (link_length self) 2 /
      BOLTZMANN_CONSTANT / temperature) nondimensional_end_to_end_length_per_link temperature.

(* /repo/src/physics/single_chain/efjc/thermodynamics/isometric/asymptotic/legendre/mod.rs:157-160 *)
Definition nondimensional_helmholtz_free_energy_per_link (self : t T)
    (nondimensional_end_to_end_length_per_link : T) (temperature : T) : T :=
  efjc_isometric_asymptotic_legendre.nondimensional_helmholtz_free_energy_per_link (number_of_links
      self) (link_length self) (hinge_mass self) (link_stiffness self * spowi (link_length self) 2 /
      BOLTZMANN_CONSTANT / temperature) nondimensional_end_to_end_length_per_link temperature.

(* /repo/src/physics/single_chain/efjc/thermodynamics/isometric/asymptotic/legendre/mod.rs:162-165 *)
Definition nondimensional_relative_helmholtz_free_energy (self : t T)
    (nondimensional_end_to_end_length_per_link : T) (temperature : T) : T :=
  efjc_isometric_asymptotic_legendre.nondimensional_relative_helmholtz_free_energy (number_of_links
      self) (link_stiffness self * spowi (link_length self) 2 / BOLTZMANN_CONSTANT / temperature)
      nondimensional_end_to_end_length_per_link.

(* /repo/src/physics/single_chain/efjc/thermodynamics/isometric/asymptotic/legendre/mod.rs:167-170 *)
Definition nondimensional_relative_helmholtz_free_energy_per_link (self : t T)
    (nondimensional_end_to_end_length_per_link : T) (temperature : T) : T :=
  efjc_isometric_asymptotic_legendre.nondimensional_relative_helmholtz_free_energy_per_link
      (link_stiffness self * spowi (link_length self) 2 / BOLTZMANN_CONSTANT / temperature)
      nondimensional_end_to_end_length_per_link.

End Model.
End O_efjc_isometric_asymptotic_legendre.

(** /repo/src/physics/single_chain/efjc/thermodynamics/isometric/asymptotic/reduced/mod.rs: struct EFJC *)
Module O_efjc_isometric_asymptotic_reduced.
(* /repo/src/physics/single_chain/efjc/thermodynamics/isometric/asymptotic/reduced/mod.rs:10-26 *)
Record t {T : Type} := { hinge_mass : T; link_length : T; number_of_links : Z; link_stiffness : T; legendre : O_efjc_isometric_asymptotic_reduced_legendre.t T }.
Arguments t : clear implicits.
Section Model.
Context {T : Type} {Sc : Scalar T}.

(* /repo/src/physics/single_chain/efjc/thermodynamics/isometric/asymptotic/reduced/mod.rs:32-42 *)
Definition init (number_of_links : Z) (link_length : T) (hinge_mass : T) (link_stiffness : T) : t T
    :=
  {| hinge_mass := hinge_mass; link_length := link_length; number_of_links := number_of_links;
      link_stiffness := link_stiffness; legendre :=
      O_efjc_isometric_asymptotic_reduced_legendre.init number_of_links link_length hinge_mass
      link_stiffness |}.

End Model.
End O_efjc_isometric_asymptotic_reduced.

(** /repo/src/physics/single_chain/efjc/thermodynamics/isotensional/asymptotic/alternative/mod.rs: struct EFJC *)
Module O_efjc_isotensional_asymptotic_alternative.
(* /repo/src/physics/single_chain/efjc/thermodynamics/isotensional/asymptotic/alternative/mod.rs:21-37 *)
Record t {T : Type} := { hinge_mass : T; link_length : T; number_of_links : Z; link_stiffness : T; legendre : O_efjc_isotensional_asymptotic_alternative_legendre.t T }.
Arguments t : clear implicits.
Section Model.
Context {T : Type} {Sc : Scalar T}.

(* /repo/src/physics/single_chain/efjc/thermodynamics/isotensional/asymptotic/alternative/mod.rs:119-129 *)
Definition init (number_of_links : Z) (link_length : T) (hinge_mass : T) (link_stiffness : T) : t T
    :=
  {| hinge_mass := hinge_mass; link_length := link_length; number_of_links := number_of_links;
      link_stiffness := link_stiffness; legendre :=
      O_efjc_isotensional_asymptotic_alternative_legendre.init number_of_links link_length
      hinge_mass link_stiffness |}.

(* /repo/src/physics/single_chain/efjc/thermodynamics/isotensional/asymptotic/alternative/mod.rs:131-134 *)
Definition end_to_end_length (self : t T) (force : T) (temperature : T) : T :=
  efjc_isotensional_asymptotic_alternative.end_to_end_length (number_of_links self) (link_length
      self) (link_stiffness self) force temperature.

(* /repo/src/physics/single_chain/efjc/thermodynamics/isotensional/asymptotic/alternative/mod.rs:136-139 *)
Definition end_to_end_length_per_link (self : t T) (force : T) (temperature : T) : T :=
  efjc_isotensional_asymptotic_alternative.end_to_end_length_per_link (link_length self)
      (link_stiffness self) force temperature.

(* /repo/src/physics/single_chain/efjc/thermodynamics/isotensional/asymptotic/alternative/mod.rs:141-144 *)
Definition nondimensional_end_to_end_length (self : t T) (nondimensional_force : T) (temperature :
    T) : T :=
  efjc_isotensional_asymptotic_alternative.nondimensional_end_to_end_length (number_of_links self)
      (link_stiffness self * spowi (link_length self) 2 / BOLTZMANN_CONSTANT / temperature)
      nondimensional_force.

(* /repo/src/physics/single_chain/efjc/thermodynamics/isotensional/asymptotic/alternative/mod.rs:146-149 *)
Definition nondimensional_end_to_end_length_per_link (self : t T) (nondimensional_force : T)
    (temperature : T) : T :=
  efjc_isotensional_asymptotic_alternative.nondimensional_end_to_end_length_per_link (link_stiffness
      self * spowi (link_length self) 2 / BOLTZMANN_CONSTANT / temperature) nondimensional_force.

(* /repo/src/physics/single_chain/efjc/thermodynamics/isotensional/asymptotic/alternative/mod.rs:151-154 *)
Definition gibbs_free_energy (self : t T) (force : T) (temperature : T) : T :=
  efjc_isotensional_asymptotic_alternative.gibbs_free_energy (number_of_links self) (link_length
      self) (hinge_mass self) (link_stiffness self) force temperature.

(* /repo/src/physics/single_chain/efjc/thermodynamics/isotensional/asymptotic/alternative/mod.rs:156-159 *)
Definition gibbs_free_energy_per_link (self : t T) (force : T) (temperature : T) : T :=
  efjc_isotensional_asymptotic_alternative.gibbs_free_energy_per_link (link_length self) (hinge_mass
      self) (link_stiffness self) force temperature.

(* /repo/src/physics/single_chain/efjc/thermodynamics/isotensional/asymptotic/alternative/mod.rs:161-164 *)
Definition relative_gibbs_free_energy (self : t T) (force : T) (temperature : T) : T :=
  efjc_isotensional_asymptotic_alternative.relative_gibbs_free_energy (number_of_links self)
      (link_length self) (link_stiffness self) force temperature.

(* /repo/src/physics/single_chain/efjc/thermodynamics/isotensional/asymptotic/alternative/mod.rs:166-169 *)
Definition relative_gibbs_free_energy_per_link (self : t T) (force : T) (temperature : T) : T :=
  efjc_isotensional_asymptotic_alternative.relative_gibbs_free_energy_per_link (link_length self)
      (link_stiffness self) force temperature.

(* /repo/src/physics/single_chain/efjc/thermodynamics/isotensional/asymptotic/alternative/mod.rs:171-174 *)
Definition nondimensional_gibbs_free_energy (self : t T) (nondimensional_force : T) (temperature :
    T) : T :=
  efjc_isotensional_asymptotic_alternative.nondimensional_gibbs_free_energy (number_of_links self)
      (link_length self) (hinge_mass self) (link_stiffness self * spowi (link_length self) 2 /
      BOLTZMANN_CONSTANT / temperature) nondimensional_force temperature.

(* /repo/src/physics/single_chain/efjc/thermodynamics/isotensional/asymptotic/alternative/mod.rs:176-179 *)
Definition nondimensional_gibbs_free_energy_per_link (self : t T) (nondimensional_force : T)
    (temperature : T) : T :=
  efjc_isotensional_asymptotic_alternative.nondimensional_gibbs_free_energy_per_link (link_length
      self) (hinge_mass self) (link_stiffness self * spowi (link_length self) 2 / BOLTZMANN_CONSTANT
      / temperature) nondimensional_force temperature.

(* /repo/src/physics/single_chain/efjc/thermodynamics/isotensional/asymptotic/alternative/mod.rs:181-184 *)
Definition nondimensional_relative_gibbs_free_energy (self : t T) (nondimensional_force : T)
    (temperature : T) : T :=
  efjc_isotensional_asymptotic_alternative.nondimensional_relative_gibbs_free_energy
      (number_of_links self) (link_stiffness self * spowi (link_length self) 2 / BOLTZMANN_CONSTANT
      / temperature) nondimensional_force.

(* /repo/src/physics/single_chain/efjc/thermodynamics/isotensional/asymptotic/alternative/mod.rs:186-189 *)
Definition nondimensional_relative_gibbs_free_energy_per_link (self : t T) (nondimensional_force :
    T) (temperature : T) : T :=
  efjc_isotensional_asymptotic_alternative.nondimensional_relative_gibbs_free_energy_per_link
      (link_stiffness self * spowi (link_length self) 2 / BOLTZMANN_CONSTANT / temperature)
      nondimensional_force.

End Model.
End O_efjc_isotensional_asymptotic_alternative.

(** /repo/src/physics/single_chain/efjc/thermodynamics/isotensional/asymptotic/legendre/mod.rs: struct EFJC *)
Module O_efjc_isotensional_asymptotic_legendre.
(* /repo/src/physics/single_chain/efjc/thermodynamics/isotensional/asymptotic/legendre/mod.rs:18-31 *)
Record t {T : Type} := { hinge_mass : T; link_length : T; number_of_links : Z; link_stiffness : T }.
Arguments t : clear implicits.
Section Model.
Context {T : Type} {Sc : Scalar T}.

(* /repo/src/physics/single_chain/efjc/thermodynamics/isotensional/asymptotic/legendre/mod.rs:85-94 *)
Definition init (number_of_links : Z) (link_length : T) (hinge_mass : T) (link_stiffness : T) : t T
    :=
  {| hinge_mass := hinge_mass; link_length := link_length; number_of_links := number_of_links;
      link_stiffness := link_stiffness |}.

(* /repo/src/physics/single_chain/efjc/thermodynamics/isotensional/asymptotic/legendre/mod.rs:96-99 *)
Definition helmholtz_free_energy (self : t T) (force : T) (temperature : T) : T :=
  efjc_isotensional_asymptotic_legendre.helmholtz_free_energy (number_of_links self) (link_length
      self) (hinge_mass self) (link_stiffness self) force temperature.

(* /repo/src/physics/single_chain/efjc/thermodynamics/isotensional/asymptotic/legendre/mod.rs:101-104 *)
Definition helmholtz_free_energy_per_link (self : t T) (force : T) (temperature : T) : T :=
  efjc_isotensional_asymptotic_legendre.helmholtz_free_energy_per_link (link_length self)
      (hinge_mass self) (link_stiffness self) force temperature.

(* /repo/src/physics/single_chain/efjc/thermodynamics/isotensional/asymptotic/legendre/mod.rs:106-109 *)
Definition relative_helmholtz_free_energy (self : t T) (force : T) (temperature : T) : T :=
  efjc_isotensional_asymptotic_legendre.relative_helmholtz_free_energy (number_of_links self)
      (link_length self) (link_stiffness self) force temperature.

(* /repo/src/physics/single_chain/efjc/thermodynamics/isotensional/asymptotic/legendre/mod.rs:111-114 *)
Definition relative_helmholtz_free_energy_per_link (self : t T) (force : T) (temperature : T) : T :=
  efjc_isotensional_asymptotic_legendre.relative_helmholtz_free_energy_per_link (link_length self)
      (link_stiffness self) force temperature.

(* /repo/src/physics/single_chain/efjc/thermodynamics/isotensional/asymptotic/legendre/mod.rs:116-119 *)
Definition nondimensional_helmholtz_free_energy (self : t T) (nondimensional_force : T) (temperature
    : T) : T :=
  efjc_isotensional_asymptotic_legendre.nondimensional_helmholtz_free_energy (number_of_links self)
      (link_length self) (hinge_mass self) (link_stiffness self * spowi (link_length self) 2 /
      BOLTZMANN_CONSTANT / temperature) nondimensional_force temperature.

(* /repo/src/physics/single_chain/efjc/thermodynamics/isotensional/asymptotic/legendre/mod.rs:121-124 *)
Definition nondimensional_helmholtz_free_energy_per_link (self : t T) (nondimensional_force : T)
    (temperature : T) : T :=
  - sln (ssinh nondimensional_force / nondimensional_force) - sdec 5 1 * spowi nondimensional_force
      2 / (link_stiffness self * spowi (link_length self) 2 / BOLTZMANN_CONSTANT / temperature) -
      sln (sdec 1 0 + nondimensional_force / (link_stiffness self * spowi (link_length self) 2 /
      BOLTZMANN_CONSTANT / temperature) / stanh nondimensional_force) - sdec 5 1 * sln (sdec 2 0 *
      spi * BOLTZMANN_CONSTANT * temperature / link_stiffness self) - sln (sdec 8 0 * spowi spi 2 *
      hinge_mass self * spowi (link_length self) 2 * BOLTZMANN_CONSTANT * temperature / spowi
      PLANCK_CONSTANT 2) + nondimensional_force / stanh nondimensional_force - sdec 1 0 + spowi
      nondimensional_force 2 / (link_stiffness self * spowi (link_length self) 2 /
      BOLTZMANN_CONSTANT / temperature) * (sdec 1 0 + (stanh nondimensional_force - sdec 1 0 / stanh
      nondimensional_force + sdec 1 0 / nondimensional_force) / (stanh nondimensional_force +
      nondimensional_force / (link_stiffness self * spowi (link_length self) 2 / BOLTZMANN_CONSTANT
      / temperature))).

(* /repo/src/physics/single_chain/efjc/thermodynamics/isotensional/asymptotic/legendre/mod.rs:126-129 *)
Definition nondimensional_relative_helmholtz_free_energy (self : t T) (nondimensional_force : T)
    (temperature : T) : T :=
  efjc_isotensional_asymptotic_legendre.nondimensional_relative_helmholtz_free_energy
      (number_of_links self) (link_stiffness self * spowi (link_length self) 2 / BOLTZMANN_CONSTANT
      / temperature) nondimensional_force.

(* /repo/src/physics/single_chain/efjc/thermodynamics/isotensional/asymptotic/legendre/mod.rs:131-134 *)
Definition nondimensional_relative_helmholtz_free_energy_per_link (self : t T) (nondimensional_force
    : T) (temperature : T) : T :=
  efjc_isotensional_asymptotic_legendre.nondimensional_relative_helmholtz_free_energy_per_link
      (link_stiffness self * spowi (link_length self) 2 / BOLTZMANN_CONSTANT / temperature)
      nondimensional_force.

End Model.
End O_efjc_isotensional_asymptotic_legendre.

(** /repo/src/physics/single_chain/efjc/thermodynamics/isotensional/asymptotic/reduced/mod.rs: struct EFJC *)
Module O_efjc_isotensional_asymptotic_reduced.
(* /repo/src/physics/single_chain/efjc/thermodynamics/isotensional/asymptotic/reduced/mod.rs:21-37 *)
Record t {T : Type} := { hinge_mass : T; link_length : T; number_of_links : Z; link_stiffness : T; legendre : O_efjc_isotensional_asymptotic_reduced_legendre.t T }.
Arguments t : clear implicits.
Section Model.
Context {T : Type} {Sc : Scalar T}.

(* /repo/src/physics/single_chain/efjc/thermodynamics/isotensional/asymptotic/reduced/mod.rs:117-127 *)
Definition init (number_of_links : Z) (link_length : T) (hinge_mass : T) (link_stiffness : T) : t T
    :=
  {| hinge_mass := hinge_mass; link_length := link_length; number_of_links := number_of_links;
      link_stiffness := link_stiffness; legendre :=
      O_efjc_isotensional_asymptotic_reduced_legendre.init number_of_links link_length hinge_mass
      link_stiffness |}.

(* /repo/src/physics/single_chain/efjc/thermodynamics/isotensional/asymptotic/reduced/mod.rs:129-132 *)
Definition end_to_end_length (self : t T) (force : T) (temperature : T) : T :=
  efjc_isotensional_asymptotic_reduced.end_to_end_length (number_of_links self) (link_length self)
      (link_stiffness self) force temperature.

(* /repo/src/physics/single_chain/efjc/thermodynamics/isotensional/asymptotic/reduced/mod.rs:134-137 *)
Definition end_to_end_length_per_link (self : t T) (force : T) (temperature : T) : T :=
  efjc_isotensional_asymptotic_reduced.end_to_end_length_per_link (link_length self) (link_stiffness
      self) force temperature.

(* /repo/src/physics/single_chain/efjc/thermodynamics/isotensional/asymptotic/reduced/mod.rs:139-142 *)
Definition nondimensional_end_to_end_length (self : t T) (nondimensional_force : T) (temperature :
    T) : T :=
  efjc_isotensional_asymptotic_reduced.nondimensional_end_to_end_length (number_of_links self)
      (link_stiffness self * spowi (link_length self) 2 / BOLTZMANN_CONSTANT / temperature)
      nondimensional_force.

(* /repo/src/physics/single_chain/efjc/thermodynamics/isotensional/asymptotic/reduced/mod.rs:144-147 *)
Definition nondimensional_end_to_end_length_per_link (self : t T) (nondimensional_force : T)
    (temperature : T) : T :=
  efjc_isotensional_asymptotic_reduced.nondimensional_end_to_end_length_per_link (link_stiffness
      self * spowi (link_length self) 2 / BOLTZMANN_CONSTANT / temperature) nondimensional_force.

(* /repo/src/physics/single_chain/efjc/thermodynamics/isotensional/asymptotic/reduced/mod.rs:149-152 *)
Definition gibbs_free_energy (self : t T) (force : T) (temperature : T) : T :=
  efjc_isotensional_asymptotic_reduced.gibbs_free_energy (number_of_links self) (link_length self)
      (hinge_mass self) (link_stiffness self) force temperature.

(* /repo/src/physics/single_chain/efjc/thermodynamics/isotensional/asymptotic/reduced/mod.rs:154-157 *)
Definition gibbs_free_energy_per_link (self : t T) (force : T) (temperature : T) : T :=
  efjc_isotensional_asymptotic_reduced.gibbs_free_energy_per_link (link_length self) (hinge_mass
      self) (link_stiffness self) force temperature.

(* /repo/src/physics/single_chain/efjc/thermodynamics/isotensional/asymptotic/reduced/mod.rs:159-162 *)
Definition relative_gibbs_free_energy (self : t T) (force : T) (temperature : T) : T :=
  efjc_isotensional_asymptotic_reduced.relative_gibbs_free_energy (number_of_links self)
      (link_length self) (link_stiffness self) force temperature.

(* /repo/src/physics/single_chain/efjc/thermodynamics/isotensional/asymptotic/reduced/mod.rs:164-167 *)
Definition relative_gibbs_free_energy_per_link (self : t T) (force : T) (temperature : T) : T :=
  efjc_isotensional_asymptotic_reduced.relative_gibbs_free_energy_per_link (link_length self)
      (link_stiffness self) force temperature.

(* /repo/src/physics/single_chain/efjc/thermodynamics/isotensional/asymptotic/reduced/mod.rs:169-172 *)
Definition nondimensional_gibbs_free_energy (self : t T) (nondimensional_force : T) (temperature :
    T) : T :=
  efjc_isotensional_asymptotic_reduced.nondimensional_gibbs_free_energy (number_of_links self)
      (link_length self) (hinge_mass self) (link_stiffness self * spowi (link_length self) 2 /
      BOLTZMANN_CONSTANT / temperature) nondimensional_force temperature.

(* /repo/src/physics/single_chain/efjc/thermodynamics/isotensional/asymptotic/reduced/mod.rs:174-177 *)
Definition nondimensional_gibbs_free_energy_per_link (self : t T) (nondimensional_force : T)
    (temperature : T) : T :=
  efjc_isotensional_asymptotic_reduced.nondimensional_gibbs_free_energy_per_link (link_length self)
      (hinge_mass self) (link_stiffness self * spowi (link_length self) 2 / BOLTZMANN_CONSTANT /
      temperature) nondimensional_force temperature.

(* /repo/src/physics/single_chain/efjc/thermodynamics/isotensional/asymptotic/reduced/mod.rs:179-182 *)
Definition nondimensional_relative_gibbs_free_energy (self : t T) (nondimensional_force : T)
    (temperature : T) : T :=
  efjc_isotensional_asymptotic_reduced.nondimensional_relative_gibbs_free_energy (number_of_links
      self) (link_stiffness self * spowi (link_length self) 2 / BOLTZMANN_CONSTANT / temperature)
      nondimensional_force.

(* /repo/src/physics/single_chain/efjc/thermodynamics/isotensional/asymptotic/reduced/mod.rs:184-187 *)
Definition nondimensional_relative_gibbs_free_energy_per_link (self : t T) (nondimensional_force :
    T) (temperature : T) : T :=
  efjc_isotensional_asymptotic_reduced.nondimensional_relative_gibbs_free_energy_per_link
      (link_stiffness self * spowi (link_length self) 2 / BOLTZMANN_CONSTANT / temperature)
      nondimensional_force.

End Model.
End O_efjc_isotensional_asymptotic_reduced.

(** /repo/src/physics/single_chain/efjc/thermodynamics/isometric/asymptotic/mod.rs: struct EFJC *)
Module O_efjc_isometric_asymptotic.
(* /repo/src/physics/single_chain/efjc/thermodynamics/isometric/asymptotic/mod.rs:16-38 *)
Record t {T : Type} := { hinge_mass : T; link_length : T; number_of_links : Z; link_stiffness : T; alternative : O_efjc_isometric_asymptotic_alternative.t T; reduced : O_efjc_isometric_asymptotic_reduced.t T; legendre : O_efjc_isometric_asymptotic_legendre.t T }.
Arguments t : clear implicits.
Section Model.
Context {T : Type} {Sc : Scalar T}.

(* /repo/src/physics/single_chain/efjc/thermodynamics/isometric/asymptotic/mod.rs:44-56 *)
Definition init (number_of_links : Z) (link_length : T) (hinge_mass : T) (link_stiffness : T) : t T
    :=
  {| hinge_mass := hinge_mass; link_length := link_length; number_of_links := number_of_links;
      link_stiffness := link_stiffness; alternative := O_efjc_isometric_asymptotic_alternative.init
      number_of_links link_length hinge_mass link_stiffness; reduced :=
      O_efjc_isometric_asymptotic_reduced.init number_of_links link_length hinge_mass
      link_stiffness; legendre := O_efjc_isometric_asymptotic_legendre.init number_of_links
      link_length hinge_mass link_stiffness |}.

End Model.
End O_efjc_isometric_asymptotic.

(** /repo/src/physics/single_chain/efjc/thermodynamics/isotensional/asymptotic/mod.rs: struct EFJC *)
Module O_efjc_isotensional_asymptotic.
(* /repo/src/physics/single_chain/efjc/thermodynamics/isotensional/asymptotic/mod.rs:27-49 *)
Record t {T : Type} := { hinge_mass : T; link_length : T; number_of_links : Z; link_stiffness : T; alternative : O_efjc_isotensional_asymptotic_alternative.t T; reduced : O_efjc_isotensional_asymptotic_reduced.t T; legendre : O_efjc_isotensional_asymptotic_legendre.t T }.
Arguments t : clear implicits.
Section Model.
Context {T : Type} {Sc : Scalar T}.

(* /repo/src/physics/single_chain/efjc/thermodynamics/isotensional/asymptotic/mod.rs:131-143 *)
Definition init (number_of_links : Z) (link_length : T) (hinge_mass : T) (link_stiffness : T) : t T
    :=
  {| hinge_mass := hinge_mass; link_length := link_length; number_of_links := number_of_links;
      link_stiffness := link_stiffness; alternative :=
      O_efjc_isotensional_asymptotic_alternative.init number_of_links link_length hinge_mass
      link_stiffness; reduced := O_efjc_isotensional_asymptotic_reduced.init number_of_links
      link_length hinge_mass link_stiffness; legendre :=
      O_efjc_isotensional_asymptotic_legendre.init number_of_links link_length hinge_mass
      link_stiffness |}.

(* /repo/src/physics/single_chain/efjc/thermodynamics/isotensional/asymptotic/mod.rs:145-148 *)
Definition end_to_end_length (self : t T) (force : T) (temperature : T) : T :=
  efjc_isotensional_asymptotic.end_to_end_length (number_of_links self) (link_length self)
      (link_stiffness self) force temperature.

(* /repo/src/physics/single_chain/efjc/thermodynamics/isotensional/asymptotic/mod.rs:150-153 *)
Definition end_to_end_length_per_link (self : t T) (force : T) (temperature : T) : T :=
  efjc_isotensional_asymptotic.end_to_end_length_per_link (link_length self) (link_stiffness self)
      force temperature.

(* /repo/src/physics/single_chain/efjc/thermodynamics/isotensional/asymptotic/mod.rs:155-158 *)
Definition nondimensional_end_to_end_length (self : t T) (nondimensional_force : T) (temperature :
    T) : T :=
  efjc_isotensional_asymptotic.nondimensional_end_to_end_length (number_of_links self)
      (link_stiffness self * spowi (link_length self) 2 / BOLTZMANN_CONSTANT / temperature)
      nondimensional_force.

(* /repo/src/physics/single_chain/efjc/thermodynamics/isotensional/asymptotic/mod.rs:160-163 *)
Definition nondimensional_end_to_end_length_per_link (self : t T) (nondimensional_force : T)
    (temperature : T) : T :=
  efjc_isotensional_asymptotic.nondimensional_end_to_end_length_per_link (link_stiffness self *
      spowi (link_length self) 2 / BOLTZMANN_CONSTANT / temperature) nondimensional_force.

(* /repo/src/physics/single_chain/efjc/thermodynamics/isotensional/asymptotic/mod.rs:165-168 *)
Definition gibbs_free_energy (self : t T) (force : T) (temperature : T) : T :=
  efjc_isotensional_asymptotic.gibbs_free_energy (number_of_links self) (link_length self)
      (hinge_mass self) (link_stiffness self) force temperature.

(* /repo/src/physics/single_chain/efjc/thermodynamics/isotensional/asymptotic/mod.rs:170-173 *)
Definition gibbs_free_energy_per_link (self : t T) (force : T) (temperature : T) : T :=
  efjc_isotensional_asymptotic.gibbs_free_energy_per_link (link_length self) (hinge_mass self)
      (link_stiffness self) force temperature.

(* /repo/src/physics/single_chain/efjc/thermodynamics/isotensional/asymptotic/mod.rs:175-178 *)
Definition relative_gibbs_free_energy (self : t T) (force : T) (temperature : T) : T :=
  efjc_isotensional_asymptotic.relative_gibbs_free_energy (number_of_links self) (link_length self)
      (link_stiffness self) force temperature.

(* /repo/src/physics/single_chain/efjc/thermodynamics/isotensional/asymptotic/mod.rs:180-183 *)
Definition relative_gibbs_free_energy_per_link (self : t T) (force : T) (temperature : T) : T :=
  efjc_isotensional_asymptotic.relative_gibbs_free_energy_per_link (link_length self)
      (link_stiffness self) force temperature.

(* /repo/src/physics/single_chain/efjc/thermodynamics/isotensional/asymptotic/mod.rs:185-188 *)
Definition nondimensional_gibbs_free_energy (self : t T) (nondimensional_force : T) (temperature :
    T) : T :=
  efjc_isotensional_asymptotic.nondimensional_gibbs_free_energy (number_of_links self) (link_length
      self) (hinge_mass self) (link_stiffness self * spowi (link_length self) 2 / BOLTZMANN_CONSTANT
      / temperature) nondimensional_force temperature.

(* /repo/src/physics/single_chain/efjc/thermodynamics/isotensional/asymptotic/mod.rs:190-193 *)
Definition nondimensional_gibbs_free_energy_per_link (self : t T) (nondimensional_force : T)
    (temperature : T) : T :=
  efjc_isotensional_asymptotic.nondimensional_gibbs_free_energy_per_link (link_length self)
      (hinge_mass self) (link_stiffness self * spowi (link_length self) 2 / BOLTZMANN_CONSTANT /
      temperature) nondimensional_force temperature.

(* /repo/src/physics/single_chain/efjc/thermodynamics/isotensional/asymptotic/mod.rs:195-198 *)
Definition nondimensional_relative_gibbs_free_energy (self : t T) (nondimensional_force : T)
    (temperature : T) : T :=
  efjc_isotensional_asymptotic.nondimensional_relative_gibbs_free_energy (number_of_links self)
      (link_stiffness self * spowi (link_length self) 2 / BOLTZMANN_CONSTANT / temperature)
      nondimensional_force.

(* /repo/src/physics/single_chain/efjc/thermodynamics/isotensional/asymptotic/mod.rs:200-203 *)
Definition nondimensional_relative_gibbs_free_energy_per_link (self : t T) (nondimensional_force :
    T) (temperature : T) : T :=
  efjc_isotensional_asymptotic.nondimensional_relative_gibbs_free_energy_per_link (link_stiffness
      self * spowi (link_length self) 2 / BOLTZMANN_CONSTANT / temperature) nondimensional_force.

End Model.
End O_efjc_isotensional_asymptotic.

(** /repo/src/physics/single_chain/efjc/thermodynamics/isotensional/legendre/mod.rs: struct EFJC *)
Module O_efjc_isotensional_legendre.
(* /repo/src/physics/single_chain/efjc/thermodynamics/isotensional/legendre/mod.rs:19-32 *)
Record t {T : Type} := { hinge_mass : T; link_length : T; number_of_links : Z; link_stiffness : T }.
Arguments t : clear implicits.
Section Model.
Context {T : Type} {Sc : Scalar T}.

(* /repo/src/physics/single_chain/efjc/thermodynamics/isotensional/legendre/mod.rs:88-97 *)
Definition init (number_of_links : Z) (link_length : T) (hinge_mass : T) (link_stiffness : T) : t T
    :=
  {| hinge_mass := hinge_mass; link_length := link_length; number_of_links := number_of_links;
      link_stiffness := link_stiffness |}.

(* /repo/src/physics/single_chain/efjc/thermodynamics/isotensional/legendre/mod.rs:99-102 *)
Definition helmholtz_free_energy (self : t T) (force : T) (temperature : T) : T :=
  efjc_isotensional_legendre.helmholtz_free_energy (number_of_links self) (link_length self)
      (hinge_mass self) (link_stiffness self) force temperature.

(* /repo/src/physics/single_chain/efjc/thermodynamics/isotensional/legendre/mod.rs:104-107 *)
Definition helmholtz_free_energy_per_link (self : t T) (force : T) (temperature : T) : T :=
  efjc_isotensional_legendre.helmholtz_free_energy_per_link (link_length self) (hinge_mass self)
      (link_stiffness self) force temperature.

(* /repo/src/physics/single_chain/efjc/thermodynamics/isotensional/legendre/mod.rs:109-112 *)
Definition relative_helmholtz_free_energy (self : t T) (force : T) (temperature : T) : T :=
  efjc_isotensional_legendre.relative_helmholtz_free_energy (number_of_links self) (link_length
      self) (link_stiffness self) force temperature.

(* /repo/src/physics/single_chain/efjc/thermodynamics/isotensional/legendre/mod.rs:114-117 *)
Definition relative_helmholtz_free_energy_per_link (self : t T) (force : T) (temperature : T) : T :=
  efjc_isotensional_legendre.relative_helmholtz_free_energy_per_link (link_length self)
      (link_stiffness self) force temperature.

(* /repo/src/physics/single_chain/efjc/thermodynamics/isotensional/legendre/mod.rs:119-122 *)
Definition nondimensional_helmholtz_free_energy (self : t T) (nondimensional_force : T) (temperature
    : T) : T :=
  efjc_isotensional_legendre.nondimensional_helmholtz_free_energy (number_of_links self)
      (link_length self) (hinge_mass self) (link_stiffness self * spowi (link_length self) 2 /
      BOLTZMANN_CONSTANT / temperature) nondimensional_force temperature.

(* /repo/src/physics/single_chain/efjc/thermodynamics/isotensional/legendre/mod.rs:124-127 *)
Definition nondimensional_helmholtz_free_energy_per_link (self : t T) (nondimensional_force : T)
    (temperature : T) : T :=
  efjc_isotensional_legendre.nondimensional_helmholtz_free_energy_per_link (link_length self)
      (hinge_mass self) (link_stiffness self * spowi (link_length self) 2 / BOLTZMANN_CONSTANT /
      temperature) nondimensional_force temperature.

(* /repo/src/physics/single_chain/efjc/thermodynamics/isotensional/legendre/mod.rs:129-132 *)
Definition nondimensional_relative_helmholtz_free_energy (self : t T) (nondimensional_force : T)
    (temperature : T) : T :=
  efjc_isotensional_legendre.nondimensional_relative_helmholtz_free_energy (number_of_links self)
      (link_stiffness self * spowi (link_length self) 2 / BOLTZMANN_CONSTANT / temperature)
      nondimensional_force.

(* /repo/src/physics/single_chain/efjc/thermodynamics/isotensional/legendre/mod.rs:134-137 *)
Definition nondimensional_relative_helmholtz_free_energy_per_link (self : t T) (nondimensional_force
    : T) (temperature : T) : T :=
  efjc_isotensional_legendre.nondimensional_relative_helmholtz_free_energy_per_link (link_stiffness
      self * spowi (link_length self) 2 / BOLTZMANN_CONSTANT / temperature) nondimensional_force.

End Model.
End O_efjc_isotensional_legendre.

(** /repo/src/physics/single_chain/efjc/thermodynamics/isometric/mod.rs: struct EFJC *)
Module O_efjc_isometric.
(* /repo/src/physics/single_chain/efjc/thermodynamics/isometric/mod.rs:13-29 *)
Record t {T : Type} := { hinge_mass : T; link_length : T; number_of_links : Z; link_stiffness : T; asymptotic : O_efjc_isometric_asymptotic.t T }.
Arguments t : clear implicits.
Section Model.
Context {T : Type} {Sc : Scalar T}.

(* /repo/src/physics/single_chain/efjc/thermodynamics/isometric/mod.rs:35-45 *)
Definition init (number_of_links : Z) (link_length : T) (hinge_mass : T) (link_stiffness : T) : t T
    :=
  {| hinge_mass := hinge_mass; link_length := link_length; number_of_links := number_of_links;
      link_stiffness := link_stiffness; asymptotic := O_efjc_isometric_asymptotic.init
      number_of_links link_length hinge_mass link_stiffness |}.

End Model.
End O_efjc_isometric.

(** /repo/src/physics/single_chain/efjc/thermodynamics/isotensional/mod.rs: struct EFJC *)
Module O_efjc_isotensional.
(* /repo/src/physics/single_chain/efjc/thermodynamics/isotensional/mod.rs:25-44 *)
Record t {T : Type} := { hinge_mass : T; link_length : T; number_of_links : Z; link_stiffness : T; asymptotic : O_efjc_isotensional_asymptotic.t T; legendre : O_efjc_isotensional_legendre.t T }.
Arguments t : clear implicits.
Section Model.
Context {T : Type} {Sc : Scalar T}.

(* /repo/src/physics/single_chain/efjc/thermodynamics/isotensional/mod.rs:128-139 *)
Definition init (number_of_links : Z) (link_length : T) (hinge_mass : T) (link_stiffness : T) : t T
    :=
  {| hinge_mass := hinge_mass; link_length := link_length; number_of_links := number_of_links;
      link_stiffness := link_stiffness; asymptotic := O_efjc_isotensional_asymptotic.init
      number_of_links link_length hinge_mass link_stiffness; legendre :=
      O_efjc_isotensional_legendre.init number_of_links link_length hinge_mass link_stiffness |}.

(* /repo/src/physics/single_chain/efjc/thermodynamics/isotensional/mod.rs:141-144 *)
Definition end_to_end_length (self : t T) (force : T) (temperature : T) : T :=
  efjc_isotensional.end_to_end_length (number_of_links self) (link_length self) (link_stiffness
      self) force temperature.

(* /repo/src/physics/single_chain/efjc/thermodynamics/isotensional/mod.rs:146-149 *)
Definition end_to_end_length_per_link (self : t T) (force : T) (temperature : T) : T :=
  efjc_isotensional.end_to_end_length_per_link (link_length self) (link_stiffness self) force
      temperature.

(* /repo/src/physics/single_chain/efjc/thermodynamics/isotensional/mod.rs:151-154 *)
Definition nondimensional_end_to_end_length (self : t T) (nondimensional_force : T) (temperature :
    T) : T :=
  efjc_isotensional.nondimensional_end_to_end_length (number_of_links self) (link_stiffness self *
      spowi (link_length self) 2 / BOLTZMANN_CONSTANT / temperature) nondimensional_force.

(* /repo/src/physics/single_chain/efjc/thermodynamics/isotensional/mod.rs:156-159 *)
Definition nondimensional_end_to_end_length_per_link (self : t T) (nondimensional_force : T)
    (temperature : T) : T :=
  efjc_isotensional.nondimensional_end_to_end_length_per_link (link_stiffness self * spowi
      (link_length self) 2 / BOLTZMANN_CONSTANT / temperature) nondimensional_force.

(* /repo/src/physics/single_chain/efjc/thermodynamics/isotensional/mod.rs:161-164 *)
Definition gibbs_free_energy (self : t T) (force : T) (temperature : T) : T :=
  efjc_isotensional.gibbs_free_energy (number_of_links self) (link_length self) (hinge_mass self)
      (link_stiffness self) force temperature.

(* /repo/src/physics/single_chain/efjc/thermodynamics/isotensional/mod.rs:166-169 *)
Definition gibbs_free_energy_per_link (self : t T) (force : T) (temperature : T) : T :=
  efjc_isotensional.gibbs_free_energy_per_link (link_length self) (hinge_mass self) (link_stiffness
      self) force temperature.

(* /repo/src/physics/single_chain/efjc/thermodynamics/isotensional/mod.rs:171-174 *)
Definition relative_gibbs_free_energy (self : t T) (force : T) (temperature : T) : T :=
  efjc_isotensional.relative_gibbs_free_energy (number_of_links self) (link_length self)
      (link_stiffness self) force temperature.

(* /repo/src/physics/single_chain/efjc/thermodynamics/isotensional/mod.rs:176-179 *)
Definition relative_gibbs_free_energy_per_link (self : t T) (force : T) (temperature : T) : T :=
  efjc_isotensional.relative_gibbs_free_energy_per_link (link_length self) (link_stiffness self)
      force temperature.

(* /repo/src/physics/single_chain/efjc/thermodynamics/isotensional/mod.rs:181-184 *)
Definition nondimensional_gibbs_free_energy (self : t T) (nondimensional_force : T) (temperature :
    T) : T :=
  efjc_isotensional.nondimensional_gibbs_free_energy (number_of_links self) (link_length self)
      (hinge_mass self) (link_stiffness self * spowi (link_length self) 2 / BOLTZMANN_CONSTANT /
      temperature) nondimensional_force temperature.

(* /repo/src/physics/single_chain/efjc/thermodynamics/isotensional/mod.rs:186-189 *)
Definition nondimensional_gibbs_free_energy_per_link (self : t T) (nondimensional_force : T)
    (temperature : T) : T :=
  efjc_isotensional.nondimensional_gibbs_free_energy_per_link (link_length self) (hinge_mass self)
      (link_stiffness self * spowi (link_length self) 2 / BOLTZMANN_CONSTANT / temperature)
      nondimensional_force temperature.

(* /repo/src/physics/single_chain/efjc/thermodynamics/isotensional/mod.rs:191-194 *)
Definition nondimensional_relative_gibbs_free_energy (self : t T) (nondimensional_force : T)
    (temperature : T) : T :=
  efjc_isotensional.nondimensional_relative_gibbs_free_energy (number_of_links self) (link_stiffness
      self * spowi (link_length self) 2 / BOLTZMANN_CONSTANT / temperature) nondimensional_force.

(* /repo/src/physics/single_chain/efjc/thermodynamics/isotensional/mod.rs:196-199 *)
Definition nondimensional_relative_gibbs_free_energy_per_link (self : t T) (nondimensional_force :
    T) (temperature : T) : T :=
  efjc_isotensional.nondimensional_relative_gibbs_free_energy_per_link (link_stiffness self * spowi
      (link_length self) 2 / BOLTZMANN_CONSTANT / temperature) nondimensional_force.

End Model.
End O_efjc_isotensional.

(** /repo/src/physics/single_chain/efjc/thermodynamics/mod.rs: struct EFJC *)
Module O_efjc_thermodynamics.
(* /repo/src/physics/single_chain/efjc/thermodynamics/mod.rs:13-32 *)
Record t {T : Type} := { hinge_mass : T; link_length : T; number_of_links : Z; link_stiffness : T; isometric : O_efjc_isometric.t T; isotensional : O_efjc_isotensional.t T }.
Arguments t : clear implicits.
Section Model.
Context {T : Type} {Sc : Scalar T}.

(* /repo/src/physics/single_chain/efjc/thermodynamics/mod.rs:38-49 *)
Definition init (number_of_links : Z) (link_length : T) (hinge_mass : T) (link_stiffness : T) : t T
    :=
  {| hinge_mass := hinge_mass; link_length := link_length; number_of_links := number_of_links;
      link_stiffness := link_stiffness; isometric := O_efjc_isometric.init number_of_links
      link_length hinge_mass link_stiffness; isotensional := O_efjc_isotensional.init
      number_of_links link_length hinge_mass link_stiffness |}.

End Model.
End O_efjc_thermodynamics.

(** /repo/src/physics/single_chain/efjc/mod.rs: struct EFJC *)
Module O_efjc.
(* /repo/src/physics/single_chain/efjc/mod.rs:10-26 *)
Record t {T : Type} := { hinge_mass : T; link_length : T; number_of_links : Z; link_stiffness : T; thermodynamics : O_efjc_thermodynamics.t T }.
Arguments t : clear implicits.
Section Model.
Context {T : Type} {Sc : Scalar T}.

(* /repo/src/physics/single_chain/efjc/mod.rs:32-42 *)
Definition init (number_of_links : Z) (link_length : T) (hinge_mass : T) (link_stiffness : T) : t T
    :=
  {| hinge_mass := hinge_mass; link_length := link_length; number_of_links := number_of_links;
      link_stiffness := link_stiffness; thermodynamics := O_efjc_thermodynamics.init number_of_links
      link_length hinge_mass link_stiffness |}.

End Model.
End O_efjc.

