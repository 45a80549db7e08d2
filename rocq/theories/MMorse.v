(** Morse-FJC model.
    Generated by tools/translate.py from the files cited at each definition. *)
From Coq Require Import ZArith List Bool.
From Verif Require Import Scalar MMath MConst.
Import ListNotations.
Local Open Scope scalar_scope.

(** /repo/src/physics/single_chain/ufjc/morse/thermodynamics/isometric/asymptotic/legendre/mod.rs *)
Module morse_isometric_asymptotic_legendre.
Section Model.
Context {T : Type} {Sc : Scalar T}.

(* /repo/src/physics/single_chain/ufjc/morse/thermodynamics/isometric/asymptotic/legendre/mod.rs:48-66 *)
Definition nondimensional_force (nondimensional_link_stiffness : T) (nondimensional_link_energy : T)
    (nondimensional_end_to_end_length_per_link : T) : T :=
  let nondimensional_morse_parameter := ssqrt (nondimensional_link_stiffness /
      nondimensional_link_energy / sdec 2 0) in
  let c := sdec 1 0 / (sdec 1 0 + sdec 15 1 * nondimensional_morse_parameter) in
  let nondimensional_force_max := ssqrt (nondimensional_link_energy * nondimensional_link_stiffness
      / sdec 8 0) in
  let guess := if nondimensional_end_to_end_length_per_link <? sdec 1 0 then math.inverse_langevin
      nondimensional_end_to_end_length_per_link else sdec 95 2 * nondimensional_force_max in
  let guess := if nondimensional_force_max <? guess then sdec 95 2 * nondimensional_force_max else
      guess in
  math.inverse_newton_raphson_powered nondimensional_end_to_end_length_per_link (fun
      nondimensional_force => sdec 1 0 / stanh nondimensional_force - sdec 1 0 /
      nondimensional_force + nondimensional_force / nondimensional_link_stiffness * ((stanh
      nondimensional_force - sdec 1 0 / stanh nondimensional_force + sdec 1 0 /
      nondimensional_force) / (c * stanh nondimensional_force + nondimensional_force /
      nondimensional_link_stiffness)) + sln (sdec 2 0 / (sdec 1 0 + ssqrt (sdec 1 0 -
      nondimensional_force / nondimensional_force_max))) / nondimensional_morse_parameter) (fun
      nondimensional_force => sdec 1 0 / spowi nondimensional_force 2 - sdec 1 0 / spowi (ssinh
      nondimensional_force) 2 + ((sdec 2 0 * c * nondimensional_link_stiffness *
      nondimensional_force / stanh nondimensional_force - sdec 2 0 * c *
      nondimensional_link_stiffness + sdec 2 0 * spowi nondimensional_force 2 - sdec 1 0) / spowi
      (ssinh nondimensional_force) 2 + spowi nondimensional_force 2 / spowi (ssinh
      nondimensional_force) 4 - sdec 1 0) / spowi (c * nondimensional_link_stiffness +
      nondimensional_force / stanh nondimensional_force) 2 + sdec 5 1 /
      nondimensional_morse_parameter / (nondimensional_force_max * (ssqrt (sdec 1 0 -
      nondimensional_force / nondimensional_force_max) + sdec 1 0) - nondimensional_force)) guess
      (sdec 1 6) 100 4.

(* /repo/src/physics/single_chain/ufjc/morse/thermodynamics/isometric/asymptotic/legendre/mod.rs:42-45 *)
Definition force (number_of_links : Z) (link_length : T) (link_stiffness : T) (link_energy : T)
    (end_to_end_length : T) (temperature : T) : T :=
  BOLTZMANN_CONSTANT * temperature / link_length * nondimensional_force (link_stiffness * spowi
      link_length 2 / BOLTZMANN_CONSTANT / temperature) (link_energy / BOLTZMANN_CONSTANT /
      temperature) (end_to_end_length / (sofZ number_of_links * link_length)).

(* /repo/src/physics/single_chain/ufjc/morse/thermodynamics/isometric/asymptotic/legendre/mod.rs:99-105 *)
Definition nondimensional_helmholtz_free_energy_per_link (number_of_links : Z) (link_length : T)
    (hinge_mass : T) (nondimensional_link_stiffness : T) (nondimensional_link_energy : T)
    (nondimensional_end_to_end_length_per_link : T) (temperature : T) : T :=
  let nondimensional_force := nondimensional_force nondimensional_link_stiffness
      nondimensional_link_energy nondimensional_end_to_end_length_per_link in
  let nondimensional_force_max := ssqrt (nondimensional_link_energy * nondimensional_link_stiffness
      / sdec 8 0) in
  let nondimensional_morse_parameter := ssqrt (nondimensional_link_stiffness /
      nondimensional_link_energy / sdec 2 0) in
  - sln (ssinh nondimensional_force / nondimensional_force) - sln (sdec 1 0 + (sdec 1 0 + sdec 15 1
      * nondimensional_morse_parameter) * nondimensional_force / stanh nondimensional_force /
      nondimensional_link_stiffness) + nondimensional_link_energy * spowi (sdec 1 0 - sdec 5 1 *
      (sdec 1 0 + ssqrt (sdec 1 0 - nondimensional_force / nondimensional_force_max))) 2 -
      nondimensional_force / nondimensional_morse_parameter * sln (sdec 2 0 / (sdec 1 0 + ssqrt
      (sdec 1 0 - nondimensional_force / nondimensional_force_max))) + nondimensional_force *
      nondimensional_end_to_end_length_per_link - (sdec 1 0 - sdec 1 0 / sofZ number_of_links) *
      (sdec 5 1 * sln (sdec 2 0 * spi * spowi link_length 2 / nondimensional_link_stiffness) + sln
      (sdec 8 0 * spowi spi 2 * hinge_mass * spowi link_length 2 * BOLTZMANN_CONSTANT * temperature
      / spowi PLANCK_CONSTANT 2)).

(* /repo/src/physics/single_chain/ufjc/morse/thermodynamics/isometric/asymptotic/legendre/mod.rs:75-78 *)
Definition helmholtz_free_energy_per_link (number_of_links : Z) (link_length : T) (hinge_mass : T)
    (link_stiffness : T) (link_energy : T) (end_to_end_length : T) (temperature : T) : T :=
  BOLTZMANN_CONSTANT * temperature * nondimensional_helmholtz_free_energy_per_link number_of_links
      link_length hinge_mass (link_stiffness * spowi link_length 2 / BOLTZMANN_CONSTANT /
      temperature) (link_energy / BOLTZMANN_CONSTANT / temperature) (end_to_end_length / sofZ
      number_of_links / link_length) temperature.

(* /repo/src/physics/single_chain/ufjc/morse/thermodynamics/isometric/asymptotic/legendre/mod.rs:87-90 *)
Definition relative_helmholtz_free_energy_per_link (number_of_links : Z) (link_length : T)
    (link_stiffness : T) (link_energy : T) (end_to_end_length : T) (temperature : T) : T :=
  helmholtz_free_energy_per_link number_of_links link_length (sdec 1 0) link_stiffness link_energy
      end_to_end_length temperature - helmholtz_free_energy_per_link number_of_links link_length
      (sdec 1 0) link_stiffness link_energy (ZERO * sofZ number_of_links * link_length) temperature.

(* /repo/src/physics/single_chain/ufjc/morse/thermodynamics/isometric/asymptotic/legendre/mod.rs:93-96 *)
Definition nondimensional_helmholtz_free_energy (number_of_links : Z) (link_length : T) (hinge_mass
    : T) (nondimensional_link_stiffness : T) (nondimensional_link_energy : T)
    (nondimensional_end_to_end_length_per_link : T) (temperature : T) : T :=
  sofZ number_of_links * nondimensional_helmholtz_free_energy_per_link number_of_links link_length
      hinge_mass nondimensional_link_stiffness nondimensional_link_energy
      nondimensional_end_to_end_length_per_link temperature.

(* /repo/src/physics/single_chain/ufjc/morse/thermodynamics/isometric/asymptotic/legendre/mod.rs:69-72 *)
Definition helmholtz_free_energy (number_of_links : Z) (link_length : T) (hinge_mass : T)
    (link_stiffness : T) (link_energy : T) (end_to_end_length : T) (temperature : T) : T :=
  BOLTZMANN_CONSTANT * temperature * nondimensional_helmholtz_free_energy number_of_links
      link_length hinge_mass (link_stiffness * spowi link_length 2 / BOLTZMANN_CONSTANT /
      temperature) (link_energy / BOLTZMANN_CONSTANT / temperature) (end_to_end_length / sofZ
      number_of_links / link_length) temperature.

(* /repo/src/physics/single_chain/ufjc/morse/thermodynamics/isometric/asymptotic/legendre/mod.rs:81-84 *)
Definition relative_helmholtz_free_energy (number_of_links : Z) (link_length : T) (link_stiffness :
    T) (link_energy : T) (end_to_end_length : T) (temperature : T) : T :=
  helmholtz_free_energy number_of_links link_length (sdec 1 0) link_stiffness link_energy
      end_to_end_length temperature - helmholtz_free_energy number_of_links link_length (sdec 1 0)
      link_stiffness link_energy (ZERO * sofZ number_of_links * link_length) temperature.

(* /repo/src/physics/single_chain/ufjc/morse/thermodynamics/isometric/asymptotic/legendre/mod.rs:108-111 *)
Definition nondimensional_relative_helmholtz_free_energy (number_of_links : Z)
    (nondimensional_link_stiffness : T) (nondimensional_link_energy : T)
    (nondimensional_end_to_end_length_per_link : T) : T :=
  nondimensional_helmholtz_free_energy number_of_links (sdec 1 0) (sdec 1 0)
      nondimensional_link_stiffness nondimensional_link_energy
      nondimensional_end_to_end_length_per_link (sdec 300 0) - nondimensional_helmholtz_free_energy
      number_of_links (sdec 1 0) (sdec 1 0) nondimensional_link_stiffness nondimensional_link_energy
      ZERO (sdec 300 0).

(* /repo/src/physics/single_chain/ufjc/morse/thermodynamics/isometric/asymptotic/legendre/mod.rs:114-117 *)
Definition nondimensional_relative_helmholtz_free_energy_per_link (nondimensional_link_stiffness :
    T) (nondimensional_link_energy : T) (nondimensional_end_to_end_length_per_link : T) : T :=
  nondimensional_helmholtz_free_energy_per_link 8 (sdec 1 0) (sdec 1 0)
      nondimensional_link_stiffness nondimensional_link_energy
      nondimensional_end_to_end_length_per_link (sdec 300 0) -
      nondimensional_helmholtz_free_energy_per_link 8 (sdec 1 0) (sdec 1 0)
      nondimensional_link_stiffness nondimensional_link_energy ZERO (sdec 300 0).

End Model.
End morse_isometric_asymptotic_legendre.

(** /repo/src/physics/single_chain/ufjc/morse/thermodynamics/isometric/asymptotic/reduced/legendre/mod.rs *)
Module morse_isometric_asymptotic_reduced_legendre.
Section Model.
Context {T : Type} {Sc : Scalar T}.

(* /repo/src/physics/single_chain/ufjc/morse/thermodynamics/isometric/asymptotic/reduced/legendre/mod.rs:48-65 *)
Definition nondimensional_force (nondimensional_link_stiffness : T) (nondimensional_link_energy : T)
    (nondimensional_end_to_end_length_per_link : T) : T :=
  let nondimensional_morse_parameter := ssqrt (nondimensional_link_stiffness /
      nondimensional_link_energy / sdec 2 0) in
  let nondimensional_force_max := ssqrt (nondimensional_link_energy * nondimensional_link_stiffness
      / sdec 8 0) in
  let guess := if nondimensional_end_to_end_length_per_link <? sdec 1 0 then math.inverse_langevin
      nondimensional_end_to_end_length_per_link else sdec 95 2 * nondimensional_force_max in
  let guess := if nondimensional_force_max <? guess then sdec 95 2 * nondimensional_force_max else
      guess in
  math.inverse_newton_raphson_powered nondimensional_end_to_end_length_per_link (fun
      nondimensional_force => sdec 1 0 / stanh nondimensional_force - sdec 1 0 /
      nondimensional_force + sln (sdec 2 0 / (sdec 1 0 + ssqrt (sdec 1 0 - nondimensional_force /
      nondimensional_force_max))) / nondimensional_morse_parameter) (fun nondimensional_force =>
      sdec 1 0 / spowi nondimensional_force 2 - sdec 1 0 / spowi (ssinh nondimensional_force) 2 +
      sdec 5 1 / nondimensional_morse_parameter / (nondimensional_force_max * (ssqrt (sdec 1 0 -
      nondimensional_force / nondimensional_force_max) + sdec 1 0) - nondimensional_force)) guess
      (sdec 1 6) 100 4.

(* /repo/src/physics/single_chain/ufjc/morse/thermodynamics/isometric/asymptotic/reduced/legendre/mod.rs:42-45 *)
Definition force (number_of_links : Z) (link_length : T) (link_stiffness : T) (link_energy : T)
    (end_to_end_length : T) (temperature : T) : T :=
  BOLTZMANN_CONSTANT * temperature / link_length * nondimensional_force (link_stiffness * spowi
      link_length 2 / BOLTZMANN_CONSTANT / temperature) (link_energy / BOLTZMANN_CONSTANT /
      temperature) (end_to_end_length / (sofZ number_of_links * link_length)).

(* /repo/src/physics/single_chain/ufjc/morse/thermodynamics/isometric/asymptotic/reduced/legendre/mod.rs:98-103 *)
Definition nondimensional_helmholtz_free_energy_per_link (number_of_links : Z) (link_length : T)
    (hinge_mass : T) (nondimensional_link_stiffness : T) (nondimensional_link_energy : T)
    (nondimensional_end_to_end_length_per_link : T) (temperature : T) : T :=
  let nondimensional_force := nondimensional_force nondimensional_link_stiffness
      nondimensional_link_energy nondimensional_end_to_end_length_per_link in
  let nondimensional_force_max := ssqrt (nondimensional_link_energy * nondimensional_link_stiffness
      / sdec 8 0) in
  - sln (ssinh nondimensional_force / nondimensional_force) + nondimensional_link_energy * spowi
      (sdec 1 0 - sdec 5 1 * (sdec 1 0 + ssqrt (sdec 1 0 - nondimensional_force /
      nondimensional_force_max))) 2 - nondimensional_force * ssqrt (sdec 2 0 *
      nondimensional_link_energy / nondimensional_link_stiffness) * sln (sdec 2 0 / (sdec 1 0 +
      ssqrt (sdec 1 0 - nondimensional_force / nondimensional_force_max))) + nondimensional_force *
      nondimensional_end_to_end_length_per_link - (sdec 1 0 - sdec 1 0 / sofZ number_of_links) *
      (sdec 5 1 * sln (sdec 2 0 * spi * spowi link_length 2 / nondimensional_link_stiffness) + sln
      (sdec 8 0 * spowi spi 2 * hinge_mass * spowi link_length 2 * BOLTZMANN_CONSTANT * temperature
      / spowi PLANCK_CONSTANT 2)).

(* /repo/src/physics/single_chain/ufjc/morse/thermodynamics/isometric/asymptotic/reduced/legendre/mod.rs:74-77 *)
Definition helmholtz_free_energy_per_link (number_of_links : Z) (link_length : T) (hinge_mass : T)
    (link_stiffness : T) (link_energy : T) (end_to_end_length : T) (temperature : T) : T :=
  BOLTZMANN_CONSTANT * temperature * nondimensional_helmholtz_free_energy_per_link number_of_links
      link_length hinge_mass (link_stiffness * spowi link_length 2 / BOLTZMANN_CONSTANT /
      temperature) (link_energy / BOLTZMANN_CONSTANT / temperature) (end_to_end_length / sofZ
      number_of_links / link_length) temperature.

(* /repo/src/physics/single_chain/ufjc/morse/thermodynamics/isometric/asymptotic/reduced/legendre/mod.rs:86-89 *)
Definition relative_helmholtz_free_energy_per_link (number_of_links : Z) (link_length : T)
    (link_stiffness : T) (link_energy : T) (end_to_end_length : T) (temperature : T) : T :=
  helmholtz_free_energy_per_link number_of_links link_length (sdec 1 0) link_stiffness link_energy
      end_to_end_length temperature - helmholtz_free_energy_per_link number_of_links link_length
      (sdec 1 0) link_stiffness link_energy (ZERO * sofZ number_of_links * link_length) temperature.

(* /repo/src/physics/single_chain/ufjc/morse/thermodynamics/isometric/asymptotic/reduced/legendre/mod.rs:92-95 *)
Definition nondimensional_helmholtz_free_energy (number_of_links : Z) (link_length : T) (hinge_mass
    : T) (nondimensional_link_stiffness : T) (nondimensional_link_energy : T)
    (nondimensional_end_to_end_length_per_link : T) (temperature : T) : T :=
  sofZ number_of_links * nondimensional_helmholtz_free_energy_per_link number_of_links link_length
      hinge_mass nondimensional_link_stiffness nondimensional_link_energy
      nondimensional_end_to_end_length_per_link temperature.

(* /repo/src/physics/single_chain/ufjc/morse/thermodynamics/isometric/asymptotic/reduced/legendre/mod.rs:68-71 *)
Definition helmholtz_free_energy (number_of_links : Z) (link_length : T) (hinge_mass : T)
    (link_stiffness : T) (link_energy : T) (end_to_end_length : T) (temperature : T) : T :=
  BOLTZMANN_CONSTANT * temperature * nondimensional_helmholtz_free_energy number_of_links
      link_length hinge_mass (link_stiffness * spowi link_length 2 / BOLTZMANN_CONSTANT /
      temperature) (link_energy / BOLTZMANN_CONSTANT / temperature) (end_to_end_length / sofZ
      number_of_links / link_length) temperature.

(* /repo/src/physics/single_chain/ufjc/morse/thermodynamics/isometric/asymptotic/reduced/legendre/mod.rs:80-83 *)
Definition relative_helmholtz_free_energy (number_of_links : Z) (link_length : T) (link_stiffness :
    T) (link_energy : T) (end_to_end_length : T) (temperature : T) : T :=
  helmholtz_free_energy number_of_links link_length (sdec 1 0) link_stiffness link_energy
      end_to_end_length temperature - helmholtz_free_energy number_of_links link_length (sdec 1 0)
      link_stiffness link_energy (ZERO * sofZ number_of_links * link_length) temperature.

(* /repo/src/physics/single_chain/ufjc/morse/thermodynamics/isometric/asymptotic/reduced/legendre/mod.rs:106-109 *)
Definition nondimensional_relative_helmholtz_free_energy (number_of_links : Z)
    (nondimensional_link_stiffness : T) (nondimensional_link_energy : T)
    (nondimensional_end_to_end_length_per_link : T) : T :=
  nondimensional_helmholtz_free_energy number_of_links (sdec 1 0) (sdec 1 0)
      nondimensional_link_stiffness nondimensional_link_energy
      nondimensional_end_to_end_length_per_link (sdec 300 0) - nondimensional_helmholtz_free_energy
      number_of_links (sdec 1 0) (sdec 1 0) nondimensional_link_stiffness nondimensional_link_energy
      ZERO (sdec 300 0).

(* /repo/src/physics/single_chain/ufjc/morse/thermodynamics/isometric/asymptotic/reduced/legendre/mod.rs:112-115 *)
Definition nondimensional_relative_helmholtz_free_energy_per_link (nondimensional_link_stiffness :
    T) (nondimensional_link_energy : T) (nondimensional_end_to_end_length_per_link : T) : T :=
  nondimensional_helmholtz_free_energy_per_link 8 (sdec 1 0) (sdec 1 0)
      nondimensional_link_stiffness nondimensional_link_energy
      nondimensional_end_to_end_length_per_link (sdec 300 0) -
      nondimensional_helmholtz_free_energy_per_link 8 (sdec 1 0) (sdec 1 0)
      nondimensional_link_stiffness nondimensional_link_energy ZERO (sdec 300 0).

End Model.
End morse_isometric_asymptotic_reduced_legendre.

(** /repo/src/physics/single_chain/ufjc/morse/thermodynamics/isotensional/mod.rs *)
Module morse_isotensional.
Section Model.
Context {T : Type} {Sc : Scalar T}.

(* /repo/src/physics/single_chain/ufjc/morse/thermodynamics/isotensional/mod.rs:72-92 *)
Definition nondimensional_end_to_end_length_per_link (nondimensional_link_stiffness : T)
    (nondimensional_link_energy : T) (nondimensional_force : T) : T :=
  let nondimensional_morse_parameter := ssqrt (nondimensional_link_stiffness /
      nondimensional_link_energy / sdec 2 0) in
  let nondimensional_link_stretch_max := sdec 1 0 + sln (sdec 2 0) / nondimensional_morse_parameter
      in
  let rescaled_partition_function_integrand := fun nondimensional_link_stretch => let exponent_1 :=
      nondimensional_force * nondimensional_link_stretch - nondimensional_link_energy * spowi (sdec
      1 0 - sexp (- nondimensional_morse_parameter * (nondimensional_link_stretch - sdec 1 0))) 2 +
      sln nondimensional_link_stretch - sln nondimensional_force in
  let exponent_2 := exponent_1 - sdec 2 0 * nondimensional_force * nondimensional_link_stretch in
  sexp exponent_1 - sexp exponent_2 in
  let rescaled_partition_function := math.integrate_1d rescaled_partition_function_integrand ZERO
      nondimensional_link_stretch_max POINTS in
  let nondimensional_end_to_end_length_per_link_integrand := fun nondimensional_link_stretch => let
      exponent_1 := nondimensional_force * nondimensional_link_stretch - nondimensional_link_energy
      * spowi (sdec 1 0 - sexp (- nondimensional_morse_parameter * (nondimensional_link_stretch -
      sdec 1 0))) 2 + sdec 2 0 * sln nondimensional_link_stretch - sln nondimensional_force in
  let exponent_2 := exponent_1 - sdec 2 0 * nondimensional_force * nondimensional_link_stretch in
  let exponent_3 := exponent_1 - sln nondimensional_link_stretch - sln nondimensional_force in
  let exponent_4 := exponent_3 - sdec 2 0 * nondimensional_force * nondimensional_link_stretch in
  (sexp exponent_1 + sexp exponent_2 - sexp exponent_3 + sexp exponent_4) /
      rescaled_partition_function in
  math.integrate_1d nondimensional_end_to_end_length_per_link_integrand ZERO
      nondimensional_link_stretch_max POINTS.

(* /repo/src/physics/single_chain/ufjc/morse/thermodynamics/isotensional/mod.rs:60-63 *)
Definition end_to_end_length_per_link (link_length : T) (link_stiffness : T) (link_energy : T)
    (force : T) (temperature : T) : T :=
  link_length * nondimensional_end_to_end_length_per_link (link_stiffness * spowi link_length 2 /
      BOLTZMANN_CONSTANT / temperature) (link_energy / BOLTZMANN_CONSTANT / temperature) (force *
      link_length / BOLTZMANN_CONSTANT / temperature).

(* /repo/src/physics/single_chain/ufjc/morse/thermodynamics/isotensional/mod.rs:66-69 *)
Definition nondimensional_end_to_end_length (number_of_links : Z) (nondimensional_link_stiffness :
    T) (nondimensional_link_energy : T) (nondimensional_force : T) : T :=
  sofZ number_of_links * nondimensional_end_to_end_length_per_link nondimensional_link_stiffness
      nondimensional_link_energy nondimensional_force.

(* /repo/src/physics/single_chain/ufjc/morse/thermodynamics/isotensional/mod.rs:54-57 *)
Definition end_to_end_length (number_of_links : Z) (link_length : T) (link_stiffness : T)
    (link_energy : T) (force : T) (temperature : T) : T :=
  link_length * nondimensional_end_to_end_length number_of_links (link_stiffness * spowi link_length
      2 / BOLTZMANN_CONSTANT / temperature) (link_energy / BOLTZMANN_CONSTANT / temperature) (force
      * link_length / BOLTZMANN_CONSTANT / temperature).

(* /repo/src/physics/single_chain/ufjc/morse/thermodynamics/isotensional/mod.rs:125-137 *)
Definition nondimensional_gibbs_free_energy_per_link (link_length : T) (hinge_mass : T)
    (nondimensional_link_stiffness : T) (nondimensional_link_energy : T) (nondimensional_force : T)
    (temperature : T) : T :=
  let nondimensional_morse_parameter := ssqrt (nondimensional_link_stiffness /
      nondimensional_link_energy / sdec 2 0) in
  let nondimensional_link_stretch_max := sdec 1 0 + sln (sdec 2 0) / nondimensional_morse_parameter
      in
  let rescaled_partition_function_integrand := fun nondimensional_link_stretch => let exponent_1 :=
      nondimensional_force * nondimensional_link_stretch - nondimensional_link_energy * spowi (sdec
      1 0 - sexp (- nondimensional_morse_parameter * (nondimensional_link_stretch - sdec 1 0))) 2 +
      sln nondimensional_link_stretch - sln nondimensional_force in
  let exponent_2 := exponent_1 - sdec 2 0 * nondimensional_force * nondimensional_link_stretch in
  sexp exponent_1 - sexp exponent_2 in
  let rescaled_partition_function := math.integrate_1d rescaled_partition_function_integrand ZERO
      nondimensional_link_stretch_max POINTS in
  - sln rescaled_partition_function - sln (sdec 8 0 * spowi spi 2 * hinge_mass * spowi link_length 2
      * BOLTZMANN_CONSTANT * temperature / spowi PLANCK_CONSTANT 2).

(* /repo/src/physics/single_chain/ufjc/morse/thermodynamics/isotensional/mod.rs:101-104 *)
Definition gibbs_free_energy_per_link (link_length : T) (hinge_mass : T) (link_stiffness : T)
    (link_energy : T) (force : T) (temperature : T) : T :=
  BOLTZMANN_CONSTANT * temperature * nondimensional_gibbs_free_energy_per_link link_length
      hinge_mass (link_stiffness * spowi link_length 2 / BOLTZMANN_CONSTANT / temperature)
      (link_energy / BOLTZMANN_CONSTANT / temperature) (force * link_length / BOLTZMANN_CONSTANT /
      temperature) temperature.

(* /repo/src/physics/single_chain/ufjc/morse/thermodynamics/isotensional/mod.rs:113-116 *)
Definition relative_gibbs_free_energy_per_link (link_length : T) (link_stiffness : T) (link_energy :
    T) (force : T) (temperature : T) : T :=
  gibbs_free_energy_per_link link_length (sdec 1 0) link_stiffness link_energy force temperature -
      gibbs_free_energy_per_link link_length (sdec 1 0) link_stiffness link_energy (ZERO *
      BOLTZMANN_CONSTANT * temperature / link_length) temperature.

(* /repo/src/physics/single_chain/ufjc/morse/thermodynamics/isotensional/mod.rs:119-122 *)
Definition nondimensional_gibbs_free_energy (number_of_links : Z) (link_length : T) (hinge_mass : T)
    (nondimensional_link_stiffness : T) (nondimensional_link_energy : T) (nondimensional_force : T)
    (temperature : T) : T :=
  sofZ number_of_links * nondimensional_gibbs_free_energy_per_link link_length hinge_mass
      nondimensional_link_stiffness nondimensional_link_energy nondimensional_force temperature.

(* /repo/src/physics/single_chain/ufjc/morse/thermodynamics/isotensional/mod.rs:95-98 *)
Definition gibbs_free_energy (number_of_links : Z) (link_length : T) (hinge_mass : T)
    (link_stiffness : T) (link_energy : T) (force : T) (temperature : T) : T :=
  BOLTZMANN_CONSTANT * temperature * nondimensional_gibbs_free_energy number_of_links link_length
      hinge_mass (link_stiffness * spowi link_length 2 / BOLTZMANN_CONSTANT / temperature)
      (link_energy / BOLTZMANN_CONSTANT / temperature) (force * link_length / BOLTZMANN_CONSTANT /
      temperature) temperature.

(* /repo/src/physics/single_chain/ufjc/morse/thermodynamics/isotensional/mod.rs:107-110 *)
Definition relative_gibbs_free_energy (number_of_links : Z) (link_length : T) (link_stiffness : T)
    (link_energy : T) (force : T) (temperature : T) : T :=
  gibbs_free_energy number_of_links link_length (sdec 1 0) link_stiffness link_energy force
      temperature - gibbs_free_energy number_of_links link_length (sdec 1 0) link_stiffness
      link_energy (ZERO * BOLTZMANN_CONSTANT * temperature / link_length) temperature.

(* /repo/src/physics/single_chain/ufjc/morse/thermodynamics/isotensional/mod.rs:140-143 *)
Definition nondimensional_relative_gibbs_free_energy (number_of_links : Z)
    (nondimensional_link_stiffness : T) (nondimensional_link_energy : T) (nondimensional_force : T)
    : T :=
  nondimensional_gibbs_free_energy number_of_links (sdec 1 0) (sdec 1 0)
      nondimensional_link_stiffness nondimensional_link_energy nondimensional_force (sdec 300 0) -
      nondimensional_gibbs_free_energy number_of_links (sdec 1 0) (sdec 1 0)
      nondimensional_link_stiffness nondimensional_link_energy ZERO (sdec 300 0).

(* /repo/src/physics/single_chain/ufjc/morse/thermodynamics/isotensional/mod.rs:146-149 *)
Definition nondimensional_relative_gibbs_free_energy_per_link (nondimensional_link_stiffness : T)
    (nondimensional_link_energy : T) (nondimensional_force : T) : T :=
  nondimensional_gibbs_free_energy_per_link (sdec 1 0) (sdec 1 0) nondimensional_link_stiffness
      nondimensional_link_energy nondimensional_force (sdec 300 0) -
      nondimensional_gibbs_free_energy_per_link (sdec 1 0) (sdec 1 0) nondimensional_link_stiffness
      nondimensional_link_energy ZERO (sdec 300 0).

End Model.
End morse_isotensional.

(** /repo/src/physics/single_chain/ufjc/morse/thermodynamics/isotensional/asymptotic/mod.rs *)
Module morse_isotensional_asymptotic.
Section Model.
Context {T : Type} {Sc : Scalar T}.

(* /repo/src/physics/single_chain/ufjc/morse/thermodynamics/isotensional/asymptotic/mod.rs:67-71 *)
Definition nondimensional_end_to_end_length_per_link (nondimensional_link_stiffness : T)
    (nondimensional_link_energy : T) (nondimensional_force : T) : T :=
  let nondimensional_morse_parameter := ssqrt (nondimensional_link_stiffness /
      nondimensional_link_energy / sdec 2 0) in
  sdec 1 0 / stanh nondimensional_force - sdec 1 0 / nondimensional_force + nondimensional_force /
      nondimensional_link_stiffness * ((stanh nondimensional_force - sdec 1 0 / stanh
      nondimensional_force + sdec 1 0 / nondimensional_force) / (stanh nondimensional_force / (sdec
      1 0 + sdec 15 1 * nondimensional_morse_parameter) + nondimensional_force /
      nondimensional_link_stiffness)) + sln (sdec 2 0 / (sdec 1 0 + ssqrt (sdec 1 0 -
      nondimensional_force / ssqrt (nondimensional_link_energy * nondimensional_link_stiffness /
      sdec 8 0)))) / nondimensional_morse_parameter.

(* /repo/src/physics/single_chain/ufjc/morse/thermodynamics/isotensional/asymptotic/mod.rs:55-58 *)
Definition end_to_end_length_per_link (link_length : T) (link_stiffness : T) (link_energy : T)
    (force : T) (temperature : T) : T :=
  link_length * nondimensional_end_to_end_length_per_link (link_stiffness * spowi link_length 2 /
      BOLTZMANN_CONSTANT / temperature) (link_energy / BOLTZMANN_CONSTANT / temperature) (force *
      link_length / BOLTZMANN_CONSTANT / temperature).

(* /repo/src/physics/single_chain/ufjc/morse/thermodynamics/isotensional/asymptotic/mod.rs:61-64 *)
Definition nondimensional_end_to_end_length (number_of_links : Z) (nondimensional_link_stiffness :
    T) (nondimensional_link_energy : T) (nondimensional_force : T) : T :=
  sofZ number_of_links * nondimensional_end_to_end_length_per_link nondimensional_link_stiffness
      nondimensional_link_energy nondimensional_force.

(* /repo/src/physics/single_chain/ufjc/morse/thermodynamics/isotensional/asymptotic/mod.rs:49-52 *)
Definition end_to_end_length (number_of_links : Z) (link_length : T) (link_stiffness : T)
    (link_energy : T) (force : T) (temperature : T) : T :=
  link_length * nondimensional_end_to_end_length number_of_links (link_stiffness * spowi link_length
      2 / BOLTZMANN_CONSTANT / temperature) (link_energy / BOLTZMANN_CONSTANT / temperature) (force
      * link_length / BOLTZMANN_CONSTANT / temperature).

(* /repo/src/physics/single_chain/ufjc/morse/thermodynamics/isotensional/asymptotic/mod.rs:104-109 *)
Definition nondimensional_gibbs_free_energy_per_link (link_length : T) (hinge_mass : T)
    (nondimensional_link_stiffness : T) (nondimensional_link_energy : T) (nondimensional_force : T)
    (temperature : T) : T :=
  let nondimensional_force_max := ssqrt (nondimensional_link_energy * nondimensional_link_stiffness
      / sdec 8 0) in
  let nondimensional_morse_parameter := ssqrt (nondimensional_link_stiffness /
      nondimensional_link_energy / sdec 2 0) in
  - sln (ssinh nondimensional_force / nondimensional_force) - sln (sdec 1 0 + (sdec 1 0 + sdec 15 1
      * nondimensional_morse_parameter) * nondimensional_force / stanh nondimensional_force /
      nondimensional_link_stiffness) + nondimensional_link_energy * spowi (sdec 1 0 - sdec 5 1 *
      (sdec 1 0 + ssqrt (sdec 1 0 - nondimensional_force / nondimensional_force_max))) 2 -
      nondimensional_force / nondimensional_morse_parameter * sln (sdec 2 0 / (sdec 1 0 + ssqrt
      (sdec 1 0 - nondimensional_force / nondimensional_force_max))) - sdec 5 1 * sln (sdec 2 0 *
      spi * spowi link_length 2 / nondimensional_link_stiffness) - sln (sdec 8 0 * spowi spi 2 *
      hinge_mass * spowi link_length 2 * BOLTZMANN_CONSTANT * temperature / spowi PLANCK_CONSTANT
      2).

(* /repo/src/physics/single_chain/ufjc/morse/thermodynamics/isotensional/asymptotic/mod.rs:80-83 *)
Definition gibbs_free_energy_per_link (link_length : T) (hinge_mass : T) (link_stiffness : T)
    (link_energy : T) (force : T) (temperature : T) : T :=
  BOLTZMANN_CONSTANT * temperature * nondimensional_gibbs_free_energy_per_link link_length
      hinge_mass (link_stiffness * spowi link_length 2 / BOLTZMANN_CONSTANT / temperature)
      (link_energy / BOLTZMANN_CONSTANT / temperature) (force * link_length / BOLTZMANN_CONSTANT /
      temperature) temperature.

(* /repo/src/physics/single_chain/ufjc/morse/thermodynamics/isotensional/asymptotic/mod.rs:92-95 *)
Definition relative_gibbs_free_energy_per_link (link_length : T) (link_stiffness : T) (link_energy :
    T) (force : T) (temperature : T) : T :=
  gibbs_free_energy_per_link link_length (sdec 1 0) link_stiffness link_energy force temperature -
      gibbs_free_energy_per_link link_length (sdec 1 0) link_stiffness link_energy (ZERO *
      BOLTZMANN_CONSTANT * temperature / link_length) temperature.

(* /repo/src/physics/single_chain/ufjc/morse/thermodynamics/isotensional/asymptotic/mod.rs:98-101 *)
Definition nondimensional_gibbs_free_energy (number_of_links : Z) (link_length : T) (hinge_mass : T)
    (nondimensional_link_stiffness : T) (nondimensional_link_energy : T) (nondimensional_force : T)
    (temperature : T) : T :=
  sofZ number_of_links * nondimensional_gibbs_free_energy_per_link link_length hinge_mass
      nondimensional_link_stiffness nondimensional_link_energy nondimensional_force temperature.

(* /repo/src/physics/single_chain/ufjc/morse/thermodynamics/isotensional/asymptotic/mod.rs:74-77 *)
Definition gibbs_free_energy (number_of_links : Z) (link_length : T) (hinge_mass : T)
    (link_stiffness : T) (link_energy : T) (force : T) (temperature : T) : T :=
  BOLTZMANN_CONSTANT * temperature * nondimensional_gibbs_free_energy number_of_links link_length
      hinge_mass (link_stiffness * spowi link_length 2 / BOLTZMANN_CONSTANT / temperature)
      (link_energy / BOLTZMANN_CONSTANT / temperature) (force * link_length / BOLTZMANN_CONSTANT /
      temperature) temperature.

(* /repo/src/physics/single_chain/ufjc/morse/thermodynamics/isotensional/asymptotic/mod.rs:86-89 *)
Definition relative_gibbs_free_energy (number_of_links : Z) (link_length : T) (link_stiffness : T)
    (link_energy : T) (force : T) (temperature : T) : T :=
  gibbs_free_energy number_of_links link_length (sdec 1 0) link_stiffness link_energy force
      temperature - gibbs_free_energy number_of_links link_length (sdec 1 0) link_stiffness
      link_energy (ZERO * BOLTZMANN_CONSTANT * temperature / link_length) temperature.

(* /repo/src/physics/single_chain/ufjc/morse/thermodynamics/isotensional/asymptotic/mod.rs:112-115 *)
Definition nondimensional_relative_gibbs_free_energy (number_of_links : Z)
    (nondimensional_link_stiffness : T) (nondimensional_link_energy : T) (nondimensional_force : T)
    : T :=
  nondimensional_gibbs_free_energy number_of_links (sdec 1 0) (sdec 1 0)
      nondimensional_link_stiffness nondimensional_link_energy nondimensional_force (sdec 300 0) -
      nondimensional_gibbs_free_energy number_of_links (sdec 1 0) (sdec 1 0)
      nondimensional_link_stiffness nondimensional_link_energy ZERO (sdec 300 0).

(* /repo/src/physics/single_chain/ufjc/morse/thermodynamics/isotensional/asymptotic/mod.rs:118-121 *)
Definition nondimensional_relative_gibbs_free_energy_per_link (nondimensional_link_stiffness : T)
    (nondimensional_link_energy : T) (nondimensional_force : T) : T :=
  nondimensional_gibbs_free_energy_per_link (sdec 1 0) (sdec 1 0) nondimensional_link_stiffness
      nondimensional_link_energy nondimensional_force (sdec 300 0) -
      nondimensional_gibbs_free_energy_per_link (sdec 1 0) (sdec 1 0) nondimensional_link_stiffness
      nondimensional_link_energy ZERO (sdec 300 0).

End Model.
End morse_isotensional_asymptotic.

(** /repo/src/physics/single_chain/ufjc/morse/thermodynamics/isotensional/asymptotic/legendre/mod.rs *)
Module morse_isotensional_asymptotic_legendre.
Section Model.
Context {T : Type} {Sc : Scalar T}.

(* /repo/src/physics/single_chain/ufjc/morse/thermodynamics/isotensional/asymptotic/legendre/mod.rs:67-71 *)
Definition nondimensional_helmholtz_free_energy_per_link (link_length : T) (hinge_mass : T)
    (nondimensional_link_stiffness : T) (nondimensional_link_energy : T) (nondimensional_force : T)
    (temperature : T) : T :=
  let nondimensional_morse_parameter := ssqrt (nondimensional_link_stiffness /
      nondimensional_link_energy / sdec 2 0) in
  - sln (ssinh nondimensional_force / nondimensional_force) - sln (sdec 1 0 + (sdec 1 0 + sdec 15 1
      * nondimensional_morse_parameter) * nondimensional_force / stanh nondimensional_force /
      nondimensional_link_stiffness) + nondimensional_link_energy * spowi (sdec 1 0 - sdec 5 1 *
      (sdec 1 0 + ssqrt (sdec 1 0 - nondimensional_force / ssqrt (nondimensional_link_energy *
      nondimensional_link_stiffness / sdec 8 0)))) 2 - sdec 5 1 * sln (sdec 2 0 * spi * spowi
      link_length 2 / nondimensional_link_stiffness) - sln (sdec 8 0 * spowi spi 2 * hinge_mass *
      spowi link_length 2 * BOLTZMANN_CONSTANT * temperature / spowi PLANCK_CONSTANT 2) +
      nondimensional_force / stanh nondimensional_force - sdec 1 0 + spowi nondimensional_force 2 /
      nondimensional_link_stiffness * ((stanh nondimensional_force - sdec 1 0 / stanh
      nondimensional_force + sdec 1 0 / nondimensional_force) / (stanh nondimensional_force / (sdec
      1 0 + sdec 15 1 * nondimensional_morse_parameter) + nondimensional_force /
      nondimensional_link_stiffness)).

(* /repo/src/physics/single_chain/ufjc/morse/thermodynamics/isotensional/asymptotic/legendre/mod.rs:43-46 *)
Definition helmholtz_free_energy_per_link (link_length : T) (hinge_mass : T) (link_stiffness : T)
    (link_energy : T) (force : T) (temperature : T) : T :=
  BOLTZMANN_CONSTANT * temperature * nondimensional_helmholtz_free_energy_per_link link_length
      hinge_mass (link_stiffness * spowi link_length 2 / BOLTZMANN_CONSTANT / temperature)
      (link_energy / BOLTZMANN_CONSTANT / temperature) (force / BOLTZMANN_CONSTANT / temperature *
      link_length) temperature.

(* /repo/src/physics/single_chain/ufjc/morse/thermodynamics/isotensional/asymptotic/legendre/mod.rs:55-58 *)
Definition relative_helmholtz_free_energy_per_link (link_length : T) (link_stiffness : T)
    (link_energy : T) (force : T) (temperature : T) : T :=
  helmholtz_free_energy_per_link link_length (sdec 1 0) link_stiffness link_energy force temperature
      - helmholtz_free_energy_per_link link_length (sdec 1 0) link_stiffness link_energy (ZERO *
      BOLTZMANN_CONSTANT * temperature / link_length) temperature.

(* /repo/src/physics/single_chain/ufjc/morse/thermodynamics/isotensional/asymptotic/legendre/mod.rs:61-64 *)
Definition nondimensional_helmholtz_free_energy (number_of_links : Z) (link_length : T) (hinge_mass
    : T) (nondimensional_link_stiffness : T) (nondimensional_link_energy : T) (nondimensional_force
    : T) (temperature : T) : T :=
  sofZ number_of_links * nondimensional_helmholtz_free_energy_per_link link_length hinge_mass
      nondimensional_link_stiffness nondimensional_link_energy nondimensional_force temperature.

(* /repo/src/physics/single_chain/ufjc/morse/thermodynamics/isotensional/asymptotic/legendre/mod.rs:37-40 *)
Definition helmholtz_free_energy (number_of_links : Z) (link_length : T) (hinge_mass : T)
    (link_stiffness : T) (link_energy : T) (force : T) (temperature : T) : T :=
  BOLTZMANN_CONSTANT * temperature * nondimensional_helmholtz_free_energy number_of_links
      link_length hinge_mass (link_stiffness * spowi link_length 2 / BOLTZMANN_CONSTANT /
      temperature) (link_energy / BOLTZMANN_CONSTANT / temperature) (force / BOLTZMANN_CONSTANT /
      temperature * link_length) temperature.

(* /repo/src/physics/single_chain/ufjc/morse/thermodynamics/isotensional/asymptotic/legendre/mod.rs:49-52 *)
Definition relative_helmholtz_free_energy (number_of_links : Z) (link_length : T) (link_stiffness :
    T) (link_energy : T) (force : T) (temperature : T) : T :=
  helmholtz_free_energy number_of_links link_length (sdec 1 0) link_stiffness link_energy force
      temperature - helmholtz_free_energy number_of_links link_length (sdec 1 0) link_stiffness
      link_energy (ZERO * BOLTZMANN_CONSTANT * temperature / link_length) temperature.

(* /repo/src/physics/single_chain/ufjc/morse/thermodynamics/isotensional/asymptotic/legendre/mod.rs:74-77 *)
Definition nondimensional_relative_helmholtz_free_energy (number_of_links : Z)
    (nondimensional_link_stiffness : T) (nondimensional_link_energy : T) (nondimensional_force : T)
    : T :=
  nondimensional_helmholtz_free_energy number_of_links (sdec 1 0) (sdec 1 0)
      nondimensional_link_stiffness nondimensional_link_energy nondimensional_force (sdec 300 0) -
      nondimensional_helmholtz_free_energy number_of_links (sdec 1 0) (sdec 1 0)
      nondimensional_link_stiffness nondimensional_link_energy ZERO (sdec 300 0).

(* /repo/src/physics/single_chain/ufjc/morse/thermodynamics/isotensional/asymptotic/legendre/mod.rs:80-83 *)
Definition nondimensional_relative_helmholtz_free_energy_per_link (nondimensional_link_stiffness :
    T) (nondimensional_link_energy : T) (nondimensional_force : T) : T :=
  nondimensional_helmholtz_free_energy_per_link (sdec 1 0) (sdec 1 0) nondimensional_link_stiffness
      nondimensional_link_energy nondimensional_force (sdec 300 0) -
      nondimensional_helmholtz_free_energy_per_link (sdec 1 0) (sdec 1 0)
      nondimensional_link_stiffness nondimensional_link_energy ZERO (sdec 300 0).

End Model.
End morse_isotensional_asymptotic_legendre.

(** /repo/src/physics/single_chain/ufjc/morse/thermodynamics/isotensional/asymptotic/reduced/mod.rs *)
Module morse_isotensional_asymptotic_reduced.
Section Model.
Context {T : Type} {Sc : Scalar T}.

(* /repo/src/physics/single_chain/ufjc/morse/thermodynamics/isotensional/asymptotic/reduced/mod.rs:61-64 *)
Definition nondimensional_end_to_end_length_per_link (nondimensional_link_stiffness : T)
    (nondimensional_link_energy : T) (nondimensional_force : T) : T :=
  sdec 1 0 / stanh nondimensional_force - sdec 1 0 / nondimensional_force + ssqrt (sdec 2 0 *
      nondimensional_link_energy / nondimensional_link_stiffness) * sln (sdec 2 0 / (sdec 1 0 +
      ssqrt (sdec 1 0 - nondimensional_force / ssqrt (nondimensional_link_energy *
      nondimensional_link_stiffness / sdec 8 0)))).

(* /repo/src/physics/single_chain/ufjc/morse/thermodynamics/isotensional/asymptotic/reduced/mod.rs:49-52 *)
Definition end_to_end_length_per_link (link_length : T) (link_stiffness : T) (link_energy : T)
    (force : T) (temperature : T) : T :=
  link_length * nondimensional_end_to_end_length_per_link (link_stiffness * spowi link_length 2 /
      BOLTZMANN_CONSTANT / temperature) (link_energy / BOLTZMANN_CONSTANT / temperature) (force *
      link_length / BOLTZMANN_CONSTANT / temperature).

(* /repo/src/physics/single_chain/ufjc/morse/thermodynamics/isotensional/asymptotic/reduced/mod.rs:55-58 *)
Definition nondimensional_end_to_end_length (number_of_links : Z) (nondimensional_link_stiffness :
    T) (nondimensional_link_energy : T) (nondimensional_force : T) : T :=
  sofZ number_of_links * nondimensional_end_to_end_length_per_link nondimensional_link_stiffness
      nondimensional_link_energy nondimensional_force.

(* /repo/src/physics/single_chain/ufjc/morse/thermodynamics/isotensional/asymptotic/reduced/mod.rs:43-46 *)
Definition end_to_end_length (number_of_links : Z) (link_length : T) (link_stiffness : T)
    (link_energy : T) (force : T) (temperature : T) : T :=
  link_length * nondimensional_end_to_end_length number_of_links (link_stiffness * spowi link_length
      2 / BOLTZMANN_CONSTANT / temperature) (link_energy / BOLTZMANN_CONSTANT / temperature) (force
      * link_length / BOLTZMANN_CONSTANT / temperature).

(* /repo/src/physics/single_chain/ufjc/morse/thermodynamics/isotensional/asymptotic/reduced/mod.rs:97-101 *)
Definition nondimensional_gibbs_free_energy_per_link (link_length : T) (hinge_mass : T)
    (nondimensional_link_stiffness : T) (nondimensional_link_energy : T) (nondimensional_force : T)
    (temperature : T) : T :=
  let nondimensional_force_max := ssqrt (nondimensional_link_energy * nondimensional_link_stiffness
      / sdec 8 0) in
  - sln (ssinh nondimensional_force / nondimensional_force) + nondimensional_link_energy * spowi
      (sdec 1 0 - sdec 5 1 * (sdec 1 0 + ssqrt (sdec 1 0 - nondimensional_force /
      nondimensional_force_max))) 2 - nondimensional_force * ssqrt (sdec 2 0 *
      nondimensional_link_energy / nondimensional_link_stiffness) * sln (sdec 2 0 / (sdec 1 0 +
      ssqrt (sdec 1 0 - nondimensional_force / nondimensional_force_max))) - sdec 5 1 * sln (sdec 2
      0 * spi * spowi link_length 2 / nondimensional_link_stiffness) - sln (sdec 8 0 * spowi spi 2 *
      hinge_mass * spowi link_length 2 * BOLTZMANN_CONSTANT * temperature / spowi PLANCK_CONSTANT
      2).

(* /repo/src/physics/single_chain/ufjc/morse/thermodynamics/isotensional/asymptotic/reduced/mod.rs:73-76 *)
Definition gibbs_free_energy_per_link (link_length : T) (hinge_mass : T) (link_stiffness : T)
    (link_energy : T) (force : T) (temperature : T) : T :=
  BOLTZMANN_CONSTANT * temperature * nondimensional_gibbs_free_energy_per_link link_length
      hinge_mass (link_stiffness * spowi link_length 2 / BOLTZMANN_CONSTANT / temperature)
      (link_energy / BOLTZMANN_CONSTANT / temperature) (force * link_length / BOLTZMANN_CONSTANT /
      temperature) temperature.

(* /repo/src/physics/single_chain/ufjc/morse/thermodynamics/isotensional/asymptotic/reduced/mod.rs:85-88 *)
Definition relative_gibbs_free_energy_per_link (link_length : T) (link_stiffness : T) (link_energy :
    T) (force : T) (temperature : T) : T :=
  gibbs_free_energy_per_link link_length (sdec 1 0) link_stiffness link_energy force temperature -
      gibbs_free_energy_per_link link_length (sdec 1 0) link_stiffness link_energy (ZERO *
      BOLTZMANN_CONSTANT * temperature / link_length) temperature.

(* /repo/src/physics/single_chain/ufjc/morse/thermodynamics/isotensional/asymptotic/reduced/mod.rs:91-94 *)
Definition nondimensional_gibbs_free_energy (number_of_links : Z) (link_length : T) (hinge_mass : T)
    (nondimensional_link_stiffness : T) (nondimensional_link_energy : T) (nondimensional_force : T)
    (temperature : T) : T :=
  sofZ number_of_links * nondimensional_gibbs_free_energy_per_link link_length hinge_mass
      nondimensional_link_stiffness nondimensional_link_energy nondimensional_force temperature.

(* /repo/src/physics/single_chain/ufjc/morse/thermodynamics/isotensional/asymptotic/reduced/mod.rs:67-70 *)
Definition gibbs_free_energy (number_of_links : Z) (link_length : T) (hinge_mass : T)
    (link_stiffness : T) (link_energy : T) (force : T) (temperature : T) : T :=
  BOLTZMANN_CONSTANT * temperature * nondimensional_gibbs_free_energy number_of_links link_length
      hinge_mass (link_stiffness * spowi link_length 2 / BOLTZMANN_CONSTANT / temperature)
      (link_energy / BOLTZMANN_CONSTANT / temperature) (force * link_length / BOLTZMANN_CONSTANT /
      temperature) temperature.

(* /repo/src/physics/single_chain/ufjc/morse/thermodynamics/isotensional/asymptotic/reduced/mod.rs:79-82 *)
Definition relative_gibbs_free_energy (number_of_links : Z) (link_length : T) (link_stiffness : T)
    (link_energy : T) (force : T) (temperature : T) : T :=
  gibbs_free_energy number_of_links link_length (sdec 1 0) link_stiffness link_energy force
      temperature - gibbs_free_energy number_of_links link_length (sdec 1 0) link_stiffness
      link_energy (ZERO * BOLTZMANN_CONSTANT * temperature / link_length) temperature.

(* /repo/src/physics/single_chain/ufjc/morse/thermodynamics/isotensional/asymptotic/reduced/mod.rs:104-107 *)
Definition nondimensional_relative_gibbs_free_energy (number_of_links : Z)
    (nondimensional_link_stiffness : T) (nondimensional_link_energy : T) (nondimensional_force : T)
    : T :=
  nondimensional_gibbs_free_energy number_of_links (sdec 1 0) (sdec 1 0)
      nondimensional_link_stiffness nondimensional_link_energy nondimensional_force (sdec 300 0) -
      nondimensional_gibbs_free_energy number_of_links (sdec 1 0) (sdec 1 0)
      nondimensional_link_stiffness nondimensional_link_energy ZERO (sdec 300 0).

(* /repo/src/physics/single_chain/ufjc/morse/thermodynamics/isotensional/asymptotic/reduced/mod.rs:110-113 *)
Definition nondimensional_relative_gibbs_free_energy_per_link (nondimensional_link_stiffness : T)
    (nondimensional_link_energy : T) (nondimensional_force : T) : T :=
  nondimensional_gibbs_free_energy_per_link (sdec 1 0) (sdec 1 0) nondimensional_link_stiffness
      nondimensional_link_energy nondimensional_force (sdec 300 0) -
      nondimensional_gibbs_free_energy_per_link (sdec 1 0) (sdec 1 0) nondimensional_link_stiffness
      nondimensional_link_energy ZERO (sdec 300 0).

End Model.
End morse_isotensional_asymptotic_reduced.

(** /repo/src/physics/single_chain/ufjc/morse/thermodynamics/isotensional/asymptotic/reduced/legendre/mod.rs *)
Module morse_isotensional_asymptotic_reduced_legendre.
Section Model.
Context {T : Type} {Sc : Scalar T}.

(* /repo/src/physics/single_chain/ufjc/morse/thermodynamics/isotensional/asymptotic/reduced/legendre/mod.rs:67-70 *)
Definition nondimensional_helmholtz_free_energy_per_link (link_length : T) (hinge_mass : T)
    (nondimensional_link_stiffness : T) (nondimensional_link_energy : T) (nondimensional_force : T)
    (temperature : T) : T :=
  - sln (ssinh nondimensional_force / nondimensional_force) + nondimensional_link_energy * spowi
      (sdec 1 0 - sdec 5 1 * (sdec 1 0 + ssqrt (sdec 1 0 - nondimensional_force / ssqrt
      (nondimensional_link_energy * nondimensional_link_stiffness / sdec 8 0)))) 2 - sdec 5 1 * sln
      (sdec 2 0 * spi * spowi link_length 2 / nondimensional_link_stiffness) - sln (sdec 8 0 * spowi
      spi 2 * hinge_mass * spowi link_length 2 * BOLTZMANN_CONSTANT * temperature / spowi
      PLANCK_CONSTANT 2) + nondimensional_force / stanh nondimensional_force - sdec 1 0.

(* /repo/src/physics/single_chain/ufjc/morse/thermodynamics/isotensional/asymptotic/reduced/legendre/mod.rs:43-46 *)
Definition helmholtz_free_energy_per_link (link_length : T) (hinge_mass : T) (link_stiffness : T)
    (link_energy : T) (force : T) (temperature : T) : T :=
  BOLTZMANN_CONSTANT * temperature * nondimensional_helmholtz_free_energy_per_link link_length
      hinge_mass (link_stiffness * spowi link_length 2 / BOLTZMANN_CONSTANT / temperature)
      (link_energy / BOLTZMANN_CONSTANT / temperature) (force / BOLTZMANN_CONSTANT / temperature *
      link_length) temperature.

(* /repo/src/physics/single_chain/ufjc/morse/thermodynamics/isotensional/asymptotic/reduced/legendre/mod.rs:55-58 *)
Definition relative_helmholtz_free_energy_per_link (link_length : T) (link_stiffness : T)
    (link_energy : T) (force : T) (temperature : T) : T :=
  helmholtz_free_energy_per_link link_length (sdec 1 0) link_stiffness link_energy force temperature
      - helmholtz_free_energy_per_link link_length (sdec 1 0) link_stiffness link_energy (ZERO *
      BOLTZMANN_CONSTANT * temperature / link_length) temperature.

(* /repo/src/physics/single_chain/ufjc/morse/thermodynamics/isotensional/asymptotic/reduced/legendre/mod.rs:61-64 *)
Definition nondimensional_helmholtz_free_energy (number_of_links : Z) (link_length : T) (hinge_mass
    : T) (nondimensional_link_stiffness : T) (nondimensional_link_energy : T) (nondimensional_force
    : T) (temperature : T) : T :=
  sofZ number_of_links * nondimensional_helmholtz_free_energy_per_link link_length hinge_mass
      nondimensional_link_stiffness nondimensional_link_energy nondimensional_force temperature.

(* /repo/src/physics/single_chain/ufjc/morse/thermodynamics/isotensional/asymptotic/reduced/legendre/mod.rs:37-40 *)
Definition helmholtz_free_energy (number_of_links : Z) (link_length : T) (hinge_mass : T)
    (link_stiffness : T) (link_energy : T) (force : T) (temperature : T) : T :=
  BOLTZMANN_CONSTANT * temperature * nondimensional_helmholtz_free_energy number_of_links
      link_length hinge_mass (link_stiffness * spowi link_length 2 / BOLTZMANN_CONSTANT /
      temperature) (link_energy / BOLTZMANN_CONSTANT / temperature) (force / BOLTZMANN_CONSTANT /
      temperature * link_length) temperature.

(* /repo/src/physics/single_chain/ufjc/morse/thermodynamics/isotensional/asymptotic/reduced/legendre/mod.rs:49-52 *)
Definition relative_helmholtz_free_energy (number_of_links : Z) (link_length : T) (link_stiffness :
    T) (link_energy : T) (force : T) (temperature : T) : T :=
  helmholtz_free_energy number_of_links link_length (sdec 1 0) link_stiffness link_energy force
      temperature - helmholtz_free_energy number_of_links link_length (sdec 1 0) link_stiffness
      link_energy (ZERO * BOLTZMANN_CONSTANT * temperature / link_length) temperature.

(* /repo/src/physics/single_chain/ufjc/morse/thermodynamics/isotensional/asymptotic/reduced/legendre/mod.rs:73-76 *)
Definition nondimensional_relative_helmholtz_free_energy (number_of_links : Z)
    (nondimensional_link_stiffness : T) (nondimensional_link_energy : T) (nondimensional_force : T)
    : T :=
  nondimensional_helmholtz_free_energy number_of_links (sdec 1 0) (sdec 1 0)
      nondimensional_link_stiffness nondimensional_link_energy nondimensional_force (sdec 300 0) -
      nondimensional_helmholtz_free_energy number_of_links (sdec 1 0) (sdec 1 0)
      nondimensional_link_stiffness nondimensional_link_energy ZERO (sdec 300 0).

(* /repo/src/physics/single_chain/ufjc/morse/thermodynamics/isotensional/asymptotic/reduced/legendre/mod.rs:79-82 *)
Definition nondimensional_relative_helmholtz_free_energy_per_link (nondimensional_link_stiffness :
    T) (nondimensional_link_energy : T) (nondimensional_force : T) : T :=
  nondimensional_helmholtz_free_energy_per_link (sdec 1 0) (sdec 1 0) nondimensional_link_stiffness
      nondimensional_link_energy nondimensional_force (sdec 300 0) -
      nondimensional_helmholtz_free_energy_per_link (sdec 1 0) (sdec 1 0)
      nondimensional_link_stiffness nondimensional_link_energy ZERO (sdec 300 0).

End Model.
End morse_isotensional_asymptotic_reduced_legendre.

(** /repo/src/physics/single_chain/ufjc/morse/thermodynamics/isotensional/legendre/mod.rs *)
Module morse_isotensional_legendre.
Section Model.
Context {T : Type} {Sc : Scalar T}.

(* /repo/src/physics/single_chain/ufjc/morse/thermodynamics/isotensional/legendre/mod.rs:72-93 *)
Definition nondimensional_helmholtz_free_energy_per_link (link_length : T) (hinge_mass : T)
    (nondimensional_link_stiffness : T) (nondimensional_link_energy : T) (nondimensional_force : T)
    (temperature : T) : T :=
  let nondimensional_morse_parameter := ssqrt (nondimensional_link_stiffness /
      nondimensional_link_energy / sdec 2 0) in
  let nondimensional_link_stretch_max := sdec 1 0 + sln (sdec 2 0) / nondimensional_morse_parameter
      in
  let rescaled_partition_function_integrand := fun nondimensional_link_stretch => let exponent_1 :=
      nondimensional_force * nondimensional_link_stretch - nondimensional_link_energy * spowi (sdec
      1 0 - sexp (- nondimensional_morse_parameter * (nondimensional_link_stretch - sdec 1 0))) 2 +
      sln nondimensional_link_stretch - sln nondimensional_force in
  let exponent_2 := exponent_1 - sdec 2 0 * nondimensional_force * nondimensional_link_stretch in
  sexp exponent_1 - sexp exponent_2 in
  let rescaled_partition_function := math.integrate_1d rescaled_partition_function_integrand ZERO
      nondimensional_link_stretch_max POINTS in
  let nondimensional_end_to_end_length_per_link_integrand := fun nondimensional_link_stretch => let
      exponent_1 := nondimensional_force * nondimensional_link_stretch - nondimensional_link_energy
      * spowi (sdec 1 0 - sexp (- nondimensional_morse_parameter * (nondimensional_link_stretch -
      sdec 1 0))) 2 + sdec 2 0 * sln nondimensional_link_stretch - sln nondimensional_force in
  let exponent_2 := exponent_1 - sdec 2 0 * nondimensional_force * nondimensional_link_stretch in
  let exponent_3 := exponent_1 - sln nondimensional_link_stretch - sln nondimensional_force in
  let exponent_4 := exponent_3 - sdec 2 0 * nondimensional_force * nondimensional_link_stretch in
  (sexp exponent_1 + sexp exponent_2 - sexp exponent_3 + sexp exponent_4) /
      rescaled_partition_function in
  let nondimensional_end_to_end_length_per_link := math.integrate_1d
      nondimensional_end_to_end_length_per_link_integrand ZERO nondimensional_link_stretch_max
      POINTS in
  - sln rescaled_partition_function - sln (sdec 8 0 * spowi spi 2 * hinge_mass * spowi link_length 2
      * BOLTZMANN_CONSTANT * temperature / spowi PLANCK_CONSTANT 2) + nondimensional_force *
      nondimensional_end_to_end_length_per_link.

(* /repo/src/physics/single_chain/ufjc/morse/thermodynamics/isotensional/legendre/mod.rs:48-51 *)
Definition helmholtz_free_energy_per_link (link_length : T) (hinge_mass : T) (link_stiffness : T)
    (link_energy : T) (force : T) (temperature : T) : T :=
  BOLTZMANN_CONSTANT * temperature * nondimensional_helmholtz_free_energy_per_link link_length
      hinge_mass (link_stiffness * spowi link_length 2 / BOLTZMANN_CONSTANT / temperature)
      (link_energy / BOLTZMANN_CONSTANT / temperature) (force / BOLTZMANN_CONSTANT / temperature *
      link_length) temperature.

(* /repo/src/physics/single_chain/ufjc/morse/thermodynamics/isotensional/legendre/mod.rs:60-63 *)
Definition relative_helmholtz_free_energy_per_link (link_length : T) (link_stiffness : T)
    (link_energy : T) (force : T) (temperature : T) : T :=
  helmholtz_free_energy_per_link link_length (sdec 1 0) link_stiffness link_energy force temperature
      - helmholtz_free_energy_per_link link_length (sdec 1 0) link_stiffness link_energy (ZERO *
      BOLTZMANN_CONSTANT * temperature / link_length) temperature.

(* /repo/src/physics/single_chain/ufjc/morse/thermodynamics/isotensional/legendre/mod.rs:66-69 *)
Definition nondimensional_helmholtz_free_energy (number_of_links : Z) (link_length : T) (hinge_mass
    : T) (nondimensional_link_stiffness : T) (nondimensional_link_energy : T) (nondimensional_force
    : T) (temperature : T) : T :=
  sofZ number_of_links * nondimensional_helmholtz_free_energy_per_link link_length hinge_mass
      nondimensional_link_stiffness nondimensional_link_energy nondimensional_force temperature.

(* /repo/src/physics/single_chain/ufjc/morse/thermodynamics/isotensional/legendre/mod.rs:42-45 *)
Definition helmholtz_free_energy (number_of_links : Z) (link_length : T) (hinge_mass : T)
    (link_stiffness : T) (link_energy : T) (force : T) (temperature : T) : T :=
  BOLTZMANN_CONSTANT * temperature * nondimensional_helmholtz_free_energy number_of_links
      link_length hinge_mass (link_stiffness * spowi link_length 2 / BOLTZMANN_CONSTANT /
      temperature) (link_energy / BOLTZMANN_CONSTANT / temperature) (force / BOLTZMANN_CONSTANT /
      temperature * link_length) temperature.

(* /repo/src/physics/single_chain/ufjc/morse/thermodynamics/isotensional/legendre/mod.rs:54-57 *)
Definition relative_helmholtz_free_energy (number_of_links : Z) (link_length : T) (link_stiffness :
    T) (link_energy : T) (force : T) (temperature : T) : T :=
  helmholtz_free_energy number_of_links link_length (sdec 1 0) link_stiffness link_energy force
      temperature - helmholtz_free_energy number_of_links link_length (sdec 1 0) link_stiffness
      link_energy (ZERO * BOLTZMANN_CONSTANT * temperature / link_length) temperature.

(* /repo/src/physics/single_chain/ufjc/morse/thermodynamics/isotensional/legendre/mod.rs:96-99 *)
Definition nondimensional_relative_helmholtz_free_energy (number_of_links : Z)
    (nondimensional_link_stiffness : T) (nondimensional_link_energy : T) (nondimensional_force : T)
    : T :=
  nondimensional_helmholtz_free_energy number_of_links (sdec 1 0) (sdec 1 0)
      nondimensional_link_stiffness nondimensional_link_energy nondimensional_force (sdec 300 0) -
      nondimensional_helmholtz_free_energy number_of_links (sdec 1 0) (sdec 1 0)
      nondimensional_link_stiffness nondimensional_link_energy ZERO (sdec 300 0).

(* /repo/src/physics/single_chain/ufjc/morse/thermodynamics/isotensional/legendre/mod.rs:102-105 *)
Definition nondimensional_relative_helmholtz_free_energy_per_link (nondimensional_link_stiffness :
    T) (nondimensional_link_energy : T) (nondimensional_force : T) : T :=
  nondimensional_helmholtz_free_energy_per_link (sdec 1 0) (sdec 1 0) nondimensional_link_stiffness
      nondimensional_link_energy nondimensional_force (sdec 300 0) -
      nondimensional_helmholtz_free_energy_per_link (sdec 1 0) (sdec 1 0)
      nondimensional_link_stiffness nondimensional_link_energy ZERO (sdec 300 0).

End Model.
End morse_isotensional_legendre.

(** /repo/src/physics/single_chain/ufjc/morse/thermodynamics/isometric/asymptotic/reduced/legendre/mod.rs: struct MORSEFJC *)
Module O_morse_isometric_asymptotic_reduced_legendre.
(* /repo/src/physics/single_chain/ufjc/morse/thermodynamics/isometric/asymptotic/reduced/legendre/mod.rs:23-39 *)
Record t {T : Type} := { hinge_mass : T; link_length : T; number_of_links : Z; link_stiffness : T; link_energy : T }.
Arguments t : clear implicits.
Section Model.
Context {T : Type} {Sc : Scalar T}.

(* /repo/src/physics/single_chain/ufjc/morse/thermodynamics/isometric/asymptotic/reduced/legendre/mod.rs:121-131 *)
Definition init (number_of_links : Z) (link_length : T) (hinge_mass : T) (link_stiffness : T)
    (link_energy : T) : t T :=
  {| hinge_mass := hinge_mass; link_length := link_length; number_of_links := number_of_links;
      link_stiffness := link_stiffness; link_energy := link_energy |}.

(* /repo/src/physics/single_chain/ufjc/morse/thermodynamics/isometric/asymptotic/reduced/legendre/mod.rs:133-136 *)
Definition force (self : t T) (end_to_end_length : T) (temperature : T) : T :=
  morse_isometric_asymptotic_reduced_legendre.force (number_of_links self) (link_length self)
      (link_stiffness self) (link_energy self) end_to_end_length temperature.

(* /repo/src/physics/single_chain/ufjc/morse/thermodynamics/isometric/asymptotic/reduced/legendre/mod.rs:138-141 *)
Definition nondimensional_force (self : t T) (nondimensional_end_to_end_length_per_link : T)
    (temperature : T) : T :=
  morse_isometric_asymptotic_reduced_legendre.nondimensional_force (link_stiffness self * spowi
      (link_length self) 2 / BOLTZMANN_CONSTANT / temperature) (link_energy self /
      BOLTZMANN_CONSTANT / temperature) nondimensional_end_to_end_length_per_link.

(* /repo/src/physics/single_chain/ufjc/morse/thermodynamics/isometric/asymptotic/reduced/legendre/mod.rs:143-146 *)
Definition helmholtz_free_energy (self : t T) (end_to_end_length : T) (temperature : T) : T :=
  morse_isometric_asymptotic_reduced_legendre.helmholtz_free_energy (number_of_links self)
      (link_length self) (hinge_mass self) (link_stiffness self) (link_energy self)
      end_to_end_length temperature.

(* /repo/src/physics/single_chain/ufjc/morse/thermodynamics/isometric/asymptotic/reduced/legendre/mod.rs:148-151 *)
Definition helmholtz_free_energy_per_link (self : t T) (end_to_end_length : T) (temperature : T) : T
    :=
  morse_isometric_asymptotic_reduced_legendre.helmholtz_free_energy_per_link (number_of_links self)
      (link_length self) (hinge_mass self) (link_stiffness self) (link_energy self)
      end_to_end_length temperature.

(* /repo/src/physics/single_chain/ufjc/morse/thermodynamics/isometric/asymptotic/reduced/legendre/mod.rs:153-156 *)
Definition relative_helmholtz_free_energy (self : t T) (end_to_end_length : T) (temperature : T) : T
    :=
  morse_isometric_asymptotic_reduced_legendre.relative_helmholtz_free_energy (number_of_links self)
      (link_length self) (link_stiffness self) (link_energy self) end_to_end_length temperature.

(* /repo/src/physics/single_chain/ufjc/morse/thermodynamics/isometric/asymptotic/reduced/legendre/mod.rs:158-161 *)
Definition relative_helmholtz_free_energy_per_link (self : t T) (end_to_end_length : T) (temperature
    : T) : T :=
  morse_isometric_asymptotic_reduced_legendre.relative_helmholtz_free_energy_per_link
      (number_of_links self) (link_length self) (link_stiffness self) (link_energy self)
      end_to_end_length temperature.

(* /repo/src/physics/single_chain/ufjc/morse/thermodynamics/isometric/asymptotic/reduced/legendre/mod.rs:163-166 *)
Definition nondimensional_helmholtz_free_energy (self : t T)
    (nondimensional_end_to_end_length_per_link : T) (temperature : T) : T :=
  morse_isometric_asymptotic_reduced_legendre.nondimensional_helmholtz_free_energy (number_of_links
      self) (link_length self) (hinge_mass self) (link_stiffness self * spowi (link_length self) 2 /
      BOLTZMANN_CONSTANT / temperature) (link_energy self / BOLTZMANN_CONSTANT / temperature)
      nondimensional_end_to_end_length_per_link temperature.

(* /repo/src/physics/single_chain/ufjc/morse/thermodynamics/isometric/asymptotic/reduced/legendre/mod.rs:168-171 *)
Definition nondimensional_helmholtz_free_energy_per_link (self : t T)
    (nondimensional_end_to_end_length_per_link : T) (temperature : T) : T :=
  morse_isometric_asymptotic_reduced_legendre.nondimensional_helmholtz_free_energy_per_link
      (number_of_links self) (link_length self) (hinge_mass self) (link_stiffness self * spowi
      (link_length self) 2 / BOLTZMANN_CONSTANT / temperature) (link_energy self /
      BOLTZMANN_CONSTANT / temperature) nondimensional_end_to_end_length_per_link temperature.

(* /repo/src/physics/single_chain/ufjc/morse/thermodynamics/isometric/asymptotic/reduced/legendre/mod.rs:173-176 *)
Definition nondimensional_relative_helmholtz_free_energy (self : t T)
    (nondimensional_end_to_end_length_per_link : T) (temperature : T) : T :=
  morse_isometric_asymptotic_reduced_legendre.nondimensional_relative_helmholtz_free_energy
      (number_of_links self) (link_stiffness self * spowi (link_length self) 2 / BOLTZMANN_CONSTANT
      / temperature) (link_energy self / BOLTZMANN_CONSTANT / temperature)
      nondimensional_end_to_end_length_per_link.

(* /repo/src/physics/single_chain/ufjc/morse/thermodynamics/isometric/asymptotic/reduced/legendre/mod.rs:178-181 *)
Definition nondimensional_relative_helmholtz_free_energy_per_link (self : t T)
    (nondimensional_end_to_end_length_per_link : T) (temperature : T) : T :=
  morse_isometric_asymptotic_reduced_legendre.nondimensional_relative_helmholtz_free_energy_per_link
      (link_stiffness self * spowi (link_length self) 2 / BOLTZMANN_CONSTANT / temperature)
      (link_energy self / BOLTZMANN_CONSTANT / temperature)
      nondimensional_end_to_end_length_per_link.

End Model.
End O_morse_isometric_asymptotic_reduced_legendre.

(** /repo/src/physics/single_chain/ufjc/morse/thermodynamics/isotensional/asymptotic/reduced/legendre/mod.rs: struct MORSEFJC *)
Module O_morse_isotensional_asymptotic_reduced_legendre.
(* /repo/src/physics/single_chain/ufjc/morse/thermodynamics/isotensional/asymptotic/reduced/legendre/mod.rs:18-34 *)
Record t {T : Type} := { hinge_mass : T; link_length : T; number_of_links : Z; link_stiffness : T; link_energy : T }.
Arguments t : clear implicits.
Section Model.
Context {T : Type} {Sc : Scalar T}.

(* /repo/src/physics/single_chain/ufjc/morse/thermodynamics/isotensional/asymptotic/reduced/legendre/mod.rs:88-98 *)
Definition init (number_of_links : Z) (link_length : T) (hinge_mass : T) (link_stiffness : T)
    (link_energy : T) : t T :=
  {| hinge_mass := hinge_mass; link_length := link_length; number_of_links := number_of_links;
      link_stiffness := link_stiffness; link_energy := link_energy |}.

(* /repo/src/physics/single_chain/ufjc/morse/thermodynamics/isotensional/asymptotic/reduced/legendre/mod.rs:100-103 *)
Definition helmholtz_free_energy (self : t T) (force : T) (temperature : T) : T :=
  morse_isotensional_asymptotic_reduced_legendre.helmholtz_free_energy (number_of_links self)
      (link_length self) (hinge_mass self) (link_stiffness self) (link_energy self) force
      temperature.

(* /repo/src/physics/single_chain/ufjc/morse/thermodynamics/isotensional/asymptotic/reduced/legendre/mod.rs:105-108 *)
Definition helmholtz_free_energy_per_link (self : t T) (force : T) (temperature : T) : T :=
  morse_isotensional_asymptotic_reduced_legendre.helmholtz_free_energy_per_link (link_length self)
      (hinge_mass self) (link_stiffness self) (link_energy self) force temperature.

(* /repo/src/physics/single_chain/ufjc/morse/thermodynamics/isotensional/asymptotic/reduced/legendre/mod.rs:110-113 *)
Definition relative_helmholtz_free_energy (self : t T) (force : T) (temperature : T) : T :=
  morse_isotensional_asymptotic_reduced_legendre.relative_helmholtz_free_energy (number_of_links
      self) (link_length self) (link_stiffness self) (link_energy self) force temperature.

(* /repo/src/physics/single_chain/ufjc/morse/thermodynamics/isotensional/asymptotic/reduced/legendre/mod.rs:115-118 *)
Definition relative_helmholtz_free_energy_per_link (self : t T) (force : T) (temperature : T) : T :=
  morse_isotensional_asymptotic_reduced_legendre.relative_helmholtz_free_energy_per_link
      (link_length self) (link_stiffness self) (link_energy self) force temperature.

(* /repo/src/physics/single_chain/ufjc/morse/thermodynamics/isotensional/asymptotic/reduced/legendre/mod.rs:120-123 *)
Definition nondimensional_helmholtz_free_energy (self : t T) (nondimensional_force : T) (temperature
    : T) : T :=
  morse_isotensional_asymptotic_reduced_legendre.nondimensional_helmholtz_free_energy
      (number_of_links self) (link_length self) (hinge_mass self) (link_stiffness self * spowi
      (link_length self) 2 / BOLTZMANN_CONSTANT / temperature) (link_energy self /
      BOLTZMANN_CONSTANT / temperature) nondimensional_force temperature.

(* /repo/src/physics/single_chain/ufjc/morse/thermodynamics/isotensional/asymptotic/reduced/legendre/mod.rs:125-128 *)
Definition nondimensional_helmholtz_free_energy_per_link (self : t T) (nondimensional_force : T)
    (temperature : T) : T :=
  morse_isotensional_asymptotic_reduced_legendre.nondimensional_helmholtz_free_energy_per_link
      (link_length self) (hinge_mass self) (link_stiffness self * spowi (link_length self) 2 /
      BOLTZMANN_CONSTANT / temperature) (link_energy self / BOLTZMANN_CONSTANT / temperature)
      nondimensional_force temperature.

(* /repo/src/physics/single_chain/ufjc/morse/thermodynamics/isotensional/asymptotic/reduced/legendre/mod.rs:130-133 *)
Definition nondimensional_relative_helmholtz_free_energy (self : t T) (nondimensional_force : T)
    (temperature : T) : T :=
  morse_isotensional_asymptotic_reduced_legendre.nondimensional_relative_helmholtz_free_energy
      (number_of_links self) (link_stiffness self * spowi (link_length self) 2 / BOLTZMANN_CONSTANT
      / temperature) (link_energy self / BOLTZMANN_CONSTANT / temperature) nondimensional_force.

(* /repo/src/physics/single_chain/ufjc/morse/thermodynamics/isotensional/asymptotic/reduced/legendre/mod.rs:135-138 *)
Definition nondimensional_relative_helmholtz_free_energy_per_link (self : t T) (nondimensional_force
    : T) (temperature : T) : T :=
  morse_isotensional_asymptotic_reduced_legendre.nondimensional_relative_helmholtz_free_energy_per_link
      (link_stiffness self * spowi (link_length self) 2 / BOLTZMANN_CONSTANT / temperature)
      (link_energy self / BOLTZMANN_CONSTANT / temperature) nondimensional_force.

End Model.
End O_morse_isotensional_asymptotic_reduced_legendre.

(** /repo/src/physics/single_chain/ufjc/morse/thermodynamics/isometric/asymptotic/legendre/mod.rs: struct MORSEFJC *)
Module O_morse_isometric_asymptotic_legendre.
(* /repo/src/physics/single_chain/ufjc/morse/thermodynamics/isometric/asymptotic/legendre/mod.rs:23-39 *)
Record t {T : Type} := { hinge_mass : T; link_length : T; number_of_links : Z; link_stiffness : T; link_energy : T }.
Arguments t : clear implicits.
Section Model.
Context {T : Type} {Sc : Scalar T}.

(* /repo/src/physics/single_chain/ufjc/morse/thermodynamics/isometric/asymptotic/legendre/mod.rs:123-133 *)
Definition init (number_of_links : Z) (link_length : T) (hinge_mass : T) (link_stiffness : T)
    (link_energy : T) : t T :=
  {| hinge_mass := hinge_mass; link_length := link_length; number_of_links := number_of_links;
      link_stiffness := link_stiffness; link_energy := link_energy |}.

(* /repo/src/physics/single_chain/ufjc/morse/thermodynamics/isometric/asymptotic/legendre/mod.rs:135-138 *)
Definition force (self : t T) (end_to_end_length : T) (temperature : T) : T :=
  morse_isometric_asymptotic_legendre.force (number_of_links self) (link_length self)
      (link_stiffness self) (link_energy self) end_to_end_length temperature.

(* /repo/src/physics/single_chain/ufjc/morse/thermodynamics/isometric/asymptotic/legendre/mod.rs:140-143 *)
Definition nondimensional_force (self : t T) (nondimensional_end_to_end_length_per_link : T)
    (temperature : T) : T :=
  morse_isometric_asymptotic_legendre.nondimensional_force (link_stiffness self * spowi (link_length
      self) 2 / BOLTZMANN_CONSTANT / temperature) (link_energy self / BOLTZMANN_CONSTANT /
      temperature) nondimensional_end_to_end_length_per_link.

(* /repo/src/physics/single_chain/ufjc/morse/thermodynamics/isometric/asymptotic/legendre/mod.rs:145-148 *)
Definition helmholtz_free_energy (self : t T) (end_to_end_length : T) (temperature : T) : T :=
  morse_isometric_asymptotic_legendre.helmholtz_free_energy (number_of_links self) (link_length
      self) (hinge_mass self) (link_stiffness self) (link_energy self) end_to_end_length
      temperature.

(* /repo/src/physics/single_chain/ufjc/morse/thermodynamics/isometric/asymptotic/legendre/mod.rs:150-153 *)
Definition helmholtz_free_energy_per_link (self : t T) (end_to_end_length : T) (temperature : T) : T
    :=
  morse_isometric_asymptotic_legendre.helmholtz_free_energy_per_link (number_of_links self)
      (link_length self) (hinge_mass self) (link_stiffness self) (link_energy self)
      end_to_end_length temperature.

(* /repo/src/physics/single_chain/ufjc/morse/thermodynamics/isometric/asymptotic/legendre/mod.rs:155-158 *)
Definition relative_helmholtz_free_energy (self : t T) (end_to_end_length : T) (temperature : T) : T
    :=
  morse_isometric_asymptotic_legendre.relative_helmholtz_free_energy (number_of_links self)
      (link_length self) (link_stiffness self) (link_energy self) end_to_end_length temperature.

(* /repo/src/physics/single_chain/ufjc/morse/thermodynamics/isometric/asymptotic/legendre/mod.rs:160-163 *)
Definition relative_helmholtz_free_energy_per_link (self : t T) (end_to_end_length : T) (temperature
    : T) : T :=
  morse_isometric_asymptotic_legendre.relative_helmholtz_free_energy_per_link (number_of_links self)
      (link_length self) (link_stiffness self) (link_energy self) end_to_end_length temperature.

(* /repo/src/physics/single_chain/ufjc/morse/thermodynamics/isometric/asymptotic/legendre/mod.rs:165-168 *)
Definition nondimensional_helmholtz_free_energy (self : t T)
    (nondimensional_end_to_end_length_per_link : T) (temperature : T) : T :=
  morse_isometric_asymptotic_legendre.nondimensional_helmholtz_free_energy (number_of_links self)
      (link_length self) (hinge_mass self) (link_stiffness self * spowi (link_length self) 2 /
      BOLTZMANN_CONSTANT / temperature) (link_energy self / BOLTZMANN_CONSTANT / temperature)
      nondimensional_end_to_end_length_per_link temperature.

(* /repo/src/physics/single_chain/ufjc/morse/thermodynamics/isometric/asymptotic/legendre/mod.rs:170-173 *)
Definition nondimensional_helmholtz_free_energy_per_link (self : t T)
    (nondimensional_end_to_end_length_per_link : T) (temperature : T) : T :=
  morse_isometric_asymptotic_legendre.nondimensional_helmholtz_free_energy_per_link (number_of_links
      self) (link_length self) (hinge_mass self) (link_stiffness self * spowi (link_length self) 2 /
      BOLTZMANN_CONSTANT / temperature) (link_energy self / BOLTZMANN_CONSTANT / temperature)
      nondimensional_end_to_end_length_per_link temperature.

(* /repo/src/physics/single_chain/ufjc/morse/thermodynamics/isometric/asymptotic/legendre/mod.rs:175-178 *)
Definition nondimensional_relative_helmholtz_free_energy (self : t T)
    (nondimensional_end_to_end_length_per_link : T) (temperature : T) : T :=
  morse_isometric_asymptotic_legendre.nondimensional_relative_helmholtz_free_energy (number_of_links
      self) (link_stiffness self * spowi (link_length self) 2 / BOLTZMANN_CONSTANT / temperature)
      (link_energy self / BOLTZMANN_CONSTANT / temperature)
      nondimensional_end_to_end_length_per_link.

(* /repo/src/physics/single_chain/ufjc/morse/thermodynamics/isometric/asymptotic/legendre/mod.rs:180-183 *)
Definition nondimensional_relative_helmholtz_free_energy_per_link (self : t T)
    (nondimensional_end_to_end_length_per_link : T) (temperature : T) : T :=
  morse_isometric_asymptotic_legendre.nondimensional_relative_helmholtz_free_energy_per_link
      (link_stiffness self * spowi (link_length self) 2 / BOLTZMANN_CONSTANT / temperature)
      (link_energy self / BOLTZMANN_CONSTANT / temperature)
      nondimensional_end_to_end_length_per_link.

End Model.
End O_morse_isometric_asymptotic_legendre.

(** /repo/src/physics/single_chain/ufjc/morse/thermodynamics/isometric/asymptotic/reduced/mod.rs: struct MORSEFJC *)
Module O_morse_isometric_asymptotic_reduced.
(* /repo/src/physics/single_chain/ufjc/morse/thermodynamics/isometric/asymptotic/reduced/mod.rs:10-29 *)
Record t {T : Type} := { hinge_mass : T; link_length : T; number_of_links : Z; link_stiffness : T; link_energy : T; legendre : O_morse_isometric_asymptotic_reduced_legendre.t T }.
Arguments t : clear implicits.
Section Model.
Context {T : Type} {Sc : Scalar T}.

(* /repo/src/physics/single_chain/ufjc/morse/thermodynamics/isometric/asymptotic/reduced/mod.rs:35-46 *)
Definition init (number_of_links : Z) (link_length : T) (hinge_mass : T) (link_stiffness : T)
    (link_energy : T) : t T :=
  {| hinge_mass := hinge_mass; link_length := link_length; number_of_links := number_of_links;
      link_stiffness := link_stiffness; link_energy := link_energy; legendre :=
      O_morse_isometric_asymptotic_reduced_legendre.init number_of_links link_length hinge_mass
      link_stiffness link_energy |}.

End Model.
End O_morse_isometric_asymptotic_reduced.

(** /repo/src/physics/single_chain/ufjc/morse/thermodynamics/isotensional/asymptotic/legendre/mod.rs: struct MORSEFJC *)
Module O_morse_isotensional_asymptotic_legendre.
(* /repo/src/physics/single_chain/ufjc/morse/thermodynamics/isotensional/asymptotic/legendre/mod.rs:18-34 *)
Record t {T : Type} := { hinge_mass : T; link_length : T; number_of_links : Z; link_stiffness : T; link_energy : T }.
Arguments t : clear implicits.
Section Model.
Context {T : Type} {Sc : Scalar T}.

(* /repo/src/physics/single_chain/ufjc/morse/thermodynamics/isotensional/asymptotic/legendre/mod.rs:89-99 *)
Definition init (number_of_links : Z) (link_length : T) (hinge_mass : T) (link_stiffness : T)
    (link_energy : T) : t T :=
  {| hinge_mass := hinge_mass; link_length := link_length; number_of_links := number_of_links;
      link_stiffness := link_stiffness; link_energy := link_energy |}.

(* /repo/src/physics/single_chain/ufjc/morse/thermodynamics/isotensional/asymptotic/legendre/mod.rs:101-104 *)
Definition helmholtz_free_energy (self : t T) (force : T) (temperature : T) : T :=
  morse_isotensional_asymptotic_legendre.helmholtz_free_energy (number_of_links self) (link_length
      self) (hinge_mass self) (link_stiffness self) (link_energy self) force temperature.

(* /repo/src/physics/single_chain/ufjc/morse/thermodynamics/isotensional/asymptotic/legendre/mod.rs:106-109 *)
Definition helmholtz_free_energy_per_link (self : t T) (force : T) (temperature : T) : T :=
  morse_isotensional_asymptotic_legendre.helmholtz_free_energy_per_link (link_length self)
      (hinge_mass self) (link_stiffness self) (link_energy self) force temperature.

(* /repo/src/physics/single_chain/ufjc/morse/thermodynamics/isotensional/asymptotic/legendre/mod.rs:111-114 *)
Definition relative_helmholtz_free_energy (self : t T) (force : T) (temperature : T) : T :=
  morse_isotensional_asymptotic_legendre.relative_helmholtz_free_energy (number_of_links self)
      (link_length self) (link_stiffness self) (link_energy self) force temperature.

(* /repo/src/physics/single_chain/ufjc/morse/thermodynamics/isotensional/asymptotic/legendre/mod.rs:116-119 *)
Definition relative_helmholtz_free_energy_per_link (self : t T) (force : T) (temperature : T) : T :=
  morse_isotensional_asymptotic_legendre.relative_helmholtz_free_energy_per_link (link_length self)
      (link_stiffness self) (link_energy self) force temperature.

(* /repo/src/physics/single_chain/ufjc/morse/thermodynamics/isotensional/asymptotic/legendre/mod.rs:121-124 *)
Definition nondimensional_helmholtz_free_energy (self : t T) (nondimensional_force : T) (temperature
    : T) : T :=
  morse_isotensional_asymptotic_legendre.nondimensional_helmholtz_free_energy (number_of_links self)
      (link_length self) (hinge_mass self) (link_stiffness self * spowi (link_length self) 2 /
      BOLTZMANN_CONSTANT / temperature) (link_energy self / BOLTZMANN_CONSTANT / temperature)
      nondimensional_force temperature.

(* /repo/src/physics/single_chain/ufjc/morse/thermodynamics/isotensional/asymptotic/legendre/mod.rs:126-129 *)
Definition nondimensional_helmholtz_free_energy_per_link (self : t T) (nondimensional_force : T)
    (temperature : T) : T :=
  morse_isotensional_asymptotic_legendre.nondimensional_helmholtz_free_energy_per_link (link_length
      self) (hinge_mass self) (link_stiffness self * spowi (link_length self) 2 / BOLTZMANN_CONSTANT
      / temperature) (link_energy self / BOLTZMANN_CONSTANT / temperature) nondimensional_force
      temperature.

(* /repo/src/physics/single_chain/ufjc/morse/thermodynamics/isotensional/asymptotic/legendre/mod.rs:131-134 *)
Definition nondimensional_relative_helmholtz_free_energy (self : t T) (nondimensional_force : T)
    (temperature : T) : T :=
  morse_isotensional_asymptotic_legendre.nondimensional_relative_helmholtz_free_energy
      (number_of_links self) (link_stiffness self * spowi (link_length self) 2 / BOLTZMANN_CONSTANT
      / temperature) (link_energy self / BOLTZMANN_CONSTANT / temperature) nondimensional_force.

(* /repo/src/physics/single_chain/ufjc/morse/thermodynamics/isotensional/asymptotic/legendre/mod.rs:136-139 *)
Definition nondimensional_relative_helmholtz_free_energy_per_link (self : t T) (nondimensional_force
    : T) (temperature : T) : T :=
  morse_isotensional_asymptotic_legendre.nondimensional_relative_helmholtz_free_energy_per_link
      (link_stiffness self * spowi (link_length self) 2 / BOLTZMANN_CONSTANT / temperature)
      (link_energy self / BOLTZMANN_CONSTANT / temperature) nondimensional_force.

End Model.
End O_morse_isotensional_asymptotic_legendre.

(** /repo/src/physics/single_chain/ufjc/morse/thermodynamics/isotensional/asymptotic/reduced/mod.rs: struct MORSEFJC *)
Module O_morse_isotensional_asymptotic_reduced.
(* /repo/src/physics/single_chain/ufjc/morse/thermodynamics/isotensional/asymptotic/reduced/mod.rs:21-40 *)
Record t {T : Type} := { hinge_mass : T; link_length : T; number_of_links : Z; link_stiffness : T; link_energy : T; legendre : O_morse_isotensional_asymptotic_reduced_legendre.t T }.
Arguments t : clear implicits.
Section Model.
Context {T : Type} {Sc : Scalar T}.

(* /repo/src/physics/single_chain/ufjc/morse/thermodynamics/isotensional/asymptotic/reduced/mod.rs:119-130 *)
Definition init (number_of_links : Z) (link_length : T) (hinge_mass : T) (link_stiffness : T)
    (link_energy : T) : t T :=
  {| hinge_mass := hinge_mass; link_length := link_length; number_of_links := number_of_links;
      link_stiffness := link_stiffness; link_energy := link_energy; legendre :=
      O_morse_isotensional_asymptotic_reduced_legendre.init number_of_links link_length hinge_mass
      link_stiffness link_energy |}.

(* /repo/src/physics/single_chain/ufjc/morse/thermodynamics/isotensional/asymptotic/reduced/mod.rs:132-135 *)
Definition end_to_end_length (self : t T) (force : T) (temperature : T) : T :=
  morse_isotensional_asymptotic_reduced.end_to_end_length (number_of_links self) (link_length self)
      (link_stiffness self) (link_energy self) force temperature.

(* /repo/src/physics/single_chain/ufjc/morse/thermodynamics/isotensional/asymptotic/reduced/mod.rs:137-140 *)
Definition end_to_end_length_per_link (self : t T) (force : T) (temperature : T) : T :=
  morse_isotensional_asymptotic_reduced.end_to_end_length_per_link (link_length self)
      (link_stiffness self) (link_energy self) force temperature.

(* /repo/src/physics/single_chain/ufjc/morse/thermodynamics/isotensional/asymptotic/reduced/mod.rs:142-145 *)
Definition nondimensional_end_to_end_length (self : t T) (nondimensional_force : T) (temperature :
    T) : T :=
  morse_isotensional_asymptotic_reduced.nondimensional_end_to_end_length (number_of_links self)
      (link_stiffness self * spowi (link_length self) 2 / BOLTZMANN_CONSTANT / temperature)
      (link_energy self / BOLTZMANN_CONSTANT / temperature) nondimensional_force.

(* /repo/src/physics/single_chain/ufjc/morse/thermodynamics/isotensional/asymptotic/reduced/mod.rs:147-150 *)
Definition nondimensional_end_to_end_length_per_link (self : t T) (nondimensional_force : T)
    (temperature : T) : T :=
  morse_isotensional_asymptotic_reduced.nondimensional_end_to_end_length_per_link (link_stiffness
      self * spowi (link_length self) 2 / BOLTZMANN_CONSTANT / temperature) (link_energy self /
      BOLTZMANN_CONSTANT / temperature) nondimensional_force.

(* /repo/src/physics/single_chain/ufjc/morse/thermodynamics/isotensional/asymptotic/reduced/mod.rs:152-155 *)
Definition gibbs_free_energy (self : t T) (force : T) (temperature : T) : T :=
  morse_isotensional_asymptotic_reduced.gibbs_free_energy (number_of_links self) (link_length self)
      (hinge_mass self) (link_stiffness self) (link_energy self) force temperature.

(* /repo/src/physics/single_chain/ufjc/morse/thermodynamics/isotensional/asymptotic/reduced/mod.rs:157-160 *)
Definition gibbs_free_energy_per_link (self : t T) (force : T) (temperature : T) : T :=
  morse_isotensional_asymptotic_reduced.gibbs_free_energy_per_link (link_length self) (hinge_mass
      self) (link_stiffness self) (link_energy self) force temperature.

(* /repo/src/physics/single_chain/ufjc/morse/thermodynamics/isotensional/asymptotic/reduced/mod.rs:162-165 *)
Definition relative_gibbs_free_energy (self : t T) (force : T) (temperature : T) : T :=
  morse_isotensional_asymptotic_reduced.relative_gibbs_free_energy (number_of_links self)
      (link_length self) (link_stiffness self) (link_energy self) force temperature.

(* /repo/src/physics/single_chain/ufjc/morse/thermodynamics/isotensional/asymptotic/reduced/mod.rs:167-170 *)
Definition relative_gibbs_free_energy_per_link (self : t T) (force : T) (temperature : T) : T :=
  morse_isotensional_asymptotic_reduced.relative_gibbs_free_energy_per_link (link_length self)
      (link_stiffness self) (link_energy self) force temperature.

(* /repo/src/physics/single_chain/ufjc/morse/thermodynamics/isotensional/asymptotic/reduced/mod.rs:172-175 *)
Definition nondimensional_gibbs_free_energy (self : t T) (nondimensional_force : T) (temperature :
    T) : T :=
  morse_isotensional_asymptotic_reduced.nondimensional_gibbs_free_energy (number_of_links self)
      (link_length self) (hinge_mass self) (link_stiffness self * spowi (link_length self) 2 /
      BOLTZMANN_CONSTANT / temperature) (link_energy self / BOLTZMANN_CONSTANT / temperature)
      nondimensional_force temperature.

(* /repo/src/physics/single_chain/ufjc/morse/thermodynamics/isotensional/asymptotic/reduced/mod.rs:177-180 *)
Definition nondimensional_gibbs_free_energy_per_link (self : t T) (nondimensional_force : T)
    (temperature : T) : T :=
  morse_isotensional_asymptotic_reduced.nondimensional_gibbs_free_energy_per_link (link_length self)
      (hinge_mass self) (link_stiffness self * spowi (link_length self) 2 / BOLTZMANN_CONSTANT /
      temperature) (link_energy self / BOLTZMANN_CONSTANT / temperature) nondimensional_force
      temperature.

(* /repo/src/physics/single_chain/ufjc/morse/thermodynamics/isotensional/asymptotic/reduced/mod.rs:182-185 *)
Definition nondimensional_relative_gibbs_free_energy (self : t T) (nondimensional_force : T)
    (temperature : T) : T :=
  morse_isotensional_asymptotic_reduced.nondimensional_relative_gibbs_free_energy (number_of_links
      self) (link_stiffness self * spowi (link_length self) 2 / BOLTZMANN_CONSTANT / temperature)
      (link_energy self / BOLTZMANN_CONSTANT / temperature) nondimensional_force.

(* /repo/src/physics/single_chain/ufjc/morse/thermodynamics/isotensional/asymptotic/reduced/mod.rs:187-190 *)
Definition nondimensional_relative_gibbs_free_energy_per_link (self : t T) (nondimensional_force :
    T) (temperature : T) : T :=
  morse_isotensional_asymptotic_reduced.nondimensional_relative_gibbs_free_energy_per_link
      (link_stiffness self * spowi (link_length self) 2 / BOLTZMANN_CONSTANT / temperature)
      (link_energy self / BOLTZMANN_CONSTANT / temperature) nondimensional_force.

End Model.
End O_morse_isotensional_asymptotic_reduced.

(** /repo/src/physics/single_chain/ufjc/morse/thermodynamics/isometric/asymptotic/mod.rs: struct MORSEFJC *)
Module O_morse_isometric_asymptotic.
(* /repo/src/physics/single_chain/ufjc/morse/thermodynamics/isometric/asymptotic/mod.rs:13-35 *)
Record t {T : Type} := { hinge_mass : T; link_length : T; number_of_links : Z; link_stiffness : T; link_energy : T; reduced : O_morse_isometric_asymptotic_reduced.t T; legendre : O_morse_isometric_asymptotic_legendre.t T }.
Arguments t : clear implicits.
Section Model.
Context {T : Type} {Sc : Scalar T}.

(* /repo/src/physics/single_chain/ufjc/morse/thermodynamics/isometric/asymptotic/mod.rs:41-53 *)
Definition init (number_of_links : Z) (link_length : T) (hinge_mass : T) (link_stiffness : T)
    (link_energy : T) : t T :=
  {| hinge_mass := hinge_mass; link_length := link_length; number_of_links := number_of_links;
      link_stiffness := link_stiffness; link_energy := link_energy; reduced :=
      O_morse_isometric_asymptotic_reduced.init number_of_links link_length hinge_mass
      link_stiffness link_energy; legendre := O_morse_isometric_asymptotic_legendre.init
      number_of_links link_length hinge_mass link_stiffness link_energy |}.

End Model.
End O_morse_isometric_asymptotic.

(** /repo/src/physics/single_chain/ufjc/morse/thermodynamics/isotensional/asymptotic/mod.rs: struct MORSEFJC *)
Module O_morse_isotensional_asymptotic.
(* /repo/src/physics/single_chain/ufjc/morse/thermodynamics/isotensional/asymptotic/mod.rs:24-46 *)
Record t {T : Type} := { hinge_mass : T; link_length : T; number_of_links : Z; link_stiffness : T; link_energy : T; reduced : O_morse_isotensional_asymptotic_reduced.t T; legendre : O_morse_isotensional_asymptotic_legendre.t T }.
Arguments t : clear implicits.
Section Model.
Context {T : Type} {Sc : Scalar T}.

(* /repo/src/physics/single_chain/ufjc/morse/thermodynamics/isotensional/asymptotic/mod.rs:127-139 *)
Definition init (number_of_links : Z) (link_length : T) (hinge_mass : T) (link_stiffness : T)
    (link_energy : T) : t T :=
  {| hinge_mass := hinge_mass; link_length := link_length; number_of_links := number_of_links;
      link_stiffness := link_stiffness; link_energy := link_energy; reduced :=
      O_morse_isotensional_asymptotic_reduced.init number_of_links link_length hinge_mass
      link_stiffness link_energy; legendre := O_morse_isotensional_asymptotic_legendre.init
      number_of_links link_length hinge_mass link_stiffness link_energy |}.

(* /repo/src/physics/single_chain/ufjc/morse/thermodynamics/isotensional/asymptotic/mod.rs:141-144 *)
Definition end_to_end_length (self : t T) (force : T) (temperature : T) : T :=
  morse_isotensional_asymptotic.end_to_end_length (number_of_links self) (link_length self)
      (link_stiffness self) (link_energy self) force temperature.

(* /repo/src/physics/single_chain/ufjc/morse/thermodynamics/isotensional/asymptotic/mod.rs:146-149 *)
Definition end_to_end_length_per_link (self : t T) (force : T) (temperature : T) : T :=
  morse_isotensional_asymptotic.end_to_end_length_per_link (link_length self) (link_stiffness self)
      (link_energy self) force temperature.

(* /repo/src/physics/single_chain/ufjc/morse/thermodynamics/isotensional/asymptotic/mod.rs:151-154 *)
Definition nondimensional_end_to_end_length (self : t T) (nondimensional_force : T) (temperature :
    T) : T :=
  morse_isotensional_asymptotic.nondimensional_end_to_end_length (number_of_links self)
      (link_stiffness self * spowi (link_length self) 2 / BOLTZMANN_CONSTANT / temperature)
      (link_energy self / BOLTZMANN_CONSTANT / temperature) nondimensional_force.

(* /repo/src/physics/single_chain/ufjc/morse/thermodynamics/isotensional/asymptotic/mod.rs:156-159 *)
Definition nondimensional_end_to_end_length_per_link (self : t T) (nondimensional_force : T)
    (temperature : T) : T :=
  morse_isotensional_asymptotic.nondimensional_end_to_end_length_per_link (link_stiffness self *
      spowi (link_length self) 2 / BOLTZMANN_CONSTANT / temperature) (link_energy self /
      BOLTZMANN_CONSTANT / temperature) nondimensional_force.

(* /repo/src/physics/single_chain/ufjc/morse/thermodynamics/isotensional/asymptotic/mod.rs:161-164 *)
Definition gibbs_free_energy (self : t T) (force : T) (temperature : T) : T :=
  morse_isotensional_asymptotic.gibbs_free_energy (number_of_links self) (link_length self)
      (hinge_mass self) (link_stiffness self) (link_energy self) force temperature.

(* /repo/src/physics/single_chain/ufjc/morse/thermodynamics/isotensional/asymptotic/mod.rs:166-169 *)
Definition gibbs_free_energy_per_link (self : t T) (force : T) (temperature : T) : T :=
  morse_isotensional_asymptotic.gibbs_free_energy_per_link (link_length self) (hinge_mass self)
      (link_stiffness self) (link_energy self) force temperature.

(* /repo/src/physics/single_chain/ufjc/morse/thermodynamics/isotensional/asymptotic/mod.rs:171-174 *)
Definition relative_gibbs_free_energy (self : t T) (force : T) (temperature : T) : T :=
  morse_isotensional_asymptotic.relative_gibbs_free_energy (number_of_links self) (link_length self)
      (link_stiffness self) (link_energy self) force temperature.

(* /repo/src/physics/single_chain/ufjc/morse/thermodynamics/isotensional/asymptotic/mod.rs:176-179 *)
Definition relative_gibbs_free_energy_per_link (self : t T) (force : T) (temperature : T) : T :=
  morse_isotensional_asymptotic.relative_gibbs_free_energy_per_link (link_length self)
      (link_stiffness self) (link_energy self) force temperature.

(* /repo/src/physics/single_chain/ufjc/morse/thermodynamics/isotensional/asymptotic/mod.rs:181-184 *)
Definition nondimensional_gibbs_free_energy (self : t T) (nondimensional_force : T) (temperature :
    T) : T :=
  morse_isotensional_asymptotic.nondimensional_gibbs_free_energy (number_of_links self) (link_length
      self) (hinge_mass self) (link_stiffness self * spowi (link_length self) 2 / BOLTZMANN_CONSTANT
      / temperature) (link_energy self / BOLTZMANN_CONSTANT / temperature) nondimensional_force
      temperature.

(* /repo/src/physics/single_chain/ufjc/morse/thermodynamics/isotensional/asymptotic/mod.rs:186-189 *)
Definition nondimensional_gibbs_free_energy_per_link (self : t T) (nondimensional_force : T)
    (temperature : T) : T :=
  morse_isotensional_asymptotic.nondimensional_gibbs_free_energy_per_link (link_length self)
      (hinge_mass self) (link_stiffness self * spowi (link_length self) 2 / BOLTZMANN_CONSTANT /
      temperature) (link_energy self / BOLTZMANN_CONSTANT / temperature) nondimensional_force
      temperature.

(* /repo/src/physics/single_chain/ufjc/morse/thermodynamics/isotensional/asymptotic/mod.rs:191-194 *)
Definition nondimensional_relative_gibbs_free_energy (self : t T) (nondimensional_force : T)
    (temperature : T) : T :=
  morse_isotensional_asymptotic.nondimensional_relative_gibbs_free_energy (number_of_links self)
      (link_stiffness self * spowi (link_length self) 2 / BOLTZMANN_CONSTANT / temperature)
      (link_energy self / BOLTZMANN_CONSTANT / temperature) nondimensional_force.

(* /repo/src/physics/single_chain/ufjc/morse/thermodynamics/isotensional/asymptotic/mod.rs:196-199 *)
Definition nondimensional_relative_gibbs_free_energy_per_link (self : t T) (nondimensional_force :
    T) (temperature : T) : T :=
  morse_isotensional_asymptotic.nondimensional_relative_gibbs_free_energy_per_link (link_stiffness
      self * spowi (link_length self) 2 / BOLTZMANN_CONSTANT / temperature) (link_energy self /
      BOLTZMANN_CONSTANT / temperature) nondimensional_force.

End Model.
End O_morse_isotensional_asymptotic.

(** /repo/src/physics/single_chain/ufjc/morse/thermodynamics/isotensional/legendre/mod.rs: struct MORSEFJC *)
Module O_morse_isotensional_legendre.
(* /repo/src/physics/single_chain/ufjc/morse/thermodynamics/isotensional/legendre/mod.rs:23-39 *)
Record t {T : Type} := { hinge_mass : T; link_length : T; number_of_links : Z; link_stiffness : T; link_energy : T }.
Arguments t : clear implicits.
Section Model.
Context {T : Type} {Sc : Scalar T}.

(* /repo/src/physics/single_chain/ufjc/morse/thermodynamics/isotensional/legendre/mod.rs:111-121 *)
Definition init (number_of_links : Z) (link_length : T) (hinge_mass : T) (link_stiffness : T)
    (link_energy : T) : t T :=
  {| hinge_mass := hinge_mass; link_length := link_length; number_of_links := number_of_links;
      link_stiffness := link_stiffness; link_energy := link_energy |}.

(* /repo/src/physics/single_chain/ufjc/morse/thermodynamics/isotensional/legendre/mod.rs:123-126 *)
Definition helmholtz_free_energy (self : t T) (force : T) (temperature : T) : T :=
  morse_isotensional_legendre.helmholtz_free_energy (number_of_links self) (link_length self)
      (hinge_mass self) (link_stiffness self) (link_energy self) force temperature.

(* /repo/src/physics/single_chain/ufjc/morse/thermodynamics/isotensional/legendre/mod.rs:128-131 *)
Definition helmholtz_free_energy_per_link (self : t T) (force : T) (temperature : T) : T :=
  morse_isotensional_legendre.helmholtz_free_energy_per_link (link_length self) (hinge_mass self)
      (link_stiffness self) (link_energy self) force temperature.

(* /repo/src/physics/single_chain/ufjc/morse/thermodynamics/isotensional/legendre/mod.rs:133-136 *)
Definition relative_helmholtz_free_energy (self : t T) (force : T) (temperature : T) : T :=
  morse_isotensional_legendre.relative_helmholtz_free_energy (number_of_links self) (link_length
      self) (link_stiffness self) (link_energy self) force temperature.

(* /repo/src/physics/single_chain/ufjc/morse/thermodynamics/isotensional/legendre/mod.rs:138-141 *)
Definition relative_helmholtz_free_energy_per_link (self : t T) (force : T) (temperature : T) : T :=
  morse_isotensional_legendre.relative_helmholtz_free_energy_per_link (link_length self)
      (link_stiffness self) (link_energy self) force temperature.

(* /repo/src/physics/single_chain/ufjc/morse/thermodynamics/isotensional/legendre/mod.rs:143-146 *)
Definition nondimensional_helmholtz_free_energy (self : t T) (nondimensional_force : T) (temperature
    : T) : T :=
  morse_isotensional_legendre.nondimensional_helmholtz_free_energy (number_of_links self)
      (link_length self) (hinge_mass self) (link_stiffness self * spowi (link_length self) 2 /
      BOLTZMANN_CONSTANT / temperature) (link_energy self / BOLTZMANN_CONSTANT / temperature)
      nondimensional_force temperature.

(* /repo/src/physics/single_chain/ufjc/morse/thermodynamics/isotensional/legendre/mod.rs:148-151 *)
Definition nondimensional_helmholtz_free_energy_per_link (self : t T) (nondimensional_force : T)
    (temperature : T) : T :=
  morse_isotensional_legendre.nondimensional_helmholtz_free_energy_per_link (link_length self)
      (hinge_mass self) (link_stiffness self * spowi (link_length self) 2 / BOLTZMANN_CONSTANT /
      temperature) (link_energy self / BOLTZMANN_CONSTANT / temperature) nondimensional_force
      temperature.

(* /repo/src/physics/single_chain/ufjc/morse/thermodynamics/isotensional/legendre/mod.rs:153-156 *)
Definition nondimensional_relative_helmholtz_free_energy (self : t T) (nondimensional_force : T)
    (temperature : T) : T :=
  morse_isotensional_legendre.nondimensional_relative_helmholtz_free_energy (number_of_links self)
      (link_stiffness self * spowi (link_length self) 2 / BOLTZMANN_CONSTANT / temperature)
      (link_energy self / BOLTZMANN_CONSTANT / temperature) nondimensional_force.

(* /repo/src/physics/single_chain/ufjc/morse/thermodynamics/isotensional/legendre/mod.rs:158-161 *)
Definition nondimensional_relative_helmholtz_free_energy_per_link (self : t T) (nondimensional_force
    : T) (temperature : T) : T :=
  morse_isotensional_legendre.nondimensional_relative_helmholtz_free_energy_per_link (link_stiffness
      self * spowi (link_length self) 2 / BOLTZMANN_CONSTANT / temperature) (link_energy self /
      BOLTZMANN_CONSTANT / temperature) nondimensional_force.

End Model.
End O_morse_isotensional_legendre.

(** /repo/src/physics/single_chain/ufjc/morse/thermodynamics/isometric/mod.rs: struct MORSEFJC *)
Module O_morse_isometric.
(* /repo/src/physics/single_chain/ufjc/morse/thermodynamics/isometric/mod.rs:10-29 *)
Record t {T : Type} := { hinge_mass : T; link_length : T; number_of_links : Z; link_stiffness : T; link_energy : T; asymptotic : O_morse_isometric_asymptotic.t T }.
Arguments t : clear implicits.
Section Model.
Context {T : Type} {Sc : Scalar T}.

(* /repo/src/physics/single_chain/ufjc/morse/thermodynamics/isometric/mod.rs:35-46 *)
Definition init (number_of_links : Z) (link_length : T) (hinge_mass : T) (link_stiffness : T)
    (link_energy : T) : t T :=
  {| hinge_mass := hinge_mass; link_length := link_length; number_of_links := number_of_links;
      link_stiffness := link_stiffness; link_energy := link_energy; asymptotic :=
      O_morse_isometric_asymptotic.init number_of_links link_length hinge_mass link_stiffness
      link_energy |}.

End Model.
End O_morse_isometric.

(** /repo/src/physics/single_chain/ufjc/morse/thermodynamics/isotensional/mod.rs: struct MORSEFJC *)
Module O_morse_isotensional.
(* /repo/src/physics/single_chain/ufjc/morse/thermodynamics/isotensional/mod.rs:29-51 *)
Record t {T : Type} := { hinge_mass : T; link_length : T; number_of_links : Z; link_stiffness : T; link_energy : T; asymptotic : O_morse_isotensional_asymptotic.t T; legendre : O_morse_isotensional_legendre.t T }.
Arguments t : clear implicits.
Section Model.
Context {T : Type} {Sc : Scalar T}.

(* /repo/src/physics/single_chain/ufjc/morse/thermodynamics/isotensional/mod.rs:155-167 *)
Definition init (number_of_links : Z) (link_length : T) (hinge_mass : T) (link_stiffness : T)
    (link_energy : T) : t T :=
  {| hinge_mass := hinge_mass; link_length := link_length; number_of_links := number_of_links;
      link_stiffness := link_stiffness; link_energy := link_energy; asymptotic :=
      O_morse_isotensional_asymptotic.init number_of_links link_length hinge_mass link_stiffness
      link_energy; legendre := O_morse_isotensional_legendre.init number_of_links link_length
      hinge_mass link_stiffness link_energy |}.

(* /repo/src/physics/single_chain/ufjc/morse/thermodynamics/isotensional/mod.rs:169-172 *)
Definition end_to_end_length (self : t T) (force : T) (temperature : T) : T :=
  morse_isotensional.end_to_end_length (number_of_links self) (link_length self) (link_stiffness
      self) (link_energy self) force temperature.

(* /repo/src/physics/single_chain/ufjc/morse/thermodynamics/isotensional/mod.rs:174-177 *)
Definition end_to_end_length_per_link (self : t T) (force : T) (temperature : T) : T :=
  morse_isotensional.end_to_end_length_per_link (link_length self) (link_stiffness self)
      (link_energy self) force temperature.

(* /repo/src/physics/single_chain/ufjc/morse/thermodynamics/isotensional/mod.rs:179-182 *)
Definition nondimensional_end_to_end_length (self : t T) (nondimensional_force : T) (temperature :
    T) : T :=
  morse_isotensional.nondimensional_end_to_end_length (number_of_links self) (link_stiffness self *
      spowi (link_length self) 2 / BOLTZMANN_CONSTANT / temperature) (link_energy self /
      BOLTZMANN_CONSTANT / temperature) nondimensional_force.

(* /repo/src/physics/single_chain/ufjc/morse/thermodynamics/isotensional/mod.rs:184-187 *)
Definition nondimensional_end_to_end_length_per_link (self : t T) (nondimensional_force : T)
    (temperature : T) : T :=
  morse_isotensional.nondimensional_end_to_end_length_per_link (link_stiffness self * spowi
      (link_length self) 2 / BOLTZMANN_CONSTANT / temperature) (link_energy self /
      BOLTZMANN_CONSTANT / temperature) nondimensional_force.

(* /repo/src/physics/single_chain/ufjc/morse/thermodynamics/isotensional/mod.rs:189-192 *)
Definition gibbs_free_energy (self : t T) (force : T) (temperature : T) : T :=
  morse_isotensional.gibbs_free_energy (number_of_links self) (link_length self) (hinge_mass self)
      (link_stiffness self) (link_energy self) force temperature.

(* /repo/src/physics/single_chain/ufjc/morse/thermodynamics/isotensional/mod.rs:194-197 *)
Definition gibbs_free_energy_per_link (self : t T) (force : T) (temperature : T) : T :=
  morse_isotensional.gibbs_free_energy_per_link (link_length self) (hinge_mass self) (link_stiffness
      self) (link_energy self) force temperature.

(* /repo/src/physics/single_chain/ufjc/morse/thermodynamics/isotensional/mod.rs:199-202 *)
Definition relative_gibbs_free_energy (self : t T) (force : T) (temperature : T) : T :=
  morse_isotensional.relative_gibbs_free_energy (number_of_links self) (link_length self)
      (link_stiffness self) (link_energy self) force temperature.

(* /repo/src/physics/single_chain/ufjc/morse/thermodynamics/isotensional/mod.rs:204-207 *)
Definition relative_gibbs_free_energy_per_link (self : t T) (force : T) (temperature : T) : T :=
  morse_isotensional.relative_gibbs_free_energy_per_link (link_length self) (link_stiffness self)
      (link_energy self) force temperature.

(* /repo/src/physics/single_chain/ufjc/morse/thermodynamics/isotensional/mod.rs:209-212 *)
Definition nondimensional_gibbs_free_energy (self : t T) (nondimensional_force : T) (temperature :
    T) : T :=
  morse_isotensional.nondimensional_gibbs_free_energy (number_of_links self) (link_length self)
      (hinge_mass self) (link_stiffness self * spowi (link_length self) 2 / BOLTZMANN_CONSTANT /
      temperature) (link_energy self / BOLTZMANN_CONSTANT / temperature) nondimensional_force
      temperature.

(* /repo/src/physics/single_chain/ufjc/morse/thermodynamics/isotensional/mod.rs:214-217 *)
Definition nondimensional_gibbs_free_energy_per_link (self : t T) (nondimensional_force : T)
    (temperature : T) : T :=
  morse_isotensional.nondimensional_gibbs_free_energy_per_link (link_length self) (hinge_mass self)
      (link_stiffness self * spowi (link_length self) 2 / BOLTZMANN_CONSTANT / temperature)
      (link_energy self / BOLTZMANN_CONSTANT / temperature) nondimensional_force temperature.

(* /repo/src/physics/single_chain/ufjc/morse/thermodynamics/isotensional/mod.rs:219-222 *)
Definition nondimensional_relative_gibbs_free_energy (self : t T) (nondimensional_force : T)
    (temperature : T) : T :=
  morse_isotensional.nondimensional_relative_gibbs_free_energy (number_of_links self)
      (link_stiffness self * spowi (link_length self) 2 / BOLTZMANN_CONSTANT / temperature)
      (link_energy self / BOLTZMANN_CONSTANT / temperature) nondimensional_force.

(* /repo/src/physics/single_chain/ufjc/morse/thermodynamics/isotensional/mod.rs:224-227 *)
Definition nondimensional_relative_gibbs_free_energy_per_link (self : t T) (nondimensional_force :
    T) (temperature : T) : T :=
  morse_isotensional.nondimensional_relative_gibbs_free_energy_per_link (link_stiffness self * spowi
      (link_length self) 2 / BOLTZMANN_CONSTANT / temperature) (link_energy self /
      BOLTZMANN_CONSTANT / temperature) nondimensional_force.

End Model.
End O_morse_isotensional.

(** /repo/src/physics/single_chain/ufjc/morse/thermodynamics/mod.rs: struct MORSEFJC *)
Module O_morse_thermodynamics.
(* /repo/src/physics/single_chain/ufjc/morse/thermodynamics/mod.rs:13-35 *)
Record t {T : Type} := { hinge_mass : T; link_length : T; number_of_links : Z; link_stiffness : T; link_energy : T; isometric : O_morse_isometric.t T; isotensional : O_morse_isotensional.t T }.
Arguments t : clear implicits.
Section Model.
Context {T : Type} {Sc : Scalar T}.

(* /repo/src/physics/single_chain/ufjc/morse/thermodynamics/mod.rs:41-53 *)
Definition init (number_of_links : Z) (link_length : T) (hinge_mass : T) (link_stiffness : T)
    (link_energy : T) : t T :=
  {| hinge_mass := hinge_mass; link_length := link_length; number_of_links := number_of_links;
      link_stiffness := link_stiffness; link_energy := link_energy; isometric :=
      O_morse_isometric.init number_of_links link_length hinge_mass link_stiffness link_energy;
      isotensional := O_morse_isotensional.init number_of_links link_length hinge_mass
      link_stiffness link_energy |}.

End Model.
End O_morse_thermodynamics.

(** /repo/src/physics/single_chain/ufjc/morse/mod.rs: struct MORSEFJC *)
Module O_morse.
(* /repo/src/physics/single_chain/ufjc/morse/mod.rs:10-29 *)
Record t {T : Type} := { hinge_mass : T; link_length : T; number_of_links : Z; link_stiffness : T; link_energy : T; thermodynamics : O_morse_thermodynamics.t T }.
Arguments t : clear implicits.
Section Model.
Context {T : Type} {Sc : Scalar T}.

(* /repo/src/physics/single_chain/ufjc/morse/mod.rs:35-46 *)
Definition init (number_of_links : Z) (link_length : T) (hinge_mass : T) (link_stiffness : T)
    (link_energy : T) : t T :=
  {| hinge_mass := hinge_mass; link_length := link_length; number_of_links := number_of_links;
      link_stiffness := link_stiffness; link_energy := link_energy; thermodynamics :=
      O_morse_thermodynamics.init number_of_links link_length hinge_mass link_stiffness link_energy
      |}.

End Model.
End O_morse.

