(** Log-squared-FJC model.
    Generated by tools/translate.py from the files cited at each definition. *)
From Coq Require Import ZArith List Bool.
From Verif Require Import Scalar MMath MConst.
Import ListNotations.
Local Open Scope scalar_scope.

(** /repo/src/physics/single_chain/ufjc/log_squared/thermodynamics/isometric/asymptotic/legendre/mod.rs *)
Module log_squared_isometric_asymptotic_legendre.
Section Model.
Context {T : Type} {Sc : Scalar T}.

(* /repo/src/physics/single_chain/ufjc/log_squared/thermodynamics/isometric/asymptotic/legendre/mod.rs:46-63 *)
Definition nondimensional_force (nondimensional_link_stiffness : T)
    (nondimensional_end_to_end_length_per_link : T) : T :=
  let c := sdec 4 1 in
  let nondimensional_force_max := nondimensional_link_stiffness / sexp (sdec 1 0) in
  let guess := if nondimensional_end_to_end_length_per_link <? sdec 1 0 then math.inverse_langevin
      nondimensional_end_to_end_length_per_link else sdec 95 2 * nondimensional_force_max in
  let guess := if nondimensional_force_max <? guess then sdec 95 2 * nondimensional_force_max else
      guess in
  math.inverse_newton_raphson_powered nondimensional_end_to_end_length_per_link (fun
      nondimensional_force => sdec 1 0 / stanh nondimensional_force - sdec 1 0 /
      nondimensional_force + nondimensional_force / nondimensional_link_stiffness * ((stanh
      nondimensional_force - sdec 1 0 / stanh nondimensional_force + sdec 1 0 /
      nondimensional_force) / (sdec 4 1 * stanh nondimensional_force + nondimensional_force /
      nondimensional_link_stiffness)) + sdec 1 0 / sexp (math.lambert_w (- nondimensional_force /
      nondimensional_link_stiffness)) - sdec 1 0) (fun nondimensional_force => sdec 1 0 / spowi
      nondimensional_force 2 - sdec 1 0 / spowi (ssinh nondimensional_force) 2 + ((sdec 2 0 * c *
      nondimensional_link_stiffness * nondimensional_force / stanh nondimensional_force - sdec 2 0 *
      c * nondimensional_link_stiffness + sdec 2 0 * spowi nondimensional_force 2 - sdec 1 0) /
      spowi (ssinh nondimensional_force) 2 + spowi nondimensional_force 2 / spowi (ssinh
      nondimensional_force) 4 - sdec 1 0) / spowi (c * nondimensional_link_stiffness +
      nondimensional_force / stanh nondimensional_force) 2 + nondimensional_link_stiffness / spowi
      nondimensional_force 2 * spowi (math.lambert_w (- nondimensional_force /
      nondimensional_link_stiffness)) 2 / (math.lambert_w (- nondimensional_force /
      nondimensional_link_stiffness) + sdec 1 0)) guess (sdec 1 6) 100 4.

(* /repo/src/physics/single_chain/ufjc/log_squared/thermodynamics/isometric/asymptotic/legendre/mod.rs:40-43 *)
Definition force (number_of_links : Z) (link_length : T) (link_stiffness : T) (end_to_end_length :
    T) (temperature : T) : T :=
  BOLTZMANN_CONSTANT * temperature / link_length * nondimensional_force (link_stiffness * spowi
      link_length 2 / BOLTZMANN_CONSTANT / temperature) (end_to_end_length / (sofZ number_of_links *
      link_length)).

(* /repo/src/physics/single_chain/ufjc/log_squared/thermodynamics/isometric/asymptotic/legendre/mod.rs:96-101 *)
Definition nondimensional_helmholtz_free_energy_per_link (number_of_links : Z) (link_length : T)
    (hinge_mass : T) (nondimensional_link_stiffness : T) (nondimensional_end_to_end_length_per_link
    : T) (temperature : T) : T :=
  let nondimensional_force := nondimensional_force nondimensional_link_stiffness
      nondimensional_end_to_end_length_per_link in
  let lambda := sdec 1 0 / sexp (math.lambert_w (- nondimensional_force /
      nondimensional_link_stiffness)) in
  - sln (ssinh nondimensional_force / nondimensional_force) - sln (sdec 1 0 + nondimensional_force /
      stanh nondimensional_force / nondimensional_link_stiffness / sdec 4 1) + sdec 5 1 *
      nondimensional_link_stiffness * spowi (sln lambda) 2 - nondimensional_force * (lambda - sdec 1
      0) + nondimensional_force * nondimensional_end_to_end_length_per_link - (sdec 1 0 - sdec 1 0 /
      sofZ number_of_links) * (sdec 5 1 * sln (sdec 2 0 * spi * spowi link_length 2 /
      nondimensional_link_stiffness) + sln (sdec 8 0 * spowi spi 2 * hinge_mass * spowi link_length
      2 * BOLTZMANN_CONSTANT * temperature / spowi PLANCK_CONSTANT 2)).

(* /repo/src/physics/single_chain/ufjc/log_squared/thermodynamics/isometric/asymptotic/legendre/mod.rs:72-75 *)
Definition helmholtz_free_energy_per_link (number_of_links : Z) (link_length : T) (hinge_mass : T)
    (link_stiffness : T) (end_to_end_length : T) (temperature : T) : T :=
  BOLTZMANN_CONSTANT * temperature * nondimensional_helmholtz_free_energy_per_link number_of_links
      link_length hinge_mass (link_stiffness * spowi link_length 2 / BOLTZMANN_CONSTANT /
      temperature) (end_to_end_length / sofZ number_of_links / link_length) temperature.

(* /repo/src/physics/single_chain/ufjc/log_squared/thermodynamics/isometric/asymptotic/legendre/mod.rs:84-87 *)
Definition relative_helmholtz_free_energy_per_link (number_of_links : Z) (link_length : T)
    (link_stiffness : T) (end_to_end_length : T) (temperature : T) : T :=
  helmholtz_free_energy_per_link number_of_links link_length (sdec 1 0) link_stiffness
      end_to_end_length temperature - helmholtz_free_energy_per_link number_of_links link_length
      (sdec 1 0) link_stiffness (ZERO * sofZ number_of_links * link_length) temperature.

(* /repo/src/physics/single_chain/ufjc/log_squared/thermodynamics/isometric/asymptotic/legendre/mod.rs:90-93 *)
Definition nondimensional_helmholtz_free_energy (number_of_links : Z) (link_length : T) (hinge_mass
    : T) (nondimensional_link_stiffness : T) (nondimensional_end_to_end_length_per_link : T)
    (temperature : T) : T :=
  sofZ number_of_links * nondimensional_helmholtz_free_energy_per_link number_of_links link_length
      hinge_mass nondimensional_link_stiffness nondimensional_end_to_end_length_per_link
      temperature.

(* /repo/src/physics/single_chain/ufjc/log_squared/thermodynamics/isometric/asymptotic/legendre/mod.rs:66-69 *)
Definition helmholtz_free_energy (number_of_links : Z) (link_length : T) (hinge_mass : T)
    (link_stiffness : T) (end_to_end_length : T) (temperature : T) : T :=
  BOLTZMANN_CONSTANT * temperature * nondimensional_helmholtz_free_energy number_of_links
      link_length hinge_mass (link_stiffness * spowi link_length 2 / BOLTZMANN_CONSTANT /
      temperature) (end_to_end_length / sofZ number_of_links / link_length) temperature.

(* /repo/src/physics/single_chain/ufjc/log_squared/thermodynamics/isometric/asymptotic/legendre/mod.rs:78-81 *)
Definition relative_helmholtz_free_energy (number_of_links : Z) (link_length : T) (link_stiffness :
    T) (end_to_end_length : T) (temperature : T) : T :=
  helmholtz_free_energy number_of_links link_length (sdec 1 0) link_stiffness end_to_end_length
      temperature - helmholtz_free_energy number_of_links link_length (sdec 1 0) link_stiffness
      (ZERO * sofZ number_of_links * link_length) temperature.

(* /repo/src/physics/single_chain/ufjc/log_squared/thermodynamics/isometric/asymptotic/legendre/mod.rs:104-107 *)
Definition nondimensional_relative_helmholtz_free_energy (number_of_links : Z)
    (nondimensional_link_stiffness : T) (nondimensional_end_to_end_length_per_link : T) : T :=
  nondimensional_helmholtz_free_energy number_of_links (sdec 1 0) (sdec 1 0)
      nondimensional_link_stiffness nondimensional_end_to_end_length_per_link (sdec 300 0) -
      nondimensional_helmholtz_free_energy number_of_links (sdec 1 0) (sdec 1 0)
      nondimensional_link_stiffness ZERO (sdec 300 0).

(* /repo/src/physics/single_chain/ufjc/log_squared/thermodynamics/isometric/asymptotic/legendre/mod.rs:110-113 *)
Definition nondimensional_relative_helmholtz_free_energy_per_link (nondimensional_link_stiffness :
    T) (nondimensional_end_to_end_length_per_link : T) : T :=
  nondimensional_helmholtz_free_energy_per_link 8 (sdec 1 0) (sdec 1 0)
      nondimensional_link_stiffness nondimensional_end_to_end_length_per_link (sdec 300 0) -
      nondimensional_helmholtz_free_energy_per_link 8 (sdec 1 0) (sdec 1 0)
      nondimensional_link_stiffness ZERO (sdec 300 0).

End Model.
End log_squared_isometric_asymptotic_legendre.

(** /repo/src/physics/single_chain/ufjc/log_squared/thermodynamics/isometric/asymptotic/reduced/legendre/mod.rs *)
Module log_squared_isometric_asymptotic_reduced_legendre.
Section Model.
Context {T : Type} {Sc : Scalar T}.

(* /repo/src/physics/single_chain/ufjc/log_squared/thermodynamics/isometric/asymptotic/reduced/legendre/mod.rs:46-62 *)
Definition nondimensional_force (nondimensional_link_stiffness : T)
    (nondimensional_end_to_end_length_per_link : T) : T :=
  let nondimensional_force_max := nondimensional_link_stiffness / sexp (sdec 1 0) in
  let guess := if nondimensional_end_to_end_length_per_link <? sdec 1 0 then math.inverse_langevin
      nondimensional_end_to_end_length_per_link else sdec 95 2 * nondimensional_force_max in
  let guess := if nondimensional_force_max <? guess then sdec 95 2 * nondimensional_force_max else
      guess in
  math.inverse_newton_raphson_powered nondimensional_end_to_end_length_per_link (fun
      nondimensional_force => sdec 1 0 / stanh nondimensional_force - sdec 1 0 /
      nondimensional_force + sdec 1 0 / sexp (math.lambert_w (- nondimensional_force /
      nondimensional_link_stiffness)) - sdec 1 0) (fun nondimensional_force => sdec 1 0 / spowi
      nondimensional_force 2 - sdec 1 0 / spowi (ssinh nondimensional_force) 2 +
      nondimensional_link_stiffness / spowi nondimensional_force 2 * spowi (math.lambert_w (-
      nondimensional_force / nondimensional_link_stiffness)) 2 / (math.lambert_w (-
      nondimensional_force / nondimensional_link_stiffness) + sdec 1 0)) guess (sdec 1 6) 100 4.

(* /repo/src/physics/single_chain/ufjc/log_squared/thermodynamics/isometric/asymptotic/reduced/legendre/mod.rs:40-43 *)
Definition force (number_of_links : Z) (link_length : T) (link_stiffness : T) (end_to_end_length :
    T) (temperature : T) : T :=
  BOLTZMANN_CONSTANT * temperature / link_length * nondimensional_force (link_stiffness * spowi
      link_length 2 / BOLTZMANN_CONSTANT / temperature) (end_to_end_length / (sofZ number_of_links *
      link_length)).

(* /repo/src/physics/single_chain/ufjc/log_squared/thermodynamics/isometric/asymptotic/reduced/legendre/mod.rs:95-100 *)
Definition nondimensional_helmholtz_free_energy_per_link (number_of_links : Z) (link_length : T)
    (hinge_mass : T) (nondimensional_link_stiffness : T) (nondimensional_end_to_end_length_per_link
    : T) (temperature : T) : T :=
  let nondimensional_force := nondimensional_force nondimensional_link_stiffness
      nondimensional_end_to_end_length_per_link in
  let lambda := sdec 1 0 / sexp (math.lambert_w (- nondimensional_force /
      nondimensional_link_stiffness)) in
  - sln (ssinh nondimensional_force / nondimensional_force) + sdec 5 1 *
      nondimensional_link_stiffness * spowi (sln lambda) 2 - nondimensional_force * (lambda - sdec 1
      0) + nondimensional_force * nondimensional_end_to_end_length_per_link - (sdec 1 0 - sdec 1 0 /
      sofZ number_of_links) * (sdec 5 1 * sln (sdec 2 0 * spi * spowi link_length 2 /
      nondimensional_link_stiffness) + sln (sdec 8 0 * spowi spi 2 * hinge_mass * spowi link_length
      2 * BOLTZMANN_CONSTANT * temperature / spowi PLANCK_CONSTANT 2)).

(* /repo/src/physics/single_chain/ufjc/log_squared/thermodynamics/isometric/asymptotic/reduced/legendre/mod.rs:71-74 *)
Definition helmholtz_free_energy_per_link (number_of_links : Z) (link_length : T) (hinge_mass : T)
    (link_stiffness : T) (end_to_end_length : T) (temperature : T) : T :=
  BOLTZMANN_CONSTANT * temperature * nondimensional_helmholtz_free_energy_per_link number_of_links
      link_length hinge_mass (link_stiffness * spowi link_length 2 / BOLTZMANN_CONSTANT /
      temperature) (end_to_end_length / sofZ number_of_links / link_length) temperature.

(* /repo/src/physics/single_chain/ufjc/log_squared/thermodynamics/isometric/asymptotic/reduced/legendre/mod.rs:83-86 *)
Definition relative_helmholtz_free_energy_per_link (number_of_links : Z) (link_length : T)
    (link_stiffness : T) (end_to_end_length : T) (temperature : T) : T :=
  helmholtz_free_energy_per_link number_of_links link_length (sdec 1 0) link_stiffness
      end_to_end_length temperature - helmholtz_free_energy_per_link number_of_links link_length
      (sdec 1 0) link_stiffness (ZERO * sofZ number_of_links * link_length) temperature.

(* /repo/src/physics/single_chain/ufjc/log_squared/thermodynamics/isometric/asymptotic/reduced/legendre/mod.rs:89-92 *)
Definition nondimensional_helmholtz_free_energy (number_of_links : Z) (link_length : T) (hinge_mass
    : T) (nondimensional_link_stiffness : T) (nondimensional_end_to_end_length_per_link : T)
    (temperature : T) : T :=
  sofZ number_of_links * nondimensional_helmholtz_free_energy_per_link number_of_links link_length
      hinge_mass nondimensional_link_stiffness nondimensional_end_to_end_length_per_link
      temperature.

(* /repo/src/physics/single_chain/ufjc/log_squared/thermodynamics/isometric/asymptotic/reduced/legendre/mod.rs:65-68 *)
Definition helmholtz_free_energy (number_of_links : Z) (link_length : T) (hinge_mass : T)
    (link_stiffness : T) (end_to_end_length : T) (temperature : T) : T :=
  BOLTZMANN_CONSTANT * temperature * nondimensional_helmholtz_free_energy number_of_links
      link_length hinge_mass (link_stiffness * spowi link_length 2 / BOLTZMANN_CONSTANT /
      temperature) (end_to_end_length / sofZ number_of_links / link_length) temperature.

(* /repo/src/physics/single_chain/ufjc/log_squared/thermodynamics/isometric/asymptotic/reduced/legendre/mod.rs:77-80 *)
Definition relative_helmholtz_free_energy (number_of_links : Z) (link_length : T) (link_stiffness :
    T) (end_to_end_length : T) (temperature : T) : T :=
  helmholtz_free_energy number_of_links link_length (sdec 1 0) link_stiffness end_to_end_length
      temperature - helmholtz_free_energy number_of_links link_length (sdec 1 0) link_stiffness
      (ZERO * sofZ number_of_links * link_length) temperature.

(* /repo/src/physics/single_chain/ufjc/log_squared/thermodynamics/isometric/asymptotic/reduced/legendre/mod.rs:103-106 *)
Definition nondimensional_relative_helmholtz_free_energy (number_of_links : Z)
    (nondimensional_link_stiffness : T) (nondimensional_end_to_end_length_per_link : T) : T :=
  nondimensional_helmholtz_free_energy number_of_links (sdec 1 0) (sdec 1 0)
      nondimensional_link_stiffness nondimensional_end_to_end_length_per_link (sdec 300 0) -
      nondimensional_helmholtz_free_energy number_of_links (sdec 1 0) (sdec 1 0)
      nondimensional_link_stiffness ZERO (sdec 300 0).

(* /repo/src/physics/single_chain/ufjc/log_squared/thermodynamics/isometric/asymptotic/reduced/legendre/mod.rs:109-112 *)
Definition nondimensional_relative_helmholtz_free_energy_per_link (nondimensional_link_stiffness :
    T) (nondimensional_end_to_end_length_per_link : T) : T :=
  nondimensional_helmholtz_free_energy_per_link 8 (sdec 1 0) (sdec 1 0)
      nondimensional_link_stiffness nondimensional_end_to_end_length_per_link (sdec 300 0) -
      nondimensional_helmholtz_free_energy_per_link 8 (sdec 1 0) (sdec 1 0)
      nondimensional_link_stiffness ZERO (sdec 300 0).

End Model.
End log_squared_isometric_asymptotic_reduced_legendre.

(** /repo/src/physics/single_chain/ufjc/log_squared/thermodynamics/isotensional/mod.rs *)
Module log_squared_isotensional.
Section Model.
Context {T : Type} {Sc : Scalar T}.

(* /repo/src/physics/single_chain/ufjc/log_squared/thermodynamics/isotensional/mod.rs:69-88 *)
Definition nondimensional_end_to_end_length_per_link (nondimensional_link_stiffness : T)
    (nondimensional_force : T) : T :=
  let nondimensional_link_stretch_max := sexp (sdec 1 0) in
  let rescaled_partition_function_integrand := fun nondimensional_link_stretch => let exponent_1 :=
      nondimensional_force * nondimensional_link_stretch - sdec 5 1 * nondimensional_link_stiffness
      * spowi (sln nondimensional_link_stretch) 2 + sln nondimensional_link_stretch - sln
      nondimensional_force in
  let exponent_2 := exponent_1 - sdec 2 0 * nondimensional_force * nondimensional_link_stretch in
  sexp exponent_1 - sexp exponent_2 in
  let rescaled_partition_function := math.integrate_1d rescaled_partition_function_integrand ZERO
      nondimensional_link_stretch_max POINTS in
  let nondimensional_end_to_end_length_per_link_integrand := fun nondimensional_link_stretch => let
      exponent_1 := nondimensional_force * nondimensional_link_stretch - sdec 5 1 *
      nondimensional_link_stiffness * spowi (sln nondimensional_link_stretch) 2 + sdec 2 0 * sln
      nondimensional_link_stretch - sln nondimensional_force in
  let exponent_2 := exponent_1 - sdec 2 0 * nondimensional_force * nondimensional_link_stretch in
  let exponent_3 := exponent_1 - sln nondimensional_link_stretch - sln nondimensional_force in
  let exponent_4 := exponent_3 - sdec 2 0 * nondimensional_force * nondimensional_link_stretch in
  (sexp exponent_1 + sexp exponent_2 - sexp exponent_3 + sexp exponent_4) /
      rescaled_partition_function in
  math.integrate_1d nondimensional_end_to_end_length_per_link_integrand ZERO
      nondimensional_link_stretch_max POINTS.

(* /repo/src/physics/single_chain/ufjc/log_squared/thermodynamics/isotensional/mod.rs:57-60 *)
Definition end_to_end_length_per_link (link_length : T) (link_stiffness : T) (force : T)
    (temperature : T) : T :=
  link_length * nondimensional_end_to_end_length_per_link (link_stiffness * spowi link_length 2 /
      BOLTZMANN_CONSTANT / temperature) (force * link_length / BOLTZMANN_CONSTANT / temperature).

(* /repo/src/physics/single_chain/ufjc/log_squared/thermodynamics/isotensional/mod.rs:63-66 *)
Definition nondimensional_end_to_end_length (number_of_links : Z) (nondimensional_link_stiffness :
    T) (nondimensional_force : T) : T :=
  sofZ number_of_links * nondimensional_end_to_end_length_per_link nondimensional_link_stiffness
      nondimensional_force.

(* /repo/src/physics/single_chain/ufjc/log_squared/thermodynamics/isotensional/mod.rs:51-54 *)
Definition end_to_end_length (number_of_links : Z) (link_length : T) (link_stiffness : T) (force :
    T) (temperature : T) : T :=
  link_length * nondimensional_end_to_end_length number_of_links (link_stiffness * spowi link_length
      2 / BOLTZMANN_CONSTANT / temperature) (force * link_length / BOLTZMANN_CONSTANT /
      temperature).

(* /repo/src/physics/single_chain/ufjc/log_squared/thermodynamics/isotensional/mod.rs:121-132 *)
Definition nondimensional_gibbs_free_energy_per_link (link_length : T) (hinge_mass : T)
    (nondimensional_link_stiffness : T) (nondimensional_force : T) (temperature : T) : T :=
  let nondimensional_link_stretch_max := sexp (sdec 1 0) in
  let rescaled_partition_function_integrand := fun nondimensional_link_stretch => let exponent_1 :=
      nondimensional_force * nondimensional_link_stretch - sdec 5 1 * nondimensional_link_stiffness
      * spowi (sln nondimensional_link_stretch) 2 + sln nondimensional_link_stretch - sln
      nondimensional_force in
  let exponent_2 := exponent_1 - sdec 2 0 * nondimensional_force * nondimensional_link_stretch in
  sexp exponent_1 - sexp exponent_2 in
  let rescaled_partition_function := math.integrate_1d rescaled_partition_function_integrand ZERO
      nondimensional_link_stretch_max POINTS in
  - sln rescaled_partition_function - sln (sdec 8 0 * spowi spi 2 * hinge_mass * spowi link_length 2
      * BOLTZMANN_CONSTANT * temperature / spowi PLANCK_CONSTANT 2).

(* /repo/src/physics/single_chain/ufjc/log_squared/thermodynamics/isotensional/mod.rs:97-100 *)
Definition gibbs_free_energy_per_link (link_length : T) (hinge_mass : T) (link_stiffness : T) (force
    : T) (temperature : T) : T :=
  BOLTZMANN_CONSTANT * temperature * nondimensional_gibbs_free_energy_per_link link_length
      hinge_mass (link_stiffness * spowi link_length 2 / BOLTZMANN_CONSTANT / temperature) (force *
      link_length / BOLTZMANN_CONSTANT / temperature) temperature.

(* /repo/src/physics/single_chain/ufjc/log_squared/thermodynamics/isotensional/mod.rs:109-112 *)
Definition relative_gibbs_free_energy_per_link (link_length : T) (link_stiffness : T) (force : T)
    (temperature : T) : T :=
  gibbs_free_energy_per_link link_length (sdec 1 0) link_stiffness force temperature -
      gibbs_free_energy_per_link link_length (sdec 1 0) link_stiffness (ZERO * BOLTZMANN_CONSTANT *
      temperature / link_length) temperature.

(* /repo/src/physics/single_chain/ufjc/log_squared/thermodynamics/isotensional/mod.rs:115-118 *)
Definition nondimensional_gibbs_free_energy (number_of_links : Z) (link_length : T) (hinge_mass : T)
    (nondimensional_link_stiffness : T) (nondimensional_force : T) (temperature : T) : T :=
  sofZ number_of_links * nondimensional_gibbs_free_energy_per_link link_length hinge_mass
      nondimensional_link_stiffness nondimensional_force temperature.

(* /repo/src/physics/single_chain/ufjc/log_squared/thermodynamics/isotensional/mod.rs:91-94 *)
Definition gibbs_free_energy (number_of_links : Z) (link_length : T) (hinge_mass : T)
    (link_stiffness : T) (force : T) (temperature : T) : T :=
  BOLTZMANN_CONSTANT * temperature * nondimensional_gibbs_free_energy number_of_links link_length
      hinge_mass (link_stiffness * spowi link_length 2 / BOLTZMANN_CONSTANT / temperature) (force *
      link_length / BOLTZMANN_CONSTANT / temperature) temperature.

(* /repo/src/physics/single_chain/ufjc/log_squared/thermodynamics/isotensional/mod.rs:103-106 *)
Definition relative_gibbs_free_energy (number_of_links : Z) (link_length : T) (link_stiffness : T)
    (force : T) (temperature : T) : T :=
  gibbs_free_energy number_of_links link_length (sdec 1 0) link_stiffness force temperature -
      gibbs_free_energy number_of_links link_length (sdec 1 0) link_stiffness (ZERO *
      BOLTZMANN_CONSTANT * temperature / link_length) temperature.

(* /repo/src/physics/single_chain/ufjc/log_squared/thermodynamics/isotensional/mod.rs:135-138 *)
Definition nondimensional_relative_gibbs_free_energy (number_of_links : Z)
    (nondimensional_link_stiffness : T) (nondimensional_force : T) : T :=
  nondimensional_gibbs_free_energy number_of_links (sdec 1 0) (sdec 1 0)
      nondimensional_link_stiffness nondimensional_force (sdec 300 0) -
      nondimensional_gibbs_free_energy number_of_links (sdec 1 0) (sdec 1 0)
      nondimensional_link_stiffness ZERO (sdec 300 0).

(* /repo/src/physics/single_chain/ufjc/log_squared/thermodynamics/isotensional/mod.rs:141-144 *)
Definition nondimensional_relative_gibbs_free_energy_per_link (nondimensional_link_stiffness : T)
    (nondimensional_force : T) : T :=
  nondimensional_gibbs_free_energy_per_link (sdec 1 0) (sdec 1 0) nondimensional_link_stiffness
      nondimensional_force (sdec 300 0) - nondimensional_gibbs_free_energy_per_link (sdec 1 0) (sdec
      1 0) nondimensional_link_stiffness ZERO (sdec 300 0).

End Model.
End log_squared_isotensional.

(** /repo/src/physics/single_chain/ufjc/log_squared/thermodynamics/isotensional/asymptotic/mod.rs *)
Module log_squared_isotensional_asymptotic.
Section Model.
Context {T : Type} {Sc : Scalar T}.

(* /repo/src/physics/single_chain/ufjc/log_squared/thermodynamics/isotensional/asymptotic/mod.rs:65-68 *)
Definition nondimensional_end_to_end_length_per_link (nondimensional_link_stiffness : T)
    (nondimensional_force : T) : T :=
  sdec 1 0 / stanh nondimensional_force - sdec 1 0 / nondimensional_force + nondimensional_force /
      nondimensional_link_stiffness * ((stanh nondimensional_force - sdec 1 0 / stanh
      nondimensional_force + sdec 1 0 / nondimensional_force) / (sdec 4 1 * stanh
      nondimensional_force + nondimensional_force / nondimensional_link_stiffness)) + sdec 1 0 /
      sexp (math.lambert_w (- nondimensional_force / nondimensional_link_stiffness)) - sdec 1 0.

(* /repo/src/physics/single_chain/ufjc/log_squared/thermodynamics/isotensional/asymptotic/mod.rs:53-56 *)
Definition end_to_end_length_per_link (link_length : T) (link_stiffness : T) (force : T)
    (temperature : T) : T :=
  link_length * nondimensional_end_to_end_length_per_link (link_stiffness * spowi link_length 2 /
      BOLTZMANN_CONSTANT / temperature) (force * link_length / BOLTZMANN_CONSTANT / temperature).

(* /repo/src/physics/single_chain/ufjc/log_squared/thermodynamics/isotensional/asymptotic/mod.rs:59-62 *)
Definition nondimensional_end_to_end_length (number_of_links : Z) (nondimensional_link_stiffness :
    T) (nondimensional_force : T) : T :=
  sofZ number_of_links * nondimensional_end_to_end_length_per_link nondimensional_link_stiffness
      nondimensional_force.

(* /repo/src/physics/single_chain/ufjc/log_squared/thermodynamics/isotensional/asymptotic/mod.rs:47-50 *)
Definition end_to_end_length (number_of_links : Z) (link_length : T) (link_stiffness : T) (force :
    T) (temperature : T) : T :=
  link_length * nondimensional_end_to_end_length number_of_links (link_stiffness * spowi link_length
      2 / BOLTZMANN_CONSTANT / temperature) (force * link_length / BOLTZMANN_CONSTANT /
      temperature).

(* /repo/src/physics/single_chain/ufjc/log_squared/thermodynamics/isotensional/asymptotic/mod.rs:101-105 *)
Definition nondimensional_gibbs_free_energy_per_link (link_length : T) (hinge_mass : T)
    (nondimensional_link_stiffness : T) (nondimensional_force : T) (temperature : T) : T :=
  let lambda := sdec 1 0 / sexp (math.lambert_w (- nondimensional_force /
      nondimensional_link_stiffness)) in
  - sln (ssinh nondimensional_force / nondimensional_force) - sln (sdec 1 0 + nondimensional_force /
      stanh nondimensional_force / nondimensional_link_stiffness / sdec 4 1) + sdec 5 1 *
      nondimensional_link_stiffness * spowi (sln lambda) 2 - nondimensional_force * (lambda - sdec 1
      0) - sdec 5 1 * sln (sdec 2 0 * spi * spowi link_length 2 / nondimensional_link_stiffness) -
      sln (sdec 8 0 * spowi spi 2 * hinge_mass * spowi link_length 2 * BOLTZMANN_CONSTANT *
      temperature / spowi PLANCK_CONSTANT 2).

(* /repo/src/physics/single_chain/ufjc/log_squared/thermodynamics/isotensional/asymptotic/mod.rs:77-80 *)
Definition gibbs_free_energy_per_link (link_length : T) (hinge_mass : T) (link_stiffness : T) (force
    : T) (temperature : T) : T :=
  BOLTZMANN_CONSTANT * temperature * nondimensional_gibbs_free_energy_per_link link_length
      hinge_mass (link_stiffness * spowi link_length 2 / BOLTZMANN_CONSTANT / temperature) (force *
      link_length / BOLTZMANN_CONSTANT / temperature) temperature.

(* /repo/src/physics/single_chain/ufjc/log_squared/thermodynamics/isotensional/asymptotic/mod.rs:89-92 *)
Definition relative_gibbs_free_energy_per_link (link_length : T) (link_stiffness : T) (force : T)
    (temperature : T) : T :=
  gibbs_free_energy_per_link link_length (sdec 1 0) link_stiffness force temperature -
      gibbs_free_energy_per_link link_length (sdec 1 0) link_stiffness (ZERO * BOLTZMANN_CONSTANT *
      temperature / link_length) temperature.

(* /repo/src/physics/single_chain/ufjc/log_squared/thermodynamics/isotensional/asymptotic/mod.rs:95-98 *)
Definition nondimensional_gibbs_free_energy (number_of_links : Z) (link_length : T) (hinge_mass : T)
    (nondimensional_link_stiffness : T) (nondimensional_force : T) (temperature : T) : T :=
  sofZ number_of_links * nondimensional_gibbs_free_energy_per_link link_length hinge_mass
      nondimensional_link_stiffness nondimensional_force temperature.

(* /repo/src/physics/single_chain/ufjc/log_squared/thermodynamics/isotensional/asymptotic/mod.rs:71-74 *)
Definition gibbs_free_energy (number_of_links : Z) (link_length : T) (hinge_mass : T)
    (link_stiffness : T) (force : T) (temperature : T) : T :=
  BOLTZMANN_CONSTANT * temperature * nondimensional_gibbs_free_energy number_of_links link_length
      hinge_mass (link_stiffness * spowi link_length 2 / BOLTZMANN_CONSTANT / temperature) (force *
      link_length / BOLTZMANN_CONSTANT / temperature) temperature.

(* /repo/src/physics/single_chain/ufjc/log_squared/thermodynamics/isotensional/asymptotic/mod.rs:83-86 *)
Definition relative_gibbs_free_energy (number_of_links : Z) (link_length : T) (link_stiffness : T)
    (force : T) (temperature : T) : T :=
  gibbs_free_energy number_of_links link_length (sdec 1 0) link_stiffness force temperature -
      gibbs_free_energy number_of_links link_length (sdec 1 0) link_stiffness (ZERO *
      BOLTZMANN_CONSTANT * temperature / link_length) temperature.

(* /repo/src/physics/single_chain/ufjc/log_squared/thermodynamics/isotensional/asymptotic/mod.rs:108-111 *)
Definition nondimensional_relative_gibbs_free_energy (number_of_links : Z)
    (nondimensional_link_stiffness : T) (nondimensional_force : T) : T :=
  nondimensional_gibbs_free_energy number_of_links (sdec 1 0) (sdec 1 0)
      nondimensional_link_stiffness nondimensional_force (sdec 300 0) -
      nondimensional_gibbs_free_energy number_of_links (sdec 1 0) (sdec 1 0)
      nondimensional_link_stiffness ZERO (sdec 300 0).

(* /repo/src/physics/single_chain/ufjc/log_squared/thermodynamics/isotensional/asymptotic/mod.rs:114-117 *)
Definition nondimensional_relative_gibbs_free_energy_per_link (nondimensional_link_stiffness : T)
    (nondimensional_force : T) : T :=
  nondimensional_gibbs_free_energy_per_link (sdec 1 0) (sdec 1 0) nondimensional_link_stiffness
      nondimensional_force (sdec 300 0) - nondimensional_gibbs_free_energy_per_link (sdec 1 0) (sdec
      1 0) nondimensional_link_stiffness ZERO (sdec 300 0).

End Model.
End log_squared_isotensional_asymptotic.

(** /repo/src/physics/single_chain/ufjc/log_squared/thermodynamics/isotensional/asymptotic/legendre/mod.rs *)
Module log_squared_isotensional_asymptotic_legendre.
Section Model.
Context {T : Type} {Sc : Scalar T}.

(* /repo/src/physics/single_chain/ufjc/log_squared/thermodynamics/isotensional/asymptotic/legendre/mod.rs:65-68 *)
Definition nondimensional_helmholtz_free_energy_per_link (link_length : T) (hinge_mass : T)
    (nondimensional_link_stiffness : T) (nondimensional_force : T) (temperature : T) : T :=
  - sln (ssinh nondimensional_force / nondimensional_force) - sln (sdec 1 0 + nondimensional_force /
      stanh nondimensional_force / nondimensional_link_stiffness / sdec 4 1) + sdec 5 1 *
      nondimensional_link_stiffness * spowi (sln (sdec 1 0 / sexp (math.lambert_w (-
      nondimensional_force / nondimensional_link_stiffness)))) 2 - sdec 5 1 * sln (sdec 2 0 * spi *
      spowi link_length 2 / nondimensional_link_stiffness) - sln (sdec 8 0 * spowi spi 2 *
      hinge_mass * spowi link_length 2 * BOLTZMANN_CONSTANT * temperature / spowi PLANCK_CONSTANT 2)
      + nondimensional_force / stanh nondimensional_force - sdec 1 0 + spowi nondimensional_force 2
      / nondimensional_link_stiffness * ((stanh nondimensional_force - sdec 1 0 / stanh
      nondimensional_force + sdec 1 0 / nondimensional_force) / (sdec 4 1 * stanh
      nondimensional_force + nondimensional_force / nondimensional_link_stiffness)).

(* /repo/src/physics/single_chain/ufjc/log_squared/thermodynamics/isotensional/asymptotic/legendre/mod.rs:41-44 *)
Definition helmholtz_free_energy_per_link (link_length : T) (hinge_mass : T) (link_stiffness : T)
    (force : T) (temperature : T) : T :=
  BOLTZMANN_CONSTANT * temperature * nondimensional_helmholtz_free_energy_per_link link_length
      hinge_mass (link_stiffness * spowi link_length 2 / BOLTZMANN_CONSTANT / temperature) (force /
      BOLTZMANN_CONSTANT / temperature * link_length) temperature.

(* /repo/src/physics/single_chain/ufjc/log_squared/thermodynamics/isotensional/asymptotic/legendre/mod.rs:53-56 *)
Definition relative_helmholtz_free_energy_per_link (link_length : T) (link_stiffness : T) (force :
    T) (temperature : T) : T :=
  helmholtz_free_energy_per_link link_length (sdec 1 0) link_stiffness force temperature -
      helmholtz_free_energy_per_link link_length (sdec 1 0) link_stiffness (ZERO *
      BOLTZMANN_CONSTANT * temperature / link_length) temperature.

(* /repo/src/physics/single_chain/ufjc/log_squared/thermodynamics/isotensional/asymptotic/legendre/mod.rs:59-62 *)
Definition nondimensional_helmholtz_free_energy (number_of_links : Z) (link_length : T) (hinge_mass
    : T) (nondimensional_link_stiffness : T) (nondimensional_force : T) (temperature : T) : T :=
  sofZ number_of_links * nondimensional_helmholtz_free_energy_per_link link_length hinge_mass
      nondimensional_link_stiffness nondimensional_force temperature.

(* /repo/src/physics/single_chain/ufjc/log_squared/thermodynamics/isotensional/asymptotic/legendre/mod.rs:35-38 *)
Definition helmholtz_free_energy (number_of_links : Z) (link_length : T) (hinge_mass : T)
    (link_stiffness : T) (force : T) (temperature : T) : T :=
  BOLTZMANN_CONSTANT * temperature * nondimensional_helmholtz_free_energy number_of_links
      link_length hinge_mass (link_stiffness * spowi link_length 2 / BOLTZMANN_CONSTANT /
      temperature) (force / BOLTZMANN_CONSTANT / temperature * link_length) temperature.

(* /repo/src/physics/single_chain/ufjc/log_squared/thermodynamics/isotensional/asymptotic/legendre/mod.rs:47-50 *)
Definition relative_helmholtz_free_energy (number_of_links : Z) (link_length : T) (link_stiffness :
    T) (force : T) (temperature : T) : T :=
  helmholtz_free_energy number_of_links link_length (sdec 1 0) link_stiffness force temperature -
      helmholtz_free_energy number_of_links link_length (sdec 1 0) link_stiffness (ZERO *
      BOLTZMANN_CONSTANT * temperature / link_length) temperature.

(* /repo/src/physics/single_chain/ufjc/log_squared/thermodynamics/isotensional/asymptotic/legendre/mod.rs:71-74 *)
Definition nondimensional_relative_helmholtz_free_energy (number_of_links : Z)
    (nondimensional_link_stiffness : T) (nondimensional_force : T) : T :=
  nondimensional_helmholtz_free_energy number_of_links (sdec 1 0) (sdec 1 0)
      nondimensional_link_stiffness nondimensional_force (sdec 300 0) -
      nondimensional_helmholtz_free_energy number_of_links (sdec 1 0) (sdec 1 0)
      nondimensional_link_stiffness ZERO (sdec 300 0).

(* /repo/src/physics/single_chain/ufjc/log_squared/thermodynamics/isotensional/asymptotic/legendre/mod.rs:77-80 *)
Definition nondimensional_relative_helmholtz_free_energy_per_link (nondimensional_link_stiffness :
    T) (nondimensional_force : T) : T :=
  nondimensional_helmholtz_free_energy_per_link (sdec 1 0) (sdec 1 0) nondimensional_link_stiffness
      nondimensional_force (sdec 300 0) - nondimensional_helmholtz_free_energy_per_link (sdec 1 0)
      (sdec 1 0) nondimensional_link_stiffness ZERO (sdec 300 0).

End Model.
End log_squared_isotensional_asymptotic_legendre.

(** /repo/src/physics/single_chain/ufjc/log_squared/thermodynamics/isotensional/asymptotic/reduced/mod.rs *)
Module log_squared_isotensional_asymptotic_reduced.
Section Model.
Context {T : Type} {Sc : Scalar T}.

(* /repo/src/physics/single_chain/ufjc/log_squared/thermodynamics/isotensional/asymptotic/reduced/mod.rs:59-62 *)
Definition nondimensional_end_to_end_length_per_link (nondimensional_link_stiffness : T)
    (nondimensional_force : T) : T :=
  sdec 1 0 / stanh nondimensional_force - sdec 1 0 / nondimensional_force + sdec 1 0 / sexp
      (math.lambert_w (- nondimensional_force / nondimensional_link_stiffness)) - sdec 1 0.

(* /repo/src/physics/single_chain/ufjc/log_squared/thermodynamics/isotensional/asymptotic/reduced/mod.rs:47-50 *)
Definition end_to_end_length_per_link (link_length : T) (link_stiffness : T) (force : T)
    (temperature : T) : T :=
  link_length * nondimensional_end_to_end_length_per_link (link_stiffness * spowi link_length 2 /
      BOLTZMANN_CONSTANT / temperature) (force * link_length / BOLTZMANN_CONSTANT / temperature).

(* /repo/src/physics/single_chain/ufjc/log_squared/thermodynamics/isotensional/asymptotic/reduced/mod.rs:53-56 *)
Definition nondimensional_end_to_end_length (number_of_links : Z) (nondimensional_link_stiffness :
    T) (nondimensional_force : T) : T :=
  sofZ number_of_links * nondimensional_end_to_end_length_per_link nondimensional_link_stiffness
      nondimensional_force.

(* /repo/src/physics/single_chain/ufjc/log_squared/thermodynamics/isotensional/asymptotic/reduced/mod.rs:41-44 *)
Definition end_to_end_length (number_of_links : Z) (link_length : T) (link_stiffness : T) (force :
    T) (temperature : T) : T :=
  link_length * nondimensional_end_to_end_length number_of_links (link_stiffness * spowi link_length
      2 / BOLTZMANN_CONSTANT / temperature) (force * link_length / BOLTZMANN_CONSTANT /
      temperature).

(* /repo/src/physics/single_chain/ufjc/log_squared/thermodynamics/isotensional/asymptotic/reduced/mod.rs:95-99 *)
Definition nondimensional_gibbs_free_energy_per_link (link_length : T) (hinge_mass : T)
    (nondimensional_link_stiffness : T) (nondimensional_force : T) (temperature : T) : T :=
  let lambda := sdec 1 0 / sexp (math.lambert_w (- nondimensional_force /
      nondimensional_link_stiffness)) in
  - sln (ssinh nondimensional_force / nondimensional_force) + sdec 5 1 *
      nondimensional_link_stiffness * spowi (sln lambda) 2 - nondimensional_force * (lambda - sdec 1
      0) - sdec 5 1 * sln (sdec 2 0 * spi * spowi link_length 2 / nondimensional_link_stiffness) -
      sln (sdec 8 0 * spowi spi 2 * hinge_mass * spowi link_length 2 * BOLTZMANN_CONSTANT *
      temperature / spowi PLANCK_CONSTANT 2).

(* /repo/src/physics/single_chain/ufjc/log_squared/thermodynamics/isotensional/asymptotic/reduced/mod.rs:71-74 *)
Definition gibbs_free_energy_per_link (link_length : T) (hinge_mass : T) (link_stiffness : T) (force
    : T) (temperature : T) : T :=
  BOLTZMANN_CONSTANT * temperature * nondimensional_gibbs_free_energy_per_link link_length
      hinge_mass (link_stiffness * spowi link_length 2 / BOLTZMANN_CONSTANT / temperature) (force *
      link_length / BOLTZMANN_CONSTANT / temperature) temperature.

(* /repo/src/physics/single_chain/ufjc/log_squared/thermodynamics/isotensional/asymptotic/reduced/mod.rs:83-86 *)
Definition relative_gibbs_free_energy_per_link (link_length : T) (link_stiffness : T) (force : T)
    (temperature : T) : T :=
  gibbs_free_energy_per_link link_length (sdec 1 0) link_stiffness force temperature -
      gibbs_free_energy_per_link link_length (sdec 1 0) link_stiffness (ZERO * BOLTZMANN_CONSTANT *
      temperature / link_length) temperature.

(* /repo/src/physics/single_chain/ufjc/log_squared/thermodynamics/isotensional/asymptotic/reduced/mod.rs:89-92 *)
Definition nondimensional_gibbs_free_energy (number_of_links : Z) (link_length : T) (hinge_mass : T)
    (nondimensional_link_stiffness : T) (nondimensional_force : T) (temperature : T) : T :=
  sofZ number_of_links * nondimensional_gibbs_free_energy_per_link link_length hinge_mass
      nondimensional_link_stiffness nondimensional_force temperature.

(* /repo/src/physics/single_chain/ufjc/log_squared/thermodynamics/isotensional/asymptotic/reduced/mod.rs:65-68 *)
Definition gibbs_free_energy (number_of_links : Z) (link_length : T) (hinge_mass : T)
    (link_stiffness : T) (force : T) (temperature : T) : T :=
  BOLTZMANN_CONSTANT * temperature * nondimensional_gibbs_free_energy number_of_links link_length
      hinge_mass (link_stiffness * spowi link_length 2 / BOLTZMANN_CONSTANT / temperature) (force *
      link_length / BOLTZMANN_CONSTANT / temperature) temperature.

(* /repo/src/physics/single_chain/ufjc/log_squared/thermodynamics/isotensional/asymptotic/reduced/mod.rs:77-80 *)
Definition relative_gibbs_free_energy (number_of_links : Z) (link_length : T) (link_stiffness : T)
    (force : T) (temperature : T) : T :=
  gibbs_free_energy number_of_links link_length (sdec 1 0) link_stiffness force temperature -
      gibbs_free_energy number_of_links link_length (sdec 1 0) link_stiffness (ZERO *
      BOLTZMANN_CONSTANT * temperature / link_length) temperature.

(* /repo/src/physics/single_chain/ufjc/log_squared/thermodynamics/isotensional/asymptotic/reduced/mod.rs:102-105 *)
Definition nondimensional_relative_gibbs_free_energy (number_of_links : Z)
    (nondimensional_link_stiffness : T) (nondimensional_force : T) : T :=
  nondimensional_gibbs_free_energy number_of_links (sdec 1 0) (sdec 1 0)
      nondimensional_link_stiffness nondimensional_force (sdec 300 0) -
      nondimensional_gibbs_free_energy number_of_links (sdec 1 0) (sdec 1 0)
      nondimensional_link_stiffness ZERO (sdec 300 0).

(* /repo/src/physics/single_chain/ufjc/log_squared/thermodynamics/isotensional/asymptotic/reduced/mod.rs:108-111 *)
Definition nondimensional_relative_gibbs_free_energy_per_link (nondimensional_link_stiffness : T)
    (nondimensional_force : T) : T :=
  nondimensional_gibbs_free_energy_per_link (sdec 1 0) (sdec 1 0) nondimensional_link_stiffness
      nondimensional_force (sdec 300 0) - nondimensional_gibbs_free_energy_per_link (sdec 1 0) (sdec
      1 0) nondimensional_link_stiffness ZERO (sdec 300 0).

End Model.
End log_squared_isotensional_asymptotic_reduced.

(** /repo/src/physics/single_chain/ufjc/log_squared/thermodynamics/isotensional/asymptotic/reduced/legendre/mod.rs *)
Module log_squared_isotensional_asymptotic_reduced_legendre.
Section Model.
Context {T : Type} {Sc : Scalar T}.

(* /repo/src/physics/single_chain/ufjc/log_squared/thermodynamics/isotensional/asymptotic/reduced/legendre/mod.rs:65-68 *)
Definition nondimensional_helmholtz_free_energy_per_link (link_length : T) (hinge_mass : T)
    (nondimensional_link_stiffness : T) (nondimensional_force : T) (temperature : T) : T :=
  - sln (ssinh nondimensional_force / nondimensional_force) + sdec 5 1 *
      nondimensional_link_stiffness * spowi (sln (sdec 1 0 / sexp (math.lambert_w (-
      nondimensional_force / nondimensional_link_stiffness)))) 2 - sdec 5 1 * sln (sdec 2 0 * spi *
      spowi link_length 2 / nondimensional_link_stiffness) - sln (sdec 8 0 * spowi spi 2 *
      hinge_mass * spowi link_length 2 * BOLTZMANN_CONSTANT * temperature / spowi PLANCK_CONSTANT 2)
      + nondimensional_force / stanh nondimensional_force - sdec 1 0.

(* /repo/src/physics/single_chain/ufjc/log_squared/thermodynamics/isotensional/asymptotic/reduced/legendre/mod.rs:41-44 *)
Definition helmholtz_free_energy_per_link (link_length : T) (hinge_mass : T) (link_stiffness : T)
    (force : T) (temperature : T) : T :=
  BOLTZMANN_CONSTANT * temperature * nondimensional_helmholtz_free_energy_per_link link_length
      hinge_mass (link_stiffness * spowi link_length 2 / BOLTZMANN_CONSTANT / temperature) (force /
      BOLTZMANN_CONSTANT / temperature * link_length) temperature.

(* /repo/src/physics/single_chain/ufjc/log_squared/thermodynamics/isotensional/asymptotic/reduced/legendre/mod.rs:53-56 *)
Definition relative_helmholtz_free_energy_per_link (link_length : T) (link_stiffness : T) (force :
    T) (temperature : T) : T :=
  helmholtz_free_energy_per_link link_length (sdec 1 0) link_stiffness force temperature -
      helmholtz_free_energy_per_link link_length (sdec 1 0) link_stiffness (ZERO *
      BOLTZMANN_CONSTANT * temperature / link_length) temperature.

(* /repo/src/physics/single_chain/ufjc/log_squared/thermodynamics/isotensional/asymptotic/reduced/legendre/mod.rs:59-62 *)
Definition nondimensional_helmholtz_free_energy (number_of_links : Z) (link_length : T) (hinge_mass
    : T) (nondimensional_link_stiffness : T) (nondimensional_force : T) (temperature : T) : T :=
  sofZ number_of_links * nondimensional_helmholtz_free_energy_per_link link_length hinge_mass
      nondimensional_link_stiffness nondimensional_force temperature.

(* /repo/src/physics/single_chain/ufjc/log_squared/thermodynamics/isotensional/asymptotic/reduced/legendre/mod.rs:35-38 *)
Definition helmholtz_free_energy (number_of_links : Z) (link_length : T) (hinge_mass : T)
    (link_stiffness : T) (force : T) (temperature : T) : T :=
  BOLTZMANN_CONSTANT * temperature * nondimensional_helmholtz_free_energy number_of_links
      link_length hinge_mass (link_stiffness * spowi link_length 2 / BOLTZMANN_CONSTANT /
      temperature) (force / BOLTZMANN_CONSTANT / temperature * link_length) temperature.

(* /repo/src/physics/single_chain/ufjc/log_squared/thermodynamics/isotensional/asymptotic/reduced/legendre/mod.rs:47-50 *)
Definition relative_helmholtz_free_energy (number_of_links : Z) (link_length : T) (link_stiffness :
    T) (force : T) (temperature : T) : T :=
  helmholtz_free_energy number_of_links link_length (sdec 1 0) link_stiffness force temperature -
      helmholtz_free_energy number_of_links link_length (sdec 1 0) link_stiffness (ZERO *
      BOLTZMANN_CONSTANT * temperature / link_length) temperature.

(* /repo/src/physics/single_chain/ufjc/log_squared/thermodynamics/isotensional/asymptotic/reduced/legendre/mod.rs:71-74 *)
Definition nondimensional_relative_helmholtz_free_energy (number_of_links : Z)
    (nondimensional_link_stiffness : T) (nondimensional_force : T) : T :=
  nondimensional_helmholtz_free_energy number_of_links (sdec 1 0) (sdec 1 0)
      nondimensional_link_stiffness nondimensional_force (sdec 300 0) -
      nondimensional_helmholtz_free_energy number_of_links (sdec 1 0) (sdec 1 0)
      nondimensional_link_stiffness ZERO (sdec 300 0).

(* /repo/src/physics/single_chain/ufjc/log_squared/thermodynamics/isotensional/asymptotic/reduced/legendre/mod.rs:77-80 *)
Definition nondimensional_relative_helmholtz_free_energy_per_link (nondimensional_link_stiffness :
    T) (nondimensional_force : T) : T :=
  nondimensional_helmholtz_free_energy_per_link (sdec 1 0) (sdec 1 0) nondimensional_link_stiffness
      nondimensional_force (sdec 300 0) - nondimensional_helmholtz_free_energy_per_link (sdec 1 0)
      (sdec 1 0) nondimensional_link_stiffness ZERO (sdec 300 0).

End Model.
End log_squared_isotensional_asymptotic_reduced_legendre.

(** /repo/src/physics/single_chain/ufjc/log_squared/thermodynamics/isotensional/legendre/mod.rs *)
Module log_squared_isotensional_legendre.
Section Model.
Context {T : Type} {Sc : Scalar T}.

(* /repo/src/physics/single_chain/ufjc/log_squared/thermodynamics/isotensional/legendre/mod.rs:69-89 *)
Definition nondimensional_helmholtz_free_energy_per_link (link_length : T) (hinge_mass : T)
    (nondimensional_link_stiffness : T) (nondimensional_force : T) (temperature : T) : T :=
  let nondimensional_link_stretch_max := sexp (sdec 1 0) in
  let rescaled_partition_function_integrand := fun nondimensional_link_stretch => let exponent_1 :=
      nondimensional_force * nondimensional_link_stretch - sdec 5 1 * nondimensional_link_stiffness
      * spowi (sln nondimensional_link_stretch) 2 + sln nondimensional_link_stretch - sln
      nondimensional_force in
  let exponent_2 := exponent_1 - sdec 2 0 * nondimensional_force * nondimensional_link_stretch in
  sexp exponent_1 - sexp exponent_2 in
  let rescaled_partition_function := math.integrate_1d rescaled_partition_function_integrand ZERO
      nondimensional_link_stretch_max POINTS in
  let nondimensional_end_to_end_length_per_link_integrand := fun nondimensional_link_stretch => let
      exponent_1 := nondimensional_force * nondimensional_link_stretch - sdec 5 1 *
      nondimensional_link_stiffness * spowi (sln nondimensional_link_stretch) 2 + sdec 2 0 * sln
      nondimensional_link_stretch - sln nondimensional_force in
  let exponent_2 := exponent_1 - sdec 2 0 * nondimensional_force * nondimensional_link_stretch in
  let exponent_3 := exponent_1 - sln nondimensional_link_stretch - sln nondimensional_force in
  let exponent_4 := exponent_3 - sdec 2 0 * nondimensional_force * nondimensional_link_stretch in
  (sexp exponent_1 + sexp exponent_2 - sexp exponent_3 + sexp exponent_4) /
      rescaled_partition_function in
  let nondimensional_end_to_end_length_per_link := math.integrate_1d
      nondimensional_end_to_end_length_per_link_integrand ZERO nondimensional_link_stretch_max
      POINTS in
  - sln rescaled_partition_function - sln (sdec 8 0 * spowi spi 2 * hinge_mass * spowi link_length 2
      * BOLTZMANN_CONSTANT * temperature / spowi PLANCK_CONSTANT 2) + nondimensional_force *
      nondimensional_end_to_end_length_per_link.

(* /repo/src/physics/single_chain/ufjc/log_squared/thermodynamics/isotensional/legendre/mod.rs:45-48 *)
Definition helmholtz_free_energy_per_link (link_length : T) (hinge_mass : T) (link_stiffness : T)
    (force : T) (temperature : T) : T :=
  BOLTZMANN_CONSTANT * temperature * nondimensional_helmholtz_free_energy_per_link link_length
      hinge_mass (link_stiffness * spowi link_length 2 / BOLTZMANN_CONSTANT / temperature) (force /
      BOLTZMANN_CONSTANT / temperature * link_length) temperature.

(* /repo/src/physics/single_chain/ufjc/log_squared/thermodynamics/isotensional/legendre/mod.rs:57-60 *)
Definition relative_helmholtz_free_energy_per_link (link_length : T) (link_stiffness : T) (force :
    T) (temperature : T) : T :=
  helmholtz_free_energy_per_link link_length (sdec 1 0) link_stiffness force temperature -
      helmholtz_free_energy_per_link link_length (sdec 1 0) link_stiffness (ZERO *
      BOLTZMANN_CONSTANT * temperature / link_length) temperature.

(* /repo/src/physics/single_chain/ufjc/log_squared/thermodynamics/isotensional/legendre/mod.rs:63-66 *)
Definition nondimensional_helmholtz_free_energy (number_of_links : Z) (link_length : T) (hinge_mass
    : T) (nondimensional_link_stiffness : T) (nondimensional_force : T) (temperature : T) : T :=
  sofZ number_of_links * nondimensional_helmholtz_free_energy_per_link link_length hinge_mass
      nondimensional_link_stiffness nondimensional_force temperature.

(* /repo/src/physics/single_chain/ufjc/log_squared/thermodynamics/isotensional/legendre/mod.rs:39-42 *)
Definition helmholtz_free_energy (number_of_links : Z) (link_length : T) (hinge_mass : T)
    (link_stiffness : T) (force : T) (temperature : T) : T :=
  BOLTZMANN_CONSTANT * temperature * nondimensional_helmholtz_free_energy number_of_links
      link_length hinge_mass (link_stiffness * spowi link_length 2 / BOLTZMANN_CONSTANT /
      temperature) (force / BOLTZMANN_CONSTANT / temperature * link_length) temperature.

(* /repo/src/physics/single_chain/ufjc/log_squared/thermodynamics/isotensional/legendre/mod.rs:51-54 *)
Definition relative_helmholtz_free_energy (number_of_links : Z) (link_length : T) (link_stiffness :
    T) (force : T) (temperature : T) : T :=
  helmholtz_free_energy number_of_links link_length (sdec 1 0) link_stiffness force temperature -
      helmholtz_free_energy number_of_links link_length (sdec 1 0) link_stiffness (ZERO *
      BOLTZMANN_CONSTANT * temperature / link_length) temperature.

(* /repo/src/physics/single_chain/ufjc/log_squared/thermodynamics/isotensional/legendre/mod.rs:92-95 *)
Definition nondimensional_relative_helmholtz_free_energy (number_of_links : Z)
    (nondimensional_link_stiffness : T) (nondimensional_force : T) : T :=
  nondimensional_helmholtz_free_energy number_of_links (sdec 1 0) (sdec 1 0)
      nondimensional_link_stiffness nondimensional_force (sdec 300 0) -
      nondimensional_helmholtz_free_energy number_of_links (sdec 1 0) (sdec 1 0)
      nondimensional_link_stiffness ZERO (sdec 300 0).

(* /repo/src/physics/single_chain/ufjc/log_squared/thermodynamics/isotensional/legendre/mod.rs:98-101 *)
Definition nondimensional_relative_helmholtz_free_energy_per_link (nondimensional_link_stiffness :
    T) (nondimensional_force : T) : T :=
  nondimensional_helmholtz_free_energy_per_link (sdec 1 0) (sdec 1 0) nondimensional_link_stiffness
      nondimensional_force (sdec 300 0) - nondimensional_helmholtz_free_energy_per_link (sdec 1 0)
      (sdec 1 0) nondimensional_link_stiffness ZERO (sdec 300 0).

End Model.
End log_squared_isotensional_legendre.

(** /repo/src/physics/single_chain/ufjc/log_squared/thermodynamics/isometric/asymptotic/reduced/legendre/mod.rs: struct LOGSQUAREDFJC *)
Module O_log_squared_isometric_asymptotic_reduced_legendre.
(* /repo/src/physics/single_chain/ufjc/log_squared/thermodynamics/isometric/asymptotic/reduced/legendre/mod.rs:24-37 *)
Record t {T : Type} := { hinge_mass : T; link_length : T; number_of_links : Z; link_stiffness : T }.
Arguments t : clear implicits.
Section Model.
Context {T : Type} {Sc : Scalar T}.

(* /repo/src/physics/single_chain/ufjc/log_squared/thermodynamics/isometric/asymptotic/reduced/legendre/mod.rs:118-127 *)
Definition init (number_of_links : Z) (link_length : T) (hinge_mass : T) (link_stiffness : T) : t T
    :=
  {| hinge_mass := hinge_mass; link_length := link_length; number_of_links := number_of_links;
      link_stiffness := link_stiffness |}.

(* /repo/src/physics/single_chain/ufjc/log_squared/thermodynamics/isometric/asymptotic/reduced/legendre/mod.rs:129-132 *)
Definition force (self : t T) (end_to_end_length : T) (temperature : T) : T :=
  log_squared_isometric_asymptotic_reduced_legendre.force (number_of_links self) (link_length self)
      (link_stiffness self) end_to_end_length temperature.

(* /repo/src/physics/single_chain/ufjc/log_squared/thermodynamics/isometric/asymptotic/reduced/legendre/mod.rs:134-137 *)
Definition nondimensional_force (self : t T) (nondimensional_end_to_end_length_per_link : T)
    (temperature : T) : T :=
  log_squared_isometric_asymptotic_reduced_legendre.nondimensional_force (link_stiffness self *
      spowi (link_length self) 2 / BOLTZMANN_CONSTANT / temperature)
      nondimensional_end_to_end_length_per_link.

(* /repo/src/physics/single_chain/ufjc/log_squared/thermodynamics/isometric/asymptotic/reduced/legendre/mod.rs:139-142 *)
Definition helmholtz_free_energy (self : t T) (end_to_end_length : T) (temperature : T) : T :=
  log_squared_isometric_asymptotic_reduced_legendre.helmholtz_free_energy (number_of_links self)
      (link_length self) (hinge_mass self) (link_stiffness self) end_to_end_length temperature.

(* /repo/src/physics/single_chain/ufjc/log_squared/thermodynamics/isometric/asymptotic/reduced/legendre/mod.rs:144-147 *)
Definition helmholtz_free_energy_per_link (self : t T) (end_to_end_length : T) (temperature : T) : T
    :=
  log_squared_isometric_asymptotic_reduced_legendre.helmholtz_free_energy_per_link (number_of_links
      self) (link_length self) (hinge_mass self) (link_stiffness self) end_to_end_length
      temperature.

(* /repo/src/physics/single_chain/ufjc/log_squared/thermodynamics/isometric/asymptotic/reduced/legendre/mod.rs:149-152 *)
Definition relative_helmholtz_free_energy (self : t T) (end_to_end_length : T) (temperature : T) : T
    :=
  log_squared_isometric_asymptotic_reduced_legendre.relative_helmholtz_free_energy (number_of_links
      self) (link_length self) (link_stiffness self) end_to_end_length temperature.

(* /repo/src/physics/single_chain/ufjc/log_squared/thermodynamics/isometric/asymptotic/reduced/legendre/mod.rs:154-157 *)
Definition relative_helmholtz_free_energy_per_link (self : t T) (end_to_end_length : T) (temperature
    : T) : T :=
  log_squared_isometric_asymptotic_reduced_legendre.relative_helmholtz_free_energy_per_link
      (number_of_links self) (link_length self) (link_stiffness self) end_to_end_length temperature.

(* /repo/src/physics/single_chain/ufjc/log_squared/thermodynamics/isometric/asymptotic/reduced/legendre/mod.rs:159-162 *)
Definition nondimensional_helmholtz_free_energy (self : t T)
    (nondimensional_end_to_end_length_per_link : T) (temperature : T) : T :=
  log_squared_isometric_asymptotic_reduced_legendre.nondimensional_helmholtz_free_energy
      (number_of_links self) (link_length self) (hinge_mass self) (link_stiffness self * spowi
      (link_length self) 2 / BOLTZMANN_CONSTANT / temperature)
      nondimensional_end_to_end_length_per_link temperature.

(* /repo/src/physics/single_chain/ufjc/log_squared/thermodynamics/isometric/asymptotic/reduced/legendre/mod.rs:164-167 *)
Definition nondimensional_helmholtz_free_energy_per_link (self : t T)
    (nondimensional_end_to_end_length_per_link : T) (temperature : T) : T :=
  log_squared_isometric_asymptotic_reduced_legendre.nondimensional_helmholtz_free_energy_per_link
      (number_of_links self) (link_length self) (hinge_mass self) (link_stiffness self * spowi
      (link_length self) 2 / BOLTZMANN_CONSTANT / temperature)
      nondimensional_end_to_end_length_per_link temperature.

(* /repo/src/physics/single_chain/ufjc/log_squared/thermodynamics/isometric/asymptotic/reduced/legendre/mod.rs:169-172 *)
Definition nondimensional_relative_helmholtz_free_energy (self : t T)
    (nondimensional_end_to_end_length_per_link : T) (temperature : T) : T :=
  log_squared_isometric_asymptotic_reduced_legendre.nondimensional_relative_helmholtz_free_energy
      (number_of_links self) (link_stiffness self * spowi (link_length self) 2 / BOLTZMANN_CONSTANT
      / temperature) nondimensional_end_to_end_length_per_link.

(* /repo/src/physics/single_chain/ufjc/log_squared/thermodynamics/isometric/asymptotic/reduced/legendre/mod.rs:174-177 *)
Definition nondimensional_relative_helmholtz_free_energy_per_link (self : t T)
    (nondimensional_end_to_end_length_per_link : T) (temperature : T) : T :=
  log_squared_isometric_asymptotic_reduced_legendre.nondimensional_relative_helmholtz_free_energy_per_link
      (link_stiffness self * spowi (link_length self) 2 / BOLTZMANN_CONSTANT / temperature)
      nondimensional_end_to_end_length_per_link.

End Model.
End O_log_squared_isometric_asymptotic_reduced_legendre.

(** /repo/src/physics/single_chain/ufjc/log_squared/thermodynamics/isotensional/asymptotic/reduced/legendre/mod.rs: struct LOGSQUAREDFJC *)
Module O_log_squared_isotensional_asymptotic_reduced_legendre.
(* /repo/src/physics/single_chain/ufjc/log_squared/thermodynamics/isotensional/asymptotic/reduced/legendre/mod.rs:19-32 *)
Record t {T : Type} := { hinge_mass : T; link_length : T; number_of_links : Z; link_stiffness : T }.
Arguments t : clear implicits.
Section Model.
Context {T : Type} {Sc : Scalar T}.

(* /repo/src/physics/single_chain/ufjc/log_squared/thermodynamics/isotensional/asymptotic/reduced/legendre/mod.rs:86-95 *)
Definition init (number_of_links : Z) (link_length : T) (hinge_mass : T) (link_stiffness : T) : t T
    :=
  {| hinge_mass := hinge_mass; link_length := link_length; number_of_links := number_of_links;
      link_stiffness := link_stiffness |}.

(* /repo/src/physics/single_chain/ufjc/log_squared/thermodynamics/isotensional/asymptotic/reduced/legendre/mod.rs:97-100 *)
Definition helmholtz_free_energy (self : t T) (force : T) (temperature : T) : T :=
  log_squared_isotensional_asymptotic_reduced_legendre.helmholtz_free_energy (number_of_links self)
      (link_length self) (hinge_mass self) (link_stiffness self) force temperature.

(* /repo/src/physics/single_chain/ufjc/log_squared/thermodynamics/isotensional/asymptotic/reduced/legendre/mod.rs:102-105 *)
Definition helmholtz_free_energy_per_link (self : t T) (force : T) (temperature : T) : T :=
  log_squared_isotensional_asymptotic_reduced_legendre.helmholtz_free_energy_per_link (link_length
      self) (hinge_mass self) (link_stiffness self) force temperature.

(* /repo/src/physics/single_chain/ufjc/log_squared/thermodynamics/isotensional/asymptotic/reduced/legendre/mod.rs:107-110 *)
Definition relative_helmholtz_free_energy (self : t T) (force : T) (temperature : T) : T :=
  log_squared_isotensional_asymptotic_reduced_legendre.relative_helmholtz_free_energy
      (number_of_links self) (link_length self) (link_stiffness self) force temperature.

(* /repo/src/physics/single_chain/ufjc/log_squared/thermodynamics/isotensional/asymptotic/reduced/legendre/mod.rs:112-115 *)
Definition relative_helmholtz_free_energy_per_link (self : t T) (force : T) (temperature : T) : T :=
  log_squared_isotensional_asymptotic_reduced_legendre.relative_helmholtz_free_energy_per_link
      (link_length self) (link_stiffness self) force temperature.

(* /repo/src/physics/single_chain/ufjc/log_squared/thermodynamics/isotensional/asymptotic/reduced/legendre/mod.rs:117-120 *)
Definition nondimensional_helmholtz_free_energy (self : t T) (nondimensional_force : T) (temperature
    : T) : T :=
  log_squared_isotensional_asymptotic_reduced_legendre.nondimensional_helmholtz_free_energy
      (number_of_links self) (link_length self) (hinge_mass self) (link_stiffness self * spowi
      (link_length self) 2 / BOLTZMANN_CONSTANT / temperature) nondimensional_force temperature.

(* /repo/src/physics/single_chain/ufjc/log_squared/thermodynamics/isotensional/asymptotic/reduced/legendre/mod.rs:122-125 *)
Definition nondimensional_helmholtz_free_energy_per_link (self : t T) (nondimensional_force : T)
    (temperature : T) : T :=
  log_squared_isotensional_asymptotic_reduced_legendre.nondimensional_helmholtz_free_energy_per_link
      (link_length self) (hinge_mass self) (link_stiffness self * spowi (link_length self) 2 /
      BOLTZMANN_CONSTANT / temperature) nondimensional_force temperature.

(* /repo/src/physics/single_chain/ufjc/log_squared/thermodynamics/isotensional/asymptotic/reduced/legendre/mod.rs:127-130 *)
Definition nondimensional_relative_helmholtz_free_energy (self : t T) (nondimensional_force : T)
    (temperature : T) : T :=
  log_squared_isotensional_asymptotic_reduced_legendre.nondimensional_relative_helmholtz_free_energy
      (number_of_links self) (link_stiffness self * spowi (link_length self) 2 / BOLTZMANN_CONSTANT
      / temperature) nondimensional_force.

(* /repo/src/physics/single_chain/ufjc/log_squared/thermodynamics/isotensional/asymptotic/reduced/legendre/mod.rs:132-135 *)
Definition nondimensional_relative_helmholtz_free_energy_per_link (self : t T) (nondimensional_force
    : T) (temperature : T) : T :=
  log_squared_isotensional_asymptotic_reduced_legendre.nondimensional_relative_helmholtz_free_energy_per_link
      (link_stiffness self * spowi (link_length self) 2 / BOLTZMANN_CONSTANT / temperature)
      nondimensional_force.

End Model.
End O_log_squared_isotensional_asymptotic_reduced_legendre.

(** /repo/src/physics/single_chain/ufjc/log_squared/thermodynamics/isometric/asymptotic/legendre/mod.rs: struct LOGSQUAREDFJC *)
Module O_log_squared_isometric_asymptotic_legendre.
(* /repo/src/physics/single_chain/ufjc/log_squared/thermodynamics/isometric/asymptotic/legendre/mod.rs:24-37 *)
Record t {T : Type} := { hinge_mass : T; link_length : T; number_of_links : Z; link_stiffness : T }.
Arguments t : clear implicits.
Section Model.
Context {T : Type} {Sc : Scalar T}.

(* /repo/src/physics/single_chain/ufjc/log_squared/thermodynamics/isometric/asymptotic/legendre/mod.rs:119-128 *)
Definition init (number_of_links : Z) (link_length : T) (hinge_mass : T) (link_stiffness : T) : t T
    :=
  {| hinge_mass := hinge_mass; link_length := link_length; number_of_links := number_of_links;
      link_stiffness := link_stiffness |}.

(* /repo/src/physics/single_chain/ufjc/log_squared/thermodynamics/isometric/asymptotic/legendre/mod.rs:130-133 *)
Definition force (self : t T) (end_to_end_length : T) (temperature : T) : T :=
  log_squared_isometric_asymptotic_legendre.force (number_of_links self) (link_length self)
      (link_stiffness self) end_to_end_length temperature.

(* /repo/src/physics/single_chain/ufjc/log_squared/thermodynamics/isometric/asymptotic/legendre/mod.rs:135-138 *)
Definition nondimensional_force (self : t T) (nondimensional_end_to_end_length_per_link : T)
    (temperature : T) : T :=
  log_squared_isometric_asymptotic_legendre.nondimensional_force (link_stiffness self * spowi
      (link_length self) 2 / BOLTZMANN_CONSTANT / temperature)
      nondimensional_end_to_end_length_per_link.

(* /repo/src/physics/single_chain/ufjc/log_squared/thermodynamics/isometric/asymptotic/legendre/mod.rs:140-143 *)
Definition helmholtz_free_energy (self : t T) (end_to_end_length : T) (temperature : T) : T :=
  log_squared_isometric_asymptotic_legendre.helmholtz_free_energy (number_of_links self)
      (link_length self) (hinge_mass self) (link_stiffness self) end_to_end_length temperature.

(* /repo/src/physics/single_chain/ufjc/log_squared/thermodynamics/isometric/asymptotic/legendre/mod.rs:145-148 *)
Definition helmholtz_free_energy_per_link (self : t T) (end_to_end_length : T) (temperature : T) : T
    :=
  log_squared_isometric_asymptotic_legendre.helmholtz_free_energy_per_link (number_of_links self)
      (link_length self) (hinge_mass self) (link_stiffness self) end_to_end_length temperature.

(* /repo/src/physics/single_chain/ufjc/log_squared/thermodynamics/isometric/asymptotic/legendre/mod.rs:150-153 *)
Definition relative_helmholtz_free_energy (self : t T) (end_to_end_length : T) (temperature : T) : T
    :=
  log_squared_isometric_asymptotic_legendre.relative_helmholtz_free_energy (number_of_links self)
      (link_length self) (link_stiffness self) end_to_end_length temperature.

(* /repo/src/physics/single_chain/ufjc/log_squared/thermodynamics/isometric/asymptotic/legendre/mod.rs:155-158 *)
Definition relative_helmholtz_free_energy_per_link (self : t T) (end_to_end_length : T) (temperature
    : T) : T :=
  log_squared_isometric_asymptotic_legendre.relative_helmholtz_free_energy_per_link (number_of_links
      self) (link_length self) (link_stiffness self) end_to_end_length temperature.

(* /repo/src/physics/single_chain/ufjc/log_squared/thermodynamics/isometric/asymptotic/legendre/mod.rs:160-163 *)
Definition nondimensional_helmholtz_free_energy (self : t T)
    (nondimensional_end_to_end_length_per_link : T) (temperature : T) : T :=
  log_squared_isometric_asymptotic_legendre.nondimensional_helmholtz_free_energy (number_of_links
      self) (link_length self) (hinge_mass self) (link_stiffness self * spowi (link_length self) 2 /
      BOLTZMANN_CONSTANT / temperature) nondimensional_end_to_end_length_per_link temperature.

(* /repo/src/physics/single_chain/ufjc/log_squared/thermodynamics/isometric/asymptotic/legendre/mod.rs:165-168 *)
Definition nondimensional_helmholtz_free_energy_per_link (self : t T)
    (nondimensional_end_to_end_length_per_link : T) (temperature : T) : T :=
  log_squared_isometric_asymptotic_legendre.nondimensional_helmholtz_free_energy_per_link
      (number_of_links self) (link_length self) (hinge_mass self) (link_stiffness self * spowi
      (link_length self) 2 / BOLTZMANN_CONSTANT / temperature)
      nondimensional_end_to_end_length_per_link temperature.

(* /repo/src/physics/single_chain/ufjc/log_squared/thermodynamics/isometric/asymptotic/legendre/mod.rs:170-173 *)
Definition nondimensional_relative_helmholtz_free_energy (self : t T)
    (nondimensional_end_to_end_length_per_link : T) (temperature : T) : T :=
  log_squared_isometric_asymptotic_legendre.nondimensional_relative_helmholtz_free_energy
      (number_of_links self) (link_stiffness self * spowi (link_length self) 2 / BOLTZMANN_CONSTANT
      / temperature) nondimensional_end_to_end_length_per_link.

(* /repo/src/physics/single_chain/ufjc/log_squared/thermodynamics/isometric/asymptotic/legendre/mod.rs:175-178 *)
Definition nondimensional_relative_helmholtz_free_energy_per_link (self : t T)
    (nondimensional_end_to_end_length_per_link : T) (temperature : T) : T :=
  log_squared_isometric_asymptotic_legendre.nondimensional_relative_helmholtz_free_energy_per_link
      (link_stiffness self * spowi (link_length self) 2 / BOLTZMANN_CONSTANT / temperature)
      nondimensional_end_to_end_length_per_link.

End Model.
End O_log_squared_isometric_asymptotic_legendre.

(** /repo/src/physics/single_chain/ufjc/log_squared/thermodynamics/isometric/asymptotic/reduced/mod.rs: struct LOGSQUAREDFJC *)
Module O_log_squared_isometric_asymptotic_reduced.
(* /repo/src/physics/single_chain/ufjc/log_squared/thermodynamics/isometric/asymptotic/reduced/mod.rs:10-26 *)
Record t {T : Type} := { hinge_mass : T; link_length : T; number_of_links : Z; link_stiffness : T; legendre : O_log_squared_isometric_asymptotic_reduced_legendre.t T }.
Arguments t : clear implicits.
Section Model.
Context {T : Type} {Sc : Scalar T}.

(* /repo/src/physics/single_chain/ufjc/log_squared/thermodynamics/isometric/asymptotic/reduced/mod.rs:32-42 *)
Definition init (number_of_links : Z) (link_length : T) (hinge_mass : T) (link_stiffness : T) : t T
    :=
  {| hinge_mass := hinge_mass; link_length := link_length; number_of_links := number_of_links;
      link_stiffness := link_stiffness; legendre :=
      O_log_squared_isometric_asymptotic_reduced_legendre.init number_of_links link_length
      hinge_mass link_stiffness |}.

End Model.
End O_log_squared_isometric_asymptotic_reduced.

(** /repo/src/physics/single_chain/ufjc/log_squared/thermodynamics/isotensional/asymptotic/legendre/mod.rs: struct LOGSQUAREDFJC *)
Module O_log_squared_isotensional_asymptotic_legendre.
(* /repo/src/physics/single_chain/ufjc/log_squared/thermodynamics/isotensional/asymptotic/legendre/mod.rs:19-32 *)
Record t {T : Type} := { hinge_mass : T; link_length : T; number_of_links : Z; link_stiffness : T }.
Arguments t : clear implicits.
Section Model.
Context {T : Type} {Sc : Scalar T}.

(* /repo/src/physics/single_chain/ufjc/log_squared/thermodynamics/isotensional/asymptotic/legendre/mod.rs:86-95 *)
Definition init (number_of_links : Z) (link_length : T) (hinge_mass : T) (link_stiffness : T) : t T
    :=
  {| hinge_mass := hinge_mass; link_length := link_length; number_of_links := number_of_links;
      link_stiffness := link_stiffness |}.

(* /repo/src/physics/single_chain/ufjc/log_squared/thermodynamics/isotensional/asymptotic/legendre/mod.rs:97-100 *)
Definition helmholtz_free_energy (self : t T) (force : T) (temperature : T) : T :=
  log_squared_isotensional_asymptotic_legendre.helmholtz_free_energy (number_of_links self)
      (link_length self) (hinge_mass self) (link_stiffness self) force temperature.

(* /repo/src/physics/single_chain/ufjc/log_squared/thermodynamics/isotensional/asymptotic/legendre/mod.rs:102-105 *)
Definition helmholtz_free_energy_per_link (self : t T) (force : T) (temperature : T) : T :=
  log_squared_isotensional_asymptotic_legendre.helmholtz_free_energy_per_link (link_length self)
      (hinge_mass self) (link_stiffness self) force temperature.

(* /repo/src/physics/single_chain/ufjc/log_squared/thermodynamics/isotensional/asymptotic/legendre/mod.rs:107-110 *)
Definition relative_helmholtz_free_energy (self : t T) (force : T) (temperature : T) : T :=
  log_squared_isotensional_asymptotic_legendre.relative_helmholtz_free_energy (number_of_links self)
      (link_length self) (link_stiffness self) force temperature.

(* /repo/src/physics/single_chain/ufjc/log_squared/thermodynamics/isotensional/asymptotic/legendre/mod.rs:112-115 *)
Definition relative_helmholtz_free_energy_per_link (self : t T) (force : T) (temperature : T) : T :=
  log_squared_isotensional_asymptotic_legendre.relative_helmholtz_free_energy_per_link (link_length
      self) (link_stiffness self) force temperature.

(* /repo/src/physics/single_chain/ufjc/log_squared/thermodynamics/isotensional/asymptotic/legendre/mod.rs:117-120 *)
Definition nondimensional_helmholtz_free_energy (self : t T) (nondimensional_force : T) (temperature
    : T) : T :=
  log_squared_isotensional_asymptotic_legendre.nondimensional_helmholtz_free_energy (number_of_links
      self) (link_length self) (hinge_mass self) (link_stiffness self * spowi (link_length self) 2 /
      BOLTZMANN_CONSTANT / temperature) nondimensional_force temperature.

(* /repo/src/physics/single_chain/ufjc/log_squared/thermodynamics/isotensional/asymptotic/legendre/mod.rs:122-125 *)
Definition nondimensional_helmholtz_free_energy_per_link (self : t T) (nondimensional_force : T)
    (temperature : T) : T :=
  log_squared_isotensional_asymptotic_legendre.nondimensional_helmholtz_free_energy_per_link
      (link_length self) (hinge_mass self) (link_stiffness self * spowi (link_length self) 2 /
      BOLTZMANN_CONSTANT / temperature) nondimensional_force temperature.

(* /repo/src/physics/single_chain/ufjc/log_squared/thermodynamics/isotensional/asymptotic/legendre/mod.rs:127-130 *)
Definition nondimensional_relative_helmholtz_free_energy (self : t T) (nondimensional_force : T)
    (temperature : T) : T :=
  log_squared_isotensional_asymptotic_legendre.nondimensional_relative_helmholtz_free_energy
      (number_of_links self) (link_stiffness self * spowi (link_length self) 2 / BOLTZMANN_CONSTANT
      / temperature) nondimensional_force.

(* /repo/src/physics/single_chain/ufjc/log_squared/thermodynamics/isotensional/asymptotic/legendre/mod.rs:132-135 *)
Definition nondimensional_relative_helmholtz_free_energy_per_link (self : t T) (nondimensional_force
    : T) (temperature : T) : T :=
  log_squared_isotensional_asymptotic_legendre.nondimensional_relative_helmholtz_free_energy_per_link
      (link_stiffness self * spowi (link_length self) 2 / BOLTZMANN_CONSTANT / temperature)
      nondimensional_force.

End Model.
End O_log_squared_isotensional_asymptotic_legendre.

(** /repo/src/physics/single_chain/ufjc/log_squared/thermodynamics/isotensional/asymptotic/reduced/mod.rs: struct LOGSQUAREDFJC *)
Module O_log_squared_isotensional_asymptotic_reduced.
(* /repo/src/physics/single_chain/ufjc/log_squared/thermodynamics/isotensional/asymptotic/reduced/mod.rs:22-38 *)
Record t {T : Type} := { hinge_mass : T; link_length : T; number_of_links : Z; link_stiffness : T; legendre : O_log_squared_isotensional_asymptotic_reduced_legendre.t T }.
Arguments t : clear implicits.
Section Model.
Context {T : Type} {Sc : Scalar T}.

(* /repo/src/physics/single_chain/ufjc/log_squared/thermodynamics/isotensional/asymptotic/reduced/mod.rs:117-127 *)
Definition init (number_of_links : Z) (link_length : T) (hinge_mass : T) (link_stiffness : T) : t T
    :=
  {| hinge_mass := hinge_mass; link_length := link_length; number_of_links := number_of_links;
      link_stiffness := link_stiffness; legendre :=
      O_log_squared_isotensional_asymptotic_reduced_legendre.init number_of_links link_length
      hinge_mass link_stiffness |}.

(* /repo/src/physics/single_chain/ufjc/log_squared/thermodynamics/isotensional/asymptotic/reduced/mod.rs:129-132 *)
Definition end_to_end_length (self : t T) (force : T) (temperature : T) : T :=
  log_squared_isotensional_asymptotic_reduced.end_to_end_length (number_of_links self) (link_length
      self) (link_stiffness self) force temperature.

(* /repo/src/physics/single_chain/ufjc/log_squared/thermodynamics/isotensional/asymptotic/reduced/mod.rs:134-137 *)
Definition end_to_end_length_per_link (self : t T) (force : T) (temperature : T) : T :=
  log_squared_isotensional_asymptotic_reduced.end_to_end_length_per_link (link_length self)
      (link_stiffness self) force temperature.

(* /repo/src/physics/single_chain/ufjc/log_squared/thermodynamics/isotensional/asymptotic/reduced/mod.rs:139-142 *)
Definition nondimensional_end_to_end_length (self : t T) (nondimensional_force : T) (temperature :
    T) : T :=
  log_squared_isotensional_asymptotic_reduced.nondimensional_end_to_end_length (number_of_links
      self) (link_stiffness self * spowi (link_length self) 2 / BOLTZMANN_CONSTANT / temperature)
      nondimensional_force.

(* /repo/src/physics/single_chain/ufjc/log_squared/thermodynamics/isotensional/asymptotic/reduced/mod.rs:144-147 *)
Definition nondimensional_end_to_end_length_per_link (self : t T) (nondimensional_force : T)
    (temperature : T) : T :=
  log_squared_isotensional_asymptotic_reduced.nondimensional_end_to_end_length_per_link
      (link_stiffness self * spowi (link_length self) 2 / BOLTZMANN_CONSTANT / temperature)
      nondimensional_force.

(* /repo/src/physics/single_chain/ufjc/log_squared/thermodynamics/isotensional/asymptotic/reduced/mod.rs:149-152 *)
Definition gibbs_free_energy (self : t T) (force : T) (temperature : T) : T :=
  log_squared_isotensional_asymptotic_reduced.gibbs_free_energy (number_of_links self) (link_length
      self) (hinge_mass self) (link_stiffness self) force temperature.

(* /repo/src/physics/single_chain/ufjc/log_squared/thermodynamics/isotensional/asymptotic/reduced/mod.rs:154-157 *)
Definition gibbs_free_energy_per_link (self : t T) (force : T) (temperature : T) : T :=
  log_squared_isotensional_asymptotic_reduced.gibbs_free_energy_per_link (link_length self)
      (hinge_mass self) (link_stiffness self) force temperature.

(* /repo/src/physics/single_chain/ufjc/log_squared/thermodynamics/isotensional/asymptotic/reduced/mod.rs:159-162 *)
Definition relative_gibbs_free_energy (self : t T) (force : T) (temperature : T) : T :=
  log_squared_isotensional_asymptotic_reduced.relative_gibbs_free_energy (number_of_links self)
      (link_length self) (link_stiffness self) force temperature.

(* /repo/src/physics/single_chain/ufjc/log_squared/thermodynamics/isotensional/asymptotic/reduced/mod.rs:164-167 *)
Definition relative_gibbs_free_energy_per_link (self : t T) (force : T) (temperature : T) : T :=
  log_squared_isotensional_asymptotic_reduced.relative_gibbs_free_energy_per_link (link_length self)
      (link_stiffness self) force temperature.

(* /repo/src/physics/single_chain/ufjc/log_squared/thermodynamics/isotensional/asymptotic/reduced/mod.rs:169-172 *)
Definition nondimensional_gibbs_free_energy (self : t T) (nondimensional_force : T) (temperature :
    T) : T :=
  log_squared_isotensional_asymptotic_reduced.nondimensional_gibbs_free_energy (number_of_links
      self) (link_length self) (hinge_mass self) (link_stiffness self * spowi (link_length self) 2 /
      BOLTZMANN_CONSTANT / temperature) nondimensional_force temperature.

(* /repo/src/physics/single_chain/ufjc/log_squared/thermodynamics/isotensional/asymptotic/reduced/mod.rs:174-177 *)
Definition nondimensional_gibbs_free_energy_per_link (self : t T) (nondimensional_force : T)
    (temperature : T) : T :=
  log_squared_isotensional_asymptotic_reduced.nondimensional_gibbs_free_energy_per_link (link_length
      self) (hinge_mass self) (link_stiffness self * spowi (link_length self) 2 / BOLTZMANN_CONSTANT
      / temperature) nondimensional_force temperature.

(* /repo/src/physics/single_chain/ufjc/log_squared/thermodynamics/isotensional/asymptotic/reduced/mod.rs:179-182 *)
Definition nondimensional_relative_gibbs_free_energy (self : t T) (nondimensional_force : T)
    (temperature : T) : T :=
  log_squared_isotensional_asymptotic_reduced.nondimensional_relative_gibbs_free_energy
      (number_of_links self) (link_stiffness self * spowi (link_length self) 2 / BOLTZMANN_CONSTANT
      / temperature) nondimensional_force.

(* /repo/src/physics/single_chain/ufjc/log_squared/thermodynamics/isotensional/asymptotic/reduced/mod.rs:184-187 *)
Definition nondimensional_relative_gibbs_free_energy_per_link (self : t T) (nondimensional_force :
    T) (temperature : T) : T :=
  log_squared_isotensional_asymptotic_reduced.nondimensional_relative_gibbs_free_energy_per_link
      (link_stiffness self * spowi (link_length self) 2 / BOLTZMANN_CONSTANT / temperature)
      nondimensional_force.

End Model.
End O_log_squared_isotensional_asymptotic_reduced.

(** /repo/src/physics/single_chain/ufjc/log_squared/thermodynamics/isometric/asymptotic/mod.rs: struct LOGSQUAREDFJC *)
Module O_log_squared_isometric_asymptotic.
(* /repo/src/physics/single_chain/ufjc/log_squared/thermodynamics/isometric/asymptotic/mod.rs:13-32 *)
Record t {T : Type} := { hinge_mass : T; link_length : T; number_of_links : Z; link_stiffness : T; reduced : O_log_squared_isometric_asymptotic_reduced.t T; legendre : O_log_squared_isometric_asymptotic_legendre.t T }.
Arguments t : clear implicits.
Section Model.
Context {T : Type} {Sc : Scalar T}.

(* /repo/src/physics/single_chain/ufjc/log_squared/thermodynamics/isometric/asymptotic/mod.rs:38-49 *)
Definition init (number_of_links : Z) (link_length : T) (hinge_mass : T) (link_stiffness : T) : t T
    :=
  {| hinge_mass := hinge_mass; link_length := link_length; number_of_links := number_of_links;
      link_stiffness := link_stiffness; reduced := O_log_squared_isometric_asymptotic_reduced.init
      number_of_links link_length hinge_mass link_stiffness; legendre :=
      O_log_squared_isometric_asymptotic_legendre.init number_of_links link_length hinge_mass
      link_stiffness |}.

End Model.
End O_log_squared_isometric_asymptotic.

(** /repo/src/physics/single_chain/ufjc/log_squared/thermodynamics/isotensional/asymptotic/mod.rs: struct LOGSQUAREDFJC *)
Module O_log_squared_isotensional_asymptotic.
(* /repo/src/physics/single_chain/ufjc/log_squared/thermodynamics/isotensional/asymptotic/mod.rs:25-44 *)
Record t {T : Type} := { hinge_mass : T; link_length : T; number_of_links : Z; link_stiffness : T; reduced : O_log_squared_isotensional_asymptotic_reduced.t T; legendre : O_log_squared_isotensional_asymptotic_legendre.t T }.
Arguments t : clear implicits.
Section Model.
Context {T : Type} {Sc : Scalar T}.

(* /repo/src/physics/single_chain/ufjc/log_squared/thermodynamics/isotensional/asymptotic/mod.rs:123-134 *)
Definition init (number_of_links : Z) (link_length : T) (hinge_mass : T) (link_stiffness : T) : t T
    :=
  {| hinge_mass := hinge_mass; link_length := link_length; number_of_links := number_of_links;
      link_stiffness := link_stiffness; reduced :=
      O_log_squared_isotensional_asymptotic_reduced.init number_of_links link_length hinge_mass
      link_stiffness; legendre := O_log_squared_isotensional_asymptotic_legendre.init
      number_of_links link_length hinge_mass link_stiffness |}.

(* /repo/src/physics/single_chain/ufjc/log_squared/thermodynamics/isotensional/asymptotic/mod.rs:136-139 *)
Definition end_to_end_length (self : t T) (force : T) (temperature : T) : T :=
  log_squared_isotensional_asymptotic.end_to_end_length (number_of_links self) (link_length self)
      (link_stiffness self) force temperature.

(* /repo/src/physics/single_chain/ufjc/log_squared/thermodynamics/isotensional/asymptotic/mod.rs:141-144 *)
Definition end_to_end_length_per_link (self : t T) (force : T) (temperature : T) : T :=
  log_squared_isotensional_asymptotic.end_to_end_length_per_link (link_length self) (link_stiffness
      self) force temperature.

(* /repo/src/physics/single_chain/ufjc/log_squared/thermodynamics/isotensional/asymptotic/mod.rs:146-149 *)
Definition nondimensional_end_to_end_length (self : t T) (nondimensional_force : T) (temperature :
    T) : T :=
  log_squared_isotensional_asymptotic.nondimensional_end_to_end_length (number_of_links self)
      (link_stiffness self * spowi (link_length self) 2 / BOLTZMANN_CONSTANT / temperature)
      nondimensional_force.

(* /repo/src/physics/single_chain/ufjc/log_squared/thermodynamics/isotensional/asymptotic/mod.rs:151-154 *)
Definition nondimensional_end_to_end_length_per_link (self : t T) (nondimensional_force : T)
    (temperature : T) : T :=
  log_squared_isotensional_asymptotic.nondimensional_end_to_end_length_per_link (link_stiffness self
      * spowi (link_length self) 2 / BOLTZMANN_CONSTANT / temperature) nondimensional_force.

(* /repo/src/physics/single_chain/ufjc/log_squared/thermodynamics/isotensional/asymptotic/mod.rs:156-159 *)
Definition gibbs_free_energy (self : t T) (force : T) (temperature : T) : T :=
  log_squared_isotensional_asymptotic.gibbs_free_energy (number_of_links self) (link_length self)
      (hinge_mass self) (link_stiffness self) force temperature.

(* /repo/src/physics/single_chain/ufjc/log_squared/thermodynamics/isotensional/asymptotic/mod.rs:161-164 *)
Definition gibbs_free_energy_per_link (self : t T) (force : T) (temperature : T) : T :=
  log_squared_isotensional_asymptotic.gibbs_free_energy_per_link (link_length self) (hinge_mass
      self) (link_stiffness self) force temperature.

(* /repo/src/physics/single_chain/ufjc/log_squared/thermodynamics/isotensional/asymptotic/mod.rs:166-169 *)
Definition relative_gibbs_free_energy (self : t T) (force : T) (temperature : T) : T :=
  log_squared_isotensional_asymptotic.relative_gibbs_free_energy (number_of_links self) (link_length
      self) (link_stiffness self) force temperature.

(* /repo/src/physics/single_chain/ufjc/log_squared/thermodynamics/isotensional/asymptotic/mod.rs:171-174 *)
Definition relative_gibbs_free_energy_per_link (self : t T) (force : T) (temperature : T) : T :=
  log_squared_isotensional_asymptotic.relative_gibbs_free_energy_per_link (link_length self)
      (link_stiffness self) force temperature.

(* /repo/src/physics/single_chain/ufjc/log_squared/thermodynamics/isotensional/asymptotic/mod.rs:176-179 *)
Definition nondimensional_gibbs_free_energy (self : t T) (nondimensional_force : T) (temperature :
    T) : T :=
  log_squared_isotensional_asymptotic.nondimensional_gibbs_free_energy (number_of_links self)
      (link_length self) (hinge_mass self) (link_stiffness self * spowi (link_length self) 2 /
      BOLTZMANN_CONSTANT / temperature) nondimensional_force temperature.

(* /repo/src/physics/single_chain/ufjc/log_squared/thermodynamics/isotensional/asymptotic/mod.rs:181-184 *)
Definition nondimensional_gibbs_free_energy_per_link (self : t T) (nondimensional_force : T)
    (temperature : T) : T :=
  log_squared_isotensional_asymptotic.nondimensional_gibbs_free_energy_per_link (link_length self)
      (hinge_mass self) (link_stiffness self * spowi (link_length self) 2 / BOLTZMANN_CONSTANT /
      temperature) nondimensional_force temperature.

(* /repo/src/physics/single_chain/ufjc/log_squared/thermodynamics/isotensional/asymptotic/mod.rs:186-189 *)
Definition nondimensional_relative_gibbs_free_energy (self : t T) (nondimensional_force : T)
    (temperature : T) : T :=
  log_squared_isotensional_asymptotic.nondimensional_relative_gibbs_free_energy (number_of_links
      self) (link_stiffness self * spowi (link_length self) 2 / BOLTZMANN_CONSTANT / temperature)
      nondimensional_force.

(* /repo/src/physics/single_chain/ufjc/log_squared/thermodynamics/isotensional/asymptotic/mod.rs:191-194 *)
Definition nondimensional_relative_gibbs_free_energy_per_link (self : t T) (nondimensional_force :
    T) (temperature : T) : T :=
  log_squared_isotensional_asymptotic.nondimensional_relative_gibbs_free_energy_per_link
      (link_stiffness self * spowi (link_length self) 2 / BOLTZMANN_CONSTANT / temperature)
      nondimensional_force.

End Model.
End O_log_squared_isotensional_asymptotic.

(** /repo/src/physics/single_chain/ufjc/log_squared/thermodynamics/isotensional/legendre/mod.rs: struct LOGSQUAREDFJC *)
Module O_log_squared_isotensional_legendre.
(* /repo/src/physics/single_chain/ufjc/log_squared/thermodynamics/isotensional/legendre/mod.rs:23-36 *)
Record t {T : Type} := { hinge_mass : T; link_length : T; number_of_links : Z; link_stiffness : T }.
Arguments t : clear implicits.
Section Model.
Context {T : Type} {Sc : Scalar T}.

(* /repo/src/physics/single_chain/ufjc/log_squared/thermodynamics/isotensional/legendre/mod.rs:107-116 *)
Definition init (number_of_links : Z) (link_length : T) (hinge_mass : T) (link_stiffness : T) : t T
    :=
  {| hinge_mass := hinge_mass; link_length := link_length; number_of_links := number_of_links;
      link_stiffness := link_stiffness |}.

(* /repo/src/physics/single_chain/ufjc/log_squared/thermodynamics/isotensional/legendre/mod.rs:118-121 *)
Definition helmholtz_free_energy (self : t T) (force : T) (temperature : T) : T :=
  log_squared_isotensional_legendre.helmholtz_free_energy (number_of_links self) (link_length self)
      (hinge_mass self) (link_stiffness self) force temperature.

(* /repo/src/physics/single_chain/ufjc/log_squared/thermodynamics/isotensional/legendre/mod.rs:123-126 *)
Definition helmholtz_free_energy_per_link (self : t T) (force : T) (temperature : T) : T :=
  log_squared_isotensional_legendre.helmholtz_free_energy_per_link (link_length self) (hinge_mass
      self) (link_stiffness self) force temperature.

(* /repo/src/physics/single_chain/ufjc/log_squared/thermodynamics/isotensional/legendre/mod.rs:128-131 *)
Definition relative_helmholtz_free_energy (self : t T) (force : T) (temperature : T) : T :=
  log_squared_isotensional_legendre.relative_helmholtz_free_energy (number_of_links self)
      (link_length self) (link_stiffness self) force temperature.

(* /repo/src/physics/single_chain/ufjc/log_squared/thermodynamics/isotensional/legendre/mod.rs:133-136 *)
Definition relative_helmholtz_free_energy_per_link (self : t T) (force : T) (temperature : T) : T :=
  log_squared_isotensional_legendre.relative_helmholtz_free_energy_per_link (link_length self)
      (link_stiffness self) force temperature.

(* /repo/src/physics/single_chain/ufjc/log_squared/thermodynamics/isotensional/legendre/mod.rs:138-141 *)
Definition nondimensional_helmholtz_free_energy (self : t T) (nondimensional_force : T) (temperature
    : T) : T :=
  log_squared_isotensional_legendre.nondimensional_helmholtz_free_energy (number_of_links self)
      (link_length self) (hinge_mass self) (link_stiffness self * spowi (link_length self) 2 /
      BOLTZMANN_CONSTANT / temperature) nondimensional_force temperature.

(* /repo/src/physics/single_chain/ufjc/log_squared/thermodynamics/isotensional/legendre/mod.rs:143-146 *)
Definition nondimensional_helmholtz_free_energy_per_link (self : t T) (nondimensional_force : T)
    (temperature : T) : T :=
  log_squared_isotensional_legendre.nondimensional_helmholtz_free_energy_per_link (link_length self)
      (hinge_mass self) (link_stiffness self * spowi (link_length self) 2 / BOLTZMANN_CONSTANT /
      temperature) nondimensional_force temperature.

(* /repo/src/physics/single_chain/ufjc/log_squared/thermodynamics/isotensional/legendre/mod.rs:148-151 *)
Definition nondimensional_relative_helmholtz_free_energy (self : t T) (nondimensional_force : T)
    (temperature : T) : T :=
  log_squared_isotensional_legendre.nondimensional_relative_helmholtz_free_energy (number_of_links
      self) (link_stiffness self * spowi (link_length self) 2 / BOLTZMANN_CONSTANT / temperature)
      nondimensional_force.

(* /repo/src/physics/single_chain/ufjc/log_squared/thermodynamics/isotensional/legendre/mod.rs:153-156 *)
Definition nondimensional_relative_helmholtz_free_energy_per_link (self : t T) (nondimensional_force
    : T) (temperature : T) : T :=
  log_squared_isotensional_legendre.nondimensional_relative_helmholtz_free_energy_per_link
      (link_stiffness self * spowi (link_length self) 2 / BOLTZMANN_CONSTANT / temperature)
      nondimensional_force.

End Model.
End O_log_squared_isotensional_legendre.

(** /repo/src/physics/single_chain/ufjc/log_squared/thermodynamics/isometric/mod.rs: struct LOGSQUAREDFJC *)
Module O_log_squared_isometric.
(* /repo/src/physics/single_chain/ufjc/log_squared/thermodynamics/isometric/mod.rs:10-26 *)
Record t {T : Type} := { hinge_mass : T; link_length : T; number_of_links : Z; link_stiffness : T; asymptotic : O_log_squared_isometric_asymptotic.t T }.
Arguments t : clear implicits.
Section Model.
Context {T : Type} {Sc : Scalar T}.

(* /repo/src/physics/single_chain/ufjc/log_squared/thermodynamics/isometric/mod.rs:32-42 *)
Definition init (number_of_links : Z) (link_length : T) (hinge_mass : T) (link_stiffness : T) : t T
    :=
  {| hinge_mass := hinge_mass; link_length := link_length; number_of_links := number_of_links;
      link_stiffness := link_stiffness; asymptotic := O_log_squared_isometric_asymptotic.init
      number_of_links link_length hinge_mass link_stiffness |}.

End Model.
End O_log_squared_isometric.

(** /repo/src/physics/single_chain/ufjc/log_squared/thermodynamics/isotensional/mod.rs: struct LOGSQUAREDFJC *)
Module O_log_squared_isotensional.
(* /repo/src/physics/single_chain/ufjc/log_squared/thermodynamics/isotensional/mod.rs:29-48 *)
Record t {T : Type} := { hinge_mass : T; link_length : T; number_of_links : Z; link_stiffness : T; asymptotic : O_log_squared_isotensional_asymptotic.t T; legendre : O_log_squared_isotensional_legendre.t T }.
Arguments t : clear implicits.
Section Model.
Context {T : Type} {Sc : Scalar T}.

(* /repo/src/physics/single_chain/ufjc/log_squared/thermodynamics/isotensional/mod.rs:150-161 *)
Definition init (number_of_links : Z) (link_length : T) (hinge_mass : T) (link_stiffness : T) : t T
    :=
  {| hinge_mass := hinge_mass; link_length := link_length; number_of_links := number_of_links;
      link_stiffness := link_stiffness; asymptotic := O_log_squared_isotensional_asymptotic.init
      number_of_links link_length hinge_mass link_stiffness; legendre :=
      O_log_squared_isotensional_legendre.init number_of_links link_length hinge_mass link_stiffness
      |}.

(* /repo/src/physics/single_chain/ufjc/log_squared/thermodynamics/isotensional/mod.rs:163-166 *)
Definition end_to_end_length (self : t T) (force : T) (temperature : T) : T :=
  log_squared_isotensional.end_to_end_length (number_of_links self) (link_length self)
      (link_stiffness self) force temperature.

(* /repo/src/physics/single_chain/ufjc/log_squared/thermodynamics/isotensional/mod.rs:168-171 *)
Definition end_to_end_length_per_link (self : t T) (force : T) (temperature : T) : T :=
  log_squared_isotensional.end_to_end_length_per_link (link_length self) (link_stiffness self) force
      temperature.

(* /repo/src/physics/single_chain/ufjc/log_squared/thermodynamics/isotensional/mod.rs:173-176 *)
Definition nondimensional_end_to_end_length (self : t T) (nondimensional_force : T) (temperature :
    T) : T :=
  log_squared_isotensional.nondimensional_end_to_end_length (number_of_links self) (link_stiffness
      self * spowi (link_length self) 2 / BOLTZMANN_CONSTANT / temperature) nondimensional_force.

(* /repo/src/physics/single_chain/ufjc/log_squared/thermodynamics/isotensional/mod.rs:178-181 *)
Definition nondimensional_end_to_end_length_per_link (self : t T) (nondimensional_force : T)
    (temperature : T) : T :=
  log_squared_isotensional.nondimensional_end_to_end_length_per_link (link_stiffness self * spowi
      (link_length self) 2 / BOLTZMANN_CONSTANT / temperature) nondimensional_force.

(* /repo/src/physics/single_chain/ufjc/log_squared/thermodynamics/isotensional/mod.rs:183-186 *)
Definition gibbs_free_energy (self : t T) (force : T) (temperature : T) : T :=
  log_squared_isotensional.gibbs_free_energy (number_of_links self) (link_length self) (hinge_mass
      self) (link_stiffness self) force temperature.

(* /repo/src/physics/single_chain/ufjc/log_squared/thermodynamics/isotensional/mod.rs:188-191 *)
Definition gibbs_free_energy_per_link (self : t T) (force : T) (temperature : T) : T :=
  log_squared_isotensional.gibbs_free_energy_per_link (link_length self) (hinge_mass self)
      (link_stiffness self) force temperature.

(* /repo/src/physics/single_chain/ufjc/log_squared/thermodynamics/isotensional/mod.rs:193-196 *)
Definition relative_gibbs_free_energy (self : t T) (force : T) (temperature : T) : T :=
  log_squared_isotensional.relative_gibbs_free_energy (number_of_links self) (link_length self)
      (link_stiffness self) force temperature.

(* /repo/src/physics/single_chain/ufjc/log_squared/thermodynamics/isotensional/mod.rs:198-201 *)
Definition relative_gibbs_free_energy_per_link (self : t T) (force : T) (temperature : T) : T :=
  log_squared_isotensional.relative_gibbs_free_energy_per_link (link_length self) (link_stiffness
      self) force temperature.

(* /repo/src/physics/single_chain/ufjc/log_squared/thermodynamics/isotensional/mod.rs:203-206 *)
Definition nondimensional_gibbs_free_energy (self : t T) (nondimensional_force : T) (temperature :
    T) : T :=
  log_squared_isotensional.nondimensional_gibbs_free_energy (number_of_links self) (link_length
      self) (hinge_mass self) (link_stiffness self * spowi (link_length self) 2 / BOLTZMANN_CONSTANT
      / temperature) nondimensional_force temperature.

(* /repo/src/physics/single_chain/ufjc/log_squared/thermodynamics/isotensional/mod.rs:208-211 *)
Definition nondimensional_gibbs_free_energy_per_link (self : t T) (nondimensional_force : T)
    (temperature : T) : T :=
  log_squared_isotensional.nondimensional_gibbs_free_energy_per_link (link_length self) (hinge_mass
      self) (link_stiffness self * spowi (link_length self) 2 / BOLTZMANN_CONSTANT / temperature)
      nondimensional_force temperature.

(* /repo/src/physics/single_chain/ufjc/log_squared/thermodynamics/isotensional/mod.rs:213-216 *)
Definition nondimensional_relative_gibbs_free_energy (self : t T) (nondimensional_force : T)
    (temperature : T) : T :=
  log_squared_isotensional.nondimensional_relative_gibbs_free_energy (number_of_links self)
      (link_stiffness self * spowi (link_length self) 2 / BOLTZMANN_CONSTANT / temperature)
      nondimensional_force.

(* /repo/src/physics/single_chain/ufjc/log_squared/thermodynamics/isotensional/mod.rs:218-221 *)
Definition nondimensional_relative_gibbs_free_energy_per_link (self : t T) (nondimensional_force :
    T) (temperature : T) : T :=
  log_squared_isotensional.nondimensional_relative_gibbs_free_energy_per_link (link_stiffness self *
      spowi (link_length self) 2 / BOLTZMANN_CONSTANT / temperature) nondimensional_force.

End Model.
End O_log_squared_isotensional.

(** /repo/src/physics/single_chain/ufjc/log_squared/thermodynamics/mod.rs: struct LOGSQUAREDFJC *)
Module O_log_squared_thermodynamics.
(* /repo/src/physics/single_chain/ufjc/log_squared/thermodynamics/mod.rs:13-32 *)
Record t {T : Type} := { hinge_mass : T; link_length : T; number_of_links : Z; link_stiffness : T; isometric : O_log_squared_isometric.t T; isotensional : O_log_squared_isotensional.t T }.
Arguments t : clear implicits.
Section Model.
Context {T : Type} {Sc : Scalar T}.

(* /repo/src/physics/single_chain/ufjc/log_squared/thermodynamics/mod.rs:38-49 *)
Definition init (number_of_links : Z) (link_length : T) (hinge_mass : T) (link_stiffness : T) : t T
    :=
  {| hinge_mass := hinge_mass; link_length := link_length; number_of_links := number_of_links;
      link_stiffness := link_stiffness; isometric := O_log_squared_isometric.init number_of_links
      link_length hinge_mass link_stiffness; isotensional := O_log_squared_isotensional.init
      number_of_links link_length hinge_mass link_stiffness |}.

End Model.
End O_log_squared_thermodynamics.

(** /repo/src/physics/single_chain/ufjc/log_squared/mod.rs: struct LOGSQUAREDFJC *)
Module O_log_squared.
(* /repo/src/physics/single_chain/ufjc/log_squared/mod.rs:10-26 *)
Record t {T : Type} := { hinge_mass : T; link_length : T; number_of_links : Z; link_stiffness : T; thermodynamics : O_log_squared_thermodynamics.t T }.
Arguments t : clear implicits.
Section Model.
Context {T : Type} {Sc : Scalar T}.

(* /repo/src/physics/single_chain/ufjc/log_squared/mod.rs:32-42 *)
Definition init (number_of_links : Z) (link_length : T) (hinge_mass : T) (link_stiffness : T) : t T
    :=
  {| hinge_mass := hinge_mass; link_length := link_length; number_of_links := number_of_links;
      link_stiffness := link_stiffness; thermodynamics := O_log_squared_thermodynamics.init
      number_of_links link_length hinge_mass link_stiffness |}.

End Model.
End O_log_squared.

