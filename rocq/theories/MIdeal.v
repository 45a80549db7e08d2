(** Ideal chain model.
    Generated by tools/translate.py from the files cited at each definition. *)
From Coq Require Import ZArith List Bool.
From Verif Require Import Scalar MMath MConst.
Import ListNotations.
Local Open Scope scalar_scope.

(** /repo/src/physics/single_chain/ideal/thermodynamics/isometric/mod.rs *)
Module ideal_isometric.
Section Model.
Context {T : Type} {Sc : Scalar T}.

(* /repo/src/physics/single_chain/ideal/thermodynamics/isometric/mod.rs:30-33 *)
Definition force (number_of_links : Z) (link_length : T) (end_to_end_length : T) (temperature : T) :
    T :=
  sdec 3 0 * end_to_end_length * BOLTZMANN_CONSTANT * temperature / sofZ number_of_links / spowi
      link_length 2.

(* /repo/src/physics/single_chain/ideal/thermodynamics/isometric/mod.rs:36-39 *)
Definition nondimensional_force (nondimensional_end_to_end_length_per_link : T) : T :=
  sdec 3 0 * nondimensional_end_to_end_length_per_link.

(* /repo/src/physics/single_chain/ideal/thermodynamics/isometric/mod.rs:42-45 *)
Definition helmholtz_free_energy (number_of_links : Z) (link_length : T) (hinge_mass : T)
    (end_to_end_length : T) (temperature : T) : T :=
  sofZ number_of_links * BOLTZMANN_CONSTANT * temperature * (sdec 15 1 * spowi (end_to_end_length /
      (sofZ number_of_links * link_length)) 2 - sln (sdec 8 0 * spowi spi 2 * hinge_mass * spowi
      link_length 2 * BOLTZMANN_CONSTANT * temperature / spowi PLANCK_CONSTANT 2)).

(* /repo/src/physics/single_chain/ideal/thermodynamics/isometric/mod.rs:48-51 *)
Definition helmholtz_free_energy_per_link (number_of_links : Z) (link_length : T) (hinge_mass : T)
    (end_to_end_length : T) (temperature : T) : T :=
  BOLTZMANN_CONSTANT * temperature * (sdec 15 1 * spowi (end_to_end_length / (sofZ number_of_links *
      link_length)) 2 - sln (sdec 8 0 * spowi spi 2 * hinge_mass * spowi link_length 2 *
      BOLTZMANN_CONSTANT * temperature / spowi PLANCK_CONSTANT 2)).

(* /repo/src/physics/single_chain/ideal/thermodynamics/isometric/mod.rs:66-69 *)
Definition nondimensional_helmholtz_free_energy (number_of_links : Z) (link_length : T) (hinge_mass
    : T) (nondimensional_end_to_end_length_per_link : T) (temperature : T) : T :=
  sofZ number_of_links * (sdec 15 1 * spowi nondimensional_end_to_end_length_per_link 2 - sln (sdec
      8 0 * spowi spi 2 * hinge_mass * spowi link_length 2 * BOLTZMANN_CONSTANT * temperature /
      spowi PLANCK_CONSTANT 2)).

(* /repo/src/physics/single_chain/ideal/thermodynamics/isometric/mod.rs:72-75 *)
Definition nondimensional_helmholtz_free_energy_per_link (link_length : T) (hinge_mass : T)
    (nondimensional_end_to_end_length_per_link : T) (temperature : T) : T :=
  sdec 15 1 * spowi nondimensional_end_to_end_length_per_link 2 - sln (sdec 8 0 * spowi spi 2 *
      hinge_mass * spowi link_length 2 * BOLTZMANN_CONSTANT * temperature / spowi PLANCK_CONSTANT
      2).

(* /repo/src/physics/single_chain/ideal/thermodynamics/isometric/mod.rs:78-81 *)
Definition nondimensional_relative_helmholtz_free_energy (number_of_links : Z)
    (nondimensional_end_to_end_length_per_link : T) : T :=
  sdec 15 1 * sofZ number_of_links * spowi nondimensional_end_to_end_length_per_link 2.

(* /repo/src/physics/single_chain/ideal/thermodynamics/isometric/mod.rs:54-57 *)
Definition relative_helmholtz_free_energy (number_of_links : Z) (link_length : T) (end_to_end_length
    : T) (temperature : T) : T :=
  nondimensional_relative_helmholtz_free_energy number_of_links (end_to_end_length / (sofZ
      number_of_links * link_length)) * BOLTZMANN_CONSTANT * temperature.

(* /repo/src/physics/single_chain/ideal/thermodynamics/isometric/mod.rs:84-87 *)
Definition nondimensional_relative_helmholtz_free_energy_per_link
    (nondimensional_end_to_end_length_per_link : T) : T :=
  sdec 15 1 * spowi nondimensional_end_to_end_length_per_link 2.

(* /repo/src/physics/single_chain/ideal/thermodynamics/isometric/mod.rs:60-63 *)
Definition relative_helmholtz_free_energy_per_link (number_of_links : Z) (link_length : T)
    (end_to_end_length : T) (temperature : T) : T :=
  nondimensional_relative_helmholtz_free_energy_per_link (end_to_end_length / (sofZ number_of_links
      * link_length)) * BOLTZMANN_CONSTANT * temperature.

(* /repo/src/physics/single_chain/ideal/thermodynamics/isometric/mod.rs:90-93 *)
Definition equilibrium_distribution (number_of_links : Z) (link_length : T) (end_to_end_length : T)
    : T :=
  spowf (sdec 15 1 / spi / sofZ number_of_links / spowi link_length 2) (sdec 15 1) * sexp (- sdec 15
      1 * spowi (end_to_end_length / link_length) 2 / sofZ number_of_links).

(* /repo/src/physics/single_chain/ideal/thermodynamics/isometric/mod.rs:96-99 *)
Definition nondimensional_equilibrium_distribution (number_of_links : Z)
    (nondimensional_end_to_end_length_per_link : T) : T :=
  spowf (sdec 15 1 / spi * sofZ number_of_links) (sdec 15 1) * sexp (- sdec 15 1 * spowi
      nondimensional_end_to_end_length_per_link 2 * sofZ number_of_links).

(* /repo/src/physics/single_chain/ideal/thermodynamics/isometric/mod.rs:102-106 *)
Definition equilibrium_radial_distribution (number_of_links : Z) (link_length : T)
    (end_to_end_length : T) : T :=
  let contour_length := sofZ number_of_links * link_length in
  sdec 4 0 * spi * spowi (end_to_end_length / contour_length) 2 * spowf (sdec 15 1 / spi * sofZ
      number_of_links) (sdec 15 1) * sexp (- sdec 15 1 * spowi (end_to_end_length / contour_length)
      2 * sofZ number_of_links) / contour_length.

(* /repo/src/physics/single_chain/ideal/thermodynamics/isometric/mod.rs:109-112 *)
Definition nondimensional_equilibrium_radial_distribution (number_of_links : Z)
    (nondimensional_end_to_end_length_per_link : T) : T :=
  sdec 4 0 * spi * spowi nondimensional_end_to_end_length_per_link 2 * spowf (sdec 15 1 / spi * sofZ
      number_of_links) (sdec 15 1) * sexp (- sdec 15 1 * spowi
      nondimensional_end_to_end_length_per_link 2 * sofZ number_of_links).

End Model.
End ideal_isometric.

(** /repo/src/physics/single_chain/ideal/thermodynamics/isotensional/mod.rs *)
Module ideal_isotensional.
Section Model.
Context {T : Type} {Sc : Scalar T}.

(* /repo/src/physics/single_chain/ideal/thermodynamics/isotensional/mod.rs:30-33 *)
Definition end_to_end_length (number_of_links : Z) (link_length : T) (force : T) (temperature : T) :
    T :=
  sofZ number_of_links * force / BOLTZMANN_CONSTANT / temperature * spowi link_length 2 / sdec 3 0.

(* /repo/src/physics/single_chain/ideal/thermodynamics/isotensional/mod.rs:36-39 *)
Definition end_to_end_length_per_link (link_length : T) (force : T) (temperature : T) : T :=
  force / BOLTZMANN_CONSTANT / temperature * spowi link_length 2 / sdec 3 0.

(* /repo/src/physics/single_chain/ideal/thermodynamics/isotensional/mod.rs:42-45 *)
Definition nondimensional_end_to_end_length (number_of_links : Z) (nondimensional_force : T) : T :=
  sofZ number_of_links * nondimensional_force / sdec 3 0.

(* /repo/src/physics/single_chain/ideal/thermodynamics/isotensional/mod.rs:48-51 *)
Definition nondimensional_end_to_end_length_per_link (nondimensional_force : T) : T :=
  nondimensional_force / sdec 3 0.

(* /repo/src/physics/single_chain/ideal/thermodynamics/isotensional/mod.rs:54-57 *)
Definition gibbs_free_energy (number_of_links : Z) (link_length : T) (hinge_mass : T) (force : T)
    (temperature : T) : T :=
  - sofZ number_of_links * (spowi (force * link_length) 2 / sdec 6 0 / BOLTZMANN_CONSTANT /
      temperature + BOLTZMANN_CONSTANT * temperature * sln (sdec 8 0 * spowi spi 2 * hinge_mass *
      spowi link_length 2 * BOLTZMANN_CONSTANT * temperature / spowi PLANCK_CONSTANT 2)).

(* /repo/src/physics/single_chain/ideal/thermodynamics/isotensional/mod.rs:60-63 *)
Definition gibbs_free_energy_per_link (link_length : T) (hinge_mass : T) (force : T) (temperature :
    T) : T :=
  - spowi (force * link_length) 2 / sdec 6 0 / BOLTZMANN_CONSTANT / temperature - BOLTZMANN_CONSTANT
      * temperature * sln (sdec 8 0 * spowi spi 2 * hinge_mass * spowi link_length 2 *
      BOLTZMANN_CONSTANT * temperature / spowi PLANCK_CONSTANT 2).

(* /repo/src/physics/single_chain/ideal/thermodynamics/isotensional/mod.rs:66-69 *)
Definition relative_gibbs_free_energy (number_of_links : Z) (link_length : T) (force : T)
    (temperature : T) : T :=
  - sofZ number_of_links * spowi (force * link_length) 2 / sdec 6 0 / BOLTZMANN_CONSTANT /
      temperature.

(* /repo/src/physics/single_chain/ideal/thermodynamics/isotensional/mod.rs:72-75 *)
Definition relative_gibbs_free_energy_per_link (link_length : T) (force : T) (temperature : T) : T
    :=
  - spowi (force * link_length) 2 / sdec 6 0 / BOLTZMANN_CONSTANT / temperature.

(* /repo/src/physics/single_chain/ideal/thermodynamics/isotensional/mod.rs:78-81 *)
Definition nondimensional_gibbs_free_energy (number_of_links : Z) (link_length : T) (hinge_mass : T)
    (nondimensional_force : T) (temperature : T) : T :=
  - sofZ number_of_links * (spowi nondimensional_force 2 / sdec 6 0 + sln (sdec 8 0 * spowi spi 2 *
      hinge_mass * spowi link_length 2 * BOLTZMANN_CONSTANT * temperature / spowi PLANCK_CONSTANT
      2)).

(* /repo/src/physics/single_chain/ideal/thermodynamics/isotensional/mod.rs:84-87 *)
Definition nondimensional_gibbs_free_energy_per_link (link_length : T) (hinge_mass : T)
    (nondimensional_force : T) (temperature : T) : T :=
  - spowi nondimensional_force 2 / sdec 6 0 - sln (sdec 8 0 * spowi spi 2 * hinge_mass * spowi
      link_length 2 * BOLTZMANN_CONSTANT * temperature / spowi PLANCK_CONSTANT 2).

(* /repo/src/physics/single_chain/ideal/thermodynamics/isotensional/mod.rs:90-93 *)
Definition nondimensional_relative_gibbs_free_energy (number_of_links : Z) (nondimensional_force :
    T) : T :=
  - sofZ number_of_links * spowi nondimensional_force 2 / sdec 6 0.

(* /repo/src/physics/single_chain/ideal/thermodynamics/isotensional/mod.rs:96-99 *)
Definition nondimensional_relative_gibbs_free_energy_per_link (nondimensional_force : T) : T :=
  - spowi nondimensional_force 2 / sdec 6 0.

End Model.
End ideal_isotensional.

(** /repo/src/physics/single_chain/ideal/thermodynamics/isometric/mod.rs: struct Ideal *)
Module O_ideal_isometric.
(* /repo/src/physics/single_chain/ideal/thermodynamics/isometric/mod.rs:17-27 *)
Record t {T : Type} := { hinge_mass : T; link_length : T; number_of_links : Z }.
Arguments t : clear implicits.
Section Model.
Context {T : Type} {Sc : Scalar T}.

(* /repo/src/physics/single_chain/ideal/thermodynamics/isometric/mod.rs:118-126 *)
Definition init (number_of_links : Z) (link_length : T) (hinge_mass : T) : t T :=
  {| hinge_mass := hinge_mass; link_length := link_length; number_of_links := number_of_links |}.

(* /repo/src/physics/single_chain/ideal/thermodynamics/isometric/mod.rs:128-131 *)
Definition force (self : t T) (end_to_end_length : T) (temperature : T) : T :=
  ideal_isometric.force (number_of_links self) (link_length self) end_to_end_length temperature.

(* /repo/src/physics/single_chain/ideal/thermodynamics/isometric/mod.rs:133-136 *)
Definition nondimensional_force (self : t T) (nondimensional_end_to_end_length_per_link : T) : T :=
  ideal_isometric.nondimensional_force nondimensional_end_to_end_length_per_link.

(* /repo/src/physics/single_chain/ideal/thermodynamics/isometric/mod.rs:138-141 *)
Definition helmholtz_free_energy (self : t T) (end_to_end_length : T) (temperature : T) : T :=
  ideal_isometric.helmholtz_free_energy (number_of_links self) (link_length self) (hinge_mass self)
      end_to_end_length temperature.

(* /repo/src/physics/single_chain/ideal/thermodynamics/isometric/mod.rs:143-146 *)
Definition helmholtz_free_energy_per_link (self : t T) (end_to_end_length : T) (temperature : T) : T
    :=
  ideal_isometric.helmholtz_free_energy_per_link (number_of_links self) (link_length self)
      (hinge_mass self) end_to_end_length temperature.

(* /repo/src/physics/single_chain/ideal/thermodynamics/isometric/mod.rs:148-151 *)
Definition relative_helmholtz_free_energy (self : t T) (end_to_end_length : T) (temperature : T) : T
    :=
  ideal_isometric.relative_helmholtz_free_energy (number_of_links self) (link_length self)
      end_to_end_length temperature.

(* /repo/src/physics/single_chain/ideal/thermodynamics/isometric/mod.rs:153-156 *)
Definition relative_helmholtz_free_energy_per_link (self : t T) (end_to_end_length : T) (temperature
    : T) : T :=
  ideal_isometric.relative_helmholtz_free_energy_per_link (number_of_links self) (link_length self)
      end_to_end_length temperature.

(* /repo/src/physics/single_chain/ideal/thermodynamics/isometric/mod.rs:158-161 *)
Definition nondimensional_helmholtz_free_energy (self : t T)
    (nondimensional_end_to_end_length_per_link : T) (temperature : T) : T :=
  ideal_isometric.nondimensional_helmholtz_free_energy (number_of_links self) (link_length self)
      (hinge_mass self) nondimensional_end_to_end_length_per_link temperature.

(* /repo/src/physics/single_chain/ideal/thermodynamics/isometric/mod.rs:163-166 *)
Definition nondimensional_helmholtz_free_energy_per_link (self : t T)
    (nondimensional_end_to_end_length_per_link : T) (temperature : T) : T :=
  ideal_isometric.nondimensional_helmholtz_free_energy_per_link (link_length self) (hinge_mass self)
      nondimensional_end_to_end_length_per_link temperature.

(* /repo/src/physics/single_chain/ideal/thermodynamics/isometric/mod.rs:168-171 *)
Definition nondimensional_relative_helmholtz_free_energy (self : t T)
    (nondimensional_end_to_end_length_per_link : T) : T :=
  ideal_isometric.nondimensional_relative_helmholtz_free_energy (number_of_links self)
      nondimensional_end_to_end_length_per_link.

(* /repo/src/physics/single_chain/ideal/thermodynamics/isometric/mod.rs:173-176 *)
Definition nondimensional_relative_helmholtz_free_energy_per_link (self : t T)
    (nondimensional_end_to_end_length_per_link : T) : T :=
  ideal_isometric.nondimensional_relative_helmholtz_free_energy_per_link
      nondimensional_end_to_end_length_per_link.

(* /repo/src/physics/single_chain/ideal/thermodynamics/isometric/mod.rs:178-181 *)
Definition equilibrium_distribution (self : t T) (end_to_end_length : T) : T :=
  ideal_isometric.equilibrium_distribution (number_of_links self) (link_length self)
      end_to_end_length.

(* /repo/src/physics/single_chain/ideal/thermodynamics/isometric/mod.rs:183-186 *)
Definition nondimensional_equilibrium_distribution (self : t T)
    (nondimensional_end_to_end_length_per_link : T) : T :=
  ideal_isometric.nondimensional_equilibrium_distribution (number_of_links self)
      nondimensional_end_to_end_length_per_link.

(* /repo/src/physics/single_chain/ideal/thermodynamics/isometric/mod.rs:188-191 *)
Definition equilibrium_radial_distribution (self : t T) (end_to_end_length : T) : T :=
  ideal_isometric.equilibrium_radial_distribution (number_of_links self) (link_length self)
      end_to_end_length.

(* /repo/src/physics/single_chain/ideal/thermodynamics/isometric/mod.rs:193-196 *)
Definition nondimensional_equilibrium_radial_distribution (self : t T)
    (nondimensional_end_to_end_length_per_link : T) : T :=
  ideal_isometric.nondimensional_equilibrium_radial_distribution (number_of_links self)
      nondimensional_end_to_end_length_per_link.

End Model.
End O_ideal_isometric.

(** /repo/src/physics/single_chain/ideal/thermodynamics/isotensional/mod.rs: struct Ideal *)
Module O_ideal_isotensional.
(* /repo/src/physics/single_chain/ideal/thermodynamics/isotensional/mod.rs:17-27 *)
Record t {T : Type} := { hinge_mass : T; link_length : T; number_of_links : Z }.
Arguments t : clear implicits.
Section Model.
Context {T : Type} {Sc : Scalar T}.

(* /repo/src/physics/single_chain/ideal/thermodynamics/isotensional/mod.rs:105-113 *)
Definition init (number_of_links : Z) (link_length : T) (hinge_mass : T) : t T :=
  {| hinge_mass := hinge_mass; link_length := link_length; number_of_links := number_of_links |}.

(* /repo/src/physics/single_chain/ideal/thermodynamics/isotensional/mod.rs:115-118 *)
Definition end_to_end_length (self : t T) (force : T) (temperature : T) : T :=
  ideal_isotensional.end_to_end_length (number_of_links self) (link_length self) force temperature.

(* /repo/src/physics/single_chain/ideal/thermodynamics/isotensional/mod.rs:120-123 *)
Definition end_to_end_length_per_link (self : t T) (force : T) (temperature : T) : T :=
  ideal_isotensional.end_to_end_length_per_link (link_length self) force temperature.

(* /repo/src/physics/single_chain/ideal/thermodynamics/isotensional/mod.rs:125-128 *)
Definition nondimensional_end_to_end_length (self : t T) (nondimensional_force : T) : T :=
  ideal_isotensional.nondimensional_end_to_end_length (number_of_links self) nondimensional_force.

(* /repo/src/physics/single_chain/ideal/thermodynamics/isotensional/mod.rs:130-133 *)
Definition nondimensional_end_to_end_length_per_link (self : t T) (nondimensional_force : T) : T :=
  ideal_isotensional.nondimensional_end_to_end_length_per_link nondimensional_force.

(* /repo/src/physics/single_chain/ideal/thermodynamics/isotensional/mod.rs:135-138 *)
Definition gibbs_free_energy (self : t T) (force : T) (temperature : T) : T :=
  ideal_isotensional.gibbs_free_energy (number_of_links self) (link_length self) (hinge_mass self)
      force temperature.

(* /repo/src/physics/single_chain/ideal/thermodynamics/isotensional/mod.rs:140-143 *)
Definition gibbs_free_energy_per_link (self : t T) (force : T) (temperature : T) : T :=
  ideal_isotensional.gibbs_free_energy_per_link (link_length self) (hinge_mass self) force
      temperature.

(* /repo/src/physics/single_chain/ideal/thermodynamics/isotensional/mod.rs:145-148 *)
Definition relative_gibbs_free_energy (self : t T) (force : T) (temperature : T) : T :=
  ideal_isotensional.relative_gibbs_free_energy (number_of_links self) (link_length self) force
      temperature.

(* /repo/src/physics/single_chain/ideal/thermodynamics/isotensional/mod.rs:150-153 *)
Definition relative_gibbs_free_energy_per_link (self : t T) (force : T) (temperature : T) : T :=
  ideal_isotensional.relative_gibbs_free_energy_per_link (link_length self) force temperature.

(* /repo/src/physics/single_chain/ideal/thermodynamics/isotensional/mod.rs:155-158 *)
Definition nondimensional_gibbs_free_energy (self : t T) (nondimensional_force : T) (temperature :
    T) : T :=
  ideal_isotensional.nondimensional_gibbs_free_energy (number_of_links self) (link_length self)
      (hinge_mass self) nondimensional_force temperature.

(* /repo/src/physics/single_chain/ideal/thermodynamics/isotensional/mod.rs:160-163 *)
Definition nondimensional_gibbs_free_energy_per_link (self : t T) (nondimensional_force : T)
    (temperature : T) : T :=
  ideal_isotensional.nondimensional_gibbs_free_energy_per_link (link_length self) (hinge_mass self)
      nondimensional_force temperature.

(* /repo/src/physics/single_chain/ideal/thermodynamics/isotensional/mod.rs:165-168 *)
Definition nondimensional_relative_gibbs_free_energy (self : t T) (nondimensional_force : T) : T :=
  ideal_isotensional.nondimensional_relative_gibbs_free_energy (number_of_links self)
      nondimensional_force.

(* /repo/src/physics/single_chain/ideal/thermodynamics/isotensional/mod.rs:170-173 *)
Definition nondimensional_relative_gibbs_free_energy_per_link (self : t T) (nondimensional_force :
    T) : T :=
  ideal_isotensional.nondimensional_relative_gibbs_free_energy_per_link nondimensional_force.

End Model.
End O_ideal_isotensional.

(** /repo/src/physics/single_chain/ideal/thermodynamics/mod.rs: struct Ideal *)
Module O_ideal_thermodynamics.
(* /repo/src/physics/single_chain/ideal/thermodynamics/mod.rs:13-29 *)
Record t {T : Type} := { hinge_mass : T; link_length : T; number_of_links : Z; isometric : O_ideal_isometric.t T; isotensional : O_ideal_isotensional.t T }.
Arguments t : clear implicits.
Section Model.
Context {T : Type} {Sc : Scalar T}.

(* /repo/src/physics/single_chain/ideal/thermodynamics/mod.rs:35-45 *)
Definition init (number_of_links : Z) (link_length : T) (hinge_mass : T) : t T :=
  {| hinge_mass := hinge_mass; link_length := link_length; number_of_links := number_of_links;
      isometric := O_ideal_isometric.init number_of_links link_length hinge_mass; isotensional :=
      O_ideal_isotensional.init number_of_links link_length hinge_mass |}.

End Model.
End O_ideal_thermodynamics.

(** /repo/src/physics/single_chain/ideal/mod.rs: struct Ideal *)
Module O_ideal.
(* /repo/src/physics/single_chain/ideal/mod.rs:10-23 *)
Record t {T : Type} := { hinge_mass : T; link_length : T; number_of_links : Z; thermodynamics : O_ideal_thermodynamics.t T }.
Arguments t : clear implicits.
Section Model.
Context {T : Type} {Sc : Scalar T}.

(* /repo/src/physics/single_chain/ideal/mod.rs:29-38 *)
Definition init (number_of_links : Z) (link_length : T) (hinge_mass : T) : t T :=
  {| hinge_mass := hinge_mass; link_length := link_length; number_of_links := number_of_links;
      thermodynamics := O_ideal_thermodynamics.init number_of_links link_length hinge_mass |}.

End Model.
End O_ideal.

