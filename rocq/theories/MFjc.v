(** Freely jointed chain model.
    Generated by tools/translate.py from the files cited at each definition. *)
From Coq Require Import ZArith List Bool.
From Verif Require Import Scalar MMath MConst MTreloar.
Import ListNotations.
Local Open Scope scalar_scope.

(** /repo/src/physics/single_chain/fjc/thermodynamics/isometric/mod.rs *)
Module fjc_isometric.
Section Model.
Context {T : Type} {Sc : Scalar T}.

(* /repo/src/physics/single_chain/fjc/thermodynamics/isometric/mod.rs:51-56 *)
Definition nondimensional_force (prof : profile) (number_of_links : Z)
    (nondimensional_end_to_end_length_per_link : T) : option T :=
  let! r1 := fjc_thermodynamics.treloar_sums prof number_of_links
      nondimensional_end_to_end_length_per_link [0; 1]%Z in
  let sums := r1 in
  let number_of_links_f64 := sofZ number_of_links in
  let! r2 := nth_error sums 1 in
  let! r3 := nth_error sums 0 in
  Some ((sdec 1 0 / nondimensional_end_to_end_length_per_link + (sdec 5 1 * number_of_links_f64 -
      sdec 1 0) * r2 / r3) / number_of_links_f64).

(* /repo/src/physics/single_chain/fjc/thermodynamics/isometric/mod.rs:45-48 *)
Definition force (prof : profile) (number_of_links : Z) (link_length : T) (end_to_end_length : T)
    (temperature : T) : option T :=
  let! r1 := nondimensional_force prof number_of_links (end_to_end_length / (sofZ number_of_links *
      link_length)) in
  Some (r1 * BOLTZMANN_CONSTANT * temperature / link_length).

(* /repo/src/physics/single_chain/fjc/thermodynamics/isometric/mod.rs:114-117 *)
Definition nondimensional_equilibrium_distribution (prof : profile) (number_of_links : Z)
    (nondimensional_end_to_end_length_per_link : T) : option T :=
  fjc_thermodynamics.treloar_sum_0_with_prefactor prof number_of_links
      nondimensional_end_to_end_length_per_link.

(* /repo/src/physics/single_chain/fjc/thermodynamics/isometric/mod.rs:95-98 *)
Definition nondimensional_relative_helmholtz_free_energy (prof : profile) (number_of_links : Z)
    (nondimensional_end_to_end_length_per_link : T) : option T :=
  let! r1 := nondimensional_equilibrium_distribution prof number_of_links ZERO in
  let! r2 := nondimensional_equilibrium_distribution prof number_of_links
      nondimensional_end_to_end_length_per_link in
  Some (sln (r1 / r2)).

(* /repo/src/physics/single_chain/fjc/thermodynamics/isometric/mod.rs:71-74 *)
Definition relative_helmholtz_free_energy (prof : profile) (number_of_links : Z) (link_length : T)
    (end_to_end_length : T) (temperature : T) : option T :=
  let! r1 := nondimensional_relative_helmholtz_free_energy prof number_of_links (end_to_end_length /
      (sofZ number_of_links * link_length)) in
  Some (r1 * BOLTZMANN_CONSTANT * temperature).

(* /repo/src/physics/single_chain/fjc/thermodynamics/isometric/mod.rs:101-104 *)
Definition nondimensional_relative_helmholtz_free_energy_per_link (prof : profile) (number_of_links
    : Z) (nondimensional_end_to_end_length_per_link : T) : option T :=
  let! r1 := nondimensional_relative_helmholtz_free_energy prof number_of_links
      nondimensional_end_to_end_length_per_link in
  Some (r1 / sofZ number_of_links).

(* /repo/src/physics/single_chain/fjc/thermodynamics/isometric/mod.rs:77-80 *)
Definition relative_helmholtz_free_energy_per_link (prof : profile) (number_of_links : Z)
    (link_length : T) (end_to_end_length : T) (temperature : T) : option T :=
  let! r1 := nondimensional_relative_helmholtz_free_energy_per_link prof number_of_links
      (end_to_end_length / (sofZ number_of_links * link_length)) in
  Some (r1 * BOLTZMANN_CONSTANT * temperature).

(* /repo/src/physics/single_chain/fjc/thermodynamics/isometric/mod.rs:107-111 *)
Definition equilibrium_distribution (prof : profile) (number_of_links : Z) (link_length : T)
    (end_to_end_length : T) : option T :=
  let contour_length := sofZ number_of_links * link_length in
  let! r1 := nondimensional_equilibrium_distribution prof number_of_links (end_to_end_length /
      contour_length) in
  Some (r1 / spowi contour_length 3).

(* /repo/src/physics/single_chain/fjc/thermodynamics/isometric/mod.rs:83-86 *)
Definition nondimensional_helmholtz_free_energy (prof : profile) (number_of_links : Z) (link_length
    : T) (hinge_mass : T) (nondimensional_end_to_end_length_per_link : T) (temperature : T) : option
    T :=
  let! r1 := equilibrium_distribution prof number_of_links link_length
      (nondimensional_end_to_end_length_per_link * sofZ number_of_links * link_length) in
  Some (- sln r1 - (sofZ number_of_links - sdec 1 0) * sln (sdec 8 0 * spowi spi 2 * hinge_mass *
      spowi link_length 2 * BOLTZMANN_CONSTANT * temperature / spowi PLANCK_CONSTANT 2)).

(* /repo/src/physics/single_chain/fjc/thermodynamics/isometric/mod.rs:59-62 *)
Definition helmholtz_free_energy (prof : profile) (number_of_links : Z) (link_length : T)
    (hinge_mass : T) (end_to_end_length : T) (temperature : T) : option T :=
  let! r1 := nondimensional_helmholtz_free_energy prof number_of_links link_length hinge_mass
      (end_to_end_length / (sofZ number_of_links * link_length)) temperature in
  Some (r1 * BOLTZMANN_CONSTANT * temperature).

(* /repo/src/physics/single_chain/fjc/thermodynamics/isometric/mod.rs:89-92 *)
Definition nondimensional_helmholtz_free_energy_per_link (prof : profile) (number_of_links : Z)
    (link_length : T) (hinge_mass : T) (nondimensional_end_to_end_length_per_link : T) (temperature
    : T) : option T :=
  let! r1 := nondimensional_helmholtz_free_energy prof number_of_links link_length hinge_mass
      nondimensional_end_to_end_length_per_link temperature in
  Some (r1 / sofZ number_of_links).

(* /repo/src/physics/single_chain/fjc/thermodynamics/isometric/mod.rs:65-68 *)
Definition helmholtz_free_energy_per_link (prof : profile) (number_of_links : Z) (link_length : T)
    (hinge_mass : T) (end_to_end_length : T) (temperature : T) : option T :=
  let! r1 := nondimensional_helmholtz_free_energy_per_link prof number_of_links link_length
      hinge_mass (end_to_end_length / (sofZ number_of_links * link_length)) temperature in
  Some (r1 * BOLTZMANN_CONSTANT * temperature).

(* /repo/src/physics/single_chain/fjc/thermodynamics/isometric/mod.rs:127-130 *)
Definition nondimensional_equilibrium_radial_distribution (prof : profile) (number_of_links : Z)
    (nondimensional_end_to_end_length_per_link : T) : option T :=
  let! r1 := nondimensional_equilibrium_distribution prof number_of_links
      nondimensional_end_to_end_length_per_link in
  Some (sdec 4 0 * spi * spowi nondimensional_end_to_end_length_per_link 2 * r1).

(* /repo/src/physics/single_chain/fjc/thermodynamics/isometric/mod.rs:120-124 *)
Definition equilibrium_radial_distribution (prof : profile) (number_of_links : Z) (link_length : T)
    (end_to_end_length : T) : option T :=
  let contour_length := sofZ number_of_links * link_length in
  let! r1 := nondimensional_equilibrium_radial_distribution prof number_of_links (end_to_end_length
      / contour_length) in
  Some (r1 / contour_length).

End Model.
End fjc_isometric.

(** /repo/src/physics/single_chain/fjc/thermodynamics/isometric/legendre/mod.rs *)
Module fjc_isometric_legendre.
Section Model.
Context {T : Type} {Sc : Scalar T}.

(* /repo/src/physics/single_chain/fjc/thermodynamics/isometric/legendre/mod.rs:54-57 *)
Definition nondimensional_force (nondimensional_end_to_end_length_per_link : T) : T :=
  math.inverse_langevin nondimensional_end_to_end_length_per_link.

(* /repo/src/physics/single_chain/fjc/thermodynamics/isometric/legendre/mod.rs:48-51 *)
Definition force (number_of_links : Z) (link_length : T) (end_to_end_length : T) (temperature : T) :
    T :=
  BOLTZMANN_CONSTANT * temperature / link_length * nondimensional_force (end_to_end_length / (sofZ
      number_of_links * link_length)).

(* /repo/src/physics/single_chain/fjc/thermodynamics/isometric/legendre/mod.rs:102-106 *)
Definition nondimensional_relative_helmholtz_free_energy_per_link
    (nondimensional_end_to_end_length_per_link : T) : T :=
  let nondimensional_force := nondimensional_force nondimensional_end_to_end_length_per_link in
  nondimensional_force * nondimensional_end_to_end_length_per_link - sln (ssinh nondimensional_force
      / nondimensional_force).

(* /repo/src/physics/single_chain/fjc/thermodynamics/isometric/legendre/mod.rs:78-81 *)
Definition relative_helmholtz_free_energy_per_link (number_of_links : Z) (link_length : T)
    (end_to_end_length : T) (temperature : T) : T :=
  nondimensional_relative_helmholtz_free_energy_per_link (end_to_end_length / (sofZ number_of_links
      * link_length)) * BOLTZMANN_CONSTANT * temperature.

(* /repo/src/physics/single_chain/fjc/thermodynamics/isometric/legendre/mod.rs:90-93 *)
Definition nondimensional_helmholtz_free_energy_per_link (number_of_links : Z) (link_length : T)
    (hinge_mass : T) (nondimensional_end_to_end_length_per_link : T) (temperature : T) : T :=
  nondimensional_relative_helmholtz_free_energy_per_link nondimensional_end_to_end_length_per_link -
      (sdec 1 0 - sdec 1 0 / sofZ number_of_links) * sln (sdec 8 0 * spowi spi 2 * hinge_mass *
      spowi link_length 2 * BOLTZMANN_CONSTANT * temperature / spowi PLANCK_CONSTANT 2).

(* /repo/src/physics/single_chain/fjc/thermodynamics/isometric/legendre/mod.rs:66-69 *)
Definition helmholtz_free_energy_per_link (number_of_links : Z) (link_length : T) (hinge_mass : T)
    (end_to_end_length : T) (temperature : T) : T :=
  nondimensional_helmholtz_free_energy_per_link number_of_links link_length hinge_mass
      (end_to_end_length / (sofZ number_of_links * link_length)) temperature * BOLTZMANN_CONSTANT *
      temperature.

(* /repo/src/physics/single_chain/fjc/thermodynamics/isometric/legendre/mod.rs:96-99 *)
Definition nondimensional_relative_helmholtz_free_energy (number_of_links : Z)
    (nondimensional_end_to_end_length_per_link : T) : T :=
  nondimensional_relative_helmholtz_free_energy_per_link nondimensional_end_to_end_length_per_link *
      sofZ number_of_links.

(* /repo/src/physics/single_chain/fjc/thermodynamics/isometric/legendre/mod.rs:72-75 *)
Definition relative_helmholtz_free_energy (number_of_links : Z) (link_length : T) (end_to_end_length
    : T) (temperature : T) : T :=
  nondimensional_relative_helmholtz_free_energy number_of_links (end_to_end_length / (sofZ
      number_of_links * link_length)) * BOLTZMANN_CONSTANT * temperature.

(* /repo/src/physics/single_chain/fjc/thermodynamics/isometric/legendre/mod.rs:84-87 *)
Definition nondimensional_helmholtz_free_energy (number_of_links : Z) (link_length : T) (hinge_mass
    : T) (nondimensional_end_to_end_length_per_link : T) (temperature : T) : T :=
  nondimensional_relative_helmholtz_free_energy number_of_links
      nondimensional_end_to_end_length_per_link - (sofZ number_of_links - sdec 1 0) * sln (sdec 8 0
      * spowi spi 2 * hinge_mass * spowi link_length 2 * BOLTZMANN_CONSTANT * temperature / spowi
      PLANCK_CONSTANT 2).

(* /repo/src/physics/single_chain/fjc/thermodynamics/isometric/legendre/mod.rs:60-63 *)
Definition helmholtz_free_energy (number_of_links : Z) (link_length : T) (hinge_mass : T)
    (end_to_end_length : T) (temperature : T) : T :=
  nondimensional_helmholtz_free_energy number_of_links link_length hinge_mass (end_to_end_length /
      (sofZ number_of_links * link_length)) temperature * BOLTZMANN_CONSTANT * temperature.

(* /repo/src/physics/single_chain/fjc/thermodynamics/isometric/legendre/mod.rs:116-120 *)
Definition nondimensional_equilibrium_distribution (number_of_links : Z)
    (normalization_nondimensional_equilibrium_distribution : T)
    (nondimensional_end_to_end_length_per_link : T) : T :=
  let nondimensional_force := nondimensional_force nondimensional_end_to_end_length_per_link in
  spowi (ssinh nondimensional_force / nondimensional_force * sexp (- nondimensional_force *
      nondimensional_end_to_end_length_per_link)) number_of_links /
      normalization_nondimensional_equilibrium_distribution.

(* /repo/src/physics/single_chain/fjc/thermodynamics/isometric/legendre/mod.rs:109-113 *)
Definition equilibrium_distribution (number_of_links : Z) (link_length : T)
    (normalization_nondimensional_equilibrium_distribution : T) (end_to_end_length : T) : T :=
  let contour_length := sofZ number_of_links * link_length in
  nondimensional_equilibrium_distribution number_of_links
      normalization_nondimensional_equilibrium_distribution (end_to_end_length / contour_length) /
      spowi contour_length 3.

(* /repo/src/physics/single_chain/fjc/thermodynamics/isometric/legendre/mod.rs:130-133 *)
Definition nondimensional_equilibrium_radial_distribution (number_of_links : Z)
    (normalization_nondimensional_equilibrium_distribution : T)
    (nondimensional_end_to_end_length_per_link : T) : T :=
  sdec 4 0 * spi * spowi nondimensional_end_to_end_length_per_link 2 *
      nondimensional_equilibrium_distribution number_of_links
      normalization_nondimensional_equilibrium_distribution
      nondimensional_end_to_end_length_per_link.

(* /repo/src/physics/single_chain/fjc/thermodynamics/isometric/legendre/mod.rs:123-127 *)
Definition equilibrium_radial_distribution (number_of_links : Z) (link_length : T)
    (normalization_nondimensional_equilibrium_distribution : T) (end_to_end_length : T) : T :=
  let contour_length := sofZ number_of_links * link_length in
  nondimensional_equilibrium_radial_distribution number_of_links
      normalization_nondimensional_equilibrium_distribution (end_to_end_length / contour_length) /
      contour_length.

(* /repo/src/physics/single_chain/fjc/thermodynamics/isometric/legendre/mod.rs:160-165 *)
Definition nondimensional_gibbs_free_energy (prof : profile) (number_of_links : Z) (link_length : T)
    (hinge_mass : T) (nondimensional_end_to_end_length_per_link : T) (temperature : T) : option T :=
  let! r1 := fjc_thermodynamics.treloar_sums prof number_of_links
      nondimensional_end_to_end_length_per_link [0; 1]%Z in
  let sums := r1 in
  let number_of_links_f64 := sofZ number_of_links in
  let! r2 := nth_error sums 1 in
  let! r3 := nth_error sums 0 in
  let! r4 := fjc_thermodynamics.treloar_sum_0_with_prefactor prof number_of_links
      nondimensional_end_to_end_length_per_link in
  Some (- (nondimensional_end_to_end_length_per_link * number_of_links_f64) * (sdec 1 0 /
      nondimensional_end_to_end_length_per_link + (sdec 5 1 * number_of_links_f64 - sdec 1 0) * r2 /
      r3) / number_of_links_f64 - sln (r4 / spowi (number_of_links_f64 * link_length) 3) -
      (number_of_links_f64 - sdec 1 0) * sln (sdec 8 0 * spowi spi 2 * hinge_mass * spowi
      link_length 2 * BOLTZMANN_CONSTANT * temperature / spowi PLANCK_CONSTANT 2)).

(* /repo/src/physics/single_chain/fjc/thermodynamics/isometric/legendre/mod.rs:136-139 *)
Definition gibbs_free_energy (prof : profile) (number_of_links : Z) (link_length : T) (hinge_mass :
    T) (end_to_end_length : T) (temperature : T) : option T :=
  let! r1 := nondimensional_gibbs_free_energy prof number_of_links link_length hinge_mass
      (end_to_end_length / (sofZ number_of_links * link_length)) temperature in
  Some (r1 * BOLTZMANN_CONSTANT * temperature).

(* /repo/src/physics/single_chain/fjc/thermodynamics/isometric/legendre/mod.rs:168-171 *)
Definition nondimensional_gibbs_free_energy_per_link (prof : profile) (number_of_links : Z)
    (link_length : T) (hinge_mass : T) (nondimensional_end_to_end_length_per_link : T) (temperature
    : T) : option T :=
  let! r1 := nondimensional_gibbs_free_energy prof number_of_links link_length hinge_mass
      nondimensional_end_to_end_length_per_link temperature in
  Some (r1 / sofZ number_of_links).

(* /repo/src/physics/single_chain/fjc/thermodynamics/isometric/legendre/mod.rs:142-145 *)
Definition gibbs_free_energy_per_link (prof : profile) (number_of_links : Z) (link_length : T)
    (hinge_mass : T) (end_to_end_length : T) (temperature : T) : option T :=
  let! r1 := nondimensional_gibbs_free_energy_per_link prof number_of_links link_length hinge_mass
      (end_to_end_length / (sofZ number_of_links * link_length)) temperature in
  Some (r1 * BOLTZMANN_CONSTANT * temperature).

(* /repo/src/physics/single_chain/fjc/thermodynamics/isometric/legendre/mod.rs:174-177 *)
Definition nondimensional_relative_gibbs_free_energy (prof : profile) (number_of_links : Z)
    (nondimensional_end_to_end_length_per_link : T) : option T :=
  let! r1 := nondimensional_gibbs_free_energy prof number_of_links (sdec 1 0) (sdec 1 0)
      nondimensional_end_to_end_length_per_link (sdec 300 0) in
  let! r2 := nondimensional_gibbs_free_energy prof number_of_links (sdec 1 0) (sdec 1 0) ZERO (sdec
      300 0) in
  Some (r1 - r2).

(* /repo/src/physics/single_chain/fjc/thermodynamics/isometric/legendre/mod.rs:148-151 *)
Definition relative_gibbs_free_energy (prof : profile) (number_of_links : Z) (link_length : T)
    (end_to_end_length : T) (temperature : T) : option T :=
  let! r1 := nondimensional_relative_gibbs_free_energy prof number_of_links (end_to_end_length /
      (sofZ number_of_links * link_length)) in
  Some (r1 * BOLTZMANN_CONSTANT * temperature).

(* /repo/src/physics/single_chain/fjc/thermodynamics/isometric/legendre/mod.rs:180-183 *)
Definition nondimensional_relative_gibbs_free_energy_per_link (prof : profile) (number_of_links : Z)
    (nondimensional_end_to_end_length_per_link : T) : option T :=
  let! r1 := nondimensional_gibbs_free_energy_per_link prof number_of_links (sdec 1 0) (sdec 1 0)
      nondimensional_end_to_end_length_per_link (sdec 300 0) in
  let! r2 := nondimensional_gibbs_free_energy_per_link prof number_of_links (sdec 1 0) (sdec 1 0)
      ZERO (sdec 300 0) in
  Some (r1 - r2).

(* /repo/src/physics/single_chain/fjc/thermodynamics/isometric/legendre/mod.rs:154-157 *)
Definition relative_gibbs_free_energy_per_link (prof : profile) (number_of_links : Z) (link_length :
    T) (end_to_end_length : T) (temperature : T) : option T :=
  let! r1 := nondimensional_relative_gibbs_free_energy_per_link prof number_of_links
      (end_to_end_length / (sofZ number_of_links * link_length)) in
  Some (r1 * BOLTZMANN_CONSTANT * temperature).

End Model.
End fjc_isometric_legendre.

(** /repo/src/physics/single_chain/fjc/thermodynamics/isotensional/mod.rs *)
Module fjc_isotensional.
Section Model.
Context {T : Type} {Sc : Scalar T}.

(* /repo/src/physics/single_chain/fjc/thermodynamics/isotensional/mod.rs:36-40 *)
Definition end_to_end_length (number_of_links : Z) (link_length : T) (force : T) (temperature : T) :
    T :=
  let nondimensional_force := force / BOLTZMANN_CONSTANT / temperature * link_length in
  (sdec 1 0 / stanh nondimensional_force - sdec 1 0 / nondimensional_force) * sofZ number_of_links *
      link_length.

(* /repo/src/physics/single_chain/fjc/thermodynamics/isotensional/mod.rs:43-47 *)
Definition end_to_end_length_per_link (link_length : T) (force : T) (temperature : T) : T :=
  let nondimensional_force := force / BOLTZMANN_CONSTANT / temperature * link_length in
  (sdec 1 0 / stanh nondimensional_force - sdec 1 0 / nondimensional_force) * link_length.

(* /repo/src/physics/single_chain/fjc/thermodynamics/isotensional/mod.rs:50-53 *)
Definition nondimensional_end_to_end_length (number_of_links : Z) (nondimensional_force : T) : T :=
  (sdec 1 0 / stanh nondimensional_force - sdec 1 0 / nondimensional_force) * sofZ number_of_links.

(* /repo/src/physics/single_chain/fjc/thermodynamics/isotensional/mod.rs:56-59 *)
Definition nondimensional_end_to_end_length_per_link (nondimensional_force : T) : T :=
  sdec 1 0 / stanh nondimensional_force - sdec 1 0 / nondimensional_force.

(* /repo/src/physics/single_chain/fjc/thermodynamics/isotensional/mod.rs:86-89 *)
Definition nondimensional_gibbs_free_energy (number_of_links : Z) (link_length : T) (hinge_mass : T)
    (nondimensional_force : T) (temperature : T) : T :=
  sofZ number_of_links * (- sln (ssinh nondimensional_force / nondimensional_force) - sln (sdec 8 0
      * spowi spi 2 * hinge_mass * spowi link_length 2 * BOLTZMANN_CONSTANT * temperature / spowi
      PLANCK_CONSTANT 2)).

(* /repo/src/physics/single_chain/fjc/thermodynamics/isotensional/mod.rs:92-95 *)
Definition nondimensional_gibbs_free_energy_per_link (link_length : T) (hinge_mass : T)
    (nondimensional_force : T) (temperature : T) : T :=
  - sln (ssinh nondimensional_force / nondimensional_force) - sln (sdec 8 0 * spowi spi 2 *
      hinge_mass * spowi link_length 2 * BOLTZMANN_CONSTANT * temperature / spowi PLANCK_CONSTANT
      2).

(* /repo/src/physics/single_chain/fjc/thermodynamics/isotensional/mod.rs:98-101 *)
Definition nondimensional_relative_gibbs_free_energy (number_of_links : Z) (nondimensional_force :
    T) : T :=
  - sofZ number_of_links * sln (ssinh nondimensional_force / nondimensional_force).

(* /repo/src/physics/single_chain/fjc/thermodynamics/isotensional/mod.rs:74-77 *)
Definition relative_gibbs_free_energy (number_of_links : Z) (link_length : T) (force : T)
    (temperature : T) : T :=
  nondimensional_relative_gibbs_free_energy number_of_links (force / BOLTZMANN_CONSTANT /
      temperature * link_length) * BOLTZMANN_CONSTANT * temperature.

(* /repo/src/physics/single_chain/fjc/thermodynamics/isotensional/mod.rs:62-65 *)
Definition gibbs_free_energy (number_of_links : Z) (link_length : T) (hinge_mass : T) (force : T)
    (temperature : T) : T :=
  relative_gibbs_free_energy number_of_links link_length force temperature - sofZ number_of_links *
      BOLTZMANN_CONSTANT * temperature * sln (sdec 8 0 * spowi spi 2 * hinge_mass * spowi
      link_length 2 * BOLTZMANN_CONSTANT * temperature / spowi PLANCK_CONSTANT 2).

(* /repo/src/physics/single_chain/fjc/thermodynamics/isotensional/mod.rs:104-107 *)
Definition nondimensional_relative_gibbs_free_energy_per_link (nondimensional_force : T) : T :=
  - sln (ssinh nondimensional_force / nondimensional_force).

(* /repo/src/physics/single_chain/fjc/thermodynamics/isotensional/mod.rs:80-83 *)
Definition relative_gibbs_free_energy_per_link (link_length : T) (force : T) (temperature : T) : T
    :=
  nondimensional_relative_gibbs_free_energy_per_link (force / BOLTZMANN_CONSTANT / temperature *
      link_length) * BOLTZMANN_CONSTANT * temperature.

(* /repo/src/physics/single_chain/fjc/thermodynamics/isotensional/mod.rs:68-71 *)
Definition gibbs_free_energy_per_link (link_length : T) (hinge_mass : T) (force : T) (temperature :
    T) : T :=
  relative_gibbs_free_energy_per_link link_length force temperature - BOLTZMANN_CONSTANT *
      temperature * sln (sdec 8 0 * spowi spi 2 * hinge_mass * spowi link_length 2 *
      BOLTZMANN_CONSTANT * temperature / spowi PLANCK_CONSTANT 2).

End Model.
End fjc_isotensional.

(** /repo/src/physics/single_chain/fjc/thermodynamics/isotensional/legendre/mod.rs *)
Module fjc_isotensional_legendre.
Section Model.
Context {T : Type} {Sc : Scalar T}.

(* /repo/src/physics/single_chain/fjc/thermodynamics/isotensional/legendre/mod.rs:30-34 *)
Definition helmholtz_free_energy (number_of_links : Z) (link_length : T) (hinge_mass : T) (force :
    T) (temperature : T) : T :=
  let nondimensional_force := force / BOLTZMANN_CONSTANT / temperature * link_length in
  sofZ number_of_links * BOLTZMANN_CONSTANT * temperature * (nondimensional_force / stanh
      nondimensional_force - sdec 1 0 - sln (ssinh nondimensional_force / nondimensional_force) -
      sln (sdec 8 0 * spowi spi 2 * hinge_mass * spowi link_length 2 * BOLTZMANN_CONSTANT *
      temperature / spowi PLANCK_CONSTANT 2)).

(* /repo/src/physics/single_chain/fjc/thermodynamics/isotensional/legendre/mod.rs:37-41 *)
Definition helmholtz_free_energy_per_link (link_length : T) (hinge_mass : T) (force : T)
    (temperature : T) : T :=
  let nondimensional_force := force / BOLTZMANN_CONSTANT / temperature * link_length in
  BOLTZMANN_CONSTANT * temperature * (nondimensional_force / stanh nondimensional_force - sdec 1 0 -
      sln (ssinh nondimensional_force / nondimensional_force) - sln (sdec 8 0 * spowi spi 2 *
      hinge_mass * spowi link_length 2 * BOLTZMANN_CONSTANT * temperature / spowi PLANCK_CONSTANT
      2)).

(* /repo/src/physics/single_chain/fjc/thermodynamics/isotensional/legendre/mod.rs:44-48 *)
Definition relative_helmholtz_free_energy (number_of_links : Z) (link_length : T) (force : T)
    (temperature : T) : T :=
  let nondimensional_force := force / BOLTZMANN_CONSTANT / temperature * link_length in
  sofZ number_of_links * BOLTZMANN_CONSTANT * temperature * (nondimensional_force / stanh
      nondimensional_force - sdec 1 0 - sln (ssinh nondimensional_force / nondimensional_force)).

(* /repo/src/physics/single_chain/fjc/thermodynamics/isotensional/legendre/mod.rs:51-55 *)
Definition relative_helmholtz_free_energy_per_link (link_length : T) (force : T) (temperature : T) :
    T :=
  let nondimensional_force := force / BOLTZMANN_CONSTANT / temperature * link_length in
  BOLTZMANN_CONSTANT * temperature * (nondimensional_force / stanh nondimensional_force - sdec 1 0 -
      sln (ssinh nondimensional_force / nondimensional_force)).

(* /repo/src/physics/single_chain/fjc/thermodynamics/isotensional/legendre/mod.rs:58-61 *)
Definition nondimensional_helmholtz_free_energy (number_of_links : Z) (link_length : T) (hinge_mass
    : T) (nondimensional_force : T) (temperature : T) : T :=
  sofZ number_of_links * (nondimensional_force / stanh nondimensional_force - sdec 1 0 - sln (ssinh
      nondimensional_force / nondimensional_force) - sln (sdec 8 0 * spowi spi 2 * hinge_mass *
      spowi link_length 2 * BOLTZMANN_CONSTANT * temperature / spowi PLANCK_CONSTANT 2)).

(* /repo/src/physics/single_chain/fjc/thermodynamics/isotensional/legendre/mod.rs:64-67 *)
Definition nondimensional_helmholtz_free_energy_per_link (link_length : T) (hinge_mass : T)
    (nondimensional_force : T) (temperature : T) : T :=
  nondimensional_force / stanh nondimensional_force - sdec 1 0 - sln (ssinh nondimensional_force /
      nondimensional_force) - sln (sdec 8 0 * spowi spi 2 * hinge_mass * spowi link_length 2 *
      BOLTZMANN_CONSTANT * temperature / spowi PLANCK_CONSTANT 2).

(* /repo/src/physics/single_chain/fjc/thermodynamics/isotensional/legendre/mod.rs:70-73 *)
Definition nondimensional_relative_helmholtz_free_energy (number_of_links : Z) (nondimensional_force
    : T) : T :=
  sofZ number_of_links * (nondimensional_force / stanh nondimensional_force - sdec 1 0 - sln (ssinh
      nondimensional_force / nondimensional_force)).

(* /repo/src/physics/single_chain/fjc/thermodynamics/isotensional/legendre/mod.rs:76-79 *)
Definition nondimensional_relative_helmholtz_free_energy_per_link (nondimensional_force : T) : T :=
  nondimensional_force / stanh nondimensional_force - sdec 1 0 - sln (ssinh nondimensional_force /
      nondimensional_force).

End Model.
End fjc_isotensional_legendre.

(** /repo/src/physics/single_chain/fjc/thermodynamics/modified_canonical/mod.rs *)
Module fjc_modified_canonical.
Section Model.
Context {T : Type} {Sc : Scalar T}.

(* /repo/src/physics/single_chain/fjc/thermodynamics/modified_canonical/mod.rs:74-87 *)
Definition nondimensional_force (prof : profile) (number_of_links : Z)
    (nondimensional_potential_distance : T) (nondimensional_potential_stiffness : T) : option T :=
  let number_of_links_f64 := sofZ number_of_links in
  let number_of_links_squared_times_nondimensional_potential_stiffness := spowi number_of_links_f64
      2 * nondimensional_potential_stiffness in
  let integrand_numerator := fun nondimensional_end_to_end_length_per_link => let! r1 :=
      fjc_thermodynamics.treloar_sum_0_with_prefactor prof number_of_links
      nondimensional_end_to_end_length_per_link in
  Some (sdec 4 0 * spi * spowi nondimensional_end_to_end_length_per_link 2 * r1 *
      ((number_of_links_squared_times_nondimensional_potential_stiffness *
      (nondimensional_potential_distance - nondimensional_end_to_end_length_per_link) * sexp (- sdec
      5 1 * number_of_links_squared_times_nondimensional_potential_stiffness * spowi
      (nondimensional_potential_distance - nondimensional_end_to_end_length_per_link) 2) -
      number_of_links_squared_times_nondimensional_potential_stiffness *
      (nondimensional_potential_distance + nondimensional_end_to_end_length_per_link) * sexp (- sdec
      5 1 * number_of_links_squared_times_nondimensional_potential_stiffness * spowi
      (nondimensional_potential_distance + nondimensional_end_to_end_length_per_link) 2)) / (sdec 2
      0 * number_of_links_squared_times_nondimensional_potential_stiffness *
      nondimensional_potential_distance * nondimensional_end_to_end_length_per_link) + (sexp (- sdec
      5 1 * number_of_links_squared_times_nondimensional_potential_stiffness * spowi
      (nondimensional_potential_distance - nondimensional_end_to_end_length_per_link) 2) - sexp (-
      sdec 5 1 * number_of_links_squared_times_nondimensional_potential_stiffness * spowi
      (nondimensional_potential_distance + nondimensional_end_to_end_length_per_link) 2)) / (sdec 2
      0 * number_of_links_squared_times_nondimensional_potential_stiffness * spowi
      nondimensional_potential_distance 2 * nondimensional_end_to_end_length_per_link))) in
  let integrand_denominator := fun nondimensional_end_to_end_length_per_link => let! r2 :=
      fjc_thermodynamics.treloar_sum_0_with_prefactor prof number_of_links
      nondimensional_end_to_end_length_per_link in
  Some (sdec 4 0 * spi * spowi nondimensional_end_to_end_length_per_link 2 * r2 * (sexp (- sdec 5 1
      * number_of_links_squared_times_nondimensional_potential_stiffness * spowi
      (nondimensional_potential_distance - nondimensional_end_to_end_length_per_link) 2) - sexp (-
      sdec 5 1 * number_of_links_squared_times_nondimensional_potential_stiffness * spowi
      (nondimensional_potential_distance + nondimensional_end_to_end_length_per_link) 2)) / (sdec 2
      0 * number_of_links_squared_times_nondimensional_potential_stiffness *
      nondimensional_potential_distance * nondimensional_end_to_end_length_per_link)) in
  let! r3 := math.integrate_1d_m integrand_numerator ZERO ONE POINTS in
  let! r4 := math.integrate_1d_m integrand_denominator ZERO ONE POINTS in
  Some (r3 / r4 / number_of_links_f64).

(* /repo/src/physics/single_chain/fjc/thermodynamics/modified_canonical/mod.rs:56-59 *)
Definition nondimensional_end_to_end_length (prof : profile) (number_of_links : Z)
    (nondimensional_potential_distance : T) (nondimensional_potential_stiffness : T) : option T :=
  let! r1 := nondimensional_force prof number_of_links nondimensional_potential_distance
      nondimensional_potential_stiffness in
  Some (sofZ number_of_links * nondimensional_potential_distance - r1 /
      nondimensional_potential_stiffness).

(* /repo/src/physics/single_chain/fjc/thermodynamics/modified_canonical/mod.rs:62-65 *)
Definition nondimensional_end_to_end_length_per_link (prof : profile) (number_of_links : Z)
    (nondimensional_potential_distance : T) (nondimensional_potential_stiffness : T) : option T :=
  let! r1 := nondimensional_force prof number_of_links nondimensional_potential_distance
      nondimensional_potential_stiffness in
  Some (nondimensional_potential_distance - r1 / nondimensional_potential_stiffness / sofZ
      number_of_links).

(* /repo/src/physics/single_chain/fjc/thermodynamics/modified_canonical/mod.rs:68-71 *)
Definition force (prof : profile) (number_of_links : Z) (link_length : T) (potential_distance : T)
    (potential_stiffness : T) (temperature : T) : option T :=
  let! r1 := nondimensional_force prof number_of_links (potential_distance / (sofZ number_of_links *
      link_length)) (potential_stiffness * spowi link_length 2 / BOLTZMANN_CONSTANT / temperature)
      in
  Some (BOLTZMANN_CONSTANT * temperature / link_length * r1).

(* /repo/src/physics/single_chain/fjc/thermodynamics/modified_canonical/mod.rs:44-47 *)
Definition end_to_end_length (prof : profile) (number_of_links : Z) (link_length : T)
    (potential_distance : T) (potential_stiffness : T) (temperature : T) : option T :=
  let! r1 := force prof number_of_links link_length potential_distance potential_stiffness
      temperature in
  Some (potential_distance - r1 / potential_stiffness).

(* /repo/src/physics/single_chain/fjc/thermodynamics/modified_canonical/mod.rs:50-53 *)
Definition end_to_end_length_per_link (prof : profile) (number_of_links : Z) (link_length : T)
    (potential_distance : T) (potential_stiffness : T) (temperature : T) : option T :=
  let! r1 := force prof number_of_links link_length potential_distance potential_stiffness
      temperature in
  Some ((potential_distance - r1 / potential_stiffness) / sofZ number_of_links).

(* /repo/src/physics/single_chain/fjc/thermodynamics/modified_canonical/mod.rs:114-124 *)
Definition nondimensional_helmholtz_free_energy (prof : profile) (number_of_links : Z) (link_length
    : T) (hinge_mass : T) (nondimensional_potential_distance : T)
    (nondimensional_potential_stiffness : T) (temperature : T) : option T :=
  let number_of_links_f64 := sofZ number_of_links in
  let number_of_links_squared_times_nondimensional_potential_stiffness := spowi number_of_links_f64
      2 * nondimensional_potential_stiffness in
  let integrand := fun nondimensional_end_to_end_length_per_link => let! r1 :=
      fjc_thermodynamics.treloar_sum_0_with_prefactor prof number_of_links
      nondimensional_end_to_end_length_per_link in
  Some (sdec 4 0 * spi * spowi nondimensional_end_to_end_length_per_link 2 * r1 * (sexp (- sdec 5 1
      * number_of_links_squared_times_nondimensional_potential_stiffness * spowi
      (nondimensional_potential_distance - nondimensional_end_to_end_length_per_link) 2) - sexp (-
      sdec 5 1 * number_of_links_squared_times_nondimensional_potential_stiffness * spowi
      (nondimensional_potential_distance + nondimensional_end_to_end_length_per_link) 2)) / (sdec 2
      0 * number_of_links_squared_times_nondimensional_potential_stiffness *
      nondimensional_potential_distance * nondimensional_end_to_end_length_per_link)) in
  let! r2 := math.integrate_1d_m integrand ZERO ONE POINTS in
  let nondimensional_configurational_partition_function := r2 in
  Some (- sln nondimensional_configurational_partition_function - (number_of_links_f64 - sdec 1 0) *
      sln (sdec 8 0 * spowi spi 2 * hinge_mass * spowi link_length 2 * BOLTZMANN_CONSTANT *
      temperature / spowi PLANCK_CONSTANT 2)).

(* /repo/src/physics/single_chain/fjc/thermodynamics/modified_canonical/mod.rs:90-93 *)
Definition helmholtz_free_energy (prof : profile) (number_of_links : Z) (link_length : T)
    (hinge_mass : T) (potential_distance : T) (potential_stiffness : T) (temperature : T) : option T
    :=
  let! r1 := nondimensional_helmholtz_free_energy prof number_of_links link_length hinge_mass
      (potential_distance / (sofZ number_of_links * link_length)) (potential_stiffness * spowi
      link_length 2 / BOLTZMANN_CONSTANT / temperature) temperature in
  Some (BOLTZMANN_CONSTANT * temperature * r1).

(* /repo/src/physics/single_chain/fjc/thermodynamics/modified_canonical/mod.rs:127-130 *)
Definition nondimensional_helmholtz_free_energy_per_link (prof : profile) (number_of_links : Z)
    (link_length : T) (hinge_mass : T) (nondimensional_potential_distance : T)
    (nondimensional_potential_stiffness : T) (temperature : T) : option T :=
  let! r1 := nondimensional_helmholtz_free_energy prof number_of_links link_length hinge_mass
      nondimensional_potential_distance nondimensional_potential_stiffness temperature in
  Some (r1 / sofZ number_of_links).

(* /repo/src/physics/single_chain/fjc/thermodynamics/modified_canonical/mod.rs:96-99 *)
Definition helmholtz_free_energy_per_link (prof : profile) (number_of_links : Z) (link_length : T)
    (hinge_mass : T) (potential_distance : T) (potential_stiffness : T) (temperature : T) : option T
    :=
  let! r1 := nondimensional_helmholtz_free_energy_per_link prof number_of_links link_length
      hinge_mass (potential_distance / (sofZ number_of_links * link_length)) (potential_stiffness *
      spowi link_length 2 / BOLTZMANN_CONSTANT / temperature) temperature in
  Some (BOLTZMANN_CONSTANT * temperature * r1).

(* /repo/src/physics/single_chain/fjc/thermodynamics/modified_canonical/mod.rs:133-136 *)
Definition nondimensional_relative_helmholtz_free_energy (prof : profile) (number_of_links : Z)
    (nondimensional_potential_distance : T) (nondimensional_potential_stiffness : T) : option T :=
  let! r1 := nondimensional_helmholtz_free_energy prof number_of_links (sdec 1 0) (sdec 1 0)
      nondimensional_potential_distance nondimensional_potential_stiffness (sdec 300 0) in
  let! r2 := nondimensional_helmholtz_free_energy prof number_of_links (sdec 1 0) (sdec 1 0) ZERO
      nondimensional_potential_stiffness (sdec 300 0) in
  Some (r1 - r2).

(* /repo/src/physics/single_chain/fjc/thermodynamics/modified_canonical/mod.rs:102-105 *)
Definition relative_helmholtz_free_energy (prof : profile) (number_of_links : Z) (link_length : T)
    (potential_distance : T) (potential_stiffness : T) (temperature : T) : option T :=
  let! r1 := nondimensional_relative_helmholtz_free_energy prof number_of_links (potential_distance
      / (sofZ number_of_links * link_length)) (potential_stiffness * spowi link_length 2 /
      BOLTZMANN_CONSTANT / temperature) in
  Some (BOLTZMANN_CONSTANT * temperature * r1).

(* /repo/src/physics/single_chain/fjc/thermodynamics/modified_canonical/mod.rs:139-142 *)
Definition nondimensional_relative_helmholtz_free_energy_per_link (prof : profile) (number_of_links
    : Z) (nondimensional_potential_distance : T) (nondimensional_potential_stiffness : T) : option T
    :=
  let! r1 := nondimensional_relative_helmholtz_free_energy prof number_of_links
      nondimensional_potential_distance nondimensional_potential_stiffness in
  Some (r1 / sofZ number_of_links).

(* /repo/src/physics/single_chain/fjc/thermodynamics/modified_canonical/mod.rs:108-111 *)
Definition relative_helmholtz_free_energy_per_link (prof : profile) (number_of_links : Z)
    (link_length : T) (potential_distance : T) (potential_stiffness : T) (temperature : T) : option
    T :=
  let! r1 := nondimensional_relative_helmholtz_free_energy_per_link prof number_of_links
      (potential_distance / (sofZ number_of_links * link_length)) (potential_stiffness * spowi
      link_length 2 / BOLTZMANN_CONSTANT / temperature) in
  Some (BOLTZMANN_CONSTANT * temperature * r1).

(* /repo/src/physics/single_chain/fjc/thermodynamics/modified_canonical/mod.rs:145-148 *)
Definition gibbs_free_energy (prof : profile) (number_of_links : Z) (link_length : T) (hinge_mass :
    T) (potential_distance : T) (potential_stiffness : T) (temperature : T) : option T :=
  let! r1 := helmholtz_free_energy prof number_of_links link_length hinge_mass potential_distance
      potential_stiffness temperature in
  Some (r1 - sdec 5 1 * potential_stiffness * spowi potential_distance 2).

(* /repo/src/physics/single_chain/fjc/thermodynamics/modified_canonical/mod.rs:151-154 *)
Definition gibbs_free_energy_per_link (prof : profile) (number_of_links : Z) (link_length : T)
    (hinge_mass : T) (potential_distance : T) (potential_stiffness : T) (temperature : T) : option T
    :=
  let! r1 := helmholtz_free_energy_per_link prof number_of_links link_length hinge_mass
      potential_distance potential_stiffness temperature in
  Some (r1 - sdec 5 1 * potential_stiffness * spowi potential_distance 2 / sofZ number_of_links).

(* /repo/src/physics/single_chain/fjc/thermodynamics/modified_canonical/mod.rs:157-160 *)
Definition relative_gibbs_free_energy (prof : profile) (number_of_links : Z) (link_length : T)
    (potential_distance : T) (potential_stiffness : T) (temperature : T) : option T :=
  let! r1 := relative_helmholtz_free_energy prof number_of_links link_length potential_distance
      potential_stiffness temperature in
  Some (r1 - sdec 5 1 * potential_stiffness * spowi potential_distance 2).

(* /repo/src/physics/single_chain/fjc/thermodynamics/modified_canonical/mod.rs:163-166 *)
Definition relative_gibbs_free_energy_per_link (prof : profile) (number_of_links : Z) (link_length :
    T) (potential_distance : T) (potential_stiffness : T) (temperature : T) : option T :=
  let! r1 := relative_helmholtz_free_energy_per_link prof number_of_links link_length
      potential_distance potential_stiffness temperature in
  Some (r1 - sdec 5 1 * potential_stiffness * spowi potential_distance 2 / sofZ number_of_links).

(* /repo/src/physics/single_chain/fjc/thermodynamics/modified_canonical/mod.rs:169-172 *)
Definition nondimensional_gibbs_free_energy (prof : profile) (number_of_links : Z) (link_length : T)
    (hinge_mass : T) (nondimensional_potential_distance : T) (nondimensional_potential_stiffness :
    T) (temperature : T) : option T :=
  let! r1 := nondimensional_helmholtz_free_energy prof number_of_links link_length hinge_mass
      nondimensional_potential_distance nondimensional_potential_stiffness temperature in
  Some (r1 - sdec 5 1 * spowi (sofZ number_of_links) 2 * nondimensional_potential_stiffness * spowi
      nondimensional_potential_distance 2).

(* /repo/src/physics/single_chain/fjc/thermodynamics/modified_canonical/mod.rs:175-178 *)
Definition nondimensional_gibbs_free_energy_per_link (prof : profile) (number_of_links : Z)
    (link_length : T) (hinge_mass : T) (nondimensional_potential_distance : T)
    (nondimensional_potential_stiffness : T) (temperature : T) : option T :=
  let! r1 := nondimensional_helmholtz_free_energy_per_link prof number_of_links link_length
      hinge_mass nondimensional_potential_distance nondimensional_potential_stiffness temperature in
  Some (r1 - sdec 5 1 * sofZ number_of_links * nondimensional_potential_stiffness * spowi
      nondimensional_potential_distance 2).

(* /repo/src/physics/single_chain/fjc/thermodynamics/modified_canonical/mod.rs:181-184 *)
Definition nondimensional_relative_gibbs_free_energy (prof : profile) (number_of_links : Z)
    (nondimensional_potential_distance : T) (nondimensional_potential_stiffness : T) : option T :=
  let! r1 := nondimensional_relative_helmholtz_free_energy prof number_of_links
      nondimensional_potential_distance nondimensional_potential_stiffness in
  Some (r1 - sdec 5 1 * spowi (sofZ number_of_links) 2 * nondimensional_potential_stiffness * spowi
      nondimensional_potential_distance 2).

(* /repo/src/physics/single_chain/fjc/thermodynamics/modified_canonical/mod.rs:187-190 *)
Definition nondimensional_relative_gibbs_free_energy_per_link (prof : profile) (number_of_links : Z)
    (nondimensional_potential_distance : T) (nondimensional_potential_stiffness : T) : option T :=
  let! r1 := nondimensional_relative_helmholtz_free_energy_per_link prof number_of_links
      nondimensional_potential_distance nondimensional_potential_stiffness in
  Some (r1 - sdec 5 1 * sofZ number_of_links * nondimensional_potential_stiffness * spowi
      nondimensional_potential_distance 2).

End Model.
End fjc_modified_canonical.

(** /repo/src/physics/single_chain/fjc/thermodynamics/modified_canonical/asymptotic/strong_potential/mod.rs *)
Module fjc_modified_canonical_asymptotic_strong_potential.
Section Model.
Context {T : Type} {Sc : Scalar T}.

(* /repo/src/physics/single_chain/fjc/thermodynamics/modified_canonical/asymptotic/strong_potential/mod.rs:42-47 *)
Definition nondimensional_force (prof : profile) (number_of_links : Z)
    (nondimensional_potential_distance : T) (nondimensional_potential_stiffness : T) : option T :=
  let! r1 := fjc_thermodynamics.treloar_sums prof number_of_links nondimensional_potential_distance
      [0; 1; 2; 3]%Z in
  let sums := r1 in
  let number_of_links_f64 := sofZ number_of_links in
  let! r2 := nth_error sums 1 in
  let! r3 := nth_error sums 0 in
  let! r4 := nth_error sums 1 in
  let! r5 := nth_error sums 0 in
  let! r6 := nth_error sums 1 in
  let! r7 := nth_error sums 0 in
  let! r8 := nth_error sums 2 in
  let! r9 := nth_error sums 0 in
  let! r10 := nth_error sums 1 in
  let! r11 := nth_error sums 2 in
  let! r12 := nth_error sums 0 in
  let! r13 := nth_error sums 3 in
  let! r14 := nth_error sums 0 in
  let! r15 := nth_error sums 1 in
  let! r16 := nth_error sums 0 in
  let! r17 := nth_error sums 1 in
  let! r18 := nth_error sums 0 in
  let! r19 := nth_error sums 2 in
  let! r20 := nth_error sums 0 in
  Some ((sdec 1 0 / nondimensional_potential_distance + (sdec 5 1 * number_of_links_f64 - sdec 1 0)
      * r2 / r3) / number_of_links_f64 + sdec 5 1 / nondimensional_potential_stiffness / spowi
      number_of_links_f64 3 * ((sdec 5 1 * number_of_links_f64 - sdec 1 0) * ((sdec 5 1 *
      number_of_links_f64 - sdec 1 0) * r4 / r5 * ((number_of_links_f64 - sdec 2 0) * spowi (r6 /
      r7) 2 - (number_of_links_f64 - sdec 3 0) * r8 / r9) - (sdec 5 1 * number_of_links_f64 - sdec
      15 1) * ((sdec 5 1 * number_of_links_f64 - sdec 1 0) * r10 * r11 / spowi r12 2 - (sdec 5 1 *
      number_of_links_f64 - sdec 2 0) * r13 / r14)) + sdec 2 0 * spowi
      nondimensional_potential_distance (- 3)%Z - sdec 2 0 * ((sdec 5 1 * number_of_links_f64 - sdec
      1 0) * r15 / r16 + spowi nondimensional_potential_distance (- 1)%Z) * ((sdec 5 1 *
      number_of_links_f64 - sdec 1 0) * ((sdec 5 1 * number_of_links_f64 - sdec 1 0) * spowi (r17 /
      r18) 2 - (sdec 5 1 * number_of_links_f64 - sdec 15 1) * r19 / r20) - spowi
      nondimensional_potential_distance (- 2)%Z))).

(* /repo/src/physics/single_chain/fjc/thermodynamics/modified_canonical/asymptotic/strong_potential/mod.rs:36-39 *)
Definition force (prof : profile) (number_of_links : Z) (link_length : T) (potential_distance : T)
    (potential_stiffness : T) (temperature : T) : option T :=
  let! r1 := nondimensional_force prof number_of_links (potential_distance / (sofZ number_of_links *
      link_length)) (potential_stiffness * spowi link_length 2 / BOLTZMANN_CONSTANT / temperature)
      in
  Some (BOLTZMANN_CONSTANT * temperature / link_length * r1).

(* /repo/src/physics/single_chain/fjc/thermodynamics/modified_canonical/asymptotic/strong_potential/mod.rs:74-81 *)
Definition nondimensional_helmholtz_free_energy (prof : profile) (number_of_links : Z) (link_length
    : T) (hinge_mass : T) (nondimensional_potential_distance : T)
    (nondimensional_potential_stiffness : T) (temperature : T) : option T :=
  let! r1 := fjc_thermodynamics.treloar_sums prof number_of_links nondimensional_potential_distance
      [0; 1; 2]%Z in
  let sums := r1 in
  let number_of_links_f64 := sofZ number_of_links in
  let number_of_links_squared := spowi number_of_links_f64 2 in
  let contour_length := number_of_links_f64 * link_length in
  let! r2 := fjc_thermodynamics.treloar_sum_0_with_prefactor prof number_of_links
      nondimensional_potential_distance in
  let! r3 := nth_error sums 1 in
  let! r4 := nth_error sums 0 in
  let! r5 := nth_error sums 2 in
  let! r6 := nth_error sums 0 in
  let! r7 := nth_error sums 1 in
  let! r8 := nth_error sums 0 in
  Some (- sln (r2 / spowi contour_length 3) - (number_of_links_f64 - sdec 1 0) * sln (sdec 8 0 *
      spowi spi 2 * hinge_mass * spowi link_length 2 * BOLTZMANN_CONSTANT * temperature / spowi
      PLANCK_CONSTANT 2) - sdec 15 1 * sln (sdec 2 0 * spi / nondimensional_potential_stiffness /
      number_of_links_squared) - sdec 3 0 * sln contour_length + sdec 5 1 /
      nondimensional_potential_stiffness / number_of_links_squared * ((sdec 5 1 *
      number_of_links_f64 - sdec 1 0) * ((sdec 5 1 * number_of_links_f64 - sdec 1 0) * spowi (r3 /
      r4) 2 - (sdec 5 1 * number_of_links_f64 - sdec 15 1) * r5 / r6) - spowi
      nondimensional_potential_distance (- 2)%Z - spowi ((sdec 5 1 * number_of_links_f64 - sdec 1 0)
      * r7 / r8 + spowi nondimensional_potential_distance (- 1)%Z) 2)).

(* /repo/src/physics/single_chain/fjc/thermodynamics/modified_canonical/asymptotic/strong_potential/mod.rs:50-53 *)
Definition helmholtz_free_energy (prof : profile) (number_of_links : Z) (link_length : T)
    (hinge_mass : T) (potential_distance : T) (potential_stiffness : T) (temperature : T) : option T
    :=
  let! r1 := nondimensional_helmholtz_free_energy prof number_of_links link_length hinge_mass
      (potential_distance / (sofZ number_of_links * link_length)) (potential_stiffness * spowi
      link_length 2 / BOLTZMANN_CONSTANT / temperature) temperature in
  Some (r1 * BOLTZMANN_CONSTANT * temperature).

(* /repo/src/physics/single_chain/fjc/thermodynamics/modified_canonical/asymptotic/strong_potential/mod.rs:62-65 *)
Definition relative_helmholtz_free_energy (prof : profile) (number_of_links : Z) (link_length : T)
    (potential_distance : T) (potential_stiffness : T) (temperature : T) : option T :=
  let! r1 := helmholtz_free_energy prof number_of_links link_length (sdec 1 0) potential_distance
      potential_stiffness temperature in
  let! r2 := helmholtz_free_energy prof number_of_links link_length (sdec 1 0) (ZERO * sofZ
      number_of_links * link_length) potential_stiffness temperature in
  Some (r1 - r2).

(* /repo/src/physics/single_chain/fjc/thermodynamics/modified_canonical/asymptotic/strong_potential/mod.rs:84-87 *)
Definition nondimensional_helmholtz_free_energy_per_link (prof : profile) (number_of_links : Z)
    (link_length : T) (hinge_mass : T) (nondimensional_potential_distance : T)
    (nondimensional_potential_stiffness : T) (temperature : T) : option T :=
  let! r1 := nondimensional_helmholtz_free_energy prof number_of_links link_length hinge_mass
      nondimensional_potential_distance nondimensional_potential_stiffness temperature in
  Some (r1 / sofZ number_of_links).

(* /repo/src/physics/single_chain/fjc/thermodynamics/modified_canonical/asymptotic/strong_potential/mod.rs:56-59 *)
Definition helmholtz_free_energy_per_link (prof : profile) (number_of_links : Z) (link_length : T)
    (hinge_mass : T) (potential_distance : T) (potential_stiffness : T) (temperature : T) : option T
    :=
  let! r1 := nondimensional_helmholtz_free_energy_per_link prof number_of_links link_length
      hinge_mass (potential_distance / (sofZ number_of_links * link_length)) (potential_stiffness *
      spowi link_length 2 / BOLTZMANN_CONSTANT / temperature) temperature in
  Some (r1 * BOLTZMANN_CONSTANT * temperature).

(* /repo/src/physics/single_chain/fjc/thermodynamics/modified_canonical/asymptotic/strong_potential/mod.rs:68-71 *)
Definition relative_helmholtz_free_energy_per_link (prof : profile) (number_of_links : Z)
    (link_length : T) (potential_distance : T) (potential_stiffness : T) (temperature : T) : option
    T :=
  let! r1 := helmholtz_free_energy_per_link prof number_of_links link_length (sdec 1 0)
      potential_distance potential_stiffness temperature in
  let! r2 := helmholtz_free_energy_per_link prof number_of_links link_length (sdec 1 0) (ZERO * sofZ
      number_of_links * link_length) potential_stiffness temperature in
  Some (r1 - r2).

(* /repo/src/physics/single_chain/fjc/thermodynamics/modified_canonical/asymptotic/strong_potential/mod.rs:90-93 *)
Definition nondimensional_relative_helmholtz_free_energy (prof : profile) (number_of_links : Z)
    (nondimensional_potential_distance : T) (nondimensional_potential_stiffness : T) : option T :=
  let! r1 := nondimensional_helmholtz_free_energy prof number_of_links (sdec 1 0) (sdec 1 0)
      nondimensional_potential_distance nondimensional_potential_stiffness (sdec 300 0) in
  let! r2 := nondimensional_helmholtz_free_energy prof number_of_links (sdec 1 0) (sdec 1 0) ZERO
      nondimensional_potential_stiffness (sdec 300 0) in
  Some (r1 - r2).

(* /repo/src/physics/single_chain/fjc/thermodynamics/modified_canonical/asymptotic/strong_potential/mod.rs:96-99 *)
Definition nondimensional_relative_helmholtz_free_energy_per_link (prof : profile) (number_of_links
    : Z) (nondimensional_potential_distance : T) (nondimensional_potential_stiffness : T) : option T
    :=
  let! r1 := nondimensional_relative_helmholtz_free_energy prof number_of_links
      nondimensional_potential_distance nondimensional_potential_stiffness in
  Some (r1 / sofZ number_of_links).

End Model.
End fjc_modified_canonical_asymptotic_strong_potential.

(** /repo/src/physics/single_chain/fjc/thermodynamics/modified_canonical/asymptotic/weak_potential/mod.rs *)
Module fjc_modified_canonical_asymptotic_weak_potential.
Section Model.
Context {T : Type} {Sc : Scalar T}.

(* /repo/src/physics/single_chain/fjc/thermodynamics/modified_canonical/asymptotic/weak_potential/mod.rs:31-35 *)
Definition end_to_end_length (number_of_links : Z) (link_length : T) (potential_distance : T)
    (potential_stiffness : T) (temperature : T) : T :=
  let nondimensional_force := potential_stiffness * potential_distance * link_length /
      BOLTZMANN_CONSTANT / temperature in
  sofZ number_of_links * link_length * (sdec 1 0 / stanh nondimensional_force - sdec 1 0 /
      nondimensional_force) * (sdec 1 0 - potential_stiffness * sofZ number_of_links * spowi
      link_length 2 / BOLTZMANN_CONSTANT / temperature * (spowi nondimensional_force (- 2)%Z - spowi
      (ssinh nondimensional_force) (- 2)%Z)).

(* /repo/src/physics/single_chain/fjc/thermodynamics/modified_canonical/asymptotic/weak_potential/mod.rs:38-42 *)
Definition end_to_end_length_per_link (number_of_links : Z) (link_length : T) (potential_distance :
    T) (potential_stiffness : T) (temperature : T) : T :=
  let nondimensional_force := potential_stiffness * potential_distance * link_length /
      BOLTZMANN_CONSTANT / temperature in
  link_length * (sdec 1 0 / stanh nondimensional_force - sdec 1 0 / nondimensional_force) * (sdec 1
      0 - potential_stiffness * sofZ number_of_links * spowi link_length 2 / BOLTZMANN_CONSTANT /
      temperature * (spowi nondimensional_force (- 2)%Z - spowi (ssinh nondimensional_force) (-
      2)%Z)).

(* /repo/src/physics/single_chain/fjc/thermodynamics/modified_canonical/asymptotic/weak_potential/mod.rs:45-49 *)
Definition nondimensional_end_to_end_length (number_of_links : Z) (nondimensional_potential_distance
    : T) (nondimensional_potential_stiffness : T) : T :=
  let nondimensional_force := sofZ number_of_links * nondimensional_potential_stiffness *
      nondimensional_potential_distance in
  sofZ number_of_links * (sdec 1 0 / stanh nondimensional_force - sdec 1 0 / nondimensional_force) *
      (sdec 1 0 - sofZ number_of_links * nondimensional_potential_stiffness * (spowi
      nondimensional_force (- 2)%Z - spowi (ssinh nondimensional_force) (- 2)%Z)).

(* /repo/src/physics/single_chain/fjc/thermodynamics/modified_canonical/asymptotic/weak_potential/mod.rs:52-56 *)
Definition nondimensional_end_to_end_length_per_link (number_of_links : Z)
    (nondimensional_potential_distance : T) (nondimensional_potential_stiffness : T) : T :=
  let nondimensional_force := sofZ number_of_links * nondimensional_potential_stiffness *
      nondimensional_potential_distance in
  (sdec 1 0 / stanh nondimensional_force - sdec 1 0 / nondimensional_force) * (sdec 1 0 - sofZ
      number_of_links * nondimensional_potential_stiffness * (spowi nondimensional_force (- 2)%Z -
      spowi (ssinh nondimensional_force) (- 2)%Z)).

(* /repo/src/physics/single_chain/fjc/thermodynamics/modified_canonical/asymptotic/weak_potential/mod.rs:59-62 *)
Definition force (potential_distance : T) (potential_stiffness : T) : T :=
  potential_stiffness * potential_distance.

(* /repo/src/physics/single_chain/fjc/thermodynamics/modified_canonical/asymptotic/weak_potential/mod.rs:65-68 *)
Definition nondimensional_force (number_of_links : Z) (nondimensional_potential_distance : T)
    (nondimensional_potential_stiffness : T) : T :=
  sofZ number_of_links * nondimensional_potential_stiffness * nondimensional_potential_distance.

(* /repo/src/physics/single_chain/fjc/thermodynamics/modified_canonical/asymptotic/weak_potential/mod.rs:71-75 *)
Definition gibbs_free_energy (number_of_links : Z) (link_length : T) (hinge_mass : T)
    (potential_distance : T) (potential_stiffness : T) (temperature : T) : T :=
  let nondimensional_force := potential_stiffness * potential_distance * link_length /
      BOLTZMANN_CONSTANT / temperature in
  - sofZ number_of_links * BOLTZMANN_CONSTANT * temperature * sln (ssinh nondimensional_force /
      nondimensional_force) + sdec 5 1 * potential_stiffness * spowi (sofZ number_of_links *
      link_length) 2 * spowi (sdec 1 0 / stanh nondimensional_force - sdec 1 0 /
      nondimensional_force) 2 - sofZ number_of_links * BOLTZMANN_CONSTANT * temperature * sln (sdec
      8 0 * spowi spi 2 * hinge_mass * spowi link_length 2 * BOLTZMANN_CONSTANT * temperature /
      spowi PLANCK_CONSTANT 2).

(* /repo/src/physics/single_chain/fjc/thermodynamics/modified_canonical/asymptotic/weak_potential/mod.rs:78-82 *)
Definition gibbs_free_energy_per_link (number_of_links : Z) (link_length : T) (hinge_mass : T)
    (potential_distance : T) (potential_stiffness : T) (temperature : T) : T :=
  let nondimensional_force := potential_stiffness * potential_distance * link_length /
      BOLTZMANN_CONSTANT / temperature in
  - BOLTZMANN_CONSTANT * temperature * sln (ssinh nondimensional_force / nondimensional_force) +
      sdec 5 1 * potential_stiffness * spowi (sofZ number_of_links * link_length) 2 / sofZ
      number_of_links * spowi (sdec 1 0 / stanh nondimensional_force - sdec 1 0 /
      nondimensional_force) 2 - BOLTZMANN_CONSTANT * temperature * sln (sdec 8 0 * spowi spi 2 *
      hinge_mass * spowi link_length 2 * BOLTZMANN_CONSTANT * temperature / spowi PLANCK_CONSTANT
      2).

(* /repo/src/physics/single_chain/fjc/thermodynamics/modified_canonical/asymptotic/weak_potential/mod.rs:85-88 *)
Definition relative_gibbs_free_energy (number_of_links : Z) (link_length : T) (potential_distance :
    T) (potential_stiffness : T) (temperature : T) : T :=
  gibbs_free_energy number_of_links link_length (sdec 1 0) potential_distance potential_stiffness
      temperature - gibbs_free_energy number_of_links link_length (sdec 1 0) (ZERO * sofZ
      number_of_links * link_length) potential_stiffness temperature.

(* /repo/src/physics/single_chain/fjc/thermodynamics/modified_canonical/asymptotic/weak_potential/mod.rs:91-94 *)
Definition relative_gibbs_free_energy_per_link (number_of_links : Z) (link_length : T)
    (potential_distance : T) (potential_stiffness : T) (temperature : T) : T :=
  gibbs_free_energy_per_link number_of_links link_length (sdec 1 0) potential_distance
      potential_stiffness temperature - gibbs_free_energy_per_link number_of_links link_length (sdec
      1 0) (ZERO * sofZ number_of_links * link_length) potential_stiffness temperature.

(* /repo/src/physics/single_chain/fjc/thermodynamics/modified_canonical/asymptotic/weak_potential/mod.rs:97-101 *)
Definition nondimensional_gibbs_free_energy (number_of_links : Z) (link_length : T) (hinge_mass : T)
    (nondimensional_potential_distance : T) (nondimensional_potential_stiffness : T) (temperature :
    T) : T :=
  let nondimensional_force := sofZ number_of_links * nondimensional_potential_stiffness *
      nondimensional_potential_distance in
  - sofZ number_of_links * sln (ssinh nondimensional_force / nondimensional_force) + sdec 5 1 *
      nondimensional_potential_stiffness * spowi (sofZ number_of_links) 2 * spowi (sdec 1 0 / stanh
      nondimensional_force - sdec 1 0 / nondimensional_force) 2 - sofZ number_of_links * sln (sdec 8
      0 * spowi spi 2 * hinge_mass * spowi link_length 2 * BOLTZMANN_CONSTANT * temperature / spowi
      PLANCK_CONSTANT 2).

(* /repo/src/physics/single_chain/fjc/thermodynamics/modified_canonical/asymptotic/weak_potential/mod.rs:104-108 *)
Definition nondimensional_gibbs_free_energy_per_link (number_of_links : Z) (link_length : T)
    (hinge_mass : T) (nondimensional_potential_distance : T) (nondimensional_potential_stiffness :
    T) (temperature : T) : T :=
  let nondimensional_force := sofZ number_of_links * nondimensional_potential_stiffness *
      nondimensional_potential_distance in
  - sln (ssinh nondimensional_force / nondimensional_force) + sdec 5 1 *
      nondimensional_potential_stiffness * sofZ number_of_links * spowi (sdec 1 0 / stanh
      nondimensional_force - sdec 1 0 / nondimensional_force) 2 - sln (sdec 8 0 * spowi spi 2 *
      hinge_mass * spowi link_length 2 * BOLTZMANN_CONSTANT * temperature / spowi PLANCK_CONSTANT
      2).

(* /repo/src/physics/single_chain/fjc/thermodynamics/modified_canonical/asymptotic/weak_potential/mod.rs:111-114 *)
Definition nondimensional_relative_gibbs_free_energy (number_of_links : Z)
    (nondimensional_potential_distance : T) (nondimensional_potential_stiffness : T) : T :=
  nondimensional_gibbs_free_energy number_of_links (sdec 1 0) (sdec 1 0)
      nondimensional_potential_distance nondimensional_potential_stiffness (sdec 300 0) -
      nondimensional_gibbs_free_energy number_of_links (sdec 1 0) (sdec 1 0) ZERO
      nondimensional_potential_stiffness (sdec 300 0).

(* /repo/src/physics/single_chain/fjc/thermodynamics/modified_canonical/asymptotic/weak_potential/mod.rs:117-120 *)
Definition nondimensional_relative_gibbs_free_energy_per_link (number_of_links : Z)
    (nondimensional_potential_distance : T) (nondimensional_potential_stiffness : T) : T :=
  nondimensional_gibbs_free_energy_per_link number_of_links (sdec 1 0) (sdec 1 0)
      nondimensional_potential_distance nondimensional_potential_stiffness (sdec 300 0) -
      nondimensional_gibbs_free_energy_per_link number_of_links (sdec 1 0) (sdec 1 0) ZERO
      nondimensional_potential_stiffness (sdec 300 0).

End Model.
End fjc_modified_canonical_asymptotic_weak_potential.

(** /repo/src/physics/single_chain/fjc/thermodynamics/modified_canonical/asymptotic/strong_potential/mod.rs: struct FJC *)
Module O_fjc_modified_canonical_asymptotic_strong_potential.
(* /repo/src/physics/single_chain/fjc/thermodynamics/modified_canonical/asymptotic/strong_potential/mod.rs:23-33 *)
Record t {T : Type} := { hinge_mass : T; link_length : T; number_of_links : Z }.
Arguments t : clear implicits.
Section Model.
Context {T : Type} {Sc : Scalar T}.

(* /repo/src/physics/single_chain/fjc/thermodynamics/modified_canonical/asymptotic/strong_potential/mod.rs:105-113 *)
Definition init (number_of_links : Z) (link_length : T) (hinge_mass : T) : t T :=
  {| hinge_mass := hinge_mass; link_length := link_length; number_of_links := number_of_links |}.

(* /repo/src/physics/single_chain/fjc/thermodynamics/modified_canonical/asymptotic/strong_potential/mod.rs:115-118 *)
Definition force (prof : profile) (self : t T) (potential_distance : T) (potential_stiffness : T)
    (temperature : T) : option T :=
  fjc_modified_canonical_asymptotic_strong_potential.force prof (number_of_links self) (link_length
      self) potential_distance potential_stiffness temperature.

(* /repo/src/physics/single_chain/fjc/thermodynamics/modified_canonical/asymptotic/strong_potential/mod.rs:120-123 *)
Definition nondimensional_force (prof : profile) (self : t T) (nondimensional_potential_distance :
    T) (nondimensional_potential_stiffness : T) : option T :=
  fjc_modified_canonical_asymptotic_strong_potential.nondimensional_force prof (number_of_links
      self) nondimensional_potential_distance nondimensional_potential_stiffness.

(* /repo/src/physics/single_chain/fjc/thermodynamics/modified_canonical/asymptotic/strong_potential/mod.rs:125-128 *)
Definition helmholtz_free_energy (prof : profile) (self : t T) (potential_distance : T)
    (potential_stiffness : T) (temperature : T) : option T :=
  fjc_modified_canonical_asymptotic_strong_potential.helmholtz_free_energy prof (number_of_links
      self) (link_length self) (hinge_mass self) potential_distance potential_stiffness temperature.

(* /repo/src/physics/single_chain/fjc/thermodynamics/modified_canonical/asymptotic/strong_potential/mod.rs:130-133 *)
Definition helmholtz_free_energy_per_link (prof : profile) (self : t T) (potential_distance : T)
    (potential_stiffness : T) (temperature : T) : option T :=
  fjc_modified_canonical_asymptotic_strong_potential.helmholtz_free_energy_per_link prof
      (number_of_links self) (link_length self) (hinge_mass self) potential_distance
      potential_stiffness temperature.

(* /repo/src/physics/single_chain/fjc/thermodynamics/modified_canonical/asymptotic/strong_potential/mod.rs:135-138 *)
Definition relative_helmholtz_free_energy (prof : profile) (self : t T) (potential_distance : T)
    (potential_stiffness : T) (temperature : T) : option T :=
  fjc_modified_canonical_asymptotic_strong_potential.relative_helmholtz_free_energy prof
      (number_of_links self) (link_length self) potential_distance potential_stiffness temperature.

(* /repo/src/physics/single_chain/fjc/thermodynamics/modified_canonical/asymptotic/strong_potential/mod.rs:140-143 *)
Definition relative_helmholtz_free_energy_per_link (prof : profile) (self : t T) (potential_distance
    : T) (potential_stiffness : T) (temperature : T) : option T :=
  fjc_modified_canonical_asymptotic_strong_potential.relative_helmholtz_free_energy_per_link prof
      (number_of_links self) (link_length self) potential_distance potential_stiffness temperature.

(* /repo/src/physics/single_chain/fjc/thermodynamics/modified_canonical/asymptotic/strong_potential/mod.rs:145-148 *)
Definition nondimensional_helmholtz_free_energy (prof : profile) (self : t T)
    (nondimensional_potential_distance : T) (nondimensional_potential_stiffness : T) (temperature :
    T) : option T :=
  fjc_modified_canonical_asymptotic_strong_potential.nondimensional_helmholtz_free_energy prof
      (number_of_links self) (link_length self) (hinge_mass self) nondimensional_potential_distance
      nondimensional_potential_stiffness temperature.

(* /repo/src/physics/single_chain/fjc/thermodynamics/modified_canonical/asymptotic/strong_potential/mod.rs:150-153 *)
Definition nondimensional_helmholtz_free_energy_per_link (prof : profile) (self : t T)
    (nondimensional_potential_distance : T) (nondimensional_potential_stiffness : T) (temperature :
    T) : option T :=
  fjc_modified_canonical_asymptotic_strong_potential.nondimensional_helmholtz_free_energy_per_link
      prof (number_of_links self) (link_length self) (hinge_mass self)
      nondimensional_potential_distance nondimensional_potential_stiffness temperature.

(* /repo/src/physics/single_chain/fjc/thermodynamics/modified_canonical/asymptotic/strong_potential/mod.rs:155-158 *)
Definition nondimensional_relative_helmholtz_free_energy (prof : profile) (self : t T)
    (nondimensional_potential_distance : T) (nondimensional_potential_stiffness : T) : option T :=
  fjc_modified_canonical_asymptotic_strong_potential.nondimensional_relative_helmholtz_free_energy
      prof (number_of_links self) nondimensional_potential_distance
      nondimensional_potential_stiffness.

(* /repo/src/physics/single_chain/fjc/thermodynamics/modified_canonical/asymptotic/strong_potential/mod.rs:160-163 *)
Definition nondimensional_relative_helmholtz_free_energy_per_link (prof : profile) (self : t T)
    (nondimensional_potential_distance : T) (nondimensional_potential_stiffness : T) : option T :=
  fjc_modified_canonical_asymptotic_strong_potential.nondimensional_relative_helmholtz_free_energy_per_link
      prof (number_of_links self) nondimensional_potential_distance
      nondimensional_potential_stiffness.

End Model.
End O_fjc_modified_canonical_asymptotic_strong_potential.

(** /repo/src/physics/single_chain/fjc/thermodynamics/modified_canonical/asymptotic/weak_potential/mod.rs: struct FJC *)
Module O_fjc_modified_canonical_asymptotic_weak_potential.
(* /repo/src/physics/single_chain/fjc/thermodynamics/modified_canonical/asymptotic/weak_potential/mod.rs:18-28 *)
Record t {T : Type} := { hinge_mass : T; link_length : T; number_of_links : Z }.
Arguments t : clear implicits.
Section Model.
Context {T : Type} {Sc : Scalar T}.

(* /repo/src/physics/single_chain/fjc/thermodynamics/modified_canonical/asymptotic/weak_potential/mod.rs:126-134 *)
Definition init (number_of_links : Z) (link_length : T) (hinge_mass : T) : t T :=
  {| hinge_mass := hinge_mass; link_length := link_length; number_of_links := number_of_links |}.

(* /repo/src/physics/single_chain/fjc/thermodynamics/modified_canonical/asymptotic/weak_potential/mod.rs:136-139 *)
Definition end_to_end_length (self : t T) (potential_distance : T) (potential_stiffness : T)
    (temperature : T) : T :=
  fjc_modified_canonical_asymptotic_weak_potential.end_to_end_length (number_of_links self)
      (link_length self) potential_distance potential_stiffness temperature.

(* /repo/src/physics/single_chain/fjc/thermodynamics/modified_canonical/asymptotic/weak_potential/mod.rs:141-144 *)
Definition end_to_end_length_per_link (self : t T) (potential_distance : T) (potential_stiffness :
    T) (temperature : T) : T :=
  fjc_modified_canonical_asymptotic_weak_potential.end_to_end_length_per_link (number_of_links self)
      (link_length self) potential_distance potential_stiffness temperature.

(* /repo/src/physics/single_chain/fjc/thermodynamics/modified_canonical/asymptotic/weak_potential/mod.rs:146-149 *)
Definition nondimensional_end_to_end_length (self : t T) (nondimensional_potential_distance : T)
    (nondimensional_potential_stiffness : T) : T :=
  fjc_modified_canonical_asymptotic_weak_potential.nondimensional_end_to_end_length (number_of_links
      self) nondimensional_potential_distance nondimensional_potential_stiffness.

(* /repo/src/physics/single_chain/fjc/thermodynamics/modified_canonical/asymptotic/weak_potential/mod.rs:151-154 *)
Definition nondimensional_end_to_end_length_per_link (self : t T) (nondimensional_potential_distance
    : T) (nondimensional_potential_stiffness : T) : T :=
  fjc_modified_canonical_asymptotic_weak_potential.nondimensional_end_to_end_length_per_link
      (number_of_links self) nondimensional_potential_distance nondimensional_potential_stiffness.

(* /repo/src/physics/single_chain/fjc/thermodynamics/modified_canonical/asymptotic/weak_potential/mod.rs:156-159 *)
Definition force (self : t T) (potential_distance : T) (potential_stiffness : T) : T :=
  fjc_modified_canonical_asymptotic_weak_potential.force potential_distance potential_stiffness.

(* /repo/src/physics/single_chain/fjc/thermodynamics/modified_canonical/asymptotic/weak_potential/mod.rs:161-164 *)
Definition nondimensional_force (self : t T) (nondimensional_potential_distance : T)
    (nondimensional_potential_stiffness : T) : T :=
  fjc_modified_canonical_asymptotic_weak_potential.nondimensional_force (number_of_links self)
      nondimensional_potential_distance nondimensional_potential_stiffness.

(* /repo/src/physics/single_chain/fjc/thermodynamics/modified_canonical/asymptotic/weak_potential/mod.rs:166-169 *)
Definition gibbs_free_energy (self : t T) (potential_distance : T) (potential_stiffness : T)
    (temperature : T) : T :=
  fjc_modified_canonical_asymptotic_weak_potential.gibbs_free_energy (number_of_links self)
      (link_length self) (hinge_mass self) potential_distance potential_stiffness temperature.

(* /repo/src/physics/single_chain/fjc/thermodynamics/modified_canonical/asymptotic/weak_potential/mod.rs:171-174 *)
Definition gibbs_free_energy_per_link (self : t T) (potential_distance : T) (potential_stiffness :
    T) (temperature : T) : T :=
  fjc_modified_canonical_asymptotic_weak_potential.gibbs_free_energy_per_link (number_of_links self)
      (link_length self) (hinge_mass self) potential_distance potential_stiffness temperature.

(* /repo/src/physics/single_chain/fjc/thermodynamics/modified_canonical/asymptotic/weak_potential/mod.rs:176-179 *)
Definition relative_gibbs_free_energy (self : t T) (potential_distance : T) (potential_stiffness :
    T) (temperature : T) : T :=
  fjc_modified_canonical_asymptotic_weak_potential.relative_gibbs_free_energy (number_of_links self)
      (link_length self) potential_distance potential_stiffness temperature.

(* /repo/src/physics/single_chain/fjc/thermodynamics/modified_canonical/asymptotic/weak_potential/mod.rs:181-184 *)
Definition relative_gibbs_free_energy_per_link (self : t T) (potential_distance : T)
    (potential_stiffness : T) (temperature : T) : T :=
  fjc_modified_canonical_asymptotic_weak_potential.relative_gibbs_free_energy_per_link
      (number_of_links self) (link_length self) potential_distance potential_stiffness temperature.

(* /repo/src/physics/single_chain/fjc/thermodynamics/modified_canonical/asymptotic/weak_potential/mod.rs:186-189 *)
Definition nondimensional_gibbs_free_energy (self : t T) (nondimensional_potential_distance : T)
    (nondimensional_potential_stiffness : T) (temperature : T) : T :=
  fjc_modified_canonical_asymptotic_weak_potential.nondimensional_gibbs_free_energy (number_of_links
      self) (link_length self) (hinge_mass self) nondimensional_potential_distance
      nondimensional_potential_stiffness temperature.

(* /repo/src/physics/single_chain/fjc/thermodynamics/modified_canonical/asymptotic/weak_potential/mod.rs:191-194 *)
Definition nondimensional_gibbs_free_energy_per_link (self : t T) (nondimensional_potential_distance
    : T) (nondimensional_potential_stiffness : T) (temperature : T) : T :=
  fjc_modified_canonical_asymptotic_weak_potential.nondimensional_gibbs_free_energy_per_link
      (number_of_links self) (link_length self) (hinge_mass self) nondimensional_potential_distance
      nondimensional_potential_stiffness temperature.

(* /repo/src/physics/single_chain/fjc/thermodynamics/modified_canonical/asymptotic/weak_potential/mod.rs:196-199 *)
Definition nondimensional_relative_gibbs_free_energy (self : t T) (nondimensional_potential_distance
    : T) (nondimensional_potential_stiffness : T) : T :=
  fjc_modified_canonical_asymptotic_weak_potential.nondimensional_relative_gibbs_free_energy
      (number_of_links self) nondimensional_potential_distance nondimensional_potential_stiffness.

(* /repo/src/physics/single_chain/fjc/thermodynamics/modified_canonical/asymptotic/weak_potential/mod.rs:201-204 *)
Definition nondimensional_relative_gibbs_free_energy_per_link (self : t T)
    (nondimensional_potential_distance : T) (nondimensional_potential_stiffness : T) : T :=
  fjc_modified_canonical_asymptotic_weak_potential.nondimensional_relative_gibbs_free_energy_per_link
      (number_of_links self) nondimensional_potential_distance nondimensional_potential_stiffness.

End Model.
End O_fjc_modified_canonical_asymptotic_weak_potential.

(** /repo/src/physics/single_chain/fjc/thermodynamics/isometric/legendre/mod.rs: struct FJC *)
Module O_fjc_isometric_legendre.
(* /repo/src/physics/single_chain/fjc/thermodynamics/isometric/legendre/mod.rs:33-45 *)
Record t {T : Type} := { hinge_mass : T; link_length : T; number_of_links : Z; normalization_nondimensional_equilibrium_distribution : T }.
Arguments t : clear implicits.
Section Model.
Context {T : Type} {Sc : Scalar T}.

(* /repo/src/physics/single_chain/fjc/thermodynamics/isometric/legendre/mod.rs:189-199 *)
Definition init (number_of_links : Z) (link_length : T) (hinge_mass : T) : t T :=
  let normalization := math.integrate_1d (fun nondimensional_end_to_end_length_per_link =>
      fjc_isometric_legendre.nondimensional_equilibrium_radial_distribution number_of_links (sdec 1
      0) nondimensional_end_to_end_length_per_link) ZERO ONE POINTS in
  {| hinge_mass := hinge_mass; link_length := link_length; number_of_links := number_of_links;
      normalization_nondimensional_equilibrium_distribution := normalization |}.

(* /repo/src/physics/single_chain/fjc/thermodynamics/isometric/legendre/mod.rs:201-204 *)
Definition force (self : t T) (end_to_end_length : T) (temperature : T) : T :=
  fjc_isometric_legendre.force (number_of_links self) (link_length self) end_to_end_length
      temperature.

(* /repo/src/physics/single_chain/fjc/thermodynamics/isometric/legendre/mod.rs:206-209 *)
Definition nondimensional_force (self : t T) (nondimensional_end_to_end_length_per_link : T) : T :=
  fjc_isometric_legendre.nondimensional_force nondimensional_end_to_end_length_per_link.

(* /repo/src/physics/single_chain/fjc/thermodynamics/isometric/legendre/mod.rs:211-214 *)
Definition helmholtz_free_energy (self : t T) (end_to_end_length : T) (temperature : T) : T :=
  fjc_isometric_legendre.helmholtz_free_energy (number_of_links self) (link_length self) (hinge_mass
      self) end_to_end_length temperature.

(* /repo/src/physics/single_chain/fjc/thermodynamics/isometric/legendre/mod.rs:216-219 *)
Definition helmholtz_free_energy_per_link (self : t T) (end_to_end_length : T) (temperature : T) : T
    :=
  fjc_isometric_legendre.helmholtz_free_energy_per_link (number_of_links self) (link_length self)
      (hinge_mass self) end_to_end_length temperature.

(* /repo/src/physics/single_chain/fjc/thermodynamics/isometric/legendre/mod.rs:221-224 *)
Definition relative_helmholtz_free_energy (self : t T) (end_to_end_length : T) (temperature : T) : T
    :=
  fjc_isometric_legendre.relative_helmholtz_free_energy (number_of_links self) (link_length self)
      end_to_end_length temperature.

(* /repo/src/physics/single_chain/fjc/thermodynamics/isometric/legendre/mod.rs:226-229 *)
Definition relative_helmholtz_free_energy_per_link (self : t T) (end_to_end_length : T) (temperature
    : T) : T :=
  fjc_isometric_legendre.relative_helmholtz_free_energy_per_link (number_of_links self) (link_length
      self) end_to_end_length temperature.

(* /repo/src/physics/single_chain/fjc/thermodynamics/isometric/legendre/mod.rs:231-234 *)
Definition nondimensional_helmholtz_free_energy (self : t T)
    (nondimensional_end_to_end_length_per_link : T) (temperature : T) : T :=
  fjc_isometric_legendre.nondimensional_helmholtz_free_energy (number_of_links self) (link_length
      self) (hinge_mass self) nondimensional_end_to_end_length_per_link temperature.

(* /repo/src/physics/single_chain/fjc/thermodynamics/isometric/legendre/mod.rs:236-239 *)
Definition nondimensional_helmholtz_free_energy_per_link (self : t T)
    (nondimensional_end_to_end_length_per_link : T) (temperature : T) : T :=
  fjc_isometric_legendre.nondimensional_helmholtz_free_energy_per_link (number_of_links self)
      (link_length self) (hinge_mass self) nondimensional_end_to_end_length_per_link temperature.

(* /repo/src/physics/single_chain/fjc/thermodynamics/isometric/legendre/mod.rs:241-244 *)
Definition nondimensional_relative_helmholtz_free_energy (self : t T)
    (nondimensional_end_to_end_length_per_link : T) : T :=
  fjc_isometric_legendre.nondimensional_relative_helmholtz_free_energy (number_of_links self)
      nondimensional_end_to_end_length_per_link.

(* /repo/src/physics/single_chain/fjc/thermodynamics/isometric/legendre/mod.rs:246-249 *)
Definition nondimensional_relative_helmholtz_free_energy_per_link (self : t T)
    (nondimensional_end_to_end_length_per_link : T) : T :=
  fjc_isometric_legendre.nondimensional_relative_helmholtz_free_energy_per_link
      nondimensional_end_to_end_length_per_link.

(* /repo/src/physics/single_chain/fjc/thermodynamics/isometric/legendre/mod.rs:251-254 *)
Definition equilibrium_distribution (self : t T) (end_to_end_length : T) : T :=
  fjc_isometric_legendre.equilibrium_distribution (number_of_links self) (link_length self)
      (normalization_nondimensional_equilibrium_distribution self) end_to_end_length.

(* /repo/src/physics/single_chain/fjc/thermodynamics/isometric/legendre/mod.rs:256-259 *)
Definition nondimensional_equilibrium_distribution (self : t T)
    (nondimensional_end_to_end_length_per_link : T) : T :=
  fjc_isometric_legendre.nondimensional_equilibrium_distribution (number_of_links self)
      (normalization_nondimensional_equilibrium_distribution self)
      nondimensional_end_to_end_length_per_link.

(* /repo/src/physics/single_chain/fjc/thermodynamics/isometric/legendre/mod.rs:261-264 *)
Definition equilibrium_radial_distribution (self : t T) (end_to_end_length : T) : T :=
  fjc_isometric_legendre.equilibrium_radial_distribution (number_of_links self) (link_length self)
      (normalization_nondimensional_equilibrium_distribution self) end_to_end_length.

(* /repo/src/physics/single_chain/fjc/thermodynamics/isometric/legendre/mod.rs:266-269 *)
Definition nondimensional_equilibrium_radial_distribution (self : t T)
    (nondimensional_end_to_end_length_per_link : T) : T :=
  fjc_isometric_legendre.nondimensional_equilibrium_radial_distribution (number_of_links self)
      (normalization_nondimensional_equilibrium_distribution self)
      nondimensional_end_to_end_length_per_link.

(* /repo/src/physics/single_chain/fjc/thermodynamics/isometric/legendre/mod.rs:271-274 *)
Definition gibbs_free_energy (prof : profile) (self : t T) (end_to_end_length : T) (temperature : T)
    : option T :=
  fjc_isometric_legendre.gibbs_free_energy prof (number_of_links self) (link_length self)
      (hinge_mass self) end_to_end_length temperature.

(* /repo/src/physics/single_chain/fjc/thermodynamics/isometric/legendre/mod.rs:276-279 *)
Definition gibbs_free_energy_per_link (prof : profile) (self : t T) (end_to_end_length : T)
    (temperature : T) : option T :=
  fjc_isometric_legendre.gibbs_free_energy_per_link prof (number_of_links self) (link_length self)
      (hinge_mass self) end_to_end_length temperature.

(* /repo/src/physics/single_chain/fjc/thermodynamics/isometric/legendre/mod.rs:281-284 *)
Definition relative_gibbs_free_energy (prof : profile) (self : t T) (end_to_end_length : T)
    (temperature : T) : option T :=
  fjc_isometric_legendre.relative_gibbs_free_energy prof (number_of_links self) (link_length self)
      end_to_end_length temperature.

(* /repo/src/physics/single_chain/fjc/thermodynamics/isometric/legendre/mod.rs:286-289 *)
Definition relative_gibbs_free_energy_per_link (prof : profile) (self : t T) (end_to_end_length : T)
    (temperature : T) : option T :=
  fjc_isometric_legendre.relative_gibbs_free_energy_per_link prof (number_of_links self)
      (link_length self) end_to_end_length temperature.

(* /repo/src/physics/single_chain/fjc/thermodynamics/isometric/legendre/mod.rs:291-294 *)
Definition nondimensional_gibbs_free_energy (prof : profile) (self : t T)
    (nondimensional_end_to_end_length_per_link : T) (temperature : T) : option T :=
  fjc_isometric_legendre.nondimensional_gibbs_free_energy prof (number_of_links self) (link_length
      self) (hinge_mass self) nondimensional_end_to_end_length_per_link temperature.

(* /repo/src/physics/single_chain/fjc/thermodynamics/isometric/legendre/mod.rs:296-299 *)
Definition nondimensional_gibbs_free_energy_per_link (prof : profile) (self : t T)
    (nondimensional_end_to_end_length_per_link : T) (temperature : T) : option T :=
  fjc_isometric_legendre.nondimensional_gibbs_free_energy_per_link prof (number_of_links self)
      (link_length self) (hinge_mass self) nondimensional_end_to_end_length_per_link temperature.

(* /repo/src/physics/single_chain/fjc/thermodynamics/isometric/legendre/mod.rs:301-304 *)
Definition nondimensional_relative_gibbs_free_energy (prof : profile) (self : t T)
    (nondimensional_end_to_end_length_per_link : T) : option T :=
  fjc_isometric_legendre.nondimensional_relative_gibbs_free_energy prof (number_of_links self)
      nondimensional_end_to_end_length_per_link.

(* /repo/src/physics/single_chain/fjc/thermodynamics/isometric/legendre/mod.rs:306-309 *)
Definition nondimensional_relative_gibbs_free_energy_per_link (prof : profile) (self : t T)
    (nondimensional_end_to_end_length_per_link : T) : option T :=
  fjc_isometric_legendre.nondimensional_relative_gibbs_free_energy_per_link prof (number_of_links
      self) nondimensional_end_to_end_length_per_link.

End Model.
End O_fjc_isometric_legendre.

(** /repo/src/physics/single_chain/fjc/thermodynamics/isotensional/legendre/mod.rs: struct FJC *)
Module O_fjc_isotensional_legendre.
(* /repo/src/physics/single_chain/fjc/thermodynamics/isotensional/legendre/mod.rs:17-27 *)
Record t {T : Type} := { hinge_mass : T; link_length : T; number_of_links : Z }.
Arguments t : clear implicits.
Section Model.
Context {T : Type} {Sc : Scalar T}.

(* /repo/src/physics/single_chain/fjc/thermodynamics/isotensional/legendre/mod.rs:85-93 *)
Definition init (number_of_links : Z) (link_length : T) (hinge_mass : T) : t T :=
  {| hinge_mass := hinge_mass; link_length := link_length; number_of_links := number_of_links |}.

(* /repo/src/physics/single_chain/fjc/thermodynamics/isotensional/legendre/mod.rs:95-98 *)
Definition helmholtz_free_energy (self : t T) (force : T) (temperature : T) : T :=
  fjc_isotensional_legendre.helmholtz_free_energy (number_of_links self) (link_length self)
      (hinge_mass self) force temperature.

(* /repo/src/physics/single_chain/fjc/thermodynamics/isotensional/legendre/mod.rs:100-103 *)
Definition helmholtz_free_energy_per_link (self : t T) (force : T) (temperature : T) : T :=
  fjc_isotensional_legendre.helmholtz_free_energy_per_link (link_length self) (hinge_mass self)
      force temperature.

(* /repo/src/physics/single_chain/fjc/thermodynamics/isotensional/legendre/mod.rs:105-108 *)
Definition relative_helmholtz_free_energy (self : t T) (force : T) (temperature : T) : T :=
  fjc_isotensional_legendre.relative_helmholtz_free_energy (number_of_links self) (link_length self)
      force temperature.

(* /repo/src/physics/single_chain/fjc/thermodynamics/isotensional/legendre/mod.rs:110-113 *)
Definition relative_helmholtz_free_energy_per_link (self : t T) (force : T) (temperature : T) : T :=
  fjc_isotensional_legendre.relative_helmholtz_free_energy_per_link (link_length self) force
      temperature.

(* /repo/src/physics/single_chain/fjc/thermodynamics/isotensional/legendre/mod.rs:115-118 *)
Definition nondimensional_helmholtz_free_energy (self : t T) (nondimensional_force : T) (temperature
    : T) : T :=
  fjc_isotensional_legendre.nondimensional_helmholtz_free_energy (number_of_links self) (link_length
      self) (hinge_mass self) nondimensional_force temperature.

(* /repo/src/physics/single_chain/fjc/thermodynamics/isotensional/legendre/mod.rs:120-123 *)
Definition nondimensional_helmholtz_free_energy_per_link (self : t T) (nondimensional_force : T)
    (temperature : T) : T :=
  fjc_isotensional_legendre.nondimensional_helmholtz_free_energy_per_link (link_length self)
      (hinge_mass self) nondimensional_force temperature.

(* /repo/src/physics/single_chain/fjc/thermodynamics/isotensional/legendre/mod.rs:125-128 *)
Definition nondimensional_relative_helmholtz_free_energy (self : t T) (nondimensional_force : T) : T
    :=
  fjc_isotensional_legendre.nondimensional_relative_helmholtz_free_energy (number_of_links self)
      nondimensional_force.

(* /repo/src/physics/single_chain/fjc/thermodynamics/isotensional/legendre/mod.rs:130-133 *)
Definition nondimensional_relative_helmholtz_free_energy_per_link (self : t T) (nondimensional_force
    : T) : T :=
  fjc_isotensional_legendre.nondimensional_relative_helmholtz_free_energy_per_link
      nondimensional_force.

End Model.
End O_fjc_isotensional_legendre.

(** /repo/src/physics/single_chain/fjc/thermodynamics/modified_canonical/asymptotic/mod.rs: struct FJC *)
Module O_fjc_modified_canonical_asymptotic.
(* /repo/src/physics/single_chain/fjc/thermodynamics/modified_canonical/asymptotic/mod.rs:13-29 *)
Record t {T : Type} := { hinge_mass : T; link_length : T; number_of_links : Z; weak_potential : O_fjc_modified_canonical_asymptotic_weak_potential.t T; strong_potential : O_fjc_modified_canonical_asymptotic_strong_potential.t T }.
Arguments t : clear implicits.
Section Model.
Context {T : Type} {Sc : Scalar T}.

(* /repo/src/physics/single_chain/fjc/thermodynamics/modified_canonical/asymptotic/mod.rs:35-45 *)
Definition init (number_of_links : Z) (link_length : T) (hinge_mass : T) : t T :=
  {| hinge_mass := hinge_mass; link_length := link_length; number_of_links := number_of_links;
      weak_potential := O_fjc_modified_canonical_asymptotic_weak_potential.init number_of_links
      link_length hinge_mass; strong_potential :=
      O_fjc_modified_canonical_asymptotic_strong_potential.init number_of_links link_length
      hinge_mass |}.

End Model.
End O_fjc_modified_canonical_asymptotic.

(** /repo/src/physics/single_chain/fjc/thermodynamics/isometric/mod.rs: struct FJC *)
Module O_fjc_isometric.
(* /repo/src/physics/single_chain/fjc/thermodynamics/isometric/mod.rs:29-42 *)
Record t {T : Type} := { hinge_mass : T; link_length : T; number_of_links : Z; legendre : O_fjc_isometric_legendre.t T }.
Arguments t : clear implicits.
Section Model.
Context {T : Type} {Sc : Scalar T}.

(* /repo/src/physics/single_chain/fjc/thermodynamics/isometric/mod.rs:136-145 *)
Definition init (number_of_links : Z) (link_length : T) (hinge_mass : T) : t T :=
  {| hinge_mass := hinge_mass; link_length := link_length; number_of_links := number_of_links;
      legendre := O_fjc_isometric_legendre.init number_of_links link_length hinge_mass |}.

(* /repo/src/physics/single_chain/fjc/thermodynamics/isometric/mod.rs:147-150 *)
Definition force (prof : profile) (self : t T) (end_to_end_length : T) (temperature : T) : option T
    :=
  fjc_isometric.force prof (number_of_links self) (link_length self) end_to_end_length temperature.

(* /repo/src/physics/single_chain/fjc/thermodynamics/isometric/mod.rs:152-155 *)
Definition nondimensional_force (prof : profile) (self : t T)
    (nondimensional_end_to_end_length_per_link : T) : option T :=
  fjc_isometric.nondimensional_force prof (number_of_links self)
      nondimensional_end_to_end_length_per_link.

(* /repo/src/physics/single_chain/fjc/thermodynamics/isometric/mod.rs:157-160 *)
Definition helmholtz_free_energy (prof : profile) (self : t T) (end_to_end_length : T) (temperature
    : T) : option T :=
  fjc_isometric.helmholtz_free_energy prof (number_of_links self) (link_length self) (hinge_mass
      self) end_to_end_length temperature.

(* /repo/src/physics/single_chain/fjc/thermodynamics/isometric/mod.rs:162-165 *)
Definition helmholtz_free_energy_per_link (prof : profile) (self : t T) (end_to_end_length : T)
    (temperature : T) : option T :=
  fjc_isometric.helmholtz_free_energy_per_link prof (number_of_links self) (link_length self)
      (hinge_mass self) end_to_end_length temperature.

(* /repo/src/physics/single_chain/fjc/thermodynamics/isometric/mod.rs:167-170 *)
Definition relative_helmholtz_free_energy (prof : profile) (self : t T) (end_to_end_length : T)
    (temperature : T) : option T :=
  fjc_isometric.relative_helmholtz_free_energy prof (number_of_links self) (link_length self)
      end_to_end_length temperature.

(* /repo/src/physics/single_chain/fjc/thermodynamics/isometric/mod.rs:172-175 *)
Definition relative_helmholtz_free_energy_per_link (prof : profile) (self : t T) (end_to_end_length
    : T) (temperature : T) : option T :=
  fjc_isometric.relative_helmholtz_free_energy_per_link prof (number_of_links self) (link_length
      self) end_to_end_length temperature.

(* /repo/src/physics/single_chain/fjc/thermodynamics/isometric/mod.rs:177-180 *)
Definition nondimensional_helmholtz_free_energy (prof : profile) (self : t T)
    (nondimensional_end_to_end_length_per_link : T) (temperature : T) : option T :=
  fjc_isometric.nondimensional_helmholtz_free_energy prof (number_of_links self) (link_length self)
      (hinge_mass self) nondimensional_end_to_end_length_per_link temperature.

(* /repo/src/physics/single_chain/fjc/thermodynamics/isometric/mod.rs:182-185 *)
Definition nondimensional_helmholtz_free_energy_per_link (prof : profile) (self : t T)
    (nondimensional_end_to_end_length_per_link : T) (temperature : T) : option T :=
  fjc_isometric.nondimensional_helmholtz_free_energy_per_link prof (number_of_links self)
      (link_length self) (hinge_mass self) nondimensional_end_to_end_length_per_link temperature.

(* /repo/src/physics/single_chain/fjc/thermodynamics/isometric/mod.rs:187-190 *)
Definition nondimensional_relative_helmholtz_free_energy (prof : profile) (self : t T)
    (nondimensional_end_to_end_length_per_link : T) : option T :=
  fjc_isometric.nondimensional_relative_helmholtz_free_energy prof (number_of_links self)
      nondimensional_end_to_end_length_per_link.

(* /repo/src/physics/single_chain/fjc/thermodynamics/isometric/mod.rs:192-195 *)
Definition nondimensional_relative_helmholtz_free_energy_per_link (prof : profile) (self : t T)
    (nondimensional_end_to_end_length_per_link : T) : option T :=
  fjc_isometric.nondimensional_relative_helmholtz_free_energy_per_link prof (number_of_links self)
      nondimensional_end_to_end_length_per_link.

(* /repo/src/physics/single_chain/fjc/thermodynamics/isometric/mod.rs:197-200 *)
Definition equilibrium_distribution (prof : profile) (self : t T) (end_to_end_length : T) : option T
    :=
  fjc_isometric.equilibrium_distribution prof (number_of_links self) (link_length self)
      end_to_end_length.

(* /repo/src/physics/single_chain/fjc/thermodynamics/isometric/mod.rs:202-205 *)
Definition nondimensional_equilibrium_distribution (prof : profile) (self : t T)
    (nondimensional_end_to_end_length_per_link : T) : option T :=
  fjc_isometric.nondimensional_equilibrium_distribution prof (number_of_links self)
      nondimensional_end_to_end_length_per_link.

(* /repo/src/physics/single_chain/fjc/thermodynamics/isometric/mod.rs:207-210 *)
Definition equilibrium_radial_distribution (prof : profile) (self : t T) (end_to_end_length : T) :
    option T :=
  fjc_isometric.equilibrium_radial_distribution prof (number_of_links self) (link_length self)
      end_to_end_length.

(* /repo/src/physics/single_chain/fjc/thermodynamics/isometric/mod.rs:212-215 *)
Definition nondimensional_equilibrium_radial_distribution (prof : profile) (self : t T)
    (nondimensional_end_to_end_length_per_link : T) : option T :=
  fjc_isometric.nondimensional_equilibrium_radial_distribution prof (number_of_links self)
      nondimensional_end_to_end_length_per_link.

End Model.
End O_fjc_isometric.

(** /repo/src/physics/single_chain/fjc/thermodynamics/isotensional/mod.rs: struct FJC *)
Module O_fjc_isotensional.
(* /repo/src/physics/single_chain/fjc/thermodynamics/isotensional/mod.rs:20-33 *)
Record t {T : Type} := { hinge_mass : T; link_length : T; number_of_links : Z; legendre : O_fjc_isotensional_legendre.t T }.
Arguments t : clear implicits.
Section Model.
Context {T : Type} {Sc : Scalar T}.

(* /repo/src/physics/single_chain/fjc/thermodynamics/isotensional/mod.rs:113-122 *)
Definition init (number_of_links : Z) (link_length : T) (hinge_mass : T) : t T :=
  {| hinge_mass := hinge_mass; link_length := link_length; number_of_links := number_of_links;
      legendre := O_fjc_isotensional_legendre.init number_of_links link_length hinge_mass |}.

(* /repo/src/physics/single_chain/fjc/thermodynamics/isotensional/mod.rs:124-127 *)
Definition end_to_end_length (self : t T) (force : T) (temperature : T) : T :=
  fjc_isotensional.end_to_end_length (number_of_links self) (link_length self) force temperature.

(* /repo/src/physics/single_chain/fjc/thermodynamics/isotensional/mod.rs:129-132 *)
Definition end_to_end_length_per_link (self : t T) (force : T) (temperature : T) : T :=
  fjc_isotensional.end_to_end_length_per_link (link_length self) force temperature.

(* /repo/src/physics/single_chain/fjc/thermodynamics/isotensional/mod.rs:134-137 *)
Definition nondimensional_end_to_end_length (self : t T) (nondimensional_force : T) : T :=
  fjc_isotensional.nondimensional_end_to_end_length (number_of_links self) nondimensional_force.

(* /repo/src/physics/single_chain/fjc/thermodynamics/isotensional/mod.rs:139-142 *)
Definition nondimensional_end_to_end_length_per_link (self : t T) (nondimensional_force : T) : T :=
  fjc_isotensional.nondimensional_end_to_end_length_per_link nondimensional_force.

(* /repo/src/physics/single_chain/fjc/thermodynamics/isotensional/mod.rs:144-147 *)
Definition gibbs_free_energy (self : t T) (force : T) (temperature : T) : T :=
  fjc_isotensional.gibbs_free_energy (number_of_links self) (link_length self) (hinge_mass self)
      force temperature.

(* /repo/src/physics/single_chain/fjc/thermodynamics/isotensional/mod.rs:149-152 *)
Definition gibbs_free_energy_per_link (self : t T) (force : T) (temperature : T) : T :=
  fjc_isotensional.gibbs_free_energy_per_link (link_length self) (hinge_mass self) force
      temperature.

(* /repo/src/physics/single_chain/fjc/thermodynamics/isotensional/mod.rs:154-157 *)
Definition relative_gibbs_free_energy (self : t T) (force : T) (temperature : T) : T :=
  fjc_isotensional.relative_gibbs_free_energy (number_of_links self) (link_length self) force
      temperature.

(* /repo/src/physics/single_chain/fjc/thermodynamics/isotensional/mod.rs:159-162 *)
Definition relative_gibbs_free_energy_per_link (self : t T) (force : T) (temperature : T) : T :=
  fjc_isotensional.relative_gibbs_free_energy_per_link (link_length self) force temperature.

(* /repo/src/physics/single_chain/fjc/thermodynamics/isotensional/mod.rs:164-167 *)
Definition nondimensional_gibbs_free_energy (self : t T) (nondimensional_force : T) (temperature :
    T) : T :=
  fjc_isotensional.nondimensional_gibbs_free_energy (number_of_links self) (link_length self)
      (hinge_mass self) nondimensional_force temperature.

(* /repo/src/physics/single_chain/fjc/thermodynamics/isotensional/mod.rs:169-172 *)
Definition nondimensional_gibbs_free_energy_per_link (self : t T) (nondimensional_force : T)
    (temperature : T) : T :=
  fjc_isotensional.nondimensional_gibbs_free_energy_per_link (link_length self) (hinge_mass self)
      nondimensional_force temperature.

(* /repo/src/physics/single_chain/fjc/thermodynamics/isotensional/mod.rs:174-177 *)
Definition nondimensional_relative_gibbs_free_energy (self : t T) (nondimensional_force : T) : T :=
  fjc_isotensional.nondimensional_relative_gibbs_free_energy (number_of_links self)
      nondimensional_force.

(* /repo/src/physics/single_chain/fjc/thermodynamics/isotensional/mod.rs:179-182 *)
Definition nondimensional_relative_gibbs_free_energy_per_link (self : t T) (nondimensional_force :
    T) : T :=
  fjc_isotensional.nondimensional_relative_gibbs_free_energy_per_link nondimensional_force.

End Model.
End O_fjc_isotensional.

(** /repo/src/physics/single_chain/fjc/thermodynamics/modified_canonical/mod.rs: struct FJC *)
Module O_fjc_modified_canonical.
(* /repo/src/physics/single_chain/fjc/thermodynamics/modified_canonical/mod.rs:28-41 *)
Record t {T : Type} := { hinge_mass : T; link_length : T; number_of_links : Z; asymptotic : O_fjc_modified_canonical_asymptotic.t T }.
Arguments t : clear implicits.
Section Model.
Context {T : Type} {Sc : Scalar T}.

(* /repo/src/physics/single_chain/fjc/thermodynamics/modified_canonical/mod.rs:196-205 *)
Definition init (number_of_links : Z) (link_length : T) (hinge_mass : T) : t T :=
  {| hinge_mass := hinge_mass; link_length := link_length; number_of_links := number_of_links;
      asymptotic := O_fjc_modified_canonical_asymptotic.init number_of_links link_length hinge_mass
      |}.

(* /repo/src/physics/single_chain/fjc/thermodynamics/modified_canonical/mod.rs:207-210 *)
Definition end_to_end_length (prof : profile) (self : t T) (potential_distance : T)
    (potential_stiffness : T) (temperature : T) : option T :=
  fjc_modified_canonical.end_to_end_length prof (number_of_links self) (link_length self)
      potential_distance potential_stiffness temperature.

(* /repo/src/physics/single_chain/fjc/thermodynamics/modified_canonical/mod.rs:212-215 *)
Definition end_to_end_length_per_link (prof : profile) (self : t T) (potential_distance : T)
    (potential_stiffness : T) (temperature : T) : option T :=
  fjc_modified_canonical.end_to_end_length_per_link prof (number_of_links self) (link_length self)
      potential_distance potential_stiffness temperature.

(* /repo/src/physics/single_chain/fjc/thermodynamics/modified_canonical/mod.rs:217-220 *)
Definition nondimensional_end_to_end_length (prof : profile) (self : t T)
    (nondimensional_potential_distance : T) (nondimensional_potential_stiffness : T) : option T :=
  fjc_modified_canonical.nondimensional_end_to_end_length prof (number_of_links self)
      nondimensional_potential_distance nondimensional_potential_stiffness.

(* /repo/src/physics/single_chain/fjc/thermodynamics/modified_canonical/mod.rs:222-225 *)
Definition nondimensional_end_to_end_length_per_link (prof : profile) (self : t T)
    (nondimensional_potential_distance : T) (nondimensional_potential_stiffness : T) : option T :=
  fjc_modified_canonical.nondimensional_end_to_end_length_per_link prof (number_of_links self)
      nondimensional_potential_distance nondimensional_potential_stiffness.

(* /repo/src/physics/single_chain/fjc/thermodynamics/modified_canonical/mod.rs:227-230 *)
Definition force (prof : profile) (self : t T) (potential_distance : T) (potential_stiffness : T)
    (temperature : T) : option T :=
  fjc_modified_canonical.force prof (number_of_links self) (link_length self) potential_distance
      potential_stiffness temperature.

(* /repo/src/physics/single_chain/fjc/thermodynamics/modified_canonical/mod.rs:232-235 *)
Definition nondimensional_force (prof : profile) (self : t T) (nondimensional_potential_distance :
    T) (nondimensional_potential_stiffness : T) : option T :=
  fjc_modified_canonical.nondimensional_force prof (number_of_links self)
      nondimensional_potential_distance nondimensional_potential_stiffness.

(* /repo/src/physics/single_chain/fjc/thermodynamics/modified_canonical/mod.rs:237-240 *)
Definition helmholtz_free_energy (prof : profile) (self : t T) (potential_distance : T)
    (potential_stiffness : T) (temperature : T) : option T :=
  fjc_modified_canonical.helmholtz_free_energy prof (number_of_links self) (link_length self)
      (hinge_mass self) potential_distance potential_stiffness temperature.

(* /repo/src/physics/single_chain/fjc/thermodynamics/modified_canonical/mod.rs:242-245 *)
Definition helmholtz_free_energy_per_link (prof : profile) (self : t T) (potential_distance : T)
    (potential_stiffness : T) (temperature : T) : option T :=
  fjc_modified_canonical.helmholtz_free_energy_per_link prof (number_of_links self) (link_length
      self) (hinge_mass self) potential_distance potential_stiffness temperature.

(* /repo/src/physics/single_chain/fjc/thermodynamics/modified_canonical/mod.rs:247-250 *)
Definition relative_helmholtz_free_energy (prof : profile) (self : t T) (potential_distance : T)
    (potential_stiffness : T) (temperature : T) : option T :=
  fjc_modified_canonical.relative_helmholtz_free_energy prof (number_of_links self) (link_length
      self) potential_distance potential_stiffness temperature.

(* /repo/src/physics/single_chain/fjc/thermodynamics/modified_canonical/mod.rs:252-255 *)
Definition relative_helmholtz_free_energy_per_link (prof : profile) (self : t T) (potential_distance
    : T) (potential_stiffness : T) (temperature : T) : option T :=
  fjc_modified_canonical.relative_helmholtz_free_energy_per_link prof (number_of_links self)
      (link_length self) potential_distance potential_stiffness temperature.

(* /repo/src/physics/single_chain/fjc/thermodynamics/modified_canonical/mod.rs:257-260 *)
Definition nondimensional_helmholtz_free_energy (prof : profile) (self : t T)
    (nondimensional_potential_distance : T) (nondimensional_potential_stiffness : T) (temperature :
    T) : option T :=
  fjc_modified_canonical.nondimensional_helmholtz_free_energy prof (number_of_links self)
      (link_length self) (hinge_mass self) nondimensional_potential_distance
      nondimensional_potential_stiffness temperature.

(* /repo/src/physics/single_chain/fjc/thermodynamics/modified_canonical/mod.rs:262-265 *)
Definition nondimensional_helmholtz_free_energy_per_link (prof : profile) (self : t T)
    (nondimensional_potential_distance : T) (nondimensional_potential_stiffness : T) (temperature :
    T) : option T :=
  fjc_modified_canonical.nondimensional_helmholtz_free_energy_per_link prof (number_of_links self)
      (link_length self) (hinge_mass self) nondimensional_potential_distance
      nondimensional_potential_stiffness temperature.

(* /repo/src/physics/single_chain/fjc/thermodynamics/modified_canonical/mod.rs:267-270 *)
Definition nondimensional_relative_helmholtz_free_energy (prof : profile) (self : t T)
    (nondimensional_potential_distance : T) (nondimensional_potential_stiffness : T) : option T :=
  fjc_modified_canonical.nondimensional_relative_helmholtz_free_energy prof (number_of_links self)
      nondimensional_potential_distance nondimensional_potential_stiffness.

(* /repo/src/physics/single_chain/fjc/thermodynamics/modified_canonical/mod.rs:272-275 *)
Definition nondimensional_relative_helmholtz_free_energy_per_link (prof : profile) (self : t T)
    (nondimensional_potential_distance : T) (nondimensional_potential_stiffness : T) : option T :=
  fjc_modified_canonical.nondimensional_relative_helmholtz_free_energy_per_link prof
      (number_of_links self) nondimensional_potential_distance nondimensional_potential_stiffness.

(* /repo/src/physics/single_chain/fjc/thermodynamics/modified_canonical/mod.rs:277-280 *)
Definition gibbs_free_energy (prof : profile) (self : t T) (potential_distance : T)
    (potential_stiffness : T) (temperature : T) : option T :=
  fjc_modified_canonical.gibbs_free_energy prof (number_of_links self) (link_length self)
      (hinge_mass self) potential_distance potential_stiffness temperature.

(* /repo/src/physics/single_chain/fjc/thermodynamics/modified_canonical/mod.rs:282-285 *)
Definition gibbs_free_energy_per_link (prof : profile) (self : t T) (potential_distance : T)
    (potential_stiffness : T) (temperature : T) : option T :=
  fjc_modified_canonical.gibbs_free_energy_per_link prof (number_of_links self) (link_length self)
      (hinge_mass self) potential_distance potential_stiffness temperature.

(* /repo/src/physics/single_chain/fjc/thermodynamics/modified_canonical/mod.rs:287-290 *)
Definition relative_gibbs_free_energy (prof : profile) (self : t T) (potential_distance : T)
    (potential_stiffness : T) (temperature : T) : option T :=
  fjc_modified_canonical.relative_gibbs_free_energy prof (number_of_links self) (link_length self)
      potential_distance potential_stiffness temperature.

(* /repo/src/physics/single_chain/fjc/thermodynamics/modified_canonical/mod.rs:292-295 *)
Definition relative_gibbs_free_energy_per_link (prof : profile) (self : t T) (potential_distance :
    T) (potential_stiffness : T) (temperature : T) : option T :=
  fjc_modified_canonical.relative_gibbs_free_energy_per_link prof (number_of_links self)
      (link_length self) potential_distance potential_stiffness temperature.

(* /repo/src/physics/single_chain/fjc/thermodynamics/modified_canonical/mod.rs:297-300 *)
Definition nondimensional_gibbs_free_energy (prof : profile) (self : t T)
    (nondimensional_potential_distance : T) (nondimensional_potential_stiffness : T) (temperature :
    T) : option T :=
  fjc_modified_canonical.nondimensional_gibbs_free_energy prof (number_of_links self) (link_length
      self) (hinge_mass self) nondimensional_potential_distance nondimensional_potential_stiffness
      temperature.

(* /repo/src/physics/single_chain/fjc/thermodynamics/modified_canonical/mod.rs:302-305 *)
Definition nondimensional_gibbs_free_energy_per_link (prof : profile) (self : t T)
    (nondimensional_potential_distance : T) (nondimensional_potential_stiffness : T) (temperature :
    T) : option T :=
  fjc_modified_canonical.nondimensional_gibbs_free_energy_per_link prof (number_of_links self)
      (link_length self) (hinge_mass self) nondimensional_potential_distance
      nondimensional_potential_stiffness temperature.

(* /repo/src/physics/single_chain/fjc/thermodynamics/modified_canonical/mod.rs:307-310 *)
Definition nondimensional_relative_gibbs_free_energy (prof : profile) (self : t T)
    (nondimensional_potential_distance : T) (nondimensional_potential_stiffness : T) : option T :=
  fjc_modified_canonical.nondimensional_relative_gibbs_free_energy prof (number_of_links self)
      nondimensional_potential_distance nondimensional_potential_stiffness.

(* /repo/src/physics/single_chain/fjc/thermodynamics/modified_canonical/mod.rs:312-315 *)
Definition nondimensional_relative_gibbs_free_energy_per_link (prof : profile) (self : t T)
    (nondimensional_potential_distance : T) (nondimensional_potential_stiffness : T) : option T :=
  fjc_modified_canonical.nondimensional_relative_gibbs_free_energy_per_link prof (number_of_links
      self) nondimensional_potential_distance nondimensional_potential_stiffness.

End Model.
End O_fjc_modified_canonical.

(** /repo/src/physics/single_chain/fjc/thermodynamics/mod.rs: struct FJC *)
Module O_fjc_thermodynamics.
(* /repo/src/physics/single_chain/fjc/thermodynamics/mod.rs:18-37 *)
Record t {T : Type} := { hinge_mass : T; link_length : T; number_of_links : Z; isometric : O_fjc_isometric.t T; isotensional : O_fjc_isotensional.t T; modified_canonical : O_fjc_modified_canonical.t T }.
Arguments t : clear implicits.
Section Model.
Context {T : Type} {Sc : Scalar T}.

(* /repo/src/physics/single_chain/fjc/thermodynamics/mod.rs:43-54 *)
Definition init (number_of_links : Z) (link_length : T) (hinge_mass : T) : t T :=
  {| hinge_mass := hinge_mass; link_length := link_length; number_of_links := number_of_links;
      isometric := O_fjc_isometric.init number_of_links link_length hinge_mass; isotensional :=
      O_fjc_isotensional.init number_of_links link_length hinge_mass; modified_canonical :=
      O_fjc_modified_canonical.init number_of_links link_length hinge_mass |}.

End Model.
End O_fjc_thermodynamics.

(** /repo/src/physics/single_chain/fjc/mod.rs: struct FJC *)
Module O_fjc.
(* /repo/src/physics/single_chain/fjc/mod.rs:10-23 *)
Record t {T : Type} := { hinge_mass : T; link_length : T; number_of_links : Z; thermodynamics : O_fjc_thermodynamics.t T }.
Arguments t : clear implicits.
Section Model.
Context {T : Type} {Sc : Scalar T}.

(* /repo/src/physics/single_chain/fjc/mod.rs:29-38 *)
Definition init (number_of_links : Z) (link_length : T) (hinge_mass : T) : t T :=
  {| hinge_mass := hinge_mass; link_length := link_length; number_of_links := number_of_links;
      thermodynamics := O_fjc_thermodynamics.init number_of_links link_length hinge_mass |}.

End Model.
End O_fjc.

