(** The Python interface of the single-chain models: the classes of the py.rs files.
    [ndarray] and its maps are in MArray.v.
    Generated by tools/gen_bindings.py from the files cited at each definition. *)
From Coq Require Import ZArith List Bool.
From Verif Require Import Scalar MArray MMath MConst MIdeal MFjc MSwfjc MEfjc MMorse MLennardJones MLogSquared MWlc.
Local Open Scope scalar_scope.

(** /repo/src/physics/single_chain/ufjc/lennard_jones/thermodynamics/isometric/asymptotic/reduced/legendre/py.rs: class LENNARDJONESFJC *)
Module P_lennard_jones_isometric_asymptotic_reduced_legendre.
(* /repo/src/physics/single_chain/ufjc/lennard_jones/thermodynamics/isometric/asymptotic/reduced/legendre/py.rs:21-38 *)
Record t {T : Type} := { hinge_mass : T; link_length : T; number_of_links : Z; link_stiffness : T }.
Arguments t : clear implicits.
Section Model.
Context {T : Type} {Sc : Scalar T}.

(* /repo/src/physics/single_chain/ufjc/lennard_jones/thermodynamics/isometric/asymptotic/reduced/legendre/py.rs:44-53 *)
Definition init (number_of_links : Z) (link_length : T) (hinge_mass : T) (link_stiffness : T) : t T
    :=
  {| hinge_mass := hinge_mass; link_length := link_length; number_of_links := number_of_links;
      link_stiffness := link_stiffness |}.

(* /repo/src/physics/single_chain/ufjc/lennard_jones/thermodynamics/isometric/asymptotic/reduced/legendre/py.rs:63-66 *)
Definition force (self : t T) (end_to_end_length : ndarray T) (temperature : T) : ndarray T :=
  mapv (fun end_to_end_length => lennard_jones_isometric_asymptotic_reduced_legendre.force
      (number_of_links self) (link_length self) (link_stiffness self) end_to_end_length temperature)
      end_to_end_length.

(* /repo/src/physics/single_chain/ufjc/lennard_jones/thermodynamics/isometric/asymptotic/reduced/legendre/py.rs:75-78 *)
Definition nondimensional_force (self : t T) (nondimensional_end_to_end_length_per_link : ndarray T)
    (temperature : T) : ndarray T :=
  mapv (fun nondimensional_end_to_end_length_per_link =>
      lennard_jones_isometric_asymptotic_reduced_legendre.nondimensional_force (link_stiffness self
      * spowi (link_length self) 2 / BOLTZMANN_CONSTANT / temperature)
      nondimensional_end_to_end_length_per_link) nondimensional_end_to_end_length_per_link.

(* /repo/src/physics/single_chain/ufjc/lennard_jones/thermodynamics/isometric/asymptotic/reduced/legendre/py.rs:93-96 *)
Definition helmholtz_free_energy (self : t T) (end_to_end_length : ndarray T) (temperature : T) :
    ndarray T :=
  mapv (fun end_to_end_length =>
      lennard_jones_isometric_asymptotic_reduced_legendre.helmholtz_free_energy (number_of_links
      self) (link_length self) (hinge_mass self) (link_stiffness self) end_to_end_length
      temperature) end_to_end_length.

(* /repo/src/physics/single_chain/ufjc/lennard_jones/thermodynamics/isometric/asymptotic/reduced/legendre/py.rs:106-109 *)
Definition helmholtz_free_energy_per_link (self : t T) (end_to_end_length : ndarray T) (temperature
    : T) : ndarray T :=
  mapv (fun end_to_end_length =>
      lennard_jones_isometric_asymptotic_reduced_legendre.helmholtz_free_energy_per_link
      (number_of_links self) (link_length self) (hinge_mass self) (link_stiffness self)
      end_to_end_length temperature) end_to_end_length.

(* /repo/src/physics/single_chain/ufjc/lennard_jones/thermodynamics/isometric/asymptotic/reduced/legendre/py.rs:119-122 *)
Definition relative_helmholtz_free_energy (self : t T) (end_to_end_length : ndarray T) (temperature
    : T) : ndarray T :=
  mapv (fun end_to_end_length =>
      lennard_jones_isometric_asymptotic_reduced_legendre.relative_helmholtz_free_energy
      (number_of_links self) (link_length self) (link_stiffness self) end_to_end_length temperature)
      end_to_end_length.

(* /repo/src/physics/single_chain/ufjc/lennard_jones/thermodynamics/isometric/asymptotic/reduced/legendre/py.rs:132-135 *)
Definition relative_helmholtz_free_energy_per_link (self : t T) (end_to_end_length : ndarray T)
    (temperature : T) : ndarray T :=
  mapv (fun end_to_end_length =>
      lennard_jones_isometric_asymptotic_reduced_legendre.relative_helmholtz_free_energy_per_link
      (number_of_links self) (link_length self) (link_stiffness self) end_to_end_length temperature)
      end_to_end_length.

(* /repo/src/physics/single_chain/ufjc/lennard_jones/thermodynamics/isometric/asymptotic/reduced/legendre/py.rs:145-148 *)
Definition nondimensional_helmholtz_free_energy (self : t T)
    (nondimensional_end_to_end_length_per_link : ndarray T) (temperature : T) : ndarray T :=
  mapv (fun nondimensional_end_to_end_length_per_link =>
      lennard_jones_isometric_asymptotic_reduced_legendre.nondimensional_helmholtz_free_energy
      (number_of_links self) (link_length self) (hinge_mass self) (link_stiffness self * spowi
      (link_length self) 2 / BOLTZMANN_CONSTANT / temperature)
      nondimensional_end_to_end_length_per_link temperature)
      nondimensional_end_to_end_length_per_link.

(* /repo/src/physics/single_chain/ufjc/lennard_jones/thermodynamics/isometric/asymptotic/reduced/legendre/py.rs:158-161 *)
Definition nondimensional_helmholtz_free_energy_per_link (self : t T)
    (nondimensional_end_to_end_length_per_link : ndarray T) (temperature : T) : ndarray T :=
  mapv (fun nondimensional_end_to_end_length_per_link =>
      lennard_jones_isometric_asymptotic_reduced_legendre.nondimensional_helmholtz_free_energy_per_link
      (number_of_links self) (link_length self) (hinge_mass self) (link_stiffness self * spowi
      (link_length self) 2 / BOLTZMANN_CONSTANT / temperature)
      nondimensional_end_to_end_length_per_link temperature)
      nondimensional_end_to_end_length_per_link.

(* /repo/src/physics/single_chain/ufjc/lennard_jones/thermodynamics/isometric/asymptotic/reduced/legendre/py.rs:170-173 *)
Definition nondimensional_relative_helmholtz_free_energy (self : t T)
    (nondimensional_end_to_end_length_per_link : ndarray T) (temperature : T) : ndarray T :=
  mapv (fun nondimensional_end_to_end_length_per_link =>
      lennard_jones_isometric_asymptotic_reduced_legendre.nondimensional_relative_helmholtz_free_energy
      (number_of_links self) (link_stiffness self * spowi (link_length self) 2 / BOLTZMANN_CONSTANT
      / temperature) nondimensional_end_to_end_length_per_link)
      nondimensional_end_to_end_length_per_link.

(* /repo/src/physics/single_chain/ufjc/lennard_jones/thermodynamics/isometric/asymptotic/reduced/legendre/py.rs:182-185 *)
Definition nondimensional_relative_helmholtz_free_energy_per_link (self : t T)
    (nondimensional_end_to_end_length_per_link : ndarray T) (temperature : T) : ndarray T :=
  mapv (fun nondimensional_end_to_end_length_per_link =>
      lennard_jones_isometric_asymptotic_reduced_legendre.nondimensional_relative_helmholtz_free_energy_per_link
      (link_stiffness self * spowi (link_length self) 2 / BOLTZMANN_CONSTANT / temperature)
      nondimensional_end_to_end_length_per_link) nondimensional_end_to_end_length_per_link.

End Model.
End P_lennard_jones_isometric_asymptotic_reduced_legendre.

(** /repo/src/physics/single_chain/ufjc/lennard_jones/thermodynamics/isotensional/asymptotic/reduced/legendre/py.rs: class LENNARDJONESFJC *)
Module P_lennard_jones_isotensional_asymptotic_reduced_legendre.
(* /repo/src/physics/single_chain/ufjc/lennard_jones/thermodynamics/isotensional/asymptotic/reduced/legendre/py.rs:21-38 *)
Record t {T : Type} := { hinge_mass : T; link_length : T; number_of_links : Z; link_stiffness : T }.
Arguments t : clear implicits.
Section Model.
Context {T : Type} {Sc : Scalar T}.

(* /repo/src/physics/single_chain/ufjc/lennard_jones/thermodynamics/isotensional/asymptotic/reduced/legendre/py.rs:44-53 *)
Definition init (number_of_links : Z) (link_length : T) (hinge_mass : T) (link_stiffness : T) : t T
    :=
  {| hinge_mass := hinge_mass; link_length := link_length; number_of_links := number_of_links;
      link_stiffness := link_stiffness |}.

(* /repo/src/physics/single_chain/ufjc/lennard_jones/thermodynamics/isotensional/asymptotic/reduced/legendre/py.rs:66-69 *)
Definition helmholtz_free_energy (self : t T) (force : ndarray T) (temperature : T) : ndarray T :=
  mapv (fun force => lennard_jones_isotensional_asymptotic_reduced_legendre.helmholtz_free_energy
      (number_of_links self) (link_length self) (hinge_mass self) (link_stiffness self) force
      temperature) force.

(* /repo/src/physics/single_chain/ufjc/lennard_jones/thermodynamics/isotensional/asymptotic/reduced/legendre/py.rs:79-82 *)
Definition helmholtz_free_energy_per_link (self : t T) (force : ndarray T) (temperature : T) :
    ndarray T :=
  mapv (fun force =>
      lennard_jones_isotensional_asymptotic_reduced_legendre.helmholtz_free_energy_per_link
      (link_length self) (hinge_mass self) (link_stiffness self) force temperature) force.

(* /repo/src/physics/single_chain/ufjc/lennard_jones/thermodynamics/isotensional/asymptotic/reduced/legendre/py.rs:92-95 *)
Definition relative_helmholtz_free_energy (self : t T) (force : ndarray T) (temperature : T) :
    ndarray T :=
  mapv (fun force =>
      lennard_jones_isotensional_asymptotic_reduced_legendre.relative_helmholtz_free_energy
      (number_of_links self) (link_length self) (link_stiffness self) force temperature) force.

(* /repo/src/physics/single_chain/ufjc/lennard_jones/thermodynamics/isotensional/asymptotic/reduced/legendre/py.rs:105-108 *)
Definition relative_helmholtz_free_energy_per_link (self : t T) (force : ndarray T) (temperature :
    T) : ndarray T :=
  mapv (fun force =>
      lennard_jones_isotensional_asymptotic_reduced_legendre.relative_helmholtz_free_energy_per_link
      (link_length self) (link_stiffness self) force temperature) force.

(* /repo/src/physics/single_chain/ufjc/lennard_jones/thermodynamics/isotensional/asymptotic/reduced/legendre/py.rs:118-121 *)
Definition nondimensional_helmholtz_free_energy (self : t T) (nondimensional_force : ndarray T)
    (temperature : T) : ndarray T :=
  mapv (fun nondimensional_force =>
      lennard_jones_isotensional_asymptotic_reduced_legendre.nondimensional_helmholtz_free_energy
      (number_of_links self) (link_length self) (hinge_mass self) (link_stiffness self * spowi
      (link_length self) 2 / BOLTZMANN_CONSTANT / temperature) nondimensional_force temperature)
      nondimensional_force.

(* /repo/src/physics/single_chain/ufjc/lennard_jones/thermodynamics/isotensional/asymptotic/reduced/legendre/py.rs:131-134 *)
Definition nondimensional_helmholtz_free_energy_per_link (self : t T) (nondimensional_force :
    ndarray T) (temperature : T) : ndarray T :=
  mapv (fun nondimensional_force =>
      lennard_jones_isotensional_asymptotic_reduced_legendre.nondimensional_helmholtz_free_energy_per_link
      (link_length self) (hinge_mass self) (link_stiffness self * spowi (link_length self) 2 /
      BOLTZMANN_CONSTANT / temperature) nondimensional_force temperature) nondimensional_force.

(* /repo/src/physics/single_chain/ufjc/lennard_jones/thermodynamics/isotensional/asymptotic/reduced/legendre/py.rs:144-147 *)
Definition nondimensional_relative_helmholtz_free_energy (self : t T) (nondimensional_force :
    ndarray T) (temperature : T) : ndarray T :=
  mapv (fun nondimensional_force =>
      lennard_jones_isotensional_asymptotic_reduced_legendre.nondimensional_relative_helmholtz_free_energy
      (number_of_links self) (link_stiffness self * spowi (link_length self) 2 / BOLTZMANN_CONSTANT
      / temperature) nondimensional_force) nondimensional_force.

(* /repo/src/physics/single_chain/ufjc/lennard_jones/thermodynamics/isotensional/asymptotic/reduced/legendre/py.rs:157-160 *)
Definition nondimensional_relative_helmholtz_free_energy_per_link (self : t T) (nondimensional_force
    : ndarray T) (temperature : T) : ndarray T :=
  mapv (fun nondimensional_force =>
      lennard_jones_isotensional_asymptotic_reduced_legendre.nondimensional_relative_helmholtz_free_energy_per_link
      (link_stiffness self * spowi (link_length self) 2 / BOLTZMANN_CONSTANT / temperature)
      nondimensional_force) nondimensional_force.

End Model.
End P_lennard_jones_isotensional_asymptotic_reduced_legendre.

(** /repo/src/physics/single_chain/ufjc/log_squared/thermodynamics/isometric/asymptotic/reduced/legendre/py.rs: class LOGSQUAREDFJC *)
Module P_log_squared_isometric_asymptotic_reduced_legendre.
(* /repo/src/physics/single_chain/ufjc/log_squared/thermodynamics/isometric/asymptotic/reduced/legendre/py.rs:21-38 *)
Record t {T : Type} := { hinge_mass : T; link_length : T; number_of_links : Z; link_stiffness : T }.
Arguments t : clear implicits.
Section Model.
Context {T : Type} {Sc : Scalar T}.

(* /repo/src/physics/single_chain/ufjc/log_squared/thermodynamics/isometric/asymptotic/reduced/legendre/py.rs:44-53 *)
Definition init (number_of_links : Z) (link_length : T) (hinge_mass : T) (link_stiffness : T) : t T
    :=
  {| hinge_mass := hinge_mass; link_length := link_length; number_of_links := number_of_links;
      link_stiffness := link_stiffness |}.

(* /repo/src/physics/single_chain/ufjc/log_squared/thermodynamics/isometric/asymptotic/reduced/legendre/py.rs:63-66 *)
Definition force (self : t T) (end_to_end_length : ndarray T) (temperature : T) : ndarray T :=
  mapv (fun end_to_end_length => log_squared_isometric_asymptotic_reduced_legendre.force
      (number_of_links self) (link_length self) (link_stiffness self) end_to_end_length temperature)
      end_to_end_length.

(* /repo/src/physics/single_chain/ufjc/log_squared/thermodynamics/isometric/asymptotic/reduced/legendre/py.rs:75-78 *)
Definition nondimensional_force (self : t T) (nondimensional_end_to_end_length_per_link : ndarray T)
    (temperature : T) : ndarray T :=
  mapv (fun nondimensional_end_to_end_length_per_link =>
      log_squared_isometric_asymptotic_reduced_legendre.nondimensional_force (link_stiffness self *
      spowi (link_length self) 2 / BOLTZMANN_CONSTANT / temperature)
      nondimensional_end_to_end_length_per_link) nondimensional_end_to_end_length_per_link.

(* /repo/src/physics/single_chain/ufjc/log_squared/thermodynamics/isometric/asymptotic/reduced/legendre/py.rs:93-96 *)
Definition helmholtz_free_energy (self : t T) (end_to_end_length : ndarray T) (temperature : T) :
    ndarray T :=
  mapv (fun end_to_end_length =>
      log_squared_isometric_asymptotic_reduced_legendre.helmholtz_free_energy (number_of_links self)
      (link_length self) (hinge_mass self) (link_stiffness self) end_to_end_length temperature)
      end_to_end_length.

(* /repo/src/physics/single_chain/ufjc/log_squared/thermodynamics/isometric/asymptotic/reduced/legendre/py.rs:106-109 *)
Definition helmholtz_free_energy_per_link (self : t T) (end_to_end_length : ndarray T) (temperature
    : T) : ndarray T :=
  mapv (fun end_to_end_length =>
      log_squared_isometric_asymptotic_reduced_legendre.helmholtz_free_energy_per_link
      (number_of_links self) (link_length self) (hinge_mass self) (link_stiffness self)
      end_to_end_length temperature) end_to_end_length.

(* /repo/src/physics/single_chain/ufjc/log_squared/thermodynamics/isometric/asymptotic/reduced/legendre/py.rs:119-122 *)
Definition relative_helmholtz_free_energy (self : t T) (end_to_end_length : ndarray T) (temperature
    : T) : ndarray T :=
  mapv (fun end_to_end_length =>
      log_squared_isometric_asymptotic_reduced_legendre.relative_helmholtz_free_energy
      (number_of_links self) (link_length self) (link_stiffness self) end_to_end_length temperature)
      end_to_end_length.

(* /repo/src/physics/single_chain/ufjc/log_squared/thermodynamics/isometric/asymptotic/reduced/legendre/py.rs:132-135 *)
Definition relative_helmholtz_free_energy_per_link (self : t T) (end_to_end_length : ndarray T)
    (temperature : T) : ndarray T :=
  mapv (fun end_to_end_length =>
      log_squared_isometric_asymptotic_reduced_legendre.relative_helmholtz_free_energy_per_link
      (number_of_links self) (link_length self) (link_stiffness self) end_to_end_length temperature)
      end_to_end_length.

(* /repo/src/physics/single_chain/ufjc/log_squared/thermodynamics/isometric/asymptotic/reduced/legendre/py.rs:145-148 *)
Definition nondimensional_helmholtz_free_energy (self : t T)
    (nondimensional_end_to_end_length_per_link : ndarray T) (temperature : T) : ndarray T :=
  mapv (fun nondimensional_end_to_end_length_per_link =>
      log_squared_isometric_asymptotic_reduced_legendre.nondimensional_helmholtz_free_energy
      (number_of_links self) (link_length self) (hinge_mass self) (link_stiffness self * spowi
      (link_length self) 2 / BOLTZMANN_CONSTANT / temperature)
      nondimensional_end_to_end_length_per_link temperature)
      nondimensional_end_to_end_length_per_link.

(* /repo/src/physics/single_chain/ufjc/log_squared/thermodynamics/isometric/asymptotic/reduced/legendre/py.rs:158-161 *)
Definition nondimensional_helmholtz_free_energy_per_link (self : t T)
    (nondimensional_end_to_end_length_per_link : ndarray T) (temperature : T) : ndarray T :=
  mapv (fun nondimensional_end_to_end_length_per_link =>
      log_squared_isometric_asymptotic_reduced_legendre.nondimensional_helmholtz_free_energy_per_link
      (number_of_links self) (link_length self) (hinge_mass self) (link_stiffness self * spowi
      (link_length self) 2 / BOLTZMANN_CONSTANT / temperature)
      nondimensional_end_to_end_length_per_link temperature)
      nondimensional_end_to_end_length_per_link.

(* /repo/src/physics/single_chain/ufjc/log_squared/thermodynamics/isometric/asymptotic/reduced/legendre/py.rs:170-173 *)
Definition nondimensional_relative_helmholtz_free_energy (self : t T)
    (nondimensional_end_to_end_length_per_link : ndarray T) (temperature : T) : ndarray T :=
  mapv (fun nondimensional_end_to_end_length_per_link =>
      log_squared_isometric_asymptotic_reduced_legendre.nondimensional_relative_helmholtz_free_energy
      (number_of_links self) (link_stiffness self * spowi (link_length self) 2 / BOLTZMANN_CONSTANT
      / temperature) nondimensional_end_to_end_length_per_link)
      nondimensional_end_to_end_length_per_link.

(* /repo/src/physics/single_chain/ufjc/log_squared/thermodynamics/isometric/asymptotic/reduced/legendre/py.rs:182-185 *)
Definition nondimensional_relative_helmholtz_free_energy_per_link (self : t T)
    (nondimensional_end_to_end_length_per_link : ndarray T) (temperature : T) : ndarray T :=
  mapv (fun nondimensional_end_to_end_length_per_link =>
      log_squared_isometric_asymptotic_reduced_legendre.nondimensional_relative_helmholtz_free_energy_per_link
      (link_stiffness self * spowi (link_length self) 2 / BOLTZMANN_CONSTANT / temperature)
      nondimensional_end_to_end_length_per_link) nondimensional_end_to_end_length_per_link.

End Model.
End P_log_squared_isometric_asymptotic_reduced_legendre.

(** /repo/src/physics/single_chain/ufjc/log_squared/thermodynamics/isotensional/asymptotic/reduced/legendre/py.rs: class LOGSQUAREDFJC *)
Module P_log_squared_isotensional_asymptotic_reduced_legendre.
(* /repo/src/physics/single_chain/ufjc/log_squared/thermodynamics/isotensional/asymptotic/reduced/legendre/py.rs:21-38 *)
Record t {T : Type} := { hinge_mass : T; link_length : T; number_of_links : Z; link_stiffness : T }.
Arguments t : clear implicits.
Section Model.
Context {T : Type} {Sc : Scalar T}.

(* /repo/src/physics/single_chain/ufjc/log_squared/thermodynamics/isotensional/asymptotic/reduced/legendre/py.rs:44-53 *)
Definition init (number_of_links : Z) (link_length : T) (hinge_mass : T) (link_stiffness : T) : t T
    :=
  {| hinge_mass := hinge_mass; link_length := link_length; number_of_links := number_of_links;
      link_stiffness := link_stiffness |}.

(* /repo/src/physics/single_chain/ufjc/log_squared/thermodynamics/isotensional/asymptotic/reduced/legendre/py.rs:66-69 *)
Definition helmholtz_free_energy (self : t T) (force : ndarray T) (temperature : T) : ndarray T :=
  mapv (fun force => log_squared_isotensional_asymptotic_reduced_legendre.helmholtz_free_energy
      (number_of_links self) (link_length self) (hinge_mass self) (link_stiffness self) force
      temperature) force.

(* /repo/src/physics/single_chain/ufjc/log_squared/thermodynamics/isotensional/asymptotic/reduced/legendre/py.rs:79-82 *)
Definition helmholtz_free_energy_per_link (self : t T) (force : ndarray T) (temperature : T) :
    ndarray T :=
  mapv (fun force =>
      log_squared_isotensional_asymptotic_reduced_legendre.helmholtz_free_energy_per_link
      (link_length self) (hinge_mass self) (link_stiffness self) force temperature) force.

(* /repo/src/physics/single_chain/ufjc/log_squared/thermodynamics/isotensional/asymptotic/reduced/legendre/py.rs:92-95 *)
Definition relative_helmholtz_free_energy (self : t T) (force : ndarray T) (temperature : T) :
    ndarray T :=
  mapv (fun force =>
      log_squared_isotensional_asymptotic_reduced_legendre.relative_helmholtz_free_energy
      (number_of_links self) (link_length self) (link_stiffness self) force temperature) force.

(* /repo/src/physics/single_chain/ufjc/log_squared/thermodynamics/isotensional/asymptotic/reduced/legendre/py.rs:105-108 *)
Definition relative_helmholtz_free_energy_per_link (self : t T) (force : ndarray T) (temperature :
    T) : ndarray T :=
  mapv (fun force =>
      log_squared_isotensional_asymptotic_reduced_legendre.relative_helmholtz_free_energy_per_link
      (link_length self) (link_stiffness self) force temperature) force.

(* /repo/src/physics/single_chain/ufjc/log_squared/thermodynamics/isotensional/asymptotic/reduced/legendre/py.rs:118-121 *)
Definition nondimensional_helmholtz_free_energy (self : t T) (nondimensional_force : ndarray T)
    (temperature : T) : ndarray T :=
  mapv (fun nondimensional_force =>
      log_squared_isotensional_asymptotic_reduced_legendre.nondimensional_helmholtz_free_energy
      (number_of_links self) (link_length self) (hinge_mass self) (link_stiffness self * spowi
      (link_length self) 2 / BOLTZMANN_CONSTANT / temperature) nondimensional_force temperature)
      nondimensional_force.

(* /repo/src/physics/single_chain/ufjc/log_squared/thermodynamics/isotensional/asymptotic/reduced/legendre/py.rs:131-134 *)
Definition nondimensional_helmholtz_free_energy_per_link (self : t T) (nondimensional_force :
    ndarray T) (temperature : T) : ndarray T :=
  mapv (fun nondimensional_force =>
      log_squared_isotensional_asymptotic_reduced_legendre.nondimensional_helmholtz_free_energy_per_link
      (link_length self) (hinge_mass self) (link_stiffness self * spowi (link_length self) 2 /
      BOLTZMANN_CONSTANT / temperature) nondimensional_force temperature) nondimensional_force.

(* /repo/src/physics/single_chain/ufjc/log_squared/thermodynamics/isotensional/asymptotic/reduced/legendre/py.rs:144-147 *)
Definition nondimensional_relative_helmholtz_free_energy (self : t T) (nondimensional_force :
    ndarray T) (temperature : T) : ndarray T :=
  mapv (fun nondimensional_force =>
      log_squared_isotensional_asymptotic_reduced_legendre.nondimensional_relative_helmholtz_free_energy
      (number_of_links self) (link_stiffness self * spowi (link_length self) 2 / BOLTZMANN_CONSTANT
      / temperature) nondimensional_force) nondimensional_force.

(* /repo/src/physics/single_chain/ufjc/log_squared/thermodynamics/isotensional/asymptotic/reduced/legendre/py.rs:157-160 *)
Definition nondimensional_relative_helmholtz_free_energy_per_link (self : t T) (nondimensional_force
    : ndarray T) (temperature : T) : ndarray T :=
  mapv (fun nondimensional_force =>
      log_squared_isotensional_asymptotic_reduced_legendre.nondimensional_relative_helmholtz_free_energy_per_link
      (link_stiffness self * spowi (link_length self) 2 / BOLTZMANN_CONSTANT / temperature)
      nondimensional_force) nondimensional_force.

End Model.
End P_log_squared_isotensional_asymptotic_reduced_legendre.

(** /repo/src/physics/single_chain/ufjc/morse/thermodynamics/isometric/asymptotic/reduced/legendre/py.rs: class MORSEFJC *)
Module P_morse_isometric_asymptotic_reduced_legendre.
(* /repo/src/physics/single_chain/ufjc/morse/thermodynamics/isometric/asymptotic/reduced/legendre/py.rs:21-42 *)
Record t {T : Type} := { hinge_mass : T; link_length : T; number_of_links : Z; link_stiffness : T; link_energy : T }.
Arguments t : clear implicits.
Section Model.
Context {T : Type} {Sc : Scalar T}.

(* /repo/src/physics/single_chain/ufjc/morse/thermodynamics/isometric/asymptotic/reduced/legendre/py.rs:48-58 *)
Definition init (number_of_links : Z) (link_length : T) (hinge_mass : T) (link_stiffness : T)
    (link_energy : T) : t T :=
  {| hinge_mass := hinge_mass; link_length := link_length; number_of_links := number_of_links;
      link_stiffness := link_stiffness; link_energy := link_energy |}.

(* /repo/src/physics/single_chain/ufjc/morse/thermodynamics/isometric/asymptotic/reduced/legendre/py.rs:68-71 *)
Definition force (self : t T) (end_to_end_length : ndarray T) (temperature : T) : ndarray T :=
  mapv (fun end_to_end_length => morse_isometric_asymptotic_reduced_legendre.force (number_of_links
      self) (link_length self) (link_stiffness self) (link_energy self) end_to_end_length
      temperature) end_to_end_length.

(* /repo/src/physics/single_chain/ufjc/morse/thermodynamics/isometric/asymptotic/reduced/legendre/py.rs:80-83 *)
Definition nondimensional_force (self : t T) (nondimensional_end_to_end_length_per_link : ndarray T)
    (temperature : T) : ndarray T :=
  mapv (fun nondimensional_end_to_end_length_per_link =>
      morse_isometric_asymptotic_reduced_legendre.nondimensional_force (link_stiffness self * spowi
      (link_length self) 2 / BOLTZMANN_CONSTANT / temperature) (link_energy self /
      BOLTZMANN_CONSTANT / temperature) nondimensional_end_to_end_length_per_link)
      nondimensional_end_to_end_length_per_link.

(* /repo/src/physics/single_chain/ufjc/morse/thermodynamics/isometric/asymptotic/reduced/legendre/py.rs:98-101 *)
Definition helmholtz_free_energy (self : t T) (end_to_end_length : ndarray T) (temperature : T) :
    ndarray T :=
  mapv (fun end_to_end_length => morse_isometric_asymptotic_reduced_legendre.helmholtz_free_energy
      (number_of_links self) (link_length self) (hinge_mass self) (link_stiffness self) (link_energy
      self) end_to_end_length temperature) end_to_end_length.

(* /repo/src/physics/single_chain/ufjc/morse/thermodynamics/isometric/asymptotic/reduced/legendre/py.rs:111-114 *)
Definition helmholtz_free_energy_per_link (self : t T) (end_to_end_length : ndarray T) (temperature
    : T) : ndarray T :=
  mapv (fun end_to_end_length =>
      morse_isometric_asymptotic_reduced_legendre.helmholtz_free_energy_per_link (number_of_links
      self) (link_length self) (hinge_mass self) (link_stiffness self) (link_energy self)
      end_to_end_length temperature) end_to_end_length.

(* /repo/src/physics/single_chain/ufjc/morse/thermodynamics/isometric/asymptotic/reduced/legendre/py.rs:124-127 *)
Definition relative_helmholtz_free_energy (self : t T) (end_to_end_length : ndarray T) (temperature
    : T) : ndarray T :=
  mapv (fun end_to_end_length =>
      morse_isometric_asymptotic_reduced_legendre.relative_helmholtz_free_energy (number_of_links
      self) (link_length self) (link_stiffness self) (link_energy self) end_to_end_length
      temperature) end_to_end_length.

(* /repo/src/physics/single_chain/ufjc/morse/thermodynamics/isometric/asymptotic/reduced/legendre/py.rs:137-140 *)
Definition relative_helmholtz_free_energy_per_link (self : t T) (end_to_end_length : ndarray T)
    (temperature : T) : ndarray T :=
  mapv (fun end_to_end_length =>
      morse_isometric_asymptotic_reduced_legendre.relative_helmholtz_free_energy_per_link
      (number_of_links self) (link_length self) (link_stiffness self) (link_energy self)
      end_to_end_length temperature) end_to_end_length.

(* /repo/src/physics/single_chain/ufjc/morse/thermodynamics/isometric/asymptotic/reduced/legendre/py.rs:150-153 *)
Definition nondimensional_helmholtz_free_energy (self : t T)
    (nondimensional_end_to_end_length_per_link : ndarray T) (temperature : T) : ndarray T :=
  mapv (fun nondimensional_end_to_end_length_per_link =>
      morse_isometric_asymptotic_reduced_legendre.nondimensional_helmholtz_free_energy
      (number_of_links self) (link_length self) (hinge_mass self) (link_stiffness self * spowi
      (link_length self) 2 / BOLTZMANN_CONSTANT / temperature) (link_energy self /
      BOLTZMANN_CONSTANT / temperature) nondimensional_end_to_end_length_per_link temperature)
      nondimensional_end_to_end_length_per_link.

(* /repo/src/physics/single_chain/ufjc/morse/thermodynamics/isometric/asymptotic/reduced/legendre/py.rs:163-166 *)
Definition nondimensional_helmholtz_free_energy_per_link (self : t T)
    (nondimensional_end_to_end_length_per_link : ndarray T) (temperature : T) : ndarray T :=
  mapv (fun nondimensional_end_to_end_length_per_link =>
      morse_isometric_asymptotic_reduced_legendre.nondimensional_helmholtz_free_energy_per_link
      (number_of_links self) (link_length self) (hinge_mass self) (link_stiffness self * spowi
      (link_length self) 2 / BOLTZMANN_CONSTANT / temperature) (link_energy self /
      BOLTZMANN_CONSTANT / temperature) nondimensional_end_to_end_length_per_link temperature)
      nondimensional_end_to_end_length_per_link.

(* /repo/src/physics/single_chain/ufjc/morse/thermodynamics/isometric/asymptotic/reduced/legendre/py.rs:175-178 *)
Definition nondimensional_relative_helmholtz_free_energy (self : t T)
    (nondimensional_end_to_end_length_per_link : ndarray T) (temperature : T) : ndarray T :=
  mapv (fun nondimensional_end_to_end_length_per_link =>
      morse_isometric_asymptotic_reduced_legendre.nondimensional_relative_helmholtz_free_energy
      (number_of_links self) (link_stiffness self * spowi (link_length self) 2 / BOLTZMANN_CONSTANT
      / temperature) (link_energy self / BOLTZMANN_CONSTANT / temperature)
      nondimensional_end_to_end_length_per_link) nondimensional_end_to_end_length_per_link.

(* /repo/src/physics/single_chain/ufjc/morse/thermodynamics/isometric/asymptotic/reduced/legendre/py.rs:187-190 *)
Definition nondimensional_relative_helmholtz_free_energy_per_link (self : t T)
    (nondimensional_end_to_end_length_per_link : ndarray T) (temperature : T) : ndarray T :=
  mapv (fun nondimensional_end_to_end_length_per_link =>
      morse_isometric_asymptotic_reduced_legendre.nondimensional_relative_helmholtz_free_energy_per_link
      (link_stiffness self * spowi (link_length self) 2 / BOLTZMANN_CONSTANT / temperature)
      (link_energy self / BOLTZMANN_CONSTANT / temperature)
      nondimensional_end_to_end_length_per_link) nondimensional_end_to_end_length_per_link.

End Model.
End P_morse_isometric_asymptotic_reduced_legendre.

(** /repo/src/physics/single_chain/ufjc/morse/thermodynamics/isotensional/asymptotic/reduced/legendre/py.rs: class MORSEFJC *)
Module P_morse_isotensional_asymptotic_reduced_legendre.
(* /repo/src/physics/single_chain/ufjc/morse/thermodynamics/isotensional/asymptotic/reduced/legendre/py.rs:21-42 *)
Record t {T : Type} := { hinge_mass : T; link_length : T; number_of_links : Z; link_stiffness : T; link_energy : T }.
Arguments t : clear implicits.
Section Model.
Context {T : Type} {Sc : Scalar T}.

(* /repo/src/physics/single_chain/ufjc/morse/thermodynamics/isotensional/asymptotic/reduced/legendre/py.rs:48-58 *)
Definition init (number_of_links : Z) (link_length : T) (hinge_mass : T) (link_stiffness : T)
    (link_energy : T) : t T :=
  {| hinge_mass := hinge_mass; link_length := link_length; number_of_links := number_of_links;
      link_stiffness := link_stiffness; link_energy := link_energy |}.

(* /repo/src/physics/single_chain/ufjc/morse/thermodynamics/isotensional/asymptotic/reduced/legendre/py.rs:71-74 *)
Definition helmholtz_free_energy (self : t T) (force : ndarray T) (temperature : T) : ndarray T :=
  mapv (fun force => morse_isotensional_asymptotic_reduced_legendre.helmholtz_free_energy
      (number_of_links self) (link_length self) (hinge_mass self) (link_stiffness self) (link_energy
      self) force temperature) force.

(* /repo/src/physics/single_chain/ufjc/morse/thermodynamics/isotensional/asymptotic/reduced/legendre/py.rs:84-87 *)
Definition helmholtz_free_energy_per_link (self : t T) (force : ndarray T) (temperature : T) :
    ndarray T :=
  mapv (fun force => morse_isotensional_asymptotic_reduced_legendre.helmholtz_free_energy_per_link
      (link_length self) (hinge_mass self) (link_stiffness self) (link_energy self) force
      temperature) force.

(* /repo/src/physics/single_chain/ufjc/morse/thermodynamics/isotensional/asymptotic/reduced/legendre/py.rs:97-100 *)
Definition relative_helmholtz_free_energy (self : t T) (force : ndarray T) (temperature : T) :
    ndarray T :=
  mapv (fun force => morse_isotensional_asymptotic_reduced_legendre.relative_helmholtz_free_energy
      (number_of_links self) (link_length self) (link_stiffness self) (link_energy self) force
      temperature) force.

(* /repo/src/physics/single_chain/ufjc/morse/thermodynamics/isotensional/asymptotic/reduced/legendre/py.rs:110-113 *)
Definition relative_helmholtz_free_energy_per_link (self : t T) (force : ndarray T) (temperature :
    T) : ndarray T :=
  mapv (fun force =>
      morse_isotensional_asymptotic_reduced_legendre.relative_helmholtz_free_energy_per_link
      (link_length self) (link_stiffness self) (link_energy self) force temperature) force.

(* /repo/src/physics/single_chain/ufjc/morse/thermodynamics/isotensional/asymptotic/reduced/legendre/py.rs:123-126 *)
Definition nondimensional_helmholtz_free_energy (self : t T) (nondimensional_force : ndarray T)
    (temperature : T) : ndarray T :=
  mapv (fun nondimensional_force =>
      morse_isotensional_asymptotic_reduced_legendre.nondimensional_helmholtz_free_energy
      (number_of_links self) (link_length self) (hinge_mass self) (link_stiffness self * spowi
      (link_length self) 2 / BOLTZMANN_CONSTANT / temperature) (link_energy self /
      BOLTZMANN_CONSTANT / temperature) nondimensional_force temperature) nondimensional_force.

(* /repo/src/physics/single_chain/ufjc/morse/thermodynamics/isotensional/asymptotic/reduced/legendre/py.rs:136-139 *)
Definition nondimensional_helmholtz_free_energy_per_link (self : t T) (nondimensional_force :
    ndarray T) (temperature : T) : ndarray T :=
  mapv (fun nondimensional_force =>
      morse_isotensional_asymptotic_reduced_legendre.nondimensional_helmholtz_free_energy_per_link
      (link_length self) (hinge_mass self) (link_stiffness self * spowi (link_length self) 2 /
      BOLTZMANN_CONSTANT / temperature) (link_energy self / BOLTZMANN_CONSTANT / temperature)
      nondimensional_force temperature) nondimensional_force.

(* /repo/src/physics/single_chain/ufjc/morse/thermodynamics/isotensional/asymptotic/reduced/legendre/py.rs:149-152 *)
Definition nondimensional_relative_helmholtz_free_energy (self : t T) (nondimensional_force :
    ndarray T) (temperature : T) : ndarray T :=
  mapv (fun nondimensional_force =>
      morse_isotensional_asymptotic_reduced_legendre.nondimensional_relative_helmholtz_free_energy
      (number_of_links self) (link_stiffness self * spowi (link_length self) 2 / BOLTZMANN_CONSTANT
      / temperature) (link_energy self / BOLTZMANN_CONSTANT / temperature) nondimensional_force)
      nondimensional_force.

(* /repo/src/physics/single_chain/ufjc/morse/thermodynamics/isotensional/asymptotic/reduced/legendre/py.rs:162-165 *)
Definition nondimensional_relative_helmholtz_free_energy_per_link (self : t T) (nondimensional_force
    : ndarray T) (temperature : T) : ndarray T :=
  mapv (fun nondimensional_force =>
      morse_isotensional_asymptotic_reduced_legendre.nondimensional_relative_helmholtz_free_energy_per_link
      (link_stiffness self * spowi (link_length self) 2 / BOLTZMANN_CONSTANT / temperature)
      (link_energy self / BOLTZMANN_CONSTANT / temperature) nondimensional_force)
      nondimensional_force.

End Model.
End P_morse_isotensional_asymptotic_reduced_legendre.

(** /repo/src/physics/single_chain/efjc/thermodynamics/isometric/asymptotic/alternative/legendre/py.rs: class EFJC *)
Module P_efjc_isometric_asymptotic_alternative_legendre.
(* /repo/src/physics/single_chain/efjc/thermodynamics/isometric/asymptotic/alternative/legendre/py.rs:21-38 *)
Record t {T : Type} := { hinge_mass : T; link_length : T; number_of_links : Z; link_stiffness : T }.
Arguments t : clear implicits.
Section Model.
Context {T : Type} {Sc : Scalar T}.

(* /repo/src/physics/single_chain/efjc/thermodynamics/isometric/asymptotic/alternative/legendre/py.rs:44-53 *)
Definition init (number_of_links : Z) (link_length : T) (hinge_mass : T) (link_stiffness : T) : t T
    :=
  {| hinge_mass := hinge_mass; link_length := link_length; number_of_links := number_of_links;
      link_stiffness := link_stiffness |}.

(* /repo/src/physics/single_chain/efjc/thermodynamics/isometric/asymptotic/alternative/legendre/py.rs:63-66 *)
Definition force (self : t T) (end_to_end_length : ndarray T) (temperature : T) : ndarray T :=
  mapv (fun end_to_end_length => efjc_isometric_asymptotic_alternative_legendre.force
      (number_of_links self) (link_length self) (link_stiffness self) end_to_end_length temperature)
      end_to_end_length.

(* /repo/src/physics/single_chain/efjc/thermodynamics/isometric/asymptotic/alternative/legendre/py.rs:75-78 *)
Definition nondimensional_force (self : t T) (nondimensional_end_to_end_length_per_link : ndarray T)
    (temperature : T) : ndarray T :=
  mapv (fun nondimensional_end_to_end_length_per_link =>
      efjc_isometric_asymptotic_alternative_legendre.nondimensional_force (link_stiffness self *
      spowi (link_length self) 2 / BOLTZMANN_CONSTANT / temperature)
      nondimensional_end_to_end_length_per_link) nondimensional_end_to_end_length_per_link.

(* /repo/src/physics/single_chain/efjc/thermodynamics/isometric/asymptotic/alternative/legendre/py.rs:93-96 *)
Definition helmholtz_free_energy (self : t T) (end_to_end_length : ndarray T) (temperature : T) :
    ndarray T :=
  mapv (fun end_to_end_length =>
      efjc_isometric_asymptotic_alternative_legendre.helmholtz_free_energy (number_of_links self)
      (link_length self) (hinge_mass self) (link_stiffness self) end_to_end_length temperature)
      end_to_end_length.

(* /repo/src/physics/single_chain/efjc/thermodynamics/isometric/asymptotic/alternative/legendre/py.rs:106-109 *)
Definition helmholtz_free_energy_per_link (self : t T) (end_to_end_length : ndarray T) (temperature
    : T) : ndarray T :=
  mapv (fun end_to_end_length =>
      efjc_isometric_asymptotic_alternative_legendre.helmholtz_free_energy_per_link (number_of_links
      self) (link_length self) (hinge_mass self) (link_stiffness self) end_to_end_length
      temperature) end_to_end_length.

(* /repo/src/physics/single_chain/efjc/thermodynamics/isometric/asymptotic/alternative/legendre/py.rs:119-122 *)
Definition relative_helmholtz_free_energy (self : t T) (end_to_end_length : ndarray T) (temperature
    : T) : ndarray T :=
  mapv (fun end_to_end_length =>
      efjc_isometric_asymptotic_alternative_legendre.relative_helmholtz_free_energy (number_of_links
      self) (link_length self) (link_stiffness self) end_to_end_length temperature)
      end_to_end_length.

(* /repo/src/physics/single_chain/efjc/thermodynamics/isometric/asymptotic/alternative/legendre/py.rs:132-135 *)
Definition relative_helmholtz_free_energy_per_link (self : t T) (end_to_end_length : ndarray T)
    (temperature : T) : ndarray T :=
  mapv (fun end_to_end_length =>
      efjc_isometric_asymptotic_alternative_legendre.relative_helmholtz_free_energy_per_link
      (number_of_links self) (link_length self) (link_stiffness self) end_to_end_length temperature)
      end_to_end_length.

(* /repo/src/physics/single_chain/efjc/thermodynamics/isometric/asymptotic/alternative/legendre/py.rs:145-148 *)
Definition nondimensional_helmholtz_free_energy (self : t T)
    (nondimensional_end_to_end_length_per_link : ndarray T) (temperature : T) : ndarray T :=
  mapv (fun nondimensional_end_to_end_length_per_link =>
      efjc_isometric_asymptotic_alternative_legendre.nondimensional_helmholtz_free_energy
      (number_of_links self) (link_length self) (hinge_mass self) (link_stiffness self * spowi
      (link_length self) 2 / BOLTZMANN_CONSTANT / temperature)
      nondimensional_end_to_end_length_per_link temperature)
      nondimensional_end_to_end_length_per_link.

(* /repo/src/physics/single_chain/efjc/thermodynamics/isometric/asymptotic/alternative/legendre/py.rs:158-161 *)
Definition nondimensional_helmholtz_free_energy_per_link (self : t T)
    (nondimensional_end_to_end_length_per_link : ndarray T) (temperature : T) : ndarray T :=
  mapv (fun nondimensional_end_to_end_length_per_link =>
      efjc_isometric_asymptotic_alternative_legendre.nondimensional_helmholtz_free_energy_per_link
      (number_of_links self) (link_length self) (hinge_mass self) (link_stiffness self * spowi
      (link_length self) 2 / BOLTZMANN_CONSTANT / temperature)
      nondimensional_end_to_end_length_per_link temperature)
      nondimensional_end_to_end_length_per_link.

(* /repo/src/physics/single_chain/efjc/thermodynamics/isometric/asymptotic/alternative/legendre/py.rs:170-173 *)
Definition nondimensional_relative_helmholtz_free_energy (self : t T)
    (nondimensional_end_to_end_length_per_link : ndarray T) (temperature : T) : ndarray T :=
  mapv (fun nondimensional_end_to_end_length_per_link =>
      efjc_isometric_asymptotic_alternative_legendre.nondimensional_relative_helmholtz_free_energy
      (number_of_links self) (link_stiffness self * spowi (link_length self) 2 / BOLTZMANN_CONSTANT
      / temperature) nondimensional_end_to_end_length_per_link)
      nondimensional_end_to_end_length_per_link.

(* /repo/src/physics/single_chain/efjc/thermodynamics/isometric/asymptotic/alternative/legendre/py.rs:182-185 *)
Definition nondimensional_relative_helmholtz_free_energy_per_link (self : t T)
    (nondimensional_end_to_end_length_per_link : ndarray T) (temperature : T) : ndarray T :=
  mapv (fun nondimensional_end_to_end_length_per_link =>
      efjc_isometric_asymptotic_alternative_legendre.nondimensional_relative_helmholtz_free_energy_per_link
      (link_stiffness self * spowi (link_length self) 2 / BOLTZMANN_CONSTANT / temperature)
      nondimensional_end_to_end_length_per_link) nondimensional_end_to_end_length_per_link.

End Model.
End P_efjc_isometric_asymptotic_alternative_legendre.

(** /repo/src/physics/single_chain/efjc/thermodynamics/isometric/asymptotic/reduced/legendre/py.rs: class EFJC *)
Module P_efjc_isometric_asymptotic_reduced_legendre.
(* /repo/src/physics/single_chain/efjc/thermodynamics/isometric/asymptotic/reduced/legendre/py.rs:21-38 *)
Record t {T : Type} := { hinge_mass : T; link_length : T; number_of_links : Z; link_stiffness : T }.
Arguments t : clear implicits.
Section Model.
Context {T : Type} {Sc : Scalar T}.

(* /repo/src/physics/single_chain/efjc/thermodynamics/isometric/asymptotic/reduced/legendre/py.rs:44-53 *)
Definition init (number_of_links : Z) (link_length : T) (hinge_mass : T) (link_stiffness : T) : t T
    :=
  {| hinge_mass := hinge_mass; link_length := link_length; number_of_links := number_of_links;
      link_stiffness := link_stiffness |}.

(* /repo/src/physics/single_chain/efjc/thermodynamics/isometric/asymptotic/reduced/legendre/py.rs:63-66 *)
Definition force (self : t T) (end_to_end_length : ndarray T) (temperature : T) : ndarray T :=
  mapv (fun end_to_end_length => efjc_isometric_asymptotic_reduced_legendre.force (number_of_links
      self) (link_length self) (link_stiffness self) end_to_end_length temperature)
      end_to_end_length.

(* /repo/src/physics/single_chain/efjc/thermodynamics/isometric/asymptotic/reduced/legendre/py.rs:75-78 *)
Definition nondimensional_force (self : t T) (nondimensional_end_to_end_length_per_link : ndarray T)
    (temperature : T) : ndarray T :=
  mapv (fun nondimensional_end_to_end_length_per_link =>
      efjc_isometric_asymptotic_reduced_legendre.nondimensional_force (link_stiffness self * spowi
      (link_length self) 2 / BOLTZMANN_CONSTANT / temperature)
      nondimensional_end_to_end_length_per_link) nondimensional_end_to_end_length_per_link.

(* /repo/src/physics/single_chain/efjc/thermodynamics/isometric/asymptotic/reduced/legendre/py.rs:93-96 *)
Definition helmholtz_free_energy (self : t T) (end_to_end_length : ndarray T) (temperature : T) :
    ndarray T :=
  mapv (fun end_to_end_length => efjc_isometric_asymptotic_reduced_legendre.helmholtz_free_energy
      (number_of_links self) (link_length self) (hinge_mass self) (link_stiffness self)
      end_to_end_length temperature) end_to_end_length.

(* /repo/src/physics/single_chain/efjc/thermodynamics/isometric/asymptotic/reduced/legendre/py.rs:106-109 *)
Definition helmholtz_free_energy_per_link (self : t T) (end_to_end_length : ndarray T) (temperature
    : T) : ndarray T :=
  mapv (fun end_to_end_length =>
      efjc_isometric_asymptotic_reduced_legendre.helmholtz_free_energy_per_link (number_of_links
      self) (link_length self) (hinge_mass self) (link_stiffness self) end_to_end_length
      temperature) end_to_end_length.

(* /repo/src/physics/single_chain/efjc/thermodynamics/isometric/asymptotic/reduced/legendre/py.rs:119-122 *)
Definition relative_helmholtz_free_energy (self : t T) (end_to_end_length : ndarray T) (temperature
    : T) : ndarray T :=
  mapv (fun end_to_end_length =>
      efjc_isometric_asymptotic_reduced_legendre.relative_helmholtz_free_energy (number_of_links
      self) (link_length self) (link_stiffness self) end_to_end_length temperature)
      end_to_end_length.

(* /repo/src/physics/single_chain/efjc/thermodynamics/isometric/asymptotic/reduced/legendre/py.rs:132-135 *)
Definition relative_helmholtz_free_energy_per_link (self : t T) (end_to_end_length : ndarray T)
    (temperature : T) : ndarray T :=
  mapv (fun end_to_end_length =>
      efjc_isometric_asymptotic_reduced_legendre.relative_helmholtz_free_energy_per_link
      (number_of_links self) (link_length self) (link_stiffness self) end_to_end_length temperature)
      end_to_end_length.

(* /repo/src/physics/single_chain/efjc/thermodynamics/isometric/asymptotic/reduced/legendre/py.rs:145-148 *)
Definition nondimensional_helmholtz_free_energy (self : t T)
    (nondimensional_end_to_end_length_per_link : ndarray T) (temperature : T) : ndarray T :=
  mapv (fun nondimensional_end_to_end_length_per_link =>
      efjc_isometric_asymptotic_reduced_legendre.nondimensional_helmholtz_free_energy
      (number_of_links self) (link_length self) (hinge_mass self) (link_stiffness self * spowi
      (link_length self) 2 / BOLTZMANN_CONSTANT / temperature)
      nondimensional_end_to_end_length_per_link temperature)
      nondimensional_end_to_end_length_per_link.

(* /repo/src/physics/single_chain/efjc/thermodynamics/isometric/asymptotic/reduced/legendre/py.rs:158-161 *)
Definition nondimensional_helmholtz_free_energy_per_link (self : t T)
    (nondimensional_end_to_end_length_per_link : ndarray T) (temperature : T) : ndarray T :=
  mapv (fun nondimensional_end_to_end_length_per_link =>
      efjc_isometric_asymptotic_reduced_legendre.nondimensional_helmholtz_free_energy_per_link
      (number_of_links self) (link_length self) (hinge_mass self) (link_stiffness self * spowi
      (link_length self) 2 / BOLTZMANN_CONSTANT / temperature)
      nondimensional_end_to_end_length_per_link temperature)
      nondimensional_end_to_end_length_per_link.

(* /repo/src/physics/single_chain/efjc/thermodynamics/isometric/asymptotic/reduced/legendre/py.rs:170-173 *)
Definition nondimensional_relative_helmholtz_free_energy (self : t T)
    (nondimensional_end_to_end_length_per_link : ndarray T) (temperature : T) : ndarray T :=
  mapv (fun nondimensional_end_to_end_length_per_link =>
      efjc_isometric_asymptotic_reduced_legendre.nondimensional_relative_helmholtz_free_energy
      (number_of_links self) (link_stiffness self * spowi (link_length self) 2 / BOLTZMANN_CONSTANT
      / temperature) nondimensional_end_to_end_length_per_link)
      nondimensional_end_to_end_length_per_link.

(* /repo/src/physics/single_chain/efjc/thermodynamics/isometric/asymptotic/reduced/legendre/py.rs:182-185 *)
Definition nondimensional_relative_helmholtz_free_energy_per_link (self : t T)
    (nondimensional_end_to_end_length_per_link : ndarray T) (temperature : T) : ndarray T :=
  mapv (fun nondimensional_end_to_end_length_per_link =>
      efjc_isometric_asymptotic_reduced_legendre.nondimensional_relative_helmholtz_free_energy_per_link
      (link_stiffness self * spowi (link_length self) 2 / BOLTZMANN_CONSTANT / temperature)
      nondimensional_end_to_end_length_per_link) nondimensional_end_to_end_length_per_link.

End Model.
End P_efjc_isometric_asymptotic_reduced_legendre.

(** /repo/src/physics/single_chain/efjc/thermodynamics/isotensional/asymptotic/alternative/legendre/py.rs: class EFJC *)
Module P_efjc_isotensional_asymptotic_alternative_legendre.
(* /repo/src/physics/single_chain/efjc/thermodynamics/isotensional/asymptotic/alternative/legendre/py.rs:21-38 *)
Record t {T : Type} := { hinge_mass : T; link_length : T; number_of_links : Z; link_stiffness : T }.
Arguments t : clear implicits.
Section Model.
Context {T : Type} {Sc : Scalar T}.

(* /repo/src/physics/single_chain/efjc/thermodynamics/isotensional/asymptotic/alternative/legendre/py.rs:44-53 *)
Definition init (number_of_links : Z) (link_length : T) (hinge_mass : T) (link_stiffness : T) : t T
    :=
  {| hinge_mass := hinge_mass; link_length := link_length; number_of_links := number_of_links;
      link_stiffness := link_stiffness |}.

(* /repo/src/physics/single_chain/efjc/thermodynamics/isotensional/asymptotic/alternative/legendre/py.rs:66-69 *)
Definition helmholtz_free_energy (self : t T) (force : ndarray T) (temperature : T) : ndarray T :=
  mapv (fun force => efjc_isotensional_asymptotic_alternative_legendre.helmholtz_free_energy
      (number_of_links self) (link_length self) (hinge_mass self) (link_stiffness self) force
      temperature) force.

(* /repo/src/physics/single_chain/efjc/thermodynamics/isotensional/asymptotic/alternative/legendre/py.rs:79-82 *)
Definition helmholtz_free_energy_per_link (self : t T) (force : ndarray T) (temperature : T) :
    ndarray T :=
  mapv (fun force =>
      efjc_isotensional_asymptotic_alternative_legendre.helmholtz_free_energy_per_link (link_length
      self) (hinge_mass self) (link_stiffness self) force temperature) force.

(* /repo/src/physics/single_chain/efjc/thermodynamics/isotensional/asymptotic/alternative/legendre/py.rs:92-95 *)
Definition relative_helmholtz_free_energy (self : t T) (force : ndarray T) (temperature : T) :
    ndarray T :=
  mapv (fun force =>
      efjc_isotensional_asymptotic_alternative_legendre.relative_helmholtz_free_energy
      (number_of_links self) (link_length self) (link_stiffness self) force temperature) force.

(* /repo/src/physics/single_chain/efjc/thermodynamics/isotensional/asymptotic/alternative/legendre/py.rs:105-108 *)
Definition relative_helmholtz_free_energy_per_link (self : t T) (force : ndarray T) (temperature :
    T) : ndarray T :=
  mapv (fun force =>
      efjc_isotensional_asymptotic_alternative_legendre.relative_helmholtz_free_energy_per_link
      (link_length self) (link_stiffness self) force temperature) force.

(* /repo/src/physics/single_chain/efjc/thermodynamics/isotensional/asymptotic/alternative/legendre/py.rs:118-121 *)
Definition nondimensional_helmholtz_free_energy (self : t T) (nondimensional_force : ndarray T)
    (temperature : T) : ndarray T :=
  mapv (fun nondimensional_force =>
      efjc_isotensional_asymptotic_alternative_legendre.nondimensional_helmholtz_free_energy
      (number_of_links self) (link_length self) (hinge_mass self) (link_stiffness self * spowi
      (link_length self) 2 / BOLTZMANN_CONSTANT / temperature) nondimensional_force temperature)
      nondimensional_force.

(* /repo/src/physics/single_chain/efjc/thermodynamics/isotensional/asymptotic/alternative/legendre/py.rs:131-134 *)
Definition nondimensional_helmholtz_free_energy_per_link (self : t T) (nondimensional_force :
    ndarray T) (temperature : T) : ndarray T :=
  mapv (fun nondimensional_force =>
      efjc_isotensional_asymptotic_alternative_legendre.nondimensional_helmholtz_free_energy_per_link
      (link_length self) (hinge_mass self) (link_stiffness self * spowi (link_length self) 2 /
      BOLTZMANN_CONSTANT / temperature) nondimensional_force temperature) nondimensional_force.

(* /repo/src/physics/single_chain/efjc/thermodynamics/isotensional/asymptotic/alternative/legendre/py.rs:144-147 *)
Definition nondimensional_relative_helmholtz_free_energy (self : t T) (nondimensional_force :
    ndarray T) (temperature : T) : ndarray T :=
  mapv (fun nondimensional_force =>
      efjc_isotensional_asymptotic_alternative_legendre.nondimensional_relative_helmholtz_free_energy
      (number_of_links self) (link_stiffness self * spowi (link_length self) 2 / BOLTZMANN_CONSTANT
      / temperature) nondimensional_force) nondimensional_force.

(* /repo/src/physics/single_chain/efjc/thermodynamics/isotensional/asymptotic/alternative/legendre/py.rs:157-160 *)
Definition nondimensional_relative_helmholtz_free_energy_per_link (self : t T) (nondimensional_force
    : ndarray T) (temperature : T) : ndarray T :=
  mapv (fun nondimensional_force =>
      efjc_isotensional_asymptotic_alternative_legendre.nondimensional_relative_helmholtz_free_energy_per_link
      (link_stiffness self * spowi (link_length self) 2 / BOLTZMANN_CONSTANT / temperature)
      nondimensional_force) nondimensional_force.

End Model.
End P_efjc_isotensional_asymptotic_alternative_legendre.

(** /repo/src/physics/single_chain/efjc/thermodynamics/isotensional/asymptotic/reduced/legendre/py.rs: class EFJC *)
Module P_efjc_isotensional_asymptotic_reduced_legendre.
(* /repo/src/physics/single_chain/efjc/thermodynamics/isotensional/asymptotic/reduced/legendre/py.rs:21-38 *)
Record t {T : Type} := { hinge_mass : T; link_length : T; number_of_links : Z; link_stiffness : T }.
Arguments t : clear implicits.
Section Model.
Context {T : Type} {Sc : Scalar T}.

(* /repo/src/physics/single_chain/efjc/thermodynamics/isotensional/asymptotic/reduced/legendre/py.rs:44-53 *)
Definition init (number_of_links : Z) (link_length : T) (hinge_mass : T) (link_stiffness : T) : t T
    :=
  {| hinge_mass := hinge_mass; link_length := link_length; number_of_links := number_of_links;
      link_stiffness := link_stiffness |}.

(* /repo/src/physics/single_chain/efjc/thermodynamics/isotensional/asymptotic/reduced/legendre/py.rs:66-69 *)
Definition helmholtz_free_energy (self : t T) (force : ndarray T) (temperature : T) : ndarray T :=
  mapv (fun force => efjc_isotensional_asymptotic_reduced_legendre.helmholtz_free_energy
      (number_of_links self) (link_length self) (hinge_mass self) (link_stiffness self) force
      temperature) force.

(* /repo/src/physics/single_chain/efjc/thermodynamics/isotensional/asymptotic/reduced/legendre/py.rs:79-82 *)
Definition helmholtz_free_energy_per_link (self : t T) (force : ndarray T) (temperature : T) :
    ndarray T :=
  mapv (fun force => efjc_isotensional_asymptotic_reduced_legendre.helmholtz_free_energy_per_link
      (link_length self) (hinge_mass self) (link_stiffness self) force temperature) force.

(* /repo/src/physics/single_chain/efjc/thermodynamics/isotensional/asymptotic/reduced/legendre/py.rs:92-95 *)
Definition relative_helmholtz_free_energy (self : t T) (force : ndarray T) (temperature : T) :
    ndarray T :=
  mapv (fun force => efjc_isotensional_asymptotic_reduced_legendre.relative_helmholtz_free_energy
      (number_of_links self) (link_length self) (link_stiffness self) force temperature) force.

(* /repo/src/physics/single_chain/efjc/thermodynamics/isotensional/asymptotic/reduced/legendre/py.rs:105-108 *)
Definition relative_helmholtz_free_energy_per_link (self : t T) (force : ndarray T) (temperature :
    T) : ndarray T :=
  mapv (fun force =>
      efjc_isotensional_asymptotic_reduced_legendre.relative_helmholtz_free_energy_per_link
      (link_length self) (link_stiffness self) force temperature) force.

(* /repo/src/physics/single_chain/efjc/thermodynamics/isotensional/asymptotic/reduced/legendre/py.rs:118-121 *)
Definition nondimensional_helmholtz_free_energy (self : t T) (nondimensional_force : ndarray T)
    (temperature : T) : ndarray T :=
  mapv (fun nondimensional_force =>
      efjc_isotensional_asymptotic_reduced_legendre.nondimensional_helmholtz_free_energy
      (number_of_links self) (link_length self) (hinge_mass self) (link_stiffness self * spowi
      (link_length self) 2 / BOLTZMANN_CONSTANT / temperature) nondimensional_force temperature)
      nondimensional_force.

(* /repo/src/physics/single_chain/efjc/thermodynamics/isotensional/asymptotic/reduced/legendre/py.rs:131-134 *)
Definition nondimensional_helmholtz_free_energy_per_link (self : t T) (nondimensional_force :
    ndarray T) (temperature : T) : ndarray T :=
  mapv (fun nondimensional_force =>
      efjc_isotensional_asymptotic_reduced_legendre.nondimensional_helmholtz_free_energy_per_link
      (link_length self) (hinge_mass self) (link_stiffness self * spowi (link_length self) 2 /
      BOLTZMANN_CONSTANT / temperature) nondimensional_force temperature) nondimensional_force.

(* /repo/src/physics/single_chain/efjc/thermodynamics/isotensional/asymptotic/reduced/legendre/py.rs:144-147 *)
Definition nondimensional_relative_helmholtz_free_energy (self : t T) (nondimensional_force :
    ndarray T) (temperature : T) : ndarray T :=
  mapv (fun nondimensional_force =>
      efjc_isotensional_asymptotic_reduced_legendre.nondimensional_relative_helmholtz_free_energy
      (number_of_links self) (link_stiffness self * spowi (link_length self) 2 / BOLTZMANN_CONSTANT
      / temperature) nondimensional_force) nondimensional_force.

(* /repo/src/physics/single_chain/efjc/thermodynamics/isotensional/asymptotic/reduced/legendre/py.rs:157-160 *)
Definition nondimensional_relative_helmholtz_free_energy_per_link (self : t T) (nondimensional_force
    : ndarray T) (temperature : T) : ndarray T :=
  mapv (fun nondimensional_force =>
      efjc_isotensional_asymptotic_reduced_legendre.nondimensional_relative_helmholtz_free_energy_per_link
      (link_stiffness self * spowi (link_length self) 2 / BOLTZMANN_CONSTANT / temperature)
      nondimensional_force) nondimensional_force.

End Model.
End P_efjc_isotensional_asymptotic_reduced_legendre.

(** /repo/src/physics/single_chain/ufjc/lennard_jones/thermodynamics/isometric/asymptotic/legendre/py.rs: class LENNARDJONESFJC *)
Module P_lennard_jones_isometric_asymptotic_legendre.
(* /repo/src/physics/single_chain/ufjc/lennard_jones/thermodynamics/isometric/asymptotic/legendre/py.rs:21-38 *)
Record t {T : Type} := { hinge_mass : T; link_length : T; number_of_links : Z; link_stiffness : T }.
Arguments t : clear implicits.
Section Model.
Context {T : Type} {Sc : Scalar T}.

(* /repo/src/physics/single_chain/ufjc/lennard_jones/thermodynamics/isometric/asymptotic/legendre/py.rs:44-53 *)
Definition init (number_of_links : Z) (link_length : T) (hinge_mass : T) (link_stiffness : T) : t T
    :=
  {| hinge_mass := hinge_mass; link_length := link_length; number_of_links := number_of_links;
      link_stiffness := link_stiffness |}.

(* /repo/src/physics/single_chain/ufjc/lennard_jones/thermodynamics/isometric/asymptotic/legendre/py.rs:63-66 *)
Definition force (self : t T) (end_to_end_length : ndarray T) (temperature : T) : ndarray T :=
  mapv (fun end_to_end_length => lennard_jones_isometric_asymptotic_legendre.force (number_of_links
      self) (link_length self) (link_stiffness self) end_to_end_length temperature)
      end_to_end_length.

(* /repo/src/physics/single_chain/ufjc/lennard_jones/thermodynamics/isometric/asymptotic/legendre/py.rs:75-78 *)
Definition nondimensional_force (self : t T) (nondimensional_end_to_end_length_per_link : ndarray T)
    (temperature : T) : ndarray T :=
  mapv (fun nondimensional_end_to_end_length_per_link =>
      lennard_jones_isometric_asymptotic_legendre.nondimensional_force (link_stiffness self * spowi
      (link_length self) 2 / BOLTZMANN_CONSTANT / temperature)
      nondimensional_end_to_end_length_per_link) nondimensional_end_to_end_length_per_link.

(* /repo/src/physics/single_chain/ufjc/lennard_jones/thermodynamics/isometric/asymptotic/legendre/py.rs:93-96 *)
Definition helmholtz_free_energy (self : t T) (end_to_end_length : ndarray T) (temperature : T) :
    ndarray T :=
  mapv (fun end_to_end_length => lennard_jones_isometric_asymptotic_legendre.helmholtz_free_energy
      (number_of_links self) (link_length self) (hinge_mass self) (link_stiffness self)
      end_to_end_length temperature) end_to_end_length.

(* /repo/src/physics/single_chain/ufjc/lennard_jones/thermodynamics/isometric/asymptotic/legendre/py.rs:106-109 *)
Definition helmholtz_free_energy_per_link (self : t T) (end_to_end_length : ndarray T) (temperature
    : T) : ndarray T :=
  mapv (fun end_to_end_length =>
      lennard_jones_isometric_asymptotic_legendre.helmholtz_free_energy_per_link (number_of_links
      self) (link_length self) (hinge_mass self) (link_stiffness self) end_to_end_length
      temperature) end_to_end_length.

(* /repo/src/physics/single_chain/ufjc/lennard_jones/thermodynamics/isometric/asymptotic/legendre/py.rs:119-122 *)
Definition relative_helmholtz_free_energy (self : t T) (end_to_end_length : ndarray T) (temperature
    : T) : ndarray T :=
  mapv (fun end_to_end_length =>
      lennard_jones_isometric_asymptotic_legendre.relative_helmholtz_free_energy (number_of_links
      self) (link_length self) (link_stiffness self) end_to_end_length temperature)
      end_to_end_length.

(* /repo/src/physics/single_chain/ufjc/lennard_jones/thermodynamics/isometric/asymptotic/legendre/py.rs:132-135 *)
Definition relative_helmholtz_free_energy_per_link (self : t T) (end_to_end_length : ndarray T)
    (temperature : T) : ndarray T :=
  mapv (fun end_to_end_length =>
      lennard_jones_isometric_asymptotic_legendre.relative_helmholtz_free_energy_per_link
      (number_of_links self) (link_length self) (link_stiffness self) end_to_end_length temperature)
      end_to_end_length.

(* /repo/src/physics/single_chain/ufjc/lennard_jones/thermodynamics/isometric/asymptotic/legendre/py.rs:145-148 *)
Definition nondimensional_helmholtz_free_energy (self : t T)
    (nondimensional_end_to_end_length_per_link : ndarray T) (temperature : T) : ndarray T :=
  mapv (fun nondimensional_end_to_end_length_per_link =>
      lennard_jones_isometric_asymptotic_legendre.nondimensional_helmholtz_free_energy
      (number_of_links self) (link_length self) (hinge_mass self) (link_stiffness self * spowi
      (link_length self) 2 / BOLTZMANN_CONSTANT / temperature)
      nondimensional_end_to_end_length_per_link temperature)
      nondimensional_end_to_end_length_per_link.

(* /repo/src/physics/single_chain/ufjc/lennard_jones/thermodynamics/isometric/asymptotic/legendre/py.rs:158-161 *)
Definition nondimensional_helmholtz_free_energy_per_link (self : t T)
    (nondimensional_end_to_end_length_per_link : ndarray T) (temperature : T) : ndarray T :=
  mapv (fun nondimensional_end_to_end_length_per_link =>
      lennard_jones_isometric_asymptotic_legendre.nondimensional_helmholtz_free_energy_per_link
      (number_of_links self) (link_length self) (hinge_mass self) (link_stiffness self * spowi
      (link_length self) 2 / BOLTZMANN_CONSTANT / temperature)
      nondimensional_end_to_end_length_per_link temperature)
      nondimensional_end_to_end_length_per_link.

(* /repo/src/physics/single_chain/ufjc/lennard_jones/thermodynamics/isometric/asymptotic/legendre/py.rs:170-173 *)
Definition nondimensional_relative_helmholtz_free_energy (self : t T)
    (nondimensional_end_to_end_length_per_link : ndarray T) (temperature : T) : ndarray T :=
  mapv (fun nondimensional_end_to_end_length_per_link =>
      lennard_jones_isometric_asymptotic_legendre.nondimensional_relative_helmholtz_free_energy
      (number_of_links self) (link_stiffness self * spowi (link_length self) 2 / BOLTZMANN_CONSTANT
      / temperature) nondimensional_end_to_end_length_per_link)
      nondimensional_end_to_end_length_per_link.

(* /repo/src/physics/single_chain/ufjc/lennard_jones/thermodynamics/isometric/asymptotic/legendre/py.rs:182-185 *)
Definition nondimensional_relative_helmholtz_free_energy_per_link (self : t T)
    (nondimensional_end_to_end_length_per_link : ndarray T) (temperature : T) : ndarray T :=
  mapv (fun nondimensional_end_to_end_length_per_link =>
      lennard_jones_isometric_asymptotic_legendre.nondimensional_relative_helmholtz_free_energy_per_link
      (link_stiffness self * spowi (link_length self) 2 / BOLTZMANN_CONSTANT / temperature)
      nondimensional_end_to_end_length_per_link) nondimensional_end_to_end_length_per_link.

End Model.
End P_lennard_jones_isometric_asymptotic_legendre.

(** /repo/src/physics/single_chain/ufjc/lennard_jones/thermodynamics/isometric/asymptotic/reduced/py.rs: class LENNARDJONESFJC *)
Module P_lennard_jones_isometric_asymptotic_reduced.
(* /repo/src/physics/single_chain/ufjc/lennard_jones/thermodynamics/isometric/asymptotic/reduced/py.rs:15-36 *)
Record t {T : Type} := { hinge_mass : T; link_length : T; number_of_links : Z; link_stiffness : T; legendre : P_lennard_jones_isometric_asymptotic_reduced_legendre.t T }.
Arguments t : clear implicits.
Section Model.
Context {T : Type} {Sc : Scalar T}.

(* /repo/src/physics/single_chain/ufjc/lennard_jones/thermodynamics/isometric/asymptotic/reduced/py.rs:42-52 *)
Definition init (number_of_links : Z) (link_length : T) (hinge_mass : T) (link_stiffness : T) : t T
    :=
  {| hinge_mass := hinge_mass; link_length := link_length; number_of_links := number_of_links;
      link_stiffness := link_stiffness; legendre :=
      P_lennard_jones_isometric_asymptotic_reduced_legendre.init number_of_links link_length
      hinge_mass link_stiffness |}.

End Model.
End P_lennard_jones_isometric_asymptotic_reduced.

(** /repo/src/physics/single_chain/ufjc/lennard_jones/thermodynamics/isotensional/asymptotic/legendre/py.rs: class LENNARDJONESFJC *)
Module P_lennard_jones_isotensional_asymptotic_legendre.
(* /repo/src/physics/single_chain/ufjc/lennard_jones/thermodynamics/isotensional/asymptotic/legendre/py.rs:21-38 *)
Record t {T : Type} := { hinge_mass : T; link_length : T; number_of_links : Z; link_stiffness : T }.
Arguments t : clear implicits.
Section Model.
Context {T : Type} {Sc : Scalar T}.

(* /repo/src/physics/single_chain/ufjc/lennard_jones/thermodynamics/isotensional/asymptotic/legendre/py.rs:44-53 *)
Definition init (number_of_links : Z) (link_length : T) (hinge_mass : T) (link_stiffness : T) : t T
    :=
  {| hinge_mass := hinge_mass; link_length := link_length; number_of_links := number_of_links;
      link_stiffness := link_stiffness |}.

(* /repo/src/physics/single_chain/ufjc/lennard_jones/thermodynamics/isotensional/asymptotic/legendre/py.rs:66-69 *)
Definition helmholtz_free_energy (self : t T) (force : ndarray T) (temperature : T) : ndarray T :=
  mapv (fun force => lennard_jones_isotensional_asymptotic_legendre.helmholtz_free_energy
      (number_of_links self) (link_length self) (hinge_mass self) (link_stiffness self) force
      temperature) force.

(* /repo/src/physics/single_chain/ufjc/lennard_jones/thermodynamics/isotensional/asymptotic/legendre/py.rs:79-82 *)
Definition helmholtz_free_energy_per_link (self : t T) (force : ndarray T) (temperature : T) :
    ndarray T :=
  mapv (fun force => lennard_jones_isotensional_asymptotic_legendre.helmholtz_free_energy_per_link
      (link_length self) (hinge_mass self) (link_stiffness self) force temperature) force.

(* /repo/src/physics/single_chain/ufjc/lennard_jones/thermodynamics/isotensional/asymptotic/legendre/py.rs:92-95 *)
Definition relative_helmholtz_free_energy (self : t T) (force : ndarray T) (temperature : T) :
    ndarray T :=
  mapv (fun force => lennard_jones_isotensional_asymptotic_legendre.relative_helmholtz_free_energy
      (number_of_links self) (link_length self) (link_stiffness self) force temperature) force.

(* /repo/src/physics/single_chain/ufjc/lennard_jones/thermodynamics/isotensional/asymptotic/legendre/py.rs:105-108 *)
Definition relative_helmholtz_free_energy_per_link (self : t T) (force : ndarray T) (temperature :
    T) : ndarray T :=
  mapv (fun force =>
      lennard_jones_isotensional_asymptotic_legendre.relative_helmholtz_free_energy_per_link
      (link_length self) (link_stiffness self) force temperature) force.

(* /repo/src/physics/single_chain/ufjc/lennard_jones/thermodynamics/isotensional/asymptotic/legendre/py.rs:118-121 *)
Definition nondimensional_helmholtz_free_energy (self : t T) (nondimensional_force : ndarray T)
    (temperature : T) : ndarray T :=
  mapv (fun nondimensional_force =>
      lennard_jones_isotensional_asymptotic_legendre.nondimensional_helmholtz_free_energy
      (number_of_links self) (link_length self) (hinge_mass self) (link_stiffness self * spowi
      (link_length self) 2 / BOLTZMANN_CONSTANT / temperature) nondimensional_force temperature)
      nondimensional_force.

(* /repo/src/physics/single_chain/ufjc/lennard_jones/thermodynamics/isotensional/asymptotic/legendre/py.rs:131-134 *)
Definition nondimensional_helmholtz_free_energy_per_link (self : t T) (nondimensional_force :
    ndarray T) (temperature : T) : ndarray T :=
  mapv (fun nondimensional_force =>
      lennard_jones_isotensional_asymptotic_legendre.nondimensional_helmholtz_free_energy_per_link
      (link_length self) (hinge_mass self) (link_stiffness self * spowi (link_length self) 2 /
      BOLTZMANN_CONSTANT / temperature) nondimensional_force temperature) nondimensional_force.

(* /repo/src/physics/single_chain/ufjc/lennard_jones/thermodynamics/isotensional/asymptotic/legendre/py.rs:144-147 *)
Definition nondimensional_relative_helmholtz_free_energy (self : t T) (nondimensional_force :
    ndarray T) (temperature : T) : ndarray T :=
  mapv (fun nondimensional_force =>
      lennard_jones_isotensional_asymptotic_legendre.nondimensional_relative_helmholtz_free_energy
      (number_of_links self) (link_stiffness self * spowi (link_length self) 2 / BOLTZMANN_CONSTANT
      / temperature) nondimensional_force) nondimensional_force.

(* /repo/src/physics/single_chain/ufjc/lennard_jones/thermodynamics/isotensional/asymptotic/legendre/py.rs:157-160 *)
Definition nondimensional_relative_helmholtz_free_energy_per_link (self : t T) (nondimensional_force
    : ndarray T) (temperature : T) : ndarray T :=
  mapv (fun nondimensional_force =>
      lennard_jones_isotensional_asymptotic_legendre.nondimensional_relative_helmholtz_free_energy_per_link
      (link_stiffness self * spowi (link_length self) 2 / BOLTZMANN_CONSTANT / temperature)
      nondimensional_force) nondimensional_force.

End Model.
End P_lennard_jones_isotensional_asymptotic_legendre.

(** /repo/src/physics/single_chain/ufjc/lennard_jones/thermodynamics/isotensional/asymptotic/reduced/py.rs: class LENNARDJONESFJC *)
Module P_lennard_jones_isotensional_asymptotic_reduced.
(* /repo/src/physics/single_chain/ufjc/lennard_jones/thermodynamics/isotensional/asymptotic/reduced/py.rs:22-43 *)
Record t {T : Type} := { hinge_mass : T; link_length : T; number_of_links : Z; link_stiffness : T; legendre : P_lennard_jones_isotensional_asymptotic_reduced_legendre.t T }.
Arguments t : clear implicits.
Section Model.
Context {T : Type} {Sc : Scalar T}.

(* /repo/src/physics/single_chain/ufjc/lennard_jones/thermodynamics/isotensional/asymptotic/reduced/py.rs:49-59 *)
Definition init (number_of_links : Z) (link_length : T) (hinge_mass : T) (link_stiffness : T) : t T
    :=
  {| hinge_mass := hinge_mass; link_length := link_length; number_of_links := number_of_links;
      link_stiffness := link_stiffness; legendre :=
      P_lennard_jones_isotensional_asymptotic_reduced_legendre.init number_of_links link_length
      hinge_mass link_stiffness |}.

(* /repo/src/physics/single_chain/ufjc/lennard_jones/thermodynamics/isotensional/asymptotic/reduced/py.rs:72-75 *)
Definition end_to_end_length (self : t T) (force : ndarray T) (temperature : T) : ndarray T :=
  mapv (fun force => lennard_jones_isotensional_asymptotic_reduced.end_to_end_length
      (number_of_links self) (link_length self) (link_stiffness self) force temperature) force.

(* /repo/src/physics/single_chain/ufjc/lennard_jones/thermodynamics/isotensional/asymptotic/reduced/py.rs:85-88 *)
Definition end_to_end_length_per_link (self : t T) (force : ndarray T) (temperature : T) : ndarray T
    :=
  mapv (fun force => lennard_jones_isotensional_asymptotic_reduced.end_to_end_length_per_link
      (link_length self) (link_stiffness self) force temperature) force.

(* /repo/src/physics/single_chain/ufjc/lennard_jones/thermodynamics/isotensional/asymptotic/reduced/py.rs:98-101 *)
Definition nondimensional_end_to_end_length (self : t T) (nondimensional_force : ndarray T)
    (temperature : T) : ndarray T :=
  mapv (fun nondimensional_force =>
      lennard_jones_isotensional_asymptotic_reduced.nondimensional_end_to_end_length
      (number_of_links self) (link_stiffness self * spowi (link_length self) 2 / BOLTZMANN_CONSTANT
      / temperature) nondimensional_force) nondimensional_force.

(* /repo/src/physics/single_chain/ufjc/lennard_jones/thermodynamics/isotensional/asymptotic/reduced/py.rs:119-122 *)
Definition nondimensional_end_to_end_length_per_link (self : t T) (nondimensional_force : ndarray T)
    (temperature : T) : ndarray T :=
  mapv (fun nondimensional_force =>
      lennard_jones_isotensional_asymptotic_reduced.nondimensional_end_to_end_length_per_link
      (link_stiffness self * spowi (link_length self) 2 / BOLTZMANN_CONSTANT / temperature)
      nondimensional_force) nondimensional_force.

(* /repo/src/physics/single_chain/ufjc/lennard_jones/thermodynamics/isotensional/asymptotic/reduced/py.rs:135-138 *)
Definition gibbs_free_energy (self : t T) (force : ndarray T) (temperature : T) : ndarray T :=
  mapv (fun force => lennard_jones_isotensional_asymptotic_reduced.gibbs_free_energy
      (number_of_links self) (link_length self) (hinge_mass self) (link_stiffness self) force
      temperature) force.

(* /repo/src/physics/single_chain/ufjc/lennard_jones/thermodynamics/isotensional/asymptotic/reduced/py.rs:148-151 *)
Definition gibbs_free_energy_per_link (self : t T) (force : ndarray T) (temperature : T) : ndarray T
    :=
  mapv (fun force => lennard_jones_isotensional_asymptotic_reduced.gibbs_free_energy_per_link
      (link_length self) (hinge_mass self) (link_stiffness self) force temperature) force.

(* /repo/src/physics/single_chain/ufjc/lennard_jones/thermodynamics/isotensional/asymptotic/reduced/py.rs:161-164 *)
Definition relative_gibbs_free_energy (self : t T) (force : ndarray T) (temperature : T) : ndarray T
    :=
  mapv (fun force => lennard_jones_isotensional_asymptotic_reduced.relative_gibbs_free_energy
      (number_of_links self) (link_length self) (link_stiffness self) force temperature) force.

(* /repo/src/physics/single_chain/ufjc/lennard_jones/thermodynamics/isotensional/asymptotic/reduced/py.rs:174-177 *)
Definition relative_gibbs_free_energy_per_link (self : t T) (force : ndarray T) (temperature : T) :
    ndarray T :=
  mapv (fun force =>
      lennard_jones_isotensional_asymptotic_reduced.relative_gibbs_free_energy_per_link (link_length
      self) (link_stiffness self) force temperature) force.

(* /repo/src/physics/single_chain/ufjc/lennard_jones/thermodynamics/isotensional/asymptotic/reduced/py.rs:187-190 *)
Definition nondimensional_gibbs_free_energy (self : t T) (nondimensional_force : ndarray T)
    (temperature : T) : ndarray T :=
  mapv (fun nondimensional_force =>
      lennard_jones_isotensional_asymptotic_reduced.nondimensional_gibbs_free_energy
      (number_of_links self) (link_length self) (hinge_mass self) (link_stiffness self * spowi
      (link_length self) 2 / BOLTZMANN_CONSTANT / temperature) nondimensional_force temperature)
      nondimensional_force.

(* /repo/src/physics/single_chain/ufjc/lennard_jones/thermodynamics/isotensional/asymptotic/reduced/py.rs:200-203 *)
Definition nondimensional_gibbs_free_energy_per_link (self : t T) (nondimensional_force : ndarray T)
    (temperature : T) : ndarray T :=
  mapv (fun nondimensional_force =>
      lennard_jones_isotensional_asymptotic_reduced.nondimensional_gibbs_free_energy_per_link
      (link_length self) (hinge_mass self) (link_stiffness self * spowi (link_length self) 2 /
      BOLTZMANN_CONSTANT / temperature) nondimensional_force temperature) nondimensional_force.

(* /repo/src/physics/single_chain/ufjc/lennard_jones/thermodynamics/isotensional/asymptotic/reduced/py.rs:213-216 *)
Definition nondimensional_relative_gibbs_free_energy (self : t T) (nondimensional_force : ndarray T)
    (temperature : T) : ndarray T :=
  mapv (fun nondimensional_force =>
      lennard_jones_isotensional_asymptotic_reduced.nondimensional_relative_gibbs_free_energy
      (number_of_links self) (link_stiffness self * spowi (link_length self) 2 / BOLTZMANN_CONSTANT
      / temperature) nondimensional_force) nondimensional_force.

(* /repo/src/physics/single_chain/ufjc/lennard_jones/thermodynamics/isotensional/asymptotic/reduced/py.rs:238-241 *)
Definition nondimensional_relative_gibbs_free_energy_per_link (self : t T) (nondimensional_force :
    ndarray T) (temperature : T) : ndarray T :=
  mapv (fun nondimensional_force =>
      lennard_jones_isotensional_asymptotic_reduced.nondimensional_relative_gibbs_free_energy_per_link
      (link_stiffness self * spowi (link_length self) 2 / BOLTZMANN_CONSTANT / temperature)
      nondimensional_force) nondimensional_force.

End Model.
End P_lennard_jones_isotensional_asymptotic_reduced.

(** /repo/src/physics/single_chain/ufjc/log_squared/thermodynamics/isometric/asymptotic/legendre/py.rs: class LOGSQUAREDFJC *)
Module P_log_squared_isometric_asymptotic_legendre.
(* /repo/src/physics/single_chain/ufjc/log_squared/thermodynamics/isometric/asymptotic/legendre/py.rs:21-38 *)
Record t {T : Type} := { hinge_mass : T; link_length : T; number_of_links : Z; link_stiffness : T }.
Arguments t : clear implicits.
Section Model.
Context {T : Type} {Sc : Scalar T}.

(* /repo/src/physics/single_chain/ufjc/log_squared/thermodynamics/isometric/asymptotic/legendre/py.rs:44-53 *)
Definition init (number_of_links : Z) (link_length : T) (hinge_mass : T) (link_stiffness : T) : t T
    :=
  {| hinge_mass := hinge_mass; link_length := link_length; number_of_links := number_of_links;
      link_stiffness := link_stiffness |}.

(* /repo/src/physics/single_chain/ufjc/log_squared/thermodynamics/isometric/asymptotic/legendre/py.rs:63-66 *)
Definition force (self : t T) (end_to_end_length : ndarray T) (temperature : T) : ndarray T :=
  mapv (fun end_to_end_length => log_squared_isometric_asymptotic_legendre.force (number_of_links
      self) (link_length self) (link_stiffness self) end_to_end_length temperature)
      end_to_end_length.

(* /repo/src/physics/single_chain/ufjc/log_squared/thermodynamics/isometric/asymptotic/legendre/py.rs:75-78 *)
Definition nondimensional_force (self : t T) (nondimensional_end_to_end_length_per_link : ndarray T)
    (temperature : T) : ndarray T :=
  mapv (fun nondimensional_end_to_end_length_per_link =>
      log_squared_isometric_asymptotic_legendre.nondimensional_force (link_stiffness self * spowi
      (link_length self) 2 / BOLTZMANN_CONSTANT / temperature)
      nondimensional_end_to_end_length_per_link) nondimensional_end_to_end_length_per_link.

(* /repo/src/physics/single_chain/ufjc/log_squared/thermodynamics/isometric/asymptotic/legendre/py.rs:93-96 *)
Definition helmholtz_free_energy (self : t T) (end_to_end_length : ndarray T) (temperature : T) :
    ndarray T :=
  mapv (fun end_to_end_length => log_squared_isometric_asymptotic_legendre.helmholtz_free_energy
      (number_of_links self) (link_length self) (hinge_mass self) (link_stiffness self)
      end_to_end_length temperature) end_to_end_length.

(* /repo/src/physics/single_chain/ufjc/log_squared/thermodynamics/isometric/asymptotic/legendre/py.rs:106-109 *)
Definition helmholtz_free_energy_per_link (self : t T) (end_to_end_length : ndarray T) (temperature
    : T) : ndarray T :=
  mapv (fun end_to_end_length =>
      log_squared_isometric_asymptotic_legendre.helmholtz_free_energy_per_link (number_of_links
      self) (link_length self) (hinge_mass self) (link_stiffness self) end_to_end_length
      temperature) end_to_end_length.

(* /repo/src/physics/single_chain/ufjc/log_squared/thermodynamics/isometric/asymptotic/legendre/py.rs:119-122 *)
Definition relative_helmholtz_free_energy (self : t T) (end_to_end_length : ndarray T) (temperature
    : T) : ndarray T :=
  mapv (fun end_to_end_length =>
      log_squared_isometric_asymptotic_legendre.relative_helmholtz_free_energy (number_of_links
      self) (link_length self) (link_stiffness self) end_to_end_length temperature)
      end_to_end_length.

(* /repo/src/physics/single_chain/ufjc/log_squared/thermodynamics/isometric/asymptotic/legendre/py.rs:132-135 *)
Definition relative_helmholtz_free_energy_per_link (self : t T) (end_to_end_length : ndarray T)
    (temperature : T) : ndarray T :=
  mapv (fun end_to_end_length =>
      log_squared_isometric_asymptotic_legendre.relative_helmholtz_free_energy_per_link
      (number_of_links self) (link_length self) (link_stiffness self) end_to_end_length temperature)
      end_to_end_length.

(* /repo/src/physics/single_chain/ufjc/log_squared/thermodynamics/isometric/asymptotic/legendre/py.rs:145-148 *)
Definition nondimensional_helmholtz_free_energy (self : t T)
    (nondimensional_end_to_end_length_per_link : ndarray T) (temperature : T) : ndarray T :=
  mapv (fun nondimensional_end_to_end_length_per_link =>
      log_squared_isometric_asymptotic_legendre.nondimensional_helmholtz_free_energy
      (number_of_links self) (link_length self) (hinge_mass self) (link_stiffness self * spowi
      (link_length self) 2 / BOLTZMANN_CONSTANT / temperature)
      nondimensional_end_to_end_length_per_link temperature)
      nondimensional_end_to_end_length_per_link.

(* /repo/src/physics/single_chain/ufjc/log_squared/thermodynamics/isometric/asymptotic/legendre/py.rs:158-161 *)
Definition nondimensional_helmholtz_free_energy_per_link (self : t T)
    (nondimensional_end_to_end_length_per_link : ndarray T) (temperature : T) : ndarray T :=
  mapv (fun nondimensional_end_to_end_length_per_link =>
      log_squared_isometric_asymptotic_legendre.nondimensional_helmholtz_free_energy_per_link
      (number_of_links self) (link_length self) (hinge_mass self) (link_stiffness self * spowi
      (link_length self) 2 / BOLTZMANN_CONSTANT / temperature)
      nondimensional_end_to_end_length_per_link temperature)
      nondimensional_end_to_end_length_per_link.

(* /repo/src/physics/single_chain/ufjc/log_squared/thermodynamics/isometric/asymptotic/legendre/py.rs:170-173 *)
Definition nondimensional_relative_helmholtz_free_energy (self : t T)
    (nondimensional_end_to_end_length_per_link : ndarray T) (temperature : T) : ndarray T :=
  mapv (fun nondimensional_end_to_end_length_per_link =>
      log_squared_isometric_asymptotic_legendre.nondimensional_relative_helmholtz_free_energy
      (number_of_links self) (link_stiffness self * spowi (link_length self) 2 / BOLTZMANN_CONSTANT
      / temperature) nondimensional_end_to_end_length_per_link)
      nondimensional_end_to_end_length_per_link.

(* /repo/src/physics/single_chain/ufjc/log_squared/thermodynamics/isometric/asymptotic/legendre/py.rs:182-185 *)
Definition nondimensional_relative_helmholtz_free_energy_per_link (self : t T)
    (nondimensional_end_to_end_length_per_link : ndarray T) (temperature : T) : ndarray T :=
  mapv (fun nondimensional_end_to_end_length_per_link =>
      log_squared_isometric_asymptotic_legendre.nondimensional_relative_helmholtz_free_energy_per_link
      (link_stiffness self * spowi (link_length self) 2 / BOLTZMANN_CONSTANT / temperature)
      nondimensional_end_to_end_length_per_link) nondimensional_end_to_end_length_per_link.

End Model.
End P_log_squared_isometric_asymptotic_legendre.

(** /repo/src/physics/single_chain/ufjc/log_squared/thermodynamics/isometric/asymptotic/reduced/py.rs: class LOGSQUAREDFJC *)
Module P_log_squared_isometric_asymptotic_reduced.
(* /repo/src/physics/single_chain/ufjc/log_squared/thermodynamics/isometric/asymptotic/reduced/py.rs:15-36 *)
Record t {T : Type} := { hinge_mass : T; link_length : T; number_of_links : Z; link_stiffness : T; legendre : P_log_squared_isometric_asymptotic_reduced_legendre.t T }.
Arguments t : clear implicits.
Section Model.
Context {T : Type} {Sc : Scalar T}.

(* /repo/src/physics/single_chain/ufjc/log_squared/thermodynamics/isometric/asymptotic/reduced/py.rs:42-52 *)
Definition init (number_of_links : Z) (link_length : T) (hinge_mass : T) (link_stiffness : T) : t T
    :=
  {| hinge_mass := hinge_mass; link_length := link_length; number_of_links := number_of_links;
      link_stiffness := link_stiffness; legendre :=
      P_log_squared_isometric_asymptotic_reduced_legendre.init number_of_links link_length
      hinge_mass link_stiffness |}.

End Model.
End P_log_squared_isometric_asymptotic_reduced.

(** /repo/src/physics/single_chain/ufjc/log_squared/thermodynamics/isotensional/asymptotic/legendre/py.rs: class LOGSQUAREDFJC *)
Module P_log_squared_isotensional_asymptotic_legendre.
(* /repo/src/physics/single_chain/ufjc/log_squared/thermodynamics/isotensional/asymptotic/legendre/py.rs:21-38 *)
Record t {T : Type} := { hinge_mass : T; link_length : T; number_of_links : Z; link_stiffness : T }.
Arguments t : clear implicits.
Section Model.
Context {T : Type} {Sc : Scalar T}.

(* /repo/src/physics/single_chain/ufjc/log_squared/thermodynamics/isotensional/asymptotic/legendre/py.rs:44-53 *)
Definition init (number_of_links : Z) (link_length : T) (hinge_mass : T) (link_stiffness : T) : t T
    :=
  {| hinge_mass := hinge_mass; link_length := link_length; number_of_links := number_of_links;
      link_stiffness := link_stiffness |}.

(* /repo/src/physics/single_chain/ufjc/log_squared/thermodynamics/isotensional/asymptotic/legendre/py.rs:66-69 *)
Definition helmholtz_free_energy (self : t T) (force : ndarray T) (temperature : T) : ndarray T :=
  mapv (fun force => log_squared_isotensional_asymptotic_legendre.helmholtz_free_energy
      (number_of_links self) (link_length self) (hinge_mass self) (link_stiffness self) force
      temperature) force.

(* /repo/src/physics/single_chain/ufjc/log_squared/thermodynamics/isotensional/asymptotic/legendre/py.rs:79-82 *)
Definition helmholtz_free_energy_per_link (self : t T) (force : ndarray T) (temperature : T) :
    ndarray T :=
  mapv (fun force => log_squared_isotensional_asymptotic_legendre.helmholtz_free_energy_per_link
      (link_length self) (hinge_mass self) (link_stiffness self) force temperature) force.

(* /repo/src/physics/single_chain/ufjc/log_squared/thermodynamics/isotensional/asymptotic/legendre/py.rs:92-95 *)
Definition relative_helmholtz_free_energy (self : t T) (force : ndarray T) (temperature : T) :
    ndarray T :=
  mapv (fun force => log_squared_isotensional_asymptotic_legendre.relative_helmholtz_free_energy
      (number_of_links self) (link_length self) (link_stiffness self) force temperature) force.

(* /repo/src/physics/single_chain/ufjc/log_squared/thermodynamics/isotensional/asymptotic/legendre/py.rs:105-108 *)
Definition relative_helmholtz_free_energy_per_link (self : t T) (force : ndarray T) (temperature :
    T) : ndarray T :=
  mapv (fun force =>
      log_squared_isotensional_asymptotic_legendre.relative_helmholtz_free_energy_per_link
      (link_length self) (link_stiffness self) force temperature) force.

(* /repo/src/physics/single_chain/ufjc/log_squared/thermodynamics/isotensional/asymptotic/legendre/py.rs:118-121 *)
Definition nondimensional_helmholtz_free_energy (self : t T) (nondimensional_force : ndarray T)
    (temperature : T) : ndarray T :=
  mapv (fun nondimensional_force =>
      log_squared_isotensional_asymptotic_legendre.nondimensional_helmholtz_free_energy
      (number_of_links self) (link_length self) (hinge_mass self) (link_stiffness self * spowi
      (link_length self) 2 / BOLTZMANN_CONSTANT / temperature) nondimensional_force temperature)
      nondimensional_force.

(* /repo/src/physics/single_chain/ufjc/log_squared/thermodynamics/isotensional/asymptotic/legendre/py.rs:131-134 *)
Definition nondimensional_helmholtz_free_energy_per_link (self : t T) (nondimensional_force :
    ndarray T) (temperature : T) : ndarray T :=
  mapv (fun nondimensional_force =>
      log_squared_isotensional_asymptotic_legendre.nondimensional_helmholtz_free_energy_per_link
      (link_length self) (hinge_mass self) (link_stiffness self * spowi (link_length self) 2 /
      BOLTZMANN_CONSTANT / temperature) nondimensional_force temperature) nondimensional_force.

(* /repo/src/physics/single_chain/ufjc/log_squared/thermodynamics/isotensional/asymptotic/legendre/py.rs:144-147 *)
Definition nondimensional_relative_helmholtz_free_energy (self : t T) (nondimensional_force :
    ndarray T) (temperature : T) : ndarray T :=
  mapv (fun nondimensional_force =>
      log_squared_isotensional_asymptotic_legendre.nondimensional_relative_helmholtz_free_energy
      (number_of_links self) (link_stiffness self * spowi (link_length self) 2 / BOLTZMANN_CONSTANT
      / temperature) nondimensional_force) nondimensional_force.

(* /repo/src/physics/single_chain/ufjc/log_squared/thermodynamics/isotensional/asymptotic/legendre/py.rs:157-160 *)
Definition nondimensional_relative_helmholtz_free_energy_per_link (self : t T) (nondimensional_force
    : ndarray T) (temperature : T) : ndarray T :=
  mapv (fun nondimensional_force =>
      log_squared_isotensional_asymptotic_legendre.nondimensional_relative_helmholtz_free_energy_per_link
      (link_stiffness self * spowi (link_length self) 2 / BOLTZMANN_CONSTANT / temperature)
      nondimensional_force) nondimensional_force.

End Model.
End P_log_squared_isotensional_asymptotic_legendre.

(** /repo/src/physics/single_chain/ufjc/log_squared/thermodynamics/isotensional/asymptotic/reduced/py.rs: class LOGSQUAREDFJC *)
Module P_log_squared_isotensional_asymptotic_reduced.
(* /repo/src/physics/single_chain/ufjc/log_squared/thermodynamics/isotensional/asymptotic/reduced/py.rs:22-43 *)
Record t {T : Type} := { hinge_mass : T; link_length : T; number_of_links : Z; link_stiffness : T; legendre : P_log_squared_isotensional_asymptotic_reduced_legendre.t T }.
Arguments t : clear implicits.
Section Model.
Context {T : Type} {Sc : Scalar T}.

(* /repo/src/physics/single_chain/ufjc/log_squared/thermodynamics/isotensional/asymptotic/reduced/py.rs:49-59 *)
Definition init (number_of_links : Z) (link_length : T) (hinge_mass : T) (link_stiffness : T) : t T
    :=
  {| hinge_mass := hinge_mass; link_length := link_length; number_of_links := number_of_links;
      link_stiffness := link_stiffness; legendre :=
      P_log_squared_isotensional_asymptotic_reduced_legendre.init number_of_links link_length
      hinge_mass link_stiffness |}.

(* /repo/src/physics/single_chain/ufjc/log_squared/thermodynamics/isotensional/asymptotic/reduced/py.rs:72-75 *)
Definition end_to_end_length (self : t T) (force : ndarray T) (temperature : T) : ndarray T :=
  mapv (fun force => log_squared_isotensional_asymptotic_reduced.end_to_end_length (number_of_links
      self) (link_length self) (link_stiffness self) force temperature) force.

(* /repo/src/physics/single_chain/ufjc/log_squared/thermodynamics/isotensional/asymptotic/reduced/py.rs:85-88 *)
Definition end_to_end_length_per_link (self : t T) (force : ndarray T) (temperature : T) : ndarray T
    :=
  mapv (fun force => log_squared_isotensional_asymptotic_reduced.end_to_end_length_per_link
      (link_length self) (link_stiffness self) force temperature) force.

(* /repo/src/physics/single_chain/ufjc/log_squared/thermodynamics/isotensional/asymptotic/reduced/py.rs:98-101 *)
Definition nondimensional_end_to_end_length (self : t T) (nondimensional_force : ndarray T)
    (temperature : T) : ndarray T :=
  mapv (fun nondimensional_force =>
      log_squared_isotensional_asymptotic_reduced.nondimensional_end_to_end_length (number_of_links
      self) (link_stiffness self * spowi (link_length self) 2 / BOLTZMANN_CONSTANT / temperature)
      nondimensional_force) nondimensional_force.

(* /repo/src/physics/single_chain/ufjc/log_squared/thermodynamics/isotensional/asymptotic/reduced/py.rs:121-124 *)
Definition nondimensional_end_to_end_length_per_link (self : t T) (nondimensional_force : ndarray T)
    (temperature : T) : ndarray T :=
  mapv (fun nondimensional_force =>
      log_squared_isotensional_asymptotic_reduced.nondimensional_end_to_end_length_per_link
      (link_stiffness self * spowi (link_length self) 2 / BOLTZMANN_CONSTANT / temperature)
      nondimensional_force) nondimensional_force.

(* /repo/src/physics/single_chain/ufjc/log_squared/thermodynamics/isotensional/asymptotic/reduced/py.rs:137-140 *)
Definition gibbs_free_energy (self : t T) (force : ndarray T) (temperature : T) : ndarray T :=
  mapv (fun force => log_squared_isotensional_asymptotic_reduced.gibbs_free_energy (number_of_links
      self) (link_length self) (hinge_mass self) (link_stiffness self) force temperature) force.

(* /repo/src/physics/single_chain/ufjc/log_squared/thermodynamics/isotensional/asymptotic/reduced/py.rs:150-153 *)
Definition gibbs_free_energy_per_link (self : t T) (force : ndarray T) (temperature : T) : ndarray T
    :=
  mapv (fun force => log_squared_isotensional_asymptotic_reduced.gibbs_free_energy_per_link
      (link_length self) (hinge_mass self) (link_stiffness self) force temperature) force.

(* /repo/src/physics/single_chain/ufjc/log_squared/thermodynamics/isotensional/asymptotic/reduced/py.rs:163-166 *)
Definition relative_gibbs_free_energy (self : t T) (force : ndarray T) (temperature : T) : ndarray T
    :=
  mapv (fun force => log_squared_isotensional_asymptotic_reduced.relative_gibbs_free_energy
      (number_of_links self) (link_length self) (link_stiffness self) force temperature) force.

(* /repo/src/physics/single_chain/ufjc/log_squared/thermodynamics/isotensional/asymptotic/reduced/py.rs:176-179 *)
Definition relative_gibbs_free_energy_per_link (self : t T) (force : ndarray T) (temperature : T) :
    ndarray T :=
  mapv (fun force => log_squared_isotensional_asymptotic_reduced.relative_gibbs_free_energy_per_link
      (link_length self) (link_stiffness self) force temperature) force.

(* /repo/src/physics/single_chain/ufjc/log_squared/thermodynamics/isotensional/asymptotic/reduced/py.rs:189-192 *)
Definition nondimensional_gibbs_free_energy (self : t T) (nondimensional_force : ndarray T)
    (temperature : T) : ndarray T :=
  mapv (fun nondimensional_force =>
      log_squared_isotensional_asymptotic_reduced.nondimensional_gibbs_free_energy (number_of_links
      self) (link_length self) (hinge_mass self) (link_stiffness self * spowi (link_length self) 2 /
      BOLTZMANN_CONSTANT / temperature) nondimensional_force temperature) nondimensional_force.

(* /repo/src/physics/single_chain/ufjc/log_squared/thermodynamics/isotensional/asymptotic/reduced/py.rs:202-205 *)
Definition nondimensional_gibbs_free_energy_per_link (self : t T) (nondimensional_force : ndarray T)
    (temperature : T) : ndarray T :=
  mapv (fun nondimensional_force =>
      log_squared_isotensional_asymptotic_reduced.nondimensional_gibbs_free_energy_per_link
      (link_length self) (hinge_mass self) (link_stiffness self * spowi (link_length self) 2 /
      BOLTZMANN_CONSTANT / temperature) nondimensional_force temperature) nondimensional_force.

(* /repo/src/physics/single_chain/ufjc/log_squared/thermodynamics/isotensional/asymptotic/reduced/py.rs:215-218 *)
Definition nondimensional_relative_gibbs_free_energy (self : t T) (nondimensional_force : ndarray T)
    (temperature : T) : ndarray T :=
  mapv (fun nondimensional_force =>
      log_squared_isotensional_asymptotic_reduced.nondimensional_relative_gibbs_free_energy
      (number_of_links self) (link_stiffness self * spowi (link_length self) 2 / BOLTZMANN_CONSTANT
      / temperature) nondimensional_force) nondimensional_force.

(* /repo/src/physics/single_chain/ufjc/log_squared/thermodynamics/isotensional/asymptotic/reduced/py.rs:240-243 *)
Definition nondimensional_relative_gibbs_free_energy_per_link (self : t T) (nondimensional_force :
    ndarray T) (temperature : T) : ndarray T :=
  mapv (fun nondimensional_force =>
      log_squared_isotensional_asymptotic_reduced.nondimensional_relative_gibbs_free_energy_per_link
      (link_stiffness self * spowi (link_length self) 2 / BOLTZMANN_CONSTANT / temperature)
      nondimensional_force) nondimensional_force.

End Model.
End P_log_squared_isotensional_asymptotic_reduced.

(** /repo/src/physics/single_chain/ufjc/morse/thermodynamics/isometric/asymptotic/legendre/py.rs: class MORSEFJC *)
Module P_morse_isometric_asymptotic_legendre.
(* /repo/src/physics/single_chain/ufjc/morse/thermodynamics/isometric/asymptotic/legendre/py.rs:21-42 *)
Record t {T : Type} := { hinge_mass : T; link_length : T; number_of_links : Z; link_stiffness : T; link_energy : T }.
Arguments t : clear implicits.
Section Model.
Context {T : Type} {Sc : Scalar T}.

(* /repo/src/physics/single_chain/ufjc/morse/thermodynamics/isometric/asymptotic/legendre/py.rs:48-58 *)
Definition init (number_of_links : Z) (link_length : T) (hinge_mass : T) (link_stiffness : T)
    (link_energy : T) : t T :=
  {| hinge_mass := hinge_mass; link_length := link_length; number_of_links := number_of_links;
      link_stiffness := link_stiffness; link_energy := link_energy |}.

(* /repo/src/physics/single_chain/ufjc/morse/thermodynamics/isometric/asymptotic/legendre/py.rs:68-71 *)
Definition force (self : t T) (end_to_end_length : ndarray T) (temperature : T) : ndarray T :=
  mapv (fun end_to_end_length => morse_isometric_asymptotic_legendre.force (number_of_links self)
      (link_length self) (link_stiffness self) (link_energy self) end_to_end_length temperature)
      end_to_end_length.

(* /repo/src/physics/single_chain/ufjc/morse/thermodynamics/isometric/asymptotic/legendre/py.rs:80-83 *)
Definition nondimensional_force (self : t T) (nondimensional_end_to_end_length_per_link : ndarray T)
    (temperature : T) : ndarray T :=
  mapv (fun nondimensional_end_to_end_length_per_link =>
      morse_isometric_asymptotic_legendre.nondimensional_force (link_stiffness self * spowi
      (link_length self) 2 / BOLTZMANN_CONSTANT / temperature) (link_energy self /
      BOLTZMANN_CONSTANT / temperature) nondimensional_end_to_end_length_per_link)
      nondimensional_end_to_end_length_per_link.

(* /repo/src/physics/single_chain/ufjc/morse/thermodynamics/isometric/asymptotic/legendre/py.rs:98-101 *)
Definition helmholtz_free_energy (self : t T) (end_to_end_length : ndarray T) (temperature : T) :
    ndarray T :=
  mapv (fun end_to_end_length => morse_isometric_asymptotic_legendre.helmholtz_free_energy
      (number_of_links self) (link_length self) (hinge_mass self) (link_stiffness self) (link_energy
      self) end_to_end_length temperature) end_to_end_length.

(* /repo/src/physics/single_chain/ufjc/morse/thermodynamics/isometric/asymptotic/legendre/py.rs:111-114 *)
Definition helmholtz_free_energy_per_link (self : t T) (end_to_end_length : ndarray T) (temperature
    : T) : ndarray T :=
  mapv (fun end_to_end_length => morse_isometric_asymptotic_legendre.helmholtz_free_energy_per_link
      (number_of_links self) (link_length self) (hinge_mass self) (link_stiffness self) (link_energy
      self) end_to_end_length temperature) end_to_end_length.

(* /repo/src/physics/single_chain/ufjc/morse/thermodynamics/isometric/asymptotic/legendre/py.rs:124-127 *)
Definition relative_helmholtz_free_energy (self : t T) (end_to_end_length : ndarray T) (temperature
    : T) : ndarray T :=
  mapv (fun end_to_end_length => morse_isometric_asymptotic_legendre.relative_helmholtz_free_energy
      (number_of_links self) (link_length self) (link_stiffness self) (link_energy self)
      end_to_end_length temperature) end_to_end_length.

(* /repo/src/physics/single_chain/ufjc/morse/thermodynamics/isometric/asymptotic/legendre/py.rs:137-140 *)
Definition relative_helmholtz_free_energy_per_link (self : t T) (end_to_end_length : ndarray T)
    (temperature : T) : ndarray T :=
  mapv (fun end_to_end_length =>
      morse_isometric_asymptotic_legendre.relative_helmholtz_free_energy_per_link (number_of_links
      self) (link_length self) (link_stiffness self) (link_energy self) end_to_end_length
      temperature) end_to_end_length.

(* /repo/src/physics/single_chain/ufjc/morse/thermodynamics/isometric/asymptotic/legendre/py.rs:150-153 *)
Definition nondimensional_helmholtz_free_energy (self : t T)
    (nondimensional_end_to_end_length_per_link : ndarray T) (temperature : T) : ndarray T :=
  mapv (fun nondimensional_end_to_end_length_per_link =>
      morse_isometric_asymptotic_legendre.nondimensional_helmholtz_free_energy (number_of_links
      self) (link_length self) (hinge_mass self) (link_stiffness self * spowi (link_length self) 2 /
      BOLTZMANN_CONSTANT / temperature) (link_energy self / BOLTZMANN_CONSTANT / temperature)
      nondimensional_end_to_end_length_per_link temperature)
      nondimensional_end_to_end_length_per_link.

(* /repo/src/physics/single_chain/ufjc/morse/thermodynamics/isometric/asymptotic/legendre/py.rs:163-166 *)
Definition nondimensional_helmholtz_free_energy_per_link (self : t T)
    (nondimensional_end_to_end_length_per_link : ndarray T) (temperature : T) : ndarray T :=
  mapv (fun nondimensional_end_to_end_length_per_link =>
      morse_isometric_asymptotic_legendre.nondimensional_helmholtz_free_energy_per_link
      (number_of_links self) (link_length self) (hinge_mass self) (link_stiffness self * spowi
      (link_length self) 2 / BOLTZMANN_CONSTANT / temperature) (link_energy self /
      BOLTZMANN_CONSTANT / temperature) nondimensional_end_to_end_length_per_link temperature)
      nondimensional_end_to_end_length_per_link.

(* /repo/src/physics/single_chain/ufjc/morse/thermodynamics/isometric/asymptotic/legendre/py.rs:175-178 *)
Definition nondimensional_relative_helmholtz_free_energy (self : t T)
    (nondimensional_end_to_end_length_per_link : ndarray T) (temperature : T) : ndarray T :=
  mapv (fun nondimensional_end_to_end_length_per_link =>
      morse_isometric_asymptotic_legendre.nondimensional_relative_helmholtz_free_energy
      (number_of_links self) (link_stiffness self * spowi (link_length self) 2 / BOLTZMANN_CONSTANT
      / temperature) (link_energy self / BOLTZMANN_CONSTANT / temperature)
      nondimensional_end_to_end_length_per_link) nondimensional_end_to_end_length_per_link.

(* /repo/src/physics/single_chain/ufjc/morse/thermodynamics/isometric/asymptotic/legendre/py.rs:187-190 *)
Definition nondimensional_relative_helmholtz_free_energy_per_link (self : t T)
    (nondimensional_end_to_end_length_per_link : ndarray T) (temperature : T) : ndarray T :=
  mapv (fun nondimensional_end_to_end_length_per_link =>
      morse_isometric_asymptotic_legendre.nondimensional_relative_helmholtz_free_energy_per_link
      (link_stiffness self * spowi (link_length self) 2 / BOLTZMANN_CONSTANT / temperature)
      (link_energy self / BOLTZMANN_CONSTANT / temperature)
      nondimensional_end_to_end_length_per_link) nondimensional_end_to_end_length_per_link.

End Model.
End P_morse_isometric_asymptotic_legendre.

(** /repo/src/physics/single_chain/ufjc/morse/thermodynamics/isometric/asymptotic/reduced/py.rs: class MORSEFJC *)
Module P_morse_isometric_asymptotic_reduced.
(* /repo/src/physics/single_chain/ufjc/morse/thermodynamics/isometric/asymptotic/reduced/py.rs:15-40 *)
Record t {T : Type} := { hinge_mass : T; link_length : T; number_of_links : Z; link_stiffness : T; link_energy : T; legendre : P_morse_isometric_asymptotic_reduced_legendre.t T }.
Arguments t : clear implicits.
Section Model.
Context {T : Type} {Sc : Scalar T}.

(* /repo/src/physics/single_chain/ufjc/morse/thermodynamics/isometric/asymptotic/reduced/py.rs:46-57 *)
Definition init (number_of_links : Z) (link_length : T) (hinge_mass : T) (link_stiffness : T)
    (link_energy : T) : t T :=
  {| hinge_mass := hinge_mass; link_length := link_length; number_of_links := number_of_links;
      link_stiffness := link_stiffness; link_energy := link_energy; legendre :=
      P_morse_isometric_asymptotic_reduced_legendre.init number_of_links link_length hinge_mass
      link_stiffness link_energy |}.

End Model.
End P_morse_isometric_asymptotic_reduced.

(** /repo/src/physics/single_chain/ufjc/morse/thermodynamics/isotensional/asymptotic/legendre/py.rs: class MORSEFJC *)
Module P_morse_isotensional_asymptotic_legendre.
(* /repo/src/physics/single_chain/ufjc/morse/thermodynamics/isotensional/asymptotic/legendre/py.rs:21-42 *)
Record t {T : Type} := { hinge_mass : T; link_length : T; number_of_links : Z; link_stiffness : T; link_energy : T }.
Arguments t : clear implicits.
Section Model.
Context {T : Type} {Sc : Scalar T}.

(* /repo/src/physics/single_chain/ufjc/morse/thermodynamics/isotensional/asymptotic/legendre/py.rs:48-58 *)
Definition init (number_of_links : Z) (link_length : T) (hinge_mass : T) (link_stiffness : T)
    (link_energy : T) : t T :=
  {| hinge_mass := hinge_mass; link_length := link_length; number_of_links := number_of_links;
      link_stiffness := link_stiffness; link_energy := link_energy |}.

(* /repo/src/physics/single_chain/ufjc/morse/thermodynamics/isotensional/asymptotic/legendre/py.rs:71-74 *)
Definition helmholtz_free_energy (self : t T) (force : ndarray T) (temperature : T) : ndarray T :=
  mapv (fun force => morse_isotensional_asymptotic_legendre.helmholtz_free_energy (number_of_links
      self) (link_length self) (hinge_mass self) (link_stiffness self) (link_energy self) force
      temperature) force.

(* /repo/src/physics/single_chain/ufjc/morse/thermodynamics/isotensional/asymptotic/legendre/py.rs:84-87 *)
Definition helmholtz_free_energy_per_link (self : t T) (force : ndarray T) (temperature : T) :
    ndarray T :=
  mapv (fun force => morse_isotensional_asymptotic_legendre.helmholtz_free_energy_per_link
      (link_length self) (hinge_mass self) (link_stiffness self) (link_energy self) force
      temperature) force.

(* /repo/src/physics/single_chain/ufjc/morse/thermodynamics/isotensional/asymptotic/legendre/py.rs:97-100 *)
Definition relative_helmholtz_free_energy (self : t T) (force : ndarray T) (temperature : T) :
    ndarray T :=
  mapv (fun force => morse_isotensional_asymptotic_legendre.relative_helmholtz_free_energy
      (number_of_links self) (link_length self) (link_stiffness self) (link_energy self) force
      temperature) force.

(* /repo/src/physics/single_chain/ufjc/morse/thermodynamics/isotensional/asymptotic/legendre/py.rs:110-113 *)
Definition relative_helmholtz_free_energy_per_link (self : t T) (force : ndarray T) (temperature :
    T) : ndarray T :=
  mapv (fun force => morse_isotensional_asymptotic_legendre.relative_helmholtz_free_energy_per_link
      (link_length self) (link_stiffness self) (link_energy self) force temperature) force.

(* /repo/src/physics/single_chain/ufjc/morse/thermodynamics/isotensional/asymptotic/legendre/py.rs:123-126 *)
Definition nondimensional_helmholtz_free_energy (self : t T) (nondimensional_force : ndarray T)
    (temperature : T) : ndarray T :=
  mapv (fun nondimensional_force =>
      morse_isotensional_asymptotic_legendre.nondimensional_helmholtz_free_energy (number_of_links
      self) (link_length self) (hinge_mass self) (link_stiffness self * spowi (link_length self) 2 /
      BOLTZMANN_CONSTANT / temperature) (link_energy self / BOLTZMANN_CONSTANT / temperature)
      nondimensional_force temperature) nondimensional_force.

(* /repo/src/physics/single_chain/ufjc/morse/thermodynamics/isotensional/asymptotic/legendre/py.rs:136-139 *)
Definition nondimensional_helmholtz_free_energy_per_link (self : t T) (nondimensional_force :
    ndarray T) (temperature : T) : ndarray T :=
  mapv (fun nondimensional_force =>
      morse_isotensional_asymptotic_legendre.nondimensional_helmholtz_free_energy_per_link
      (link_length self) (hinge_mass self) (link_stiffness self * spowi (link_length self) 2 /
      BOLTZMANN_CONSTANT / temperature) (link_energy self / BOLTZMANN_CONSTANT / temperature)
      nondimensional_force temperature) nondimensional_force.

(* /repo/src/physics/single_chain/ufjc/morse/thermodynamics/isotensional/asymptotic/legendre/py.rs:149-152 *)
Definition nondimensional_relative_helmholtz_free_energy (self : t T) (nondimensional_force :
    ndarray T) (temperature : T) : ndarray T :=
  mapv (fun nondimensional_force =>
      morse_isotensional_asymptotic_legendre.nondimensional_relative_helmholtz_free_energy
      (number_of_links self) (link_stiffness self * spowi (link_length self) 2 / BOLTZMANN_CONSTANT
      / temperature) (link_energy self / BOLTZMANN_CONSTANT / temperature) nondimensional_force)
      nondimensional_force.

(* /repo/src/physics/single_chain/ufjc/morse/thermodynamics/isotensional/asymptotic/legendre/py.rs:162-165 *)
Definition nondimensional_relative_helmholtz_free_energy_per_link (self : t T) (nondimensional_force
    : ndarray T) (temperature : T) : ndarray T :=
  mapv (fun nondimensional_force =>
      morse_isotensional_asymptotic_legendre.nondimensional_relative_helmholtz_free_energy_per_link
      (link_stiffness self * spowi (link_length self) 2 / BOLTZMANN_CONSTANT / temperature)
      (link_energy self / BOLTZMANN_CONSTANT / temperature) nondimensional_force)
      nondimensional_force.

End Model.
End P_morse_isotensional_asymptotic_legendre.

(** /repo/src/physics/single_chain/ufjc/morse/thermodynamics/isotensional/asymptotic/reduced/py.rs: class MORSEFJC *)
Module P_morse_isotensional_asymptotic_reduced.
(* /repo/src/physics/single_chain/ufjc/morse/thermodynamics/isotensional/asymptotic/reduced/py.rs:22-47 *)
Record t {T : Type} := { hinge_mass : T; link_length : T; number_of_links : Z; link_stiffness : T; link_energy : T; legendre : P_morse_isotensional_asymptotic_reduced_legendre.t T }.
Arguments t : clear implicits.
Section Model.
Context {T : Type} {Sc : Scalar T}.

(* /repo/src/physics/single_chain/ufjc/morse/thermodynamics/isotensional/asymptotic/reduced/py.rs:53-64 *)
Definition init (number_of_links : Z) (link_length : T) (hinge_mass : T) (link_stiffness : T)
    (link_energy : T) : t T :=
  {| hinge_mass := hinge_mass; link_length := link_length; number_of_links := number_of_links;
      link_stiffness := link_stiffness; link_energy := link_energy; legendre :=
      P_morse_isotensional_asymptotic_reduced_legendre.init number_of_links link_length hinge_mass
      link_stiffness link_energy |}.

(* /repo/src/physics/single_chain/ufjc/morse/thermodynamics/isotensional/asymptotic/reduced/py.rs:77-80 *)
Definition end_to_end_length (self : t T) (force : ndarray T) (temperature : T) : ndarray T :=
  mapv (fun force => morse_isotensional_asymptotic_reduced.end_to_end_length (number_of_links self)
      (link_length self) (link_stiffness self) (link_energy self) force temperature) force.

(* /repo/src/physics/single_chain/ufjc/morse/thermodynamics/isotensional/asymptotic/reduced/py.rs:90-93 *)
Definition end_to_end_length_per_link (self : t T) (force : ndarray T) (temperature : T) : ndarray T
    :=
  mapv (fun force => morse_isotensional_asymptotic_reduced.end_to_end_length_per_link (link_length
      self) (link_stiffness self) (link_energy self) force temperature) force.

(* /repo/src/physics/single_chain/ufjc/morse/thermodynamics/isotensional/asymptotic/reduced/py.rs:103-106 *)
Definition nondimensional_end_to_end_length (self : t T) (nondimensional_force : ndarray T)
    (temperature : T) : ndarray T :=
  mapv (fun nondimensional_force =>
      morse_isotensional_asymptotic_reduced.nondimensional_end_to_end_length (number_of_links self)
      (link_stiffness self * spowi (link_length self) 2 / BOLTZMANN_CONSTANT / temperature)
      (link_energy self / BOLTZMANN_CONSTANT / temperature) nondimensional_force)
      nondimensional_force.

(* /repo/src/physics/single_chain/ufjc/morse/thermodynamics/isotensional/asymptotic/reduced/py.rs:126-129 *)
Definition nondimensional_end_to_end_length_per_link (self : t T) (nondimensional_force : ndarray T)
    (temperature : T) : ndarray T :=
  mapv (fun nondimensional_force =>
      morse_isotensional_asymptotic_reduced.nondimensional_end_to_end_length_per_link
      (link_stiffness self * spowi (link_length self) 2 / BOLTZMANN_CONSTANT / temperature)
      (link_energy self / BOLTZMANN_CONSTANT / temperature) nondimensional_force)
      nondimensional_force.

(* /repo/src/physics/single_chain/ufjc/morse/thermodynamics/isotensional/asymptotic/reduced/py.rs:142-145 *)
Definition gibbs_free_energy (self : t T) (force : ndarray T) (temperature : T) : ndarray T :=
  mapv (fun force => morse_isotensional_asymptotic_reduced.gibbs_free_energy (number_of_links self)
      (link_length self) (hinge_mass self) (link_stiffness self) (link_energy self) force
      temperature) force.

(* /repo/src/physics/single_chain/ufjc/morse/thermodynamics/isotensional/asymptotic/reduced/py.rs:155-158 *)
Definition gibbs_free_energy_per_link (self : t T) (force : ndarray T) (temperature : T) : ndarray T
    :=
  mapv (fun force => morse_isotensional_asymptotic_reduced.gibbs_free_energy_per_link (link_length
      self) (hinge_mass self) (link_stiffness self) (link_energy self) force temperature) force.

(* /repo/src/physics/single_chain/ufjc/morse/thermodynamics/isotensional/asymptotic/reduced/py.rs:168-171 *)
Definition relative_gibbs_free_energy (self : t T) (force : ndarray T) (temperature : T) : ndarray T
    :=
  mapv (fun force => morse_isotensional_asymptotic_reduced.relative_gibbs_free_energy
      (number_of_links self) (link_length self) (link_stiffness self) (link_energy self) force
      temperature) force.

(* /repo/src/physics/single_chain/ufjc/morse/thermodynamics/isotensional/asymptotic/reduced/py.rs:181-184 *)
Definition relative_gibbs_free_energy_per_link (self : t T) (force : ndarray T) (temperature : T) :
    ndarray T :=
  mapv (fun force => morse_isotensional_asymptotic_reduced.relative_gibbs_free_energy_per_link
      (link_length self) (link_stiffness self) (link_energy self) force temperature) force.

(* /repo/src/physics/single_chain/ufjc/morse/thermodynamics/isotensional/asymptotic/reduced/py.rs:194-197 *)
Definition nondimensional_gibbs_free_energy (self : t T) (nondimensional_force : ndarray T)
    (temperature : T) : ndarray T :=
  mapv (fun nondimensional_force =>
      morse_isotensional_asymptotic_reduced.nondimensional_gibbs_free_energy (number_of_links self)
      (link_length self) (hinge_mass self) (link_stiffness self * spowi (link_length self) 2 /
      BOLTZMANN_CONSTANT / temperature) (link_energy self / BOLTZMANN_CONSTANT / temperature)
      nondimensional_force temperature) nondimensional_force.

(* /repo/src/physics/single_chain/ufjc/morse/thermodynamics/isotensional/asymptotic/reduced/py.rs:207-210 *)
Definition nondimensional_gibbs_free_energy_per_link (self : t T) (nondimensional_force : ndarray T)
    (temperature : T) : ndarray T :=
  mapv (fun nondimensional_force =>
      morse_isotensional_asymptotic_reduced.nondimensional_gibbs_free_energy_per_link (link_length
      self) (hinge_mass self) (link_stiffness self * spowi (link_length self) 2 / BOLTZMANN_CONSTANT
      / temperature) (link_energy self / BOLTZMANN_CONSTANT / temperature) nondimensional_force
      temperature) nondimensional_force.

(* /repo/src/physics/single_chain/ufjc/morse/thermodynamics/isotensional/asymptotic/reduced/py.rs:220-223 *)
Definition nondimensional_relative_gibbs_free_energy (self : t T) (nondimensional_force : ndarray T)
    (temperature : T) : ndarray T :=
  mapv (fun nondimensional_force =>
      morse_isotensional_asymptotic_reduced.nondimensional_relative_gibbs_free_energy
      (number_of_links self) (link_stiffness self * spowi (link_length self) 2 / BOLTZMANN_CONSTANT
      / temperature) (link_energy self / BOLTZMANN_CONSTANT / temperature) nondimensional_force)
      nondimensional_force.

(* /repo/src/physics/single_chain/ufjc/morse/thermodynamics/isotensional/asymptotic/reduced/py.rs:246-249 *)
Definition nondimensional_relative_gibbs_free_energy_per_link (self : t T) (nondimensional_force :
    ndarray T) (temperature : T) : ndarray T :=
  mapv (fun nondimensional_force =>
      morse_isotensional_asymptotic_reduced.nondimensional_relative_gibbs_free_energy_per_link
      (link_stiffness self * spowi (link_length self) 2 / BOLTZMANN_CONSTANT / temperature)
      (link_energy self / BOLTZMANN_CONSTANT / temperature) nondimensional_force)
      nondimensional_force.

End Model.
End P_morse_isotensional_asymptotic_reduced.

(** /repo/src/physics/single_chain/efjc/thermodynamics/isometric/asymptotic/alternative/py.rs: class EFJC *)
Module P_efjc_isometric_asymptotic_alternative.
(* /repo/src/physics/single_chain/efjc/thermodynamics/isometric/asymptotic/alternative/py.rs:15-36 *)
Record t {T : Type} := { hinge_mass : T; link_length : T; number_of_links : Z; link_stiffness : T; legendre : P_efjc_isometric_asymptotic_alternative_legendre.t T }.
Arguments t : clear implicits.
Section Model.
Context {T : Type} {Sc : Scalar T}.

(* /repo/src/physics/single_chain/efjc/thermodynamics/isometric/asymptotic/alternative/py.rs:42-52 *)
Definition init (number_of_links : Z) (link_length : T) (hinge_mass : T) (link_stiffness : T) : t T
    :=
  {| hinge_mass := hinge_mass; link_length := link_length; number_of_links := number_of_links;
      link_stiffness := link_stiffness; legendre :=
      P_efjc_isometric_asymptotic_alternative_legendre.init number_of_links link_length hinge_mass
      link_stiffness |}.

End Model.
End P_efjc_isometric_asymptotic_alternative.

(** /repo/src/physics/single_chain/efjc/thermodynamics/isometric/asymptotic/legendre/py.rs: class EFJC *)
Module P_efjc_isometric_asymptotic_legendre.
(* /repo/src/physics/single_chain/efjc/thermodynamics/isometric/asymptotic/legendre/py.rs:21-38 *)
Record t {T : Type} := { hinge_mass : T; link_length : T; number_of_links : Z; link_stiffness : T }.
Arguments t : clear implicits.
Section Model.
Context {T : Type} {Sc : Scalar T}.

(* /repo/src/physics/single_chain/efjc/thermodynamics/isometric/asymptotic/legendre/py.rs:44-53 *)
Definition init (number_of_links : Z) (link_length : T) (hinge_mass : T) (link_stiffness : T) : t T
    :=
  {| hinge_mass := hinge_mass; link_length := link_length; number_of_links := number_of_links;
      link_stiffness := link_stiffness |}.

(* /repo/src/physics/single_chain/efjc/thermodynamics/isometric/asymptotic/legendre/py.rs:63-66 *)
Definition force (self : t T) (end_to_end_length : ndarray T) (temperature : T) : ndarray T :=
  mapv (fun end_to_end_length => efjc_isometric_asymptotic_legendre.force (number_of_links self)
      (link_length self) (link_stiffness self) end_to_end_length temperature) end_to_end_length.

(* /repo/src/physics/single_chain/efjc/thermodynamics/isometric/asymptotic/legendre/py.rs:75-78 *)
Definition nondimensional_force (self : t T) (nondimensional_end_to_end_length_per_link : ndarray T)
    (temperature : T) : ndarray T :=
  mapv (fun nondimensional_end_to_end_length_per_link =>
      efjc_isometric_asymptotic_legendre.nondimensional_force (link_stiffness self * spowi
      (link_length self) 2 / BOLTZMANN_CONSTANT / temperature)
      nondimensional_end_to_end_length_per_link) nondimensional_end_to_end_length_per_link.

(* /repo/src/physics/single_chain/efjc/thermodynamics/isometric/asymptotic/legendre/py.rs:93-96 *)
Definition helmholtz_free_energy (self : t T) (end_to_end_length : ndarray T) (temperature : T) :
    ndarray T :=
  mapv (fun end_to_end_length => efjc_isometric_asymptotic_legendre.helmholtz_free_energy
      (number_of_links self) (link_length self) (hinge_mass self) (link_stiffness self)
      end_to_end_length temperature) end_to_end_length.

(* /repo/src/physics/single_chain/efjc/thermodynamics/isometric/asymptotic/legendre/py.rs:106-109 *)
Definition helmholtz_free_energy_per_link (self : t T) (end_to_end_length : ndarray T) (temperature
    : T) : ndarray T :=
  mapv (fun end_to_end_length => efjc_isometric_asymptotic_legendre.helmholtz_free_energy_per_link
      (number_of_links self) (link_length self) (hinge_mass self) (link_stiffness self)
      end_to_end_length temperature) end_to_end_length.

(* /repo/src/physics/single_chain/efjc/thermodynamics/isometric/asymptotic/legendre/py.rs:119-122 *)
Definition relative_helmholtz_free_energy (self : t T) (end_to_end_length : ndarray T) (temperature
    : T) : ndarray T :=
  mapv (fun end_to_end_length => efjc_isometric_asymptotic_legendre.relative_helmholtz_free_energy
      (number_of_links self) (link_length self) (link_stiffness self) end_to_end_length temperature)
      end_to_end_length.

(* /repo/src/physics/single_chain/efjc/thermodynamics/isometric/asymptotic/legendre/py.rs:132-135 *)
Definition relative_helmholtz_free_energy_per_link (self : t T) (end_to_end_length : ndarray T)
    (temperature : T) : ndarray T :=
  mapv (fun end_to_end_length =>
      efjc_isometric_asymptotic_legendre.relative_helmholtz_free_energy_per_link (number_of_links
      self) (link_length self) (link_stiffness self) end_to_end_length temperature)
      end_to_end_length.

(* /repo/src/physics/single_chain/efjc/thermodynamics/isometric/asymptotic/legendre/py.rs:145-148 *)
Definition nondimensional_helmholtz_free_energy (self : t T)
    (nondimensional_end_to_end_length_per_link : ndarray T) (temperature : T) : ndarray T :=
  mapv (fun nondimensional_end_to_end_length_per_link =>
      efjc_isometric_asymptotic_legendre.nondimensional_helmholtz_free_energy (number_of_links self)
      (link_length self) (hinge_mass self) (link_stiffness self * spowi (link_length self) 2 /
      BOLTZMANN_CONSTANT / temperature) nondimensional_end_to_end_length_per_link temperature)
      nondimensional_end_to_end_length_per_link.

(* /repo/src/physics/single_chain/efjc/thermodynamics/isometric/asymptotic/legendre/py.rs:158-161 *)
Definition nondimensional_helmholtz_free_energy_per_link (self : t T)
    (nondimensional_end_to_end_length_per_link : ndarray T) (temperature : T) : ndarray T :=
  mapv (fun nondimensional_end_to_end_length_per_link =>
      efjc_isometric_asymptotic_legendre.nondimensional_helmholtz_free_energy_per_link
      (number_of_links self) (link_length self) (hinge_mass self) (link_stiffness self * spowi
      (link_length self) 2 / BOLTZMANN_CONSTANT / temperature)
      nondimensional_end_to_end_length_per_link temperature)
      nondimensional_end_to_end_length_per_link.

(* /repo/src/physics/single_chain/efjc/thermodynamics/isometric/asymptotic/legendre/py.rs:170-173 *)
Definition nondimensional_relative_helmholtz_free_energy (self : t T)
    (nondimensional_end_to_end_length_per_link : ndarray T) (temperature : T) : ndarray T :=
  mapv (fun nondimensional_end_to_end_length_per_link =>
      efjc_isometric_asymptotic_legendre.nondimensional_relative_helmholtz_free_energy
      (number_of_links self) (link_stiffness self * spowi (link_length self) 2 / BOLTZMANN_CONSTANT
      / temperature) nondimensional_end_to_end_length_per_link)
      nondimensional_end_to_end_length_per_link.

(* /repo/src/physics/single_chain/efjc/thermodynamics/isometric/asymptotic/legendre/py.rs:182-185 *)
Definition nondimensional_relative_helmholtz_free_energy_per_link (self : t T)
    (nondimensional_end_to_end_length_per_link : ndarray T) (temperature : T) : ndarray T :=
  mapv (fun nondimensional_end_to_end_length_per_link =>
      efjc_isometric_asymptotic_legendre.nondimensional_relative_helmholtz_free_energy_per_link
      (link_stiffness self * spowi (link_length self) 2 / BOLTZMANN_CONSTANT / temperature)
      nondimensional_end_to_end_length_per_link) nondimensional_end_to_end_length_per_link.

End Model.
End P_efjc_isometric_asymptotic_legendre.

(** /repo/src/physics/single_chain/efjc/thermodynamics/isometric/asymptotic/reduced/py.rs: class EFJC *)
Module P_efjc_isometric_asymptotic_reduced.
(* /repo/src/physics/single_chain/efjc/thermodynamics/isometric/asymptotic/reduced/py.rs:15-36 *)
Record t {T : Type} := { hinge_mass : T; link_length : T; number_of_links : Z; link_stiffness : T; legendre : P_efjc_isometric_asymptotic_reduced_legendre.t T }.
Arguments t : clear implicits.
Section Model.
Context {T : Type} {Sc : Scalar T}.

(* /repo/src/physics/single_chain/efjc/thermodynamics/isometric/asymptotic/reduced/py.rs:42-52 *)
Definition init (number_of_links : Z) (link_length : T) (hinge_mass : T) (link_stiffness : T) : t T
    :=
  {| hinge_mass := hinge_mass; link_length := link_length; number_of_links := number_of_links;
      link_stiffness := link_stiffness; legendre :=
      P_efjc_isometric_asymptotic_reduced_legendre.init number_of_links link_length hinge_mass
      link_stiffness |}.

End Model.
End P_efjc_isometric_asymptotic_reduced.

(** /repo/src/physics/single_chain/efjc/thermodynamics/isotensional/asymptotic/alternative/py.rs: class EFJC *)
Module P_efjc_isotensional_asymptotic_alternative.
(* /repo/src/physics/single_chain/efjc/thermodynamics/isotensional/asymptotic/alternative/py.rs:22-43 *)
Record t {T : Type} := { hinge_mass : T; link_length : T; number_of_links : Z; link_stiffness : T; legendre : P_efjc_isotensional_asymptotic_alternative_legendre.t T }.
Arguments t : clear implicits.
Section Model.
Context {T : Type} {Sc : Scalar T}.

(* /repo/src/physics/single_chain/efjc/thermodynamics/isotensional/asymptotic/alternative/py.rs:49-59 *)
Definition init (number_of_links : Z) (link_length : T) (hinge_mass : T) (link_stiffness : T) : t T
    :=
  {| hinge_mass := hinge_mass; link_length := link_length; number_of_links := number_of_links;
      link_stiffness := link_stiffness; legendre :=
      P_efjc_isotensional_asymptotic_alternative_legendre.init number_of_links link_length
      hinge_mass link_stiffness |}.

(* /repo/src/physics/single_chain/efjc/thermodynamics/isotensional/asymptotic/alternative/py.rs:72-75 *)
Definition end_to_end_length (self : t T) (force : ndarray T) (temperature : T) : ndarray T :=
  mapv (fun force => efjc_isotensional_asymptotic_alternative.end_to_end_length (number_of_links
      self) (link_length self) (link_stiffness self) force temperature) force.

(* /repo/src/physics/single_chain/efjc/thermodynamics/isotensional/asymptotic/alternative/py.rs:85-88 *)
Definition end_to_end_length_per_link (self : t T) (force : ndarray T) (temperature : T) : ndarray T
    :=
  mapv (fun force => efjc_isotensional_asymptotic_alternative.end_to_end_length_per_link
      (link_length self) (link_stiffness self) force temperature) force.

(* /repo/src/physics/single_chain/efjc/thermodynamics/isotensional/asymptotic/alternative/py.rs:98-101 *)
Definition nondimensional_end_to_end_length (self : t T) (nondimensional_force : ndarray T)
    (temperature : T) : ndarray T :=
  mapv (fun nondimensional_force =>
      efjc_isotensional_asymptotic_alternative.nondimensional_end_to_end_length (number_of_links
      self) (link_stiffness self * spowi (link_length self) 2 / BOLTZMANN_CONSTANT / temperature)
      nondimensional_force) nondimensional_force.

(* /repo/src/physics/single_chain/efjc/thermodynamics/isotensional/asymptotic/alternative/py.rs:116-119 *)
Definition nondimensional_end_to_end_length_per_link (self : t T) (nondimensional_force : ndarray T)
    (temperature : T) : ndarray T :=
  mapv (fun nondimensional_force =>
      efjc_isotensional_asymptotic_alternative.nondimensional_end_to_end_length_per_link
      (link_stiffness self * spowi (link_length self) 2 / BOLTZMANN_CONSTANT / temperature)
      nondimensional_force) nondimensional_force.

(* /repo/src/physics/single_chain/efjc/thermodynamics/isotensional/asymptotic/alternative/py.rs:132-135 *)
Definition gibbs_free_energy (self : t T) (force : ndarray T) (temperature : T) : ndarray T :=
  mapv (fun force => efjc_isotensional_asymptotic_alternative.gibbs_free_energy (number_of_links
      self) (link_length self) (hinge_mass self) (link_stiffness self) force temperature) force.

(* /repo/src/physics/single_chain/efjc/thermodynamics/isotensional/asymptotic/alternative/py.rs:145-148 *)
Definition gibbs_free_energy_per_link (self : t T) (force : ndarray T) (temperature : T) : ndarray T
    :=
  mapv (fun force => efjc_isotensional_asymptotic_alternative.gibbs_free_energy_per_link
      (link_length self) (hinge_mass self) (link_stiffness self) force temperature) force.

(* /repo/src/physics/single_chain/efjc/thermodynamics/isotensional/asymptotic/alternative/py.rs:158-161 *)
Definition relative_gibbs_free_energy (self : t T) (force : ndarray T) (temperature : T) : ndarray T
    :=
  mapv (fun force => efjc_isotensional_asymptotic_alternative.relative_gibbs_free_energy
      (number_of_links self) (link_length self) (link_stiffness self) force temperature) force.

(* /repo/src/physics/single_chain/efjc/thermodynamics/isotensional/asymptotic/alternative/py.rs:171-174 *)
Definition relative_gibbs_free_energy_per_link (self : t T) (force : ndarray T) (temperature : T) :
    ndarray T :=
  mapv (fun force => efjc_isotensional_asymptotic_alternative.relative_gibbs_free_energy_per_link
      (link_length self) (link_stiffness self) force temperature) force.

(* /repo/src/physics/single_chain/efjc/thermodynamics/isotensional/asymptotic/alternative/py.rs:184-187 *)
Definition nondimensional_gibbs_free_energy (self : t T) (nondimensional_force : ndarray T)
    (temperature : T) : ndarray T :=
  mapv (fun nondimensional_force =>
      efjc_isotensional_asymptotic_alternative.nondimensional_gibbs_free_energy (number_of_links
      self) (link_length self) (hinge_mass self) (link_stiffness self * spowi (link_length self) 2 /
      BOLTZMANN_CONSTANT / temperature) nondimensional_force temperature) nondimensional_force.

(* /repo/src/physics/single_chain/efjc/thermodynamics/isotensional/asymptotic/alternative/py.rs:197-200 *)
Definition nondimensional_gibbs_free_energy_per_link (self : t T) (nondimensional_force : ndarray T)
    (temperature : T) : ndarray T :=
  mapv (fun nondimensional_force =>
      efjc_isotensional_asymptotic_alternative.nondimensional_gibbs_free_energy_per_link
      (link_length self) (hinge_mass self) (link_stiffness self * spowi (link_length self) 2 /
      BOLTZMANN_CONSTANT / temperature) nondimensional_force temperature) nondimensional_force.

(* /repo/src/physics/single_chain/efjc/thermodynamics/isotensional/asymptotic/alternative/py.rs:210-213 *)
Definition nondimensional_relative_gibbs_free_energy (self : t T) (nondimensional_force : ndarray T)
    (temperature : T) : ndarray T :=
  mapv (fun nondimensional_force =>
      efjc_isotensional_asymptotic_alternative.nondimensional_relative_gibbs_free_energy
      (number_of_links self) (link_stiffness self * spowi (link_length self) 2 / BOLTZMANN_CONSTANT
      / temperature) nondimensional_force) nondimensional_force.

(* /repo/src/physics/single_chain/efjc/thermodynamics/isotensional/asymptotic/alternative/py.rs:226-229 *)
Definition nondimensional_relative_gibbs_free_energy_per_link (self : t T) (nondimensional_force :
    ndarray T) (temperature : T) : ndarray T :=
  mapv (fun nondimensional_force =>
      efjc_isotensional_asymptotic_alternative.nondimensional_relative_gibbs_free_energy_per_link
      (link_stiffness self * spowi (link_length self) 2 / BOLTZMANN_CONSTANT / temperature)
      nondimensional_force) nondimensional_force.

End Model.
End P_efjc_isotensional_asymptotic_alternative.

(** /repo/src/physics/single_chain/efjc/thermodynamics/isotensional/asymptotic/legendre/py.rs: class EFJC *)
Module P_efjc_isotensional_asymptotic_legendre.
(* /repo/src/physics/single_chain/efjc/thermodynamics/isotensional/asymptotic/legendre/py.rs:21-38 *)
Record t {T : Type} := { hinge_mass : T; link_length : T; number_of_links : Z; link_stiffness : T }.
Arguments t : clear implicits.
Section Model.
Context {T : Type} {Sc : Scalar T}.

(* /repo/src/physics/single_chain/efjc/thermodynamics/isotensional/asymptotic/legendre/py.rs:44-53 *)
Definition init (number_of_links : Z) (link_length : T) (hinge_mass : T) (link_stiffness : T) : t T
    :=
  {| hinge_mass := hinge_mass; link_length := link_length; number_of_links := number_of_links;
      link_stiffness := link_stiffness |}.

(* /repo/src/physics/single_chain/efjc/thermodynamics/isotensional/asymptotic/legendre/py.rs:66-69 *)
Definition helmholtz_free_energy (self : t T) (force : ndarray T) (temperature : T) : ndarray T :=
  mapv (fun force => efjc_isotensional_asymptotic_legendre.helmholtz_free_energy (number_of_links
      self) (link_length self) (hinge_mass self) (link_stiffness self) force temperature) force.

(* /repo/src/physics/single_chain/efjc/thermodynamics/isotensional/asymptotic/legendre/py.rs:79-82 *)
Definition helmholtz_free_energy_per_link (self : t T) (force : ndarray T) (temperature : T) :
    ndarray T :=
  mapv (fun force => efjc_isotensional_asymptotic_legendre.helmholtz_free_energy_per_link
      (link_length self) (hinge_mass self) (link_stiffness self) force temperature) force.

(* /repo/src/physics/single_chain/efjc/thermodynamics/isotensional/asymptotic/legendre/py.rs:92-95 *)
Definition relative_helmholtz_free_energy (self : t T) (force : ndarray T) (temperature : T) :
    ndarray T :=
  mapv (fun force => efjc_isotensional_asymptotic_legendre.relative_helmholtz_free_energy
      (number_of_links self) (link_length self) (link_stiffness self) force temperature) force.

(* /repo/src/physics/single_chain/efjc/thermodynamics/isotensional/asymptotic/legendre/py.rs:105-108 *)
Definition relative_helmholtz_free_energy_per_link (self : t T) (force : ndarray T) (temperature :
    T) : ndarray T :=
  mapv (fun force => efjc_isotensional_asymptotic_legendre.relative_helmholtz_free_energy_per_link
      (link_length self) (link_stiffness self) force temperature) force.

(* /repo/src/physics/single_chain/efjc/thermodynamics/isotensional/asymptotic/legendre/py.rs:118-121 *)
Definition nondimensional_helmholtz_free_energy (self : t T) (nondimensional_force : ndarray T)
    (temperature : T) : ndarray T :=
  mapv (fun nondimensional_force =>
      efjc_isotensional_asymptotic_legendre.nondimensional_helmholtz_free_energy (number_of_links
      self) (link_length self) (hinge_mass self) (link_stiffness self * spowi (link_length self) 2 /
      BOLTZMANN_CONSTANT / temperature) nondimensional_force temperature) nondimensional_force.

(* /repo/src/physics/single_chain/efjc/thermodynamics/isotensional/asymptotic/legendre/py.rs:131-134 *)
Definition nondimensional_helmholtz_free_energy_per_link (self : t T) (nondimensional_force :
    ndarray T) (temperature : T) : ndarray T :=
  mapv (fun nondimensional_force =>
      efjc_isotensional_asymptotic_legendre.nondimensional_helmholtz_free_energy_per_link
      (link_length self) (hinge_mass self) (link_stiffness self * spowi (link_length self) 2 /
      BOLTZMANN_CONSTANT / temperature) nondimensional_force temperature) nondimensional_force.

(* /repo/src/physics/single_chain/efjc/thermodynamics/isotensional/asymptotic/legendre/py.rs:144-147 *)
Definition nondimensional_relative_helmholtz_free_energy (self : t T) (nondimensional_force :
    ndarray T) (temperature : T) : ndarray T :=
  mapv (fun nondimensional_force =>
      efjc_isotensional_asymptotic_legendre.nondimensional_relative_helmholtz_free_energy
      (number_of_links self) (link_stiffness self * spowi (link_length self) 2 / BOLTZMANN_CONSTANT
      / temperature) nondimensional_force) nondimensional_force.

(* /repo/src/physics/single_chain/efjc/thermodynamics/isotensional/asymptotic/legendre/py.rs:157-160 *)
Definition nondimensional_relative_helmholtz_free_energy_per_link (self : t T) (nondimensional_force
    : ndarray T) (temperature : T) : ndarray T :=
  mapv (fun nondimensional_force =>
      efjc_isotensional_asymptotic_legendre.nondimensional_relative_helmholtz_free_energy_per_link
      (link_stiffness self * spowi (link_length self) 2 / BOLTZMANN_CONSTANT / temperature)
      nondimensional_force) nondimensional_force.

End Model.
End P_efjc_isotensional_asymptotic_legendre.

(** /repo/src/physics/single_chain/efjc/thermodynamics/isotensional/asymptotic/reduced/py.rs: class EFJC *)
Module P_efjc_isotensional_asymptotic_reduced.
(* /repo/src/physics/single_chain/efjc/thermodynamics/isotensional/asymptotic/reduced/py.rs:22-43 *)
Record t {T : Type} := { hinge_mass : T; link_length : T; number_of_links : Z; link_stiffness : T; legendre : P_efjc_isotensional_asymptotic_reduced_legendre.t T }.
Arguments t : clear implicits.
Section Model.
Context {T : Type} {Sc : Scalar T}.

(* /repo/src/physics/single_chain/efjc/thermodynamics/isotensional/asymptotic/reduced/py.rs:49-59 *)
Definition init (number_of_links : Z) (link_length : T) (hinge_mass : T) (link_stiffness : T) : t T
    :=
  {| hinge_mass := hinge_mass; link_length := link_length; number_of_links := number_of_links;
      link_stiffness := link_stiffness; legendre :=
      P_efjc_isotensional_asymptotic_reduced_legendre.init number_of_links link_length hinge_mass
      link_stiffness |}.

(* /repo/src/physics/single_chain/efjc/thermodynamics/isotensional/asymptotic/reduced/py.rs:72-75 *)
Definition end_to_end_length (self : t T) (force : ndarray T) (temperature : T) : ndarray T :=
  mapv (fun force => efjc_isotensional_asymptotic_reduced.end_to_end_length (number_of_links self)
      (link_length self) (link_stiffness self) force temperature) force.

(* /repo/src/physics/single_chain/efjc/thermodynamics/isotensional/asymptotic/reduced/py.rs:85-88 *)
Definition end_to_end_length_per_link (self : t T) (force : ndarray T) (temperature : T) : ndarray T
    :=
  mapv (fun force => efjc_isotensional_asymptotic_reduced.end_to_end_length_per_link (link_length
      self) (link_stiffness self) force temperature) force.

(* /repo/src/physics/single_chain/efjc/thermodynamics/isotensional/asymptotic/reduced/py.rs:98-101 *)
Definition nondimensional_end_to_end_length (self : t T) (nondimensional_force : ndarray T)
    (temperature : T) : ndarray T :=
  mapv (fun nondimensional_force =>
      efjc_isotensional_asymptotic_reduced.nondimensional_end_to_end_length (number_of_links self)
      (link_stiffness self * spowi (link_length self) 2 / BOLTZMANN_CONSTANT / temperature)
      nondimensional_force) nondimensional_force.

(* /repo/src/physics/single_chain/efjc/thermodynamics/isotensional/asymptotic/reduced/py.rs:116-119 *)
Definition nondimensional_end_to_end_length_per_link (self : t T) (nondimensional_force : ndarray T)
    (temperature : T) : ndarray T :=
  mapv (fun nondimensional_force =>
      efjc_isotensional_asymptotic_reduced.nondimensional_end_to_end_length_per_link (link_stiffness
      self * spowi (link_length self) 2 / BOLTZMANN_CONSTANT / temperature) nondimensional_force)
      nondimensional_force.

(* /repo/src/physics/single_chain/efjc/thermodynamics/isotensional/asymptotic/reduced/py.rs:132-135 *)
Definition gibbs_free_energy (self : t T) (force : ndarray T) (temperature : T) : ndarray T :=
  mapv (fun force => efjc_isotensional_asymptotic_reduced.gibbs_free_energy (number_of_links self)
      (link_length self) (hinge_mass self) (link_stiffness self) force temperature) force.

(* /repo/src/physics/single_chain/efjc/thermodynamics/isotensional/asymptotic/reduced/py.rs:145-148 *)
Definition gibbs_free_energy_per_link (self : t T) (force : ndarray T) (temperature : T) : ndarray T
    :=
  mapv (fun force => efjc_isotensional_asymptotic_reduced.gibbs_free_energy_per_link (link_length
      self) (hinge_mass self) (link_stiffness self) force temperature) force.

(* /repo/src/physics/single_chain/efjc/thermodynamics/isotensional/asymptotic/reduced/py.rs:158-161 *)
Definition relative_gibbs_free_energy (self : t T) (force : ndarray T) (temperature : T) : ndarray T
    :=
  mapv (fun force => efjc_isotensional_asymptotic_reduced.relative_gibbs_free_energy
      (number_of_links self) (link_length self) (link_stiffness self) force temperature) force.

(* /repo/src/physics/single_chain/efjc/thermodynamics/isotensional/asymptotic/reduced/py.rs:171-174 *)
Definition relative_gibbs_free_energy_per_link (self : t T) (force : ndarray T) (temperature : T) :
    ndarray T :=
  mapv (fun force => efjc_isotensional_asymptotic_reduced.relative_gibbs_free_energy_per_link
      (link_length self) (link_stiffness self) force temperature) force.

(* /repo/src/physics/single_chain/efjc/thermodynamics/isotensional/asymptotic/reduced/py.rs:184-187 *)
Definition nondimensional_gibbs_free_energy (self : t T) (nondimensional_force : ndarray T)
    (temperature : T) : ndarray T :=
  mapv (fun nondimensional_force =>
      efjc_isotensional_asymptotic_reduced.nondimensional_gibbs_free_energy (number_of_links self)
      (link_length self) (hinge_mass self) (link_stiffness self * spowi (link_length self) 2 /
      BOLTZMANN_CONSTANT / temperature) nondimensional_force temperature) nondimensional_force.

(* /repo/src/physics/single_chain/efjc/thermodynamics/isotensional/asymptotic/reduced/py.rs:197-200 *)
Definition nondimensional_gibbs_free_energy_per_link (self : t T) (nondimensional_force : ndarray T)
    (temperature : T) : ndarray T :=
  mapv (fun nondimensional_force =>
      efjc_isotensional_asymptotic_reduced.nondimensional_gibbs_free_energy_per_link (link_length
      self) (hinge_mass self) (link_stiffness self * spowi (link_length self) 2 / BOLTZMANN_CONSTANT
      / temperature) nondimensional_force temperature) nondimensional_force.

(* /repo/src/physics/single_chain/efjc/thermodynamics/isotensional/asymptotic/reduced/py.rs:210-213 *)
Definition nondimensional_relative_gibbs_free_energy (self : t T) (nondimensional_force : ndarray T)
    (temperature : T) : ndarray T :=
  mapv (fun nondimensional_force =>
      efjc_isotensional_asymptotic_reduced.nondimensional_relative_gibbs_free_energy
      (number_of_links self) (link_stiffness self * spowi (link_length self) 2 / BOLTZMANN_CONSTANT
      / temperature) nondimensional_force) nondimensional_force.

(* /repo/src/physics/single_chain/efjc/thermodynamics/isotensional/asymptotic/reduced/py.rs:226-229 *)
Definition nondimensional_relative_gibbs_free_energy_per_link (self : t T) (nondimensional_force :
    ndarray T) (temperature : T) : ndarray T :=
  mapv (fun nondimensional_force =>
      efjc_isotensional_asymptotic_reduced.nondimensional_relative_gibbs_free_energy_per_link
      (link_stiffness self * spowi (link_length self) 2 / BOLTZMANN_CONSTANT / temperature)
      nondimensional_force) nondimensional_force.

End Model.
End P_efjc_isotensional_asymptotic_reduced.

(** /repo/src/physics/single_chain/fjc/thermodynamics/modified_canonical/asymptotic/strong_potential/py.rs: class FJC *)
Module P_fjc_modified_canonical_asymptotic_strong_potential.
(* /repo/src/physics/single_chain/fjc/thermodynamics/modified_canonical/asymptotic/strong_potential/py.rs:20-33 *)
Record t {T : Type} := { hinge_mass : T; link_length : T; number_of_links : Z }.
Arguments t : clear implicits.
Section Model.
Context {T : Type} {Sc : Scalar T}.

(* /repo/src/physics/single_chain/fjc/thermodynamics/modified_canonical/asymptotic/strong_potential/py.rs:39-47 *)
Definition init (number_of_links : Z) (link_length : T) (hinge_mass : T) : t T :=
  {| hinge_mass := hinge_mass; link_length := link_length; number_of_links := number_of_links |}.

(* /repo/src/physics/single_chain/fjc/thermodynamics/modified_canonical/asymptotic/strong_potential/py.rs:58-61 *)
Definition force (prof : profile) (self : t T) (potential_distance : ndarray T) (potential_stiffness
    : T) (temperature : T) : option (ndarray T) :=
  mapv_panic (fun potential_distance => fjc_modified_canonical_asymptotic_strong_potential.force
      prof (number_of_links self) (link_length self) potential_distance potential_stiffness
      temperature) potential_distance.

(* /repo/src/physics/single_chain/fjc/thermodynamics/modified_canonical/asymptotic/strong_potential/py.rs:76-79 *)
Definition nondimensional_force (prof : profile) (self : t T) (nondimensional_potential_distance :
    ndarray T) (nondimensional_potential_stiffness : T) : option (ndarray T) :=
  mapv_panic (fun nondimensional_potential_distance =>
      fjc_modified_canonical_asymptotic_strong_potential.nondimensional_force prof (number_of_links
      self) nondimensional_potential_distance nondimensional_potential_stiffness)
      nondimensional_potential_distance.

(* /repo/src/physics/single_chain/fjc/thermodynamics/modified_canonical/asymptotic/strong_potential/py.rs:90-93 *)
Definition helmholtz_free_energy (prof : profile) (self : t T) (potential_distance : ndarray T)
    (potential_stiffness : T) (temperature : T) : option (ndarray T) :=
  mapv_panic (fun potential_distance =>
      fjc_modified_canonical_asymptotic_strong_potential.helmholtz_free_energy prof (number_of_links
      self) (link_length self) (hinge_mass self) potential_distance potential_stiffness temperature)
      potential_distance.

(* /repo/src/physics/single_chain/fjc/thermodynamics/modified_canonical/asymptotic/strong_potential/py.rs:104-107 *)
Definition helmholtz_free_energy_per_link (prof : profile) (self : t T) (potential_distance :
    ndarray T) (potential_stiffness : T) (temperature : T) : option (ndarray T) :=
  mapv_panic (fun potential_distance =>
      fjc_modified_canonical_asymptotic_strong_potential.helmholtz_free_energy_per_link prof
      (number_of_links self) (link_length self) (hinge_mass self) potential_distance
      potential_stiffness temperature) potential_distance.

(* /repo/src/physics/single_chain/fjc/thermodynamics/modified_canonical/asymptotic/strong_potential/py.rs:118-121 *)
Definition relative_helmholtz_free_energy (prof : profile) (self : t T) (potential_distance :
    ndarray T) (potential_stiffness : T) (temperature : T) : option (ndarray T) :=
  mapv_panic (fun potential_distance =>
      fjc_modified_canonical_asymptotic_strong_potential.relative_helmholtz_free_energy prof
      (number_of_links self) (link_length self) potential_distance potential_stiffness temperature)
      potential_distance.

(* /repo/src/physics/single_chain/fjc/thermodynamics/modified_canonical/asymptotic/strong_potential/py.rs:132-135 *)
Definition relative_helmholtz_free_energy_per_link (prof : profile) (self : t T) (potential_distance
    : ndarray T) (potential_stiffness : T) (temperature : T) : option (ndarray T) :=
  mapv_panic (fun potential_distance =>
      fjc_modified_canonical_asymptotic_strong_potential.relative_helmholtz_free_energy_per_link
      prof (number_of_links self) (link_length self) potential_distance potential_stiffness
      temperature) potential_distance.

(* /repo/src/physics/single_chain/fjc/thermodynamics/modified_canonical/asymptotic/strong_potential/py.rs:146-149 *)
Definition nondimensional_helmholtz_free_energy (prof : profile) (self : t T)
    (nondimensional_potential_distance : ndarray T) (nondimensional_potential_stiffness : T)
    (temperature : T) : option (ndarray T) :=
  mapv_panic (fun nondimensional_potential_distance =>
      fjc_modified_canonical_asymptotic_strong_potential.nondimensional_helmholtz_free_energy prof
      (number_of_links self) (link_length self) (hinge_mass self) nondimensional_potential_distance
      nondimensional_potential_stiffness temperature) nondimensional_potential_distance.

(* /repo/src/physics/single_chain/fjc/thermodynamics/modified_canonical/asymptotic/strong_potential/py.rs:160-163 *)
Definition nondimensional_helmholtz_free_energy_per_link (prof : profile) (self : t T)
    (nondimensional_potential_distance : ndarray T) (nondimensional_potential_stiffness : T)
    (temperature : T) : option (ndarray T) :=
  mapv_panic (fun nondimensional_potential_distance =>
      fjc_modified_canonical_asymptotic_strong_potential.nondimensional_helmholtz_free_energy_per_link
      prof (number_of_links self) (link_length self) (hinge_mass self)
      nondimensional_potential_distance nondimensional_potential_stiffness temperature)
      nondimensional_potential_distance.

(* /repo/src/physics/single_chain/fjc/thermodynamics/modified_canonical/asymptotic/strong_potential/py.rs:173-176 *)
Definition nondimensional_relative_helmholtz_free_energy (prof : profile) (self : t T)
    (nondimensional_potential_distance : ndarray T) (nondimensional_potential_stiffness : T) :
    option (ndarray T) :=
  mapv_panic (fun nondimensional_potential_distance =>
      fjc_modified_canonical_asymptotic_strong_potential.nondimensional_relative_helmholtz_free_energy
      prof (number_of_links self) nondimensional_potential_distance
      nondimensional_potential_stiffness) nondimensional_potential_distance.

(* /repo/src/physics/single_chain/fjc/thermodynamics/modified_canonical/asymptotic/strong_potential/py.rs:186-189 *)
Definition nondimensional_relative_helmholtz_free_energy_per_link (prof : profile) (self : t T)
    (nondimensional_potential_distance : ndarray T) (nondimensional_potential_stiffness : T) :
    option (ndarray T) :=
  mapv_panic (fun nondimensional_potential_distance =>
      fjc_modified_canonical_asymptotic_strong_potential.nondimensional_relative_helmholtz_free_energy_per_link
      prof (number_of_links self) nondimensional_potential_distance
      nondimensional_potential_stiffness) nondimensional_potential_distance.

End Model.
End P_fjc_modified_canonical_asymptotic_strong_potential.

(** /repo/src/physics/single_chain/fjc/thermodynamics/modified_canonical/asymptotic/weak_potential/py.rs: class FJC *)
Module P_fjc_modified_canonical_asymptotic_weak_potential.
(* /repo/src/physics/single_chain/fjc/thermodynamics/modified_canonical/asymptotic/weak_potential/py.rs:20-33 *)
Record t {T : Type} := { hinge_mass : T; link_length : T; number_of_links : Z }.
Arguments t : clear implicits.
Section Model.
Context {T : Type} {Sc : Scalar T}.

(* /repo/src/physics/single_chain/fjc/thermodynamics/modified_canonical/asymptotic/weak_potential/py.rs:39-47 *)
Definition init (number_of_links : Z) (link_length : T) (hinge_mass : T) : t T :=
  {| hinge_mass := hinge_mass; link_length := link_length; number_of_links := number_of_links |}.

(* /repo/src/physics/single_chain/fjc/thermodynamics/modified_canonical/asymptotic/weak_potential/py.rs:58-61 *)
Definition end_to_end_length (self : t T) (potential_distance : ndarray T) (potential_stiffness : T)
    (temperature : T) : ndarray T :=
  mapv (fun potential_distance => fjc_modified_canonical_asymptotic_weak_potential.end_to_end_length
      (number_of_links self) (link_length self) potential_distance potential_stiffness temperature)
      potential_distance.

(* /repo/src/physics/single_chain/fjc/thermodynamics/modified_canonical/asymptotic/weak_potential/py.rs:72-75 *)
Definition end_to_end_length_per_link (self : t T) (potential_distance : ndarray T)
    (potential_stiffness : T) (temperature : T) : ndarray T :=
  mapv (fun potential_distance =>
      fjc_modified_canonical_asymptotic_weak_potential.end_to_end_length_per_link (number_of_links
      self) (link_length self) potential_distance potential_stiffness temperature)
      potential_distance.

(* /repo/src/physics/single_chain/fjc/thermodynamics/modified_canonical/asymptotic/weak_potential/py.rs:85-88 *)
Definition nondimensional_end_to_end_length (self : t T) (nondimensional_potential_distance :
    ndarray T) (nondimensional_potential_stiffness : T) : ndarray T :=
  mapv (fun nondimensional_potential_distance =>
      fjc_modified_canonical_asymptotic_weak_potential.nondimensional_end_to_end_length
      (number_of_links self) nondimensional_potential_distance nondimensional_potential_stiffness)
      nondimensional_potential_distance.

(* /repo/src/physics/single_chain/fjc/thermodynamics/modified_canonical/asymptotic/weak_potential/py.rs:103-106 *)
Definition nondimensional_end_to_end_length_per_link (self : t T) (nondimensional_potential_distance
    : ndarray T) (nondimensional_potential_stiffness : T) : ndarray T :=
  mapv (fun nondimensional_potential_distance =>
      fjc_modified_canonical_asymptotic_weak_potential.nondimensional_end_to_end_length_per_link
      (number_of_links self) nondimensional_potential_distance nondimensional_potential_stiffness)
      nondimensional_potential_distance.

(* /repo/src/physics/single_chain/fjc/thermodynamics/modified_canonical/asymptotic/weak_potential/py.rs:116-119 *)
Definition force (self : t T) (potential_distance : ndarray T) (potential_stiffness : T) : ndarray T
    :=
  mapv (fun potential_distance => fjc_modified_canonical_asymptotic_weak_potential.force
      potential_distance potential_stiffness) potential_distance.

(* /repo/src/physics/single_chain/fjc/thermodynamics/modified_canonical/asymptotic/weak_potential/py.rs:129-132 *)
Definition nondimensional_force (self : t T) (nondimensional_potential_distance : ndarray T)
    (nondimensional_potential_stiffness : T) : ndarray T :=
  mapv (fun nondimensional_potential_distance =>
      fjc_modified_canonical_asymptotic_weak_potential.nondimensional_force (number_of_links self)
      nondimensional_potential_distance nondimensional_potential_stiffness)
      nondimensional_potential_distance.

(* /repo/src/physics/single_chain/fjc/thermodynamics/modified_canonical/asymptotic/weak_potential/py.rs:143-146 *)
Definition gibbs_free_energy (self : t T) (potential_distance : ndarray T) (potential_stiffness : T)
    (temperature : T) : ndarray T :=
  mapv (fun potential_distance => fjc_modified_canonical_asymptotic_weak_potential.gibbs_free_energy
      (number_of_links self) (link_length self) (hinge_mass self) potential_distance
      potential_stiffness temperature) potential_distance.

(* /repo/src/physics/single_chain/fjc/thermodynamics/modified_canonical/asymptotic/weak_potential/py.rs:157-160 *)
Definition gibbs_free_energy_per_link (self : t T) (potential_distance : ndarray T)
    (potential_stiffness : T) (temperature : T) : ndarray T :=
  mapv (fun potential_distance =>
      fjc_modified_canonical_asymptotic_weak_potential.gibbs_free_energy_per_link (number_of_links
      self) (link_length self) (hinge_mass self) potential_distance potential_stiffness temperature)
      potential_distance.

(* /repo/src/physics/single_chain/fjc/thermodynamics/modified_canonical/asymptotic/weak_potential/py.rs:171-174 *)
Definition relative_gibbs_free_energy (self : t T) (potential_distance : ndarray T)
    (potential_stiffness : T) (temperature : T) : ndarray T :=
  mapv (fun potential_distance =>
      fjc_modified_canonical_asymptotic_weak_potential.relative_gibbs_free_energy (number_of_links
      self) (link_length self) potential_distance potential_stiffness temperature)
      potential_distance.

(* /repo/src/physics/single_chain/fjc/thermodynamics/modified_canonical/asymptotic/weak_potential/py.rs:185-188 *)
Definition relative_gibbs_free_energy_per_link (self : t T) (potential_distance : ndarray T)
    (potential_stiffness : T) (temperature : T) : ndarray T :=
  mapv (fun potential_distance =>
      fjc_modified_canonical_asymptotic_weak_potential.relative_gibbs_free_energy_per_link
      (number_of_links self) (link_length self) potential_distance potential_stiffness temperature)
      potential_distance.

(* /repo/src/physics/single_chain/fjc/thermodynamics/modified_canonical/asymptotic/weak_potential/py.rs:199-202 *)
Definition nondimensional_gibbs_free_energy (self : t T) (nondimensional_potential_distance :
    ndarray T) (nondimensional_potential_stiffness : T) (temperature : T) : ndarray T :=
  mapv (fun nondimensional_potential_distance =>
      fjc_modified_canonical_asymptotic_weak_potential.nondimensional_gibbs_free_energy
      (number_of_links self) (link_length self) (hinge_mass self) nondimensional_potential_distance
      nondimensional_potential_stiffness temperature) nondimensional_potential_distance.

(* /repo/src/physics/single_chain/fjc/thermodynamics/modified_canonical/asymptotic/weak_potential/py.rs:213-216 *)
Definition nondimensional_gibbs_free_energy_per_link (self : t T) (nondimensional_potential_distance
    : ndarray T) (nondimensional_potential_stiffness : T) (temperature : T) : ndarray T :=
  mapv (fun nondimensional_potential_distance =>
      fjc_modified_canonical_asymptotic_weak_potential.nondimensional_gibbs_free_energy_per_link
      (number_of_links self) (link_length self) (hinge_mass self) nondimensional_potential_distance
      nondimensional_potential_stiffness temperature) nondimensional_potential_distance.

(* /repo/src/physics/single_chain/fjc/thermodynamics/modified_canonical/asymptotic/weak_potential/py.rs:226-229 *)
Definition nondimensional_relative_gibbs_free_energy (self : t T) (nondimensional_potential_distance
    : ndarray T) (nondimensional_potential_stiffness : T) : ndarray T :=
  mapv (fun nondimensional_potential_distance =>
      fjc_modified_canonical_asymptotic_weak_potential.nondimensional_relative_gibbs_free_energy
      (number_of_links self) nondimensional_potential_distance nondimensional_potential_stiffness)
      nondimensional_potential_distance.

(* /repo/src/physics/single_chain/fjc/thermodynamics/modified_canonical/asymptotic/weak_potential/py.rs:239-242 *)
Definition nondimensional_relative_gibbs_free_energy_per_link (self : t T)
    (nondimensional_potential_distance : ndarray T) (nondimensional_potential_stiffness : T) :
    ndarray T :=
  mapv (fun nondimensional_potential_distance =>
      fjc_modified_canonical_asymptotic_weak_potential.nondimensional_relative_gibbs_free_energy_per_link
      (number_of_links self) nondimensional_potential_distance nondimensional_potential_stiffness)
      nondimensional_potential_distance.

End Model.
End P_fjc_modified_canonical_asymptotic_weak_potential.

(** /repo/src/physics/single_chain/ufjc/lennard_jones/thermodynamics/isometric/asymptotic/py.rs: class LENNARDJONESFJC *)
Module P_lennard_jones_isometric_asymptotic.
(* /repo/src/physics/single_chain/ufjc/lennard_jones/thermodynamics/isometric/asymptotic/py.rs:16-41 *)
Record t {T : Type} := { hinge_mass : T; link_length : T; number_of_links : Z; link_stiffness : T; reduced : P_lennard_jones_isometric_asymptotic_reduced.t T; legendre : P_lennard_jones_isometric_asymptotic_legendre.t T }.
Arguments t : clear implicits.
Section Model.
Context {T : Type} {Sc : Scalar T}.

(* /repo/src/physics/single_chain/ufjc/lennard_jones/thermodynamics/isometric/asymptotic/py.rs:47-58 *)
Definition init (number_of_links : Z) (link_length : T) (hinge_mass : T) (link_stiffness : T) : t T
    :=
  {| hinge_mass := hinge_mass; link_length := link_length; number_of_links := number_of_links;
      link_stiffness := link_stiffness; reduced := P_lennard_jones_isometric_asymptotic_reduced.init
      number_of_links link_length hinge_mass link_stiffness; legendre :=
      P_lennard_jones_isometric_asymptotic_legendre.init number_of_links link_length hinge_mass
      link_stiffness |}.

End Model.
End P_lennard_jones_isometric_asymptotic.

(** /repo/src/physics/single_chain/ufjc/lennard_jones/thermodynamics/isotensional/asymptotic/py.rs: class LENNARDJONESFJC *)
Module P_lennard_jones_isotensional_asymptotic.
(* /repo/src/physics/single_chain/ufjc/lennard_jones/thermodynamics/isotensional/asymptotic/py.rs:23-48 *)
Record t {T : Type} := { hinge_mass : T; link_length : T; number_of_links : Z; link_stiffness : T; reduced : P_lennard_jones_isotensional_asymptotic_reduced.t T; legendre : P_lennard_jones_isotensional_asymptotic_legendre.t T }.
Arguments t : clear implicits.
Section Model.
Context {T : Type} {Sc : Scalar T}.

(* /repo/src/physics/single_chain/ufjc/lennard_jones/thermodynamics/isotensional/asymptotic/py.rs:54-65 *)
Definition init (number_of_links : Z) (link_length : T) (hinge_mass : T) (link_stiffness : T) : t T
    :=
  {| hinge_mass := hinge_mass; link_length := link_length; number_of_links := number_of_links;
      link_stiffness := link_stiffness; reduced :=
      P_lennard_jones_isotensional_asymptotic_reduced.init number_of_links link_length hinge_mass
      link_stiffness; legendre := P_lennard_jones_isotensional_asymptotic_legendre.init
      number_of_links link_length hinge_mass link_stiffness |}.

(* /repo/src/physics/single_chain/ufjc/lennard_jones/thermodynamics/isotensional/asymptotic/py.rs:78-81 *)
Definition end_to_end_length (self : t T) (force : ndarray T) (temperature : T) : ndarray T :=
  mapv (fun force => lennard_jones_isotensional_asymptotic.end_to_end_length (number_of_links self)
      (link_length self) (link_stiffness self) force temperature) force.

(* /repo/src/physics/single_chain/ufjc/lennard_jones/thermodynamics/isotensional/asymptotic/py.rs:91-94 *)
Definition end_to_end_length_per_link (self : t T) (force : ndarray T) (temperature : T) : ndarray T
    :=
  mapv (fun force => lennard_jones_isotensional_asymptotic.end_to_end_length_per_link (link_length
      self) (link_stiffness self) force temperature) force.

(* /repo/src/physics/single_chain/ufjc/lennard_jones/thermodynamics/isotensional/asymptotic/py.rs:104-107 *)
Definition nondimensional_end_to_end_length (self : t T) (nondimensional_force : ndarray T)
    (temperature : T) : ndarray T :=
  mapv (fun nondimensional_force =>
      lennard_jones_isotensional_asymptotic.nondimensional_end_to_end_length (number_of_links self)
      (link_stiffness self * spowi (link_length self) 2 / BOLTZMANN_CONSTANT / temperature)
      nondimensional_force) nondimensional_force.

(* /repo/src/physics/single_chain/ufjc/lennard_jones/thermodynamics/isotensional/asymptotic/py.rs:125-128 *)
Definition nondimensional_end_to_end_length_per_link (self : t T) (nondimensional_force : ndarray T)
    (temperature : T) : ndarray T :=
  mapv (fun nondimensional_force =>
      lennard_jones_isotensional_asymptotic.nondimensional_end_to_end_length_per_link
      (link_stiffness self * spowi (link_length self) 2 / BOLTZMANN_CONSTANT / temperature)
      nondimensional_force) nondimensional_force.

(* /repo/src/physics/single_chain/ufjc/lennard_jones/thermodynamics/isotensional/asymptotic/py.rs:141-144 *)
Definition gibbs_free_energy (self : t T) (force : ndarray T) (temperature : T) : ndarray T :=
  mapv (fun force => lennard_jones_isotensional_asymptotic.gibbs_free_energy (number_of_links self)
      (link_length self) (hinge_mass self) (link_stiffness self) force temperature) force.

(* /repo/src/physics/single_chain/ufjc/lennard_jones/thermodynamics/isotensional/asymptotic/py.rs:154-157 *)
Definition gibbs_free_energy_per_link (self : t T) (force : ndarray T) (temperature : T) : ndarray T
    :=
  mapv (fun force => lennard_jones_isotensional_asymptotic.gibbs_free_energy_per_link (link_length
      self) (hinge_mass self) (link_stiffness self) force temperature) force.

(* /repo/src/physics/single_chain/ufjc/lennard_jones/thermodynamics/isotensional/asymptotic/py.rs:167-170 *)
Definition relative_gibbs_free_energy (self : t T) (force : ndarray T) (temperature : T) : ndarray T
    :=
  mapv (fun force => lennard_jones_isotensional_asymptotic.relative_gibbs_free_energy
      (number_of_links self) (link_length self) (link_stiffness self) force temperature) force.

(* /repo/src/physics/single_chain/ufjc/lennard_jones/thermodynamics/isotensional/asymptotic/py.rs:180-183 *)
Definition relative_gibbs_free_energy_per_link (self : t T) (force : ndarray T) (temperature : T) :
    ndarray T :=
  mapv (fun force => lennard_jones_isotensional_asymptotic.relative_gibbs_free_energy_per_link
      (link_length self) (link_stiffness self) force temperature) force.

(* /repo/src/physics/single_chain/ufjc/lennard_jones/thermodynamics/isotensional/asymptotic/py.rs:193-196 *)
Definition nondimensional_gibbs_free_energy (self : t T) (nondimensional_force : ndarray T)
    (temperature : T) : ndarray T :=
  mapv (fun nondimensional_force =>
      lennard_jones_isotensional_asymptotic.nondimensional_gibbs_free_energy (number_of_links self)
      (link_length self) (hinge_mass self) (link_stiffness self * spowi (link_length self) 2 /
      BOLTZMANN_CONSTANT / temperature) nondimensional_force temperature) nondimensional_force.

(* /repo/src/physics/single_chain/ufjc/lennard_jones/thermodynamics/isotensional/asymptotic/py.rs:206-209 *)
Definition nondimensional_gibbs_free_energy_per_link (self : t T) (nondimensional_force : ndarray T)
    (temperature : T) : ndarray T :=
  mapv (fun nondimensional_force =>
      lennard_jones_isotensional_asymptotic.nondimensional_gibbs_free_energy_per_link (link_length
      self) (hinge_mass self) (link_stiffness self * spowi (link_length self) 2 / BOLTZMANN_CONSTANT
      / temperature) nondimensional_force temperature) nondimensional_force.

(* /repo/src/physics/single_chain/ufjc/lennard_jones/thermodynamics/isotensional/asymptotic/py.rs:219-222 *)
Definition nondimensional_relative_gibbs_free_energy (self : t T) (nondimensional_force : ndarray T)
    (temperature : T) : ndarray T :=
  mapv (fun nondimensional_force =>
      lennard_jones_isotensional_asymptotic.nondimensional_relative_gibbs_free_energy
      (number_of_links self) (link_stiffness self * spowi (link_length self) 2 / BOLTZMANN_CONSTANT
      / temperature) nondimensional_force) nondimensional_force.

(* /repo/src/physics/single_chain/ufjc/lennard_jones/thermodynamics/isotensional/asymptotic/py.rs:245-248 *)
Definition nondimensional_relative_gibbs_free_energy_per_link (self : t T) (nondimensional_force :
    ndarray T) (temperature : T) : ndarray T :=
  mapv (fun nondimensional_force =>
      lennard_jones_isotensional_asymptotic.nondimensional_relative_gibbs_free_energy_per_link
      (link_stiffness self * spowi (link_length self) 2 / BOLTZMANN_CONSTANT / temperature)
      nondimensional_force) nondimensional_force.

End Model.
End P_lennard_jones_isotensional_asymptotic.

(** /repo/src/physics/single_chain/ufjc/lennard_jones/thermodynamics/isotensional/legendre/py.rs: class LENNARDJONESFJC *)
Module P_lennard_jones_isotensional_legendre.
(* /repo/src/physics/single_chain/ufjc/lennard_jones/thermodynamics/isotensional/legendre/py.rs:21-38 *)
Record t {T : Type} := { hinge_mass : T; link_length : T; number_of_links : Z; link_stiffness : T }.
Arguments t : clear implicits.
Section Model.
Context {T : Type} {Sc : Scalar T}.

(* /repo/src/physics/single_chain/ufjc/lennard_jones/thermodynamics/isotensional/legendre/py.rs:44-53 *)
Definition init (number_of_links : Z) (link_length : T) (hinge_mass : T) (link_stiffness : T) : t T
    :=
  {| hinge_mass := hinge_mass; link_length := link_length; number_of_links := number_of_links;
      link_stiffness := link_stiffness |}.

(* /repo/src/physics/single_chain/ufjc/lennard_jones/thermodynamics/isotensional/legendre/py.rs:66-69 *)
Definition helmholtz_free_energy (self : t T) (force : ndarray T) (temperature : T) : ndarray T :=
  mapv (fun force => lennard_jones_isotensional_legendre.helmholtz_free_energy (number_of_links
      self) (link_length self) (hinge_mass self) (link_stiffness self) force temperature) force.

(* /repo/src/physics/single_chain/ufjc/lennard_jones/thermodynamics/isotensional/legendre/py.rs:79-82 *)
Definition helmholtz_free_energy_per_link (self : t T) (force : ndarray T) (temperature : T) :
    ndarray T :=
  mapv (fun force => lennard_jones_isotensional_legendre.helmholtz_free_energy_per_link (link_length
      self) (hinge_mass self) (link_stiffness self) force temperature) force.

(* /repo/src/physics/single_chain/ufjc/lennard_jones/thermodynamics/isotensional/legendre/py.rs:92-95 *)
Definition relative_helmholtz_free_energy (self : t T) (force : ndarray T) (temperature : T) :
    ndarray T :=
  mapv (fun force => lennard_jones_isotensional_legendre.relative_helmholtz_free_energy
      (number_of_links self) (link_length self) (link_stiffness self) force temperature) force.

(* /repo/src/physics/single_chain/ufjc/lennard_jones/thermodynamics/isotensional/legendre/py.rs:105-108 *)
Definition relative_helmholtz_free_energy_per_link (self : t T) (force : ndarray T) (temperature :
    T) : ndarray T :=
  mapv (fun force => lennard_jones_isotensional_legendre.relative_helmholtz_free_energy_per_link
      (link_length self) (link_stiffness self) force temperature) force.

(* /repo/src/physics/single_chain/ufjc/lennard_jones/thermodynamics/isotensional/legendre/py.rs:118-121 *)
Definition nondimensional_helmholtz_free_energy (self : t T) (nondimensional_force : ndarray T)
    (temperature : T) : ndarray T :=
  mapv (fun nondimensional_force =>
      lennard_jones_isotensional_legendre.nondimensional_helmholtz_free_energy (number_of_links
      self) (link_length self) (hinge_mass self) (link_stiffness self * spowi (link_length self) 2 /
      BOLTZMANN_CONSTANT / temperature) nondimensional_force temperature) nondimensional_force.

(* /repo/src/physics/single_chain/ufjc/lennard_jones/thermodynamics/isotensional/legendre/py.rs:131-134 *)
Definition nondimensional_helmholtz_free_energy_per_link (self : t T) (nondimensional_force :
    ndarray T) (temperature : T) : ndarray T :=
  mapv (fun nondimensional_force =>
      lennard_jones_isotensional_legendre.nondimensional_helmholtz_free_energy_per_link (link_length
      self) (hinge_mass self) (link_stiffness self * spowi (link_length self) 2 / BOLTZMANN_CONSTANT
      / temperature) nondimensional_force temperature) nondimensional_force.

(* /repo/src/physics/single_chain/ufjc/lennard_jones/thermodynamics/isotensional/legendre/py.rs:144-147 *)
Definition nondimensional_relative_helmholtz_free_energy (self : t T) (nondimensional_force :
    ndarray T) (temperature : T) : ndarray T :=
  mapv (fun nondimensional_force =>
      lennard_jones_isotensional_legendre.nondimensional_relative_helmholtz_free_energy
      (number_of_links self) (link_stiffness self * spowi (link_length self) 2 / BOLTZMANN_CONSTANT
      / temperature) nondimensional_force) nondimensional_force.

(* /repo/src/physics/single_chain/ufjc/lennard_jones/thermodynamics/isotensional/legendre/py.rs:157-160 *)
Definition nondimensional_relative_helmholtz_free_energy_per_link (self : t T) (nondimensional_force
    : ndarray T) (temperature : T) : ndarray T :=
  mapv (fun nondimensional_force =>
      lennard_jones_isotensional_legendre.nondimensional_relative_helmholtz_free_energy_per_link
      (link_stiffness self * spowi (link_length self) 2 / BOLTZMANN_CONSTANT / temperature)
      nondimensional_force) nondimensional_force.

End Model.
End P_lennard_jones_isotensional_legendre.

(** /repo/src/physics/single_chain/ufjc/log_squared/thermodynamics/isometric/asymptotic/py.rs: class LOGSQUAREDFJC *)
Module P_log_squared_isometric_asymptotic.
(* /repo/src/physics/single_chain/ufjc/log_squared/thermodynamics/isometric/asymptotic/py.rs:16-41 *)
Record t {T : Type} := { hinge_mass : T; link_length : T; number_of_links : Z; link_stiffness : T; reduced : P_log_squared_isometric_asymptotic_reduced.t T; legendre : P_log_squared_isometric_asymptotic_legendre.t T }.
Arguments t : clear implicits.
Section Model.
Context {T : Type} {Sc : Scalar T}.

(* /repo/src/physics/single_chain/ufjc/log_squared/thermodynamics/isometric/asymptotic/py.rs:47-58 *)
Definition init (number_of_links : Z) (link_length : T) (hinge_mass : T) (link_stiffness : T) : t T
    :=
  {| hinge_mass := hinge_mass; link_length := link_length; number_of_links := number_of_links;
      link_stiffness := link_stiffness; reduced := P_log_squared_isometric_asymptotic_reduced.init
      number_of_links link_length hinge_mass link_stiffness; legendre :=
      P_log_squared_isometric_asymptotic_legendre.init number_of_links link_length hinge_mass
      link_stiffness |}.

End Model.
End P_log_squared_isometric_asymptotic.

(** /repo/src/physics/single_chain/ufjc/log_squared/thermodynamics/isotensional/asymptotic/py.rs: class LOGSQUAREDFJC *)
Module P_log_squared_isotensional_asymptotic.
(* /repo/src/physics/single_chain/ufjc/log_squared/thermodynamics/isotensional/asymptotic/py.rs:23-48 *)
Record t {T : Type} := { hinge_mass : T; link_length : T; number_of_links : Z; link_stiffness : T; reduced : P_log_squared_isotensional_asymptotic_reduced.t T; legendre : P_log_squared_isotensional_asymptotic_legendre.t T }.
Arguments t : clear implicits.
Section Model.
Context {T : Type} {Sc : Scalar T}.

(* /repo/src/physics/single_chain/ufjc/log_squared/thermodynamics/isotensional/asymptotic/py.rs:54-65 *)
Definition init (number_of_links : Z) (link_length : T) (hinge_mass : T) (link_stiffness : T) : t T
    :=
  {| hinge_mass := hinge_mass; link_length := link_length; number_of_links := number_of_links;
      link_stiffness := link_stiffness; reduced :=
      P_log_squared_isotensional_asymptotic_reduced.init number_of_links link_length hinge_mass
      link_stiffness; legendre := P_log_squared_isotensional_asymptotic_legendre.init
      number_of_links link_length hinge_mass link_stiffness |}.

(* /repo/src/physics/single_chain/ufjc/log_squared/thermodynamics/isotensional/asymptotic/py.rs:78-81 *)
Definition end_to_end_length (self : t T) (force : ndarray T) (temperature : T) : ndarray T :=
  mapv (fun force => log_squared_isotensional_asymptotic.end_to_end_length (number_of_links self)
      (link_length self) (link_stiffness self) force temperature) force.

(* /repo/src/physics/single_chain/ufjc/log_squared/thermodynamics/isotensional/asymptotic/py.rs:91-94 *)
Definition end_to_end_length_per_link (self : t T) (force : ndarray T) (temperature : T) : ndarray T
    :=
  mapv (fun force => log_squared_isotensional_asymptotic.end_to_end_length_per_link (link_length
      self) (link_stiffness self) force temperature) force.

(* /repo/src/physics/single_chain/ufjc/log_squared/thermodynamics/isotensional/asymptotic/py.rs:104-107 *)
Definition nondimensional_end_to_end_length (self : t T) (nondimensional_force : ndarray T)
    (temperature : T) : ndarray T :=
  mapv (fun nondimensional_force =>
      log_squared_isotensional_asymptotic.nondimensional_end_to_end_length (number_of_links self)
      (link_stiffness self * spowi (link_length self) 2 / BOLTZMANN_CONSTANT / temperature)
      nondimensional_force) nondimensional_force.

(* /repo/src/physics/single_chain/ufjc/log_squared/thermodynamics/isotensional/asymptotic/py.rs:127-130 *)
Definition nondimensional_end_to_end_length_per_link (self : t T) (nondimensional_force : ndarray T)
    (temperature : T) : ndarray T :=
  mapv (fun nondimensional_force =>
      log_squared_isotensional_asymptotic.nondimensional_end_to_end_length_per_link (link_stiffness
      self * spowi (link_length self) 2 / BOLTZMANN_CONSTANT / temperature) nondimensional_force)
      nondimensional_force.

(* /repo/src/physics/single_chain/ufjc/log_squared/thermodynamics/isotensional/asymptotic/py.rs:143-146 *)
Definition gibbs_free_energy (self : t T) (force : ndarray T) (temperature : T) : ndarray T :=
  mapv (fun force => log_squared_isotensional_asymptotic.gibbs_free_energy (number_of_links self)
      (link_length self) (hinge_mass self) (link_stiffness self) force temperature) force.

(* /repo/src/physics/single_chain/ufjc/log_squared/thermodynamics/isotensional/asymptotic/py.rs:156-159 *)
Definition gibbs_free_energy_per_link (self : t T) (force : ndarray T) (temperature : T) : ndarray T
    :=
  mapv (fun force => log_squared_isotensional_asymptotic.gibbs_free_energy_per_link (link_length
      self) (hinge_mass self) (link_stiffness self) force temperature) force.

(* /repo/src/physics/single_chain/ufjc/log_squared/thermodynamics/isotensional/asymptotic/py.rs:169-172 *)
Definition relative_gibbs_free_energy (self : t T) (force : ndarray T) (temperature : T) : ndarray T
    :=
  mapv (fun force => log_squared_isotensional_asymptotic.relative_gibbs_free_energy (number_of_links
      self) (link_length self) (link_stiffness self) force temperature) force.

(* /repo/src/physics/single_chain/ufjc/log_squared/thermodynamics/isotensional/asymptotic/py.rs:182-185 *)
Definition relative_gibbs_free_energy_per_link (self : t T) (force : ndarray T) (temperature : T) :
    ndarray T :=
  mapv (fun force => log_squared_isotensional_asymptotic.relative_gibbs_free_energy_per_link
      (link_length self) (link_stiffness self) force temperature) force.

(* /repo/src/physics/single_chain/ufjc/log_squared/thermodynamics/isotensional/asymptotic/py.rs:195-198 *)
Definition nondimensional_gibbs_free_energy (self : t T) (nondimensional_force : ndarray T)
    (temperature : T) : ndarray T :=
  mapv (fun nondimensional_force =>
      log_squared_isotensional_asymptotic.nondimensional_gibbs_free_energy (number_of_links self)
      (link_length self) (hinge_mass self) (link_stiffness self * spowi (link_length self) 2 /
      BOLTZMANN_CONSTANT / temperature) nondimensional_force temperature) nondimensional_force.

(* /repo/src/physics/single_chain/ufjc/log_squared/thermodynamics/isotensional/asymptotic/py.rs:208-211 *)
Definition nondimensional_gibbs_free_energy_per_link (self : t T) (nondimensional_force : ndarray T)
    (temperature : T) : ndarray T :=
  mapv (fun nondimensional_force =>
      log_squared_isotensional_asymptotic.nondimensional_gibbs_free_energy_per_link (link_length
      self) (hinge_mass self) (link_stiffness self * spowi (link_length self) 2 / BOLTZMANN_CONSTANT
      / temperature) nondimensional_force temperature) nondimensional_force.

(* /repo/src/physics/single_chain/ufjc/log_squared/thermodynamics/isotensional/asymptotic/py.rs:221-224 *)
Definition nondimensional_relative_gibbs_free_energy (self : t T) (nondimensional_force : ndarray T)
    (temperature : T) : ndarray T :=
  mapv (fun nondimensional_force =>
      log_squared_isotensional_asymptotic.nondimensional_relative_gibbs_free_energy (number_of_links
      self) (link_stiffness self * spowi (link_length self) 2 / BOLTZMANN_CONSTANT / temperature)
      nondimensional_force) nondimensional_force.

(* /repo/src/physics/single_chain/ufjc/log_squared/thermodynamics/isotensional/asymptotic/py.rs:247-250 *)
Definition nondimensional_relative_gibbs_free_energy_per_link (self : t T) (nondimensional_force :
    ndarray T) (temperature : T) : ndarray T :=
  mapv (fun nondimensional_force =>
      log_squared_isotensional_asymptotic.nondimensional_relative_gibbs_free_energy_per_link
      (link_stiffness self * spowi (link_length self) 2 / BOLTZMANN_CONSTANT / temperature)
      nondimensional_force) nondimensional_force.

End Model.
End P_log_squared_isotensional_asymptotic.

(** /repo/src/physics/single_chain/ufjc/log_squared/thermodynamics/isotensional/legendre/py.rs: class LOGSQUAREDFJC *)
Module P_log_squared_isotensional_legendre.
(* /repo/src/physics/single_chain/ufjc/log_squared/thermodynamics/isotensional/legendre/py.rs:21-38 *)
Record t {T : Type} := { hinge_mass : T; link_length : T; number_of_links : Z; link_stiffness : T }.
Arguments t : clear implicits.
Section Model.
Context {T : Type} {Sc : Scalar T}.

(* /repo/src/physics/single_chain/ufjc/log_squared/thermodynamics/isotensional/legendre/py.rs:44-53 *)
Definition init (number_of_links : Z) (link_length : T) (hinge_mass : T) (link_stiffness : T) : t T
    :=
  {| hinge_mass := hinge_mass; link_length := link_length; number_of_links := number_of_links;
      link_stiffness := link_stiffness |}.

(* /repo/src/physics/single_chain/ufjc/log_squared/thermodynamics/isotensional/legendre/py.rs:66-69 *)
Definition helmholtz_free_energy (self : t T) (force : ndarray T) (temperature : T) : ndarray T :=
  mapv (fun force => log_squared_isotensional_legendre.helmholtz_free_energy (number_of_links self)
      (link_length self) (hinge_mass self) (link_stiffness self) force temperature) force.

(* /repo/src/physics/single_chain/ufjc/log_squared/thermodynamics/isotensional/legendre/py.rs:79-82 *)
Definition helmholtz_free_energy_per_link (self : t T) (force : ndarray T) (temperature : T) :
    ndarray T :=
  mapv (fun force => log_squared_isotensional_legendre.helmholtz_free_energy_per_link (link_length
      self) (hinge_mass self) (link_stiffness self) force temperature) force.

(* /repo/src/physics/single_chain/ufjc/log_squared/thermodynamics/isotensional/legendre/py.rs:92-95 *)
Definition relative_helmholtz_free_energy (self : t T) (force : ndarray T) (temperature : T) :
    ndarray T :=
  mapv (fun force => log_squared_isotensional_legendre.relative_helmholtz_free_energy
      (number_of_links self) (link_length self) (link_stiffness self) force temperature) force.

(* /repo/src/physics/single_chain/ufjc/log_squared/thermodynamics/isotensional/legendre/py.rs:105-108 *)
Definition relative_helmholtz_free_energy_per_link (self : t T) (force : ndarray T) (temperature :
    T) : ndarray T :=
  mapv (fun force => log_squared_isotensional_legendre.relative_helmholtz_free_energy_per_link
      (link_length self) (link_stiffness self) force temperature) force.

(* /repo/src/physics/single_chain/ufjc/log_squared/thermodynamics/isotensional/legendre/py.rs:118-121 *)
Definition nondimensional_helmholtz_free_energy (self : t T) (nondimensional_force : ndarray T)
    (temperature : T) : ndarray T :=
  mapv (fun nondimensional_force =>
      log_squared_isotensional_legendre.nondimensional_helmholtz_free_energy (number_of_links self)
      (link_length self) (hinge_mass self) (link_stiffness self * spowi (link_length self) 2 /
      BOLTZMANN_CONSTANT / temperature) nondimensional_force temperature) nondimensional_force.

(* /repo/src/physics/single_chain/ufjc/log_squared/thermodynamics/isotensional/legendre/py.rs:131-134 *)
Definition nondimensional_helmholtz_free_energy_per_link (self : t T) (nondimensional_force :
    ndarray T) (temperature : T) : ndarray T :=
  mapv (fun nondimensional_force =>
      log_squared_isotensional_legendre.nondimensional_helmholtz_free_energy_per_link (link_length
      self) (hinge_mass self) (link_stiffness self * spowi (link_length self) 2 / BOLTZMANN_CONSTANT
      / temperature) nondimensional_force temperature) nondimensional_force.

(* /repo/src/physics/single_chain/ufjc/log_squared/thermodynamics/isotensional/legendre/py.rs:144-147 *)
Definition nondimensional_relative_helmholtz_free_energy (self : t T) (nondimensional_force :
    ndarray T) (temperature : T) : ndarray T :=
  mapv (fun nondimensional_force =>
      log_squared_isotensional_legendre.nondimensional_relative_helmholtz_free_energy
      (number_of_links self) (link_stiffness self * spowi (link_length self) 2 / BOLTZMANN_CONSTANT
      / temperature) nondimensional_force) nondimensional_force.

(* /repo/src/physics/single_chain/ufjc/log_squared/thermodynamics/isotensional/legendre/py.rs:157-160 *)
Definition nondimensional_relative_helmholtz_free_energy_per_link (self : t T) (nondimensional_force
    : ndarray T) (temperature : T) : ndarray T :=
  mapv (fun nondimensional_force =>
      log_squared_isotensional_legendre.nondimensional_relative_helmholtz_free_energy_per_link
      (link_stiffness self * spowi (link_length self) 2 / BOLTZMANN_CONSTANT / temperature)
      nondimensional_force) nondimensional_force.

End Model.
End P_log_squared_isotensional_legendre.

(** /repo/src/physics/single_chain/ufjc/morse/thermodynamics/isometric/asymptotic/py.rs: class MORSEFJC *)
Module P_morse_isometric_asymptotic.
(* /repo/src/physics/single_chain/ufjc/morse/thermodynamics/isometric/asymptotic/py.rs:16-45 *)
Record t {T : Type} := { hinge_mass : T; link_length : T; number_of_links : Z; link_stiffness : T; link_energy : T; reduced : P_morse_isometric_asymptotic_reduced.t T; legendre : P_morse_isometric_asymptotic_legendre.t T }.
Arguments t : clear implicits.
Section Model.
Context {T : Type} {Sc : Scalar T}.

(* /repo/src/physics/single_chain/ufjc/morse/thermodynamics/isometric/asymptotic/py.rs:51-63 *)
Definition init (number_of_links : Z) (link_length : T) (hinge_mass : T) (link_stiffness : T)
    (link_energy : T) : t T :=
  {| hinge_mass := hinge_mass; link_length := link_length; number_of_links := number_of_links;
      link_stiffness := link_stiffness; link_energy := link_energy; reduced :=
      P_morse_isometric_asymptotic_reduced.init number_of_links link_length hinge_mass
      link_stiffness link_energy; legendre := P_morse_isometric_asymptotic_legendre.init
      number_of_links link_length hinge_mass link_stiffness link_energy |}.

End Model.
End P_morse_isometric_asymptotic.

(** /repo/src/physics/single_chain/ufjc/morse/thermodynamics/isotensional/asymptotic/py.rs: class MORSEFJC *)
Module P_morse_isotensional_asymptotic.
(* /repo/src/physics/single_chain/ufjc/morse/thermodynamics/isotensional/asymptotic/py.rs:23-52 *)
Record t {T : Type} := { hinge_mass : T; link_length : T; number_of_links : Z; link_stiffness : T; link_energy : T; reduced : P_morse_isotensional_asymptotic_reduced.t T; legendre : P_morse_isotensional_asymptotic_legendre.t T }.
Arguments t : clear implicits.
Section Model.
Context {T : Type} {Sc : Scalar T}.

(* /repo/src/physics/single_chain/ufjc/morse/thermodynamics/isotensional/asymptotic/py.rs:58-70 *)
Definition init (number_of_links : Z) (link_length : T) (hinge_mass : T) (link_stiffness : T)
    (link_energy : T) : t T :=
  {| hinge_mass := hinge_mass; link_length := link_length; number_of_links := number_of_links;
      link_stiffness := link_stiffness; link_energy := link_energy; reduced :=
      P_morse_isotensional_asymptotic_reduced.init number_of_links link_length hinge_mass
      link_stiffness link_energy; legendre := P_morse_isotensional_asymptotic_legendre.init
      number_of_links link_length hinge_mass link_stiffness link_energy |}.

(* /repo/src/physics/single_chain/ufjc/morse/thermodynamics/isotensional/asymptotic/py.rs:83-86 *)
Definition end_to_end_length (self : t T) (force : ndarray T) (temperature : T) : ndarray T :=
  mapv (fun force => morse_isotensional_asymptotic.end_to_end_length (number_of_links self)
      (link_length self) (link_stiffness self) (link_energy self) force temperature) force.

(* /repo/src/physics/single_chain/ufjc/morse/thermodynamics/isotensional/asymptotic/py.rs:96-99 *)
Definition end_to_end_length_per_link (self : t T) (force : ndarray T) (temperature : T) : ndarray T
    :=
  mapv (fun force => morse_isotensional_asymptotic.end_to_end_length_per_link (link_length self)
      (link_stiffness self) (link_energy self) force temperature) force.

(* /repo/src/physics/single_chain/ufjc/morse/thermodynamics/isotensional/asymptotic/py.rs:109-112 *)
Definition nondimensional_end_to_end_length (self : t T) (nondimensional_force : ndarray T)
    (temperature : T) : ndarray T :=
  mapv (fun nondimensional_force => morse_isotensional_asymptotic.nondimensional_end_to_end_length
      (number_of_links self) (link_stiffness self * spowi (link_length self) 2 / BOLTZMANN_CONSTANT
      / temperature) (link_energy self / BOLTZMANN_CONSTANT / temperature) nondimensional_force)
      nondimensional_force.

(* /repo/src/physics/single_chain/ufjc/morse/thermodynamics/isotensional/asymptotic/py.rs:132-135 *)
Definition nondimensional_end_to_end_length_per_link (self : t T) (nondimensional_force : ndarray T)
    (temperature : T) : ndarray T :=
  mapv (fun nondimensional_force =>
      morse_isotensional_asymptotic.nondimensional_end_to_end_length_per_link (link_stiffness self *
      spowi (link_length self) 2 / BOLTZMANN_CONSTANT / temperature) (link_energy self /
      BOLTZMANN_CONSTANT / temperature) nondimensional_force) nondimensional_force.

(* /repo/src/physics/single_chain/ufjc/morse/thermodynamics/isotensional/asymptotic/py.rs:148-151 *)
Definition gibbs_free_energy (self : t T) (force : ndarray T) (temperature : T) : ndarray T :=
  mapv (fun force => morse_isotensional_asymptotic.gibbs_free_energy (number_of_links self)
      (link_length self) (hinge_mass self) (link_stiffness self) (link_energy self) force
      temperature) force.

(* /repo/src/physics/single_chain/ufjc/morse/thermodynamics/isotensional/asymptotic/py.rs:161-164 *)
Definition gibbs_free_energy_per_link (self : t T) (force : ndarray T) (temperature : T) : ndarray T
    :=
  mapv (fun force => morse_isotensional_asymptotic.gibbs_free_energy_per_link (link_length self)
      (hinge_mass self) (link_stiffness self) (link_energy self) force temperature) force.

(* /repo/src/physics/single_chain/ufjc/morse/thermodynamics/isotensional/asymptotic/py.rs:174-177 *)
Definition relative_gibbs_free_energy (self : t T) (force : ndarray T) (temperature : T) : ndarray T
    :=
  mapv (fun force => morse_isotensional_asymptotic.relative_gibbs_free_energy (number_of_links self)
      (link_length self) (link_stiffness self) (link_energy self) force temperature) force.

(* /repo/src/physics/single_chain/ufjc/morse/thermodynamics/isotensional/asymptotic/py.rs:187-190 *)
Definition relative_gibbs_free_energy_per_link (self : t T) (force : ndarray T) (temperature : T) :
    ndarray T :=
  mapv (fun force => morse_isotensional_asymptotic.relative_gibbs_free_energy_per_link (link_length
      self) (link_stiffness self) (link_energy self) force temperature) force.

(* /repo/src/physics/single_chain/ufjc/morse/thermodynamics/isotensional/asymptotic/py.rs:200-203 *)
Definition nondimensional_gibbs_free_energy (self : t T) (nondimensional_force : ndarray T)
    (temperature : T) : ndarray T :=
  mapv (fun nondimensional_force => morse_isotensional_asymptotic.nondimensional_gibbs_free_energy
      (number_of_links self) (link_length self) (hinge_mass self) (link_stiffness self * spowi
      (link_length self) 2 / BOLTZMANN_CONSTANT / temperature) (link_energy self /
      BOLTZMANN_CONSTANT / temperature) nondimensional_force temperature) nondimensional_force.

(* /repo/src/physics/single_chain/ufjc/morse/thermodynamics/isotensional/asymptotic/py.rs:213-216 *)
Definition nondimensional_gibbs_free_energy_per_link (self : t T) (nondimensional_force : ndarray T)
    (temperature : T) : ndarray T :=
  mapv (fun nondimensional_force =>
      morse_isotensional_asymptotic.nondimensional_gibbs_free_energy_per_link (link_length self)
      (hinge_mass self) (link_stiffness self * spowi (link_length self) 2 / BOLTZMANN_CONSTANT /
      temperature) (link_energy self / BOLTZMANN_CONSTANT / temperature) nondimensional_force
      temperature) nondimensional_force.

(* /repo/src/physics/single_chain/ufjc/morse/thermodynamics/isotensional/asymptotic/py.rs:226-229 *)
Definition nondimensional_relative_gibbs_free_energy (self : t T) (nondimensional_force : ndarray T)
    (temperature : T) : ndarray T :=
  mapv (fun nondimensional_force =>
      morse_isotensional_asymptotic.nondimensional_relative_gibbs_free_energy (number_of_links self)
      (link_stiffness self * spowi (link_length self) 2 / BOLTZMANN_CONSTANT / temperature)
      (link_energy self / BOLTZMANN_CONSTANT / temperature) nondimensional_force)
      nondimensional_force.

(* /repo/src/physics/single_chain/ufjc/morse/thermodynamics/isotensional/asymptotic/py.rs:253-256 *)
Definition nondimensional_relative_gibbs_free_energy_per_link (self : t T) (nondimensional_force :
    ndarray T) (temperature : T) : ndarray T :=
  mapv (fun nondimensional_force =>
      morse_isotensional_asymptotic.nondimensional_relative_gibbs_free_energy_per_link
      (link_stiffness self * spowi (link_length self) 2 / BOLTZMANN_CONSTANT / temperature)
      (link_energy self / BOLTZMANN_CONSTANT / temperature) nondimensional_force)
      nondimensional_force.

End Model.
End P_morse_isotensional_asymptotic.

(** /repo/src/physics/single_chain/ufjc/morse/thermodynamics/isotensional/legendre/py.rs: class MORSEFJC *)
Module P_morse_isotensional_legendre.
(* /repo/src/physics/single_chain/ufjc/morse/thermodynamics/isotensional/legendre/py.rs:21-42 *)
Record t {T : Type} := { hinge_mass : T; link_length : T; number_of_links : Z; link_stiffness : T; link_energy : T }.
Arguments t : clear implicits.
Section Model.
Context {T : Type} {Sc : Scalar T}.

(* /repo/src/physics/single_chain/ufjc/morse/thermodynamics/isotensional/legendre/py.rs:48-58 *)
Definition init (number_of_links : Z) (link_length : T) (hinge_mass : T) (link_stiffness : T)
    (link_energy : T) : t T :=
  {| hinge_mass := hinge_mass; link_length := link_length; number_of_links := number_of_links;
      link_stiffness := link_stiffness; link_energy := link_energy |}.

(* /repo/src/physics/single_chain/ufjc/morse/thermodynamics/isotensional/legendre/py.rs:71-74 *)
Definition helmholtz_free_energy (self : t T) (force : ndarray T) (temperature : T) : ndarray T :=
  mapv (fun force => morse_isotensional_legendre.helmholtz_free_energy (number_of_links self)
      (link_length self) (hinge_mass self) (link_stiffness self) (link_energy self) force
      temperature) force.

(* /repo/src/physics/single_chain/ufjc/morse/thermodynamics/isotensional/legendre/py.rs:84-87 *)
Definition helmholtz_free_energy_per_link (self : t T) (force : ndarray T) (temperature : T) :
    ndarray T :=
  mapv (fun force => morse_isotensional_legendre.helmholtz_free_energy_per_link (link_length self)
      (hinge_mass self) (link_stiffness self) (link_energy self) force temperature) force.

(* /repo/src/physics/single_chain/ufjc/morse/thermodynamics/isotensional/legendre/py.rs:97-100 *)
Definition relative_helmholtz_free_energy (self : t T) (force : ndarray T) (temperature : T) :
    ndarray T :=
  mapv (fun force => morse_isotensional_legendre.relative_helmholtz_free_energy (number_of_links
      self) (link_length self) (link_stiffness self) (link_energy self) force temperature) force.

(* /repo/src/physics/single_chain/ufjc/morse/thermodynamics/isotensional/legendre/py.rs:110-113 *)
Definition relative_helmholtz_free_energy_per_link (self : t T) (force : ndarray T) (temperature :
    T) : ndarray T :=
  mapv (fun force => morse_isotensional_legendre.relative_helmholtz_free_energy_per_link
      (link_length self) (link_stiffness self) (link_energy self) force temperature) force.

(* /repo/src/physics/single_chain/ufjc/morse/thermodynamics/isotensional/legendre/py.rs:123-126 *)
Definition nondimensional_helmholtz_free_energy (self : t T) (nondimensional_force : ndarray T)
    (temperature : T) : ndarray T :=
  mapv (fun nondimensional_force => morse_isotensional_legendre.nondimensional_helmholtz_free_energy
      (number_of_links self) (link_length self) (hinge_mass self) (link_stiffness self * spowi
      (link_length self) 2 / BOLTZMANN_CONSTANT / temperature) (link_energy self /
      BOLTZMANN_CONSTANT / temperature) nondimensional_force temperature) nondimensional_force.

(* /repo/src/physics/single_chain/ufjc/morse/thermodynamics/isotensional/legendre/py.rs:136-139 *)
Definition nondimensional_helmholtz_free_energy_per_link (self : t T) (nondimensional_force :
    ndarray T) (temperature : T) : ndarray T :=
  mapv (fun nondimensional_force =>
      morse_isotensional_legendre.nondimensional_helmholtz_free_energy_per_link (link_length self)
      (hinge_mass self) (link_stiffness self * spowi (link_length self) 2 / BOLTZMANN_CONSTANT /
      temperature) (link_energy self / BOLTZMANN_CONSTANT / temperature) nondimensional_force
      temperature) nondimensional_force.

(* /repo/src/physics/single_chain/ufjc/morse/thermodynamics/isotensional/legendre/py.rs:149-152 *)
Definition nondimensional_relative_helmholtz_free_energy (self : t T) (nondimensional_force :
    ndarray T) (temperature : T) : ndarray T :=
  mapv (fun nondimensional_force =>
      morse_isotensional_legendre.nondimensional_relative_helmholtz_free_energy (number_of_links
      self) (link_stiffness self * spowi (link_length self) 2 / BOLTZMANN_CONSTANT / temperature)
      (link_energy self / BOLTZMANN_CONSTANT / temperature) nondimensional_force)
      nondimensional_force.

(* /repo/src/physics/single_chain/ufjc/morse/thermodynamics/isotensional/legendre/py.rs:162-165 *)
Definition nondimensional_relative_helmholtz_free_energy_per_link (self : t T) (nondimensional_force
    : ndarray T) (temperature : T) : ndarray T :=
  mapv (fun nondimensional_force =>
      morse_isotensional_legendre.nondimensional_relative_helmholtz_free_energy_per_link
      (link_stiffness self * spowi (link_length self) 2 / BOLTZMANN_CONSTANT / temperature)
      (link_energy self / BOLTZMANN_CONSTANT / temperature) nondimensional_force)
      nondimensional_force.

End Model.
End P_morse_isotensional_legendre.

(** /repo/src/physics/single_chain/efjc/thermodynamics/isometric/asymptotic/py.rs: class EFJC *)
Module P_efjc_isometric_asymptotic.
(* /repo/src/physics/single_chain/efjc/thermodynamics/isometric/asymptotic/py.rs:17-46 *)
Record t {T : Type} := { hinge_mass : T; link_length : T; number_of_links : Z; link_stiffness : T; alternative : P_efjc_isometric_asymptotic_alternative.t T; reduced : P_efjc_isometric_asymptotic_reduced.t T; legendre : P_efjc_isometric_asymptotic_legendre.t T }.
Arguments t : clear implicits.
Section Model.
Context {T : Type} {Sc : Scalar T}.

(* /repo/src/physics/single_chain/efjc/thermodynamics/isometric/asymptotic/py.rs:52-64 *)
Definition init (number_of_links : Z) (link_length : T) (hinge_mass : T) (link_stiffness : T) : t T
    :=
  {| hinge_mass := hinge_mass; link_length := link_length; number_of_links := number_of_links;
      link_stiffness := link_stiffness; alternative := P_efjc_isometric_asymptotic_alternative.init
      number_of_links link_length hinge_mass link_stiffness; reduced :=
      P_efjc_isometric_asymptotic_reduced.init number_of_links link_length hinge_mass
      link_stiffness; legendre := P_efjc_isometric_asymptotic_legendre.init number_of_links
      link_length hinge_mass link_stiffness |}.

End Model.
End P_efjc_isometric_asymptotic.

(** /repo/src/physics/single_chain/efjc/thermodynamics/isotensional/asymptotic/py.rs: class EFJC *)
Module P_efjc_isotensional_asymptotic.
(* /repo/src/physics/single_chain/efjc/thermodynamics/isotensional/asymptotic/py.rs:24-53 *)
Record t {T : Type} := { hinge_mass : T; link_length : T; number_of_links : Z; link_stiffness : T; alternative : P_efjc_isotensional_asymptotic_alternative.t T; reduced : P_efjc_isotensional_asymptotic_reduced.t T; legendre : P_efjc_isotensional_asymptotic_legendre.t T }.
Arguments t : clear implicits.
Section Model.
Context {T : Type} {Sc : Scalar T}.

(* /repo/src/physics/single_chain/efjc/thermodynamics/isotensional/asymptotic/py.rs:59-71 *)
Definition init (number_of_links : Z) (link_length : T) (hinge_mass : T) (link_stiffness : T) : t T
    :=
  {| hinge_mass := hinge_mass; link_length := link_length; number_of_links := number_of_links;
      link_stiffness := link_stiffness; alternative :=
      P_efjc_isotensional_asymptotic_alternative.init number_of_links link_length hinge_mass
      link_stiffness; reduced := P_efjc_isotensional_asymptotic_reduced.init number_of_links
      link_length hinge_mass link_stiffness; legendre :=
      P_efjc_isotensional_asymptotic_legendre.init number_of_links link_length hinge_mass
      link_stiffness |}.

(* /repo/src/physics/single_chain/efjc/thermodynamics/isotensional/asymptotic/py.rs:84-87 *)
Definition end_to_end_length (self : t T) (force : ndarray T) (temperature : T) : ndarray T :=
  mapv (fun force => efjc_isotensional_asymptotic.end_to_end_length (number_of_links self)
      (link_length self) (link_stiffness self) force temperature) force.

(* /repo/src/physics/single_chain/efjc/thermodynamics/isotensional/asymptotic/py.rs:97-100 *)
Definition end_to_end_length_per_link (self : t T) (force : ndarray T) (temperature : T) : ndarray T
    :=
  mapv (fun force => efjc_isotensional_asymptotic.end_to_end_length_per_link (link_length self)
      (link_stiffness self) force temperature) force.

(* /repo/src/physics/single_chain/efjc/thermodynamics/isotensional/asymptotic/py.rs:110-113 *)
Definition nondimensional_end_to_end_length (self : t T) (nondimensional_force : ndarray T)
    (temperature : T) : ndarray T :=
  mapv (fun nondimensional_force => efjc_isotensional_asymptotic.nondimensional_end_to_end_length
      (number_of_links self) (link_stiffness self * spowi (link_length self) 2 / BOLTZMANN_CONSTANT
      / temperature) nondimensional_force) nondimensional_force.

(* /repo/src/physics/single_chain/efjc/thermodynamics/isotensional/asymptotic/py.rs:128-131 *)
Definition nondimensional_end_to_end_length_per_link (self : t T) (nondimensional_force : ndarray T)
    (temperature : T) : ndarray T :=
  mapv (fun nondimensional_force =>
      efjc_isotensional_asymptotic.nondimensional_end_to_end_length_per_link (link_stiffness self *
      spowi (link_length self) 2 / BOLTZMANN_CONSTANT / temperature) nondimensional_force)
      nondimensional_force.

(* /repo/src/physics/single_chain/efjc/thermodynamics/isotensional/asymptotic/py.rs:144-147 *)
Definition gibbs_free_energy (self : t T) (force : ndarray T) (temperature : T) : ndarray T :=
  mapv (fun force => efjc_isotensional_asymptotic.gibbs_free_energy (number_of_links self)
      (link_length self) (hinge_mass self) (link_stiffness self) force temperature) force.

(* /repo/src/physics/single_chain/efjc/thermodynamics/isotensional/asymptotic/py.rs:157-160 *)
Definition gibbs_free_energy_per_link (self : t T) (force : ndarray T) (temperature : T) : ndarray T
    :=
  mapv (fun force => efjc_isotensional_asymptotic.gibbs_free_energy_per_link (link_length self)
      (hinge_mass self) (link_stiffness self) force temperature) force.

(* /repo/src/physics/single_chain/efjc/thermodynamics/isotensional/asymptotic/py.rs:170-173 *)
Definition relative_gibbs_free_energy (self : t T) (force : ndarray T) (temperature : T) : ndarray T
    :=
  mapv (fun force => efjc_isotensional_asymptotic.relative_gibbs_free_energy (number_of_links self)
      (link_length self) (link_stiffness self) force temperature) force.

(* /repo/src/physics/single_chain/efjc/thermodynamics/isotensional/asymptotic/py.rs:183-186 *)
Definition relative_gibbs_free_energy_per_link (self : t T) (force : ndarray T) (temperature : T) :
    ndarray T :=
  mapv (fun force => efjc_isotensional_asymptotic.relative_gibbs_free_energy_per_link (link_length
      self) (link_stiffness self) force temperature) force.

(* /repo/src/physics/single_chain/efjc/thermodynamics/isotensional/asymptotic/py.rs:196-199 *)
Definition nondimensional_gibbs_free_energy (self : t T) (nondimensional_force : ndarray T)
    (temperature : T) : ndarray T :=
  mapv (fun nondimensional_force => efjc_isotensional_asymptotic.nondimensional_gibbs_free_energy
      (number_of_links self) (link_length self) (hinge_mass self) (link_stiffness self * spowi
      (link_length self) 2 / BOLTZMANN_CONSTANT / temperature) nondimensional_force temperature)
      nondimensional_force.

(* /repo/src/physics/single_chain/efjc/thermodynamics/isotensional/asymptotic/py.rs:209-212 *)
Definition nondimensional_gibbs_free_energy_per_link (self : t T) (nondimensional_force : ndarray T)
    (temperature : T) : ndarray T :=
  mapv (fun nondimensional_force =>
      efjc_isotensional_asymptotic.nondimensional_gibbs_free_energy_per_link (link_length self)
      (hinge_mass self) (link_stiffness self * spowi (link_length self) 2 / BOLTZMANN_CONSTANT /
      temperature) nondimensional_force temperature) nondimensional_force.

(* /repo/src/physics/single_chain/efjc/thermodynamics/isotensional/asymptotic/py.rs:222-225 *)
Definition nondimensional_relative_gibbs_free_energy (self : t T) (nondimensional_force : ndarray T)
    (temperature : T) : ndarray T :=
  mapv (fun nondimensional_force =>
      efjc_isotensional_asymptotic.nondimensional_relative_gibbs_free_energy (number_of_links self)
      (link_stiffness self * spowi (link_length self) 2 / BOLTZMANN_CONSTANT / temperature)
      nondimensional_force) nondimensional_force.

(* /repo/src/physics/single_chain/efjc/thermodynamics/isotensional/asymptotic/py.rs:238-241 *)
Definition nondimensional_relative_gibbs_free_energy_per_link (self : t T) (nondimensional_force :
    ndarray T) (temperature : T) : ndarray T :=
  mapv (fun nondimensional_force =>
      efjc_isotensional_asymptotic.nondimensional_relative_gibbs_free_energy_per_link
      (link_stiffness self * spowi (link_length self) 2 / BOLTZMANN_CONSTANT / temperature)
      nondimensional_force) nondimensional_force.

End Model.
End P_efjc_isotensional_asymptotic.

(** /repo/src/physics/single_chain/efjc/thermodynamics/isotensional/legendre/py.rs: class EFJC *)
Module P_efjc_isotensional_legendre.
(* /repo/src/physics/single_chain/efjc/thermodynamics/isotensional/legendre/py.rs:21-38 *)
Record t {T : Type} := { hinge_mass : T; link_length : T; number_of_links : Z; link_stiffness : T }.
Arguments t : clear implicits.
Section Model.
Context {T : Type} {Sc : Scalar T}.

(* /repo/src/physics/single_chain/efjc/thermodynamics/isotensional/legendre/py.rs:44-53 *)
Definition init (number_of_links : Z) (link_length : T) (hinge_mass : T) (link_stiffness : T) : t T
    :=
  {| hinge_mass := hinge_mass; link_length := link_length; number_of_links := number_of_links;
      link_stiffness := link_stiffness |}.

(* /repo/src/physics/single_chain/efjc/thermodynamics/isotensional/legendre/py.rs:66-69 *)
Definition helmholtz_free_energy (self : t T) (force : ndarray T) (temperature : T) : ndarray T :=
  mapv (fun force => efjc_isotensional_legendre.helmholtz_free_energy (number_of_links self)
      (link_length self) (hinge_mass self) (link_stiffness self) force temperature) force.

(* /repo/src/physics/single_chain/efjc/thermodynamics/isotensional/legendre/py.rs:79-82 *)
Definition helmholtz_free_energy_per_link (self : t T) (force : ndarray T) (temperature : T) :
    ndarray T :=
  mapv (fun force => efjc_isotensional_legendre.helmholtz_free_energy_per_link (link_length self)
      (hinge_mass self) (link_stiffness self) force temperature) force.

(* /repo/src/physics/single_chain/efjc/thermodynamics/isotensional/legendre/py.rs:92-95 *)
Definition relative_helmholtz_free_energy (self : t T) (force : ndarray T) (temperature : T) :
    ndarray T :=
  mapv (fun force => efjc_isotensional_legendre.relative_helmholtz_free_energy (number_of_links
      self) (link_length self) (link_stiffness self) force temperature) force.

(* /repo/src/physics/single_chain/efjc/thermodynamics/isotensional/legendre/py.rs:105-108 *)
Definition relative_helmholtz_free_energy_per_link (self : t T) (force : ndarray T) (temperature :
    T) : ndarray T :=
  mapv (fun force => efjc_isotensional_legendre.relative_helmholtz_free_energy_per_link (link_length
      self) (link_stiffness self) force temperature) force.

(* /repo/src/physics/single_chain/efjc/thermodynamics/isotensional/legendre/py.rs:118-121 *)
Definition nondimensional_helmholtz_free_energy (self : t T) (nondimensional_force : ndarray T)
    (temperature : T) : ndarray T :=
  mapv (fun nondimensional_force => efjc_isotensional_legendre.nondimensional_helmholtz_free_energy
      (number_of_links self) (link_length self) (hinge_mass self) (link_stiffness self * spowi
      (link_length self) 2 / BOLTZMANN_CONSTANT / temperature) nondimensional_force temperature)
      nondimensional_force.

(* /repo/src/physics/single_chain/efjc/thermodynamics/isotensional/legendre/py.rs:131-134 *)
Definition nondimensional_helmholtz_free_energy_per_link (self : t T) (nondimensional_force :
    ndarray T) (temperature : T) : ndarray T :=
  mapv (fun nondimensional_force =>
      efjc_isotensional_legendre.nondimensional_helmholtz_free_energy_per_link (link_length self)
      (hinge_mass self) (link_stiffness self * spowi (link_length self) 2 / BOLTZMANN_CONSTANT /
      temperature) nondimensional_force temperature) nondimensional_force.

(* /repo/src/physics/single_chain/efjc/thermodynamics/isotensional/legendre/py.rs:144-147 *)
Definition nondimensional_relative_helmholtz_free_energy (self : t T) (nondimensional_force :
    ndarray T) (temperature : T) : ndarray T :=
  mapv (fun nondimensional_force =>
      efjc_isotensional_legendre.nondimensional_relative_helmholtz_free_energy (number_of_links
      self) (link_stiffness self * spowi (link_length self) 2 / BOLTZMANN_CONSTANT / temperature)
      nondimensional_force) nondimensional_force.

(* /repo/src/physics/single_chain/efjc/thermodynamics/isotensional/legendre/py.rs:157-160 *)
Definition nondimensional_relative_helmholtz_free_energy_per_link (self : t T) (nondimensional_force
    : ndarray T) (temperature : T) : ndarray T :=
  mapv (fun nondimensional_force =>
      efjc_isotensional_legendre.nondimensional_relative_helmholtz_free_energy_per_link
      (link_stiffness self * spowi (link_length self) 2 / BOLTZMANN_CONSTANT / temperature)
      nondimensional_force) nondimensional_force.

End Model.
End P_efjc_isotensional_legendre.

(** /repo/src/physics/single_chain/fjc/thermodynamics/isometric/legendre/py.rs: class FJC *)
Module P_fjc_isometric_legendre.
(* /repo/src/physics/single_chain/fjc/thermodynamics/isometric/legendre/py.rs:27-42 *)
Record t {T : Type} := { hinge_mass : T; link_length : T; number_of_links : Z; normalization_nondimensional_equilibrium_distribution : T }.
Arguments t : clear implicits.
Section Model.
Context {T : Type} {Sc : Scalar T}.

(* /repo/src/physics/single_chain/fjc/thermodynamics/isometric/legendre/py.rs:48-58 *)
Definition init (number_of_links : Z) (link_length : T) (hinge_mass : T) : t T :=
  let normalization := math.integrate_1d (fun nondimensional_end_to_end_length_per_link =>
      fjc_isometric_legendre.nondimensional_equilibrium_radial_distribution number_of_links (sdec 1
      0) nondimensional_end_to_end_length_per_link) ZERO ONE POINTS in
  {| hinge_mass := hinge_mass; link_length := link_length; number_of_links := number_of_links;
      normalization_nondimensional_equilibrium_distribution := normalization |}.

(* /repo/src/physics/single_chain/fjc/thermodynamics/isometric/legendre/py.rs:73-76 *)
Definition force (self : t T) (end_to_end_length : ndarray T) (temperature : T) : ndarray T :=
  mapv (fun end_to_end_length => fjc_isometric_legendre.force (number_of_links self) (link_length
      self) end_to_end_length temperature) end_to_end_length.

(* /repo/src/physics/single_chain/fjc/thermodynamics/isometric/legendre/py.rs:90-93 *)
Definition nondimensional_force (self : t T) (nondimensional_end_to_end_length_per_link : ndarray T)
    : ndarray T :=
  mapv (fun nondimensional_end_to_end_length_per_link => fjc_isometric_legendre.nondimensional_force
      nondimensional_end_to_end_length_per_link) nondimensional_end_to_end_length_per_link.

(* /repo/src/physics/single_chain/fjc/thermodynamics/isometric/legendre/py.rs:108-111 *)
Definition helmholtz_free_energy (self : t T) (end_to_end_length : ndarray T) (temperature : T) :
    ndarray T :=
  mapv (fun end_to_end_length => fjc_isometric_legendre.helmholtz_free_energy (number_of_links self)
      (link_length self) (hinge_mass self) end_to_end_length temperature) end_to_end_length.

(* /repo/src/physics/single_chain/fjc/thermodynamics/isometric/legendre/py.rs:121-124 *)
Definition helmholtz_free_energy_per_link (self : t T) (end_to_end_length : ndarray T) (temperature
    : T) : ndarray T :=
  mapv (fun end_to_end_length => fjc_isometric_legendre.helmholtz_free_energy_per_link
      (number_of_links self) (link_length self) (hinge_mass self) end_to_end_length temperature)
      end_to_end_length.

(* /repo/src/physics/single_chain/fjc/thermodynamics/isometric/legendre/py.rs:134-137 *)
Definition relative_helmholtz_free_energy (self : t T) (end_to_end_length : ndarray T) (temperature
    : T) : ndarray T :=
  mapv (fun end_to_end_length => fjc_isometric_legendre.relative_helmholtz_free_energy
      (number_of_links self) (link_length self) end_to_end_length temperature) end_to_end_length.

(* /repo/src/physics/single_chain/fjc/thermodynamics/isometric/legendre/py.rs:147-150 *)
Definition relative_helmholtz_free_energy_per_link (self : t T) (end_to_end_length : ndarray T)
    (temperature : T) : ndarray T :=
  mapv (fun end_to_end_length => fjc_isometric_legendre.relative_helmholtz_free_energy_per_link
      (number_of_links self) (link_length self) end_to_end_length temperature) end_to_end_length.

(* /repo/src/physics/single_chain/fjc/thermodynamics/isometric/legendre/py.rs:160-163 *)
Definition nondimensional_helmholtz_free_energy (self : t T)
    (nondimensional_end_to_end_length_per_link : ndarray T) (temperature : T) : ndarray T :=
  mapv (fun nondimensional_end_to_end_length_per_link =>
      fjc_isometric_legendre.nondimensional_helmholtz_free_energy (number_of_links self)
      (link_length self) (hinge_mass self) nondimensional_end_to_end_length_per_link temperature)
      nondimensional_end_to_end_length_per_link.

(* /repo/src/physics/single_chain/fjc/thermodynamics/isometric/legendre/py.rs:178-181 *)
Definition nondimensional_helmholtz_free_energy_per_link (self : t T)
    (nondimensional_end_to_end_length_per_link : ndarray T) (temperature : T) : ndarray T :=
  mapv (fun nondimensional_end_to_end_length_per_link =>
      fjc_isometric_legendre.nondimensional_helmholtz_free_energy_per_link (number_of_links self)
      (link_length self) (hinge_mass self) nondimensional_end_to_end_length_per_link temperature)
      nondimensional_end_to_end_length_per_link.

(* /repo/src/physics/single_chain/fjc/thermodynamics/isometric/legendre/py.rs:190-193 *)
Definition nondimensional_relative_helmholtz_free_energy (self : t T)
    (nondimensional_end_to_end_length_per_link : ndarray T) : ndarray T :=
  mapv (fun nondimensional_end_to_end_length_per_link =>
      fjc_isometric_legendre.nondimensional_relative_helmholtz_free_energy (number_of_links self)
      nondimensional_end_to_end_length_per_link) nondimensional_end_to_end_length_per_link.

(* /repo/src/physics/single_chain/fjc/thermodynamics/isometric/legendre/py.rs:207-210 *)
Definition nondimensional_relative_helmholtz_free_energy_per_link (self : t T)
    (nondimensional_end_to_end_length_per_link : ndarray T) : ndarray T :=
  mapv (fun nondimensional_end_to_end_length_per_link =>
      fjc_isometric_legendre.nondimensional_relative_helmholtz_free_energy_per_link
      nondimensional_end_to_end_length_per_link) nondimensional_end_to_end_length_per_link.

(* /repo/src/physics/single_chain/fjc/thermodynamics/isometric/legendre/py.rs:222-225 *)
Definition equilibrium_distribution (self : t T) (end_to_end_length : ndarray T) : ndarray T :=
  mapv (fun end_to_end_length => fjc_isometric_legendre.equilibrium_distribution (number_of_links
      self) (link_length self) (normalization_nondimensional_equilibrium_distribution self)
      end_to_end_length) end_to_end_length.

(* /repo/src/physics/single_chain/fjc/thermodynamics/isometric/legendre/py.rs:237-240 *)
Definition nondimensional_equilibrium_distribution (self : t T)
    (nondimensional_end_to_end_length_per_link : ndarray T) : ndarray T :=
  mapv (fun nondimensional_end_to_end_length_per_link =>
      fjc_isometric_legendre.nondimensional_equilibrium_distribution (number_of_links self)
      (normalization_nondimensional_equilibrium_distribution self)
      nondimensional_end_to_end_length_per_link) nondimensional_end_to_end_length_per_link.

(* /repo/src/physics/single_chain/fjc/thermodynamics/isometric/legendre/py.rs:252-255 *)
Definition equilibrium_radial_distribution (self : t T) (end_to_end_length : ndarray T) : ndarray T
    :=
  mapv (fun end_to_end_length => fjc_isometric_legendre.equilibrium_radial_distribution
      (number_of_links self) (link_length self)
      (normalization_nondimensional_equilibrium_distribution self) end_to_end_length)
      end_to_end_length.

(* /repo/src/physics/single_chain/fjc/thermodynamics/isometric/legendre/py.rs:267-270 *)
Definition nondimensional_equilibrium_radial_distribution (self : t T)
    (nondimensional_end_to_end_length_per_link : ndarray T) : ndarray T :=
  mapv (fun nondimensional_end_to_end_length_per_link =>
      fjc_isometric_legendre.nondimensional_equilibrium_radial_distribution (number_of_links self)
      (normalization_nondimensional_equilibrium_distribution self)
      nondimensional_end_to_end_length_per_link) nondimensional_end_to_end_length_per_link.

(* /repo/src/physics/single_chain/fjc/thermodynamics/isometric/legendre/py.rs:285-288 *)
Definition gibbs_free_energy (prof : profile) (self : t T) (end_to_end_length : ndarray T)
    (temperature : T) : option (ndarray T) :=
  mapv_panic (fun end_to_end_length => fjc_isometric_legendre.gibbs_free_energy prof
      (number_of_links self) (link_length self) (hinge_mass self) end_to_end_length temperature)
      end_to_end_length.

(* /repo/src/physics/single_chain/fjc/thermodynamics/isometric/legendre/py.rs:298-301 *)
Definition gibbs_free_energy_per_link (prof : profile) (self : t T) (end_to_end_length : ndarray T)
    (temperature : T) : option (ndarray T) :=
  mapv_panic (fun end_to_end_length => fjc_isometric_legendre.gibbs_free_energy_per_link prof
      (number_of_links self) (link_length self) (hinge_mass self) end_to_end_length temperature)
      end_to_end_length.

(* /repo/src/physics/single_chain/fjc/thermodynamics/isometric/legendre/py.rs:311-314 *)
Definition relative_gibbs_free_energy (prof : profile) (self : t T) (end_to_end_length : ndarray T)
    (temperature : T) : option (ndarray T) :=
  mapv_panic (fun end_to_end_length => fjc_isometric_legendre.relative_gibbs_free_energy prof
      (number_of_links self) (link_length self) end_to_end_length temperature) end_to_end_length.

(* /repo/src/physics/single_chain/fjc/thermodynamics/isometric/legendre/py.rs:324-327 *)
Definition relative_gibbs_free_energy_per_link (prof : profile) (self : t T) (end_to_end_length :
    ndarray T) (temperature : T) : option (ndarray T) :=
  mapv_panic (fun end_to_end_length => fjc_isometric_legendre.relative_gibbs_free_energy_per_link
      prof (number_of_links self) (link_length self) end_to_end_length temperature)
      end_to_end_length.

(* /repo/src/physics/single_chain/fjc/thermodynamics/isometric/legendre/py.rs:337-340 *)
Definition nondimensional_gibbs_free_energy (prof : profile) (self : t T)
    (nondimensional_end_to_end_length_per_link : ndarray T) (temperature : T) : option (ndarray T)
    :=
  mapv_panic (fun nondimensional_end_to_end_length_per_link =>
      fjc_isometric_legendre.nondimensional_gibbs_free_energy prof (number_of_links self)
      (link_length self) (hinge_mass self) nondimensional_end_to_end_length_per_link temperature)
      nondimensional_end_to_end_length_per_link.

(* /repo/src/physics/single_chain/fjc/thermodynamics/isometric/legendre/py.rs:350-353 *)
Definition nondimensional_gibbs_free_energy_per_link (prof : profile) (self : t T)
    (nondimensional_end_to_end_length_per_link : ndarray T) (temperature : T) : option (ndarray T)
    :=
  mapv_panic (fun nondimensional_end_to_end_length_per_link =>
      fjc_isometric_legendre.nondimensional_gibbs_free_energy_per_link prof (number_of_links self)
      (link_length self) (hinge_mass self) nondimensional_end_to_end_length_per_link temperature)
      nondimensional_end_to_end_length_per_link.

(* /repo/src/physics/single_chain/fjc/thermodynamics/isometric/legendre/py.rs:362-365 *)
Definition nondimensional_relative_gibbs_free_energy (prof : profile) (self : t T)
    (nondimensional_end_to_end_length_per_link : ndarray T) : option (ndarray T) :=
  mapv_panic (fun nondimensional_end_to_end_length_per_link =>
      fjc_isometric_legendre.nondimensional_relative_gibbs_free_energy prof (number_of_links self)
      nondimensional_end_to_end_length_per_link) nondimensional_end_to_end_length_per_link.

(* /repo/src/physics/single_chain/fjc/thermodynamics/isometric/legendre/py.rs:374-377 *)
Definition nondimensional_relative_gibbs_free_energy_per_link (prof : profile) (self : t T)
    (nondimensional_end_to_end_length_per_link : ndarray T) : option (ndarray T) :=
  mapv_panic (fun nondimensional_end_to_end_length_per_link =>
      fjc_isometric_legendre.nondimensional_relative_gibbs_free_energy_per_link prof
      (number_of_links self) nondimensional_end_to_end_length_per_link)
      nondimensional_end_to_end_length_per_link.

End Model.
End P_fjc_isometric_legendre.

(** /repo/src/physics/single_chain/fjc/thermodynamics/isotensional/legendre/py.rs: class FJC *)
Module P_fjc_isotensional_legendre.
(* /repo/src/physics/single_chain/fjc/thermodynamics/isotensional/legendre/py.rs:20-33 *)
Record t {T : Type} := { hinge_mass : T; link_length : T; number_of_links : Z }.
Arguments t : clear implicits.
Section Model.
Context {T : Type} {Sc : Scalar T}.

(* /repo/src/physics/single_chain/fjc/thermodynamics/isotensional/legendre/py.rs:39-47 *)
Definition init (number_of_links : Z) (link_length : T) (hinge_mass : T) : t T :=
  {| hinge_mass := hinge_mass; link_length := link_length; number_of_links := number_of_links |}.

(* /repo/src/physics/single_chain/fjc/thermodynamics/isotensional/legendre/py.rs:60-63 *)
Definition helmholtz_free_energy (self : t T) (force : ndarray T) (temperature : T) : ndarray T :=
  mapv (fun force => fjc_isotensional_legendre.helmholtz_free_energy (number_of_links self)
      (link_length self) (hinge_mass self) force temperature) force.

(* /repo/src/physics/single_chain/fjc/thermodynamics/isotensional/legendre/py.rs:73-76 *)
Definition helmholtz_free_energy_per_link (self : t T) (force : ndarray T) (temperature : T) :
    ndarray T :=
  mapv (fun force => fjc_isotensional_legendre.helmholtz_free_energy_per_link (link_length self)
      (hinge_mass self) force temperature) force.

(* /repo/src/physics/single_chain/fjc/thermodynamics/isotensional/legendre/py.rs:86-89 *)
Definition relative_helmholtz_free_energy (self : t T) (force : ndarray T) (temperature : T) :
    ndarray T :=
  mapv (fun force => fjc_isotensional_legendre.relative_helmholtz_free_energy (number_of_links self)
      (link_length self) force temperature) force.

(* /repo/src/physics/single_chain/fjc/thermodynamics/isotensional/legendre/py.rs:99-102 *)
Definition relative_helmholtz_free_energy_per_link (self : t T) (force : ndarray T) (temperature :
    T) : ndarray T :=
  mapv (fun force => fjc_isotensional_legendre.relative_helmholtz_free_energy_per_link (link_length
      self) force temperature) force.

(* /repo/src/physics/single_chain/fjc/thermodynamics/isotensional/legendre/py.rs:112-115 *)
Definition nondimensional_helmholtz_free_energy (self : t T) (nondimensional_force : ndarray T)
    (temperature : T) : ndarray T :=
  mapv (fun nondimensional_force => fjc_isotensional_legendre.nondimensional_helmholtz_free_energy
      (number_of_links self) (link_length self) (hinge_mass self) nondimensional_force temperature)
      nondimensional_force.

(* /repo/src/physics/single_chain/fjc/thermodynamics/isotensional/legendre/py.rs:125-128 *)
Definition nondimensional_helmholtz_free_energy_per_link (self : t T) (nondimensional_force :
    ndarray T) (temperature : T) : ndarray T :=
  mapv (fun nondimensional_force =>
      fjc_isotensional_legendre.nondimensional_helmholtz_free_energy_per_link (link_length self)
      (hinge_mass self) nondimensional_force temperature) nondimensional_force.

(* /repo/src/physics/single_chain/fjc/thermodynamics/isotensional/legendre/py.rs:137-140 *)
Definition nondimensional_relative_helmholtz_free_energy (self : t T) (nondimensional_force :
    ndarray T) : ndarray T :=
  mapv (fun nondimensional_force =>
      fjc_isotensional_legendre.nondimensional_relative_helmholtz_free_energy (number_of_links self)
      nondimensional_force) nondimensional_force.

(* /repo/src/physics/single_chain/fjc/thermodynamics/isotensional/legendre/py.rs:149-152 *)
Definition nondimensional_relative_helmholtz_free_energy_per_link (self : t T) (nondimensional_force
    : ndarray T) : ndarray T :=
  mapv (fun nondimensional_force =>
      fjc_isotensional_legendre.nondimensional_relative_helmholtz_free_energy_per_link
      nondimensional_force) nondimensional_force.

End Model.
End P_fjc_isotensional_legendre.

(** /repo/src/physics/single_chain/fjc/thermodynamics/modified_canonical/asymptotic/py.rs: class FJC *)
Module P_fjc_modified_canonical_asymptotic.
(* /repo/src/physics/single_chain/fjc/thermodynamics/modified_canonical/asymptotic/py.rs:16-37 *)
Record t {T : Type} := { hinge_mass : T; link_length : T; number_of_links : Z; weak_potential : P_fjc_modified_canonical_asymptotic_weak_potential.t T; strong_potential : P_fjc_modified_canonical_asymptotic_strong_potential.t T }.
Arguments t : clear implicits.
Section Model.
Context {T : Type} {Sc : Scalar T}.

(* /repo/src/physics/single_chain/fjc/thermodynamics/modified_canonical/asymptotic/py.rs:43-53 *)
Definition init (number_of_links : Z) (link_length : T) (hinge_mass : T) : t T :=
  {| hinge_mass := hinge_mass; link_length := link_length; number_of_links := number_of_links;
      weak_potential := P_fjc_modified_canonical_asymptotic_weak_potential.init number_of_links
      link_length hinge_mass; strong_potential :=
      P_fjc_modified_canonical_asymptotic_strong_potential.init number_of_links link_length
      hinge_mass |}.

End Model.
End P_fjc_modified_canonical_asymptotic.

(** /repo/src/physics/single_chain/swfjc/thermodynamics/isometric/legendre/py.rs: class SWFJC *)
Module P_swfjc_isometric_legendre.
(* /repo/src/physics/single_chain/swfjc/thermodynamics/isometric/legendre/py.rs:27-46 *)
Record t {T : Type} := { hinge_mass : T; link_length : T; number_of_links : Z; well_width : T; normalization_nondimensional_equilibrium_distribution : T }.
Arguments t : clear implicits.
Section Model.
Context {T : Type} {Sc : Scalar T}.

(* /repo/src/physics/single_chain/swfjc/thermodynamics/isometric/legendre/py.rs:52-64 *)
Definition init (number_of_links : Z) (link_length : T) (hinge_mass : T) (well_width : T) : t T :=
  let nondimensional_well_parameter := sdec 1 0 + well_width / link_length in
  let normalization := math.integrate_1d (fun nondimensional_end_to_end_length_per_link =>
      swfjc_isometric_legendre.nondimensional_equilibrium_radial_distribution number_of_links
      link_length well_width (sdec 1 0) nondimensional_end_to_end_length_per_link) ZERO (ONE *
      nondimensional_well_parameter) POINTS in
  {| hinge_mass := hinge_mass; link_length := link_length; number_of_links := number_of_links;
      well_width := well_width; normalization_nondimensional_equilibrium_distribution :=
      normalization |}.

(* /repo/src/physics/single_chain/swfjc/thermodynamics/isometric/legendre/py.rs:74-77 *)
Definition force (self : t T) (end_to_end_length : ndarray T) (temperature : T) : ndarray T :=
  mapv (fun end_to_end_length => swfjc_isometric_legendre.force (number_of_links self) (link_length
      self) (well_width self) end_to_end_length temperature) end_to_end_length.

(* /repo/src/physics/single_chain/swfjc/thermodynamics/isometric/legendre/py.rs:86-89 *)
Definition nondimensional_force (self : t T) (nondimensional_end_to_end_length_per_link : ndarray T)
    : ndarray T :=
  mapv (fun nondimensional_end_to_end_length_per_link =>
      swfjc_isometric_legendre.nondimensional_force (link_length self) (well_width self)
      nondimensional_end_to_end_length_per_link) nondimensional_end_to_end_length_per_link.

(* /repo/src/physics/single_chain/swfjc/thermodynamics/isometric/legendre/py.rs:104-107 *)
Definition helmholtz_free_energy (self : t T) (end_to_end_length : ndarray T) (temperature : T) :
    ndarray T :=
  mapv (fun end_to_end_length => swfjc_isometric_legendre.helmholtz_free_energy (number_of_links
      self) (link_length self) (hinge_mass self) (well_width self) end_to_end_length temperature)
      end_to_end_length.

(* /repo/src/physics/single_chain/swfjc/thermodynamics/isometric/legendre/py.rs:117-120 *)
Definition helmholtz_free_energy_per_link (self : t T) (end_to_end_length : ndarray T) (temperature
    : T) : ndarray T :=
  mapv (fun end_to_end_length => swfjc_isometric_legendre.helmholtz_free_energy_per_link
      (number_of_links self) (link_length self) (hinge_mass self) (well_width self)
      end_to_end_length temperature) end_to_end_length.

(* /repo/src/physics/single_chain/swfjc/thermodynamics/isometric/legendre/py.rs:130-133 *)
Definition relative_helmholtz_free_energy (self : t T) (end_to_end_length : ndarray T) (temperature
    : T) : ndarray T :=
  mapv (fun end_to_end_length => swfjc_isometric_legendre.relative_helmholtz_free_energy
      (number_of_links self) (link_length self) (well_width self) end_to_end_length temperature)
      end_to_end_length.

(* /repo/src/physics/single_chain/swfjc/thermodynamics/isometric/legendre/py.rs:143-146 *)
Definition relative_helmholtz_free_energy_per_link (self : t T) (end_to_end_length : ndarray T)
    (temperature : T) : ndarray T :=
  mapv (fun end_to_end_length => swfjc_isometric_legendre.relative_helmholtz_free_energy_per_link
      (number_of_links self) (link_length self) (well_width self) end_to_end_length temperature)
      end_to_end_length.

(* /repo/src/physics/single_chain/swfjc/thermodynamics/isometric/legendre/py.rs:156-159 *)
Definition nondimensional_helmholtz_free_energy (self : t T)
    (nondimensional_end_to_end_length_per_link : ndarray T) (temperature : T) : ndarray T :=
  mapv (fun nondimensional_end_to_end_length_per_link =>
      swfjc_isometric_legendre.nondimensional_helmholtz_free_energy (number_of_links self)
      (link_length self) (hinge_mass self) (well_width self)
      nondimensional_end_to_end_length_per_link temperature)
      nondimensional_end_to_end_length_per_link.

(* /repo/src/physics/single_chain/swfjc/thermodynamics/isometric/legendre/py.rs:169-172 *)
Definition nondimensional_helmholtz_free_energy_per_link (self : t T)
    (nondimensional_end_to_end_length_per_link : ndarray T) (temperature : T) : ndarray T :=
  mapv (fun nondimensional_end_to_end_length_per_link =>
      swfjc_isometric_legendre.nondimensional_helmholtz_free_energy_per_link (number_of_links self)
      (link_length self) (hinge_mass self) (well_width self)
      nondimensional_end_to_end_length_per_link temperature)
      nondimensional_end_to_end_length_per_link.

(* /repo/src/physics/single_chain/swfjc/thermodynamics/isometric/legendre/py.rs:181-184 *)
Definition nondimensional_relative_helmholtz_free_energy (self : t T)
    (nondimensional_end_to_end_length_per_link : ndarray T) : ndarray T :=
  mapv (fun nondimensional_end_to_end_length_per_link =>
      swfjc_isometric_legendre.nondimensional_relative_helmholtz_free_energy (number_of_links self)
      (link_length self) (well_width self) nondimensional_end_to_end_length_per_link)
      nondimensional_end_to_end_length_per_link.

(* /repo/src/physics/single_chain/swfjc/thermodynamics/isometric/legendre/py.rs:193-196 *)
Definition nondimensional_relative_helmholtz_free_energy_per_link (self : t T)
    (nondimensional_end_to_end_length_per_link : ndarray T) : ndarray T :=
  mapv (fun nondimensional_end_to_end_length_per_link =>
      swfjc_isometric_legendre.nondimensional_relative_helmholtz_free_energy_per_link (link_length
      self) (well_width self) nondimensional_end_to_end_length_per_link)
      nondimensional_end_to_end_length_per_link.

(* /repo/src/physics/single_chain/swfjc/thermodynamics/isometric/legendre/py.rs:208-211 *)
Definition equilibrium_distribution (self : t T) (end_to_end_length : ndarray T) : ndarray T :=
  mapv (fun end_to_end_length => swfjc_isometric_legendre.equilibrium_distribution (number_of_links
      self) (link_length self) (well_width self)
      (normalization_nondimensional_equilibrium_distribution self) end_to_end_length)
      end_to_end_length.

(* /repo/src/physics/single_chain/swfjc/thermodynamics/isometric/legendre/py.rs:223-226 *)
Definition nondimensional_equilibrium_distribution (self : t T)
    (nondimensional_end_to_end_length_per_link : ndarray T) : ndarray T :=
  mapv (fun nondimensional_end_to_end_length_per_link =>
      swfjc_isometric_legendre.nondimensional_equilibrium_distribution (number_of_links self)
      (link_length self) (well_width self) (normalization_nondimensional_equilibrium_distribution
      self) nondimensional_end_to_end_length_per_link) nondimensional_end_to_end_length_per_link.

(* /repo/src/physics/single_chain/swfjc/thermodynamics/isometric/legendre/py.rs:238-241 *)
Definition equilibrium_radial_distribution (self : t T) (end_to_end_length : ndarray T) : ndarray T
    :=
  mapv (fun end_to_end_length => swfjc_isometric_legendre.equilibrium_radial_distribution
      (number_of_links self) (link_length self) (well_width self)
      (normalization_nondimensional_equilibrium_distribution self) end_to_end_length)
      end_to_end_length.

(* /repo/src/physics/single_chain/swfjc/thermodynamics/isometric/legendre/py.rs:253-256 *)
Definition nondimensional_equilibrium_radial_distribution (self : t T)
    (nondimensional_end_to_end_length_per_link : ndarray T) : ndarray T :=
  mapv (fun nondimensional_end_to_end_length_per_link =>
      swfjc_isometric_legendre.nondimensional_equilibrium_radial_distribution (number_of_links self)
      (link_length self) (well_width self) (normalization_nondimensional_equilibrium_distribution
      self) nondimensional_end_to_end_length_per_link) nondimensional_end_to_end_length_per_link.

End Model.
End P_swfjc_isometric_legendre.

(** /repo/src/physics/single_chain/swfjc/thermodynamics/isotensional/legendre/py.rs: class SWFJC *)
Module P_swfjc_isotensional_legendre.
(* /repo/src/physics/single_chain/swfjc/thermodynamics/isotensional/legendre/py.rs:20-37 *)
Record t {T : Type} := { hinge_mass : T; link_length : T; number_of_links : Z; well_width : T }.
Arguments t : clear implicits.
Section Model.
Context {T : Type} {Sc : Scalar T}.

(* /repo/src/physics/single_chain/swfjc/thermodynamics/isotensional/legendre/py.rs:43-52 *)
Definition init (number_of_links : Z) (link_length : T) (hinge_mass : T) (well_width : T) : t T :=
  {| hinge_mass := hinge_mass; link_length := link_length; number_of_links := number_of_links;
      well_width := well_width |}.

(* /repo/src/physics/single_chain/swfjc/thermodynamics/isotensional/legendre/py.rs:65-68 *)
Definition helmholtz_free_energy (self : t T) (force : ndarray T) (temperature : T) : ndarray T :=
  mapv (fun force => swfjc_isotensional_legendre.helmholtz_free_energy (number_of_links self)
      (link_length self) (hinge_mass self) (well_width self) force temperature) force.

(* /repo/src/physics/single_chain/swfjc/thermodynamics/isotensional/legendre/py.rs:78-81 *)
Definition helmholtz_free_energy_per_link (self : t T) (force : ndarray T) (temperature : T) :
    ndarray T :=
  mapv (fun force => swfjc_isotensional_legendre.helmholtz_free_energy_per_link (link_length self)
      (hinge_mass self) (well_width self) force temperature) force.

(* /repo/src/physics/single_chain/swfjc/thermodynamics/isotensional/legendre/py.rs:91-94 *)
Definition relative_helmholtz_free_energy (self : t T) (force : ndarray T) (temperature : T) :
    ndarray T :=
  mapv (fun force => swfjc_isotensional_legendre.relative_helmholtz_free_energy (number_of_links
      self) (link_length self) (well_width self) force temperature) force.

(* /repo/src/physics/single_chain/swfjc/thermodynamics/isotensional/legendre/py.rs:104-107 *)
Definition relative_helmholtz_free_energy_per_link (self : t T) (force : ndarray T) (temperature :
    T) : ndarray T :=
  mapv (fun force => swfjc_isotensional_legendre.relative_helmholtz_free_energy_per_link
      (link_length self) (well_width self) force temperature) force.

(* /repo/src/physics/single_chain/swfjc/thermodynamics/isotensional/legendre/py.rs:117-120 *)
Definition nondimensional_helmholtz_free_energy (self : t T) (nondimensional_force : ndarray T)
    (temperature : T) : ndarray T :=
  mapv (fun nondimensional_force => swfjc_isotensional_legendre.nondimensional_helmholtz_free_energy
      (number_of_links self) (link_length self) (hinge_mass self) (well_width self)
      nondimensional_force temperature) nondimensional_force.

(* /repo/src/physics/single_chain/swfjc/thermodynamics/isotensional/legendre/py.rs:130-133 *)
Definition nondimensional_helmholtz_free_energy_per_link (self : t T) (nondimensional_force :
    ndarray T) (temperature : T) : ndarray T :=
  mapv (fun nondimensional_force =>
      swfjc_isotensional_legendre.nondimensional_helmholtz_free_energy_per_link (link_length self)
      (hinge_mass self) (well_width self) nondimensional_force temperature) nondimensional_force.

(* /repo/src/physics/single_chain/swfjc/thermodynamics/isotensional/legendre/py.rs:142-145 *)
Definition nondimensional_relative_helmholtz_free_energy (self : t T) (nondimensional_force :
    ndarray T) : ndarray T :=
  mapv (fun nondimensional_force =>
      swfjc_isotensional_legendre.nondimensional_relative_helmholtz_free_energy (number_of_links
      self) (link_length self) (well_width self) nondimensional_force) nondimensional_force.

(* /repo/src/physics/single_chain/swfjc/thermodynamics/isotensional/legendre/py.rs:154-157 *)
Definition nondimensional_relative_helmholtz_free_energy_per_link (self : t T) (nondimensional_force
    : ndarray T) : ndarray T :=
  mapv (fun nondimensional_force =>
      swfjc_isotensional_legendre.nondimensional_relative_helmholtz_free_energy_per_link
      (link_length self) (well_width self) nondimensional_force) nondimensional_force.

End Model.
End P_swfjc_isotensional_legendre.

(** /repo/src/physics/single_chain/ufjc/lennard_jones/thermodynamics/isometric/py.rs: class LENNARDJONESFJC *)
Module P_lennard_jones_isometric.
(* /repo/src/physics/single_chain/ufjc/lennard_jones/thermodynamics/isometric/py.rs:15-36 *)
Record t {T : Type} := { hinge_mass : T; link_length : T; number_of_links : Z; link_stiffness : T; asymptotic : P_lennard_jones_isometric_asymptotic.t T }.
Arguments t : clear implicits.
Section Model.
Context {T : Type} {Sc : Scalar T}.

(* /repo/src/physics/single_chain/ufjc/lennard_jones/thermodynamics/isometric/py.rs:42-52 *)
Definition init (number_of_links : Z) (link_length : T) (hinge_mass : T) (link_stiffness : T) : t T
    :=
  {| hinge_mass := hinge_mass; link_length := link_length; number_of_links := number_of_links;
      link_stiffness := link_stiffness; asymptotic := P_lennard_jones_isometric_asymptotic.init
      number_of_links link_length hinge_mass link_stiffness |}.

End Model.
End P_lennard_jones_isometric.

(** /repo/src/physics/single_chain/ufjc/lennard_jones/thermodynamics/isotensional/py.rs: class LENNARDJONESFJC *)
Module P_lennard_jones_isotensional.
(* /repo/src/physics/single_chain/ufjc/lennard_jones/thermodynamics/isotensional/py.rs:23-48 *)
Record t {T : Type} := { hinge_mass : T; link_length : T; number_of_links : Z; link_stiffness : T; asymptotic : P_lennard_jones_isotensional_asymptotic.t T; legendre : P_lennard_jones_isotensional_legendre.t T }.
Arguments t : clear implicits.
Section Model.
Context {T : Type} {Sc : Scalar T}.

(* /repo/src/physics/single_chain/ufjc/lennard_jones/thermodynamics/isotensional/py.rs:54-65 *)
Definition init (number_of_links : Z) (link_length : T) (hinge_mass : T) (link_stiffness : T) : t T
    :=
  {| hinge_mass := hinge_mass; link_length := link_length; number_of_links := number_of_links;
      link_stiffness := link_stiffness; asymptotic := P_lennard_jones_isotensional_asymptotic.init
      number_of_links link_length hinge_mass link_stiffness; legendre :=
      P_lennard_jones_isotensional_legendre.init number_of_links link_length hinge_mass
      link_stiffness |}.

(* /repo/src/physics/single_chain/ufjc/lennard_jones/thermodynamics/isotensional/py.rs:78-81 *)
Definition end_to_end_length (self : t T) (force : ndarray T) (temperature : T) : ndarray T :=
  mapv (fun force => lennard_jones_isotensional.end_to_end_length (number_of_links self)
      (link_length self) (link_stiffness self) force temperature) force.

(* /repo/src/physics/single_chain/ufjc/lennard_jones/thermodynamics/isotensional/py.rs:91-94 *)
Definition end_to_end_length_per_link (self : t T) (force : ndarray T) (temperature : T) : ndarray T
    :=
  mapv (fun force => lennard_jones_isotensional.end_to_end_length_per_link (link_length self)
      (link_stiffness self) force temperature) force.

(* /repo/src/physics/single_chain/ufjc/lennard_jones/thermodynamics/isotensional/py.rs:104-107 *)
Definition nondimensional_end_to_end_length (self : t T) (nondimensional_force : ndarray T)
    (temperature : T) : ndarray T :=
  mapv (fun nondimensional_force => lennard_jones_isotensional.nondimensional_end_to_end_length
      (number_of_links self) (link_stiffness self * spowi (link_length self) 2 / BOLTZMANN_CONSTANT
      / temperature) nondimensional_force) nondimensional_force.

(* /repo/src/physics/single_chain/ufjc/lennard_jones/thermodynamics/isotensional/py.rs:120-123 *)
Definition nondimensional_end_to_end_length_per_link (self : t T) (nondimensional_force : ndarray T)
    (temperature : T) : ndarray T :=
  mapv (fun nondimensional_force =>
      lennard_jones_isotensional.nondimensional_end_to_end_length_per_link (link_stiffness self *
      spowi (link_length self) 2 / BOLTZMANN_CONSTANT / temperature) nondimensional_force)
      nondimensional_force.

(* /repo/src/physics/single_chain/ufjc/lennard_jones/thermodynamics/isotensional/py.rs:136-139 *)
Definition gibbs_free_energy (self : t T) (force : ndarray T) (temperature : T) : ndarray T :=
  mapv (fun force => lennard_jones_isotensional.gibbs_free_energy (number_of_links self)
      (link_length self) (hinge_mass self) (link_stiffness self) force temperature) force.

(* /repo/src/physics/single_chain/ufjc/lennard_jones/thermodynamics/isotensional/py.rs:149-152 *)
Definition gibbs_free_energy_per_link (self : t T) (force : ndarray T) (temperature : T) : ndarray T
    :=
  mapv (fun force => lennard_jones_isotensional.gibbs_free_energy_per_link (link_length self)
      (hinge_mass self) (link_stiffness self) force temperature) force.

(* /repo/src/physics/single_chain/ufjc/lennard_jones/thermodynamics/isotensional/py.rs:162-165 *)
Definition relative_gibbs_free_energy (self : t T) (force : ndarray T) (temperature : T) : ndarray T
    :=
  mapv (fun force => lennard_jones_isotensional.relative_gibbs_free_energy (number_of_links self)
      (link_length self) (link_stiffness self) force temperature) force.

(* /repo/src/physics/single_chain/ufjc/lennard_jones/thermodynamics/isotensional/py.rs:175-178 *)
Definition relative_gibbs_free_energy_per_link (self : t T) (force : ndarray T) (temperature : T) :
    ndarray T :=
  mapv (fun force => lennard_jones_isotensional.relative_gibbs_free_energy_per_link (link_length
      self) (link_stiffness self) force temperature) force.

(* /repo/src/physics/single_chain/ufjc/lennard_jones/thermodynamics/isotensional/py.rs:188-191 *)
Definition nondimensional_gibbs_free_energy (self : t T) (nondimensional_force : ndarray T)
    (temperature : T) : ndarray T :=
  mapv (fun nondimensional_force => lennard_jones_isotensional.nondimensional_gibbs_free_energy
      (number_of_links self) (link_length self) (hinge_mass self) (link_stiffness self * spowi
      (link_length self) 2 / BOLTZMANN_CONSTANT / temperature) nondimensional_force temperature)
      nondimensional_force.

(* /repo/src/physics/single_chain/ufjc/lennard_jones/thermodynamics/isotensional/py.rs:201-204 *)
Definition nondimensional_gibbs_free_energy_per_link (self : t T) (nondimensional_force : ndarray T)
    (temperature : T) : ndarray T :=
  mapv (fun nondimensional_force =>
      lennard_jones_isotensional.nondimensional_gibbs_free_energy_per_link (link_length self)
      (hinge_mass self) (link_stiffness self * spowi (link_length self) 2 / BOLTZMANN_CONSTANT /
      temperature) nondimensional_force temperature) nondimensional_force.

(* /repo/src/physics/single_chain/ufjc/lennard_jones/thermodynamics/isotensional/py.rs:214-217 *)
Definition nondimensional_relative_gibbs_free_energy (self : t T) (nondimensional_force : ndarray T)
    (temperature : T) : ndarray T :=
  mapv (fun nondimensional_force =>
      lennard_jones_isotensional.nondimensional_relative_gibbs_free_energy (number_of_links self)
      (link_stiffness self * spowi (link_length self) 2 / BOLTZMANN_CONSTANT / temperature)
      nondimensional_force) nondimensional_force.

(* /repo/src/physics/single_chain/ufjc/lennard_jones/thermodynamics/isotensional/py.rs:240-243 *)
Definition nondimensional_relative_gibbs_free_energy_per_link (self : t T) (nondimensional_force :
    ndarray T) (temperature : T) : ndarray T :=
  mapv (fun nondimensional_force =>
      lennard_jones_isotensional.nondimensional_relative_gibbs_free_energy_per_link (link_stiffness
      self * spowi (link_length self) 2 / BOLTZMANN_CONSTANT / temperature) nondimensional_force)
      nondimensional_force.

End Model.
End P_lennard_jones_isotensional.

(** /repo/src/physics/single_chain/ufjc/log_squared/thermodynamics/isometric/py.rs: class LOGSQUAREDFJC *)
Module P_log_squared_isometric.
(* /repo/src/physics/single_chain/ufjc/log_squared/thermodynamics/isometric/py.rs:15-36 *)
Record t {T : Type} := { hinge_mass : T; link_length : T; number_of_links : Z; link_stiffness : T; asymptotic : P_log_squared_isometric_asymptotic.t T }.
Arguments t : clear implicits.
Section Model.
Context {T : Type} {Sc : Scalar T}.

(* /repo/src/physics/single_chain/ufjc/log_squared/thermodynamics/isometric/py.rs:42-52 *)
Definition init (number_of_links : Z) (link_length : T) (hinge_mass : T) (link_stiffness : T) : t T
    :=
  {| hinge_mass := hinge_mass; link_length := link_length; number_of_links := number_of_links;
      link_stiffness := link_stiffness; asymptotic := P_log_squared_isometric_asymptotic.init
      number_of_links link_length hinge_mass link_stiffness |}.

End Model.
End P_log_squared_isometric.

(** /repo/src/physics/single_chain/ufjc/log_squared/thermodynamics/isotensional/py.rs: class LOGSQUAREDFJC *)
Module P_log_squared_isotensional.
(* /repo/src/physics/single_chain/ufjc/log_squared/thermodynamics/isotensional/py.rs:23-48 *)
Record t {T : Type} := { hinge_mass : T; link_length : T; number_of_links : Z; link_stiffness : T; asymptotic : P_log_squared_isotensional_asymptotic.t T; legendre : P_log_squared_isotensional_legendre.t T }.
Arguments t : clear implicits.
Section Model.
Context {T : Type} {Sc : Scalar T}.

(* /repo/src/physics/single_chain/ufjc/log_squared/thermodynamics/isotensional/py.rs:54-65 *)
Definition init (number_of_links : Z) (link_length : T) (hinge_mass : T) (link_stiffness : T) : t T
    :=
  {| hinge_mass := hinge_mass; link_length := link_length; number_of_links := number_of_links;
      link_stiffness := link_stiffness; asymptotic := P_log_squared_isotensional_asymptotic.init
      number_of_links link_length hinge_mass link_stiffness; legendre :=
      P_log_squared_isotensional_legendre.init number_of_links link_length hinge_mass link_stiffness
      |}.

(* /repo/src/physics/single_chain/ufjc/log_squared/thermodynamics/isotensional/py.rs:78-81 *)
Definition end_to_end_length (self : t T) (force : ndarray T) (temperature : T) : ndarray T :=
  mapv (fun force => log_squared_isotensional.end_to_end_length (number_of_links self) (link_length
      self) (link_stiffness self) force temperature) force.

(* /repo/src/physics/single_chain/ufjc/log_squared/thermodynamics/isotensional/py.rs:91-94 *)
Definition end_to_end_length_per_link (self : t T) (force : ndarray T) (temperature : T) : ndarray T
    :=
  mapv (fun force => log_squared_isotensional.end_to_end_length_per_link (link_length self)
      (link_stiffness self) force temperature) force.

(* /repo/src/physics/single_chain/ufjc/log_squared/thermodynamics/isotensional/py.rs:104-107 *)
Definition nondimensional_end_to_end_length (self : t T) (nondimensional_force : ndarray T)
    (temperature : T) : ndarray T :=
  mapv (fun nondimensional_force => log_squared_isotensional.nondimensional_end_to_end_length
      (number_of_links self) (link_stiffness self * spowi (link_length self) 2 / BOLTZMANN_CONSTANT
      / temperature) nondimensional_force) nondimensional_force.

(* /repo/src/physics/single_chain/ufjc/log_squared/thermodynamics/isotensional/py.rs:120-123 *)
Definition nondimensional_end_to_end_length_per_link (self : t T) (nondimensional_force : ndarray T)
    (temperature : T) : ndarray T :=
  mapv (fun nondimensional_force =>
      log_squared_isotensional.nondimensional_end_to_end_length_per_link (link_stiffness self *
      spowi (link_length self) 2 / BOLTZMANN_CONSTANT / temperature) nondimensional_force)
      nondimensional_force.

(* /repo/src/physics/single_chain/ufjc/log_squared/thermodynamics/isotensional/py.rs:136-139 *)
Definition gibbs_free_energy (self : t T) (force : ndarray T) (temperature : T) : ndarray T :=
  mapv (fun force => log_squared_isotensional.gibbs_free_energy (number_of_links self) (link_length
      self) (hinge_mass self) (link_stiffness self) force temperature) force.

(* /repo/src/physics/single_chain/ufjc/log_squared/thermodynamics/isotensional/py.rs:149-152 *)
Definition gibbs_free_energy_per_link (self : t T) (force : ndarray T) (temperature : T) : ndarray T
    :=
  mapv (fun force => log_squared_isotensional.gibbs_free_energy_per_link (link_length self)
      (hinge_mass self) (link_stiffness self) force temperature) force.

(* /repo/src/physics/single_chain/ufjc/log_squared/thermodynamics/isotensional/py.rs:162-165 *)
Definition relative_gibbs_free_energy (self : t T) (force : ndarray T) (temperature : T) : ndarray T
    :=
  mapv (fun force => log_squared_isotensional.relative_gibbs_free_energy (number_of_links self)
      (link_length self) (link_stiffness self) force temperature) force.

(* /repo/src/physics/single_chain/ufjc/log_squared/thermodynamics/isotensional/py.rs:175-178 *)
Definition relative_gibbs_free_energy_per_link (self : t T) (force : ndarray T) (temperature : T) :
    ndarray T :=
  mapv (fun force => log_squared_isotensional.relative_gibbs_free_energy_per_link (link_length self)
      (link_stiffness self) force temperature) force.

(* /repo/src/physics/single_chain/ufjc/log_squared/thermodynamics/isotensional/py.rs:188-191 *)
Definition nondimensional_gibbs_free_energy (self : t T) (nondimensional_force : ndarray T)
    (temperature : T) : ndarray T :=
  mapv (fun nondimensional_force => log_squared_isotensional.nondimensional_gibbs_free_energy
      (number_of_links self) (link_length self) (hinge_mass self) (link_stiffness self * spowi
      (link_length self) 2 / BOLTZMANN_CONSTANT / temperature) nondimensional_force temperature)
      nondimensional_force.

(* /repo/src/physics/single_chain/ufjc/log_squared/thermodynamics/isotensional/py.rs:201-204 *)
Definition nondimensional_gibbs_free_energy_per_link (self : t T) (nondimensional_force : ndarray T)
    (temperature : T) : ndarray T :=
  mapv (fun nondimensional_force =>
      log_squared_isotensional.nondimensional_gibbs_free_energy_per_link (link_length self)
      (hinge_mass self) (link_stiffness self * spowi (link_length self) 2 / BOLTZMANN_CONSTANT /
      temperature) nondimensional_force temperature) nondimensional_force.

(* /repo/src/physics/single_chain/ufjc/log_squared/thermodynamics/isotensional/py.rs:214-217 *)
Definition nondimensional_relative_gibbs_free_energy (self : t T) (nondimensional_force : ndarray T)
    (temperature : T) : ndarray T :=
  mapv (fun nondimensional_force =>
      log_squared_isotensional.nondimensional_relative_gibbs_free_energy (number_of_links self)
      (link_stiffness self * spowi (link_length self) 2 / BOLTZMANN_CONSTANT / temperature)
      nondimensional_force) nondimensional_force.

(* /repo/src/physics/single_chain/ufjc/log_squared/thermodynamics/isotensional/py.rs:240-243 *)
Definition nondimensional_relative_gibbs_free_energy_per_link (self : t T) (nondimensional_force :
    ndarray T) (temperature : T) : ndarray T :=
  mapv (fun nondimensional_force =>
      log_squared_isotensional.nondimensional_relative_gibbs_free_energy_per_link (link_stiffness
      self * spowi (link_length self) 2 / BOLTZMANN_CONSTANT / temperature) nondimensional_force)
      nondimensional_force.

End Model.
End P_log_squared_isotensional.

(** /repo/src/physics/single_chain/ufjc/morse/thermodynamics/isometric/py.rs: class MORSEFJC *)
Module P_morse_isometric.
(* /repo/src/physics/single_chain/ufjc/morse/thermodynamics/isometric/py.rs:15-40 *)
Record t {T : Type} := { hinge_mass : T; link_length : T; number_of_links : Z; link_stiffness : T; link_energy : T; asymptotic : P_morse_isometric_asymptotic.t T }.
Arguments t : clear implicits.
Section Model.
Context {T : Type} {Sc : Scalar T}.

(* /repo/src/physics/single_chain/ufjc/morse/thermodynamics/isometric/py.rs:46-57 *)
Definition init (number_of_links : Z) (link_length : T) (hinge_mass : T) (link_stiffness : T)
    (link_energy : T) : t T :=
  {| hinge_mass := hinge_mass; link_length := link_length; number_of_links := number_of_links;
      link_stiffness := link_stiffness; link_energy := link_energy; asymptotic :=
      P_morse_isometric_asymptotic.init number_of_links link_length hinge_mass link_stiffness
      link_energy |}.

End Model.
End P_morse_isometric.

(** /repo/src/physics/single_chain/ufjc/morse/thermodynamics/isotensional/py.rs: class MORSEFJC *)
Module P_morse_isotensional.
(* /repo/src/physics/single_chain/ufjc/morse/thermodynamics/isotensional/py.rs:23-52 *)
Record t {T : Type} := { hinge_mass : T; link_length : T; number_of_links : Z; link_stiffness : T; link_energy : T; asymptotic : P_morse_isotensional_asymptotic.t T; legendre : P_morse_isotensional_legendre.t T }.
Arguments t : clear implicits.
Section Model.
Context {T : Type} {Sc : Scalar T}.

(* /repo/src/physics/single_chain/ufjc/morse/thermodynamics/isotensional/py.rs:58-70 *)
Definition init (number_of_links : Z) (link_length : T) (hinge_mass : T) (link_stiffness : T)
    (link_energy : T) : t T :=
  {| hinge_mass := hinge_mass; link_length := link_length; number_of_links := number_of_links;
      link_stiffness := link_stiffness; link_energy := link_energy; asymptotic :=
      P_morse_isotensional_asymptotic.init number_of_links link_length hinge_mass link_stiffness
      link_energy; legendre := P_morse_isotensional_legendre.init number_of_links link_length
      hinge_mass link_stiffness link_energy |}.

(* /repo/src/physics/single_chain/ufjc/morse/thermodynamics/isotensional/py.rs:83-86 *)
Definition end_to_end_length (self : t T) (force : ndarray T) (temperature : T) : ndarray T :=
  mapv (fun force => morse_isotensional.end_to_end_length (number_of_links self) (link_length self)
      (link_stiffness self) (link_energy self) force temperature) force.

(* /repo/src/physics/single_chain/ufjc/morse/thermodynamics/isotensional/py.rs:96-99 *)
Definition end_to_end_length_per_link (self : t T) (force : ndarray T) (temperature : T) : ndarray T
    :=
  mapv (fun force => morse_isotensional.end_to_end_length_per_link (link_length self)
      (link_stiffness self) (link_energy self) force temperature) force.

(* /repo/src/physics/single_chain/ufjc/morse/thermodynamics/isotensional/py.rs:109-112 *)
Definition nondimensional_end_to_end_length (self : t T) (nondimensional_force : ndarray T)
    (temperature : T) : ndarray T :=
  mapv (fun nondimensional_force => morse_isotensional.nondimensional_end_to_end_length
      (number_of_links self) (link_stiffness self * spowi (link_length self) 2 / BOLTZMANN_CONSTANT
      / temperature) (link_energy self / BOLTZMANN_CONSTANT / temperature) nondimensional_force)
      nondimensional_force.

(* /repo/src/physics/single_chain/ufjc/morse/thermodynamics/isotensional/py.rs:125-128 *)
Definition nondimensional_end_to_end_length_per_link (self : t T) (nondimensional_force : ndarray T)
    (temperature : T) : ndarray T :=
  mapv (fun nondimensional_force => morse_isotensional.nondimensional_end_to_end_length_per_link
      (link_stiffness self * spowi (link_length self) 2 / BOLTZMANN_CONSTANT / temperature)
      (link_energy self / BOLTZMANN_CONSTANT / temperature) nondimensional_force)
      nondimensional_force.

(* /repo/src/physics/single_chain/ufjc/morse/thermodynamics/isotensional/py.rs:141-144 *)
Definition gibbs_free_energy (self : t T) (force : ndarray T) (temperature : T) : ndarray T :=
  mapv (fun force => morse_isotensional.gibbs_free_energy (number_of_links self) (link_length self)
      (hinge_mass self) (link_stiffness self) (link_energy self) force temperature) force.

(* /repo/src/physics/single_chain/ufjc/morse/thermodynamics/isotensional/py.rs:154-157 *)
Definition gibbs_free_energy_per_link (self : t T) (force : ndarray T) (temperature : T) : ndarray T
    :=
  mapv (fun force => morse_isotensional.gibbs_free_energy_per_link (link_length self) (hinge_mass
      self) (link_stiffness self) (link_energy self) force temperature) force.

(* /repo/src/physics/single_chain/ufjc/morse/thermodynamics/isotensional/py.rs:167-170 *)
Definition relative_gibbs_free_energy (self : t T) (force : ndarray T) (temperature : T) : ndarray T
    :=
  mapv (fun force => morse_isotensional.relative_gibbs_free_energy (number_of_links self)
      (link_length self) (link_stiffness self) (link_energy self) force temperature) force.

(* /repo/src/physics/single_chain/ufjc/morse/thermodynamics/isotensional/py.rs:180-183 *)
Definition relative_gibbs_free_energy_per_link (self : t T) (force : ndarray T) (temperature : T) :
    ndarray T :=
  mapv (fun force => morse_isotensional.relative_gibbs_free_energy_per_link (link_length self)
      (link_stiffness self) (link_energy self) force temperature) force.

(* /repo/src/physics/single_chain/ufjc/morse/thermodynamics/isotensional/py.rs:193-196 *)
Definition nondimensional_gibbs_free_energy (self : t T) (nondimensional_force : ndarray T)
    (temperature : T) : ndarray T :=
  mapv (fun nondimensional_force => morse_isotensional.nondimensional_gibbs_free_energy
      (number_of_links self) (link_length self) (hinge_mass self) (link_stiffness self * spowi
      (link_length self) 2 / BOLTZMANN_CONSTANT / temperature) (link_energy self /
      BOLTZMANN_CONSTANT / temperature) nondimensional_force temperature) nondimensional_force.

(* /repo/src/physics/single_chain/ufjc/morse/thermodynamics/isotensional/py.rs:206-209 *)
Definition nondimensional_gibbs_free_energy_per_link (self : t T) (nondimensional_force : ndarray T)
    (temperature : T) : ndarray T :=
  mapv (fun nondimensional_force => morse_isotensional.nondimensional_gibbs_free_energy_per_link
      (link_length self) (hinge_mass self) (link_stiffness self * spowi (link_length self) 2 /
      BOLTZMANN_CONSTANT / temperature) (link_energy self / BOLTZMANN_CONSTANT / temperature)
      nondimensional_force temperature) nondimensional_force.

(* /repo/src/physics/single_chain/ufjc/morse/thermodynamics/isotensional/py.rs:219-222 *)
Definition nondimensional_relative_gibbs_free_energy (self : t T) (nondimensional_force : ndarray T)
    (temperature : T) : ndarray T :=
  mapv (fun nondimensional_force => morse_isotensional.nondimensional_relative_gibbs_free_energy
      (number_of_links self) (link_stiffness self * spowi (link_length self) 2 / BOLTZMANN_CONSTANT
      / temperature) (link_energy self / BOLTZMANN_CONSTANT / temperature) nondimensional_force)
      nondimensional_force.

(* /repo/src/physics/single_chain/ufjc/morse/thermodynamics/isotensional/py.rs:246-249 *)
Definition nondimensional_relative_gibbs_free_energy_per_link (self : t T) (nondimensional_force :
    ndarray T) (temperature : T) : ndarray T :=
  mapv (fun nondimensional_force =>
      morse_isotensional.nondimensional_relative_gibbs_free_energy_per_link (link_stiffness self *
      spowi (link_length self) 2 / BOLTZMANN_CONSTANT / temperature) (link_energy self /
      BOLTZMANN_CONSTANT / temperature) nondimensional_force) nondimensional_force.

End Model.
End P_morse_isotensional.

(** /repo/src/physics/single_chain/wlc/thermodynamics/isometric/legendre/py.rs: class WLC *)
Module P_wlc_isometric_legendre.
(* /repo/src/physics/single_chain/wlc/thermodynamics/isometric/legendre/py.rs:20-39 *)
Record t {T : Type} := { hinge_mass : T; link_length : T; number_of_links : Z; persistance_length : T; nondimensional_persistance_length : T }.
Arguments t : clear implicits.
Section Model.
Context {T : Type} {Sc : Scalar T}.

(* /repo/src/physics/single_chain/wlc/thermodynamics/isometric/legendre/py.rs:45-55 *)
Definition init (number_of_links : Z) (link_length : T) (hinge_mass : T) (persistance_length : T) :
    t T :=
  {| hinge_mass := hinge_mass; link_length := link_length; number_of_links := number_of_links;
      persistance_length := persistance_length; nondimensional_persistance_length :=
      persistance_length / sofZ number_of_links / link_length |}.

(* /repo/src/physics/single_chain/wlc/thermodynamics/isometric/legendre/py.rs:70-73 *)
Definition gibbs_free_energy (self : t T) (end_to_end_length : ndarray T) (temperature : T) :
    ndarray T :=
  mapv (fun end_to_end_length => wlc_isometric_legendre.gibbs_free_energy (number_of_links self)
      (link_length self) (hinge_mass self) (persistance_length self) end_to_end_length temperature)
      end_to_end_length.

(* /repo/src/physics/single_chain/wlc/thermodynamics/isometric/legendre/py.rs:83-86 *)
Definition gibbs_free_energy_per_link (self : t T) (end_to_end_length : ndarray T) (temperature : T)
    : ndarray T :=
  mapv (fun end_to_end_length => wlc_isometric_legendre.gibbs_free_energy_per_link (number_of_links
      self) (link_length self) (hinge_mass self) (persistance_length self) end_to_end_length
      temperature) end_to_end_length.

(* /repo/src/physics/single_chain/wlc/thermodynamics/isometric/legendre/py.rs:96-99 *)
Definition relative_gibbs_free_energy (self : t T) (end_to_end_length : ndarray T) (temperature : T)
    : ndarray T :=
  mapv (fun end_to_end_length => wlc_isometric_legendre.relative_gibbs_free_energy (number_of_links
      self) (link_length self) (persistance_length self) end_to_end_length temperature)
      end_to_end_length.

(* /repo/src/physics/single_chain/wlc/thermodynamics/isometric/legendre/py.rs:109-112 *)
Definition relative_gibbs_free_energy_per_link (self : t T) (end_to_end_length : ndarray T)
    (temperature : T) : ndarray T :=
  mapv (fun end_to_end_length => wlc_isometric_legendre.relative_gibbs_free_energy_per_link
      (number_of_links self) (link_length self) (persistance_length self) end_to_end_length
      temperature) end_to_end_length.

(* /repo/src/physics/single_chain/wlc/thermodynamics/isometric/legendre/py.rs:122-125 *)
Definition nondimensional_gibbs_free_energy (self : t T) (nondimensional_end_to_end_length_per_link
    : ndarray T) (temperature : T) : ndarray T :=
  mapv (fun nondimensional_end_to_end_length_per_link =>
      wlc_isometric_legendre.nondimensional_gibbs_free_energy (number_of_links self) (link_length
      self) (hinge_mass self) (nondimensional_persistance_length self)
      nondimensional_end_to_end_length_per_link temperature)
      nondimensional_end_to_end_length_per_link.

(* /repo/src/physics/single_chain/wlc/thermodynamics/isometric/legendre/py.rs:135-138 *)
Definition nondimensional_gibbs_free_energy_per_link (self : t T)
    (nondimensional_end_to_end_length_per_link : ndarray T) (temperature : T) : ndarray T :=
  mapv (fun nondimensional_end_to_end_length_per_link =>
      wlc_isometric_legendre.nondimensional_gibbs_free_energy_per_link (number_of_links self)
      (link_length self) (hinge_mass self) (nondimensional_persistance_length self)
      nondimensional_end_to_end_length_per_link temperature)
      nondimensional_end_to_end_length_per_link.

(* /repo/src/physics/single_chain/wlc/thermodynamics/isometric/legendre/py.rs:147-150 *)
Definition nondimensional_relative_gibbs_free_energy (self : t T)
    (nondimensional_end_to_end_length_per_link : ndarray T) : ndarray T :=
  mapv (fun nondimensional_end_to_end_length_per_link =>
      wlc_isometric_legendre.nondimensional_relative_gibbs_free_energy (number_of_links self)
      (nondimensional_persistance_length self) nondimensional_end_to_end_length_per_link)
      nondimensional_end_to_end_length_per_link.

(* /repo/src/physics/single_chain/wlc/thermodynamics/isometric/legendre/py.rs:159-162 *)
Definition nondimensional_relative_gibbs_free_energy_per_link (self : t T)
    (nondimensional_end_to_end_length_per_link : ndarray T) : ndarray T :=
  mapv (fun nondimensional_end_to_end_length_per_link =>
      wlc_isometric_legendre.nondimensional_relative_gibbs_free_energy_per_link (number_of_links
      self) (nondimensional_persistance_length self) nondimensional_end_to_end_length_per_link)
      nondimensional_end_to_end_length_per_link.

End Model.
End P_wlc_isometric_legendre.

(** /repo/src/physics/single_chain/wlc/thermodynamics/isotensional/legendre/py.rs: class WLC *)
Module P_wlc_isotensional_legendre.
(* /repo/src/physics/single_chain/wlc/thermodynamics/isotensional/legendre/py.rs:20-39 *)
Record t {T : Type} := { hinge_mass : T; link_length : T; number_of_links : Z; persistance_length : T; nondimensional_persistance_length : T }.
Arguments t : clear implicits.
Section Model.
Context {T : Type} {Sc : Scalar T}.

(* /repo/src/physics/single_chain/wlc/thermodynamics/isotensional/legendre/py.rs:45-55 *)
Definition init (number_of_links : Z) (link_length : T) (hinge_mass : T) (persistance_length : T) :
    t T :=
  {| hinge_mass := hinge_mass; link_length := link_length; number_of_links := number_of_links;
      persistance_length := persistance_length; nondimensional_persistance_length :=
      persistance_length / sofZ number_of_links / link_length |}.

(* /repo/src/physics/single_chain/wlc/thermodynamics/isotensional/legendre/py.rs:68-71 *)
Definition helmholtz_free_energy (self : t T) (force : ndarray T) (temperature : T) : option
    (ndarray T) :=
  mapv_panic (fun force => wlc_isotensional_legendre.helmholtz_free_energy (number_of_links self)
      (link_length self) (hinge_mass self) (persistance_length self) force temperature) force.

(* /repo/src/physics/single_chain/wlc/thermodynamics/isotensional/legendre/py.rs:81-84 *)
Definition helmholtz_free_energy_per_link (self : t T) (force : ndarray T) (temperature : T) :
    option (ndarray T) :=
  mapv_panic (fun force => wlc_isotensional_legendre.helmholtz_free_energy_per_link (number_of_links
      self) (link_length self) (hinge_mass self) (persistance_length self) force temperature) force.

(* /repo/src/physics/single_chain/wlc/thermodynamics/isotensional/legendre/py.rs:94-97 *)
Definition relative_helmholtz_free_energy (self : t T) (force : ndarray T) (temperature : T) :
    option (ndarray T) :=
  mapv_panic (fun force => wlc_isotensional_legendre.relative_helmholtz_free_energy (number_of_links
      self) (link_length self) (persistance_length self) force temperature) force.

(* /repo/src/physics/single_chain/wlc/thermodynamics/isotensional/legendre/py.rs:107-110 *)
Definition relative_helmholtz_free_energy_per_link (self : t T) (force : ndarray T) (temperature :
    T) : option (ndarray T) :=
  mapv_panic (fun force => wlc_isotensional_legendre.relative_helmholtz_free_energy_per_link
      (number_of_links self) (link_length self) (persistance_length self) force temperature) force.

(* /repo/src/physics/single_chain/wlc/thermodynamics/isotensional/legendre/py.rs:120-123 *)
Definition nondimensional_helmholtz_free_energy (self : t T) (nondimensional_force : ndarray T)
    (temperature : T) : option (ndarray T) :=
  mapv_panic (fun nondimensional_force =>
      wlc_isotensional_legendre.nondimensional_helmholtz_free_energy (number_of_links self)
      (link_length self) (hinge_mass self) (nondimensional_persistance_length self)
      nondimensional_force temperature) nondimensional_force.

(* /repo/src/physics/single_chain/wlc/thermodynamics/isotensional/legendre/py.rs:133-136 *)
Definition nondimensional_helmholtz_free_energy_per_link (self : t T) (nondimensional_force :
    ndarray T) (temperature : T) : option (ndarray T) :=
  mapv_panic (fun nondimensional_force =>
      wlc_isotensional_legendre.nondimensional_helmholtz_free_energy_per_link (number_of_links self)
      (link_length self) (hinge_mass self) (nondimensional_persistance_length self)
      nondimensional_force temperature) nondimensional_force.

(* /repo/src/physics/single_chain/wlc/thermodynamics/isotensional/legendre/py.rs:145-148 *)
Definition nondimensional_relative_helmholtz_free_energy (self : t T) (nondimensional_force :
    ndarray T) : option (ndarray T) :=
  mapv_panic (fun nondimensional_force =>
      wlc_isotensional_legendre.nondimensional_relative_helmholtz_free_energy (number_of_links self)
      (nondimensional_persistance_length self) nondimensional_force) nondimensional_force.

(* /repo/src/physics/single_chain/wlc/thermodynamics/isotensional/legendre/py.rs:157-160 *)
Definition nondimensional_relative_helmholtz_free_energy_per_link (self : t T) (nondimensional_force
    : ndarray T) : option (ndarray T) :=
  mapv_panic (fun nondimensional_force =>
      wlc_isotensional_legendre.nondimensional_relative_helmholtz_free_energy_per_link
      (number_of_links self) (nondimensional_persistance_length self) nondimensional_force)
      nondimensional_force.

End Model.
End P_wlc_isotensional_legendre.

(** /repo/src/physics/single_chain/efjc/thermodynamics/isometric/py.rs: class EFJC *)
Module P_efjc_isometric.
(* /repo/src/physics/single_chain/efjc/thermodynamics/isometric/py.rs:15-36 *)
Record t {T : Type} := { hinge_mass : T; link_length : T; number_of_links : Z; link_stiffness : T; asymptotic : P_efjc_isometric_asymptotic.t T }.
Arguments t : clear implicits.
Section Model.
Context {T : Type} {Sc : Scalar T}.

(* /repo/src/physics/single_chain/efjc/thermodynamics/isometric/py.rs:42-52 *)
Definition init (number_of_links : Z) (link_length : T) (hinge_mass : T) (link_stiffness : T) : t T
    :=
  {| hinge_mass := hinge_mass; link_length := link_length; number_of_links := number_of_links;
      link_stiffness := link_stiffness; asymptotic := P_efjc_isometric_asymptotic.init
      number_of_links link_length hinge_mass link_stiffness |}.

End Model.
End P_efjc_isometric.

(** /repo/src/physics/single_chain/efjc/thermodynamics/isotensional/py.rs: class EFJC *)
Module P_efjc_isotensional.
(* /repo/src/physics/single_chain/efjc/thermodynamics/isotensional/py.rs:23-48 *)
Record t {T : Type} := { hinge_mass : T; link_length : T; number_of_links : Z; link_stiffness : T; asymptotic : P_efjc_isotensional_asymptotic.t T; legendre : P_efjc_isotensional_legendre.t T }.
Arguments t : clear implicits.
Section Model.
Context {T : Type} {Sc : Scalar T}.

(* /repo/src/physics/single_chain/efjc/thermodynamics/isotensional/py.rs:54-65 *)
Definition init (number_of_links : Z) (link_length : T) (hinge_mass : T) (link_stiffness : T) : t T
    :=
  {| hinge_mass := hinge_mass; link_length := link_length; number_of_links := number_of_links;
      link_stiffness := link_stiffness; asymptotic := P_efjc_isotensional_asymptotic.init
      number_of_links link_length hinge_mass link_stiffness; legendre :=
      P_efjc_isotensional_legendre.init number_of_links link_length hinge_mass link_stiffness |}.

(* /repo/src/physics/single_chain/efjc/thermodynamics/isotensional/py.rs:78-81 *)
Definition end_to_end_length (self : t T) (force : ndarray T) (temperature : T) : ndarray T :=
  mapv (fun force => efjc_isotensional.end_to_end_length (number_of_links self) (link_length self)
      (link_stiffness self) force temperature) force.

(* /repo/src/physics/single_chain/efjc/thermodynamics/isotensional/py.rs:91-94 *)
Definition end_to_end_length_per_link (self : t T) (force : ndarray T) (temperature : T) : ndarray T
    :=
  mapv (fun force => efjc_isotensional.end_to_end_length_per_link (link_length self) (link_stiffness
      self) force temperature) force.

(* /repo/src/physics/single_chain/efjc/thermodynamics/isotensional/py.rs:104-107 *)
Definition nondimensional_end_to_end_length (self : t T) (nondimensional_force : ndarray T)
    (temperature : T) : ndarray T :=
  mapv (fun nondimensional_force => efjc_isotensional.nondimensional_end_to_end_length
      (number_of_links self) (link_stiffness self * spowi (link_length self) 2 / BOLTZMANN_CONSTANT
      / temperature) nondimensional_force) nondimensional_force.

(* /repo/src/physics/single_chain/efjc/thermodynamics/isotensional/py.rs:125-128 *)
Definition nondimensional_end_to_end_length_per_link (self : t T) (nondimensional_force : ndarray T)
    (temperature : T) : ndarray T :=
  mapv (fun nondimensional_force => efjc_isotensional.nondimensional_end_to_end_length_per_link
      (link_stiffness self * spowi (link_length self) 2 / BOLTZMANN_CONSTANT / temperature)
      nondimensional_force) nondimensional_force.

(* /repo/src/physics/single_chain/efjc/thermodynamics/isotensional/py.rs:141-144 *)
Definition gibbs_free_energy (self : t T) (force : ndarray T) (temperature : T) : ndarray T :=
  mapv (fun force => efjc_isotensional.gibbs_free_energy (number_of_links self) (link_length self)
      (hinge_mass self) (link_stiffness self) force temperature) force.

(* /repo/src/physics/single_chain/efjc/thermodynamics/isotensional/py.rs:154-157 *)
Definition gibbs_free_energy_per_link (self : t T) (force : ndarray T) (temperature : T) : ndarray T
    :=
  mapv (fun force => efjc_isotensional.gibbs_free_energy_per_link (link_length self) (hinge_mass
      self) (link_stiffness self) force temperature) force.

(* /repo/src/physics/single_chain/efjc/thermodynamics/isotensional/py.rs:167-170 *)
Definition relative_gibbs_free_energy (self : t T) (force : ndarray T) (temperature : T) : ndarray T
    :=
  mapv (fun force => efjc_isotensional.relative_gibbs_free_energy (number_of_links self)
      (link_length self) (link_stiffness self) force temperature) force.

(* /repo/src/physics/single_chain/efjc/thermodynamics/isotensional/py.rs:180-183 *)
Definition relative_gibbs_free_energy_per_link (self : t T) (force : ndarray T) (temperature : T) :
    ndarray T :=
  mapv (fun force => efjc_isotensional.relative_gibbs_free_energy_per_link (link_length self)
      (link_stiffness self) force temperature) force.

(* /repo/src/physics/single_chain/efjc/thermodynamics/isotensional/py.rs:193-196 *)
Definition nondimensional_gibbs_free_energy (self : t T) (nondimensional_force : ndarray T)
    (temperature : T) : ndarray T :=
  mapv (fun nondimensional_force => efjc_isotensional.nondimensional_gibbs_free_energy
      (number_of_links self) (link_length self) (hinge_mass self) (link_stiffness self * spowi
      (link_length self) 2 / BOLTZMANN_CONSTANT / temperature) nondimensional_force temperature)
      nondimensional_force.

(* /repo/src/physics/single_chain/efjc/thermodynamics/isotensional/py.rs:206-209 *)
Definition nondimensional_gibbs_free_energy_per_link (self : t T) (nondimensional_force : ndarray T)
    (temperature : T) : ndarray T :=
  mapv (fun nondimensional_force => efjc_isotensional.nondimensional_gibbs_free_energy_per_link
      (link_length self) (hinge_mass self) (link_stiffness self * spowi (link_length self) 2 /
      BOLTZMANN_CONSTANT / temperature) nondimensional_force temperature) nondimensional_force.

(* /repo/src/physics/single_chain/efjc/thermodynamics/isotensional/py.rs:219-222 *)
Definition nondimensional_relative_gibbs_free_energy (self : t T) (nondimensional_force : ndarray T)
    (temperature : T) : ndarray T :=
  mapv (fun nondimensional_force => efjc_isotensional.nondimensional_relative_gibbs_free_energy
      (number_of_links self) (link_stiffness self * spowi (link_length self) 2 / BOLTZMANN_CONSTANT
      / temperature) nondimensional_force) nondimensional_force.

(* /repo/src/physics/single_chain/efjc/thermodynamics/isotensional/py.rs:240-243 *)
Definition nondimensional_relative_gibbs_free_energy_per_link (self : t T) (nondimensional_force :
    ndarray T) (temperature : T) : ndarray T :=
  mapv (fun nondimensional_force =>
      efjc_isotensional.nondimensional_relative_gibbs_free_energy_per_link (link_stiffness self *
      spowi (link_length self) 2 / BOLTZMANN_CONSTANT / temperature) nondimensional_force)
      nondimensional_force.

End Model.
End P_efjc_isotensional.

(** /repo/src/physics/single_chain/fjc/thermodynamics/isometric/py.rs: class FJC *)
Module P_fjc_isometric.
(* /repo/src/physics/single_chain/fjc/thermodynamics/isometric/py.rs:21-38 *)
Record t {T : Type} := { hinge_mass : T; link_length : T; number_of_links : Z; legendre : P_fjc_isometric_legendre.t T }.
Arguments t : clear implicits.
Section Model.
Context {T : Type} {Sc : Scalar T}.

(* /repo/src/physics/single_chain/fjc/thermodynamics/isometric/py.rs:44-53 *)
Definition init (number_of_links : Z) (link_length : T) (hinge_mass : T) : t T :=
  {| hinge_mass := hinge_mass; link_length := link_length; number_of_links := number_of_links;
      legendre := P_fjc_isometric_legendre.init number_of_links link_length hinge_mass |}.

(* /repo/src/physics/single_chain/fjc/thermodynamics/isometric/py.rs:68-71 *)
Definition force (prof : profile) (self : t T) (end_to_end_length : ndarray T) (temperature : T) :
    option (ndarray T) :=
  mapv_panic (fun end_to_end_length => fjc_isometric.force prof (number_of_links self) (link_length
      self) end_to_end_length temperature) end_to_end_length.

(* /repo/src/physics/single_chain/fjc/thermodynamics/isometric/py.rs:85-88 *)
Definition nondimensional_force (prof : profile) (self : t T)
    (nondimensional_end_to_end_length_per_link : ndarray T) : option (ndarray T) :=
  mapv_panic (fun nondimensional_end_to_end_length_per_link => fjc_isometric.nondimensional_force
      prof (number_of_links self) nondimensional_end_to_end_length_per_link)
      nondimensional_end_to_end_length_per_link.

(* /repo/src/physics/single_chain/fjc/thermodynamics/isometric/py.rs:101-104 *)
Definition helmholtz_free_energy (prof : profile) (self : t T) (end_to_end_length : ndarray T)
    (temperature : T) : option (ndarray T) :=
  mapv_panic (fun end_to_end_length => fjc_isometric.helmholtz_free_energy prof (number_of_links
      self) (link_length self) (hinge_mass self) end_to_end_length temperature) end_to_end_length.

(* /repo/src/physics/single_chain/fjc/thermodynamics/isometric/py.rs:114-117 *)
Definition helmholtz_free_energy_per_link (prof : profile) (self : t T) (end_to_end_length : ndarray
    T) (temperature : T) : option (ndarray T) :=
  mapv_panic (fun end_to_end_length => fjc_isometric.helmholtz_free_energy_per_link prof
      (number_of_links self) (link_length self) (hinge_mass self) end_to_end_length temperature)
      end_to_end_length.

(* /repo/src/physics/single_chain/fjc/thermodynamics/isometric/py.rs:130-133 *)
Definition relative_helmholtz_free_energy (prof : profile) (self : t T) (end_to_end_length : ndarray
    T) (temperature : T) : option (ndarray T) :=
  mapv_panic (fun end_to_end_length => fjc_isometric.relative_helmholtz_free_energy prof
      (number_of_links self) (link_length self) end_to_end_length temperature) end_to_end_length.

(* /repo/src/physics/single_chain/fjc/thermodynamics/isometric/py.rs:143-146 *)
Definition relative_helmholtz_free_energy_per_link (prof : profile) (self : t T) (end_to_end_length
    : ndarray T) (temperature : T) : option (ndarray T) :=
  mapv_panic (fun end_to_end_length => fjc_isometric.relative_helmholtz_free_energy_per_link prof
      (number_of_links self) (link_length self) end_to_end_length temperature) end_to_end_length.

(* /repo/src/physics/single_chain/fjc/thermodynamics/isometric/py.rs:156-159 *)
Definition nondimensional_helmholtz_free_energy (prof : profile) (self : t T)
    (nondimensional_end_to_end_length_per_link : ndarray T) (temperature : T) : option (ndarray T)
    :=
  mapv_panic (fun nondimensional_end_to_end_length_per_link =>
      fjc_isometric.nondimensional_helmholtz_free_energy prof (number_of_links self) (link_length
      self) (hinge_mass self) nondimensional_end_to_end_length_per_link temperature)
      nondimensional_end_to_end_length_per_link.

(* /repo/src/physics/single_chain/fjc/thermodynamics/isometric/py.rs:169-172 *)
Definition nondimensional_helmholtz_free_energy_per_link (prof : profile) (self : t T)
    (nondimensional_end_to_end_length_per_link : ndarray T) (temperature : T) : option (ndarray T)
    :=
  mapv_panic (fun nondimensional_end_to_end_length_per_link =>
      fjc_isometric.nondimensional_helmholtz_free_energy_per_link prof (number_of_links self)
      (link_length self) (hinge_mass self) nondimensional_end_to_end_length_per_link temperature)
      nondimensional_end_to_end_length_per_link.

(* /repo/src/physics/single_chain/fjc/thermodynamics/isometric/py.rs:184-187 *)
Definition nondimensional_relative_helmholtz_free_energy (prof : profile) (self : t T)
    (nondimensional_end_to_end_length_per_link : ndarray T) : option (ndarray T) :=
  mapv_panic (fun nondimensional_end_to_end_length_per_link =>
      fjc_isometric.nondimensional_relative_helmholtz_free_energy prof (number_of_links self)
      nondimensional_end_to_end_length_per_link) nondimensional_end_to_end_length_per_link.

(* /repo/src/physics/single_chain/fjc/thermodynamics/isometric/py.rs:199-202 *)
Definition nondimensional_relative_helmholtz_free_energy_per_link (prof : profile) (self : t T)
    (nondimensional_end_to_end_length_per_link : ndarray T) : option (ndarray T) :=
  mapv_panic (fun nondimensional_end_to_end_length_per_link =>
      fjc_isometric.nondimensional_relative_helmholtz_free_energy_per_link prof (number_of_links
      self) nondimensional_end_to_end_length_per_link) nondimensional_end_to_end_length_per_link.

(* /repo/src/physics/single_chain/fjc/thermodynamics/isometric/py.rs:216-219 *)
Definition equilibrium_distribution (prof : profile) (self : t T) (end_to_end_length : ndarray T) :
    option (ndarray T) :=
  mapv_panic (fun end_to_end_length => fjc_isometric.equilibrium_distribution prof (number_of_links
      self) (link_length self) end_to_end_length) end_to_end_length.

(* /repo/src/physics/single_chain/fjc/thermodynamics/isometric/py.rs:233-236 *)
Definition nondimensional_equilibrium_distribution (prof : profile) (self : t T)
    (nondimensional_end_to_end_length_per_link : ndarray T) : option (ndarray T) :=
  mapv_panic (fun nondimensional_end_to_end_length_per_link =>
      fjc_isometric.nondimensional_equilibrium_distribution prof (number_of_links self)
      nondimensional_end_to_end_length_per_link) nondimensional_end_to_end_length_per_link.

(* /repo/src/physics/single_chain/fjc/thermodynamics/isometric/py.rs:250-253 *)
Definition equilibrium_radial_distribution (prof : profile) (self : t T) (end_to_end_length :
    ndarray T) : option (ndarray T) :=
  mapv_panic (fun end_to_end_length => fjc_isometric.equilibrium_radial_distribution prof
      (number_of_links self) (link_length self) end_to_end_length) end_to_end_length.

(* /repo/src/physics/single_chain/fjc/thermodynamics/isometric/py.rs:267-270 *)
Definition nondimensional_equilibrium_radial_distribution (prof : profile) (self : t T)
    (nondimensional_end_to_end_length_per_link : ndarray T) : option (ndarray T) :=
  mapv_panic (fun nondimensional_end_to_end_length_per_link =>
      fjc_isometric.nondimensional_equilibrium_radial_distribution prof (number_of_links self)
      nondimensional_end_to_end_length_per_link) nondimensional_end_to_end_length_per_link.

End Model.
End P_fjc_isometric.

(** /repo/src/physics/single_chain/fjc/thermodynamics/isotensional/py.rs: class FJC *)
Module P_fjc_isotensional.
(* /repo/src/physics/single_chain/fjc/thermodynamics/isotensional/py.rs:21-38 *)
Record t {T : Type} := { hinge_mass : T; link_length : T; number_of_links : Z; legendre : P_fjc_isotensional_legendre.t T }.
Arguments t : clear implicits.
Section Model.
Context {T : Type} {Sc : Scalar T}.

(* /repo/src/physics/single_chain/fjc/thermodynamics/isotensional/py.rs:44-53 *)
Definition init (number_of_links : Z) (link_length : T) (hinge_mass : T) : t T :=
  {| hinge_mass := hinge_mass; link_length := link_length; number_of_links := number_of_links;
      legendre := P_fjc_isotensional_legendre.init number_of_links link_length hinge_mass |}.

(* /repo/src/physics/single_chain/fjc/thermodynamics/isotensional/py.rs:68-71 *)
Definition end_to_end_length (self : t T) (force : ndarray T) (temperature : T) : ndarray T :=
  mapv (fun force => fjc_isotensional.end_to_end_length (number_of_links self) (link_length self)
      force temperature) force.

(* /repo/src/physics/single_chain/fjc/thermodynamics/isotensional/py.rs:81-84 *)
Definition end_to_end_length_per_link (self : t T) (force : ndarray T) (temperature : T) : ndarray T
    :=
  mapv (fun force => fjc_isotensional.end_to_end_length_per_link (link_length self) force
      temperature) force.

(* /repo/src/physics/single_chain/fjc/thermodynamics/isotensional/py.rs:93-96 *)
Definition nondimensional_end_to_end_length (self : t T) (nondimensional_force : ndarray T) :
    ndarray T :=
  mapv (fun nondimensional_force => fjc_isotensional.nondimensional_end_to_end_length
      (number_of_links self) nondimensional_force) nondimensional_force.

(* /repo/src/physics/single_chain/fjc/thermodynamics/isotensional/py.rs:110-113 *)
Definition nondimensional_end_to_end_length_per_link (self : t T) (nondimensional_force : ndarray T)
    : ndarray T :=
  mapv (fun nondimensional_force => fjc_isotensional.nondimensional_end_to_end_length_per_link
      nondimensional_force) nondimensional_force.

(* /repo/src/physics/single_chain/fjc/thermodynamics/isotensional/py.rs:126-129 *)
Definition gibbs_free_energy (self : t T) (force : ndarray T) (temperature : T) : ndarray T :=
  mapv (fun force => fjc_isotensional.gibbs_free_energy (number_of_links self) (link_length self)
      (hinge_mass self) force temperature) force.

(* /repo/src/physics/single_chain/fjc/thermodynamics/isotensional/py.rs:139-142 *)
Definition gibbs_free_energy_per_link (self : t T) (force : ndarray T) (temperature : T) : ndarray T
    :=
  mapv (fun force => fjc_isotensional.gibbs_free_energy_per_link (link_length self) (hinge_mass
      self) force temperature) force.

(* /repo/src/physics/single_chain/fjc/thermodynamics/isotensional/py.rs:155-158 *)
Definition relative_gibbs_free_energy (self : t T) (force : ndarray T) (temperature : T) : ndarray T
    :=
  mapv (fun force => fjc_isotensional.relative_gibbs_free_energy (number_of_links self) (link_length
      self) force temperature) force.

(* /repo/src/physics/single_chain/fjc/thermodynamics/isotensional/py.rs:168-171 *)
Definition relative_gibbs_free_energy_per_link (self : t T) (force : ndarray T) (temperature : T) :
    ndarray T :=
  mapv (fun force => fjc_isotensional.relative_gibbs_free_energy_per_link (link_length self) force
      temperature) force.

(* /repo/src/physics/single_chain/fjc/thermodynamics/isotensional/py.rs:181-184 *)
Definition nondimensional_gibbs_free_energy (self : t T) (nondimensional_force : ndarray T)
    (temperature : T) : ndarray T :=
  mapv (fun nondimensional_force => fjc_isotensional.nondimensional_gibbs_free_energy
      (number_of_links self) (link_length self) (hinge_mass self) nondimensional_force temperature)
      nondimensional_force.

(* /repo/src/physics/single_chain/fjc/thermodynamics/isotensional/py.rs:194-197 *)
Definition nondimensional_gibbs_free_energy_per_link (self : t T) (nondimensional_force : ndarray T)
    (temperature : T) : ndarray T :=
  mapv (fun nondimensional_force => fjc_isotensional.nondimensional_gibbs_free_energy_per_link
      (link_length self) (hinge_mass self) nondimensional_force temperature) nondimensional_force.

(* /repo/src/physics/single_chain/fjc/thermodynamics/isotensional/py.rs:206-209 *)
Definition nondimensional_relative_gibbs_free_energy (self : t T) (nondimensional_force : ndarray T)
    : ndarray T :=
  mapv (fun nondimensional_force => fjc_isotensional.nondimensional_relative_gibbs_free_energy
      (number_of_links self) nondimensional_force) nondimensional_force.

(* /repo/src/physics/single_chain/fjc/thermodynamics/isotensional/py.rs:221-224 *)
Definition nondimensional_relative_gibbs_free_energy_per_link (self : t T) (nondimensional_force :
    ndarray T) : ndarray T :=
  mapv (fun nondimensional_force =>
      fjc_isotensional.nondimensional_relative_gibbs_free_energy_per_link nondimensional_force)
      nondimensional_force.

End Model.
End P_fjc_isotensional.

(** /repo/src/physics/single_chain/fjc/thermodynamics/modified_canonical/py.rs: class FJC *)
Module P_fjc_modified_canonical.
(* /repo/src/physics/single_chain/fjc/thermodynamics/modified_canonical/py.rs:21-38 *)
Record t {T : Type} := { hinge_mass : T; link_length : T; number_of_links : Z; asymptotic : P_fjc_modified_canonical_asymptotic.t T }.
Arguments t : clear implicits.
Section Model.
Context {T : Type} {Sc : Scalar T}.

(* /repo/src/physics/single_chain/fjc/thermodynamics/modified_canonical/py.rs:44-53 *)
Definition init (number_of_links : Z) (link_length : T) (hinge_mass : T) : t T :=
  {| hinge_mass := hinge_mass; link_length := link_length; number_of_links := number_of_links;
      asymptotic := P_fjc_modified_canonical_asymptotic.init number_of_links link_length hinge_mass
      |}.

(* /repo/src/physics/single_chain/fjc/thermodynamics/modified_canonical/py.rs:64-67 *)
Definition end_to_end_length (prof : profile) (self : t T) (potential_distance : ndarray T)
    (potential_stiffness : T) (temperature : T) : option (ndarray T) :=
  mapv_panic (fun potential_distance => fjc_modified_canonical.end_to_end_length prof
      (number_of_links self) (link_length self) potential_distance potential_stiffness temperature)
      potential_distance.

(* /repo/src/physics/single_chain/fjc/thermodynamics/modified_canonical/py.rs:78-81 *)
Definition end_to_end_length_per_link (prof : profile) (self : t T) (potential_distance : ndarray T)
    (potential_stiffness : T) (temperature : T) : option (ndarray T) :=
  mapv_panic (fun potential_distance => fjc_modified_canonical.end_to_end_length_per_link prof
      (number_of_links self) (link_length self) potential_distance potential_stiffness temperature)
      potential_distance.

(* /repo/src/physics/single_chain/fjc/thermodynamics/modified_canonical/py.rs:91-94 *)
Definition nondimensional_end_to_end_length (prof : profile) (self : t T)
    (nondimensional_potential_distance : ndarray T) (nondimensional_potential_stiffness : T) :
    option (ndarray T) :=
  mapv_panic (fun nondimensional_potential_distance =>
      fjc_modified_canonical.nondimensional_end_to_end_length prof (number_of_links self)
      nondimensional_potential_distance nondimensional_potential_stiffness)
      nondimensional_potential_distance.

(* /repo/src/physics/single_chain/fjc/thermodynamics/modified_canonical/py.rs:104-107 *)
Definition nondimensional_end_to_end_length_per_link (prof : profile) (self : t T)
    (nondimensional_potential_distance : ndarray T) (nondimensional_potential_stiffness : T) :
    option (ndarray T) :=
  mapv_panic (fun nondimensional_potential_distance =>
      fjc_modified_canonical.nondimensional_end_to_end_length_per_link prof (number_of_links self)
      nondimensional_potential_distance nondimensional_potential_stiffness)
      nondimensional_potential_distance.

(* /repo/src/physics/single_chain/fjc/thermodynamics/modified_canonical/py.rs:118-121 *)
Definition force (prof : profile) (self : t T) (potential_distance : ndarray T) (potential_stiffness
    : T) (temperature : T) : option (ndarray T) :=
  mapv_panic (fun potential_distance => fjc_modified_canonical.force prof (number_of_links self)
      (link_length self) potential_distance potential_stiffness temperature) potential_distance.

(* /repo/src/physics/single_chain/fjc/thermodynamics/modified_canonical/py.rs:131-134 *)
Definition nondimensional_force (prof : profile) (self : t T) (nondimensional_potential_distance :
    ndarray T) (nondimensional_potential_stiffness : T) : option (ndarray T) :=
  mapv_panic (fun nondimensional_potential_distance => fjc_modified_canonical.nondimensional_force
      prof (number_of_links self) nondimensional_potential_distance
      nondimensional_potential_stiffness) nondimensional_potential_distance.

(* /repo/src/physics/single_chain/fjc/thermodynamics/modified_canonical/py.rs:145-148 *)
Definition helmholtz_free_energy (prof : profile) (self : t T) (potential_distance : ndarray T)
    (potential_stiffness : T) (temperature : T) : option (ndarray T) :=
  mapv_panic (fun potential_distance => fjc_modified_canonical.helmholtz_free_energy prof
      (number_of_links self) (link_length self) (hinge_mass self) potential_distance
      potential_stiffness temperature) potential_distance.

(* /repo/src/physics/single_chain/fjc/thermodynamics/modified_canonical/py.rs:159-162 *)
Definition helmholtz_free_energy_per_link (prof : profile) (self : t T) (potential_distance :
    ndarray T) (potential_stiffness : T) (temperature : T) : option (ndarray T) :=
  mapv_panic (fun potential_distance => fjc_modified_canonical.helmholtz_free_energy_per_link prof
      (number_of_links self) (link_length self) (hinge_mass self) potential_distance
      potential_stiffness temperature) potential_distance.

(* /repo/src/physics/single_chain/fjc/thermodynamics/modified_canonical/py.rs:173-176 *)
Definition relative_helmholtz_free_energy (prof : profile) (self : t T) (potential_distance :
    ndarray T) (potential_stiffness : T) (temperature : T) : option (ndarray T) :=
  mapv_panic (fun potential_distance => fjc_modified_canonical.relative_helmholtz_free_energy prof
      (number_of_links self) (link_length self) potential_distance potential_stiffness temperature)
      potential_distance.

(* /repo/src/physics/single_chain/fjc/thermodynamics/modified_canonical/py.rs:187-190 *)
Definition relative_helmholtz_free_energy_per_link (prof : profile) (self : t T) (potential_distance
    : ndarray T) (potential_stiffness : T) (temperature : T) : option (ndarray T) :=
  mapv_panic (fun potential_distance =>
      fjc_modified_canonical.relative_helmholtz_free_energy_per_link prof (number_of_links self)
      (link_length self) potential_distance potential_stiffness temperature) potential_distance.

(* /repo/src/physics/single_chain/fjc/thermodynamics/modified_canonical/py.rs:201-204 *)
Definition nondimensional_helmholtz_free_energy (prof : profile) (self : t T)
    (nondimensional_potential_distance : ndarray T) (nondimensional_potential_stiffness : T)
    (temperature : T) : option (ndarray T) :=
  mapv_panic (fun nondimensional_potential_distance =>
      fjc_modified_canonical.nondimensional_helmholtz_free_energy prof (number_of_links self)
      (link_length self) (hinge_mass self) nondimensional_potential_distance
      nondimensional_potential_stiffness temperature) nondimensional_potential_distance.

(* /repo/src/physics/single_chain/fjc/thermodynamics/modified_canonical/py.rs:215-218 *)
Definition nondimensional_helmholtz_free_energy_per_link (prof : profile) (self : t T)
    (nondimensional_potential_distance : ndarray T) (nondimensional_potential_stiffness : T)
    (temperature : T) : option (ndarray T) :=
  mapv_panic (fun nondimensional_potential_distance =>
      fjc_modified_canonical.nondimensional_helmholtz_free_energy_per_link prof (number_of_links
      self) (link_length self) (hinge_mass self) nondimensional_potential_distance
      nondimensional_potential_stiffness temperature) nondimensional_potential_distance.

(* /repo/src/physics/single_chain/fjc/thermodynamics/modified_canonical/py.rs:228-231 *)
Definition nondimensional_relative_helmholtz_free_energy (prof : profile) (self : t T)
    (nondimensional_potential_distance : ndarray T) (nondimensional_potential_stiffness : T) :
    option (ndarray T) :=
  mapv_panic (fun nondimensional_potential_distance =>
      fjc_modified_canonical.nondimensional_relative_helmholtz_free_energy prof (number_of_links
      self) nondimensional_potential_distance nondimensional_potential_stiffness)
      nondimensional_potential_distance.

(* /repo/src/physics/single_chain/fjc/thermodynamics/modified_canonical/py.rs:241-244 *)
Definition nondimensional_relative_helmholtz_free_energy_per_link (prof : profile) (self : t T)
    (nondimensional_potential_distance : ndarray T) (nondimensional_potential_stiffness : T) :
    option (ndarray T) :=
  mapv_panic (fun nondimensional_potential_distance =>
      fjc_modified_canonical.nondimensional_relative_helmholtz_free_energy_per_link prof
      (number_of_links self) nondimensional_potential_distance nondimensional_potential_stiffness)
      nondimensional_potential_distance.

(* /repo/src/physics/single_chain/fjc/thermodynamics/modified_canonical/py.rs:255-258 *)
Definition gibbs_free_energy (prof : profile) (self : t T) (potential_distance : ndarray T)
    (potential_stiffness : T) (temperature : T) : option (ndarray T) :=
  mapv_panic (fun potential_distance => fjc_modified_canonical.gibbs_free_energy prof
      (number_of_links self) (link_length self) (hinge_mass self) potential_distance
      potential_stiffness temperature) potential_distance.

(* /repo/src/physics/single_chain/fjc/thermodynamics/modified_canonical/py.rs:269-272 *)
Definition gibbs_free_energy_per_link (prof : profile) (self : t T) (potential_distance : ndarray T)
    (potential_stiffness : T) (temperature : T) : option (ndarray T) :=
  mapv_panic (fun potential_distance => fjc_modified_canonical.gibbs_free_energy_per_link prof
      (number_of_links self) (link_length self) (hinge_mass self) potential_distance
      potential_stiffness temperature) potential_distance.

(* /repo/src/physics/single_chain/fjc/thermodynamics/modified_canonical/py.rs:283-286 *)
Definition relative_gibbs_free_energy (prof : profile) (self : t T) (potential_distance : ndarray T)
    (potential_stiffness : T) (temperature : T) : option (ndarray T) :=
  mapv_panic (fun potential_distance => fjc_modified_canonical.relative_gibbs_free_energy prof
      (number_of_links self) (link_length self) potential_distance potential_stiffness temperature)
      potential_distance.

(* /repo/src/physics/single_chain/fjc/thermodynamics/modified_canonical/py.rs:297-300 *)
Definition relative_gibbs_free_energy_per_link (prof : profile) (self : t T) (potential_distance :
    ndarray T) (potential_stiffness : T) (temperature : T) : option (ndarray T) :=
  mapv_panic (fun potential_distance => fjc_modified_canonical.relative_gibbs_free_energy_per_link
      prof (number_of_links self) (link_length self) potential_distance potential_stiffness
      temperature) potential_distance.

(* /repo/src/physics/single_chain/fjc/thermodynamics/modified_canonical/py.rs:311-314 *)
Definition nondimensional_gibbs_free_energy (prof : profile) (self : t T)
    (nondimensional_potential_distance : ndarray T) (nondimensional_potential_stiffness : T)
    (temperature : T) : option (ndarray T) :=
  mapv_panic (fun nondimensional_potential_distance =>
      fjc_modified_canonical.nondimensional_gibbs_free_energy prof (number_of_links self)
      (link_length self) (hinge_mass self) nondimensional_potential_distance
      nondimensional_potential_stiffness temperature) nondimensional_potential_distance.

(* /repo/src/physics/single_chain/fjc/thermodynamics/modified_canonical/py.rs:325-328 *)
Definition nondimensional_gibbs_free_energy_per_link (prof : profile) (self : t T)
    (nondimensional_potential_distance : ndarray T) (nondimensional_potential_stiffness : T)
    (temperature : T) : option (ndarray T) :=
  mapv_panic (fun nondimensional_potential_distance =>
      fjc_modified_canonical.nondimensional_gibbs_free_energy_per_link prof (number_of_links self)
      (link_length self) (hinge_mass self) nondimensional_potential_distance
      nondimensional_potential_stiffness temperature) nondimensional_potential_distance.

(* /repo/src/physics/single_chain/fjc/thermodynamics/modified_canonical/py.rs:338-341 *)
Definition nondimensional_relative_gibbs_free_energy (prof : profile) (self : t T)
    (nondimensional_potential_distance : ndarray T) (nondimensional_potential_stiffness : T) :
    option (ndarray T) :=
  mapv_panic (fun nondimensional_potential_distance =>
      fjc_modified_canonical.nondimensional_relative_gibbs_free_energy prof (number_of_links self)
      nondimensional_potential_distance nondimensional_potential_stiffness)
      nondimensional_potential_distance.

(* /repo/src/physics/single_chain/fjc/thermodynamics/modified_canonical/py.rs:351-354 *)
Definition nondimensional_relative_gibbs_free_energy_per_link (prof : profile) (self : t T)
    (nondimensional_potential_distance : ndarray T) (nondimensional_potential_stiffness : T) :
    option (ndarray T) :=
  mapv_panic (fun nondimensional_potential_distance =>
      fjc_modified_canonical.nondimensional_relative_gibbs_free_energy_per_link prof
      (number_of_links self) nondimensional_potential_distance nondimensional_potential_stiffness)
      nondimensional_potential_distance.

End Model.
End P_fjc_modified_canonical.

(** /repo/src/physics/single_chain/ideal/thermodynamics/isometric/py.rs: class Ideal *)
Module P_ideal_isometric.
(* /repo/src/physics/single_chain/ideal/thermodynamics/isometric/py.rs:20-33 *)
Record t {T : Type} := { hinge_mass : T; link_length : T; number_of_links : Z }.
Arguments t : clear implicits.
Section Model.
Context {T : Type} {Sc : Scalar T}.

(* /repo/src/physics/single_chain/ideal/thermodynamics/isometric/py.rs:39-47 *)
Definition init (number_of_links : Z) (link_length : T) (hinge_mass : T) : t T :=
  {| hinge_mass := hinge_mass; link_length := link_length; number_of_links := number_of_links |}.

(* /repo/src/physics/single_chain/ideal/thermodynamics/isometric/py.rs:60-63 *)
Definition force (self : t T) (end_to_end_length : ndarray T) (temperature : T) : ndarray T :=
  mapv (fun end_to_end_length => ideal_isometric.force (number_of_links self) (link_length self)
      end_to_end_length temperature) end_to_end_length.

(* /repo/src/physics/single_chain/ideal/thermodynamics/isometric/py.rs:75-78 *)
Definition nondimensional_force (self : t T) (nondimensional_end_to_end_length_per_link : ndarray T)
    : ndarray T :=
  mapv (fun nondimensional_end_to_end_length_per_link => ideal_isometric.nondimensional_force
      nondimensional_end_to_end_length_per_link) nondimensional_end_to_end_length_per_link.

(* /repo/src/physics/single_chain/ideal/thermodynamics/isometric/py.rs:91-94 *)
Definition helmholtz_free_energy (self : t T) (end_to_end_length : ndarray T) (temperature : T) :
    ndarray T :=
  mapv (fun end_to_end_length => ideal_isometric.helmholtz_free_energy (number_of_links self)
      (link_length self) (hinge_mass self) end_to_end_length temperature) end_to_end_length.

(* /repo/src/physics/single_chain/ideal/thermodynamics/isometric/py.rs:104-107 *)
Definition helmholtz_free_energy_per_link (self : t T) (end_to_end_length : ndarray T) (temperature
    : T) : ndarray T :=
  mapv (fun end_to_end_length => ideal_isometric.helmholtz_free_energy_per_link (number_of_links
      self) (link_length self) (hinge_mass self) end_to_end_length temperature) end_to_end_length.

(* /repo/src/physics/single_chain/ideal/thermodynamics/isometric/py.rs:120-123 *)
Definition relative_helmholtz_free_energy (self : t T) (end_to_end_length : ndarray T) (temperature
    : T) : ndarray T :=
  mapv (fun end_to_end_length => ideal_isometric.relative_helmholtz_free_energy (number_of_links
      self) (link_length self) end_to_end_length temperature) end_to_end_length.

(* /repo/src/physics/single_chain/ideal/thermodynamics/isometric/py.rs:133-136 *)
Definition relative_helmholtz_free_energy_per_link (self : t T) (end_to_end_length : ndarray T)
    (temperature : T) : ndarray T :=
  mapv (fun end_to_end_length => ideal_isometric.relative_helmholtz_free_energy_per_link
      (number_of_links self) (link_length self) end_to_end_length temperature) end_to_end_length.

(* /repo/src/physics/single_chain/ideal/thermodynamics/isometric/py.rs:146-149 *)
Definition nondimensional_helmholtz_free_energy (self : t T)
    (nondimensional_end_to_end_length_per_link : ndarray T) (temperature : T) : ndarray T :=
  mapv (fun nondimensional_end_to_end_length_per_link =>
      ideal_isometric.nondimensional_helmholtz_free_energy (number_of_links self) (link_length self)
      (hinge_mass self) nondimensional_end_to_end_length_per_link temperature)
      nondimensional_end_to_end_length_per_link.

(* /repo/src/physics/single_chain/ideal/thermodynamics/isometric/py.rs:159-162 *)
Definition nondimensional_helmholtz_free_energy_per_link (self : t T)
    (nondimensional_end_to_end_length_per_link : ndarray T) (temperature : T) : ndarray T :=
  mapv (fun nondimensional_end_to_end_length_per_link =>
      ideal_isometric.nondimensional_helmholtz_free_energy_per_link (link_length self) (hinge_mass
      self) nondimensional_end_to_end_length_per_link temperature)
      nondimensional_end_to_end_length_per_link.

(* /repo/src/physics/single_chain/ideal/thermodynamics/isometric/py.rs:174-177 *)
Definition nondimensional_relative_helmholtz_free_energy (self : t T)
    (nondimensional_end_to_end_length_per_link : ndarray T) : ndarray T :=
  mapv (fun nondimensional_end_to_end_length_per_link =>
      ideal_isometric.nondimensional_relative_helmholtz_free_energy (number_of_links self)
      nondimensional_end_to_end_length_per_link) nondimensional_end_to_end_length_per_link.

(* /repo/src/physics/single_chain/ideal/thermodynamics/isometric/py.rs:189-192 *)
Definition nondimensional_relative_helmholtz_free_energy_per_link (self : t T)
    (nondimensional_end_to_end_length_per_link : ndarray T) : ndarray T :=
  mapv (fun nondimensional_end_to_end_length_per_link =>
      ideal_isometric.nondimensional_relative_helmholtz_free_energy_per_link
      nondimensional_end_to_end_length_per_link) nondimensional_end_to_end_length_per_link.

(* /repo/src/physics/single_chain/ideal/thermodynamics/isometric/py.rs:204-207 *)
Definition equilibrium_distribution (self : t T) (end_to_end_length : ndarray T) : ndarray T :=
  mapv (fun end_to_end_length => ideal_isometric.equilibrium_distribution (number_of_links self)
      (link_length self) end_to_end_length) end_to_end_length.

(* /repo/src/physics/single_chain/ideal/thermodynamics/isometric/py.rs:219-222 *)
Definition nondimensional_equilibrium_distribution (self : t T)
    (nondimensional_end_to_end_length_per_link : ndarray T) : ndarray T :=
  mapv (fun nondimensional_end_to_end_length_per_link =>
      ideal_isometric.nondimensional_equilibrium_distribution (number_of_links self)
      nondimensional_end_to_end_length_per_link) nondimensional_end_to_end_length_per_link.

(* /repo/src/physics/single_chain/ideal/thermodynamics/isometric/py.rs:234-237 *)
Definition equilibrium_radial_distribution (self : t T) (end_to_end_length : ndarray T) : ndarray T
    :=
  mapv (fun end_to_end_length => ideal_isometric.equilibrium_radial_distribution (number_of_links
      self) (link_length self) end_to_end_length) end_to_end_length.

(* /repo/src/physics/single_chain/ideal/thermodynamics/isometric/py.rs:249-252 *)
Definition nondimensional_equilibrium_radial_distribution (self : t T)
    (nondimensional_end_to_end_length_per_link : ndarray T) : ndarray T :=
  mapv (fun nondimensional_end_to_end_length_per_link =>
      ideal_isometric.nondimensional_equilibrium_radial_distribution (number_of_links self)
      nondimensional_end_to_end_length_per_link) nondimensional_end_to_end_length_per_link.

End Model.
End P_ideal_isometric.

(** /repo/src/physics/single_chain/ideal/thermodynamics/isotensional/py.rs: class Ideal *)
Module P_ideal_isotensional.
(* /repo/src/physics/single_chain/ideal/thermodynamics/isotensional/py.rs:20-33 *)
Record t {T : Type} := { hinge_mass : T; link_length : T; number_of_links : Z }.
Arguments t : clear implicits.
Section Model.
Context {T : Type} {Sc : Scalar T}.

(* /repo/src/physics/single_chain/ideal/thermodynamics/isotensional/py.rs:39-47 *)
Definition init (number_of_links : Z) (link_length : T) (hinge_mass : T) : t T :=
  {| hinge_mass := hinge_mass; link_length := link_length; number_of_links := number_of_links |}.

(* /repo/src/physics/single_chain/ideal/thermodynamics/isotensional/py.rs:60-63 *)
Definition end_to_end_length (self : t T) (force : ndarray T) (temperature : T) : ndarray T :=
  mapv (fun force => ideal_isotensional.end_to_end_length (number_of_links self) (link_length self)
      force temperature) force.

(* /repo/src/physics/single_chain/ideal/thermodynamics/isotensional/py.rs:73-76 *)
Definition end_to_end_length_per_link (self : t T) (force : ndarray T) (temperature : T) : ndarray T
    :=
  mapv (fun force => ideal_isotensional.end_to_end_length_per_link (link_length self) force
      temperature) force.

(* /repo/src/physics/single_chain/ideal/thermodynamics/isotensional/py.rs:85-88 *)
Definition nondimensional_end_to_end_length (self : t T) (nondimensional_force : ndarray T) :
    ndarray T :=
  mapv (fun nondimensional_force => ideal_isotensional.nondimensional_end_to_end_length
      (number_of_links self) nondimensional_force) nondimensional_force.

(* /repo/src/physics/single_chain/ideal/thermodynamics/isotensional/py.rs:100-103 *)
Definition nondimensional_end_to_end_length_per_link (self : t T) (nondimensional_force : ndarray T)
    : ndarray T :=
  mapv (fun nondimensional_force => ideal_isotensional.nondimensional_end_to_end_length_per_link
      nondimensional_force) nondimensional_force.

(* /repo/src/physics/single_chain/ideal/thermodynamics/isotensional/py.rs:116-119 *)
Definition gibbs_free_energy (self : t T) (force : ndarray T) (temperature : T) : ndarray T :=
  mapv (fun force => ideal_isotensional.gibbs_free_energy (number_of_links self) (link_length self)
      (hinge_mass self) force temperature) force.

(* /repo/src/physics/single_chain/ideal/thermodynamics/isotensional/py.rs:129-132 *)
Definition gibbs_free_energy_per_link (self : t T) (force : ndarray T) (temperature : T) : ndarray T
    :=
  mapv (fun force => ideal_isotensional.gibbs_free_energy_per_link (link_length self) (hinge_mass
      self) force temperature) force.

(* /repo/src/physics/single_chain/ideal/thermodynamics/isotensional/py.rs:145-148 *)
Definition relative_gibbs_free_energy (self : t T) (force : ndarray T) (temperature : T) : ndarray T
    :=
  mapv (fun force => ideal_isotensional.relative_gibbs_free_energy (number_of_links self)
      (link_length self) force temperature) force.

(* /repo/src/physics/single_chain/ideal/thermodynamics/isotensional/py.rs:158-161 *)
Definition relative_gibbs_free_energy_per_link (self : t T) (force : ndarray T) (temperature : T) :
    ndarray T :=
  mapv (fun force => ideal_isotensional.relative_gibbs_free_energy_per_link (link_length self) force
      temperature) force.

(* /repo/src/physics/single_chain/ideal/thermodynamics/isotensional/py.rs:171-174 *)
Definition nondimensional_gibbs_free_energy (self : t T) (nondimensional_force : ndarray T)
    (temperature : T) : ndarray T :=
  mapv (fun nondimensional_force => ideal_isotensional.nondimensional_gibbs_free_energy
      (number_of_links self) (link_length self) (hinge_mass self) nondimensional_force temperature)
      nondimensional_force.

(* /repo/src/physics/single_chain/ideal/thermodynamics/isotensional/py.rs:184-187 *)
Definition nondimensional_gibbs_free_energy_per_link (self : t T) (nondimensional_force : ndarray T)
    (temperature : T) : ndarray T :=
  mapv (fun nondimensional_force => ideal_isotensional.nondimensional_gibbs_free_energy_per_link
      (link_length self) (hinge_mass self) nondimensional_force temperature) nondimensional_force.

(* /repo/src/physics/single_chain/ideal/thermodynamics/isotensional/py.rs:196-199 *)
Definition nondimensional_relative_gibbs_free_energy (self : t T) (nondimensional_force : ndarray T)
    : ndarray T :=
  mapv (fun nondimensional_force => ideal_isotensional.nondimensional_relative_gibbs_free_energy
      (number_of_links self) nondimensional_force) nondimensional_force.

(* /repo/src/physics/single_chain/ideal/thermodynamics/isotensional/py.rs:211-214 *)
Definition nondimensional_relative_gibbs_free_energy_per_link (self : t T) (nondimensional_force :
    ndarray T) : ndarray T :=
  mapv (fun nondimensional_force =>
      ideal_isotensional.nondimensional_relative_gibbs_free_energy_per_link nondimensional_force)
      nondimensional_force.

End Model.
End P_ideal_isotensional.

(** /repo/src/physics/single_chain/swfjc/thermodynamics/isometric/py.rs: class SWFJC *)
Module P_swfjc_isometric.
(* /repo/src/physics/single_chain/swfjc/thermodynamics/isometric/py.rs:15-36 *)
Record t {T : Type} := { hinge_mass : T; link_length : T; number_of_links : Z; well_width : T; legendre : P_swfjc_isometric_legendre.t T }.
Arguments t : clear implicits.
Section Model.
Context {T : Type} {Sc : Scalar T}.

(* /repo/src/physics/single_chain/swfjc/thermodynamics/isometric/py.rs:42-52 *)
Definition init (number_of_links : Z) (link_length : T) (hinge_mass : T) (well_width : T) : t T :=
  {| hinge_mass := hinge_mass; link_length := link_length; number_of_links := number_of_links;
      well_width := well_width; legendre := P_swfjc_isometric_legendre.init number_of_links
      link_length hinge_mass well_width |}.

End Model.
End P_swfjc_isometric.

(** /repo/src/physics/single_chain/swfjc/thermodynamics/isotensional/py.rs: class SWFJC *)
Module P_swfjc_isotensional.
(* /repo/src/physics/single_chain/swfjc/thermodynamics/isotensional/py.rs:21-42 *)
Record t {T : Type} := { hinge_mass : T; link_length : T; number_of_links : Z; well_width : T; legendre : P_swfjc_isotensional_legendre.t T }.
Arguments t : clear implicits.
Section Model.
Context {T : Type} {Sc : Scalar T}.

(* /repo/src/physics/single_chain/swfjc/thermodynamics/isotensional/py.rs:48-58 *)
Definition init (number_of_links : Z) (link_length : T) (hinge_mass : T) (well_width : T) : t T :=
  {| hinge_mass := hinge_mass; link_length := link_length; number_of_links := number_of_links;
      well_width := well_width; legendre := P_swfjc_isotensional_legendre.init number_of_links
      link_length hinge_mass well_width |}.

(* /repo/src/physics/single_chain/swfjc/thermodynamics/isotensional/py.rs:71-74 *)
Definition end_to_end_length (self : t T) (force : ndarray T) (temperature : T) : ndarray T :=
  mapv (fun force => swfjc_isotensional.end_to_end_length (number_of_links self) (link_length self)
      (well_width self) force temperature) force.

(* /repo/src/physics/single_chain/swfjc/thermodynamics/isotensional/py.rs:84-87 *)
Definition end_to_end_length_per_link (self : t T) (force : ndarray T) (temperature : T) : ndarray T
    :=
  mapv (fun force => swfjc_isotensional.end_to_end_length_per_link (link_length self) (well_width
      self) force temperature) force.

(* /repo/src/physics/single_chain/swfjc/thermodynamics/isotensional/py.rs:96-99 *)
Definition nondimensional_end_to_end_length (self : t T) (nondimensional_force : ndarray T) :
    ndarray T :=
  mapv (fun nondimensional_force => swfjc_isotensional.nondimensional_end_to_end_length
      (number_of_links self) (link_length self) (well_width self) nondimensional_force)
      nondimensional_force.

(* /repo/src/physics/single_chain/swfjc/thermodynamics/isotensional/py.rs:114-117 *)
Definition nondimensional_end_to_end_length_per_link (self : t T) (nondimensional_force : ndarray T)
    : ndarray T :=
  mapv (fun nondimensional_force => swfjc_isotensional.nondimensional_end_to_end_length_per_link
      (link_length self) (well_width self) nondimensional_force) nondimensional_force.

(* /repo/src/physics/single_chain/swfjc/thermodynamics/isotensional/py.rs:130-133 *)
Definition gibbs_free_energy (self : t T) (force : ndarray T) (temperature : T) : ndarray T :=
  mapv (fun force => swfjc_isotensional.gibbs_free_energy (number_of_links self) (link_length self)
      (hinge_mass self) (well_width self) force temperature) force.

(* /repo/src/physics/single_chain/swfjc/thermodynamics/isotensional/py.rs:143-146 *)
Definition gibbs_free_energy_per_link (self : t T) (force : ndarray T) (temperature : T) : ndarray T
    :=
  mapv (fun force => swfjc_isotensional.gibbs_free_energy_per_link (link_length self) (hinge_mass
      self) (well_width self) force temperature) force.

(* /repo/src/physics/single_chain/swfjc/thermodynamics/isotensional/py.rs:156-159 *)
Definition relative_gibbs_free_energy (self : t T) (force : ndarray T) (temperature : T) : ndarray T
    :=
  mapv (fun force => swfjc_isotensional.relative_gibbs_free_energy (number_of_links self)
      (link_length self) (well_width self) force temperature) force.

(* /repo/src/physics/single_chain/swfjc/thermodynamics/isotensional/py.rs:169-172 *)
Definition relative_gibbs_free_energy_per_link (self : t T) (force : ndarray T) (temperature : T) :
    ndarray T :=
  mapv (fun force => swfjc_isotensional.relative_gibbs_free_energy_per_link (link_length self)
      (well_width self) force temperature) force.

(* /repo/src/physics/single_chain/swfjc/thermodynamics/isotensional/py.rs:182-185 *)
Definition nondimensional_gibbs_free_energy (self : t T) (nondimensional_force : ndarray T)
    (temperature : T) : ndarray T :=
  mapv (fun nondimensional_force => swfjc_isotensional.nondimensional_gibbs_free_energy
      (number_of_links self) (link_length self) (hinge_mass self) (well_width self)
      nondimensional_force temperature) nondimensional_force.

(* /repo/src/physics/single_chain/swfjc/thermodynamics/isotensional/py.rs:195-198 *)
Definition nondimensional_gibbs_free_energy_per_link (self : t T) (nondimensional_force : ndarray T)
    (temperature : T) : ndarray T :=
  mapv (fun nondimensional_force => swfjc_isotensional.nondimensional_gibbs_free_energy_per_link
      (link_length self) (hinge_mass self) (well_width self) nondimensional_force temperature)
      nondimensional_force.

(* /repo/src/physics/single_chain/swfjc/thermodynamics/isotensional/py.rs:207-210 *)
Definition nondimensional_relative_gibbs_free_energy (self : t T) (nondimensional_force : ndarray T)
    : ndarray T :=
  mapv (fun nondimensional_force => swfjc_isotensional.nondimensional_relative_gibbs_free_energy
      (number_of_links self) (link_length self) (well_width self) nondimensional_force)
      nondimensional_force.

(* /repo/src/physics/single_chain/swfjc/thermodynamics/isotensional/py.rs:225-228 *)
Definition nondimensional_relative_gibbs_free_energy_per_link (self : t T) (nondimensional_force :
    ndarray T) : ndarray T :=
  mapv (fun nondimensional_force =>
      swfjc_isotensional.nondimensional_relative_gibbs_free_energy_per_link (link_length self)
      (well_width self) nondimensional_force) nondimensional_force.

End Model.
End P_swfjc_isotensional.

(** /repo/src/physics/single_chain/ufjc/lennard_jones/thermodynamics/py.rs: class LENNARDJONESFJC *)
Module P_lennard_jones_thermodynamics.
(* /repo/src/physics/single_chain/ufjc/lennard_jones/thermodynamics/py.rs:16-41 *)
Record t {T : Type} := { hinge_mass : T; link_length : T; number_of_links : Z; link_stiffness : T; isometric : P_lennard_jones_isometric.t T; isotensional : P_lennard_jones_isotensional.t T }.
Arguments t : clear implicits.
Section Model.
Context {T : Type} {Sc : Scalar T}.

(* /repo/src/physics/single_chain/ufjc/lennard_jones/thermodynamics/py.rs:47-58 *)
Definition init (number_of_links : Z) (link_length : T) (hinge_mass : T) (link_stiffness : T) : t T
    :=
  {| hinge_mass := hinge_mass; link_length := link_length; number_of_links := number_of_links;
      link_stiffness := link_stiffness; isometric := P_lennard_jones_isometric.init number_of_links
      link_length hinge_mass link_stiffness; isotensional := P_lennard_jones_isotensional.init
      number_of_links link_length hinge_mass link_stiffness |}.

End Model.
End P_lennard_jones_thermodynamics.

(** /repo/src/physics/single_chain/ufjc/log_squared/thermodynamics/py.rs: class LOGSQUAREDFJC *)
Module P_log_squared_thermodynamics.
(* /repo/src/physics/single_chain/ufjc/log_squared/thermodynamics/py.rs:16-41 *)
Record t {T : Type} := { hinge_mass : T; link_length : T; number_of_links : Z; link_stiffness : T; isometric : P_log_squared_isometric.t T; isotensional : P_log_squared_isotensional.t T }.
Arguments t : clear implicits.
Section Model.
Context {T : Type} {Sc : Scalar T}.

(* /repo/src/physics/single_chain/ufjc/log_squared/thermodynamics/py.rs:47-58 *)
Definition init (number_of_links : Z) (link_length : T) (hinge_mass : T) (link_stiffness : T) : t T
    :=
  {| hinge_mass := hinge_mass; link_length := link_length; number_of_links := number_of_links;
      link_stiffness := link_stiffness; isometric := P_log_squared_isometric.init number_of_links
      link_length hinge_mass link_stiffness; isotensional := P_log_squared_isotensional.init
      number_of_links link_length hinge_mass link_stiffness |}.

End Model.
End P_log_squared_thermodynamics.

(** /repo/src/physics/single_chain/ufjc/morse/thermodynamics/py.rs: class MORSEFJC *)
Module P_morse_thermodynamics.
(* /repo/src/physics/single_chain/ufjc/morse/thermodynamics/py.rs:16-45 *)
Record t {T : Type} := { hinge_mass : T; link_length : T; number_of_links : Z; link_stiffness : T; link_energy : T; isometric : P_morse_isometric.t T; isotensional : P_morse_isotensional.t T }.
Arguments t : clear implicits.
Section Model.
Context {T : Type} {Sc : Scalar T}.

(* /repo/src/physics/single_chain/ufjc/morse/thermodynamics/py.rs:51-63 *)
Definition init (number_of_links : Z) (link_length : T) (hinge_mass : T) (link_stiffness : T)
    (link_energy : T) : t T :=
  {| hinge_mass := hinge_mass; link_length := link_length; number_of_links := number_of_links;
      link_stiffness := link_stiffness; link_energy := link_energy; isometric :=
      P_morse_isometric.init number_of_links link_length hinge_mass link_stiffness link_energy;
      isotensional := P_morse_isotensional.init number_of_links link_length hinge_mass
      link_stiffness link_energy |}.

End Model.
End P_morse_thermodynamics.

(** /repo/src/physics/single_chain/wlc/thermodynamics/isometric/py.rs: class WLC *)
Module P_wlc_isometric.
(* /repo/src/physics/single_chain/wlc/thermodynamics/isometric/py.rs:28-53 *)
Record t {T : Type} := { hinge_mass : T; link_length : T; number_of_links : Z; persistance_length : T; nondimensional_persistance_length : T; normalization_nondimensional_equilibrium_distribution : T; legendre : P_wlc_isometric_legendre.t T }.
Arguments t : clear implicits.
Section Model.
Context {T : Type} {Sc : Scalar T}.

(* /repo/src/physics/single_chain/wlc/thermodynamics/isometric/py.rs:59-73 *)
Definition init (number_of_links : Z) (link_length : T) (hinge_mass : T) (persistance_length : T) :
    t T :=
  let nondimensional_persistance_length := persistance_length / sofZ number_of_links / link_length
      in
  let normalization_nondimensional_equilibrium_distribution := math.integrate_1d (fun
      nondimensional_end_to_end_length_per_link =>
      wlc_isometric.nondimensional_equilibrium_radial_distribution nondimensional_persistance_length
      (sdec 1 0) nondimensional_end_to_end_length_per_link) ZERO ONE POINTS in
  {| hinge_mass := hinge_mass; link_length := link_length; number_of_links := number_of_links;
      persistance_length := persistance_length; nondimensional_persistance_length :=
      nondimensional_persistance_length; normalization_nondimensional_equilibrium_distribution :=
      normalization_nondimensional_equilibrium_distribution; legendre :=
      P_wlc_isometric_legendre.init number_of_links link_length hinge_mass persistance_length |}.

(* /repo/src/physics/single_chain/wlc/thermodynamics/isometric/py.rs:83-86 *)
Definition force (self : t T) (end_to_end_length : ndarray T) (temperature : T) : ndarray T :=
  mapv (fun end_to_end_length => wlc_isometric.force (number_of_links self) (link_length self)
      (persistance_length self) end_to_end_length temperature) end_to_end_length.

(* /repo/src/physics/single_chain/wlc/thermodynamics/isometric/py.rs:95-98 *)
Definition nondimensional_force (self : t T) (nondimensional_end_to_end_length_per_link : ndarray T)
    : ndarray T :=
  mapv (fun nondimensional_end_to_end_length_per_link => wlc_isometric.nondimensional_force
      (number_of_links self) (nondimensional_persistance_length self)
      nondimensional_end_to_end_length_per_link) nondimensional_end_to_end_length_per_link.

(* /repo/src/physics/single_chain/wlc/thermodynamics/isometric/py.rs:111-114 *)
Definition helmholtz_free_energy (self : t T) (end_to_end_length : ndarray T) (temperature : T) :
    ndarray T :=
  mapv (fun end_to_end_length => wlc_isometric.helmholtz_free_energy (number_of_links self)
      (link_length self) (hinge_mass self) (persistance_length self) end_to_end_length temperature)
      end_to_end_length.

(* /repo/src/physics/single_chain/wlc/thermodynamics/isometric/py.rs:124-127 *)
Definition helmholtz_free_energy_per_link (self : t T) (end_to_end_length : ndarray T) (temperature
    : T) : ndarray T :=
  mapv (fun end_to_end_length => wlc_isometric.helmholtz_free_energy_per_link (number_of_links self)
      (link_length self) (hinge_mass self) (persistance_length self) end_to_end_length temperature)
      end_to_end_length.

(* /repo/src/physics/single_chain/wlc/thermodynamics/isometric/py.rs:140-143 *)
Definition relative_helmholtz_free_energy (self : t T) (end_to_end_length : ndarray T) (temperature
    : T) : ndarray T :=
  mapv (fun end_to_end_length => wlc_isometric.relative_helmholtz_free_energy (number_of_links self)
      (link_length self) (persistance_length self) end_to_end_length temperature) end_to_end_length.

(* /repo/src/physics/single_chain/wlc/thermodynamics/isometric/py.rs:153-156 *)
Definition relative_helmholtz_free_energy_per_link (self : t T) (end_to_end_length : ndarray T)
    (temperature : T) : ndarray T :=
  mapv (fun end_to_end_length => wlc_isometric.relative_helmholtz_free_energy_per_link
      (number_of_links self) (link_length self) (persistance_length self) end_to_end_length
      temperature) end_to_end_length.

(* /repo/src/physics/single_chain/wlc/thermodynamics/isometric/py.rs:166-169 *)
Definition nondimensional_helmholtz_free_energy (self : t T)
    (nondimensional_end_to_end_length_per_link : ndarray T) (temperature : T) : ndarray T :=
  mapv (fun nondimensional_end_to_end_length_per_link =>
      wlc_isometric.nondimensional_helmholtz_free_energy (number_of_links self) (link_length self)
      (hinge_mass self) (nondimensional_persistance_length self)
      nondimensional_end_to_end_length_per_link temperature)
      nondimensional_end_to_end_length_per_link.

(* /repo/src/physics/single_chain/wlc/thermodynamics/isometric/py.rs:179-182 *)
Definition nondimensional_helmholtz_free_energy_per_link (self : t T)
    (nondimensional_end_to_end_length_per_link : ndarray T) (temperature : T) : ndarray T :=
  mapv (fun nondimensional_end_to_end_length_per_link =>
      wlc_isometric.nondimensional_helmholtz_free_energy_per_link (number_of_links self)
      (link_length self) (hinge_mass self) (nondimensional_persistance_length self)
      nondimensional_end_to_end_length_per_link temperature)
      nondimensional_end_to_end_length_per_link.

(* /repo/src/physics/single_chain/wlc/thermodynamics/isometric/py.rs:194-197 *)
Definition nondimensional_relative_helmholtz_free_energy (self : t T)
    (nondimensional_end_to_end_length_per_link : ndarray T) : ndarray T :=
  mapv (fun nondimensional_end_to_end_length_per_link =>
      wlc_isometric.nondimensional_relative_helmholtz_free_energy (nondimensional_persistance_length
      self) nondimensional_end_to_end_length_per_link) nondimensional_end_to_end_length_per_link.

(* /repo/src/physics/single_chain/wlc/thermodynamics/isometric/py.rs:209-212 *)
Definition nondimensional_relative_helmholtz_free_energy_per_link (self : t T)
    (nondimensional_end_to_end_length_per_link : ndarray T) : ndarray T :=
  mapv (fun nondimensional_end_to_end_length_per_link =>
      wlc_isometric.nondimensional_relative_helmholtz_free_energy_per_link (number_of_links self)
      (nondimensional_persistance_length self) nondimensional_end_to_end_length_per_link)
      nondimensional_end_to_end_length_per_link.

(* /repo/src/physics/single_chain/wlc/thermodynamics/isometric/py.rs:224-227 *)
Definition equilibrium_distribution (self : t T) (end_to_end_length : ndarray T) : ndarray T :=
  mapv (fun end_to_end_length => wlc_isometric.equilibrium_distribution (number_of_links self)
      (link_length self) (persistance_length self)
      (normalization_nondimensional_equilibrium_distribution self) end_to_end_length)
      end_to_end_length.

(* /repo/src/physics/single_chain/wlc/thermodynamics/isometric/py.rs:239-242 *)
Definition nondimensional_equilibrium_distribution (self : t T)
    (nondimensional_end_to_end_length_per_link : ndarray T) : ndarray T :=
  mapv (fun nondimensional_end_to_end_length_per_link =>
      wlc_isometric.nondimensional_equilibrium_distribution (nondimensional_persistance_length self)
      (normalization_nondimensional_equilibrium_distribution self)
      nondimensional_end_to_end_length_per_link) nondimensional_end_to_end_length_per_link.

(* /repo/src/physics/single_chain/wlc/thermodynamics/isometric/py.rs:256-259 *)
Definition equilibrium_radial_distribution (self : t T) (end_to_end_length : ndarray T) : ndarray T
    :=
  mapv (fun end_to_end_length => wlc_isometric.equilibrium_radial_distribution (number_of_links
      self) (link_length self) (persistance_length self)
      (normalization_nondimensional_equilibrium_distribution self) end_to_end_length)
      end_to_end_length.

(* /repo/src/physics/single_chain/wlc/thermodynamics/isometric/py.rs:271-274 *)
Definition nondimensional_equilibrium_radial_distribution (self : t T)
    (nondimensional_end_to_end_length_per_link : ndarray T) : ndarray T :=
  mapv (fun nondimensional_end_to_end_length_per_link =>
      wlc_isometric.nondimensional_equilibrium_radial_distribution
      (nondimensional_persistance_length self)
      (normalization_nondimensional_equilibrium_distribution self)
      nondimensional_end_to_end_length_per_link) nondimensional_end_to_end_length_per_link.

End Model.
End P_wlc_isometric.

(** /repo/src/physics/single_chain/wlc/thermodynamics/isotensional/py.rs: class WLC *)
Module P_wlc_isotensional.
(* /repo/src/physics/single_chain/wlc/thermodynamics/isotensional/py.rs:21-44 *)
Record t {T : Type} := { hinge_mass : T; link_length : T; number_of_links : Z; persistance_length : T; nondimensional_persistance_length : T; legendre : P_wlc_isotensional_legendre.t T }.
Arguments t : clear implicits.
Section Model.
Context {T : Type} {Sc : Scalar T}.

(* /repo/src/physics/single_chain/wlc/thermodynamics/isotensional/py.rs:50-61 *)
Definition init (number_of_links : Z) (link_length : T) (hinge_mass : T) (persistance_length : T) :
    t T :=
  {| hinge_mass := hinge_mass; link_length := link_length; number_of_links := number_of_links;
      persistance_length := persistance_length; nondimensional_persistance_length :=
      persistance_length / sofZ number_of_links / link_length; legendre :=
      P_wlc_isotensional_legendre.init number_of_links link_length hinge_mass persistance_length |}.

(* /repo/src/physics/single_chain/wlc/thermodynamics/isotensional/py.rs:71-74 *)
Definition end_to_end_length (self : t T) (force : ndarray T) (temperature : T) : option (ndarray T)
    :=
  mapv_panic (fun force => wlc_isotensional.end_to_end_length (number_of_links self) (link_length
      self) (persistance_length self) force temperature) force.

(* /repo/src/physics/single_chain/wlc/thermodynamics/isotensional/py.rs:84-87 *)
Definition end_to_end_length_per_link (self : t T) (force : ndarray T) (temperature : T) : option
    (ndarray T) :=
  mapv_panic (fun force => wlc_isotensional.end_to_end_length_per_link (number_of_links self)
      (link_length self) (persistance_length self) force temperature) force.

(* /repo/src/physics/single_chain/wlc/thermodynamics/isotensional/py.rs:96-99 *)
Definition nondimensional_end_to_end_length (self : t T) (nondimensional_force : ndarray T) : option
    (ndarray T) :=
  mapv_panic (fun nondimensional_force => wlc_isotensional.nondimensional_end_to_end_length
      (number_of_links self) (nondimensional_persistance_length self) nondimensional_force)
      nondimensional_force.

(* /repo/src/physics/single_chain/wlc/thermodynamics/isotensional/py.rs:108-111 *)
Definition nondimensional_end_to_end_length_per_link (self : t T) (nondimensional_force : ndarray T)
    : option (ndarray T) :=
  mapv_panic (fun nondimensional_force => wlc_isotensional.nondimensional_end_to_end_length_per_link
      (number_of_links self) (nondimensional_persistance_length self) nondimensional_force)
      nondimensional_force.

(* /repo/src/physics/single_chain/wlc/thermodynamics/isotensional/py.rs:124-127 *)
Definition gibbs_free_energy (self : t T) (force : ndarray T) (temperature : T) : option (ndarray T)
    :=
  mapv_panic (fun force => wlc_isotensional.gibbs_free_energy (number_of_links self) (link_length
      self) (hinge_mass self) (persistance_length self) force temperature) force.

(* /repo/src/physics/single_chain/wlc/thermodynamics/isotensional/py.rs:137-140 *)
Definition gibbs_free_energy_per_link (self : t T) (force : ndarray T) (temperature : T) : option
    (ndarray T) :=
  mapv_panic (fun force => wlc_isotensional.gibbs_free_energy_per_link (number_of_links self)
      (link_length self) (hinge_mass self) (persistance_length self) force temperature) force.

(* /repo/src/physics/single_chain/wlc/thermodynamics/isotensional/py.rs:153-156 *)
Definition relative_gibbs_free_energy (self : t T) (force : ndarray T) (temperature : T) : option
    (ndarray T) :=
  mapv_panic (fun force => wlc_isotensional.relative_gibbs_free_energy (number_of_links self)
      (link_length self) (persistance_length self) force temperature) force.

(* /repo/src/physics/single_chain/wlc/thermodynamics/isotensional/py.rs:166-169 *)
Definition relative_gibbs_free_energy_per_link (self : t T) (force : ndarray T) (temperature : T) :
    option (ndarray T) :=
  mapv_panic (fun force => wlc_isotensional.relative_gibbs_free_energy_per_link (number_of_links
      self) (link_length self) (persistance_length self) force temperature) force.

(* /repo/src/physics/single_chain/wlc/thermodynamics/isotensional/py.rs:179-182 *)
Definition nondimensional_gibbs_free_energy (self : t T) (nondimensional_force : ndarray T)
    (temperature : T) : option (ndarray T) :=
  mapv_panic (fun nondimensional_force => wlc_isotensional.nondimensional_gibbs_free_energy
      (number_of_links self) (link_length self) (hinge_mass self) (nondimensional_persistance_length
      self) nondimensional_force temperature) nondimensional_force.

(* /repo/src/physics/single_chain/wlc/thermodynamics/isotensional/py.rs:192-195 *)
Definition nondimensional_gibbs_free_energy_per_link (self : t T) (nondimensional_force : ndarray T)
    (temperature : T) : option (ndarray T) :=
  mapv_panic (fun nondimensional_force => wlc_isotensional.nondimensional_gibbs_free_energy_per_link
      (number_of_links self) (link_length self) (hinge_mass self) (nondimensional_persistance_length
      self) nondimensional_force temperature) nondimensional_force.

(* /repo/src/physics/single_chain/wlc/thermodynamics/isotensional/py.rs:207-210 *)
Definition nondimensional_relative_gibbs_free_energy (self : t T) (nondimensional_force : ndarray T)
    : option (ndarray T) :=
  mapv_panic (fun nondimensional_force => wlc_isotensional.nondimensional_relative_gibbs_free_energy
      (number_of_links self) (nondimensional_persistance_length self) nondimensional_force)
      nondimensional_force.

(* /repo/src/physics/single_chain/wlc/thermodynamics/isotensional/py.rs:222-225 *)
Definition nondimensional_relative_gibbs_free_energy_per_link (self : t T) (nondimensional_force :
    ndarray T) : option (ndarray T) :=
  mapv_panic (fun nondimensional_force =>
      wlc_isotensional.nondimensional_relative_gibbs_free_energy_per_link (number_of_links self)
      (nondimensional_persistance_length self) nondimensional_force) nondimensional_force.

End Model.
End P_wlc_isotensional.

(** /repo/src/physics/single_chain/efjc/thermodynamics/py.rs: class EFJC *)
Module P_efjc_thermodynamics.
(* /repo/src/physics/single_chain/efjc/thermodynamics/py.rs:16-41 *)
Record t {T : Type} := { hinge_mass : T; link_length : T; number_of_links : Z; link_stiffness : T; isometric : P_efjc_isometric.t T; isotensional : P_efjc_isotensional.t T }.
Arguments t : clear implicits.
Section Model.
Context {T : Type} {Sc : Scalar T}.

(* /repo/src/physics/single_chain/efjc/thermodynamics/py.rs:47-58 *)
Definition init (number_of_links : Z) (link_length : T) (hinge_mass : T) (link_stiffness : T) : t T
    :=
  {| hinge_mass := hinge_mass; link_length := link_length; number_of_links := number_of_links;
      link_stiffness := link_stiffness; isometric := P_efjc_isometric.init number_of_links
      link_length hinge_mass link_stiffness; isotensional := P_efjc_isotensional.init
      number_of_links link_length hinge_mass link_stiffness |}.

End Model.
End P_efjc_thermodynamics.

(** /repo/src/physics/single_chain/fjc/thermodynamics/py.rs: class FJC *)
Module P_fjc_thermodynamics.
(* /repo/src/physics/single_chain/fjc/thermodynamics/py.rs:17-42 *)
Record t {T : Type} := { hinge_mass : T; link_length : T; number_of_links : Z; isometric : P_fjc_isometric.t T; isotensional : P_fjc_isotensional.t T; modified_canonical : P_fjc_modified_canonical.t T }.
Arguments t : clear implicits.
Section Model.
Context {T : Type} {Sc : Scalar T}.

(* /repo/src/physics/single_chain/fjc/thermodynamics/py.rs:48-59 *)
Definition init (number_of_links : Z) (link_length : T) (hinge_mass : T) : t T :=
  {| hinge_mass := hinge_mass; link_length := link_length; number_of_links := number_of_links;
      isometric := P_fjc_isometric.init number_of_links link_length hinge_mass; isotensional :=
      P_fjc_isotensional.init number_of_links link_length hinge_mass; modified_canonical :=
      P_fjc_modified_canonical.init number_of_links link_length hinge_mass |}.

End Model.
End P_fjc_thermodynamics.

(** /repo/src/physics/single_chain/ideal/thermodynamics/py.rs: class Ideal *)
Module P_ideal_thermodynamics.
(* /repo/src/physics/single_chain/ideal/thermodynamics/py.rs:16-37 *)
Record t {T : Type} := { hinge_mass : T; link_length : T; number_of_links : Z; isometric : P_ideal_isometric.t T; isotensional : P_ideal_isotensional.t T }.
Arguments t : clear implicits.
Section Model.
Context {T : Type} {Sc : Scalar T}.

(* /repo/src/physics/single_chain/ideal/thermodynamics/py.rs:43-53 *)
Definition init (number_of_links : Z) (link_length : T) (hinge_mass : T) : t T :=
  {| hinge_mass := hinge_mass; link_length := link_length; number_of_links := number_of_links;
      isometric := P_ideal_isometric.init number_of_links link_length hinge_mass; isotensional :=
      P_ideal_isotensional.init number_of_links link_length hinge_mass |}.

End Model.
End P_ideal_thermodynamics.

(** /repo/src/physics/single_chain/swfjc/thermodynamics/py.rs: class SWFJC *)
Module P_swfjc_thermodynamics.
(* /repo/src/physics/single_chain/swfjc/thermodynamics/py.rs:16-41 *)
Record t {T : Type} := { hinge_mass : T; link_length : T; number_of_links : Z; well_width : T; isometric : P_swfjc_isometric.t T; isotensional : P_swfjc_isotensional.t T }.
Arguments t : clear implicits.
Section Model.
Context {T : Type} {Sc : Scalar T}.

(* /repo/src/physics/single_chain/swfjc/thermodynamics/py.rs:47-58 *)
Definition init (number_of_links : Z) (link_length : T) (hinge_mass : T) (well_width : T) : t T :=
  {| hinge_mass := hinge_mass; link_length := link_length; number_of_links := number_of_links;
      well_width := well_width; isometric := P_swfjc_isometric.init number_of_links link_length
      hinge_mass well_width; isotensional := P_swfjc_isotensional.init number_of_links link_length
      hinge_mass well_width |}.

End Model.
End P_swfjc_thermodynamics.

(** /repo/src/physics/single_chain/ufjc/lennard_jones/py.rs: class LENNARDJONESFJC *)
Module P_lennard_jones.
(* /repo/src/physics/single_chain/ufjc/lennard_jones/py.rs:14-35 *)
Record t {T : Type} := { hinge_mass : T; link_length : T; number_of_links : Z; link_stiffness : T; thermodynamics : P_lennard_jones_thermodynamics.t T }.
Arguments t : clear implicits.
Section Model.
Context {T : Type} {Sc : Scalar T}.

(* /repo/src/physics/single_chain/ufjc/lennard_jones/py.rs:41-51 *)
Definition init (number_of_links : Z) (link_length : T) (hinge_mass : T) (link_stiffness : T) : t T
    :=
  {| hinge_mass := hinge_mass; link_length := link_length; number_of_links := number_of_links;
      link_stiffness := link_stiffness; thermodynamics := P_lennard_jones_thermodynamics.init
      number_of_links link_length hinge_mass link_stiffness |}.

End Model.
End P_lennard_jones.

(** /repo/src/physics/single_chain/ufjc/log_squared/py.rs: class LOGSQUAREDFJC *)
Module P_log_squared.
(* /repo/src/physics/single_chain/ufjc/log_squared/py.rs:14-35 *)
Record t {T : Type} := { hinge_mass : T; link_length : T; number_of_links : Z; link_stiffness : T; thermodynamics : P_log_squared_thermodynamics.t T }.
Arguments t : clear implicits.
Section Model.
Context {T : Type} {Sc : Scalar T}.

(* /repo/src/physics/single_chain/ufjc/log_squared/py.rs:41-51 *)
Definition init (number_of_links : Z) (link_length : T) (hinge_mass : T) (link_stiffness : T) : t T
    :=
  {| hinge_mass := hinge_mass; link_length := link_length; number_of_links := number_of_links;
      link_stiffness := link_stiffness; thermodynamics := P_log_squared_thermodynamics.init
      number_of_links link_length hinge_mass link_stiffness |}.

End Model.
End P_log_squared.

(** /repo/src/physics/single_chain/ufjc/morse/py.rs: class MORSEFJC *)
Module P_morse.
(* /repo/src/physics/single_chain/ufjc/morse/py.rs:14-39 *)
Record t {T : Type} := { hinge_mass : T; link_length : T; number_of_links : Z; link_stiffness : T; link_energy : T; thermodynamics : P_morse_thermodynamics.t T }.
Arguments t : clear implicits.
Section Model.
Context {T : Type} {Sc : Scalar T}.

(* /repo/src/physics/single_chain/ufjc/morse/py.rs:45-56 *)
Definition init (number_of_links : Z) (link_length : T) (hinge_mass : T) (link_stiffness : T)
    (link_energy : T) : t T :=
  {| hinge_mass := hinge_mass; link_length := link_length; number_of_links := number_of_links;
      link_stiffness := link_stiffness; link_energy := link_energy; thermodynamics :=
      P_morse_thermodynamics.init number_of_links link_length hinge_mass link_stiffness link_energy
      |}.

End Model.
End P_morse.

(** /repo/src/physics/single_chain/wlc/thermodynamics/py.rs: class WLC *)
Module P_wlc_thermodynamics.
(* /repo/src/physics/single_chain/wlc/thermodynamics/py.rs:16-41 *)
Record t {T : Type} := { hinge_mass : T; link_length : T; number_of_links : Z; persistance_length : T; isometric : P_wlc_isometric.t T; isotensional : P_wlc_isotensional.t T }.
Arguments t : clear implicits.
Section Model.
Context {T : Type} {Sc : Scalar T}.

(* /repo/src/physics/single_chain/wlc/thermodynamics/py.rs:47-58 *)
Definition init (number_of_links : Z) (link_length : T) (hinge_mass : T) (persistance_length : T) :
    t T :=
  {| hinge_mass := hinge_mass; link_length := link_length; number_of_links := number_of_links;
      persistance_length := persistance_length; isometric := P_wlc_isometric.init number_of_links
      link_length hinge_mass persistance_length; isotensional := P_wlc_isotensional.init
      number_of_links link_length hinge_mass persistance_length |}.

End Model.
End P_wlc_thermodynamics.

(** /repo/src/physics/single_chain/efjc/py.rs: class EFJC *)
Module P_efjc.
(* /repo/src/physics/single_chain/efjc/py.rs:14-35 *)
Record t {T : Type} := { hinge_mass : T; link_length : T; number_of_links : Z; link_stiffness : T; thermodynamics : P_efjc_thermodynamics.t T }.
Arguments t : clear implicits.
Section Model.
Context {T : Type} {Sc : Scalar T}.

(* /repo/src/physics/single_chain/efjc/py.rs:41-51 *)
Definition init (number_of_links : Z) (link_length : T) (hinge_mass : T) (link_stiffness : T) : t T
    :=
  {| hinge_mass := hinge_mass; link_length := link_length; number_of_links := number_of_links;
      link_stiffness := link_stiffness; thermodynamics := P_efjc_thermodynamics.init number_of_links
      link_length hinge_mass link_stiffness |}.

End Model.
End P_efjc.

(** /repo/src/physics/single_chain/fjc/py.rs: class FJC *)
Module P_fjc.
(* /repo/src/physics/single_chain/fjc/py.rs:14-31 *)
Record t {T : Type} := { hinge_mass : T; link_length : T; number_of_links : Z; thermodynamics : P_fjc_thermodynamics.t T }.
Arguments t : clear implicits.
Section Model.
Context {T : Type} {Sc : Scalar T}.

(* /repo/src/physics/single_chain/fjc/py.rs:37-46 *)
Definition init (number_of_links : Z) (link_length : T) (hinge_mass : T) : t T :=
  {| hinge_mass := hinge_mass; link_length := link_length; number_of_links := number_of_links;
      thermodynamics := P_fjc_thermodynamics.init number_of_links link_length hinge_mass |}.

End Model.
End P_fjc.

(** /repo/src/physics/single_chain/ideal/py.rs: class Ideal *)
Module P_ideal.
(* /repo/src/physics/single_chain/ideal/py.rs:14-31 *)
Record t {T : Type} := { hinge_mass : T; link_length : T; number_of_links : Z; thermodynamics : P_ideal_thermodynamics.t T }.
Arguments t : clear implicits.
Section Model.
Context {T : Type} {Sc : Scalar T}.

(* /repo/src/physics/single_chain/ideal/py.rs:37-46 *)
Definition init (number_of_links : Z) (link_length : T) (hinge_mass : T) : t T :=
  {| hinge_mass := hinge_mass; link_length := link_length; number_of_links := number_of_links;
      thermodynamics := P_ideal_thermodynamics.init number_of_links link_length hinge_mass |}.

End Model.
End P_ideal.

(** /repo/src/physics/single_chain/swfjc/py.rs: class SWFJC *)
Module P_swfjc.
(* /repo/src/physics/single_chain/swfjc/py.rs:14-35 *)
Record t {T : Type} := { hinge_mass : T; link_length : T; number_of_links : Z; well_width : T; thermodynamics : P_swfjc_thermodynamics.t T }.
Arguments t : clear implicits.
Section Model.
Context {T : Type} {Sc : Scalar T}.

(* /repo/src/physics/single_chain/swfjc/py.rs:41-51 *)
Definition init (number_of_links : Z) (link_length : T) (hinge_mass : T) (well_width : T) : t T :=
  {| hinge_mass := hinge_mass; link_length := link_length; number_of_links := number_of_links;
      well_width := well_width; thermodynamics := P_swfjc_thermodynamics.init number_of_links
      link_length hinge_mass well_width |}.

End Model.
End P_swfjc.

(** /repo/src/physics/single_chain/wlc/py.rs: class WLC *)
Module P_wlc.
(* /repo/src/physics/single_chain/wlc/py.rs:14-35 *)
Record t {T : Type} := { hinge_mass : T; link_length : T; number_of_links : Z; persistance_length : T; thermodynamics : P_wlc_thermodynamics.t T }.
Arguments t : clear implicits.
Section Model.
Context {T : Type} {Sc : Scalar T}.

(* /repo/src/physics/single_chain/wlc/py.rs:41-51 *)
Definition init (number_of_links : Z) (link_length : T) (hinge_mass : T) (persistance_length : T) :
    t T :=
  {| hinge_mass := hinge_mass; link_length := link_length; number_of_links := number_of_links;
      persistance_length := persistance_length; thermodynamics := P_wlc_thermodynamics.init
      number_of_links link_length hinge_mass persistance_length |}.

End Model.
End P_wlc.

