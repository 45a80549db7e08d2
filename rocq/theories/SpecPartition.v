(** The isotensional partition function of one link, from first principles.

    A link of relative length s whose ends are pulled apart by the
    nondimensional force [eta] contributes s^2 exp(-u(s)) times the average of
    exp(eta s cos(theta)) over directions, u being its potential in units of kT. *)
From Coq Require Import Reals.
From Coquelicot Require Import Coquelicot.
Open Scope R_scope.

(** The average of exp(x cos(theta)) over the sphere; c stands for cos(theta). *)
Definition angular_average (x : R) : R := RInt (fun c => exp (x * c)) (-1) 1 / 2.

Definition link_weight (u : R -> R) (eta s : R) : R := s ^ 2 * angular_average (eta * s) * exp (- u s).

(** Potentials with stiffness [kap] (and depth [eps]) in units of kT. *)
Definition harmonic_potential (kap s : R) : R := kap / 2 * (s - 1) ^ 2.
Definition morse_potential (kap eps s : R) : R := eps * (1 - exp (- sqrt (kap / (2 * eps)) * (s - 1))) ^ 2.
Definition lennard_jones_potential (kap s : R) : R := kap / 72 * (/ s ^ 12 - 2 * / s ^ 6).
Definition log_squared_potential (kap s : R) : R := kap / 2 * ln s ^ 2.

(** The midpoint rule with [n] panels. *)
Definition midpoint_rule (f : R -> R) (a b : R) (n : nat) : R :=
  (b - a) / INR n * sum_f_R0 (fun i => f (a + (INR i + 1 / 2) * ((b - a) / INR n))) (n - 1).
