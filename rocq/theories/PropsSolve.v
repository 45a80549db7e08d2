(** C72: holding an extensible chain at a given extension. *)
From Coq Require Import Reals ZArith Lra.
From Coquelicot Require Import Coquelicot.
From Verif Require Import Scalar MMath MEfjc SpecNewton SpecThermo SpecInverse SpecFenchel PEfjcSolve PEfjcStored.
Open Scope R_scope.

Local Notation force := (@efjc_isometric_asymptotic_reduced_legendre.nondimensional_force R R_scalar).
Local Notation extension := (@efjc_isotensional_asymptotic_reduced.nondimensional_end_to_end_length_per_link R R_scalar).

(** The loop never runs into its cap of one hundred steps. *)
Theorem C72_terminates : forall kap y, 0 < kap -> 0 < y -> y <> 1 ->
  exists (fp : R -> R) (k : nat), (forall x, 0 < x -> is_derive (extension kap) x (fp x)) /\ (0 < k < 100)%nat /\
    force kap y = newton_iterate y (extension kap) fp k (if Rlt_dec y 1 then math.inverse_langevin y else kap * (y - 1)).
Proof. exact terminates. Qed.
Print Assumptions C72_terminates.

(** The force it returns is positive and gives back the extension to two millionths. *)
Theorem C72_force : forall kap y, 0 < kap -> 0 < y -> y <> 1 ->
  0 < force kap y /\ 0 <= y - extension kap (force kap y) <= 2 / 1000000 * y.
Proof. exact solved_force. Qed.
Print Assumptions C72_force.

(** There is exactly one force that gives this extension, and the one returned is not above it. *)
Theorem C72_root : forall kap y, 0 < kap -> 0 < y -> y <> 1 -> exists r, 0 < r /\ extension kap r = y /\
  (forall s, 0 < s -> extension kap s = y -> s = r) /\ 0 < force kap y <= r /\ r - force kap y <= 2 / 1000000 * kap * y.
Proof. exact solved_root. Qed.
Print Assumptions C72_root.

(** With dimensions: pulling the chain with the force the isometric model reports
    gives back the prescribed end-to-end length. *)
Theorem C72_round_trip : forall N l k xi T, (0 < N)%Z -> 0 < l -> 0 < k -> 0 < T -> 0 < xi -> xi <> IZR N * l ->
  let f := efjc_isometric_asymptotic_reduced_legendre.force N l k xi T in
  0 < f /\ 0 <= xi - efjc_isotensional_asymptotic_reduced.end_to_end_length N l k f T <= 2 / 1000000 * xi.
Proof. exact round_trip. Qed.
Print Assumptions C72_round_trip.

(** The Helmholtz free energy is the supremum over all forces, up to the share of
    the two ends and a tolerance that is second order in that of the solver. *)
Theorem C72_helmholtz : forall kap l m T, 0 < kap -> forall N y, 0 < y -> y <> 1 ->
  let psi := efjc_isometric_asymptotic_reduced_legendre.nondimensional_helmholtz_free_energy_per_link N l m kap y T
    - (hinge_term l m T + link_term kap l) / IZR N in
  exists v, legendre_transform (fun e => efjc_isotensional_asymptotic_reduced.nondimensional_gibbs_free_energy_per_link l m kap e T) y v /\
    psi <= v <= psi + 4 / 10 ^ 12 * kap * y ^ 2.
Proof. exact stored. Qed.
Print Assumptions C72_helmholtz.

(** Between two extensions the chain stores at least the work at the smaller
    force and at most the work at the larger one, up to the same tolerance. *)
Theorem C72_work : forall kap l m T, 0 < kap -> forall N y z, 0 < y -> y < z -> y <> 1 -> z <> 1 ->
  let psi := fun y => efjc_isometric_asymptotic_reduced_legendre.nondimensional_helmholtz_free_energy_per_link N l m kap y T in
  force kap y * (z - y) - 4 / 10 ^ 12 * kap * z ^ 2 <= psi z - psi y <= force kap z * (z - y) + 4 / 10 ^ 12 * kap * y ^ 2.
Proof. exact stored_work. Qed.
Print Assumptions C72_work.

(** A chain of stiff links pulled beyond its contour length. *)
Example C72_example : 0 < force 50 (11 / 10) /\ Rabs (extension 50 (force 50 (11 / 10)) - 11 / 10) <= 3 / 1000000.
Proof. destruct (C72_force 50 (11 / 10)) as (P & B); try lra. split; [exact P|]. rewrite Rabs_left1; lra. Qed.
