(** Theorems for C80 (thermodynamic stability in force and temperature). *)
From Coq Require Import Reals ZArith Lra Lia.
From Verif Require Import Scalar MFjc SpecThermo SpecChains SpecThermal PThermal.
From Verif Require PIsometric.
Open Scope R_scope.

Theorem C80_ideal : forall N l m, (0 < N)%Z -> 0 < l -> 0 < m ->
  gibbs_jointly_concave (fun T => C_ideal_isotensional N l m T).
Proof. exact ideal_concave. Qed.
Print Assumptions C80_ideal.

Theorem C80_fjc : forall N l m, (0 < N)%Z -> 0 < l -> 0 < m ->
  gibbs_jointly_concave (fun T => C_fjc_isotensional N l m T).
Proof. exact fjc_concave. Qed.
Print Assumptions C80_fjc.

Theorem C80_swfjc : forall N l m w, (0 < N)%Z -> 0 < l -> 0 < m -> 0 < w ->
  gibbs_jointly_concave (fun T => C_swfjc_isotensional N l m T w).
Proof. exact swfjc_concave. Qed.
Print Assumptions C80_swfjc.

Theorem C80_efjc_asymptotic : forall N l m k, (0 < N)%Z -> 0 < l -> 0 < m -> 0 < k ->
  gibbs_jointly_concave (fun T => C_efjc_isotensional_asymptotic N l m T k).
Proof. exact asymptotic_concave. Qed.
Print Assumptions C80_efjc_asymptotic.

Theorem C80_efjc_reduced : forall N l m k, (0 < N)%Z -> 0 < l -> 0 < m -> 0 < k ->
  gibbs_jointly_concave (fun T => C_efjc_isotensional_asymptotic_reduced N l m T k).
Proof. exact reduced_concave. Qed.
Print Assumptions C80_efjc_reduced.

Theorem C80_morse : forall N l m k e, (0 < N)%Z -> 0 < l -> 0 < m -> 0 < k -> 0 < e ->
  gibbs_jointly_concave (fun T => C_morse_isotensional N l m T k e).
Proof. exact morse_concave. Qed.
Print Assumptions C80_morse.

Theorem C80_lennard_jones : forall N l m k, (0 < N)%Z -> 0 < l -> 0 < m -> 0 < k ->
  gibbs_jointly_concave (fun T => C_lennard_jones_isotensional N l m T k).
Proof. exact lennard_jones_concave. Qed.
Print Assumptions C80_lennard_jones.

Theorem C80_log_squared : forall N l m k, (0 < N)%Z -> 0 < l -> 0 < m -> 0 < k ->
  gibbs_jointly_concave (fun T => C_log_squared_isotensional N l m T k).
Proof. exact log_squared_concave. Qed.
Print Assumptions C80_log_squared.

(** So at a fixed force the entropy of each of these chains increases with the temperature. *)
Theorem C80_entropy : forall c f, gibbs_jointly_concave c -> 0 < f ->
  entropy_increases (fun T => I_gibbs (c T) f) /\ entropy_increases (fun T => I_gibbs_per_link (c T) f).
Proof. exact entropy_at_force. Qed.
Print Assumptions C80_entropy.

(** At a fixed length. *)
Theorem C80_ideal_isometric : forall N l m x, (0 < N)%Z -> 0 < l -> 0 < m ->
  entropy_increases (fun T => S_helmholtz (C_ideal_isometric N l m T) x).
Proof. exact ideal_isometric_entropy. Qed.
Print Assumptions C80_ideal_isometric.

Theorem C80_fjc_isometric : forall prof N l m x a, (2 <= N)%Z -> 0 < l -> 0 < m ->
  (forall T, 0 < T -> fjc_isometric.helmholtz_free_energy prof N l m x T = Some (a T)) -> entropy_increases a.
Proof. exact fjc_isometric_entropy. Qed.
Print Assumptions C80_fjc_isometric.

Theorem C80_wlc_isometric : forall N l m p x, (2 <= N)%Z -> 0 < l -> 0 < m -> 0 < p ->
  entropy_increases (fun T => S_helmholtz (C_wlc_isometric N l m T p) x).
Proof. exact wlc_isometric_entropy. Qed.
Print Assumptions C80_wlc_isometric.

(** Eight links at half their length. *)
Example C80_fjc_isometric_example : exists a, forall T, 0 < T -> fjc_isometric.helmholtz_free_energy Debug 8 1 1 4 T = Some (a T).
Proof.
  assert (H : fjc_isometric.nondimensional_equilibrium_distribution (T := R) Debug 8 (1 / 2) <> None).
  { apply PIsometric.distribution_domain; [lia|]. split; [lia|]. lra. }
  destruct (fjc_isometric.nondimensional_equilibrium_distribution (T := R) Debug 8 (1 / 2)) as [v|] eqn:E; [clear H | contradiction].
  eexists. intros T HT. unfold fjc_isometric.helmholtz_free_energy, fjc_isometric.nondimensional_helmholtz_free_energy, fjc_isometric.equilibrium_distribution. cbv zeta.
  replace (sdiv (smul (smul (sdiv 4 (smul (sofZ 8) 1)) (sofZ 8)) 1) (smul (sofZ 8) 1)) with (1 / 2) by (cbn; lra).
  rewrite E. reflexivity.
Qed.
