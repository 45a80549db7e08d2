(** Theorems for C79 (a cold chain lies straight). *)
From Coq Require Import Reals ZArith Lra Lia.
From Verif Require Import SpecThermo SpecChains SpecLinks SpecSofter SpecCold PCold PLjStretch.
Open Scope R_scope.

Theorem C79_fjc : forall N l m f, (0 < N)%Z -> 0 < l -> 0 < f ->
  straightens (IZR N) l 1 f (fun T => C_fjc_isotensional N l m T).
Proof. exact fjc_straightens. Qed.
Print Assumptions C79_fjc.

(** Springs: every link is stretched by f / k. *)
Theorem C79_efjc : forall N l m k f, (0 < N)%Z -> 0 < l -> 0 < k -> 0 < f ->
  straightens (IZR N) l (1 + f / (k * l)) f (fun T => C_efjc_isotensional_asymptotic N l m T k) /\
  straightens (IZR N) l (1 + f / (k * l)) f (fun T => C_efjc_isotensional_asymptotic_reduced N l m T k).
Proof. exact efjc_straightens. Qed.
Print Assumptions C79_efjc.

Theorem C79_efjc_alternative : forall N l m k f, (0 < N)%Z -> 0 < l -> 0 < k -> 0 < f ->
  cools_to (l + f / k) f (fun T => C_efjc_isotensional_asymptotic_alternative N l m T k).
Proof. exact alternative_cools. Qed.
Print Assumptions C79_efjc_alternative.

(** Square wells: every link is as long as the well allows. *)
Theorem C79_swfjc : forall N l m w f, (0 < N)%Z -> 0 < l -> 0 < w -> 0 < f ->
  cools_to (l + w) f (fun T => C_swfjc_isotensional N l m T w).
Proof. exact swfjc_cools. Qed.
Print Assumptions C79_swfjc.

(** Morse links: every link is stretched until its bond force is f, on the rising side. *)
Theorem C79_morse : forall N l m k e f, (0 < N)%Z -> 0 < l -> 0 < k -> 0 < e -> 0 < f -> morse_bears k e f ->
  exists lam, 1 < lam < 1 + ln 2 / (l * sqrt (k / (2 * e))) /\ morse_bond_force k e l lam = f /\
  straightens (IZR N) l lam f (fun T => C_morse_isotensional_asymptotic N l m T k e) /\
  straightens (IZR N) l lam f (fun T => C_morse_isotensional_asymptotic_reduced N l m T k e).
Proof. exact morse_straightens. Qed.
Print Assumptions C79_morse.

(** Lennard-Jones and log-squared links: the same, up to the accuracy of the iterations. *)
Theorem C79_lennard_jones : forall N l m k f lam_max, (0 < N)%Z -> 0 < l -> 0 < k -> 0 < f ->
  0 < lam_max -> lam_max ^ 6 = 13 / 7 -> f < lj_bond_force (k * l) lam_max ->
  exists lam, 1 <= lam < lam_max /\ f * (1 - 1 / 10 ^ 6) <= lj_bond_force (k * l) lam <= f /\
  straightens (IZR N) l lam f (fun T => C_lennard_jones_isotensional_asymptotic N l m T k) /\
  straightens (IZR N) l lam f (fun T => C_lennard_jones_isotensional_asymptotic_reduced N l m T k).
Proof. exact lennard_jones_straightens. Qed.
Print Assumptions C79_lennard_jones.

Theorem C79_log_squared : forall N l m k f, (0 < N)%Z -> 0 < l -> 0 < k -> 0 < f -> log_squared_bears (k * l) f ->
  exists lam, 1 <= lam < exp 1 /\ f * (1 - 1 / 10 ^ 3) <= log_squared_bond_force (k * l) lam <= f /\
  straightens (IZR N) l lam f (fun T => C_log_squared_isotensional_asymptotic N l m T k) /\
  straightens (IZR N) l lam f (fun T => C_log_squared_isotensional_asymptotic_reduced N l m T k).
Proof. exact log_squared_straightens. Qed.
Print Assumptions C79_log_squared.

(** Forces the links bear. *)
Example C79_bears_example : morse_bears 50 80 10 /\ log_squared_bears (50 * 1) 10 /\
  exists lam_max, 0 < lam_max /\ lam_max ^ 6 = 13 / 7 /\ 1 < lj_bond_force (600 * 1) lam_max.
Proof.
  split; [|split].
  - unfold morse_bears. replace (50 * 80 / 8) with 500 by field. rewrite <- (sqrt_pow2 10) at 1 by lra. apply sqrt_lt_1_alt. lra.
  - unfold log_squared_bears. pose proof exp_le_3. pose proof (exp_pos 1). replace (exp (-1)) with (/ exp 1) by (symmetry; apply exp_Ropp).
    apply Rmult_lt_reg_r with (exp 1); [assumption|]. rewrite Rmult_assoc, Rinv_l by lra. lra.
  - rewrite Rmult_1_r. destruct lj_stretch_example as (lm & A & B & C). exists lm. split; [exact A|]. split; [exact B | exact (proj2 C)].
Qed.

(** The ideal chain has no straight state: cold enough, it is longer than any length. *)
Theorem C79_ideal : forall N l m f B, (0 < N)%Z -> 0 < l -> 0 < f ->
  exists T0, 0 < T0 /\ forall T, 0 < T -> T < T0 -> B < I_length_per_link (C_ideal_isotensional N l m T) f.
Proof. exact ideal_cold. Qed.
Print Assumptions C79_ideal.
