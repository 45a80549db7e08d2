(** Theorems for C77 (softer links give longer chains). *)
From Coq Require Import Reals ZArith Lra.
From Verif Require Import Scalar MFjc MEfjc MSwfjc MMorse MLennardJones MLogSquared.
From Verif Require Import SpecLinks SpecSofter PSofter PSofterLog PSofterLj PLjStretch.
Open Scope R_scope.

Theorem C77_efjc : shorter_with any_pull (@efjc_isotensional_asymptotic.nondimensional_end_to_end_length_per_link R R_scalar).
Proof. exact efjc_softer. Qed.
Print Assumptions C77_efjc.

Theorem C77_efjc_alternative : shorter_with any_pull (@efjc_isotensional_asymptotic_alternative.nondimensional_end_to_end_length_per_link R R_scalar).
Proof. exact efjc_alternative_softer. Qed.
Print Assumptions C77_efjc_alternative.

Theorem C77_efjc_reduced : shorter_with any_pull (@efjc_isotensional_asymptotic_reduced.nondimensional_end_to_end_length_per_link R R_scalar).
Proof. exact efjc_reduced_softer. Qed.
Print Assumptions C77_efjc_reduced.

(** The same with units: a chain of N links of length l at the temperature T. *)
Theorem C77_efjc_units : forall N l T, (0 < N)%Z -> 0 < l -> 0 < T ->
  shorter_with any_pull (fun k f => efjc_isotensional_asymptotic.end_to_end_length N l k f T).
Proof. exact efjc_softer_units. Qed.
Print Assumptions C77_efjc_units.

(** Morse links: stiffer at the same depth of the well, and deeper at the same stiffness. *)
Theorem C77_morse_stiffer : forall eps, 0 < eps ->
  shorter_with (fun kap => morse_bears kap eps) (fun kap => morse_isotensional_asymptotic.nondimensional_end_to_end_length_per_link kap eps) /\
  shorter_with (fun kap => morse_bears kap eps) (fun kap => morse_isotensional_asymptotic_reduced.nondimensional_end_to_end_length_per_link kap eps).
Proof. exact morse_softer. Qed.
Print Assumptions C77_morse_stiffer.

Theorem C77_morse_deeper : forall kap, 0 < kap ->
  shorter_with (fun eps => morse_bears kap eps) (morse_isotensional_asymptotic.nondimensional_end_to_end_length_per_link kap) /\
  shorter_with (fun eps => morse_bears kap eps) (morse_isotensional_asymptotic_reduced.nondimensional_end_to_end_length_per_link kap).
Proof. exact morse_deeper. Qed.
Print Assumptions C77_morse_deeper.

Example C77_morse_example : 0 < 50 /\ 50 < 100 /\ 0 < 10 /\ morse_bears 50 80 10.
Proof. repeat split; try lra. unfold morse_bears. replace (50 * 80 / 8) with 500 by field. rewrite <- (sqrt_pow2 10) at 1 by lra. apply sqrt_lt_1_alt. lra. Qed.

(** Lennard-Jones and log-squared links, whose stretch is found by an iteration: every
    difference in stiffness is felt, however many steps the iteration takes. *)
Theorem C77_lennard_jones :
  shorter_with lennard_jones_bears (@lennard_jones_isotensional_asymptotic.nondimensional_end_to_end_length_per_link R R_scalar) /\
  shorter_with lennard_jones_bears (@lennard_jones_isotensional_asymptotic_reduced.nondimensional_end_to_end_length_per_link R R_scalar).
Proof. exact lennard_jones_shorter. Qed.
Print Assumptions C77_lennard_jones.

Example C77_lennard_jones_example : lennard_jones_bears 600 1.
Proof. destruct lj_stretch_example as (lm & A & B & C). exists lm. split; [exact A|]. split; [exact B | exact (proj2 C)]. Qed.

Theorem C77_log_squared :
  shorter_with log_squared_bears (@log_squared_isotensional_asymptotic.nondimensional_end_to_end_length_per_link R R_scalar) /\
  shorter_with log_squared_bears (@log_squared_isotensional_asymptotic_reduced.nondimensional_end_to_end_length_per_link R R_scalar).
Proof. exact (conj log_squared_softer log_squared_reduced_softer). Qed.
Print Assumptions C77_log_squared.

Example C77_log_squared_example : log_squared_bears 50 10.
Proof.
  unfold log_squared_bears. pose proof exp_le_3. pose proof (exp_pos 1). replace (exp (-1)) with (/ exp 1) by (symmetry; apply exp_Ropp).
  apply Rmult_lt_reg_r with (exp 1); [assumption|]. rewrite Rmult_assoc, Rinv_l by lra. lra.
Qed.

(** Square wells: the wider the well, the longer the chain, and longer than with rigid links. *)
Theorem C77_swfjc : forall l, 0 < l -> longer_with (swfjc_isotensional.nondimensional_end_to_end_length_per_link l).
Proof. exact swfjc_wider. Qed.
Print Assumptions C77_swfjc.

Theorem C77_swfjc_rigid : forall l w x, 0 < l -> 0 < w -> 0 < x ->
  fjc_isotensional.nondimensional_end_to_end_length_per_link x < swfjc_isotensional.nondimensional_end_to_end_length_per_link l w x.
Proof. exact swfjc_above_fjc. Qed.
Print Assumptions C77_swfjc_rigid.

Theorem C77_swfjc_units : forall N l T, (0 < N)%Z -> 0 < l -> 0 < T ->
  longer_with (fun w f => swfjc_isotensional.end_to_end_length N l w f T).
Proof. exact swfjc_wider_units. Qed.
Print Assumptions C77_swfjc_units.
