(** Theorems for C82 (chains stiffen as they straighten, and give way before they break). *)
From Coq Require Import Reals ZArith Lra.
From Verif Require Import Scalar MIdeal MFjc MEfjc MSwfjc MMorse MLennardJones MLogSquared.
From Verif Require Import SpecHooke SpecLinks SpecStiffens PStiffens PStiffensUnits PGivesWay PLjStretch.
Open Scope R_scope.

Theorem C82_ideal : hookean (@ideal_isotensional.nondimensional_end_to_end_length_per_link R R_scalar).
Proof. exact ideal_hookean. Qed.
Print Assumptions C82_ideal.

Theorem C82_fjc : stiffens (@fjc_isotensional.nondimensional_end_to_end_length_per_link R R_scalar).
Proof. exact fjc_stiffens. Qed.
Print Assumptions C82_fjc.

(** Whatever the width of the well. *)
Theorem C82_swfjc : forall l w, 0 < l -> 0 < w -> stiffens (swfjc_isotensional.nondimensional_end_to_end_length_per_link l w).
Proof. exact swfjc_stiffens. Qed.
Print Assumptions C82_swfjc.

(** Whatever the stiffness of the links. *)
Theorem C82_efjc : forall kap, 0 < kap ->
  stiffens (efjc_isotensional_asymptotic.nondimensional_end_to_end_length_per_link kap) /\
  stiffens (efjc_isotensional_asymptotic_alternative.nondimensional_end_to_end_length_per_link kap) /\
  stiffens (efjc_isotensional_asymptotic_reduced.nondimensional_end_to_end_length_per_link kap).
Proof. intros kap Hk. exact (conj (efjc_stiffens kap Hk) (conj (efjc_alternative_stiffens kap Hk) (efjc_reduced_stiffens kap Hk))). Qed.
Print Assumptions C82_efjc.

(** The same with units: a chain of N links of length l at the temperature T. *)
Theorem C82_fjc_units : forall N l T, (0 < N)%Z -> 0 < l -> 0 < T -> stiffens (fun f => fjc_isotensional.end_to_end_length N l f T).
Proof. exact fjc_units. Qed.
Print Assumptions C82_fjc_units.

Theorem C82_swfjc_units : forall N l w T, (0 < N)%Z -> 0 < l -> 0 < w -> 0 < T ->
  stiffens (fun f => swfjc_isotensional.end_to_end_length N l w f T).
Proof. exact swfjc_units. Qed.
Print Assumptions C82_swfjc_units.

Theorem C82_efjc_units : forall N l k T, (0 < N)%Z -> 0 < l -> 0 < k -> 0 < T ->
  stiffens (fun f => efjc_isotensional_asymptotic.end_to_end_length N l k f T) /\
  stiffens (fun f => efjc_isotensional_asymptotic_alternative.end_to_end_length N l k f T) /\
  stiffens (fun f => efjc_isotensional_asymptotic_reduced.end_to_end_length N l k f T).
Proof. exact efjc_units. Qed.
Print Assumptions C82_efjc_units.

Example C82_units_example : (0 < 8)%Z /\ 0 < 1 / 10 /\ 0 < 2 /\ 0 < 300.
Proof. repeat split; lra. Qed.

(** A chain that stiffens is shorter at every pull than its response to weak pulls (C75) predicts;
    the freely jointed chain is shorter than the ideal chain. *)
Theorem C82_below_hooke : forall f slope, stiffens f -> weak_slope f slope -> forall x, 0 < x -> f x < slope * x.
Proof. exact below_slope. Qed.
Print Assumptions C82_below_hooke.

Theorem C82_below_ideal : forall x, 0 < x ->
  fjc_isotensional.nondimensional_end_to_end_length_per_link x < ideal_isotensional.nondimensional_end_to_end_length_per_link x.
Proof. exact fjc_below. Qed.
Print Assumptions C82_below_ideal.

(** Links that can break give way before they do, however stiff they are. *)
Theorem C82_morse : forall kap eps, 0 < kap -> 0 < eps ->
  gives_way (morse_isotensional_asymptotic.nondimensional_end_to_end_length_per_link kap eps) (sqrt (kap * eps / 8)) /\
  gives_way (morse_isotensional_asymptotic_reduced.nondimensional_end_to_end_length_per_link kap eps) (sqrt (kap * eps / 8)).
Proof. exact morse_gives_way. Qed.
Print Assumptions C82_morse.

Theorem C82_lennard_jones : forall lam_max, 0 < lam_max -> lam_max ^ 6 = 13 / 7 -> forall kap, 0 < kap ->
  gives_way (lennard_jones_isotensional_asymptotic.nondimensional_end_to_end_length_per_link kap) (lj_bond_force kap lam_max) /\
  gives_way (lennard_jones_isotensional_asymptotic_reduced.nondimensional_end_to_end_length_per_link kap) (lj_bond_force kap lam_max).
Proof. exact lennard_jones_gives_way. Qed.
Print Assumptions C82_lennard_jones.

Example C82_lennard_jones_example : exists lam_max, 0 < lam_max /\ lam_max ^ 6 = 13 / 7.
Proof. destruct lj_stretch_example as (lm & A & B & _). exists lm. split; assumption. Qed.

Theorem C82_log_squared : forall kap, 0 < kap ->
  gives_way (log_squared_isotensional_asymptotic.nondimensional_end_to_end_length_per_link kap) (kap * exp (-1)) /\
  gives_way (log_squared_isotensional_asymptotic_reduced.nondimensional_end_to_end_length_per_link kap) (kap * exp (-1)).
Proof. exact log_gives_way. Qed.
Print Assumptions C82_log_squared.
