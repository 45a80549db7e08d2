(** The isotensional free energies from first principles: C04, C54 and C55. *)
From Coq Require Import Reals ZArith Lra Lia.
From Coquelicot Require Import Coquelicot.
From Verif Require Import Scalar MMath MConst MTreloar MIdeal MFjc MSwfjc MEfjc MMorse MLennardJones MLogSquared.
From Verif Require Import SpecPartition SpecInverse SpecGauss SpecIsometric SpecThermo.
From Verif Require PPartition PPartition2 PEfjcExact PEfjcExact2 PEfjcExact3 PLaplace.
Open Scope R_scope.

(** ** C04: the exact EFJC extension

    The extension is not minus the derivative of the Gibbs free energy of the same
    module.  It misses a factor erf and divides by 1 + fraction where the free
    energy has 1/2 + fraction. *)
Theorem C04_refuted : forall l m T, 0 < l ->
  ~ (forall kap x, 0 < kap -> 0 < x ->
       is_derive (fun x => efjc_isotensional.nondimensional_gibbs_free_energy_per_link l m kap x T) x
         (- efjc_isotensional.nondimensional_end_to_end_length_per_link kap x)).
Proof. intros l m T Hl H. apply (PEfjcExact2.not_conjugate l m T Hl). intros x Hx. apply H; [lra | exact Hx]. Qed.
Print Assumptions C04_refuted.

(** Soft links: at a small force the extension is thousands of link lengths. *)
Theorem C04_soft_links_diverge : forall x, 1 / 10 ^ 6 <= x <= 1 / 10 ^ 5 ->
  1 / (40 * x) <= efjc_isotensional.nondimensional_end_to_end_length_per_link 1 x.
Proof. exact PEfjcExact2.soft_extension. Qed.
Print Assumptions C04_soft_links_diverge.

Example C04_soft_example : 2500 <= efjc_isotensional.nondimensional_end_to_end_length_per_link (1 : R) (1 / 10 ^ 5).
Proof. pose proof (C04_soft_links_diverge (1 / 10 ^ 5)). lra. Qed.

(** Stiff links: a pulled chain gets a negative extension. *)
Theorem C04_stiff_links_negative : forall kap x, 1500 <= kap -> 0 < x <= 1 / 4 ->
  efjc_isotensional.nondimensional_end_to_end_length_per_link kap x <= - (1 / (10 * x)).
Proof. exact PEfjcExact2.stiff_extension. Qed.
Print Assumptions C04_stiff_links_negative.

(** Moderately stiff links (from 100 up to where the error function loses its
    sign, about 1400 at small forces): the extension is minus the derivative of the
    free energy of the exact partition function [Z], up to a small error.  Missing
    for conjugacy: softer and stiffer links, and an error of zero. *)
Theorem C04_moderate_partial : forall kap x, 100 <= kap -> 1 / 10 ^ 11 <= x -> -267 / 10 <= (x - kap) / sqrt (2 * kap) ->
  exists (Z : R -> R) (mu : R),
    (forall y, 0 < y -> 0 < Z y /\ half_line_integral (link_weight (harmonic_potential kap) y) (Z y)) /\
    is_derive (fun y => - ln (Z y)) x (- mu) /\
    Rabs (efjc_isotensional.nondimensional_end_to_end_length_per_link kap x - mu) <= 2 / 10 ^ 10 * (1 + 1 / x) ^ 2.
Proof. exact PEfjcExact3.moderate_conjugate. Qed.
Print Assumptions C04_moderate_partial.

Example C04_moderate_example : 100 <= (1000 : R) /\ 1 / 10 ^ 11 <= (1 : R) /\ -267 / 10 <= (1 - 1000) / sqrt (2 * 1000).
Proof.
  split; [lra |]. split; [lra |].
  assert (44 <= sqrt (2 * 1000)) by (rewrite <- (sqrt_square 44) by lra; apply sqrt_le_1_alt; lra).
  apply Rmult_le_reg_r with (sqrt (2 * 1000)); [lra |]. replace ((1 - 1000) / sqrt (2 * 1000) * sqrt (2 * 1000)) with (1 - 1000) by (field; lra). lra.
Qed.

(** ** C54: Gibbs free energies are minus logarithms of one-link partition functions

    [hinge_term] is the momentum factor of a hinge; [link_weight u eta s] is the
    weight of a link of relative length s under the force eta. *)
Theorem C54_fjc : forall l m T eta, 0 < eta ->
  fjc_isotensional.nondimensional_gibbs_free_energy_per_link l m eta T = - ln (angular_average eta) - hinge_term l m T.
Proof. exact PPartition.fjc_gibbs. Qed.
Print Assumptions C54_fjc.

Theorem C54_swfjc : forall l m w T eta, 0 < l -> 0 < w -> 0 < eta ->
  exists Z, 0 < Z /\ is_RInt (link_weight (fun _ => 0) eta) 1 (1 + w / l) Z /\
  swfjc_isotensional.nondimensional_gibbs_free_energy_per_link l m w eta T = - ln Z - hinge_term l m T.
Proof. exact PPartition.swfjc_gibbs. Qed.
Print Assumptions C54_swfjc.

Theorem C54_ideal : forall l m T eta, 0 < eta -> exists Z Z0, 0 < Z /\ 0 < Z0 /\
  half_line_integral (link_weight (fun s => 3 / 2 * s ^ 2) eta) Z /\
  half_line_integral (link_weight (fun s => 3 / 2 * s ^ 2) 0) Z0 /\
  ideal_isotensional.nondimensional_gibbs_free_energy_per_link l m eta T = - ln (Z / Z0) - hinge_term l m T.
Proof. exact PPartition2.ideal_gibbs. Qed.
Print Assumptions C54_ideal.

(** Harmonic links, as long as the argument of the error function is not below
    -26.7: accurate to the accuracy of the error function. *)
Theorem C54_efjc : forall l m T kap x, 0 < l -> 0 < kap -> 1 / 10 ^ 11 <= x ->
  -267 / 10 <= (x - kap) / sqrt (2 * kap) ->
  exists Z, 0 < Z /\ half_line_integral (link_weight (harmonic_potential kap) x) Z /\
    Rabs (efjc_isotensional.nondimensional_gibbs_free_energy_per_link l m kap x T - (- ln (l * Z) - hinge_term l m T))
      <= 4 / 10 ^ 12 * (1 + 1 / x).
Proof. exact PEfjcExact.gibbs_accuracy. Qed.
Print Assumptions C54_efjc.

Example C54_efjc_example : 0 < (1000 : R) /\ 1 / 10 ^ 11 <= (1 : R) /\ -267 / 10 <= (1 - 1000) / sqrt (2 * 1000).
Proof.
  split; [lra |]. split; [lra |].
  assert (44 <= sqrt (2 * 1000)) by (rewrite <- (sqrt_square 44) by lra; apply sqrt_le_1_alt; lra).
  apply Rmult_le_reg_r with (sqrt (2 * 1000)); [lra |]. replace ((1 - 1000) / sqrt (2 * 1000) * sqrt (2 * 1000)) with (1 - 1000) by (field; lra). lra.
Qed.

(** For stiffer links the error function returns values of the wrong sign, and the
    free energy is wrong by more than kT/25 per link. *)
Theorem C54_efjc_stiff_refuted : forall l m T kap x, 0 < l -> 1500 <= kap -> 0 < x <= 1 ->
  exists Z, 0 < Z /\ half_line_integral (link_weight (harmonic_potential kap) x) Z /\
    efjc_isotensional.nondimensional_gibbs_free_energy_per_link l m kap x T <= (- ln (l * Z) - hinge_term l m T) - 1 / 25.
Proof. exact PEfjcExact.stiff_gibbs. Qed.
Print Assumptions C54_efjc_stiff_refuted.

(** The other links: the partition function is the midpoint rule with 64 panels,
    from 1e-6 to the length at which the link force is largest, times two. *)
Theorem C54_morse : forall l m T kap eps eta, 0 < kap -> 0 < eps -> 0 < eta ->
  morse_isotensional.nondimensional_gibbs_free_energy_per_link l m kap eps eta T
  = - ln (2 * midpoint_rule (link_weight (morse_potential kap eps) eta) (1 / 10 ^ 6) (1 + ln 2 / sqrt (kap / eps / 2)) 64)
    - hinge_term l m T.
Proof. exact PPartition2.morse_gibbs. Qed.
Print Assumptions C54_morse.

Theorem C54_lennard_jones : forall l m T kap eta, 0 < eta ->
  lennard_jones_isotensional.nondimensional_gibbs_free_energy_per_link l m kap eta T
  = - ln (2 * midpoint_rule (link_weight (lennard_jones_potential kap) eta) (1 / 10 ^ 6) (Rpower (13 / 7) (1 / 6)) 64)
    - hinge_term l m T.
Proof. exact PPartition2.lennard_jones_gibbs. Qed.
Print Assumptions C54_lennard_jones.

Theorem C54_log_squared : forall l m T kap eta, 0 < eta ->
  log_squared_isotensional.nondimensional_gibbs_free_energy_per_link l m kap eta T
  = - ln (2 * midpoint_rule (link_weight (log_squared_potential kap) eta) (1 / 10 ^ 6) (exp 1) 64) - hinge_term l m T.
Proof. exact PPartition2.log_squared_gibbs. Qed.
Print Assumptions C54_log_squared.

(** ** C55: the two ensembles are Laplace transforms of each other

    Averaging exp(force * extension) over the isometric distribution of all
    end-to-end vectors gives the isotensional partition function. *)
Theorem C55_ideal : forall (N : Z) (eta : R), (0 < N)%Z ->
  half_line_integral (fun g => ideal_isometric.nondimensional_equilibrium_radial_distribution N g * angular_average (IZR N * eta * g))
    (exp (- ideal_isotensional.nondimensional_relative_gibbs_free_energy N eta)).
Proof. exact PLaplace.ideal_laplace. Qed.
Print Assumptions C55_ideal.

Theorem C55_fjc : forall prof (N : Z) (eta : R), (2 <= N <= 26)%Z -> 0 < eta ->
  integral (fun g => match fjc_isometric.nondimensional_equilibrium_radial_distribution prof N g with
                     | Some p => Some (p * angular_average (IZR N * eta * g)) | None => None end) 0 1
    (exp (- fjc_isotensional.nondimensional_relative_gibbs_free_energy N eta)).
Proof. exact PLaplace.fjc_laplace. Qed.
Print Assumptions C55_fjc.
