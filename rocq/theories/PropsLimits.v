(** Limits and comparisons between the chain models (C46), the behaviour at zero
    force (C51) and at full extension (C52), and the Lennard-Jones link (C53). *)
From Coq Require Import Floats Reals ZArith Lra Lia.
From Coquelicot Require Import Coquelicot.
From Verif Require Import Scalar F64 MMath MConst MIdeal MFjc MSwfjc MEfjc MMorse MLennardJones MLogSquared.
From Verif Require Import SpecLinks PBase PLimits.
From Verif Require PFloatNan PLjStretch PConjLj PLambertNeg.
Open Scope R_scope.

(** The nondimensional extension per link of each model, as a function of its
    parameters and the nondimensional force. *)
Local Notation ideal := ideal_isotensional.nondimensional_end_to_end_length_per_link.
Local Notation fjc := fjc_isotensional.nondimensional_end_to_end_length_per_link.
Local Notation swfjc := swfjc_isotensional.nondimensional_end_to_end_length_per_link.
Local Notation efjc := efjc_isotensional_asymptotic.nondimensional_end_to_end_length_per_link.
Local Notation efjc_alternative := efjc_isotensional_asymptotic_alternative.nondimensional_end_to_end_length_per_link.
Local Notation efjc_reduced := efjc_isotensional_asymptotic_reduced.nondimensional_end_to_end_length_per_link.
Local Notation morse := morse_isotensional_asymptotic.nondimensional_end_to_end_length_per_link.
Local Notation morse_reduced := morse_isotensional_asymptotic_reduced.nondimensional_end_to_end_length_per_link.
Local Notation lennard_jones := lennard_jones_isotensional_asymptotic.nondimensional_end_to_end_length_per_link.
Local Notation lennard_jones_reduced := lennard_jones_isotensional_asymptotic_reduced.nondimensional_end_to_end_length_per_link.
Local Notation log_squared := log_squared_isotensional_asymptotic.nondimensional_end_to_end_length_per_link.
Local Notation log_squared_reduced := log_squared_isotensional_asymptotic_reduced.nondimensional_end_to_end_length_per_link.

(** *** C46 *)

(** Stiff links: the EFJC becomes the FJC. *)
Theorem C46_stiff : forall x : R, 0 < x ->
  is_lim (fun kap => efjc kap x) p_infty (fjc x) /\
  is_lim (fun kap => efjc_alternative kap x) p_infty (fjc x) /\
  is_lim (fun kap => efjc_reduced kap x) p_infty (fjc x).
Proof. exact (fun x Hx => conj (full_limit x Hx) (conj (alternative_limit x) (reduced_limit x))). Qed.
Print Assumptions C46_stiff.

(** Narrow wells: the SWFJC becomes the FJC. *)
Theorem C46_narrow_well : forall l x : R, 0 < l -> 0 < x -> is_lim (fun w => swfjc l w x) 0 (fjc x).
Proof. exact swfjc_limit. Qed.
Print Assumptions C46_narrow_well.

(** Weak forces: the FJC becomes the ideal chain, which is always longer. *)
Theorem C46_weak_force : filterlim (fun x : R => fjc x / ideal x) (at_right 0) (locally 1) /\
  forall x : R, 0 < x -> ideal x * (1 - x ^ 2 / 15) < fjc x < ideal x.
Proof. exact (conj ratio_limit weak_force). Qed.
Print Assumptions C46_weak_force.

(** Extensible chains are longer than the FJC. *)
Theorem C46_longer_efjc : forall kap x : R, 0 < kap -> 0 < x ->
  fjc x < efjc kap x /\ fjc x < efjc_alternative kap x /\ fjc x < efjc_reduced kap x.
Proof. exact (fun k x Hk Hx => conj (proj1 (full_longer k x Hk Hx)) (conj (proj1 (alternative_longer k x Hk Hx)) (proj1 (reduced_longer k x Hk Hx)))). Qed.
Print Assumptions C46_longer_efjc.

Theorem C46_longer_swfjc : forall l w x : R, 0 < l -> 0 < w -> 0 < x -> fjc x < swfjc l w x.
Proof. exact swfjc_longer. Qed.
Print Assumptions C46_longer_swfjc.

(** ... up to the force sqrt (eps kap / 8) at which Morse links break, *)
Theorem C46_longer_morse : forall kap eps x : R, 0 < kap -> 0 < eps -> 0 < x < sqrt (eps * kap / 8) ->
  fjc x < morse kap eps x /\ fjc x < morse_reduced kap eps x.
Proof. exact (fun k e x Hk He Hx => conj (morse_full_longer k e x Hk He Hx) (morse_longer k e x Hk He Hx)). Qed.
Print Assumptions C46_longer_morse.

(** the force at the stretch (13/7)^(1/6) at which Lennard-Jones links break, *)
Theorem C46_longer_lennard_jones : forall lam kap x : R, 0 < lam -> lam ^ 6 = 13 / 7 -> 0 < kap -> 0 < x < lj_bond_force kap lam ->
  fjc x < lennard_jones kap x /\ fjc x < lennard_jones_reduced kap x.
Proof. exact lj_longer. Qed.
Print Assumptions C46_longer_lennard_jones.

(** and the force kap / e at which log-squared links break. *)
Theorem C46_longer_log_squared : forall kap x : R, 0 < kap -> 0 < x < kap / exp 1 ->
  fjc x < log_squared kap x /\ fjc x < log_squared_reduced kap x.
Proof. exact log_squared_longer. Qed.
Print Assumptions C46_longer_log_squared.

Example C46_example : 0 < 8 /\ 0 < 9 /\ 0 < 1 < sqrt (9 * 8 / 8).
Proof. replace (9 * 8 / 8) with (3 * 3) by field. rewrite sqrt_square by lra. lra. Qed.

(** *** C51: no force, no extension *)

(** In real arithmetic the extension vanishes with the force. *)
Theorem C51_limit : filterlim fjc (at_right 0) (locally (0 : R)) /\ ideal 0 = 0 /\
  forall kap : R, 0 < kap ->
    filterlim (efjc kap) (at_right 0) (locally 0) /\ filterlim (efjc_alternative kap) (at_right 0) (locally 0) /\
    filterlim (efjc_reduced kap) (at_right 0) (locally 0).
Proof. exact (conj fjc_to_zero (conj ideal_zero efjc_to_zero)). Qed.
Print Assumptions C51_limit.

(** In double precision a zero force gives NaN for every chain but the ideal
    one, whatever the parameters: the code computes coth 0 - 1/0. *)
Theorem C51_refuted : forall L : libm, l_tanh L 0%float = 0%float ->
  @fjc_isotensional.nondimensional_end_to_end_length_per_link float (F64 L) 0%float = nan /\
  (forall kap, @efjc_isotensional_asymptotic.nondimensional_end_to_end_length_per_link float (F64 L) kap 0%float = nan) /\
  (forall kap, @efjc_isotensional_asymptotic_alternative.nondimensional_end_to_end_length_per_link float (F64 L) kap 0%float = nan) /\
  (forall kap, @efjc_isotensional_asymptotic_reduced.nondimensional_end_to_end_length_per_link float (F64 L) kap 0%float = nan) /\
  (forall kap eps, @morse_isotensional_asymptotic.nondimensional_end_to_end_length_per_link float (F64 L) kap eps 0%float = nan) /\
  (forall kap eps, @morse_isotensional_asymptotic_reduced.nondimensional_end_to_end_length_per_link float (F64 L) kap eps 0%float = nan) /\
  (forall kap, @lennard_jones_isotensional_asymptotic_reduced.nondimensional_end_to_end_length_per_link float (F64 L) kap 0%float = nan) /\
  (forall kap, @log_squared_isotensional_asymptotic_reduced.nondimensional_end_to_end_length_per_link float (F64 L) kap 0%float = nan).
Proof.
  exact (fun L H => conj (PFloatNan.fjc_zero L H) (conj (PFloatNan.efjc_zero L H) (conj (PFloatNan.efjc_alternative_zero L H)
    (conj (PFloatNan.efjc_reduced_zero L H) (conj (PFloatNan.morse_zero L H) (conj (PFloatNan.morse_reduced_zero L H)
    (conj (PFloatNan.lennard_jones_zero L H) (PFloatNan.log_squared_zero L H)))))))).
Qed.
Print Assumptions C51_refuted.

(** The same for the dimensional extension of the FJC, *)
Theorem C51_length_refuted : forall (L : libm), l_tanh L 0%float = 0%float -> forall N l T,
  (0 / @BOLTZMANN_CONSTANT float (F64 L) / T * l = 0)%float ->
  @fjc_isotensional.end_to_end_length float (F64 L) N l 0%float T = nan.
Proof. exact PFloatNan.fjc_length_zero. Qed.
Print Assumptions C51_length_refuted.

(** and for the SWFJC. *)
Theorem C51_swfjc_refuted : forall (L : libm) (l w : float), let v := (1 + w / l)%float in
  l_sinh L 0%float = 0%float -> l_cosh L 0%float = 1%float -> (v * 0 = 0)%float -> (v * v * 0 = 0)%float ->
  @swfjc_isotensional.nondimensional_end_to_end_length_per_link float (F64 L) l w 0%float = nan.
Proof. exact PFloatNan.swfjc_zero. Qed.
Print Assumptions C51_swfjc_refuted.

(** *** C52: the chain extended to its contour length *)

Theorem C52_efjc_refuted : forall (L : libm) (kap : float), l_tanh L 0%float = 0%float -> (kap * 0 = 0)%float ->
  @efjc_isometric_asymptotic_legendre.nondimensional_force float (F64 L) kap 1%float = nan /\
  @efjc_isometric_asymptotic_alternative_legendre.nondimensional_force float (F64 L) kap 1%float = nan /\
  @efjc_isometric_asymptotic_reduced_legendre.nondimensional_force float (F64 L) kap 1%float = nan.
Proof. exact (fun L kap H0 Hk => conj (PFloatNan.efjc_contour L H0 kap Hk) (conj (PFloatNan.efjc_alternative_contour L H0 kap Hk) (PFloatNan.efjc_reduced_contour L H0 kap Hk))). Qed.
Print Assumptions C52_efjc_refuted.

Theorem C52_inverse_langevin_refuted : forall L : libm, l_tanh L infinity = 1%float -> l_sinh L infinity = infinity ->
  @math.inverse_langevin float (F64 L) 1%float = nan.
Proof. exact PFloatNan.inverse_langevin_contour. Qed.
Print Assumptions C52_inverse_langevin_refuted.

(** The values assumed of the mathematical library are possible (and those of
    every implementation of it), and so are the parameters. *)
Example C52_example : exists L : libm, l_tanh L 0%float = 0%float /\ l_tanh L infinity = 1%float /\
  l_sinh L 0%float = 0%float /\ l_sinh L infinity = infinity /\ l_cosh L 0%float = 1%float /\
  (50 * 0 = 0 /\ (1 + 2 / 4) * 0 = 0 /\ (1 + 2 / 4) * (1 + 2 / 4) * 0 = 0)%float.
Proof.
  exists PFloatNan.sample_libm. destruct PFloatNan.sample_values as (A & B & C & D & E).
  repeat (split; [first [exact A | exact B | exact C | exact D | exact E | vm_compute; reflexivity] |]). vm_compute; reflexivity.
Qed.

(** *** C53: the Lennard-Jones link stretch *)

(** For every force below the one at which the link breaks the computed stretch
    is between 1 and the stretch at break, and balances the force to 1e-6. *)
Theorem C53_lennard_jones_stretch : forall lam_max : R, 0 < lam_max -> lam_max ^ 6 = 13 / 7 ->
  forall kap x : R, 0 < kap -> 0 <= x < lj_bond_force kap lam_max ->
  let lam := lennard_jones_thermodynamics.nondimensional_link_stretch kap x in
  1 <= lam < lam_max /\ x * (1 - 1 / 10 ^ 6) <= lj_bond_force kap lam <= x.
Proof. exact PLjStretch.lj_stretch. Qed.
Print Assumptions C53_lennard_jones_stretch.

(** The stretch of a log-squared link, 1 / exp (lambert_w (- x / kap)), up to its largest force kap / e. *)
Theorem C53_log_squared_stretch : forall kap x : R, 0 < kap -> 0 <= x < kap * exp (-1) ->
  let lam := 1 / exp (math.lambert_w (- x / kap)) in
  1 <= lam < exp 1 /\ x * (1 - 1 / 10 ^ 3) <= log_squared_bond_force kap lam <= x /\
  (x <= 34 / 100 * kap -> x * (1 - 2 / 10 ^ 14) <= log_squared_bond_force kap lam).
Proof. exact PLambertNeg.log_stretch. Qed.
Print Assumptions C53_log_squared_stretch.

Example C53_log_squared_example : 0 < 50 /\ 0 <= 10 < 50 * exp (-1) /\ 10 <= 34 / 100 * 50.
Proof.
  pose proof exp_le_3. pose proof (exp_pos 1). replace (exp (-1)) with (/ exp 1) by (symmetry; apply exp_Ropp).
  repeat split; try lra. apply Rmult_lt_reg_r with (exp 1); [assumption|]. rewrite Rmult_assoc, Rinv_l by lra. lra.
Qed.

Example C53_example : exists lam_max, 0 < lam_max /\ lam_max ^ 6 = 13 / 7 /\ 0 <= 1 < lj_bond_force 600 lam_max.
Proof. exact PLjStretch.lj_stretch_example. Qed.
