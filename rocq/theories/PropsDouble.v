(** Doubles: the rounding errors of the isotensional functions, and the forces
    for which they return something else than an approximation (C64). *)
From Coq Require Import Reals ZArith Floats Lra.
From Verif Require Import Scalar F64 MConst MIdeal MFjc MSwfjc MEfjc SpecLangevin SpecDouble PDoubleFjc PDoubleEfjc PDoubleUnits PDoubleExample.
Open Scope R_scope.

Section Functions.
Variable L : libm.
Definition ideal_extension : float -> float := @ideal_isotensional.nondimensional_end_to_end_length_per_link float (F64 L).
Definition fjc_extension : float -> float := @fjc_isotensional.nondimensional_end_to_end_length_per_link float (F64 L).
Definition fjc_length : Z -> float -> float -> float -> float := @fjc_isotensional.end_to_end_length float (F64 L).
Definition boltzmann : float := @BOLTZMANN_CONSTANT float (F64 L).
Definition fjc_gibbs : float -> float := @fjc_isotensional.nondimensional_relative_gibbs_free_energy_per_link float (F64 L).
Definition efjc_reduced_extension : float -> float -> float := @efjc_isotensional_asymptotic_reduced.nondimensional_end_to_end_length_per_link float (F64 L).
Definition efjc_extension : float -> float -> float := @efjc_isotensional_asymptotic.nondimensional_end_to_end_length_per_link float (F64 L).
Definition swfjc_extension : float -> float -> float -> float := @swfjc_isotensional.nondimensional_end_to_end_length_per_link float (F64 L).
End Functions.

(** The extension of the ideal chain is a third of the force, correctly rounded. *)
Theorem C64_ideal : forall (L : libm) (eta : float), finite eta -> powerRZ 2 (-1020) <= Rabs (value eta) ->
  finite (ideal_extension L eta) /\
  Rabs (value (ideal_extension L eta) - value eta / 3) <= unit_roundoff * Rabs (value eta / 3).
Proof. exact ideal_accuracy. Qed.
Print Assumptions C64_ideal.

(** If the library's tanh has a relative error of at most [d] there, the
    extension of the FJC is a number close to the Langevin function. *)
Theorem C64_fjc : forall (L : libm) (d : R) (eta : float), d <= / 2 ^ 20 ->
  finite eta -> powerRZ 2 (-1000) <= Rabs (value eta) <= powerRZ 2 1000 ->
  accurate d (l_tanh L) tanh eta ->
  finite (fjc_extension L eta) /\
  Rabs (value (fjc_extension L eta) - langevin (value eta)) <= 2 * (d + 2 * unit_roundoff) * (1 + Rabs (1 / value eta)).
Proof. exact fjc_accuracy. Qed.
Print Assumptions C64_fjc.

(** In physical units: the constant is rounded too, and so is the force in
    units of kT per link length, at which tanh is evaluated. The units may
    differ from those of the library by thirty orders of magnitude. *)
Definition gas_constant : R := 8314462618 / 10 ^ 9.
Theorem C64_fjc_units : forall (L : libm) (d : R) (N : Z) (l f T : float), d <= / 2 ^ 20 ->
  (0 < N <= 255)%Z -> finite l -> finite f -> finite T ->
  powerRZ 2 (-100) <= value l <= powerRZ 2 100 -> powerRZ 2 (-100) <= value f <= powerRZ 2 100 -> powerRZ 2 (-100) <= value T <= powerRZ 2 100 ->
  accurate d (l_tanh L) tanh (f / boltzmann L / T * l)%float ->
  let eta := value f * value l / (gas_constant * value T) in
  finite (fjc_length L N l f T) /\
  Rabs (value (fjc_length L N l f T) - IZR N * value l * langevin eta)
    <= 7 * (d + 2 * unit_roundoff) * (1 + 1 / eta) * (IZR N * value l).
Proof. exact units_accuracy. Qed.
Print Assumptions C64_fjc_units.

(** The EFJC in the reduced asymptotic approach. *)
Theorem C64_efjc_reduced : forall (L : libm) (d : R) (kap eta : float), d <= / 2 ^ 20 ->
  finite eta -> powerRZ 2 (-1000) <= Rabs (value eta) <= powerRZ 2 1000 ->
  powerRZ 2 (-1000) <= Rabs (value eta / value kap) <= powerRZ 2 1000 ->
  accurate d (l_tanh L) tanh eta ->
  finite (efjc_reduced_extension L kap eta) /\
  Rabs (value (efjc_reduced_extension L kap eta) - (langevin (value eta) + value eta / value kap))
    <= 3 * (d + 2 * unit_roundoff) * (1 + Rabs (1 / value eta) + Rabs (value eta / value kap)).
Proof. exact efjc_reduced_accuracy. Qed.
Print Assumptions C64_efjc_reduced.

(** The same for the EFJC in the full asymptotic approach, for a force that
    stretches it. The numerator of the correction cancels at weak forces. *)
Theorem C64_efjc : forall (L : libm) (d : R) (kap eta : float), d <= / 2 ^ 20 ->
  finite eta -> finite kap -> powerRZ 2 (-490) <= value eta <= powerRZ 2 1000 ->
  0 < value kap -> value eta / value kap <= powerRZ 2 1000 ->
  accurate d (l_tanh L) tanh eta ->
  finite (efjc_extension L kap eta) /\
  Rabs (value (efjc_extension L kap eta)
    - (langevin (value eta) + value eta / value kap
       * (1 + (tanh (value eta) - langevin (value eta)) / (tanh (value eta) + value eta / value kap))))
    <= 7 * (d + 2 * unit_roundoff) * (1 + 1 / value eta + value eta / value kap).
Proof. exact efjc_accuracy. Qed.
Print Assumptions C64_efjc.

(** The Gibbs free energy of the FJC up to a force of 600. *)
Theorem C64_gibbs : forall (L : libm) (d : R) (eta : float), d <= / 2 ^ 20 ->
  powerRZ 2 (-1000) <= Rabs (value eta) <= 600 ->
  accurate d (l_sinh L) sinh eta -> accurate d (l_ln L) ln (l_sinh L eta / eta)%float ->
  finite (fjc_gibbs L eta) /\
  Rabs (value (fjc_gibbs L eta) - - ln (sinh (value eta) / value eta)) <= 2 * (d + unit_roundoff) * (1 + ln (sinh (value eta) / value eta)).
Proof. exact gibbs_accuracy. Qed.
Print Assumptions C64_gibbs.

(** The relative error is not small at weak forces: even with a correctly
    rounded tanh the extension of the FJC is zero for every force up to 2^-28,
    although the Langevin function is not. *)
Theorem C64_weak_refuted : forall (L : libm) (eta : float), finite eta -> powerRZ 2 (-1000) <= value eta <= / 2 ^ 28 ->
  nearest_double (l_tanh L) tanh eta ->
  finite (fjc_extension L eta) /\ value (fjc_extension L eta) = 0 /\ 0 < langevin (value eta).
Proof. exact fjc_vanishes. Qed.
Print Assumptions C64_weak_refuted.

(** Above a force of 720 the free energy of the FJC is minus infinity, because
    its hyperbolic sine is not a double, although the energy itself is. *)
Theorem C64_gibbs_refuted : forall L : libm,
  (forall x, finite x -> powerRZ 2 1024 <= sinh (value x) -> l_sinh L x = infinity) -> l_ln L infinity = infinity ->
  forall eta, finite eta -> 720 <= value eta ->
  fjc_gibbs L eta = neg_infinity /\ - value eta <= - ln (sinh (value eta) / value eta) <= 0.
Proof. exact gibbs_overflow. Qed.
Print Assumptions C64_gibbs_refuted.

(** and the extension of the SWFJC is NaN once the hyperbolic functions overflow. *)
Theorem C64_swfjc_refuted : forall (L : libm) (l w eta : float), let p := ((1 + w / l) * eta)%float in
  (0 <? p)%float = true -> l_sinh L p = infinity -> l_cosh L p = infinity ->
  swfjc_extension L l w eta = nan.
Proof. exact swfjc_overflow. Qed.
Print Assumptions C64_swfjc_refuted.

(** A library and forces that meet the hypotheses. *)
Example C64_hypotheses :
  finite small_force /\ value small_force = / 2 ^ 30 /\
  powerRZ 2 (-1000) <= Rabs (value small_force) <= powerRZ 2 1000 /\
  powerRZ 2 (-1000) <= Rabs (value small_force / value 2%float) <= powerRZ 2 1000 /\
  accurate (/ 2 ^ 52) (l_tanh double_libm) tanh small_force /\
  accurate (/ 2 ^ 20) (l_sinh double_libm) sinh small_force /\
  accurate (/ 2 ^ 20) (l_ln double_libm) ln (l_sinh double_libm small_force / small_force)%float /\
  nearest_double (l_tanh double_libm) tanh small_force.
Proof.
  exact (conj finite_small (conj value_small (conj small_range (conj stiffness_case (conj tanh_small (conj sinh_small (conj ln_small tanh_nearest))))))).
Qed.
Example C64_fjc_units_hypotheses : finite 1%float /\ finite weak_pull /\
  powerRZ 2 (-100) <= value 1%float <= powerRZ 2 100 /\ powerRZ 2 (-100) <= value weak_pull <= powerRZ 2 100 /\
  accurate (/ 2 ^ 52) (l_tanh double_libm) tanh (weak_pull / boltzmann double_libm / 1 * 1)%float.
Proof. exact units_case. Qed.
Example C64_efjc_hypotheses :
  finite small_force /\ finite 2%float /\ powerRZ 2 (-490) <= value small_force <= powerRZ 2 1000 /\
  0 < value 2%float /\ value small_force / value 2%float <= powerRZ 2 1000 /\
  accurate (/ 2 ^ 52) (l_tanh double_libm) tanh small_force.
Proof. exact efjc_case. Qed.
Example C64_weak_case : value (fjc_extension double_libm small_force) = 0.
Proof.
  refine (proj1 (proj2 (C64_weak_refuted double_libm small_force finite_small _ tanh_nearest))).
  rewrite value_small. split; [exact range_small|lra].
Qed.
Example C64_gibbs_case : fjc_gibbs double_libm 720%float = neg_infinity.
Proof. exact (proj1 (C64_gibbs_refuted double_libm sinh_overflows ln_infinite 720%float (proj1 force_720) (proj2 force_720))). Qed.
Example C64_swfjc_case : swfjc_extension double_libm 1%float 0.5%float 720%float = nan.
Proof. exact (C64_swfjc_refuted double_libm 1%float 0.5%float 720%float (proj1 swfjc_case) (proj1 (proj2 swfjc_case)) (proj2 (proj2 swfjc_case))). Qed.
