(** The error function and its complements: C41, C42 and C43. *)
From Coq Require Import Reals ZArith Lra Floats.
From Coquelicot Require Import Coquelicot.
From Verif Require Import Scalar F64 MMath SpecGauss SpecErf PErfc PFloat.
Open Scope R_scope.

(** ** C41: consistency *)

Theorem C41_erf_erfc : forall x : R, math.erf x + math.erfc x = 1.
Proof. exact erf_erfc. Qed.
Print Assumptions C41_erf_erfc.

Theorem C41_erfcx : forall x : R, math.erfcx x = exp (x ^ 2) * math.erfc x.
Proof. exact erfcx_erfc. Qed.
Print Assumptions C41_erfcx.

Theorem C41_reflection : forall x : R, 0 < x <= 61 / 10 -> math.erfc x + math.erfc (- x) = 2.
Proof. exact erfc_reflection. Qed.
Print Assumptions C41_reflection.

Theorem C41_odd : forall x : R, -61 / 10 <= x <= 61 / 10 -> math.erf (- x) = - math.erf x.
Proof. exact erf_odd. Qed.
Print Assumptions C41_odd.

Example C41_example : math.erfc 1 + math.erfc (- (1)) = 2.
Proof. apply C41_reflection. lra. Qed.

(** ** C42: sign *)

Theorem C42_positive : forall x : R, 0 < x -> 0 < math.erf x < 1.
Proof. exact erf_positive. Qed.
Print Assumptions C42_positive.

Theorem C42_zero : math.erf (0 : R) = 0.
Proof. exact erf_zero. Qed.
Print Assumptions C42_zero.

(** Negative arguments have a negative value only down to -26.7. *)
Theorem C42_negative_partial : forall x : R, -267 / 10 <= x < 0 -> -1 <= math.erf x < 0.
Proof. exact erf_negative. Qed.
Print Assumptions C42_negative_partial.

(** Below -26.7 the sign is wrong, and the limit is +1 instead of -1. *)
Theorem C42_refuted : forall x : R, x < -267 / 10 -> 0 < math.erf x < 1.
Proof. exact erf_far_positive. Qed.
Print Assumptions C42_refuted.

Theorem C42_limit_refuted : is_lim math.erf m_infty 1.
Proof. exact erf_far_limit. Qed.
Print Assumptions C42_limit_refuted.

(** The same in binary64 arithmetic with any mathematical library whose exponential overflows at 729. *)
Theorem C42_binary64_refuted : forall L : libm, l_exp L 729%float = infinity ->
  @math.erf float (F64 L) (-27)%float = 1%float.
Proof. exact erf_minus_27. Qed.
Print Assumptions C42_binary64_refuted.

(** ** C43: accuracy *)

Theorem C43_erfc_exists : forall x, exists e, is_erfc x e.
Proof. intro x. eexists. apply erfc_value. Qed.
Print Assumptions C43_erfc_exists.

Theorem C43_erfcx : forall x e, 0 <= x -> is_erfc x e -> Rabs (math.erfcx x - exp (x ^ 2) * e) <= 1 / 10 ^ 12.
Proof. exact erfcx_accuracy. Qed.
Print Assumptions C43_erfcx.

Theorem C43_erfc : forall x e, 0 <= x -> is_erfc x e -> Rabs (math.erfc x - e) <= 1 / 10 ^ 12 * exp (- x ^ 2).
Proof. exact erfc_accuracy_pos. Qed.
Print Assumptions C43_erfc.

Theorem C43_erf : forall x, -267 / 10 <= x -> Rabs (math.erf x - Erf x) <= 1 / 10 ^ 12.
Proof. exact erf_accuracy. Qed.
Print Assumptions C43_erf.
