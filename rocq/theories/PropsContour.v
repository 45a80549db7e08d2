(** Doubles: the freely jointed chain never retracts under a pull and is never
    stretched beyond its contour length (C86), but it may get shorter when
    pulled harder (C57). Orders and symmetries that survive rounding (C57,
    C74, C77). *)
From Coq Require Import Reals ZArith Floats Lra.
From Verif Require Import Scalar F64 MConst MIdeal MFjc MEfjc SpecDouble PDoubleExample PDoubleContour PDoubleOrder PDoubleMonotone.
Open Scope R_scope.

Section Functions.
Variable L : libm.
Definition extension_per_link : float -> float := @fjc_isotensional.nondimensional_end_to_end_length_per_link float (F64 L).
Definition extension : Z -> float -> float := @fjc_isotensional.nondimensional_end_to_end_length float (F64 L).
Definition length : Z -> float -> float -> float -> float := @fjc_isotensional.end_to_end_length float (F64 L).
Definition ideal_extension : float -> float := @ideal_isotensional.nondimensional_end_to_end_length_per_link float (F64 L).
Definition reduced_extension : float -> float -> float := @efjc_isotensional_asymptotic_reduced.nondimensional_end_to_end_length_per_link float (F64 L).
Definition boltzmann : float := @BOLTZMANN_CONSTANT float (F64 L).
End Functions.

(** If the library's tanh is correctly rounded at a positive force, the
    extension is between 0 and 1, without an error. *)
Theorem C86_per_link : forall (L : libm) (eta : float), finite eta -> powerRZ 2 (-1000) <= value eta ->
  nearest_double (l_tanh L) tanh eta ->
  finite (extension_per_link L eta) /\ 0 <= value (extension_per_link L eta) <= 1.
Proof. exact fjc_contour. Qed.
Print Assumptions C86_per_link.

Theorem C86_total : forall (L : libm) (N : Z) (eta : float), (0 < N <= 255)%Z -> finite eta -> powerRZ 2 (-1000) <= value eta ->
  nearest_double (l_tanh L) tanh eta ->
  finite (extension L N eta) /\ 0 <= value (extension L N eta) <= IZR N.
Proof. exact fjc_contour_total. Qed.
Print Assumptions C86_total.

(** In physical units the contour length is the product of doubles a caller would form. *)
Theorem C86_units : forall (L : libm) (N : Z) (l f T : float), (0 < N <= 255)%Z -> finite l -> 0 < value l <= powerRZ 2 1000 ->
  let eta := (f / boltzmann L / T * l)%float in
  finite eta -> powerRZ 2 (-1000) <= value eta -> nearest_double (l_tanh L) tanh eta ->
  finite (length L N l f T) /\ 0 <= value (length L N l f T) <= value (float_of_Z N * l)%float.
Proof. exact fjc_contour_units. Qed.
Print Assumptions C86_units.

(** It is not enough that the library's tanh errs by less than a unit in the
    last place: with some such library a pull makes the extension negative. *)
Theorem C86_accurate_refuted : exists (L : libm) (eta : float),
  accurate (/ 2 ^ 51) (l_tanh L) tanh eta /\ finite eta /\ powerRZ 2 (-1000) <= value eta /\
  finite (extension_per_link L eta) /\ value (extension_per_link L eta) < 0.
Proof. exact retracts. Qed.
Print Assumptions C86_accurate_refuted.

(** A library and forces that meet the hypotheses: a weak and a strong pull. *)
Example C86_hypotheses :
  (finite small_force /\ powerRZ 2 (-1000) <= value small_force /\ nearest_double (l_tanh contour_libm) tanh small_force) /\
  (finite 1024%float /\ powerRZ 2 (-1000) <= value 1024%float /\ nearest_double (l_tanh contour_libm) tanh 1024%float) /\
  0.5 < value (extension_per_link contour_libm 1024%float).
Proof. exact contour_case. Qed.

(** There are two neighbouring doubles, near 2e-8, with which the chain is half
    as long under the greater force, however carefully tanh is computed. *)
Theorem C57_binary64_refuted : forall L : libm,
  nearest_double (l_tanh L) tanh force_1 -> nearest_double (l_tanh L) tanh force_2 ->
  finite force_1 /\ finite force_2 /\ 0 < value force_1 < value force_2 /\
  0 < value (extension_per_link L force_2) /\
  value (extension_per_link L force_1) = 2 * value (extension_per_link L force_2).
Proof. exact order_refuted. Qed.
Print Assumptions C57_binary64_refuted.

Example C57_binary64_example : nearest_double (l_tanh order_libm) tanh force_1 /\ nearest_double (l_tanh order_libm) tanh force_2.
Proof. exact order_case. Qed.

(** The ideal chain does not: every pair of doubles keeps its order, *)
Theorem C57_ideal_binary64 : forall (L : libm) (e1 e2 : float), finite e1 -> finite e2 -> value e1 <= value e2 ->
  finite (ideal_extension L e1) /\ finite (ideal_extension L e2) /\
  value (ideal_extension L e1) <= value (ideal_extension L e2).
Proof. exact ideal_increases. Qed.
Print Assumptions C57_ideal_binary64.

(** and reversing the pull reverses its response exactly. *)
Theorem C74_ideal_binary64 : forall (L : libm) (eta : float), finite eta ->
  value (ideal_extension L (- eta)%float) = - value (ideal_extension L eta).
Proof. exact ideal_odd. Qed.
Print Assumptions C74_ideal_binary64.

(** So it does for the FJC, if the library's tanh is odd at that force. *)
Theorem C74_fjc_binary64 : forall (L : libm) (eta : float), finite eta -> powerRZ 2 (-1000) <= Rabs (value eta) ->
  finite (l_tanh L eta) -> powerRZ 2 (-1000) <= Rabs (value (l_tanh L eta)) ->
  l_tanh L (- eta)%float = (- l_tanh L eta)%float ->
  finite (extension_per_link L (- eta)%float) /\
  value (extension_per_link L (- eta)%float) = - value (extension_per_link L eta).
Proof. exact fjc_odd. Qed.
Print Assumptions C74_fjc_binary64.

Example C74_binary64_example : finite small_force /\ powerRZ 2 (-1000) <= Rabs (value small_force) /\ finite (l_tanh double_libm small_force) /\
  powerRZ 2 (-1000) <= Rabs (value (l_tanh double_libm small_force)) /\
  l_tanh double_libm (- small_force)%float = (- l_tanh double_libm small_force)%float.
Proof. exact odd_case. Qed.

(** Softer links make the EFJC in the reduced asymptotic approach longer, or
    leave it as it is, and no stiffness makes it shorter than the FJC. *)
Theorem C77_binary64 : forall (L : libm) (eta k1 k2 : float), finite eta -> powerRZ 2 (-1000) <= value eta ->
  nearest_double (l_tanh L) tanh eta -> 0 < value k1 <= value k2 -> value eta / value k1 <= powerRZ 2 1000 ->
  finite (reduced_extension L k1 eta) /\ finite (reduced_extension L k2 eta) /\
  value (extension_per_link L eta) <= value (reduced_extension L k2 eta) <= value (reduced_extension L k1 eta).
Proof. exact reduced_softer_nearest. Qed.
Print Assumptions C77_binary64.

Example C77_binary64_example : nearest_double (l_tanh contour_libm) tanh 1024%float /\
  0 < value 2%float < value 4%float /\ value 1024%float / value 2%float <= powerRZ 2 1000.
Proof. exact softer_case. Qed.
