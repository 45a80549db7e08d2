(** Theorems for C81 (results do not depend on the units). *)
From Coq Require Import Reals ZArith Lra Lia.
From Verif Require Import Scalar MIdeal MFjc MSwfjc MWlc SpecThermo SpecChains SpecUnits PUnits PUnitsMore PUnitsModified.
Open Scope R_scope.

(** Ideal chains. *)
Theorem C81_ideal_isometric : forall a b N l m T, 0 < a -> 0 < b -> (0 < N)%Z -> 0 < l -> 0 < T ->
  same_forces a b
    (C_ideal_isometric N l m T)
    (C_ideal_isometric N (a * l) (m / (a ^ 2 * b)) (b * T)) /\
  same_isometric_helmholtz a b
    (C_ideal_isometric N l m T)
    (C_ideal_isometric N (a * l) (m / (a ^ 2 * b)) (b * T)).
Proof. exact ideal_isometric_units. Qed.
Print Assumptions C81_ideal_isometric.

Theorem C81_ideal_isotensional : forall a b N l m T, 0 < a -> 0 < b -> (0 < N)%Z -> 0 < l -> 0 < T ->
  same_lengths a b
    (C_ideal_isotensional N l m T)
    (C_ideal_isotensional N (a * l) (m / (a ^ 2 * b)) (b * T)) /\
  same_relative_gibbs a b
    (C_ideal_isotensional N l m T)
    (C_ideal_isotensional N (a * l) (m / (a ^ 2 * b)) (b * T)) /\
  same_gibbs a b
    (C_ideal_isotensional N l m T)
    (C_ideal_isotensional N (a * l) (m / (a ^ 2 * b)) (b * T)).
Proof. exact ideal_isotensional_units. Qed.
Print Assumptions C81_ideal_isotensional.


(** Freely jointed chains. *)
Theorem C81_fjc_isometric_legendre : forall a b N l m T, 0 < a -> 0 < b -> (0 < N)%Z -> 0 < l -> 0 < T ->
  same_forces a b
    (C_fjc_isometric_legendre N l m T)
    (C_fjc_isometric_legendre N (a * l) (m / (a ^ 2 * b)) (b * T)) /\
  same_isometric_helmholtz a b
    (C_fjc_isometric_legendre N l m T)
    (C_fjc_isometric_legendre N (a * l) (m / (a ^ 2 * b)) (b * T)).
Proof. exact fjc_isometric_legendre_units. Qed.
Print Assumptions C81_fjc_isometric_legendre.

Theorem C81_fjc_isotensional : forall a b N l m T, 0 < a -> 0 < b -> (0 < N)%Z -> 0 < l -> 0 < T ->
  same_lengths a b
    (C_fjc_isotensional N l m T)
    (C_fjc_isotensional N (a * l) (m / (a ^ 2 * b)) (b * T)) /\
  same_relative_gibbs a b
    (C_fjc_isotensional N l m T)
    (C_fjc_isotensional N (a * l) (m / (a ^ 2 * b)) (b * T)) /\
  same_gibbs a b
    (C_fjc_isotensional N l m T)
    (C_fjc_isotensional N (a * l) (m / (a ^ 2 * b)) (b * T)).
Proof. exact fjc_isotensional_units. Qed.
Print Assumptions C81_fjc_isotensional.

Theorem C81_fjc_isotensional_legendre : forall a b N l m T, 0 < a -> 0 < b -> (0 < N)%Z -> 0 < l -> 0 < T ->
  same_relative_helmholtz a b
    (C_fjc_isotensional_legendre N l m T)
    (C_fjc_isotensional_legendre N (a * l) (m / (a ^ 2 * b)) (b * T)) /\
  same_helmholtz a b
    (C_fjc_isotensional_legendre N l m T)
    (C_fjc_isotensional_legendre N (a * l) (m / (a ^ 2 * b)) (b * T)).
Proof. exact fjc_isotensional_legendre_units. Qed.
Print Assumptions C81_fjc_isotensional_legendre.


(** Square-well chains. *)
Theorem C81_swfjc_isometric_legendre : forall a b N l m T w, 0 < a -> 0 < b -> (0 < N)%Z -> 0 < l -> 0 < T -> 0 < w ->
  same_forces a b
    (C_swfjc_isometric_legendre N l m T w)
    (C_swfjc_isometric_legendre N (a * l) (m / (a ^ 2 * b)) (b * T) (a * w)) /\
  same_isometric_helmholtz a b
    (C_swfjc_isometric_legendre N l m T w)
    (C_swfjc_isometric_legendre N (a * l) (m / (a ^ 2 * b)) (b * T) (a * w)).
Proof. exact swfjc_isometric_legendre_units. Qed.
Print Assumptions C81_swfjc_isometric_legendre.

Theorem C81_swfjc_isotensional : forall a b N l m T w, 0 < a -> 0 < b -> (0 < N)%Z -> 0 < l -> 0 < T -> 0 < w ->
  same_lengths a b
    (C_swfjc_isotensional N l m T w)
    (C_swfjc_isotensional N (a * l) (m / (a ^ 2 * b)) (b * T) (a * w)) /\
  same_relative_gibbs a b
    (C_swfjc_isotensional N l m T w)
    (C_swfjc_isotensional N (a * l) (m / (a ^ 2 * b)) (b * T) (a * w)) /\
  same_gibbs a b
    (C_swfjc_isotensional N l m T w)
    (C_swfjc_isotensional N (a * l) (m / (a ^ 2 * b)) (b * T) (a * w)).
Proof. exact swfjc_isotensional_units. Qed.
Print Assumptions C81_swfjc_isotensional.

Theorem C81_swfjc_isotensional_legendre : forall a b N l m T w, 0 < a -> 0 < b -> (0 < N)%Z -> 0 < l -> 0 < T -> 0 < w ->
  same_relative_helmholtz a b
    (C_swfjc_isotensional_legendre N l m T w)
    (C_swfjc_isotensional_legendre N (a * l) (m / (a ^ 2 * b)) (b * T) (a * w)) /\
  same_helmholtz a b
    (C_swfjc_isotensional_legendre N l m T w)
    (C_swfjc_isotensional_legendre N (a * l) (m / (a ^ 2 * b)) (b * T) (a * w)).
Proof. exact swfjc_isotensional_legendre_units. Qed.
Print Assumptions C81_swfjc_isotensional_legendre.


(** Chains of springs: the absolute free energies shift by kT ln a per link, since a length is put into a logarithm. *)
Theorem C81_efjc_isometric_asymptotic_alternative_legendre : forall a b N l m T k, 0 < a -> 0 < b -> (0 < N)%Z -> 0 < l -> 0 < T -> 0 < k ->
  same_forces a b
    (C_efjc_isometric_asymptotic_alternative_legendre N l m T k)
    (C_efjc_isometric_asymptotic_alternative_legendre N (a * l) (m / (a ^ 2 * b)) (b * T) (b * k / a ^ 2)) /\
  isometric_helmholtz_shifted (IZR N) T (- ((1 - 1 / IZR N) * ln a)) a b
    (C_efjc_isometric_asymptotic_alternative_legendre N l m T k)
    (C_efjc_isometric_asymptotic_alternative_legendre N (a * l) (m / (a ^ 2 * b)) (b * T) (b * k / a ^ 2)).
Proof. exact efjc_isometric_asymptotic_alternative_legendre_units. Qed.
Print Assumptions C81_efjc_isometric_asymptotic_alternative_legendre.

Theorem C81_efjc_isometric_asymptotic_legendre : forall a b N l m T k, 0 < a -> 0 < b -> (0 < N)%Z -> 0 < l -> 0 < T -> 0 < k ->
  same_forces a b
    (C_efjc_isometric_asymptotic_legendre N l m T k)
    (C_efjc_isometric_asymptotic_legendre N (a * l) (m / (a ^ 2 * b)) (b * T) (b * k / a ^ 2)) /\
  isometric_helmholtz_shifted (IZR N) T (- ((1 - 1 / IZR N) * ln a)) a b
    (C_efjc_isometric_asymptotic_legendre N l m T k)
    (C_efjc_isometric_asymptotic_legendre N (a * l) (m / (a ^ 2 * b)) (b * T) (b * k / a ^ 2)).
Proof. exact efjc_isometric_asymptotic_legendre_units. Qed.
Print Assumptions C81_efjc_isometric_asymptotic_legendre.

Theorem C81_efjc_isometric_asymptotic_reduced_legendre : forall a b N l m T k, 0 < a -> 0 < b -> (0 < N)%Z -> 0 < l -> 0 < T -> 0 < k ->
  same_forces a b
    (C_efjc_isometric_asymptotic_reduced_legendre N l m T k)
    (C_efjc_isometric_asymptotic_reduced_legendre N (a * l) (m / (a ^ 2 * b)) (b * T) (b * k / a ^ 2)) /\
  isometric_helmholtz_shifted (IZR N) T (- ((1 - 1 / IZR N) * ln a)) a b
    (C_efjc_isometric_asymptotic_reduced_legendre N l m T k)
    (C_efjc_isometric_asymptotic_reduced_legendre N (a * l) (m / (a ^ 2 * b)) (b * T) (b * k / a ^ 2)).
Proof. exact efjc_isometric_asymptotic_reduced_legendre_units. Qed.
Print Assumptions C81_efjc_isometric_asymptotic_reduced_legendre.

Theorem C81_efjc_isotensional : forall a b N l m T k, 0 < a -> 0 < b -> (0 < N)%Z -> 0 < l -> 0 < T -> 0 < k ->
  same_lengths a b
    (C_efjc_isotensional N l m T k)
    (C_efjc_isotensional N (a * l) (m / (a ^ 2 * b)) (b * T) (b * k / a ^ 2)) /\
  same_relative_gibbs a b
    (C_efjc_isotensional N l m T k)
    (C_efjc_isotensional N (a * l) (m / (a ^ 2 * b)) (b * T) (b * k / a ^ 2)) /\
  gibbs_shifted (IZR N) T (- ln a) a b
    (C_efjc_isotensional N l m T k)
    (C_efjc_isotensional N (a * l) (m / (a ^ 2 * b)) (b * T) (b * k / a ^ 2)).
Proof. exact efjc_isotensional_units. Qed.
Print Assumptions C81_efjc_isotensional.

Theorem C81_efjc_isotensional_asymptotic : forall a b N l m T k, 0 < a -> 0 < b -> (0 < N)%Z -> 0 < l -> 0 < T -> 0 < k ->
  same_lengths a b
    (C_efjc_isotensional_asymptotic N l m T k)
    (C_efjc_isotensional_asymptotic N (a * l) (m / (a ^ 2 * b)) (b * T) (b * k / a ^ 2)) /\
  same_relative_gibbs a b
    (C_efjc_isotensional_asymptotic N l m T k)
    (C_efjc_isotensional_asymptotic N (a * l) (m / (a ^ 2 * b)) (b * T) (b * k / a ^ 2)) /\
  gibbs_shifted (IZR N) T (- ln a) a b
    (C_efjc_isotensional_asymptotic N l m T k)
    (C_efjc_isotensional_asymptotic N (a * l) (m / (a ^ 2 * b)) (b * T) (b * k / a ^ 2)).
Proof. exact efjc_isotensional_asymptotic_units. Qed.
Print Assumptions C81_efjc_isotensional_asymptotic.

Theorem C81_efjc_isotensional_asymptotic_alternative : forall a b N l m T k, 0 < a -> 0 < b -> (0 < N)%Z -> 0 < l -> 0 < T -> 0 < k ->
  same_lengths a b
    (C_efjc_isotensional_asymptotic_alternative N l m T k)
    (C_efjc_isotensional_asymptotic_alternative N (a * l) (m / (a ^ 2 * b)) (b * T) (b * k / a ^ 2)) /\
  same_relative_gibbs a b
    (C_efjc_isotensional_asymptotic_alternative N l m T k)
    (C_efjc_isotensional_asymptotic_alternative N (a * l) (m / (a ^ 2 * b)) (b * T) (b * k / a ^ 2)) /\
  gibbs_shifted (IZR N) T (- ln a) a b
    (C_efjc_isotensional_asymptotic_alternative N l m T k)
    (C_efjc_isotensional_asymptotic_alternative N (a * l) (m / (a ^ 2 * b)) (b * T) (b * k / a ^ 2)).
Proof. exact efjc_isotensional_asymptotic_alternative_units. Qed.
Print Assumptions C81_efjc_isotensional_asymptotic_alternative.

Theorem C81_efjc_isotensional_asymptotic_alternative_legendre : forall a b N l m T k, 0 < a -> 0 < b -> (0 < N)%Z -> 0 < l -> 0 < T -> 0 < k ->
  same_relative_helmholtz a b
    (C_efjc_isotensional_asymptotic_alternative_legendre N l m T k)
    (C_efjc_isotensional_asymptotic_alternative_legendre N (a * l) (m / (a ^ 2 * b)) (b * T) (b * k / a ^ 2)) /\
  helmholtz_shifted (IZR N) T (- ln a) a b
    (C_efjc_isotensional_asymptotic_alternative_legendre N l m T k)
    (C_efjc_isotensional_asymptotic_alternative_legendre N (a * l) (m / (a ^ 2 * b)) (b * T) (b * k / a ^ 2)).
Proof. exact efjc_isotensional_asymptotic_alternative_legendre_units. Qed.
Print Assumptions C81_efjc_isotensional_asymptotic_alternative_legendre.

Theorem C81_efjc_isotensional_asymptotic_legendre : forall a b N l m T k, 0 < a -> 0 < b -> (0 < N)%Z -> 0 < l -> 0 < T -> 0 < k ->
  same_relative_helmholtz a b
    (C_efjc_isotensional_asymptotic_legendre N l m T k)
    (C_efjc_isotensional_asymptotic_legendre N (a * l) (m / (a ^ 2 * b)) (b * T) (b * k / a ^ 2)) /\
  helmholtz_shifted (IZR N) T (- ln a) a b
    (C_efjc_isotensional_asymptotic_legendre N l m T k)
    (C_efjc_isotensional_asymptotic_legendre N (a * l) (m / (a ^ 2 * b)) (b * T) (b * k / a ^ 2)).
Proof. exact efjc_isotensional_asymptotic_legendre_units. Qed.
Print Assumptions C81_efjc_isotensional_asymptotic_legendre.

Theorem C81_efjc_isotensional_asymptotic_reduced : forall a b N l m T k, 0 < a -> 0 < b -> (0 < N)%Z -> 0 < l -> 0 < T -> 0 < k ->
  same_lengths a b
    (C_efjc_isotensional_asymptotic_reduced N l m T k)
    (C_efjc_isotensional_asymptotic_reduced N (a * l) (m / (a ^ 2 * b)) (b * T) (b * k / a ^ 2)) /\
  same_relative_gibbs a b
    (C_efjc_isotensional_asymptotic_reduced N l m T k)
    (C_efjc_isotensional_asymptotic_reduced N (a * l) (m / (a ^ 2 * b)) (b * T) (b * k / a ^ 2)) /\
  gibbs_shifted (IZR N) T (- ln a) a b
    (C_efjc_isotensional_asymptotic_reduced N l m T k)
    (C_efjc_isotensional_asymptotic_reduced N (a * l) (m / (a ^ 2 * b)) (b * T) (b * k / a ^ 2)).
Proof. exact efjc_isotensional_asymptotic_reduced_units. Qed.
Print Assumptions C81_efjc_isotensional_asymptotic_reduced.

Theorem C81_efjc_isotensional_asymptotic_reduced_legendre : forall a b N l m T k, 0 < a -> 0 < b -> (0 < N)%Z -> 0 < l -> 0 < T -> 0 < k ->
  same_relative_helmholtz a b
    (C_efjc_isotensional_asymptotic_reduced_legendre N l m T k)
    (C_efjc_isotensional_asymptotic_reduced_legendre N (a * l) (m / (a ^ 2 * b)) (b * T) (b * k / a ^ 2)) /\
  helmholtz_shifted (IZR N) T (- ln a) a b
    (C_efjc_isotensional_asymptotic_reduced_legendre N l m T k)
    (C_efjc_isotensional_asymptotic_reduced_legendre N (a * l) (m / (a ^ 2 * b)) (b * T) (b * k / a ^ 2)).
Proof. exact efjc_isotensional_asymptotic_reduced_legendre_units. Qed.
Print Assumptions C81_efjc_isotensional_asymptotic_reduced_legendre.

Theorem C81_efjc_isotensional_legendre : forall a b N l m T k, 0 < a -> 0 < b -> (0 < N)%Z -> 0 < l -> 0 < T -> 0 < k ->
  same_relative_helmholtz a b
    (C_efjc_isotensional_legendre N l m T k)
    (C_efjc_isotensional_legendre N (a * l) (m / (a ^ 2 * b)) (b * T) (b * k / a ^ 2)) /\
  helmholtz_shifted (IZR N) T (- ln a) a b
    (C_efjc_isotensional_legendre N l m T k)
    (C_efjc_isotensional_legendre N (a * l) (m / (a ^ 2 * b)) (b * T) (b * k / a ^ 2)).
Proof. exact efjc_isotensional_legendre_units. Qed.
Print Assumptions C81_efjc_isotensional_legendre.


(** Morse links: the absolute energies of the asymptotic approximations shift as for springs. *)
Theorem C81_morse_isometric_asymptotic_legendre : forall a b N l m T k e, 0 < a -> 0 < b -> (0 < N)%Z -> 0 < l -> 0 < T -> 0 < k -> 0 < e ->
  same_forces a b
    (C_morse_isometric_asymptotic_legendre N l m T k e)
    (C_morse_isometric_asymptotic_legendre N (a * l) (m / (a ^ 2 * b)) (b * T) (b * k / a ^ 2) (b * e)) /\
  isometric_helmholtz_shifted (IZR N) T (- ((1 - 1 / IZR N) * ln a)) a b
    (C_morse_isometric_asymptotic_legendre N l m T k e)
    (C_morse_isometric_asymptotic_legendre N (a * l) (m / (a ^ 2 * b)) (b * T) (b * k / a ^ 2) (b * e)).
Proof. exact morse_isometric_asymptotic_legendre_units. Qed.
Print Assumptions C81_morse_isometric_asymptotic_legendre.

Theorem C81_morse_isometric_asymptotic_reduced_legendre : forall a b N l m T k e, 0 < a -> 0 < b -> (0 < N)%Z -> 0 < l -> 0 < T -> 0 < k -> 0 < e ->
  same_forces a b
    (C_morse_isometric_asymptotic_reduced_legendre N l m T k e)
    (C_morse_isometric_asymptotic_reduced_legendre N (a * l) (m / (a ^ 2 * b)) (b * T) (b * k / a ^ 2) (b * e)) /\
  isometric_helmholtz_shifted (IZR N) T (- ((1 - 1 / IZR N) * ln a)) a b
    (C_morse_isometric_asymptotic_reduced_legendre N l m T k e)
    (C_morse_isometric_asymptotic_reduced_legendre N (a * l) (m / (a ^ 2 * b)) (b * T) (b * k / a ^ 2) (b * e)).
Proof. exact morse_isometric_asymptotic_reduced_legendre_units. Qed.
Print Assumptions C81_morse_isometric_asymptotic_reduced_legendre.

Theorem C81_morse_isotensional : forall a b N l m T k e, 0 < a -> 0 < b -> (0 < N)%Z -> 0 < l -> 0 < T -> 0 < k -> 0 < e ->
  same_lengths a b
    (C_morse_isotensional N l m T k e)
    (C_morse_isotensional N (a * l) (m / (a ^ 2 * b)) (b * T) (b * k / a ^ 2) (b * e)) /\
  same_relative_gibbs a b
    (C_morse_isotensional N l m T k e)
    (C_morse_isotensional N (a * l) (m / (a ^ 2 * b)) (b * T) (b * k / a ^ 2) (b * e)) /\
  same_gibbs a b
    (C_morse_isotensional N l m T k e)
    (C_morse_isotensional N (a * l) (m / (a ^ 2 * b)) (b * T) (b * k / a ^ 2) (b * e)).
Proof. exact morse_isotensional_units. Qed.
Print Assumptions C81_morse_isotensional.

Theorem C81_morse_isotensional_asymptotic : forall a b N l m T k e, 0 < a -> 0 < b -> (0 < N)%Z -> 0 < l -> 0 < T -> 0 < k -> 0 < e ->
  same_lengths a b
    (C_morse_isotensional_asymptotic N l m T k e)
    (C_morse_isotensional_asymptotic N (a * l) (m / (a ^ 2 * b)) (b * T) (b * k / a ^ 2) (b * e)) /\
  same_relative_gibbs a b
    (C_morse_isotensional_asymptotic N l m T k e)
    (C_morse_isotensional_asymptotic N (a * l) (m / (a ^ 2 * b)) (b * T) (b * k / a ^ 2) (b * e)) /\
  gibbs_shifted (IZR N) T (- ln a) a b
    (C_morse_isotensional_asymptotic N l m T k e)
    (C_morse_isotensional_asymptotic N (a * l) (m / (a ^ 2 * b)) (b * T) (b * k / a ^ 2) (b * e)).
Proof. exact morse_isotensional_asymptotic_units. Qed.
Print Assumptions C81_morse_isotensional_asymptotic.

Theorem C81_morse_isotensional_asymptotic_legendre : forall a b N l m T k e, 0 < a -> 0 < b -> (0 < N)%Z -> 0 < l -> 0 < T -> 0 < k -> 0 < e ->
  same_relative_helmholtz a b
    (C_morse_isotensional_asymptotic_legendre N l m T k e)
    (C_morse_isotensional_asymptotic_legendre N (a * l) (m / (a ^ 2 * b)) (b * T) (b * k / a ^ 2) (b * e)) /\
  helmholtz_shifted (IZR N) T (- ln a) a b
    (C_morse_isotensional_asymptotic_legendre N l m T k e)
    (C_morse_isotensional_asymptotic_legendre N (a * l) (m / (a ^ 2 * b)) (b * T) (b * k / a ^ 2) (b * e)).
Proof. exact morse_isotensional_asymptotic_legendre_units. Qed.
Print Assumptions C81_morse_isotensional_asymptotic_legendre.

Theorem C81_morse_isotensional_asymptotic_reduced : forall a b N l m T k e, 0 < a -> 0 < b -> (0 < N)%Z -> 0 < l -> 0 < T -> 0 < k -> 0 < e ->
  same_lengths a b
    (C_morse_isotensional_asymptotic_reduced N l m T k e)
    (C_morse_isotensional_asymptotic_reduced N (a * l) (m / (a ^ 2 * b)) (b * T) (b * k / a ^ 2) (b * e)) /\
  same_relative_gibbs a b
    (C_morse_isotensional_asymptotic_reduced N l m T k e)
    (C_morse_isotensional_asymptotic_reduced N (a * l) (m / (a ^ 2 * b)) (b * T) (b * k / a ^ 2) (b * e)) /\
  gibbs_shifted (IZR N) T (- ln a) a b
    (C_morse_isotensional_asymptotic_reduced N l m T k e)
    (C_morse_isotensional_asymptotic_reduced N (a * l) (m / (a ^ 2 * b)) (b * T) (b * k / a ^ 2) (b * e)).
Proof. exact morse_isotensional_asymptotic_reduced_units. Qed.
Print Assumptions C81_morse_isotensional_asymptotic_reduced.

Theorem C81_morse_isotensional_asymptotic_reduced_legendre : forall a b N l m T k e, 0 < a -> 0 < b -> (0 < N)%Z -> 0 < l -> 0 < T -> 0 < k -> 0 < e ->
  same_relative_helmholtz a b
    (C_morse_isotensional_asymptotic_reduced_legendre N l m T k e)
    (C_morse_isotensional_asymptotic_reduced_legendre N (a * l) (m / (a ^ 2 * b)) (b * T) (b * k / a ^ 2) (b * e)) /\
  helmholtz_shifted (IZR N) T (- ln a) a b
    (C_morse_isotensional_asymptotic_reduced_legendre N l m T k e)
    (C_morse_isotensional_asymptotic_reduced_legendre N (a * l) (m / (a ^ 2 * b)) (b * T) (b * k / a ^ 2) (b * e)).
Proof. exact morse_isotensional_asymptotic_reduced_legendre_units. Qed.
Print Assumptions C81_morse_isotensional_asymptotic_reduced_legendre.

Theorem C81_morse_isotensional_legendre : forall a b N l m T k e, 0 < a -> 0 < b -> (0 < N)%Z -> 0 < l -> 0 < T -> 0 < k -> 0 < e ->
  same_relative_helmholtz a b
    (C_morse_isotensional_legendre N l m T k e)
    (C_morse_isotensional_legendre N (a * l) (m / (a ^ 2 * b)) (b * T) (b * k / a ^ 2) (b * e)) /\
  same_helmholtz a b
    (C_morse_isotensional_legendre N l m T k e)
    (C_morse_isotensional_legendre N (a * l) (m / (a ^ 2 * b)) (b * T) (b * k / a ^ 2) (b * e)).
Proof. exact morse_isotensional_legendre_units. Qed.
Print Assumptions C81_morse_isotensional_legendre.


(** Lennard-Jones links. *)
Theorem C81_lennard_jones_isometric_asymptotic_legendre : forall a b N l m T k, 0 < a -> 0 < b -> (0 < N)%Z -> 0 < l -> 0 < T -> 0 < k ->
  same_forces a b
    (C_lennard_jones_isometric_asymptotic_legendre N l m T k)
    (C_lennard_jones_isometric_asymptotic_legendre N (a * l) (m / (a ^ 2 * b)) (b * T) (b * k / a ^ 2)) /\
  isometric_helmholtz_shifted (IZR N) T (- ((1 - 1 / IZR N) * ln a)) a b
    (C_lennard_jones_isometric_asymptotic_legendre N l m T k)
    (C_lennard_jones_isometric_asymptotic_legendre N (a * l) (m / (a ^ 2 * b)) (b * T) (b * k / a ^ 2)).
Proof. exact lennard_jones_isometric_asymptotic_legendre_units. Qed.
Print Assumptions C81_lennard_jones_isometric_asymptotic_legendre.

Theorem C81_lennard_jones_isometric_asymptotic_reduced_legendre : forall a b N l m T k, 0 < a -> 0 < b -> (0 < N)%Z -> 0 < l -> 0 < T -> 0 < k ->
  same_forces a b
    (C_lennard_jones_isometric_asymptotic_reduced_legendre N l m T k)
    (C_lennard_jones_isometric_asymptotic_reduced_legendre N (a * l) (m / (a ^ 2 * b)) (b * T) (b * k / a ^ 2)) /\
  isometric_helmholtz_shifted (IZR N) T (- ((1 - 1 / IZR N) * ln a)) a b
    (C_lennard_jones_isometric_asymptotic_reduced_legendre N l m T k)
    (C_lennard_jones_isometric_asymptotic_reduced_legendre N (a * l) (m / (a ^ 2 * b)) (b * T) (b * k / a ^ 2)).
Proof. exact lennard_jones_isometric_asymptotic_reduced_legendre_units. Qed.
Print Assumptions C81_lennard_jones_isometric_asymptotic_reduced_legendre.

Theorem C81_lennard_jones_isotensional : forall a b N l m T k, 0 < a -> 0 < b -> (0 < N)%Z -> 0 < l -> 0 < T -> 0 < k ->
  same_lengths a b
    (C_lennard_jones_isotensional N l m T k)
    (C_lennard_jones_isotensional N (a * l) (m / (a ^ 2 * b)) (b * T) (b * k / a ^ 2)) /\
  same_relative_gibbs a b
    (C_lennard_jones_isotensional N l m T k)
    (C_lennard_jones_isotensional N (a * l) (m / (a ^ 2 * b)) (b * T) (b * k / a ^ 2)) /\
  same_gibbs a b
    (C_lennard_jones_isotensional N l m T k)
    (C_lennard_jones_isotensional N (a * l) (m / (a ^ 2 * b)) (b * T) (b * k / a ^ 2)).
Proof. exact lennard_jones_isotensional_units. Qed.
Print Assumptions C81_lennard_jones_isotensional.

Theorem C81_lennard_jones_isotensional_asymptotic : forall a b N l m T k, 0 < a -> 0 < b -> (0 < N)%Z -> 0 < l -> 0 < T -> 0 < k ->
  same_lengths a b
    (C_lennard_jones_isotensional_asymptotic N l m T k)
    (C_lennard_jones_isotensional_asymptotic N (a * l) (m / (a ^ 2 * b)) (b * T) (b * k / a ^ 2)) /\
  same_relative_gibbs a b
    (C_lennard_jones_isotensional_asymptotic N l m T k)
    (C_lennard_jones_isotensional_asymptotic N (a * l) (m / (a ^ 2 * b)) (b * T) (b * k / a ^ 2)) /\
  gibbs_shifted (IZR N) T (- ln a) a b
    (C_lennard_jones_isotensional_asymptotic N l m T k)
    (C_lennard_jones_isotensional_asymptotic N (a * l) (m / (a ^ 2 * b)) (b * T) (b * k / a ^ 2)).
Proof. exact lennard_jones_isotensional_asymptotic_units. Qed.
Print Assumptions C81_lennard_jones_isotensional_asymptotic.

Theorem C81_lennard_jones_isotensional_asymptotic_legendre : forall a b N l m T k, 0 < a -> 0 < b -> (0 < N)%Z -> 0 < l -> 0 < T -> 0 < k ->
  same_relative_helmholtz a b
    (C_lennard_jones_isotensional_asymptotic_legendre N l m T k)
    (C_lennard_jones_isotensional_asymptotic_legendre N (a * l) (m / (a ^ 2 * b)) (b * T) (b * k / a ^ 2)) /\
  helmholtz_shifted (IZR N) T (- ln a) a b
    (C_lennard_jones_isotensional_asymptotic_legendre N l m T k)
    (C_lennard_jones_isotensional_asymptotic_legendre N (a * l) (m / (a ^ 2 * b)) (b * T) (b * k / a ^ 2)).
Proof. exact lennard_jones_isotensional_asymptotic_legendre_units. Qed.
Print Assumptions C81_lennard_jones_isotensional_asymptotic_legendre.

Theorem C81_lennard_jones_isotensional_asymptotic_reduced : forall a b N l m T k, 0 < a -> 0 < b -> (0 < N)%Z -> 0 < l -> 0 < T -> 0 < k ->
  same_lengths a b
    (C_lennard_jones_isotensional_asymptotic_reduced N l m T k)
    (C_lennard_jones_isotensional_asymptotic_reduced N (a * l) (m / (a ^ 2 * b)) (b * T) (b * k / a ^ 2)) /\
  same_relative_gibbs a b
    (C_lennard_jones_isotensional_asymptotic_reduced N l m T k)
    (C_lennard_jones_isotensional_asymptotic_reduced N (a * l) (m / (a ^ 2 * b)) (b * T) (b * k / a ^ 2)) /\
  gibbs_shifted (IZR N) T (- ln a) a b
    (C_lennard_jones_isotensional_asymptotic_reduced N l m T k)
    (C_lennard_jones_isotensional_asymptotic_reduced N (a * l) (m / (a ^ 2 * b)) (b * T) (b * k / a ^ 2)).
Proof. exact lennard_jones_isotensional_asymptotic_reduced_units. Qed.
Print Assumptions C81_lennard_jones_isotensional_asymptotic_reduced.

Theorem C81_lennard_jones_isotensional_asymptotic_reduced_legendre : forall a b N l m T k, 0 < a -> 0 < b -> (0 < N)%Z -> 0 < l -> 0 < T -> 0 < k ->
  same_relative_helmholtz a b
    (C_lennard_jones_isotensional_asymptotic_reduced_legendre N l m T k)
    (C_lennard_jones_isotensional_asymptotic_reduced_legendre N (a * l) (m / (a ^ 2 * b)) (b * T) (b * k / a ^ 2)) /\
  helmholtz_shifted (IZR N) T (- ln a) a b
    (C_lennard_jones_isotensional_asymptotic_reduced_legendre N l m T k)
    (C_lennard_jones_isotensional_asymptotic_reduced_legendre N (a * l) (m / (a ^ 2 * b)) (b * T) (b * k / a ^ 2)).
Proof. exact lennard_jones_isotensional_asymptotic_reduced_legendre_units. Qed.
Print Assumptions C81_lennard_jones_isotensional_asymptotic_reduced_legendre.

Theorem C81_lennard_jones_isotensional_legendre : forall a b N l m T k, 0 < a -> 0 < b -> (0 < N)%Z -> 0 < l -> 0 < T -> 0 < k ->
  same_relative_helmholtz a b
    (C_lennard_jones_isotensional_legendre N l m T k)
    (C_lennard_jones_isotensional_legendre N (a * l) (m / (a ^ 2 * b)) (b * T) (b * k / a ^ 2)) /\
  same_helmholtz a b
    (C_lennard_jones_isotensional_legendre N l m T k)
    (C_lennard_jones_isotensional_legendre N (a * l) (m / (a ^ 2 * b)) (b * T) (b * k / a ^ 2)).
Proof. exact lennard_jones_isotensional_legendre_units. Qed.
Print Assumptions C81_lennard_jones_isotensional_legendre.


(** Log-squared links. *)
Theorem C81_log_squared_isometric_asymptotic_legendre : forall a b N l m T k, 0 < a -> 0 < b -> (0 < N)%Z -> 0 < l -> 0 < T -> 0 < k ->
  same_forces a b
    (C_log_squared_isometric_asymptotic_legendre N l m T k)
    (C_log_squared_isometric_asymptotic_legendre N (a * l) (m / (a ^ 2 * b)) (b * T) (b * k / a ^ 2)) /\
  isometric_helmholtz_shifted (IZR N) T (- ((1 - 1 / IZR N) * ln a)) a b
    (C_log_squared_isometric_asymptotic_legendre N l m T k)
    (C_log_squared_isometric_asymptotic_legendre N (a * l) (m / (a ^ 2 * b)) (b * T) (b * k / a ^ 2)).
Proof. exact log_squared_isometric_asymptotic_legendre_units. Qed.
Print Assumptions C81_log_squared_isometric_asymptotic_legendre.

Theorem C81_log_squared_isometric_asymptotic_reduced_legendre : forall a b N l m T k, 0 < a -> 0 < b -> (0 < N)%Z -> 0 < l -> 0 < T -> 0 < k ->
  same_forces a b
    (C_log_squared_isometric_asymptotic_reduced_legendre N l m T k)
    (C_log_squared_isometric_asymptotic_reduced_legendre N (a * l) (m / (a ^ 2 * b)) (b * T) (b * k / a ^ 2)) /\
  isometric_helmholtz_shifted (IZR N) T (- ((1 - 1 / IZR N) * ln a)) a b
    (C_log_squared_isometric_asymptotic_reduced_legendre N l m T k)
    (C_log_squared_isometric_asymptotic_reduced_legendre N (a * l) (m / (a ^ 2 * b)) (b * T) (b * k / a ^ 2)).
Proof. exact log_squared_isometric_asymptotic_reduced_legendre_units. Qed.
Print Assumptions C81_log_squared_isometric_asymptotic_reduced_legendre.

Theorem C81_log_squared_isotensional : forall a b N l m T k, 0 < a -> 0 < b -> (0 < N)%Z -> 0 < l -> 0 < T -> 0 < k ->
  same_lengths a b
    (C_log_squared_isotensional N l m T k)
    (C_log_squared_isotensional N (a * l) (m / (a ^ 2 * b)) (b * T) (b * k / a ^ 2)) /\
  same_relative_gibbs a b
    (C_log_squared_isotensional N l m T k)
    (C_log_squared_isotensional N (a * l) (m / (a ^ 2 * b)) (b * T) (b * k / a ^ 2)) /\
  same_gibbs a b
    (C_log_squared_isotensional N l m T k)
    (C_log_squared_isotensional N (a * l) (m / (a ^ 2 * b)) (b * T) (b * k / a ^ 2)).
Proof. exact log_squared_isotensional_units. Qed.
Print Assumptions C81_log_squared_isotensional.

Theorem C81_log_squared_isotensional_asymptotic : forall a b N l m T k, 0 < a -> 0 < b -> (0 < N)%Z -> 0 < l -> 0 < T -> 0 < k ->
  same_lengths a b
    (C_log_squared_isotensional_asymptotic N l m T k)
    (C_log_squared_isotensional_asymptotic N (a * l) (m / (a ^ 2 * b)) (b * T) (b * k / a ^ 2)) /\
  same_relative_gibbs a b
    (C_log_squared_isotensional_asymptotic N l m T k)
    (C_log_squared_isotensional_asymptotic N (a * l) (m / (a ^ 2 * b)) (b * T) (b * k / a ^ 2)) /\
  gibbs_shifted (IZR N) T (- ln a) a b
    (C_log_squared_isotensional_asymptotic N l m T k)
    (C_log_squared_isotensional_asymptotic N (a * l) (m / (a ^ 2 * b)) (b * T) (b * k / a ^ 2)).
Proof. exact log_squared_isotensional_asymptotic_units. Qed.
Print Assumptions C81_log_squared_isotensional_asymptotic.

Theorem C81_log_squared_isotensional_asymptotic_legendre : forall a b N l m T k, 0 < a -> 0 < b -> (0 < N)%Z -> 0 < l -> 0 < T -> 0 < k ->
  same_relative_helmholtz a b
    (C_log_squared_isotensional_asymptotic_legendre N l m T k)
    (C_log_squared_isotensional_asymptotic_legendre N (a * l) (m / (a ^ 2 * b)) (b * T) (b * k / a ^ 2)) /\
  helmholtz_shifted (IZR N) T (- ln a) a b
    (C_log_squared_isotensional_asymptotic_legendre N l m T k)
    (C_log_squared_isotensional_asymptotic_legendre N (a * l) (m / (a ^ 2 * b)) (b * T) (b * k / a ^ 2)).
Proof. exact log_squared_isotensional_asymptotic_legendre_units. Qed.
Print Assumptions C81_log_squared_isotensional_asymptotic_legendre.

Theorem C81_log_squared_isotensional_asymptotic_reduced : forall a b N l m T k, 0 < a -> 0 < b -> (0 < N)%Z -> 0 < l -> 0 < T -> 0 < k ->
  same_lengths a b
    (C_log_squared_isotensional_asymptotic_reduced N l m T k)
    (C_log_squared_isotensional_asymptotic_reduced N (a * l) (m / (a ^ 2 * b)) (b * T) (b * k / a ^ 2)) /\
  same_relative_gibbs a b
    (C_log_squared_isotensional_asymptotic_reduced N l m T k)
    (C_log_squared_isotensional_asymptotic_reduced N (a * l) (m / (a ^ 2 * b)) (b * T) (b * k / a ^ 2)) /\
  gibbs_shifted (IZR N) T (- ln a) a b
    (C_log_squared_isotensional_asymptotic_reduced N l m T k)
    (C_log_squared_isotensional_asymptotic_reduced N (a * l) (m / (a ^ 2 * b)) (b * T) (b * k / a ^ 2)).
Proof. exact log_squared_isotensional_asymptotic_reduced_units. Qed.
Print Assumptions C81_log_squared_isotensional_asymptotic_reduced.

Theorem C81_log_squared_isotensional_asymptotic_reduced_legendre : forall a b N l m T k, 0 < a -> 0 < b -> (0 < N)%Z -> 0 < l -> 0 < T -> 0 < k ->
  same_relative_helmholtz a b
    (C_log_squared_isotensional_asymptotic_reduced_legendre N l m T k)
    (C_log_squared_isotensional_asymptotic_reduced_legendre N (a * l) (m / (a ^ 2 * b)) (b * T) (b * k / a ^ 2)) /\
  helmholtz_shifted (IZR N) T (- ln a) a b
    (C_log_squared_isotensional_asymptotic_reduced_legendre N l m T k)
    (C_log_squared_isotensional_asymptotic_reduced_legendre N (a * l) (m / (a ^ 2 * b)) (b * T) (b * k / a ^ 2)).
Proof. exact log_squared_isotensional_asymptotic_reduced_legendre_units. Qed.
Print Assumptions C81_log_squared_isotensional_asymptotic_reduced_legendre.

Theorem C81_log_squared_isotensional_legendre : forall a b N l m T k, 0 < a -> 0 < b -> (0 < N)%Z -> 0 < l -> 0 < T -> 0 < k ->
  same_relative_helmholtz a b
    (C_log_squared_isotensional_legendre N l m T k)
    (C_log_squared_isotensional_legendre N (a * l) (m / (a ^ 2 * b)) (b * T) (b * k / a ^ 2)) /\
  same_helmholtz a b
    (C_log_squared_isotensional_legendre N l m T k)
    (C_log_squared_isotensional_legendre N (a * l) (m / (a ^ 2 * b)) (b * T) (b * k / a ^ 2)).
Proof. exact log_squared_isotensional_legendre_units. Qed.
Print Assumptions C81_log_squared_isotensional_legendre.


(** Worm-like chains. *)
Theorem C81_wlc_isometric : forall a b N l m T p, 0 < a -> 0 < b -> (0 < N)%Z -> 0 < l -> 0 < T -> 0 < p ->
  same_forces a b
    (C_wlc_isometric N l m T p)
    (C_wlc_isometric N (a * l) (m / (a ^ 2 * b)) (b * T) (a * p)) /\
  same_isometric_helmholtz a b
    (C_wlc_isometric N l m T p)
    (C_wlc_isometric N (a * l) (m / (a ^ 2 * b)) (b * T) (a * p)).
Proof. exact wlc_isometric_units. Qed.
Print Assumptions C81_wlc_isometric.

(** Equilibrium distributions: densities per volume and per length. *)
Theorem C81_ideal_densities : forall a N l, 0 < a -> (0 < N)%Z -> 0 < l ->
  same_densities a
    (fun x => ideal_isometric.equilibrium_distribution N l x) (fun x => ideal_isometric.equilibrium_radial_distribution N l x)
    (fun x => ideal_isometric.equilibrium_distribution N (a * l) x) (fun x => ideal_isometric.equilibrium_radial_distribution N (a * l) x).
Proof. exact (fun a N l H => @ideal_densities a H N l). Qed.
Print Assumptions C81_ideal_densities.

(** Likewise, with the normalization a new chain computes. *)
Theorem C81_fjc_densities : forall a N l c, 0 < a -> (0 < N)%Z -> 0 < l ->
  same_densities a
    (fun x => fjc_isometric_legendre.equilibrium_distribution N l c x) (fun x => fjc_isometric_legendre.equilibrium_radial_distribution N l c x)
    (fun x => fjc_isometric_legendre.equilibrium_distribution N (a * l) c x) (fun x => fjc_isometric_legendre.equilibrium_radial_distribution N (a * l) c x).
Proof. exact (fun a N l c H => @fjc_densities a H N l c). Qed.
Print Assumptions C81_fjc_densities.

(** Likewise. *)
Theorem C81_swfjc_densities : forall a N l w c, 0 < a -> (0 < N)%Z -> 0 < l ->
  same_densities a
    (fun x => swfjc_isometric_legendre.equilibrium_distribution N l w c x) (fun x => swfjc_isometric_legendre.equilibrium_radial_distribution N l w c x)
    (fun x => swfjc_isometric_legendre.equilibrium_distribution N (a * l) (a * w) c x) (fun x => swfjc_isometric_legendre.equilibrium_radial_distribution N (a * l) (a * w) c x).
Proof. exact (fun a N l w c H => @swfjc_densities a H N l w c). Qed.
Print Assumptions C81_swfjc_densities.

(** Likewise. *)
Theorem C81_wlc_densities : forall a N l p c, 0 < a -> (0 < N)%Z -> 0 < l ->
  same_densities a
    (fun x => wlc_isometric.equilibrium_distribution N l p c x) (fun x => wlc_isometric.equilibrium_radial_distribution N l p c x)
    (fun x => wlc_isometric.equilibrium_distribution N (a * l) (a * p) c x) (fun x => wlc_isometric.equilibrium_radial_distribution N (a * l) (a * p) c x).
Proof. exact (fun a N l p c H => @wlc_densities a H N l p c). Qed.
Print Assumptions C81_wlc_densities.

(** The exact freely jointed chain at given length: it answers in both units or fails in both. *)
Theorem C81_fjc_isometric : forall a b prof N l xi T, 0 < a -> 0 < b -> (0 < N)%Z -> 0 < l -> 0 < T ->
  scaled (b / a) (fjc_isometric.force prof N l xi T) (fjc_isometric.force prof N (a * l) (a * xi) (b * T)) /\
  scaled b (fjc_isometric.relative_helmholtz_free_energy prof N l xi T) (fjc_isometric.relative_helmholtz_free_energy prof N (a * l) (a * xi) (b * T)) /\
  scaled b (fjc_isometric.relative_helmholtz_free_energy_per_link prof N l xi T) (fjc_isometric.relative_helmholtz_free_energy_per_link prof N (a * l) (a * xi) (b * T)) /\
  scaled (/ a ^ 3) (fjc_isometric.equilibrium_distribution prof N l xi) (fjc_isometric.equilibrium_distribution prof N (a * l) (a * xi)) /\
  scaled (/ a) (fjc_isometric.equilibrium_radial_distribution prof N l xi) (fjc_isometric.equilibrium_radial_distribution prof N (a * l) (a * xi)).
Proof. exact (fun a b prof N l xi T H H' => @fjc_isometric_units a b H prof N l xi T). Qed.
Print Assumptions C81_fjc_isometric.

(** The worm-like chain under force. *)
Theorem C81_wlc_isotensional : forall a b N l m p f T, 0 < a -> 0 < b -> (0 < N)%Z -> 0 < l -> 0 < T ->
  scaled a (wlc_isotensional.end_to_end_length N l p f T) (wlc_isotensional.end_to_end_length N (a * l) (a * p) (b / a * f) (b * T)) /\
  scaled a (wlc_isotensional.end_to_end_length_per_link N l p f T) (wlc_isotensional.end_to_end_length_per_link N (a * l) (a * p) (b / a * f) (b * T)) /\
  scaled b (wlc_isotensional.relative_gibbs_free_energy N l p f T) (wlc_isotensional.relative_gibbs_free_energy N (a * l) (a * p) (b / a * f) (b * T)) /\
  scaled b (wlc_isotensional.relative_gibbs_free_energy_per_link N l p f T) (wlc_isotensional.relative_gibbs_free_energy_per_link N (a * l) (a * p) (b / a * f) (b * T)) /\
  scaled b (wlc_isotensional.gibbs_free_energy N l m p f T) (wlc_isotensional.gibbs_free_energy N (a * l) (m / (a ^ 2 * b)) (a * p) (b / a * f) (b * T)) /\
  scaled b (wlc_isotensional.gibbs_free_energy_per_link N l m p f T) (wlc_isotensional.gibbs_free_energy_per_link N (a * l) (m / (a ^ 2 * b)) (a * p) (b / a * f) (b * T)).
Proof. exact (fun a b N l m p f T H H' => @wlc_isotensional_units a b H H' N l m p f T). Qed.
Print Assumptions C81_wlc_isotensional.

(** The absolute Helmholtz free energy of the exact freely jointed chain shifts by 3 kT ln a. *)
Theorem C81_fjc_isometric_absolute : forall a b prof N l m xi T, 0 < a -> 0 < b -> (2 <= N <= 26)%Z -> 0 < l -> 0 < T -> 0 < xi < IZR N * l ->
  exists A, fjc_isometric.helmholtz_free_energy prof N l m xi T = Some A /\
    fjc_isometric.helmholtz_free_energy prof N (a * l) (m / (a ^ 2 * b)) (a * xi) (b * T) = Some (b * (A + kB * T * (3 * ln a))).
Proof. exact fjc_isometric_absolute. Qed.
Print Assumptions C81_fjc_isometric_absolute.

(** The freely jointed chain in a potential: exact, weak and strong. *)
Theorem C81_modified : forall a b prof N l m x k T, 0 < a -> 0 < b -> (0 < N)%Z -> 0 < l -> 0 < T -> 0 < k ->
  (scaled (b / a) (fjc_modified_canonical.force prof N l x k T) (fjc_modified_canonical.force prof N (a * l) (a * x) (b * k / a ^ 2) (b * T))) /\
  (scaled a (fjc_modified_canonical.end_to_end_length prof N l x k T) (fjc_modified_canonical.end_to_end_length prof N (a * l) (a * x) (b * k / a ^ 2) (b * T)) /\
  scaled a (fjc_modified_canonical.end_to_end_length_per_link prof N l x k T) (fjc_modified_canonical.end_to_end_length_per_link prof N (a * l) (a * x) (b * k / a ^ 2) (b * T))) /\
  (scaled b (fjc_modified_canonical.helmholtz_free_energy prof N l m x k T) (fjc_modified_canonical.helmholtz_free_energy prof N (a * l) (m / (a ^ 2 * b)) (a * x) (b * k / a ^ 2) (b * T)) /\
  scaled b (fjc_modified_canonical.helmholtz_free_energy_per_link prof N l m x k T) (fjc_modified_canonical.helmholtz_free_energy_per_link prof N (a * l) (m / (a ^ 2 * b)) (a * x) (b * k / a ^ 2) (b * T)) /\
  scaled b (fjc_modified_canonical.relative_helmholtz_free_energy prof N l x k T) (fjc_modified_canonical.relative_helmholtz_free_energy prof N (a * l) (a * x) (b * k / a ^ 2) (b * T)) /\
  scaled b (fjc_modified_canonical.relative_helmholtz_free_energy_per_link prof N l x k T) (fjc_modified_canonical.relative_helmholtz_free_energy_per_link prof N (a * l) (a * x) (b * k / a ^ 2) (b * T))) /\
  (scaled b (fjc_modified_canonical.gibbs_free_energy prof N l m x k T) (fjc_modified_canonical.gibbs_free_energy prof N (a * l) (m / (a ^ 2 * b)) (a * x) (b * k / a ^ 2) (b * T)) /\
  scaled b (fjc_modified_canonical.gibbs_free_energy_per_link prof N l m x k T) (fjc_modified_canonical.gibbs_free_energy_per_link prof N (a * l) (m / (a ^ 2 * b)) (a * x) (b * k / a ^ 2) (b * T)) /\
  scaled b (fjc_modified_canonical.relative_gibbs_free_energy prof N l x k T) (fjc_modified_canonical.relative_gibbs_free_energy prof N (a * l) (a * x) (b * k / a ^ 2) (b * T)) /\
  scaled b (fjc_modified_canonical.relative_gibbs_free_energy_per_link prof N l x k T) (fjc_modified_canonical.relative_gibbs_free_energy_per_link prof N (a * l) (a * x) (b * k / a ^ 2) (b * T))).
Proof.
  intros a b prof N l m x k T Ha Hb HN Hl HT Hk.
  exact (conj (modified_force Ha Hb HN Hl HT prof) (conj (modified_length Ha Hb HN Hl HT prof (Rgt_not_eq _ _ Hk))
    (conj (modified_helmholtz Ha Hb HN Hl HT prof) (modified_gibbs Ha Hb HN Hl HT prof)))).
Qed.
Print Assumptions C81_modified.

Theorem C81_weak : forall a b N l m x k T, 0 < a -> 0 < b -> (0 < N)%Z -> 0 < l -> 0 < T ->
  (fjc_modified_canonical_asymptotic_weak_potential.end_to_end_length N (a * l) (a * x) (b * k / a ^ 2) (b * T) = a * fjc_modified_canonical_asymptotic_weak_potential.end_to_end_length N l x k T /\
  fjc_modified_canonical_asymptotic_weak_potential.end_to_end_length_per_link N (a * l) (a * x) (b * k / a ^ 2) (b * T) = a * fjc_modified_canonical_asymptotic_weak_potential.end_to_end_length_per_link N l x k T /\
  fjc_modified_canonical_asymptotic_weak_potential.force (a * x) (b * k / a ^ 2) = b / a * fjc_modified_canonical_asymptotic_weak_potential.force x k) /\
  (fjc_modified_canonical_asymptotic_weak_potential.gibbs_free_energy N (a * l) (m / (a ^ 2 * b)) (a * x) (b * k / a ^ 2) (b * T) = b * fjc_modified_canonical_asymptotic_weak_potential.gibbs_free_energy N l m x k T /\
  fjc_modified_canonical_asymptotic_weak_potential.gibbs_free_energy_per_link N (a * l) (m / (a ^ 2 * b)) (a * x) (b * k / a ^ 2) (b * T) = b * fjc_modified_canonical_asymptotic_weak_potential.gibbs_free_energy_per_link N l m x k T) /\
  (fjc_modified_canonical_asymptotic_weak_potential.relative_gibbs_free_energy N (a * l) (a * x) (b * k / a ^ 2) (b * T) = b * fjc_modified_canonical_asymptotic_weak_potential.relative_gibbs_free_energy N l x k T /\
  fjc_modified_canonical_asymptotic_weak_potential.relative_gibbs_free_energy_per_link N (a * l) (a * x) (b * k / a ^ 2) (b * T) = b * fjc_modified_canonical_asymptotic_weak_potential.relative_gibbs_free_energy_per_link N l x k T).
Proof.
  intros a b N l m x k T Ha Hb HN Hl HT.
  exact (conj (weak_lengths Ha Hb HT) (conj (weak_gibbs Ha Hb HN HT) (weak_relative a b N l x k T Ha Hb HN Hl HT))).
Qed.
Print Assumptions C81_weak.

Theorem C81_strong_force : forall a b prof N l x k T, 0 < a -> 0 < b -> (0 < N)%Z -> 0 < l -> 0 < T ->
  scaled (b / a) (fjc_modified_canonical_asymptotic_strong_potential.force prof N l x k T)
  (fjc_modified_canonical_asymptotic_strong_potential.force prof N (a * l) (a * x) (b * k / a ^ 2) (b * T)).
Proof. exact (fun a b prof N l x k T Ha Hb HN Hl HT => strong_force Ha Hb HN Hl HT prof). Qed.
Print Assumptions C81_strong_force.

Theorem C81_strong : forall a b prof N l m x k T, 0 < a -> 0 < b -> (2 <= N <= 26)%Z -> 0 < l -> 0 < T -> 0 < x < IZR N * l ->
  scaled b (fjc_modified_canonical_asymptotic_strong_potential.helmholtz_free_energy prof N l m x k T)
    (fjc_modified_canonical_asymptotic_strong_potential.helmholtz_free_energy prof N (a * l) (m / (a ^ 2 * b)) (a * x) (b * k / a ^ 2) (b * T)) /\
  scaled b (fjc_modified_canonical_asymptotic_strong_potential.helmholtz_free_energy_per_link prof N l m x k T)
    (fjc_modified_canonical_asymptotic_strong_potential.helmholtz_free_energy_per_link prof N (a * l) (m / (a ^ 2 * b)) (a * x) (b * k / a ^ 2) (b * T)).
Proof. exact strong_helmholtz. Qed.
Print Assumptions C81_strong.

(** So the absolute free energies of a chain of springs are not those of the same chain in other
    units, whatever the change of the unit of length. *)
Theorem C81_efjc_absolute_refuted : forall a b N l m T k, 0 < a -> 0 < b -> a <> 1 -> (0 < N)%Z -> 0 < l -> 0 < T -> 0 < k ->
  ~ same_gibbs a b (C_efjc_isotensional N l m T k)
      (C_efjc_isotensional N (a * l) (m / (a ^ 2 * b)) (b * T) (b * k / a ^ 2)).
Proof. exact efjc_absolute_refuted. Qed.
Print Assumptions C81_efjc_absolute_refuted.

(** Nanometres to metres and back: a concrete change of units. *)
Example C81_units_example : 0 < / 10 ^ 9 /\ 0 < 1 /\ / 10 ^ 9 <> 1 /\ 0 < / 10 ^ 9 * 1 /\ 0 < 50 * 1 / (/ 10 ^ 9) ^ 2.
Proof. assert (P : 0 < / 10 ^ 9) by (apply Rinv_0_lt_compat; apply pow_lt; lra). repeat split; lra. Qed.
