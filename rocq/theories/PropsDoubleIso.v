(** C69: the isometric functions of the freely jointed chain in double precision.

    [exact_integers L]: the platform rounds the small integers up, converts them
    and alternates the sign exactly.  [nearest_pi L]: its constant pi is the
    nearest double.  (SpecDoubleIso.)  [walk_density] is the density of the random
    walk (SpecWalk, C25). *)
From Coq Require Import Reals ZArith List Factorial Floats.
From Verif Require Import Scalar F64 MFjc SpecDouble SpecWalk SpecDoubleIso PDoubleDensity PDoubleIsoLib.
From Coq Require Import Floats.
Import ListNotations.
Open Scope R_scope.

(** The computed density is within 88 N roundings of the leading term of the
    alternating sum (not of the density itself: the terms cancel). *)
Theorem C69_density_error : forall L : libm, exact_integers L -> nearest_pi L ->
  forall prof (N : Z) (g : float), (3 <= N <= 26)%Z -> finite g -> powerRZ 2 (-800) <= value g < 1 ->
  exists v, @fjc_isometric.nondimensional_equilibrium_distribution float (F64 L) prof N g = Some v /\ finite v /\
    Rabs (value v - IZR N ^ 3 * walk_density (Z.to_nat N) (IZR N * value g))
      <= 88 * IZR N * unit_roundoff
           * (IZR N ^ Z.to_nat N * (1 - value g) ^ Z.to_nat (N - 2) / (8 * PI * value g * INR (fact (Z.to_nat (N - 2)))))
         + powerRZ 2 (-100).
Proof. exact density_error. Qed.
Print Assumptions C69_density_error.

(** Close to no extension the density is positive, but the terms cancel to zero ... *)
Theorem C69_density_positive_refuted : forall L : libm, exact_integers L -> nearest_pi L ->
  forall prof (N : Z) (g : float), In N [4; 8; 16]%Z -> finite g -> powerRZ 2 (-800) <= value g <= / 2 ^ 57 ->
  exists v, @fjc_isometric.nondimensional_equilibrium_distribution float (F64 L) prof N g = Some v /\ finite v /\ value v = 0 /\
    0 < IZR N ^ 3 * walk_density (Z.to_nat N) (IZR N * value g).
Proof. exact density_zero. Qed.
Print Assumptions C69_density_positive_refuted.

(** ... or to a negative number. *)
Theorem C69_density_sign_refuted : forall L : libm, exact_integers L -> nearest_pi L ->
  forall prof (N : Z) (g : float), In N [5; 6; 10; 12; 13; 14; 21; 22; 25; 26]%Z -> finite g -> powerRZ 2 (-800) <= value g <= / 2 ^ 57 ->
  exists v, @fjc_isometric.nondimensional_equilibrium_distribution float (F64 L) prof N g = Some v /\ finite v /\ value v < 0.
Proof. exact density_negative. Qed.
Print Assumptions C69_density_sign_refuted.

(** There the force is minus infinity; over the reals it is positive. *)
Theorem C69_force_refuted : forall L : libm, exact_integers L ->
  forall prof (N : Z) (g : float), In N [4; 8; 16]%Z -> finite g -> powerRZ 2 (-1000) <= value g <= / 2 ^ 57 ->
  @fjc_isometric.nondimensional_force float (F64 L) prof N g = Some neg_infinity /\
  exists f, @fjc_isometric.nondimensional_force R R_scalar prof N (value g) = Some f /\ 0 < f.
Proof. exact force_wrong. Qed.
Print Assumptions C69_force_refuted.

(** A platform with these properties, a moderate extension and a tiny one. *)
Example C69_platform : exact_integers exact_libm /\ nearest_pi exact_libm.
Proof. exact (conj exact_libm_integers exact_libm_pi). Qed.
Example C69_half : finite 0.5%float /\ powerRZ 2 (-800) <= value 0.5%float < 1.
Proof. exact half_extension. Qed.
Example C69_tiny : finite 0x1p-60%float /\ powerRZ 2 (-1000) <= powerRZ 2 (-800) <= value 0x1p-60%float /\ value 0x1p-60%float <= / 2 ^ 57.
Proof. exact tiny_extension. Qed.
