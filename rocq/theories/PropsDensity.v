(** C90: probability densities are never negative in double precision. *)
From Coq Require Import Reals ZArith Floats.
From Verif Require Import Scalar F64 MIdeal MFjc SpecDouble SpecHistory PDoubleUnsigned.
Open Scope R_scope.

(** The result is a number that is not below zero, or NaN. *)
Definition never_negative (x : float) : Prop := PrimFloat.ltb x 0 = false.

(** What is asked of the library: exponentials, powers and pi have the sign +,
    and the hyperbolic sine has the sign of its argument. *)
Definition positive_exp (L : libm) : Prop := (forall x, unsigned (l_exp L x)) /\ unsigned (l_pi L).
Definition positive_powers (L : libm) : Prop := forall x y, unsigned x -> unsigned (l_powf L x y).
Definition sign_of_sinh (L : libm) : Prop :=
  forall x, (unsigned x -> unsigned (l_sinh L x)) /\ (unsigned (- x)%float -> unsigned (- l_sinh L x)%float).

(** Every argument [x], also outside the range of lengths of the chain. *)
Theorem C90_ideal : forall L : libm, positive_exp L -> positive_powers L ->
  forall N l m x, (0 < N <= 2 ^ 53)%Z -> unsigned l ->
  let chain := O_ideal_isometric.init N l m in
  never_negative (@O_ideal_isometric.equilibrium_distribution float (F64 L) chain x) /\
  never_negative (@O_ideal_isometric.nondimensional_equilibrium_distribution float (F64 L) chain x) /\
  never_negative (@O_ideal_isometric.equilibrium_radial_distribution float (F64 L) chain x) /\
  never_negative (@O_ideal_isometric.nondimensional_equilibrium_radial_distribution float (F64 L) chain x).
Proof. exact (fun L H => ideal_object L (proj1 H) (proj2 H)). Qed.
Print Assumptions C90_ideal.

Theorem C90_fjc_legendre : forall L : libm, positive_exp L -> sign_of_sinh L ->
  forall N l m x, (0 < N <= 2 ^ 53)%Z -> unsigned l ->
  let chain := @O_fjc_isometric_legendre.init float (F64 L) N l m in
  never_negative (@O_fjc_isometric_legendre.equilibrium_distribution float (F64 L) chain x) /\
  never_negative (@O_fjc_isometric_legendre.nondimensional_equilibrium_distribution float (F64 L) chain x) /\
  never_negative (@O_fjc_isometric_legendre.equilibrium_radial_distribution float (F64 L) chain x) /\
  never_negative (@O_fjc_isometric_legendre.nondimensional_equilibrium_radial_distribution float (F64 L) chain x).
Proof. exact (fun L H => fjc_object L (proj1 H) (proj2 H)). Qed.
Print Assumptions C90_fjc_legendre.

(** A library with correctly rounded functions meets the hypotheses. *)
Example C90_library : exists L : libm, positive_exp L /\ positive_powers L /\ sign_of_sinh L.
Proof. exists signed_libm. destruct signed_library as (H1 & H2 & H3 & H4 & _). exact (conj (conj H1 H2) (conj H3 H4)). Qed.
