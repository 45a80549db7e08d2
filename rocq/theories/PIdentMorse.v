(** Algebraic identities of the morse chain functions (generated by tools/gen_identities.py). *)
From Coq Require Import Reals ZArith Lra Lia.
From Coquelicot Require Import Coquelicot.
From Verif Require Import Scalar MMath MConst SpecThermo SpecChains PBase PLift.
Open Scope R_scope.

Lemma morse_isometric_asymptotic_legendre_dimensionless : forall N l m T k e,
  (0 < N)%Z -> 0 < l -> 0 < T -> 0 < k -> 0 < e -> 
  isometric_dimensionless (IZR N) l T (C_morse_isometric_asymptotic_legendre N l m T k e).
Proof. intros N l m T; intros; identities N l T. Qed.

Lemma morse_isometric_asymptotic_legendre_extensive : forall N l m T k e,
  (0 < N)%Z -> 0 < l -> 0 < T -> 0 < k -> 0 < e -> 
  isometric_extensive (IZR N) (C_morse_isometric_asymptotic_legendre N l m T k e).
Proof. intros N l m T; intros; identities N l T. Qed.

Lemma morse_isometric_asymptotic_legendre_relative : forall N l m T k e,
  (0 < N)%Z -> 0 < l -> 0 < T -> 0 < k -> 0 < e -> 
  isometric_relative (C_morse_isometric_asymptotic_legendre N l m T k e).
Proof. intros N l m T; intros; identities N l T. Qed.

Lemma morse_isometric_asymptotic_legendre_reference : forall N l m T k e,
  (0 < N)%Z -> 0 < l -> 0 < T -> 0 < k -> 0 < e -> 
  isometric_reference (IZR N) l (C_morse_isometric_asymptotic_legendre N l m T k e).
Proof. intros N l m T; intros; identities N l T. Qed.

Lemma morse_isometric_asymptotic_reduced_legendre_dimensionless : forall N l m T k e,
  (0 < N)%Z -> 0 < l -> 0 < T -> 0 < k -> 0 < e -> 
  isometric_dimensionless (IZR N) l T (C_morse_isometric_asymptotic_reduced_legendre N l m T k e).
Proof. intros N l m T; intros; identities N l T. Qed.

Lemma morse_isometric_asymptotic_reduced_legendre_extensive : forall N l m T k e,
  (0 < N)%Z -> 0 < l -> 0 < T -> 0 < k -> 0 < e -> 
  isometric_extensive (IZR N) (C_morse_isometric_asymptotic_reduced_legendre N l m T k e).
Proof. intros N l m T; intros; identities N l T. Qed.

Lemma morse_isometric_asymptotic_reduced_legendre_relative : forall N l m T k e,
  (0 < N)%Z -> 0 < l -> 0 < T -> 0 < k -> 0 < e -> 
  isometric_relative (C_morse_isometric_asymptotic_reduced_legendre N l m T k e).
Proof. intros N l m T; intros; identities N l T. Qed.

Lemma morse_isometric_asymptotic_reduced_legendre_reference : forall N l m T k e,
  (0 < N)%Z -> 0 < l -> 0 < T -> 0 < k -> 0 < e -> 
  isometric_reference (IZR N) l (C_morse_isometric_asymptotic_reduced_legendre N l m T k e).
Proof. intros N l m T; intros; identities N l T. Qed.

Lemma morse_isotensional_dimensionless : forall N l m T k e,
  (0 < N)%Z -> 0 < l -> 0 < T -> 0 < k -> 0 < e -> 
  isotensional_dimensionless l T (C_morse_isotensional N l m T k e).
Proof. intros N l m T; intros; identities N l T. Qed.

Lemma morse_isotensional_extensive : forall N l m T k e,
  (0 < N)%Z -> 0 < l -> 0 < T -> 0 < k -> 0 < e -> 
  isotensional_extensive (IZR N) (C_morse_isotensional N l m T k e).
Proof. intros N l m T; intros; identities N l T. Qed.

Lemma morse_isotensional_relative : forall N l m T k e,
  (0 < N)%Z -> 0 < l -> 0 < T -> 0 < k -> 0 < e -> 
  isotensional_relative (C_morse_isotensional N l m T k e).
Proof. intros N l m T; intros; identities N l T. Qed.

Lemma morse_isotensional_reference : forall N l m T k e,
  (0 < N)%Z -> 0 < l -> 0 < T -> 0 < k -> 0 < e -> 
  isotensional_reference l T (C_morse_isotensional N l m T k e).
Proof. intros N l m T; intros; identities N l T. Qed.

Lemma morse_isotensional_asymptotic_dimensionless : forall N l m T k e,
  (0 < N)%Z -> 0 < l -> 0 < T -> 0 < k -> 0 < e -> 
  isotensional_dimensionless l T (C_morse_isotensional_asymptotic N l m T k e).
Proof. intros N l m T; intros; identities N l T. Qed.

Lemma morse_isotensional_asymptotic_extensive : forall N l m T k e,
  (0 < N)%Z -> 0 < l -> 0 < T -> 0 < k -> 0 < e -> 
  isotensional_extensive (IZR N) (C_morse_isotensional_asymptotic N l m T k e).
Proof. intros N l m T; intros; identities N l T. Qed.

Lemma morse_isotensional_asymptotic_relative : forall N l m T k e,
  (0 < N)%Z -> 0 < l -> 0 < T -> 0 < k -> 0 < e -> 
  isotensional_relative (C_morse_isotensional_asymptotic N l m T k e).
Proof. intros N l m T; intros; identities N l T. Qed.

Lemma morse_isotensional_asymptotic_reference : forall N l m T k e,
  (0 < N)%Z -> 0 < l -> 0 < T -> 0 < k -> 0 < e -> 
  isotensional_reference l T (C_morse_isotensional_asymptotic N l m T k e).
Proof. intros N l m T; intros; identities N l T. Qed.

Lemma morse_isotensional_asymptotic_legendre_dimensionless : forall N l m T k e,
  (0 < N)%Z -> 0 < l -> 0 < T -> 0 < k -> 0 < e -> 
  isotensional_helmholtz_dimensionless l T (C_morse_isotensional_asymptotic_legendre N l m T k e).
Proof. intros N l m T; intros; identities N l T. Qed.

Lemma morse_isotensional_asymptotic_legendre_extensive : forall N l m T k e,
  (0 < N)%Z -> 0 < l -> 0 < T -> 0 < k -> 0 < e -> 
  isotensional_helmholtz_extensive (IZR N) (C_morse_isotensional_asymptotic_legendre N l m T k e).
Proof. intros N l m T; intros; identities N l T. Qed.

Lemma morse_isotensional_asymptotic_legendre_relative : forall N l m T k e,
  (0 < N)%Z -> 0 < l -> 0 < T -> 0 < k -> 0 < e -> 
  isotensional_helmholtz_relative (C_morse_isotensional_asymptotic_legendre N l m T k e).
Proof. intros N l m T; intros; identities N l T. Qed.

Lemma morse_isotensional_asymptotic_legendre_reference : forall N l m T k e,
  (0 < N)%Z -> 0 < l -> 0 < T -> 0 < k -> 0 < e -> 
  isotensional_helmholtz_reference l T (C_morse_isotensional_asymptotic_legendre N l m T k e).
Proof. intros N l m T; intros; identities N l T. Qed.

Lemma morse_isotensional_asymptotic_legendre_legendre : forall N l m T k e,
  (0 < N)%Z -> 0 < l -> 0 < T -> 0 < k -> 0 < e -> 
  isotensional_legendre (C_morse_isotensional_asymptotic N l m T k e) (C_morse_isotensional_asymptotic_legendre N l m T k e).
Proof. intros N l m T; intros. apply (lift_legendre (IZR N) l T); auto using morse_isotensional_asymptotic_dimensionless, morse_isotensional_asymptotic_extensive, morse_isotensional_asymptotic_relative, morse_isotensional_asymptotic_legendre_dimensionless, morse_isotensional_asymptotic_legendre_extensive, morse_isotensional_asymptotic_legendre_relative; identities N l T. Qed.

Lemma morse_isotensional_asymptotic_reduced_dimensionless : forall N l m T k e,
  (0 < N)%Z -> 0 < l -> 0 < T -> 0 < k -> 0 < e -> 
  isotensional_dimensionless l T (C_morse_isotensional_asymptotic_reduced N l m T k e).
Proof. intros N l m T; intros; identities N l T. Qed.

Lemma morse_isotensional_asymptotic_reduced_extensive : forall N l m T k e,
  (0 < N)%Z -> 0 < l -> 0 < T -> 0 < k -> 0 < e -> 
  isotensional_extensive (IZR N) (C_morse_isotensional_asymptotic_reduced N l m T k e).
Proof. intros N l m T; intros; identities N l T. Qed.

Lemma morse_isotensional_asymptotic_reduced_relative : forall N l m T k e,
  (0 < N)%Z -> 0 < l -> 0 < T -> 0 < k -> 0 < e -> 
  isotensional_relative (C_morse_isotensional_asymptotic_reduced N l m T k e).
Proof. intros N l m T; intros; identities N l T. Qed.

Lemma morse_isotensional_asymptotic_reduced_reference : forall N l m T k e,
  (0 < N)%Z -> 0 < l -> 0 < T -> 0 < k -> 0 < e -> 
  isotensional_reference l T (C_morse_isotensional_asymptotic_reduced N l m T k e).
Proof. intros N l m T; intros; identities N l T. Qed.

Lemma morse_isotensional_asymptotic_reduced_legendre_dimensionless : forall N l m T k e,
  (0 < N)%Z -> 0 < l -> 0 < T -> 0 < k -> 0 < e -> 
  isotensional_helmholtz_dimensionless l T (C_morse_isotensional_asymptotic_reduced_legendre N l m T k e).
Proof. intros N l m T; intros; identities N l T. Qed.

Lemma morse_isotensional_asymptotic_reduced_legendre_extensive : forall N l m T k e,
  (0 < N)%Z -> 0 < l -> 0 < T -> 0 < k -> 0 < e -> 
  isotensional_helmholtz_extensive (IZR N) (C_morse_isotensional_asymptotic_reduced_legendre N l m T k e).
Proof. intros N l m T; intros; identities N l T. Qed.

Lemma morse_isotensional_asymptotic_reduced_legendre_relative : forall N l m T k e,
  (0 < N)%Z -> 0 < l -> 0 < T -> 0 < k -> 0 < e -> 
  isotensional_helmholtz_relative (C_morse_isotensional_asymptotic_reduced_legendre N l m T k e).
Proof. intros N l m T; intros; identities N l T. Qed.

Lemma morse_isotensional_asymptotic_reduced_legendre_reference : forall N l m T k e,
  (0 < N)%Z -> 0 < l -> 0 < T -> 0 < k -> 0 < e -> 
  isotensional_helmholtz_reference l T (C_morse_isotensional_asymptotic_reduced_legendre N l m T k e).
Proof. intros N l m T; intros; identities N l T. Qed.

Lemma morse_isotensional_asymptotic_reduced_legendre_legendre : forall N l m T k e,
  (0 < N)%Z -> 0 < l -> 0 < T -> 0 < k -> 0 < e -> 
  isotensional_legendre (C_morse_isotensional_asymptotic_reduced N l m T k e) (C_morse_isotensional_asymptotic_reduced_legendre N l m T k e).
Proof. intros N l m T; intros. apply (lift_legendre (IZR N) l T); auto using morse_isotensional_asymptotic_reduced_dimensionless, morse_isotensional_asymptotic_reduced_extensive, morse_isotensional_asymptotic_reduced_relative, morse_isotensional_asymptotic_reduced_legendre_dimensionless, morse_isotensional_asymptotic_reduced_legendre_extensive, morse_isotensional_asymptotic_reduced_legendre_relative; identities N l T. Qed.

Lemma morse_isotensional_legendre_dimensionless : forall N l m T k e,
  (0 < N)%Z -> 0 < l -> 0 < T -> 0 < k -> 0 < e -> 
  isotensional_helmholtz_dimensionless l T (C_morse_isotensional_legendre N l m T k e).
Proof. intros N l m T; intros; identities N l T. Qed.

Lemma morse_isotensional_legendre_extensive : forall N l m T k e,
  (0 < N)%Z -> 0 < l -> 0 < T -> 0 < k -> 0 < e -> 
  isotensional_helmholtz_extensive (IZR N) (C_morse_isotensional_legendre N l m T k e).
Proof. intros N l m T; intros; identities N l T. Qed.

Lemma morse_isotensional_legendre_relative : forall N l m T k e,
  (0 < N)%Z -> 0 < l -> 0 < T -> 0 < k -> 0 < e -> 
  isotensional_helmholtz_relative (C_morse_isotensional_legendre N l m T k e).
Proof. intros N l m T; intros; identities N l T. Qed.

Lemma morse_isotensional_legendre_reference : forall N l m T k e,
  (0 < N)%Z -> 0 < l -> 0 < T -> 0 < k -> 0 < e -> 
  isotensional_helmholtz_reference l T (C_morse_isotensional_legendre N l m T k e).
Proof. intros N l m T; intros; identities N l T. Qed.

Lemma morse_isotensional_legendre_legendre : forall N l m T k e,
  (0 < N)%Z -> 0 < l -> 0 < T -> 0 < k -> 0 < e -> 
  isotensional_legendre (C_morse_isotensional N l m T k e) (C_morse_isotensional_legendre N l m T k e).
Proof. intros N l m T; intros. apply (lift_legendre (IZR N) l T); auto using morse_isotensional_dimensionless, morse_isotensional_extensive, morse_isotensional_relative, morse_isotensional_legendre_dimensionless, morse_isotensional_legendre_extensive, morse_isotensional_legendre_relative; identities N l T. Qed.

