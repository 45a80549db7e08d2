(** Algebraic identities of the lennard_jones chain functions (generated by tools/gen_identities.py). *)
From Coq Require Import Reals ZArith Lra Lia.
From Coquelicot Require Import Coquelicot.
From Verif Require Import Scalar MMath MConst SpecThermo SpecChains PBase PLift.
Open Scope R_scope.

Lemma lennard_jones_isometric_asymptotic_legendre_dimensionless : forall N l m T k,
  (0 < N)%Z -> 0 < l -> 0 < T -> 0 < k -> 
  isometric_dimensionless (IZR N) l T (C_lennard_jones_isometric_asymptotic_legendre N l m T k).
Proof. intros N l m T; intros; identities N l T. Qed.

Lemma lennard_jones_isometric_asymptotic_legendre_extensive : forall N l m T k,
  (0 < N)%Z -> 0 < l -> 0 < T -> 0 < k -> 
  isometric_extensive (IZR N) (C_lennard_jones_isometric_asymptotic_legendre N l m T k).
Proof. intros N l m T; intros; identities N l T. Qed.

Lemma lennard_jones_isometric_asymptotic_legendre_relative : forall N l m T k,
  (0 < N)%Z -> 0 < l -> 0 < T -> 0 < k -> 
  isometric_relative (C_lennard_jones_isometric_asymptotic_legendre N l m T k).
Proof. intros N l m T; intros; identities N l T. Qed.

Lemma lennard_jones_isometric_asymptotic_legendre_reference : forall N l m T k,
  (0 < N)%Z -> 0 < l -> 0 < T -> 0 < k -> 
  isometric_reference (IZR N) l (C_lennard_jones_isometric_asymptotic_legendre N l m T k).
Proof. intros N l m T; intros; identities N l T. Qed.

Lemma lennard_jones_isometric_asymptotic_reduced_legendre_dimensionless : forall N l m T k,
  (0 < N)%Z -> 0 < l -> 0 < T -> 0 < k -> 
  isometric_dimensionless (IZR N) l T (C_lennard_jones_isometric_asymptotic_reduced_legendre N l m T k).
Proof. intros N l m T; intros; identities N l T. Qed.

Lemma lennard_jones_isometric_asymptotic_reduced_legendre_extensive : forall N l m T k,
  (0 < N)%Z -> 0 < l -> 0 < T -> 0 < k -> 
  isometric_extensive (IZR N) (C_lennard_jones_isometric_asymptotic_reduced_legendre N l m T k).
Proof. intros N l m T; intros; identities N l T. Qed.

Lemma lennard_jones_isometric_asymptotic_reduced_legendre_relative : forall N l m T k,
  (0 < N)%Z -> 0 < l -> 0 < T -> 0 < k -> 
  isometric_relative (C_lennard_jones_isometric_asymptotic_reduced_legendre N l m T k).
Proof. intros N l m T; intros; identities N l T. Qed.

Lemma lennard_jones_isometric_asymptotic_reduced_legendre_reference : forall N l m T k,
  (0 < N)%Z -> 0 < l -> 0 < T -> 0 < k -> 
  isometric_reference (IZR N) l (C_lennard_jones_isometric_asymptotic_reduced_legendre N l m T k).
Proof. intros N l m T; intros; identities N l T. Qed.

Lemma lennard_jones_isotensional_dimensionless : forall N l m T k,
  (0 < N)%Z -> 0 < l -> 0 < T -> 0 < k -> 
  isotensional_dimensionless l T (C_lennard_jones_isotensional N l m T k).
Proof. intros N l m T; intros; identities N l T. Qed.

Lemma lennard_jones_isotensional_extensive : forall N l m T k,
  (0 < N)%Z -> 0 < l -> 0 < T -> 0 < k -> 
  isotensional_extensive (IZR N) (C_lennard_jones_isotensional N l m T k).
Proof. intros N l m T; intros; identities N l T. Qed.

Lemma lennard_jones_isotensional_relative : forall N l m T k,
  (0 < N)%Z -> 0 < l -> 0 < T -> 0 < k -> 
  isotensional_relative (C_lennard_jones_isotensional N l m T k).
Proof. intros N l m T; intros; identities N l T. Qed.

Lemma lennard_jones_isotensional_reference : forall N l m T k,
  (0 < N)%Z -> 0 < l -> 0 < T -> 0 < k -> 
  isotensional_reference l T (C_lennard_jones_isotensional N l m T k).
Proof. intros N l m T; intros; identities N l T. Qed.

Lemma lennard_jones_isotensional_asymptotic_dimensionless : forall N l m T k,
  (0 < N)%Z -> 0 < l -> 0 < T -> 0 < k -> 
  isotensional_dimensionless l T (C_lennard_jones_isotensional_asymptotic N l m T k).
Proof. intros N l m T; intros; identities N l T. Qed.

Lemma lennard_jones_isotensional_asymptotic_extensive : forall N l m T k,
  (0 < N)%Z -> 0 < l -> 0 < T -> 0 < k -> 
  isotensional_extensive (IZR N) (C_lennard_jones_isotensional_asymptotic N l m T k).
Proof. intros N l m T; intros; identities N l T. Qed.

Lemma lennard_jones_isotensional_asymptotic_relative : forall N l m T k,
  (0 < N)%Z -> 0 < l -> 0 < T -> 0 < k -> 
  isotensional_relative (C_lennard_jones_isotensional_asymptotic N l m T k).
Proof. intros N l m T; intros; identities N l T. Qed.

Lemma lennard_jones_isotensional_asymptotic_reference : forall N l m T k,
  (0 < N)%Z -> 0 < l -> 0 < T -> 0 < k -> 
  isotensional_reference l T (C_lennard_jones_isotensional_asymptotic N l m T k).
Proof. intros N l m T; intros; identities N l T. Qed.

Lemma lennard_jones_isotensional_asymptotic_legendre_dimensionless : forall N l m T k,
  (0 < N)%Z -> 0 < l -> 0 < T -> 0 < k -> 
  isotensional_helmholtz_dimensionless l T (C_lennard_jones_isotensional_asymptotic_legendre N l m T k).
Proof. intros N l m T; intros; identities N l T. Qed.

Lemma lennard_jones_isotensional_asymptotic_legendre_extensive : forall N l m T k,
  (0 < N)%Z -> 0 < l -> 0 < T -> 0 < k -> 
  isotensional_helmholtz_extensive (IZR N) (C_lennard_jones_isotensional_asymptotic_legendre N l m T k).
Proof. intros N l m T; intros; identities N l T. Qed.

Lemma lennard_jones_isotensional_asymptotic_legendre_relative : forall N l m T k,
  (0 < N)%Z -> 0 < l -> 0 < T -> 0 < k -> 
  isotensional_helmholtz_relative (C_lennard_jones_isotensional_asymptotic_legendre N l m T k).
Proof. intros N l m T; intros; identities N l T. Qed.

Lemma lennard_jones_isotensional_asymptotic_legendre_reference : forall N l m T k,
  (0 < N)%Z -> 0 < l -> 0 < T -> 0 < k -> 
  isotensional_helmholtz_reference l T (C_lennard_jones_isotensional_asymptotic_legendre N l m T k).
Proof. intros N l m T; intros; identities N l T. Qed.

Lemma lennard_jones_isotensional_asymptotic_legendre_legendre : forall N l m T k,
  (0 < N)%Z -> 0 < l -> 0 < T -> 0 < k -> 
  isotensional_legendre (C_lennard_jones_isotensional_asymptotic N l m T k) (C_lennard_jones_isotensional_asymptotic_legendre N l m T k).
Proof. intros N l m T; intros. apply (lift_legendre (IZR N) l T); auto using lennard_jones_isotensional_asymptotic_dimensionless, lennard_jones_isotensional_asymptotic_extensive, lennard_jones_isotensional_asymptotic_relative, lennard_jones_isotensional_asymptotic_legendre_dimensionless, lennard_jones_isotensional_asymptotic_legendre_extensive, lennard_jones_isotensional_asymptotic_legendre_relative; identities N l T. Qed.

Lemma lennard_jones_isotensional_asymptotic_reduced_dimensionless : forall N l m T k,
  (0 < N)%Z -> 0 < l -> 0 < T -> 0 < k -> 
  isotensional_dimensionless l T (C_lennard_jones_isotensional_asymptotic_reduced N l m T k).
Proof. intros N l m T; intros; identities N l T. Qed.

Lemma lennard_jones_isotensional_asymptotic_reduced_extensive : forall N l m T k,
  (0 < N)%Z -> 0 < l -> 0 < T -> 0 < k -> 
  isotensional_extensive (IZR N) (C_lennard_jones_isotensional_asymptotic_reduced N l m T k).
Proof. intros N l m T; intros; identities N l T. Qed.

Lemma lennard_jones_isotensional_asymptotic_reduced_relative : forall N l m T k,
  (0 < N)%Z -> 0 < l -> 0 < T -> 0 < k -> 
  isotensional_relative (C_lennard_jones_isotensional_asymptotic_reduced N l m T k).
Proof. intros N l m T; intros; identities N l T. Qed.

Lemma lennard_jones_isotensional_asymptotic_reduced_reference : forall N l m T k,
  (0 < N)%Z -> 0 < l -> 0 < T -> 0 < k -> 
  isotensional_reference l T (C_lennard_jones_isotensional_asymptotic_reduced N l m T k).
Proof. intros N l m T; intros; identities N l T. Qed.

Lemma lennard_jones_isotensional_asymptotic_reduced_legendre_dimensionless : forall N l m T k,
  (0 < N)%Z -> 0 < l -> 0 < T -> 0 < k -> 
  isotensional_helmholtz_dimensionless l T (C_lennard_jones_isotensional_asymptotic_reduced_legendre N l m T k).
Proof. intros N l m T; intros; identities N l T. Qed.

Lemma lennard_jones_isotensional_asymptotic_reduced_legendre_extensive : forall N l m T k,
  (0 < N)%Z -> 0 < l -> 0 < T -> 0 < k -> 
  isotensional_helmholtz_extensive (IZR N) (C_lennard_jones_isotensional_asymptotic_reduced_legendre N l m T k).
Proof. intros N l m T; intros; identities N l T. Qed.

Lemma lennard_jones_isotensional_asymptotic_reduced_legendre_relative : forall N l m T k,
  (0 < N)%Z -> 0 < l -> 0 < T -> 0 < k -> 
  isotensional_helmholtz_relative (C_lennard_jones_isotensional_asymptotic_reduced_legendre N l m T k).
Proof. intros N l m T; intros; identities N l T. Qed.

Lemma lennard_jones_isotensional_asymptotic_reduced_legendre_reference : forall N l m T k,
  (0 < N)%Z -> 0 < l -> 0 < T -> 0 < k -> 
  isotensional_helmholtz_reference l T (C_lennard_jones_isotensional_asymptotic_reduced_legendre N l m T k).
Proof. intros N l m T; intros; identities N l T. Qed.

Lemma lennard_jones_isotensional_asymptotic_reduced_legendre_legendre : forall N l m T k,
  (0 < N)%Z -> 0 < l -> 0 < T -> 0 < k -> 
  isotensional_legendre (C_lennard_jones_isotensional_asymptotic_reduced N l m T k) (C_lennard_jones_isotensional_asymptotic_reduced_legendre N l m T k).
Proof. intros N l m T; intros. apply (lift_legendre (IZR N) l T); auto using lennard_jones_isotensional_asymptotic_reduced_dimensionless, lennard_jones_isotensional_asymptotic_reduced_extensive, lennard_jones_isotensional_asymptotic_reduced_relative, lennard_jones_isotensional_asymptotic_reduced_legendre_dimensionless, lennard_jones_isotensional_asymptotic_reduced_legendre_extensive, lennard_jones_isotensional_asymptotic_reduced_legendre_relative; identities N l T. Qed.

Lemma lennard_jones_isotensional_legendre_dimensionless : forall N l m T k,
  (0 < N)%Z -> 0 < l -> 0 < T -> 0 < k -> 
  isotensional_helmholtz_dimensionless l T (C_lennard_jones_isotensional_legendre N l m T k).
Proof. intros N l m T; intros; identities N l T. Qed.

Lemma lennard_jones_isotensional_legendre_extensive : forall N l m T k,
  (0 < N)%Z -> 0 < l -> 0 < T -> 0 < k -> 
  isotensional_helmholtz_extensive (IZR N) (C_lennard_jones_isotensional_legendre N l m T k).
Proof. intros N l m T; intros; identities N l T. Qed.

Lemma lennard_jones_isotensional_legendre_relative : forall N l m T k,
  (0 < N)%Z -> 0 < l -> 0 < T -> 0 < k -> 
  isotensional_helmholtz_relative (C_lennard_jones_isotensional_legendre N l m T k).
Proof. intros N l m T; intros; identities N l T. Qed.

Lemma lennard_jones_isotensional_legendre_reference : forall N l m T k,
  (0 < N)%Z -> 0 < l -> 0 < T -> 0 < k -> 
  isotensional_helmholtz_reference l T (C_lennard_jones_isotensional_legendre N l m T k).
Proof. intros N l m T; intros; identities N l T. Qed.

Lemma lennard_jones_isotensional_legendre_legendre : forall N l m T k,
  (0 < N)%Z -> 0 < l -> 0 < T -> 0 < k -> 
  isotensional_legendre (C_lennard_jones_isotensional N l m T k) (C_lennard_jones_isotensional_legendre N l m T k).
Proof. intros N l m T; intros. apply (lift_legendre (IZR N) l T); auto using lennard_jones_isotensional_dimensionless, lennard_jones_isotensional_extensive, lennard_jones_isotensional_relative, lennard_jones_isotensional_legendre_dimensionless, lennard_jones_isotensional_legendre_extensive, lennard_jones_isotensional_legendre_relative; identities N l T. Qed.

