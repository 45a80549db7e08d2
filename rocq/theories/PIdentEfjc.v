(** Algebraic identities of the efjc chain functions (generated by tools/gen_identities.py). *)
From Coq Require Import Reals ZArith Lra Lia.
From Coquelicot Require Import Coquelicot.
From Verif Require Import Scalar MMath MConst SpecThermo SpecChains PBase PLift.
Open Scope R_scope.

Lemma efjc_isometric_asymptotic_alternative_legendre_dimensionless : forall N l m T k,
  (0 < N)%Z -> 0 < l -> 0 < T -> 0 < k -> 
  isometric_dimensionless (IZR N) l T (C_efjc_isometric_asymptotic_alternative_legendre N l m T k).
Proof. intros N l m T; intros; identities N l T. Qed.

Lemma efjc_isometric_asymptotic_alternative_legendre_extensive : forall N l m T k,
  (0 < N)%Z -> 0 < l -> 0 < T -> 0 < k -> 
  isometric_extensive (IZR N) (C_efjc_isometric_asymptotic_alternative_legendre N l m T k).
Proof. intros N l m T; intros; identities N l T. Qed.

Lemma efjc_isometric_asymptotic_alternative_legendre_relative : forall N l m T k,
  (0 < N)%Z -> 0 < l -> 0 < T -> 0 < k -> 
  isometric_relative (C_efjc_isometric_asymptotic_alternative_legendre N l m T k).
Proof. intros N l m T; intros; identities N l T. Qed.

Lemma efjc_isometric_asymptotic_alternative_legendre_reference : forall N l m T k,
  (0 < N)%Z -> 0 < l -> 0 < T -> 0 < k -> 
  isometric_reference (IZR N) l (C_efjc_isometric_asymptotic_alternative_legendre N l m T k).
Proof. intros N l m T; intros; identities N l T. Qed.

Lemma efjc_isometric_asymptotic_legendre_dimensionless : forall N l m T k,
  (0 < N)%Z -> 0 < l -> 0 < T -> 0 < k -> 
  isometric_dimensionless (IZR N) l T (C_efjc_isometric_asymptotic_legendre N l m T k).
Proof. intros N l m T; intros; identities N l T. Qed.

Lemma efjc_isometric_asymptotic_legendre_extensive : forall N l m T k,
  (0 < N)%Z -> 0 < l -> 0 < T -> 0 < k -> 
  isometric_extensive (IZR N) (C_efjc_isometric_asymptotic_legendre N l m T k).
Proof. intros N l m T; intros; identities N l T. Qed.

Lemma efjc_isometric_asymptotic_legendre_relative : forall N l m T k,
  (0 < N)%Z -> 0 < l -> 0 < T -> 0 < k -> 
  isometric_relative (C_efjc_isometric_asymptotic_legendre N l m T k).
Proof. intros N l m T; intros; identities N l T. Qed.

Lemma efjc_isometric_asymptotic_legendre_reference : forall N l m T k,
  (0 < N)%Z -> 0 < l -> 0 < T -> 0 < k -> 
  isometric_reference (IZR N) l (C_efjc_isometric_asymptotic_legendre N l m T k).
Proof. intros N l m T; intros; identities N l T. Qed.

Lemma efjc_isometric_asymptotic_reduced_legendre_dimensionless : forall N l m T k,
  (0 < N)%Z -> 0 < l -> 0 < T -> 0 < k -> 
  isometric_dimensionless (IZR N) l T (C_efjc_isometric_asymptotic_reduced_legendre N l m T k).
Proof. intros N l m T; intros; identities N l T. Qed.

Lemma efjc_isometric_asymptotic_reduced_legendre_extensive : forall N l m T k,
  (0 < N)%Z -> 0 < l -> 0 < T -> 0 < k -> 
  isometric_extensive (IZR N) (C_efjc_isometric_asymptotic_reduced_legendre N l m T k).
Proof. intros N l m T; intros; identities N l T. Qed.

Lemma efjc_isometric_asymptotic_reduced_legendre_relative : forall N l m T k,
  (0 < N)%Z -> 0 < l -> 0 < T -> 0 < k -> 
  isometric_relative (C_efjc_isometric_asymptotic_reduced_legendre N l m T k).
Proof. intros N l m T; intros; identities N l T. Qed.

Lemma efjc_isometric_asymptotic_reduced_legendre_reference : forall N l m T k,
  (0 < N)%Z -> 0 < l -> 0 < T -> 0 < k -> 
  isometric_reference (IZR N) l (C_efjc_isometric_asymptotic_reduced_legendre N l m T k).
Proof. intros N l m T; intros; identities N l T. Qed.

Lemma efjc_isotensional_dimensionless : forall N l m T k,
  (0 < N)%Z -> 0 < l -> 0 < T -> 0 < k -> 
  isotensional_dimensionless l T (C_efjc_isotensional N l m T k).
Proof. intros N l m T; intros; identities N l T. Qed.

Lemma efjc_isotensional_extensive : forall N l m T k,
  (0 < N)%Z -> 0 < l -> 0 < T -> 0 < k -> 
  isotensional_extensive (IZR N) (C_efjc_isotensional N l m T k).
Proof. intros N l m T; intros; identities N l T. Qed.

Lemma efjc_isotensional_relative : forall N l m T k,
  (0 < N)%Z -> 0 < l -> 0 < T -> 0 < k -> 
  isotensional_relative (C_efjc_isotensional N l m T k).
Proof. intros N l m T; intros; identities N l T. Qed.

Lemma efjc_isotensional_reference : forall N l m T k,
  (0 < N)%Z -> 0 < l -> 0 < T -> 0 < k -> 
  isotensional_reference l T (C_efjc_isotensional N l m T k).
Proof. intros N l m T; intros; identities N l T. Qed.

Lemma efjc_isotensional_asymptotic_dimensionless : forall N l m T k,
  (0 < N)%Z -> 0 < l -> 0 < T -> 0 < k -> 
  isotensional_dimensionless l T (C_efjc_isotensional_asymptotic N l m T k).
Proof. intros N l m T; intros; identities N l T. Qed.

Lemma efjc_isotensional_asymptotic_extensive : forall N l m T k,
  (0 < N)%Z -> 0 < l -> 0 < T -> 0 < k -> 
  isotensional_extensive (IZR N) (C_efjc_isotensional_asymptotic N l m T k).
Proof. intros N l m T; intros; identities N l T. Qed.

Lemma efjc_isotensional_asymptotic_relative : forall N l m T k,
  (0 < N)%Z -> 0 < l -> 0 < T -> 0 < k -> 
  isotensional_relative (C_efjc_isotensional_asymptotic N l m T k).
Proof. intros N l m T; intros; identities N l T. Qed.

Lemma efjc_isotensional_asymptotic_reference : forall N l m T k,
  (0 < N)%Z -> 0 < l -> 0 < T -> 0 < k -> 
  isotensional_reference l T (C_efjc_isotensional_asymptotic N l m T k).
Proof. intros N l m T; intros; identities N l T. Qed.

Lemma efjc_isotensional_asymptotic_alternative_dimensionless : forall N l m T k,
  (0 < N)%Z -> 0 < l -> 0 < T -> 0 < k -> 
  isotensional_dimensionless l T (C_efjc_isotensional_asymptotic_alternative N l m T k).
Proof. intros N l m T; intros; identities N l T. Qed.

Lemma efjc_isotensional_asymptotic_alternative_extensive : forall N l m T k,
  (0 < N)%Z -> 0 < l -> 0 < T -> 0 < k -> 
  isotensional_extensive (IZR N) (C_efjc_isotensional_asymptotic_alternative N l m T k).
Proof. intros N l m T; intros; identities N l T. Qed.

Lemma efjc_isotensional_asymptotic_alternative_relative : forall N l m T k,
  (0 < N)%Z -> 0 < l -> 0 < T -> 0 < k -> 
  isotensional_relative (C_efjc_isotensional_asymptotic_alternative N l m T k).
Proof. intros N l m T; intros; identities N l T. Qed.

Lemma efjc_isotensional_asymptotic_alternative_reference : forall N l m T k,
  (0 < N)%Z -> 0 < l -> 0 < T -> 0 < k -> 
  isotensional_reference l T (C_efjc_isotensional_asymptotic_alternative N l m T k).
Proof. intros N l m T; intros; identities N l T. Qed.

Lemma efjc_isotensional_asymptotic_alternative_legendre_dimensionless : forall N l m T k,
  (0 < N)%Z -> 0 < l -> 0 < T -> 0 < k -> 
  isotensional_helmholtz_dimensionless l T (C_efjc_isotensional_asymptotic_alternative_legendre N l m T k).
Proof. intros N l m T; intros; identities N l T. Qed.

Lemma efjc_isotensional_asymptotic_alternative_legendre_extensive : forall N l m T k,
  (0 < N)%Z -> 0 < l -> 0 < T -> 0 < k -> 
  isotensional_helmholtz_extensive (IZR N) (C_efjc_isotensional_asymptotic_alternative_legendre N l m T k).
Proof. intros N l m T; intros; identities N l T. Qed.

Lemma efjc_isotensional_asymptotic_alternative_legendre_relative : forall N l m T k,
  (0 < N)%Z -> 0 < l -> 0 < T -> 0 < k -> 
  isotensional_helmholtz_relative (C_efjc_isotensional_asymptotic_alternative_legendre N l m T k).
Proof. intros N l m T; intros; identities N l T. Qed.

Lemma efjc_isotensional_asymptotic_alternative_legendre_reference : forall N l m T k,
  (0 < N)%Z -> 0 < l -> 0 < T -> 0 < k -> 
  isotensional_helmholtz_reference l T (C_efjc_isotensional_asymptotic_alternative_legendre N l m T k).
Proof. intros N l m T; intros; identities N l T. Qed.

Lemma efjc_isotensional_asymptotic_alternative_legendre_legendre : forall N l m T k,
  (0 < N)%Z -> 0 < l -> 0 < T -> 0 < k -> 
  isotensional_legendre (C_efjc_isotensional_asymptotic_alternative N l m T k) (C_efjc_isotensional_asymptotic_alternative_legendre N l m T k).
Proof. intros N l m T; intros. apply (lift_legendre (IZR N) l T); auto using efjc_isotensional_asymptotic_alternative_dimensionless, efjc_isotensional_asymptotic_alternative_extensive, efjc_isotensional_asymptotic_alternative_relative, efjc_isotensional_asymptotic_alternative_legendre_dimensionless, efjc_isotensional_asymptotic_alternative_legendre_extensive, efjc_isotensional_asymptotic_alternative_legendre_relative; identities N l T. Qed.

Lemma efjc_isotensional_asymptotic_legendre_dimensionless : forall N l m T k,
  (0 < N)%Z -> 0 < l -> 0 < T -> 0 < k -> 
  isotensional_helmholtz_dimensionless l T (C_efjc_isotensional_asymptotic_legendre N l m T k).
Proof. intros N l m T; intros; identities N l T. Qed.

Lemma efjc_isotensional_asymptotic_legendre_extensive : forall N l m T k,
  (0 < N)%Z -> 0 < l -> 0 < T -> 0 < k -> 
  isotensional_helmholtz_extensive (IZR N) (C_efjc_isotensional_asymptotic_legendre N l m T k).
Proof. intros N l m T; intros; identities N l T. Qed.

Lemma efjc_isotensional_asymptotic_legendre_relative : forall N l m T k,
  (0 < N)%Z -> 0 < l -> 0 < T -> 0 < k -> 
  isotensional_helmholtz_relative (C_efjc_isotensional_asymptotic_legendre N l m T k).
Proof. intros N l m T; intros; identities N l T. Qed.

Lemma efjc_isotensional_asymptotic_legendre_reference : forall N l m T k,
  (0 < N)%Z -> 0 < l -> 0 < T -> 0 < k -> 
  isotensional_helmholtz_reference l T (C_efjc_isotensional_asymptotic_legendre N l m T k).
Proof. intros N l m T; intros; identities N l T. Qed.

Lemma efjc_isotensional_asymptotic_legendre_legendre : forall N l m T k,
  (0 < N)%Z -> 0 < l -> 0 < T -> 0 < k -> 
  isotensional_legendre (C_efjc_isotensional_asymptotic N l m T k) (C_efjc_isotensional_asymptotic_legendre N l m T k).
Proof. intros N l m T; intros. apply (lift_legendre (IZR N) l T); auto using efjc_isotensional_asymptotic_dimensionless, efjc_isotensional_asymptotic_extensive, efjc_isotensional_asymptotic_relative, efjc_isotensional_asymptotic_legendre_dimensionless, efjc_isotensional_asymptotic_legendre_extensive, efjc_isotensional_asymptotic_legendre_relative; efjc_identities N l T. Qed.

Lemma efjc_isotensional_asymptotic_reduced_dimensionless : forall N l m T k,
  (0 < N)%Z -> 0 < l -> 0 < T -> 0 < k -> 
  isotensional_dimensionless l T (C_efjc_isotensional_asymptotic_reduced N l m T k).
Proof. intros N l m T; intros; identities_total N l T. Qed.

Lemma efjc_isotensional_asymptotic_reduced_extensive : forall N l m T k,
  (0 < N)%Z -> 0 < l -> 0 < T -> 0 < k -> 
  isotensional_extensive (IZR N) (C_efjc_isotensional_asymptotic_reduced N l m T k).
Proof. intros N l m T; intros; identities N l T. Qed.

Lemma efjc_isotensional_asymptotic_reduced_relative : forall N l m T k,
  (0 < N)%Z -> 0 < l -> 0 < T -> 0 < k -> 
  isotensional_relative (C_efjc_isotensional_asymptotic_reduced N l m T k).
Proof. intros N l m T; intros; identities N l T. Qed.

Lemma efjc_isotensional_asymptotic_reduced_reference : forall N l m T k,
  (0 < N)%Z -> 0 < l -> 0 < T -> 0 < k -> 
  isotensional_reference l T (C_efjc_isotensional_asymptotic_reduced N l m T k).
Proof. intros N l m T; intros; identities N l T. Qed.

Lemma efjc_isotensional_asymptotic_reduced_legendre_dimensionless : forall N l m T k,
  (0 < N)%Z -> 0 < l -> 0 < T -> 0 < k -> 
  isotensional_helmholtz_dimensionless l T (C_efjc_isotensional_asymptotic_reduced_legendre N l m T k).
Proof. intros N l m T; intros; identities N l T. Qed.

Lemma efjc_isotensional_asymptotic_reduced_legendre_extensive : forall N l m T k,
  (0 < N)%Z -> 0 < l -> 0 < T -> 0 < k -> 
  isotensional_helmholtz_extensive (IZR N) (C_efjc_isotensional_asymptotic_reduced_legendre N l m T k).
Proof. intros N l m T; intros; identities N l T. Qed.

Lemma efjc_isotensional_asymptotic_reduced_legendre_relative : forall N l m T k,
  (0 < N)%Z -> 0 < l -> 0 < T -> 0 < k -> 
  isotensional_helmholtz_relative (C_efjc_isotensional_asymptotic_reduced_legendre N l m T k).
Proof. intros N l m T; intros; identities N l T. Qed.

Lemma efjc_isotensional_asymptotic_reduced_legendre_reference : forall N l m T k,
  (0 < N)%Z -> 0 < l -> 0 < T -> 0 < k -> 
  isotensional_helmholtz_reference l T (C_efjc_isotensional_asymptotic_reduced_legendre N l m T k).
Proof. intros N l m T; intros; identities N l T. Qed.

Lemma efjc_isotensional_asymptotic_reduced_legendre_legendre : forall N l m T k,
  (0 < N)%Z -> 0 < l -> 0 < T -> 0 < k -> 
  isotensional_legendre (C_efjc_isotensional_asymptotic_reduced N l m T k) (C_efjc_isotensional_asymptotic_reduced_legendre N l m T k).
Proof. intros N l m T; intros. apply (lift_legendre (IZR N) l T); auto using efjc_isotensional_asymptotic_reduced_dimensionless, efjc_isotensional_asymptotic_reduced_extensive, efjc_isotensional_asymptotic_reduced_relative, efjc_isotensional_asymptotic_reduced_legendre_dimensionless, efjc_isotensional_asymptotic_reduced_legendre_extensive, efjc_isotensional_asymptotic_reduced_legendre_relative; identities N l T. Qed.

Lemma efjc_isotensional_legendre_dimensionless : forall N l m T k,
  (0 < N)%Z -> 0 < l -> 0 < T -> 0 < k -> 
  isotensional_helmholtz_dimensionless l T (C_efjc_isotensional_legendre N l m T k).
Proof. intros N l m T; intros; identities N l T. Qed.

Lemma efjc_isotensional_legendre_extensive : forall N l m T k,
  (0 < N)%Z -> 0 < l -> 0 < T -> 0 < k -> 
  isotensional_helmholtz_extensive (IZR N) (C_efjc_isotensional_legendre N l m T k).
Proof. intros N l m T; intros; identities N l T. Qed.

Lemma efjc_isotensional_legendre_relative : forall N l m T k,
  (0 < N)%Z -> 0 < l -> 0 < T -> 0 < k -> 
  isotensional_helmholtz_relative (C_efjc_isotensional_legendre N l m T k).
Proof. intros N l m T; intros; identities N l T. Qed.

Lemma efjc_isotensional_legendre_reference : forall N l m T k,
  (0 < N)%Z -> 0 < l -> 0 < T -> 0 < k -> 
  isotensional_helmholtz_reference l T (C_efjc_isotensional_legendre N l m T k).
Proof. intros N l m T; intros; identities N l T. Qed.

Lemma efjc_isotensional_legendre_legendre : forall N l m T k,
  (0 < N)%Z -> 0 < l -> 0 < T -> 0 < k -> 
  isotensional_legendre (C_efjc_isotensional N l m T k) (C_efjc_isotensional_legendre N l m T k).
Proof. intros N l m T; intros. apply (lift_legendre (IZR N) l T); auto using efjc_isotensional_dimensionless, efjc_isotensional_extensive, efjc_isotensional_relative, efjc_isotensional_legendre_dimensionless, efjc_isotensional_legendre_extensive, efjc_isotensional_legendre_relative; identities N l T. Qed.

