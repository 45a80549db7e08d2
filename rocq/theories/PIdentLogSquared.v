(** Algebraic identities of the log_squared chain functions (generated by tools/gen_identities.py). *)
From Coq Require Import Reals ZArith Lra Lia.
From Coquelicot Require Import Coquelicot.
From Verif Require Import Scalar MMath MConst SpecThermo SpecChains PBase PLift.
Open Scope R_scope.

Lemma log_squared_isometric_asymptotic_legendre_dimensionless : forall N l m T k,
  (0 < N)%Z -> 0 < l -> 0 < T -> 0 < k -> 
  isometric_dimensionless (IZR N) l T (C_log_squared_isometric_asymptotic_legendre N l m T k).
Proof. intros N l m T; intros; identities N l T. Qed.

Lemma log_squared_isometric_asymptotic_legendre_extensive : forall N l m T k,
  (0 < N)%Z -> 0 < l -> 0 < T -> 0 < k -> 
  isometric_extensive (IZR N) (C_log_squared_isometric_asymptotic_legendre N l m T k).
Proof. intros N l m T; intros; identities N l T. Qed.

Lemma log_squared_isometric_asymptotic_legendre_relative : forall N l m T k,
  (0 < N)%Z -> 0 < l -> 0 < T -> 0 < k -> 
  isometric_relative (C_log_squared_isometric_asymptotic_legendre N l m T k).
Proof. intros N l m T; intros; identities N l T. Qed.

Lemma log_squared_isometric_asymptotic_legendre_reference : forall N l m T k,
  (0 < N)%Z -> 0 < l -> 0 < T -> 0 < k -> 
  isometric_reference (IZR N) l (C_log_squared_isometric_asymptotic_legendre N l m T k).
Proof. intros N l m T; intros; identities N l T. Qed.

Lemma log_squared_isometric_asymptotic_reduced_legendre_dimensionless : forall N l m T k,
  (0 < N)%Z -> 0 < l -> 0 < T -> 0 < k -> 
  isometric_dimensionless (IZR N) l T (C_log_squared_isometric_asymptotic_reduced_legendre N l m T k).
Proof. intros N l m T; intros; identities N l T. Qed.

Lemma log_squared_isometric_asymptotic_reduced_legendre_extensive : forall N l m T k,
  (0 < N)%Z -> 0 < l -> 0 < T -> 0 < k -> 
  isometric_extensive (IZR N) (C_log_squared_isometric_asymptotic_reduced_legendre N l m T k).
Proof. intros N l m T; intros; identities N l T. Qed.

Lemma log_squared_isometric_asymptotic_reduced_legendre_relative : forall N l m T k,
  (0 < N)%Z -> 0 < l -> 0 < T -> 0 < k -> 
  isometric_relative (C_log_squared_isometric_asymptotic_reduced_legendre N l m T k).
Proof. intros N l m T; intros; identities N l T. Qed.

Lemma log_squared_isometric_asymptotic_reduced_legendre_reference : forall N l m T k,
  (0 < N)%Z -> 0 < l -> 0 < T -> 0 < k -> 
  isometric_reference (IZR N) l (C_log_squared_isometric_asymptotic_reduced_legendre N l m T k).
Proof. intros N l m T; intros; identities N l T. Qed.

Lemma log_squared_isotensional_dimensionless : forall N l m T k,
  (0 < N)%Z -> 0 < l -> 0 < T -> 0 < k -> 
  isotensional_dimensionless l T (C_log_squared_isotensional N l m T k).
Proof. intros N l m T; intros; identities N l T. Qed.

Lemma log_squared_isotensional_extensive : forall N l m T k,
  (0 < N)%Z -> 0 < l -> 0 < T -> 0 < k -> 
  isotensional_extensive (IZR N) (C_log_squared_isotensional N l m T k).
Proof. intros N l m T; intros; identities N l T. Qed.

Lemma log_squared_isotensional_relative : forall N l m T k,
  (0 < N)%Z -> 0 < l -> 0 < T -> 0 < k -> 
  isotensional_relative (C_log_squared_isotensional N l m T k).
Proof. intros N l m T; intros; identities N l T. Qed.

Lemma log_squared_isotensional_reference : forall N l m T k,
  (0 < N)%Z -> 0 < l -> 0 < T -> 0 < k -> 
  isotensional_reference l T (C_log_squared_isotensional N l m T k).
Proof. intros N l m T; intros; identities N l T. Qed.

Lemma log_squared_isotensional_asymptotic_dimensionless : forall N l m T k,
  (0 < N)%Z -> 0 < l -> 0 < T -> 0 < k -> 
  isotensional_dimensionless l T (C_log_squared_isotensional_asymptotic N l m T k).
Proof. intros N l m T; intros; identities N l T. Qed.

Lemma log_squared_isotensional_asymptotic_extensive : forall N l m T k,
  (0 < N)%Z -> 0 < l -> 0 < T -> 0 < k -> 
  isotensional_extensive (IZR N) (C_log_squared_isotensional_asymptotic N l m T k).
Proof. intros N l m T; intros; identities N l T. Qed.

Lemma log_squared_isotensional_asymptotic_relative : forall N l m T k,
  (0 < N)%Z -> 0 < l -> 0 < T -> 0 < k -> 
  isotensional_relative (C_log_squared_isotensional_asymptotic N l m T k).
Proof. intros N l m T; intros; identities N l T. Qed.

Lemma log_squared_isotensional_asymptotic_reference : forall N l m T k,
  (0 < N)%Z -> 0 < l -> 0 < T -> 0 < k -> 
  isotensional_reference l T (C_log_squared_isotensional_asymptotic N l m T k).
Proof. intros N l m T; intros; identities N l T. Qed.

Lemma log_squared_isotensional_asymptotic_legendre_dimensionless : forall N l m T k,
  (0 < N)%Z -> 0 < l -> 0 < T -> 0 < k -> 
  isotensional_helmholtz_dimensionless l T (C_log_squared_isotensional_asymptotic_legendre N l m T k).
Proof. intros N l m T; intros; identities N l T. Qed.

Lemma log_squared_isotensional_asymptotic_legendre_extensive : forall N l m T k,
  (0 < N)%Z -> 0 < l -> 0 < T -> 0 < k -> 
  isotensional_helmholtz_extensive (IZR N) (C_log_squared_isotensional_asymptotic_legendre N l m T k).
Proof. intros N l m T; intros; identities N l T. Qed.

Lemma log_squared_isotensional_asymptotic_legendre_relative : forall N l m T k,
  (0 < N)%Z -> 0 < l -> 0 < T -> 0 < k -> 
  isotensional_helmholtz_relative (C_log_squared_isotensional_asymptotic_legendre N l m T k).
Proof. intros N l m T; intros; identities N l T. Qed.

Lemma log_squared_isotensional_asymptotic_legendre_reference : forall N l m T k,
  (0 < N)%Z -> 0 < l -> 0 < T -> 0 < k -> 
  isotensional_helmholtz_reference l T (C_log_squared_isotensional_asymptotic_legendre N l m T k).
Proof. intros N l m T; intros; identities N l T. Qed.

Lemma log_squared_isotensional_asymptotic_legendre_legendre : forall N l m T k,
  (0 < N)%Z -> 0 < l -> 0 < T -> 0 < k -> 
  isotensional_legendre (C_log_squared_isotensional_asymptotic N l m T k) (C_log_squared_isotensional_asymptotic_legendre N l m T k).
Proof. intros N l m T; intros. apply (lift_legendre (IZR N) l T); auto using log_squared_isotensional_asymptotic_dimensionless, log_squared_isotensional_asymptotic_extensive, log_squared_isotensional_asymptotic_relative, log_squared_isotensional_asymptotic_legendre_dimensionless, log_squared_isotensional_asymptotic_legendre_extensive, log_squared_isotensional_asymptotic_legendre_relative; identities N l T. Qed.

Lemma log_squared_isotensional_asymptotic_reduced_dimensionless : forall N l m T k,
  (0 < N)%Z -> 0 < l -> 0 < T -> 0 < k -> 
  isotensional_dimensionless l T (C_log_squared_isotensional_asymptotic_reduced N l m T k).
Proof. intros N l m T; intros; identities N l T. Qed.

Lemma log_squared_isotensional_asymptotic_reduced_extensive : forall N l m T k,
  (0 < N)%Z -> 0 < l -> 0 < T -> 0 < k -> 
  isotensional_extensive (IZR N) (C_log_squared_isotensional_asymptotic_reduced N l m T k).
Proof. intros N l m T; intros; identities N l T. Qed.

Lemma log_squared_isotensional_asymptotic_reduced_relative : forall N l m T k,
  (0 < N)%Z -> 0 < l -> 0 < T -> 0 < k -> 
  isotensional_relative (C_log_squared_isotensional_asymptotic_reduced N l m T k).
Proof. intros N l m T; intros; identities N l T. Qed.

Lemma log_squared_isotensional_asymptotic_reduced_reference : forall N l m T k,
  (0 < N)%Z -> 0 < l -> 0 < T -> 0 < k -> 
  isotensional_reference l T (C_log_squared_isotensional_asymptotic_reduced N l m T k).
Proof. intros N l m T; intros; identities N l T. Qed.

Lemma log_squared_isotensional_asymptotic_reduced_legendre_dimensionless : forall N l m T k,
  (0 < N)%Z -> 0 < l -> 0 < T -> 0 < k -> 
  isotensional_helmholtz_dimensionless l T (C_log_squared_isotensional_asymptotic_reduced_legendre N l m T k).
Proof. intros N l m T; intros; identities N l T. Qed.

Lemma log_squared_isotensional_asymptotic_reduced_legendre_extensive : forall N l m T k,
  (0 < N)%Z -> 0 < l -> 0 < T -> 0 < k -> 
  isotensional_helmholtz_extensive (IZR N) (C_log_squared_isotensional_asymptotic_reduced_legendre N l m T k).
Proof. intros N l m T; intros; identities N l T. Qed.

Lemma log_squared_isotensional_asymptotic_reduced_legendre_relative : forall N l m T k,
  (0 < N)%Z -> 0 < l -> 0 < T -> 0 < k -> 
  isotensional_helmholtz_relative (C_log_squared_isotensional_asymptotic_reduced_legendre N l m T k).
Proof. intros N l m T; intros; identities N l T. Qed.

Lemma log_squared_isotensional_asymptotic_reduced_legendre_reference : forall N l m T k,
  (0 < N)%Z -> 0 < l -> 0 < T -> 0 < k -> 
  isotensional_helmholtz_reference l T (C_log_squared_isotensional_asymptotic_reduced_legendre N l m T k).
Proof. intros N l m T; intros; identities N l T. Qed.

Lemma log_squared_isotensional_asymptotic_reduced_legendre_legendre : forall N l m T k,
  (0 < N)%Z -> 0 < l -> 0 < T -> 0 < k -> 
  isotensional_legendre (C_log_squared_isotensional_asymptotic_reduced N l m T k) (C_log_squared_isotensional_asymptotic_reduced_legendre N l m T k).
Proof. intros N l m T; intros. apply (lift_legendre (IZR N) l T); auto using log_squared_isotensional_asymptotic_reduced_dimensionless, log_squared_isotensional_asymptotic_reduced_extensive, log_squared_isotensional_asymptotic_reduced_relative, log_squared_isotensional_asymptotic_reduced_legendre_dimensionless, log_squared_isotensional_asymptotic_reduced_legendre_extensive, log_squared_isotensional_asymptotic_reduced_legendre_relative; identities N l T. Qed.

Lemma log_squared_isotensional_legendre_dimensionless : forall N l m T k,
  (0 < N)%Z -> 0 < l -> 0 < T -> 0 < k -> 
  isotensional_helmholtz_dimensionless l T (C_log_squared_isotensional_legendre N l m T k).
Proof. intros N l m T; intros; identities N l T. Qed.

Lemma log_squared_isotensional_legendre_extensive : forall N l m T k,
  (0 < N)%Z -> 0 < l -> 0 < T -> 0 < k -> 
  isotensional_helmholtz_extensive (IZR N) (C_log_squared_isotensional_legendre N l m T k).
Proof. intros N l m T; intros; identities N l T. Qed.

Lemma log_squared_isotensional_legendre_relative : forall N l m T k,
  (0 < N)%Z -> 0 < l -> 0 < T -> 0 < k -> 
  isotensional_helmholtz_relative (C_log_squared_isotensional_legendre N l m T k).
Proof. intros N l m T; intros; identities N l T. Qed.

Lemma log_squared_isotensional_legendre_reference : forall N l m T k,
  (0 < N)%Z -> 0 < l -> 0 < T -> 0 < k -> 
  isotensional_helmholtz_reference l T (C_log_squared_isotensional_legendre N l m T k).
Proof. intros N l m T; intros; identities N l T. Qed.

Lemma log_squared_isotensional_legendre_legendre : forall N l m T k,
  (0 < N)%Z -> 0 < l -> 0 < T -> 0 < k -> 
  isotensional_legendre (C_log_squared_isotensional N l m T k) (C_log_squared_isotensional_legendre N l m T k).
Proof. intros N l m T; intros. apply (lift_legendre (IZR N) l T); auto using log_squared_isotensional_dimensionless, log_squared_isotensional_extensive, log_squared_isotensional_relative, log_squared_isotensional_legendre_dimensionless, log_squared_isotensional_legendre_extensive, log_squared_isotensional_legendre_relative; identities N l T. Qed.

