(** Algebraic identities of the swfjc chain functions (generated by tools/gen_identities.py). *)
From Coq Require Import Reals ZArith Lra Lia.
From Coquelicot Require Import Coquelicot.
From Verif Require Import Scalar MMath MConst SpecThermo SpecChains PBase PLift.
Open Scope R_scope.

Lemma swfjc_isometric_legendre_dimensionless : forall N l m T w,
  (0 < N)%Z -> 0 < l -> 0 < T -> 0 < w -> 
  isometric_dimensionless (IZR N) l T (C_swfjc_isometric_legendre N l m T w).
Proof. intros N l m T; intros; identities N l T. Qed.

Lemma swfjc_isometric_legendre_extensive : forall N l m T w,
  (0 < N)%Z -> 0 < l -> 0 < T -> 0 < w -> 
  isometric_extensive (IZR N) (C_swfjc_isometric_legendre N l m T w).
Proof. intros N l m T; intros; identities N l T. Qed.

Lemma swfjc_isometric_legendre_relative : forall N l m T w,
  (0 < N)%Z -> 0 < l -> 0 < T -> 0 < w -> 
  isometric_relative (C_swfjc_isometric_legendre N l m T w).
Proof. intros N l m T; intros; identities N l T. Qed.

Lemma swfjc_isometric_legendre_reference : forall N l m T w,
  (0 < N)%Z -> 0 < l -> 0 < T -> 0 < w -> 
  isometric_reference (IZR N) l (C_swfjc_isometric_legendre N l m T w).
Proof. intros N l m T; intros; identities N l T. Qed.

Lemma swfjc_isotensional_dimensionless : forall N l m T w,
  (0 < N)%Z -> 0 < l -> 0 < T -> 0 < w -> 
  isotensional_dimensionless l T (C_swfjc_isotensional N l m T w).
Proof. intros N l m T; intros; identities N l T. Qed.

Lemma swfjc_isotensional_extensive : forall N l m T w,
  (0 < N)%Z -> 0 < l -> 0 < T -> 0 < w -> 
  isotensional_extensive (IZR N) (C_swfjc_isotensional N l m T w).
Proof. intros N l m T; intros; identities N l T. Qed.

Lemma swfjc_isotensional_relative : forall N l m T w,
  (0 < N)%Z -> 0 < l -> 0 < T -> 0 < w -> 
  isotensional_relative (C_swfjc_isotensional N l m T w).
Proof. intros N l m T; intros; identities N l T. Qed.

Lemma swfjc_isotensional_reference : forall N l m T w,
  (0 < N)%Z -> 0 < l -> 0 < T -> 0 < w -> 
  isotensional_reference l T (C_swfjc_isotensional N l m T w).
Proof. intros N l m T; intros; identities N l T. Qed.

Lemma swfjc_isotensional_legendre_dimensionless : forall N l m T w,
  (0 < N)%Z -> 0 < l -> 0 < T -> 0 < w -> 
  isotensional_helmholtz_dimensionless l T (C_swfjc_isotensional_legendre N l m T w).
Proof. intros N l m T; intros; identities N l T. Qed.

Lemma swfjc_isotensional_legendre_extensive : forall N l m T w,
  (0 < N)%Z -> 0 < l -> 0 < T -> 0 < w -> 
  isotensional_helmholtz_extensive (IZR N) (C_swfjc_isotensional_legendre N l m T w).
Proof. intros N l m T; intros; identities N l T. Qed.

Lemma swfjc_isotensional_legendre_relative : forall N l m T w,
  (0 < N)%Z -> 0 < l -> 0 < T -> 0 < w -> 
  isotensional_helmholtz_relative (C_swfjc_isotensional_legendre N l m T w).
Proof. intros N l m T; intros; identities N l T. Qed.

Lemma swfjc_isotensional_legendre_reference : forall N l m T w,
  (0 < N)%Z -> 0 < l -> 0 < T -> 0 < w -> 
  isotensional_helmholtz_reference l T (C_swfjc_isotensional_legendre N l m T w).
Proof. intros N l m T; intros; identities N l T. Qed.

Lemma swfjc_isotensional_legendre_legendre : forall N l m T w,
  (0 < N)%Z -> 0 < l -> 0 < T -> 0 < w -> 
  isotensional_legendre (C_swfjc_isotensional N l m T w) (C_swfjc_isotensional_legendre N l m T w).
Proof. intros N l m T; intros. apply (lift_legendre (IZR N) l T); auto using swfjc_isotensional_dimensionless, swfjc_isotensional_extensive, swfjc_isotensional_relative, swfjc_isotensional_legendre_dimensionless, swfjc_isotensional_legendre_extensive, swfjc_isotensional_legendre_relative; identities N l T. Qed.

