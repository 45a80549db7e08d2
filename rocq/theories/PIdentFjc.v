(** Algebraic identities of the fjc chain functions (generated by tools/gen_identities.py). *)
From Coq Require Import Reals ZArith Lra Lia.
From Coquelicot Require Import Coquelicot.
From Verif Require Import Scalar MMath MConst SpecThermo SpecChains PBase PLift.
Open Scope R_scope.

Lemma fjc_isometric_legendre_dimensionless : forall N l m T,
  (0 < N)%Z -> 0 < l -> 0 < T -> 
  isometric_dimensionless (IZR N) l T (C_fjc_isometric_legendre N l m T).
Proof. intros N l m T; intros; identities N l T. Qed.

Lemma fjc_isometric_legendre_extensive : forall N l m T,
  (0 < N)%Z -> 0 < l -> 0 < T -> 
  isometric_extensive (IZR N) (C_fjc_isometric_legendre N l m T).
Proof. intros N l m T; intros; identities N l T. Qed.

Lemma fjc_isometric_legendre_relative : forall N l m T,
  (0 < N)%Z -> 0 < l -> 0 < T -> 
  isometric_relative (C_fjc_isometric_legendre N l m T).
Proof. intros N l m T; intros; identities N l T. Qed.

Lemma fjc_isotensional_dimensionless : forall N l m T,
  (0 < N)%Z -> 0 < l -> 0 < T -> 
  isotensional_dimensionless l T (C_fjc_isotensional N l m T).
Proof. intros N l m T; intros; identities N l T. Qed.

Lemma fjc_isotensional_extensive : forall N l m T,
  (0 < N)%Z -> 0 < l -> 0 < T -> 
  isotensional_extensive (IZR N) (C_fjc_isotensional N l m T).
Proof. intros N l m T; intros; identities N l T. Qed.

Lemma fjc_isotensional_relative : forall N l m T,
  (0 < N)%Z -> 0 < l -> 0 < T -> 
  isotensional_relative (C_fjc_isotensional N l m T).
Proof. intros N l m T; intros; identities N l T. Qed.

Lemma fjc_isotensional_legendre_dimensionless : forall N l m T,
  (0 < N)%Z -> 0 < l -> 0 < T -> 
  isotensional_helmholtz_dimensionless l T (C_fjc_isotensional_legendre N l m T).
Proof. intros N l m T; intros; identities N l T. Qed.

Lemma fjc_isotensional_legendre_extensive : forall N l m T,
  (0 < N)%Z -> 0 < l -> 0 < T -> 
  isotensional_helmholtz_extensive (IZR N) (C_fjc_isotensional_legendre N l m T).
Proof. intros N l m T; intros; identities N l T. Qed.

Lemma fjc_isotensional_legendre_relative : forall N l m T,
  (0 < N)%Z -> 0 < l -> 0 < T -> 
  isotensional_helmholtz_relative (C_fjc_isotensional_legendre N l m T).
Proof. intros N l m T; intros; identities N l T. Qed.

Lemma fjc_isotensional_legendre_legendre : forall N l m T,
  (0 < N)%Z -> 0 < l -> 0 < T -> 
  isotensional_legendre (C_fjc_isotensional N l m T) (C_fjc_isotensional_legendre N l m T).
Proof. intros N l m T; intros. apply (lift_legendre (IZR N) l T); auto using fjc_isotensional_dimensionless, fjc_isotensional_extensive, fjc_isotensional_relative, fjc_isotensional_legendre_dimensionless, fjc_isotensional_legendre_extensive, fjc_isotensional_legendre_relative; identities N l T. Qed.

