(** Algebraic identities of the wlc chain functions (generated by tools/gen_identities.py). *)
From Coq Require Import Reals ZArith Lra Lia.
From Coquelicot Require Import Coquelicot.
From Verif Require Import Scalar MMath MConst SpecThermo SpecChains PBase PLift.
Open Scope R_scope.

Lemma wlc_isometric_dimensionless : forall N l m T p,
  (0 < N)%Z -> 0 < l -> 0 < T -> 0 < p -> 
  isometric_dimensionless (IZR N) l T (C_wlc_isometric N l m T p).
Proof. intros N l m T; intros; identities N l T. Qed.

Lemma wlc_isometric_extensive : forall N l m T p,
  (0 < N)%Z -> 0 < l -> 0 < T -> 0 < p -> 
  isometric_extensive (IZR N) (C_wlc_isometric N l m T p).
Proof. intros N l m T; intros; identities N l T. Qed.

Lemma wlc_isometric_relative : forall N l m T p,
  (0 < N)%Z -> 0 < l -> 0 < T -> 0 < p -> 
  isometric_relative (C_wlc_isometric N l m T p).
Proof. intros N l m T; intros; identities N l T. Qed.

Lemma wlc_isometric_reference : forall N l m T p,
  (0 < N)%Z -> 0 < l -> 0 < T -> 0 < p -> 
  isometric_reference (IZR N) l (C_wlc_isometric N l m T p).
Proof. intros N l m T; intros; identities N l T. Qed.

Lemma wlc_isometric_legendre_legendre : forall N l m T p,
  (0 < N)%Z -> 0 < l -> 0 < T -> 0 < p -> 
  isometric_legendre (IZR N) (C_wlc_isometric N l m T p) (CG_wlc_isometric_legendre N l m T p).
Proof. intros N l m T; intros; identities N l T. Qed.

