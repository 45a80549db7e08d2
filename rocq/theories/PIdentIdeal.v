(** Algebraic identities of the ideal chain functions (generated by tools/gen_identities.py). *)
From Coq Require Import Reals ZArith Lra Lia.
From Coquelicot Require Import Coquelicot.
From Verif Require Import Scalar MMath MConst SpecThermo SpecChains PBase PLift.
Open Scope R_scope.

Lemma ideal_isometric_dimensionless : forall N l m T,
  (0 < N)%Z -> 0 < l -> 0 < T -> 
  isometric_dimensionless (IZR N) l T (C_ideal_isometric N l m T).
Proof. intros N l m T; intros; identities N l T. Qed.

Lemma ideal_isometric_extensive : forall N l m T,
  (0 < N)%Z -> 0 < l -> 0 < T -> 
  isometric_extensive (IZR N) (C_ideal_isometric N l m T).
Proof. intros N l m T; intros; identities N l T. Qed.

Lemma ideal_isometric_relative : forall N l m T,
  (0 < N)%Z -> 0 < l -> 0 < T -> 
  isometric_relative (C_ideal_isometric N l m T).
Proof. intros N l m T; intros; identities N l T. Qed.

Lemma ideal_isotensional_dimensionless : forall N l m T,
  (0 < N)%Z -> 0 < l -> 0 < T -> 
  isotensional_dimensionless l T (C_ideal_isotensional N l m T).
Proof. intros N l m T; intros; identities N l T. Qed.

Lemma ideal_isotensional_extensive : forall N l m T,
  (0 < N)%Z -> 0 < l -> 0 < T -> 
  isotensional_extensive (IZR N) (C_ideal_isotensional N l m T).
Proof. intros N l m T; intros; identities N l T. Qed.

Lemma ideal_isotensional_relative : forall N l m T,
  (0 < N)%Z -> 0 < l -> 0 < T -> 
  isotensional_relative (C_ideal_isotensional N l m T).
Proof. intros N l m T; intros; identities N l T. Qed.

