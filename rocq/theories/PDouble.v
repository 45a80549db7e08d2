(** Rounding errors of the operations on doubles. *)
From Coq Require Import Reals ZArith Lra Lia Floats.
From Flocq Require Import Core Relative Plus_error BinarySingleNaN PrimFloat.
From Verif Require Import SpecDouble.
Open Scope R_scope.

Notation rnd := (round radix2 (SpecFloat.fexp FloatOps.prec emax) ZnearestE).

Lemma value_B2R : forall x, value x = B2R (Prim2B x).
Proof.
  intro x. unfold value. rewrite <- B2SF_Prim2B. destruct (Prim2B x) as [s|s| |s m e H]; try reflexivity.
  change (B2SF (B754_finite s m e H)) with (S754_finite s m e).
  change (B2R (B754_finite s m e H)) with (IZR (cond_Zopp s (Zpos m)) * bpow radix2 e).
  rewrite bpow_powerRZ. change (IZR radix2) with 2. destruct s; cbn [cond_Zopp]; [rewrite opp_IZR|]; ring.
Qed.

Lemma finite_B : forall x, finite x <-> is_finite (Prim2B x) = true.
Proof.
  intro x. unfold finite. rewrite <- B2SF_Prim2B. destruct (Prim2B x) as [s|s| |s m e H]; cbn; intuition; discriminate.
Qed.

Lemma ub : / 2 * bpow radix2 (- FloatOps.prec + 1) = unit_roundoff.
Proof. unfold unit_roundoff, FloatOps.prec. cbn. lra. Qed.

Lemma big : bpow radix2 1023 < bpow radix2 emax.
Proof. apply bpow_lt. reflexivity. Qed.

Lemma rnd_big : forall x, Rabs x <= bpow radix2 1023 -> Rabs (rnd x) < bpow radix2 emax.
Proof.
  intros x H. apply Rle_lt_trans with (bpow radix2 1023); [|exact big].
  apply abs_round_le_generic; [apply fexp_correct; reflexivity|apply valid_rnd_N| |exact H].
  apply generic_format_bpow. cbn. lia.
Qed.

(** [2^-1022 <= |z|]: no underflow. *)
Lemma rnd_rel : forall x, bpow radix2 (-1022) <= Rabs x -> exists e, Rabs e <= unit_roundoff /\ rnd x = x * (1 + e).
Proof.
  intros x H. destruct (relative_error_N_FLT_ex radix2 (-1074) FloatOps.prec eq_refl (fun z => negb (Z.even z)) x) as [e [E1 E2]].
  - exact H.
  - exists e. rewrite ub in E1. split; [exact E1|exact E2].
Qed.

Lemma rnd_abs : forall x, exists e d, Rabs e <= unit_roundoff /\ Rabs d <= bpow radix2 (-1075) /\ rnd x = x * (1 + e) + d.
Proof.
  intro x. destruct (error_N_FLT radix2 (-1074) FloatOps.prec eq_refl (fun z => negb (Z.even z)) x) as (e & d & E1 & E2 & _ & E3).
  exists e, d. rewrite ub in E1. split; [exact E1|]. split; [|exact E3].
  replace (bpow radix2 (-1075)) with (/ 2 * bpow radix2 (-1074)); [exact E2|].
  replace (-1074)%Z with (1 + -1075)%Z by reflexivity. rewrite bpow_plus. cbn -[bpow].
  change (bpow radix2 1) with 2. lra.
Qed.

Lemma div_raw : forall x y, finite x -> value y <> 0 -> Rabs (value x / value y) <= bpow radix2 1023 ->
  finite (x / y) /\ value (x / y)%float = rnd (value x / value y).
Proof.
  intros x y Fx Hy B. rewrite !value_B2R in *. rewrite finite_B in *. rewrite div_equiv.
  pose proof (Bdiv_correct FloatOps.prec emax Hprec Hmax mode_NE (Prim2B x) (Prim2B y) Hy) as C.
  rewrite Rlt_bool_true in C by (apply rnd_big; exact B). destruct C as (C1 & C2 & _).
  split; [rewrite C2; exact Fx|exact C1].
Qed.

Lemma mul_raw : forall x y, finite x -> finite y -> Rabs (value x * value y) <= bpow radix2 1023 ->
  finite (x * y) /\ value (x * y)%float = rnd (value x * value y).
Proof.
  intros x y Fx Fy B. rewrite !value_B2R in *. rewrite finite_B in *. rewrite mul_equiv.
  pose proof (Bmult_correct FloatOps.prec emax Hprec Hmax mode_NE (Prim2B x) (Prim2B y)) as C.
  rewrite Rlt_bool_true in C by (apply rnd_big; exact B). destruct C as (C1 & C2 & _).
  split; [rewrite C2, Fx, Fy; reflexivity|exact C1].
Qed.

Lemma add_raw : forall x y, finite x -> finite y -> Rabs (value x + value y) <= bpow radix2 1023 ->
  finite (x + y) /\ value (x + y)%float = rnd (value x + value y).
Proof.
  intros x y Fx Fy B. rewrite !value_B2R in *. rewrite finite_B in *. rewrite add_equiv.
  pose proof (Bplus_correct FloatOps.prec emax Hprec Hmax mode_NE (Prim2B x) (Prim2B y) Fx Fy) as C.
  rewrite Rlt_bool_true in C by (apply rnd_big; exact B). destruct C as (C1 & C2 & _).
  split; [exact C2|exact C1].
Qed.

Lemma sub_raw : forall x y, finite x -> finite y -> Rabs (value x - value y) <= bpow radix2 1023 ->
  finite (x - y) /\ value (x - y)%float = rnd (value x - value y).
Proof.
  intros x y Fx Fy B. rewrite !value_B2R in *. rewrite finite_B in *. rewrite sub_equiv.
  pose proof (Bminus_correct FloatOps.prec emax Hprec Hmax mode_NE (Prim2B x) (Prim2B y) Fx Fy) as C.
  rewrite Rlt_bool_true in C by (apply rnd_big; exact B). destruct C as (C1 & C2 & _).
  split; [exact C2|exact C1].
Qed.

Lemma format_value : forall x, generic_format radix2 (FLT_exp (-1074) FloatOps.prec) (value x).
Proof. intro x. rewrite value_B2R. apply generic_format_B2R. Qed.

Lemma sum_rel : forall x y, exists e, Rabs e <= unit_roundoff /\ rnd (value x + value y) = (value x + value y) * (1 + e).
Proof.
  intros x y. assert (P : Prec_gt_0 FloatOps.prec) by reflexivity.
  destruct (FLT_plus_error_N_ex radix2 (-1074) FloatOps.prec (fun z => negb (Z.even z)) (value x) (value y)) as [e [E1 E2]];
    try apply format_value.
  exists e. split; [|exact E2].
  apply Rle_trans with (1 := E1). unfold u_ro. rewrite ub. unfold unit_roundoff.
  apply Rle_trans with (/ 2 ^ 53 / 1); [|lra]. apply Rmult_le_compat_l; [lra|]. apply Rinv_le; lra.
Qed.
