(** Two integrands that meet the hypotheses. *)
From Coq Require Import Reals ZArith Lra Lia Floats Psatz List.
From Coquelicot Require Import Coquelicot.
From Flocq Require Import Core BinarySingleNaN PrimFloat.
From Verif Require Import Scalar F64 MMath SpecDouble PDouble PDoubleFjc PDoubleQuad PDoubleQuadExample PDoubleContour PDoubleMono.
From Coq Require Import Floats.
Open Scope R_scope.

Lemma square_below : forall x, finite x -> value zero <= value x <= value one -> PrimFloat.leb (x * x) x = true.
Proof.
  intros x Fx Hx. rewrite value_zero, value_one in Hx.
  destruct (mul_raw x x Fx Fx) as [F V].
  { rewrite Rabs_pos_eq by nra. apply Rle_trans with (bpow radix2 0); [change (bpow radix2 0) with 1; nra|apply bpow_le; lia]. }
  apply leb_value; [exact F | exact Fx |]. rewrite V. apply Rle_trans with (rnd (value x)); [apply rnd_mono; nra | right; apply rnd_value].
Qed.

Lemma unit_limits : finite zero /\ finite one /\ Rabs (value zero) <= powerRZ 2 400 /\ Rabs (value one) <= powerRZ 2 400 /\ powerRZ 2 (-900) <= value one - value zero.
Proof.
  rewrite value_zero, value_one, Rabs_R0, Rabs_R1, !pw, Rminus_0_r. split; [vm_compute; exact I|]. split; [exact finite_one|]. split; [apply bpow_ge_0|].
  split; change 1 with (bpow radix2 0); apply bpow_le; lia.
Qed.

Lemma unit_finite : forall (L : libm) (f : float -> float) (g : R -> R) eps, computes f g (value zero) (value one)
  (7 * unit_roundoff * (Rabs (value zero) + Rabs (value one))) eps -> (forall y, 0 <= y <= 1 -> Rabs (g y) <= 1) -> eps <= 1 ->
  finite (@math.integrate_1d float (F64 L) f zero one 1000).
Proof.
  intros L f g eps C B E. destruct unit_limits as (F0 & F1 & B0 & B1 & W).
  destruct (quadrature_error L zero one 1000 F0 F1 B0 B1) with (f := f) (g := g) (B := 1) (eps := eps) as [F _]; try assumption.
  - apply Rle_trans with (1 := W). apply Rle_abs.
  - lia.
  - intros y Hy. rewrite value_zero, value_one, Rmin_left, Rmax_right in Hy by lra. apply B. exact Hy.
  - rewrite pw. apply Rle_trans with (bpow radix2 1); [change (bpow radix2 1) with 2; lra | apply bpow_le; lia].
Qed.

Lemma example_finite : forall L : libm, finite (@math.integrate_1d float (F64 L) (fun x => (x * x)%float) zero one 1000) /\
  finite (@math.integrate_1d float (F64 L) (fun x => x) zero one 1000).
Proof.
  intro L. split.
  - apply unit_finite with (g := fun y => y * y) (eps := / 2 ^ 48); [exact square_computes | | lra]. intros y Hy. rewrite Rabs_pos_eq by nra. nra.
  - apply unit_finite with (g := fun y => y) (eps := / 2 ^ 48); [| | lra]; [|intros y Hy; rewrite Rabs_pos_eq; lra].
    intros x y Fx _ D. split; [exact Fx|]. rewrite value_zero, value_one, Rabs_R0, Rabs_R1 in D. apply Rle_trans with (1 := D). unfold unit_roundoff. lra.
Qed.
