(** The order of two numerical integrals over a rectangle in double precision. *)
From Coq Require Import Reals ZArith Lra Lia Floats Psatz List.
From Coquelicot Require Import Coquelicot.
From Flocq Require Import Core Relative Plus_error BinarySingleNaN PrimFloat.
From Verif Require Import Scalar F64 MMath SpecDouble PDouble PQuad PDoubleFjc PDoubleQuad PDoubleContour PDoubleMono.
From Coq Require Import Floats.
Import ListNotations.
Open Scope R_scope.

Lemma times_mono : forall x x' y, finite (x * y)%float -> finite (x' * y)%float -> 0 <= value y -> value x <= value x' -> value (x * y)%float <= value (x' * y)%float.
Proof.
  intros x x' y F F' U V. destruct (mul_back _ _ F) as (_ & _ & E), (mul_back _ _ F') as (_ & _ & E'). rewrite E, E'.
  apply rnd_mono, Rmult_le_compat_r; assumption.
Qed.

Lemma square_nonneg : forall x, 0 <= value (x * x)%float.
Proof.
  intro x. rewrite value_B2R, mul_equiv. pose proof (Bmult_correct FloatOps.prec emax Hprec Hmax mode_NE (Prim2B x) (Prim2B x)) as C.
  destruct (Rlt_bool _ _).
  - destruct C as [C _]. rewrite C, <- rnd_0. apply rnd_mono. apply Rle_0_sqr.
  - destruct (Bmult mode_NE (Prim2B x) (Prim2B x)); try discriminate C. apply Rle_refl.
Qed.

Lemma table_order : forall (f g : float -> float -> float) gx gy, (forall x y, In x gx -> In y gy -> PrimFloat.leb (f x y) (g x y) = true) ->
  Forall2 (fun x y => PrimFloat.leb x y = true) (flat_map (fun x => map (fun y => f x y) gy) gx) (flat_map (fun x => map (fun y => g x y) gy) gx).
Proof.
  intros f g gx gy H. induction gx as [|x l IH]; cbn; [constructor|]. apply Forall2_app.
  - assert (H' : forall y, In y gy -> PrimFloat.leb (f x y) (g x y) = true) by (intros y Hy; apply H; [left; reflexivity | exact Hy]).
    clear IH H. induction gy as [|y m IH]; cbn; constructor; [apply H'; left; reflexivity|]. apply IH. intros z Hz. apply H'. right. exact Hz.
  - apply IH. intros x' y Hx Hy. apply H; [right; exact Hx | exact Hy].
Qed.

Section Lib.
Variable L : libm.
Local Instance S : Scalar float := F64 L.

Definition limits (a b : float) : Prop := finite a /\ finite b /\ Rabs (value a) <= powerRZ 2 400 /\ Rabs (value b) <= powerRZ 2 400 /\ powerRZ 2 (-900) <= value b - value a.

Lemma rectangle_mono : forall (a b c d : float) (n : Z), limits a b -> limits c d -> (1 <= n <= 2 ^ 49)%Z ->
  forall f g : float -> float -> float,
  (forall x y, finite x -> finite y -> value a <= value x <= value b -> value c <= value y <= value d -> PrimFloat.leb (f x y) (g x y) = true) ->
  finite (@math.integrate_2d float S f a b c d n) -> finite (@math.integrate_2d float S g a b c d n) ->
  PrimFloat.leb (@math.integrate_2d float S f a b c d n) (@math.integrate_2d float S g a b c d n) = true.
Proof.
  intros a b c d n (A1 & A2 & A3 & A4 & A5) (B1 & B2 & B3 & B4 & B5) N f g H F F'. apply leb_value; [exact F | exact F' |].
  destruct (dx_nonneg a b n A1 A2 A3 A4 A5 N) as [Fx Dx]. destruct (dx_nonneg c d n B1 B2 B3 B4 B5 N) as [Fy Dy].
  apply leb_value in Dx; [|vm_compute; exact I | exact Fx]. apply leb_value in Dy; [|vm_compute; exact I | exact Fy]. rewrite value_zero in Dx, Dy.
  unfold math.integrate_2d in F, F' |- *. cbv zeta in F, F' |- *.
  destruct (mul_back _ _ F) as (F1 & _ & _), (mul_back _ _ F') as (F1' & _ & _). apply times_mono; [exact F | exact F' | exact Dy |].
  destruct (mul_back _ _ F1) as (F2 & _ & _), (mul_back _ _ F1') as (F2' & _ & _). apply times_mono; [exact F1 | exact F1' | exact Dx |].
  assert (SF : forall l, @ssum float S l = fold_left PrimFloat.add l zero) by exact (sum_fold L). rewrite SF in F2. rewrite SF in F2'. rewrite !SF.
  apply fold_mono; [|exact F2 | exact F2' | apply Rle_refl]. apply table_order. intros x y Hx Hy.
  destruct (points_between L a b n A1 A2 A3 A4 A5 N x Hx). destruct (points_between L c d n B1 B2 B3 B4 B5 N y Hy). apply H; assumption.
Qed.

Lemma square_mono : forall (a b : float) (n : Z), limits a b -> (1 <= n <= 2 ^ 49)%Z ->
  forall f g : float -> float -> float,
  (forall x y, finite x -> finite y -> value a <= value x <= value b -> value a <= value y <= value b -> PrimFloat.leb (f x y) (g x y) = true) ->
  finite (@math.integrate_2d_symmetric float S f a b n) -> finite (@math.integrate_2d_symmetric float S g a b n) ->
  PrimFloat.leb (@math.integrate_2d_symmetric float S f a b n) (@math.integrate_2d_symmetric float S g a b n) = true.
Proof.
  intros a b n (A1 & A2 & A3 & A4 & A5) N f g H F F'. apply leb_value; [exact F | exact F' |].
  unfold math.integrate_2d_symmetric in F, F' |- *. cbv zeta in F, F' |- *.
  destruct (mul_back _ _ F) as (F1 & _ & _), (mul_back _ _ F') as (F1' & _ & _). apply times_mono; [exact F | exact F' | exact (square_nonneg _) |].
  assert (SF : forall l, @ssum float S l = fold_left PrimFloat.add l zero) by exact (sum_fold L). rewrite SF in F1. rewrite SF in F1'. rewrite !SF.
  apply fold_mono; [|exact F1 | exact F1' | apply Rle_refl]. apply table_order. intros x y Hx Hy.
  destruct (points_between L a b n A1 A2 A3 A4 A5 N x Hx). destruct (points_between L a b n A1 A2 A3 A4 A5 N y Hy). apply H; assumption.
Qed.
End Lib.
