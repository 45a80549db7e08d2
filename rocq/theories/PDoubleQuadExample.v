(** An integrand that meets the hypotheses. *)
From Coq Require Import Reals ZArith Lra Lia Floats Psatz List.
From Coquelicot Require Import Coquelicot.
From Flocq Require Import Core BinarySingleNaN PrimFloat.
From Verif Require Import Scalar F64 MMath SpecDouble PDouble PDoubleFjc PDoubleQuad.
From Coq Require Import Floats.
Open Scope R_scope.

Lemma square_computes : computes (fun x => (x * x)%float) (fun y => y * y) (value zero) (value one)
  (7 * unit_roundoff * (Rabs (value zero) + Rabs (value one))) (/ 2 ^ 48).
Proof.
  rewrite value_zero, value_one, Rabs_R0, Rabs_R1, Rplus_0_l, Rmult_1_r. intros x y Fx Hy D.
  rewrite Rmin_left, Rmax_right in Hy by lra. apply abs_bounds in D. pose proof u_pos as U.
  assert (X : -1 <= value x <= 2) by lra.
  assert (B : Rabs (value x * value x) <= 4) by (rewrite Rabs_pos_eq by nra; nra).
  destruct (mul_raw x x Fx Fx) as [F V].
  { apply Rle_trans with (1 := B). apply Rle_trans with (bpow radix2 2); [change (bpow radix2 2) with 4; lra|apply bpow_le; lia]. }
  split; [exact F|]. rewrite V. destruct (rnd_abs (value x * value x)) as (e & d & E1 & E2 & E3). rewrite E3.
  assert (T : bpow radix2 (-1075) <= / 2 ^ 60).
  { apply Rle_trans with (bpow radix2 (-60)); [apply bpow_le; lia|]. change (bpow radix2 (-60)) with (/ 1152921504606846976). lra. }
  apply abs_bounds in E1, E2.
  assert (Ex : exists t, value x = y + t /\ - (7 * unit_roundoff) <= t <= 7 * unit_roundoff) by (exists (value x - y); split; [ring|exact D]).
  destruct Ex as (t & Et & Dt). rewrite Et.
  assert (UU : unit_roundoff = / 9007199254740992) by (unfold unit_roundoff; lra).
  replace ((y + t) * (y + t) * (1 + e) + d - y * y) with (2 * (y * t) + t * t + (y + t) * (y + t) * e + d) by ring.
  assert (A1 : - (7 * unit_roundoff) <= y * t <= 7 * unit_roundoff) by (split; nra).
  assert (A2 : 0 <= t * t <= unit_roundoff) by (split; nra).
  assert (A3 : 0 <= (y + t) * (y + t) <= 4) by (split; nra).
  assert (A4 : - (4 * unit_roundoff) <= (y + t) * (y + t) * e <= 4 * unit_roundoff) by (set (z := (y + t) * (y + t)) in *; clearbody z; split; nra).
  apply Rabs_le. rewrite UU in *. lra.
Qed.

Lemma square_integral : forall L : libm,
  Rabs (value (@math.integrate_1d float (F64 L) (fun x => (x * x)%float) zero one 1000) - RInt (fun y => y * y) 0 1) <= / 10000000.
Proof.
  intro L. destruct (integral_error L zero one 1000) with (f := fun x => (x * x)%float) (g := fun y => y * y) (g1 := fun y => 2 * y) (g2 := fun _ : R => 2)
    (B := 1) (eps := / 2 ^ 48) (M := 2) as [_ E]; rewrite ?value_zero, ?value_one.
  - vm_compute. exact I.
  - exact finite_one.
  - rewrite Rabs_R0, pw. apply bpow_ge_0.
  - rewrite Rabs_R1, pw. change 1 with (bpow radix2 0). apply bpow_le. lia.
  - rewrite pw, Rminus_0_r. change 1 with (bpow radix2 0). apply bpow_le. lia.
  - lia.
  - pose proof square_computes as S. rewrite value_zero, value_one in S. exact S.
  - intros y Hy. split; [rewrite Rabs_pos_eq by nra; nra|]. split; [auto_derive; [exact I|ring]|]. split; [auto_derive; [exact I|ring]|]. rewrite Rabs_pos_eq; lra.
  - rewrite pw. apply Rle_trans with (bpow radix2 1); [change (bpow radix2 1) with 2; lra|apply bpow_le; lia].
  - rewrite value_zero, value_one in E. apply Rle_trans with (1 := E). rewrite pw.
    assert (T : bpow radix2 (-1075) <= / 2 ^ 60).
    { apply Rle_trans with (bpow radix2 (-60)); [apply bpow_le; lia|]. change (bpow radix2 (-60)) with (/ 1152921504606846976). lra. }
    unfold unit_roundoff. rewrite Rminus_0_r. lra.
Qed.
