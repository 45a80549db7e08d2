(** Mirror symmetry of the worm-like chain: where it holds and where it does not. *)
From Coq Require Import Reals ZArith List Lra Lia Psatz.
From Coquelicot Require Import Coquelicot.
From Verif Require Import Scalar MMath MConst MWlc.
From Verif Require Import SpecThermo SpecChains SpecReverse SpecBessel PBase PConjWlc PConjWlcBound PReverse PReverseOther.
From Verif Require PIdealDist PBessel PBesselAccuracy.
Open Scope R_scope.

Lemma flexible_argument : forall z x, 0 < z <= 4 / 10 -> inner x -> small_argument z x.
Proof.
  intros z x Hz [Hx H0]. split; [exact H0|]. unfold PConjWlc.wlc_bessel_argument. pose proof (scale_bound z Hz) as S.
  assert (X2 : x ^ 2 < 1) by nra. assert (H : 776 / 1000 < 1 - (473 / 1000) ^ 2 * x ^ 2) by nra.
  set (h := 1 - (473 / 1000) ^ 2 * x ^ 2) in *. clearbody h. set (s := wlc_bessel_scale z) in *. clearbody s.
  assert (A : Rabs (x / h) <= 1289 / 1000).
  { unfold Rdiv. rewrite Rabs_mult, Rabs_inv, (Rabs_right h) by lra.
    apply Rmult_le_reg_r with h; [lra|]. rewrite Rmult_assoc, Rinv_l, Rmult_1_r by lra.
    assert (Rabs x <= 1) by (apply Rabs_le; lra). lra. }
  rewrite Rabs_mult. assert (Rabs s <= 6) by (apply Rabs_le; lra). pose proof (Rabs_pos s). pose proof (Rabs_pos (x / h)).
  apply Rle_lt_trans with (6 * (1289 / 1000)); [|lra]. apply Rmult_le_compat; assumption.
Qed.

Lemma wlc_flexible : forall N l m T p, (0 < N)%Z -> 0 < l -> 0 < T -> 0 < p -> p <= 4 / 10 * (IZR N * l) ->
  isometric_reverses_on inner (IZR N * l) (C_wlc_isometric N l m T p).
Proof.
  intros N l m T p HN Hl HT Hp H. apply reverses_mono with (D := small_argument (zeta p N l)); [|apply wlc_isometric; assumption].
  intros x Hx. apply flexible_argument; [|exact Hx]. unfold zeta.
  assert (0 < IZR N * l) by (apply Rmult_lt_0_compat; [apply IZR_lt, HN|exact Hl]).
  split; [apply Rdiv_lt_0_compat; assumption|]. apply Rmult_le_reg_r with (IZR N * l); [assumption|]. unfold Rdiv. rewrite Rmult_assoc, Rinv_l by lra. lra.
Qed.

Lemma stiff_scale : forall z, 5 <= z -> wlc_bessel_scale z <= - 80.
Proof.
  intros z Hz. unfold wlc_bessel_scale. destruct (Rlt_dec z (125 / 1000)); [lra|].
  assert (P : 2 <= Rpowf (z - 111 / 1000) (783 / 1000)).
  { rewrite PIdealDist.Rpowf_pos by lra. apply Rle_trans with (Rpower (z - 111 / 1000) (1 / 2)); [|apply Rle_Rpower; lra].
    replace (1 / 2) with (/ 2) by field. rewrite Rpower_sqrt by lra. rewrite <- (sqrt_pow2 2) by lra. apply sqrt_le_1_alt. lra. }
  assert (Q : 0 < 177 / 1000 / (z - 111 / 1000)) by (apply Rdiv_lt_0_compat; lra).
  set (w := 177 / 1000 / (z - 111 / 1000) + 64 / 10 * Rpowf (z - 111 / 1000) (783 / 1000)) in *.
  assert (W : 64 / 5 <= w) by (unfold w; lra). clearbody w.
  assert (I : 1 / w <= 1 / 10). { unfold Rdiv. rewrite !Rmult_1_l. apply Rinv_le_contravar; lra. }
  nra.
Qed.

Lemma stiff_argument : forall z x, 5 <= z -> 1 / 2 <= x < 1 -> wlc_bessel_argument z x <= - 40.
Proof.
  intros z x Hz Hx. unfold wlc_bessel_argument. pose proof (stiff_scale z Hz) as S. set (s := wlc_bessel_scale z) in *. clearbody s.
  assert (H : 0 < 1 - (473 / 1000) ^ 2 * x ^ 2 < 1) by nra. set (h := 1 - (473 / 1000) ^ 2 * x ^ 2) in *. clearbody h.
  assert (1 / 2 <= x / h). { apply Rmult_le_reg_r with h; [lra|]. unfold Rdiv. rewrite (Rmult_assoc x), Rinv_l by lra. nra. }
  nra.
Qed.

Lemma bessel_gap : forall y, y <= - 40 -> ln (math.bessel_i 0 y) + 1 <= ln (math.bessel_i 0 (- y)).
Proof.
  intros y Hy. destruct (PBessel.I0_exists y) as [v Hv]. destruct (PBessel.i0_far y v Hy Hv) as [P F].
  assert (Hv' : is_I0 (- y) v). { unfold is_I0 in *. replace ((- y) ^ 2) with (y ^ 2) by ring. exact Hv. }
  destruct (PBesselAccuracy.i0_large_accurate (- y) v ltac:(lra) Hv') as [_ A]. apply Rabs_le_between in A.
  pose proof (PConjWlcBound.i0_positive y ltac:(lra)) as G. rewrite <- (ln_exp 1) at 1. rewrite <- ln_mult; [|lra | apply exp_pos].
  apply Rcomplements.ln_le; [apply Rmult_lt_0_compat; [lra | apply exp_pos]|]. pose proof exp_le_3. pose proof (exp_pos 1). nra.
Qed.

Lemma worm_stiff : forall N l m T z x, 5 <= z -> 1 / 2 <= x < 1 ->
  wlc_isometric.nondimensional_helmholtz_free_energy N l m z (- x) T + 1 <= wlc_isometric.nondimensional_helmholtz_free_energy N l m z x T.
Proof.
  intros N l m T z x Hz Hx. pose proof (bessel_gap _ (stiff_argument z x Hz Hx)) as G.
  pose proof (argument_opp z x) as AO.
  unfold wlc_isometric.nondimensional_helmholtz_free_energy. unR. rewrite !wlc_scale_eq.
  change (wlc_bessel_scale z * (x / (1 - (473 / 1000) ^ 2 * x ^ 2))) with (wlc_bessel_argument z x).
  change (wlc_bessel_scale z * (- x / (1 - (473 / 1000) ^ 2 * (- x) ^ 2))) with (wlc_bessel_argument z (- x)).
  rewrite AO. replace ((- x) ^ 2) with (x ^ 2) by ring. set (y := wlc_bessel_argument z x) in *. clearbody y.
  replace (- y * (473 / 1000) * - x) with (y * (473 / 1000) * x) by ring.
  lra.
Qed.
