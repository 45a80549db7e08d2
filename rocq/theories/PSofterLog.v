(** Halley's method for the Lambert function is monotone, and with it the stretch of a log-squared link. *)
From Coq Require Import Reals ZArith List Lra Lia Psatz.
From Coquelicot Require Import Coquelicot.
From Verif Require Import Scalar MMath MConst MFjc MLogSquared.
From Verif Require Import SpecSofter PBase PHyp PStability PLambert PSofter.
Open Scope R_scope.

Local Notation fjc := (@fjc_isotensional.nondimensional_end_to_end_length_per_link R R_scalar).
Local Notation log_squared := (@log_squared_isotensional_asymptotic.nondimensional_end_to_end_length_per_link R R_scalar).
Local Notation log_squared_reduced := (@log_squared_isotensional_asymptotic_reduced.nondimensional_end_to_end_length_per_link R R_scalar).

Definition halley_den (X w : R) : R := exp w * (w + 1) - (w + 2) * (w * exp w - X) / (2 * w + 2).

Lemma step_R : forall X w : R, math.lambert_step X w = w - (w * exp w - X) / halley_den X w.
Proof. reflexivity. Qed.

Lemma den_pos : forall W w, -1 < W -> -1 < w -> 0 < halley_den (W * exp W) w.
Proof.
  intros W w HW Hw. pose proof (D_pos W w HW Hw) as D. pose proof (phi_h W w) as P. cbv zeta in *. unfold halley_den.
  rewrite <- P. set (q := w - (w - (w - W)) * exp (- (w - W))) in *.
  replace (exp w * (w + 1) - (w + 2) * (q * exp w) / (2 * w + 2)) with (exp w * ((w + 1) - (w + 2) / (2 * (w + 1)) * q)) by (field; lra).
  apply Rmult_lt_0_compat; [apply exp_pos | exact D].
Qed.

Lemma step_mono_start : forall W w w', -1 < W -> -1 < w -> w <= w' -> math.lambert_step (W * exp W) w <= math.lambert_step (W * exp W) w'.
Proof.
  intros W w w' HW Hw H. destruct (Req_dec w w') as [-> | N]; [lra|]. set (X := W * exp W).
  destruct (MVT_cor2 (fun w => w - (w * exp w - X) / halley_den X w)
    (fun w => (w * exp w - X) ^ 2 * (w ^ 2 + 4 * w + 6) / (4 * (w + 1) ^ 2 * halley_den X w ^ 2)) w w' ltac:(lra)) as (c & E & Hc).
  { intros c Hc. apply is_derive_Reals. pose proof (den_pos W c HW ltac:(lra)) as D. fold X in D.
    assert (Z : halley_den X c <> 0) by lra. unfold halley_den in Z |- *.
    auto_derive; [repeat split; [lra | exact Z]|].
    set (e := exp c) in *. clearbody e.
    assert (Z' : 2 * (e * (c + 1) ^ 2) - (c + 2) * (c * e - X) <> 0).
    { intro A. apply Z. replace (e * (c + 1) - (c + 2) * (c * e - X) / (2 * c + 2)) with ((2 * (e * (c + 1) ^ 2) - (c + 2) * (c * e - X)) / (2 * (c + 1))) by (field; lra).
      rewrite A. field. lra. }
    clear Z D. field. repeat split; try lra; intro A; apply Z'; lra. }
  rewrite !step_R. cbv beta in E. pose proof (den_pos W c HW ltac:(lra)) as D. fold X in D.
  assert (0 <= (c * exp c - X) ^ 2 * (c ^ 2 + 4 * c + 6) / (4 * (c + 1) ^ 2 * halley_den X c ^ 2) * (w' - w)); [|lra].
  apply Rmult_le_pos; [|lra]. apply Rmult_le_pos; [apply Rmult_le_pos; [apply pow2_ge_0 | nra]|].
  left. apply Rinv_0_lt_compat. apply Rmult_lt_0_compat; [|apply pow_lt, D]. apply Rmult_lt_0_compat; [lra | apply pow_lt; lra].
Qed.

Lemma step_mono_target : forall W W' w, -1 < W -> W < W' -> -1 < w -> math.lambert_step (W * exp W) w < math.lambert_step (W' * exp W') w.
Proof.
  intros W W' w HW H Hw. pose proof (product_increasing W W' ltac:(lra)) as P. rewrite !step_R.
  pose proof (den_pos W w HW Hw) as D. pose proof (den_pos W' w ltac:(lra) Hw) as D'.
  set (X := W * exp W) in *. set (X' := W' * exp W') in *. clearbody X X'.
  enough ((w * exp w - X') / halley_den X' w < (w * exp w - X) / halley_den X w) by lra.
  apply Rmult_lt_reg_r with (halley_den X w * halley_den X' w); [apply Rmult_lt_0_compat; assumption|].
  replace ((w * exp w - X') / halley_den X' w * (halley_den X w * halley_den X' w)) with ((w * exp w - X') * halley_den X w) by (field; lra).
  replace ((w * exp w - X) / halley_den X w * (halley_den X w * halley_den X' w)) with ((w * exp w - X) * halley_den X' w) by (field; lra).
  apply Rminus_gt_0_lt.
  replace ((w * exp w - X) * halley_den X' w - (w * exp w - X') * halley_den X w) with (exp w * (w + 1) * (X' - X)) by (unfold halley_den; field; lra).
  apply Rmult_lt_0_compat; [apply Rmult_lt_0_compat; [apply exp_pos | lra] | lra].
Qed.

Lemma iter_mono : forall W W' n g g', -1 < W -> W < W' -> W <= g -> W' <= g' -> g < g' ->
  Nat.iter n (math.lambert_step (W * exp W)) g < Nat.iter n (math.lambert_step (W' * exp W')) g'.
Proof.
  intros W W' n g g' HW H Hg Hg' G. induction n as [| n IH]; [exact G|].
  change (math.lambert_step (W * exp W) (Nat.iter n (math.lambert_step (W * exp W)) g) < math.lambert_step (W' * exp W') (Nat.iter n (math.lambert_step (W' * exp W')) g')).
  destruct (iter_above W n g HW Hg) as [A _]. destruct (iter_above W' n g' ltac:(lra) Hg') as [A' _].
  set (a := Nat.iter n (math.lambert_step (W * exp W)) g) in *. set (a' := Nat.iter n (math.lambert_step (W' * exp W')) g') in *. clearbody a a'.
  apply Rle_lt_trans with (math.lambert_step (W * exp W) a'); [apply step_mono_start; lra|].
  apply step_mono_target; lra.
Qed.

Lemma guess_above : forall p, 0 <= p -> p < 1 -> - p <= 75 / 100 * ln (- p * exp (- p) + 1).
Proof.
  intros p Hp H1. assert (E : forall q, 0 <= q -> exp (- q) <= / (1 + q)).
  { intros q Hq. rewrite exp_Ropp. apply Rinv_le_contravar; [lra | apply exp_ineq1_le]. }
  assert (B : / (1 + 4 / 3 * p) <= - p * exp (- p) + 1).
  { pose proof (E p Hp) as A. assert (p * exp (- p) <= p * / (1 + p)) by (apply Rmult_le_compat_l; assumption).
    replace (p * / (1 + p)) with (1 - / (1 + p)) in H by (field; lra).
    assert (/ (1 + 4 / 3 * p) <= / (1 + p)) by (apply Rinv_le_contravar; lra). lra. }
  assert (C : - (4 / 3 * p) <= ln (- p * exp (- p) + 1)).
  { rewrite <- (ln_exp (- (4 / 3 * p))). apply Rcomplements.ln_le; [apply exp_pos|]. pose proof (E (4 / 3 * p) ltac:(lra)). lra. }
  lra.
Qed.

Lemma ln_neg : forall x, x <= 0 -> ln x = 0.
Proof. intros x H. unfold ln. destruct (Rlt_dec 0 x) as [L | L]; [exfalso; lra | reflexivity]. Qed.

Lemma lambert_mono : forall X X', - exp (-1) < X -> X < X' -> X' <= 0 -> math.lambert_w X < math.lambert_w X'.
Proof.
  intros X X' H H' N. destruct (root_exists X H) as (W & HW & E). destruct (root_exists X' ltac:(lra)) as (W' & HW' & E').
  assert (O : W < W').
  { destruct (Rlt_or_le W W') as [L | L]; [exact L|]. exfalso. destruct (Req_dec W' W) as [Q | Q]; [rewrite Q in *; lra|].
    pose proof (product_increasing W' W ltac:(lra)). lra. }
  assert (N' : W' <= 0).
  { destruct (Rle_or_lt W' 0) as [L | L]; [exact L|]. exfalso. pose proof (exp_pos W'). assert (0 < W' * exp W') by (apply Rmult_lt_0_compat; assumption). lra. }
  assert (I : math.lambert_iterations X = math.lambert_iterations X').
  { unfold math.lambert_iterations. 
    change (slog10 X) with (ln X / ln 10). change (slog10 X') with (ln X' / ln 10). rewrite (ln_neg X), (ln_neg X') by lra. reflexivity. }
  rewrite !lambert_R, I, <- E, <- E'.
  assert (G : forall V, -1 < V -> V <= 0 -> V <= 75 / 100 * ln (V * exp V + 1)).
  { intros V A B. pose proof (guess_above (- V) ltac:(lra) ltac:(lra)) as Q. rewrite !Ropp_involutive in Q. exact Q. }
  apply iter_mono; [exact HW | exact O | apply G; lra | apply G; lra|].
  change (75 / 100 * ln (W * exp W + 1) < 75 / 100 * ln (W' * exp W' + 1)). rewrite E, E'. apply Rmult_lt_compat_l; [lra|].
  apply ln_increasing; [|lra]. pose proof (exp_increasing (-1) 0 ltac:(lra)) as Q. rewrite exp_0 in Q. lra.
Qed.

(** A log-squared link bears forces up to kap / e. *)
Lemma log_squared_stretch_softer : forall k k' x, 0 < k -> k < k' -> 0 < x -> x < k * exp (-1) ->
  1 / exp (math.lambert_w (- x / k')) < 1 / exp (math.lambert_w (- x / k)).
Proof.
  intros k k' x Hk H Hx B. pose proof (ratio_lt k k' x Hk H Hx) as R.
  assert (x / k < exp (-1)) by (apply Rmult_lt_reg_r with k; [exact Hk|]; replace (x / k * k) with x by (field; lra); lra).
  assert (L : math.lambert_w (- x / k) < math.lambert_w (- x / k')).
  { replace (- x / k) with (- (x / k)) by (field; lra). replace (- x / k') with (- (x / k')) by (field; lra). apply lambert_mono; lra. }
  apply exp_increasing in L. apply (ratio_lt _ _ 1 (exp_pos _) L). lra.
Qed.

Lemma log_squared_softer : shorter_with log_squared_bears log_squared.
Proof.
  intros k k' x Hk H Hx B. pose proof (log_squared_stretch_softer k k' x Hk H Hx B).
  change (stiff_length k' (4 / 10) x + 1 / exp (math.lambert_w (- x / k')) - 1 < stiff_length k (4 / 10) x + 1 / exp (math.lambert_w (- x / k)) - 1).
  pose proof (stiff_le k k' (4 / 10) (4 / 10) x Hk H ltac:(lra) ltac:(lra) ltac:(lra) ltac:(lra)). lra.
Qed.

Lemma log_squared_reduced_softer : shorter_with log_squared_bears log_squared_reduced.
Proof.
  intros k k' x Hk H Hx B. pose proof (log_squared_stretch_softer k k' x Hk H Hx B).
  change (fjc x + 1 / exp (math.lambert_w (- x / k')) - 1 < fjc x + 1 / exp (math.lambert_w (- x / k)) - 1). lra.
Qed.
