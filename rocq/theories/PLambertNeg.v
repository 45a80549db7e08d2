(** The accuracy of [lambert_w] at negative arguments, where log-squared links use it. *)
From Coq Require Import Reals ZArith Lra Lia Psatz.
From Coquelicot Require Import Coquelicot.
From Verif Require Import Scalar MMath SpecLinks PBase PLambert.
From Verif Require PSofterLog.
Open Scope R_scope.

Lemma exp_neg_lower : forall k, 0 <= k -> 1 - k + k ^ 2 / 2 - k ^ 3 / 6 <= exp (- k).
Proof.
  intros k Hk. set (q := fun t : R => exp (- t) - (1 - t + t ^ 2 / 2 - t ^ 3 / 6)).
  destruct (MVT_gen q 0 k (fun t => 1 - t + t ^ 2 / 2 - exp (- t))) as [c [Hc E]].
  - intros s _. unfold q. auto_derive; [exact I | field].
  - intros s _. apply continuity_pt_filterlim. apply (ex_derive_continuous (V := R_NormedModule)). unfold q. auto_derive. exact I.
  - rewrite Rmin_left, Rmax_right in Hc by lra. pose proof (exp_neg_upper c ltac:(lra)).
    unfold q in E. rewrite Ropp_0, exp_0 in E. assert (0 <= (1 - c + c ^ 2 / 2 - exp (- c)) * (k - 0)) by (apply Rmult_le_pos; lra). lra.
Qed.

(** What a step gains, from a lower bound of the residual. *)
Lemma criterion : forall W w s, -1 < W -> -1 < w -> W <= w -> 0 <= s ->
  let h := w - W in let p := w - W * exp (- h) in
  s * h * (2 * (w + 1) ^ 2) <= p * (2 * (w + 1) + s * h * (w + 2)) ->
  math.lambert_step (W * exp W) w - W <= (1 - s) * h.
Proof.
  intros W w s HW Hw H Hs h p Hc. rewrite (step_error W w HW Hw). pose proof (D_pos W w HW Hw) as DP. cbv beta in *. fold h in DP |- *.
  replace (w - h) with W in * by (unfold h; ring). fold p in DP |- *. set (a := (w + 2) / (2 * (w + 1))) in *.
  apply Rmult_le_reg_r with (w + 1 - a * p); [exact DP|].
  replace ((h * (w + 1) - p * (1 + a * h)) / (w + 1 - a * p) * (w + 1 - a * p)) with (h * (w + 1) - p * (1 + a * h)) by (field; lra).
  enough (s * h * (w + 1) <= p * (1 + s * h * a)) by lra.
  apply Rmult_le_reg_r with (2 * (w + 1)); [lra|].
  replace (p * (1 + s * h * a) * (2 * (w + 1))) with (p * (2 * (w + 1) + s * h * (w + 2))) by (unfold a; field; lra). lra.
Qed.

Lemma residual_low : forall W h, -1 < W <= 0 -> 0 <= h ->
  h * ((W + 1) * (1 - h / 2 + h ^ 2 / 6) + h * (1 / 2 - h / 6)) <= (W + h) - W * exp (- h).
Proof.
  intros W h HW Hh. pose proof (exp_neg_lower h Hh) as E.
  assert (- W * (1 - h + h ^ 2 / 2 - h ^ 3 / 6) <= - W * exp (- h)) by (apply Rmult_le_compat_l; lra).
  replace (h * ((W + 1) * (1 - h / 2 + h ^ 2 / 6) + h * (1 / 2 - h / 6))) with (W + h - W * (1 - h + h ^ 2 / 2 - h ^ 3 / 6)) by field. lra.
Qed.

(** A step divides the error by 1 / (1 - s) at least, wherever the solution is. *)
Lemma rate : forall W w s H, -1 < W <= 0 -> 0 <= w - W <= H -> H <= 71 / 100 -> 0 <= s <= 2 / 3 -> 2 * s <= (1 / 2 - H / 6) * (2 + s * (1 + H)) ->
  math.lambert_step (W * exp W) w - W <= (1 - s) * (w - W).
Proof.
  intros W w s H HW Hh HH Hs C. apply criterion; try lra. cbv zeta. set (h := w - W) in *. assert (H0 : 0 <= h) by (destruct Hh; assumption).
  assert (Ew : w = W + h) by (unfold h; ring). clearbody h. subst w. set (d := W + 1). assert (Hd : 0 < d) by (unfold d; lra).
  pose proof (residual_low W h HW ltac:(lra)) as L. fold d in L. set (p := W + h - W * exp (- h)) in *.
  assert (P : 1 - h / 2 + h ^ 2 / 6 >= 67 / 100) by nra. set (pp := 1 - h / 2 + h ^ 2 / 6) in *.
  assert (Rr : 38 / 100 <= 1 / 2 - h / 6 <= 1 / 2) by lra.
  assert (PR : 3 / 2 * (1 / 2 - h / 6) <= pp) by (unfold pp; nra).
  set (r := 1 / 2 - h / 6) in *.
  assert (C1 : 2 * s <= r * (2 + s * (1 + h))).
  { apply Rle_trans with (1 := C). unfold r. assert (0 <= (H - h) * (2 - 2 * s + s * (H + h))).
    { apply Rmult_le_pos; [lra|]. assert (0 <= s * (H + h)) by (apply Rmult_le_pos; lra). lra. }
    lra. }
  assert (C2 : 4 * s <= pp * (2 + s * (1 + h)) + r * (2 + s * h)).
  { assert (3 / 2 * r * (2 + s * (1 + h)) <= pp * (2 + s * (1 + h))) by (apply Rmult_le_compat_r; [nra | exact PR]).
    assert (0 <= r * (s * h)) by (apply Rmult_le_pos; [lra | apply Rmult_le_pos; lra]). nra. }
  assert (C3 : 2 * s <= pp * (2 + s * h)).
  { assert (0 <= pp * (s * h)) by (apply Rmult_le_pos; [lra | apply Rmult_le_pos; lra]). lra. }
  replace (W + h + 1) with (d + h) by (unfold d; ring). replace (W + h + 2) with (1 + d + h) by (unfold d; ring).
  assert (B : 0 <= 2 * (d + h) + s * h * (1 + d + h)) by (assert (0 <= s * h * (1 + d + h)) by (apply Rmult_le_pos; [apply Rmult_le_pos; lra | lra]); lra).
  apply Rle_trans with (h * (d * pp + h * r) * (2 * (d + h) + s * h * (1 + d + h))); [|apply Rmult_le_compat_r; assumption].
  replace (s * h * (2 * (d + h) ^ 2)) with (h * (h ^ 2 * (2 * s) + h * d * (4 * s) + d ^ 2 * (2 * s))) by ring.
  replace (h * (d * pp + h * r) * (2 * (d + h) + s * h * (1 + d + h))) with
    (h * (h ^ 2 * (r * (2 + s * (1 + h))) + h * d * (pp * (2 + s * (1 + h)) + r * (2 + s * h)) + d ^ 2 * (pp * (2 + s * h)))) by ring.
  apply Rmult_le_compat_l; [lra|].
  assert (h ^ 2 * (2 * s) <= h ^ 2 * (r * (2 + s * (1 + h)))) by (apply Rmult_le_compat_l; [apply pow2_ge_0 | exact C1]).
  assert (h * d * (4 * s) <= h * d * (pp * (2 + s * (1 + h)) + r * (2 + s * h))) by (apply Rmult_le_compat_l; [apply Rmult_le_pos; lra | exact C2]).
  assert (d ^ 2 * (2 * s) <= d ^ 2 * (pp * (2 + s * h))) by (apply Rmult_le_compat_l; [apply pow2_ge_0 | exact C3]). lra.
Qed.

(** Away from the branch point the contraction is cubic. *)
Lemma cubic : forall W w, -1 < W -> W <= w <= 0 -> math.lambert_step (W * exp W) w - W <= (w - W) * ((w - W) / (w + 1)) ^ 2.
Proof.
  intros W w HW Hw. set (h := w - W). set (d := w + 1). assert (Hd : 0 < d <= 1) by (unfold d; lra). assert (Hh : 0 <= h < d) by (unfold h, d; lra).
  set (q := h / d). assert (Eq : h = q * d) by (unfold q; field; lra).
  assert (Hq : 0 <= q <= 1).
  { split; [apply Rmult_le_pos; [lra | left; apply Rinv_0_lt_compat; lra]|]. apply Rmult_le_reg_r with d; [lra|]. rewrite <- Eq. lra. }
  assert (Hhq : h <= q) by (rewrite Eq; nra).
  replace (h * q ^ 2) with ((1 - (1 - q ^ 2)) * h) by ring. apply criterion; try lra; [nra|]. cbv zeta. fold h.
  pose proof (residual_low W h ltac:(lra) ltac:(lra)) as L. replace (W + h) with w in L by (unfold h; ring).
  set (p := w - W * exp (- h)) in *. replace (W + 1) with (d - h) in L by (unfold d, h; ring). fold d. replace (w + 2) with (d + 1) by (unfold d; ring).
  set (s := 1 - q ^ 2). assert (Hs : 0 <= s <= 1) by (unfold s; nra).
  apply Rle_trans with (h * ((d - h) * (1 - h / 2 + h ^ 2 / 6) + h * (1 / 2 - h / 6)) * (2 * d + s * h * (d + 1))).
  2: { apply Rmult_le_compat_r; [|exact L]. assert (0 <= s * h * (d + 1)) by (apply Rmult_le_pos; [apply Rmult_le_pos; lra | lra]). lra. }
  replace (s * h * (2 * d ^ 2)) with (h * (s * (2 * d ^ 2))) by ring. rewrite Rmult_assoc. apply Rmult_le_compat_l; [lra|].
  set (S := (q + h) / 2). set (Rm := h ^ 2 / 6 + q * h / 3 - q * h ^ 2 / 6).
  replace ((d - h) * (1 - h / 2 + h ^ 2 / 6) + h * (1 / 2 - h / 6)) with (d * (1 - S + Rm)) by (unfold S, Rm; rewrite Eq; field).
  replace (2 * d + s * h * (d + 1)) with (2 * d * (1 + s * S)) by (unfold S; rewrite Eq; field).
  replace (d * (1 - S + Rm) * (2 * d * (1 + s * S))) with (2 * d ^ 2 * ((1 - S + Rm) * (1 + s * S))) by ring.
  rewrite (Rmult_comm s). apply Rmult_le_compat_l; [nra|].
  assert (HS : 0 <= S <= 1) by (unfold S; lra). assert (R0 : 0 <= Rm).
  { unfold Rm. assert (0 <= q * h) by (apply Rmult_le_pos; lra). assert (q * h ^ 2 <= h ^ 2) by nra. pose proof (pow2_ge_0 h). lra. }
  assert (RS : 0 <= Rm * (s * S)) by (apply Rmult_le_pos; [exact R0 | apply Rmult_le_pos; lra]).
  enough (0 <= q ^ 2 * (1 - S) + Rm - s * S ^ 2) by (unfold s in *; nra).
  assert (Q1 : q * h <= q ^ 2) by nra. assert (Q2 : h ^ 2 <= q ^ 2) by nra. assert (Q3 : q * h ^ 2 <= q ^ 2) by nra.
  assert (Q4 : q ^ 2 * S * (1 - S) <= q ^ 2 / 4) by (pose proof (pow2_ge_0 (S - 1 / 2)); pose proof (pow2_ge_0 q); nra).
  replace (q ^ 2 * (1 - S) + Rm - s * S ^ 2) with (q ^ 2 - S ^ 2 + Rm - q ^ 2 * S * (1 - S)) by (unfold s; ring).
  unfold S at 1, Rm. pose proof (pow2_ge_0 q). nra.
Qed.

(** ** The first guess *)
Lemma ln_upper2 : forall t, -1 < t <= 0 -> ln (t + 1) <= t - t ^ 2 / 2.
Proof.
  intros t Ht. set (q := fun t : R => t - t ^ 2 / 2 - ln (t + 1)).
  destruct (MVT_gen q t 0 (fun t => - t ^ 2 / (t + 1))) as [c [Hc E]].
  - intros s Hs. rewrite Rmin_left, Rmax_right in Hs by lra. unfold q. auto_derive; [lra | field; lra].
  - intros s Hs. rewrite Rmin_left, Rmax_right in Hs by lra. apply continuity_pt_filterlim. apply (ex_derive_continuous (V := R_NormedModule)). unfold q. auto_derive. lra.
  - rewrite Rmin_left, Rmax_right in Hc by lra. unfold q in E. rewrite Rplus_0_l, ln_1 in E.
    assert (0 <= c ^ 2 / (c + 1)) by (apply Rmult_le_pos; [apply pow2_ge_0 | left; apply Rinv_0_lt_compat; lra]).
    assert (- c ^ 2 / (c + 1) * (0 - t) <= 0) by (replace (- c ^ 2 / (c + 1)) with (- (c ^ 2 / (c + 1))) by (unfold Rdiv; ring); nra). lra.
Qed.

Lemma guess_gap : forall W, -1 < W <= 0 -> guess (W * exp W) - W <= 71 / 100.
Proof.
  intros W HW. unfold guess. pose proof (product_lower W) as PL.
  assert (EW : exp W <= 1) by (rewrite <- exp_0; destruct (Req_dec W 0) as [-> | ]; [lra | left; apply exp_increasing; lra]).
  pose proof (exp_pos W). assert (X0 : W * exp W <= 0) by nra. pose proof exp_m1.
  pose proof (ln_upper2 (W * exp W) ltac:(lra)) as L.
  set (G := fun W : R => 75 / 100 * (W * exp W - (W * exp W) ^ 2 / 2) - W).
  destruct (MVT_gen G (-1) W (fun c => 75 / 100 * ((1 - c * exp c) * (exp c * (1 + c))) - 1)) as [c [Hc E]].
  - intros s _. unfold G. auto_derive; [exact I | field].
  - intros s _. apply continuity_pt_filterlim. apply (ex_derive_continuous (V := R_NormedModule)). unfold G. auto_derive. exact I.
  - rewrite Rmin_left, Rmax_right in Hc by lra.
    assert (Ec : exp c <= 1) by (rewrite <- exp_0; destruct (Req_dec c 0) as [-> | ]; [lra | left; apply exp_increasing; lra]).
    pose proof (exp_pos c). assert (S1 : 0 <= 1 - c * exp c <= 1 - c) by nra. assert (S2 : 0 <= exp c * (1 + c) <= 1 + c) by nra.
    assert (S3 : (1 - c * exp c) * (exp c * (1 + c)) <= 1) by (apply Rle_trans with ((1 - c) * (1 + c)); [apply Rmult_le_compat; lra | nra]).
    assert (G W <= G (-1)) by nra. unfold G in *.
    pose proof exp_le_3 as E3. assert (I : 1 / 3 <= exp (-1)).
    { replace (exp (-1)) with (/ exp 1) by (symmetry; apply exp_Ropp). unfold Rdiv. rewrite Rmult_1_l. apply Rinv_le_contravar; [apply exp_pos | exact E3]. }
    nra.
Qed.

(** ** Four steps *)
Lemma iter_split : forall (A : Type) (f : A -> A) m n x, Nat.iter (m + n) f x = Nat.iter m f (Nat.iter n f x).
Proof. intros A f m n x. induction m as [| m IH]; [reflexivity|]. simpl. rewrite IH. reflexivity. Qed.

Definition inside (W w : R) : Prop := W <= w <= 0.
Lemma step_inside : forall W w, -1 < W -> inside W w -> inside W (math.lambert_step (W * exp W) w).
Proof. intros W w HW [A B]. destruct (step_above W w HW ltac:(lra) A). split; lra. Qed.

Lemma guess_inside : forall W, -1 < W <= 0 -> inside W (guess (W * exp W)).
Proof.
  intros W HW. split.
  - pose proof (PSofterLog.guess_above (- W) ltac:(lra) ltac:(lra)) as G. rewrite !Ropp_involutive in G. exact G.
  - unfold guess. pose proof (product_lower W). pose proof exp_m1. pose proof (exp_pos W). assert (W * exp W <= 0) by nra.
    assert (ln (W * exp W + 1) <= ln 1) by (apply ln_le; lra). rewrite ln_1 in *. lra.
Qed.

Lemma at_least_four : forall W, -1 < W <= 0 ->
  inside W (math.lambert_w (W * exp W)) /\ math.lambert_w (W * exp W) <= Nat.iter 4 (math.lambert_step (W * exp W)) (guess (W * exp W)).
Proof.
  intros W HW. set (X := W * exp W). rewrite lambert_R. pose proof (iterations_ge X) as I.
  replace (Z.to_nat (math.lambert_iterations X)) with ((Z.to_nat (math.lambert_iterations X) - 4) + 4)%nat by lia.
  generalize (Z.to_nat (math.lambert_iterations X) - 4)%nat. intro m. rewrite iter_split.
  assert (P : inside W (Nat.iter 4 (math.lambert_step X) (guess X))).
  { change (inside W (math.lambert_step X (math.lambert_step X (math.lambert_step X (math.lambert_step X (guess X)))))).
    do 4 (apply step_inside; [apply HW|]). apply guess_inside, HW. }
  set (v := Nat.iter 4 (math.lambert_step X) (guess X)) in *. clearbody v. destruct P as [P0 P1].
  pose proof (iter_above W m v (proj1 HW) P0) as Q. fold X in Q. unfold inside. lra.
Qed.

Lemma third_gap : forall W, -1 < W <= 0 ->
  let w := Nat.iter 3 (math.lambert_step (W * exp W)) (guess (W * exp W)) in inside W w /\ w - W <= 40534 / 1000000.
Proof.
  intros W HW. set (X := W * exp W).
  change (let w := math.lambert_step X (math.lambert_step X (math.lambert_step X (guess X))) in inside W w /\ w - W <= 40534 / 1000000). cbv zeta.
  pose proof (guess_inside W HW) as I0. pose proof (guess_gap W HW) as G0. fold X in I0, G0. set (w0 := guess X) in *.
  pose proof (step_inside W w0 (proj1 HW) I0) as I1. pose proof (rate W w0 (56 / 100) (71 / 100) HW ltac:(unfold inside in *; lra) ltac:(lra) ltac:(lra) ltac:(lra)) as G1. fold X in I1, G1.
  set (w1 := math.lambert_step X w0) in *. assert (G1' : w1 - W <= 3124 / 10000) by lra.
  pose proof (step_inside W w1 (proj1 HW) I1) as I2. pose proof (rate W w1 (625 / 1000) (3124 / 10000) HW ltac:(unfold inside in *; lra) ltac:(lra) ltac:(lra) ltac:(lra)) as G2. fold X in I2, G2.
  set (w2 := math.lambert_step X w1) in *. assert (G2' : w2 - W <= 11715 / 100000) by lra.
  pose proof (step_inside W w2 (proj1 HW) I2) as I3. pose proof (rate W w2 (654 / 1000) (11715 / 100000) HW ltac:(unfold inside in *; lra) ltac:(lra) ltac:(lra) ltac:(lra)) as G3. fold X in I3, G3.
  split; [exact I3 | lra].
Qed.

(** The gap that decides the residual. *)
Lemma near_branch : forall W, -1 < W <= 0 -> let h := math.lambert_w (W * exp W) - W in 0 <= h /\ h <= 1366 / 100000 /\ h * (W + 1 + h) <= 6 / 10000.
Proof.
  intros W HW h. destruct (at_least_four W HW) as [[A _] B]. destruct (third_gap W HW) as [I3 G3]. set (X := W * exp W) in *.
  set (w3 := Nat.iter 3 (math.lambert_step X) (guess X)) in *. change (Nat.iter 4 (math.lambert_step X) (guess X)) with (math.lambert_step X w3) in B. clearbody w3.
  pose proof (rate W w3 (663 / 1000) (40534 / 1000000) HW ltac:(unfold inside in *; lra) ltac:(lra) ltac:(lra) ltac:(lra)) as R4.
  pose proof (cubic W w3 (proj1 HW) I3) as C4. fold X in R4, C4. destruct I3 as [I3 I3']. assert (h0 : 0 <= h) by (unfold h; lra).
  assert (h1 : h <= 337 / 1000 * (w3 - W)) by (unfold h; lra).
  assert (h2 : h <= (w3 - W) * ((w3 - W) / (w3 + 1)) ^ 2) by (unfold h; lra). clearbody h. clear A B R4 C4.
  set (g := w3 - W) in *. set (d := W + 1). assert (Hd : 0 < d) by (unfold d; lra). replace (w3 + 1) with (d + g) in h2 by (unfold d, g; ring).
  assert (Hg : 0 <= g) by (unfold g; lra). clearbody g d. split; [exact h0|]. split; [lra|].
  assert (S1 : h * d <= g ^ 2 / 4).
  { apply Rle_trans with (g * (g / (d + g)) ^ 2 * d); [apply Rmult_le_compat_r; lra|].
    apply Rmult_le_reg_r with ((d + g) ^ 2); [apply pow_lt; lra|].
    replace (g * (g / (d + g)) ^ 2 * d * (d + g) ^ 2) with (g ^ 2 * (g * d)) by (field; lra).
    replace (g ^ 2 / 4 * (d + g) ^ 2) with (g ^ 2 * ((d + g) ^ 2 / 4)) by field.
    apply Rmult_le_compat_l; [apply pow2_ge_0|]. pose proof (pow2_ge_0 (d - g)). lra. }
  assert (S2 : h * h <= (337 / 1000 * g) * (337 / 1000 * g)) by (apply Rmult_le_compat; lra).
  assert (S3 : g ^ 2 <= (40534 / 1000000) ^ 2) by (apply pow_incr; lra). lra.
Qed.

(** Away from the branch point the result is as good as exact. *)
Lemma cubic_ratio : forall W w t t', -2 / 3 <= W <= 0 -> W <= w <= 0 -> 0 <= t -> w - W <= t * - W -> t * (2 * t) ^ 2 <= t' * (1 + 2 * t) ^ 2 ->
  math.lambert_step (W * exp W) w - W <= t' * - W.
Proof.
  intros W w t t' HW Hw Ht H C. apply Rle_trans with (1 := cubic W w ltac:(lra) Hw). set (h := w - W) in *. assert (Hh : 0 <= h) by (unfold h; lra).
  replace (w + 1) with (W + 1 + h) by (unfold h; ring). clearbody h. assert (P : 0 < W + 1 + h) by lra.
  assert (Q : h / (W + 1 + h) <= 2 * t / (1 + 2 * t)).
  { apply Rmult_le_reg_r with ((W + 1 + h) * (1 + 2 * t)); [apply Rmult_lt_0_compat; lra|].
    replace (h / (W + 1 + h) * ((W + 1 + h) * (1 + 2 * t))) with (h * (1 + 2 * t)) by (field; lra).
    replace (2 * t / (1 + 2 * t) * ((W + 1 + h) * (1 + 2 * t))) with (2 * t * (W + 1 + h)) by (field; lra).
    assert (t * - W <= t * (2 * (W + 1))) by (apply Rmult_le_compat_l; lra). lra. }
  assert (Q0 : 0 <= h / (W + 1 + h)) by (apply Rmult_le_pos; [exact Hh | left; apply Rinv_0_lt_compat, P]).
  apply Rle_trans with (t * - W * (2 * t / (1 + 2 * t)) ^ 2).
  - apply Rmult_le_compat; [exact Hh | apply pow2_ge_0 | exact H | apply pow_incr; split; assumption].
  - replace (t * - W * (2 * t / (1 + 2 * t)) ^ 2) with (t * (2 * t) ^ 2 / (1 + 2 * t) ^ 2 * - W) by (field; lra).
    apply Rmult_le_compat_r; [lra|]. assert (0 < (1 + 2 * t) ^ 2) by (apply pow_lt; lra).
    apply Rmult_le_reg_r with ((1 + 2 * t) ^ 2); [assumption|].
    replace (t * (2 * t) ^ 2 / (1 + 2 * t) ^ 2 * (1 + 2 * t) ^ 2) with (t * (2 * t) ^ 2) by (field; lra). exact C.
Qed.

Lemma guess_ratio : forall W, -2 / 3 <= W <= 0 -> guess (W * exp W) - W <= 5 / 8 * - W.
Proof.
  intros W HW. unfold guess. pose proof (product_lower W). pose proof exp_m1.
  assert (L : ln (W * exp W + 1) <= W * exp W).
  { assert (Pz : 0 < W * exp W + 1) by lra. pose proof (exp_ineq1_le (W * exp W)). rewrite <- (ln_exp (W * exp W)) at 2. apply ln_le; [exact Pz | lra]. }
  assert (E : 1 / 2 <= exp W).
  { rewrite <- (Ropp_involutive W). pose proof (exp_neg_lower (- W) ltac:(lra)) as X. set (k := - W) in *. assert (0 <= k <= 2 / 3) by (unfold k; lra). clearbody k.
    apply Rle_trans with (2 := X). nra. }
  assert (W * exp W <= W * (1 / 2)) by nra. nra.
Qed.

Lemma moderate : forall W, -2 / 3 <= W <= 0 -> Rabs (math.lambert_w (W * exp W) - W) <= 2 / 10 ^ 14 * Rabs W.
Proof.
  intros W HW. assert (HW' : -1 < W <= 0) by lra. destruct (at_least_four W HW') as [[A _] B].
  rewrite Rabs_pos_eq by lra. rewrite (Rabs_left1 W) by lra. set (X := W * exp W) in *.
  change (Nat.iter 4 (math.lambert_step X) (guess X)) with (math.lambert_step X (math.lambert_step X (math.lambert_step X (math.lambert_step X (guess X))))) in B.
  pose proof (guess_inside W HW') as I0. pose proof (guess_ratio W HW) as G0. fold X in I0, G0. set (w0 := guess X) in *.
  pose proof (step_inside W w0 (proj1 HW') I0) as I1. pose proof (cubic_ratio W w0 (5 / 8) (194 / 1000) HW I0 ltac:(lra) G0 ltac:(lra)) as G1. fold X in I1, G1. set (w1 := math.lambert_step X w0) in *.
  pose proof (step_inside W w1 (proj1 HW') I1) as I2. pose proof (cubic_ratio W w1 (194 / 1000) (153 / 10000) HW I1 ltac:(lra) G1 ltac:(lra)) as G2. fold X in I2, G2. set (w2 := math.lambert_step X w1) in *.
  pose proof (step_inside W w2 (proj1 HW') I2) as I3. pose proof (cubic_ratio W w2 (153 / 10000) (14 / 1000000) HW I2 ltac:(lra) G2 ltac:(lra)) as G3. fold X in I3, G3. set (w3 := math.lambert_step X w2) in *.
  pose proof (cubic_ratio W w3 (14 / 1000000) (2 / 10 ^ 14) HW I3 ltac:(lra) G3 ltac:(lra)) as G4. fold X in G4. lra.
Qed.

(** ** The force of the link at the stretch found *)
Lemma product_increasing : forall u v, -1 <= u -> u <= v -> u * exp u <= v * exp v.
Proof.
  intros u v Hu H. destruct (MVT_gen (fun t => t * exp t) u v (fun t => (1 + t) * exp t)) as [c [Hc E]].
  - intros s _. auto_derive; [exact I | ring].
  - intros s _. apply continuity_pt_filterlim. apply (ex_derive_continuous (V := R_NormedModule) (fun t : R => t * exp t)). auto_derive. exact I.
  - rewrite Rmin_left, Rmax_right in Hc by lra. pose proof (exp_pos c). assert (0 <= (1 + c) * exp c) by (apply Rmult_le_pos; lra).
    assert (0 <= (1 + c) * exp c * (v - u)) by (apply Rmult_le_pos; lra). lra.
Qed.

Lemma residual_gap : forall W h, 0 <= h -> W + h <= 0 -> exp W * (- W - h * (W + 1 + h)) <= - (W + h) * exp (W + h).
Proof.
  intros W h Hh H. rewrite exp_plus. pose proof (exp_pos W) as P. pose proof (exp_ineq1_le h) as E.
  assert (- (W + h) * (1 + h) <= - (W + h) * exp h) by (apply Rmult_le_compat_l; lra).
  replace (- (W + h) * (exp W * exp h)) with (exp W * (- (W + h) * exp h)) by ring. apply Rmult_le_compat_l; [lra|]. nra.
Qed.

Lemma negative_residual : forall W, -1 < W <= 0 ->
  let X := W * exp W in let w := math.lambert_w X in
  W <= w <= 0 /\ - X * (1 - 1 / 10 ^ 3) <= - (w * exp w) <= - X.
Proof.
  intros W HW X w. destruct (at_least_four W HW) as [I _]. destruct (near_branch W HW) as (h0 & h1 & h2). fold X in I, h0, h1, h2. fold w in I, h0, h1, h2. destruct I as [I I'].
  split; [lra|]. split; [|pose proof (product_increasing W w ltac:(lra) I); fold X in H; lra].
  pose proof (residual_gap W (w - W) h0 ltac:(lra)) as G. replace (W + (w - W)) with w in G by ring. pose proof (exp_pos W) as P.
  apply Rle_trans with (exp W * (- W - (w - W) * (W + 1 + (w - W)))); [|lra].
  replace (- X * (1 - 1 / 10 ^ 3)) with (exp W * (- W * (1 - 1 / 10 ^ 3))) by (unfold X; ring). apply Rmult_le_compat_l; [lra|].
  enough ((w - W) * (W + 1 + (w - W)) <= - W * (1 / 10 ^ 3)) by lra.
  destruct (Rle_or_lt W (-2 / 3)) as [L | L]; [lra|].
  pose proof (moderate W ltac:(lra)) as M. fold X in M. fold w in M. rewrite Rabs_pos_eq in M by lra. rewrite (Rabs_left1 W) in M by lra.
  apply Rle_trans with ((w - W) * 1); [apply Rmult_le_compat_l; lra | lra].
Qed.

Lemma log_stretch : forall kap x, 0 < kap -> 0 <= x < kap * exp (-1) ->
  let lam := 1 / exp (math.lambert_w (- x / kap)) in
  1 <= lam < exp 1 /\ x * (1 - 1 / 10 ^ 3) <= log_squared_bond_force kap lam <= x /\
  (x <= 34 / 100 * kap -> x * (1 - 2 / 10 ^ 14) <= log_squared_bond_force kap lam).
Proof.
  intros kap x Hk Hx lam. set (X := - x / kap) in *.
  assert (EX : x = kap * - X) by (unfold X; field; lra).
  assert (HX : - exp (-1) < X <= 0).
  { split; [apply Rmult_lt_reg_l with kap; [exact Hk | lra]|]. apply Rmult_le_reg_l with kap; [exact Hk | lra]. }
  destruct (root_exists X (proj1 HX)) as (W & HW & EW). pose proof (exp_pos W) as P.
  assert (W0 : W <= 0) by (destruct (Rle_or_lt W 0) as [L | L]; [exact L | exfalso; pose proof (Rmult_lt_0_compat _ _ L P); lra]).
  pose proof (negative_residual W ltac:(lra)) as NR. cbv zeta in NR. rewrite EW in NR. destruct NR as [I [L U]]. set (w := math.lambert_w X) in *.
  assert (El : lam = exp (- w)) by (unfold lam; rewrite exp_Ropp; unfold Rdiv; ring).
  assert (Eb : log_squared_bond_force kap lam = kap * - (w * exp w)).
  { unfold log_squared_bond_force. rewrite El, ln_exp. unfold Rdiv. rewrite <- exp_Ropp, Ropp_involutive. ring. }
  split; [|split].
  - rewrite El. split; [rewrite <- exp_0; destruct (Req_dec w 0) as [-> | ]; [rewrite Ropp_0; lra | left; apply exp_increasing; lra] | apply exp_increasing; lra].
  - rewrite Eb, EX. split; [replace (kap * - X * (1 - 1 / 10 ^ 3)) with (kap * (- X * (1 - 1 / 10 ^ 3))) by ring|]; apply Rmult_le_compat_l; lra.
  - intro B. assert (B' : - X <= 34 / 100) by (apply Rmult_le_reg_l with kap; [exact Hk | lra]).
    assert (Wm : -2 / 3 <= W).
    { destruct (Rle_or_lt (-2 / 3) W) as [Q | Q]; [exact Q | exfalso]. pose proof (product_increasing W (-2 / 3) ltac:(lra) ltac:(lra)) as G. rewrite EW in G.
      pose proof (exp_neg_lower (2 / 3) ltac:(lra)) as E. replace (- (2 / 3)) with (-2 / 3) in E by field.
      pose proof (exp_neg_lower (1 / 3) ltac:(lra)) as E3. assert (E2 : exp (-2 / 3) = exp (- (1 / 3)) * exp (- (1 / 3))) by (rewrite <- exp_plus; f_equal; field). nra. }
    pose proof (moderate W ltac:(lra)) as M. rewrite EW in M. fold w in M. rewrite Rabs_pos_eq in M by lra. rewrite (Rabs_left1 W) in M by lra.
    pose proof (residual_gap W (w - W) ltac:(lra) ltac:(lra)) as G. replace (W + (w - W)) with w in G by ring.
    rewrite Eb, EX. replace (kap * - X * (1 - 2 / 10 ^ 14)) with (kap * (- X * (1 - 2 / 10 ^ 14))) by ring. apply Rmult_le_compat_l; [lra|].
    rewrite <- EW. replace (- (W * exp W) * (1 - 2 / 10 ^ 14)) with (exp W * (- W * (1 - 2 / 10 ^ 14))) by ring.
    apply Rle_trans with (exp W * (- W - (w - W) * (W + 1 + (w - W)))); [|lra]. apply Rmult_le_compat_l; [lra|].
    assert ((w - W) * (W + 1 + (w - W)) <= (w - W) * 1) by (apply Rmult_le_compat_l; lra). lra.
Qed.
