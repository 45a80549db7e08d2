(** The Halley iteration behind [lambert_w]: monotone convergence and cubic contraction. *)
From Coq Require Import Reals ZArith QArith Qreals Lra Lia Psatz.
From Coquelicot Require Import Coquelicot.
From Verif Require Import Scalar MMath PErfPoly PErfRows PErfc PBase.
Open Scope R_scope.

Section Step.
Variables (W w : R).
Hypothesis HW : -1 < W.
Hypothesis Hw : -1 < w.
Let x := W * exp W.
Let h := w - W.
Let a := (w + 2) / (2 * (w + 1)).
Let A := w + 1 - a * w.
Let phi (k : R) := w - (w - k) * exp (- k).
Let M (k : R) := k * (w + 1) - phi k * (1 + a * k).
Let D (k : R) := (w + 1) - a * phi k.

Lemma a_pos : 0 < a.
Proof using Hw. unfold a. apply Rdiv_lt_0_compat; lra. Qed.
Lemma a_eq : a * (2 * (w + 1)) = w + 2.
Proof using Hw. unfold a. field. lra. Qed.
Lemma A_pos : 0 < A.
Proof using Hw.
  unfold A. replace (w + 1 - a * w) with ((w * w + 2 * w + 2) / (2 * (w + 1))) by (unfold a; field; lra).
  apply Rdiv_lt_0_compat; nra.
Qed.
Lemma A_eq : A + 1 = a * (2 + w).
Proof using Hw. unfold A, a. field. lra. Qed.

Lemma M_derive : forall k : R, is_derive M k (exp (- k) * (A * (exp k - 1 - k) + a * k ^ 2)).
Proof using Hw.
  intro k. unfold M, phi. auto_derive; [exact I |].
  assert (E : exp (- k) * exp k = 1) by (rewrite <- exp_plus; replace (- k + k) with 0 by ring; apply exp_0).
  replace (exp (- k) * (A * (exp k - 1 - k) + a * k ^ 2)) with (A * (exp (- k) * exp k) + exp (- k) * (A * (- 1 - k) + a * k ^ 2)) by ring.
  rewrite E. unfold A, a. field. lra.
Qed.

Lemma M_slope : forall k, 0 <= exp (- k) * (A * (exp k - 1 - k) + a * k ^ 2).
Proof using Hw.
  intro k. apply Rmult_le_pos; [left; apply exp_pos |].
  pose proof A_pos. pose proof a_pos. pose proof (exp_ineq1_le k). nra.
Qed.

Lemma M_0 : M 0 = 0.
Proof. unfold M, phi. rewrite Ropp_0, exp_0. ring. Qed.

Lemma M_mono : forall k l, k <= l -> M k <= M l.
Proof using Hw.
  intros k l Hkl. destruct (MVT_gen M k l (fun k => exp (- k) * (A * (exp k - 1 - k) + a * k ^ 2))) as [c [_ E]].
  - intros s _. apply M_derive.
  - intros s _. apply continuity_pt_filterlim. apply (ex_derive_continuous (V := R_NormedModule)). eexists. apply M_derive.
  - pose proof (M_slope c). nra.
Qed.
Lemma M_sign_pos : forall k, 0 <= k -> 0 <= M k.
Proof using Hw. intros. rewrite <- M_0. apply M_mono. assumption. Qed.
Lemma M_sign_neg : forall k, k <= 0 -> M k <= 0.
Proof using Hw. intros. rewrite <- M_0. apply M_mono. assumption. Qed.

Lemma phi_h : phi h * exp w = w * exp w - x.
Proof.
  unfold phi, h, x. replace (w - (w - W)) with W by ring.
  replace (exp W) with (exp (- (w - W)) * exp w) by (rewrite <- exp_plus; f_equal; ring). ring.
Qed.

(** t e^t increases to the right of -1. *)
Lemma phi_sign_pos : 0 <= h -> 0 <= phi h.
Proof using HW Hw.
  intro H. unfold phi. replace (w - h) with W by (unfold h; ring).
  pose proof (exp_ineq1_le h) as E. pose proof (exp_pos (- h)) as P.
  assert (I : exp (- h) * exp h = 1) by (rewrite <- exp_plus; replace (- h + h) with 0 by ring; apply exp_0).
  assert (B : exp (- h) * (1 + h) <= 1) by nra.
  destruct (Rle_or_lt 0 W) as [W0 | W0].
  - assert (exp (- h) <= 1) by nra. unfold h in *. nra.
  - (* w - W e^-h with W in (-1,0): w e^h >= W since (1+h) (W+h) >= W *)
    destruct (Rle_or_lt 0 w) as [w0 | w0]; [nra |].
    pose proof (exp_ineq1_le (- h)) as E'. unfold h in *. nra.
Qed.
Lemma phi_sign_neg : h <= 0 -> phi h <= 0.
Proof using HW Hw.
  intro H. unfold phi. replace (w - h) with W by (unfold h; ring).
  pose proof (exp_ineq1_le (- h)) as E. pose proof (exp_pos (- h)) as P.
  destruct (Rle_or_lt 0 W) as [W0 | W0].
  - unfold h in *. nra.
  - (* w e^h <= W *)
    pose proof (exp_ineq1_le h) as E'.
    assert (I : exp (- h) * exp h = 1) by (rewrite <- exp_plus; replace (- h + h) with 0 by ring; apply exp_0).
    assert (w * exp h <= W).
    { assert (1 + h <= exp h) by lra. unfold h in *. nra. }
    assert (w * exp h * exp (- h) <= W * exp (- h)) by nra.
    replace (w * exp h * exp (- h)) with (w * (exp (- h) * exp h)) in H1 by ring. rewrite I in H1. lra.
Qed.

Lemma D_pos : 0 < D h.
Proof using HW Hw.
  unfold D. pose proof a_pos as Ha. destruct (Rle_or_lt h 0) as [H | H].
  - pose proof (phi_sign_neg H). nra.
  - pose proof (phi_sign_pos (Rlt_le _ _ H)) as P. pose proof (M_sign_pos h (Rlt_le _ _ H)) as Q. unfold M in Q.
    assert (0 < 1 + a * h) by nra.
    destruct (Rlt_or_le (a * phi h) (w + 1)) as [L | L]; [lra | exfalso].
    assert ((w + 1) * (1 + a * h) <= a * phi h * (1 + a * h)) by (apply Rmult_le_compat_r; lra). nra.
Qed.

Lemma step_eq : math.lambert_step x w = w - phi h / D h.
Proof using HW Hw.
  unfold math.lambert_step. pose proof D_pos as DP. pose proof (exp_pos w) as E.
  change (w - (w * exp w - x) / (exp w * (w + 1) - (w + 2) * (w * exp w - x) / (2 * w + 2)) = w - phi h / D h).
  rewrite <- phi_h.
  replace (exp w * (w + 1) - (w + 2) * (phi h * exp w) / (2 * w + 2)) with (exp w * D h) by (unfold D, a; field; lra).
  set (d := D h) in *. clearbody d. field. lra.
Qed.

Lemma step_error : math.lambert_step x w - W = M h / D h.
Proof using HW Hw.
  rewrite step_eq. pose proof D_pos as DP.
  replace (M h) with (h * D h - phi h) by (unfold M, D; ring).
  set (d := D h) in *. set (p := phi h). clearbody d p. unfold h. field. lra.
Qed.

(** The step never crosses the root and never moves away from it. *)
Lemma step_above : W <= w -> W <= math.lambert_step x w <= w.
Proof using HW Hw.
  intro H. pose proof D_pos as DP. assert (H0 : 0 <= h) by (unfold h; lra).
  split.
  - pose proof step_error as E. pose proof (M_sign_pos h H0) as Q.
    assert (0 <= M h / D h) by (apply Rdiv_le_0_compat; assumption). lra.
  - rewrite step_eq. assert (0 <= phi h / D h) by (apply Rdiv_le_0_compat; [apply phi_sign_pos |]; assumption). lra.
Qed.
Lemma step_below : w <= W -> w <= math.lambert_step x w <= W.
Proof using HW Hw.
  intro H. pose proof D_pos as DP. assert (H0 : h <= 0) by (unfold h; lra).
  split.
  - rewrite step_eq. pose proof (phi_sign_neg H0) as P.
    assert (0 <= (- phi h) / D h) by (apply Rdiv_le_0_compat; lra).
    replace (phi h / D h) with (- (- phi h / D h)) by (field; lra). lra.
  - pose proof step_error as E. pose proof (M_sign_neg h H0) as Q.
    assert (0 <= (- M h) / D h) by (apply Rdiv_le_0_compat; lra).
    replace (M h / D h) with (- (- M h / D h)) in E by (field; lra). lra.
Qed.

Lemma step_fixed : math.lambert_step x w = w -> w = W.
Proof using HW Hw.
  rewrite step_eq. intro H. pose proof D_pos as DP.
  assert (P : phi h = 0).
  { assert (E : phi h / D h = 0) by lra. replace (phi h) with (phi h / D h * D h) by (field; lra). rewrite E. ring. }
  pose proof step_error as E. rewrite step_eq, P in E.
  assert (EM : M h = h * (w + 1)) by (unfold M; rewrite P; ring).
  assert (ED : D h = w + 1) by (unfold D; rewrite P; ring).
  pose proof phi_h as F. rewrite P in F. rewrite Rmult_0_l in F.
  (* w e^w = W e^W *)
  destruct (Rtotal_order w W) as [L | [L | L]]; [exfalso | exact L | exfalso].
  - pose proof (exp_ineq1 h ltac:(unfold h; lra)) as I1.
    assert (I : exp w * exp (- h) = exp W) by (rewrite <- exp_plus; f_equal; unfold h; ring).
    pose proof (exp_ineq1 (- h) ltac:(unfold h; lra)) as I2. pose proof (exp_pos w) as EP. pose proof (exp_pos W) as EP2. 
    unfold x in F. rewrite <- I in F.
    assert (F2 : w = W * exp (- h)). { apply Rmult_eq_reg_r with (exp w); [lra | lra]. }
    assert (I' : exp (- h) * exp h = 1) by (rewrite <- exp_plus; replace (- h + h) with 0 by ring; apply exp_0).
    destruct (Rle_or_lt 0 W).
    + unfold h in *. nra.
    + assert (F3 : w * exp h = W) by (rewrite F2; replace (W * exp (- h) * exp h) with (W * (exp (- h) * exp h)) by ring; rewrite I'; ring).
      unfold h in *. nra.
  - pose proof (exp_ineq1 h ltac:(unfold h; lra)) as I1.
    assert (I : exp w * exp (- h) = exp W) by (rewrite <- exp_plus; f_equal; unfold h; ring).
    pose proof (exp_ineq1 (- h) ltac:(unfold h; lra)) as I2. pose proof (exp_pos w) as EP. pose proof (exp_pos W) as EP2. 
    unfold x in F. rewrite <- I in F.
    assert (F2 : w = W * exp (- h)). { apply Rmult_eq_reg_r with (exp w); [lra | lra]. }
    assert (I' : exp (- h) * exp h = 1) by (rewrite <- exp_plus; replace (- h + h) with 0 by ring; apply exp_0).
    assert (F3 : w * exp h = W) by (rewrite F2; replace (W * exp (- h) * exp h) with (W * (exp (- h) * exp h)) by ring; rewrite I'; ring).
    destruct (Rle_or_lt 0 w).
    + unfold h in *. nra.
    + unfold h in *. nra.
Qed.

(** Cubic contraction, from above and from below. *)
Lemma exp_neg_upper : forall k, 0 <= k -> exp (- k) <= 1 - k + k ^ 2 / 2.
Proof.
  intros k Hk.
  set (q := fun t : R => 1 - t + t ^ 2 / 2 - exp (- t)).
  destruct (MVT_gen q 0 k (fun t => -1 + t + exp (- t))) as [c [_ E]].
  - intros s _. unfold q. auto_derive; [exact I | field].
  - intros s _. apply continuity_pt_filterlim. apply (ex_derive_continuous (V := R_NormedModule)). unfold q. auto_derive. exact I.
  - pose proof (exp_ineq1_le (- c)). unfold q in E. rewrite Ropp_0, exp_0 in E. nra.
Qed.
Lemma exp_lower2 : forall k, 0 <= k -> 1 + k + k ^ 2 / 2 <= exp k.
Proof.
  intros k Hk.
  set (q := fun t : R => exp t - (1 + t + t ^ 2 / 2)).
  destruct (MVT_gen q 0 k (fun t => exp t - 1 - t)) as [c [_ E]].
  - intros s _. unfold q. auto_derive; [exact I | field].
  - intros s _. apply continuity_pt_filterlim. apply (ex_derive_continuous (V := R_NormedModule)). unfold q. auto_derive. exact I.
  - pose proof (exp_ineq1_le c). unfold q in E. rewrite exp_0 in E. nra.
Qed.

Lemma contraction_above : 0 <= W -> W <= w -> math.lambert_step x w - W <= (w - W) ^ 3.
Proof using HW Hw.
  intros W0 H. rewrite step_error. pose proof D_pos as DP. fold h.
  assert (H0 : 0 <= h) by (unfold h; lra). assert (Wh : w - h = W) by (unfold h; ring).
  pose proof (exp_neg_upper h H0) as EU. pose proof a_pos as AP. pose proof a_eq as AE.
  assert (P1 : (w + 1) * h - (w + 2) * h ^ 2 / 2 + h ^ 3 / 2 <= phi h).
  { unfold phi. rewrite Wh.
    assert (W * exp (- h) <= W * (1 - h + h ^ 2 / 2)) by (apply Rmult_le_compat_l; lra).
    assert (E : w = W + h) by (unfold h; ring). rewrite E. nra. }
  assert (P2 : phi h <= w).
  { unfold phi. rewrite Wh. pose proof (exp_pos (- h)). nra. }
  assert (D1 : (w + 1) / 2 <= D h).
  { unfold D. assert (a * phi h <= a * w) by (apply Rmult_le_compat_l; lra). nra. }
  assert (M1 : M h <= h ^ 3 * ((w + 1) / 2)).
  { unfold M. assert (Q : ((w + 1) * h - (w + 2) * h ^ 2 / 2 + h ^ 3 / 2) * (1 + a * h) <= phi h * (1 + a * h)).
    { apply Rmult_le_compat_r; [| exact P1]. nra. }
    assert (Q2 : h * (w + 1) - ((w + 1) * h - (w + 2) * h ^ 2 / 2 + h ^ 3 / 2) * (1 + a * h)
                 = h ^ 3 * ((w + 2) ^ 2 / (4 * (w + 1)) - 1 / 2) - a * h ^ 4 / 2).
    { unfold a. field. lra. }
    assert (Q3 : (w + 2) ^ 2 / (4 * (w + 1)) - 1 / 2 <= (w + 1) / 2).
    { apply Rmult_le_reg_r with (4 * (w + 1)); [lra |].
      replace (((w + 2) ^ 2 / (4 * (w + 1)) - 1 / 2) * (4 * (w + 1))) with ((w + 2) ^ 2 - 2 * (w + 1)) by (field; lra). nra. }
    assert (0 <= h ^ 3) by (apply pow_le; lra). assert (0 <= h ^ 4) by (apply pow_le; lra).
    assert (0 <= a * h ^ 4) by (apply Rmult_le_pos; lra).
    assert (h ^ 3 * ((w + 2) ^ 2 / (4 * (w + 1)) - 1 / 2) <= h ^ 3 * ((w + 1) / 2)) by (apply Rmult_le_compat_l; lra).
    lra. }
  apply Rmult_le_reg_r with (D h); [exact DP |].
  replace (M h / D h * D h) with (M h) by (field; lra).
  assert (0 <= h ^ 3) by (apply pow_le; lra).
  eapply Rle_trans; [exact M1 |]. apply Rmult_le_compat_l; assumption.
Qed.

Lemma contraction_below : 0 <= w -> w <= W -> W - math.lambert_step x w <= (W - w) ^ 3 / 2.
Proof using HW Hw.
  intros w0 H. replace (W - math.lambert_step x w) with (- (M h / D h)) by (rewrite <- step_error; ring).
  pose proof D_pos as DP. set (k := W - w). assert (Hk : 0 <= k) by (unfold k; lra).
  assert (Eh : h = - k) by (unfold h, k; ring).
  pose proof (exp_lower2 k Hk) as EL. pose proof a_pos as AP. pose proof a_eq as AE.
  assert (A1 : a <= 1) by nra.
  assert (P1 : k * (w + 1) + k ^ 2 * (w + 2) / 2 + k ^ 3 / 2 <= - phi h).
  { unfold phi. rewrite Eh, Ropp_involutive.
    assert ((w + k) * (1 + k + k ^ 2 / 2) <= (w + k) * exp k) by (apply Rmult_le_compat_l; lra).
    replace (w - - k) with (w + k) by ring. nra. }
  set (p := - phi h) in *.
  assert (Dp : D h = w + 1 + a * p) by (unfold D, p; ring).
  assert (Mp : M h = - (k * (w + 1)) + p * (1 - a * k)) by (unfold M, p; rewrite Eh; ring).
  apply Rmult_le_reg_r with (D h); [exact DP |].
  replace (- (M h / D h) * D h) with (- M h) by (field; lra).
  rewrite Mp, Dp.
  assert (C0 : 0 <= 1 - a * k + a * k ^ 3 / 2).
  { assert (0 <= 1 - k + k ^ 3 / 2).
    { assert (E : 1 - k + k ^ 3 / 2 = (k + 2) * (k - 1) ^ 2 / 2 + k / 2) by field. rewrite E.
      pose proof (pow2_ge_0 (k - 1)). nra. }
    assert (0 <= k ^ 3) by (apply pow_le; lra).
    destruct (Rle_or_lt k (k ^ 3 / 2)); nra. }
  assert (Q : (k * (w + 1) + k ^ 2 * (w + 2) / 2 + k ^ 3 / 2) * (1 - a * k + a * k ^ 3 / 2) <= p * (1 - a * k + a * k ^ 3 / 2))
    by (apply Rmult_le_compat_r; assumption).
  assert (Q2 : k * (w + 1) <= (k * (w + 1) + k ^ 2 * (w + 2) / 2 + k ^ 3 / 2) * (1 - a * k + a * k ^ 3 / 2) + k ^ 3 / 2 * (w + 1)).
  { replace ((k * (w + 1) + k ^ 2 * (w + 2) / 2 + k ^ 3 / 2) * (1 - a * k + a * k ^ 3 / 2) + k ^ 3 / 2 * (w + 1))
      with (k * (w + 1) + k ^ 3 * ((w + 2) * w / (4 * (w + 1))) + k ^ 4 * (a * w / 2) + k ^ 5 * (a * (w + 2) / 4) + k ^ 6 * (a / 4))
      by (unfold a; field; lra).
    assert (0 <= (w + 2) * w / (4 * (w + 1))) by (apply Rdiv_le_0_compat; nra).
    assert (0 <= k ^ 3) by (apply pow_le; lra). assert (0 <= k ^ 4) by (apply pow_le; lra).
    assert (0 <= k ^ 5) by (apply pow_le; lra). assert (0 <= k ^ 6) by (apply pow_le; lra).
    assert (0 <= a * w / 2) by nra. assert (0 <= a * (w + 2) / 4) by nra.
    assert (0 <= k ^ 3 * ((w + 2) * w / (4 * (w + 1)))) by (apply Rmult_le_pos; assumption).
    assert (0 <= k ^ 4 * (a * w / 2)) by (apply Rmult_le_pos; assumption).
    assert (0 <= k ^ 5 * (a * (w + 2) / 4)) by (apply Rmult_le_pos; assumption).
    assert (0 <= k ^ 6 * (a / 4)) by (apply Rmult_le_pos; lra). lra. }
  lra.
Qed.
End Step.

(** ** The loop *)

Definition guess (x : R) : R := 75 / 100 * ln (x + 1).
Lemma lambert_R : forall x, math.lambert_w x = Nat.iter (Z.to_nat (math.lambert_iterations x)) (math.lambert_step x) (guess x).
Proof. reflexivity. Qed.

Lemma iter_above : forall W n w, -1 < W -> W <= w -> W <= Nat.iter n (math.lambert_step (W * exp W)) w <= w.
Proof.
  induction n as [| n IH]; intros w HW H; [simpl; lra |].
  specialize (IH w HW H).
  assert (V := step_above W (Nat.iter n (math.lambert_step (W * exp W)) w) HW).
  specialize (V ltac:(lra) ltac:(lra)).
  change (Nat.iter (S n) (math.lambert_step (W * exp W)) w) with (math.lambert_step (W * exp W) (Nat.iter n (math.lambert_step (W * exp W)) w)) in *. lra.
Qed.
Lemma iter_below : forall W n w, -1 < w -> w <= W -> w <= Nat.iter n (math.lambert_step (W * exp W)) w <= W.
Proof.
  induction n as [| n IH]; intros w HW H; [simpl; lra |].
  specialize (IH w HW H).
  assert (V := step_below W (Nat.iter n (math.lambert_step (W * exp W)) w)).
  specialize (V ltac:(lra) ltac:(lra) ltac:(lra)).
  change (Nat.iter (S n) (math.lambert_step (W * exp W)) w) with (math.lambert_step (W * exp W) (Nat.iter n (math.lambert_step (W * exp W)) w)) in *. lra.
Qed.

Lemma lambert_bracket : forall W, -1 < W -> let x := W * exp W in -1 < guess x ->
  Rmin W (guess x) <= math.lambert_w x <= Rmax W (guess x).
Proof.
  intros W HW x Hg. rewrite lambert_R. generalize (Z.to_nat (math.lambert_iterations x)). intro n.
  destruct (Rle_or_lt W (guess x)) as [H | H].
  - rewrite Rmin_left, Rmax_right by lra. apply iter_above; assumption.
  - rewrite Rmin_right, Rmax_left by lra. apply iter_below; lra.
Qed.

(** The product W e^W is above -1/e, where the guess is admissible. *)
Lemma product_lower : forall W, - exp (-1) <= W * exp W.
Proof.
  intro W. pose proof (exp_ineq1_le (- (W + 1))) as E.
  assert (I : exp (W + 1) * exp (- (W + 1)) = 1) by (rewrite <- exp_plus; replace (W + 1 + - (W + 1)) with 0 by ring; apply exp_0).
  pose proof (exp_pos (W + 1)) as P. assert (- W * exp (W + 1) <= 1) by nra.
  replace (exp W) with (exp (-1) * exp (W + 1)) by (rewrite <- exp_plus; f_equal; ring).
  pose proof (exp_pos (-1)). nra.
Qed.
Lemma exp_m1 : exp (-1) <= 1 / 2.
Proof.
  pose proof (exp_ineq1_le 1) as E. assert (I : exp (-1) * exp 1 = 1) by (rewrite <- exp_plus; replace (-1 + 1) with 0 by ring; apply exp_0).
  pose proof (exp_pos (-1)). nra.
Qed.
Lemma guess_ok : forall W, -1 < guess (W * exp W).
Proof.
  intro W. pose proof (product_lower W). pose proof exp_m1. unfold guess.
  assert (L : ln (1 / 2) <= ln (W * exp W + 1)) by (apply ln_le; lra).
  assert (L2 : -1 <= ln (1 / 2)).
  { rewrite <- (ln_exp (-1)). apply ln_le; [apply exp_pos | exact exp_m1]. }
  lra.
Qed.

(** ** Accuracy from a start within 21/20 *)

Lemma iter_cubic_below : forall W n w e, 0 <= w -> w <= W -> W - w <= e -> 0 <= e ->
  W - Nat.iter n (math.lambert_step (W * exp W)) w <= Nat.iter n (fun e => e ^ 3 / 2) e.
Proof.
  intros W n w e Hw HW He He0.
  assert (Pos : forall n, 0 <= Nat.iter n (fun e => e ^ 3 / 2) e).
  { induction n0 as [| m IH]; [exact He0 |].
    change (Nat.iter (S m) (fun e0 => e0 ^ 3 / 2) e) with ((Nat.iter m (fun e0 => e0 ^ 3 / 2) e) ^ 3 / 2).
    assert (0 <= Nat.iter m (fun e0 => e0 ^ 3 / 2) e ^ 3) by (apply pow_le; exact IH). lra. }
  induction n as [| n IH]; [simpl; lra |].
  pose proof (iter_below W n w ltac:(lra) HW) as B.
  change (Nat.iter (S n) (math.lambert_step (W * exp W)) w) with (math.lambert_step (W * exp W) (Nat.iter n (math.lambert_step (W * exp W)) w)).
  change (Nat.iter (S n) (fun e0 => e0 ^ 3 / 2) e) with ((Nat.iter n (fun e0 => e0 ^ 3 / 2) e) ^ 3 / 2).
  set (v := Nat.iter n (math.lambert_step (W * exp W)) w) in *.
  eapply Rle_trans; [apply contraction_below; lra |].
  apply Rmult_le_compat_r; [lra |]. apply pow_incr. lra.
Qed.
Lemma iter_cubic_above : forall W n w e, 0 <= W -> W <= w -> w - W <= e -> 0 <= e ->
  Nat.iter n (math.lambert_step (W * exp W)) w - W <= Nat.iter n (fun e => e ^ 3) e.
Proof.
  intros W n w e Hw HW He He0.
  induction n as [| n IH]; [simpl; lra |].
  pose proof (iter_above W n w ltac:(lra) HW) as B.
  change (Nat.iter (S n) (math.lambert_step (W * exp W)) w) with (math.lambert_step (W * exp W) (Nat.iter n (math.lambert_step (W * exp W)) w)).
  change (Nat.iter (S n) (fun e0 => e0 ^ 3) e) with ((Nat.iter n (fun e0 => e0 ^ 3) e) ^ 3).
  set (v := Nat.iter n (math.lambert_step (W * exp W)) w) in *.
  eapply Rle_trans; [apply contraction_above; lra |].
  apply pow_incr. lra.
Qed.

Lemma Qpow_R : forall n q, Q2R q ^ n = Q2R (Nat.iter n (fun r => Qred (q * r)) 1%Q).
Proof.
  induction n as [| n IH]; intro q; [simpl; rewrite Q2R_1; reflexivity |].
  change (Q2R q * Q2R q ^ n = Q2R (Qred (q * Nat.iter n (fun r => Qred (q * r)) 1%Q))). rewrite IH, Q2R_red, Q2R_mult. reflexivity.
Qed.

Lemma ln3 : ln 3 < 10 / 9.
Proof.
  rewrite <- (ln_exp (10 / 9)). apply ln_increasing; [lra |].
  apply Rlt_le_trans with ((1 + 5 / 18 + (5 / 18) ^ 2 / 2) ^ 4); [lra |].
  replace (10 / 9) with (INR 4 * (5 / 18)) by (simpl; field). rewrite exp_pow.
  apply pow_incr. split; [lra |]. apply exp_lower2. lra.
Qed.

Lemma guess_above : forall W, 0 <= W -> guess (W * exp W) - W <= 1 / 3.
Proof.
  intros W HW. unfold guess. pose proof (exp_ineq1_le W) as E.
  assert (L : ln (W * exp W + 1) <= W + ln (W + 1)).
  { replace (W + ln (W + 1)) with (ln (exp W) + ln (W + 1)) by (rewrite ln_exp; ring).
    rewrite <- ln_mult; [| apply exp_pos | lra]. apply ln_le; [| nra]. pose proof (exp_pos W). nra. }
  assert (L2 : ln (W + 1) <= ln 3 + (W - 2) / 3).
  { replace (W + 1) with (3 * ((W + 1) / 3)) by field. rewrite ln_mult by lra. apply Rplus_le_compat_l.
    rewrite <- (ln_exp ((W - 2) / 3)). apply ln_le; [lra |].
    pose proof (exp_ineq1_le ((W - 2) / 3)). lra. }
  pose proof ln3. lra.
Qed.

Lemma guess_below : forall W, 0 <= W <= 57 / 5 -> W - guess (W * exp W) <= 21 / 20.
Proof.
  intros W [H0 H1]. unfold guess. destruct (Rle_or_lt W 1) as [H | H].
  - assert (0 <= ln (W * exp W + 1)).
    { rewrite <- ln_1. apply ln_le; [lra |]. pose proof (exp_pos W). nra. }
    lra.
  - assert (L : ln W + W <= ln (W * exp W + 1)).
    { replace (ln W + W) with (ln W + ln (exp W)) by (rewrite ln_exp; ring).
      rewrite <- ln_mult; [| lra | apply exp_pos]. apply ln_le; [| lra].
      apply Rmult_lt_0_compat; [lra | apply exp_pos]. }
    (* ln is above its chord between 1 and 57/5 *)
    assert (C : (W - 1) / (52 / 5) * (12 / 5) <= ln W).
    { assert (Chord : forall t, 0 <= t <= 1 -> t * ln (57 / 5) <= ln (1 + t * (52 / 5))).
      { intros t Ht.
        set (q := fun t => ln (1 + t * (52 / 5)) - t * ln (57 / 5)).
        assert (dq : forall t : R, 0 <= t -> is_derive q t (52 / 5 / (1 + t * (52 / 5)) - ln (57 / 5))).
        { intros s Hs. unfold q. auto_derive; [lra | field; lra]. }
        destruct (Rle_or_lt 0 (q t)) as [Q | Q]; [unfold q in Q; lra | exfalso].
        assert (q0 : q 0 = 0) by (unfold q; replace (1 + 0 * (52 / 5)) with 1 by ring; rewrite ln_1; ring).
        assert (q1 : q 1 = 0) by (unfold q; replace (1 + 1 * (52 / 5)) with (57 / 5) by field; ring).
        assert (T0 : 0 < t) by (destruct (Req_dec t 0) as [-> | N]; lra).
        assert (T1 : t < 1) by (destruct (Req_dec t 1) as [-> | N]; lra).
        destruct (MVT_gen q 0 t (fun t => 52 / 5 / (1 + t * (52 / 5)) - ln (57 / 5))) as [c1 [C1 E1]].
        - intros s. rewrite Rmin_left, Rmax_right by lra. intro. apply dq. lra.
        - intros s. rewrite Rmin_left, Rmax_right by lra. intro. apply continuity_pt_filterlim.
          apply (ex_derive_continuous (V := R_NormedModule)). eexists. apply dq. lra.
        - destruct (MVT_gen q t 1 (fun t => 52 / 5 / (1 + t * (52 / 5)) - ln (57 / 5))) as [c2 [C2 E2]].
          + intros s. rewrite Rmin_left, Rmax_right by lra. intro. apply dq. lra.
          + intros s. rewrite Rmin_left, Rmax_right by lra. intro. apply continuity_pt_filterlim.
            apply (ex_derive_continuous (V := R_NormedModule)). eexists. apply dq. lra.
          + rewrite Rmin_left, Rmax_right in C1, C2 by lra. rewrite q0 in E1. rewrite q1 in E2.
            assert (S1 : 52 / 5 / (1 + c1 * (52 / 5)) - ln (57 / 5) < 0) by nra.
            assert (S2 : 0 < 52 / 5 / (1 + c2 * (52 / 5)) - ln (57 / 5)) by nra.
            assert (52 / 5 / (1 + c2 * (52 / 5)) <= 52 / 5 / (1 + c1 * (52 / 5))).
            { unfold Rdiv. apply Rmult_le_compat_l; [lra |]. apply Rinv_le_contravar; lra. }
            lra. }
      specialize (Chord ((W - 1) / (52 / 5)) ltac:(split; lra)).
      replace (1 + (W - 1) / (52 / 5) * (52 / 5)) with W in Chord by field.
      assert (LN : 12 / 5 <= ln (57 / 5)).
      { rewrite <- (ln_exp (12 / 5)). apply ln_le; [apply exp_pos |].
        (* e^(73/30) <= 57/5 : e^(-73/30) >= 5/57 *)
        assert (E1 : (157 / 160) ^ 128 <= exp (- (12 / 5))).
        { replace (- (12 / 5)) with (INR 128 * (- (3 / 160))) by (rewrite INR_IZR_INZ; simpl IZR; field).
          rewrite exp_pow. apply pow_incr. split; [lra |]. pose proof (exp_ineq1_le (- (3 / 160))). lra. }
        assert (E2 : 5 / 57 <= (157 / 160) ^ 128).
        { replace (157 / 160) with (Q2R (157 # 160)) by apply Q2R_frac. rewrite Qpow_R, <- Q2R_frac.
          apply Qle_Rle. vm_compute. discriminate. }
        assert (I : exp (12 / 5) * exp (- (12 / 5)) = 1) by (rewrite <- exp_plus; replace (12 / 5 + - (12 / 5)) with 0 by ring; apply exp_0).
        pose proof (exp_pos (12 / 5)). nra. }
      assert (0 <= (W - 1) / (52 / 5)) by lra. nra. }
    lra.
Qed.

(** For 0 <= x <= 10^6 the four (or more) steps leave an error below 1e-10. *)
Lemma W_range : forall W, 0 <= W * exp W <= 10 ^ 6 -> 0 <= W <= 57 / 5.
Proof.
  intros W [H0 H1]. pose proof (exp_pos W) as P. split; [nra |].
  apply Rnot_lt_le. intro H.
  assert (E : 87800 <= exp (57 / 5)).
  { replace (57 / 5) with (INR 57 * (1 / 5)) by (rewrite INR_IZR_INZ; simpl IZR; field). rewrite exp_pow.
    apply Rle_trans with ((12213 / 10000) ^ 57).
    - replace (12213 / 10000) with (Q2R (12213 # 10000)) by apply Q2R_frac. rewrite Qpow_R.
      replace 87800 with (Q2R (87800 # 1)) by (rewrite Q2R_frac; field). apply Qle_Rle. vm_compute. discriminate.
    - apply pow_incr. split; [lra |].
      replace (1 / 5) with (INR 4 * (1 / 20)) by (simpl; field). rewrite exp_pow.
      apply Rle_trans with ((1 + 1 / 20 + (1 / 20) ^ 2 / 2 ) ^ 4); [lra |]. apply pow_incr. split; [lra | apply exp_lower2; lra]. }
  pose proof (exp_increasing _ _ H). nra.
Qed.

Lemma iterations_ge : forall x : R, (4 <= math.lambert_iterations x)%Z.
Proof. intro x. unfold math.lambert_iterations. lia. Qed.

Lemma iter_shift : forall (A : Type) (f : A -> A) n k a, Nat.iter (n + k) f a = Nat.iter n f (Nat.iter k f a).
Proof. induction n as [| n IH]; intros k a; [reflexivity |]. change (f (Nat.iter (n + k) f a) = f (Nat.iter n f (Nat.iter k f a))). rewrite IH. reflexivity. Qed.

Lemma lambert_accuracy : forall W, let x := W * exp W in 0 <= x <= 10 ^ 6 -> Rabs (math.lambert_w x - W) <= 1 / 10 ^ 10.
Proof.
  intros W x Hx. destruct (W_range W Hx) as [W0 W1]. rewrite lambert_R.
  pose proof (iterations_ge x) as N. set (n := Z.to_nat (math.lambert_iterations x)).
  assert (En : exists m, n = (m + 4)%nat) by (exists (n - 4)%nat; unfold n; lia). destruct En as [m ->].
  rewrite iter_shift.
  assert (G0 : 0 <= guess x).
  { unfold guess. assert (0 <= ln (x + 1)) by (rewrite <- ln_1; apply ln_le; lra). lra. }
  set (g := guess x) in *.
  destruct (Rle_or_lt W g) as [H | H].
  - pose proof (iter_above W 4 g ltac:(lra) H) as B.
    pose proof (iter_cubic_above W 4 g (1 / 3) W0 H (guess_above W W0) ltac:(lra)) as C.
    cbn [Nat.iter nat_rect] in C.
    fold x in B, C. set (v := Nat.iter 4 (math.lambert_step x) g) in *.
    pose proof (iter_above W m v ltac:(lra) (proj1 B)) as B2. fold x in B2.
    rewrite Rabs_pos_eq by lra. apply Rle_trans with (v - W); [lra |]. eapply Rle_trans; [exact C |].
    simpl. lra.
  - pose proof (iter_below W 4 g ltac:(lra) ltac:(lra)) as B.
    pose proof (iter_cubic_below W 4 g (21 / 20) G0 ltac:(lra) (guess_below W ltac:(lra)) ltac:(lra)) as C.
    fold x in B, C. set (v := Nat.iter 4 (math.lambert_step x) g) in *.
    pose proof (iter_below W m v ltac:(lra) (proj2 B)) as B2. fold x in B2.
    rewrite Rabs_left1 by lra. apply Rle_trans with (W - v); [lra |]. eapply Rle_trans; [exact C |].
    simpl. lra.
Qed.

(** ** The number of steps *)
Lemma ceil_spec : forall y, IZR (Int_part (- y)) = - Rceil y.
Proof. intro y. unfold Rceil. ring. Qed.

Lemma ln10_pos : 0 < ln 10.
Proof. rewrite <- ln_1. apply ln_increasing; lra. Qed.

Lemma pow10_ln : forall n, 10 ^ n = exp (INR n * ln 10).
Proof. intro n. rewrite exp_pow, exp_ln by lra. reflexivity. Qed.

Lemma iterations_spec : forall x, 0 < x <= 10 ^ 765 ->
  let n := Z.to_nat (math.lambert_iterations x) in
  (4 <= n)%nat /\ x <= 10 ^ (3 * n) /\ ((4 < n)%nat -> 10 ^ (3 * (n - 1)) < x).
Proof.
  intros x [Hx HL] n. pose proof ln10_pos as LP.
  set (y := ln x / ln 10 / 3).
  assert (Ey : ln x = 3 * y * ln 10) by (unfold y; field; lra).
  assert (Ex : x = exp (3 * y * ln 10)) by (rewrite <- Ey, exp_ln; [reflexivity | exact Hx]).
  set (c := (- Int_part (- y))%Z).
  assert (Hc : IZR c - 1 < y <= IZR c).
  { unfold c. rewrite opp_IZR. destruct (base_Int_part (- y)) as [A B]. lra. }
  assert (Y255 : y <= 255).
  { apply Rnot_lt_le. intro H. rewrite pow10_ln in HL. rewrite Ex in HL.
    apply (Rle_not_lt _ _ HL). apply exp_increasing. apply Rmult_lt_compat_r; [exact LP |].
    rewrite INR_IZR_INZ. simpl IZR. lra. }
  assert (c <= 255)%Z by (assert (c < 256)%Z by (apply lt_IZR; lra); lia).
  assert (En : math.lambert_iterations x = Z.max c 4).
  { unfold math.lambert_iterations.
    assert (E : scast U8_MAX (sceil (slog10 x / sdec 3 0)%S) = Z.max 0 (Z.min 255 c)).
    { change (Rcast U8_MAX (Rceil (ln x / ln 10 / 3)) = Z.max 0 (Z.min 255 c)). fold y. unfold Rcast, Rceil.
      replace (Int_part (- IZR (Int_part (- y)))) with c; [reflexivity |].
      unfold c. rewrite <- opp_IZR. destruct (base_Int_part (IZR (- Int_part (- y)))) as [A B].
      assert (Int_part (IZR (- Int_part (- y))) <= - Int_part (- y))%Z by (apply le_IZR; exact A).
      assert (- Int_part (- y) < Int_part (IZR (- Int_part (- y))) + 1)%Z by (apply lt_IZR; rewrite plus_IZR; lra). lia. }
    rewrite E. lia. }
  unfold n. rewrite En. split; [lia |]. split.
  - rewrite pow10_ln, Ex. destruct (Req_dec (3 * y) (INR (3 * Z.to_nat (Z.max c 4)))) as [-> | N]; [lra |].
    left. apply exp_increasing. apply Rmult_lt_compat_r; [exact LP |].
    assert (3 * y <= INR (3 * Z.to_nat (Z.max c 4))); [| lra].
    rewrite mult_INR, (INR_IZR_INZ (Z.to_nat _)), Z2Nat.id by lia.
    replace (INR 3) with 3 by (simpl; lra).
    assert (IZR c <= IZR (Z.max c 4)) by (apply IZR_le; lia). lra.
  - intro H4. rewrite pow10_ln. pattern x at 1. rewrite Ex. apply exp_increasing. apply Rmult_lt_compat_r; [exact LP |].
    rewrite mult_INR, (INR_IZR_INZ (_ - 1)), Nat2Z.inj_sub, Z2Nat.id by lia.
    replace (INR 3) with 3 by (simpl; lra).
    replace (Z.max c 4 - Z.of_nat 1)%Z with (c - 1)%Z by lia. rewrite minus_IZR. lra.
Qed.

(** ** Every x > -1/e is W e^W for exactly one W > -1 *)

Lemma product_increasing : forall V W, -1 < V < W -> V * exp V < W * exp W.
Proof.
  intros V W H.
  apply (incr_function_le (fun v => v * exp v) (Finite V) (Finite W) (fun v => exp v * (v + 1))).
  - intros v Hv1 Hv2. auto_derive; [exact I | ring].
  - intros v Hv1 Hv2. simpl in Hv1. apply Rmult_lt_0_compat; [apply exp_pos | lra].
  - simpl. lra.
  - lra.
  - simpl. lra.
Qed.
Lemma root_unique : forall V W, -1 < V -> -1 < W -> V * exp V = W * exp W -> V = W.
Proof.
  intros V W HV HW E. destruct (Rtotal_order V W) as [H | [H | H]]; [| exact H |].
  - pose proof (product_increasing V W ltac:(lra)). lra.
  - pose proof (product_increasing W V ltac:(lra)). lra.
Qed.
Lemma root_exists : forall x, - exp (-1) < x -> exists W, -1 < W /\ W * exp W = x.
Proof.
  intros x Hx.
  destruct (IVT_gen (fun w => w * exp w) (-1) (Rmax x 0) x) as [W [HW E]].
  - intro w. apply continuity_pt_filterlim. apply (ex_derive_continuous (fun w => w * exp w)). auto_derive. exact I.
  - pose proof (Rmax_l x 0). pose proof (Rmax_r x 0). rewrite Rmin_left, Rmax_right.
    + split; [lra |]. apply Rle_trans with (Rmax x 0); [lra |].
      pose proof (exp_ineq1_le (Rmax x 0)). nra.
    + pose proof (exp_pos (-1)). pose proof (exp_pos (Rmax x 0)). nra.
    + pose proof (exp_pos (-1)). pose proof (exp_pos (Rmax x 0)). nra.
  - exists W. pose proof (Rmax_r x 0). rewrite Rmin_left, Rmax_right in HW by lra.
    split; [| exact E]. destruct (Req_dec W (-1)) as [-> | n]; lra.
Qed.
Lemma step_fixed_iff : forall W w, -1 < W -> -1 < w -> (math.lambert_step (W * exp W) w = w <-> w = W).
Proof.
  intros W w HW Hw. split; [apply step_fixed; assumption |].
  intros ->. pose proof (step_above W W HW HW (Rle_refl _)). lra.
Qed.
Lemma principal : forall x, - exp (-1) < x ->
  exists W, (-1 < W /\ W * exp W = x) /\ forall V, -1 < V -> V * exp V = x -> V = W.
Proof.
  intros x H. destruct (root_exists x H) as [W [a b]]. exists W. split; [split; assumption |].
  intros V HV E. apply root_unique; [assumption | assumption | congruence].
Qed.
