(** Accuracy of [erfcx] on the non-negative axis.

    The scaled complementary error function [Y] solves Y' = 2 x Y - 2/sqrt(pi), an
    equation whose errors decay towards the origin. Every branch of the model is
    compared with it through its residual. *)
From Coq Require Import Reals ZArith QArith Qabs Qreals List Lra Lia Psatz.
From Coquelicot Require Import Coquelicot.
From Verif Require Import Scalar MErfcx MMath SpecGauss SpecErf PGauss PErfPoly PPi PBase.
Import ListNotations.
Open Scope R_scope.

Definition C2 : R := 2 / sqrt PI.
Definition Y (x : R) : R := exp (x ^ 2) * (1 - C2 * G x).

Lemma C2_pos : 0 < C2.
Proof. unfold C2. apply Rdiv_lt_0_compat; [lra | apply sqrt_lt_R0, PI_RGT_0]. Qed.
Lemma C2_bound : Rabs (C2 - 11283791670955126 / 10000000000000000) <= 1 / 10000000000000000.
Proof. exact two_over_sqrt_pi. Qed.
Lemma C2_approx : 1128 / 1000 < C2 < 1129 / 1000.
Proof. pose proof C2_bound as H. apply Rabs_le_between in H. lra. Qed.

Lemma Y_derive : forall x, is_derive Y x (2 * x * Y x - C2).
Proof.
  intro x. unfold Y.
  assert (HG := G_derive x).
  evar_last.
  - apply (is_derive_mult (fun x => exp (x ^ 2)) (fun x => 1 - C2 * G x) x (2 * x * exp (x ^ 2)) (- C2 * g x)).
    + auto_derive; [exact I | simpl; ring].
    + evar_last.
      * apply (is_derive_minus (V := R_NormedModule) (fun _ => 1) (fun x => C2 * G x) x 0 (C2 * g x)).
        { apply (is_derive_const (V := R_NormedModule)). }
        { apply is_derive_scal. exact HG. }
      * unfold minus, plus, opp; simpl. ring.
    + intros n m. apply Rmult_comm.
  - unfold plus, mult; simpl. unfold g.
    assert (E : exp (x ^ 2) * exp (- x ^ 2) = 1) by (rewrite <- exp_plus; replace (x ^ 2 + - x ^ 2) with 0 by ring; apply exp_0).
    replace (x * (x * 1)) with (x ^ 2) by ring.
    replace (exp (x ^ 2) * (- C2 * exp (- x ^ 2))) with (- C2 * (exp (x ^ 2) * exp (- x ^ 2))) by ring.
    rewrite E. ring.
Qed.

Lemma Y_0 : Y 0 = 1.
Proof. unfold Y. rewrite G_0. replace (0 ^ 2) with 0 by ring. rewrite exp_0. ring. Qed.

Section Compare.
Variables (f df : R -> R) (a rho : R).
Hypothesis Ha : 0 <= a.
Hypothesis Hrho : 0 <= rho.

Let u (s : R) : R := (f s - Y s) * exp (a ^ 2 - s ^ 2).
Let du (s : R) : R := (df s - 2 * s * f s + C2) * exp (a ^ 2 - s ^ 2).

Lemma u_derive : forall s : R, is_derive f s (df s) -> is_derive u s (du s).
Proof.
  intros s Hf. unfold u, du. evar_last.
  - apply (is_derive_mult (fun s => f s - Y s) (fun s => exp (a ^ 2 - s ^ 2)) s (df s - (2 * s * Y s - C2)) (- 2 * s * exp (a ^ 2 - s ^ 2))).
    + apply (is_derive_minus (V := R_NormedModule) f Y); [exact Hf | apply Y_derive].
    + auto_derive; [exact I |]. replace (a * (a * 1) + - (s * (s * 1))) with (a ^ 2 - s ^ 2) by ring. ring.
    + intros n m. apply Rmult_comm.
  - unfold plus, mult; simpl. ring.
Qed.

Lemma decay_le_1 : forall s, a <= s -> exp (a ^ 2 - s ^ 2) <= 1.
Proof using Ha.
  intros s Hs. rewrite <- exp_0. destruct (Req_dec (a ^ 2 - s ^ 2) 0) as [-> | H]; [lra |].
  left. apply exp_increasing. nra.
Qed.

Lemma u_at_a : u a = f a - Y a.
Proof. unfold u. replace (a ^ 2 - a ^ 2) with 0 by ring. rewrite exp_0. ring. Qed.

Lemma segment : forall b, a <= b ->
  (forall s, a <= s <= b -> is_derive f s (df s)) ->
  (forall s, a <= s <= b -> Rabs (df s - 2 * s * f s + C2) <= rho) ->
  Rabs (f a - Y a) <= Rabs (f b - Y b) + rho * (b - a).
Proof using Ha Hrho.
  intros b Hab Hd Hr.
  destruct (MVT_gen u a b du) as [c [Hc E]].
  - intros s. rewrite Rmin_left, Rmax_right by lra. intro. apply u_derive, Hd. lra.
  - intros s. rewrite Rmin_left, Rmax_right by lra. intro.
    apply continuity_pt_filterlim. apply (ex_derive_continuous (V := R_NormedModule)). exists (du s).
    apply u_derive, Hd. lra.
  - rewrite Rmin_left, Rmax_right in Hc by lra. rewrite <- u_at_a.
    replace (u a) with (u b - du c * (b - a)) by lra.
    eapply Rle_trans; [apply Rabs_triang |]. apply Rplus_le_compat.
    + unfold u. rewrite Rabs_mult, (Rabs_pos_eq (exp _)) by (left; apply exp_pos).
      rewrite <- Rmult_1_r. apply Rmult_le_compat_l; [apply Rabs_pos | apply decay_le_1; lra].
    + rewrite Rabs_Ropp, Rabs_mult, (Rabs_pos_eq (b - a)) by lra.
      apply Rmult_le_compat_r; [lra |]. unfold du.
      rewrite Rabs_mult, (Rabs_pos_eq (exp _)) by (left; apply exp_pos).
      pose proof (exp_pos (a ^ 2 - c ^ 2)). pose proof (decay_le_1 c (proj1 Hc)).
      pose proof (Hr c Hc). pose proof (Rabs_pos (df c - 2 * c * f c + C2)). nra.
Qed.

Lemma u_lim : forall M, (forall s, a <= s -> Rabs (f s) <= M) ->
  forall eps, 0 < eps -> exists b, a <= b /\ Rabs (u b) < eps.
Proof using Ha.
  intros M HM eps He.
  assert (L1 : is_lim (fun b => M * exp (a ^ 2) * exp (- b ^ 2) + exp (a ^ 2) * Rabs (1 - C2 * G b)) p_infty 0).
  { replace (Finite 0) with (Rbar_plus (Finite (M * exp (a ^ 2) * 0)) (Finite (exp (a ^ 2) * 0))) by (simpl; f_equal; ring).
    apply (is_lim_plus _ _ _ (Finite (M * exp (a ^ 2) * 0)) (Finite (exp (a ^ 2) * 0))); [| | reflexivity].
    - apply (is_lim_scal_l _ (M * exp (a ^ 2)) p_infty (Finite 0)). apply exp_sq_lim.
    - apply (is_lim_scal_l _ (exp (a ^ 2)) p_infty (Finite 0)).
      replace (Finite 0) with (Rbar_abs (Finite 0)) by (simpl; rewrite Rabs_R0; reflexivity).
      unfold is_lim. eapply filterlim_comp; [| apply (filterlim_Rabs (Finite 0))]. fold (is_lim (fun b => 1 - C2 * G b) p_infty 0).
      replace (Finite 0) with (Rbar_minus (Finite 1) (Finite (C2 * (sqrt PI / 2)))).
      + apply (is_lim_minus _ _ _ (Finite 1) (Finite (C2 * (sqrt PI / 2)))); [apply is_lim_const | | reflexivity].
        apply (is_lim_scal_l _ C2 p_infty (Finite (sqrt PI / 2))). apply G_lim.
      + simpl. f_equal. unfold C2. assert (0 < sqrt PI) by (apply sqrt_lt_R0, PI_RGT_0).
        match goal with |- ?x = ?y => change (@eq R x y) end. field. lra. }
  apply is_lim_spec in L1. destruct (L1 (mkposreal eps He)) as [X HX].
  exists (Rmax a (X + 1)). split; [apply Rmax_l |].
  pose proof (Rmax_r a (X + 1)) as B1. pose proof (Rmax_l a (X + 1)) as B2.
  set (b := Rmax a (X + 1)) in *.
  specialize (HX b ltac:(lra)). simpl in HX. rewrite Rminus_0_r in HX.
  eapply Rle_lt_trans; [| exact (Rle_lt_trans _ _ _ (Rle_abs _) HX)].
  unfold u, Y. replace (b * (b * 1)) with (b ^ 2) by ring. replace (a * (a * 1)) with (a ^ 2) by ring.
  replace ((f b - exp (b ^ 2) * (1 - C2 * G b)) * exp (a ^ 2 - b ^ 2))
    with (f b * exp (a ^ 2) * exp (- b ^ 2) - exp (a ^ 2) * (1 - C2 * G b)).
  - eapply Rle_trans; [apply Rabs_triang |]. rewrite Rabs_Ropp, !Rabs_mult.
    rewrite (Rabs_pos_eq (exp (a ^ 2))), (Rabs_pos_eq (exp (- b ^ 2))) by (left; apply exp_pos).
    apply Rplus_le_compat_r. apply Rmult_le_compat_r; [left; apply exp_pos |].
    apply Rmult_le_compat_r; [left; apply exp_pos |]. apply HM. exact B2.
  - replace (a ^ 2 - b ^ 2) with (a ^ 2 + - b ^ 2) by ring. rewrite exp_plus.
    assert (E : exp (b ^ 2) * exp (- b ^ 2) = 1) by (rewrite <- exp_plus; replace (b ^ 2 + - b ^ 2) with 0 by ring; apply exp_0).
    replace ((f b - exp (b ^ 2) * (1 - C2 * G b)) * (exp (a ^ 2) * exp (- b ^ 2)))
      with (f b * exp (a ^ 2) * exp (- b ^ 2) - exp (a ^ 2) * (1 - C2 * G b) * (exp (b ^ 2) * exp (- b ^ 2))) by ring.
    rewrite E. ring.
Qed.

Lemma tail_side : forall sgn b, (sgn = 1 \/ sgn = -1) -> 1 <= a -> a <= b ->
  (forall s, a <= s -> is_derive f s (df s)) ->
  (forall s, a <= s -> Rabs (df s - 2 * s * f s + C2) <= rho) ->
  sgn * u a <= rho + sgn * u b.
Proof using Ha Hrho.
  intros sgn b Hs H1 Hab Hd Hr.
  set (v := fun s => sgn * u s - rho * exp (a - s)).
  destruct (MVT_gen v a b (fun s => sgn * du s + rho * exp (a - s))) as [c [Hc E]].
  - intros s. rewrite Rmin_left, Rmax_right by lra. intro. unfold v. evar_last.
    + apply (is_derive_minus (V := R_NormedModule) (fun s => sgn * u s) (fun s => rho * exp (a - s)) s (sgn * du s) (- rho * exp (a - s))).
      * apply is_derive_scal. apply u_derive, Hd. lra.
      * auto_derive; [exact I | unfold Rminus; ring].
    + unfold minus, plus, opp; simpl. ring.
  - intros s. rewrite Rmin_left, Rmax_right by lra. intro.
    apply continuity_pt_filterlim. apply (ex_derive_continuous (V := R_NormedModule)). unfold v.
    apply (ex_derive_minus (V := R_NormedModule) (fun s => sgn * u s) (fun s => rho * exp (a - s))).
    + apply ex_derive_scal. exists (du s). apply u_derive, Hd. lra.
    + auto_derive. exact I.
  - rewrite Rmin_left, Rmax_right in Hc by lra.
    assert (P : 0 <= sgn * du c + rho * exp (a - c)).
    { assert (Rabs (du c) <= rho * exp (a - c)).
      { unfold du. rewrite Rabs_mult, (Rabs_pos_eq (exp _)) by (left; apply exp_pos).
        apply Rmult_le_compat; [apply Rabs_pos | left; apply exp_pos | apply Hr; lra |].
        destruct (Req_dec (a ^ 2 - c ^ 2) (a - c)) as [-> | N]; [lra |].
        left. apply exp_increasing.
        assert (a ^ 2 - c ^ 2 <= a - c) by nra. lra. }
      apply Rabs_le_between in H. destruct Hs as [-> | ->]; lra. }
    assert (V : v a <= v b) by nra.
    unfold v in V. replace (a - a) with 0 in V by ring. rewrite exp_0 in V.
    pose proof (exp_pos (a - b)). nra.
Qed.

Lemma tail : forall M, 1 <= a ->
  (forall s, a <= s -> is_derive f s (df s)) ->
  (forall s, a <= s -> Rabs (df s - 2 * s * f s + C2) <= rho) ->
  (forall s, a <= s -> Rabs (f s) <= M) ->
  Rabs (f a - Y a) <= rho.
Proof using Ha Hrho.
  intros M H1 Hd Hr HM. rewrite <- u_at_a.
  assert (K : forall eps, 0 < eps -> Rabs (u a) <= rho + eps).
  { intros eps He. destruct (u_lim M HM eps He) as [b [Hb Hu]].
    apply Rabs_def2 in Hu.
    pose proof (tail_side 1 b (or_introl eq_refl) H1 Hb Hd Hr).
    pose proof (tail_side (-1) b (or_intror eq_refl) H1 Hb Hd Hr).
    apply Rabs_le. lra. }
  apply Rnot_lt_le. intro H. specialize (K ((Rabs (u a) - rho) / 2)). lra.
Qed.
End Compare.

(** ** Large arguments *)

Definition a0 : R := 5641895835477563 / 10000000000000000.
Definition S1 (x : R) : R := a0 * (x ^ 2 * (x ^ 2 + 9 / 2) + 2) / (x * (x ^ 2 * (x ^ 2 + 5) + 15 / 4)).
Definition S2 (x : R) : R := a0 / x.
Definition dS1 (x : R) : R :=
  a0 * ((4 * x ^ 4 + 9 * x ^ 2) * (x ^ 4 + 5 * x ^ 2 + 15 / 4) - (x ^ 4 + 9 / 2 * x ^ 2 + 2) * (5 * x ^ 4 + 15 * x ^ 2 + 15 / 4))
  / (x ^ 2 * (x ^ 4 + 5 * x ^ 2 + 15 / 4) ^ 2).

Lemma S1_den : forall x, 1 <= x -> 0 < x ^ 4 + 5 * x ^ 2 + 15 / 4.
Proof. intros. nra. Qed.

Lemma S1_derive : forall x, 1 <= x -> is_derive S1 x (dS1 x).
Proof.
  intros x Hx. pose proof (S1_den x Hx). unfold S1, dS1. auto_derive.
  - nra.
  - field. repeat split; nra.
Qed.

Lemma C2a0 : Rabs (C2 - 2 * a0) <= 1 / 10000000000000000.
Proof. replace (2 * a0) with (11283791670955126 / 10000000000000000) by (unfold a0; field). exact C2_bound. Qed.

Lemma S1_residual : forall x, 50 <= x -> Rabs (dS1 x - 2 * x * S1 x + C2) <= 2 / 10000000000000000.
Proof.
  intros x Hx. pose proof (S1_den x ltac:(lra)) as D0.
  replace (dS1 x - 2 * x * S1 x + C2) with ((C2 - 2 * a0) + - (a0 * (15 / 2) / (x ^ 2 * (x ^ 4 + 5 * x ^ 2 + 15 / 4) ^ 2)))
    by (unfold dS1, S1; field; repeat split; nra).
  eapply Rle_trans; [apply Rabs_triang |].
  pose proof C2a0 as B. rewrite Rabs_Ropp.
  assert (a0 * (15 / 2) / (x ^ 2 * (x ^ 4 + 5 * x ^ 2 + 15 / 4) ^ 2) <= 1 / 10000000000000000).
  { assert (X2 : 2500 <= x ^ 2) by nra.
    assert (X4 : 6250000 <= x ^ 4) by (replace (x ^ 4) with (x ^ 2 * x ^ 2) by ring; nra).
    assert (D1 : 6250000 <= x ^ 4 + 5 * x ^ 2 + 15 / 4) by lra.
    assert (D2 : 39000000000000 <= (x ^ 4 + 5 * x ^ 2 + 15 / 4) ^ 2) by (simpl; nra).
    set (d := x ^ 2 * (x ^ 4 + 5 * x ^ 2 + 15 / 4) ^ 2).
    assert (D3 : 97500000000000000 <= d) by (unfold d; nra).
    apply Rmult_le_reg_r with d; [lra |]. unfold Rdiv at 1. rewrite Rmult_assoc, Rinv_l, Rmult_1_r by lra.
    unfold a0. lra. }
  assert (0 < a0 * (15 / 2) / (x ^ 2 * (x ^ 4 + 5 * x ^ 2 + 15 / 4) ^ 2)).
  { apply Rdiv_lt_0_compat; [unfold a0; lra |]. apply Rmult_lt_0_compat; [nra |]. simpl. nra. }
  rewrite (Rabs_pos_eq (a0 * (15 / 2) / _)) by lra. lra.
Qed.

Lemma S1_range : forall x, 1 <= x -> 0 < S1 x <= 1 / x.
Proof.
  intros x Hx. pose proof (S1_den x Hx) as D0. split.
  - unfold S1. apply Rdiv_lt_0_compat; [unfold a0; nra |]. apply Rmult_lt_0_compat; [lra | nra].
  - unfold S1. apply Rmult_le_reg_r with (x * (x ^ 2 * (x ^ 2 + 5) + 15 / 4)).
    + apply Rmult_lt_0_compat; [lra | nra].
    + unfold a0. field_simplify; [| lra | split; nra]. nra.
Qed.

Lemma S1_accurate : forall x, 50 <= x -> Rabs (S1 x - Y x) <= 2 / 10000000000000000.
Proof.
  intros x Hx. apply (tail S1 dS1 x (2 / 10000000000000000)) with (M := 1); try lra.
  - intros s Hs. apply S1_derive. lra.
  - intros s Hs. apply S1_residual. lra.
  - intros s Hs. pose proof (S1_range s ltac:(lra)) as [A B].
    assert (1 / s <= 1) by (apply Rmult_le_reg_r with s; [lra |]; unfold Rdiv; rewrite Rmult_assoc, Rinv_l by lra; lra).
    rewrite Rabs_pos_eq; lra.
Qed.

Lemma S2_accurate : forall x, 50000000 <= x -> Rabs (S2 x - Y x) <= 4 / 10000000000000000.
Proof.
  intros x Hx. apply (tail S2 (fun x => - a0 / x ^ 2) x (4 / 10000000000000000)) with (M := 1); try lra.
  - intros s Hs. unfold S2. auto_derive; [lra | field; lra].
  - intros s Hs. unfold S2.
    replace (- a0 / s ^ 2 - 2 * s * (a0 / s) + C2) with ((C2 - 2 * a0) + - (a0 / s ^ 2)) by (field; lra).
    eapply Rle_trans; [apply Rabs_triang |]. rewrite Rabs_Ropp.
    assert (0 < a0 / s ^ 2) by (apply Rdiv_lt_0_compat; [unfold a0; lra | nra]).
    assert (a0 / s ^ 2 <= 3 / 10000000000000000).
    { assert (2500000000000000 <= s ^ 2) by nra.
      apply Rmult_le_reg_r with (s ^ 2); [lra |]. unfold Rdiv at 1. rewrite Rmult_assoc, Rinv_l, Rmult_1_r by lra.
      unfold a0. lra. }
    rewrite (Rabs_pos_eq (a0 / _)) by lra. pose proof C2a0. lra.
  - intros s Hs. unfold S2. assert (0 < a0 / s) by (apply Rdiv_lt_0_compat; [unfold a0; lra | lra]).
    rewrite Rabs_pos_eq by lra. apply Rmult_le_reg_r with s; [lra |]. unfold Rdiv. rewrite Rmult_assoc, Rinv_l by lra.
    unfold a0. lra.
Qed.
