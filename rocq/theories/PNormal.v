(** Moments of the normal distribution, and the sampled extensible chain. *)
From Coq Require Import Reals ZArith List Lra Lia.
From Coquelicot Require Import Coquelicot.
From Verif Require Import SpecGauss SpecNormal PGauss PErfc PLambert.
Import ListNotations.
Open Scope R_scope.

Section Moments.
Context (mu s : R) (Hs : 0 < s).

Notation z x := ((x - mu) / s).
(** The antiderivative of the density times a polynomial in [z]. *)
Definition anti (A B C D E x : R) : R :=
  (A + C + 3 * E) * (/ sqrt PI * G (z x / sqrt 2))
  - (B + C * z x + D * (z x ^ 2 + 2) + E * (z x ^ 3 + 3 * z x)) * (exp (- z x ^ 2 / 2) / sqrt (2 * PI)).

Lemma sqrt2PI : sqrt (2 * PI) = sqrt 2 * sqrt PI.
Proof. apply sqrt_mult_alt. lra. Qed.

Lemma anti_derive : forall A B C D E x,
  is_derive (anti A B C D E) x (normal_density mu s x * (A + B * z x + C * z x ^ 2 + D * z x ^ 3 + E * z x ^ 4)).
Proof.
  intros A B C D E x. assert (S2 : 0 < sqrt 2) by (apply sqrt_lt_R0; lra). assert (SP : 0 < sqrt PI) by (apply sqrt_lt_R0, PI_RGT_0).
  assert (Q2 : sqrt 2 * sqrt 2 = 2) by (apply sqrt_sqrt; lra).
  unfold anti, normal_density. rewrite sqrt2PI.
  assert (DG : is_derive (fun x => G (z x / sqrt 2)) x (/ s / sqrt 2 * exp (- z x ^ 2 / 2))).
  { evar_last. apply (is_derive_comp G (fun x => z x / sqrt 2)); [apply G_derive | auto_derive; [repeat split; lra | reflexivity]].
    unfold g. replace (- (z x / sqrt 2) ^ 2) with (- z x ^ 2 / 2).
    - change (1 * / s * / sqrt 2 * exp (- z x ^ 2 / 2) = / s / sqrt 2 * exp (- z x ^ 2 / 2)). field. split; lra.
    - unfold Rdiv at 3. rewrite Rpow_mult_distr, pow_inv. replace (sqrt 2 ^ 2) with 2 by (cbn; lra). field. lra. }
  assert (DP : is_derive (fun x => (B + C * z x + D * (z x ^ 2 + 2) + E * (z x ^ 3 + 3 * z x)) * (exp (- z x ^ 2 / 2) / (sqrt 2 * sqrt PI))) x
    ((C + D * (2 * z x) + E * (3 * z x ^ 2 + 3) - z x * (B + C * z x + D * (z x ^ 2 + 2) + E * (z x ^ 3 + 3 * z x))) / s
     * (exp (- z x ^ 2 / 2) / (sqrt 2 * sqrt PI)))).
  { auto_derive; [repeat split; lra|].
    match goal with |- context [exp ?y] => replace y with (- z x ^ 2 / 2) by (field; lra) end.
    set (e := exp (- z x ^ 2 / 2)). field. repeat split; lra. }
  evar_last.
  - apply (is_derive_minus (V := R_NormedModule)).
    + apply (is_derive_scal (fun x => / sqrt PI * G (z x / sqrt 2))). apply (is_derive_scal (fun x => G (z x / sqrt 2))). exact DG.
    + exact DP.
  - set (e := exp (- z x ^ 2 / 2)). set (y := z x).
    change ((A + C + 3 * E) * (/ sqrt PI * (/ s / sqrt 2 * e))
      - (C + D * (2 * y) + E * (3 * y ^ 2 + 3) - y * (B + C * y + D * (y ^ 2 + 2) + E * (y ^ 3 + 3 * y))) / s * (e / (sqrt 2 * sqrt PI))
      = e / (s * (sqrt 2 * sqrt PI)) * (A + B * y + C * y ^ 2 + D * y ^ 3 + E * y ^ 4)).
    field. repeat split; lra.
Qed.

Lemma density_continuous : forall x, continuous (normal_density mu s) x.
Proof.
  intro x. assert (S2 : 0 < sqrt (2 * PI)) by (apply sqrt_lt_R0; pose proof PI_RGT_0; lra).
  apply (ex_derive_continuous (V := R_NormedModule)). unfold normal_density. auto_derive. repeat split; nra.
Qed.

(** Powers times the Gaussian vanish at both ends. *)
Lemma gauss_small : forall B C D E y, 1 <= Rabs y ->
  Rabs ((B + C * y + D * (y ^ 2 + 2) + E * (y ^ 3 + 3 * y)) * exp (- y ^ 2 / 2)) <= 8 * (Rabs B + Rabs C + 3 * Rabs D + 4 * Rabs E) / Rabs y.
Proof.
  intros B C D E y Hy. set (a := Rabs y) in *. assert (E2 : y ^ 2 = a ^ 2) by (unfold a; rewrite pow2_abs; reflexivity).
  assert (X : exp (- y ^ 2 / 2) <= 8 / a ^ 4).
  { replace (- y ^ 2 / 2) with (- (a ^ 2 / 2)) by (rewrite E2; field). rewrite exp_Ropp.
    assert (L : a ^ 4 / 8 <= exp (a ^ 2 / 2)).
    { pose proof (PLambert.exp_lower2 (a ^ 2 / 2) ltac:(nra)) as L. nra. }
    assert (P4 : 0 < a ^ 4) by (apply pow_lt; lra).
    replace (8 / a ^ 4) with (/ (a ^ 4 / 8)) by (field; lra). apply Rinv_le_contravar; [lra | exact L]. }
  assert (Y : Rabs (B + C * y + D * (y ^ 2 + 2) + E * (y ^ 3 + 3 * y)) <= (Rabs B + Rabs C + 3 * Rabs D + 4 * Rabs E) * a ^ 3).
  { assert (A1 : a <= a ^ 3) by nra. assert (A2 : a ^ 2 <= a ^ 3) by nra. assert (A3 : 1 <= a ^ 3) by nra.
    pose proof (Rabs_pos B). pose proof (Rabs_pos C). pose proof (Rabs_pos D). pose proof (Rabs_pos E).
    assert (T1 : Rabs (C * y) <= Rabs C * a ^ 3) by (rewrite Rabs_mult; apply Rmult_le_compat_l; [apply Rabs_pos | exact A1]).
    assert (T2 : Rabs (D * (y ^ 2 + 2)) <= Rabs D * (3 * a ^ 3)).
    { rewrite Rabs_mult. apply Rmult_le_compat_l; [apply Rabs_pos|]. rewrite E2, Rabs_pos_eq; nra. }
    assert (T3 : Rabs (E * (y ^ 3 + 3 * y)) <= Rabs E * (4 * a ^ 3)).
    { rewrite Rabs_mult. apply Rmult_le_compat_l; [apply Rabs_pos|]. eapply Rle_trans; [apply Rabs_triang|].
      rewrite Rabs_mult, (Rabs_pos_eq 3), <- RPow_abs by lra. fold a. lra. }
    assert (T0 : Rabs B <= Rabs B * a ^ 3) by nra.
    pose proof (Rabs_triang (B + C * y + D * (y ^ 2 + 2)) (E * (y ^ 3 + 3 * y))). pose proof (Rabs_triang (B + C * y) (D * (y ^ 2 + 2))).
    pose proof (Rabs_triang B (C * y)). lra. }
  rewrite Rabs_mult, (Rabs_pos_eq (exp _)) by (left; apply exp_pos).
  apply Rle_trans with ((Rabs B + Rabs C + 3 * Rabs D + 4 * Rabs E) * a ^ 3 * (8 / a ^ 4)).
  - apply Rmult_le_compat; [apply Rabs_pos | left; apply exp_pos | exact Y | exact X].
  - apply Req_le. field. lra.
Qed.

Lemma inv_lim : forall c, is_lim (fun y => c / y) p_infty 0 /\ is_lim (fun y => c / y) m_infty 0.
Proof.
  intro c. split.
  - replace (Finite 0) with (Rbar_mult c 0) by (cbn; f_equal; ring). apply (is_lim_scal_l (fun y => / y) c p_infty 0).
    replace (Finite 0) with (Rbar_inv p_infty) by reflexivity. apply (is_lim_inv (fun y => y)); [apply is_lim_id | discriminate].
  - replace (Finite 0) with (Rbar_mult c 0) by (cbn; f_equal; ring). apply (is_lim_scal_l (fun y => / y) c m_infty 0).
    replace (Finite 0) with (Rbar_inv m_infty) by reflexivity. apply (is_lim_inv (fun y => y)); [apply is_lim_id | discriminate].
Qed.

Definition anti_z (A B C D E y : R) : R :=
  (A + C + 3 * E) * (/ sqrt PI * G (y / sqrt 2)) - (B + C * y + D * (y ^ 2 + 2) + E * (y ^ 3 + 3 * y)) * exp (- y ^ 2 / 2) / sqrt (2 * PI).

Lemma G_lim_m : is_lim G m_infty (- (sqrt PI / 2)).
Proof.
  apply (is_lim_ext (fun x => - G (- x))); [intro x; rewrite G_odd; ring|].
  apply (is_lim_opp (fun x => G (- x)) m_infty (Finite (sqrt PI / 2))).
  apply (is_lim_comp G (fun x => - x) m_infty (Finite (sqrt PI / 2)) p_infty); [apply G_lim | | exists 0; intros; discriminate].
  apply (is_lim_opp (fun x => x) m_infty m_infty), is_lim_id.
Qed.

Lemma lin_lim : forall a b, 0 < a -> is_lim (fun x => a * x + b) p_infty p_infty /\ is_lim (fun x => a * x + b) m_infty m_infty.
Proof.
  intros a b Ha. split; apply is_lim_spec; intro M; exists ((M - b) / a); intros x Hx.
  - apply Rmult_lt_compat_l with (r := a) in Hx; [|exact Ha]. replace (a * ((M - b) / a)) with (M - b) in Hx by (field; lra). lra.
  - apply Rmult_lt_compat_l with (r := a) in Hx; [|exact Ha]. replace (a * ((M - b) / a)) with (M - b) in Hx by (field; lra). lra.
Qed.

Lemma anti_z_lim : forall A B C D E,
  is_lim (anti_z A B C D E) p_infty ((A + C + 3 * E) / 2) /\ is_lim (anti_z A B C D E) m_infty (- ((A + C + 3 * E) / 2)).
Proof.
  intros A B C D E. assert (S2 : 0 < sqrt 2) by (apply sqrt_lt_R0; lra). assert (SP : 0 < sqrt PI) by (apply sqrt_lt_R0, PI_RGT_0).
  assert (P2 : 0 < sqrt (2 * PI)) by (apply sqrt_lt_R0; pose proof PI_RGT_0; lra).
  set (K := 8 * (Rabs B + Rabs C + 3 * Rabs D + 4 * Rabs E)).
  set (T := fun y => (B + C * y + D * (y ^ 2 + 2) + E * (y ^ 3 + 3 * y)) * exp (- y ^ 2 / 2)).
  assert (Tp : is_lim T p_infty 0).
  { apply (is_lim_le_le_loc (fun y => (- K) / y) (fun y => K / y)); [|apply inv_lim|apply inv_lim].
    exists 1. intros y Hy. pose proof (gauss_small B C D E y ltac:(rewrite Rabs_pos_eq; lra)) as H. fold K in H. rewrite (Rabs_pos_eq y) in H by lra.
    apply Rabs_le_between in H. unfold T. replace (- K / y) with (- (K / y)) by (field; lra). lra. }
  assert (Tm : is_lim T m_infty 0).
  { apply (is_lim_le_le_loc (fun y => K / y) (fun y => (- K) / y)); [|apply inv_lim|apply inv_lim].
    exists (-1). intros y Hy. pose proof (gauss_small B C D E y ltac:(rewrite Rabs_left; lra)) as H. fold K in H. rewrite (Rabs_left y) in H by lra.
    apply Rabs_le_between in H. unfold T. replace (K / - y) with (- (K / y)) in H by (field; lra). replace (- K / y) with (- (K / y)) by (field; lra). lra. }
  destruct (lin_lim (/ sqrt 2) 0 ltac:(apply Rinv_0_lt_compat; lra)) as (Lp & Lm).
  split.
  - apply (is_lim_ext (fun y => ((A + C + 3 * E) * / sqrt PI) * G (/ sqrt 2 * y + 0) - / sqrt (2 * PI) * T y)).
    { intro y. unfold anti_z, T. replace (/ sqrt 2 * y + 0) with (y / sqrt 2) by (field; lra). field. split; lra. }
    replace (Finite ((A + C + 3 * E) / 2)) with (Rbar_minus (Finite ((A + C + 3 * E) * / sqrt PI * (sqrt PI / 2))) (Finite (/ sqrt (2 * PI) * 0)))
      by (cbn; f_equal; field; lra).
    apply is_lim_minus'.
    + apply (is_lim_scal_l (fun y => G (/ sqrt 2 * y + 0)) _ p_infty (Finite (sqrt PI / 2))).
      apply (is_lim_comp G (fun y => / sqrt 2 * y + 0) p_infty (Finite (sqrt PI / 2)) p_infty); [apply G_lim | exact Lp | exists 0; intros; discriminate].
    + apply (is_lim_scal_l T _ p_infty (Finite 0)), Tp.
  - apply (is_lim_ext (fun y => ((A + C + 3 * E) * / sqrt PI) * G (/ sqrt 2 * y + 0) - / sqrt (2 * PI) * T y)).
    { intro y. unfold anti_z, T. replace (/ sqrt 2 * y + 0) with (y / sqrt 2) by (field; lra). field. split; lra. }
    replace (Finite (- ((A + C + 3 * E) / 2))) with (Rbar_minus (Finite ((A + C + 3 * E) * / sqrt PI * - (sqrt PI / 2))) (Finite (/ sqrt (2 * PI) * 0)))
      by (cbn; f_equal; field; lra).
    apply is_lim_minus'.
    + apply (is_lim_scal_l (fun y => G (/ sqrt 2 * y + 0)) _ m_infty (Finite (- (sqrt PI / 2)))).
      apply (is_lim_comp G (fun y => / sqrt 2 * y + 0) m_infty (Finite (- (sqrt PI / 2))) m_infty); [apply G_lim_m | exact Lm | exists 0; intros; discriminate].
    + apply (is_lim_scal_l T _ m_infty (Finite 0)), Tm.
Qed.

Lemma anti_lim : forall A B C D E,
  is_lim (anti A B C D E) p_infty ((A + C + 3 * E) / 2) /\ is_lim (anti A B C D E) m_infty (- ((A + C + 3 * E) / 2)).
Proof.
  intros A B C D E. destruct (anti_z_lim A B C D E) as (P & M). destruct (lin_lim (/ s) (- mu / s) ltac:(apply Rinv_0_lt_compat; lra)) as (Lp & Lm).
  assert (X : forall x, anti_z A B C D E (/ s * x + - mu / s) = anti A B C D E x).
  { intro x. unfold anti, anti_z. replace (/ s * x + - mu / s) with (z x) by (field; lra). unfold Rdiv. ring. }
  split; (eapply is_lim_ext; [exact X|]).
  - apply (is_lim_comp _ _ _ _ _ P Lp). exists 0. intros. discriminate.
  - apply (is_lim_comp _ _ _ _ _ M Lm). exists 0. intros. discriminate.
Qed.

(** The moments of [z] are 1, 0, 1, 0, 3. *)
Lemma normal_moments : forall A B C D E,
  line_integral (fun x => normal_density mu s x * (A + B * z x + C * z x ^ 2 + D * z x ^ 3 + E * z x ^ 4)) (A + C + 3 * E).
Proof.
  intros A B C D E. set (w := fun x => normal_density mu s x * (A + B * z x + C * z x ^ 2 + D * z x ^ 3 + E * z x ^ 4)).
  assert (I : forall a b, is_RInt w a b (anti A B C D E b - anti A B C D E a)).
  { intros a b. apply (is_RInt_derive (V := R_CompleteNormedModule) (anti A B C D E) w).
    - intros x _. apply anti_derive.
    - intros x _. apply (continuous_mult (normal_density mu s)); [apply density_continuous|].
      apply (ex_derive_continuous (V := R_NormedModule)). auto_derive. repeat split; lra. }
  destruct (anti_lim A B C D E) as (P & M). set (m := A + C + 3 * E) in *.
  split; [intros a b; eexists; apply I|]. exists (anti A B C D E 0 - - (m / 2)), (m / 2 - anti A B C D E 0). split; [|split].
  - apply (is_lim_ext (fun a => anti A B C D E 0 - anti A B C D E a)).
    { intro a. symmetry. apply (is_RInt_unique (V := R_CompleteNormedModule)), I. }
    apply is_lim_minus'; [apply is_lim_const | exact M].
  - apply (is_lim_ext (fun b => anti A B C D E b - anti A B C D E 0)).
    { intro b. symmetry. apply (is_RInt_unique (V := R_CompleteNormedModule)), I. }
    apply is_lim_minus'; [exact P | apply is_lim_const].
  - lra.
Qed.

Lemma line_integral_ext : forall f h v, (forall x, f x = h x) -> line_integral f v -> line_integral h v.
Proof.
  intros f h v E (I & a & b & L & M & V). split.
  - intros x y. apply (ex_RInt_ext f); [intros; apply E | apply I].
  - exists a, b. split; [|split]; [| |exact V].
    + eapply is_lim_ext; [|exact L]. intro x. apply RInt_ext. intros; apply E.
    + eapply is_lim_ext; [|exact M]. intro x. apply RInt_ext. intros; apply E.
Qed.

Lemma normal_quadratic : forall a b c, line_integral (fun x => normal_density mu s x * (a + b * x + c * x ^ 2)) (a + b * mu + c * (mu ^ 2 + s ^ 2)).
Proof.
  intros a b c. replace (a + b * mu + c * (mu ^ 2 + s ^ 2)) with ((a + b * mu + c * mu ^ 2) + c * s ^ 2 + 3 * 0) by ring.
  eapply line_integral_ext; [|apply (normal_moments _ (b * s + 2 * c * mu * s) _ 0)]. intro x. cbv beta. f_equal. field. lra.
Qed.
End Moments.
