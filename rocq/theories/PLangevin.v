(** The Langevin function and the accuracy of its inverse. *)
From Coq Require Import Reals ZArith List Lra Lia Bool.
From Coquelicot Require Import Coquelicot.
From Verif Require Import Scalar MMath SpecNewton SpecLangevin PNewton.
Open Scope R_scope.

(** ** Signs from derivatives *)
Lemma pos_of_derive : forall (g g' : R -> R), g 0 = 0 -> (forall x, 0 <= x -> is_derive g x (g' x)) ->
  (forall x, 0 < x -> 0 < g' x) -> forall x, 0 < x -> 0 < g x.
Proof.
  intros g g' H0 D P x Hx. destruct (MVT_cor2 g g' 0 x Hx) as (c & E & Hc).
  { intros c Hc. apply is_derive_Reals, D. lra. }
  rewrite H0 in E. specialize (P c (proj1 Hc)). assert (0 < g' c * (x - 0)) by (apply Rmult_lt_0_compat; lra). lra.
Qed.

Lemma decreasing_of_derive : forall (g g' : R -> R) a b, a <= b -> (forall x, a <= x <= b -> is_derive g x (g' x)) ->
  (forall x, a < x < b -> g' x <= 0) -> g b <= g a.
Proof.
  intros g g' a b Hab D P. destruct (Req_dec a b) as [->|N]; [lra|].
  destruct (MVT_cor2 g g' a b) as (c & E & Hc); [lra | intros c Hc; apply is_derive_Reals, D; lra |].
  specialize (P c Hc). nra.
Qed.

(** ** Hyperbolic functions *)
Lemma cosh_pos : forall x, 0 < cosh x.
Proof. intro x. unfold cosh. pose proof (exp_pos x). pose proof (exp_pos (- x)). lra. Qed.

Lemma sinh_0' : sinh 0 = 0.
Proof. exact sinh_0. Qed.

Lemma is_derive_sinh : forall x, is_derive sinh x (cosh x).
Proof. intro x. apply is_derive_Reals, derivable_pt_lim_sinh. Qed.

Lemma is_derive_cosh : forall x, is_derive cosh x (sinh x).
Proof. intro x. apply is_derive_Reals, derivable_pt_lim_cosh. Qed.

Lemma sinh_pos : forall x, 0 < x -> 0 < sinh x.
Proof. apply (pos_of_derive sinh cosh sinh_0); [intros; apply is_derive_sinh | intros; apply cosh_pos]. Qed.

Lemma cosh2_sinh2 : forall x, cosh x ^ 2 = 1 + sinh x ^ 2.
Proof.
  intro x. unfold cosh, sinh. assert (E : exp x * exp (- x) = 1) by (rewrite <- exp_plus, Rplus_opp_r; apply exp_0).
  replace (((exp x + exp (- x)) / 2) ^ 2) with (((exp x - exp (- x)) / 2) ^ 2 + exp x * exp (- x)) by field.
  rewrite E. ring.
Qed.

Lemma cosh_gt_1 : forall x, 0 < x -> 1 < cosh x.
Proof.
  intros x Hx. assert (H : 0 < cosh x - 1); [|lra].
  apply (pos_of_derive (fun x => cosh x - 1) sinh); [rewrite cosh_0; ring | | apply sinh_pos | exact Hx].
  intros t _. evar_last; [apply (is_derive_minus cosh (fun _ => 1)); [apply is_derive_cosh | apply is_derive_const]|].
  unfold minus, plus, opp, zero; cbn. ring.
Qed.

Lemma sinh_gt : forall x, 0 < x -> x < sinh x.
Proof.
  intros x Hx. assert (H : 0 < sinh x - x); [|lra].
  apply (pos_of_derive (fun x => sinh x - x) (fun x => cosh x - 1)); [rewrite sinh_0; ring | | | exact Hx].
  - intros t _. evar_last; [apply (is_derive_minus sinh (fun t => t)); [apply is_derive_sinh | apply is_derive_id]|].
    unfold minus, plus, opp, one; cbn. ring.
  - intros t Ht. pose proof (cosh_gt_1 t Ht). lra.
Qed.

Lemma cosh_gt_2 : forall x, 0 < x -> 1 + x ^ 2 / 2 < cosh x.
Proof.
  intros x Hx. assert (H : 0 < cosh x - 1 - x ^ 2 / 2); [|lra].
  apply (pos_of_derive (fun x => cosh x - 1 - x ^ 2 / 2) (fun x => sinh x - x)); [rewrite cosh_0; field | | | exact Hx].
  - intros t _. evar_last.
    + apply (is_derive_minus (fun x => cosh x - 1) (fun x => x ^ 2 / 2)).
      * apply (is_derive_minus cosh (fun _ => 1)); [apply is_derive_cosh | apply is_derive_const].
      * auto_derive; [trivial | reflexivity].
    + unfold minus, plus, opp, zero; cbn. field.
  - intros t Ht. pose proof (sinh_gt t Ht). lra.
Qed.

Lemma sinh_gt_3 : forall x, 0 < x -> x + x ^ 3 / 6 < sinh x.
Proof.
  intros x Hx. assert (H : 0 < sinh x - (x + x ^ 3 / 6)); [|lra].
  apply (pos_of_derive (fun x => sinh x - (x + x ^ 3 / 6)) (fun x => cosh x - (1 + x ^ 2 / 2)));
    [rewrite sinh_0; field | | | exact Hx].
  - intros t _. evar_last.
    + apply (is_derive_minus sinh (fun x => x + x ^ 3 / 6)); [apply is_derive_sinh|].
      auto_derive; [trivial | reflexivity].
    + unfold minus, plus, opp; cbn. field.
  - intros t Ht. pose proof (cosh_gt_2 t Ht). lra.
Qed.

(** x cosh x > sinh x *)
Lemma xcosh_gt : forall x, 0 < x -> sinh x < x * cosh x.
Proof.
  intros x Hx. assert (H : 0 < x * cosh x - sinh x); [|lra].
  apply (pos_of_derive (fun x => x * cosh x - sinh x) (fun x => x * sinh x)); [rewrite sinh_0; ring | | | exact Hx].
  - intros t _. evar_last.
    + apply (is_derive_minus (fun x => x * cosh x) sinh); [|apply is_derive_sinh].
      apply (is_derive_mult (fun x => x) cosh); [apply is_derive_id | apply is_derive_cosh | intros; apply Rmult_comm].
    + unfold minus, plus, opp, mult, one; cbn. ring.
  - intros t Ht. apply Rmult_lt_0_compat; [exact Ht | apply sinh_pos, Ht].
Qed.

(** x^3 cosh x <= sinh^3 x *)
Lemma lazarevic : forall x, 0 < x -> x ^ 3 * cosh x < sinh x ^ 3.
Proof.
  intros x Hx.
  set (w := fun x => exp (ln (cosh x) / 3)).
  assert (W : forall x, 0 < w x) by (intro t; apply exp_pos).
  assert (W3 : forall x, w x ^ 3 = cosh x).
  { intro t. unfold w. replace (exp (ln (cosh t) / 3) ^ 3) with (exp (ln (cosh t) / 3 + (ln (cosh t) / 3 + ln (cosh t) / 3))).
    - replace (ln (cosh t) / 3 + (ln (cosh t) / 3 + ln (cosh t) / 3)) with (ln (cosh t)) by field. apply exp_ln, cosh_pos.
    - rewrite 2!exp_plus. ring. }
  assert (Dw : forall t, is_derive w t (w t * (sinh t / cosh t / 3))).
  { intro t. unfold w. pose proof (cosh_pos t). evar_last.
    - apply (is_derive_comp exp (fun t => ln (cosh t) / 3)).
      + apply is_derive_Reals, derivable_pt_lim_exp.
      + evar_last; [apply (is_derive_mult (fun t => ln (cosh t)) (fun _ => / 3))|].
        * apply (is_derive_comp ln cosh); [apply is_derive_Reals, derivable_pt_lim_ln; assumption | apply is_derive_cosh].
        * apply is_derive_const.
        * intros; apply Rmult_comm.
        * reflexivity.
    - change ((sinh t * / cosh t * / 3 + ln (cosh t) * 0) * exp (ln (cosh t) / 3)
        = exp (ln (cosh t) / 3) * (sinh t / cosh t / 3)). field. lra. }
  assert (P : 0 < sinh x / w x - x).
  { apply (pos_of_derive (fun x => sinh x / w x - x) (fun t => (2 * cosh t ^ 2 + 1) / (3 * cosh t * w t) - 1)).
    - rewrite sinh_0. unfold Rdiv. ring.
    - intros t _. specialize (W t). pose proof (cosh_pos t) as C. evar_last.
      + apply (is_derive_minus (fun x => sinh x / w x) (fun x => x)); [|apply is_derive_id].
        apply (is_derive_div sinh w); [apply is_derive_sinh | apply Dw | lra].
      + pose proof (cosh2_sinh2 t) as E.
        change ((cosh t * w t - sinh t * (w t * (sinh t / cosh t / 3))) / w t ^ 2 - 1
          = (2 * cosh t ^ 2 + 1) / (3 * cosh t * w t) - 1).
        f_equal.
        replace ((cosh t * w t - sinh t * (w t * (sinh t / cosh t / 3))) / w t ^ 2)
          with ((3 * cosh t ^ 2 - sinh t ^ 2) / (3 * cosh t * w t)) by (field; lra).
        f_equal. lra.
    - intros t Ht. specialize (W t). specialize (W3 t). pose proof (cosh_gt_1 t Ht) as C.
      assert (w t <> 1) by (intro E; rewrite E in W3; lra).
      rewrite <- W3.
      replace ((2 * (w t ^ 3) ^ 2 + 1) / (3 * w t ^ 3 * w t) - 1)
        with ((w t ^ 2 - 1) ^ 2 * (2 * w t ^ 2 + 1) / (3 * w t ^ 4)) by (field; lra).
      assert (0 < w t ^ 4) by (apply pow_lt; exact W). assert (0 < w t ^ 2) by (apply pow_lt; exact W).
      apply Rdiv_lt_0_compat; [|lra]. apply Rmult_lt_0_compat; [|lra].
      assert (w t ^ 2 - 1 <> 0). { intro E. assert (Z : (w t - 1) * (w t + 1) = 0) by lra. apply Rmult_integral in Z. lra. }
      rewrite <- Rsqr_pow2. apply Rsqr_pos_lt. assumption.
    - exact Hx. }
  specialize (W x). specialize (W3 x).
  assert (Q : x * w x < sinh x).
  { apply Rmult_lt_reg_r with (/ w x); [apply Rinv_0_lt_compat, W|]. rewrite Rmult_assoc, Rinv_r by lra. unfold Rdiv in P. lra. }
  rewrite <- W3, <- Rpow_mult_distr.
  assert (0 < x * w x) by (apply Rmult_lt_0_compat; assumption).
  set (u := x * w x) in *. set (v := sinh x) in *.
  assert (0 < v) by lra.
  assert (0 < (v - u) * (v ^ 2 + u * v + u ^ 2)); [|simpl in *; lra].
  assert (0 < v ^ 2) by (apply pow_lt; assumption). assert (0 < u * v) by (apply Rmult_lt_0_compat; assumption).
  assert (0 < u ^ 2) by (apply pow_lt; assumption). apply Rmult_lt_0_compat; lra.
Qed.

(** ** The Langevin function *)
Definition dlangevin (x : R) : R := 1 / x ^ 2 - 1 / sinh x ^ 2.

Lemma is_derive_langevin : forall x, 0 < x -> is_derive langevin x (dlangevin x).
Proof.
  intros x Hx. pose proof (sinh_pos x Hx) as S. unfold langevin. evar_last.
  - apply (is_derive_minus (fun x => cosh x / sinh x) (fun x => 1 / x)).
    + apply (is_derive_div cosh sinh); [apply is_derive_cosh | apply is_derive_sinh | lra].
    + auto_derive; [lra | reflexivity].
  - unfold minus, plus, opp; cbn. unfold dlangevin. pose proof (cosh2_sinh2 x) as E.
    replace ((sinh x * sinh x - cosh x * cosh x)) with (- (1)) by lra. field. lra.
Qed.

Lemma scaled_slope : forall s t, 0 < s <= t -> s ^ 2 * dlangevin s <= t ^ 2 * dlangevin t.
Proof.
  intros s t [Hs Ht].
  assert (D : t / sinh t <= s / sinh s).
  { apply (decreasing_of_derive (fun x => x / sinh x) (fun x => (sinh x - x * cosh x) / sinh x ^ 2)); [exact Ht | |].
    - intros x Hx. pose proof (sinh_pos x ltac:(lra)). evar_last.
      + apply (is_derive_div (fun x => x) sinh); [apply is_derive_id | apply is_derive_sinh | lra].
      + unfold one; cbn. f_equal. ring.
    - intros x Hx. pose proof (sinh_pos x ltac:(lra)). pose proof (xcosh_gt x ltac:(lra)).
      apply Rmult_le_reg_r with (sinh x ^ 2); [apply pow_lt; assumption|].
      unfold Rdiv. rewrite Rmult_assoc, Rinv_l by (apply pow_nonzero; lra). lra. }
  pose proof (sinh_pos s Hs). pose proof (sinh_pos t ltac:(lra)).
  replace (s ^ 2 * dlangevin s) with (1 - (s / sinh s) ^ 2) by (unfold dlangevin; field; lra).
  replace (t ^ 2 * dlangevin t) with (1 - (t / sinh t) ^ 2) by (unfold dlangevin; field; lra).
  assert (0 < t / sinh t) by (apply Rdiv_lt_0_compat; lra). nra.
Qed.

Lemma dlangevin_pos : forall x, 0 < x -> 0 < dlangevin x.
Proof.
  intros x Hx. pose proof (sinh_gt x Hx) as S. unfold dlangevin.
  assert (A : / sinh x ^ 2 < / x ^ 2).
  { apply Rinv_lt_contravar; [apply Rmult_lt_0_compat; apply pow_lt; lra | simpl; nra]. }
  unfold Rdiv. lra.
Qed.

Lemma dlangevin_decreasing : forall s t, 0 < s <= t -> dlangevin t <= dlangevin s.
Proof.
  intros s t [Hs Ht].
  apply (decreasing_of_derive dlangevin (fun x => - 2 / x ^ 3 + 2 * cosh x / sinh x ^ 3)); [exact Ht | |].
  - intros x Hx. pose proof (sinh_pos x ltac:(lra)). unfold dlangevin. evar_last.
    + apply (is_derive_minus (fun x => 1 / x ^ 2) (fun x => 1 / sinh x ^ 2)).
      * auto_derive; [apply (pow_nonzero x 2); lra | reflexivity].
      * apply (is_derive_div (fun _ => 1) (fun x => sinh x ^ 2)); [apply is_derive_const | | apply pow_nonzero; lra].
        apply (is_derive_pow sinh 2); apply is_derive_sinh.
    + unfold minus, plus, opp, zero; cbn. field. lra.
  - intros x Hx. pose proof (sinh_pos x ltac:(lra)) as S. pose proof (lazarevic x ltac:(lra)) as Z.
    assert (X3 : 0 < x ^ 3) by (apply pow_lt; lra). assert (S3 : 0 < sinh x ^ 3) by (apply pow_lt; exact S).
    replace (- 2 / x ^ 3 + 2 * cosh x / sinh x ^ 3)
      with (- (2 * (sinh x ^ 3 - x ^ 3 * cosh x) / (x ^ 3 * sinh x ^ 3))) by (field; lra).
    apply Ropp_le_cancel. rewrite Ropp_involutive, Ropp_0. apply Rmult_le_pos; [lra|].
    left. apply Rinv_0_lt_compat, Rmult_lt_0_compat; assumption.
Qed.

Lemma langevin_concave : concave_increasing (fun x => 0 < x) langevin dlangevin.
Proof.
  split; [intros; lra|]. split; [exact dlangevin_pos|]. intros x z Hx Hz.
  destruct (Rtotal_order x z) as [L|[->|L]]; [|lra|].
  - destruct (MVT_cor2 langevin dlangevin x z L) as (c & E & Hc).
    { intros c Hc. apply is_derive_Reals, is_derive_langevin. lra. }
    pose proof (dlangevin_decreasing x c ltac:(lra)). nra.
  - destruct (MVT_cor2 langevin dlangevin z x L) as (c & E & Hc).
    { intros c Hc. apply is_derive_Reals, is_derive_langevin. lra. }
    pose proof (dlangevin_decreasing c x ltac:(lra)). nra.
Qed.

Lemma langevin_increasing : forall s t, 0 < s < t -> langevin s < langevin t.
Proof.
  intros s t [Hs Ht]. destruct (MVT_cor2 langevin dlangevin s t Ht) as (c & E & Hc).
  { intros c Hc. apply is_derive_Reals, is_derive_langevin. lra. }
  pose proof (dlangevin_pos c ltac:(lra)). nra.
Qed.

(** Increments against the slope at either end. *)
Lemma langevin_increment : forall s t, 0 < s <= t ->
  dlangevin s * s ^ 2 * (1 / s - 1 / t) <= langevin t - langevin s <= dlangevin t * t ^ 2 * (1 / s - 1 / t).
Proof.
  intros s t [Hs Ht].
  assert (Dinv : forall K x, 0 < x -> is_derive (fun x => langevin x + K / x) x (dlangevin x - K / x ^ 2)).
  { intros K x Hx. evar_last.
    - apply (is_derive_plus langevin (fun x => K / x)); [apply is_derive_langevin, Hx | auto_derive; [lra | reflexivity]].
    - unfold plus; cbn. field. lra. }
  split.
  - assert (Q : - (langevin t + dlangevin s * s ^ 2 / t) <= - (langevin s + dlangevin s * s ^ 2 / s)).
    { apply (decreasing_of_derive (fun x => - (langevin x + dlangevin s * s ^ 2 / x))
        (fun x => - (dlangevin x - dlangevin s * s ^ 2 / x ^ 2))); [exact Ht | |].
      - intros x Hx. apply (is_derive_opp (fun x => langevin x + dlangevin s * s ^ 2 / x)). apply Dinv. lra.
      - intros x Hx. pose proof (scaled_slope s x ltac:(lra)) as S.
        assert (X2 : 0 < x ^ 2) by (apply pow_lt; lra).
        assert (dlangevin s * s ^ 2 / x ^ 2 <= dlangevin x); [|lra].
        apply Rmult_le_reg_r with (x ^ 2); [exact X2|]. unfold Rdiv. rewrite Rmult_assoc, Rinv_l by lra. lra. }
    unfold Rdiv in *. lra.
  - assert (Q : langevin t + dlangevin t * t ^ 2 / t <= langevin s + dlangevin t * t ^ 2 / s).
    { apply (decreasing_of_derive (fun x => langevin x + dlangevin t * t ^ 2 / x)
        (fun x => dlangevin x - dlangevin t * t ^ 2 / x ^ 2)); [exact Ht | |].
      - intros x Hx. apply Dinv. lra.
      - intros x Hx. pose proof (scaled_slope x t ltac:(lra)) as S.
        assert (X2 : 0 < x ^ 2) by (apply pow_lt; lra).
        assert (dlangevin x <= dlangevin t * t ^ 2 / x ^ 2); [|lra].
        apply Rmult_le_reg_r with (x ^ 2); [exact X2|]. unfold Rdiv. rewrite (Rmult_assoc _ (/ x ^ 2)), Rinv_l by lra. lra. }
    unfold Rdiv in *. lra.
Qed.

(** *** Elementary bounds *)
Lemma langevin_lower_1 : forall x, 0 < x -> 1 - 1 / x < langevin x.
Proof.
  intros x Hx. pose proof (sinh_pos x Hx) as S. unfold langevin.
  assert (C : sinh x < cosh x). { unfold sinh, cosh. pose proof (exp_pos (- x)). lra. }
  assert (1 < cosh x / sinh x); [|lra].
  apply Rmult_lt_reg_r with (sinh x); [exact S|]. unfold Rdiv. rewrite Rmult_assoc, Rinv_l by lra. lra.
Qed.

Lemma exp_ge_2 : forall t, 0 < t -> 1 + t + t ^ 2 / 2 < exp t.
Proof.
  assert (E1 : forall t, 0 < t -> 0 < exp t - 1).
  { intros t Ht. pose proof (exp_increasing 0 t Ht). rewrite exp_0 in *. lra. }
  assert (E2 : forall t, 0 < t -> 0 < exp t - 1 - t).
  { apply (pos_of_derive (fun t => exp t - 1 - t) (fun t => exp t - 1)); [rewrite exp_0; ring | | exact E1].
    intros t _. auto_derive; [trivial | ring]. }
  intros t Ht. assert (0 < exp t - 1 - t - t ^ 2 / 2); [|lra].
  apply (pos_of_derive (fun t => exp t - 1 - t - t ^ 2 / 2) (fun t => exp t - 1 - t)); [rewrite exp_0; field | | exact E2 | exact Ht].
  intros x _. auto_derive; [trivial | field].
Qed.

Lemma langevin_upper_1 : forall x, 0 < x -> langevin x < x / (1 + x).
Proof.
  intros x Hx. pose proof (sinh_pos x Hx) as S. unfold langevin.
  pose proof (exp_ge_2 (2 * x) ltac:(lra)) as E.
  assert (P := exp_pos (- x)).
  assert (EE : exp (2 * x) * exp (- x) = exp x) by (rewrite <- exp_plus; f_equal; ring).
  assert (K : x * (1 + x) * (cosh x - sinh x) < sinh x).
  { unfold cosh, sinh. replace ((exp x + exp (- x)) / 2 - (exp x - exp (- x)) / 2) with (exp (- x)) by field. nra. }
  apply Rmult_lt_reg_r with (sinh x * x * (1 + x)); [apply Rmult_lt_0_compat; [apply Rmult_lt_0_compat|]; lra|].
  replace ((cosh x / sinh x - 1 / x) * (sinh x * x * (1 + x))) with (cosh x * x * (1 + x) - sinh x * (1 + x)) by (field; lra).
  replace (x / (1 + x) * (sinh x * x * (1 + x))) with (x * x * sinh x) by (field; lra). lra.
Qed.

Lemma langevin_upper_3 : forall x, 0 < x -> langevin x < x / 3.
Proof.
  intros x Hx. pose proof (sinh_pos x Hx) as S.
  assert (G : 0 < (x ^ 2 / 3 + 1) * sinh x - x * cosh x).
  { apply (pos_of_derive (fun x => (x ^ 2 / 3 + 1) * sinh x - x * cosh x) (fun x => x / 3 * (x * cosh x - sinh x))).
    - rewrite sinh_0; ring.
    - intros t _. evar_last.
      + apply (is_derive_minus (fun x => (x ^ 2 / 3 + 1) * sinh x) (fun x => x * cosh x)).
        * apply (is_derive_mult (fun x => x ^ 2 / 3 + 1) sinh); [auto_derive; [trivial|reflexivity] | apply is_derive_sinh | intros; apply Rmult_comm].
        * apply (is_derive_mult (fun x => x) cosh); [apply is_derive_id | apply is_derive_cosh | intros; apply Rmult_comm].
      + unfold minus, plus, opp, mult, one; cbn. field.
    - intros t Ht. pose proof (xcosh_gt t Ht). apply Rmult_lt_0_compat; lra.
    - exact Hx. }
  unfold langevin. apply Rmult_lt_reg_r with (sinh x * x); [apply Rmult_lt_0_compat; assumption|].
  replace ((cosh x / sinh x - 1 / x) * (sinh x * x)) with (x * cosh x - sinh x) by (field; lra). lra.
Qed.

Lemma langevin_lower_3 : forall x, 0 < x -> x / (3 + x) < langevin x.
Proof.
  intros x Hx. pose proof (sinh_pos x Hx) as S.
  assert (G3 : forall t, 0 < t -> 0 < 2 + exp (2 * t) * (4 * t - 2)).
  { apply (pos_of_derive (fun t => 2 + exp (2 * t) * (4 * t - 2)) (fun t => 8 * t * exp (2 * t))).
    - rewrite Rmult_0_r, exp_0. ring.
    - intros t _. auto_derive; [trivial | ring].
    - intros t Ht. apply Rmult_lt_0_compat; [lra | apply exp_pos]. }
  assert (G2 : forall t, 0 < t -> 0 < 2 * t + 2 + exp (2 * t) * (2 * t - 2)).
  { apply (pos_of_derive (fun t => 2 * t + 2 + exp (2 * t) * (2 * t - 2)) (fun t => 2 + exp (2 * t) * (4 * t - 2))); [| |exact G3].
    - rewrite Rmult_0_r, exp_0. ring.
    - intros t _. auto_derive; [trivial | ring]. }
  assert (G1 : forall t, 0 < t -> 0 < t ^ 2 + 2 * t + 3 / 2 + exp (2 * t) * (t - 3 / 2)).
  { apply (pos_of_derive (fun t => t ^ 2 + 2 * t + 3 / 2 + exp (2 * t) * (t - 3 / 2)) (fun t => 2 * t + 2 + exp (2 * t) * (2 * t - 2))); [| |exact G2].
    - rewrite Rmult_0_r, exp_0. field.
    - intros t _. auto_derive; [trivial | field]. }
  specialize (G1 x Hx).
  assert (K : x ^ 2 * sinh x < (x + 3) * (x * cosh x - sinh x)).
  { apply Rmult_lt_reg_r with (exp x); [apply exp_pos|].
    assert (E2 : exp (2 * x) = exp x * exp x) by (rewrite <- exp_plus; f_equal; ring).
    assert (E0 : exp x * exp (- x) = 1) by (rewrite <- exp_plus, Rplus_opp_r; apply exp_0).
    rewrite E2 in G1. unfold sinh, cosh. set (p := exp x) in *. set (q := exp (- x)) in *.
    replace ((x + 3) * (x * ((p + q) / 2) - (p - q) / 2) * p)
      with ((x + 3) * (x * (p * p + p * q) - (p * p - p * q)) / 2) by field.
    replace (x ^ 2 * ((p - q) / 2) * p) with (x ^ 2 * (p * p - p * q) / 2) by field.
    rewrite E0. nra. }
  unfold langevin. apply Rmult_lt_reg_r with (sinh x * x * (3 + x)); [apply Rmult_lt_0_compat; [apply Rmult_lt_0_compat|]; lra|].
  replace ((cosh x / sinh x - 1 / x) * (sinh x * x * (3 + x))) with ((x + 3) * (x * cosh x - sinh x)) by (field; lra).
  replace (x / (3 + x) * (sinh x * x * (3 + x))) with (x ^ 2 * sinh x) by (field; lra). exact K.
Qed.

Lemma langevin_lower_5 : forall x, 0 < x -> x / 3 - x ^ 3 / 45 < langevin x.
Proof.
  intros x Hx. pose proof (sinh_pos x Hx) as S.
  assert (H : forall t, 0 < t -> 0 < (1 / 3 + 4 * t ^ 2 / 45) * sinh t - (t / 3 - t ^ 3 / 45) * cosh t).
  { apply (pos_of_derive (fun t => (1 / 3 + 4 * t ^ 2 / 45) * sinh t - (t / 3 - t ^ 3 / 45) * cosh t)
      (fun t => 7 * t / 45 * (t * cosh t - sinh t) + t ^ 3 / 45 * sinh t)).
    - rewrite sinh_0, cosh_0. field.
    - intros t _. evar_last.
      + apply (is_derive_minus (fun t => (1 / 3 + 4 * t ^ 2 / 45) * sinh t) (fun t => (t / 3 - t ^ 3 / 45) * cosh t)).
        * apply (is_derive_mult (fun t => 1 / 3 + 4 * t ^ 2 / 45) sinh); [auto_derive; [trivial|reflexivity] | apply is_derive_sinh | intros; apply Rmult_comm].
        * apply (is_derive_mult (fun t => t / 3 - t ^ 3 / 45) cosh); [auto_derive; [trivial|reflexivity] | apply is_derive_cosh | intros; apply Rmult_comm].
      + unfold minus, plus, opp, mult; cbn. field.
    - intros t Ht. pose proof (xcosh_gt t Ht). pose proof (sinh_pos t Ht).
      assert (0 < t ^ 3) by (apply pow_lt; exact Ht).
      apply Rplus_lt_0_compat; apply Rmult_lt_0_compat; lra. }
  assert (G : 0 < x * cosh x - sinh x - (x ^ 2 / 3 - x ^ 4 / 45) * sinh x).
  { apply (pos_of_derive (fun x => x * cosh x - sinh x - (x ^ 2 / 3 - x ^ 4 / 45) * sinh x)
      (fun t => t * ((1 / 3 + 4 * t ^ 2 / 45) * sinh t - (t / 3 - t ^ 3 / 45) * cosh t))).
    - rewrite sinh_0. field.
    - intros t _. evar_last.
      + apply (is_derive_minus (fun t => t * cosh t - sinh t) (fun t => (t ^ 2 / 3 - t ^ 4 / 45) * sinh t)).
        * apply (is_derive_minus (fun t => t * cosh t) sinh); [|apply is_derive_sinh].
          apply (is_derive_mult (fun x => x) cosh); [apply is_derive_id | apply is_derive_cosh | intros; apply Rmult_comm].
        * apply (is_derive_mult (fun t => t ^ 2 / 3 - t ^ 4 / 45) sinh); [auto_derive; [trivial|reflexivity] | apply is_derive_sinh | intros; apply Rmult_comm].
      + unfold minus, plus, opp, mult, one; cbn. field.
    - intros t Ht. apply Rmult_lt_0_compat; [exact Ht | apply H, Ht].
    - exact Hx. }
  unfold langevin. apply Rmult_lt_reg_r with (sinh x * x); [apply Rmult_lt_0_compat; assumption|].
  replace ((cosh x / sinh x - 1 / x) * (sinh x * x)) with (x * cosh x - sinh x) by (field; lra).
  replace ((x / 3 - x ^ 3 / 45) * (sinh x * x)) with ((x ^ 2 / 3 - x ^ 4 / 45) * sinh x) by field. lra.
Qed.
