(** Weak pulls on the square-well chain, and strong pulls. *)
From Coq Require Import Reals ZArith List Lra Lia Psatz.
From Coquelicot Require Import Coquelicot.
From Verif Require Import Scalar MMath MConst MIdeal MFjc MSwfjc MMorse MLennardJones MLogSquared.
From Verif Require Import SpecPartition SpecInverse SpecHooke PBase PHyp PQuad PPartition PPartition2 PLimits PNormalChain PHooke.
Open Scope R_scope.

(** ** The square-well chain *)
Section Well.
Variables (v x : R).
Hypothesis Hv : 1 < v.
Hypothesis Hx : 0 < x.
Let top_part (s : R) : R := s ^ 2 * sinh (x * s) - 3 * xch (x * s) / x ^ 2.
Let bottom_part (s : R) : R := xch (x * s) / x ^ 2.

Lemma well_top : is_RInt (fun s => s * xch (x * s)) 1 v (top_part v - top_part 1).
Proof using Hx.
  apply (is_RInt_derive (V := R_CompleteNormedModule) top_part).
  - intros s _. unfold top_part, xch. auto_derive; [lra | field; lra].
  - intros s _. apply (ex_derive_continuous (V := R_NormedModule)). unfold xch. auto_derive. exact I.
Qed.

Lemma well_bottom : is_RInt (fun s => s * sinh (x * s)) 1 v (bottom_part v - bottom_part 1).
Proof using Hx.
  apply (is_RInt_derive (V := R_CompleteNormedModule) bottom_part).
  - intros s _. unfold bottom_part, xch. auto_derive; [lra | field; lra].
  - intros s _. apply (ex_derive_continuous (V := R_NormedModule)). auto_derive. exact I.
Qed.

Lemma power_integral : forall n, is_RInt (fun s => s ^ n) 1 v ((v ^ S n - 1) / INR (S n)).
Proof.
  intro n. assert (P : INR (S n) <> 0) by (apply not_0_INR; lia).
  replace ((v ^ S n - 1) / INR (S n)) with (v ^ S n / INR (S n) - 1 ^ S n / INR (S n)) by (rewrite pow1; field; exact P).
  apply (is_RInt_derive (V := R_CompleteNormedModule) (fun s => s ^ S n / INR (S n))).
  - intros s _. auto_derive; [exact I|]. rewrite Nat.pred_succ || idtac. cbv beta. field. exact P.
  - intros s _. apply (ex_derive_continuous (V := R_NormedModule)). auto_derive. exact I.
Qed.

Lemma well_bounds :
  let square := ((v ^ 5 - 1) / 5) / ((v ^ 3 - 1) / 3) in
  let f := (top_part v - top_part 1) / (x * (bottom_part v - bottom_part 1)) in
  square * x / 3 / cosh (v * x) <= f <= square * x / 3 * cosh (v * x) /\ f < v.
Proof using Hv Hx.
  pose proof (power_integral 4) as I4. pose proof (power_integral 2) as I2. replace (INR 5) with 5 in I4 by (simpl; ring). replace (INR 3) with 3 in I2 by (simpl; ring).
  pose proof well_top as IT. pose proof well_bottom as IB.
  set (m4 := (v ^ 5 - 1) / 5) in *. set (m2 := (v ^ 3 - 1) / 3) in *.
  set (N := top_part v - top_part 1) in *. set (B := bottom_part v - bottom_part 1) in *. cbv zeta.
  assert (XS : forall s, 1 < s < v -> 0 < x * s <= v * x) by (intros s Hs; nra).
  assert (C : forall s, 1 < s < v -> cosh (x * s) <= cosh (v * x)) by (intros s Hs; apply cosh_mono; apply XS in Hs; lra).
  assert (SC : forall (g : R -> R) k J, is_RInt g 1 v J -> is_RInt (fun s => k * g s) 1 v (k * J)) by (intros g k J H; apply (is_RInt_scal (V := R_NormedModule)), H).
  assert (P4 : 1 < v ^ 5) by (apply Rlt_pow_R1; [lra | lia]). assert (P2 : 1 < v ^ 3) by (apply Rlt_pow_R1; [lra | lia]).
  assert (LT : N < v * (x * B)).
  { apply Rminus_gt_0_lt. replace (v * (x * B) - N) with (v * x * B - N) by ring.
    pose proof (is_RInt_minus (V := R_NormedModule) _ _ _ _ _ _ (SC _ (v * x) _ IB) IT) as D.
    change (is_RInt (fun s => v * x * (s * sinh (x * s)) - s * xch (x * s)) 1 v (v * x * B - N)) in D. change (0 < v * x * B - N).
    rewrite <- (is_RInt_unique (V := R_CompleteNormedModule) _ _ _ _ D). apply RInt_gt_0; [exact Hv | |].
    - intros s Hs. pose proof (XS s Hs). pose proof (xch_lt (x * s) ltac:(lra)). pose proof (sinh_pos (x * s) ltac:(lra)).
      assert (x * s * sinh (x * s) <= v * x * sinh (x * s)) by (apply Rmult_le_compat_r; lra).
      change (0 < v * x * (s * sinh (x * s)) - s * xch (x * s)). replace (v * x * (s * sinh (x * s)) - s * xch (x * s)) with (s * (v * x * sinh (x * s) - xch (x * s))) by ring.
      apply Rmult_lt_0_compat; lra.
    - intros s _. apply (continuous_minus (V := R_NormedModule) (fun s => v * x * (s * sinh (x * s))) (fun s => s * xch (x * s)));
        apply (ex_derive_continuous (V := R_NormedModule)); unfold xch; auto_derive; exact I. }
  apply quotient_bounds; try assumption; [unfold m4; lra | unfold m2; lra | apply cosh_ge_1 | |]; split.
  - replace (x ^ 3 * m4 / 3) with (x ^ 3 / 3 * m4) by field. eapply is_RInt_le; [left; exact Hv | apply (SC _ (x ^ 3 / 3) _ I4) | exact IT |].
    intros s Hs. cbv beta. pose proof (xch_ge (x * s) ltac:(apply XS in Hs; lra)). replace (x ^ 3 / 3 * s ^ 4) with (s * ((x * s) ^ 3 / 3)) by field. apply Rmult_le_compat_l; lra.
  - replace (x ^ 3 * m4 / 3 * cosh (v * x)) with (x ^ 3 / 3 * cosh (v * x) * m4) by field. eapply is_RInt_le; [left; exact Hv | exact IT | apply (SC _ _ _ I4) |].
    intros s Hs. cbv beta. pose proof (xch_le (x * s) ltac:(apply XS in Hs; lra)). specialize (C s Hs).
    replace (x ^ 3 / 3 * cosh (v * x) * s ^ 4) with (s * ((x * s) ^ 3 / 3 * cosh (v * x))) by field. apply Rmult_le_compat_l; [lra|].
    eapply Rle_trans; [eassumption|]. apply Rmult_le_compat_l; [|exact C]. apply XS in Hs. assert (0 < (x * s) ^ 3) by (apply pow_lt; lra). lra.
  - eapply is_RInt_le; [left; exact Hv | apply (SC _ (x ^ 2) _ I2) | apply (SC _ x _ IB) |].
    intros s Hs. cbv beta. pose proof (sinh_ge (x * s) ltac:(apply XS in Hs; lra)). replace (x ^ 2 * s ^ 2) with (x * (s * (x * s))) by ring.
    apply Rmult_le_compat_l; [lra|]. apply Rmult_le_compat_l; lra.
  - replace (x ^ 2 * m2 * cosh (v * x)) with (x ^ 2 * cosh (v * x) * m2) by ring. eapply is_RInt_le; [left; exact Hv | apply (SC _ x _ IB) | apply (SC _ _ _ I2) |].
    intros s Hs. cbv beta. pose proof (sinh_le (x * s) ltac:(apply XS in Hs; lra)). specialize (C s Hs).
    replace (x ^ 2 * cosh (v * x) * s ^ 2) with (x * (s * (x * s * cosh (v * x)))) by ring. apply Rmult_le_compat_l; [lra|]. apply Rmult_le_compat_l; [lra|].
    eapply Rle_trans; [eassumption|]. apply Rmult_le_compat_l; [|exact C]. apply XS in Hs. lra.
Qed.
End Well.

Lemma swfjc_form : forall l w x, 0 < l -> 0 < w -> 0 < x ->
  let v := 1 + w / l in
  swfjc_isotensional.nondimensional_end_to_end_length_per_link l w x
  = ((v ^ 2 * sinh (x * v) - 3 * xch (x * v) / x ^ 2) - (1 ^ 2 * sinh (x * 1) - 3 * xch (x * 1) / x ^ 2))
    / (x * (xch (x * v) / x ^ 2 - xch (x * 1) / x ^ 2)).
Proof.
  intros l w x Hl Hw Hx v. rewrite swfjc_eq. fold v. rewrite !Rmult_1_r.
  assert (V : 1 < v) by (unfold v; assert (0 < w / l) by (apply Rdiv_lt_0_compat; lra); lra). clearbody v.
  assert (E : bottom x v = xch (x * v) - xch x) by (unfold bottom, xch; rewrite (Rmult_comm v x); ring).
  assert (P : 0 < xch (x * v) - xch x) by (apply Rlt_Rminus, xch_increasing; nra).
  rewrite E. unfold top. rewrite (Rmult_comm v x). field. repeat split; lra.
Qed.

Lemma swfjc_hooke : forall l w, 0 < l -> 0 < w ->
  let v := 1 + w / l in
  let f := swfjc_isotensional.nondimensional_end_to_end_length_per_link l w in
  linear_within f (((v ^ 5 - 1) / 5) / ((v ^ 3 - 1) / 3)) v /\ forall x, 0 < x -> f x < v.
Proof.
  intros l w Hl Hw v f. assert (V : 1 < v) by (unfold v; assert (0 < w / l) by (apply Rdiv_lt_0_compat; lra); lra).
  split; intros x Hx; unfold f; rewrite swfjc_form by assumption; fold v; apply (well_bounds v x V Hx).
Qed.

Lemma swfjc_square : forall v, RInt (fun s => s ^ 2 * s ^ 2) 1 v / RInt (fun s => s ^ 2) 1 v = ((v ^ 5 - 1) / 5) / ((v ^ 3 - 1) / 3).
Proof.
  intro v. rewrite (RInt_ext (V := R_CompleteNormedModule) (fun s => s ^ 2 * s ^ 2) (fun s => s ^ 4)) by (intros s _; change (s ^ 2 * s ^ 2 = s ^ 4); ring).
  rewrite (is_RInt_unique (V := R_CompleteNormedModule) _ _ _ _ (power_integral v 4)), (is_RInt_unique (V := R_CompleteNormedModule) _ _ _ _ (power_integral v 2)).
  replace (INR 5) with 5 by (simpl; ring). replace (INR 3) with 3 by (simpl; ring). reflexivity.
Qed.

(** ** Strong pulls *)
Lemma exp_lim_0 : forall d, 0 < d -> is_lim (fun x => exp (- (d * x))) p_infty 0.
Proof.
  intros d Hd. apply (is_lim_comp exp (fun x => - (d * x)) p_infty 0 m_infty); [apply is_lim_exp_m | | exists 0; intros; discriminate].
  apply (is_lim_opp (fun x => d * x) p_infty p_infty). apply (is_lim_ext (fun x => d * x + 0)); [intro; ring|]. apply PNormal.lin_lim, Hd.
Qed.

Lemma coth_ge : forall y, 0 < y -> (y - 1) * sinh y <= xch y.
Proof.
  intros y Hy. unfold xch. assert (sinh y <= cosh y) by (unfold sinh, cosh; pose proof (exp_pos (- y)); lra). nra.
Qed.

Lemma sinh_shift : forall y d, 0 <= d -> d <= y -> sinh (y - d) <= exp (- d) * sinh y.
Proof.
  intros y d Hd Hy. unfold sinh. replace (- (y - d)) with (- y + d) by ring. replace (y - d) with (y + - d) by ring. rewrite !exp_plus.
  assert (exp (- d) <= exp d) by (destruct (Req_dec d 0) as [->|N]; [rewrite Ropp_0; lra | left; apply exp_increasing; lra]).
  pose proof (exp_pos (- y)). assert (exp (- y) * exp (- d) <= exp (- y) * exp d) by (apply Rmult_le_compat_l; lra). lra.
Qed.

Lemma swfjc_saturates : forall l w, 0 < l -> 0 < w ->
  saturates (swfjc_isotensional.nondimensional_end_to_end_length_per_link l w) (1 + w / l).
Proof.
  intros l w Hl Hw. split; [apply swfjc_hooke; assumption|].
  set (v := 1 + w / l). assert (V : 1 < v) by (unfold v; assert (0 < w / l) by (apply Rdiv_lt_0_compat; lra); lra).
  apply (is_lim_le_le_loc (fun x => v * (1 - exp (- ((v - 1) * x))) - 3 / x) (fun _ => v)).
  - exists 1. intros x Hx. split; [|left; apply swfjc_hooke; (assumption || lra)].
    rewrite swfjc_eq. fold v. apply Rplus_le_compat_r.
    assert (P : 0 < xch (x * v) - xch x) by (apply Rlt_Rminus, xch_increasing; nra).
    assert (E : bottom x v = xch (x * v) - xch x) by (unfold bottom, xch; rewrite (Rmult_comm v x); ring). rewrite E.
    apply Rmult_le_reg_r with (xch (x * v) - xch x); [exact P|].
    replace (top x v / (xch (x * v) - xch x) * (xch (x * v) - xch x)) with (top x v) by (field; lra).
    pose proof (xch_lt (x * v) ltac:(nra)) as U. pose proof (xch_increasing 0 x ltac:(lra) ltac:(lra)) as U0. rewrite xch_0 in U0.
    pose proof (sinh_pos (x * v) ltac:(nra)) as S.
    pose proof (sinh_shift (x * v) ((v - 1) * x) ltac:(nra) ltac:(nra)) as K. replace (x * v - (v - 1) * x) with x in K by ring.
    set (e := exp (- ((v - 1) * x))) in *. assert (E1 : e < 1) by (apply Rlt_le_trans with (exp 0); [apply exp_increasing; nra | rewrite exp_0; lra]). assert (E0 : 0 < e) by apply exp_pos.
    apply Rle_trans with (v * (1 - e) * (x * v * sinh (x * v))).
    + apply Rmult_le_compat_l; [nra | lra].
    + unfold top. rewrite (Rmult_comm v x). assert (x * sinh x <= x * (e * sinh (x * v))) by (apply Rmult_le_compat_l; lra).
      assert (x * e * sinh (x * v) <= v ^ 2 * (x * e * sinh (x * v))).
      { rewrite <- (Rmult_1_l (x * e * sinh (x * v))) at 1. apply Rmult_le_compat_r; [|nra]. apply Rmult_le_pos; [|lra]. apply Rmult_le_pos; lra. }
      nra.
  - replace (Finite v) with (Rbar_minus (v * (1 - 0)) 0) by (cbn; f_equal; ring).
    apply is_lim_minus'; [|apply PNormal.inv_lim].
    apply (is_lim_scal_l (fun x => 1 - exp (- ((v - 1) * x))) v p_infty (1 - 0)).
    apply is_lim_minus'; [apply is_lim_const | apply exp_lim_0; lra].
  - apply is_lim_const.
Qed.

Section MidpointStrong.
Variables (a b : R) (n : nat).
Hypothesis Ha : 0 < a.
Hypothesis Hab : a < b.
Let h := (b - a) / INR (S (S n)).
Let v := last_node a b (S (S n)).
Let mid f := midpoint_rule f a b (S (S n)).
Let rest f := sum_f_R0 (fun i => f (a + (INR i + 1 / 2) * h)) n.

Lemma mid_split : forall f : R -> R, mid f = h * (rest f + f v).
Proof using Hab.
  intro f. unfold mid, midpoint_rule. fold h. replace (S (S n) - 1)%nat with (S n) by lia. cbn [sum_f_R0]. fold (rest f). do 3 f_equal.
  unfold v, last_node. fold h. assert (P : INR (S (S n)) <> 0) by (apply not_0_INR; lia).
  replace b with (a + INR (S (S n)) * h) by (unfold h; field; exact P). rewrite (S_INR (S n)). field.
Qed.

Lemma rest_range : forall i, (i <= n)%nat -> a < a + (INR i + 1 / 2) * h <= v - h.
Proof using Hab.
  intros i Hi. pose proof (width_pos a b (S (S n)) Hab ltac:(lia)) as W. fold h in W. pose proof (pos_INR i). apply le_INR in Hi.
  assert (P : INR (S (S n)) <> 0) by (apply not_0_INR; lia).
  assert (E : b = a + (INR n + 2) * h) by (unfold h; rewrite !S_INR in *; field; lra).
  unfold v, last_node. fold h. rewrite E. split; nra.
Qed.

Variable w : R -> R.
Hypothesis Hw : forall s, 0 < s -> 0 < w s.

Lemma mid_saturates : is_lim (fun x => mid (fun s => s * w s * xch (x * s)) / (x * mid (fun s => s * w s * sinh (x * s)))) p_infty v.
Proof using Ha Hab Hw.
  pose proof (width_pos a b (S (S n)) Hab ltac:(lia)) as W. fold h in W. pose proof (last_lt a b (S (S n)) Hab ltac:(lia)) as V. fold v in V.
  pose proof (Hw v ltac:(lra)) as Wv. assert (Pv : 0 < v * w v) by (apply Rmult_lt_0_compat; [lra | apply Hw; lra]).
  set (K := rest (fun s => s * w s) / (v * w v)).
  assert (PK : 0 <= K).
  { apply Rmult_le_pos; [|left; apply Rinv_0_lt_compat, Pv]. apply cond_pos_sum. intro i.
    assert (0 < a + (INR i + 1 / 2) * h) by (pose proof (pos_INR i); nra). left. apply Rmult_lt_0_compat; [assumption | apply Hw; assumption]. }
  apply (is_lim_le_le_loc (fun x => (v - 1 / x) * / (1 + K * exp (- (h * x)))) (fun _ => v)).
  - exists (1 / a). intros x Hx. assert (X : 1 < a * x) by (apply Rmult_lt_compat_l with (r := a) in Hx; [|exact Ha]; replace (a * (1 / a)) with 1 in Hx by (field; lra); exact Hx).
    assert (X0 : 0 < x) by (assert (0 < 1 / a) by (apply Rdiv_lt_0_compat; lra); lra).
    split; [|left; apply (mid_hooke a b (S (S n)) Ha Hab ltac:(lia) w Hw x X0)].
    assert (PS : 0 < sinh (x * v)) by (apply sinh_pos, Rmult_lt_0_compat; lra).
    assert (PD : 0 < mid (fun s => s * w s * sinh (x * s))).
    { apply mid_pos; [exact Hab | lia|]. intros s Hs. apply Rmult_lt_0_compat; [apply Rmult_lt_0_compat; [|apply Hw]; lra | apply sinh_pos, Rmult_lt_0_compat; lra]. }
    set (e := exp (- (h * x))). assert (Pe : 0 < e) by apply exp_pos.
    assert (D : mid (fun s => s * w s * sinh (x * s)) <= h * (v * w v * sinh (x * v) * (1 + K * e))).
    { rewrite mid_split. apply Rmult_le_compat_l; [lra|].
      assert (B : rest (fun s => s * w s * sinh (x * s)) <= e * sinh (x * v) * rest (fun s => s * w s)).
      { unfold rest. rewrite scal_sum. apply sum_Rle. intros i Hi. pose proof (rest_range i Hi) as RI. set (s := a + (INR i + 1 / 2) * h) in *.
        assert (0 < s * w s) by (apply Rmult_lt_0_compat; [|apply Hw]; lra). apply Rmult_le_compat_l; [lra|].
        pose proof (sinh_shift (x * v) (h * x) ltac:(nra) ltac:(nra)) as SS. fold e in SS.
        apply Rle_trans with (sinh (x * v - h * x)); [|exact SS].
        destruct (Req_dec (x * s) (x * v - h * x)) as [->|NE]; [lra|]. left.
        apply (increasing_of_derive sinh cosh); [nra | intros; apply is_derive_sinh | intros; apply cosh_pos]. }
      replace (rest (fun s => s * w s)) with (K * (v * w v)) in B by (unfold K; field; split; lra). lra. }
    assert (NN : h * (v * w v * ((x * v - 1) * sinh (x * v))) <= mid (fun s => s * w s * xch (x * s))).
    { rewrite mid_split. apply Rmult_le_compat_l; [lra|].
      assert (0 <= rest (fun s => s * w s * xch (x * s))).
      { apply cond_pos_sum. intro i. assert (0 < a + (INR i + 1 / 2) * h) by (pose proof (pos_INR i); nra).
        set (s := a + (INR i + 1 / 2) * h) in *. left. apply Rmult_lt_0_compat; [apply Rmult_lt_0_compat; [|apply Hw]; lra|].
        rewrite <- xch_0. apply xch_increasing; [lra | apply Rmult_lt_0_compat; lra]. }
      assert (v * w v * ((x * v - 1) * sinh (x * v)) <= v * w v * xch (x * v)) by (apply Rmult_le_compat_l; [lra | apply coth_ge, Rmult_lt_0_compat; lra]). lra. }
    assert (Q : 0 < 1 + K * e) by nra.
    apply Rmult_le_reg_r with (x * mid (fun s => s * w s * sinh (x * s))); [apply Rmult_lt_0_compat; assumption|].
    match goal with |- _ <= ?A / ?B * ?B => replace (A / B * B) with A by (field; lra) end.
    eapply Rle_trans; [|exact NN].
    replace ((v - 1 / x) * / (1 + K * e) * (x * mid (fun s => s * w s * sinh (x * s)))) with ((x * v - 1) * / (1 + K * e) * mid (fun s => s * w s * sinh (x * s))) by (field; lra).
    assert (0 <= (x * v - 1) * / (1 + K * e)) by (apply Rmult_le_pos; [nra | left; apply Rinv_0_lt_compat, Q]).
    eapply Rle_trans; [apply Rmult_le_compat_l; [assumption | exact D]|]. apply Req_le. field. lra.
  - replace (Finite v) with (Rbar_mult (v - 0) (/ (1 + K * 0))) by (cbn; f_equal; field).
    apply (is_lim_mult (fun x => v - 1 / x) (fun x => / (1 + K * exp (- (h * x)))) p_infty (v - 0) (/ (1 + K * 0))); [| |exact I].
    + apply is_lim_minus'; [apply is_lim_const | apply PNormal.inv_lim].
    + apply (is_lim_inv (fun x => 1 + K * exp (- (h * x))) p_infty (1 + K * 0)); [|intro H; injection H; lra].
      apply is_lim_plus'; [apply is_lim_const|]. apply (is_lim_scal_l (fun x => exp (- (h * x))) K p_infty 0), exp_lim_0, W.
  - apply is_lim_const.
Qed.
End MidpointStrong.

Lemma quadrature_saturates : forall (u : R -> R) smax f, 1 <= smax ->
  (forall x, 0 < x -> f x = midpoint_rule (fun s => s * exp (- u s) * xch (x * s)) (1 / 10 ^ 6) smax 64
    / (x * midpoint_rule (fun s => s * exp (- u s) * sinh (x * s)) (1 / 10 ^ 6) smax 64)) ->
  saturates f (last_node (1 / 10 ^ 6) smax 64).
Proof.
  intros u b f Hb E. split; [apply (quadrature_hooke u b f Hb E)|].
  set (a := 1 / 10 ^ 6) in *. assert (A : 0 < a < 1) by (unfold a; lra). clearbody a.
  eapply is_lim_ext_loc; [|apply (mid_saturates a b 62 ltac:(lra) ltac:(lra) (fun s => exp (- u s)) ltac:(intros; apply exp_pos))].
  exists 0. intros x Hx. symmetry. apply E, Hx.
Qed.

Lemma morse_saturates : forall kap eps, 0 < kap -> 0 < eps ->
  saturates (morse_isotensional.nondimensional_end_to_end_length_per_link kap eps) (last_node (1 / 10 ^ 6) (1 + ln 2 / sqrt (kap / eps / 2)) 64).
Proof.
  intros kap eps Hk He. apply (quadrature_saturates (morse_potential kap eps)); [|intros x Hx; apply morse_form; assumption].
  assert (S : 0 < sqrt (kap / eps / 2)) by (apply sqrt_lt_R0; apply Rdiv_lt_0_compat; [apply Rdiv_lt_0_compat; assumption | lra]).
  assert (L : 0 < ln 2) by (rewrite <- ln_1; apply ln_increasing; lra).
  assert (0 < ln 2 / sqrt (kap / eps / 2)) by (apply Rdiv_lt_0_compat; assumption). lra.
Qed.

Lemma log_squared_saturates : forall kap,
  saturates (log_squared_isotensional.nondimensional_end_to_end_length_per_link kap) (last_node (1 / 10 ^ 6) (exp 1) 64).
Proof.
  intros kap. apply (quadrature_saturates (log_squared_potential kap)); [pose proof (exp_ineq1_le 1); lra | intros x Hx; apply log_squared_form; assumption].
Qed.

Lemma lennard_jones_saturates : forall kap,
  saturates (lennard_jones_isotensional.nondimensional_end_to_end_length_per_link kap) (last_node (1 / 10 ^ 6) (Rpower (13 / 7) (1 / 6)) 64).
Proof.
  intros kap. apply (quadrature_saturates (lennard_jones_potential kap)); [apply lj_max | intros x Hx; apply lennard_jones_form; assumption].
Qed.

Lemma fjc_saturates : saturates (@fjc_isotensional.nondimensional_end_to_end_length_per_link R R_scalar) 1.
Proof.
  split; [intros x Hx; apply fjc_bounds, Hx|].
  apply (is_lim_le_le_loc (fun x => 1 - 1 / x) (fun _ => 1)).
  - exists 0. intros x Hx. split; [|left; apply fjc_bounds, Hx]. rewrite fjc_eq. pose proof (sinh_pos x Hx). pose proof (coth_ge x Hx) as C.
    replace (1 / tanh x - 1 / x) with (xch x / (x * sinh x)) by (unfold xch, tanh; pose proof (cosh_pos x); field; repeat split; lra).
    apply Rmult_le_reg_r with (x * sinh x); [apply Rmult_lt_0_compat; lra|].
    replace (xch x / (x * sinh x) * (x * sinh x)) with (xch x) by (field; lra). replace ((1 - 1 / x) * (x * sinh x)) with ((x - 1) * sinh x) by (field; lra). exact C.
  - replace (Finite 1) with (Rbar_minus 1 0) by (cbn; f_equal; ring). apply is_lim_minus'; [apply is_lim_const | apply PNormal.inv_lim].
  - apply is_lim_const.
Qed.
