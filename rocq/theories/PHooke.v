(** Weak pulls. *)
From Coq Require Import Reals ZArith List Lra Lia Psatz.
From Coquelicot Require Import Coquelicot.
From Verif Require Import Scalar MMath MConst MIdeal MFjc MSwfjc MMorse MLennardJones MLogSquared.
From Verif Require Import SpecPartition SpecInverse SpecHooke PBase PHyp PQuad PPartition PPartition2 PLimits PNormalChain.
Open Scope R_scope.

(** ** Bounds on hyperbolic functions *)
Lemma cosh_mono : forall a b, 0 <= a -> a <= b -> cosh a <= cosh b.
Proof.
  intros a b Ha Hab. destruct (Req_dec a b) as [->|N]; [lra|]. left.
  apply (increasing_of_derive cosh sinh); [lra | intros; apply is_derive_cosh | intros; apply sinh_pos; lra].
Qed.

Lemma nonneg_of_derive : forall (f df : R -> R) b, 0 <= b -> f 0 = 0 ->
  (forall x, 0 <= x <= b -> is_derive f x (df x)) -> (forall x, 0 < x < b -> 0 <= df x) -> 0 <= f b.
Proof.
  intros f df b Hb F0 D P. destruct (Req_dec b 0) as [->|N]; [lra|].
  destruct (MVT_cor2 f df 0 b ltac:(lra)) as (c & E & Hc).
  - intros c Hc. apply is_derive_Reals, D, Hc.
  - specialize (P c Hc). nra.
Qed.

Lemma sinh_ge : forall y, 0 <= y -> y <= sinh y.
Proof.
  intros y Hy. assert (0 <= sinh y - y); [|lra].
  apply (nonneg_of_derive (fun y => sinh y - y) (fun y => cosh y - 1)); [exact Hy | rewrite sinh_0; ring | | intros x _; pose proof (cosh_ge_1 x); lra].
  intros x _. auto_derive; [exact I | ring].
Qed.

Lemma sinh_le : forall y, 0 <= y -> sinh y <= y * cosh y.
Proof.
  intros y Hy. destruct (Req_dec y 0) as [->|N]; [rewrite sinh_0; lra|].
  pose proof (xch_increasing 0 y ltac:(lra) ltac:(lra)) as H. rewrite xch_0 in H. unfold xch in H. lra.
Qed.

Lemma xch_ge : forall y, 0 <= y -> y ^ 3 / 3 <= xch y.
Proof.
  intros y Hy. assert (0 <= xch y - y ^ 3 / 3); [|lra].
  apply (nonneg_of_derive (fun y => xch y - y ^ 3 / 3) (fun y => y * sinh y - y ^ 2)); [exact Hy | rewrite xch_0; field | |].
  - intros x _. unfold xch. auto_derive; [exact I | field].
  - intros x Hx. pose proof (sinh_ge x ltac:(lra)). nra.
Qed.

Lemma xch_le : forall y, 0 <= y -> xch y <= y ^ 3 / 3 * cosh y.
Proof.
  intros y Hy. assert (0 <= y ^ 3 / 3 * cosh y - xch y); [|lra].
  apply (nonneg_of_derive (fun y => y ^ 3 / 3 * cosh y - xch y) (fun y => y ^ 2 * cosh y + y ^ 3 / 3 * sinh y - y * sinh y)); [exact Hy | rewrite xch_0; field | |].
  - intros x _. unfold xch. auto_derive; [exact I | field].
  - intros x Hx. pose proof (sinh_le x ltac:(lra)). pose proof (sinh_pos x ltac:(lra)).
    assert (0 < x ^ 3 / 3 * sinh x) by (apply Rmult_lt_0_compat; [apply Rdiv_lt_0_compat; [apply pow_lt|]; lra | assumption]).
    assert (x * sinh x <= x * (x * cosh x)) by (apply Rmult_le_compat_l; lra). nra.
Qed.

Lemma xch_lt : forall y, 0 < y -> xch y < y * sinh y.
Proof.
  intros y Hy. assert (E : y * sinh y - xch y = exp (- y) * ((exp (2 * y) - 1 - 2 * y) / 2)).
  { unfold xch, cosh, sinh. replace (exp (2 * y)) with (exp y * exp y) by (rewrite <- exp_plus; f_equal; ring).
    assert (X : exp (- y) * exp y = 1) by (rewrite <- exp_plus; replace (- y + y) with 0 by ring; apply exp_0).
    replace (exp (- y) * ((exp y * exp y - 1 - 2 * y) / 2)) with ((exp (- y) * exp y * exp y - exp (- y) - 2 * y * exp (- y)) / 2) by field.
    rewrite X. field. }
  pose proof (exp_ineq1 (2 * y) ltac:(lra)). assert (0 < exp (- y) * ((exp (2 * y) - 1 - 2 * y) / 2)) by (apply Rmult_lt_0_compat; [apply exp_pos | lra]). lra.
Qed.

(** ** A chain whose extension is a quotient of sums over the link lengths *)
Lemma quotient_bounds : forall n d m4 m2 c x v, 0 < x -> 0 < m4 -> 0 < m2 -> 1 <= c ->
  x ^ 3 * m4 / 3 <= n <= x ^ 3 * m4 / 3 * c -> x ^ 2 * m2 <= d <= x ^ 2 * m2 * c -> n < v * d ->
  (m4 / m2) * x / 3 / c <= n / d <= (m4 / m2) * x / 3 * c /\ n / d < v.
Proof.
  intros n d m4 m2 c x v Hx H4 H2 Hc [N1 N2] [D1 D2] L.
  assert (X2 : 0 < x ^ 2) by (apply pow_lt, Hx). assert (X3 : 0 < x ^ 3) by (apply pow_lt, Hx).
  assert (P2 : 0 < x ^ 2 * m2) by (apply Rmult_lt_0_compat; assumption). assert (P : 0 < d) by lra.
  assert (P4 : 0 < x ^ 3 * m4) by (apply Rmult_lt_0_compat; assumption).
  repeat split.
  - apply Rmult_le_reg_r with (d * c); [nra|]. replace (n / d * (d * c)) with (n * c) by (field; lra).
    replace (m4 / m2 * x / 3 / c * (d * c)) with (x ^ 3 * m4 / 3 * (d / (x ^ 2 * m2))) by (field; lra).
    apply Rle_trans with (x ^ 3 * m4 / 3 * c).
    + apply Rmult_le_compat_l; [lra|]. apply Rmult_le_reg_r with (x ^ 2 * m2); [exact P2|].
      replace (d / (x ^ 2 * m2) * (x ^ 2 * m2)) with d by (field; lra). lra.
    + apply Rmult_le_compat_r; lra.
  - apply Rmult_le_reg_r with d; [exact P|]. replace (n / d * d) with n by (field; lra).
    apply Rle_trans with (x ^ 3 * m4 / 3 * c); [exact N2|].
    replace (m4 / m2 * x / 3 * c * d) with (x ^ 3 * m4 / 3 * c * (d / (x ^ 2 * m2))) by (field; lra).
    rewrite <- (Rmult_1_r (x ^ 3 * m4 / 3 * c)) at 1. apply Rmult_le_compat_l; [nra|].
    apply Rmult_le_reg_r with (x ^ 2 * m2); [exact P2|]. replace (d / (x ^ 2 * m2) * (x ^ 2 * m2)) with d by (field; lra). lra.
  - apply Rmult_lt_reg_r with d; [exact P|]. replace (n / d * d) with n by (field; lra). exact L.
Qed.

Lemma fjc_hooke : linear_within (@fjc_isotensional.nondimensional_end_to_end_length_per_link R R_scalar) 1 1.
Proof.
  intros x Hx. rewrite fjc_eq, Rmult_1_l. pose proof (cosh_ge_1 x). pose proof (sinh_pos x Hx). pose proof (cosh_pos x).
  replace (1 / tanh x - 1 / x) with (xch x / (x * sinh x)) by (unfold xch, tanh; field; repeat split; lra).
  destruct (quotient_bounds (xch x) (x * sinh x) 1 1 (cosh x) x 1) as [B _]; try lra.
  - pose proof (xch_ge x ltac:(lra)). pose proof (xch_le x ltac:(lra)). lra.
  - pose proof (sinh_ge x ltac:(lra)). pose proof (sinh_le x ltac:(lra)). nra.
  - pose proof (xch_lt x Hx). lra.
Qed.

(** The slope at zero force follows. *)
Lemma hooke_slope : forall f m v, linear_within f m v -> weak_slope f (m / 3).
Proof.
  intros f m v H. apply (squeeze_right (fun x => f x / x) (fun x => m / 3 * / cosh (v * x)) (fun x => m / 3 * cosh (v * x)) (m / 3)).
  - intros x Hx. destruct (H x Hx) as [A B]. pose proof (cosh_pos (v * x)). split.
    + apply Rmult_le_reg_r with x; [exact Hx|]. replace (f x / x * x) with (f x) by (field; lra).
      replace (m / 3 * / cosh (v * x) * x) with (m * x / 3 / cosh (v * x)) by (field; lra). exact A.
    + apply Rmult_le_reg_r with x; [exact Hx|]. replace (f x / x * x) with (f x) by (field; lra).
      replace (m / 3 * cosh (v * x) * x) with (m * x / 3 * cosh (v * x)) by field. exact B.
  - apply (ex_derive_continuous (V := R_NormedModule)). auto_derive. pose proof (cosh_pos (v * 0)); lra.
  - apply (ex_derive_continuous (V := R_NormedModule)). auto_derive. exact I.
  - rewrite Rmult_0_r, cosh_0. field.
  - rewrite Rmult_0_r, cosh_0. field.
Qed.

(** ** Midpoint sums *)
Section Midpoint.
Variables (a b : R) (n : nat).
Hypothesis Ha : 0 < a.
Hypothesis Hab : a < b.
Hypothesis Hn : (0 < n)%nat.
Let v := last_node a b n.

Lemma width_pos : 0 < (b - a) / INR n.
Proof using Hab Hn. apply Rdiv_lt_0_compat; [lra | apply lt_0_INR, Hn]. Qed.

Lemma node_range : forall i, (i <= n - 1)%nat -> a < a + (INR i + 1 / 2) * ((b - a) / INR n) <= v.
Proof using Hab Hn.
  intros i Hi. pose proof width_pos. pose proof (pos_INR i). assert (Pn : 0 < INR n) by (apply lt_0_INR, Hn).
  assert (E : INR n * ((b - a) / INR n) = b - a) by (field; lra). assert (INR i + 1 <= INR n) by (rewrite <- S_INR; apply le_INR; lia).
  unfold v, last_node. split; nra.
Qed.

Lemma last_lt : a < v < b.
Proof using Hab Hn. pose proof (node_range 0 ltac:(lia)). pose proof width_pos. unfold v, last_node in *. lra. Qed.

Lemma mid_le : forall f g, (forall s, a < s <= v -> f s <= g s) -> midpoint_rule f a b n <= midpoint_rule g a b n.
Proof using Hab Hn.
  intros f g H. unfold midpoint_rule. apply Rmult_le_compat_l; [left; apply width_pos|]. apply sum_Rle. intros i Hi. apply H, node_range, Hi.
Qed.

Lemma mid_pos : forall f, (forall s, a < s <= v -> 0 < f s) -> 0 < midpoint_rule f a b n.
Proof using Hab Hn.
  intros f H. unfold midpoint_rule. apply Rmult_lt_0_compat; [apply width_pos|].
  assert (P : forall k, (k <= n - 1)%nat -> 0 < sum_f_R0 (fun i => f (a + (INR i + 1 / 2) * ((b - a) / INR n))) k).
  { induction k as [|k IH]; intro Hk; cbn [sum_f_R0].
    - apply H, node_range, Hk.
    - pose proof (IH ltac:(lia)). pose proof (H _ (node_range (S k) Hk)). lra. }
  apply P. lia.
Qed.

Lemma mid_scal : forall f c, midpoint_rule (fun s => c * f s) a b n = c * midpoint_rule f a b n.
Proof.
  intros f c. unfold midpoint_rule. rewrite (Rmult_comm c), Rmult_assoc. f_equal. rewrite Rmult_comm, scal_sum. apply sum_eq. intros i _. ring.
Qed.

Lemma mid_minus : forall f g, midpoint_rule (fun s => f s - g s) a b n = midpoint_rule f a b n - midpoint_rule g a b n.
Proof. intros f g. unfold midpoint_rule. rewrite minus_sum. ring. Qed.

Lemma mid_same : forall f g, (forall s, a < s <= v -> f s = g s) -> midpoint_rule f a b n = midpoint_rule g a b n.
Proof using Hab Hn. intros f g H. apply Rle_antisym; apply mid_le; intros s Hs; rewrite H by exact Hs; lra. Qed.

(** [w s] is the Boltzmann factor of a link of length s. *)
Variable w : R -> R.
Hypothesis Hw : forall s, 0 < s -> 0 < w s.

Lemma mid_hooke : forall x, 0 < x ->
  let square := midpoint_rule (fun s => s ^ 2 * (s ^ 2 * w s)) a b n / midpoint_rule (fun s => s ^ 2 * w s) a b n in
  let f := midpoint_rule (fun s => s * w s * xch (x * s)) a b n / (x * midpoint_rule (fun s => s * w s * sinh (x * s)) a b n) in
  square * x / 3 / cosh (v * x) <= f <= square * x / 3 * cosh (v * x) /\ f < v.
Proof using Ha Hab Hn Hw.
  intros x Hx square f. pose proof last_lt as V.
  assert (W : forall s, a < s <= v -> 0 < s * w s) by (intros s Hs; apply Rmult_lt_0_compat; [|apply Hw]; lra).
  assert (XS : forall s, a < s <= v -> 0 < x * s <= v * x) by (intros s Hs; nra).
  assert (C : forall s, a < s <= v -> cosh (x * s) <= cosh (v * x)) by (intros s Hs; apply cosh_mono; apply XS in Hs; lra).
  apply quotient_bounds; try assumption.
  - apply mid_pos. intros s Hs. specialize (W s Hs). assert (0 < s ^ 3) by (apply pow_lt; lra). replace (s ^ 2 * (s ^ 2 * w s)) with (s ^ 3 * (s * w s)) by ring. nra.
  - apply mid_pos. intros s Hs. specialize (W s Hs). replace (s ^ 2 * w s) with (s * (s * w s)) by ring. nra.
  - apply cosh_ge_1.
  - split.
    + replace (x ^ 3 * midpoint_rule (fun s => s ^ 2 * (s ^ 2 * w s)) a b n / 3) with (x ^ 3 / 3 * midpoint_rule (fun s => s ^ 2 * (s ^ 2 * w s)) a b n) by field.
      rewrite <- mid_scal. apply mid_le. intros s Hs. specialize (W s Hs). pose proof (xch_ge (x * s) ltac:(apply XS in Hs; lra)).
      replace (x ^ 3 / 3 * (s ^ 2 * (s ^ 2 * w s))) with (s * w s * ((x * s) ^ 3 / 3)) by field. apply Rmult_le_compat_l; lra.
    + replace (x ^ 3 * midpoint_rule (fun s => s ^ 2 * (s ^ 2 * w s)) a b n / 3 * cosh (v * x)) with (x ^ 3 / 3 * cosh (v * x) * midpoint_rule (fun s => s ^ 2 * (s ^ 2 * w s)) a b n) by field.
      rewrite <- mid_scal. apply mid_le. intros s Hs. specialize (W s Hs). pose proof (xch_le (x * s) ltac:(apply XS in Hs; lra)). specialize (C s Hs).
      replace (x ^ 3 / 3 * cosh (v * x) * (s ^ 2 * (s ^ 2 * w s))) with (s * w s * ((x * s) ^ 3 / 3 * cosh (v * x))) by field. apply Rmult_le_compat_l; [lra|].
      eapply Rle_trans; [eassumption|]. apply Rmult_le_compat_l; [|exact C]. apply XS in Hs. assert (0 < (x * s) ^ 3) by (apply pow_lt; lra). lra.
  - split.
    + rewrite <- !mid_scal. apply mid_le. intros s Hs. specialize (W s Hs). pose proof (sinh_ge (x * s) ltac:(apply XS in Hs; lra)).
      replace (x ^ 2 * (s ^ 2 * w s)) with (x * (s * w s * (x * s))) by ring. apply Rmult_le_compat_l; [lra|]. apply Rmult_le_compat_l; lra.
    + replace (x ^ 2 * midpoint_rule (fun s => s ^ 2 * w s) a b n * cosh (v * x)) with (x ^ 2 * cosh (v * x) * midpoint_rule (fun s => s ^ 2 * w s) a b n) by ring.
      rewrite <- !mid_scal. apply mid_le. intros s Hs. specialize (W s Hs). pose proof (sinh_le (x * s) ltac:(apply XS in Hs; lra)). specialize (C s Hs).
      replace (x ^ 2 * cosh (v * x) * (s ^ 2 * w s)) with (x * (s * w s * (x * s * cosh (v * x)))) by ring. apply Rmult_le_compat_l; [lra|]. apply Rmult_le_compat_l; [lra|].
      eapply Rle_trans; [eassumption|]. apply Rmult_le_compat_l; [|exact C]. apply XS in Hs. lra.
  - rewrite <- !mid_scal. apply Rminus_gt_0_lt. rewrite <- mid_minus. apply mid_pos. intros s Hs. specialize (W s Hs).
    pose proof (XS s Hs). pose proof (xch_lt (x * s) ltac:(lra)). pose proof (sinh_pos (x * s) ltac:(lra)).
    assert (x * s * sinh (x * s) <= v * x * sinh (x * s)) by (apply Rmult_le_compat_r; lra).
    replace (v * (x * (s * w s * sinh (x * s))) - s * w s * xch (x * s)) with (s * w s * (v * x * sinh (x * s) - xch (x * s))) by ring.
    apply Rmult_lt_0_compat; lra.
Qed.
End Midpoint.

Lemma quadrature_length : forall (u : R -> R) smax x, 1 <= smax -> 0 < x ->
  math.integrate_1d (fun t =>
       (exp (x * t - u t + 2 * ln t - ln x) + exp (x * t - u t + 2 * ln t - ln x - 2 * x * t)
        - exp (x * t - u t + 2 * ln t - ln x - ln t - ln x)
        + exp (x * t - u t + 2 * ln t - ln x - ln t - ln x - 2 * x * t))
       / math.integrate_1d (fun t =>
           exp (x * t - u t + ln t - ln x) - exp (x * t - u t + ln t - ln x - 2 * x * t)) (1 / 10 ^ 6) smax 64) (1 / 10 ^ 6) smax 64
  = midpoint_rule (fun s => s * exp (- u s) * xch (x * s)) (1 / 10 ^ 6) smax 64
    / (x * midpoint_rule (fun s => s * exp (- u s) * sinh (x * s)) (1 / 10 ^ 6) smax 64).
Proof.
  intros u b x Hb Hx. change 64%Z with (Z.of_nat 64). rewrite !integrate_midpoint by lia.
  set (a := 1 / 10 ^ 6). assert (A : 0 < a < 1) by (unfold a; lra). clearbody a.
  assert (X : exp (- ln x) = / x) by (rewrite exp_Ropp, exp_ln by exact Hx; reflexivity).
  rewrite (mid_same a b 64 ltac:(lra) ltac:(lia) (fun t => exp (x * t - u t + ln t - ln x) - exp (x * t - u t + ln t - ln x - 2 * x * t))
    (fun s => 2 / x * (s * exp (- u s) * sinh (x * s)))).
  2:{ intros s Hs. rewrite integrand by lra. rewrite weight_value by lra. field. lra. }
  rewrite mid_scal. set (D := midpoint_rule (fun s => s * exp (- u s) * sinh (x * s)) a b 64).
  assert (PD : 0 < D).
  { apply mid_pos; [lra | lia |]. intros s Hs. apply Rmult_lt_0_compat; [apply Rmult_lt_0_compat; [lra | apply exp_pos]|]. apply sinh_pos, Rmult_lt_0_compat; lra. }
  rewrite (mid_same a b 64 ltac:(lra) ltac:(lia) _ (fun s => / (x * D) * (s * exp (- u s) * xch (x * s)))).
  - rewrite mid_scal. field. lra.
  - intros s Hs. 
    replace (exp (x * s - u s + 2 * ln s - ln x)) with (s ^ 2 * exp (x * s) * exp (- u s) / x).
    2:{ replace (x * s - u s + 2 * ln s - ln x) with (x * s + (- u s + (ln s + (ln s + - ln x)))) by ring. rewrite !exp_plus, X, exp_ln by lra. field. lra. }
    replace (exp (x * s - u s + 2 * ln s - ln x - 2 * x * s)) with (s ^ 2 * exp (- (x * s)) * exp (- u s) / x).
    2:{ replace (x * s - u s + 2 * ln s - ln x - 2 * x * s) with (- (x * s) + (- u s + (ln s + (ln s + - ln x)))) by ring. rewrite !exp_plus, X, exp_ln by lra. field. lra. }
    replace (exp (x * s - u s + 2 * ln s - ln x - ln s - ln x)) with (s * exp (x * s) * exp (- u s) / x ^ 2).
    2:{ replace (x * s - u s + 2 * ln s - ln x - ln s - ln x) with (x * s + (- u s + (ln s + (- ln x + - ln x)))) by ring. rewrite !exp_plus, X, exp_ln by lra. field. lra. }
    replace (exp (x * s - u s + 2 * ln s - ln x - ln s - ln x - 2 * x * s)) with (s * exp (- (x * s)) * exp (- u s) / x ^ 2).
    2:{ replace (x * s - u s + 2 * ln s - ln x - ln s - ln x - 2 * x * s) with (- (x * s) + (- u s + (ln s + (- ln x + - ln x)))) by ring. rewrite !exp_plus, X, exp_ln by lra. field. lra. }
    unfold xch, cosh, sinh. field. lra.
Qed.

Lemma quadrature_hooke : forall (u : R -> R) smax f, 1 <= smax ->
  (forall x, 0 < x -> f x = midpoint_rule (fun s => s * exp (- u s) * xch (x * s)) (1 / 10 ^ 6) smax 64
    / (x * midpoint_rule (fun s => s * exp (- u s) * sinh (x * s)) (1 / 10 ^ 6) smax 64)) ->
  linear_within f (mean_square u (1 / 10 ^ 6) smax 64) (last_node (1 / 10 ^ 6) smax 64) /\
  forall x, 0 < x -> f x < last_node (1 / 10 ^ 6) smax 64.
Proof.
  intros u b f Hb E. set (a := 1 / 10 ^ 6) in *. assert (A : 0 < a < 1) by (unfold a; lra). clearbody a.
  assert (H : forall x, 0 < x -> mean_square u a b 64 * x / 3 / cosh (last_node a b 64 * x) <= f x <= mean_square u a b 64 * x / 3 * cosh (last_node a b 64 * x) /\ f x < last_node a b 64).
  { intros x Hx. rewrite E by exact Hx. apply (mid_hooke a b 64 ltac:(lra) ltac:(lra) ltac:(lia) (fun s => exp (- u s)) ltac:(intros; apply exp_pos) x Hx). }
  split; intros x Hx; apply (H x Hx).
Qed.

Lemma morse_form : forall kap eps x, 0 < kap -> 0 < eps -> 0 < x ->
  morse_isotensional.nondimensional_end_to_end_length_per_link kap eps x
  = midpoint_rule (fun s => s * exp (- morse_potential kap eps s) * xch (x * s)) (1 / 10 ^ 6) (1 + ln 2 / sqrt (kap / eps / 2)) 64
    / (x * midpoint_rule (fun s => s * exp (- morse_potential kap eps s) * sinh (x * s)) (1 / 10 ^ 6) (1 + ln 2 / sqrt (kap / eps / 2)) 64).
Proof.
  intros kap eps x Hk He Hn.
  assert (S : 0 < sqrt (kap / eps / 2)) by (apply sqrt_lt_R0; apply Rdiv_lt_0_compat; [apply Rdiv_lt_0_compat; assumption | lra]).
  assert (L : 0 < ln 2) by (rewrite <- ln_1; apply ln_increasing; lra).
  rewrite <- quadrature_length; [| assert (0 < ln 2 / sqrt (kap / eps / 2)) by (apply Rdiv_lt_0_compat; assumption); lra | exact Hn].
  unfold morse_potential. replace (kap / (2 * eps)) with (kap / eps / 2) by (field; lra).
  replace (1 / 10 ^ 6) with (1 / 1000000) by field. reflexivity.
Qed.

Lemma log_squared_form : forall kap x, 0 < x ->
  log_squared_isotensional.nondimensional_end_to_end_length_per_link kap x
  = midpoint_rule (fun s => s * exp (- log_squared_potential kap s) * xch (x * s)) (1 / 10 ^ 6) (exp 1) 64
    / (x * midpoint_rule (fun s => s * exp (- log_squared_potential kap s) * sinh (x * s)) (1 / 10 ^ 6) (exp 1) 64).
Proof.
  intros kap x Hn. rewrite <- quadrature_length; [| pose proof (exp_ineq1_le 1); lra | exact Hn].
  unfold log_squared_potential. replace (kap / 2) with (5 / 10 * kap) by field.
  replace (1 / 10 ^ 6) with (1 / 1000000) by field. reflexivity.
Qed.

Lemma lj_max : 1 <= Rpower (13 / 7) (1 / 6).
Proof. unfold Rpower. assert (0 < ln (13 / 7)) by (rewrite <- ln_1; apply ln_increasing; lra). pose proof (exp_ineq1_le (1 / 6 * ln (13 / 7))). lra. Qed.

Lemma lennard_jones_form : forall kap x, 0 < x ->
  lennard_jones_isotensional.nondimensional_end_to_end_length_per_link kap x
  = midpoint_rule (fun s => s * exp (- lennard_jones_potential kap s) * xch (x * s)) (1 / 10 ^ 6) (Rpower (13 / 7) (1 / 6)) 64
    / (x * midpoint_rule (fun s => s * exp (- lennard_jones_potential kap s) * sinh (x * s)) (1 / 10 ^ 6) (Rpower (13 / 7) (1 / 6)) 64).
Proof.
  intros kap x Hn. rewrite <- quadrature_length; [| apply lj_max | exact Hn].
  unfold lennard_jones_potential. replace (1 / 10 ^ 6) with (1 / 1000000) by field. rewrite <- PIdealDist.Rpowf_pos by lra. reflexivity.
Qed.

Lemma morse_hooke : forall kap eps, 0 < kap -> 0 < eps ->
  let longest := last_node (1 / 10 ^ 6) (1 + ln 2 / sqrt (kap / eps / 2)) 64 in
  let f := morse_isotensional.nondimensional_end_to_end_length_per_link kap eps in
  linear_within f (mean_square (morse_potential kap eps) (1 / 10 ^ 6) (1 + ln 2 / sqrt (kap / eps / 2)) 64) longest /\ forall x, 0 < x -> f x < longest.
Proof.
  intros kap eps Hk He. apply quadrature_hooke; [|intros x Hx; apply morse_form; assumption].
  assert (S : 0 < sqrt (kap / eps / 2)) by (apply sqrt_lt_R0; apply Rdiv_lt_0_compat; [apply Rdiv_lt_0_compat; assumption | lra]).
  assert (L : 0 < ln 2) by (rewrite <- ln_1; apply ln_increasing; lra).
  assert (0 < ln 2 / sqrt (kap / eps / 2)) by (apply Rdiv_lt_0_compat; assumption). lra.
Qed.

Lemma log_squared_hooke : forall kap,
  let longest := last_node (1 / 10 ^ 6) (exp 1) 64 in
  let f := log_squared_isotensional.nondimensional_end_to_end_length_per_link kap in
  linear_within f (mean_square (log_squared_potential kap) (1 / 10 ^ 6) (exp 1) 64) longest /\ forall x, 0 < x -> f x < longest.
Proof. intros kap. apply quadrature_hooke; [pose proof (exp_ineq1_le 1); lra | intros x Hx; apply log_squared_form; assumption]. Qed.

Lemma lennard_jones_hooke : forall kap,
  let longest := last_node (1 / 10 ^ 6) (Rpower (13 / 7) (1 / 6)) 64 in
  let f := lennard_jones_isotensional.nondimensional_end_to_end_length_per_link kap in
  linear_within f (mean_square (lennard_jones_potential kap) (1 / 10 ^ 6) (Rpower (13 / 7) (1 / 6)) 64) longest /\ forall x, 0 < x -> f x < longest.
Proof. intros kap. apply quadrature_hooke; [apply lj_max | intros x Hx; apply lennard_jones_form; assumption]. Qed.
