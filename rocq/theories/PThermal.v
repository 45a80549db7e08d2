(** The Gibbs free energy is jointly concave in force and temperature. *)
From Coq Require Import Reals ZArith Lra Lia.
From Coquelicot Require Import Coquelicot.
From Verif Require Import Scalar MMath MConst MIdeal MFjc MSwfjc MEfjc MMorse MLennardJones MLogSquared.
From Verif Require Import SpecThermo SpecChains SpecPartition SpecInverse SpecStability SpecLangevin SpecThermal SpecWorm.
From Verif Require Import MWlc PWorm PBase PHyp PConj PConjQuad PConvex PPartition PPartition2 PStability.
From Verif Require PLangevin PSigmoid PIdentIdeal PIdentFjc PIdentSwfjc PIdentEfjc PIdentMorse PIdentLennardJones PIdentLogSquared.
Open Scope R_scope.

(** ** Convex functions of one and of two positive variables *)
Definition convex1 (p : R -> R) : Prop :=
  forall x y s, 0 < x -> 0 < y -> 0 < s < 1 -> p (s * x + (1 - s) * y) <= s * p x + (1 - s) * p y.

Lemma convex_of_derive : forall p dp : R -> R, (forall x, 0 < x -> is_derive p x (dp x)) -> (forall u v, 0 < u -> u < v -> dp u <= dp v) ->
  convex1 p.
Proof.
  intros p dp D M.
  assert (W : forall x y s : R, 0 < x -> x < y -> 0 < s < 1 -> p (s * x + (1 - s) * y) <= s * p x + (1 - s) * p y).
  { intros x y s Hx Hxy Hs. set (z := s * x + (1 - s) * y).
    assert (Z : x < z < y) by (unfold z; split; nra).
    destruct (MVT_cor2 p dp x z) as (a & Ea & Ha); [lra | intros c Hc; apply is_derive_Reals, D; lra|].
    destruct (MVT_cor2 p dp z y) as (b & Eb & Hb); [lra | intros c Hc; apply is_derive_Reals, D; lra|].
    pose proof (M a b ltac:(lra) ltac:(lra)) as Mab.
    assert (Q : 0 <= (dp b - dp a) * (s * (1 - s) * (y - x))) by (apply Rmult_le_pos; [lra | apply Rmult_le_pos; nra]).
    assert (E1 : z - x = (1 - s) * (y - x)) by (unfold z; ring). assert (E2 : y - z = s * (y - x)) by (unfold z; ring).
    rewrite E1 in Ea. rewrite E2 in Eb. nra. }
  intros x y s Hx Hy Hs. destruct (Rtotal_order x y) as [H|[H|H]].
  - apply W; assumption.
  - subst y. right. replace (s * x + (1 - s) * x) with x by ring. ring.
  - pose proof (W y x (1 - s) Hy H ltac:(lra)) as Q. replace ((1 - s) * y + (1 - (1 - s)) * x) with (s * x + (1 - s) * y) in Q by ring. lra.
Qed.

Definition convex2 (p : R -> R -> R) : Prop :=
  forall x1 b1 x2 b2 s, 0 < x1 -> 0 < b1 -> 0 < x2 -> 0 < b2 -> 0 < s < 1 ->
    p (s * x1 + (1 - s) * x2) (s * b1 + (1 - s) * b2) <= s * p x1 b1 + (1 - s) * p x2 b2.

Lemma mix_pos : forall x y s, 0 < x -> 0 < y -> 0 < s < 1 -> 0 < s * x + (1 - s) * y.
Proof. intros. apply Rplus_lt_0_compat; apply Rmult_lt_0_compat; lra. Qed.

Lemma convex2_fst : forall p, convex1 p -> convex2 (fun x _ => p x).
Proof. intros p H x1 b1 x2 b2 s H1 _ H2 _ Hs. apply H; assumption. Qed.
Lemma convex2_snd : forall p, convex1 p -> convex2 (fun _ b => p b).
Proof. intros p H x1 b1 x2 b2 s _ H1 _ H2 Hs. apply H; assumption. Qed.
Lemma convex2_plus : forall p q, convex2 p -> convex2 q -> convex2 (fun x b => p x b + q x b).
Proof.
  intros p q Hp Hq x1 b1 x2 b2 s H1 H2 H3 H4 Hs.
  pose proof (Hp x1 b1 x2 b2 s H1 H2 H3 H4 Hs). pose proof (Hq x1 b1 x2 b2 s H1 H2 H3 H4 Hs). lra.
Qed.
Lemma convex2_ext : forall p q, (forall x b, 0 < x -> 0 < b -> p x b = q x b) -> convex2 q -> convex2 p.
Proof.
  intros p q E H x1 b1 x2 b2 s H1 H2 H3 H4 Hs. rewrite !E; try assumption; try (apply mix_pos; assumption). apply H; assumption.
Qed.
Lemma convex1_affine : forall a c, convex1 (fun b => a * b + c).
Proof. intros a c x y s _ _ _. right. ring. Qed.
Lemma convex1_scale : forall p k, 0 < k -> convex1 p -> convex1 (fun x => p (k * x)).
Proof.
  intros p k Hk H x y s Hx Hy Hs. replace (k * (s * x + (1 - s) * y)) with (s * (k * x) + (1 - s) * (k * y)) by ring.
  apply H; try assumption; apply Rmult_lt_0_compat; assumption.
Qed.

Lemma neg_ln_convex : forall a, 0 <= a -> convex1 (fun b => - (a * ln b)).
Proof.
  intros a Ha. apply (convex_of_derive _ (fun b => - (a * / b))).
  - intros x Hx. auto_derive; [exact Hx | ring].
  - intros u v Hu Huv. assert (/ v <= / u) by (apply Rinv_le_contravar; lra). nra.
Qed.

(** x^2 / b *)
Lemma quadratic_over : forall a, 0 <= a -> convex2 (fun x b => a * (x ^ 2 / b)).
Proof.
  intros a Ha x1 b1 x2 b2 s H1 H2 H3 H4 Hs. pose proof (mix_pos b1 b2 s H2 H4 Hs) as B.
  assert (E : s * (x1 ^ 2 / b1) + (1 - s) * (x2 ^ 2 / b2) - (s * x1 + (1 - s) * x2) ^ 2 / (s * b1 + (1 - s) * b2)
    = s * (1 - s) * (x1 * b2 - x2 * b1) ^ 2 / (b1 * b2 * (s * b1 + (1 - s) * b2))) by (field; repeat split; lra).
  assert (0 <= s * (1 - s) * (x1 * b2 - x2 * b1) ^ 2 / (b1 * b2 * (s * b1 + (1 - s) * b2))).
  { apply Rle_mult_inv_pos; [apply Rmult_le_pos; [nra | apply pow2_ge_0] | repeat apply Rmult_lt_0_compat; assumption]. }
  rewrite <- E in H. nra.
Qed.

(** Sums of exponentials of convex functions: the inequality of Hoelder. *)
Lemma exp_convex : forall s p q, 0 < s < 1 -> exp (s * p + (1 - s) * q) <= s * exp p + (1 - s) * exp q.
Proof.
  intros s p q Hs. set (z := s * p + (1 - s) * q).
  assert (T : forall y, exp z * (1 + (y - z)) <= exp y).
  { intro y. replace (exp y) with (exp z * exp (y - z)) by (rewrite <- exp_plus; f_equal; ring).
    apply Rmult_le_compat_l; [left; apply exp_pos|]. destruct (Req_dec (y - z) 0) as [E|E]; [rewrite E, exp_0; lra | pose proof (exp_ineq1 _ E); lra]. }
  pose proof (T p) as P. pose proof (T q) as Q. assert (E : s * (p - z) + (1 - s) * (q - z) = 0) by (unfold z; ring).
  apply Rle_trans with (s * (exp z * (1 + (p - z))) + (1 - s) * (exp z * (1 + (q - z)))).
  - right. replace (s * (exp z * (1 + (p - z))) + (1 - s) * (exp z * (1 + (q - z)))) with (exp z * (1 + (s * (p - z) + (1 - s) * (q - z)))) by ring. rewrite E. ring.
  - apply Rplus_le_compat; apply Rmult_le_compat_l; lra.
Qed.

Lemma sum_pos : forall (a : nat -> R) n, (forall i, 0 < a i) -> 0 < sum_f_R0 a n.
Proof. intros a n H. induction n as [|n IH]; cbn [sum_f_R0]; [apply H | pose proof (H (S n)); lra]. Qed.

Lemma hoelder : forall n (a b c : nat -> R) s, 0 < s < 1 -> (forall i, 0 < a i) -> (forall i, 0 < b i) -> (forall i, 0 < c i) ->
  (forall i, ln (c i) <= s * ln (a i) + (1 - s) * ln (b i)) ->
  ln (sum_f_R0 c n) <= s * ln (sum_f_R0 a n) + (1 - s) * ln (sum_f_R0 b n).
Proof.
  intros n a b c s Hs Ha Hb Hc H. set (A := sum_f_R0 a n). set (B := sum_f_R0 b n).
  assert (PA : 0 < A) by (apply sum_pos; assumption). assert (PB : 0 < B) by (apply sum_pos; assumption).
  set (M := exp (s * ln A + (1 - s) * ln B)). assert (PM : 0 < M) by apply exp_pos.
  assert (K : sum_f_R0 c n <= sum_f_R0 (fun i => M * (s / A * a i + (1 - s) / B * b i)) n).
  { apply sum_Rle. intros i _.
    apply Rle_trans with (exp (s * ln (a i) + (1 - s) * ln (b i))).
    - rewrite <- (exp_ln (c i)) by apply Hc. destruct (H i) as [L|L]; [left; apply exp_increasing; exact L | rewrite L; right; reflexivity].
    - replace (s * ln (a i) + (1 - s) * ln (b i)) with ((s * ln A + (1 - s) * ln B) + (s * (ln (a i) - ln A) + (1 - s) * (ln (b i) - ln B))) by ring.
      rewrite exp_plus. fold M. apply Rmult_le_compat_l; [lra|]. apply Rle_trans with (1 := exp_convex s _ _ Hs).
      right. rewrite <- !ln_div by (try assumption; auto). rewrite !exp_ln by (apply Rdiv_lt_0_compat; auto). field. split; lra. }
  assert (E : sum_f_R0 (fun i => M * (s / A * a i + (1 - s) / B * b i)) n = M).
  { replace (sum_f_R0 (fun i => M * (s / A * a i + (1 - s) / B * b i)) n) with (M * (s / A * A + (1 - s) / B * B)); [field; split; lra|].
    unfold A at 2, B at 2. rewrite !(scal_sum). rewrite <- plus_sum. rewrite scal_sum. apply sum_eq. intros i _. ring. }
  rewrite E in K. apply Rle_trans with (ln M); [|unfold M; rewrite ln_exp; right; reflexivity].
  apply Rcomplements.ln_le; [apply sum_pos; exact Hc | exact K].
Qed.

Lemma convex2_log_sum : forall n (w : nat -> R -> R -> R), (forall i x b, 0 < x -> 0 < b -> 0 < w i x b) ->
  (forall i, convex2 (fun x b => ln (w i x b))) -> convex2 (fun x b => ln (sum_f_R0 (fun i => w i x b) n)).
Proof.
  intros n w P C x1 b1 x2 b2 s H1 H2 H3 H4 Hs. apply hoelder; auto using mix_pos.
  intro i. apply (C i x1 b1 x2 b2 s); assumption.
Qed.

(** sinh x / x and cosh x *)
Lemma ln_shc_convex : convex1 (fun x => ln (shc x)).
Proof.
  apply (convex_of_derive _ langevin).
  - intros x Hx. unfold shc. pose proof (PLangevin.sinh_pos x Hx) as S. pose proof (PLangevin.cosh_pos x) as C.
    evar_last. { apply (is_derive_comp ln (fun x => sinh x / x)); [apply is_derive_ln, Rdiv_lt_0_compat; assumption|].
      apply (is_derive_div sinh (fun x => x)); [apply PLangevin.is_derive_sinh | apply is_derive_id | lra]. }
    unfold scal, one; cbn. unfold mult; cbn. unfold langevin. field. repeat split; lra.
  - intros u v Hu Huv. left.
    destruct langevin_stable as [_ M]. pose proof (M u v) as Q. unfold pulling in Q.
    assert (E : forall x, 0 < x -> 1 / tanh x - 1 / x = langevin x).
    { intros x Hx. pose proof (PLangevin.sinh_pos x Hx). pose proof (PLangevin.cosh_pos x). unfold langevin, tanh. field. repeat split; lra. }
    rewrite !E in Q by lra. apply Q; lra.
Qed.

Lemma ln_cosh_convex : convex1 (fun x => ln (cosh x)).
Proof.
  apply (convex_of_derive _ tanh).
  - intros x Hx. pose proof (PLangevin.cosh_pos x) as C.
    evar_last. { apply (is_derive_comp ln cosh); [apply is_derive_ln, C | apply PLangevin.is_derive_cosh]. }
    unfold scal; cbn. unfold mult; cbn. unfold tanh. field. lra.
  - intros u v Hu Huv. pose proof (PLangevin.cosh_pos u) as C. pose proof (PLangevin.cosh_pos v) as D.
    unfold tanh. apply Rmult_le_reg_r with (cosh u); [exact C|]. apply Rmult_le_reg_r with (cosh v); [exact D|].
    replace (sinh u / cosh u * cosh u * cosh v) with (sinh u * cosh v) by (field; lra).
    replace (sinh v / cosh v * cosh u * cosh v) with (sinh v * cosh u) by (field; lra).
    assert (E : sinh v * cosh u - sinh u * cosh v = sinh (v - u)).
    { unfold sinh, cosh. replace (- (v - u)) with (- v + u) by ring. replace (v - u) with (v + - u) by ring. rewrite !exp_plus, !exp_Ropp. pose proof (exp_pos u). pose proof (exp_pos v). field. split; lra. }
    pose proof (PLangevin.sinh_pos (v - u) ltac:(lra)). lra.
Qed.

(** ** From a convex logarithm of the partition function to a concave free energy *)
Lemma ln_below : forall y, 0 < y -> y <> 1 -> ln y < y - 1.
Proof.
  intros y Hy Hn. assert (N : ln y <> 0) by (intro E; apply Hn; rewrite <- (exp_ln y Hy), E; apply exp_0).
  pose proof (exp_ineq1 _ N) as Q. rewrite exp_ln in Q by exact Hy. lra.
Qed.

Lemma hinge_convex : forall q T1 T2 s, 0 < q -> 0 < T1 -> 0 < T2 -> 0 < s < 1 -> let T := s * T1 + (1 - s) * T2 in
  T * ln (q * T) <= s * (T1 * ln (q * T1)) + (1 - s) * (T2 * ln (q * T2)) /\
  (T1 <> T2 -> T * ln (q * T) < s * (T1 * ln (q * T1)) + (1 - s) * (T2 * ln (q * T2))).
Proof.
  intros q T1 T2 s Hq H1 H2 Hs T. assert (HT : 0 < T) by (apply mix_pos; assumption).
  assert (S : T1 <> T2 -> T * ln (q * T) < s * (T1 * ln (q * T1)) + (1 - s) * (T2 * ln (q * T2))).
  { intro N.
    assert (K : forall U, 0 < U -> U <> T -> U * (ln (q * T) - ln (q * U)) < T - U).
    { intros U HU HN. rewrite <- ln_div by (apply Rmult_lt_0_compat; assumption).
      replace (q * T / (q * U)) with (T / U) by (field; lra).
      assert (Q : ln (T / U) < T / U - 1).
      { apply ln_below; [apply Rdiv_lt_0_compat; assumption|]. intro E. apply HN. replace T with (T / U * U) by (field; lra). rewrite E. ring. }
      replace (T - U) with (U * (T / U - 1)) by (field; lra). apply Rmult_lt_compat_l; assumption. }
    assert (N1 : T1 <> T) by (unfold T; intro E; apply N; nra). assert (N2 : T2 <> T) by (unfold T; intro E; apply N; nra).
    pose proof (K T1 H1 N1) as K1. pose proof (K T2 H2 N2) as K2.
    assert (L1 : s * (T1 * (ln (q * T) - ln (q * T1))) < s * (T - T1)) by (apply Rmult_lt_compat_l; lra).
    assert (L2 : (1 - s) * (T2 * (ln (q * T) - ln (q * T2))) < (1 - s) * (T - T2)) by (apply Rmult_lt_compat_l; lra).
    assert (E1 : s * (T - T1) + (1 - s) * (T - T2) = 0) by (unfold T; ring).
    assert (E2 : s * (T1 * (ln (q * T) - ln (q * T1))) + (1 - s) * (T2 * (ln (q * T) - ln (q * T2)))
      = T * ln (q * T) - (s * (T1 * ln (q * T1)) + (1 - s) * (T2 * ln (q * T2)))) by (unfold T at 3; ring).
    lra. }
  split; [|exact S]. destruct (Req_dec T1 T2) as [E|E]; [|left; exact (S E)].
  right. subst T2. unfold T. replace (s * T1 + (1 - s) * T1) with T1 by ring. ring.
Qed.

Lemma perspective : forall p l f1 T1 f2 T2 s, convex2 p -> 0 < l -> 0 < f1 -> 0 < T1 -> 0 < f2 -> 0 < T2 -> 0 < s < 1 ->
  let T := s * T1 + (1 - s) * T2 in let f := s * f1 + (1 - s) * f2 in
  T * p (f * l / (kB * T)) (/ (kB * T)) <= s * (T1 * p (f1 * l / (kB * T1)) (/ (kB * T1))) + (1 - s) * (T2 * p (f2 * l / (kB * T2)) (/ (kB * T2))).
Proof.
  intros p l f1 T1 f2 T2 s C Hl Hf1 HT1 Hf2 HT2 Hs T f. pose proof kB_pos as K.
  assert (HT : 0 < T) by (apply mix_pos; assumption). set (r := s * T1 / T).
  assert (Hr : 0 < r < 1).
  { assert (0 < s * T1) by (apply Rmult_lt_0_compat; lra). assert (0 < (1 - s) * T2) by (apply Rmult_lt_0_compat; lra).
    split; [apply Rdiv_lt_0_compat; assumption|]. apply Rmult_lt_reg_r with T; [exact HT|]. unfold r. replace (s * T1 / T * T) with (s * T1) by (field; lra). unfold T. lra. }
  assert (X : forall g U, 0 < g -> 0 < U -> 0 < g * l / (kB * U)) by (intros; apply Rdiv_lt_0_compat; apply Rmult_lt_0_compat; assumption).
  assert (Y : forall U, 0 < U -> 0 < / (kB * U)) by (intros; apply Rinv_0_lt_compat, Rmult_lt_0_compat; assumption).
  pose proof (C (f1 * l / (kB * T1)) (/ (kB * T1)) (f2 * l / (kB * T2)) (/ (kB * T2)) r (X _ _ Hf1 HT1) (Y _ HT1) (X _ _ Hf2 HT2) (Y _ HT2) Hr) as Q.
  assert (E : 1 - r = (1 - s) * T2 / T) by (unfold r, T; field; unfold T in HT; lra).
  assert (E1 : r * (f1 * l / (kB * T1)) + (1 - r) * (f2 * l / (kB * T2)) = f * l / (kB * T)) by (rewrite E; unfold r, f; field; repeat split; lra).
  assert (E2 : r * / (kB * T1) + (1 - r) * / (kB * T2) = / (kB * T)) by (rewrite E; unfold r; field; repeat split; lra).
  rewrite E1, E2 in Q. apply Rmult_le_compat_l with (r := T) in Q; [|lra].
  apply Rle_trans with (1 := Q). right. rewrite E. unfold r. field. lra.
Qed.

Definition hinge_factor (l m : R) : R := 8 * PI ^ 2 * m * l ^ 2 * kB / hP ^ 2.
Lemma hP_pos : 0 < hP. Proof. unfold hP. lra. Qed.
Lemma hinge_factor_pos : forall l m, 0 < l -> 0 < m -> 0 < hinge_factor l m.
Proof.
  intros l m Hl Hm. unfold hinge_factor. pose proof PI_RGT_0. pose proof kB_pos. pose proof hP_pos.
  assert (0 < PI ^ 2) by (apply pow_lt; assumption). assert (0 < l ^ 2) by (apply pow_lt; assumption).
  apply Rdiv_lt_0_compat; [|apply pow_lt; assumption]. repeat (first [assumption | lra | apply Rmult_lt_0_compat]).
Qed.
Lemma hinge_factor_eq : forall l m T, hinge_term l m T = ln (hinge_factor l m * T).
Proof. intros. unfold hinge_term, hinge_factor. f_equal. unfold Rdiv. ring. Qed.

Lemma scaled_concave : forall g h n, 0 < n -> (forall f T, 0 < f -> 0 < T -> h f T = n * g f T) -> jointly_concave g -> jointly_concave h.
Proof.
  intros g h n Hn E C f1 T1 f2 T2 s H1 H2 H3 H4 Hs. destruct (C f1 T1 f2 T2 s H1 H2 H3 H4 Hs) as [A B].
  rewrite !E by (try assumption; apply mix_pos; assumption).
  replace (s * (n * g f1 T1) + (1 - s) * (n * g f2 T2)) with (n * (s * g f1 T1 + (1 - s) * g f2 T2)) by ring.
  split; [apply Rmult_le_compat_l; lra | intro N; apply Rmult_lt_compat_l; [exact Hn | exact (B N)]].
Qed.

Lemma concave_lift : forall n l m p c, 0 < n -> 0 < l -> 0 < m -> convex2 p ->
  (forall T, 0 < T -> isotensional_dimensionless l T (c T)) -> (forall T, 0 < T -> isotensional_extensive n (c T)) ->
  (forall T x, 0 < T -> 0 < x -> I_nd_gibbs_per_link (c T) x = - p x (/ (kB * T)) - hinge_term l m T) -> gibbs_jointly_concave c.
Proof.
  intros n l m p c Hn Hl Hm C D X G. pose proof kB_pos as K. pose proof (hinge_factor_pos l m Hl Hm) as Q.
  assert (J : jointly_concave (fun f T => I_gibbs_per_link (c T) f)).
  { intros f1 T1 f2 T2 s H1 H2 H3 H4 Hs.
    assert (V : forall f T, 0 < f -> 0 < T -> I_gibbs_per_link (c T) f = - kB * (T * p (f * l / (kB * T)) (/ (kB * T)) + T * ln (hinge_factor l m * T))).
    { intros f T Hf HT. rewrite (proj1 (proj2 (proj2 (proj2 (D T HT f))))).
      rewrite G by (try assumption; apply Rdiv_lt_0_compat; apply Rmult_lt_0_compat; assumption). rewrite hinge_factor_eq. ring. }
    rewrite !V by (try assumption; apply mix_pos; assumption).
    pose proof (perspective p l f1 T1 f2 T2 s C Hl H1 H2 H3 H4 Hs) as P. destruct (hinge_convex _ T1 T2 s Q H2 H4 Hs) as [A B]. cbv zeta in P, A, B.
    split; [|intro N; specialize (B N)]; nra. }
  split; [|exact J]. apply (scaled_concave _ _ n Hn) with (2 := J). intros f T Hf HT. exact (proj1 (proj2 (proj2 (X T HT f)))).
Qed.

(** ** The chains *)
Lemma ideal_concave : forall N l m, (0 < N)%Z -> 0 < l -> 0 < m -> gibbs_jointly_concave (fun T => C_ideal_isotensional N l m T).
Proof.
  intros N l m HN Hl Hm. apply (concave_lift (IZR N) l m (fun x _ => x ^ 2 / 6)); auto using NR, PIdentIdeal.ideal_isotensional_dimensionless, PIdentIdeal.ideal_isotensional_extensive.
  - apply convex2_fst. intros x y s Hx Hy Hs. assert (0 <= s * (1 - s) * (x - y) ^ 2) by (apply Rmult_le_pos; [nra | apply pow2_ge_0]). nra.
  - intros T x HT Hx. unR. rewrite ?B_eq, ?H_eq. unfold hinge_term. unfold Rdiv. ring.
Qed.

Lemma fjc_concave : forall N l m, (0 < N)%Z -> 0 < l -> 0 < m -> gibbs_jointly_concave (fun T => C_fjc_isotensional N l m T).
Proof.
  intros N l m HN Hl Hm. apply (concave_lift (IZR N) l m (fun x _ => ln (shc x))); auto using NR, PIdentFjc.fjc_isotensional_dimensionless, PIdentFjc.fjc_isotensional_extensive.
  apply convex2_fst, ln_shc_convex.
Qed.

Lemma swfjc_concave : forall N l m w, (0 < N)%Z -> 0 < l -> 0 < m -> 0 < w -> gibbs_jointly_concave (fun T => C_swfjc_isotensional N l m T w).
Proof.
  intros N l m w HN Hl Hm Hw. set (c1 := C_swfjc_isotensional N l m 1 w).
  apply (concave_lift (IZR N) l m (fun x _ => - I_nd_gibbs_per_link c1 x - hinge_term l m 1)); auto using NR, PIdentSwfjc.swfjc_isotensional_dimensionless, PIdentSwfjc.swfjc_isotensional_extensive.
  - apply convex2_fst. apply (convex_of_derive _ (I_nd_length_per_link c1)).
    + intros x Hx. assert (D : is_derive (I_nd_gibbs_per_link c1) x (- I_nd_length_per_link c1 x)) by (apply (swfjc_isotensional_conjugate N l m 1 w x x); try assumption; lra).
      evar_last; [apply (is_derive_minus (V := R_NormedModule)); [apply (is_derive_opp (V := R_NormedModule)), D | apply is_derive_const]|].
      unfold minus, plus, opp, zero; cbn. ring.
    + intros u v Hu Huv. left. destruct (swfjc_stable N l m 1 w HN Hl ltac:(lra) Hw) as (_ & _ & _ & _ & M). apply M; unfold pulling; lra.
  - intros T x HT Hx. destruct (swfjc_gibbs l m w T x Hl Hw Hx) as (Z & HZ & IZ & E). destruct (swfjc_gibbs l m w 1 x Hl Hw Hx) as (Z' & HZ' & IZ' & E').
    pose proof (is_RInt_unique (V := R_CompleteNormedModule) _ _ _ _ IZ) as U. rewrite (is_RInt_unique (V := R_CompleteNormedModule) _ _ _ _ IZ') in U.
    change (swfjc_isotensional.nondimensional_gibbs_free_energy_per_link l m w x T = - (- swfjc_isotensional.nondimensional_gibbs_free_energy_per_link l m w x 1 - hinge_term l m 1) - hinge_term l m T).
    rewrite E, E', U. ring.
Qed.

(** Springs. *)
Lemma link_term_split : forall k l T, 0 < k -> 0 < l -> 0 < T -> link_term (kappa k l T) l = 5 / 10 * ln (2 * PI / k) + - (5 / 10 * ln (/ (kB * T))).
Proof.
  intros k l T Hk Hl HT. pose proof kB_pos as K. pose proof PI_RGT_0 as P. unfold link_term, kappa.
  replace (2 * PI * l ^ 2 / (k * l ^ 2 / (kB * T))) with (2 * PI / k * (kB * T)) by (field; repeat split; lra).
  assert (0 < kB * T) by (apply Rmult_lt_0_compat; assumption).
  rewrite ln_mult by (try assumption; apply Rdiv_lt_0_compat; lra). rewrite ln_Rinv by assumption. ring.
Qed.

Lemma kappa_beta : forall k l T, 0 < T -> kappa k l T = k * l ^ 2 * / (kB * T).
Proof. intros. unfold kappa, Rdiv. ring. Qed.

Definition spring_part (k l x b : R) : R := 5 / 10 / (k * l ^ 2) * (x ^ 2 / b) + (5 / 10 * ln (2 * PI / k) + - (5 / 10 * ln b)).

Lemma spring_convex : forall k l, 0 < k -> 0 < l -> convex2 (spring_part k l).
Proof.
  intros k l Hk Hl. unfold spring_part. apply convex2_plus.
  - apply quadratic_over. left. apply Rdiv_lt_0_compat; [lra|]. apply Rmult_lt_0_compat; [exact Hk | apply pow_lt, Hl].
  - apply (convex2_plus (fun _ _ => 5 / 10 * ln (2 * PI / k)) (fun _ b => - (5 / 10 * ln b))).
    + intros x1 b1 x2 b2 s _ _ _ _ _. right. ring.
    + apply (convex2_snd (fun b => - (5 / 10 * ln b))), neg_ln_convex. lra.
Qed.

Lemma reduced_concave : forall N l m k, (0 < N)%Z -> 0 < l -> 0 < m -> 0 < k -> gibbs_jointly_concave (fun T => C_efjc_isotensional_asymptotic_reduced N l m T k).
Proof.
  intros N l m k HN Hl Hm Hk. pose proof kB_pos as K. apply (concave_lift (IZR N) l m (fun x b => ln (shc x) + spring_part k l x b)); auto using NR, PIdentEfjc.efjc_isotensional_asymptotic_reduced_dimensionless, PIdentEfjc.efjc_isotensional_asymptotic_reduced_extensive.
  - apply convex2_plus; [apply convex2_fst, ln_shc_convex | apply spring_convex; assumption].
  - intros T x HT Hx. unfold spring_part. rewrite <- (link_term_split k l T Hk Hl HT).
    replace (5 / 10 / (k * l ^ 2) * (x ^ 2 / / (kB * T))) with (5 / 10 * x ^ 2 / kappa k l T) by (unfold kappa; field; repeat split; lra).
    unfold shc. change (I_nd_gibbs_per_link (C_efjc_isotensional_asymptotic_reduced N l m T k) x) with (efjc_isotensional_asymptotic_reduced.nondimensional_gibbs_free_energy_per_link l m (kappa k l T) x T).
    generalize (kappa k l T). intro kap. unR. rewrite ?B_eq, ?H_eq. unfold hinge_term, link_term, Rdiv. ring.
Qed.

Lemma asymptotic_concave : forall N l m k, (0 < N)%Z -> 0 < l -> 0 < m -> 0 < k -> gibbs_jointly_concave (fun T => C_efjc_isotensional_asymptotic N l m T k).
Proof.
  intros N l m k HN Hl Hm Hk. pose proof kB_pos as K. assert (Q : 0 < k * l ^ 2) by (apply Rmult_lt_0_compat; [exact Hk | apply pow_lt, Hl]).
  set (w := fun i x b => match i with O => shc x | _ => cosh x * / (k * l ^ 2) * / b end).
  apply (concave_lift (IZR N) l m (fun x b => ln (sum_f_R0 (fun i => w i x b) 1) + spring_part k l x b)); auto using NR, PIdentEfjc.efjc_isotensional_asymptotic_dimensionless, PIdentEfjc.efjc_isotensional_asymptotic_extensive.
  - apply convex2_plus; [|apply spring_convex; assumption]. apply convex2_log_sum.
    + intros [|i] x b Hx Hb; cbn [w]; [apply shc_pos, Hx|]. apply Rmult_lt_0_compat; [apply Rmult_lt_0_compat; [apply PLangevin.cosh_pos | apply Rinv_0_lt_compat, Q] | apply Rinv_0_lt_compat, Hb].
    + intros [|i]; cbn [w]; [apply convex2_fst, ln_shc_convex|].
      apply (convex2_ext _ (fun x b => ln (cosh x) + (- ln (k * l ^ 2) + - (1 * ln b)))).
      * intros x b Hx Hb. pose proof (PLangevin.cosh_pos x). assert (0 < / b) by (apply Rinv_0_lt_compat, Hb). assert (0 < / (k * l ^ 2)) by (apply Rinv_0_lt_compat, Q). rewrite (ln_mult (cosh x * / (k * l ^ 2))) by (try assumption; apply Rmult_lt_0_compat; assumption). rewrite ln_mult by assumption. rewrite !ln_Rinv by assumption. ring.
      * apply convex2_plus; [apply convex2_fst, ln_cosh_convex|]. apply (convex2_plus (fun _ _ => - ln (k * l ^ 2)) (fun _ b => - (1 * ln b))).
        -- intros x1 b1 x2 b2 s _ _ _ _ _. right. ring.
        -- apply (convex2_snd (fun b => - (1 * ln b))), neg_ln_convex. lra.
  - intros T x HT Hx. unfold spring_part. rewrite <- (link_term_split k l T Hk Hl HT).
    replace (5 / 10 / (k * l ^ 2) * (x ^ 2 / / (kB * T))) with (5 / 10 * x ^ 2 / kappa k l T) by (unfold kappa; field; repeat split; lra).
    cbn [sum_f_R0]. unfold w.
    assert (KT : 0 < kB * T) by (apply Rmult_lt_0_compat; assumption).
    pose proof (kappa_pos k l T Hk Hl HT) as Kp. pose proof (PLangevin.sinh_pos x Hx) as S. pose proof (PLangevin.cosh_pos x) as C.
    replace (shc x + cosh x * / (k * l ^ 2) * / / (kB * T)) with (sinh x / x * (1 + x / tanh x / kappa k l T)) by (unfold shc, tanh, kappa; field; repeat split; lra).
    assert (Tp : 0 < tanh x) by (unfold tanh; apply Rdiv_lt_0_compat; assumption).
    assert (0 < x / tanh x / kappa k l T) by (apply Rdiv_lt_0_compat; [apply Rdiv_lt_0_compat|]; assumption).
    rewrite ln_mult by (try (apply Rdiv_lt_0_compat; assumption); lra).
    change (I_nd_gibbs_per_link (C_efjc_isotensional_asymptotic N l m T k) x) with (efjc_isotensional_asymptotic.nondimensional_gibbs_free_energy_per_link l m (kappa k l T) x T).
    generalize (kappa k l T). intro kap. unR. rewrite ?B_eq, ?H_eq. unfold hinge_term, link_term, Rdiv. ring.
Qed.

(** Links with a potential: U is the potential energy. *)
Lemma quadrature_convex : forall U r, 1 <= r ->
  convex2 (fun x b => ln (2 * midpoint_rule (link_weight (fun s => U s * b) x) (1 / 10 ^ 6) r 64)).
Proof.
  intros U r Hr. set (h := (r - 1 / 10 ^ 6) / INR 64). set (nd := fun i : nat => 1 / 10 ^ 6 + (INR i + 1 / 2) * h).
  assert (Hh : 0 < 2 * h) by (unfold h; apply Rmult_lt_0_compat; [lra|]; apply Rdiv_lt_0_compat; [lra | apply lt_0_INR; lia]).
  assert (P : forall i, 0 < nd i) by (intro i; unfold nd; pose proof (pos_INR i); assert (0 <= (INR i + 1 / 2) * h) by (apply Rmult_le_pos; lra); lra).
  apply (convex2_ext _ (fun x b => ln (sum_f_R0 (fun i => 2 * h * (nd i) ^ 2 * exp (- (U (nd i) * b)) * shc (nd i * x)) 63))).
  - intros x b Hx Hb. f_equal. unfold midpoint_rule. fold h. rewrite <- Rmult_assoc, scal_sum. apply sum_eq. intros i _. fold (nd i).
    rewrite link_weight_shc by auto. ring.
  - apply convex2_log_sum.
    + intros i x b Hx Hb. apply Rmult_lt_0_compat; [apply Rmult_lt_0_compat; [apply Rmult_lt_0_compat; [exact Hh | apply pow_lt, P] | apply exp_pos] | apply shc_pos, Rmult_lt_0_compat; auto].
    + intro i. pose proof (P i) as Pi.
      apply (convex2_ext _ (fun x b => (- U (nd i) * b + ln (2 * h * nd i ^ 2)) + ln (shc (nd i * x)))).
      * intros x b Hx Hb. assert (0 < shc (nd i * x)) by (apply shc_pos, Rmult_lt_0_compat; assumption). assert (0 < 2 * h * nd i ^ 2) by (apply Rmult_lt_0_compat; [exact Hh | apply pow_lt, Pi]).
        pose proof (exp_pos (- (U (nd i) * b))). rewrite ln_mult by (try assumption; apply Rmult_lt_0_compat; assumption). rewrite ln_mult by assumption. rewrite ln_exp. ring.
      * apply convex2_plus; [apply (convex2_snd (fun b => - U (nd i) * b + ln (2 * h * nd i ^ 2))), convex1_affine | apply (convex2_fst (fun x => ln (shc (nd i * x)))), (convex1_scale (fun x => ln (shc x))); [exact Pi | apply ln_shc_convex]].
Qed.

Lemma weight_ext : forall u v x a r, (forall s, u s = v s) -> midpoint_rule (link_weight u x) a r 64 = midpoint_rule (link_weight v x) a r 64.
Proof. intros u v x a r E. unfold midpoint_rule. f_equal. apply sum_eq. intros i _. unfold link_weight. rewrite E. reflexivity. Qed.

Lemma lennard_jones_concave : forall N l m k, (0 < N)%Z -> 0 < l -> 0 < m -> 0 < k -> gibbs_jointly_concave (fun T => C_lennard_jones_isotensional N l m T k).
Proof.
  intros N l m k HN Hl Hm Hk. pose proof kB_pos as K. set (U := fun s => k * l ^ 2 / 72 * (/ s ^ 12 - 2 * / s ^ 6)).
  apply (concave_lift (IZR N) l m (fun x b => ln (2 * midpoint_rule (link_weight (fun s => U s * b) x) (1 / 10 ^ 6) (Rpower (13 / 7) (1 / 6)) 64)));
    auto using NR, PIdentLennardJones.lennard_jones_isotensional_dimensionless, PIdentLennardJones.lennard_jones_isotensional_extensive.
  - apply quadrature_convex. apply Rle_trans with (Rpower (13 / 7) 0); [rewrite Rpower_O by lra; lra | apply Rle_Rpower; lra].
  - intros T x HT Hx. rewrite (weight_ext _ (lennard_jones_potential (kappa k l T))).
    + exact (lennard_jones_gibbs l m T (kappa k l T) x Hx).
    + intro s. unfold U, lennard_jones_potential, kappa, Rdiv. ring.
Qed.

Lemma log_squared_concave : forall N l m k, (0 < N)%Z -> 0 < l -> 0 < m -> 0 < k -> gibbs_jointly_concave (fun T => C_log_squared_isotensional N l m T k).
Proof.
  intros N l m k HN Hl Hm Hk. pose proof kB_pos as K. set (U := fun s => k * l ^ 2 / 2 * ln s ^ 2).
  apply (concave_lift (IZR N) l m (fun x b => ln (2 * midpoint_rule (link_weight (fun s => U s * b) x) (1 / 10 ^ 6) (exp 1) 64)));
    auto using NR, PIdentLogSquared.log_squared_isotensional_dimensionless, PIdentLogSquared.log_squared_isotensional_extensive.
  - apply quadrature_convex. pose proof (exp_ineq1 1 R1_neq_R0). lra.
  - intros T x HT Hx. rewrite (weight_ext _ (log_squared_potential (kappa k l T))).
    + exact (log_squared_gibbs l m T (kappa k l T) x Hx).
    + intro s. unfold U, log_squared_potential, kappa, Rdiv. ring.
Qed.

Lemma morse_concave : forall N l m k e, (0 < N)%Z -> 0 < l -> 0 < m -> 0 < k -> 0 < e -> gibbs_jointly_concave (fun T => C_morse_isotensional N l m T k e).
Proof.
  intros N l m k e HN Hl Hm Hk He. pose proof kB_pos as K. set (a := sqrt (k * l ^ 2 / e / 2)). set (U := fun s => e * (1 - exp (- a * (s - 1))) ^ 2).
  assert (Q : 0 < k * l ^ 2) by (apply Rmult_lt_0_compat; [exact Hk | apply pow_lt, Hl]).
  apply (concave_lift (IZR N) l m (fun x b => ln (2 * midpoint_rule (link_weight (fun s => U s * b) x) (1 / 10 ^ 6) (1 + ln 2 / a) 64)));
    auto using NR, PIdentMorse.morse_isotensional_dimensionless, PIdentMorse.morse_isotensional_extensive.
  - apply quadrature_convex. assert (S : 0 < a) by (unfold a; apply sqrt_lt_R0; repeat apply Rdiv_lt_0_compat; lra).
    assert (Ln : 0 < ln 2) by (rewrite <- ln_1; apply ln_increasing; lra). assert (0 < ln 2 / a) by (apply Rdiv_lt_0_compat; assumption). lra.
  - intros T x HT Hx. pose proof (kappa_pos k l T Hk Hl HT) as Kp. pose proof (epsilon_pos e T He HT) as Ep.
    assert (A : a = sqrt (kappa k l T / epsilon e T / 2)) by (unfold a, kappa, epsilon; f_equal; field; repeat split; lra).
    assert (A' : a = sqrt (kappa k l T / (2 * epsilon e T))) by (unfold a, kappa, epsilon; f_equal; field; repeat split; lra).
    rewrite (weight_ext _ (morse_potential (kappa k l T) (epsilon e T))).
    + rewrite A. exact (morse_gibbs l m T (kappa k l T) (epsilon e T) x Kp Ep Hx).
    + intro s. unfold U, morse_potential. rewrite <- A'. unfold epsilon, Rdiv. ring.
Qed.

(** ** Entropy *)
Lemma tangent : forall (a : R -> R) (T1 T2 d D : R), is_derive a T1 d ->
  (forall s, 0 < s < 1 -> a T1 + s * D <= a (s * T2 + (1 - s) * T1)) -> D <= d * (T2 - T1).
Proof.
  intros a T1 T2 d D Hd H.
  assert (P : is_derive (fun s => a (s * T2 + (1 - s) * T1)) 0 (d * (T2 - T1))).
  { evar_last. { apply (is_derive_comp a (fun s => s * T2 + (1 - s) * T1) 0 d (T2 - T1)).
      - assert (E0 : 0 * T2 + (1 - 0) * T1 = T1) by ring. cbv beta. rewrite E0. exact Hd.
      - auto_derive; [exact I | ring]. }
    unfold scal; cbn. unfold mult; cbn. ring. }
  destruct (Rle_or_lt D (d * (T2 - T1))) as [|C]; [assumption|exfalso].
  destruct (is_derive_slope _ 0 _ (D - d * (T2 - T1)) P ltac:(lra)) as (del & Hdel & Q).
  set (s := Rmin (del / 2) (1 / 2)). assert (Hs : 0 < s) by (apply Rmin_glb_lt; lra).
  assert (s <= del / 2) by apply Rmin_l. assert (s <= 1 / 2) by apply Rmin_r.
  specialize (Q s ltac:(lra)). rewrite Rabs_pos_eq in Q by lra. specialize (Q ltac:(lra)). rewrite Rplus_0_l in Q.
  specialize (H s ltac:(lra)). replace (0 * T2 + (1 - 0) * T1) with T1 in Q by ring.
  apply Rabs_def2 in Q. destruct Q as [Q _].
  assert (D <= (a (s * T2 + (1 - s) * T1) - a T1) / s).
  { apply Rmult_le_reg_r with s; [exact Hs|]. replace ((a (s * T2 + (1 - s) * T1) - a T1) / s * s) with (a (s * T2 + (1 - s) * T1) - a T1) by (field; lra). lra. }
  lra.
Qed.

Lemma entropy_of_concave : forall a : R -> R,
  (forall T1 T2 s, 0 < T1 -> 0 < T2 -> T1 <> T2 -> 0 < s < 1 -> s * a T1 + (1 - s) * a T2 < a (s * T1 + (1 - s) * T2)) -> entropy_increases a.
Proof.
  intros a H. split.
  { intros T1 T2 T3 H1 H12 H23. unfold mean_entropy. set (r := (T3 - T2) / (T3 - T1)).
    assert (Hr : 0 < r < 1).
    { split; [apply Rdiv_lt_0_compat; lra|]. apply Rmult_lt_reg_r with (T3 - T1); [lra|]. unfold r. replace ((T3 - T2) / (T3 - T1) * (T3 - T1)) with (T3 - T2) by (field; lra). lra. }
    pose proof (H T1 T3 r H1 ltac:(lra) ltac:(lra) Hr) as Q. replace (r * T1 + (1 - r) * T3) with T2 in Q by (unfold r; field; lra).
    assert (E : - (a T3 - a T2) / (T3 - T2) - - (a T2 - a T1) / (T2 - T1) = (a T2 - (r * a T1 + (1 - r) * a T3)) * ((T3 - T1) / ((T2 - T1) * (T3 - T2)))) by (unfold r; field; repeat split; lra).
    assert (0 < (a T2 - (r * a T1 + (1 - r) * a T3)) * ((T3 - T1) / ((T2 - T1) * (T3 - T2)))).
    { apply Rmult_lt_0_compat; [lra|]. apply Rdiv_lt_0_compat; [lra|]. apply Rmult_lt_0_compat; lra. }
    lra. }
  intros T1 T2 S1 S2 H1 H12 D1 D2. set (M := (T1 + T2) / 2).
  assert (HM : T1 < M < T2) by (unfold M; lra).
  pose proof (H T1 T2 (1 / 2) H1 ltac:(lra) ltac:(lra) ltac:(lra)) as Q. replace (1 / 2 * T1 + (1 - 1 / 2) * T2) with M in Q by (unfold M; field).
  assert (A : a M - a T1 <= - S1 * (M - T1)).
  { apply (tangent a); [exact D1|]. intros s Hs. pose proof (H M T1 s ltac:(lra) H1 ltac:(lra) Hs). lra. }
  assert (B : a M - a T2 <= - S2 * (M - T2)).
  { apply (tangent a); [exact D2|]. intros s Hs. pose proof (H M T2 s ltac:(lra) ltac:(lra) ltac:(lra) Hs). lra. }
  unfold M in A at 2, B at 2. nra.
Qed.

Lemma entropy_at_force : forall c f, gibbs_jointly_concave c -> 0 < f ->
  entropy_increases (fun T => I_gibbs (c T) f) /\ entropy_increases (fun T => I_gibbs_per_link (c T) f).
Proof.
  intros c f [A B] Hf. split; apply entropy_of_concave; intros T1 T2 s H1 H2 N Hs.
  - pose proof (proj2 (A f T1 f T2 s Hf H1 Hf H2 Hs) N) as Q. replace (s * f + (1 - s) * f) with f in Q by ring. exact Q.
  - pose proof (proj2 (B f T1 f T2 s Hf H1 Hf H2 Hs) N) as Q. replace (s * f + (1 - s) * f) with f in Q by ring. exact Q.
Qed.

(** At a fixed length, a free energy T c - n kB T ln (q T). *)
Lemma entropy_at_length : forall a c n q, 0 < n -> 0 < q -> (forall T, 0 < T -> a T = T * c - n * (T * ln (q * T))) -> entropy_increases a.
Proof.
  intros a c n q Hn Hq E. apply entropy_of_concave. intros T1 T2 s H1 H2 N Hs. rewrite !E by (try assumption; apply mix_pos; assumption).
  pose proof (proj2 (hinge_convex q T1 T2 s Hq H1 H2 Hs) N) as Q. cbv zeta in Q. nra.
Qed.

Lemma ideal_isometric_entropy : forall N l m x, (0 < N)%Z -> 0 < l -> 0 < m -> entropy_increases (fun T => S_helmholtz (C_ideal_isometric N l m T) x).
Proof.
  intros N l m x HN Hl Hm. pose proof kB_pos as K. pose proof (NR N HN) as P.
  apply (entropy_at_length _ (IZR N * kB * (15 / 10 * (x / (IZR N * l)) ^ 2)) (IZR N * kB) (hinge_factor l m)); [apply Rmult_lt_0_compat; assumption | apply hinge_factor_pos; assumption|].
  intros T HT. rewrite <- hinge_factor_eq. unR. rewrite ?B_eq, ?H_eq. unfold hinge_term, Rdiv. ring.
Qed.

Lemma fjc_isometric_entropy : forall prof N l m x a, (2 <= N)%Z -> 0 < l -> 0 < m ->
  (forall T, 0 < T -> fjc_isometric.helmholtz_free_energy prof N l m x T = Some (a T)) -> entropy_increases a.
Proof.
  intros prof N l m x a HN Hl Hm H. pose proof kB_pos as K. assert (P : 1 < IZR N) by (apply IZR_lt; lia).
  unfold fjc_isometric.helmholtz_free_energy, fjc_isometric.nondimensional_helmholtz_free_energy in H.
  destruct (fjc_isometric.equilibrium_distribution prof N l (x / (sofZ N * l) * sofZ N * l)%S) as [r|]; [|discriminate (H 1 Rlt_0_1)].
  apply (entropy_at_length _ (kB * - ln r) ((IZR N - 1) * kB) (hinge_factor l m)); [apply Rmult_lt_0_compat; lra | apply hinge_factor_pos; assumption|].
  intros T HT. specialize (H T HT). injection H as <-. rewrite <- hinge_factor_eq.
  change ((- ln r - (IZR N - 1) * ln (8 * PI ^ 2 * m * l ^ 2 * BOLTZMANN_CONSTANT * T / PLANCK_CONSTANT ^ 2)) * BOLTZMANN_CONSTANT * T
    = T * (kB * - ln r) - (IZR N - 1) * kB * (T * hinge_term l m T)).
  rewrite B_eq, H_eq. unfold hinge_term. ring.
Qed.

Lemma wlc_isometric_entropy : forall N l m p x, (2 <= N)%Z -> 0 < l -> 0 < m -> 0 < p -> entropy_increases (fun T => S_helmholtz (C_wlc_isometric N l m T p) x).
Proof.
  intros N l m p x HN Hl Hm Hp. pose proof kB_pos as K. assert (P : 1 < IZR N) by (apply IZR_lt; lia). pose proof PI_RGT_0 as PP. pose proof hP_pos as Ph.
  set (z := p / (IZR N * l)). assert (Hz : 0 < z) by (apply Rdiv_lt_0_compat; [exact Hp | apply Rmult_lt_0_compat; lra]).
  assert (Hs : 0 < sin (acos (exp (- (1) / z)))).
  { assert (B : 0 < exp (- (1) / z) < 1).
    { split; [apply exp_pos|]. apply Rlt_le_trans with (exp 0); [apply exp_increasing | rewrite exp_0; lra]. assert (0 < / z) by (apply Rinv_0_lt_compat, Hz). unfold Rdiv. lra. }
    rewrite sin_acos by lra. apply sqrt_lt_R0. unfold Rsqr. nra. }
  set (q := 4 * sin (acos (exp (- (1) / z))) * PI ^ 2 * m * l ^ 2 * kB / hP ^ 2).
  assert (Hq : 0 < q).
  { assert (0 < PI ^ 2) by (apply pow_lt; assumption). assert (0 < l ^ 2) by (apply pow_lt; assumption).
    unfold q. apply Rdiv_lt_0_compat; [|apply pow_lt; assumption]. repeat (first [assumption | lra | apply Rmult_lt_0_compat]). }
  apply (entropy_at_length _ (kB * wbase z (x / (IZR N * l))) ((IZR N - 1) * kB) q); [apply Rmult_lt_0_compat; lra | exact Hq|].
  intros T HT. change (wlc_isometric.nondimensional_helmholtz_free_energy N l m z (x / (IZR N * l)) T * BOLTZMANN_CONSTANT * T = T * (kB * wbase z (x / (IZR N * l))) - (IZR N - 1) * kB * (T * ln (q * T))).
  rewrite wlc_psi, B_eq. unfold whinge. rewrite B_eq, H_eq.
  replace (4 * sin (acos (exp (- (1) / z))) * PI ^ 2 * m * l ^ 2 * kB * T / hP ^ 2) with (q * T) by (unfold q, Rdiv; ring). ring.
Qed.
