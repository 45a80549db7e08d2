(** Weak and strong pulls on the asymptotic approximations, and weak pulls on the worm-like chain. *)
From Coq Require Import Reals ZArith List Lra Lia Psatz.
From Coquelicot Require Import Coquelicot.
From Verif Require Import Scalar MMath MConst MIdeal MFjc MEfjc MMorse MLennardJones MLogSquared MWlc.
From Verif Require Import SpecPartition SpecInverse SpecThermo SpecHooke PBase PHyp PLimits PNormalChain PStability PHooke PPartition2 PWorm PLjStretch PLambert.
Open Scope R_scope.

Local Notation fjc := (@fjc_isotensional.nondimensional_end_to_end_length_per_link R R_scalar).
Local Notation morse := (@morse_isotensional_asymptotic.nondimensional_end_to_end_length_per_link R R_scalar).
Local Notation morse_reduced := (@morse_isotensional_asymptotic_reduced.nondimensional_end_to_end_length_per_link R R_scalar).
Local Notation lennard_jones := (@lennard_jones_isotensional_asymptotic.nondimensional_end_to_end_length_per_link R R_scalar).
Local Notation lennard_jones_reduced := (@lennard_jones_isotensional_asymptotic_reduced.nondimensional_end_to_end_length_per_link R R_scalar).
Local Notation log_squared := (@log_squared_isotensional_asymptotic.nondimensional_end_to_end_length_per_link R R_scalar).
Local Notation log_squared_reduced := (@log_squared_isotensional_asymptotic_reduced.nondimensional_end_to_end_length_per_link R R_scalar).
Local Notation efjc := (@efjc_isotensional_asymptotic.nondimensional_end_to_end_length_per_link R R_scalar).
Local Notation efjc_alternative := (@efjc_isotensional_asymptotic_alternative.nondimensional_end_to_end_length_per_link R R_scalar).
Local Notation efjc_reduced := (@efjc_isotensional_asymptotic_reduced.nondimensional_end_to_end_length_per_link R R_scalar).
Local Notation lj_stretch := (@lennard_jones_thermodynamics.nondimensional_link_stretch R R_scalar).

Lemma near_ext_loc : forall (f g : R -> R) c (d : posreal), (forall x, 0 < x < d -> f x = g x) -> near_0 f c -> near_0 g c.
Proof.
  intros f g c d E. apply filterlim_ext_loc. exists d. intros y B Hy. apply E. split; [exact Hy|].
  apply Rabs_lt_between' in B. lra.
Qed.

Lemma slope_of_derive : forall (f : R -> R) d, is_derive f 0 d -> f 0 = 0 -> near_0 (fun x => f x / x) d.
Proof.
  intros f d D E. apply is_derive_Reals in D. apply filterlim_locally. intro eps. destruct (D eps (cond_pos eps)) as (del & Hd).
  exists del. intros h Hh Hp. specialize (Hd h ltac:(lra)). rewrite Rplus_0_l, E, Rminus_0_r in Hd. apply Hd.
  change (Rabs (h - 0) < del) in Hh. rewrite Rminus_0_r in Hh. exact Hh.
Qed.

Lemma stiff_slope : forall k c, 0 < k -> 0 < c -> near_0 (fun x => stiff_length k c x / x) (/ 3 + 2 / 3 / (1 + c * k)).
Proof.
  intros k c Hk Hc. assert (0 < / k) by (apply Rinv_0_lt_compat, Hk). assert (0 < c * k) by (apply Rmult_lt_0_compat; assumption).
  apply (near_ext (fun x => fjc x / x + / k * ((tanh x / x + (-1) * (fjc x / x)) * / (c * (tanh x / x) + / k)))).
  - intros x Hx. unfold stiff_length. replace (tanh x - 1 / tanh x + 1 / x) with (tanh x - fjc x) by (rewrite fjc_eq; ring). rewrite <- fjc_eq.
    pose proof (PInverse.tanh_bounds x Hx). assert (0 < c * tanh x) by (apply Rmult_lt_0_compat; lra).
    assert (0 < k * (c * tanh x)) by (apply Rmult_lt_0_compat; lra). field. repeat split; lra.
  - apply (near_eq _ (/ 3 + / k * ((1 + (-1) * / 3) * / (c * 1 + / k)))); [field; repeat split; lra|].
    apply near_plus; [apply fjc_slope|]. apply near_mult; [apply near_const|].
    apply near_mult.
    + apply near_plus; [apply tanh_slope|]. apply near_mult; [apply near_const | apply fjc_slope].
    + apply near_inv; [lra|]. apply near_plus; [|apply near_const]. apply near_mult; [apply near_const | apply tanh_slope].
Qed.

(** A link stretched by s x, added to the chain of stiff links. *)
Lemma full_slope_of : forall k c (s : R -> R), 0 < k -> 0 < c -> near_0 (fun x => s x / x) (/ k) ->
  near_0 (fun x => (stiff_length k c x + s x) / x) (1 / 3 + 1 / k + 2 / 3 / (1 + c * k)).
Proof.
  intros k c s Hk Hc S. apply (near_ext (fun x => stiff_length k c x / x + s x / x)); [intros; field; lra|].
  apply (near_eq _ ((/ 3 + 2 / 3 / (1 + c * k)) + / k)); [field; assert (0 < c * k) by (apply Rmult_lt_0_compat; assumption); lra|].
  apply near_plus; [apply stiff_slope; assumption | exact S].
Qed.

Lemma reduced_slope_of : forall k (s : R -> R), 0 < k -> near_0 (fun x => s x / x) (/ k) -> near_0 (fun x => (fjc x + s x) / x) (1 / 3 + 1 / k).
Proof.
  intros k s Hk S. apply (near_ext (fun x => fjc x / x + s x / x)); [intros; field; lra|].
  apply (near_eq _ (/ 3 + / k)); [field; lra|]. apply near_plus; [apply fjc_slope | exact S].
Qed.

(** ** Springs *)
Lemma efjc_weak : forall k, 0 < k -> weak_slope (efjc k) (1 / 3 + 1 / k + 2 / 3 / (1 + 1 * k)).
Proof. intros k Hk. eapply near_eq; [|apply full_slope, Hk]. field. lra. Qed.
Lemma efjc_reduced_weak : forall k, 0 < k -> weak_slope (efjc_reduced k) (1 / 3 + 1 / k).
Proof. intros k Hk. eapply near_eq; [|apply reduced_slope, Hk]. field. lra. Qed.
Lemma efjc_alternative_weak : forall k, 0 < k -> weak_slope (efjc_alternative k) (1 / 3 + 1 / k + 2 / 3 / k).
Proof. intros k Hk. eapply near_eq; [|apply alternative_slope, Hk]. field. lra. Qed.

(** ** Morse links *)
Lemma morse_stretch_slope : forall k a xm, 0 < k -> 0 < a -> 0 < xm -> 4 * xm * a = k ->
  near_0 (fun x => ln (2 / (1 + sqrt (1 - x / xm))) / a / x) (/ k).
Proof.
  intros k a xm Hk Ha Hm E. apply (slope_of_derive (fun x => ln (2 / (1 + sqrt (1 - x / xm))) / a)).
  - assert (S : sqrt (1 - 0 / xm) = 1) by (replace (1 - 0 / xm) with 1 by (field; lra); apply sqrt_1).
    assert (S' : sqrt (1 + - (0 * / xm)) = 1) by exact S.
    auto_derive.
    + rewrite S'. replace (1 + - (0 * / xm)) with 1 by (field; lra). repeat split; lra.
    + rewrite S'. rewrite <- E. field. split; lra.
  - replace (1 - 0 / xm) with 1 by (field; lra). rewrite sqrt_1. replace (2 / (1 + 1)) with 1 by field. rewrite ln_1. field. lra.
Qed.

Lemma morse_product : forall k e, 0 < k -> 0 < e -> 4 * sqrt (e * k / 8) * sqrt (k / e / 2) = k.
Proof.
  intros k e Hk He. rewrite Rmult_assoc, <- sqrt_mult_alt.
  - replace (e * k / 8 * (k / e / 2)) with ((k / 4) ^ 2) by (field; lra). rewrite sqrt_pow2 by lra. field.
  - apply Rmult_le_pos; [apply Rmult_le_pos; lra | lra].
Qed.

Lemma morse_weak : forall k e, 0 < k -> 0 < e ->
  weak_slope (morse k e) (1 / 3 + 1 / k + 2 / 3 / (1 + / (1 + 3 / 2 * sqrt (k / (2 * e))) * k)).
Proof.
  intros k e Hk He. destruct (PConj.morse_constants k e Hk He) as (A & B & _ & _). pose proof (morse_product k e Hk He) as P.
  replace (k / (2 * e)) with (k / e / 2) by (field; lra).
  assert (F : forall x, morse k e x = fjc x + x / k * ((tanh x - 1 / tanh x + 1 / x) / (tanh x / (1 + 15 / 10 * sqrt (k / e / 2)) + x / k)) + ln (2 / (1 + sqrt (1 - x / sqrt (e * k / 8)))) / sqrt (k / e / 2)) by reflexivity.
  set (a := sqrt (k / e / 2)) in *. set (xm := sqrt (e * k / 8)) in *.
  apply (near_ext (fun x => (stiff_length k (/ (1 + 3 / 2 * a)) x + ln (2 / (1 + sqrt (1 - x / xm))) / a) / x)).
  - intros x Hx. rewrite F. unfold stiff_length. rewrite fjc_eq. replace (15 / 10) with (3 / 2) by field.
    replace (tanh x / (1 + 3 / 2 * a)) with (/ (1 + 3 / 2 * a) * tanh x) by (field; lra). reflexivity.
  - apply full_slope_of; [exact Hk | apply Rinv_0_lt_compat; lra | apply morse_stretch_slope; assumption].
Qed.

Lemma morse_reduced_weak : forall k e, 0 < k -> 0 < e -> weak_slope (morse_reduced k e) (1 / 3 + 1 / k).
Proof.
  intros k e Hk He. destruct (PConj.morse_constants k e Hk He) as (A & B & _ & S). pose proof (morse_product k e Hk He) as P.
  assert (F : forall x, morse_reduced k e x = fjc x + sqrt (2 * e / k) * ln (2 / (1 + sqrt (1 - x / sqrt (e * k / 8))))) by reflexivity.
  apply (near_ext (fun x => (fjc x + ln (2 / (1 + sqrt (1 - x / sqrt (e * k / 8)))) / sqrt (k / e / 2)) / x)).
  - intros x Hx. rewrite F, S. unfold Rdiv. ring.
  - apply (reduced_slope_of k (fun x => ln (2 / (1 + sqrt (1 - x / sqrt (e * k / 8)))) / sqrt (k / e / 2)) Hk). apply morse_stretch_slope; assumption.
Qed.

(** ** Lennard-Jones links *)
Lemma two_steps_derive : is_derive two_steps 0 (/ 6) /\ two_steps 0 = 1.
Proof.
  assert (E : forall y, two_steps y = (1 + y / 6) + (y - (/ (1 + y / 6) ^ 7 - / (1 + y / 6) ^ 13)) / (13 * / (1 + y / 6) ^ 14 - 7 * / (1 + y / 6) ^ 8)) by reflexivity.
  split.
  - apply (is_derive_ext (fun y => (1 + y / 6) + (y - (/ (1 + y / 6) ^ 7 - / (1 + y / 6) ^ 13)) / (13 * / (1 + y / 6) ^ 14 - 7 * / (1 + y / 6) ^ 8))); [intro; symmetry; apply E|].
    assert (Z : 1 + 0 * / 6 = 1) by field.
    auto_derive.
    + rewrite Z. repeat split; try lra. 
    + rewrite Z. field.
  - rewrite E. replace (1 + 0 / 6) with 1 by field. field.
Qed.

Lemma lj_stretch_slope : forall k, 0 < k -> near_0 (fun x => (lj_stretch k x - 1) / x) (/ k).
Proof.
  intros k Hk. destruct two_steps_derive as [D D0].
  assert (P : 0 < k / 10 ^ 8) by (apply Rdiv_lt_0_compat; [exact Hk | lra]).
  apply (near_ext_loc (fun x => (two_steps (6 * x / k) - 1) / x) _ _ (mkposreal _ P)).
  - intros x Hx. cbn [pos] in Hx. rewrite weak_two_steps; [reflexivity | exact Hk | lra|].
    apply Rmult_lt_reg_r with k; [exact Hk|]. replace (6 * x / k * k) with (6 * x) by (field; lra).
    assert (x * 10 ^ 8 < k) by (apply Rmult_lt_reg_r with (/ 10 ^ 8); [apply Rinv_0_lt_compat; lra|]; replace (x * 10 ^ 8 * / 10 ^ 8) with x by field; lra). lra.
  - apply (slope_of_derive (fun x => two_steps (6 * x / k) - 1)).
    + assert (C : is_derive (fun x => two_steps (6 * x / k)) 0 (6 / k * / 6)).
      { apply (is_derive_comp (V := R_NormedModule) two_steps (fun x => 6 * x / k)).
        - replace (6 * 0 / k) with 0 by (field; lra). exact D.
        - auto_derive; [exact I | field; lra]. }
      replace (/ k) with (6 / k * / 6 - 0) by (field; lra). apply (is_derive_minus (V := R_NormedModule) (fun x => two_steps (6 * x / k)) (fun _ => 1)); [exact C | apply (is_derive_const (V := R_NormedModule))].
    + replace (6 * 0 / k) with 0 by (field; lra). rewrite D0. ring.
Qed.

Lemma lennard_jones_weak : forall k, 0 < k -> weak_slope (lennard_jones k) (1 / 3 + 1 / k + 2 / 3 / (1 + 2 / 23 * k)).
Proof.
  intros k Hk. apply (near_ext (fun x => (stiff_length k (2 / 23) x + (lj_stretch k x - 1)) / x)).
  - intros x Hx. f_equal. change (lennard_jones k x) with (stiff_length k (2 / 23) x + lj_stretch k x - 1). ring.
  - apply full_slope_of; [exact Hk | lra | apply lj_stretch_slope, Hk].
Qed.

Lemma lennard_jones_reduced_weak : forall k, 0 < k -> weak_slope (lennard_jones_reduced k) (1 / 3 + 1 / k).
Proof.
  intros k Hk. apply (near_ext (fun x => (fjc x + (lj_stretch k x - 1)) / x)).
  - intros x Hx. f_equal. change (lennard_jones_reduced k x) with (fjc x + lj_stretch k x - 1). ring.
  - apply reduced_slope_of; [exact Hk | apply lj_stretch_slope, Hk].
Qed.

(** ** Log-squared links *)
Definition first_step (y : R) : R := math.lambert_step (- y) (75 / 100 * ln (- y + 1)).

Lemma first_step_derive : is_derive (fun y => / exp (first_step y) - 1) 0 1 /\ / exp (first_step 0) - 1 = 0.
Proof.
  assert (E : forall y, first_step y = 75 / 100 * ln (- y + 1) - (75 / 100 * ln (- y + 1) * exp (75 / 100 * ln (- y + 1)) - - y)
    / (exp (75 / 100 * ln (- y + 1)) * (75 / 100 * ln (- y + 1) + 1) - (75 / 100 * ln (- y + 1) + 2) * (75 / 100 * ln (- y + 1) * exp (75 / 100 * ln (- y + 1)) - - y) / (2 * (75 / 100 * ln (- y + 1)) + 2))) by reflexivity.
  assert (L : ln (- 0 + 1) = 0) by (replace (- 0 + 1) with 1 by ring; apply ln_1).
  split.
  - apply (is_derive_ext (fun y => / exp (75 / 100 * ln (- y + 1) - (75 / 100 * ln (- y + 1) * exp (75 / 100 * ln (- y + 1)) - - y)
    / (exp (75 / 100 * ln (- y + 1)) * (75 / 100 * ln (- y + 1) + 1) - (75 / 100 * ln (- y + 1) + 2) * (75 / 100 * ln (- y + 1) * exp (75 / 100 * ln (- y + 1)) - - y) / (2 * (75 / 100 * ln (- y + 1)) + 2))) - 1)); [intro y; rewrite E; reflexivity|].
    auto_derive; rewrite ?L, ?Rmult_0_r, ?exp_0.
    + repeat split; try lra. apply Rgt_not_eq, exp_pos.
    + match goal with |- context [exp ?u] => replace u with 0 by field end. rewrite exp_0. field.
  - rewrite E, L, !Rmult_0_r, exp_0. match goal with |- context [exp ?u] => replace u with 0 by field end. rewrite exp_0. field.
Qed.

Lemma small_root : forall y, 0 < y <= 1 / 8 -> exists p, 0 < p < 1 /\ - p * exp (- p) = - y /\ y <= p <= 2 * y.
Proof.
  intros y Hy. assert (Z : - exp (-1) < - y).
  { replace (exp (-1)) with (/ exp 1) by (rewrite <- exp_Ropp; reflexivity).
    pose proof exp_le_3. pose proof (exp_pos 1). assert (/ 3 <= / exp 1) by (apply Rinv_le_contravar; lra). lra. }
  destruct (PLambert.root_exists (- y) Z) as (W & HW & E). exists (- W).
  pose proof (exp_pos W) as PW. assert (W0 : W < 0) by nra.
  rewrite !Ropp_involutive. split; [lra|]. split; [exact E|].
  assert (E1 : exp W < 1) by (rewrite <- exp_0; apply exp_increasing; lra).
  assert (H2 : - (1 / 2) <= W).
  { destruct (Rle_or_lt (- (1 / 2)) W) as [L | L]; [exact L|]. exfalso. pose proof (product_increasing W (- (1 / 2)) ltac:(lra)) as I.
    pose proof (exp_ineq1_le (- (1 / 2))). lra. }
  pose proof (exp_ineq1_le W). split; nra.
Qed.

Lemma iterations_pos : forall x : R, exists m, Z.to_nat (math.lambert_iterations x) = S m.
Proof. intro x. pose proof (iterations_ge x). exists (Z.to_nat (math.lambert_iterations x) - 1)%nat. lia. Qed.

Lemma lambert_small : forall y p, 0 < y <= 1 / 8 -> 0 < p < 1 -> - p * exp (- p) = - y -> y <= p ->
  - p <= math.lambert_w (- y) <= first_step y.
Proof.
  intros y p Hy Hp E Hyp. rewrite lambert_R. destruct (iterations_pos (- y)) as (m & ->).
  replace (S m) with (m + 1)%nat by lia. rewrite iter_shift. cbn [Nat.iter].
  change (math.lambert_step (- y) (guess (- y))) with (first_step y).
  assert (G : - p <= 75 / 100 * ln (- y + 1)).
  { assert (- (y / (1 - y)) <= ln (- y + 1)).
    { rewrite <- (ln_exp (- (y / (1 - y)))). rewrite exp_Ropp. apply Rcomplements.ln_le; [apply Rinv_0_lt_compat, exp_pos|].
      replace (- y + 1) with (/ (1 + y / (1 - y))) by (field; lra). apply Rinv_le_contravar; [|apply exp_ineq1_le].
      assert (0 < y / (1 - y)) by (apply Rdiv_lt_0_compat; lra). lra. }
    assert (75 / 100 * (y / (1 - y)) <= y).
    { apply Rmult_le_reg_r with (1 - y); [lra|]. replace (75 / 100 * (y / (1 - y)) * (1 - y)) with (75 / 100 * y) by (field; lra). nra. }
    lra. }
  assert (Gm : -1 < 75 / 100 * ln (- y + 1)) by lra.
  pose proof (step_above (- p) (75 / 100 * ln (- y + 1)) ltac:(lra) Gm G) as S. rewrite E in S. fold (first_step y) in S.
  pose proof (iter_above (- p) m (first_step y) ltac:(lra) ltac:(lra)) as I. rewrite E in I. exact I.
Qed.

Lemma lambert_slope : near_0 (fun y => (1 / exp (math.lambert_w (- y)) - 1) / y) 1.
Proof.
  destruct first_step_derive as [D D0].
  apply (filterlim_le_le (fun y => (/ exp (first_step y) - 1) / y) _ (fun y => exp (4 * y)) 1).
  - exists (mkposreal (1 / 8) ltac:(lra)). intros y B Hy. change (Rabs (y - 0) < 1 / 8) in B. rewrite Rminus_0_r, Rabs_pos_eq in B by lra.
    destruct (small_root y ltac:(lra)) as (p & Hp & E & Hyp). destruct (lambert_small y p ltac:(lra) Hp E ltac:(lra)) as [L1 L2].
    set (w := math.lambert_w (- y)) in *. clearbody w.
    assert (X : forall a b, a <= b -> exp a <= exp b) by (intros a b [H | ->]; [left; apply exp_increasing, H | lra]).
    replace (1 / exp w) with (/ exp w) by (unfold Rdiv; ring). split.
    + apply Rmult_le_compat_r; [left; apply Rinv_0_lt_compat, Hy|]. apply Rplus_le_compat_r. apply Rinv_le_contravar; [apply exp_pos | apply X, L2].
    + apply Rmult_le_reg_r with y; [exact Hy|]. replace ((/ exp w - 1) / y * y) with (/ exp w - 1) by (field; split; first [lra | apply Rgt_not_eq, exp_pos]).
      apply Rle_trans with (exp p - 1).
      { apply Rplus_le_compat_r. rewrite <- exp_Ropp. apply X. lra. }
      apply Rle_trans with (exp (2 * p) * y).
      2:{ apply Rmult_le_compat_r; [lra|]. apply X. lra. }
      replace y with (p * exp (- p)) by lra. replace (2 * p) with (p + p) by ring. rewrite exp_plus.
      assert (I : exp p * exp (- p) = 1) by (rewrite <- exp_plus; replace (p + - p) with 0 by ring; apply exp_0).
      replace (exp p * exp p * (p * exp (- p))) with (p * exp p * (exp p * exp (- p))) by ring. rewrite I.
      pose proof (exp_ineq1_le (- p)). pose proof (exp_pos p). nra.
  - apply (slope_of_derive (fun y => / exp (first_step y) - 1)); assumption.
  - eapply filterlim_filter_le_1; [apply filter_le_within|]. replace (Rbar_locally 1) with (locally (exp (4 * 0))) by (rewrite Rmult_0_r, exp_0; reflexivity).
    apply (ex_derive_continuous (V := R_NormedModule) (fun y => exp (4 * y)) 0). auto_derive. exact I.
Qed.

Lemma log_squared_stretch_slope : forall k, 0 < k -> near_0 (fun x => (1 / exp (math.lambert_w (- x / k)) - 1) / x) (/ k).
Proof.
  intros k Hk. assert (Pk : 0 < / k) by (apply Rinv_0_lt_compat, Hk).
  apply (near_ext (fun x => / k * ((1 / exp (math.lambert_w (- (x / k))) - 1) / (x / k)))).
  - intros x Hx. replace (- x / k) with (- (x / k)) by (field; lra). set (q := 1 / exp (math.lambert_w (- (x / k))) - 1). clearbody q. field. lra.
  - apply (near_eq _ (/ k * 1)); [ring|]. apply near_mult; [apply near_const|].
    apply (filterlim_comp _ _ _ (fun x => x / k) (fun y => (1 / exp (math.lambert_w (- y)) - 1) / y) (at_right 0) (at_right 0)); [|apply lambert_slope].
    intros P [d Hd]. assert (Q : 0 < d * k) by (apply Rmult_lt_0_compat; [apply cond_pos | exact Hk]).
    exists (mkposreal _ Q). intros x B Hx. apply Hd; [|apply Rdiv_lt_0_compat; first [exact Hx | exact Hk]].
    change (Rabs (x - 0) < d * k) in B. change (Rabs (x / k - 0) < d). rewrite Rminus_0_r in *. assert (0 < x / k) by (apply Rdiv_lt_0_compat; assumption).
    rewrite Rabs_pos_eq in * by lra. apply Rmult_lt_reg_r with k; [exact Hk|]. apply (Rle_lt_trans _ x); [right; field; apply Rgt_not_eq, Hk | exact B].
Qed.

Lemma log_squared_weak : forall k, 0 < k -> weak_slope (log_squared k) (1 / 3 + 1 / k + 2 / 3 / (1 + 2 / 5 * k)).
Proof.
  intros k Hk. apply (near_ext (fun x => (stiff_length k (2 / 5) x + (1 / exp (math.lambert_w (- x / k)) - 1)) / x)).
  - intros x Hx. f_equal. change (log_squared k x) with (stiff_length k (4 / 10) x + 1 / exp (math.lambert_w (- x / k)) - 1).
    replace (4 / 10) with (2 / 5) by field. ring.
  - apply full_slope_of; [exact Hk | lra | apply log_squared_stretch_slope, Hk].
Qed.

Lemma log_squared_reduced_weak : forall k, 0 < k -> weak_slope (log_squared_reduced k) (1 / 3 + 1 / k).
Proof.
  intros k Hk. apply (near_ext (fun x => (fjc x + (1 / exp (math.lambert_w (- x / k)) - 1)) / x)).
  - intros x Hx. f_equal. change (log_squared_reduced k x) with (fjc x + 1 / exp (math.lambert_w (- x / k)) - 1). ring.
  - apply reduced_slope_of; [exact Hk | apply log_squared_stretch_slope, Hk].
Qed.
