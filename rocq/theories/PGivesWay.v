(** Chains whose links can break become more compliant before they do. *)
From Coq Require Import Reals ZArith List Lra Lia Psatz.
From Coquelicot Require Import Coquelicot.
From Verif Require Import Scalar MMath MConst MFjc MMorse MLennardJones MLogSquared.
From Verif Require Import SpecHooke SpecLinks SpecStability SpecStiffens PBase PHyp PLimits PNormalChain PStability PHooke PHookeStrong PHookeAsymptotic PSofter PLambertNeg PStiffens.
Open Scope R_scope.

Local Notation fjc := (@fjc_isotensional.nondimensional_end_to_end_length_per_link R R_scalar).
Local Notation morse := (@morse_isotensional_asymptotic.nondimensional_end_to_end_length_per_link R R_scalar).
Local Notation morse_reduced := (@morse_isotensional_asymptotic_reduced.nondimensional_end_to_end_length_per_link R R_scalar).
Local Notation lennard_jones := (@lennard_jones_isotensional_asymptotic.nondimensional_end_to_end_length_per_link R R_scalar).
Local Notation lennard_jones_reduced := (@lennard_jones_isotensional_asymptotic_reduced.nondimensional_end_to_end_length_per_link R R_scalar).
Local Notation log_squared := (@log_squared_isotensional_asymptotic.nondimensional_end_to_end_length_per_link R R_scalar).
Local Notation log_squared_reduced := (@log_squared_isotensional_asymptotic_reduced.nondimensional_end_to_end_length_per_link R R_scalar).
Local Notation lj_stretch := (@lennard_jones_thermodynamics.nondimensional_link_stretch R R_scalar).

(** The part of the extension that comes from turning the links: positive, growing, at most 1. *)
Definition turning (s : R -> R) : Prop := (forall x, 0 < x -> 0 < s x < 1) /\ (forall x y, 0 < x -> x < y -> s x <= s y).

Lemma fjc_turning : turning fjc.
Proof.
  destruct langevin_stable as [P I].
  assert (E : forall x, fjc x = 1 / tanh x - 1 / x) by (intro x; apply fjc_eq).
  split.
  - intros x Hx. split; [rewrite E; apply P, Hx|]. pose proof (coupling_pos x Hx) as C. pose proof (PInverse.tanh_bounds x Hx). rewrite E. lra.
  - intros x y Hx H. rewrite !E. left. apply I; unfold pulling; lra.
Qed.

Lemma stiff_turning : forall k c, 0 < k -> 0 < c -> turning (stiff_length k c).
Proof.
  intros k c Hk Hc. destruct (stiff_stable k c Hk Hc) as [P I]. split.
  - intros x Hx. split; [apply P, Hx|]. unfold stiff_length. pose proof (coupling_pos x Hx) as C. pose proof (PInverse.tanh_bounds x Hx) as T.
    assert (0 < c * tanh x) by (apply Rmult_lt_0_compat; lra). assert (0 < x / k) by (apply Rdiv_lt_0_compat; lra).
    set (m := tanh x - 1 / tanh x + 1 / x) in *. 
    assert (x / k * (m / (c * tanh x + x / k)) <= m).
    { replace (x / k * (m / (c * tanh x + x / k))) with (m * (x / k) / (c * tanh x + x / k)) by (unfold Rdiv; ring).
      apply Rmult_le_reg_r with (c * tanh x + x / k); [lra|]. unfold Rdiv at 1. rewrite Rmult_assoc, Rinv_l, Rmult_1_r by lra.
      assert (0 < m * (c * tanh x)) by (apply Rmult_lt_0_compat; lra). lra. }
    unfold m in *. lra.
  - intros x y Hx H. left. apply I; unfold pulling; lra.
Qed.

(** ** Two pulls that show it *)
Lemma gives_way_at : forall (f s lam : R -> R) brk lam1 lam2 x y, turning s -> (forall t, 0 < t -> f t = s t + (lam t - 1)) ->
  0 < x -> x < y -> y < brk -> lam x <= lam1 -> lam2 <= lam y -> (lam1 - 1) * y <= (lam2 - 1) * x -> lam1 * y < lam2 * x -> gives_way f brk.
Proof.
  intros f s lam brk lam1 lam2 x y [T1 T2] F Hx H Hb A B C D. exists x, y. repeat (split; [assumption|]).
  rewrite !F by lra. pose proof (T1 x Hx) as S. pose proof (T2 x y Hx H) as S'.
  apply Rmult_lt_reg_r with (x * y); [apply Rmult_lt_0_compat; lra|].
  replace ((s x + (lam x - 1)) / x * (x * y)) with ((s x + (lam x - 1)) * y) by (field; lra).
  replace ((s y + (lam y - 1)) / y * (x * y)) with ((s y + (lam y - 1)) * x) by (field; lra).
  assert ((s x + (lam x - 1)) * y <= (s x + (lam1 - 1)) * y) by (apply Rmult_le_compat_r; lra).
  assert ((s x + (lam2 - 1)) * x <= (s y + (lam y - 1)) * x) by (apply Rmult_le_compat_r; lra).
  set (u := s x) in *. clearbody u.
  assert ((1 - u) * ((lam1 - 1) * y) <= (1 - u) * ((lam2 - 1) * x)) by (apply Rmult_le_compat_l; lra).
  assert (u * (lam1 * y) < u * (lam2 * x)) by (apply Rmult_lt_compat_l; lra). lra.
Qed.

(** Lennard-Jones: the stretches 1.1 and 1.106. *)
Lemma lj_bond_lt : forall lm, 0 < lm -> lm ^ 6 = 13 / 7 -> forall u v, 1 <= u -> u < v -> v <= lm -> PLjStretch.bond u < PLjStretch.bond v.
Proof.
  intros lm H0 H6 u v Hu Huv Hv.
  destruct (MVT_cor2 PLjStretch.bond PLjStretch.bond1 u v Huv) as (c & E & Hc).
  { intros c Hc. apply is_derive_Reals, PLjStretch.bond_derive. lra. }
  pose proof (PLjStretch.bond1_pos lm H0 H6 c ltac:(lra)). assert (0 < PLjStretch.bond1 c * (v - u)) by (apply Rmult_lt_0_compat; lra). lra.
Qed.

Lemma lj_bond_scaled : forall kap lam, 0 < kap -> lj_bond_force kap lam = kap / 6 * PLjStretch.bond lam.
Proof. intros. unfold lj_bond_force, PLjStretch.bond. unfold Rdiv. ring. Qed.

Lemma lennard_jones_gives_way : forall lm, 0 < lm -> lm ^ 6 = 13 / 7 -> forall kap, 0 < kap ->
  gives_way (lennard_jones kap) (lj_bond_force kap lm) /\ gives_way (lennard_jones_reduced kap) (lj_bond_force kap lm).
Proof.
  intros lm H0 H6 kap Hk.
  assert (Lm : 1108 / 1000 < lm).
  { apply Rnot_le_lt. intro N. assert (lm ^ 6 <= (1108 / 1000) ^ 6) by (apply pow_incr; lra). lra. }
  set (x := kap / 6 * PLjStretch.bond (11 / 10)). set (y := kap / 6 * (PLjStretch.bond (1106 / 1000) * (1 + 2 / 10 ^ 6))).
  assert (b1 : PLjStretch.bond (11 / 10) * 1000000 < 223494 /\ 223493 < PLjStretch.bond (11 / 10) * 1000000) by (unfold PLjStretch.bond; split; lra).
  assert (b2 : PLjStretch.bond (1106 / 1000) * 1000000 < 224098 /\ 224097 < PLjStretch.bond (1106 / 1000) * 1000000) by (unfold PLjStretch.bond; split; lra).
  assert (b3 : 224154 < PLjStretch.bond (1108 / 1000) * 1000000) by (unfold PLjStretch.bond; lra).
  pose proof (lj_bond_lt lm H0 H6 (1108 / 1000) lm ltac:(lra) Lm ltac:(lra)) as b4.
  assert (Hx : 0 < x) by (apply Rmult_lt_0_compat; lra).
  assert (Hxy : x < y) by (apply Rmult_lt_compat_l; lra).
  assert (Hy : y < lj_bond_force kap lm) by (rewrite lj_bond_scaled by exact Hk; apply Rmult_lt_compat_l; lra).
  assert (A : lj_stretch kap x <= 11 / 10).
  { destruct (PLjStretch.lj_stretch lm H0 H6 kap x Hk ltac:(split; lra)) as [R1 [_ R2]]. apply Rnot_lt_le. intro N.
    rewrite lj_bond_scaled in R2 by exact Hk. unfold x at 2 in R2. apply Rmult_le_reg_l in R2; [|lra].
    pose proof (lj_bond_lt lm H0 H6 (11 / 10) _ ltac:(lra) N ltac:(lra)). lra. }
  assert (B : 1106 / 1000 <= lj_stretch kap y).
  { destruct (PLjStretch.lj_stretch lm H0 H6 kap y Hk ltac:(split; lra)) as [R1 [R2 _]]. apply Rnot_lt_le. intro N.
    rewrite lj_bond_scaled in R2 by exact Hk. unfold y at 1 in R2. rewrite Rmult_assoc in R2. apply Rmult_le_reg_l in R2; [|lra].
    pose proof (lj_bond_lt lm H0 H6 (lj_stretch kap y) (1106 / 1000) ltac:(lra) N ltac:(lra)). lra. }
  assert (C : (11 / 10 - 1) * y <= (1106 / 1000 - 1) * x).
  { unfold x, y. replace ((11 / 10 - 1) * (kap / 6 * (PLjStretch.bond (1106 / 1000) * (1 + 2 / 10 ^ 6)))) with (kap / 6 * ((11 / 10 - 1) * (PLjStretch.bond (1106 / 1000) * (1 + 2 / 10 ^ 6)))) by ring.
    replace ((1106 / 1000 - 1) * (kap / 6 * PLjStretch.bond (11 / 10))) with (kap / 6 * ((1106 / 1000 - 1) * PLjStretch.bond (11 / 10))) by ring. apply Rmult_le_compat_l; lra. }
  assert (D : 11 / 10 * y < 1106 / 1000 * x).
  { unfold x, y. replace (11 / 10 * (kap / 6 * (PLjStretch.bond (1106 / 1000) * (1 + 2 / 10 ^ 6)))) with (kap / 6 * (11 / 10 * (PLjStretch.bond (1106 / 1000) * (1 + 2 / 10 ^ 6)))) by ring.
    replace (1106 / 1000 * (kap / 6 * PLjStretch.bond (11 / 10))) with (kap / 6 * (1106 / 1000 * PLjStretch.bond (11 / 10))) by ring. apply Rmult_lt_compat_l; lra. }
  clearbody x y. split.
  - apply (gives_way_at _ (stiff_length kap (2 / 23)) (lj_stretch kap) _ (11 / 10) (1106 / 1000) x y); try assumption; [apply stiff_turning; lra|].
    intros t Ht. change (lennard_jones kap t) with (stiff_length kap (2 / 23) t + lj_stretch kap t - 1). ring.
  - apply (gives_way_at _ fjc (lj_stretch kap) _ (11 / 10) (1106 / 1000) x y); try assumption; [apply fjc_turning|].
    intros t Ht. rewrite fjc_eq. change (lennard_jones_reduced kap t) with (1 / tanh t - 1 / t + lj_stretch kap t - 1). ring.
Qed.

(** Log-squared: the stretches exp (1/2) and exp (9/10). *)
Lemma log_gives_way : forall kap, 0 < kap ->
  gives_way (log_squared kap) (kap * exp (-1)) /\ gives_way (log_squared_reduced kap) (kap * exp (-1)).
Proof.
  intros kap Hk. set (lam := fun x => 1 / exp (math.lambert_w (- x / kap))).
  assert (W : forall u v, 1 <= u -> u < v -> v <= exp 1 -> ln u / u < ln v / v).
  { intros u v Hu Huv Hv. destruct (MVT_cor2 (fun t => ln t / t) (fun t => (1 - ln t) / t ^ 2) u v Huv) as (c & E & Hc).
    { intros c Hc. apply is_derive_Reals. auto_derive; [repeat split; lra | field; lra]. }
    assert (ln c < 1) by (rewrite <- (ln_exp 1); apply ln_increasing; lra).
    assert (0 < (1 - ln c) / c ^ 2 * (v - u)) by (apply Rmult_lt_0_compat; [apply Rdiv_lt_0_compat; [lra | apply pow_lt; lra] | lra]). cbv beta in E. lra. }
  set (u := exp (1 / 2)). set (r := exp (4 / 10)). set (v := exp (9 / 10)).
  assert (Ev : v = u * r) by (unfold u, v, r; rewrite <- exp_plus; f_equal; field).
  assert (Hu : 1 < u) by (unfold u; pose proof (exp_ineq1 (1 / 2) ltac:(lra)); lra).
  assert (Hr : 14 / 10 < r) by (unfold r; pose proof (exp_ineq1 (4 / 10) ltac:(lra)); lra).
  assert (Hv : v < exp 1) by (apply exp_increasing; lra).
  assert (Ht : 9025 / 10000 < exp (- (1 / 10))).
  { replace (- (1 / 10)) with (- (1 / 20) + - (1 / 20)) by field. rewrite exp_plus. pose proof (exp_ineq1 (- (1 / 20)) ltac:(lra)). nra. }
  assert (Ee : exp (-1) = exp (- (1 / 10)) / v) by (unfold v, Rdiv; rewrite <- exp_Ropp, <- exp_plus; f_equal; field).
  assert (Hr2 : 1903 / 1000 < r * r) by nra.
  set (x := kap * (1 / 2 / u)). set (y := kap * (9 / 10 / v * (1000 / 999))).
  assert (P : 0 < v) by nra. assert (iu : 0 < / u) by (apply Rinv_0_lt_compat; lra). assert (iv : 0 < / v) by (apply Rinv_0_lt_compat; lra).
  assert (R : / u = r * / v) by (rewrite Ev; field; lra).
  assert (Hx : 0 < x) by (unfold x; apply Rmult_lt_0_compat; [exact Hk | unfold Rdiv; lra]).
  assert (Hy : y < kap * exp (-1)) by (apply Rmult_lt_compat_l; [exact Hk|]; rewrite Ee; unfold Rdiv; nra).
  assert (D : u * y < v * x).
  { replace (u * y) with (kap * / r * (9 / 10 * (1000 / 999))) by (unfold y; rewrite Ev; field; lra).
    replace (v * x) with (kap * / r * (r * r * / 2)) by (unfold x; rewrite Ev; field; lra).
    apply Rmult_lt_compat_l; [apply Rmult_lt_0_compat; [exact Hk | apply Rinv_0_lt_compat; lra] | lra]. }
  assert (Hr3 : r < 17 / 10).
  { assert (6 / 10 < exp (- (4 / 10))) by (pose proof (exp_ineq1 (- (4 / 10)) ltac:(lra)); lra).
    assert (r * exp (- (4 / 10)) = 1) by (unfold r; rewrite <- exp_plus, Rplus_opp_r; apply exp_0). nra. }
  assert (Hxy : x < y) by (apply Rmult_lt_compat_l; [exact Hk|]; unfold Rdiv; rewrite R; nra).
  assert (C : (u - 1) * y <= (v - 1) * x).
  { assert (C' : y <= r * x).
    { replace y with (kap * / v * (9 / 10 * (1000 / 999))) by (unfold y; field; lra). replace (r * x) with (kap * / v * (r * r * / 2)) by (unfold x; rewrite Ev; field; lra).
      apply Rmult_le_compat_l; [left; apply Rmult_lt_0_compat; assumption | lra]. }
    assert ((u - 1) * y <= (u - 1) * (r * x)) by (apply Rmult_le_compat_l; lra). 
    assert (0 < (r - 1) * x) by (apply Rmult_lt_0_compat; lra). rewrite Ev. lra. }
  assert (A : lam x <= u).
  { destruct (PLambertNeg.log_stretch kap x Hk ltac:(split; lra)) as [R1 [[_ R2] _]]. fold (lam x) in R1, R2. apply Rnot_lt_le. intro N.
    pose proof (W u (lam x) ltac:(lra) N ltac:(lra)) as Q. unfold log_squared_bond_force in R2. unfold x at 3 in R2. apply Rmult_le_reg_l in R2; [|exact Hk].
    replace (ln u) with (1 / 2) in Q by (unfold u; rewrite ln_exp; reflexivity). lra. }
  assert (B : v <= lam y).
  { destruct (PLambertNeg.log_stretch kap y Hk ltac:(split; lra)) as [R1 [[R2 _] _]]. fold (lam y) in R1, R2. apply Rnot_lt_le. intro N.
    pose proof (W (lam y) v ltac:(lra) N ltac:(lra)) as Q. unfold log_squared_bond_force in R2. unfold y at 1 in R2. rewrite Rmult_assoc in R2. apply Rmult_le_reg_l in R2; [|exact Hk].
    replace (ln v) with (9 / 10) in Q by (unfold v; rewrite ln_exp; reflexivity).
    replace (9 / 10 / v * (1000 / 999) * (1 - 1 / 10 ^ 3)) with (9 / 10 / v) in R2 by (field; lra). lra. }
  split.
  - apply (gives_way_at _ (stiff_length kap (4 / 10)) lam _ u v x y); try assumption; [apply stiff_turning; lra|].
    intros t Ht'. change (log_squared kap t) with (stiff_length kap (4 / 10) t + lam t - 1). ring.
  - apply (gives_way_at _ fjc lam _ u v x y); try assumption; [apply fjc_turning|].
    intros t Ht'. rewrite fjc_eq. change (log_squared_reduced kap t) with (1 / tanh t - 1 / t + lam t - 1). ring.
Qed.

(** Morse: two pulls close to the break, where the stretch grows like a square root. *)
Lemma morse_way : forall (f s : R -> R) a xm, turning s -> 0 < a -> 0 < xm -> (forall t, 0 < t -> f t = s t + morse_stretch a xm t) -> gives_way f xm.
Proof.
  intros f s a xm [T1 T2] Ha Hm F. set (d := / (18 + 16 * a)).
  assert (D0 : 0 < d) by (apply Rinv_0_lt_compat; lra). assert (D1 : d * (18 + 16 * a) = 1) by (unfold d; field; lra).
  assert (DA : 0 < d * a) by (apply Rmult_lt_0_compat; assumption). assert (D2 : d < 1 / 18) by lra. clearbody d.
  assert (D3 : 0 < d ^ 2 < 1 / 10) by (split; nra).
  set (x := (1 - 4 * d ^ 2) * xm). set (y := (1 - d ^ 2) * xm).
  assert (Hx : 0 < x) by (apply Rmult_lt_0_compat; lra). assert (Hxy : x < y) by (apply Rmult_lt_compat_r; lra).
  assert (Hy : y < xm) by (unfold y; nra).
  exists x, y. repeat (split; [assumption|]). rewrite !F by lra.
  pose proof (T1 y ltac:(lra)) as S1. pose proof (T2 x y Hx Hxy) as S2. pose proof (T1 x Hx) as S3.
  assert (Mx : morse_stretch a xm x = ln (2 / (1 + 2 * d)) / a).
  { unfold morse_stretch. replace (1 - x / xm) with ((2 * d) ^ 2) by (unfold x; field; lra). rewrite sqrt_pow2 by lra. reflexivity. }
  assert (My : morse_stretch a xm y = ln (2 / (1 + d)) / a).
  { unfold morse_stretch. replace (1 - y / xm) with (d ^ 2) by (unfold y; field; lra). rewrite sqrt_pow2 by lra. reflexivity. }
  rewrite Mx, My.
  assert (L1 : ln (2 / (1 + d)) < 1).
  { apply Rlt_trans with (ln 2); [apply ln_increasing; [apply Rdiv_lt_0_compat; lra|]; apply Rmult_lt_reg_r with (1 + d); [lra|]; replace (2 / (1 + d) * (1 + d)) with 2 by (field; lra); lra|].
    rewrite <- (ln_exp 1). apply ln_increasing; [lra|]. pose proof (exp_ineq1 1 ltac:(lra)). lra. }
  assert (L2 : ln (2 / (1 + 2 * d)) + d / (1 + 2 * d) <= ln (2 / (1 + d))).
  { replace (2 / (1 + d)) with (2 / (1 + 2 * d) * / ((1 + d) / (1 + 2 * d))) by (field; lra).
    assert (0 < (1 + d) / (1 + 2 * d)) by (apply Rdiv_lt_0_compat; lra).
    rewrite ln_mult, ln_Rinv by (try apply Rinv_0_lt_compat; try assumption; apply Rdiv_lt_0_compat; lra).
    assert (ln ((1 + d) / (1 + 2 * d)) <= (1 + d) / (1 + 2 * d) - 1).
    { pose proof (exp_ineq1_le (ln ((1 + d) / (1 + 2 * d)))) as Q. rewrite exp_ln in Q by assumption. lra. }
    replace (d / (1 + 2 * d)) with (1 - (1 + d) / (1 + 2 * d)) by (field; lra). lra. }
  assert (L3 : d / 2 <= d / (1 + 2 * d)) by (apply Rmult_le_compat_l; [lra|]; apply Rinv_le_contravar; lra).
  set (px := ln (2 / (1 + 2 * d))) in *. set (py := ln (2 / (1 + d))) in *. clearbody px py.
  apply Rmult_lt_reg_r with (x * y * a); [apply Rmult_lt_0_compat; [apply Rmult_lt_0_compat; lra | exact Ha]|].
  replace ((s x + px / a) / x * (x * y * a)) with ((s x * a + px) * y) by (field; lra).
  replace ((s y + py / a) / y * (x * y * a)) with ((s y * a + py) * x) by (field; lra).
  assert (K1 : s x * a <= s y * a) by (apply Rmult_le_compat_r; lra).
  assert (K2 : (s x * a + px) * y <= (s y * a + (py - d / 2)) * y) by (apply Rmult_le_compat_r; lra).
  assert (K3 : s y * a < a) by nra.
  apply Rle_lt_trans with (1 := K2). set (q := s y * a + py) in *.
  assert (K4 : q < 1 + a) by (unfold q; lra).
  replace ((s y * a + (py - d / 2)) * y) with (q * y - d / 2 * y) by (unfold q; ring).
  assert (K5 : q * (y - x) < d / 2 * y); [|lra].
  replace (y - x) with (3 * d * d * xm) by (unfold x, y; ring).
  replace (d / 2 * y) with ((1 - d ^ 2) / 2 * (d * xm)) by (unfold y; field).
  replace (q * (3 * d * d * xm)) with (3 * d * q * (d * xm)) by ring.
  apply Rmult_lt_compat_r; [apply Rmult_lt_0_compat; assumption|].
  assert (d * q < d * (1 + a)) by (apply Rmult_lt_compat_l; lra). lra.
Qed.

Lemma morse_gives_way : forall kap eps, 0 < kap -> 0 < eps ->
  gives_way (morse kap eps) (sqrt (kap * eps / 8)) /\ gives_way (morse_reduced kap eps) (sqrt (kap * eps / 8)).
Proof.
  intros k e Hk He. rewrite (Rmult_comm k e). destruct (PConj.morse_constants k e Hk He) as (A & _).
  assert (M : 0 < sqrt (e * k / 8)) by (apply sqrt_lt_R0; assert (0 < e * k) by (apply Rmult_lt_0_compat; assumption); lra). split.
  - apply (morse_way _ (stiff_length k (/ (1 + 3 / 2 * sqrt (k / e / 2)))) (sqrt (k / e / 2))); try assumption;
      [apply stiff_turning; [exact Hk | apply Rinv_0_lt_compat; lra] | intros t _; apply morse_sum; assumption].
  - apply (morse_way _ fjc (sqrt (k / e / 2))); try assumption; [apply fjc_turning | intros t _; apply morse_reduced_sum; assumption].
Qed.
