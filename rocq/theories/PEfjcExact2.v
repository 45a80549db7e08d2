(** The exact EFJC extension: negative for stiff links, divergent for soft ones,
    and not conjugate to the Gibbs free energy. *)
From Coq Require Import Reals ZArith Lra Lia Psatz.
From Coquelicot Require Import Coquelicot.
From Verif Require Import Scalar MMath MConst MFjc MEfjc.
From Verif Require Import SpecPartition SpecInverse SpecGauss SpecErf PBase PHyp PGauss PErf PErfc PIdealDist PConj PPartition PPi PEfjcExact.
From Verif Require PInverse PLimits.
Open Scope R_scope.

Local Notation ext := (@efjc_isotensional.nondimensional_end_to_end_length_per_link R R_scalar).
Local Notation asym := (@efjc_isotensional_asymptotic.nondimensional_end_to_end_length_per_link R R_scalar).
Local Notation gibbs := (@efjc_isotensional.nondimensional_gibbs_free_energy_per_link R R_scalar).

Lemma exp_neg_small : forall x, 0 <= x <= 1 -> 1 - x <= exp (- x) <= 1 - x + x ^ 2.
Proof.
  intros x Hx. split; [pose proof (exp_ineq1_le (- x)); lra |].
  pose proof (exp_small x Hx) as (L & U).
  assert (I : exp (- x) * exp x = 1) by (rewrite <- exp_plus; replace (- x + x) with 0 by ring; apply exp_0).
  pose proof (exp_pos x). apply Rmult_le_reg_r with (exp x); [assumption |]. rewrite I.
  apply Rle_trans with ((1 - x + x ^ 2) * (1 + x)); [| apply Rmult_le_compat_l; nra].
  assert (0 <= x ^ 3) by (apply pow_le; lra). replace ((1 - x + x ^ 2) * (1 + x)) with (1 + x ^ 3) by ring. lra.
Qed.

Lemma stiff_extension : forall kap x, 1500 <= kap -> 0 < x <= 1 / 4 -> ext kap x <= - (1 / (10 * x)).
Proof.
  intros kap x Hk Hx. destruct (stiff_values kap x Hk ltac:(lra)) as (V1 & V2 & _ & _).
  pose proof (den_pos kap x ltac:(lra) ltac:(lra)) as D.
  pose proof (PLimits.full_longer kap x ltac:(lra) ltac:(lra)) as (_ & As).
  pose proof (exp_small x ltac:(lra)) as EP. pose proof (exp_neg_small x ltac:(lra)) as EN.
  assert (IK : 0 < 1 / kap <= 1 / 1500).
  { split; [apply Rdiv_lt_0_compat; lra |]. apply Rmult_le_reg_r with kap; [lra |]. replace (1 / kap * kap) with 1 by (field; lra). lra. }
  assert (H : 0 <= x / kap <= 1 / 6000).
  { replace (x / kap) with (x * (1 / kap)) by (field; lra). nra. }
  assert (As' : asym kap x <= 11 / 30 * x).
  { replace (2 * x / kap) with (2 * (x * (1 / kap))) in As by (field; lra). nra. }
  assert (Hx2 : x ^ 2 <= x / 4) by nra.
  assert (I : exp x * exp (- x) = 1) by (rewrite <- exp_plus; replace (x + - x) with 0 by ring; apply exp_0).
  assert (DU : den kap x <= 46 / 10 * x).
  { unfold den. replace (x / kap) with (x * (1 / kap)) by (field; lra).
    replace (2 * ((1 + x * (1 / kap)) * exp x - (1 - x * (1 / kap)) * exp (- x))) with (2 * (exp x - exp (- x)) + 2 * x * ((1 / kap) * (exp x + exp (- x)))) by ring.
    assert ((1 / kap) * (exp x + exp (- x)) <= 1 / 1500 * 3) by (apply Rmult_le_compat; lra).
    assert (2 * x * ((1 / kap) * (exp x + exp (- x))) <= 2 * x * (1 / 1500 * 3)) by (apply Rmult_le_compat_l; lra). lra. }
  assert (N : 0 < num kap x <= 24 / 10).
  { unfold num. set (h := x / kap) in *. set (u := e1 kap x) in *. set (v := e2 kap x) in *. set (p := exp x) in *. set (r := exp (- x)) in *. clearbody h u v p r.
    assert (P1 : 1 <= (1 + h) * p <= 132 / 100) by nra. assert (P2 : 0 < (1 - h) * r <= 1) by nra.
    assert (0 < (1 + h) * p * u <= 133 / 100) by nra. assert (0 < (1 - h) * r * v <= 1) by nra. lra. }
  assert (Gs : 0 <= gauss kap x <= 1 / 10).
  { unfold gauss. split; [apply Rmult_le_pos; [apply Rmult_le_pos; [lra | apply sqrt_pos] | left; apply exp_pos] |].
    assert (S : sqrt (2 / PI / kap) <= 1 / 20).
    { rewrite <- (sqrt_square (1 / 20)) by lra. apply sqrt_le_1_alt. pose proof pi_bounds.
      replace (2 / PI / kap) with (2 / PI * (1 / kap)) by (field; split; lra).
      assert (2 / PI <= 1). { apply Rmult_le_reg_r with PI; [lra |]. replace (2 / PI * PI) with 2 by (field; lra). lra. }
      assert (0 <= 2 / PI) by (left; apply Rdiv_lt_0_compat; lra). nra. }
    assert (E : exp (- (kap / 2) - x ^ 2 / (2 * kap)) <= 1).
    { rewrite <- exp_0. left. apply exp_increasing. assert (0 < x ^ 2 / (2 * kap)) by (apply Rdiv_lt_0_compat; nra). lra. }
    pose proof (sqrt_pos (2 / PI / kap)). pose proof (exp_pos (- (kap / 2) - x ^ 2 / (2 * kap))).
    apply Rle_trans with (2 * (1 / 20) * 1); [| lra]. apply Rmult_le_compat; lra. }
  assert (CU : correction kap x <= - (36 / 10)).
  { unfold correction. cbv zeta.
    assert (GD : gauss kap x * den kap x <= 1 / 10 * (46 / 10 * x)) by (apply Rmult_le_compat; lra).
    set (h := x / kap) in *. set (r := 1 / kap) in *. set (u := e1 kap x) in *. set (v := e2 kap x) in *. set (p := exp x) in *. set (q := exp (- x)) in *.
    assert (Z1 : p * (1 + h) * (p * (1 + h + r)) * (1 - u) <= 1 / 100).
    { assert (0 < p * (1 + h) <= 2) by nra. assert (0 < p * (1 + h + r) <= 2) by nra.
      assert (0 < p * (1 + h) * (p * (1 + h + r)) <= 4) by nra. nra. }
    assert (Z2 : 99 / 100 <= p * (1 + h + r) * (q * (1 - h))).
    { replace (p * (1 + h + r) * (q * (1 - h))) with (p * q * ((1 + h + r) * (1 - h))) by ring. rewrite I. nra. }
    assert (Z3 : 99 / 100 <= q * (1 - h + r) * (p * (1 + h))).
    { replace (q * (1 - h + r) * (p * (1 + h))) with (p * q * ((1 - h + r) * (1 + h))) by ring. rewrite I. nra. }
    assert (Z4 : 99 / 100 <= p * (1 + h + r) * (q * (1 - h)) * (1 + v)) by nra.
    assert (Z5 : 98 / 100 <= q * (1 - h + r) * (p * (1 + h)) * (u + v)) by nra.
    lra. }
  rewrite ext_eq by lra.
  set (dd := den kap x) in *. set (nn := num kap x) in *. set (cc := correction kap x) in *. set (aa := asym kap x) in *. clearbody dd nn cc aa.
  assert (P : 0 < dd * (dd + nn) <= 17 * x) by nra.
  assert (Q : cc / (dd * (dd + nn)) <= - (36 / 170 / x)).
  { apply Rmult_le_reg_r with (dd * (dd + nn)); [lra |]. replace (cc / (dd * (dd + nn)) * (dd * (dd + nn))) with cc by (field; lra).
    apply Rle_trans with (- (36 / 10)); [lra |].
    replace (- (36 / 10)) with (- (36 / 170 / x) * (17 * x)) by (field; lra).
    assert (0 < 36 / 170 / x) by (apply Rdiv_lt_0_compat; lra). nra. }
  assert (X : 11 / 30 * x <= 11 / 480 / x).
  { apply Rmult_le_reg_r with x; [lra |]. replace (11 / 480 / x * x) with (11 / 480) by (field; lra). nra. }
  assert (Y : - (36 / 170 / x) + 11 / 480 / x <= - (1 / (10 * x))).
  { apply Rmult_le_reg_r with x; [lra |]. replace ((- (36 / 170 / x) + 11 / 480 / x) * x) with (- (36 / 170) + 11 / 480) by (field; lra).
    replace (- (1 / (10 * x)) * x) with (- (1 / 10)) by (field; lra). lra. }
  lra.
Qed.

(** ** Soft links: unit stiffness *)
Definition E : R := Erf (1 / sqrt 2).
Definition w : R := 2 / sqrt PI / sqrt 2 * exp (- (1 / 2)).

Lemma front : 0 < 2 / sqrt PI / sqrt 2 <= 4 / 5.
Proof.
  pose proof pi_bounds. assert (0 < sqrt PI) by (apply sqrt_lt_R0; lra). assert (S : 0 < sqrt 2) by (apply sqrt_lt_R0; lra).
  pose proof two_over_sqrt_pi as T. apply Rabs_le_between in T.
  split; [apply Rdiv_lt_0_compat; [apply Rdiv_lt_0_compat; lra | exact S] |].
  assert (1414 / 1000 <= sqrt 2). { rewrite <- (sqrt_square (1414 / 1000)) by lra. apply sqrt_le_1_alt. lra. }
  apply Rmult_le_reg_r with (sqrt 2); [exact S |]. replace (2 / sqrt PI / sqrt 2 * sqrt 2) with (2 / sqrt PI) by (field; lra). lra.
Qed.
Lemma w_bounds : 0 < w <= 1 / 2.
Proof.
  unfold w. pose proof front as F. pose proof (exp_pos (- (1 / 2))) as P.
  assert (Q : exp (- (1 / 2)) <= 61 / 100).
  { assert (E4 : exp (- (1 / 2)) = exp (- (1 / 16)) ^ 8) by (rewrite <- exp_pow; f_equal; rewrite INR_IZR_INZ; simpl IZR; field).
    rewrite E4. pose proof (exp_neg_small (1 / 16) ltac:(lra)) as X. pose proof (exp_pos (- (1 / 16))).
    assert (X1 : exp (- (1 / 16)) <= 94 / 100).
    { assert (E5 : exp (- (1 / 16)) = exp (- (1 / 64)) ^ 4) by (rewrite <- exp_pow; f_equal; rewrite INR_IZR_INZ; simpl IZR; field).
      rewrite E5. pose proof (exp_neg_small (1 / 64) ltac:(lra)) as X'. pose proof (exp_pos (- (1 / 64))).
      apply Rle_trans with ((1 - 1 / 64 + (1 / 64) ^ 2) ^ 4); [apply pow_incr; lra | lra]. }
    apply Rle_trans with ((94 / 100) ^ 8); [apply pow_incr; lra | lra]. }
  split; [apply Rmult_lt_0_compat; lra |]. apply Rle_trans with (4 / 5 * (61 / 100)); [apply Rmult_le_compat; lra | lra].
Qed.
Lemma w_lower : 1 / 1000 <= w.
Proof.
  unfold w. pose proof (exp_ineq1_le (- (1 / 2))) as P. pose proof two_over_sqrt_pi as T. apply Rabs_le_between in T.
  assert (S : 0 < sqrt 2) by (apply sqrt_lt_R0; lra). assert (S2 : sqrt 2 <= 2) by (rewrite <- (sqrt_square 2) at 2 by lra; apply sqrt_le_1_alt; lra).
  assert (F : 1 / 2 <= 2 / sqrt PI / sqrt 2).
  { apply Rmult_le_reg_r with (sqrt 2); [exact S |]. replace (2 / sqrt PI / sqrt 2 * sqrt 2) with (2 / sqrt PI) by (pose proof (sqrt_lt_R0 PI PI_RGT_0); field; lra). lra. }
  nra.
Qed.
Lemma E_bounds : 0 <= E <= 4 / 5.
Proof.
  unfold E. assert (S : 0 < sqrt 2) by (apply sqrt_lt_R0; lra). assert (P : 0 < 1 / sqrt 2) by (apply Rdiv_lt_0_compat; lra).
  split; [apply Erf_nonneg; lra |]. destruct (Erf_mvt 0 (1 / sqrt 2) ltac:(lra)) as (c & C & X). rewrite Erf_0 in X.
  replace (Erf (1 / sqrt 2)) with (2 / sqrt PI / sqrt 2 * exp (- c ^ 2)).
  2:{ assert (0 < sqrt PI) by (apply sqrt_lt_R0, PI_RGT_0). replace (2 / sqrt PI / sqrt 2 * exp (- c ^ 2)) with (2 / sqrt PI * exp (- c ^ 2) * (1 / sqrt 2 - 0)) by (field; lra). lra. }
  pose proof front. assert (exp (- c ^ 2) <= 1). { rewrite <- exp_0. destruct (Req_dec c 0) as [-> | N]; [right; f_equal; ring | left; apply exp_increasing; nra]. }
  pose proof (exp_pos (- c ^ 2)). nra.
Qed.

Lemma slope : forall s t, 0 <= s <= t -> t - s <= 1 / 10 ^ 5 -> s = 1 \/ t = 1 ->
  Rabs (Erf (t / sqrt 2) - Erf (s / sqrt 2) - w * (t - s)) <= 3 / 10 ^ 5 * (t - s).
Proof.
  intros s t Hs Hd H1. assert (S : 0 < sqrt 2) by (apply sqrt_lt_R0; lra). assert (SP : 0 < sqrt PI) by (apply sqrt_lt_R0, PI_RGT_0).
  assert (S2 : sqrt 2 * sqrt 2 = 2) by (apply sqrt_sqrt; lra).
  destruct (Erf_mvt (s / sqrt 2) (t / sqrt 2)) as (c & C & X).
  { unfold Rdiv. apply Rmult_le_compat_r; [left; apply Rinv_0_lt_compat; exact S | lra]. }
  rewrite X.
  replace (2 / sqrt PI * exp (- c ^ 2) * (t / sqrt 2 - s / sqrt 2) - w * (t - s))
    with (2 / sqrt PI / sqrt 2 * (exp (- c ^ 2) - exp (- (1 / 2))) * (t - s)) by (unfold w; field; lra).
  rewrite Rabs_mult, (Rabs_pos_eq (t - s)) by lra. apply Rmult_le_compat_r; [lra |].
  rewrite Rabs_mult. pose proof front as F. rewrite (Rabs_pos_eq (2 / sqrt PI / sqrt 2)) by lra.
  assert (Dd : Rabs (c ^ 2 - 1 / 2) <= 2 / 10 ^ 5).
  { set (y := c * sqrt 2). assert (Y : s <= y <= t).
    { unfold y. destruct C as (C1 & C2). apply (Rmult_le_compat_r (sqrt 2)) in C1; [| lra]. apply (Rmult_le_compat_r (sqrt 2)) in C2; [| lra].
      replace (s / sqrt 2 * sqrt 2) with s in C1 by (field; lra). replace (t / sqrt 2 * sqrt 2) with t in C2 by (field; lra). lra. }
    replace (c ^ 2) with (y ^ 2 / 2). 2:{ unfold y. rewrite Rpow_mult_distr. replace (sqrt 2 ^ 2) with 2 by (simpl; lra). field. }
    apply Rabs_le. assert (A : - (1 / 10 ^ 5) <= y - 1 <= 1 / 10 ^ 5) by (destruct H1; lra). set (z := y - 1) in *. replace y with (1 + z) by (unfold z; ring). clearbody z.
    assert (0 <= z ^ 2 <= 1 / 10 ^ 5) by nra. replace ((1 + z) ^ 2 / 2 - 1 / 2) with (z + z ^ 2 / 2) by field. lra. }
  assert (EE : Rabs (exp (- c ^ 2) - exp (- (1 / 2))) <= 21 / 10 ^ 6).
  { apply Rabs_le_between in Dd. set (d := c ^ 2 - 1 / 2) in *. replace (- c ^ 2) with (- (1 / 2) + - d) by (unfold d; ring). rewrite exp_plus. clearbody d.
    assert (M : 0 < exp (- (1 / 2)) <= 1) by (split; [apply exp_pos | left; apply Rlt_le_trans with (exp 0); [apply exp_increasing; lra | rewrite exp_0; lra]]).
    assert (B : - (21 / 10 ^ 6) <= exp (- d) - 1 <= 21 / 10 ^ 6).
    { destruct (Rle_or_lt 0 d) as [P | P].
      - pose proof (exp_neg_small d ltac:(lra)). nra.
      - pose proof (exp_small (- d) ltac:(lra)). nra. }
    replace (exp (- (1 / 2)) * exp (- d) - exp (- (1 / 2))) with (exp (- (1 / 2)) * (exp (- d) - 1)) by ring.
    set (z := exp (- d) - 1) in *. clearbody z. rewrite Rabs_mult, (Rabs_pos_eq (exp (- (1 / 2)))) by lra.
    assert (Z : Rabs z <= 21 / 10 ^ 6) by (apply Rabs_le; lra). pose proof (Rabs_pos z). nra. }
  pose proof (Rabs_pos (exp (- c ^ 2) - exp (- (1 / 2)))). apply Rle_trans with (4 / 5 * (21 / 10 ^ 6)); [apply Rmult_le_compat; lra | lra].
Qed.

Definition range (x : R) : Prop := 1 / 10 ^ 6 <= x <= 1 / 10 ^ 5.

Lemma soft_values : forall x, range x -> exists w1 w2,
  e1 1 x = E + x * w1 /\ e2 1 x = - E + x * w2 /\ Rabs (w1 - w) <= 1 / 10 ^ 4 /\ Rabs (w2 - w) <= 1 / 10 ^ 4.
Proof.
  intros x (Hx & Hx'). exists ((e1 1 x - E) / x), ((e2 1 x + E) / x).
  assert (S : 0 < sqrt 2) by (apply sqrt_lt_R0; lra).
  split; [field; lra |]. split; [field; lra |].
  assert (Gen : forall u v, Rabs (u - v) <= 1 / 10 ^ 12 -> Rabs (v - w * x) <= 3 / 10 ^ 5 * x -> Rabs (u / x - w) <= 1 / 10 ^ 4).
  { intros u v H1 H2. replace (u / x - w) with ((u - w * x) / x) by (field; lra). unfold Rdiv. rewrite Rabs_mult, (Rabs_pos_eq (/ x)) by (left; apply Rinv_0_lt_compat; lra).
    apply Rmult_le_reg_r with x; [lra |]. rewrite Rmult_assoc, Rinv_l, Rmult_1_r by lra.
    apply Rabs_le_between in H1. apply Rabs_le_between in H2. apply Rabs_le. lra. }
  split.
  - apply (Gen _ (E1 1 x - E)).
    + replace (e1 1 x - E - (E1 1 x - E)) with (e1 1 x - E1 1 x) by ring. apply e1_accuracy; lra.
    + pose proof (slope 1 (1 + x) ltac:(lra) ltac:(lra) ltac:(left; reflexivity)) as P.
      replace (1 + x - 1) with x in P by ring. unfold E1, E. replace (2 * 1) with 2 by ring. replace (x + 1) with (1 + x) by ring. exact P.
  - apply (Gen _ (E2 1 x + E)).
    + replace (e2 1 x + E - (E2 1 x + E)) with (e2 1 x - E2 1 x) by ring. apply erf_accuracy. replace (2 * 1) with 2 by ring.
      assert (1 < sqrt 2) by (rewrite <- sqrt_1; apply sqrt_lt_1_alt; lra).
      assert (-1 <= (x - 1) / sqrt 2); [| lra]. apply Rmult_le_reg_r with (sqrt 2); [exact S |]. replace ((x - 1) / sqrt 2 * sqrt 2) with (x - 1) by (field; lra). lra.
    + pose proof (slope (1 - x) 1 ltac:(lra) ltac:(lra) ltac:(right; reflexivity)) as P.
      replace (1 - (1 - x)) with x in P by ring. unfold E2, E. replace (2 * 1) with 2 by ring.
      replace ((x - 1) / sqrt 2) with (- ((1 - x) / sqrt 2)) by (field; lra). rewrite Erf_odd.
      replace (- Erf ((1 - x) / sqrt 2) + Erf (1 / sqrt 2) - w * x) with (Erf (1 / sqrt 2) - Erf ((1 - x) / sqrt 2) - w * x) by ring. exact P.
Qed.

(** Bounds on the exponentials in the range. *)
Lemma soft_exps : forall x, range x ->
  1 <= exp x <= 1 + 2 / 10 ^ 5 /\ 1 - 1 / 10 ^ 5 <= exp (- x) <= 1 /\
  (4 - 1 / 10 ^ 4) * x <= exp x * (1 + x) - exp (- x) * (1 - x) <= (4 + 1 / 10 ^ 4) * x.
Proof.
  intros x (Hx & Hx'). pose proof (exp_small x ltac:(lra)) as P. pose proof (exp_neg_small x ltac:(lra)) as N.
  assert (X2 : 0 <= x ^ 2 <= x / 10 ^ 5) by nra.
  repeat split; try lra; nra.
Qed.

Lemma soft_extension : forall x, range x -> 1 / (40 * x) <= ext 1 x.
Proof.
  intros x Hr. destruct (soft_values x Hr) as (w1 & w2 & V1 & V2 & W1 & W2). destruct (soft_exps x Hr) as (P & Q & D). destruct Hr as (Hx & Hx').
  pose proof w_bounds as W. pose proof E_bounds as Eb. apply Rabs_le_between in W1. apply Rabs_le_between in W2.
  pose proof (PLimits.full_longer 1 x ltac:(lra) ltac:(lra)) as (As & _). pose proof (PLimits.fjc_bounds x ltac:(lra)) as (Fp & _).
  assert (I : exp x * exp (- x) = 1) by (rewrite <- exp_plus; replace (x + - x) with 0 by ring; apply exp_0).
  assert (Dv : den 1 x = 2 * (exp x * (1 + x) - exp (- x) * (1 - x))) by (unfold den; rewrite Rdiv_1; ring).
  assert (Nv : num 1 x = (exp x * (1 + x) - exp (- x) * (1 - x)) * E + x * (exp x * (1 + x) * w1 + exp (- x) * (1 - x) * w2)).
  { unfold num. rewrite Rdiv_1, V1, V2. ring. }
  assert (Gv : 2 * w - 1 / 10 ^ 9 <= gauss 1 x <= 2 * w).
  { unfold gauss. assert (F : sqrt (2 / PI / 1) = 2 / sqrt PI / sqrt 2).
    { rewrite Rdiv_1, sqrt_div by (try lra; apply PI_RGT_0). assert (0 < sqrt PI) by (apply sqrt_lt_R0, PI_RGT_0).
      assert (S : 0 < sqrt 2) by (apply sqrt_lt_R0; lra). assert (S2 : sqrt 2 * sqrt 2 = 2) by (apply sqrt_sqrt; lra).
      apply Rmult_eq_reg_r with (sqrt PI * sqrt 2); [| apply Rgt_not_eq, Rmult_lt_0_compat; lra]. field_simplify; [| lra | lra]. simpl. lra. }
    rewrite F. replace (- (1 / 2) - x ^ 2 / (2 * 1)) with (- (1 / 2) + - (x ^ 2 / 2)) by field. rewrite exp_plus.
    pose proof (exp_neg_small (x ^ 2 / 2) ltac:(nra)) as X. assert (X2 : 0 <= x ^ 2 <= 1 / 10 ^ 10) by nra. assert (X4 : (x ^ 2 / 2) ^ 2 <= x ^ 2 / 2) by nra.
    replace (2 * (2 / sqrt PI / sqrt 2) * (exp (- (1 / 2)) * exp (- (x ^ 2 / 2)))) with (2 * w * exp (- (x ^ 2 / 2))) by (unfold w; ring).
    nra. }
  assert (Cl : 3 * x <= correction 1 x).
  { unfold correction. cbv zeta. rewrite Rdiv_1, V1, V2, Dv. replace (1 / 1) with 1 by field.
    set (p := exp x) in *. set (q := exp (- x)) in *. set (d := p * (1 + x) - q * (1 - x)) in *. set (g := gauss 1 x) in *.
    replace (2 * (p * (1 + x) * (p * (1 + x + 1)) * (1 - (E + x * w1)) - p * (1 + x + 1) * (q * (1 - x)) * (1 + (- E + x * w2)) - q * (1 - x + 1) * (p * (1 + x)) * (E + x * w1 + (- E + x * w2))) + g * (2 * d))
      with (2 * (p * (2 + x) * d * (1 - E) - x * (p * p * ((1 + x) * (2 + x)) * w1 + p * q * ((2 + x) * (1 - x)) * w2 + p * q * ((2 - x) * (1 + x)) * (w1 + w2)) + g * d)) by (unfold d; ring).
    rewrite I.
    assert (T1 : 2 * ((4 - 1 / 10 ^ 4) * x) * (1 / 5) <= p * (2 + x) * d * (1 - E)).
    { assert (2 <= p * (2 + x)) by nra. assert (2 * ((4 - 1 / 10 ^ 4) * x) <= p * (2 + x) * d) by (apply Rmult_le_compat; lra). apply Rmult_le_compat; lra. }
    assert (T2 : p * p * ((1 + x) * (2 + x)) * w1 <= (2 + 1 / 10 ^ 3) * (w + 1 / 10 ^ 4)).
    { assert (0 <= p * p <= 1 + 5 / 10 ^ 5) by nra. assert (0 <= (1 + x) * (2 + x) <= 2 + 5 / 10 ^ 5) by nra.
      assert (0 <= p * p * ((1 + x) * (2 + x)) <= 2 + 1 / 10 ^ 3) by nra. nra. }
    assert (T3 : 1 * ((2 + x) * (1 - x)) * w2 <= 2 * (w + 1 / 10 ^ 4)).
    { assert (0 <= (2 + x) * (1 - x) <= 2) by nra. nra. }
    assert (T4 : 1 * ((2 - x) * (1 + x)) * (w1 + w2) <= (2 + 1 / 10 ^ 4) * (2 * w + 2 / 10 ^ 4)).
    { assert (0 <= (2 - x) * (1 + x) <= 2 + 1 / 10 ^ 4) by nra. nra. }
    assert (T5 : p * p * ((1 + x) * (2 + x)) * w1 + 1 * ((2 + x) * (1 - x)) * w2 + 1 * ((2 - x) * (1 + x)) * (w1 + w2) <= 8 * w + 1 / 100) by lra.
    assert (T6 : x * (p * p * ((1 + x) * (2 + x)) * w1 + 1 * ((2 + x) * (1 - x)) * w2 + 1 * ((2 - x) * (1 + x)) * (w1 + w2)) <= x * (8 * w + 1 / 100)) by (apply Rmult_le_compat_l; lra).
    assert (T7 : (2 * w - 1 / 10 ^ 9) * ((4 - 1 / 10 ^ 4) * x) <= g * d).
    { pose proof w_lower as Wl. apply Rmult_le_compat; [lra | apply Rmult_le_pos; lra | lra | lra]. }
    assert (T8 : (8 * w - 1 / 10 ^ 3) * x <= (2 * w - 1 / 10 ^ 9) * ((4 - 1 / 10 ^ 4) * x)).
    { replace ((2 * w - 1 / 10 ^ 9) * ((4 - 1 / 10 ^ 4) * x)) with ((2 * w - 1 / 10 ^ 9) * (4 - 1 / 10 ^ 4) * x) by ring. apply Rmult_le_compat_r; [lra |]. replace ((2 * w - 1 / 10 ^ 9) * (4 - 1 / 10 ^ 4)) with (8 * w - 2 / 10 ^ 4 * w - 4 / 10 ^ 9 + 1 / 10 ^ 13) by field. lra. }
    lra. }
  set (d := exp x * (1 + x) - exp (- x) * (1 - x)) in *.
  assert (Nb : 0 <= num 1 x <= 45 / 10 * x).
  { rewrite Nv. assert (A1 : 0 <= d * E <= (4 + 1 / 10 ^ 4) * x * (4 / 5)) by (split; [apply Rmult_le_pos; nra | apply Rmult_le_compat; nra]).
    assert (B1 : 0 <= exp x * (1 + x) <= 1 + 1 / 10 ^ 3) by nra. assert (B2 : 0 <= exp (- x) * (1 - x) <= 1) by nra.
    assert (W1' : - (1 / 10 ^ 4) <= w1 <= 51 / 100) by lra. assert (W2' : - (1 / 10 ^ 4) <= w2 <= 51 / 100) by lra.
    assert (W1p : 0 <= w1) by (pose proof w_lower; lra). assert (W2p : 0 <= w2) by (pose proof w_lower; lra).
    assert (A2 : 0 <= exp x * (1 + x) * w1 <= 52 / 100) by (split; [apply Rmult_le_pos; lra | nra]).
    assert (A3 : 0 <= exp (- x) * (1 - x) * w2 <= 52 / 100) by (split; [apply Rmult_le_pos; lra | nra]).
    nra. }
  rewrite ext_eq by (try lra; nra).
  assert (M : 1 / (40 * x) <= correction 1 x / (den 1 x * (den 1 x + num 1 x))).
  { rewrite Dv. set (n := num 1 x) in *. set (c := correction 1 x) in *. clearbody n c d.
    assert (X1 : 0 < 2 * d <= 801 / 100 * x) by lra. assert (X2 : 0 < 2 * d + n <= 126 / 10 * x) by lra.
    assert (Pd : 0 < 2 * d * (2 * d + n)) by (apply Rmult_lt_0_compat; lra).
    assert (Pu : 2 * d * (2 * d + n) <= 801 / 100 * x * (126 / 10 * x)) by (apply Rmult_le_compat; lra).
    apply Rmult_le_reg_r with (2 * d * (2 * d + n)); [exact Pd |]. replace (c / (2 * d * (2 * d + n)) * (2 * d * (2 * d + n))) with c by (field; lra).
    apply Rle_trans with (1 / (40 * x) * (801 / 100 * x * (126 / 10 * x))).
    - apply Rmult_le_compat_l; [left; apply Rdiv_lt_0_compat; lra | exact Pu].
    - replace (1 / (40 * x) * (801 / 100 * x * (126 / 10 * x))) with (801 / 100 * (126 / 10) / 40 * x) by (field; lra). lra. }
  lra.
Qed.

Lemma soft_bracket : forall x, range x -> exists q, bracket 1 x = x * q /\ Rabs (q - (4 * (1 + E) + 2 * w)) <= 1 / 10 ^ 3.
Proof.
  intros x Hr. destruct (soft_values x Hr) as (w1 & w2 & V1 & V2 & W1 & W2). destruct (soft_exps x Hr) as (P & Q & D). destruct Hr as (Hx & Hx').
  pose proof w_bounds as W. pose proof E_bounds as Eb. apply Rabs_le_between in W1. apply Rabs_le_between in W2.
  exists (bracket 1 x / x). split; [field; lra |].
  set (d := exp x * (1 + x) - exp (- x) * (1 - x)) in *.
  assert (B : bracket 1 x = d * (1 + E) + x * (exp x * (1 + x) * w1 + exp (- x) * (1 - x) * w2)) by (unfold bracket, d; rewrite Rdiv_1, V1, V2; ring).
  rewrite B.
  assert (Y : 4 - 1 / 10 ^ 4 <= d / x <= 4 + 1 / 10 ^ 4).
  { split; apply Rmult_le_reg_r with x; try lra; replace (d / x * x) with d by (field; lra); lra. }
  replace ((d * (1 + E) + x * (exp x * (1 + x) * w1 + exp (- x) * (1 - x) * w2)) / x) with (d / x * (1 + E) + (exp x * (1 + x) * w1 + exp (- x) * (1 - x) * w2)) by (field; lra).
  set (dx := d / x) in *. clearbody dx.
  assert (Z1 : Rabs (exp x * (1 + x) * w1 - w) <= 3 / 10 ^ 4).
  { assert (1 <= exp x * (1 + x) <= 1 + 4 / 10 ^ 5) by nra. apply Rabs_le. nra. }
  assert (Z2 : Rabs (exp (- x) * (1 - x) * w2 - w) <= 3 / 10 ^ 4).
  { assert (1 - 4 / 10 ^ 5 <= exp (- x) * (1 - x) <= 1) by nra. apply Rabs_le. nra. }
  apply Rabs_le_between in Z1. apply Rabs_le_between in Z2.
  assert (Z3 : - (2 / 10 ^ 4) <= (dx - 4) * (1 + E) <= 2 / 10 ^ 4) by nra.
  apply Rabs_le. lra.
Qed.

Lemma not_conjugate : forall l m T, 0 < l -> ~ (forall x, 0 < x -> is_derive (fun x => gibbs l m 1 x T) x (- ext 1 x)).
Proof.
  intros l m T Hl H. set (a := 1 / 10 ^ 6). set (b := 1 / 10 ^ 5).
  assert (Ra : range a) by (unfold range, a; lra). assert (Rb : range b) by (unfold range, b; lra).
  destruct (MVT_gen (fun x => gibbs l m 1 x T) a b (fun x => - ext 1 x)) as (c & C & X).
  - intros x Hx. apply (H x). rewrite Rmin_left in Hx by (unfold a, b; lra). unfold a in Hx. lra.
  - intros x Hx. apply continuity_pt_filterlim, (ex_derive_continuous (V := R_NormedModule) (fun y : R => gibbs l m 1 y T) x). exists (- ext 1 x). apply (H x). rewrite Rmin_left in Hx by (unfold a, b; lra). unfold a in Hx. lra.
  - rewrite Rmin_left, Rmax_right in C by (unfold a, b; lra).
    assert (Rc : range c) by (unfold range; unfold a, b in C; lra).
    pose proof (soft_extension c Rc) as Ec.
    assert (Ec2 : 2500 <= ext 1 c).
    { apply Rle_trans with (1 / (40 * c)); [| exact Ec]. unfold a, b in C. apply Rmult_le_reg_r with (40 * c); [lra |]. replace (1 / (40 * c) * (40 * c)) with 1 by (field; lra). lra. }
    assert (Dn : gibbs l m 1 b T - gibbs l m 1 a T <= - (225 / 10 ^ 4)) by (rewrite X; unfold a, b; lra).
    destruct (soft_bracket a Ra) as (qa & Ba & Qa). destruct (soft_bracket b Rb) as (qb & Bb & Qb).
    apply Rabs_le_between in Qa. apply Rabs_le_between in Qb. pose proof w_bounds. pose proof E_bounds.
    assert (Pa : 0 < a) by (unfold a; lra). assert (Pb : 0 < b) by (unfold b; lra).
    assert (Pqa : 39 / 10 <= qa) by lra. assert (Pqb : 39 / 10 <= qb) by lra.
    rewrite !gibbs_code in Dn; try assumption; try lra; [| rewrite Ba; apply Rmult_lt_0_compat; lra | rewrite Bb; apply Rmult_lt_0_compat; lra].
    unfold code_partition in Dn. rewrite Ba, Bb in Dn. pose proof PI_RGT_0.
    assert (SP : 0 < sqrt (2 * PI / 1)) by (apply sqrt_lt_R0; apply Rdiv_lt_0_compat; lra).
    assert (Ga : forall x q, 0 < x -> 0 < q -> ln (l * (sqrt (2 * PI / 1) / (4 * x) * exp (x ^ 2 / (2 * 1)) * (x * q))) = ln (l * sqrt (2 * PI / 1) / 4) + x ^ 2 / 2 + ln q).
    { intros x q Hx Hq. replace (l * (sqrt (2 * PI / 1) / (4 * x) * exp (x ^ 2 / (2 * 1)) * (x * q))) with (l * sqrt (2 * PI / 1) / 4 * exp (x ^ 2 / 2) * q).
      - assert (0 < l * sqrt (2 * PI / 1) / 4) by (apply Rdiv_lt_0_compat; [apply Rmult_lt_0_compat; assumption | lra]).
        rewrite ln_mult; [| apply Rmult_lt_0_compat; [assumption | apply exp_pos] | exact Hq]. rewrite ln_mult; [| assumption | apply exp_pos]. rewrite ln_exp. reflexivity.
      - replace (x ^ 2 / (2 * 1)) with (x ^ 2 / 2) by field. field. lra. }
    rewrite !Ga in Dn by lra.
    assert (Lq : ln qb - ln qa <= 1 / 100).
    { rewrite <- ln_div by lra. rewrite <- (ln_exp (1 / 100)). apply ln_le; [apply Rdiv_lt_0_compat; lra |].
      apply Rle_trans with (1 + 1 / 100); [| apply exp_ineq1_le]. apply Rmult_le_reg_r with qa; [lra |]. replace (qb / qa * qa) with qb by (field; lra). lra. }
    assert (0 <= a ^ 2 <= 1 / 10 ^ 3) by (unfold a; lra). assert (0 <= b ^ 2 <= 1 / 10 ^ 3) by (unfold b; lra).
    lra.
Qed.
