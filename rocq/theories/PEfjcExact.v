(** The exact isotensional EFJC functions: partition function, accuracy, stiff
    links, and the failure of conjugacy. *)
From Coq Require Import Reals ZArith Lra Lia Psatz.
From Coquelicot Require Import Coquelicot.
From Verif Require Import Scalar MMath MConst MFjc MEfjc.
From Verif Require Import SpecPartition SpecInverse SpecGauss SpecErf PBase PHyp PGauss PErf PErfc PIdealDist PConj PPartition.
From Verif Require PInverse PLimits.
Open Scope R_scope.

Local Notation ext := (@efjc_isotensional.nondimensional_end_to_end_length_per_link R R_scalar).
Local Notation asym := (@efjc_isotensional_asymptotic.nondimensional_end_to_end_length_per_link R R_scalar).
Local Notation gibbs := (@efjc_isotensional.nondimensional_gibbs_free_energy_per_link R R_scalar).

(** The two values of the error function that the code uses. *)
Definition e1 (kap x : R) : R := math.erf ((x + kap) / sqrt (2 * kap)).
Definition e2 (kap x : R) : R := math.erf ((x - kap) / sqrt (2 * kap)).

(** The numerator and denominator of the code's [fraction]. *)
Definition num (kap x : R) : R := (1 + x / kap) * exp x * e1 kap x + (1 - x / kap) * exp (- x) * e2 kap x.
Definition den (kap x : R) : R := 2 * ((1 + x / kap) * exp x - (1 - x / kap) * exp (- x)).
Definition gauss (kap x : R) : R := 2 * sqrt (2 / PI / kap) * exp (- (kap / 2) - x ^ 2 / (2 * kap)).

Lemma den_pos : forall kap x, 0 < kap -> 0 < x -> 0 < den kap x.
Proof.
  intros kap x Hk Hx. unfold den. assert (0 < x / kap) by (apply Rdiv_lt_0_compat; assumption).
  assert (exp (- x) < exp x) by (apply exp_increasing; lra). pose proof (exp_pos (- x)). nra.
Qed.
Lemma den_code : forall kap x, 0 < kap -> 0 < x -> 4 * sinh x * (1 + x / tanh x / kap) = den kap x.
Proof.
  intros kap x Hk Hx. pose proof (PHyp.sinh_pos x Hx) as S. pose proof (PHyp.cosh_pos x) as C.
  replace (4 * sinh x * (1 + x / tanh x / kap)) with (4 * sinh x + 4 * x * cosh x / kap) by (unfold tanh; field; lra).
  unfold den, sinh, cosh. field. lra.
Qed.
Lemma fraction_code : forall kap x, 0 < kap -> 0 < x ->
  ((x / kap + 1) * exp x * e1 kap x - (x / kap - 1) / exp x * e2 kap x) / (4 * sinh x * (1 + x / tanh x / kap)) = num kap x / den kap x.
Proof.
  intros kap x Hk Hx. rewrite den_code by assumption. f_equal. unfold num. rewrite exp_Ropp. field. pose proof (exp_pos x). lra.
Qed.

Lemma gibbs_eq : forall l m T kap x, 0 < kap -> 0 < x ->
  gibbs l m kap x T = - ln (sinh x / x) - 5 / 10 * x ^ 2 / kap - ln (1 + x / tanh x / kap) - ln (5 / 10 + num kap x / den kap x) - link_term kap l - hinge_term l m T.
Proof. intros l m T kap x Hk Hx. rewrite <- fraction_code by assumption. reflexivity. Qed.

(** The partition function that the code computes. *)
Definition bracket (kap x : R) : R := (1 + x / kap) * exp x * (1 + e1 kap x) - (1 - x / kap) * exp (- x) * (1 - e2 kap x).
Definition code_partition (kap x : R) : R := sqrt (2 * PI / kap) / (4 * x) * exp (x ^ 2 / (2 * kap)) * bracket kap x.

Lemma gibbs_code : forall l m T kap x, 0 < l -> 0 < kap -> 0 < x -> 0 < bracket kap x ->
  gibbs l m kap x T = - ln (l * code_partition kap x) - hinge_term l m T.
Proof.
  intros l m T kap x Hl Hk Hx Hb. rewrite gibbs_eq by assumption.
  pose proof (PHyp.sinh_pos x Hx) as S. pose proof (PHyp.cosh_pos x) as C. pose proof (den_pos kap x Hk Hx) as D.
  pose proof (den_code kap x Hk Hx) as DC. pose proof PI_RGT_0 as PP.
  assert (Q : 0 < 1 + x / tanh x / kap).
  { apply Rmult_lt_reg_l with (4 * sinh x); [lra |]. rewrite DC, Rmult_0_r. exact D. }
  assert (F : 5 / 10 + num kap x / den kap x = bracket kap x / den kap x).
  { apply Rmult_eq_reg_r with (den kap x); [| lra]. field_simplify; [| lra | lra]. unfold num, bracket, den. field. lra. }
  assert (K : 0 < 2 * PI / kap) by (apply Rdiv_lt_0_compat; lra).
  assert (SK : 0 < sqrt (2 * PI / kap)) by (apply sqrt_lt_R0; exact K).
  assert (LT : link_term kap l = ln l + ln (sqrt (2 * PI / kap))).
  { unfold link_term. rewrite <- ln_mult by assumption.
    replace (2 * PI * l ^ 2 / kap) with ((l * sqrt (2 * PI / kap)) ^ 2).
    2:{ rewrite Rpow_mult_distr. replace (sqrt (2 * PI / kap) ^ 2) with (2 * PI / kap); [field; lra |]. simpl. rewrite Rmult_1_r, sqrt_sqrt; lra. }
    rewrite ln_pow by (apply Rmult_lt_0_compat; assumption). simpl INR. field. }
  rewrite LT, F. unfold code_partition.
  assert (X : 5 / 10 * x ^ 2 / kap = ln (exp (x ^ 2 / (2 * kap)))) by (rewrite ln_exp; field; lra). rewrite X.
  assert (R1 : ln (sinh x / x) + ln (1 + x / tanh x / kap) + ln (bracket kap x / den kap x) = ln (bracket kap x / (4 * x))).
  { rewrite <- !ln_mult.
    - f_equal. assert (0 < tanh x) by (unfold tanh; apply Rdiv_lt_0_compat; lra).
      replace (sinh x / x * (1 + x / tanh x / kap)) with (den kap x / (4 * x)) by (rewrite <- DC; field; repeat split; lra).
      field. lra.
    - apply Rmult_lt_0_compat; [apply Rdiv_lt_0_compat; assumption | exact Q].
    - apply Rdiv_lt_0_compat; assumption.
    - apply Rdiv_lt_0_compat; assumption.
    - exact Q. }
  replace (l * (sqrt (2 * PI / kap) / (4 * x) * exp (x ^ 2 / (2 * kap)) * bracket kap x))
    with (l * (sqrt (2 * PI / kap) * (exp (x ^ 2 / (2 * kap)) * (bracket kap x / (4 * x))))) by (field; lra).
  pose proof (exp_pos (x ^ 2 / (2 * kap))) as EP.
  assert (BP : 0 < bracket kap x / (4 * x)) by (apply Rdiv_lt_0_compat; lra).
  assert (BP2 : 0 < exp (x ^ 2 / (2 * kap)) * (bracket kap x / (4 * x))) by (apply Rmult_lt_0_compat; assumption).
  assert (BP3 : 0 < sqrt (2 * PI / kap) * (exp (x ^ 2 / (2 * kap)) * (bracket kap x / (4 * x)))) by (apply Rmult_lt_0_compat; assumption).
  rewrite !ln_mult by assumption. lra.
Qed.

(** The exact partition function. *)
Definition E1 (kap x : R) : R := Erf ((x + kap) / sqrt (2 * kap)).
Definition E2 (kap x : R) : R := Erf ((x - kap) / sqrt (2 * kap)).
Definition exact_bracket (kap x : R) : R := (1 + x / kap) * exp x * (1 + E1 kap x) - (1 - x / kap) * exp (- x) * (1 - E2 kap x).
Definition partition (kap x : R) : R := sqrt (2 * PI / kap) / (4 * x) * exp (x ^ 2 / (2 * kap)) * exact_bracket kap x.

Lemma Erf_odd : forall x, Erf (- x) = - Erf x.
Proof. intro x. rewrite !Erf_C2, G_odd. ring. Qed.

Lemma sqrt_2k : forall kap, 0 < kap -> sqrt (kap / 2) * sqrt (2 * kap) = kap.
Proof. intros kap Hk. rewrite <- sqrt_mult by lra. replace (kap / 2 * (2 * kap)) with (kap * kap) by field. apply sqrt_square. lra. Qed.

Lemma partition_integral : forall kap x, 0 < kap -> x <> 0 ->
  half_line_integral (link_weight (harmonic_potential kap) x) (partition kap x).
Proof.
  intros kap x Hk Hx.
  replace (partition kap x) with (gauss_partition (kap / 2) 1 x).
  { apply (gauss_partition_half_line (kap / 2) 1); [lra | exact Hx]. }
  rewrite gauss_partition_value by lra. unfold partition, exact_bracket.
  pose proof (sqrt_2k kap Hk) as S. assert (P1 : 0 < sqrt (kap / 2)) by (apply sqrt_lt_R0; lra). assert (P2 : 0 < sqrt (2 * kap)) by (apply sqrt_lt_R0; lra).
  pose proof PI_RGT_0.
  assert (A1 : sqrt (kap / 2) * (1 + x / (2 * (kap / 2))) = (x + kap) / sqrt (2 * kap)).
  { apply Rmult_eq_reg_r with (sqrt (2 * kap)); [| lra].
    replace (sqrt (kap / 2) * (1 + x / (2 * (kap / 2))) * sqrt (2 * kap)) with (sqrt (kap / 2) * sqrt (2 * kap) * (1 + x / (2 * (kap / 2)))) by ring.
    rewrite S. field. lra. }
  assert (A2 : sqrt (kap / 2) * (1 - x / (2 * (kap / 2))) = - ((x - kap) / sqrt (2 * kap))).
  { apply Rmult_eq_reg_r with (sqrt (2 * kap)); [| lra].
    replace (sqrt (kap / 2) * (1 - x / (2 * (kap / 2))) * sqrt (2 * kap)) with (sqrt (kap / 2) * sqrt (2 * kap) * (1 - x / (2 * (kap / 2)))) by ring.
    rewrite S. field. lra. }
  rewrite A1, A2, Erf_odd. fold (E1 kap x) (E2 kap x).
  replace (2 * (kap / 2)) with kap by field. replace (4 * (kap / 2)) with (2 * kap) by field. rewrite !Rmult_1_r.
  assert (A3 : sqrt (2 * PI / kap) = sqrt PI / sqrt (kap / 2)).
  { rewrite <- sqrt_div by lra. f_equal. field. lra. }
  rewrite A3. field. repeat split; lra.
Qed.

(** ** Accuracy *)
Lemma Erf_derive : forall x, is_derive Erf x (2 / sqrt PI * exp (- x ^ 2)).
Proof.
  intro x. apply (is_derive_ext (fun x => 2 / sqrt PI * G x)); [intro; reflexivity |].
  apply (is_derive_scal G). apply G_derive.
Qed.
Lemma Erf_mvt : forall x y, x <= y -> exists c, x <= c <= y /\ Erf y - Erf x = 2 / sqrt PI * exp (- c ^ 2) * (y - x).
Proof.
  intros x y H. destruct (MVT_gen Erf x y (fun x => 2 / sqrt PI * exp (- x ^ 2))) as (c & C & E).
  - intros s _. apply Erf_derive.
  - intros s _. apply continuity_pt_filterlim, (ex_derive_continuous (V := R_NormedModule)). eexists. apply Erf_derive.
  - rewrite Rmin_left, Rmax_right in C by exact H. exists c. split; assumption.
Qed.
Lemma Erf_mono : forall x y, x <= y -> Erf x <= Erf y.
Proof.
  intros x y H. destruct (Erf_mvt x y H) as (c & _ & E). pose proof (exp_pos (- c ^ 2)).
  assert (0 < 2 / sqrt PI) by (apply Rdiv_lt_0_compat; [lra | apply sqrt_lt_R0, PI_RGT_0]).
  assert (0 <= 2 / sqrt PI * exp (- c ^ 2) * (y - x)) by (repeat apply Rmult_le_pos; lra). lra.
Qed.
Lemma Erf_0 : Erf 0 = 0.
Proof. rewrite Erf_C2, G_0. ring. Qed.
Lemma Erf_square : forall x, 1 - 4 / PI * exp (- x ^ 2) <= Erf x ^ 2 <= 1.
Proof.
  intro x. pose proof PI_RGT_0 as P. pose proof (sqrt_lt_R0 PI P) as S.
  assert (E : Erf x ^ 2 = 4 / PI * G x ^ 2).
  { rewrite Erf_C2. unfold C2. rewrite Rpow_mult_distr. f_equal. unfold Rdiv. rewrite Rpow_mult_distr, pow_inv.
    replace (sqrt PI ^ 2) with PI; [field; lra |]. simpl. rewrite Rmult_1_r, sqrt_sqrt; lra. }
  rewrite E. pose proof (G2K x) as GK. pose proof (K_bound x) as B.
  assert (Q : 0 < 4 / PI) by (apply Rdiv_lt_0_compat; lra).
  replace (G x ^ 2) with (PI / 4 - PGauss.K x) by lra.
  replace (4 / PI * (PI / 4 - PGauss.K x)) with (1 - 4 / PI * PGauss.K x) by (field; lra).
  split; [| assert (0 <= 4 / PI * PGauss.K x) by (apply Rmult_le_pos; lra); lra].
  assert (4 / PI * PGauss.K x <= 4 / PI * exp (- x ^ 2)) by (apply Rmult_le_compat_l; lra). lra.
Qed.
Lemma Erf_bound : forall x, -1 <= Erf x <= 1.
Proof. intro x. pose proof (Erf_square x). split; nra. Qed.
Lemma Erf_nonneg : forall x, 0 <= x -> 0 <= Erf x.
Proof. intros x H. rewrite <- Erf_0. apply Erf_mono. exact H. Qed.

Lemma arg_pos : forall kap x, 0 < kap -> 0 < x -> 0 < (x + kap) / sqrt (2 * kap).
Proof. intros kap x Hk Hx. apply Rdiv_lt_0_compat; [lra | apply sqrt_lt_R0; lra]. Qed.
Lemma e1_accuracy : forall kap x, 0 < kap -> 0 < x -> Rabs (e1 kap x - E1 kap x) <= 1 / 10 ^ 12.
Proof. intros kap x Hk Hx. apply erf_accuracy. pose proof (arg_pos kap x Hk Hx). lra. Qed.
Lemma E1_bounds : forall kap x, 0 < kap -> 0 < x -> 0 <= E1 kap x <= 1.
Proof. intros kap x Hk Hx. split; [apply Erf_nonneg; pose proof (arg_pos kap x Hk Hx); lra | apply Erf_bound]. Qed.
(** -E2 is at most E1 *)
Lemma E2_E1 : forall kap x, 0 < kap -> 0 < x -> - E2 kap x <= E1 kap x.
Proof.
  intros kap x Hk Hx. unfold E1, E2. rewrite <- Erf_odd. apply Erf_mono.
  assert (0 < sqrt (2 * kap)) by (apply sqrt_lt_R0; lra).
  replace (- ((x - kap) / sqrt (2 * kap))) with ((kap - x) / sqrt (2 * kap)) by (field; lra).
  unfold Rdiv. apply Rmult_le_compat_r; [left; apply Rinv_0_lt_compat; assumption | lra].
Qed.

Lemma bracket_close : forall kap x, 0 < kap -> 0 < x -> -267 / 10 <= (x - kap) / sqrt (2 * kap) ->
  Rabs (bracket kap x - exact_bracket kap x) <= 1 / 10 ^ 12 * (2 * (1 + 1 / x)) * exact_bracket kap x.
Proof.
  intros kap x Hk Hx Hr. pose proof (e1_accuracy kap x Hk Hx) as A1.
  assert (A2 : Rabs (e2 kap x - E2 kap x) <= 1 / 10 ^ 12) by (apply erf_accuracy; exact Hr).
  pose proof (E1_bounds kap x Hk Hx) as B1. pose proof (E2_E1 kap x Hk Hx) as B2. pose proof (Erf_bound ((x - kap) / sqrt (2 * kap))) as B3. fold (E2 kap x) in B3.
  unfold bracket, exact_bracket.
  set (u := e1 kap x) in *. set (U := E1 kap x) in *. set (v := e2 kap x) in *. set (V := E2 kap x) in *. clearbody u U v V.
  assert (H : 0 < x / kap) by (apply Rdiv_lt_0_compat; assumption). set (h := x / kap) in *. clearbody h.
  pose proof (exp_pos (- x)) as P2. assert (P1 : exp (- x) * (1 + 2 * x) <= exp x).
  { replace (exp x) with (exp (- x) * exp (2 * x)) by (rewrite <- exp_plus; f_equal; ring). apply Rmult_le_compat_l; [lra |]. apply exp_ineq1_le. }
  set (p := exp x) in *. set (r := exp (- x)) in *. clearbody p r.
  assert (Pp : 0 < p) by nra.
  set (eps := 1 / 10 ^ 12) in *. assert (He : 0 < eps) by (unfold eps; lra). clearbody eps.
  replace ((1 + h) * p * (1 + u) - (1 - h) * r * (1 - v) - ((1 + h) * p * (1 + U) - (1 - h) * r * (1 - V)))
    with ((1 + h) * p * (u - U) + (1 - h) * r * (v - V)) by ring.
  assert (T : Rabs ((1 + h) * p * (u - U) + (1 - h) * r * (v - V)) <= eps * ((1 + h) * p + Rabs (1 - h) * r)).
  { eapply Rle_trans; [apply Rabs_triang |]. rewrite !Rabs_mult, (Rabs_pos_eq (1 + h)), (Rabs_pos_eq p), (Rabs_pos_eq r) by lra.
    assert ((1 + h) * p * Rabs (u - U) <= (1 + h) * p * eps) by (apply Rmult_le_compat_l; [apply Rmult_le_pos; lra | exact A1]).
    assert (Rabs (1 - h) * r * Rabs (v - V) <= Rabs (1 - h) * r * eps) by (apply Rmult_le_compat_l; [apply Rmult_le_pos; [apply Rabs_pos | lra] | exact A2]).
    lra. }
  eapply Rle_trans; [exact T |]. rewrite Rmult_assoc. apply Rmult_le_compat_l; [lra |].
  assert (ix : 0 < 1 / x) by (apply Rdiv_lt_0_compat; lra).
  destruct (Rle_or_lt h 1) as [Hh | Hh].
  - rewrite Rabs_pos_eq by lra.
    assert (L : (1 + h) * p - (1 - h) * r <= (1 + h) * p * (1 + U) - (1 - h) * r * (1 - V)).
    { assert (Q1 : (1 - h) * r * (1 - V) <= (1 - h) * r * (1 + U)) by (apply Rmult_le_compat_l; [apply Rmult_le_pos; lra | lra]).
      assert (Q2 : 0 <= U * ((1 + h) * p - (1 - h) * r)).
      { apply Rmult_le_pos; [lra |]. assert ((1 - h) * r <= (1 + h) * p) by (apply Rmult_le_compat; nra). lra. }
      lra. }
    eapply Rle_trans; [| apply Rmult_le_compat_l; [lra | exact L]].
    (* (1+h)p + (1-h)r <= 2 (1+1/x) ((1+h)p - (1-h)r) *)
    assert (M : (1 - h) * r * (1 + 2 * x) <= (1 + h) * p).
    { apply Rle_trans with ((1 - h) * p); [| apply Rmult_le_compat_r; lra]. rewrite Rmult_assoc. apply Rmult_le_compat_l; [lra |]. lra. }
    set (A := (1 + h) * p) in *. set (B := (1 - h) * r) in *. assert (B0 : 0 <= B) by (apply Rmult_le_pos; lra).
    assert (M2 : B <= (1 / x) * (A - B) / 2).
    { apply Rmult_le_reg_l with (2 * x); [lra |]. replace (2 * x * (1 / x * (A - B) / 2)) with (A - B) by (field; lra). lra. }
    nra.
  - rewrite Rabs_left1 by lra. 
    assert (Q1 : 0 <= (h - 1) * r * (1 - V)) by (repeat apply Rmult_le_pos; lra).
    assert (Q2 : (1 + h) * p <= (1 + h) * p * (1 + U)) by (assert (0 <= (1 + h) * p * U) by (repeat apply Rmult_le_pos; lra); lra).
    assert (Q3 : (h - 1) * r <= (1 + h) * p) by (apply Rmult_le_compat; nra).
    apply Rle_trans with (2 * ((1 + h) * p)); [lra |].
    apply Rle_trans with (2 * ((1 + h) * p * (1 + U) - (1 - h) * r * (1 - V))); [lra |].
    assert (0 <= (1 + h) * p) by (apply Rmult_le_pos; lra). apply Rmult_le_compat_r; [lra | lra].
Qed.
Lemma exact_bracket_pos : forall kap x, 0 < kap -> 0 < x -> 0 < exact_bracket kap x.
Proof.
  intros kap x Hk Hx. pose proof (E1_bounds kap x Hk Hx) as B1. pose proof (E2_E1 kap x Hk Hx) as B2.
  pose proof (Erf_bound ((x - kap) / sqrt (2 * kap))) as B3. fold (E2 kap x) in B3. unfold exact_bracket.
  assert (H : 0 < x / kap) by (apply Rdiv_lt_0_compat; assumption). assert (I : exp (- x) < exp x) by (apply exp_increasing; lra). pose proof (exp_pos (- x)) as P.
  set (U := E1 kap x) in *. set (V := E2 kap x) in *. set (h := x / kap) in *. set (p := exp x) in *. set (r := exp (- x)) in *. clearbody U V h p r.
  destruct (Rle_or_lt h 1) as [Hh | Hh].
  - assert (Q1 : (1 - h) * r * (1 - V) <= (1 - h) * r * (1 + U)) by (apply Rmult_le_compat_l; [apply Rmult_le_pos; lra | lra]).
    assert (Q2 : 0 < (1 + U) * ((1 + h) * p - (1 - h) * r)) by (apply Rmult_lt_0_compat; nra). lra.
  - assert (Q1 : 0 <= (h - 1) * r * (1 - V)) by (repeat apply Rmult_le_pos; lra).
    assert (Q2 : 0 < (1 + h) * p * (1 + U)) by (repeat apply Rmult_lt_0_compat; lra). lra.
Qed.
Lemma factor_pos : forall kap x, 0 < kap -> 0 < x -> 0 < sqrt (2 * PI / kap) / (4 * x) * exp (x ^ 2 / (2 * kap)).
Proof.
  intros kap x Hk Hx. pose proof PI_RGT_0. apply Rmult_lt_0_compat; [| apply exp_pos].
  apply Rdiv_lt_0_compat; [| lra]. apply sqrt_lt_R0, Rdiv_lt_0_compat; lra.
Qed.
Lemma ln_close : forall t, Rabs t <= 1 / 2 -> Rabs (ln (1 + t)) <= 2 * Rabs t.
Proof.
  intros t Ht. apply Rabs_le_between in Ht. unfold Rabs at 2. destruct (Rcase_abs t) as [N | N].
  - apply Rabs_le. split.
    + assert (E : 1 / (1 + t) <= exp (-2 * t)).
      { eapply Rle_trans; [| apply exp_ineq1_le]. apply Rmult_le_reg_r with (1 + t); [lra |]. unfold Rdiv. rewrite Rmult_assoc, Rinv_l by lra. nra. }
      assert (L : ln (1 / (1 + t)) <= -2 * t). { rewrite <- (ln_exp (-2 * t)). apply ln_le; [apply Rdiv_lt_0_compat; lra | exact E]. }
      unfold Rdiv in L. rewrite Rmult_1_l, ln_Rinv in L by lra. lra.
    + assert (ln (1 + t) <= 0) by (rewrite <- ln_1; apply ln_le; lra). lra.
  - apply Rabs_le. split.
    + assert (0 <= ln (1 + t)) by (rewrite <- ln_1; apply ln_le; lra). lra.
    + apply Rle_trans with t; [| lra]. rewrite <- (ln_exp t) at 2. apply ln_le; [lra | apply exp_ineq1_le].
Qed.

Lemma gibbs_accuracy : forall l m T kap x, 0 < l -> 0 < kap -> 1 / 10 ^ 11 <= x -> -267 / 10 <= (x - kap) / sqrt (2 * kap) ->
  exists Z, 0 < Z /\ half_line_integral (link_weight (harmonic_potential kap) x) Z /\
    Rabs (gibbs l m kap x T - (- ln (l * Z) - hinge_term l m T)) <= 4 / 10 ^ 12 * (1 + 1 / x).
Proof.
  intros l m T kap x Hl Hk Hx Hr. assert (X : 0 < x) by lra. exists (partition kap x).
  pose proof (factor_pos kap x Hk X) as F. pose proof (exact_bracket_pos kap x Hk X) as B. pose proof (bracket_close kap x Hk X Hr) as C.
  set (eps := 1 / 10 ^ 12 * (2 * (1 + 1 / x))) in *.
  assert (IX : 1 / x <= 10 ^ 11). { apply Rmult_le_reg_r with x; [exact X |]. replace (1 / x * x) with 1 by (field; lra). lra. }
  assert (I0 : 0 < 1 / x) by (apply Rdiv_lt_0_compat; lra).
  assert (He : 0 < eps <= 1 / 2) by (unfold eps; lra).
  assert (Bc : 0 < bracket kap x). { apply Rabs_le_between in C. nra. }
  split; [apply Rmult_lt_0_compat; assumption |]. split; [apply partition_integral; lra |].
  rewrite gibbs_code by assumption. unfold code_partition, partition.
  set (f := sqrt (2 * PI / kap) / (4 * x) * exp (x ^ 2 / (2 * kap))) in *.
  set (t := (bracket kap x - exact_bracket kap x) / exact_bracket kap x).
  assert (E : bracket kap x = exact_bracket kap x * (1 + t)) by (unfold t; field; lra).
  assert (Ht : Rabs t <= eps).
  { unfold t, Rdiv. rewrite Rabs_mult, (Rabs_pos_eq (/ exact_bracket kap x)) by (left; apply Rinv_0_lt_compat; exact B).
    apply Rmult_le_reg_r with (exact_bracket kap x); [exact B |]. rewrite Rmult_assoc, Rinv_l by lra. lra. }
  pose proof (ln_close t ltac:(lra)) as L.
  assert (T1 : 0 < 1 + t) by (apply Rabs_le_between in Ht; lra).
  rewrite E. replace (l * (f * (exact_bracket kap x * (1 + t)))) with (l * (f * exact_bracket kap x) * (1 + t)) by ring.
  rewrite (ln_mult (l * (f * exact_bracket kap x)) (1 + t)) by (first [exact T1 | apply Rmult_lt_0_compat; [exact Hl | apply Rmult_lt_0_compat; assumption]]).
  replace (- (ln (l * (f * exact_bracket kap x)) + ln (1 + t)) - hinge_term l m T - (- ln (l * (f * exact_bracket kap x)) - hinge_term l m T)) with (- ln (1 + t)) by ring.
  rewrite Rabs_Ropp. unfold eps in Ht. lra.
Qed.

(** ** Stiff links: the error function is evaluated where it has the wrong sign *)
Lemma stiff_argument : forall kap x, 1500 <= kap -> 0 < x <= 1 -> (x - kap) / sqrt (2 * kap) < -267 / 10.
Proof.
  intros kap x Hk Hx. assert (S : 0 < sqrt (2 * kap)) by (apply sqrt_lt_R0; lra).
  apply Rmult_lt_reg_r with (sqrt (2 * kap)); [exact S |]. replace ((x - kap) / sqrt (2 * kap) * sqrt (2 * kap)) with (x - kap) by (field; lra).
  assert (E : sqrt (2 * kap) * sqrt (2 * kap) = 2 * kap) by (apply sqrt_sqrt; lra).
  assert (L : 547 / 10 <= sqrt (2 * kap)). { destruct (Rle_or_lt (547 / 10) (sqrt (2 * kap))) as [H | H]; [exact H |]. exfalso. nra. }
  nra.
Qed.
Lemma Erf_far : forall x, 26 <= x -> 1 - 1 / 10 ^ 12 <= Erf x <= 1.
Proof.
  intros x Hx. split; [| apply Erf_bound]. pose proof (Erf_nonneg x ltac:(lra)) as N. pose proof (Erf_square x) as (L & U).
  assert (E : exp (- x ^ 2) <= 1 / (2 * 10 ^ 12)).
  { eapply Rle_trans; [| apply exp_m37]. left. apply exp_increasing. nra. }
  assert (Q : 4 / PI <= 2). { pose proof PI2_1. apply Rmult_le_reg_r with PI; [apply PI_RGT_0 |]. replace (4 / PI * PI) with 4 by (field; apply PI_neq0). lra. }
  assert (M : 4 / PI * exp (- x ^ 2) <= 2 * (1 / (2 * 10 ^ 12))).
  { apply Rmult_le_compat; [left; apply Rdiv_lt_0_compat; [lra | apply PI_RGT_0] | left; apply exp_pos | exact Q | exact E]. }
  destruct (Rle_or_lt (Erf x) 1) as [H | H]; [nra | lra].
Qed.
Lemma stiff_values : forall kap x, 1500 <= kap -> 0 < x <= 1 ->
  1 - 2 / 10 ^ 12 <= e1 kap x <= 1 + 2 / 10 ^ 12 /\ 0 < e2 kap x < 1 /\ 1 - 1 / 10 ^ 12 <= E1 kap x <= 1 /\ -1 <= E2 kap x <= - 1 + 1 / 10 ^ 12.
Proof.
  intros kap x Hk Hx. pose proof (stiff_argument kap x Hk Hx) as A.
  assert (S : 0 < sqrt (2 * kap)) by (apply sqrt_lt_R0; lra).
  assert (A1 : 26 <= (x + kap) / sqrt (2 * kap)).
  { apply Rle_trans with (- ((x - kap) / sqrt (2 * kap))); [lra |]. replace (- ((x - kap) / sqrt (2 * kap))) with ((kap - x) / sqrt (2 * kap)) by (field; lra).
    unfold Rdiv. apply Rmult_le_compat_r; [left; apply Rinv_0_lt_compat; exact S | lra]. }
  pose proof (Erf_far _ A1) as F1. fold (E1 kap x) in F1.
  pose proof (Erf_far (- ((x - kap) / sqrt (2 * kap))) ltac:(lra)) as F2. rewrite Erf_odd in F2. fold (E2 kap x) in F2.
  pose proof (e1_accuracy kap x ltac:(lra) ltac:(lra)) as C. apply Rabs_le_between in C.
  pose proof (erf_far_positive _ A) as P. fold (e2 kap x) in P. lra.
Qed.
Lemma exp_small : forall x, 0 <= x <= 1 -> 1 + x <= exp x <= 1 + x + x ^ 2.
Proof.
  intros x Hx. split; [apply exp_ineq1_le |].
  set (q := fun t : R => (1 + t + t ^ 2) * exp (- t)).
  assert (Q : q 0 <= q x).
  { destruct (MVT_gen q 0 x (fun t => t * (1 - t) * exp (- t))) as (c & C & E).
    - intros t _. unfold q. auto_derive; [exact I | ring].
    - intros t _. apply continuity_pt_filterlim, (ex_derive_continuous (V := R_NormedModule)). unfold q. auto_derive. exact I.
    - rewrite Rmin_left, Rmax_right in C by lra. pose proof (exp_pos (- c)).
      assert (0 <= c * (1 - c) * exp (- c) * (x - 0)) by (repeat apply Rmult_le_pos; lra). lra. }
  unfold q in Q. rewrite Ropp_0, exp_0 in Q.
  assert (I : exp (- x) * exp x = 1) by (rewrite <- exp_plus; replace (- x + x) with 0 by ring; apply exp_0).
  pose proof (exp_pos x). apply Rmult_le_reg_l with (exp (- x)); [apply exp_pos |]. rewrite I. lra.
Qed.
Lemma stiff_gibbs : forall l m T kap x, 0 < l -> 1500 <= kap -> 0 < x <= 1 ->
  exists Z, 0 < Z /\ half_line_integral (link_weight (harmonic_potential kap) x) Z /\
    gibbs l m kap x T <= (- ln (l * Z) - hinge_term l m T) - 1 / 25.
Proof.
  intros l m T kap x Hl Hk Hx. exists (partition kap x).
  pose proof (factor_pos kap x ltac:(lra) ltac:(lra)) as F. pose proof (exact_bracket_pos kap x ltac:(lra) ltac:(lra)) as B.
  destruct (stiff_values kap x Hk Hx) as (V1 & V2 & V3 & V4).
  assert (M : 21 / 20 * exact_bracket kap x <= bracket kap x).
  { unfold exact_bracket, bracket.
    set (u := e1 kap x) in *. set (U := E1 kap x) in *. set (v := e2 kap x) in *. set (V := E2 kap x) in *. clearbody u U v V.
    assert (H : 0 <= x / kap <= 1 / 1500).
    { split; [left; apply Rdiv_lt_0_compat; lra |]. apply Rmult_le_reg_r with kap; [lra |]. replace (x / kap * kap) with x by (field; lra). lra. }
    set (h := x / kap) in *. clearbody h.
    assert (P : exp x <= 8 * exp (- x)).
    { replace (exp x) with (exp (- x) * exp (2 * x)) by (rewrite <- exp_plus; f_equal; ring). rewrite (Rmult_comm 8). apply Rmult_le_compat_l; [left; apply exp_pos |].
      apply Rle_trans with (exp 1 ^ 2); [| pose proof exp_le_3; pose proof (exp_pos 1)].
      - replace (exp 1 ^ 2) with (exp 2) by (rewrite <- (exp_pow 2 1); f_equal; simpl; ring).
        destruct (Req_dec x 1) as [-> | N]; [right; f_equal; ring | left; apply exp_increasing; lra].
      - assert (E4 : exp 1 = exp (1 / 4) ^ 4) by (rewrite <- exp_pow; f_equal; simpl; field).
        pose proof (exp_small (1 / 4) ltac:(lra)) as X4.
        assert (E28 : exp 1 <= 28 / 10).
        { assert (E8 : exp 1 = exp (1 / 32) ^ 32) by (rewrite <- exp_pow; f_equal; rewrite INR_IZR_INZ; simpl IZR; field).
          pose proof (exp_small (1 / 32) ltac:(lra)) as X8. rewrite E8.
          apply Rle_trans with ((1 + 1 / 32 + (1 / 32) ^ 2) ^ 32); [apply pow_incr; lra |]. lra. }
        nra. }
    pose proof (exp_pos (- x)) as R0. pose proof (exp_pos x) as P0. set (p := exp x) in *. set (r := exp (- x)) in *. clearbody p r.
    (* p (1+h) (1+u - 21/20 (1+U)) + (1-h) r (21/20 (1-V) - (1-v)) >= 0 *)
    assert (Q1 : (1 + h) * (- (101 / 1000)) <= (1 + h) * (1 + u - 21 / 20 * (1 + U))) by (apply Rmult_le_compat_l; lra).
    assert (Q2 : (1 - h) * (21 / 20 * 199 / 100 - 1) <= (1 - h) * (21 / 20 * (1 - V) - (1 - v))) by (apply Rmult_le_compat_l; lra).
    assert (Q1' : - (102 / 1000) <= (1 + h) * (1 + u - 21 / 20 * (1 + U))) by lra.
    assert (Q2' : 108 / 100 <= (1 - h) * (21 / 20 * (1 - V) - (1 - v))) by lra.
    set (A := (1 + h) * (1 + u - 21 / 20 * (1 + U))) in *. set (C := (1 - h) * (21 / 20 * (1 - V) - (1 - v))) in *.
    assert (R1 : - (102 / 1000) * (8 * r) <= p * A).
    { apply Rle_trans with (p * - (102 / 1000)); [lra |]. apply Rmult_le_compat_l; lra. }
    assert (R2 : r * (108 / 100) <= r * C) by (apply Rmult_le_compat_l; lra).
    assert (E : (1 + h) * p * (1 + u) - (1 - h) * r * (1 - v) - 21 / 20 * ((1 + h) * p * (1 + U) - (1 - h) * r * (1 - V)) = p * A + r * C) by (unfold A, C; ring).
    lra. }
  split; [apply Rmult_lt_0_compat; assumption |]. split; [apply partition_integral; lra |].
  rewrite gibbs_code by (try assumption; lra). unfold code_partition, partition.
  set (f := sqrt (2 * PI / kap) / (4 * x) * exp (x ^ 2 / (2 * kap))) in *.
  assert (L : ln (l * (f * exact_bracket kap x)) + ln (21 / 20) <= ln (l * (f * bracket kap x))).
  { rewrite <- ln_mult; [| apply Rmult_lt_0_compat; [exact Hl | apply Rmult_lt_0_compat; assumption] | lra].
    apply ln_le; [apply Rmult_lt_0_compat; [apply Rmult_lt_0_compat; [exact Hl | apply Rmult_lt_0_compat; assumption] | lra] |].
    replace (l * (f * exact_bracket kap x) * (21 / 20)) with (l * (f * (21 / 20 * exact_bracket kap x))) by ring.
    apply Rmult_le_compat_l; [lra |]. apply Rmult_le_compat_l; lra. }
  assert (L2 : 1 / 25 <= ln (21 / 20)).
  { rewrite <- (ln_exp (1 / 25)). apply ln_le; [apply exp_pos |]. pose proof (exp_small (1 / 25) ltac:(lra)). lra. }
  lra.
Qed.

(** The extension: the asymptotic one plus a correction. *)
Definition correction (kap x : R) : R :=
  let a := exp x * (1 + x / kap) in let b := exp (- x) * (1 - x / kap) in
  let A := exp x * (1 + x / kap + 1 / kap) in let B := exp (- x) * (1 - x / kap + 1 / kap) in
  2 * (a * A * (1 - e1 kap x) - A * b * (1 + e2 kap x) - B * a * (e1 kap x + e2 kap x)) + gauss kap x * den kap x.

Lemma ext_eq : forall kap x, 0 < kap -> 0 < x -> den kap x + num kap x <> 0 ->
  ext kap x = asym kap x + correction kap x / (den kap x * (den kap x + num kap x)).
Proof.
  intros kap x Hk Hx Hn.
  pose proof (PHyp.sinh_pos x Hx) as S. pose proof (PHyp.cosh_pos x) as C. pose proof (den_pos kap x Hk Hx) as D.
  transitivity (asym kap x + (exp x * (sqrt (2 / PI / kap) * (x / kap + 1) * exp (- (x + kap) ^ 2 / 2 / kap) + (1 + (1 + x) / kap))
     - 1 / exp x * (sqrt (2 / PI / kap) * (x / kap - 1) * exp (- (x - kap) ^ 2 / 2 / kap) + (1 + (1 - x) / kap) * e2 kap x)
     - num kap x / den kap x * (4 * (cosh x * (1 + (1 + x / tanh x) / kap) - x / kap / sinh x))) / den kap x / (1 + num kap x / den kap x)).
  { rewrite <- fraction_code, <- den_code by assumption. reflexivity. }
  f_equal.
  assert (D' : 4 * (cosh x * (1 + (1 + x / tanh x) / kap) - x / kap / sinh x) = 2 * (exp x * (1 + x / kap + 1 / kap) + exp (- x) * (1 - x / kap + 1 / kap))).
  { replace (4 * (cosh x * (1 + (1 + x / tanh x) / kap) - x / kap / sinh x)) with (4 * cosh x * (1 + 1 / kap) + 4 * x * ((cosh x * cosh x - 1) / sinh x) / kap) by (unfold tanh; field; lra).
    replace (cosh x * cosh x - 1) with (sinh x * sinh x).
    2:{ unfold sinh, cosh. assert (I : exp x * exp (- x) = 1) by (rewrite <- exp_plus; replace (x + - x) with 0 by ring; apply exp_0).
        set (p := exp x) in *. set (r := exp (- x)) in *. clearbody p r. replace ((p + r) / 2 * ((p + r) / 2) - 1) with ((p + r) / 2 * ((p + r) / 2) - p * r) by (rewrite I; ring). field. }
    replace (sinh x * sinh x / sinh x) with (sinh x) by (field; lra). unfold sinh, cosh. field. lra. }
  rewrite D'.
  assert (G1 : exp (- (x + kap) ^ 2 / 2 / kap) = exp (- x) * exp (- (kap / 2) - x ^ 2 / (2 * kap))) by (rewrite <- exp_plus; f_equal; field; lra).
  assert (G2 : exp (- (x - kap) ^ 2 / 2 / kap) = exp x * exp (- (kap / 2) - x ^ 2 / (2 * kap))) by (rewrite <- exp_plus; f_equal; field; lra).
  rewrite G1, G2. unfold correction. cbv zeta.
  unfold gauss. set (g := exp (- (kap / 2) - x ^ 2 / (2 * kap))). set (q := sqrt (2 / PI / kap)).
  rewrite exp_Ropp. pose proof (exp_pos x) as Ep. unfold den, num in *. rewrite exp_Ropp in *.
  set (p := exp x) in *. set (u := e1 kap x) in *. set (v := e2 kap x) in *. clearbody g q p u v.
  field. repeat split; try lra.
  - intro Z. apply Hn. apply Rmult_eq_reg_r with (kap * p); [| apply Rgt_not_eq, Rmult_lt_0_compat; lra]. rewrite Rmult_0_l, <- Z. field. lra.
  - intro Z. apply (Rgt_not_eq _ _ D). apply Rmult_eq_reg_r with (kap * p); [| apply Rgt_not_eq, Rmult_lt_0_compat; lra]. rewrite Rmult_0_l. 
    replace 0 with (2 * 0) by ring. rewrite <- Z. field. lra.
Qed.
