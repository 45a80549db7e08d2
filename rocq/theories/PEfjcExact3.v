(** The exact EFJC extension of moderately stiff links is close to the mean
    extension of the pulled link. *)
From Coq Require Import Reals ZArith Lra Lia Psatz.
From Coquelicot Require Import Coquelicot.
From Verif Require Import Scalar MMath MConst MFjc MEfjc.
From Verif Require Import SpecPartition SpecInverse SpecGauss SpecErf PBase PHyp PGauss PErf PErfc PIdealDist PConj PPartition PPi PEfjcExact.
From Verif Require PInverse PLimits.
Open Scope R_scope.

Local Notation ext := (@efjc_isotensional.nondimensional_end_to_end_length_per_link R R_scalar).
Local Notation asym := (@efjc_isotensional_asymptotic.nondimensional_end_to_end_length_per_link R R_scalar).

(** ** The mean extension: the logarithmic derivative of the partition function *)
Definition upper (kap x : R) : R := exp x * (1 + x / kap).
Definition lower (kap x : R) : R := exp (- x) * (1 - x / kap).
Definition upper' (kap x : R) : R := exp x * (1 + x / kap + 1 / kap).
Definition lower' (kap x : R) : R := exp (- x) * (1 - x / kap + 1 / kap).
Definition bracket' (kap x : R) : R := upper' kap x * (1 + E1 kap x) + lower' kap x * (1 - E2 kap x) + gauss kap x.
Definition mean (kap x : R) : R := - (1 / x) + x / kap + bracket' kap x / exact_bracket kap x.

Lemma sqrt_front : forall kap, 0 < kap -> 2 / sqrt PI * (1 / sqrt (2 * kap)) = sqrt (2 / PI / kap).
Proof.
  intros kap Hk. pose proof PI_RGT_0 as P. assert (SP : 0 < sqrt PI) by (apply sqrt_lt_R0; lra). assert (SK : 0 < sqrt (2 * kap)) by (apply sqrt_lt_R0; lra).
  symmetry. apply sqrt_lem_1.
  - left. apply Rdiv_lt_0_compat; [apply Rdiv_lt_0_compat; lra | lra].
  - apply Rmult_le_pos; left; apply Rdiv_lt_0_compat; lra.
  - assert (X : sqrt PI * sqrt PI = PI) by (apply sqrt_sqrt; lra). assert (Y : sqrt (2 * kap) * sqrt (2 * kap) = 2 * kap) by (apply sqrt_sqrt; lra).
    replace (2 / sqrt PI * (1 / sqrt (2 * kap)) * (2 / sqrt PI * (1 / sqrt (2 * kap)))) with (4 / (sqrt PI * sqrt PI) / (sqrt (2 * kap) * sqrt (2 * kap))) by (field; lra).
    rewrite X, Y. field. lra.
Qed.

Lemma E1_derive : forall kap x, 0 < kap -> is_derive (E1 kap) x (sqrt (2 / PI / kap) * (exp (- x) * exp (- (kap / 2) - x ^ 2 / (2 * kap)))).
Proof.
  intros kap x Hk. assert (SK : 0 < sqrt (2 * kap)) by (apply sqrt_lt_R0; lra).
  unfold E1. evar_last; [apply (is_derive_comp Erf (fun x => (x + kap) / sqrt (2 * kap))); [apply Erf_derive | auto_derive; [lra | reflexivity]]|].
  change (1 * / sqrt (2 * kap) * (2 / sqrt PI * exp (- ((x + kap) / sqrt (2 * kap)) ^ 2)) = sqrt (2 / PI / kap) * (exp (- x) * exp (- (kap / 2) - x ^ 2 / (2 * kap)))).
  rewrite <- sqrt_front, <- exp_plus by assumption.
  replace (- ((x + kap) / sqrt (2 * kap)) ^ 2) with (- x + (- (kap / 2) - x ^ 2 / (2 * kap))).
  2:{ assert (Y : sqrt (2 * kap) ^ 2 = 2 * kap) by (simpl; rewrite Rmult_1_r; apply sqrt_sqrt; lra).
      unfold Rdiv at 3. rewrite Rpow_mult_distr, pow_inv, Y. field. lra. }
  field. pose proof (sqrt_lt_R0 PI PI_RGT_0). lra.
Qed.
Lemma E2_derive : forall kap x, 0 < kap -> is_derive (E2 kap) x (sqrt (2 / PI / kap) * (exp x * exp (- (kap / 2) - x ^ 2 / (2 * kap)))).
Proof.
  intros kap x Hk. assert (SK : 0 < sqrt (2 * kap)) by (apply sqrt_lt_R0; lra).
  unfold E2. evar_last; [apply (is_derive_comp Erf (fun x => (x - kap) / sqrt (2 * kap))); [apply Erf_derive | auto_derive; [lra | reflexivity]]|].
  change (1 * / sqrt (2 * kap) * (2 / sqrt PI * exp (- ((x - kap) / sqrt (2 * kap)) ^ 2)) = sqrt (2 / PI / kap) * (exp x * exp (- (kap / 2) - x ^ 2 / (2 * kap)))).
  rewrite <- sqrt_front, <- exp_plus by assumption.
  replace (- ((x - kap) / sqrt (2 * kap)) ^ 2) with (x + (- (kap / 2) - x ^ 2 / (2 * kap))).
  2:{ assert (Y : sqrt (2 * kap) ^ 2 = 2 * kap) by (simpl; rewrite Rmult_1_r; apply sqrt_sqrt; lra).
      unfold Rdiv at 3. rewrite Rpow_mult_distr, pow_inv, Y. field. lra. }
  field. pose proof (sqrt_lt_R0 PI PI_RGT_0). lra.
Qed.

Lemma bracket_derive : forall kap x, 0 < kap -> is_derive (exact_bracket kap) x (bracket' kap x).
Proof.
  intros kap x Hk. unfold exact_bracket.
  pose proof (E1_derive kap x Hk) as D1. pose proof (E2_derive kap x Hk) as D2.
  evar_last.
  - apply (is_derive_minus (V := R_NormedModule) (fun x => (1 + x / kap) * exp x * (1 + E1 kap x)) (fun x => (1 - x / kap) * exp (- x) * (1 - E2 kap x))).
    + apply (is_derive_mult (fun x => (1 + x / kap) * exp x) (fun x => 1 + E1 kap x)).
      * instantiate (1 := upper' kap x). unfold upper'. auto_derive; [lra|]. field. lra.
      * apply (is_derive_plus (V := R_NormedModule) (fun _ => 1) (E1 kap)); [apply is_derive_const | exact D1].
      * intros; apply Rmult_comm.
    + apply (is_derive_mult (fun x => (1 - x / kap) * exp (- x)) (fun x => 1 - E2 kap x)).
      * instantiate (1 := - lower' kap x). unfold lower'. auto_derive; [lra|]. field. lra.
      * apply (is_derive_minus (V := R_NormedModule) (fun _ => 1) (E2 kap)); [apply is_derive_const | exact D2].
      * intros; apply Rmult_comm.
  - set (g := exp (- (kap / 2) - x ^ 2 / (2 * kap))). set (w := sqrt (2 / PI / kap)).
    change (upper' kap x * (1 + E1 kap x) + (1 + x / kap) * exp x * (0 + w * (exp (- x) * g))
      - (- lower' kap x * (1 - E2 kap x) + (1 - x / kap) * exp (- x) * (0 - w * (exp x * g))) = bracket' kap x).
    unfold bracket', gauss. fold g w. rewrite exp_Ropp. pose proof (exp_pos x). field. lra.
Qed.

Lemma partition_derive : forall kap x, 0 < kap -> 0 < x -> is_derive (fun y => - ln (partition kap y)) x (- mean kap x).
Proof.
  intros kap x Hk Hx. pose proof (exact_bracket_pos kap x Hk Hx) as BP. pose proof PI_RGT_0 as P.
  assert (SP : 0 < sqrt (2 * PI / kap)) by (apply sqrt_lt_R0, Rdiv_lt_0_compat; lra).
  apply (is_derive_ext_loc (fun y => - (ln (sqrt (2 * PI / kap) / 4) - ln y + y ^ 2 / (2 * kap) + ln (exact_bracket kap y)))).
  - exists (mkposreal x Hx). intros y By. apply Rabs_lt_between in By. unfold minus, plus, opp in By. simpl in By.
    assert (Y0 : 0 < y) by lra. f_equal. unfold partition. pose proof (exact_bracket_pos kap y Hk Y0).
    rewrite !ln_mult; try apply exp_pos; try assumption.
    + rewrite ln_exp. replace (sqrt (2 * PI / kap) / (4 * y)) with (sqrt (2 * PI / kap) / 4 / y) by (field; lra). rewrite (ln_div (sqrt (2 * PI / kap) / 4) y) by lra. ring.
    + apply Rdiv_lt_0_compat; lra.
    + apply Rmult_lt_0_compat; [apply Rdiv_lt_0_compat; lra | apply exp_pos].
  - apply (is_derive_opp (V := R_NormedModule)). unfold mean. apply (is_derive_plus (V := R_NormedModule)).
    + auto_derive; [lra|]. field. lra.
    + evar_last; [apply (is_derive_comp ln (exact_bracket kap)); [apply is_derive_ln; exact BP | apply bracket_derive; exact Hk]|].
      change (bracket' kap x * / exact_bracket kap x = bracket' kap x / exact_bracket kap x). reflexivity.
Qed.

Lemma asym_eq : forall kap x, 0 < kap -> 0 < x -> asym kap x = - (1 / x) + x / kap + (upper' kap x + lower' kap x) / (upper kap x - lower kap x).
Proof.
  intros kap x Hk Hx. pose proof (PHyp.sinh_pos x Hx) as S. pose proof (PHyp.cosh_pos x) as C. pose proof (den_pos kap x Hk Hx) as D.
  change (1 / tanh x - 1 / x + x / kap * (1 + (tanh x - 1 / tanh x + 1 / x) / (tanh x + x / kap)) = - (1 / x) + x / kap + (upper' kap x + lower' kap x) / (upper kap x - lower kap x)).
  assert (U : upper' kap x + lower' kap x = 2 * (cosh x * (1 + 1 / kap) + x / kap * sinh x)) by (unfold upper', lower', sinh, cosh; field; lra).
  assert (V : upper kap x - lower kap x = 2 * (sinh x + x / kap * cosh x)) by (unfold upper, lower, sinh, cosh; field; lra).
  rewrite U, V. unfold tanh. assert (0 < x / kap) by (apply Rdiv_lt_0_compat; assumption).
  assert (0 < sinh x * kap + x * cosh x) by (apply Rplus_lt_0_compat; apply Rmult_lt_0_compat; assumption).
  field. repeat split; try lra.
Qed.

(** ** Relative to the dominant exponential *)
Definition beta (kap x : R) : R := lower kap x / upper kap x.
Definition beta' (kap x : R) : R := lower' kap x / upper kap x.
Definition alpha (kap x : R) : R := upper' kap x / upper kap x.
Definition tiny (kap x : R) : R := gauss kap x / upper kap x.

Lemma upper_pos : forall kap x, 0 < kap -> 0 < x -> 1 <= upper kap x.
Proof.
  intros kap x Hk Hx. unfold upper. assert (0 < x / kap) by (apply Rdiv_lt_0_compat; assumption). pose proof (exp_ineq1_le x). nra.
Qed.

Lemma ext_difference : forall kap x, 0 < kap -> 0 < x -> 2 * (1 - beta kap x) + (e1 kap x + beta kap x * e2 kap x) <> 0 -> 0 < 1 - beta kap x ->
  ext kap x - asym kap x =
    (2 * (alpha kap x * (1 - e1 kap x) - alpha kap x * beta kap x * (1 + e2 kap x) - beta' kap x * (e1 kap x + e2 kap x)) + tiny kap x * (2 * (1 - beta kap x)))
    / (2 * (1 - beta kap x) * (2 * (1 - beta kap x) + (e1 kap x + beta kap x * e2 kap x))).
Proof.
  intros kap x Hk Hx N1 N2. pose proof (upper_pos kap x Hk Hx) as U.
  assert (D : den kap x = upper kap x * (2 * (1 - beta kap x))) by (replace (upper kap x * (2 * (1 - beta kap x))) with (2 * (upper kap x - lower kap x)) by (unfold beta; field; lra); unfold den, upper, lower; ring).
  assert (M : num kap x = upper kap x * (e1 kap x + beta kap x * e2 kap x)) by (rewrite Rmult_plus_distr_l, <- Rmult_assoc; replace (upper kap x * beta kap x) with (lower kap x) by (unfold beta; field; lra); unfold num, upper, lower; ring).
  rewrite ext_eq; [| assumption | assumption |].
  - unfold correction. cbv zeta. fold (upper kap x) (lower kap x) (upper' kap x) (lower' kap x).
    replace (upper' kap x) with (upper kap x * alpha kap x) by (unfold alpha; field; lra).
    replace (lower kap x) with (upper kap x * beta kap x) by (unfold beta; field; lra).
    replace (lower' kap x) with (upper kap x * beta' kap x) by (unfold beta'; field; lra).
    replace (gauss kap x) with (upper kap x * tiny kap x) by (unfold tiny; field; lra).
    rewrite D, M. set (a := upper kap x) in *. set (b := beta kap x) in *. rewrite <- (Rmult_plus_distr_l a (2 * (1 - b)) (e1 kap x + b * e2 kap x)).
    set (w := 2 * (1 - b) + (e1 kap x + b * e2 kap x)) in *. set (y := 1 - b) in *. clearbody w y. field. repeat split; (exact N1 || lra).
  - rewrite D, M. rewrite <- Rmult_plus_distr_l. apply Rmult_integral_contrapositive_currified; [lra | exact N1].
Qed.

Lemma mean_difference : forall kap x, 0 < kap -> 0 < x -> 0 < 1 - beta kap x ->
  mean kap x - asym kap x = (- (beta' kap x + beta kap x * alpha kap x) * (E1 kap x + E2 kap x) + tiny kap x * (1 - beta kap x))
    / ((1 + E1 kap x - beta kap x * (1 - E2 kap x)) * (1 - beta kap x)).
Proof.
  intros kap x Hk Hx N2. pose proof (upper_pos kap x Hk Hx) as U. pose proof (exact_bracket_pos kap x Hk Hx) as BP.
  assert (D : exact_bracket kap x = upper kap x * (1 + E1 kap x - beta kap x * (1 - E2 kap x))) by (replace (upper kap x * (1 + E1 kap x - beta kap x * (1 - E2 kap x))) with (upper kap x * (1 + E1 kap x) - lower kap x * (1 - E2 kap x)) by (unfold beta; field; lra); unfold exact_bracket, upper, lower; ring).
  assert (K : 1 + E1 kap x - beta kap x * (1 - E2 kap x) <> 0) by (intro Z; rewrite Z in D; lra).
  rewrite asym_eq by assumption. unfold mean, bracket'. rewrite D.
  replace (upper' kap x) with (upper kap x * alpha kap x) by (unfold alpha; field; lra).
  replace (lower kap x) with (upper kap x * beta kap x) by (unfold beta; field; lra).
  replace (lower' kap x) with (upper kap x * beta' kap x) by (unfold beta'; field; lra).
  replace (gauss kap x) with (upper kap x * tiny kap x) by (unfold tiny; field; lra).
  set (a := upper kap x) in *. set (b := beta kap x) in *.
  replace (a - a * b) with (a * (1 - b)) by ring. set (w := 1 + E1 kap x - b * (1 - E2 kap x)) in *.
  assert (W : E1 kap x = w - 1 + b * (1 - E2 kap x)) by (unfold w; ring). rewrite W. clearbody a b w. clear W D. field. repeat split; try lra; exact K.
Qed.

(** ** Bounds *)
Lemma ratios : forall kap x, 100 <= kap -> 0 < x ->
  Rabs (beta kap x) <= exp (- (2 * x)) /\ Rabs (beta' kap x) <= 101 / 100 * exp (- (2 * x)) /\ 1 <= alpha kap x <= 101 / 100.
Proof.
  intros kap x Hk Hx. assert (H : 0 < x / kap) by (apply Rdiv_lt_0_compat; lra).
  assert (IK : 0 < 1 / kap <= 1 / 100) by (split; [apply Rdiv_lt_0_compat; lra | apply Rmult_le_reg_r with kap; [lra |]; replace (1 / kap * kap) with 1 by (field; lra); lra]).
  set (h := x / kap) in *. set (r := 1 / kap) in *. pose proof (exp_pos x) as EP.
  assert (S : exp (- x) = exp (- (2 * x)) * exp x) by (rewrite <- exp_plus; f_equal; ring). pose proof (exp_pos (- (2 * x))) as SP.
  assert (B : beta kap x = exp (- (2 * x)) * ((1 - h) / (1 + h))) by (unfold beta, lower, upper; fold h; rewrite S; field; lra).
  assert (B' : beta' kap x = exp (- (2 * x)) * ((1 - h + r) / (1 + h))) by (unfold beta', lower', upper; fold h r; rewrite S; field; lra).
  assert (A : alpha kap x = 1 + r / (1 + h)) by (unfold alpha, upper', upper; fold h r; field; lra).
  assert (Q : 0 < / (1 + h) <= 1) by (split; [apply Rinv_0_lt_compat; lra | rewrite <- Rinv_1; apply Rinv_le_contravar; lra]).
  split; [|split].
  - rewrite B, Rabs_mult, (Rabs_pos_eq (exp _)) by lra. apply Rle_trans with (exp (- (2 * x)) * 1); [|lra]. apply Rmult_le_compat_l; [lra|].
    apply Rabs_le. split; apply Rmult_le_reg_r with (1 + h); try lra; replace ((1 - h) / (1 + h) * (1 + h)) with (1 - h) by (field; lra); lra.
  - rewrite B', Rabs_mult, (Rabs_pos_eq (exp _)) by lra. rewrite (Rmult_comm (101 / 100)). apply Rmult_le_compat_l; [lra|].
    apply Rabs_le. split; apply Rmult_le_reg_r with (1 + h); try lra; replace ((1 - h + r) / (1 + h) * (1 + h)) with (1 - h + r) by (field; lra); lra.
  - rewrite A. unfold Rdiv. nra.
Qed.

Lemma exp_m50 : exp (- 50) <= 1 / 10 ^ 12.
Proof. eapply Rle_trans; [|eapply Rle_trans; [apply exp_m37 | lra]]. left. apply exp_increasing. lra. Qed.

Lemma exp_m26 : exp (- 26) <= 1 / 10 ^ 11.
Proof.
  pose proof (exp_ineq1_le (1 / 4)) as B. (* e^(1/4) >= 5/4; e >= 625/256 *)
  assert (E : exp 26 = exp (1 / 32) ^ 832) by (rewrite <- exp_pow; f_equal; rewrite INR_IZR_INZ; simpl IZR; field).
  assert (F : 33 / 32 <= exp (1 / 32)) by (pose proof (exp_ineq1_le (1 / 32)); lra).
  assert (G : 10 ^ 11 <= exp 26).
  { rewrite E. apply Rle_trans with ((33 / 32) ^ 832); [|apply pow_incr; lra]. replace 832%nat with (32 * 26)%nat by reflexivity. rewrite pow_mult.
    apply Rle_trans with ((267 / 100) ^ 26); [|apply pow_incr; split; lra]. lra. }
  replace (-26) with (Ropp 26) by lra. rewrite exp_Ropp. apply Rle_trans with (/ 10 ^ 11); [apply Rinv_le_contravar; lra | lra].
Qed.

Lemma tiny_bound : forall kap x, 100 <= kap -> 0 < x -> 0 <= tiny kap x <= 1 / 10 ^ 12.
Proof.
  intros kap x Hk Hx. pose proof (upper_pos kap x ltac:(lra) Hx) as U. pose proof PI_RGT_0. pose proof pi_bounds as PB.
  assert (S : 0 <= sqrt (2 / PI / kap) <= 1 / 2).
  { split; [apply sqrt_pos|]. rewrite <- (sqrt_square (1 / 2)) by lra. apply sqrt_le_1_alt.
    apply Rmult_le_reg_r with (PI * kap); [apply Rmult_lt_0_compat; lra|]. replace (2 / PI / kap * (PI * kap)) with 2 by (field; split; lra). nra. }
  assert (G : 0 <= exp (- (kap / 2) - x ^ 2 / (2 * kap)) <= 1 / 10 ^ 12).
  { split; [left; apply exp_pos|]. eapply Rle_trans; [|apply exp_m50]. assert (0 < x ^ 2 / (2 * kap)) by (apply Rdiv_lt_0_compat; nra). left. apply exp_increasing. lra. }
  assert (Q : 0 <= gauss kap x <= 1 / 10 ^ 12) by (unfold gauss; nra).
  unfold tiny. split; [apply Rmult_le_pos; [lra | left; apply Rinv_0_lt_compat; lra]|].
  apply Rmult_le_reg_r with (upper kap x); [lra|]. replace (gauss kap x / upper kap x * upper kap x) with (gauss kap x) by (field; lra). nra.
Qed.

Lemma Erf_tail : forall x, 61 / 10 <= x -> 1 - 1 / 10 ^ 12 <= Erf x <= 1.
Proof.
  intros x Hx. split; [| apply Erf_bound]. pose proof (Erf_nonneg x ltac:(lra)) as N. pose proof (Erf_square x) as (L & U).
  assert (E : exp (- x ^ 2) <= 1 / (2 * 10 ^ 12)).
  { eapply Rle_trans; [| apply exp_m37]. destruct (Req_dec x (61 / 10)) as [->|NE]; [apply Rle_refl|]. left. apply exp_increasing. nra. }
  pose proof pi_bounds as P. pose proof (exp_pos (- x ^ 2)) as EP.
  assert (4 / PI * exp (- x ^ 2) <= 1 / 10 ^ 12).
  { apply Rle_trans with (2 * exp (- x ^ 2)); [|lra]. apply Rmult_le_compat_r; [lra|]. apply Rmult_le_reg_r with PI; [lra|]. replace (4 / PI * PI) with 4 by (field; lra). lra. }
  nra.
Qed.

Lemma values : forall kap x, 100 <= kap -> 0 < x -> -267 / 10 <= (x - kap) / sqrt (2 * kap) ->
  let s := exp (- (2 * x)) in
  1 - 1 / 10 ^ 12 <= E1 kap x <= 1 /\ Rabs (1 - e1 kap x) <= 2 / 10 ^ 12 /\
  s * (1 + E2 kap x) <= 21 / 10 ^ 12 /\ s * Rabs (1 + e2 kap x) <= 22 / 10 ^ 12.
Proof.
  intros kap x Hk Hx Hr s. assert (SK : 0 < sqrt (2 * kap)) by (apply sqrt_lt_R0; lra). assert (SS : sqrt (2 * kap) * sqrt (2 * kap) = 2 * kap) by (apply sqrt_sqrt; lra).
  assert (S14 : 14 < sqrt (2 * kap)) by nra.
  assert (P1 : 61 / 10 <= (x + kap) / sqrt (2 * kap)).
  { apply Rmult_le_reg_r with (sqrt (2 * kap)); [exact SK|]. replace ((x + kap) / sqrt (2 * kap) * sqrt (2 * kap)) with (x + kap) by (field; lra). nra. }
  pose proof (Erf_tail _ P1) as T1. fold (E1 kap x) in T1. pose proof (e1_accuracy kap x ltac:(lra) Hx) as A1. apply Rabs_le_between in A1.
  assert (A2 : Rabs (e2 kap x - E2 kap x) <= 1 / 10 ^ 12) by (apply erf_accuracy; exact Hr). apply Rabs_le_between in A2.
  assert (S0 : 0 < s <= 1) by (unfold s; split; [apply exp_pos | rewrite <- exp_0; left; apply exp_increasing; lra]).
  pose proof (Erf_bound ((x - kap) / sqrt (2 * kap))) as B2. fold (E2 kap x) in B2.
  split; [exact T1|]. split; [apply Rabs_le; lra|].
  assert (Q : s * (1 + E2 kap x) <= 20 / 10 ^ 12).
  { destruct (Rle_dec x 13) as [L|L].
    - assert (P2 : 61 / 10 <= - ((x - kap) / sqrt (2 * kap))).
      { apply Rmult_le_reg_r with (sqrt (2 * kap)); [exact SK|]. replace (- ((x - kap) / sqrt (2 * kap)) * sqrt (2 * kap)) with (kap - x) by (field; lra).
        replace kap with (sqrt (2 * kap) * sqrt (2 * kap) / 2) at 2 by lra. nra. }
      pose proof (Erf_tail _ P2) as T2. rewrite Erf_odd in T2. fold (E2 kap x) in T2. nra.
    - assert (s <= 1 / 10 ^ 11) by (eapply Rle_trans; [|apply exp_m26]; left; apply exp_increasing; lra). nra. }
  split; [lra|]. assert (Rabs (1 + e2 kap x) <= 1 + E2 kap x + 1 / 10 ^ 12) by (apply Rabs_le; lra). nra.
Qed.

Lemma quotient : forall n d c rho, Rabs n <= c -> 0 < rho -> rho ^ 2 <= d -> Rabs (n / d) <= c / rho ^ 2.
Proof.
  intros n d c rho Hn Hr Hd. assert (R2 : 0 < rho ^ 2) by (apply pow_lt; exact Hr). unfold Rdiv. rewrite Rabs_mult, Rabs_inv, (Rabs_pos_eq d) by lra.
  apply Rmult_le_compat; [apply Rabs_pos | left; apply Rinv_0_lt_compat; lra | exact Hn | apply Rinv_le_contravar; lra].
Qed.

Lemma moderate : forall kap x, 100 <= kap -> 1 / 10 ^ 11 <= x -> -267 / 10 <= (x - kap) / sqrt (2 * kap) ->
  Rabs (ext kap x - mean kap x) <= 2 / 10 ^ 10 * (1 + 1 / x) ^ 2.
Proof.
  intros kap x Hk Hx Hr. assert (X : 0 < x) by lra.
  destruct (ratios kap x Hk X) as (B & B' & A). destruct (values kap x Hk X Hr) as (V1 & V2 & V3 & V4). pose proof (tiny_bound kap x Hk X) as Ti.
  pose proof (Erf_bound ((x - kap) / sqrt (2 * kap))) as B2. fold (E2 kap x) in B2.
  assert (A2 : Rabs (e2 kap x - E2 kap x) <= 1 / 10 ^ 12) by (apply erf_accuracy; exact Hr). apply Rabs_le_between in A2.
  set (s := exp (- (2 * x))) in *. set (rho := 1 - s).
  assert (S0 : 0 < s) by apply exp_pos.
  assert (S1 : s * (1 + 2 * x) <= 1).
  { unfold s. rewrite exp_Ropp. pose proof (exp_ineq1_le (2 * x)) as Q. pose proof (exp_pos (2 * x)). apply Rmult_le_reg_l with (exp (2 * x)); [lra|].
    rewrite <- Rmult_assoc, Rinv_r by lra. lra. }
  assert (R1 : 1 / 10 ^ 11 <= rho) by (unfold rho; nra). assert (R0 : 0 < rho) by lra.
  assert (RI : / rho <= 1 + 1 / x).
  { apply Rmult_le_reg_r with rho; [exact R0|]. rewrite Rinv_l by lra. assert (P : 0 < 1 / x) by (apply Rdiv_lt_0_compat; lra). assert (P1 : 1 / x * x = 1) by (field; lra).
    set (v := 1 / x) in *. unfold rho. assert (s * (1 + v) <= v); [|lra]. assert (s * (1 + 2 * x) * v <= 1 * v) by (apply Rmult_le_compat_r; lra). nra. }
  assert (BB : beta kap x <= s) by (apply Rabs_le_between in B; lra). assert (BL : - s <= beta kap x) by (apply Rabs_le_between in B; lra).
  assert (D1 : rho ^ 2 <= 2 * (1 - beta kap x) * (2 * (1 - beta kap x) + (e1 kap x + beta kap x * e2 kap x))).
  { assert (E : Rabs (beta kap x * e2 kap x) <= s + 1 / 10 ^ 12).
    { rewrite Rabs_mult. apply Rle_trans with (s * (1 + 1 / 10 ^ 12)); [|unfold rho in R1; nra]. apply Rmult_le_compat; try apply Rabs_pos; [exact B|]. apply Rabs_le. lra. }
    apply Rabs_le_between in E. apply Rabs_le_between in V2. assert (0 <= e1 kap x + beta kap x * e2 kap x) by (unfold rho in R1; lra). unfold rho in *. nra. }
  assert (D2 : rho ^ 2 <= (1 + E1 kap x - beta kap x * (1 - E2 kap x)) * (1 - beta kap x)).
  { assert (beta kap x * (1 - E2 kap x) <= 2 * s) by nra. assert (rho <= 1 + E1 kap x - beta kap x * (1 - E2 kap x)) by (unfold rho in *; lra). unfold rho in *. nra. }
  assert (SE : s * Rabs (e1 kap x + e2 kap x) <= 24 / 10 ^ 12).
  { replace (e1 kap x + e2 kap x) with ((1 + e2 kap x) - (1 - e1 kap x)) by ring. apply Rle_trans with (s * (Rabs (1 + e2 kap x) + Rabs (1 - e1 kap x))).
    - apply Rmult_le_compat_l; [lra|]. unfold Rminus at 1. eapply Rle_trans; [apply Rabs_triang|]. rewrite Rabs_Ropp. lra.
    - unfold rho in R1. assert (s <= 1) by lra. pose proof (Rabs_pos (1 - e1 kap x)). nra. }
  assert (SF : s * Rabs (E1 kap x + E2 kap x) <= 22 / 10 ^ 12).
  { unfold rho in R1. assert (s <= 1) by lra. destruct (Rle_dec 0 (E1 kap x + E2 kap x)) as [P|P]; [rewrite Rabs_pos_eq by exact P | rewrite Rabs_left by lra]; nra. }
  assert (N1 : Rabs (2 * (alpha kap x * (1 - e1 kap x) - alpha kap x * beta kap x * (1 + e2 kap x) - beta' kap x * (e1 kap x + e2 kap x)) + tiny kap x * (2 * (1 - beta kap x))) <= 105 / 10 ^ 12).
  { assert (T1 : Rabs (alpha kap x * (1 - e1 kap x)) <= 101 / 100 * (2 / 10 ^ 12)) by (rewrite Rabs_mult; apply Rmult_le_compat; try apply Rabs_pos; [rewrite Rabs_pos_eq; lra | exact V2]).
    assert (T2 : Rabs (alpha kap x * beta kap x * (1 + e2 kap x)) <= 101 / 100 * (22 / 10 ^ 12)).
    { rewrite Rmult_assoc, Rabs_mult. apply Rmult_le_compat; try apply Rabs_pos; [rewrite Rabs_pos_eq; lra|]. rewrite Rabs_mult. eapply Rle_trans; [|exact V4]. apply Rmult_le_compat_r; [apply Rabs_pos | exact B]. }
    assert (T3 : Rabs (beta' kap x * (e1 kap x + e2 kap x)) <= 101 / 100 * (24 / 10 ^ 12)).
    { rewrite Rabs_mult. apply Rle_trans with (101 / 100 * (s * Rabs (e1 kap x + e2 kap x))); [|lra]. rewrite <- Rmult_assoc. apply Rmult_le_compat_r; [apply Rabs_pos | exact B']. }
    assert (T4 : 0 <= tiny kap x * (2 * (1 - beta kap x)) <= 4 / 10 ^ 12) by (unfold rho in R1; nra).
    apply Rabs_le_between in T1. apply Rabs_le_between in T2. apply Rabs_le_between in T3. apply Rabs_le. lra. }
  assert (N2 : Rabs (- (beta' kap x + beta kap x * alpha kap x) * (E1 kap x + E2 kap x) + tiny kap x * (1 - beta kap x)) <= 50 / 10 ^ 12).
  { assert (T1 : Rabs (beta' kap x + beta kap x * alpha kap x) <= 202 / 100 * s).
    { eapply Rle_trans; [apply Rabs_triang|]. rewrite Rabs_mult, (Rabs_pos_eq (alpha kap x)) by lra. pose proof (Rabs_pos (beta kap x)). nra. }
    assert (T3 : Rabs (- (beta' kap x + beta kap x * alpha kap x) * (E1 kap x + E2 kap x)) <= 202 / 100 * (22 / 10 ^ 12)).
    { rewrite Rabs_mult, Rabs_Ropp. apply Rle_trans with (202 / 100 * (s * Rabs (E1 kap x + E2 kap x))); [|lra]. rewrite <- Rmult_assoc. apply Rmult_le_compat_r; [apply Rabs_pos | exact T1]. }
    assert (T4 : 0 <= tiny kap x * (1 - beta kap x) <= 2 / 10 ^ 12) by (unfold rho in R1; nra).
    apply Rabs_le_between in T3. apply Rabs_le. lra. }
  assert (NB : 0 < 1 - beta kap x) by (unfold rho in R0; lra).
  pose proof (quotient _ _ _ _ N1 R0 D1) as Q1. pose proof (quotient _ _ _ _ N2 R0 D2) as Q2.
  rewrite <- mean_difference in Q2 by (assumption || lra). rewrite <- ext_difference in Q1; [| lra | assumption | | assumption].
  2:{ intro Z. rewrite Z, Rmult_0_r in D1. pose proof (pow_lt rho 2 R0). lra. }
  replace (ext kap x - mean kap x) with ((ext kap x - asym kap x) - (mean kap x - asym kap x)) by ring.
  unfold Rminus at 1. eapply Rle_trans; [apply Rabs_triang|]. rewrite Rabs_Ropp.
  apply Rle_trans with (155 / 10 ^ 12 / rho ^ 2).
  { replace (155 / 10 ^ 12 / rho ^ 2) with (105 / 10 ^ 12 / rho ^ 2 + 50 / 10 ^ 12 / rho ^ 2) by (field; lra). lra. }
  replace (155 / 10 ^ 12 / rho ^ 2) with (155 / 10 ^ 12 * (/ rho) ^ 2) by (field; lra).
  assert (IR : 0 < / rho) by (apply Rinv_0_lt_compat; exact R0). assert (SQ : (/ rho) ^ 2 <= (1 + 1 / x) ^ 2) by (apply pow_incr; lra).
  pose proof (pow_lt (/ rho) 2 IR). apply Rmult_le_compat; lra.
Qed.

Lemma moderate_conjugate : forall kap x, 100 <= kap -> 1 / 10 ^ 11 <= x -> -267 / 10 <= (x - kap) / sqrt (2 * kap) ->
  exists (Z : R -> R) (mu : R), (forall y, 0 < y -> 0 < Z y /\ half_line_integral (link_weight (harmonic_potential kap) y) (Z y)) /\
    is_derive (fun y => - ln (Z y)) x (- mu) /\ Rabs (ext kap x - mu) <= 2 / 10 ^ 10 * (1 + 1 / x) ^ 2.
Proof.
  intros kap x Hk Hx Hr. exists (partition kap), (mean kap x). split; [|split; [apply partition_derive; lra | apply moderate; assumption]].
  intros y Hy. split; [|apply partition_integral; lra]. unfold partition. apply Rmult_lt_0_compat; [apply factor_pos; lra | apply exact_bracket_pos; lra].
Qed.
