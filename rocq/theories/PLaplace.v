(** The isotensional partition function as the Laplace transform of the isometric
    distribution, for the ideal and the freely jointed chain. *)
From Coq Require Import Reals ZArith Lra Lia Psatz Factorial.
From Coquelicot Require Import Coquelicot.
From Verif Require Import Scalar MMath MConst MTreloar MIdeal MFjc.
From Verif Require Import SpecPartition SpecGauss SpecIsometric SpecWalk SpecThermo PBase PHyp PGauss PIrwinHall PWalk PTreloar PIdealDist PPartition.
From Verif Require PIsometric PEfjcExact.
Open Scope R_scope.

(** ** Angular averages *)
Lemma angular_even : forall x, angular_average (- x) = angular_average x.
Proof.
  intro x. destruct (Req_dec x 0) as [-> | N]; [rewrite Ropp_0; reflexivity |].
  rewrite !angular_value by lra. unfold sinh. rewrite Ropp_involutive. field. exact N.
Qed.
Lemma angular_zero : angular_average 0 = 1.
Proof.
  unfold angular_average. rewrite (RInt_ext (V := R_CompleteNormedModule) _ (fun _ => 1)) by (intros; rewrite Rmult_0_l, exp_0; reflexivity).
  rewrite RInt_const. unfold scal; simpl; unfold mult; simpl. field.
Qed.
Lemma angular_pos : forall x, 0 < angular_average x.
Proof.
  assert (P : forall x, 0 < x -> 0 < angular_average x).
  { intros x H. rewrite angular_value by lra. apply Rdiv_lt_0_compat; [apply PHyp.sinh_pos |]; exact H. }
  intro x. destruct (Rtotal_order x 0) as [H | [-> | H]]; [rewrite <- angular_even; apply P; lra | rewrite angular_zero; lra | apply P; exact H].
Qed.

(** ** The Gaussian *)
Lemma maxwell_laplace : forall c eta, 0 < c ->
  half_line_integral (fun s => maxwell c s * angular_average (eta * s)) (exp (eta ^ 2 / (4 * c))).
Proof.
  intros c eta Hc. destruct (Req_dec eta 0) as [-> | N].
  { apply (half_line_ext (maxwell c)).
    - intro s. rewrite Rmult_0_l, angular_zero. ring.
    - replace (exp (0 ^ 2 / (4 * c))) with 1 by (replace (0 ^ 2 / (4 * c)) with 0 by (field; lra); rewrite exp_0; reflexivity). apply maxwell_one, Hc. }
  pose proof (gauss_partition_half_line c 0 Hc eta N) as H.
  pose proof (sqrt_lt_R0 c Hc) as Sc. pose proof (sqrt_lt_R0 PI PI_RGT_0) as Sp.
  assert (Sc2 : sqrt c * sqrt c = c) by (apply sqrt_sqrt; lra). 
  assert (V : gauss_partition c 0 eta = sqrt PI / (4 * c * sqrt c) * exp (eta ^ 2 / (4 * c))).
  { rewrite gauss_partition_value by assumption. rewrite !Rmult_0_r, Ropp_0, exp_0.
    replace (0 - eta / (2 * c)) with (- (eta / (2 * c))) by ring. rewrite Rplus_0_l.
    replace (sqrt c * - (eta / (2 * c))) with (- (sqrt c * (eta / (2 * c)))) by ring. rewrite PEfjcExact.Erf_odd. field. repeat split; lra. }
  destruct H as (I & L).
  assert (EQ : forall s, maxwell c s * angular_average (eta * s) = 4 / sqrt PI * c * sqrt c * link_weight (fun s => c * (s - 0) ^ 2) eta s).
  { intro s. rewrite maxwell_eq by exact Hc. unfold link_weight. replace (- (c * (s - 0) ^ 2)) with (- c * s ^ 2) by ring. ring. }
  apply (half_line_ext (fun s => 4 / sqrt PI * c * sqrt c * link_weight (fun s => c * (s - 0) ^ 2) eta s)); [intro; symmetry; apply EQ |].
  set (K0 := 4 / sqrt PI * c * sqrt c) in *. split.
  - intros x Hx. apply (ex_RInt_scal (V := R_NormedModule)). apply I. exact Hx.
  - apply (is_lim_ext_loc (fun x => K0 * RInt (link_weight (fun s => c * (s - 0) ^ 2) eta) 0 x)).
    { exists 0. intros x Hx. symmetry. apply (RInt_scal (V := R_CompleteNormedModule)). apply I. exact Hx. }
    replace (Finite (exp (eta ^ 2 / (4 * c)))) with (Rbar_mult K0 (gauss_partition c 0 eta)).
    + apply is_lim_scal_l. exact L.
    + change (Finite (K0 * gauss_partition c 0 eta) = Finite (exp (eta ^ 2 / (4 * c)))). f_equal. rewrite V. unfold K0. field. lra.
Qed.

Lemma ideal_laplace : forall (N : Z) eta, (0 < N)%Z ->
  half_line_integral (fun g => ideal_isometric.nondimensional_equilibrium_radial_distribution N g * angular_average (IZR N * eta * g))
    (exp (- ideal_isotensional.nondimensional_relative_gibbs_free_energy N eta)).
Proof.
  intros N eta HN. assert (PN : 0 < IZR N) by (apply IZR_lt; lia).
  apply (half_line_ext (fun g => maxwell (a N) g * angular_average (IZR N * eta * g))).
  { intro g. rewrite nd_radial by exact HN. reflexivity. }
  replace (- ideal_isotensional.nondimensional_relative_gibbs_free_energy N eta) with ((IZR N * eta) ^ 2 / (4 * a N)).
  - apply maxwell_laplace. apply a_pos. exact HN.
  - change ((IZR N * eta) ^ 2 / (4 * a N) = - (- IZR N * eta ^ 2 / 6)). unfold a. field. lra.
Qed.

(** ** Truncated powers *)
Lemma power_exp_lim : forall c k, 0 < c -> is_lim (fun x => x ^ S k * exp (- (c * x))) p_infty 0.
Proof.
  intros c k Hc. set (d := c / INR (S k)). assert (Pk : 0 < INR (S k)) by (apply lt_0_INR; lia).
  assert (Hd : 0 < d) by (apply Rdiv_lt_0_compat; assumption).
  assert (L : is_lim (fun x => x * exp (- (d * x))) p_infty 0).
  { apply (is_lim_ext (fun x => (- / d) * ((- d * x) * exp (- d * x)))).
    { intro x. replace (- d * x) with (- (d * x)) by ring. field. lra. }
    replace (Finite 0) with (Rbar_mult (- / d) 0) by (simpl; f_equal; ring).
    apply is_lim_scal_l. apply (is_lim_comp (fun y => y * exp y) (fun x => - d * x) p_infty 0 m_infty).
    - apply is_lim_mul_exp_m.
    - replace m_infty with (Rbar_mult (- d) p_infty).
      + apply is_lim_scal_l. apply is_lim_id.
      + simpl. destruct (Rle_dec 0 (- d)) as [H | H]; [exfalso; lra | reflexivity].
    - exists 0. intros x _. discriminate. }
  apply (is_lim_ext (fun x => (x * exp (- (d * x))) ^ S k)).
  { intro x. rewrite Rpow_mult_distr. f_equal. rewrite <- PErfc.exp_pow. f_equal. unfold d. field. lra. }
  clear Pk. clearbody d. induction k as [|k IH].
  - apply (is_lim_ext (fun x => x * exp (- (d * x)))); [intro; simpl; ring | exact L].
  - apply (is_lim_ext (fun x => (x * exp (- (d * x))) * (x * exp (- (d * x))) ^ S k)); [intro; reflexivity |].
    replace (Finite 0) with (Rbar_mult 0 0) by (simpl; f_equal; ring). apply is_lim_mult; [exact L | exact IH | exact I].
Qed.

Section Transform.
Variable c : R.
Hypothesis Hc : 0 < c.
Let E (x : R) : R := exp (- (c * x)).

Lemma E_cont : forall x, continuous E x.
Proof using. intro x. apply (ex_derive_continuous (V := R_NormedModule)). unfold E. auto_derive. exact I. Qed.

Lemma power_transform : forall e, exists W : R -> R, (forall X, 0 < X -> is_RInt (fun x => x ^ e / INR (fact e) * E x) 0 X (W X)) /\ is_lim W p_infty (/ c ^ S e).
Proof using Hc.
  assert (L0 : is_lim E p_infty 0).
  { apply (is_lim_ext (fun x => exp (- c * x))); [intro x; unfold E; f_equal; ring |].
    apply (is_lim_comp exp (fun x => - c * x) p_infty 0 m_infty); [apply is_lim_exp_m | |].
    - replace m_infty with (Rbar_mult (- c) p_infty).
      + apply is_lim_scal_l. apply is_lim_id.
      + simpl. destruct (Rle_dec 0 (- c)) as [H | H]; [exfalso; lra | reflexivity].
    - exists 0. intros x _. discriminate. }
  induction e as [|e (W & I & L)].
  - exists (fun X => / c - / c * E X). split.
    + intros X _. replace (/ c - / c * E X) with (minus (- / c * E X) (- / c * E 0)).
      2:{ change (- / c * E X - (- / c * E 0) = / c - / c * E X). unfold E at 2. rewrite Rmult_0_r, Ropp_0, exp_0. ring. }
      apply (is_RInt_ext (V := R_NormedModule) E).
      { intros x _. simpl. field. }
      apply (is_RInt_derive (V := R_CompleteNormedModule) (fun x => - / c * E x) E).
      * intros x _. unfold E. auto_derive; [exact Logic.I | field; lra].
      * intros x _. apply E_cont.
    + replace (Finite (/ c ^ 1)) with (Rbar_minus (/ c) (Rbar_mult (/ c) 0)).
      * apply (is_lim_minus _ _ _ (Finite (/ c)) (Rbar_mult (/ c) 0)); [apply is_lim_const | apply is_lim_scal_l; exact L0 |].
        unfold is_Rbar_minus, is_Rbar_plus. simpl. reflexivity.
      * simpl. f_equal. field. lra.
  - exists (fun X => - / c * (X ^ S e / INR (fact (S e)) * E X) + / c * W X). split.
    + intros X HX.
      apply (is_RInt_ext (V := R_NormedModule) (fun x => (x ^ S e / INR (fact (S e)) * E x - / c * (x ^ e / INR (fact e) * E x)) + / c * (x ^ e / INR (fact e) * E x))).
      { intros x _. change ((x ^ S e / INR (fact (S e)) * E x - / c * (x ^ e / INR (fact e) * E x)) + / c * (x ^ e / INR (fact e) * E x) = x ^ S e / INR (fact (S e)) * E x). ring. }
      apply (is_RInt_plus (V := R_NormedModule)).
      * evar_last.
        { apply (is_RInt_derive (V := R_CompleteNormedModule) (fun x => - / c * (x ^ S e / INR (fact (S e)) * E x)) (fun x => x ^ S e / INR (fact (S e)) * E x - / c * (x ^ e / INR (fact e) * E x))).
          - intros x _. unfold E. auto_derive; [exact Logic.I |].
            change (Nat.pred (S e)) with e. rewrite (fact_simpl e), mult_INR. pose proof (fact_neq e). assert (INR (S e) <> 0) by (apply not_0_INR; lia).
            set (p := x ^ e). replace (x ^ S e) with (x * p) by reflexivity. change (match e with 0%nat => 1 | S _ => INR e + 1 end) with (INR (S e)). change (fact e + e * fact e)%nat with (S e * fact e)%nat. rewrite mult_INR. field. repeat split; try assumption; lra.
          - intros x _. apply (ex_derive_continuous (V := R_NormedModule)). unfold E. auto_derive. exact Logic.I. }
        change (- / c * (X ^ S e / INR (fact (S e)) * E X) - (- / c * (0 ^ S e / INR (fact (S e)) * E 0)) = - / c * (X ^ S e / INR (fact (S e)) * E X)).
        replace (0 ^ S e) with 0 by (simpl; ring). unfold Rdiv. ring.
      * apply (is_RInt_scal (V := R_NormedModule)). apply I. exact HX.
    + apply (is_lim_ext (fun X => (- / c * / INR (fact (S e))) * (X ^ S e * E X) + / c * W X)).
      { intro X. unfold Rdiv. ring. }
      replace (Finite (/ c ^ S (S e))) with (Rbar_plus (Rbar_mult (- / c * / INR (fact (S e))) 0) (Rbar_mult (/ c) (/ c ^ S e))).
      * apply (is_lim_plus _ _ _ (Rbar_mult (- / c * / INR (fact (S e))) 0) (Rbar_mult (/ c) (/ c ^ S e)));
          [apply is_lim_scal_l; apply power_exp_lim; exact Hc | apply is_lim_scal_l; exact L | reflexivity].
      * cbn [Rbar_mult Rbar_mult' Rbar_plus Rbar_plus']. f_equal. rewrite Rmult_0_r, Rplus_0_l. simpl (c ^ S (S e)). simpl (c ^ S e). field. split; [apply pow_nonzero; lra | lra].
Qed.

Lemma ih_transform : forall n e, exists W : R -> R, (forall X, is_RInt (fun x => ih e n x * E x) 0 X (W X)) /\ is_lim W p_infty ((1 - exp (- c)) ^ n / c ^ S e).
Proof using Hc.
  induction n as [|n IH]; intro e.
  - destruct (power_transform e) as (W & I & L).
    exists (fun X => if Rlt_dec 0 X then W X else 0). split.
    + intro X. destruct (Rlt_dec 0 X) as [P | P].
      * apply (is_RInt_ext (V := R_NormedModule) (fun x => x ^ e / INR (fact e) * E x)); [| apply I; exact P].
        intros x Hx. rewrite Rmin_left, Rmax_right in Hx by lra. cbn [ih]. rewrite pp_pos by lra. reflexivity.
      * apply (is_RInt_ext (V := R_NormedModule) (fun _ => 0)).
        { intros x Hx. rewrite Rmin_right, Rmax_left in Hx by lra. rewrite ih_neg by lra. symmetry. apply Rmult_0_l. }
        evar_last; [apply (is_RInt_const (V := R_NormedModule)) |]. change ((X - 0) * 0 = 0). ring.
    + replace ((1 - exp (- c)) ^ 0 / c ^ S e) with (/ c ^ S e) by (simpl; field; split; [apply pow_nonzero; lra | lra]).
      apply (is_lim_ext_loc W); [| exact L]. exists 0. intros x Hx. destruct (Rlt_dec 0 x); [reflexivity | lra].
  - destruct (IH e) as (W & I & L).
    assert (Z : forall X, is_RInt (fun x => ih e n (x - 1) * E x) 0 X (exp (- c) * W (X - 1))).
    { intro X. apply (is_RInt_ext (V := R_NormedModule) (fun x => scal (exp (- c)) (ih e n (x + -1) * E (x + -1)))).
      - intros x _. change (exp (- c) * (ih e n (x + -1) * E (x + -1)) = ih e n (x - 1) * E x).
        replace (E x) with (exp (- c) * E (x + -1)) by (unfold E; rewrite <- exp_plus; f_equal; ring). replace (x + -1) with (x - 1) by ring. ring.
      - apply (is_RInt_scal (V := R_NormedModule) (fun x => ih e n (x + -1) * E (x + -1))). apply (is_RInt_shift (fun y => ih e n y * E y)).
        replace (W (X - 1)) with (plus 0 (W (X - 1))) by (change (0 + W (X - 1) = W (X - 1)); ring).
        apply (is_RInt_Chasles (V := R_NormedModule)) with 0; [| apply I].
        apply (is_RInt_ext (V := R_NormedModule) (fun _ => 0)).
        { intros x Hx. rewrite Rmin_left, Rmax_right in Hx by lra. rewrite ih_neg by lra. symmetry. apply Rmult_0_l. }
        evar_last; [apply (is_RInt_const (V := R_NormedModule)) |]. change ((0 - (0 + -1)) * 0 = 0). ring. }
    exists (fun X => W X - exp (- c) * W (X - 1)). split.
    + intro X. apply (is_RInt_ext (V := R_NormedModule) (fun x => minus (ih e n x * E x) (ih e n (x - 1) * E x))).
      { intros x _. cbn [ih]. change (ih e n x * E x - ih e n (x - 1) * E x = (ih e n x - ih e n (x - 1)) * E x). ring. }
      apply (is_RInt_minus (V := R_NormedModule)); [apply I | apply Z].
    + replace (Finite ((1 - exp (- c)) ^ S n / c ^ S e)) with (Rbar_minus ((1 - exp (- c)) ^ n / c ^ S e) (Rbar_mult (exp (- c)) ((1 - exp (- c)) ^ n / c ^ S e))).
      * apply (is_lim_minus _ _ _ (Finite ((1 - exp (- c)) ^ n / c ^ S e)) (Rbar_mult (exp (- c)) ((1 - exp (- c)) ^ n / c ^ S e))); [exact L | | reflexivity].
        apply is_lim_scal_l. apply (is_lim_comp W (fun X => X - 1) p_infty ((1 - exp (- c)) ^ n / c ^ S e) p_infty); [exact L | |].
        -- replace p_infty with (Rbar_minus p_infty 1) at 2 by reflexivity. apply (is_lim_minus _ _ _ p_infty (Finite 1)); [apply is_lim_id | apply is_lim_const | reflexivity].
        -- exists 0. intros x _. discriminate.
      * cbn [Rbar_mult Rbar_mult' Rbar_minus Rbar_opp Rbar_plus Rbar_plus']. f_equal. cbn [pow]. field. split; [apply pow_nonzero; lra | lra].
Qed.
End Transform.

(** ** The freely jointed chain *)
Lemma ih_odd : forall j x, (1 <= j)%nat \/ (forall s : nat, (s <= S (S j))%nat -> x <> INR s) ->
  ih j (S (S j)) (INR (S (S j)) - x) = - ih j (S (S j)) x.
Proof.
  intros j x H. set (N := S (S j)) in *.
  assert (D1 : is_derive (ih (S j) N) x (ih j N x)) by (apply ih_derive; exact H).
  assert (D2 : is_derive (fun y => ih (S j) N (INR N - y)) x (- ih j N (INR N - x))).
  { evar_last.
    - apply (is_derive_comp (V := R_NormedModule) (ih (S j) N) (fun y => INR N - y)).
      + apply ih_derive. destruct H as [H | H]; [left; exact H | right]. intros s Hs E0.
        apply (H (N - s)%nat); [lia |]. rewrite minus_INR by exact Hs. lra.
      + auto_derive; [exact I | reflexivity].
    - change ((0 - 1) * ih j N (INR N - x) = - ih j N (INR N - x)) || change ((- (1)) * ih j N (INR N - x) = - ih j N (INR N - x)). ring. }
  assert (D3 : is_derive (ih (S j) N) x (- ih j N (INR N - x))).
  { apply (is_derive_ext (fun y => ih (S j) N (INR N - y))); [intro y; apply ih_sym | exact D2]. }
  pose proof (is_derive_unique _ _ _ D1) as U1. pose proof (is_derive_unique _ _ _ D3) as U3. lra.
Qed.
Lemma ih_beyond : forall j x, INR (S (S j)) < x -> ih j (S (S j)) x = 0.
Proof.
  intros j x H. pose proof (ih_odd j x) as O. rewrite ih_neg in O by lra. cut (0 = - ih j (S (S j)) x); [lra |]. apply O.
  right. intros s Hs E0. apply le_INR in Hs. lra.
Qed.

Lemma ih_whole : forall j c, 0 < c ->
  is_RInt (fun x => ih j (S (S j)) x * exp (- (c * x))) 0 (INR (S (S j))) ((1 - exp (- c)) ^ (S (S j)) / c ^ S j).
Proof.
  intros j c Hc. set (N := S (S j)). destruct (ih_transform c Hc N j) as (W & I & L).
  replace ((1 - exp (- c)) ^ N / c ^ S j) with (W (INR N)); [apply I |].
  assert (C : forall X, INR N < X -> W X = W (INR N)).
  { intros X HX. assert (Z : is_RInt (fun x => ih j N x * exp (- (c * x))) (INR N) X 0).
    { apply (is_RInt_ext (V := R_NormedModule) (fun _ => 0)).
      { intros x Hx. rewrite Rmin_left, Rmax_right in Hx by lra. unfold N. rewrite ih_beyond by (unfold N in Hx; lra). symmetry. apply Rmult_0_l. }
      evar_last; [apply (is_RInt_const (V := R_NormedModule)) |]. change ((X - INR N) * 0 = 0). ring. }
    pose proof (is_RInt_Chasles (V := R_NormedModule) _ _ _ _ _ _ (I (INR N)) Z) as H.
    apply (is_RInt_unique (V := R_CompleteNormedModule)) in H. pose proof (I X) as H2. apply (is_RInt_unique (V := R_CompleteNormedModule)) in H2.
    rewrite H in H2. change (W (INR N) + 0 = W X) in H2. lra. }
  assert (L2 : is_lim W p_infty (W (INR N))).
  { apply (is_lim_ext_loc (fun _ => W (INR N))); [| apply is_lim_const]. exists (INR N). intros X HX. symmetry. apply C. exact HX. }
  apply is_lim_unique in L. apply is_lim_unique in L2. rewrite L in L2. injection L2. intro Q. symmetry. exact Q.
Qed.

Lemma ih_sinh : forall j eta, 0 < eta ->
  is_RInt (fun x => ih j (S (S j)) x * sinh (eta * (INR (S (S j)) - 2 * x))) (INR (S (S j)) / 2) 0
    (- (eta * (sinh eta / eta) ^ S (S j))).
Proof.
  intros j eta He. set (N := S (S j)). set (f := ih j N). set (c := 2 * eta). assert (Hc : 0 < c) by (unfold c; lra).
  assert (PN : 0 < INR N) by (apply lt_0_INR; unfold N; lia).
  pose proof (ih_whole j c Hc) as V. fold N in V. fold f in V.
  set (v := (1 - exp (- c)) ^ N / c ^ S j) in *.
  assert (Sub : forall a b, 0 <= a <= INR N -> 0 <= b <= INR N -> ex_RInt (fun x => f x * exp (- (c * x))) a b).
  { assert (B : forall b, 0 <= b <= INR N -> ex_RInt (fun x => f x * exp (- (c * x))) 0 b).
    { intros b Hb. apply (ex_RInt_Chasles_1 (V := R_CompleteNormedModule)) with (INR N); [exact Hb | exists v; exact V]. }
    intros a b Ha Hb. apply (ex_RInt_Chasles (V := R_NormedModule)) with 0; [apply ex_RInt_swap, B; exact Ha | apply B; exact Hb]. }
  set (v1 := RInt (fun x => f x * exp (- (c * x))) 0 (INR N / 2)).
  set (v2 := RInt (fun x => f x * exp (- (c * x))) (INR N / 2) (INR N)).
  assert (V1 : is_RInt (fun x => f x * exp (- (c * x))) 0 (INR N / 2) v1) by (apply (RInt_correct (V := R_CompleteNormedModule)), Sub; lra).
  assert (V2 : is_RInt (fun x => f x * exp (- (c * x))) (INR N / 2) (INR N) v2) by (apply (RInt_correct (V := R_CompleteNormedModule)), Sub; lra).
  assert (Sum : v1 + v2 = v).
  { pose proof (is_RInt_Chasles (V := R_NormedModule) _ _ _ _ _ _ V1 V2) as H. apply (is_RInt_unique (V := R_CompleteNormedModule)) in H.
    pose proof V as H2. apply (is_RInt_unique (V := R_CompleteNormedModule)) in H2. rewrite H in H2. exact H2. }
  assert (V2' : is_RInt (fun x => - f x * exp (- (c * (INR N - x)))) 0 (INR N / 2) v2).
  { apply (is_RInt_ext (V := R_NormedModule) (fun x => opp (scal (-1) (f (-1 * x + INR N) * exp (- (c * (-1 * x + INR N))))))).
    - intros x Hx. rewrite Rmin_left, Rmax_right in Hx by lra. replace (-1 * x + INR N) with (INR N - x) by ring.
      change (- (-1 * (f (INR N - x) * exp (- (c * (INR N - x))))) = - f x * exp (- (c * (INR N - x)))).
      unfold f, N. rewrite ih_odd; [ring |]. destruct j as [|j]; [right | left; lia].
      intros s Hs. unfold N in Hx. simpl INR in Hx. destruct s as [|s]; [simpl; lra |]. rewrite S_INR. pose proof (pos_INR s). lra.
    - replace v2 with (opp (- v2)) by (change (- (- v2) = v2); ring). apply (is_RInt_opp (V := R_NormedModule)).
      apply (is_RInt_comp_lin (V := R_NormedModule) (fun y => f y * exp (- (c * y)))).
      replace (-1 * 0 + INR N) with (INR N) by ring. replace (-1 * (INR N / 2) + INR N) with (INR N / 2) by field.
      apply (is_RInt_swap (V := R_NormedModule)). exact V2. }
  pose proof (is_RInt_plus (V := R_NormedModule) _ _ _ _ _ _ V1 V2') as T. change (plus v1 v2) with (v1 + v2) in T. rewrite Sum in T.
  apply (is_RInt_scal (V := R_NormedModule) _ _ _ (exp (eta * INR N) / 2)) in T.
  replace (- (eta * (sinh eta / eta) ^ N)) with (opp (eta * (sinh eta / eta) ^ N)) by reflexivity.
  apply (is_RInt_swap (V := R_NormedModule)).
  replace (eta * (sinh eta / eta) ^ N) with (scal (exp (eta * INR N) / 2) v).
  - apply (is_RInt_ext (V := R_NormedModule)) with (2 := T). intros x Hx.
    change (exp (eta * INR N) / 2 * (f x * exp (- (c * x)) + - f x * exp (- (c * (INR N - x)))) = f x * sinh (eta * (INR N - 2 * x))).
    unfold sinh.
    replace (exp (eta * (INR N - 2 * x))) with (exp (eta * INR N) * exp (- (c * x))) by (rewrite <- exp_plus; f_equal; unfold c; ring).
    replace (exp (- (eta * (INR N - 2 * x)))) with (exp (eta * INR N) * exp (- (c * (INR N - x)))) by (rewrite <- exp_plus; f_equal; unfold c; ring).
    field.
  - change (exp (eta * INR N) / 2 * v = eta * (sinh eta / eta) ^ N).
    assert (S1 : sinh eta / eta = exp eta * (1 - exp (- c)) / c).
    { unfold sinh, c. replace (exp (- eta)) with (exp eta * exp (- (2 * eta))) by (rewrite <- exp_plus; f_equal; ring). field. lra. }
    rewrite S1. replace (exp eta * (1 - exp (- c)) / c) with (exp eta * (1 - exp (- c)) * / c) by reflexivity. rewrite !Rpow_mult_distr. replace (eta * INR N) with (INR N * eta) by ring. rewrite PErfc.exp_pow. unfold v.
    replace ((/ c) ^ N) with (/ (c * c ^ S j)) by (rewrite <- Rinv_pow by lra; reflexivity).
    set (z := c ^ S j). assert (z <> 0) by (apply pow_nonzero; lra). replace eta with (c / 2) at 2 by (unfold c; field). field. split; [assumption | lra].
Qed.

Lemma P_laplace : forall n eta, (2 <= n)%nat -> 0 < eta ->
  is_RInt (fun g => 4 * PI * g ^ 2 * P n g * angular_average (INR n * eta * g)) 0 1 ((sinh eta / eta) ^ n).
Proof.
  intros n eta Hn He. destruct n as [|[|j]]; [lia | lia |]. set (N := S (S j)) in *.
  assert (PN : 0 < INR N) by (apply lt_0_INR; unfold N; lia). pose proof PI_RGT_0.
  pose proof (ih_sinh j eta He) as D. fold N in D.
  replace (INR N / 2) with (arg N 0) in D by (unfold arg; field). replace 0 with (arg N 1) in D at 2 by (unfold arg; field).
  apply (is_RInt_arg N) in D; [| unfold N; lia].
  apply (is_RInt_scal (V := R_NormedModule) _ _ _ (INR N / (2 * eta))) in D.
  replace ((sinh eta / eta) ^ N) with (scal (INR N / (2 * eta)) (- (2 / INR N) * - (eta * (sinh eta / eta) ^ N))).
  2:{ change (INR N / (2 * eta) * (- (2 / INR N) * - (eta * (sinh eta / eta) ^ N)) = (sinh eta / eta) ^ N). set (z := (sinh eta / eta) ^ N). clearbody z. field. split; lra. }
  apply (is_RInt_ext (V := R_NormedModule)) with (2 := D). intros g Hg. rewrite Rmin_left, Rmax_right in Hg by lra.
  change (INR N / (2 * eta) * (ih j N (arg N g) * sinh (eta * (INR N - 2 * arg N g))) = 4 * PI * g ^ 2 * P N g * angular_average (INR N * eta * g)).
  assert (NZ : INR N * eta * g <> 0) by (apply Rgt_not_eq, Rmult_lt_0_compat; [apply Rmult_lt_0_compat |]; lra).
  rewrite angular_value by exact NZ. unfold P. replace (N - 2)%nat with j by (unfold N; lia).
  replace (eta * (INR N - 2 * arg N g)) with (INR N * eta * g) by (unfold arg; field). field. repeat split; lra.
Qed.

Lemma fjc_laplace : forall prof (N : Z) eta, (2 <= N <= 26)%Z -> 0 < eta ->
  integral (fun g => match fjc_isometric.nondimensional_equilibrium_radial_distribution prof N g with
                     | Some p => Some (p * angular_average (IZR N * eta * g)) | None => None end) 0 1
    (exp (- fjc_isotensional.nondimensional_relative_gibbs_free_energy N eta)).
Proof.
  intros prof N eta HN He.
  destruct (PIsometric.z_normalised prof N HN) as (w & Hw & _).
  assert (Q : exists n, N = Z.of_nat n) by (exists (Z.to_nat N); lia). destruct Q as (n & ->).
  exists (fun g => 4 * PI * g ^ 2 * P n g * angular_average (INR n * eta * g)). split.
  - intros y Hy. unfold fjc_isometric.nondimensional_equilibrium_radial_distribution. rewrite distribution_ok by (lia || lra). cbn [bind].
    rewrite <- INR_IZR_INZ. reflexivity.
  - replace (exp (- fjc_isotensional.nondimensional_relative_gibbs_free_energy (Z.of_nat n) eta)) with ((sinh eta / eta) ^ n); [apply P_laplace; (lia || exact He) |].
    change ((sinh eta / eta) ^ n = exp (- (- ln (sinh eta / eta) * IZR (Z.of_nat n)))) || change ((sinh eta / eta) ^ n = exp (- (- IZR (Z.of_nat n) * ln (sinh eta / eta)))) || change ((sinh eta / eta) ^ n = exp (- (IZR (Z.of_nat n) * - ln (sinh eta / eta)))).
    rewrite <- INR_IZR_INZ. assert (P0 : 0 < sinh eta / eta) by (apply Rdiv_lt_0_compat; [apply PHyp.sinh_pos |]; exact He).
    rewrite <- (exp_ln (sinh eta / eta)) at 1 by exact P0. rewrite <- PErfc.exp_pow. f_equal. ring.
Qed.
