(** erf, erfc and erfcx: consistency, sign, accuracy and the far negative axis. *)
From Coq Require Import Reals ZArith QArith Qabs Qreals List Lra Lia Psatz.
From Coquelicot Require Import Coquelicot.
From Verif Require Import Scalar MErfcx MMath SpecGauss SpecErf PGauss PErfPoly PPi PErf PErfRows PBase.
Import ListNotations.
Open Scope R_scope.

(** ** The specification in closed form *)

Lemma gauss_tail_value : forall x, gauss_tail x (sqrt PI / 2 - G x).
Proof.
  intro x. unfold gauss_tail.
  apply (is_lim_ext (fun b => G b - G x)).
  - intro b. unfold G. change (fun t : R => exp (- t ^ 2)) with g.
    pose proof (RInt_Chasles (V := R_CompleteNormedModule) g 0 x b (g_int 0 x) (g_int x b)) as E.
    unfold plus in E; simpl in E. lra.
  - apply (is_lim_minus _ _ _ (Finite (sqrt PI / 2)) (Finite (G x))); [apply G_lim | apply is_lim_const | reflexivity].
Qed.

Lemma erfc_value : forall x, is_erfc x (1 - C2 * G x).
Proof.
  intro x. exists (sqrt PI / 2 - G x). split; [apply gauss_tail_value |].
  unfold C2. assert (0 < sqrt PI) by (apply sqrt_lt_R0, PI_RGT_0). field. lra.
Qed.

Lemma erfc_unique : forall x e, is_erfc x e -> e = 1 - C2 * G x.
Proof.
  intros x e [v [Hv ->]]. pose proof (gauss_tail_value x) as H.
  apply is_lim_unique in Hv. apply is_lim_unique in H. rewrite Hv in H. injection H as ->.
  unfold C2. assert (0 < sqrt PI) by (apply sqrt_lt_R0, PI_RGT_0). field. lra.
Qed.

Lemma Erf_C2 : forall x, Erf x = C2 * G x.
Proof. reflexivity. Qed.
Lemma erfc_Erf : forall x e, is_erfc x e -> e = 1 - Erf x.
Proof. intros x e H. rewrite Erf_C2. apply erfc_unique. exact H. Qed.

Lemma G_odd : forall x, G (- x) = - G x.
Proof.
  intro x. unfold G at 1.
  assert (H : is_RInt g (- 0) (- x) (RInt g 0 (- x))).
  { rewrite Ropp_0. apply (RInt_correct (V := R_CompleteNormedModule)). apply g_int. }
  apply (is_RInt_comp_opp (V := R_NormedModule)) in H.
  apply (is_RInt_unique (V := R_CompleteNormedModule)) in H. rewrite <- H.
  rewrite (RInt_ext (V := R_CompleteNormedModule) _ (fun y => opp (g y))).
  - apply (RInt_opp (V := R_CompleteNormedModule)). apply g_int.
  - intros y _. unfold opp; simpl. unfold g. f_equal. f_equal. ring.
Qed.

(** ** The branches *)

Lemma erfcx_neg : forall x, -61 / 10 <= x < 0 -> math.erfcx x = 2 * exp (x ^ 2) - math.erfcx_helper (400 / (4 - x)).
Proof.
  intros x Hx. unfold math.erfcx.
  change (sdec 0 0 <=? x)%S with (Rleb 0 x). unfold Rleb. destruct (Rle_dec 0 x); [lra |].
  change (x <? sdec (-267) 1)%S with (Rltb x (-267 / 10)). unfold Rltb. destruct (Rlt_dec x (-267 / 10)); [lra |].
  change (x <? sdec (-61) 1)%S with (Rltb x (-61 / 10)). unfold Rltb. destruct (Rlt_dec x (-61 / 10)); [lra |].
  reflexivity.
Qed.
Lemma erfcx_mid : forall x, -267 / 10 <= x < -61 / 10 -> math.erfcx x = 2 * exp (x ^ 2).
Proof.
  intros x Hx. unfold math.erfcx.
  change (sdec 0 0 <=? x)%S with (Rleb 0 x). unfold Rleb. destruct (Rle_dec 0 x); [lra |].
  change (x <? sdec (-267) 1)%S with (Rltb x (-267 / 10)). unfold Rltb. destruct (Rlt_dec x (-267 / 10)); [lra |].
  change (x <? sdec (-61) 1)%S with (Rltb x (-61 / 10)). unfold Rltb. destruct (Rlt_dec x (-61 / 10)); [| lra].
  reflexivity.
Qed.
Lemma erfcx_far : forall x, x < -267 / 10 -> math.erfcx x = math.f64_max.
Proof.
  intros x Hx. unfold math.erfcx.
  change (sdec 0 0 <=? x)%S with (Rleb 0 x). unfold Rleb. destruct (Rle_dec 0 x); [lra |].
  change (x <? sdec (-267) 1)%S with (Rltb x (-267 / 10)). unfold Rltb. destruct (Rlt_dec x (-267 / 10)); [| lra].
  reflexivity.
Qed.
Lemma erfcx_small : forall x, 0 <= x < 50 -> math.erfcx x = math.erfcx_helper (400 / (4 + x)).
Proof.
  intros x Hx. unfold math.erfcx.
  change (sdec 0 0 <=? x)%S with (Rleb 0 x). unfold Rleb at 1. destruct (Rle_dec 0 x); [| lra].
  change (sdec 50 0 <=? x)%S with (Rleb 50 x). unfold Rleb at 1. destruct (Rle_dec 50 x); [lra |].
  reflexivity.
Qed.
Lemma erfcx_large : forall x, 50 <= x -> math.erfcx x = S1 x \/ math.erfcx x = S2 x.
Proof.
  intros x Hx. unfold math.erfcx.
  change (sdec 0 0 <=? x)%S with (Rleb 0 x). unfold Rleb. destruct (Rle_dec 0 x); [| lra].
  change (sdec 50 0 <=? x)%S with (Rleb 50 x). unfold Rleb. destruct (Rle_dec 50 x); [| lra].
  change (sdec 50000000 0 <? x)%S with (Rltb 50000000 x). unfold Rltb. destruct (Rlt_dec 50000000 x) as [HL | HL].
  - right. reflexivity.
  - left. unfold S1, a0. unR. try field. all: try nra.
Qed.

(** ** Consistency *)

Lemma exp_sq_pos : forall x, 0 < exp (x ^ 2).
Proof. intro. apply exp_pos. Qed.
Lemma erfc_R : forall x, math.erfc x = math.erfcx x / exp (x ^ 2).
Proof. reflexivity. Qed.
Lemma erf_R : forall x, math.erf x = 1 - math.erfc x.
Proof. reflexivity. Qed.

Lemma erf_erfc : forall x, math.erf x + math.erfc x = 1.
Proof. intro x. rewrite erf_R. ring. Qed.
Lemma erfcx_erfc : forall x, math.erfcx x = exp (x ^ 2) * math.erfc x.
Proof. intro x. rewrite erfc_R. field. pose proof (exp_sq_pos x). lra. Qed.

Lemma erfc_reflection : forall x, 0 < x <= 61 / 10 -> math.erfc x + math.erfc (- x) = 2.
Proof.
  intros x Hx. rewrite !erfc_R, (erfcx_neg (- x)), (erfcx_small x) by lra.
  replace ((- x) ^ 2) with (x ^ 2) by ring. replace (4 - - x) with (4 + x) by ring.
  pose proof (exp_sq_pos x). field. lra.
Qed.
Lemma erf_odd : forall x, -61 / 10 <= x <= 61 / 10 -> math.erf (- x) = - math.erf x.
Proof.
  intros x Hx. rewrite !erf_R.
  destruct (Rtotal_order 0 x) as [H | [<- | H]].
  - pose proof (erfc_reflection x ltac:(lra)). lra.
  - rewrite Ropp_0, erfc_R, erfcx_small by lra.
    replace (0 ^ 2) with 0 by ring. rewrite exp_0. replace (400 / (4 + 0)) with 100 by field. rewrite helper_100. lra.
  - pose proof (erfc_reflection (- x) ltac:(lra)) as E. rewrite Ropp_involutive in E. lra.
Qed.

(** ** Range and sign *)

Definition row_in_range (row : Q * list Q) : bool :=
  match snd row with
  | [] => false
  | a :: cs => negb (Qle_bool a (pabs cs)) && negb (Qle_bool 1 (a + pabs cs))
  end.
Lemma all_rows_in_range : forallb row_in_range (skipn 7 table_Q) = true.
Proof. vm_compute. reflexivity. Qed.

Lemma helper_range : forall z, 7 <= z < 100 -> 0 < math.erfcx_helper z < 1.
Proof.
  intros z Hz. set (k := Int_part z). destruct (base_Int_part z) as [A Bz]. fold k in A, Bz.
  assert (K7 : (7 <= k)%Z). { assert (6 < k)%Z; [apply lt_IZR; lra | lia]. }
  assert (K99 : (k <= 99)%Z). { assert (k < 100)%Z; [apply lt_IZR; lra | lia]. }
  destruct (nth_error table_Q (Z.to_nat k)) as [[c cs] |] eqn:En.
  2: { apply nth_error_None in En. rewrite table_length in En. lia. }
  assert (En' : nth_error (skipn 7 table_Q) (Z.to_nat (k - 7)) = Some (c, cs)).
  { rewrite <- En. replace (Z.to_nat k) with (7 + Z.to_nat (k - 7))%nat by lia. generalize (Z.to_nat (k - 7)). generalize table_Q.
    intros l j. destruct l as [| r0 [| r1 [| r2 [| r3 [| r4 [| r5 [| r6 l]]]]]]]; try reflexivity; destruct j; reflexivity. }
  pose proof (proj1 (forallb_forall _ _) all_rows_in_range _ (nth_error_In _ _ En')) as Hr.
  assert (Hc : Q2R c = 2 * IZR k + 1).
  { assert (E7 : (7 + Z.of_nat (Z.to_nat (k - 7)) = k)%Z) by lia.
    destruct (rows_ok (skipn 7 table_Q) 7 (2 # 10000000000000000) v7 ltac:(lia) ltac:(rewrite skipn_length, table_length; cbn; lia)
                table_centred start_ok _ c cs En' (400 / IZR k - 4)) as [Hc _].
    - rewrite E7. assert (7 <= IZR k) by (apply IZR_le; lia). split; [| lra].
      assert (400 / (IZR k + 1) <= 400 / IZR k); [| lra].
      unfold Rdiv. apply Rmult_le_compat_l; [lra |]. apply Rinv_le_contravar; lra.
    - rewrite E7 in Hc. exact Hc. }
  rewrite (helper_row z (Z.to_nat k) c cs En).
  2: lia. 2: { rewrite INR_IZR_INZ, Z2Nat.id by lia. lra. }
  unfold row_in_range in Hr. cbn [snd] in Hr. destruct cs as [| a cs]; [discriminate |].
  apply andb_prop in Hr. destruct Hr as [R1 R2].
  assert (P1 : Q2R (pabs cs) < Q2R a).
  { apply Qlt_Rlt. apply Qnot_le_lt. intro H. apply Qle_bool_iff in H. rewrite H in R1. discriminate. }
  assert (P2 : Q2R a + Q2R (pabs cs) < 1).
  { rewrite <- Q2R_plus, <- Q2R_1. apply Qlt_Rlt. apply Qnot_le_lt. intro H. apply Qle_bool_iff in H. rewrite H in R2. discriminate. }
  rewrite pe_cons. set (t := 2 * z - Q2R c). assert (Ht : Rabs t <= 1) by (apply Rabs_le; unfold t; lra).
  pose proof (pe_bound cs t Ht) as PB.
  assert (Q : Rabs (t * pe cs t) <= Q2R (pabs cs)).
  { rewrite Rabs_mult. pose proof (Rabs_pos t). pose proof (Rabs_pos (pe cs t)). nra. }
  apply Rabs_le_between in Q. lra.
Qed.

Lemma erfcx_range : forall x, 0 < x -> 0 < math.erfcx x < 1.
Proof.
  intros x Hx. destruct (Rlt_or_le x 50) as [H | H].
  - rewrite erfcx_small by lra. apply helper_range.
    assert (400 / (4 + x) * (4 + x) = 400) by (field; lra). split; nra.
  - destruct (erfcx_large x H) as [-> | ->].
    + pose proof (S1_range x ltac:(lra)) as [A B]. split; [exact A |].
      assert (1 / x < 1) by (apply Rmult_lt_reg_r with x; [lra |]; unfold Rdiv; rewrite Rmult_assoc, Rinv_l by lra; lra). lra.
    + unfold S2. split; [apply Rdiv_lt_0_compat; [unfold a0; lra | lra] |].
      apply Rmult_lt_reg_r with x; [lra |]. unfold Rdiv. rewrite Rmult_assoc, Rinv_l by lra. unfold a0. lra.
Qed.

Lemma exp_sq_gt1 : forall x, x <> 0 -> 1 < exp (x ^ 2).
Proof. intros x Hx. rewrite <- exp_0. apply exp_increasing. assert (0 < x * x) by nra. simpl. nra. Qed.

Lemma erf_positive : forall x, 0 < x -> 0 < math.erf x < 1.
Proof.
  intros x Hx. rewrite erf_R, erfc_R. pose proof (erfcx_range x Hx) as [A B]. pose proof (exp_sq_gt1 x ltac:(lra)) as E.
  assert (0 < math.erfcx x / exp (x ^ 2)) by (apply Rdiv_lt_0_compat; lra).
  assert (math.erfcx x / exp (x ^ 2) < 1).
  { apply Rmult_lt_reg_r with (exp (x ^ 2)); [lra |]. unfold Rdiv. rewrite Rmult_assoc, Rinv_l by lra. lra. }
  lra.
Qed.
Lemma erf_zero : math.erf 0 = 0.
Proof.
  rewrite erf_R, erfc_R, erfcx_small by lra. replace (0 ^ 2) with 0 by ring. rewrite exp_0.
  replace (400 / (4 + 0)) with 100 by field. rewrite helper_100. lra.
Qed.
Lemma erf_negative : forall x, -267 / 10 <= x < 0 -> -1 <= math.erf x < 0.
Proof.
  intros x Hx. destruct (Rlt_or_le x (-61 / 10)) as [H | H].
  - rewrite erf_R, erfc_R, erfcx_mid by lra. pose proof (exp_sq_pos x).
    replace (2 * exp (x ^ 2) / exp (x ^ 2)) with 2 by (field; lra). lra.
  - pose proof (erf_odd (- x) ltac:(lra)) as E. rewrite Ropp_involutive in E.
    pose proof (erf_positive (- x) ltac:(lra)). lra.
Qed.

(** ** Accuracy *)

Lemma erfcx_accuracy : forall x e, 0 <= x -> is_erfc x e -> Rabs (math.erfcx x - exp (x ^ 2) * e) <= 1 / 10 ^ 12.
Proof. intros x e Hx He. rewrite (erfc_unique x e He). exact (erfcx_accurate x Hx). Qed.

Lemma erfc_accuracy_pos : forall x e, 0 <= x -> is_erfc x e -> Rabs (math.erfc x - e) <= 1 / 10 ^ 12 * exp (- x ^ 2).
Proof.
  intros x e Hx He. pose proof (erfcx_accuracy x e Hx He) as H. rewrite erfc_R.
  pose proof (exp_sq_pos x).
  replace (math.erfcx x / exp (x ^ 2) - e) with ((math.erfcx x - exp (x ^ 2) * e) * / exp (x ^ 2)) by (field; lra).
  rewrite Rabs_mult, <- exp_Ropp, (Rabs_pos_eq (exp _)) by (left; apply exp_pos).
  apply Rmult_le_compat_r; [left; apply exp_pos | exact H].
Qed.

Lemma Y_pos : forall x, 0 <= x -> 0 <= Y x <= 1 + 1 / 10 ^ 12.
Proof.
  intros x Hx. split.
  - unfold Y. apply Rmult_le_pos; [left; apply exp_pos |].
    assert (0 < sqrt PI) by (apply sqrt_lt_R0, PI_RGT_0).
    assert (Hg : G x <= sqrt PI / 2).
    { pose proof (G2K x) as E. pose proof (K_bound x) as [K0 _]. pose proof (G_nonneg x Hx).
      pose proof (sqrt_def PI (Rlt_le _ _ PI_RGT_0)). apply Rnot_lt_le. intro. nra. }
    unfold C2. replace (1 - 2 / sqrt PI * G x) with (2 / sqrt PI * (sqrt PI / 2 - G x)) by (field; lra).
    apply Rmult_le_pos; [left; apply Rdiv_lt_0_compat; lra | lra].
  - pose proof (erfcx_accurate x Hx) as H. apply Rabs_le_between in H.
    destruct (Req_dec x 0) as [-> | N].
    + rewrite Y_0. lra.
    + pose proof (erfcx_range x ltac:(lra)). lra.
Qed.

Lemma exp_pow : forall n x, exp (INR n * x) = exp x ^ n.
Proof.
  induction n as [| n IH]; intro x; [simpl; rewrite Rmult_0_l; apply exp_0 |].
  rewrite S_INR, Rmult_plus_distr_r, exp_plus, IH, Rmult_1_l. simpl. ring.
Qed.

Lemma exp_m37 : exp (- (61 / 10) ^ 2) <= 1 / (2 * 10 ^ 12).
Proof.
  assert (E1 : 9 / 4 <= exp 1).
  { replace 1 with (1 / 2 + 1 / 2) by lra. rewrite exp_plus. pose proof (exp_ineq1_le (1 / 2)). nra. }
  assert (E36 : 2 * 10 ^ 12 <= exp ((61 / 10) ^ 2)).
  { apply Rle_trans with (exp 1 ^ 37).
    - apply Rle_trans with ((9 / 4) ^ 37); [| apply pow_incr; lra].
      apply Rmult_le_reg_r with (4 ^ 37); [apply pow_lt; lra |].
      rewrite Rpow_div_distr || (unfold Rdiv; rewrite Rpow_mult_distr, pow_inv).
      field_simplify; lra.
    - rewrite <- exp_pow. left. apply exp_increasing. replace (INR 37) with 37 by (rewrite INR_IZR_INZ; reflexivity). lra. }
  rewrite exp_Ropp. unfold Rdiv. rewrite Rmult_1_l. apply Rinv_le_contravar; [lra | exact E36].
Qed.

Lemma erf_accuracy : forall x, -267 / 10 <= x -> Rabs (math.erf x - Erf x) <= 1 / 10 ^ 12.
Proof.
  assert (Pos : forall x, 0 <= x -> Rabs (math.erf x - Erf x) <= 1 / 10 ^ 12).
  { intros x Hx. pose proof (erfc_accuracy_pos x _ Hx (erfc_value x)) as H.
    rewrite erf_R, Erf_C2. replace (1 - math.erfc x - C2 * G x) with (- (math.erfc x - (1 - C2 * G x))) by ring.
    rewrite Rabs_Ropp. eapply Rle_trans; [exact H |].
    assert (exp (- x ^ 2) <= 1).
    { rewrite <- exp_0. destruct (Req_dec (- x ^ 2) 0) as [-> | N]; [lra |]. left. apply exp_increasing. simpl. nra. }
    pose proof (exp_pos (- x ^ 2)). lra. }
  intros x Hx. destruct (Rle_or_lt 0 x) as [H0 | H0]; [apply Pos; exact H0 |].
  assert (Odd : Erf x = - Erf (- x)) by (rewrite !Erf_C2, G_odd; ring).
  destruct (Rlt_or_le x (-61 / 10)) as [H | H].
  - rewrite erf_R, erfc_R, erfcx_mid by lra. pose proof (exp_sq_pos x).
    replace (2 * exp (x ^ 2) / exp (x ^ 2)) with 2 by (field; lra).
    rewrite Odd, Erf_C2. pose proof (Y_pos (- x) ltac:(lra)) as [Y1 Y2]. unfold Y in Y1, Y2.
    set (d := 1 - C2 * G (- x)) in *. replace (1 - 2 - - (C2 * G (- x))) with (- d) by (unfold d; ring).
    rewrite Rabs_Ropp. pose proof (exp_pos ((- x) ^ 2)) as EP.
    assert (D0 : 0 <= d) by nra. rewrite Rabs_pos_eq by exact D0.
    assert (D1 : d <= 2 * exp (- (61 / 10) ^ 2)).
    { apply Rle_trans with (2 * exp (- (- x) ^ 2)).
      - assert (I : exp (- (- x) ^ 2) * exp ((- x) ^ 2) = 1) by (rewrite <- exp_plus; replace (- (- x) ^ 2 + (- x) ^ 2) with 0 by ring; apply exp_0).
        pose proof (exp_pos (- (- x) ^ 2)).
        replace d with ((exp ((- x) ^ 2) * d) * exp (- (- x) ^ 2)) by (rewrite <- (Rmult_1_r d) at 2; rewrite <- I; ring).
        nra.
      - apply Rmult_le_compat_l; [lra |]. left. apply exp_increasing. simpl. nra. }
    pose proof exp_m37. lra.
  - pose proof (erf_odd (- x) ltac:(lra)) as E. rewrite Ropp_involutive in E. rewrite E, Odd.
    replace (- math.erf (- x) - - Erf (- x)) with (- (math.erf (- x) - Erf (- x))) by ring. rewrite Rabs_Ropp. apply Pos. lra.
Qed.

(** ** The far negative axis *)

Lemma exp_7129 : 2 ^ 1024 <= exp ((267 / 10) ^ 2).
Proof.
  assert (B : 2 <= exp (712 / 1024)).
  { assert (S : (1 + 712 / 1024 / 128) ^ 128 <= exp (712 / 1024)).
    { replace (exp (712 / 1024)) with (exp (712 / 1024 / 128) ^ 128).
      - apply pow_incr. split; [lra | apply exp_ineq1_le].
      - rewrite <- exp_pow. f_equal. replace (INR 128) with 128 by (rewrite INR_IZR_INZ; reflexivity). lra. }
    eapply Rle_trans; [| exact S].
    replace (1 + 712 / 1024 / 128) with (Q2R (131784 # 131072)) by (rewrite Q2R_frac; field).
    assert (P : forall n q, Q2R q ^ n = Q2R (Nat.iter n (fun r => Qred (q * r)) 1%Q)).
    { induction n as [| n IH]; intro q; [simpl; rewrite Q2R_1; reflexivity |]. change (Q2R q * Q2R q ^ n = Q2R (Qred (q * Nat.iter n (fun r => Qred (q * r)) 1%Q))). rewrite IH, Q2R_red, Q2R_mult. reflexivity. }
    rewrite P. replace 2 with (Q2R (2 # 1)) by (rewrite Q2R_frac; field). apply Qle_Rle. vm_compute. discriminate. }
  apply Rle_trans with (exp (712 / 1024) ^ 1024).
  - apply pow_incr. lra.
  - rewrite <- exp_pow. left. apply exp_increasing.
    replace (INR 1024) with 1024 by (rewrite INR_IZR_INZ; reflexivity). lra.
Qed.

Lemma f64_max_lt : 0 < math.f64_max (T := R) < 2 ^ 1024.
Proof.
  change (0 < IZR (2 ^ 1024 - 2 ^ 971) < 2 ^ 1024). rewrite pow_IZR. split; apply IZR_lt; reflexivity.
Qed.

Lemma erf_far : forall x, x < -267 / 10 -> math.erf x = 1 - math.f64_max / exp (x ^ 2).
Proof. intros x Hx. rewrite erf_R, erfc_R, erfcx_far by exact Hx. reflexivity. Qed.

Lemma erf_far_positive : forall x, x < -267 / 10 -> 0 < math.erf x < 1.
Proof.
  intros x Hx. rewrite erf_far by exact Hx. pose proof f64_max_lt as [F0 F1]. pose proof exp_7129 as E.
  assert (E2 : exp ((267 / 10) ^ 2) < exp (x ^ 2)) by (apply exp_increasing; simpl; nra).
  pose proof (exp_sq_pos x).
  assert (0 < math.f64_max / exp (x ^ 2)) by (apply Rdiv_lt_0_compat; lra).
  assert (math.f64_max / exp (x ^ 2) < 1).
  { apply Rmult_lt_reg_r with (exp (x ^ 2)); [lra |]. unfold Rdiv. rewrite Rmult_assoc, Rinv_l by lra. lra. }
  lra.
Qed.

Lemma erf_far_limit : is_lim math.erf m_infty 1.
Proof.
  apply (is_lim_ext_loc (fun x => 1 - math.f64_max * exp (- x ^ 2))).
  - exists (-267 / 10). intros x Hx. rewrite erf_far by exact Hx. unfold Rdiv. rewrite <- exp_Ropp. reflexivity.
  - replace (Finite 1) with (Rbar_minus (Finite 1) (Finite (math.f64_max * 0))) by (simpl; f_equal; ring).
    apply (is_lim_minus _ _ _ (Finite 1) (Finite (math.f64_max * 0))); [apply is_lim_const | | reflexivity].
    apply (is_lim_scal_l _ math.f64_max m_infty (Finite 0)).
    apply (is_lim_ext (fun x => exp (- (- x) ^ 2))).
    + intro x. f_equal. ring.
    + apply (is_lim_comp (fun x => exp (- x ^ 2)) (fun x => - x) m_infty (Finite 0) p_infty).
      * apply exp_sq_lim.
      * apply (is_lim_opp (fun x => x) m_infty m_infty). apply is_lim_id.
      * exists 0. intros x _. discriminate.
Qed.
