(** Truncated powers and the Irwin-Hall functions. *)
From Coq Require Import Reals ZArith Lra Lia Factorial.
From Coquelicot Require Import Coquelicot.
Open Scope R_scope.

Definition pp (e : nat) (y : R) : R := if Rlt_dec 0 y then y ^ e else 0.

Lemma pp_pos : forall e y, 0 < y -> pp e y = y ^ e.
Proof. intros e y H. unfold pp. destruct (Rlt_dec 0 y); [reflexivity | contradiction]. Qed.

Lemma pp_neg : forall e y, y <= 0 -> pp e y = 0.
Proof. intros e y H. unfold pp. destruct (Rlt_dec 0 y); [lra | reflexivity]. Qed.

Lemma pp_derive : forall e y, (1 <= e)%nat \/ y <> 0 -> is_derive (pp (S e)) y (INR (S e) * pp e y).
Proof.
  intros e y H. destruct (Rtotal_order y 0) as [L|[E|G]].
  - rewrite pp_neg by lra. replace (INR (S e) * 0) with 0 by ring.
    apply is_derive_ext_loc with (f := fun _ => 0).
    + exists (mkposreal (- y) ltac:(lra)). intros t Ht.
      assert (Rabs (t - y) < - y) by exact Ht. apply Rabs_def2 in H0. rewrite pp_neg; [reflexivity | lra].
    + apply is_derive_Reals. apply derivable_pt_lim_const.
  - destruct H as [H|H]; [|contradiction]. subst y.
    rewrite pp_neg by lra. replace (INR (S e) * 0) with 0 by ring.
    apply is_derive_Reals. intros eps Heps.
    exists (mkposreal (Rmin 1 eps) ltac:(apply Rmin_pos; lra)). intros h Hh Hl. cbn in Hl.
    rewrite Rplus_0_l, (pp_neg _ 0), !Rminus_0_r by lra.
    assert (Rabs h < 1) by (eapply Rlt_le_trans; [exact Hl | apply Rmin_l]).
    assert (Rabs h < eps) by (eapply Rlt_le_trans; [exact Hl | apply Rmin_r]).
    unfold pp. destruct (Rlt_dec 0 h) as [P|P].
    + replace (h ^ S e / h) with (h ^ e) by (simpl; field; exact Hh).
      destruct e as [|e]; [lia|]. rewrite <- tech_pow_Rmult.
      rewrite Rabs_mult. rewrite <- RPow_abs.
      assert (Rabs h ^ e <= 1).
      { replace 1 with (1 ^ e) by apply pow1. apply pow_incr. split; [apply Rabs_pos | lra]. }
      assert (0 <= Rabs h ^ e) by (apply pow_le, Rabs_pos). pose proof (Rabs_pos h).
      apply Rle_lt_trans with (Rabs h * 1); [apply Rmult_le_compat_l; lra | lra].
    + replace (0 / h) with 0 by (field; exact Hh). rewrite Rabs_R0. exact Heps.
  - rewrite pp_pos by lra.
    apply is_derive_ext_loc with (f := fun t => t ^ S e).
    + exists (mkposreal y G). intros t Ht.
      assert (Rabs (t - y) < y) by exact Ht. apply Rabs_def2 in H0. rewrite pp_pos; [reflexivity | lra].
    + apply is_derive_Reals. apply derivable_pt_lim_pow.
Qed.

Lemma pp_int0 : forall e b, is_RInt (pp e) 0 b (pp (S e) b / INR (S e)).
Proof.
  intros e b. assert (Hn : INR (S e) <> 0) by (apply not_0_INR; lia).
  destruct (Rlt_dec 0 b) as [P|P].
  - rewrite pp_pos by lra.
    apply is_RInt_ext with (f := fun x => x ^ e).
    + intros x Hx. rewrite Rmin_left, Rmax_right in Hx by lra. rewrite pp_pos; [reflexivity | lra].
    + replace (b ^ S e / INR (S e)) with (minus (b ^ S e / INR (S e)) (0 ^ S e / INR (S e))).
      2:{ unfold minus, plus, opp. simpl pow. simpl. field. simpl in Hn. exact Hn. }
      apply (is_RInt_derive (V := R_CompleteNormedModule) (fun x => x ^ S e / INR (S e)) (fun x => x ^ e)).
      * intros x _. evar_last. apply (is_derive_scal_l (K := R_AbsRing) (V := R_NormedModule) (fun y => y ^ S e)). apply is_derive_Reals. apply derivable_pt_lim_pow.
        unfold scal; simpl; unfold mult; simpl. field. simpl in Hn. exact Hn.
      * intros x _. apply continuity_pt_filterlim. apply derivable_continuous_pt.
        apply derivable_pt_pow.
  - rewrite pp_neg by lra. replace (0 / INR (S e)) with (scal (b - 0) 0).
    2:{ unfold scal; simpl; unfold mult; simpl. unfold Rdiv. ring. }
    apply is_RInt_ext with (f := fun x => 0).
    + intros x Hx. rewrite Rmin_right, Rmax_left in Hx by lra. rewrite pp_neg; [reflexivity | lra].
    + apply (is_RInt_const (V := R_NormedModule)).
Qed.

Lemma pp_int : forall e a b, is_RInt (pp e) a b (pp (S e) b / INR (S e) - pp (S e) a / INR (S e)).
Proof.
  intros e a b.
  replace (pp (S e) b / INR (S e) - pp (S e) a / INR (S e))
    with (plus (opp (pp (S e) a / INR (S e))) (pp (S e) b / INR (S e))) by (unfold plus, opp; simpl; ring).
  apply (is_RInt_Chasles (V := R_NormedModule)) with 0.
  - apply (is_RInt_swap (V := R_NormedModule)). apply pp_int0.
  - apply pp_int0.
Qed.

(** [ih e n] is the n-fold backward difference of the truncated power. *)
Fixpoint ih (e n : nat) (x : R) : R :=
  match n with
  | O => pp e x / INR (fact e)
  | S n' => ih e n' x - ih e n' (x - 1)
  end.

Lemma fact_neq : forall e, INR (fact e) <> 0.
Proof. intro e. apply not_0_INR. apply fact_neq_0. Qed.

Lemma ih_neg : forall e n x, x <= 0 -> ih e n x = 0.
Proof.
  induction n as [|n IH]; intros x H; cbn [ih].
  - rewrite pp_neg by exact H. unfold Rdiv. ring.
  - rewrite !IH by lra. ring.
Qed.

Lemma ih_derive : forall e n x, (1 <= e)%nat \/ (forall s : nat, (s <= n)%nat -> x <> INR s) ->
  is_derive (ih (S e) n) x (ih e n x).
Proof.
  induction n as [|n IH]; intros x H; cbn [ih].
  - evar_last.
    + apply (is_derive_scal_l (K := R_AbsRing) (V := R_NormedModule) (pp (S e)) x (INR (S e) * pp e x) (/ INR (fact (S e)))). apply pp_derive.
      destruct H as [H|H]; [left; exact H | right; intro E; apply (H 0%nat); [lia | exact E]].
    + unfold scal; simpl; unfold mult; simpl. pose proof (fact_neq e) as F.
      change (fact e + e * fact e)%nat with (S e * fact e)%nat. rewrite mult_INR.
      change (match e with | 0%nat => 1 | S _ => INR e + 1 end) with (INR (S e)).
      field. split; [exact F | apply not_0_INR; lia].
  - apply (is_derive_minus (V := R_NormedModule)).
    + apply IH. destruct H as [H|H]; [left; exact H | right; intros s Hs; apply H; lia].
    + evar_last.
      * apply (is_derive_comp (V := R_NormedModule) (ih (S e) n) (fun y => y - 1)).
        -- apply IH. destruct H as [H|H]; [left; exact H|].
           right. intros s Hs E. apply (H (S s)); [lia|]. rewrite S_INR. lra.
        -- auto_derive; [exact I | reflexivity].
      * unfold scal; simpl; unfold mult; simpl. ring.
Qed.

Lemma is_RInt_shift : forall (f : R -> R) c a b v, is_RInt f (a + c) (b + c) v ->
  is_RInt (fun x => f (x + c)) a b v.
Proof.
  intros f c a b v H.
  apply is_RInt_ext with (f := fun x => scal 1 (f (1 * x + c))).
  - intros x _. unfold scal; simpl; unfold mult; simpl. rewrite Rmult_1_l. f_equal. ring.
  - apply (is_RInt_comp_lin (V := R_NormedModule)). rewrite !Rmult_1_l. exact H.
Qed.

Lemma ih_int : forall e n a b, is_RInt (ih e n) a b (ih (S e) n b - ih (S e) n a).
Proof.
  induction n as [|n IH]; intros a b; cbn [ih].
  - replace (pp (S e) b / INR (fact (S e)) - pp (S e) a / INR (fact (S e)))
      with (scal (/ INR (fact e)) (pp (S e) b / INR (S e) - pp (S e) a / INR (S e))).
    + apply is_RInt_ext with (f := fun x => scal (/ INR (fact e)) (pp e x)).
      * intros x _. unfold scal; simpl; unfold mult; simpl. unfold Rdiv. ring.
      * apply (is_RInt_scal (V := R_NormedModule)). apply pp_int.
    + unfold scal; simpl; unfold mult; simpl. pose proof (fact_neq e) as F.
      change (fact e + e * fact e)%nat with (S e * fact e)%nat. rewrite mult_INR.
      change (match e with | 0%nat => 1 | S _ => INR e + 1 end) with (INR (S e)).
      field. split; [exact F | apply not_0_INR; lia].
  - replace (ih (S e) n b - ih (S e) n (b - 1) - (ih (S e) n a - ih (S e) n (a - 1)))
      with (minus (ih (S e) n b - ih (S e) n a) (ih (S e) n (b - 1) - ih (S e) n (a - 1)))
      by (unfold minus, plus, opp; simpl; ring).
    apply (is_RInt_minus (V := R_NormedModule)); [apply IH|].
    apply (is_RInt_shift (ih e n) (-1)). apply IH.
Qed.

(** The function for [n] uniform summands integrates to that for [n + 1]. *)
Lemma ih_step : forall e n x, is_RInt (ih e n) (x - 1) x (ih (S e) (S n) x).
Proof. intros e n x. exact (ih_int e n (x - 1) x). Qed.

Lemma ih_1_2 : forall x, ih 1 2 (2 - x) = ih 1 2 x.
Proof.
  intro x. cbn [ih fact Nat.mul Nat.add]. unfold pp.
  repeat match goal with |- context [Rlt_dec 0 ?y] => destruct (Rlt_dec 0 y) end;
    simpl; try lra.
Qed.

(** The density of the sum of [n >= 2] uniform summands is symmetric. *)
Lemma ih_sym : forall n x, ih (S n) (S (S n)) (INR (S (S n)) - x) = ih (S n) (S (S n)) x.
Proof.
  induction n as [|n IH]; intro x.
  - replace (INR 2) with 2 by (simpl; ring). apply ih_1_2.
  - set (N := S (S n)) in *. assert (EN : INR (S N) = INR N + 1) by apply S_INR.
    pose proof (ih_step (S n) N (INR (S N) - x)) as A.
    pose proof (ih_step (S n) N x) as B.
    apply (is_RInt_unique (V := R_CompleteNormedModule)) in A.
    apply (is_RInt_unique (V := R_CompleteNormedModule)) in B.
    fold N in A, B. rewrite <- A, <- B.
    apply (is_RInt_unique (V := R_CompleteNormedModule)).
    replace (RInt (ih (S n) N) (x - 1) x) with (opp (RInt (ih (S n) N) x (x - 1))).
    2:{ apply opp_RInt_swap. eexists. apply ih_int. }
    apply is_RInt_ext with (f := fun t => opp (scal (-1) (ih (S n) N (-1 * t + INR N)))).
    + intros t _. replace (-1 * t + INR N) with (INR N - t) by ring. rewrite IH.
      unfold scal, opp; simpl; unfold mult; simpl. ring.
    + apply (is_RInt_opp (V := R_NormedModule)). apply (is_RInt_comp_lin (V := R_NormedModule)).
      rewrite EN.
      replace (-1 * (INR N + 1 - x - 1) + INR N) with x by ring.
      replace (-1 * (INR N + 1 - x) + INR N) with (x - 1) by ring.
      apply (RInt_correct (V := R_CompleteNormedModule)). eexists. apply ih_int.
Qed.

(** The distribution function of [n >= 1] uniform summands is one beyond [n]. *)
Lemma ih_one : forall n x, INR (S n) <= x -> ih (S n) (S n) x = 1.
Proof.
  induction n as [|n IH]; intros x H.
  - simpl in H. cbn [ih fact Nat.mul Nat.add]. unfold pp.
    destruct (Rlt_dec 0 x); destruct (Rlt_dec 0 (x - 1)); simpl; lra.
  - pose proof (ih_step (S n) (S n) x) as A.
    assert (B : is_RInt (ih (S n) (S n)) (x - 1) x (scal (x - (x - 1)) 1)).
    { apply is_RInt_ext with (f := fun _ => 1).
      - intros t Ht. rewrite Rmin_left, Rmax_right in Ht by lra. rewrite IH; [reflexivity|].
        rewrite S_INR in H. lra.
      - apply (is_RInt_const (V := R_NormedModule)). }
    apply (is_RInt_unique (V := R_CompleteNormedModule)) in A.
    apply (is_RInt_unique (V := R_CompleteNormedModule)) in B.
    rewrite <- A, B. unfold scal; simpl; unfold mult; simpl. ring.
Qed.

(** Half of the mass lies below the middle. *)
Lemma ih_half : forall n, ih (S (S n)) (S (S n)) (INR (S (S n)) / 2) = 1 / 2.
Proof.
  intro n. set (N := S (S n)).
  pose proof (ih_int (S n) N 0 (INR N / 2)) as A.
  pose proof (ih_int (S n) N (INR N / 2) (INR N)) as B.
  assert (C : is_RInt (ih (S n) N) 0 (INR N / 2) (ih (S (S n)) N (INR N) - ih (S (S n)) N (INR N / 2))).
  { apply is_RInt_ext with (f := fun t => opp (scal (-1) (ih (S n) N (-1 * t + INR N)))).
    - intros t _. replace (-1 * t + INR N) with (INR N - t) by ring. unfold N. rewrite ih_sym.
      unfold scal, opp; simpl; unfold mult; simpl. ring.
    - replace (ih (S (S n)) N (INR N) - ih (S (S n)) N (INR N / 2))
        with (opp (ih (S (S n)) N (INR N / 2) - ih (S (S n)) N (INR N))) by (unfold opp; simpl; ring).
      apply (is_RInt_opp (V := R_NormedModule)). apply (is_RInt_comp_lin (V := R_NormedModule)).
      replace (-1 * 0 + INR N) with (INR N) by ring. replace (-1 * (INR N / 2) + INR N) with (INR N / 2) by field.
      apply ih_int. }
  apply (is_RInt_unique (V := R_CompleteNormedModule)) in A.
  apply (is_RInt_unique (V := R_CompleteNormedModule)) in C.
  rewrite A in C. fold N in C. rewrite (ih_neg _ _ 0) in C by lra.
  assert (O : ih (S (S n)) N (INR N) = 1) by (apply ih_one; unfold N; lra).
  fold N in O. rewrite O in C. fold N. lra.
Qed.
