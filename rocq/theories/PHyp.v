(** Hyperbolic functions: derivatives, signs and monotonicity. *)
From Coq Require Import Reals Lra.
From Coquelicot Require Import Coquelicot.
Open Scope R_scope.

Lemma is_derive_sinh : forall x, is_derive sinh x (cosh x).
Proof. intro x. apply is_derive_Reals, derivable_pt_lim_sinh. Qed.
Lemma is_derive_cosh : forall x, is_derive cosh x (sinh x).
Proof. intro x. apply is_derive_Reals, derivable_pt_lim_cosh. Qed.
Lemma ex_derive_sinh : forall x, ex_derive sinh x.
Proof. intro x; eexists; apply is_derive_sinh. Qed.
Lemma ex_derive_cosh : forall x, ex_derive cosh x.
Proof. intro x; eexists; apply is_derive_cosh. Qed.
Lemma Derive_sinh : forall x, Derive sinh x = cosh x.
Proof. intro; apply is_derive_unique, is_derive_sinh. Qed.
Lemma Derive_cosh : forall x, Derive cosh x = sinh x.
Proof. intro; apply is_derive_unique, is_derive_cosh. Qed.

Lemma cosh_pos : forall x, 0 < cosh x.
Proof. intro x. unfold cosh. pose proof (exp_pos x). pose proof (exp_pos (- x)). lra. Qed.

Lemma cosh_ge_1 : forall x, 1 <= cosh x.
Proof.
  intro x. unfold cosh. rewrite exp_Ropp. pose proof (exp_pos x) as H.
  assert (0 <= (exp x - 1) ^ 2 / exp x).
  { apply Rmult_le_pos; [apply pow2_ge_0 | left; apply Rinv_0_lt_compat; lra]. }
  replace ((exp x - 1) ^ 2 / exp x) with (exp x + / exp x - 2) in H0 by (field; lra). lra.
Qed.

Lemma sinh_pos : forall x, 0 < x -> 0 < sinh x.
Proof.
  intros x Hx. unfold sinh. assert (exp (- x) < exp x) by (apply exp_increasing; lra). lra.
Qed.
Lemma sinh_opp : forall x, sinh (- x) = - sinh x.
Proof. intro; unfold sinh; rewrite Ropp_involutive; lra. Qed.
Lemma cosh_opp : forall x, cosh (- x) = cosh x.
Proof. intro; unfold cosh; rewrite Ropp_involutive; lra. Qed.
Lemma sinh_neg : forall x, x < 0 -> sinh x < 0.
Proof. intros x Hx. assert (0 < sinh (- x)) by (apply sinh_pos; lra). rewrite sinh_opp in H; lra. Qed.
Lemma sinh_0 : sinh 0 = 0.
Proof. unfold sinh. rewrite Ropp_0. lra. Qed.
Lemma cosh_0 : cosh 0 = 1.
Proof. unfold cosh. rewrite Ropp_0, exp_0. lra. Qed.
Lemma sinh_neq_0 : forall x, x <> 0 -> sinh x <> 0.
Proof.
  intros x Hx. destruct (Rtotal_order x 0) as [H|[H|H]]; [|contradiction|].
  - apply Rlt_not_eq, sinh_neg, H.
  - apply Rgt_not_eq, sinh_pos, H.
Qed.
Lemma sinh_div_pos : forall x, x <> 0 -> 0 < sinh x / x.
Proof.
  intros x Hx. destruct (Rtotal_order x 0) as [H|[H|H]]; [|contradiction|].
  - replace (sinh x / x) with ((- sinh x) / (- x)) by (field; lra).
    apply Rdiv_lt_0_compat; [pose proof (sinh_neg x H); lra | lra].
  - apply Rdiv_lt_0_compat; [apply sinh_pos; lra | lra].
Qed.
Lemma cosh2 : forall x, cosh x ^ 2 = 1 + sinh x ^ 2.
Proof.
  intro x. unfold cosh, sinh. rewrite exp_Ropp. pose proof (exp_pos x). field. lra.
Qed.
Lemma tanh_neq_0 : forall x, x <> 0 -> tanh x <> 0.
Proof.
  intros x Hx. unfold tanh. apply Rmult_integral_contrapositive_currified.
  - apply sinh_neq_0, Hx.
  - apply Rinv_neq_0_compat, Rgt_not_eq, cosh_pos.
Qed.
Lemma x_div_tanh_pos : forall x, x <> 0 -> 0 < x / tanh x.
Proof.
  intros x Hx. replace (x / tanh x) with (cosh x * / (sinh x / x)).
  - apply Rmult_lt_0_compat; [apply cosh_pos | apply Rinv_0_lt_compat, sinh_div_pos, Hx].
  - unfold tanh. field. repeat split; [apply Rgt_not_eq, cosh_pos | apply sinh_neq_0, Hx | exact Hx].
Qed.

(** A function with a positive derivative on (a, b) increases strictly on [a, b]. *)
Lemma increasing_of_derive : forall (f df : R -> R) a b, a < b ->
  (forall x, a <= x <= b -> is_derive f x (df x)) ->
  (forall x, a < x < b -> 0 < df x) -> f a < f b.
Proof.
  intros f df a b Hab D P.
  destruct (MVT_cor2 f df a b Hab) as (c & Hc & Hc').
  - intros c Hc. apply is_derive_Reals, D, Hc.
  - assert (0 < df c * (b - a)) by (apply Rmult_lt_0_compat; [apply P, Hc' | lra]). lra.
Qed.

Definition xch (x : R) : R := x * cosh x - sinh x.

Lemma xch_derive : forall x, is_derive xch x (x * sinh x).
Proof.
  intro x. unfold xch. auto_derive; [exact I | ring].
Qed.

Lemma xch_increasing : forall a b, 0 <= a -> a < b -> xch a < xch b.
Proof.
  intros a b Ha Hab. apply (increasing_of_derive xch (fun x => x * sinh x)); auto.
  - intros; apply xch_derive.
  - intros x Hx. apply Rmult_lt_0_compat; [lra | apply sinh_pos; lra].
Qed.
Lemma xch_opp : forall x, xch (- x) = - xch x.
Proof. intro; unfold xch; rewrite sinh_opp, cosh_opp; ring. Qed.
Lemma xch_0 : xch 0 = 0.
Proof. unfold xch. rewrite sinh_0. ring. Qed.
