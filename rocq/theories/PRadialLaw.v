(** The radial law: polynomials, then intervals. *)
From Coq Require Import Reals ZArith List Lra Lia.
From Coquelicot Require Import Coquelicot.
From Verif Require Import Scalar MMonteCarlo SpecMonteCarlo PMonteCarlo SpecSampling PSphere PSampling PSamplingWalk PIrwinHall PTreloar PPolyLaw.
Import ListNotations.
Open Scope R_scope.

Definition radial (n : nat) (y : R) : R := INR n ^ 2 / 2 * y * ih (n - 2) n (arg n y).

Lemma radial_P : forall n y, y <> 0 -> radial n y = 4 * PI * y ^ 2 * P n y.
Proof. intros n y Hy. unfold radial, P. pose proof PI_RGT_0. field. split; lra. Qed.

Lemma radial_nonneg : forall n y, (2 <= n)%nat -> 0 < y < 1 -> 0 <= radial n y.
Proof.
  intros n y Hn Hy. rewrite radial_P by lra. pose proof (P_pos n y Hn Hy). pose proof PI_RGT_0.
  apply Rmult_le_pos; [|lra]. apply Rmult_le_pos; [lra | apply pow2_ge_0].
Qed.

Definition square_end (n : nat) (l : list R) : R :=
  let e := end_point (fst (fjc_monte_carlo.random_configuration tape n l)) in dot e e.

Lemma fjc_pol_law : forall n q, (2 <= n)%nat -> pol q -> exists v,
  has_average (2 * n) (fun l => q (square_end n l)) v /\ is_RInt (fun y => radial n y * q ((INR n * y) ^ 2)) 0 1 v.
Proof.
  intros n q Hn Q. destruct (more_exists n q Q) as (q' & M). exists (q' 0). split.
  - rewrite <- (dot_origin origin). unfold square_end, end_point, fjc_monte_carlo.random_configuration. cbv zeta. rewrite zero3_R.
    apply (more_average n q q' origin M).
  - destruct (pol_derive q Q) as (q1 & Q1 & D1). destruct (pol_derive q1 Q1) as (q2 & Q2 & D2).
    set (g := fun x => q (x ^ 2) + 2 * x ^ 2 * q1 (x ^ 2)).
    assert (Dq : forall x, is_derive (fun x => q (x ^ 2)) x (2 * x * q1 (x ^ 2))).
    { intro x. evar_last; [apply (is_derive_comp q (fun x => x ^ 2)); [apply D1 | auto_derive; [exact I | reflexivity]]|].
      change (1 * (2 * (x * 1)) * q1 (x ^ 2) = 2 * x * q1 (x ^ 2)) || change (2 * x ^ 1 * 1 * q1 (x ^ 2) = 2 * x * q1 (x ^ 2)) || idtac.
      unfold scal; cbn; unfold mult; cbn. ring. }
    assert (Dq1 : forall x, ex_derive (fun x => q1 (x ^ 2)) x).
    { intro x. eexists. apply (is_derive_comp q1 (fun x => x ^ 2)); [apply D2 | auto_derive; [exact I | reflexivity]]. }
    assert (DG : forall x, is_derive (fun x => x * q (x ^ 2)) x (g x)).
    { intro x. evar_last; [apply (is_derive_mult (fun x => x) (fun x => q (x ^ 2))); [apply (is_derive_id (K := R_AbsRing)) | apply Dq | intros; apply Rmult_comm]|].
      change (1 * q (x ^ 2) + x * (2 * x * q1 (x ^ 2)) = g x). unfold g. ring. }
    assert (Cg : forall x, continuous g x).
    { intro x. apply (continuous_plus (V := R_NormedModule)).
      - apply (ex_derive_continuous (V := R_NormedModule)). eexists. apply Dq.
      - apply (continuous_mult (K := R_AbsRing)); [apply (ex_derive_continuous (V := R_NormedModule)); auto_derive; exact I|].
        apply (ex_derive_continuous (V := R_NormedModule)). apply Dq1. }
    pose proof (more_weight n q q' ltac:(lia) M (fun x => x * q (x ^ 2)) g ltac:(reflexivity) DG Cg) as B.
    apply (weight_radial (fun x => x * q (x ^ 2)) g DG Cg n) in B; [|exact Hn| |ring].
    + apply (is_RInt_ext (fun y => INR n / 2 * (INR n * y * q ((INR n * y) ^ 2)) * ih (n - 2) n (arg n y))); [|exact B].
      intros y _. unfold radial. match goal with |- ?x = ?y => change (@eq R x y) end. field.
    + intro x. unfold g. replace ((- x) ^ 2) with (x ^ 2) by ring. reflexivity.
Qed.

(** ** The distribution function *)
Definition cumulative (n : nat) (c : R) : R := 1 - (c * INR n * ih (n - 1) n (arg n c) + 2 * ih n n (arg n c)).

Lemma arg_continuous : forall n c, continuous (arg n) c.
Proof. intros n c. unfold arg. apply (ex_derive_continuous (V := R_NormedModule)). auto_derive. exact I. Qed.

Lemma cumulative_continuous : forall n c, (2 <= n)%nat -> continuous (cumulative n) c.
Proof.
  intros n c Hn. unfold cumulative. apply (continuous_minus (V := R_NormedModule)); [apply continuous_const|].
  apply (continuous_plus (V := R_NormedModule)).
  - apply (continuous_mult (K := R_AbsRing) (fun c => c * INR n)); [apply (ex_derive_continuous (V := R_NormedModule)); auto_derive; exact I|].
    apply (continuous_comp (arg n) (ih (n - 1) n)); [apply arg_continuous | apply PWalk.ih_continuous; lia].
  - apply (continuous_mult (K := R_AbsRing) (fun _ => 2)); [apply continuous_const|].
    apply (continuous_comp (arg n) (ih n n)); [apply arg_continuous | apply PWalk.ih_continuous; lia].
Qed.

Lemma cumulative_0 : forall n, (2 <= n)%nat -> cumulative n 0 = 0.
Proof.
  intros n Hn. destruct n as [|[|n]]; [lia|lia|]. unfold cumulative.
  replace (arg (S (S n)) 0) with (INR (S (S n)) / 2) by (unfold arg; field). rewrite ih_half. field.
Qed.

Lemma cumulative_1 : forall n, (2 <= n)%nat -> cumulative n 1 = 1.
Proof.
  intros n Hn. unfold cumulative. replace (arg n 1) with 0 by (unfold arg; field). rewrite !ih_neg by lra. ring.
Qed.

Lemma cumulative_integral : forall n c, (2 <= n)%nat -> 0 <= c <= 1 -> is_RInt (radial n) 0 c (cumulative n c).
Proof.
  intros n c Hn Hc. assert (PN : 0 < INR n) by (apply lt_0_INR; lia).
  destruct (ih_half_piece n Hn) as (w & w1 & Dw & Cw & Ew & Ew1).
  assert (Da : forall x, is_derive (arg n) x (- (INR n / 2))) by (intro x; unfold arg; auto_derive; [exact I | field]).
  assert (Ra : forall x, 0 <= x <= 1 -> 0 <= arg n x <= INR n / 2) by (intros x Hx; unfold arg; split; nra).
  set (K := fun x => 1 - (x * INR n * w (arg n x) + 2 * ih n n (arg n x))).
  assert (EK : forall x, 0 <= x <= 1 -> K x = cumulative n x).
  { intros x Hx. unfold K, cumulative. rewrite Ew by (apply Ra, Hx). reflexivity. }
  rewrite <- EK by lra. replace (K c) with (Hierarchy.minus (K c) (K 0)).
  2:{ rewrite (EK 0) by lra. rewrite cumulative_0 by exact Hn. change (K c - 0 = K c). ring. }
  apply (is_RInt_ext (fun x => INR n ^ 2 / 2 * x * w1 (arg n x))).
  { rewrite Rmin_left, Rmax_right by lra. intros x Hx. unfold radial. rewrite Ew1; [reflexivity|]. unfold arg. split; nra. }
  apply (is_RInt_derive (V := R_CompleteNormedModule) K).
  - rewrite Rmin_left, Rmax_right by lra. intros x Hx. unfold K. evar_last.
    { apply (is_derive_minus (V := R_NormedModule)); [apply (is_derive_const (V := R_NormedModule))|].
      apply (is_derive_plus (V := R_NormedModule)).
      - apply (is_derive_mult (fun x => x * INR n) (fun x => w (arg n x))); [auto_derive; [exact I | reflexivity]| |intros; apply Rmult_comm].
        apply (is_derive_comp w (arg n)); [apply Dw | apply Da].
      - apply (is_derive_scal (fun x => ih n n (arg n x))). apply (is_derive_comp (ih n n) (arg n)); [|apply Da].
        replace n with (S (n - 1)) at 1 by lia. apply ih_derive. left. lia. }
    rewrite <- Ew by (apply Ra; lra).
    change (0 - (1 * INR n * w (arg n x) + x * INR n * (- (INR n / 2) * w1 (arg n x)) + 2 * (- (INR n / 2) * w (arg n x))) = INR n ^ 2 / 2 * x * w1 (arg n x)).
    field.
  - intros x _. apply (continuous_mult (K := R_AbsRing)); [apply (ex_derive_continuous (V := R_NormedModule)); auto_derive; exact I|].
    apply (continuous_comp (arg n) w1); [apply arg_continuous | apply Cw].
Qed.

(** ** Polynomials close to a step (Kuhn) *)
Definition step (m : nat) (x : R) : R := (1 - x ^ m) ^ (2 ^ m).

Lemma bernoulli : forall k y, 0 <= y <= 1 -> 1 - INR k * y <= (1 - y) ^ k.
Proof.
  induction k as [|k IH]; intros y Hy; [cbn; lra|]. rewrite S_INR. cbn [pow]. specialize (IH y Hy). pose proof (pos_INR k).
  apply Rle_trans with ((1 - y) * (1 - INR k * y)); [nra|]. apply Rmult_le_compat_l; lra.
Qed.
Lemma bernoulli_up : forall k y, 0 <= y -> 1 + INR k * y <= (1 + y) ^ k.
Proof.
  induction k as [|k IH]; intros y Hy; [cbn; lra|]. rewrite S_INR. cbn [pow]. specialize (IH y Hy). pose proof (pos_INR k).
  apply Rle_trans with ((1 + y) * (1 + INR k * y)); [nra|]. apply Rmult_le_compat_l; lra.
Qed.
Lemma INR_pow2 : forall m, INR (2 ^ m) = 2 ^ m.
Proof. intro m. rewrite pow_INR. reflexivity. Qed.
Lemma pow_unit : forall m x, 0 <= x <= 1 -> 0 <= x ^ m <= 1.
Proof. intros m x Hx. split; [apply pow_le; lra|]. rewrite <- (pow1 m). apply pow_incr. lra. Qed.

Lemma step_bounds : forall m x, 0 <= x <= 1 -> 0 <= step m x <= 1.
Proof. intros m x Hx. unfold step. apply pow_unit. pose proof (pow_unit m x Hx). lra. Qed.

Lemma step_low : forall m x d, 0 <= d -> 0 <= x <= 1 / 2 - d -> 1 - (1 - 2 * d) ^ m <= step m x.
Proof.
  intros m x d Hd Hx. unfold step. apply Rle_trans with (1 - INR (2 ^ m) * x ^ m).
  - rewrite INR_pow2, <- Rpow_mult_distr. assert ((2 * x) ^ m <= (1 - 2 * d) ^ m) by (apply pow_incr; lra). lra.
  - apply bernoulli, pow_unit. lra.
Qed.
Lemma step_high : forall m x d, 0 <= d -> 1 / 2 + d <= x <= 1 -> step m x <= / (1 + 2 * d) ^ m.
Proof.
  intros m x d Hd Hx. unfold step. pose proof (pow_unit m x ltac:(lra)) as U. set (y := x ^ m) in *. set (k := (2 ^ m)%nat).
  assert (A : (1 - y) ^ k * (1 + y) ^ k <= 1).
  { rewrite <- Rpow_mult_distr. apply pow_unit. nra. }
  assert (B : (1 + 2 * d) ^ m <= (1 + y) ^ k).
  { apply Rle_trans with (1 + INR k * y); [|apply bernoulli_up; lra]. unfold k, y. rewrite INR_pow2, <- Rpow_mult_distr.
    assert ((1 + 2 * d) ^ m <= (2 * x) ^ m) by (apply pow_incr; lra). lra. }
  assert (C : 0 < (1 + 2 * d) ^ m) by (apply pow_lt; lra).
  assert (D : 0 <= (1 - y) ^ k) by (apply pow_le; lra).
  apply Rmult_le_reg_r with ((1 + 2 * d) ^ m); [exact C|]. rewrite Rinv_l by lra.
  apply Rle_trans with ((1 - y) ^ k * (1 + y) ^ k); [apply Rmult_le_compat_l; assumption | exact A].
Qed.

Lemma step_close : forall d e, 0 < d <= 1 / 2 -> 0 < e -> exists m,
  (forall x, 0 <= x <= 1 / 2 - d -> 1 - e <= step m x) /\ (forall x, 1 / 2 + d <= x <= 1 -> step m x <= e).
Proof.
  intros d e Hd He.
  destruct (pow_lt_1_zero (1 - 2 * d)) with (y := e) as (m1 & M1); [rewrite Rabs_pos_eq; lra | exact He|].
  destruct (pow_lt_1_zero (/ (1 + 2 * d))) with (y := e) as (m2 & M2).
  { rewrite Rabs_pos_eq by (left; apply Rinv_0_lt_compat; lra). rewrite <- Rinv_1. apply Rinv_lt_contravar; lra. }
  { exact He. }
  exists (max m1 m2). split; intros x Hx.
  - pose proof (step_low (max m1 m2) x d ltac:(lra) Hx) as L. specialize (M1 (max m1 m2) ltac:(lia)).
    rewrite Rabs_pos_eq in M1 by (apply pow_le; lra). lra.
  - pose proof (step_high (max m1 m2) x d ltac:(lra) Hx) as L. specialize (M2 (max m1 m2) ltac:(lia)).
    rewrite Rabs_pos_eq in M2 by (apply pow_le; left; apply Rinv_0_lt_compat; lra).
    rewrite pow_inv in M2. lra.
Qed.
