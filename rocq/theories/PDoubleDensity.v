(** The error of the isometric density in double precision. *)
From Coq Require Import Reals ZArith Lra Lia List Floats.
From Flocq Require Import Core BinarySingleNaN PrimFloat.
From Verif Require Import Scalar F64 MTreloar MFjc SpecDouble SpecWalk SpecDoubleIso PQuad PDouble PDoubleFjc PDoubleQuad PDoubleRel PDoubleIso PTreloar PDoubleSum PIsometric PBellFjc.
From Coq Require Import Floats.
Import ListNotations.
Open Scope R_scope.

(** ** Binomial coefficients *)
Lemma binom_bound : forall n s, (0 <= binom n s <= 2 ^ Z.of_nat n)%Z.
Proof.
  induction n as [|n IH]; intros s.
  - destruct s; cbn; lia.
  - rewrite Nat2Z.inj_succ, Z.pow_succ_r by lia. pose proof (Z.pow_pos_nonneg 2 (Z.of_nat n)).
    destruct s as [|s]; cbn [binom]; [lia|]. pose proof (IH s). pose proof (IH (S s)). lia.
Qed.
Lemma binom_total : forall n, Rsum (map (fun s => IZR (binom n s)) (seq 0 (S n))) = 2 ^ n.
Proof.
  induction n as [|n IH]; [cbn; lra|]. rewrite Rsum_seq_head, binom_0. cbn [binom].
  rewrite (Rsum_ext _ (fun s => IZR (binom n s) + IZR (binom n (S s)))) by (intros s _; rewrite plus_IZR; reflexivity). rewrite Rsum_plus, IH.
  rewrite (Rsum_seq_last _ n), (binom_gt n (S n)) by lia.
  rewrite Rsum_seq_head, binom_0 in IH. cbn [pow]. lra.
Qed.

Lemma Rsum_abs_le : forall (f g : nat -> R) l, (forall s, In s l -> Rabs (f s) <= g s) -> Rabs (Rsum (map f l)) <= Rsum (map g l).
Proof.
  intros f g l. induction l as [|a l IH]; intro H; cbn [map Rsum]; [rewrite Rabs_R0; lra|].
  eapply Rle_trans; [apply Rabs_triang|]. apply Rplus_le_compat; [apply H; left; reflexivity | apply IH; intros; apply H; right; assumption].
Qed.
(** A sum over the first terms only. *)
Lemma Rsum_first : forall (f : nat -> R) k n, (k <= n)%nat -> Rsum (map f (seq 0 k)) = Rsum (map (fun s => if (s <? k)%nat then f s else 0) (seq 0 n)).
Proof.
  intros f k n H. rewrite (Rsum_truncate (fun s => if (s <? k)%nat then f s else 0) k n H).
  - apply Rsum_ext. intros s Hs. apply in_seq in Hs. destruct (Nat.ltb_spec s k); [reflexivity | lia].
  - intros s Hs. destruct (Nat.ltb_spec s k); [lia | reflexivity].
Qed.

Lemma pow_powerRZ_2 : forall k, 2 ^ k = bpow radix2 (Z.of_nat k).
Proof. intro k. rewrite <- pw, <- pow_powerRZ. reflexivity. Qed.

(** ** One term *)
Section Term.
Variables (n : nat) (m : R) (mt : float) (e0 : R).
Hypothesis Hn : (3 <= n <= 26)%nat.
Hypothesis Hm : bpow radix2 (-60) <= m <= / 2.
Hypothesis Fm : finite mt.
Hypothesis Vm : value mt = m * (1 + e0).
Hypothesis He0 : Rabs e0 <= u.
Local Notation p := (n - 2)%nat.

Lemma nR : 3 <= INR n <= 26.
Proof. replace 3 with (INR 3) by (cbn; lra). replace 26 with (INR 26) by (cbn; lra). split; apply le_INR; lia. Qed.
Lemma m_pos : 0 < m.
Proof. pose proof (bpow_gt_0 radix2 (-60)). lra. Qed.

Lemma quotient : forall s, (s <= n)%nat -> finite (float_of_Z (Z.of_nat s) / float_of_Z (Z.of_nat n))%float /\
  exists e, Rabs e <= u /\ value (float_of_Z (Z.of_nat s) / float_of_Z (Z.of_nat n))%float = INR s / INR n * (1 + e).
Proof.
  intros s Hs. destruct (float_of_Z_exact (Z.of_nat s) ltac:(lia)) as (F1 & V1). destruct (float_of_Z_exact (Z.of_nat n) ltac:(lia)) as (F2 & V2).
  rewrite <- INR_IZR_INZ in V1, V2. pose proof nR as N. pose proof u_pos as U.
  assert (S1 : 0 <= INR s <= INR n) by (split; [apply pos_INR | apply le_INR, Hs]).
  assert (Q : 0 <= INR s / INR n <= 1).
  { split; [apply Rmult_le_pos; [lra | apply Rlt_le, Rinv_0_lt_compat; lra]|]. apply Rmult_le_reg_r with (INR n); [lra|]. unfold Rdiv. rewrite Rmult_assoc, Rinv_l by lra. lra. }
  assert (BB : 1 <= bpow radix2 1023) by (change 1 with (bpow radix2 0); apply bpow_le; lia).
  destruct s as [|s].
  - destruct (div_raw _ (float_of_Z (Z.of_nat n)) F1) as (F & V); [rewrite V2; lra | rewrite V1, V2, Rabs_pos_eq; lra|]. split; [exact F|].
    exists 0. rewrite Rabs_R0. split; [lra|]. rewrite V, V1, V2. cbn [INR]. unfold Rdiv. rewrite !Rmult_0_l. apply round_0, valid_rnd_N.
  - assert (S2 : 1 <= INR (S s)) by (rewrite S_INR; pose proof (pos_INR s); lra).
    destruct (div_rel _ (float_of_Z (Z.of_nat n)) F1) as (F & e & E & V); [rewrite V2; lra | | split; [exact F | exists e; rewrite V, V1, V2; split; [exact E | reflexivity]]].
    rewrite V1, V2, Rabs_pos_eq by lra. split; [|lra]. apply Rle_trans with (bpow radix2 (-5)); [apply bpow_le; lia|].
    apply Rmult_le_reg_r with (INR n); [lra|]. unfold Rdiv. rewrite Rmult_assoc, Rinv_l by lra. change (bpow radix2 (-5)) with (/ 32). lra.
Qed.

Definition xt (s : nat) : float := (mt - float_of_Z (Z.of_nat s) / float_of_Z (Z.of_nat n))%float.
Definition x (s : nat) : R := m - INR s / INR n.

Lemma argument : forall s, (s <= n)%nat -> INR s / INR n <= m * (1 + 4 * u) ->
  finite (xt s) /\ Rabs (value (xt s) - x s) <= 31 / 10 * u * m /\ Rabs (x s) <= m.
Proof.
  intros s Hs Hr. destruct (quotient s Hs) as (F1 & e1 & E1 & V1). pose proof m_pos as M. pose proof u_pos as U. pose proof nR as N.
  assert (Q : 0 <= INR s / INR n) by (apply Rmult_le_pos; [apply pos_INR | apply Rlt_le, Rinv_0_lt_compat; lra]).
  set (q := INR s / INR n) in *. apply abs_bounds in E1. pose proof (abs_bounds _ _ He0) as B0.
  assert (BB : 1 <= bpow radix2 1023) by (change 1 with (bpow radix2 0); apply bpow_le; lia).
  assert (XB : Rabs (m - q) <= m). { apply Rabs_le. split; [|lra]. nra. }
  assert (YB : Rabs ((m * (1 + e0) - q * (1 + e1)) - (m - q)) <= 201 / 100 * u * m).
  { replace ((m * (1 + e0) - q * (1 + e1)) - (m - q)) with (m * e0 - q * e1) by ring. unfold Rminus. eapply Rle_trans; [apply Rabs_triang|]. rewrite Rabs_Ropp, !Rabs_mult.
    rewrite (Rabs_pos_eq m), (Rabs_pos_eq q) by lra. assert (m * Rabs e0 <= m * u) by (apply Rmult_le_compat_l; lra).
    assert (q * Rabs e1 <= m * (1 + 4 * u) * u) by (apply Rmult_le_compat; try lra; [apply Rabs_pos | apply Rabs_le; lra]).
    assert (0 < u * m) by nra. assert (u * (u * m) <= / 1000 * (u * m)) by (apply Rmult_le_compat_r; lra). lra. }
  assert (YA : Rabs (m * (1 + e0) - q * (1 + e1)) <= 101 / 100 * m).
  { replace (m * (1 + e0) - q * (1 + e1)) with ((m - q) + ((m * (1 + e0) - q * (1 + e1)) - (m - q))) by ring. eapply Rle_trans; [apply Rabs_triang|]. nra. }
  unfold xt. destruct (sub_rel mt _ Fm F1) as (F & e2 & E2 & V); [rewrite Vm, V1; fold q; lra|]. split; [exact F|]. split; [|exact XB].
  rewrite V, Vm, V1. fold q. unfold x. fold q.
  replace ((m * (1 + e0) - q * (1 + e1)) * (1 + e2) - (m - q)) with ((m * (1 + e0) - q * (1 + e1)) - (m - q) + e2 * (m * (1 + e0) - q * (1 + e1))) by ring.
  eapply Rle_trans; [apply Rabs_triang|]. rewrite (Rabs_mult e2).
  assert (Rabs e2 * Rabs (m * (1 + e0) - q * (1 + e1)) <= u * (101 / 100 * m)) by (apply Rmult_le_compat; try apply Rabs_pos; lra). assert (0 < u * m) by nra. lra.
Qed.

Lemma pR : 1 <= INR p <= 24.
Proof. replace 1 with (INR 1) by reflexivity. replace 24 with (INR 24) by (cbn; lra). split; apply le_INR; lia. Qed.

Lemma W_pos : 0 < m ^ p.
Proof. apply pow_lt, m_pos. Qed.
Lemma W_le : m ^ p <= 1.
Proof. rewrite <- (pow1 p). apply pow_incr. pose proof m_pos. lra. Qed.

Lemma power : forall s, (s <= n)%nat -> INR s / INR n <= m * (1 + 4 * u) ->
  finite (float_powi (xt s) (Z.of_nat p)) /\
  Rabs (value (float_powi (xt s) (Z.of_nat p)) - x s ^ p) <= 55 / 10 * INR p * u * m ^ p + INR p * eta0.
Proof.
  intros s Hs Hr. destruct (argument s Hs Hr) as (F & A & B). pose proof m_pos as M. pose proof u_pos as U. pose proof pR as PR. pose proof W_pos as W0.
  assert (XT : Rabs (value (xt s)) <= m * (1 + 4 * u)).
  { replace (value (xt s)) with (x s + (value (xt s) - x s)) by ring. eapply Rle_trans; [apply Rabs_triang|]. nra. }
  assert (XQ : Rabs (value (xt s)) <= 3 / 4) by nra.
  assert (EP : Z.of_nat p = Zpos (Pos.of_nat p)) by (rewrite <- (Nat2Pos.id p) at 1 by lia; apply positive_nat_Z).
  rewrite EP. cbn [float_powi]. destruct (powi_error (Pos.of_nat p) ltac:(lia) (xt s) F XQ) as (FP & e & d & E & D & V).
  rewrite (Nat2Pos.id p) in E, D, V by lia. split; [exact FP|]. rewrite V.
  assert (PU : INR p * u <= / 1000000) by nra.
  assert (E' : Rabs e <= 2 * INR p * u).
  { eapply Rle_trans; [exact E|]. assert (INR (p - 1) <= INR p) by (apply le_INR; lia). pose proof (pos_INR (p - 1)). pose proof (pow_linear (p - 1) ltac:(nra)). nra. }
  assert (GR : forall k, (k <= p)%nat -> (m * (1 + 4 * u)) ^ k <= 101 / 100 * m ^ k).
  { intros k Hk. rewrite Rpow_mult_distr, Rmult_comm. apply Rmult_le_compat_r; [apply pow_le; lra|].
    apply Rle_trans with ((1 + u) ^ (4 * k)).
    - rewrite pow_mult. apply pow_incr. split; [lra|]. pose proof (poly 4 u ltac:(lra)) as PL. cbn [INR] in PL. lra.
    - assert (INR (4 * k) <= 4 * INR p) by (rewrite mult_INR; cbn [INR]; assert (INR k <= INR p) by (apply le_INR, Hk); lra). pose proof (pos_INR (4 * k)).
      pose proof (pow_linear (4 * k) ltac:(nra)). nra. }
  assert (PD : Rabs (value (xt s) ^ p - x s ^ p) <= 32 / 10 * INR p * u * m ^ p).
  { assert (EPS : p = S (p - 1)) by lia. rewrite EPS at 1 2. eapply Rle_trans; [apply (pow_diff (p - 1) _ _ (m * (1 + 4 * u))); [exact XT | nra]|].
    rewrite <- EPS. specialize (GR (p - 1)%nat ltac:(lia)).
    assert (WE : m ^ p = m * m ^ (p - 1)) by (rewrite EPS at 1; reflexivity). rewrite WE.
    assert (W1 : 0 < m ^ (p - 1)) by (apply pow_lt, M).
    assert (X1 : INR p * Rabs (value (xt s) - x s) <= INR p * (31 / 10 * u * m)) by (apply Rmult_le_compat_l; lra).
    assert (X2 : 0 <= INR p * (31 / 10 * u * m)) by (repeat apply Rmult_le_pos; lra).
    eapply Rle_trans; [apply Rmult_le_compat; [apply Rmult_le_pos; [lra | apply Rabs_pos] | apply pow_le; nra | exact X1 | exact GR]|].
    assert (0 <= INR p * u * m * m ^ (p - 1)) by (repeat apply Rmult_le_pos; lra). nra. }
  assert (XP : Rabs (value (xt s) ^ p) <= 101 / 100 * m ^ p).
  { rewrite <- RPow_abs. eapply Rle_trans; [apply pow_incr; split; [apply Rabs_pos | exact XT]|]. apply GR. lia. }
  replace (value (xt s) ^ p * (1 + e) + d - x s ^ p) with ((value (xt s) ^ p - x s ^ p) + (value (xt s) ^ p * e + d)) by ring.
  eapply Rle_trans; [apply Rabs_triang|]. eapply Rle_trans; [apply Rplus_le_compat_l, Rabs_triang|]. rewrite (Rabs_mult _ e).
  assert (X3 : Rabs (value (xt s) ^ p) * Rabs e <= 101 / 100 * m ^ p * (2 * INR p * u)) by (apply Rmult_le_compat; try apply Rabs_pos; assumption).
  assert (0 <= INR p * u * m ^ p) by (repeat apply Rmult_le_pos; lra). lra.
Qed.

(** Also with the sign and the binomial coefficient. *)
Definition exact_term (s : nat) : R := (-1) ^ s * IZR (binom n s) * x s ^ p.

Lemma sign_times : forall s, finite ((if Nat.even s then 1 else -1) * float_of_Z (binom n s))%float /\
  value ((if Nat.even s then 1 else -1) * float_of_Z (binom n s))%float = (-1) ^ s * IZR (binom n s).
Proof.
  intro s. pose proof (binom_bound n s) as B.
  assert (B' : (binom n s <= 2 ^ 26)%Z) by (eapply Z.le_trans; [exact (proj2 B) | apply Z.pow_le_mono_r; lia]).
  destruct (float_of_Z_exact (binom n s)) as (F & V); [change (2 ^ 26)%Z with 67108864%Z in B'; lia|].
  assert (BB : bpow radix2 26 <= bpow radix2 1023) by (apply bpow_le; lia).
  assert (VB : 0 <= IZR (binom n s) <= bpow radix2 26) by (rewrite <- bp by lia; split; apply IZR_le; lia).
  assert (V1 : value 1%float = 1) by exact value_one. assert (V2 : value (-1)%float = -1) by (change (-1)%float with (- one)%float; rewrite value_opp, value_one; reflexivity).
  assert (P : Prec_gt_0 FloatOps.prec) by reflexivity.
  assert (SG : (-1) ^ s = if Nat.even s then 1 else -1).
  { clear. induction s as [|s IH]; [reflexivity|]. cbn [pow]. rewrite IH, Nat.even_succ, <- Nat.negb_even. destruct (Nat.even s); cbn; ring. }
  rewrite SG. destruct (Nat.even s).
  - destruct (mul_raw 1%float (float_of_Z (binom n s))) as (F1 & W); [vm_compute; exact I | exact F | rewrite V, V1, Rmult_1_l, Rabs_pos_eq; lra|]. split; [exact F1|].
    rewrite W, V1, !Rmult_1_l, <- V. apply round_generic; [apply valid_rnd_N | apply format_value].
  - destruct (mul_raw (-1)%float (float_of_Z (binom n s))) as (F1 & W); [vm_compute; exact I | exact F | rewrite V, V2, Rabs_mult, Rabs_left, Rabs_pos_eq; lra|]. split; [exact F1|].
    rewrite W, V2, <- V. replace (-1 * value (float_of_Z (binom n s))) with (- value (float_of_Z (binom n s))) by ring.
    apply round_generic; [apply valid_rnd_N | apply generic_format_opp, format_value].
Qed.

Lemma term_error : forall s, (s <= n)%nat -> INR s / INR n <= m * (1 + 4 * u) ->
  finite (fterm n mt (Z.of_nat p) s) /\
  Rabs (value (fterm n mt (Z.of_nat p) s) - exact_term s) <= IZR (binom n s) * (7 * INR p * u * m ^ p + 3 * INR p * eta0) /\
  Rabs (exact_term s) <= IZR (binom n s) * m ^ p.
Proof.
  intros s Hs Hr. destruct (sign_times s) as (F1 & V1). destruct (power s Hs Hr) as (F2 & E2). destruct (argument s Hs Hr) as (_ & _ & XB).
  unfold fterm. fold (xt s). set (c := ((if Nat.even s then 1 else -1) * float_of_Z (binom n s))%float) in *. set (y := float_powi (xt s) (Z.of_nat p)) in *.
  pose proof m_pos as M. pose proof u_pos as U. pose proof pR as PR. pose proof W_pos as W0. pose proof W_le as W1. pose proof eta0_pos as T.
  assert (PU : INR p * u <= / 1000000) by nra.
  assert (C1 : 1 <= IZR (binom n s) <= bpow radix2 26).
  { pose proof (binom_bound n s) as B. pose proof (binom_zfact n s Hs) as BZ. pose proof (zfact_pos n).
    rewrite <- bp by lia. split; apply IZR_le; [assert (binom n s <> 0)%Z by (intro Z0; rewrite Z0 in BZ; lia); lia|]. eapply Z.le_trans; [exact (proj2 B) | apply Z.pow_le_mono_r; lia]. }
  set (b := IZR (binom n s)) in *. unfold exact_term. fold b.
  assert (SA : Rabs ((-1) ^ s) = 1) by (rewrite <- RPow_abs, Rabs_left by lra; replace (- -1) with 1 by ring; apply pow1).
  assert (XP : Rabs (x s ^ p) <= m ^ p) by (rewrite <- RPow_abs; apply pow_incr; split; [apply Rabs_pos | exact XB]).
  assert (D0 : 0 <= INR p * u * m ^ p <= / 1000000 * m ^ p) by (split; [repeat apply Rmult_le_pos; lra | apply Rmult_le_compat_r; lra]).
  assert (YB : Rabs (value y) <= 101 / 100 * m ^ p + INR p * eta0).
  { replace (value y) with (x s ^ p + (value y - x s ^ p)) by ring. eapply Rle_trans; [apply Rabs_triang|]. lra. }
  assert (PE : 0 <= INR p * eta0 <= / 1000) by (split; [apply Rmult_le_pos; lra|]; nra).
  assert (CY : Rabs (value c * value y) <= b * (101 / 100 * m ^ p + INR p * eta0)).
  { rewrite Rabs_mult, V1, Rabs_mult, SA, Rmult_1_l, (Rabs_pos_eq b) by lra. apply Rmult_le_compat_l; lra. }
  assert (BB : 2 * bpow radix2 26 <= bpow radix2 1023) by (replace (2 * bpow radix2 26) with (bpow radix2 27) by (change 27%Z with (26 + 1)%Z; apply bpow_S); apply bpow_le; lia).
  destruct (mul_raw c y F1 F2) as (F & V).
  { eapply Rle_trans; [exact CY|]. apply Rle_trans with (2 := BB). rewrite Rmult_comm. apply Rmult_le_compat; lra. }
  split; [exact F|]. split.
  - destruct (rnd_abs (value c * value y)) as (e & d & E & D & RE). rewrite V, RE.
    assert (D' : Rabs d <= eta0). { apply Rle_trans with (1 := D). apply bpow_le. lia. }
    replace (value c * value y * (1 + e) + d - (-1) ^ s * b * x s ^ p) with ((-1) ^ s * b * (value y - x s ^ p) + (value c * value y * e + d)) by (rewrite V1; ring).
    eapply Rle_trans; [apply Rabs_triang|]. eapply Rle_trans; [apply Rplus_le_compat_l, Rabs_triang|]. rewrite (Rabs_mult _ e), (Rabs_mult _ (value y - x s ^ p)), (Rabs_mult _ b), SA, Rmult_1_l, (Rabs_pos_eq b) by lra.
    assert (X1 : b * Rabs (value y - x s ^ p) <= b * (55 / 10 * INR p * u * m ^ p + INR p * eta0)) by (apply Rmult_le_compat_l; lra).
    assert (X2 : Rabs (value c * value y) * Rabs e <= b * (101 / 100 * m ^ p + INR p * eta0) * u) by (apply Rmult_le_compat; try apply Rabs_pos; assumption).
    assert (X3 : eta0 <= b * (INR p * eta0)). { assert (eta0 <= INR p * eta0) by nra. nra. }
    assert (X4 : b * (u * m ^ p) <= b * (INR p * u * m ^ p)). { apply Rmult_le_compat_l; [lra|]. apply Rmult_le_compat_r; [lra|]. nra. }
    assert (X5 : b * (INR p * eta0 * u) <= b * (INR p * eta0)) by (apply Rmult_le_compat_l; [lra|]; nra).
    assert (X6 : 0 <= b * (INR p * u * m ^ p)) by (apply Rmult_le_pos; lra). lra.
  - rewrite !Rabs_mult, SA, Rmult_1_l, (Rabs_pos_eq b) by lra. apply Rmult_le_compat_l; lra.
Qed.

(** ** The sum *)
Lemma float_sum : forall (L : libm) k, (1 <= k <= n)%nat -> (forall s, (s < k)%nat -> INR s / INR n <= m * (1 + 4 * u)) ->
  (forall s, (s <= n)%nat -> (k <= s)%nat -> m * (1 - 4 * u) <= INR s / INR n) ->
  forall k', (k' <= n)%nat -> (forall s, (s < k')%nat -> INR s / INR n < m) -> (forall s, (s <= n)%nat -> (k' <= s)%nat -> m <= INR s / INR n) ->
  finite (@ssum float (F64 L) (map (fterm n mt (Z.of_nat p)) (seq 0 k))) /\
  Rabs (value (@ssum float (F64 L) (map (fterm n mt (Z.of_nat p)) (seq 0 k))) - Rsum (map exact_term (seq 0 k')))
    <= 2 ^ n * (14 * INR n * u * m ^ p + 4 * INR n * eta0) /\
  Rabs (Rsum (map exact_term (seq 0 k'))) <= 2 ^ n * m ^ p.
Proof.
  intros L k Hk HS HG k' Hk' HS' HG'. pose proof m_pos as M. pose proof u_pos as U. pose proof pR as PR. pose proof W_pos as W0. pose proof W_le as W1. pose proof eta0_pos as T. pose proof nR as NR.
  assert (PN : INR p <= INR n) by (apply le_INR; lia).
  assert (PU : INR p * u <= / 1000000) by nra.
  assert (PE : 0 <= INR p * eta0 <= / 1000) by (split; [apply Rmult_le_pos; lra|]; nra).
  assert (D0 : 0 <= INR p * u * m ^ p <= / 1000000 * m ^ p) by (split; [repeat apply Rmult_le_pos; lra | apply Rmult_le_compat_r; lra]).
  assert (BP : forall s, 0 <= IZR (binom n s)) by (intro s; apply IZR_le, binom_bound).
  set (tb := 7 * INR p * u * m ^ p + 3 * INR p * eta0).
  assert (TE : forall s, (s < k)%nat -> finite (fterm n mt (Z.of_nat p) s) /\
     Rabs (value (fterm n mt (Z.of_nat p) s) - exact_term s) <= IZR (binom n s) * tb /\ Rabs (exact_term s) <= IZR (binom n s) * m ^ p).
  { intros s Hs. apply term_error; [lia | apply HS, Hs]. }
  set (fl := map (fterm n mt (Z.of_nat p)) (seq 0 k)).
  assert (FL : List.Forall finite fl).
  { apply List.Forall_forall. intros y Hy. apply in_map_iff in Hy. destruct Hy as (s & <- & Hs). apply in_seq in Hs. apply TE. lia. }
  assert (LEN : List.length fl = k) by (unfold fl; rewrite map_length, seq_length; reflexivity).
  assert (MV : forall (h : float -> R), total (map h fl) = Rsum (map (fun s => h (fterm n mt (Z.of_nat p) s)) (seq 0 k))) by (intro h; unfold fl; rewrite total_Rsum, map_map; reflexivity).
  assert (BT : forall c, Rsum (map (fun s => IZR (binom n s) * c) (seq 0 (S n))) = 2 ^ n * c).
  { intro c. rewrite <- binom_total. rewrite (Rsum_ext _ (fun s => c * IZR (binom n s))) by (intros; ring). rewrite Rsum_scal. ring. }
  (* a bound on a partial sum from bounds on its terms *)
  assert (BK : forall (h : nat -> R) j c, (j <= S n)%nat -> 0 <= c -> (forall s, (s < j)%nat -> Rabs (h s) <= IZR (binom n s) * c) -> Rabs (Rsum (map h (seq 0 j))) <= 2 ^ n * c).
  { intros h j c Hj Hc HB. rewrite (Rsum_first h j (S n) Hj), <- BT. apply Rsum_abs_le. intros s _. destruct (Nat.ltb_spec s j); [apply HB; assumption|].
    rewrite Rabs_R0. apply Rmult_le_pos; [apply BP | exact Hc]. }
  assert (TB : 0 <= tb <= / 2). { unfold tb. nra. }
  (* the sum of the absolute values *)
  assert (AB : total (map (fun y => Rabs (value y)) fl) <= 2 ^ n * (m ^ p + tb)).
  { rewrite MV. rewrite <- (Rabs_pos_eq (Rsum _)).
    - apply BK; [lia | lra|]. intros s Hs. rewrite Rabs_Rabsolu. destruct (TE s Hs) as (_ & A & B).
      replace (value _) with (exact_term s + (value (fterm n mt (Z.of_nat p) s) - exact_term s)) by ring. eapply Rle_trans; [apply Rabs_triang|]. lra.
    - clear. generalize (seq 0 k). induction l as [|a l IH]; cbn [map Rsum]; [lra|]. pose proof (Rabs_pos (value (fterm n mt (Z.of_nat p) a))). lra. }
  assert (T2 : 0 < 2 ^ n) by (apply pow_lt; lra).
  assert (KN : INR k <= INR n) by (apply le_INR; lia). pose proof (pos_INR k) as K0.
  assert (NU : INR n * u <= / 1000000) by nra.
  pose proof (pow_linear k ltac:(nra)) as PL.
  assert (P1 : 1 <= (1 + u) ^ k) by apply one_le_pow.
  assert (AP : 0 <= total (map (fun y => Rabs (value y)) fl)).
  { clear. induction fl as [|a l IH]; cbn; [lra|]. pose proof (Rabs_pos (value a)). unfold total in IH. lra. }
  destruct (sum_error L fl FL) as (FS & ES).
  { rewrite LEN. apply Rle_trans with (2 * (2 ^ n * 2)).
    - apply Rmult_le_compat; try lra; [nra|]. eapply Rle_trans; [exact AB|]. apply Rmult_le_compat_l; lra.
    - replace (2 * (2 ^ n * 2)) with (2 ^ (n + 2)) by (rewrite pow_add; ring). apply Rle_trans with (2 ^ 1023); [apply Rle_pow; [lra | lia]|].
      rewrite pw. change 1023%Z with (Z.of_nat 1023). rewrite <- pow_powerRZ_2. lra. }
  rewrite LEN in ES. split; [exact FS|].
  assert (XT : forall s, (s < k')%nat -> Rabs (exact_term s) <= IZR (binom n s) * m ^ p).
  { intros s Hs. apply term_error; [lia|]. pose proof (HS' s Hs). nra. }
  split; [|apply BK; [lia | lra | exact XT]].
  (* the float terms against the exact ones, allowing for terms only one of the sums has *)
  assert (EDGE : forall s, (s <= n)%nat -> m * (1 - 4 * u) <= INR s / INR n <= m * (1 + 4 * u) -> Rabs (exact_term s) <= IZR (binom n s) * (4 * u * m ^ p)).
  { intros s Hs Hr. unfold exact_term. rewrite !Rabs_mult. replace (Rabs ((-1) ^ s)) with 1 by (rewrite <- RPow_abs, Rabs_left by lra; replace (- -1) with 1 by ring; rewrite pow1; reflexivity).
    rewrite Rmult_1_l, (Rabs_pos_eq (IZR _)) by apply BP. apply Rmult_le_compat_l; [apply BP|]. rewrite <- RPow_abs.
    assert (X : Rabs (x s) <= 4 * u * m) by (unfold x; apply Rabs_le; lra).
    assert (EPS : p = S (p - 1)) by lia. rewrite EPS. cbn [pow].
    assert (Y : Rabs (x s) ^ (p - 1) <= m ^ (p - 1)) by (apply pow_incr; split; [apply Rabs_pos|]; nra).
    replace (4 * u * (m * m ^ (p - 1))) with (4 * u * m * m ^ (p - 1)) by ring. apply Rmult_le_compat; try assumption; [apply Rabs_pos | apply pow_le, Rabs_pos]. }
  assert (DIFF : Rabs (Rsum (map (fun s => value (fterm n mt (Z.of_nat p) s)) (seq 0 k)) - Rsum (map exact_term (seq 0 k'))) <= 2 ^ n * (tb + 4 * u * m ^ p)).
  { rewrite (Rsum_first _ k (S n)), (Rsum_first exact_term k' (S n)) by lia.
    replace (Rsum (map (fun s => if (s <? k)%nat then value (fterm n mt (Z.of_nat p) s) else 0) (seq 0 (S n))) - Rsum (map (fun s => if (s <? k')%nat then exact_term s else 0) (seq 0 (S n))))
      with (Rsum (map (fun s => (if (s <? k)%nat then value (fterm n mt (Z.of_nat p) s) else 0) + -1 * (if (s <? k')%nat then exact_term s else 0)) (seq 0 (S n))))
      by (rewrite Rsum_plus, Rsum_scal; ring).
    rewrite <- BT. apply Rsum_abs_le. intros s Hs. apply in_seq in Hs. pose proof (BP s) as BPs. assert (UW : 0 <= 4 * u * m ^ p) by nra.
    destruct (Nat.ltb_spec s k) as [A|A]; destruct (Nat.ltb_spec s k') as [B|B].
    - destruct (TE s A) as (_ & E & _). replace (_ + -1 * exact_term s) with (value (fterm n mt (Z.of_nat p) s) - exact_term s) by ring. eapply Rle_trans; [exact E|]. apply Rmult_le_compat_l; lra.
    - destruct (TE s A) as (_ & E & _). replace (_ + -1 * 0) with (value (fterm n mt (Z.of_nat p) s) - exact_term s + exact_term s) by ring. eapply Rle_trans; [apply Rabs_triang|].
      assert (Rabs (exact_term s) <= IZR (binom n s) * (4 * u * m ^ p)); [|lra]. apply EDGE; [lia|]. pose proof (HS s A). pose proof (HG' s ltac:(lia) B). split; [nra | assumption].
    - replace (0 + -1 * exact_term s) with (- exact_term s) by ring. rewrite Rabs_Ropp. apply Rle_trans with (IZR (binom n s) * (4 * u * m ^ p)); [|apply Rmult_le_compat_l; lra].
      apply EDGE; [lia|]. pose proof (HS' s B). pose proof (HG s ltac:(lia) A). split; [assumption | nra].
    - replace (0 + -1 * 0) with 0 by ring. rewrite Rabs_R0. apply Rmult_le_pos; lra. }
  rewrite MV in ES.
  match goal with |- Rabs (?A - ?C) <= _ => match type of ES with Rabs (_ - ?B) <= _ => replace (A - C) with ((A - B) + (B - C)) by ring end end.
  eapply Rle_trans; [apply Rabs_triang|].
  assert (E1 : ((1 + u) ^ k - 1) * total (map (fun y => Rabs (value y)) fl) <= 2 * (INR n * u) * (2 ^ n * (m ^ p + tb))).
  { apply Rmult_le_compat; try lra. nra. }
  assert (E2 : 2 * (INR n * u) * (m ^ p + tb) + (tb + 4 * u * m ^ p) <= 14 * INR n * u * m ^ p + 4 * INR n * eta0).
  { unfold tb. assert (G1 : INR p * u * m ^ p <= INR n * u * m ^ p) by (apply Rmult_le_compat_r; [lra|]; apply Rmult_le_compat_r; lra).
    assert (G2 : INR p * eta0 <= INR n * eta0) by (apply Rmult_le_compat_r; lra).
    assert (G3 : 3 * (u * m ^ p) <= INR n * u * m ^ p) by (rewrite <- Rmult_assoc; apply Rmult_le_compat_r; [lra|]; apply Rmult_le_compat_r; lra).
    assert (G4 : INR n * u * (INR p * u * m ^ p) <= / 1000000 * (INR n * u * m ^ p)) by (apply Rmult_le_compat; nra).
    assert (G5 : INR n * u * (INR p * eta0) <= / 1000000 * (INR n * eta0)) by (apply Rmult_le_compat; nra).
    assert (G6 : 0 <= INR n * u * m ^ p) by (repeat apply Rmult_le_pos; lra). lra. }
  apply Rle_trans with (2 ^ n * (2 * (INR n * u) * (m ^ p + tb) + (tb + 4 * u * m ^ p))); [lra|]. apply Rmult_le_compat_l; lra.
Qed.
End Term.

Lemma P_front : forall n g, (2 <= n)%nat -> 0 < g -> P n g = front n g * S_sum n (n - 2) g.
Proof.
  intros n g Hn Hg. unfold front. rewrite zfact_fact. unfold S_sum, P. pose proof (INR_fact_neq_0 (n - 2)) as F. pose proof PI_RGT_0.
  assert (Pn : 0 < INR n) by (apply lt_0_INR; lia).
  rewrite <- pow_IZR, <- INR_IZR_INZ.
  replace (INR n ^ n) with (INR n ^ 2 * INR n ^ (n - 2)) by (rewrite <- pow_add; f_equal; lia).
  assert (INR n ^ (n - 2) <> 0) by (apply pow_nonzero; lra). field. repeat split; lra || assumption.
Qed.

(** Halving is exact. *)
Lemma halved : forall g, finite g -> powerRZ 2 (-800) <= value g <= 1 -> finite (- g * float_dec 5 1)%float /\ value (- g * float_dec 5 1)%float = - value g / 2.
Proof.
  intros g Fg Hg. rewrite pw in Hg. destruct PDoubleQuad.half as (Fh & Vh). assert (G0 : 0 < value g) by (pose proof (bpow_gt_0 radix2 (-800)); lra).
  assert (BB : 1 <= bpow radix2 1023) by (change 1 with (bpow radix2 0); apply bpow_le; lia).
  destruct (mul_raw (- g) (float_dec 5 1) (finite_opp g Fg) Fh) as (F1 & V1).
  { rewrite value_opp, Vh. rewrite Rabs_left1; lra. }
  split; [exact F1|]. rewrite V1, value_opp, Vh. assert (P : Prec_gt_0 FloatOps.prec) by reflexivity.
  replace (- value g * / 2) with (- (value g / 2)) by (unfold Rdiv; ring). replace (- value g / 2) with (- (value g / 2)) by (unfold Rdiv; ring).
  apply round_generic; [apply valid_rnd_N|]. apply generic_format_opp.
  change (generic_format radix2 (FLT_exp (-1074) FloatOps.prec) (value g / 2)).
  destruct (FLT_format_generic radix2 (-1074) FloatOps.prec _ (format_value g)) as [f E1 E2 E3]. destruct f as [fm fe]. cbn [Fnum Fexp] in *.
  assert (E4 : (-860 <= fe)%Z).
  { destruct (Z_le_gt_dec (-860) fe) as [H|H]; [exact H|]. exfalso. assert (B : bpow radix2 fe <= bpow radix2 (-860)) by (apply bpow_le; lia).
    rewrite E1 in Hg. unfold F2R in Hg. cbn [Fnum Fexp] in Hg. assert (M : IZR fm <= bpow radix2 53). { rewrite <- bp by lia. apply IZR_le. change (Zpower radix2 FloatOps.prec) with (2 ^ 53)%Z in E2. lia. }
    assert (X : IZR fm * bpow radix2 fe <= bpow radix2 53 * bpow radix2 (-860)).
    { destruct (Rle_or_lt 0 (IZR fm)); [apply Rmult_le_compat; try lra; apply bpow_ge_0|]. pose proof (bpow_gt_0 radix2 fe). pose proof (bpow_gt_0 radix2 53). pose proof (bpow_gt_0 radix2 (-860)). nra. }
    rewrite <- bpow_plus in X. assert (Y : bpow radix2 (53 + -860) < bpow radix2 (-800)) by (apply bpow_lt; lia). lra. }
  apply generic_format_FLT. exists (Float radix2 fm (fe - 1)).
  - rewrite E1. unfold F2R. cbn [Fnum Fexp]. replace fe with (fe - 1 + 1)%Z at 1 by lia. rewrite bpow_S. field.
  - exact E2.
  - cbn [Fexp]. lia.
Qed.

Section Density.
Variable L : libm.
Hypothesis HL : exact_integers L.
Hypothesis HP : nearest_pi L.

Lemma density_error_nat : forall prof n g, (3 <= n <= 26)%nat -> finite g -> powerRZ 2 (-800) <= value g < 1 ->
  exists v, @fjc_isometric.nondimensional_equilibrium_distribution float (F64 L) prof (Z.of_nat n) g = Some v /\ finite v /\
    Rabs (value v - P n (value g)) <= front n (value g) * (2 ^ n * (22 * INR n * u * ((1 - value g) / 2) ^ (n - 2))) + powerRZ 2 (-100).
Proof.
  intros prof n g Hn Fg Hg. assert (G0 : 0 < value g) by (rewrite pw in Hg; pose proof (bpow_gt_0 radix2 (-800)); lra).
  assert (G1 : value g <= 1 - / 2 ^ 55).
  { destruct (Rle_or_lt (value g) (1 - / 2 ^ 55)) as [H|H]; [exact H|]. exfalso. apply (apart g one); rewrite value_one; lra. }
  pose proof u_pos as U. set (m := (1 - value g) / 2).
  assert (Hm : bpow radix2 (-60) <= m <= / 2).
  { unfold m. split; [|lra]. change (bpow radix2 (-60)) with (/ 1152921504606846976). lra. }
  destruct (halved g Fg ltac:(lra)) as (Fq & Vq). destruct PDoubleQuad.half as (Fh & Vh).
  assert (BB : 300 <= bpow radix2 1023) by (apply Rle_trans with (bpow radix2 9); [change (bpow radix2 9) with 512; lra | apply bpow_le; lia]).
  destruct (add_rel _ _ Fq Fh) as (Fm & e0 & E0 & Vm); [rewrite Vq, Vh; apply Rabs_le; lra|].
  rewrite Vq, Vh in Vm. replace (- value g / 2 + / 2) with m in Vm by (unfold m; field).
  set (mt := (- g * float_dec 5 1 + float_dec 5 1)%float) in *.
  assert (NR : 3 <= INR n <= 26) by (replace 3 with (INR 3) by (cbn; lra); replace 26 with (INR 26) by (cbn; lra); split; apply le_INR; lia).
  destruct (float_of_Z_exact (Z.of_nat n) ltac:(lia)) as (Fn & Vn). rewrite <- INR_IZR_INZ in Vn.
  pose proof (abs_bounds _ _ E0) as B0.
  assert (M0 : 0 < m) by (pose proof (bpow_gt_0 radix2 (-60)); lra).
  assert (NM : 0 < INR n * m <= INR n / 2) by (split; nra).
  assert (MTV : m / 2 <= m * (1 + e0) <= 2 * m) by (split; nra).
  destruct (mul_rel (float_of_Z (Z.of_nat n)) mt Fn Fm) as (Fx & e1 & E1 & Vx).
  { rewrite Vn, Vm. rewrite Rabs_pos_eq by nra. split; [|nra].
    apply Rle_trans with (bpow radix2 (-62)); [apply bpow_le; lia|]. pose proof (bpow_S (-62)) as A1. pose proof (bpow_S (-61)) as A2. change (-62 + 1)%Z with (-61)%Z in A1. change (-61 + 1)%Z with (-60)%Z in A2. pose proof (bpow_gt_0 radix2 (-62)). nra. }
  rewrite Vn, Vm in Vx. pose proof (abs_bounds _ _ E1) as B1.
  assert (VXL : INR n * (m * (1 - 4 * u)) <= value (float_of_Z (Z.of_nat n) * mt)%float <= INR n * (m * (1 + 4 * u))).
  { rewrite Vx. replace (INR n * (m * (1 + e0)) * (1 + e1)) with (INR n * (m * ((1 + e0) * (1 + e1)))) by ring.
    assert (1 - 4 * u <= (1 + e0) * (1 + e1) <= 1 + 4 * u) by nra.
    split; apply Rmult_le_compat_l; try lra; apply Rmult_le_compat_l; lra. }
  assert (MU : m * (1 + 4 * u) <= / 2 * (101 / 100)) by (apply Rmult_le_compat; lra).
  assert (ML : 0 < m * (1 - 4 * u)) by (apply Rmult_lt_0_compat; lra).
  destruct (terms_float L HL _ Fx) as (k & Ek & Hk & Lk); [nra|].
  assert (KN : (k <= n)%nat). { apply INR_le. assert (INR k < INR n * (/ 2 * (101 / 100)) + 1) by nra. lra. }
  rewrite (fdist_ok L HL prof n g mt k ltac:(lia) eq_refl Ek ltac:(lia)). eexists; split; [reflexivity|].
  (* the exact sum *)
  pose proof (arg_bounds n (value g) ltac:(lia) ltac:(lra)) as AB.
  destruct (terms_ok n (arg n (value g)) ltac:(lia) ltac:(lra)) as (k' & _ & Hk' & Lk').
  assert (AM : arg n (value g) = INR n * m) by reflexivity. rewrite AM in Lk', AB.
  assert (KN' : (k' <= n)%nat). { apply INR_le. lra. }
  assert (DV : forall s, INR s / INR n * INR n = INR s) by (intro s; field; lra).
  destruct (float_sum n m mt e0 Hn Hm Fm Vm E0 L k ltac:(lia)) with (k' := k') as (FS & ES & AS).
  { intros s Hs. apply Rmult_le_reg_r with (INR n); [lra|]. rewrite DV. assert (INR s + 1 <= INR k) by (rewrite <- S_INR; apply le_INR; lia). lra. }
  { intros s _ Hs. apply Rmult_le_reg_r with (INR n); [lra|]. rewrite DV. assert (INR k <= INR s) by (apply le_INR; lia). lra. }
  { exact KN'. }
  { intros s Hs. apply Rmult_lt_reg_r with (INR n); [lra|]. rewrite DV. assert (INR s + 1 <= INR k') by (rewrite <- S_INR; apply le_INR; lia). lra. }
  { intros s _ Hs. apply Rmult_le_reg_r with (INR n); [lra|]. rewrite DV. assert (INR k' <= INR s) by (apply le_INR; lia). lra. }
  assert (SC : Rsum (map (exact_term n m) (seq 0 k')) = S_sum n (n - 2) (value g)).
  { rewrite <- (sum_closed n (n - 2) (value g) k') by (try lia; rewrite AM; lra). apply Rsum_ext. intros s _. unfold exact_term, x. rewrite <- pow_powerRZ. reflexivity. }
  rewrite SC in ES, AS. rewrite (P_front n (value g)) by (lia || lra).
  destruct (prefactor_error L HP n g ltac:(lia) Fg ltac:(lra)) as (Fp & Rp & Bp).
  set (pf := prefactor (l_pi L) g n) in *. set (sm := ssum _) in *. set (S0 := S_sum n (n - 2) (value g)) in *. set (fr := front n (value g)) in *.
  set (W := m ^ (n - 2)) in *. assert (W0 : 0 < W) by (apply pow_lt, M0). assert (W1 : W <= 1) by (unfold W; rewrite <- (pow1 (n - 2)); apply pow_incr; lra).
  assert (T2 : 1 <= 2 ^ n <= bpow radix2 26). { split; [apply pow_R1_Rle; lra|]. rewrite pow_powerRZ_2. apply bpow_le. lia. }
  pose proof eta0_pos as T. set (t := 2 ^ n) in *. set (nr := INR n) in *.
  pose proof (rounded_bound 11 fr (value pf) ltac:(lia) Rp) as RB. replace (INR 11) with 11 in RB by (cbn; lra).
  assert (FR0 : 0 < fr) by (pose proof (bpow_gt_0 radix2 (-85)); lra). rewrite (Rabs_pos_eq fr) in RB by lra.
  assert (NU : 0 <= nr * u <= / 1000000) by (split; nra). assert (NE : 0 <= nr * eta0 <= / 1000000) by (split; nra).
  assert (NW : 0 <= nr * u * W <= / 1000000 * W) by (split; [apply Rmult_le_pos; lra | apply Rmult_le_compat_r; lra]).
  assert (SB : Rabs (value sm) <= t * (1001 / 1000 * W + 4 * (nr * eta0))).
  { replace (value sm) with (S0 + (value sm - S0)) by ring. eapply Rle_trans; [apply Rabs_triang|].
    apply Rle_trans with (t * W + t * (14 * nr * u * W + 4 * nr * eta0)); [lra|]. rewrite <- Rmult_plus_distr_l. apply Rmult_le_compat_l; lra. }
  assert (UF : u * fr <= / 100000 * fr) by (apply Rmult_le_compat_r; lra).
  assert (PB : Rabs (value pf) <= 1001 / 1000 * fr).
  { replace (value pf) with (fr + (value pf - fr)) by ring. eapply Rle_trans; [apply Rabs_triang|]. rewrite (Rabs_pos_eq fr) by lra. lra. }
  set (Q := t * (1001 / 1000 * W + 4 * (nr * eta0))) in *. assert (Q0 : 0 <= Q) by (apply Rmult_le_pos; lra).
  assert (Q2 : Q <= bpow radix2 26 * 2) by (apply Rmult_le_compat; lra).
  assert (PS : Rabs (value pf * value sm) <= 1001 / 1000 * fr * Q) by (rewrite Rabs_mult; apply Rmult_le_compat; try apply Rabs_pos; assumption).
  destruct (mul_raw pf sm Fp FS) as (Fv & Vv).
  { eapply Rle_trans; [exact PS|]. apply Rle_trans with (2 * bpow radix2 924 * (bpow radix2 26 * 2)).
    - pose proof (bpow_gt_0 radix2 924). apply Rmult_le_compat; try lra. 
    - replace (2 * bpow radix2 924 * (bpow radix2 26 * 2)) with (bpow radix2 952); [apply bpow_le; lia|].
      change 952%Z with (924 + 26 + 2)%Z. rewrite !bpow_plus. change (bpow radix2 2) with 4. ring. }
  split; [exact Fv|]. destruct (rnd_abs (value pf * value sm)) as (e & d & E & D & RE). rewrite Vv, RE.
  assert (D' : Rabs d <= eta0) by (apply Rle_trans with (1 := D); apply bpow_le; lia).
  replace (value pf * value sm * (1 + e) + d - fr * S0) with (fr * (value sm - S0) + (value pf - fr) * value sm + value pf * value sm * e + d) by ring.
  assert (X1 : Rabs (fr * (value sm - S0)) <= fr * (t * (14 * nr * u * W + 4 * nr * eta0))) by (rewrite Rabs_mult, (Rabs_pos_eq fr) by lra; apply Rmult_le_compat_l; lra).
  assert (X2 : Rabs ((value pf - fr) * value sm) <= 2 * 11 * u * fr * Q) by (rewrite Rabs_mult; apply Rmult_le_compat; try apply Rabs_pos; assumption).
  assert (X3 : Rabs (value pf * value sm * e) <= 1001 / 1000 * fr * Q * u) by (rewrite Rabs_mult; apply Rmult_le_compat; try apply Rabs_pos; assumption).
  eapply Rle_trans; [apply Rabs_triang|]. eapply Rle_trans; [apply Rplus_le_compat_r, Rabs_triang|].
  eapply Rle_trans; [apply Rplus_le_compat_r, Rplus_le_compat_r, Rabs_triang|].
  assert (TINY : fr * (t * (5 * (nr * eta0))) + eta0 <= powerRZ 2 (-100)).
  { rewrite pw. assert (N8 : 5 * nr <= bpow radix2 8) by (change (bpow radix2 8) with 256; lra).
    assert (A1 : t * (5 * (nr * eta0)) <= bpow radix2 26 * (bpow radix2 8 * eta0)).
    { apply Rmult_le_compat; try lra. rewrite <- Rmult_assoc. apply Rmult_le_compat_r; lra. }
    assert (A2 : fr * (t * (5 * (nr * eta0))) <= bpow radix2 924 * (bpow radix2 26 * (bpow radix2 8 * eta0))).
    { apply Rmult_le_compat; try lra. apply Rmult_le_pos; lra. }
    unfold eta0 in A2 at 2. rewrite <- !bpow_plus in A2. change (924 + (26 + (8 + -1074)))%Z with (-116)%Z in A2.
    assert (A3 : bpow radix2 (-116) <= bpow radix2 (-101)) by (apply bpow_le; lia). assert (A4 : eta0 <= bpow radix2 (-101)) by (apply bpow_le; lia).
    pose proof (bpow_S (-101)) as A5. change (-101 + 1)%Z with (-100)%Z in A5. lra. }
  assert (MAIN : t * (14 * nr * u * W + 4 * nr * eta0) + 2 * 11 * u * Q + 1001 / 1000 * Q * u <= t * (22 * nr * u * W) + t * (5 * (nr * eta0))).
  { unfold Q. rewrite <- Rmult_plus_distr_l.
    replace (t * (14 * nr * u * W + 4 * nr * eta0) + 2 * 11 * u * (t * (1001 / 1000 * W + 4 * (nr * eta0))) + 1001 / 1000 * (t * (1001 / 1000 * W + 4 * (nr * eta0))) * u)
      with (t * (14 * nr * u * W + 4 * nr * eta0 + 23001 / 1000 * u * (1001 / 1000 * W + 4 * (nr * eta0)))) by field.
    apply Rmult_le_compat_l; [lra|]. assert (Y1 : 3 * (u * W) <= nr * u * W) by (rewrite <- Rmult_assoc; apply Rmult_le_compat_r; [lra|]; apply Rmult_le_compat_r; lra).
    assert (Y2 : u * (nr * eta0) <= / 1000000 * (nr * eta0)) by (apply Rmult_le_compat_r; lra). lra. }
  assert (FIN : fr * (t * (14 * nr * u * W + 4 * nr * eta0)) + 2 * 11 * u * fr * Q + 1001 / 1000 * fr * Q * u <= fr * (t * (22 * nr * u * W)) + fr * (t * (5 * (nr * eta0)))).
  { replace (fr * (t * (14 * nr * u * W + 4 * nr * eta0)) + 2 * 11 * u * fr * Q + 1001 / 1000 * fr * Q * u)
      with (fr * (t * (14 * nr * u * W + 4 * nr * eta0) + 2 * 11 * u * Q + 1001 / 1000 * Q * u)) by field. rewrite <- Rmult_plus_distr_l. apply Rmult_le_compat_l; lra. }
  lra.
Qed.

Lemma density_error : forall prof (N : Z) g, (3 <= N <= 26)%Z -> finite g -> powerRZ 2 (-800) <= value g < 1 ->
  exists v, @fjc_isometric.nondimensional_equilibrium_distribution float (F64 L) prof N g = Some v /\ finite v /\
    Rabs (value v - IZR N ^ 3 * walk_density (Z.to_nat N) (IZR N * value g))
      <= 88 * IZR N * u * (IZR N ^ Z.to_nat N * (1 - value g) ^ Z.to_nat (N - 2) / (8 * PI * value g * INR (fact (Z.to_nat (N - 2))))) + powerRZ 2 (-100).
Proof.
  intros prof N g HN Fg Hg. destruct (Z_of_nat_complete N) as (n & ->); [lia|]. assert (G0 : 0 < value g) by (rewrite pw in Hg; pose proof (bpow_gt_0 radix2 (-800)); lra).
  destruct (density_error_nat prof n g ltac:(lia) Fg Hg) as (v & E & Fv & B). exists v. split; [exact E|]. split; [exact Fv|].
  rewrite Nat2Z.id. replace (Z.to_nat (Z.of_nat n - 2)) with (n - 2)%nat by lia. rewrite <- INR_IZR_INZ.
  rewrite (P_walk n (value g)) in B by (lia || lra). eapply Rle_trans; [exact B|]. apply Rplus_le_compat_r. apply Req_le.
  unfold front. rewrite zfact_fact, <- pow_IZR, <- INR_IZR_INZ. pose proof (INR_fact_neq_0 (n - 2)). pose proof PI_RGT_0.
  replace (2 ^ n) with (4 * 2 ^ (n - 2)) by (replace n with (2 + (n - 2))%nat at 2 by lia; rewrite pow_add; cbn; ring).
  replace (((1 - value g) / 2) ^ (n - 2)) with ((1 - value g) ^ (n - 2) * / 2 ^ (n - 2)) by (unfold Rdiv; rewrite Rpow_mult_distr, pow_inv; reflexivity).
  assert (2 ^ (n - 2) <> 0) by (apply pow_nonzero; lra). field. repeat split; try lra; assumption.
Qed.

Lemma density_zero : forall prof (N : Z) g, In N [4; 8; 16]%Z -> finite g -> powerRZ 2 (-800) <= value g <= / 2 ^ 57 ->
  exists v, @fjc_isometric.nondimensional_equilibrium_distribution float (F64 L) prof N g = Some v /\ finite v /\ value v = 0 /\
    0 < IZR N ^ 3 * walk_density (Z.to_nat N) (IZR N * value g).
Proof.
  intros prof N g HN Fg Hg. destruct (small_zero L HL HP prof N g HN Fg Hg) as (v & A & B & C). exists v. repeat split; try assumption.
  assert (NB : (2 <= N <= 26)%Z) by (cbn in HN; lia). assert (GB : 0 < value g < 1) by (rewrite pw in Hg; pose proof (bpow_gt_0 radix2 (-800)); lra).
  destruct (z_positive Debug N (value g) NB GB) as (q & E & Q). rewrite (z_density Debug N (value g) NB GB) in E. injection E as <-. exact Q.
Qed.

Lemma density_negative : forall prof (N : Z) g, In N [5; 6; 10; 12; 13; 14; 21; 22; 25; 26]%Z -> finite g -> powerRZ 2 (-800) <= value g <= / 2 ^ 57 ->
  exists v, @fjc_isometric.nondimensional_equilibrium_distribution float (F64 L) prof N g = Some v /\ finite v /\ value v < 0.
Proof. exact (small_negative L HL HP). Qed.

Lemma force_wrong : forall prof (N : Z) g, In N [4; 8; 16]%Z -> finite g -> powerRZ 2 (-1000) <= value g <= / 2 ^ 57 ->
  @fjc_isometric.nondimensional_force float (F64 L) prof N g = Some neg_infinity /\
  exists f, @fjc_isometric.nondimensional_force R R_scalar prof N (value g) = Some f /\ 0 < f.
Proof.
  intros prof N g HN Fg Hg. split; [apply (force_infinite L HL); assumption|].
  apply (force_positive prof N); [cbn in HN; lia | cbn in HN; lia|]. rewrite pw in Hg. pose proof (bpow_gt_0 radix2 (-1000)). lra.
Qed.
End Density.
