(** Relative errors of several roundings, powers, and integers as doubles. *)
From Coq Require Import Reals ZArith Lra Lia List Floats.
From Flocq Require Import Core BinarySingleNaN PrimFloat.
From Verif Require Import Scalar F64 SpecDouble PDouble PDoubleFjc PDoubleQuad.
From Coq Require Import Floats.
Import ListNotations.
Open Scope R_scope.

Notation u := unit_roundoff.

(** [y] is [x] after [k] roundings. *)
Definition rounded (k : nat) (x y : R) : Prop := exists e, Rabs e <= (1 + u) ^ k - 1 /\ y = x * (1 + e).

Lemma rounded_0 : forall x, rounded 0 x x.
Proof. intro x. exists 0. rewrite Rabs_R0. split; [cbn; lra | ring]. Qed.
Lemma rounded_1 : forall x e, Rabs e <= u -> rounded 1 x (x * (1 + e)).
Proof. intros x e H. exists e. split; [cbn; lra | reflexivity]. Qed.
Lemma rounded_weak : forall j k x y, (j <= k)%nat -> rounded j x y -> rounded k x y.
Proof.
  intros j k x y H (e & E & ->). exists e. split; [|reflexivity]. apply Rle_trans with (1 := E).
  pose proof u_pos. apply Rplus_le_compat_r. apply Rle_pow; [lra | exact H].
Qed.
Lemma combine : forall j k e f, Rabs e <= (1 + u) ^ j - 1 -> Rabs f <= (1 + u) ^ k - 1 -> Rabs ((1 + e) * (1 + f) - 1) <= (1 + u) ^ (j + k) - 1.
Proof.
  intros j k e f E F. rewrite pow_add. replace ((1 + e) * (1 + f) - 1) with (e + f + e * f) by ring.
  set (a := (1 + u) ^ j) in *. set (b := (1 + u) ^ k) in *.
  assert (Rabs (e * f) <= (a - 1) * (b - 1)) by (rewrite Rabs_mult; apply Rmult_le_compat; try apply Rabs_pos; assumption).
  pose proof (Rabs_triang (e + f) (e * f)). pose proof (Rabs_triang e f). lra.
Qed.
Lemma rounded_trans : forall j k x y z, rounded j x y -> rounded k y z -> rounded (j + k) x z.
Proof.
  intros j k x y z (e & E & ->) (f & F & ->). exists ((1 + e) * (1 + f) - 1). split; [apply combine; assumption | ring].
Qed.
Lemma rounded_mult : forall j k x y a b, rounded j x a -> rounded k y b -> rounded (j + k) (x * y) (a * b).
Proof.
  intros j k x y a b (e & E & ->) (f & F & ->). exists ((1 + e) * (1 + f) - 1). split; [apply combine; assumption | ring].
Qed.
Lemma rounded_inv : forall x y, x <> 0 -> rounded 1 x y -> rounded 2 (/ x) (/ y).
Proof.
  intros x y Hx (e & E & ->). pose proof u_pos as U. replace ((1 + u) ^ 1 - 1) with u in E by ring. apply abs_bounds in E.
  exists (- e / (1 + e)). split; [|field; lra].
  unfold Rdiv. rewrite Rabs_mult, Rabs_Ropp, Rabs_inv, (Rabs_pos_eq (1 + e)) by lra.
  assert (A : Rabs e <= u) by (apply Rabs_le; lra). apply Rmult_le_reg_r with (1 + e); [lra|]. rewrite Rmult_assoc, Rinv_l by lra. nra.
Qed.
Lemma rounded_div : forall j x y a b, y <> 0 -> rounded j x a -> rounded 1 y b -> rounded (j + 2) (x / y) (a / b).
Proof. intros j x y a b Hy A B. apply rounded_mult; [exact A | apply rounded_inv; assumption]. Qed.
Lemma rounded_bound : forall k x y, (k <= 1000)%nat -> rounded k x y -> Rabs (y - x) <= 2 * INR k * u * Rabs x.
Proof.
  intros k x y Hk (e & E & ->). replace (x * (1 + e) - x) with (e * x) by ring. rewrite Rabs_mult. apply Rmult_le_compat_r; [apply Rabs_pos|].
  pose proof u_pos as U. assert (INR k <= 1000) by (change 1000 with (IZR (Z.of_nat 1000)); rewrite <- INR_IZR_INZ; apply le_INR, Hk).
  pose proof (pos_INR k). pose proof (pow_linear k ltac:(nra)) as P. lra.
Qed.
(** Twice as large or small at most. *)
Lemma rounded_size : forall k x y, (k <= 1000)%nat -> rounded k x y -> Rabs x / 2 <= Rabs y <= 2 * Rabs x.
Proof.
  intros k x y Hk H. pose proof (rounded_bound k x y Hk H) as B. pose proof u_pos as U.
  assert (INR k <= 1000) by (change 1000 with (IZR (Z.of_nat 1000)); rewrite <- INR_IZR_INZ; apply le_INR, Hk). pose proof (pos_INR k).
  assert (2 * INR k * u <= / 2) by nra. assert (X : 2 * INR k * u * Rabs x <= / 2 * Rabs x) by (apply Rmult_le_compat_r; [apply Rabs_pos | assumption]).
  pose proof (Rabs_triang_inv y x). pose proof (Rabs_triang_inv x y). rewrite (Rabs_minus_sym x y) in *. lra.
Qed.
Lemma rounded_sign : forall k x y, (k <= 1000)%nat -> rounded k x y -> (0 < x -> 0 < y) /\ (x < 0 -> y < 0).
Proof.
  intros k x y Hk (e & E & ->). pose proof u_pos as U.
  assert (INR k <= 1000) by (change 1000 with (IZR (Z.of_nat 1000)); rewrite <- INR_IZR_INZ; apply le_INR, Hk). pose proof (pos_INR k).
  pose proof (pow_linear k ltac:(nra)) as P. assert (E2 : Rabs e <= / 2) by nra. apply abs_bounds in E2. split; intro; nra.
Qed.

(** ** Integers *)
Lemma float_of_Z_rounded : forall z, (0 < z < 2 ^ 1000)%Z -> finite (float_of_Z z) /\ rounded 1 (IZR z) (value (float_of_Z z)).
Proof.
  intros z Hz. assert (P : Prec_gt_0 FloatOps.prec) by reflexivity.
  assert (E : Prim2B (float_of_Z z) = BinarySingleNaN.binary_normalize FloatOps.prec emax Hprec Hmax mode_NE z 0 false).
  { unfold float_of_Z. rewrite binary_normalize_equiv. apply Prim2B_B2Prim. }
  pose proof (binary_normalize_correct FloatOps.prec emax Hprec Hmax mode_NE z 0 false) as C. cbv zeta in C.
  assert (FZ : F2R (Float radix2 z 0) = IZR z) by (unfold F2R; cbn; ring). rewrite FZ in C. cbn [round_mode] in C.
  assert (Z1 : 1 <= IZR z) by (apply IZR_le; lia).
  assert (Z2 : IZR z <= bpow radix2 1000).
  { rewrite <- (IZR_Zpower radix2 1000) by lia. apply IZR_le. change (Zpower radix2 1000) with (2 ^ 1000)%Z. lia. }
  rewrite Rlt_bool_true in C.
  - destruct C as (C1 & C2 & _). rewrite finite_B, value_B2R, E. split; [exact C2|]. rewrite C1.
    destruct (rnd_rel (IZR z)) as (e & E1 & ->); [|apply rounded_1, E1].
    rewrite Rabs_pos_eq by lra. apply Rle_trans with (bpow radix2 0); [apply bpow_le; lia | exact Z1].
  - apply rnd_big. rewrite Rabs_pos_eq by lra. apply Rle_trans with (1 := Z2). apply bpow_le. lia.
Qed.

(** ** One more operation *)
Lemma mul_rounded : forall j k X Y x y, (j + k <= 1000)%nat -> finite x -> finite y -> rounded j X (value x) -> rounded k Y (value y) ->
  bpow radix2 (-1000) <= Rabs (X * Y) <= bpow radix2 1000 -> finite (x * y)%float /\ rounded (j + k + 1) (X * Y) (value (x * y)%float).
Proof.
  intros j k X Y x y Hjk Fx Fy RX RY [B1 B2]. pose proof (rounded_mult _ _ _ _ _ _ RX RY) as RM. pose proof (rounded_size _ _ _ Hjk RM) as [S1 S2].
  assert (A : bpow radix2 (-1022) <= Rabs (X * Y) / 2).
  { apply Rle_trans with (bpow radix2 (-1001)); [apply bpow_le; lia|]. pose proof (bpow_S (-1001)) as E. change (-1001 + 1)%Z with (-1000)%Z in E. lra. }
  assert (B : 2 * Rabs (X * Y) <= bpow radix2 1023).
  { apply Rle_trans with (bpow radix2 1001); [|apply bpow_le; lia]. pose proof (bpow_S 1000) as E. change (1000 + 1)%Z with 1001%Z in E. lra. }
  destruct (mul_rel x y Fx Fy ltac:(lra)) as (F & e & E & V). split; [exact F|]. apply rounded_trans with (1 := RM). rewrite V. apply rounded_1, E.
Qed.
Lemma div_rounded : forall j X Y x y, (j <= 900)%nat -> Y <> 0 -> finite x -> rounded j X (value x) -> rounded 1 Y (value y) ->
  bpow radix2 (-1000) <= Rabs (X / Y) <= bpow radix2 1000 -> finite (x / y)%float /\ rounded (j + 3) (X / Y) (value (x / y)%float).
Proof.
  intros j X Y x y Hj HY Fx RX RY [B1 B2]. pose proof (rounded_div _ _ _ _ _ HY RX RY) as RM. pose proof (rounded_size (j + 2) _ _ ltac:(lia) RM) as [S1 S2].
  assert (Y0 : value y <> 0). { pose proof (rounded_size 1 _ _ ltac:(lia) RY) as [T1 _]. intro Z. rewrite Z, Rabs_R0 in T1. pose proof (Rabs_pos_lt Y HY). lra. }
  assert (A : bpow radix2 (-1022) <= Rabs (X / Y) / 2).
  { apply Rle_trans with (bpow radix2 (-1001)); [apply bpow_le; lia|]. pose proof (bpow_S (-1001)) as E. change (-1001 + 1)%Z with (-1000)%Z in E. lra. }
  assert (B : 2 * Rabs (X / Y) <= bpow radix2 1023).
  { apply Rle_trans with (bpow radix2 1001); [|apply bpow_le; lia]. pose proof (bpow_S 1000) as E. change (1000 + 1)%Z with 1001%Z in E. lra. }
  destruct (div_rel x y Fx Y0 ltac:(lra)) as (F & e & E & V). split; [exact F|]. replace (j + 3)%nat with (j + 2 + 1)%nat by lia. apply rounded_trans with (1 := RM). rewrite V. apply rounded_1, E.
Qed.

(** ** Powers of numbers below 3/4 *)
Definition eta0 : R := bpow radix2 (-1074).
Lemma eta0_pos : 0 < eta0 <= / 2 ^ 60.
Proof. split; [apply bpow_gt_0|]. apply Rle_trans with (bpow radix2 (-60)); [apply bpow_le; lia|]. change (bpow radix2 (-60)) with (/ 1152921504606846976). lra. Qed.

Lemma pow_diff : forall n a b M, Rabs a <= M -> Rabs b <= M -> Rabs (a ^ S n - b ^ S n) <= INR (S n) * Rabs (a - b) * M ^ n.
Proof.
  induction n as [|n IH]; intros a b M A B; [cbn; rewrite !Rmult_1_r; lra|].
  replace (a ^ S (S n) - b ^ S (S n)) with (a * (a ^ S n - b ^ S n) + (a - b) * b ^ S n) by (cbn [pow]; ring).
  eapply Rle_trans; [apply Rabs_triang|]. rewrite !Rabs_mult, (S_INR (S n)). specialize (IH a b M A B).
  assert (M0 : 0 <= M) by (pose proof (Rabs_pos a); lra).
  assert (X1 : Rabs a * Rabs (a ^ S n - b ^ S n) <= M * (INR (S n) * Rabs (a - b) * M ^ n)) by (apply Rmult_le_compat; try apply Rabs_pos; assumption).
  assert (X2 : Rabs (b ^ S n) <= M ^ S n) by (rewrite <- RPow_abs; apply pow_incr; split; [apply Rabs_pos | exact B]).
  assert (X3 : Rabs (a - b) * Rabs (b ^ S n) <= Rabs (a - b) * M ^ S n) by (apply Rmult_le_compat_l; [apply Rabs_pos | exact X2]).
  cbn [pow] in *. lra.
Qed.

Lemma pow_diff_1 : forall n a b, Rabs a <= 1 -> Rabs b <= 1 -> Rabs (a ^ n - b ^ n) <= INR n * Rabs (a - b).
Proof.
  intros [|n] a b A B; [cbn; rewrite Rminus_eq_0, Rabs_R0; lra|]. pose proof (pow_diff n a b 1 A B) as H. rewrite pow1, Rmult_1_r in H. exact H.
Qed.

Lemma rnd_le_34 : forall x, Rabs x <= 9 / 16 -> Rabs (rnd x) <= 3 / 4.
Proof.
  intros x H. destruct (rnd_abs x) as (e & d & E & D & ->). pose proof u_pos as U. pose proof eta0_pos.
  assert (D' : Rabs d <= eta0) by (apply Rle_trans with (1 := D); apply bpow_le; lia).
  eapply Rle_trans; [apply Rabs_triang|]. rewrite Rabs_mult. assert (Rabs (1 + e) <= 1 + u) by (eapply Rle_trans; [apply Rabs_triang|]; rewrite Rabs_R1; lra).
  assert (Rabs x * Rabs (1 + e) <= 9 / 16 * (1 + u)) by (apply Rmult_le_compat; try apply Rabs_pos; assumption). lra.
Qed.

Lemma powi_error : forall (q : positive), (q <= 1000)%positive -> forall x, finite x -> Rabs (value x) <= 3 / 4 ->
  finite (Pos.iter_op PrimFloat.mul q x) /\
  exists e d, Rabs e <= (1 + u) ^ (Pos.to_nat q - 1) - 1 /\ Rabs d <= INR (Pos.to_nat q) * eta0 /\
    value (Pos.iter_op PrimFloat.mul q x) = value x ^ Pos.to_nat q * (1 + e) + d.
Proof.
  pose proof u_pos as U. pose proof eta0_pos as T.
  assert (BIG : 1 <= bpow radix2 1023) by (change 1 with (bpow radix2 0); apply bpow_le; lia).
  (* the square and the rest *)
  assert (SQ : forall q, (forall x, finite x -> Rabs (value x) <= 3 / 4 ->
      finite (Pos.iter_op PrimFloat.mul q x) /\
      exists e d, Rabs e <= (1 + u) ^ (Pos.to_nat q - 1) - 1 /\ Rabs d <= INR (Pos.to_nat q) * eta0 /\
        value (Pos.iter_op PrimFloat.mul q x) = value x ^ Pos.to_nat q * (1 + e) + d) -> (Pos.to_nat q <= 1000)%nat ->
    forall x, finite x -> Rabs (value x) <= 3 / 4 ->
      finite (Pos.iter_op PrimFloat.mul q (x * x)%float) /\
      exists e d, Rabs e <= (1 + u) ^ (2 * Pos.to_nat q - 1) - 1 /\ Rabs d <= 2 * INR (Pos.to_nat q) * eta0 /\
        value (Pos.iter_op PrimFloat.mul q (x * x)%float) = value x ^ (2 * Pos.to_nat q) * (1 + e) + d).
  { intros q IH Hq x Fx Hx. assert (X2 : Rabs (value x * value x) <= 9 / 16).
    { rewrite Rabs_mult. replace (9 / 16) with (3 / 4 * (3 / 4)) by field. apply Rmult_le_compat; try apply Rabs_pos; assumption. }
    destruct (mul_raw x x Fx Fx ltac:(lra)) as (F2 & V2). assert (B2 : Rabs (value (x * x)%float) <= 3 / 4) by (rewrite V2; apply rnd_le_34, X2).
    destruct (IH _ F2 B2) as (F & e & d & E & D & V). split; [exact F|].
    destruct (rnd_abs (value x * value x)) as (e1 & d1 & E1 & D1 & R1). rewrite R1 in V2.
    set (n := Pos.to_nat q) in *. set (w := value x * value x * (1 + e1)) in *. assert (N1 : (1 <= n)%nat) by (unfold n; pose proof (Pos2Nat.is_pos q); lia).
    assert (D1' : Rabs d1 <= eta0 / 2).
    { unfold eta0. replace (-1074)%Z with (-1075 + 1)%Z by reflexivity. rewrite bpow_S. lra. }
    assert (W1 : Rabs w <= 1).
    { replace w with (value (x * x)%float - d1) by (rewrite V2; ring). eapply Rle_trans; [apply Rabs_triang|]. rewrite Rabs_Ropp. lra. }
    pose proof (pow_diff_1 n (value (x * x)%float) w ltac:(lra) W1) as PD. replace (value (x * x)%float - w) with d1 in PD by (rewrite V2; ring).
    set (dl := value (x * x)%float ^ n - w ^ n) in *.
    assert (EN : exists f, Rabs f <= (1 + u) ^ n - 1 /\ (1 + e1) ^ n = 1 + f).
    { exists ((1 + e1) ^ n - 1). split; [|ring]. clear - E1 U. induction n as [|n IH]; [cbn; rewrite Rminus_eq_0, Rabs_R0; lra|].
      change ((1 + e1) ^ S n) with ((1 + e1) * (1 + e1) ^ n). pose proof (combine 1 n e1 ((1 + e1) ^ n - 1) ltac:(rewrite pow_1; lra) IH) as C.
      replace (1 + ((1 + e1) ^ n - 1)) with ((1 + e1) ^ n) in C by ring. exact C. }
    destruct EN as (f & Ef & Pf).
    exists ((1 + f) * (1 + e) - 1), (dl * (1 + e) + d). split; [|split].
    - replace (2 * n - 1)%nat with (n + (n - 1))%nat by lia. apply combine; assumption.
    - assert (E2 : Rabs (1 + e) <= 2).
      { assert (INR n <= 1000) by (change 1000 with (IZR (Z.of_nat 1000)); rewrite <- INR_IZR_INZ; apply le_INR, Hq).
        assert (INR (n - 1) <= INR n) by (apply le_INR; lia). pose proof (pos_INR (n - 1)).
        pose proof (pow_linear (n - 1) ltac:(nra)) as P. eapply Rle_trans; [apply Rabs_triang|]. rewrite Rabs_R1. nra. }
      eapply Rle_trans; [apply Rabs_triang|]. rewrite Rabs_mult.
      assert (Rabs dl * Rabs (1 + e) <= INR n * (eta0 / 2) * 2).
      { apply Rmult_le_compat; try apply Rabs_pos; [|exact E2]. apply Rle_trans with (1 := PD). apply Rmult_le_compat_l; [apply pos_INR | exact D1']. }
      lra.
    - rewrite V. replace (value (x * x)%float ^ n) with (w ^ n + dl) by (unfold dl; ring).
      unfold w. rewrite !Rpow_mult_distr, Pf. rewrite pow_mult. replace (value x ^ 2) with (value x * value x) by ring. rewrite Rpow_mult_distr. ring. }
  induction q as [q IH|q IH|]; intros Hq x Fx Hx.
  - specialize (SQ q (IH ltac:(lia)) ltac:(lia) x Fx Hx). cbn [Pos.iter_op]. set (y := Pos.iter_op PrimFloat.mul q (x * x)%float) in *.
    destruct SQ as (Fy & e & d & E & D & V). set (n := Pos.to_nat q) in *. rewrite Pos2Nat.inj_xI. fold n.
    assert (N1 : (1 <= n <= 1000)%nat) by (unfold n; pose proof (Pos2Nat.is_pos q); lia).
    assert (NR : INR n <= 1000) by (change 1000 with (IZR (Z.of_nat 1000)); rewrite <- INR_IZR_INZ; apply le_INR; lia).
    assert (E2 : Rabs (1 + e) <= 2).
    { assert (INR (2 * n - 1) <= 2 * INR n) by (replace (2 * INR n) with (INR (2 * n)) by (rewrite mult_INR; cbn; ring); apply le_INR; lia). pose proof (pos_INR (2 * n - 1)).
      pose proof (pow_linear (2 * n - 1) ltac:(nra)) as P. eapply Rle_trans; [apply Rabs_triang|]. rewrite Rabs_R1. nra. }
    assert (XP : Rabs (value x ^ (2 * n)) <= 1).
    { rewrite <- RPow_abs. rewrite <- (pow1 (2 * n)). apply pow_incr. split; [apply Rabs_pos | lra]. }
    pose proof (pos_INR n) as NP.
    assert (DB : Rabs d <= 1) by nra.
    assert (Y : Rabs (value y) <= 3).
    { rewrite V. eapply Rle_trans; [apply Rabs_triang|]. rewrite Rabs_mult.
      assert (Rabs (value x ^ (2 * n)) * Rabs (1 + e) <= 1 * 2) by (apply Rmult_le_compat; try apply Rabs_pos; assumption). lra. }
    assert (B4 : 4 <= bpow radix2 1023) by (change 4 with (bpow radix2 2); apply bpow_le; lia).
    assert (XY : Rabs (value x * value y) <= bpow radix2 1023).
    { rewrite Rabs_mult. assert (Rabs (value x) * Rabs (value y) <= 1 * 3) by (apply Rmult_le_compat; try apply Rabs_pos; lra). lra. }
    destruct (mul_raw x y Fx Fy XY) as (F & VV). split; [exact F|].
    destruct (rnd_abs (value x * value y)) as (e1 & d1 & E1 & D1 & R1). rewrite R1 in VV.
    exists ((1 + e) * (1 + e1) - 1), (value x * d * (1 + e1) + d1). split; [|split].
    + replace (S (2 * n) - 1)%nat with (2 * n - 1 + 1)%nat by lia. apply combine; [exact E | rewrite pow_1; lra].
    + assert (D1' : Rabs d1 <= eta0 / 2).
      { unfold eta0. replace (-1074)%Z with (-1075 + 1)%Z by reflexivity. rewrite bpow_S. lra. }
      rewrite S_INR, mult_INR. cbn [INR]. eapply Rle_trans; [apply Rabs_triang|]. rewrite !Rabs_mult.
      assert (E3 : Rabs (1 + e1) <= 1 + u) by (eapply Rle_trans; [apply Rabs_triang|]; rewrite Rabs_R1; lra).
      assert (X1 : Rabs (value x) * Rabs d <= 3 / 4 * (2 * INR n * eta0)) by (apply Rmult_le_compat; try apply Rabs_pos; assumption).
      assert (X2 : Rabs (value x) * Rabs d * Rabs (1 + e1) <= 3 / 4 * (2 * INR n * eta0) * (1 + u)).
      { apply Rmult_le_compat; try apply Rabs_pos; try assumption. apply Rmult_le_pos; apply Rabs_pos. }
      assert (X3 : 0 <= INR n * eta0) by nra. nra.
    + rewrite VV, V. change (value x ^ S (2 * n)) with (value x * value x ^ (2 * n)). ring.
  - specialize (SQ q (IH ltac:(lia)) ltac:(lia) x Fx Hx). cbn [Pos.iter_op]. rewrite Pos2Nat.inj_xO, mult_INR. cbn [INR]. exact SQ.
  - cbn [Pos.iter_op]. split; [exact Fx|]. exists 0, 0. change (Pos.to_nat 1) with 1%nat. rewrite Rabs_R0. cbn. pose proof eta0_pos. repeat split; lra.
Qed.
