(** The lengths that the FJC sampler draws in double precision. *)
From Coq Require Import Reals ZArith List Lra Lia Floats Psatz.
From Flocq Require Import Core Relative Plus_error BinarySingleNaN PrimFloat.
From Verif Require Import Scalar F64 MMonteCarlo SpecMonteCarlo PMonteCarlo SpecDouble SpecSampler PDouble PDoubleFjc PDoubleQuad PDoubleEfjc PDoubleContour PDoubleLibm.
From Coq Require Import Floats.
Import ListNotations.
Open Scope R_scope.

Local Notation u := unit_roundoff.
Local Notation sqrt := R_sqrt.sqrt.
Local Notation least := (bpow radix2 (-1075)).

Lemma sqrt_raw : forall x, finite x -> 0 <= value x -> finite (PrimFloat.sqrt x) /\ value (PrimFloat.sqrt x) = rnd (sqrt (value x)).
Proof.
  intros x F H. rewrite !finite_B, !value_B2R in *. rewrite sqrt_equiv.
  destruct (Bsqrt_correct FloatOps.prec emax Hprec Hmax mode_NE (Prim2B x)) as (E & Fi & _). split; [|exact E]. rewrite Fi.
  destruct (Prim2B x) as [s | s | | s m e B]; try discriminate F; [reflexivity|]. destruct s; [exfalso|reflexivity].
  cbn [B2R cond_Zopp] in H. assert (N : F2R (Float radix2 (Zneg m) e) < 0) by (apply F2R_lt_0; reflexivity). change (- Z.pos m)%Z with (Zneg m) in H. apply Rlt_not_le with (1 := N). exact H.
Qed.

Lemma least_tiny : 0 < least <= u * / 2 ^ 20.
Proof.
  split; [apply bpow_gt_0|]. apply Rle_trans with (bpow radix2 (-73)); [apply bpow_le; lia|]. right.
  change (-73)%Z with (- (73))%Z. rewrite bpow_opp. unfold unit_roundoff. change (bpow radix2 73) with (IZR (Zpower_pos 2 73)).
  replace (IZR (Zpower_pos 2 73)) with (2 ^ 73) by (rewrite pow_IZR; reflexivity). replace (2 ^ 73) with (2 ^ 53 * 2 ^ 20) by (rewrite <- pow_add; reflexivity). rewrite Rinv_mult. reflexivity.
Qed.
Lemma huge : 2 ^ 100 <= bpow radix2 1023.
Proof. rewrite pow_IZR. change (IZR (2 ^ Z.of_nat 100)) with (bpow radix2 100). apply bpow_le. lia. Qed.

(** Products with signs. *)
Lemma near_product : forall x y X Y d, near x X d -> near y Y d -> Rabs X <= 1 -> Rabs Y <= 1 -> 0 <= d <= / 2 ^ 20 ->
  near (x * y)%float (X * Y) (2.1 * d + 1.1 * u).
Proof.
  intros x y X Y d [Fx Hx] [Fy Hy] BX BY [D0 D]. pose proof u_small as U. pose proof least_tiny as TL. pose proof huge as HU.
  assert (E : Rabs (value x * value y - X * Y) <= 2 * d + d * d).
  { replace (value x * value y - X * Y) with (X * (value y - Y) + (Y * (value x - X) + (value x - X) * (value y - Y))) by ring.
    eapply Rle_trans; [apply Rabs_triang|]. eapply Rle_trans; [apply Rplus_le_compat_l; apply Rabs_triang|]. rewrite !Rabs_mult.
    assert (Rabs X * Rabs (value y - Y) <= 1 * d) by (apply Rmult_le_compat; try apply Rabs_pos; assumption).
    assert (Rabs Y * Rabs (value x - X) <= 1 * d) by (apply Rmult_le_compat; try apply Rabs_pos; assumption).
    assert (Rabs (value x - X) * Rabs (value y - Y) <= d * d) by (apply Rmult_le_compat; try apply Rabs_pos; assumption). lra. }
  assert (DD : d * d <= / 2 ^ 20 * d) by (apply Rmult_le_compat_r; assumption).
  assert (PXY : Rabs (X * Y) <= 1).
  { rewrite Rabs_mult. replace 1 with (1 * 1) by ring. apply Rmult_le_compat; try apply Rabs_pos; assumption. }
  destruct (mul_raw x y Fx Fy) as [F V]; [apply within with (1 := E); lra|]. split; [exact F|]. rewrite V.
  destruct (rnd_abs (value x * value y)) as (e & z & He & Hz & ->).
  eapply Rle_trans; [apply round_near with (1 := E) (2 := He) (3 := Hz)|].
  assert ((2 * d + d * d) * u <= (2 * d + d * d) * / 2 ^ 50) by (apply Rmult_le_compat_l; nra).
  assert (u * Rabs (X * Y) <= u * 1) by (apply Rmult_le_compat_l; lra). lra.
Qed.

Lemma dot_le3 : forall (a b c e : R), Rabs a <= e -> Rabs b <= e -> Rabs c <= e -> vlength (a, b, c) <= 2 * e.
Proof.
  intros a b c e A B C. pose proof (Rabs_pos a). apply vlength_le; [lra|]. unfold dot.
  assert (K : forall x, Rabs x <= e -> x * x <= e * e).
  { intros x Hx. replace (x * x) with (Rabs x * Rabs x) by (rewrite <- Rabs_mult, Rabs_pos_eq; [reflexivity | nra]). apply Rmult_le_compat; try apply Rabs_pos; assumption. }
  pose proof (K a A). pose proof (K b B). pose proof (K c C). nra.
Qed.

Section Sampler.
Variable L : libm.
Variable G : Type.
Variable gen : G -> float * G.
Variable d : R.
Hypothesis D : 0 <= d <= / 2 ^ 20.
Hypothesis H : trigonometry d L.
Hypothesis U : forall g, finite (fst (gen g)) /\ 0 <= value (fst (gen g)) <= 1.
Local Instance S : Scalar float := F64 L.

Lemma two_dec : float_dec 2 0 = 2%float.
Proof. vm_compute. reflexivity. Qed.
Lemma value_2 : value 2%float = 2.
Proof.
  unfold value. replace (Prim2SF 2%float) with (S754_finite false 4503599627370496 (-51)) by (vm_compute; reflexivity).
  change (1 * (4503599627370496 * / 2 ^ 51) = 2). lra.
Qed.
Lemma finite_2 : finite 2%float.
Proof. vm_compute. exact I. Qed.

Lemma rnd_range : forall v (a b : float), value a <= v <= value b -> value a <= rnd v <= value b.
Proof. intros v a b [A B]. rewrite <- (rnd_value a), <- (rnd_value b). split; apply rnd_mono; assumption. Qed.

Lemma value_8 : value 8%float = 8.
Proof.
  unfold value. replace (Prim2SF 8%float) with (S754_finite false 4503599627370496 (-49)) by (vm_compute; reflexivity).
  change (1 * (4503599627370496 * / 2 ^ 49) = 8). lra.
Qed.
Lemma value_m1 : value (-1)%float = -1.
Proof.
  unfold value. replace (Prim2SF (-1)%float) with (S754_finite true 4503599627370496 (-52)) by (vm_compute; reflexivity).
  change (-1 * (4503599627370496 * / 2 ^ 52) = -1). lra.
Qed.

Lemma phi_range : forall a, finite a -> 0 <= value a <= 1 -> let phi := (2 * l_pi L * a)%float in finite phi /\ Rabs (value phi) <= 16.
Proof.
  intros a Fa Ha phi. destruct H as (_ & _ & _ & Fp & Hp). pose proof huge as HU.
  destruct (mul_raw 2%float (l_pi L) finite_2 Fp) as [F1 V1]; [rewrite value_2, Rabs_pos_eq; nra|].
  assert (R1 : 0 <= value (2 * l_pi L)%float <= 8).
  { rewrite V1, value_2. pose proof (rnd_range (2 * value (l_pi L)) zero 8%float) as K. rewrite value_zero, value_8 in K. apply K. lra. }
  destruct (mul_raw (2 * l_pi L)%float a F1 Fa) as [F2 V2]; [rewrite Rabs_pos_eq; nra|]. split; [exact F2|]. unfold phi. rewrite V2.
  pose proof (rnd_range (value (2 * l_pi L)%float * value a) zero 8%float) as K. rewrite value_zero, value_8 in K.
  rewrite Rabs_pos_eq; [|apply K; nra]. apply Rle_trans with 8; [apply K; nra | lra].
Qed.

Lemma height_range : forall b, finite b -> 0 <= value b <= 1 -> let z := (1 - 2 * b)%float in finite z /\ -1 <= value z <= 1.
Proof.
  intros b Fb Hb z. pose proof huge as HU.
  destruct (mul_raw 2%float b finite_2 Fb) as [F1 V1]; [rewrite value_2, Rabs_pos_eq; nra|].
  assert (R1 : 0 <= value (2 * b)%float <= 2).
  { rewrite V1, value_2. pose proof (rnd_range (2 * value b) zero 2%float) as K. rewrite value_zero, value_2 in K. apply K. lra. }
  destruct (sub_raw 1%float (2 * b)%float finite_one F1) as [F2 V2]; [change 1%float with one; rewrite value_one; apply Rabs_le; lra|]. split; [exact F2|]. unfold z. rewrite V2.
  pose proof (rnd_range (value one - value (2 * b)%float) (-1)%float one) as K. rewrite value_one, value_m1 in K. change 1%float with one. rewrite value_one. apply K. lra.
Qed.

(** One link: a finite vector whose length is nearly one. *)
Lemma link_near : forall g, let r := fst (fjc_monte_carlo.random_link gen g) in
  all_finite r /\ Rabs (vlength (values r) - 1) <= 4.2 * d + 2.2 * u.
Proof.
  intro g. unfold fjc_monte_carlo.random_link. destruct (gen g) as [a g1] eqn:E1. destruct (gen g1) as [b g2] eqn:E2.
  pose proof (U g) as Ua. rewrite E1 in Ua. cbn [fst] in Ua. pose proof (U g1) as Ub. rewrite E2 in Ub. cbn [fst] in Ub.
  unfold monte_carlo.TWO_PI. cbv zeta. cbn [fst].
  change (@sdec float S) with float_dec. rewrite two_dec. change (float_dec 1 0) with 1%float. cbn [smul ssub ssin scos sacos spi S F64].
  destruct (phi_range a (proj1 Ua) (proj2 Ua)) as [Fp Bp]. destruct (height_range b (proj1 Ub) (proj2 Ub)) as [Fz Bz].
  set (phi := (2 * l_pi L * a)%float) in *. set (z := (1 - 2 * b)%float) in *. destruct H as (Hs & Hc & Ha & _).
  destruct (Ha z Fz Bz) as [Ft Bt]. set (theta := l_acos L z) in *.
  assert (Bt' : Rabs (value theta) <= 16) by lra. pose proof (Hs phi Fp Bp) as S1. pose proof (Hc phi Fp Bp) as C1. pose proof (Hs theta Ft Bt') as S2. pose proof (Hc theta Ft Bt') as C2.
  assert (KS : forall x, Rabs (sin x) <= 1) by (intro x; pose proof (SIN_bound x); apply Rabs_le; lra).
  assert (KC : forall x, Rabs (cos x) <= 1) by (intro x; pose proof (COS_bound x); apply Rabs_le; lra).
  pose proof u_small as Us.
  destruct (near_product _ _ _ _ _ S2 C1 (KS _) (KC _) D) as [F1 N1]. destruct (near_product _ _ _ _ _ S2 S1 (KS _) (KS _) D) as [F2 N2].
  assert (N3 : Rabs (value (l_cos L theta) - cos (value theta)) <= 2.1 * d + 1.1 * u) by (destruct C2; lra).
  split; [repeat split; [exact F1 | exact F2 | apply C2]|]. unfold values.
  set (x := value (l_sin L theta * l_cos L phi)%float) in *. set (y := value (l_sin L theta * l_sin L phi)%float) in *. set (w := value (l_cos L theta)) in *.
  set (X := sin (value theta) * cos (value phi)) in *. set (Y := sin (value theta) * sin (value phi)) in *. set (W := cos (value theta)) in *.
  assert (UN : vlength (X, Y, W) = 1).
  { unfold vlength, dot, X, Y, W. rewrite <- sqrt_1. f_equal. pose proof (sin2_cos2 (value theta)) as P1. pose proof (sin2_cos2 (value phi)) as P2. unfold Rsqr in *. nra. }
  pose proof (dot_le3 _ _ _ _ N1 N2 N3) as T.
  assert (T' : vlength (X - x, Y - y, W - w) <= 2 * (2.1 * d + 1.1 * u)) by (apply dot_le3; rewrite Rabs_minus_sym; assumption).
  pose proof (triangle (X, Y, W) (x - X, y - Y, w - W)) as T1. pose proof (triangle (x, y, w) (X - x, Y - y, W - w)) as T2.
  unfold monte_carlo.add3 in T1, T2. cbn [sadd R_scalar] in T1, T2.
  replace (X + (x - X)) with x in T1 by ring. replace (Y + (y - Y)) with y in T1 by ring. replace (W + (w - W)) with w in T1 by ring.
  replace (x + (X - x)) with X in T2 by ring. replace (y + (Y - y)) with Y in T2 by ring. replace (w + (W - w)) with W in T2 by ring.
  rewrite UN in T1, T2. apply Rabs_le. lra.
Qed.

Lemma vlength_comp : forall a b c, Rabs a <= vlength (a, b, c) /\ Rabs b <= vlength (a, b, c) /\ Rabs c <= vlength (a, b, c).
Proof.
  intros a b c. unfold vlength, dot. assert (K : forall x y, 0 <= y -> Rabs x <= sqrt (x * x + y)).
  { intros x y Hy. rewrite <- sqrt_Rsqr_abs. apply sqrt_le_1_alt. unfold Rsqr. lra. }
  repeat split; [replace (a * a + b * b + c * c) with (a * a + (b * b + c * c)) by ring | replace (a * a + b * b + c * c) with (b * b + (a * a + c * c)) by ring | replace (a * a + b * b + c * c) with (c * c + (a * a + b * b)) by ring]; apply K; nra.
Qed.

Lemma vlength_scale : forall a b c x y z, Rabs x <= u -> Rabs y <= u -> Rabs z <= u ->
  vlength (a * (1 + x), b * (1 + y), c * (1 + z)) <= (1 + u) * vlength (a, b, c).
Proof.
  clear D. intros a b c x y z Hx Hy Hz. pose proof u_small as Us. pose proof (vlength_nonneg (a, b, c)) as P. pose proof (vlength_sq (a, b, c)) as Q.
  apply vlength_le; [nra|]. replace ((1 + u) * vlength (a, b, c) * ((1 + u) * vlength (a, b, c))) with ((1 + u) * (1 + u) * (vlength (a, b, c) * vlength (a, b, c))) by ring.
  rewrite Q. unfold dot.
  assert (K : forall v e, Rabs e <= u -> v * (1 + e) * (v * (1 + e)) <= (1 + u) * (1 + u) * (v * v)).
  { intros v e He. apply Rabs_le_inv in He. replace (v * (1 + e) * (v * (1 + e))) with ((1 + e) * (1 + e) * (v * v)) by ring. apply Rmult_le_compat_r; nra. }
  pose proof (K a x Hx). pose proof (K b y Hy). pose proof (K c z Hz). lra.
Qed.

(** One step of the walk. *)
Lemma step : forall (p r : vec float) B, all_finite p -> all_finite r -> vlength (values p) + vlength (values r) <= B -> B <= 2 ^ 40 ->
  all_finite (monte_carlo.add3 p r) /\ vlength (values (monte_carlo.add3 p r)) <= (1 + u) * B.
Proof.
  clear D. intros [[p0 p1] p2] [[r0 r1] r2] B (Fp0 & Fp1 & Fp2) (Fr0 & Fr1 & Fr2) HB BB. unfold monte_carlo.add3, all_finite, values in *. cbn [sadd S F64].
  pose proof huge as HU. pose proof u_small as Us.
  pose proof (triangle (value p0, value p1, value p2) (value r0, value r1, value r2)) as T. unfold monte_carlo.add3 in T. cbn [sadd R_scalar] in T.
  destruct (vlength_comp (value p0 + value r0) (value p1 + value r1) (value p2 + value r2)) as (C0 & C1 & C2).
  destruct (add_rel p0 r0 Fp0 Fr0) as (F0 & e0 & E0 & V0); [lra|]. destruct (add_rel p1 r1 Fp1 Fr1) as (F1 & e1 & E1 & V1); [lra|]. destruct (add_rel p2 r2 Fp2 Fr2) as (F2 & e2 & E2 & V2); [lra|].
  split; [auto|]. rewrite V0, V1, V2. eapply Rle_trans; [apply vlength_scale; assumption|]. apply Rmult_le_compat_l; lra.
Qed.

Definition reach (k : nat) : R := (1 + (4.2 * d + 2.2 * u)) * (INR k * (1 + 2 * INR k * u)).

Lemma reach_small : forall k, INR k <= 2 ^ 30 -> 0 <= reach k <= 2 ^ 32.
Proof.
  intros k K. pose proof (pos_INR k) as P. pose proof u_small as Us. unfold reach.
  assert (A : 0 <= 2 * INR k * u <= 1) by (split; [nra|]; apply Rle_trans with (2 * 2 ^ 30 * / 2 ^ 50); [apply Rmult_le_compat; nra | lra]).
  assert (Q : 0 <= INR k * (1 + 2 * INR k * u) <= 2 ^ 31) by (split; nra).
  split; [apply Rmult_le_pos; lra|]. replace (2 ^ 32) with (2 * 2 ^ 31) by ring. apply Rmult_le_compat; lra.
Qed.

Lemma reach_step : forall k, INR (Datatypes.S k) <= 2 ^ 30 -> (1 + u) * (reach k + (1 + (4.2 * d + 2.2 * u))) <= reach (Datatypes.S k).
Proof.
  intros k. unfold reach. rewrite S_INR. intro K. pose proof (pos_INR k) as P. pose proof u_small as Us. set (q := 1 + (4.2 * d + 2.2 * u)). set (n := INR k) in *.
  assert (Q : 0 <= q) by (unfold q; lra).
  replace ((1 + u) * (q * (n * (1 + 2 * n * u)) + q)) with (q * ((1 + u) * (n * (1 + 2 * n * u) + 1))) by ring. apply Rmult_le_compat_l; [exact Q|].
  assert (NU : n * u <= 1) by (apply Rle_trans with (2 ^ 30 * / 2 ^ 50); [apply Rmult_le_compat; lra | lra]).
  assert (X : u * (n * (n * u)) <= u * (n * 1)) by (apply Rmult_le_compat_l; [lra|]; apply Rmult_le_compat_l; lra).
  assert (0 <= u * n) by (apply Rmult_le_pos; lra).
  replace ((1 + u) * (n * (1 + 2 * n * u) + 1)) with (n + 1 + u * (2 * n * n + n + 1) + 2 * (u * (n * (n * u)))) by ring.
  replace ((n + 1) * (1 + 2 * (n + 1) * u)) with (n + 1 + u * (2 * n * n + 4 * n + 2)) by ring. nra.
Qed.

Lemma walk_last : forall n k p g, INR (Datatypes.S n + k) <= 2 ^ 30 -> all_finite p -> vlength (values p) <= reach k ->
  exists q, nth_error (fst (fjc_monte_carlo.walk gen (Datatypes.S n) p g)) n = Some q /\ all_finite q /\ vlength (values q) <= reach (Datatypes.S n + k).
Proof.
  induction n as [|n IH]; intros k p g K Fp Bp.
  - cbn [fjc_monte_carlo.walk]. pose proof (link_near g) as [Fr Br]. destruct (fjc_monte_carlo.random_link gen g) as [r g1]. cbn [fst nth_error] in *.
    apply Rabs_le_inv in Br. change (1 + k)%nat with (Datatypes.S k) in *. assert (K' : INR k <= 2 ^ 30) by (rewrite S_INR in K; lra). pose proof (reach_small k K') as RS. pose proof u_small.
    destruct (step p r (reach k + (1 + (4.2 * d + 2.2 * u))) Fp Fr) as [F1 B1]; [lra | lra |].
    eexists. split; [reflexivity|]. split; [exact F1|]. apply Rle_trans with (1 := B1). apply reach_step. exact K.
  - change (fjc_monte_carlo.walk gen (Datatypes.S (Datatypes.S n)) p g)
      with (let '(r, g1) := fjc_monte_carlo.random_link gen g in let position := monte_carlo.add3 p r in
            let '(configuration, g2) := fjc_monte_carlo.walk gen (Datatypes.S n) position g1 in (position :: configuration, g2)).
    pose proof (link_near g) as [Fr Br]. destruct (fjc_monte_carlo.random_link gen g) as [r g1]. cbn [fst] in *. cbv zeta. apply Rabs_le_inv in Br.
    pose proof (pos_INR n) as Pn. pose proof u_small.
    assert (K' : INR (Datatypes.S k) <= 2 ^ 30) by (apply Rle_trans with (2 := K); apply le_INR; lia).
    pose proof (reach_small k ltac:(rewrite S_INR in K'; lra)) as RS.
    destruct (step p r (reach k + (1 + (4.2 * d + 2.2 * u))) Fp Fr) as [F1 B1]; [lra | lra |].
    destruct (IH (Datatypes.S k) (monte_carlo.add3 p r) g1) as (q & Eq & Fq & Bq).
    + replace (Datatypes.S n + Datatypes.S k)%nat with (Datatypes.S (Datatypes.S n) + k)%nat by lia. exact K.
    + exact F1.
    + apply Rle_trans with (1 := B1). apply reach_step. exact K'.
    + destruct (fjc_monte_carlo.walk gen (Datatypes.S n) (monte_carlo.add3 p r) g1) as [c g2]. cbn [fst nth_error] in *. exists q. split; [exact Eq|]. split; [exact Fq|].
      replace (Datatypes.S (Datatypes.S n) + k)%nat with (Datatypes.S n + Datatypes.S k)%nat by lia. exact Bq.
Qed.

Lemma square_ge : forall B, 1 <= B -> 1 <= B * B.
Proof. intros B HB. replace 1 with (1 * 1) by ring. apply Rmult_le_compat; lra. Qed.
Lemma factors : (1 + u + 3 * least) * ((1 + u) * (1 + u)) <= (1 + 2 * u) * (1 + 2 * u).
Proof.
  pose proof u_small as Us. pose proof least_tiny as TL. set (t := least) in *. clearbody t.
  assert (UU : 0 <= u * u <= u * / 2 ^ 50) by (split; [apply Rmult_le_pos; lra | apply Rmult_le_compat_l; lra]).
  assert (LU : 0 <= t * u <= t * 1) by (split; [apply Rmult_le_pos; lra | apply Rmult_le_compat_l; lra]).
  assert (LUU : t * u * u <= t * 1 * 1) by (apply Rmult_le_compat; lra). assert (U3 : u * u * u <= u * / 2 ^ 50 * 1) by (apply Rmult_le_compat; lra).
  replace ((1 + u + 3 * t) * ((1 + u) * (1 + u))) with (1 + 3 * u + 3 * (u * u) + u * u * u + 3 * t + 6 * (t * u) + 3 * (t * u * u)) by ring.
  replace ((1 + 2 * u) * (1 + 2 * u)) with (1 + 4 * u + 4 * (u * u)) by ring. lra.
Qed.
Lemma factors_root : (1 + 2 * u) * (1 + u) + least <= 1 + 4 * u.
Proof.
  pose proof u_small as Us. pose proof least_tiny as TL. set (t := least) in *. clearbody t.
  assert (UU : 0 <= u * u <= u * / 2 ^ 50) by (split; [apply Rmult_le_pos; lra | apply Rmult_le_compat_l; lra]). lra.
Qed.

(** A square, rounded. *)
Lemma square_raw : forall x, finite x -> Rabs (value x) <= 2 ^ 40 -> finite (x * x) /\ 0 <= value (x * x)%float <= value x * value x * (1 + u) + least.
Proof.
  intros x F B. pose proof huge as HU. assert (P : 0 <= value x * value x) by nra.
  assert (Q : value x * value x <= 2 ^ 40 * 2 ^ 40).
  { replace (value x * value x) with (Rabs (value x) * Rabs (value x)) by (rewrite <- Rabs_mult; apply Rabs_pos_eq; exact P). apply Rmult_le_compat; try apply Rabs_pos; assumption. }
  destruct (mul_raw x x F F) as [F1 V1]; [rewrite Rabs_pos_eq by exact P; lra|]. split; [exact F1|]. rewrite V1. split; [rewrite <- rnd_0; apply rnd_mono; exact P|].
  destruct (rnd_abs (value x * value x)) as (e & z & He & Hz & ->). apply Rabs_le_inv in He. apply Rabs_le_inv in Hz.
  assert (value x * value x * e <= value x * value x * u) by (apply Rmult_le_compat_l; lra). lra.
Qed.

Lemma sum_raw : forall x y, finite x -> finite y -> 0 <= value x -> 0 <= value y -> value x + value y <= 2 ^ 90 ->
  finite (x + y) /\ 0 <= value (x + y)%float <= (value x + value y) * (1 + u).
Proof.
  intros x y Fx Fy Px Py B. pose proof huge as HU. destruct (add_rel x y Fx Fy) as (F & e & He & V); [rewrite Rabs_pos_eq; lra|]. split; [exact F|]. rewrite V.
  pose proof u_small. apply Rabs_le_inv in He. split; [apply Rmult_le_pos; lra | apply Rmult_le_compat_l; lra].
Qed.

Lemma norm_bound : forall p B, all_finite p -> vlength (values p) <= B -> 1 <= B <= 2 ^ 35 ->
  finite (monte_carlo.norm3 p) /\ 0 <= value (monte_carlo.norm3 p) <= B * (1 + 4 * u).
Proof.
  intros [[a b] c] B (Fa & Fb & Fc) HB [B1 B2]. unfold values in HB. unfold monte_carlo.norm3, ssum. cbn [fold_left sadd smul ssqrt sofZ S F64]. rewrite float_of_Z_0.
  pose proof (vlength_sq (value a, value b, value c)) as Q. pose proof (vlength_nonneg (value a, value b, value c)) as P. unfold dot in Q.
  destruct (vlength_comp (value a) (value b) (value c)) as (Ca & Cb & Cc). pose proof u_small as Us. pose proof least_tiny as TL.
  destruct (square_raw a Fa) as [F1 V1]; [lra|]. destruct (square_raw b Fb) as [F2 V2]; [lra|]. destruct (square_raw c Fc) as [F3 V3]; [lra|].
  set (A := value a * value a) in *. set (B' := value b * value b) in *. set (C := value c * value c) in *.
  assert (PA : 0 <= A) by (unfold A; nra). assert (PB : 0 <= B') by (unfold B'; nra). assert (PC : 0 <= C) by (unfold C; nra).
  assert (T : A + B' + C <= B * B) by (rewrite <- Q; apply Rmult_le_compat; lra).
  assert (TT : B * B <= 2 ^ 35 * 2 ^ 35) by (apply Rmult_le_compat; lra).
  assert (UA : A * u <= A * / 2 ^ 50) by (apply Rmult_le_compat_l; lra). assert (UB : B' * u <= B' * / 2 ^ 50) by (apply Rmult_le_compat_l; lra). assert (UC : C * u <= C * / 2 ^ 50) by (apply Rmult_le_compat_l; lra).
  assert (Z0 : finite zero) by (vm_compute; exact I).
  set (xa := (a * a)%float) in *. set (xb := (b * b)%float) in *. set (xc := (c * c)%float) in *.
  assert (W1 : finite (zero + xa)%float /\ value (zero + xa)%float = value xa).
  { destruct (add_raw zero xa Z0 F1) as [F V]; [rewrite value_zero, Rplus_0_l, Rabs_pos_eq; pose proof huge; lra|]. split; [exact F|]. rewrite V, value_zero, Rplus_0_l. apply rnd_value. }
  destruct W1 as [W1 W1v].
  destruct (sum_raw (zero + xa)%float xb W1 F2) as [W2 W2v]; [lra | lra | lra |]. rewrite W1v in W2v.
  assert (Y1 : (value xa + value xb) * u <= (value xa + value xb) * / 2 ^ 50) by (apply Rmult_le_compat_l; lra).
  destruct (sum_raw (zero + xa + xb)%float xc W2 F3) as [W3 W3v]; [lra | lra | lra |].
  set (s := (zero + xa + xb + xc)%float) in *.
  assert (SB : value s <= B * B * ((1 + 2 * u) * (1 + 2 * u))).
  { assert (S1 : value (zero + xa + xb)%float + value xc <= (value xa + value xb + value xc) * (1 + u)).
    { apply Rle_trans with ((value xa + value xb) * (1 + u) + value xc); [lra|]. assert (0 <= value xc * u) by (apply Rmult_le_pos; lra). lra. }
    assert (S2 : value xa + value xb + value xc <= B * B * (1 + u) + 3 * least).
    { assert ((A + B' + C) * (1 + u) <= B * B * (1 + u)) by (apply Rmult_le_compat_r; lra). lra. }
    assert (BB1 : 1 <= B * B) by (apply square_ge; exact B1).
    assert (S3 : B * B * (1 + u) + 3 * least <= B * B * (1 + u + 3 * least)).
    { replace (B * B * (1 + u + 3 * least)) with (B * B * (1 + u) + B * B * (3 * least)) by ring. assert (1 * (3 * least) <= B * B * (3 * least)) by (apply Rmult_le_compat_r; lra). lra. }
    apply Rle_trans with ((value xa + value xb + value xc) * (1 + u) * (1 + u)); [apply Rle_trans with (1 := proj2 W3v); apply Rmult_le_compat_r; lra|].
    apply Rle_trans with (B * B * (1 + u + 3 * least) * (1 + u) * (1 + u)); [apply Rmult_le_compat_r; [lra|]; apply Rmult_le_compat_r; lra|].
    rewrite (Rmult_assoc (B * B)), (Rmult_assoc (B * B)). apply Rmult_le_compat_l; [lra|]. rewrite (Rmult_assoc (1 + u + 3 * least)). exact factors. }
  destruct (sqrt_raw s W3) as [F V]; [lra|]. split; [exact F|]. rewrite V.
  assert (SQ : 0 <= sqrt (value s) <= B * (1 + 2 * u)).
  { split; [apply sqrt_pos|]. rewrite <- (sqrt_square (B * (1 + 2 * u))) by (apply Rmult_le_pos; lra). apply sqrt_le_1_alt. lra. }
  split; [rewrite <- rnd_0; apply rnd_mono; lra|].
  apply Rle_trans with (rnd (B * (1 + 2 * u))); [apply rnd_mono; lra|].
  destruct (rnd_abs (B * (1 + 2 * u))) as (e & z & He & Hz & ->). apply Rabs_le_inv in He. apply Rabs_le_inv in Hz.
  assert (X1 : B * (1 + 2 * u) * (1 + e) <= B * (1 + 2 * u) * (1 + u)) by (apply Rmult_le_compat_l; [apply Rmult_le_pos; lra | lra]).
  assert (X2 : 1 * least <= B * least) by (apply Rmult_le_compat_r; lra).
  apply Rle_trans with (B * ((1 + 2 * u) * (1 + u) + least)); [lra|]. apply Rmult_le_compat_l; [lra|]. exact factors_root.
Qed.

Lemma sampled_length : forall n g, (0 < n)%nat -> INR n <= 2 ^ 30 -> exists l g',
  fjc_monte_carlo.random_nondimensional_end_to_end_length gen n g = Some (l, g') /\
  finite l /\ 0 <= value l <= INR n * (1 + 5 * d + (3 * INR n + 8) * u).
Proof.
  intros n g N0 N. unfold fjc_monte_carlo.random_nondimensional_end_to_end_length, fjc_monte_carlo.random_configuration, monte_carlo.end_to_end_length.
  destruct n as [|n]; [lia|]. pose proof u_small as Us.
  assert (Z3 : all_finite monte_carlo.zero3 /\ vlength (values monte_carlo.zero3) <= reach 0).
  { unfold monte_carlo.zero3. change (@sdec float S 0 0) with (float_dec 0 0). replace (float_dec 0 0) with zero by (vm_compute; reflexivity). split; [vm_compute; repeat split|].
    unfold values. rewrite value_zero. unfold reach, vlength, dot. cbn [INR]. replace (0 * 0 + 0 * 0 + 0 * 0) with 0 by ring. rewrite sqrt_0. lra. }
  destruct (walk_last n 0 monte_carlo.zero3 g) as (q & Eq & Fq & Bq); [rewrite Nat.add_0_r; exact N | apply Z3 | apply Z3 |]. rewrite Nat.add_0_r in Bq.
  destruct (fjc_monte_carlo.walk gen (Datatypes.S n) monte_carlo.zero3 g) as [c g'] eqn:W. cbn [fst] in Eq. rewrite Eq. exists (monte_carlo.norm3 q), g'. split; [reflexivity|].
  assert (I : 1 <= INR (Datatypes.S n)) by (rewrite S_INR; pose proof (pos_INR n); lra).
  destruct (reach_small (Datatypes.S n) N) as [R1 R2].
  destruct (norm_bound q (reach (Datatypes.S n)) Fq Bq) as [F B].
  { split; [|lra]. unfold reach. assert (0 <= 2 * INR (Datatypes.S n) * u) by (apply Rmult_le_pos; lra). nra. }
  split; [exact F|]. split; [apply B|]. apply Rle_trans with (1 := proj2 B). unfold reach. set (m := INR (Datatypes.S n)) in *.
  replace ((1 + (4.2 * d + 2.2 * u)) * (m * (1 + 2 * m * u)) * (1 + 4 * u)) with (m * ((1 + (4.2 * d + 2.2 * u)) * ((1 + 2 * m * u) * (1 + 4 * u)))) by ring.
  apply Rmult_le_compat_l; [lra|]. set (h := m * u). assert (Hh : 0 <= h <= / 2 ^ 20).
  { unfold h. split; [nra|]. apply Rle_trans with (2 ^ 30 * / 2 ^ 50); [apply Rmult_le_compat; lra | lra]. }
  replace (2 * m * u) with (2 * h) by (unfold h; ring). replace ((3 * m + 8) * u) with (3 * h + 8 * u) by (unfold h; ring).
  assert (Q1 : (1 + 2 * h) * (1 + 4 * u) <= 1 + 2.1 * h + 4 * u) by nra.
  apply Rle_trans with ((1 + (4.2 * d + 2.2 * u)) * (1 + 2.1 * h + 4 * u)); [apply Rmult_le_compat_l; lra|]. nra.
Qed.
End Sampler.

(** The correctly rounded library is such a library. *)
Lemma unit_error : forall r, Rabs r <= 1 -> Rabs (rnd r - r) <= / 2 ^ 50.
Proof.
  intros r Hr. destruct (rnd_abs r) as (e & z & He & Hz & ->). pose proof u_small. pose proof least_tiny. replace (r * (1 + e) + z - r) with (r * e + z) by ring.
  eapply Rle_trans; [apply Rabs_triang|]. rewrite Rabs_mult. assert (Rabs r * Rabs e <= 1 * u) by (apply Rmult_le_compat; try apply Rabs_pos; lra). unfold unit_roundoff in *. lra.
Qed.
Lemma rounded_trigonometry : trigonometry (/ 2 ^ 50) rounded_libm.
Proof.
  pose proof one_small as O1. pose proof huge as HU. pose proof PI_RGT_0 as PI0. pose proof PI_4 as PI4.
  assert (R4 : value 4%float = 4).
  { unfold value. replace (Prim2SF 4%float) with (S754_finite false 4503599627370496 (-50)) by (vm_compute; reflexivity). change (1 * (4503599627370496 * / 2 ^ 50) = 4). lra. }
  split; [|split; [|split]].
  - intros x _ _. cbn [l_sin rounded_libm]. pose proof (SIN_bound (value x)) as B. assert (A : Rabs (sin (value x)) <= 1) by (apply Rabs_le; lra).
    destruct (double_of_spec (sin (value x))) as [F V]; [lra|]. split; [exact F|]. rewrite V. apply unit_error, A.
  - intros x _ _. cbn [l_cos rounded_libm]. pose proof (COS_bound (value x)) as B. assert (A : Rabs (cos (value x)) <= 1) by (apply Rabs_le; lra).
    destruct (double_of_spec (cos (value x))) as [F V]; [lra|]. split; [exact F|]. rewrite V. apply unit_error, A.
  - intros x _ _. cbn [l_acos rounded_libm]. pose proof (acos_bound (value x)) as B.
    destruct (double_of_spec (acos (value x))) as [F V]; [rewrite Rabs_pos_eq; lra|]. split; [exact F|]. rewrite V.
    pose proof (rnd_range (acos (value x)) zero 4%float) as K. rewrite value_zero, R4 in K. rewrite Rabs_pos_eq; apply K; lra.
  - cbn [l_pi rounded_libm]. destruct (double_of_spec PI) as [F V]; [rewrite Rabs_pos_eq; lra|]. split; [exact F|]. rewrite V.
    pose proof (rnd_range PI zero 4%float) as K. rewrite value_zero, R4 in K. apply K; lra.
Qed.

(** A generator that alternates between 1/2 and 1/4. *)
Definition alternating (g : bool) : float * bool := (if g then 0.5%float else 0.25%float, negb g).
Lemma alternating_unit : forall g, finite (fst (alternating g)) /\ 0 <= value (fst (alternating g)) <= 1.
Proof.
  intros [|]; cbn [alternating fst]; (split; [vm_compute; exact I|]).
  - unfold value. replace (Prim2SF 0.5%float) with (S754_finite false 4503599627370496 (-53)) by (vm_compute; reflexivity). change (0 <= 1 * (4503599627370496 * / 2 ^ 53) <= 1). lra.
  - unfold value. replace (Prim2SF 0.25%float) with (S754_finite false 4503599627370496 (-54)) by (vm_compute; reflexivity). change (0 <= 1 * (4503599627370496 * / 2 ^ 54) <= 1). lra.
Qed.
Lemma link_case : forall L G gen d, 0 <= d <= / 2 ^ 20 -> trigonometry d L -> (forall g, finite (fst (gen g)) /\ 0 <= value (fst (gen g)) <= 1) ->
  forall g : G, let r := fst (@fjc_monte_carlo.random_link float (F64 L) G gen g) in all_finite r /\ Rabs (vlength (values r) - 1) <= 5 * d + 3 * u.
Proof.
  intros L G gen d D H U g. destruct (link_near L G gen d D H U g) as [F B]. split; [exact F|]. eapply Rle_trans; [exact B|]. pose proof u_small as Us. clear - D Us. lra.
Qed.
Lemma sampler_case : 0 <= / 2 ^ 50 <= / 2 ^ 20 /\ trigonometry (/ 2 ^ 50) rounded_libm /\
  (forall g, finite (fst (alternating g)) /\ 0 <= value (fst (alternating g)) <= 1) /\ (0 < 1000)%nat /\ INR 1000 <= 2 ^ 30.
Proof.
  split; [lra|]. split; [exact rounded_trigonometry|]. split; [exact alternating_unit|]. split; [lia|]. rewrite INR_IZR_INZ. change (Z.of_nat 1000) with 1000%Z. lra.
Qed.

