(** The order of two numerical integrals in double precision. *)
From Coq Require Import Reals ZArith Lra Lia Floats Psatz List.
From Coquelicot Require Import Coquelicot.
From Flocq Require Import Core Relative Plus_error BinarySingleNaN PrimFloat.
From Verif Require Import Scalar F64 MMath SpecDouble PDouble PQuad PDoubleFjc PDoubleQuad PDoubleContour PDoubleDamage.
From Coq Require Import Floats.
Import ListNotations.
Open Scope R_scope.

(** A finite sum comes from finite terms and is their rounded sum. *)
Lemma add_back : forall x y, finite (x + y)%float -> finite x /\ finite y /\ value (x + y)%float = rnd (value x + value y).
Proof.
  intros x y F. rewrite !value_B2R. rewrite finite_B in *. rewrite add_equiv in *.
  assert (G : BinarySingleNaN.is_finite (Prim2B x) = true /\ BinarySingleNaN.is_finite (Prim2B y) = true).
  { destruct (Prim2B x) as [s|s| |s m e H], (Prim2B y) as [s'|s'| |s' m' e' H']; try (split; reflexivity); try discriminate F.
    cbn in F. destruct (Bool.eqb s s'); discriminate F. }
  destruct G as [Gx Gy]. split; [exact Gx|]. split; [rewrite finite_B; exact Gy|].
  pose proof (Bplus_correct FloatOps.prec emax Hprec Hmax mode_NE (Prim2B x) (Prim2B y) Gx Gy) as C.
  destruct (Rlt_bool _ _); [exact (proj1 C)|]. destruct C as [C _]. destruct (Bplus mode_NE (Prim2B x) (Prim2B y)); discriminate.
Qed.

Lemma mul_back : forall x y, finite (x * y)%float -> finite x /\ finite y /\ value (x * y)%float = rnd (value x * value y).
Proof.
  intros x y F. rewrite !value_B2R. rewrite finite_B in *. rewrite mul_equiv in *.
  assert (G : BinarySingleNaN.is_finite (Prim2B x) = true /\ BinarySingleNaN.is_finite (Prim2B y) = true).
  { destruct (Prim2B x) as [s|s| |s m e H], (Prim2B y) as [s'|s'| |s' m' e' H']; try (split; reflexivity); discriminate F. }
  destruct G as [Gx Gy]. split; [exact Gx|]. split; [rewrite finite_B; exact Gy|].
  pose proof (Bmult_correct FloatOps.prec emax Hprec Hmax mode_NE (Prim2B x) (Prim2B y)) as C.
  destruct (Rlt_bool _ _); [exact (proj1 C)|]. destruct (Bmult mode_NE (Prim2B x) (Prim2B y)); discriminate.
Qed.

Lemma leb_value : forall x y, finite x -> finite y -> (PrimFloat.leb x y = true <-> value x <= value y).
Proof. intros x y Fx Fy. rewrite leb_finite by assumption. destruct (Rle_bool_spec (value x) (value y)); split; intros; try assumption; try reflexivity; try discriminate; lra. Qed.

Lemma fold_back : forall l acc, finite (fold_left PrimFloat.add l acc) -> finite acc.
Proof. induction l as [|x l IH]; intros acc F; [exact F|]. cbn in F. apply IH in F. apply add_back in F. tauto. Qed.

Lemma fold_mono : forall l l' acc acc', Forall2 (fun x y => PrimFloat.leb x y = true) l l' ->
  finite (fold_left PrimFloat.add l acc) -> finite (fold_left PrimFloat.add l' acc') -> value acc <= value acc' ->
  value (fold_left PrimFloat.add l acc) <= value (fold_left PrimFloat.add l' acc').
Proof.
  induction l as [|x l IH]; intros l' acc acc' H F F' Ha; inversion H; subst; [exact Ha|]. cbn in *.
  apply IH; try assumption. apply fold_back, add_back in F. apply fold_back, add_back in F'.
  destruct F as (_ & Fx & V), F' as (_ & Fy & V'). rewrite V, V'. apply rnd_mono. apply Rplus_le_compat; [exact Ha|]. apply leb_value; assumption.
Qed.

Section Lib.
Variable L : libm.
Local Instance S : Scalar float := F64 L.

Lemma sum_fold : forall l, @ssum float S l = fold_left PrimFloat.add l zero.
Proof. intro l. unfold ssum. change (@sofZ float S 0) with (float_of_Z 0). rewrite float_of_Z_0. reflexivity. Qed.

Lemma list_mono : forall (l l' : list float) (dx : float), Forall2 (fun x y => PrimFloat.leb x y = true) l l' ->
  PrimFloat.leb zero dx = true -> finite (@ssum float S l * dx)%float -> finite (@ssum float S l' * dx)%float ->
  PrimFloat.leb (@ssum float S l * dx) (@ssum float S l' * dx) = true.
Proof.
  intros l l' dx H D F F'. apply leb_value; [exact F | exact F' |]. destruct (mul_back _ _ F) as (Fs & Fd & V). destruct (mul_back _ _ F') as (Fs' & _ & V').
  rewrite V, V'. apply rnd_mono. apply Rmult_le_compat_r; [apply leb_value in D; [rewrite value_zero in D; exact D | vm_compute; exact I | exact Fd]|].
  rewrite sum_fold in *. apply fold_mono; try assumption. apply Rle_refl.
Qed.

Lemma grid_mono : forall (f g : float -> float) (grid : list float) (dx : float),
  (forall x, In x grid -> PrimFloat.leb (f x) (g x) = true) -> PrimFloat.leb zero dx = true ->
  finite (@math.integrate_1d_grid float S f grid dx) -> finite (@math.integrate_1d_grid float S g grid dx) ->
  PrimFloat.leb (@math.integrate_1d_grid float S f grid dx) (@math.integrate_1d_grid float S g grid dx) = true.
Proof.
  intros f g grid dx H D F F'. apply list_mono; try assumption. clear F F'. induction grid as [|x l IH]; cbn; constructor.
  - apply H. left. reflexivity.
  - apply IH. intros y Hy. apply H. right. exact Hy.
Qed.

Lemma grid_2d_mono : forall (f g : float -> float -> float) (grid_x grid_y : list float) (da : float),
  (forall x y, In x grid_x -> In y grid_y -> PrimFloat.leb (f x y) (g x y) = true) -> PrimFloat.leb zero da = true ->
  finite (@math.integrate_2d_grid float S f grid_x grid_y da) -> finite (@math.integrate_2d_grid float S g grid_x grid_y da) ->
  PrimFloat.leb (@math.integrate_2d_grid float S f grid_x grid_y da) (@math.integrate_2d_grid float S g grid_x grid_y da) = true.
Proof.
  intros f g gx gy da H D F F'. apply list_mono; try assumption. clear F F'. induction gx as [|x l IH]; cbn; [constructor|]. apply Forall2_app.
  - assert (H' : forall y, In y gy -> PrimFloat.leb (f x y) (g x y) = true) by (intros y Hy; apply H; [left; reflexivity | exact Hy]).
    clear IH H D. induction gy as [|y m IH]; cbn; constructor; [apply H'; left; reflexivity|]. apply IH. intros z Hz. apply H'. right. exact Hz.
  - apply IH. intros x' y Hx Hy. apply H; [right; exact Hx | exact Hy].
Qed.

Section Interval.
Variables a b : float.
Variable n : Z.
Hypothesis Fa : finite a.
Hypothesis Fb : finite b.
Hypothesis Ba : Rabs (value a) <= powerRZ 2 400.
Hypothesis Bb : Rabs (value b) <= powerRZ 2 400.
Hypothesis Bw : powerRZ 2 (-900) <= value b - value a.
Hypothesis Hn : (1 <= n <= 2 ^ 49)%Z.

Let w := value b - value a.
Let dx := ((b - a) / float_of_Z n)%float.

Lemma w_pos : bpow radix2 (-900) <= w <= bpow radix2 401.
Proof.
  rewrite pw in *. split; [exact Bw|]. apply Rle_trans with (Rabs w); [apply Rle_abs|]. unfold w, Rminus. eapply Rle_trans; [apply Rabs_triang|]. rewrite Rabs_Ropp.
  change 401%Z with (400 + 1)%Z. rewrite bpow_S. lra.
Qed.

Lemma dx_here : finite dx /\ exists e1 e2, Rabs e1 <= unit_roundoff /\ Rabs e2 <= unit_roundoff /\ value dx = w / IZR n * (1 + e1) * (1 + e2).
Proof.
  apply dx_error; try assumption; [|lia]. apply Rle_trans with (1 := Bw). apply Rle_abs.
Qed.

Lemma n_range : 1 <= IZR n <= 562949953421312.
Proof. split; apply IZR_le; lia. Qed.

Lemma dx_nonneg : finite dx /\ PrimFloat.leb zero dx = true.
Proof.
  destruct dx_here as [F (e1 & e2 & E1 & E2 & V)]. split; [exact F|]. apply leb_value; [vm_compute; exact I | exact F |]. rewrite value_zero, V.
  pose proof n_range as N. pose proof w_pos as [W _]. pose proof (bpow_gt_0 radix2 (-900)). pose proof u_pos. apply abs_bounds in E1, E2.
  apply Rmult_le_pos; [apply Rmult_le_pos|]; try lra. apply Rlt_le, Rdiv_lt_0_compat; lra.
Qed.

(** The computed points lie between the limits. *)
Lemma midpoint_between : forall i, (0 <= i < n)%Z ->
  finite (@math.midpoint float S a dx i) /\ value a <= value (@math.midpoint float S a dx i) <= value b.
Proof.
  intros i Hi. pose proof w_pos as W. pose proof u_pos as U. pose proof n_range as N.
  change (@math.midpoint float S a dx i) with (a + (float_dec 5 1 + float_of_Z i) * dx)%float.
  destruct (float_of_Z_exact i) as [Fi Vi]; [lia|]. destruct half as [Fh Vh].
  assert (I0 : 0 <= IZR i <= IZR n - 1) by (split; [apply IZR_le; lia|rewrite <- minus_IZR; apply IZR_le; lia]).
  assert (P9 : 0 < bpow radix2 (-900)) by apply bpow_gt_0.
  assert (B50 : 1125899906842624 = bpow radix2 50) by reflexivity.
  destruct (add_rel _ _ Fh Fi) as [F1 [e1 [E1 V1]]].
  { rewrite Vh, Vi, Rabs_pos_eq by lra. apply Rle_trans with (bpow radix2 50); [rewrite <- B50; lra|apply bpow_le; lia]. }
  rewrite Vh, Vi in V1. destruct dx_here as [F2 (e2 & e3 & E2 & E3 & V2)].
  pose proof (abs_bounds _ _ E1) as B1. pose proof (abs_bounds _ _ E2) as B2. pose proof (abs_bounds _ _ E3) as B3.
  assert (I1 : bpow radix2 (-50) <= / IZR n <= 1).
  { split; [change (-50)%Z with (- (50))%Z; rewrite bpow_opp; apply Rinv_le; [lra|]; rewrite <- B50; lra | apply Rle_trans with (/ 1); [apply Rinv_le; lra | lra]]. }
  assert (P5 : 0 < bpow radix2 (-50)) by apply bpow_gt_0.
  set (t := (IZR i + 1 / 2) / IZR n). set (p0 := t * w).
  assert (T0 : / 2 * bpow radix2 (-50) <= t <= 1 - 8 * unit_roundoff).
  { split; [unfold t, Rdiv; apply Rmult_le_compat; lra|]. unfold t. apply (Rmult_le_reg_r (IZR n)); [lra|].
    replace ((IZR i + 1 / 2) / IZR n * IZR n) with (IZR i + 1 / 2) by (field; lra).
    assert (8 * unit_roundoff * IZR n <= 8 * unit_roundoff * 562949953421312) by (apply Rmult_le_compat_l; lra). unfold unit_roundoff in *. lra. }
  assert (P0 : bpow radix2 (-951) <= p0 <= w).
  { unfold p0. split.
    - replace (bpow radix2 (-951)) with (/ 2 * bpow radix2 (-50) * bpow radix2 (-900)); [apply Rmult_le_compat; lra|].
      change (/ 2) with (bpow radix2 (-1)). rewrite <- !bpow_plus. reflexivity.
    - rewrite <- (Rmult_1_l w) at 2. apply Rmult_le_compat_r; lra. }
  assert (P95 : 0 < bpow radix2 (-951)) by apply bpow_gt_0.
  assert (Q : value (float_dec 5 1 + float_of_Z i)%float * value dx = p0 * ((1 + e1) * (1 + e2) * (1 + e3))).
  { rewrite V1, V2. unfold p0, t, Rdiv. ring. }
  assert (T : / 2 <= (1 + e1) * (1 + e2) * (1 + e3) <= 2).
  { assert (9 / 10 * (9 / 10) <= (1 + e1) * (1 + e2) <= 11 / 10 * (11 / 10)) by (split; apply Rmult_le_compat; lra).
    split; [apply Rle_trans with (9 / 10 * (9 / 10) * (9 / 10)); [lra|]|apply Rle_trans with (11 / 10 * (11 / 10) * (11 / 10)); [|lra]]; apply Rmult_le_compat; try lra. }
  destruct (mul_rel _ _ F1 F2) as [F3 [e4 [E4 V4]]].
  { rewrite Q, Rabs_mult, (Rabs_pos_eq ((1 + e1) * _ * _)), (Rabs_pos_eq p0) by lra. split.
    - apply Rle_trans with (bpow radix2 (-951) * / 2); [|apply Rmult_le_compat; lra]. change (/ 2) with (bpow radix2 (-1)). rewrite <- bpow_plus. apply bpow_le. lia.
    - apply Rle_trans with (bpow radix2 401 * 2); [apply Rmult_le_compat; lra|]. rewrite Rmult_comm, <- bpow_S. apply bpow_le. lia. }
  rewrite Q in V4. set (x := value ((float_dec 5 1 + float_of_Z i) * dx)%float) in *.
  pose proof (four e1 e2 e3 e4 E1 E2 E3 E4) as Fo. set (q := (1 + e1) * (1 + e2) * (1 + e3) * (1 + e4)) in *.
  apply abs_bounds in Fo.
  assert (Xe : x = t * q * w) by (rewrite V4; unfold q, p0; ring).
  assert (X : 0 <= x <= w).
  { rewrite Xe. assert (0 <= t * q <= 1).
    { split; [apply Rmult_le_pos; lra|]. apply Rle_trans with ((1 - 8 * unit_roundoff) * (1 + 401 / 100 * unit_roundoff)); [apply Rmult_le_compat; lra|].
      assert (0 <= unit_roundoff * unit_roundoff) by (apply Rmult_le_pos; lra). lra. }
    split; [apply Rmult_le_pos; lra|]. rewrite <- (Rmult_1_l w) at 2. apply Rmult_le_compat_r; lra. }
  rewrite !pw in Ba, Bb. apply Rabs_le_inv in Ba. apply Rabs_le_inv in Bb.
  destruct (add_raw _ _ Fa F3) as [F5 V5].
  { fold x. apply Rle_trans with (bpow radix2 400); [|apply bpow_le; lia]. apply Rabs_le. unfold w in X. lra. }
  split; [exact F5|]. rewrite V5. fold x. unfold w in X. rewrite <- (rnd_value a) at 1. rewrite <- (rnd_value b). split; apply rnd_mono; lra.
Qed.

Lemma points_between : forall x, In x (math.midpoint_grid a dx n) -> finite x /\ value a <= value x <= value b.
Proof.
  intros x H. unfold math.midpoint_grid in H. apply in_map_iff in H. destruct H as (i & <- & Hi). apply midpoint_between.
  unfold zrange in Hi. apply in_map_iff in Hi. destruct Hi as (k & <- & Hk). apply in_seq in Hk. lia.
Qed.

Lemma interval_grid : forall f : float -> float, @math.integrate_1d float S f a b n = math.integrate_1d_grid f (math.midpoint_grid a dx n) dx.
Proof. intro f. unfold math.integrate_1d, math.integrate_1d_grid, math.midpoint_grid. rewrite map_map. reflexivity. Qed.

Lemma interval_mono : forall f g : float -> float,
  (forall x, finite x -> value a <= value x <= value b -> PrimFloat.leb (f x) (g x) = true) ->
  finite (@math.integrate_1d float S f a b n) -> finite (@math.integrate_1d float S g a b n) ->
  PrimFloat.leb (@math.integrate_1d float S f a b n) (@math.integrate_1d float S g a b n) = true.
Proof.
  intros f g H F F'. rewrite !interval_grid in *. apply grid_mono; try assumption; [|apply dx_nonneg].
  intros x Hx. destruct (points_between x Hx). apply H; assumption.
Qed.

Lemma fold_nonneg : forall l acc, List.Forall (fun x => PrimFloat.leb zero x = true) l -> finite (fold_left PrimFloat.add l acc) -> 0 <= value acc ->
  0 <= value (fold_left PrimFloat.add l acc).
Proof.
  induction l as [|x l IH]; intros acc H F P; [exact P|]. cbn in *. inversion H; subst. apply IH; try assumption.
  apply fold_back, add_back in F. destruct F as (_ & Fx & V). rewrite V, <- rnd_0. apply rnd_mono.
  assert (Z : value zero <= value x) by (apply leb_value; [vm_compute; exact I | exact Fx | assumption]). rewrite value_zero in Z. lra.
Qed.

Lemma interval_nonneg : forall f : float -> float,
  (forall x, finite x -> value a <= value x <= value b -> PrimFloat.leb zero (f x) = true) ->
  finite (@math.integrate_1d float S f a b n) -> PrimFloat.leb zero (@math.integrate_1d float S f a b n) = true.
Proof.
  intros f H F. rewrite interval_grid in *. apply leb_value; [vm_compute; exact I | exact F |]. rewrite value_zero.
  unfold math.integrate_1d_grid in *. destruct (mul_back _ _ F) as (Fs & Fd & V). change (0 <= value (@ssum float S (map f (math.midpoint_grid a dx n)) * dx)%float).
  rewrite V, <- rnd_0. apply rnd_mono. destruct dx_nonneg as [_ D]. apply leb_value in D; [|vm_compute; exact I | exact Fd]. rewrite value_zero in D.
  apply Rmult_le_pos; [|exact D]. rewrite sum_fold in *. apply fold_nonneg; [|exact Fs | apply Rle_refl].
  apply Forall_forall. intros y Hy. apply in_map_iff in Hy. destruct Hy as (x & <- & Hx). destruct (points_between x Hx). apply H; assumption.
Qed.

End Interval.
End Lib.
