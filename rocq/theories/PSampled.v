(** Means over random numbers, and the convergence of the sampled histogram. *)
From Coq Require Import Reals ZArith List Lra Lia.
From Coquelicot Require Import Coquelicot.
From Verif Require Import Scalar MFjc MMonteCarlo SpecMonteCarlo PMonteCarlo PHistogram SpecIsometric SpecWalk SpecSampling SpecSampled PSphere PSampling PSamplingWalk
  PIrwinHall PTreloar PPolyLaw PRadialLaw.
Import ListNotations.
Open Scope R_scope.

Notation uniform := (List.Forall (fun x => 0 < x < 1)).

(** ** Averages *)
Lemma average_const : forall n c, has_average n (fun _ => c) c.
Proof.
  induction n as [|n IH]; intro c; [reflexivity|]. exists (fun _ => c), []. split; [intros; apply IH|].
  pose proof (is_RInt_const (V := R_NormedModule) 0 1 c) as X. evar_last; [exact X|]. change ((1 - 0) * c = c). ring.
Qed.

Lemma average_lin : forall n a f g v w, has_average n f v -> has_average n g w -> has_average n (fun l => a * f l + g l) (a * v + w).
Proof.
  induction n as [|n IH]; intros a f g v w A B; cbn [has_average] in *; [congruence|].
  destruct A as (h & E & A & I). destruct B as (k & F & B & J). exists (fun x => a * h x + k x), (E ++ F). split.
  - intros x Hx N. apply IH; [apply A | apply B]; try assumption; intro X; apply N, in_or_app; auto.
  - apply (is_RInt_plus (V := R_NormedModule)); [apply (is_RInt_scal (V := R_NormedModule)); exact I | exact J].
Qed.

Lemma average_le : forall n f g v w, has_average n f v -> has_average n g w ->
  (forall l, List.length l = n -> uniform l -> f l <= g l) -> v <= w.
Proof.
  induction n as [|n IH]; intros f g v w A B H; cbn [has_average] in *.
  - rewrite <- A, <- B. apply H; [reflexivity | constructor].
  - destruct A as (h & E & A & I). destruct B as (k & F & B & J).
    set (h' := fun x => if in_dec Req_EM_T x (E ++ F) then k x else h x).
    assert (I' : is_RInt h' 0 1 v).
    { apply (is_RInt_except (E ++ F) h); [lra| |exact I]. intros x Hx N. unfold h'. destruct (in_dec _ x _); [contradiction | reflexivity]. }
    apply (is_RInt_le h' k 0 1 v w); [lra | exact I' | exact J|]. intros x Hx. unfold h'. destruct (in_dec _ x _) as [X|X]; [lra|].
    apply (IH (fun l => f (x :: l)) (fun l => g (x :: l))).
    + apply A; [exact Hx | intro Y; apply X, in_or_app; auto].
    + apply B; [exact Hx | intro Y; apply X, in_or_app; auto].
    + intros l Hl U. apply H; [cbn; congruence | constructor; assumption].
Qed.

Lemma average_app : forall m k F V v, has_average m V v ->
  (forall l, List.length l = m -> uniform l -> has_average k (fun l' => F (l ++ l')) (V l)) -> has_average (m + k) F v.
Proof.
  induction m as [|m IH]; intros k F V v A H; cbn [has_average Nat.add] in *.
  - rewrite <- A. apply (H []); [reflexivity | constructor].
  - destruct A as (h & E & A & I). exists h, E. split; [|exact I]. intros x Hx N.
    apply (IH k (fun l => F (x :: l)) (fun l => V (x :: l))); [apply A; assumption|].
    intros l Hl U. apply (H (x :: l)); [cbn; congruence | constructor; assumption].
Qed.

Lemma firstn_app_l : forall {A} m (l k : list A), List.length l = m -> firstn m (l ++ k) = l.
Proof. intros A m l k <-. rewrite firstn_app, Nat.sub_diag, firstn_all, firstn_O, app_nil_r. reflexivity. Qed.
Lemma skipn_app_l : forall {A} m (l k : list A), List.length l = m -> skipn m (l ++ k) = k.
Proof. intros A m l k <-. rewrite skipn_app, Nat.sub_diag, skipn_all. reflexivity. Qed.

Lemma average_mult : forall m k f g v w, has_average m f v -> has_average k g w ->
  has_average (m + k) (fun l => f (firstn m l) * g (skipn m l)) (v * w).
Proof.
  intros m k f g v w A B. apply (average_app m k _ (fun l => w * f l + 0)).
  - replace (v * w) with (w * v + 0) by ring. apply average_lin; [exact A | apply average_const].
  - intros l Hl U. replace (w * f l + 0) with (f l * w + 0) by ring.
    apply (has_average_ext _ (fun l' => f l * g l' + 0)).
    + intros l' _ _. rewrite firstn_app_l, skipn_app_l by exact Hl. ring.
    + apply average_lin; [exact B | apply average_const].
Qed.

(** ** Means *)
Lemma average_mean : forall n f v, has_average n f v -> has_mean n f v.
Proof.
  intros n f v A e He. exists f, (fun _ => 0), v, 0. split; [exact A|]. split; [apply average_const|].
  rewrite Rminus_eq_0, Rabs_R0. split; [lra|]. split; [lra|]. intros l _ _. rewrite Rminus_eq_0, Rabs_R0. lra.
Qed.

Lemma mean_ext : forall n f g v, (forall l, List.length l = n -> uniform l -> f l = g l) -> has_mean n f v -> has_mean n g v.
Proof.
  intros n f g v H M e He. destruct (M e He) as (a & b & va & vb & A & B & Ea & Eb & L). exists a, b, va, vb. repeat (split; [assumption|]).
  intros l Hl U. rewrite <- H by assumption. apply L; assumption.
Qed.

Lemma mean_unique : forall n f v w, has_mean n f v -> has_mean n f w -> v = w.
Proof.
  intros n f v w M N. destruct (Req_dec v w) as [E|E]; [exact E|exfalso].
  set (d := Rabs (v - w)). assert (Hd : 0 < d) by (apply Rabs_pos_lt; lra).
  destruct (M (d / 5) ltac:(lra)) as (a & b & va & vb & A & B & Ea & Eb & L).
  destruct (N (d / 5) ltac:(lra)) as (a' & b' & va' & vb' & A' & B' & Ea' & Eb' & L').
  assert (X : forall l, List.length l = n -> uniform l -> Rabs (a l - a' l) <= b l + b' l).
  { intros l Hl U. specialize (L l Hl U). specialize (L' l Hl U). unfold Rabs in *.
    repeat match goal with |- context [Rcase_abs ?x] => destruct (Rcase_abs x) | H : context [Rcase_abs ?x] |- _ => destruct (Rcase_abs x) end; lra. }
  assert (S1 : 1 * va + (-1 * va' + 0) <= 1 * vb + vb').
  { apply (average_le n (fun l => 1 * a l + (-1 * a' l + 0)) (fun l => 1 * b l + b' l)).
    - apply average_lin; [exact A|]. apply average_lin; [exact A' | apply average_const].
    - apply average_lin; assumption.
    - intros l Hl U. specialize (X l Hl U). unfold Rabs in X. destruct (Rcase_abs _) in X; lra. }
  assert (S2 : -1 * va + va' <= 1 * vb + vb').
  { apply (average_le n (fun l => -1 * a l + a' l) (fun l => 1 * b l + b' l)).
    - apply average_lin; assumption.
    - apply average_lin; assumption.
    - intros l Hl U. specialize (X l Hl U). unfold Rabs in X. destruct (Rcase_abs _) in X; lra. }
  unfold d in *. clear - S1 S2 Ea Eb Ea' Eb' Hd. unfold Rabs in *.
  repeat match goal with H : context [Rcase_abs ?x] |- _ => destruct (Rcase_abs x) end; lra.
Qed.

Lemma mean_le : forall n f g v w, has_mean n f v -> has_mean n g w -> (forall l, List.length l = n -> uniform l -> f l <= g l) -> v <= w.
Proof.
  intros n f g v w M N H. apply Rnot_lt_le. intro Lt. set (d := v - w).
  destruct (M (d / 5) ltac:(unfold d; lra)) as (a & b & va & vb & A & B & Ea & Eb & L).
  destruct (N (d / 5) ltac:(unfold d; lra)) as (a' & b' & va' & vb' & A' & B' & Ea' & Eb' & L').
  assert (S1 : 1 * va + (-1 * va' + 0) <= 1 * vb + vb').
  { apply (average_le n (fun l => 1 * a l + (-1 * a' l + 0)) (fun l => 1 * b l + b' l)).
    - apply average_lin; [exact A|]. apply average_lin; [exact A' | apply average_const].
    - apply average_lin; assumption.
    - intros l Hl U. specialize (L l Hl U). specialize (L' l Hl U). specialize (H l Hl U). apply Rabs_le_between in L. apply Rabs_le_between in L'. lra. }
  apply Rabs_le_between in Ea. apply Rabs_le_between in Ea'. unfold d in *. lra.
Qed.

Lemma mean_lin : forall n a f g v w, has_mean n f v -> has_mean n g w -> has_mean n (fun l => a * f l + g l) (a * v + w).
Proof.
  intros n a f g v w M N e He. set (c := Rabs a + 1). pose proof (Rabs_pos a) as Pa. assert (Pc : 0 < c) by (unfold c; lra).
  assert (Pe : 0 < e / (2 * c)) by (apply Rdiv_lt_0_compat; lra).
  destruct (M (e / (2 * c)) Pe) as (p & q & vp & vq & A & B & Ea & Eb & L).
  destruct (N (e / 2) ltac:(lra)) as (p' & q' & vp' & vq' & A' & B' & Ea' & Eb' & L').
  assert (Hc : c * (e / (2 * c)) = e / 2) by (field; lra).
  assert (K : Rabs a * (e / (2 * c)) <= e / 2) by (rewrite <- Hc; apply Rmult_le_compat_r; [lra | unfold c; lra]).
  exists (fun l => a * p l + p' l), (fun l => Rabs a * q l + q' l), (a * vp + vp'), (Rabs a * vq + vq').
  split; [apply average_lin; assumption|]. split; [apply average_lin; assumption|]. split; [|split].
  - replace (a * vp + vp' - (a * v + w)) with (a * (vp - v) + (vp' - w)) by ring.
    apply Rle_trans with (Rabs (a * (vp - v)) + Rabs (vp' - w)); [apply Rabs_triang|]. rewrite Rabs_mult.
    assert (Rabs a * Rabs (vp - v) <= Rabs a * (e / (2 * c))) by (apply Rmult_le_compat_l; assumption). lra.
  - assert (Rabs a * vq <= Rabs a * (e / (2 * c))) by (apply Rmult_le_compat_l; assumption). lra.
  - intros l Hl U. replace (a * f l + g l - (a * p l + p' l)) with (a * (f l - p l) + (g l - p' l)) by ring.
    apply Rle_trans with (Rabs (a * (f l - p l)) + Rabs (g l - p' l)); [apply Rabs_triang|]. rewrite Rabs_mult.
    specialize (L l Hl U). specialize (L' l Hl U).
    assert (Rabs a * Rabs (f l - p l) <= Rabs a * q l) by (apply Rmult_le_compat_l; assumption). lra.
Qed.

Lemma mean_const : forall n c, has_mean n (fun _ => c) c.
Proof. intros n c. apply average_mean, average_const. Qed.

Lemma mean_affine : forall n a b f v, has_mean n f v -> has_mean n (fun l => a * f l + b) (a * v + b).
Proof. intros n a b f v M. apply (mean_lin n a f (fun _ => b)); [exact M | apply mean_const]. Qed.

Lemma uniform_split : forall m k l, List.length l = (m + k)%nat -> uniform l ->
  List.length (firstn m l) = m /\ uniform (firstn m l) /\ List.length (skipn m l) = k /\ uniform (skipn m l).
Proof.
  intros m k l Hl U. rewrite <- (firstn_skipn m l) in U. apply Forall_app in U. destruct U as [U1 U2].
  split; [rewrite firstn_length; lia|]. split; [exact U1|]. split; [rewrite skipn_length; lia | exact U2].
Qed.

Lemma mean_mult : forall m k C f g v w, 0 <= C -> (forall l, List.length l = m -> uniform l -> Rabs (f l) <= C) ->
  (forall l, List.length l = k -> uniform l -> Rabs (g l) <= C) -> has_mean m f v -> has_mean k g w ->
  has_mean (m + k) (fun l => f (firstn m l) * g (skipn m l)) (v * w).
Proof.
  intros m k C f g v w HC Bf Bg M N e He.
  set (D := 2 * C + 1 + Rabs v + Rabs w). pose proof (Rabs_pos v). pose proof (Rabs_pos w). assert (PD : 0 < D) by (unfold D; lra).
  set (d := Rmin 1 (e / D)). assert (Hd : 0 < d) by (apply Rmin_pos; [lra | apply Rdiv_lt_0_compat; assumption]).
  assert (d1 : d <= 1) by apply Rmin_l. assert (dD : D * d <= e).
  { apply Rle_trans with (D * (e / D)); [apply Rmult_le_compat_l; [lra | apply Rmin_r] | right; field; lra]. }
  assert (dd : d * d <= d) by nra. unfold D in dD.
  destruct (M d Hd) as (p & q & vp & vq & A & B & Ea & Eb & L).
  destruct (N d Hd) as (p' & q' & vp' & vq' & A' & B' & Ea' & Eb' & L').
  assert (Q0 : 0 <= vq).
  { apply (average_le m (fun _ => 0) q); [apply average_const | exact B|]. intros l Hl U. specialize (L l Hl U). pose proof (Rabs_pos (f l - p l)). lra. }
  assert (Q0' : 0 <= vq').
  { apply (average_le k (fun _ => 0) q'); [apply average_const | exact B'|]. intros l Hl U. specialize (L' l Hl U). pose proof (Rabs_pos (g l - p' l)). lra. }
  exists (fun l => p (firstn m l) * p' (skipn m l)),
    (fun l => C * (q (firstn m l) * 1) + (C * (1 * q' (skipn m l)) + q (firstn m l) * q' (skipn m l))),
    (vp * vp'), (C * (vq * 1) + (C * (1 * vq') + vq * vq')).
  split; [apply average_mult; assumption|]. split; [|split; [|split]].
  - apply (average_lin _ C (fun l => q (firstn m l) * 1)).
    + apply (average_mult m k q (fun _ => 1)); [assumption | apply average_const].
    + apply (average_lin _ C (fun l => 1 * q' (skipn m l))).
      * apply (average_mult m k (fun _ => 1) q'); [apply average_const | assumption].
      * apply average_mult; assumption.
  - replace (vp * vp' - v * w) with ((vp - v) * (vp' - w) + (v * (vp' - w) + w * (vp - v))) by ring.
    apply Rle_trans with (Rabs (vp - v) * Rabs (vp' - w) + (Rabs v * Rabs (vp' - w) + Rabs w * Rabs (vp - v))).
    + rewrite <- !Rabs_mult. eapply Rle_trans; [apply Rabs_triang|]. apply Rplus_le_compat_l. apply Rabs_triang.
    + set (x := Rabs (vp - v)) in *. set (y := Rabs (vp' - w)) in *.
      assert (0 <= x) by apply Rabs_pos. assert (0 <= y) by apply Rabs_pos.
      assert (x * y <= d * d) by (apply Rmult_le_compat; assumption).
      assert (Rabs v * y <= Rabs v * d) by (apply Rmult_le_compat_l; assumption).
      assert (Rabs w * x <= Rabs w * d) by (apply Rmult_le_compat_l; assumption). nra.
  - assert (vq * vq' <= d * d) by (apply Rmult_le_compat; assumption).
    assert (C * vq <= C * d) by (apply Rmult_le_compat_l; assumption).
    assert (C * vq' <= C * d) by (apply Rmult_le_compat_l; assumption). nra.
  - intros l Hl U. destruct (uniform_split m k l Hl U) as (H1 & U1 & H2 & U2). set (l1 := firstn m l) in *. set (l2 := skipn m l) in *.
    specialize (L l1 H1 U1). specialize (L' l2 H2 U2). specialize (Bf l1 H1 U1). specialize (Bg l2 H2 U2).
    replace (f l1 * g l2 - p l1 * p' l2) with (f l1 * (g l2 - p' l2) + (f l1 - p l1) * (g l2 - (g l2 - p' l2))) by ring.
    set (x := f l1 - p l1) in *. set (y := g l2 - p' l2) in *. set (u := f l1) in *. set (z := g l2) in *.
    pose proof (Rabs_pos x). pose proof (Rabs_pos y).
    apply Rle_trans with (Rabs u * Rabs y + Rabs x * (Rabs z + Rabs y)).
    + eapply Rle_trans; [apply Rabs_triang|]. rewrite !Rabs_mult. apply Rplus_le_compat_l. apply Rmult_le_compat_l; [assumption|].
      eapply Rle_trans; [apply Rabs_triang|]. rewrite Rabs_Ropp. lra.
    + assert (Rabs u * Rabs y <= C * q' l2) by (apply Rmult_le_compat; try assumption; apply Rabs_pos).
      assert (Rabs x * Rabs z <= q l1 * C) by (apply Rmult_le_compat; try assumption; apply Rabs_pos).
      assert (Rabs x * Rabs y <= q l1 * q' l2) by (apply Rmult_le_compat; assumption). nra.
Qed.

Lemma mean_first : forall m k f v C, (forall l, List.length l = m -> uniform l -> Rabs (f l) <= C) -> has_mean m f v -> has_mean (m + k) (fun l => f (firstn m l)) v.
Proof.
  intros m k f v C B M. replace v with (v * 1) by ring. apply (mean_ext _ (fun l => f (firstn m l) * 1)); [intros; ring|].
  apply (mean_mult m k (Rmax C 1) f (fun _ => 1)).
  - eapply Rle_trans; [|apply Rmax_r]. lra.
  - intros l Hl U. eapply Rle_trans; [exact (B l Hl U) | apply Rmax_l].
  - intros. rewrite Rabs_R1. apply Rmax_r.
  - exact M.
  - apply mean_const.
Qed.
Lemma mean_rest : forall m k f v C, (forall l, List.length l = k -> uniform l -> Rabs (f l) <= C) -> has_mean k f v -> has_mean (m + k) (fun l => f (skipn m l)) v.
Proof.
  intros m k f v C B M. replace v with (1 * v) by ring. apply (mean_ext _ (fun l => 1 * f (skipn m l))); [intros; ring|].
  apply (mean_mult m k (Rmax C 1) (fun _ => 1) f).
  - eapply Rle_trans; [|apply Rmax_r]. lra.
  - intros. rewrite Rabs_R1. apply Rmax_r.
  - intros l Hl U. eapply Rle_trans; [exact (B l Hl U) | apply Rmax_l].
  - apply mean_const.
  - exact M.
Qed.

(** ** Independent repetitions *)
Fixpoint sum_blocks (m : nat) (X : list R -> R) (n : nat) (l : list R) : R :=
  match n with O => 0 | S k => X (firstn m l) + sum_blocks m X k (skipn m l) end.

Section Repeat.
Context (m : nat) (X : list R -> R) (p : R) (B01 : forall l, X l = 0 \/ X l = 1) (MX : has_mean m X p).

Lemma sum_bound : forall n l, Rabs (sum_blocks m X n l - INR n * p) <= INR n * (1 + Rabs p).
Proof.
  induction n as [|n IH]; intro l; [cbn; rewrite Rmult_0_l, Rminus_eq_0, Rabs_R0; lra|].
  cbn [sum_blocks]. rewrite S_INR. specialize (IH (skipn m l)). set (s := sum_blocks _ _ _ _) in *.
  replace (X (firstn m l) + s - (INR n + 1) * p) with ((X (firstn m l) - p) + (s - INR n * p)) by ring.
  eapply Rle_trans; [apply Rabs_triang|].
  assert (Rabs (X (firstn m l) - p) <= 1 + Rabs p).
  { eapply Rle_trans; [apply Rabs_triang|]. rewrite Rabs_Ropp. destruct (B01 (firstn m l)) as [-> | ->]; rewrite ?Rabs_R0, ?Rabs_R1; lra. }
  lra.
Qed.

Lemma X_bound : forall l, Rabs (X l) <= 1.
Proof. intro l. destruct (B01 l) as [-> | ->]; rewrite ?Rabs_R0, ?Rabs_R1; lra. Qed.

Lemma sum_mean : forall n, has_mean (n * m) (fun l => sum_blocks m X n l - INR n * p) 0.
Proof.
  induction n as [|n IH].
  - cbn. apply (mean_ext _ (fun _ => 0)); [intros; ring | apply mean_const].
  - cbn [Nat.mul]. replace 0 with (1 * (1 * p + - p) + 0) by ring.
    apply (mean_ext _ (fun l => 1 * (1 * X (firstn m l) + - p) + (fun l => sum_blocks m X n l - INR n * p) (skipn m l))).
    { intros l _ _. cbn [sum_blocks]. rewrite S_INR. ring. }
    apply mean_lin.
    + apply mean_affine. apply (mean_first m (n * m) X p 1); [intros; apply X_bound | exact MX].
    + apply (mean_rest m (n * m) (fun l => sum_blocks m X n l - INR n * p) 0 (INR n * (1 + Rabs p))); [intros; apply sum_bound | exact IH].
Qed.

Lemma sum_variance : forall n, has_mean (n * m) (fun l => (sum_blocks m X n l - INR n * p) ^ 2) (INR n * (p * (1 - p))).
Proof.
  induction n as [|n IH].
  - cbn. apply (mean_ext _ (fun _ => 0)); [intros; ring|]. replace (0 * (p * (1 - p))) with 0 by ring. apply mean_const.
  - cbn [Nat.mul]. rewrite S_INR. set (W := fun l => sum_blocks m X n l - INR n * p) in *.
    replace ((INR n + 1) * (p * (1 - p))) with (1 * ((1 - 2 * p) * p + p ^ 2) + (2 * ((1 * p + - p) * 0) + INR n * (p * (1 - p)))) by ring.
    apply (mean_ext _ (fun l => 1 * ((1 - 2 * p) * X (firstn m l) + p ^ 2)
       + (2 * ((fun l => 1 * X l + - p) (firstn m l) * W (skipn m l)) + (fun l => W l ^ 2) (skipn m l)))).
    { intros l _ _. unfold W. cbn [sum_blocks]. set (s := sum_blocks _ _ _ _).
      assert (E : X (firstn m l) ^ 2 = X (firstn m l)) by (destruct (B01 (firstn m l)) as [-> | ->]; ring).
      set (x := X (firstn m l)) in *. replace ((x + s - (INR n + 1) * p) ^ 2) with (x ^ 2 - 2 * p * x + p ^ 2 + 2 * (x - p) * (s - INR n * p) + (s - INR n * p) ^ 2) by ring.
      rewrite E. ring. }
    apply mean_lin; [|apply mean_lin].
    + apply mean_affine. apply (mean_first m (n * m) X p 1); [intros; apply X_bound | exact MX].
    + set (C := 1 + Rabs p + INR n * (1 + Rabs p)). pose proof (Rabs_pos p). pose proof (pos_INR n).
      assert (0 <= INR n * (1 + Rabs p)) by (apply Rmult_le_pos; lra).
      apply (mean_mult m (n * m) C (fun l => 1 * X l + - p) W).
      * unfold C. lra.
      * intros l _ _. eapply Rle_trans; [apply Rabs_triang|]. rewrite Rabs_Ropp, Rmult_1_l. pose proof (X_bound l). unfold C. lra.
      * intros l _ _. unfold W. pose proof (sum_bound n l). unfold C. lra.
      * apply mean_affine. exact MX.
      * apply sum_mean.
    + apply (mean_rest m (n * m) (fun l => W l ^ 2) _ ((INR n * (1 + Rabs p)) ^ 2)); [|exact IH].
      intros l _ _. unfold W. pose proof (sum_bound n l) as S0. rewrite <- RPow_abs. apply pow_incr. split; [apply Rabs_pos | exact S0].
Qed.

Definition binomial (n : nat) (f : R -> R) : R := sum_f_R0 (fun k => Binomial.C n k * p ^ k * (1 - p) ^ (n - k) * f (INR k)) n.

Lemma C_0 : forall n, Binomial.C n 0 = 1.
Proof. intro n. unfold Binomial.C. rewrite Nat.sub_0_r. cbn [fact]. change (INR 1) with 1. field. apply INR_fact_neq_0. Qed.
Lemma C_n : forall n, Binomial.C n n = 1.
Proof. intro n. unfold Binomial.C. rewrite Nat.sub_diag. cbn [fact]. change (INR 1) with 1. field. apply INR_fact_neq_0. Qed.

Lemma binomial_S : forall n f, binomial (S n) f = p * binomial n (fun x => f (1 + x)) + (1 - p) * binomial n f.
Proof.
  intros n f. unfold binomial. rewrite decomp_sum by lia. cbn [Init.Nat.pred]. rewrite C_0, Nat.sub_0_r, !scal_sum.
  destruct n as [|n].
  - cbn [sum_f_R0]. rewrite !C_n. cbn [Nat.sub pow INR]. replace (1 + 0) with 1 by ring. ring.
  - rewrite (tech5 _ n), (tech5 (fun i => _ * p) n). rewrite (decomp_sum (fun i => _ * (1 - p))) by lia. cbn [Init.Nat.pred].
    rewrite !C_n, C_0, !Nat.sub_diag, Nat.sub_0_r.
    assert (E : sum_f_R0 (fun i => Binomial.C (S (S n)) (S i) * p ^ S i * (1 - p) ^ (S (S n) - S i) * f (INR (S i))) n
      = sum_f_R0 (fun i => Binomial.C (S n) i * p ^ i * (1 - p) ^ (S n - i) * f (1 + INR i) * p) n
      + sum_f_R0 (fun i => Binomial.C (S n) (S i) * p ^ S i * (1 - p) ^ (S n - S i) * f (INR (S i)) * (1 - p)) n).
    { rewrite <- plus_sum. apply sum_eq. intros i Hi. rewrite <- pascal by lia. rewrite (S_INR i).
      replace (INR i + 1) with (1 + INR i) by ring. replace (S (S n) - S i)%nat with (S (n - i)) by lia.
      replace (S n - i)%nat with (S (n - i)) by lia. replace (S n - S i)%nat with (n - i)%nat by lia. cbn [pow]. ring. }
    rewrite E. rewrite (S_INR (S n)). replace (INR (S n) + 1) with (1 + INR (S n)) by ring. cbn [pow]. change (INR 0) with 0. ring.
Qed.

Lemma sum_values : forall n (f : R -> R), exists C, 0 <= C /\ forall l, Rabs (f (sum_blocks m X n l)) <= C.
Proof.
  induction n as [|n IH]; intro f.
  - exists (Rabs (f 0)). split; [apply Rabs_pos|]. intro l. cbn. lra.
  - destruct (IH f) as (C1 & P1 & B1). destruct (IH (fun x => f (1 + x))) as (C2 & P2 & B2). exists (C1 + C2). split; [lra|].
    intro l. cbn [sum_blocks]. specialize (B1 (skipn m l)). specialize (B2 (skipn m l)). cbv beta in B2.
    destruct (B01 (firstn m l)) as [-> | ->]; [rewrite Rplus_0_l|]; lra.
Qed.

Lemma sum_binomial : forall n f, has_mean (n * m) (fun l => f (sum_blocks m X n l)) (binomial n f).
Proof.
  induction n as [|n IH]; intro f.
  - replace (binomial 0 f) with (f 0) by (unfold binomial; cbn [sum_f_R0]; rewrite C_0; cbn [Nat.sub pow]; change (INR 0) with 0; ring).
    apply mean_const.
  - rewrite binomial_S. change (S n * m)%nat with (m + n * m)%nat.
    replace (p * binomial n (fun x => f (1 + x)) + (1 - p) * binomial n f)
      with (1 * (p * binomial n (fun x => f (1 + x))) + (-1 * p + 1) * binomial n f) by ring.
    apply (mean_ext _ (fun l => 1 * (X (firstn m l) * (fun l' => f (1 + sum_blocks m X n l')) (skipn m l))
                               + (-1 * X (firstn m l) + 1) * (fun l' => f (sum_blocks m X n l')) (skipn m l))).
    { intros l _ _. cbn [sum_blocks]. destruct (B01 (firstn m l)) as [-> | ->]; [rewrite Rplus_0_l|]; ring. }
    destruct (sum_values n (fun x => f (1 + x))) as (C1 & P1 & B1). destruct (sum_values n f) as (C2 & P2 & B2). cbv beta in B1.
    apply mean_lin.
    + apply (mean_mult m (n * m) (C1 + 1) X (fun l' => f (1 + sum_blocks m X n l'))); [lra | | | exact MX | apply (IH (fun x => f (1 + x)))].
      * intros l _ _. pose proof (X_bound l). lra.
      * intros l _ _. specialize (B1 l). lra.
    + apply (mean_mult m (n * m) (C2 + 1) (fun l => -1 * X l + 1) (fun l' => f (sum_blocks m X n l'))); [lra | | | apply mean_affine, MX | apply IH].
      * intros l _ _. destruct (B01 l) as [-> | ->]; [replace (-1 * 0 + 1) with 1 by ring; rewrite Rabs_R1 | replace (-1 * 1 + 1) with 0 by ring; rewrite Rabs_R0]; lra.
      * intros l _ _. specialize (B2 l). lra.
Qed.
End Repeat.
