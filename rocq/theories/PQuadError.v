(** The midpoint rule: algebra, error bound, convergence. *)
From Coq Require Import Reals ZArith List Lra Lia Permutation.
From Coquelicot Require Import Coquelicot.
From Verif Require Import Scalar MMath PQuad.
Import ListNotations.
Open Scope R_scope.

(** ** Reindexing *)
Lemma Rsum_perm : forall l k, Permutation l k -> Rsum l = Rsum k.
Proof. induction 1; cbn; lra. Qed.

Lemma zrange_NoDup : forall a b, NoDup (zrange a b).
Proof.
  intros a b. unfold zrange. apply FinFun.Injective_map_NoDup; [|apply seq_NoDup].
  intros x y H. lia.
Qed.

Lemma zrange_rev : forall n, Permutation (map (fun i => (n - 1 - i)%Z) (zrange 0 n)) (zrange 0 n).
Proof.
  intro n. apply NoDup_Permutation.
  - apply FinFun.Injective_map_NoDup; [intros x y H; lia | apply zrange_NoDup].
  - apply zrange_NoDup.
  - intro i. rewrite in_map_iff, zrange_In. split.
    + intros (j & <- & Hj). apply zrange_In in Hj. lia.
    + intro H. exists (n - 1 - i)%Z. rewrite zrange_In. lia.
Qed.

Lemma zrange_split : forall n m, (0 <= n)%Z -> (0 <= m)%Z ->
  zrange 0 (n + m) = zrange 0 n ++ map (fun i => (n + i)%Z) (zrange 0 m).
Proof.
  intros n m Hn Hm. unfold zrange. replace (Z.to_nat (n + m - 0)) with (Z.to_nat n + Z.to_nat m)%nat by lia.
  replace (n - 0)%Z with n by lia. replace (m - 0)%Z with m by lia.
  rewrite seq_app, map_app, map_map. f_equal.
  replace (0 + Z.to_nat n)%nat with (Z.to_nat n + 0)%nat by lia.
  assert (E : forall k s, map (fun i : nat => (0 + Z.of_nat i)%Z) (seq (Z.to_nat n + s) k)
              = map (fun x => (n + (0 + Z.of_nat x))%Z) (seq s k)).
  { induction k as [|k IH]; intro s; cbn; [reflexivity|]. f_equal; [lia|].
    rewrite <- IH. f_equal. f_equal. lia. }
  apply E.
Qed.

Lemma zrange_ind : forall (P : Z -> Prop), P 0%Z -> (forall n, (0 <= n)%Z -> P n -> P (n + 1)%Z) ->
  forall n, (0 <= n)%Z -> P n.
Proof.
  intros P H0 H n Hn. apply (natlike_ind P H0); [|exact Hn]. intros x Hx Px. apply H; assumption.
Qed.

Lemma Rsum_index : forall n, (0 <= n)%Z -> Rsum (map IZR (zrange 0 n)) = IZR n * (IZR n - 1) / 2.
Proof.
  apply zrange_ind; [cbn; lra|]. intros n Hn IH. rewrite zrange_0_succ, map_app, Rsum_app, IH by exact Hn.
  cbn [map Rsum]. rewrite plus_IZR. field.
Qed.

Lemma zrange_len_INR : forall n, (0 <= n)%Z -> INR (length (zrange 0 n)) = IZR n.
Proof. intros n Hn. rewrite zrange_length, INR_IZR_INZ. f_equal. lia. Qed.

(** ** Algebra *)
Lemma integrate_1d_affine : forall c d a b n, (0 < n)%Z ->
  math.integrate_1d (fun x => c + d * x) a b n = c * (b - a) + d * (b ^ 2 - a ^ 2) / 2.
Proof.
  intros c d a b n Hn. assert (N : IZR n <> 0) by (apply not_0_IZR; lia).
  rewrite integrate_1d_R. set (h := (b - a) / IZR n).
  rewrite (Rsum_ext _ (fun i => (c + d * a + d * h / 2) + (d * h) * IZR i)).
  2:{ intros i _. rewrite midpoint_R. field. }
  rewrite Rsum_plus, Rsum_const, Rsum_scal, Rsum_index, zrange_len_INR by lia.
  unfold h. field. exact N.
Qed.

Lemma integrate_1d_reverse : forall f a b n, (0 < n)%Z ->
  math.integrate_1d f b a n = - math.integrate_1d f a b n.
Proof.
  intros f a b n Hn. assert (N : IZR n <> 0) by (apply not_0_IZR; lia). rewrite 2!integrate_1d_R.
  replace ((a - b) / IZR n) with (- ((b - a) / IZR n)) by (field; exact N).
  rewrite <- Ropp_mult_distr_r. f_equal. f_equal.
  rewrite <- (Rsum_perm _ _ (Permutation_map (fun i => f (math.midpoint a ((b - a) / IZR n) i)) (zrange_rev n))).
  rewrite map_map. apply Rsum_ext. intros i _. f_equal. rewrite 2!midpoint_R, 2!minus_IZR. field. exact N.
Qed.

Lemma integrate_1d_split : forall f a b n m, (0 < n)%Z -> (0 < m)%Z ->
  math.integrate_1d f a b (n + m) =
  math.integrate_1d f a (a + IZR n * (b - a) / IZR (n + m)) n
  + math.integrate_1d f (a + IZR n * (b - a) / IZR (n + m)) b m.
Proof.
  intros f a b n m Hn Hm. rewrite 3!integrate_1d_R.
  assert (N : IZR n <> 0) by (apply not_0_IZR; lia). assert (M : IZR m <> 0) by (apply not_0_IZR; lia).
  assert (NM : IZR (n + m) <> 0) by (apply not_0_IZR; lia).
  assert (E : IZR (n + m) = IZR n + IZR m) by apply plus_IZR.
  set (h := (b - a) / IZR (n + m)).
  replace ((a + IZR n * (b - a) / IZR (n + m) - a) / IZR n) with h by (unfold h; field; auto).
  replace ((b - (a + IZR n * (b - a) / IZR (n + m))) / IZR m) with h
    by (unfold h; rewrite E in *; field; auto).
  rewrite zrange_split, map_app, Rsum_app, map_map by lia. rewrite Rmult_plus_distr_r. f_equal. f_equal.
  apply Rsum_ext. intros i _. f_equal. rewrite 2!midpoint_R, plus_IZR. unfold h. field. exact NM.
Qed.

(** ** Error *)
Section Error.
Context (f : R -> R) (a b : R) (Hab : a <= b).
Context (Hf : forall x, a <= x <= b -> continuous f x).

Let Hint : forall u v, a <= u -> u <= v -> v <= b -> ex_RInt f u v.
Proof using Hf.
  intros u v Hu Huv Hv. apply (ex_RInt_continuous (V := R_CompleteNormedModule)). intros x Hx.
  rewrite Rmin_left, Rmax_right in Hx by lra. apply Hf. lra.
Qed.

Lemma cells_R : forall h n, (0 <= n)%Z -> 0 <= h -> a + IZR n * h <= b ->
  RInt f a (a + IZR n * h) = Rsum (map (fun i => RInt f (a + IZR i * h) (a + IZR (i + 1) * h)) (zrange 0 n)).
Proof using Hf Hab.
  intros h n Hn. revert n Hn.
  apply (zrange_ind (fun n => 0 <= h -> a + IZR n * h <= b -> RInt f a (a + IZR n * h)
    = Rsum (map (fun i => RInt f (a + IZR i * h) (a + IZR (i + 1) * h)) (zrange 0 n)))).
  - intros _ _. replace (a + IZR 0 * h) with a by ring.
    rewrite (RInt_point (V := R_CompleteNormedModule) a f). reflexivity.
  - intros n Hn IH Hh Hb. rewrite zrange_0_succ, map_app, Rsum_app by exact Hn. cbn [map Rsum].
    rewrite Rplus_0_r.
    assert (N0 : 0 <= IZR n) by (apply IZR_le; lia).
    assert (Hb' : a + IZR n * h <= b) by (rewrite plus_IZR in Hb; nra).
    rewrite <- IH by assumption. symmetry.
    apply (RInt_Chasles (V := R_CompleteNormedModule)); apply Hint; rewrite ?plus_IZR in *; nra.
Qed.

Lemma cell_error_sum : forall E n, (0 < n)%Z ->
  (forall u v, a <= u -> u <= v -> v <= b -> v - u = (b - a) / IZR n ->
    Rabs (RInt f u v - f ((u + v) / 2) * (v - u)) <= E * (v - u)) ->
  Rabs (RInt f a b - math.integrate_1d f a b n) <= E * (b - a).
Proof using Hf Hab.
  intros E n Hn H. assert (N : 0 < IZR n) by (apply IZR_lt; lia).
  set (h := (b - a) / IZR n) in *.
  assert (Hh : 0 <= h) by (apply Rmult_le_pos; [lra | left; apply Rinv_0_lt_compat; exact N]).
  assert (Eb : a + IZR n * h = b) by (unfold h; field; lra).
  rewrite <- Eb at 1. rewrite cells_R by (try lia; lra).
  rewrite integrate_1d_R. fold h.
  replace (Rsum (map (fun i => RInt f (a + IZR i * h) (a + IZR (i + 1) * h)) (zrange 0 n)) -
    Rsum (map (fun i => f (math.midpoint a h i)) (zrange 0 n)) * h)
   with (Rsum (map (fun i => RInt f (a + IZR i * h) (a + IZR (i + 1) * h) + (- h) * f (math.midpoint a h i)) (zrange 0 n)))
   by (rewrite (Rsum_plus (fun i => RInt f (a + IZR i * h) (a + IZR (i + 1) * h)) (fun i => - h * f (math.midpoint a h i))),
         (Rsum_scal (fun i => f (math.midpoint a h i))); unfold Rminus; f_equal; rewrite Ropp_mult_distr_l_reverse, Rmult_comm; reflexivity).
  eapply Rle_trans; [apply Rsum_abs|].
  replace (E * (b - a)) with (Rsum (map (fun _ => E * h) (zrange 0 n))).
  2:{ rewrite Rsum_const, zrange_len_INR by lia. unfold h. field. lra. }
  apply Rsum_le. intros i Hi. apply zrange_In in Hi.
  assert (I0 : 0 <= IZR i) by (apply IZR_le; lia).
  assert (I1 : IZR i + 1 <= IZR n) by (rewrite <- plus_IZR; apply IZR_le; lia).
  specialize (H (a + IZR i * h) (a + IZR (i + 1) * h)). rewrite plus_IZR in *.
  replace ((a + IZR i * h + (a + (IZR i + 1) * h)) / 2) with (math.midpoint a h i) in H
    by (rewrite midpoint_R; field).
  replace (a + (IZR i + 1) * h - (a + IZR i * h)) with h in H by ring.
  replace (RInt f (a + IZR i * h) (a + (IZR i + 1) * h) + - h * f (math.midpoint a h i))
    with (RInt f (a + IZR i * h) (a + (IZR i + 1) * h) - f (math.midpoint a h i) * h) by ring.
  apply H; try reflexivity; nra.
Qed.

(** Convergence: the oscillation of a continuous function over small cells. *)
Lemma midpoint_converges : forall eps, 0 < eps ->
  exists n0, (0 < n0)%Z /\ forall n, (n0 <= n)%Z -> Rabs (RInt f a b - math.integrate_1d f a b n) <= eps.
Proof using Hf Hab.
  intros eps Heps.
  assert (E0 : 0 < eps / (b - a + 1)) by (apply Rdiv_lt_0_compat; lra).
  assert (Hc : forall x, a <= x <= b -> continuity_pt f x)
    by (intros x Hx; apply continuity_pt_filterlim; apply Hf; exact Hx).
  destruct (Heine_cor2 Hc (mkposreal _ E0)) as [delta Hd].
  destruct (archimed ((b - a) / delta)) as [A _].
  assert (P : 0 <= (b - a) / delta) by (apply Rmult_le_pos; [lra | left; apply Rinv_0_lt_compat, delta]).
  exists (up ((b - a) / delta)). split; [apply lt_IZR; lra|]. intros n Hn.
  assert (N : (b - a) / delta < IZR n) by (apply IZR_le in Hn; lra).
  assert (Hn0 : (0 < n)%Z) by (apply lt_IZR; lra).
  assert (HD : (b - a) / IZR n < delta).
  { apply Rmult_lt_reg_r with (IZR n / delta).
    - apply Rdiv_lt_0_compat; [apply IZR_lt; lia | apply delta].
    - assert (D0 := cond_pos delta). assert (0 < IZR n) by (apply IZR_lt; lia).
      replace ((b - a) / IZR n * (IZR n / delta)) with ((b - a) / delta) by (field; lra).
      replace (delta * (IZR n / delta)) with (IZR n) by (field; lra). exact N. }
  eapply Rle_trans; [apply (cell_error_sum (eps / (b - a + 1))); [exact Hn0|]|].
  - intros u v Hu Huv Hv Hw. set (c := (u + v) / 2).
    replace (f c * (v - u)) with (RInt (fun _ => f c) u v)
      by (rewrite RInt_const; change ((v - u) * f c = f c * (v - u)); ring).
    assert (X1 := Hint u v Hu Huv Hv).
    assert (X2 : ex_RInt (fun _ => f c) u v) by apply ex_RInt_const.
    rewrite <- (RInt_minus (V := R_CompleteNormedModule)) by assumption.
    replace (eps / (b - a + 1) * (v - u)) with ((v - u) * (eps / (b - a + 1))) by ring.
    apply (abs_RInt_le_const (fun x => minus (f x) (f c))).
    + exact Huv.
    + apply (ex_RInt_minus (V := R_NormedModule)); assumption.
    + intros x Hx. left. apply (Hd x c); unfold c; try lra. unfold Rabs. destruct (Rcase_abs _); lra.
  - replace eps with (eps / (b - a + 1) * (b - a + 1)) at 2 by (field; lra).
    apply Rmult_le_compat_l; lra.
Qed.
End Error.

(** Second-order bound. *)
Section Taylor.
Context (f f1 f2 : R -> R) (a b M : R) (Hab : a <= b).
Context (H1 : forall x, a <= x <= b -> is_derive f x (f1 x)).
Context (H2 : forall x, a <= x <= b -> is_derive f1 x (f2 x)).
Context (HM : forall x, a <= x <= b -> Rabs (f2 x) <= M).

Lemma taylor_2 : forall c x, a <= c <= b -> a <= x <= b ->
  Rabs (f x - f c - f1 c * (x - c)) <= M / 2 * (x - c) ^ 2.
Proof using H1 H2 HM.
  intros c x Hc Hx.
  (* apply the mean value theorem to g(t) = f x - f t - f1 t (x-t) with weight (x-t)^2 *)
  destruct (Req_dec x c) as [->|N].
  { replace (f c - f c - f1 c * (c - c)) with 0 by ring. rewrite Rabs_R0. replace (c - c) with 0 by ring.
    simpl. lra. }
  set (K := (f x - f c - f1 c * (x - c)) / (x - c) ^ 2).
  set (g := fun t => f x - f t - f1 t * (x - t) - K * (x - t) ^ 2).
  assert (D : forall t, a <= t <= b -> is_derive g t (- f2 t * (x - t) + 2 * K * (x - t))).
  { intros t Ht. unfold g. pose proof (H1 t Ht) as A1. pose proof (H2 t Ht) as A2.
    evar_last. 
    - apply (is_derive_minus (fun t => f x - f t - f1 t * (x - t)) (fun t => K * (x - t) ^ 2)).
      + apply (is_derive_minus (fun t => f x - f t) (fun t => f1 t * (x - t))).
        * apply (is_derive_minus (fun _ => f x) f); [apply is_derive_const | exact A1].
        * apply (is_derive_mult f1 (fun t => x - t)); [exact A2 | | intros; apply Rmult_comm].
          apply (is_derive_minus (fun _ => x) (fun t => t)); [apply is_derive_const | apply is_derive_id].
      + auto_derive; [trivial | reflexivity].
    - unfold minus, plus, opp, mult, zero, one; cbn. ring. }
  assert (Gc : g c = 0) by (unfold g, K; field; intro E; apply N; lra).
  assert (Gx : g x = 0) by (unfold g; ring).
  assert (R0 : exists t, a <= t <= b /\ t <> x /\ - f2 t * (x - t) + 2 * K * (x - t) = 0).
  { destruct (Rtotal_order x c) as [L|[E|L]]; [|contradiction|].
    - destruct (MVT_cor2 g (fun t => - f2 t * (x - t) + 2 * K * (x - t)) x c L) as (t & E & Ht).
      { intros t Ht. apply is_derive_Reals, D. lra. }
      exists t. rewrite Gc, Gx in E. repeat split; try lra.
      assert (0 < c - x) by lra. apply Rmult_eq_reg_r with (c - x); [lra | lra].
    - destruct (MVT_cor2 g (fun t => - f2 t * (x - t) + 2 * K * (x - t)) c x L) as (t & E & Ht).
      { intros t Ht. apply is_derive_Reals, D. lra. }
      exists t. rewrite Gc, Gx in E. repeat split; try lra.
      apply Rmult_eq_reg_r with (x - c); [lra | lra]. }
  destruct R0 as (t & Ht & Nt & Et).
  assert (EK : K = f2 t / 2).
  { assert (X : (2 * K - f2 t) * (x - t) = 0) by lra. apply Rmult_integral in X. destruct X; lra. }
  replace (f x - f c - f1 c * (x - c)) with (K * (x - c) ^ 2) by (unfold K; field; intro E; apply N; lra).
  rewrite Rabs_mult, (Rabs_pos_eq ((x - c) ^ 2)) by apply pow2_ge_0.
  apply Rmult_le_compat_r; [apply pow2_ge_0|]. rewrite EK. unfold Rdiv.
  rewrite Rabs_mult, (Rabs_pos_eq (/ 2)) by lra. apply Rmult_le_compat_r; [lra | apply HM, Ht].
Qed.

Lemma midpoint_error : forall n, (0 < n)%Z ->
  Rabs (RInt f a b - math.integrate_1d f a b n) <= (b - a) ^ 3 * M / (24 * IZR n ^ 2).
Proof using Hab H1 H2 HM.
  intros n Hn. assert (N : 0 < IZR n) by (apply IZR_lt; lia).
  assert (Hf : forall x, a <= x <= b -> continuous f x).
  { intros x Hx. apply (ex_derive_continuous (V := R_NormedModule)). eexists. apply H1, Hx. }
  replace ((b - a) ^ 3 * M / (24 * IZR n ^ 2)) with ((M / 24 * ((b - a) / IZR n) ^ 2) * (b - a)) by (field; lra).
  apply cell_error_sum; try assumption. intros u v Hu Huv Hv Hw. rewrite <- Hw. set (c := (u + v) / 2).
  assert (Hc : a <= c <= b) by (unfold c; lra).
  assert (X1 : ex_RInt f u v).
  { apply (ex_RInt_continuous (V := R_CompleteNormedModule)). intros x Hx.
    rewrite Rmin_left, Rmax_right in Hx by lra. apply Hf. lra. }
  assert (I2 : is_RInt (fun x => f c + f1 c * (x - c)) u v (f c * (v - u))).
  { evar_last.
    - apply (is_RInt_derive (fun x => f c * x + f1 c * (x - c) ^ 2 / 2) (fun x => f c + f1 c * (x - c))).
      + intros x _. auto_derive; [trivial|]. field.
      + intros x _. apply (ex_derive_continuous (V := R_NormedModule)). auto_derive. trivial.
    - unfold minus, plus, opp; cbn. unfold c. field. }
  assert (I3 : is_RInt (fun x => M / 2 * (x - c) ^ 2) u v (M / 24 * (v - u) ^ 2 * (v - u))).
  { evar_last.
    - apply (is_RInt_derive (fun x => M / 2 * ((x - c) ^ 3 / 3)) (fun x => M / 2 * (x - c) ^ 2)).
      + intros x _. auto_derive; [trivial|]. field.
      + intros x _. apply (ex_derive_continuous (V := R_NormedModule)). auto_derive. trivial.
    - unfold minus, plus, opp; cbn. unfold c. field. }
  rewrite <- (is_RInt_unique _ _ _ _ I2), <- (is_RInt_unique _ _ _ _ I3).
  rewrite <- (RInt_minus (V := R_CompleteNormedModule)); [|exact X1 | eexists; exact I2].
  assert (X4 : ex_RInt (fun x => minus (f x) (f c + f1 c * (x - c))) u v).
  { apply (ex_RInt_minus (V := R_NormedModule)); [exact X1 | eexists; exact I2]. }
  eapply Rle_trans; [apply abs_RInt_le; [exact Huv | exact X4]|].
  apply RInt_le; [exact Huv | | eexists; exact I3 |].
  - apply ex_RInt_norm in X4. exact X4.
  - intros x Hx. change (Rabs (f x - (f c + f1 c * (x - c))) <= M / 2 * (x - c) ^ 2).
    replace (f x - (f c + f1 c * (x - c))) with (f x - f c - f1 c * (x - c)) by ring.
    apply taylor_2; unfold c in *; lra.
Qed.
End Taylor.

(** ** Two dimensions *)
Lemma Rsum_flat_map : forall {A B} (f : A -> B -> R) (l : list A) (k : list B),
  Rsum (flat_map (fun x => map (fun y => f x y) k) l) = Rsum (map (fun x => Rsum (map (fun y => f x y) k)) l).
Proof.
  intros A B f l k. induction l as [|x l IH]; cbn; [reflexivity|]. rewrite Rsum_app, IH. reflexivity.
Qed.

Lemma integrate_2d_iterated : forall f x0 x1 y0 y1 n,
  math.integrate_2d f x0 x1 y0 y1 n = math.integrate_1d (fun x => math.integrate_1d (f x) y0 y1 n) x0 x1 n.
Proof.
  intros. unfold math.integrate_2d, math.midpoint_grid. rewrite ssum_R, Rsum_flat_map, integrate_1d_R, map_map.
  set (dx := (x1 - x0) / IZR n). set (dy := (y1 - y0) / IZR n).
  change (Rsum (map (fun i => Rsum (map (fun y => f (math.midpoint x0 dx i) y)
     (map (fun j => math.midpoint y0 dy j) (zrange 0 n)))) (zrange 0 n)) * dx * dy
   = Rsum (map (fun i => math.integrate_1d (f (math.midpoint x0 dx i)) y0 y1 n) (zrange 0 n)) * dx).
  rewrite (Rsum_ext (fun i => math.integrate_1d (f (math.midpoint x0 dx i)) y0 y1 n)
    (fun i => dy * Rsum (map (fun y => f (math.midpoint x0 dx i) y) (map (fun j => math.midpoint y0 dy j) (zrange 0 n))))).
  - rewrite Rsum_scal. ring.
  - intros i _. rewrite integrate_1d_R, map_map. fold dy. ring.
Qed.

Lemma integrate_2d_square : forall f a b n,
  math.integrate_2d_symmetric f a b n = math.integrate_2d f a b a b n.
Proof.
  intros. unfold math.integrate_2d_symmetric, math.integrate_2d.
  set (s := ssum _). set (dx := ((b - a)%S / sofZ n)%S).
  change (s * dx ^ 2 = s * dx * dx). ring.
Qed.

Lemma integrate_grid : forall {T} {Sc : Scalar T} (f : T -> T) a b n,
  math.integrate_1d_grid f (math.midpoint_grid a ((b - a) / sofZ n)%S n) ((b - a) / sofZ n)%S = math.integrate_1d f a b n.
Proof. intros. unfold math.integrate_1d_grid, math.integrate_1d, math.midpoint_grid. rewrite map_map. reflexivity. Qed.

Lemma integrate_2d_grid_square : forall {T} {Sc : Scalar T} (f : T -> T -> T) a b n,
  math.integrate_2d_symmetric_grid f (math.midpoint_grid a ((b - a) / sofZ n)%S n) (spowi ((b - a) / sofZ n)%S 2)
  = math.integrate_2d_symmetric f a b n.
Proof. reflexivity. Qed.

Lemma integrate_2d_grid_R : forall f x0 x1 y0 y1 n,
  math.integrate_2d_grid f (math.midpoint_grid x0 ((x1 - x0) / IZR n) n) (math.midpoint_grid y0 ((y1 - y0) / IZR n) n)
    ((x1 - x0) / IZR n * ((y1 - y0) / IZR n))
  = math.integrate_2d f x0 x1 y0 y1 n.
Proof.
  intros. unfold math.integrate_2d_grid, math.integrate_2d.
  set (s := ssum _). change (s * ((x1 - x0) / IZR n * ((y1 - y0) / IZR n)) = s * ((x1 - x0) / IZR n) * ((y1 - y0) / IZR n)). ring.
Qed.

Lemma midpoint_grid_nth : forall a b n i, (0 <= i < n)%Z ->
  nth_error (math.midpoint_grid a ((b - a) / IZR n) n) (Z.to_nat i) = Some (a + (IZR i + 1 / 2) * ((b - a) / IZR n)).
Proof.
  intros a b n i Hi. unfold math.midpoint_grid. rewrite nth_error_map.
  assert (E : nth_error (zrange 0 n) (Z.to_nat i) = Some i).
  { unfold zrange. rewrite nth_error_map.
    rewrite (nth_error_nth' (seq 0 (Z.to_nat (n - 0))) 0%nat) by (rewrite seq_length; lia).
    rewrite seq_nth by lia. cbn. f_equal. lia. }
  rewrite E. cbn [option_map]. f_equal.
  change (a + (5 / IZR (Z.pow_pos 10 1) + IZR i) * ((b - a) / IZR n) = a + (IZR i + 1 / 2) * ((b - a) / IZR n)).
  change (Z.pow_pos 10 1) with 10%Z. f_equal. f_equal. lra.
Qed.
