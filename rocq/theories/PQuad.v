(** Finite sums and the midpoint rule over the reals. *)
From Coq Require Import Reals ZArith List Lra Lia.
From Coquelicot Require Import Coquelicot.
From Verif Require Import Scalar MMath.
Import ListNotations.
Open Scope R_scope.

Fixpoint Rsum (l : list R) : R := match l with [] => 0 | a :: l' => a + Rsum l' end.

Lemma fold_left_Rplus : forall l a, fold_left Rplus l a = a + Rsum l.
Proof. induction l as [|b l IH]; intro a; cbn [fold_left Rsum]; [ring | rewrite IH; ring]. Qed.

Lemma ssum_R : forall l : list R, ssum l = Rsum l.
Proof. intro l. unfold ssum. change (@sadd R R_scalar) with Rplus. rewrite fold_left_Rplus. cbn. ring. Qed.

Lemma Rsum_app : forall l k, Rsum (l ++ k) = Rsum l + Rsum k.
Proof. induction l as [|a l IH]; intro k; cbn; [ring | rewrite IH; ring]. Qed.

Section Map.
Context {A : Type}.

Lemma Rsum_plus : forall (f g : A -> R) l,
  Rsum (map (fun a => f a + g a) l) = Rsum (map f l) + Rsum (map g l).
Proof. intros f g; induction l as [|a l IH]; cbn; [ring | rewrite IH; ring]. Qed.

Lemma Rsum_scal : forall (f : A -> R) c l, Rsum (map (fun a => c * f a) l) = c * Rsum (map f l).
Proof. intros f c; induction l as [|a l IH]; cbn; [ring | rewrite IH; ring]. Qed.

Lemma Rsum_const : forall (c : R) (l : list A), Rsum (map (fun _ => c) l) = INR (length l) * c.
Proof.
  intros c; induction l as [|a l IH]; [cbn; ring|].
  cbn [map Rsum length]. rewrite IH, S_INR. ring.
Qed.

Lemma Rsum_ext : forall (f g : A -> R) l, (forall a, In a l -> f a = g a) -> Rsum (map f l) = Rsum (map g l).
Proof.
  intros f g; induction l as [|a l IH]; intro H; cbn; [reflexivity|].
  rewrite (H a) by (left; reflexivity). rewrite IH; [reflexivity | intros b Hb; apply H; right; exact Hb].
Qed.

Lemma Rsum_le : forall (f g : A -> R) l, (forall a, In a l -> f a <= g a) -> Rsum (map f l) <= Rsum (map g l).
Proof.
  intros f g; induction l as [|a l IH]; intro H; cbn; [lra|].
  assert (f a <= g a) by (apply H; left; reflexivity).
  assert (Rsum (map f l) <= Rsum (map g l)) by (apply IH; intros b Hb; apply H; right; exact Hb). lra.
Qed.

Lemma Rsum_pos : forall (f : A -> R) l, l <> [] -> (forall a, In a l -> 0 < f a) -> 0 < Rsum (map f l).
Proof.
  intros f l; induction l as [|a l IH]; intros N H; [contradiction|]. cbn.
  assert (0 < f a) by (apply H; left; reflexivity).
  destruct l as [|b l]; [cbn; lra|].
  assert (0 < Rsum (map f (b :: l))) by (apply IH; [discriminate | intros c Hc; apply H; right; exact Hc]). lra.
Qed.

Lemma Rsum_abs : forall (f : A -> R) l, Rabs (Rsum (map f l)) <= Rsum (map (fun a => Rabs (f a)) l).
Proof.
  intros f; induction l as [|a l IH]; cbn; [rewrite Rabs_R0; lra|].
  eapply Rle_trans; [apply Rabs_triang|]. lra.
Qed.

Lemma is_derive_Rsum : forall (f : A -> R -> R) (d : A -> R) l x,
  (forall a, In a l -> is_derive (f a) x (d a)) ->
  is_derive (fun y => Rsum (map (fun a => f a y) l)) x (Rsum (map d l)).
Proof.
  intros f d; induction l as [|a l IH]; intros x H.
  - cbn. apply is_derive_Reals. apply derivable_pt_lim_const.
  - cbn [map Rsum]. apply is_derive_Reals.
    apply (derivable_pt_lim_plus (f a) (fun y => Rsum (map (fun a => f a y) l))).
    + apply is_derive_Reals, H. left; reflexivity.
    + apply is_derive_Reals, IH. intros b Hb; apply H; right; exact Hb.
Qed.
End Map.

(** ** Integer ranges *)

Lemma zrange_In : forall a b i, In i (zrange a b) <-> (a <= i < b)%Z.
Proof.
  intros a b i. unfold zrange. rewrite in_map_iff. split.
  - intros (j & E & Hj). apply in_seq in Hj. lia.
  - intro H. exists (Z.to_nat (i - a)). split; [lia | apply in_seq; lia].
Qed.

Lemma zrange_length : forall a b, length (zrange a b) = Z.to_nat (b - a).
Proof. intros. unfold zrange. rewrite map_length, seq_length. reflexivity. Qed.

Lemma zrange_nil : forall a b, (a < b)%Z -> zrange a b <> [].
Proof.
  intros a b H E. apply (f_equal (@length Z)) in E. rewrite zrange_length in E. cbn in E. lia.
Qed.

Lemma zrange_0_succ : forall n, (0 <= n)%Z -> zrange 0 (n + 1) = zrange 0 n ++ [n].
Proof.
  intros n H. unfold zrange. replace (Z.to_nat (n + 1 - 0)) with (Z.to_nat n + 1)%nat by lia.
  replace (n - 0)%Z with n by lia.
  rewrite seq_app, map_app. cbn. f_equal. f_equal. lia.
Qed.

(** ** The midpoint rule *)

Lemma midpoint_R : forall a dx i, math.midpoint a dx i = a + (1 / 2 + IZR i) * dx.
Proof. intros. unfold math.midpoint. cbn [sadd smul sdec sofZ R_scalar]. unfold Rdec. f_equal. f_equal. f_equal. cbn. lra. Qed.

Lemma integrate_1d_R : forall f a b n,
  math.integrate_1d f a b n =
  Rsum (map (fun i => f (math.midpoint a ((b - a) / IZR n) i)) (zrange 0 n)) * ((b - a) / IZR n).
Proof. intros. unfold math.integrate_1d. rewrite ssum_R. reflexivity. Qed.

Lemma midpoint_between : forall a b n i, (0 <= i < n)%Z -> a < b ->
  a < math.midpoint a ((b - a) / IZR n) i < b.
Proof.
  intros a b n i Hi H. rewrite midpoint_R.
  assert (N : 0 < IZR n) by (apply IZR_lt; lia).
  assert (D : 0 < (b - a) / IZR n) by (apply Rdiv_lt_0_compat; lra).
  assert (I0 : 0 <= IZR i) by (apply IZR_le; lia).
  assert (I1 : IZR i + 1 <= IZR n) by (rewrite <- plus_IZR; apply IZR_le; lia).
  assert (E : IZR n * ((b - a) / IZR n) = b - a) by (field; lra).
  split; nra.
Qed.

Lemma integrate_1d_linear : forall f g c d a b n,
  math.integrate_1d (fun x => c * f x + d * g x) a b n =
  c * math.integrate_1d f a b n + d * math.integrate_1d g a b n.
Proof. intros. rewrite 3!integrate_1d_R, Rsum_plus, 2!Rsum_scal. ring. Qed.

Lemma integrate_1d_mono : forall f g a b n, (0 < n)%Z -> a < b ->
  (forall x, a < x < b -> f x <= g x) -> math.integrate_1d f a b n <= math.integrate_1d g a b n.
Proof.
  intros f g a b n Hn Hab H. rewrite 2!integrate_1d_R.
  assert (N : 0 < IZR n) by (apply IZR_lt; lia).
  apply Rmult_le_compat_r; [left; apply Rdiv_lt_0_compat; lra|].
  apply Rsum_le. intros i Hi. apply zrange_In in Hi. apply H, midpoint_between; assumption.
Qed.

Lemma integrate_1d_pos : forall f a b n, (0 < n)%Z -> a < b ->
  (forall x, a < x < b -> 0 < f x) -> 0 < math.integrate_1d f a b n.
Proof.
  intros f a b n Hn Hab H. rewrite integrate_1d_R.
  assert (N : 0 < IZR n) by (apply IZR_lt; lia).
  apply Rmult_lt_0_compat; [|apply Rdiv_lt_0_compat; lra].
  apply Rsum_pos; [apply zrange_nil; lia|].
  intros i Hi. apply zrange_In in Hi. apply H, midpoint_between; assumption.
Qed.

Lemma integrate_1d_scal : forall f c a b n,
  math.integrate_1d (fun x => f x * c) a b n = math.integrate_1d f a b n * c.
Proof.
  intros. rewrite 2!integrate_1d_R.
  rewrite (Rsum_ext _ (fun i => c * f (math.midpoint a ((b - a) / IZR n) i))) by (intros; ring).
  rewrite Rsum_scal. ring.
Qed.

Lemma is_derive_integrate_1d : forall (f d : R -> R -> R) a b n x, (0 < n)%Z -> a < b ->
  (forall t, a < t < b -> is_derive (f t) x (d t x)) ->
  is_derive (fun y => math.integrate_1d (fun t => f t y) a b n) x (math.integrate_1d (fun t => d t x) a b n).
Proof.
  intros f d a b n x Hn Hab H.
  apply (is_derive_ext (fun y => Rsum (map (fun i => f (math.midpoint a ((b - a) / IZR n) i) y) (zrange 0 n)) * ((b - a) / IZR n))).
  - intro y. rewrite integrate_1d_R. reflexivity.
  - rewrite integrate_1d_R.
    assert (D : is_derive (fun y => Rsum (map (fun i => f (math.midpoint a ((b - a) / IZR n) i) y) (zrange 0 n))) x
      (Rsum (map (fun i => d (math.midpoint a ((b - a) / IZR n) i) x) (zrange 0 n)))).
    { apply (is_derive_Rsum (fun i => f (math.midpoint a ((b - a) / IZR n) i)) (fun i => d (math.midpoint a ((b - a) / IZR n) i) x)).
      intros i Hi. apply zrange_In in Hi. apply H, midpoint_between; assumption. }
    apply is_derive_Reals. apply is_derive_Reals in D.
    set (c := (b - a) / IZR n) in *.
    replace (Rsum (map (fun i => d (math.midpoint a c i) x) (zrange 0 n)) * c)
      with (Rsum (map (fun i => d (math.midpoint a c i) x) (zrange 0 n)) * c
            + Rsum (map (fun i => f (math.midpoint a c i) x) (zrange 0 n)) * 0) by ring.
    apply (derivable_pt_lim_mult (fun y => Rsum (map (fun i => f (math.midpoint a c i) y) (zrange 0 n))) (fun _ => c)); [exact D | apply derivable_pt_lim_const].
Qed.
