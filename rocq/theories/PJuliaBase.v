(** Proofs about the Julia building blocks. *)
From Coq Require Import ZArith List Bool Arith Lia Reals Lra.
From Verif Require Import Scalar MConst MMath MBindConstitutive MJuliaBase SpecJulia.
Import ListNotations.
Local Open Scope nat_scope.

Lemma along_nil : forall k, along k [] = 1.
Proof. intros [|k]; reflexivity. Qed.

Lemma common_none : forall a b, common a b = None -> clash a b.
Proof.
  induction a as [|m a IH]; intros [|n b] H; try discriminate H.
  cbn [common] in H. destruct (common a b) eqn:E.
  - destruct (Nat.eqb_spec m n); [discriminate|].
    destruct (Nat.eqb_spec m 1); [discriminate|].
    destruct (Nat.eqb_spec n 1); [discriminate|].
    exists O; cbn; auto.
  - destruct (IH _ E) as (k & H1 & H2 & H3). exists (S k); cbn; auto.
Qed.

Lemma common_some : forall a b c, common a b = Some c ->
  (forall k, along k a = along k c \/ along k a = 1)
  /\ (forall k, along k b = along k c \/ along k b = 1)
  /\ (forall k, along k c <> 1 -> along k a = along k c \/ along k b = along k c)
  /\ length c = Nat.max (length a) (length b).
Proof.
  induction a as [|m a IH]; intros [|n b] c H.
  - injection H as <-. repeat split; auto.
  - injection H as <-. repeat split; auto; intros k; right; apply along_nil.
  - injection H as <-. repeat split; auto; intros k; right; apply along_nil.
  - cbn [common] in H. destruct (common a b) as [d|] eqn:E; [|discriminate].
    destruct (IH _ _ E) as (A & B & C & L).
    assert (Hc : exists x, c = x :: d /\ (m = x \/ m = 1) /\ (n = x \/ n = 1) /\ (x <> 1 -> m = x \/ n = x)).
    { destruct (Nat.eqb_spec m n); [injection H as <-; exists m; subst; repeat split; auto|].
      destruct (Nat.eqb_spec m 1); [injection H as <-; exists n; repeat split; auto|].
      destruct (Nat.eqb_spec n 1); [injection H as <-; exists m; repeat split; auto|]. discriminate. }
    destruct Hc as (x & -> & H1 & H2 & H3).
    repeat split.
    + intros [|k]; [exact H1|exact (A k)].
    + intros [|k]; [exact H2|exact (B k)].
    + intros [|k]; [exact H3|exact (C k)].
    + cbn [length]; rewrite L; reflexivity.
Qed.

Lemma pick_meets : forall d index, length d <= length index -> meets index (pick d index) d.
Proof.
  induction d as [|n d IH]; intros index H.
  - split; [reflexivity|]. intros k Hk; inversion Hk.
  - destruct index as [|i index]; [inversion H|].
    destruct (IH index) as (L & M); [cbn in H; lia|].
    split; [cbn; lia|]. intros [|k] Hk; [reflexivity|].
    cbn [pick nth along]. apply M. cbn in Hk; lia.
Qed.

Lemma valid_length : forall index d, valid index d -> length index = length d.
Proof. intros index d H; induction H; cbn; auto. Qed.

Section S.
Context {T : Type}.

(** The invariant of [broadcast_from] with the arguments met so far summed up by their common
    shape. *)
Lemma broadcast_from_spec : forall (r : Type) s (shape : list nat) (f : list nat -> cfun (T := T) s r) a,
  match apply_arrays s (broadcast_from s (Some shape) f) a with
  | None => exists d1 d2 d, In d2 (shapes s a) /\ clash d1 d2 /\ (d1 = d \/ In d1 (shapes s a)) /\
      (d = shape)
  | Some out =>
      (forall k, along k shape = along k (dims out) \/ along k shape = 1)
      /\ (forall d k, In d (shapes s a) -> along k d = along k (dims out) \/ along k d = 1)
      /\ (forall k, along k (dims out) <> 1 -> along k shape = along k (dims out) \/ exists d, In d (shapes s a) /\ along k d = along k (dims out))
      /\ (length shape <= length (dims out))
      /\ (forall d, In d (shapes s a) -> length d <= length (dims out))
      /\ (length (dims out) = length shape \/ exists d, In d (shapes s a) /\ length d = length (dims out))
      /\ (forall index, valid index (dims out) ->
            exists v, meeting index s a v /\ at_ out index = apply_numbers s (f index) v)
  end.
Proof.
  intros r. induction s as [|t s IH]; intros shape f a.
  - cbn. repeat split; auto; try (intros; contradiction).
    all: intros index _; exists tt; auto.
  - cbn [apply_arrays broadcast_from].
    destruct (common shape (dims (fst a))) as [c|] eqn:E.
    + specialize (IH c (fun index => f index (at_ (fst a) (pick (dims (fst a)) index))) (snd a)).
      destruct (common_some _ _ _ E) as (A & B & C & L).
      destruct (apply_arrays s _ (snd a)) as [out|].
      * destruct IH as (I1 & I2 & I3 & I4 & I5 & I6 & I7).
        assert (down : forall d, (forall k, along k d = along k c \/ along k d = 1) ->
                       forall k, along k d = along k (dims out) \/ along k d = 1).
        { intros d Hd k. destruct (Hd k) as [e|e]; [|auto]. destruct (I1 k) as [e'|e']; [left; congruence|right; congruence]. }
        repeat split.
        -- exact (down _ A).
        -- intros d k [<-|Hd]; [exact (down _ B k)|exact (I2 d k Hd)].
        -- intros k Hk. destruct (I3 k Hk) as [e|(d & Hd & e)].
           ++ destruct (C k) as [e'|e']; [congruence|left; congruence|].
              right; exists (dims (fst a)); split; [left; reflexivity|congruence].
           ++ right; exists d; split; [right; exact Hd|exact e].
        -- lia.
        -- intros d [<-|Hd]; [lia|exact (I5 d Hd)].
        -- destruct I6 as [e|(d & Hd & e)].
           ++ destruct (Nat.max_spec (length shape) (length (dims (fst a)))) as [[_ M]|[_ M]]; rewrite M in L.
              ** right; exists (dims (fst a)); split; [left; reflexivity|lia].
              ** left; lia.
           ++ right; exists d; split; [right; exact Hd|exact e].
        -- intros index Hv. destruct (I7 index Hv) as (v & Hm & e).
           exists (at_ (fst a) (pick (dims (fst a)) index), v). split; [|exact e].
           split; [|exact Hm]. exists (pick (dims (fst a)) index). split; [|reflexivity].
           apply pick_meets. apply valid_length in Hv. lia.
      * destruct IH as (d1 & d2 & d & H2 & (k & K1 & K2 & K3) & H1 & ->).
        destruct H1 as [->|H1].
        -- destruct (C k K1) as [e|e].
           ++ exists shape, d2, shape. repeat split; [right; exact H2| |auto].
              exists k; rewrite e; auto.
           ++ exists (dims (fst a)), d2, shape. repeat split; [right; exact H2| |right; left; reflexivity].
              exists k; rewrite e; auto.
        -- exists d1, d2, shape. repeat split; [right; exact H2| |right; right; exact H1].
           exists k; auto.
    + apply common_none in E.
      assert (N : apply_arrays s (broadcast_from (r := r) s None (fun index => f index (at_ (fst a) (pick (dims (fst a)) index)))) (snd a) = None).
      { generalize (fun index => f index (at_ (fst a) (pick (dims (fst a)) index))). generalize (snd a). clear.
        induction s as [|t' s IH]; intros a f; [reflexivity|]. cbn [apply_arrays broadcast_from]. apply IH. }
      rewrite N. exists shape, (dims (fst a)), shape. repeat split; [left; reflexivity|exact E|left; reflexivity].
Qed.

Lemma broadcast_broadcasts : forall (r : Type) s (f : cfun (T := T) s r) a,
  broadcasts s f a (apply_arrays s (broadcast s f) a).
Proof.
  intros r s f a. unfold broadcasts, broadcast.
  pose proof (broadcast_from_spec r s [] (fun _ => f) a) as H.
  destruct (apply_arrays s _ a) as [out|].
  - destruct H as (I1 & I2 & I3 & I4 & I5 & I6 & I7). repeat split.
    + exact I2.
    + intros k Hk. destruct (I3 k Hk) as [e|e]; [|exact e]. rewrite along_nil in e. congruence.
    + exact I5.
    + destruct I6 as [e|e]; [left; destruct (dims out); [reflexivity|discriminate]|right; exact e].
    + exact I7.
  - destruct H as (d1 & d2 & d & H2 & (k & K1 & K2 & K3) & H1 & ->).
    destruct H1 as [->|H1]; [rewrite along_nil in K1; congruence|].
    exists d1, d2. repeat split; auto. exists k; auto.
Qed.

(** A number keeps its value, and an array of the shape of the result is used entry by entry. *)
Lemma meets_number : forall index own, meets index own [] -> own = [].
Proof. intros index [|o own] (L & _); [reflexivity|discriminate]. Qed.

Lemma meets_same : forall index own d, valid index d -> meets index own d -> own = index.
Proof.
  intros index own d V (L & M). apply (nth_ext _ _ O O).
  - rewrite L. symmetry; apply valid_length; exact V.
  - intros k Hk. rewrite L in Hk. rewrite (M k Hk). unfold along.
    destruct (Nat.eqb_spec (nth k d 1) 1) as [e|]; [|reflexivity].
    clear - V Hk e. revert k Hk e. induction V as [|i n index d Hi V IH]; intros k Hk e.
    + inversion Hk.
    + destruct k as [|k]; [cbn in *; lia|]. cbn. apply IH; [cbn in Hk; lia|exact e].
Qed.
End S.

(** integrate *)
Lemma outcomes_pure : forall (T A : Type) (f : A -> c_outcome T) (g : A -> T) l,
  (forall x, f x = Finished (Some (g x))) -> outcomes f l = Finished (Some (map g l)).
Proof.
  intros T A f g l H. induction l as [|x l IH]; [reflexivity|].
  cbn [outcomes map]. rewrite (H x), IH. reflexivity.
Qed.

Lemma jsum_ssum : forall l : list R, jsum l = ssum l.
Proof.
  assert (G : forall l a b, fold_left Rplus l (a + b)%R = (a + fold_left Rplus l b)%R).
  { induction l as [|x l IH]; intros a b; [reflexivity|]. cbn [fold_left]. rewrite Rplus_assoc. apply IH. }
  intros [|x l].
  - unfold jsum, ssum; cbn. unfold Rdec; cbn. lra.
  - unfold jsum, ssum. change (@sadd R R_scalar) with Rplus. cbn [fold_left].
    match goal with |- _ = fold_left Rplus l (?z + x)%R => rewrite (G l z x) end.
    cbn. try unfold Rdec; cbn. lra.
Qed.

Lemma integrate_pure : forall (fun_ : R -> result R) (f : R -> R) a b n,
  (0 <= n)%Z ->
  (forall x, single (fun_ x) = Finished (Some (f x))) ->
  integrate fun_ a b (Z.to_nat n) = Finished (Some (math.integrate_1d f a b n)).
Proof.
  intros fun_ f a b n Hn H. unfold integrate, math.integrate_1d, math.midpoint. cbv zeta.
  rewrite Z2Nat.id by exact Hn.
  rewrite (outcomes_pure _ _ _ (fun k => f (a + (sdec 5 1 + sofZ (Z.of_nat k)) * ((b - a) / sofZ n)))%S).
  - cbn [bind_outcome]. rewrite jsum_ssum. do 3 f_equal. f_equal.
    unfold zrange. rewrite Z.sub_0_r, map_map. reflexivity.
  - intros k. apply H.
Qed.

(** Closes an equality of broadcasts of which one also ranges over numbers. *)
Ltac broadcast_numbers :=
  first [ reflexivity
        | intros; repeat match goal with a : jarray _ |- _ => destruct a as [[|? ?] ?] end; reflexivity ].
