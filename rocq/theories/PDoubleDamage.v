(** The damage model of histories of doubles. *)
From Coq Require Import Reals ZArith List Lra Lia Floats.
From Flocq Require Import Core BinarySingleNaN PrimFloat.
From Verif Require Import Scalar F64 MConst MConstitutive SpecDamage PDamage SpecDouble SpecHistory PDouble PDoubleFjc PFloatNan.
From Coq Require Import Floats.
Import ListNotations hyperelastic_damage.
Open Scope R_scope.

Local Notation Succ := Datatypes.S.

Lemma ltb_finite : forall x y, finite x -> finite y -> PrimFloat.ltb x y = Rlt_bool (value x) (value y).
Proof. intros x y Fx Fy. rewrite ltb_equiv, !value_B2R. apply Bltb_correct; apply finite_B; assumption. Qed.
Lemma leb_finite : forall x y, finite x -> finite y -> PrimFloat.leb x y = Rle_bool (value x) (value y).
Proof. intros x y Fx Fy. rewrite leb_equiv, !value_B2R. apply Bleb_correct; apply finite_B; assumption. Qed.

Section Damage.
Variable L : libm.
Local Instance S : Scalar float := F64 L.

Lemma one_dec : @sdec float S 1 0 = 1%float.
Proof. vm_compute. reflexivity. Qed.

Lemma run_max_finite : forall h m, finite m -> (forall s, In s h -> finite s) ->
  (forall s, In s (m :: h) -> value s <= value (run_max m h)) /\ In (run_max m h) (m :: h).
Proof.
  induction h as [|s h IH]; intros m Fm Fh.
  - split; [intros x [->|[]]; cbn; lra | left; reflexivity].
  - unfold run_max. cbn [fold_left]. fold (run_max (next_max m s) h). assert (Fs : finite s) by (apply Fh; left; reflexivity).
    assert (N : value m <= value (next_max m s) /\ value s <= value (next_max m s) /\ (next_max m s = m \/ next_max m s = s)).
    { unfold next_max. change (@slt float S) with PrimFloat.ltb. rewrite (ltb_finite m s Fm Fs). destruct (Rlt_bool_spec (value m) (value s)); repeat split; auto; lra. }
    destruct N as (N1 & N2 & N3). destruct (IH (next_max m s)) as [A B]; [destruct N3 as [-> | ->]; assumption | intros x Hx; apply Fh; right; exact Hx |]. split.
    + intros x [<-|[<-|Hx]].
      * eapply Rle_trans; [exact N1 | apply A; left; reflexivity].
      * eapply Rle_trans; [exact N2 | apply A; left; reflexivity].
      * apply A. right. exact Hx.
    + destruct B as [B|B]; [|right; right; exact B]. rewrite <- B. destruct N3 as [-> | ->]; [left | right; left]; reflexivity.
Qed.

Lemma largest : forall h, (forall s, In s h -> finite s) -> is_largest h (run_max (sdec 1 0) h).
Proof.
  intros h Fh. rewrite one_dec. destruct (run_max_finite h 1%float) as [A B]; [exact finite_one | exact Fh |]. split; assumption.
Qed.

Lemma in_prefix : forall (h : list float) l i s, nth_error (firstn l h) i = Some s -> (i < l)%nat /\ nth_error h i = Some s.
Proof.
  intros h l i s Hi. assert (Li : (i < length (firstn l h))%nat) by (apply nth_error_Some; congruence). rewrite firstn_length in Li. split; [lia|].
  rewrite <- Hi. symmetry. rewrite <- (firstn_skipn l h) at 2. symmetry. apply nth_error_app1. rewrite firstn_length. lia.
Qed.
Lemma prefix_in : forall (h : list float) l i s, (i < l)%nat -> nth_error h i = Some s -> In s (firstn l h).
Proof.
  intros h l i s Hi Hs. assert (Li : (i < length h)%nat) by (apply nth_error_Some; congruence).
  apply nth_error_In with i. rewrite <- Hs. rewrite <- (firstn_skipn l h) at 2. symmetry. apply nth_error_app1. rewrite firstn_length. lia.
Qed.

Lemma response_one : forall (o : BucheSilberstein.t float) s m a, response o s m = Some a -> PrimFloat.leb 1 s = true.
Proof.
  intros o s m a H. unfold response, hyperelastic_damage.uniaxial_tension in H. rewrite one_dec in H. change (@sle float S) with PrimFloat.leb in H.
  destruct (PrimFloat.leb 1 s); [reflexivity | discriminate].
Qed.

Lemma double_accepts : forall n me c k N w o l (h : list float), (forall s, In s h -> finite s) -> BucheSilberstein.init n me c k N w = Some o ->
  ((exists os, BucheSilberstein.uniaxial_tension o l h = Some os) <->
   (l <= length h)%nat /\ forall s, In s (firstn l h) -> 1 <= value s).
Proof.
  intros n me c k N w o l h Fh I. unfold BucheSilberstein.uniaxial_tension. split.
  - intros [os H]. apply history_spec in H. destruct H as (Lo & Lh & H). split; [exact Lh|].
    intros s Hs. apply In_nth_error in Hs. destruct Hs as [i Hi]. apply in_prefix in Hi. destruct Hi as [Li Hi'].
    destruct (nth_error os i) as [a|] eqn:E; [|apply nth_error_None in E; lia].
    destruct (H i a E) as (s' & S1 & S2). rewrite Hi' in S1. injection S1 as <-.
    apply response_one in S2. rewrite (leb_finite 1%float s finite_one) in S2 by (apply Fh; apply nth_error_In with i; exact Hi').
    change 1%float with one in S2. rewrite value_one in S2. destruct (Rle_bool_spec 1 (value s)); [assumption | discriminate].
  - intros [Lh H].
    assert (T : BucheSilberstein.history o l (sdec 1 0) h <> None).
    { apply history_total; [exact Lh|]. intros i s Hi Hs.
      assert (A : 1 <= value s) by (apply H; apply prefix_in with i; assumption).
      assert (E : exists a, response o s (run_max (sdec 1 0) (firstn (Succ i) h)) = Some a).
      { apply (damage_response_some n me c k N w o _ _ I). rewrite one_dec. change (PrimFloat.leb 1 s = true). rewrite (leb_finite 1%float s finite_one) by (apply Fh; apply nth_error_In with i; exact Hs).
        change 1%float with one. rewrite value_one. apply Rle_bool_true. exact A. }
      destruct E as [a E]. congruence. }
    destruct (BucheSilberstein.history o l (sdec 1 0) h) as [os|]; [eauto | contradiction].
Qed.

(** A stretch that is not a number is refused. *)
Lemma double_nan : forall (o : BucheSilberstein.t float) l h, In nan (firstn l h) -> BucheSilberstein.uniaxial_tension o l h = None.
Proof.
  intros o l h Hn. destruct (BucheSilberstein.uniaxial_tension o l h) as [os|] eqn:E; [exfalso | reflexivity].
  unfold BucheSilberstein.uniaxial_tension in E. apply history_spec in E. destruct E as (Lo & Lh & H).
  apply In_nth_error in Hn. destruct Hn as [i Hi]. apply in_prefix in Hi. destruct Hi as [Li Hi].
  destruct (nth_error os i) as [a|] eqn:E; [|apply nth_error_None in E; lia].
  destruct (H i a E) as (s' & S1 & S2). rewrite Hi in S1. injection S1 as <-. apply response_one in S2. vm_compute in S2. discriminate.
Qed.

Lemma double_outputs : forall (o : BucheSilberstein.t float) l h os, (forall s, In s h -> finite s) ->
  BucheSilberstein.uniaxial_tension o l h = Some os ->
  length os = l /\
  forall i a, nth_error os i = Some a ->
    exists s m, nth_error h i = Some s /\ is_largest (firstn (Succ i) h) m /\ response o s m = Some a.
Proof.
  intros o l h os Fh H. apply history_spec in H. destruct H as (Lo & Lh & H). split; [exact Lo|].
  intros i a E. destruct (H i a E) as (s & S1 & S2).
  exists s, (run_max (sdec 1 0) (firstn (Succ i) h)). split; [exact S1|]. split; [apply largest | exact S2].
  intros x Hx. apply Fh. rewrite <- (firstn_skipn (Succ i) h). apply in_or_app. left. exact Hx.
Qed.

Lemma largest_unique : forall h h' m m', is_largest h m -> is_largest h' m' -> value m = value m' -> m = m'.
Proof.
  intros h h' m m' [_ B] _ E. apply value_inj; [exact E|]. specialize (B 1%float (or_introl eq_refl)). change 1%float with one in B. rewrite value_one in B. lra.
Qed.

Lemma double_only_maximum : forall (o : BucheSilberstein.t float) l l' h h' os os' i i' s m m' a a',
  (forall s, In s h -> finite s) -> (forall s, In s h' -> finite s) ->
  BucheSilberstein.uniaxial_tension o l h = Some os -> BucheSilberstein.uniaxial_tension o l' h' = Some os' ->
  nth_error h i = Some s -> nth_error h' i' = Some s ->
  is_largest (firstn (Succ i) h) m -> is_largest (firstn (Succ i') h') m' -> value m = value m' ->
  nth_error os i = Some a -> nth_error os' i' = Some a' -> a = a'.
Proof.
  intros o l l' h h' os os' i i' s m m' a a' Fh Fh' H H' Hs Hs' M M' Em A A'.
  apply double_outputs in H; [|exact Fh]. apply double_outputs in H'; [|exact Fh'].
  destruct (proj2 H i a A) as (s1 & m1 & S1 & M1 & R1). destruct (proj2 H' i' a' A') as (s2 & m2 & S2 & M2 & R2).
  rewrite Hs in S1. injection S1 as <-. rewrite Hs' in S2. injection S2 as <-.
  assert (K : forall h m m', is_largest h m -> is_largest h m' -> value m = value m').
  { intros h0 x y [I1 B1] [I2 B2]. apply Rle_antisym; [apply B2, I1 | apply B1, I2]. }
  assert (E : m1 = m2).
  { apply (largest_unique _ _ _ _ M1 M2). rewrite <- (K _ _ _ M M1), <- (K _ _ _ M' M2). exact Em. }
  rewrite E, R2 in R1. injection R1 as <-. reflexivity.
Qed.
End Damage.

(** A history of doubles: loaded and unloaded. *)
Lemma history_case : forall L : libm, exists o os,
  @BucheSilberstein.init float (F64 L) hyperelastic_damage.NUMGRID 3 2%float 64%float 8 1%float = Some o /\
  @BucheSilberstein.uniaxial_tension float (F64 L) o 3 [1%float; 3%float; 2%float] = Some os /\
  (forall s, In s [1%float; 3%float; 2%float] -> finite s).
Proof.
  intro L. destruct (proj2 (@damage_init_some float (F64 L) hyperelastic_damage.NUMGRID 3 2%float 64%float 8 1%float)) as [o I].
  { split; [right; reflexivity|]. apply Nat2Z.inj_le. change (2 <= 256)%Z. lia. }
  assert (F : forall s, In s [1%float; 3%float; 2%float] -> finite s) by (intros s [<-|[<-|[<-|[]]]]; vm_compute; constructor).
  destruct (proj2 (double_accepts L _ _ _ _ _ _ o 3 [1%float; 3%float; 2%float] F I)) as [os H].
  { split; [cbn; lia|]. intros s [<-|[<-|[<-|[]]]].
    - change 1%float with one. rewrite value_one. lra.
    - rewrite value_three. lra.
    - unfold value. replace (Prim2SF 2%float) with (S754_finite false 4503599627370496 (-51)) by (vm_compute; reflexivity). change (1 <= 1 * (4503599627370496 * / 2 ^ 51)). lra. }
  exists o, os. split; [exact I|]. split; [exact H | exact F].
Qed.
