(** The random walk densities in closed form, and their properties. *)
From Coq Require Import Reals ZArith Lra Lia Factorial.
From Coquelicot Require Import Coquelicot.
From Verif Require Import SpecWalk PIrwinHall.
Open Scope R_scope.

(** [h j s]: the value at distance [s] for [j + 2] links, times 8 pi s. *)
Definition h (j : nat) (s : R) : R := ih j (S (S j)) ((INR (S (S j)) - s) / 2).

Lemma is_RInt_reflect : forall (f : R -> R) c a b v, is_RInt f ((c - a) / 2) ((c - b) / 2) v ->
  is_RInt (fun s => f ((c - s) / 2)) a b (- 2 * v).
Proof.
  intros f c a b v H.
  apply is_RInt_ext with (f := fun s => scal (-2) (scal (- (1 / 2)) (f (- (1 / 2) * s + c / 2)))).
  - intros s _. unfold scal; simpl; unfold mult; simpl.
    replace (- (1 / 2) * s + c / 2) with ((c - s) / 2) by field. field.
  - apply (is_RInt_scal (V := R_NormedModule)). apply (is_RInt_comp_lin (V := R_NormedModule)).
    replace (- (1 / 2) * a + c / 2) with ((c - a) / 2) by field.
    replace (- (1 / 2) * b + c / 2) with ((c - b) / 2) by field. exact H.
Qed.

Lemma h_int_anti : forall j a b, is_RInt (h j) a b
  (2 * (ih (S j) (S (S j)) ((INR (S (S j)) - a) / 2) - ih (S j) (S (S j)) ((INR (S (S j)) - b) / 2))).
Proof.
  intros j a b. unfold h.
  replace (2 * _) with (-2 * (ih (S j) (S (S j)) ((INR (S (S j)) - b) / 2) - ih (S j) (S (S j)) ((INR (S (S j)) - a) / 2))) by ring.
  apply is_RInt_reflect. apply ih_int.
Qed.

Lemma ih_even : forall j t, ih (S j) (S (S j)) ((INR (S (S j)) - t) / 2) = ih (S j) (S (S j)) ((INR (S (S j)) + t) / 2).
Proof. intros j t. rewrite <- ih_sym. f_equal. field. Qed.

Lemma h_int : forall j r, is_RInt (h j) (Rabs (r - 1)) (r + 1) (2 * h (S j) r).
Proof.
  intros j r.
  replace (2 * h (S j) r) with (2 * (ih (S j) (S (S j)) ((INR (S (S j)) - Rabs (r - 1)) / 2)
    - ih (S j) (S (S j)) ((INR (S (S j)) - (r + 1)) / 2))); [apply h_int_anti|].
  f_equal. unfold h. set (N := S (S j)). cbn [ih]. fold (ih (S j) N).
  change (ih (S j) (S j)) with (ih (S j) (S j)).
  assert (E : ih (S j) N ((INR N - Rabs (r - 1)) / 2) = ih (S j) N ((INR N - (r - 1)) / 2)).
  { unfold Rabs. destruct (Rcase_abs (r - 1)); [|reflexivity].
    unfold N. rewrite (ih_even j (r - 1)). f_equal. field. }
  rewrite E. rewrite S_INR.
  replace ((INR N + 1 - r) / 2) with ((INR N - (r - 1)) / 2) by field.
  replace ((INR N - (r - 1)) / 2 - 1) with ((INR N - (r + 1)) / 2) by field. reflexivity.
Qed.

Lemma walk_ih : forall j r, 0 < r -> two_links_and j r = h j r / (8 * PI * r).
Proof.
  induction j as [|j IH]; intros r Hr; pose proof PI_RGT_0 as HP.
  - cbn [two_links_and]. unfold h. cbn [ih fact]. unfold pp. replace (INR 2) with 2 by (simpl; ring).
    repeat match goal with |- context [Rlt_dec ?a ?b] => destruct (Rlt_dec a b) end; simpl; try (exfalso; lra); field; lra.
  - cbn [two_links_and].
    assert (E : RInt (fun s => s * two_links_and j s) (Rabs (r - 1)) (r + 1) = 2 * h (S j) r / (8 * PI)).
    { apply (is_RInt_unique (V := R_CompleteNormedModule)).
      apply is_RInt_ext with (f := fun s => scal (/ (8 * PI)) (h j s)).
      - intros s Hs. assert (0 < s).
        { assert (Rabs (r - 1) <= r + 1) by (unfold Rabs; destruct (Rcase_abs (r - 1)); lra).
          rewrite Rmin_left in Hs by exact H. pose proof (Rabs_pos (r - 1)). lra. }
        rewrite IH by exact H. unfold scal; simpl; unfold mult; simpl. field. lra.
      - replace (2 * h (S j) r / (8 * PI)) with (scal (/ (8 * PI)) (2 * h (S j) r))
          by (unfold scal; simpl; unfold mult; simpl; unfold Rdiv; ring).
        apply (is_RInt_scal (V := R_NormedModule)). apply h_int. }
    rewrite E. field. lra.
Qed.

Lemma axis_ih : forall i z, (1 <= i)%nat -> one_link_and i z = ih i (S i) ((INR (S i) - z) / 2) / 2.
Proof.
  assert (G : forall i z, (1 <= i)%nat \/ (i = 0%nat /\ z <> 1 /\ z <> -1) ->
    one_link_and i z = ih i (S i) ((INR (S i) - z) / 2) / 2).
  { induction i as [|i IH]; intros z H.
    - destruct H as [H|(_ & H1 & H2)]; [lia|]. cbn [one_link_and ih fact]. unfold pp. simpl INR.
      unfold Rabs. destruct (Rcase_abs z); destruct (Rle_dec _ 1);
      repeat match goal with |- context [Rlt_dec ?a ?b] => destruct (Rlt_dec a b) end; simpl; try (exfalso; lra); lra.
    - cbn [one_link_and]. f_equal. apply (is_RInt_unique (V := R_CompleteNormedModule)).
      pose proof (is_RInt_reflect (ih i (S i)) (INR (S i)) (z - 1) (z + 1) _ (ih_int i (S i) _ _)) as A.
      assert (B : is_RInt (fun s => ih i (S i) ((INR (S i) - s) / 2) / 2) (z - 1) (z + 1)
         (ih (S i) (S (S i)) ((INR (S (S i)) - z) / 2))).
      { apply is_RInt_ext with (f := fun s => scal (/ 2) (ih i (S i) ((INR (S i) - s) / 2))).
        - intros s _. unfold scal; simpl; unfold mult; simpl. unfold Rdiv. ring.
        - replace (ih (S i) (S (S i)) ((INR (S (S i)) - z) / 2)) with
            (scal (/ 2) (-2 * (ih (S i) (S i) ((INR (S i) - (z + 1)) / 2) - ih (S i) (S i) ((INR (S i) - (z - 1)) / 2)))).
          + apply (is_RInt_scal (V := R_NormedModule)). exact A.
          + set (M := S i). change (ih M (S M) ((INR (S M) - z) / 2)) with (ih M M ((INR (S M) - z) / 2) - ih M M ((INR (S M) - z) / 2 - 1)).
            rewrite (S_INR M). replace ((INR M + 1 - z) / 2 - 1) with ((INR M - (z + 1)) / 2) by field.
            replace ((INR M + 1 - z) / 2) with ((INR M - (z - 1)) / 2) by field.
            unfold scal; simpl; unfold mult; simpl. field. }
      destruct i as [|i].
      + (* the uniform density differs from its closed form only at the two end points *)
        assert (E : forall a b v, is_RInt (fun s => ih 0 1 ((INR 1 - s) / 2) / 2) a b v ->
           is_RInt (one_link_and 0) a b v).
        { intros a b v Hv.
          assert (St : forall a b, ex_RInt (one_link_and 0) a b -> True) by (intros; exact I).
          destruct (Req_dec 0 1) as [X|_]; [lra|].
          assert (P1 : forall a b w, (a <= b <= -1 \/ -1 <= a <= b /\ b <= 1 \/ 1 <= a <= b) ->
             is_RInt (fun s => ih 0 1 ((INR 1 - s) / 2) / 2) a b w -> is_RInt (one_link_and 0) a b w).
          { intros a' b' w Hc Hw. apply is_RInt_ext with (2 := Hw). intros s Hs.
            assert (a' <= b') by lra. rewrite Rmin_left, Rmax_right in Hs by assumption.
            symmetry. apply IH. right. repeat split; lra. }
          assert (X : forall a b, ex_RInt (fun s => ih 0 1 ((INR 1 - s) / 2) / 2) a b).
          { intros a' b'. eexists. apply is_RInt_ext with (f := fun s => scal (/ 2) (ih 0 1 ((INR 1 - s) / 2))).
            - intros s _. unfold scal; simpl; unfold mult; simpl. unfold Rdiv. ring.
            - apply (is_RInt_scal (V := R_NormedModule)). apply is_RInt_reflect. apply ih_int. }
          set (g := fun s => ih 0 1 ((INR 1 - s) / 2) / 2) in *.
          assert (Q : forall b, is_RInt (one_link_and 0) (-1) b (RInt g (-1) b)).
          { intro b'. destruct (Rle_dec b' (-1)) as [L|L].
            - rewrite <- (opp_RInt_swap g b' (-1)) by apply X.
              apply (is_RInt_swap (V := R_NormedModule)). apply P1; [lra|]. apply (RInt_correct (V := R_CompleteNormedModule)), X.
            - destruct (Rle_dec b' 1) as [L2|L2].
              + apply P1; [lra|]. apply (RInt_correct (V := R_CompleteNormedModule)), X.
              + rewrite <- (RInt_Chasles g (-1) 1 b') by apply X.
                apply (is_RInt_Chasles (V := R_NormedModule)) with 1; apply P1; try lra;
                apply (RInt_correct (V := R_CompleteNormedModule)), X. }
          assert (V : v = plus (opp (RInt g (-1) a)) (RInt g (-1) b)).
          { rewrite (opp_RInt_swap g) by apply X. rewrite (RInt_Chasles g a (-1) b) by apply X.
            symmetry. apply (is_RInt_unique (V := R_CompleteNormedModule)). exact Hv. }
          rewrite V. apply (is_RInt_Chasles (V := R_NormedModule)) with (-1); [apply (is_RInt_swap (V := R_NormedModule))|]; apply Q. }
        apply E. exact B.
      + apply is_RInt_ext with (2 := B). intros s _. symmetry. apply IH. left. lia. }
  intros i z H. apply G. left. exact H.
Qed.

Lemma ih_continuous : forall e n x, (1 <= e)%nat -> continuous (ih e n) x.
Proof.
  induction n as [|n IH]; intros x H; cbn [ih].
  - assert (C : continuous (pp e) x).
    { destruct (Req_dec x 0) as [->|N].
      - destruct e as [|e]; [lia|]. destruct e as [|e].
        + apply continuity_pt_filterlim. intros eps He. exists eps. split; [lra|].
          intros y [_ Hy]. unfold dist in *; simpl in *. unfold R_dist in *. rewrite (pp_neg _ 0) by lra.
          rewrite Rminus_0_r in *. unfold pp. destruct (Rlt_dec 0 y); [|rewrite Rabs_R0; lra].
          replace (y ^ 1) with y by (simpl; ring). exact Hy.
        + apply (ex_derive_continuous (V := R_NormedModule)). eexists. apply pp_derive. left. lia.
      - destruct e as [|e]; [lia|]. apply (ex_derive_continuous (V := R_NormedModule)). eexists. apply pp_derive. right. exact N. }
    apply (continuous_scal_l (pp e) (/ INR (fact e)) x C).
  - apply (continuous_minus (V := R_NormedModule) (ih e n)); [apply IH, H|].
    apply (continuous_comp (fun y => y - 1) (ih e n)); [|apply IH, H].
    apply (ex_derive_continuous (V := R_NormedModule)). auto_derive. exact I.
Qed.

Lemma h_pos : forall j s, 0 < s < INR (S (S j)) -> 0 < h j s.
Proof.
  assert (H0 : forall s, 0 < s < 2 -> 0 < h 0 s).
  { intros s Hs. unfold h. cbn [ih fact]. unfold pp. replace (INR 2) with 2 by (simpl; ring).
    repeat match goal with |- context [Rlt_dec ?a ?b] => destruct (Rlt_dec a b) end; simpl; lra. }
  assert (H1 : forall s, 0 < s < 3 -> 0 < h 1 s).
  { intros s Hs. unfold h. cbn [ih fact]. unfold pp. replace (INR 3) with 3 by (simpl; ring).
    repeat match goal with |- context [Rlt_dec ?a ?b] => destruct (Rlt_dec a b) end; simpl; lra. }
  assert (G : forall j s, 0 < s < INR (S (S (S j))) -> 0 < h (S j) s).
  { induction j as [|j IH]; intros r Hr.
    - apply H1. simpl in Hr. lra.
    - set (c := Rmin (r + 1) (INR (S (S (S j))))).
      set (a := Rabs (r - 1)).
      assert (Ea : 0 <= a) by apply Rabs_pos.
      assert (Hac : a < c).
      { unfold a, c. apply Rmin_glb_lt; unfold Rabs; destruct (Rcase_abs (r - 1)); rewrite ?S_INR in *; try lra.
        pose proof (pos_INR j). lra. }
      assert (Hc : c <= r + 1) by apply Rmin_l. assert (Hc' : c <= INR (S (S (S j)))) by apply Rmin_r.
      pose proof (h_int (S j) r) as A. fold a in A.
      assert (X : forall u v, ex_RInt (h (S j)) u v) by (intros; eexists; apply h_int_anti).
      apply (is_RInt_unique (V := R_CompleteNormedModule)) in A.
      rewrite <- (RInt_Chasles (V := R_CompleteNormedModule) _ a c) in A by apply X.
      unfold plus in A; simpl in A.
      assert (P : 0 < RInt (h (S j)) a c).
      { apply RInt_gt_0; [exact Hac| |].
        - intros x Hx. apply IH. lra.
        - intros x _. unfold h. apply (continuous_comp (fun s => (INR (S (S (S j))) - s) / 2)).
          + apply (ex_derive_continuous (V := R_NormedModule)). auto_derive. exact I.
          + apply ih_continuous. lia. }
      assert (Q : 0 <= RInt (h (S j)) c (r + 1)).
      { apply RInt_ge_0; [exact Hc | apply X|]. intros x Hx.
        destruct (Rlt_dec x (INR (S (S (S j))))) as [L|L].
        - left. apply IH. lra.
        - unfold h. rewrite ih_neg; lra. }
      change (S (S j)) with (S (S j)) in A. lra. }
  intros j s Hs. destruct j as [|j]; [apply H0; simpl in Hs; lra | apply G; exact Hs].
Qed.
