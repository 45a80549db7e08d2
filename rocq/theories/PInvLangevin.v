(** Accuracy of the inverse Langevin function. *)
From Coq Require Import Reals Ranalysis5 ZArith List Lra Lia Bool FunctionalExtensionality.
From Coquelicot Require Import Coquelicot.
From Verif Require Import Scalar MMath SpecNewton SpecLangevin PNewton PLangevin.
Open Scope R_scope.

Lemma langevin_f_R : (math.langevin_f : R -> R) = langevin.
Proof.
  apply functional_extensionality. intro x. unfold math.langevin_f, langevin.
  change (1 / tanh x - 1 / x = cosh x / sinh x - 1 / x). unfold tanh, Rdiv. rewrite Rinv_mult, Rinv_inv. ring.
Qed.

Lemma langevin_fp_R : (math.langevin_fp : R -> R) = dlangevin.
Proof. apply functional_extensionality. intro x. reflexivity. Qed.

Definition guess_num (y : R) : R := 214234 / 100000 * y ^ 3 - 422785 / 100000 * y ^ 2 + 3 * y.
Definition guess_den (y : R) : R := 71716 / 100000 * y ^ 3 - 41103 / 100000 * y ^ 2 - 39165 / 100000 * y + 1.

Lemma langevin_guess_R : forall y, math.langevin_guess y = guess_num y / (1 - y) / guess_den y.
Proof. reflexivity. Qed.

(** ** The exact inverse *)
Lemma langevin_root : forall y, 0 < y < 1 -> exists r, 0 < r /\ langevin r = y /\
  3 * y <= r /\ y <= r * (1 - y) /\ r * (1 - y) <= 3 * y /\ r * (1 - y) <= 1.
Proof.
  intros y Hy.
  set (b := 3 * y / (1 - y)).
  assert (Eb : b * (1 - y) = 3 * y) by (unfold b; field; lra).
  assert (A : 3 * y < b) by nra.
  destruct (IVT_interv (fun x => langevin x - y) (3 * y) b) as (r & Hr & E).
  - intros x Hx. apply continuity_pt_minus; [|apply continuity_pt_const; intros u v; reflexivity].
    apply continuity_pt_filterlim. apply (ex_derive_continuous (V := R_NormedModule)). eexists.
    apply is_derive_langevin. lra.
  - exact A.
  - pose proof (langevin_upper_3 (3 * y) ltac:(lra)). lra.
  - pose proof (langevin_lower_3 b ltac:(lra)) as L.
    replace (b / (3 + b)) with y in L; [lra|]. unfold b. field. lra.
  - assert (R0 : 0 < r) by lra. exists r. split; [exact R0|]. split; [lra|]. split; [lra|].
    pose proof (langevin_upper_1 r R0) as U1. pose proof (langevin_lower_1 r R0) as L1.
    assert (Ey : langevin r = y) by lra. rewrite Ey in *.
    repeat split.
    + assert (X : y * (1 + r) < r / (1 + r) * (1 + r)) by (apply Rmult_lt_compat_r; lra).
      replace (r / (1 + r) * (1 + r)) with r in X by (field; lra). lra.
    + nra.
    + assert (X : (1 - 1 / r) * r < y * r) by (apply Rmult_lt_compat_r; lra).
      replace ((1 - 1 / r) * r) with (r - 1) in X by (field; lra). lra.
Qed.

(** ** The initial guess *)
Lemma guess_den_pos : forall y, 0 <= y <= 1 -> 7 / 10 < guess_den y.
Proof.
  intros y Hy. unfold guess_den.
  assert (0 <= y * (y - 3 / 5) ^ 2) by (apply Rmult_le_pos; [lra | apply pow2_ge_0]).
  assert (0 <= (y - 3 / 4) ^ 2) by apply pow2_ge_0. nra.
Qed.

Lemma guess_lower : forall y, 0 < y < 1 -> 3 / 5 * Rmin (3 * y) 1 * guess_den y <= guess_num y.
Proof.
  intros y Hy. unfold guess_num, guess_den in *.
  destruct (Rle_dec y (1 / 3)).
  - rewrite Rmin_left by lra.
    assert (G : 0 <= 214234 / 100000 * y ^ 2 - 422785 / 100000 * y + 3
                     - 9 / 5 * (71716 / 100000 * y ^ 3 - 41103 / 100000 * y ^ 2 - 39165 / 100000 * y + 1)).
    { assert (0 <= y * (1 / 3 - y) * (1 / 3 + y)) by (apply Rmult_le_pos; [apply Rmult_le_pos|]; lra).
      assert (0 <= (1 / 3 - y) ^ 2) by apply pow2_ge_0. nra. }
    apply (Rmult_le_compat_l y) in G; [|lra]. lra.
  - rewrite Rmin_right by lra.
    assert (0 <= (y - 1 / 3) * (y - 3 / 4) ^ 2) by (apply Rmult_le_pos; [lra | apply pow2_ge_0]).
    assert (0 <= (y - 1 / 3) * (1 - y)) by (apply Rmult_le_pos; lra).
    assert (0 <= (y - 1 / 3) ^ 2 * (1 - y)) by (apply Rmult_le_pos; [apply pow2_ge_0 | lra]). nra.
Qed.

Lemma guess_upper : forall y, 0 < y < 1 -> guess_num y <= 8 / 5 * Rmax (3 * y * (1 - y)) y * guess_den y.
Proof.
  intros y Hy. unfold guess_num, guess_den in *.
  destruct (Rle_dec y (2 / 3)).
  - rewrite Rmax_left by nra.
    assert (G : 0 <= 24 / 5 * (1 - y) * (71716 / 100000 * y ^ 3 - 41103 / 100000 * y ^ 2 - 39165 / 100000 * y + 1)
                - (214234 / 100000 * y ^ 2 - 422785 / 100000 * y + 3)).
    { assert (0 <= y * (2 / 3 - y)) by (apply Rmult_le_pos; lra).
      assert (0 <= (2 / 3 - y) * (y - 1 / 3) ^ 2) by (apply Rmult_le_pos; [lra | apply pow2_ge_0]).
      assert (0 <= y * (y - 1 / 3) ^ 2) by (apply Rmult_le_pos; [lra | apply pow2_ge_0]).
      assert (0 <= (y * (2 / 3 - y)) * (y - 1 / 3) ^ 2) by (apply Rmult_le_pos; [assumption | apply pow2_ge_0]).
      assert (0 <= (y ^ 2 * (2 / 3 - y))) by (apply Rmult_le_pos; [apply pow2_ge_0 | lra]).
      assert (0 <= (y * (2 / 3 - y) ^ 2)) by (apply Rmult_le_pos; [lra | apply pow2_ge_0]).
      assert (0 <= (y ^ 2 * (2 / 3 - y) ^ 2)) by (apply Rmult_le_pos; apply pow2_ge_0).
      assert (0 <= (y * (2 / 3 - y) ^ 3)) by (apply Rmult_le_pos; [lra | apply pow_le; lra]).
      assert (0 <= (y ^ 3 * (2 / 3 - y))) by (apply Rmult_le_pos; [apply pow_le; lra | lra]).
      nra. }
    apply (Rmult_le_compat_l y) in G; [|lra]. lra.
  - rewrite Rmax_right by nra.
    assert (G : 0 <= 8 / 5 * (71716 / 100000 * y ^ 3 - 41103 / 100000 * y ^ 2 - 39165 / 100000 * y + 1)
                - (214234 / 100000 * y ^ 2 - 422785 / 100000 * y + 3)).
    { assert (0 <= (y - 2 / 3) * (1 - y)) by (apply Rmult_le_pos; lra).
      assert (0 <= (y - 2 / 3) ^ 2 * (1 - y)) by (apply Rmult_le_pos; [apply pow2_ge_0 | lra]).
      assert (0 <= (y - 2 / 3) * (1 - y) ^ 2) by (apply Rmult_le_pos; [lra | apply pow2_ge_0]).
      nra. }
    apply (Rmult_le_compat_l y) in G; [|lra]. lra.
Qed.

Lemma guess_upper_high : forall y, 3 / 4 <= y < 1 -> guess_num y <= 138 / 100 * y * guess_den y.
Proof.
  intros y Hy. unfold guess_num, guess_den in *.
  assert (G : 0 <= 138 / 100 * (71716 / 100000 * y ^ 3 - 41103 / 100000 * y ^ 2 - 39165 / 100000 * y + 1)
                - (214234 / 100000 * y ^ 2 - 422785 / 100000 * y + 3)).
  { assert (0 <= (y - 3 / 4) * (1 - y)) by (apply Rmult_le_pos; lra).
    assert (0 <= (y - 3 / 4) ^ 2 * (1 - y)) by (apply Rmult_le_pos; [apply pow2_ge_0 | lra]).
    assert (0 <= (y - 3 / 4) * (1 - y) ^ 2) by (apply Rmult_le_pos; [lra | apply pow2_ge_0]).
    nra. }
  apply (Rmult_le_compat_l y) in G; [|lra]. lra.
Qed.

(** ** Convergence *)
Lemma Rltb_true : forall a b : R, slt a b = true <-> a < b.
Proof. intros. change (slt a b) with (Rltb a b). unfold Rltb. destruct (Rlt_dec a b); split; auto; discriminate. Qed.
Lemma Rltb_false : forall a b : R, slt a b = false <-> b <= a.
Proof.
  intros. change (slt a b) with (Rltb a b). unfold Rltb. destruct (Rlt_dec a b); split; auto; try discriminate; lra.
Qed.
Lemma tol_R : (sdec 1 6 : R) = / 1000000.
Proof. change (1 / IZR (Z.pow_pos 10 6) = / 1000000). change (Z.pow_pos 10 6) with 1000000%Z. lra. Qed.

Lemma pow_small : (16 / 25) ^ 32 <= / 1000000.
Proof.
  assert (A : 0 <= (16 / 25) ^ 4 <= 168 / 1000) by (simpl; lra).
  replace ((16 / 25) ^ 32) with (((((16 / 25) ^ 4) ^ 2) ^ 2) ^ 2) by (rewrite <- !pow_mult; reflexivity).
  set (x := (16 / 25) ^ 4) in *.
  assert (B : 0 <= x ^ 2 <= 2823 / 100000) by (simpl; nra). set (x2 := x ^ 2) in *.
  assert (C : 0 <= x2 ^ 2 <= 797 / 1000000) by (simpl; nra). set (x4 := x2 ^ 2) in *.
  simpl. nra.
Qed.

Section Convergence.
Context (y r : R) (Hy : 0 < y < 1) (Hr : 0 < r) (Er : langevin r = y).
Context (B1 : 3 * y <= r) (B2 : y <= r * (1 - y)) (B3 : r * (1 - y) <= 3 * y) (B4 : r * (1 - y) <= 1).

Let step := newton_step y langevin dlangevin.
Let g := guess_num y / (1 - y) / guess_den y.
Let D := fun x => 0 < x.

Lemma guess_bounds : 3 / 5 * r <= g <= 8 / 5 * r.
Proof using Hy Hr Er B1 B2 B3 B4.
  pose proof (guess_den_pos y ltac:(lra)) as P. pose proof (guess_lower y Hy) as L. pose proof (guess_upper y Hy) as U.
  assert (E : guess_num y = g * ((1 - y) * guess_den y)) by (unfold g; field; lra).
  assert (K : 0 < (1 - y) * guess_den y) by (apply Rmult_lt_0_compat; lra).
  assert (M1 : r * (1 - y) <= Rmin (3 * y) 1) by (apply Rmin_glb; assumption).
  assert (M2 : Rmax (3 * y * (1 - y)) y <= r * (1 - y)) by (apply Rmax_lub; [apply Rmult_le_compat_r; lra | assumption]).
  split; apply Rmult_le_reg_r with ((1 - y) * guess_den y); try exact K; rewrite <- E.
  - eapply Rle_trans; [|exact L]. replace (3 / 5 * r * ((1 - y) * guess_den y)) with (3 / 5 * (r * (1 - y)) * guess_den y) by ring.
    apply Rmult_le_compat_r; lra.
  - eapply Rle_trans; [exact U|]. replace (8 / 5 * r * ((1 - y) * guess_den y)) with (8 / 5 * (r * (1 - y)) * guess_den y) by ring.
    apply Rmult_le_compat_r; lra.
Qed.

Lemma guess_bounds_high : 3 / 4 <= y -> g <= 138 / 100 * r.
Proof using Hy Hr Er B1 B2 B3 B4.
  intro H. pose proof (guess_den_pos y ltac:(lra)) as P. pose proof (guess_upper_high y ltac:(lra)) as U.
  assert (E : guess_num y = g * ((1 - y) * guess_den y)) by (unfold g; field; lra).
  assert (K : 0 < (1 - y) * guess_den y) by (apply Rmult_lt_0_compat; lra).
  apply Rmult_le_reg_r with ((1 - y) * guess_den y); try exact K. rewrite <- E.
  eapply Rle_trans; [exact U|].
  replace (138 / 100 * r * ((1 - y) * guess_den y)) with (138 / 100 * (r * (1 - y)) * guess_den y) by ring.
  apply Rmult_le_compat_r; lra.
Qed.

(** A step from above the root. *)
Lemma step_from_above : forall x, r <= x -> 2 * x - x ^ 2 / r <= step x.
Proof using Hy Hr Er B1 B2 B3 B4.
  intros x Hx. pose proof (dlangevin_pos x ltac:(lra)) as P.
  destruct (langevin_increment r x ltac:(lra)) as [_ U]. rewrite Er in U.
  unfold step. change (2 * x - x ^ 2 / r <= x + (y - langevin x) / dlangevin x).
  assert (X : - (x ^ 2 * (1 / r - 1 / x)) <= (y - langevin x) / dlangevin x).
  { apply Rmult_le_reg_r with (dlangevin x); [exact P|].
    unfold Rdiv at 3. rewrite Rmult_assoc, Rinv_l by lra. lra. }
  replace (x ^ 2 * (1 / r - 1 / x)) with (x ^ 2 / r - x) in X by (field; lra). lra.
Qed.

Lemma first_step : 3 / 5 * r <= step g <= r.
Proof using Hy Hr Er B1 B2 B3 B4.
  destruct guess_bounds as [L U].
  split; [|apply (concave_step_le D langevin dlangevin y r langevin_concave Hr Er); unfold D; lra].
  destruct (Rle_dec g r) as [H|H].
  - pose proof (concave_step_ge D langevin dlangevin y r langevin_concave Hr Er g ltac:(unfold D; lra) H).
    unfold step. lra.
  - pose proof (step_from_above g ltac:(lra)) as S. eapply Rle_trans; [|exact S].
    apply Rmult_le_reg_r with r; [exact Hr|].
    replace ((2 * g - g ^ 2 / r) * r) with (2 * g * r - g ^ 2) by (field; lra).
    nra.
Qed.

Lemma contraction : forall x, 3 / 5 * r <= x <= r -> y - langevin (step x) <= 16 / 25 * (y - langevin x).
Proof using Hy Hr Er B1 B2 B3 B4.
  intros x Hx.
  pose proof (concave_step_contracts D langevin dlangevin y r langevin_concave Hr Er x ltac:(unfold D; lra) (proj2 Hx)) as C.
  pose proof (concave_step_ge D langevin dlangevin y r langevin_concave Hr Er x ltac:(unfold D; lra) (proj2 Hx)) as G.
  pose proof (concave_step_le D langevin dlangevin y r langevin_concave Hr Er x ltac:(unfold D; lra)) as L.
  pose proof (concave_increasing_le D langevin dlangevin langevin_concave x r ltac:(unfold D; lra) Hr (proj2 Hx)) as I.
  fold step in C, G, L. set (n := step x) in *.
  pose proof (scaled_slope x n ltac:(lra)) as S. pose proof (dlangevin_pos x ltac:(lra)) as P. pose proof (dlangevin_pos n ltac:(lra)) as P'.
  assert (Q : 9 / 25 <= dlangevin n / dlangevin x).
  { apply Rmult_le_reg_r with (dlangevin x * n ^ 2); [apply Rmult_lt_0_compat; [exact P | apply pow_lt; lra]|].
    replace (dlangevin n / dlangevin x * (dlangevin x * n ^ 2)) with (n ^ 2 * dlangevin n) by (field; lra).
    eapply Rle_trans; [|exact S].
    assert (9 / 25 * n ^ 2 <= x ^ 2) by (simpl; nra). nra. }
  rewrite Er in I. nra.
Qed.

Lemma residuals : forall j, let x := newton_iterate y langevin dlangevin j (step g) in
  3 / 5 * r <= x <= r /\ 0 <= y - langevin x <= (16 / 25) ^ j * y.
Proof using Hy Hr Er B1 B2 B3 B4.
  intro j. cbv zeta. pose proof first_step as F.
  assert (B : forall j, 3 / 5 * r <= newton_iterate y langevin dlangevin j (step g) <= r
              /\ 0 <= y - langevin (newton_iterate y langevin dlangevin j (step g))).
  { intro i. destruct (concave_iterates D langevin dlangevin y r langevin_concave Hr Er i (step g)) as (A & _ & C).
    - unfold D; lra.
    - lra.
    - split; lra. }
  destruct (B j) as [A C]. split; [exact A|]. split; [exact C|]. clear A C.
  induction j as [|j IH].
  - change (y - langevin (step g) <= 1 * y). pose proof (langevin_lower_3 (step g) ltac:(lra)) as L.
    assert (0 < step g / (3 + step g)) by (apply Rdiv_lt_0_compat; lra). lra.
  - unfold newton_iterate in *. rewrite iter_succ.
    set (x := Nat.iter j (newton_step y langevin dlangevin) (step g)) in *.
    pose proof (contraction x (proj1 (B j))) as C. fold step. cbn [pow]. lra.
Qed.

Lemma guess_residual : Rabs (y - langevin g) <= / 1000000 * y -> y - langevin (step g) <= / 1000000 * y.
Proof using Hy Hr Er B1 B2 B3 B4.
  intro H. destruct guess_bounds as [L U]. pose proof first_step as F.
  assert (Dg : 0 < g) by lra.
  destruct (Rle_dec g r) as [G|G].
  - destruct (concave_iterates D langevin dlangevin y r langevin_concave Hr Er 1 g Dg G) as (_ & _ & C).
    change (newton_iterate y langevin dlangevin 1 g) with (step g) in C.
    rewrite Rabs_pos_eq in H; [lra|].
    pose proof (concave_increasing_le D langevin dlangevin langevin_concave g r Dg Hr G). lra.
  - apply Rnot_le_lt in G.
    assert (I : y < langevin g) by (rewrite <- Er; apply langevin_increasing; lra).
    rewrite Rabs_left in H by lra.
    destruct (Rle_dec g (138 / 100 * r)) as [G1|G1].
    + (* a close guess: the step is quadratic *)
      pose proof (step_from_above g ltac:(lra)) as S. set (x := step g) in *.
      assert (X : g * (2 - g / r) <= x) by (replace (g * (2 - g / r)) with (2 * g - g ^ 2 / r) by (field; lra); exact S).
      set (u := g / r) in *. assert (Eg : g = u * r) by (unfold u; field; lra).
      assert (U1 : 1 < u) by nra. assert (U2 : u <= 138 / 100) by nra.
      pose proof (dlangevin_pos x ltac:(lra)) as Px. pose proof (dlangevin_pos g Dg) as Pg.
      pose proof (proj2 (proj2 langevin_concave) x r ltac:(lra) Hr) as T1. cbv beta in T1. rewrite Er in T1.
      pose proof (proj2 (proj2 langevin_concave) g r Dg Hr) as T2. cbv beta in T2. rewrite Er in T2.
      (* y - L x <= L' x (r - x);  L g - y >= L' g (g - r) *)
      pose proof (scaled_slope x g ltac:(lra)) as SS.
      assert (V : r - x <= r * (u - 1) ^ 2) by (rewrite Eg in X; simpl; nra).
      assert (W : (2 - u) ^ 2 * dlangevin x <= dlangevin g).
      { assert (0 < x) by lra.
        apply Rmult_le_reg_l with (g ^ 2); [apply pow_lt; lra|]. eapply Rle_trans; [|exact SS].
        replace (g ^ 2 * ((2 - u) ^ 2 * dlangevin x)) with ((g * (2 - u)) ^ 2 * dlangevin x) by ring.
        apply Rmult_le_compat_r; [lra|]. apply pow_incr. split; [apply Rmult_le_pos; lra | exact X]. }
      assert (K : dlangevin x * (r - x) <= dlangevin g * (g - r)).
      { apply Rle_trans with (dlangevin x * (r * (u - 1) ^ 2)); [apply Rmult_le_compat_l; lra|].
        rewrite Eg at 2. replace (u * r - r) with (r * (u - 1)) by ring.
        apply Rle_trans with ((2 - u) ^ 2 * dlangevin x * (r * (u - 1))).
        - replace (dlangevin x * (r * (u - 1) ^ 2)) with ((u - 1) * (dlangevin x * (r * (u - 1)))) by ring.
          replace ((2 - u) ^ 2 * dlangevin x * (r * (u - 1))) with ((2 - u) ^ 2 * (dlangevin x * (r * (u - 1)))) by ring.
          apply Rmult_le_compat_r; [|simpl; nra]. apply Rmult_le_pos; [lra | apply Rmult_le_pos; lra].
        - apply Rmult_le_compat_r; [apply Rmult_le_pos; lra | exact W]. }
      lra.
    + (* a far guess has a large residual *)
      exfalso. apply Rnot_le_lt in G1.
      assert (Y : y < 3 / 4).
      { apply Rnot_le_lt. intro Y. pose proof (guess_bounds_high Y). lra. }
      assert (R4 : r <= 4) by nra.
      destruct (langevin_increment r g ltac:(lra)) as [Lo _]. rewrite Er in Lo.
      assert (E1 : dlangevin r * r ^ 2 * (1 / r - 1 / g) = dlangevin r * r * (1 - r / g)) by (field; lra).
      rewrite E1 in Lo.
      assert (E2 : 1 / 4 <= 1 - r / g).
      { assert (r / g <= 3 / 4); [|lra]. apply Rmult_le_reg_r with g; [exact Dg|]. unfold Rdiv at 1. rewrite Rmult_assoc, Rinv_l by lra. lra. }
      (* slope at the root *)
      pose proof (sinh_gt_3 r Hr) as S3. pose proof (sinh_pos r Hr) as S0.
      assert (Sl : r / 200 <= dlangevin r * r).
      { unfold dlangevin.
        assert (Q : 1 / sinh r ^ 2 <= 1 / (r + r ^ 3 / 6) ^ 2).
        { unfold Rdiv. rewrite !Rmult_1_l. apply Rinv_le_contravar.
          - apply pow_lt. assert (0 < r ^ 3) by (apply pow_lt; lra). lra.
          - apply pow_incr. assert (0 < r ^ 3) by (apply pow_lt; lra). lra. }
        apply Rle_trans with ((1 / r ^ 2 - 1 / (r + r ^ 3 / 6) ^ 2) * r); [|apply Rmult_le_compat_r; lra].
        assert (R2 : 0 < r ^ 2) by (apply pow_lt; lra).
        assert (R2' : r ^ 2 <= 16) by (simpl; nra).
        replace ((1 / r ^ 2 - 1 / (r + r ^ 3 / 6) ^ 2) * r)
          with (r * ((1 / 3 + r ^ 2 / 36) / (1 + r ^ 2 / 6) ^ 2)) by (field; nra).
        unfold Rdiv at 1. apply Rmult_le_compat_l; [lra|].
        apply Rmult_le_reg_r with ((1 + r ^ 2 / 6) ^ 2); [apply pow_lt; lra|].
        unfold Rdiv at 2. rewrite Rmult_assoc, Rinv_l by (apply pow_nonzero; lra).
        set (q := r ^ 2) in *. simpl. nra. }
      assert (0 < dlangevin r * r) by (apply Rmult_lt_0_compat; [apply dlangevin_pos; exact Hr | exact Hr]).
      nra.
Qed.
End Convergence.

Lemma inverse_langevin_R : forall y, math.inverse_langevin y =
  if Rle_dec y (1 / 1000) then 3 * y
  else math.inverse_newton_raphson y langevin dlangevin (guess_num y / (1 - y) / guess_den y) (/ 1000000) 100.
Proof.
  intro y. unfold math.inverse_langevin. rewrite langevin_f_R, langevin_fp_R, langevin_guess_R, tol_R.
  change (sle y (sdec 1 3)) with (Rleb y (1 / 1000)). unfold Rleb.
  destruct (Rle_dec y (1 / 1000)); reflexivity.
Qed.

Lemma newton_inverse_langevin : forall y, 1 / 1000 < y < 1 ->
  exists (r : R) (k : nat), 0 < r /\ langevin r = y /\
    math.inverse_langevin y = newton_iterate y langevin dlangevin k (guess_num y / (1 - y) / guess_den y) /\
    (0 < k < 100)%nat /\
    3 / 5 * r <= math.inverse_langevin y <= r /\
    0 <= y - langevin (math.inverse_langevin y) <= / 1000000 * y.
Proof.
  intros y Hy. destruct (langevin_root y ltac:(lra)) as (r & Hr & Er & B1 & B2 & B3 & B4).
  assert (Hy' : 0 < y < 1) by lra.
  rewrite inverse_langevin_R. destruct (Rle_dec y (1 / 1000)); [lra|].
  set (g := guess_num y / (1 - y) / guess_den y).
  destruct (newton_result y langevin dlangevin g (/ 1000000) 100) as (k & E & Lk & K0 & Kj & Kx).
  assert (Rr : forall x, 0 <= y - langevin x -> relative_residual y langevin x = (y - langevin x) / y).
  { intros x Hx. change (Rabs ((y - langevin x) / y) = (y - langevin x) / y). apply Rabs_pos_eq.
    apply Rmult_le_pos; [exact Hx | left; apply Rinv_0_lt_compat; lra]. }
  assert (It : forall j, newton_iterate y langevin dlangevin (S j) g
    = newton_iterate y langevin dlangevin j (newton_step y langevin dlangevin g)).
  { intro j. unfold newton_iterate. apply iter_succ_r. }
  (* the cap is not reached *)
  assert (K100 : (k < 100)%nat).
  { apply Nat.nle_gt. intro K. specialize (Kj 34%nat ltac:(lia)). apply Rltb_true in Kj.
    replace (34 - 1)%nat with (S 32) in Kj by lia. rewrite It in Kj.
    destruct (residuals y r Hy' Hr Er B1 B2 B3 B4 32) as [_ [N U]]. fold g in N, U.
    rewrite Rr in Kj by exact N.
    assert (X : (y - langevin (newton_iterate y langevin dlangevin 32 (newton_step y langevin dlangevin g))) / y <= / 1000000); [|lra].
    apply Rmult_le_reg_r with y; [lra|]. unfold Rdiv. rewrite Rmult_assoc, Rinv_l by lra.
    pose proof pow_small. nra. }
  destruct k as [|k].
  { exfalso. specialize (Kx ltac:(lia)). apply Rltb_false in Kx. change (sdec 1 0 : R) with 1 in Kx. lra. }
  specialize (Kx ltac:(lia)). apply Rltb_false in Kx.
  exists r, (S k). split; [exact Hr|]. split; [exact Er|]. split; [exact E|]. split; [lia|]. rewrite E, It.
  destruct (residuals y r Hy' Hr Er B1 B2 B3 B4 k) as [A [N U]]. fold g in A, N, U.
  split; [exact A|]. split; [exact N|].
  destruct k as [|k].
  - change (y - langevin (newton_step y langevin dlangevin g) <= / 1000000 * y). apply (guess_residual y r Hy' Hr Er B1 B2 B3 B4). fold g.
    change (Rabs ((y - langevin g) / y) <= / 1000000) in Kx.
    unfold Rdiv in Kx. rewrite Rabs_mult, (Rabs_pos_eq (/ y)) in Kx by (left; apply Rinv_0_lt_compat; lra).
    apply Rmult_le_reg_r with (/ y); [apply Rinv_0_lt_compat; lra|].
    rewrite (Rmult_assoc (/ 1000000)), Rinv_r by lra. lra.
  - rewrite It in Kx. destruct (residuals y r Hy' Hr Er B1 B2 B3 B4 k) as [A' [N' U']]. fold g in A', N', U'.
    rewrite Rr in Kx by exact N'.
    assert (X : y - langevin (newton_iterate y langevin dlangevin k (newton_step y langevin dlangevin g)) <= / 1000000 * y).
    { apply Rmult_le_reg_r with (/ y); [apply Rinv_0_lt_compat; lra|].
      rewrite (Rmult_assoc (/ 1000000)), Rinv_r by lra. unfold Rdiv in Kx. lra. }
    eapply Rle_trans; [|exact X].
    unfold newton_iterate. rewrite iter_succ. fold (newton_iterate y langevin dlangevin k (newton_step y langevin dlangevin g)).
    set (x := newton_iterate y langevin dlangevin k (newton_step y langevin dlangevin g)) in *.
    pose proof (contraction y r Hy' Hr Er B1 B2 B3 B4 x A') as C. lra.
Qed.

Lemma inverse_langevin_accuracy : forall y, 0 < y < 1 ->
  0 < math.inverse_langevin y /\ Rabs (langevin (math.inverse_langevin y) - y) <= / 1000000 * y.
Proof.
  intros y Hy. destruct (Rle_dec y (1 / 1000)) as [S|S].
  - rewrite inverse_langevin_R. destruct (Rle_dec y (1 / 1000)); [|contradiction]. split; [lra|].
    pose proof (langevin_upper_3 (3 * y) ltac:(lra)). pose proof (langevin_lower_5 (3 * y) ltac:(lra)) as L.
    rewrite Rabs_left1 by lra.
    replace ((3 * y) ^ 3) with (27 * y ^ 3) in L by ring. 
    assert (y ^ 2 <= / 1000000) by (simpl; nra).
    assert (y ^ 3 <= / 1000000 * y) by (replace (y ^ 3) with (y ^ 2 * y) by ring; apply Rmult_le_compat_r; lra). lra.
  - destruct (newton_inverse_langevin y ltac:(lra)) as (r & k & Hr & Er & _ & _ & A & B).
    split; [lra|]. rewrite Rabs_left1 by lra. lra.
Qed.

Lemma inverse_langevin_not_odd : math.inverse_langevin (- (9 / 10)) <> - math.inverse_langevin (9 / 10).
Proof.
  rewrite (inverse_langevin_R (- (9 / 10))). destruct (Rle_dec (- (9 / 10)) (1 / 1000)); [|lra].
  intro E. destruct (inverse_langevin_accuracy (9 / 10) ltac:(lra)) as [P A].
  assert (X : math.inverse_langevin (9 / 10) = 27 / 10) by lra. rewrite X in A.
  pose proof (langevin_upper_1 (27 / 10) ltac:(lra)) as U. replace (27 / 10 / (1 + 27 / 10)) with (27 / 37) in U by field.
  rewrite Rabs_left in A by lra. lra.
Qed.

(** What the code does return for negative arguments. *)
Lemma inverse_langevin_negative : forall y, y <= 1 / 1000 -> math.inverse_langevin y = 3 * y.
Proof. intros y H. rewrite inverse_langevin_R. destruct (Rle_dec y (1 / 1000)); [reflexivity | contradiction]. Qed.
