(** Bound on the difference between the isometric force of the worm-like chain
    and the derivative of its free energy. *)
From Coq Require Import QArith Reals ZArith Lra Lia List Bool Qreals.
From Coquelicot Require Import Coquelicot.
From Verif Require Import Scalar MMath MConst MWlc SpecThermo SpecChains PBase PConjWlc PErfPoly PErfRows PBessel PWormExample.
Import ListNotations.
Open Scope R_scope.

Definition dpoly0 : list Q := Eval vm_compute in pder poly0.
Definition defect : list Q := Eval vm_compute in padd poly1 (pscal (- (1)) dpoly0).
Definition zdefect : list Z := Eval vm_compute in over defect.
Definition zpoly0 : list Z := Eval vm_compute in over poly0.

Lemma pieces_defect : pieces_ok zdefect zpoly0 0 = true.
Proof. vm_compute. reflexivity. Qed.

Lemma defect_bound : forall t, 0 <= t < 16 -> Rabs (pe poly1 t - pe dpoly0 t) <= 1 / 10 ^ 15 * pe poly0 t.
Proof.
  intros t Ht.
  assert (Ez : List.Forall (fun a => (0 <= a)%Z) zpoly0) by zforall.
  pose proof (pieces_bound zdefect zpoly0 0 t pieces_defect Ez Ht) as B.
  assert (Ed : scaled D defect zdefect = true) by (vm_compute; reflexivity).
  assert (Ep : scaled D poly0 zpoly0 = true) by (vm_compute; reflexivity).
  rewrite (scaled_R _ _ _ t Ed), (scaled_R _ _ _ t Ep) in B.
  change defect with (padd poly1 (pscal (- (1)) dpoly0)) in B.
  rewrite pe_padd, pe_pscal, Q2R_opp, Q2R_1 in B.
  replace 0 with (IZR (Zpos D) * 0) in B by ring.
  apply scaled_bound in B; [| apply IZR_lt; reflexivity].
  replace (pe poly1 t - pe dpoly0 t) with (pe poly1 t + - (1) * pe dpoly0 t) by ring. lra.
Qed.

Lemma i0_derive : forall x, x < 775 / 100 -> is_derive (math.bessel_i 0) x (x / 2 * pe dpoly0 (x ^ 2 / 4)).
Proof.
  intros x Hx. apply (is_derive_ext_loc (fun x => pe poly0 (x ^ 2 / 4))).
  - exists (mkposreal (775 / 100 - x) ltac:(lra)). intros y Hy.
    assert (y < 775 / 100).
    { change (Rabs (y - x) < 775 / 100 - x) in Hy. apply Rabs_def2 in Hy. lra. }
    change (math.bessel_i 0 y) with (math.bessel_i0 y). rewrite i0_small by assumption. reflexivity.
  - change dpoly0 with (pder poly0).
    apply (is_derive_comp (pe poly0) (fun x => x ^ 2 / 4) x (pe (pder poly0) (x ^ 2 / 4)) (x / 2)).
    + apply pe_derive.
    + auto_derive; [exact I | field].
Qed.

Lemma i0_positive : forall x, x < 775 / 100 -> 1 <= math.bessel_i 0 x.
Proof.
  intros x Hx. change (math.bessel_i 0 x) with (math.bessel_i0 x). rewrite i0_small by exact Hx.
  destruct poly_coefficients as [F0 _]. unfold poly0 in *. inversion F0; subst.
  replace 1 with (Q2R 1) at 1 by (unfold Q2R; cbn; lra). apply pe_head; [assumption |]. pose proof (pow2_ge_0 x). lra.
Qed.

Lemma ratio_defect : forall x, Rabs x < 775 / 100 ->
  Rabs (x * (math.bessel_i 1 x - x / 2 * pe dpoly0 (x ^ 2 / 4)) / math.bessel_i 0 x) <= 1 / 10 ^ 15 * (x ^ 2 / 2).
Proof.
  intros x Hx. pose proof Hx as Hb. apply Rabs_def2 in Hx.
  pose proof (i0_positive x (proj1 Hx)) as P.
  change (math.bessel_i 1 x) with (math.bessel_i1 x). change (math.bessel_i 0 x) with (math.bessel_i0 x) in *.
  rewrite i1_small, i0_small in * by lra.
  assert (Ht : 0 <= x ^ 2 / 4 < 16) by nra.
  pose proof (defect_bound _ Ht) as B. set (t := x ^ 2 / 4) in *.
  replace (x * (x / 2 * pe poly1 t - x / 2 * pe dpoly0 t) / pe poly0 t) with (x ^ 2 / 2 * ((pe poly1 t - pe dpoly0 t) / pe poly0 t)) by (field; lra).
  rewrite Rabs_mult, (Rabs_pos_eq (x ^ 2 / 2)) by (unfold t in Ht; lra).
  rewrite Rmult_comm. apply Rmult_le_compat_r; [unfold t in Ht; lra|].
  unfold Rdiv at 1. rewrite Rabs_mult, Rabs_inv, (Rabs_pos_eq (pe poly0 t)) by lra.
  apply Rmult_le_reg_r with (pe poly0 t); [lra|]. rewrite Rmult_assoc, Rinv_l by lra. lra.
Qed.

Lemma powf_pos : forall a b, 0 < a -> 0 < Rpowf a b.
Proof.
  intros a b Ha. unfold Rpowf. destruct (Rlt_dec 0 a) as [q | q]; [apply exp_pos | exfalso; apply q; exact Ha].
Qed.

Lemma powf_upper : forall y, 0 < y <= 289 / 1000 -> Rpowf y (783 / 1000) <= 395 / 1000.
Proof.
  intros y Hy. unfold Rpowf. destruct (Rlt_dec 0 y) as [q | q]; [| exfalso; apply q; lra].
  apply Rle_trans with (Rpower y (3 / 4)).
  - unfold Rpower. destruct (Rle_lt_dec (783 / 1000 * ln y) (3 / 4 * ln y)) as [L | L].
    + destruct L as [L | ->]; [left; apply exp_increasing; exact L | right; reflexivity].
    + assert (ln y < 0) by (rewrite <- ln_1; apply ln_increasing; lra). lra.
  - destruct (Rle_lt_dec (Rpower y (3 / 4)) (395 / 1000)) as [L | L]; [exact L | exfalso].
    assert (E : Rpower y (3 / 4) ^ 4 = y ^ 3).
    { rewrite <- (Rpower_pow 4) by apply exp_pos. rewrite Rpower_mult. rewrite <- (Rpower_pow 3) by lra.
      f_equal. replace (INR 4) with 4 by (cbn [INR]; ring). replace (INR 3) with 3 by (cbn [INR]; ring). field. }
    pose proof (pow_incr (395 / 1000) (Rpower y (3 / 4)) 4 ltac:(lra)) as P1.
    pose proof (pow_incr y (289 / 1000) 3 ltac:(lra)) as P2. lra.
Qed.

Lemma scale_bound : forall z, 0 < z <= 4 / 10 -> - 6 <= wlc_bessel_scale z <= 0.
Proof.
  intros z Hz. unfold wlc_bessel_scale. destruct (Rlt_dec z (125 / 1000)) as [L | L]; [lra|].
  set (y := z - 111 / 1000). assert (Hy : 14 / 1000 <= y <= 289 / 1000) by (unfold y; lra).
  pose proof (powf_pos y (783 / 1000) ltac:(lra)) as P.
  pose proof (powf_upper y ltac:(lra)) as U.
  set (w := Rpowf y (783 / 1000)) in *.
  assert (Iy : 177 / 289 <= 177 / 1000 / y).
  { apply Rmult_le_reg_r with y; [lra|]. unfold Rdiv at 2. rewrite Rmult_assoc, Rinv_l by lra. lra. }
  destruct (Rle_lt_dec z (28 / 100)) as [M | M].
  - assert (J : 1 <= 177 / 1000 / y).
    { apply Rmult_le_reg_r with y; [lra|]. unfold Rdiv. rewrite Rmult_assoc, Rinv_l by lra. unfold y. lra. }
    assert (K : 0 < / (177 / 1000 / y + 64 / 10 * w) <= 1).
    { split; [apply Rinv_0_lt_compat; lra|]. rewrite <- Rinv_1. apply Rinv_le_contravar; lra. }
    set (k := / (177 / 1000 / y + 64 / 10 * w)) in *. replace (1 / (177 / 1000 / y + 64 / 10 * w)) with k by (exact (eq_sym (Rmult_1_l _))).
    clearbody k. nra.
  - assert (J : 177 / 1000 / y <= 105 / 100).
    { apply Rmult_le_reg_r with y; [lra|]. unfold Rdiv at 1. rewrite Rmult_assoc, Rinv_l by lra. unfold y. lra. }
    assert (Q : 1 <= 177 / 1000 / y + 64 / 10 * w).
    { assert (y <= w); [|unfold y in *; lra]. unfold w, Rpowf. destruct (Rlt_dec 0 y) as [q | q]; [| exfalso; apply q; lra].
      apply Rle_trans with (Rpower y 1); [rewrite Rpower_1 by lra; lra|].
      unfold Rpower. assert (ln y < 0) by (rewrite <- ln_1; apply ln_increasing; lra).
      left. apply exp_increasing. lra. }
    assert (K : 279 / 1000 <= / (177 / 1000 / y + 64 / 10 * w) <= 1).
    { split; [|rewrite <- Rinv_1; apply Rinv_le_contravar; lra].
      apply Rle_trans with (/ (105 / 100 + 64 / 10 * (395 / 1000))); [lra | apply Rinv_le_contravar; lra]. }
    set (k := / (177 / 1000 / y + 64 / 10 * w)) in *. replace (1 / (177 / 1000 / y + 64 / 10 * w)) with k by (exact (eq_sym (Rmult_1_l _))).
    clearbody k. clear - K Hz. nra.
Qed.

Lemma wlc_isometric_bound : forall N l m T p x,
  (0 < N)%Z -> 0 < l -> 0 < T -> 0 < p / (IZR N * l) <= 4 / 10 -> 0 < x < 1 ->
  exists d, is_derive (S_nd_helmholtz_per_link (C_wlc_isometric N l m T p)) x d /\
    Rabs (d - S_nd_force (C_wlc_isometric N l m T p) x) <= 5 / 10 ^ 14 * x / IZR N.
Proof.
  intros N l m T p x HN Hl HT Hz Hx. assert (PN : 0 < IZR N) by (apply IZR_lt; exact HN).
  assert (Hp : 0 < p).
  { replace p with (p / (IZR N * l) * (IZR N * l)) by (field; lra). apply Rmult_lt_0_compat; [lra | apply Rmult_lt_0_compat; lra]. }
  set (z := p / (IZR N * l)) in *. pose proof (scale_bound z Hz) as A.
  assert (W : 0 < wratio x <= 12883 / 10000 * x).
  { unfold wratio. assert (0 < x ^ 2 < 1) by nra.
    split; [apply Rdiv_lt_0_compat; lra|].
    apply Rmult_le_reg_r with (1 - (473 / 1000) ^ 2 * x ^ 2); [lra|].
    unfold Rdiv at 1. rewrite Rmult_assoc, Rinv_l by lra. nra. }
  set (arg := wlc_bessel_argument z x).
  assert (Ea : arg = wlc_bessel_scale z * wratio x) by reflexivity.
  assert (Ba : - (773 / 100) * x <= arg <= 0).
  { rewrite Ea. set (a := wlc_bessel_scale z) in *. set (w := wratio x) in *. clearbody a w. clear - A W Hx. nra. }
  assert (Ra : Rabs arg < 775 / 100) by (apply Rabs_def1; lra).
  pose proof (i0_positive arg ltac:(lra)) as P.
  pose proof (wlc_isometric_defect N l m T p x (arg / 2 * pe dpoly0 (arg ^ 2 / 4)) HN Hl HT Hp Hx) as D.
  cbv zeta in D. change (wlc_bessel_argument (zeta p N l) x) with arg in D.
  specialize (D ltac:(lra) (i0_derive arg ltac:(lra))).
  eexists. split; [exact D|].
  fold (wratio x). pose proof (ratio_defect arg Ra) as B.
  set (q := arg * (math.bessel_i 1 arg - arg / 2 * pe dpoly0 (arg ^ 2 / 4)) / math.bessel_i 0 arg) in *.
  replace (S_nd_force (C_wlc_isometric N l m T p) x + q * (1 / x + 2 * (473 / 1000) ^ 2 * wratio x) / IZR N -
    S_nd_force (C_wlc_isometric N l m T p) x) with (q * (1 / x + 2 * (473 / 1000) ^ 2 * wratio x) / IZR N) by ring.
  unfold Rdiv at 1. rewrite Rabs_mult, (Rabs_pos_eq (/ IZR N)) by (left; apply Rinv_0_lt_compat; exact PN).
  apply Rmult_le_compat_r; [left; apply Rinv_0_lt_compat; exact PN|].
  assert (Px : 0 < 1 / x) by (apply Rdiv_lt_0_compat; lra).
  rewrite Rabs_mult, (Rabs_pos_eq (1 / x + _)) by lra.
  apply Rle_trans with (1 / 10 ^ 15 * (arg ^ 2 / 2) * (1 / x + 2 * (473 / 1000) ^ 2 * wratio x)).
  { apply Rmult_le_compat_r; [lra | exact B]. }
  assert (S2 : arg ^ 2 <= (773 / 100 * x) ^ 2) by nra.
  apply Rle_trans with (1 / 10 ^ 15 * ((773 / 100 * x) ^ 2 / 2) * (1 / x + 6 / 10 * x)).
  { apply Rmult_le_compat; [|lra|lra|lra]. apply Rmult_le_pos; [lra|]. pose proof (pow2_ge_0 arg). lra. }
  replace (1 / 10 ^ 15 * ((773 / 100 * x) ^ 2 / 2) * (1 / x + 6 / 10 * x)) with
    (1 / 10 ^ 15 * ((773 / 100) ^ 2 / 2) * (x * (1 + 6 / 10 * x ^ 2))) by (field; lra).
  assert (x * (1 + 6 / 10 * x ^ 2) <= x * (16 / 10)) by nra.
  lra.
Qed.

(** A stiff chain: the Bessel functions are called far below -7.75, where the
    polynomials are not accurate. *)
Definition qwr : Q := Eval vm_compute in Qred ((99 # 100) / (1 - (473 # 1000) * (473 # 1000) * ((99 # 100) * (99 # 100))))%Q.
Definition qarg : Q := Eval vm_compute in
  Qred (- (1 - 1 / ((177 # 1000) + (64 # 10))) * (1111 # 1000) * (14054 # 1000) * (1473 # 1000) * qwr)%Q.
Definition qt : Q := Eval vm_compute in Qred (qarg * qarg / 4)%Q.
Definition qev (p : list Q) (q : Q) : Q := List.fold_right (fun a r => Qplus a (Qmult q r)) 0%Q p.

Lemma stiff_argument : wlc_bessel_argument (1111 / 1000) (99 / 100) = Q2R qarg.
Proof.
  unfold wlc_bessel_argument, wlc_bessel_scale. destruct (Rlt_dec (1111 / 1000) (125 / 1000)); [lra|].
  replace (1111 / 1000 - 111 / 1000) with 1 by field.
  assert (E : Rpowf 1 (783 / 1000) = 1).
  { unfold Rpowf. destruct (Rlt_dec 0 1); [|lra]. unfold Rpower. rewrite ln_1, Rmult_0_r. apply exp_0. }
  rewrite E. unfold Q2R, qarg. cbn [Qnum Qden]. field.
Qed.

Lemma stiff_values : (2 * qt * qev poly1 qt + (4 # 100) * qev poly0 qt <= 2 * qt * qev dpoly0 qt)%Q.
Proof. apply Qle_bool_iff. vm_compute. reflexivity. Qed.

Lemma qev_R : forall p q, pe p (Q2R q) = Q2R (qev p q).
Proof. exact pe_at. Qed.

Lemma wlc_isometric_stiff : forall N l m T,
  (0 < N)%Z -> 0 < l -> 0 < T ->
  exists d, is_derive (S_nd_helmholtz_per_link (C_wlc_isometric N l m T (1111 / 1000 * (IZR N * l)))) (99 / 100) d /\
    d <= S_nd_force (C_wlc_isometric N l m T (1111 / 1000 * (IZR N * l))) (99 / 100) - 4 / 100 / IZR N.
Proof.
  intros N l m T HN Hl HT. assert (PN : 0 < IZR N) by (apply IZR_lt; exact HN).
  set (p := 1111 / 1000 * (IZR N * l)). assert (PNl : 0 < IZR N * l) by (apply Rmult_lt_0_compat; lra).
  assert (Hp : 0 < p) by (unfold p; lra).
  pose proof stiff_argument as Ea.
  set (arg := wlc_bessel_argument (1111 / 1000) (99 / 100)) in *.
  assert (Na : arg < 0) by (rewrite Ea; unfold Q2R, qarg; cbn [Qnum Qden]; lra).
  pose proof (i0_positive arg ltac:(lra)) as P.
  pose proof (wlc_isometric_defect N l m T p (99 / 100) (arg / 2 * pe dpoly0 (arg ^ 2 / 4)) HN Hl HT Hp ltac:(lra)) as D.
  cbv zeta in D. assert (Ez : zeta p N l = 1111 / 1000) by (unfold zeta, p; field; lra).
  rewrite Ez in D. fold arg in D.
  specialize (D ltac:(lra) (i0_derive arg ltac:(lra))).
  eexists. split; [exact D|]. clear D.
  assert (Et : arg ^ 2 / 4 = Q2R qt).
  { rewrite Ea. unfold Q2R, qt, qarg. cbn [Qnum Qden]. field. }
  change (math.bessel_i 1 arg) with (math.bessel_i1 arg). change (math.bessel_i 0 arg) with (math.bessel_i0 arg) in *.
  rewrite i1_small, i0_small in * by lra. rewrite Et in *.
  pose proof stiff_values as V. apply Qle_Rle in V. rewrite Q2R_plus, !Q2R_mult, <- !qev_R in V.
  replace (Q2R 2) with 2 in V by (unfold Q2R; cbn; lra). replace (Q2R (4 # 100)) with (4 / 100) in V by (unfold Q2R; cbn; lra).
  set (p1 := pe poly1 (Q2R qt)) in *. set (p0 := pe poly0 (Q2R qt)) in *. set (d0 := pe dpoly0 (Q2R qt)) in *.
  set (t := Q2R qt) in *. clearbody p1 p0 d0 t.
  replace (arg * (arg / 2 * p1 - arg / 2 * d0) / p0) with (2 * t * (p1 - d0) / p0) by (rewrite <- Et; field; lra).
  assert (Q : 2 * t * (p1 - d0) / p0 <= - (4 / 100)).
  { apply Rmult_le_reg_r with p0; [lra|]. unfold Rdiv at 1. rewrite Rmult_assoc, Rinv_l by lra. lra. }
  set (q := 2 * t * (p1 - d0) / p0) in *. clearbody q.
  set (k := 1 / (99 / 100) + 2 * (473 / 1000) ^ 2 * (99 / 100 / (1 - (473 / 1000) ^ 2 * (99 / 100) ^ 2))).
  assert (K : 1 <= k) by (unfold k; lra). clearbody k.
  assert (q * k / IZR N <= - (4 / 100) / IZR N).
  { unfold Rdiv at 1 2. apply Rmult_le_compat_r; [left; apply Rinv_0_lt_compat; exact PN | nra]. }
  unfold Rdiv at 3. unfold Rdiv in H at 2. lra.
Qed.
