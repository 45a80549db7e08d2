(** The stretch of a Lennard-Jones link computed by Newton's method. *)
From Coq Require Import Reals ZArith Lra Lia Psatz.
From Coquelicot Require Import Coquelicot.
From Verif Require Import Scalar MMath MLennardJones.
From Verif Require Import SpecThermo SpecLinks SpecNewton SpecInverse PBase PNewton PInverse.
Open Scope R_scope.

Definition bond (x : R) : R := / x ^ 7 - / x ^ 13.
Definition bond1 (x : R) : R := 13 * / x ^ 14 - 7 * / x ^ 8.
Definition bond2 (x : R) : R := 56 * / x ^ 9 - 182 * / x ^ 15.
Definition bond3 (x : R) : R := 2730 * / x ^ 16 - 504 * / x ^ 10.

Ltac inv_derive lam :=
  auto_derive; [split; [apply (pow_nonzero lam _); lra |]; split; [apply (pow_nonzero lam _); lra | exact I] | field; lra].

Lemma bond_derive : forall x, 0 < x -> is_derive bond x (bond1 x).
Proof.
  intros x H. unfold bond, bond1. auto_derive; [split; [apply (pow_nonzero x 7); lra |]; split; [apply (pow_nonzero x 13); lra | exact I] |]. field. lra.
Qed.
Lemma bond1_derive : forall x, 0 < x -> is_derive bond1 x (bond2 x).
Proof.
  intros x H. unfold bond1, bond2. auto_derive; [split; [apply (pow_nonzero x 14); lra |]; split; [apply (pow_nonzero x 8); lra | exact I] |]. field. lra.
Qed.
Lemma bond2_derive : forall x, 0 < x -> is_derive bond2 x (bond3 x).
Proof.
  intros x H. unfold bond2, bond3. auto_derive; [split; [apply (pow_nonzero x 9); lra |]; split; [apply (pow_nonzero x 15); lra | exact I] |]. field. lra.
Qed.

Lemma mvt : forall (g g' : R -> R) a b, 0 < a -> a <= b -> (forall x, 0 < x -> is_derive g x (g' x)) ->
  exists c, a <= c <= b /\ g b - g a = g' c * (b - a).
Proof.
  intros g g' a b Ha Hab D. destruct (Req_dec a b) as [-> | N]; [exists b; split; [lra | ring] |].
  destruct (MVT_cor2 g g' a b ltac:(lra)) as (c & E & Hc). { intros c Hc. apply is_derive_Reals, D. lra. }
  exists c. split; [lra | exact E].
Qed.

Section Max.
Variable lm : R.
Hypothesis Hm : 0 < lm.
Hypothesis Em : lm ^ 6 = 13 / 7.

Lemma lm_gt_1 : 1 < lm.
Proof using Hm Em.
  destruct (Rlt_or_le 1 lm) as [H | H]; [exact H |]. exfalso.
  pose proof (pow_incr lm 1 6 (conj (Rlt_le _ _ Hm) H)) as P. rewrite pow1 in P. lra.
Qed.
Lemma sixth : forall x, 1 <= x <= lm -> 1 <= x ^ 6 <= 13 / 7.
Proof using Hm Em.
  intros x H. rewrite <- Em. split; [rewrite <- (pow1 6) at 1; apply pow_incr; lra | apply pow_incr; lra].
Qed.
Lemma bond_eq : forall x, 0 < x -> bond x = (x ^ 6 - 1) / x ^ 13.
Proof. intros. unfold bond. field. lra. Qed.
Lemma bond1_eq : forall x, 0 < x -> bond1 x = (13 - 7 * x ^ 6) / x ^ 14.
Proof. intros. unfold bond1. field. lra. Qed.
Lemma bond2_eq : forall x, 0 < x -> bond2 x = - (182 - 56 * x ^ 6) / x ^ 15.
Proof. intros. unfold bond2. field. lra. Qed.
Lemma bond3_eq : forall x, 0 < x -> bond3 x = (2730 - 504 * x ^ 6) / x ^ 16.
Proof. intros. unfold bond3. field. lra. Qed.

Lemma bond1_pos : forall x, 1 <= x < lm -> 0 < bond1 x.
Proof using Hm Em.
  intros x H. rewrite bond1_eq by lra. apply Rdiv_lt_0_compat; [| apply pow_lt; lra].
  assert (x ^ 6 < lm ^ 6); [| lra]. assert (P : x ^ 2 < lm ^ 2) by nra. assert (0 < x ^ 2) by nra.
  replace (x ^ 6) with ((x ^ 2) ^ 3) by ring. replace (lm ^ 6) with ((lm ^ 2) ^ 3) by ring.
  set (p := x ^ 2) in *. set (q := lm ^ 2) in *. clearbody p q. assert (p ^ 2 < q ^ 2) by nra. nra.
Qed.
Lemma bond2_neg : forall x, 1 <= x <= lm -> bond2 x < 0.
Proof using Hm Em.
  intros x H. rewrite bond2_eq by lra. pose proof (sixth x H).
  assert (0 < (182 - 56 * x ^ 6) / x ^ 15) by (apply Rdiv_lt_0_compat; [lra | apply pow_lt; lra]).
  unfold Rdiv in *. rewrite Ropp_mult_distr_l_reverse. lra.
Qed.
Lemma bond3_pos : forall x, 1 <= x <= lm -> 0 < bond3 x.
Proof using Hm Em.
  intros x H. rewrite bond3_eq by lra. pose proof (sixth x H). apply Rdiv_lt_0_compat; [lra | apply pow_lt; lra].
Qed.
Lemma bond1_decreasing : forall s t, 1 <= s <= t -> t <= lm -> bond1 t <= bond1 s.
Proof using Hm Em.
  intros s t H Ht. destruct (mvt bond1 bond2 s t ltac:(lra) ltac:(lra) bond1_derive) as (c & Hc & E).
  pose proof (bond2_neg c ltac:(lra)). nra.
Qed.
Lemma bond2_increasing : forall s t, 1 <= s <= t -> t <= lm -> bond2 s <= bond2 t.
Proof using Hm Em.
  intros s t H Ht. destruct (mvt bond2 bond3 s t ltac:(lra) ltac:(lra) bond2_derive) as (c & Hc & E).
  pose proof (bond3_pos c ltac:(lra)). nra.
Qed.
Lemma bond_concave : concave_increasing (fun x => 1 <= x < lm) bond bond1.
Proof using Hm Em.
  split; [intros; lra |]. split; [exact bond1_pos |]. intros x z Hx Hz.
  destruct (Rle_or_lt x z) as [L | L].
  - destruct (mvt bond bond1 x z ltac:(lra) L bond_derive) as (c & Hc & E).
    pose proof (bond1_decreasing x c ltac:(lra) ltac:(lra)). nra.
  - destruct (mvt bond bond1 z x ltac:(lra) ltac:(lra) bond_derive) as (c & Hc & E).
    pose proof (bond1_decreasing c x ltac:(lra) ltac:(lra)). nra.
Qed.

(** The key inequality: the slope dominates the distance to the maximum. *)
Lemma bernoulli6 : forall q, 0 <= q -> 6 * q <= 5 + q ^ 6.
Proof. intros q H. assert (E : 5 + q ^ 6 - 6 * q = (q - 1) ^ 2 * (q ^ 4 + 2 * q ^ 3 + 3 * q ^ 2 + 4 * q + 5)) by ring.
  assert (0 <= (q - 1) ^ 2) by apply pow2_ge_0. assert (0 <= q ^ 4) by (apply pow_le; exact H). assert (0 <= q ^ 3) by (apply pow_le; exact H). assert (0 <= q ^ 2) by (apply pow_le; exact H).
  assert (0 <= (q - 1) ^ 2 * (q ^ 4 + 2 * q ^ 3 + 3 * q ^ 2 + 4 * q + 5)) by (apply Rmult_le_pos; lra). lra.
Qed.
Lemma slope_dominates : forall x, 1 <= x <= lm -> - bond2 x * (bond lm - bond x) <= bond1 x ^ 2.
Proof using Hm Em.
  intros x H. pose proof (sixth x H) as U. rewrite bond2_eq, bond1_eq, (bond_eq x), (bond_eq lm) by lra. rewrite Em.
  set (q := x / lm). assert (Eq : x = q * lm) by (unfold q; field; lra).
  assert (Hq : 0 <= q). { unfold q. apply Rmult_le_pos; [lra | left; apply Rinv_0_lt_compat; lra]. }
  assert (Er : x ^ 6 = 13 / 7 * q ^ 6) by (rewrite Eq, Rpow_mult_distr, Em; ring).
  pose proof (bernoulli6 q Hq) as B.
  assert (E13 : / lm ^ 13 = q ^ 13 / x ^ 13). { rewrite Eq at 1. rewrite Rpow_mult_distr. field. split; [lra |]. intro Z. rewrite Z in Eq. lra. }
  apply Rmult_le_reg_r with (x ^ 28); [apply pow_lt; lra |].
  replace (((13 - 7 * x ^ 6) / x ^ 14) ^ 2 * x ^ 28) with ((13 - 7 * x ^ 6) ^ 2) by (field; lra).
  replace (- (- (182 - 56 * x ^ 6) / x ^ 15) * ((13 / 7 - 1) / lm ^ 13 - (x ^ 6 - 1) / x ^ 13) * x ^ 28)
    with ((182 - 56 * x ^ 6) * (6 / 7 * q ^ 13 - (x ^ 6 - 1))).
  2:{ replace ((13 / 7 - 1) / lm ^ 13) with ((13 / 7 - 1) * (q ^ 13 / x ^ 13)) by (rewrite <- E13; reflexivity). field. lra. }
  rewrite Er in *. replace (q ^ 13) with (q * (q ^ 6) ^ 2) by ring. set (r := q ^ 6) in *.
  assert (Hr : 7 / 13 <= r <= 1) by lra. clearbody r.
  assert (Q : 6 / 7 * (q * r ^ 2) <= (5 + r) * r ^ 2 / 7).
  { pose proof (Rmult_le_compat_r (r ^ 2) _ _ ltac:(nra) B). lra. }
  apply Rle_trans with ((182 - 56 * (13 / 7 * r)) * ((5 + r) * r ^ 2 / 7 - (13 / 7 * r - 1))).
  - apply Rmult_le_compat_l; lra.
  - assert (E : (13 - 7 * (13 / 7 * r)) ^ 2 - (182 - 56 * (13 / 7 * r)) * ((5 + r) * r ^ 2 / 7 - (13 / 7 * r - 1))
      = (1 - r) ^ 2 * (169 - 26 / 7 * ((3 + 4 * (1 - r)) * (8 - (1 - r))))) by field.
    assert (0 <= (1 - r) ^ 2) by apply pow2_ge_0. assert (0 <= 169 - 26 / 7 * ((3 + 4 * (1 - r)) * (8 - (1 - r)))) by nra. nra.
Qed.

Section Solve.
Variables y r : R.
Hypothesis Hr : 1 <= r < lm.
Hypothesis Er : bond r = y.

Lemma y_below : y < bond lm.
Proof using Hm Em Hr Er.
  destruct (mvt bond bond1 r lm ltac:(lra) ltac:(lra) bond_derive) as (c & Hc & E).
  destruct (Req_dec c lm) as [-> | N].
  - (* strictly increasing up to the maximum *)
    destruct (mvt bond bond1 r ((r + lm) / 2) ltac:(lra) ltac:(lra) bond_derive) as (d & Hd & E').
    destruct (mvt bond bond1 ((r + lm) / 2) lm ltac:(lra) ltac:(lra) bond_derive) as (d2 & Hd2 & E2).
    pose proof (bond1_pos d ltac:(lra)).
    assert (0 <= bond1 d2). { destruct (Req_dec d2 lm) as [-> | N2]; [| left; apply bond1_pos; lra].
      rewrite bond1_eq by lra. rewrite Em. right. field. lra. }
    nra.
  - pose proof (bond1_pos c ltac:(lra)). nra.
Qed.

Lemma halving : forall x, 1 <= x <= r -> 0 <= y - bond (newton_step y bond bond1 x) <= (y - bond x) / 2.
Proof using Hm Em Hr Er.
  intros x Hx. pose proof (concave_iterates _ _ _ y r bond_concave ltac:(cbv beta; lra) Er 1 x ltac:(cbv beta; lra) (proj2 Hx)) as (B & _ & P).
  change (newton_iterate y bond bond1 1 x) with (newton_step y bond bond1 x) in *. 
  pose proof (concave_iterates _ _ _ y r bond_concave ltac:(cbv beta; lra) Er 0 x ltac:(cbv beta; lra) (proj2 Hx)) as (_ & _ & P0).
  change (newton_iterate y bond bond1 0 x) with x in P0.
  split; [lra |]. set (z := newton_step y bond bond1 x) in *.
  pose proof (bond1_pos x ltac:(lra)) as S. pose proof (slope_dominates x ltac:(lra)) as K. pose proof y_below as Y.
  assert (Ez : z - x = (y - bond x) / bond1 x) by (unfold z, newton_step; change (x + (y - bond x) / bond1 x - x = (y - bond x) / bond1 x); ring).
  assert (T1 : forall t, x <= t <= z -> bond1 x + bond2 x * (t - x) <= bond1 t).
  { intros t Ht. destruct (mvt bond1 bond2 x t ltac:(lra) ltac:(lra) bond1_derive) as (c & Hc & E).
    pose proof (bond2_increasing x c ltac:(lra) ltac:(lra)). nra. }
  assert (T2 : bond x + bond1 x * (z - x) + bond2 x * (z - x) ^ 2 / 2 <= bond z).
  { destruct (mvt (fun t => bond t - bond1 x * (t - x) - bond2 x * (t - x) ^ 2 / 2) (fun t => bond1 t - bond1 x - bond2 x * (t - x)) x z ltac:(lra) ltac:(lra)) as (c & Hc & E).
    - intros t Ht. pose proof (bond_derive t Ht) as D.
      auto_derive; [eexists; exact D |]. replace (Derive (fun x0 => bond x0) t) with (bond1 t) by (symmetry; apply (is_derive_unique bond), D). field.
    - pose proof (T1 c Hc) as Q. assert (0 <= (bond1 c - bond1 x - bond2 x * (c - x)) * (z - x)) by (apply Rmult_le_pos; lra).
      rewrite <- E in H. nra. }
  rewrite Ez in T2. replace (bond1 x * ((y - bond x) / bond1 x)) with (y - bond x) in T2 by (field; lra).
  set (e := y - bond x) in *.
  assert (Q : - bond2 x * (e / bond1 x) ^ 2 <= e).
  { replace ((e / bond1 x) ^ 2) with (e * e / bond1 x ^ 2) by (field; lra).
    apply Rmult_le_reg_r with (bond1 x ^ 2); [apply pow_lt; exact S |].
    replace (- bond2 x * (e * e / bond1 x ^ 2) * bond1 x ^ 2) with (- bond2 x * e * e) by (field; lra).
    pose proof (bond2_neg x ltac:(lra)) as N2.
    assert (- bond2 x * e <= - bond2 x * (bond lm - bond x)) by (apply Rmult_le_compat_l; unfold e; lra).
    assert (M : - bond2 x * e <= bond1 x ^ 2) by lra. apply (Rmult_le_compat_r e) in M; [rewrite (Rmult_comm e); exact M | lra]. }
  unfold e in *. lra.
Qed.

Lemma halving_iter : forall k, let z := newton_iterate y bond bond1 k 1 in
  1 <= z <= r /\ 0 <= y - bond z <= y / 2 ^ k.
Proof using Hm Em Hr Er.
  assert (B1 : bond 1 = 0) by (unfold bond; rewrite !pow1; lra).
  assert (Y : 0 <= y). { destruct (mvt bond bond1 1 r ltac:(lra) ltac:(lra) bond_derive) as (c & Hc & E). pose proof (bond1_pos c ltac:(lra)). nra. }
  induction k as [| k IH]; cbv zeta in *.
  - change (newton_iterate y bond bond1 0 1) with 1. rewrite B1. simpl. lra.
  - pose proof (concave_iterates _ _ _ y r bond_concave ltac:(cbv beta; lra) Er (S k) 1 ltac:(cbv beta; lra) ltac:(lra)) as (B & _ & _).
    split; [exact B |]. 
    change (newton_iterate y bond bond1 (S k) 1) with (newton_step y bond bond1 (newton_iterate y bond bond1 k 1)).
    destruct IH as (I1 & I2). pose proof (halving _ I1) as H.
    replace (y / 2 ^ S k) with (y / 2 ^ k / 2) by (simpl; field; apply pow_nonzero; lra). lra.
Qed.
End Solve.

Lemma root_exists : forall y, 0 <= y < bond lm -> exists r, 1 <= r < lm /\ bond r = y.
Proof using Hm Em.
  intros y Hy. pose proof lm_gt_1 as L.
  assert (B1 : bond 1 = 0) by (unfold bond; rewrite !pow1; lra).
  destruct (Req_dec y 0) as [-> | N]; [exists 1; split; [lra | exact B1] |].
  destruct (Ranalysis5.IVT_interv (fun x => bond x - y) 1 lm) as (r & Hr & E).
  - intros x Hx. apply continuity_pt_filterlim. apply (ex_derive_continuous (V := R_NormedModule) (fun x => bond x - y) x).
    exists (bond1 x - 0). apply (is_derive_minus bond (fun _ => y)); [apply bond_derive; lra | apply (is_derive_const (V := R_NormedModule) y x)].
  - exact L.
  - rewrite B1. lra.
  - lra.
  - cbv beta in E. exists r. split; [| lra]. split; [lra |].
    destruct (Req_dec r lm) as [-> | N']; [exfalso; lra | lra].
Qed.

(** For every force below the largest one the stretch solves the force balance
    up to one part in a million, from below. *)
Lemma lj_stretch : forall kap x, 0 < kap -> 0 <= x < lj_bond_force kap lm ->
  let lam := lennard_jones_thermodynamics.nondimensional_link_stretch kap x in
  1 <= lam < lm /\ x * (1 - 1 / 10 ^ 6) <= lj_bond_force kap lam <= x.
Proof using Hm Em.
  intros kap x Hk Hx lam. set (y := 6 * x / kap).
  assert (Fb : forall z, lj_bond_force kap z = kap / 6 * bond z) by reflexivity.
  assert (Ex : x = kap / 6 * y) by (unfold y; field; lra).
  assert (Hy : 0 <= y < bond lm).
  { rewrite Fb in Hx. assert (Q : 0 < kap / 6) by lra. split.
    - unfold y. apply Rmult_le_pos; [lra | left; apply Rinv_0_lt_compat; exact Hk].
    - apply Rmult_lt_reg_l with (kap / 6); [exact Q | lra]. }
  destruct (root_exists y Hy) as (r & Hr & Er).
  destruct (inverted_plain bond bond1 y 1) as (k & Ek & Lk & Rk).
  change (math.inverse_newton_raphson y bond bond1 1 (sdec 1 6) 100) with lam in Ek.
  assert (EE : forall j, estimate bond bond1 1 y 1 j = newton_iterate y bond bond1 j 1).
  { intro j. rewrite estimate_iterate. unfold newton_iterate. induction j as [| j IH]; [reflexivity |].
    rewrite !iter_succ, IH. change (newton_step y bond (fun x => 1 * bond1 x)) with (fun x => x + (y - bond x) / (1 * bond1 x)).
    cbv beta. rewrite Rmult_1_l. reflexivity. }
  rewrite EE in Ek.
  pose proof (halving_iter y r Hr Er k) as (B & P). rewrite <- Ek in *.
  split; [lra |]. rewrite Fb. rewrite Ex. clear Ex.
  assert (G : y - bond lam <= y * (1 / 10 ^ 6)).
  { destruct (Nat.eq_dec k 100) as [-> | Nk].
    - apply Rle_trans with (1 := proj2 P). unfold Rdiv at 1. apply Rmult_le_compat_l; [lra |].
      unfold Rdiv. rewrite Rmult_1_l. apply Rinv_le_contravar; [apply pow_lt; lra |].
      apply Rle_trans with (2 ^ 20); [lra |]. apply Rle_pow; [lra | lia].
    - destruct (Rk ltac:(lia)) as (j & -> & Hj). rewrite EE in Hj.
      pose proof (halving_iter y r Hr Er j) as (Bj & Pj).
      pose proof (halving y r Hr Er _ Bj) as H.
      change (newton_step y bond bond1 (newton_iterate y bond bond1 j 1)) with (newton_iterate y bond bond1 (S j) 1) in H. rewrite <- Ek in H.
      destruct (Req_dec y 0) as [Z | N].
      + rewrite Z in *. pose proof (proj2 P) as P2. unfold Rdiv in P2. rewrite Rmult_0_l in *. lra.
      + rewrite Rabs_pos_eq in Hj. 2:{ apply Rmult_le_pos; [lra | left; apply Rinv_0_lt_compat; lra]. }
        apply (Rmult_le_compat_r y) in Hj; [| lra]. unfold Rdiv at 1 in Hj. rewrite Rmult_assoc, Rinv_l in Hj by exact N. lra. }
  split; nra.
Qed.
End Max.

(** ** Weak forces: two Newton steps *)

Definition two_steps (y : R) : R := let z := 1 + y / 6 in z + (y - bond z) / bond1 z.

Lemma first_residual : forall lm y, 0 < lm -> lm ^ 6 = 13 / 7 -> 0 < y -> y < bond lm ->
  let z := 1 + y / 6 in 1 <= z < lm /\ 0 <= y - bond z <= 7 / 4 * y ^ 2.
Proof.
  intros lm y Hm Em Hy Hy2. destruct (root_exists lm Hm Em y ltac:(lra)) as (r & Hr & Er).
  assert (B1 : bond 1 = 0) by (unfold bond; rewrite !pow1; lra).
  assert (B2 : bond1 1 = 6) by (unfold bond1; rewrite !pow1; lra).
  assert (B3 : bond2 1 = - 126) by (unfold bond2; rewrite !pow1; lra).
  pose proof (concave_iterates _ _ _ y r (bond_concave lm Hm Em) ltac:(cbv beta; lra) Er 1 1 ltac:(cbv beta; lra) ltac:(lra)) as (B & _ & P).
  change (newton_iterate y bond bond1 1 1) with (1 + (y - bond 1) / bond1 1) in *. rewrite B1, B2, Rminus_0_r in *.
  cbv zeta. split; [lra |]. split; [lra |].
  set (z := 1 + y / 6) in *.
  destruct (mvt (fun t => bond t - 6 * (t - 1) + 63 * (t - 1) ^ 2) (fun t => bond1 t - 6 + 126 * (t - 1)) 1 z ltac:(lra) ltac:(lra)) as (c & Hc & E).
  - intros t Ht. pose proof (bond_derive t Ht) as D.
    auto_derive; [eexists; exact D |]. replace (Derive (fun x0 => bond x0) t) with (bond1 t) by (symmetry; apply (is_derive_unique bond), D). ring.
  - destruct (mvt bond1 bond2 1 c ltac:(lra) ltac:(lra) bond1_derive) as (c2 & Hc2 & E2). rewrite B2 in E2.
    pose proof (bond2_increasing lm Hm Em 1 c2 ltac:(lra) ltac:(lra)) as I. rewrite B3 in I.
    assert (Q : 0 <= bond1 c - 6 + 126 * (c - 1)) by nra.
    assert (Q2 : 0 <= (bond1 c - 6 + 126 * (c - 1)) * (z - 1)) by (apply Rmult_le_pos; lra).
    cbv beta in E. rewrite B1 in E. rewrite <- E in Q2. unfold z in *. nra.
Qed.

Lemma bond_lm_lower : forall lm, 0 < lm -> lm ^ 6 = 13 / 7 -> 1 / 100 < bond lm.
Proof.
  intros lm Hm Em. rewrite bond_eq by lra. rewrite Em. replace (lm ^ 13) with ((lm ^ 6) ^ 2 * lm) by ring. rewrite Em.
  assert (L : lm < 2). { destruct (Rlt_or_le lm 2) as [H | H]; [exact H |]. exfalso. pose proof (pow_incr 2 lm 6 ltac:(lra)). lra. }
  apply Rmult_lt_reg_r with ((13 / 7) ^ 2 * lm); [apply Rmult_lt_0_compat; lra |]. field_simplify; lra.
Qed.

Lemma weak_two_steps : forall kap x, 0 < kap -> 0 < x -> 6 * x / kap < 5 / 10 ^ 7 ->
  lennard_jones_thermodynamics.nondimensional_link_stretch kap x = two_steps (6 * x / kap).
Proof.
  intros kap x Hk Hx Hy. set (y := 6 * x / kap) in *.
  assert (Y : 0 < y) by (apply Rdiv_lt_0_compat; lra).
  pose (lm := Rpower (13 / 7) (/ 6)).
  assert (Hm : 0 < lm) by apply exp_pos.
  assert (Em : lm ^ 6 = 13 / 7). { unfold lm. rewrite <- Rpower_pow by exact Hm. unfold lm. rewrite Rpower_mult. replace (/ 6 * INR 6) with 1 by (simpl; field). apply Rpower_1. lra. }
  pose proof (bond_lm_lower lm Hm Em) as BL. clearbody lm.
  destruct (first_residual lm y Hm Em Y ltac:(lra)) as (Z & Rz). set (z := 1 + y / 6) in *.
  assert (B1 : bond 1 = 0) by (unfold bond; rewrite !pow1; lra).
  assert (B2 : bond1 1 = 6) by (unfold bond1; rewrite !pow1; lra).
  change (math.inverse_newton_raphson y bond bond1 1 (sdec 1 6) 100 = two_steps y).
  destruct (newton_result y bond bond1 1 (sdec 1 6) 100) as (k & E & Lk & P1 & P2 & P3). rewrite E.
  assert (I1 : newton_iterate y bond bond1 1 1 = z). { change (1 + (y - bond 1) / bond1 1 = z). rewrite B1, B2. unfold z. field. }
  assert (I2 : newton_iterate y bond bond1 2 1 = two_steps y).
  { change (newton_step y bond bond1 (newton_iterate y bond bond1 1 1) = two_steps y). rewrite I1. reflexivity. }
  assert (R0 : relative_residual y bond (newton_iterate y bond bond1 0 1) = 1).
  { change (Rabs ((y - bond 1) / y) = 1). rewrite B1. replace ((y - 0) / y) with 1 by (field; lra). apply Rabs_R1. }
  assert (R1 : relative_residual y bond (newton_iterate y bond bond1 1 1) <= 1 / 1000000).
  { rewrite I1. change (Rabs ((y - bond z) / y) <= 1 / 1000000). rewrite Rabs_pos_eq.
    - apply Rmult_le_reg_r with y; [exact Y |]. replace ((y - bond z) / y * y) with (y - bond z) by (field; lra). nra.
    - apply Rmult_le_pos; [lra | left; apply Rinv_0_lt_compat; exact Y]. }
  destruct k as [| [| [| k]]].
  - exfalso. specialize (P3 ltac:(lia)). cbv iota in P3. change (Rltb (1 / 1000000) 1 = false) in P3. unfold Rltb in P3. destruct (Rlt_dec (1 / 1000000) 1); [discriminate | lra].
  - exfalso. specialize (P3 ltac:(lia)). cbv iota in P3. rewrite R0 in P3. change (Rltb (1 / 1000000) 1 = false) in P3. unfold Rltb in P3. destruct (Rlt_dec (1 / 1000000) 1); [discriminate | lra].
  - exact I2.
  - exfalso. specialize (P2 2%nat ltac:(lia)). change (2 - 1)%nat with 1%nat in P2.
    change (Rltb (1 / 1000000) (relative_residual y bond (newton_iterate y bond bond1 1 1)) = true) in P2. unfold Rltb in P2.
    destruct (Rlt_dec _ _) as [l | n]; [lra | discriminate].
Qed.

Lemma weak_differentiable : forall kap x, 0 < kap -> 0 < x -> 6 * x / kap < 5 / 10 ^ 7 ->
  ex_derive (lennard_jones_thermodynamics.nondimensional_link_stretch kap) x.
Proof.
  intros kap x Hk Hx Hy.
  apply (ex_derive_ext_loc (fun x => two_steps (6 * x / kap))).
  - assert (O : open (fun z => 0 < z /\ z < kap / 6 * (5 / 10 ^ 7))) by (apply open_and; [apply open_gt | apply open_lt]).
    apply (filter_imp (fun z => 0 < z /\ z < kap / 6 * (5 / 10 ^ 7))).
    + intros z (H0 & H1). symmetry. apply weak_two_steps; [exact Hk | exact H0 |].
      apply Rmult_lt_reg_l with (kap / 6); [lra |]. replace (kap / 6 * (6 * z / kap)) with z by (field; lra). exact H1.
    + apply O. split; [exact Hx |]. apply (Rmult_lt_compat_l (kap / 6)) in Hy; [| lra]. replace (kap / 6 * (6 * x / kap)) with x in Hy by (field; lra). exact Hy.
  - assert (Y : 0 < 6 * x / kap) by (apply Rdiv_lt_0_compat; lra).
    assert (P : 0 < bond1 (1 + 6 * x / kap / 6)).
    { pose (lm := Rpower (13 / 7) (/ 6)). assert (Hm : 0 < lm) by apply exp_pos.
      assert (Em : lm ^ 6 = 13 / 7). { unfold lm. rewrite <- Rpower_pow by exact Hm. unfold lm. rewrite Rpower_mult. replace (/ 6 * INR 6) with 1 by (simpl; field). apply Rpower_1. lra. }
      pose proof (bond_lm_lower lm Hm Em) as BL.
      destruct (first_residual lm (6 * x / kap) Hm Em Y ltac:(lra)) as (Z & _). apply (bond1_pos lm Hm Em). exact Z. }
    assert (Hz : 0 < 1 + 6 * x / kap / 6) by lra.
    unfold two_steps. cbv zeta. 
    apply (ex_derive_plus (V := R_NormedModule) (fun x => 1 + 6 * x / kap / 6) (fun x => (6 * x / kap - bond (1 + 6 * x / kap / 6)) / bond1 (1 + 6 * x / kap / 6))).
    + auto_derive. exact I.
    + apply ex_derive_div; [| | lra].
      * apply (ex_derive_minus (V := R_NormedModule) (fun x => 6 * x / kap)); [auto_derive; exact I |].
        apply (ex_derive_comp bond (fun x => 1 + 6 * x / kap / 6)); [eexists; apply bond_derive; exact Hz | auto_derive; exact I].
      * apply (ex_derive_comp bond1 (fun x => 1 + 6 * x / kap / 6)); [eexists; apply bond1_derive; exact Hz | auto_derive; exact I].
Qed.

Lemma lj_stretch_example : exists lam_max, 0 < lam_max /\ lam_max ^ 6 = 13 / 7 /\ 0 <= 1 < lj_bond_force 600 lam_max.
Proof.
  set (lm := Rpower (13 / 7) (/ 6)). assert (Hm : 0 < lm) by apply exp_pos.
  assert (Em : lm ^ 6 = 13 / 7). { unfold lm. rewrite <- Rpower_pow by exact Hm. unfold lm. rewrite Rpower_mult. replace (/ 6 * INR 6) with 1 by (simpl; field). apply Rpower_1. lra. }
  pose proof (bond_lm_lower lm Hm Em) as BL. exists lm. split; [exact Hm |]. split; [exact Em |].
  change (0 <= 1 < 600 / 6 * bond lm). lra.
Qed.
