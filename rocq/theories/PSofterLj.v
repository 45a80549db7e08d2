(** Newton's method for the stretch of a Lennard-Jones link is monotone in the force. *)
From Coq Require Import Reals ZArith List Lra Lia Psatz.
From Coquelicot Require Import Coquelicot.
From Verif Require Import Scalar MMath MConst MFjc MLennardJones.
From Verif Require Import SpecLinks SpecNewton SpecSofter PBase PHyp PNewton PStability PLjStretch PSofter.
Open Scope R_scope.

Local Notation fjc := (@fjc_isotensional.nondimensional_end_to_end_length_per_link R R_scalar).
Local Notation lennard_jones := (@lennard_jones_isotensional_asymptotic.nondimensional_end_to_end_length_per_link R R_scalar).
Local Notation lennard_jones_reduced := (@lennard_jones_isotensional_asymptotic_reduced.nondimensional_end_to_end_length_per_link R R_scalar).
Local Notation lj_stretch := (@lennard_jones_thermodynamics.nondimensional_link_stretch R R_scalar).

Section Max.
Variable lm : R.
Hypothesis Hm : 0 < lm.
Hypothesis Em : lm ^ 6 = 13 / 7.

Definition next (y x : R) : R := x + (y - bond x) / bond1 x.

Lemma bond_1 : bond 1 = 0.
Proof. unfold bond. rewrite !pow1. lra. Qed.
Lemma bond_le : forall s t, 1 <= s -> s <= t -> t < lm -> bond s <= bond t.
Proof using Hm Em.
  intros s t Hs Hst Ht. destruct (mvt bond bond1 s t ltac:(lra) Hst bond_derive) as (c & Hc & E).
  pose proof (bond1_pos lm Hm Em c ltac:(lra)). nra.
Qed.
Lemma bond_pos : forall s, 1 < s -> s < lm -> 0 < bond s.
Proof using Hm Em.
  intros s Hs H. destruct (mvt bond bond1 1 s ltac:(lra) ltac:(lra) bond_derive) as (c & Hc & E).
  pose proof (bond1_pos lm Hm Em c ltac:(lra)). rewrite bond_1 in E. nra.
Qed.

(** The reciprocal of the slope is convex. *)
Lemma curvature : forall x, 1 <= x <= lm -> 0 <= 2 * bond2 x ^ 2 - bond1 x * bond3 x.
Proof using Hm Em.
  intros x H. pose proof (sixth lm Hm Em x H) as U. rewrite bond1_eq, bond2_eq, bond3_eq by lra. set (u := x ^ 6) in *.
  replace (2 * (- (182 - 56 * u) / x ^ 15) ^ 2 - (13 - 7 * u) / x ^ 14 * ((2730 - 504 * u) / x ^ 16))
    with ((30758 - 15106 * u + 2744 * u ^ 2) / x ^ 30) by (clearbody u; field; lra).
  apply Rmult_le_pos; [nra | left; apply Rinv_0_lt_compat, pow_lt; lra].
Qed.

Lemma slope_drop : forall s t, 1 <= s -> s <= t -> t < lm -> bond1 t * (bond1 s - bond2 s * (t - s)) <= bond1 s ^ 2.
Proof using Hm Em.
  intros s t Hs Hst Ht. destruct (Req_dec s t) as [-> | N]; [right; ring|].
  assert (P : forall c, s <= c <= t -> 0 < bond1 c) by (intros c Hc; apply (bond1_pos lm Hm Em); lra).
  destruct (MVT_cor2 (fun c => / bond1 c) (fun c => - bond2 c / bond1 c ^ 2) s t ltac:(lra)) as (c & E & Hc).
  { intros c Hc. specialize (P c Hc). apply is_derive_Reals. apply is_derive_inv; [apply bond1_derive; lra | lra]. }
  destruct (MVT_cor2 (fun c => - bond2 c / bond1 c ^ 2) (fun c => (2 * bond2 c ^ 2 - bond1 c * bond3 c) / bond1 c ^ 3) s c ltac:(lra)) as (d & E' & Hd).
  { intros d Hd. pose proof (P d ltac:(lra)) as Q. apply is_derive_Reals. pose proof (bond1_derive d ltac:(lra)) as D1. pose proof (bond2_derive d ltac:(lra)) as D2.
    auto_derive; [repeat split; [eexists; exact D2 | eexists; exact D1 | apply Rgt_not_eq; nra]|].
    replace (Derive (fun x => bond1 x) d) with (bond2 d) by (symmetry; apply is_derive_unique, D1).
    replace (Derive (fun x => bond2 x) d) with (bond3 d) by (symmetry; apply is_derive_unique, D2). field. lra. }
  cbv beta in *. pose proof (curvature d ltac:(lra)) as K. pose proof (P d ltac:(lra)) as Qd. pose proof (P s ltac:(lra)) as Qs. pose proof (P t ltac:(lra)) as Qt.
  assert (0 <= (2 * bond2 d ^ 2 - bond1 d * bond3 d) / bond1 d ^ 3 * (c - s)).
  { apply Rmult_le_pos; [|lra]. apply Rmult_le_pos; [exact K | left; apply Rinv_0_lt_compat, pow_lt, Qd]. }
  assert (I : / bond1 s + - bond2 s / bond1 s ^ 2 * (t - s) <= / bond1 t).
  { assert (- bond2 s / bond1 s ^ 2 * (t - s) <= - bond2 c / bond1 c ^ 2 * (t - s)) by (apply Rmult_le_compat_r; lra). lra. }
  apply (Rmult_le_compat_r (bond1 t * bond1 s ^ 2)) in I; [|left; apply Rmult_lt_0_compat; [exact Qt | apply pow_lt, Qs]].
  replace ((/ bond1 s + - bond2 s / bond1 s ^ 2 * (t - s)) * (bond1 t * bond1 s ^ 2)) with (bond1 t * (bond1 s - bond2 s * (t - s))) in I by (field; lra).
  replace (/ bond1 t * (bond1 t * bond1 s ^ 2)) with (bond1 s ^ 2) in I by (field; lra). exact I.
Qed.

(** ** One step *)
Lemma next_range : forall y r x, 1 <= r < lm -> bond r = y -> 1 <= x <= r -> x <= next y x <= r.
Proof using Hm Em.
  intros y r x Hr Er Hx.
  pose proof (concave_iterates _ _ _ y r (bond_concave lm Hm Em) ltac:(cbv beta; lra) Er 1 x ltac:(cbv beta; lra) (proj2 Hx)) as (B & _ & _). exact B.
Qed.

Lemma next_start : forall y r s t, 1 <= r < lm -> bond r = y -> 1 <= s -> s <= t -> t <= r -> next y s <= next y t.
Proof using Hm Em.
  intros y r s t Hr Er Hs Hst Ht. destruct (Req_dec s t) as [-> | N]; [lra|].
  destruct (MVT_cor2 (next y) (fun x => (y - bond x) * (- bond2 x) / bond1 x ^ 2) s t ltac:(lra)) as (c & E & Hc).
  { intros c Hc. pose proof (bond1_pos lm Hm Em c ltac:(lra)) as Q. apply is_derive_Reals. pose proof (bond_derive c ltac:(lra)) as D0. pose proof (bond1_derive c ltac:(lra)) as D1.
    unfold next. auto_derive; [repeat split; [eexists; exact D0 | eexists; exact D1 | lra]|].
    replace (Derive (fun x => bond x) c) with (bond1 c) by (symmetry; apply is_derive_unique, D0).
    replace (Derive (fun x => bond1 x) c) with (bond2 c) by (symmetry; apply is_derive_unique, D1). field. lra. }
  pose proof (bond1_pos lm Hm Em c ltac:(lra)) as Q. pose proof (bond2_neg lm Hm Em c ltac:(lra)) as Q2. pose proof (bond_le c r ltac:(lra) ltac:(lra) ltac:(lra)).
  assert (0 <= (y - bond c) * (- bond2 c) / bond1 c ^ 2 * (t - s)); [|lra].
  apply Rmult_le_pos; [|lra]. apply Rmult_le_pos; [apply Rmult_le_pos; lra | left; apply Rinv_0_lt_compat, pow_lt, Q].
Qed.

Lemma next_target : forall y y' x, 1 <= x < lm -> y < y' -> next y x < next y' x.
Proof using Hm Em.
  intros y y' x Hx H. unfold next. apply Rplus_lt_compat_l. apply Rmult_lt_compat_r; [apply Rinv_0_lt_compat, (bond1_pos lm Hm Em); lra | lra].
Qed.

(** From the same fraction of the force, a step reaches a smaller fraction of a larger force. *)
Lemma fraction_decreases : forall c s t, 0 <= c -> 1 < s -> s <= t -> t < lm ->
  (forall x, s <= x <= t -> x + c * bond x / bond1 x < lm) ->
  bond (t + c * bond t / bond1 t) * bond s <= bond (s + c * bond s / bond1 s) * bond t.
Proof using Hm Em.
  intros c s t Hc Hs Hst Ht B. destruct (Req_dec s t) as [-> | N]; [lra|].
  pose proof (bond_pos s Hs ltac:(lra)) as Ps. pose proof (bond_pos t ltac:(lra) Ht) as Pt.
  set (mu := fun x => x + c * bond x / bond1 x) in *. change (bond (mu t) * bond s <= bond (mu s) * bond t).
  set (mu' := fun x => 1 + c * (bond1 x * bond1 x - bond x * bond2 x) / bond1 x ^ 2).
  assert (Dmu : forall x, s <= x <= t -> is_derive mu x (mu' x)).
  { intros x Hx. pose proof (bond1_pos lm Hm Em x ltac:(lra)) as Q. pose proof (bond_derive x ltac:(lra)) as D0. pose proof (bond1_derive x ltac:(lra)) as D1.
    unfold mu, mu'. auto_derive; [repeat split; [eexists; exact D0 | eexists; exact D1 | lra]|].
    replace (Derive (fun x => bond x) x) with (bond1 x) by (symmetry; apply is_derive_unique, D0).
    replace (Derive (fun x => bond1 x) x) with (bond2 x) by (symmetry; apply is_derive_unique, D1). field. lra. }
  assert (Rmu : forall x, s <= x <= t -> x <= mu x < lm).
  { intros x Hx. split; [|apply B, Hx]. pose proof (bond1_pos lm Hm Em x ltac:(lra)) as Q. pose proof (bond_pos x ltac:(lra) ltac:(lra)).
    unfold mu. assert (0 <= c * bond x / bond1 x) by (apply Rmult_le_pos; [apply Rmult_le_pos; lra | left; apply Rinv_0_lt_compat, Q]). lra. }
  destruct (MVT_cor2 (fun x => bond (mu x) / bond x) (fun x => (bond1 (mu x) * mu' x * bond x - bond (mu x) * bond1 x) / bond x ^ 2) s t ltac:(lra)) as (d & E & Hd).
  { intros x Hx. apply is_derive_Reals. pose proof (bond_pos x ltac:(lra) ltac:(lra)) as Px. pose proof (Rmu x Hx).
    assert (DC : is_derive (fun x => bond (mu x)) x (bond1 (mu x) * mu' x)).
    { rewrite Rmult_comm. apply (is_derive_comp (V := R_NormedModule) bond mu); [apply bond_derive; lra | apply Dmu, Hx]. }
    pose proof (is_derive_div (fun x => bond (mu x)) bond x _ _ DC (bond_derive x ltac:(lra)) ltac:(lra)) as DD. 
    replace ((bond1 (mu x) * mu' x * bond x - bond (mu x) * bond1 x) / bond x ^ 2) with ((bond1 (mu x) * mu' x * bond x - bond (mu x) * bond1 x) / bond x ^ 2) by reflexivity.
    exact DD. }
  cbv beta in E.
  assert (G : (bond1 (mu d) * mu' d * bond d - bond (mu d) * bond1 d) / bond d ^ 2 <= 0).
  { pose proof (Rmu d ltac:(lra)) as Rd. pose proof (bond1_pos lm Hm Em d ltac:(lra)) as Q. pose proof (bond_pos d ltac:(lra) ltac:(lra)) as Pd.
    pose proof (bond1_pos lm Hm Em (mu d) ltac:(lra)) as Qm.
    pose proof (slope_drop d (mu d) ltac:(lra) ltac:(lra) ltac:(lra)) as S.
    pose proof (proj2 (proj2 (bond_concave lm Hm Em)) (mu d) d ltac:(cbv beta; lra) ltac:(cbv beta; lra)) as C.
    assert (Eh : (mu d - d) * bond1 d = c * bond d) by (unfold mu; field; lra).
    set (h := mu d - d) in *. replace (d - mu d) with (- h) in C by (unfold h; ring). set (m := mu d) in *.
    assert (Em' : mu' d * bond d = bond d + h * bond1 d + h * (- bond2 d) * bond d / bond1 d).
    { unfold mu'. replace (h * (- bond2 d) * bond d / bond1 d) with (h * bond1 d * (- bond2 d) * bond d / bond1 d ^ 2) by (field; lra). rewrite Eh. field. lra. }
    assert (T : bond1 m * (bond d + h * (- bond2 d) * bond d / bond1 d) <= bond d * bond1 d).
    { replace (bond1 m * (bond d + h * - bond2 d * bond d / bond1 d)) with (bond1 m * (bond1 d - bond2 d * h) * (bond d / bond1 d)) by (field; lra).
      replace (bond d * bond1 d) with (bond1 d ^ 2 * (bond d / bond1 d)) by (field; lra).
      apply Rmult_le_compat_r; [left; apply Rdiv_lt_0_compat; assumption | exact S]. }
    assert (U : (bond d + bond1 m * h) * bond1 d <= bond m * bond1 d) by (apply Rmult_le_compat_r; lra).
    assert (V : bond1 m * mu' d * bond d - bond m * bond1 d <= 0) by (rewrite Rmult_assoc, Em'; lra).
    apply Rmult_le_reg_r with (bond d ^ 2); [apply pow_lt, Pd|]. unfold Rdiv. rewrite Rmult_assoc, Rinv_l by (apply pow_nonzero; lra). lra. }
  assert (L : bond (mu t) / bond t <= bond (mu s) / bond s) by nra.
  apply (Rmult_le_compat_r (bond s * bond t)) in L; [|left; apply Rmult_lt_0_compat; assumption].
  replace (bond (mu t) / bond t * (bond s * bond t)) with (bond (mu t) * bond s) in L by (field; lra).
  replace (bond (mu s) / bond s * (bond s * bond t)) with (bond (mu s) * bond t) in L by (field; lra). exact L.
Qed.

Lemma next_fraction : forall y y' r r' x x', 0 < y -> y < y' -> 1 <= r < lm -> bond r = y -> 1 <= r' < lm -> bond r' = y' ->
  1 <= x <= r -> 1 < x' <= r' -> bond x' * y <= bond x * y' -> bond (next y' x') * y <= bond (next y x) * y'.
Proof using Hm Em.
  intros y y' r r' x x' Hy H Hr Er Hr' Er' Hx Hx' F.
  pose proof (bond_pos x' ltac:(lra) ltac:(lra)) as P'. pose proof (bond_le x' r' ltac:(lra) ltac:(lra) ltac:(lra)) as Q'.
  set (z := bond x' * y / y'). assert (Ez : z * y' = bond x' * y) by (unfold z; field; lra).
  assert (Hz : 0 < z) by (unfold z; apply Rdiv_lt_0_compat; [apply Rmult_lt_0_compat; lra | lra]).
  assert (z <= bond x) by (apply Rmult_le_reg_r with y'; lra).
  assert (z <= bond x') by (apply Rmult_le_reg_r with y'; nra).
  pose proof (y_below lm Hm Em y' r' Hr' Er') as Yb.
  destruct (root_exists lm Hm Em z ltac:(lra)) as (w & Hw & Ew).
  assert (W1 : 1 < w) by (destruct (Req_dec w 1) as [-> | Z]; [rewrite bond_1 in Ew; lra | lra]).
  assert (M : forall a b, 1 <= a < lm -> 1 <= b < lm -> bond a <= bond b -> a <= b).
  { intros a b Ha Hb L. destruct (Rle_or_lt a b) as [O | O]; [exact O|]. exfalso.
    destruct (mvt bond bond1 b a ltac:(lra) ltac:(lra) bond_derive) as (c & Hc & E). pose proof (bond1_pos lm Hm Em c ltac:(lra)). nra. }
  assert (w <= x) by (apply M; lra). assert (w <= x') by (apply M; lra).
  set (c := y' / bond x' - 1).
  assert (Hc : 0 <= c).
  { unfold c. enough (1 <= y' / bond x') by lra. apply Rmult_le_reg_r with (bond x'); [exact P'|]. replace (y' / bond x' * bond x') with y' by (field; lra). lra. }
  assert (A : next y' x' = x' + c * bond x' / bond1 x') by (unfold next, c; replace ((y' / bond x' - 1) * bond x') with (y' - bond x') by (field; lra); reflexivity).
  assert (B : next y w = w + c * bond w / bond1 w).
  { unfold next, c. rewrite Ew. replace ((y' / bond x' - 1) * z) with (y - z); [reflexivity|]. unfold z. field. lra. }
  assert (G : bond (next y' x') * z <= bond (next y w) * bond x').
  { rewrite A, B, <- Ew. apply fraction_decreases; [exact Hc | exact W1 | lra | lra|].
    intros s Hs. pose proof (bond_pos s ltac:(lra) ltac:(lra)) as Ps. pose proof (bond_le s x' ltac:(lra) ltac:(lra) ltac:(lra)) as Ls.
    assert (Y : 0 <= (c + 1) * bond s < bond lm).
    { split; [apply Rmult_le_pos; lra|]. apply Rle_lt_trans with ((c + 1) * bond x'); [apply Rmult_le_compat_l; lra|].
      unfold c. replace ((y' / bond x' - 1 + 1) * bond x') with y' by (field; lra). exact Yb. }
    destruct (root_exists lm Hm Em _ Y) as (v & Hv & Ev).
    assert (s <= v) by (apply M; [lra | lra | rewrite Ev; nra]).
    pose proof (next_range _ v s Hv Ev ltac:(lra)) as N. unfold next in N. replace ((c + 1) * bond s - bond s) with (c * bond s) in N by ring. lra. }
  pose proof (next_start y r w x Hr Er ltac:(lra) ltac:(lra) ltac:(lra)) as St. pose proof (next_range y r w Hr Er ltac:(lra)) as Rw. pose proof (next_range y r x Hr Er Hx) as Rx.
  pose proof (bond_le (next y w) (next y x) ltac:(lra) St ltac:(lra)) as L.
  apply Rmult_le_reg_r with (bond x' * / y'); [apply Rmult_lt_0_compat; [exact P' | apply Rinv_0_lt_compat; lra]|].
  replace (bond (next y' x') * y * (bond x' * / y')) with (bond (next y' x') * z) by (unfold z; field; lra).
  replace (bond (next y x) * y' * (bond x' * / y')) with (bond (next y x) * bond x') by (field; lra).
  assert (bond (next y w) * bond x' <= bond (next y x) * bond x') by (apply Rmult_le_compat_r; lra). lra.
Qed.

Lemma first_fraction : forall y y', 0 < y -> y < y' -> 1 + y' / 6 < lm -> bond (1 + y' / 6) * y <= bond (1 + y / 6) * y'.
Proof using Hm Em.
  intros y y' Hy H B. pose proof (bond_concave lm Hm Em) as (_ & _ & C).
  pose proof (C (1 + y / 6) (1 + y' / 6) ltac:(cbv beta; lra) ltac:(cbv beta; lra)) as C1.
  pose proof (C (1 + y / 6) 1 ltac:(cbv beta; lra) ltac:(cbv beta; lra)) as C2. rewrite bond_1 in C2.
  set (b := bond (1 + y / 6)) in *. set (d := bond1 (1 + y / 6)) in *. set (b' := bond (1 + y' / 6)) in *. clearbody b d b'.
  assert (b' <= b + d * ((y' - y) / 6)) by lra. assert (d * y <= 6 * b) by lra.
  assert (b' * y <= (b + d * ((y' - y) / 6)) * y) by (apply Rmult_le_compat_r; lra).
  assert (d * y * ((y' - y) / 6) <= 6 * b * ((y' - y) / 6)) by (apply Rmult_le_compat_r; lra). lra.
Qed.

(** ** The loop *)
Definition solve (y : R) (fuel : nat) (it : Z) (x rr : R) : R := fst (fst (math.newton_loop y bond bond1 (1 / 1000000) fuel it x rr)).

Lemma solve_S : forall y fuel it x rr, solve y (S fuel) it x rr = if Rlt_dec (1 / 1000000) rr then solve y fuel (it + 1) (next y x) (Rabs ((y - bond x) / y)) else x.
Proof.
  intros. unfold solve. cbn [math.newton_loop]. 
  change (slt (1 / 1000000) rr) with (if Rlt_dec (1 / 1000000) rr then true else false). destruct (Rlt_dec (1 / 1000000) rr); reflexivity.
Qed.

Lemma solve_ge : forall y r fuel it x rr, 1 <= r < lm -> bond r = y -> 1 <= x <= r -> x <= solve y fuel it x rr.
Proof using Hm Em.
  intros y r fuel. induction fuel as [| fuel IH]; intros it x rr Hr Er Hx; [unfold solve; simpl; lra|].
  rewrite solve_S. destruct (Rlt_dec (1 / 1000000) rr) as [L | L]; [|lra].
  pose proof (next_range y r x Hr Er Hx). pose proof (IH (it + 1)%Z (next y x) (Rabs ((y - bond x) / y)) Hr Er ltac:(lra)). lra.
Qed.

Lemma residual : forall y r x, 0 < y -> 1 <= r < lm -> bond r = y -> 1 <= x <= r -> Rabs ((y - bond x) / y) = 1 - bond x / y.
Proof using Hm Em.
  intros y r x Hy Hr Er Hx. pose proof (bond_le x r ltac:(lra) ltac:(lra) ltac:(lra)).
  rewrite Rabs_pos_eq; [field; lra|]. apply Rmult_le_pos; [lra | left; apply Rinv_0_lt_compat, Hy].
Qed.

Lemma lockstep : forall y y' r r' fuel it x x' rr rr', 0 < y -> y < y' -> 1 <= r < lm -> bond r = y -> 1 <= r' < lm -> bond r' = y' ->
  1 <= x <= r -> x < x' <= r' -> bond x' * y <= bond x * y' -> rr <= rr' ->
  solve y fuel it x rr < solve y' fuel it x' rr'.
Proof using Hm Em.
  intros y y' r r' fuel. induction fuel as [| fuel IH]; intros it x x' rr rr' Hy H Hr Er Hr' Er' Hx Hx' F Q; [unfold solve; simpl; lra|].
  rewrite !solve_S. destruct (Rlt_dec (1 / 1000000) rr) as [L | L].
  - destruct (Rlt_dec (1 / 1000000) rr') as [L' | L']; [|exfalso; lra].
    pose proof (next_range y r x Hr Er Hx). pose proof (next_range y' r' x' Hr' Er' ltac:(lra)).
    apply IH; try assumption.
    + lra.
    + split; [|lra]. apply Rlt_le_trans with (next y' x); [apply next_target; lra|]. apply (next_start y' r'); lra.
    + apply (next_fraction y y' r r'); try assumption; lra.
    + rewrite (residual y r x), (residual y' r' x') by (try assumption; lra).
      assert (bond x' / y' <= bond x / y); [|lra].
      apply Rmult_le_reg_r with (y * y'); [apply Rmult_lt_0_compat; lra|].
      replace (bond x' / y' * (y * y')) with (bond x' * y) by (field; lra). replace (bond x / y * (y * y')) with (bond x * y') by (field; lra). exact F.
  - destruct (Rlt_dec (1 / 1000000) rr') as [L' | L']; [|lra].
    pose proof (next_range y' r' x' Hr' Er' ltac:(lra)). pose proof (solve_ge y' r' fuel (it + 1)%Z (next y' x') (Rabs ((y' - bond x') / y')) Hr' Er' ltac:(lra)). lra.
Qed.

Lemma solve_mono : forall n y y', 0 < y -> y < y' -> y' < bond lm -> solve y (S n) 0 1 1 < solve y' (S n) 0 1 1.
Proof using Hm Em.
  intros n y y' Hy H Hb. destruct (root_exists lm Hm Em y ltac:(lra)) as (r & Hr & Er). destruct (root_exists lm Hm Em y' ltac:(lra)) as (r' & Hr' & Er').
  rewrite (solve_S y n), (solve_S y' n). destruct (Rlt_dec (1 / 1000000) 1) as [L | L]; [|exfalso; lra].
  assert (N : forall q, next q 1 = 1 + q / 6) by (intro q; unfold next; rewrite bond_1; unfold bond1; rewrite !pow1; field).
  pose proof (next_range y r 1 Hr Er ltac:(lra)) as R1. pose proof (next_range y' r' 1 Hr' Er' ltac:(lra)) as R2. rewrite N in R1. rewrite N in R2. rewrite !N. assert (y / 6 < y' / 6) by lra. assert (0 < y / 6) by lra.
  apply (lockstep y y' r r'); try assumption; [lra | apply first_fraction; lra|].
  rewrite bond_1, !Rminus_0_r. replace (y / y) with 1 by (field; lra). replace (y' / y') with 1 by (field; lra). lra.
Qed.

Lemma stretch_solve : forall k x, lj_stretch k x = solve (6 * x / k) (S (pred (Z.to_nat 100))) 0 1 1.
Proof.
  intros k x. rewrite Nat.succ_pred by (rewrite <- (Nat2Z.id 0); intro E; apply Z2Nat.inj in E; lia).
  unfold solve, lennard_jones_thermodynamics.nondimensional_link_stretch, math.inverse_newton_raphson. generalize (Z.to_nat 100). intro n. reflexivity.
Qed.

Lemma stretch_mono : forall k k' x x', 0 < k -> 0 < k' -> 0 < x -> x' < lj_bond_force k' lm -> x / k < x' / k' -> lj_stretch k x < lj_stretch k' x'.
Proof using Hm Em.
  intros k k' x x' Hk Hk' Hx B H.
  rewrite !stretch_solve. apply solve_mono.
  - apply Rdiv_lt_0_compat; lra.
  - replace (6 * x / k) with (6 * (x / k)) by (field; lra). replace (6 * x' / k') with (6 * (x' / k')) by (field; lra). lra.
  - change (lj_bond_force k' lm) with (k' / 6 * bond lm) in B. apply Rmult_lt_reg_r with k'; [exact Hk'|]. replace (6 * x' / k' * k') with (6 * x') by (field; lra). lra.
Qed.
End Max.

Lemma lennard_jones_shorter : shorter_with lennard_jones_bears lennard_jones /\ shorter_with lennard_jones_bears lennard_jones_reduced.
Proof.
  assert (S : forall k k' x, 0 < k -> k < k' -> 0 < x -> lennard_jones_bears k x -> lj_stretch k' x < lj_stretch k x).
  { intros k k' x Hk H Hx (lm & Hm & Em & B). pose proof (ratio_lt k k' x Hk H Hx). apply (stretch_mono lm Hm Em); lra. }
  split; intros k k' x Hk H Hx B; specialize (S k k' x Hk H Hx B).
  - change (stiff_length k' (2 / 23) x + lj_stretch k' x - 1 < stiff_length k (2 / 23) x + lj_stretch k x - 1).
    pose proof (stiff_le k k' (2 / 23) (2 / 23) x Hk H ltac:(lra) ltac:(lra) ltac:(lra) ltac:(lra)). lra.
  - change (fjc x + lj_stretch k' x - 1 < fjc x + lj_stretch k x - 1). lra.
Qed.
