(** The modified Bessel functions as solutions of their differential equation, and a
    Gronwall estimate for approximations of them at large arguments. *)
From Coq Require Import Reals ZArith Lra Lia Psatz.
From Coquelicot Require Import Coquelicot.
From Verif Require Import SpecBessel.
Open Scope R_scope.

(** ** I0 and I1 as power series in x^2/4 *)
Definition a0 (k : nat) : R := / (INR (fact k) * INR (fact k)).
Definition a1 (k : nat) : R := / (INR (fact k) * INR (fact (S k))).
Definition I0 (x : R) : R := PSeries a0 (x ^ 2 / 4).
Definition I1 (x : R) : R := x / 2 * PSeries a1 (x ^ 2 / 4).

Lemma fact_ne : forall k, INR (fact k) <> 0.
Proof. intro k; apply not_0_INR, fact_neq_0. Qed.

Lemma fact_S : forall k, INR (fact (S k)) = INR (S k) * INR (fact k).
Proof. intro k; rewrite <- mult_INR; reflexivity. Qed.

Lemma INR_S_ne : forall k, INR (S k) <> 0.
Proof. intro k; apply not_0_INR; lia. Qed.

Lemma ratio_limit : is_lim_seq (fun n => / (INR (S n))) 0.
Proof.
  apply (is_lim_seq_incr_1 (fun n => / INR n)).
  apply (is_lim_seq_inv (fun n => INR n) p_infty); [apply is_lim_seq_INR | discriminate].
Qed.

Lemma a0_radius : CV_radius a0 = p_infty.
Proof.
  apply CV_radius_infinite_DAlembert.
  - intro k; unfold a0; apply Rinv_neq_0_compat, Rmult_integral_contrapositive_currified; apply fact_ne.
  - apply (is_lim_seq_ext (fun n => / INR (S n) * / INR (S n))).
    + intro n; unfold a0; rewrite fact_S.
      pose proof (fact_ne n); pose proof (INR_S_ne n).
      rewrite Rabs_pos_eq; [field; split; assumption|].
      apply Rlt_le.
      pose proof (lt_O_fact n) as L; apply lt_INR in L; simpl in L.
      assert (0 < INR (S n)) by (apply lt_0_INR; lia).
      replace (/ (INR (S n) * INR (fact n) * (INR (S n) * INR (fact n))) / / (INR (fact n) * INR (fact n)))
        with (/ INR (S n) * / INR (S n)) by (field; split; assumption).
      apply Rmult_lt_0_compat; apply Rinv_0_lt_compat; assumption.
    + replace (Finite 0) with (Rbar_mult 0 0) by (simpl; f_equal; ring).
      apply (is_lim_seq_mult _ _ 0 0); [exact ratio_limit | exact ratio_limit | reflexivity].
Qed.

Lemma derive_a0 : forall k, PS_derive a0 k = a1 k.
Proof.
  intro k; unfold PS_derive, a0, a1; rewrite fact_S.
  pose proof (fact_ne k); pose proof (INR_S_ne k); field; split; assumption.
Qed.

Lemma a1_radius : CV_radius a1 = p_infty.
Proof.
  rewrite (CV_radius_ext a1 (PS_derive a0)) by (intro k; symmetry; apply derive_a0).
  rewrite CV_radius_derive; exact a0_radius.
Qed.

Lemma a0_derive : forall t, is_derive (PSeries a0) t (PSeries a1 t).
Proof.
  intro t; rewrite (PSeries_ext a1 (PS_derive a0)) by (intro k; symmetry; apply derive_a0).
  apply is_derive_PSeries; rewrite a0_radius; exact I.
Qed.

Lemma a1_derive : forall t, is_derive (PSeries a1) t (PSeries (PS_derive a1) t).
Proof. intro t; apply is_derive_PSeries; rewrite a1_radius; exact I. Qed.

Lemma a_relation : forall t, PSeries a0 t = PSeries a1 t + t * PSeries (PS_derive a1) t.
Proof.
  intro t.
  rewrite <- PSeries_incr_1.
  rewrite <- PSeries_plus.
  - apply PSeries_ext; intros [|k]; unfold PS_plus, PS_incr_1, PS_derive, a0, a1.
    + change (/ (1 * 1) = / (1 * 1) + 0); field.
    + change (/ (INR (fact (S k)) * INR (fact (S k)))
        = / (INR (fact (S k)) * INR (fact (S (S k)))) + INR (S k) * / (INR (fact (S k)) * INR (fact (S (S k))))).
      rewrite (fact_S (S k)), (S_INR (S k)).
      pose proof (fact_ne (S k)); assert (INR (S k) + 1 <> 0) by (rewrite <- S_INR; apply INR_S_ne).
      field; split; assumption.
  - apply CV_radius_inside; rewrite a1_radius; exact I.
  - apply CV_radius_inside; rewrite CV_radius_incr_1, CV_radius_derive, a1_radius; exact I.
Qed.

Lemma I0_derive : forall x, is_derive I0 x (I1 x).
Proof.
  intro x; unfold I0, I1.
  replace (x / 2 * PSeries a1 (x ^ 2 / 4)) with (scal (x / 2) (PSeries a1 (x ^ 2 / 4))) by reflexivity.
  apply (is_derive_comp (PSeries a0) (fun x => x ^ 2 / 4)); [apply a0_derive|].
  auto_derive; [exact I | field].
Qed.

Lemma I1_derive : forall x, x <> 0 -> is_derive I1 x (I0 x - I1 x / x).
Proof.
  intros x Hx; unfold I0, I1.
  replace (PSeries a0 (x ^ 2 / 4) - x / 2 * PSeries a1 (x ^ 2 / 4) / x)
    with (/ 2 * PSeries a1 (x ^ 2 / 4) + x / 2 * (x / 2 * PSeries (PS_derive a1) (x ^ 2 / 4))).
  2: { rewrite a_relation; field; exact Hx. }
  apply (is_derive_mult (fun x => x / 2) (fun x => PSeries a1 (x ^ 2 / 4)) x (/ 2) (x / 2 * PSeries (PS_derive a1) (x ^ 2 / 4))).
  - auto_derive; [exact I | field].
  - replace (x / 2 * PSeries (PS_derive a1) (x ^ 2 / 4)) with (scal (x / 2) (PSeries (PS_derive a1) (x ^ 2 / 4))) by reflexivity.
    apply (is_derive_comp (PSeries a1) (fun x => x ^ 2 / 4)); [apply a1_derive|].
    auto_derive; [exact I | field].
  - intros; apply Rmult_comm.
Qed.

Lemma I0_spec : forall x v, is_I0 x v <-> v = I0 x.
Proof.
  intros x v; unfold is_I0, I0, PSeries.
  assert (E : forall k, (x ^ 2 / 4) ^ k / (INR (fact k) * INR (fact k)) = a0 k * (x ^ 2 / 4) ^ k)
    by (intro k; unfold a0, Rdiv; ring).
  split; intro H.
  - rewrite <- (is_series_unique _ _ H); apply Series_ext; exact E.
  - subst v; apply (is_series_ext (fun k => a0 k * (x ^ 2 / 4) ^ k)); [intro k; symmetry; apply E|].
    apply Series_correct.
    apply (ex_series_ext (fun k => scal (pow_n (x ^ 2 / 4) k) (a0 k))).
    { intro k; rewrite pow_n_pow; unfold scal; simpl; unfold mult; simpl; ring. }
    apply CV_radius_inside; rewrite a0_radius; exact I.
Qed.

Lemma I1_spec : forall x v, is_I1 x v <-> v = I1 x.
Proof.
  intros x v; unfold is_I1, I1, PSeries.
  assert (E : forall k, (x ^ 2 / 4) ^ k / (INR (fact k) * INR (fact (S k))) = a1 k * (x ^ 2 / 4) ^ k)
    by (intro k; unfold a1, Rdiv; ring).
  split.
  - intros (s & H & ->); f_equal; rewrite <- (is_series_unique _ _ H); apply Series_ext; exact E.
  - intros ->; exists (Series (fun k => a1 k * (x ^ 2 / 4) ^ k)); split; [|reflexivity].
    apply (is_series_ext (fun k => a1 k * (x ^ 2 / 4) ^ k)); [intro k; symmetry; apply E|].
    apply Series_correct.
    apply (ex_series_ext (fun k => scal (pow_n (x ^ 2 / 4) k) (a1 k))).
    { intro k; rewrite pow_n_pow; unfold scal; simpl; unfold mult; simpl; ring. }
    apply CV_radius_inside; rewrite a1_radius; exact I.
Qed.

(** ** The scaled function v = sqrt x e^-x A(x) *)
Section Scaled.
Variables (A A1 : R -> R) (n2 : R).
Hypothesis HA : forall x, 0 < x -> is_derive A x (A1 x).
Hypothesis HA1 : forall x, 0 < x -> is_derive A1 x ((1 + n2 / x ^ 2) * A x - A1 x / x).

Definition weight (x : R) : R := sqrt x * exp (- x).
Definition scaled (x : R) : R := weight x * A x.
Definition scaled1 (x : R) : R := weight x * (A x * (/ (2 * x) - 1) + A1 x).

Lemma weight_derive : forall x, 0 < x -> is_derive weight x (weight x * (/ (2 * x) - 1)).
Proof.
  intros x Hx; unfold weight.
  pose proof (sqrt_lt_R0 x Hx) as Hs; pose proof (sqrt_sqrt x (Rlt_le _ _ Hx)) as Hq.
  auto_derive; [exact Hx|].
  replace (/ (2 * x)) with (/ (2 * (sqrt x * sqrt x))) by (rewrite Hq; reflexivity).
  field; lra.
Qed.

Lemma scaled_derive : forall x, 0 < x -> is_derive scaled x (scaled1 x).
Proof.
  intros x Hx; unfold scaled, scaled1.
  replace (weight x * (A x * (/ (2 * x) - 1) + A1 x))
    with (weight x * (/ (2 * x) - 1) * A x + weight x * A1 x) by ring.
  apply (is_derive_mult weight A x); [apply weight_derive; exact Hx | apply HA; exact Hx | intros; apply Rmult_comm].
Qed.

Lemma scaled1_derive : forall x, 0 < x ->
  is_derive scaled1 x ((n2 - / 4) * scaled x / x ^ 2 - 2 * scaled1 x).
Proof.
  intros x Hx.
  assert (Hb : is_derive (fun x => A x * (/ (2 * x) - 1) + A1 x) x
    (A1 x * (/ (2 * x) - 1) + A x * (- / (2 * x ^ 2)) + ((1 + n2 / x ^ 2) * A x - A1 x / x))).
  { apply (is_derive_plus (fun x => A x * (/ (2 * x) - 1)) A1 x).
    - apply (is_derive_mult A (fun x => / (2 * x) - 1) x); [apply HA; exact Hx | | intros; apply Rmult_comm].
      auto_derive; [lra | field; lra].
    - apply HA1; exact Hx. }
  assert (Hm := is_derive_mult weight _ x _ _ (weight_derive x Hx) Hb (fun n m => Rmult_comm n m)).
  unfold scaled1.
  match goal with |- is_derive _ _ ?r => match type of Hm with is_derive _ _ ?r' => replace r with r'; [exact Hm|] end end.
  unfold scaled, scaled1.
  change (weight x * (/ (2 * x) - 1) * (A x * (/ (2 * x) - 1) + A1 x)
    + weight x * (A1 x * (/ (2 * x) - 1) + A x * - / (2 * x ^ 2) + ((1 + n2 / x ^ 2) * A x - A1 x / x))
    = (n2 - / 4) * (weight x * A x) / x ^ 2 - 2 * (weight x * (A x * (/ (2 * x) - 1) + A1 x))).
  field; lra.
Qed.
End Scaled.

(** ** Gronwall *)

Lemma nonincreasing : forall (f f' : R -> R) a b, a <= b ->
  (forall x, a <= x <= b -> is_derive f x (f' x)) -> (forall x, a <= x <= b -> f' x <= 0) -> f b <= f a.
Proof.
  intros f f' a b Hab Hd Hn.
  destruct (Req_dec a b) as [->|Hne]; [right; reflexivity|].
  destruct (MVT_gen f a b f') as (c & Hc & E).
  - intros x Hx; apply Hd; rewrite Rmin_left, Rmax_right in Hx by lra; lra.
  - intros x Hx; rewrite Rmin_left, Rmax_right in Hx by lra.
    apply continuity_pt_filterlim, (ex_derive_continuous (V := R_NormedModule) f x); exists (f' x); apply Hd; exact Hx.
  - rewrite Rmin_left, Rmax_right in Hc by lra.
    pose proof (Hn c Hc) as N. nra.
Qed.

Section Gronwall.
Variables (e e1 r : R -> R) (c q x0 x1 E0 G0 : R).
Hypothesis Hx0 : 0 < x0.
Hypothesis He : forall x, x0 <= x <= x1 -> is_derive e x (e1 x).
Hypothesis He1 : forall x, x0 <= x <= x1 -> is_derive e1 x (r x + c * e x / x ^ 2 - 2 * e1 x).

Lemma flux_derive : forall x, x0 <= x <= x1 -> is_derive (fun x => e1 x + 2 * e x) x (r x + c * e x / x ^ 2).
Proof.
  intros x Hx.
  replace (r x + c * e x / x ^ 2) with (r x + c * e x / x ^ 2 - 2 * e1 x + 2 * e1 x) by ring.
  apply (is_derive_plus e1 (fun x => 2 * e x)); [apply He1; exact Hx|].
  apply (is_derive_scal e x 2); apply He; exact Hx.
Qed.

(** If the flux is at most [2 g] in the direction [s], so is the value. *)
Lemma value_bound : forall s X g, s * s = 1 -> x0 <= X <= x1 ->
  (forall x, x0 <= x <= X -> s * (e1 x + 2 * e x) <= 2 * g) -> s * e x0 <= g -> s * e X <= g.
Proof.
  intros s X g Hs HX HG H0.
  assert (N := nonincreasing (fun x => exp (2 * x) * (s * e x - g))
    (fun x => exp (2 * x) * (s * (e1 x + 2 * e x) - 2 * g)) x0 X (proj1 HX)).
  assert (exp (2 * X) * (s * e X - g) <= exp (2 * x0) * (s * e x0 - g)).
  { apply N.
    - intros x Hx.
      replace (exp (2 * x) * (s * (e1 x + 2 * e x) - 2 * g))
        with (2 * exp (2 * x) * (s * e x - g) + exp (2 * x) * (s * e1 x)) by ring.
      apply (is_derive_mult (fun x => exp (2 * x)) (fun x => s * e x - g) x).
      + auto_derive; [exact I | ring].
      + replace (s * e1 x) with (s * e1 x - 0) by ring.
        apply (is_derive_minus (fun x => s * e x) (fun _ => g) x (s * e1 x) 0).
        * apply (is_derive_scal e x s); apply He; lra.
        * apply (@is_derive_const R_AbsRing R_NormedModule).
      + intros; apply Rmult_comm.
    - intros x Hx; pose proof (exp_pos (2 * x)); pose proof (HG x Hx); nra. }
  pose proof (exp_pos (2 * X)); pose proof (exp_pos (2 * x0)).
  assert (exp (2 * x0) * (s * e x0 - g) <= 0) by nra.
  nra.
Qed.

Hypothesis Hr : forall x, x0 <= x <= x1 -> Rabs (r x) <= q / x ^ 2.
Hypothesis HE0 : Rabs (e x0) <= E0.
Hypothesis HG0 : Rabs (e1 x0 + 2 * e x0) <= G0.

Lemma flux_bound : forall X m, x0 <= X <= x1 -> (forall x, x0 <= x <= X -> Rabs (e x) <= m) ->
  Rabs (e1 X + 2 * e X) <= G0 + (q + Rabs c * m) / x0.
Proof.
  intros X m HX Hm.
  assert (Hm0 : 0 <= m) by (apply Rle_trans with (1 := Rabs_pos (e x0)); apply Hm; lra).
  assert (Hq : 0 <= q).
  { pose proof (Rabs_pos (r x0)); pose proof (Hr x0 ltac:(lra)) as Hr0.
    assert (0 <= q / x0 ^ 2) by lra.
    replace q with (q / x0 ^ 2 * x0 ^ 2) by (field; lra).
    apply Rmult_le_pos; [assumption | apply pow_le; lra]. }
  set (w := q + Rabs c * m).
  assert (Hw : 0 <= w) by (unfold w; pose proof (Rabs_pos c); nra).
  assert (S : forall s, s * s = 1 -> Rabs s = 1 -> s * (e1 X + 2 * e X) <= s * (e1 x0 + 2 * e x0) + w / x0 - w / X).
  { intros s Hs Ha.
    assert (N := nonincreasing (fun x => s * (e1 x + 2 * e x) + w / x)
      (fun x => s * (r x + c * e x / x ^ 2) - w / x ^ 2) x0 X (proj1 HX)).
    assert (s * (e1 X + 2 * e X) + w / X <= s * (e1 x0 + 2 * e x0) + w / x0); [|lra].
    apply N.
    - intros x Hx; apply (is_derive_plus (fun x => s * (e1 x + 2 * e x)) (fun x => w / x) x).
      + apply (is_derive_scal (fun x => e1 x + 2 * e x) x s), flux_derive; lra.
      + auto_derive; [lra | field; lra].
    - intros x Hx.
      assert (Hp : 0 < x ^ 2) by (apply pow_lt; lra).
      assert (B : Rabs (s * (r x + c * e x / x ^ 2)) <= w / x ^ 2).
      { rewrite Rabs_mult, Ha, Rmult_1_l.
        eapply Rle_trans; [apply Rabs_triang|].
        unfold w; replace ((q + Rabs c * m) / x ^ 2) with (q / x ^ 2 + Rabs c * m / x ^ 2) by (field; lra).
        apply Rplus_le_compat; [apply Hr; lra|].
        unfold Rdiv; rewrite !Rabs_mult, (Rabs_pos_eq (/ x ^ 2)) by (left; apply Rinv_0_lt_compat; exact Hp).
        apply Rmult_le_compat_r; [left; apply Rinv_0_lt_compat; exact Hp|].
        apply Rmult_le_compat_l; [apply Rabs_pos | apply Hm; exact Hx]. }
      pose proof (Rle_abs (s * (r x + c * e x / x ^ 2))); lra. }
  assert (0 <= w / X) by (apply Rmult_le_pos; [exact Hw | left; apply Rinv_0_lt_compat; lra]).
  pose proof (S 1 ltac:(ring) Rabs_R1) as S1.
  pose proof (S (-1) ltac:(ring) ltac:(rewrite Rabs_left; lra)) as S2.
  pose proof (Rle_abs (e1 x0 + 2 * e x0)) as A1.
  pose proof (Rle_abs (- (e1 x0 + 2 * e x0))) as A2; rewrite Rabs_Ropp in A2.
  apply Rabs_le; split; lra.
Qed.

Lemma gronwall : forall M, Rabs c < 2 * x0 -> E0 <= M -> G0 + (q + Rabs c * M) / x0 <= 2 * M ->
  forall X, x0 <= X <= x1 -> Rabs (e X) <= M /\ Rabs (e1 X + 2 * e X) <= G0 + (q + Rabs c * M) / x0.
Proof.
  intros M Hc HEM HGM.
  assert (V : forall X, x0 <= X <= x1 -> Rabs (e X) <= M).
  { intros X HX.
    destruct (continuity_ab_maj (fun x => Rabs (e x)) x0 X (proj1 HX)) as (y & Hy & Hyr).
    { intros x Hx; apply continuity_pt_comp with (f1 := e) (f2 := Rabs).
      - apply continuity_pt_filterlim, (ex_derive_continuous (V := R_NormedModule) e x); exists (e1 x); apply He; lra.
      - apply Rcontinuity_abs. }
    set (m := Rabs (e y)).
    apply Rle_trans with m; [apply Hy; lra|].
    destruct (Rle_dec m M) as [L|L]; [exact L|exfalso].
    apply Rnot_le_lt in L.
    set (g := (G0 + (q + Rabs c * m) / x0) / 2).
    assert (Gb : forall x, x0 <= x <= X -> Rabs (e1 x + 2 * e x) <= 2 * g).
    { intros x Hx; unfold g; replace (2 * ((G0 + (q + Rabs c * m) / x0) / 2)) with (G0 + (q + Rabs c * m) / x0) by (field; lra).
      apply flux_bound; [lra|]; intros z Hz; apply Hy; lra. }
    assert (B : Rabs (e y) <= Rmax M g).
    { pose proof (Rmax_l M g); pose proof (Rmax_r M g).
      pose proof (Rle_abs (e x0)); pose proof (Rle_abs (- e x0)) as A2; rewrite Rabs_Ropp in A2.
      apply Rabs_le; split.
      - assert (-1 * e y <= Rmax M g); [|lra].
        apply (value_bound (-1) y); [ring | lra | | lra].
        intros x Hx; pose proof (Gb x ltac:(lra)) as Gx.
        pose proof (Rle_abs (- (e1 x + 2 * e x))) as A3; rewrite Rabs_Ropp in A3; lra.
      - assert (1 * e y <= Rmax M g); [|lra].
        apply (value_bound 1 y); [ring | lra | | lra].
        intros x Hx; pose proof (Gb x ltac:(lra)) as Gx; pose proof (Rle_abs (e1 x + 2 * e x)); lra. }
    fold m in B.
    assert (m <= g) by (unfold Rmax in B; destruct (Rle_dec M g); lra).
    assert (g - (G0 + (q + Rabs c * M) / x0) / 2 = Rabs c * (m - M) / (2 * x0)) by (unfold g; field; lra).
    assert (Rabs c * (m - M) / (2 * x0) < m - M); [|lra].
    apply (Rmult_lt_reg_r (2 * x0)); [lra|].
    replace (Rabs c * (m - M) / (2 * x0) * (2 * x0)) with (Rabs c * (m - M)) by (field; lra).
    nra. }
  intros X HX; split; [apply V; exact HX|].
  apply flux_bound; [exact HX|]; intros x Hx; apply V; lra.
Qed.
End Gronwall.
