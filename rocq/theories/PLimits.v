(** Limits and comparisons between the chain models. *)
From Coq Require Import Reals ZArith Lra Lia Psatz.
From Coquelicot Require Import Coquelicot.
From Verif Require Import Scalar MMath MConst MIdeal MFjc MSwfjc MEfjc MMorse MLennardJones MLogSquared.
From Verif Require Import SpecLangevin SpecLinks PBase PHyp PConj.
From Verif Require PLangevin PInverse PLjStretch PLambert.
Open Scope R_scope.

Local Notation fjc := (@fjc_isotensional.nondimensional_end_to_end_length_per_link R R_scalar).
Local Notation efjc := (@efjc_isotensional_asymptotic.nondimensional_end_to_end_length_per_link R R_scalar).
Local Notation efjc_alternative := (@efjc_isotensional_asymptotic_alternative.nondimensional_end_to_end_length_per_link R R_scalar).
Local Notation efjc_reduced := (@efjc_isotensional_asymptotic_reduced.nondimensional_end_to_end_length_per_link R R_scalar).
Local Notation swfjc := (@swfjc_isotensional.nondimensional_end_to_end_length_per_link R R_scalar).
Local Notation morse_reduced := (@morse_isotensional_asymptotic_reduced.nondimensional_end_to_end_length_per_link R R_scalar).
Local Notation ideal := (@ideal_isotensional.nondimensional_end_to_end_length_per_link R R_scalar).

Lemma fjc_eq : forall x, fjc x = 1 / tanh x - 1 / x.
Proof. reflexivity. Qed.
Lemma fjc_langevin : forall x, 0 < x -> fjc x = langevin x.
Proof.
  intros x Hx. rewrite fjc_eq. unfold langevin, tanh. pose proof (PHyp.sinh_pos x Hx). pose proof (PHyp.cosh_pos x). field. lra.
Qed.
Lemma ideal_eq : forall x, ideal x = x / 3.
Proof. reflexivity. Qed.
Lemma reduced_eq : forall k x, efjc_reduced k x = fjc x + x / k.
Proof. reflexivity. Qed.
Lemma alternative_eq : forall k x, efjc_alternative k x = fjc x + (x + 1 / tanh x - x / sinh x ^ 2) / k.
Proof. reflexivity. Qed.
Lemma full_eq : forall k x, efjc k x = fjc x + x / k * (1 + (tanh x - 1 / tanh x + 1 / x) / (tanh x + x / k)).
Proof. reflexivity. Qed.

(** ** Stiff links *)

Lemma lim_inv : forall (f : R -> R) (c : R), continuous f 0 -> f 0 = c -> is_lim (fun k => f (/ k)) p_infty c.
Proof.
  intros f c C E. apply (is_lim_comp f Rinv p_infty c 0).
  - rewrite <- E. apply is_lim_continuity. apply continuity_pt_filterlim. exact C.
  - replace (Finite 0) with (Rbar_inv p_infty) by reflexivity. apply is_lim_inv; [apply is_lim_id | discriminate].
  - exists 0. intros y Hy H. injection H. intro Z. apply (Rinv_neq_0_compat y); lra.
Qed.

Lemma reduced_limit : forall x, is_lim (fun k => efjc_reduced k x) p_infty (fjc x).
Proof.
  intro x. apply (lim_inv (fun h => fjc x + x * h)); [| ring].
  apply continuity_pt_filterlim. reg.
Qed.
Lemma alternative_limit : forall x, is_lim (fun k => efjc_alternative k x) p_infty (fjc x).
Proof.
  intro x. apply (lim_inv (fun h => fjc x + (x + 1 / tanh x - x / sinh x ^ 2) * h)); [| ring].
  apply continuity_pt_filterlim. reg.
Qed.
Lemma full_limit : forall x, 0 < x -> is_lim (fun k => efjc k x) p_infty (fjc x).
Proof.
  intros x Hx. pose proof (PInverse.tanh_bounds x Hx) as B.
  apply (lim_inv (fun h => fjc x + x * h * (1 + (tanh x - 1 / tanh x + 1 / x) / (tanh x + x * h)))); [| ring].
  apply (ex_derive_continuous (V := R_NormedModule)). auto_derive. lra.
Qed.

(** ** Longer than the freely jointed chain *)

Lemma sinh_cosh_gt : forall x, 0 < x -> x < sinh x * cosh x.
Proof.
  intros x Hx. pose proof (PLangevin.sinh_gt x Hx). pose proof (PLangevin.cosh_gt_1 x Hx). nra.
Qed.
Lemma alternative_correction : forall x, 0 < x -> x + 1 / tanh x - x / sinh x ^ 2 = 2 * x - fjc x - x * fjc x ^ 2.
Proof.
  intros x Hx. rewrite fjc_eq. pose proof (PInverse.tanh_bounds x Hx) as B.
  unfold Rdiv at 2. rewrite (PInverse.inv_sinh2 x) by lra. field. lra.
Qed.
Lemma fjc_bounds : forall x, 0 < x -> 0 < fjc x < x / 3 /\ fjc x < 1.
Proof.
  intros x Hx. rewrite fjc_langevin by exact Hx.
  pose proof (PLangevin.langevin_upper_3 x Hx). pose proof (PLangevin.langevin_lower_3 x Hx).
  pose proof (PLangevin.langevin_upper_1 x Hx).
  assert (0 < x / (3 + x)) by (apply Rdiv_lt_0_compat; lra).
  assert (x / (1 + x) < 1). { apply Rmult_lt_reg_r with (1 + x); [lra|]. unfold Rdiv. rewrite Rmult_assoc, Rinv_l; lra. }
  lra.
Qed.
Lemma fjc_tanh : forall x, 0 < x -> fjc x < tanh x.
Proof.
  intros x Hx. rewrite fjc_eq. unfold tanh. pose proof (PHyp.sinh_pos x Hx) as S. pose proof (PHyp.cosh_pos x) as C.
  pose proof (sinh_cosh_gt x Hx) as G. pose proof (PHyp.cosh2 x) as E.
  assert (Q : 1 / (sinh x * cosh x) < 1 / x).
  { unfold Rdiv. rewrite !Rmult_1_l. apply Rinv_lt_contravar; [| exact G]. apply Rmult_lt_0_compat; [exact Hx |]. apply Rmult_lt_0_compat; assumption. }
  assert (I : 1 / (sinh x / cosh x) - sinh x / cosh x = 1 / (sinh x * cosh x)).
  { replace (1 / (sinh x / cosh x) - sinh x / cosh x) with ((cosh x ^ 2 - sinh x ^ 2) / (sinh x * cosh x)) by (field; lra).
    rewrite E. field. lra. }
  lra.
Qed.

Lemma reduced_longer : forall k x, 0 < k -> 0 < x -> fjc x < efjc_reduced k x <= x / 3 + 2 * x / k.
Proof.
  intros k x Hk Hx. rewrite reduced_eq. pose proof (fjc_bounds x Hx). assert (0 < x / k) by (apply Rdiv_lt_0_compat; lra).
  replace (2 * x / k) with (2 * (x / k)) by (field; lra). lra.
Qed.
Lemma alternative_longer : forall k x, 0 < k -> 0 < x -> fjc x < efjc_alternative k x <= x / 3 + 2 * x / k.
Proof.
  intros k x Hk Hx. rewrite alternative_eq, alternative_correction by exact Hx.
  pose proof (fjc_bounds x Hx) as (B & B1). set (f := fjc x) in *. clearbody f.
  assert (F2 : 0 <= f ^ 2 <= 1) by nra.
  assert (F3 : 0 <= x * f ^ 2 <= x * 1) by (split; [apply Rmult_le_pos; lra | apply Rmult_le_compat_l; lra]).
  assert (P : 0 < 2 * x - f - x * f ^ 2) by lra.
  assert (P2 : 2 * x - f - x * f ^ 2 <= 2 * x) by lra.
  assert (0 < (2 * x - f - x * f ^ 2) / k) by (apply Rdiv_lt_0_compat; lra).
  assert ((2 * x - f - x * f ^ 2) / k <= 2 * x / k).
  { unfold Rdiv. apply Rmult_le_compat_r; [left; apply Rinv_0_lt_compat; exact Hk | exact P2]. }
  lra.
Qed.
Lemma full_longer : forall k x, 0 < k -> 0 < x -> fjc x < efjc k x <= x / 3 + 2 * x / k.
Proof.
  intros k x Hk Hx. rewrite full_eq. pose proof (fjc_bounds x Hx) as (B & B1). pose proof (fjc_tanh x Hx) as T.
  pose proof (PInverse.tanh_bounds x Hx) as Tb.
  assert (K : 0 < x / k) by (apply Rdiv_lt_0_compat; lra).
  replace (tanh x - 1 / tanh x + 1 / x) with (tanh x - fjc x) by (rewrite fjc_eq; ring).
  set (f := fjc x) in *. set (t := tanh x) in *. clearbody f t.
  assert (Q : 0 < (t - f) / (t + x / k) <= 1).
  { split; [apply Rdiv_lt_0_compat; lra |]. apply Rmult_le_reg_r with (t + x / k); [lra|]. unfold Rdiv at 1. rewrite Rmult_assoc, Rinv_l; lra. }
  set (q := (t - f) / (t + x / k)) in *. clearbody q. replace (2 * x / k) with (2 * (x / k)) by (field; lra).
  set (h := x / k) in *. clearbody h. nra.
Qed.
Lemma morse_longer : forall k e x, 0 < k -> 0 < e -> 0 < x < sqrt (e * k / 8) -> fjc x < morse_reduced k e x.
Proof.
  intros k e x Hk He Hx. set (m := sqrt (e * k / 8)) in *.
  change (fjc x < fjc x + sqrt (2 * e / k) * ln (2 / (1 + sqrt (1 - x / m)))).
  assert (0 < sqrt (2 * e / k)) by (apply sqrt_lt_R0, Rdiv_lt_0_compat; lra).
  assert (Q : 0 < x / m < 1).
  { split; [apply Rdiv_lt_0_compat; lra |]. apply Rmult_lt_reg_r with m; [lra|]. unfold Rdiv. rewrite Rmult_assoc, Rinv_l; lra. }
  assert (S : 0 <= sqrt (1 - x / m) < 1). { split; [apply sqrt_pos |]. rewrite <- sqrt_1 at 2. apply sqrt_lt_1; lra. }
  assert (0 < ln (2 / (1 + sqrt (1 - x / m)))).
  { rewrite <- ln_1. apply ln_increasing; [lra |]. apply Rmult_lt_reg_r with (1 + sqrt (1 - x / m)); [lra|].
    unfold Rdiv. rewrite Rmult_assoc, Rinv_l by lra. lra. }
  assert (0 < sqrt (2 * e / k) * ln (2 / (1 + sqrt (1 - x / m)))) by (apply Rmult_lt_0_compat; assumption). lra.
Qed.

(** ** Weak force *)

Lemma weak_force : forall x, 0 < x -> ideal x * (1 - x ^ 2 / 15) < fjc x < ideal x.
Proof.
  intros x Hx. rewrite fjc_langevin, ideal_eq by exact Hx. pose proof (PLangevin.langevin_upper_3 x Hx). pose proof (PLangevin.langevin_lower_5 x Hx).
  split; [| assumption]. replace (x / 3 * (1 - x ^ 2 / 15)) with (x / 3 - x ^ 3 / 45) by field. assumption.
Qed.
Lemma squeeze_right : forall (f lo hi : R -> R) (c : R), (forall x, 0 < x -> lo x <= f x <= hi x) ->
  continuous lo 0 -> continuous hi 0 -> lo 0 = c -> hi 0 = c -> filterlim f (at_right 0) (locally c).
Proof.
  intros f lo hi c H C1 C2 E1 E2. apply (filterlim_le_le lo f hi c).
  - exists (mkposreal 1 Rlt_0_1). intros y _ Hy. apply H. exact Hy.
  - simpl. rewrite <- E1. eapply filterlim_filter_le_1; [apply filter_le_within |]. exact C1.
  - simpl. rewrite <- E2. eapply filterlim_filter_le_1; [apply filter_le_within |]. exact C2.
Qed.
Lemma ratio_limit : filterlim (fun x => fjc x / ideal x) (at_right 0) (locally 1).
Proof.
  apply (squeeze_right _ (fun x => 1 - x ^ 2 / 15) (fun _ => 1)).
  - intros x Hx. pose proof (weak_force x Hx) as W. rewrite ideal_eq in *. 
    assert (P : 0 < x / 3) by lra. split.
    + apply Rmult_le_reg_r with (x / 3); [exact P|]. replace (fjc x / (x / 3) * (x / 3)) with (fjc x) by (field; lra). lra.
    + apply Rmult_le_reg_r with (x / 3); [exact P|]. replace (fjc x / (x / 3) * (x / 3)) with (fjc x) by (field; lra). lra.
  - apply (ex_derive_continuous (V := R_NormedModule)). auto_derive. exact I.
  - apply continuous_const.
  - field.
  - reflexivity.
Qed.
Lemma zero_limit : forall (f : R -> R) c, (forall x, 0 < x -> 0 <= f x <= c * x) -> filterlim f (at_right 0) (locally 0).
Proof.
  intros f c H. apply (squeeze_right f (fun _ => 0) (fun x => c * x)).
  - exact H.
  - apply continuous_const.
  - apply (ex_derive_continuous (V := R_NormedModule)). auto_derive. exact I.
  - reflexivity.
  - ring.
Qed.

(** ** Square well *)

Definition top (x v : R) : R := v ^ 2 * x * sinh (v * x) - x * sinh x.
Definition bottom (x v : R) : R := v * x * cosh (v * x) - sinh (v * x) - x * cosh x + sinh x.
Lemma swfjc_eq : forall l w x, swfjc l w x = top x (1 + w / l) / bottom x (1 + w / l) - 3 / x.
Proof. reflexivity. Qed.
Lemma top_derive : forall x v, is_derive (top x) v (2 * v * x * sinh (v * x) + v ^ 2 * x ^ 2 * cosh (v * x)).
Proof.
  intros x v. unfold top. auto_derive; [repeat split; first [exact I | apply ex_derive_sinh] |].
  rewrite ?Derive_sinh. ring_simplify.
  replace (Derive (fun x0 => sinh x0) (v * x)) with (cosh (v * x)) by (symmetry; apply Derive_sinh). ring.
Qed.
Lemma bottom_derive : forall x v, is_derive (bottom x) v (v * x ^ 2 * sinh (v * x)).
Proof.
  intros x v. unfold bottom. auto_derive; [repeat split; first [exact I | apply ex_derive_sinh | apply ex_derive_cosh] |].
  replace (Derive (fun x0 => sinh x0) (v * x)) with (cosh (v * x)) by (symmetry; apply Derive_sinh).
  replace (Derive (fun x0 => cosh x0) (v * x)) with (sinh (v * x)) by (symmetry; apply Derive_cosh). ring.
Qed.
Lemma top_1 : forall x, top x 1 = 0.
Proof. intro x. unfold top. rewrite Rmult_1_l. ring. Qed.
Lemma bottom_1 : forall x, bottom x 1 = 0.
Proof. intro x. unfold bottom. rewrite Rmult_1_l. ring. Qed.

Lemma quotient_limit : forall (f : R -> R) d, is_derive f 1 d -> f 1 = 0 -> is_lim (fun h => f (1 + h) / h) 0 d.
Proof.
  intros f d D E. apply is_lim_spec. intro eps. apply is_derive_Reals in D. destruct (D eps (cond_pos eps)) as (del & Hd).
  exists del. intros h Hh Hn. specialize (Hd h Hn). rewrite E, Rminus_0_r in Hd. apply Hd.
  change (Rabs (h - 0) < del) in Hh. rewrite Rminus_0_r in Hh. exact Hh.
Qed.
Lemma swfjc_limit : forall l x, 0 < l -> 0 < x -> is_lim (fun w => swfjc l w x) 0 (fjc x).
Proof.
  intros l x Hl Hx. pose proof (PHyp.sinh_pos x Hx) as S.
  pose proof (quotient_limit _ _ (top_derive x 1) (top_1 x)) as T.
  pose proof (quotient_limit _ _ (bottom_derive x 1) (bottom_1 x)) as B.
  replace (2 * 1 * x * sinh (1 * x) + 1 ^ 2 * x ^ 2 * cosh (1 * x)) with (2 * x * sinh x + x ^ 2 * cosh x) in T by (rewrite !Rmult_1_l; ring).
  replace (1 * x ^ 2 * sinh (1 * x)) with (x ^ 2 * sinh x) in B by (rewrite !Rmult_1_l; ring).
  assert (P : x ^ 2 * sinh x <> 0) by (assert (0 < x ^ 2 * sinh x) by (apply Rmult_lt_0_compat; [apply pow_lt |]; assumption); lra).
  assert (Q : is_lim (fun h => top x (1 + h) / h / (bottom x (1 + h) / h) - 3 / x) 0 (fjc x)).
  { replace (Finite (fjc x)) with (Rbar_plus (Rbar_div (Finite (2 * x * sinh x + x ^ 2 * cosh x)) (Finite (x ^ 2 * sinh x))) (Finite (- (3 / x)))).
    - eapply is_lim_plus; [apply is_lim_div; [exact T | exact B | | ] | apply is_lim_const | reflexivity].
      + intro H. injection H. exact P.
      + unfold ex_Rbar_mult, Rbar_inv. exact I.
    - change (Finite ((2 * x * sinh x + x ^ 2 * cosh x) * / (x ^ 2 * sinh x) + - (3 / x)) = Finite (fjc x)). apply f_equal. rewrite fjc_eq. unfold tanh. pose proof (PHyp.cosh_pos x). field. repeat split; lra. }
  assert (C : is_lim (fun w => w / l) 0 0).
  { replace (Finite 0) with (Finite (0 / l)) at 2 by (f_equal; field; lra). apply (is_lim_continuity (fun w => w / l)). reg. }
  pose proof (is_lim_comp _ (fun w => w / l) 0 (fjc x) 0 Q C) as L.
  eapply is_lim_ext_loc; [| apply L].
  - exists (mkposreal 1 Rlt_0_1). intros w _ Hw. rewrite swfjc_eq. f_equal.
    assert (H : w / l <> 0) by (apply Rmult_integral_contrapositive_currified; [exact Hw | apply Rinv_neq_0_compat; lra]).
    set (h := w / l) in *. clearbody h.
    destruct (Req_dec (bottom x (1 + h)) 0) as [Z | NZ].
    + rewrite Z. unfold Rdiv. rewrite Rmult_0_l, Rinv_0. ring.
    + field. split; assumption.
  - exists (mkposreal 1 Rlt_0_1). intros w _ Hw H. injection H. intro Z.
    apply Hw. apply (Rmult_eq_compat_r l) in Z. field_simplify in Z; [|lra]. lra.
Qed.

Lemma xcoth_increasing : forall a b, 0 < a < b -> a * cosh a * sinh b < b * cosh b * sinh a.
Proof.
  intros a b [Ha Hab]. pose proof (PHyp.sinh_pos a Ha) as Sa. pose proof (PHyp.sinh_pos b ltac:(lra)) as Sb.
  assert (D : forall x, 0 < x -> is_derive (fun x => x * cosh x / sinh x) x ((sinh x * cosh x - x) / sinh x ^ 2)).
  { intros x Hx. pose proof (PHyp.sinh_pos x Hx) as S. auto_derive; [repeat split; first [exact I | apply ex_derive_sinh | apply ex_derive_cosh | lra] |].
    replace (Derive (fun x0 => sinh x0) x) with (cosh x) by (symmetry; apply Derive_sinh).
    replace (Derive (fun x0 => cosh x0) x) with (sinh x) by (symmetry; apply Derive_cosh).
    replace (sinh x * cosh x - x) with (sinh x * cosh x - x * (cosh x ^ 2 - sinh x ^ 2)) by (rewrite PHyp.cosh2; ring).
    field. lra. }
  destruct (MVT_cor2 (fun x => x * cosh x / sinh x) (fun x => (sinh x * cosh x - x) / sinh x ^ 2) a b Hab) as (c & E & Hc).
  { intros c Hc. apply is_derive_Reals, D. lra. }
  assert (P : 0 < (sinh c * cosh c - c) / sinh c ^ 2).
  { apply Rdiv_lt_0_compat; [pose proof (sinh_cosh_gt c ltac:(lra)); lra | apply pow_lt, PHyp.sinh_pos; lra]. }
  assert (L : a * cosh a / sinh a < b * cosh b / sinh b) by nra.
  apply (Rmult_lt_compat_r (sinh a * sinh b)) in L; [| apply Rmult_lt_0_compat; assumption].
  replace (a * cosh a / sinh a * (sinh a * sinh b)) with (a * cosh a * sinh b) in L by (field; lra).
  replace (b * cosh b / sinh b * (sinh a * sinh b)) with (b * cosh b * sinh a) in L by (field; lra). exact L.
Qed.
Lemma swfjc_longer : forall l w x, 0 < l -> 0 < w -> 0 < x -> fjc x < swfjc l w x.
Proof.
  intros l w x Hl Hw Hx. rewrite swfjc_eq. assert (Hv : 1 < 1 + w / l) by (assert (0 < w / l) by (apply Rdiv_lt_0_compat; lra); lra).
  set (v := 1 + w / l) in *. clearbody v. pose proof (PHyp.sinh_pos x Hx) as S.
  assert (B : 0 < bottom x v).
  { destruct (MVT_cor2 (bottom x) (fun v => v * x ^ 2 * sinh (v * x)) 1 v Hv) as (c & E & Hc).
    { intros c _. apply is_derive_Reals, bottom_derive. }
    rewrite bottom_1, Rminus_0_r in E. rewrite E. apply Rmult_lt_0_compat; [| lra].
    apply Rmult_lt_0_compat; [apply Rmult_lt_0_compat; [lra | apply pow_lt; lra] | apply PHyp.sinh_pos; nra]. }
  set (c := x * cosh x / sinh x + 2).
  assert (P : 0 < top x v * x - c * bottom x v).
  { destruct (MVT_cor2 (fun v => top x v * x - c * bottom x v)
      (fun v => (2 * v * x * sinh (v * x) + v ^ 2 * x ^ 2 * cosh (v * x)) * x - c * (v * x ^ 2 * sinh (v * x))) 1 v Hv) as (z & E & Hz).
    { intros z _. apply is_derive_Reals. apply (is_derive_minus (fun v => top x v * x) (fun v => c * bottom x v)).
      - apply (is_derive_scal_l (V := R_NormedModule) (top x)). apply top_derive.
      - apply (is_derive_scal (bottom x)). apply bottom_derive. }
    rewrite top_1, bottom_1, Rmult_0_l, Rmult_0_r, !Rminus_0_r in E. rewrite E. apply Rmult_lt_0_compat; [| lra].
    pose proof (xcoth_increasing x (z * x) ltac:(nra)) as M.
    replace ((2 * z * x * sinh (z * x) + z ^ 2 * x ^ 2 * cosh (z * x)) * x - c * (z * x ^ 2 * sinh (z * x)))
      with (z * x ^ 2 / sinh x * (z * x * cosh (z * x) * sinh x - x * cosh x * sinh (z * x))) by (unfold c; field; lra).
    apply Rmult_lt_0_compat; [apply Rdiv_lt_0_compat; [apply Rmult_lt_0_compat; [lra | apply pow_lt; lra] | exact S] | lra]. }
  assert (F : fjc x = c / x - 3 / x). { rewrite fjc_eq. unfold c, tanh. pose proof (PHyp.cosh_pos x). field. repeat split; lra. }
  rewrite F. assert (Q : c / x < top x v / bottom x v); [| lra].
  apply Rmult_lt_reg_r with (x * bottom x v); [apply Rmult_lt_0_compat; assumption |].
  replace (c / x * (x * bottom x v)) with (c * bottom x v) by (field; lra).
  replace (top x v / bottom x v * (x * bottom x v)) with (top x v * x) by (field; lra). lra.
Qed.

(** ** Links that break *)

Local Notation morse := (@morse_isotensional_asymptotic.nondimensional_end_to_end_length_per_link R R_scalar).
Local Notation lennard_jones := (@lennard_jones_isotensional_asymptotic.nondimensional_end_to_end_length_per_link R R_scalar).
Local Notation lennard_jones_reduced := (@lennard_jones_isotensional_asymptotic_reduced.nondimensional_end_to_end_length_per_link R R_scalar).
Local Notation log_squared := (@log_squared_isotensional_asymptotic.nondimensional_end_to_end_length_per_link R R_scalar).
Local Notation log_squared_reduced := (@log_squared_isotensional_asymptotic_reduced.nondimensional_end_to_end_length_per_link R R_scalar).
Local Notation lj_stretch := (@lennard_jones_thermodynamics.nondimensional_link_stretch R R_scalar).

Lemma correction_pos : forall k c x, 0 < k -> 0 < c -> 0 < x ->
  0 < x / k * ((tanh x - 1 / tanh x + 1 / x) / (c * tanh x + x / k)).
Proof.
  intros k c x Hk Hc Hx. pose proof (fjc_tanh x Hx) as T. rewrite fjc_eq in T. pose proof (PInverse.tanh_bounds x Hx) as Tb.
  assert (K : 0 < x / k) by (apply Rdiv_lt_0_compat; lra).
  apply Rmult_lt_0_compat; [exact K |]. apply Rdiv_lt_0_compat; [lra |]. assert (0 < c * tanh x) by (apply Rmult_lt_0_compat; lra). lra.
Qed.
Lemma morse_full_longer : forall k e x, 0 < k -> 0 < e -> 0 < x < sqrt (e * k / 8) -> fjc x < morse k e x.
Proof.
  intros k e x Hk He Hx. pose proof (morse_longer k e x Hk He Hx) as M.
  destruct (PConj.morse_constants k e Hk He) as (A & _ & _ & S).
  set (a := sqrt (k / e / 2)) in *. set (m := sqrt (e * k / 8)) in *.
  assert (Hc : 0 < 1 / (1 + 15 / 10 * a)) by (apply Rdiv_lt_0_compat; lra).
  pose proof (correction_pos k (1 / (1 + 15 / 10 * a)) x Hk Hc (proj1 Hx)) as P. rewrite PInverse.tanh_c in P.
  change (fjc x < fjc x + x / k * ((tanh x - 1 / tanh x + 1 / x) / (tanh x / (1 + 15 / 10 * a) + x / k)) + ln (2 / (1 + sqrt (1 - x / m))) / a).
  change (morse_reduced k e x) with (fjc x + sqrt (2 * e / k) * ln (2 / (1 + sqrt (1 - x / m)))) in M.
  rewrite S in M. unfold Rdiv in M, P |- *. lra.
Qed.
Lemma lj_stretch_gt_1 : forall lm k x, 0 < lm -> lm ^ 6 = 13 / 7 -> 0 < k -> 0 < x < lj_bond_force k lm -> 1 < lj_stretch k x.
Proof.
  intros lm k x Hm Em Hk Hx. pose proof (PLjStretch.lj_stretch lm Hm Em k x Hk ltac:(lra)) as (A & B). cbv zeta in *.
  destruct (Req_dec (lj_stretch k x) 1) as [E | N]; [| lra]. exfalso. rewrite E in B.
  unfold lj_bond_force in B at 2. rewrite !pow1 in B. assert (k / 6 * (/ 1 - / 1) = 0) by ring.
  assert (0 < x * (1 - 1 / 10 ^ 6)) by (apply Rmult_lt_0_compat; lra). unfold lj_bond_force in B. rewrite !pow1 in B. lra.
Qed.
Lemma lj_longer : forall lm k x, 0 < lm -> lm ^ 6 = 13 / 7 -> 0 < k -> 0 < x < lj_bond_force k lm ->
  fjc x < lennard_jones k x /\ fjc x < lennard_jones_reduced k x.
Proof.
  intros lm k x Hm Em Hk Hx. pose proof (lj_stretch_gt_1 lm k x Hm Em Hk Hx) as G.
  pose proof (correction_pos k (2 / 23) x Hk ltac:(lra) (proj1 Hx)) as P. split.
  - change (fjc x < fjc x + x / k * ((tanh x - 1 / tanh x + 1 / x) / (2 / 23 * tanh x + x / k)) + lj_stretch k x - 1). lra.
  - change (fjc x < fjc x + lj_stretch k x - 1). lra.
Qed.
Lemma log_squared_longer : forall k x, 0 < k -> 0 < x < k / exp 1 -> fjc x < log_squared k x /\ fjc x < log_squared_reduced k x.
Proof.
  intros k x Hk Hx. pose proof (correction_pos k (4 / 10) x Hk ltac:(lra) (proj1 Hx)) as P.
  assert (Hz : - exp (-1) < - x / k < 0).
  { pose proof (exp_pos 1). replace (exp (-1)) with (/ exp 1) by (rewrite <- exp_Ropp; reflexivity).
    assert (0 < x / k) by (apply Rdiv_lt_0_compat; lra).
    assert (x / k < / exp 1). { apply Rmult_lt_reg_r with k; [exact Hk |]. replace (x / k * k) with x by (field; lra). lra. }
    replace (- x / k) with (- (x / k)) by (field; lra). lra. }
  set (z := - x / k) in *.
  destruct (PLambert.principal z (proj1 Hz)) as (W & (HW & EW) & _).
  pose proof (PLambert.lambert_bracket W HW (PLambert.guess_ok W)) as B. cbv zeta in B. rewrite EW in B.
  assert (W0 : W < 0). { destruct (Rlt_or_le W 0) as [L | L]; [exact L |]. exfalso. assert (0 <= W * exp W) by (apply Rmult_le_pos; [exact L | left; apply exp_pos]). lra. }
  assert (G0 : 75 / 100 * ln (z + 1) < 0).
  { assert (exp (-1) < 1) by (rewrite <- exp_0; apply exp_increasing; lra).
    assert (ln (z + 1) < ln 1) by (apply ln_increasing; lra). rewrite ln_1 in *. lra. }
  assert (L0 : math.lambert_w z < 0). { apply Rle_lt_trans with (1 := proj2 B). apply Rmax_lub_lt; assumption. }
  assert (G : 1 < 1 / exp (math.lambert_w z)).
  { unfold Rdiv. rewrite Rmult_1_l, <- exp_Ropp. rewrite <- exp_0. apply exp_increasing. lra. }
  split.
  - change (fjc x < fjc x + x / k * ((tanh x - 1 / tanh x + 1 / x) / (4 / 10 * tanh x + x / k)) + 1 / exp (math.lambert_w z) - 1). lra.
  - change (fjc x < fjc x + 1 / exp (math.lambert_w z) - 1). lra.
Qed.

(** ** Vanishing force *)
Lemma fjc_to_zero : filterlim fjc (at_right 0) (locally 0).
Proof. apply (zero_limit fjc (1 / 3)). intros x Hx. pose proof (fjc_bounds x Hx). lra. Qed.
Lemma ideal_zero : ideal 0 = 0.
Proof. rewrite ideal_eq. field. Qed.
Lemma efjc_to_zero : forall k, 0 < k ->
  filterlim (efjc k) (at_right 0) (locally 0) /\ filterlim (efjc_alternative k) (at_right 0) (locally 0) /\
  filterlim (efjc_reduced k) (at_right 0) (locally 0).
Proof.
  intros k Hk. assert (G : forall f : R -> R, (forall x, 0 < x -> fjc x < f x <= x / 3 + 2 * x / k) -> filterlim f (at_right 0) (locally 0)).
  { intros f H. apply (zero_limit f (1 / 3 + 2 / k)). intros x Hx. specialize (H x Hx). pose proof (fjc_bounds x Hx) as (B & _).
    split; [lra |]. replace ((1 / 3 + 2 / k) * x) with (x / 3 + 2 * x / k) by (field; lra). apply H. }
  repeat split; apply G; intros; [apply full_longer | apply alternative_longer | apply reduced_longer]; assumption.
Qed.
