(** Stiffer links give shorter chains; wider wells give longer ones. *)
From Coq Require Import Reals ZArith List Lra Lia Psatz.
From Coquelicot Require Import Coquelicot.
From Verif Require Import Scalar MMath MConst MIdeal MFjc MEfjc MSwfjc MMorse MLennardJones MLogSquared.
From Verif Require Import SpecPartition SpecInverse SpecThermo SpecLinks SpecHooke SpecSofter PBase PHyp PLimits PNormalChain PStability PHooke PHookeStrong PHookeAsymptotic PLjStretch.
Open Scope R_scope.

Local Notation fjc := (@fjc_isotensional.nondimensional_end_to_end_length_per_link R R_scalar).
Local Notation morse := (@morse_isotensional_asymptotic.nondimensional_end_to_end_length_per_link R R_scalar).
Local Notation morse_reduced := (@morse_isotensional_asymptotic_reduced.nondimensional_end_to_end_length_per_link R R_scalar).
Local Notation lennard_jones := (@lennard_jones_isotensional_asymptotic.nondimensional_end_to_end_length_per_link R R_scalar).
Local Notation lennard_jones_reduced := (@lennard_jones_isotensional_asymptotic_reduced.nondimensional_end_to_end_length_per_link R R_scalar).
Local Notation efjc := (@efjc_isotensional_asymptotic.nondimensional_end_to_end_length_per_link R R_scalar).
Local Notation efjc_alternative := (@efjc_isotensional_asymptotic_alternative.nondimensional_end_to_end_length_per_link R R_scalar).
Local Notation efjc_reduced := (@efjc_isotensional_asymptotic_reduced.nondimensional_end_to_end_length_per_link R R_scalar).
Local Notation lj_stretch := (@lennard_jones_thermodynamics.nondimensional_link_stretch R R_scalar).
Local Notation swfjc := (@swfjc_isotensional.nondimensional_end_to_end_length_per_link R R_scalar).

Lemma ratio_lt : forall k k' x, 0 < k -> k < k' -> 0 < x -> 0 < x / k' < x / k.
Proof.
  intros k k' x Hk H Hx. split; [apply Rdiv_lt_0_compat; lra|]. apply Rmult_lt_compat_l; [exact Hx|].
  apply Rinv_lt_contravar; [apply Rmult_lt_0_compat; lra | exact H].
Qed.

(** The coupling of a stiff link. *)
Lemma coupling_pos : forall x, 0 < x -> 0 < tanh x - 1 / tanh x + 1 / x.
Proof.
  intros x Hx. pose proof (PHyp.sinh_pos x Hx) as S. pose proof (cosh_ge_1 x). pose proof (sinh_ge x ltac:(lra)). pose proof (cosh2 x) as E.
  assert (C : 1 < cosh x) by (assert (0 < sinh x * sinh x) by (apply Rmult_lt_0_compat; assumption); nra).
  assert (1 * sinh x < cosh x * sinh x) by (apply Rmult_lt_compat_r; assumption).
  replace (tanh x - 1 / tanh x + 1 / x) with ((cosh x * sinh x + x * (sinh x ^ 2 - cosh x ^ 2)) / (x * (cosh x * sinh x))) by (unfold tanh; field; repeat split; lra).
  replace (sinh x ^ 2 - cosh x ^ 2) with (-1) by lra.
  apply Rdiv_lt_0_compat; [nra|]. apply Rmult_lt_0_compat; [exact Hx|]. lra.
Qed.

(** The correction depends on the compliance y = x/k and the coefficient c through c/y only. *)
Lemma correction_le : forall m t c c' y y', 0 < m -> 0 < t -> 0 < c -> 0 < c' -> 0 < y' -> y' <= y -> c * y' <= c' * y ->
  y' * (m / (c' * t + y')) <= y * (m / (c * t + y)).
Proof.
  intros m t c c' y y' Hm Ht Hc Hc' Hy' Hy H. assert (A : 0 < c * t) by (apply Rmult_lt_0_compat; assumption).
  assert (B : 0 < c' * t) by (apply Rmult_lt_0_compat; assumption).
  apply Rmult_le_reg_r with ((c' * t + y') * (c * t + y)); [apply Rmult_lt_0_compat; lra|].
  replace (y' * (m / (c' * t + y')) * ((c' * t + y') * (c * t + y))) with (m * (y' * (c * t + y))) by (field; lra).
  replace (y * (m / (c * t + y)) * ((c' * t + y') * (c * t + y))) with (m * (y * (c' * t + y'))) by (field; lra).
  apply Rmult_le_compat_l; [lra|]. assert (t * (c * y') <= t * (c' * y)) by (apply Rmult_le_compat_l; lra). lra.
Qed.

Lemma stiff_le : forall k k' c c' x, 0 < k -> k < k' -> 0 < x -> 0 < c -> 0 < c' -> c * k <= c' * k' ->
  stiff_length k' c' x <= stiff_length k c x.
Proof.
  intros k k' c c' x Hk H Hx Hc Hc' E. unfold stiff_length. apply Rplus_le_compat_l.
  destruct (ratio_lt k k' x Hk H Hx). pose proof (PInverse.tanh_bounds x Hx).
  apply correction_le; try assumption; [apply coupling_pos, Hx | lra | lra |].
  apply Rmult_le_reg_r with (k * k' * / x); [apply Rmult_lt_0_compat; [apply Rmult_lt_0_compat; lra | apply Rinv_0_lt_compat, Hx]|].
  replace (c * (x / k') * (k * k' * / x)) with (c * k) by (field; lra).
  replace (c' * (x / k) * (k * k' * / x)) with (c' * k') by (field; lra). exact E.
Qed.

(** ** Springs *)
Lemma efjc_softer : shorter_with any_pull efjc.
Proof.
  intros k k' x Hk H Hx _.
  assert (E : forall k, efjc k x = stiff_length k 1 x + x / k).
  { intro q. change (efjc q x) with (1 / tanh x - 1 / x + x / q * (1 + (tanh x - 1 / tanh x + 1 / x) / (tanh x + x / q))).
    unfold stiff_length. rewrite Rmult_1_l. ring. }
  rewrite !E. pose proof (stiff_le k k' 1 1 x Hk H Hx ltac:(lra) ltac:(lra) ltac:(lra)). pose proof (ratio_lt k k' x Hk H Hx). lra.
Qed.

Lemma efjc_reduced_softer : shorter_with any_pull efjc_reduced.
Proof.
  intros k k' x Hk H Hx _. change (fjc x + x / k' < fjc x + x / k). pose proof (ratio_lt k k' x Hk H Hx). lra.
Qed.

Lemma efjc_alternative_softer : shorter_with any_pull efjc_alternative.
Proof.
  intros k k' x Hk H Hx _.
  change (fjc x + (x + 1 / tanh x - x / sinh x ^ 2) / k' < fjc x + (x + 1 / tanh x - x / sinh x ^ 2) / k).
  apply Rplus_lt_compat_l. apply ratio_lt; [exact Hk | exact H |].
  pose proof (PHyp.sinh_pos x Hx) as S. pose proof (PHyp.cosh_pos x) as C.
  pose proof (sinh_ge x ltac:(lra)). pose proof (cosh_ge_1 x).
  assert (0 < 1 / tanh x - x / sinh x ^ 2 \/ 0 <= 1 / tanh x - x / sinh x ^ 2) as [P | P]; [right | lra | lra].
  replace (1 / tanh x - x / sinh x ^ 2) with ((cosh x * sinh x - x) / sinh x ^ 2) by (unfold tanh; field; lra).
  apply Rmult_le_pos; [|left; apply Rinv_0_lt_compat, pow_lt, S]. assert (1 * sinh x <= cosh x * sinh x) by (apply Rmult_le_compat_r; lra). lra.
Qed.

(** ** Morse links *)

(** The stretch of a link of compliance 1/k, relative to that of a spring, grows with u = x / x_max. *)
Lemma relative_stretch : forall q q', 0 <= q' -> q' < q -> q < 1 ->
  ln (2 / (1 + q)) / (1 - q ^ 2) < ln (2 / (1 + q')) / (1 - q' ^ 2).
Proof.
  intros q q' H0 H H1.
  destruct (MVT_cor2 (fun q => ln (2 / (1 + q)) / (1 - q ^ 2)) (fun q => (- (1 - q) + 2 * q * ln (2 / (1 + q))) / (1 - q ^ 2) ^ 2) q' q H) as (c & E & Hc).
  { intros c Hc. apply is_derive_Reals. assert (0 < 1 - c ^ 2) by nra. assert (0 < 2 / (1 + c)) by (apply Rdiv_lt_0_compat; lra).
    auto_derive; [repeat split; try lra; apply Rgt_not_eq; nra|]. unfold Rdiv. field. split; [apply Rgt_not_eq; nra | lra]. }
  assert (L : ln (2 / (1 + c)) <= (1 - c) / (1 + c)).
  { replace ((1 - c) / (1 + c)) with (2 / (1 + c) - 1) by (field; lra). pose proof (exp_ineq1_le (ln (2 / (1 + c)))) as I. rewrite exp_ln in I by (apply Rdiv_lt_0_compat; lra). lra. }
  assert (N : - (1 - c) + 2 * c * ln (2 / (1 + c)) < 0).
  { assert (2 * c * ln (2 / (1 + c)) <= 2 * c * ((1 - c) / (1 + c))) by (apply Rmult_le_compat_l; lra).
    assert (2 * c * ((1 - c) / (1 + c)) < 1 - c).
    { apply Rmult_lt_reg_r with (1 + c); [lra|]. replace (2 * c * ((1 - c) / (1 + c)) * (1 + c)) with (2 * c * (1 - c)) by (field; lra). nra. }
    lra. }
  assert (0 < (1 - c ^ 2) ^ 2) by (apply pow_lt; nra).
  assert ((- (1 - c) + 2 * c * ln (2 / (1 + c))) / (1 - c ^ 2) ^ 2 < 0).
  { apply Rmult_lt_reg_r with ((1 - c ^ 2) ^ 2); [assumption|]. unfold Rdiv. rewrite Rmult_assoc, Rinv_l by lra. lra. }
  cbv beta in E. nra.
Qed.

Definition morse_stretch (a xm x : R) : R := ln (2 / (1 + sqrt (1 - x / xm))) / a.

Lemma root_of_load : forall xm x, 0 < x < xm -> let q := sqrt (1 - x / xm) in 0 < q < 1 /\ 1 - q ^ 2 = x / xm.
Proof.
  intros xm x Hx q. assert (B : 0 < x / xm < 1).
  { split; [apply Rdiv_lt_0_compat; lra|]. apply Rmult_lt_reg_r with xm; [lra|]. replace (x / xm * xm) with x by (field; lra). lra. }
  assert (Q : q ^ 2 = 1 - x / xm) by (unfold q; rewrite pow2_sqrt; lra). assert (0 < q) by (apply sqrt_lt_R0; lra).
  split; [|lra]. split; [assumption|]. nra.
Qed.

Lemma load_mono : forall xm xm' x, 0 < x < xm -> xm < xm' -> sqrt (1 - x / xm) < sqrt (1 - x / xm').
Proof.
  intros xm xm' x Hx H. pose proof (ratio_lt xm xm' x ltac:(lra) H ltac:(lra)). apply sqrt_lt_1_alt.
  assert (x / xm < 1) by (apply Rmult_lt_reg_r with xm; [lra|]; replace (x / xm * xm) with x by (field; lra); lra). lra.
Qed.

Lemma morse_stretch_stiffer : forall a a' xm xm' x, 0 < x < xm -> xm < xm' -> 0 < a -> a < a' -> morse_stretch a' xm' x < morse_stretch a xm x.
Proof.
  intros a a' xm xm' x Hx H Ha H'. destruct (root_of_load xm x Hx) as [Q _]. destruct (root_of_load xm' x ltac:(lra)) as [Q' _].
  pose proof (load_mono xm xm' x Hx H) as L. unfold morse_stretch. set (q := sqrt (1 - x / xm)) in *. set (q' := sqrt (1 - x / xm')) in *.
  assert (A : 0 < ln (2 / (1 + q'))) by (rewrite <- ln_1; apply ln_increasing; [lra|]; apply Rmult_lt_reg_r with (1 + q'); [lra|]; replace (2 / (1 + q') * (1 + q')) with 2 by (field; lra); lra).
  assert (B : ln (2 / (1 + q')) < ln (2 / (1 + q))) by (apply ln_increasing; [apply Rdiv_lt_0_compat; lra | apply (ratio_lt (1 + q) (1 + q') 2); lra]).
  apply Rlt_trans with (ln (2 / (1 + q')) / a); [apply ratio_lt; assumption|]. apply Rmult_lt_compat_r; [apply Rinv_0_lt_compat, Ha | exact B].
Qed.

Lemma morse_stretch_deeper : forall k a a' xm xm' x, 0 < k -> 0 < x < xm -> xm < xm' -> 0 < a -> 0 < a' -> 4 * xm * a = k -> 4 * xm' * a' = k ->
  morse_stretch a' xm' x < morse_stretch a xm x.
Proof.
  intros k a a' xm xm' x Hk Hx H Ha Ha' E E'.
  assert (F : forall a xm, 0 < a -> 0 < x < xm -> 4 * xm * a = k -> let q := sqrt (1 - x / xm) in morse_stretch a xm x = 4 * x / k * (ln (2 / (1 + q)) / (1 - q ^ 2))).
  { intros b ym Hb Hy Eb q. destruct (root_of_load ym x Hy) as [_ U]. fold q in U. unfold morse_stretch. fold q. rewrite U, <- Eb. field. repeat split; lra. }
  rewrite (F a xm), (F a' xm') by (try assumption; lra).
  apply Rmult_lt_compat_l; [apply Rdiv_lt_0_compat; lra|]. destruct (root_of_load xm x Hx) as [Q _]. destruct (root_of_load xm' x ltac:(lra)) as [Q' _].
  apply relative_stretch; [lra | apply load_mono; assumption | lra].
Qed.

Lemma morse_sum : forall k e x, 0 < k -> 0 < e ->
  morse k e x = stiff_length k (/ (1 + 3 / 2 * sqrt (k / e / 2))) x + morse_stretch (sqrt (k / e / 2)) (sqrt (e * k / 8)) x.
Proof.
  intros k e x Hk He. destruct (PConj.morse_constants k e Hk He) as (A & _).
  change (morse k e x) with (fjc x + x / k * ((tanh x - 1 / tanh x + 1 / x) / (tanh x / (1 + 15 / 10 * sqrt (k / e / 2)) + x / k)) + morse_stretch (sqrt (k / e / 2)) (sqrt (e * k / 8)) x).
  unfold stiff_length. rewrite fjc_eq. replace (15 / 10) with (3 / 2) by field. f_equal. f_equal. f_equal. f_equal. f_equal. field. lra.
Qed.

Lemma morse_reduced_sum : forall k e x, 0 < k -> 0 < e -> morse_reduced k e x = fjc x + morse_stretch (sqrt (k / e / 2)) (sqrt (e * k / 8)) x.
Proof.
  intros k e x Hk He. destruct (PConj.morse_constants k e Hk He) as (_ & _ & _ & S).
  change (morse_reduced k e x) with (fjc x + sqrt (2 * e / k) * ln (2 / (1 + sqrt (1 - x / sqrt (e * k / 8))))). rewrite S. unfold morse_stretch, Rdiv. ring.
Qed.

Lemma morse_parameters_stiffer : forall k k' e, 0 < k -> k < k' -> 0 < e ->
  sqrt (k / e / 2) < sqrt (k' / e / 2) /\ sqrt (e * k / 8) < sqrt (e * k' / 8).
Proof.
  intros k k' e Hk H He. assert (0 < / e) by (apply Rinv_0_lt_compat, He). split; apply sqrt_lt_1_alt; split.
  - apply Rmult_le_pos; [|lra]. apply Rmult_le_pos; lra.
  - apply Rmult_lt_compat_r; [lra|]. apply Rmult_lt_compat_r; assumption.
  - apply Rmult_le_pos; [|lra]. apply Rmult_le_pos; lra.
  - apply Rmult_lt_compat_r; [lra|]. apply Rmult_lt_compat_l; assumption.
Qed.

Lemma morse_parameters_deeper : forall k e e', 0 < k -> e < e' -> 0 < e ->
  sqrt (k / e' / 2) < sqrt (k / e / 2) /\ sqrt (e * k / 8) < sqrt (e' * k / 8).
Proof.
  intros k e e' Hk H He. pose proof (ratio_lt e e' k He H Hk). split; apply sqrt_lt_1_alt; split.
  - lra.
  - lra.
  - apply Rmult_le_pos; [|lra]. apply Rmult_le_pos; lra.
  - apply Rmult_lt_compat_r; [lra|]. apply Rmult_lt_compat_r; assumption.
Qed.

Lemma morse_softer : forall e, 0 < e -> shorter_with (fun k => morse_bears k e) (fun k => morse k e) /\ shorter_with (fun k => morse_bears k e) (fun k => morse_reduced k e).
Proof.
  intros e He. assert (P : forall k k' x, 0 < k -> k < k' -> 0 < x -> morse_bears k e x ->
    morse_stretch (sqrt (k' / e / 2)) (sqrt (e * k' / 8)) x < morse_stretch (sqrt (k / e / 2)) (sqrt (e * k / 8)) x).
  { intros k k' x Hk H Hx B. unfold morse_bears in B. rewrite (Rmult_comm k) in B. destruct (morse_parameters_stiffer k k' e Hk H He). destruct (PConj.morse_constants k e Hk He) as (A & _).
    apply morse_stretch_stiffer; lra. }
  split; intros k k' x Hk H Hx B; specialize (P k k' x Hk H Hx B).
  - rewrite !morse_sum by lra. destruct (morse_parameters_stiffer k k' e Hk H He) as [Ha _]. destruct (PConj.morse_constants k e Hk He) as (A & _).
    destruct (PConj.morse_constants k' e ltac:(lra) He) as (A' & _).
    enough (stiff_length k' (/ (1 + 3 / 2 * sqrt (k' / e / 2))) x <= stiff_length k (/ (1 + 3 / 2 * sqrt (k / e / 2))) x) by lra.
    apply stiff_le; try assumption; [apply Rinv_0_lt_compat; lra | apply Rinv_0_lt_compat; lra |].
    assert (S : forall k, 0 < k -> k = 2 * e * sqrt (k / e / 2) ^ 2).
    { intros q Hq. rewrite pow2_sqrt; [field; lra|]. apply Rmult_le_pos; [|lra]. apply Rmult_le_pos; [lra | left; apply Rinv_0_lt_compat, He]. }
    rewrite (S k) at 2 by exact Hk. rewrite (S k') at 2 by lra. set (a := sqrt (k / e / 2)) in *. set (a' := sqrt (k' / e / 2)) in *.
    apply Rmult_le_reg_r with ((1 + 3 / 2 * a) * (1 + 3 / 2 * a')); [apply Rmult_lt_0_compat; lra|].
    replace (/ (1 + 3 / 2 * a) * (2 * e * a ^ 2) * ((1 + 3 / 2 * a) * (1 + 3 / 2 * a'))) with (2 * e * (a ^ 2 * (1 + 3 / 2 * a'))) by (field; lra).
    replace (/ (1 + 3 / 2 * a') * (2 * e * a' ^ 2) * ((1 + 3 / 2 * a) * (1 + 3 / 2 * a'))) with (2 * e * (a' ^ 2 * (1 + 3 / 2 * a))) by (field; lra).
    apply Rmult_le_compat_l; [lra|]. clearbody a a'. assert (0 < a * a') by (apply Rmult_lt_0_compat; lra).
    assert (a ^ 2 < a' ^ 2) by nra. assert (a * a' * a <= a * a' * a') by (apply Rmult_le_compat_l; lra). nra.
  - rewrite !morse_reduced_sum by lra. lra.
Qed.

Lemma morse_deeper : forall k, 0 < k -> shorter_with (fun e => morse_bears k e) (morse k) /\ shorter_with (fun e => morse_bears k e) (morse_reduced k).
Proof.
  intros k Hk. assert (P : forall e e' x, 0 < e -> e < e' -> 0 < x -> morse_bears k e x ->
    morse_stretch (sqrt (k / e' / 2)) (sqrt (e' * k / 8)) x < morse_stretch (sqrt (k / e / 2)) (sqrt (e * k / 8)) x).
  { intros e e' x He H Hx B. unfold morse_bears in B. rewrite (Rmult_comm k) in B. destruct (morse_parameters_deeper k e e' Hk H He).
    destruct (PConj.morse_constants k e Hk He) as (A & _). destruct (PConj.morse_constants k e' Hk ltac:(lra)) as (A' & _).
    apply (morse_stretch_deeper k); try assumption; [lra | apply morse_product; assumption | apply morse_product; lra]. }
  split; intros e e' x He H Hx B; specialize (P e e' x He H Hx B).
  - rewrite !morse_sum by lra. destruct (morse_parameters_deeper k e e' Hk H He) as [Ha _].
    destruct (PConj.morse_constants k e Hk He) as (A & _). destruct (PConj.morse_constants k e' Hk ltac:(lra)) as (A' & _).
    enough (stiff_length k (/ (1 + 3 / 2 * sqrt (k / e' / 2))) x <= stiff_length k (/ (1 + 3 / 2 * sqrt (k / e / 2))) x) by lra.
    unfold stiff_length. apply Rplus_le_compat_l. assert (0 < x / k) by (apply Rdiv_lt_0_compat; lra).
    apply correction_le; [apply coupling_pos, Hx | apply PInverse.tanh_bounds, Hx | apply Rinv_0_lt_compat; lra | apply Rinv_0_lt_compat; lra | lra | lra |].
    apply Rmult_le_compat_r; [lra|]. apply Rinv_le_contravar; lra.
  - rewrite !morse_reduced_sum by lra. lra.
Qed.

(** ** Square wells *)
Lemma coth_increasing : forall u v, 0 < u -> u < v -> xch u * sinh v < xch v * sinh u.
Proof.
  intros u v Hu H. pose proof (PHyp.sinh_pos u Hu) as A. pose proof (PHyp.sinh_pos v ltac:(lra)) as B.
  destruct (MVT_cor2 (fun y => xch y / sinh y) (fun y => (cosh y * sinh y - y) / sinh y ^ 2) u v H) as (c & E & Hc).
  { intros c Hc. pose proof (PHyp.sinh_pos c ltac:(lra)). apply is_derive_Reals. unfold xch. auto_derive; [lra|].
    pose proof (cosh2 c) as S. 
    apply Rmult_eq_reg_r with (sinh c ^ 2); [|apply pow_nonzero; lra]. field_simplify; [|lra|lra]. nra. }
  pose proof (PHyp.sinh_pos c ltac:(lra)) as S. pose proof (cosh_ge_1 c). pose proof (sinh_ge c ltac:(lra)). pose proof (coupling_pos c ltac:(lra)).
  assert (P : 0 < (cosh c * sinh c - c) / sinh c ^ 2 * (v - u)).
  { apply Rmult_lt_0_compat; [|lra]. apply Rdiv_lt_0_compat; [|apply pow_lt, S].
    pose proof (cosh2 c) as Q. assert (C : 1 < cosh c) by (assert (0 < sinh c * sinh c) by (apply Rmult_lt_0_compat; assumption); nra).
    assert (1 * sinh c < cosh c * sinh c) by (apply Rmult_lt_compat_r; assumption). lra. }
  cbv beta in E. assert (L : xch u / sinh u < xch v / sinh v) by lra.
  apply Rmult_lt_reg_r with (/ (sinh u * sinh v)); [apply Rinv_0_lt_compat, Rmult_lt_0_compat; assumption|].
  replace (xch u * sinh v * / (sinh u * sinh v)) with (xch u / sinh u) by (field; lra).
  replace (xch v * sinh u * / (sinh u * sinh v)) with (xch v / sinh v) by (field; lra). exact L.
Qed.

Lemma mean_increases : forall t b t' b' q, 0 < b -> b < b' -> t < q * b -> q * (b' - b) < t' - t -> t / b < t' / b'.
Proof.
  intros t b t' b' q Hb H A B. apply Rmult_lt_reg_r with (b * b'); [apply Rmult_lt_0_compat; lra|].
  replace (t / b * (b * b')) with (t * b') by (field; lra). replace (t' / b' * (b * b')) with (t' * b) by (field; lra).
  assert (t * (b' - b) < q * b * (b' - b)) by (apply Rmult_lt_compat_r; lra).
  assert (q * (b' - b) * b < (t' - t) * b) by (apply Rmult_lt_compat_r; lra). nra.
Qed.

Lemma well_wider : forall x v v', 0 < x -> 1 < v -> v < v' ->
  let top s := s ^ 2 * sinh (x * s) - 3 * xch (x * s) / x ^ 2 in
  let bottom s := xch (x * s) / x ^ 2 in
  (top v - top 1) / (x * (bottom v - bottom 1)) < (top v' - top 1) / (x * (bottom v' - bottom 1)).
Proof.
  intros x v v' Hx Hv H top bottom.
  assert (DT : forall s, is_derive top s (s * xch (x * s))) by (intro s; unfold top, xch; auto_derive; [lra | field; lra]).
  assert (DB : forall s, is_derive bottom s (s * sinh (x * s))) by (intro s; unfold bottom, xch; auto_derive; [lra | field; lra]).
  set (q := xch (x * v) / sinh (x * v)). pose proof (PHyp.sinh_pos (x * v) ltac:(nra)) as S.
  assert (D : forall s, derivable_pt_lim (fun s => top s - q * bottom s) s (s * xch (x * s) - q * (s * sinh (x * s)))).
  { intro s. apply is_derive_Reals. apply (is_derive_minus (V := R_NormedModule) top (fun s => q * bottom s)); [apply DT|]. apply is_derive_scal, DB. }
  assert (B : forall a b, 0 < a -> a < b -> bottom a < bottom b).
  { intros a b Ha Hab. unfold bottom. apply Rmult_lt_compat_r; [apply Rinv_0_lt_compat, pow_lt, Hx | apply xch_increasing; nra]. }
  apply (mean_increases _ _ _ _ (q / x)).
  - apply Rmult_lt_0_compat; [exact Hx|]. specialize (B 1 v ltac:(lra) Hv). lra.
  - apply Rmult_lt_compat_l; [exact Hx|]. specialize (B v v' ltac:(lra) H). lra.
  - replace (q / x * (x * (bottom v - bottom 1))) with (q * (bottom v - bottom 1)) by (field; lra).
    destruct (MVT_cor2 (fun s => top s - q * bottom s) (fun s => s * xch (x * s) - q * (s * sinh (x * s))) 1 v Hv) as (c & E & Hc); [intros c _; apply D|].
    pose proof (coth_increasing (x * c) (x * v) ltac:(nra) ltac:(nra)) as I.
    assert (xch (x * c) < q * sinh (x * c)).
    { apply Rmult_lt_reg_r with (sinh (x * v)); [exact S|]. replace (q * sinh (x * c) * sinh (x * v)) with (xch (x * v) * sinh (x * c)) by (unfold q; field; lra). exact I. }
    assert (0 < c * (q * sinh (x * c) - xch (x * c)) * (v - 1)) by (apply Rmult_lt_0_compat; [apply Rmult_lt_0_compat; lra | lra]). cbv beta in E. lra.
  - replace (q / x * (x * (bottom v' - bottom 1) - x * (bottom v - bottom 1))) with (q * (bottom v' - bottom v)) by (field; lra).
    destruct (MVT_cor2 (fun s => top s - q * bottom s) (fun s => s * xch (x * s) - q * (s * sinh (x * s))) v v' H) as (c & E & Hc); [intros c _; apply D|].
    pose proof (coth_increasing (x * v) (x * c) ltac:(nra) ltac:(nra)) as I.
    assert (q * sinh (x * c) < xch (x * c)).
    { apply Rmult_lt_reg_r with (sinh (x * v)); [exact S|]. replace (q * sinh (x * c) * sinh (x * v)) with (xch (x * v) * sinh (x * c)) by (unfold q; field; lra). exact I. }
    assert (0 < c * (xch (x * c) - q * sinh (x * c)) * (v' - v)) by (apply Rmult_lt_0_compat; [apply Rmult_lt_0_compat; lra | lra]). cbv beta in E. lra.
Qed.

Lemma swfjc_wider : forall l, 0 < l -> longer_with (swfjc l).
Proof.
  intros l Hl w w' x Hw H Hx. rewrite !swfjc_form by lra. cbv zeta. assert (A : 0 < w / l) by (apply Rdiv_lt_0_compat; lra).
  assert (w / l < w' / l) by (apply Rmult_lt_compat_r; [apply Rinv_0_lt_compat, Hl | exact H]). apply well_wider; lra.
Qed.

(** The rigid chain is the limit of a vanishing well: every well makes the chain longer. *)
Lemma swfjc_above_fjc : forall l w x, 0 < l -> 0 < w -> 0 < x -> fjc x < swfjc l w x.
Proof.
  intros l w x Hl Hw Hx. rewrite swfjc_form by lra. cbv zeta. assert (A : 0 < w / l) by (apply Rdiv_lt_0_compat; lra). set (v := 1 + w / l). assert (Hv : 1 < v) by (unfold v; lra). clearbody v.
  set (top := fun s => s ^ 2 * sinh (x * s) - 3 * xch (x * s) / x ^ 2). set (bottom := fun s => xch (x * s) / x ^ 2).
  change (fjc x < (top v - top 1) / (x * (bottom v - bottom 1))).
  assert (DT : forall s, is_derive top s (s * xch (x * s))) by (intro s; unfold top, xch; auto_derive; [lra | field; lra]).
  assert (DB : forall s, is_derive bottom s (s * sinh (x * s))) by (intro s; unfold bottom, xch; auto_derive; [lra | field; lra]).
  set (q := xch x / sinh x). pose proof (PHyp.sinh_pos x Hx) as S.
  assert (F : fjc x = q / x) by (rewrite fjc_eq; unfold q, xch, tanh; pose proof (PHyp.cosh_pos x); field; repeat split; lra).
  assert (P : 0 < bottom v - bottom 1).
  { apply Rlt_Rminus. unfold bottom. apply Rmult_lt_compat_r; [apply Rinv_0_lt_compat, pow_lt, Hx | apply xch_increasing; nra]. }
  rewrite F. apply Rmult_lt_reg_r with (x * (bottom v - bottom 1)); [apply Rmult_lt_0_compat; assumption|].
  replace (q / x * (x * (bottom v - bottom 1))) with (q * (bottom v - bottom 1)) by (field; lra).
  replace ((top v - top 1) / (x * (bottom v - bottom 1)) * (x * (bottom v - bottom 1))) with (top v - top 1) by (field; lra).
  destruct (MVT_cor2 (fun s => top s - q * bottom s) (fun s => s * xch (x * s) - q * (s * sinh (x * s))) 1 v Hv) as (c & E & Hc).
  { intros s _. apply is_derive_Reals. apply (is_derive_minus (V := R_NormedModule) top (fun s => q * bottom s)); [apply DT|]. apply is_derive_scal, DB. }
  pose proof (coth_increasing x (x * c) Hx ltac:(nra)) as I.
  assert (q * sinh (x * c) < xch (x * c)).
  { apply Rmult_lt_reg_r with (sinh x); [exact S|]. replace (q * sinh (x * c) * sinh x) with (xch x * sinh (x * c)) by (unfold q; field; lra). exact I. }
  assert (0 < c * (xch (x * c) - q * sinh (x * c)) * (v - 1)) by (apply Rmult_lt_0_compat; [apply Rmult_lt_0_compat; lra | lra]). cbv beta in E. lra.
Qed.

(** ** The same for lengths, forces and stiffnesses with units *)
Lemma efjc_softer_units : forall N l T, (0 < N)%Z -> 0 < l -> 0 < T ->
  shorter_with any_pull (fun k f => efjc_isotensional_asymptotic.end_to_end_length N l k f T).
Proof.
  intros N l T HN Hl HT k k' f Hk H Hf _. pose proof kB_pos.
  change (l * (IZR N * efjc (k' * l ^ 2 / BOLTZMANN_CONSTANT / T) (f * l / BOLTZMANN_CONSTANT / T)) < l * (IZR N * efjc (k * l ^ 2 / BOLTZMANN_CONSTANT / T) (f * l / BOLTZMANN_CONSTANT / T))).
  rewrite B_eq.
  assert (0 < IZR N) by (apply IZR_lt, HN). assert (0 < l ^ 2 / kB / T) by (apply Rdiv_lt_0_compat; [apply Rdiv_lt_0_compat; [apply pow_lt|]|]; assumption).
  apply Rmult_lt_compat_l; [assumption|]. apply Rmult_lt_compat_l; [assumption|]. apply efjc_softer; [| | |exact I].
  - replace (k * l ^ 2 / kB / T) with (k * (l ^ 2 / kB / T)) by (field; lra). apply Rmult_lt_0_compat; assumption.
  - replace (k * l ^ 2 / kB / T) with (k * (l ^ 2 / kB / T)) by (field; lra). replace (k' * l ^ 2 / kB / T) with (k' * (l ^ 2 / kB / T)) by (field; lra).
    apply Rmult_lt_compat_r; assumption.
  - apply Rdiv_lt_0_compat; [apply Rdiv_lt_0_compat; [apply Rmult_lt_0_compat|]|]; assumption.
Qed.

Lemma swfjc_wider_units : forall N l T, (0 < N)%Z -> 0 < l -> 0 < T ->
  longer_with (fun w f => swfjc_isotensional.end_to_end_length N l w f T).
Proof.
  intros N l T HN Hl HT w w' f Hw H Hf. pose proof kB_pos.
  change (IZR N * l * swfjc l w (f * l / BOLTZMANN_CONSTANT / T) < IZR N * l * swfjc l w' (f * l / BOLTZMANN_CONSTANT / T)).
  rewrite B_eq. assert (0 < IZR N) by (apply IZR_lt, HN).
  apply Rmult_lt_compat_l; [apply Rmult_lt_0_compat; assumption|]. apply swfjc_wider; try assumption.
  apply Rdiv_lt_0_compat; [apply Rdiv_lt_0_compat; [apply Rmult_lt_0_compat|]|]; assumption.
Qed.
