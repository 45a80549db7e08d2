(** Pulling harder makes chains of links longer whose stretch an iteration finds. *)
From Coq Require Import Reals ZArith List Lra Lia Psatz.
From Coquelicot Require Import Coquelicot.
From Verif Require Import Scalar MMath MConst MFjc MLennardJones MLogSquared.
From Verif Require Import SpecThermo SpecChains SpecLinks SpecStability SpecSofter PBase PHyp PStability PConj PLjStretch PLambert PSofter PSofterLog PSofterLj PIdentLennardJones PIdentLogSquared.
Open Scope R_scope.

Local Notation fjc := (@fjc_isotensional.nondimensional_end_to_end_length_per_link R R_scalar).
Local Notation lennard_jones := (@lennard_jones_isotensional_asymptotic.nondimensional_end_to_end_length_per_link R R_scalar).
Local Notation lennard_jones_reduced := (@lennard_jones_isotensional_asymptotic_reduced.nondimensional_end_to_end_length_per_link R R_scalar).
Local Notation log_squared := (@log_squared_isotensional_asymptotic.nondimensional_end_to_end_length_per_link R R_scalar).
Local Notation log_squared_reduced := (@log_squared_isotensional_asymptotic_reduced.nondimensional_end_to_end_length_per_link R R_scalar).
Local Notation lj_stretch := (@lennard_jones_thermodynamics.nondimensional_link_stretch R R_scalar).

Lemma fjc_stable_pulling : positive_increasing_on pulling fjc.
Proof.
  pose proof (fjc_stable 1 1 1 1 ltac:(lia) ltac:(lra) ltac:(lra)) as (_ & _ & _ & H). exact H.
Qed.

Section Stretched.
Variables (kap c : R) (D : R -> Prop) (s : R -> R).
Hypothesis Hk : 0 < kap.
Hypothesis Hc : 0 < c.
Hypothesis HD : forall x, D x -> 0 < x.
Hypothesis Hs : forall x, D x -> 1 <= s x.
Hypothesis Mono : forall x y, D x -> D y -> x < y -> s x < s y.
Lemma stretched_stable : positive_increasing_on D (fun x => stiff_length kap c x + s x - 1).
Proof using Hk Hc HD Hs Mono.
  apply (stable_plus D (stiff_length kap c) (fun x => s x - 1)); [intros; ring | | |].
  - apply (stable_subset pulling); [exact HD | apply stiff_stable; assumption].
  - intros x Hx. specialize (Hs x Hx). lra.
  - intros x y Hx Hy H. specialize (Mono x y Hx Hy H). lra.
Qed.
Lemma stretched_reduced_stable : positive_increasing_on D (fun x => fjc x + s x - 1).
Proof using HD Hs Mono.
  apply (stable_plus D fjc (fun x => s x - 1)); [intros; ring | | |].
  - apply (stable_subset pulling); [exact HD | exact fjc_stable_pulling].
  - intros x Hx. specialize (Hs x Hx). lra.
  - intros x y Hx Hy H. specialize (Mono x y Hx Hy H). lra.
Qed.
End Stretched.

(** ** Lennard-Jones links *)
Definition lj_range (kap x : R) : Prop := 0 < x /\ lennard_jones_bears kap x.

Lemma lj_range_ge : forall kap x, 0 < kap -> lj_range kap x -> 1 <= lj_stretch kap x.
Proof. intros kap x Hk (Hx & lm & Hm & Em & B). destruct (PLjStretch.lj_stretch lm Hm Em kap x Hk ltac:(lra)) as [H _]. lra. Qed.
Lemma lj_range_mono : forall kap x y, 0 < kap -> lj_range kap x -> lj_range kap y -> x < y -> lj_stretch kap x < lj_stretch kap y.
Proof.
  intros kap x y Hk (Hx & _) (Hy & lm & Hm & Em & B) H. apply (stretch_mono lm Hm Em); try assumption.
  apply Rmult_lt_compat_r; [apply Rinv_0_lt_compat, Hk | exact H].
Qed.

Lemma lennard_jones_asymptotic_stable : forall N l m T k, (0 < N)%Z -> 0 < l -> 0 < T -> 0 < k ->
  isotensional_stable_on (lj_range (kappa k l T)) l T (C_lennard_jones_isotensional_asymptotic N l m T k) /\
  isotensional_stable_on (lj_range (kappa k l T)) l T (C_lennard_jones_isotensional_asymptotic_reduced N l m T k).
Proof.
  intros N l m T k HN Hl HT Hk. pose proof (kappa_pos k l T Hk Hl HT) as Kp.
  split; (apply (lift_stable _ (IZR N)); auto using NR, lennard_jones_isotensional_asymptotic_dimensionless, lennard_jones_isotensional_asymptotic_extensive, lennard_jones_isotensional_asymptotic_reduced_dimensionless, lennard_jones_isotensional_asymptotic_reduced_extensive).
  - change (positive_increasing_on (lj_range (kappa k l T)) (fun x => stiff_length (kappa k l T) (2 / 23) x + lj_stretch (kappa k l T) x - 1)).
    generalize dependent (kappa k l T). intros kap Kp. apply stretched_stable; [exact Kp | lra | intros x [Hx _]; exact Hx | intros; apply lj_range_ge; assumption | intros; apply lj_range_mono; assumption].
  - change (positive_increasing_on (lj_range (kappa k l T)) (fun x => fjc x + lj_stretch (kappa k l T) x - 1)).
    generalize dependent (kappa k l T). intros kap Kp. apply stretched_reduced_stable; [intros x [Hx _]; exact Hx | intros; apply lj_range_ge; assumption | intros; apply lj_range_mono; assumption].
Qed.

(** ** Log-squared links *)
Definition log_range (kap x : R) : Prop := 0 < x /\ log_squared_bears kap x.

Lemma log_load : forall kap x, 0 < kap -> log_range kap x -> 0 < x / kap < exp (-1).
Proof.
  intros kap x Hk [Hx B]. split; [apply Rdiv_lt_0_compat; assumption|]. apply Rmult_lt_reg_r with kap; [exact Hk|].
  replace (x / kap * kap) with x by (field; lra). unfold log_squared_bears in B. lra.
Qed.

Lemma lambert_0 : math.lambert_w 0 = 0.
Proof.
  rewrite lambert_R. assert (G : guess 0 = 0) by (unfold guess; change (75 / 100 * ln (0 + 1) = 0); rewrite Rplus_0_l, ln_1; ring). rewrite G.
  induction (Z.to_nat (math.lambert_iterations 0)) as [| n IH]; [reflexivity|].
  change (math.lambert_step 0 (Nat.iter n (math.lambert_step 0) 0) = 0). rewrite IH. rewrite step_R. unfold Rdiv. rewrite Rmult_0_l, Rminus_0_r, Rmult_0_l. ring.
Qed.

Lemma log_stretch_mono : forall kap x y, 0 < kap -> log_range kap y -> 0 <= x -> x < y ->
  1 / exp (math.lambert_w (- x / kap)) < 1 / exp (math.lambert_w (- y / kap)).
Proof.
  intros kap x y Hk Hy Hx H. pose proof (log_load kap y Hk Hy) as L.
  assert (x / kap < y / kap) by (apply Rmult_lt_compat_r; [apply Rinv_0_lt_compat, Hk | exact H]).
  assert (0 <= x / kap) by (apply Rmult_le_pos; [exact Hx | left; apply Rinv_0_lt_compat, Hk]).
  apply (ratio_lt _ _ 1 (exp_pos _)); [|lra]. apply exp_increasing.
  replace (- x / kap) with (- (x / kap)) by (field; lra). replace (- y / kap) with (- (y / kap)) by (field; lra). apply lambert_mono; lra.
Qed.

Lemma log_stretch_ge : forall kap x, 0 < kap -> log_range kap x -> 1 <= 1 / exp (math.lambert_w (- x / kap)).
Proof.
  intros kap x Hk Hx. pose proof (log_stretch_mono kap 0 x Hk Hx ltac:(lra) (proj1 Hx)) as M.
  replace (- 0 / kap) with 0 in M by (field; lra). rewrite lambert_0, exp_0 in M. lra.
Qed.

Lemma log_squared_asymptotic_stable : forall N l m T k, (0 < N)%Z -> 0 < l -> 0 < T -> 0 < k ->
  isotensional_stable_on (log_range (kappa k l T)) l T (C_log_squared_isotensional_asymptotic N l m T k) /\
  isotensional_stable_on (log_range (kappa k l T)) l T (C_log_squared_isotensional_asymptotic_reduced N l m T k).
Proof.
  intros N l m T k HN Hl HT Hk. pose proof (kappa_pos k l T Hk Hl HT) as Kp.
  split; (apply (lift_stable _ (IZR N)); auto using NR, log_squared_isotensional_asymptotic_dimensionless, log_squared_isotensional_asymptotic_extensive, log_squared_isotensional_asymptotic_reduced_dimensionless, log_squared_isotensional_asymptotic_reduced_extensive).
  - change (positive_increasing_on (log_range (kappa k l T)) (fun x => stiff_length (kappa k l T) (4 / 10) x + 1 / exp (math.lambert_w (- x / kappa k l T)) - 1)).
    generalize dependent (kappa k l T). intros kap Kp. apply (stretched_stable kap (4 / 10) _ (fun x => 1 / exp (math.lambert_w (- x / kap))));
      [exact Kp | lra | intros x [Hx _]; exact Hx | intros; apply log_stretch_ge; assumption | intros x y Hx Hy H; apply log_stretch_mono; [assumption | assumption | destruct Hx; lra | assumption]].
  - change (positive_increasing_on (log_range (kappa k l T)) (fun x => fjc x + 1 / exp (math.lambert_w (- x / kappa k l T)) - 1)).
    generalize dependent (kappa k l T). intros kap Kp. apply (stretched_reduced_stable _ (fun x => 1 / exp (math.lambert_w (- x / kap))));
      [intros x [Hx _]; exact Hx | intros; apply log_stretch_ge; assumption | intros x y Hx Hy H; apply log_stretch_mono; [assumption | assumption | destruct Hx; lra | assumption]].
Qed.
