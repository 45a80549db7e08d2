(** The relative free energies of the ideal chain and the FJC vanish at zero. *)
From Coq Require Import Reals ZArith Lra Lia.
From Coquelicot Require Import Coquelicot.
From Verif Require Import Scalar MMath MConst MIdeal MFjc SpecThermo SpecChains SpecReference SpecLangevin PBase PLangevin PIdentIdeal PIdentFjc.
Open Scope R_scope.

(** Bounded by a multiple of the argument near zero. *)
Definition small (f : R -> R) : Prop := exists C d, 0 < C /\ 0 < d /\ forall x, 0 < x < d -> Rabs (f x) <= C * x.

Lemma small_vanishes : forall f, small f -> vanishes_at_zero f.
Proof.
  intros f (C & d & HC & Hd & H). unfold vanishes_at_zero.
  apply filterlim_locally. intros eps.
  assert (P : 0 < Rmin d (eps / C)) by (apply Rmin_pos; [exact Hd | apply Rdiv_lt_0_compat; [apply cond_pos | exact HC]]).
  exists (mkposreal _ P). intros y Hy Hpos. cbn in Hy.
  unfold ball in *; cbn in *; unfold AbsRing_ball, abs, minus, plus, opp in *; cbn in *.
  replace (y + - 0) with y in Hy by ring. rewrite Rabs_pos_eq in Hy by lra.
  pose proof (Rmin_l d (eps / C)). pose proof (Rmin_r d (eps / C)).
  replace (f y + - 0) with (f y) by ring.
  apply Rle_lt_trans with (C * y); [apply H; lra|].
  replace (pos eps) with (C * (eps / C)) by (field; lra).
  apply Rmult_lt_compat_l; lra.
Qed.

Lemma small_scaled : forall (f g : R -> R) k c, 0 < c -> (forall x, f x = k * g (x * c)) -> small g -> small f.
Proof.
  intros f g k c Hc E (C & d & HC & Hd & H).
  exists ((Rabs k + 1) * C * c), (d / c). pose proof (Rabs_pos k).
  repeat split.
  - repeat apply Rmult_lt_0_compat; lra.
  - apply Rdiv_lt_0_compat; assumption.
  - intros x [Hx1 Hx2]. rewrite E, Rabs_mult.
    assert (Hxc : 0 < x * c < d).
    { split; [apply Rmult_lt_0_compat; assumption|].
      apply Rmult_lt_compat_r with (r := c) in Hx2; [|exact Hc]. unfold Rdiv in Hx2.
      rewrite Rmult_assoc, Rinv_l in Hx2 by lra. lra. }
    specialize (H _ Hxc).
    apply Rle_trans with (Rabs k * (C * (x * c))); [apply Rmult_le_compat_l; assumption|].
    assert (0 < C * (x * c)) by (apply Rmult_lt_0_compat; lra). nra.
Qed.

(** The total, dimensional and dimensional per-link functions follow from the nondimensional per-link one. *)
Lemma isotensional_small : forall N l T c, (0 < N)%Z -> 0 < l -> 0 < T ->
  isotensional_dimensionless l T c -> isotensional_extensive (IZR N) c -> small (I_nd_rel_gibbs_per_link c) ->
  isotensional_vanishing c.
Proof.
  intros N l T c HN Hl HT D X S. pose proof kB_pos as K.
  assert (Hc : 0 < l / (kB * T)) by (apply Rdiv_lt_0_compat; [assumption | apply Rmult_lt_0_compat; assumption]).
  assert (A : forall f, f * l / (kB * T) = f * (l / (kB * T))) by (intros; unfold Rdiv; ring).
  unfold isotensional_vanishing. repeat split; apply small_vanishes.
  - apply (small_scaled _ (I_nd_rel_gibbs_per_link c) (kB * T * IZR N) (l / (kB * T)) Hc); [|exact S].
    intros x. destruct (D x) as (_ & _ & _ & _ & D5 & _). rewrite A in D5. rewrite D5.
    destruct (X (x * (l / (kB * T)))) as (_ & _ & _ & _ & _ & X6). rewrite X6. ring.
  - apply (small_scaled _ (I_nd_rel_gibbs_per_link c) (kB * T) (l / (kB * T)) Hc); [|exact S].
    intros x. destruct (D x) as (_ & _ & _ & _ & _ & D6). rewrite A in D6. rewrite D6. ring.
  - apply (small_scaled _ (I_nd_rel_gibbs_per_link c) (IZR N) 1 ltac:(lra)); [|exact S].
    intros x. destruct (X x) as (_ & _ & _ & _ & _ & X6). rewrite X6. rewrite Rmult_1_r. reflexivity.
  - exact S.
Qed.

Lemma isotensional_helmholtz_small : forall N l T c, (0 < N)%Z -> 0 < l -> 0 < T ->
  isotensional_helmholtz_dimensionless l T c -> isotensional_helmholtz_extensive (IZR N) c ->
  small (IH_nd_rel_helmholtz_per_link c) ->
  isotensional_helmholtz_vanishing c.
Proof.
  intros N l T c HN Hl HT D X S. pose proof kB_pos as K.
  assert (Hc : 0 < l / (kB * T)) by (apply Rdiv_lt_0_compat; [assumption | apply Rmult_lt_0_compat; assumption]).
  assert (A : forall f, f * l / (kB * T) = f * (l / (kB * T))) by (intros; unfold Rdiv; ring).
  unfold isotensional_helmholtz_vanishing. repeat split; apply small_vanishes.
  - apply (small_scaled _ (IH_nd_rel_helmholtz_per_link c) (kB * T * IZR N) (l / (kB * T)) Hc); [|exact S].
    intros x. destruct (D x) as (_ & _ & D5 & _). rewrite A in D5. rewrite D5.
    destruct (X (x * (l / (kB * T)))) as (_ & _ & _ & X6). rewrite X6. ring.
  - apply (small_scaled _ (IH_nd_rel_helmholtz_per_link c) (kB * T) (l / (kB * T)) Hc); [|exact S].
    intros x. destruct (D x) as (_ & _ & _ & D6). rewrite A in D6. rewrite D6. ring.
  - apply (small_scaled _ (IH_nd_rel_helmholtz_per_link c) (IZR N) 1 ltac:(lra)); [|exact S].
    intros x. destruct (X x) as (_ & _ & _ & X6). rewrite X6. rewrite Rmult_1_r. reflexivity.
  - exact S.
Qed.

Lemma isometric_small : forall N l T c, (0 < N)%Z -> 0 < l -> 0 < T ->
  isometric_dimensionless (IZR N) l T c -> isometric_extensive (IZR N) c -> small (S_nd_rel_helmholtz_per_link c) ->
  isometric_vanishing c.
Proof.
  intros N l T c HN Hl HT D X S. assert (PN : 0 < IZR N) by (apply IZR_lt; lia).
  assert (Hc : 0 < / (IZR N * l)) by (apply Rinv_0_lt_compat, Rmult_lt_0_compat; assumption).
  unfold isometric_vanishing. repeat split; apply small_vanishes.
  - apply (small_scaled _ (S_nd_rel_helmholtz_per_link c) (kB * T * IZR N) (/ (IZR N * l)) Hc); [|exact S].
    intros x. destruct (D x) as (_ & _ & _ & D5 & _). rewrite D5.
    destruct (X (x / (IZR N * l))) as (_ & _ & _ & X6). rewrite X6. unfold Rdiv. ring.
  - apply (small_scaled _ (S_nd_rel_helmholtz_per_link c) (kB * T) (/ (IZR N * l)) Hc); [|exact S].
    intros x. destruct (D x) as (_ & _ & _ & _ & D6). rewrite D6. unfold Rdiv. ring.
  - apply (small_scaled _ (S_nd_rel_helmholtz_per_link c) (IZR N) 1 ltac:(lra)); [|exact S].
    intros x. destruct (X x) as (_ & _ & _ & X6). rewrite X6. rewrite Rmult_1_r. reflexivity.
  - exact S.
Qed.

Lemma ln_sinhc : forall x, 0 < x -> 0 <= ln (sinh x / x) <= x.
Proof.
  intros x Hx. pose proof (sinh_gt x Hx) as H1. pose proof (xcosh_gt x Hx) as H2.
  assert (E : cosh x <= exp x).
  { unfold cosh. assert (exp (- x) <= exp x) by (left; apply exp_increasing; lra). lra. }
  assert (L : 1 <= sinh x / x).
  { apply Rmult_le_reg_r with x; [assumption|]. unfold Rdiv. rewrite Rmult_assoc, Rinv_l by lra. lra. }
  split.
  - rewrite <- ln_1. destruct (Rle_lt_or_eq_dec _ _ L) as [Lt | Eq]; [left; apply ln_increasing; lra | rewrite <- Eq; lra].
  - rewrite <- (ln_exp x) at 3. left. apply ln_increasing; [lra|].
    apply Rlt_le_trans with (cosh x); [|exact E].
    apply Rmult_lt_reg_r with x; [assumption|]. unfold Rdiv. rewrite Rmult_assoc, Rinv_l by lra. lra.
Qed.

Lemma coth_langevin : forall x, 0 < x -> 0 <= x / tanh x - 1 <= x.
Proof.
  intros x Hx. pose proof (langevin_upper_1 x Hx) as U. pose proof (langevin_lower_3 x Hx) as L.
  assert (E : x / tanh x - 1 = x * langevin x).
  { unfold langevin, tanh. pose proof (sinh_gt x Hx); pose proof (cosh_pos x). field. repeat split; lra. }
  rewrite E.
  assert (0 < x / (3 + x)) by (apply Rdiv_lt_0_compat; lra).
  assert (x / (1 + x) < 1).
  { apply Rmult_lt_reg_r with (1 + x); [lra|]. unfold Rdiv. rewrite Rmult_assoc, Rinv_l by lra. lra. }
  split; [apply Rmult_le_pos; lra|]. apply Rle_trans with (x * 1); [apply Rmult_le_compat_l; lra | lra].
Qed.

Lemma ideal_isometric_small : forall N l m T, small (S_nd_rel_helmholtz_per_link (C_ideal_isometric N l m T)).
Proof.
  intros. exists 2, 1. repeat split; try lra. intros x Hx.
  change (Rabs (15 / 10 * x ^ 2) <= 2 * x). rewrite Rabs_pos_eq by nra. nra.
Qed.

Lemma ideal_isotensional_small : forall N l m T, small (I_nd_rel_gibbs_per_link (C_ideal_isotensional N l m T)).
Proof.
  intros. exists 2, 1. repeat split; try lra. intros x Hx.
  change (Rabs (- x ^ 2 / 6) <= 2 * x). replace (- x ^ 2 / 6) with (- (x ^ 2 / 6)) by field.
  rewrite Rabs_Ropp, Rabs_pos_eq by nra. nra.
Qed.

Lemma fjc_isotensional_small : forall N l m T, small (I_nd_rel_gibbs_per_link (C_fjc_isotensional N l m T)).
Proof.
  intros. exists 1, 1. repeat split; try lra. intros x Hx.
  change (Rabs (- ln (sinh x / x)) <= 1 * x). pose proof (ln_sinhc x ltac:(lra)).
  rewrite Rabs_Ropp, Rabs_pos_eq by lra. lra.
Qed.

Lemma fjc_isotensional_legendre_small : forall N l m T,
  small (IH_nd_rel_helmholtz_per_link (C_fjc_isotensional_legendre N l m T)).
Proof.
  intros. exists 1, 1. repeat split; try lra. intros x Hx.
  change (Rabs (x / tanh x - 1 - ln (sinh x / x)) <= 1 * x).
  pose proof (ln_sinhc x ltac:(lra)). pose proof (coth_langevin x ltac:(lra)).
  apply Rabs_le. lra.
Qed.

Lemma fjc_isometric_legendre_small : forall N l m T,
  small (S_nd_rel_helmholtz_per_link (C_fjc_isometric_legendre N l m T)).
Proof.
  intros. exists 3, (1 / 1000). repeat split; try lra. intros x Hx.
  assert (E : fjc_isometric_legendre.nondimensional_force x = 3 * x).
  { unfold fjc_isometric_legendre.nondimensional_force, math.inverse_langevin.
    change (x <=? sdec 1 3)%S with (Rleb x (1 / 1000)). unfold Rleb.
    destruct (Rle_dec x (1 / 1000)); [reflexivity | lra]. }
  change (Rabs (let y := fjc_isometric_legendre.nondimensional_force x in y * x - ln (sinh y / y)) <= 3 * x).
  rewrite E. cbv zeta. pose proof (ln_sinhc (3 * x) ltac:(lra)). apply Rabs_le. nra.
Qed.

Lemma ideal_vanishing : forall N l m T, (0 < N)%Z -> 0 < l -> 0 < T ->
  isometric_vanishing (C_ideal_isometric N l m T) /\ isotensional_vanishing (C_ideal_isotensional N l m T).
Proof.
  intros N l m T HN Hl HT. split.
  - apply (isometric_small N l T); try assumption.
    + apply ideal_isometric_dimensionless; assumption.
    + apply ideal_isometric_extensive; assumption.
    + apply ideal_isometric_small.
  - apply (isotensional_small N l T); try assumption.
    + apply ideal_isotensional_dimensionless; assumption.
    + apply ideal_isotensional_extensive; assumption.
    + apply ideal_isotensional_small.
Qed.

Lemma fjc_vanishing : forall N l m T, (0 < N)%Z -> 0 < l -> 0 < T ->
  isometric_vanishing (C_fjc_isometric_legendre N l m T) /\ isotensional_vanishing (C_fjc_isotensional N l m T) /\
  isotensional_helmholtz_vanishing (C_fjc_isotensional_legendre N l m T).
Proof.
  intros N l m T HN Hl HT. split; [|split].
  - apply (isometric_small N l T); try assumption.
    + apply fjc_isometric_legendre_dimensionless; assumption.
    + apply fjc_isometric_legendre_extensive; assumption.
    + apply fjc_isometric_legendre_small.
  - apply (isotensional_small N l T); try assumption.
    + apply fjc_isotensional_dimensionless; assumption.
    + apply fjc_isotensional_extensive; assumption.
    + apply fjc_isotensional_small.
  - apply (isotensional_helmholtz_small N l T); try assumption.
    + apply fjc_isotensional_legendre_dimensionless; assumption.
    + apply fjc_isotensional_legendre_extensive; assumption.
    + apply fjc_isotensional_legendre_small.
Qed.
