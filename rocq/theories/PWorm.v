(** The overflow-avoiding shift of the isotensional worm-like chain cancels. *)
From Coq Require Import Reals ZArith Lra Lia List Bool.
From Coquelicot Require Import Coquelicot.
From Verif Require Import Scalar MMath MConst MWlc SpecThermo SpecChains SpecPartition SpecWorm PBase PQuad PPartition2.
Import ListNotations.
Open Scope R_scope.

Definition wbase (z x : R) : R := wlc_isometric.nondimensional_helmholtz_free_energy 1 1 1 z x 300.
Definition whinge (z l m T : R) : R :=
  ln (4 * sin (acos (exp (- (1) / z))) * PI ^ 2 * m * l ^ 2 * BOLTZMANN_CONSTANT * T / PLANCK_CONSTANT ^ 2).

Lemma wlc_psi : forall N l m T z x,
  wlc_isometric.nondimensional_helmholtz_free_energy N l m z x T = wbase z x - (IZR N - 1) * whinge z l m T.
Proof.
  intros. unfold wbase, wlc_isometric.nondimensional_helmholtz_free_energy. cbv zeta.
  match goal with |- ssub ?A (smul _ (sln ?b)) = ssub ?A' (smul _ (sln ?b')) - _ =>
    change (A - (IZR N - Rdec 1 0) * whinge z l m T = A' - (IZR 1 - Rdec 1 0) * ln b' - (IZR N - 1) * whinge z l m T);
    set (q := A); set (w := ln b') end.
  change (Rdec 1 0) with 1. ring.
Qed.

Section Worm.
Variables (N : Z) (z : R).
Hypothesis HN : (0 < N)%Z.

(** Half the common factor of the integrands. *)
Definition wden (y : R) (g : R) : R := exp (- wbase z g) * (sinh (IZR N * y * g) * g / y).
Definition wnum (y : R) (g : R) : R :=
  exp (- wbase z g) * ((cosh (IZR N * y * g) * IZR N * g - sinh (IZR N * y * g) / y) * g / y).
Definition wint (f : R -> R) : R := math.integrate_1d f ZERO ONE POINTS.

Lemma N_pos : 0 < IZR N.
Proof. apply IZR_lt; lia. Qed.

Lemma range01 : (ZERO : R) < ONE.
Proof. rewrite Z_eq. change (ONE : R) with 1. assert (1 < 10 ^ 6) by (simpl; lra). apply Rlt_le_trans with (/ 1); [apply Rinv_lt_contravar; lra | rewrite Rinv_1; lra]. Qed.

Lemma zero_pos : 0 < (ZERO : R).
Proof. rewrite Z_eq. apply Rinv_0_lt_compat. simpl; lra. Qed.

Lemma wden_pos : forall y, 0 < y -> 0 < wint (wden y).
Proof.
  intros y Hy. apply integrate_1d_pos; [reflexivity | apply range01|].
  intros x Hx. pose proof zero_pos. unfold wden. pose proof N_pos.
  assert (0 < x) by lra.
  apply Rmult_lt_0_compat; [apply exp_pos|]. apply Rdiv_lt_0_compat; [|assumption].
  apply Rmult_lt_0_compat; [|assumption].
  rewrite <- sinh_0. apply sinh_lt. repeat apply Rmult_lt_0_compat; assumption.
Qed.

Lemma wden_derive : forall y, 0 < y -> is_derive (fun y => wint (wden y)) y (wint (wnum y)).
Proof.
  intros y Hy.
  apply (is_derive_integrate_1d (fun t y => wden y t) (fun t y => wnum y t)); [reflexivity | apply range01|].
  intros t Ht. unfold wden, wnum. set (e := exp (- wbase z t)).
  auto_derive; [lra|].
  replace ((exp (IZR N * y * t) + exp (- (IZR N * y * t))) * / 2) with (cosh (IZR N * y * t)) by (unfold cosh; lra).
  field. lra.
Qed.

(** The denominator and numerator of the extension with shift [s]. *)
Lemma shift_exp : forall a s d, exp (a - s - d) = exp (- s) * (exp (- d) * exp a).
Proof. intros. rewrite <- !exp_plus. f_equal. ring. Qed.

Lemma wlc_length : forall eta x, 0 < eta ->
  wlc_isotensional.nondimensional_end_to_end_length N z eta = Some x ->
  x = wint (wnum eta) / wint (wden eta).
Proof.
  intros eta x He. unfold wlc_isotensional.nondimensional_end_to_end_length. cbv zeta.
  match goal with |- context [math.inverse_newton_raphson_powered ?a ?b ?c ?d ?e ?f ?g] =>
    set (gh := math.inverse_newton_raphson_powered a b c d e f g) end.
  destruct (negb _); [discriminate|].
  match goal with |- Some (sdiv (math.integrate_1d ?n _ _ _) (math.integrate_1d ?d _ _ _)) = _ -> _ =>
    set (num := n); set (den := d) end.
  change (Some (wint num / wint den) = Some x -> x = wint (wnum eta) / wint (wden eta)).
  intros E. injection E as <-.
  set (s := (IZR N * eta * gh - wlc_isometric.nondimensional_relative_helmholtz_free_energy z gh)).
  set (c := wbase z ZERO).
  assert (R1 : forall g, wlc_isometric.nondimensional_relative_helmholtz_free_energy z g = wbase z g - c).
  { intros g. unfold wlc_isometric.nondimensional_relative_helmholtz_free_energy.
    change (wlc_isometric.nondimensional_helmholtz_free_energy 8 1 1 z g 300 -
      wlc_isometric.nondimensional_helmholtz_free_energy 8 1 1 z ZERO 300 = wbase z g - c).
    rewrite !wlc_psi. unfold c. ring. }
  set (K := 2 * exp (- s) * exp c).
  assert (HK : K <> 0) by (unfold K; apply Rgt_not_eq; pose proof (exp_pos (- s)); pose proof (exp_pos c);
    apply Rmult_lt_0_compat; [lra | assumption]).
  assert (Ed : wint den = wint (wden eta) * K).
  { unfold wint. rewrite <- integrate_1d_scal. f_equal.
    apply FunctionalExtensionality.functional_extensionality. intros g. unfold den.
    change ((exp (IZR N * eta * g - s - wlc_isometric.nondimensional_relative_helmholtz_free_energy z g) -
      exp (- (IZR N * eta * g) - s - wlc_isometric.nondimensional_relative_helmholtz_free_energy z g)) * g / eta = wden eta g * K).
    rewrite !shift_exp, R1. replace (- (wbase z g - c)) with (- wbase z g + c) by ring. rewrite exp_plus.
    unfold wden, K, sinh. field. lra. }
  assert (En : wint num = wint (wnum eta) * K).
  { unfold wint. rewrite <- integrate_1d_scal. f_equal.
    apply FunctionalExtensionality.functional_extensionality. intros g. unfold num.
    set (p := wlc_isometric.nondimensional_relative_helmholtz_free_energy z g).
    change (((exp (IZR N * eta * g - s - p) + exp (- (IZR N * eta * g) - s - p)) * IZR N * g -
      (exp (IZR N * eta * g - s - p) - exp (- (IZR N * eta * g) - s - p)) / eta) * g / eta = wnum eta g * K).
    unfold p. rewrite !shift_exp, R1. replace (- (wbase z g - c)) with (- wbase z g + c) by ring. rewrite exp_plus.
    unfold wnum, K, sinh, cosh. field. lra. }
  rewrite Ed, En. pose proof (wden_pos eta He). field. split; [lra | exact HK].
Qed.

Variables (l m T : R).
Let H := whinge z l m T.

Lemma worm_partition_wint : forall y, 0 < y ->
  worm_partition N l m T z y = 4 * PI * (wint (wden y) * (IZR N * exp ((IZR N - 1) * H))).
Proof.
  intros y Hy. unfold worm_partition. f_equal.
  rewrite <- integrate_midpoint by lia.
  unfold wint. rewrite <- integrate_1d_scal. rewrite Z_eq. change (ONE : R) with 1. change POINTS with (Z.of_nat 64).
  f_equal. apply FunctionalExtensionality.functional_extensionality. intros g.
  rewrite wlc_psi. fold H. replace (- (wbase z g - (IZR N - 1) * H)) with (- wbase z g + (IZR N - 1) * H) by ring.
  rewrite exp_plus. unfold wden. field. lra.
Qed.

Lemma hinge_H : ln (4 * sin (acos (exp (- 1 / z))) * PI ^ 2 * m * l ^ 2 * kB * T / hP ^ 2) = H.
Proof. unfold H, whinge. rewrite B_eq, H_eq. reflexivity. Qed.

Lemma worm_gibbs_derive : forall y, 0 < y -> is_derive (worm_gibbs N l m T z) y (- (wint (wnum y) / wint (wden y))).
Proof.
  intros y Hy. pose proof (wden_pos y Hy) as P. pose proof N_pos. pose proof PI_RGT_0.
  pose proof (exp_pos ((IZR N - 1) * H)).
  set (k := IZR N * exp ((IZR N - 1) * H)) in *. assert (Pk : 0 < k) by (apply Rmult_lt_0_compat; assumption).
  apply (is_derive_ext_loc (fun y => - ln (4 * PI * (wint (wden y) * k)) - H)).
  - assert (L : locally y (fun t => 0 < t)) by (apply (open_gt 0); exact Hy).
    revert L. apply filter_imp. intros t Ht.
    unfold worm_gibbs. rewrite hinge_H, (worm_partition_wint t Ht). reflexivity.
  - pose proof (wden_derive y Hy) as D.
    evar_last.
    + apply (is_derive_minus (V := R_NormedModule) (fun y => - ln (4 * PI * (wint (wden y) * k))) (fun _ => H)).
      * apply (is_derive_opp (V := R_NormedModule) (fun y => ln (4 * PI * (wint (wden y) * k)))).
        apply (is_derive_comp (K := R_AbsRing) (V := R_NormedModule) ln (fun y => 4 * PI * (wint (wden y) * k))).
        { apply is_derive_Reals, derivable_pt_lim_ln. apply Rmult_lt_0_compat; [lra|]. apply Rmult_lt_0_compat; assumption. }
        { apply (is_derive_ext (fun y => (4 * PI * k) * wint (wden y))); [intros t; cbn; ring|].
          apply (is_derive_scal (fun y => wint (wden y))). exact D. }
      * apply is_derive_const.
    + clear D. revert P. generalize (wint (wden y)) (wint (wnum y)). intros d n P. unfold minus, plus, opp, zero, scal; cbn. unfold mult; cbn. field. repeat split; apply Rgt_not_eq; assumption.
Qed.

Lemma wlc_gibbs_value : forall eta g, 0 < eta <= 100 ->
  wlc_isotensional.nondimensional_gibbs_free_energy N l m z eta T = Some g ->
  g = worm_gibbs N l m T z eta.
Proof.
  intros eta g [He Hh]. unfold wlc_isotensional.nondimensional_gibbs_free_energy. cbv zeta.
  match goal with |- context [math.inverse_newton_raphson_powered ?a ?b ?c ?d ?e ?f ?g] =>
    set (gh := math.inverse_newton_raphson_powered a b c d e f g) end.
  destruct (negb _); [discriminate|].
  assert (Hc : (@sdec R R_scalar 100 0 <? eta)%S = false).
  { change (Rltb 100 eta = false). unfold Rltb. destruct (Rlt_dec 100 eta); [lra | reflexivity]. }
  rewrite Hc.
  match goal with |- Some (ssub (ssub (sneg (sln (smul _ (math.integrate_1d ?i _ _ _)))) _) _) = _ -> _ => set (int := i) end.
  set (s := (IZR N * eta * gh - wlc_isometric.nondimensional_helmholtz_free_energy N l m z gh T)).
  change (Some (- ln (4 * PI * wint int) - s - H) = Some g -> g = worm_gibbs N l m T z eta).
  intros E. injection E as <-.
  unfold worm_gibbs. rewrite hinge_H, (worm_partition_wint eta He). f_equal.
  pose proof (wden_pos eta He) as P. pose proof N_pos as PN. pose proof PI_RGT_0 as PP.
  pose proof (exp_pos ((IZR N - 1) * H)) as PE.
  assert (Ei : wint int = wint (wden eta) * (IZR N * exp ((IZR N - 1) * H)) * exp (- s)).
  { unfold wint. rewrite <- !integrate_1d_scal. f_equal.
    apply FunctionalExtensionality.functional_extensionality. intros x. unfold int.
    set (p := wlc_isometric.nondimensional_helmholtz_free_energy N l m z x T).
    change (5 / 10 * (exp (IZR N * eta * x - s - p) - exp (- (IZR N * eta * x) - s - p)) * IZR N * x / eta =
      wden eta x * (IZR N * exp ((IZR N - 1) * H)) * exp (- s)).
    unfold p. rewrite !shift_exp, wlc_psi. fold H.
    replace (- (wbase z x - (IZR N - 1) * H)) with (- wbase z x + (IZR N - 1) * H) by ring. rewrite exp_plus.
    unfold wden, sinh. field. lra. }
  rewrite Ei. rewrite <- Rmult_assoc.
  rewrite ln_mult, ln_exp; [ring | | apply exp_pos].
  apply Rmult_lt_0_compat; [lra|]. apply Rmult_lt_0_compat; [exact P|]. apply Rmult_lt_0_compat; assumption.
Qed.

End Worm.

Lemma wlc_length_derive : forall N l m T z eta x, (0 < N)%Z -> 0 < eta ->
  wlc_isotensional.nondimensional_end_to_end_length N z eta = Some x ->
  is_derive (worm_gibbs N l m T z) eta (- x).
Proof.
  intros N l m T z eta x HN He E. rewrite (wlc_length N z HN eta x He E). apply worm_gibbs_derive; assumption.
Qed.
