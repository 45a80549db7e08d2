(** The freely jointed chain's extension as a function of force. *)
From Coq Require Import Reals ZArith List Lra Lia FunctionalExtensionality.
From Coquelicot Require Import Coquelicot.
From Verif Require Import Scalar MMath MConst MFjc SpecLangevin SpecThermo PBase PLangevin PInvLangevin.
Open Scope R_scope.

Lemma extension_langevin : forall eta : R, fjc_isotensional.nondimensional_end_to_end_length_per_link eta = langevin eta.
Proof. intro eta. rewrite <- langevin_f_R. reflexivity. Qed.

Lemma langevin_odd : forall x, langevin (- x) = - langevin x.
Proof.
  intro x. unfold langevin, sinh, cosh. rewrite Ropp_involutive.
  destruct (Req_dec x 0) as [->|N].
  - rewrite Ropp_0, exp_0. unfold Rdiv. rewrite Rinv_0. 
    replace ((1 - 1) * / 2) with 0 by lra. rewrite Rinv_0. ring.
  - assert (exp x - exp (- x) <> 0).
    { intro E. assert (X : exp x = exp (- x)) by lra. apply exp_inv in X. lra. }
    field. repeat split; lra.
Qed.

Lemma langevin_pos : forall x, 0 < x -> 0 < langevin x < 1.
Proof.
  intros x Hx. pose proof (langevin_upper_1 x Hx) as U. pose proof (langevin_lower_3 x Hx) as L.
  assert (0 < x / (3 + x)) by (apply Rdiv_lt_0_compat; lra).
  assert (x / (1 + x) < 1).
  { apply Rmult_lt_reg_r with (1 + x); [lra|]. unfold Rdiv. rewrite Rmult_assoc, Rinv_l; lra. }
  lra.
Qed.

Lemma extension_odd : forall eta : R,
  fjc_isotensional.nondimensional_end_to_end_length_per_link (- eta)
  = - fjc_isotensional.nondimensional_end_to_end_length_per_link eta.
Proof. intro eta. rewrite 2!extension_langevin. apply langevin_odd. Qed.

Lemma extension_increasing : forall s t : R, 0 < s < t ->
  fjc_isotensional.nondimensional_end_to_end_length_per_link s < fjc_isotensional.nondimensional_end_to_end_length_per_link t.
Proof. intros s t H. rewrite 2!extension_langevin. apply langevin_increasing, H. Qed.

Lemma extension_range : forall eta : R, 0 < eta ->
  0 < fjc_isotensional.nondimensional_end_to_end_length_per_link eta < Rmin 1 (eta / 3).
Proof.
  intros eta H. rewrite extension_langevin. pose proof (langevin_pos eta H). pose proof (langevin_upper_3 eta H).
  split; [lra|]. apply Rmin_glb_lt; lra.
Qed.

Lemma extension_limit :
  is_lim (fun eta : R => fjc_isotensional.nondimensional_end_to_end_length_per_link eta) p_infty 1.
Proof.
  apply is_lim_spec. intro eps. exists (Rmax 1 (1 / eps)). intros x Hx.
  pose proof (Rmax_l 1 (1 / eps)). pose proof (Rmax_r 1 (1 / eps)). assert (X : 0 < x) by lra.
  rewrite extension_langevin. pose proof (langevin_lower_1 x X). pose proof (langevin_pos x X).
  assert (1 / x < eps).
  { destruct eps as [e He]. cbn in *. apply Rmult_lt_reg_r with x; [exact X|]. unfold Rdiv at 1. rewrite Rmult_assoc, Rinv_l by lra.
    assert (Y : 1 / e < x) by lra. apply (Rmult_lt_compat_l e) in Y; [|exact He]. replace (e * (1 / e)) with 1 in Y by (field; lra). lra. }
  rewrite Rabs_left; lra.
Qed.

(** The dimensional lengths, with the scaling a user expects. *)
Lemma length_scaled : forall N l f T,
  fjc_isotensional.end_to_end_length N l f T
  = IZR N * l * langevin (f * l / (kB * T)) /\
  fjc_isotensional.end_to_end_length_per_link l f T = l * langevin (f * l / (kB * T)).
Proof.
  intros N l f T.
  assert (E : f / kB / T * l = f * l / (kB * T)).
  { unfold Rdiv. rewrite Rinv_mult. ring. }
  split.
  - change (fjc_isotensional.end_to_end_length N l f T)
      with (fjc_isotensional.nondimensional_end_to_end_length_per_link (f / kB / T * l) * IZR N * l).
    rewrite extension_langevin, E. ring.
  - change (fjc_isotensional.end_to_end_length_per_link l f T)
      with (fjc_isotensional.nondimensional_end_to_end_length_per_link (f / kB / T * l) * l).
    rewrite extension_langevin, E. ring.
Qed.

Lemma length_bounds : forall N l T f g, (0 < N)%Z -> 0 < l -> 0 < T -> 0 < f < g ->
  0 < fjc_isotensional.end_to_end_length N l f T /\
  fjc_isotensional.end_to_end_length N l f T < fjc_isotensional.end_to_end_length N l g T /\
  fjc_isotensional.end_to_end_length N l g T < IZR N * l /\
  fjc_isotensional.end_to_end_length N l (- f) T = - fjc_isotensional.end_to_end_length N l f T.
Proof.
  intros N l T f g HN Hl HT [Hf Hg]. rewrite (proj1 (length_scaled N l f T)), (proj1 (length_scaled N l g T)), (proj1 (length_scaled N l (- f) T)).
  assert (N0 : 0 < IZR N) by (apply IZR_lt; lia). assert (P : 0 < IZR N * l) by (apply Rmult_lt_0_compat; assumption).
  assert (K : 0 < kB * T) by (apply Rmult_lt_0_compat; [apply kB_pos | exact HT]).
  assert (A : 0 < f * l / (kB * T)) by (apply Rdiv_lt_0_compat; [apply Rmult_lt_0_compat; lra | exact K]).
  assert (B : f * l / (kB * T) < g * l / (kB * T)).
  { apply Rmult_lt_compat_r; [apply Rinv_0_lt_compat, K|]. apply Rmult_lt_compat_r; lra. }
  pose proof (langevin_pos _ A). pose proof (langevin_pos (g * l / (kB * T)) ltac:(lra)).
  pose proof (langevin_increasing _ _ (conj A B)).
  split; [apply Rmult_lt_0_compat; lra|]. split; [apply Rmult_lt_compat_l; lra|]. split.
  - rewrite <- (Rmult_1_r (IZR N * l)) at 2. apply Rmult_lt_compat_l; lra.
  - replace (- f * l / (kB * T)) with (- (f * l / (kB * T))) by (unfold Rdiv; ring). rewrite langevin_odd. ring.
Qed.
