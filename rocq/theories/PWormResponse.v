(** Flexible worm-like chains: what follows once the functions are known to answer. *)
From Coq Require Import Reals ZArith Lra Lia.
From Coquelicot Require Import Coquelicot.
From Verif Require Import Scalar MMath MConst MWlc SpecPartition SpecThermo SpecHooke SpecAnswers PBase PHooke PHookeLinks PHyp PStability PWormAnswers.
Open Scope R_scope.

Lemma flexible_slope : forall N l m T z, (0 < N <= 255)%Z -> 0 < z <= 1 / 10 ->
  let square := mean_square (fun g => wlc_isometric.nondimensional_helmholtz_free_energy N l m z g T) (1 / 10 ^ 6) 1 64 in
  exists f, (forall eta, 0 < eta <= 20000000 / (IZR N * z) -> wlc_isotensional.nondimensional_end_to_end_length N z eta = Some (f eta)) /\
    weak_slope f (IZR N ^ 2 * square / 3).
Proof.
  intros N l m T z HN Hz square. set (longest := last_node (1 / 10 ^ 6) 1 64).
  assert (SQ : 0 <= square).
  { unfold square, mean_square. apply Rdiv_le_0_compat.
    - left. apply mid_pos; [lra | lia |]. intros s Hs. assert (0 < s ^ 2) by (apply pow_lt; lra). apply Rmult_lt_0_compat; [assumption|]. apply Rmult_lt_0_compat; [assumption | apply exp_pos].
    - apply mid_pos; [lra | lia |]. intros s Hs. apply Rmult_lt_0_compat; [apply pow_lt; lra | apply exp_pos]. }
  exists (fun eta => match wlc_isotensional.nondimensional_end_to_end_length N z eta with Some x => x | None => IZR N ^ 2 * square * eta / 3 end).
  split.
  - intros eta He. destruct (worm_answers N z eta HN Hz He) as [[x E] _]. rewrite E. reflexivity.
  - apply (hooke_slope _ _ (longest * IZR N)). intros eta He.
    destruct (wlc_isotensional.nondimensional_end_to_end_length N z eta) as [x|] eqn:E.
    + apply (worm_hooke N l m T z eta x ltac:(lia) He E).
    + pose proof (cosh_ge_1 (longest * IZR N * eta)) as C. set (c := cosh _) in *. clearbody c.
      set (v := IZR N ^ 2 * square * eta / 3). assert (V : 0 <= v).
      { unfold v. assert (0 <= IZR N ^ 2) by apply pow2_ge_0. assert (0 <= IZR N ^ 2 * square * eta) by (apply Rmult_le_pos; [apply Rmult_le_pos; assumption | lra]). lra. }
      clearbody v. split.
      * apply Rmult_le_reg_r with c; [lra|]. unfold Rdiv. rewrite Rmult_assoc, Rinv_l by lra. apply Rmult_le_compat_l; lra.
      * rewrite <- (Rmult_1_r v) at 1. apply Rmult_le_compat_l; lra.
Qed.

Lemma flexible_increases : forall N z, (0 < N <= 255)%Z -> 0 < z <= 1 / 10 ->
  exists f, (forall eta, 0 < eta <= 20000000 / (IZR N * z) -> wlc_isotensional.nondimensional_end_to_end_length N z eta = Some (f eta)) /\
    (forall eta, 0 < eta <= 20000000 / (IZR N * z) -> 0 < f eta < IZR N) /\
    (forall eta1 eta2, 0 < eta1 -> eta1 < eta2 -> eta2 <= 20000000 / (IZR N * z) -> f eta1 < f eta2).
Proof.
  intros N z HN Hz. assert (PN : 0 < IZR N) by (apply IZR_lt; lia).
  exists (fun eta => match wlc_isotensional.nondimensional_end_to_end_length N z eta with Some x => x | None => 0 end).
  split; [|split].
  - intros eta He. destruct (worm_answers N z eta HN Hz He) as [[x E] _]. rewrite E. reflexivity.
  - intros eta He. destruct (worm_answers N z eta HN Hz He) as [[x E] _]. destruct (worm_answers N z (eta / 2) HN Hz ltac:(lra)) as [[x' E'] _].
    rewrite E. split.
    + destruct (wlc_stable N z (eta / 2) eta x' x ltac:(lia) ltac:(lra) ltac:(lra) E' E). lra.
    + destruct (worm_hooke N 1 1 1 z eta x ltac:(lia) ltac:(lra) E) as [_ B]. apply Rlt_le_trans with (1 := B).
      rewrite <- (Rmult_1_r (IZR N)) at 2. apply Rmult_le_compat_l; [lra|]. unfold last_node. rewrite INR_IZR_INZ. cbn. lra.
  - intros eta1 eta2 H1 H12 H2. destruct (worm_answers N z eta1 HN Hz ltac:(lra)) as [[x1 E1] _]. destruct (worm_answers N z eta2 HN Hz ltac:(lra)) as [[x2 E2] _].
    rewrite E1, E2. apply (wlc_stable N z eta1 eta2 x1 x2 ltac:(lia) H1 H12 E1 E2).
Qed.
