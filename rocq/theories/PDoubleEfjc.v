(** Rounding errors of the extension of the EFJC in the asymptotic approach. *)
From Coq Require Import Reals ZArith Lra Lia Floats Psatz.
From Flocq Require Import Core Relative Plus_error BinarySingleNaN PrimFloat.
From Verif Require Import Scalar F64 MFjc MEfjc SpecLangevin SpecDouble PDouble PDoubleFjc PLangevin PSigmoid PHyp PLimits PFloatNan PErfc PDoubleExample.
From Coq Require Import Floats.
Open Scope R_scope.

Local Notation u := unit_roundoff.
(** Half the smallest positive double. *)
Local Notation least := (bpow radix2 (-1075)).

(** [x] is a number within [a] of X. *)
Definition near (x : float) (X a : R) : Prop := finite x /\ Rabs (value x - X) <= a.

Lemma u_small : 0 < u <= / 2 ^ 50.
Proof. unfold unit_roundoff. lra. Qed.

Lemma round_near : forall v X a e d z, Rabs (v - X) <= a -> Rabs e <= u -> Rabs d <= z ->
  Rabs (v * (1 + e) + d - X) <= a * (1 + u) + u * Rabs X + z.
Proof.
  intros v X a e d z H E D. pose proof u_small as U. replace (v * (1 + e) + d - X) with ((v - X) + ((v - X) * e + X * e + d)) by ring.
  pose proof (Rabs_pos (v - X)) as P1. pose proof (Rabs_pos X) as P2. pose proof (Rabs_pos e) as P3.
  eapply Rle_trans; [apply Rabs_triang|]. eapply Rle_trans; [apply Rplus_le_compat_l; eapply Rle_trans; [apply Rabs_triang|]; apply Rplus_le_compat_r; apply Rabs_triang|].
  rewrite !Rabs_mult. assert (Rabs (v - X) * Rabs e <= a * u) by (apply Rmult_le_compat; lra). assert (Rabs X * Rabs e <= Rabs X * u) by (apply Rmult_le_compat_l; lra). lra.
Qed.

Lemma within : forall v X a B, Rabs (v - X) <= a -> Rabs X + a <= B -> Rabs v <= B.
Proof. intros v X a B H HB. replace v with (X + (v - X)) by ring. eapply Rle_trans; [apply Rabs_triang|]. lra. Qed.

Lemma near_add : forall x y X Y a b, near x X a -> near y Y b -> Rabs (X + Y) + (a + b) <= bpow radix2 1023 ->
  near (x + y)%float (X + Y) ((a + b) * (1 + u) + u * Rabs (X + Y)).
Proof.
  intros x y X Y a b [Fx Hx] [Fy Hy] B. assert (E : Rabs (value x + value y - (X + Y)) <= a + b).
  { replace (value x + value y - (X + Y)) with ((value x - X) + (value y - Y)) by ring. eapply Rle_trans; [apply Rabs_triang|]. lra. }
  destruct (add_rel x y Fx Fy) as [F [e [E1 V]]]; [apply within with (1 := E); exact B|]. split; [exact F|]. rewrite V.
  replace ((value x + value y) * (1 + e)) with ((value x + value y) * (1 + e) + 0) by ring. pose proof u_small.
  eapply Rle_trans; [apply round_near with (z := 0); [exact E | exact E1 | rewrite Rabs_R0; lra]|lra].
Qed.

Lemma near_sub : forall x y X Y a b, near x X a -> near y Y b -> Rabs (X - Y) + (a + b) <= bpow radix2 1023 ->
  near (x - y)%float (X - Y) ((a + b) * (1 + u) + u * Rabs (X - Y)).
Proof.
  intros x y X Y a b [Fx Hx] [Fy Hy] B. assert (E : Rabs (value x - value y - (X - Y)) <= a + b).
  { replace (value x - value y - (X - Y)) with ((value x - X) + - (value y - Y)) by ring. eapply Rle_trans; [apply Rabs_triang|]. rewrite Rabs_Ropp. lra. }
  destruct (sub_rel x y Fx Fy) as [F [e [E1 V]]]; [apply within with (1 := E); exact B|]. split; [exact F|]. rewrite V.
  replace ((value x - value y) * (1 + e)) with ((value x - value y) * (1 + e) + 0) by ring. pose proof u_small.
  eapply Rle_trans; [apply round_near with (z := 0); [exact E | exact E1 | rewrite Rabs_R0; lra]|lra].
Qed.

Lemma near_mul : forall x y X Y a b, near x X a -> near y Y b -> 0 <= X -> 0 <= Y ->
  X * Y + (X * b + Y * a + a * b) <= bpow radix2 1023 ->
  near (x * y)%float (X * Y) ((X * b + Y * a + a * b) * (1 + u) + u * (X * Y) + least).
Proof.
  intros x y X Y a b [Fx Hx] [Fy Hy] PX PY B. assert (E : Rabs (value x * value y - X * Y) <= X * b + Y * a + a * b).
  { replace (value x * value y - X * Y) with (X * (value y - Y) + (Y * (value x - X) + (value x - X) * (value y - Y))) by ring.
    eapply Rle_trans; [apply Rabs_triang|]. eapply Rle_trans; [apply Rplus_le_compat_l; apply Rabs_triang|]. rewrite !Rabs_mult, (Rabs_pos_eq X), (Rabs_pos_eq Y) by assumption.
    assert (X * Rabs (value y - Y) <= X * b) by (apply Rmult_le_compat_l; assumption). assert (Y * Rabs (value x - X) <= Y * a) by (apply Rmult_le_compat_l; assumption).
    assert (Rabs (value x - X) * Rabs (value y - Y) <= a * b) by (apply Rmult_le_compat; try apply Rabs_pos; assumption). lra. }
  assert (PXY : 0 <= X * Y) by (apply Rmult_le_pos; assumption).
  destruct (mul_raw x y Fx Fy) as [F V]; [apply within with (1 := E); rewrite Rabs_pos_eq by exact PXY; exact B|]. split; [exact F|]. rewrite V.
  destruct (rnd_abs (value x * value y)) as (e & d & E1 & E2 & ->). rewrite <- (Rabs_pos_eq (X * Y)) at 2 by exact PXY.
  apply round_near; [exact E | exact E1 | exact E2].
Qed.

Lemma near_div : forall x y X Y a b, near x X a -> near y Y b -> 0 <= X -> 0 < Y -> b <= Y / 100 ->
  X / Y + 102 / 100 * (a / Y + X / Y * (b / Y)) <= bpow radix2 1023 ->
  near (x / y)%float (X / Y) (102 / 100 * (a / Y + X / Y * (b / Y)) * (1 + u) + u * (X / Y) + least).
Proof.
  intros x y X Y a b [Fx Hx] [Fy Hy] PX PY Hb B.
  assert (Py : 99 / 100 * Y <= value y) by (apply Rabs_le_inv in Hy; lra).
  assert (PXY : 0 <= X / Y) by (apply Rmult_le_pos; [exact PX | left; apply Rinv_0_lt_compat; exact PY]).
  assert (E : Rabs (value x / value y - X / Y) <= 102 / 100 * (a / Y + X / Y * (b / Y))).
  { replace (value x / value y - X / Y) with (((value x - X) / Y + X / Y * ((Y - value y) / Y)) * (Y / value y)) by (field; lra).
    rewrite Rabs_mult, Rmult_comm. assert (Q : 0 < Y / value y <= 102 / 100).
    { split; [apply Rdiv_lt_0_compat; lra|]. apply Rmult_le_reg_r with (value y); [lra|]. unfold Rdiv at 1. rewrite Rmult_assoc, Rinv_l by lra. lra. }
    rewrite (Rabs_pos_eq (Y / value y)) by lra. apply Rmult_le_compat; [lra | apply Rabs_pos | lra |].
    eapply Rle_trans; [apply Rabs_triang|]. unfold Rdiv. rewrite !Rabs_mult, !Rabs_inv, !(Rabs_pos_eq Y), !(Rabs_pos_eq X), (Rabs_minus_sym Y) by lra.
    assert (IY : 0 <= / Y) by (left; apply Rinv_0_lt_compat; exact PY).
    assert (Rabs (value x - X) * / Y <= a * / Y) by (apply Rmult_le_compat_r; assumption).
    assert (X * / Y * (Rabs (value y - Y) * / Y) <= X * / Y * (b * / Y)) by (apply Rmult_le_compat_l; [exact PXY|]; apply Rmult_le_compat_r; assumption). lra. }
  destruct (div_raw x y Fx ltac:(lra)) as [F V]; [apply within with (1 := E); rewrite Rabs_pos_eq by exact PXY; exact B|]. split; [exact F|]. rewrite V.
  destruct (rnd_abs (value x / value y)) as (e & d & E1 & E2 & ->). rewrite <- (Rabs_pos_eq (X / Y)) at 3 by exact PXY.
  apply round_near; [exact E | exact E1 | exact E2].
Qed.

Lemma near_weak : forall x X a b, near x X a -> a <= b -> near x X b.
Proof. intros x X a b [F H] L. split; [exact F | lra]. Qed.

Section Lib.
Variable L : libm.
Local Notation S := (F64 L).

Lemma full_unfold : forall kap eta, @efjc_isotensional_asymptotic.nondimensional_end_to_end_length_per_link float S kap eta =
  (@fjc_isotensional.nondimensional_end_to_end_length_per_link float S eta +
   eta / kap * (one + (l_tanh L eta - one / l_tanh L eta + one / eta) / (l_tanh L eta + eta / kap)))%float.
Proof. intros kap eta. rewrite fjc_unfold, <- float_dec_1. reflexivity. Qed.

Lemma near_self : forall x, finite x -> near x (value x) 0.
Proof. intros x F. split; [exact F|]. unfold Rminus. rewrite Rplus_opp_r, Rabs_R0. lra. Qed.

Lemma near_one : near one 1 0.
Proof. rewrite <- value_one. apply near_self, finite_one. Qed.

Lemma efjc_accuracy : forall d kap eta, d <= / 2 ^ 20 -> finite eta -> finite kap ->
  powerRZ 2 (-490) <= value eta <= powerRZ 2 1000 -> 0 < value kap -> value eta / value kap <= powerRZ 2 1000 ->
  accurate d (l_tanh L) tanh eta ->
  finite (@efjc_isotensional_asymptotic.nondimensional_end_to_end_length_per_link float S kap eta) /\
  Rabs (value (@efjc_isotensional_asymptotic.nondimensional_end_to_end_length_per_link float S kap eta)
    - (langevin (value eta) + value eta / value kap
       * (1 + (tanh (value eta) - langevin (value eta)) / (tanh (value eta) + value eta / value kap))))
    <= 7 * (d + 2 * u) * (1 + 1 / value eta + value eta / value kap).
Proof.
  intros d kap eta Hd Fe Fk [R1 R2] Pk Rq A. rewrite full_unfold. rewrite !pw in *.
  pose proof u_small as U. pose proof (bpow_gt_0 radix2 (-490)) as P490.
  assert (Px : 0 < value eta) by lra.
  assert (Rx : powerRZ 2 (-1000) <= Rabs (value eta) <= powerRZ 2 1000).
  { rewrite !pw, Rabs_pos_eq by lra. split; [apply Rle_trans with (2 := R1); apply bpow_le; lia | exact R2]. }
  pose proof (fjc_accuracy L d eta Hd Fe Rx A) as N_a.
  destruct (coth_parts (value eta) ltac:(lra)) as (TN & TC & TL). pose proof (langevin_tanh (value eta)) as LE.
  pose proof (fjc_tanh (value eta) Px) as LT. rewrite PLimits.fjc_langevin in LT by exact Px. pose proof (langevin_pos (value eta) Px) as LP.
  destruct A as [Ft A]. set (x := value eta) in *. set (k := value kap) in *. set (T := tanh x) in *. set (l := langevin x) in *.
  assert (PT : 0 < T) by lra.
  assert (PI : 0 < 1 / x) by (apply Rdiv_lt_0_compat; lra).
  assert (HI : 1 / x <= bpow radix2 490).
  { unfold Rdiv. rewrite Rmult_1_l. replace (bpow radix2 490) with (/ bpow radix2 (-490)) by (rewrite bpow_inv; reflexivity). apply Rinv_le; lra. }
  rewrite (Rabs_pos_eq (1 / x)) in * by lra. rewrite (Rabs_pos_eq T) in A by lra.
  assert (PC : 0 < 1 / T) by (apply Rdiv_lt_0_compat; lra). rewrite (Rabs_pos_eq (1 / T)) in TC by lra.
  assert (CT : 1 / T * T = 1) by (field; lra).
  assert (T1 : T <= 1) by (apply Rmult_le_reg_l with (1 / T); [exact PC|]; lra).
  assert (Pq : 0 < x / k) by (apply Rdiv_lt_0_compat; lra).
  assert (dp : 0 <= d) by (apply Rmult_le_reg_r with T; [exact PT|]; pose proof (Rabs_pos (value (l_tanh L eta) - T)); lra).
  (* sizes *)
  assert (B0 : 1 <= bpow radix2 490) by (change 1 with (bpow radix2 0); apply bpow_le; lia).
  assert (B1 : 1000 * bpow radix2 490 <= bpow radix2 1000).
  { apply Rle_trans with (bpow radix2 10 * bpow radix2 490); [apply Rmult_le_compat_r; [lra|cbn; lra]|]. rewrite <- bpow_plus. apply bpow_le. lia. }
  assert (B2 : 1000 * bpow radix2 1000 <= bpow radix2 1023).
  { apply Rle_trans with (bpow radix2 10 * bpow radix2 1000); [apply Rmult_le_compat_r; [lra|cbn; lra]|]. rewrite <- bpow_plus. apply bpow_le. lia. }
  assert (B3 : 1000 * (bpow radix2 490 * bpow radix2 490) <= bpow radix2 1000).
  { apply Rle_trans with (bpow radix2 10 * (bpow radix2 490 * bpow radix2 490)); [apply Rmult_le_compat_r; [apply Rmult_le_pos; lra|cbn; lra]|]. rewrite <- !bpow_plus. apply bpow_le. lia. }
  set (J := 1 + 1 / x) in *. set (q := x / k) in *. set (C := 1 / T) in *.
  assert (HJ : 1 <= J <= 2 * bpow radix2 490) by (unfold J; lra).
  assert (lT : least * C <= u * u).
  { apply Rle_trans with (least * bpow radix2 491).
    - apply Rmult_le_compat_l; [apply bpow_ge_0|]. replace 491%Z with (490 + 1)%Z by reflexivity. rewrite bpow_S. lra.
    - replace u with (bpow radix2 (-53)) by (unfold unit_roundoff; cbn; lra). rewrite <- !bpow_plus. apply bpow_le. lia. }
  assert (P0 : 0 < least) by apply bpow_gt_0.
  assert (lTT : least <= u * u * T).
  { replace least with (least * C * T) by (unfold C; field; lra). apply Rmult_le_compat_r; lra. }
  assert (uu : u * u <= u / 1000) by (unfold Rdiv; apply Rmult_le_compat_l; lra). assert (uu0 : 0 < u * u) by (apply Rmult_lt_0_compat; lra).
  assert (lu : least <= u / 1000) by (apply Rle_trans with (1 := lTT); apply Rle_trans with (2 := uu); rewrite <- (Rmult_1_r (u * u)) at 2; apply Rmult_le_compat_l; lra).
  assert (lT2 : least <= u / 1000 * T) by (apply Rle_trans with (1 := lTT); apply Rmult_le_compat_r; lra).
  set (z := least) in *.
  assert (up : forall y, 0 <= y -> 0 <= u * y <= y / 1000000).
  { intros y Hy. split; [apply Rmult_le_pos; lra|]. unfold Rdiv. rewrite Rmult_comm. apply Rmult_le_compat_l; lra. }
  (* the steps *)
  assert (N_t : near (l_tanh L eta) T (d * T)) by (split; assumption).
  assert (dT : 0 <= d * T) by (apply Rmult_le_pos; lra).
  assert (dT' : d * T <= d) by (rewrite <- (Rmult_1_r d) at 2; apply Rmult_le_compat_l; lra).
  assert (dJ : d <= d * J) by (rewrite <- (Rmult_1_r d) at 1; apply Rmult_le_compat_l; lra).
  assert (uJ : u * J = u + u * (1 / x)) by (unfold J; ring).
  assert (dJs : d * J <= J / 100) by (unfold Rdiv; rewrite Rmult_comm; apply Rmult_le_compat_l; lra).
  assert (dC : d * C <= d * J) by (apply Rmult_le_compat_l; lra). assert (dC0 : 0 <= d * C) by (apply Rmult_le_pos; lra).
  assert (uC : u * C <= u * J) by (apply Rmult_le_compat_l; lra).
  pose proof (up J ltac:(lra)) as UJ. pose proof (up (1 / x) ltac:(lra)) as UI. pose proof (up (d * J) ltac:(lra)) as UdJ. pose proof (up (u * J) ltac:(lra)) as UuJ.
  assert (N_c : near (one / l_tanh L eta)%float C ((103 / 100 * d + 11 / 10 * u) * J)).
  { eapply near_weak; [apply (near_div one (l_tanh L eta) 1 T 0 (d * T)); [exact near_one | exact N_t | lra | exact PT | |]|].
    - unfold Rdiv. rewrite Rmult_comm. apply Rmult_le_compat_l; lra.
    - replace (0 / T + 1 / T * (d * T / T)) with (d * C) by (unfold C; field; lra). fold C. lra.
    - replace (0 / T + 1 / T * (d * T / T)) with (d * C) by (unfold C; field; lra). fold C. fold z. pose proof (up (d * C) dC0). lra. }
  assert (N_i : near (one / eta)%float (1 / x) (u * (1 / x) + z)).
  { eapply near_weak; [apply (near_div one eta 1 x 0 0); [exact near_one | apply near_self; exact Fe | lra | exact Px | lra |]|].
    - replace (0 / x + 1 / x * (0 / x)) with 0 by (field; lra). lra.
    - replace (0 / x + 1 / x * (0 / x)) with 0 by (field; lra). fold z. lra. }
  assert (N_q : near (eta / kap)%float q (u * q + z)).
  { eapply near_weak; [apply (near_div eta kap x k 0 0); [apply near_self; exact Fe | apply near_self; exact Fk | lra | exact Pk | lra |]|].
    - replace (0 / k + x / k * (0 / k)) with 0 by (field; lra). fold q. lra.
    - replace (0 / k + x / k * (0 / k)) with 0 by (field; lra). fold z q. lra. }
  assert (CJ : Rabs (T - C) <= J) by (apply Rabs_le; lra).
  assert (uCJ : u * Rabs (T - C) <= u * J) by (apply Rmult_le_compat_l; lra).
  assert (N_1 : near (l_tanh L eta - one / l_tanh L eta)%float (T - C) ((205 / 100 * d + 22 / 10 * u) * J)).
  { eapply near_weak; [apply (near_sub _ _ _ _ _ _ N_t N_c); lra|]. pose proof (up (d * T) dT). lra. }
  assert (En : T - C + 1 / x = T - l) by (rewrite LE; fold C; ring).
  assert (N_n : near (l_tanh L eta - one / l_tanh L eta + one / eta)%float (T - l) (21 / 10 * (d + 2 * u) * J)).
  { rewrite <- En. eapply near_weak; [apply (near_add _ _ _ _ _ _ N_1 N_i); rewrite En, Rabs_pos_eq; lra|]. rewrite En, Rabs_pos_eq by lra.
    pose proof (up (T - l) ltac:(lra)). assert (u * (T - l) <= u * 1) by (apply Rmult_le_compat_l; lra). pose proof (up (u * (1 / x)) ltac:(lra)). pose proof (up z ltac:(lra)). lra. }
  set (D := T + q). assert (PD : 0 < D) by (unfold D; lra). set (ep := d + 2 * u) in *.
  assert (Pep : 0 < ep <= / 2 ^ 19) by (unfold ep; lra).
  assert (N_D : near (l_tanh L eta + eta / kap)%float D (11 / 10 * ep * D)).
  { eapply near_weak; [apply (near_add _ _ _ _ _ _ N_t N_q); fold D; rewrite Rabs_pos_eq by lra; pose proof (up q ltac:(lra)); unfold D; lra|].
    fold D. rewrite Rabs_pos_eq by lra. unfold ep, D. pose proof (up (d * T) dT). pose proof (up q ltac:(lra)). pose proof (up (u * q) ltac:(lra)). pose proof (up T ltac:(lra)). pose proof (up z ltac:(lra)).
    assert (0 <= d * q) by (apply Rmult_le_pos; lra). lra. }
  set (r := (T - l) / D).
  assert (rB : 0 <= r <= 1).
  { unfold r. split; [apply Rmult_le_pos; [lra | left; apply Rinv_0_lt_compat; exact PD]|]. apply Rmult_le_reg_r with D; [exact PD|]. unfold Rdiv. rewrite Rmult_assoc, Rinv_l by lra. unfold D. lra. }
  set (w := ep * J / D). assert (w0 : 0 <= w) by (unfold w, Rdiv; repeat apply Rmult_le_pos; [lra | lra | left; apply Rinv_0_lt_compat; exact PD]).
  assert (iD : 1 / D <= C) by (unfold C, Rdiv; rewrite !Rmult_1_l; apply Rinv_le; unfold D; lra).
  assert (iD0 : 0 <= 1 / D) by (unfold Rdiv; rewrite Rmult_1_l; left; apply Rinv_0_lt_compat; exact PD).
  assert (wB : w <= bpow radix2 1000).
  { apply Rle_trans with (J * J).
    - replace w with (ep * (J * (1 / D))) by (unfold w; field; lra). rewrite <- (Rmult_1_l (J * J)). apply Rmult_le_compat; [lra | apply Rmult_le_pos; lra | lra |]. apply Rmult_le_compat; lra.
    - apply Rle_trans with (2 * bpow radix2 490 * (2 * bpow radix2 490)); [apply Rmult_le_compat; lra|]. lra. }
  assert (Ew : 21 / 10 * ep * J / D + (T - l) / D * (11 / 10 * ep * D / D) = 21 / 10 * w + 11 / 10 * (ep * r)) by (unfold w, r; field; lra).
  assert (er : 0 <= ep * r <= ep) by (split; [apply Rmult_le_pos; lra|]; rewrite <- (Rmult_1_r ep) at 2; apply Rmult_le_compat_l; lra).
  assert (ur : 0 <= u * r <= u) by (split; [apply Rmult_le_pos; lra|]; rewrite <- (Rmult_1_r u) at 2; apply Rmult_le_compat_l; lra).
  pose proof (up w w0) as Uw. assert (uep : u <= ep / 2) by (unfold ep; lra).
  assert (N_r : near ((l_tanh L eta - one / l_tanh L eta + one / eta) / (l_tanh L eta + eta / kap))%float r (22 / 10 * w + 17 / 10 * ep)).
  { eapply near_weak; [apply (near_div _ _ _ _ _ _ N_n N_D); [lra | exact PD | |]|].
    - unfold Rdiv. rewrite Rmult_comm. apply Rmult_le_compat_l; lra.
    - rewrite Ew. fold r. lra.
    - rewrite Ew. fold r z. pose proof (up (ep * r) ltac:(lra)). lra. }
  set (s := 1 + r).
  assert (N_s : near (one + (l_tanh L eta - one / l_tanh L eta + one / eta) / (l_tanh L eta + eta / kap))%float s (23 / 10 * w + 28 / 10 * ep)).
  { eapply near_weak; [apply (near_add _ _ _ _ _ _ near_one N_r); fold s; unfold s; rewrite Rabs_pos_eq; lra|]. fold s. unfold s. rewrite Rabs_pos_eq by lra. pose proof (up ep ltac:(lra)). lra. }
  assert (qw : q * w <= ep * J).
  { replace (q * w) with (ep * J * (q * (1 / D))) by (unfold w; field; lra). rewrite <- (Rmult_1_r (ep * J)) at 2. apply Rmult_le_compat_l; [apply Rmult_le_pos; lra|].
    apply Rmult_le_reg_r with D; [exact PD|]. replace (q * (1 / D) * D) with q by (field; lra). unfold D. lra. }
  assert (qw0 : 0 <= q * w) by (apply Rmult_le_pos; lra).
  assert (zw : 0 <= z * w <= ep * J / 1000).
  { split; [apply Rmult_le_pos; lra|]. replace (z * w) with (ep * J * (z * (1 / D))) by (unfold w; field; lra). unfold Rdiv at 2. apply Rmult_le_compat_l; [apply Rmult_le_pos; lra|].
    apply Rle_trans with (z * C); [apply Rmult_le_compat_l; lra|]. lra. }
  assert (eJ : ep <= ep * J) by (rewrite <- (Rmult_1_r ep) at 1; apply Rmult_le_compat_l; lra).
  assert (eJs : ep * J <= J / 100) by (unfold Rdiv; rewrite Rmult_comm; apply Rmult_le_compat_l; lra).
  assert (eq0 : 0 <= ep * q <= q / 100) by (split; [apply Rmult_le_pos; lra|]; unfold Rdiv; rewrite Rmult_comm; apply Rmult_le_compat_l; lra).
  assert (uq : 0 <= u * q <= ep * q / 2) by (split; [apply Rmult_le_pos; lra|]; unfold Rdiv; rewrite (Rmult_comm ep), Rmult_assoc, Rmult_comm; apply Rmult_le_compat_l; lra).
  assert (sB : 1 <= s <= 2) by (unfold s; lra).
  assert (E0 : q * (23 / 10 * w + 28 / 10 * ep) + s * (u * q + z) + (u * q + z) * (23 / 10 * w + 28 / 10 * ep) <= 24 / 10 * (ep * J) + 39 / 10 * (ep * q)).
  { assert (s * (u * q + z) <= 2 * (u * q + z)) by (apply Rmult_le_compat_r; lra).
    pose proof (up (q * w) qw0). pose proof (up (ep * q) ltac:(lra)). assert (0 <= z * ep <= ep / 1000) by (split; [apply Rmult_le_pos; lra|]; unfold Rdiv; rewrite Rmult_comm; apply Rmult_le_compat_l; lra). lra. }
  assert (qs : q * s <= 2 * q) by (rewrite (Rmult_comm q); apply Rmult_le_compat_r; lra). assert (qs0 : 0 <= q * s) by (apply Rmult_le_pos; lra).
  assert (N_p : near (eta / kap * (one + (l_tanh L eta - one / l_tanh L eta + one / eta) / (l_tanh L eta + eta / kap)))%float (q * s) (25 / 10 * (ep * J) + 5 * (ep * q))).
  { eapply near_weak; [apply (near_mul _ _ _ _ _ _ N_q N_s); [lra | lra | lra]|]. fold z.
    assert (u * (q * s) <= 2 * (u * q)) by (apply Rmult_le_compat_l with (r := u) in qs; lra).
    assert (EE : (q * (23 / 10 * w + 28 / 10 * ep) + s * (u * q + z) + (u * q + z) * (23 / 10 * w + 28 / 10 * ep)) * (1 + u) <= (24 / 10 * (ep * J) + 39 / 10 * (ep * q)) * (1 + u)) by (apply Rmult_le_compat_r; lra).
    pose proof (up (ep * J) ltac:(lra)). pose proof (up (ep * q) ltac:(lra)). lra. }
  destruct (near_add _ _ _ _ _ _ N_a N_p) as [F V].
  { rewrite Rabs_pos_eq by lra. lra. }
  split; [exact F|]. eapply Rle_trans; [exact V|]. rewrite Rabs_pos_eq by lra.
  assert (u * (l + q * s) <= u * (1 + 2 * q)) by (apply Rmult_le_compat_l; lra).
  pose proof (up (ep * J) ltac:(lra)). pose proof (up (ep * q) ltac:(lra)). lra.
Qed.
End Lib.

Lemma efjc_case :
  finite small_force /\ finite 2%float /\ powerRZ 2 (-490) <= value small_force <= powerRZ 2 1000 /\
  0 < value 2%float /\ value small_force / value 2%float <= powerRZ 2 1000 /\
  accurate (/ 2 ^ 52) (l_tanh double_libm) tanh small_force.
Proof.
  assert (V2 : value 2%float = 2).
  { unfold value. replace (Prim2SF 2%float) with (S754_finite false 4503599627370496 (-51)) by (vm_compute; reflexivity).
    change (1 * (4503599627370496 * / 2 ^ 51) = 2). lra. }
  assert (O : 1 <= bpow radix2 1000) by (change 1 with (bpow radix2 0); apply bpow_le; lia).
  assert (F2 : finite 2%float) by (vm_compute; exact I).
  rewrite V2, value_small, !pw. split; [exact finite_small|]. split; [exact F2|]. split; [split|split; [lra|split]].
  - apply Rle_trans with (bpow radix2 (-30)); [apply bpow_le; lia|]. change (bpow radix2 (-30)) with (/ 1073741824). lra.
  - lra.
  - lra.
  - exact tanh_small.
Qed.
