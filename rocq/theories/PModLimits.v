(** Limits of the modified canonical ensemble: proofs. *)
From Coq Require Import Reals ZArith List Lra Lia Psatz.
From Coquelicot Require Import Coquelicot.
From Verif Require Import Scalar MMath MConst MTreloar MFjc SpecThermo SpecIsometric SpecWalk SpecModified SpecModLimits PBase PQuad PTreloar SpecLangevin PLangevin PModified PWeak PModifiedZ.
Import ListNotations.
Open Scope R_scope.

Lemma lim_Rsum : forall (f : R -> R -> R) (c : R -> R) l, (forall a, In a l -> is_lim (f a) p_infty (c a)) ->
  is_lim (fun k => Rsum (map (fun a => f a k) l)) p_infty (Rsum (map c l)).
Proof.
  intros f c l. induction l as [|b l IH]; intro H; cbn [map Rsum].
  - apply is_lim_const.
  - apply (is_lim_plus' (f b) (fun k => Rsum (map (fun a => f a k) l))); [apply H; left; reflexivity|].
    apply IH. intros a Ha. apply H. right. exact Ha.
Qed.

Lemma lim_decay : forall c, 0 < c -> is_lim (fun k => exp (- c * k)) p_infty 0.
Proof.
  intros c Hc. apply (is_lim_comp exp (fun k => - c * k) p_infty 0 m_infty).
  - apply is_lim_exp_m.
  - assert (H := is_lim_scal_l (fun k : R => k) (- c) p_infty p_infty (is_lim_id p_infty)).
    replace (Rbar_mult (- c) p_infty) with m_infty in H; [exact H|].
    cbn. destruct (Rle_dec 0 (- c)); [exfalso; lra|reflexivity].
  - exists 0. intros y Hy E. discriminate.
Qed.

Section Fixed.
Variables (prof : profile) (n : nat).
Hypothesis Hn : (2 <= n <= 26)%nat.
Let N : Z := Z.of_nat n.
Let Pn : 0 < INR n. Proof. apply lt_0_INR. lia. Qed.
Let IN : IZR N = INR n. Proof. unfold N. rewrite <- INR_IZR_INZ. reflexivity. Qed.

Definition w0 (x : R) : R := 4 * PI * x ^ 2 * P n x.
Lemma w0_pos : forall x, 0 < x < 1 -> 0 < w0 x.
Proof using Hn.
  intros x Hx. unfold w0. pose proof PI_RGT_0.
  apply Rmult_lt_0_compat; [|apply P_pos; [lia|exact Hx]].
  apply Rmult_lt_0_compat; [lra|]. apply pow_lt; lra.
Qed.

Definition tilt (eta x : R) : R := sinh (INR n * eta * x) / (INR n * eta * x).
Definition dtilt (eta x : R) : R := cosh (INR n * eta * x) / eta - sinh (INR n * eta * x) / (INR n * eta ^ 2 * x).
Definition gauss (kap x : R) : R := exp (- (1 / 2) * (INR n ^ 2 * kap) * x ^ 2).
Definition Zk (kap eta : R) : R := quad (fun x => w0 x * gauss kap x * tilt eta x).
Definition dZk (kap eta : R) : R := quad (fun x => w0 x * gauss kap x * dtilt eta x).

Lemma quad_pos : forall f, (forall x, 0 < x < 1 -> 0 < f x) -> 0 < quad f.
Proof using.
  intros f H. unfold quad. pose proof ZERO_pos. apply Rmult_lt_0_compat.
  - apply Rsum_pos; [unfold nodes; cbn; discriminate|]. intros x Hx. apply H, nodes_in, Hx.
  - apply Rdiv_lt_0_compat; [lra|]. apply IZR_lt. reflexivity.
Qed.

Lemma quad_scal : forall c f, quad (fun x => c * f x) = c * quad f.
Proof using. intros c f. unfold quad. rewrite Rsum_scal. ring. Qed.
Lemma quad_lin : forall a b f g, quad (fun x => a * f x + b * g x) = a * quad f + b * quad g.
Proof using. intros a b f g. unfold quad. rewrite Rsum_plus, !Rsum_scal. ring. Qed.

Lemma sinh_pos' : forall y, 0 < y -> 0 < sinh y.
Proof using. intros y Hy. unfold sinh. assert (exp (- y) < exp y) by (apply exp_increasing; lra). lra. Qed.

Lemma tilt_pos : forall eta x, 0 < eta -> 0 < x -> 0 < tilt eta x.
Proof using Hn.
  intros eta x He Hx. assert (0 < INR n * eta * x) by (repeat apply Rmult_lt_0_compat; lra).
  unfold tilt. apply Rdiv_lt_0_compat; [apply sinh_pos'; assumption|assumption].
Qed.

Lemma Zk_pos : forall kap eta, 0 < eta -> 0 < Zk kap eta.
Proof using Hn.
  intros kap eta He. apply quad_pos. intros x Hx.
  apply Rmult_lt_0_compat; [apply Rmult_lt_0_compat; [apply w0_pos; exact Hx|apply exp_pos]|apply tilt_pos; lra].
Qed.

Lemma e_split : forall kap eta x, 0 < kap -> 0 < eta -> let d := eta / (INR n * kap) in
  e1 n kap d x = exp (- (1 / 2) * st n kap * d ^ 2) * gauss kap x * exp (INR n * eta * x) /\
  e2 n kap d x = exp (- (1 / 2) * st n kap * d ^ 2) * gauss kap x * exp (- (INR n * eta * x)).
Proof using Hn.
  intros kap eta x Hk He d. unfold e1, e2, gauss. rewrite <- !exp_plus.
  split; f_equal; unfold d, st; field; lra.
Qed.

Lemma den_tilt : forall kap eta x, 0 < kap -> 0 < eta -> 0 < x -> let d := eta / (INR n * kap) in
  den n kap d x = exp (- (1 / 2) * st n kap * d ^ 2) * (w0 x * gauss kap x * tilt eta x).
Proof using Hn.
  intros kap eta x Hk He Hx d. destruct (e_split kap eta x Hk He) as [A B]. fold d in A, B.
  unfold den. rewrite A, B. set (E := exp (- (1 / 2) * st n kap * d ^ 2)). set (G := gauss kap x).
  unfold tilt, sinh, w0. set (p := exp (INR n * eta * x)). set (q := exp (- (INR n * eta * x))).
  replace (2 * st n kap * d * x) with (2 * (INR n * eta * x)) by (unfold st, d; field; lra).
  field. repeat split; lra.
Qed.

Lemma num_tilt : forall kap eta x, 0 < kap -> 0 < eta -> 0 < x -> let d := eta / (INR n * kap) in
  num n kap d x = exp (- (1 / 2) * st n kap * d ^ 2) *
    (INR n * eta * (w0 x * gauss kap x * tilt eta x) + - (INR n * kap) * (w0 x * gauss kap x * dtilt eta x)).
Proof using Hn.
  intros kap eta x Hk He Hx d. destruct (e_split kap eta x Hk He) as [A B]. fold d in A, B.
  unfold num. rewrite A, B. set (E := exp (- (1 / 2) * st n kap * d ^ 2)). set (G := gauss kap x).
  unfold tilt, dtilt, sinh, cosh, w0. set (p := exp (INR n * eta * x)). set (q := exp (- (INR n * eta * x))).
  clearbody E G p q. unfold st, d. field. repeat split; lra.
Qed.

Lemma part_tilt : forall kap eta, 0 < kap -> 0 < eta -> let d := eta / (INR n * kap) in
  part n kap d = exp (- (1 / 2) * st n kap * d ^ 2) * Zk kap eta.
Proof using Hn.
  intros kap eta Hk He d. unfold part, Zk. rewrite <- quad_scal. apply quad_ext.
  intros x Hx. apply den_tilt; lra.
Qed.

Lemma force_tilt : forall kap eta, 0 < kap -> 0 < eta -> let d := eta / (INR n * kap) in
  quad (num n kap d) / part n kap d / INR n = eta - kap * (dZk kap eta / Zk kap eta).
Proof using Hn.
  intros kap eta Hk He d. pose proof (part_tilt kap eta Hk He) as PT. cbv zeta in PT. fold d in PT. rewrite PT.
  rewrite (quad_ext (num n kap d) (fun x => exp (- (1 / 2) * st n kap * d ^ 2) *
    (INR n * eta * (w0 x * gauss kap x * tilt eta x) + - (INR n * kap) * (w0 x * gauss kap x * dtilt eta x)))).
  2:{ intros x Hx. apply num_tilt; lra. }
  rewrite quad_scal, quad_lin. fold (Zk kap eta). fold (dZk kap eta).
  pose proof (Zk_pos kap eta He). pose proof (exp_pos (- (1 / 2) * st n kap * d ^ 2)).
  set (E := exp _) in *. field. repeat split; lra.
Qed.

Let Hd : forall kap eta, 0 < kap -> 0 < eta -> 0 < eta / (INR n * kap).
Proof. intros. apply Rdiv_lt_0_compat; [lra|]. apply Rmult_lt_0_compat; lra. Qed.

Lemma length_tilt : forall kap eta, 0 < kap -> 0 < eta ->
  fjc_modified_canonical.nondimensional_end_to_end_length_per_link prof N (eta / (IZR N * kap)) kap
  = Some (dZk kap eta / Zk kap eta / INR n).
Proof using Hn.
  intros kap eta Hk He. rewrite IN. unfold fjc_modified_canonical.nondimensional_end_to_end_length_per_link.
  unfold N at 1. rewrite nd_force_ok by auto. cbn [bind]. f_equal.
  change (eta / (INR n * kap) - quad (num n kap (eta / (INR n * kap))) / part n kap (eta / (INR n * kap)) / INR n / kap / IZR N
    = dZk kap eta / Zk kap eta / INR n).
  rewrite force_tilt, IN by assumption. pose proof (Zk_pos kap eta He). field. repeat split; lra.
Qed.

Lemma gibbs_tilt : forall l m T kap eta, 0 < kap -> 0 < eta ->
  fjc_modified_canonical.nondimensional_gibbs_free_energy prof N l m (eta / (IZR N * kap)) kap T
  = Some (- ln (Zk kap eta) - (IZR N - 1) * ln (8 * PI ^ 2 * m * l ^ 2 * kB * T / hP ^ 2)).
Proof using Hn.
  intros l m T kap eta Hk He. rewrite IN.
  assert (Q : (0 < N)%Z) by (unfold N; lia).
  pose proof (gibbs prof N l m (eta / (INR n * kap)) 1 kap T Q) as G.
  destruct G as (_ & _ & _ & _ & G & _). rewrite G.
  pose proof (nd_helmholtz_ok prof n kap Hn Hk l m (eta / (INR n * kap)) T (Hd kap eta Hk He)) as A. fold N in A.
  rewrite A. cbn [option_map]. f_equal.
  rewrite part_tilt by assumption. rewrite ln_mult by (apply exp_pos || (apply Zk_pos; exact He)).
  rewrite ln_exp, IN. unfold momentum, st. field. lra.
Qed.

(** ** Bounds *)
Lemma dtilt_bounds : forall eta x, 0 < eta -> 0 < x < 1 -> 0 < dtilt eta x < INR n * tilt eta x.
Proof using Hn.
  intros eta x He Hx. set (y := INR n * eta * x).
  assert (Y : 0 < y) by (unfold y; repeat apply Rmult_lt_0_compat; lra).
  assert (S : 0 < sinh y) by (apply sinh_pos'; exact Y).
  assert (L1 : langevin y < y / (1 + y)) by (apply langevin_upper_1; exact Y).
  assert (L0 : 0 < langevin y).
  { pose proof (langevin_lower_3 y Y). assert (0 < y / (3 + y)) by (apply Rdiv_lt_0_compat; lra). lra. }
  assert (L2 : y / (1 + y) < 1) by (apply (Rmult_lt_reg_r (1 + y)); [lra|]; field_simplify; lra).
  assert (T : 0 < tilt eta x) by (apply tilt_pos; lra).
  replace (dtilt eta x) with (INR n * x * tilt eta x * langevin y).
  2:{ unfold dtilt, tilt, langevin. fold y. set (s := sinh y) in *. set (c := cosh y).
      clearbody s c. unfold y. field. repeat split; lra. }
  assert (Q : 0 < INR n * tilt eta x) by (apply Rmult_lt_0_compat; lra).
  replace (INR n * x * tilt eta x * langevin y) with (INR n * tilt eta x * (x * langevin y)) by ring.
  split; [apply Rmult_lt_0_compat; [exact Q|apply Rmult_lt_0_compat; lra]|].
  rewrite <- (Rmult_1_r (INR n * tilt eta x)) at 2. apply Rmult_lt_compat_l; [exact Q|]. nra.
Qed.

Lemma length_bounds : forall kap eta, 0 < kap -> 0 < eta -> 0 < dZk kap eta / Zk kap eta / INR n < 1.
Proof using Hn.
  intros kap eta Hk He. pose proof (Zk_pos kap eta He) as Z.
  assert (W : forall x, 0 < x < 1 -> 0 < w0 x * gauss kap x).
  { intros x Hx. apply Rmult_lt_0_compat; [apply w0_pos; exact Hx|apply exp_pos]. }
  assert (A : 0 < dZk kap eta).
  { apply quad_pos. intros x Hx. apply Rmult_lt_0_compat; [apply W; exact Hx|apply dtilt_bounds; assumption]. }
  assert (B : 0 < INR n * Zk kap eta + -1 * dZk kap eta).
  { unfold Zk, dZk. rewrite <- quad_lin. apply quad_pos. intros x Hx. pose proof (W x Hx). pose proof (dtilt_bounds eta x He Hx).
    set (w := w0 x * gauss kap x) in *. nra. }
  split.
  - repeat apply Rdiv_lt_0_compat; assumption.
  - apply (Rmult_lt_reg_r (INR n)); [exact Pn|]. apply (Rmult_lt_reg_r (Zk kap eta)); [exact Z|].
    replace (dZk kap eta / Zk kap eta / INR n * INR n * Zk kap eta) with (dZk kap eta) by (field; lra). lra.
Qed.

(** ** Weak potential *)
Lemma gauss_sum_cont : forall (a : R -> R) k, continuous (fun kap => quad (fun x => w0 x * gauss kap x * a x)) k.
Proof using.
  intros a k. apply (ex_derive_continuous (V := R_NormedModule)).
  eexists. unfold quad.
  apply (is_derive_scal_l (K := R_AbsRing) (V := R_NormedModule)
    (fun kap => Rsum (map (fun x => w0 x * gauss kap x * a x) nodes)) k
    (Rsum (map (fun x => w0 x * (gauss k x * (- (1 / 2) * INR n ^ 2 * x ^ 2)) * a x) nodes)) ((1 - ZERO) / IZR POINTS)).
  apply (is_derive_Rsum (fun x kap => w0 x * gauss kap x * a x)
    (fun x => w0 x * (gauss k x * (- (1 / 2) * INR n ^ 2 * x ^ 2)) * a x)).
  intros x _. unfold gauss. generalize (w0 x) (a x) (INR n). intros u v c. auto_derive; [exact I|].
  set (e := exp _). ring.
Qed.

Lemma gauss_0 : forall x, gauss 0 x = 1.
Proof using. intro x. unfold gauss. rewrite <- exp_0. f_equal. ring. Qed.

Lemma at_right_le : filter_le (at_right 0) (locally 0).
Proof using. intros Q H. unfold at_right, within. apply (filter_imp Q); [intros; assumption|exact H]. Qed.

Lemma length_weak : forall eta, 0 < eta ->
  filterlim (fun kap => dZk kap eta / Zk kap eta / INR n) (at_right 0) (locally (dZk 0 eta / Zk 0 eta / INR n)).
Proof using Hn.
  intros eta He. apply (filterlim_filter_le_1 _ at_right_le).
  pose proof (Zk_pos 0 eta He) as Z.
  assert (C : continuous (fun kap => dZk kap eta / Zk kap eta / INR n) 0); [|exact C].
  unfold Rdiv at 1. apply (continuous_mult (K := R_AbsRing) (fun kap => dZk kap eta / Zk kap eta) (fun _ => / INR n)).
  2: apply continuous_const.
  apply (continuous_mult (K := R_AbsRing) (fun kap => dZk kap eta) (fun kap => / Zk kap eta)).
  - apply (gauss_sum_cont (dtilt eta)).
  - apply (continuous_comp (fun kap => Zk kap eta) Rinv); [apply (gauss_sum_cont (tilt eta))|].
    apply continuous_Rinv. lra.
Qed.

Lemma gibbs_weak : forall eta c, 0 < eta ->
  filterlim (fun kap => - ln (Zk kap eta) - c) (at_right 0) (locally (- ln (Zk 0 eta) - c)).
Proof using Hn.
  intros eta c He. apply (filterlim_filter_le_1 _ at_right_le).
  pose proof (Zk_pos 0 eta He) as Z.
  assert (C : continuous (fun kap => - ln (Zk kap eta) - c) 0); [|exact C].
  apply (continuous_minus (V := R_NormedModule) (fun kap => - ln (Zk kap eta)) (fun _ => c)).
  2: apply continuous_const.
  apply (continuous_opp (V := R_NormedModule) (fun kap => ln (Zk kap eta))).
  apply (continuous_comp (fun kap => Zk kap eta) ln); [apply (gauss_sum_cont (tilt eta))|].
  apply continuity_pt_filterlim, derivable_continuous_pt. exists (/ Zk 0 eta). apply derivable_pt_lim_ln. exact Z.
Qed.

Lemma Zk_constant_force : forall eta, Zk 0 eta = constant_force_sum N eta.
Proof using Hn.
  intro eta. unfold Zk, constant_force_sum. rewrite <- quad_integrate. apply quad_ext. intros x Hx.
  rewrite gauss_0, IN. unfold N. rewrite Nat2Z.id. unfold w0, tilt. rewrite Rmult_1_r.
  rewrite P_walk by (lia || lra). ring.
Qed.

Lemma Zk_derive : forall eta, 0 < eta -> is_derive (Zk 0) eta (dZk 0 eta).
Proof using Hn.
  intros eta He. unfold Zk, dZk, quad.
  apply (is_derive_scal_l (K := R_AbsRing) (V := R_NormedModule)
    (fun eta => Rsum (map (fun x => w0 x * gauss 0 x * tilt eta x) nodes)) eta
    (Rsum (map (fun x => w0 x * gauss 0 x * dtilt eta x) nodes)) ((1 - ZERO) / IZR POINTS)).
  apply (is_derive_Rsum (fun x eta => w0 x * gauss 0 x * tilt eta x) (fun x => w0 x * gauss 0 x * dtilt eta x)).
  intros x Hx. apply nodes_in in Hx. generalize (w0 x * gauss 0 x). intro w.
  apply (is_derive_scal (fun eta => tilt eta x) eta w). unfold tilt, dtilt.
  assert (0 < INR n * eta * x) by (repeat apply Rmult_lt_0_compat; lra).
  evar_last.
  - apply (is_derive_div (fun e => sinh (INR n * e * x)) (fun e => INR n * e * x)).
    + apply (is_derive_comp (V := R_NormedModule) sinh (fun e => INR n * e * x)); [apply is_derive_sinh|].
      auto_derive; [exact I|reflexivity].
    + auto_derive; [exact I|reflexivity].
    + lra.
  - unfold scal; cbn -[sinh cosh INR pow]; unfold mult; cbn -[sinh cosh INR pow].
    set (c := cosh _). set (s := sinh _). field. repeat split; lra.
Qed.

(** ** Strong potential *)
Section Strong.
Variables (d xs : R).
Hypotheses (Hd0 : 0 < d) (Hin : In xs nodes) (Hnear : forall x, In x nodes -> x <> xs -> Rabs (d - xs) < Rabs (d - x)).

Definition r1 (kap x : R) : R := exp (- (1 / 2 * INR n ^ 2 * ((d - x) ^ 2 - (d - xs) ^ 2)) * kap).
Definition r2 (kap x : R) : R := exp (- (1 / 2 * INR n ^ 2 * ((d + x) ^ 2 - (d - xs) ^ 2)) * kap).
Definition A (kap x : R) : R := w0 x / x * ((d - x) * r1 kap x - (d + x) * r2 kap x + (r1 kap x - r2 kap x) * / (d * INR n ^ 2) * / kap).
Definition B (kap x : R) : R := w0 x / x * (r1 kap x - r2 kap x).
Definition one (x : R) : R := if Req_EM_T x xs then 1 else 0.

Lemma sq_lt : forall a b, Rabs a < Rabs b -> a ^ 2 < b ^ 2.
Proof using. intros a b H. rewrite <- (pow2_abs a), <- (pow2_abs b). pose proof (Rabs_pos a). nra. Qed.

Lemma r1_lim : forall x, In x nodes -> is_lim (fun kap => r1 kap x) p_infty (one x).
Proof using Hn Hnear.
  intros x Hx. unfold one. destruct (Req_EM_T x xs) as [->|D].
  - apply (is_lim_ext (fun _ => 1)); [|apply is_lim_const]. intro kap. unfold r1. rewrite <- exp_0. f_equal. ring.
  - unfold r1. apply lim_decay. pose proof (sq_lt _ _ (Hnear x Hx D)). assert (0 < INR n ^ 2) by (apply pow_lt; lra).
    repeat apply Rmult_lt_0_compat; lra.
Qed.

Lemma r2_lim : forall x, In x nodes -> is_lim (fun kap => r2 kap x) p_infty 0.
Proof using Hn Hnear Hd0 Hin.
  intros x Hx. unfold r2. apply lim_decay. pose proof (nodes_in x Hx). pose proof (nodes_in xs Hin).
  assert (0 < INR n ^ 2) by (apply pow_lt; lra).
  assert ((d - xs) ^ 2 < (d + x) ^ 2).
  { destruct (Req_EM_T x xs) as [->|D]; [nra|]. pose proof (sq_lt _ _ (Hnear x Hx D)). nra. }
  repeat apply Rmult_lt_0_compat; lra.
Qed.

Lemma inv_lim : is_lim (fun kap : R => / kap) p_infty 0.
Proof using.
  replace (Finite 0) with (Rbar_inv p_infty) by reflexivity.
  apply (is_lim_inv (fun k : R => k)); [apply is_lim_id | discriminate].
Qed.

Lemma A_lim : forall x, In x nodes -> is_lim (fun kap => A kap x) p_infty (w0 x / x * ((d - x) * one x)).
Proof using Hn Hnear Hd0 Hin.
  intros x Hx. unfold A. pose proof (r1_lim x Hx) as L1. pose proof (r2_lim x Hx) as L2.
  replace (w0 x / x * ((d - x) * one x)) with
    (w0 x / x * ((d - x) * one x - (d + x) * 0 + (one x - 0) * / (d * INR n ^ 2) * 0)) by ring.
  assert (S : forall f (c l : R), is_lim f p_infty l -> is_lim (fun k => c * f k) p_infty (c * l)).
  { intros f c l H. exact (is_lim_scal_l f c p_infty l H). }
  apply S. apply is_lim_plus'; [apply is_lim_minus'; apply S; assumption|].
  apply (is_lim_mult (fun k => (r1 k x - r2 k x) * / (d * INR n ^ 2)) (fun k => / k) p_infty
    ((one x - 0) * / (d * INR n ^ 2)) 0); [|apply inv_lim|exact I].
  apply (is_lim_ext (fun k => / (d * INR n ^ 2) * (r1 k x - r2 k x))); [intros; ring|].
  rewrite (Rmult_comm (one x - 0)). apply S. apply is_lim_minus'; assumption.
Qed.

Lemma B_lim : forall x, In x nodes -> is_lim (fun kap => B kap x) p_infty (w0 x / x * one x).
Proof using Hn Hnear Hd0 Hin.
  intros x Hx. unfold B. pose proof (r1_lim x Hx) as L1. pose proof (r2_lim x Hx) as L2.
  replace (w0 x / x * one x) with (w0 x / x * (one x - 0)) by ring.
  apply (is_lim_scal_l (fun k => r1 k x - r2 k x) (w0 x / x) p_infty (one x - 0)).
  apply is_lim_minus'; assumption.
Qed.

Lemma force_ratio : forall kap, 0 < kap -> quad (num n kap d) / part n kap d / INR n / kap
  = INR n * (Rsum (map (A kap) nodes) / Rsum (map (B kap) nodes)).
Proof using Hn Hnear Hd0 Hin.
  intros kap Hk. assert (S2 : 0 < INR n ^ 2) by (apply pow_lt; lra).
  pose proof (part_pos n kap Hn Hk d Hd0) as Pp. unfold part in *.
  set (c := exp (- (1 / 2) * st n kap * (d - xs) ^ 2)).
  assert (C : 0 < c) by apply exp_pos.
  assert (E1 : forall x, e1 n kap d x = c * r1 kap x).
  { intro x. unfold e1, c, r1. rewrite <- exp_plus. f_equal. unfold st. ring. }
  assert (E2 : forall x, e2 n kap d x = c * r2 kap x).
  { intro x. unfold e2, c, r2. rewrite <- exp_plus. f_equal. unfold st. ring. }
  assert (QN : quad (num n kap d) = c / (2 * d) * ((1 - ZERO) / IZR POINTS) * Rsum (map (A kap) nodes)).
  { unfold quad. rewrite (Rsum_ext (num n kap d) (fun x => c / (2 * d) * A kap x)); [rewrite Rsum_scal; ring|].
    intros x Hx. apply nodes_in in Hx. unfold num, A. rewrite E1, E2. unfold w0, st.
    set (a := r1 kap x). set (b := r2 kap x). field. repeat split; lra. }
  assert (QD : quad (den n kap d) = c / (2 * d * (INR n ^ 2 * kap)) * ((1 - ZERO) / IZR POINTS) * Rsum (map (B kap) nodes)).
  { unfold quad. rewrite (Rsum_ext (den n kap d) (fun x => c / (2 * d * (INR n ^ 2 * kap)) * B kap x)); [rewrite Rsum_scal; ring|].
    intros x Hx. apply nodes_in in Hx. unfold den, B. rewrite E1, E2. unfold w0, st.
    set (a := r1 kap x). set (b := r2 kap x). field. repeat split; lra. }
  rewrite QD in Pp. rewrite QN, QD.
  assert (H : 0 < (1 - (ZERO : R)) / IZR POINTS).
  { pose proof ZERO_pos. apply Rdiv_lt_0_compat; [lra|]. apply IZR_lt. reflexivity. }
  set (h := (1 - ZERO) / IZR POINTS) in *. set (a := Rsum (map (A kap) nodes)). set (b := Rsum (map (B kap) nodes)) in *.
  assert (b <> 0) by (intro Z; rewrite Z in Pp; lra).
  clearbody h a b c. field. repeat split; lra.
Qed.

Lemma ratio_lim : is_lim (fun kap => INR n * (Rsum (map (A kap) nodes) / Rsum (map (B kap) nodes))) p_infty (INR n * (d - xs)).
Proof using Hn Hnear Hd0 Hin.
  apply (is_lim_scal_l _ (INR n) p_infty (d - xs)).
  set (b := Rsum (map (fun x => w0 x / x * one x) nodes)).
  assert (Bp : 0 < b).
  { unfold b. assert (G : forall l, (forall x, In x l -> 0 < x < 1) -> In xs l -> 0 < Rsum (map (fun x => w0 x / x * one x) l)).
    { assert (K : forall x, 0 < x < 1 -> 0 < w0 x / x) by (intros x Hx; apply Rdiv_lt_0_compat; [apply w0_pos; exact Hx|lra]).
      assert (K0 : forall x, 0 < x < 1 -> 0 <= w0 x / x * one x).
      { intros x Hx. pose proof (K x Hx). unfold one. destruct (Req_EM_T x xs); lra. }
      intro l. induction l as [|y l IH]; intros Hl Hi; [destruct Hi|]. cbn [map Rsum].
      assert (Y : 0 <= w0 y / y * one y) by (apply K0, Hl; left; reflexivity).
      destruct Hi as [->|Hi].
      - assert (O : one xs = 1) by (unfold one; destruct (Req_EM_T xs xs); [reflexivity|congruence]).
        rewrite O. assert (0 < w0 xs / xs) by (apply K, Hl; left; reflexivity).
        assert (Z : 0 <= Rsum (map (fun x => w0 x / x * one x) l)).
        { clear - K0 Hl. induction l as [|z l IH]; cbn [map Rsum]; [lra|].
          assert (0 <= w0 z / z * one z) by (apply K0, Hl; right; left; reflexivity).
          assert (0 <= Rsum (map (fun x => w0 x / x * one x) l)); [|lra].
          apply IH. intros x [E|E]; apply Hl; [left; exact E|right; right; exact E]. }
        lra.
      - assert (0 < Rsum (map (fun x => w0 x / x * one x) l)); [|lra].
        apply IH; [intros x Hx; apply Hl; right; exact Hx|exact Hi]. }
    apply G; [exact nodes_in|exact Hin]. }
  assert (E : Rsum (map (fun x => w0 x / x * ((d - x) * one x)) nodes) = (d - xs) * b).
  { unfold b. rewrite <- Rsum_scal. apply Rsum_ext. intros x _. unfold one. destruct (Req_EM_T x xs) as [->|]; ring. }
  replace (d - xs) with ((d - xs) * b / b) by (field; lra). rewrite <- E.
  apply (is_lim_div (fun k => Rsum (map (A k) nodes)) (fun k => Rsum (map (B k) nodes)) p_infty
    (Rsum (map (fun x => w0 x / x * ((d - x) * one x)) nodes)) b).
  - apply (lim_Rsum (fun x k => A k x)). exact A_lim.
  - apply (lim_Rsum (fun x k => B k x)). exact B_lim.
  - intro F. injection F. lra.
  - exact I.
Qed.
End Strong.
End Fixed.

(** ** Over the integers *)
Lemma node_grid : forall x, In x nodes <-> exists i, (0 <= i < 64)%Z /\ x = grid i.
Proof.
  assert (G : forall i, math.midpoint ZERO ((1 - ZERO) / IZR POINTS) i = grid i).
  { intro i. unfold grid. replace (1 / 10 ^ 6) with (ZERO : R) by (rewrite Z_eq; lra).
    change (ZERO + (Rdec 5 1 + IZR i) * ((1 - ZERO) / 64) = ZERO + (IZR i + 1 / 2) * ((1 - ZERO) / 64)).
    replace (Rdec 5 1) with (1 / 2) by (unfold Rdec; lra). ring. }
  intro x. unfold nodes. rewrite in_map_iff. split.
  - intros [i [E H]]. apply zrange_In in H. exists i. split; [exact H|]. rewrite <- E. apply G.
  - intros [i [H E]]. exists i. split; [rewrite E; apply G|]. apply zrange_In. exact H.
Qed.

Lemma nearest_node : forall d i, nearest d i ->
  In (grid i) nodes /\ forall x, In x nodes -> x <> grid i -> Rabs (d - grid i) < Rabs (d - x).
Proof.
  intros d i [Hi H]. split; [apply node_grid; exists i; auto|].
  intros x Hx D. apply node_grid in Hx. destruct Hx as [j [Hj ->]]. apply H; [exact Hj|]. intros ->. congruence.
Qed.

Section Integers.
Variables (prof : profile) (N : Z).
Hypothesis HN : (2 <= N <= 26)%Z.

Let n : nat := Z.to_nat N.
Let EN : Z.of_nat n = N. Proof. unfold n. lia. Qed.
Let Hn : (2 <= n <= 26)%nat. Proof. unfold n. lia. Qed.
Let IN : INR n = IZR N. Proof. rewrite INR_IZR_INZ, EN. reflexivity. Qed.
Let Pn : 0 < IZR N. Proof. apply IZR_lt. lia. Qed.

Lemma z_weak_gibbs : forall l m T eta, 0 < eta -> exists G : R -> R,
  (forall kap, 0 < kap ->
    fjc_modified_canonical.nondimensional_gibbs_free_energy prof N l m (eta / (IZR N * kap)) kap T = Some (G kap)) /\
  filterlim G (at_right 0) (locally (- ln (constant_force_sum N eta)
    - (IZR N - 1) * ln (8 * PI ^ 2 * m * l ^ 2 * kB * T / hP ^ 2))).
Proof using HN.
  intros l m T eta He. exists (fun kap => - ln (Zk n kap eta) - (IZR N - 1) * ln (8 * PI ^ 2 * m * l ^ 2 * kB * T / hP ^ 2)).
  split.
  - intros kap Hk. pose proof (gibbs_tilt prof n Hn l m T kap eta Hk He) as G. rewrite EN in G. exact G.
  - pose proof (Zk_constant_force n Hn eta) as E. rewrite EN in E. rewrite <- E. apply gibbs_weak; assumption.
Qed.

Lemma z_weak_length : forall eta, 0 < eta -> exists (X : R -> R) x,
  (forall kap, 0 < kap ->
    fjc_modified_canonical.nondimensional_end_to_end_length_per_link prof N (eta / (IZR N * kap)) kap = Some (X kap)) /\
  filterlim X (at_right 0) (locally x) /\
  is_derive (fun e => ln (constant_force_sum N e)) eta (IZR N * x).
Proof using HN.
  intros eta He. exists (fun kap => dZk n kap eta / Zk n kap eta / INR n), (dZk n 0 eta / Zk n 0 eta / INR n).
  pose proof (Zk_pos n Hn 0 eta He) as Z.
  split; [|split].
  - intros kap Hk. pose proof (length_tilt prof n Hn kap eta Hk He) as G. rewrite EN in G. exact G.
  - apply length_weak; assumption.
  - apply (is_derive_ext (fun e => ln (Zk n 0 e))).
    { intro e. f_equal. pose proof (Zk_constant_force n Hn e) as E. rewrite EN in E. exact E. }
    evar_last.
    + apply (is_derive_comp (V := R_NormedModule) ln (Zk n 0)); [apply is_derive_ln; exact Z|apply Zk_derive; assumption].
    + change (dZk n 0 eta * / Zk n 0 eta = IZR N * (dZk n 0 eta / Zk n 0 eta / INR n)). rewrite IN. field. lra.
Qed.

Lemma z_length_bounds : forall d kap, 0 < d -> 0 < kap -> exists x,
  fjc_modified_canonical.nondimensional_end_to_end_length_per_link prof N d kap = Some x /\ 0 < x < 1.
Proof using HN.
  intros d kap Hd Hk. set (eta := IZR N * kap * d).
  assert (He : 0 < eta) by (unfold eta; repeat apply Rmult_lt_0_compat; lra).
  exists (dZk n kap eta / Zk n kap eta / INR n). split.
  - pose proof (length_tilt prof n Hn kap eta Hk He) as G. rewrite EN in G. rewrite <- G. f_equal. unfold eta. field. lra.
  - apply length_bounds; assumption.
Qed.

Lemma z_strong : forall d i, 0 < d -> nearest d i -> exists F X : R -> R,
  (forall kap, 0 < kap ->
    fjc_modified_canonical.nondimensional_force prof N d kap = Some (F kap) /\
    fjc_modified_canonical.nondimensional_end_to_end_length_per_link prof N d kap = Some (X kap)) /\
  is_lim (fun kap => F kap / kap) p_infty (IZR N * (d - grid i)) /\
  is_lim X p_infty (grid i).
Proof using HN.
  intros d i Hd Hi. apply nearest_node in Hi. destruct Hi as [I1 I2].
  exists (fun kap => quad (num n kap d) / part n kap d / INR n), (fun kap => d - quad (num n kap d) / part n kap d / INR n / kap / IZR N).
  assert (L : is_lim (fun kap => quad (num n kap d) / part n kap d / INR n / kap) p_infty (IZR N * (d - grid i))).
  { rewrite <- IN. eapply is_lim_ext_loc; [|apply (ratio_lim n Hn d (grid i) Hd I1 I2)].
    exists 0. intros kap Hk. symmetry. apply force_ratio; assumption. }
  split; [|split; [exact L|]].
  - intros kap Hk. pose proof (nd_force_ok prof n kap Hn Hk d Hd) as E. rewrite EN in E. split; [exact E|].
    unfold fjc_modified_canonical.nondimensional_end_to_end_length_per_link. rewrite E. reflexivity.
  - replace (Finite (grid i)) with (Finite (d - / IZR N * (IZR N * (d - grid i)))) by (f_equal; field; lra).
    apply (is_lim_minus' (fun _ => d)); [apply is_lim_const|].
    apply (is_lim_ext (fun kap => / IZR N * (quad (num n kap d) / part n kap d / INR n / kap))).
    { intro kap. unfold Rdiv. ring. }
    exact (is_lim_scal_l _ (/ IZR N) p_infty _ L).
Qed.
End Integers.

Lemma lim_ratio_infty : forall (F : R -> R) c, c <> 0 -> is_lim (fun k => F k / k) p_infty c ->
  is_lim (fun k => Rabs (F k)) p_infty p_infty.
Proof.
  intros F c Hc L. apply (is_lim_ext_loc (fun k => Rabs (F k / k) * k)).
  { exists 0. intros k Hk. unfold Rdiv. rewrite Rabs_mult, Rabs_inv, (Rabs_right k) by lra. field. lra. }
  pose proof (is_lim_Rabs _ _ _ L) as LA.
  assert (P : 0 < Rabs c) by (apply Rabs_pos_lt; exact Hc).
  pose proof (is_lim_mult (fun k => Rabs (F k / k)) (fun k => k) p_infty (Rabs c) p_infty LA (is_lim_id p_infty)) as M.
  assert (E : Rbar_mult (Rabs c) p_infty = p_infty).
  { apply is_Rbar_mult_unique, is_Rbar_mult_sym, is_Rbar_mult_p_infty_pos. exact P. }
  rewrite E in M. apply M. cbn. lra.
Qed.

Lemma z_strong_diverges : forall prof N d i, (2 <= N <= 26)%Z -> 0 < d -> nearest d i -> d <> grid i -> exists F : R -> R,
  (forall kap, 0 < kap -> fjc_modified_canonical.nondimensional_force prof N d kap = Some (F kap)) /\
  is_lim (fun kap => Rabs (F kap)) p_infty p_infty.
Proof.
  intros prof N d i HN Hd Hi D. destruct (z_strong prof N HN d i Hd Hi) as (F & X & E & L & _).
  exists F. split; [intros kap Hk; apply (E kap Hk)|]. apply (lim_ratio_infty F (IZR N * (d - grid i))); [|exact L].
  assert (0 < IZR N) by (apply IZR_lt; lia). intro Z. apply Rmult_integral in Z. destruct Z; lra.
Qed.

Lemma grid_half : nearest (1 / 2) 31 /\ 1 / 2 <> grid 31.
Proof.
  assert (E : forall j, 1 / 2 - grid j = (1 - 1 / 10 ^ 6) / 64 * (63 / 2 - IZR j) - 1 / 10 ^ 6 / 2).
  { intro j. unfold grid. field. }
  split; [split; [lia|]|].
  - intros j Hj D. rewrite !E. assert (A : (j <= 30)%Z \/ (32 <= j)%Z) by lia.
    assert (Q : Rabs ((1 - 1 / 10 ^ 6) / 64 * (63 / 2 - 31) - 1 / 10 ^ 6 / 2) = (1 - 1 / 10 ^ 6) / 64 * (63 / 2 - 31) - 1 / 10 ^ 6 / 2)
      by (apply Rabs_right; lra).
    rewrite Q. destruct A as [A|A]; apply IZR_le in A.
    + rewrite Rabs_right; lra.
    + rewrite Rabs_left; lra.
  - unfold grid. lra.
Qed.

(** ** The asymptotic approaches *)
Lemma z_asymptotic_weak : forall (N : Z) (eta : R), (0 < N)%Z -> filterlim
  (fun kap => fjc_modified_canonical_asymptotic_weak_potential.nondimensional_end_to_end_length_per_link N (eta / (IZR N * kap)) kap)
  (at_right 0) (locally (fjc_isotensional.nondimensional_end_to_end_length_per_link eta)).
Proof.
  intros N eta HN. destruct (weak_leading N eta HN) as [c E].
  apply (filterlim_ext_loc (fun kap => fjc_isotensional.nondimensional_end_to_end_length_per_link eta + c * kap)).
  { unfold at_right, within. exists (mkposreal 1 Rlt_0_1). intros k _ Hk. symmetry. apply E. exact Hk. }
  apply (filterlim_filter_le_1 _ at_right_le).
  set (a := fjc_isotensional.nondimensional_end_to_end_length_per_link eta).
  assert (C : continuous (fun kap => a + c * kap) 0).
  2:{ unfold continuous in C. replace (a + c * 0) with a in C by ring. exact C. }
  apply (ex_derive_continuous (V := R_NormedModule)). auto_derive. exact I.
Qed.

Lemma z_asymptotic_strong : forall prof (N : Z) (g : R), (2 <= N <= 26)%Z -> 0 < g < 1 -> exists f0 (F : R -> R),
  fjc_isometric.nondimensional_force prof N g = Some f0 /\
  (forall kap, 0 < kap -> fjc_modified_canonical_asymptotic_strong_potential.nondimensional_force prof N g kap = Some (F kap)) /\
  is_lim F p_infty f0.
Proof.
  intros prof N g HN Hg. destruct (z_strong_leading prof N g HN Hg) as (f0 & E & c & H).
  exists f0, (fun kap => f0 + c * / kap). split; [exact E|]. split; [exact H|].
  replace (Finite f0) with (Finite (f0 + c * 0)) by (f_equal; ring).
  apply is_lim_plus'; [apply is_lim_const|]. exact (is_lim_scal_l _ c p_infty _ inv_lim).
Qed.

(** ** The extension increases with the distance of the potential *)
Definition ddtilt (n : nat) (eta x : R) : R :=
  INR n * x * sinh (INR n * eta * x) / eta - 2 * cosh (INR n * eta * x) / eta ^ 2
  + 2 * sinh (INR n * eta * x) / (INR n * eta ^ 3 * x).

Lemma cauchy_sum : forall (a g : R -> R) l, (forall x, In x l -> 0 <= a x) ->
  Rsum (map (fun x => a x * g x) l) ^ 2 <= Rsum (map (fun x => a x * g x ^ 2) l) * Rsum (map a l).
Proof.
  intros a g l. induction l as [|b l IH]; intro H; cbn [map Rsum]; [lra|].
  assert (Hb : 0 <= a b) by (apply H; left; reflexivity).
  assert (Hl : forall x, In x l -> 0 <= a x) by (intros x Hx; apply H; right; exact Hx).
  specialize (IH Hl).
  assert (K : 0 <= Rsum (map (fun x => a x * (g x - g b) ^ 2) l)).
  { clear - Hl. induction l as [|c l IH]; cbn [map Rsum]; [lra|].
    assert (0 <= a c * (g c - g b) ^ 2) by (apply Rmult_le_pos; [apply Hl; left; reflexivity|apply pow2_ge_0]).
    assert (0 <= Rsum (map (fun x => a x * (g x - g b) ^ 2) l)); [|lra]. apply IH. intros x Hx. apply Hl. right. exact Hx. }
  assert (E : Rsum (map (fun x => a x * (g x - g b) ^ 2) l)
    = Rsum (map (fun x => a x * g x ^ 2) l) - 2 * g b * Rsum (map (fun x => a x * g x) l) + g b ^ 2 * Rsum (map a l)).
  { rewrite (Rsum_ext _ (fun x => a x * g x ^ 2 + (- 2 * g b * (a x * g x) + g b ^ 2 * a x))) by (intros; ring).
    rewrite Rsum_plus, Rsum_plus, !Rsum_scal. ring. }
  rewrite E in K. set (s2 := Rsum (map (fun x => a x * g x ^ 2) l)) in *.
  set (s1 := Rsum (map (fun x => a x * g x) l)) in *. set (s0 := Rsum (map a l)) in *.
  set (u := a b) in *. set (v := g b) in *. clearbody s2 s1 s0 u v. nra.
Qed.

Section Increasing.
Variables (n : nat) (kap : R).
Hypotheses (Hn : (2 <= n <= 26)%nat).
Let Pn : 0 < INR n. Proof. apply lt_0_INR. lia. Qed.
Let w (x : R) : R := w0 n x * gauss n kap x.
Let w_pos : forall x, 0 < x < 1 -> 0 < w x.
Proof. intros x Hx. unfold w. apply Rmult_lt_0_compat; [apply w0_pos; assumption|apply exp_pos]. Qed.

Lemma quad_derive : forall (f f' : R -> R -> R) eta, (forall x, 0 < x < 1 -> is_derive (fun e => f e x) eta (f' eta x)) ->
  is_derive (fun e => quad (fun x => w x * f e x)) eta (quad (fun x => w x * f' eta x)).
Proof using.
  intros f f' eta H. unfold quad.
  apply (is_derive_scal_l (K := R_AbsRing) (V := R_NormedModule)
    (fun eta => Rsum (map (fun x => w x * f eta x) nodes)) eta (Rsum (map (fun x => w x * f' eta x) nodes)) ((1 - ZERO) / IZR POINTS)).
  apply (is_derive_Rsum (fun x eta => w x * f eta x) (fun x => w x * f' eta x)).
  intros x Hx. apply nodes_in in Hx. apply (is_derive_scal (fun e => f e x) eta (w x)). apply H. exact Hx.
Qed.

Lemma tilt_derive : forall eta x, 0 < eta -> 0 < x -> is_derive (fun e => tilt n e x) eta (dtilt n eta x).
Proof using Hn.
  intros eta x He Hx. unfold tilt, dtilt.
  assert (0 < INR n * eta * x) by (repeat apply Rmult_lt_0_compat; lra).
  evar_last.
  - apply (is_derive_div (fun e => sinh (INR n * e * x)) (fun e => INR n * e * x)).
    + apply (is_derive_comp (V := R_NormedModule) sinh (fun e => INR n * e * x)); [apply is_derive_sinh|].
      auto_derive; [exact I|reflexivity].
    + auto_derive; [exact I|reflexivity].
    + lra.
  - unfold scal; cbn -[sinh cosh INR pow]; unfold mult; cbn -[sinh cosh INR pow].
    set (c := cosh _). set (s := sinh _). field. repeat split; lra.
Qed.

Lemma dtilt_derive : forall eta x, 0 < eta -> 0 < x -> is_derive (fun e => dtilt n e x) eta (ddtilt n eta x).
Proof using Hn.
  intros eta x He Hx. unfold dtilt, ddtilt.
  assert (D : is_derive (fun e => INR n * e * x) eta (INR n * x)) by (auto_derive; [exact I|ring]).
  evar_last.
  - apply (is_derive_minus (V := R_NormedModule) (fun e => cosh (INR n * e * x) / e) (fun e => sinh (INR n * e * x) / (INR n * e ^ 2 * x))).
    + apply (is_derive_div (fun e => cosh (INR n * e * x)) (fun e => e)).
      * apply (is_derive_comp (V := R_NormedModule) cosh (fun e => INR n * e * x)); [apply is_derive_cosh|exact D].
      * apply (is_derive_id (K := R_AbsRing)).
      * lra.
    + apply (is_derive_div (fun e => sinh (INR n * e * x)) (fun e => INR n * e ^ 2 * x) eta (INR n * x * cosh (INR n * eta * x)) (2 * INR n * eta * x)).
      * apply (is_derive_comp (V := R_NormedModule) sinh (fun e => INR n * e * x)); [apply is_derive_sinh|exact D].
      * auto_derive; [exact I|ring].
      * apply Rgt_not_eq. repeat apply Rmult_lt_0_compat; lra.
  - unfold minus, plus, opp, scal, Hierarchy.one; cbn -[sinh cosh INR pow]; unfold mult; cbn -[sinh cosh INR pow].
    set (c := cosh _). set (s := sinh _). field. repeat split; lra.
Qed.

Lemma Zk_log_convex : forall eta, 0 < eta ->
  0 < quad (fun x => w x * ddtilt n eta x) * Zk n kap eta - dZk n kap eta ^ 2.
Proof using Hn.
  intros eta He.
  set (a := fun x => w x * tilt n eta x). set (g := fun x => INR n * x * langevin (INR n * eta * x)).
  assert (Ap : forall x, 0 < x < 1 -> 0 < a x).
  { intros x Hx. unfold a. apply Rmult_lt_0_compat; [apply w_pos; exact Hx|apply tilt_pos; (assumption || lra)]. }
  assert (EZ : Zk n kap eta = quad a) by reflexivity.
  assert (ED : dZk n kap eta = quad (fun x => a x * g x)).
  { unfold dZk. apply quad_ext. intros x Hx. unfold a, w, g, dtilt, tilt, langevin.
    assert (0 < INR n * eta * x) by (repeat apply Rmult_lt_0_compat; lra).
    assert (S : 0 < sinh (INR n * eta * x)) by (apply sinh_pos'; assumption).
    set (s := sinh _) in *. set (c := cosh _). set (u := w0 n x). set (v := gauss n kap x). field. repeat split; lra. }
  assert (EE : quad (fun x => w x * ddtilt n eta x)
    = quad (fun x => 1 * (a x * g x ^ 2) + 1 * (a x * ((INR n * x) ^ 2 * dlangevin (INR n * eta * x))))).
  { apply quad_ext. intros x Hx. unfold a, w, g, ddtilt, tilt, langevin, dlangevin.
    assert (0 < INR n * eta * x) by (repeat apply Rmult_lt_0_compat; lra).
    assert (S : 0 < sinh (INR n * eta * x)) by (apply sinh_pos'; assumption).
    pose proof (cosh2_sinh2 (INR n * eta * x)) as CS.
    set (s := sinh _) in *. set (c := cosh _) in *. set (u := w0 n x). set (v := gauss n kap x).
    clearbody s c u v.
    assert (Q : (c / s - 1 / (INR n * eta * x)) ^ 2 + (1 / (INR n * eta * x) ^ 2 - 1 / s ^ 2)
      = 1 - 2 * c / (s * (INR n * eta * x)) + 2 / (INR n * eta * x) ^ 2).
    { replace ((c / s - 1 / (INR n * eta * x)) ^ 2 + (1 / (INR n * eta * x) ^ 2 - 1 / s ^ 2))
        with ((c ^ 2 - 1) / s ^ 2 - 2 * c / (s * (INR n * eta * x)) + 2 / (INR n * eta * x) ^ 2) by (field; repeat split; lra).
      rewrite CS. field. repeat split; lra. }
    transitivity (u * v * (s / (INR n * eta * x)) * (INR n * x) ^ 2 *
      ((c / s - 1 / (INR n * eta * x)) ^ 2 + (1 / (INR n * eta * x) ^ 2 - 1 / s ^ 2))).
    - rewrite Q. field. repeat split; lra.
    - ring. }
  rewrite EE, quad_lin, ED, EZ.
  assert (V : 0 < quad (fun x => a x * ((INR n * x) ^ 2 * dlangevin (INR n * eta * x)))).
  { apply quad_pos. intros x Hx. assert (0 < INR n * x) by (apply Rmult_lt_0_compat; lra).
    apply Rmult_lt_0_compat; [apply Ap; exact Hx|]. apply Rmult_lt_0_compat; [apply pow_lt; assumption|].
    apply dlangevin_pos. repeat apply Rmult_lt_0_compat; lra. }
  assert (Z : 0 < quad a) by (apply quad_pos; exact Ap).
  assert (C : quad (fun x => a x * g x) ^ 2 <= quad (fun x => a x * g x ^ 2) * quad a).
  { unfold quad. set (h := (1 - ZERO) / IZR POINTS).
    pose proof (cauchy_sum a g nodes (fun x Hx => Rlt_le _ _ (Ap x (nodes_in x Hx)))) as K.
    set (s1 := Rsum (map (fun x => a x * g x) nodes)) in *. set (s2 := Rsum (map (fun x => a x * g x ^ 2) nodes)) in *.
    set (s0 := Rsum (map a nodes)) in *. clearbody s1 s2 s0 h.
    replace ((s1 * h) ^ 2) with (h ^ 2 * s1 ^ 2) by ring. replace (s2 * h * (s0 * h)) with (h ^ 2 * (s2 * s0)) by ring.
    apply Rmult_le_compat_l; [apply pow2_ge_0|exact K]. }
  set (q0 := quad a) in *. set (q1 := quad (fun x => a x * g x)) in *. set (q2 := quad (fun x => a x * g x ^ 2)) in *.
  set (v := quad _) in V |- *. clearbody q0 q1 q2 v. nra.
Qed.

Lemma length_increasing : forall s t, 0 < s < t ->
  dZk n kap s / Zk n kap s / INR n < dZk n kap t / Zk n kap t / INR n.
Proof using Hn.
  intros s t Hst.
  destruct (MVT_cor2 (fun e => dZk n kap e / Zk n kap e / INR n)
    (fun e => (quad (fun x => w x * ddtilt n e x) * Zk n kap e - dZk n kap e ^ 2) / Zk n kap e ^ 2 / INR n) s t) as (c & E & Hc).
  - lra.
  - intros e He. assert (Z : 0 < Zk n kap e) by (apply Zk_pos; (assumption || lra)).
    apply is_derive_Reals. evar_last.
    + apply (is_derive_div (fun e => dZk n kap e / Zk n kap e) (fun _ => INR n)); [|apply (is_derive_const (V := R_NormedModule))|lra].
      apply (is_derive_div (fun e => dZk n kap e) (fun e => Zk n kap e)); [| |lra].
      * apply (quad_derive (fun e x => dtilt n e x) (ddtilt n)). intros x Hx. apply dtilt_derive; lra.
      * apply (quad_derive (fun e x => tilt n e x) (dtilt n)). intros x Hx. apply tilt_derive; lra.
    + unfold zero; cbn -[INR pow Zk dZk]. fold (dZk n kap e).
      change (quad (fun x => w x * dtilt n e x)) with (dZk n kap e).
      set (q := quad _). set (z := Zk n kap e) in *. set (dz := dZk n kap e). clearbody q z dz. field. lra.
  - assert (0 < (quad (fun x => w x * ddtilt n c x) * Zk n kap c - dZk n kap c ^ 2) / Zk n kap c ^ 2 / INR n).
    { assert (Z : 0 < Zk n kap c) by (apply Zk_pos; (assumption || lra)).
      apply Rdiv_lt_0_compat; [|exact Pn]. apply Rdiv_lt_0_compat; [apply Zk_log_convex; lra|apply pow_lt; exact Z]. }
    set (q := (quad _ * _ - _) / _ / _) in *. nra.
Qed.
End Increasing.

Lemma z_length_increasing : forall prof (N : Z) (kap d e : R), (2 <= N <= 26)%Z -> 0 < kap -> 0 < d < e -> exists x y,
  fjc_modified_canonical.nondimensional_end_to_end_length_per_link prof N d kap = Some x /\
  fjc_modified_canonical.nondimensional_end_to_end_length_per_link prof N e kap = Some y /\ x < y.
Proof.
  intros prof N kap d e HN Hk Hd. set (n := Z.to_nat N).
  assert (EN : Z.of_nat n = N) by (unfold n; lia). assert (Hn : (2 <= n <= 26)%nat) by (unfold n; lia).
  assert (Pn : 0 < IZR N) by (apply IZR_lt; lia).
  assert (G : forall y, 0 < y -> fjc_modified_canonical.nondimensional_end_to_end_length_per_link prof N y kap
    = Some (dZk n kap (IZR N * kap * y) / Zk n kap (IZR N * kap * y) / INR n)).
  { intros y Hy. assert (He : 0 < IZR N * kap * y) by (repeat apply Rmult_lt_0_compat; lra).
    pose proof (length_tilt prof n Hn kap _ Hk He) as G. rewrite EN in G. rewrite <- G. f_equal. field. lra. }
  eexists. eexists. split; [apply G; lra|]. split; [apply G; lra|].
  apply length_increasing; [exact Hn|].
  assert (0 < IZR N * kap) by (apply Rmult_lt_0_compat; lra). split; [apply Rmult_lt_0_compat; lra|].
  apply Rmult_lt_compat_l; lra.
Qed.
