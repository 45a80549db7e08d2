(** Extension as minus the derivative of the Gibbs free energy. *)
From Coq Require Import Reals ZArith Lra Lia.
From Coquelicot Require Import Coquelicot.
From Verif Require Import Scalar MMath MConst SpecThermo SpecChains PBase PLift PHyp.
From Verif Require Import PIdentIdeal PIdentFjc PIdentSwfjc PIdentEfjc PIdentMorse PIdentLennardJones PIdentLogSquared.
Open Scope R_scope.

Lemma eta_ex : forall l T f, 0 < l -> 0 < T -> f <> 0 -> f * l / (kB * T) <> 0.
Proof. exact eta_neq_0. Qed.

Lemma kappa_pos : forall k l T, 0 < k -> 0 < l -> 0 < T -> 0 < kappa k l T.
Proof.
  intros. unfold kappa. pose proof kB_pos. apply Rdiv_lt_0_compat.
  - apply Rmult_lt_0_compat; [lra | apply pow_lt; lra].
  - apply Rmult_lt_0_compat; lra.
Qed.
Lemma epsilon_pos : forall e T, 0 < e -> 0 < T -> 0 < epsilon e T.
Proof.
  intros. unfold epsilon. pose proof kB_pos. apply Rdiv_lt_0_compat; [lra | apply Rmult_lt_0_compat; lra].
Qed.

(** FJC part. *)
Lemma derive_fjc : forall x, x <> 0 ->
  is_derive (fun x => - ln (sinh x / x)) x (- (1 / tanh x - 1 / x)).
Proof.
  intros x Hx. pose proof (sinh_div_pos x Hx). pose proof (sinh_neq_0 x Hx). pose proof (cosh_pos x).
  auto_derive.
  - repeat split; auto.
  - unfold tanh. field. repeat split; auto; lra.
Qed.

Lemma derive_shift : forall (f : R -> R) c x d, is_derive f x d -> is_derive (fun y => f y - c) x d.
Proof.
  intros f c x d H. apply is_derive_Reals. apply is_derive_Reals in H.
  replace d with (d - 0) by ring.
  apply derivable_pt_lim_minus; [exact H | apply derivable_pt_lim_const].
Qed.

Lemma derive_add : forall (f g : R -> R) x a b d, is_derive f x a -> is_derive g x b -> a + b = d ->
  is_derive (fun y => f y + g y) x d.
Proof.
  intros f g x a b d H K E. rewrite <- E. apply is_derive_Reals. apply is_derive_Reals in H.
  apply is_derive_Reals in K. apply derivable_pt_lim_plus; assumption.
Qed.

(** The correction for finite link stiffness common to the asymptotic models. *)
Lemma derive_correction : forall kap c x, 0 < kap -> 0 < c -> x <> 0 ->
  is_derive (fun x => - ln (1 + / c * x / tanh x / kap)) x
    (- (x / kap * ((tanh x - 1 / tanh x + 1 / x) / (c * tanh x + x / kap)))).
Proof.
  intros kap c x Hk Hc Hx.
  pose proof (sinh_neq_0 x Hx). pose proof (cosh_pos x). pose proof (x_div_tanh_pos x Hx) as P.
  assert (Q : 0 < / c * (x / tanh x) / kap).
  { apply Rdiv_lt_0_compat; [|assumption].
    apply Rmult_lt_0_compat; [apply Rinv_0_lt_compat; assumption | assumption]. }
  unfold tanh in *. auto_derive.
  - repeat split; try (apply Rgt_not_eq; assumption).
    + unfold Rdiv. apply Rmult_integral_contrapositive_currified; [assumption|].
      apply Rinv_neq_0_compat; lra.
    + replace (/ c * x * / (sinh x * / cosh x) * / kap) with (/ c * (x / (sinh x / cosh x)) / kap)
        by (unfold Rdiv; ring). lra.
  - assert (D : kap * c * sinh x + x * cosh x <> 0).
    { intro E. apply (Rgt_not_eq (/ c * (x / (sinh x / cosh x)) / kap + 1) 0); [lra|].
      replace (/ c * (x / (sinh x / cosh x)) / kap + 1)
        with ((kap * c * sinh x + x * cosh x) / (kap * c * sinh x)).
      - rewrite E; unfold Rdiv; ring.
      - field. repeat split; auto; lra. }
    assert (D' : c * sinh x * kap + x * cosh x <> 0).
    { replace (c * sinh x * kap + x * cosh x) with (kap * c * sinh x + x * cosh x) by ring. exact D. }
    field. repeat split; auto; lra.
Qed.

(** ** Ideal and freely jointed chains *)

Lemma ideal_isotensional_conjugate : forall N l m T f eta, (0 < N)%Z -> 0 < l -> 0 < T ->
  isotensional_conjugate_at (C_ideal_isotensional N l m T) f eta.
Proof.
  intros N l m T f eta HN Hl HT.
  assert (D : forall x, is_derive (I_nd_gibbs_per_link (C_ideal_isotensional N l m T)) x
                (- I_nd_length_per_link (C_ideal_isotensional N l m T) x)).
  { intro x. unR. auto_derive; [exact I | field]. }
  apply (lift_conjugate (IZR N) l T); auto using ideal_isotensional_dimensionless,
    ideal_isotensional_extensive, ideal_isotensional_relative.
Qed.

Lemma fjc_isotensional_conjugate : forall N l m T f eta, (0 < N)%Z -> 0 < l -> 0 < T -> f <> 0 -> eta <> 0 ->
  isotensional_conjugate_at (C_fjc_isotensional N l m T) f eta.
Proof.
  intros N l m T f eta HN Hl HT Hf He.
  assert (D : forall x, x <> 0 -> is_derive (I_nd_gibbs_per_link (C_fjc_isotensional N l m T)) x
                (- I_nd_length_per_link (C_fjc_isotensional N l m T) x)).
  { intros x Hx. unR. apply derive_shift, derive_fjc, Hx. }
  apply (lift_conjugate (IZR N) l T); auto using fjc_isotensional_dimensionless,
    fjc_isotensional_extensive, fjc_isotensional_relative, eta_neq_0.
Qed.

(** ** Square-well chain *)

Lemma eta_pos : forall l T f, 0 < l -> 0 < T -> 0 < f -> 0 < f * l / (kB * T).
Proof.
  intros. pose proof kB_pos. apply Rdiv_lt_0_compat; apply Rmult_lt_0_compat; lra.
Qed.

Lemma swfjc_isotensional_conjugate : forall N l m T w f eta,
  (0 < N)%Z -> 0 < l -> 0 < T -> 0 < w -> 0 < f -> 0 < eta ->
  isotensional_conjugate_at (C_swfjc_isotensional N l m T w) f eta.
Proof.
  intros N l m T w f eta HN Hl HT Hw Hf He.
  assert (D : forall x, 0 < x -> is_derive (I_nd_gibbs_per_link (C_swfjc_isotensional N l m T w)) x
                (- I_nd_length_per_link (C_swfjc_isotensional N l m T w) x)).
  { intros x Hx. unR. assert (V : 1 < 1 + w / l).
    { assert (0 < w / l) by (apply Rdiv_lt_0_compat; assumption). lra. }
    generalize dependent (1 + w / l). intros v V. apply derive_shift.
    assert (P : 0 < v * x * cosh (v * x) - sinh (v * x) - x * cosh x + sinh x).
    { assert (x < v * x) by nra. pose proof (xch_increasing x (v * x)) as Q. unfold xch in Q. lra. }
    auto_derive.
    - repeat split; lra.
    - field. split; [lra | apply Rgt_not_eq, P]. }
  apply (lift_conjugate (IZR N) l T); auto using swfjc_isotensional_dimensionless,
    swfjc_isotensional_extensive, swfjc_isotensional_relative, eta_pos.
Qed.

(** ** EFJC, asymptotic approximations *)

Lemma derive_quadratic : forall kap x, 0 < kap ->
  is_derive (fun x => - (5 / 10 * x ^ 2 / kap)) x (- (x / kap)).
Proof. intros kap x H. auto_derive; [exact I|]. field; lra. Qed.

Ltac ringR := cbv beta; unfold Rdiv; match goal with |- ?a = ?b => change (@eq R a b) end; ring.

(** Reduce the derivative of a sum to the derivatives [A], [B], [C] of its parts. *)
Lemma derive_sum2 : forall (f a b : R -> R) x d da db,
  is_derive a x da -> is_derive b x db ->
  (forall y, a y + b y = f y) -> da + db = d -> is_derive f x d.
Proof.
  intros f a b x d da db A B E Ed.
  apply (is_derive_ext (fun y => a y + b y)); [exact E|].
  eapply derive_add; eassumption.
Qed.
Lemma derive_sum3 : forall (f a b c : R -> R) x d da db dc,
  is_derive a x da -> is_derive b x db -> is_derive c x dc ->
  (forall y, a y + b y + c y = f y) -> da + db + dc = d -> is_derive f x d.
Proof.
  intros f a b c x d da db dc A B C E Ed.
  eapply (derive_sum2 f (fun y => a y + b y) c); [|exact C|exact E|exact Ed].
  eapply derive_add; [exact A|exact B|reflexivity].
Qed.

Lemma efjc_isotensional_asymptotic_conjugate : forall N l m T k f eta,
  (0 < N)%Z -> 0 < l -> 0 < T -> 0 < k -> f <> 0 -> eta <> 0 ->
  isotensional_conjugate_at (C_efjc_isotensional_asymptotic N l m T k) f eta.
Proof.
  intros N l m T k f eta HN Hl HT Hk Hf He.
  assert (D : forall x, x <> 0 -> is_derive (I_nd_gibbs_per_link (C_efjc_isotensional_asymptotic N l m T k)) x
                (- I_nd_length_per_link (C_efjc_isotensional_asymptotic N l m T k) x)).
  { intros x Hx. unR. do 2 apply derive_shift.
    pose proof (kappa_pos k l T Hk Hl HT) as Kp. generalize dependent (kappa k l T); intros kap Kp.
    eapply derive_sum3; [apply (derive_fjc x Hx) | apply (derive_quadratic kap x Kp)
      | apply (derive_correction kap 1 x Kp Rlt_0_1 Hx) | |].
    - intro y. rewrite Rinv_1, Rmult_1_l. ring.
    - rewrite Rmult_1_l. ring. }
  apply (lift_conjugate (IZR N) l T); auto using efjc_isotensional_asymptotic_dimensionless,
    efjc_isotensional_asymptotic_extensive, efjc_isotensional_asymptotic_relative, eta_neq_0.
Qed.

Lemma efjc_isotensional_asymptotic_reduced_conjugate : forall N l m T k f eta,
  (0 < N)%Z -> 0 < l -> 0 < T -> 0 < k -> f <> 0 -> eta <> 0 ->
  isotensional_conjugate_at (C_efjc_isotensional_asymptotic_reduced N l m T k) f eta.
Proof.
  intros N l m T k f eta HN Hl HT Hk Hf He.
  assert (D : forall x, x <> 0 -> is_derive (I_nd_gibbs_per_link (C_efjc_isotensional_asymptotic_reduced N l m T k)) x
                (- I_nd_length_per_link (C_efjc_isotensional_asymptotic_reduced N l m T k) x)).
  { intros x Hx. unR. do 2 apply derive_shift.
    pose proof (kappa_pos k l T Hk Hl HT) as Kp. generalize dependent (kappa k l T); intros kap Kp.
    eapply derive_sum2; [apply (derive_fjc x Hx) | apply (derive_quadratic kap x Kp) | |].
    - intro y. ringR.
    - ringR. }
  apply (lift_conjugate (IZR N) l T); auto using efjc_isotensional_asymptotic_reduced_dimensionless,
    efjc_isotensional_asymptotic_reduced_extensive, efjc_isotensional_asymptotic_reduced_relative, eta_neq_0.
Qed.

Lemma efjc_isotensional_asymptotic_alternative_conjugate : forall N l m T k f eta,
  (0 < N)%Z -> 0 < l -> 0 < T -> 0 < k -> f <> 0 -> eta <> 0 ->
  isotensional_conjugate_at (C_efjc_isotensional_asymptotic_alternative N l m T k) f eta.
Proof.
  intros N l m T k f eta HN Hl HT Hk Hf He.
  assert (D : forall x, x <> 0 -> is_derive (I_nd_gibbs_per_link (C_efjc_isotensional_asymptotic_alternative N l m T k)) x
                (- I_nd_length_per_link (C_efjc_isotensional_asymptotic_alternative N l m T k) x)).
  { intros x Hx. unR. do 2 apply derive_shift.
    pose proof (kappa_pos k l T Hk Hl HT) as Kp. generalize dependent (kappa k l T); intros kap Kp.
    assert (Q : is_derive (fun x => - (x / tanh x / kap)) x (- ((1 / tanh x - x / sinh x ^ 2) / kap))).
    { pose proof (sinh_neq_0 x Hx). pose proof (cosh_pos x). unfold tanh. auto_derive.
      - repeat split; auto; [lra|]. unfold Rdiv. apply Rmult_integral_contrapositive_currified; [assumption|].
        apply Rinv_neq_0_compat; lra.
      - pose proof (cosh2 x) as C2. field_simplify_eq; [|repeat split; auto; lra].
        replace (cosh x ^ 2) with (1 + sinh x ^ 2) by (symmetry; exact C2). ring. }
    eapply derive_sum3; [apply (derive_fjc x Hx) | apply (derive_quadratic kap x Kp) | exact Q | |].
    - intro y. ringR.
    - ringR. }
  apply (lift_conjugate (IZR N) l T); auto using efjc_isotensional_asymptotic_alternative_dimensionless,
    efjc_isotensional_asymptotic_alternative_extensive, efjc_isotensional_asymptotic_alternative_relative, eta_neq_0.
Qed.

(** ** Morse, asymptotic approximations *)

Lemma morse_constants : forall kap eps, 0 < kap -> 0 < eps ->
  0 < sqrt (kap / eps / 2) /\ 0 < sqrt (eps * kap / 8) /\
  eps * sqrt (kap / eps / 2) = 2 * sqrt (eps * kap / 8) /\
  sqrt (2 * eps / kap) = / sqrt (kap / eps / 2).
Proof.
  intros kap eps Hk He.
  assert (A : 0 < kap / eps / 2) by (apply Rdiv_lt_0_compat; [apply Rdiv_lt_0_compat|]; lra).
  assert (B : 0 < eps * kap / 8) by (apply Rdiv_lt_0_compat; [apply Rmult_lt_0_compat|]; lra).
  repeat split.
  - apply sqrt_lt_R0, A.
  - apply sqrt_lt_R0, B.
  - apply Rsqr_inj.
    + apply Rmult_le_pos; [lra | apply sqrt_pos].
    + apply Rmult_le_pos; [lra | apply sqrt_pos].
    + rewrite 2!Rsqr_mult, 2!Rsqr_sqrt by lra. unfold Rsqr. field. lra.
  - replace (2 * eps / kap) with (/ (kap / eps / 2)) by (field; lra). apply sqrt_inv.
Qed.

Lemma derive_morse : forall eps a xm x, 0 < a -> 0 < xm -> eps * a = 2 * xm -> x < xm ->
  is_derive (fun x => eps * (1 - 5 / 10 * (1 + sqrt (1 - x / xm))) ^ 2 - x / a * ln (2 / (1 + sqrt (1 - x / xm)))) x
    (- (ln (2 / (1 + sqrt (1 - x / xm))) / a)).
Proof.
  intros eps a xm x Ha Hm E Hx.
  assert (P : 0 < 1 - x / xm).
  { assert (x / xm < 1); [|lra]. apply Rmult_lt_reg_r with xm; [lra|]. field_simplify; lra. }
  pose proof (sqrt_lt_R0 _ P) as S. 
  assert (SS : sqrt (1 - x / xm) * sqrt (1 - x / xm) = 1 - x / xm) by (apply sqrt_sqrt; lra).
  auto_derive.
  - change (1 + - (x * / xm)) with (1 - x / xm).
    repeat split; try lra.
    apply Rmult_lt_0_compat; [lra|apply Rinv_0_lt_compat; lra].
  - change (1 + - (x * / xm)) with (1 - x / xm). set (s := sqrt (1 - x / xm)) in *.
    assert (X : x = xm * (1 - s * s)) by (rewrite SS; field; lra).
    assert (He : eps = 2 * xm / a) by (field_simplify_eq; lra).
    clearbody s. rewrite X, He. change (2 * / (1 + s)) with (2 / (1 + s)). field. repeat split; lra.
Qed.

Lemma morse_isotensional_asymptotic_conjugate : forall N l m T k e f eta,
  (0 < N)%Z -> 0 < l -> 0 < T -> 0 < k -> 0 < e -> f <> 0 -> eta <> 0 ->
  f * l / (kB * T) < sqrt (kappa k l T * epsilon e T / 8) ->
  eta < sqrt (kappa k l T * epsilon e T / 8) ->
  isotensional_conjugate_at (C_morse_isotensional_asymptotic N l m T k e) f eta.
Proof.
  intros N l m T k e f eta HN Hl HT Hk He Hf Hn Hfm Hnm.
  assert (D : forall x, x <> 0 -> x < sqrt (kappa k l T * epsilon e T / 8) ->
     is_derive (I_nd_gibbs_per_link (C_morse_isotensional_asymptotic N l m T k e)) x
                (- I_nd_length_per_link (C_morse_isotensional_asymptotic N l m T k e) x)).
  { intros x Hx Hm. unR. do 2 apply derive_shift.
    pose proof (kappa_pos k l T Hk Hl HT) as Kp. generalize dependent (kappa k l T); intros kap Hfm Hnm Hm Kp.
    pose proof (epsilon_pos e T He HT) as Ep. generalize dependent (epsilon e T); intros eps Hfm Hnm Hm Ep.
    rewrite (Rmult_comm kap) in Hm.
    destruct (morse_constants kap eps Kp Ep) as (A & B & C & _).
    generalize dependent (sqrt (kap / eps / 2)); intros a A C.
    generalize dependent (sqrt (eps * kap / 8)); intros xm Hm B C.
    assert (P : 0 < 1 + 15 / 10 * a) by lra.
    eapply derive_sum3; [apply (derive_fjc x Hx)
      | apply (derive_correction kap (/ (1 + 15 / 10 * a)) x Kp (Rinv_0_lt_compat _ P) Hx)
      | apply (derive_morse eps a xm x A B C Hm) | |].
    - intro y. rewrite Rinv_inv. ringR.
    - replace (tanh x / (1 + 15 / 10 * a)) with (/ (1 + 15 / 10 * a) * tanh x) by (unfold Rdiv; ring). ringR. }
  apply (lift_conjugate (IZR N) l T); auto using morse_isotensional_asymptotic_dimensionless,
    morse_isotensional_asymptotic_extensive, morse_isotensional_asymptotic_relative, eta_neq_0.
Qed.

Lemma morse_isotensional_asymptotic_reduced_conjugate : forall N l m T k e f eta,
  (0 < N)%Z -> 0 < l -> 0 < T -> 0 < k -> 0 < e -> f <> 0 -> eta <> 0 ->
  f * l / (kB * T) < sqrt (kappa k l T * epsilon e T / 8) ->
  eta < sqrt (kappa k l T * epsilon e T / 8) ->
  isotensional_conjugate_at (C_morse_isotensional_asymptotic_reduced N l m T k e) f eta.
Proof.
  intros N l m T k e f eta HN Hl HT Hk He Hf Hn Hfm Hnm.
  assert (D : forall x, x <> 0 -> x < sqrt (kappa k l T * epsilon e T / 8) ->
     is_derive (I_nd_gibbs_per_link (C_morse_isotensional_asymptotic_reduced N l m T k e)) x
                (- I_nd_length_per_link (C_morse_isotensional_asymptotic_reduced N l m T k e) x)).
  { intros x Hx Hm. unR. do 2 apply derive_shift.
    pose proof (kappa_pos k l T Hk Hl HT) as Kp. generalize dependent (kappa k l T); intros kap Hfm Hnm Hm Kp.
    pose proof (epsilon_pos e T He HT) as Ep. generalize dependent (epsilon e T); intros eps Hfm Hnm Hm Ep.
    rewrite (Rmult_comm kap) in Hm.
    destruct (morse_constants kap eps Kp Ep) as (A & B & C & E). rewrite E.
    generalize dependent (sqrt (kap / eps / 2)); intros a A C E.
    generalize dependent (sqrt (eps * kap / 8)); intros xm Hm B C.
    eapply derive_sum2; [apply (derive_fjc x Hx) | apply (derive_morse eps a xm x A B C Hm) | |].
    - intro y. ringR.
    - ringR. }
  apply (lift_conjugate (IZR N) l T); auto using morse_isotensional_asymptotic_reduced_dimensionless,
    morse_isotensional_asymptotic_reduced_extensive, morse_isotensional_asymptotic_reduced_relative, eta_neq_0.
Qed.
