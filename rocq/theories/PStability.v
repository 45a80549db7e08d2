(** Stability of the isotensional ensembles. *)
From Coq Require Import Reals ZArith Lra Lia.
From Coquelicot Require Import Coquelicot.
From Verif Require Import Scalar MMath MConst MIdeal MFjc MSwfjc MEfjc MMorse MLennardJones MLogSquared MWlc.
From Verif Require Import SpecThermo SpecChains SpecPartition SpecInverse SpecWorm SpecStability SpecLangevin.
From Verif Require Import PBase PHyp PConj PConjQuad PConvex PPartition PPartition2 PWorm.
From Verif Require PLangevin PSigmoid PIdentIdeal PIdentFjc PIdentSwfjc PIdentEfjc PIdentMorse PIdentLennardJones PIdentLogSquared.
Open Scope R_scope.

(** ** sinh x / x *)
Definition shc (x : R) : R := sinh x / x.

Lemma shc_pos : forall x, 0 < x -> 0 < shc x.
Proof. intros x Hx. unfold shc. apply Rdiv_lt_0_compat; [apply PLangevin.sinh_pos|]; exact Hx. Qed.

Lemma shc_increasing : forall a b, 0 < a -> a < b -> shc a < shc b.
Proof.
  intros a b Ha Hab.
  destruct (MVT_cor2 shc (fun x => (x * cosh x - sinh x) / x ^ 2) a b Hab) as (c & E & Hc).
  { intros c Hc. apply is_derive_Reals. unfold shc. evar_last.
    - apply (is_derive_div sinh (fun x => x)); [apply PLangevin.is_derive_sinh | apply is_derive_id | lra].
    - unfold one; cbn. field. lra. }
  pose proof (PLangevin.xcosh_gt c ltac:(lra)).
  assert (0 < (c * cosh c - sinh c) / c ^ 2) by (apply Rdiv_lt_0_compat; [lra | apply pow_lt; lra]).
  assert (0 < (c * cosh c - sinh c) / c ^ 2 * (b - a)) by (apply Rmult_lt_0_compat; lra). lra.
Qed.

Lemma sinh_product : forall m d, sinh (m + d) * sinh (m - d) = sinh m ^ 2 - sinh d ^ 2.
Proof.
  intros m d. unfold sinh. replace (- (m + d)) with (- m + - d) by ring. replace (- (m - d)) with (- m + d) by ring.
  replace (m - d) with (m + - d) by ring. rewrite !exp_plus.
  assert (Em : exp m * exp (- m) = 1) by (rewrite <- exp_plus, Rplus_opp_r; apply exp_0).
  assert (Ed : exp d * exp (- d) = 1) by (rewrite <- exp_plus, Rplus_opp_r; apply exp_0).
  set (a := exp m) in *. set (b := exp (- m)) in *. set (p := exp d) in *. set (q := exp (- d)) in *. clearbody a b p q.
  replace ((a * p - b * q) / 2 * ((a * q - b * p) / 2)) with ((a ^ 2 * (p * q) + b ^ 2 * (p * q) - (a * b) * (p ^ 2 + q ^ 2)) / 4) by field.
  replace (((a - b) / 2) ^ 2 - ((p - q) / 2) ^ 2) with ((a ^ 2 + b ^ 2 - 2 * (a * b) - p ^ 2 - q ^ 2 + 2 * (p * q)) / 4) by field.
  rewrite Em, Ed. field.
Qed.

Lemma shc_logconvex_lt : forall u v, 0 < u -> u < v -> shc ((u + v) / 2) ^ 2 < shc u * shc v.
Proof.
  intros u v Hu Huv. set (m := (u + v) / 2). set (d := (v - u) / 2).
  assert (Ev : v = m + d) by (unfold m, d; field). assert (Eu : u = m - d) by (unfold m, d; field).
  assert (Hd : 0 < d) by (unfold d; lra). assert (Hm : d < m) by (unfold d, m; lra).
  rewrite Ev, Eu. clearbody m d. clear Ev Eu Hu Huv.
  pose proof (shc_increasing d m Hd Hm) as I. pose proof (shc_pos d Hd) as Pd.
  assert (Q : shc d ^ 2 < shc m ^ 2) by (simpl; nra).
  assert (Ed : sinh d = d * shc d) by (unfold shc; field; lra). assert (Em : sinh m = m * shc m) by (unfold shc; field; lra).
  replace (shc (m - d) * shc (m + d)) with ((sinh (m + d) * sinh (m - d)) / (m ^ 2 - d ^ 2)) by (unfold shc; field; repeat split; nra).
  rewrite sinh_product. rewrite Ed, Em.
  assert (D : 0 < m ^ 2 - d ^ 2) by (simpl; nra).
  apply Rmult_lt_reg_r with (m ^ 2 - d ^ 2); [exact D|].
  replace (((m * shc m) ^ 2 - (d * shc d) ^ 2) / (m ^ 2 - d ^ 2) * (m ^ 2 - d ^ 2)) with (m ^ 2 * shc m ^ 2 - d ^ 2 * shc d ^ 2) by (field; lra).
  assert (d ^ 2 * shc d ^ 2 < d ^ 2 * shc m ^ 2) by (apply Rmult_lt_compat_l; [apply pow_lt; exact Hd | exact Q]). lra.
Qed.

Lemma shc_logconvex : logconvex shc.
Proof.
  intros u v Hu Hv Huv. destruct (Rtotal_order u v) as [H|[H|H]]; [|contradiction|].
  - apply shc_logconvex_lt; assumption.
  - replace ((u + v) / 2) with ((v + u) / 2) by field. rewrite (Rmult_comm (shc u)). apply shc_logconvex_lt; assumption.
Qed.

(** ** One link *)
Lemma link_weight_shc : forall u s x, 0 < s -> 0 < x -> link_weight u x s = s ^ 2 * exp (- u s) * shc (s * x).
Proof.
  intros u s x Hs Hx. unfold link_weight. rewrite angular_value by (apply Rgt_not_eq, Rmult_lt_0_compat; assumption).
  unfold shc. rewrite (Rmult_comm x s). ring.
Qed.

Lemma scaled_positive : forall k s, 0 < k -> 0 < s -> positive (fun x => k * shc (s * x)).
Proof. intros k s Hk Hs x Hx. apply Rmult_lt_0_compat; [exact Hk | apply shc_pos, Rmult_lt_0_compat; assumption]. Qed.

Lemma scaled_logconvex_link : forall k s, 0 < k -> 0 < s -> logconvex (fun x => k * shc (s * x)).
Proof.
  intros k s Hk Hs. apply (logconvex_scal k (fun x => shc (s * x)) Hk). intros u v Hu Hv Huv.
  replace (s * ((u + v) / 2)) with ((s * u + s * v) / 2) by field.
  apply shc_logconvex; [apply Rmult_lt_0_compat; assumption | apply Rmult_lt_0_compat; assumption |].
  intro E. apply Huv. apply Rmult_eq_reg_l with s; lra.
Qed.

Lemma scaled_nondecreasing : forall k s, 0 < k -> 0 < s -> nondecreasing (fun x => k * shc (s * x)).
Proof.
  intros k s Hk Hs u v Hu Huv. left. apply Rmult_lt_compat_l; [exact Hk|].
  apply shc_increasing; [apply Rmult_lt_0_compat; assumption | apply Rmult_lt_compat_l; assumption].
Qed.

Lemma weight_coefficient : forall u s, 0 < s -> 0 < s ^ 2 * exp (- u s).
Proof. intros u s Hs. apply Rmult_lt_0_compat; [apply pow_lt; exact Hs | apply exp_pos]. Qed.

(** ** Midpoint rules *)
Section Midpoint.
Variables (k : R) (w : R -> R) (r : R) (a b : R) (n : nat).
Hypotheses (Hk : 0 < k) (Hr : 0 < r) (Ha : 0 < a) (Hab : a < b) (Hn : (0 < n)%nat) (Hw : forall s, 0 < s -> 0 < w s).

Let Q (x : R) : R := k * midpoint_rule (fun s => w s * shc (r * s * x)) a b n.
Let node (i : nat) : R := a + (INR i + 1 / 2) * ((b - a) / INR n).

Lemma node_pos : forall i, 0 < node i.
Proof.
  intro i. unfold node. pose proof (pos_INR i). pose proof (lt_0_INR n Hn).
  assert (0 < (b - a) / INR n) by (apply Rdiv_lt_0_compat; lra).
  assert (0 < (INR i + 1 / 2) * ((b - a) / INR n)) by (apply Rmult_lt_0_compat; lra). lra.
Qed.

Let z (i : nat) (x : R) : R := w (node i) * shc (r * node i * x).

Lemma midpoint_sum : forall x, Q x = (k * ((b - a) / INR n)) * sum_f_R0 (fun i => z i x) (n - 1).
Proof. intro x. unfold Q, midpoint_rule, z, node. ring. Qed.

Lemma step_pos : 0 < k * ((b - a) / INR n).
Proof. apply Rmult_lt_0_compat; [exact Hk|]. apply Rdiv_lt_0_compat; [lra | apply lt_0_INR, Hn]. Qed.

Lemma z_facts : forall i, positive (z i) /\ logconvex (z i) /\ nondecreasing (z i).
Proof.
  intro i. pose proof (node_pos i) as P. pose proof (Hw (node i) P) as W.
  assert (0 < r * node i) by (apply Rmult_lt_0_compat; assumption). unfold z.
  split; [apply scaled_positive; assumption|]. split; [apply scaled_logconvex_link | apply scaled_nondecreasing]; assumption.
Qed.

Lemma midpoint_facts : positive Q /\ logconvex Q /\ nondecreasing Q.
Proof.
  pose proof step_pos as P. split; [|split].
  - intros x Hx. rewrite midpoint_sum. apply Rmult_lt_0_compat; [exact P|]. apply positive_sum; [|exact Hx]. intros i _. apply z_facts.
  - intros u v Hu Hv Huv. rewrite !midpoint_sum.
    apply (logconvex_scal _ (fun x => sum_f_R0 (fun i => z i x) (n - 1)) P); try assumption.
    apply logconvex_sum; intros i _; apply z_facts.
  - intros u v Hu Huv. rewrite !midpoint_sum. apply Rmult_le_compat_l; [lra|].
    apply (nondecreasing_sum z (n - 1)); [|exact Hu|exact Huv]. intros i _. apply z_facts.
Qed.
End Midpoint.

Lemma midpoint_ext_gen : forall f g a b n, 0 < a -> a < b -> (0 < n)%nat -> (forall s, 0 < s -> f s = g s) -> midpoint_rule f a b n = midpoint_rule g a b n.
Proof.
  intros f g a b n Ha Hab Hn H. unfold midpoint_rule. f_equal. apply sum_eq. intros i _. apply H. exact (node_pos a b n Ha Hab Hn i).
Qed.

(** A free energy that is minus the logarithm of a quadrature partition function. *)
Lemma stable_quadrature : forall g phi u b c, 1 <= b ->
  (forall x, 0 < x -> g x = - ln (2 * midpoint_rule (link_weight u x) (1 / 10 ^ 6) b 64) - c) ->
  (forall x, 0 < x -> is_derive g x (- phi x)) -> positive_increasing_on pulling phi.
Proof.
  intros g phi u b c Hb Hg Hd.
  destruct (midpoint_facts 2 (fun s => s ^ 2 * exp (- u s)) 1 (1 / 10 ^ 6) b 64) as (P & L & I); try lra; try lia.
  { intros s Hs. apply weight_coefficient. exact Hs. }
  apply (stable_of_partition g _ c phi P L I); [|exact Hd].
  intros x Hx. rewrite (Hg x Hx). f_equal. f_equal. f_equal. f_equal. apply midpoint_ext_gen; try lra; try lia.
  intros s Hs. rewrite link_weight_shc by assumption. rewrite Rmult_1_l. reflexivity.
Qed.

(** ** From one link to the four extensions *)
Lemma lift_stable : forall (D : R -> Prop) n l T c, 0 < n -> 0 < l -> 0 < T ->
  isotensional_dimensionless l T c -> isotensional_extensive n c ->
  positive_increasing_on D (I_nd_length_per_link c) -> isotensional_stable_on D l T c.
Proof.
  intros D n l T c Hn Hl HT Hd He [P I].
  assert (K : 0 < kB * T) by (pose proof kB_pos; apply Rmult_lt_0_compat; assumption).
  assert (M : forall x y, x < y -> x * l / (kB * T) < y * l / (kB * T)).
  { intros x y Hxy. apply Rmult_lt_compat_r; [apply Rinv_0_lt_compat; exact K | apply Rmult_lt_compat_r; assumption]. }
  assert (E2 : forall f, I_length_per_link c f = l * I_nd_length_per_link c (f * l / (kB * T))) by (intro f; apply (Hd f)).
  assert (E1 : forall f, I_length c f = n * (l * I_nd_length_per_link c (f * l / (kB * T)))) by (intro f; rewrite <- E2; apply (He f)).
  assert (E3 : forall x, I_nd_length c x = n * I_nd_length_per_link c x) by (intro x; apply (He x)).
  unfold isotensional_stable_on. repeat split.
  - intros x Hx. rewrite E1. repeat apply Rmult_lt_0_compat; try assumption. apply P, Hx.
  - intros x y Hx Hy Hxy. rewrite !E1. repeat apply Rmult_lt_compat_l; try assumption. apply I; auto.
  - intros x Hx. rewrite E2. repeat apply Rmult_lt_0_compat; try assumption. apply P, Hx.
  - intros x y Hx Hy Hxy. rewrite !E2. repeat apply Rmult_lt_compat_l; try assumption. apply I; auto.
  - intros x Hx. rewrite E3. repeat apply Rmult_lt_0_compat; try assumption. apply P, Hx.
  - intros x y Hx Hy Hxy. rewrite !E3. repeat apply Rmult_lt_compat_l; try assumption. apply I; auto.
  - exact P.
  - exact I.
Qed.

Lemma NR : forall N, (0 < N)%Z -> 0 < IZR N.
Proof. intros. apply IZR_lt. assumption. Qed.

(** ** The chains *)
Lemma ideal_stable : forall N l m T, (0 < N)%Z -> 0 < l -> 0 < T -> isotensional_stable_on pulling l T (C_ideal_isotensional N l m T).
Proof.
  intros N l m T HN Hl HT. apply (lift_stable pulling (IZR N)); auto using NR, PIdentIdeal.ideal_isotensional_dimensionless, PIdentIdeal.ideal_isotensional_extensive.
  assert (E : forall x, I_nd_length_per_link (C_ideal_isotensional N l m T) x = x / 3) by (intro x; unR; field).
  split; intros; rewrite ?E; unfold pulling in *; lra.
Qed.

Lemma fjc_stable : forall N l m T, (0 < N)%Z -> 0 < l -> 0 < T -> isotensional_stable_on pulling l T (C_fjc_isotensional N l m T).
Proof.
  intros N l m T HN Hl HT. apply (lift_stable pulling (IZR N)); auto using NR, PIdentFjc.fjc_isotensional_dimensionless, PIdentFjc.fjc_isotensional_extensive.
  apply (stable_of_partition (I_nd_gibbs_per_link (C_fjc_isotensional N l m T)) shc (hinge_term l m T)).
  - exact shc_pos.
  - exact shc_logconvex.
  - intros u v Hu Huv. left. apply shc_increasing; assumption.
  - intros x Hx. unfold shc. rewrite <- (angular_value x) by lra. exact (fjc_gibbs l m T x Hx).
  - intros x Hx. apply (fjc_isotensional_conjugate N l m T x x); try assumption; lra.
Qed.

Lemma well_facts : forall v, 1 < v -> positive (fun x => well_integral x v) /\ logconvex (fun x => well_integral x v) /\ nondecreasing (fun x => well_integral x v).
Proof.
  intros v Hv.
  assert (V : forall x, 0 < x -> well_integral x v = RInt (fun s => s ^ 2 * shc (s * x)) 1 v).
  { intros x Hx. rewrite <- (is_RInt_unique (V := R_CompleteNormedModule) _ _ _ _ (swfjc_integral x v ltac:(lra))).
    apply (RInt_ext (V := R_CompleteNormedModule)). intros s Hs. rewrite Rmin_left in Hs by lra.
    rewrite link_weight_shc by lra. rewrite Ropp_0, exp_0, Rmult_1_r. reflexivity. }
  assert (C : forall x s, 0 < x -> 0 < s -> continuous (fun s => s ^ 2 * shc (s * x)) s).
  { intros x s Hx Hs. apply (ex_derive_continuous (V := R_NormedModule)). unfold shc. auto_derive.
    repeat split; first [exact I | apply ex_derive_sinh | nra]. }
  assert (P : positive (fun x => well_integral x v)).
  { intros x Hx. rewrite V by exact Hx. apply RInt_gt_0; [exact Hv | | intros s Hs; apply C; lra].
    intros s Hs. apply Rmult_lt_0_compat; [apply pow_lt; lra | apply shc_pos; nra]. }
  split; [exact P|]. split.
  - intros x y Hx Hy Hxy. assert (Hm : 0 < (x + y) / 2) by lra.
    apply scaled_logconvex; [apply P; exact Hx | apply P; exact Hy | left; apply P; exact Hm|].
    intros t Ht. rewrite !V by assumption.
    assert (Ex : forall x, 0 < x -> ex_RInt (fun s => s ^ 2 * shc (s * x)) 1 v).
    { intros x' Hx'. apply (ex_RInt_continuous (V := R_CompleteNormedModule)). intros s Hs. rewrite Rmin_left in Hs by lra. apply C; lra. }
    replace (t * RInt (fun s => s ^ 2 * shc (s * x)) 1 v + RInt (fun s => s ^ 2 * shc (s * y)) 1 v / t)
      with (RInt (fun s => t * (s ^ 2 * shc (s * x)) + / t * (s ^ 2 * shc (s * y))) 1 v).
    2: { rewrite (RInt_plus (V := R_CompleteNormedModule) (fun s => t * (s ^ 2 * shc (s * x))) (fun s => / t * (s ^ 2 * shc (s * y)))).
         - rewrite (RInt_scal (V := R_CompleteNormedModule) (fun s => s ^ 2 * shc (s * x))) by (apply Ex; exact Hx).
           rewrite (RInt_scal (V := R_CompleteNormedModule) (fun s => s ^ 2 * shc (s * y))) by (apply Ex; exact Hy).
           unfold plus, scal; simpl; unfold mult; simpl. field. lra.
         - apply (ex_RInt_scal (V := R_CompleteNormedModule)), Ex, Hx.
         - apply (ex_RInt_scal (V := R_CompleteNormedModule)), Ex, Hy. }
    replace (2 * RInt (fun s => s ^ 2 * shc (s * ((x + y) / 2))) 1 v) with (RInt (fun s => 2 * (s ^ 2 * shc (s * ((x + y) / 2)))) 1 v)
      by (rewrite (RInt_scal (V := R_CompleteNormedModule) (fun s => s ^ 2 * shc (s * ((x + y) / 2)))) by (apply Ex; exact Hm); reflexivity).
    apply RInt_lt; [exact Hv | | |].
    + intros s Hs. apply (continuous_plus (V := R_NormedModule)); apply (continuous_scal_r (V := R_NormedModule)); apply C; lra.
    + intros s Hs. apply (continuous_scal_r (V := R_NormedModule)); apply C; lra.
    + intros s Hs. assert (S2 : 0 < s ^ 2) by (apply pow_lt; lra).
      pose proof (scaled_logconvex_link (s ^ 2) s S2 ltac:(lra) x y Hx Hy Hxy) as L.
      replace (/ t * (s ^ 2 * shc (s * y))) with (s ^ 2 * shc (s * y) / t) by (unfold Rdiv; ring).
      apply logconvex_scaled; [apply scaled_positive; lra | apply scaled_positive; lra | left; apply scaled_positive; lra | exact L | exact Ht].
  - intros x y Hx Hxy. left. rewrite !V by lra. apply RInt_lt; [exact Hv | intros; apply C; lra | intros; apply C; lra |].
    intros s Hs. apply Rmult_lt_compat_l; [apply pow_lt; lra|]. apply shc_increasing; nra.
Qed.

Lemma swfjc_stable : forall N l m T w, (0 < N)%Z -> 0 < l -> 0 < T -> 0 < w -> isotensional_stable_on pulling l T (C_swfjc_isotensional N l m T w).
Proof.
  intros N l m T w HN Hl HT Hw. apply (lift_stable pulling (IZR N)); auto using NR, PIdentSwfjc.swfjc_isotensional_dimensionless, PIdentSwfjc.swfjc_isotensional_extensive.
  assert (V : 1 < 1 + w / l) by (assert (0 < w / l) by (apply Rdiv_lt_0_compat; lra); lra).
  destruct (well_facts _ V) as (P & L & I).
  apply (stable_of_partition (I_nd_gibbs_per_link (C_swfjc_isotensional N l m T w)) _ (hinge_term l m T) _ P L I).
  - intros x Hx. destruct (swfjc_gibbs l m w T x Hl Hw Hx) as (Z & HZ & IZ & E).
    rewrite <- (is_RInt_unique (V := R_CompleteNormedModule) _ _ _ _ (swfjc_integral x (1 + w / l) ltac:(lra))).
    rewrite (is_RInt_unique (V := R_CompleteNormedModule) _ _ _ _ IZ). exact E.
  - intros x Hx. apply (swfjc_isotensional_conjugate N l m T w x x); assumption.
Qed.

Lemma morse_stable : forall N l m T k e, (0 < N)%Z -> 0 < l -> 0 < T -> 0 < k -> 0 < e -> isotensional_stable_on pulling l T (C_morse_isotensional N l m T k e).
Proof.
  intros N l m T k e HN Hl HT Hk He. apply (lift_stable pulling (IZR N)); auto using NR, PIdentMorse.morse_isotensional_dimensionless, PIdentMorse.morse_isotensional_extensive.
  pose proof (kappa_pos k l T Hk Hl HT) as Kp. pose proof (epsilon_pos e T He HT) as Ep.
  apply (stable_quadrature (I_nd_gibbs_per_link (C_morse_isotensional N l m T k e)) _ (morse_potential (kappa k l T) (epsilon e T))
    (1 + ln 2 / sqrt (kappa k l T / epsilon e T / 2)) (hinge_term l m T)).
  - assert (S : 0 < sqrt (kappa k l T / epsilon e T / 2)) by (apply sqrt_lt_R0; apply Rdiv_lt_0_compat; [apply Rdiv_lt_0_compat; assumption | lra]).
    assert (Ln : 0 < ln 2) by (rewrite <- ln_1; apply ln_increasing; lra).
    assert (0 < ln 2 / sqrt (kappa k l T / epsilon e T / 2)) by (apply Rdiv_lt_0_compat; assumption). lra.
  - intros x Hx. exact (morse_gibbs l m T (kappa k l T) (epsilon e T) x Kp Ep Hx).
  - intros x Hx. apply (morse_isotensional_conjugate N l m T k e x x); assumption.
Qed.

Lemma lennard_jones_stable : forall N l m T k, (0 < N)%Z -> 0 < l -> 0 < T -> 0 < k -> isotensional_stable_on pulling l T (C_lennard_jones_isotensional N l m T k).
Proof.
  intros N l m T k HN Hl HT Hk. apply (lift_stable pulling (IZR N)); auto using NR, PIdentLennardJones.lennard_jones_isotensional_dimensionless, PIdentLennardJones.lennard_jones_isotensional_extensive.
  apply (stable_quadrature (I_nd_gibbs_per_link (C_lennard_jones_isotensional N l m T k)) _ (lennard_jones_potential (kappa k l T))
    (Rpower (13 / 7) (1 / 6)) (hinge_term l m T)).
  - apply Rle_trans with (Rpower (13 / 7) 0); [rewrite Rpower_O by lra; lra | apply Rle_Rpower; lra].
  - intros x Hx. exact (lennard_jones_gibbs l m T (kappa k l T) x Hx).
  - intros x Hx. apply (lennard_jones_isotensional_conjugate N l m T k x x); assumption.
Qed.

Lemma log_squared_stable : forall N l m T k, (0 < N)%Z -> 0 < l -> 0 < T -> 0 < k -> isotensional_stable_on pulling l T (C_log_squared_isotensional N l m T k).
Proof.
  intros N l m T k HN Hl HT Hk. apply (lift_stable pulling (IZR N)); auto using NR, PIdentLogSquared.log_squared_isotensional_dimensionless, PIdentLogSquared.log_squared_isotensional_extensive.
  apply (stable_quadrature (I_nd_gibbs_per_link (C_log_squared_isotensional N l m T k)) _ (log_squared_potential (kappa k l T))
    (exp 1) (hinge_term l m T)).
  - pose proof (exp_ineq1 1 R1_neq_R0). lra.
  - intros x Hx. exact (log_squared_gibbs l m T (kappa k l T) x Hx).
  - intros x Hx. apply (log_squared_isotensional_conjugate N l m T k x x); assumption.
Qed.

(** ** The worm-like chain, wherever it returns *)
Lemma wlc_stable : forall N z eta1 eta2 x1 x2, (0 < N)%Z -> 0 < eta1 -> eta1 < eta2 ->
  wlc_isotensional.nondimensional_end_to_end_length N z eta1 = Some x1 ->
  wlc_isotensional.nondimensional_end_to_end_length N z eta2 = Some x2 -> 0 < x1 /\ x1 < x2.
Proof.
  intros N z eta1 eta2 x1 x2 HN H1 H2 E1 E2.
  rewrite (wlc_length N z HN eta1 x1 H1 E1). rewrite (wlc_length N z HN eta2 x2 ltac:(lra) E2).
  set (w := fun s : R => IZR N ^ 2 * s ^ 2 * exp (- wlc_isometric.nondimensional_helmholtz_free_energy N 1 1 z s 1)).
  destruct (midpoint_facts (4 * PI) w (IZR N) (/ 10 ^ 6) 1 64) as (P & L & I).
  - pose proof PI_RGT_0. lra.
  - apply NR, HN.
  - lra.
  - lra.
  - lia.
  - intros s Hs. unfold w. apply Rmult_lt_0_compat; [|apply exp_pos]. apply Rmult_lt_0_compat; apply pow_lt; [apply NR, HN | exact Hs].
  - destruct (stable_of_partition (worm_gibbs N 1 1 1 z) _ (ln (4 * sin (acos (exp (- 1 / z))) * PI ^ 2 * 1 * 1 ^ 2 * kB * 1 / hP ^ 2))
      (fun y => wint (wnum N z y) / wint (wden N z y)) P L I) as [Q M].
    + intros x Hx. unfold worm_gibbs. f_equal. f_equal. f_equal. unfold worm_partition. f_equal. apply midpoint_ext_gen; try lra; try lia.
      intros s Hs. unfold w, shc. pose proof (NR N HN). replace (IZR N * x * s) with (IZR N * s * x) by ring. field. repeat split; lra.
    + intros x Hx. apply worm_gibbs_derive; assumption.
    + split; [apply Q; exact H1 | apply M; unfold pulling; lra].
Qed.

(** ** Asymptotic approximations *)
Definition stiff_length (kap c x : R) : R :=
  (1 / tanh x - 1 / x) + x / kap * ((tanh x - 1 / tanh x + 1 / x) / (c * tanh x + x / kap)).

Lemma cosh_logconvex : forall u v, 0 < u -> 0 < v -> cosh ((u + v) / 2) ^ 2 <= cosh u * cosh v.
Proof.
  intros u v _ _. set (m := (u + v) / 2). set (d := (v - u) / 2).
  assert (Ev : v = m + d) by (unfold m, d; field). assert (Eu : u = m - d) by (unfold m, d; field). rewrite Ev, Eu.
  clearbody m d. clear.
  assert (E : cosh (m - d) * cosh (m + d) = cosh m ^ 2 + sinh d ^ 2).
  { unfold cosh, sinh. replace (- (m + d)) with (- m + - d) by ring. replace (- (m - d)) with (- m + d) by ring.
    replace (m - d) with (m + - d) by ring. rewrite !exp_plus.
    assert (Em : exp m * exp (- m) = 1) by (rewrite <- exp_plus, Rplus_opp_r; apply exp_0).
    assert (Ed : exp d * exp (- d) = 1) by (rewrite <- exp_plus, Rplus_opp_r; apply exp_0).
    set (a := exp m) in *. set (b := exp (- m)) in *. set (p := exp d) in *. set (q := exp (- d)) in *. clearbody a b p q.
    replace ((a * q + b * p) / 2 * ((a * p + b * q) / 2)) with ((a ^ 2 * (p * q) + b ^ 2 * (p * q) + (a * b) * (p ^ 2 + q ^ 2)) / 4) by field.
    replace (((a + b) / 2) ^ 2 + ((p - q) / 2) ^ 2) with ((a ^ 2 + b ^ 2 + 2 * (a * b) + p ^ 2 + q ^ 2 - 2 * (p * q)) / 4) by field.
    rewrite Em, Ed. field. }
  rewrite E. pose proof (pow2_ge_0 (sinh d)). lra.
Qed.

Lemma cosh_increasing : forall u v, 0 < u -> u < v -> cosh u < cosh v.
Proof.
  intros u v Hu Huv. destruct (MVT_cor2 cosh sinh u v Huv) as (c & E & Hc).
  { intros c Hc. apply is_derive_Reals, PLangevin.is_derive_cosh. }
  pose proof (PLangevin.sinh_pos c ltac:(lra)). assert (0 < sinh c * (v - u)) by (apply Rmult_lt_0_compat; lra). lra.
Qed.

Lemma stiff_stable : forall kap c, 0 < kap -> 0 < c -> positive_increasing_on pulling (stiff_length kap c).
Proof.
  intros kap c Hk Hc. set (q := / (c * kap)). assert (Hq : 0 < q) by (apply Rinv_0_lt_compat, Rmult_lt_0_compat; assumption).
  assert (Pz : positive (fun x => q * cosh x)) by (intros x _; apply Rmult_lt_0_compat; [exact Hq | apply PLangevin.cosh_pos]).
  apply (stable_of_partition (fun x => - ln (sinh x / x) + - ln (1 + / c * x / tanh x / kap)) (fun x => shc x + q * cosh x) 0).
  - intros x Hx. pose proof (shc_pos x Hx). pose proof (Pz x Hx). cbv beta in *. lra.
  - apply (logconvex_plus_weak shc (fun x => q * cosh x)); [exact shc_pos | exact Pz | exact shc_logconvex|].
    intros u v Hu Hv. replace ((q * cosh ((u + v) / 2)) ^ 2) with (q ^ 2 * cosh ((u + v) / 2) ^ 2) by ring.
    replace (q * cosh u * (q * cosh v)) with (q ^ 2 * (cosh u * cosh v)) by ring.
    apply Rmult_le_compat_l; [apply pow_le; lra | apply cosh_logconvex; assumption].
  - intros u v Hu Huv. pose proof (shc_increasing u v Hu Huv). pose proof (cosh_increasing u v Hu Huv).
    assert (q * cosh u < q * cosh v) by (apply Rmult_lt_compat_l; assumption). lra.
  - intros x Hx. pose proof (PLangevin.sinh_pos x Hx). pose proof (PLangevin.cosh_pos x).
    assert (T : 0 < / c * x / tanh x / kap).
    { unfold tanh. replace (/ c * x / (sinh x / cosh x) / kap) with (x * cosh x / (c * kap * sinh x)) by (field; repeat split; lra).
      apply Rdiv_lt_0_compat; repeat first [assumption | apply Rmult_lt_0_compat]. }
    rewrite <- Ropp_plus_distr, <- ln_mult; [|apply (shc_pos x Hx) | lra]. rewrite Rminus_0_r. f_equal. f_equal.
    unfold shc, q, tanh. field. repeat split; lra.
  - intros x Hx. unfold stiff_length. eapply derive_sum2; [apply (derive_fjc x); lra | apply (derive_correction kap c x Hk Hc); lra | intro y; reflexivity | ring].
Qed.

Lemma langevin_stable : positive_increasing_on pulling (fun x => 1 / tanh x - 1 / x).
Proof.
  assert (E : forall x, 0 < x -> 1 / tanh x - 1 / x = langevin x).
  { intros x Hx. pose proof (PLangevin.sinh_pos x Hx). pose proof (PLangevin.cosh_pos x). unfold langevin, tanh. field. repeat split; lra. }
  split; unfold pulling.
  - intros x Hx. rewrite E by exact Hx. apply PSigmoid.langevin_pos, Hx.
  - intros x y Hx Hy Hxy. rewrite !E by assumption. apply PLangevin.langevin_increasing. lra.
Qed.

Lemma stable_plus : forall (D : R -> Prop) f g h, (forall x, D x -> h x = f x + g x) -> positive_increasing_on D f ->
  (forall x, D x -> 0 <= g x) -> (forall x y, D x -> D y -> x < y -> g x <= g y) -> positive_increasing_on D h.
Proof.
  intros D f g h E [P I] G M. split.
  - intros x Hx. rewrite E by exact Hx. specialize (P x Hx). specialize (G x Hx). lra.
  - intros x y Hx Hy Hxy. rewrite !E by assumption. specialize (I x y Hx Hy Hxy). specialize (M x y Hx Hy Hxy). lra.
Qed.

Lemma stable_subset : forall (D E : R -> Prop) f, (forall x, E x -> D x) -> positive_increasing_on D f -> positive_increasing_on E f.
Proof. intros D E f H [P I]. split; auto. Qed.

Lemma div_mono : forall k x y, 0 < k -> x < y -> x / k <= y / k.
Proof. intros k x y Hk Hxy. apply Rmult_le_compat_r; [left; apply Rinv_0_lt_compat; exact Hk | lra]. Qed.

Lemma efjc_asymptotic_stable : forall N l m T k, (0 < N)%Z -> 0 < l -> 0 < T -> 0 < k -> isotensional_stable_on pulling l T (C_efjc_isotensional_asymptotic N l m T k).
Proof.
  intros N l m T k HN Hl HT Hk. apply (lift_stable pulling (IZR N)); auto using NR, PIdentEfjc.efjc_isotensional_asymptotic_dimensionless, PIdentEfjc.efjc_isotensional_asymptotic_extensive.
  pose proof (kappa_pos k l T Hk Hl HT) as Kp. unR. generalize dependent (kappa k l T). intros kap Kp.
  apply (stable_plus pulling (stiff_length kap 1) (fun x => x / kap)).
  - intros x Hx. unfold stiff_length. rewrite Rmult_1_l. ring.
  - apply stiff_stable; lra.
  - intros x Hx. unfold pulling in Hx. left. apply Rdiv_lt_0_compat; lra.
  - intros. apply div_mono; assumption.
Qed.

Lemma efjc_reduced_stable : forall N l m T k, (0 < N)%Z -> 0 < l -> 0 < T -> 0 < k -> isotensional_stable_on pulling l T (C_efjc_isotensional_asymptotic_reduced N l m T k).
Proof.
  intros N l m T k HN Hl HT Hk. apply (lift_stable pulling (IZR N)); auto using NR, PIdentEfjc.efjc_isotensional_asymptotic_reduced_dimensionless, PIdentEfjc.efjc_isotensional_asymptotic_reduced_extensive.
  pose proof (kappa_pos k l T Hk Hl HT) as Kp. unR. generalize dependent (kappa k l T). intros kap Kp.
  apply (stable_plus pulling (fun x => 1 / tanh x - 1 / x) (fun x => x / kap)).
  - intros x Hx. reflexivity.
  - exact langevin_stable.
  - intros x Hx. unfold pulling in Hx. left. apply Rdiv_lt_0_compat; lra.
  - intros. apply div_mono; assumption.
Qed.

(** coth x - x / sinh^2 x is positive and increasing. *)
Lemma coth_part_pos : forall x, 0 < x -> 0 <= 1 / tanh x - x / sinh x ^ 2.
Proof.
  intros x Hx. pose proof (PLangevin.sinh_gt x Hx). pose proof (PLangevin.cosh_gt_1 x Hx).
  replace (1 / tanh x - x / sinh x ^ 2) with ((sinh x * cosh x - x) / sinh x ^ 2) by (unfold tanh; field; repeat split; lra).
  apply Rmult_le_pos; [nra | left; apply Rinv_0_lt_compat, pow_lt; lra].
Qed.

Lemma coth_part_increasing : forall u v, 0 < u -> u < v -> 1 / tanh u - u / sinh u ^ 2 <= 1 / tanh v - v / sinh v ^ 2.
Proof.
  intros u v Hu Huv.
  destruct (MVT_cor2 (fun x => cosh x / sinh x - x / sinh x ^ 2) (fun x => 2 * (x * cosh x - sinh x) / sinh x ^ 3) u v Huv) as (c & E & Hc).
  { intros c Hc. pose proof (PLangevin.sinh_pos c ltac:(lra)). apply is_derive_Reals. evar_last.
    - apply (is_derive_minus (fun x => cosh x / sinh x) (fun x => x / sinh x ^ 2)).
      + apply (is_derive_div cosh sinh); [apply PLangevin.is_derive_cosh | apply PLangevin.is_derive_sinh | lra].
      + apply (is_derive_div (fun x => x) (fun x => sinh x ^ 2)); [apply is_derive_id | | apply pow_nonzero; lra].
        apply (is_derive_pow sinh 2); apply PLangevin.is_derive_sinh.
    - unfold minus, plus, opp, one; cbn. pose proof (PLangevin.cosh2_sinh2 c) as C2. field_simplify_eq; [|lra].
      replace (cosh c ^ 2) with (1 + sinh c ^ 2) by (symmetry; exact C2). ring. }
  pose proof (PLangevin.sinh_pos c ltac:(lra)). pose proof (PLangevin.xcosh_gt c ltac:(lra)).
  assert (0 < 2 * (c * cosh c - sinh c) / sinh c ^ 3) by (apply Rdiv_lt_0_compat; [lra | apply pow_lt; lra]).
  assert (F : forall x, 0 < x -> 1 / tanh x = cosh x / sinh x).
  { intros x Hx. pose proof (PLangevin.sinh_pos x Hx). pose proof (PLangevin.cosh_pos x). unfold tanh. field. split; lra. }
  rewrite !F by lra. assert (0 < 2 * (c * cosh c - sinh c) / sinh c ^ 3 * (v - u)) by (apply Rmult_lt_0_compat; lra). lra.
Qed.

Lemma efjc_alternative_stable : forall N l m T k, (0 < N)%Z -> 0 < l -> 0 < T -> 0 < k -> isotensional_stable_on pulling l T (C_efjc_isotensional_asymptotic_alternative N l m T k).
Proof.
  intros N l m T k HN Hl HT Hk. apply (lift_stable pulling (IZR N)); auto using NR, PIdentEfjc.efjc_isotensional_asymptotic_alternative_dimensionless, PIdentEfjc.efjc_isotensional_asymptotic_alternative_extensive.
  pose proof (kappa_pos k l T Hk Hl HT) as Kp. unR. generalize dependent (kappa k l T). intros kap Kp.
  apply (stable_plus pulling (fun x => 1 / tanh x - 1 / x) (fun x => (x + (1 / tanh x - x / sinh x ^ 2)) / kap)).
  - intros x Hx. ringR.
  - exact langevin_stable.
  - intros x Hx. unfold pulling in Hx. pose proof (coth_part_pos x Hx). left. apply Rdiv_lt_0_compat; lra.
  - intros x y Hx Hy Hxy. pose proof (coth_part_increasing x y Hx Hxy). apply div_mono; [assumption | lra].
Qed.

(** Morse links below the force that breaks them. *)
Lemma morse_stretch_nonneg : forall a xm x, 0 < a -> 0 < x < xm -> 0 <= ln (2 / (1 + sqrt (1 - x / xm))) / a.
Proof.
  intros a xm x Ha Hx. assert (Q : 0 < x / xm) by (apply Rdiv_lt_0_compat; lra).
  assert (S : sqrt (1 - x / xm) <= 1) by (rewrite <- sqrt_1 at 2; apply sqrt_le_1_alt; lra). pose proof (sqrt_pos (1 - x / xm)).
  apply Rmult_le_pos; [|left; apply Rinv_0_lt_compat; exact Ha].
  rewrite <- ln_1. apply Rcomplements.ln_le; [lra|]. apply Rmult_le_reg_r with (1 + sqrt (1 - x / xm)); [lra|].
  replace (2 / (1 + sqrt (1 - x / xm)) * (1 + sqrt (1 - x / xm))) with 2 by (field; lra). lra.
Qed.

Lemma morse_stretch_mono : forall a xm x y, 0 < a -> 0 < x < xm -> x < y ->
  ln (2 / (1 + sqrt (1 - x / xm))) / a <= ln (2 / (1 + sqrt (1 - y / xm))) / a.
Proof.
  intros a xm x y Ha Hx Hxy. assert (Q : x / xm <= y / xm) by (apply div_mono; lra).
  assert (S : sqrt (1 - y / xm) <= sqrt (1 - x / xm)) by (apply sqrt_le_1_alt; lra). pose proof (sqrt_pos (1 - y / xm)).
  apply Rmult_le_compat_r; [left; apply Rinv_0_lt_compat; exact Ha|]. apply Rcomplements.ln_le.
  - apply Rdiv_lt_0_compat; lra.
  - apply Rmult_le_compat_l; [lra|]. apply Rinv_le_contravar; lra.
Qed.

Definition below (b x : R) : Prop := 0 < x < b.

Lemma morse_asymptotic_stable : forall N l m T k e, (0 < N)%Z -> 0 < l -> 0 < T -> 0 < k -> 0 < e ->
  isotensional_stable_on (below (sqrt (kappa k l T * epsilon e T / 8))) l T (C_morse_isotensional_asymptotic N l m T k e).
Proof.
  intros N l m T k e HN Hl HT Hk He.
  apply (lift_stable _ (IZR N)); auto using NR, PIdentMorse.morse_isotensional_asymptotic_dimensionless, PIdentMorse.morse_isotensional_asymptotic_extensive.
  pose proof (kappa_pos k l T Hk Hl HT) as Kp. pose proof (epsilon_pos e T He HT) as Ep.
  remember (below (sqrt (kappa k l T * epsilon e T / 8))) as D eqn:ED. unR. subst D.
  generalize dependent (kappa k l T). intros kap Kp. generalize dependent (epsilon e T). intros eps Ep.
  rewrite (Rmult_comm kap). destruct (morse_constants kap eps Kp Ep) as (A & B & _).
  generalize dependent (sqrt (kap / eps / 2)); intros a A. generalize dependent (sqrt (eps * kap / 8)); intros xm B.
  assert (P : 0 < 1 + 15 / 10 * a) by lra.
  apply (stable_plus _ (stiff_length kap (/ (1 + 15 / 10 * a))) (fun x => ln (2 / (1 + sqrt (1 - x / xm))) / a)).
  - intros x Hx. unfold stiff_length. replace (tanh x / (1 + 15 / 10 * a)) with (/ (1 + 15 / 10 * a) * tanh x) by (unfold Rdiv; ring). ringR.
  - apply (stable_subset pulling); [unfold below, pulling; intros; lra | apply stiff_stable; [exact Kp | apply Rinv_0_lt_compat, P]].
  - intros x Hx. apply morse_stretch_nonneg; assumption.
  - intros x y Hx Hy Hxy. apply morse_stretch_mono; assumption.
Qed.

Lemma morse_reduced_stable : forall N l m T k e, (0 < N)%Z -> 0 < l -> 0 < T -> 0 < k -> 0 < e ->
  isotensional_stable_on (below (sqrt (kappa k l T * epsilon e T / 8))) l T (C_morse_isotensional_asymptotic_reduced N l m T k e).
Proof.
  intros N l m T k e HN Hl HT Hk He.
  apply (lift_stable _ (IZR N)); auto using NR, PIdentMorse.morse_isotensional_asymptotic_reduced_dimensionless, PIdentMorse.morse_isotensional_asymptotic_reduced_extensive.
  pose proof (kappa_pos k l T Hk Hl HT) as Kp. pose proof (epsilon_pos e T He HT) as Ep.
  remember (below (sqrt (kappa k l T * epsilon e T / 8))) as D eqn:ED. unR. subst D.
  generalize dependent (kappa k l T). intros kap Kp. generalize dependent (epsilon e T). intros eps Ep.
  rewrite (Rmult_comm kap). destruct (morse_constants kap eps Kp Ep) as (A & B & _ & E). rewrite E.
  generalize dependent (sqrt (kap / eps / 2)); intros a A E. generalize dependent (sqrt (eps * kap / 8)); intros xm B.
  apply (stable_plus _ (fun x => 1 / tanh x - 1 / x) (fun x => ln (2 / (1 + sqrt (1 - x / xm))) / a)).
  - intros x Hx. ringR.
  - apply (stable_subset pulling); [unfold below, pulling; intros; lra | exact langevin_stable].
  - intros x Hx. apply morse_stretch_nonneg; assumption.
  - intros x y Hx Hy Hxy. apply morse_stretch_mono; assumption.
Qed.
