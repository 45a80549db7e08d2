(** The initial stiffness of the Gaussian network. *)
From Coq Require Import Reals ZArith List Lra Lia Bool FunctionalExtensionality.
From Coquelicot Require Import Coquelicot.
From Verif Require Import Scalar MConst MMath MEfjc MConstitutive SpecNewton SpecLangevin SpecDamage SpecNetwork
  PNewton PLangevin PInvLangevin PEfjcSolve PEfjcStored PQuad PDamage PNetwork.
Import ListNotations.
Open Scope R_scope.

Local Notation force := (@efjc_isometric_asymptotic_reduced_legendre.nondimensional_force R R_scalar).

(** ** The force is positive, also where the first guess is zero *)
Lemma force_at_one : forall kap, 0 < kap -> 0 < force kap 1.
Proof.
  intros kap Hk. rewrite force_R. destruct (Rlt_dec 1 1) as [L|_]; [lra|].
  destruct (ext_root kap Hk 1 ltac:(lra)) as (r & Hr & Er).
  assert (E0 : ext kap 0 = 0).
  { unfold ext, langevin. rewrite sinh_0. unfold Rdiv. rewrite Rinv_0. ring. }
  assert (S0 : slope kap 0 = / kap).
  { unfold slope, dlangevin. rewrite sinh_0. unfold Rdiv. ring. }
  replace (kap * (1 - 1)) with 0 by ring.
  destruct (newton_result 1 (ext kap) (slope kap) 0 (/ 1000000) 100) as (k & E & _ & _ & _ & Kx). rewrite E.
  assert (St : newton_step 1 (ext kap) (slope kap) 0 = kap).
  { change (0 + (1 - ext kap 0) / slope kap 0 = kap). rewrite E0, S0. field. lra. }
  destruct k as [|k].
  { exfalso. specialize (Kx ltac:(lia)). apply Rltb_false in Kx. change (sdec 1 0 : R) with 1 in Kx. lra. }
  assert (It : forall j x, newton_iterate 1 (ext kap) (slope kap) (S j) x = newton_iterate 1 (ext kap) (slope kap) j (newton_step 1 (ext kap) (slope kap) x))
    by (intros j x; apply iter_succ_r).
  rewrite It, St. destruct k as [|k]; [exact Hk|]. rewrite It.
  set (x2 := newton_step 1 (ext kap) (slope kap) kap).
  assert (Ip : 0 < / kap) by (apply Rinv_0_lt_compat; exact Hk).
  pose proof (dlangevin_pos kap Hk) as D. pose proof (gap_pos kap Hk) as G.
  assert (P2 : 0 < x2).
  { change (0 < kap + (1 - ext kap kap) / slope kap kap). unfold ext, slope.
    replace (kap + (1 - (langevin kap + kap / kap)) / (dlangevin kap + 1 / kap))
      with ((kap * dlangevin kap + (1 - langevin kap)) / (dlangevin kap + 1 / kap)).
    - apply Rdiv_lt_0_compat; [|unfold Rdiv; lra]. assert (0 < kap * dlangevin kap) by (apply Rmult_lt_0_compat; assumption). lra.
    - set (d := dlangevin kap) in *. set (g := langevin kap) in *. clearbody d g. field.
      assert (0 < kap * d) by (apply Rmult_lt_0_compat; assumption). repeat split; lra. }
  assert (L2 : x2 <= r) by (apply (concave_step_le _ (ext kap) (slope kap) 1 r (ext_concave kap Hk) Hr Er); exact Hk).
  destruct (concave_iterates _ (ext kap) (slope kap) 1 r (ext_concave kap Hk) Hr Er k x2 P2 L2) as (B & _). lra.
Qed.

Lemma force_pos : forall kap y, 0 < kap -> 0 < y -> 0 < force kap y.
Proof.
  intros kap y Hk Hy. destruct (Req_dec y 1) as [->|N]; [apply force_at_one, Hk | apply solved_force; assumption].
Qed.

(** ** Sums over the nodes *)
Lemma wn_range : forall n i, In i (seq 1 n) -> 0 < wn n i < 1.
Proof.
  intros n i Hi. apply in_seq in Hi. unfold wn. assert (A : 1 <= INR i) by (replace 1 with (INR 1) by reflexivity; apply le_INR; lia).
  assert (B : INR i <= INR n) by (apply le_INR; lia). split; [apply Rdiv_lt_0_compat; lra|].
  apply Rmult_lt_reg_r with (INR n + 1); [lra|]. unfold Rdiv. rewrite Rmult_assoc, Rinv_l by lra. lra.
Qed.

Lemma an_pos : forall n i, In i (seq 1 n) -> 0 < an n i.
Proof.
  intros n i Hi. pose proof (wn_range n i Hi) as W. unfold an. assert (0 < ln ((1 + wn n i) / (1 - wn n i))); [|lra].
  rewrite <- ln_1. apply ln_increasing; [lra|]. apply Rmult_lt_reg_r with (1 - wn n i); [lra|].
  unfold Rdiv. rewrite Rmult_assoc, Rinv_l by lra. lra.
Qed.

Definition weight (n i : nat) : R := / (1 - wn n i ^ 2) * (1 / (INR n + 1)).

Lemma weight_pos : forall n i, In i (seq 1 n) -> 0 < weight n i.
Proof.
  intros n i Hi. pose proof (wn_range n i Hi) as W. unfold weight. pose proof (pos_INR n).
  apply Rmult_lt_0_compat; [apply Rinv_0_lt_compat; nra | apply Rdiv_lt_0_compat; lra].
Qed.

Lemma node_sum_w : forall n f, node_sum n f = Rsum (map (fun i => f (an n i) * weight n i) (seq 1 n)).
Proof. intros n f. rewrite node_sum_R. apply Rsum_ext. intros i _. unfold weight, Rdiv. ring. Qed.

Lemma node_sum_pos_one : forall n f i, In i (seq 1 n) -> (forall x, 0 < x -> 0 <= f x) -> 0 < f (an n i) -> 0 < node_sum n f.
Proof.
  intros n f i Hi Nn P. rewrite node_sum_w, <- sum_over_Rsum.
  assert (Z : sum_over (seq 1 n) (fun _ => 0) = 0) by (rewrite sum_over_Rsum, Rsum_const; ring).
  rewrite <- Z. apply (sum_over_lt _ (fun _ => 0) (fun i => f (an n i) * weight n i) i).
  - intros a Ha. apply Rmult_le_pos; [apply Nn, an_pos, Ha | left; apply weight_pos, Ha].
  - exact Hi.
  - apply Rmult_lt_0_compat; [exact P | apply weight_pos, Hi].
Qed.

Lemma node_sum_pos : forall n f, (1 <= n)%nat -> (forall i, In i (seq 1 n) -> 0 < f (an n i)) -> 0 < node_sum n f.
Proof.
  intros n f Hn P. rewrite node_sum_w. apply Rsum_pos.
  - destruct n; [lia | discriminate].
  - intros i Hi. apply Rmult_lt_0_compat; [apply P, Hi | apply weight_pos, Hi].
Qed.

Lemma node_sum_derive : forall n (f : R -> R -> R) (d : R -> R) x, (forall z, 0 < z -> is_derive (fun s => f s z) x (d z)) ->
  is_derive (fun s => node_sum n (f s)) x (node_sum n d).
Proof.
  intros n f d x H. rewrite node_sum_w.
  apply (is_derive_ext (fun s => Rsum (map (fun i => f s (an n i) * weight n i) (seq 1 n)))); [intro s; symmetry; apply node_sum_w|].
  apply (is_derive_Rsum (fun i s => f s (an n i) * weight n i)). intros i Hi.
  evar_last. { apply (is_derive_scal_l (V := R_NormedModule) (fun s => f s (an n i)) x (d (an n i)) (weight n i)). apply H, an_pos, Hi. }
  reflexivity.
Qed.

(** ** The slope at rest *)
Section Modulus.
Variables (n : nat) (kap : R) (N : Z).
Hypothesis Hn : (2 <= n)%nat.
Hypothesis Hk : 0 < kap.
Hypothesis HN : (0 < N)%Z.

Let c := 3 / 2 * IZR N * kap * (kap + 1) / (kap ^ 2 + 6 * kap + 3).

Lemma c_pos : 0 < c.
Proof using Hk HN.
  apply IZR_lt in HN. unfold c. assert (0 < kap ^ 2) by (apply pow_lt; exact Hk).
  apply Rdiv_lt_0_compat; [|lra]. repeat apply Rmult_lt_0_compat; lra.
Qed.

Lemma energy_3 : forall g, chain_energy 3 kap N 1 g = c * g ^ 2.
Proof using Type. intro g. unfold chain_energy. cbn [Z.eqb Pos.eqb]. fold c. field. Qed.

Definition term (s z r : R) : R :=
  ring_volume r * chain_stress kap N z r * exp (- chain_energy 3 kap N 1 (reference_length s z r)).
Definition dterm (z r : R) : R :=
  ring_volume r * (IZR N * force kap (sqrt (z ^ 2 + r ^ 2)) * (z ^ 2 - r ^ 2 / 2) / sqrt (z ^ 2 + r ^ 2))
    * (exp (- (c * (z ^ 2 + r ^ 2))) * (c * (2 * z ^ 2 - r ^ 2))).

Lemma term_derive : forall z r, 0 < z -> 0 < r -> is_derive (fun s => term s z r) 1 (dterm z r).
Proof using Type.
  intros z r Hz Hr. unfold dterm. apply (is_derive_ext_loc (fun s => ring_volume r * chain_stress kap N z r * exp (- (c * ((z / s) ^ 2 + s * r ^ 2))))).
  { exists (mkposreal (1 / 2) ltac:(lra)). intros s Hs. unfold ball in Hs; cbn in Hs; unfold AbsRing_ball, abs, minus, plus, opp in Hs; cbn in Hs.
    apply Rabs_def2 in Hs. unfold term. rewrite energy_3. unfold reference_length. rewrite pow2_sqrt; [reflexivity|].
    pose proof (pow2_ge_0 (z / s)). pose proof (pow2_ge_0 r). assert (0 <= s * r ^ 2) by (apply Rmult_le_pos; lra). apply Rplus_le_le_0_compat; assumption. }
  unfold chain_stress. set (A := ring_volume r * _). clearbody A. clearbody c.
  auto_derive; [lra|]. replace (z * / 1 * (z * / 1 * 1) + 1 * (r * (r * 1))) with (z ^ 2 + r ^ 2) by field.
  replace (c * (z ^ 2 + r ^ 2)) with (c * (z ^ 2 + r ^ 2)) by reflexivity. field.
Qed.

Lemma dterm_sq : forall z r, dterm z r =
  ring_volume r * IZR N * force kap (sqrt (z ^ 2 + r ^ 2)) / sqrt (z ^ 2 + r ^ 2) * exp (- (c * (z ^ 2 + r ^ 2))) * c / 2 * (2 * z ^ 2 - r ^ 2) ^ 2.
Proof using Type. intros z r. unfold dterm, Rdiv. set (i := / sqrt (z ^ 2 + r ^ 2)). field. Qed.

Lemma dterm_factor : forall z r, 0 < z -> 0 < r ->
  0 < ring_volume r * IZR N * force kap (sqrt (z ^ 2 + r ^ 2)) / sqrt (z ^ 2 + r ^ 2) * exp (- (c * (z ^ 2 + r ^ 2))) * c / 2.
Proof using Hk HN.
  intros z r Hz Hr. pose proof c_pos as C. apply IZR_lt in HN. pose proof PI_RGT_0.
  assert (0 < z ^ 2) by (apply pow_lt; exact Hz). assert (0 < r ^ 2) by (apply pow_lt; exact Hr).
  assert (S : 0 < sqrt (z ^ 2 + r ^ 2)) by (apply sqrt_lt_R0; lra).
  assert (V : 0 < ring_volume r). { unfold ring_volume. assert (0 < PI * r) by (apply Rmult_lt_0_compat; lra). lra. }
  assert (F : 0 < force kap (sqrt (z ^ 2 + r ^ 2))) by (apply force_pos; assumption).
  pose proof (exp_pos (- (c * (z ^ 2 + r ^ 2)))).
  apply Rdiv_lt_0_compat; [|lra]. apply Rmult_lt_0_compat; [|exact C]. apply Rmult_lt_0_compat; [|assumption].
  apply Rdiv_lt_0_compat; [|exact S]. apply Rmult_lt_0_compat; [apply Rmult_lt_0_compat|]; assumption.
Qed.

Let norm := node_sum n (fun gamma => 4 * PI * gamma ^ 2 * exp (- chain_energy 3 kap N 1 gamma)).

Lemma norm_pos : 0 < norm.
Proof using Hn.
  apply node_sum_pos; [lia|]. intros i Hi. pose proof (an_pos n i Hi) as A. pose proof PI_RGT_0.
  apply Rmult_lt_0_compat; [|apply exp_pos]. assert (0 < an n i ^ 2) by (apply pow_lt; exact A). apply Rmult_lt_0_compat; lra.
Qed.

Definition modulus : R := node_sum n (fun z => node_sum n (dterm z)) / norm.

Lemma modulus_pos : 0 < modulus.
Proof using Hn Hk HN.
  apply Rdiv_lt_0_compat; [|exact norm_pos]. apply node_sum_pos; [lia|]. intros i Hi. pose proof (an_pos n i Hi) as A.
  apply (node_sum_pos_one n _ i Hi).
  - intros r Hr. rewrite dterm_sq. apply Rmult_le_pos; [left; apply dterm_factor; assumption | apply pow2_ge_0].
  - rewrite dterm_sq. apply Rmult_lt_0_compat; [apply dterm_factor; assumption|]. apply pow_lt.
    assert (0 < an n i ^ 2) by (apply pow_lt; exact A). lra.
Qed.

Lemma stress_derive : is_derive (fun s => network_stress n 3 kap N (reference_length s)) 1 modulus.
Proof using Hn.
  pose proof norm_pos as P. unfold modulus, network_stress. fold norm.
  assert (D : is_derive (fun s => node_sum n (fun z => node_sum n (term s z))) 1 (node_sum n (fun z => node_sum n (dterm z)))).
  { apply (node_sum_derive n (fun s z => node_sum n (term s z))). intros z Hz.
    apply (node_sum_derive n (fun s r => term s z r) (dterm z)).
    intros r Hr. apply term_derive; assumption. }
  evar_last. { apply (is_derive_scal_l (V := R_NormedModule) (fun s => node_sum n (fun z => node_sum n (term s z))) 1 _ (/ norm) D). }
  reflexivity.
Qed.
End Modulus.

(** ** The objects *)
Lemma init_grid : forall n k N o, hyperelastic.BucheSilberstein.init n 3 k N = Some o -> (2 <= n)%nat.
Proof.
  intros n k N o H. unfold hyperelastic.BucheSilberstein.init, hyperelastic.init in H.
  destruct (hyperelastic.dw (T := R) n) as [d|] eqn:E; [|discriminate H]. exact (dw_some n d E).
Qed.

Lemma uniaxial_modulus : forall n k N o sigma, 0 < k -> (0 < N)%Z -> hyperelastic.BucheSilberstein.init n 3 k N = Some o ->
  (forall s, 0 < s -> hyperelastic.BucheSilberstein.uniaxial_tension o s = Some (sigma s)) ->
  exists m, 0 < m /\ is_derive sigma 1 m.
Proof.
  intros n k N o sigma Hk HN Ho Hs. pose proof (init_grid n k N o Ho) as Hn.
  exists (modulus n k N). split; [apply modulus_pos; assumption|].
  apply (is_derive_ext_loc (fun s => network_stress n 3 k N (reference_length s))); [|apply stress_derive; assumption].
  exists (mkposreal (1 / 2) ltac:(lra)). intros s B. unfold ball in B; cbn in B; unfold AbsRing_ball, abs, minus, plus, opp in B; cbn in B.
  apply Rabs_def2 in B. symmetry. apply (uniaxial_stress n 3 k N o s); [lra | exact Ho | apply Hs; lra].
Qed.

Lemma equibiaxial_modulus : forall n k N o sigma, 0 < k -> (0 < N)%Z -> hyperelastic.BucheSilberstein.init n 3 k N = Some o ->
  (forall s, 0 < s -> hyperelastic.BucheSilberstein.equibiaxial_tension o s = Some (sigma s)) ->
  exists m, 0 < m /\ is_derive sigma 1 m.
Proof.
  intros n k N o sigma Hk HN Ho Hs. pose proof (init_grid n k N o Ho) as Hn.
  exists (2 * modulus n k N). pose proof (modulus_pos n k N Hn Hk HN) as P. split; [lra|].
  apply (is_derive_ext_loc (fun s => - network_stress n 3 k N (reference_length (/ s ^ 2)))).
  { exists (mkposreal (1 / 2) ltac:(lra)). intros s B. unfold ball in B; cbn in B; unfold AbsRing_ball, abs, minus, plus, opp in B; cbn in B.
    apply Rabs_def2 in B. symmetry. rewrite (equibiaxial_stress n 3 k N o s (sigma s)); [|lra | exact Ho | apply Hs; lra].
    f_equal. f_equal. apply functional_extensionality; intro z. apply functional_extensionality; intro r.
    unfold reference_length_equibiaxial, reference_length. f_equal. field. lra. }
  evar_last.
  - apply (is_derive_opp (V := R_NormedModule)).
    apply (is_derive_comp (V := R_NormedModule) (fun s => network_stress n 3 k N (reference_length s)) (fun s => / s ^ 2)).
    + replace (/ 1 ^ 2) with 1 by field. apply stress_derive; assumption.
    + auto_derive; [lra | reflexivity].
  - unfold opp, scal; cbn. unfold mult; cbn. field.
Qed.

(** ** Very large stretches *)
Lemma exp_decay : forall q, 0 < q -> is_lim (fun s => exp (- (q * s))) p_infty 0.
Proof.
  intros q Hq. apply (is_lim_comp exp (fun s => - (q * s)) p_infty 0 m_infty).
  - exact is_lim_exp_m.
  - apply (is_lim_ext (fun s => - q * s)); [intro s; ring|].
    assert (H := is_lim_scal_l (fun s : R => s) (- q) p_infty p_infty (is_lim_id p_infty)).
    replace (Rbar_mult (- q) p_infty) with m_infty in H; [exact H|].
    cbn. destruct (Rle_dec 0 (- q)); [exfalso; lra | reflexivity].
  - exists 0. intros y Hy E. discriminate.
Qed.

Lemma an_increasing : forall n i j, In i (seq 1 n) -> In j (seq 1 n) -> (i < j)%nat -> an n i < an n j.
Proof.
  intros n i j Hi Hj L. pose proof (wn_range n i Hi) as A. pose proof (wn_range n j Hj) as B.
  assert (W : wn n i < wn n j).
  { unfold wn, Rdiv. apply Rmult_lt_compat_r; [|apply lt_INR; exact L]. apply Rinv_0_lt_compat. pose proof (pos_INR n). lra. }
  unfold an. assert (ln ((1 + wn n i) / (1 - wn n i)) < ln ((1 + wn n j) / (1 - wn n j))); [|lra].
  apply ln_increasing; [apply Rdiv_lt_0_compat; lra|]. unfold Rdiv.
  apply Rlt_le_trans with ((1 + wn n j) * / (1 - wn n i)).
  - apply Rmult_lt_compat_r; [apply Rinv_0_lt_compat; lra | lra].
  - apply Rmult_le_compat_l; [lra|]. left. apply Rinv_lt_contravar; [apply Rmult_lt_0_compat; lra | lra].
Qed.

Section Large.
Variables (n : nat) (kap : R) (N : Z).
Hypothesis Hn : (2 <= n)%nat.
Hypothesis Hk : 0 < kap.
Hypothesis HN : (0 < N)%Z.
Let c := 3 / 2 * IZR N * kap * (kap + 1) / (kap ^ 2 + 6 * kap + 3).
Let c_pos' : 0 < c := c_pos kap N Hk HN.

Let a (z r : R) : R := ring_volume r * chain_stress kap N z r.

Lemma term_R : forall s z r, 0 < s -> term kap N s z r = exp (- (c * (z / s) ^ 2)) * (a z r * exp (- (c * r ^ 2 * s))).
Proof using Type.
  intros s z r Hs. unfold term. rewrite energy_3. fold c. unfold reference_length.
  rewrite pow2_sqrt by (apply Rplus_le_le_0_compat; [apply pow2_ge_0 | apply Rmult_le_pos; [lra | apply pow2_ge_0]]).
  replace (- (c * ((z / s) ^ 2 + s * r ^ 2))) with (- (c * (z / s) ^ 2) + - (c * r ^ 2 * s)) by ring.
  rewrite exp_plus. fold (a z r). ring.
Qed.

(** *** The stress vanishes *)
Lemma term_bound : forall s z r, 0 < s -> Rabs (term kap N s z r) <= Rabs (a z r) * exp (- (c * r ^ 2 * s)).
Proof using Hk HN.
  intros s z r Hs. rewrite term_R by exact Hs. rewrite !Rabs_mult.
  rewrite !(Rabs_pos_eq (exp _)) by (left; apply exp_pos).
  set (q := Rabs (a z r) * exp (- (c * r ^ 2 * s))). replace q with (1 * q) at 2 by ring. apply Rmult_le_compat_r.
  - apply Rmult_le_pos; [apply Rabs_pos | left; apply exp_pos].
  - rewrite <- exp_0. destruct (Req_dec (c * (z / s) ^ 2) 0) as [->|X]; [rewrite Ropp_0; lra|].
    left. apply exp_increasing. pose proof (pow2_ge_0 (z / s)). pose proof c_pos'. assert (0 <= c * (z / s) ^ 2) by (apply Rmult_le_pos; lra). lra.
Qed.

Lemma term_lim : forall z r, 0 < r -> is_lim (fun s => term kap N s z r) p_infty 0.
Proof using Hk HN.
  intros z r Hr. apply (is_lim_le_le_loc (fun s => - (Rabs (a z r) * exp (- (c * r ^ 2 * s)))) (fun s => Rabs (a z r) * exp (- (c * r ^ 2 * s)))).
  - exists 0. intros s Hs. pose proof (term_bound s z r Hs) as B. apply Rabs_le_between. exact B.
  - evar_last. { apply is_lim_opp. apply is_lim_scal_l. apply exp_decay. apply Rmult_lt_0_compat; [exact c_pos' | apply pow_lt; exact Hr]. }
    cbn. f_equal. ring.
  - evar_last. { apply is_lim_scal_l. apply exp_decay. apply Rmult_lt_0_compat; [exact c_pos' | apply pow_lt; exact Hr]. }
    cbn. f_equal. ring.
Qed.

Lemma node_sum_lim : forall (f : R -> R -> R), (forall z, 0 < z -> is_lim (fun s => f s z) p_infty 0) ->
  is_lim (fun s => node_sum n (f s)) p_infty 0.
Proof using Type.
  intros f H. apply (is_lim_ext (fun s => Rsum (map (fun i => f s (an n i) * weight n i) (seq 1 n)))).
  { intro s. symmetry. apply node_sum_w. }
  assert (G : forall l, (forall i, In i l -> In i (seq 1 n)) -> is_lim (fun s => Rsum (map (fun i => f s (an n i) * weight n i) l)) p_infty 0).
  { induction l as [|i l IH]; intro Hl; cbn; [apply is_lim_const|].
    replace 0 with (0 * weight n i + 0) by ring.
    apply (is_lim_plus' (fun s => f s (an n i) * weight n i) (fun s => Rsum (map (fun i => f s (an n i) * weight n i) l))).
    - apply (is_lim_scal_r (fun s => f s (an n i)) (weight n i) p_infty 0). apply H, an_pos, Hl. left; reflexivity.
    - apply IH. intros j Hj. apply Hl. right; exact Hj. }
  apply G. auto.
Qed.

Lemma stress_vanishes : is_lim (fun s => network_stress n 3 kap N (reference_length s)) p_infty 0.
Proof using Hn Hk HN.
  unfold network_stress. replace 0 with (0 * / node_sum n (fun gamma => 4 * PI * gamma ^ 2 * exp (- chain_energy 3 kap N 1 gamma))) by ring.
  apply (is_lim_scal_r (fun s => node_sum n (fun z => node_sum n (term kap N s z))) _ p_infty 0).
  apply (node_sum_lim (fun s z => node_sum n (term kap N s z))). intros z Hz.
  apply (node_sum_lim (fun s r => term kap N s z r)). intros r Hr. apply term_lim. exact Hr.
Qed.

(** *** It is positive on the way *)
Let r1 := an n 1.

Lemma in_1 : In 1%nat (seq 1 n).
Proof using Hn. apply in_seq. lia. Qed.

Lemma a_first : forall i, In i (seq 1 n) -> 0 < a (an n i) r1.
Proof using Hn Hk HN.
  intros i Hi. pose proof (an_pos n i Hi) as Z. pose proof (an_pos n 1 in_1) as R1. fold r1 in R1.
  assert (Zr : r1 <= an n i).
  { destruct (Nat.eq_dec i 1) as [->|D]; [unfold r1; lra|]. left. apply an_increasing; [exact in_1 | exact Hi |]. apply in_seq in Hi. lia. }
  unfold a, chain_stress, ring_volume. set (z := an n i) in *. clearbody z. pose proof PI_RGT_0 as Pi.
  assert (HN' := HN). apply IZR_lt in HN'.
  assert (0 < z ^ 2) by (apply pow_lt; exact Z). assert (0 < r1 ^ 2) by (apply pow_lt; exact R1).
  assert (S : 0 < sqrt (z ^ 2 + r1 ^ 2)) by (apply sqrt_lt_R0; lra).
  assert (F : 0 < force kap (sqrt (z ^ 2 + r1 ^ 2))) by (apply force_pos; assumption).
  assert (D : 0 < z ^ 2 - r1 ^ 2 / 2) by nra.
  assert (0 < PI * r1) by (apply Rmult_lt_0_compat; lra).
  apply Rmult_lt_0_compat; [lra|]. apply Rdiv_lt_0_compat; [|exact S]. apply Rmult_lt_0_compat; [apply Rmult_lt_0_compat|]; assumption.
Qed.

Lemma inner_lim : forall z, is_lim (fun s => exp (c * r1 ^ 2 * s) * Rsum (map (fun j => a z (an n j) * exp (- (c * an n j ^ 2 * s)) * weight n j) (seq 1 n)))
  p_infty (a z r1 * weight n 1).
Proof using Hn Hk HN.
  intro z. pose proof (an_pos n 1 in_1) as R1. fold r1 in R1.
  assert (Sp : seq 1 n = 1%nat :: seq 2 (n - 1)). { destruct n as [|k]; [lia|]. cbn [seq]. f_equal. f_equal. lia. }
  rewrite Sp. cbn [map Rsum]. fold r1.
  apply (is_lim_ext (fun s => a z r1 * weight n 1 + Rsum (map (fun j => a z (an n j) * weight n j * exp (- (c * (an n j ^ 2 - r1 ^ 2) * s))) (seq 2 (n - 1))))).
  { intro s. rewrite Rmult_plus_distr_l. f_equal.
    - rewrite (Rmult_comm (a z r1) (exp _)), !Rmult_assoc, <- (Rmult_assoc (exp _) (exp _)), <- exp_plus.
      replace (c * (r1 ^ 2 * s) + - (c * (r1 ^ 2 * s))) with 0 by ring. rewrite exp_0. ring.
    - rewrite <- Rsum_scal. apply Rsum_ext. intros j _.
      replace (- (c * (an n j ^ 2 - r1 ^ 2) * s)) with (c * r1 ^ 2 * s + - (c * an n j ^ 2 * s)) by ring. rewrite exp_plus. ring. }
  evar_last. { apply (is_lim_plus' (fun _ => a z r1 * weight n 1) _ p_infty (a z r1 * weight n 1) 0); [apply is_lim_const|].
  assert (G : forall l, (forall j, In j l -> In j (seq 2 (n - 1))) ->
    is_lim (fun s => Rsum (map (fun j => a z (an n j) * weight n j * exp (- (c * (an n j ^ 2 - r1 ^ 2) * s))) l)) p_infty 0).
  { induction l as [|j l IH]; intro Hl; cbn [map Rsum]; [apply is_lim_const|].
    replace 0 with (a z (an n j) * weight n j * 0 + 0) by ring.
    apply (is_lim_plus' (fun s => a z (an n j) * weight n j * exp (- (c * (an n j ^ 2 - r1 ^ 2) * s)))).
    - apply (is_lim_scal_l (fun s => exp (- (c * (an n j ^ 2 - r1 ^ 2) * s))) _ p_infty 0). apply exp_decay.
      apply Rmult_lt_0_compat; [exact c_pos'|]. pose proof (Hl j (or_introl eq_refl)) as Hj. apply in_seq in Hj.
      assert (r1 < an n j) by (apply an_increasing; [exact in_1 | apply in_seq; lia | lia]). nra.
    - apply IH. intros i Hi. apply Hl. right; exact Hi. }
  apply G. auto. }
  f_equal. ring.
Qed.

Lemma inner_pos : forall i, In i (seq 1 n) -> exists M, forall s, M < s -> 0 < node_sum n (term kap N s (an n i)).
Proof using Hn Hk HN.
  intros i Hi. set (z := an n i).
  assert (P : 0 < a z r1 * weight n 1) by (apply Rmult_lt_0_compat; [apply a_first, Hi | apply weight_pos, in_1]).
  pose proof (inner_lim z) as L. apply is_lim_spec in L. destruct (L (mkposreal _ P)) as (M & HM).
  change (pos (mkposreal _ P)) with (a z r1 * weight n 1) in HM.
  exists (Rmax M 0). intros s Hs. assert (Sm : M < s) by (pose proof (Rmax_l M 0); lra). assert (S0 : 0 < s) by (pose proof (Rmax_r M 0); lra).
  specialize (HM s Sm). apply Rabs_def2 in HM. rewrite node_sum_w.
  assert (E : Rsum (map (fun j => term kap N s z (an n j) * weight n j) (seq 1 n))
    = exp (- (c * (z / s) ^ 2)) * Rsum (map (fun j => a z (an n j) * exp (- (c * an n j ^ 2 * s)) * weight n j) (seq 1 n))).
  { rewrite <- Rsum_scal. apply Rsum_ext. intros j _. rewrite term_R by exact S0. ring. }
  rewrite E. apply Rmult_lt_0_compat; [apply exp_pos|].
  set (q := Rsum _) in *. pose proof (exp_pos (c * r1 ^ 2 * s)) as X.
  destruct (Rlt_dec 0 q) as [Y|Y]; [exact Y|]. exfalso.
  assert (exp (c * r1 ^ 2 * s) * q <= 0) by nra. lra.
Qed.

Lemma stress_positive : exists M, forall s, M < s -> 0 < network_stress n 3 kap N (reference_length s).
Proof using Hn Hk HN.
  assert (G : forall l, (forall i, In i l -> In i (seq 1 n)) -> exists M, forall s, M < s -> forall i, In i l -> 0 < node_sum n (term kap N s (an n i))).
  { induction l as [|i l IH]; intro Hl; [exists 0; intros s _ i []|].
    destruct IH as (M & HM); [intros j Hj; apply Hl; right; exact Hj|].
    destruct (inner_pos i) as (M' & HM'); [apply Hl; left; reflexivity|].
    exists (Rmax M M'). intros s Hs j [<-|Hj]; [apply HM' | apply HM; [|exact Hj]]; pose proof (Rmax_l M M'); pose proof (Rmax_r M M'); lra. }
  destruct (G (seq 1 n)) as (M & HM); [auto|]. exists M. intros s Hs. unfold network_stress.
  apply Rdiv_lt_0_compat; [|apply norm_pos; exact Hn].
  apply (node_sum_pos n (fun z => node_sum n (term kap N s z))); [lia | apply HM, Hs].
Qed.
End Large.

Lemma no_growth : forall n k N o sigma, 0 < k -> (0 < N)%Z -> hyperelastic.BucheSilberstein.init n 3 k N = Some o ->
  (forall s, 0 < s -> hyperelastic.BucheSilberstein.uniaxial_tension o s = Some (sigma s)) ->
  is_lim sigma p_infty 0 /\ exists s t, 1 < s < t /\ 0 < sigma t < sigma s.
Proof.
  intros n k N o sigma Hk HN Ho Hs. pose proof (init_grid n k N o Ho) as Hn.
  assert (E : forall s, 0 < s -> sigma s = network_stress n 3 k N (reference_length s)).
  { intros s S0. apply (uniaxial_stress n 3 k N o s); [exact S0 | exact Ho | apply Hs, S0]. }
  assert (L : is_lim sigma p_infty 0).
  { apply (is_lim_ext_loc (fun s => network_stress n 3 k N (reference_length s))); [|apply stress_vanishes; assumption].
    exists 0. intros s S0. symmetry. apply E, S0. }
  split; [exact L|]. destruct (stress_positive n k N Hn Hk HN) as (M & HM).
  set (s := Rmax M 1 + 1). assert (S1 : 1 < s) by (unfold s; pose proof (Rmax_r M 1); lra). assert (SM : M < s) by (unfold s; pose proof (Rmax_l M 1); lra).
  assert (P : 0 < sigma s) by (rewrite E by lra; apply HM, SM).
  apply is_lim_spec in L. destruct (L (mkposreal _ P)) as (M' & HM'). cbn in HM'.
  exists s, (Rmax M' s + 1). assert (A : s < Rmax M' s + 1) by (pose proof (Rmax_r M' s); lra).
  split; [lra|]. assert (B : M' < Rmax M' s + 1) by (pose proof (Rmax_l M' s); lra).
  specialize (HM' _ B). rewrite Rminus_0_r in HM'. apply Rabs_def2 in HM'. split; [|lra]. rewrite E by lra. apply HM. lra.
Qed.
