(** The Gaussian integral. *)
From Coq Require Import Reals Lra Psatz.
From Coquelicot Require Import Coquelicot.
From Verif Require Import SpecGauss.
Open Scope R_scope.

Definition g (t : R) : R := exp (- t ^ 2).
Definition G (x : R) : R := RInt g 0 x.

Lemma g_cont : forall x, continuous g x.
Proof.
  intro x. apply (ex_derive_continuous (V := R_NormedModule)). unfold g. auto_derive. exact I.
Qed.
Lemma g_int : forall a b, ex_RInt g a b.
Proof. intros. apply (ex_RInt_continuous (V := R_CompleteNormedModule)). intros; apply g_cont. Qed.

Lemma G_derive : forall x, is_derive G x (g x).
Proof.
  intro x. apply (is_derive_RInt g G 0 x).
  - exists (mkposreal 1 Rlt_0_1). intros y _. apply (RInt_correct (V := R_CompleteNormedModule)). apply g_int.
  - apply g_cont.
Qed.

Lemma G_0 : G 0 = 0.
Proof. unfold G. rewrite RInt_point. reflexivity. Qed.

(** K x = int_0^1 exp(-x^2 (1+t^2))/(1+t^2) dt. *)
Definition k (x t : R) : R := exp (- x ^ 2 * (1 + t ^ 2)) / (1 + t ^ 2).
Definition K (x : R) : R := RInt (k x) 0 1.

Lemma one_sq : forall t, 0 < 1 + t ^ 2.
Proof. intro; nra. Qed.

Lemma k_cont : forall x t, continuous (k x) t.
Proof.
  intros. apply (ex_derive_continuous (V := R_NormedModule)). unfold k. auto_derive.
  pose proof (one_sq t). simpl in *. lra.
Qed.
Lemma k_int : forall x a b, ex_RInt (k x) a b.
Proof. intros. apply (ex_RInt_continuous (V := R_CompleteNormedModule)). intros; apply k_cont. Qed.

Lemma k_derive : forall x t, Derive (fun z => k z t) x = - 2 * x * exp (- x ^ 2 * (1 + t ^ 2)).
Proof.
  intros. apply is_derive_unique. unfold k. pose proof (one_sq t).
  auto_derive; [simpl in *; lra |]. simpl in *. field. lra.
Qed.

Lemma cont2 : forall x y, continuity_2d_pt (fun u v => Derive (fun z => k z v) u) x y.
Proof.
  intros x y.
  apply continuity_2d_pt_ext with (f := fun u v => (- 2 * u) * exp ((- (u * u)) * (1 + (v * v)))).
  { intros. rewrite k_derive. f_equal. f_equal. ring. }
  apply continuity_2d_pt_mult.
  - apply continuity_2d_pt_mult; [apply continuity_2d_pt_const | apply continuity_2d_pt_id1].
  - apply (continuity_1d_2d_pt_comp exp (fun u v => (- (u * u)) * (1 + (v * v)))).
    + apply derivable_continuous_pt. apply derivable_pt_exp.
    + apply continuity_2d_pt_mult.
      * apply continuity_2d_pt_opp. apply continuity_2d_pt_mult; apply continuity_2d_pt_id1.
      * apply continuity_2d_pt_plus; [apply continuity_2d_pt_const |].
        apply continuity_2d_pt_mult; apply continuity_2d_pt_id2.
Qed.

Lemma K_derive : forall x, is_derive K x (- 2 * g x * G x).
Proof.
  intro x.
  evar_last.
  - apply (is_derive_RInt_param k 0 1 x).
    + exists (mkposreal 1 Rlt_0_1). intros y _ t _. unfold k. auto_derive.
      pose proof (one_sq t); simpl in *; lra.
    + intros t _. apply cont2.
    + exists (mkposreal 1 Rlt_0_1). intros y _. apply k_int.
  - rewrite (RInt_ext (V := R_CompleteNormedModule) _ (fun t => scal (- 2 * g x) (scal x (g (x * t + 0))))).
    2:{ intros t _. change (Derive (fun z => k z t) x = (- 2 * g x) * (x * g (x * t + 0))). rewrite k_derive.
        unfold g. replace (- x ^ 2 * (1 + t ^ 2)) with (- x ^ 2 + - (x * t + 0) ^ 2) by ring.
        rewrite exp_plus. ring. }
    rewrite (RInt_scal (V := R_CompleteNormedModule)).
    2:{ apply (ex_RInt_continuous (V := R_CompleteNormedModule)). intros t _.
        apply (ex_derive_continuous (V := R_NormedModule)). change (ex_derive (fun t => x * g (x * t + 0)) t). unfold g.
        auto_derive. exact I. }
    pose proof (RInt_comp_lin (V := R_CompleteNormedModule) g x 0 0 1 (g_int _ _)) as E.
    transitivity ((- 2 * g x) * RInt (fun y => x * g (x * y + 0)) 0 1); [reflexivity |].
    f_equal. etransitivity; [exact E |]. unfold G.
    rewrite Rmult_0_r, Rmult_1_r, !Rplus_0_r. reflexivity.
Qed.

Lemma K_0 : K 0 = PI / 4.
Proof.
  unfold K. rewrite (RInt_ext (V := R_CompleteNormedModule) _ (fun t => / (1 + t ^ 2))).
  2:{ intros t _. unfold k. replace (- 0 ^ 2 * (1 + t ^ 2)) with 0 by ring. rewrite exp_0. match goal with |- ?a = ?b => change (@eq R a b) end. unfold Rdiv; ring. }
  assert (H : is_RInt (fun t => / (1 + t ^ 2)) 0 1 (minus (atan 1) (atan 0))).
  { apply (is_RInt_derive (V := R_CompleteNormedModule)).
    - intros t _. pose proof (is_derive_atan t) as D. unfold Rsqr in D. simpl. rewrite Rmult_1_r. exact D.
    - intros t _. apply (ex_derive_continuous (V := R_NormedModule)). auto_derive.
      pose proof (one_sq t); simpl in *; lra. }
  apply (is_RInt_unique (V := R_CompleteNormedModule)) in H. etransitivity; [exact H |]. rewrite atan_1, atan_0. unfold minus, plus, opp; simpl. lra.
Qed.

Lemma G2K : forall x, G x ^ 2 + K x = PI / 4.
Proof.
  intro x.
  assert (D : forall z, is_derive (fun z => G z ^ 2 + K z) z 0).
  { intro z. evar_last.
    - apply (is_derive_plus (V := R_NormedModule)); [| apply K_derive].
      apply (is_derive_pow G 2 z (g z)). apply G_derive.
    - unfold plus; simpl. ring. }
  assert (E : G x ^ 2 + K x = G 0 ^ 2 + K 0).
  {
    destruct (MVT_gen (fun z => G z ^ 2 + K z) 0 x (fun _ => 0)) as [c [_ Hc]].
    - intros; apply D.
    - intros y _. apply derivable_continuous_pt. exists 0. apply is_derive_Reals. apply D.
    - lra. }
  rewrite E, G_0, K_0. ring.
Qed.

Lemma K_bound : forall x, 0 <= K x <= exp (- x ^ 2).
Proof.
  intro x. assert (B : forall t, 0 <= k x t <= exp (- x ^ 2)).
  { intro t. pose proof (one_sq t). pose proof (exp_pos (- x ^ 2 * (1 + t ^ 2))). unfold k. split.
    - apply Rlt_le. apply Rdiv_lt_0_compat; lra.
    - apply Rle_div_l; [lra |].
      assert (exp (- x ^ 2 * (1 + t ^ 2)) <= exp (- x ^ 2)).
      { destruct (Req_dec (x * t) 0) as [E | E].
        - right. f_equal. replace (- x ^ 2 * (1 + t ^ 2)) with (- x ^ 2 - (x * t) ^ 2) by ring. rewrite E. ring.
        - left. apply exp_increasing. nra. }
      pose proof (exp_pos (- x ^ 2)). nra. }
  split.
  - unfold K. apply RInt_ge_0; [lra | apply k_int |]. intros; apply B.
  - replace (exp (- x ^ 2)) with (RInt (fun _ => exp (- x ^ 2)) 0 1).
    + apply RInt_le; [lra | apply k_int | | intros; apply B].
      apply ex_RInt_const.
    + rewrite (RInt_const (V := R_CompleteNormedModule)). unfold scal; simpl; unfold mult; simpl. ring.
Qed.

Lemma G_nonneg : forall x, 0 <= x -> 0 <= G x.
Proof.
  intros x Hx. unfold G. apply RInt_ge_0; [exact Hx | apply g_int |]. intros. unfold g. left. apply exp_pos.
Qed.

Lemma exp_sq_lim : is_lim (fun x => exp (- x ^ 2)) p_infty 0.
Proof.
  apply (is_lim_le_le_loc (fun _ => 0) (fun x => exp (- x))).
  - exists 1. intros x Hx. split; [left; apply exp_pos |]. left. apply exp_increasing. nra.
  - apply is_lim_const.
  - apply (is_lim_comp exp (fun x => - x) p_infty (Finite 0) m_infty).
    + exact is_lim_exp_m.
    + apply (is_lim_opp (fun x => x) p_infty p_infty). apply is_lim_id.
    + exists 0. intros. discriminate.
Qed.

Lemma K_lim : is_lim K p_infty 0.
Proof.
  apply (is_lim_le_le_loc (fun _ => 0) (fun x => exp (- x ^ 2))).
  - exists 0. intros; apply K_bound.
  - apply is_lim_const.
  - apply exp_sq_lim.
Qed.

Lemma G_lim : is_lim G p_infty (sqrt PI / 2).
Proof.
  assert (P : 0 < sqrt PI) by (apply sqrt_lt_R0; apply PI_RGT_0).
  apply is_lim_ext_loc with (f := fun x => sqrt (PI / 4 - K x)).
  { exists 0. intros x Hx. rewrite <- (G2K x). replace (G x ^ 2 + K x - K x) with (G x ^ 2) by ring.
    apply sqrt_pow2. apply G_nonneg. lra. }
  replace (Finite (sqrt PI / 2)) with (Finite (sqrt (PI / 4))).
  2:{ f_equal. rewrite sqrt_div_alt by lra. f_equal. replace 4 with (2 ^ 2) by ring. apply sqrt_pow2; lra. }
  apply (is_lim_comp_continuous (fun x => PI / 4 - K x) sqrt p_infty (PI / 4)).
  - replace (Finite (PI / 4)) with (Rbar_minus (PI / 4) 0) by (simpl; f_equal; ring).
    apply is_lim_minus with (PI / 4) 0; [apply is_lim_const | apply K_lim |].
    unfold is_Rbar_minus, is_Rbar_plus; simpl. f_equal.
  - apply continuous_sqrt.
Qed.
