(** The average of a function of one component over the unit sphere does not
    depend on the direction of that component. *)
From Coq Require Import Reals Lra Lia.
From Coquelicot Require Import Coquelicot.
Open Scope R_scope.

(** Bounded and Lipschitz functions of three variables. *)
Definition tame (f : R -> R -> R -> R) : Prop := exists B, 0 <= B /\
  (forall a p t, Rabs (f a p t) <= B) /\
  (forall a p t a' p' t', Rabs (f a p t - f a' p' t') <= B * (Rabs (a - a') + Rabs (p - p') + Rabs (t - t'))).

Lemma dist_nonneg : forall a p t a' p' t' : R, 0 <= Rabs (a - a') + Rabs (p - p') + Rabs (t - t').
Proof. intros. pose proof (Rabs_pos (a - a')). pose proof (Rabs_pos (p - p')). pose proof (Rabs_pos (t - t')). lra. Qed.

Lemma tame_ext : forall f g, (forall a p t, f a p t = g a p t) -> tame f -> tame g.
Proof. intros f g H (B & B0 & Hb & Hl). exists B. split; [exact B0|]. split; intros; rewrite <- !H; auto. Qed.

Lemma tame_const : forall c, tame (fun _ _ _ => c).
Proof.
  intro c. exists (Rabs c). split; [apply Rabs_pos|]. split; intros; [lra|].
  replace (c - c) with 0 by ring. rewrite Rabs_R0. apply Rmult_le_pos; [apply Rabs_pos | apply dist_nonneg].
Qed.

Lemma tame_plus : forall f g, tame f -> tame g -> tame (fun a p t => f a p t + g a p t).
Proof.
  intros f g (B & B0 & Hb & Hl) (D & D0 & Kb & Kl). exists (B + D). split; [lra|]. split; intros.
  - apply Rle_trans with (1 := Rabs_triang _ _). apply Rplus_le_compat; auto.
  - replace (f a p t + g a p t - (f a' p' t' + g a' p' t')) with ((f a p t - f a' p' t') + (g a p t - g a' p' t')) by ring.
    apply Rle_trans with (1 := Rabs_triang _ _). rewrite Rmult_plus_distr_r. apply Rplus_le_compat; auto.
Qed.

Lemma tame_mult : forall f g, tame f -> tame g -> tame (fun a p t => f a p t * g a p t).
Proof.
  intros f g (B & B0 & Hb & Hl) (D & D0 & Kb & Kl). exists (2 * B * D). split; [nra|]. split; intros.
  - rewrite Rabs_mult. pose proof (Hb a p t). pose proof (Kb a p t).
    pose proof (Rabs_pos (f a p t)). pose proof (Rabs_pos (g a p t)). nra.
  - replace (f a p t * g a p t - f a' p' t' * g a' p' t')
      with (f a p t * (g a p t - g a' p' t') + (f a p t - f a' p' t') * g a' p' t') by ring.
    apply Rle_trans with (1 := Rabs_triang _ _). rewrite !Rabs_mult.
    pose proof (Hb a p t) as H1. pose proof (Kl a p t a' p' t') as H2. pose proof (Hl a p t a' p' t') as H3.
    pose proof (Kb a' p' t') as H4.
    pose proof (Rabs_pos (f a p t)). pose proof (Rabs_pos (g a p t - g a' p' t')).
    pose proof (Rabs_pos (f a p t - f a' p' t')). pose proof (Rabs_pos (g a' p' t')).
    set (d := Rabs (a - a') + Rabs (p - p') + Rabs (t - t')) in *.
    pose proof (dist_nonneg a p t a' p' t') as Hd. fold d in Hd.
    replace (2 * B * D * d) with (B * (D * d) + (B * d) * D) by ring.
    apply Rplus_le_compat; apply Rmult_le_compat; assumption.
Qed.

(** A function with a bounded derivative is Lipschitz. *)
Lemma lipschitz_of_derive : forall (g g1 : R -> R) M x y, (forall z, Rmin x y <= z <= Rmax x y -> is_derive g z (g1 z)) ->
  (forall z, Rmin x y <= z <= Rmax x y -> Rabs (g1 z) <= M) -> Rabs (g x - g y) <= M * Rabs (x - y).
Proof.
  intros g g1 M x y H B. destruct (MVT_gen g y x g1) as (z & Hz & E).
  - intros z Hz. apply H. rewrite Rmin_comm, Rmax_comm. lra.
  - intros z Hz. apply continuity_pt_filterlim. apply (ex_derive_continuous (V := R_NormedModule)).
    exists (g1 z). apply H. rewrite Rmin_comm, Rmax_comm. lra.
  - rewrite E, Rabs_mult. apply Rmult_le_compat_r; [apply Rabs_pos|]. apply B. rewrite Rmin_comm, Rmax_comm. lra.
Qed.

Lemma sin_lipschitz : forall x y, Rabs (sin x - sin y) <= 1 * Rabs (x - y).
Proof.
  intros x y. apply (lipschitz_of_derive sin cos).
  - intros z _. auto_derive; [exact I | ring].
  - intros z _. apply Rabs_le. pose proof (COS_bound z). lra.
Qed.
Lemma cos_lipschitz : forall x y, Rabs (cos x - cos y) <= 1 * Rabs (x - y).
Proof.
  intros x y. apply (lipschitz_of_derive cos (fun x => - sin x)).
  - intros z _. auto_derive; [exact I | ring].
  - intros z _. apply Rabs_le. pose proof (SIN_bound z). lra.
Qed.

Lemma tame_comp : forall (g g1 : R -> R) f, (forall z, is_derive g z (g1 z)) -> (forall z, continuous g1 z) ->
  tame f -> tame (fun a p t => g (f a p t)).
Proof.
  intros g g1 f H C (B & B0 & Hb & Hl).
  assert (maj : forall k : R -> R, (forall z, continuous k z) -> exists M, 0 <= M /\ forall z, - B <= z <= B -> Rabs (k z) <= M).
  { intros k Ck. destruct (continuity_ab_maj (fun z => Rabs (k z)) (- B) B) as (x & Hx & _).
    - lra.
    - intros z _. apply continuity_pt_filterlim. apply (continuous_comp k Rabs); [apply Ck | apply continuous_Rabs].
    - exists (Rabs (k x)). split; [apply Rabs_pos | intros z Hz; apply Hx, Hz]. }
  destruct (maj g) as (M & M0 & HM).
  { intro z. apply (ex_derive_continuous (V := R_NormedModule)). exists (g1 z). apply H. }
  destruct (maj g1 C) as (N & N0 & HN).
  assert (in_B : forall a p t, - B <= f a p t <= B).
  { intros a p t. pose proof (Hb a p t) as X. apply Rabs_le_between in X. exact X. }
  exists (M + N * B). split; [nra|]. split; intros.
  - pose proof (HM _ (in_B a p t)). nra.
  - apply Rle_trans with (N * Rabs (f a p t - f a' p' t')).
    + apply (lipschitz_of_derive g g1); [intros; apply H|]. intros z Hz. apply HN.
      pose proof (in_B a p t). pose proof (in_B a' p' t').
      unfold Rmin, Rmax in Hz. destruct (Rle_dec (f a p t) (f a' p' t')); lra.
    + pose proof (Hl a p t a' p' t') as X. pose proof (dist_nonneg a p t a' p' t') as Y. nra.
Qed.

Lemma tame_sin_a : tame (fun a _ _ => sin a).
Proof.
  exists 1. split; [lra|]. split; intros.
  - apply Rabs_le. pose proof (SIN_bound a). lra.
  - pose proof (sin_lipschitz a a'). pose proof (Rabs_pos (p - p')). pose proof (Rabs_pos (t - t')). lra.
Qed.
Lemma tame_cos_a : tame (fun a _ _ => cos a).
Proof.
  exists 1. split; [lra|]. split; intros.
  - apply Rabs_le. pose proof (COS_bound a). lra.
  - pose proof (cos_lipschitz a a'). pose proof (Rabs_pos (p - p')). pose proof (Rabs_pos (t - t')). lra.
Qed.
Lemma tame_swap12 : forall f, tame f -> tame (fun a p t => f p a t).
Proof.
  intros f (B & B0 & Hb & Hl). exists B. split; [exact B0|]. split; intros; [auto|].
  apply Rle_trans with (1 := Hl _ _ _ _ _ _). apply Rmult_le_compat_l; lra.
Qed.
Lemma tame_swap13 : forall f, tame f -> tame (fun a p t => f t p a).
Proof.
  intros f (B & B0 & Hb & Hl). exists B. split; [exact B0|]. split; intros; [auto|].
  apply Rle_trans with (1 := Hl _ _ _ _ _ _). apply Rmult_le_compat_l; lra.
Qed.
Lemma tame_sin_p : tame (fun _ p _ => sin p). Proof. exact (tame_swap12 _ tame_sin_a). Qed.
Lemma tame_cos_p : tame (fun _ p _ => cos p). Proof. exact (tame_swap12 _ tame_cos_a). Qed.
Lemma tame_sin_t : tame (fun _ _ t => sin t). Proof. exact (tame_swap13 _ tame_sin_a). Qed.
Lemma tame_cos_t : tame (fun _ _ t => cos t). Proof. exact (tame_swap13 _ tame_cos_a). Qed.

(** Continuity of tame functions and of their integrals. *)
Lemma small_radius : forall B (e : posreal), 0 <= B -> 0 < e / (2 * B + 1).
Proof. intros B e HB. apply Rdiv_lt_0_compat; [apply cond_pos | lra]. Qed.

Lemma lipschitz_2d : forall (f : R -> R -> R) B x y, 0 <= B ->
  (forall u v u' v', Rabs (f u v - f u' v') <= B * (Rabs (u - u') + Rabs (v - v'))) -> continuity_2d_pt f x y.
Proof.
  intros f B x y HB H e. exists (mkposreal _ (small_radius B e HB)). cbn. intros u v Hu Hv.
  apply Rle_lt_trans with (1 := H u v x y).
  apply Rle_lt_trans with (B * (e / (2 * B + 1) + e / (2 * B + 1))); [apply Rmult_le_compat_l; lra|].
  assert (E : e = e / (2 * B + 1) * (2 * B + 1) :> R) by (field; lra).
  pose proof (small_radius B e HB) as P. set (q := e / (2 * B + 1)) in *. rewrite E. lra.
Qed.

Lemma lipschitz_1d : forall (f : R -> R) B x, 0 <= B ->
  (forall u u', Rabs (f u - f u') <= B * Rabs (u - u')) -> continuous f x.
Proof.
  intros f B x HB H. apply continuity_pt_filterlim. intros e He.
  pose proof (small_radius B (mkposreal e He) HB) as P. cbn in P.
  exists (e / (2 * B + 1)). split; [exact P|]. intros u (_ & Hu). unfold dist in *; cbn in *. unfold R_dist in *.
  apply Rle_lt_trans with (1 := H u x).
  assert (E : e = e / (2 * B + 1) * (2 * B + 1) :> R) by (field; lra).
  set (q := e / (2 * B + 1)) in *. rewrite E. pose proof (Rabs_pos (u - x)). nra.
Qed.

Lemma tame_t : forall f, tame f -> forall a p t, continuous (f a p) t.
Proof.
  intros f (B & B0 & Hb & Hl) a p t. apply (lipschitz_1d _ B); [exact B0|]. intros u u'.
  pose proof (Hl a p u a p u') as X. rewrite !Rminus_eq_0, Rabs_R0 in X. lra.
Qed.
Lemma tame_at : forall f, tame f -> forall p a t, continuity_2d_pt (fun a t => f a p t) a t.
Proof.
  intros f (B & B0 & Hb & Hl) p a t. apply (lipschitz_2d _ B); [exact B0|]. intros u v u' v'.
  pose proof (Hl u p v u' p v') as X. rewrite Rminus_eq_0, Rabs_R0 in X. lra.
Qed.
Lemma tame_pt : forall f, tame f -> forall a p t, continuity_2d_pt (fun p t => f a p t) p t.
Proof.
  intros f (B & B0 & Hb & Hl) a p t. apply (lipschitz_2d _ B); [exact B0|]. intros u v u' v'.
  pose proof (Hl a u v a u' v') as X. rewrite Rminus_eq_0, Rabs_R0 in X. lra.
Qed.
Lemma tame_ex_RInt : forall f, tame f -> forall a p x y, ex_RInt (f a p) x y.
Proof. intros f H a p x y. apply (ex_RInt_continuous (V := R_CompleteNormedModule)). intros t _. apply tame_t, H. Qed.

Definition over (f : R -> R -> R -> R) (a p : R) : R := RInt (f a p) 0 PI.

Lemma over_lipschitz : forall f, tame f -> exists B, 0 <= B /\ forall a p a' p',
  Rabs (over f a p - over f a' p') <= B * (Rabs (a - a') + Rabs (p - p')).
Proof.
  intros f F. assert (F' := F). destruct F' as (B & B0 & Hb & Hl). pose proof PI_RGT_0 as HP. exists (B * PI). split; [nra|]. intros a p a' p'.
  unfold over.
  assert (E : RInt (f a p) 0 PI - RInt (f a' p') 0 PI = RInt (fun t => f a p t - f a' p' t) 0 PI).
  { symmetry. apply is_RInt_unique. apply (is_RInt_minus (V := R_NormedModule)); apply (RInt_correct (V := R_CompleteNormedModule)), tame_ex_RInt, F. }
  rewrite E.
  assert (X : ex_RInt (fun t => f a p t - f a' p' t) 0 PI) by (apply (ex_RInt_minus (V := R_NormedModule)); apply tame_ex_RInt, F).
  apply Rle_trans with ((PI - 0) * (B * (Rabs (a - a') + Rabs (p - p')))); [|lra].
  apply (abs_RInt_le_const (fun t => f a p t - f a' p' t) 0 PI); [lra | exact X |].
  intros t _. pose proof (Hl a p t a' p' t) as Y. rewrite Rminus_eq_0, Rabs_R0 in Y. lra.
Qed.
Lemma over_2d : forall f, tame f -> forall a p, continuity_2d_pt (over f) a p.
Proof. intros f F a p. destruct (over_lipschitz f F) as (B & B0 & H). apply (lipschitz_2d _ B); assumption. Qed.
Lemma over_p : forall f, tame f -> forall a p, continuous (over f a) p.
Proof.
  intros f F a p. destruct (over_lipschitz f F) as (B & B0 & H). apply (lipschitz_1d _ B); [exact B0|]. intros u u'.
  pose proof (H a u a u') as X. rewrite Rminus_eq_0, Rabs_R0 in X. lra.
Qed.

Lemma over_derive_a : forall f fa, (forall a p t, is_derive (fun a => f a p t) a (fa a p t)) -> tame f -> tame fa ->
  forall a p, is_derive (fun a => over f a p) a (over fa a p).
Proof.
  intros f fa D F Fa a p. unfold over.
  evar_last.
  - apply (is_derive_RInt_param (fun a t => f a p t) 0 PI a).
    + exists (mkposreal 1 Rlt_0_1). intros y _ t _. exists (fa y p t). apply D.
    + intros t _. apply continuity_2d_pt_ext with (f := fun a t => fa a p t).
      * intros x y. symmetry. apply is_derive_unique, D.
      * apply tame_at, Fa.
    + exists (mkposreal 1 Rlt_0_1). intros y _. apply (tame_ex_RInt f F y p).
  - apply RInt_ext. intros t _. apply is_derive_unique, D.
Qed.
Lemma over_derive_p : forall f fp, (forall a p t, is_derive (fun p => f a p t) p (fp a p t)) -> tame f -> tame fp ->
  forall a p, is_derive (over f a) p (over fp a p).
Proof.
  intros f fp D F Fp a p. unfold over.
  evar_last.
  - apply (is_derive_RInt_param (fun p t => f a p t) 0 PI p).
    + exists (mkposreal 1 Rlt_0_1). intros y _ t _. exists (fp a y t). apply D.
    + intros t _. apply continuity_2d_pt_ext with (f := fun p t => fp a p t).
      * intros x y. symmetry. apply is_derive_unique, D.
      * apply tame_pt, Fp.
    + exists (mkposreal 1 Rlt_0_1). intros y _. apply (tame_ex_RInt f F a y).
  - apply RInt_ext. intros t _. apply is_derive_unique, D.
Qed.

Section Sphere.
Variables (g g1 g2 : R -> R) (c d rho : R).
Hypothesis Hg : forall x, is_derive g x (g1 x).
Hypothesis Hg1 : forall x, is_derive g1 x (g2 x).
Hypothesis Hg2 : forall x, continuous g2 x.
Hypothesis Hcd : c * c + d * d = 1.

Let C p := c * cos p + d * sin p.
Let S p := d * cos p - c * sin p.
Let u a p t := sin a * sin t * C p + cos a * cos t.
Let F a p t := sin t * g (rho * u a p t).
Let Fa a p t := sin t * (rho * (cos a * sin t * C p - sin a * cos t)) * g1 (rho * u a p t).
Let K a p t := cos t * S p * g (rho * u a p t).
Let Kp a p t := cos t * (- C p) * g (rho * u a p t) + cos t * S p * (rho * (sin a * sin t * S p)) * g1 (rho * u a p t).
Let E a p t := sin t * C p * g (rho * u a p t).
Let Et a p t := cos t * C p * g (rho * u a p t) + sin t * C p * (rho * (sin a * cos t * C p - cos a * sin t)) * g1 (rho * u a p t).

Lemma g1_continuous : forall x, continuous g1 x.
Proof. intro x. apply (ex_derive_continuous (V := R_NormedModule)). exists (g2 x). apply Hg1. Qed.

Lemma tame_C : tame (fun _ p _ => C p).
Proof. apply tame_plus; apply tame_mult; auto using tame_const, tame_cos_p, tame_sin_p. Qed.
Lemma tame_S : tame (fun _ p _ => S p).
Proof.
  apply (tame_ext (fun _ p _ => d * cos p + (- c) * sin p)); [intros; unfold S; ring|].
  apply tame_plus; apply tame_mult; auto using tame_const, tame_cos_p, tame_sin_p.
Qed.
Lemma tame_u : tame (fun a p t => rho * u a p t).
Proof.
  apply tame_mult; [apply tame_const|]. apply tame_plus.
  - apply tame_mult; [apply tame_mult; [apply tame_sin_a | apply tame_sin_t] | apply tame_C].
  - apply tame_mult; [apply tame_cos_a | apply tame_cos_t].
Qed.
Lemma tame_g : tame (fun a p t => g (rho * u a p t)).
Proof. exact (tame_comp g g1 _ Hg g1_continuous tame_u). Qed.
Lemma tame_g1 : tame (fun a p t => g1 (rho * u a p t)).
Proof. exact (tame_comp g1 g2 _ Hg1 Hg2 tame_u). Qed.
Lemma tame_neg_C : tame (fun _ p _ => - C p).
Proof. apply (tame_ext (fun _ p _ => (-1) * C p)); [intros; ring|]. apply tame_mult; [apply tame_const | apply tame_C]. Qed.

Lemma tame_F : tame F.
Proof. apply tame_mult; [apply tame_sin_t | apply tame_g]. Qed.
Lemma tame_Fa : tame Fa.
Proof.
  apply tame_mult; [apply tame_mult; [apply tame_sin_t|] | apply tame_g1].
  apply tame_mult; [apply tame_const|].
  apply (tame_ext (fun a p t => cos a * sin t * C p + (-1) * (sin a * cos t))); [intros; ring|].
  apply tame_plus.
  - apply tame_mult; [apply tame_mult; [apply tame_cos_a | apply tame_sin_t] | apply tame_C].
  - apply tame_mult; [apply tame_const|]. apply tame_mult; [apply tame_sin_a | apply tame_cos_t].
Qed.
Lemma tame_K : tame K.
Proof. apply tame_mult; [apply tame_mult; [apply tame_cos_t | apply tame_S] | apply tame_g]. Qed.
Lemma tame_Kp : tame Kp.
Proof.
  apply tame_plus.
  - apply tame_mult; [apply tame_mult; [apply tame_cos_t | apply tame_neg_C] | apply tame_g].
  - apply tame_mult; [apply tame_mult; [apply tame_mult; [apply tame_cos_t | apply tame_S]|] | apply tame_g1].
    apply tame_mult; [apply tame_const|]. apply tame_mult; [apply tame_mult; [apply tame_sin_a | apply tame_sin_t] | apply tame_S].
Qed.
Lemma tame_Et : tame Et.
Proof.
  apply tame_plus.
  - apply tame_mult; [apply tame_mult; [apply tame_cos_t | apply tame_C] | apply tame_g].
  - apply tame_mult; [apply tame_mult; [apply tame_mult; [apply tame_sin_t | apply tame_C]|] | apply tame_g1].
    apply tame_mult; [apply tame_const|].
    apply (tame_ext (fun a p t => sin a * cos t * C p + (-1) * (cos a * sin t))); [intros; ring|].
    apply tame_plus.
    + apply tame_mult; [apply tame_mult; [apply tame_sin_a | apply tame_cos_t] | apply tame_C].
    + apply tame_mult; [apply tame_const|]. apply tame_mult; [apply tame_cos_a | apply tame_sin_t].
Qed.

Lemma Dg : forall x, Derive g x = g1 x.
Proof. intro x. apply is_derive_unique, Hg. Qed.
Lemma Dg_eta : forall x, Derive (fun y => g y) x = g1 x.
Proof. intro x. apply is_derive_unique, Hg. Qed.

Lemma F_derive : forall a p t, is_derive (fun a => F a p t) a (Fa a p t).
Proof.
  intros a p t. unfold F, Fa, u. auto_derive; [exists (g1 (rho * (sin a * sin t * C p + cos a * cos t))); apply Hg|].
  rewrite Dg_eta. ring.
Qed.
Lemma K_derive : forall a p t, is_derive (fun p => K a p t) p (Kp a p t).
Proof.
  intros a p t. unfold K, Kp, u, C, S. auto_derive.
  - repeat split. eexists. apply Hg.
  - rewrite Dg_eta. ring_simplify. ring.
Qed.
Lemma E_derive : forall a p t, is_derive (E a p) t (Et a p t).
Proof.
  intros a p t. unfold E, Et, u. auto_derive; [exists (g1 (rho * (sin a * sin t * C p + cos a * cos t))); apply Hg|].
  rewrite Dg_eta. ring.
Qed.

Lemma divergence : forall a p t, Fa a p t = - Et a p t - Kp a p t.
Proof.
  intros a p t. unfold Fa, Et, Kp.
  assert (X : C p * C p + S p * S p = 1).
  { unfold C, S. pose proof (sin2_cos2 p) as Y. unfold Rsqr in Y.
    transitivity ((c * c + d * d) * (sin p * sin p + cos p * cos p)); [ring | rewrite Hcd, Y; ring]. }
  set (k := g1 _). set (h := g _). set (x := C p) in *. set (y := S p) in *.
  replace (sin t * (rho * (cos a * sin t * x - sin a * cos t)) * k)
    with (sin t * (rho * (cos a * sin t * x - sin a * cos t * (x * x + y * y))) * k) by (rewrite X; ring).
  ring.
Qed.

Lemma over_Fa : forall a p, over Fa a p = - over Kp a p.
Proof.
  intros a p. unfold over. apply is_RInt_unique.
  apply (is_RInt_ext (fun t => minus (opp (Et a p t)) (Kp a p t))).
  { intros t _. symmetry. exact (divergence a p t). }
  replace (- RInt (Kp a p) 0 PI) with (minus (opp (minus (E a p PI) (E a p 0))) (RInt (Kp a p) 0 PI)).
  2:{ unfold E. rewrite sin_PI, sin_0. unfold minus, opp, plus; cbn. ring. }
  apply (is_RInt_minus (V := R_NormedModule)).
  - apply (is_RInt_opp (V := R_NormedModule)). apply (is_RInt_derive (V := R_CompleteNormedModule)).
    + intros t _. apply E_derive.
    + intros t _. apply tame_t, tame_Et.
  - apply (RInt_correct (V := R_CompleteNormedModule)), tame_ex_RInt, tame_Kp.
Qed.

Lemma over_K_periodic : forall a, over K a (2 * PI) = over K a 0.
Proof.
  intro a. unfold over. apply RInt_ext. intros t _. unfold K, u, C, S.
  rewrite sin_2PI, cos_2PI, sin_0, cos_0. reflexivity.
Qed.

Lemma around_derive : forall a, is_derive (fun a => RInt (over F a) 0 (2 * PI)) a 0.
Proof.
  intro a. evar_last.
  - apply (is_derive_RInt_param (over F) 0 (2 * PI) a).
    + exists (mkposreal 1 Rlt_0_1). intros y _ p _. exists (over Fa y p). apply over_derive_a; [exact F_derive | exact tame_F | exact tame_Fa].
    + intros p _. apply continuity_2d_pt_ext with (f := over Fa).
      * intros x y. symmetry. apply is_derive_unique. apply over_derive_a; [exact F_derive | exact tame_F | exact tame_Fa].
      * apply over_2d, tame_Fa.
    + exists (mkposreal 1 Rlt_0_1). intros y _. apply (ex_RInt_continuous (V := R_CompleteNormedModule)).
      intros p _. apply over_p, tame_F.
  - rewrite (RInt_ext (V := R_CompleteNormedModule) _ (fun p => opp (over Kp a p))).
    2:{ intros p _.
        etransitivity; [apply is_derive_unique, over_derive_a; [exact F_derive | exact tame_F | exact tame_Fa] | exact (over_Fa a p)]. }
    apply is_RInt_unique.
    replace 0 with (opp (minus (over K a (2 * PI)) (over K a 0))) at 2.
    2:{ rewrite over_K_periodic. unfold minus, opp, plus; cbn. ring. }
    apply (is_RInt_opp (V := R_NormedModule)). apply (is_RInt_derive (V := R_CompleteNormedModule)).
    + intros p _. apply over_derive_p; [exact K_derive | exact tame_K | exact tame_Kp].
    + intros p _. apply over_p, tame_Kp.
Qed.

Lemma around_constant : forall a, RInt (over F a) 0 (2 * PI) = RInt (over F 0) 0 (2 * PI).
Proof.
  intro a. destruct (MVT_gen (fun a => RInt (over F a) 0 (2 * PI)) 0 a (fun _ => 0)) as (z & _ & H).
  - intros x _. apply around_derive.
  - intros x _. apply continuity_pt_filterlim.
    apply (ex_derive_continuous (V := R_NormedModule) (fun a => RInt (over F a) 0 (2 * PI))). exists 0. apply around_derive.
  - lra.
Qed.

Theorem sphere_average : forall a,
  RInt (fun p => RInt (fun t => sin t * g (rho * (sin a * sin t * (c * cos p + d * sin p) + cos a * cos t))) 0 PI) 0 (2 * PI)
  = 2 * PI * RInt (fun t => sin t * g (rho * cos t)) 0 PI.
Proof.
  intro a. change (RInt (over F a) 0 (2 * PI) = 2 * PI * RInt (fun t => sin t * g (rho * cos t)) 0 PI).
  rewrite around_constant.
  rewrite (RInt_ext (V := R_CompleteNormedModule) _ (fun _ => RInt (fun t => sin t * g (rho * cos t)) 0 PI)).
  2:{ intros p _. unfold over. apply RInt_ext. intros t _. unfold F, u. rewrite sin_0, cos_0.
      match goal with |- ?x = ?y => change (@eq R x y) end. f_equal. f_equal. ring. }
  rewrite (RInt_const (V := R_CompleteNormedModule)). unfold scal; cbn; unfold mult; cbn. ring.
Qed.
End Sphere.
