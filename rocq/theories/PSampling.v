(** Averages of the Monte Carlo samplers over their random numbers. *)
From Coq Require Import Reals ZArith List Lra Lia.
From Coquelicot Require Import Coquelicot.
From Verif Require Import Scalar MMonteCarlo SpecMonteCarlo PMonteCarlo SpecSampling PSphere.
Import ListNotations.
Open Scope R_scope.

(** ** Averages *)
Lemma has_average_ext : forall n f g v, (forall l, List.Forall (fun x => 0 < x < 1) l -> List.length l = n -> f l = g l) ->
  has_average n f v -> has_average n g v.
Proof.
  induction n as [|n IH]; intros f g v H A; cbn [has_average] in *.
  - rewrite <- H; [exact A | constructor | reflexivity].
  - destruct A as (h & E & A & I). exists h, E. split; [|exact I]. intros x Hx Hn. apply (IH (fun l => f (x :: l))); [|apply A; assumption].
    intros l Hl L. apply H; [constructor; assumption | cbn; congruence].
Qed.

(** A Riemann integral does not depend on finitely many values. *)
Lemma is_RInt_except : forall E (f g : R -> R) a b v, a <= b ->
  (forall x, a < x < b -> ~ In x E -> f x = g x) -> is_RInt f a b v -> is_RInt g a b v.
Proof.
  induction E as [|e E IH]; intros f g a b v Hab H A.
  - apply (is_RInt_ext f); [|exact A]. rewrite Rmin_left, Rmax_right by lra. intros x Hx. apply H; [exact Hx | intros []].
  - destruct (Rlt_dec a e) as [La|La]; [destruct (Rlt_dec e b) as [Lb|Lb]|].
    + assert (X1 : ex_RInt f a e) by (apply (ex_RInt_Chasles_1 (V := R_CompleteNormedModule) f a e b); [lra | exists v; exact A]).
      assert (X2 : ex_RInt f e b) by (apply (ex_RInt_Chasles_2 (V := R_CompleteNormedModule) f a e b); [lra | exists v; exact A]).
      destruct X1 as (v1 & A1). destruct X2 as (v2 & A2).
      assert (Ev : v = plus v1 v2).
      { pose proof (is_RInt_Chasles (V := R_NormedModule) f a e b v1 v2 A1 A2) as C.
        rewrite <- (is_RInt_unique (V := R_CompleteNormedModule) _ _ _ _ A). apply (is_RInt_unique (V := R_CompleteNormedModule)). exact C. }
      rewrite Ev. apply (is_RInt_Chasles (V := R_NormedModule) g a e b).
      * apply (IH f); [lra| |exact A1]. intros x Hx N. apply H; [lra|]. intros [X|X]; [lra | exact (N X)].
      * apply (IH f); [lra| |exact A2]. intros x Hx N. apply H; [lra|]. intros [X|X]; [lra | exact (N X)].
    + apply (IH f); [exact Hab| |exact A]. intros x Hx N. apply H; [lra|]. intros [X|X]; [lra | exact (N X)].
    + apply (IH f); [exact Hab| |exact A]. intros x Hx N. apply H; [lra|]. intros [X|X]; [lra | exact (N X)].
Qed.

Lemma has_average_unique : forall n f v w, has_average n f v -> has_average n f w -> v = w.
Proof.
  induction n as [|n IH]; intros f v w A B; cbn [has_average] in *; [congruence|].
  destruct A as (h & E & A & I). destruct B as (k & F & B & J).
  assert (I' : is_RInt k 0 1 v).
  { apply (is_RInt_except (E ++ F) h); [lra| |exact I]. intros x Hx N. apply (IH (fun l => f (x :: l))); [apply A | apply B]; try assumption;
      intro X; apply N, in_or_app; auto. }
  rewrite <- (is_RInt_unique (V := R_CompleteNormedModule) _ _ _ _ I'), <- (is_RInt_unique (V := R_CompleteNormedModule) _ _ _ _ J). reflexivity.
Qed.

(** ** One link *)
Lemma smooth_comp : forall (g g1 f : R -> R) x, (forall y, is_derive g y (g1 y)) -> ex_derive f x -> ex_derive (fun t => g (f t)) x.
Proof. intros g g1 f x Hg Hf. apply (ex_derive_comp g f); [exists (g1 (f x)); apply Hg | exact Hf]. Qed.

Lemma height_sub : forall (f : R -> R), (forall b, continuous f b) ->
  is_RInt (fun t => sin t / 2 * f ((1 - cos t) / 2)) 0 PI (RInt f 0 1).
Proof.
  intros f C.
  replace (RInt f 0 1) with (RInt f ((1 - cos 0) / 2) ((1 - cos PI) / 2)).
  2:{ rewrite cos_0, cos_PI. f_equal; field. }
  apply (is_RInt_comp (V := R_CompleteNormedModule) f (fun t => (1 - cos t) / 2) (fun t => sin t / 2)).
  - intros t _. apply C.
  - intros t _. split; [auto_derive; [exact I | field]|].
    apply (ex_derive_continuous (V := R_NormedModule)). auto_derive. exact I.
Qed.

Lemma component_continuous : forall (g g1 : R -> R) k a, (forall x, is_derive g x (g1 x)) ->
  forall b, continuous (fun b => g (dot k (sphere_point a b))) b.
Proof.
  intros g g1 [[k0 k1] k2] a Hg b. apply continuous_comp.
  - unfold dot, sphere_point. cbv zeta.
    apply (continuous_ext (fun b => (k0 * cos (2 * PI * a) + k1 * sin (2 * PI * a)) * sqrt (1 - (1 - 2 * b) ^ 2) + k2 * (1 - 2 * b))).
    { intro x. match goal with |- ?x = ?y => change (@eq R x y) end. ring. }
    apply (continuous_plus (V := R_NormedModule)).
    + apply (continuous_mult (K := R_AbsRing)); [apply continuous_const|].
      apply (continuous_comp (fun b => 1 - (1 - 2 * b) ^ 2) sqrt).
      * apply (ex_derive_continuous (V := R_NormedModule)). auto_derive. exact I.
      * apply continuous_sqrt.
    + apply (ex_derive_continuous (V := R_NormedModule)). auto_derive. exact I.
  - apply (ex_derive_continuous (V := R_NormedModule)). eexists. apply Hg.
Qed.

Lemma polar : forall k : vec R, exists a c d, c * c + d * d = 1 /\
  k = (vlength k * (sin a * c), vlength k * (sin a * d), vlength k * cos a).
Proof.
  intros [[k0 k1] k2]. set (r := vlength (k0, k1, k2)).
  assert (R2 : r * r = k0 * k0 + k1 * k1 + k2 * k2) by apply vlength_sq.
  pose proof (vlength_nonneg (k0, k1, k2)) as R0. fold r in R0.
  destruct (Req_dec r 0) as [Z|NZ].
  - exists 0, 1, 0. split; [ring|]. rewrite Z in *. assert (k0 = 0 /\ k1 = 0 /\ k2 = 0) as (-> & -> & ->) by (repeat split; apply Rsqr_0_uniq; unfold Rsqr; nra).
    repeat f_equal; ring.
  - assert (Rp : 0 < r) by lra.
    set (z := k2 / r). assert (Ez : k2 = r * z) by (unfold z; field; lra).
    assert (Hzz : z * z <= 1).
    { apply Rmult_le_reg_l with (r * r); [nra|]. replace (r * r * (z * z)) with (k2 * k2) by (rewrite Ez; ring). nra. }
    assert (Hz : -1 <= z <= 1) by nra.
    set (h := sqrt (k0 * k0 + k1 * k1)).
    assert (H2 : h * h = k0 * k0 + k1 * k1) by (apply sqrt_sqrt; nra).
    assert (H0 : 0 <= h) by apply sqrt_pos.
    assert (Es : r * sin (acos z) = h).
    { rewrite sin_acos by exact Hz. unfold h, Rsqr. rewrite <- (sqrt_square r) at 1 by lra. rewrite <- sqrt_mult by nra. f_equal. nra. }
    destruct (Req_dec h 0) as [Zh|NZh].
    + exists (acos z), 1, 0. split; [ring|]. rewrite cos_acos by exact Hz.
      assert (k0 = 0 /\ k1 = 0) as (-> & ->) by (rewrite Zh in H2; split; apply Rsqr_0_uniq; unfold Rsqr; nra). rewrite <- Ez.
      repeat f_equal; [|ring]. rewrite Rmult_1_r, Es. symmetry; exact Zh.
    + exists (acos z), (k0 / h), (k1 / h). split; [field_simplify_eq; lra|].
      rewrite cos_acos by exact Hz. rewrite <- Ez, <- !Rmult_assoc, Es. repeat f_equal; field; exact NZh.
Qed.

Lemma sphere_component_average : forall (g g1 g2 : R -> R) (k : vec R),
  (forall x, is_derive g x (g1 x)) -> (forall x, is_derive g1 x (g2 x)) -> (forall x, continuous g2 x) ->
  exists h, (forall a, is_RInt (fun b => g (dot k (sphere_point a b))) 0 1 (h a)) /\
    is_RInt h 0 1 (RInt (fun b => g (vlength k * (1 - 2 * b))) 0 1).
Proof.
  intros g g1 g2 k Hg Hg1 Hg2. exists (fun a => RInt (fun b => g (dot k (sphere_point a b))) 0 1). split.
  { intro a. apply (RInt_correct (V := R_CompleteNormedModule)). apply (ex_RInt_continuous (V := R_CompleteNormedModule)).
    intros b _. exact (component_continuous g g1 k a Hg b). }
  destruct (polar k) as (al & c & d & Hcd & E). set (rho := vlength k) in *.
  set (F := fun al p t => sin t * g (rho * (sin al * sin t * (c * cos p + d * sin p) + cos al * cos t))).
  assert (TF : tame F) by exact (tame_F g g1 g2 c d rho Hg Hg1).
  assert (H : forall a, RInt (fun b => g (dot k (sphere_point a b))) 0 1 = / 2 * over F al (2 * PI * a)).
  { intro a. transitivity (RInt (fun t => scal (/ 2) (F al (2 * PI * a) t)) 0 PI).
    - symmetry. apply is_RInt_unique.
      apply (is_RInt_ext (fun t => sin t / 2 * g (dot k (sphere_point a ((1 - cos t) / 2))))).
      2:{ apply (height_sub (fun b => g (dot k (sphere_point a b)))). intro b. exact (component_continuous g g1 k a Hg b). }
      pose proof PI_RGT_0. rewrite Rmin_left, Rmax_right by lra. intros t Ht.
      unfold scal; cbn; unfold mult; cbn. unfold F.
      replace (dot k (sphere_point a ((1 - cos t) / 2)))
        with (rho * (sin al * sin t * (c * cos (2 * PI * a) + d * sin (2 * PI * a)) + cos al * cos t)); [field|].
      rewrite E. unfold sphere_point, dot. cbv zeta.
      replace (1 - 2 * ((1 - cos t) / 2)) with (cos t) by field.
      replace (sqrt (1 - cos t ^ 2)) with (sin t); [ring|].
      replace (1 - cos t ^ 2) with (sin t * sin t).
      { symmetry. apply sqrt_square. left. apply sin_gt_0; lra. }
      pose proof (sin2_cos2 t) as X. unfold Rsqr in X. nra.
    - rewrite (RInt_scal (V := R_CompleteNormedModule)); [reflexivity | apply tame_ex_RInt, TF]. }
  apply (is_RInt_ext (fun a => scal (/ (4 * PI)) (scal (2 * PI) (over F al (2 * PI * a + 0))))).
  { intros a _. rewrite H. unfold scal; cbn; unfold mult; cbn. rewrite Rplus_0_r. pose proof PI_RGT_0. field. lra. }
  replace (RInt (fun b => g (rho * (1 - 2 * b))) 0 1) with (scal (/ (4 * PI)) (RInt (over F al) (2 * PI * 0 + 0) (2 * PI * 1 + 0))).
  - apply (is_RInt_scal (V := R_NormedModule)).
    apply (is_RInt_comp_lin (V := R_NormedModule)). apply (RInt_correct (V := R_CompleteNormedModule)).
    apply (ex_RInt_continuous (V := R_CompleteNormedModule)). intros p _. apply over_p, TF.
  - rewrite !Rplus_0_r, Rmult_0_r, Rmult_1_r.
    pose proof (sphere_average g g1 g2 c d rho Hg Hg1 Hg2 Hcd al) as SA.
    change (RInt (over F al) 0 (2 * PI) = 2 * PI * RInt (fun t => sin t * g (rho * cos t)) 0 PI) in SA. rewrite SA.
    assert (X : RInt (fun b => g (rho * (1 - 2 * b))) 0 1 = / 2 * RInt (fun t => sin t * g (rho * cos t)) 0 PI).
    { transitivity (RInt (fun t => scal (/ 2) (sin t * g (rho * cos t))) 0 PI).
      - symmetry. apply is_RInt_unique.
        apply (is_RInt_ext (fun t => sin t / 2 * g (rho * (1 - 2 * ((1 - cos t) / 2))))).
        2:{ apply (height_sub (fun b => g (rho * (1 - 2 * b)))). intro b. apply (ex_derive_continuous (V := R_NormedModule)).
            apply (smooth_comp g g1 (fun b => rho * (1 - 2 * b))); [exact Hg | auto_derive; exact I]. }
        intros t _. unfold scal; cbn; unfold mult; cbn. replace (1 - 2 * ((1 - cos t) / 2)) with (cos t) by field. field.
      - rewrite (RInt_scal (V := R_CompleteNormedModule)); [reflexivity|].
        apply (ex_RInt_continuous (V := R_CompleteNormedModule)). intros t _. apply (ex_derive_continuous (V := R_NormedModule)).
        apply ex_derive_mult; [auto_derive; exact I|].
        apply (smooth_comp g g1 (fun t => rho * cos t)); [exact Hg | auto_derive; exact I]. }
    rewrite X. unfold scal; cbn; unfold mult; cbn. pose proof PI_RGT_0. field. lra.
Qed.

(** The three averages used below. *)
Lemma height_linear : forall r, is_RInt (fun b => r * (1 - 2 * b)) 0 1 0.
Proof.
  intro r. replace 0 with (Hierarchy.minus (r * (1 - 1 ^ 2)) (r * (0 - 0 ^ 2))) at 2 by (unfold Hierarchy.minus, plus, opp; cbn; ring).
  apply (is_RInt_derive (V := R_CompleteNormedModule) (fun b => r * (b - b ^ 2))).
  - intros b _. auto_derive; [exact I | ring].
  - intros b _. apply (ex_derive_continuous (V := R_NormedModule)). auto_derive. exact I.
Qed.

Lemma height_exp : forall r, RInt (fun b => exp (r * (1 - 2 * b))) 0 1 = sinhc r.
Proof.
  intro r. unfold sinhc. destruct (Req_EM_T r 0) as [->|Z].
  - rewrite (RInt_ext (V := R_CompleteNormedModule) _ (fun _ => 1)).
    + rewrite (RInt_const (V := R_CompleteNormedModule)). unfold scal; cbn; unfold mult; cbn. ring.
    + intros b _. rewrite Rmult_0_l. apply exp_0.
  - apply is_RInt_unique.
    replace (sinh r / r) with (Hierarchy.minus (- exp (r * (1 - 2 * 1)) / (2 * r)) (- exp (r * (1 - 2 * 0)) / (2 * r))).
    2:{ unfold Hierarchy.minus, plus, opp, sinh; cbn. replace (r * (1 - 2 * 1)) with (- r) by ring. replace (r * (1 - 2 * 0)) with r by ring. field. exact Z. }
    apply (is_RInt_derive (V := R_CompleteNormedModule) (fun b => - exp (r * (1 - 2 * b)) / (2 * r))).
    + intros b _. auto_derive; [exact I | change (1 + - (2 * b)) with (1 - 2 * b); field; exact Z].
    + intros b _. apply (ex_derive_continuous (V := R_NormedModule)). auto_derive. exact I.
Qed.

Lemma height_cos : forall r, RInt (fun b => cos (r * (1 - 2 * b))) 0 1 = sinc r.
Proof.
  intro r. unfold sinc. destruct (Req_EM_T r 0) as [->|Z].
  - rewrite (RInt_ext (V := R_CompleteNormedModule) _ (fun _ => 1)).
    + rewrite (RInt_const (V := R_CompleteNormedModule)). unfold scal; cbn; unfold mult; cbn. ring.
    + intros b _. rewrite Rmult_0_l. apply cos_0.
  - apply is_RInt_unique.
    replace (sin r / r) with (Hierarchy.minus (- sin (r * (1 - 2 * 1)) / (2 * r)) (- sin (r * (1 - 2 * 0)) / (2 * r))).
    2:{ unfold Hierarchy.minus, plus, opp; cbn. replace (r * (1 - 2 * 1)) with (- r) by ring. replace (r * (1 - 2 * 0)) with r by ring.
        rewrite sin_neg. field. exact Z. }
    apply (is_RInt_derive (V := R_CompleteNormedModule) (fun b => - sin (r * (1 - 2 * b)) / (2 * r))).
    + intros b _. auto_derive; [exact I | change (1 + - (2 * b)) with (1 - 2 * b); field; exact Z].
    + intros b _. apply (ex_derive_continuous (V := R_NormedModule)). auto_derive. exact I.
Qed.

Lemma height_sin : forall r, RInt (fun b => sin (r * (1 - 2 * b))) 0 1 = 0.
Proof.
  intro r. destruct (Req_EM_T r 0) as [->|Z].
  - rewrite (RInt_ext (V := R_CompleteNormedModule) _ (fun _ => 0)).
    + rewrite (RInt_const (V := R_CompleteNormedModule)). unfold scal; cbn; unfold mult; cbn. ring.
    + intros b _. rewrite Rmult_0_l. apply sin_0.
  - apply is_RInt_unique.
    replace 0 with (Hierarchy.minus (cos (r * (1 - 2 * 1)) / (2 * r)) (cos (r * (1 - 2 * 0)) / (2 * r))) at 2.
    2:{ unfold Hierarchy.minus, plus, opp; cbn. replace (r * (1 - 2 * 1)) with (- r) by ring. replace (r * (1 - 2 * 0)) with r by ring.
        rewrite cos_neg. field. exact Z. }
    apply (is_RInt_derive (V := R_CompleteNormedModule) (fun b => cos (r * (1 - 2 * b)) / (2 * r))).
    + intros b _. auto_derive; [exact I | change (1 + - (2 * b)) with (1 - 2 * b); field; exact Z].
    + intros b _. apply (ex_derive_continuous (V := R_NormedModule)). auto_derive. exact I.
Qed.

Definition link_average (f : vec R -> R) (v : R) : Prop :=
  exists h, (forall a, is_RInt (fun b => f (sphere_point a b)) 0 1 (h a)) /\ is_RInt h 0 1 v.

Lemma link_linear : forall k, link_average (fun s => dot k s) 0.
Proof.
  intro k. destruct (sphere_component_average (fun x => x) (fun _ => 1) (fun _ => 0) k) as (h & A & I).
  - intro x. auto_derive; [exact I | reflexivity].
  - intro x. auto_derive; [exact I | reflexivity].
  - intro x. apply continuous_const.
  - exists h. split; [exact A|]. rewrite (is_RInt_unique _ _ _ _ (height_linear (vlength k))) in I. exact I.
Qed.
Lemma link_exp : forall k, link_average (fun s => exp (dot k s)) (sinhc (vlength k)).
Proof.
  intro k. rewrite <- height_exp. apply (sphere_component_average exp exp exp).
  - intro x. auto_derive; [exact I | ring].
  - intro x. auto_derive; [exact I | ring].
  - intro x. apply (ex_derive_continuous (V := R_NormedModule)). auto_derive. exact I.
Qed.
Lemma link_cos : forall k, link_average (fun s => cos (dot k s)) (sinc (vlength k)).
Proof.
  intro k. rewrite <- height_cos. apply (sphere_component_average cos (fun x => - sin x) (fun x => - cos x)).
  - intro x. auto_derive; [exact I | ring].
  - intro x. auto_derive; [exact I | ring].
  - intro x. apply (ex_derive_continuous (V := R_NormedModule)). auto_derive. exact I.
Qed.
Lemma link_sin : forall k, link_average (fun s => sin (dot k s)) 0.
Proof.
  intro k. rewrite <- (height_sin (vlength k)). apply (sphere_component_average sin cos (fun x => - sin x)).
  - intro x. auto_derive; [exact I | ring].
  - intro x. auto_derive; [exact I | ring].
  - intro x. apply (ex_derive_continuous (V := R_NormedModule)). auto_derive. exact I.
Qed.

Lemma link_average_ext : forall f g v, (forall a b, 0 < b < 1 -> f (sphere_point a b) = g (sphere_point a b)) ->
  link_average f v -> link_average g v.
Proof.
  intros f g v H (h & A & I). exists h. split; [|exact I]. intro a. apply (is_RInt_ext (fun b => f (sphere_point a b))); [|apply A].
  rewrite Rmin_left, Rmax_right by lra. intros b Hb. apply H, Hb.
Qed.
Lemma link_average_affine : forall f v c d, link_average f v -> link_average (fun s => c * f s + d) (c * v + d).
Proof.
  intros f v c d (h & A & I). exists (fun a => c * h a + d). split.
  - intro a. apply (is_RInt_plus (V := R_NormedModule)).
    + apply (is_RInt_scal (V := R_NormedModule)). apply A.
    + pose proof (is_RInt_const (V := R_NormedModule) 0 1 d) as X. unfold scal in X; cbn in X; unfold mult in X; cbn in X.
      replace ((1 - 0) * d) with d in X by ring. exact X.
  - apply (is_RInt_plus (V := R_NormedModule)).
    + apply (is_RInt_scal (V := R_NormedModule)). exact I.
    + pose proof (is_RInt_const (V := R_NormedModule) 0 1 d) as X. unfold scal in X; cbn in X; unfold mult in X; cbn in X.
      replace ((1 - 0) * d) with d in X by ring. exact X.
Qed.
Lemma link_average_plus : forall f g v w, link_average f v -> link_average g w -> link_average (fun s => f s + g s) (v + w).
Proof.
  intros f g v w (h & A & I) (k & B & J). exists (fun a => h a + k a). split.
  - intro a. apply (is_RInt_plus (V := R_NormedModule)); auto.
  - apply (is_RInt_plus (V := R_NormedModule)); auto.
Qed.
