(** The law of the sampled freely jointed chain, tested by polynomials of the squared
    end-to-end length. *)
From Coq Require Import Reals ZArith List Lra Lia.
From Coquelicot Require Import Coquelicot.
From Verif Require Import Scalar MMonteCarlo SpecMonteCarlo PMonteCarlo SpecSampling PSphere PSampling PSamplingWalk PIrwinHall PTreloar.
Import ListNotations.
Open Scope R_scope.

Inductive pol : (R -> R) -> Prop :=
| pol_pow : forall m, pol (fun u => u ^ m)
| pol_lin : forall a f g, pol f -> pol g -> pol (fun u => a * f u + g u)
| pol_ext : forall f g, (forall u, f u = g u) -> pol f -> pol g.

Lemma pol_const : forall c, pol (fun _ => c).
Proof.
  intro c. apply (pol_ext (fun u => (c - 1) * u ^ 0 + u ^ 0)); [intro u; cbn; ring|]. apply (pol_lin _ (fun u => u ^ 0) (fun u => u ^ 0)); apply pol_pow.
Qed.
Lemma pol_id : pol (fun u => u).
Proof. apply (pol_ext (fun u => u ^ 1)); [intro u; ring | apply pol_pow]. Qed.
Lemma pol_plus : forall f g, pol f -> pol g -> pol (fun u => f u + g u).
Proof. intros f g F G. apply (pol_ext (fun u => 1 * f u + g u)); [intro; ring | apply pol_lin; assumption]. Qed.
Lemma pol_scal : forall c f, pol f -> pol (fun u => c * f u).
Proof. intros c f F. apply (pol_ext (fun u => c * f u + 0)); [intro; ring | apply pol_lin; [exact F | apply pol_const]]. Qed.
Lemma pol_minus : forall f g, pol f -> pol g -> pol (fun u => f u - g u).
Proof. intros f g F G. apply (pol_ext (fun u => -1 * g u + f u)); [intro; ring | apply pol_lin; assumption]. Qed.
Lemma pol_mult : forall f g, pol f -> pol g -> pol (fun u => f u * g u).
Proof.
  intros f g F G. induction F as [m|a f1 f2 F1 I1 F2 I2|f1 f2 E F1 I1].
  - induction G as [k|b g1 g2 G1 J1 G2 J2|g1 g2 E G1 J1].
    + apply (pol_ext (fun u => u ^ (m + k))); [intro u; apply pow_add | apply pol_pow].
    + apply (pol_ext (fun u => b * (u ^ m * g1 u) + u ^ m * g2 u)); [intro; ring | apply pol_lin; assumption].
    + apply (pol_ext (fun u => u ^ m * g1 u)); [intro; rewrite E; ring | assumption].
  - apply (pol_ext (fun u => a * (f1 u * g u) + f2 u * g u)); [intro; ring | apply pol_lin; assumption].
  - apply (pol_ext (fun u => f1 u * g u)); [intro; rewrite E; ring | assumption].
Qed.
Lemma pol_power : forall f m, pol f -> pol (fun u => f u ^ m).
Proof.
  intros f m F. induction m as [|m IH]; [exact (pol_const 1)|]. exact (pol_mult f (fun u => f u ^ m) F IH).
Qed.

Lemma pol_derive : forall f, pol f -> exists f1, pol f1 /\ forall u, is_derive f u (f1 u).
Proof.
  intros f F. induction F as [m|a f g F (f1 & P1 & D1) G (g1 & P2 & D2)|f g E F (f1 & P1 & D1)].
  - exists (fun u => INR m * u ^ pred m). split; [apply (pol_scal (INR m) (fun u => u ^ pred m)), pol_pow|]. intro u. auto_derive; [exact I | ring].
  - exists (fun u => a * f1 u + g1 u). split; [apply pol_lin; assumption|]. intro u.
    apply (is_derive_plus (V := R_NormedModule)); [|apply D2]. apply (is_derive_scal f). apply D1.
  - exists f1. split; [exact P1|]. intro u. apply (is_derive_ext f); [exact E | apply D1].
Qed.

(** ** One more link *)
Lemma odd_powers : forall m, exists a e, pol a /\ pol e /\ e 0 = 4 * INR m /\ a 0 = 2 /\
  forall x, a (x ^ 2) = (x + 1) ^ (2 * m) + (x - 1) ^ (2 * m) /\ x * e (x ^ 2) = (x + 1) ^ (2 * m) - (x - 1) ^ (2 * m).
Proof.
  induction m as [|m (a & e & A & E & E0 & A0 & H)].
  - exists (fun _ => 2), (fun _ => 0). split; [apply pol_const|]. split; [apply pol_const|]. split; [cbn; ring|]. split; [reflexivity|].
    intro x. cbn. split; ring.
  - exists (fun u => (u + 1) * a u + 2 * (u * e u)), (fun u => (u + 1) * e u + 2 * a u).
    assert (U1 : pol (fun u => u + 1)) by (apply pol_plus; [apply pol_id | apply pol_const]).
    split; [|split; [|split; [|split]]].
    + apply pol_plus; [apply pol_mult; assumption|]. apply (pol_scal 2 (fun u => u * e u)). apply pol_mult; [apply pol_id | assumption].
    + apply pol_plus; [apply pol_mult; assumption|]. apply pol_scal; assumption.
    + rewrite E0, A0, S_INR. ring.
    + rewrite E0, A0. ring.
    + intro x. destruct (H x) as [Ha He]. replace (2 * S m)%nat with (S (S (2 * m))) by lia.
      replace ((x + 1) ^ S (S (2 * m))) with ((x ^ 2 + 1 + 2 * x) * (x + 1) ^ (2 * m)) by (cbn [pow]; ring).
      replace ((x - 1) ^ S (S (2 * m))) with ((x ^ 2 + 1 - 2 * x) * (x - 1) ^ (2 * m)) by (cbn [pow]; ring).
      set (s := (x + 1) ^ (2 * m)) in *. set (d := (x - 1) ^ (2 * m)) in *. split.
      * rewrite Ha. replace (2 * (x ^ 2 * e (x ^ 2))) with (2 * x * (x * e (x ^ 2))) by ring. rewrite He. ring.
      * replace (x * ((x ^ 2 + 1) * e (x ^ 2) + 2 * a (x ^ 2))) with ((x ^ 2 + 1) * (x * e (x ^ 2)) + 2 * x * a (x ^ 2)) by ring. rewrite Ha, He. ring.
Qed.

Lemma pol_link : forall q, pol q -> exists q' H, pol q' /\ (forall x, is_derive H x (x * q (x ^ 2))) /\
  (forall x, 2 * x * q' (x ^ 2) = H (x + 1) - H (x - 1)) /\
  (forall p, link_average (fun s => q (dot (add3 p s) (add3 p s))) (q' (dot p p))).
Proof.
  intros q Q. induction Q as [m|a f g F (f' & Hf & P1 & D1 & S1 & L1) G (g' & Hg & P2 & D2 & S2 & L2)|f g E F (f' & Hf & P1 & D1 & S1 & L1)].
  - destruct (odd_powers (S m)) as (a & e & A & E & E0 & A0 & H). set (c := INR (S m)) in *.
    assert (Pc : 0 < c) by (apply lt_0_INR; lia).
    exists (fun u => / (4 * c) * e u), (fun x => x ^ (2 * S m) / (2 * c)). split; [apply pol_scal; exact E|]. split; [|split].
    + intro x. assert (D : forall k, is_derive (fun x => x ^ S k / (2 * c)) x (INR (S k) * x ^ k / (2 * c))).
      { intro k. auto_derive; [exact I|]. change (match k with 0%nat => 1 | S _ => INR k + 1 end) with (INR (S k)). field. lra. }
      replace (2 * S m)%nat with (S (S (2 * m))) by lia. evar_last; [apply D|].
      replace (INR (S (S (2 * m)))) with (2 * c) by (unfold c; rewrite !S_INR, mult_INR; cbn; ring).
      rewrite <- pow_mult. cbn [pow]. field. lra.
    + intro x. destruct (H x) as [_ He]. replace (2 * x * (/ (4 * c) * e (x ^ 2))) with (x * e (x ^ 2) / (2 * c)) by (field; lra). rewrite He. field. lra.
    + intro p. set (g := fun y => (dot p p + 1 + 2 * y) ^ m).
      apply (link_average_ext (fun s => g (dot p s))).
      { intros a0 b Hb. unfold g. f_equal. rewrite dot_add_r, !dot_add_l, (dot_comm (sphere_point a0 b) p), sphere_point_unit by exact Hb. ring. }
      assert (V : RInt (fun b => g (vlength p * (1 - 2 * b))) 0 1 = / (4 * c) * e (dot p p)).
      { pose proof (vlength_sq p) as Sq. set (r := vlength p) in *. rewrite <- Sq. unfold g. rewrite <- Sq.
        destruct (Req_dec r 0) as [Z|NZ].
        - rewrite Z. rewrite (RInt_ext (V := R_CompleteNormedModule) _ (fun _ => 1)).
          + rewrite (RInt_const (V := R_CompleteNormedModule)). change ((1 - 0) * 1 = / (4 * c) * e (0 * 0)). rewrite Rmult_0_l, E0. field. lra.
          + intros b _. replace (0 * 0 + 1 + 2 * (0 * (1 - 2 * b))) with 1 by ring. apply pow1.
        - apply is_RInt_unique. destruct (H r) as [_ He].
          replace (/ (4 * c) * e (r * r)) with (Hierarchy.minus (- (r * r + 1 + 2 * (r * (1 - 2 * 1))) ^ (S m) / (4 * r * c))
                                                       (- (r * r + 1 + 2 * (r * (1 - 2 * 0))) ^ (S m) / (4 * r * c))).
          2:{ unfold Hierarchy.minus, plus, opp; cbn [AbelianGroup.plus AbelianGroup.opp R_AbelianGroup R_AbelianGroup_mixin]. cbn -[pow INR Nat.mul].
              replace (r * r + 1 + 2 * (r * (1 - 2 * 1))) with ((r - 1) ^ 2) by ring.
              replace (r * r + 1 + 2 * (r * (1 - 2 * 0))) with ((r + 1) ^ 2) by ring. rewrite <- !pow_mult.
              replace (r ^ 2) with (r * r) in He by ring.
              replace (e (r * r)) with ((r * e (r * r)) / r) by (field; exact NZ). rewrite He. field. split; lra. }
          apply (is_RInt_derive (V := R_CompleteNormedModule) (fun b => - (r * r + 1 + 2 * (r * (1 - 2 * b))) ^ (S m) / (4 * r * c))).
          + intros b _. auto_derive; [exact I|]. change (match m with 0%nat => 1 | S _ => INR m + 1 end) with c. change (1 + - (2 * b)) with (1 - 2 * b).
            cbn [Init.Nat.pred]. field. split; lra.
          + intros b _. apply (ex_derive_continuous (V := R_NormedModule)). auto_derive. exact I. }
      rewrite <- V.
      destruct (pol_derive _ (pol_pow m)) as (g1 & Pg1 & D1). destruct (pol_derive _ Pg1) as (g2 & Pg2 & D2). destruct (pol_derive _ Pg2) as (g3 & Pg3 & D3).
      apply (sphere_component_average g (fun y => 2 * g1 (dot p p + 1 + 2 * y)) (fun y => 4 * g2 (dot p p + 1 + 2 * y))).
      * intro y. unfold g. evar_last.
        { apply (is_derive_comp (fun u => u ^ m) (fun y => dot p p + 1 + 2 * y)); [apply D1|]. auto_derive; [exact I | reflexivity]. }
        unfold scal; cbn; unfold mult; cbn. ring.
      * intro y. evar_last.
        { apply (is_derive_scal (fun y => g1 (dot p p + 1 + 2 * y))). apply (is_derive_comp g1 (fun y => dot p p + 1 + 2 * y)); [apply D2|]. auto_derive; [exact I | reflexivity]. }
        unfold scal; cbn; unfold mult; cbn. ring.
      * intro y. apply (ex_derive_continuous (V := R_NormedModule)). eexists.
        apply (is_derive_scal (fun y => g2 (dot p p + 1 + 2 * y))). apply (is_derive_comp g2 (fun y => dot p p + 1 + 2 * y)); [apply D3|]. auto_derive; [exact I | reflexivity].
  - exists (fun u => a * f' u + g' u), (fun x => a * Hf x + Hg x). split; [apply pol_lin; assumption|]. split; [|split].
    + intro x. evar_last; [apply (is_derive_plus (V := R_NormedModule)); [apply (is_derive_scal Hf); apply D1 | apply D2]|].
      unfold plus, scal; cbn; unfold mult; cbn. ring.
    + intro x. specialize (S1 x). specialize (S2 x). nra.
    + intro p. apply (link_average_ext (fun s => (a * f (dot (add3 p s) (add3 p s)) + 0) + g (dot (add3 p s) (add3 p s)))); [intros; ring|].
      replace (a * f' (dot p p) + g' (dot p p)) with ((a * f' (dot p p) + 0) + g' (dot p p)) by ring.
      apply (link_average_plus (fun s => a * f (dot (add3 p s) (add3 p s)) + 0)); [apply (link_average_affine (fun s => f (dot (add3 p s) (add3 p s)))), L1 | apply L2].
  - exists f', Hf. split; [exact P1|]. split; [|split; [exact S1|]].
    + intro x. rewrite <- E. apply D1.
    + intro p. apply (link_average_ext (fun s => f (dot (add3 p s) (add3 p s)))); [intros; apply E | apply L1].
Qed.

(** ** Any number of links *)
Definition one_more (q q' : R -> R) : Prop := pol q /\ pol q' /\ exists H, (forall x, is_derive H x (x * q (x ^ 2))) /\
  (forall x, 2 * x * q' (x ^ 2) = H (x + 1) - H (x - 1)) /\
  (forall p, link_average (fun s => q (dot (add3 p s) (add3 p s))) (q' (dot p p))).

Inductive more : nat -> (R -> R) -> (R -> R) -> Prop :=
| more_0 : forall q, pol q -> more 0 q q
| more_S : forall n q q' q'', more n q q' -> one_more q' q'' -> more (S n) q q''.

Lemma more_pol : forall n q q', more n q q' -> pol q'.
Proof. intros n q q' M. destruct M as [q Q|n q q' q'' _ (_ & Q & _)]; exact Q. Qed.
Lemma more_exists : forall n q, pol q -> exists q', more n q q'.
Proof.
  intros n q Q. induction n as [|n (q' & M)]; [exists q; constructor; exact Q|].
  destruct (pol_link q' (more_pol _ _ _ M)) as (q'' & H & Q'' & D & S0 & L). exists q''. apply (more_S n q q'); [exact M|].
  split; [exact (more_pol _ _ _ M)|]. split; [exact Q''|]. exists H. auto.
Qed.
Lemma more_first : forall n q q'', more (S n) q q'' -> exists q', one_more q q' /\ more n q' q''.
Proof.
  induction n as [|n IH]; intros q q'' M; inversion M as [|n0 q0 q' q0'' M' O]; subst.
  - inversion M'; subst. exists q''. split; [exact O|]. constructor. destruct O as (_ & Q & _). exact Q.
  - destruct (IH _ _ M') as (q1 & O1 & M1). exists q1. split; [exact O1|]. apply (more_S n q1 q'); assumption.
Qed.

Lemma more_average : forall n q q' p, more n q q' ->
  has_average (2 * n) (fun l => q (dot (last (fst (fjc_monte_carlo.walk tape n p l)) p) (last (fst (fjc_monte_carlo.walk tape n p l)) p))) (q' (dot p p)).
Proof.
  induction n as [|n IH]; intros q q'' p M; inversion M as [|n0 q0 q' q0'' M' O]; subst; [reflexivity|].
  destruct O as (_ & _ & H & _ & _ & L). destruct (L p) as (h & A & J).
  replace (2 * S n)%nat with (S (S (2 * n))) by lia.
  exists h, []. split; [|exact J]. intros a Ha _. exists (fun b => q' (dot (add3 p (sphere_point a b)) (add3 p (sphere_point a b)))), []. split; [|apply A].
  intros b Hb _. set (p' := add3 p (sphere_point a b)).
  apply (has_average_ext _ (fun l => q (dot (last (fst (fjc_monte_carlo.walk tape n p' l)) p') (last (fst (fjc_monte_carlo.walk tape n p' l)) p')))).
  + intros l _ _. rewrite fjc_walk_cons by exact Hb. reflexivity.
  + apply IH. exact M'.
Qed.

Lemma parts : forall (u u1 w w1 : R -> R) a b v, (forall x, is_derive u x (u1 x)) -> (forall x, is_derive w x (w1 x)) ->
  (forall x, continuous u1 x) -> (forall x, continuous w1 x) -> is_RInt (fun x => u x * w1 x) a b v ->
  is_RInt (fun x => u1 x * w x) a b (u b * w b - u a * w a - v).
Proof.
  intros u u1 w w1 a b v Du Dw Cu Cw A.
  assert (D : is_RInt (fun x => u1 x * w x + u x * w1 x) a b (u b * w b - u a * w a)).
  { apply (is_RInt_derive (V := R_CompleteNormedModule) (fun x => u x * w x)).
    - intros x _. apply (is_derive_mult u w); [apply Du | apply Dw | intros; apply Rmult_comm].
    - intros x _. apply (continuous_plus (V := R_NormedModule)); apply (continuous_mult (K := R_AbsRing));
        try apply Cu; try apply Cw; apply (ex_derive_continuous (V := R_NormedModule)); eexists; [apply Dw | apply Du]. }
  apply (is_RInt_ext (fun x => Hierarchy.minus (u1 x * w x + u x * w1 x) (u x * w1 x))).
  - intros x _. unfold Hierarchy.minus, plus, opp; cbn. ring.
  - apply (is_RInt_minus (V := R_NormedModule)); assumption.
Qed.

(** The weights [ih], smooth on the interval where they are used. *)
Lemma ih_piece : forall n, (1 <= n)%nat -> exists w w1, (forall x, is_derive w x (w1 x)) /\ (forall x, continuous w1 x) /\
  (forall x, 0 <= x <= INR n -> w x = ih n n x) /\ (forall x, 0 < x < INR n -> w1 x = ih (n - 1) n x).
Proof.
  intros n Hn. destruct (Nat.eq_dec n 1) as [->|N].
  - exists (fun x => x), (fun _ => 1). split; [intro x; auto_derive; [exact I | reflexivity]|]. split; [intro; apply continuous_const|]. cbn [INR].
    split; intros x Hx; cbn; unfold pp; repeat match goal with |- context [Rlt_dec ?a ?b] => destruct (Rlt_dec a b) end; cbn; lra || field.
  - destruct n as [|[|n]]; [lia|lia|]. exists (ih (S (S n)) (S (S n))), (ih (S n) (S (S n))). split; [intro x; apply ih_derive; left; lia|].
    split; [intro x; apply PWalk.ih_continuous; lia|]. split; [reflexivity|]. intros. replace (S (S n) - 1)%nat with (S n) by lia. reflexivity.
Qed.

Lemma ih_half_piece : forall n, (2 <= n)%nat -> exists w w1, (forall x, is_derive w x (w1 x)) /\ (forall x, continuous w1 x) /\
  (forall x, 0 <= x <= INR n / 2 -> w x = ih (n - 1) n x) /\ (forall x, 0 < x < INR n / 2 -> w1 x = ih (n - 2) n x).
Proof.
  intros n Hn. destruct (Nat.eq_dec n 2) as [->|N].
  - exists (fun x => x), (fun _ => 1). split; [intro x; auto_derive; [exact I | reflexivity]|]. split; [intro; apply continuous_const|]. cbn [INR].
    split; intros x Hx; cbn; unfold pp; repeat match goal with |- context [Rlt_dec ?a ?b] => destruct (Rlt_dec a b) end; cbn; lra || field.
  - destruct n as [|[|[|n]]]; [lia|lia|lia|]. exists (ih (S (S n)) (S (S (S n)))), (ih (S n) (S (S (S n)))). split; [intro x; apply ih_derive; left; lia|].
    split; [intro x; apply PWalk.ih_continuous; lia|]. split; reflexivity.
Qed.

Section Step.
Context (H G g : R -> R) (DH : forall x, is_derive H x (G x)) (DG : forall x, is_derive G x (g x)) (Cg : forall x, continuous g x).

Lemma G_continuous : forall x, continuous G x.
Proof. intro x. apply (ex_derive_continuous (V := R_NormedModule)). eexists. apply DG. Qed.

Lemma g_line : forall c x, continuous (fun x => g (c - 2 * x)) x.
Proof.
  intros c x. apply (continuous_comp (fun x => c - 2 * x) g); [|apply Cg]. apply (ex_derive_continuous (V := R_NormedModule)). auto_derive. exact I.
Qed.
Lemma G_line : forall c x, is_derive (fun x => G (c - 2 * x)) x (-2 * g (c - 2 * x)).
Proof.
  intros c x. evar_last; [apply (is_derive_comp G (fun x => c - 2 * x)); [apply DG | auto_derive; [exact I | reflexivity]]|].
  unfold scal; cbn; unfold mult; cbn. ring.
Qed.

Lemma weight_step : forall n v, (1 <= n)%nat ->
  is_RInt (fun x => (G (INR n + 1 - 2 * x) - G (INR n - 1 - 2 * x)) / 2 * ih (n - 1) n x) 0 (INR n) v ->
  is_RInt (fun x => g (INR (S n) - 2 * x) * ih n (S n) x) 0 (INR (S n)) v.
Proof.
  intros n v Hn A. set (N := INR n) in *. assert (PN : 0 < N) by (apply lt_0_INR; lia). rewrite S_INR. fold N.
  destruct (ih_piece n Hn) as (w & w1 & Dw & Cw & Ew & Ew1). fold N in Ew, Ew1.
  assert (B : is_RInt (fun x => (g (N - 1 - 2 * x) - g (N + 1 - 2 * x)) * w x) 0 N
    ((G (N + 1 - 2 * N) - G (N - 1 - 2 * N)) / 2 * w N - (G (N + 1 - 2 * 0) - G (N - 1 - 2 * 0)) / 2 * w 0 - v)).
  { apply (parts (fun x => (G (N + 1 - 2 * x) - G (N - 1 - 2 * x)) / 2) _ w w1); [|exact Dw| |exact Cw|].
    - intro x. evar_last.
      { eapply (is_derive_scal_l (fun x => G (N + 1 - 2 * x) - G (N - 1 - 2 * x)) x _ (/ 2)).
        apply (is_derive_minus (V := R_NormedModule)); apply G_line. }
      unfold Hierarchy.minus, plus, opp, scal; cbn; unfold mult; cbn. field.
    - intro x. apply (continuous_minus (V := R_NormedModule)); apply g_line.
    - apply (is_RInt_ext (fun x => (G (N + 1 - 2 * x) - G (N - 1 - 2 * x)) / 2 * ih (n - 1) n x)); [|exact A].
      rewrite Rmin_left, Rmax_right by lra. intros x Hx. rewrite Ew1 by exact Hx. reflexivity. }
  destruct n as [|n]; [lia|].
  assert (W0 : w 0 = 0) by (rewrite Ew by lra; apply ih_neg; lra).
  assert (WN : w N = 1) by (rewrite Ew by lra; apply ih_one; unfold N; lra).
  rewrite W0, WN in B.
  assert (C1 : ex_RInt (fun x => g (N + 1 - 2 * x) * w x) 0 N).
  { apply (ex_RInt_continuous (V := R_CompleteNormedModule)). intros x _. apply (continuous_mult (K := R_AbsRing)); [apply g_line|].
    apply (ex_derive_continuous (V := R_NormedModule)). eexists. apply Dw. }
  assert (C2 : ex_RInt (fun x => g (N - 1 - 2 * x) * w x) 0 N).
  { apply (ex_RInt_continuous (V := R_CompleteNormedModule)). intros x _. apply (continuous_mult (K := R_AbsRing)); [apply g_line|].
    apply (ex_derive_continuous (V := R_NormedModule)). eexists. apply Dw. }
  destruct C1 as (v1 & V1). destruct C2 as (v2 & V2).
  assert (Ev : v2 - v1 = (G (1 - N) - G (-1 - N)) / 2 - v).
  { assert (X : is_RInt (fun x => (g (N - 1 - 2 * x) - g (N + 1 - 2 * x)) * w x) 0 N (Hierarchy.minus v2 v1)).
    { apply (is_RInt_ext (fun x => Hierarchy.minus (g (N - 1 - 2 * x) * w x) (g (N + 1 - 2 * x) * w x))).
      - intros x _. unfold Hierarchy.minus, plus, opp; cbn. ring.
      - apply (is_RInt_minus (V := R_NormedModule)); assumption. }
    pose proof (is_RInt_unique (V := R_CompleteNormedModule) _ _ _ _ X) as U1. pose proof (is_RInt_unique (V := R_CompleteNormedModule) _ _ _ _ B) as U2.
    rewrite U1 in U2. change (v2 - v1 = (G (N + 1 - 2 * N) - G (N - 1 - 2 * N)) / 2 * 1 - (G (N + 1 - 2 * 0) - G (N - 1 - 2 * 0)) / 2 * 0 - v) in U2.
    rewrite U2. replace (N + 1 - 2 * N) with (1 - N) by ring. replace (N - 1 - 2 * N) with (-1 - N) by ring. ring. }
  (* the weight without shift *)
  assert (I1 : is_RInt (fun x => g (N + 1 - 2 * x) * ih (S n) (S n) x) 0 (N + 1) (plus v1 ((G (1 - N) - G (-1 - N)) / 2))).
  { apply (is_RInt_Chasles (V := R_NormedModule) _ 0 N (N + 1)).
    - apply (is_RInt_ext (fun x => g (N + 1 - 2 * x) * w x)); [|exact V1]. rewrite Rmin_left, Rmax_right by lra. intros x Hx. rewrite Ew by lra. reflexivity.
    - apply (is_RInt_ext (fun x => g (N + 1 - 2 * x))).
      + rewrite Rmin_left, Rmax_right by lra. intros x Hx. rewrite ih_one by (unfold N in Hx; lra). symmetry. apply Rmult_1_r.
      + assert (X : is_RInt (fun x => g (N + 1 - 2 * x)) N (N + 1)
                     (Hierarchy.minus (- / 2 * G (N + 1 - 2 * (N + 1))) (- / 2 * G (N + 1 - 2 * N)))).
        { apply (is_RInt_derive (V := R_CompleteNormedModule) (fun x => - / 2 * G (N + 1 - 2 * x))).
          - intros x _. evar_last; [apply (is_derive_scal (fun x => G (N + 1 - 2 * x))), G_line|]. cbv beta; match goal with |- ?x = ?y => change (@eq R x y) end; field.
          - intros x _. apply g_line. }
        evar_last; [exact X|].
        change (- / 2 * G (N + 1 - 2 * (N + 1)) + - (- / 2 * G (N + 1 - 2 * N)) = (G (1 - N) - G (-1 - N)) / 2).
        replace (N + 1 - 2 * (N + 1)) with (-1 - N) by ring. replace (N + 1 - 2 * N) with (1 - N) by ring. field. }
  (* the shifted weight *)
  assert (I2 : is_RInt (fun x => g (N + 1 - 2 * x) * ih (S n) (S n) (x - 1)) 0 (N + 1) v2).
  { apply (is_RInt_ext (fun x => (fun y => g (N - 1 - 2 * y) * ih (S n) (S n) y) (x + -1))).
    { intros x _. cbv beta. f_equal. f_equal. ring. }
    apply (is_RInt_shift (fun y => g (N - 1 - 2 * y) * ih (S n) (S n) y)).
    replace (0 + -1) with (-1) by ring. replace (N + 1 + -1) with N by ring.
    assert (X : is_RInt (fun y => g (N - 1 - 2 * y) * ih (S n) (S n) y) (-1) N (plus 0 v2)).
    { apply (is_RInt_Chasles (V := R_NormedModule) _ (-1) 0 N).
      - apply (is_RInt_ext (fun _ => 0)).
        + rewrite Rmin_left, Rmax_right by lra. intros x Hx. rewrite ih_neg by lra. symmetry. apply Rmult_0_r.
        + pose proof (is_RInt_const (V := R_NormedModule) (-1) 0 0) as Y. evar_last; [exact Y|]. unfold scal; cbn; unfold mult; cbn. ring.
      - apply (is_RInt_ext (fun x => g (N - 1 - 2 * x) * w x)); [|exact V2]. rewrite Rmin_left, Rmax_right by lra. intros x Hx. rewrite Ew by lra. reflexivity. }
    evar_last; [exact X|]. unfold plus; cbn. ring. }
  apply (is_RInt_ext (fun x => Hierarchy.minus (g (N + 1 - 2 * x) * ih (S n) (S n) x) (g (N + 1 - 2 * x) * ih (S n) (S n) (x - 1)))).
  - intros x _. cbn [ih]. unfold Hierarchy.minus, plus, opp; cbn -[ih]. ring.
  - evar_last; [apply (is_RInt_minus (V := R_NormedModule)); [exact I1 | exact I2]|].
    change (v1 + (G (1 - N) - G (-1 - N)) / 2 + - v2 = v). lra.
Qed.

(** From the weight of the component to that of the length. *)
Lemma weight_radial : forall n v, (2 <= n)%nat -> (forall x, g (- x) = g x) -> G 0 = 0 ->
  is_RInt (fun x => g (INR n - 2 * x) * ih (n - 1) n x) 0 (INR n) v ->
  is_RInt (fun y => INR n / 2 * G (INR n * y) * ih (n - 2) n (arg n y)) 0 1 v.
Proof.
  intros n v Hn Ev G0 A. set (N := INR n) in *. assert (PN : 0 < N) by (apply lt_0_INR; lia).
  destruct (ih_half_piece n Hn) as (w & w1 & Dw & Cw & Ew & Ew1). fold N in Ew, Ew1.
  set (k := fun x => g (N - 2 * x) * ih (n - 1) n x) in *.
  assert (X1 : ex_RInt k 0 (N / 2)) by (apply (ex_RInt_Chasles_1 (V := R_CompleteNormedModule) k 0 (N / 2) N); [lra | exists v; exact A]).
  destruct X1 as (a & Aa).
  assert (Sym : forall x, k (N - x) = k x).
  { intro x. unfold k. replace (N - 2 * (N - x)) with (- (N - 2 * x)) by ring. rewrite Ev. f_equal.
    destruct n as [|[|n]]; [lia|lia|]. replace (S (S n) - 1)%nat with (S n) by lia. apply ih_sym. }
  assert (Ab : is_RInt k (N / 2) N a).
  { assert (Y : is_RInt (fun x => scal (-1) (k (-1 * x + N))) (N / 2) N (- a)).
    { apply (is_RInt_comp_lin (V := R_NormedModule)). replace (-1 * (N / 2) + N) with (N / 2) by field. replace (-1 * N + N) with 0 by ring.
      apply (is_RInt_swap (V := R_NormedModule)). exact Aa. }
    assert (Z : is_RInt (fun x => scal (-1) (scal (-1) (k (-1 * x + N)))) (N / 2) N (scal (-1) (- a))) by (apply (is_RInt_scal (V := R_NormedModule)); exact Y).
    evar_last; [apply (is_RInt_ext (fun x => scal (-1) (scal (-1) (k (-1 * x + N))))); [|exact Z]|].
    - intros x _. unfold scal; cbn; unfold mult; cbn. replace (-1 * x + N) with (N - x) by ring. rewrite Sym.
      match goal with |- ?x = ?y => change (@eq R x y) end. ring.
    - unfold scal; cbn; unfold mult; cbn. ring. }
  assert (Ea : v = 2 * a).
  { rewrite <- (is_RInt_unique (V := R_CompleteNormedModule) _ _ _ _ A). apply (is_RInt_unique (V := R_CompleteNormedModule)).
    evar_last; [apply (is_RInt_Chasles (V := R_NormedModule) k 0 (N / 2) N); [exact Aa | exact Ab]|]. unfold plus; cbn. ring. }
  assert (B : is_RInt (fun x => w1 x * (G (N - 2 * x) / 2)) 0 (N / 2) (w (N / 2) * (G (N - 2 * (N / 2)) / 2) - w 0 * (G (N - 2 * 0) / 2) - - a)).
  { apply (parts w w1 (fun x => G (N - 2 * x) / 2) (fun x => - g (N - 2 * x))); [exact Dw| |exact Cw| |].
    - intro x. evar_last; [eapply (is_derive_scal_l (fun x => G (N - 2 * x)) x _ (/ 2)), G_line|]. unfold scal; cbn; unfold mult; cbn. field.
    - intro x. apply (continuous_opp (V := R_NormedModule)). apply g_line.
    - apply (is_RInt_ext (fun x => opp (k x))); [|apply (is_RInt_opp (V := R_NormedModule)); exact Aa].
      rewrite Rmin_left, Rmax_right by lra. intros x Hx. unfold k, opp; cbn. rewrite Ew by lra. ring. }
  assert (W0 : w 0 = 0) by (rewrite Ew by lra; apply ih_neg; lra).
  replace (N - 2 * (N / 2)) with 0 in B by field. rewrite W0, G0 in B.
  assert (C : is_RInt (fun x => INR n / 2 * G (N - 2 * x) * ih (n - 2) n x) (arg n 0) (arg n 1) (- (N * a))).
  { replace (arg n 1) with 0 by (unfold arg; field). replace (arg n 0) with (N / 2) by (unfold arg, N; field).
    apply (is_RInt_swap (V := R_NormedModule)).
    apply (is_RInt_ext (fun x => scal N (w1 x * (G (N - 2 * x) / 2)))).
    - rewrite Rmin_left, Rmax_right by lra. intros x Hx. rewrite Ew1 by exact Hx. unfold scal; cbn; unfold mult; cbn. fold N. field.
    - evar_last; [apply (is_RInt_scal (V := R_NormedModule)); exact B|]. unfold scal; cbn; unfold mult; cbn. field. }
  apply (is_RInt_arg n) in C; [|lia].
  evar_last; [apply (is_RInt_ext (fun y => INR n / 2 * G (N - 2 * arg n y) * ih (n - 2) n (arg n y))); [|exact C]|].
  - intros y _. fold N. do 3 f_equal. unfold arg. fold N. field.
  - fold N. rewrite Ea. field. lra.
Qed.
End Step.

Lemma more_weight : forall n q q', (1 <= n)%nat -> more n q q' -> forall G g, (forall x, G x = x * q (x ^ 2)) ->
  (forall x, is_derive G x (g x)) -> (forall x, continuous g x) ->
  is_RInt (fun x => g (INR n - 2 * x) * ih (n - 1) n x) 0 (INR n) (q' 0).
Proof.
  induction n as [|n IH]; intros q q'' Hn M G g EG DG Cg; [lia|].
  destruct (more_first _ _ _ M) as (q' & (Q & Q' & H & DH & S0 & _) & M').
  assert (DH' : forall x, is_derive H x (G x)) by (intro x; rewrite EG; apply DH).
  assert (DG' : forall x, is_derive (fun x => x * q' (x ^ 2)) x ((G (x + 1) - G (x - 1)) / 2)).
  { intro x. apply (is_derive_ext (fun x => (H (x + 1) - H (x - 1)) / 2)); [intro t; change ((H (t + 1) - H (t - 1)) / 2 = t * q' (t ^ 2)); rewrite <- S0; field|].
    evar_last.
    { eapply (is_derive_scal_l (fun x => H (x + 1) - H (x - 1)) x _ (/ 2)). apply (is_derive_minus (V := R_NormedModule)).
      - apply (is_derive_comp H (fun x => x + 1)); [apply DH' | auto_derive; [exact I | reflexivity]].
      - apply (is_derive_comp H (fun x => x - 1)); [apply DH' | auto_derive; [exact I | reflexivity]]. }
    unfold Hierarchy.minus, plus, opp, scal; cbn; unfold mult; cbn. field. }
  destruct n as [|n].
  - inversion M'; subst. replace (1 - 1)%nat with 0%nat by lia. cbn [INR].
    assert (E0 : q'' 0 = (G 1 - G (-1)) / 2).
    { pose proof (DG' 0) as D0. replace (0 + 1) with 1 in D0 by ring. replace (0 - 1) with (-1) in D0 by ring.
      apply is_derive_unique in D0. rewrite <- D0. symmetry. apply is_derive_unique.
      destruct (pol_derive _ Q') as (q1 & _ & D1).
      evar_last.
      { apply (is_derive_mult (fun x => x) (fun x => q'' (x ^ 2))); [apply (is_derive_id (K := R_AbsRing))| |intros; apply Rmult_comm].
        apply (is_derive_comp q'' (fun x => x ^ 2)); [apply D1 | auto_derive; [exact I | reflexivity]]. }
      unfold plus, mult, one; cbn. replace (0 * (0 * 1)) with 0 by ring. ring. }
    rewrite E0. apply (is_RInt_ext (fun x => g (1 - 2 * x))).
    { rewrite Rmin_left, Rmax_right by lra. intros x Hx. cbn. unfold pp. destruct (Rlt_dec 0 x); [|lra]. destruct (Rlt_dec 0 (x - 1)); [lra|]. cbn.
      replace (1 / 1 - 0 / 1) with 1 by field. symmetry. apply Rmult_1_r. }
    assert (X : is_RInt (fun x => g (1 - 2 * x)) 0 1 (Hierarchy.minus (- / 2 * G (1 - 2 * 1)) (- / 2 * G (1 - 2 * 0)))).
    { apply (is_RInt_derive (V := R_CompleteNormedModule) (fun x => - / 2 * G (1 - 2 * x))).
      - intros x _. evar_last; [apply (is_derive_scal (fun x => G (1 - 2 * x))), (G_line G g DG)|]. cbv beta; match goal with |- ?x = ?y => change (@eq R x y) end; field.
      - intros x _. apply (g_line g Cg). }
    evar_last; [exact X|]. unfold Hierarchy.minus, plus, opp; cbn. replace (1 - 2 * 1) with (-1) by ring. replace (1 - 2 * 0) with 1 by ring. field.
  - replace (S (S n) - 1)%nat with (S n) by lia. apply (weight_step G g DG Cg (S n)); [lia|].
    replace (S n - 1)%nat with n by lia.
    pose proof (IH q' q'' ltac:(lia) M' (fun x => x * q' (x ^ 2)) (fun x => (G (x + 1) - G (x - 1)) / 2) ltac:(reflexivity) DG') as B.
    replace (S n - 1)%nat with n in B by lia.
    apply (is_RInt_ext (fun x => (G (INR (S n) - 2 * x + 1) - G (INR (S n) - 2 * x - 1)) / 2 * ih n (S n) x)).
    + intros x _. do 3 f_equal; f_equal; match goal with |- ?x = ?y => change (@eq R x y) end; ring.
    + apply B. intro x.
      assert (CG : forall c x, continuous (fun x => G (x + c)) x).
      { intros c y. apply (continuous_comp (fun x => x + c) G); [apply (ex_derive_continuous (V := R_NormedModule)); auto_derive; exact I|].
        apply (G_continuous G g DG). }
      apply (continuous_scal_l (V := R_NormedModule) (fun x => G (x + 1) - G (x - 1)) (/ 2) x).
      apply (continuous_minus (V := R_NormedModule)); [apply CG | apply (CG (-1))].
Qed.
