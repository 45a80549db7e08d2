(** Monte Carlo configurations: geometry and lengths. *)
From Coq Require Import Reals ZArith List Lra Lia.
From Coquelicot Require Import Coquelicot.
From Verif Require Import Scalar MMonteCarlo SpecMonteCarlo PQuad.
Import ListNotations.
Open Scope R_scope.

(** ** Vectors *)
Lemma dot_nonneg : forall u, 0 <= dot u u.
Proof. intros [[a b] c]. cbn. nra. Qed.
Lemma dot_comm : forall u v, dot u v = dot v u.
Proof. intros [[a b] c] [[d e] f]. cbn. ring. Qed.
Lemma dot_add_l : forall u v w, dot (monte_carlo.add3 u v) w = dot u w + dot v w.
Proof. intros [[a b] c] [[d e] f] [[g h] i]. unfold monte_carlo.add3, dot. cbn. ring. Qed.
Lemma dot_scaled : forall c u v, dot (scaled c u) v = c * dot u v.
Proof. intros c [[a b] d] [[e f] g]. cbn. ring. Qed.
Lemma norm3_R : forall u : vec R, monte_carlo.norm3 u = vlength u.
Proof.
  intros [[a b] c]. unfold monte_carlo.norm3, vlength. rewrite ssum_R.
  change (sqrt (a * a + (b * b + (c * c + 0))) = sqrt (a * a + b * b + c * c)). f_equal. ring.
Qed.
Lemma vlength_nonneg : forall u, 0 <= vlength u.
Proof. intro u. apply sqrt_pos. Qed.
Lemma vlength_sq : forall u, vlength u * vlength u = dot u u.
Proof. intro u. apply sqrt_sqrt, dot_nonneg. Qed.
Lemma lagrange : forall u v : vec R, dot (frc_monte_carlo.cross u v) (frc_monte_carlo.cross u v) = dot u u * dot v v - dot u v ^ 2.
Proof. intros [[a b] c] [[d e] f]. unfold frc_monte_carlo.cross, dot. cbn. ring. Qed.
Lemma cauchy_schwarz : forall u v, dot u v ^ 2 <= dot u u * dot v v.
Proof. intros u v. pose proof (lagrange u v) as L. pose proof (dot_nonneg (frc_monte_carlo.cross u v)). lra. Qed.

Lemma vlength_le : forall u c, 0 <= c -> dot u u <= c * c -> vlength u <= c.
Proof. intros u c Hc H. unfold vlength. rewrite <- (sqrt_square c Hc). apply sqrt_le_1_alt, H. Qed.

Lemma triangle : forall u v, vlength (monte_carlo.add3 u v) <= vlength u + vlength v.
Proof.
  intros u v. pose proof (vlength_nonneg u). pose proof (vlength_nonneg v).
  apply vlength_le; [lra|]. rewrite dot_add_l, (dot_comm u), (dot_comm v), 2!dot_add_l.
  pose proof (vlength_sq u) as Eu. pose proof (vlength_sq v) as Ev. pose proof (cauchy_schwarz u v) as CS.
  rewrite (dot_comm v u).
  assert (X : dot u v <= vlength u * vlength v).
  { apply Rsqr_incr_0_var; [|apply Rmult_le_pos; assumption]. unfold Rsqr.
    replace (vlength u * vlength v * (vlength u * vlength v)) with (dot u u * dot v v) by (rewrite <- Eu, <- Ev; ring). simpl in CS. lra. }
  nra.
Qed.

Lemma minus_add : forall p r : vec R, minus (monte_carlo.add3 p r) p = r.
Proof. intros [[a b] c] [[d e] f]. unfold monte_carlo.add3, minus. cbn. repeat f_equal; ring. Qed.

Lemma zero3_R : (monte_carlo.zero3 : vec R) = origin.
Proof. reflexivity. Qed.
Lemma vlength_origin : vlength origin = 0.
Proof. unfold vlength, origin. cbn. replace (0 * 0 + 0 * 0 + 0 * 0) with 0 by ring. apply sqrt_0. Qed.

(** ** Freely jointed chain *)
Section Fjc.
Context {G : Type} (gen : G -> R * G).

Lemma fjc_link : forall g, fjc_monte_carlo.random_link gen g =
  ((sin (acos (1 - 2 * snd (fst (two gen g)))) * cos (2 * PI * fst (fst (two gen g))),
    sin (acos (1 - 2 * snd (fst (two gen g)))) * sin (2 * PI * fst (fst (two gen g))),
    cos (acos (1 - 2 * snd (fst (two gen g))))), snd (two gen g)).
Proof.
  intro g. unfold fjc_monte_carlo.random_link, two. destruct (gen g) as [a g1]. cbn [fst snd]. destruct (gen g1) as [b g2]. reflexivity.
Qed.

Lemma fjc_link_unit : forall g, dot (fst (fjc_monte_carlo.random_link gen g)) (fst (fjc_monte_carlo.random_link gen g)) = 1.
Proof.
  intro g. rewrite fjc_link. cbn [fst]. unfold dot.
  set (t := acos _). set (p := 2 * PI * _).
  pose proof (sin2_cos2 t) as A. pose proof (sin2_cos2 p) as B. unfold Rsqr in *. nra.
Qed.

Lemma fjc_link_sphere : unit_interval gen -> forall g,
  fst (fjc_monte_carlo.random_link gen g) = sphere_point (fst (fst (two gen g))) (snd (fst (two gen g))).
Proof.
  intros U g. rewrite fjc_link. cbn [fst snd]. set (b := snd (fst (two gen g))). set (a := fst (fst (two gen g))).
  assert (Hb : 0 <= b < 1) by (unfold b, two; cbn; apply U).
  unfold sphere_point. cbv zeta. set (z := 1 - 2 * b). assert (Hz : -1 <= z <= 1) by (unfold z; lra).
  rewrite sin_acos, cos_acos by exact Hz. unfold Rsqr. replace (z ^ 2) with (z * z) by ring. reflexivity.
Qed.

Lemma fjc_walk_links : forall n p g,
  links p (fst (fjc_monte_carlo.walk gen n p g)) = draws (fjc_monte_carlo.random_link gen) n g.
Proof.
  induction n as [|n IH]; intros p g; [reflexivity|].
  cbn [fjc_monte_carlo.walk draws]. destruct (fjc_monte_carlo.random_link gen g) as [r g1]. cbn [fst snd].
  specialize (IH (monte_carlo.add3 p r) g1). destruct (fjc_monte_carlo.walk gen n (monte_carlo.add3 p r) g1) as [c g2].
  cbn [fst links] in *. rewrite minus_add, IH. reflexivity.
Qed.

Lemma draws_map : forall {A B} (d : G -> A * G) (e : G -> B * G) (f : A -> B),
  (forall g, fst (e g) = f (fst (d g)) /\ snd (e g) = snd (d g)) -> forall n g, draws e n g = map f (draws d n g).
Proof.
  intros A B d e f H. induction n as [|n IH]; intro g; [reflexivity|]. cbn [draws map].
  destruct (H g) as [H1 H2]. rewrite H1, H2, IH. reflexivity.
Qed.

Lemma fjc_configuration : unit_interval gen -> forall n g,
  links origin (fst (fjc_monte_carlo.random_configuration gen n g))
  = map (fun ab => sphere_point (fst ab) (snd ab)) (draws (two gen) n g).
Proof.
  intros U n g. unfold fjc_monte_carlo.random_configuration. rewrite zero3_R, fjc_walk_links.
  apply draws_map. intro g'. split; [apply fjc_link_sphere, U | rewrite fjc_link; reflexivity].
Qed.

Lemma fjc_unit_links : forall n g r,
  In r (links origin (fst (fjc_monte_carlo.random_configuration gen n g))) -> vlength r = 1.
Proof.
  intros n g r. unfold fjc_monte_carlo.random_configuration. rewrite zero3_R, fjc_walk_links.
  revert g. induction n as [|n IH]; intros g H; [destruct H|]. cbn [draws] in H. destruct H as [<-|H]; [|exact (IH _ H)].
  unfold vlength. rewrite fjc_link_unit. apply sqrt_1.
Qed.

Lemma fjc_walk_length : forall n p g, length (fst (fjc_monte_carlo.walk gen n p g)) = n.
Proof.
  induction n as [|n IH]; intros p g; [reflexivity|]. cbn [fjc_monte_carlo.walk].
  destruct (fjc_monte_carlo.random_link gen g) as [r g1]. specialize (IH (monte_carlo.add3 p r) g1).
  destruct (fjc_monte_carlo.walk gen n (monte_carlo.add3 p r) g1) as [c g2]. cbn [fst length] in *. rewrite IH. reflexivity.
Qed.

Lemma fjc_walk_last : forall n p g q,
  nth_error (fst (fjc_monte_carlo.walk gen (S n) p g)) n = Some q -> vlength q <= vlength p + INR (S n).
Proof.
  induction n as [|n IH]; intros p g q.
  - cbn [fjc_monte_carlo.walk]. pose proof (fjc_link_unit g) as U. destruct (fjc_monte_carlo.random_link gen g) as [r g1].
    cbn [fst nth_error] in *. intro E. injection E as <-. pose proof (triangle p r) as T.
    assert (L : vlength r = 1) by (unfold vlength; rewrite U; apply sqrt_1). cbn [INR]. lra.
  - rewrite S_INR. specialize (IH (monte_carlo.add3 p (fst (fjc_monte_carlo.random_link gen g))) (snd (fjc_monte_carlo.random_link gen g)) q).
    pose proof (fjc_link_unit g) as U. change (fjc_monte_carlo.walk gen (S (S n)) p g)
      with (let '(r, g1) := fjc_monte_carlo.random_link gen g in let position := monte_carlo.add3 p r in
            let '(configuration, g2) := fjc_monte_carlo.walk gen (S n) position g1 in (position :: configuration, g2)).
    destruct (fjc_monte_carlo.random_link gen g) as [r g1]. cbn [fst snd] in *. cbv zeta.
    destruct (fjc_monte_carlo.walk gen (S n) (monte_carlo.add3 p r) g1) as [c g2]. cbn [fst nth_error] in *.
    intro E. specialize (IH E). pose proof (triangle p r) as T.
    assert (L : vlength r = 1) by (unfold vlength; rewrite U; apply sqrt_1). lra.
Qed.

Lemma fjc_length_bound : forall n g, (0 < n)%nat -> exists l g',
  fjc_monte_carlo.random_nondimensional_end_to_end_length gen n g = Some (l, g') /\ 0 <= l <= INR n.
Proof.
  intros n g Hn. destruct n as [|n]; [lia|]. unfold fjc_monte_carlo.random_nondimensional_end_to_end_length, fjc_monte_carlo.random_configuration.
  rewrite zero3_R. pose proof (fjc_walk_length (S n) origin g) as Len. pose proof (fjc_walk_last n origin g) as Last.
  destruct (fjc_monte_carlo.walk gen (S n) origin g) as [c g2]. cbn [fst] in *. unfold monte_carlo.end_to_end_length.
  destruct (nth_error c n) as [q|] eqn:E; [|apply nth_error_None in E; lia].
  cbn [bind]. exists (vlength q), g2. rewrite norm3_R. split; [reflexivity|]. split; [apply vlength_nonneg|].
  specialize (Last q eq_refl). rewrite vlength_origin in Last. lra.
Qed.
End Fjc.

(** ** Extensible freely jointed chain *)
Section Efjc.
Context {G : Type} (gen dist : G -> R * G).

Lemma efjc_link : forall g, efjc_monte_carlo.random_link gen dist g =
  (scaled (fst (dist g)) (fst (fjc_monte_carlo.random_link gen (snd (dist g)))), snd (fjc_monte_carlo.random_link gen (snd (dist g)))).
Proof.
  intro g. unfold efjc_monte_carlo.random_link, fjc_monte_carlo.random_link. destruct (dist g) as [l g0]. cbn [fst snd].
  destruct (gen g0) as [a g1]. destruct (gen g1) as [b g2]. reflexivity.
Qed.

Lemma efjc_walk_links : forall n p g,
  links p (fst (efjc_monte_carlo.walk gen dist n p g)) = draws (efjc_monte_carlo.random_link gen dist) n g.
Proof.
  induction n as [|n IH]; intros p g; [reflexivity|].
  cbn [efjc_monte_carlo.walk draws]. destruct (efjc_monte_carlo.random_link gen dist g) as [r g1]. cbn [fst snd].
  specialize (IH (monte_carlo.add3 p r) g1). destruct (efjc_monte_carlo.walk gen dist n (monte_carlo.add3 p r) g1) as [c g2].
  cbn [fst links] in *. rewrite minus_add, IH. reflexivity.
Qed.

Lemma efjc_configuration : unit_interval gen -> forall n g,
  links origin (fst (efjc_monte_carlo.random_configuration gen n dist g))
  = map (fun lab => scaled (fst lab) (sphere_point (fst (snd lab)) (snd (snd lab)))) (draws (one_two dist gen) n g).
Proof.
  intros U n g. unfold efjc_monte_carlo.random_configuration. rewrite zero3_R, efjc_walk_links.
  apply draws_map. intro g'. rewrite efjc_link. cbn [fst snd]. split.
  - rewrite (fjc_link_sphere gen U). reflexivity.
  - rewrite fjc_link. reflexivity.
Qed.

Lemma vlength_scaled : forall c u, vlength (scaled c u) = Rabs c * vlength u.
Proof.
  intros c u. unfold vlength. rewrite dot_scaled, dot_comm, dot_scaled.
  replace (c * (c * dot u u)) with (Rsqr c * dot u u) by (unfold Rsqr; ring).
  rewrite sqrt_mult_alt by apply Rle_0_sqr. rewrite sqrt_Rsqr_abs. reflexivity.
Qed.

Lemma efjc_link_lengths : forall n g,
  map vlength (links origin (fst (efjc_monte_carlo.random_configuration gen n dist g)))
  = map (fun lab => Rabs (fst lab)) (draws (one_two dist gen) n g).
Proof.
  intros n g. unfold efjc_monte_carlo.random_configuration. rewrite zero3_R, efjc_walk_links.
  revert g. induction n as [|n IH]; intro g; [reflexivity|]. cbn [draws map]. f_equal.
  - rewrite efjc_link. cbn [fst]. rewrite vlength_scaled. unfold vlength. rewrite fjc_link_unit, sqrt_1. cbn. ring.
  - rewrite IH. rewrite efjc_link. rewrite fjc_link. reflexivity.
Qed.
End Efjc.

(** ** Freely rotating chain *)
Section Rotation.

Lemma dot_div3 : forall (u v : vec R) c, dot (monte_carlo.div3 u c) v = dot u v / c.
Proof. intros [[a b] d] [[e f] g] c. unfold monte_carlo.div3, dot. cbn. unfold Rdiv. ring. Qed.

Lemma dot_cross_l : forall u v : vec R, dot u (frc_monte_carlo.cross u v) = 0.
Proof. intros [[a b] c] [[d e] f]. unfold frc_monte_carlo.cross, dot. cbn. ring. Qed.
Lemma dot_cross_r : forall u v : vec R, dot v (frc_monte_carlo.cross u v) = 0.
Proof. intros [[a b] c] [[d e] f]. unfold frc_monte_carlo.cross, dot. cbn. ring. Qed.

(** With [r], [u], [v] orthonormal the rotated direction is a unit vector at the
    prescribed angle from [r]. *)
Lemma rotate_unit : forall p t (r u v : vec R), dot r r = 1 -> dot u u = 1 -> dot v v = 1 ->
  dot r u = 0 -> dot r v = 0 -> dot u v = 0 ->
  let w := frc_monte_carlo.rotate (cos p) (sin p) (cos t) (sin t) r u v in
  dot w w = 1 /\ dot r w = cos t.
Proof.
  intros p t r u v Hr Hu Hv Hru Hrv Huv. cbv zeta.
  assert (E : forall z, dot z (frc_monte_carlo.rotate (cos p) (sin p) (cos t) (sin t) r u v)
    = (dot z u * cos p + dot z v * sin p) * sin t + dot z r * cos t).
  { intro z. destruct z as [[z0 z1] z2], r as [[r0 r1] r2], u as [[u0 u1] u2], v as [[v0 v1] v2].
    unfold frc_monte_carlo.rotate, dot. cbn. ring. }
  split; [|rewrite E, Hr, Hru, Hrv; ring].
  rewrite E. set (w := frc_monte_carlo.rotate _ _ _ _ _ _ _) in *.
  rewrite (dot_comm w u), (dot_comm w v), (dot_comm w r), 3!E, Hr, Hu, Hv, Hru, Hrv, Huv.
  rewrite (dot_comm u r), (dot_comm v r), (dot_comm v u), Hru, Hrv, Huv.
  pose proof (sin2_cos2 p) as A. pose proof (sin2_cos2 t) as B. unfold Rsqr in *.
  replace (((1 * cos p + 0 * sin p) * sin t + 0 * cos t) * cos p + ((0 * cos p + 1 * sin p) * sin t + 0 * cos t) * sin p)
    with ((sin p * sin p + cos p * cos p) * sin t) by ring.
  rewrite A. lra.
Qed.

Lemma frame : forall r t : vec R, dot r r = 1 -> independent r t ->
  let u := monte_carlo.div3 (frc_monte_carlo.cross r t) (monte_carlo.norm3 (frc_monte_carlo.cross r t)) in
  let v := frc_monte_carlo.cross r u in
  dot u u = 1 /\ dot v v = 1 /\ dot r u = 0 /\ dot r v = 0 /\ dot u v = 0.
Proof.
  intros r t Hr Hi. cbv zeta. set (w := frc_monte_carlo.cross r t).
  assert (W : dot w w <> 0) by (unfold w; rewrite lagrange; exact Hi).
  assert (W' : 0 < dot w w) by (pose proof (dot_nonneg w); lra).
  rewrite norm3_R. assert (N : 0 < vlength w) by (apply sqrt_lt_R0; exact W').
  set (u := monte_carlo.div3 w (vlength w)).
  assert (Uu : dot u u = 1).
  { unfold u. rewrite dot_div3, dot_comm, dot_div3, <- vlength_sq. field. lra. }
  assert (Ru : dot r u = 0).
  { rewrite dot_comm. unfold u. rewrite dot_div3, dot_comm. unfold w. rewrite dot_cross_l. unfold Rdiv. ring. }
  split; [exact Uu|]. split; [rewrite lagrange, Hr, Uu, Ru; ring|]. split; [exact Ru|]. split; [apply dot_cross_l | apply dot_cross_r].
Qed.
End Rotation.

Section Frc.
Context {G : Type} (gen : G -> R * G) (theta : R).

Lemma frc_link : forall r g, dot r r = 1 -> independent r (auxiliary gen g) ->
  let w := fst (frc_monte_carlo.random_link gen theta r g) in dot w w = 1 /\ dot r w = cos theta.
Proof.
  intros r g Hr Hi. cbv zeta. unfold frc_monte_carlo.random_link, auxiliary in *.
  destruct (gen g) as [a g1]. cbn [fst snd] in *. destruct (gen g1) as [t0 g2]. cbn [fst snd] in *.
  destruct (gen g2) as [t1 g3]. cbn [fst snd] in *. destruct (gen g3) as [t2 g4]. cbn [fst snd] in *.
  destruct (frame r (t0, t1, t2) Hr Hi) as (A & B & C & D & E). exact (rotate_unit (2 * PI * a) theta _ _ _ Hr A B C D E).
Qed.

(** Consecutive vectors of a list at a given angle. *)
Fixpoint chained (r : vec R) (l : list (vec R)) : Prop :=
  match l with [] => True | w :: rest => dot w w = 1 /\ dot r w = cos theta /\ chained w rest end.

Lemma frc_walk_links : forall n r p g, dot r r = 1 -> never_parallel gen theta n r g ->
  chained r (links p (fst (frc_monte_carlo.walk gen theta n r p g))).
Proof.
  induction n as [|n IH]; intros r p g Hr Hs; [exact I|].
  cbn [frc_monte_carlo.walk never_parallel] in *. destruct Hs as [Hi Hs]. destruct (frc_link r g Hr Hi) as [Hw Ha].
  destruct (frc_monte_carlo.random_link gen theta r g) as [w g1]. cbn [fst snd] in *.
  specialize (IH w (monte_carlo.add3 p w) g1 Hw Hs). destruct (frc_monte_carlo.walk gen theta n w (monte_carlo.add3 p w) g1) as [c g2].
  cbn [fst links chained] in *. rewrite minus_add. auto.
Qed.

Lemma frc_walk_length : forall n r p g, length (fst (frc_monte_carlo.walk gen theta n r p g)) = n.
Proof.
  induction n as [|n IH]; intros r p g; [reflexivity|]. cbn [frc_monte_carlo.walk].
  destruct (frc_monte_carlo.random_link gen theta r g) as [w g1]. specialize (IH w (monte_carlo.add3 p w) g1).
  destruct (frc_monte_carlo.walk gen theta n w (monte_carlo.add3 p w) g1) as [c g2]. cbn [fst length] in *. rewrite IH. reflexivity.
Qed.

Lemma chained_nth : forall l r i a b, dot r r = 1 -> chained r l ->
  nth_error (r :: l) i = Some a -> nth_error (r :: l) (S i) = Some b -> vlength b = 1 /\ dot a b = cos theta.
Proof.
  induction l as [|w l IH]; intros r i a b Hr Hc Ha Hb.
  - cbn in Hb. destruct i; discriminate.
  - destruct Hc as (Hw & Hd & Hc). destruct i as [|i].
    + cbn in Ha, Hb. injection Ha as <-. injection Hb as <-. split; [|exact Hd]. unfold vlength. rewrite Hw. apply sqrt_1.
    + exact (IH w i a b Hw Hc Ha Hb).
Qed.

Lemma x_axis_unit : dot x_axis x_axis = 1.
Proof. unfold x_axis, dot. ring. Qed.

Lemma frc_configuration : forall n g i a b, never_parallel gen theta n x_axis g ->
  let l := x_axis :: links origin (fst (frc_monte_carlo.random_configuration gen n theta g)) in
  nth_error l i = Some a -> nth_error l (S i) = Some b -> vlength b = 1 /\ dot a b = cos theta.
Proof.
  intros n g i a b Hs. cbv zeta. apply chained_nth; [exact x_axis_unit|].
  unfold frc_monte_carlo.random_configuration. rewrite zero3_R. apply (frc_walk_links n x_axis origin g x_axis_unit Hs).
Qed.

(** The end of the walk, one or two links at a time. *)
Lemma frc_walk_cons : forall n r p g, let w := fst (frc_monte_carlo.random_link gen theta r g) in
  let g1 := snd (frc_monte_carlo.random_link gen theta r g) in
  nth_error (fst (frc_monte_carlo.walk gen theta (S (S n)) r p g)) (S n)
  = nth_error (fst (frc_monte_carlo.walk gen theta (S n) w (monte_carlo.add3 p w) g1)) n.
Proof.
  intros n r p g. cbv zeta.
  change (frc_monte_carlo.walk gen theta (S (S n)) r p g)
      with (let '(w, g1) := frc_monte_carlo.random_link gen theta r g in let position := monte_carlo.add3 p w in
            let '(configuration, g2) := frc_monte_carlo.walk gen theta (S n) w position g1 in (position :: configuration, g2)).
  destruct (frc_monte_carlo.random_link gen theta r g) as [w g1]. cbn [fst snd]. cbv zeta.
  destruct (frc_monte_carlo.walk gen theta (S n) w (monte_carlo.add3 p w) g1) as [c g2]. reflexivity.
Qed.

Lemma frc_walk_one : forall r p g,
  nth_error (fst (frc_monte_carlo.walk gen theta 1 r p g)) 0 = Some (monte_carlo.add3 p (fst (frc_monte_carlo.random_link gen theta r g))).
Proof. intros. cbn. destruct (frc_monte_carlo.random_link gen theta r g) as [w g1]. reflexivity. Qed.

Lemma frc_walk_last : forall n r p g q, dot r r = 1 -> never_parallel gen theta (S n) r g ->
  nth_error (fst (frc_monte_carlo.walk gen theta (S n) r p g)) n = Some q -> vlength q <= vlength p + INR (S n).
Proof.
  induction n as [|n IH]; intros r p g q Hr [Hi Hs] E.
  - rewrite frc_walk_one in E. injection E as <-. destruct (frc_link r g Hr Hi) as [Hw _].
    set (w := fst (frc_monte_carlo.random_link gen theta r g)) in *.
    pose proof (triangle p w) as T. assert (L : vlength w = 1) by (unfold vlength; rewrite Hw; apply sqrt_1). cbn [INR]. lra.
  - rewrite frc_walk_cons in E. cbv zeta in E. destruct (frc_link r g Hr Hi) as [Hw _]. pose proof (IH _ _ _ _ Hw Hs E) as B.
    set (w := fst (frc_monte_carlo.random_link gen theta r g)) in *.
    pose proof (triangle p w) as T. assert (L : vlength w = 1) by (unfold vlength; rewrite Hw; apply sqrt_1). rewrite (S_INR (S n)). lra.
Qed.

(** Two links at a given angle. *)
Lemma add3_assoc : forall p a b : vec R, monte_carlo.add3 (monte_carlo.add3 p a) b = monte_carlo.add3 p (monte_carlo.add3 a b).
Proof. intros [[a b] c] [[d e] f] [[g h] i]. unfold monte_carlo.add3. cbn. apply f_equal2; [apply f_equal2|]; ring. Qed.

Lemma pair_length : forall a b : vec R, dot a a = 1 -> dot b b = 1 -> dot a b = cos theta ->
  vlength (monte_carlo.add3 a b) = sqrt (2 + 2 * cos theta).
Proof.
  intros a b Ha Hb Hab. unfold vlength. f_equal. rewrite dot_add_l, (dot_comm a (monte_carlo.add3 a b)), (dot_comm b (monte_carlo.add3 a b)), 2!dot_add_l.
  rewrite Ha, Hb, (dot_comm b a), Hab. ring.
Qed.

Lemma frc_walk_last_even : forall m r p g q, dot r r = 1 -> never_parallel gen theta (S m * 2) r g ->
  nth_error (fst (frc_monte_carlo.walk gen theta (S m * 2) r p g)) (S (m * 2)) = Some q ->
  vlength q <= vlength p + INR (S m) * sqrt (2 + 2 * cos theta).
Proof.
  induction m as [|m IH]; intros r p g q Hr Hs E.
  - cbn [Nat.mul Nat.add] in *. destruct Hs as [Hi Hs]. rewrite frc_walk_cons in E. cbv zeta in E.
    destruct (frc_link r g Hr Hi) as [Hw _].
    set (w := fst (frc_monte_carlo.random_link gen theta r g)) in *. set (g1 := snd (frc_monte_carlo.random_link gen theta r g)) in *.
    destruct Hs as [Hi1 _]. rewrite frc_walk_one in E. injection E as <-. destruct (frc_link w g1 Hw Hi1) as [Hw1 Ha1].
    set (w1 := fst (frc_monte_carlo.random_link gen theta w g1)) in *. rewrite add3_assoc.
    pose proof (triangle p (monte_carlo.add3 w w1)) as T. rewrite (pair_length w w1 Hw Hw1 Ha1) in T. cbn [INR]. lra.
  - replace (S (S m) * 2)%nat with (S (S (S m * 2))) in * by lia. destruct Hs as [Hi Hs].
    replace (S (S m * 2)) with (S (S (S (m * 2)))) in E by lia.
    replace (S (S (S m * 2))) with (S (S (S (S (m * 2))))) in E by lia.
    rewrite 2!frc_walk_cons in E. cbv zeta in E.
    destruct (frc_link r g Hr Hi) as [Hw _].
    set (w := fst (frc_monte_carlo.random_link gen theta r g)) in *. set (g1 := snd (frc_monte_carlo.random_link gen theta r g)) in *.
    destruct Hs as [Hi1 Hs]. destruct (frc_link w g1 Hw Hi1) as [Hw1 Ha1].
    set (w1 := fst (frc_monte_carlo.random_link gen theta w g1)) in *. set (g2 := snd (frc_monte_carlo.random_link gen theta w g1)) in *.
    rewrite add3_assoc in E.
    pose proof (IH w1 (monte_carlo.add3 p (monte_carlo.add3 w w1)) g2 q Hw1 Hs E) as B.
    pose proof (triangle p (monte_carlo.add3 w w1)) as T. rewrite (pair_length w w1 Hw Hw1 Ha1) in T.
    rewrite (S_INR (S m)). lra.
Qed.

Lemma frc_length : forall n g, (0 < n)%nat -> exists l g' q,
  frc_monte_carlo.random_nondimensional_end_to_end_length gen n theta g = Some (l, g') /\ l = vlength q /\
  nth_error (fst (frc_monte_carlo.walk gen theta n x_axis origin g)) (n - 1) = Some q.
Proof.
  intros n g Hn. destruct n as [|n]; [lia|]. unfold frc_monte_carlo.random_nondimensional_end_to_end_length, frc_monte_carlo.random_configuration.
  rewrite zero3_R. change (sdec 1 0, sdec 0 0, sdec 0 0) with x_axis. pose proof (frc_walk_length (S n) x_axis origin g) as Len.
  destruct (frc_monte_carlo.walk gen theta (S n) x_axis origin g) as [c g2]. cbn [fst] in *. unfold monte_carlo.end_to_end_length.
  replace (S n - 1)%nat with n by lia.
  destruct (nth_error c n) as [q|] eqn:E; [|apply nth_error_None in E; lia].
  exists (vlength q), g2, q. cbn [bind]. rewrite norm3_R. auto.
Qed.

Lemma frc_length_bound : forall n g, (0 < n)%nat -> never_parallel gen theta n x_axis g -> exists l g',
  frc_monte_carlo.random_nondimensional_end_to_end_length gen n theta g = Some (l, g') /\ 0 <= l <= INR n.
Proof.
  intros n g Hn Hs. destruct (frc_length n g Hn) as (l & g' & q & E & -> & Q). exists (vlength q), g'. split; [exact E|].
  split; [apply vlength_nonneg|]. destruct n as [|n]; [lia|]. replace (S n - 1)%nat with n in Q by lia.
  pose proof (frc_walk_last n x_axis origin g q x_axis_unit Hs Q) as B. rewrite vlength_origin in B. lra.
Qed.

Lemma gamma_max_R : frc_monte_carlo.gamma_max theta = sqrt (2 + 2 * cos theta) / 2.
Proof.
  unfold frc_monte_carlo.gamma_max. change (sqrt (2 - 2 * cos (PI - theta)) / 2 = sqrt (2 + 2 * cos theta) / 2).
  rewrite cos_minus, cos_PI, sin_PI. f_equal. f_equal. ring.
Qed.

Lemma frc_even_bound : forall m g, (0 < m)%nat -> never_parallel gen theta (m * 2) x_axis g -> exists l g',
  frc_monte_carlo.random_nondimensional_end_to_end_length gen (m * 2) theta g = Some (l, g') /\
  0 <= l /\ l / INR (m * 2) <= frc_monte_carlo.gamma_max theta.
Proof.
  intros m g Hm Hs. destruct m as [|m]; [lia|].
  destruct (frc_length (S m * 2) g ltac:(lia)) as (l & g' & q & E & -> & Q). exists (vlength q), g'. split; [exact E|].
  split; [apply vlength_nonneg|]. replace (S m * 2 - 1)%nat with (S (m * 2)) in Q by lia.
  pose proof (frc_walk_last_even m x_axis origin g q x_axis_unit Hs Q) as B. rewrite vlength_origin in B.
  rewrite gamma_max_R, mult_INR. assert (P : 0 < INR (S m)) by (apply lt_0_INR; lia).
  change (INR 2) with 2. apply Rmult_le_reg_r with (INR (S m) * 2); [lra|].
  unfold Rdiv at 1. rewrite Rmult_assoc, Rinv_l by lra. lra.
Qed.
End Frc.
