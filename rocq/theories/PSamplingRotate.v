(** Averages over the configurations of the rotating Monte Carlo samplers. *)
From Coq Require Import Reals ZArith List Lra Lia.
From Coquelicot Require Import Coquelicot.
From Verif Require Import Scalar MMonteCarlo SpecMonteCarlo PMonteCarlo SpecSampling PSampling PSamplingWalk.
Import ListNotations.
Open Scope R_scope.

Definition direction (theta : R) (r t : vec R) (a : R) : vec R :=
  let u := monte_carlo.div3 (frc_monte_carlo.cross r t) (monte_carlo.norm3 (frc_monte_carlo.cross r t)) in
  let v := frc_monte_carlo.cross r u in
  frc_monte_carlo.rotate (cos (2 * PI * a)) (sin (2 * PI * a)) (cos theta) (sin theta) r u v.

Lemma direction_unit : forall theta r t a, dot r r = 1 -> independent r t ->
  dot (direction theta r t a) (direction theta r t a) = 1.
Proof.
  intros theta r t a Hr Hi. destruct (frame r t Hr Hi) as (A & B & C & D & E).
  exact (proj1 (rotate_unit (2 * PI * a) theta _ _ _ Hr A B C D E)).
Qed.

Lemma rotate_dot : forall z c s tc ts (r u v : vec R),
  dot z (frc_monte_carlo.rotate c s tc ts r u v) = (dot z u * c + dot z v * s) * ts + dot z r * tc.
Proof.
  intros [[z0 z1] z2] c s tc ts [[r0 r1] r2] [[u0 u1] u2] [[v0 v1] v2]. unfold frc_monte_carlo.rotate, dot. cbn. ring.
Qed.

Lemma azimuth_average : forall x y w, is_RInt (fun a => x * cos (2 * PI * a) + y * sin (2 * PI * a) + w) 0 1 w.
Proof.
  intros x y w. pose proof PI_RGT_0 as P.
  set (f := fun a => x * sin (2 * PI * a) / (2 * PI) - y * cos (2 * PI * a) / (2 * PI) + w * a).
  assert (E : Hierarchy.minus (f 1) (f 0) = w).
  { unfold f, Hierarchy.minus, plus, opp; cbn. rewrite Rmult_0_r, Rmult_1_r, sin_2PI, cos_2PI, sin_0, cos_0. field. lra. }
  enough (X : is_RInt (fun a => x * cos (2 * PI * a) + y * sin (2 * PI * a) + w) 0 1 (Hierarchy.minus (f 1) (f 0))) by (rewrite E in X; exact X).
  apply (is_RInt_derive (V := R_CompleteNormedModule) f).
  - intros a _. unfold f. auto_derive; [exact I | field; lra].
  - intros a _. apply (ex_derive_continuous (V := R_NormedModule)). auto_derive. exact I.
Qed.

Lemma direction_average : forall theta r t p c e,
  is_RInt (fun a => c * dot p (direction theta r t a) + e) 0 1 (c * (cos theta * dot p r) + e).
Proof.
  intros theta r t p c e. unfold direction. set (u := monte_carlo.div3 _ _). cbv zeta. set (v := frc_monte_carlo.cross r u).
  apply (is_RInt_ext (fun a => (c * dot p u * sin theta) * cos (2 * PI * a) + (c * dot p v * sin theta) * sin (2 * PI * a) + (c * (cos theta * dot p r) + e))).
  { intros a _. rewrite rotate_dot. match goal with |- ?x = ?y => change (@eq R x y) end. ring. }
  apply azimuth_average.
Qed.

Lemma squares_zero : forall x y z : R, x * x + y * y + z * z = 0 -> y = 0 /\ z = 0.
Proof. intros x y z H. split; apply Rsqr_0_uniq; unfold Rsqr; nra. Qed.

(** A direction with positive components is parallel to a given unit vector for at
    most one value of its last component. *)
Lemma not_parallel : forall (r0 r1 r2 t0 t1 t2 : R), dot (r0, r1, r2) (r0, r1, r2) = 1 -> 0 < t0 ->
  t2 <> t0 * r2 / r0 -> independent (r0, r1, r2) (t0, t1, t2).
Proof.
  intros r0 r1 r2 t0 t1 t2 Hr H0 N. unfold independent. rewrite <- lagrange. unfold frc_monte_carlo.cross, dot in *. cbn. intro Z.
  destruct (squares_zero _ _ _ Z) as (Z2 & Z3).
  destruct (Req_dec r0 0) as [E|E].
  - rewrite E in *.
    assert (r2 = 0) by (apply Rmult_eq_reg_r with t0; lra). assert (r1 = 0) by (apply Rmult_eq_reg_r with t0; lra). subst. lra.
  - apply N. apply Rmult_eq_reg_r with r0; [|exact E]. replace (t0 * r2 / r0 * r0) with (t0 * r2) by (field; exact E). lra.
Qed.

(** ** Freely rotating *)
Lemma frc_walk_tape : forall theta n r p a t0 t1 t2 l q,
  last (fst (frc_monte_carlo.walk tape theta (S n) r p (a :: t0 :: t1 :: t2 :: l))) q
  = last (fst (frc_monte_carlo.walk tape theta n (direction theta r (t0, t1, t2) a) (add3 p (direction theta r (t0, t1, t2) a)) l))
      (add3 p (direction theta r (t0, t1, t2) a)).
Proof.
  intros theta n r p a t0 t1 t2 l q. cbn [frc_monte_carlo.walk].
  change (frc_monte_carlo.random_link tape theta r (a :: t0 :: t1 :: t2 :: l)) with (direction theta r (t0, t1, t2) a, l). cbv beta iota zeta.
  destruct (frc_monte_carlo.walk tape theta n (direction theta r (t0, t1, t2) a) _ l) as [c g]. cbn [fst]. apply last_cons.
Qed.

Lemma constant_integral : forall v : R, is_RInt (fun _ => v) 0 1 v.
Proof.
  intro v. pose proof (is_RInt_const (V := R_NormedModule) 0 1 v) as X. unfold scal in X; cbn in X; unfold mult in X; cbn in X.
  replace ((1 - 0) * v) with v in X by ring. exact X.
Qed.

Lemma four_average : forall m r f v, dot r r = 1 ->
  (forall t0 t1 t2, independent r (t0, t1, t2) ->
     exists h, (forall a, 0 < a < 1 -> has_average m (fun l => f (t0 :: t1 :: t2 :: a :: l)) (h a)) /\ is_RInt h 0 1 v) ->
  has_average (S (S (S (S m)))) f v.
Proof.
  intros m [[r0 r1] r2] f v Hr H.
  exists (fun _ => v), []. split; [|apply constant_integral]. intros t0 H0 _.
  exists (fun _ => v), []. split; [|apply constant_integral]. intros t1 H1 _.
  exists (fun _ => v), [t0 * r2 / r0]. split; [|apply constant_integral]. intros t2 H2 N.
  destruct (H t0 t1 t2) as (h & A & I).
  { apply not_parallel; [exact Hr | lra |]. intro E. apply N. left. symmetry. exact E. }
  exists h, []. split; [|exact I]. intros a Ha _. apply A, Ha.
Qed.

Lemma frc_average : forall theta (Phi : vec R -> R) (V : nat -> vec R -> vec R -> R), (forall r p, V 0%nat r p = Phi p) ->
  (forall n r p t, dot r r = 1 -> independent r t ->
     is_RInt (fun a => V n (direction theta r t a) (add3 p (direction theta r t a))) 0 1 (V (S n) r p)) ->
  forall n r p, dot r r = 1 ->
  has_average (4 * n) (fun l => Phi (last (fst (frc_monte_carlo.walk tape theta n r p (azimuth_first l))) p)) (V n r p).
Proof.
  intros theta Phi V V0 VS. induction n as [|n IH]; intros r p Hr.
  - cbn. symmetry. apply V0.
  - replace (4 * S n)%nat with (S (S (S (S (4 * n))))) by lia. apply (four_average _ r); [exact Hr|]. intros t0 t1 t2 Hi.
    exists (fun a => V n (direction theta r (t0, t1, t2) a) (add3 p (direction theta r (t0, t1, t2) a))). split; [|apply VS; assumption].
    intros a _. set (d := direction theta r (t0, t1, t2) a).
    apply (has_average_ext _ (fun l => Phi (last (fst (frc_monte_carlo.walk tape theta n d (add3 p d) (azimuth_first l))) (add3 p d)))).
    + intros l _ _. cbn [azimuth_first]. rewrite frc_walk_tape. reflexivity.
    + apply IH. apply direction_unit; assumption.
Qed.

Lemma frc_mean : forall theta n k,
  has_average (4 * n) (fun l => dot k (end_point (fst (frc_monte_carlo.random_configuration tape n theta (azimuth_first l)))))
    (ahead (cos theta) (repeat 1 n) * dot k x_axis).
Proof.
  intros theta n k. set (c := cos theta).
  replace (ahead c (repeat 1 n) * dot k x_axis) with (dot k origin + ahead c (repeat 1 n) * dot k x_axis) by (rewrite dot_origin; ring).
  unfold frc_monte_carlo.random_configuration, end_point. rewrite zero3_R.
  apply (frc_average theta (fun q => dot k q) (fun n r p => dot k p + ahead c (repeat 1 n) * dot k r)).
  - intros r p. cbn. ring.
  - intros m r p t Hr Hi. set (A := ahead c (repeat 1 m)).
    replace (dot k p + ahead c (repeat 1 (S m)) * dot k r) with ((1 + A) * (cos theta * dot k r) + dot k p) by (cbn [repeat ahead]; fold A; fold c; ring).
    apply (is_RInt_ext (fun a => (1 + A) * dot k (direction theta r t a) + dot k p)); [|apply direction_average].
    intros a _. rewrite dot_add_r. match goal with |- ?x = ?y => change (@eq R x y) end. ring.
  - exact x_axis_unit.
Qed.

Lemma last_error : forall {A} n (c : list A) q, List.length c = S n -> nth_error c n = Some (last c q).
Proof.
  intros A n c. revert n. induction c as [|x c IH]; intros n q L; [discriminate|]. destruct n as [|n].
  - destruct c; [reflexivity | discriminate].
  - rewrite last_cons. cbn [nth_error]. apply IH. cbn in L. lia.
Qed.

Lemma frc_square : forall theta n, (0 < n)%nat ->
  has_average (4 * n) (fun l => match frc_monte_carlo.random_nondimensional_end_to_end_length tape n theta (azimuth_first l) with
                                | Some (x, _) => x ^ 2 | None => 0 end)
    (correlated_square (cos theta) (repeat 1 n)).
Proof.
  intros theta n Hn. set (c := cos theta). set (w := fun l => last (fst (frc_monte_carlo.walk tape theta n x_axis origin (azimuth_first l))) origin).
  apply (has_average_ext _ (fun l => dot (w l) (w l))).
  { intros l _ _. unfold frc_monte_carlo.random_nondimensional_end_to_end_length, frc_monte_carlo.random_configuration. rewrite zero3_R.
    change (sdec 1 0, sdec 0 0, sdec 0 0) with x_axis.
    pose proof (frc_walk_length tape theta n x_axis origin (azimuth_first l)) as L. unfold w.
    destruct (frc_monte_carlo.walk tape theta n x_axis origin (azimuth_first l)) as [cf g]. cbn [fst snd] in *.
    unfold monte_carlo.end_to_end_length. destruct n as [|n]; [lia|]. rewrite (last_error n cf origin L). cbn [bind].
    rewrite norm3_R, <- vlength_sq. ring. }
  replace (correlated_square c (repeat 1 n)) with (dot origin origin + 2 * ahead c (repeat 1 n) * dot origin x_axis + correlated_square c (repeat 1 n))
    by (rewrite (dot_comm origin x_axis), !dot_origin; ring).
  apply (frc_average theta (fun q => dot q q) (fun n r p => dot p p + 2 * ahead c (repeat 1 n) * dot p r + correlated_square c (repeat 1 n))).
  - intros r p. cbn. ring.
  - intros m r p t Hr Hi. set (A := ahead c (repeat 1 m)). set (B := correlated_square c (repeat 1 m)).
    replace (dot p p + 2 * ahead c (repeat 1 (S m)) * dot p r + correlated_square c (repeat 1 (S m)))
      with ((2 + 2 * A) * (cos theta * dot p r) + (dot p p + 1 + 2 * A + B)) by (cbn [repeat ahead correlated_square]; fold A; fold B; fold c; ring).
    apply (is_RInt_ext (fun a => (2 + 2 * A) * dot p (direction theta r t a) + (dot p p + 1 + 2 * A + B))); [|apply direction_average].
    intros a _. match goal with |- ?x = ?y => change (@eq R x y) end.
    rewrite dot_add_r, !dot_add_l, (dot_comm (direction theta r t a) p), direction_unit by assumption. ring.
  - exact x_axis_unit.
Qed.

Lemma ahead_ones : forall c n, c <> 1 -> ahead c (repeat 1 n) = c * (1 - c ^ n) / (1 - c).
Proof.
  intros c n H. induction n as [|n IH]; cbn [repeat ahead]; [cbn; unfold Rdiv; ring|]. rewrite IH. cbn [pow]. field. lra.
Qed.
Lemma correlated_ones : forall c n, c <> 1 ->
  correlated_square c (repeat 1 n) = INR n * (1 + c) / (1 - c) - 2 * c * (1 - c ^ n) / (1 - c) ^ 2.
Proof.
  intros c n H. induction n as [|n IH]; cbn [repeat correlated_square]; [cbn; field; lra|]. rewrite IH, ahead_ones by exact H. rewrite S_INR. cbn [pow]. field. lra.
Qed.

Lemma frc_square_average : forall theta n, (0 < n)%nat -> cos theta <> 1 ->
  has_average (4 * n) (fun l => match frc_monte_carlo.random_nondimensional_end_to_end_length tape n theta (azimuth_first l) with
                                | Some (x, _) => x ^ 2 | None => 0 end)
    (INR n * (1 + cos theta) / (1 - cos theta) - 2 * cos theta * (1 - cos theta ^ n) / (1 - cos theta) ^ 2).
Proof. intros theta n Hn Hc. rewrite <- correlated_ones by exact Hc. apply frc_square, Hn. Qed.

(** ** Extensible freely rotating *)
Lemma div3_norm : forall c d, 0 < c -> dot d d = 1 -> monte_carlo.div3 (scaled c d) (monte_carlo.norm3 (scaled c d)) = d.
Proof.
  intros c d Hc Hd. rewrite norm3_R, vlength_scaled. unfold vlength. rewrite Hd, sqrt_1, Rabs_pos_eq by lra.
  destruct d as [[d0 d1] d2]. unfold scaled, monte_carlo.div3. cbn. repeat f_equal; field; lra.
Qed.

Lemma efrc_tape_link : forall theta c d x xs a t0 t1 t2 l, 0 < c -> dot d d = 1 ->
  efrc_monte_carlo.random_link number_tape theta length_tape (scaled c d) (x :: xs, a :: t0 :: t1 :: t2 :: l)
  = (scaled x (direction theta d (t0, t1, t2) a), (xs, l)).
Proof.
  intros theta c d x xs a t0 t1 t2 l Hc Hd. unfold efrc_monte_carlo.random_link. cbn [length_tape number_tape tape fst snd].
  rewrite div3_norm by assumption. f_equal. unfold direction. cbv zeta.
  set (u := monte_carlo.div3 _ _). set (v := frc_monte_carlo.cross d u). destruct d as [[d0 d1] d2], u as [[u0 u1] u2], v as [[v0 v1] v2]. reflexivity.
Qed.

Lemma efrc_walk_tape : forall theta x xs c d p a t0 t1 t2 l q, 0 < c -> dot d d = 1 ->
  let w := scaled x (direction theta d (t0, t1, t2) a) in
  last (fst (efrc_monte_carlo.walk number_tape theta length_tape (List.length (x :: xs)) (scaled c d) p (x :: xs, a :: t0 :: t1 :: t2 :: l))) q
  = last (fst (efrc_monte_carlo.walk number_tape theta length_tape (List.length xs) w (add3 p w) (xs, l))) (add3 p w).
Proof.
  intros theta x xs c d p a t0 t1 t2 l q Hc Hd w. cbn [List.length efrc_monte_carlo.walk]. rewrite efrc_tape_link by assumption. fold w. cbv beta iota zeta.
  destruct (efrc_monte_carlo.walk number_tape theta length_tape (List.length xs) w (add3 p w) (xs, l)) as [cf g]. cbn [fst]. apply last_cons.
Qed.

Lemma efrc_walk_length : forall theta n r p g, List.length (fst (efrc_monte_carlo.walk number_tape theta length_tape n r p g)) = n.
Proof.
  intros theta. induction n as [|n IH]; intros r p g; [reflexivity|]. cbn [efrc_monte_carlo.walk].
  destruct (efrc_monte_carlo.random_link number_tape theta length_tape r g) as [w g1]. specialize (IH w (add3 p w) g1). cbv zeta.
  destruct (efrc_monte_carlo.walk number_tape theta length_tape n w (add3 p w) g1) as [c g2]. cbn [fst List.length] in *. rewrite IH. reflexivity.
Qed.

Lemma efrc_walk_square : forall theta xs, List.Forall (fun x => 0 < x) xs -> forall c d p, 0 < c -> dot d d = 1 ->
  has_average (4 * List.length xs)
    (fun l => let q := last (fst (efrc_monte_carlo.walk number_tape theta length_tape (List.length xs) (scaled c d) p (xs, azimuth_first l))) p in dot q q)
    (dot p p + 2 * ahead (cos theta) xs * dot p d + correlated_square (cos theta) xs).
Proof.
  intros theta xs. induction xs as [|x xs IH]; intros HF c d p Hc Hd.
  - cbn. ring.
  - inversion HF as [|? ? Hx HF']; subst.
    replace (4 * List.length (x :: xs))%nat with (S (S (S (S (4 * List.length xs))))) by (cbn; lia).
    apply (four_average _ d); [exact Hd|]. intros t0 t1 t2 Hi. set (A := ahead (cos theta) xs). set (B := correlated_square (cos theta) xs).
    exists (fun a => (2 * x + 2 * A) * dot p (direction theta d (t0, t1, t2) a) + (dot p p + x ^ 2 + 2 * x * A + B)). split.
    + intros a _. set (e := direction theta d (t0, t1, t2) a).
      assert (He : dot e e = 1) by (apply direction_unit; assumption).
      replace ((2 * x + 2 * A) * dot p e + (dot p p + x ^ 2 + 2 * x * A + B))
        with (dot (add3 p (scaled x e)) (add3 p (scaled x e)) + 2 * A * dot (add3 p (scaled x e)) e + B).
      2:{ rewrite dot_add_r, !dot_add_l, !dot_scaled, !dot_scaled_r, (dot_comm e p), He. ring. }
      apply (has_average_ext _ (fun l => let q := last (fst (efrc_monte_carlo.walk number_tape theta length_tape (List.length xs) (scaled x e)
        (add3 p (scaled x e)) (xs, azimuth_first l))) (add3 p (scaled x e)) in dot q q)).
      * intros l _ _. cbn [azimuth_first]. rewrite efrc_walk_tape by assumption. reflexivity.
      * apply IH; assumption.
    + replace (dot p p + 2 * ahead (cos theta) (x :: xs) * dot p d + correlated_square (cos theta) (x :: xs))
        with ((2 * x + 2 * A) * (cos theta * dot p d) + (dot p p + x ^ 2 + 2 * x * A + B))
        by (cbn [ahead correlated_square]; fold A; fold B; ring).
      apply direction_average.
Qed.

Lemma efrc_square_average : forall theta xs, (0 < List.length xs)%nat -> List.Forall (fun x => 0 < x) xs ->
  has_average (4 * List.length xs)
    (fun l => match efrc_monte_carlo.random_nondimensional_end_to_end_length number_tape (List.length xs) theta length_tape (xs, azimuth_first l) with
              | Some (x, _) => x ^ 2 | None => 0 end)
    (correlated_square (cos theta) xs).
Proof.
  intros theta xs Hn HF. pose proof (efrc_walk_square theta xs HF 1 x_axis origin Rlt_0_1 x_axis_unit) as H.
  rewrite (dot_comm origin x_axis), !dot_origin in H. replace (0 + 2 * ahead (cos theta) xs * 0 + correlated_square (cos theta) xs) with (correlated_square (cos theta) xs) in H by ring.
  refine (has_average_ext _ _ _ _ _ H). intros l _ _. cbv zeta.
  unfold efrc_monte_carlo.random_nondimensional_end_to_end_length, efrc_monte_carlo.random_configuration. rewrite zero3_R.
  replace (sdec 1 0, sdec 0 0, sdec 0 0) with (scaled 1 x_axis).
  2:{ unfold scaled, x_axis. rewrite !Rmult_0_r, Rmult_1_r. reflexivity. }
  pose proof (efrc_walk_length theta (List.length xs) (scaled 1 x_axis) origin (xs, azimuth_first l)) as L.
  destruct (efrc_monte_carlo.walk number_tape theta length_tape (List.length xs) (scaled 1 x_axis) origin (xs, azimuth_first l)) as [cf g]. cbn [fst snd] in *.
  unfold monte_carlo.end_to_end_length. destruct (List.length xs) as [|n]; [lia|]. rewrite (last_error n cf origin L). cbn [bind].
  rewrite norm3_R, <- vlength_sq. ring.
Qed.
