(** Averages over the configurations of the Monte Carlo samplers. *)
From Coq Require Import Reals ZArith List Lra Lia.
From Coquelicot Require Import Coquelicot.
From Verif Require Import Scalar MFjc MMonteCarlo SpecMonteCarlo PMonteCarlo SpecThermo SpecIsometric SpecPartition SpecSampling PSphere PSampling PHyp PErfc PLaplace.
Import ListNotations.
Open Scope R_scope.

Notation add3 := monte_carlo.add3.

Lemma dot_add_r : forall u v w : vec R, dot u (add3 v w) = dot u v + dot u w.
Proof. intros u v w. rewrite dot_comm, dot_add_l, !(dot_comm u). reflexivity. Qed.
Lemma dot_scaled_r : forall c u v, dot u (scaled c v) = c * dot u v.
Proof. intros c u v. rewrite dot_comm, dot_scaled, dot_comm. reflexivity. Qed.
Lemma sphere_point_unit : forall a b, 0 < b < 1 -> dot (sphere_point a b) (sphere_point a b) = 1.
Proof.
  intros a b Hb. unfold sphere_point, dot. cbv zeta. set (p := 2 * PI * a). set (z := 1 - 2 * b).
  assert (X : sqrt (1 - z ^ 2) * sqrt (1 - z ^ 2) = 1 - z ^ 2) by (apply sqrt_sqrt; unfold z; nra).
  pose proof (sin2_cos2 p) as Y. unfold Rsqr in Y. set (q := sqrt (1 - z ^ 2)) in *. nra.
Qed.
Lemma vlength_scaled : forall c u, vlength (scaled c u) = Rabs c * vlength u.
Proof.
  intros c u. unfold vlength. rewrite dot_scaled, dot_scaled_r, <- Rmult_assoc.
  rewrite sqrt_mult by (apply dot_nonneg || nra). f_equal. apply sqrt_Rsqr_abs.
Qed.
Lemma last_cons : forall {A} (l : list A) x y, last (x :: l) y = last l x.
Proof.
  intros A l. induction l as [|z l IH]; intros x y; [reflexivity|].
  change (last (z :: l) y = last (z :: l) x). rewrite (IH z y), (IH z x). reflexivity.
Qed.

(** ** Freely jointed *)
Lemma fjc_tape_link : forall a b l, 0 < b < 1 -> fjc_monte_carlo.random_link tape (a :: b :: l) = (sphere_point a b, l).
Proof.
  intros a b l Hb. rewrite fjc_link. cbn [two tape fst snd]. unfold sphere_point. cbv zeta.
  set (z := 1 - 2 * b). assert (Hz : -1 <= z <= 1) by (unfold z; lra).
  rewrite sin_acos, cos_acos by exact Hz. unfold Rsqr. replace (z ^ 2) with (z * z) by ring. reflexivity.
Qed.

Lemma fjc_walk_cons : forall n p a b l q, 0 < b < 1 ->
  last (fst (fjc_monte_carlo.walk tape (S n) p (a :: b :: l))) q
  = last (fst (fjc_monte_carlo.walk tape n (add3 p (sphere_point a b)) l)) (add3 p (sphere_point a b)).
Proof.
  intros n p a b l q Hb. cbn [fjc_monte_carlo.walk]. rewrite fjc_tape_link by exact Hb. cbv beta iota zeta.
  destruct (fjc_monte_carlo.walk tape n _ l) as [c g]. cbn [fst]. apply last_cons.
Qed.

Lemma fjc_average : forall (Phi : vec R -> R) (V : nat -> vec R -> R), (forall p, V 0%nat p = Phi p) ->
  (forall n p, link_average (fun s => V n (add3 p s)) (V (S n) p)) ->
  forall n p, has_average (2 * n) (fun l => Phi (last (fst (fjc_monte_carlo.walk tape n p l)) p)) (V n p).
Proof.
  intros Phi V V0 VS. induction n as [|n IH]; intro p.
  - cbn. symmetry. apply V0.
  - replace (2 * S n)%nat with (S (S (2 * n))) by lia. destruct (VS n p) as (h & A & I).
    exists h, []. split; [|exact I]. intros a Ha _. exists (fun b => V n (add3 p (sphere_point a b))), []. split; [|apply A].
    intros b Hb _. apply (has_average_ext _ (fun l => Phi (last (fst (fjc_monte_carlo.walk tape n (add3 p (sphere_point a b)) l)) (add3 p (sphere_point a b))))).
    + intros l _ _. rewrite fjc_walk_cons by exact Hb. reflexivity.
    + apply IH.
Qed.

Lemma fjc_exp_average : forall n k,
  has_average (2 * n) (fun l => exp (dot k (end_point (fst (fjc_monte_carlo.random_configuration tape n l))))) (sinhc (vlength k) ^ n).
Proof.
  intros n k.
  replace (sinhc (vlength k) ^ n) with (exp (dot k origin) * sinhc (vlength k) ^ n).
  2:{ destruct k as [[k0 k1] k2]. unfold dot, origin. rewrite !Rmult_0_r, !Rplus_0_r, exp_0. ring. }
  unfold fjc_monte_carlo.random_configuration, end_point. rewrite zero3_R.
  apply (fjc_average (fun q => exp (dot k q)) (fun n p => exp (dot k p) * sinhc (vlength k) ^ n)).
  - intro p. cbn. ring.
  - intros m p. replace (exp (dot k p) * sinhc (vlength k) ^ S m) with (exp (dot k p) * sinhc (vlength k) ^ m * sinhc (vlength k) + 0) by (cbn; ring).
    apply (link_average_ext (fun s => exp (dot k p) * sinhc (vlength k) ^ m * exp (dot k s) + 0)).
    + intros a b _. rewrite dot_add_r, exp_plus. ring.
    + apply link_average_affine, link_exp.
Qed.

Lemma fjc_wave_average : forall n k p,
  has_average (2 * n) (fun l => cos (dot k (last (fst (fjc_monte_carlo.walk tape n p l)) p))) (cos (dot k p) * sinc (vlength k) ^ n) /\
  has_average (2 * n) (fun l => sin (dot k (last (fst (fjc_monte_carlo.walk tape n p l)) p))) (sin (dot k p) * sinc (vlength k) ^ n).
Proof.
  intros n k p. set (s := sinc (vlength k)). split.
  - apply (fjc_average (fun q => cos (dot k q)) (fun n p => cos (dot k p) * s ^ n)).
    + intro q. cbn. ring.
    + intros m q. replace (cos (dot k q) * s ^ S m) with ((cos (dot k q) * s ^ m * s + 0) + (- sin (dot k q) * s ^ m * 0 + 0)) by (cbn; ring).
      apply (link_average_ext (fun t => (cos (dot k q) * s ^ m * cos (dot k t) + 0) + (- sin (dot k q) * s ^ m * sin (dot k t) + 0))).
      * intros a b _. rewrite dot_add_r, cos_plus. ring.
      * apply link_average_plus; apply link_average_affine; [apply link_cos | apply link_sin].
  - apply (fjc_average (fun q => sin (dot k q)) (fun n p => sin (dot k p) * s ^ n)).
    + intro q. cbn. ring.
    + intros m q. replace (sin (dot k q) * s ^ S m) with ((sin (dot k q) * s ^ m * s + 0) + (cos (dot k q) * s ^ m * 0 + 0)) by (cbn; ring).
      apply (link_average_ext (fun t => (sin (dot k q) * s ^ m * cos (dot k t) + 0) + (cos (dot k q) * s ^ m * sin (dot k t) + 0))).
      * intros a b _. rewrite dot_add_r, sin_plus. ring.
      * apply link_average_plus; apply link_average_affine; [apply link_cos | apply link_sin].
Qed.

Lemma dot_origin : forall k, dot k origin = 0.
Proof. intros [[k0 k1] k2]. unfold dot, origin. ring. Qed.

Lemma fjc_characteristic : forall n k,
  has_average (2 * n) (fun l => cos (dot k (end_point (fst (fjc_monte_carlo.random_configuration tape n l))))) (sinc (vlength k) ^ n) /\
  has_average (2 * n) (fun l => sin (dot k (end_point (fst (fjc_monte_carlo.random_configuration tape n l))))) 0.
Proof.
  intros n k. pose proof (fjc_wave_average n k origin) as H. rewrite dot_origin, cos_0, sin_0, Rmult_1_l, Rmult_0_l in H. exact H.
Qed.

Lemma fjc_walk_last_error : forall n p l q, (0 < n)%nat ->
  nth_error (fst (fjc_monte_carlo.walk tape n p l)) (n - 1) = Some (last (fst (fjc_monte_carlo.walk tape n p l)) q).
Proof.
  intros n p l q Hn. pose proof (fjc_walk_length tape n p l) as L. set (c := fst _) in *. clearbody c. revert q.
  destruct n as [|n]; [lia|]. replace (S n - 1)%nat with n by lia. clear Hn p l. revert n L.
  induction c as [|x c IH]; intros n L q; [discriminate|]. destruct n as [|n].
  - destruct c; [reflexivity | discriminate].
  - rewrite last_cons. cbn [nth_error]. apply IH. cbn in L. lia.
Qed.

Lemma fjc_length_end : forall n l, (0 < n)%nat ->
  fjc_monte_carlo.random_nondimensional_end_to_end_length tape n l
  = Some (vlength (end_point (fst (fjc_monte_carlo.random_configuration tape n l))), snd (fjc_monte_carlo.random_configuration tape n l)).
Proof.
  intros n l Hn. unfold fjc_monte_carlo.random_nondimensional_end_to_end_length.
  pose proof (fjc_walk_last_error n origin l origin Hn) as H. unfold fjc_monte_carlo.random_configuration, end_point in *. rewrite zero3_R in *.
  destruct (fjc_monte_carlo.walk tape n origin l) as [c g]. cbn [fst snd] in *.
  unfold monte_carlo.end_to_end_length. destruct n as [|n]; [lia|]. replace (S n - 1)%nat with n in H by lia. rewrite H. cbn [bind].
  rewrite norm3_R. reflexivity.
Qed.

Lemma fjc_square_average : forall n, (0 < n)%nat ->
  has_average (2 * n) (fun l => match fjc_monte_carlo.random_nondimensional_end_to_end_length tape n l with Some (x, _) => x ^ 2 | None => 0 end) (INR n).
Proof.
  intros n Hn.
  apply (has_average_ext _ (fun l => dot (last (fst (fjc_monte_carlo.walk tape n origin l)) origin) (last (fst (fjc_monte_carlo.walk tape n origin l)) origin))).
  { intros l _ _. rewrite fjc_length_end by exact Hn. rewrite <- vlength_sq. unfold end_point, fjc_monte_carlo.random_configuration. rewrite zero3_R. ring. }
  replace (INR n) with (dot origin origin + INR n) by (rewrite dot_origin; ring).
  apply (fjc_average (fun q => dot q q) (fun n p => dot p p + INR n)).
  - intro p. cbn. ring.
  - intros m p. replace (dot p p + INR (S m)) with (2 * 0 + (dot p p + INR (S m))) by ring.
    apply (link_average_ext (fun s => 2 * dot p s + (dot p p + INR (S m)))).
    + intros a b Hb. rewrite dot_add_r, !dot_add_l, (dot_comm (sphere_point a b) p), sphere_point_unit by exact Hb. rewrite S_INR. ring.
    + apply link_average_affine, link_linear.
Qed.

Lemma fjc_mean : forall n k, has_average (2 * n) (fun l => dot k (end_point (fst (fjc_monte_carlo.random_configuration tape n l)))) 0.
Proof.
  intros n k. rewrite <- (dot_origin k). unfold fjc_monte_carlo.random_configuration, end_point. rewrite zero3_R.
  apply (fjc_average (fun q => dot k q) (fun n p => dot k p)).
  - reflexivity.
  - intros m p. replace (dot k p) with (1 * 0 + dot k p) by ring.
    apply (link_average_ext (fun s => 1 * dot k s + dot k p)).
    + intros a b _. rewrite dot_add_r. ring.
    + apply link_average_affine, link_linear.
Qed.

Lemma fjc_partition : forall n k, 0 < vlength k ->
  has_average (2 * n) (fun l => exp (dot k (end_point (fst (fjc_monte_carlo.random_configuration tape n l)))))
    (exp (- fjc_isotensional.nondimensional_relative_gibbs_free_energy (Z.of_nat n) (vlength k))).
Proof.
  intros n k Hk. set (eta := vlength k) in *.
  replace (exp (- fjc_isotensional.nondimensional_relative_gibbs_free_energy (Z.of_nat n) eta)) with (sinhc eta ^ n); [apply fjc_exp_average|].
  unfold sinhc. destruct (Req_EM_T eta 0); [lra|].
  change ((sinh eta / eta) ^ n = exp (- (- IZR (Z.of_nat n) * ln (sinh eta / eta)))).
  rewrite <- INR_IZR_INZ. assert (P0 : 0 < sinh eta / eta) by (apply Rdiv_lt_0_compat; [apply PHyp.sinh_pos |]; exact Hk).
  rewrite <- (exp_ln (sinh eta / eta)) at 1 by exact P0. rewrite <- PErfc.exp_pow. f_equal. ring.
Qed.

(** ** Extensible freely jointed *)
Lemma sinhc_abs : forall x, sinhc (Rabs x) = sinhc x.
Proof.
  intro x. unfold Rabs. destruct (Rcase_abs x); [|reflexivity]. unfold sinhc.
  destruct (Req_EM_T (- x) 0), (Req_EM_T x 0); try lra. unfold sinh. rewrite Ropp_involutive. field. lra.
Qed.

Lemma efjc_tape_link : forall x xs a b l, 0 < b < 1 ->
  efjc_monte_carlo.random_link number_tape length_tape (x :: xs, a :: b :: l) = (scaled x (sphere_point a b), (xs, l)).
Proof.
  intros x xs a b l Hb. unfold efjc_monte_carlo.random_link. cbn [length_tape number_tape tape fst snd].
  unfold sphere_point, scaled. cbv zeta. set (z := 1 - 2 * b). assert (Hz : -1 <= z <= 1) by (unfold z; lra).
  change ((x * (sin (acos z) * cos (2 * PI * a)), x * (sin (acos z) * sin (2 * PI * a)), x * cos (acos z), (xs, l))
    = (x * (sqrt (1 - z ^ 2) * cos (2 * PI * a)), x * (sqrt (1 - z ^ 2) * sin (2 * PI * a)), x * z, (xs, l))).
  rewrite sin_acos, cos_acos by exact Hz. unfold Rsqr. replace (z ^ 2) with (z * z) by ring. reflexivity.
Qed.

Lemma efjc_walk_cons : forall x xs p a b l q, 0 < b < 1 ->
  last (fst (efjc_monte_carlo.walk number_tape length_tape (List.length (x :: xs)) p (x :: xs, a :: b :: l))) q
  = last (fst (efjc_monte_carlo.walk number_tape length_tape (List.length xs) (add3 p (scaled x (sphere_point a b))) (xs, l)))
      (add3 p (scaled x (sphere_point a b))).
Proof.
  intros x xs p a b l q Hb. cbn [List.length efjc_monte_carlo.walk]. rewrite efjc_tape_link by exact Hb. cbv beta iota zeta.
  destruct (efjc_monte_carlo.walk number_tape length_tape (List.length xs) _ (xs, l)) as [c g]. cbn [fst]. apply last_cons.
Qed.

Lemma efjc_average : forall (Phi : vec R -> R) (V : list R -> vec R -> R), (forall p, V [] p = Phi p) ->
  (forall x xs p, link_average (fun s => V xs (add3 p (scaled x s))) (V (x :: xs) p)) ->
  forall xs p, has_average (2 * List.length xs)
    (fun l => Phi (last (fst (efjc_monte_carlo.walk number_tape length_tape (List.length xs) p (xs, l))) p)) (V xs p).
Proof.
  intros Phi V V0 VS. induction xs as [|x xs IH]; intro p.
  - cbn. symmetry. apply V0.
  - replace (2 * List.length (x :: xs))%nat with (S (S (2 * List.length xs))) by (cbn; lia). destruct (VS x xs p) as (h & A & I).
    exists h, []. split; [|exact I]. intros a Ha _. exists (fun b => V xs (add3 p (scaled x (sphere_point a b)))), []. split; [|apply A].
    intros b Hb _.
    apply (has_average_ext _ (fun l => Phi (last (fst (efjc_monte_carlo.walk number_tape length_tape (List.length xs)
      (add3 p (scaled x (sphere_point a b))) (xs, l))) (add3 p (scaled x (sphere_point a b)))))).
    + intros l _ _. rewrite efjc_walk_cons by exact Hb. reflexivity.
    + apply IH.
Qed.

Lemma efjc_exp_average : forall xs k,
  has_average (2 * List.length xs)
    (fun l => exp (dot k (end_point (fst (efjc_monte_carlo.random_configuration number_tape (List.length xs) length_tape (xs, l))))))
    (product (map (fun x => sinhc (x * vlength k)) xs)).
Proof.
  intros xs k. set (P := fun xs => product (map (fun x => sinhc (x * vlength k)) xs)).
  change (has_average (2 * List.length xs)
    (fun l => exp (dot k (end_point (fst (efjc_monte_carlo.random_configuration number_tape (List.length xs) length_tape (xs, l))))))
    (P xs)).
  replace (P xs) with (exp (dot k origin) * P xs) by (rewrite dot_origin, exp_0; ring).
  unfold efjc_monte_carlo.random_configuration, end_point. rewrite zero3_R.
  apply (efjc_average (fun q => exp (dot k q)) (fun xs p => exp (dot k p) * P xs)).
  - intro p. cbn. ring.
  - intros x ys p. replace (exp (dot k p) * P (x :: ys)) with (exp (dot k p) * P ys * sinhc (x * vlength k) + 0) by (unfold P; cbn; ring).
    apply (link_average_ext (fun s => exp (dot k p) * P ys * exp (dot (scaled x k) s) + 0)).
    + intros a b _. rewrite dot_add_r, exp_plus, dot_scaled_r, dot_scaled. ring.
    + apply link_average_affine. pose proof (link_exp (scaled x k)) as L. rewrite vlength_scaled in L.
      rewrite <- (sinhc_abs (x * vlength k)), Rabs_mult, (Rabs_pos_eq (vlength k)) by apply vlength_nonneg. exact L.
Qed.

Lemma efjc_walk_last_error : forall n p g q, (0 < n)%nat ->
  nth_error (fst (efjc_monte_carlo.walk number_tape length_tape n p g)) (n - 1)
  = Some (last (fst (efjc_monte_carlo.walk number_tape length_tape n p g)) q).
Proof.
  intros n p l q Hn.
  assert (L : List.length (fst (efjc_monte_carlo.walk number_tape length_tape n p l)) = n).
  { clear. revert p l. induction n as [|n IH]; intros p g; [reflexivity|]. cbn [efjc_monte_carlo.walk].
    destruct (efjc_monte_carlo.random_link number_tape length_tape g) as [r g1]. specialize (IH (add3 p r) g1). cbv zeta.
    destruct (efjc_monte_carlo.walk number_tape length_tape n (add3 p r) g1) as [c g2]. cbn [fst List.length] in *. rewrite IH. reflexivity. }
  set (c := fst _) in *. clearbody c. revert q.
  destruct n as [|n]; [lia|]. replace (S n - 1)%nat with n by lia. clear Hn p l. revert n L.
  induction c as [|x c IH]; intros n L q; [discriminate|]. destruct n as [|n].
  - destruct c; [reflexivity | discriminate].
  - rewrite last_cons. cbn [nth_error]. apply IH. cbn in L. lia.
Qed.

Lemma efjc_square_average : forall xs, (0 < List.length xs)%nat ->
  has_average (2 * List.length xs)
    (fun l => match efjc_monte_carlo.random_nondimensional_end_to_end_length number_tape (List.length xs) length_tape (xs, l) with
              | Some (x, _) => x ^ 2 | None => 0 end)
    (total (map (fun x => x ^ 2) xs)).
Proof.
  intros xs Hn. set (w := fun l => last (fst (efjc_monte_carlo.walk number_tape length_tape (List.length xs) origin (xs, l))) origin).
  apply (has_average_ext _ (fun l => dot (w l) (w l))).
  { intros l _ _. unfold efjc_monte_carlo.random_nondimensional_end_to_end_length, efjc_monte_carlo.random_configuration. rewrite zero3_R.
    pose proof (efjc_walk_last_error (List.length xs) origin (xs, l) origin Hn) as H. fold (w l) in H.
    destruct (efjc_monte_carlo.walk number_tape length_tape (List.length xs) origin (xs, l)) as [c g]. cbn [fst snd] in *.
    unfold monte_carlo.end_to_end_length. destruct (List.length xs) as [|n]; [lia|]. replace (S n - 1)%nat with n in H by lia. rewrite H. cbn [bind].
    rewrite norm3_R, <- vlength_sq. ring. }
  replace (total (map (fun x => x ^ 2) xs)) with (dot origin origin + total (map (fun x => x ^ 2) xs)) by (rewrite dot_origin; ring).
  apply (efjc_average (fun q => dot q q) (fun xs p => dot p p + total (map (fun x => x ^ 2) xs))).
  - intro p. cbn. ring.
  - intros x ys p. set (q := dot p p + total (map (fun x => x ^ 2) (x :: ys))). replace q with (2 * x * 0 + q) by ring.
    apply (link_average_ext (fun s => 2 * x * dot p s + q)).
    + intros a b Hb. unfold q. cbn [map total].
      rewrite dot_add_r, !dot_add_l, !dot_scaled, !dot_scaled_r, (dot_comm (sphere_point a b) p), sphere_point_unit by exact Hb. ring.
    + apply link_average_affine, link_linear.
Qed.

(** ** One link, and the radial distribution *)
Lemma fjc_isotropic : forall (g g1 g2 : R -> R) (k : vec R),
  (forall x, is_derive g x (g1 x)) -> (forall x, is_derive g1 x (g2 x)) -> (forall x, continuous g2 x) ->
  has_average 2 (fun l => g (dot k (fst (fjc_monte_carlo.random_link tape l)))) (RInt (fun z => g (vlength k * z)) (-1) 1 / 2).
Proof.
  intros g g1 g2 k Hg Hg1 Hg2.
  assert (E : RInt (fun z => g (vlength k * z)) (-1) 1 / 2 = RInt (fun b => g (vlength k * (1 - 2 * b))) 0 1).
  { set (f := fun z => g (vlength k * z)).
    assert (C : forall z, continuous f z).
    { intro z. apply (ex_derive_continuous (V := R_NormedModule)). apply (smooth_comp g g1 (fun z => vlength k * z)); [exact Hg | auto_derive; exact I]. }
    assert (X : forall a b, ex_RInt f a b) by (intros a b; apply (ex_RInt_continuous (V := R_CompleteNormedModule)); intros z _; apply C).
    pose proof (RInt_comp_lin (V := R_CompleteNormedModule) f (-2) 1 0 1 (X _ _)) as L.
    replace (-2 * 0 + 1) with 1 in L by ring. replace (-2 * 1 + 1) with (-1) in L by ring.
    rewrite <- (opp_RInt_swap (V := R_CompleteNormedModule) f 1 (-1)) by apply X. rewrite <- L.
    assert (X2 : ex_RInt (fun b => f (-2 * b + 1)) 0 1).
    { apply (ex_RInt_continuous (V := R_CompleteNormedModule)). intros z _. apply (continuous_comp (fun b => -2 * b + 1) f); [|apply C].
      apply (ex_derive_continuous (V := R_NormedModule)). auto_derive. exact I. }
    rewrite (RInt_scal (V := R_CompleteNormedModule)) by exact X2.
    rewrite (RInt_ext (V := R_CompleteNormedModule) (fun b => g (vlength k * (1 - 2 * b))) (fun b => f (-2 * b + 1))).
    2:{ intros b _. unfold f. f_equal. match goal with |- ?x = ?y => change (@eq R x y) end. ring. }
    unfold scal, opp; cbn; unfold mult; cbn. field. }
  rewrite E. destruct (sphere_component_average g g1 g2 k Hg Hg1 Hg2) as (h & A & I).
  exists h, []. split; [|exact I]. intros a Ha _. exists (fun b => g (dot k (sphere_point a b))), []. split; [|apply A].
  intros b Hb _. cbn [has_average]. rewrite fjc_tape_link by exact Hb. reflexivity.
Qed.

Lemma fjc_sampled_distribution : forall prof n k, (2 <= n <= 26)%nat -> 0 < vlength k -> exists v,
  has_average (2 * n) (fun l => exp (dot k (end_point (fst (fjc_monte_carlo.random_configuration tape n l))))) v /\
  integral (fun g => match fjc_isometric.nondimensional_equilibrium_radial_distribution prof (Z.of_nat n) g with
                     | Some p => Some (p * angular_average (INR n * vlength k * g)) | None => None end) 0 1 v.
Proof.
  intros prof n k Hn Hk. exists (exp (- fjc_isotensional.nondimensional_relative_gibbs_free_energy (Z.of_nat n) (vlength k))).
  split; [apply fjc_partition, Hk|]. rewrite INR_IZR_INZ. apply PLaplace.fjc_laplace; [lia | exact Hk].
Qed.
