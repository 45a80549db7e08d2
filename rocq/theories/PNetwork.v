(** Proofs about the stress of the constitutive models. *)
From Coq Require Import Reals ZArith List Lra Lia Bool.
From Coquelicot Require Import Coquelicot.
From Verif Require Import Scalar MConst MEfjc MConstitutive SpecDamage SpecNetwork PQuad PDamage.
Import ListNotations.
Open Scope R_scope.

Lemma combine_maps : forall {A B C} (f : A -> B) (g : A -> C) l,
  combine (map f l) (map g l) = map (fun x => (f x, g x)) l.
Proof. intros A B C f g l. induction l as [|a l IH]; cbn; [reflexivity|]. rewrite IH. reflexivity. Qed.

Lemma combine_map_id : forall {A B} (f : A -> B) l, combine (map f l) l = map (fun x => (f x, x)) l.
Proof. intros A B f l. induction l as [|a l IH]; cbn; [reflexivity|]. rewrite IH. reflexivity. Qed.

Lemma Rsum_flat_map : forall {A} (f : A -> list R) l, Rsum (flat_map f l) = Rsum (map (fun a => Rsum (f a)) l).
Proof. intros A f l. induction l as [|a l IH]; cbn; [reflexivity|]. rewrite Rsum_app, IH. reflexivity. Qed.

Lemma grid_sum_indexed : forall {A} (G : A -> A -> R) (x : A -> R) (f : R -> R -> R -> R) l,
  hyperelastic.grid_sum f (map (fun a => map (fun b => G a b) l) l) (map x l)
  = Rsum (map (fun a => Rsum (map (fun b => f (G a b) (x a) (x b)) l)) l).
Proof.
  intros A G x f l. rewrite grid_sum_R, Rsum_flat_map, combine_maps, map_map. apply Rsum_ext. intros a _.
  rewrite combine_maps, map_map. reflexivity.
Qed.

Definition wn (n i : nat) : R := INR i / (INR n + 1).
Definition an (n i : nat) : R := ln ((1 + wn n i) / (1 - wn n i)) / 2.

Lemma w_grid_R : forall n, hyperelastic.w_grid n = map (wn n) (seq 1 n).
Proof.
  intro n. unfold hyperelastic.w_grid. cbv zeta. rewrite <- seq_shift, map_map. apply map_ext. intro i.
  change (IZR (Z.of_nat i + 1) / (IZR (Z.of_nat n) + 1) = INR (S i) / (INR n + 1)).
  rewrite <- !INR_IZR_INZ. f_equal. rewrite INR_IZR_INZ. f_equal. lia.
Qed.

Lemma dw_R : forall n, (2 <= n)%nat -> hyperelastic.dw n = Some (1 / (INR n + 1)).
Proof.
  intros n H. unfold hyperelastic.dw. rewrite w_grid_R. destruct n as [|[|n]]; try lia.
  change (seq 1 (S (S n))) with (1%nat :: 2%nat :: seq 3 n). cbn [map nth_error bind]. f_equal.
  unfold wn. generalize (INR (S (S n)) + 1). intro q.
  change ((1 + 1) / q - 1 / q = 1 / q). unfold Rdiv. ring.
Qed.

Lemma dw_some : forall n x, hyperelastic.dw (T := R) n = Some x -> (2 <= n)%nat.
Proof.
  intros n x H. destruct n as [|[|n]]; [discriminate | discriminate | lia].
Qed.

Lemma atanh_grid_R : forall n, hyperelastic.atanh_grid n = map (an n) (seq 1 n).
Proof.
  intro n. unfold hyperelastic.atanh_grid. rewrite w_grid_R, map_map. apply map_ext. intro i.
  change (satanh (wn n i) = ln ((1 + wn n i) / (1 - wn n i)) / 2).
  cbn [satanh R_scalar]. reflexivity.
Qed.

Lemma node_sum_R : forall n f,
  node_sum n f = Rsum (map (fun i => f (an n i) / (1 - wn n i ^ 2) * (1 / (INR n + 1))) (seq 1 n)).
Proof. intros. unfold node_sum. rewrite sum_over_Rsum. reflexivity. Qed.

(** An entry of the table, with the exponential weight. *)
Lemma element_entry : forall n k N i j e, (0 < wn n i < 1) -> (0 < wn n j < 1) ->
  hyperelastic.init_element k N (1 / (INR n + 1)) (an n i) (wn n i) (an n j) (wn n j) / exp e
  = (ring_volume (an n j) * chain_stress k N (an n i) (an n j) * exp (- e) / (1 - wn n j ^ 2) * (1 / (INR n + 1)))
    / (1 - wn n i ^ 2) * (1 / (INR n + 1)).
Proof.
  intros n k N i j e Hi Hj. rewrite div_exp.
  unfold hyperelastic.init_element, chain_stress, ring_volume, hyperelastic.nondimensional_force.
  change (@sadd R R_scalar) with Rplus. change (@smul R R_scalar) with Rmult. change (@sdiv R R_scalar) with Rdiv.
  change (@ssub R R_scalar) with Rminus. change (@ssqrt R R_scalar) with sqrt. change (@sofZ R R_scalar) with IZR.
  change (@spi R R_scalar) with PI. change (sdec 2 0 : R) with 2. change (sdec 1 0 : R) with 1.
  change (spowi (an n i) 2) with (an n i ^ 2). change (spowi (an n j) 2) with (an n j ^ 2).
  change (spowi (wn n i) 2) with (wn n i ^ 2). change (spowi (wn n j) 2) with (wn n j ^ 2).
  change (spowi (1 / (INR n + 1)) 2) with ((1 / (INR n + 1)) ^ 2).
  cbv zeta.
  set (F := efjc_isometric_asymptotic_reduced_legendre.nondimensional_force k _).
  generalize (1 / (INR n + 1)) (exp (- e)). intros d x. unfold Rdiv.
  generalize (/ sqrt (an n i ^ 2 + an n j ^ 2)) (/ (1 - wn n i ^ 2)) (/ (1 - wn n j ^ 2)). intros a b c.
  field.
Qed.

Lemma wn_range : forall n i, In i (seq 1 n) -> 0 < wn n i < 1.
Proof.
  intros n i H. apply in_seq in H. unfold wn.
  assert (P : 0 < INR i) by (apply lt_0_INR; lia).
  assert (Q : INR i <= INR n) by (apply le_INR; lia).
  split; [apply Rdiv_lt_0_compat; lra|].
  apply (Rmult_lt_reg_r (INR n + 1)); [lra|]. unfold Rdiv. rewrite Rmult_assoc, Rinv_l by lra. lra.
Qed.

Lemma init_elements_R : forall n k N,
  hyperelastic.init_elements n k N (1 / (INR n + 1))
  = map (fun i => map (fun j => hyperelastic.init_element k N (1 / (INR n + 1)) (an n i) (wn n i) (an n j) (wn n j))
      (seq 1 n)) (seq 1 n).
Proof.
  intros n k N. unfold hyperelastic.init_elements. rewrite atanh_grid_R, w_grid_R, combine_maps, map_map.
  apply map_ext. intro i. rewrite map_map. reflexivity.
Qed.

Lemma stress_sum : forall n k N (e : R -> R -> R) (f : R -> R -> R -> R),
  (forall x z r, f x z r = x / exp (e z r)) ->
  hyperelastic.grid_sum f (hyperelastic.init_elements n k N (1 / (INR n + 1))) (hyperelastic.atanh_grid n)
  = node_sum n (fun z => node_sum n (fun r => ring_volume r * chain_stress k N z r * exp (- e z r))).
Proof.
  intros n k N e f Hf. rewrite init_elements_R, atanh_grid_R, grid_sum_indexed, node_sum_R.
  apply Rsum_ext. intros i Hi. rewrite node_sum_R.
  match goal with |- _ = ?S / ?a * ?d => transitivity (/ a * d * S); [|unfold Rdiv; ring] end.
  rewrite <- Rsum_scal. apply Rsum_ext. intros j Hj.
  rewrite Hf, element_entry by (apply wn_range; assumption). unfold Rdiv. ring.
Qed.

Lemma normal_sum : forall n (e : R -> R) (f : R -> R), (forall x, f x = e x) ->
  Rsum (map (fun i => an n i ^ 2 / (1 - wn n i ^ 2) / exp (f (an n i))) (seq 1 n)) * 4 * PI * (1 / (INR n + 1))
  = node_sum n (fun g => 4 * PI * g ^ 2 * exp (- e g)).
Proof.
  intros n e f Hf. rewrite node_sum_R.
  rewrite (Rmult_assoc (Rsum _)), (Rmult_assoc (Rsum _)), Rmult_comm, <- Rsum_scal. apply Rsum_ext. intros i Hi.
  rewrite Hf, div_exp. unfold Rdiv. ring.
Qed.

Lemma gaussian_energy : forall k N x, hyperelastic.gaussian_factor k N * x ^ 2 = chain_energy 3 k N 1 x.
Proof.
  intros k N x. unfold chain_energy. cbn [Z.eqb Pos.eqb].
  change (IZR 15 / 10 * IZR N * k * (k + 1) / (k ^ 2 + 6 * k + 3) * x ^ 2
         = 3 / 2 * IZR N * k * (k + 1) / (k ^ 2 + 6 * k + 3) * x ^ 2 / 1 ^ 2).
  replace (3 / 2) with (15 / 10) by field. unfold Rdiv. rewrite pow1, Rinv_1. ring.
Qed.

Lemma normalization_R : forall n me k N e fa g nn, hyperelastic.init n me k N = Some (e, fa, g, nn) ->
  (me = 2 \/ me = 3)%Z /\ e = hyperelastic.init_elements n k N (1 / (INR n + 1)) /\
  g = hyperelastic.atanh_grid n /\ (me = 3%Z -> fa = hyperelastic.gaussian_factor k N) /\
  nn = node_sum n (fun g => 4 * PI * g ^ 2 * exp (- chain_energy me k N 1 g)).
Proof.
  intros n me k N e fa g nn H. unfold hyperelastic.init in H.
  destruct (hyperelastic.dw n) as [d|] eqn:D; [|discriminate].
  pose proof (dw_some n d D) as Ln. rewrite (dw_R n Ln) in D. injection D as <-. cbn [bind] in H.
  assert (M : (me = 2 \/ me = 3)%Z).
  { destruct me as [|[[q|q|]|[q|q|]|]|q]; try discriminate; auto. }
  split; [exact M|].
  destruct M as [-> | ->].
  - inversion H. split; [reflexivity|]. split; [reflexivity|]. split; [discriminate|].
    rewrite <- (normal_sum n _ (chain_energy 2 k N 1)) by reflexivity.
    unfold hyperelastic.normalization_2. rewrite ssum_R, atanh_grid_R, w_grid_R, combine_maps, map_map. reflexivity.
  - inversion H. split; [reflexivity|]. split; [reflexivity|]. split; [reflexivity|].
    rewrite <- (normal_sum n _ (fun x => hyperelastic.gaussian_factor k N * x ^ 2)) by (intro; apply gaussian_energy).
    unfold hyperelastic.normalization_3. rewrite ssum_R, atanh_grid_R, w_grid_R, combine_maps, map_map. reflexivity.
Qed.

Lemma uniaxial_stress : forall n me k N o s sigma, 0 < s ->
  hyperelastic.BucheSilberstein.init n me k N = Some o ->
  hyperelastic.BucheSilberstein.uniaxial_tension o s = Some sigma ->
  sigma = network_stress n me k N (reference_length s).
Proof.
  intros n me k N o s sigma Hs I U. unfold hyperelastic.BucheSilberstein.init in I.
  destruct (hyperelastic.init n me k N) as [[[[e fa] g] nn]|] eqn:E; [|discriminate]. cbn [bind] in I. injection I as <-.
  apply normalization_R in E. destruct E as (M & -> & -> & Hf & ->).
  unfold hyperelastic.BucheSilberstein.uniaxial_tension, hyperelastic.uniaxial_tension in U.
  cbn [hyperelastic.BucheSilberstein.element hyperelastic.BucheSilberstein.factor hyperelastic.BucheSilberstein.grid
    hyperelastic.BucheSilberstein.normalization hyperelastic.BucheSilberstein.method
    hyperelastic.BucheSilberstein.nondimensional_link_stiffness hyperelastic.BucheSilberstein.number_of_links] in U.
  unfold network_stress. set (nn := node_sum n (fun g => 4 * PI * g ^ 2 * _)) in *.
  destruct M as [-> | ->].
  - rewrite (stress_sum n k N (fun z r => chain_energy 2 k N 1 (reference_length s z r))) in U by reflexivity.
    injection U as <-. reflexivity.
  - rewrite (stress_sum n k N (fun z r => chain_energy 3 k N 1 (reference_length s z r))) in U.
    { injection U as <-. reflexivity. }
    intros x z r. rewrite (Hf eq_refl), <- gaussian_energy. unfold reference_length. rewrite pow2_sqrt.
    { reflexivity. }
    apply Rplus_le_le_0_compat; [apply pow2_ge_0|]. apply Rmult_le_pos; [lra | apply pow2_ge_0].
Qed.

Lemma equibiaxial_stress : forall n me k N o s sigma, s <> 0 ->
  hyperelastic.BucheSilberstein.init n me k N = Some o ->
  hyperelastic.BucheSilberstein.equibiaxial_tension o s = Some sigma ->
  sigma = - network_stress n me k N (reference_length_equibiaxial s).
Proof.
  intros n me k N o s sigma Hs I B.
  assert (M : (me = 2 \/ me = 3)%Z).
  { unfold hyperelastic.BucheSilberstein.init in I.
    destruct (hyperelastic.init n me k N) as [[[[e fa] g] nn]|] eqn:E; [|discriminate].
    apply normalization_R in E. tauto. }
  assert (X : exists u, hyperelastic.BucheSilberstein.uniaxial_tension o (/ s ^ 2) = Some u).
  { apply hyperelastic_tension_some. rewrite (hyperelastic_init_method _ _ _ _ _ I). exact M. }
  destruct X as [u U].
  assert (P : 0 < / s ^ 2) by (apply Rinv_0_lt_compat; apply pow2_gt_0; exact Hs).
  rewrite (equibiaxial_uniaxial o s u sigma Hs U B). f_equal.
  rewrite (uniaxial_stress n me k N o (/ s ^ 2) u P I U). unfold network_stress. f_equal.
  rewrite !node_sum_R. apply Rsum_ext. intros i _. rewrite !node_sum_R. f_equal. f_equal.
  apply Rsum_ext. intros j _.
  unfold reference_length, reference_length_equibiaxial.
  replace ((an n i / / s ^ 2) ^ 2 + / s ^ 2 * an n j ^ 2) with ((an n i * s ^ 2) ^ 2 + (an n j / s) ^ 2) by (field; exact Hs).
  reflexivity.
Qed.

(** *** The damage model *)
Import hyperelastic_damage.

Lemma damage_entry : forall k N w d z r e (b : bool),
  init_element k N w d z r / exp e * indicator b
  = if b then ring_volume r * chain_stress k N z r * exp (- e) * d ^ 2 / w ^ 3 else 0.
Proof.
  intros k N w d z r e b. rewrite div_exp. unfold indicator. change (@sofZ R R_scalar) with IZR.
  destruct b; [|ring].
  unfold init_element, chain_stress, ring_volume, hyperelastic_damage.nondimensional_force.
  change (@sadd R R_scalar) with Rplus. change (@smul R R_scalar) with Rmult. change (@sdiv R R_scalar) with Rdiv.
  change (@ssub R R_scalar) with Rminus. change (@ssqrt R R_scalar) with sqrt. change (@sofZ R R_scalar) with IZR.
  change (@spi R R_scalar) with PI. change (sdec 2 0 : R) with 2.
  change (spowi z 2) with (z ^ 2). change (spowi r 2) with (r ^ 2). change (spowi d 2) with (d ^ 2).
  change (spowi w 3) with (w ^ 3). cbv zeta.
  set (F := efjc_isometric_asymptotic_reduced_legendre.nondimensional_force k _).
  generalize (exp (- e)). intro x. unfold Rdiv. generalize (/ sqrt (z ^ 2 + r ^ 2)) (/ w ^ 3). intros a b. field.
Qed.

Lemma stress_R : forall k N w d ex g n c s m (sigma p : R),
  stress_and_probability ex (map (fun z => map (fun r => init_element k N w d z r) g) g) g n c w s m = Some (sigma, p) ->
  sigma = sum_over g (fun z => sum_over g (fun r => if Rle_dec (length_at_maximum s m z r) c
    then ring_volume r * chain_stress k N z r * exp (- ex z r) * d ^ 2 / w ^ 3 else 0)) / n.
Proof.
  intros k N w d ex g n c s m sigma p H. unfold stress_and_probability in H.
  set (x := grid_sum _ _ g) in H.
  assert (E : x = sum_over g (fun z => sum_over g (fun r => if Rle_dec (length_at_maximum s m z r) c
    then ring_volume r * chain_stress k N z r * exp (- ex z r) * d ^ 2 / w ^ 3 else 0))).
  { unfold x.
    match goal with |- grid_sum ?f _ _ = _ =>
      transitivity (Rsum (map (fun z => Rsum (map (fun r => f (init_element k N w d z r) z r) g)) g)) end.
    { pose proof (fun f => grid_sum_indexed (fun z r => init_element k N w d z r) (fun z => z) f g) as X.
      rewrite map_id in X. apply X. }
    rewrite sum_over_Rsum. apply Rsum_ext. intros z _. rewrite sum_over_Rsum. apply Rsum_ext. intros r _.
    change (@smul R R_scalar) with Rmult. change (@sdiv R R_scalar) with Rdiv. change (@sexp R R_scalar) with exp.
    rewrite damage_entry.
    pose proof (survives_R c s m z r) as S. destruct (survives c s m z r);
      destruct (Rle_dec (length_at_maximum s m z r) c) as [L|L]; try reflexivity.
    + exfalso. apply L, S, eq_refl.
    + exfalso. apply S in L. discriminate. }
  rewrite <- E. clearbody x. clear E.
  destruct (grid_step g) as [dz|]; [|discriminate]. cbn [bind] in H. injection H as H _. rewrite <- H. reflexivity.
Qed.

Lemma response_stress : forall n me c k N w o s m sigma p, 0 < w ->
  BucheSilberstein.init n me c k N w = Some o -> response o s m = Some (sigma, p) ->
  sigma = damaged_stress n me c k N w s m.
Proof.
  intros n me c k N w o s m sigma p Hw I H.
  pose proof (damage_init_fields n me c k N w o I) as (Me & Mc & Mg & Mw & Ln & Pm).
  assert (Hs : 1 <= s).
  { assert (E : exists a, response o s m = Some a) by eauto.
    apply (proj1 (damage_response_some n me c k N w o s m I)) in E.
    change (Rleb 1 s = true) in E. unfold Rleb in E. destruct (Rle_dec 1 s); [assumption | discriminate]. }
  assert (Q : forall z r, 0 <= (z / s) ^ 2 + s * r ^ 2).
  { intros z r. apply Rplus_le_le_0_compat; [apply pow2_ge_0|].
    apply Rmult_le_pos; [lra | apply pow2_ge_0]. }
  unfold BucheSilberstein.init, init in I. rewrite init_grid_R in *. rewrite (sampled_step n c Ln) in I. cbn [bind] in I.
  set (g := sampled_lengths n c) in *.
  assert (J : 0 < Rpower w (1 / 3)) by apply exp_pos.
  assert (Den : forall (E ex : R -> R), (forall z, ex z = E z) ->
    sum_over g (fun z => 4 * PI * z ^ 2 * exp (- E z) * (c / INR n) / w)
    = Rsum (map (fun z => z ^ 2 / exp (ex z)) g) * 4 * PI * (c / INR n) / w).
  { intros E ex X. rewrite sum_over_Rsum.
    replace (Rsum (map (fun z => z ^ 2 / exp (ex z)) g) * 4 * PI * (c / INR n) / w)
      with (4 * PI * (c / INR n) / w * Rsum (map (fun z => z ^ 2 / exp (ex z)) g)) by (unfold Rdiv; ring).
    rewrite <- Rsum_scal. apply Rsum_ext. intros z _. rewrite X, div_exp. unfold Rdiv. ring. }
  unfold damaged_stress. fold g. cbv zeta.
  destruct Pm as [-> | ->]; injection I as <-; unfold response, hyperelastic_damage.uniaxial_tension in H;
    cbn [BucheSilberstein.element BucheSilberstein.factor BucheSilberstein.grid BucheSilberstein.method
         BucheSilberstein.normalization BucheSilberstein.nondimensional_critical_extension
         BucheSilberstein.nondimensional_link_stiffness BucheSilberstein.number_of_links
         BucheSilberstein.swelling_ratio] in H;
    (destruct (sle (sdec 1 0) s); [|discriminate]); apply stress_R in H; rewrite H; clear H.
  - rewrite (Den _ (hyperelastic_damage.nondimensional_relative_helmholtz_free_energy N k)) by reflexivity.
    rewrite ssum_R. reflexivity.
  - f_equal.
    + apply sum_over_ext. intro z. apply sum_over_ext. intro r.
      match goal with |- context [exponent_3 ?a ?b s z r] => replace (exponent_3 a b s z r)
        with (chain_energy 3 k N (Rpower w (1 / 3)) (reference_length s z r)); [reflexivity|] end.
      unfold chain_energy, reference_length. cbn [Z.eqb Pos.eqb].
      change (3 / 2 * IZR N * k * (k + 1) / (k ^ 2 + 6 * k + 3) * sqrt ((z / s) ^ 2 + s * r ^ 2) ^ 2 / Rpower w (1 / 3) ^ 2
        = 15 / 10 * IZR N * k * (k + 1) / (k ^ 2 + 6 * k + 3) * ((z / s) ^ 2 + s * r ^ 2) / Rpowf w (1 / 3) ^ 2).
      rewrite pow2_sqrt by apply Q. unfold Rpowf. destruct (Rlt_dec 0 w); [|contradiction].
      replace (3 / 2) with (15 / 10) by field. reflexivity.
    + rewrite (Den _ (fun z => gaussian_factor k N * z ^ 2)) by (intro; apply gaussian_energy).
      rewrite ssum_R. reflexivity.
Qed.

Lemma stress_history : forall n me c k N w o l h os i s m sigma p, 0 < w ->
  BucheSilberstein.init n me c k N w = Some o -> BucheSilberstein.uniaxial_tension o l h = Some os ->
  nth_error h i = Some s -> is_running_maximum (firstn (S i) h) m ->
  nth_error os i = Some (sigma, p) -> sigma = damaged_stress n me c k N w s m.
Proof.
  intros n me c k N w o l h os i s m sigma p Hw I H Hi Hmax Ho.
  apply history_outputs in H. destruct H as [_ H]. destruct (H i _ Ho) as (s' & m' & E & M & R).
  rewrite Hi in E. injection E as <-. rewrite (running_maximum_unique _ _ _ M Hmax) in R.
  exact (response_stress n me c k N w o s m sigma p Hw I R).
Qed.
