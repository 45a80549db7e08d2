(** A stream for which the FRC sampler returns NaN, and its histogram. *)
From Coq Require Import Reals ZArith List Lia Floats.
From Verif Require Import Scalar F64 MMonteCarlo SpecDouble SpecSampler PFloatNan.
Import ListNotations.
Open Scope float_scope.

(** A generator that always returns zero. *)
Definition zeros (g : unit) : float * unit := (0, g).

Section Sampler.
Variable L : libm.
Local Instance S : Scalar float := F64 L.

Definition nan3 : vec float := (nan, nan, nan).

Lemma cross_nan : forall t, frc_monte_carlo.cross nan3 t = nan3.
Proof. intros [[a b] c]. unfold frc_monte_carlo.cross, nan3. cbn [smul ssub S F64]. rewrite !nan_mul_l, !nan_sub_l. reflexivity. Qed.
Lemma cross_nan_r : forall t, frc_monte_carlo.cross t nan3 = nan3.
Proof. intros [[a b] c]. unfold frc_monte_carlo.cross, nan3. cbn [smul ssub S F64]. rewrite !nan_mul_r, !nan_sub_l. reflexivity. Qed.
Lemma div_nan : forall c, monte_carlo.div3 nan3 c = nan3.
Proof. intro c. unfold monte_carlo.div3, nan3. cbn [sdiv S F64]. rewrite !nan_div_l. reflexivity. Qed.
Lemma rotate_nan : forall a b c d r v, frc_monte_carlo.rotate a b c d r nan3 v = nan3.
Proof. intros a b c d [[r0 r1] r2] [[v0 v1] v2]. unfold frc_monte_carlo.rotate, nan3. cbn [sadd smul S F64]. rewrite !nan_mul_l, !nan_add_l, !nan_mul_l, !nan_add_l. reflexivity. Qed.
Lemma add_nan : forall p, monte_carlo.add3 p nan3 = nan3.
Proof. intros [[a b] c]. unfold monte_carlo.add3, nan3. cbn [sadd S F64]. rewrite !nan_add_r. reflexivity. Qed.

Lemma first_link : forall theta, frc_monte_carlo.random_link zeros theta (float_dec 1 0, float_dec 0 0, float_dec 0 0) tt = (nan3, tt).
Proof.
  intro theta. unfold frc_monte_carlo.random_link, zeros. cbv zeta.
  replace (monte_carlo.div3 (frc_monte_carlo.cross (float_dec 1 0, float_dec 0 0, float_dec 0 0) (0, 0, 0))
     (monte_carlo.norm3 (frc_monte_carlo.cross (float_dec 1 0, float_dec 0 0, float_dec 0 0) (0, 0, 0)))) with nan3 by (vm_compute; reflexivity).
  rewrite rotate_nan. reflexivity.
Qed.
Lemma next_link : forall theta, frc_monte_carlo.random_link zeros theta nan3 tt = (nan3, tt).
Proof. intro theta. unfold frc_monte_carlo.random_link, zeros. cbv zeta. rewrite !cross_nan, div_nan, rotate_nan. reflexivity. Qed.

Lemma walk_nan : forall theta n r p, frc_monte_carlo.random_link zeros theta r tt = (nan3, tt) ->
  frc_monte_carlo.walk zeros theta n r p tt = (repeat nan3 n, tt).
Proof.
  intros theta n. induction n as [|n IH]; intros r p H; [reflexivity|]. cbn [frc_monte_carlo.walk]. rewrite H. cbv zeta. rewrite add_nan, IH by apply next_link. reflexivity.
Qed.

Lemma norm_nan : monte_carlo.norm3 nan3 = nan.
Proof. vm_compute. reflexivity. Qed.

Lemma frc_nan : forall theta n, (0 < n)%nat ->
  frc_monte_carlo.random_nondimensional_end_to_end_length zeros n theta tt = Some (nan, tt).
Proof.
  intros theta n H. unfold frc_monte_carlo.random_nondimensional_end_to_end_length, frc_monte_carlo.random_configuration.
  rewrite walk_nan by apply first_link. destruct n as [|n]; [lia|]. unfold monte_carlo.end_to_end_length.
  rewrite nth_error_repeat by lia. cbn -[monte_carlo.norm3 nan3]. rewrite norm_nan. reflexivity.
Qed.

Lemma frc_on_zeros : forall theta n, (0 < n)%nat ->
  (forall g, fst (zeros g) = 0) /\ frc_monte_carlo.random_nondimensional_end_to_end_length zeros n theta tt = Some (nan, tt).
Proof. intros theta n H. split; [reflexivity | apply frc_nan, H]. Qed.

Lemma nan_lt_l : forall y, (nan <? y) = false.
Proof. intro y. rewrite ltb_spec, sf_nan. reflexivity. Qed.

Lemma count_nan : forall m edges counts, @monte_carlo.count_sample float S (Some m) nan edges counts = Some counts.
Proof.
  intros m edges. induction edges as [|e edges IH]; intros [|c counts]; try reflexivity.
  cbn [monte_carlo.count_sample slt S F64]. rewrite nan_lt, nan_lt_l, IH. reflexivity.
Qed.
Lemma counts_nan : forall m draw N edges n counts, (forall g : unit, draw g = Some (nan, tt)) ->
  @monte_carlo.count_samples float S unit (Some m) draw N edges n counts tt = Some counts.
Proof.
  intros m draw N edges n counts H. induction n as [|n IH]; [reflexivity|]. cbn [monte_carlo.count_samples]. rewrite H. cbn -[monte_carlo.count_sample monte_carlo.count_samples nan PrimFloat.div]. rewrite nan_div_l, count_nan. exact IH.
Qed.

Lemma value_zero_div : forall x, value (float_of_Z 0 / x) = 0%R.
Proof.
  intro x. unfold value. rewrite div_spec. replace (Prim2SF (float_of_Z 0)) with (S754_zero false) by (vm_compute; reflexivity).
  destruct (Prim2SF x); reflexivity.
Qed.

Lemma frc_empty : forall theta nb nl n, (0 < nl)%nat -> exists centres densities,
  frc_monte_carlo.nondimensional_equilibrium_radial_distribution zeros nb nl theta n tt = Some (centres, densities) /\
  length densities = nb /\ forall x, In x densities -> value x = 0%R.
Proof.
  intros theta nb nl n H. unfold frc_monte_carlo.nondimensional_equilibrium_radial_distribution, scaled_bins.histogram.
  rewrite counts_nan by (intros []; apply frc_nan, H). eexists. eexists. split; [reflexivity|]. split; [rewrite map_length, repeat_length; reflexivity|].
  intros x Hx. apply in_map_iff in Hx. destruct Hx as (c & <- & Hc). apply repeat_spec in Hc. subst c. apply value_zero_div.
Qed.
End Sampler.
