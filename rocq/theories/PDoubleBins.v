(** Doubles: the distributions of the four samplers are never negative, and a
    stream for which the EFRC sampler returns NaN. *)
From Coq Require Import Reals ZArith List Lra Lia Floats.
From Flocq Require Import Core BinarySingleNaN PrimFloat.
From Verif Require Import Scalar F64 MMonteCarlo SpecDouble SpecHistory SpecSampler PFloatNan PDouble PDoubleFjc PDoubleQuad PDoubleContour PDoubleQuad PDoubleSign PDoubleUnsigned PDoubleFrc.
From Coq Require Import Floats.
Import ListNotations.
Open Scope R_scope.

Local Existing Instance Hprec.
Local Existing Instance Hmax.

(** x - y for x not below y, whatever the sign of y. *)
Lemma unsigned_sub' : forall x y, finite x -> finite y -> unsigned x -> value y <= value x -> unsigned (x - y)%float.
Proof.
  intros x y. rewrite !finite_B, !unsigned_B, !value_B2R, sub_equiv. intros Fx Fy Hx V.
  assert (Sx : Bsign (Prim2B x) = false) by (destruct Hx as [Hx|Hx]; [destruct (Prim2B x); discriminate | exact Hx]).
  pose proof (Bminus_correct FloatOps.prec emax Hprec Hmax mode_NE (Prim2B x) (Prim2B y) Fx Fy) as C.
  destruct (Rlt_bool _ _).
  - destruct C as (_ & _ & C). right. rewrite C, Sx. destruct (Rcompare_spec (B2R (Prim2B x) - B2R (Prim2B y)) 0); try reflexivity. lra.
  - destruct C as [C _]. rewrite Sx in C. apply up_overflow. exact C.
Qed.

Lemma unsigned_sqrt : forall x, unsigned x -> unsigned (PrimFloat.sqrt x).
Proof.
  intros x. rewrite !unsigned_B, sqrt_equiv. intros Hx.
  destruct (Bsqrt_correct FloatOps.prec emax Hprec Hmax mode_NE (Prim2B x)) as (_ & _ & C). unfold up.
  destruct (BinarySingleNaN.is_nan (Bsqrt mode_NE (Prim2B x))) eqn:E; [left; reflexivity|]. right. rewrite C by reflexivity.
  destruct Hx as [Hx|Hx]; [|exact Hx]. destruct (Prim2B x); try discriminate Hx. reflexivity.
Qed.

Lemma unsigned_nat : forall n, (Z.of_nat n <= 2 ^ 53)%Z -> unsigned (float_of_Z (Z.of_nat n)).
Proof.
  intros [|n] H; [vm_compute; reflexivity|]. apply integer_unsigned. lia.
Qed.

Section Bins.
Variable L : libm.
Local Instance S : Scalar float := F64 L.
Context {G : Type}.

Definition within (m : Z) (c : Z) : Prop := (0 <= c <= m)%Z.

Lemma count_within : forall limit x edges counts counts' m, List.Forall (within m) counts ->
  @monte_carlo.count_sample float S limit x edges counts = Some counts' -> List.Forall (within (m + 1)) counts'.
Proof.
  intros limit x edges. induction edges as [|e edges IH]; intros counts counts' m H E.
  - destruct counts; cbn in E; inversion E; subst; eapply Forall_impl; try exact H; unfold within; intros; lia.
  - destruct counts as [|c counts]; cbn [monte_carlo.count_sample] in E.
    + inversion E; constructor.
    + destruct (match limit with Some _ => _ | None => _ end); [discriminate E|].
      inversion H as [|? ? Hc Hr]; subst. destruct (slt x e).
      * inversion E; subst. constructor; [unfold within in *; lia|]. eapply Forall_impl; [|exact Hr]. unfold within; intros; lia.
      * destruct (monte_carlo.count_sample limit x edges counts) as [r|] eqn:R; [|discriminate E]. cbn [bind] in E. inversion E; subst.
        constructor; [unfold within in *; lia|]. eapply IH; eassumption.
Qed.

Lemma counts_within : forall limit (draw : G -> option (float * G)) N edges n counts counts' g m, List.Forall (within m) counts ->
  @monte_carlo.count_samples float S G limit draw N edges n counts g = Some counts' -> List.Forall (within (m + Z.of_nat n)) counts'.
Proof.
  intros limit draw N edges n. induction n as [|n IH]; intros counts counts' g m H E.
  - cbn in E. inversion E; subst. rewrite Z.add_0_r. exact H.
  - cbn [monte_carlo.count_samples] in E. destruct (draw g) as [r|]; [|discriminate E]. cbn [bind] in E.
    destruct (monte_carlo.count_sample limit (fst r / N)%S edges counts) as [c|] eqn:C; [|discriminate E]. cbn [bind] in E.
    replace (m + Z.of_nat (Datatypes.S n))%Z with (m + 1 + Z.of_nat n)%Z by lia. eapply IH; [|exact E]. eapply count_within; eassumption.
Qed.

Lemma all_counts : forall limit (draw : G -> option (float * G)) N edges nb n counts g, (Z.of_nat n <= 2 ^ 53)%Z ->
  @monte_carlo.count_samples float S G limit draw N edges n (repeat 0%Z nb) g = Some counts ->
  forall c, In c counts -> unsigned (float_of_Z c).
Proof.
  intros limit draw N edges nb n counts g Hn E c Hc.
  assert (Z0 : List.Forall (within 0) (repeat 0%Z nb)) by (apply Forall_forall; intros x Hx; apply repeat_spec in Hx; subst x; unfold within; lia).
  pose proof (counts_within _ _ _ _ _ _ _ _ _ Z0 E) as F. rewrite Forall_forall in F. specialize (F c Hc). unfold within in F.
  rewrite <- (Z2Nat.id c) by lia. apply unsigned_nat. lia.
Qed.

Lemma index_unsigned : forall nb i k, (Z.of_nat nb <= 2 ^ 53)%Z -> In i (monte_carlo.indices nb) -> unsigned k -> unsigned (float_of_Z i + k)%float.
Proof.
  intros nb i k Hb Hi Hk. unfold monte_carlo.indices in Hi. apply in_map_iff in Hi. destruct Hi as (j & <- & Hj). apply in_seq in Hj.
  apply unsigned_add; [apply unsigned_nat; lia | exact Hk].
Qed.

Definition nonneg (l : list float) : Prop := forall x, In x l -> PrimFloat.ltb x 0 = false.

Lemma scaled_unsigned : forall gm (draw : G -> option (float * G)) nb nl n g xs ds, unsigned gm -> (Z.of_nat nb <= 2 ^ 53)%Z -> (Z.of_nat n <= 2 ^ 53)%Z ->
  @scaled_bins.histogram float S G gm draw nb nl n g = Some (xs, ds) -> nonneg xs /\ nonneg ds.
Proof.
  intros gm draw nb nl n g xs ds Hg Hb Hn E. unfold scaled_bins.histogram in E.
  destruct (monte_carlo.count_samples _ _ _ _ _ _ _) as [counts|] eqn:C in E; [|discriminate E]. cbn [bind] in E.
  pose proof (all_counts _ _ _ _ _ _ _ _ Hn C) as U. injection E as <- <-. split; intros x Hx; apply in_map_iff in Hx; destruct Hx as (c & <- & Hc); apply unsigned_lt.
  - apply unsigned_div; [apply unsigned_mul; [exact Hg|] | apply unsigned_nat, Hb]. apply (index_unsigned nb); [exact Hb | exact Hc | vm_compute; reflexivity].
  - apply unsigned_div; [exact (U c Hc)|]. apply unsigned_div; [apply unsigned_mul; [exact Hg|]|]; apply unsigned_nat; assumption.
Qed.

Variable gen : G -> float * G.
Variable sample : float -> float -> G -> float * G.

Lemma fjc_nonneg : forall nb nl n g xs ds, (Z.of_nat nb <= 2 ^ 53)%Z -> (Z.of_nat n <= 2 ^ 53)%Z ->
  fjc_monte_carlo.nondimensional_equilibrium_radial_distribution gen nb nl n g = Some (xs, ds) -> nonneg xs /\ nonneg ds.
Proof.
  intros nb nl n g xs ds Hb Hn E. unfold fjc_monte_carlo.nondimensional_equilibrium_radial_distribution in E.
  destruct (monte_carlo.count_samples _ _ _ _ _ _ _) as [counts|] eqn:C in E; [|discriminate E]. cbn [bind] in E.
  pose proof (all_counts _ _ _ _ _ _ _ _ Hn C) as U. injection E as <- <-. split; intros x Hx; apply in_map_iff in Hx; destruct Hx as (c & <- & Hc); apply unsigned_lt.
  - apply unsigned_div; [|apply unsigned_nat, Hb]. apply (index_unsigned nb); [exact Hb | exact Hc | vm_compute; reflexivity].
  - apply unsigned_div; [exact (U c Hc)|]. apply unsigned_div; apply unsigned_nat; assumption.
Qed.

Lemma efjc_nonneg : forall nb nl gm k n g xs ds, unsigned gm -> (Z.of_nat nb <= 2 ^ 53)%Z -> (Z.of_nat n <= 2 ^ 53)%Z ->
  efjc_monte_carlo.nondimensional_equilibrium_radial_distribution gen sample nb nl gm k n g = Some (xs, ds) -> nonneg xs /\ nonneg ds.
Proof.
  intros nb nl gm k n g xs ds Hg Hb Hn E. unfold efjc_monte_carlo.nondimensional_equilibrium_radial_distribution in E.
  destruct (slt _ k); [|discriminate E]. cbv zeta in E. exact (scaled_unsigned _ _ _ _ _ _ _ _ Hg Hb Hn E).
Qed.

Lemma efrc_nonneg : forall nb nl gm k th n g xs ds, unsigned gm -> (Z.of_nat nb <= 2 ^ 53)%Z -> (Z.of_nat n <= 2 ^ 53)%Z ->
  efrc_monte_carlo.nondimensional_equilibrium_radial_distribution gen sample nb nl gm k th n g = Some (xs, ds) -> nonneg xs /\ nonneg ds.
Proof.
  intros nb nl gm k th n g xs ds Hg Hb Hn E. unfold efrc_monte_carlo.nondimensional_equilibrium_radial_distribution in E.
  destruct (slt _ k); [|discriminate E]. cbv zeta in E. exact (scaled_unsigned _ _ _ _ _ _ _ _ Hg Hb Hn E).
Qed.

Lemma two_value : finite (float_dec 2 0) /\ value (float_dec 2 0) = 2.
Proof.
  assert (E : float_dec 2 0 = float_of_Z 2) by (vm_compute; reflexivity). rewrite E. exact (float_of_Z_exact 2 ltac:(lia)).
Qed.

Lemma largest_unsigned : forall th, let c := l_cos L (l_pi L - th)%float in c = nan \/ finite c /\ Rabs (value c) <= 1 ->
  unsigned (@frc_monte_carlo.gamma_max float S th).
Proof.
  intros th c H. unfold frc_monte_carlo.gamma_max. apply unsigned_div; [|vm_compute; reflexivity]. apply unsigned_sqrt.
  change (unsigned (float_dec 2 0 - float_dec 2 0 * c)%float). destruct two_value as [F2 V2].
  destruct H as [-> | [F B]]; [rewrite nan_mul_r, nan_sub_r; vm_compute; exact I|].
  assert (B2 : -2 <= 2 * value c <= 2) by (revert B; unfold Rabs; destruct (Rcase_abs (value c)); lra).
  assert (P9 : 2 <= bpow radix2 1023) by (change 2 with (bpow radix2 1); apply bpow_le; lia).
  destruct (mul_raw (float_dec 2 0) c F2 F) as [F3 V3].
  { rewrite V2. apply Rabs_le. lra. }
  apply unsigned_sub'; [exact F2 | exact F3 | vm_compute; reflexivity|]. rewrite V3, V2.
  assert (R2 : rnd 2 = 2) by (rewrite <- V2; apply rnd_value). rewrite <- R2 at 2. apply rnd_mono. lra.
Qed.

Lemma frc_nonneg : forall nb nl th n g xs ds, (forall x, l_cos L x = nan \/ finite (l_cos L x) /\ Rabs (value (l_cos L x)) <= 1) ->
  (Z.of_nat nb <= 2 ^ 53)%Z -> (Z.of_nat n <= 2 ^ 53)%Z ->
  frc_monte_carlo.nondimensional_equilibrium_radial_distribution gen nb nl th n g = Some (xs, ds) -> nonneg xs /\ nonneg ds.
Proof.
  intros nb nl th n g xs ds Hc Hb Hn E. exact (scaled_unsigned _ _ _ _ _ _ _ _ (largest_unsigned th (Hc _)) Hb Hn E).
Qed.
End Bins.

Section Efrc.
Variable L : libm.
Local Instance S' : Scalar float := F64 L.
Open Scope float_scope.
Variable sample : float -> float -> unit -> float * unit.
Variable dist : unit -> float * unit.

Lemma erotate_nan : forall k a b c d r v, efrc_monte_carlo.rotate k a b c d r nan3 v = nan3.
Proof. intros k a b c d [[r0 r1] r2] [[v0 v1] v2]. unfold efrc_monte_carlo.rotate, nan3. cbn [sadd smul S' F64]. rewrite !nan_mul_l, !nan_add_l, !nan_mul_l, !nan_add_l, !nan_mul_r. reflexivity. Qed.

Lemma unit_any : forall g : unit, g = tt.
Proof. intros []. reflexivity. Qed.

Lemma efirst_link : forall theta, efrc_monte_carlo.random_link zeros theta dist (float_dec 1 0, float_dec 0 0, float_dec 0 0) tt = (nan3, tt).
Proof.
  intro theta. unfold efrc_monte_carlo.random_link, zeros. destruct (dist tt) as [k g]. rewrite (unit_any g). cbv zeta.
  set (rn := monte_carlo.div3 (float_dec 1 0, float_dec 0 0, float_dec 0 0) (monte_carlo.norm3 (float_dec 1 0, float_dec 0 0, float_dec 0 0))).
  replace (monte_carlo.div3 (frc_monte_carlo.cross rn (0, 0, 0)) (monte_carlo.norm3 (frc_monte_carlo.cross rn (0, 0, 0)))) with nan3 by (vm_compute; reflexivity).
  rewrite erotate_nan. reflexivity.
Qed.
Lemma enext_link : forall theta, efrc_monte_carlo.random_link zeros theta dist nan3 tt = (nan3, tt).
Proof.
  intro theta. unfold efrc_monte_carlo.random_link, zeros. destruct (dist tt) as [k g]. rewrite (unit_any g). cbv zeta.
  rewrite (div_nan L), !(cross_nan L), (div_nan L), erotate_nan. reflexivity.
Qed.

Lemma ewalk_nan : forall theta n r p, efrc_monte_carlo.random_link zeros theta dist r tt = (nan3, tt) ->
  efrc_monte_carlo.walk zeros theta dist n r p tt = (repeat nan3 n, tt).
Proof.
  intros theta n. induction n as [|n IH]; intros r p H; [reflexivity|]. cbn [efrc_monte_carlo.walk]. rewrite H. cbv zeta. rewrite (add_nan L), IH by apply enext_link. reflexivity.
Qed.

Lemma efrc_nan : forall theta n, (0 < n)%nat ->
  efrc_monte_carlo.random_nondimensional_end_to_end_length zeros n theta dist tt = Some (nan, tt).
Proof.
  intros theta n H. unfold efrc_monte_carlo.random_nondimensional_end_to_end_length, efrc_monte_carlo.random_configuration.
  rewrite ewalk_nan by apply efirst_link. destruct n as [|n]; [lia|]. unfold monte_carlo.end_to_end_length.
  rewrite nth_error_repeat by lia. cbn -[monte_carlo.norm3 nan3]. change (@monte_carlo.norm3 float S' nan3) with (@monte_carlo.norm3 float (PDoubleFrc.S L) nan3). rewrite (norm_nan L). reflexivity.
Qed.
End Efrc.

Lemma efrc_empty : forall (L : libm) sample theta gm k nb nl n, (0 < nl)%nat -> PrimFloat.ltb 0 k = true -> exists centres densities,
  @efrc_monte_carlo.nondimensional_equilibrium_radial_distribution float (F64 L) unit zeros sample nb nl gm k theta n tt = Some (centres, densities) /\
  length densities = nb /\ forall x, In x densities -> value x = 0%R.
Proof.
  intros L sample theta gm k nb nl n H K. unfold efrc_monte_carlo.nondimensional_equilibrium_radial_distribution.
  change (slt (sdec 0 0) k) with (PrimFloat.ltb (float_dec 0 0) k). replace (float_dec 0 0) with 0%float by (vm_compute; reflexivity). rewrite K. cbv zeta.
  unfold scaled_bins.histogram.
  rewrite (counts_nan L) by (intros []; apply (efrc_nan L), H). eexists. eexists. split; [reflexivity|]. split; [rewrite map_length, repeat_length; reflexivity|].
  intros x Hx. apply in_map_iff in Hx. destruct Hx as (c & <- & Hc). apply repeat_spec in Hc. subst c. apply value_zero_div.
Qed.

Lemma efrc_on_zeros : forall (L : libm) (dist : unit -> float * unit) theta n, (0 < n)%nat ->
  (forall g, fst (zeros g) = 0%float) /\ @efrc_monte_carlo.random_nondimensional_end_to_end_length float (F64 L) unit zeros n theta dist tt = Some (nan, tt).
Proof. intros L dist theta n H. split; [reflexivity | apply efrc_nan, H]. Qed.

(** A library in which every cosine is one half. *)
Definition half_libm : libm := {|
  l_powf := fun x _ => x; l_exp := fun _ => one; l_ln := fun x => x; l_log10 := fun x => x;
  l_sinh := fun x => x; l_cosh := fun _ => one; l_tanh := fun x => x;
  l_sin := fun x => x; l_cos := fun _ => 0.5%float; l_acos := fun x => x; l_atanh := fun x => x;
  l_ceil := fun x => x; l_pi := 3.5%float; l_cast := fun _ _ => 0%Z |}.
Lemma half_cosine : forall x, l_cos half_libm x = nan \/ finite (l_cos half_libm x) /\ Rabs (value (l_cos half_libm x)) <= 1.
Proof.
  intro x. right. change (l_cos half_libm x) with 0.5%float. split; [vm_compute; exact I|].
  unfold value. replace (Prim2SF 0.5%float) with (S754_finite false 4503599627370496 (-53)) by (vm_compute; reflexivity).
  match goal with |- Rabs ?v <= 1 => assert (E : v = / 2) by (change (1 * (4503599627370496 * / 2 ^ 53) = / 2); lra); rewrite E end. rewrite Rabs_pos_eq; lra.
Qed.
