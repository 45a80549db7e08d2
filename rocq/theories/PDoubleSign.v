(** The fraction of intact chains is never negative in double precision. *)
From Coq Require Import Reals ZArith List Lra Lia Floats Psatz.
From Flocq Require Import Core Relative Plus_error BinarySingleNaN PrimFloat.
From Verif Require Import Scalar F64 MConst MConstitutive SpecDamage SpecDouble SpecHistory PDouble PDoubleFjc PDoubleQuad PDoubleContour PDoubleLibm PDamage PDoubleDamage.
From Coq Require Import Floats.
Import ListNotations.
Open Scope R_scope.

Local Existing Instance Hprec.
Local Existing Instance Hmax.
Local Notation bin := (binary_float FloatOps.prec emax).
Definition up (x : bin) : Prop := BinarySingleNaN.is_nan x = true \/ Bsign x = false.

Lemma unsigned_B : forall x, unsigned x <-> up (Prim2B x).
Proof.
  intro x. unfold unsigned, up. rewrite <- B2SF_Prim2B. destruct (Prim2B x) as [s|s| |s m e H]; cbn; intuition; discriminate.
Qed.

Lemma up_overflow : forall z : bin, B2SF z = binary_overflow FloatOps.prec emax mode_NE false -> up z.
Proof. intros [s|s| |s m e H] E; try discriminate E; cbn in E; inversion E; right; reflexivity. Qed.

Lemma unsigned_mul_sign : forall x y, up (Prim2B x) -> up (Prim2B y) -> up (Bmult mode_NE (Prim2B x) (Prim2B y)).
Proof.
  intros x y Hx Hy. destruct Hx as [Hx | Hx].
  { left. destruct (Prim2B x); try discriminate Hx. reflexivity. }
  destruct Hy as [Hy | Hy].
  { left. destruct (Prim2B y); try discriminate Hy. destruct (Prim2B x); reflexivity. }
  pose proof (Bmult_correct FloatOps.prec emax Hprec Hmax mode_NE (Prim2B x) (Prim2B y)) as C.
  destruct (Rlt_bool _ _).
  - destruct C as (_ & _ & C). destruct (BinarySingleNaN.is_nan (Bmult mode_NE (Prim2B x) (Prim2B y))) eqn:E; [left; exact E|].
    right. rewrite (C eq_refl), Hx, Hy. reflexivity.
  - rewrite Hx, Hy in C. apply up_overflow. exact C.
Qed.

Lemma unsigned_mul : forall x y, unsigned x -> unsigned y -> unsigned (x * y)%float.
Proof. intros x y. rewrite !unsigned_B, mul_equiv. apply unsigned_mul_sign. Qed.

Lemma unsigned_square : forall x, unsigned (x * x)%float.
Proof.
  intro x. rewrite unsigned_B, mul_equiv.
  pose proof (Bmult_correct FloatOps.prec emax Hprec Hmax mode_NE (Prim2B x) (Prim2B x)) as C. rewrite Bool.xorb_nilpotent in C.
  destruct (Rlt_bool _ _).
  - destruct C as (_ & _ & C). destruct (BinarySingleNaN.is_nan (Bmult mode_NE (Prim2B x) (Prim2B x))) eqn:E; [left; exact E|].
    right. exact (C eq_refl).
  - apply up_overflow. exact C.
Qed.

Lemma unsigned_div : forall x y, unsigned x -> unsigned y -> unsigned (x / y)%float.
Proof.
  intros x y. rewrite !unsigned_B, div_equiv. intros Hx Hy.
  destruct Hx as [Hx | Hx].
  { left. destruct (Prim2B x); try discriminate Hx. reflexivity. }
  destruct Hy as [Hy | Hy].
  { left. destruct (Prim2B y); try discriminate Hy. destruct (Prim2B x); reflexivity. }
  destruct (Prim2B y) as [s|s| |s m e H] eqn:Ey; cbn in Hy; try subst s.
  - destruct (Prim2B x) as [s'|s'| |s' m' e' H']; cbn in Hx |- *; try subst s'; first [left; reflexivity | right; reflexivity].
  - destruct (Prim2B x) as [s'|s'| |s' m' e' H']; cbn in Hx |- *; try subst s'; first [left; reflexivity | right; reflexivity].
  - destruct (Prim2B x); left; reflexivity.
  - rewrite <- Ey. assert (Nz : B2R (Prim2B y) <> 0).
    { rewrite Ey. apply Rgt_not_eq. apply F2R_gt_0. reflexivity. }
    pose proof (Bdiv_correct FloatOps.prec emax Hprec Hmax mode_NE (Prim2B x) (Prim2B y) Nz) as C.
    assert (Sy : Bsign (Prim2B y) = false) by (rewrite Ey; reflexivity).
    destruct (Rlt_bool _ _).
    + destruct C as (_ & _ & C). destruct (BinarySingleNaN.is_nan (Bdiv mode_NE (Prim2B x) (Prim2B y))) eqn:E; [left; exact E|].
      right. rewrite (C eq_refl), Hx, Sy. reflexivity.
    + rewrite Hx, Sy in C. apply up_overflow. exact C.
Qed.

Lemma up_value : forall z : bin, BinarySingleNaN.is_finite z = true -> Bsign z = false -> 0 <= B2R z.
Proof.
  intros [s|s| |s m e H] F E; try discriminate F; [apply Rle_refl|]. cbn in E. subst s. apply Rlt_le. apply F2R_gt_0. reflexivity.
Qed.

Lemma unsigned_add : forall x y, unsigned x -> unsigned y -> unsigned (x + y)%float.
Proof.
  intros x y. rewrite !unsigned_B, add_equiv. intros Hx Hy.
  destruct Hx as [Hx | Hx].
  { left. destruct (Prim2B x); try discriminate Hx. reflexivity. }
  destruct Hy as [Hy | Hy].
  { left. destruct (Prim2B y); try discriminate Hy. destruct (Prim2B x); reflexivity. }
  destruct (BinarySingleNaN.is_finite (Prim2B x)) eqn:Fx; [destruct (BinarySingleNaN.is_finite (Prim2B y)) eqn:Fy|].
  - pose proof (Bplus_correct FloatOps.prec emax Hprec Hmax mode_NE (Prim2B x) (Prim2B y) Fx Fy) as C.
    pose proof (up_value _ Fx Hx) as Vx. pose proof (up_value _ Fy Hy) as Vy.
    destruct (Rlt_bool _ _).
    + destruct C as (_ & _ & C). right. rewrite C, Hx, Hy. destruct (Rcompare_spec (B2R (Prim2B x) + B2R (Prim2B y)) 0); try reflexivity. lra.
    + destruct C as [C _]. rewrite Hx in C. apply up_overflow. exact C.
  - destruct (Prim2B y) as [s|s| |s m e H]; try discriminate Fy; cbn in Hy; [subst s | left; destruct (Prim2B x); reflexivity].
    destruct (Prim2B x) as [s'|s'| |s' m' e' H']; try discriminate Fx; right; reflexivity.
  - destruct (Prim2B x) as [s|s| |s m e H]; try discriminate Fx; cbn in Hx; [subst s | left; reflexivity].
    destruct (Prim2B y) as [s'|s'| |s' m' e' H']; cbn in Hy; try subst s'; first [left; reflexivity | right; reflexivity].
Qed.

Lemma unsigned_sub : forall x y, finite x -> finite y -> unsigned x -> unsigned y -> value y <= value x -> unsigned (x - y)%float.
Proof.
  intros x y. rewrite !finite_B, !unsigned_B, !value_B2R, sub_equiv. intros Fx Fy Hx Hy V.
  assert (Sx : Bsign (Prim2B x) = false) by (destruct Hx as [Hx|Hx]; [destruct (Prim2B x); discriminate | exact Hx]).
  pose proof (Bminus_correct FloatOps.prec emax Hprec Hmax mode_NE (Prim2B x) (Prim2B y) Fx Fy) as C.
  destruct (Rlt_bool _ _).
  - destruct C as (_ & _ & C). right. rewrite C, Sx. destruct (Rcompare_spec (B2R (Prim2B x) - B2R (Prim2B y)) 0); try reflexivity. lra.
  - destruct C as [C _]. rewrite Sx in C. apply up_overflow. exact C.
Qed.

Lemma unsigned_finite : forall x, finite x -> 0 < value x -> unsigned x.
Proof.
  intros x F. rewrite unsigned_B, value_B2R. rewrite finite_B in F. intro V. destruct (Prim2B x) as [s|s| |s m e H]; try discriminate F.
  - cbn in V. lra.
  - destruct s; [|right; reflexivity]. exfalso. apply (Rlt_irrefl 0). apply Rlt_trans with (1 := V). apply F2R_lt_0. reflexivity.
Qed.

Lemma unsigned_lt : forall x, unsigned x -> PrimFloat.ltb x 0 = false.
Proof.
  intros x H. rewrite ltb_spec. unfold unsigned in H. change (Prim2SF 0) with (S754_zero false). destruct (Prim2SF x) as [s|s| |s m e]; try reflexivity; subst s; reflexivity.
Qed.

Lemma unsigned_sum : forall l, List.Forall unsigned l -> forall acc, unsigned acc -> unsigned (fold_left PrimFloat.add l acc).
Proof. induction 1 as [|x l Hx _ IH]; intros acc Ha; [exact Ha|]. cbn. apply IH, unsigned_add; assumption. Qed.

Section Lib.
Variable L : libm.
Local Instance S : Scalar float := F64 L.
Hypothesis Ex : forall x, unsigned (l_exp L x).
Hypothesis Pi : unsigned (l_pi L).

Lemma unsigned_ssum : forall l, List.Forall unsigned l -> unsigned (@ssum float S l).
Proof.
  intros l H. unfold ssum. change (@sofZ float S 0) with (float_of_Z 0). rewrite float_of_Z_0. apply unsigned_sum; [exact H|]. vm_compute. reflexivity.
Qed.

Lemma unsigned_four : unsigned (@sdec float S 4 0).
Proof. vm_compute. reflexivity. Qed.

Section Grid.
Variables (n : nat) (c : float).
Hypothesis Hn : (Z.of_nat n <= 2 ^ 53)%Z.
Hypothesis Fc : finite c.
Hypothesis Vc : 0 < value c <= powerRZ 2 900.


Lemma unsigned_integer : forall z, (0 < z <= 2 ^ 53)%Z -> unsigned (float_of_Z z).
Proof.
  intros z Hz. destruct (float_of_Z_exact z) as [F V]; [lia|]. apply unsigned_finite; [exact F|]. rewrite V. apply IZR_lt. lia.
Qed.

Lemma unsigned_c : unsigned c.
Proof. apply unsigned_finite; [exact Fc | lra]. Qed.

Lemma grid_unsigned : List.Forall unsigned (@hyperelastic_damage.init_grid float S n c).
Proof.
  apply Forall_forall. intros x Hx. unfold hyperelastic_damage.init_grid in Hx. apply in_map_iff in Hx. destruct Hx as (i & <- & Hi). apply in_seq in Hi.
  apply unsigned_div; [apply unsigned_mul; [exact unsigned_c|]|]; apply unsigned_integer; lia.
Qed.

Lemma grid_value : forall i, (0 <= i <= 1)%Z -> (1 <= Z.of_nat n)%Z ->
  let g := (c * float_of_Z (i + 1) / float_of_Z (Z.of_nat n))%float in
  finite g /\ value g = rnd (rnd (value c * IZR (i + 1)) / IZR (Z.of_nat n)).
Proof.
  intros i Hi Hn' g. rewrite pw in Vc. destruct (float_of_Z_exact (i + 1)) as [F1 V1]; [lia|]. destruct (float_of_Z_exact (Z.of_nat n)) as [F2 V2]; [lia|].
  assert (I1 : 1 <= IZR (i + 1) <= 2) by (split; apply IZR_le; lia). assert (N1 : 1 <= IZR (Z.of_nat n)) by (apply IZR_le; lia).
  assert (B1 : 0 <= value c * IZR (i + 1) <= bpow radix2 901).
  { replace (bpow radix2 901) with (bpow radix2 900 * 2) by (change 901%Z with (900 + 1)%Z; rewrite bpow_S; ring). split; [apply Rmult_le_pos; lra|]. apply Rmult_le_compat; lra. }
  destruct (mul_raw c _ Fc F1) as [F3 V3]; [rewrite V1, Rabs_pos_eq by lra; apply Rle_trans with (1 := proj2 B1); apply bpow_le; lia|].
  rewrite V1 in V3.
  assert (B2 : 0 <= rnd (value c * IZR (i + 1)) <= bpow radix2 901).
  { split; [rewrite <- rnd_0; apply rnd_mono; lra|]. apply round_le_generic; [apply fexp_correct; reflexivity | apply valid_rnd_N | apply generic_format_bpow; cbn; lia | lra]. }
  destruct (div_raw _ (float_of_Z (Z.of_nat n)) F3) as [F4 V4].
  { rewrite V2. lra. }
  { rewrite V2, V3. assert (0 < / IZR (Z.of_nat n) <= 1) by (split; [apply Rinv_0_lt_compat; lra | apply Rle_trans with (/ 1); [apply Rinv_le; lra | lra]]).
    unfold Rdiv. rewrite Rabs_pos_eq by (apply Rmult_le_pos; lra). apply Rle_trans with (bpow radix2 901 * 1); [apply Rmult_le_compat; lra|]. rewrite Rmult_1_r. apply bpow_le. lia. }
  split; [exact F4|]. unfold g. rewrite V4, V3, V2. reflexivity.
Qed.

Lemma step_unsigned : forall dz, @hyperelastic_damage.grid_step float S (hyperelastic_damage.init_grid n c) = Some dz -> unsigned dz.
Proof.
  intros dz H. pose proof grid_unsigned as G. pose proof (grid_value 0) as P0. pose proof (grid_value 1) as P1. unfold hyperelastic_damage.grid_step, hyperelastic_damage.init_grid in *.
  destruct n as [|[|k]]; try discriminate H. cbn [seq map nth_error bind] in H. inversion H as [E]. clear H E.
  cbn [seq map] in G. inversion G as [|? ? G0 G']. inversion G' as [|? ? G1 G'']. subst. clear G G' G''.
  destruct P0 as [F0 V0]; [lia | lia |]. destruct P1 as [F1 V1]; [lia | lia |].
  apply unsigned_sub; [exact F1 | exact F0 | exact G1 | exact G0 |].
  change (value (c * float_of_Z (0 + 1) / float_of_Z (Z.of_nat (Datatypes.S (Datatypes.S k))))%float <= value (c * float_of_Z (1 + 1) / float_of_Z (Z.of_nat (Datatypes.S (Datatypes.S k))))%float).
  rewrite V0, V1. apply rnd_mono. assert (N0 : 0 < IZR (Z.of_nat (Datatypes.S (Datatypes.S k)))) by (apply IZR_lt; lia).
  apply Rmult_le_compat_r; [left; apply Rinv_0_lt_compat; exact N0|]. apply rnd_mono. apply Rmult_le_compat_l; [lra|]. apply IZR_le. lia.
Qed.

Variable w : float.
Hypothesis Hw : unsigned w.

Lemma normalization_unsigned : forall (E : float -> float) dz, unsigned dz ->
  unsigned (@ssum float S (map (fun g => spowi g 2 / sexp (E g))%S (hyperelastic_damage.init_grid n c)) * sdec 4 0 * spi * dz / w)%S.
Proof.
  intros E dz Hd. apply unsigned_div; [|exact Hw]. apply unsigned_mul; [|exact Hd]. apply unsigned_mul; [|exact Pi]. apply unsigned_mul; [|exact unsigned_four].
  apply unsigned_ssum. apply Forall_forall. intros y Hy. apply in_map_iff in Hy. destruct Hy as (g & <- & _). apply unsigned_div; [exact (unsigned_square g) | apply Ex].
Qed.

Lemma fraction_unsigned : forall ex el nrm s m sg p, unsigned nrm ->
  @hyperelastic_damage.stress_and_probability float S ex el (hyperelastic_damage.init_grid n c) nrm c w s m = Some (sg, p) -> unsigned p.
Proof.
  intros ex el nrm s m sg p Hn' H. unfold hyperelastic_damage.stress_and_probability in H.
  destruct (hyperelastic_damage.grid_step (hyperelastic_damage.init_grid n c)) as [dz|] eqn:D; [|discriminate H]. cbn [bind] in H. inversion H as [[E1 E2]]. clear H E1 E2 sg p.
  apply unsigned_mul; [|exact (unsigned_square _)]. apply unsigned_mul; [|exact Pi]. apply unsigned_mul; [|exact unsigned_four]. apply unsigned_div; [|exact Hn'].
  apply unsigned_ssum. apply Forall_forall. intros y Hy. apply in_flat_map in Hy. destruct Hy as (z & _ & Hy). apply in_map_iff in Hy. destruct Hy as (r & <- & Hr).
  apply unsigned_mul; [apply unsigned_div; [|apply Ex]|].
  - pose proof grid_unsigned as G. rewrite Forall_forall in G. apply G. exact Hr.
  - unfold hyperelastic_damage.indicator. change (unsigned (float_of_Z (if hyperelastic_damage.survives c s m z r then 1 else 0)%Z)).
    destruct (hyperelastic_damage.survives c s m z r); vm_compute; reflexivity.
Qed.

Lemma network_unsigned : forall me k N (o : hyperelastic_damage.BucheSilberstein.t float) s m sg p,
  @hyperelastic_damage.BucheSilberstein.init float S n me c k N w = Some o -> @response float S o s m = Some (sg, p) -> unsigned p.
Proof.
  intros me k N o s m sg p I H.
  unfold hyperelastic_damage.BucheSilberstein.init, hyperelastic_damage.init in I.
  destruct (hyperelastic_damage.grid_step (hyperelastic_damage.init_grid n c)) as [dz|] eqn:D; [|discriminate I]. cbn [bind] in I. pose proof (step_unsigned dz D) as Hd.
  unfold response, hyperelastic_damage.uniaxial_tension in H. destruct (sle _ _) in H; [|discriminate H]. cbv zeta in H.
  assert (Inj : forall (A : Type) (a b : A), Some a = Some b -> a = b) by (intros A a b E; congruence).
  destruct me as [|[[|[]|]|[|[]|]|]|]; try discriminate I; cbn [bind] in I; apply Inj in I; subst o;
    cbn [hyperelastic_damage.BucheSilberstein.element hyperelastic_damage.BucheSilberstein.factor hyperelastic_damage.BucheSilberstein.grid hyperelastic_damage.BucheSilberstein.method hyperelastic_damage.BucheSilberstein.normalization hyperelastic_damage.BucheSilberstein.nondimensional_critical_extension hyperelastic_damage.BucheSilberstein.nondimensional_link_stiffness hyperelastic_damage.BucheSilberstein.number_of_links hyperelastic_damage.BucheSilberstein.swelling_ratio] in H;
    (eapply fraction_unsigned; [|exact H]); apply normalization_unsigned; exact Hd.
Qed.
End Grid.

Lemma history_unsigned : forall n me c k N w (o : hyperelastic_damage.BucheSilberstein.t float) l h os sg p,
  (Z.of_nat n <= 2 ^ 53)%Z -> finite c -> 0 < value c <= powerRZ 2 900 -> unsigned w ->
  @hyperelastic_damage.BucheSilberstein.init float S n me c k N w = Some o ->
  @hyperelastic_damage.BucheSilberstein.uniaxial_tension float S o l h = Some os -> In (sg, p) os -> PrimFloat.ltb p 0 = false.
Proof.
  intros n me c k N w o l h os sg p Hn Fc Vc Hw I H Hp. apply unsigned_lt. unfold hyperelastic_damage.BucheSilberstein.uniaxial_tension in H.
  revert h os H Hp. generalize (@sdec float S 1 0). induction l as [|l IH]; intros mx h os H Hp; cbn -[hyperelastic_damage.uniaxial_tension] in H.
  { inversion H; subst. destruct Hp. }
  destruct h as [|s h]; [discriminate H|].
  match type of H with context [if ?b then s else mx] => set (mx' := if b then s else mx) in H end. destruct (hyperelastic_damage.uniaxial_tension _ _ _ _ _ _ _ _ _ s mx') as [a|] eqn:A; [|discriminate H]. cbn [bind] in H.
  destruct (hyperelastic_damage.BucheSilberstein.history o l mx' h) as [os'|] eqn:B; [|discriminate H]. cbn [bind] in H. inversion H; subst os.
  destruct Hp as [-> | Hp]; [|exact (IH _ _ _ B Hp)]. exact (network_unsigned n c Hn Fc Vc w Hw me k N o s mx' sg p I A).
Qed.
End Lib.

(** The rounded library meets the hypotheses. *)
Lemma double_of_unsigned : forall r, 0 <= r -> unsigned (double_of r).
Proof.
  intros r Hr. rewrite unsigned_B. unfold double_of. cbv zeta. rewrite Prim2B_B2Prim. set (fexp := SpecFloat.fexp FloatOps.prec emax).
  set (m := ZnearestE (scaled_mantissa radix2 fexp r)). set (e := cexp radix2 fexp r).
  assert (E : F2R (Float radix2 m e) = rnd r) by reflexivity. assert (P : 0 <= rnd r) by (rewrite <- rnd_0; apply rnd_mono; exact Hr).
  pose proof (binary_normalize_correct FloatOps.prec emax Hprec Hmax mode_NE m e false) as C. cbv zeta in C. rewrite E in C.
  destruct (Rlt_bool (Rabs _) _).
  - destruct C as (_ & _ & C). right. rewrite C. destruct (Rcompare_spec (rnd r) 0); try reflexivity. lra.
  - rewrite Rlt_bool_false in C by exact P. apply up_overflow. exact C.
Qed.

Lemma rounded_unsigned : (forall x, unsigned (l_exp rounded_libm x)) /\ unsigned (l_pi rounded_libm).
Proof.
  split; [intro x|]; apply double_of_unsigned; left; [apply exp_pos | apply PI_RGT_0].
Qed.
