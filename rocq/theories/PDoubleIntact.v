(** More chains are intact when they break later, in double precision. *)
From Coq Require Import Reals ZArith List Lra Lia Floats Psatz.
From Flocq Require Import Core Relative Plus_error BinarySingleNaN PrimFloat.
From Verif Require Import Scalar F64 MConst MConstitutive SpecDouble SpecHistory PDouble PDoubleFjc PDoubleQuad PDoubleContour PDoubleMono PDoubleSign.
From Coq Require Import Floats.
Import ListNotations.
Open Scope R_scope.

Lemma unsigned_value : forall x, unsigned x -> 0 <= value x.
Proof.
  intros x. rewrite unsigned_B, value_B2R. intros [H | H]; destruct (Prim2B x) as [s|s| |s m e K]; try apply Rle_refl; [discriminate H|].
  apply up_value; [reflexivity | exact H].
Qed.

Lemma div_mono : forall x x' y, finite (x / y)%float -> finite (x' / y)%float -> unsigned y -> value x <= value x' -> value (x / y)%float <= value (x' / y)%float.
Proof.
  intros x x' y F F' U V. pose proof (unsigned_value y U) as P. rewrite !value_B2R in *. rewrite finite_B in *. rewrite unsigned_B in U. rewrite !div_equiv in *.
  destruct (Req_dec (B2R (Prim2B y)) 0) as [Z | Nz].
  - destruct (Prim2B y) as [s|s| |s m e H].
    + exfalso. destruct (Prim2B x); discriminate F.
    + right. destruct (Prim2B x); try discriminate F; destruct (Prim2B x'); try discriminate F'; reflexivity.
    + exfalso. destruct (Prim2B x); discriminate F.
    + exfalso. apply eq_0_F2R in Z. destruct s; discriminate Z.
  - pose proof (Bdiv_correct FloatOps.prec emax Hprec Hmax mode_NE (Prim2B x) (Prim2B y) Nz) as C.
    pose proof (Bdiv_correct FloatOps.prec emax Hprec Hmax mode_NE (Prim2B x') (Prim2B y) Nz) as C'.
    destruct (Rlt_bool _ _) in C; [|destruct (Bdiv mode_NE (Prim2B x) (Prim2B y)); discriminate].
    destruct (Rlt_bool _ _) in C'; [|destruct (Bdiv mode_NE (Prim2B x') (Prim2B y)); discriminate].
    destruct C as [C _], C' as [C' _]. rewrite C, C'. apply rnd_mono. apply Rmult_le_compat_r; [left; apply Rinv_0_lt_compat; lra | exact V].
Qed.

Lemma div_finite : forall x y, finite (x / y)%float -> finite x.
Proof.
  intros x y F. rewrite finite_B in *. rewrite div_equiv in F. destruct (Prim2B x) as [s|s| |s m e H]; try reflexivity; destruct (Prim2B y); discriminate F.
Qed.

Lemma mul_mono : forall x x' y, finite (x * y)%float -> finite (x' * y)%float -> unsigned y -> value x <= value x' -> value (x * y)%float <= value (x' * y)%float.
Proof.
  intros x x' y F F' U V. destruct (mul_back _ _ F) as (_ & _ & E), (mul_back _ _ F') as (_ & _ & E'). rewrite E, E'.
  apply rnd_mono, Rmult_le_compat_r; [apply unsigned_value; exact U | exact V].
Qed.

Lemma mul_mono_r : forall x y y', finite (x * y)%float -> finite (x * y')%float -> unsigned x -> value y <= value y' -> value (x * y)%float <= value (x * y')%float.
Proof.
  intros x y y' F F' U V. destruct (mul_back _ _ F) as (_ & _ & E), (mul_back _ _ F') as (_ & _ & E'). rewrite E, E'.
  apply rnd_mono, Rmult_le_compat_l; [apply unsigned_value; exact U | exact V].
Qed.

Lemma fold_order : forall l l' acc acc', Forall2 (fun x y => finite x -> finite y -> value x <= value y) l l' ->
  finite (fold_left PrimFloat.add l acc) -> finite (fold_left PrimFloat.add l' acc') -> value acc <= value acc' ->
  value (fold_left PrimFloat.add l acc) <= value (fold_left PrimFloat.add l' acc').
Proof.
  induction l as [|x l IH]; intros l' acc acc' H F F' Ha; inversion H; subst; [exact Ha|]. cbn in *.
  apply IH; try assumption. apply fold_back, add_back in F. apply fold_back, add_back in F'.
  destruct F as (_ & Fx & V), F' as (_ & Fy & V'). rewrite V, V'. apply rnd_mono. apply Rplus_le_compat; [exact Ha|]. auto.
Qed.

Lemma leb_below : forall x c c', finite c -> finite c' -> value c <= value c' -> PrimFloat.leb x c = true -> PrimFloat.leb x c' = true.
Proof.
  intros x c c'. rewrite !finite_B, !value_B2R, !leb_equiv. intros F F' V H.
  destruct (BinarySingleNaN.is_finite (Prim2B x)) eqn:Fx.
  - rewrite Bleb_correct in * by assumption. apply Rle_bool_true. destruct (Rle_bool_spec (B2R (Prim2B x)) (B2R (Prim2B c))); [lra | discriminate H].
  - destruct (Prim2B x) as [s|s| |s m e K]; try discriminate Fx.
    + destruct s; [destruct (Prim2B c'); try discriminate F'; reflexivity|]. destruct (Prim2B c); try discriminate F; discriminate H.
    + discriminate H.
Qed.

Section Lib.
Variable L : libm.
Local Instance S : Scalar float := F64 L.
Hypothesis Ex : forall x, unsigned (l_exp L x).
Hypothesis Pi : unsigned (l_pi L).

Lemma fraction_mono : forall ex el g nrm c c' w s m sg p sg' p', unsigned nrm -> (forall z, In z g -> unsigned z) ->
  finite c -> finite c' -> value c <= value c' ->
  @hyperelastic_damage.stress_and_probability float S ex el g nrm c w s m = Some (sg, p) ->
  @hyperelastic_damage.stress_and_probability float S ex el g nrm c' w s m = Some (sg', p') ->
  finite p -> finite p' -> value p <= value p'.
Proof.
  intros ex el g nrm c c' w s m sg p sg' p' Hn Hg Fc Fc' V H H'. unfold hyperelastic_damage.stress_and_probability in H, H'.
  destruct (hyperelastic_damage.grid_step g) as [dz|]; [|discriminate H]. cbn [bind] in H, H'.
  assert (Inj : forall (a b a' b' : float), Some (a, b) = Some (a', b') -> b = b') by (intros a b a' b' E; congruence).
  apply Inj in H, H'. subst p p'. intros F F'.
  destruct (mul_back _ _ F) as (F1 & _ & _), (mul_back _ _ F') as (F1' & _ & _). apply mul_mono; [exact F | exact F' | exact (unsigned_square _) |]. clear F F'.
  destruct (mul_back _ _ F1) as (F2 & _ & _), (mul_back _ _ F1') as (F2' & _ & _). apply mul_mono; [exact F1 | exact F1' | exact Pi |]. clear F1 F1'.
  destruct (mul_back _ _ F2) as (F3 & _ & _), (mul_back _ _ F2') as (F3' & _ & _). apply mul_mono; [exact F2 | exact F2' | exact (unsigned_four L) |]. clear F2 F2'.
  pose proof (div_finite _ _ F3) as F4. pose proof (div_finite _ _ F3') as F4'. apply div_mono; [exact F3 | exact F3' | exact Hn |]. clear F3 F3'.
  assert (SF : forall l, @ssum float S l = fold_left PrimFloat.add l zero) by exact (sum_fold L). unfold hyperelastic_damage.grid_sum_2 in F4, F4' |- *. rewrite SF in F4. rewrite SF in F4'. rewrite !SF. apply fold_order; [|exact F4 | exact F4' | apply Rle_refl]. clear F4 F4'.
  assert (Cell : forall z r, In r g -> finite (r / l_exp L (ex z r) * @hyperelastic_damage.indicator float S (hyperelastic_damage.survives c s m z r))%float ->
    finite (r / l_exp L (ex z r) * @hyperelastic_damage.indicator float S (hyperelastic_damage.survives c' s m z r))%float ->
    value (r / l_exp L (ex z r) * @hyperelastic_damage.indicator float S (hyperelastic_damage.survives c s m z r))%float <=
    value (r / l_exp L (ex z r) * @hyperelastic_damage.indicator float S (hyperelastic_damage.survives c' s m z r))%float).
  { intros z r Hr F F'. apply mul_mono_r; [exact F | exact F' | apply unsigned_div; [apply Hg; exact Hr | apply Ex] |].
    assert (M : hyperelastic_damage.survives c s m z r = true -> hyperelastic_damage.survives c' s m z r = true) by (apply leb_below; assumption).
    unfold hyperelastic_damage.indicator. change (value (float_of_Z (if hyperelastic_damage.survives c s m z r then 1 else 0)%Z) <= value (float_of_Z (if hyperelastic_damage.survives c' s m z r then 1 else 0)%Z)).
    destruct (float_of_Z_exact 1) as [_ V1]; [lia|]. destruct (float_of_Z_exact 0) as [_ V0]; [lia|].
    destruct (hyperelastic_damage.survives c s m z r); [rewrite (M eq_refl); apply Rle_refl|]. rewrite V0. destruct (hyperelastic_damage.survives c' s m z r); rewrite ?V1, ?V0; lra. }
  assert (Row : forall z h, incl h g -> Forall2 (fun x y => finite x -> finite y -> value x <= value y)
    (map (fun r => (r / sexp (ex z r) * hyperelastic_damage.indicator (hyperelastic_damage.survives c s m z r))%S) h)
    (map (fun r => (r / sexp (ex z r) * hyperelastic_damage.indicator (hyperelastic_damage.survives c' s m z r))%S) h)).
  { intros z. induction h as [|r h IH]; intro Hh; cbn [map]; constructor.
    - apply Cell. apply Hh. left. reflexivity.
    - apply IH. intros y Hy. apply Hh. right. exact Hy. }
  assert (All : forall h, Forall2 (fun x y => finite x -> finite y -> value x <= value y)
    (flat_map (fun z => map (fun r => (r / sexp (ex z r) * hyperelastic_damage.indicator (hyperelastic_damage.survives c s m z r))%S) g) h)
    (flat_map (fun z => map (fun r => (r / sexp (ex z r) * hyperelastic_damage.indicator (hyperelastic_damage.survives c' s m z r))%S) g) h)).
  { induction h as [|z h IH]; cbn [flat_map]; [constructor|]. apply Forall2_app; [apply Row; apply incl_refl | exact IH]. }
  apply All.
Qed.

Lemma tension_mono : forall e f g nrm me c c' k N w s m sg p sg' p', unsigned nrm -> (forall z, In z g -> unsigned z) ->
  finite c -> finite c' -> value c <= value c' ->
  @hyperelastic_damage.uniaxial_tension float S e f g nrm me c k N w s m = Some (sg, p) ->
  @hyperelastic_damage.uniaxial_tension float S e f g nrm me c' k N w s m = Some (sg', p') ->
  finite p -> finite p' -> value p <= value p'.
Proof.
  intros e f g nrm me c c' k N w s m sg p sg' p' Hn Hg Fc Fc' V H H'. unfold hyperelastic_damage.uniaxial_tension in H, H'.
  destruct (sle _ _); [|discriminate H]. cbv zeta in H, H'.
  destruct me as [|[[|[]|]|[|[]|]|]|]; try discriminate H; exact (fraction_mono _ e g nrm c c' w s m sg p sg' p' Hn Hg Fc Fc' V H H').
Qed.
End Lib.

Lemma example_numbers : (Z.of_nat hyperelastic_damage.NUMGRID <= 2 ^ 53)%Z /\ finite 2%float /\ 0 < value 2%float <= powerRZ 2 900 /\ unsigned 1%float.
Proof.
  split; [discriminate|]. split; [vm_compute; exact I|]. split; [|vm_compute; reflexivity]. rewrite pw.
  replace (value 2%float) with (bpow radix2 1).
  - split; [apply bpow_gt_0 | apply bpow_le; lia].
  - destruct (float_of_Z_exact 2) as [_ V]; [lia|]. replace 2%float with (float_of_Z 2) by (vm_compute; reflexivity). rewrite V. reflexivity.
Qed.
