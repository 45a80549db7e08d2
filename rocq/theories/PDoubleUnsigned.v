(** Probability densities in double precision. *)
From Coq Require Import Reals ZArith List Lra Lia Floats Psatz.
From Flocq Require Import Core Relative Plus_error BinarySingleNaN PrimFloat.
From Verif Require Import Scalar F64 MMath MConst MIdeal MFjc SpecDouble SpecHistory PDouble PDoubleFjc PDoubleQuad PDoubleContour PDoubleLibm PDoubleSign.
From Coq Require Import Floats.
Import ListNotations.
Open Scope R_scope.

Local Existing Instance Hprec.
Local Existing Instance Hmax.
Local Notation bin := (binary_float FloatOps.prec emax).

Lemma up_opp : forall x, unsigned (- x)%float <-> BinarySingleNaN.is_nan (Prim2B x) = true \/ Bsign (Prim2B x) = true.
Proof. intro x. rewrite unsigned_B, opp_equiv. unfold up. destruct (Prim2B x) as [s|s| |s m e H]; cbn; try (destruct s); intuition; discriminate. Qed.

Lemma div_opp : forall x y, unsigned (- x)%float -> unsigned (- y)%float -> unsigned (x / y)%float.
Proof.
  intros x y. rewrite !up_opp, unsigned_B, div_equiv. intros Hx Hy.
  destruct Hx as [Hx | Hx].
  { left. destruct (Prim2B x); try discriminate Hx. reflexivity. }
  destruct Hy as [Hy | Hy].
  { left. destruct (Prim2B y); try discriminate Hy. destruct (Prim2B x); reflexivity. }
  destruct (Prim2B y) as [s|s| |s m e H] eqn:Ey; cbn in Hy; try subst s.
  - destruct (Prim2B x) as [s'|s'| |s' m' e' H']; cbn in Hx |- *; try subst s'; first [left; reflexivity | right; reflexivity].
  - destruct (Prim2B x) as [s'|s'| |s' m' e' H']; cbn in Hx |- *; try subst s'; first [left; reflexivity | right; reflexivity].
  - destruct (Prim2B x); left; reflexivity.
  - rewrite <- Ey. assert (Nz : B2R (Prim2B y) <> 0).
    { rewrite Ey. apply Rlt_not_eq. apply F2R_lt_0. reflexivity. }
    pose proof (Bdiv_correct FloatOps.prec emax Hprec Hmax mode_NE (Prim2B x) (Prim2B y) Nz) as C.
    assert (Sy : Bsign (Prim2B y) = true) by (rewrite Ey; reflexivity).
    destruct (Rlt_bool _ _).
    + destruct C as (_ & _ & C). destruct (BinarySingleNaN.is_nan (Bdiv mode_NE (Prim2B x) (Prim2B y))) eqn:E; [left; exact E|].
      right. rewrite (C eq_refl), Hx, Sy. reflexivity.
    + rewrite Hx, Sy in C. apply up_overflow. exact C.
Qed.

Lemma either_sign : forall x, unsigned x \/ unsigned (- x)%float.
Proof. intro x. rewrite up_opp, unsigned_B. unfold up. destruct (Bsign (Prim2B x)); intuition. Qed.

Lemma integer_unsigned : forall z, (0 < z <= 2 ^ 53)%Z -> unsigned (float_of_Z z).
Proof.
  intros z Hz. destruct (float_of_Z_exact z) as [F V]; [lia|]. apply unsigned_finite; [exact F|]. rewrite V. apply IZR_lt. lia.
Qed.

Lemma unsigned_powi : forall x n, unsigned x -> (0 <= n)%Z -> unsigned (float_powi x n).
Proof.
  intros x n Hx Hn. destruct n as [|p|p]; [vm_compute; reflexivity | | lia]. cbn [float_powi]. revert x Hx. clear Hn.
  induction p as [p IH|p IH|]; intros x Hx; cbn [Pos.iter_op].
  - apply unsigned_mul; [exact Hx|]. apply IH, unsigned_mul; exact Hx.
  - apply IH, unsigned_mul; exact Hx.
  - exact Hx.
Qed.

Section Lib.
Variable L : libm.
Local Instance S : Scalar float := F64 L.
Hypothesis Ex : forall x, unsigned (l_exp L x).
Hypothesis Pi : unsigned (l_pi L).

Section Ideal.
Hypothesis Pw : forall x y, unsigned x -> unsigned (l_powf L x y).
Variables (N : Z) (l : float).
Hypothesis HN : (0 < N <= 2 ^ 53)%Z.
Hypothesis Hl : unsigned l.

Lemma int_N : unsigned (float_of_Z N).
Proof. apply integer_unsigned. exact HN. Qed.

Lemma dec15 : unsigned (float_dec 15 1).
Proof. vm_compute. reflexivity. Qed.

Lemma ideal_density : forall xi, unsigned (@ideal_isometric.equilibrium_distribution float S N l xi).
Proof.
  intro xi. apply unsigned_mul; [|apply Ex]. apply Pw. apply unsigned_div; [|exact (unsigned_square l)]. apply unsigned_div; [|exact int_N]. apply unsigned_div; [exact dec15 | exact Pi].
Qed.
Lemma ideal_density_nd : forall g, unsigned (@ideal_isometric.nondimensional_equilibrium_distribution float S N g).
Proof.
  intro g. apply unsigned_mul; [|apply Ex]. apply Pw. apply unsigned_mul; [|exact int_N]. apply unsigned_div; [exact dec15 | exact Pi].
Qed.
Lemma ideal_radial_nd : forall g, unsigned (@ideal_isometric.nondimensional_equilibrium_radial_distribution float S N g).
Proof.
  intro g. apply unsigned_mul; [|apply Ex]. apply unsigned_mul; [apply unsigned_mul; [apply unsigned_mul; [exact (unsigned_four L) | exact Pi] | exact (unsigned_square g)]|].
  apply Pw. apply unsigned_mul; [|exact int_N]. apply unsigned_div; [exact dec15 | exact Pi].
Qed.
Lemma ideal_radial : forall xi, unsigned (@ideal_isometric.equilibrium_radial_distribution float S N l xi).
Proof.
  intro xi. apply unsigned_div; [|apply unsigned_mul; [exact int_N | exact Hl]].
  exact (ideal_radial_nd (xi / (float_of_Z N * l))%float).
Qed.
End Ideal.

Section Fjc.
Hypothesis Sh : forall x, (unsigned x -> unsigned (l_sinh L x)) /\ (unsigned (- x)%float -> unsigned (- l_sinh L x)%float).
Variables (N : Z) (l : float).
Hypothesis HN : (0 < N <= 2 ^ 53)%Z.
Hypothesis Hl : unsigned l.

Lemma ratio : forall x, unsigned (l_sinh L x / x)%float.
Proof.
  intro x. destruct (Sh x) as [H1 H2]. destruct (either_sign x) as [U | U]; [apply unsigned_div | apply div_opp]; auto.
Qed.

Lemma fjc_density_nd : forall nrm g, unsigned nrm -> unsigned (@fjc_isometric_legendre.nondimensional_equilibrium_distribution float S N nrm g).
Proof.
  intros nrm g Hn. unfold fjc_isometric_legendre.nondimensional_equilibrium_distribution. cbv zeta. apply unsigned_div; [|exact Hn].
  apply unsigned_powi; [|lia]. apply unsigned_mul; [apply ratio | apply Ex].
Qed.
Lemma fjc_radial_nd : forall nrm g, unsigned nrm -> unsigned (@fjc_isometric_legendre.nondimensional_equilibrium_radial_distribution float S N nrm g).
Proof.
  intros nrm g Hn. unfold fjc_isometric_legendre.nondimensional_equilibrium_radial_distribution.
  apply unsigned_mul; [|apply fjc_density_nd; exact Hn]. apply unsigned_mul; [apply unsigned_mul; [exact (unsigned_four L) | exact Pi] | exact (unsigned_square g)].
Qed.
Lemma contour : unsigned (float_of_Z N * l)%float.
Proof. apply unsigned_mul; [apply integer_unsigned; exact HN | exact Hl]. Qed.
Lemma fjc_density : forall nrm xi, unsigned nrm -> unsigned (@fjc_isometric_legendre.equilibrium_distribution float S N l nrm xi).
Proof.
  intros nrm xi Hn. unfold fjc_isometric_legendre.equilibrium_distribution. cbv zeta. apply unsigned_div; [apply fjc_density_nd; exact Hn|].
  apply unsigned_powi; [exact contour | lia].
Qed.
Lemma fjc_radial : forall nrm xi, unsigned nrm -> unsigned (@fjc_isometric_legendre.equilibrium_radial_distribution float S N l nrm xi).
Proof.
  intros nrm xi Hn. unfold fjc_isometric_legendre.equilibrium_radial_distribution. cbv zeta. apply unsigned_div; [apply fjc_radial_nd; exact Hn | exact contour].
Qed.

Lemma fjc_norm : forall m, unsigned (O_fjc_isometric_legendre.normalization_nondimensional_equilibrium_distribution (@O_fjc_isometric_legendre.init float S N l m)).
Proof.
  intro m. unfold O_fjc_isometric_legendre.init. cbv zeta. cbn [O_fjc_isometric_legendre.normalization_nondimensional_equilibrium_distribution].
  unfold math.integrate_1d. cbv zeta. apply unsigned_mul; [|vm_compute; reflexivity]. apply unsigned_ssum. apply Forall_forall. intros y Hy. apply in_map_iff in Hy.
  destruct Hy as (i & <- & _). apply fjc_radial_nd. vm_compute. reflexivity.
Qed.
End Fjc.
End Lib.

(** Objects. *)
Lemma ideal_object : forall L : libm, (forall x, unsigned (l_exp L x)) -> unsigned (l_pi L) -> (forall x y, unsigned x -> unsigned (l_powf L x y)) ->
  forall N l m x, (0 < N <= 2 ^ 53)%Z -> unsigned l ->
  let chain := O_ideal_isometric.init N l m in
  PrimFloat.ltb (@O_ideal_isometric.equilibrium_distribution float (F64 L) chain x) 0 = false /\
  PrimFloat.ltb (@O_ideal_isometric.nondimensional_equilibrium_distribution float (F64 L) chain x) 0 = false /\
  PrimFloat.ltb (@O_ideal_isometric.equilibrium_radial_distribution float (F64 L) chain x) 0 = false /\
  PrimFloat.ltb (@O_ideal_isometric.nondimensional_equilibrium_radial_distribution float (F64 L) chain x) 0 = false.
Proof.
  intros L Ex Pi Pw N l m x HN Hl chain. repeat split; apply unsigned_lt.
  - apply (ideal_density L); assumption.
  - apply (ideal_density_nd L); assumption.
  - apply (ideal_radial L); assumption.
  - apply (ideal_radial_nd L); assumption.
Qed.

Lemma fjc_object : forall L : libm, (forall x, unsigned (l_exp L x)) -> unsigned (l_pi L) ->
  (forall x, (unsigned x -> unsigned (l_sinh L x)) /\ (unsigned (- x)%float -> unsigned (- l_sinh L x)%float)) ->
  forall N l m x, (0 < N <= 2 ^ 53)%Z -> unsigned l ->
  let chain := @O_fjc_isometric_legendre.init float (F64 L) N l m in
  PrimFloat.ltb (@O_fjc_isometric_legendre.equilibrium_distribution float (F64 L) chain x) 0 = false /\
  PrimFloat.ltb (@O_fjc_isometric_legendre.nondimensional_equilibrium_distribution float (F64 L) chain x) 0 = false /\
  PrimFloat.ltb (@O_fjc_isometric_legendre.equilibrium_radial_distribution float (F64 L) chain x) 0 = false /\
  PrimFloat.ltb (@O_fjc_isometric_legendre.nondimensional_equilibrium_radial_distribution float (F64 L) chain x) 0 = false.
Proof.
  intros L Ex Pi Sh N l m x HN Hl chain. assert (Hn : unsigned (O_fjc_isometric_legendre.normalization_nondimensional_equilibrium_distribution (@O_fjc_isometric_legendre.init float (F64 L) N l m))) by (apply (fjc_norm L); assumption). repeat split; apply unsigned_lt.
  - apply (fjc_density L); assumption.
  - apply (fjc_density_nd L); assumption.
  - apply (fjc_radial L); assumption.
  - apply (fjc_radial_nd L); assumption.
Qed.

(** A library that meets the hypotheses: the rounded one, with the signs of zeros and infinities kept by the hyperbolic sine. *)
Definition signed_libm : libm := {|
  l_powf := l_powf rounded_libm; l_exp := l_exp rounded_libm; l_ln := l_ln rounded_libm; l_log10 := l_log10 rounded_libm;
  l_sinh := fun x => match Prim2SF x with S754_finite _ _ _ => double_of (sinh (value x)) | _ => x end;
  l_cosh := l_cosh rounded_libm; l_tanh := l_tanh rounded_libm; l_sin := l_sin rounded_libm; l_cos := l_cos rounded_libm; l_acos := l_acos rounded_libm;
  l_atanh := l_atanh rounded_libm; l_ceil := l_ceil rounded_libm; l_pi := l_pi rounded_libm; l_cast := l_cast rounded_libm |}.

Lemma double_of_negative : forall r, rnd r < 0 -> unsigned (- double_of r)%float.
Proof.
  intros r P. rewrite up_opp. unfold double_of. cbv zeta. rewrite Prim2B_B2Prim. set (fexp := SpecFloat.fexp FloatOps.prec emax).
  set (m := ZnearestE (scaled_mantissa radix2 fexp r)). set (e := cexp radix2 fexp r).
  assert (E : F2R (Float radix2 m e) = rnd r) by reflexivity.
  pose proof (binary_normalize_correct FloatOps.prec emax Hprec Hmax mode_NE m e false) as C. cbv zeta in C. rewrite E in C.
  destruct (Rlt_bool (Rabs _) _).
  - destruct C as (_ & _ & C). right. rewrite C. destruct (Rcompare_spec (rnd r) 0); try reflexivity; lra.
  - rewrite Rlt_bool_true in C by exact P. right.
    destruct (BinarySingleNaN.binary_normalize FloatOps.prec emax Hprec Hmax mode_NE m e false) as [s|s| |s m' e' H]; try discriminate C. cbn in C. inversion C. reflexivity.
Qed.

Lemma sinh_beyond : forall x, 0 <= x -> x <= sinh x.
Proof.
  intros x [H | <-]; [|rewrite sinh_0; lra]. destruct (MVT_cor2 (fun t => sinh t - t) (fun t => cosh t - 1) 0 x H) as (c & E & Hc).
  - intros c Hc. apply derivable_pt_lim_minus; [apply derivable_pt_lim_sinh | apply derivable_pt_lim_id].
  - rewrite sinh_0 in E. assert (1 <= cosh c).
    { unfold cosh. pose proof (exp_ineq1_le c). pose proof (exp_pos c). pose proof (exp_pos (- c)).
      assert (Q : exp c * exp (- c) = 1) by (rewrite <- exp_plus, Rplus_opp_r; apply exp_0). nra. }
    assert (0 <= (cosh c - 1) * (x - 0)) by (apply Rmult_le_pos; lra). lra.
Qed.

Lemma signed_library : (forall x, unsigned (l_exp signed_libm x)) /\ unsigned (l_pi signed_libm) /\
  (forall x y, unsigned x -> unsigned (l_powf signed_libm x y)) /\
  (forall x, (unsigned x -> unsigned (l_sinh signed_libm x)) /\ (unsigned (- x)%float -> unsigned (- l_sinh signed_libm x)%float)) /\
  (forall x, finite x -> Rabs (sinh (value x)) <= bpow radix2 1023 -> value (l_sinh signed_libm x) = rnd (sinh (value x))).
Proof.
  split; [exact (proj1 rounded_unsigned)|]. split; [exact (proj2 rounded_unsigned)|].
  split; [intros x y _; apply double_of_unsigned; left; apply exp_pos|].
  assert (Z : forall x, match Prim2SF x with S754_finite s m e => value x = (if s then -1 else 1) * (IZR (Zpos m) * powerRZ 2 e) | _ => value x = 0 end).
  { intro x. unfold value. destruct (Prim2SF x); reflexivity. }
  split.
  - intro x. specialize (Z x). cbn [l_sinh signed_libm]. split; intro U.
    + assert (V : 0 <= value x).
      { revert U. rewrite unsigned_B, value_B2R. intros [H | H]; destruct (Prim2B x) as [s|s| |s m e K]; try apply Rle_refl; [discriminate H|]. apply up_value; [reflexivity | exact H]. }
      destruct (Prim2SF x); try exact U. apply double_of_unsigned. pose proof (sinh_beyond _ V). lra.
    + destruct (Prim2SF x) as [s|s| |s m e] eqn:E; try exact U.
      assert (V : value x < 0).
      { revert U. rewrite up_opp, value_B2R. rewrite <- B2SF_Prim2B in E. destruct (Prim2B x) as [s'|s'| |s' m' e' K]; try discriminate E.
        intros [H | H]; [discriminate H|]. cbn in H. subst s'. apply F2R_lt_0. reflexivity. }
      apply double_of_negative. apply Rle_lt_trans with (rnd (value x)); [|rewrite rnd_value; exact V].
      apply rnd_mono. pose proof (sinh_beyond (- value x)) as B. unfold sinh in *. rewrite Ropp_involutive in B. lra.
  - intros x F B. cbn [l_sinh signed_libm]. specialize (Z x). unfold finite in F.
    destruct (Prim2SF x) as [s|s| |s m e] eqn:E; try contradiction; [rewrite Z, sinh_0, rnd_0; reflexivity|]. apply double_of_spec. exact B.
Qed.
