(** A mathematical library that is correctly rounded everywhere. *)
From Coq Require Import Reals ZArith Lra Lia Floats Psatz.
From Flocq Require Import Core Relative Plus_error BinarySingleNaN PrimFloat.
From Verif Require Import Scalar F64 SpecLangevin SpecDouble PDouble PDoubleFjc PLangevin PSigmoid PHyp PDoubleContour.
From Coq Require Import Floats.
Open Scope R_scope.

(** The double nearest to a real number that is not too large. *)
Definition double_of (r : R) : float :=
  let fexp := SpecFloat.fexp FloatOps.prec emax in
  B2Prim (BinarySingleNaN.binary_normalize FloatOps.prec emax Hprec Hmax mode_NE (ZnearestE (scaled_mantissa radix2 fexp r)) (cexp radix2 fexp r) false).

Lemma double_of_spec : forall r, Rabs r <= bpow radix2 1023 -> finite (double_of r) /\ value (double_of r) = rnd r.
Proof.
  intros r H. unfold double_of. cbv zeta. set (fexp := SpecFloat.fexp FloatOps.prec emax).
  set (m := ZnearestE (scaled_mantissa radix2 fexp r)). set (e := cexp radix2 fexp r).
  assert (E : F2R (Float radix2 m e) = rnd r) by reflexivity.
  pose proof (binary_normalize_correct FloatOps.prec emax Hprec Hmax mode_NE m e false) as C.
  assert (G : rnd (rnd r) = rnd r).
  { apply round_generic; [apply valid_rnd_N|]. apply generic_format_round; [apply fexp_correct; reflexivity | apply valid_rnd_N]. }
  change (round_mode mode_NE) with ZnearestE in C. cbv zeta in C. rewrite E, G in C. rewrite Rlt_bool_true in C by (apply rnd_big; exact H).
  destruct C as (C1 & C2 & _). rewrite finite_B, value_B2R, Prim2B_B2Prim. split; assumption.
Qed.

Lemma double_of_nearest : forall (g : R -> R) x, Rabs (g (value x)) <= bpow radix2 1023 -> nearest_double (fun x => double_of (g (value x))) g x.
Proof.
  intros g x H. destruct (double_of_spec _ H) as [F V]. split; [exact F|]. intros y Fy. rewrite V.
  assert (VE : Valid_exp (SpecFloat.fexp FloatOps.prec emax)) by (apply fexp_correct; reflexivity).
  destruct (@round_N_pt radix2 (SpecFloat.fexp FloatOps.prec emax) VE (fun z => negb (Z.even z)) (g (value x))) as [_ N].
  apply N. apply format_value.
Qed.

Definition rounded_libm : libm := {|
  l_powf := fun x y => double_of (Rpower (value x) (value y));
  l_exp := fun x => double_of (exp (value x)); l_ln := fun x => double_of (ln (value x));
  l_log10 := fun x => double_of (ln (value x) / ln 10);
  l_sinh := fun x => double_of (sinh (value x)); l_cosh := fun x => double_of (cosh (value x)); l_tanh := fun x => double_of (tanh (value x));
  l_sin := fun x => double_of (sin (value x)); l_cos := fun x => double_of (cos (value x)); l_acos := fun x => double_of (acos (value x));
  l_atanh := fun x => double_of (ln ((1 + value x) / (1 - value x)) / 2);
  l_ceil := fun x => double_of (IZR (Zceil (value x))); l_pi := double_of PI; l_cast := fun _ x => Ztrunc (value x) |}.

Lemma tanh_bounded : forall x, Rabs (tanh x) <= 1.
Proof.
  assert (K : forall x, 0 <= x -> 0 <= tanh x <= 1).
  { intros x H. pose proof (PHyp.cosh_pos x) as C. assert (S : 0 <= sinh x) by (destruct H as [H | <-]; [left; apply PHyp.sinh_pos; exact H | rewrite sinh_0; lra]).
    unfold tanh. split; [apply Rmult_le_pos; [exact S | left; apply Rinv_0_lt_compat; exact C]|].
    apply Rmult_le_reg_r with (cosh x); [exact C|]. unfold Rdiv. rewrite Rmult_assoc, Rinv_l by lra. unfold sinh, cosh. pose proof (exp_pos (- x)). lra. }
  intro x. destruct (Rle_or_lt 0 x) as [H | H].
  - rewrite Rabs_pos_eq; apply K; exact H.
  - rewrite <- Rabs_Ropp, <- tanh_opp, Rabs_pos_eq; apply K; lra.
Qed.

Lemma one_small : 1 <= bpow radix2 1023.
Proof. change 1 with (bpow radix2 0). apply bpow_le. lia. Qed.

(** Its hyperbolic tangent is correctly rounded at every double. *)
Lemma rounded_tanh : forall x, nearest_double (l_tanh rounded_libm) tanh x.
Proof. intro x. apply double_of_nearest. pose proof (tanh_bounded (value x)). pose proof one_small. lra. Qed.
Lemma rounded_sin : forall x, nearest_double (l_sin rounded_libm) sin x.
Proof. intro x. apply double_of_nearest. pose proof (SIN_bound (value x)). pose proof one_small. apply Rabs_le. lra. Qed.
Lemma rounded_cos : forall x, nearest_double (l_cos rounded_libm) cos x.
Proof. intro x. apply double_of_nearest. pose proof (COS_bound (value x)). pose proof one_small. apply Rabs_le. lra. Qed.
