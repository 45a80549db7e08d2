(** Facts about the binary64 instance. *)
From Coq Require Import ZArith Bool Floats Uint63.
From Verif Require Import Scalar F64 MMath.

(** Starting the powered solver exactly on a root gives 0/0. *)
Lemma powered_root_nan : forall L : libm,
  let y := float_of_Z 2 in let f := fun x : float => x in let fp := fun _ : float => one in
  f y = y /\
  is_nan (@math.inverse_newton_raphson_powered float (F64 L) y f fp y (float_dec 1 6) 100 4) = true /\
  @math.inverse_newton_raphson float (F64 L) y f fp y (float_dec 1 6) 100 = y.
Proof. intro L. cbv zeta. repeat split; vm_compute; reflexivity. Qed.

(** Far on the negative axis the table of literals is left and the quotient underflows. *)
Lemma erf_minus_27 : forall L : libm, l_exp L 729%float = infinity ->
  @math.erf float (F64 L) (-27)%float = one.
Proof.
  intros L HL.
  assert (E : @math.erfcx float (F64 L) (-27)%float = @math.f64_max float (F64 L)) by (vm_compute; reflexivity).
  unfold math.erf, math.erfc. rewrite E.
  change (@sexp float (F64 L) (@spowi float (F64 L) (-27)%float 2)) with (l_exp L (float_powi (-27)%float 2)).
  replace (float_powi (-27)%float 2) with 729%float by (vm_compute; reflexivity).
  rewrite HL. vm_compute. reflexivity.
Qed.
