(** In double precision the extension of the FJC is not monotone. *)
From Coq Require Import Reals ZArith Lra Lia Floats Psatz.
From Flocq Require Import Core Relative Plus_error BinarySingleNaN PrimFloat.
From Verif Require Import Scalar F64 MFjc SpecLangevin SpecDouble PDouble PDoubleFjc PLangevin PSigmoid PHyp PErfc PLimits.
From Coq Require Import Floats.
Open Scope R_scope.

(** No double lies between two neighbours. *)
Lemma neighbours : forall c y, bpow radix2 (-26) <= value c < bpow radix2 (-25) -> value c < value y < value c + / 2 ^ 78 -> False.
Proof.
  intros c y [C1 C2] [H1 H2]. assert (P : Prec_gt_0 FloatOps.prec) by reflexivity. pose proof (bpow_gt_0 radix2 (-26)).
  pose proof (succ_le_lt radix2 (FLT_exp (-1074) FloatOps.prec) (value c) (value y) (format_value c) (format_value y) H1) as E.
  rewrite succ_eq_pos in E by lra. rewrite ulp_neq_0 in E by lra. unfold cexp in E.
  rewrite (mag_unique_pos radix2 (value c) (-25)) in E by (split; assumption).
  change (bpow radix2 (FLT_exp (-1074) FloatOps.prec (-25))) with (/ 302231454903657293676544) in E. lra.
Qed.

Definition force_1 : float := 0x1.3333333333335p-26%float.
Definition force_2 : float := 0x1.3333333333336p-26%float.
Definition tanh_1 : float := 0x1.3333333333334p-26%float.

Lemma value_1 : value force_1 = 5404319552844597 / 2 ^ 78.
Proof.
  unfold value. replace (Prim2SF force_1) with (S754_finite false 5404319552844597 (-78)) by (vm_compute; reflexivity).
  change (1 * (5404319552844597 * / 2 ^ 78) = 5404319552844597 / 2 ^ 78). lra.
Qed.
Lemma value_2 : value force_2 = 5404319552844598 / 2 ^ 78.
Proof.
  unfold value. replace (Prim2SF force_2) with (S754_finite false 5404319552844598 (-78)) by (vm_compute; reflexivity).
  change (1 * (5404319552844598 * / 2 ^ 78) = 5404319552844598 / 2 ^ 78). lra.
Qed.
Lemma value_t1 : value tanh_1 = 5404319552844596 / 2 ^ 78.
Proof.
  unfold value. replace (Prim2SF tanh_1) with (S754_finite false 5404319552844596 (-78)) by (vm_compute; reflexivity).
  change (1 * (5404319552844596 * / 2 ^ 78) = 5404319552844596 / 2 ^ 78). lra.
Qed.

Lemma tanh_upper : forall x, 0 < x -> tanh x * (1 + x * (x / 3 - x ^ 3 / 45)) <= x.
Proof.
  intros x Hx. pose proof (langevin_lower_5 x Hx) as Lo. rewrite langevin_tanh in Lo. destruct (coth_parts x) as (N & _ & _); [lra|].
  assert (T : 0 < tanh x) by (unfold tanh; apply Rdiv_lt_0_compat; [apply PHyp.sinh_pos; exact Hx | apply PHyp.cosh_pos]).
  set (t := tanh x) in *. clearbody t. set (a := x / 3 - x ^ 3 / 45) in *. clearbody a.
  apply (Rmult_lt_compat_r (t * x)) in Lo; [|apply Rmult_lt_0_compat; assumption].
  replace ((1 / t - 1 / x) * (t * x)) with (x - t) in Lo by (field; lra). lra.
Qed.

Lemma tanh_at_1 : (5404319552844596 + 4 / 10) / 2 ^ 78 <= tanh (5404319552844597 / 2 ^ 78) <= (5404319552844596 + 45 / 100) / 2 ^ 78.
Proof.
  assert (P : 0 < 5404319552844597 / 2 ^ 78) by lra. pose proof (tanh_near _ P) as N. pose proof (tanh_upper _ P) as U.
  set (t := tanh (5404319552844597 / 2 ^ 78)) in *. clearbody t. cbn [pow] in N, U. split; lra.
Qed.
Lemma tanh_at_2 : (5404319552844597 + 4 / 10) / 2 ^ 78 <= tanh (5404319552844598 / 2 ^ 78) <= (5404319552844597 + 45 / 100) / 2 ^ 78.
Proof.
  assert (P : 0 < 5404319552844598 / 2 ^ 78) by lra. pose proof (tanh_near _ P) as N. pose proof (tanh_upper _ P) as U.
  set (t := tanh (5404319552844598 / 2 ^ 78)) in *. clearbody t. cbn [pow] in N, U. split; lra.
Qed.

(** The correctly rounded value is unique. *)
Lemma rounds_to : forall (L : libm) x c lo, nearest_double (l_tanh L) tanh x -> finite c -> value c = lo / 2 ^ 78 ->
  5404319552844590 <= lo <= 5404319552844600 -> (exists p, value p = (lo - 1) / 2 ^ 78) ->
  (lo + 4 / 10) / 2 ^ 78 <= tanh (value x) <= (lo + 45 / 100) / 2 ^ 78 -> l_tanh L x = c.
Proof.
  intros L x c lo [Ft N] Fc Vc B (p & Vp) T. pose proof (N c Fc) as D. set (t := value (l_tanh L x)) in *. rewrite Vc in D.
  assert (B1 : bpow radix2 (-26) <= (lo - 1) / 2 ^ 78) by (change (bpow radix2 (-26)) with (/ 67108864); lra).
  assert (B2 : lo / 2 ^ 78 < bpow radix2 (-25)) by (change (bpow radix2 (-25)) with (/ 33554432); lra).
  rewrite (Rabs_left1 (lo / 2 ^ 78 - tanh (value x))) in D by lra. apply Rabs_le_inv in D.
  destruct (Rtotal_order t (lo / 2 ^ 78)) as [O | [O | O]].
  - exfalso. apply (neighbours p (l_tanh L x)); rewrite Vp; fold t; [split|split]; lra.
  - apply value_inj; fold t; rewrite ?Vc; lra.
  - exfalso. apply (neighbours c (l_tanh L x)); rewrite Vc; fold t; [split|split]; lra.
Qed.

Lemma order_refuted : forall L : libm, nearest_double (l_tanh L) tanh force_1 -> nearest_double (l_tanh L) tanh force_2 ->
  finite force_1 /\ finite force_2 /\ 0 < value force_1 < value force_2 /\
  0 < value (@fjc_isotensional.nondimensional_end_to_end_length_per_link float (F64 L) force_2) /\
  value (@fjc_isotensional.nondimensional_end_to_end_length_per_link float (F64 L) force_1)
    = 2 * value (@fjc_isotensional.nondimensional_end_to_end_length_per_link float (F64 L) force_2).
Proof.
  intros L N1 N2. assert (F1 : finite force_1) by (vm_compute; exact I). assert (F2 : finite force_2) by (vm_compute; exact I). assert (Ft : finite tanh_1) by (vm_compute; exact I).
  split; [exact F1|]. split; [exact F2|]. split; [rewrite value_1, value_2; lra|].
  assert (E1 : l_tanh L force_1 = tanh_1).
  { apply (rounds_to L force_1 tanh_1 5404319552844596); [exact N1 | exact Ft | exact value_t1 | lra | | rewrite value_1; exact tanh_at_1].
    exists 0x1.3333333333333p-26%float. unfold value. replace (Prim2SF 0x1.3333333333333p-26%float) with (S754_finite false 5404319552844595 (-78)) by (vm_compute; reflexivity).
    change (1 * (5404319552844595 * / 2 ^ 78) = (5404319552844596 - 1) / 2 ^ 78). lra. }
  assert (E2 : l_tanh L force_2 = force_1).
  { apply (rounds_to L force_2 force_1 5404319552844597); [exact N2 | exact F1 | exact value_1 | lra | | rewrite value_2; exact tanh_at_2].
    exists tanh_1. rewrite value_t1. lra. }
  rewrite !fjc_unfold, E1, E2.
  replace (one / tanh_1 - one / force_1)%float with 0x1p-26%float by (vm_compute; reflexivity).
  replace (one / force_1 - one / force_2)%float with 0x1p-27%float by (vm_compute; reflexivity).
  unfold value. replace (Prim2SF 0x1p-26%float) with (S754_finite false 4503599627370496 (-78)) by (vm_compute; reflexivity).
  replace (Prim2SF 0x1p-27%float) with (S754_finite false 4503599627370496 (-79)) by (vm_compute; reflexivity).
  split.
  - change (0 < 1 * (4503599627370496 * / 2 ^ 79)). lra.
  - change (1 * (4503599627370496 * / 2 ^ 78) = 2 * (1 * (4503599627370496 * / 2 ^ 79))). lra.
Qed.

(** A library that rounds correctly at both forces. *)
Definition order_libm : libm := {|
  l_powf := fun x _ => x; l_exp := fun _ => one; l_ln := fun x => x; l_log10 := fun x => x;
  l_sinh := fun x => x; l_cosh := fun _ => one;
  l_tanh := fun x => if PrimFloat.ltb x force_2 then tanh_1 else force_1;
  l_sin := fun x => x; l_cos := fun _ => one; l_acos := fun x => x; l_atanh := fun x => x;
  l_ceil := fun x => x; l_pi := 3.5%float; l_cast := fun _ _ => 0%Z |}.

Lemma order_case : nearest_double (l_tanh order_libm) tanh force_1 /\ nearest_double (l_tanh order_libm) tanh force_2.
Proof.
  assert (K : forall c n lo r, value c = lo / 2 ^ 78 -> value n = (lo + 1) / 2 ^ 78 -> 5404319552844590 <= lo <= 5404319552844600 ->
    (lo + 4 / 10) / 2 ^ 78 <= r <= (lo + 45 / 100) / 2 ^ 78 -> forall y, Rabs (value c - r) <= Rabs (value y - r)).
  { intros c n lo r Vc Vn B T y. rewrite (Rabs_left1 (value c - r)) by (rewrite Vc; lra). apply Rnot_lt_le. intro C. apply Rabs_def2 in C. destruct C as [C1 C2].
    rewrite Vc in C1, C2. apply (neighbours c y); rewrite Vc; [|split; lra].
    change (bpow radix2 (-26)) with (/ 67108864). change (bpow radix2 (-25)) with (/ 33554432). lra. }
  unfold nearest_double. replace (l_tanh order_libm force_1) with tanh_1 by (vm_compute; reflexivity). replace (l_tanh order_libm force_2) with force_1 by (vm_compute; reflexivity).
  split; (split; [vm_compute; exact I|]); intros y _.
  - apply (K tanh_1 force_1 5404319552844596); [exact value_t1 | rewrite value_1; lra | lra | rewrite value_1; exact tanh_at_1].
  - apply (K force_1 force_2 5404319552844597); [exact value_1 | rewrite value_2; lra | lra | rewrite value_2; exact tanh_at_2].
Qed.
