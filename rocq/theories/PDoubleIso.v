(** The isometric FJC in double precision: very small extensions. *)
From Coq Require Import Reals ZArith Lra Lia List Floats.
From Flocq Require Import Core BinarySingleNaN PrimFloat.
From Verif Require Import Scalar F64 MTreloar MFjc SpecDouble SpecDoubleIso PDouble PDoubleFjc PDoubleQuad.
From Coq Require Import Floats.
Import ListNotations.
Open Scope R_scope.

Lemma mapM_map : forall {A B} (f : A -> option B) (g : A -> B) l, (forall x, In x l -> f x = Some (g x)) -> mapM f l = Some (map g l).
Proof.
  intros A B f g l. induction l as [|a l IH]; intro H; [reflexivity|]. cbn [mapM map]. rewrite (H a) by (left; reflexivity). cbn [bind].
  rewrite IH by (intros x Hx; apply H; right; exact Hx). reflexivity.
Qed.

Section Small.
Variable L : libm.
Hypothesis HL : exact_integers L.
Local Notation S := (F64 L).

(** The middle of the sum is one half as soon as the extension is below half a unit in its last place. *)
Lemma middle : forall g, finite g -> 0 < value g <= / 2 ^ 57 ->
  (- g * float_dec 5 1 + float_dec 5 1)%float = 0.5%float.
Proof.
  intros g Fg Hg. destruct half as (Fh & Vh). 
  assert (H57 : / 2 ^ 57 = / 144115188075855872) by lra.
  assert (BB : 2 <= bpow radix2 1023) by (change 2 with (bpow radix2 1); apply bpow_le; lia).
  assert (Vm : value (- g)%float = - value g) by apply value_opp.
  destruct (mul_raw (- g) (float_dec 5 1) (finite_opp g Fg) Fh) as (F1 & V1).
  { rewrite Vm, Vh. rewrite Rabs_left1; lra. }
  rewrite Vm, Vh in V1.
  (* the product lies between minus 2^-58 and 0 *)
  assert (P : Prec_gt_0 FloatOps.prec) by reflexivity.
  assert (R1 : - / 2 ^ 58 <= value (- g * float_dec 5 1)%float <= 0).
  { rewrite V1. split.
    - replace (- / 2 ^ 58) with (rnd (- bpow radix2 (-58))).
      + apply round_le; [apply fexp_correct; reflexivity | apply valid_rnd_N|]. change (bpow radix2 (-58)) with (/ 288230376151711744). lra.
      + rewrite round_generic; [change (bpow radix2 (-58)) with (/ 288230376151711744); lra | apply valid_rnd_N|].
        apply generic_format_opp, generic_format_bpow. cbn. lia.
    - rewrite <- (round_0 radix2 (SpecFloat.fexp FloatOps.prec emax) ZnearestE).
      apply round_le; [apply fexp_correct; reflexivity | apply valid_rnd_N | lra]. }
  set (q := (- g * float_dec 5 1)%float) in *. assert (H58 : / 2 ^ 58 = / 288230376151711744) by lra.
  destruct (add_raw q (float_dec 5 1) F1 Fh) as (F2 & V2); [rewrite Vh, Rabs_pos_eq; lra|].
  assert (VH : value 0.5%float = / 2) by (replace 0.5%float with (float_dec 5 1) by (vm_compute; reflexivity); exact Vh).
  destruct (sum_rel q (float_dec 5 1)) as (e & E1 & E2). rewrite Vh in V2, E2.
  (* the result is at most one half, and within 2^-57 of it *)
  assert (U : value (q + float_dec 5 1)%float <= / 2).
  { rewrite V2. apply Rle_trans with (value (float_dec 5 1)); [|lra]. rewrite <- (round_generic radix2 (SpecFloat.fexp FloatOps.prec emax) ZnearestE (value (float_dec 5 1))) by apply format_value.
    apply round_le; [apply fexp_correct; reflexivity | apply valid_rnd_N | rewrite Vh; lra]. }
  assert (D : / 2 - / 2 ^ 57 <= value (q + float_dec 5 1)%float).
  { rewrite V2. assert (X : / 2 - / 2 ^ 58 <= value q + / 2) by lra.
    pose proof (round_N_pt radix2 (SpecFloat.fexp FloatOps.prec emax) (fun z => negb (Z.even z)) (value q + / 2)) as [_ N].
    specialize (N (/ 2)). rewrite <- Vh in N at 1. specialize (N (format_value _)).
    rewrite (Rabs_pos_eq (/ 2 - _)) in N by lra. apply abs_bounds in N. lra. }
  apply value_inj.
  - rewrite VH. destruct (Rle_lt_or_eq_dec _ _ U) as [Lt|Eq]; [exfalso|exact Eq].
    apply (apart (q + float_dec 5 1)%float 0.5%float); rewrite VH; lra.
  - lra.
Qed.
End Small.
