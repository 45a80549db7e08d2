(** A platform that rounds up, converts and alternates signs exactly, with the usual constant pi. *)
From Coq Require Import Reals ZArith Lra Lia List Floats Machin QArith Qreals.
From Flocq Require Import Core BinarySingleNaN PrimFloat.
From Verif Require Import Scalar F64 SpecDouble SpecDoubleIso PDouble PDoubleFjc PDoubleQuad.
From Coq Require Import Floats.
Import ListNotations.
Close Scope Q_scope.
Open Scope R_scope.

Definition ceil_Z (x : float) : Z :=
  match Prim2SF x with
  | S754_finite s m e => let z := if s then Zneg m else Zpos m in if (0 <=? e)%Z then (z * 2 ^ e)%Z else (- (- z / 2 ^ (- e)))%Z
  | _ => 0%Z
  end.

Definition exact_libm : libm := {|
  l_powf := fun _ y => if Z.even (ceil_Z y) then 1%float else (-1)%float;
  l_exp := fun x => x; l_ln := fun x => x; l_log10 := fun x => x; l_sinh := fun x => x; l_cosh := fun x => x; l_tanh := fun x => x;
  l_sin := fun x => x; l_cos := fun x => x; l_acos := fun x => x; l_atanh := fun x => x;
  l_ceil := fun x => float_of_Z (ceil_Z x);
  l_pi := 0x1.921fb54442d18p1%float;
  l_cast := fun _ x => ceil_Z x |}.

Lemma ceil_Z_spec : forall x, finite x -> IZR (ceil_Z x) - 1 < value x <= IZR (ceil_Z x).
Proof.
  intros x Fx. unfold finite in Fx. unfold ceil_Z, value. destruct (Prim2SF x) as [s|s| |s m e]; try contradiction; [lra|].
  replace ((if s then -1 else 1) * (IZR (Zpos m) * powerRZ 2 e)) with (IZR (if s then Zneg m else Zpos m) * powerRZ 2 e).
  2:{ destruct s; [|ring]. change (Zneg m) with (- Zpos m)%Z. rewrite opp_IZR. ring. }
  set (z := if s then Zneg m else Zpos m). rewrite pw. destruct (Z.leb_spec 0 e) as [E|E].
  - rewrite mult_IZR. rewrite <- (IZR_Zpower radix2 e E). change (Zpower radix2 e) with (2 ^ e)%Z. lra.
  - assert (D : (0 < 2 ^ (- e))%Z) by (apply Z.pow_pos_nonneg; lia).
    assert (DR : bpow radix2 e = / IZR (2 ^ (- e))).
    { change (2 ^ (- e))%Z with (Zpower radix2 (- e)). rewrite IZR_Zpower by lia. rewrite <- bpow_opp. f_equal. lia. }
    rewrite DR. set (d := (2 ^ (- e))%Z) in *. apply IZR_lt in D. pose proof (Z.div_mod (- z) d ltac:(apply lt_IZR in D; lia)) as DM.
    pose proof (Z.mod_pos_bound (- z) d (lt_IZR _ _ D)) as MB. set (q := (- z / d)%Z) in *. set (r := (- z mod d)%Z) in *.
    assert (ZE : IZR z = - (IZR d * IZR q + IZR r)) by (rewrite <- mult_IZR, <- plus_IZR, <- DM, opp_IZR; ring).
    assert (R1 : 0 <= IZR r < IZR d) by (split; [apply IZR_le | apply IZR_lt]; lia).
    rewrite opp_IZR, ZE. replace (- (IZR d * IZR q + IZR r) * / IZR d) with (- IZR q - IZR r / IZR d) by (field; lra).
    assert (0 <= IZR r / IZR d < 1). { split; [apply Rmult_le_pos; [lra | apply Rlt_le, Rinv_0_lt_compat; lra]|]. apply Rmult_lt_reg_r with (IZR d); [lra|]. unfold Rdiv. rewrite Rmult_assoc, Rinv_l by lra. lra. }
    lra.
Qed.

Lemma small_integers : forall z, (0 <= z <= 255)%Z -> ceil_Z (float_of_Z z) = z.
Proof.
  assert (H : forallb (fun i => Z.eqb (ceil_Z (float_of_Z (Z.of_nat i))) (Z.of_nat i)) (seq 0 256) = true) by (vm_compute; reflexivity).
  rewrite forallb_forall in H. intros z Hz. specialize (H (Z.to_nat z)). rewrite Z2Nat.id in H by lia. apply Z.eqb_eq, H. apply in_seq. lia.
Qed.

Lemma exact_libm_integers : exact_integers exact_libm.
Proof.
  split; [|split].
  - intros x Fx Hx. exists (ceil_Z x). split; [apply ceil_Z_spec, Fx | reflexivity].
  - intros z Hz. apply small_integers, Hz.
  - intros z Hz. cbn [exact_libm l_powf]. rewrite small_integers by exact Hz. reflexivity.
Qed.

(** The digits of pi by Machin's formula. *)
Definition qatan (b : positive) (i : nat) : Q := 1 # (Pos.of_nat (2 * i + 1) * b ^ Pos.of_nat (2 * i + 1))%positive.
Definition qterm (i : nat) : Q := ((if Nat.even i then 1 # 1 else -1 # 1) * ((2 # 1) * qatan 3 i + qatan 7 i))%Q.
Fixpoint qsum (n : nat) : Q := match n with O => qterm 0 | S k => (qsum k + qterm n)%Q end.

Lemma qatan_R : forall b i, Q2R (qatan b i) = Ratan_seq (/ IZR (Zpos b)) i.
Proof.
  intros b i. unfold qatan, Ratan_seq, Q2R. cbn [Qnum Qden]. rewrite Pos2Z.inj_mul, Pos2Z.inj_pow, mult_IZR.
  rewrite <- (positive_nat_Z (Pos.of_nat (2 * i + 1))). rewrite Nat2Pos.id by lia. rewrite <- pow_IZR, <- INR_IZR_INZ, pow_inv.
  assert (0 < IZR (Zpos b)) by (apply IZR_lt; lia). assert (INR (2 * i + 1) <> 0) by (apply not_0_INR; lia).
  field. split; [apply pow_nonzero; lra | assumption].
Qed.
Lemma qterm_R : forall i, Q2R (qterm i) = tg_alt PI_2_3_7_tg i.
Proof.
  intro i. unfold qterm, tg_alt, PI_2_3_7_tg. rewrite Q2R_mult, Q2R_plus, Q2R_mult, !qatan_R.
  assert (SG : (-1) ^ i = Q2R (if Nat.even i then 1 # 1 else -1 # 1)).
  { induction i as [|i IH]; [unfold Q2R; cbn; lra|]. cbn [pow]. rewrite IH, Nat.even_succ, <- Nat.negb_even. destruct (Nat.even i); unfold Q2R; cbn; lra. }
  rewrite SG. replace (Q2R (2 # 1)) with 2 by (unfold Q2R; cbn; lra). reflexivity.
Qed.
Lemma qsum_R : forall n, Q2R (qsum n) = sum_f_R0 (tg_alt PI_2_3_7_tg) n.
Proof. induction n as [|n IH]; cbn [qsum sum_f_R0]; [apply qterm_R|]. rewrite Q2R_plus, IH, qterm_R. reflexivity. Qed.

Lemma pi_digits : 31415926535897932384 / 10 ^ 19 <= PI <= 31415926535897932386 / 10 ^ 19.
Proof.
  pose proof (PI_2_3_7_ineq 10) as [A B]. rewrite <- qsum_R in A, B.
  assert (C : Q2R (31415926535897932384 # 40000000000000000000) <= Q2R (qsum (S (2 * 10)))) by (apply Qle_Rle; vm_compute; discriminate).
  assert (D : Q2R (qsum (2 * 10)) <= Q2R (31415926535897932386 # 40000000000000000000)) by (apply Qle_Rle; vm_compute; discriminate).
  unfold Q2R in C at 1. unfold Q2R in D at 2. cbn [Qnum Qden] in C, D. lra.
Qed.

Lemma exact_libm_pi : nearest_pi exact_libm.
Proof.
  split; [vm_compute; exact I|]. pose proof pi_digits as PD.
  assert (V : value 0x1.921fb54442d18p1%float = 7074237752028440 / 2 ^ 51).
  { unfold value. replace (Prim2SF 0x1.921fb54442d18p1%float) with (S754_finite false 7074237752028440 (-51)) by (vm_compute; reflexivity).
    change (1 * (7074237752028440 * / 2 ^ 51) = 7074237752028440 / 2 ^ 51). lra. }
  cbn [exact_libm l_pi]. rewrite V. unfold unit_roundoff. apply Rabs_le. lra.
Qed.

Lemma half_extension : finite 0.5%float /\ powerRZ 2 (-800) <= value 0.5%float < 1.
Proof.
  split; [vm_compute; exact I|]. assert (V : value 0.5%float = / 2).
  { unfold value. replace (Prim2SF 0.5%float) with (S754_finite false 4503599627370496 (-53)) by (vm_compute; reflexivity). change (1 * (4503599627370496 * / 2 ^ 53) = / 2). lra. }
  rewrite V, pw. split; [|lra]. change (/ 2) with (bpow radix2 (-1)). apply bpow_le. lia.
Qed.
Lemma tiny_extension : finite 0x1p-60%float /\ powerRZ 2 (-1000) <= powerRZ 2 (-800) <= value 0x1p-60%float /\ value 0x1p-60%float <= / 2 ^ 57.
Proof.
  split; [vm_compute; exact I|]. assert (V : value 0x1p-60%float = bpow radix2 (-60)).
  { unfold value. replace (Prim2SF 0x1p-60%float) with (S754_finite false 4503599627370496 (-112)) by (vm_compute; reflexivity).
    change (1 * (4503599627370496 * / 2 ^ 112) = / 1152921504606846976). lra. }
  rewrite V, !pw. repeat split; try (apply bpow_le; lia). change (bpow radix2 (-60)) with (/ 1152921504606846976). lra.
Qed.
