(** A rational enclosure of pi and of 2/sqrt(pi). *)
From Coq Require Import Reals ZArith QArith Qreals Lra Lia Machin Ratan.
From Verif Require Import PErfPoly.
Open Scope R_scope.

Definition atan_term (b : Z) (n : nat) : Q :=
  1 # Z.to_pos (b ^ Z.of_nat (2 * n + 1) * Z.of_nat (2 * n + 1)).
Definition alt (n : nat) : Q := if Nat.even n then 1%Q else (- (1))%Q.
Definition pi_term (n : nat) : Q := Qred (alt n * ((2 # 1) * atan_term 3 n + atan_term 7 n)).
Fixpoint pi_sum (n : nat) : Q :=
  match n with O => pi_term 0 | S m => Qred (pi_sum m + pi_term n) end.

Lemma atan_term_R : forall b n, (0 < b)%Z -> Q2R (atan_term b n) = Ratan_seq (/ IZR b) n.
Proof.
  intros b n Hb. unfold atan_term, Ratan_seq, Q2R. cbn [Qnum Qden].
  assert (0 < b ^ Z.of_nat (2 * n + 1))%Z by (apply Z.pow_pos_nonneg; lia).
  rewrite Z2Pos.id by nia. rewrite mult_IZR, <- pow_IZR, <- INR_IZR_INZ.
  assert (0 < IZR b) by (apply IZR_lt; lia).
  assert (INR (2 * n + 1) <> 0) by (apply not_0_INR; lia).
  assert (IZR b ^ (2 * n + 1) <> 0) by (apply pow_nonzero; lra).
  rewrite pow_inv. field. split; assumption.
Qed.
Lemma alt_R : forall n, Q2R (alt n) = (-1) ^ n.
Proof.
  intro n. unfold alt. destruct (Nat.even n) eqn:E.
  - apply Nat.even_spec in E. destruct E as [m ->]. rewrite pow_1_even. apply Q2R_1.
  - assert (O : Nat.odd n = true) by (rewrite <- Nat.negb_even, E; reflexivity).
    apply Nat.odd_spec in O. destruct O as [m ->].
    replace (2 * m + 1)%nat with (S (2 * m)) by lia. rewrite pow_1_odd, Q2R_opp, Q2R_1. reflexivity.
Qed.
Lemma pi_term_R : forall n, Q2R (pi_term n) = tg_alt PI_2_3_7_tg n.
Proof.
  intro n. unfold pi_term, tg_alt, PI_2_3_7_tg.
  rewrite Q2R_red, Q2R_mult, Q2R_plus, Q2R_mult, alt_R, !atan_term_R by lia.
  replace (Q2R (2 # 1)) with 2 by (unfold Q2R; simpl; lra). reflexivity.
Qed.
Lemma pi_sum_R : forall n, Q2R (pi_sum n) = sum_f_R0 (tg_alt PI_2_3_7_tg) n.
Proof.
  induction n as [| n IH]; [apply pi_term_R |].
  cbn [pi_sum sum_f_R0]. rewrite Q2R_red, Q2R_plus, IH, pi_term_R. reflexivity.
Qed.

Lemma Q2R_dec10 : forall m p, Q2R (m # p) = IZR m / IZR (Zpos p).
Proof. reflexivity. Qed.

Lemma pi_bounds :
  314159265358979323 / 100000000000000000 < PI < 314159265358979324 / 100000000000000000.
Proof.
  pose proof (PI_2_3_7_ineq 9) as [A B]. rewrite <- !pi_sum_R in A, B.
  assert (L : ((314159265358979323 # 400000000000000000) < pi_sum (S (2 * 9)))%Q) by (vm_compute; reflexivity).
  assert (U : (pi_sum (2 * 9) < 314159265358979324 # 400000000000000000)%Q) by (vm_compute; reflexivity).
  apply Qlt_Rlt in L. apply Qlt_Rlt in U. rewrite Q2R_dec10 in L, U. lra.
Qed.

Lemma two_over_sqrt_pi :
  Rabs (2 / sqrt PI - 11283791670955126 / 10000000000000000) <= 1 / 10000000000000000.
Proof.
  pose proof pi_bounds as [L U].
  assert (P : 0 < PI) by lra. assert (S0 : 0 < sqrt PI) by (apply sqrt_lt_R0; lra).
  pose proof (sqrt_def PI (Rlt_le _ _ P)) as SS.
  set (c := 2 / sqrt PI). assert (Hc : c * sqrt PI = 2) by (unfold c; field; lra).
  assert (C0 : 0 < c) by (unfold c; apply Rdiv_lt_0_compat; lra).
  assert (CC : c * c * PI = 4) by (rewrite <- SS; replace 4 with ((c * sqrt PI) * (c * sqrt PI)) by (rewrite Hc; ring); ring).
  apply Rabs_le. split.
  - destruct (Rle_or_lt (11283791670955125 / 10000000000000000) c) as [H | H]; [lra | exfalso].
    assert (c * c < (11283791670955125 / 10000000000000000) * (11283791670955125 / 10000000000000000)) by (apply Rmult_le_0_lt_compat; lra).
    assert (c * c * PI < (11283791670955125 / 10000000000000000) * (11283791670955125 / 10000000000000000) * (314159265358979324 / 100000000000000000)).
    { apply Rmult_le_0_lt_compat; try lra. apply Rle_0_sqr. } lra.
  - destruct (Rle_or_lt c (11283791670955127 / 10000000000000000)) as [H | H]; [lra | exfalso].
    assert ((11283791670955127 / 10000000000000000) * (11283791670955127 / 10000000000000000) < c * c) by (apply Rmult_le_0_lt_compat; lra).
    assert ((11283791670955127 / 10000000000000000) * (11283791670955127 / 10000000000000000) * (314159265358979323 / 100000000000000000) < c * c * PI).
    { apply Rmult_le_0_lt_compat; lra. } lra.
Qed.
