(** The one hundred table rows of [erfcx_helper], and the accuracy of [erfcx]. *)
From Coq Require Import Reals ZArith QArith Qabs Qreals List Lra Lia Psatz.
From Coquelicot Require Import Coquelicot.
From Verif Require Import Scalar MErfcx MMath SpecGauss SpecErf PGauss PErfPoly PPi PErf PBase.
Import ListNotations.
Open Scope R_scope.

Lemma pe_derive : forall p t, is_derive (pe p) t (pe (pder p) t).
Proof.
  induction p as [| a p IH]; intro t.
  - change (pe []) with (fun _ : R => 0). apply (is_derive_const (V := R_NormedModule)).
  - change (pe (a :: p)) with (fun t => Q2R a + t * pe p t).
    change (pder (a :: p)) with (padd p (0%Q :: pder p)). rewrite pe_padd, pe_cons, Q2R_0.
    evar_last.
    + apply (is_derive_plus (V := R_NormedModule) (fun _ => Q2R a) (fun t => t * pe p t) t 0 (1 * pe p t + t * pe (pder p) t)).
      * apply (is_derive_const (V := R_NormedModule)).
      * apply (is_derive_mult (fun t => t) (pe p) t 1 (pe (pder p) t)).
        { apply (is_derive_id (K := R_AbsRing)). } { apply IH. } { intros n m. apply Rmult_comm. }
    + unfold plus; simpl. ring.
Qed.

Definition row_value (c : R) (cs : list Q) (s : R) : R := pe cs (2 * (400 / (4 + s)) - c).
Definition row_slope (c : R) (cs : list Q) (s : R) : R :=
  pe (pder cs) (2 * (400 / (4 + s)) - c) * (- 800 / (4 + s) ^ 2).
Lemma row_derive : forall c cs s, -4 < s -> is_derive (row_value c cs) s (row_slope c cs s).
Proof.
  intros c cs s Hs. unfold row_value, row_slope. evar_last.
  - apply (is_derive_comp (pe cs) (fun s => 2 * (400 / (4 + s)) - c) s (pe (pder cs) (2 * (400 / (4 + s)) - c)) (- 800 / (4 + s) ^ 2)).
    + apply pe_derive.
    + auto_derive; [lra | field; lra].
  - unfold scal; simpl. unfold mult; simpl. ring.
Qed.

Definition cq : Q := 11283791670955126 # 10000000000000000.
Definition row_res (c : Q) (cs : list Q) : list Q :=
  let z := [Qred (c * (1 # 2)); (1 # 2)] in
  padd (padd (pscal (- (1 # 200)) (pmul (pmul (pmul z z) z) (pder cs)))
             (pscal (- (2 # 1)) (pmul (padd [400 # 1] (pscal (- (4 # 1)) z)) cs)))
       (pscal cq z).

Lemma Q2R_frac : forall m p, Q2R (m # p) = IZR m / IZR (Zpos p).
Proof. reflexivity. Qed.

Lemma row_res_ok : forall c cs s, -4 < s ->
  400 / (4 + s) * (row_slope (Q2R c) cs s - 2 * s * row_value (Q2R c) cs s + Q2R cq)
  = pe (row_res c cs) (2 * (400 / (4 + s)) - Q2R c).
Proof.
  intros c cs s Hs. unfold row_slope, row_value, row_res. cbv zeta.
  rewrite !pe_padd, !pe_pscal, !pe_pmul, !pe_padd, !pe_pscal, !pe_cons.
  change (pe [] _) with 0. rewrite Q2R_red, Q2R_mult, !Q2R_opp, !Q2R_frac.
  set (t := 2 * (400 / (4 + s)) - Q2R c). set (P := pe cs t). set (D := pe (pder cs) t).
  assert (Et : t = 2 * (400 / (4 + s)) - Q2R c) by reflexivity. clearbody t P D.
  rewrite Et. field. lra.
Qed.

Fixpoint total (k : Z) (B v : Q) (rows : list (Q * list Q)) : Q :=
  match rows with
  | [] => B
  | (c, cs) :: rest =>
      total (k + 1)
        (Qred (B + Qabs (v - pev cs (- (1))) +
               (pabs (row_res c cs) * (1 # Z.to_pos k) + (1 # 10000000000000000)) * (400 # Z.to_pos (k * (k + 1)))))
        (pev cs 1) rest
  end.
Fixpoint centred (k : Z) (rows : list (Q * list Q)) : bool :=
  match rows with
  | [] => true
  | (c, cs) :: rest => Qeq_bool c (inject_Z (2 * k + 1)) && centred (k + 1) rest
  end.

Lemma Qabs_R0 : forall a, 0 <= Q2R (Qabs a).
Proof. intro a. rewrite Q2R_abs. apply Rabs_pos. Qed.
Lemma pabs_R0 : forall p, 0 <= Q2R (pabs p).
Proof.
  induction p as [| a p IH]; [simpl; rewrite Q2R_0; lra |].
  change (pabs (a :: p)) with (Qred (Qabs a + pabs p)). rewrite Q2R_red, Q2R_plus. pose proof (Qabs_R0 a). lra.
Qed.

Lemma inv_pos_R : forall k, (1 <= k)%Z -> Q2R (1 # Z.to_pos k) = / IZR k.
Proof. intros k Hk. rewrite Q2R_frac, Z2Pos.id by lia. unfold Rdiv. ring. Qed.
Lemma gap_R : forall k, (1 <= k)%Z -> Q2R (400 # Z.to_pos (k * (k + 1))) = (400 / IZR k - 4) - (400 / (IZR k + 1) - 4).
Proof.
  intros k Hk. rewrite Q2R_frac, Z2Pos.id by nia. rewrite mult_IZR, plus_IZR.
  assert (1 <= IZR k) by (apply IZR_le; lia). field. lra.
Qed.

(** One row: the error grows by at most residual times length. *)
Lemma row_step : forall k c cs B s, (1 <= k)%Z -> (k <= 99)%Z -> Q2R c = 2 * IZR k + 1 ->
  Rabs (pe cs (-1) - Y (400 / IZR k - 4)) <= B ->
  400 / (IZR k + 1) - 4 <= s <= 400 / IZR k - 4 ->
  Rabs (row_value (Q2R c) cs s - Y s)
  <= B + (Q2R (pabs (row_res c cs)) / IZR k + 1 / 10000000000000000) * (400 / IZR k - 400 / (IZR k + 1)).
Proof.
  intros k c cs B s H1 H2 Hc HB Hs.
  assert (K1 : 1 <= IZR k) by (apply IZR_le; lia). assert (K2 : IZR k <= 99) by (apply IZR_le; lia).
  assert (L0 : 0 <= 400 / (IZR k + 1) - 4).
  { apply Rmult_le_reg_r with (IZR k + 1); [lra |]. replace ((400 / (IZR k + 1) - 4) * (IZR k + 1)) with (400 - 4 * (IZR k + 1)) by (field; lra). lra. }
  set (b := 400 / IZR k - 4) in *.
  set (rho := Q2R (pabs (row_res c cs)) / IZR k + 1 / 10000000000000000).
  assert (R0 : 0 <= rho).
  { unfold rho. pose proof (pabs_R0 (row_res c cs)).
    assert (0 <= Q2R (pabs (row_res c cs)) / IZR k) by (apply Rdiv_le_0_compat; lra). lra. }
  assert (Hend : row_value (Q2R c) cs b = pe cs (-1)).
  { unfold row_value, b. f_equal. rewrite Hc. field. lra. }
  eapply Rle_trans.
  - apply (segment (row_value (Q2R c) cs) (row_slope (Q2R c) cs) s rho ltac:(lra) R0 b); [lra | |].
    + intros x Hx. apply row_derive. lra.
    + intros x Hx. set (z := 400 / (4 + x)).
      assert (Zx : IZR k <= z <= IZR k + 1).
      { unfold z. unfold b in Hx.
        assert (E1 : 4 + x <= 400 / IZR k) by lra. assert (E2 : 400 / (IZR k + 1) <= 4 + x) by lra.
        split.
        - apply Rmult_le_reg_r with (4 + x); [lra |]. replace (400 / (4 + x) * (4 + x)) with 400 by (field; lra).
          apply Rmult_le_compat_l with (r := IZR k) in E1; [| lra].
          replace (IZR k * (400 / IZR k)) with 400 in E1 by (field; lra). exact E1.
        - apply Rmult_le_reg_r with (4 + x); [lra |]. replace (400 / (4 + x) * (4 + x)) with 400 by (field; lra).
          apply Rmult_le_compat_l with (r := IZR k + 1) in E2; [| lra].
          replace ((IZR k + 1) * (400 / (IZR k + 1))) with 400 in E2 by (field; lra). exact E2. }
      pose proof (row_res_ok c cs x ltac:(lra)) as E. fold z in E.
      set (w := row_slope (Q2R c) cs x - 2 * x * row_value (Q2R c) cs x + Q2R cq) in E.
      assert (Hw : Rabs w <= Q2R (pabs (row_res c cs)) / IZR k).
      { pose proof (pe_bound (row_res c cs) (2 * z - Q2R c)) as PB.
        rewrite <- E in PB. rewrite Hc in PB. specialize (PB ltac:(apply Rabs_le; lra)).
        rewrite Rabs_mult, (Rabs_pos_eq z) in PB by lra.
        apply Rmult_le_reg_r with (IZR k); [lra |].
        replace (Q2R (pabs (row_res c cs)) / IZR k * IZR k) with (Q2R (pabs (row_res c cs))) by (field; lra).
        eapply Rle_trans; [| exact PB]. rewrite Rmult_comm. apply Rmult_le_compat_r; [apply Rabs_pos | lra]. }
      replace (row_slope (Q2R c) cs x - 2 * x * row_value (Q2R c) cs x + C2) with (w + (C2 - Q2R cq)) by (unfold w; ring).
      eapply Rle_trans; [apply Rabs_triang |]. unfold rho.
      pose proof C2_bound as CB. unfold cq. rewrite Q2R_frac. lra.
  - rewrite Hend. apply Rplus_le_compat; [exact HB |].
    apply Rmult_le_compat_l; [exact R0 | unfold b in *; lra].
Qed.

Lemma total_ge : forall rows k B v, (1 <= k)%Z -> Q2R B <= Q2R (total k B v rows).
Proof.
  induction rows as [| [c cs] rows IH]; intros k B v Hk; [simpl; lra |].
  cbn [total]. eapply Rle_trans; [| apply IH; lia].
  rewrite Q2R_red, !Q2R_plus, Q2R_mult, Q2R_plus, Q2R_mult, inv_pos_R by lia.
  pose proof (Qabs_R0 (v - pev cs (- (1)))). pose proof (pabs_R0 (row_res c cs)).
  assert (K1 : 1 <= IZR k) by (apply IZR_le; lia).
  assert (0 <= Q2R (pabs (row_res c cs)) * / IZR k) by (apply Rmult_le_pos; [lra | left; apply Rinv_0_lt_compat; lra]).
  assert (0 <= Q2R (400 # Z.to_pos (k * (k + 1)))).
  { rewrite Q2R_frac. apply Rdiv_le_0_compat; [lra | apply IZR_lt; lia]. }
  assert (0 <= Q2R (1 # 10000000000000000)) by (rewrite Q2R_frac; lra).
  assert (0 <= (Q2R (pabs (row_res c cs)) * / IZR k + Q2R (1 # 10000000000000000)) * Q2R (400 # Z.to_pos (k * (k + 1)))) by (apply Rmult_le_pos; lra).
  lra.
Qed.

Lemma rows_ok : forall rows k B v, (1 <= k)%Z -> (k + Z.of_nat (length rows) <= 100)%Z ->
  centred k rows = true ->
  Rabs (Q2R v - Y (400 / IZR k - 4)) <= Q2R B ->
  forall j c cs, nth_error rows j = Some (c, cs) ->
  forall s, 400 / (IZR (k + Z.of_nat j) + 1) - 4 <= s <= 400 / IZR (k + Z.of_nat j) - 4 ->
  Q2R c = 2 * IZR (k + Z.of_nat j) + 1 /\
  Rabs (row_value (Q2R c) cs s - Y s) <= Q2R (total k B v rows).
Proof.
  induction rows as [| [c0 cs0] rows IH]; intros k B v Hk Hlen Hc HB j c cs Hj s Hs.
  - destruct j; discriminate.
  - cbn [centred] in Hc. apply andb_prop in Hc. destruct Hc as [Hc0 Hc].
    apply Qeq_bool_eq in Hc0. apply Qeq_eqR in Hc0. rewrite Q2R_Z, plus_IZR, mult_IZR in Hc0.
    cbn [length] in Hlen.
    set (B' := Qred (B + Qabs (v - pev cs0 (- (1))) +
               (pabs (row_res c0 cs0) * (1 # Z.to_pos k) + (1 # 10000000000000000)) * (400 # Z.to_pos (k * (k + 1))))).
    assert (K1 : 1 <= IZR k) by (apply IZR_le; lia).
    assert (Step : forall s, 400 / (IZR k + 1) - 4 <= s <= 400 / IZR k - 4 -> Rabs (row_value (Q2R c0) cs0 s - Y s) <= Q2R B').
    { intros x Hx. eapply Rle_trans.
      - apply (row_step k c0 cs0 (Q2R B + Q2R (Qabs (v - pev cs0 (- (1)))))); try assumption; try lia.
        rewrite Q2R_abs, Q2R_minus, pe_pev, Q2R_opp, Q2R_1. replace (- (1)) with (-1) by lra.
        replace (pe cs0 (-1) - Y (400 / IZR k - 4)) with ((Q2R v - Y (400 / IZR k - 4)) + - (Q2R v - pe cs0 (-1))) by ring.
        eapply Rle_trans; [apply Rabs_triang |]. rewrite Rabs_Ropp. lra.
      - unfold B'. rewrite Q2R_red, !Q2R_plus, Q2R_mult, Q2R_plus, Q2R_mult, inv_pos_R, gap_R by lia.
        rewrite (Q2R_frac 1 10000000000000000). right. unfold Rdiv. ring. }
    change (total k B v ((c0, cs0) :: rows)) with (total (k + 1) B' (pev cs0 1) rows).
    destruct j as [| j].
    + cbn [nth_error] in Hj. injection Hj as <- <-. cbn [Z.of_nat] in *. rewrite Z.add_0_r in *.
      split; [lra |]. eapply Rle_trans; [apply Step; exact Hs | apply total_ge; lia].
    + cbn [nth_error] in Hj. replace (k + Z.of_nat (S j))%Z with (k + 1 + Z.of_nat j)%Z in * by lia.
      apply (IH (k + 1)%Z B' (pev cs0 1)) with (j := j); try assumption; try lia.
      rewrite plus_IZR, pe_pev, Q2R_1.
      replace (pe cs0 1) with (row_value (Q2R c0) cs0 (400 / (IZR k + 1) - 4)).
      * apply Step. assert (400 / (IZR k + 1) <= 400 / IZR k); [| lra].
        unfold Rdiv. apply Rmult_le_compat_l; [lra |]. apply Rinv_le_contravar; lra.
      * unfold row_value. f_equal. rewrite Hc0. field. lra.
Qed.

(** The first row in use starts where the large-argument branch is still accurate. *)
Definition S1_Q (x : Q) : Q :=
  ((5641895835477563 # 10000000000000000) * (x * x * (x * x + (9 # 2)) + (2 # 1))) / (x * (x * x * (x * x + (5 # 1)) + (15 # 4))).
Definition start : Q := (372 # 7).
Definition v7 : Q := Eval vm_compute in Qred (S1_Q start).

Lemma start_ok : Rabs (Q2R v7 - Y (400 / IZR 7 - 4)) <= Q2R (2 # 10000000000000000).
Proof.
  replace (Q2R v7) with (S1 (400 / IZR 7 - 4)).
  - rewrite Q2R_frac. apply S1_accurate. lra.
  - transitivity (Q2R (S1_Q start)).
    + unfold S1_Q. rewrite Q2R_div by (vm_compute; discriminate).
      repeat rewrite ?Q2R_mult, ?Q2R_plus. unfold start. rewrite !Q2R_frac. unfold S1, a0. field.
    + apply Qeq_eqR. vm_compute. reflexivity.
Qed.

Lemma total_small : (total 7 (2 # 10000000000000000) v7 (skipn 7 table_Q) <= 9 # 10000000000000)%Q.
Proof. vm_compute. discriminate. Qed.
Lemma table_centred : centred 7 (skipn 7 table_Q) = true.
Proof. vm_compute. reflexivity. Qed.
Lemma table_length : length table_Q = 100%nat.
Proof. reflexivity. Qed.

Lemma helper_accurate : forall x, 0 < x <= 372 / 7 ->
  Rabs (math.erfcx_helper (400 / (4 + x)) - Y x) <= 9 / 10000000000000.
Proof.
  intros x Hx. set (z := 400 / (4 + x)).
  assert (Ez : z * (4 + x) = 400) by (unfold z; field; lra).
  assert (Zb : 7 <= z < 100) by (split; nra).
  set (k := Int_part z). destruct (base_Int_part z) as [A Bz]. fold k in A, Bz.
  assert (K7 : (7 <= k)%Z). { assert (6 < k)%Z; [apply lt_IZR; lra | lia]. }
  assert (K99 : (k <= 99)%Z). { assert (k < 100)%Z; [apply lt_IZR; lra | lia]. }
  set (j := Z.to_nat (k - 7)). assert (Ej : (7 + Z.of_nat j = k)%Z) by (unfold j; lia).
  destruct (nth_error (skipn 7 table_Q) j) as [[c cs] |] eqn:En.
  - assert (Hrange : 400 / (IZR (7 + Z.of_nat j) + 1) - 4 <= x <= 400 / IZR (7 + Z.of_nat j) - 4).
    { rewrite Ej. assert (7 <= IZR k) by (apply IZR_le; lia). split.
      - apply Rmult_le_reg_r with (IZR k + 1); [lra |].
        replace ((400 / (IZR k + 1) - 4) * (IZR k + 1)) with (400 - 4 * (IZR k + 1)) by (field; lra). nra.
      - apply Rmult_le_reg_r with (IZR k); [lra |].
        replace ((400 / IZR k - 4) * IZR k) with (400 - 4 * IZR k) by (field; lra). nra. }
    destruct (rows_ok (skipn 7 table_Q) 7 (2 # 10000000000000000) v7 ltac:(lia) ltac:(rewrite skipn_length, table_length; cbn; lia)
                table_centred start_ok j c cs En x Hrange) as [Hc H].
    rewrite (helper_row z (Z.to_nat k) c cs).
    + eapply Rle_trans; [exact H |]. pose proof (Qle_Rle _ _ total_small) as T. rewrite Q2R_frac in T. exact T.
    + rewrite <- En. replace (Z.to_nat k) with (7 + j)%nat by lia. clear. revert j. generalize table_Q.
      intros l j. destruct l as [| r0 [| r1 [| r2 [| r3 [| r4 [| r5 [| r6 l]]]]]]]; try reflexivity; destruct j; reflexivity.
    + lia.
    + rewrite INR_IZR_INZ, Z2Nat.id by lia. lra.
  - exfalso. apply nth_error_None in En. rewrite skipn_length, table_length in En. lia.
Qed.

(** ** erfcx *)

Lemma erfcx_accurate : forall x, 0 <= x -> Rabs (math.erfcx x - Y x) <= 1 / 10 ^ 12.
Proof.
  intros x Hx. unfold math.erfcx.
  change (sdec 0 0 <=? x)%S with (Rleb 0 x). unfold Rleb at 1. destruct (Rle_dec 0 x) as [_ | n]; [| lra].
  change (sdec 50 0 <=? x)%S with (Rleb 50 x). unfold Rleb at 1. destruct (Rle_dec 50 x) as [H50 | H50].
  - change (sdec 50000000 0 <? x)%S with (Rltb 50000000 x). unfold Rltb. destruct (Rlt_dec 50000000 x) as [HL | HL].
    + eapply Rle_trans; [apply (S2_accurate x); lra | lra].
    + eapply Rle_trans; [| apply Rle_trans with (1 := S1_accurate x H50); lra].
      right. f_equal. f_equal. unfold S1, a0. unR. try field. 
      all: try nra.
  - destruct (Req_dec x 0) as [-> | N].
    + replace (sdec 400 0 / (sdec 4 0 + 0))%S with 100 by (unR; field).
      rewrite helper_100, Y_0. replace (1 - 1) with 0 by ring. rewrite Rabs_R0. lra.
    + eapply Rle_trans; [apply (helper_accurate x); lra | lra].
Qed.
