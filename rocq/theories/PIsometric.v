(** Properties of the isometric freely jointed chain. *)
From Coq Require Import Reals ZArith List Lra Lia Factorial.
From Coquelicot Require Import Coquelicot.
From Verif Require Import Scalar MConst MTreloar MFjc SpecThermo SpecWalk SpecIsometric PBase PQuad PIrwinHall PWalk PTreloar.
Import ListNotations.
Open Scope R_scope.

Lemma ih_arg_pos : forall n g, (2 <= n)%nat -> 0 < g < 1 -> 0 < ih (n - 2) n (arg n g).
Proof.
  intros n g Hn Hg. assert (0 < INR n) by (apply lt_0_INR; lia).
  pose proof (h_pos (n - 2) (INR n * g)) as A. unfold h in A. replace (S (S (n - 2))) with n in A by lia.
  replace ((INR n - INR n * g) / 2) with (arg n g) in A by (unfold arg; field).
  apply A. split; [apply Rmult_lt_0_compat; lra|]. nra.
Qed.

Lemma ih_arg_derive : forall n g, (3 <= n)%nat -> 0 < g < 1 -> (n <> 3)%nat \/ g <> 1 / 3 ->
  is_derive (fun g => ih (n - 2) n (arg n g)) g (- (INR n / 2) * ih (n - 3) n (arg n g)).
Proof.
  intros n g Hn Hg H.
  evar_last.
  - apply (is_derive_comp (V := R_NormedModule) (ih (n - 2) n) (arg n)).
    + replace (n - 2)%nat with (S (n - 3)) by lia. apply ih_derive.
      destruct (Nat.eq_dec n 3) as [->|N]; [right | left; lia].
      destruct H as [H|H]; [lia|]. intros s Hs. unfold arg. replace (INR 3) with 3 by (simpl; ring).
      destruct s as [|[|[|[|s]]]]; try lia; simpl INR; lra.
    + unfold arg. auto_derive; [exact I | reflexivity].
  - unfold scal; simpl; unfold mult; simpl. field.
Qed.

Lemma lnP_derive : forall n g, (2 <= n)%nat -> 0 < g < 1 -> (n <> 3)%nat \/ g <> 1 / 3 ->
  is_derive (fun g => - ln (P n g)) g (INR n * F n g).
Proof.
  intros n g Hn Hg H. assert (Pn : 0 < INR n) by (apply lt_0_INR; lia). pose proof PI_RGT_0 as Hpi.
  pose proof (ih_arg_pos n g Hn Hg) as Hpos.
  set (q := fun g => ih (n - 2) n (arg n g)) in *. fold (q g) in Hpos.
  set (dq := (INR n - 2) * INR n / (INR n * 2) * (INR n * S_sum n (n - 3) g / S_sum n (n - 2) g)).
  assert (Q : is_derive (fun g => ln (q g)) g (- ((INR n / 2 - 1) * S_sum n (n - 3) g / S_sum n (n - 2) g))).
  { destruct (Nat.eq_dec n 2) as [->|N].
    - replace (- ((INR 2 / 2 - 1) * S_sum 2 (2 - 3) g / S_sum 2 (2 - 2) g)) with 0 
        by (replace (INR 2 / 2 - 1) with 0 by (simpl; field); unfold Rdiv; ring).
      apply is_derive_ext_loc with (f := fun _ => ln 1).
      + exists (mkposreal (Rmin g (1 - g)) ltac:(apply Rmin_pos; lra)). intros y Hy.
        assert (Hy' : Rabs (y - g) < Rmin g (1 - g)) by exact Hy. apply Rabs_def2 in Hy'.
        pose proof (Rmin_l g (1 - g)). pose proof (Rmin_r g (1 - g)).
        f_equal. unfold q, arg. cbn [ih fact Nat.sub]. unfold pp. replace (INR 2) with 2 by (simpl; ring).
        repeat match goal with |- context [Rlt_dec ?a ?b] => destruct (Rlt_dec a b) end; simpl; try (exfalso; lra); field.
      + apply is_derive_Reals. apply derivable_pt_lim_const.
    - evar_last.
      + apply (is_derive_comp (V := R_NormedModule) ln q).
        * apply is_derive_Reals. apply derivable_pt_lim_ln. exact Hpos.
        * apply ih_arg_derive; (lia || assumption).
      + unfold scal; simpl; unfold mult; simpl. unfold S_sum. fold (q g).
        pose proof (fact_neq (n - 3)) as F3.
        replace (fact (n - 2)) with ((n - 2) * fact (n - 3))%nat.
        2:{ replace (n - 2)%nat with (S (n - 3)) by lia. reflexivity. }
        rewrite mult_INR, (minus_INR n 2) by lia. replace (INR 2) with 2 by (simpl; ring).
        replace (INR n ^ (n - 2)) with (INR n * INR n ^ (n - 3)).
        2:{ replace (n - 2)%nat with (S (n - 3)) by lia. reflexivity. }
        assert (INR n ^ (n - 3) <> 0) by (apply pow_nonzero; lra).
        assert (2 < INR n). { replace 2 with (INR 2) by (simpl; ring). apply lt_INR. lia. }
        field. repeat split; lra. }
  clear dq.
  apply is_derive_ext_loc with (f := fun y => - (ln (INR n ^ 2 / (8 * PI)) - ln y + ln (q y))).
  - exists (mkposreal (Rmin g (1 - g)) ltac:(apply Rmin_pos; lra)). intros y Hy.
    assert (Hy' : Rabs (y - g) < Rmin g (1 - g)) by exact Hy. apply Rabs_def2 in Hy'.
    pose proof (Rmin_l g (1 - g)). pose proof (Rmin_r g (1 - g)).
    assert (Py : 0 < y < 1) by lra. pose proof (ih_arg_pos n y Hn Py) as Qy. fold (q y) in Qy.
    unfold P. fold (q y). apply f_equal.
    assert (0 < INR n ^ 2) by (apply pow_lt; exact Pn).
    assert (0 < INR n ^ 2 / (8 * PI)) by (apply Rdiv_lt_0_compat; lra).
    rewrite ln_mult; [|apply Rdiv_lt_0_compat; [lra|apply Rmult_lt_0_compat; lra] | exact Qy].
    replace (INR n ^ 2 / (8 * PI * y)) with (INR n ^ 2 / (8 * PI) * / y) by (field; lra).
    rewrite ln_mult, ln_Rinv by (assumption || lra || (apply Rinv_0_lt_compat; lra)). ring.
  - evar_last.
    + apply (is_derive_opp (V := R_NormedModule)). apply (is_derive_plus (V := R_NormedModule)); [|exact Q].
      apply (is_derive_minus (V := R_NormedModule)).
      * apply is_derive_Reals. apply derivable_pt_lim_const.
      * apply is_derive_Reals. apply derivable_pt_lim_ln. lra.
    + unfold F. set (z := (INR n / 2 - 1) * S_sum n (n - 3) g / S_sum n (n - 2) g).
      change (- (0 + - / g + - z) = INR n * ((1 / g + z) / INR n)). field. lra.
Qed.

(** The free energies in closed form. *)
Lemma helmholtz_ok : forall prof n l m g T, (2 <= n <= 26)%nat -> 0 < l -> 0 < g < 1 ->
  fjc_isometric.nondimensional_helmholtz_free_energy prof (Z.of_nat n) l m g T
  = Some (- ln (P n g) + (ln ((INR n * l) ^ 3) - (INR n - 1) * ln (8 * PI ^ 2 * m * l ^ 2 * kB * T / hP ^ 2))).
Proof.
  intros prof n l m g T Hn Hl Hg. assert (Pn : 0 < INR n) by (apply lt_0_INR; lia).
  unfold fjc_isometric.nondimensional_helmholtz_free_energy, fjc_isometric.equilibrium_distribution.
  change (@sofZ R R_scalar) with IZR. rewrite <- INR_IZR_INZ.
  replace (sdiv (smul (smul g (INR n)) l) (smul (INR n) l)) with g.
  2:{ change (g = g * INR n * l / (INR n * l)). field. lra. }
  rewrite distribution_ok by assumption. cbn [bind]. f_equal.
  change (- ln (P n g / (INR n * l) ^ 3) - (INR n - 1) * ln (8 * PI ^ 2 * m * l ^ 2 * kB * T / hP ^ 2)
    = - ln (P n g) + (ln ((INR n * l) ^ 3) - (INR n - 1) * ln (8 * PI ^ 2 * m * l ^ 2 * kB * T / hP ^ 2))).
  pose proof (P_pos n g ltac:(lia) Hg).
  assert (0 < (INR n * l) ^ 3) by (apply pow_lt, Rmult_lt_0_compat; lra).
  rewrite ln_div by assumption. ring.
Qed.

Lemma relative_ok : forall prof n g, (2 <= n <= 26)%nat -> 0 < g < 1 ->
  fjc_isometric.nondimensional_relative_helmholtz_free_energy prof (Z.of_nat n) g
  = Some (- ln (P n g) + ln (P n ZERO)).
Proof.
  intros prof n g Hn Hg. assert (Z0 : 0 < (ZERO : R) < 1) by (rewrite Z_eq; simpl; lra).
  unfold fjc_isometric.nondimensional_relative_helmholtz_free_energy.
  rewrite !distribution_ok by assumption. cbn [bind]. f_equal.
  change (ln (P n ZERO / P n g) = - ln (P n g) + ln (P n ZERO)).
  pose proof (P_pos n g ltac:(lia) Hg). pose proof (P_pos n ZERO ltac:(lia) Z0).
  rewrite ln_div by assumption. ring.
Qed.

Lemma helmholtz_shift : forall prof n l m T, (2 <= n <= 26)%nat -> 0 < l -> exists c, forall g, 0 < g < 1 ->
  fjc_isometric.nondimensional_helmholtz_free_energy prof (Z.of_nat n) l m g T = Some (- ln (P n g) + c).
Proof. intros prof n l m T Hn Hl. eexists. intros g Hg. apply helmholtz_ok; assumption. Qed.

Lemma relative_shift : forall prof n, (2 <= n <= 26)%nat -> exists c, forall g, 0 < g < 1 ->
  fjc_isometric.nondimensional_relative_helmholtz_free_energy prof (Z.of_nat n) g = Some (- ln (P n g) + c).
Proof. intros prof n Hn. eexists. intros g Hg. apply relative_ok; assumption. Qed.

Lemma Rdiv_1 : forall x, x / 1 = x.
Proof. intro x. field. Qed.

Section Conj.
Variables (prof : profile) (n : nat).
Hypothesis Hn : (2 <= n <= 26)%nat.

Let Pn : 0 < INR n. Proof. apply lt_0_INR. lia. Qed.

Lemma derive_shift : forall c g, 0 < g < 1 -> (n <> 3)%nat \/ g <> 1 / 3 ->
  is_derive (fun y => - ln (P n y) + c) g (INR n * F n g).
Proof.
  intros c g Hg H. evar_last.
  - apply (is_derive_plus (V := R_NormedModule)); [apply lnP_derive; [lia|exact Hg|exact H]|].
    apply is_derive_Reals. apply derivable_pt_lim_const.
  - unfold plus; simpl. ring.
Qed.

Lemma conj_nondimensional : forall l m T g, 0 < l -> 0 < g < 1 -> (n <> 3)%nat \/ g <> 1 / 3 ->
  conjugate (fun y => fjc_isometric.nondimensional_helmholtz_free_energy prof (Z.of_nat n) l m y T)
    (fjc_isometric.nondimensional_force prof (Z.of_nat n)) 0 1 (INR n) g /\
  conjugate (fun y => fjc_isometric.nondimensional_helmholtz_free_energy_per_link prof (Z.of_nat n) l m y T)
    (fjc_isometric.nondimensional_force prof (Z.of_nat n)) 0 1 1 g /\
  conjugate (fjc_isometric.nondimensional_relative_helmholtz_free_energy prof (Z.of_nat n))
    (fjc_isometric.nondimensional_force prof (Z.of_nat n)) 0 1 (INR n) g /\
  conjugate (fjc_isometric.nondimensional_relative_helmholtz_free_energy_per_link prof (Z.of_nat n))
    (fjc_isometric.nondimensional_force prof (Z.of_nat n)) 0 1 1 g.
Proof.
  intros l m T g Hl Hg H.
  assert (Fo : fjc_isometric.nondimensional_force prof (Z.of_nat n) g = Some (F n g)) by (apply force_ok; [lia | exact Hg]).
  assert (D : forall c, is_derive (fun y => (- ln (P n y) + c) / INR n) g (1 * F n g)).
  { intro c. evar_last.
    - apply (is_derive_scal_l (K := R_AbsRing) (V := R_NormedModule) (fun y => - ln (P n y) + c) g (INR n * F n g) (/ INR n)).
      apply derive_shift; assumption.
    - unfold scal; simpl; unfold mult; simpl. field. apply Rgt_not_eq. exact Pn. }
  destruct (helmholtz_shift prof n l m T Hn Hl) as (c & Hc). destruct (relative_shift prof n Hn) as (c' & Hc').
  repeat split.
  - exists (fun y => - ln (P n y) + c), (F n g). split; [exact Hc|]. split; [exact Fo|].
    apply derive_shift; assumption.
  - exists (fun y => (- ln (P n y) + c) / INR n), (F n g). split; [|split; [exact Fo | apply D]].
    intros y Hy. unfold fjc_isometric.nondimensional_helmholtz_free_energy_per_link.
    rewrite Hc by assumption. cbn [bind]. rewrite INR_IZR_INZ. reflexivity.
  - exists (fun y => - ln (P n y) + c'), (F n g). split; [exact Hc'|]. split; [exact Fo|].
    apply derive_shift; assumption.
  - exists (fun y => (- ln (P n y) + c') / INR n), (F n g). split; [|split; [exact Fo | apply D]].
    intros y Hy. unfold fjc_isometric.nondimensional_relative_helmholtz_free_energy_per_link.
    rewrite Hc' by assumption. cbn [bind]. rewrite INR_IZR_INZ. reflexivity.
Qed.

Lemma conj_dimensional : forall l m T xi, 0 < l -> 0 < T -> 0 < xi < INR n * l -> (n <> 3)%nat \/ xi <> l ->
  conjugate (fun y => fjc_isometric.helmholtz_free_energy prof (Z.of_nat n) l m y T)
    (fun y => fjc_isometric.force prof (Z.of_nat n) l y T) 0 (INR n * l) 1 xi /\
  conjugate (fun y => fjc_isometric.helmholtz_free_energy_per_link prof (Z.of_nat n) l m y T)
    (fun y => fjc_isometric.force prof (Z.of_nat n) l y T) 0 (INR n * l) (1 / INR n) xi /\
  conjugate (fun y => fjc_isometric.relative_helmholtz_free_energy prof (Z.of_nat n) l y T)
    (fun y => fjc_isometric.force prof (Z.of_nat n) l y T) 0 (INR n * l) 1 xi /\
  conjugate (fun y => fjc_isometric.relative_helmholtz_free_energy_per_link prof (Z.of_nat n) l y T)
    (fun y => fjc_isometric.force prof (Z.of_nat n) l y T) 0 (INR n * l) (1 / INR n) xi.
Proof.
  intros l m T xi Hl HT Hxi H. pose proof kB_pos as Hk.
  assert (Pl : 0 < INR n * l) by (apply Rmult_lt_0_compat; [apply Pn | exact Hl]).
  assert (In : forall y, 0 < y < INR n * l -> 0 < y / (INR n * l) < 1).
  { intros y Hy. split; [apply Rdiv_lt_0_compat; lra|]. apply Rmult_lt_reg_r with (INR n * l); [exact Pl|].
    unfold Rdiv. rewrite Rmult_assoc, Rinv_l by lra. lra. }
  set (g := xi / (INR n * l)).
  assert (Hg : 0 < g < 1) by (apply In; exact Hxi).
  assert (Hex : (n <> 3)%nat \/ g <> 1 / 3).
  { destruct H as [H|H]; [left; exact H|]. destruct (Nat.eq_dec n 3) as [E|N]; [right | left; exact N].
    intro Eg. apply H. unfold g in Eg. rewrite E in *. replace (INR 3) with 3 in * by (simpl; ring).
    apply (f_equal (fun z => z * (3 * l))) in Eg. unfold Rdiv in Eg. rewrite Rmult_assoc, Rinv_l in Eg by lra. lra. }
  assert (Fo : fjc_isometric.force prof (Z.of_nat n) l xi T = Some (F n g * kB * T / l)).
  { unfold fjc_isometric.force. change (@sofZ R R_scalar) with IZR. rewrite <- INR_IZR_INZ.
    change (sdiv xi (smul (INR n) l)) with g. rewrite force_ok by (lia || assumption). reflexivity. }
  assert (D : forall c (k : R), is_derive (fun y => (- ln (P n (y / (INR n * l))) + c) / k * kB * T) xi (1 / k * (F n g * kB * T / l))).
  { intros c k. evar_last.
    - apply is_derive_ext with (f := fun y => (/ k * kB * T) * (- ln (P n (y / (INR n * l))) + c)).
      + intro t. match goal with |- ?a = ?b => change (@eq R a b) end. unfold Rdiv. ring.
      + apply (is_derive_scal (fun y => - ln (P n (y / (INR n * l))) + c)).
        apply (is_derive_comp (V := R_NormedModule) (fun y => - ln (P n y) + c) (fun y => y / (INR n * l))).
        * apply derive_shift; assumption.
        * auto_derive; [exact I | reflexivity].
    - unfold scal; simpl; unfold mult; simpl. fold g. unfold Rdiv. rewrite !Rinv_mult.
      replace (1 * (/ INR n * / l) * (INR n * F n g)) with (/ INR n * INR n * / l * F n g) by ring.
      rewrite Rinv_l by (apply Rgt_not_eq; apply Pn). ring. }
  assert (Arg : forall y, sdiv y (smul (sofZ (Z.of_nat n)) l) = y / (INR n * l)).
  { intro y. rewrite INR_IZR_INZ. reflexivity. }
  destruct (helmholtz_shift prof n l m T Hn Hl) as (c & Hc). destruct (relative_shift prof n Hn) as (c' & Hc').
  repeat split.
  - exists (fun y => (- ln (P n (y / (INR n * l))) + c) / 1 * kB * T), (F n g * kB * T / l).
    split; [|split; [exact Fo |]].
    + intros y Hy. unfold fjc_isometric.helmholtz_free_energy. rewrite Arg, Hc by (apply In, Hy).
      cbn [bind]. apply f_equal. rewrite Rdiv_1. reflexivity.
    + pose proof (D c 1) as X. rewrite (Rdiv_1 1) in X. exact X.
  - exists (fun y => (- ln (P n (y / (INR n * l))) + c) / INR n * kB * T), (F n g * kB * T / l).
    split; [|split; [exact Fo | apply D]].
    intros y Hy. unfold fjc_isometric.helmholtz_free_energy_per_link, fjc_isometric.nondimensional_helmholtz_free_energy_per_link.
    rewrite Arg, Hc by (apply In, Hy). cbn [bind]. rewrite (INR_IZR_INZ n). reflexivity.
  - exists (fun y => (- ln (P n (y / (INR n * l))) + c') / 1 * kB * T), (F n g * kB * T / l).
    split; [|split; [exact Fo |]].
    + intros y Hy. unfold fjc_isometric.relative_helmholtz_free_energy. rewrite Arg, Hc' by (apply In, Hy).
      cbn [bind]. apply f_equal. rewrite Rdiv_1. reflexivity.
    + pose proof (D c' 1) as X. rewrite (Rdiv_1 1) in X. exact X.
  - exists (fun y => (- ln (P n (y / (INR n * l))) + c') / INR n * kB * T), (F n g * kB * T / l).
    split; [|split; [exact Fo | apply D]].
    intros y Hy. unfold fjc_isometric.relative_helmholtz_free_energy_per_link, fjc_isometric.nondimensional_relative_helmholtz_free_energy_per_link.
    rewrite Arg, Hc' by (apply In, Hy). cbn [bind]. rewrite (INR_IZR_INZ n). reflexivity.
Qed.
End Conj.

(** With three links the energy has a kink where the second term enters the sum. *)
Lemma three_links_kink : forall prof l m T, 0 < l ->
  ~ exists A : R -> R, (forall y, 0 < y < 1 ->
      fjc_isometric.nondimensional_helmholtz_free_energy prof 3 l m y T = Some (A y)) /\ ex_derive A (1 / 3).
Proof.
  intros prof l m T Hl (A & HA & d & D).
  set (c := ln ((INR 3 * l) ^ 3) - (INR 3 - 1) * ln (8 * PI ^ 2 * m * l ^ 2 * kB * T / hP ^ 2)).
  assert (E : forall y, 0 < y < 1 -> A y = - ln (P 3 y) + c).
  { intros y Hy. pose proof (HA y Hy) as X. change 3%Z with (Z.of_nat 3) in X. rewrite helmholtz_ok in X by (lia || assumption).
    fold c in X. congruence. }
  assert (D2 : is_derive (fun y => 8 * PI * y / 9 * exp (- (A y - c))) (1 / 3)
     (8 * PI / 9 * exp (- (A (1 / 3) - c)) + 8 * PI * (1 / 3) / 9 * (- d * exp (- (A (1 / 3) - c))))).
  { assert (ED : is_derive (fun y => exp (- (A y - c))) (1 / 3) (- d * exp (- (A (1 / 3) - c)))).
    { apply (is_derive_comp (V := R_NormedModule) exp (fun y => - (A y - c))).
      - apply is_derive_Reals. apply derivable_pt_lim_exp.
      - evar_last.
        + apply (is_derive_opp (V := R_NormedModule)). apply (is_derive_minus (V := R_NormedModule)); [exact D|].
          apply is_derive_Reals. apply derivable_pt_lim_const.
        + unfold opp, minus, plus; simpl. unfold opp; simpl. ring. }
    evar_last.
    - apply (is_derive_mult (fun y => 8 * PI * y / 9) (fun y => exp (- (A y - c)))).
      + auto_derive; [exact I | reflexivity].
      + exact ED.
      + intros; apply Rmult_comm.
    - unfold plus, mult; simpl. field. }
  set (q := fun y => ih 1 3 (arg 3 y)).
  assert (Eq : forall y, 0 < y < 1 -> 8 * PI * y / 9 * exp (- (A y - c)) = q y).
  { intros y Hy. rewrite E by exact Hy. replace (- (- ln (P 3 y) + c - c)) with (ln (P 3 y)) by ring.
    rewrite exp_ln by (apply P_pos; [lia | exact Hy]). unfold P, q. change (3 - 2)%nat with 1%nat.
    pose proof PI_RGT_0. replace (INR 3) with 3 by (simpl; ring). field. lra. }
  assert (D3 : is_derive q (1 / 3) (8 * PI / 9 * exp (- (A (1 / 3) - c)) + 8 * PI * (1 / 3) / 9 * (- d * exp (- (A (1 / 3) - c))))).
  { apply is_derive_ext_loc with (2 := D2). exists (mkposreal (1 / 3) ltac:(lra)). intros y Hy.
    assert (Hy' : Rabs (y - 1 / 3) < 1 / 3) by exact Hy. apply Rabs_def2 in Hy'. apply Eq. lra. }
  set (L := 8 * PI / 9 * exp (- (A (1 / 3) - c)) + 8 * PI * (1 / 3) / 9 * (- d * exp (- (A (1 / 3) - c)))) in D3.
  apply is_derive_Reals in D3. destruct (D3 1 ltac:(lra)) as (del & Hd).
  set (t := Rmin (del / 2) (1 / 6)).
  assert (Ht : 0 < t <= 1 / 6) by (split; [apply Rmin_pos; [destruct del; simpl; lra | lra] | apply Rmin_r]).
  assert (Htd : t < del) by (apply Rle_lt_trans with (del / 2); [apply Rmin_l | destruct del; simpl; lra]).
  pose proof (Hd t ltac:(lra) ltac:(rewrite Rabs_right; lra)) as U.
  pose proof (Hd (- t) ltac:(lra) ltac:(rewrite Rabs_left; lra)) as V.
  assert (Q0 : q (1 / 3) = 1).
  { unfold q, arg. cbn [ih fact Nat.mul Nat.add]. unfold pp. replace (INR 3) with 3 by (simpl; ring).
    repeat match goal with |- context [Rlt_dec ?a ?b] => destruct (Rlt_dec a b) end; simpl; try (exfalso; lra); field. }
  assert (Qp : q (1 / 3 + t) = 1 - 3 / 2 * t).
  { unfold q, arg. cbn [ih fact Nat.mul Nat.add]. unfold pp. replace (INR 3) with 3 by (simpl; ring).
    repeat match goal with |- context [Rlt_dec ?a ?b] => destruct (Rlt_dec a b) end; simpl; try (exfalso; lra); field. }
  assert (Qm : q (1 / 3 + - t) = 1 - 3 * t).
  { unfold q, arg. cbn [ih fact Nat.mul Nat.add]. unfold pp. replace (INR 3) with 3 by (simpl; ring).
    repeat match goal with |- context [Rlt_dec ?a ?b] => destruct (Rlt_dec a b) end; simpl; try (exfalso; lra); field. }
  rewrite Qp, Q0 in U. rewrite Qm, Q0 in V.
  replace ((1 - 3 / 2 * t - 1) / t) with (- (3 / 2)) in U by (field; lra).
  replace ((1 - 3 * t - 1) / - t) with 3 in V by (field; lra).
  apply Rabs_def2 in U. apply Rabs_def2 in V. lra.
Qed.

(** ** The domain on which the functions return *)
Lemma sum_none_zero : forall n m e, fjc_thermodynamics.treloar_sum Debug n (IZR n) m 0 e = None.
Proof. intros n m e. unfold fjc_thermodynamics.treloar_sum. rewrite wrap_out by lia. reflexivity. Qed.

Lemma sum_none : forall n (m : R) k e, (0 <= n <= 255)%Z -> (35 <= n \/ n + 2 <= k)%Z ->
  fjc_thermodynamics.treloar_sum Debug n (IZR n) m k e = None.
Proof.
  intros n m k e Hn H. unfold fjc_thermodynamics.treloar_sum.
  destruct (wrap Debug U128_MAX (k - 1)) as [last|] eqn:W; [|reflexivity]. cbn [bind].
  assert (Hl : last = (k - 1)%Z /\ (1 <= k)%Z).
  { unfold wrap in W. destruct ((0 <=? k - 1)%Z && (k - 1 <=? U128_MAX)%Z)%bool eqn:B; [|discriminate].
    apply andb_prop in B. destruct B as [B _]. apply Z.leb_le in B. injection W as <-. split; lia. }
  destruct Hl as [-> Hk]. unfold fjc_thermodynamics.collect_u128.
  destruct (k - 1 <? fjc_thermodynamics.VEC_U128_MAX)%Z; [|reflexivity]. cbn [bind].
  replace (k - 1 + 1)%Z with (Z.of_nat (Z.to_nat k)) by lia. rewrite zrange_of_nat.
  destruct (Z_le_dec 35 n) as [L|L].
  - rewrite (mapM_none _ _ _ _ 0%Z); [reflexivity| |].
    + apply in_map_iff. exists 0%nat. split; [reflexivity|]. apply in_seq. lia.
    + unfold fjc_thermodynamics.treloar_term. replace n with (Z.of_nat (Z.to_nat n)) at 1 by lia. rewrite binomial_overflow by lia. reflexivity.
  - rewrite (mapM_none _ _ _ _ (n + 1)%Z); [reflexivity| |].
    + apply in_map_iff. exists (Z.to_nat (n + 1)). split; [lia|]. apply in_seq. lia.
    + unfold fjc_thermodynamics.treloar_term. rewrite binomial_beyond by lia. reflexivity.
Qed.

Lemma sum_some : forall n g e, (2 <= n <= 34)%nat -> 0 < arg n g <= INR n + 1 -> exists v,
  fjc_thermodynamics.treloar_sum Debug (Z.of_nat n) (IZR (Z.of_nat n)) ((1 - g) / 2)
    (scast U128_MAX (sceil (smul (IZR (Z.of_nat n)) ((1 - g) / 2)))) e = Some v.
Proof.
  intros n g e Hn Ha. rewrite <- INR_IZR_INZ. change (smul (INR n) ((1 - g) / 2)) with (arg n g).
  destruct (terms_ok n (arg n g) ltac:(lia) Ha) as (k & Ek & Hk & Lk). rewrite Ek.
  rewrite treloar_sum_ok by lia. eexists. reflexivity.
Qed.

Lemma sum_domain : forall n (g : R) e, (0 <= n <= 255)%Z ->
  fjc_thermodynamics.treloar_sum Debug n (IZR n) ((1 - g) / 2)
    (scast U128_MAX (sceil (smul (IZR n) ((1 - g) / 2)))) e <> None ->
  (2 <= n)%Z -> (n <= 34)%Z /\ -1 - 2 / IZR n <= g < 1.
Proof.
  intros n g e Hn H H2. assert (Pn : 0 < IZR n) by (apply IZR_lt; lia).
  destruct (Z_le_dec 35 n) as [L|L]; [exfalso; apply H, sum_none; [exact Hn | left; exact L]|].
  split; [lia|].
  replace n with (Z.of_nat (Z.to_nat n)) in * by lia. set (k := Z.to_nat n) in *.
  rewrite <- INR_IZR_INZ in *. change (smul (INR k) ((1 - g) / 2)) with (arg k g) in H.
  destruct (Rle_dec (arg k g) 0) as [A|A].
  { exfalso. apply H. rewrite terms_zero by exact A. rewrite INR_IZR_INZ. apply sum_none_zero. }
  destruct (Rlt_dec (INR k + 1) (arg k g)) as [B|B].
  { exfalso. apply H. rewrite INR_IZR_INZ. apply sum_none; [lia|]. right. apply terms_many; [lia | exact B]. }
  unfold arg in A, B. split.
  - apply Rnot_lt_le in B. apply Rmult_le_reg_l with (INR k); [exact Pn|]. unfold Rdiv.
    replace (INR k * (-1 - 2 * / INR k)) with (- INR k - 2) by (field; lra). lra.
  - apply Rnot_le_lt. intro G. apply A. apply Rmult_le_0_l; lra.
Qed.

Lemma arg_domain : forall n g, (2 <= n)%Z -> -1 - 2 / IZR n <= g < 1 -> 0 < arg (Z.to_nat n) g <= INR (Z.to_nat n) + 1.
Proof.
  intros n g H2 Hg. rewrite INR_IZR_INZ in *. unfold arg. rewrite INR_IZR_INZ, Z2Nat.id by lia.
  assert (Pn : 0 < IZR n) by (apply IZR_lt; lia). split; [apply Rmult_lt_0_compat; lra|].
  destruct Hg as [Hg _]. apply (Rmult_le_compat_l (IZR n)) in Hg; [|lra]. unfold Rdiv in Hg.
  replace (IZR n * (-1 - 2 * / IZR n)) with (- IZR n - 2) in Hg by (field; lra). lra.
Qed.

Lemma force_domain : forall n (g : R), (0 <= n <= 255)%Z ->
  (fjc_isometric.nondimensional_force Debug n g <> None <->
   (2 <= n <= 34)%Z /\ -1 - 2 / IZR n <= g < 1).
Proof.
  intros n g Hn. unfold fjc_isometric.nondimensional_force, fjc_thermodynamics.treloar_sums.
  change (@sofZ R R_scalar) with IZR. rewrite m_eq.
  destruct (Z_lt_dec n 2) as [S|S].
  { rewrite wrap_out by lia. split; [intro H; exfalso; apply H; reflexivity | lia]. }
  rewrite wrap_in by (unfold U8_MAX; lia). cbn [bind mapM].
  split.
  - intro H.
    destruct (fjc_thermodynamics.treloar_sum Debug n (IZR n) ((1 - g) / 2)
      (scast U128_MAX (sceil (smul (IZR n) ((1 - g) / 2)))) (n - 2 - 0)) eqn:E; [|exfalso; apply H; reflexivity].
    destruct (sum_domain n g (n - 2 - 0) Hn ltac:(rewrite E; discriminate) ltac:(lia)) as [A B]. split; [lia | exact B].
  - intros [H Hg]. pose proof (arg_domain n g ltac:(lia) Hg) as Ha.
    destruct (sum_some (Z.to_nat n) g (n - 2 - 0) ltac:(lia) Ha) as (v & Ev).
    destruct (sum_some (Z.to_nat n) g (n - 2 - 1) ltac:(lia) Ha) as (w & Ew).
    rewrite Z2Nat.id in Ev, Ew by lia. rewrite Ev. cbn [bind]. rewrite Ew. cbn [bind nth_error]. discriminate.
Qed.

Lemma distribution_domain : forall n (g : R), (0 <= n <= 255)%Z ->
  (fjc_isometric.nondimensional_equilibrium_distribution Debug n g <> None <->
   (2 <= n <= 26)%Z /\ -1 - 2 / IZR n <= g < 1).
Proof.
  intros n g Hn. unfold fjc_isometric.nondimensional_equilibrium_distribution, fjc_thermodynamics.treloar_sum_0_with_prefactor.
  change (@sofZ R R_scalar) with IZR. rewrite m_eq.
  destruct (Z_lt_dec n 2) as [S|S].
  { rewrite wrap_out by lia. split; [intro H; exfalso; apply H; reflexivity | lia]. }
  rewrite wrap_in by (unfold U8_MAX; lia). cbn [bind].
  destruct (Z_le_dec 27 n) as [L|L].
  { replace n with (Z.of_nat (Z.to_nat n)) at 1 2 by lia. rewrite pow_overflow by lia.
    split; [intro H; exfalso; apply H; reflexivity | lia]. }
  replace n with (Z.of_nat (Z.to_nat n)) at 1 2 by lia. rewrite pow_ok by lia. cbn [bind].
  rewrite wrap_in. 2:{ assert (300 < U128_MAX)%Z by (vm_compute; reflexivity). lia. }
  cbn [bind]. replace (n - 2)%Z with (Z.of_nat (Z.to_nat n - 2)) at 1 by lia.
  rewrite product_ok by (apply zfact_small; lia). cbn [bind].
  split.
  - intro H.
    destruct (fjc_thermodynamics.treloar_sum Debug n (IZR n) ((1 - g) / 2)
      (scast U128_MAX (sceil (smul (IZR n) ((1 - g) / 2)))) (n - 2)) eqn:E; [|exfalso; apply H; reflexivity].
    destruct (sum_domain n g (n - 2) Hn ltac:(rewrite E; discriminate) ltac:(lia)) as [A B]. split; [lia | exact B].
  - intros [H Hg]. pose proof (arg_domain n g ltac:(lia) Hg) as Ha.
    destruct (sum_some (Z.to_nat n) g (n - 2) ltac:(lia) Ha) as (v & Ev).
    rewrite Z2Nat.id in Ev by lia. rewrite Ev. cbn [bind]. discriminate.
Qed.

(** Without overflow checks, n^n wraps: the returned value is smaller than the density. *)
Lemma release_wrong : forall n g, (27 <= n <= 34)%nat -> 0 < g < 1 -> exists v,
  fjc_isometric.nondimensional_equilibrium_distribution Release (Z.of_nat n) g = Some v /\
  v < INR n ^ 3 * walk_density n (INR n * g).
Proof.
  intros n g Hn Hg. rewrite <- P_walk by (lia || lra). pose proof (P_pos n g ltac:(lia) Hg) as HP.
  unfold fjc_isometric.nondimensional_equilibrium_distribution, fjc_thermodynamics.treloar_sum_0_with_prefactor.
  rewrite two_in by lia. cbn [bind]. rewrite m_eq.
  assert (Big : (U128_MAX < Z.of_nat n ^ Z.of_nat n)%Z).
  { apply Z.lt_le_trans with (27 ^ 27)%Z; [vm_compute; reflexivity|].
    apply Z.le_trans with (27 ^ Z.of_nat n)%Z; [apply Z.pow_le_mono_r; lia|apply Z.pow_le_mono_l; lia]. }
  assert (Wr : fjc_thermodynamics.pow_u128 Release (Z.of_nat n) (Z.of_nat n) = Some ((Z.of_nat n ^ Z.of_nat n) mod (U128_MAX + 1))%Z).
  { unfold fjc_thermodynamics.pow_u128, wrap. replace (Z.of_nat n ^ Z.of_nat n <=? U128_MAX)%Z with false by (symmetry; apply Z.leb_gt; exact Big).
    rewrite Bool.andb_false_r. reflexivity. }
  rewrite Wr. cbn [bind].
  rewrite wrap_in. 2:{ assert (300 < U128_MAX)%Z by (vm_compute; reflexivity). lia. } cbn [bind].
  replace (Z.of_nat n - 2)%Z with (Z.of_nat (n - 2)) by lia.
  rewrite product_ok by (apply zfact_small; lia). cbn [bind].
  change (@sofZ R R_scalar) with IZR. rewrite sums_ok by (lia || lra). cbn [bind]. eexists. split; [reflexivity|].
  set (w := ((Z.of_nat n ^ Z.of_nat n) mod (U128_MAX + 1))%Z).
  assert (Hw : (0 <= w < Z.of_nat n ^ Z.of_nat n)%Z).
  { unfold w. assert (0 < U128_MAX + 1)%Z by (vm_compute; reflexivity).
    pose proof (Z.mod_pos_bound (Z.of_nat n ^ Z.of_nat n) (U128_MAX + 1) H). lia. }
  change (sdec 125 3) with (125 / 1000). change (@spi R R_scalar) with PI.
  change (125 / 1000 / PI / g * IZR w / IZR (zfact (n - 2)) * S_sum n (n - 2) g < P n g).
  pose proof (ih_arg_pos n g ltac:(lia) Hg) as Hq. pose proof (fact_neq (n - 2)) as F0. pose proof PI_RGT_0.
  assert (Pn : 0 < INR n) by (apply lt_0_INR; lia).
  assert (Pp : 0 < INR n ^ (n - 2)) by (apply pow_lt; exact Pn).
  assert (Hf : 0 < INR (fact (n - 2))) by (apply lt_0_INR, lt_O_fact).
  replace (125 / 1000 / PI / g * IZR w / IZR (zfact (n - 2)) * S_sum n (n - 2) g)
    with (IZR w * (ih (n - 2) n (arg n g) / (8 * PI * g * INR n ^ (n - 2)))).
  2:{ rewrite zfact_fact. unfold S_sum. field. repeat split; lra. }
  replace (P n g) with (IZR (Z.of_nat n ^ Z.of_nat n) * (ih (n - 2) n (arg n g) / (8 * PI * g * INR n ^ (n - 2)))).
  2:{ unfold P. rewrite <- pow_IZR, <- INR_IZR_INZ.
      replace (INR n ^ n) with (INR n ^ 2 * INR n ^ (n - 2)) by (rewrite <- pow_add; f_equal; lia). field. repeat split; lra. }
  apply Rmult_lt_compat_r.
  - apply Rdiv_lt_0_compat; [exact Hq|]. apply Rmult_lt_0_compat; [apply Rmult_lt_0_compat; lra | exact Pp].
  - apply IZR_lt. lia.
Qed.

(** ** The statements for integers *)
Ltac to_nat N := let n := fresh "n" in let E := fresh "E" in
  assert (E : exists n, N = Z.of_nat n) by (exists (Z.to_nat N); lia);
  destruct E as (n & ->); rewrite <- ?INR_IZR_INZ, ?Nat2Z.id in *.

Lemma z_density : forall prof (N : Z) (g : R), (2 <= N <= 26)%Z -> 0 < g < 1 ->
  fjc_isometric.nondimensional_equilibrium_distribution prof N g
  = Some (IZR N ^ 3 * walk_density (Z.to_nat N) (IZR N * g)).
Proof.
  intros prof N g HN Hg. to_nat N. rewrite distribution_ok by (lia || lra). f_equal. apply P_walk; (lia || lra).
Qed.

Lemma z_density_dimensional : forall prof (N : Z) (l xi : R), (2 <= N <= 26)%Z -> 0 < l -> 0 < xi < IZR N * l ->
  fjc_isometric.equilibrium_distribution prof N l xi = Some (walk_density (Z.to_nat N) (xi / l) / l ^ 3).
Proof.
  intros prof N l xi HN Hl Hxi. assert (PN : 0 < IZR N) by (apply IZR_lt; lia).
  assert (Pl : 0 < IZR N * l) by (apply Rmult_lt_0_compat; assumption).
  unfold fjc_isometric.equilibrium_distribution.
  change (sdiv xi (smul (sofZ N) l)) with (xi / (IZR N * l)).
  rewrite z_density; [|exact HN|].
  - cbn [bind]. f_equal.
    change (IZR N ^ 3 * walk_density (Z.to_nat N) (IZR N * (xi / (IZR N * l))) / (IZR N * l) ^ 3 = walk_density (Z.to_nat N) (xi / l) / l ^ 3).
    replace (IZR N * (xi / (IZR N * l))) with (xi / l) by (field; lra). field. lra.
  - split; [apply Rdiv_lt_0_compat; lra|]. apply Rmult_lt_reg_r with (IZR N * l); [exact Pl|].
    unfold Rdiv. rewrite Rmult_assoc, Rinv_l by lra. lra.
Qed.

Lemma z_axis : forall prof (N : Z) (g : R), (2 <= N <= 26)%Z -> 0 < g < 1 ->
  integral (fun r => match fjc_isometric.nondimensional_equilibrium_distribution prof N r with
                     | Some p => Some (2 * PI * r * p) | None => None end) g 1
    (IZR N * axis_density (Z.to_nat N) (IZR N * g)).
Proof.
  intros prof N g HN Hg. to_nat N. exists (fun r => 2 * PI * r * P n r). split.
  - intros y Hy. rewrite distribution_ok by (lia || lra). reflexivity.
  - apply P_axis; (lia || lra).
Qed.

Lemma z_normalised : forall prof (N : Z), (2 <= N <= 26)%Z ->
  integral (fjc_isometric.nondimensional_equilibrium_radial_distribution prof N) 0 1 1.
Proof.
  intros prof N HN. to_nat N. exists (fun g => 4 * PI * g ^ 2 * P n g). split; [|apply P_normalised; lia].
  intros y Hy. unfold fjc_isometric.nondimensional_equilibrium_radial_distribution. rewrite distribution_ok by (lia || lra). reflexivity.
Qed.

Lemma z_normalised_dimensional : forall prof (N : Z) (l : R), (2 <= N <= 26)%Z -> 0 < l ->
  integral (fjc_isometric.equilibrium_radial_distribution prof N l) 0 (IZR N * l) 1.
Proof.
  intros prof N l HN Hl. assert (PN : 0 < IZR N) by (apply IZR_lt; lia).
  assert (Pl : 0 < IZR N * l) by (apply Rmult_lt_0_compat; assumption).
  destruct (z_normalised prof N HN) as (w & Hw & I).
  exists (fun xi => / (IZR N * l) * w (/ (IZR N * l) * xi + 0)). split.
  - intros y Hy. unfold fjc_isometric.equilibrium_radial_distribution.
    change (sdiv y (smul (sofZ N) l)) with (y / (IZR N * l)). rewrite Hw.
    + cbn [bind]. f_equal. change (w (y / (IZR N * l)) / (IZR N * l) = / (IZR N * l) * w (/ (IZR N * l) * y + 0)).
      replace (/ (IZR N * l) * y + 0) with (y / (IZR N * l)) by (unfold Rdiv; ring). unfold Rdiv. ring.
    + split; [apply Rdiv_lt_0_compat; lra|]. apply Rmult_lt_reg_r with (IZR N * l); [exact Pl|].
      unfold Rdiv. rewrite Rmult_assoc, Rinv_l by lra. lra.
  - apply (is_RInt_comp_lin (V := R_NormedModule) w (/ (IZR N * l)) 0 0 (IZR N * l) 1).
    rewrite Rmult_0_r, Rplus_0_r, Rinv_l, Rplus_0_r by lra. exact I.
Qed.

Lemma z_positive : forall prof (N : Z) (g : R), (2 <= N <= 26)%Z -> 0 < g < 1 -> exists p,
  fjc_isometric.nondimensional_equilibrium_distribution prof N g = Some p /\ 0 < p.
Proof.
  intros prof N g HN Hg. to_nat N. exists (P n g). split; [apply distribution_ok; (lia || lra) | apply P_pos; (lia || lra)].
Qed.

(** The sum of order zero alone is positive wherever the force is defined. *)
Lemma z_force_positive : forall prof (N : Z) (g : R), (2 <= N <= 34)%Z -> 0 < g < 1 -> exists f,
  fjc_isometric.nondimensional_force prof N g = Some f.
Proof. intros prof N g HN Hg. to_nat N. exists (F n g). apply force_ok; (lia || lra). Qed.

Lemma z_conj_nondimensional : forall prof (N : Z) (l m T g : R), (2 <= N <= 26)%Z -> 0 < l -> 0 < g < 1 ->
  N <> 3%Z \/ g <> 1 / 3 ->
  conjugate (fun y => fjc_isometric.nondimensional_helmholtz_free_energy prof N l m y T)
    (fjc_isometric.nondimensional_force prof N) 0 1 (IZR N) g /\
  conjugate (fun y => fjc_isometric.nondimensional_helmholtz_free_energy_per_link prof N l m y T)
    (fjc_isometric.nondimensional_force prof N) 0 1 1 g /\
  conjugate (fjc_isometric.nondimensional_relative_helmholtz_free_energy prof N)
    (fjc_isometric.nondimensional_force prof N) 0 1 (IZR N) g /\
  conjugate (fjc_isometric.nondimensional_relative_helmholtz_free_energy_per_link prof N)
    (fjc_isometric.nondimensional_force prof N) 0 1 1 g.
Proof.
  intros prof N l m T g HN Hl Hg H. to_nat N. apply conj_nondimensional; try assumption; [lia|].
  destruct H as [H|H]; [left; lia | right; exact H].
Qed.

Lemma z_conj_dimensional : forall prof (N : Z) (l m T xi : R), (2 <= N <= 26)%Z -> 0 < l -> 0 < T ->
  0 < xi < IZR N * l -> N <> 3%Z \/ xi <> l ->
  conjugate (fun y => fjc_isometric.helmholtz_free_energy prof N l m y T)
    (fun y => fjc_isometric.force prof N l y T) 0 (IZR N * l) 1 xi /\
  conjugate (fun y => fjc_isometric.helmholtz_free_energy_per_link prof N l m y T)
    (fun y => fjc_isometric.force prof N l y T) 0 (IZR N * l) (1 / IZR N) xi /\
  conjugate (fun y => fjc_isometric.relative_helmholtz_free_energy prof N l y T)
    (fun y => fjc_isometric.force prof N l y T) 0 (IZR N * l) 1 xi /\
  conjugate (fun y => fjc_isometric.relative_helmholtz_free_energy_per_link prof N l y T)
    (fun y => fjc_isometric.force prof N l y T) 0 (IZR N * l) (1 / IZR N) xi.
Proof.
  intros prof N l m T xi HN Hl HT Hxi H. to_nat N. apply conj_dimensional; try assumption; [lia|].
  destruct H as [H|H]; [left; lia | right; exact H].
Qed.

Lemma z_release_wrong : forall (N : Z) (g : R), (27 <= N <= 34)%Z -> 0 < g < 1 -> exists v,
  fjc_isometric.nondimensional_equilibrium_distribution Release N g = Some v /\
  v < IZR N ^ 3 * walk_density (Z.to_nat N) (IZR N * g).
Proof. intros N g HN Hg. to_nat N. apply release_wrong; (lia || lra). Qed.

(** The density of three unit links, by hand: constant up to distance one. *)
Lemma three_links_density : forall r, 0 < r < 1 -> walk_density 3 r = 1 / (8 * PI).
Proof.
  intros r Hr. unfold walk_density. rewrite walk_ih by lra. unfold h. cbn [Nat.sub ih fact Nat.mul Nat.add]. unfold pp.
  pose proof PI_RGT_0. replace (INR 3) with 3 by (simpl; ring).
  repeat match goal with |- context [Rlt_dec ?a ?b] => destruct (Rlt_dec a b) end; simpl; try (exfalso; lra); field; lra.
Qed.
