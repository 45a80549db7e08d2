(** Strong-potential asymptotics of the modified canonical ensemble. *)
From Coq Require Import Reals ZArith List Lra Lia Psatz Factorial.
From Coquelicot Require Import Coquelicot.
From Verif Require Import Scalar MMath MConst MTreloar MFjc SpecThermo SpecIsometric PBase PQuad PIrwinHall PWalk PTreloar PIsometric.
Import ListNotations.
Open Scope R_scope.

(** ** The sums, for any integer power *)
Definition kk (n : nat) (g : R) : nat := Z.to_nat (scast U128_MAX (sceil (arg n g))).
Definition term (n : nat) (e : Z) (g : R) (s : nat) : R :=
  (-1) ^ s * IZR (binom n s) * powerRZ ((1 - g) / 2 - INR s / INR n) e.
Definition Ts (n : nat) (e : Z) (g : R) : R := Rsum (map (term n e g) (seq 0 (kk n g))).

Lemma kk_spec : forall n g, (2 <= n <= 255)%nat -> 0 < g < 1 ->
  scast U128_MAX (sceil (arg n g)) = Z.of_nat (kk n g) /\ (1 <= kk n g <= S n)%nat /\ arg n g <= INR (kk n g) < arg n g + 1.
Proof.
  intros n g Hn Hg. pose proof (arg_bounds n g ltac:(lia) Hg) as Ha.
  destruct (terms_ok n (arg n g) ltac:(lia) ltac:(lra)) as (k & Ek & Hk & Lk).
  unfold kk. rewrite Ek, Nat2Z.id. auto.
Qed.

Lemma sum_ok : forall prof n g e, (2 <= n <= 34)%nat -> 0 < g < 1 ->
  fjc_thermodynamics.treloar_sum prof (Z.of_nat n) (IZR (Z.of_nat n)) ((1 - g) / 2)
    (scast U128_MAX (sceil (smul (IZR (Z.of_nat n)) ((1 - g) / 2)))) e = Some (Ts n e g).
Proof.
  intros prof n g e Hn Hg. destruct (kk_spec n g ltac:(lia) Hg) as (E & K & _).
  rewrite <- INR_IZR_INZ. change (smul (INR n) ((1 - g) / 2)) with (arg n g). rewrite E.
  rewrite treloar_sum_ok by lia. reflexivity.
Qed.

Lemma Ts_S_sum : forall n e g, (2 <= n <= 255)%nat -> 0 < g < 1 -> Ts n (Z.of_nat e) g = S_sum n e g.
Proof.
  intros n e g Hn Hg. destruct (kk_spec n g ltac:(lia) Hg) as (E & K & L).
  pose proof (arg_bounds n g ltac:(lia) Hg) as Ha. apply sum_closed; (lia || lra).
Qed.

Lemma sums_list : forall prof n g orders, (2 <= n <= 34)%nat -> 0 < g < 1 ->
  fjc_thermodynamics.treloar_sums prof (Z.of_nat n) g orders
  = Some (map (fun o => Ts n (Z.of_nat n - 2 - o) g) orders).
Proof.
  intros prof n g orders Hn Hg. unfold fjc_thermodynamics.treloar_sums. rewrite two_in by lia. cbn [bind].
  rewrite m_eq. apply mapM_some. intros o _. rewrite <- (sum_ok prof n g _ Hn Hg). f_equal. lia.
Qed.

(** ** Derivatives of the sums *)
Definition knot (n : nat) (g : R) : Prop := exists s : nat, arg n g = INR s.

(** Off the knots the number of terms is locally constant. *)
Lemma locally_interval : forall (Q : R -> Prop) a b g, a < g < b -> (forall y, a < y < b -> Q y) -> locally g Q.
Proof.
  intros Q a b g H HQ. exists (mkposreal (Rmin (g - a) (b - g)) ltac:(apply Rmin_pos; lra)).
  intros y Hy. assert (Hy' : Rabs (y - g) < Rmin (g - a) (b - g)) by exact Hy. apply Rabs_def2 in Hy'.
  pose proof (Rmin_l (g - a) (b - g)). pose proof (Rmin_r (g - a) (b - g)). apply HQ. lra.
Qed.

Lemma kk_local : forall n g, (2 <= n <= 255)%nat -> 0 < g < 1 -> ~ knot n g ->
  locally g (fun y => 0 < y < 1 /\ kk n y = kk n g).
Proof.
  intros n g Hn Hg K. assert (Pn : 0 < INR n) by (apply lt_0_INR; lia).
  destruct (kk_spec n g Hn Hg) as (E & B & L).
  assert (LT : arg n g < INR (kk n g)). { destruct L as [[L|L] _]; [exact L|]. exfalso. apply K. exists (kk n g). exact L. }
  set (q := INR (kk n g)) in *.
  assert (H1 : 1 - 2 * q / INR n < g).
  { unfold arg in LT. apply Rmult_lt_reg_r with (INR n / 2); [lra|].
    replace ((1 - 2 * q / INR n) * (INR n / 2)) with (INR n / 2 - q) by (field; lra). lra. }
  assert (H2 : g < 1 - 2 * (q - 1) / INR n).
  { assert (q - 1 < arg n g) by lra. unfold arg in H. apply Rmult_lt_reg_r with (INR n / 2); [lra|].
    replace ((1 - 2 * (q - 1) / INR n) * (INR n / 2)) with (INR n / 2 - (q - 1)) by (field; lra). lra. }
  apply (locally_interval _ (Rmax 0 (1 - 2 * q / INR n)) (Rmin 1 (1 - 2 * (q - 1) / INR n))).
  - split; [apply Rmax_lub_lt; lra | apply Rmin_glb_lt; lra].
  - intros y [Y1 Y2]. pose proof (Rmax_l 0 (1 - 2 * q / INR n)). pose proof (Rmax_r 0 (1 - 2 * q / INR n)).
    pose proof (Rmin_l 1 (1 - 2 * (q - 1) / INR n)). pose proof (Rmin_r 1 (1 - 2 * (q - 1) / INR n)).
    assert (Hy : 0 < y < 1) by lra. split; [exact Hy|].
    destruct (kk_spec n y Hn Hy) as (E' & B' & L').
    assert (A1 : arg n y < q).
    { unfold arg. assert (Q : (1 - 2 * q / INR n) * (INR n / 2) < y * (INR n / 2)) by (apply Rmult_lt_compat_r; lra).
      replace ((1 - 2 * q / INR n) * (INR n / 2)) with (INR n / 2 - q) in Q by (field; lra). lra. }
    assert (A2 : q - 1 < arg n y).
    { unfold arg. assert (Q : y * (INR n / 2) < (1 - 2 * (q - 1) / INR n) * (INR n / 2)) by (apply Rmult_lt_compat_r; lra).
      replace ((1 - 2 * (q - 1) / INR n) * (INR n / 2)) with (INR n / 2 - (q - 1)) in Q by (field; lra). lra. }
    unfold q in *.
    assert (kk n y < S (kk n g))%nat by (apply INR_lt; rewrite S_INR; lra).
    assert (kk n g < S (kk n y))%nat by (apply INR_lt; rewrite S_INR; lra). lia.
Qed.

Lemma powerRZ_derive : forall e x, x <> 0 -> is_derive (fun y => powerRZ y e) x (IZR e * powerRZ x (e - 1)).
Proof.
  intros e x Hx. destruct e as [|p|p].
  - cbn [powerRZ Z.sub]. evar_last; [apply (is_derive_const (V := R_NormedModule))|]. unfold zero; simpl. ring.
  - destruct (Pos2Nat.is_succ p) as [k Ek].
    apply is_derive_ext with (f := fun y => y ^ (S k)).
    + intro y. cbn [powerRZ]. rewrite Ek. reflexivity.
    + replace (Z.pos p - 1)%Z with (Z.of_nat k) by lia. rewrite <- pow_powerRZ.
      replace (Z.pos p) with (Z.of_nat (S k)) by lia. rewrite <- INR_IZR_INZ.
      evar_last; [apply (is_derive_pow (fun y => y) (S k) x 1); apply (is_derive_id (K := R_AbsRing))|].
      cbn [Init.Nat.pred]. ring.
  - destruct (Pos2Nat.is_succ p) as [k Ek].
    apply is_derive_ext with (f := fun y => / y ^ (S k)).
    + intro y. cbn [powerRZ]. rewrite Ek. reflexivity.
    + replace (Z.neg p - 1)%Z with (- Z.of_nat (S (S k)))%Z by lia.
      replace (Z.neg p) with (- Z.of_nat (S k))%Z by lia. rewrite opp_IZR, <- INR_IZR_INZ.
      rewrite powerRZ_neg'. rewrite <- pow_powerRZ.
      evar_last.
      * apply (is_derive_inv (fun y => y ^ S k) x (INR (S k) * 1 * x ^ k)); [|apply pow_nonzero; exact Hx].
        apply (is_derive_pow (fun y => y) (S k) x 1). apply (is_derive_id (K := R_AbsRing)).
      * assert (x ^ k <> 0) by (apply pow_nonzero; exact Hx). set (c := INR (S k)). cbn [pow]. field. split; assumption.
Qed.

Lemma Ts_derive_off : forall n e g, (2 <= n <= 255)%nat -> 0 < g < 1 -> ~ knot n g ->
  is_derive (Ts n e) g (- (IZR e / 2) * Ts n (e - 1) g).
Proof.
  intros n e g Hn Hg K. assert (Pn : 0 < INR n) by (apply lt_0_INR; lia).
  apply is_derive_ext_loc with (f := fun y => Rsum (map (fun s => term n e y s) (seq 0 (kk n g)))).
  - apply (filter_imp _ _) with (2 := kk_local n g Hn Hg K). intros y [_ Ey]. unfold Ts. rewrite Ey. reflexivity.
  - unfold Ts. rewrite <- Rsum_scal. apply (is_derive_Rsum (fun s y => term n e y s)).
    intros s _. unfold term.
    assert (N0 : (1 - g) / 2 - INR s / INR n <> 0).
    { intro Z0. apply K. exists s. unfold arg. assert ((1 - g) / 2 = INR s / INR n) by lra. rewrite H. field. lra. }
    evar_last.
    + apply (is_derive_scal (fun y => powerRZ ((1 - y) / 2 - INR s / INR n) e)).
      apply (is_derive_comp (V := R_NormedModule) (fun x => powerRZ x e) (fun y => (1 - y) / 2 - INR s / INR n)).
      * apply powerRZ_derive. exact N0.
      * auto_derive; [exact I | reflexivity].
    + unfold scal; simpl; unfold mult; simpl. match goal with |- ?a = ?b => change (@eq R a b) end. field.
Qed.

(** With at least one more power to spare the knots do not matter. *)
Lemma S_sum_derive : forall n e g, (2 <= n)%nat -> (2 <= e)%nat -> 0 < g < 1 ->
  is_derive (S_sum n e) g (- (INR e / 2) * S_sum n (e - 1) g).
Proof.
  intros n e g Hn He Hg. assert (Pn : 0 < INR n) by (apply lt_0_INR; lia).
  destruct e as [|e]; [lia|]. replace (S e - 1)%nat with e by lia. unfold S_sum.
  pose proof (fact_neq e). assert (INR n ^ e <> 0) by (apply pow_nonzero; lra).
  evar_last.
  - apply is_derive_ext with (f := fun y => (INR (fact (S e)) / INR n ^ S e) * ih (S e) n (arg n y)).
    { intro t. unfold Rdiv. match goal with |- ?a = ?b => change (@eq R a b) end. ring. }
    apply (is_derive_scal (fun y => ih (S e) n (arg n y))).
    apply (is_derive_comp (V := R_NormedModule) (ih (S e) n) (arg n)).
    + apply ih_derive. left. lia.
    + unfold arg. auto_derive; [exact I | reflexivity].
  - unfold scal; simpl; unfold mult; simpl. match goal with |- ?a = ?b => change (@eq R a b) end.
    change (fact e + e * fact e)%nat with (S e * fact e)%nat. rewrite mult_INR.
    change (match e with O => 1 | S _ => INR e + 1 end) with (INR (S e)). field. repeat split; lra.
Qed.

Definition regular (n : nat) (g : R) : Prop := (6 <= n)%nat \/ ~ knot n g.

Lemma Ts_derive : forall n (o : nat) g, (2 <= n <= 255)%nat -> (o <= 2)%nat -> 0 < g < 1 -> regular n g ->
  is_derive (Ts n (Z.of_nat n - 2 - Z.of_nat o)) g
    (- ((INR n - 2 - INR o) / 2) * Ts n (Z.of_nat n - 2 - Z.of_nat (S o)) g).
Proof.
  intros n o g Hn Ho Hg [H|H].
  - replace (Z.of_nat n - 2 - Z.of_nat o)%Z with (Z.of_nat (n - 2 - o)) by lia.
    apply is_derive_ext_loc with (f := S_sum n (n - 2 - o)).
    + apply (locally_interval _ 0 1); [exact Hg|]. intros y Hy. symmetry. apply Ts_S_sum; assumption.
    + evar_last; [apply S_sum_derive; (lia || assumption)|].
      replace (Z.of_nat n - 2 - Z.of_nat (S o))%Z with (Z.of_nat (n - 2 - o - 1)) by lia.
      rewrite Ts_S_sum by assumption. f_equal. f_equal. f_equal. rewrite !minus_INR by lia. replace (INR 2) with 2 by (simpl; ring). reflexivity.
  - evar_last; [apply Ts_derive_off; assumption|].
    replace (Z.of_nat n - 2 - Z.of_nat (S o))%Z with (Z.of_nat n - 2 - Z.of_nat o - 1)%Z by lia.
    f_equal. f_equal. f_equal. rewrite !minus_IZR, <- !INR_IZR_INZ. reflexivity.
Qed.

(** ** The correction term and its derivative *)
Section Abstract.
Variables (N kap d : R) (S0 S1 S2 : R -> R) (s3 : R).
Hypotheses (HN : 0 < N) (Hk : 0 < kap) (Hd : 0 < d) (Hpos : S0 d <> 0).
Hypotheses (D0 : is_derive S0 d (- ((N - 2) / 2) * S1 d)) (D1 : is_derive S1 d (- ((N - 2 - 1) / 2) * S2 d))
  (D2 : is_derive S2 d (- ((N - 2 - 2) / 2) * s3)).

Let m := 5 / 10 * N - 1.
Let m' := 5 / 10 * N - 15 / 10.
Let m'' := 5 / 10 * N - 2.

Definition corr (y : R) : R :=
  m * (m * (S1 y / S0 y) ^ 2 - m' * S2 y / S0 y) - powerRZ y (- 2) - (m * S1 y / S0 y + powerRZ y (- 1)) ^ 2.

Definition dcorr : R :=
  m * (m * S1 d / S0 d * ((N - 2) * (S1 d / S0 d) ^ 2 - (N - 3) * S2 d / S0 d)
       - m' * (m * S1 d * S2 d / S0 d ^ 2 - m'' * s3 / S0 d))
  + 2 * powerRZ d (- 3)
  - 2 * (m * S1 d / S0 d + powerRZ d (- 1)) * (m * (m * (S1 d / S0 d) ^ 2 - m' * S2 d / S0 d) - powerRZ d (- 2)).

Lemma corr_derive : is_derive corr d dcorr.
Proof using Hd Hpos D0 D1 D2.
  unfold corr.
  apply is_derive_ext with (f := fun y => m * (m * (S1 y / S0 y) ^ 2 - m' * S2 y / S0 y) - / y ^ 2 - (m * S1 y / S0 y + / y) ^ 2).
  { intro y. cbn [powerRZ Pos.to_nat Pos.iter_op Nat.add Init.Nat.add]. rewrite pow_1. reflexivity. }
  evar_last.
  - auto_derive.
    + repeat split; try (eexists; eassumption); try assumption; simpl; try nra; apply Rgt_not_eq; try nra.
    + reflexivity.
  - replace (Derive (fun x : R => S0 x) d) with (- ((N - 2) / 2) * S1 d) by (symmetry; apply is_derive_unique; exact D0).
    replace (Derive (fun x : R => S1 x) d) with (- ((N - 2 - 1) / 2) * S2 d) by (symmetry; apply is_derive_unique; exact D1).
    replace (Derive (fun x : R => S2 x) d) with (- ((N - 2 - 2) / 2) * s3) by (symmetry; apply is_derive_unique; exact D2).
    unfold dcorr, m, m', m''. cbn [powerRZ Pos.to_nat Pos.iter_op Nat.add Init.Nat.add].
    generalize dependent (S0 d). intros. generalize (S1 d) (S2 d). intros. change (Pos.to_nat 3) with 3%nat. change (Pos.to_nat 2) with 2%nat. change (Pos.to_nat 1) with 1%nat. field. split; lra.
Qed.
End Abstract.

(** ** The functions of the module *)
Import fjc_modified_canonical_asymptotic_strong_potential.

Section Strong.
Variables (prof : profile) (n : nat).
Hypothesis Hn : (2 <= n <= 26)%nat.
Let N : Z := Z.of_nat n.
Let Pn : 0 < INR n. Proof. apply lt_0_INR. lia. Qed.
Let IN : IZR N = INR n. Proof. unfold N. rewrite <- INR_IZR_INZ. reflexivity. Qed.

Definition T_ (o : Z) : R -> R := Ts n (Z.of_nat n - 2 - o).

Lemma T0_pos : forall g, 0 < g < 1 -> 0 < T_ 0 g.
Proof using Hn.
  intros g Hg. unfold T_. replace (Z.of_nat n - 2 - 0)%Z with (Z.of_nat (n - 2)) by lia.
  rewrite Ts_S_sum by (lia || assumption). unfold S_sum. pose proof (ih_arg_pos n g ltac:(lia) Hg).
  apply Rdiv_lt_0_compat; [|apply pow_lt; exact Pn]. apply Rmult_lt_0_compat; [assumption|].
  apply lt_0_INR. apply lt_O_fact.
Qed.

Definition Fs (kap g : R) : R :=
  (1 / g + (5 / 10 * INR n - 1) * T_ 1 g / T_ 0 g) / INR n
  + 5 / 10 / kap / INR n ^ 3 * dcorr (INR n) g (T_ 0) (T_ 1) (T_ 2) (T_ 3 g).

Lemma strong_force_ok : forall g kap, 0 < g < 1 -> nondimensional_force prof N g kap = Some (Fs kap g).
Proof using Hn.
  intros g kap Hg. unfold nondimensional_force. unfold N at 1. rewrite sums_list by (lia || assumption).
  cbn [bind map nth_error]. change (@sofZ R R_scalar) with IZR. rewrite IN. reflexivity.
Qed.

Lemma prefactor_ok : forall g, 0 < g < 1 -> fjc_thermodynamics.treloar_sum_0_with_prefactor prof N g = Some (P n g).
Proof using Hn. intros g Hg. exact (distribution_ok prof n g Hn Hg). Qed.

Lemma strong_helmholtz_ok : forall l m kap T, 0 < l -> exists c, forall g, 0 < g < 1 ->
  nondimensional_helmholtz_free_energy prof N l m g kap T
  = Some (- ln (P n g) + c + 5 / 10 / kap / INR n ^ 2 * corr (INR n) (T_ 0) (T_ 1) (T_ 2) g).
Proof using Hn.
  intros l m kap T Hl.
  exists (ln ((INR n * l) ^ 3) - (INR n - 1) * ln (8 * PI ^ 2 * m * l ^ 2 * BOLTZMANN_CONSTANT * T / PLANCK_CONSTANT ^ 2)
    - 15 / 10 * ln (2 * PI / kap / INR n ^ 2) - 3 * ln (INR n * l)).
  intros g Hg. unfold nondimensional_helmholtz_free_energy. unfold N at 1. rewrite sums_list by (lia || assumption).
  cbn [bind map nth_error]. rewrite prefactor_ok by assumption. cbn [bind]. f_equal.
  change (@sofZ R R_scalar) with IZR. rewrite IN.
  change (- ln (P n g / (INR n * l) ^ 3) - (INR n - 1) * ln (8 * PI ^ 2 * m * l ^ 2 * BOLTZMANN_CONSTANT * T / PLANCK_CONSTANT ^ 2)
    - 15 / 10 * ln (2 * PI / kap / INR n ^ 2) - 3 * ln (INR n * l)
    + 5 / 10 / kap / INR n ^ 2 * corr (INR n) (T_ 0) (T_ 1) (T_ 2) g
    = - ln (P n g) + (ln ((INR n * l) ^ 3) - (INR n - 1) * ln (8 * PI ^ 2 * m * l ^ 2 * BOLTZMANN_CONSTANT * T / PLANCK_CONSTANT ^ 2)
    - 15 / 10 * ln (2 * PI / kap / INR n ^ 2) - 3 * ln (INR n * l))
    + 5 / 10 / kap / INR n ^ 2 * corr (INR n) (T_ 0) (T_ 1) (T_ 2) g).
  pose proof (P_pos n g ltac:(lia) Hg).
  assert (0 < (INR n * l) ^ 3) by (apply pow_lt, Rmult_lt_0_compat; lra).
  rewrite ln_div by assumption. ring.
Qed.

Lemma regular_3 : forall g, regular n g -> (n <> 3)%nat \/ g <> 1 / 3.
Proof using Hn.
  intros g [H|H]; [left; lia|]. destruct (Nat.eq_dec n 3) as [E|E]; [right | left; exact E].
  intro G. apply H. exists 1%nat. rewrite E, G. unfold arg. simpl. field.
Qed.

Lemma strong_derive : forall c kap g, 0 < kap -> 0 < g < 1 -> regular n g ->
  is_derive (fun y => - ln (P n y) + c + 5 / 10 / kap / INR n ^ 2 * corr (INR n) (T_ 0) (T_ 1) (T_ 2) y) g
    (INR n * Fs kap g).
Proof using Hn.
  intros c kap g Hk Hg R.
  assert (D0 : is_derive (T_ 0) g (- ((INR n - 2) / 2) * T_ 1 g)).
  { evar_last; [exact (Ts_derive n 0 g ltac:(lia) ltac:(lia) Hg R)|]. unfold T_. f_equal; simpl; try field; try reflexivity. }
  assert (D1 : is_derive (T_ 1) g (- ((INR n - 2 - 1) / 2) * T_ 2 g)).
  { evar_last; [exact (Ts_derive n 1 g ltac:(lia) ltac:(lia) Hg R)|]. unfold T_. f_equal; simpl; try field; try reflexivity. }
  assert (D2 : is_derive (T_ 2) g (- ((INR n - 2 - 2) / 2) * T_ 3 g)).
  { evar_last; [exact (Ts_derive n 2 g ltac:(lia) ltac:(lia) Hg R)|]. unfold T_. f_equal; simpl; try field; try reflexivity. }
  pose proof (T0_pos g Hg) as P0.
  evar_last.
  - apply (is_derive_plus (V := R_NormedModule)).
    + apply derive_shift; [exact Hn | exact Hg | apply regular_3; exact R].
    + apply (is_derive_scal (corr (INR n) (T_ 0) (T_ 1) (T_ 2))). apply corr_derive; try eassumption; try lra.
  - change (INR n * F n g + 5 / 10 / kap / INR n ^ 2 * dcorr (INR n) g (T_ 0) (T_ 1) (T_ 2) (T_ 3 g) = INR n * Fs kap g).
    assert (E : F n g = (1 / g + (5 / 10 * INR n - 1) * T_ 1 g / T_ 0 g) / INR n).
    { unfold F. f_equal. f_equal. unfold T_.
      replace (Z.of_nat n - 2 - 0)%Z with (Z.of_nat (n - 2)) by lia. rewrite Ts_S_sum by (lia || assumption).
      destruct (Nat.eq_dec n 2) as [->|N2].
      - replace (INR 2 / 2 - 1) with 0 by (simpl; field). replace (5 / 10 * INR 2 - 1) with 0 by (simpl; field). unfold Rdiv; ring.
      - replace (Z.of_nat n - 2 - 1)%Z with (Z.of_nat (n - 3)) by lia. rewrite Ts_S_sum by (lia || assumption).
        f_equal. f_equal. field. }
    rewrite E. unfold Fs. set (q := dcorr _ _ _ _ _ _). set (r := (5 / 10 * INR n - 1) * T_ 1 g / T_ 0 g). field. lra.
Qed.

Definition As (kap c y : R) : R :=
  - ln (P n y) + c + 5 / 10 / kap / INR n ^ 2 * corr (INR n) (T_ 0) (T_ 1) (T_ 2) y.

Lemma strong_scaled : forall kap (energy force : R -> option R) a b c' k d, 0 < kap -> 0 < b -> 0 < d < b -> regular n (d / b) ->
  (exists c, forall y, 0 < y < b -> energy y = Some (a * As kap c (y / b))) ->
  (forall y, 0 < y < b -> force y = Some (c' * Fs kap (y / b))) ->
  a / b * INR n = k * c' ->
  conjugate energy force 0 b k d.
Proof using Hn.
  intros kap energy force a b c' k d Hk Hb Hd R [c E] F K.
  exists (fun y => a * As kap c (y / b)), (c' * Fs kap (d / b)).
  split; [exact E|]. split; [apply F; lra|].
  assert (D : 0 < d / b < 1).
  { split; [apply Rdiv_lt_0_compat; lra|]. apply Rmult_lt_reg_r with b; [exact Hb|]. unfold Rdiv. rewrite Rmult_assoc, Rinv_l by lra. lra. }
  evar_last.
  - apply (is_derive_scal (fun y => As kap c (y / b)) d a).
    apply (is_derive_comp (V := R_NormedModule) (As kap c) (fun y => y / b)).
    + apply strong_derive; assumption.
    + auto_derive; [exact I | reflexivity].
  - change (a * (1 * / b * (INR n * Fs kap (d / b))) = k * (c' * Fs kap (d / b))).
    transitivity (a / b * INR n * Fs kap (d / b)); [field; lra|]. rewrite K. ring.
Qed.

Lemma ZERO_in : 0 < (ZERO : R) < 1.
Proof using. rewrite Z_eq. simpl. lra. Qed.

Lemma As_shift : forall kap c c' y, As kap c y - c' = As kap (c - c') y.
Proof using. intros. unfold As. ring. Qed.

Lemma strong_rel_ok : forall kap, exists c, forall g, 0 < g < 1 ->
  nondimensional_relative_helmholtz_free_energy prof N g kap = Some (As kap c g).
Proof using Hn.
  intro kap. destruct (strong_helmholtz_ok 1 1 kap 300 Rlt_0_1) as [c E].
  exists (c - As kap c ZERO). intros g Hg. unfold nondimensional_relative_helmholtz_free_energy.
  change (sdec 1 0) with 1. change (sdec 300 0) with 300.
  rewrite E by exact Hg. cbn [bind]. rewrite E by apply ZERO_in. cbn [bind]. f_equal.
  change (As kap c g - As kap c ZERO = As kap (c - As kap c ZERO) g). apply As_shift.
Qed.

Lemma strong_nd : forall l m T kap g, 0 < l -> 0 < kap -> 0 < g < 1 -> regular n g ->
  conjugate (fun y => nondimensional_helmholtz_free_energy prof N l m y kap T)
    (fun y => nondimensional_force prof N y kap) 0 1 (INR n) g /\
  conjugate (fun y => nondimensional_helmholtz_free_energy_per_link prof N l m y kap T)
    (fun y => nondimensional_force prof N y kap) 0 1 1 g /\
  conjugate (fun y => nondimensional_relative_helmholtz_free_energy prof N y kap)
    (fun y => nondimensional_force prof N y kap) 0 1 (INR n) g /\
  conjugate (fun y => nondimensional_relative_helmholtz_free_energy_per_link prof N y kap)
    (fun y => nondimensional_force prof N y kap) 0 1 1 g.
Proof using Hn.
  intros l m T kap g Hl Hk Hg Rg.
  assert (R1 : regular n (g / 1)) by (rewrite Rdiv_1; exact Rg).
  assert (F : forall y, 0 < y < 1 -> nondimensional_force prof N y kap = Some (1 * Fs kap (y / 1))).
  { intros y Hy. rewrite strong_force_ok by exact Hy. rewrite Rdiv_1, Rmult_1_l. reflexivity. }
  destruct (strong_helmholtz_ok l m kap T Hl) as [c E]. destruct (strong_rel_ok kap) as [c' E'].
  split; [|split; [|split]].
  - apply (strong_scaled kap _ _ 1 1 1); try assumption; try lra.
    exists c. intros y Hy. rewrite E by exact Hy. rewrite Rdiv_1, Rmult_1_l. reflexivity.
  - apply (strong_scaled kap _ _ (/ INR n) 1 1); try assumption; try lra; try (field; lra).
    exists c. intros y Hy. unfold nondimensional_helmholtz_free_energy_per_link. rewrite E by exact Hy. rewrite Rdiv_1. cbn [bind]. f_equal.
    change (@sofZ R R_scalar) with IZR. rewrite IN. change (As kap c y / INR n = / INR n * As kap c y). field. lra.
  - apply (strong_scaled kap _ _ 1 1 1); try assumption; try lra.
    exists c'. intros y Hy. rewrite E' by exact Hy. rewrite Rdiv_1, Rmult_1_l. reflexivity.
  - apply (strong_scaled kap _ _ (/ INR n) 1 1); try assumption; try lra; try (field; lra).
    exists c'. intros y Hy. unfold nondimensional_relative_helmholtz_free_energy_per_link. rewrite E' by exact Hy. rewrite Rdiv_1. cbn [bind]. f_equal.
    change (@sofZ R R_scalar) with IZR. rewrite IN. change (As kap c' y / INR n = / INR n * As kap c' y). field. lra.
Qed.

Lemma strong_dim : forall l m T k d, 0 < l -> 0 < T -> 0 < k -> 0 < d < INR n * l -> regular n (d / (INR n * l)) ->
  conjugate (fun y => helmholtz_free_energy prof N l m y k T) (fun y => force prof N l y k T) 0 (INR n * l) 1 d /\
  conjugate (fun y => helmholtz_free_energy_per_link prof N l m y k T) (fun y => force prof N l y k T) 0 (INR n * l) (/ INR n) d /\
  conjugate (fun y => relative_helmholtz_free_energy prof N l y k T) (fun y => force prof N l y k T) 0 (INR n * l) 1 d /\
  conjugate (fun y => relative_helmholtz_free_energy_per_link prof N l y k T) (fun y => force prof N l y k T) 0 (INR n * l) (/ INR n) d.
Proof using Hn.
  intros l m T k d Hl HT Hk Hd Rg.
  set (kap := k * l ^ 2 / BOLTZMANN_CONSTANT / T). set (b := INR n * l) in *.
  assert (Hb : 0 < b) by (unfold b; apply Rmult_lt_0_compat; lra).
  assert (KB : 0 < BOLTZMANN_CONSTANT) by (rewrite B_eq; apply kB_pos).
  assert (Hkap : 0 < kap).
  { unfold kap. repeat apply Rdiv_lt_0_compat; try lra. apply Rmult_lt_0_compat; [lra|apply pow_lt; lra]. }
  assert (Y : forall y, 0 < y < b -> 0 < y / b < 1).
  { intros y Hy. split; [apply Rdiv_lt_0_compat; lra|]. apply Rmult_lt_reg_r with b; [exact Hb|]. unfold Rdiv. rewrite Rmult_assoc, Rinv_l by lra. lra. }
  assert (Eb : forall y, sdiv y (smul (sofZ N) l) = y / b).
  { intro y. change (y / (IZR N * l) = y / b). rewrite IN. reflexivity. }
  assert (EZ : smul (smul ZERO (sofZ N)) l = ZERO * b).
  { change (ZERO * IZR N * l = ZERO * b). rewrite IN. unfold b. ring. }
  assert (Zb : 0 < ZERO * b < b) by (pose proof ZERO_in; nra).
  assert (F : forall y, 0 < y < b -> force prof N l y k T = Some (BOLTZMANN_CONSTANT * T / l * Fs kap (y / b))).
  { intros y Hy. unfold force. rewrite Eb. change (sdiv (sdiv (smul k (spowi l 2)) BOLTZMANN_CONSTANT) T) with kap.
    rewrite strong_force_ok by (apply Y; exact Hy). reflexivity. }
  assert (A : forall m, exists c, forall y, 0 < y < b -> helmholtz_free_energy prof N l m y k T = Some (BOLTZMANN_CONSTANT * T * As kap c (y / b))).
  { intro m'. destruct (strong_helmholtz_ok l m' kap T Hl) as [c E]. exists c. intros y Hy. unfold helmholtz_free_energy. rewrite Eb.
    change (sdiv (sdiv (smul k (spowi l 2)) BOLTZMANN_CONSTANT) T) with kap. rewrite E by (apply Y; exact Hy). cbn [bind]. f_equal.
    change (As kap c (y / b) * BOLTZMANN_CONSTANT * T = BOLTZMANN_CONSTANT * T * As kap c (y / b)). ring. }
  assert (B : forall m, exists c, forall y, 0 < y < b -> helmholtz_free_energy_per_link prof N l m y k T
    = Some (BOLTZMANN_CONSTANT * T / INR n * As kap c (y / b))).
  { intro m'. destruct (strong_helmholtz_ok l m' kap T Hl) as [c E]. exists c. intros y Hy. unfold helmholtz_free_energy_per_link, nondimensional_helmholtz_free_energy_per_link. rewrite Eb.
    change (sdiv (sdiv (smul k (spowi l 2)) BOLTZMANN_CONSTANT) T) with kap. rewrite E by (apply Y; exact Hy). cbn [bind]. f_equal.
    change (@sofZ R R_scalar) with IZR. rewrite IN.
    change (As kap c (y / b) / INR n * BOLTZMANN_CONSTANT * T = BOLTZMANN_CONSTANT * T / INR n * As kap c (y / b)). field. lra. }
  destruct (A m) as [c1 E1]. destruct (B m) as [c2 E2]. destruct (A 1) as [c3 E3]. destruct (B 1) as [c4 E4].
  assert (KT : BOLTZMANN_CONSTANT * T <> 0) by (apply Rgt_not_eq, Rmult_lt_0_compat; lra).
  split; [|split; [|split]].
  - apply (strong_scaled kap _ _ (BOLTZMANN_CONSTANT * T) b (BOLTZMANN_CONSTANT * T / l)); try assumption.
    + exists c1. exact E1.
    + unfold b. field. lra.
  - apply (strong_scaled kap _ _ (BOLTZMANN_CONSTANT * T / INR n) b (BOLTZMANN_CONSTANT * T / l)); try assumption.
    + exists c2. exact E2.
    + unfold b. field. lra.
  - apply (strong_scaled kap _ _ (BOLTZMANN_CONSTANT * T) b (BOLTZMANN_CONSTANT * T / l)); try assumption.
    + exists (c3 - As kap c3 (ZERO * b / b)). intros y Hy. unfold relative_helmholtz_free_energy. change (sdec 1 0) with 1.
      rewrite EZ, E3 by exact Hy. cbn [bind]. rewrite E3 by exact Zb. cbn [bind]. f_equal. rewrite <- As_shift.
      change (@ssub R R_scalar) with Rminus. ring.
    + unfold b. field. lra.
  - apply (strong_scaled kap _ _ (BOLTZMANN_CONSTANT * T / INR n) b (BOLTZMANN_CONSTANT * T / l)); try assumption.
    + exists (c4 - As kap c4 (ZERO * b / b)). intros y Hy. unfold relative_helmholtz_free_energy_per_link. change (sdec 1 0) with 1.
      rewrite EZ, E4 by exact Hy. cbn [bind]. rewrite E4 by exact Zb. cbn [bind]. f_equal. rewrite <- As_shift.
      change (@ssub R R_scalar) with Rminus. ring.
    + unfold b. field. lra.
Qed.

(** The correction vanishes for a stiff potential: what remains is the isometric
    force. *)
Lemma strong_leading : forall g, 0 < g < 1 -> exists f0,
  fjc_isometric.nondimensional_force prof N g = Some f0 /\
  exists c, forall kap, 0 < kap -> nondimensional_force prof N g kap = Some (f0 + c / kap).
Proof using Hn.
  intros g Hg. exists (F n g). split; [unfold N; apply force_ok; [lia | exact Hg]|].
  exists (5 / 10 / INR n ^ 3 * dcorr (INR n) g (T_ 0) (T_ 1) (T_ 2) (T_ 3 g)). intros kap Hk.
  rewrite strong_force_ok by exact Hg. f_equal. unfold Fs.
  assert (E : F n g = (1 / g + (5 / 10 * INR n - 1) * T_ 1 g / T_ 0 g) / INR n).
  { unfold F. f_equal. f_equal. unfold T_.
    replace (Z.of_nat n - 2 - 0)%Z with (Z.of_nat (n - 2)) by lia. rewrite Ts_S_sum by (lia || assumption).
    destruct (Nat.eq_dec n 2) as [->|N2].
    - replace (INR 2 / 2 - 1) with 0 by (simpl; field). replace (5 / 10 * INR 2 - 1) with 0 by (simpl; field). unfold Rdiv; ring.
    - replace (Z.of_nat n - 2 - 1)%Z with (Z.of_nat (n - 3)) by lia. rewrite Ts_S_sum by (lia || assumption).
      f_equal. f_equal. field. }
  rewrite E. set (q := dcorr _ _ _ _ _ _). field.
  assert (T_ 0 g <> 0) by (apply Rgt_not_eq, T0_pos, Hg). repeat split; lra.
Qed.

End Strong.
