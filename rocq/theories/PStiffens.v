(** The compliance of the chains: it falls with the pull for rigid, square-well and
    harmonic links, and grows again before a Morse link breaks. *)
From Coq Require Import Reals ZArith List Lra Lia Psatz.
From Coquelicot Require Import Coquelicot.
From Verif Require Import Scalar MMath MConst MIdeal MFjc MEfjc MSwfjc MMorse.
From Verif Require Import SpecHooke SpecLinks SpecSofter SpecStability SpecStiffens PBase PHyp PLimits PNormalChain PStability PHooke PHookeStrong PHookeAsymptotic PSofter.
Open Scope R_scope.

Local Notation fjc := (@fjc_isotensional.nondimensional_end_to_end_length_per_link R R_scalar).
Local Notation morse := (@morse_isotensional_asymptotic.nondimensional_end_to_end_length_per_link R R_scalar).
Local Notation morse_reduced := (@morse_isotensional_asymptotic_reduced.nondimensional_end_to_end_length_per_link R R_scalar).
Local Notation efjc := (@efjc_isotensional_asymptotic.nondimensional_end_to_end_length_per_link R R_scalar).
Local Notation efjc_alternative := (@efjc_isotensional_asymptotic_alternative.nondimensional_end_to_end_length_per_link R R_scalar).
Local Notation efjc_reduced := (@efjc_isotensional_asymptotic_reduced.nondimensional_end_to_end_length_per_link R R_scalar).
Local Notation swfjc := (@swfjc_isotensional.nondimensional_end_to_end_length_per_link R R_scalar).

(** ** Ratios of power series *)
Definition poly (a : nat -> R) (n : nat) (t : R) : R := sum_f_R0 (fun k => a k * t ^ k) n.

Section Ratio.
Variables a b : nat -> R.
Hypothesis Hab : forall j k, (j < k)%nat -> a k * b j < a j * b k.
Variables y z : R.
Hypothesis Hy : 0 < y.
Hypothesis Hyz : y < z.

Let gap (n : nat) : R := poly a n y * poly b n z - poly a n z * poly b n y.

Lemma pow_gap : forall j k, (j < k)%nat -> 0 < z ^ k * y ^ j - y ^ k * z ^ j.
Proof using Hy Hyz.
  intros j k H. replace k with (j + S (k - j - 1))%nat by lia. rewrite !pow_add.
  assert (0 < y ^ j) by (apply pow_lt, Hy). assert (0 < z ^ j) by (apply pow_lt; lra).
  assert (y ^ S (k - j - 1) < z ^ S (k - j - 1)).
  { set (m := (k - j - 1)%nat). clearbody m. induction m; [cbn; lra|]. cbn [pow] in *.
    assert (0 < y * y ^ m) by (apply Rmult_lt_0_compat; [exact Hy | apply pow_lt, Hy]).
    apply Rmult_le_0_lt_compat; lra. }
  replace (z ^ j * z ^ S (k - j - 1) * y ^ j - y ^ j * y ^ S (k - j - 1) * z ^ j) with (y ^ j * z ^ j * (z ^ S (k - j - 1) - y ^ S (k - j - 1))) by ring.
  apply Rmult_lt_0_compat; [apply Rmult_lt_0_compat; assumption | lra].
Qed.

(* a new term meets every earlier one *)
Lemma gap_term : forall m n, (n < m)%nat ->
  0 < a m * y ^ m * poly b n z + poly a n y * (b m * z ^ m) - a m * z ^ m * poly b n y - poly a n z * (b m * y ^ m).
Proof using Hab Hy Hyz.
  intros m n H. induction n as [|n IH].
  - unfold poly; cbn [sum_f_R0]. pose proof (pow_gap 0 m H) as P. pose proof (Hab 0%nat m H) as Q. cbn [pow] in *.
    assert (0 < (a 0%nat * b m - a m * b 0%nat) * (z ^ m * 1 - y ^ m * 1)) by (apply Rmult_lt_0_compat; lra). nra.
  - unfold poly in *; cbn [sum_f_R0]. specialize (IH ltac:(lia)). pose proof (pow_gap (S n) m H) as P. pose proof (Hab (S n) m H) as Q.
    assert (X : 0 < (a (S n) * b m - a m * b (S n)) * (z ^ m * y ^ S n - y ^ m * z ^ S n)) by (apply Rmult_lt_0_compat; lra).
    match type of IH with 0 < ?e => match type of X with 0 < ?f => apply Rlt_le_trans with (e + f); [lra|right; ring] end end.
Qed.

Lemma gap_grows : forall n, gap n < gap (S n).
Proof using Hab Hy Hyz.
  intro n. pose proof (gap_term (S n) n ltac:(lia)) as P. unfold gap, poly in *. cbn [sum_f_R0]. apply Rminus_gt_0_lt.
  match type of P with 0 < ?e => replace (_ - _) with e; [exact P|ring] end.
Qed.

Lemma gap_pos : forall n, gap 1 <= gap (S n).
Proof using Hab Hy Hyz. induction n; [lra|]. pose proof (gap_grows (S n)). lra. Qed.

(** If the ratios of the coefficients fall, so does the ratio of the series. *)
Lemma ratio_falls : forall ay az by_ bz : R,
  is_lim_seq (fun n => poly a n y) ay -> is_lim_seq (fun n => poly a n z) az ->
  is_lim_seq (fun n => poly b n y) by_ -> is_lim_seq (fun n => poly b n z) bz ->
  az * by_ < ay * bz.
Proof using Hab Hy Hyz.
  intros ay az by_ bz A1 A2 B1 B2.
  assert (L : is_lim_seq gap (ay * bz - az * by_)).
  { apply (is_lim_seq_minus' (fun n => poly a n y * poly b n z) (fun n => poly a n z * poly b n y)).
    - exact (is_lim_seq_mult' _ _ _ _ A1 B2).
    - exact (is_lim_seq_mult' _ _ _ _ A2 B1). }
  assert (P : 0 < gap 1).
  { pose proof (gap_grows 0) as G. replace (gap 0) with 0 in G; [exact G|]. unfold gap, poly; cbn. ring. }
  assert (Q : Rbar_le (gap 1) (ay * bz - az * by_)).
  { apply is_lim_seq_le with (u := fun _ => gap 1) (v := fun n => gap (S n)); [apply gap_pos | apply is_lim_seq_const | apply is_lim_seq_incr_1 in L; exact L]. }
  cbn in Q. lra.
Qed.
End Ratio.

(** ** The series of sinh and of x cosh x - sinh x *)
Definition odd_fact (j : nat) : R := INR (fact (2 * j + 1)).

Lemma odd_fact_pos : forall j, 0 < odd_fact j.
Proof. intro. unfold odd_fact. apply INR_fact_lt_0. Qed.

Lemma odd_fact_S : forall j, odd_fact (S j) = (2 * INR j + 3) * (2 * INR j + 2) * odd_fact j.
Proof.
  intro j. unfold odd_fact. replace (2 * S j + 1)%nat with (S (S (2 * j + 1))) by lia.
  rewrite !fact_simpl, !mult_INR, !S_INR, plus_INR, mult_INR. cbn [INR]. ring.
Qed.

Lemma even_fact : forall j, odd_fact j = (2 * INR j + 1) * INR (fact (2 * j)).
Proof. intro j. unfold odd_fact. replace (2 * j + 1)%nat with (S (2 * j)) by lia. rewrite fact_simpl, mult_INR, S_INR, mult_INR. cbn [INR]. ring. Qed.

Lemma exp_series : forall t, is_series (fun k => t ^ k / INR (fact k)) (exp t).
Proof.
  intro t. pose proof (is_exp_Reals t) as Pe. unfold is_pseries in Pe.
  eapply is_series_ext; [|exact Pe]. intro k. cbv beta. rewrite pow_n_pow. unfold scal. simpl. unfold mult. simpl. unfold Rdiv. reflexivity.
Qed.

Lemma exp_partial : forall t, is_lim_seq (fun n => sum_f_R0 (fun k => t ^ k / INR (fact k)) (2 * n + 1)) (exp t).
Proof.
  intro t. apply (is_lim_seq_subseq (fun n => sum_f_R0 (fun k => t ^ k / INR (fact k)) n) (exp t) (fun n => (2 * n + 1)%nat)).
  - apply eventually_subseq. intro n. lia.
  - pose proof (exp_series t) as E. apply is_lim_seq_ext with (fun n => sum_n (fun k => t ^ k / INR (fact k)) n); [intro n; apply sum_n_Reals | exact E].
Qed.

Lemma split_partial : forall t n,
  sum_f_R0 (fun k => t ^ k / INR (fact k)) (2 * n + 1)
  = sum_f_R0 (fun j => t ^ (2 * j) / INR (fact (2 * j))) n + sum_f_R0 (fun j => t ^ (2 * j + 1) / odd_fact j) n.
Proof.
  intros t n. induction n as [|n IH]; [cbn; unfold odd_fact; cbn; field|].
  replace (2 * S n + 1)%nat with (S (S (2 * n + 1))) by lia. cbn [sum_f_R0]. rewrite IH.
  replace (S (2 * n + 1)) with (2 * S n)%nat by lia. unfold odd_fact. replace (2 * S n + 1)%nat with (S (2 * S n)) by lia. ring.
Qed.

Lemma minus_even : forall t j, (- t) ^ (2 * j) = t ^ (2 * j).
Proof. intros. rewrite !pow_mult. f_equal. ring. Qed.

Lemma cosh_partial : forall t, is_lim_seq (fun n => sum_f_R0 (fun j => t ^ (2 * j) / INR (fact (2 * j))) n) (cosh t).
Proof.
  intro t. unfold cosh. apply is_lim_seq_ext with (fun n => (sum_f_R0 (fun k => t ^ k / INR (fact k)) (2 * n + 1) + sum_f_R0 (fun k => (- t) ^ k / INR (fact k)) (2 * n + 1)) * / 2).
  - intro n. rewrite !split_partial.
    rewrite (sum_eq (fun j => (- t) ^ (2 * j) / INR (fact (2 * j))) (fun j => t ^ (2 * j) / INR (fact (2 * j)))) by (intros j _; rewrite minus_even; reflexivity).
    rewrite (sum_eq (fun j => (- t) ^ (2 * j + 1) / odd_fact j) (fun j => t ^ (2 * j + 1) / odd_fact j * -1))
      by (intros j _; rewrite !pow_add, minus_even; unfold Rdiv; ring).
    rewrite <- scal_sum. field.
  - apply is_lim_seq_mult'; [apply is_lim_seq_plus'; apply exp_partial | apply is_lim_seq_const].
Qed.

Lemma sinh_partial : forall t, is_lim_seq (fun n => sum_f_R0 (fun j => t ^ (2 * j + 1) / odd_fact j) n) (sinh t).
Proof.
  intro t. unfold sinh. apply is_lim_seq_ext with (fun n => (sum_f_R0 (fun k => t ^ k / INR (fact k)) (2 * n + 1) - sum_f_R0 (fun k => (- t) ^ k / INR (fact k)) (2 * n + 1)) * / 2).
  - intro n. rewrite !split_partial.
    rewrite (sum_eq (fun j => (- t) ^ (2 * j) / INR (fact (2 * j))) (fun j => t ^ (2 * j) / INR (fact (2 * j)))) by (intros j _; rewrite minus_even; reflexivity).
    rewrite (sum_eq (fun j => (- t) ^ (2 * j + 1) / odd_fact j) (fun j => t ^ (2 * j + 1) / odd_fact j * -1))
      by (intros j _; rewrite !pow_add, minus_even; unfold Rdiv; ring).
    rewrite <- scal_sum. field.
  - apply is_lim_seq_mult'; [apply is_lim_seq_minus'; apply exp_partial | apply is_lim_seq_const].
Qed.

Lemma xch_partial : forall t, is_lim_seq (fun n => sum_f_R0 (fun j => 2 * INR j * t ^ (2 * j + 1) / odd_fact j) n) (xch t).
Proof.
  intro t. unfold xch. apply is_lim_seq_ext with (fun n => t * sum_f_R0 (fun j => t ^ (2 * j) / INR (fact (2 * j))) n - sum_f_R0 (fun j => t ^ (2 * j + 1) / odd_fact j) n).
  - intro n. rewrite scal_sum, <- minus_sum. apply sum_eq. intros j _.
    pose proof (INR_fact_lt_0 (2 * j)). pose proof (pos_INR j). rewrite even_fact, pow_add, pow_1. field. split; lra.
  - apply is_lim_seq_minus'; [|apply sinh_partial]. apply is_lim_seq_mult'; [apply is_lim_seq_const | apply cosh_partial].
Qed.

(* y^2 sinh y - 3 (y cosh y - sinh y) *)
Definition hump (t : R) : R := t ^ 2 * sinh t - 3 * xch t.

Lemma hump_partial : forall t, is_lim_seq (fun n => sum_f_R0 (fun j => 2 * INR j * (2 * INR j + 2) * t ^ (2 * j + 3) / odd_fact (S j)) n) (hump t).
Proof.
  intro t. unfold hump. apply is_lim_seq_ext with (fun n => t ^ 2 * sum_f_R0 (fun j => t ^ (2 * j + 1) / odd_fact j) n - 3 * sum_f_R0 (fun j => 2 * INR j * t ^ (2 * j + 1) / odd_fact j) (S n)).
  - intro n. induction n as [|n IH].
    + cbn [sum_f_R0]. rewrite (odd_fact_S 0). unfold odd_fact. cbn. field.
    + cbn [sum_f_R0] in IH |- *. rewrite <- IH. rewrite (odd_fact_S (S n)). rewrite !S_INR. pose proof (odd_fact_pos (S n)). pose proof (pos_INR n).
      replace (2 * S (S n) + 1)%nat with ((2 * S n + 1) + 2)%nat by lia. replace (2 * S n + 3)%nat with ((2 * S n + 1) + 2)%nat by lia.
      rewrite !pow_add. field. repeat split; lra.
  - apply is_lim_seq_minus'; apply is_lim_seq_mult'; try apply is_lim_seq_const; [apply sinh_partial|].
    pose proof (xch_partial t) as X. apply is_lim_seq_incr_1 in X. exact X.
Qed.

(** Dropping a first term that vanishes, and a power of x common to all. *)
Lemma shift_partial : forall (c d : nat -> R) (t p v : R) m, 0 < t -> c 0%nat = 0 ->
  (forall k, c (S k) = d k * (t ^ 2) ^ k * p) -> p <> 0 -> m = v / p ->
  is_lim_seq (fun n => sum_f_R0 c n) v -> is_lim_seq (fun n => poly d n (t ^ 2)) m.
Proof.
  intros c d t p v m Ht C0 C Hp -> L. apply is_lim_seq_incr_1 in L.
  apply is_lim_seq_ext with (fun n => sum_f_R0 c (S n) * / p); [|apply (is_lim_seq_mult' _ _ _ _ L), is_lim_seq_const].
  intro n. rewrite decomp_sum by lia. cbn [pred]. rewrite C0, Rplus_0_l. unfold poly.
  rewrite (sum_eq (fun i => c (S i)) (fun k => d k * (t ^ 2) ^ k * p)) by (intros k _; apply C). rewrite <- scal_sum. field. exact Hp.
Qed.

(** ** Rigid links *)
Lemma fjc_stiffens : stiffens fjc.
Proof.
  intros x y Hx H. assert (Hy : 0 < y) by lra.
  assert (F : forall t, 0 < t -> fjc t / t = (xch t / t ^ 3) / (sinh t / t)).
  { intros t Ht. rewrite fjc_eq. pose proof (PHyp.sinh_pos t Ht). pose proof (PHyp.cosh_pos t). unfold xch, tanh. field. repeat split; lra. }
  rewrite !F by assumption.
  set (a := fun k => (2 * INR k + 2) / odd_fact (S k)). set (b := fun k => / odd_fact k).
  assert (A : forall t, 0 < t -> is_lim_seq (fun n => poly a n (t ^ 2)) (xch t / t ^ 3)).
  { intros t Ht. apply (shift_partial (fun j => 2 * INR j * t ^ (2 * j + 1) / odd_fact j) a t (t ^ 3) (xch t)); [exact Ht | cbn; unfold Rdiv; ring | | apply pow_nonzero; lra | reflexivity | apply xch_partial].
    intro k. unfold a. rewrite S_INR, <- pow_mult. replace (2 * S k + 1)%nat with (2 * k + 3)%nat by lia. rewrite pow_add. unfold Rdiv. ring. }
  assert (B : forall t, 0 < t -> is_lim_seq (fun n => poly b n (t ^ 2)) (sinh t / t)).
  { intros t Ht. apply is_lim_seq_ext with (fun n => sum_f_R0 (fun j => t ^ (2 * j + 1) / odd_fact j) n * / t);
      [|apply (is_lim_seq_mult' _ _ _ _ (sinh_partial t)), is_lim_seq_const].
    intro n. unfold poly, b. rewrite Rmult_comm, scal_sum. apply sum_eq. intros k _. rewrite <- pow_mult, pow_add, pow_1. pose proof (odd_fact_pos k). field. lra. }
  assert (P : xch y / y ^ 3 * (sinh x / x) < xch x / x ^ 3 * (sinh y / y)).
  { apply (ratio_falls a b) with (y := x ^ 2) (z := y ^ 2); try (apply A; assumption); try (apply B; assumption); [|apply pow_lt, Hx | nra].
    intros j k Hjk. unfold a, b. rewrite !odd_fact_S. pose proof (odd_fact_pos j). pose proof (odd_fact_pos k). pose proof (pos_INR j). pose proof (pos_INR k).
    assert (INR j < INR k) by (apply lt_INR, Hjk).
    replace ((2 * INR k + 2) / ((2 * INR k + 3) * (2 * INR k + 2) * odd_fact k) * / odd_fact j) with (/ (2 * INR k + 3) * (/ odd_fact j * / odd_fact k)) by (field; lra).
    replace ((2 * INR j + 2) / ((2 * INR j + 3) * (2 * INR j + 2) * odd_fact j) * / odd_fact k) with (/ (2 * INR j + 3) * (/ odd_fact j * / odd_fact k)) by (field; lra).
    apply Rmult_lt_compat_r; [apply Rmult_lt_0_compat; apply Rinv_0_lt_compat; assumption|]. apply Rinv_lt_contravar; [apply Rmult_lt_0_compat; lra | lra]. }
  assert (0 < sinh x / x) by (apply Rdiv_lt_0_compat; [apply PHyp.sinh_pos|]; assumption).
  assert (0 < sinh y / y) by (apply Rdiv_lt_0_compat; [apply PHyp.sinh_pos|]; assumption).
  set (p := xch y / y ^ 3) in *. set (q := sinh x / x) in *. set (r := xch x / x ^ 3) in *. set (s := sinh y / y) in *. clearbody p q r s.
  apply Rmult_lt_reg_r with (q * s); [apply Rmult_lt_0_compat; assumption|].
  replace (p / s * (q * s)) with (p * q) by (field; lra). replace (r / q * (q * s)) with (r * s) by (field; lra). exact P.
Qed.

(** ** Square wells *)
Lemma well_ratio : forall v m, 1 < v -> (1 <= m)%nat -> 0 < v ^ m - 1.
Proof. intros v m Hv Hm. pose proof (Rlt_pow_R1 v m Hv ltac:(lia)). lra. Qed.

Lemma swfjc_stiffens : forall l w, 0 < l -> 0 < w -> stiffens (swfjc l w).
Proof.
  intros l w Hl Hw x y Hx H. assert (Hy : 0 < y) by lra.
  assert (V : 1 < 1 + w / l) by (assert (0 < w / l) by (apply Rdiv_lt_0_compat; lra); lra).
  assert (D : forall t, 0 < t -> 0 < xch (t * (1 + w / l)) - xch t) by (intros t Ht; apply Rlt_Rminus, xch_increasing; nra).
  assert (F : forall t, 0 < t -> swfjc l w t / t = ((hump (t * (1 + w / l)) - hump t) / t ^ 5) / ((xch (t * (1 + w / l)) - xch t) / t ^ 3)).
  { intros t Ht. rewrite swfjc_form by lra. cbv zeta. rewrite !Rmult_1_r. specialize (D t Ht). unfold hump. set (v := 1 + w / l) in *. clearbody v. field. repeat split; lra. }
  rewrite !F by assumption. set (v := 1 + w / l) in *. clearbody v. clear F.
  set (a := fun k => (2 * INR k + 2) * (2 * INR k + 4) * (v ^ (2 * k + 5) - 1) / odd_fact (S (S k))).
  set (b := fun k => (2 * INR k + 2) * (v ^ (2 * k + 3) - 1) / odd_fact (S k)).
  assert (A : forall t, 0 < t -> is_lim_seq (fun n => poly a n (t ^ 2)) ((hump (t * v) - hump t) / t ^ 5)).
  { intros t Ht. apply (shift_partial (fun j => 2 * INR j * (2 * INR j + 2) * (t * v) ^ (2 * j + 3) / odd_fact (S j) - 2 * INR j * (2 * INR j + 2) * t ^ (2 * j + 3) / odd_fact (S j)) a t (t ^ 5) (hump (t * v) - hump t));
      [exact Ht | cbn; unfold Rdiv; ring | | apply pow_nonzero; lra | reflexivity |].
    - intro k. unfold a. rewrite S_INR, <- pow_mult. replace (2 * S k + 3)%nat with (2 * k + 5)%nat by lia. rewrite Rpow_mult_distr, !pow_add. pose proof (odd_fact_pos (S (S k))). field. lra.
    - apply is_lim_seq_ext with (fun n => sum_f_R0 (fun j => 2 * INR j * (2 * INR j + 2) * (t * v) ^ (2 * j + 3) / odd_fact (S j)) n - sum_f_R0 (fun j => 2 * INR j * (2 * INR j + 2) * t ^ (2 * j + 3) / odd_fact (S j)) n);
        [intro n; symmetry; apply minus_sum | apply is_lim_seq_minus'; apply hump_partial]. }
  assert (B : forall t, 0 < t -> is_lim_seq (fun n => poly b n (t ^ 2)) ((xch (t * v) - xch t) / t ^ 3)).
  { intros t Ht. apply (shift_partial (fun j => 2 * INR j * (t * v) ^ (2 * j + 1) / odd_fact j - 2 * INR j * t ^ (2 * j + 1) / odd_fact j) b t (t ^ 3) (xch (t * v) - xch t));
      [exact Ht | cbn; unfold Rdiv; ring | | apply pow_nonzero; lra | reflexivity |].
    - intro k. unfold b. rewrite S_INR, <- pow_mult. replace (2 * S k + 1)%nat with (2 * k + 3)%nat by lia. rewrite Rpow_mult_distr, !pow_add. pose proof (odd_fact_pos (S k)). field. lra.
    - apply is_lim_seq_ext with (fun n => sum_f_R0 (fun j => 2 * INR j * (t * v) ^ (2 * j + 1) / odd_fact j) n - sum_f_R0 (fun j => 2 * INR j * t ^ (2 * j + 1) / odd_fact j) n);
        [intro n; symmetry; apply minus_sum | apply is_lim_seq_minus'; apply xch_partial]. }
  assert (P : (hump (y * v) - hump y) / y ^ 5 * ((xch (x * v) - xch x) / x ^ 3) < (hump (x * v) - hump x) / x ^ 5 * ((xch (y * v) - xch y) / y ^ 3)).
  { apply (ratio_falls a b) with (y := x ^ 2) (z := y ^ 2); try (apply A; assumption); try (apply B; assumption); [|apply pow_lt, Hx | nra].
    intros j k Hjk. pose proof (pos_INR j). pose proof (pos_INR k). assert (JK : INR j < INR k) by (apply lt_INR, Hjk).
    assert (E : forall i, a i = / (2 * INR i + 5) * ((v ^ (2 * i + 5) - 1) / (v ^ (2 * i + 3) - 1)) * b i).
    { intro i. unfold a, b. rewrite (odd_fact_S (S i)), S_INR. pose proof (odd_fact_pos (S i)). pose proof (pos_INR i). pose proof (well_ratio v (2 * i + 3) V ltac:(lia)). field. lra. }
    assert (G : forall i, 0 < b i).
    { intro i. unfold b. pose proof (odd_fact_pos (S i)). pose proof (pos_INR i). pose proof (well_ratio v (2 * i + 3) V ltac:(lia)).
      apply Rdiv_lt_0_compat; [apply Rmult_lt_0_compat; lra | assumption]. }
    assert (Q : forall i, (v ^ (2 * i + 5) - 1) / (v ^ (2 * i + 3) - 1) = v ^ 2 + (v ^ 2 - 1) * / (v ^ (2 * i + 3) - 1)).
    { intro i. pose proof (well_ratio v (2 * i + 3) V ltac:(lia)) as W. replace (2 * i + 5)%nat with ((2 * i + 3) + 2)%nat by lia. rewrite (pow_add v (2 * i + 3) 2). field. lra. }
    rewrite !E, !Q. set (cj := / (v ^ (2 * j + 3) - 1)). set (ck := / (v ^ (2 * k + 3) - 1)).
    assert (W : 0 < v ^ 2 - 1) by (apply well_ratio; [exact V | lia]).
    assert (C : 0 < ck < cj).
    { unfold ck, cj. pose proof (well_ratio v (2 * j + 3) V ltac:(lia)). pose proof (well_ratio v (2 * k + 3) V ltac:(lia)). split; [apply Rinv_0_lt_compat; assumption|].
      apply Rinv_lt_contravar; [apply Rmult_lt_0_compat; assumption|]. pose proof (Rlt_pow v (2 * j + 3) (2 * k + 3) V ltac:(lia)). lra. }
    assert (I : 0 < / (2 * INR k + 5) < / (2 * INR j + 5)) by (split; [apply Rinv_0_lt_compat; lra | apply Rinv_lt_contravar; [apply Rmult_lt_0_compat; lra | lra]]).
    pose proof (G j) as Gj. pose proof (G k) as Gk. set (bj := b j) in *. set (bk := b k) in *. clearbody bj bk cj ck.
    set (ij := / (2 * INR j + 5)) in *. set (ik := / (2 * INR k + 5)) in *. clearbody ij ik. clear E Q G A B D.
    assert (K : (v ^ 2 - 1) * ck < (v ^ 2 - 1) * cj) by (apply Rmult_lt_compat_l; lra).
    assert (0 < (v ^ 2 - 1) * ck) by (apply Rmult_lt_0_compat; lra).
    assert (L : ik * (v ^ 2 + (v ^ 2 - 1) * ck) < ij * (v ^ 2 + (v ^ 2 - 1) * cj)) by (apply Rmult_le_0_lt_compat; lra).
    replace (ik * (v ^ 2 + (v ^ 2 - 1) * ck) * bk * bj) with (ik * (v ^ 2 + (v ^ 2 - 1) * ck) * (bk * bj)) by ring.
    replace (ij * (v ^ 2 + (v ^ 2 - 1) * cj) * bj * bk) with (ij * (v ^ 2 + (v ^ 2 - 1) * cj) * (bk * bj)) by ring.
    apply Rmult_lt_compat_r; [apply Rmult_lt_0_compat; assumption | exact L]. }
  assert (0 < (xch (x * v) - xch x) / x ^ 3) by (apply Rdiv_lt_0_compat; [apply D | apply pow_lt]; assumption).
  assert (0 < (xch (y * v) - xch y) / y ^ 3) by (apply Rdiv_lt_0_compat; [apply D | apply pow_lt]; assumption).
  set (p := (hump (y * v) - hump y) / y ^ 5) in *. set (q := (xch (x * v) - xch x) / x ^ 3) in *. set (r := (hump (x * v) - hump x) / x ^ 5) in *. set (s := (xch (y * v) - xch y) / y ^ 3) in *. clearbody p q r s.
  apply Rmult_lt_reg_r with (q * s); [apply Rmult_lt_0_compat; assumption|].
  replace (p / s * (q * s)) with (p * q) by (field; lra). replace (r / q * (q * s)) with (r * s) by (field; lra). exact P.
Qed.

(** ** Harmonic links *)
Lemma stiffens_plus_linear : forall f g c, (forall x, 0 < x -> g x = f x + c * x) -> stiffens f -> stiffens g.
Proof.
  intros f g c E S x y Hx H. rewrite !E by lra. specialize (S x y Hx H).
  replace ((f y + c * y) / y) with (f y / y + c) by (field; lra). replace ((f x + c * x) / x) with (f x / x + c) by (field; lra). lra.
Qed.

Definition coupling (x : R) : R := cosh x / (x * sinh x) - 1 / sinh x ^ 2.

Lemma coupling_pos' : forall x, 0 < x -> 0 < coupling x.
Proof.
  intros x Hx. pose proof (PSofter.coupling_pos x Hx) as P. pose proof (PHyp.sinh_pos x Hx) as S. pose proof (PHyp.cosh_pos x) as C. pose proof (cosh2 x) as Q.
  unfold coupling. replace (cosh x / (x * sinh x) - 1 / sinh x ^ 2) with ((tanh x - 1 / tanh x + 1 / x) * (cosh x / sinh x)); [apply Rmult_lt_0_compat; [exact P | apply Rdiv_lt_0_compat; assumption]|].
  unfold tanh. assert (E : sinh x ^ 2 - cosh x ^ 2 = -1) by nra.
  transitivity ((sinh x ^ 2 - cosh x ^ 2) / sinh x ^ 2 + cosh x / (x * sinh x)); [field; repeat split; lra|]. rewrite E. field. repeat split; lra.
Qed.

Lemma coupling_falls : forall x y, 0 < x -> x < y -> coupling y < coupling x.
Proof.
  intros x y Hx H.
  destruct (MVT_cor2 coupling (fun t => - (sinh t * (t + sinh t * cosh t) - 2 * t ^ 2 * cosh t) / (t ^ 2 * sinh t ^ 3)) x y H) as (c & E & Hc).
  { intros c Hc. pose proof (PHyp.sinh_pos c ltac:(lra)) as S. apply is_derive_Reals. unfold coupling. auto_derive; [repeat split; try lra; apply Rmult_integral_contrapositive_currified; lra|].
    pose proof (cosh2 c) as Q. assert (Q' : cosh c ^ 2 = 1 + sinh c ^ 2) by nra.
    match goal with |- ?l = _ => transitivity ((c * sinh c ^ 3 - sinh c * (c * cosh c ^ 2) - cosh c * sinh c ^ 2 + 2 * c ^ 2 * cosh c) / (c ^ 2 * sinh c ^ 3)); [field; lra|] end.
    rewrite Q'. field. lra. }
  assert (P : 0 < sinh c * (c + sinh c * cosh c) - 2 * c ^ 2 * cosh c).
  { pose proof (PHyp.sinh_pos c ltac:(lra)) as S. pose proof (PHyp.cosh_pos c) as C. pose proof (PLangevin.lazarevic c ltac:(lra)) as L.
    set (s := sinh c) in *. set (h := cosh c) in *. clearbody s h. clear E.
    assert (U : 0 < c) by lra.
    assert (0 < s * (c + s * h)) by (apply Rmult_lt_0_compat; [lra|]; assert (0 < s * h) by (apply Rmult_lt_0_compat; assumption); lra).
    assert (W : (2 * c ^ 2 * h) ^ 2 < (s * (c + s * h)) ^ 2).
    { assert (X : 0 <= s ^ 2 * (c - s * h) ^ 2) by (apply Rmult_le_pos; apply pow2_ge_0).
      assert (Y : 4 * c * h * (c ^ 3 * h) < 4 * c * h * s ^ 3) by (apply Rmult_lt_compat_l; [apply Rmult_lt_0_compat; lra | exact L]).
      replace ((s * (c + s * h)) ^ 2) with (s ^ 2 * (c - s * h) ^ 2 + 4 * c * h * s ^ 3) by ring.
      replace ((2 * c ^ 2 * h) ^ 2) with (4 * c * h * (c ^ 3 * h)) by ring. lra. }
    apply Rnot_le_lt. intro N. assert (s * (c + s * h) <= 2 * c ^ 2 * h) by lra.
    assert ((s * (c + s * h)) ^ 2 <= (2 * c ^ 2 * h) ^ 2) by (apply pow_incr; lra). lra. }
  assert (0 < c ^ 2 * sinh c ^ 3) by (apply Rmult_lt_0_compat; apply pow_lt; [lra | apply PHyp.sinh_pos; lra]).
  assert (0 < (sinh c * (c + sinh c * cosh c) - 2 * c ^ 2 * cosh c) / (c ^ 2 * sinh c ^ 3) * (y - x)) by (apply Rmult_lt_0_compat; [apply Rdiv_lt_0_compat; assumption | lra]).
  rewrite Ropp_div in E. lra.
Qed.

Lemma stiff_stiffens : forall k c, 0 < k -> 0 < c -> stiffens (stiff_length k c).
Proof.
  intros k c Hk Hc x y Hx H. assert (Hy : 0 < y) by lra.
  assert (E : forall t, 0 < t -> stiff_length k c t / t = fjc t / t + / k * (coupling t / (c + (t * cosh t / sinh t) / k))).
  { intros t Ht. pose proof (PHyp.sinh_pos t Ht) as S. pose proof (PHyp.cosh_pos t) as C. unfold stiff_length. rewrite fjc_eq.
    assert (Q : tanh t - 1 / tanh t + 1 / t = coupling t * tanh t).
    { unfold coupling, tanh. pose proof (cosh2 t) as Q. assert (Q' : sinh t ^ 2 - cosh t ^ 2 = -1) by nra.
      transitivity ((sinh t ^ 2 - cosh t ^ 2) / (sinh t * cosh t) + 1 / t); [field; repeat split; lra|]. rewrite Q'. field. repeat split; lra. }
    rewrite Q. unfold tanh. assert (0 < t * cosh t) by (apply Rmult_lt_0_compat; assumption). assert (0 < c * k * sinh t) by (apply Rmult_lt_0_compat; [apply Rmult_lt_0_compat|]; assumption). field. repeat split; try lra.
    all: try (intro Z; lra). }
  rewrite !E by assumption. pose proof (fjc_stiffens x y Hx H) as F. apply Rplus_lt_compat; [exact F|].
  apply Rmult_lt_compat_l; [apply Rinv_0_lt_compat, Hk|].
  pose proof (coupling_falls x y Hx H) as G. pose proof (coupling_pos' y Hy) as P.
  assert (W : x * cosh x / sinh x < y * cosh y / sinh y).
  { pose proof (coth_increasing x y Hx H) as I. pose proof (PHyp.sinh_pos x Hx). pose proof (PHyp.sinh_pos y Hy). unfold xch in I.
    apply Rmult_lt_reg_r with (sinh x * sinh y); [apply Rmult_lt_0_compat; assumption|].
    replace (x * cosh x / sinh x * (sinh x * sinh y)) with (x * cosh x * sinh y) by (field; lra).
    replace (y * cosh y / sinh y * (sinh x * sinh y)) with (y * cosh y * sinh x) by (field; lra). lra. }
  assert (0 < x * cosh x / sinh x) by (apply Rdiv_lt_0_compat; [apply Rmult_lt_0_compat; [exact Hx | apply PHyp.cosh_pos] | apply PHyp.sinh_pos, Hx]).
  set (u := x * cosh x / sinh x) in *. set (u' := y * cosh y / sinh y) in *. clearbody u u'.
  assert (u / k < u' / k) by (apply Rmult_lt_compat_r; [apply Rinv_0_lt_compat, Hk | exact W]). assert (0 < u / k) by (apply Rdiv_lt_0_compat; assumption).
  apply Rmult_gt_0_lt_compat; try lra; [apply Rinv_0_lt_compat; lra|]. apply Rinv_lt_contravar; [apply Rmult_lt_0_compat; lra | lra].
Qed.

Lemma efjc_stiffens : forall k, 0 < k -> stiffens (efjc k).
Proof.
  intros k Hk. apply (stiffens_plus_linear (stiff_length k 1) _ (/ k)); [|apply stiff_stiffens; lra].
  intros x Hx. change (efjc k x) with (1 / tanh x - 1 / x + x / k * (1 + (tanh x - 1 / tanh x + 1 / x) / (tanh x + x / k))).
  unfold stiff_length. rewrite Rmult_1_l. unfold Rdiv. ring.
Qed.

Lemma efjc_reduced_stiffens : forall k, 0 < k -> stiffens (efjc_reduced k).
Proof.
  intros k Hk. apply (stiffens_plus_linear fjc _ (/ k)); [|apply fjc_stiffens].
  intros x Hx. rewrite fjc_eq. change (efjc_reduced k x) with (1 / tanh x - 1 / x + x / k). unfold Rdiv. ring.
Qed.

Lemma efjc_alternative_stiffens : forall k, 0 < k -> stiffens (efjc_alternative k).
Proof.
  intros k Hk x y Hx H. assert (Hy : 0 < y) by lra. pose proof (fjc_stiffens x y Hx H) as F. pose proof (coupling_falls x y Hx H) as G.
  assert (E : forall t, 0 < t -> efjc_alternative k t / t = fjc t / t + / k * (1 + coupling t)).
  { intros t Ht. pose proof (PHyp.sinh_pos t Ht). pose proof (PHyp.cosh_pos t). rewrite fjc_eq.
    change (efjc_alternative k t) with (1 / tanh t - 1 / t + (t + 1 / tanh t - t / sinh t ^ 2) / k). unfold coupling, tanh. field. repeat split; lra. }
  rewrite !E by assumption. apply Rplus_lt_compat; [exact F|]. apply Rmult_lt_compat_l; [apply Rinv_0_lt_compat, Hk|]. lra.
Qed.
