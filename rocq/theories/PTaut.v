(** The pull of a chain that is almost straight. *)
From Coq Require Import Reals ZArith List Lra Lia Factorial QArith.Qreals.
From Coquelicot Require Import Coquelicot.
From Verif Require Import Scalar MConst MMath MTreloar MFjc MWlc SpecThermo SpecLangevin SpecTaut
  PBase PHyp PLangevin PIrwinHall PWalk PTreloar PErfPoly PBessel PConjWlc PWormExample PInvLangevin PNewton SpecNewton.
Open Scope R_scope.

(** ** The exact freely jointed chain: one term of the sum is left *)
Lemma ih_first : forall e n x, (1 <= n)%nat -> 0 < x <= 1 -> ih e n x = x ^ e / INR (fact e).
Proof.
  intros e n x Hn Hx. induction n as [|n IH]; [lia |]. cbn [ih]. rewrite (ih_neg e n (x - 1)) by lra. rewrite Rminus_0_r.
  destruct n as [|n]; [cbn [ih]; rewrite pp_pos by lra; reflexivity | apply IH; lia].
Qed.

Lemma fjc_taut : forall prof (N : Z) g, (2 <= N <= 34)%Z -> 0 < g -> 1 - 2 / IZR N <= g < 1 ->
  fjc_isometric.nondimensional_force prof N g = Some (((IZR N - 2) / (1 - g) + 1 / g) / IZR N).
Proof.
  intros prof N g HN Hg G. assert (Q : exists n, N = Z.of_nat n) by (exists (Z.to_nat N); lia). destruct Q as (n & ->).
  rewrite force_ok by (lia || lra). f_equal. rewrite <- INR_IZR_INZ in *.
  assert (Pn : 2 <= INR n) by (change 2 with (INR 2); apply le_INR; lia).
  assert (X : 0 < arg n g <= 1).
  { unfold arg. split; [apply Rmult_lt_0_compat; lra |].
    apply Rle_trans with (INR n * ((2 / INR n) / 2)); [apply Rmult_le_compat_l; lra | right; field; lra]. }
  unfold F, S_sum. rewrite !ih_first by (lia || lra).
  destruct n as [|[|[|j]]]; [lia | lia | |].
  - simpl INR. replace (1 + 1) with 2 by ring. replace (2 / 2 - 1) with 0 by field. replace (2 - 2) with 0 by ring.
    unfold Rdiv. rewrite !Rmult_0_l. field. lra.
  - set (n := S (S (S j))) in *. replace (n - 3)%nat with j by (unfold n; lia). replace (n - 2)%nat with (S j) by (unfold n; lia).
    pose proof (fact_neq j). pose proof (fact_neq (S j)). pose proof (pow_nonzero (arg n g) j ltac:(lra)). pose proof (pow_nonzero (INR n) j ltac:(lra)).
    change (arg n g ^ S j) with (arg n g * arg n g ^ j). change (INR n ^ S j) with (INR n * INR n ^ j).
    assert (E : 1 - g = 2 * arg n g / INR n) by (unfold arg; field; lra). rewrite E.
    set (x := arg n g) in *. clearbody x. set (p := x ^ j) in *. set (q := INR n ^ j) in *. clearbody p q.
    field. repeat split; try assumption; lra.
Qed.

Lemma fjc_taut_dimensional : forall prof (N : Z) l xi T, (2 <= N <= 34)%Z -> 0 < l -> 0 < T -> 0 < xi -> (IZR N - 2) * l <= xi < IZR N * l ->
  fjc_isometric.force prof N l xi T = Some (kB * T * ((IZR N - 2) / (IZR N * l - xi) + 1 / xi)).
Proof.
  intros prof N l xi T HN Hl HT Hx X. assert (PN : 0 < IZR N) by (apply IZR_lt; lia).
  assert (Pl : 0 < IZR N * l) by (apply Rmult_lt_0_compat; assumption).
  unfold fjc_isometric.force. change (sdiv xi (smul (sofZ N) l)) with (xi / (IZR N * l)).
  rewrite fjc_taut.
  - cbn [bind]. f_equal.
    change ((((IZR N - 2) / (1 - xi / (IZR N * l)) + 1 / (xi / (IZR N * l))) / IZR N) * BOLTZMANN_CONSTANT * T / l
      = kB * T * ((IZR N - 2) / (IZR N * l - xi) + 1 / xi)). rewrite B_eq. field. repeat split; lra.
  - exact HN.
  - apply Rdiv_lt_0_compat; assumption.
  - split.
    + apply (Rmult_le_reg_r (IZR N * l)); [exact Pl |]. unfold Rdiv at 2. rewrite Rmult_assoc, Rinv_l by lra.
      replace ((1 - 2 / IZR N) * (IZR N * l)) with ((IZR N - 2) * l) by (field; lra). lra.
    + apply (Rmult_lt_reg_r (IZR N * l)); [exact Pl |]. unfold Rdiv. rewrite Rmult_assoc, Rinv_l by lra. lra.
Qed.

(** ** The worm-like chain: the law of Marko and Siggia *)
Lemma scale_nonpos : forall z, 0 < z -> wlc_bessel_scale z <= 0.
Proof.
  intros z Hz. unfold wlc_bessel_scale.
  assert (D : 0 <= if Rlt_dec z (125 / 1000) then 1
     else 1 - 1 / (177 / 1000 / (z - 111 / 1000) + 64 / 10 * Rpowf (z - 111 / 1000) (783 / 1000))).
  { destruct Rlt_dec; [lra |]. set (u := z - 111 / 1000). assert (U : 0 < u) by (unfold u; lra).
    unfold Rpowf. destruct Rlt_dec; [| lra].
    assert (A : 0 < 177 / 1000 / u) by (apply Rdiv_lt_0_compat; lra).
    assert (B : 0 < Rpower u (783 / 1000)) by apply exp_pos.
    assert (S : 1 <= 177 / 1000 / u + 64 / 10 * Rpower u (783 / 1000)).
    { destruct (Rle_dec u (177 / 1000)).
      - assert (1 <= 177 / 1000 / u).
        { apply (Rmult_le_reg_r u); [exact U |]. unfold Rdiv at 1. rewrite Rmult_assoc, Rinv_l by lra. lra. }
        lra.
      - assert (177 / 1000 <= Rpower u (783 / 1000)).
        { destruct (Rle_dec u 1).
          - apply Rle_trans with u; [lra |]. rewrite <- (Rpower_1 u U) at 1. unfold Rpower.
            assert (ln u <= 0). { destruct (Req_dec u 1) as [-> |]; [rewrite ln_1; lra |]. left. rewrite <- ln_1. apply ln_increasing; lra. }
            destruct (Req_dec (1 * ln u) (783 / 1000 * ln u)) as [-> |]; [lra | left; apply exp_increasing; lra].
          - apply Rle_trans with (Rpower u 0); [rewrite Rpower_O by exact U; lra |].
            apply Rle_Rpower; lra. }
        lra. }
    set (s := 177 / 1000 / u + _) in *. apply (Rmult_le_reg_r s); [lra |].
    replace ((1 - 1 / s) * s) with (s - 1) by (field; lra). lra. }
  set (d := if Rlt_dec z (125 / 1000) then _ else _) in *. nra.
Qed.

Lemma pe_derivable : forall p t, ex_derive (pe p) t.
Proof.
  intro p. induction p as [|a p IH]; intro t; [apply ex_derive_const |].
  apply (ex_derive_ext (fun t => Q2R a + t * pe p t)); [reflexivity |].
  apply (ex_derive_plus (V := R_NormedModule)); [apply ex_derive_const |]. apply (ex_derive_mult (fun t => t)); [apply ex_derive_id | apply IH].
Qed.

(** The ratio of the Bessel functions at a negative argument. *)
Definition ratio (x : R) : R := x / 2 * pe poly1 (x ^ 2 / 4) / pe poly0 (x ^ 2 / 4).

Lemma poly0_pos : forall x, 1 <= pe poly0 (x ^ 2 / 4).
Proof.
  intro x. destruct poly_coefficients as [F0 _]. unfold poly0 in *. inversion F0; subst.
  replace 1 with (Q2R 1) at 1 by (unfold Q2R; cbn; lra). apply pe_head; [assumption |]. pose proof (pow2_ge_0 x). lra.
Qed.

Lemma ratio_derivable : forall x, ex_derive ratio x.
Proof.
  intro x. unfold ratio. pose proof (poly0_pos x).
  assert (Q : forall p, ex_derive (fun x => pe p (x ^ 2 / 4)) x).
  { intro p. apply (ex_derive_comp (pe p) (fun x => x ^ 2 / 4)); [apply pe_derivable | auto_derive; exact I]. }
  apply (ex_derive_div (fun x => x / 2 * pe poly1 (x ^ 2 / 4))); [| apply Q | lra].
  apply (ex_derive_mult (fun x => x / 2)); [auto_derive; exact I | apply Q].
Qed.

Lemma wlc_taut : forall N z, (0 < N)%Z -> 0 < z ->
  diverges_as (wlc_isometric.nondimensional_force N z) 1 2 (1 / (4 * (IZR N * z))).
Proof.
  intros N z HN Hz. pose proof (IZR_lt _ _ HN) as PN. pose proof (wlc_c0_bounds z Hz) as C. fold (wc0 z) in C.
  set (c := wc0 z) in *. set (A := wlc_bessel_scale z). pose proof (scale_nonpos z Hz) as HA. fold A in HA.
  set (h := fun x => x / (1 - (473 / 1000) ^ 2 * x ^ 2)).
  set (G := fun x : R => - ((1 - x ^ 2) * (5 * x * (1 - c * (1 - x ^ 2) / (1 - c * x ^ 2)) + wsum2 (/ z) x * 2 / x) + 2 * x * wsum1 (/ z) x
    + (1 - x ^ 2) ^ 2 * (2 * (473 / 1000) * (A * h x) * (1 + x * (473 / 1000) ^ 2 * h x)
       + (A * h x) * ratio (A * h x) * (1 / x + 2 * (473 / 1000) ^ 2 * h x))) / IZR N / (1 + x) ^ 2).
  assert (V : 1 / (4 * (IZR N * z)) = G 1).
  { unfold G, wsum1, wsum2. replace (1 - 1 ^ 2) with 0 by ring. field. clearbody c. split; lra. }
  unfold diverges_as. rewrite V.
  apply (filterlim_ext_loc G).
  - exists (mkposreal (1 / 2) ltac:(lra)). intros x Hb Hx. apply Rabs_lt_between' in Hb. simpl in Hb.
    rewrite wlc_force_explicit. change (wc0 z) with c. change (wlc_bessel_argument z x) with (A * h x).
    change (x / (1 - (473 / 1000) ^ 2 * x ^ 2)) with (h x).
    change (math.bessel_i 1 (A * h x)) with (math.bessel_i1 (A * h x)). change (math.bessel_i 0 (A * h x)) with (math.bessel_i0 (A * h x)).
    assert (H0 : 0 < h x). { unfold h. apply Rdiv_lt_0_compat; [lra |]. simpl. nra. }
    assert (AH : A * h x <= 0) by nra.
    rewrite i0_small, i1_small by lra. pose proof (poly0_pos (A * h x)) as P0.
    assert (R1 : A * h x * (A * h x / 2 * pe poly1 ((A * h x) ^ 2 / 4)) / pe poly0 ((A * h x) ^ 2 / 4) = A * h x * ratio (A * h x)).
    { unfold ratio. field. lra. }
    rewrite R1. unfold G. clearbody c.
    assert (X2 : 0 < 1 - x ^ 2) by (simpl; nra). assert (X3 : 0 < 1 - c * x ^ 2) by (simpl; nra).
    set (rr := ratio _). clearbody rr. set (hh := h x) in *. clearbody hh.
    set (s1 := wsum1 _ _). set (s2 := wsum2 _ _). clearbody s1 s2.
    replace ((1 - x / 1) ^ 2) with ((1 - x ^ 2) ^ 2 / (1 + x) ^ 2) by (field; lra).
    set (y := 1 - x ^ 2) in *. replace (1 - c * x ^ 2) with (1 - c * x ^ 2) by reflexivity.
    set (w := 1 - c * x ^ 2) in *. clearbody y w. field. repeat split; lra.
  - refine (filterlim_filter_le_1 G _ (ex_derive_continuous (V := R_NormedModule) G 1 _)).
    { intros P [e He]; exists e; intros y Hy _; apply He, Hy. }
    assert (Hh : ex_derive (fun x => h x) 1). { unfold h. auto_derive. simpl. lra. }
    assert (Hr : forall x, ex_derive (fun x => ratio x) x) by exact ratio_derivable.
    unfold G, wsum1, wsum2. clearbody h c. auto_derive. repeat split; try assumption; try apply Hr; try (simpl; lra).
Qed.

Lemma wlc_taut_dimensional : forall N l p T, (0 < N)%Z -> 0 < l -> 0 < p -> 0 < T ->
  diverges_as (fun xi => wlc_isometric.force N l p xi T) (IZR N * l) 2 (kB * T / (4 * p)).
Proof.
  intros N l p T HN Hl Hp HT. pose proof (IZR_lt _ _ HN) as PN. assert (Pl : 0 < IZR N * l) by (apply Rmult_lt_0_compat; assumption).
  assert (Pz : 0 < p / (IZR N * l)) by (apply Rdiv_lt_0_compat; assumption).
  pose proof (wlc_taut N (p / (IZR N * l)) HN Pz) as D. unfold diverges_as in *.
  apply (filterlim_ext (fun xi => kB * T / l * ((1 - xi / (IZR N * l) / 1) ^ 2 * wlc_isometric.nondimensional_force N (p / (IZR N * l)) (xi / (IZR N * l))))).
  - intro xi. change (wlc_isometric.force N l p xi T) with
      (wlc_isometric.nondimensional_force N (p / (IZR N * l)) (xi / (IZR N * l)) * BOLTZMANN_CONSTANT * T / l).
    rewrite B_eq. match goal with |- ?a = ?b => change (@eq R a b) end. field. split; lra.
  - replace (kB * T / (4 * p)) with (kB * T / l * (1 / (4 * (IZR N * (p / (IZR N * l)))))) by (field; repeat split; lra).
    apply (filterlim_comp _ _ _ (fun xi => (1 - xi / (IZR N * l) / 1) ^ 2 * wlc_isometric.nondimensional_force N (p / (IZR N * l)) (xi / (IZR N * l)))
      (fun v => kB * T / l * v) _ (locally (1 / (4 * (IZR N * (p / (IZR N * l))))))).
    + apply (filterlim_comp _ _ _ (fun xi => xi / (IZR N * l)) (fun x => (1 - x / 1) ^ 2 * wlc_isometric.nondimensional_force N (p / (IZR N * l)) x) _ (at_left 1)); [| exact D].
      intros P [e He]. assert (E : 0 < e * (IZR N * l)) by (apply Rmult_lt_0_compat; [apply cond_pos | exact Pl]).
      exists (mkposreal _ E). intros y Hy L. apply He.
      * apply Rabs_lt_between'. apply Rabs_lt_between' in Hy. simpl in Hy. split.
        -- apply (Rmult_lt_reg_r (IZR N * l)); [exact Pl |]. unfold Rdiv. rewrite Rmult_assoc, Rinv_l by lra. lra.
        -- apply (Rmult_lt_reg_r (IZR N * l)); [exact Pl |]. unfold Rdiv. rewrite Rmult_assoc, Rinv_l by lra. lra.
      * apply (Rmult_lt_reg_r (IZR N * l)); [exact Pl |]. unfold Rdiv. rewrite Rmult_assoc, Rinv_l by lra. lra.
    + apply (ex_derive_continuous (V := R_NormedModule) (fun v => kB * T / l * v)). auto_derive. exact I.
Qed.

(** ** The freely jointed chain with the Legendre method *)
Lemma fjc_legendre_taut : forall y, 1 / 1000 < y < 1 ->
  3 / 5 * y <= (1 - y) * fjc_isometric_legendre.nondimensional_force y <= 1.
Proof.
  intros y Hy. destruct (newton_inverse_langevin y Hy) as (r & k & Hr & E & _ & _ & B & _).
  change (fjc_isometric_legendre.nondimensional_force y) with (math.inverse_langevin y).
  pose proof (langevin_lower_1 r Hr) as L. pose proof (langevin_upper_1 r Hr) as U. rewrite E in *.
  assert (L' : (1 - y) * r <= 1).
  { apply (Rmult_lt_compat_r r) in L; [| exact Hr]. replace ((1 - 1 / r) * r) with (r - 1) in L by (field; lra). lra. }
  assert (U' : y <= (1 - y) * r).
  { apply (Rmult_lt_compat_r (1 + r)) in U; [| lra]. replace (r / (1 + r) * (1 + r)) with r in U by (field; lra). lra. }
  split.
  - apply Rle_trans with ((1 - y) * (3 / 5 * r)); [lra | apply Rmult_le_compat_l; lra].
  - apply Rle_trans with ((1 - y) * r); [apply Rmult_le_compat_l; lra | lra].
Qed.

Lemma fjc_legendre_very_taut : forall y, 99 / 100 <= y < 1 ->
  98 / 100 <= (1 - y) * fjc_isometric_legendre.nondimensional_force y <= 1.
Proof.
  intros y Hy. split; [| apply fjc_legendre_taut; lra].
  change (fjc_isometric_legendre.nondimensional_force y) with (math.inverse_langevin y).
  destruct (newton_inverse_langevin y ltac:(lra)) as (_ & k & _ & _ & E & K & _).
  destruct (langevin_root y ltac:(lra)) as (r & Hr & Er & B1 & B2 & B3 & B4).
  assert (Hy' : 0 < y < 1) by lra.
  set (g := guess_num y / (1 - y) / guess_den y) in *.
  pose proof (first_step y r Hy' Hr Er B1 B2 B3 B4) as F. fold g in F.
  pose proof (guess_bounds y r Hy' Hr Er B1 B2 B3 B4) as GB. fold g in GB.
  pose proof (guess_den_pos y ltac:(lra)) as P.
  assert (Q : 999 / 1000 * guess_den y <= guess_num y <= 10001 / 10000 * guess_den y).
  { unfold guess_num, guess_den. set (u := 1 - y). replace y with (1 - u) by (unfold u; ring). assert (0 <= u <= 1 / 100) by (unfold u; lra). clearbody u. split; nra. }
  assert (G1 : g * (1 - y) = guess_num y / guess_den y) by (unfold g; field; lra).
  assert (Q' : 999 / 1000 <= g * (1 - y) <= 10001 / 10000).
  { rewrite G1. assert (X : guess_num y / guess_den y * guess_den y = guess_num y) by (field; lra).
    split; apply (Rmult_le_reg_r (guess_den y)); rewrite ?X; lra. }
  assert (S : 999 / 1000 * r <= newton_step y langevin dlangevin g).
  { destruct (Rle_dec g r) as [H|H].
    - pose proof (concave_step_ge (fun x => 0 < x) langevin dlangevin y r langevin_concave Hr Er g ltac:(lra) H) as G.
      eapply Rle_trans; [| exact G]. apply (Rmult_le_reg_r (1 - y)); lra.
    - pose proof (step_from_above y r Hy' Hr Er B1 B2 B3 B4 g ltac:(lra)) as G. eapply Rle_trans; [| exact G].
      assert (C : g <= 102 / 100 * r) by (apply (Rmult_le_reg_r (1 - y)); lra).
      apply Rmult_le_reg_r with r; [exact Hr |].
      replace ((2 * g - g ^ 2 / r) * r) with (2 * g * r - g ^ 2) by (field; lra). nra. }
  destruct k as [|k]; [lia |]. rewrite E.
  assert (It : newton_iterate y langevin dlangevin (Datatypes.S k) g = newton_iterate y langevin dlangevin k (newton_step y langevin dlangevin g)).
  { unfold newton_iterate. apply iter_succ_r. }
  rewrite It. destruct (concave_iterates (fun x => 0 < x) langevin dlangevin y r langevin_concave Hr Er k (newton_step y langevin dlangevin g)) as ([A _] & _); [lra | lra |].
  apply Rle_trans with ((1 - y) * (999 / 1000 * r)); [lra |]. apply Rmult_le_compat_l; lra.
Qed.

Lemma fjc_legendre_taut_dimensional : forall N l xi T, (0 < N)%Z -> 0 < l -> 0 < T -> 99 / 100 * (IZR N * l) <= xi < IZR N * l ->
  98 / 100 * (IZR N * (kB * T)) <= (IZR N * l - xi) * fjc_isometric_legendre.force N l xi T <= IZR N * (kB * T).
Proof.
  intros N l xi T HN Hl HT X. pose proof (IZR_lt _ _ HN) as PN. assert (Pl : 0 < IZR N * l) by (apply Rmult_lt_0_compat; assumption).
  assert (XE : xi / (IZR N * l) * (IZR N * l) = xi) by (field; lra).
  assert (Y : 99 / 100 <= xi / (IZR N * l) < 1).
  { split; [apply (Rmult_le_reg_r (IZR N * l)) | apply (Rmult_lt_reg_r (IZR N * l))]; rewrite ?XE; lra. }
  pose proof (fjc_legendre_very_taut _ Y) as B.
  change (fjc_isometric_legendre.force N l xi T) with
    (BOLTZMANN_CONSTANT * T / l * fjc_isometric_legendre.nondimensional_force (xi / (IZR N * l))).
  rewrite B_eq. set (f := fjc_isometric_legendre.nondimensional_force _) in *.
  replace ((IZR N * l - xi) * (kB * T / l * f)) with (IZR N * (kB * T) * ((1 - xi / (IZR N * l)) * f)) by (field; split; lra).
  assert (K : 0 < IZR N * (kB * T)) by (apply Rmult_lt_0_compat; [exact PN | apply Rmult_lt_0_compat; [exact kB_pos | exact HT]]).
  split.
  - rewrite (Rmult_comm (98 / 100)). apply Rmult_le_compat_l; lra.
  - rewrite <- Rmult_1_r. apply Rmult_le_compat_l; lra.
Qed.
