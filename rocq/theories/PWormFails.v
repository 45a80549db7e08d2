(** The root finder of the isotensional worm-like chain leaves the allowed interval under a strong force. *)
From Coq Require Import Reals ZArith Lra Lia List Bool QArith.Qreals.
From Coquelicot Require Import Coquelicot.
From Verif Require Import Scalar MMath MConst MWlc SpecThermo SpecChains PBase PConjWlc PConjWlcBound PErfPoly PBessel SpecReverse PReverse PReverseOther PReverseWorm PWormExample.
Open Scope R_scope.

(** ** Far outside the interval the force is a cubic *)
Definition wlead (z : R) : R := 109375 / 1000000 * / z + 5625 / 10000.

Lemma wlead_pos : forall z, 0 < z -> 5625 / 10000 < wlead z.
Proof. intros z Hz. unfold wlead. pose proof (Rinv_0_lt_compat z Hz). lra. Qed.

Lemma far_sums : forall q x, 0 < q -> 5 <= x ->
  Rabs ((wsum2 q x * 2 / x + 2 * x * wsum1 q x / (1 - x ^ 2)) / (1 - x ^ 2) - 4 * (109375 / 1000000 * q + 5625 / 10000) * x ^ 3) <= 20 * (q + 1) * x.
Proof.
  intros q x Hq Hx. unfold wsum1, wsum2.
  assert (X2 : 25 <= x ^ 2) by nra. set (u := x ^ 2 - 1). assert (U : 24 * x ^ 2 <= 25 * u) by (unfold u; lra). assert (U0 : 24 <= u) by (unfold u; lra).
  set (al := - (75 / 100) * q - 5 / 10). set (be := 359375 / 1000000 * q + 10625 / 10000). set (c := 109375 / 1000000 * q + 5625 / 10000).
  match goal with |- Rabs ?e <= _ => replace e with
    ((2 * al * x + 4 * be * x ^ 3 + (- 6 * c - 2 * be) * x ^ 5 + 8 * c * x ^ 5 - 4 * c * x ^ 3) / u ^ 2) end.
  2:{ unfold al, be, c, u. field. unfold u in U0. split; lra. }
  assert (B : Rabs al <= q + 1 /\ Rabs be <= 11 / 10 * (q + 1) /\ Rabs c <= q + 1) by (unfold al, be, c; repeat split; apply Rabs_le; lra).
  destruct B as (B1 & B2 & B3). apply Rabs_le_between in B1, B2, B3. clearbody al be c. set (Q := q + 1) in *. assert (HQ : 0 < Q) by (unfold Q; lra). clearbody Q.
  assert (W : x ^ 4 <= 11 / 10 * u ^ 2) by (replace (x ^ 4) with (x ^ 2 * x ^ 2) by ring; nra). assert (W0 : 0 < u ^ 2) by nra.
  apply Rabs_le. 
  assert (X3 : 0 < x ^ 3) by nra. assert (X5 : 0 < x ^ 5) by (apply pow_lt; lra).
  assert (L1 : x <= / 25 * (/ 25 * x ^ 5)).
  { replace (x ^ 5) with (x ^ 2 * x ^ 2 * x) by ring. nra. }
  assert (L3 : x ^ 3 <= / 25 * x ^ 5). { replace (x ^ 5) with (x ^ 2 * x ^ 3) by ring. nra. }
  assert (L5 : x ^ 5 <= 11 / 10 * u ^ 2 * x). { replace (x ^ 5) with (x ^ 4 * x) by ring. apply Rmult_le_compat_r; lra. }
  set (n := 2 * al * x + 4 * be * x ^ 3 + (- 6 * c - 2 * be) * x ^ 5 + 8 * c * x ^ 5 - 4 * c * x ^ 3).
  assert (N : - (6 * Q * x ^ 5) <= n <= 6 * Q * x ^ 5).
  { unfold n. assert (- (Q * x) <= al * x <= Q * x) by (split; nra). 
    assert (- (11 / 10 * Q * x ^ 3) <= be * x ^ 3 <= 11 / 10 * Q * x ^ 3) by (split; nra).
    assert (- (11 / 10 * Q * x ^ 5) <= be * x ^ 5 <= 11 / 10 * Q * x ^ 5) by (split; nra).
    assert (- (Q * x ^ 3) <= c * x ^ 3 <= Q * x ^ 3) by (split; nra).
    assert (- (Q * x ^ 5) <= c * x ^ 5 <= Q * x ^ 5) by (split; nra).
    assert (Q * x <= Q * (/ 25 * (/ 25 * x ^ 5))) by (apply Rmult_le_compat_l; lra).
    assert (Q * x ^ 3 <= Q * (/ 25 * x ^ 5)) by (apply Rmult_le_compat_l; lra).
    assert (0 < Q * x ^ 5) by (apply Rmult_lt_0_compat; assumption).
    split; lra. }
  clearbody n. assert (M : 6 * Q * x ^ 5 <= 20 * Q * x * u ^ 2).
  { assert (Q * x ^ 5 <= Q * (11 / 10 * u ^ 2 * x)) by (apply Rmult_le_compat_l; lra). assert (0 < Q * x * u ^ 2) by (repeat apply Rmult_lt_0_compat; lra). lra. }
  split.
  - apply Rmult_le_reg_r with (u ^ 2); [exact W0|]. replace (n / u ^ 2 * u ^ 2) with n by (field; lra). lra.
  - apply Rmult_le_reg_r with (u ^ 2); [exact W0|]. replace (n / u ^ 2 * u ^ 2) with n by (field; lra). lra.
Qed.

Lemma tiny_ratio : forall y, Rabs y <= 1 -> Rabs (y * math.bessel_i 1 y / math.bessel_i 0 y) <= 5.
Proof.
  intros y Hy. apply Rabs_le_between in Hy. change (math.bessel_i 1 y) with (math.bessel_i1 y). change (math.bessel_i 0 y) with (math.bessel_i0 y).
  rewrite i0_small, i1_small by lra. destruct poly_coefficients as [F0 F1].
  assert (Ht : 0 <= y ^ 2 / 4 <= 9 / 4) by nra.
  assert (I0 : 1 <= pe poly0 (y ^ 2 / 4)).
  { unfold poly0 in *. inversion F0; subst. replace 1 with (Q2R 1) at 1 by (unfold Q2R; cbn; lra). apply pe_head; [assumption | lra]. }
  assert (I1 : 0 <= pe poly1 (y ^ 2 / 4) <= 10).
  { split; [apply pe_nonneg; [assumption | lra]|].
    apply Rle_trans with (pe poly1 (9 / 4)); [apply pe_grow; [assumption | lra]|].
    replace (9 / 4) with (Q2R (9 # 4)) by (unfold Q2R; cbn; lra). rewrite pe_at.
    replace 10 with (Q2R 10) by (unfold Q2R; cbn; lra). apply Qle_Rle. apply Qle_bool_iff. vm_compute. reflexivity. }
  set (p := pe poly1 _) in *. set (q := pe poly0 _) in *. clearbody p q.
  assert (P : 0 <= y * (y / 2 * p) <= 5) by (replace (y * (y / 2 * p)) with (y ^ 2 * p / 2) by field; nra).
  rewrite Rabs_pos_eq; [|apply Rdiv_le_0_compat; lra]. apply Rmult_le_reg_r with q; [lra|].
  unfold Rdiv. rewrite Rmult_assoc, Rinv_l by lra. nra.
Qed.

(** Beyond some point the force is [- 4 c x^3] up to a term linear in [x]. *)
Lemma far_force : forall z, 0 < z -> exists K M, 5 <= M /\ 0 < K /\ forall N x, (0 < N)%Z -> M <= x ->
  Rabs (wlc_isometric.nondimensional_force N z x * IZR N + 4 * wlead z * x ^ 3) <= K * x.
Proof.
  intros z Hz. pose proof (Rinv_0_lt_compat z Hz) as Q.
  assert (C : 0 < wc0 z < 1) by (apply wlc_c0_bounds; exact Hz). set (c := wc0 z) in *.
  set (s := wlc_bessel_scale z). pose proof (Rabs_pos s) as S0.
  exists (20 * (/ z + 1) + 100), (20 * Rabs s + 5 + 2 / c).
  assert (C2 : 2 < 2 / c). { apply Rmult_lt_reg_r with c; [lra|]. unfold Rdiv. rewrite Rmult_assoc, Rinv_l by lra. lra. }
  split; [lra|]. split; [lra|]. intros N x HN Hx. assert (PN : 0 < IZR N) by (apply IZR_lt; exact HN).
  rewrite wlc_force_explicit. fold c. unfold wlc_bessel_argument. fold s.
  pose proof (far_sums (/ z) x Q ltac:(lra)) as F. fold (wlead z) in F.
  set (P := wsum2 (/ z) x * 2 / x + 2 * x * wsum1 (/ z) x / (1 - x ^ 2)) in *.
  set (b := (473 / 1000) ^ 2). assert (B : b = 223729 / 1000000) by (unfold b; field).
  set (h := x / (1 - b * x ^ 2)).
  assert (X5 : 5 <= x) by lra. assert (X2 : 25 <= x ^ 2) by nra.
  assert (H : - (10 / x) <= h < 0).
  { unfold h. assert (D : b * x ^ 2 / 2 <= b * x ^ 2 - 1) by (rewrite B; lra). assert (D0 : 0 < b * x ^ 2 - 1) by (rewrite B; lra).
    replace (x / (1 - b * x ^ 2)) with (- (x / (b * x ^ 2 - 1))) by (field; split; lra).
    assert (0 < x / (b * x ^ 2 - 1)) by (apply Rdiv_lt_0_compat; lra).
    assert (x / (b * x ^ 2 - 1) <= 10 / x); [|lra].
    apply Rmult_le_reg_r with ((b * x ^ 2 - 1) * x); [apply Rmult_lt_0_compat; lra|].
    replace (x / (b * x ^ 2 - 1) * ((b * x ^ 2 - 1) * x)) with (x ^ 2) by (field; lra).
    replace (10 / x * ((b * x ^ 2 - 1) * x)) with (10 * (b * x ^ 2 - 1)) by (field; lra). rewrite B in *. lra. }
  assert (XI : 0 < / x <= / 5) by (split; [apply Rinv_0_lt_compat; lra | apply Rinv_le_contravar; lra]).
  unfold Rdiv at 1 in H. 
  assert (A : Rabs (s * h) <= 1).
  { rewrite Rabs_mult. rewrite (Rabs_left h) by lra. apply Rle_trans with (Rabs s * (10 * / x)); [apply Rmult_le_compat_l; lra|].
    apply Rmult_le_reg_r with x; [lra|]. replace (Rabs s * (10 * / x) * x) with (10 * Rabs s) by (field; lra). lra. }
  pose proof (tiny_ratio _ A) as T. set (a := s * h) in *. set (t := a * math.bessel_i 1 a / math.bessel_i 0 a) in *. clearbody t a.
  assert (XH : -2 <= x * b * h <= 0).
  { assert (-10 <= x * h <= 0).
    { split; [|nra]. apply Rmult_le_reg_r with (/ x); [lra|]. replace (x * h * / x) with h by (field; lra). lra. }
    replace (x * b * h) with (b * (x * h)) by ring. rewrite B.
    assert (Z : b * (x * h) = b * x ^ 2 / (1 - b * x ^ 2)) by (unfold h; field; rewrite B; lra).
    rewrite B in Z. rewrite Z. set (w := 223729 / 1000000 * x ^ 2) in *. assert (5 < w) by (unfold w; lra). clearbody w. clear - H1.
    split; apply Rmult_le_reg_r with (w - 1); try lra; replace (w / (1 - w) * (w - 1)) with (- w) by (field; lra); lra. }
  set (v := x * b * h) in *. clearbody v.
  apply Rabs_le_between in A, T, F.
  assert (Q1 : -10 <= 2 * (473 / 1000) * a * (1 + v) <= 10) by nra.
  assert (Q2 : -15 <= t * (1 / x + 2 * b * h) <= 15).
  { assert (-3 <= 1 / x + 2 * b * h <= 3) by (unfold Rdiv; rewrite Rmult_1_l, B; lra). set (w := 1 / x + 2 * b * h) in *. clearbody w. nra. }
  assert (G : -75 <= 5 * x * (1 - c / ((1 - c * x ^ 2) / (1 - x ^ 2))) / (1 - x ^ 2) <= 75).
  { assert (CX : 2 <= c * x ^ 2).
    { assert (2 <= c * x); [|nra]. apply Rle_trans with (c * (2 / c)); [right; field; lra | apply Rmult_le_compat_l; lra]. }
    assert (E : 5 * x * (1 - c / ((1 - c * x ^ 2) / (1 - x ^ 2))) / (1 - x ^ 2) = 5 * (c * x / (c * x ^ 2 - 1)) - 5 * (x / (x ^ 2 - 1))) by (field; repeat split; lra).
    rewrite E.
    assert (0 <= c * x / (c * x ^ 2 - 1) <= 1).
    { split; [apply Rdiv_le_0_compat; nra|]. apply Rmult_le_reg_r with (c * x ^ 2 - 1); [lra|]. unfold Rdiv. rewrite Rmult_assoc, Rinv_l by lra.
      assert (5 * (c * x) <= c * x ^ 2) by (replace (c * x ^ 2) with (x * (c * x)) by ring; apply Rmult_le_compat_r; nra). lra. }
    assert (0 <= x / (x ^ 2 - 1) <= 1).
    { split; [apply Rdiv_le_0_compat; nra|]. apply Rmult_le_reg_r with (x ^ 2 - 1); [lra|]. unfold Rdiv. rewrite Rmult_assoc, Rinv_l by lra. nra. }
    lra. }
  assert (EN : forall u : R, u / IZR N * IZR N = u) by (intro u; field; lra). rewrite EN.
  replace (5 * x * (1 - c / ((1 - c * x ^ 2) / (1 - x ^ 2))) + wsum2 (/ z) x * 2 / x + 2 * x * wsum1 (/ z) x / (1 - x ^ 2)) with
    (5 * x * (1 - c / ((1 - c * x ^ 2) / (1 - x ^ 2))) + P) by (unfold P; ring).
  replace ((5 * x * (1 - c / ((1 - c * x ^ 2) / (1 - x ^ 2))) + P) / (1 - x ^ 2)) with
    (5 * x * (1 - c / ((1 - c * x ^ 2) / (1 - x ^ 2))) / (1 - x ^ 2) + P / (1 - x ^ 2)) by (unfold Rdiv; ring).
  set (g := 5 * x * (1 - c / ((1 - c * x ^ 2) / (1 - x ^ 2))) / (1 - x ^ 2)) in *. clearbody g.
  apply Rabs_le. unfold wlead in *. clearbody P. assert (100 <= 100 * x / 5) by lra. split; lra.
Qed.

(** ** At the initial guess the difference quotient is positive *)
Lemma small_ratio_wide : forall y, Rabs y < 775 / 100 -> 0 <= y * math.bessel_i 1 y / math.bessel_i 0 y <= 3000.
Proof.
  intros y Hy. apply Rabs_lt_between in Hy. change (math.bessel_i 1 y) with (math.bessel_i1 y). change (math.bessel_i 0 y) with (math.bessel_i0 y).
  rewrite i0_small, i1_small by lra. destruct poly_coefficients as [F0 F1].
  assert (Ht : 0 <= y ^ 2 / 4 <= 151 / 10) by nra.
  assert (I0 : 1 <= pe poly0 (y ^ 2 / 4)).
  { unfold poly0 in *. inversion F0; subst. replace 1 with (Q2R 1) at 1 by (unfold Q2R; cbn; lra). apply pe_head; [assumption | lra]. }
  assert (I1 : 0 <= pe poly1 (y ^ 2 / 4) <= 98).
  { split; [apply pe_nonneg; [assumption | lra]|].
    apply Rle_trans with (pe poly1 (151 / 10)); [apply pe_grow; [assumption | lra]|].
    replace (151 / 10) with (Q2R (151 # 10)) by (unfold Q2R; cbn; lra). rewrite pe_at.
    replace 98 with (Q2R 98) by (unfold Q2R; cbn; lra). apply Qle_Rle. apply Qle_bool_iff. vm_compute. reflexivity. }
  set (p := pe poly1 _) in *. set (q := pe poly0 _) in *. clearbody p q.
  assert (P : 0 <= y * (y / 2 * p) <= 3000).
  { replace (y * (y / 2 * p)) with (y ^ 2 / 4 * (2 * p)) by field. split; [apply Rmult_le_pos; lra|].
    apply Rle_trans with (151 / 10 * (2 * 98)); [apply Rmult_le_compat; lra | lra]. }
  split; [apply Rdiv_le_0_compat; lra|]. apply Rmult_le_reg_r with q; [lra|].
  unfold Rdiv. rewrite Rmult_assoc, Rinv_l by lra. nra.
Qed.

Definition wmain_at (q x : R) : R := - ((wsum2 q x * 2 / x + 2 * x * wsum1 q x / (1 - x ^ 2)) / (1 - x ^ 2)).

Lemma main_slope : forall q, 25 / 10 <= q -> 24000 < wmain_at q (wguess + wstep) - wmain_at q (wguess - wstep).
Proof. intros q Hq. unfold wmain_at, wguess, wstep, wsum1, wsum2. lra. Qed.

Lemma edge_force : forall N z x, (0 < N)%Z -> 0 < z <= 4 / 10 -> near x ->
  wmain_at (/ z) x - (5 * (x / (1 - x ^ 2)) - 5 * (wc0 z * x / (1 - wc0 z * x ^ 2))) - 6000 < wlc_isometric.nondimensional_force N z x * IZR N /\
  wlc_isometric.nondimensional_force N z x * IZR N < wmain_at (/ z) x - (5 * (x / (1 - x ^ 2)) - 5 * (wc0 z * x / (1 - wc0 z * x ^ 2))) + 6000.
Proof.
  intros N z x HN Hz Hx. assert (PN : 0 < IZR N) by (apply IZR_lt; exact HN).
  assert (I : inner x) by (unfold inner, near in *; lra).
  destruct (flexible_argument z x Hz I) as [_ A]. rewrite wlc_force_explicit. fold (wratio x).
  pose proof (small_ratio_wide _ A) as T. set (a := wlc_bessel_argument z x) in *.
  pose proof (near_ratio x Hx) as H. set (h := wratio x) in *. clearbody h.
  set (t := a * math.bessel_i 1 a / math.bessel_i 0 a) in *. clearbody t a.
  assert (C : 0 < wc0 z < 1) by (apply wlc_c0_bounds; lra). set (c := wc0 z) in *. clearbody c. unfold near in Hx.
  assert (X : 19 / 100000 <= 1 - x ^ 2 <= 1) by nra. assert (CX : 0 < 1 - c * x ^ 2) by nra.
  apply Rabs_lt_between in A.
  assert (Q1 : -30 < 2 * (473 / 1000) * a * (1 + x * (473 / 1000) ^ 2 * h) < 30).
  { assert (0 < x * (473 / 1000) ^ 2 * h < 4 / 10) by nra. set (w := x * (473 / 1000) ^ 2 * h) in *. clearbody w. nra. }
  assert (Q2 : 0 <= t * (1 / x + 2 * (473 / 1000) ^ 2 * h) <= 3000 * (1641 / 1000)).
  { assert (1 <= / x <= 1001 / 1000).
    { split; [rewrite <- Rinv_1; apply Rinv_le_contravar; lra|]. apply Rmult_le_reg_r with x; [lra|]. rewrite Rinv_l; lra. }
    assert (1 <= 1 / x + 2 * (473 / 1000) ^ 2 * h <= 1641 / 1000) by lra.
    set (w := 1 / x + 2 * (473 / 1000) ^ 2 * h) in *. clearbody w. split; [apply Rmult_le_pos; lra | apply Rmult_le_compat; lra]. }
  assert (EN : forall u : R, u / IZR N * IZR N = u) by (intro u; field; lra). rewrite EN. clear EN.
  assert (E : 5 * x * (1 - c / ((1 - c * x ^ 2) / (1 - x ^ 2))) / (1 - x ^ 2) = 5 * (x / (1 - x ^ 2)) - 5 * (c * x / (1 - c * x ^ 2))) by (field; repeat split; lra).
  rewrite <- E. unfold wmain_at.
  replace ((5 * x * (1 - c / ((1 - c * x ^ 2) / (1 - x ^ 2))) + wsum2 (/ z) x * 2 / x + 2 * x * wsum1 (/ z) x / (1 - x ^ 2)) / (1 - x ^ 2)) with
    (5 * x * (1 - c / ((1 - c * x ^ 2) / (1 - x ^ 2))) / (1 - x ^ 2) + (wsum2 (/ z) x * 2 / x + 2 * x * wsum1 (/ z) x / (1 - x ^ 2)) / (1 - x ^ 2)) by (unfold Rdiv; ring).
  set (q1 := 2 * (473 / 1000) * a * _) in *. set (q2 := t * _) in *. clearbody q1 q2.
  set (g := 5 * x * _ / _). set (w := (wsum2 (/ z) x * 2 / x + _) / _). clearbody g w. split; lra.
Qed.

Lemma guess_slope : forall N z, (0 < N)%Z -> 0 < z <= 4 / 10 ->
  0 < wlc_isometric.nondimensional_force N z (wguess + wstep) - wlc_isometric.nondimensional_force N z (wguess - wstep).
Proof.
  intros N z HN Hz. assert (PN : 0 < IZR N) by (apply IZR_lt; exact HN).
  assert (Hp : near (wguess + wstep)) by (unfold near, wguess, wstep; lra).
  assert (Hm : near (wguess - wstep)) by (unfold near, wguess, wstep; lra).
  destruct (edge_force N z _ HN Hz Hp) as [Fp _]. destruct (edge_force N z _ HN Hz Hm) as [_ Fm].
  assert (Q : 25 / 10 <= / z). { replace (25 / 10) with (/ (4 / 10)) by field. apply Rinv_le_contravar; lra. }
  pose proof (main_slope _ Q) as S.
  assert (C : 0 < wc0 z < 1) by (apply wlc_c0_bounds; lra). set (c := wc0 z) in *. clearbody c.
  assert (M : c * (wguess - wstep) / (1 - c * (wguess - wstep) ^ 2) <= c * (wguess + wstep) / (1 - c * (wguess + wstep) ^ 2)).
  { unfold wguess, wstep. assert (P : 0 < 1 - c * (9999 / 10000 + 1 / 100000000) ^ 2) by lra. assert (P' : 0 < 1 - c * (9999 / 10000 - 1 / 100000000) ^ 2) by lra.
    set (u := c * (9999 / 10000 + 1 / 100000000) ^ 2) in *. set (v := c * (9999 / 10000 - 1 / 100000000) ^ 2) in *.
    assert (v <= u) by (unfold u, v; lra). clearbody u v. unfold Rdiv at 1 4. apply Rmult_le_compat; [lra | left; apply Rinv_0_lt_compat; lra | lra | apply Rinv_le_contravar; lra]. }
  assert (V : (wguess + wstep) / (1 - (wguess + wstep) ^ 2) - (wguess - wstep) / (1 - (wguess - wstep) ^ 2) <= 10) by (unfold wguess, wstep; lra).
  set (f1 := wlc_isometric.nondimensional_force N z (wguess + wstep)) in *. set (f2 := wlc_isometric.nondimensional_force N z (wguess - wstep)) in *. clearbody f1 f2.
  apply Rmult_lt_reg_r with (IZR N); [exact PN|]. rewrite Rmult_0_l, Rmult_minus_distr_r.
  set (c1 := c * (wguess + wstep) / _) in *. set (c2 := c * (wguess - wstep) / _) in *. clearbody c1 c2.
  set (d1 := (wguess + wstep) / _) in *. set (d2 := (wguess - wstep) / _) in *. clearbody d1 d2. lra.
Qed.

(** ** The root finder *)
Section Finder.
Variables (N : Z) (z : R).
Let f (x : R) : R := wlc_isometric.nondimensional_force N z x.
Let fp (x : R) : R := (f (x + wstep) - f (x - wstep)) / (2 / 100000000).

Lemma far_step : (0 < N)%Z -> 0 < z -> exists M, 1 < M /\ forall eta x, 0 < eta -> M <= x -> IZR N * eta <= x ^ 3 ->
  f x - eta <> 0 /\ x / 2 <= x - (f x - eta) / fp x / 2.
Proof.
  intros HN Hz. assert (PN : 0 < IZR N) by (apply IZR_lt; exact HN).
  destruct (far_force z Hz) as (K & M & HM & HK & F). pose proof (wlead_pos z Hz) as C. set (c := wlead z) in *. clearbody c.
  exists (M + 1 + K * 100000000). split; [nra|]. intros eta x He Hx Hc.
  assert (X : M + 1 <= x) by nra. assert (XK : K * 100000000 <= x) by lra. 
  pose proof (F N x HN ltac:(lra)) as F0. pose proof (F N (x + wstep) HN ltac:(unfold wstep; lra)) as F1. pose proof (F N (x - wstep) HN ltac:(unfold wstep; lra)) as F2.
  apply Rabs_le_between in F0, F1, F2. fold (f x) in F0. fold (f (x + wstep)) in F1. fold (f (x - wstep)) in F2.
  assert (X2 : 0 < x ^ 2) by nra. assert (X3 : 0 < x ^ 3) by nra.
  assert (CX : 5625 / 10000 * x ^ 2 <= c * x ^ 2) by (apply Rmult_le_compat_r; lra).
  assert (CX3 : 5625 / 10000 * x ^ 3 <= c * x ^ 3) by (apply Rmult_le_compat_r; lra).
  assert (K1 : K * x <= / 100000000 * x ^ 2) by nra.
  assert (K2 : K * x <= c * x ^ 3).
  { apply Rle_trans with (1 := K1). assert (x ^ 2 <= x ^ 3) by (replace (x ^ 3) with (x * x ^ 2) by ring; nra). lra. }
  assert (B : f x * IZR N >= - (5 * (c * x ^ 3)) /\ f x * IZR N < 0) by (split; [lra|]; assert (K * x <= / 100000000 * x ^ 3); [|lra];
    apply Rle_trans with (1 := K1); apply Rmult_le_compat_l; [lra|]; replace (x ^ 3) with (x * x ^ 2) by ring; nra).
  assert (D : fp x * IZR N <= - (10 * (c * x ^ 2))).
  { unfold fp. replace ((f (x + wstep) - f (x - wstep)) / (2 / 100000000) * IZR N) with ((f (x + wstep) * IZR N - f (x - wstep) * IZR N) * 50000000) by field.
    replace (4 * c * (x + wstep) ^ 3) with (4 * (c * x ^ 3) + 4 * c * (3 * x ^ 2 * wstep + 3 * x * wstep ^ 2 + wstep ^ 3)) in F1 by ring.
    replace (4 * c * (x - wstep) ^ 3) with (4 * (c * x ^ 3) - 4 * c * (3 * x ^ 2 * wstep - 3 * x * wstep ^ 2 + wstep ^ 3)) in F2 by ring.
    assert (S1 : f (x + wstep) * IZR N - f (x - wstep) * IZR N <= - (24 * (c * x ^ 2) * wstep + 8 * c * wstep ^ 3) + 2 * (K * x)) by lra.
    assert (S2 : 0 < c * wstep ^ 3) by (apply Rmult_lt_0_compat; [lra | apply pow_lt; unfold wstep; lra]).
    assert (S3 : 2 * (K * x) <= 2 * wstep * x ^ 2) by (unfold wstep; lra).
    apply Rle_trans with ((- (24 * (c * x ^ 2) * wstep) + 2 * wstep * x ^ 2) * 50000000); [nra|]. unfold wstep. lra. }
  set (g := f x) in *. set (d := fp x) in *. clearbody g d. clear F F1 F2 K1 K2.
  assert (Hg : g < 0) by (destruct B as [_ B]; apply Rnot_le_lt; intro; assert (0 <= g * IZR N) by (apply Rmult_le_pos; lra); lra).
  assert (Hd : d < 0).
  { apply Rnot_le_lt. intro. assert (0 <= d * IZR N) by (apply Rmult_le_pos; lra). nra. }
  split; [lra|].
  assert (E : (g - eta) / d / 2 = (- (g * IZR N) + IZR N * eta) / (- (d * IZR N)) / 2) by (field; split; lra).
  rewrite E. set (dn := d * IZR N) in *. set (gn := g * IZR N) in *. set (en := IZR N * eta) in *.
  assert (Hdn : 0 < - dn) by nra. clearbody dn gn en.
  assert (G : (- gn + en) / - dn <= x); [|lra].
  apply Rmult_le_reg_r with (- dn); [exact Hdn|]. replace ((- gn + en) / - dn * - dn) with (- gn + en) by (field; lra).
  apply Rle_trans with (x * (10 * (c * x ^ 2))); [|apply Rmult_le_compat_l; lra].
  replace (x * (10 * (c * x ^ 2))) with (10 * (c * x ^ 3)) by ring. lra.
Qed.

Lemma loop_unfold : forall v n k y res, math.newton_powered_loop v f fp (1 / 100000) 2 n k y res =
  match n with
  | O => (y, k, res)
  | S n' => if Rltb (1 / 100000) res then
      math.newton_powered_loop v f fp (1 / 100000) 2 n' (k + 1) (y + - ((f y - v) * ((f y - v) * 1)) / ((f y - v) * 1) / fp y / 2)
        (Rabs ((f y - v) / v))
    else (y, k, res)
  end.
Proof. intros v [|n] k y res; reflexivity. Qed.

Lemma step_value : forall v y, f y - v <> 0 -> y + - ((f y - v) * ((f y - v) * 1)) / ((f y - v) * 1) / fp y / 2 = y - (f y - v) / fp y / 2.
Proof.
  intros v y H. set (r := f y - v) in *. clearbody r. set (d := fp y). clearbody d. 
  replace (- (r * (r * 1)) / (r * 1)) with (- r) by (field; exact H). unfold Rdiv. ring.
Qed.

Lemma loop_stays_far : forall M eta B, 0 < eta -> 1 < M -> M <= B -> IZR N * eta <= B ^ 3 ->
  (forall x, M <= x -> IZR N * eta <= x ^ 3 -> f x - eta <> 0 /\ x / 2 <= x - (f x - eta) / fp x / 2) ->
  forall n k y res, 2 ^ n * B <= y -> B <= fst (fst (math.newton_powered_loop eta f fp (1 / 100000) 2 n k y res)).
Proof.
  intros M eta B He HM HB HE S. induction n as [|n IH]; intros k y res Hy; rewrite loop_unfold.
  - simpl in *. lra.
  - assert (P : 1 <= 2 ^ n) by (apply pow_R1_Rle; lra). cbn [pow] in Hy. assert (YB : B <= y) by nra.
    destruct (Rltb (1 / 100000) res); [|simpl; exact YB].
    destruct (S y ltac:(lra)) as [Z L].
    { apply Rle_trans with (1 := HE). apply pow_incr. lra. }
    rewrite step_value by exact Z. apply IH. apply Rle_trans with (y / 2); [lra | exact L].
Qed.

Lemma finder_fails : (0 < N)%Z -> 0 < z <= 4 / 10 -> exists strong, 0 < strong /\ forall eta, strong < eta ->
  1 < math.inverse_newton_raphson_powered eta f fp (9999 / 10000) (1 / 100000) 100 2.
Proof.
  intros HN Hz. assert (PN : 0 < IZR N) by (apply IZR_lt; exact HN).
  destruct (far_step HN ltac:(lra)) as (M & HM & S).
  pose proof (guess_slope N z HN Hz) as G. fold (f (wguess + wstep)) in G. fold (f (wguess - wstep)) in G.
  assert (D : 0 < fp (9999 / 10000)) by (unfold fp; fold wguess; apply Rdiv_lt_0_compat; lra).
  set (f0 := f (9999 / 10000)). set (d := fp (9999 / 10000)) in *. pose proof (Rabs_pos f0) as A0. 
  set (E := 2 ^ 99). assert (HE : 0 < E) by (apply pow_lt; lra). 
  set (w0 := M + IZR N + 2 * d * E + 1 + Rabs f0).
  assert (DE : 0 < d * E) by (apply Rmult_lt_0_compat; assumption).
  exists (w0 ^ 2). assert (W0 : 1 < w0) by (unfold w0; lra). split; [apply pow_lt; lra|]. intros eta He.
  set (w := sqrt eta). assert (Eta : 0 < eta) by nra. assert (W2 : w * w = eta) by (apply sqrt_sqrt; lra).
  assert (W : w0 <= w). { unfold w. rewrite <- (sqrt_pow2 w0) by lra. apply sqrt_le_1; nra. }
  assert (WM : M <= w /\ IZR N <= w /\ 2 * d * E + 1 + Rabs f0 <= w) by (unfold w0 in W; lra). destruct WM as (W1 & WN & WE).
  assert (HC : IZR N * eta <= w ^ 3). { replace (w ^ 3) with (w * (w * w)) by ring. rewrite W2. apply Rmult_le_compat_r; lra. }
  assert (FA : f0 <= Rabs f0) by apply Rle_abs.
  assert (Fe : f0 - eta < 0). { rewrite <- W2. assert (Rabs f0 * 1 <= w * w); [apply Rmult_le_compat; lra|]. nra. }
  apply Rlt_le_trans with w; [lra|]. unfold math.inverse_newton_raphson_powered.
  replace (Z.to_nat 100) with (Datatypes.S 99) by reflexivity. rewrite loop_unfold.
  unfold Rltb at 1. match goal with |- context [Rlt_dec (1 / 100000) ?o] => change o with 1 end. destruct (Rlt_dec (1 / 100000) 1); [|lra].
  apply (loop_stays_far M eta w Eta HM W1 HC (fun x => S eta x Eta)). rewrite step_value by (fold f0; lra). fold f0. fold d. fold E.
  rewrite <- W2. clearbody w E d f0.
  assert (L : E * w <= (w * w - f0) / d / 2).
  { apply Rmult_le_reg_r with (2 * d); [lra|]. replace ((w * w - f0) / d / 2 * (2 * d)) with (w * w - f0) by (field; lra).
    assert (w * (2 * d * E + 1 + Rabs f0) <= w * w) by (apply Rmult_le_compat_l; lra).
    assert (1 * Rabs f0 <= w * Rabs f0) by (apply Rmult_le_compat_r; lra). nra. }
  replace ((f0 - w * w) / d / 2) with (- ((w * w - f0) / d / 2)) by (field; lra). lra.
Qed.
End Finder.

Lemma worm_breaks_down : forall N z, (0 < N)%Z -> 0 < z <= 4 / 10 -> exists strong, 0 < strong /\ forall eta, strong < eta ->
  wlc_isotensional.nondimensional_end_to_end_length N z eta = None /\
  (forall l m T, wlc_isotensional.nondimensional_gibbs_free_energy N l m z eta T = None).
Proof.
  intros N z HN Hz. destruct (finder_fails N z HN Hz) as (v & Hv & F). exists v. split; [exact Hv|]. intros eta He.
  specialize (F eta He). split; [|intros l m T].
  - unfold wlc_isotensional.nondimensional_end_to_end_length. cbv zeta in *.
    match type of F with 1 < ?a => match goal with |- context [math.inverse_newton_raphson_powered ?u ?v ?w ?x ?y ?z ?t] =>
      change (math.inverse_newton_raphson_powered u v w x y z t) with a; set (gh := a) in * end end.
    assert (E : negb ((@sdec R R_scalar 0 0 <=? gh)%S && (gh <=? sdec 1 0)%S)%bool = true).
    { change (negb (Rleb 0 gh && Rleb gh 1) = true). unfold Rleb. destruct (Rle_dec 0 gh); [|lra]. destruct (Rle_dec gh 1); [lra | reflexivity]. }
    rewrite E. reflexivity.
  - unfold wlc_isotensional.nondimensional_gibbs_free_energy. cbv zeta in *.
    match type of F with 1 < ?a => match goal with |- context [math.inverse_newton_raphson_powered ?u ?v ?w ?x ?y ?z ?t] =>
      change (math.inverse_newton_raphson_powered u v w x y z t) with a; set (gh := a) in * end end.
    assert (E : negb ((@sdec R R_scalar 0 0 <=? gh)%S && (gh <=? sdec 1 0)%S)%bool = true).
    { change (negb (Rleb 0 gh && Rleb gh 1) = true). unfold Rleb. destruct (Rle_dec 0 gh); [|lra]. destruct (Rle_dec gh 1); [lra | reflexivity]. }
    rewrite E. reflexivity.
Qed.
