(** The mirror symmetry of the worm-like chain fails for every persistence length of at least 0.55 of the length. *)
From Coq Require Import Reals ZArith QArith Qreals List Lra Lia Psatz.
From Coquelicot Require Import Coquelicot.
From Verif Require Import Scalar MMath MConst MWlc.
From Verif Require Import SpecThermo SpecChains SpecReverse SpecBessel PErfPoly PBase PConjWlc PConjWlcBound PBessel PReverse PReverseOther PReverseWorm.
From Verif Require PIdealDist PBesselAccuracy.
Open Scope R_scope.

Lemma mid_check : Qle_bool (pev poly0 25) (pev (coeffs 0) 25 * (99999999999 # 100000000000)) = true.
Proof. vm_compute. reflexivity. Qed.

Lemma i0_mid : forall v, is_I0 (-10) v -> 0 < v /\ 0 < math.bessel_i 0 (-10) /\ math.bessel_i 0 (-10) <= v * (1 - 1 / 10 ^ 11).
Proof.
  intros v Hv. pose proof (i0_positive (-10) ltac:(lra)) as G. unfold is_I0 in Hv. replace ((-10) ^ 2 / 4) with 25 in Hv by field.
  assert (P : pe (coeffs 0) 25 <= v).
  { pose proof (pe_seq (coeff 0) last 0 25) as P. simpl (25 ^ 0) in P. rewrite Rmult_1_l in P. unfold coeffs. rewrite P.
    apply (partial_sum (fun i => Q2R (coeff 0 (0 + i)) * 25 ^ (0 + i))).
    - intro k. apply Rmult_le_pos; [left; apply coeff_pos | apply pow_le; lra].
    - eapply is_series_ext; [| exact Hv]. intro k. cbv beta. match goal with |- ?a = ?b => change (@eq R a b) end. rewrite coeff_R. cbn [Nat.add]. unfold Rdiv. ring. }
  assert (E : math.bessel_i 0 (-10) = pe poly0 25).
  { change (math.bessel_i 0 (-10)) with (math.bessel_i0 (-10)). rewrite i0_small by lra. replace ((-10) ^ 2 / 4) with 25 by field. reflexivity. }
  pose proof mid_check as C. apply Qle_bool_iff, Qle_Rle in C. rewrite Q2R_mult, !pe_pev in C.
  replace (Q2R 25) with 25 in C by (unfold Q2R; simpl; field).
  replace (Q2R (99999999999 # 100000000000)) with (1 - 1 / 10 ^ 11) in C by (unfold Q2R; simpl; field).
  rewrite E in *. split; [|split]; nra.
Qed.

Lemma mid_scale : forall z, 55 / 100 <= z -> wlc_bessel_scale z <= - (78 / 10).
Proof.
  intros z Hz. unfold wlc_bessel_scale. destruct (Rlt_dec z (125 / 1000)); [lra|].
  set (u := z - 111 / 1000). assert (Hu : 439 / 1000 <= u) by (unfold u; lra).
  assert (W : 32 / 10 <= 177 / 1000 / u + 64 / 10 * Rpowf u (783 / 1000)).
  { rewrite PIdealDist.Rpowf_pos by lra. assert (Q : 0 < 177 / 1000 / u) by (apply Rdiv_lt_0_compat; lra). destruct (Rle_dec u 1) as [L|L].
    - assert (P : u <= Rpower u (783 / 1000)).
      { rewrite <- (Rpower_1 u) at 1 by lra. unfold Rpower. assert (ln u <= 0) by (rewrite <- ln_1; apply Rcomplements.ln_le; lra).
        destruct (Req_dec (ln u) 0) as [Z|Z]; [rewrite Z, !Rmult_0_r; lra|]. left. apply exp_increasing. lra. }
      assert (32 / 10 <= 177 / 1000 / u + 64 / 10 * u); [|lra].
      apply Rmult_le_reg_r with u; [lra|]. replace ((177 / 1000 / u + 64 / 10 * u) * u) with (177 / 1000 + 64 / 10 * u ^ 2) by (field; lra). nra.
    - assert (P : 1 <= Rpower u (783 / 1000)).
      { rewrite <- (Rpower_O u) at 1 by lra. apply Rle_Rpower; lra. }
      lra. }
  set (w := 177 / 1000 / u + 64 / 10 * Rpowf u (783 / 1000)) in *. clearbody w. clearbody u.
  assert (I : 1 / w <= 10 / 32). { unfold Rdiv. rewrite Rmult_1_l. apply Rle_trans with (/ (32 / 10)); [apply Rinv_le_contravar; lra | lra]. }
  nra.
Qed.

(** Some extension makes the argument of the Bessel function -10. *)
Lemma mid_argument : forall z, 55 / 100 <= z -> exists x, 0 < x < 1 /\ wlc_bessel_argument z x = -10.
Proof.
  intros z Hz. pose proof (mid_scale z Hz) as S. unfold wlc_bessel_argument. set (s := wlc_bessel_scale z) in *. clearbody s.
  set (b := (473 / 1000) ^ 2). assert (B : b = 223729 / 1000000) by (unfold b; field). 
  set (h := 10 / - s). assert (H0 : 0 < h) by (unfold h; apply Rdiv_lt_0_compat; lra).
  assert (H1 : h * (1 - b) < 1).
  { unfold h. apply Rmult_lt_reg_r with (- s); [lra|]. replace (10 / - s * (1 - b) * - s) with (10 * (1 - b)) by (field; lra). lra. }
  set (q := sqrt (1 + 4 * b * h ^ 2)).
  assert (Hh : 0 < 4 * b * h ^ 2) by (apply Rmult_lt_0_compat; [lra | apply pow_lt, H0]).
  assert (Q : q ^ 2 = 1 + 4 * b * h ^ 2) by (unfold q; apply pow2_sqrt; lra).
  assert (Q0 : 0 < q) by (apply sqrt_lt_R0; lra). assert (Q1 : 1 < q) by nra. clearbody q.
  (* x = h (1 - b x^2) has the root (q - 1) / (2 b h) = 2 h / (q + 1) *)
  exists (2 * h / (q + 1)).
  assert (X : 2 * h < q + 1).
  { destruct (Rle_dec (2 * h) 1) as [L|L]; [lra|]. assert ((2 * h - 1) ^ 2 < q ^ 2); [|nra]. rewrite Q.
    assert (h * (h * (1 - b)) < h * 1) by (apply Rmult_lt_compat_l; assumption). nra. }
  split.
  - split; [apply Rdiv_lt_0_compat; lra|]. apply Rmult_lt_reg_r with (q + 1); [lra|]. unfold Rdiv. rewrite Rmult_assoc, Rinv_l by lra. lra.
  - fold b. assert (E : 1 - b * (2 * h / (q + 1)) ^ 2 = 2 / (q + 1)).
    { assert (4 * b * h ^ 2 = (q - 1) * (q + 1)) by (replace (4 * b * h ^ 2) with (q ^ 2 - 1) by lra; ring).
      replace (b * (2 * h / (q + 1)) ^ 2) with (4 * b * h ^ 2 / (q + 1) ^ 2) by (field; lra). rewrite H. field. lra. }
    rewrite E. unfold h. field. split; lra.
Qed.

Lemma worm_mid : forall z, 55 / 100 <= z -> exists x, 0 < x < 1 /\ forall N l m T,
  wlc_isometric.nondimensional_helmholtz_free_energy N l m z (- x) T < wlc_isometric.nondimensional_helmholtz_free_energy N l m z x T.
Proof.
  intros z Hz. destruct (mid_argument z Hz) as (x & Hx & A). exists x. split; [exact Hx|]. intros N l m T.
  assert (G : ln (math.bessel_i 0 (-10)) < ln (math.bessel_i 0 10)).
  { destruct (PBessel.I0_exists (-10)) as [v Hv]. destruct (i0_mid v Hv) as (P & P' & F).
    assert (Hv' : is_I0 10 v). { unfold is_I0 in *. replace (10 ^ 2) with ((-10) ^ 2) by ring. exact Hv. }
    destruct (PBesselAccuracy.i0_large_accurate 10 v ltac:(lra) Hv') as [_ B]. apply Rabs_le_between in B. apply ln_increasing; [exact P'|].
    apply Rle_lt_trans with (1 := F). lra. }
  pose proof (argument_opp z x) as AO.
  unfold wlc_isometric.nondimensional_helmholtz_free_energy. unR. rewrite !wlc_scale_eq.
  change (wlc_bessel_scale z * (x / (1 - (473 / 1000) ^ 2 * x ^ 2))) with (wlc_bessel_argument z x).
  change (wlc_bessel_scale z * (- x / (1 - (473 / 1000) ^ 2 * (- x) ^ 2))) with (wlc_bessel_argument z (- x)).
  rewrite AO, A. replace ((- x) ^ 2) with (x ^ 2) by ring. replace (- -10) with 10 by ring.
  replace (10 * (473 / 1000) * - x) with (-10 * (473 / 1000) * x) by ring.
  lra.
Qed.
