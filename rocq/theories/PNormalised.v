(** Distributions normalised by the library's own quadrature. *)
From Coq Require Import Reals ZArith Lra Lia List.
From Coquelicot Require Import Coquelicot.
From Verif Require Import Scalar MMath MConst MFjc MSwfjc MWlc SpecThermo SpecLangevin PBase PHyp PQuad PInvLangevin PConj PConjWlc.
Open Scope R_scope.

Lemma integrate_ext : forall f g a b n, (forall x, f x = g x) -> math.integrate_1d f a b n = math.integrate_1d g a b n.
Proof. intros. rewrite 2!integrate_1d_R. f_equal. apply Rsum_ext. intros; apply H. Qed.

(** A density divided by its own quadrature has quadrature one. *)
Lemma self_normalised : forall (r : R -> R -> R) a b n, (forall c x, r c x = r 1 x * / c) ->
  math.integrate_1d (r 1) a b n <> 0 -> math.integrate_1d (r (math.integrate_1d (r 1) a b n)) a b n = 1.
Proof.
  intros r a b n H Z. set (I := math.integrate_1d (r 1) a b n) in *.
  rewrite (integrate_ext (r I) (fun x => r 1 x * / I)) by (intro; apply H).
  rewrite integrate_1d_scal. fold I. field. exact Z.
Qed.

Lemma integrate_stretch : forall f L a b n, L <> 0 -> IZR n <> 0 ->
  math.integrate_1d (fun x => f (x / L) / L) (a * L) (b * L) n = math.integrate_1d f a b n.
Proof.
  intros f L a b n HL Hn. rewrite 2!integrate_1d_R.
  rewrite (Rsum_ext _ (fun i => / L * f (math.midpoint a ((b - a) / IZR n) i))).
  - rewrite Rsum_scal. field. split; assumption.
  - intros i _. rewrite 2!midpoint_R.
    replace ((a * L + (1 / 2 + IZR i) * ((b * L - a * L) / IZR n)) / L) with (a + (1 / 2 + IZR i) * ((b - a) / IZR n)) by (field; split; assumption).
    unfold Rdiv. ring.
Qed.

Lemma ZERO_R : (ZERO : R) = 1 / 10 ^ 6.
Proof. rewrite Z_eq. lra. Qed.

(** ** Freely jointed chain *)
Section Fjc.
Variables (N : Z) (l m : R).
Hypotheses (HN : (0 < N)%Z) (Hl : 0 < l).
Let o := O_fjc_isometric_legendre.init N l m.
Let c := O_fjc_isometric_legendre.normalization_nondimensional_equilibrium_distribution o.
Let PN : 0 < IZR N. Proof. apply IZR_lt, HN. Qed.

Lemma fjc_c : c = math.integrate_1d (fjc_isometric_legendre.nondimensional_equilibrium_radial_distribution N 1) (1 / 10 ^ 6) 1 64.
Proof using. rewrite <- ZERO_R. reflexivity. Qed.

Lemma fjc_pos : 0 < c.
Proof using.
  rewrite fjc_c. apply integrate_1d_pos; [lia | lra |]. intros x Hx.
  unfold fjc_isometric_legendre.nondimensional_equilibrium_radial_distribution, fjc_isometric_legendre.nondimensional_equilibrium_distribution.
  assert (Hx1 : 0 < x < 1) by lra.
  destruct (inverse_langevin_accuracy x Hx1) as [Pf _].
  change (fjc_isometric_legendre.nondimensional_force x) with (math.inverse_langevin x).
  set (f := math.inverse_langevin x) in *.
  change (0 < 4 * PI * x ^ 2 * (powerRZ (sinh f / f * exp (- f * x)) N / 1)).
  pose proof PI_RGT_0. assert (0 < sinh f / f) by (apply sinh_div_pos; lra). pose proof (exp_pos (- f * x)).
  apply Rmult_lt_0_compat; [apply Rmult_lt_0_compat; [lra | apply pow_lt; lra]|].
  apply Rdiv_lt_0_compat; [|lra]. apply powerRZ_lt. apply Rmult_lt_0_compat; assumption.
Qed.

Lemma fjc_self_normalised :
  math.integrate_1d (O_fjc_isometric_legendre.nondimensional_equilibrium_radial_distribution o) (1 / 10 ^ 6) 1 64 = 1 /\
  math.integrate_1d (O_fjc_isometric_legendre.equilibrium_radial_distribution o) (1 / 10 ^ 6 * (IZR N * l)) (1 * (IZR N * l)) 64 = 1.
Proof using HN Hl.
  assert (A : math.integrate_1d (O_fjc_isometric_legendre.nondimensional_equilibrium_radial_distribution o) (1 / 10 ^ 6) 1 64 = 1).
  { change (math.integrate_1d (fjc_isometric_legendre.nondimensional_equilibrium_radial_distribution N c) (1 / 10 ^ 6) 1 64 = 1).
    rewrite fjc_c. apply (self_normalised (fjc_isometric_legendre.nondimensional_equilibrium_radial_distribution N)).
    - intros k x. unfold fjc_isometric_legendre.nondimensional_equilibrium_radial_distribution, fjc_isometric_legendre.nondimensional_equilibrium_distribution.
      set (p := spowi _ N). change (4 * PI * x ^ 2 * (p / k) = 4 * PI * x ^ 2 * (p / 1) * / k). unfold Rdiv. rewrite Rinv_1. ring.
    - rewrite <- fjc_c. pose proof fjc_pos. lra. }
  split; [exact A|].
  etransitivity; [|exact A]. apply (integrate_stretch (O_fjc_isometric_legendre.nondimensional_equilibrium_radial_distribution o)).
  - apply Rgt_not_eq, Rmult_lt_0_compat; lra.
  - lra.
Qed.
End Fjc.

(** ** Square-well chain *)
Section Swfjc.
Variables (N : Z) (l m w : R).
Hypotheses (HN : (0 < N)%Z) (Hl : 0 < l) (Hw : 0 < w).
Let o := O_swfjc_isometric_legendre.init N l m w.
Let c := O_swfjc_isometric_legendre.normalization_nondimensional_equilibrium_distribution o.
Let PN : 0 < IZR N. Proof. apply IZR_lt, HN. Qed.

Lemma swfjc_c : c = math.integrate_1d (swfjc_isometric_legendre.nondimensional_equilibrium_radial_distribution N l w 1) (1 / 10 ^ 6) (1 + w / l) 64.
Proof using. rewrite <- ZERO_R. replace (1 + w / l) with (1 * (1 + w / l)) by ring. reflexivity. Qed.

Lemma swfjc_self_normalised : c <> 0 ->
  math.integrate_1d (O_swfjc_isometric_legendre.nondimensional_equilibrium_radial_distribution o) (1 / 10 ^ 6) (1 + w / l) 64 = 1 /\
  math.integrate_1d (O_swfjc_isometric_legendre.equilibrium_radial_distribution o) (1 / 10 ^ 6 * (IZR N * l)) ((1 + w / l) * (IZR N * l)) 64 = 1.
Proof using HN Hl.
  intro Z.
  assert (A : math.integrate_1d (O_swfjc_isometric_legendre.nondimensional_equilibrium_radial_distribution o) (1 / 10 ^ 6) (1 + w / l) 64 = 1).
  { change (math.integrate_1d (swfjc_isometric_legendre.nondimensional_equilibrium_radial_distribution N l w c) (1 / 10 ^ 6) (1 + w / l) 64 = 1).
    rewrite swfjc_c in Z |- *. apply (self_normalised (swfjc_isometric_legendre.nondimensional_equilibrium_radial_distribution N l w)).
    - intros k x. unfold swfjc_isometric_legendre.nondimensional_equilibrium_radial_distribution, swfjc_isometric_legendre.nondimensional_equilibrium_distribution.
      cbv zeta. set (p := spowi _ N). change (4 * PI * x ^ 2 * (p / k) = 4 * PI * x ^ 2 * (p / 1) * / k). unfold Rdiv. rewrite Rinv_1. ring.
    - exact Z. }
  split; [exact A|].
  etransitivity; [|exact A]. apply (integrate_stretch (O_swfjc_isometric_legendre.nondimensional_equilibrium_radial_distribution o)).
  - apply Rgt_not_eq, Rmult_lt_0_compat; lra.
  - lra.
Qed.
End Swfjc.

(** ** Worm-like chain *)
Lemma Rpowf_gt : forall x y, 0 < x -> 0 < Rpowf x y.
Proof. intros x y H. unfold Rpowf. destruct (Rlt_dec 0 x); [|lra]. unfold Rpower. apply exp_pos. Qed.


Lemma sum_powers_ge : forall (cs : list R) t, (forall c, In c cs -> 0 <= c) -> 0 <= t -> 0 <= math.sum_powers cs t.
Proof.
  intros cs t H Ht. unfold math.sum_powers. rewrite ssum_R.
  assert (G : forall k (cs : list R), (forall c, In c cs -> 0 <= c) ->
    0 <= Rsum (map (fun '(i, c) => smul c (spowi t (Z.of_nat i))) (combine (seq k (length cs)) cs))).
  { clear cs H. intros k cs; revert k. induction cs as [|c cs IH]; intros k H; cbn [length seq combine map Rsum]; [lra|].
    apply Rplus_le_le_0_compat.
    - change (0 <= c * powerRZ t (Z.of_nat k)). rewrite <- pow_powerRZ. apply Rmult_le_pos; [apply H; left; reflexivity | apply pow_le, Ht].
    - apply IH. intros d Hd. apply H. right. exact Hd. }
  apply G, H.
Qed.

Lemma bessel_i0_coefficients : forall c : R, In c math.bessel_i0_small -> 0 <= c.
Proof.
  intros c H. cbn [math.bessel_i0_small In] in H.
  repeat (destruct H as [<-|H]; [cbn [sdec R_scalar]; unfold Rdec; cbn [Z.pow_pos]; try (apply IZR_le; lia);
    apply Rlt_le, Rdiv_lt_0_compat; apply IZR_lt; reflexivity|]).
  destruct H.
Qed.

Lemma bessel_i0_small_pos : forall x, x < 0 -> 0 < math.bessel_i 0 x.
Proof.
  intros x Hx. change (math.bessel_i 0 x) with (math.bessel_i0 x). unfold math.bessel_i0.
  replace (slt x (sdec 775 2)) with true.
  2:{ symmetry. apply Rltb_true. change (x < 775 / 100). lra. }
  cbv zeta. set (t := smul (sdec 25 2) (spowi x 2)).
  assert (Ht : 0 <= t). { change (0 <= 25 / 100 * x ^ 2). pose proof (pow2_ge_0 x). lra. }
  pose proof (sum_powers_ge _ t bessel_i0_coefficients Ht) as Q. set (q := math.sum_powers _ t) in *.
  change (0 < 1 + t * q). assert (0 <= t * q) by (apply Rmult_le_pos; assumption). lra.
Qed.

Lemma wlc_d_pos : forall z, 0 < z ->
  0 < (if Rltb z (125 / 1000) then 1
     else 1 - 1 / (177 / 1000 / (z - 111 / 1000) + 64 / 10 * Rpowf (z - 111 / 1000) (783 / 1000))).
Proof.
  intros z Hz. unfold Rltb. destruct (Rlt_dec z (125 / 1000)) as [H|H]; [lra|].
  set (u := z - 111 / 1000). assert (Hu : 0 < u) by (unfold u; lra). clearbody u.
  pose proof (Rpowf_gt u (783 / 1000) Hu) as P.
  assert (Q : 1 < 177 / 1000 / u + 64 / 10 * Rpowf u (783 / 1000)).
  { destruct (Rle_dec u (177 / 1000)) as [L|L].
    - assert (1 <= 177 / 1000 / u) by (apply Rmult_le_reg_r with u; [exact Hu | unfold Rdiv; rewrite Rmult_assoc, Rinv_l; lra]). lra.
    - assert (0 < 177 / 1000 / u) by (apply Rdiv_lt_0_compat; lra).
      assert (1 / 6 < Rpowf u (783 / 1000)); [|lra].
      unfold Rpowf in *. destruct (Rlt_dec 0 u); [|lra]. unfold Rpower in *.
      destruct (Rle_dec u 1) as [L1|L1].
      + apply Rlt_le_trans with u; [lra|]. rewrite <- (exp_ln u Hu) at 1.
        destruct (Req_dec u 1) as [->|Hne]; [rewrite ln_1, Rmult_0_r; lra|].
        assert (ln u < 0) by (rewrite <- ln_1; apply ln_increasing; lra). apply Rlt_le, exp_increasing. lra.
      + assert (0 < ln u) by (rewrite <- ln_1; apply ln_increasing; lra).
        assert (exp 0 < exp (783 / 1000 * ln u)) by (apply exp_increasing; lra). rewrite exp_0 in *. lra. }
  set (q := _ + _) in *. assert (1 / q < 1) by (apply Rmult_lt_reg_r with q; [lra | unfold Rdiv; rewrite Rmult_assoc, Rinv_l; lra]). lra.
Qed.

Section Wlc.
Variables (N : Z) (l m p : R).
Hypotheses (HN : (0 < N)%Z) (Hl : 0 < l) (Hp : 0 < p).
Let o := O_wlc_isometric.init N l m p.
Let c := O_wlc_isometric.normalization_nondimensional_equilibrium_distribution o.
Let PN : 0 < IZR N. Proof. apply IZR_lt, HN. Qed.
Let z := p / IZR N / l.
Let Pz : 0 < z. Proof. unfold z. repeat apply Rdiv_lt_0_compat; assumption. Qed.

Lemma wlc_c : c = math.integrate_1d (wlc_isometric.nondimensional_equilibrium_radial_distribution z 1) (1 / 10 ^ 6) 1 64.
Proof using. rewrite <- ZERO_R. reflexivity. Qed.

Lemma wlc_density_pos : forall x, 0 < x < 1 -> 0 < wlc_isometric.nondimensional_equilibrium_distribution z 1 x.
Proof using HN Hl Hp.
  intros x Hx. unfold wlc_isometric.nondimensional_equilibrium_distribution. cbv zeta.
  set (g2 := spowi x 2). change (x ^ 2) with g2 in *.
  assert (G : 0 < g2 < 1) by (unfold g2; change (0 < x ^ 2 < 1); simpl; nra).
  set (sum := ssum _).
  pose proof (wlc_d_pos z Pz) as D.
  match goal with |- context [smul (sneg ?d) z] => set (dd := d) end. change (0 < dd) in D.
  match goal with |- context [smul (smul ?e (spowf ?f (sdec 25 1))) (sexp ?s)] => set (ee := e); set (ff := f); set (ss := s) end.
  match goal with |- context [math.bessel_i 0 ?a] => set (aa := a) end.
  assert (E : 0 < ee).
  { unfold ee. change (@slt R R_scalar) with Rltb. unfold Rltb. change (sdec 125 3) with (125 / 1000).
    destruct (Rlt_dec z (125 / 1000)) as [H|H].
    - match goal with |- 0 < smul ?u ?v => change (0 < u * v) end. apply Rmult_lt_0_compat.
      + apply (Rpowf_gt (75 / 100 / PI / z) (15 / 10)). pose proof PI_RGT_0. repeat apply Rdiv_lt_0_compat; lra.
      + change (0 < 1 - 125 / 100 * z). lra.
    - match goal with |- 0 < smul (smul ?u ?v) (sexp ?w) => change (0 < 11204 / 100 * z ^ 2 * exp w) end.
      apply Rmult_lt_0_compat; [apply Rmult_lt_0_compat; [lra | apply pow_lt, Pz] | apply exp_pos]. }
  assert (F : 0 < ff).
  { unfold ff. match goal with |- context [ssub (sdec 1 0) (spowf ?u ?v)] => set (c0 := ssub (sdec 1 0) (spowf u v)) end.
    pose proof (wlc_c0_bounds z Pz) as C.
    assert (C0 : 0 < c0 < 1).
    { unfold c0. match goal with |- 0 < ssub (sdec 1 0) ?w < 1 => change (0 < 1 - w < 1) end.
      change (spowi (sdiv (sdec 38 2) (spowf z (sdec 95 2))) (-5)) with (/ (38 / 100 / Rpowf z (95 / 100)) ^ 5).
      exact C. }
    clearbody c0. change (0 < (1 - c0 * g2) / (1 - g2)). assert (c0 * g2 < 1 * 1) by (apply Rmult_le_0_lt_compat; lra). apply Rdiv_lt_0_compat; lra. }
  assert (A : aa < 0).
  { unfold aa. change (- dd * z * (14054 / 1000) * (1 + 473 / 1000) * (x / (1 - (473 / 1000) ^ 2 * g2)) < 0).
    assert (0 < x / (1 - (473 / 1000) ^ 2 * g2)) by (apply Rdiv_lt_0_compat; [lra | simpl; lra]).
    assert (0 < dd * z * (14054 / 1000) * (1 + 473 / 1000) * (x / (1 - (473 / 1000) ^ 2 * g2))); [|lra].
    set (h := x / _) in *. clearbody h. assert (0 < dd * z) by (apply Rmult_lt_0_compat; [exact D | exact Pz]).
    assert (0 < dd * z * (14054 / 1000) * (1 + 473 / 1000)) by lra. apply Rmult_lt_0_compat; assumption. }
  pose proof (bessel_i0_small_pos aa A) as B. clearbody aa ee ff ss.
  change (0 < ee * Rpowf ff (25 / 10) * exp ss * math.bessel_i 0 aa / 1).
  pose proof (Rpowf_gt ff (25 / 10) F). pose proof (exp_pos ss).
  apply Rdiv_lt_0_compat; [|lra]. repeat apply Rmult_lt_0_compat; assumption.
Qed.

Lemma wlc_pos : 0 < c.
Proof using HN Hl Hp.
  rewrite wlc_c. apply integrate_1d_pos; [lia | lra |]. intros x Hx.
  unfold wlc_isometric.nondimensional_equilibrium_radial_distribution.
  assert (Hx1 : 0 < x < 1) by lra.
  pose proof (wlc_density_pos x Hx1) as P. set (q := wlc_isometric.nondimensional_equilibrium_distribution z 1 x) in *.
  change (0 < 4 * PI * x ^ 2 * q). pose proof PI_RGT_0.
  apply Rmult_lt_0_compat; [apply Rmult_lt_0_compat; [lra | apply pow_lt; lra] | exact P].
Qed.

Lemma wlc_self_normalised :
  math.integrate_1d (O_wlc_isometric.nondimensional_equilibrium_radial_distribution o) (1 / 10 ^ 6) 1 64 = 1 /\
  math.integrate_1d (O_wlc_isometric.equilibrium_radial_distribution o) (1 / 10 ^ 6 * (IZR N * l)) (1 * (IZR N * l)) 64 = 1.
Proof using HN Hl Hp.
  assert (A : math.integrate_1d (O_wlc_isometric.nondimensional_equilibrium_radial_distribution o) (1 / 10 ^ 6) 1 64 = 1).
  { change (math.integrate_1d (wlc_isometric.nondimensional_equilibrium_radial_distribution z c) (1 / 10 ^ 6) 1 64 = 1).
    rewrite wlc_c. apply (self_normalised (wlc_isometric.nondimensional_equilibrium_radial_distribution z)).
    - intros k x. unfold wlc_isometric.nondimensional_equilibrium_radial_distribution, wlc_isometric.nondimensional_equilibrium_distribution.
      cbv zeta. match goal with |- context [sdiv ?w k] => set (q := w) end. clearbody q.
      change (4 * PI * x ^ 2 * (q / k) = 4 * PI * x ^ 2 * (q / 1) * / k). unfold Rdiv. rewrite Rinv_1. ring.
    - rewrite <- wlc_c. pose proof wlc_pos. lra. }
  split; [exact A|].
  etransitivity; [|exact A].
  rewrite <- (integrate_stretch (O_wlc_isometric.nondimensional_equilibrium_radial_distribution o) (IZR N * l)).
  - apply integrate_ext. intro x. unfold O_wlc_isometric.equilibrium_radial_distribution, O_wlc_isometric.nondimensional_equilibrium_radial_distribution.
    unfold wlc_isometric.equilibrium_radial_distribution. cbv zeta. unfold o, O_wlc_isometric.init. cbv zeta.
    cbn [O_wlc_isometric.number_of_links O_wlc_isometric.link_length O_wlc_isometric.persistance_length
         O_wlc_isometric.nondimensional_persistance_length O_wlc_isometric.normalization_nondimensional_equilibrium_distribution].
    replace (sdiv p (smul (sofZ N) l)) with (sdiv (sdiv p (sofZ N)) l); [reflexivity|].
    change (p / IZR N / l = p / (IZR N * l)). field. split; lra.
  - apply Rgt_not_eq, Rmult_lt_0_compat; lra.
  - lra.
Qed.
End Wlc.
