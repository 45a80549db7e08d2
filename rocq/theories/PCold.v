(** Cold chains lie straight. *)
From Coq Require Import Reals ZArith List Lra Lia Psatz.
From Coquelicot Require Import Coquelicot.
From Verif Require Import Scalar MMath MConst MIdeal MFjc MEfjc MSwfjc MMorse MLennardJones MLogSquared.
From Verif Require Import SpecThermo SpecChains SpecLinks SpecStability SpecHooke SpecSofter SpecCold PBase PHyp PStability PConj PHooke PHookeStrong PLimits PNormalChain PSofter PHeating.
From Verif Require PIdentIdeal PIdentFjc PIdentSwfjc PIdentEfjc PIdentMorse PIdentLennardJones PIdentLogSquared PLjStretch PLambertNeg.
Open Scope R_scope.

Local Notation fjc := (@fjc_isotensional.nondimensional_end_to_end_length_per_link R R_scalar).
Local Notation lj_stretch := (@lennard_jones_thermodynamics.nondimensional_link_stretch R R_scalar).

Lemma fjc_cold : forall x, 0 < x -> 1 - 1 / x < fjc x < 1.
Proof. intros x Hx. pose proof (fjc_bounds x Hx). destruct (coth_over x Hx). rewrite fjc_eq in *. lra. Qed.

Lemma stiff_cold : forall k c x, 0 < k -> 0 < c -> 0 < x -> 1 - 1 / x < stiff_length k c x < 1.
Proof.
  intros k c x Hk Hc Hx. rewrite stiff_at_load by assumption. pose proof (PInverse.tanh_bounds x Hx) as B. destruct (coth_over x Hx) as [C C'].
  pose proof (fjc_cold x Hx) as F. rewrite fjc_eq in F. assert (Hy : 0 < x / k) by (apply Rdiv_lt_0_compat; assumption).
  set (L := 1 / tanh x - 1 / x) in *. set (y := x / k) in *. clearbody y.
  assert (T : 1 - 1 / x < tanh x).
  { assert (Q : tanh x * (1 / tanh x) = 1) by (field; lra). assert (0 < 1 / x) by (apply Rdiv_lt_0_compat; lra).
    assert (tanh x * (1 / tanh x) <= tanh x * (1 + 1 / x)) by (apply Rmult_le_compat_l; lra). nra. }
  set (t := tanh x) in *. clearbody t L. assert (P : 0 < c * t) by (apply Rmult_lt_0_compat; lra). set (u := 1 / x) in *. clearbody u.
  split; (apply Rmult_lt_reg_r with (c * t + y); [lra|]; replace (t * (c * L + y) / (c * t + y) * (c * t + y)) with (c * t * L + y * t) by (field; lra)).
  - assert (c * t * (1 - u) < c * t * L) by (apply Rmult_lt_compat_l; lra). assert (y * (1 - u) < y * t) by (apply Rmult_lt_compat_l; lra). lra.
  - assert (c * t * L < c * t * 1) by (apply Rmult_lt_compat_l; lra). assert (y * t < y * 1) by (apply Rmult_lt_compat_l; lra). lra.
Qed.

Lemma cold_lift : forall n l lam f (c : R -> isotensional), 0 < n -> 0 < l -> 0 < f ->
  (forall T, 0 < T -> isotensional_dimensionless l T (c T)) -> (forall T, 0 < T -> isotensional_extensive n (c T)) ->
  (forall T, 0 < T -> let x := f * l / (kB * T) in lam - 1 / x < I_nd_length_per_link (c T) x < lam) -> straightens n l lam f c.
Proof.
  intros n l lam f c Hn Hl Hf Hd He H T HT. specialize (H T HT). cbv zeta in H. pose proof kB_pos as K.
  assert (P : l * lam - kB * T / f < I_length_per_link (c T) f < l * lam).
  { rewrite (proj1 (proj2 (Hd T HT f))). replace (l * lam - kB * T / f) with (l * (lam - 1 / (f * l / (kB * T)))) by (field; repeat split; lra).
    split; apply Rmult_lt_compat_l; lra. }
  split; [exact P|]. rewrite (proj1 (He T HT f)). split; apply Rmult_lt_compat_l; lra.
Qed.

Lemma force_pos : forall f l T, 0 < f -> 0 < l -> 0 < T -> 0 < f * l / (kB * T).
Proof. intros. pose proof kB_pos. apply Rdiv_lt_0_compat; apply Rmult_lt_0_compat; assumption. Qed.

Lemma fjc_straightens : forall N l m f, (0 < N)%Z -> 0 < l -> 0 < f -> straightens (IZR N) l 1 f (fun T => C_fjc_isotensional N l m T).
Proof.
  intros N l m f HN Hl Hf. apply cold_lift; auto using NR, PIdentFjc.fjc_isotensional_dimensionless, PIdentFjc.fjc_isotensional_extensive.
  intros T HT x. apply fjc_cold, force_pos; assumption.
Qed.

Lemma efjc_straightens : forall N l m k f, (0 < N)%Z -> 0 < l -> 0 < k -> 0 < f ->
  straightens (IZR N) l (1 + f / (k * l)) f (fun T => C_efjc_isotensional_asymptotic N l m T k) /\
  straightens (IZR N) l (1 + f / (k * l)) f (fun T => C_efjc_isotensional_asymptotic_reduced N l m T k).
Proof.
  intros N l m k f HN Hl Hk Hf.
  split; (apply cold_lift; auto using NR, PIdentEfjc.efjc_isotensional_asymptotic_dimensionless, PIdentEfjc.efjc_isotensional_asymptotic_extensive, PIdentEfjc.efjc_isotensional_asymptotic_reduced_dimensionless, PIdentEfjc.efjc_isotensional_asymptotic_reduced_extensive).
  all: intros T HT x; pose proof (fixed_load k l f T Hk Hl HT) as E; fold x in E; pose proof (force_pos f l T Hf Hl HT) as Hx; fold x in Hx.
  - assert (F : forall q x, efjc_isotensional_asymptotic.nondimensional_end_to_end_length_per_link q x = stiff_length q 1 x + x / q).
    { intros q z. change (1 / tanh z - 1 / z + z / q * (1 + (tanh z - 1 / tanh z + 1 / z) / (tanh z + z / q)) = stiff_length q 1 z + z / q). unfold stiff_length. rewrite Rmult_1_l. ring. }
    cbn [I_nd_length_per_link C_efjc_isotensional_asymptotic]. rewrite F, E.
    pose proof (stiff_cold (kappa k l T) 1 x (kappa_pos k l T Hk Hl HT) ltac:(lra) Hx). lra.
  - change (1 + f / (k * l) - 1 / x < fjc x + x / kappa k l T < 1 + f / (k * l)). rewrite E. pose proof (fjc_cold x Hx). lra.
Qed.

(** ** Links whose stretch is a function of the force *)
Lemma morse_straightens : forall N l m k e f, (0 < N)%Z -> 0 < l -> 0 < k -> 0 < e -> 0 < f -> morse_bears k e f ->
  exists lam, 1 < lam < 1 + ln 2 / (l * sqrt (k / (2 * e))) /\ morse_bond_force k e l lam = f /\
  straightens (IZR N) l lam f (fun T => C_morse_isotensional_asymptotic N l m T k e) /\
  straightens (IZR N) l lam f (fun T => C_morse_isotensional_asymptotic_reduced N l m T k e).
Proof.
  intros N l m k e f HN Hl Hk He Hf Hb. pose proof kB_pos as KB. unfold morse_bears in Hb. rewrite (Rmult_comm k) in Hb.
  set (a := l * sqrt (k / (2 * e))). set (fm := sqrt (e * k / 8)) in *.
  assert (Pk : 0 < k / (2 * e)) by (apply Rdiv_lt_0_compat; lra).
  assert (Ha : 0 < a) by (apply Rmult_lt_0_compat; [exact Hl | apply sqrt_lt_R0, Pk]).
  assert (Ea : a = sqrt (k * l ^ 2 / e / 2)).
  { unfold a. replace (k * l ^ 2 / e / 2) with (l ^ 2 * (k / (2 * e))) by (field; lra). rewrite sqrt_mult_alt by apply pow2_ge_0. rewrite sqrt_pow2 by lra. reflexivity. }
  assert (Em : e * sqrt (k / (2 * e)) = 2 * fm).
  { unfold fm. replace (e * k / 8) with ((e / 2) ^ 2 * (k / (2 * e))) by (field; lra). rewrite sqrt_mult_alt by apply pow2_ge_0. rewrite sqrt_pow2 by lra. field. }
  destruct (root_of_load fm f ltac:(lra)) as [Q EQ]. set (q := sqrt (1 - f / fm)) in *.
  exists (1 + morse_stretch a fm f). unfold morse_stretch. fold q.
  assert (G : 1 < 2 / (1 + q) < 2).
  { split; apply Rmult_lt_reg_r with (1 + q); try lra; replace (2 / (1 + q) * (1 + q)) with 2 by (field; lra); lra. }
  assert (L0 : 0 < ln (2 / (1 + q))) by (rewrite <- ln_1; apply ln_increasing; lra).
  assert (L1 : ln (2 / (1 + q)) < ln 2) by (apply ln_increasing; lra).
  split; [|split].
  - split; [assert (0 < ln (2 / (1 + q)) / a) by (apply Rdiv_lt_0_compat; assumption); lra|]. apply Rplus_lt_compat_l. apply Rmult_lt_compat_r; [apply Rinv_0_lt_compat, Ha | exact L1].
  - unfold morse_bond_force. fold a.
    replace (a * (1 + ln (2 / (1 + q)) / a - 1)) with (ln (2 / (1 + q))) by (field; lra). rewrite exp_Ropp, exp_ln by lra.
    replace (2 * e * a / l) with (4 * fm) by (unfold a; replace (4 * fm) with (2 * (2 * fm)) by ring; rewrite <- Em; field; lra).
    replace (4 * fm * (/ (2 / (1 + q)) * (1 - / (2 / (1 + q))))) with (fm * (1 - q ^ 2)) by (field; lra). rewrite EQ. field. lra.
  - assert (A : forall T, 0 < T -> sqrt (kappa k l T / epsilon e T / 2) = a) by (intros T HT; rewrite Ea; f_equal; unfold kappa, epsilon; field; repeat split; lra).
    assert (X : forall T, 0 < T -> f * l / (kB * T) / sqrt (epsilon e T * kappa k l T / 8) = f / fm).
    { intros T HT. replace (epsilon e T * kappa k l T / 8) with ((l / (kB * T)) ^ 2 * (e * k / 8)) by (unfold kappa, epsilon; field; repeat split; lra).
      assert (P : 0 < l / (kB * T)) by (apply Rdiv_lt_0_compat; [exact Hl | apply Rmult_lt_0_compat; assumption]).
      rewrite sqrt_mult_alt by (left; apply pow_lt, P). rewrite sqrt_pow2 by lra. fold fm. field. repeat split; lra. }
    split; (apply cold_lift; auto using NR, PIdentMorse.morse_isotensional_asymptotic_dimensionless, PIdentMorse.morse_isotensional_asymptotic_extensive, PIdentMorse.morse_isotensional_asymptotic_reduced_dimensionless, PIdentMorse.morse_isotensional_asymptotic_reduced_extensive).
    all: intros T HT x; pose proof (force_pos f l T Hf Hl HT) as Hx; fold x in Hx; pose proof (kappa_pos k l T Hk Hl HT) as K.
    all: assert (E : 0 < epsilon e T) by (apply Rdiv_lt_0_compat; [exact He | apply Rmult_lt_0_compat; assumption]); specialize (X T HT); fold x in X; specialize (A T HT).
    + cbn [I_nd_length_per_link C_morse_isotensional_asymptotic]. rewrite morse_sum by assumption. unfold morse_stretch. rewrite X, A. fold q.
      pose proof (stiff_cold (kappa k l T) (/ (1 + 3 / 2 * a)) x K ltac:(apply Rinv_0_lt_compat; lra) Hx). lra.
    + cbn [I_nd_length_per_link C_morse_isotensional_asymptotic_reduced]. rewrite morse_reduced_sum by assumption. unfold morse_stretch. rewrite X, A. fold q.
      pose proof (fjc_cold x Hx). lra.
Qed.

Lemma lennard_jones_straightens : forall N l m k f lam_max, (0 < N)%Z -> 0 < l -> 0 < k -> 0 < f ->
  0 < lam_max -> lam_max ^ 6 = 13 / 7 -> f < lj_bond_force (k * l) lam_max ->
  exists lam, 1 <= lam < lam_max /\ f * (1 - 1 / 10 ^ 6) <= lj_bond_force (k * l) lam <= f /\
  straightens (IZR N) l lam f (fun T => C_lennard_jones_isotensional_asymptotic N l m T k) /\
  straightens (IZR N) l lam f (fun T => C_lennard_jones_isotensional_asymptotic_reduced N l m T k).
Proof.
  intros N l m k f lm HN Hl Hk Hf Hm Em Hb. assert (Hkl : 0 < k * l) by (apply Rmult_lt_0_compat; assumption).
  destruct (PLjStretch.lj_stretch lm Hm Em (k * l) f Hkl ltac:(lra)) as [A B].
  exists (lj_stretch (k * l) f). split; [exact A|]. split; [exact B|].
  assert (S : forall T, 0 < T -> lj_stretch (kappa k l T) (f * l / (kB * T)) = lj_stretch (k * l) f).
  { intros T HT. pose proof kB_pos. unfold lennard_jones_thermodynamics.nondimensional_link_stretch. f_equal.
    change (6 * (f * l / (kB * T)) / kappa k l T = 6 * f / (k * l)). unfold kappa. field. repeat split; lra. }
  split; (apply cold_lift; auto using NR, PIdentLennardJones.lennard_jones_isotensional_asymptotic_dimensionless, PIdentLennardJones.lennard_jones_isotensional_asymptotic_extensive, PIdentLennardJones.lennard_jones_isotensional_asymptotic_reduced_dimensionless, PIdentLennardJones.lennard_jones_isotensional_asymptotic_reduced_extensive).
  all: intros T HT x; pose proof (force_pos f l T Hf Hl HT) as Hx; fold x in Hx; pose proof (kappa_pos k l T Hk Hl HT) as K; specialize (S T HT); fold x in S.
  - change (lj_stretch (k * l) f - 1 / x < stiff_length (kappa k l T) (2 / 23) x + lj_stretch (kappa k l T) x - 1 < lj_stretch (k * l) f). rewrite S.
    pose proof (stiff_cold (kappa k l T) (2 / 23) x K ltac:(lra) Hx). lra.
  - change (lj_stretch (k * l) f - 1 / x < fjc x + lj_stretch (kappa k l T) x - 1 < lj_stretch (k * l) f). rewrite S. pose proof (fjc_cold x Hx). lra.
Qed.

Lemma log_squared_straightens : forall N l m k f, (0 < N)%Z -> 0 < l -> 0 < k -> 0 < f -> log_squared_bears (k * l) f ->
  exists lam, 1 <= lam < exp 1 /\ f * (1 - 1 / 10 ^ 3) <= log_squared_bond_force (k * l) lam <= f /\
  straightens (IZR N) l lam f (fun T => C_log_squared_isotensional_asymptotic N l m T k) /\
  straightens (IZR N) l lam f (fun T => C_log_squared_isotensional_asymptotic_reduced N l m T k).
Proof.
  intros N l m k f HN Hl Hk Hf Hb. assert (Hkl : 0 < k * l) by (apply Rmult_lt_0_compat; assumption). unfold log_squared_bears in Hb.
  destruct (PLambertNeg.log_stretch (k * l) f Hkl ltac:(lra)) as (A & B & _). set (lam := 1 / exp (math.lambert_w (- f / (k * l)))) in *.
  exists lam. split; [exact A|]. split; [exact B|].
  assert (S : forall T, 0 < T -> - (f * l / (kB * T)) / kappa k l T = - f / (k * l)) by (intros t Ht; pose proof (fixed_load k l f t Hk Hl Ht); unfold Rdiv in *; lra).
  split; (apply cold_lift; auto using NR, PIdentLogSquared.log_squared_isotensional_asymptotic_dimensionless, PIdentLogSquared.log_squared_isotensional_asymptotic_extensive, PIdentLogSquared.log_squared_isotensional_asymptotic_reduced_dimensionless, PIdentLogSquared.log_squared_isotensional_asymptotic_reduced_extensive).
  all: intros T HT x; pose proof (force_pos f l T Hf Hl HT) as Hx; fold x in Hx; pose proof (kappa_pos k l T Hk Hl HT) as K; specialize (S T HT); fold x in S.
  - change (lam - 1 / x < stiff_length (kappa k l T) (4 / 10) x + 1 / exp (math.lambert_w (- x / kappa k l T)) - 1 < lam). rewrite S. fold lam.
    pose proof (stiff_cold (kappa k l T) (4 / 10) x K ltac:(lra) Hx). lra.
  - change (lam - 1 / x < fjc x + 1 / exp (math.lambert_w (- x / kappa k l T)) - 1 < lam). rewrite S. fold lam. pose proof (fjc_cold x Hx). lra.
Qed.

(** ** Square wells, and the alternative asymptotic approach *)
Lemma swfjc_cools : forall N l m w f, (0 < N)%Z -> 0 < l -> 0 < w -> 0 < f -> cools_to (l + w) f (fun T => C_swfjc_isotensional N l m T w).
Proof.
  intros N l m w f HN Hl Hw Hf eps Heps. destruct (swfjc_saturates l w Hl Hw) as [_ L]. apply is_lim_spec in L.
  assert (He : 0 < eps / l) by (apply Rdiv_lt_0_compat; assumption). destruct (L (mkposreal _ He)) as [M HM]. cbn [pos] in HM.
  pose proof kB_pos as K. set (M1 := Rmax M 1). assert (H1 : 1 <= M1) by apply Rmax_r. assert (HM1 : M <= M1) by apply Rmax_l.
  assert (P : 0 < f * l) by (apply Rmult_lt_0_compat; assumption). assert (Q : 0 < kB * M1) by (apply Rmult_lt_0_compat; lra).
  exists (f * l / (kB * M1)). split; [apply Rdiv_lt_0_compat; assumption|]. intros T HT HTM.
  rewrite (proj1 (proj2 (PIdentSwfjc.swfjc_isotensional_dimensionless N l m T w HN Hl HT Hw f))).
  assert (R : M < f * l / (kB * T)).
  { apply Rle_lt_trans with (1 := HM1). assert (E : M1 = f * l / (kB * (f * l / (kB * M1)))) by (field; repeat split; lra). rewrite E.
    apply ratio_lt; [apply Rmult_lt_0_compat; assumption | apply Rmult_lt_compat_l; assumption | exact P]. }
  specialize (HM _ R). cbn [I_nd_length_per_link C_swfjc_isotensional].
  set (z := swfjc_isotensional.nondimensional_end_to_end_length_per_link l w (f * l / (kB * T))) in *.
  replace (l * z - (l + w)) with (l * (z - (1 + w / l))) by (field; lra). rewrite Rabs_mult, (Rabs_pos_eq l) by lra.
  replace eps with (l * (eps / l)) by (field; lra). apply Rmult_lt_compat_l; assumption.
Qed.

Lemma alternative_cold : forall y x, 0 < y -> 1 <= x -> Rabs (fjc x + y + y * coupling x - (1 + y)) <= (1 + 2 * y) / x.
Proof.
  intros y x Hy Hx. rewrite over_load by lra. destruct (coth_over x ltac:(lra)) as [C C'].
  assert (I : 0 < / x <= 1) by (split; [apply Rinv_0_lt_compat; lra | rewrite <- Rinv_1; apply Rinv_le_contravar; lra]).
  assert (S0 : 0 <= y / sinh x ^ 2) by (left; apply Rdiv_lt_0_compat; [lra | apply pow_lt, PHyp.sinh_pos; lra]).
  assert (S1 : y / sinh x ^ 2 <= y / x).
  { apply Rmult_le_compat_l; [lra|]. apply Rinv_le_contravar; [lra|]. pose proof (sinh_ge x ltac:(lra)). nra. }
  assert (B0 : 0 <= (1 / tanh x - 1) * (1 + y / x)) by (apply Rmult_le_pos; [lra|]; unfold Rdiv; nra).
  assert (B1 : (1 / tanh x - 1) * (1 + y / x) <= 1 / x * (1 + y)) by (apply Rmult_le_compat; [lra | unfold Rdiv; nra | lra | unfold Rdiv; nra]).
  unfold Rdiv in *. apply Rabs_le. split; nra.
Qed.

Lemma alternative_cools : forall N l m k f, (0 < N)%Z -> 0 < l -> 0 < k -> 0 < f -> cools_to (l + f / k) f (fun T => C_efjc_isotensional_asymptotic_alternative N l m T k).
Proof.
  intros N l m k f HN Hl Hk Hf eps Heps. pose proof kB_pos as K. set (y := f / (k * l)).
  assert (Hy : 0 < y) by (apply Rdiv_lt_0_compat; [exact Hf | apply Rmult_lt_0_compat; assumption]).
  set (T1 := f * l / kB). set (T2 := eps * f / (kB * (1 + 2 * y))).
  assert (H1 : 0 < T1) by (apply Rdiv_lt_0_compat; [apply Rmult_lt_0_compat|]; assumption).
  assert (H2 : 0 < T2) by (apply Rdiv_lt_0_compat; apply Rmult_lt_0_compat; lra).
  exists (Rmin T1 T2). split; [apply Rmin_glb_lt; assumption|]. intros T HT HTM.
  assert (L1 : T < T1) by (pose proof (Rmin_l T1 T2); lra). assert (L2 : T < T2) by (pose proof (Rmin_r T1 T2); lra).
  rewrite (proj1 (proj2 (PIdentEfjc.efjc_isotensional_asymptotic_alternative_dimensionless N l m T k HN Hl HT Hk f))).
  set (x := f * l / (kB * T)). pose proof (force_pos f l T Hf Hl HT) as Hx. fold x in Hx.
  assert (Hx1 : 1 <= x).
  { apply Rmult_le_reg_r with T; [exact HT|]. replace (x * T) with T1 by (unfold x, T1; field; lra). lra. }
  cbn [I_nd_length_per_link C_efjc_isotensional_asymptotic_alternative].
  rewrite alternative_at_load by (try assumption; apply kappa_pos; assumption). unfold x at 2 3. rewrite fixed_load by assumption. fold y.
  replace (l * (fjc x + y + y * coupling x) - (l + f / k)) with (l * (fjc x + y + y * coupling x - (1 + y))) by (unfold y; field; lra).
  rewrite Rabs_mult, (Rabs_pos_eq l) by lra. apply Rle_lt_trans with (l * ((1 + 2 * y) / x)); [apply Rmult_le_compat_l; [lra | apply alternative_cold; assumption]|].
  replace (l * ((1 + 2 * y) / x)) with (T * (kB * (1 + 2 * y) / f)) by (unfold x; field; repeat split; lra).
  replace eps with (T2 * (kB * (1 + 2 * y) / f)) by (unfold T2; field; repeat split; lra).
  apply Rmult_lt_compat_r; [|exact L2]. apply Rdiv_lt_0_compat; [apply Rmult_lt_0_compat; lra | exact Hf].
Qed.

(** The ideal chain has no longest length: it outgrows any. *)
Lemma ideal_cold : forall N l m f B, (0 < N)%Z -> 0 < l -> 0 < f ->
  exists T0, 0 < T0 /\ forall T, 0 < T -> T < T0 -> B < I_length_per_link (C_ideal_isotensional N l m T) f.
Proof.
  intros N l m f B HN Hl Hf. pose proof kB_pos as K. set (B1 := Rmax B 1). assert (H1 : 1 <= B1) by apply Rmax_r. assert (HB : B <= B1) by apply Rmax_l.
  assert (P : 0 < f * l * l) by (repeat apply Rmult_lt_0_compat; assumption).
  exists (f * l * l / (3 * kB * B1)). split; [apply Rdiv_lt_0_compat; [exact P | apply Rmult_lt_0_compat; lra]|]. intros T HT HTM.
  rewrite (proj1 (proj2 (PIdentIdeal.ideal_isotensional_dimensionless N l m T HN Hl HT f))).
  change (B < l * (f * l / (kB * T) / 3)). apply Rle_lt_trans with (1 := HB).
  apply Rmult_lt_reg_r with T; [exact HT|]. replace (l * (f * l / (kB * T) / 3) * T) with (B1 * (f * l * l / (3 * kB * B1))) by (field; repeat split; lra).
  apply Rmult_lt_compat_l; lra.
Qed.
