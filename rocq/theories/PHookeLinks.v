(** Anharmonic coefficients of the link potentials, the worm-like chain under weak
    pulls, and the extensible chains under strong pulls. *)
From Coq Require Import Reals ZArith List Lra Lia Psatz.
From Coquelicot Require Import Coquelicot.
From Verif Require Import Scalar MMath MConst MIdeal MFjc MEfjc MMorse MLennardJones MLogSquared MWlc.
From Verif Require Import SpecPartition SpecHooke PBase PHyp PLimits PNormalChain PHooke PHookeStrong PPartition2 PWorm PEfjcExact2.
Open Scope R_scope.

Local Notation fjc := (@fjc_isotensional.nondimensional_end_to_end_length_per_link R R_scalar).
Local Notation efjc := (@efjc_isotensional_asymptotic.nondimensional_end_to_end_length_per_link R R_scalar).
Local Notation efjc_alternative := (@efjc_isotensional_asymptotic_alternative.nondimensional_end_to_end_length_per_link R R_scalar).
Local Notation efjc_reduced := (@efjc_isotensional_asymptotic_reduced.nondimensional_end_to_end_length_per_link R R_scalar).

(** ** Derivatives at the rest length *)
Lemma third_derivative : forall (u u1 u2 : R -> R) u3,
  (forall s, 0 < s -> is_derive u s (u1 s)) -> (forall s, 0 < s -> is_derive u1 s (u2 s)) -> is_derive u2 1 u3 ->
  Derive_n u 2 1 = u2 1 /\ Derive_n u 3 1 = u3.
Proof.
  intros u u1 u2 u3 D1 D2 D3.
  assert (E2 : forall s, 0 < s -> Derive_n u 2 s = u2 s).
  { intros s Hs. cbn [Derive_n]. rewrite (Derive_ext_loc _ u1); [apply is_derive_unique, D2, Hs|].
    generalize (open_gt 0 s Hs). apply filter_imp. intros t Ht. apply is_derive_unique, D1, Ht. }
  split; [apply E2; lra|]. change (Derive (Derive_n u 2) 1 = u3). rewrite (Derive_ext_loc _ u2); [apply is_derive_unique, D3|].
  generalize (open_gt 0 1 Rlt_0_1). apply filter_imp. exact E2.
Qed.

Lemma harmonic_anharmonicity : forall kap, 0 < kap -> anharmonicity (harmonic_potential kap) = 1.
Proof.
  intros k Hk. unfold anharmonicity.
  destruct (third_derivative (harmonic_potential k) (fun s => k * (s - 1)) (fun _ => k) 0) as [-> ->].
  - intros s _. unfold harmonic_potential. auto_derive; [exact I | field].
  - intros s _. auto_derive; [exact I | ring].
  - apply (is_derive_const (V := R_NormedModule) k 1).
  - field. lra.
Qed.

Lemma morse_anharmonicity : forall kap eps, 0 < kap -> 0 < eps ->
  anharmonicity (morse_potential kap eps) = / (1 + 3 / 2 * sqrt (kap / (2 * eps))).
Proof.
  intros k e Hk He. unfold anharmonicity. assert (Q : 0 < k / (2 * e)) by (apply Rdiv_lt_0_compat; lra).
  unfold morse_potential. set (a := sqrt (k / (2 * e))). assert (Pa : 0 < a) by (apply sqrt_lt_R0, Q). clearbody a.
  destruct (third_derivative (fun s => e * (1 - exp (- a * (s - 1))) ^ 2)
    (fun s => 2 * e * a * (exp (- a * (s - 1)) - exp (- a * (s - 1)) ^ 2)) (fun s => 2 * e * a ^ 2 * (2 * exp (- a * (s - 1)) ^ 2 - exp (- a * (s - 1))))
    (- (6 * e * a ^ 3))) as [-> ->].
  - intros s _. auto_derive; [exact I | unfold Rminus; ring].
  - intros s _. auto_derive; [exact I | unfold Rminus; ring].
  - auto_derive; [exact I|]. replace (- a * (1 + - (1))) with 0 by ring. rewrite exp_0. ring.
  - replace (- a * (1 - 1)) with 0 by ring. rewrite exp_0. f_equal. field. lra.
Qed.

Lemma log_squared_anharmonicity : forall kap, 0 < kap -> anharmonicity (log_squared_potential kap) = 2 / 5.
Proof.
  intros k Hk. unfold anharmonicity.
  destruct (third_derivative (log_squared_potential k) (fun s => k * (ln s / s)) (fun s => k * ((1 - ln s) / s ^ 2)) (- (3 * k))) as [-> ->].
  - intros s Hs. unfold log_squared_potential. auto_derive; [exact Hs | field; lra].
  - intros s Hs. auto_derive; [split; [exact Hs | split; [lra | exact I]] | field; lra].
  - auto_derive; [split; [lra | split; [lra | exact I]] |]. rewrite ln_1. field.
  - rewrite ln_1. field. lra.
Qed.

Lemma lennard_jones_anharmonicity : forall kap, 0 < kap -> anharmonicity (lennard_jones_potential kap) = 2 / 23.
Proof.
  intros k Hk. unfold anharmonicity.
  destruct (third_derivative (lennard_jones_potential k) (fun s => k / 6 * (/ s ^ 7 - / s ^ 13)) (fun s => k / 6 * (13 * / s ^ 14 - 7 * / s ^ 8)) (- (21 * k))) as [-> ->].
  - intros s Hs. unfold lennard_jones_potential. assert (forall n, s ^ n <> 0) by (intro n; apply pow_nonzero; lra).
    auto_derive; [repeat split; repeat apply Rmult_integral_contrapositive_currified; try exact (H _); lra | field; lra].
  - intros s Hs. assert (forall n, s ^ n <> 0) by (intro n; apply pow_nonzero; lra).
    auto_derive; [repeat split; repeat apply Rmult_integral_contrapositive_currified; try exact (H _); lra | field; lra].
  - auto_derive; [repeat split; lra | field].
  - field. lra.
Qed.

(** ** The worm-like chain *)
Lemma worm_square : forall N l m T z a b n, mean_square (fun g => wlc_isometric.nondimensional_helmholtz_free_energy N l m z g T) a b n
  = mean_square (wbase z) a b n.
Proof.
  intros N l m T z a b n. unfold mean_square, midpoint_rule.
  set (c := exp ((IZR N - 1) * whinge z l m T)). assert (Pc : 0 < c) by apply exp_pos.
  assert (E : forall g, exp (- wlc_isometric.nondimensional_helmholtz_free_energy N l m z g T) = exp (- wbase z g) * c).
  { intro g. unfold c. rewrite <- exp_plus. f_equal. rewrite wlc_psi. ring. }
  set (h := (b - a) / INR n). set (x := fun i => a + (INR i + 1 / 2) * h).
  rewrite (sum_eq _ (fun i => (x i ^ 2 * (x i ^ 2 * exp (- wbase z (x i)))) * c)) by (intros; cbv beta; rewrite E; fold (x i); ring).
  rewrite <- scal_sum.
  rewrite (sum_eq (fun i => (a + (INR i + 1 / 2) * h) ^ 2 * exp (- wlc_isometric.nondimensional_helmholtz_free_energy N l m z (a + (INR i + 1 / 2) * h) T))
    (fun i => (x i ^ 2 * exp (- wbase z (x i))) * c)) by (intros; cbv beta; rewrite E; fold (x i); ring).
  rewrite <- scal_sum.
  fold (x 0%nat). unfold x.
  match goal with |- h * (c * ?p) / (h * (c * ?q)) = _ => set (P := p); set (Q := q) end.
  change (h * (c * P) / (h * (c * Q)) = h * P / (h * Q)). unfold Rdiv. rewrite !Rinv_mult.
  replace (h * (c * P) * (/ h * (/ c * / Q))) with (h * P * (/ h * / Q) * (c * / c)) by ring. rewrite Rinv_r by lra. ring.
Qed.

Lemma worm_hooke : forall N l m T z eta x, (0 < N)%Z -> 0 < eta ->
  wlc_isotensional.nondimensional_end_to_end_length N z eta = Some x ->
  let square := mean_square (fun g => wlc_isometric.nondimensional_helmholtz_free_energy N l m z g T) (1 / 10 ^ 6) 1 64 in
  let longest := last_node (1 / 10 ^ 6) 1 64 in
  IZR N ^ 2 * square * eta / 3 / cosh (longest * IZR N * eta) <= x <= IZR N ^ 2 * square * eta / 3 * cosh (longest * IZR N * eta)
  /\ x < IZR N * longest.
Proof.
  intros N l m T z eta x HN He E square longest. unfold square. rewrite worm_square. rewrite (wlc_length N z HN eta x He E). clear E square.
  assert (PN : 0 < IZR N) by (apply IZR_lt, HN). set (M := IZR N) in *.
  pose proof (mid_hooke (1 / 10 ^ 6) 1 64 ltac:(lra) ltac:(lra) ltac:(lia) (fun g => exp (- wbase z g)) ltac:(intros; apply exp_pos) (M * eta) ltac:(apply Rmult_lt_0_compat; lra)) as B.
  set (f := midpoint_rule (fun s => s * exp (- wbase z s) * xch (M * eta * s)) (1 / 10 ^ 6) 1 64 / (M * eta * midpoint_rule (fun s => s * exp (- wbase z s) * sinh (M * eta * s)) (1 / 10 ^ 6) 1 64)).
  change (mean_square (wbase z) (1 / 10 ^ 6) 1 64 * (M * eta) / 3 / cosh (longest * (M * eta)) <= f
    <= mean_square (wbase z) (1 / 10 ^ 6) 1 64 * (M * eta) / 3 * cosh (longest * (M * eta)) /\ f < longest) in B.
  assert (F : wint (wnum N z eta) / wint (wden N z eta) = M * f).
  { unfold f, wint. replace (ZERO : R) with (1 / 10 ^ 6) by (rewrite Z_eq; field). change (ONE : R) with 1. change POINTS with (Z.of_nat 64). rewrite !integrate_midpoint by lia.
    rewrite (mid_same (1 / 10 ^ 6) 1 64 ltac:(lra) ltac:(lia) (wnum N z eta) (fun s => / eta ^ 2 * (s * exp (- wbase z s) * xch (M * eta * s)))).
    2:{ intros s _. unfold wnum, xch. fold M. field. lra. }
    rewrite (mid_same (1 / 10 ^ 6) 1 64 ltac:(lra) ltac:(lia) (wden N z eta) (fun s => / eta * (s * exp (- wbase z s) * sinh (M * eta * s)))).
    2:{ intros s _. unfold wden. fold M. field. lra. }
    rewrite !mid_scal. assert (P : 0 < midpoint_rule (fun s => s * exp (- wbase z s) * sinh (M * eta * s)) (1 / 10 ^ 6) 1 64).
    { apply mid_pos; [lra | lia |]. intros s Hs. apply Rmult_lt_0_compat; [apply Rmult_lt_0_compat; [lra | apply exp_pos]|]. apply sinh_pos. repeat apply Rmult_lt_0_compat; lra. }
    field. repeat split; lra. }
  rewrite F. replace (longest * M * eta) with (longest * (M * eta)) by ring. set (S := mean_square (wbase z) (1 / 10 ^ 6) 1 64) in *.
  clearbody f S.
  destruct B as ((B1 & B2) & B3). pose proof (cosh_pos (longest * (M * eta))) as PC. split; [split|].
  - replace (M ^ 2 * S * eta / 3 / cosh (longest * (M * eta))) with (M * (S * (M * eta) / 3 / cosh (longest * (M * eta)))) by (field; lra). apply Rmult_le_compat_l; lra.
  - replace (M ^ 2 * S * eta / 3 * cosh (longest * (M * eta))) with (M * (S * (M * eta) / 3 * cosh (longest * (M * eta)))) by field. apply Rmult_le_compat_l; lra.
  - apply Rmult_lt_compat_l; lra.
Qed.

(** ** Extensible chains under strong pulls *)
Lemma efjc_strong : forall k, 0 < k -> is_lim (fun x => efjc k x - (1 + x / k)) p_infty 0.
Proof.
  intros k Hk. destruct fjc_saturates as [B L]. apply (is_lim_le_le_loc (fun x => fjc x - 1) (fun _ => 0)).
  - exists 0. intros x Hx. rewrite full_eq. pose proof (PInverse.tanh_bounds x Hx) as T. assert (X : 0 < x / k) by (apply Rdiv_lt_0_compat; assumption).
    pose proof (B x Hx) as F. replace (tanh x - 1 / tanh x + 1 / x) with (tanh x - fjc x) by (rewrite fjc_eq; ring).
    pose proof (PLimits.fjc_bounds x Hx) as FB. set (q := x / k) in *.
    pose proof (PLimits.fjc_tanh x Hx) as TF.
    replace (fjc x + q * (1 + (tanh x - fjc x) / (tanh x + q)) - (1 + q)) with (fjc x - 1 + q / (tanh x + q) * (tanh x - fjc x)) by (field; lra).
    assert (0 < q / (tanh x + q) < 1).
    { split; [apply Rdiv_lt_0_compat; lra|]. apply Rmult_lt_reg_r with (tanh x + q); [lra|]. unfold Rdiv. rewrite Rmult_assoc, Rinv_l; lra. }
    nra.
  - replace (Finite 0) with (Rbar_minus 1 1) by (cbn; f_equal; ring). apply is_lim_minus'; [exact L | apply is_lim_const].
  - apply is_lim_const.
Qed.

Lemma efjc_reduced_strong : forall k, 0 < k -> is_lim (fun x => efjc_reduced k x - (1 + x / k)) p_infty 0.
Proof.
  intros k Hk. destruct fjc_saturates as [_ L]. apply (is_lim_ext (fun x => fjc x - 1)).
  - intro x. rewrite reduced_eq. ring.
  - replace (Finite 0) with (Rbar_minus 1 1) by (cbn; f_equal; ring). apply is_lim_minus'; [exact L | apply is_lim_const].
Qed.

Lemma efjc_alternative_strong : forall k, 0 < k -> is_lim (fun x => efjc_alternative k x - (1 + x / k)) p_infty (1 / k).
Proof.
  intros k Hk. destruct fjc_saturates as [_ L].
  assert (S : is_lim (fun x => x / sinh x ^ 2) p_infty 0).
  { apply (is_lim_le_le_loc (fun _ => 0) (fun x => 1 / x)); [|apply is_lim_const | apply PNormal.inv_lim].
    exists 0. intros x Hx. pose proof (sinh_ge x ltac:(lra)) as G. assert (P : x ^ 2 <= sinh x ^ 2) by (apply pow_incr; lra).
    assert (0 < x ^ 2) by (apply pow_lt, Hx). split; [left; apply Rdiv_lt_0_compat; lra|].
    apply Rle_trans with (x / x ^ 2); [|right; field; lra]. apply Rmult_le_compat_l; [lra|]. apply Rinv_le_contravar; lra. }
  apply (is_lim_ext_loc (fun x => fjc x - 1 + / k * (fjc x + 1 / x - x / sinh x ^ 2))).
  - exists 0. intros x Hx. rewrite alternative_eq. replace (1 / tanh x) with (fjc x + 1 / x) by (rewrite fjc_eq; ring).
    set (q := x / sinh x ^ 2). clearbody q. field. lra.
  - replace (Finite (1 / k)) with (Finite (1 - 1 + / k * (1 + 0 - 0))) by (f_equal; field; lra).
    apply is_lim_plus'; [apply is_lim_minus'; [exact L | apply is_lim_const]|].
    apply (is_lim_scal_l (fun x => fjc x + 1 / x - x / sinh x ^ 2) (/ k) p_infty (1 + 0 - 0)).
    apply is_lim_minus'; [apply is_lim_plus'; [exact L | apply PNormal.inv_lim] | exact S].
Qed.

(** The exact expression for the extensible chain has no slope at zero force. *)
Lemma efjc_exact_weak : forall k slope, 1500 <= k -> ~ weak_slope (efjc_isotensional.nondimensional_end_to_end_length_per_link k) slope.
Proof.
  intros k sl Hk W. pose proof (proj1 (filterlim_locally _ _) W (mkposreal 1 Rlt_0_1)) as [d Hd].
  pose proof (cond_pos d) as Pd. pose proof (Rabs_pos sl) as Ps. set (b := 10 * (Rabs sl + 1)).
  set (x := Rmin (d / 2) (/ (4 + b))). assert (X : 0 < x) by (apply Rmin_glb_lt; [lra | apply Rinv_0_lt_compat; unfold b; lra]).
  assert (X2 : x <= / (4 + b)) by apply Rmin_r. assert (X1 : x <= d / 2) by apply Rmin_l.
  assert (X3 : x * (4 + b) <= 1). { apply Rle_trans with (/ (4 + b) * (4 + b)); [apply Rmult_le_compat_r; [unfold b; lra | exact X2] | right; field; unfold b; lra]. }
  assert (X4 : x <= 1 / 4) by (unfold b in *; nra).
  pose proof (stiff_extension k x Hk ltac:(lra)) as F.
  assert (B : ball 0 d x). { change (Rabs (x - 0) < d). rewrite Rminus_0_r, Rabs_pos_eq; lra. }
  specialize (Hd x B X). change (Rabs (efjc_isotensional.nondimensional_end_to_end_length_per_link k x / x - sl) < 1) in Hd.
  set (f := efjc_isotensional.nondimensional_end_to_end_length_per_link k x) in *. clearbody f.
  assert (G : f / x <= - (1 / (10 * x ^ 2))).
  { replace (- (1 / (10 * x ^ 2))) with (- (1 / (10 * x)) / x) by (field; lra). apply Rmult_le_compat_r; [left; apply Rinv_0_lt_compat, X | exact F]. }
  assert (H : Rabs sl + 1 <= 1 / (10 * x ^ 2)).
  { apply Rmult_le_reg_r with (10 * x ^ 2); [assert (0 < x ^ 2) by (apply pow_lt, X); lra|]. replace (1 / (10 * x ^ 2) * (10 * x ^ 2)) with 1 by (field; lra).
    replace ((Rabs sl + 1) * (10 * x ^ 2)) with (x * (x * b)) by (unfold b; ring). assert (x * b <= 1) by nra. assert (0 < x * b) by (apply Rmult_lt_0_compat; [exact X | unfold b; lra]). nra. }
  apply Rabs_lt_between in Hd. pose proof (Rle_abs sl). pose proof (Rle_abs (- sl)). rewrite Rabs_Ropp in *. lra.
Qed.

Lemma ideal_weak : forall x : R, ideal_isotensional.nondimensional_end_to_end_length_per_link x = x / 3.
Proof. intro x. reflexivity. Qed.
