(** The isometric Legendre solvers invert the isotensional extensions. *)
From Coq Require Import Reals ZArith List Lra Lia Psatz FunctionalExtensionality.
From Coquelicot Require Import Coquelicot.
From Verif Require Import Scalar MMath MConst MSwfjc MEfjc MMorse MLennardJones MLogSquared.
From Verif Require Import SpecThermo SpecLinks SpecNewton SpecLangevin SpecInverse PBase PHyp PNewton PConj.
From Verif Require PLangevin.
Open Scope R_scope.

Lemma estimate_iterate : forall F fp d y g k, estimate F fp d y g k = newton_iterate y F (fun x => d * fp x) k g.
Proof.
  induction k as [| k IH]; [reflexivity |].
  cbn [estimate]. rewrite IH. unfold newton_iterate. rewrite iter_succ. reflexivity.
Qed.

Lemma inverted_plain : forall F fp y g, inverted F fp 1 y g (math.inverse_newton_raphson y F fp g (sdec 1 6) 100).
Proof.
  intros F fp y g. destruct (newton_result y F (fun x => 1 * fp x) g (sdec 1 6) 100) as (k & E & L & _ & _ & R).
  exists k. split; [| split; [lia |]].
  - rewrite estimate_iterate, <- E. f_equal. extensionality x. rewrite Rmult_1_l. reflexivity.
  - intro Hk. specialize (R ltac:(lia)). destruct k as [| j].
    + exfalso. change (Rltb (1 / 1000000) 1 = false) in R. unfold Rltb in R. destruct (Rlt_dec (1 / 1000000) 1) as [_ | n]; [discriminate |]. lra.
    + exists j. split; [reflexivity |]. rewrite estimate_iterate.
      change (Rltb (1 / 1000000) (Rabs ((y - F (newton_iterate y F (fun x => 1 * fp x) j g)) / y)) = false) in R.
      unfold Rltb in R. destruct Rlt_dec as [_ | n] in R; [discriminate | lra].
Qed.

Lemma inverted_powered : forall F fp y g p, (1 <= p)%Z ->
  inverted F fp (IZR p) y g (math.inverse_newton_raphson_powered y F fp g (sdec 1 6) 100 p).
Proof.
  intros F fp y g p Hp. rewrite powered_damped by exact Hp.
  destruct (inverted_plain F (fun x => IZR p * fp x) y g) as (k & E & L & R).
  assert (S : forall j, estimate F (fun x => IZR p * fp x) 1 y g j = estimate F fp (IZR p) y g j).
  { induction j as [| j IH]; [reflexivity |]. cbn [estimate]. rewrite IH, Rmult_1_l. reflexivity. }
  exists k. rewrite <- S. split; [exact E | split; [exact L |]]. intro Hk. destruct (R Hk) as (j & Ej & Rj).
  exists j. rewrite <- S. split; assumption.
Qed.

(** ** Derivatives in terms of the hyperbolic tangent *)

Lemma is_derive_tanh : forall x, is_derive tanh x (1 - tanh x ^ 2).
Proof.
  intro x. unfold tanh. pose proof (PHyp.cosh_pos x) as C.
  apply (is_derive_ext (fun y => sinh y / cosh y)); [reflexivity |].
  evar_last; [apply is_derive_div; [apply PHyp.is_derive_sinh | apply PHyp.is_derive_cosh | lra] |].
  field. lra.
Qed.
Lemma inv_sinh2 : forall x, x <> 0 -> / (sinh x ^ 2) = / (tanh x ^ 2) - 1.
Proof.
  intros x Hx. unfold tanh. pose proof (PHyp.cosh_pos x). pose proof (sinh_neq_0 x Hx). pose proof (cosh2 x) as C2.
  replace (/ (sinh x / cosh x) ^ 2) with (cosh x ^ 2 / sinh x ^ 2) by (field; lra). rewrite C2. field. assumption.
Qed.
Lemma inv_sinh4 : forall x, x <> 0 -> / (sinh x ^ 4) = (/ (tanh x ^ 2) - 1) ^ 2.
Proof. intros x Hx. rewrite <- inv_sinh2 by exact Hx. pose proof (sinh_neq_0 x Hx). field. assumption. Qed.

Lemma tanh_bounds : forall x, 0 < x -> 0 < tanh x < 1.
Proof.
  intros x Hx. unfold tanh. pose proof (PHyp.sinh_pos x Hx). pose proof (PHyp.cosh_pos x).
  split; [apply Rdiv_lt_0_compat; assumption |]. apply Rmult_lt_reg_r with (cosh x); [assumption |].
  unfold Rdiv. rewrite Rmult_assoc, Rinv_l by lra. unfold sinh, cosh in *. pose proof (exp_pos (- x)). lra.
Qed.

Lemma Derive_tanh : forall x, Derive (fun y => tanh y) x = 1 - tanh x ^ 2.
Proof. intro x. apply is_derive_unique, is_derive_tanh. Qed.
Lemma ex_derive_tanh : forall x, ex_derive (fun y => tanh y) x.
Proof. intro x. eexists. apply is_derive_tanh. Qed.

Ltac tanh_derive x :=
  auto_derive; [repeat split; try exact I; try apply ex_derive_tanh |
    rewrite ?Derive_tanh; unfold Rdiv; rewrite ?(inv_sinh2 x), ?(inv_sinh4 x) by lra;
    set (t := tanh x) in *; clearbody t].

Lemma lang_derive : forall x, 0 < x -> is_derive (fun x => 1 / tanh x - 1 / x) x (1 / x ^ 2 - 1 / sinh x ^ 2).
Proof.
  intros x Hx. pose proof (tanh_bounds x Hx) as B. tanh_derive x; try lra. field. lra.
Qed.
Lemma corr_derive : forall kap c x, 0 < kap -> 0 < c -> 0 < x ->
  is_derive (fun x => x / kap * ((tanh x - 1 / tanh x + 1 / x) / (c * tanh x + x / kap))) x
    (((2 * c * kap * x / tanh x - 2 * c * kap + 2 * x ^ 2 - 1) / sinh x ^ 2 + x ^ 2 / sinh x ^ 4 - 1) / (c * kap + x / tanh x) ^ 2).
Proof.
  intros kap c x Hk Hc Hx. pose proof (tanh_bounds x Hx) as B.
  assert (0 < c * tanh x) by (apply Rmult_lt_0_compat; lra).
  assert (0 < x / kap) by (apply Rdiv_lt_0_compat; assumption).
  assert (0 < c * kap) by (apply Rmult_lt_0_compat; lra).
  assert (0 < c * kap * tanh x) by (apply Rmult_lt_0_compat; lra).
  tanh_derive x; try lra. field. repeat split; lra.
Qed.
Lemma efjc_full_derive : forall kap x, 0 < kap -> 0 < x ->
  is_derive (fun x => 1 / tanh x - 1 / x + x / kap * (1 + (tanh x - 1 / tanh x + 1 / x) / (tanh x + x / kap))) x
  (1 / x ^ 2 - 1 / sinh x ^ 2 + (kap * x ^ 2 / sinh x ^ 4 - (2 * kap + 1) * (kap - x ^ 2) / sinh x ^ 2 +
   2 * kap * x / tanh x * (kap / sinh x ^ 2 + 1) + (kap - 1) * kap + x ^ 2) / (kap + x / tanh x) ^ 2 / kap).
Proof.
  intros kap x Hk Hx. pose proof (tanh_bounds x Hx) as B.
  assert (0 < x / kap) by (apply Rdiv_lt_0_compat; assumption).
  assert (0 < kap * tanh x) by (apply Rmult_lt_0_compat; lra).
  tanh_derive x; try lra. field. repeat split; lra.
Qed.
Lemma efjc_alternative_derive : forall kap x, 0 < kap -> 0 < x ->
  is_derive (fun x => 1 / tanh x - 1 / x + (x + 1 / tanh x - x / sinh x ^ 2) / kap) x
  (1 / x ^ 2 - 1 / sinh x ^ 2 + (1 + 2 * (x / tanh x - 1) / sinh x ^ 2) / kap).
Proof.
  intros kap x Hk Hx. pose proof (tanh_bounds x Hx) as B.
  apply (is_derive_ext_loc (fun x => 1 / tanh x - 1 / x + (x + 1 / tanh x - x * (/ tanh x ^ 2 - 1)) / kap)).
  { exists (mkposreal x Hx). intros z Hz. apply Rabs_def2 in Hz. unfold minus, plus, opp in Hz; simpl in Hz.
    unfold Rdiv. rewrite inv_sinh2 by lra. reflexivity. }
  tanh_derive x; try lra. 2: field; lra.
  all: try (apply Rmult_integral_contrapositive_currified; lra). all: try nra.
Qed.

(** ** Elastic freely jointed chain *)

Local Notation guess_of y kap := (if Rlt_dec y 1 then math.inverse_langevin y else (kap * (y - 1))%R).

Lemma efjc_full : forall kap y, 0 < kap ->
  inverted_by_newton (efjc_isotensional_asymptotic.nondimensional_end_to_end_length_per_link kap) (fun x => 0 < x) 1 y
    (guess_of y kap) (efjc_isometric_asymptotic_legendre.nondimensional_force kap y).
Proof.
  intros kap y Hk. eexists. split; cycle 1.
  - unfold efjc_isometric_asymptotic_legendre.nondimensional_force. cbv zeta.
    change (y <? sdec 1 0)%S with (Rltb y 1). unfold Rltb. destruct (Rlt_dec y 1); apply inverted_plain.
  - intros x Hx. exact (efjc_full_derive kap x Hk Hx).
Qed.
Lemma efjc_alternative : forall kap y, 0 < kap ->
  inverted_by_newton (efjc_isotensional_asymptotic_alternative.nondimensional_end_to_end_length_per_link kap) (fun x => 0 < x) 1 y
    (guess_of y kap) (efjc_isometric_asymptotic_alternative_legendre.nondimensional_force kap y).
Proof.
  intros kap y Hk. eexists. split; cycle 1.
  - unfold efjc_isometric_asymptotic_alternative_legendre.nondimensional_force. cbv zeta.
    change (y <? sdec 1 0)%S with (Rltb y 1). unfold Rltb. destruct (Rlt_dec y 1); apply inverted_plain.
  - intros x Hx. exact (efjc_alternative_derive kap x Hk Hx).
Qed.
Lemma efjc_reduced : forall kap y, 0 < kap ->
  inverted_by_newton (efjc_isotensional_asymptotic_reduced.nondimensional_end_to_end_length_per_link kap) (fun x => 0 < x) 1 y
    (guess_of y kap) (efjc_isometric_asymptotic_reduced_legendre.nondimensional_force kap y).
Proof.
  intros kap y Hk. eexists. split; cycle 1.
  - unfold efjc_isometric_asymptotic_reduced_legendre.nondimensional_force. cbv zeta.
    change (y <? sdec 1 0)%S with (Rltb y 1). unfold Rltb. destruct (Rlt_dec y 1); apply inverted_plain.
  - intros x Hx. apply (derive_add (fun x => 1 / tanh x - 1 / x) (fun x => x / kap) x (1 / x ^ 2 - 1 / sinh x ^ 2) (1 / kap)).
    + exact (lang_derive x Hx).
    + auto_derive; [exact I | field; lra].
    + reflexivity.
Qed.

(** ** Morse *)

Lemma stretch_derive : forall a m x, 0 < a -> 0 < m -> x < m ->
  is_derive (fun x => ln (2 / (1 + sqrt (1 - x / m))) / a) x (5 / 10 / a / (m * (sqrt (1 - x / m) + 1) - x)).
Proof.
  intros a m x Ha Hm Hx.
  assert (P : 0 < 1 - x / m).
  { assert (x / m < 1); [|lra]. apply Rmult_lt_reg_r with m; [lra|]. field_simplify; lra. }
  pose proof (sqrt_lt_R0 _ P) as S.
  assert (SS : sqrt (1 - x / m) * sqrt (1 - x / m) = 1 - x / m) by (apply sqrt_sqrt; lra).
  auto_derive.
  - change (1 + - (x * / m)) with (1 - x / m).
    repeat split; try lra.
    apply Rmult_lt_0_compat; [lra|apply Rinv_0_lt_compat; lra].
  - change (1 + - (x * / m)) with (1 - x / m). set (s := sqrt (1 - x / m)) in *.
    assert (X : x = m * (1 - s * s)) by (rewrite SS; field; lra).
    clearbody s. rewrite X.
    replace (m * (s + 1) - m * (1 - s * s)) with (m * s * (s + 1)) by ring.
    field. repeat split; try lra.
    all: apply Rgt_not_eq; repeat apply Rmult_lt_0_compat; lra.
Qed.

Lemma powered_case : forall F f fp y g, (forall x, F x = f x) ->
  inverted F fp 4 y g (math.inverse_newton_raphson_powered y f fp g (sdec 1 6) 100 4).
Proof.
  intros F f fp y g E. replace f with F by (extensionality x; apply E). apply (inverted_powered F fp y g 4). lia.
Qed.
Lemma guess_case : forall y m : R,
  capped_guess y m = (let guess := if (y <? sdec 1 0)%S then math.inverse_langevin y else (sdec 95 2 * m)%S in
    if (m <? guess)%S then (sdec 95 2 * m)%S else guess).
Proof.
  intros y m. unfold capped_guess. cbv zeta. change (y <? sdec 1 0)%S with (Rltb y 1). unfold Rltb at 1.
  destruct (Rlt_dec y 1);
  (match goal with |- _ = (if (m <? ?g)%S then _ else _) => change (m <? g)%S with (Rltb m g) end); unfold Rltb;
  (match goal with |- context[Rlt_dec m ?g] => change (sdec 95 2 * m)%S with (95 / 100 * m); destruct (Rlt_dec m g) end);
  first [reflexivity | destruct Rlt_dec; first [reflexivity | contradiction]].
Qed.

Lemma tanh_c : forall a x, 1 / (1 + 15 / 10 * a) * tanh x = tanh x / (1 + 15 / 10 * a).
Proof. intros. unfold Rdiv. ring. Qed.

Lemma morse_full : forall kap eps y, 0 < kap -> 0 < eps -> let m := sqrt (eps * kap / 8) in
  inverted_by_newton (morse_isotensional_asymptotic.nondimensional_end_to_end_length_per_link kap eps) (fun x => 0 < x < m) 4 y
    (capped_guess y m) (morse_isometric_asymptotic_legendre.nondimensional_force kap eps y).
Proof.
  intros kap eps y Hk He m.
  destruct (morse_constants kap eps Hk He) as (A & B & _ & _).
  eexists. split; cycle 1.
  - rewrite (guess_case y m).
    apply powered_case. intro x. unfold morse_isotensional_asymptotic.nondimensional_end_to_end_length_per_link. cbv zeta.
    unR. rewrite tanh_c. reflexivity.
  - intros x Hx. set (a := sqrt (kap / eps / 2)) in *. 
    assert (Hc : 0 < 1 / (1 + 15 / 10 * a)) by (apply Rdiv_lt_0_compat; lra).
    apply (is_derive_ext (fun x => (1 / tanh x - 1 / x + x / kap * ((tanh x - 1 / tanh x + 1 / x) / (1 / (1 + 15 / 10 * a) * tanh x + x / kap)))
       + ln (2 / (1 + sqrt (1 - x / m))) / a)).
    { intro z. unfold morse_isotensional_asymptotic.nondimensional_end_to_end_length_per_link. cbv zeta. unR. fold a. fold m. rewrite tanh_c. reflexivity. }
    apply (derive_add _ _ _ _ _ _ (derive_add _ _ _ _ _ _ (lang_derive x (proj1 Hx)) (corr_derive kap (1 / (1 + 15 / 10 * a)) x Hk Hc (proj1 Hx)) eq_refl)
      (stretch_derive a m x A B (proj2 Hx))).
    reflexivity.
Qed.
Lemma morse_reduced : forall kap eps y, 0 < kap -> 0 < eps -> let m := sqrt (eps * kap / 8) in
  inverted_by_newton (morse_isotensional_asymptotic_reduced.nondimensional_end_to_end_length_per_link kap eps) (fun x => 0 < x < m) 4 y
    (capped_guess y m) (morse_isometric_asymptotic_reduced_legendre.nondimensional_force kap eps y).
Proof.
  intros kap eps y Hk He m.
  destruct (morse_constants kap eps Hk He) as (A & B & _ & S).
  assert (Fe : forall x, morse_isotensional_asymptotic_reduced.nondimensional_end_to_end_length_per_link kap eps x =
    1 / tanh x - 1 / x + ln (2 / (1 + sqrt (1 - x / m))) / sqrt (kap / eps / 2)).
  { intro x. unfold morse_isotensional_asymptotic_reduced.nondimensional_end_to_end_length_per_link.
    change (1 / tanh x - 1 / x + sqrt (2 * eps / kap) * ln (2 / (1 + sqrt (1 - x / m))) = 1 / tanh x - 1 / x + ln (2 / (1 + sqrt (1 - x / m))) / sqrt (kap / eps / 2)).
    rewrite S. unfold Rdiv. ring. }
  eexists. split; cycle 1.
  - rewrite (guess_case y m).
    apply powered_case. intro x. rewrite Fe. reflexivity.
  - intros x Hx. set (a := sqrt (kap / eps / 2)) in *. 
    apply (is_derive_ext (fun x => (1 / tanh x - 1 / x) + ln (2 / (1 + sqrt (1 - x / m))) / a)); [intro z; symmetry; apply Fe |].
    apply (derive_add _ _ _ _ _ _ (lang_derive x (proj1 Hx)) (stretch_derive a m x A B (proj2 Hx))).
    reflexivity.
Qed.

(** ** Lennard-Jones and log-squared: the slope is a difference quotient, or uses the Lambert function *)

Lemma sixth_root : forall lam, 0 < lam -> lam ^ 6 = 13 / 7 -> Rpowf (13 / 7) (1 / 6) = lam.
Proof.
  intros lam H E. rewrite <- E. unfold Rpowf. destruct (Rlt_dec 0 (lam ^ 6)) as [p | n]; [| exfalso; apply n; apply pow_lt; exact H].
  unfold Rpower. rewrite ln_pow by exact H. replace (1 / 6 * (INR 6 * ln lam)) with (ln lam) by (simpl INR; field). apply exp_ln, H.
Qed.
Lemma lj_cap : forall kap lam, 0 < lam -> lam ^ 6 = 13 / 7 ->
  kap / 6 * (powerRZ (Rpowf (13 / 7) (1 / 6)) (-7) - powerRZ (Rpowf (13 / 7) (1 / 6)) (-13)) = lj_bond_force kap lam.
Proof. intros kap lam H E. rewrite (sixth_root lam H E). reflexivity. Qed.

Lemma lennard_jones_full : forall kap y lam, 0 < kap -> 0 < lam -> lam ^ 6 = 13 / 7 ->
  let F := lennard_jones_isotensional_asymptotic.nondimensional_end_to_end_length_per_link kap in
  let stretch := lennard_jones_thermodynamics.nondimensional_link_stretch kap in
  exists g, (forall x, 0 < x -> is_derive (fun z => F z - stretch z) x (g x)) /\
  inverted F (fun x => g x + central_difference stretch x) 4 y (capped_guess y (lj_bond_force kap lam))
    (lennard_jones_isometric_asymptotic_legendre.nondimensional_force kap y).
Proof.
  intros kap y lam Hk Hl El F stretch. eexists. split; cycle 1.
  - rewrite <- (lj_cap kap lam Hl El). rewrite guess_case. apply powered_case. reflexivity.
  - intros x Hx.
    apply (is_derive_ext (fun x => (1 / tanh x - 1 / x + x / kap * ((tanh x - 1 / tanh x + 1 / x) / (2 / 23 * tanh x + x / kap))) + - 1)).
    { intro z. change (1 / tanh z - 1 / z + z / kap * ((tanh z - 1 / tanh z + 1 / z) / (2 / 23 * tanh z + z / kap)) + - 1 =
       1 / tanh z - 1 / z + z / kap * ((tanh z - 1 / tanh z + 1 / z) / (2 / 23 * tanh z + z / kap)) + stretch z - 1 - stretch z). ring. }
    apply (derive_add _ _ _ _ _ _ (derive_add _ _ _ _ _ _ (lang_derive x Hx) (corr_derive kap (2 / 23) x Hk ltac:(lra) Hx) eq_refl) (is_derive_const (-1) x)).
    apply Rplus_0_r.
Qed.
Lemma lennard_jones_reduced : forall kap y lam, 0 < lam -> lam ^ 6 = 13 / 7 ->
  let F := lennard_jones_isotensional_asymptotic_reduced.nondimensional_end_to_end_length_per_link kap in
  let stretch := lennard_jones_thermodynamics.nondimensional_link_stretch kap in
  exists g, (forall x, 0 < x -> is_derive (fun z => F z - stretch z) x (g x)) /\
  inverted F (fun x => g x + central_difference stretch x) 4 y (capped_guess y (lj_bond_force kap lam))
    (lennard_jones_isometric_asymptotic_reduced_legendre.nondimensional_force kap y).
Proof.
  intros kap y lam Hl El F stretch. eexists. split; cycle 1.
  - rewrite <- (lj_cap kap lam Hl El). rewrite guess_case. apply powered_case. reflexivity.
  - intros x Hx.
    apply (is_derive_ext (fun x => (1 / tanh x - 1 / x) + - 1)).
    { intro z. change (1 / tanh z - 1 / z + - 1 = 1 / tanh z - 1 / z + stretch z - 1 - stretch z). ring. }
    apply (derive_add _ _ _ _ _ _ (lang_derive x Hx) (is_derive_const (-1) x)).
    apply Rplus_0_r.
Qed.

(** The slope of the stretch 1 / e^W of a log-squared link, W e^W = -x/kap. *)
Lemma w_slope : forall (kap : R) (W : R -> R) (x d : R), 0 < kap -> 0 < x -> locally x (fun z => W z * exp (W z) = - z / kap) -> -1 < W x -> is_derive W x d ->
  is_derive (fun z => 1 / exp (W z)) x (log_squared_slope kap W x).
Proof.
  intros kap W x d Hk Hx Hl HW HD.
  assert (HDu : Derive (fun z => W z) x = d) by exact (is_derive_unique _ _ _ HD).
  assert (D1 : is_derive (fun z => W z * exp (W z)) x (d * exp (W x) + W x * (d * exp (W x)))).
  { auto_derive; [split; [eexists; apply HD | split; [eexists; apply HD | exact I]] |]. rewrite HDu. ring. }
  assert (D2 : is_derive (fun z => W z * exp (W z)) x (- / kap)).
  { apply (is_derive_ext_loc (fun z => - z / kap)). { revert Hl. apply filter_imp. intros z Hz. symmetry. exact Hz. }
    auto_derive; [exact I | field; lra]. }
  pose proof (is_derive_unique _ _ _ D1) as U1. rewrite (is_derive_unique _ _ _ D2) in U1.
  pose proof (exp_pos (W x)) as P.
  assert (Ed : d = - / kap / (exp (W x) * (1 + W x))).
  { match goal with |- ?a = ?b => change (@eq R a b) end. rewrite U1. field. lra. }
  pose proof (locally_singleton _ _ Hl) as EW. cbv beta in EW.
  assert (Hw0 : W x <> 0). { intro Z0. rewrite Z0, Rmult_0_l in EW. apply (Rmult_eq_compat_r kap) in EW. field_simplify in EW; lra. }
  unfold log_squared_slope.
  replace (kap / x ^ 2 * W x ^ 2 / (W x + 1)) with (/ (kap * exp (W x) ^ 2 * (1 + W x))).
  2:{ assert (X : x = - kap * (W x * exp (W x))) by (rewrite EW; field; lra). set (w := W x) in *. set (e := exp w) in *. rewrite X. field. repeat split; lra. }
  evar_last. { auto_derive; [split; [eexists; apply HD |]; split; [lra | exact I] | reflexivity]. }
  rewrite HDu, Ed. field. lra.
Qed.
Lemma log_squared_full : forall kap y, 0 < kap ->
  let F := log_squared_isotensional_asymptotic.nondimensional_end_to_end_length_per_link kap in
  let W := fun x => math.lambert_w (- x / kap) in
  exists g, (forall x, 0 < x -> is_derive (fun z => F z - 1 / exp (W z)) x (g x)) /\
  inverted F (fun x => g x + log_squared_slope kap W x) 4 y
    (capped_guess y (kap / exp 1)) (log_squared_isometric_asymptotic_legendre.nondimensional_force kap y).
Proof.
  intros kap y Hk F W. eexists. split; cycle 1.
  - rewrite guess_case. apply powered_case. reflexivity.
  - intros x Hx.
    apply (is_derive_ext (fun x => (1 / tanh x - 1 / x + x / kap * ((tanh x - 1 / tanh x + 1 / x) / (4 / 10 * tanh x + x / kap))) + - 1)).
    { intro z. change (1 / tanh z - 1 / z + z / kap * ((tanh z - 1 / tanh z + 1 / z) / (4 / 10 * tanh z + z / kap)) + - 1 =
       1 / tanh z - 1 / z + z / kap * ((tanh z - 1 / tanh z + 1 / z) / (4 / 10 * tanh z + z / kap)) + 1 / exp (W z) - 1 - 1 / exp (W z)). ring. }
    apply (derive_add _ _ _ _ _ _ (derive_add _ _ _ _ _ _ (lang_derive x Hx) (corr_derive kap (4 / 10) x Hk ltac:(lra) Hx) eq_refl) (is_derive_const (-1) x)).
    apply Rplus_0_r.
Qed.
Lemma log_squared_reduced : forall kap y,
  let F := log_squared_isotensional_asymptotic_reduced.nondimensional_end_to_end_length_per_link kap in
  let W := fun x => math.lambert_w (- x / kap) in
  exists g, (forall x, 0 < x -> is_derive (fun z => F z - 1 / exp (W z)) x (g x)) /\
  inverted F (fun x => g x + log_squared_slope kap W x) 4 y
    (capped_guess y (kap / exp 1)) (log_squared_isometric_asymptotic_reduced_legendre.nondimensional_force kap y).
Proof.
  intros kap y F W. eexists. split; cycle 1.
  - rewrite guess_case. apply powered_case. reflexivity.
  - intros x Hx.
    apply (is_derive_ext (fun x => (1 / tanh x - 1 / x) + - 1)).
    { intro z. change (1 / tanh z - 1 / z + - 1 = 1 / tanh z - 1 / z + 1 / exp (W z) - 1 - 1 / exp (W z)). ring. }
    apply (derive_add _ _ _ _ _ _ (lang_derive x Hx) (is_derive_const (-1) x)).
    apply Rplus_0_r.
Qed.

(** ** The inner solver of the Lennard-Jones stretch *)

Lemma lj_stretch_solver : forall kap x,
  inverted_by_newton (fun lam => / lam ^ 7 - / lam ^ 13) (fun lam => 0 < lam) 1 (6 * x / kap) 1
    (lennard_jones_thermodynamics.nondimensional_link_stretch kap x).
Proof.
  intros kap x. exists (fun lam => 13 * / lam ^ 14 - 7 * / lam ^ 8). split.
  - intros lam H. auto_derive; [split; [apply (pow_nonzero lam 7); lra |]; split; [apply (pow_nonzero lam 13); lra | exact I] |]. field. lra.
  - apply (inverted_plain (fun lam => / lam ^ 7 - / lam ^ 13) (fun lam => 13 * / lam ^ 14 - 7 * / lam ^ 8)).
Qed.
Lemma langevin_callback : forall x, 0 < x -> is_derive math.langevin_f x (math.langevin_fp x).
Proof. exact lang_derive. Qed.

Lemma swfjc_derive : forall w x, 1 < w -> 0 < x ->
  is_derive (fun x => (w ^ 2 * x * sinh (w * x) - x * sinh x) / (w * x * cosh (w * x) - sinh (w * x) - x * cosh x + sinh x) - 3 / x) x
   ((sinh x + x * cosh x - w ^ 3 * x * cosh (w * x) - w ^ 2 * sinh (w * x)) /
      (sinh (w * x) - w * x * cosh (w * x) - sinh x + x * cosh x)
    - x ^ 2 * (sinh x - w ^ 2 * sinh (w * x)) ^ 2 / (sinh (w * x) - w * x * cosh (w * x) - sinh x + x * cosh x) ^ 2 + 3 / x ^ 2).
Proof.
  intros w x Hw Hx.
  assert (P : 0 < w * x * cosh (w * x) - sinh (w * x) - x * cosh x + sinh x).
  { assert (Q : 0 < (w - 1) * x) by (apply Rmult_lt_0_compat; lra).
    pose proof (xch_increasing x (w * x) ltac:(lra) ltac:(lra)) as X. unfold xch in X. lra. }
  auto_derive.
  - repeat split; try (apply PHyp.ex_derive_sinh); try (apply PHyp.ex_derive_cosh); try lra.
  - change (fun x0 : R => sinh x0) with sinh. change (fun x0 : R => cosh x0) with cosh.
    rewrite ?Derive_sinh, ?Derive_cosh.
    set (S := sinh (w * x)) in *. set (C := cosh (w * x)) in *. set (s := sinh x) in *. set (c := cosh x) in *. clearbody S C s c.
    field. repeat split; try lra.
Qed.

Lemma swfjc_solver : forall l w y, 0 < l -> 0 < w -> 1 / 10 ^ 3 < y ->
  inverted_by_newton (swfjc_isotensional.nondimensional_end_to_end_length_per_link l w) (fun x => 0 < x) 1 y
    (if Rlt_dec (y / (1 + w / l)) (9 / 10) then math.inverse_langevin (y / (1 + w / l)) else 10)
    (swfjc_isometric_legendre.nondimensional_force l w y).
Proof.
  intros l w y Hl Hw Hy. eexists. split; cycle 1.
  - unfold swfjc_isometric_legendre.nondimensional_force. cbv zeta.
    change (y <=? sdec 1 3)%S with (Rleb y (1 / 1000)). unfold Rleb. destruct (Rle_dec y (1 / 1000)) as [n | _]; [exfalso; lra |].
    match goal with |- context[if ?b then math.inverse_langevin _ else _] => change b with (Rltb (y / (1 + w / l)) (9 / 10)) end.
    unfold Rltb. destruct Rlt_dec; apply inverted_plain.
  - intros x Hx. assert (0 < w / l) by (apply Rdiv_lt_0_compat; assumption).
    exact (swfjc_derive (1 + w / l) x ltac:(lra) Hx).
Qed.
Lemma swfjc_linear : forall l w y, y <= 1 / 10 ^ 3 ->
  let v := 1 + w / l in
  swfjc_isometric_legendre.nondimensional_force l w y = y * 5 * (v ^ 2 + v + 1) / (v ^ 4 + v ^ 3 + v ^ 2 + v + 1).
Proof.
  intros l w y Hy v. unfold swfjc_isometric_legendre.nondimensional_force. cbv zeta.
  change (y <=? sdec 1 3)%S with (Rleb y (1 / 1000)). unfold Rleb. destruct (Rle_dec y (1 / 1000)) as [_ | n]; [reflexivity | lra].
Qed.

(** ** The free energy is the Legendre transform at the computed force *)

Lemma legendre_efjc : forall N l m T kap y,
  let x := efjc_isometric_asymptotic_legendre.nondimensional_force kap y in
  efjc_isometric_asymptotic_legendre.nondimensional_helmholtz_free_energy_per_link N l m kap y T =
  efjc_isotensional_asymptotic.nondimensional_gibbs_free_energy_per_link l m kap x T + x * y + (hinge_term l m T + link_term kap l) / IZR N.
Proof.
  intros N l m T kap y x. unfold efjc_isometric_asymptotic_legendre.nondimensional_helmholtz_free_energy_per_link, efjc_isotensional_asymptotic.nondimensional_gibbs_free_energy_per_link.
  cbv zeta. fold x. generalize x. intro z. unR. rewrite ?B_eq, ?H_eq. unfold hinge_term, link_term, Rdiv. ring.
Qed.
Lemma legendre_efjc_alternative : forall N l m T kap y,
  let x := efjc_isometric_asymptotic_alternative_legendre.nondimensional_force kap y in
  efjc_isometric_asymptotic_alternative_legendre.nondimensional_helmholtz_free_energy_per_link N l m kap y T =
  efjc_isotensional_asymptotic_alternative.nondimensional_gibbs_free_energy_per_link l m kap x T + x * y + (hinge_term l m T + link_term kap l) / IZR N.
Proof.
  intros N l m T kap y x. unfold efjc_isometric_asymptotic_alternative_legendre.nondimensional_helmholtz_free_energy_per_link, efjc_isotensional_asymptotic_alternative.nondimensional_gibbs_free_energy_per_link.
  cbv zeta. fold x. generalize x. intro z. unR. rewrite ?B_eq, ?H_eq. unfold hinge_term, link_term, Rdiv. ring.
Qed.
Lemma legendre_efjc_reduced : forall N l m T kap y,
  let x := efjc_isometric_asymptotic_reduced_legendre.nondimensional_force kap y in
  efjc_isometric_asymptotic_reduced_legendre.nondimensional_helmholtz_free_energy_per_link N l m kap y T =
  efjc_isotensional_asymptotic_reduced.nondimensional_gibbs_free_energy_per_link l m kap x T + x * y + (hinge_term l m T + link_term kap l) / IZR N.
Proof.
  intros N l m T kap y x. unfold efjc_isometric_asymptotic_reduced_legendre.nondimensional_helmholtz_free_energy_per_link, efjc_isotensional_asymptotic_reduced.nondimensional_gibbs_free_energy_per_link.
  cbv zeta. fold x. generalize x. intro z. unR. rewrite ?B_eq, ?H_eq. unfold hinge_term, link_term, Rdiv. ring.
Qed.
Lemma legendre_morse : forall N l m T kap eps y,
  let x := morse_isometric_asymptotic_legendre.nondimensional_force kap eps y in
  morse_isometric_asymptotic_legendre.nondimensional_helmholtz_free_energy_per_link N l m kap eps y T =
  morse_isotensional_asymptotic.nondimensional_gibbs_free_energy_per_link l m kap eps x T + x * y + (hinge_term l m T + link_term kap l) / IZR N.
Proof.
  intros N l m T kap eps y x. unfold morse_isometric_asymptotic_legendre.nondimensional_helmholtz_free_energy_per_link, morse_isotensional_asymptotic.nondimensional_gibbs_free_energy_per_link.
  cbv zeta. fold x. generalize x. intro z. unR. rewrite ?B_eq, ?H_eq. unfold hinge_term, link_term, Rdiv. ring.
Qed.
Lemma legendre_morse_reduced : forall N l m T kap eps y,
  let x := morse_isometric_asymptotic_reduced_legendre.nondimensional_force kap eps y in
  morse_isometric_asymptotic_reduced_legendre.nondimensional_helmholtz_free_energy_per_link N l m kap eps y T =
  morse_isotensional_asymptotic_reduced.nondimensional_gibbs_free_energy_per_link l m kap eps x T + x * y + (hinge_term l m T + link_term kap l) / IZR N.
Proof.
  intros N l m T kap eps y x. unfold morse_isometric_asymptotic_reduced_legendre.nondimensional_helmholtz_free_energy_per_link, morse_isotensional_asymptotic_reduced.nondimensional_gibbs_free_energy_per_link.
  cbv zeta. fold x. generalize x. intro z. unR. rewrite ?B_eq, ?H_eq. unfold hinge_term, link_term, Rdiv. ring.
Qed.
Lemma legendre_lennard_jones : forall N l m T kap y,
  let x := lennard_jones_isometric_asymptotic_legendre.nondimensional_force kap y in
  lennard_jones_isometric_asymptotic_legendre.nondimensional_helmholtz_free_energy_per_link N l m kap y T =
  lennard_jones_isotensional_asymptotic.nondimensional_gibbs_free_energy_per_link l m kap x T + x * y + (hinge_term l m T + link_term kap l) / IZR N.
Proof.
  intros N l m T kap y x. unfold lennard_jones_isometric_asymptotic_legendre.nondimensional_helmholtz_free_energy_per_link, lennard_jones_isotensional_asymptotic.nondimensional_gibbs_free_energy_per_link.
  cbv zeta. fold x. generalize x. intro z. unR. rewrite ?B_eq, ?H_eq. unfold hinge_term, link_term, Rdiv. ring.
Qed.
Lemma legendre_lennard_jones_reduced : forall N l m T kap y,
  let x := lennard_jones_isometric_asymptotic_reduced_legendre.nondimensional_force kap y in
  lennard_jones_isometric_asymptotic_reduced_legendre.nondimensional_helmholtz_free_energy_per_link N l m kap y T =
  lennard_jones_isotensional_asymptotic_reduced.nondimensional_gibbs_free_energy_per_link l m kap x T + x * y + (hinge_term l m T + link_term kap l) / IZR N.
Proof.
  intros N l m T kap y x. unfold lennard_jones_isometric_asymptotic_reduced_legendre.nondimensional_helmholtz_free_energy_per_link, lennard_jones_isotensional_asymptotic_reduced.nondimensional_gibbs_free_energy_per_link.
  cbv zeta. fold x. generalize x. intro z. unR. rewrite ?B_eq, ?H_eq. unfold hinge_term, link_term, Rdiv. ring.
Qed.
Lemma legendre_log_squared : forall N l m T kap y,
  let x := log_squared_isometric_asymptotic_legendre.nondimensional_force kap y in
  log_squared_isometric_asymptotic_legendre.nondimensional_helmholtz_free_energy_per_link N l m kap y T =
  log_squared_isotensional_asymptotic.nondimensional_gibbs_free_energy_per_link l m kap x T + x * y + (hinge_term l m T + link_term kap l) / IZR N.
Proof.
  intros N l m T kap y x. unfold log_squared_isometric_asymptotic_legendre.nondimensional_helmholtz_free_energy_per_link, log_squared_isotensional_asymptotic.nondimensional_gibbs_free_energy_per_link.
  cbv zeta. fold x. generalize x. intro z. unR. rewrite ?B_eq, ?H_eq. unfold hinge_term, link_term, Rdiv. ring.
Qed.
Lemma legendre_log_squared_reduced : forall N l m T kap y,
  let x := log_squared_isometric_asymptotic_reduced_legendre.nondimensional_force kap y in
  log_squared_isometric_asymptotic_reduced_legendre.nondimensional_helmholtz_free_energy_per_link N l m kap y T =
  log_squared_isotensional_asymptotic_reduced.nondimensional_gibbs_free_energy_per_link l m kap x T + x * y + (hinge_term l m T + link_term kap l) / IZR N.
Proof.
  intros N l m T kap y x. unfold log_squared_isometric_asymptotic_reduced_legendre.nondimensional_helmholtz_free_energy_per_link, log_squared_isotensional_asymptotic_reduced.nondimensional_gibbs_free_energy_per_link.
  cbv zeta. fold x. generalize x. intro z. unR. rewrite ?B_eq, ?H_eq. unfold hinge_term, link_term, Rdiv. ring.
Qed.
Lemma legendre_swfjc : forall N l m T w y,
  let x := swfjc_isometric_legendre.nondimensional_force l w y in
  swfjc_isometric_legendre.nondimensional_helmholtz_free_energy_per_link N l m w y T =
  swfjc_isotensional.nondimensional_gibbs_free_energy_per_link l m w x T + x * y + (hinge_term l m T) / IZR N.
Proof.
  intros N l m T w y x. unfold swfjc_isometric_legendre.nondimensional_helmholtz_free_energy_per_link, swfjc_isotensional.nondimensional_gibbs_free_energy_per_link.
  cbv zeta. fold x. generalize x. intro z. unR. rewrite ?B_eq, ?H_eq. unfold hinge_term, link_term, Rdiv. ring.
Qed.
