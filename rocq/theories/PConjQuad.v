(** Conjugacy of the chains whose partition function is a midpoint sum. *)
From Coq Require Import Reals ZArith List Lra Lia.
From Coquelicot Require Import Coquelicot.
From Verif Require Import Scalar MMath MConst SpecThermo SpecChains PBase PLift PHyp PConj PQuad.
From Verif Require Import PIdentIdeal PIdentMorse PIdentLennardJones PIdentLogSquared.
Open Scope R_scope.

Section Generic.
(** [u] is the potential energy of a link as a function of its stretch. *)
Variable u : R -> R.
Let e1 (t x : R) := exp (x * t - u t + ln t - ln x).
Let e2 (t x : R) := exp (x * t - u t + ln t - ln x - 2 * x * t).

Lemma derive_boltzmann : forall t x, 0 < t -> 0 < x ->
  is_derive (fun x => e1 t x - e2 t x) x
    (exp (x * t - u t + 2 * ln t - ln x) + exp (x * t - u t + 2 * ln t - ln x - 2 * x * t)
     - exp (x * t - u t + 2 * ln t - ln x - ln t - ln x)
     + exp (x * t - u t + 2 * ln t - ln x - ln t - ln x - 2 * x * t)).
Proof.
  intros t x Ht Hx.
  assert (X : exp (- ln x) = / x) by (rewrite exp_Ropp, exp_ln by exact Hx; reflexivity).
  replace (exp (x * t - u t + 2 * ln t - ln x)) with (t * e1 t x)
    by (unfold e1; rewrite <- (exp_ln t Ht) at 1; rewrite <- exp_plus; f_equal; ring).
  replace (exp (x * t - u t + 2 * ln t - ln x - 2 * x * t)) with (t * e2 t x)
    by (unfold e2; rewrite <- (exp_ln t Ht) at 1; rewrite <- exp_plus; f_equal; ring).
  replace (exp (x * t - u t + 2 * ln t - ln x - ln t - ln x)) with (/ x * e1 t x)
    by (unfold e1; rewrite <- X; rewrite <- exp_plus; f_equal; ring).
  replace (exp (x * t - u t + 2 * ln t - ln x - ln t - ln x - 2 * x * t)) with (/ x * e2 t x)
    by (unfold e2; rewrite <- X; rewrite <- exp_plus; f_equal; ring).
  unfold e1, e2. auto_derive.
  - repeat split; assumption.
  - unfold Rminus. field. lra.
Qed.

Lemma boltzmann_pos : forall t x, 0 < t -> 0 < x -> 0 < e1 t x - e2 t x.
Proof.
  intros t x Ht Hx. unfold e1, e2. apply Rlt_Rminus, exp_increasing.
  assert (0 < x * t) by (apply Rmult_lt_0_compat; assumption). lra.
Qed.

Lemma derive_quadrature : forall a b n x, (0 < n)%Z -> 0 <= a -> a < b -> 0 < x ->
  is_derive (fun x => - ln (math.integrate_1d (fun t =>
      exp (x * t - u t + ln t - ln x) - exp (x * t - u t + ln t - ln x - 2 * x * t)) a b n)) x
    (- math.integrate_1d (fun t =>
       (exp (x * t - u t + 2 * ln t - ln x) + exp (x * t - u t + 2 * ln t - ln x - 2 * x * t)
        - exp (x * t - u t + 2 * ln t - ln x - ln t - ln x)
        + exp (x * t - u t + 2 * ln t - ln x - ln t - ln x - 2 * x * t))
       / math.integrate_1d (fun t =>
           exp (x * t - u t + ln t - ln x) - exp (x * t - u t + ln t - ln x - 2 * x * t)) a b n) a b n).
Proof.
  intros a b n x Hn Ha Hab Hx.
  pose proof (is_derive_integrate_1d (fun t x => e1 t x - e2 t x) (fun t x =>
    exp (x * t - u t + 2 * ln t - ln x) + exp (x * t - u t + 2 * ln t - ln x - 2 * x * t)
     - exp (x * t - u t + 2 * ln t - ln x - ln t - ln x)
     + exp (x * t - u t + 2 * ln t - ln x - ln t - ln x - 2 * x * t)) a b n x Hn Hab) as D.
  cbv beta in D. specialize (D ltac:(intros t Ht; apply derive_boltzmann; lra)).
  assert (P : 0 < math.integrate_1d (fun t => e1 t x - e2 t x) a b n)
    by (apply integrate_1d_pos; [exact Hn | exact Hab | intros t Ht; apply boltzmann_pos; lra]).
  assert (SC : forall c, math.integrate_1d (fun t =>
       (exp (x * t - u t + 2 * ln t - ln x) + exp (x * t - u t + 2 * ln t - ln x - 2 * x * t)
        - exp (x * t - u t + 2 * ln t - ln x - ln t - ln x)
        + exp (x * t - u t + 2 * ln t - ln x - ln t - ln x - 2 * x * t)) / c) a b n =
    math.integrate_1d (fun t =>
       exp (x * t - u t + 2 * ln t - ln x) + exp (x * t - u t + 2 * ln t - ln x - 2 * x * t)
        - exp (x * t - u t + 2 * ln t - ln x - ln t - ln x)
        + exp (x * t - u t + 2 * ln t - ln x - ln t - ln x - 2 * x * t)) a b n * / c)
    by (intro c; exact (integrate_1d_scal _ (/ c) a b n)).
  rewrite SC.
  set (Z := fun x => math.integrate_1d (fun t => e1 t x - e2 t x) a b n) in *.
  change (0 < Z x) in P. match type of D with is_derive _ _ ?d0 => change (is_derive Z x d0) in D end.
  change (is_derive (fun x => - ln (Z x)) x (- (math.integrate_1d (fun t => 
    exp (x * t - u t + 2 * ln t - ln x) + exp (x * t - u t + 2 * ln t - ln x - 2 * x * t)
     - exp (x * t - u t + 2 * ln t - ln x - ln t - ln x)
     + exp (x * t - u t + 2 * ln t - ln x - ln t - ln x - 2 * x * t)) a b n * / Z x))).
  clearbody Z. revert D. generalize (math.integrate_1d (fun t => 
    exp (x * t - u t + 2 * ln t - ln x) + exp (x * t - u t + 2 * ln t - ln x - 2 * x * t)
     - exp (x * t - u t + 2 * ln t - ln x - ln t - ln x)
     + exp (x * t - u t + 2 * ln t - ln x - ln t - ln x - 2 * x * t)) a b n).
  intros d D.
  assert (ex_derive Z x) by (exists d; exact D).
  assert (E : Derive Z x = d) by (apply is_derive_unique; exact D).
  auto_derive; [split; [assumption | split; [exact P | exact I]] |].
  change (Derive (fun x0 : R => Z x0) x) with (Derive Z x). rewrite E. field. lra.
Qed.
End Generic.

Lemma ZERO_small : 0 < (ZERO : R) < 1.
Proof. rewrite Z_eq. split; [apply Rinv_0_lt_compat; lra|]. lra. Qed.

Lemma ideal_isometric_conjugate : forall N l m T xi gamma, (0 < N)%Z -> 0 < l -> 0 < T ->
  isometric_conjugate_at (IZR N) (C_ideal_isometric N l m T) xi gamma.
Proof.
  intros N l m T xi gamma HN Hl HT.
  assert (D : forall x, is_derive (S_nd_helmholtz_per_link (C_ideal_isometric N l m T)) x
                (S_nd_force (C_ideal_isometric N l m T) x)).
  { intro x. unR. auto_derive; [exact I | field]. }
  apply (lift_isometric_conjugate (IZR N) l T); auto using ideal_isometric_dimensionless,
    ideal_isometric_extensive, ideal_isometric_relative. apply IZR_lt, HN.
Qed.

Lemma morse_isotensional_conjugate : forall N l m T k e f eta,
  (0 < N)%Z -> 0 < l -> 0 < T -> 0 < k -> 0 < e -> 0 < f -> 0 < eta ->
  isotensional_conjugate_at (C_morse_isotensional N l m T k e) f eta.
Proof.
  intros N l m T k e f eta HN Hl HT Hk He Hf Hn.
  assert (D : forall x, 0 < x -> is_derive (I_nd_gibbs_per_link (C_morse_isotensional N l m T k e)) x
                (- I_nd_length_per_link (C_morse_isotensional N l m T k e) x)).
  { intros x Hx. unR. apply derive_shift.
    pose proof (kappa_pos k l T Hk Hl HT) as Kp. generalize dependent (kappa k l T); intros kap Kp.
    pose proof (epsilon_pos e T He HT) as Ep. generalize dependent (epsilon e T); intros eps Ep.
    destruct (morse_constants kap eps Kp Ep) as (A & _).
    generalize dependent (sqrt (kap / eps / 2)); intros a A.
    pose proof ZERO_small as Z0.
    assert (L2 : 0 < ln 2 / a) by (apply Rdiv_lt_0_compat; [rewrite <- ln_1; apply ln_increasing; lra | exact A]).
    apply (derive_quadrature (fun t => eps * (1 - exp (- a * (t - 1))) ^ 2)); [lia | lra | lra | exact Hx]. }
  apply (lift_conjugate (IZR N) l T); auto using morse_isotensional_dimensionless,
    morse_isotensional_extensive, morse_isotensional_relative, eta_pos.
Qed.

Lemma log_squared_isotensional_conjugate : forall N l m T k f eta,
  (0 < N)%Z -> 0 < l -> 0 < T -> 0 < k -> 0 < f -> 0 < eta ->
  isotensional_conjugate_at (C_log_squared_isotensional N l m T k) f eta.
Proof.
  intros N l m T k f eta HN Hl HT Hk Hf Hn.
  assert (D : forall x, 0 < x -> is_derive (I_nd_gibbs_per_link (C_log_squared_isotensional N l m T k)) x
                (- I_nd_length_per_link (C_log_squared_isotensional N l m T k) x)).
  { intros x Hx. unR. apply derive_shift.
    pose proof ZERO_small as Z0. pose proof (exp_ineq1 1 ltac:(lra)).
    apply (derive_quadrature (fun t => 5 / 10 * kappa k l T * ln t ^ 2)); [lia | lra | lra | exact Hx]. }
  apply (lift_conjugate (IZR N) l T); auto using log_squared_isotensional_dimensionless,
    log_squared_isotensional_extensive, log_squared_isotensional_relative, eta_pos.
Qed.

Lemma lennard_jones_isotensional_conjugate : forall N l m T k f eta,
  (0 < N)%Z -> 0 < l -> 0 < T -> 0 < k -> 0 < f -> 0 < eta ->
  isotensional_conjugate_at (C_lennard_jones_isotensional N l m T k) f eta.
Proof.
  intros N l m T k f eta HN Hl HT Hk Hf Hn.
  assert (D : forall x, 0 < x -> is_derive (I_nd_gibbs_per_link (C_lennard_jones_isotensional N l m T k)) x
                (- I_nd_length_per_link (C_lennard_jones_isotensional N l m T k) x)).
  { intros x Hx. unR. apply derive_shift.
    pose proof ZERO_small as Z0.
    assert (Q : 1 < Rpowf (13 / 7) (1 / 6)).
    { unfold Rpowf. destruct (Rlt_dec 0 (13 / 7)); [|lra]. unfold Rpower.
      rewrite <- exp_0 at 1. apply exp_increasing. apply Rmult_lt_0_compat; [lra|].
      rewrite <- ln_1. apply ln_increasing; lra. }
    apply (derive_quadrature (fun t => kappa k l T / 72 * (/ t ^ 12 - 2 * / t ^ 6))); [lia | lra | lra | exact Hx]. }
  apply (lift_conjugate (IZR N) l T); auto using lennard_jones_isotensional_dimensionless,
    lennard_jones_isotensional_extensive, lennard_jones_isotensional_relative, eta_pos.
Qed.
