(** Theorems for C01-C03, C05-C08 and C10: work conjugacy. *)
From Coq Require Import Reals ZArith Lra Lia.
From Coquelicot Require Import Coquelicot.
From Verif Require Import Scalar MMath MConst MLennardJones SpecThermo SpecChains SpecLinks.
From Verif Require Import PBase PConj PConjQuad PConjSolved PConjWlc PLjStretch PConjLj.
Open Scope R_scope.

(** ** C01: ideal and freely jointed chains *)

Theorem C01_ideal_isotensional_conjugate : forall N l m T f eta,
  (0 < N)%Z -> 0 < l -> 0 < T ->
  isotensional_conjugate_at (C_ideal_isotensional N l m T) f eta.
Proof. exact ideal_isotensional_conjugate. Qed.
Print Assumptions C01_ideal_isotensional_conjugate.

Theorem C01_fjc_isotensional_conjugate : forall N l m T f eta,
  (0 < N)%Z -> 0 < l -> 0 < T -> f <> 0 -> eta <> 0 ->
  isotensional_conjugate_at (C_fjc_isotensional N l m T) f eta.
Proof. exact fjc_isotensional_conjugate. Qed.
Print Assumptions C01_fjc_isotensional_conjugate.

Example C01_example : isotensional_conjugate_at (C_fjc_isotensional 8 1 1 300) (-25) (1 / 3).
Proof. apply C01_fjc_isotensional_conjugate; first [lia | lra]. Qed.

(** ** C02: square-well chain *)

Theorem C02_swfjc_isotensional_conjugate : forall N l m T w f eta,
  (0 < N)%Z -> 0 < l -> 0 < T -> 0 < w -> 0 < f -> 0 < eta ->
  isotensional_conjugate_at (C_swfjc_isotensional N l m T w) f eta.
Proof. exact swfjc_isotensional_conjugate. Qed.
Print Assumptions C02_swfjc_isotensional_conjugate.

Example C02_example : isotensional_conjugate_at (C_swfjc_isotensional 8 1 1 300 (1 / 2)) 25 (1 / 3).
Proof. apply C02_swfjc_isotensional_conjugate; first [lia | lra]. Qed.

(** ** C03: extensible chain, asymptotic approximations *)

Theorem C03_efjc_asymptotic_conjugate : forall N l m T k f eta,
  (0 < N)%Z -> 0 < l -> 0 < T -> 0 < k -> f <> 0 -> eta <> 0 ->
  isotensional_conjugate_at (C_efjc_isotensional_asymptotic N l m T k) f eta /\
  isotensional_conjugate_at (C_efjc_isotensional_asymptotic_alternative N l m T k) f eta /\
  isotensional_conjugate_at (C_efjc_isotensional_asymptotic_reduced N l m T k) f eta.
Proof.
  intros N l m T k f eta H0 H1 H2 H3 H4 H5.
  exact (conj (efjc_isotensional_asymptotic_conjugate N l m T k f eta H0 H1 H2 H3 H4 H5)
    (conj (efjc_isotensional_asymptotic_alternative_conjugate N l m T k f eta H0 H1 H2 H3 H4 H5)
          (efjc_isotensional_asymptotic_reduced_conjugate N l m T k f eta H0 H1 H2 H3 H4 H5))).
Qed.
Print Assumptions C03_efjc_asymptotic_conjugate.

Example C03_example : isotensional_conjugate_at (C_efjc_isotensional_asymptotic 8 1 1 300 500) (-25) (1 / 3).
Proof. apply (C03_efjc_asymptotic_conjugate 8 1 1 300 500 (-25) (1 / 3)); first [lia | lra]. Qed.

(** ** C05: chains with a quadrature partition function *)

Theorem C05_morse_conjugate : forall N l m T k e f eta,
  (0 < N)%Z -> 0 < l -> 0 < T -> 0 < k -> 0 < e -> 0 < f -> 0 < eta ->
  isotensional_conjugate_at (C_morse_isotensional N l m T k e) f eta.
Proof. exact morse_isotensional_conjugate. Qed.
Print Assumptions C05_morse_conjugate.

Theorem C05_lennard_jones_conjugate : forall N l m T k f eta,
  (0 < N)%Z -> 0 < l -> 0 < T -> 0 < k -> 0 < f -> 0 < eta ->
  isotensional_conjugate_at (C_lennard_jones_isotensional N l m T k) f eta.
Proof. exact lennard_jones_isotensional_conjugate. Qed.
Print Assumptions C05_lennard_jones_conjugate.

Theorem C05_log_squared_conjugate : forall N l m T k f eta,
  (0 < N)%Z -> 0 < l -> 0 < T -> 0 < k -> 0 < f -> 0 < eta ->
  isotensional_conjugate_at (C_log_squared_isotensional N l m T k) f eta.
Proof. exact log_squared_isotensional_conjugate. Qed.
Print Assumptions C05_log_squared_conjugate.

Example C05_example :
  isotensional_conjugate_at (C_morse_isotensional 8 1 1 300 500 50) 25 (1 / 3) /\
  isotensional_conjugate_at (C_lennard_jones_isotensional 8 1 1 300 500) 25 (1 / 3) /\
  isotensional_conjugate_at (C_log_squared_isotensional 8 1 1 300 500) 25 (1 / 3).
Proof.
  refine (conj _ (conj _ _));
    [apply C05_morse_conjugate | apply C05_lennard_jones_conjugate | apply C05_log_squared_conjugate];
    first [lia | lra].
Qed.

(** ** C06: Morse chain, asymptotic approximations, below the largest bond force *)

Theorem C06_morse_asymptotic_conjugate : forall N l m T k e f eta,
  (0 < N)%Z -> 0 < l -> 0 < T -> 0 < k -> 0 < e -> f <> 0 -> eta <> 0 ->
  f * l / (kB * T) < sqrt (kappa k l T * epsilon e T / 8) ->
  eta < sqrt (kappa k l T * epsilon e T / 8) ->
  isotensional_conjugate_at (C_morse_isotensional_asymptotic N l m T k e) f eta /\
  isotensional_conjugate_at (C_morse_isotensional_asymptotic_reduced N l m T k e) f eta.
Proof.
  intros N l m T k e f eta H0 H1 H2 H3 H4 H5 H6 H7 H8.
  exact (conj (morse_isotensional_asymptotic_conjugate N l m T k e f eta H0 H1 H2 H3 H4 H5 H6 H7 H8)
              (morse_isotensional_asymptotic_reduced_conjugate N l m T k e f eta H0 H1 H2 H3 H4 H5 H6 H7 H8)).
Qed.
Print Assumptions C06_morse_asymptotic_conjugate.

Example C06_example :
  isotensional_conjugate_at (C_morse_isotensional_asymptotic 8 1 1 300 (8 * (kB * 300)) (kB * 300)) (kB * 100) (1 / 3).
Proof.
  assert (S : sqrt (kappa (8 * (kB * 300)) 1 300 * epsilon (kB * 300) 300 / 8) = 1).
  { unfold kappa, epsilon. pose proof kB_pos. transitivity (sqrt 1); [f_equal; field; lra | exact sqrt_1]. }
  pose proof kB_pos. apply (C06_morse_asymptotic_conjugate 8 1 1 300 (8 * (kB * 300)) (kB * 300) (kB * 100) (1 / 3));
    try rewrite S; try lia; try lra.
  replace (kB * 100 * 1 / (kB * 300)) with (1 / 3) by (field; lra). lra.
Qed.

(** ** C07: Lennard-Jones and log-squared chains

    The extension is minus the derivative of the Gibbs free energy up to the
    product of the residual of the computed link stretch in the force balance
    and the derivative of that stretch; so exactly so where the stretch solves the
    force balance.  For Lennard-Jones links the residual is bounded below. *)

Theorem C07_lennard_jones_defect : forall N l m T k x d,
  0 < l -> 0 < T -> 0 < k -> x <> 0 ->
  let stretch := lennard_jones_thermodynamics.nondimensional_link_stretch (kappa k l T) in
  0 < stretch x -> is_derive stretch x d ->
  is_derive (I_nd_gibbs_per_link (C_lennard_jones_isotensional_asymptotic N l m T k)) x
    (- I_nd_length_per_link (C_lennard_jones_isotensional_asymptotic N l m T k) x
     + (lj_bond_force (kappa k l T) (stretch x) - x) * d) /\
  is_derive (I_nd_gibbs_per_link (C_lennard_jones_isotensional_asymptotic_reduced N l m T k)) x
    (- I_nd_length_per_link (C_lennard_jones_isotensional_asymptotic_reduced N l m T k) x
     + (lj_bond_force (kappa k l T) (stretch x) - x) * d).
Proof.
  intros N l m T k x d H0 H1 H2 H3 stretch H4 H5.
  exact (conj (lennard_jones_isotensional_asymptotic_defect N l m T k x d H0 H1 H2 H3 H4 H5)
              (lennard_jones_isotensional_asymptotic_reduced_defect N l m T k x d H0 H1 H2 H3 H4 H5)).
Qed.
Print Assumptions C07_lennard_jones_defect.

Theorem C07_log_squared_defect : forall N l m T k x d,
  0 < l -> 0 < T -> 0 < k -> x <> 0 ->
  let stretch := fun x => 1 / exp (math.lambert_w (- x / kappa k l T)) in
  is_derive stretch x d ->
  is_derive (I_nd_gibbs_per_link (C_log_squared_isotensional_asymptotic N l m T k)) x
    (- I_nd_length_per_link (C_log_squared_isotensional_asymptotic N l m T k) x
     + (log_squared_bond_force (kappa k l T) (stretch x) - x) * d) /\
  is_derive (I_nd_gibbs_per_link (C_log_squared_isotensional_asymptotic_reduced N l m T k)) x
    (- I_nd_length_per_link (C_log_squared_isotensional_asymptotic_reduced N l m T k) x
     + (log_squared_bond_force (kappa k l T) (stretch x) - x) * d).
Proof.
  intros N l m T k x d H0 H1 H2 H3 stretch H4.
  exact (conj (log_squared_isotensional_asymptotic_defect N l m T k x d H0 H1 H2 H3 H4)
              (log_squared_isotensional_asymptotic_reduced_defect N l m T k x d H0 H1 H2 H3 H4)).
Qed.
Print Assumptions C07_log_squared_defect.

(** For Lennard-Jones links the residual is at most one part in a million of the
    force, at every force below the largest force lj_bond_force kap lm that a link
    can bear, so that the defect is small wherever the stretch is differentiable. *)
Theorem C07_lennard_jones : forall N l m T k x d lm,
  0 < l -> 0 < T -> 0 < k -> 0 < lm -> lm ^ 6 = 13 / 7 -> 0 < x < lj_bond_force (kappa k l T) lm ->
  is_derive (lennard_jones_thermodynamics.nondimensional_link_stretch (kappa k l T)) x d ->
  exists rho, - (x / 10 ^ 6) <= rho <= 0 /\
  is_derive (I_nd_gibbs_per_link (C_lennard_jones_isotensional_asymptotic N l m T k)) x
    (- I_nd_length_per_link (C_lennard_jones_isotensional_asymptotic N l m T k) x + rho * d) /\
  is_derive (I_nd_gibbs_per_link (C_lennard_jones_isotensional_asymptotic_reduced N l m T k)) x
    (- I_nd_length_per_link (C_lennard_jones_isotensional_asymptotic_reduced N l m T k) x + rho * d).
Proof. exact lennard_jones_conjugate. Qed.
Print Assumptions C07_lennard_jones.

(** The stretch is differentiable at weak forces. *)
Theorem C07_lennard_jones_differentiable : forall kap x, 0 < kap -> 0 < x -> 6 * x / kap < 5 / 10 ^ 7 ->
  ex_derive (lennard_jones_thermodynamics.nondimensional_link_stretch kap) x.
Proof. exact weak_differentiable. Qed.
Print Assumptions C07_lennard_jones_differentiable.

Example C07_example : exists d rho, let x := kappa 1000 1 300 / 10 ^ 8 in - (x / 10 ^ 6) <= rho <= 0 /\
  is_derive (I_nd_gibbs_per_link (C_lennard_jones_isotensional_asymptotic 8 1 1 300 1000)) x
    (- I_nd_length_per_link (C_lennard_jones_isotensional_asymptotic 8 1 1 300 1000) x + rho * d).
Proof. exact lennard_jones_conjugate_example. Qed.

(** ** C08: ideal chain at controlled length *)

Theorem C08_ideal_isometric_conjugate : forall N l m T xi gamma,
  (0 < N)%Z -> 0 < l -> 0 < T ->
  isometric_conjugate_at (IZR N) (C_ideal_isometric N l m T) xi gamma.
Proof. exact ideal_isometric_conjugate. Qed.
Print Assumptions C08_ideal_isometric_conjugate.

Example C08_example : isometric_conjugate_at 8 (C_ideal_isometric 8 1 1 300) 3 (1 / 3).
Proof. apply C08_ideal_isometric_conjugate; first [lia | lra]. Qed.

(** ** C10: worm-like chain at controlled length

    The force is the derivative of the Helmholtz free energy up to the difference
    between the approximation of I_1 and the derivative of that of I_0. *)

Theorem C10_wlc_isometric_defect_partial : forall N l m T p x b,
  (0 < N)%Z -> 0 < l -> 0 < T -> 0 < p -> 0 < x < 1 ->
  let arg := wlc_bessel_argument (p / (IZR N * l)) x in
  0 < math.bessel_i 0 arg -> is_derive (math.bessel_i 0) arg b ->
  is_derive (S_nd_helmholtz_per_link (C_wlc_isometric N l m T p)) x
    (S_nd_force (C_wlc_isometric N l m T p) x
     + arg * (math.bessel_i 1 arg - b) / math.bessel_i 0 arg
       * (1 / x + 2 * (473 / 1000) ^ 2 * (x / (1 - (473 / 1000) ^ 2 * x ^ 2))) / IZR N).
Proof. exact wlc_isometric_defect. Qed.
Print Assumptions C10_wlc_isometric_defect_partial.
