(** Conjugacy of the chains whose link stretch is computed by an iteration. *)
From Coq Require Import Reals Lra Lia ZArith.
From Coquelicot Require Import Coquelicot.
From Verif Require Import Scalar MConst MMath MLennardJones MLogSquared SpecThermo SpecChains SpecLinks PBase PLift PHyp PConj PIdentLennardJones PIdentLogSquared.
Open Scope R_scope.
(** ** Lennard-Jones and log-squared chains: the link stretch is computed
    numerically, and its residual in the force balance is the defect. *)


Lemma derive_lj : forall kap (lam : R -> R) x d, 0 < lam x -> is_derive lam x d ->
  is_derive (fun x => kap / 72 * (/ lam x ^ 12 - 2 * / lam x ^ 6) - x * (lam x - 1)) x
    (- (lam x - 1) + (lj_bond_force kap (lam x) - x) * d).
Proof.
  intros kap lam x d P D. unfold lj_bond_force.
  assert (ex_derive lam x) by (exists d; exact D).
  assert (Derive lam x = d) by (apply is_derive_unique; exact D).
  auto_derive.
  - repeat split; auto; apply Rgt_not_eq; repeat (apply Rmult_lt_0_compat; try lra).
  - change (Derive (fun x0 : R => lam x0) x) with (Derive lam x). rewrite H0. field. lra.
Qed.

Lemma derive_log_squared : forall kap (lam : R -> R) x d, 0 < lam x -> is_derive lam x d ->
  is_derive (fun x => 5 / 10 * kap * ln (lam x) ^ 2 - x * (lam x - 1)) x
    (- (lam x - 1) + (log_squared_bond_force kap (lam x) - x) * d).
Proof.
  intros kap lam x d P D. unfold log_squared_bond_force.
  assert (ex_derive lam x) by (exists d; exact D).
  assert (Derive lam x = d) by (apply is_derive_unique; exact D).
  auto_derive.
  - repeat split; auto.
  - change (Derive (fun x0 : R => lam x0) x) with (Derive lam x). rewrite H0. field. lra.
Qed.

Lemma lennard_jones_isotensional_asymptotic_defect : forall N l m T k x d,
  0 < l -> 0 < T -> 0 < k -> x <> 0 ->
  let lam := lennard_jones_thermodynamics.nondimensional_link_stretch (kappa k l T) in
  0 < lam x -> is_derive lam x d ->
  is_derive (I_nd_gibbs_per_link (C_lennard_jones_isotensional_asymptotic N l m T k)) x
    (- I_nd_length_per_link (C_lennard_jones_isotensional_asymptotic N l m T k) x
     + (lj_bond_force (kappa k l T) (lam x) - x) * d).
Proof.
  intros N l m T k x d Hl HT Hk Hx lam P D.
  pose proof (kappa_pos k l T Hk Hl HT) as Kp.
  unR. do 2 apply derive_shift. unfold lam in *.
  pose proof (derive_lj (kappa k l T) (lennard_jones_thermodynamics.nondimensional_link_stretch (kappa k l T)) x d P D) as DL. unfold lj_bond_force in DL.
  set (ls := lennard_jones_thermodynamics.nondimensional_link_stretch (kappa k l T)) in *. clearbody ls.
  generalize dependent (kappa k l T); intros kap Kp DL.
  eapply derive_sum3; [apply (derive_fjc x Hx)
      | apply (derive_correction kap (2 / 23) x Kp ltac:(lra) Hx) | apply DL | |].
  - intro y. replace (/ (2 / 23)) with (23 / 2) by field. ringR.
  - ringR.
Qed.

Lemma lennard_jones_isotensional_asymptotic_reduced_defect : forall N l m T k x d,
  0 < l -> 0 < T -> 0 < k -> x <> 0 ->
  let lam := lennard_jones_thermodynamics.nondimensional_link_stretch (kappa k l T) in
  0 < lam x -> is_derive lam x d ->
  is_derive (I_nd_gibbs_per_link (C_lennard_jones_isotensional_asymptotic_reduced N l m T k)) x
    (- I_nd_length_per_link (C_lennard_jones_isotensional_asymptotic_reduced N l m T k) x
     + (lj_bond_force (kappa k l T) (lam x) - x) * d).
Proof.
  intros N l m T k x d Hl HT Hk Hx lam P D.
  pose proof (kappa_pos k l T Hk Hl HT) as Kp.
  unR. do 2 apply derive_shift. unfold lam in *.
  pose proof (derive_lj (kappa k l T) (lennard_jones_thermodynamics.nondimensional_link_stretch (kappa k l T)) x d P D) as DL. unfold lj_bond_force in DL.
  set (ls := lennard_jones_thermodynamics.nondimensional_link_stretch (kappa k l T)) in *. clearbody ls.
  generalize dependent (kappa k l T); intros kap Kp DL.
  eapply derive_sum2; [apply (derive_fjc x Hx) | apply DL | |].
  - intro y. ringR.
  - ringR.
Qed.

(** The stretch of a log-squared link as the code computes it. *)
Definition log_squared_stretch (kap x : R) : R := 1 / exp (math.lambert_w (- x / kap)).

Lemma log_squared_stretch_pos : forall kap x, 0 < log_squared_stretch kap x.
Proof. intros. unfold log_squared_stretch. apply Rdiv_lt_0_compat; [lra | apply exp_pos]. Qed.

Lemma log_squared_isotensional_asymptotic_defect : forall N l m T k x d,
  0 < l -> 0 < T -> 0 < k -> x <> 0 ->
  is_derive (log_squared_stretch (kappa k l T)) x d ->
  is_derive (I_nd_gibbs_per_link (C_log_squared_isotensional_asymptotic N l m T k)) x
    (- I_nd_length_per_link (C_log_squared_isotensional_asymptotic N l m T k) x
     + (log_squared_bond_force (kappa k l T) (log_squared_stretch (kappa k l T) x) - x) * d).
Proof.
  intros N l m T k x d Hl HT Hk Hx D.
  pose proof (kappa_pos k l T Hk Hl HT) as Kp.
  unR. do 2 apply derive_shift.
  pose proof (derive_log_squared (kappa k l T) _ x d (log_squared_stretch_pos _ _) D) as DL.
  unfold log_squared_stretch, log_squared_bond_force in *.
  generalize dependent (kappa k l T); intros kap D Kp DL.
  eapply derive_sum3; [apply (derive_fjc x Hx)
      | apply (derive_correction kap (4 / 10) x Kp ltac:(lra) Hx) | apply DL | |].
  - intro y. replace (y / tanh y / kap / (4 / 10)) with (/ (4 / 10) * y / tanh y / kap) by (unfold Rdiv; ring). ringR.
  - ringR.
Qed.

Lemma log_squared_isotensional_asymptotic_reduced_defect : forall N l m T k x d,
  0 < l -> 0 < T -> 0 < k -> x <> 0 ->
  is_derive (log_squared_stretch (kappa k l T)) x d ->
  is_derive (I_nd_gibbs_per_link (C_log_squared_isotensional_asymptotic_reduced N l m T k)) x
    (- I_nd_length_per_link (C_log_squared_isotensional_asymptotic_reduced N l m T k) x
     + (log_squared_bond_force (kappa k l T) (log_squared_stretch (kappa k l T) x) - x) * d).
Proof.
  intros N l m T k x d Hl HT Hk Hx D.
  pose proof (kappa_pos k l T Hk Hl HT) as Kp.
  unR. do 2 apply derive_shift.
  pose proof (derive_log_squared (kappa k l T) _ x d (log_squared_stretch_pos _ _) D) as DL.
  unfold log_squared_stretch, log_squared_bond_force in *.
  generalize dependent (kappa k l T); intros kap D Kp DL.
  eapply derive_sum2; [apply (derive_fjc x Hx) | apply DL | |].
  - intro y. ringR.
  - ringR.
Qed.
