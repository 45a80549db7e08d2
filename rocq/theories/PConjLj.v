(** Conjugacy for Lennard-Jones links, with a bound on the defect. *)
From Coq Require Import Reals ZArith Lra Lia Psatz.
From Coquelicot Require Import Coquelicot.
From Verif Require Import Scalar MMath MConst MLennardJones.
From Verif Require Import SpecThermo SpecChains SpecLinks PBase PConj PConjSolved PLjStretch.
Open Scope R_scope.

Lemma lennard_jones_conjugate : forall N l m T k x d lm,
  0 < l -> 0 < T -> 0 < k -> 0 < lm -> lm ^ 6 = 13 / 7 -> 0 < x < lj_bond_force (kappa k l T) lm ->
  is_derive (lennard_jones_thermodynamics.nondimensional_link_stretch (kappa k l T)) x d ->
  exists rho, - (x / 10 ^ 6) <= rho <= 0 /\
  is_derive (I_nd_gibbs_per_link (C_lennard_jones_isotensional_asymptotic N l m T k)) x
    (- I_nd_length_per_link (C_lennard_jones_isotensional_asymptotic N l m T k) x + rho * d) /\
  is_derive (I_nd_gibbs_per_link (C_lennard_jones_isotensional_asymptotic_reduced N l m T k)) x
    (- I_nd_length_per_link (C_lennard_jones_isotensional_asymptotic_reduced N l m T k) x + rho * d).
Proof.
  intros N l m T k x d lm Hl HT Hk Hm Em Hx D.
  assert (Kp : 0 < kappa k l T).
  { unfold kappa. pose proof kB_pos. apply Rdiv_lt_0_compat; [apply Rmult_lt_0_compat; [exact Hk | apply pow_lt; exact Hl] | apply Rmult_lt_0_compat; assumption]. }
  destruct (PLjStretch.lj_stretch lm Hm Em (kappa k l T) x Kp ltac:(lra)) as (S & B). cbv zeta in *.
  exists (lj_bond_force (kappa k l T) (lennard_jones_thermodynamics.nondimensional_link_stretch (kappa k l T) x) - x).
  split; [lra |]. split.
  - apply (lennard_jones_isotensional_asymptotic_defect N l m T k x d Hl HT Hk); [lra | lra | exact D].
  - apply (lennard_jones_isotensional_asymptotic_reduced_defect N l m T k x d Hl HT Hk); [lra | lra | exact D].
Qed.

Lemma lennard_jones_conjugate_example : exists d rho, let x := kappa 1000 1 300 / 10 ^ 8 in - (x / 10 ^ 6) <= rho <= 0 /\
  is_derive (I_nd_gibbs_per_link (C_lennard_jones_isotensional_asymptotic 8 1 1 300 1000)) x
    (- I_nd_length_per_link (C_lennard_jones_isotensional_asymptotic 8 1 1 300 1000) x + rho * d).
Proof.
  assert (Kp : 0 < kappa 1000 1 300).
  { unfold kappa. pose proof kB_pos. apply Rdiv_lt_0_compat; [apply Rmult_lt_0_compat; [lra | apply pow_lt; lra] | apply Rmult_lt_0_compat; lra]. }
  pose (lm := Rpower (13 / 7) (/ 6)). assert (Hm : 0 < lm) by apply exp_pos.
  assert (Em : lm ^ 6 = 13 / 7). { unfold lm. rewrite <- Rpower_pow by exact Hm. unfold lm. rewrite Rpower_mult. replace (/ 6 * INR 6) with 1 by (simpl; field). apply Rpower_1. lra. }
  pose proof (bond_lm_lower lm Hm Em) as BL. clearbody lm.
  set (kp := kappa 1000 1 300) in *.
  destruct (weak_differentiable kp (kp / 10 ^ 8)) as (d & D); [exact Kp | lra | | ].
  { replace (6 * (kp / 10 ^ 8) / kp) with (6 / 10 ^ 8) by (field; lra). lra. }
  exists d. destruct (lennard_jones_conjugate 8 1 1 300 1000 (kp / 10 ^ 8) d lm) as (rho & B & G & _); try lra; [| exact D |].
  - change (0 < kp / 10 ^ 8 < kp / 6 * bond lm). nra.
  - exists rho. cbv zeta. split; [exact B | exact G].
Qed.
