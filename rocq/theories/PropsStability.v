(** C57: pulling harder makes the chain longer. *)
From Coq Require Import Reals ZArith Lra Lia.
From Verif Require Import Scalar MConst MEfjc MWlc SpecThermo SpecChains SpecStability SpecSofter PStability PStabilityLinks PWormExample.
From Verif Require PEfjcExact2.
Open Scope R_scope.

Theorem C57_ideal : forall N l m T, (0 < N)%Z -> 0 < l -> 0 < T ->
  isotensional_stable_on pulling l T (C_ideal_isotensional N l m T).
Proof. exact ideal_stable. Qed.
Print Assumptions C57_ideal.

Theorem C57_fjc : forall N l m T, (0 < N)%Z -> 0 < l -> 0 < T ->
  isotensional_stable_on pulling l T (C_fjc_isotensional N l m T).
Proof. exact fjc_stable. Qed.
Print Assumptions C57_fjc.

Theorem C57_swfjc : forall N l m T w, (0 < N)%Z -> 0 < l -> 0 < T -> 0 < w ->
  isotensional_stable_on pulling l T (C_swfjc_isotensional N l m T w).
Proof. exact swfjc_stable. Qed.
Print Assumptions C57_swfjc.

Theorem C57_efjc_asymptotic : forall N l m T k, (0 < N)%Z -> 0 < l -> 0 < T -> 0 < k ->
  isotensional_stable_on pulling l T (C_efjc_isotensional_asymptotic N l m T k) /\
  isotensional_stable_on pulling l T (C_efjc_isotensional_asymptotic_alternative N l m T k) /\
  isotensional_stable_on pulling l T (C_efjc_isotensional_asymptotic_reduced N l m T k).
Proof.
  intros N l m T k HN Hl HT Hk.
  exact (conj (efjc_asymptotic_stable N l m T k HN Hl HT Hk)
    (conj (efjc_alternative_stable N l m T k HN Hl HT Hk) (efjc_reduced_stable N l m T k HN Hl HT Hk))).
Qed.
Print Assumptions C57_efjc_asymptotic.

Theorem C57_morse : forall N l m T k e, (0 < N)%Z -> 0 < l -> 0 < T -> 0 < k -> 0 < e ->
  isotensional_stable_on pulling l T (C_morse_isotensional N l m T k e).
Proof. exact morse_stable. Qed.
Print Assumptions C57_morse.

(** The asymptotic approximations hold below the force at which a link breaks. *)
Theorem C57_morse_asymptotic : forall N l m T k e, (0 < N)%Z -> 0 < l -> 0 < T -> 0 < k -> 0 < e ->
  let D := fun x => 0 < x < sqrt (kappa k l T * epsilon e T / 8) in
  isotensional_stable_on D l T (C_morse_isotensional_asymptotic N l m T k e) /\
  isotensional_stable_on D l T (C_morse_isotensional_asymptotic_reduced N l m T k e).
Proof.
  intros N l m T k e HN Hl HT Hk He.
  exact (conj (morse_asymptotic_stable N l m T k e HN Hl HT Hk He) (morse_reduced_stable N l m T k e HN Hl HT Hk He)).
Qed.
Print Assumptions C57_morse_asymptotic.

Theorem C57_lennard_jones : forall N l m T k, (0 < N)%Z -> 0 < l -> 0 < T -> 0 < k ->
  isotensional_stable_on pulling l T (C_lennard_jones_isotensional N l m T k).
Proof. exact lennard_jones_stable. Qed.
Print Assumptions C57_lennard_jones.

Theorem C57_log_squared : forall N l m T k, (0 < N)%Z -> 0 < l -> 0 < T -> 0 < k ->
  isotensional_stable_on pulling l T (C_log_squared_isotensional N l m T k).
Proof. exact log_squared_stable. Qed.
Print Assumptions C57_log_squared.

Theorem C57_lennard_jones_asymptotic : forall N l m T k, (0 < N)%Z -> 0 < l -> 0 < T -> 0 < k ->
  let D := fun x => 0 < x /\ lennard_jones_bears (kappa k l T) x in
  isotensional_stable_on D l T (C_lennard_jones_isotensional_asymptotic N l m T k) /\
  isotensional_stable_on D l T (C_lennard_jones_isotensional_asymptotic_reduced N l m T k).
Proof. exact lennard_jones_asymptotic_stable. Qed.
Print Assumptions C57_lennard_jones_asymptotic.

Theorem C57_log_squared_asymptotic : forall N l m T k, (0 < N)%Z -> 0 < l -> 0 < T -> 0 < k ->
  let D := fun x => 0 < x /\ log_squared_bears (kappa k l T) x in
  isotensional_stable_on D l T (C_log_squared_isotensional_asymptotic N l m T k) /\
  isotensional_stable_on D l T (C_log_squared_isotensional_asymptotic_reduced N l m T k).
Proof. exact log_squared_asymptotic_stable. Qed.
Print Assumptions C57_log_squared_asymptotic.

(** The worm-like chain, at any two forces for which its function returns. *)
Theorem C57_wlc : forall N z eta1 eta2 x1 x2, (0 < N)%Z -> 0 < eta1 -> eta1 < eta2 ->
  wlc_isotensional.nondimensional_end_to_end_length N z eta1 = Some x1 ->
  wlc_isotensional.nondimensional_end_to_end_length N z eta2 = Some x2 -> 0 < x1 /\ x1 < x2.
Proof. exact wlc_stable. Qed.
Print Assumptions C57_wlc.

(** Two forces at which it returns. *)
Example C57_wlc_example : exists eta1 eta2 x1 x2, 0 < eta1 /\ eta1 < eta2 /\
  wlc_isotensional.nondimensional_end_to_end_length 8 (1 / 10) eta1 = Some x1 /\
  wlc_isotensional.nondimensional_end_to_end_length 8 (1 / 10) eta2 = Some x2.
Proof.
  destruct (worm_length_returns_at (/ 10 ^ 6) 8 ltac:(lra) eq_refl) as [x1 E1].
  destruct (worm_length_returns_at (2 / 10 ^ 6) 8 ltac:(lra) eq_refl) as [x2 E2].
  exists (wforce_at (/ 10 ^ 6) 8), (wforce_at (2 / 10 ^ 6) 8), x1, x2.
  pose proof (wforce_bounds 8 eq_refl) as W. unfold wforce in W.
  assert (P : 0 < wforce_at (/ 10 ^ 6) 8) by lra. split; [exact P|]. split; [|split; assumption].
  unfold wforce_at in *. set (f := wlc_isometric.nondimensional_force 8 (1 / 10) wguess) in *. clearbody f. nra.
Qed.

(** The exact extensible chain is the exception: stiff links get a negative
    extension under a pulling force. *)
Theorem C57_efjc_refuted : forall N l m T k, (0 < N)%Z -> 0 < l -> 0 < T -> 1500 <= kappa k l T ->
  ~ isotensional_stable_on pulling l T (C_efjc_isotensional N l m T k).
Proof.
  intros N l m T k HN Hl HT Hk (_ & _ & _ & P & _). specialize (P (1 / 4) ltac:(unfold pulling; lra)).
  pose proof (PEfjcExact2.stiff_extension (kappa k l T) (1 / 4) Hk ltac:(lra)) as Q.
  change (0 < efjc_isotensional.nondimensional_end_to_end_length_per_link (kappa k l T) (1 / 4)) in P.
  replace (- (1 / (10 * (1 / 4)))) with (- (4 / 10)) in Q by field. lra.
Qed.
Print Assumptions C57_efjc_refuted.

(** A chain of eight links pulled by one and then by two forces. *)
Example C57_example :
  I_length (C_swfjc_isotensional 8 1 1 300 (1 / 2)) 1000 < I_length (C_swfjc_isotensional 8 1 1 300 (1 / 2)) 2000 /\
  I_nd_length_per_link (C_morse_isotensional 8 1 1 300 500 50) (1 / 3) < I_nd_length_per_link (C_morse_isotensional 8 1 1 300 500 50) 5.
Proof.
  assert (K : 0 < kB * 300) by (unfold kB; lra).
  split.
  - apply (C57_swfjc 8 1 1 300 (1 / 2)); try lia; try lra; unfold pulling; apply Rdiv_lt_0_compat; lra.
  - apply (C57_morse 8 1 1 300 500 50); try lia; try lra; unfold pulling; lra.
Qed.
