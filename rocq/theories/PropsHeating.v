(** Theorems for C78 (heating a chain under tension shortens it). *)
From Coq Require Import Reals ZArith Lra Lia.
From Verif Require Import Scalar MConst MIdeal MFjc MSwfjc MWlc SpecThermo SpecChains SpecSofter SpecHeating PHeating PSofter PBase PWormExample PLjStretch.
Open Scope R_scope.

Theorem C78_ideal : forall N l m, (0 < N)%Z -> 0 < l -> heating_shortens every_pull (fun T => C_ideal_isotensional N l m T).
Proof. exact ideal_heating. Qed.
Print Assumptions C78_ideal.

Theorem C78_fjc : forall N l m, (0 < N)%Z -> 0 < l -> heating_shortens every_pull (fun T => C_fjc_isotensional N l m T).
Proof. exact fjc_heating. Qed.
Print Assumptions C78_fjc.

Theorem C78_swfjc : forall N l m w, (0 < N)%Z -> 0 < l -> 0 < w -> heating_shortens every_pull (fun T => C_swfjc_isotensional N l m T w).
Proof. exact swfjc_heating. Qed.
Print Assumptions C78_swfjc.

(** The worm-like chain, at temperatures where its length is returned. *)
Theorem C78_wlc : forall N l p f T T' x x', (0 < N)%Z -> 0 < l -> 0 < f -> 0 < T -> T < T' ->
  wlc_isotensional.end_to_end_length N l p f T = Some x -> wlc_isotensional.end_to_end_length N l p f T' = Some x' -> x' < x.
Proof. exact wlc_heating. Qed.
Print Assumptions C78_wlc.

Example C78_wlc_example : exists T T' x x', 0 < T /\ T < T' /\
  wlc_isotensional.end_to_end_length 8 1 (8 / 10) 1 T = Some x /\ wlc_isotensional.end_to_end_length 8 1 (8 / 10) 1 T' = Some x'.
Proof.
  destruct (worm_length_returns_at (/ 10 ^ 6) 8 ltac:(lra) eq_refl) as [x1 E1].
  destruct (worm_length_returns_at (2 / 10 ^ 6) 8 ltac:(lra) eq_refl) as [x2 E2].
  pose proof (wforce_bounds 8 eq_refl) as W. unfold wforce in W. assert (P : 0 < wforce_at (/ 10 ^ 6) 8) by lra.
  assert (Q : wforce_at (/ 10 ^ 6) 8 < wforce_at (2 / 10 ^ 6) 8) by (unfold wforce_at in *; set (f := wlc_isometric.nondimensional_force 8 (1 / 10) wguess) in *; clearbody f; nra).
  set (e1 := wforce_at (/ 10 ^ 6) 8) in *. set (e2 := wforce_at (2 / 10 ^ 6) 8) in *. clearbody e1 e2. pose proof kB_pos as K.
  assert (F : forall e x, 0 < e -> wlc_isotensional.nondimensional_end_to_end_length 8 (1 / 10) e = Some x ->
    wlc_isotensional.end_to_end_length 8 1 (8 / 10) 1 (1 / (kB * e)) = Some (1 * x)).
  { intros e x He E. unfold wlc_isotensional.end_to_end_length.
    change (bind (wlc_isotensional.nondimensional_end_to_end_length 8 (8 / 10 / (8 * 1)) (1 * 1 / BOLTZMANN_CONSTANT / (1 / (kB * e)))) (fun r => Some (1 * r)) = Some (1 * x)).
    rewrite B_eq. replace (8 / 10 / (8 * 1)) with (1 / 10) by field. replace (1 * 1 / kB / (1 / (kB * e))) with e by (field; lra). rewrite E. reflexivity. }
  exists (1 / (kB * e2)), (1 / (kB * e1)), (1 * x2), (1 * x1).
  assert (0 < kB * e1) by (apply Rmult_lt_0_compat; assumption). assert (kB * e1 < kB * e2) by (apply Rmult_lt_compat_l; assumption).
  repeat split; [apply Rdiv_lt_0_compat; lra | apply (ratio_lt (kB * e1) (kB * e2) 1); lra | apply F; [lra | exact E2] | apply F; assumption].
Qed.

(** Stiff links: the links keep the stretch the force gives them, but turn away from it. *)
Theorem C78_efjc : forall N l m k, (0 < N)%Z -> 0 < l -> 0 < k ->
  heating_shortens every_pull (fun T => C_efjc_isotensional_asymptotic N l m T k) /\
  heating_shortens every_pull (fun T => C_efjc_isotensional_asymptotic_reduced N l m T k).
Proof. exact (fun N l m k HN Hl Hk => conj (efjc_heating N l m k HN Hl Hk) (efjc_reduced_heating N l m k HN Hl Hk)). Qed.
Print Assumptions C78_efjc.

Theorem C78_morse : forall N l m k e, (0 < N)%Z -> 0 < l -> 0 < k -> 0 < e ->
  heating_shortens (morse_bears k e) (fun T => C_morse_isotensional_asymptotic N l m T k e) /\
  heating_shortens (morse_bears k e) (fun T => C_morse_isotensional_asymptotic_reduced N l m T k e).
Proof. exact morse_heating. Qed.
Print Assumptions C78_morse.

Theorem C78_lennard_jones : forall N l m k, (0 < N)%Z -> 0 < l -> 0 < k ->
  heating_shortens (lennard_jones_bears (k * l)) (fun T => C_lennard_jones_isotensional_asymptotic N l m T k) /\
  heating_shortens (lennard_jones_bears (k * l)) (fun T => C_lennard_jones_isotensional_asymptotic_reduced N l m T k).
Proof. exact lennard_jones_heating. Qed.
Print Assumptions C78_lennard_jones.

Theorem C78_log_squared : forall N l m k, (0 < N)%Z -> 0 < l -> 0 < k ->
  heating_shortens (log_squared_bears (k * l)) (fun T => C_log_squared_isotensional_asymptotic N l m T k) /\
  heating_shortens (log_squared_bears (k * l)) (fun T => C_log_squared_isotensional_asymptotic_reduced N l m T k).
Proof. exact log_squared_heating. Qed.
Print Assumptions C78_log_squared.

(** Forces the links bear. *)
Example C78_bears_example : morse_bears 50 80 10 /\ lennard_jones_bears (600 * 1) 1 /\ log_squared_bears (50 * 1) 10.
Proof.
  split; [|split].
  - unfold morse_bears. replace (50 * 80 / 8) with 500 by field. rewrite <- (sqrt_pow2 10) at 1 by lra. apply sqrt_lt_1_alt. lra.
  - rewrite Rmult_1_r. destruct lj_stretch_example as (lm & A & B & C). exists lm. split; [exact A|]. split; [exact B | exact (proj2 C)].
  - unfold log_squared_bears. pose proof exp_le_3. pose proof (exp_pos 1). replace (exp (-1)) with (/ exp 1) by (symmetry; apply exp_Ropp).
    apply Rmult_lt_reg_r with (exp 1); [assumption|]. rewrite Rmult_assoc, Rinv_l by lra. lra.
Qed.

(** The alternative asymptotic approach agrees up to the force k l, which stretches the links
    to twice their length, and beyond any such force there is a heating that lengthens the chain. *)
Theorem C78_alternative_partial : forall N l m k, (0 < N)%Z -> 0 < l -> 0 < k ->
  heating_shortens (fun f => f <= k * l) (fun T => C_efjc_isotensional_asymptotic_alternative N l m T k).
Proof. exact alternative_heating. Qed.
Print Assumptions C78_alternative_partial.

Theorem C78_alternative_refuted : forall N l m k f, (0 < N)%Z -> 0 < l -> 0 < k -> k * l < f ->
  heating_lengthens f (fun T => C_efjc_isotensional_asymptotic_alternative N l m T k).
Proof. exact alternative_heated. Qed.
Print Assumptions C78_alternative_refuted.

(** Held at a given length, chains of rigid links and worm-like chains pull in proportion to T. *)
Theorem C78_entropic : forall N l, (0 < N)%Z -> 0 < l ->
  entropic (ideal_isometric.force N l) /\ entropic (fjc_isometric_legendre.force N l) /\
  (forall w, entropic (swfjc_isometric_legendre.force N l w)) /\ (forall p, entropic (wlc_isometric.force N l p)).
Proof.
  exact (fun N l HN Hl => conj (ideal_entropic N l HN Hl) (conj (fjc_legendre_entropic N l HN Hl)
    (conj (fun w => swfjc_legendre_entropic N l w HN Hl) (fun p => wlc_entropic N l p HN Hl)))).
Qed.
Print Assumptions C78_entropic.

Theorem C78_fjc_entropic : forall prof N l xi T T' f f', 0 < l -> 0 < T -> 0 < T' ->
  fjc_isometric.force prof N l xi T = Some f -> fjc_isometric.force prof N l xi T' = Some f' -> f' / T' = f / T.
Proof. exact fjc_entropic. Qed.
Print Assumptions C78_fjc_entropic.
