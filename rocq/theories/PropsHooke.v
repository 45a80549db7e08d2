(** Theorems for C75 (weak pulls) and C76 (strong pulls). *)
From Coq Require Import Reals ZArith Lra Lia.
From Coquelicot Require Import Coquelicot.
From Verif Require Import Scalar MIdeal MFjc MEfjc MSwfjc MMorse MLennardJones MLogSquared MWlc.
From Verif Require Import SpecPartition SpecHooke PHooke PHookeStrong PHookeAsymptotic PHookeLinks PWormExample.
Open Scope R_scope.

(** ** C75 *)

Theorem C75_hooke : forall f square longest, linear_within f square longest -> weak_slope f (square / 3).
Proof. exact hooke_slope. Qed.
Print Assumptions C75_hooke.

Theorem C75_ideal : forall x : R, ideal_isotensional.nondimensional_end_to_end_length_per_link x = 1 * x / 3.
Proof. intro x. rewrite Rmult_1_l. exact (ideal_weak x). Qed.
Print Assumptions C75_ideal.

Theorem C75_fjc : linear_within (@fjc_isotensional.nondimensional_end_to_end_length_per_link R R_scalar) 1 1.
Proof. exact fjc_hooke. Qed.
Print Assumptions C75_fjc.

(** Links of any length between 1 and 1 + w/l. *)
Theorem C75_swfjc : forall l w, 0 < l -> 0 < w ->
  let v := 1 + w / l in
  linear_within (swfjc_isotensional.nondimensional_end_to_end_length_per_link l w)
    (RInt (fun s => s ^ 2 * s ^ 2) 1 v / RInt (fun s => s ^ 2) 1 v) v.
Proof. intros l w Hl Hw v. rewrite swfjc_square. exact (proj1 (swfjc_hooke l w Hl Hw)). Qed.
Print Assumptions C75_swfjc.

(** The links of the remaining chains have the lengths of the 64 nodes of the midpoint rule. *)
Theorem C75_morse : forall kap eps, 0 < kap -> 0 < eps ->
  let smax := 1 + ln 2 / sqrt (kap / eps / 2) in
  linear_within (morse_isotensional.nondimensional_end_to_end_length_per_link kap eps)
    (mean_square (morse_potential kap eps) (1 / 10 ^ 6) smax 64) (last_node (1 / 10 ^ 6) smax 64).
Proof. intros kap eps Hk He smax. exact (proj1 (morse_hooke kap eps Hk He)). Qed.
Print Assumptions C75_morse.

Theorem C75_log_squared : forall kap, linear_within (log_squared_isotensional.nondimensional_end_to_end_length_per_link kap)
    (mean_square (log_squared_potential kap) (1 / 10 ^ 6) (exp 1) 64) (last_node (1 / 10 ^ 6) (exp 1) 64).
Proof. intro kap. exact (proj1 (log_squared_hooke kap)). Qed.
Print Assumptions C75_log_squared.

Theorem C75_lennard_jones : forall kap, linear_within (lennard_jones_isotensional.nondimensional_end_to_end_length_per_link kap)
    (mean_square (lennard_jones_potential kap) (1 / 10 ^ 6) (Rpower (13 / 7) (1 / 6)) 64) (last_node (1 / 10 ^ 6) (Rpower (13 / 7) (1 / 6)) 64).
Proof. intro kap. exact (proj1 (lennard_jones_hooke kap)). Qed.
Print Assumptions C75_lennard_jones.

(** The worm-like chain is one long link of N units whose potential is its Helmholtz free energy. *)
Theorem C75_wlc : forall N l m T z eta x, (0 < N)%Z -> 0 < eta ->
  wlc_isotensional.nondimensional_end_to_end_length N z eta = Some x ->
  let square := mean_square (fun g => wlc_isometric.nondimensional_helmholtz_free_energy N l m z g T) (1 / 10 ^ 6) 1 64 in
  let longest := last_node (1 / 10 ^ 6) 1 64 in
  IZR N ^ 2 * square * eta / 3 / cosh (longest * IZR N * eta) <= x <= IZR N ^ 2 * square * eta / 3 * cosh (longest * IZR N * eta)
  /\ x < IZR N * longest.
Proof. exact worm_hooke. Qed.
Print Assumptions C75_wlc.

Example C75_wlc_example : exists eta x, 0 < eta /\ wlc_isotensional.nondimensional_end_to_end_length 8 (1 / 10) eta = Some x.
Proof.
  destruct (worm_length_returns 8 eq_refl) as [x E]. exists (wforce 8), x. split; [|exact E].
  pose proof (wforce_bounds 8 eq_refl). lra.
Qed.

(** The asymptotic approaches: the slope 1/3 of the freely jointed chain, the compliance 1/kap
    of the link, and a term that couples both through the anharmonicity of the link. *)
Theorem C75_anharmonicity : forall kap eps, 0 < kap -> 0 < eps ->
  anharmonicity (harmonic_potential kap) = 1 /\
  anharmonicity (morse_potential kap eps) = / (1 + 3 / 2 * sqrt (kap / (2 * eps))) /\
  anharmonicity (lennard_jones_potential kap) = 2 / 23 /\
  anharmonicity (log_squared_potential kap) = 2 / 5.
Proof.
  intros kap eps Hk He.
  exact (conj (harmonic_anharmonicity kap Hk) (conj (morse_anharmonicity kap eps Hk He) (conj (lennard_jones_anharmonicity kap Hk) (log_squared_anharmonicity kap Hk)))).
Qed.
Print Assumptions C75_anharmonicity.

Theorem C75_asymptotic : forall kap eps, 0 < kap -> 0 < eps ->
  let slope u := 1 / 3 + 1 / kap + 2 / 3 / (1 + anharmonicity u * kap) in
  weak_slope (efjc_isotensional_asymptotic.nondimensional_end_to_end_length_per_link kap) (slope (harmonic_potential kap)) /\
  weak_slope (morse_isotensional_asymptotic.nondimensional_end_to_end_length_per_link kap eps) (slope (morse_potential kap eps)) /\
  weak_slope (lennard_jones_isotensional_asymptotic.nondimensional_end_to_end_length_per_link kap) (slope (lennard_jones_potential kap)) /\
  weak_slope (log_squared_isotensional_asymptotic.nondimensional_end_to_end_length_per_link kap) (slope (log_squared_potential kap)).
Proof.
  intros kap eps Hk He slope. unfold slope.
  rewrite (harmonic_anharmonicity kap Hk), (morse_anharmonicity kap eps Hk He), (lennard_jones_anharmonicity kap Hk), (log_squared_anharmonicity kap Hk).
  exact (conj (efjc_weak kap Hk) (conj (morse_weak kap eps Hk He) (conj (lennard_jones_weak kap Hk) (log_squared_weak kap Hk)))).
Qed.
Print Assumptions C75_asymptotic.

Theorem C75_reduced : forall kap eps, 0 < kap -> 0 < eps ->
  weak_slope (efjc_isotensional_asymptotic_reduced.nondimensional_end_to_end_length_per_link kap) (1 / 3 + 1 / kap) /\
  weak_slope (morse_isotensional_asymptotic_reduced.nondimensional_end_to_end_length_per_link kap eps) (1 / 3 + 1 / kap) /\
  weak_slope (lennard_jones_isotensional_asymptotic_reduced.nondimensional_end_to_end_length_per_link kap) (1 / 3 + 1 / kap) /\
  weak_slope (log_squared_isotensional_asymptotic_reduced.nondimensional_end_to_end_length_per_link kap) (1 / 3 + 1 / kap).
Proof.
  intros kap eps Hk He.
  exact (conj (efjc_reduced_weak kap Hk) (conj (morse_reduced_weak kap eps Hk He) (conj (lennard_jones_reduced_weak kap Hk) (log_squared_reduced_weak kap Hk)))).
Qed.
Print Assumptions C75_reduced.

Theorem C75_alternative : forall kap, 0 < kap ->
  weak_slope (efjc_isotensional_asymptotic_alternative.nondimensional_end_to_end_length_per_link kap) (1 / 3 + 1 / kap + 2 / 3 / kap).
Proof. exact efjc_alternative_weak. Qed.
Print Assumptions C75_alternative.

(** The exact expression for stiff harmonic links is no spring at all: its extension diverges. *)
Theorem C75_efjc_refuted : forall kap slope, 1500 <= kap ->
  ~ weak_slope (efjc_isotensional.nondimensional_end_to_end_length_per_link kap) slope.
Proof. exact efjc_exact_weak. Qed.
Print Assumptions C75_efjc_refuted.

(** ** C76 *)

Theorem C76_fjc : saturates (@fjc_isotensional.nondimensional_end_to_end_length_per_link R R_scalar) 1.
Proof. exact fjc_saturates. Qed.
Print Assumptions C76_fjc.

Theorem C76_swfjc : forall l w, 0 < l -> 0 < w ->
  saturates (swfjc_isotensional.nondimensional_end_to_end_length_per_link l w) (1 + w / l).
Proof. exact swfjc_saturates. Qed.
Print Assumptions C76_swfjc.

Theorem C76_morse : forall kap eps, 0 < kap -> 0 < eps ->
  saturates (morse_isotensional.nondimensional_end_to_end_length_per_link kap eps) (last_node (1 / 10 ^ 6) (1 + ln 2 / sqrt (kap / eps / 2)) 64).
Proof. exact morse_saturates. Qed.
Print Assumptions C76_morse.

Theorem C76_log_squared : forall kap,
  saturates (log_squared_isotensional.nondimensional_end_to_end_length_per_link kap) (last_node (1 / 10 ^ 6) (exp 1) 64).
Proof. exact log_squared_saturates. Qed.
Print Assumptions C76_log_squared.

Theorem C76_lennard_jones : forall kap,
  saturates (lennard_jones_isotensional.nondimensional_end_to_end_length_per_link kap) (last_node (1 / 10 ^ 6) (Rpower (13 / 7) (1 / 6)) 64).
Proof. exact lennard_jones_saturates. Qed.
Print Assumptions C76_lennard_jones.

(** Harmonic links line up and stretch by x / kap each. *)
Theorem C76_efjc : forall kap, 0 < kap ->
  is_lim (fun x => efjc_isotensional_asymptotic.nondimensional_end_to_end_length_per_link kap x - (1 + x / kap)) p_infty 0 /\
  is_lim (fun x => efjc_isotensional_asymptotic_reduced.nondimensional_end_to_end_length_per_link kap x - (1 + x / kap)) p_infty 0.
Proof. intros kap Hk. exact (conj (efjc_strong kap Hk) (efjc_reduced_strong kap Hk)). Qed.
Print Assumptions C76_efjc.

(** The alternative approach keeps an excess of 1 / kap at every force, however strong. *)
Theorem C76_alternative_refuted : forall kap, 0 < kap ->
  is_lim (fun x => efjc_isotensional_asymptotic_alternative.nondimensional_end_to_end_length_per_link kap x - (1 + x / kap)) p_infty (1 / kap).
Proof. exact efjc_alternative_strong. Qed.
Print Assumptions C76_alternative_refuted.
