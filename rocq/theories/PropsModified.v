(** The modified canonical ensemble of the freely jointed chain: C30, C31, C50. *)
From Coq Require Import Reals ZArith Lra Lia.
From Coquelicot Require Import Coquelicot.
From Verif Require Import Scalar MMath MConst MFjc SpecThermo SpecWalk SpecIsometric SpecModified PModified PWeak PModifiedZ.
Open Scope R_scope.

(** ** C30: identities between the functions *)
Theorem C30_nondimensional : forall prof (N : Z) (l m T kap d hi : R), (2 <= N <= 26)%Z -> 0 < kap -> 0 < d < hi ->
  conjugate (fun y => fjc_modified_canonical.nondimensional_helmholtz_free_energy prof N l m y kap T)
    (fun y => fjc_modified_canonical.nondimensional_force prof N y kap) 0 hi (IZR N) d /\
  conjugate (fun y => fjc_modified_canonical.nondimensional_helmholtz_free_energy_per_link prof N l m y kap T)
    (fun y => fjc_modified_canonical.nondimensional_force prof N y kap) 0 hi 1 d /\
  conjugate (fun y => fjc_modified_canonical.nondimensional_relative_helmholtz_free_energy prof N y kap)
    (fun y => fjc_modified_canonical.nondimensional_force prof N y kap) 0 hi (IZR N) d /\
  conjugate (fun y => fjc_modified_canonical.nondimensional_relative_helmholtz_free_energy_per_link prof N y kap)
    (fun y => fjc_modified_canonical.nondimensional_force prof N y kap) 0 hi 1 d.
Proof. exact z_nd_conj. Qed.
Print Assumptions C30_nondimensional.

Theorem C30_dimensional : forall prof (N : Z) (l m T k d hi : R), (2 <= N <= 26)%Z -> 0 < l -> 0 < T -> 0 < k -> 0 < d < hi ->
  conjugate (fun y => fjc_modified_canonical.helmholtz_free_energy prof N l m y k T)
    (fun y => fjc_modified_canonical.force prof N l y k T) 0 hi 1 d /\
  conjugate (fun y => fjc_modified_canonical.helmholtz_free_energy_per_link prof N l m y k T)
    (fun y => fjc_modified_canonical.force prof N l y k T) 0 hi (1 / IZR N) d /\
  conjugate (fun y => fjc_modified_canonical.relative_helmholtz_free_energy prof N l y k T)
    (fun y => fjc_modified_canonical.force prof N l y k T) 0 hi 1 d /\
  conjugate (fun y => fjc_modified_canonical.relative_helmholtz_free_energy_per_link prof N l y k T)
    (fun y => fjc_modified_canonical.force prof N l y k T) 0 hi (1 / IZR N) d.
Proof. exact z_dim_conj. Qed.
Print Assumptions C30_dimensional.

(** The end-to-end length is the distance of the potential minus force over
    stiffness; a panic in one is a panic in the other. *)
Theorem C30_lengths : forall prof (N : Z) (l d k kap T : R), (0 < N)%Z -> 0 < kap ->
  fjc_modified_canonical.end_to_end_length prof N l d k T
    = option_map (fun f => d - f / k) (fjc_modified_canonical.force prof N l d k T) /\
  fjc_modified_canonical.end_to_end_length_per_link prof N l d k T
    = option_map (fun f => (d - f / k) / IZR N) (fjc_modified_canonical.force prof N l d k T) /\
  fjc_modified_canonical.nondimensional_end_to_end_length prof N d kap
    = option_map (fun f => IZR N * d - f / kap) (fjc_modified_canonical.nondimensional_force prof N d kap) /\
  fjc_modified_canonical.nondimensional_end_to_end_length_per_link prof N d kap
    = option_map (fun f => (IZR N * d - f / kap) / IZR N) (fjc_modified_canonical.nondimensional_force prof N d kap).
Proof. intros prof N l d k kap T HN Hk. exact (lengths prof N l d k kap T HN Hk). Qed.
Print Assumptions C30_lengths.

Theorem C30_gibbs : forall prof (N : Z) (l m d k kap T : R), (0 < N)%Z ->
  fjc_modified_canonical.gibbs_free_energy prof N l m d k T
    = option_map (fun a => a - 1 / 2 * k * d ^ 2) (fjc_modified_canonical.helmholtz_free_energy prof N l m d k T) /\
  fjc_modified_canonical.gibbs_free_energy_per_link prof N l m d k T
    = option_map (fun a => a - 1 / 2 * k * d ^ 2 / IZR N) (fjc_modified_canonical.helmholtz_free_energy_per_link prof N l m d k T) /\
  fjc_modified_canonical.relative_gibbs_free_energy prof N l d k T
    = option_map (fun a => a - 1 / 2 * k * d ^ 2) (fjc_modified_canonical.relative_helmholtz_free_energy prof N l d k T) /\
  fjc_modified_canonical.relative_gibbs_free_energy_per_link prof N l d k T
    = option_map (fun a => a - 1 / 2 * k * d ^ 2 / IZR N) (fjc_modified_canonical.relative_helmholtz_free_energy_per_link prof N l d k T) /\
  fjc_modified_canonical.nondimensional_gibbs_free_energy prof N l m d kap T
    = option_map (fun a => a - 1 / 2 * kap * (IZR N * d) ^ 2)
        (fjc_modified_canonical.nondimensional_helmholtz_free_energy prof N l m d kap T) /\
  fjc_modified_canonical.nondimensional_gibbs_free_energy_per_link prof N l m d kap T
    = option_map (fun a => a - 1 / 2 * kap * (IZR N * d) ^ 2 / IZR N)
        (fjc_modified_canonical.nondimensional_helmholtz_free_energy_per_link prof N l m d kap T) /\
  fjc_modified_canonical.nondimensional_relative_gibbs_free_energy prof N d kap
    = option_map (fun a => a - 1 / 2 * kap * (IZR N * d) ^ 2)
        (fjc_modified_canonical.nondimensional_relative_helmholtz_free_energy prof N d kap) /\
  fjc_modified_canonical.nondimensional_relative_gibbs_free_energy_per_link prof N d kap
    = option_map (fun a => a - 1 / 2 * kap * (IZR N * d) ^ 2 / IZR N)
        (fjc_modified_canonical.nondimensional_relative_helmholtz_free_energy_per_link prof N d kap).
Proof. intros prof N l m d k kap T HN. exact (gibbs prof N l m d k kap T HN). Qed.
Print Assumptions C30_gibbs.

(** Dimensional and nondimensional functions agree. *)
Theorem C30_dimensionless : forall prof (N : Z) (l m d k T : R), (0 < N)%Z -> 0 < l -> 0 < T -> 0 < k ->
  let z := d / (IZR N * l) in let w := k * l ^ 2 / (kB * T) in
  fjc_modified_canonical.force prof N l d k T
    = option_map (fun f => kB * T / l * f) (fjc_modified_canonical.nondimensional_force prof N z w) /\
  fjc_modified_canonical.end_to_end_length prof N l d k T
    = option_map (fun x => l * x) (fjc_modified_canonical.nondimensional_end_to_end_length prof N z w) /\
  fjc_modified_canonical.end_to_end_length_per_link prof N l d k T
    = option_map (fun x => l * x) (fjc_modified_canonical.nondimensional_end_to_end_length_per_link prof N z w) /\
  fjc_modified_canonical.helmholtz_free_energy prof N l m d k T
    = option_map (fun a => kB * T * a) (fjc_modified_canonical.nondimensional_helmholtz_free_energy prof N l m z w T) /\
  fjc_modified_canonical.helmholtz_free_energy_per_link prof N l m d k T
    = option_map (fun a => kB * T * a) (fjc_modified_canonical.nondimensional_helmholtz_free_energy_per_link prof N l m z w T) /\
  fjc_modified_canonical.relative_helmholtz_free_energy prof N l d k T
    = option_map (fun a => kB * T * a) (fjc_modified_canonical.nondimensional_relative_helmholtz_free_energy prof N z w) /\
  fjc_modified_canonical.relative_helmholtz_free_energy_per_link prof N l d k T
    = option_map (fun a => kB * T * a) (fjc_modified_canonical.nondimensional_relative_helmholtz_free_energy_per_link prof N z w) /\
  fjc_modified_canonical.gibbs_free_energy prof N l m d k T
    = option_map (fun a => kB * T * a) (fjc_modified_canonical.nondimensional_gibbs_free_energy prof N l m z w T) /\
  fjc_modified_canonical.gibbs_free_energy_per_link prof N l m d k T
    = option_map (fun a => kB * T * a) (fjc_modified_canonical.nondimensional_gibbs_free_energy_per_link prof N l m z w T) /\
  fjc_modified_canonical.relative_gibbs_free_energy prof N l d k T
    = option_map (fun a => kB * T * a) (fjc_modified_canonical.nondimensional_relative_gibbs_free_energy prof N z w) /\
  fjc_modified_canonical.relative_gibbs_free_energy_per_link prof N l d k T
    = option_map (fun a => kB * T * a) (fjc_modified_canonical.nondimensional_relative_gibbs_free_energy_per_link prof N z w).
Proof. intros prof N l m d k T HN Hl HT Hk. exact (dimensionless prof N l m d k T HN Hl HT Hk). Qed.
Print Assumptions C30_dimensionless.

(** Totals are N times the functions per link. *)
Theorem C30_extensive : forall prof (N : Z) (l m d k kap T : R), (0 < N)%Z -> 0 < l -> 0 < T -> 0 < k -> 0 < kap ->
  fjc_modified_canonical.nondimensional_end_to_end_length prof N d kap
    = option_map (fun x => IZR N * x) (fjc_modified_canonical.nondimensional_end_to_end_length_per_link prof N d kap) /\
  fjc_modified_canonical.end_to_end_length prof N l d k T
    = option_map (fun x => IZR N * x) (fjc_modified_canonical.end_to_end_length_per_link prof N l d k T) /\
  fjc_modified_canonical.helmholtz_free_energy prof N l m d k T
    = option_map (fun x => IZR N * x) (fjc_modified_canonical.helmholtz_free_energy_per_link prof N l m d k T) /\
  fjc_modified_canonical.relative_helmholtz_free_energy prof N l d k T
    = option_map (fun x => IZR N * x) (fjc_modified_canonical.relative_helmholtz_free_energy_per_link prof N l d k T) /\
  fjc_modified_canonical.gibbs_free_energy prof N l m d k T
    = option_map (fun x => IZR N * x) (fjc_modified_canonical.gibbs_free_energy_per_link prof N l m d k T) /\
  fjc_modified_canonical.relative_gibbs_free_energy prof N l d k T
    = option_map (fun x => IZR N * x) (fjc_modified_canonical.relative_gibbs_free_energy_per_link prof N l d k T) /\
  fjc_modified_canonical.nondimensional_helmholtz_free_energy prof N l m d kap T
    = option_map (fun x => IZR N * x) (fjc_modified_canonical.nondimensional_helmholtz_free_energy_per_link prof N l m d kap T) /\
  fjc_modified_canonical.nondimensional_relative_helmholtz_free_energy prof N d kap
    = option_map (fun x => IZR N * x) (fjc_modified_canonical.nondimensional_relative_helmholtz_free_energy_per_link prof N d kap) /\
  fjc_modified_canonical.nondimensional_gibbs_free_energy prof N l m d kap T
    = option_map (fun x => IZR N * x) (fjc_modified_canonical.nondimensional_gibbs_free_energy_per_link prof N l m d kap T) /\
  fjc_modified_canonical.nondimensional_relative_gibbs_free_energy prof N d kap
    = option_map (fun x => IZR N * x) (fjc_modified_canonical.nondimensional_relative_gibbs_free_energy_per_link prof N d kap).
Proof. intros prof N l m d k kap T HN Hl HT Hk Hk'. exact (extensive prof N l m d k kap T HN Hl HT Hk Hk'). Qed.
Print Assumptions C30_extensive.

Example C30_instance : exists A f, (forall y, 0 < y < 2 ->
    fjc_modified_canonical.nondimensional_helmholtz_free_energy Debug 8 1 1 y 50 300 = Some (A y)) /\
  fjc_modified_canonical.nondimensional_force Debug 8 (3 / 2) 50 = Some f /\ is_derive A (3 / 2) (8 * f).
Proof. apply (C30_nondimensional Debug 8 1 1 300 50 (3 / 2) 2); (lia || lra). Qed.

(** ** C50: the free energy is minus the logarithm of the partition function

    The partition function averages the Boltzmann factor of the potential over the
    random walk ([walk_density]) and over directions ([average_factor]); the
    library's midpoint rule with 64 points on [1e-6, 1] replaces the integral over
    the end-to-end length. *)
Theorem C50_nondimensional : forall prof (N : Z) (l m T kap d : R), (2 <= N <= 26)%Z -> 0 < kap -> 0 < d ->
  fjc_modified_canonical.nondimensional_helmholtz_free_energy prof N l m d kap T =
  Some (- ln (math.integrate_1d (fun x => 4 * PI * x ^ 2 * (IZR N ^ 3 * walk_density (Z.to_nat N) (IZR N * x))
                                          * average_factor 1 (IZR N ^ 2 * kap) d x) (1 / 10 ^ 6) 1 64)
        - (IZR N - 1) * ln (8 * PI ^ 2 * m * l ^ 2 * kB * T / hP ^ 2)).
Proof. exact z_nd_partition. Qed.
Print Assumptions C50_nondimensional.

Theorem C50_dimensional : forall prof (N : Z) (l m T k d : R), (2 <= N <= 26)%Z -> 0 < l -> 0 < T -> 0 < k -> 0 < d ->
  fjc_modified_canonical.helmholtz_free_energy prof N l m d k T =
  Some (kB * T * (- ln (math.integrate_1d (fun x => 4 * PI * x ^ 2 * (IZR N ^ 3 * walk_density (Z.to_nat N) (IZR N * x))
                                          * average_factor (1 / (kB * T)) k d (x * (IZR N * l))) (1 / 10 ^ 6) 1 64)
        - (IZR N - 1) * ln (8 * PI ^ 2 * m * l ^ 2 * kB * T / hP ^ 2))).
Proof. exact z_partition. Qed.
Print Assumptions C50_dimensional.

(** ** C31: the asymptotic approaches *)

(** Weak potential: as functions of the force [f = k d] at fixed stiffness the
    lengths are minus the derivatives of the Gibbs free energies. *)
Theorem C31_weak : forall (N : Z) (l m T k f eta : R), (0 < N)%Z -> 0 < l -> 0 < T -> 0 < k -> 0 < f -> 0 < eta ->
  isotensional_conjugate_at (C_weak_potential N l m T k) f eta.
Proof. intros N l m T k f eta HN Hl HT Hk. exact (weak_conjugate N l m T k HN Hl HT Hk f eta). Qed.
Print Assumptions C31_weak.

Theorem C31_weak_identities : forall (N : Z) (l m T k : R), (0 < N)%Z -> 0 < l -> 0 < T -> 0 < k ->
  isotensional_dimensionless l T (C_weak_potential N l m T k) /\
  isotensional_extensive (IZR N) (C_weak_potential N l m T k) /\
  isotensional_relative (C_weak_potential N l m T k).
Proof.
  intros N l m T k HN Hl HT Hk. split; [|split].
  - exact (weak_dimensionless N l m T k HN Hl HT Hk).
  - exact (weak_extensive N l m T k HN Hl HT Hk).
  - exact (weak_relative N l m T k HN Hl HT Hk).
Qed.
Print Assumptions C31_weak_identities.

Theorem C31_weak_force : forall (N : Z) (l T k d : R), (0 < N)%Z -> 0 < l -> 0 < T -> 0 < k ->
  fjc_modified_canonical_asymptotic_weak_potential.force d k = k * d /\
  fjc_modified_canonical_asymptotic_weak_potential.nondimensional_force N (d / (IZR N * l)) (k * l ^ 2 / (kB * T))
    = k * d * l / (kB * T).
Proof. intros N l T k d HN Hl HT Hk. exact (weak_force N l T k HN Hl HT Hk d). Qed.
Print Assumptions C31_weak_force.

(** The leading term of the weak approach is the chain under a constant force. *)
Theorem C31_weak_leading : forall (N : Z) (eta : R), (0 < N)%Z -> exists c, forall kap, 0 < kap ->
  fjc_modified_canonical_asymptotic_weak_potential.nondimensional_end_to_end_length_per_link N (eta / (IZR N * kap)) kap
    = fjc_isotensional.nondimensional_end_to_end_length_per_link eta + c * kap.
Proof. exact weak_leading. Qed.
Print Assumptions C31_weak_leading.

(** Strong potential: the force is the derivative of the Helmholtz free energy,
    except where chains of three to five links have a kink. *)
Theorem C31_strong : forall prof (N : Z) (l m T kap g : R), (2 <= N <= 26)%Z -> 0 < l -> 0 < kap -> 0 < g < 1 ->
  (6 <= N)%Z \/ ~ knot N g ->
  conjugate (fun y => fjc_modified_canonical_asymptotic_strong_potential.nondimensional_helmholtz_free_energy prof N l m y kap T)
    (fun y => fjc_modified_canonical_asymptotic_strong_potential.nondimensional_force prof N y kap) 0 1 (IZR N) g /\
  conjugate (fun y => fjc_modified_canonical_asymptotic_strong_potential.nondimensional_helmholtz_free_energy_per_link prof N l m y kap T)
    (fun y => fjc_modified_canonical_asymptotic_strong_potential.nondimensional_force prof N y kap) 0 1 1 g /\
  conjugate (fun y => fjc_modified_canonical_asymptotic_strong_potential.nondimensional_relative_helmholtz_free_energy prof N y kap)
    (fun y => fjc_modified_canonical_asymptotic_strong_potential.nondimensional_force prof N y kap) 0 1 (IZR N) g /\
  conjugate (fun y => fjc_modified_canonical_asymptotic_strong_potential.nondimensional_relative_helmholtz_free_energy_per_link prof N y kap)
    (fun y => fjc_modified_canonical_asymptotic_strong_potential.nondimensional_force prof N y kap) 0 1 1 g.
Proof. exact z_strong_nd. Qed.
Print Assumptions C31_strong.

Theorem C31_strong_dimensional : forall prof (N : Z) (l m T k d : R),
  (2 <= N <= 26)%Z -> 0 < l -> 0 < T -> 0 < k -> 0 < d < IZR N * l -> (6 <= N)%Z \/ ~ knot N (d / (IZR N * l)) ->
  conjugate (fun y => fjc_modified_canonical_asymptotic_strong_potential.helmholtz_free_energy prof N l m y k T)
    (fun y => fjc_modified_canonical_asymptotic_strong_potential.force prof N l y k T) 0 (IZR N * l) 1 d /\
  conjugate (fun y => fjc_modified_canonical_asymptotic_strong_potential.helmholtz_free_energy_per_link prof N l m y k T)
    (fun y => fjc_modified_canonical_asymptotic_strong_potential.force prof N l y k T) 0 (IZR N * l) (1 / IZR N) d /\
  conjugate (fun y => fjc_modified_canonical_asymptotic_strong_potential.relative_helmholtz_free_energy prof N l y k T)
    (fun y => fjc_modified_canonical_asymptotic_strong_potential.force prof N l y k T) 0 (IZR N * l) 1 d /\
  conjugate (fun y => fjc_modified_canonical_asymptotic_strong_potential.relative_helmholtz_free_energy_per_link prof N l y k T)
    (fun y => fjc_modified_canonical_asymptotic_strong_potential.force prof N l y k T) 0 (IZR N * l) (1 / IZR N) d.
Proof. exact z_strong_dim. Qed.
Print Assumptions C31_strong_dimensional.

(** Its leading term is the isometric force. *)
Theorem C31_strong_leading : forall prof (N : Z) (g : R), (2 <= N <= 26)%Z -> 0 < g < 1 -> exists f0,
  fjc_isometric.nondimensional_force prof N g = Some f0 /\
  exists c, forall kap, 0 < kap ->
    fjc_modified_canonical_asymptotic_strong_potential.nondimensional_force prof N g kap = Some (f0 + c / kap).
Proof. exact z_strong_leading. Qed.
Print Assumptions C31_strong_leading.

Example C31_instance : exists A f, (forall y, 0 < y < 1 ->
    fjc_modified_canonical_asymptotic_strong_potential.nondimensional_helmholtz_free_energy Debug 8 1 1 y 50 300 = Some (A y)) /\
  fjc_modified_canonical_asymptotic_strong_potential.nondimensional_force Debug 8 (1 / 2) 50 = Some f /\ is_derive A (1 / 2) (8 * f).
Proof. apply (C31_strong Debug 8 1 1 300 50 (1 / 2)); try lia; try lra. Qed.
