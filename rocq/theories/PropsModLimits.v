(** The modified canonical ensemble between its limits: C62. *)
From Coq Require Import Reals ZArith Lra Lia.
From Coquelicot Require Import Coquelicot.
From Verif Require Import Scalar MMath MConst MFjc SpecThermo SpecModLimits PModLimits.
Open Scope R_scope.

(** ** A weak potential is a constant force

    The potential is moved away as it is weakened, [d = eta / (N kappa)], so that the
    force it exerts far from its centre stays [eta]. The Gibbs free energy tends to that
    of the chain under the constant force [eta] ... *)
Theorem C62_weak_gibbs : forall prof (N : Z) (l m T eta : R), (2 <= N <= 26)%Z -> 0 < eta -> exists G : R -> R,
  (forall kap, 0 < kap ->
    fjc_modified_canonical.nondimensional_gibbs_free_energy prof N l m (eta / (IZR N * kap)) kap T = Some (G kap)) /\
  filterlim G (at_right 0) (locally (- ln (constant_force_sum N eta)
    - (IZR N - 1) * ln (8 * PI ^ 2 * m * l ^ 2 * kB * T / hP ^ 2))).
Proof. intros prof N l m T eta HN. exact (z_weak_gibbs prof N HN l m T eta). Qed.
Print Assumptions C62_weak_gibbs.

(** ... and the extension to the extension that belongs to it. *)
Theorem C62_weak_length : forall prof (N : Z) (eta : R), (2 <= N <= 26)%Z -> 0 < eta -> exists (X : R -> R) x,
  (forall kap, 0 < kap ->
    fjc_modified_canonical.nondimensional_end_to_end_length_per_link prof N (eta / (IZR N * kap)) kap = Some (X kap)) /\
  filterlim X (at_right 0) (locally x) /\
  is_derive (fun e => ln (constant_force_sum N e)) eta (IZR N * x).
Proof. intros prof N eta HN. exact (z_weak_length prof N HN eta). Qed.
Print Assumptions C62_weak_length.

(** The weak-potential approach tends to the isotensional ensemble. *)
Theorem C62_asymptotic_weak : forall (N : Z) (eta : R), (0 < N)%Z -> filterlim
  (fun kap => fjc_modified_canonical_asymptotic_weak_potential.nondimensional_end_to_end_length_per_link N (eta / (IZR N * kap)) kap)
  (at_right 0) (locally (fjc_isotensional.nondimensional_end_to_end_length_per_link eta)).
Proof. exact z_asymptotic_weak. Qed.
Print Assumptions C62_asymptotic_weak.

(** ** The chain is never longer than its contour, wherever the potential is centred. *)
Theorem C62_length_bounds : forall prof (N : Z) (d kap : R), (2 <= N <= 26)%Z -> 0 < d -> 0 < kap -> exists x,
  fjc_modified_canonical.nondimensional_end_to_end_length_per_link prof N d kap = Some x /\ 0 < x < 1.
Proof. intros prof N d kap HN. exact (z_length_bounds prof N HN d kap). Qed.
Print Assumptions C62_length_bounds.

(** It gets longer as the potential is moved away. *)
Theorem C62_length_increasing : forall prof (N : Z) (kap d e : R), (2 <= N <= 26)%Z -> 0 < kap -> 0 < d < e -> exists x y,
  fjc_modified_canonical.nondimensional_end_to_end_length_per_link prof N d kap = Some x /\
  fjc_modified_canonical.nondimensional_end_to_end_length_per_link prof N e kap = Some y /\ x < y.
Proof. exact z_length_increasing. Qed.
Print Assumptions C62_length_increasing.

(** ** A strong potential should fix the end-to-end length

    The strong-potential approach tends to the isometric ensemble. *)
Theorem C62_asymptotic_strong : forall prof (N : Z) (g : R), (2 <= N <= 26)%Z -> 0 < g < 1 -> exists f0 (F : R -> R),
  fjc_isometric.nondimensional_force prof N g = Some f0 /\
  (forall kap, 0 < kap -> fjc_modified_canonical_asymptotic_strong_potential.nondimensional_force prof N g kap = Some (F kap)) /\
  is_lim F p_infty f0.
Proof. exact z_asymptotic_strong. Qed.
Print Assumptions C62_asymptotic_strong.

(** The exact approach does not: the 64 points of its integrals are fixed, and as the
    potential stiffens only the point nearest to its centre keeps any weight. The
    extension tends to that point, not to the distance of the potential, and the force
    grows with the stiffness instead of tending to the isometric force. *)
Theorem C62_strong_grid_refuted : forall prof (N : Z) (d : R) (i : Z), (2 <= N <= 26)%Z -> 0 < d -> nearest d i -> exists F X : R -> R,
  (forall kap, 0 < kap ->
    fjc_modified_canonical.nondimensional_force prof N d kap = Some (F kap) /\
    fjc_modified_canonical.nondimensional_end_to_end_length_per_link prof N d kap = Some (X kap)) /\
  is_lim (fun kap => F kap / kap) p_infty (IZR N * (d - grid i)) /\
  is_lim X p_infty (grid i).
Proof. intros prof N d i HN. exact (z_strong prof N HN d i). Qed.
Print Assumptions C62_strong_grid_refuted.

Theorem C62_strong_force_refuted : forall prof N d i, (2 <= N <= 26)%Z -> 0 < d -> nearest d i -> d <> grid i -> exists F : R -> R,
  (forall kap, 0 < kap -> fjc_modified_canonical.nondimensional_force prof N d kap = Some (F kap)) /\
  is_lim (fun kap => Rabs (F kap)) p_infty p_infty.
Proof. exact z_strong_diverges. Qed.
Print Assumptions C62_strong_force_refuted.

(** A potential centred at half the contour length. *)
Example C62_strong_instance : nearest (1 / 2) 31 /\ 1 / 2 <> grid 31.
Proof. exact grid_half. Qed.

Example C62_strong_8 : exists F : R -> R,
  (forall kap, 0 < kap -> fjc_modified_canonical.nondimensional_force Debug 8 (1 / 2) kap = Some (F kap)) /\
  is_lim (fun kap => Rabs (F kap)) p_infty p_infty.
Proof. apply (C62_strong_force_refuted Debug 8 (1 / 2) 31); (lia || lra || apply C62_strong_instance). Qed.

Example C62_bounds_8 : exists x,
  fjc_modified_canonical.nondimensional_end_to_end_length_per_link Release 8 3 50 = Some x /\ 0 < x < 1.
Proof. apply C62_length_bounds; (lia || lra). Qed.
