(** Self-normalised distributions: C49.

    The midpoint rule is the library's, with 64 points and the lower limit 1e-6
    times the upper one (per contour length). *)
From Coq Require Import Reals ZArith Lra Lia.
From Verif Require Import Scalar MMath MConst MFjc MSwfjc MWlc PNormalised.
Open Scope R_scope.

Theorem C49_fjc : forall (N : Z) (l m : R), (0 < N)%Z -> 0 < l ->
  let chain := O_fjc_isometric_legendre.init N l m in
  math.integrate_1d (O_fjc_isometric_legendre.nondimensional_equilibrium_radial_distribution chain) (1 / 10 ^ 6) 1 64 = 1 /\
  math.integrate_1d (O_fjc_isometric_legendre.equilibrium_radial_distribution chain)
    (1 / 10 ^ 6 * (IZR N * l)) (1 * (IZR N * l)) 64 = 1.
Proof. exact fjc_self_normalised. Qed.
Print Assumptions C49_fjc.

(** The square-well chain divides by a normalisation built from the results of the
    root finder. *)
Theorem C49_swfjc : forall (N : Z) (l m w : R), (0 < N)%Z -> 0 < l ->
  let chain := O_swfjc_isometric_legendre.init N l m w in
  O_swfjc_isometric_legendre.normalization_nondimensional_equilibrium_distribution chain <> 0 ->
  math.integrate_1d (O_swfjc_isometric_legendre.nondimensional_equilibrium_radial_distribution chain) (1 / 10 ^ 6) (1 + w / l) 64 = 1 /\
  math.integrate_1d (O_swfjc_isometric_legendre.equilibrium_radial_distribution chain)
    (1 / 10 ^ 6 * (IZR N * l)) ((1 + w / l) * (IZR N * l)) 64 = 1.
Proof. exact swfjc_self_normalised. Qed.
Print Assumptions C49_swfjc.

Theorem C49_wlc : forall (N : Z) (l m p : R), (0 < N)%Z -> 0 < l -> 0 < p ->
  let chain := O_wlc_isometric.init N l m p in
  math.integrate_1d (O_wlc_isometric.nondimensional_equilibrium_radial_distribution chain) (1 / 10 ^ 6) 1 64 = 1 /\
  math.integrate_1d (O_wlc_isometric.equilibrium_radial_distribution chain)
    (1 / 10 ^ 6 * (IZR N * l)) (1 * (IZR N * l)) 64 = 1.
Proof. exact wlc_self_normalised. Qed.
Print Assumptions C49_wlc.

(** Positive densities: for the worm-like chain everywhere inside the contour. *)
Theorem C49_wlc_positive : forall (N : Z) (l p x : R), (0 < N)%Z -> 0 < l -> 0 < p -> 0 < x < 1 ->
  0 < wlc_isometric.nondimensional_equilibrium_distribution (p / IZR N / l) 1 x.
Proof. intros N l p x HN Hl Hp. exact (wlc_density_pos N l p HN Hl Hp x). Qed.
Print Assumptions C49_wlc_positive.
