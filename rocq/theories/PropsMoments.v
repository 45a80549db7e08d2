(** C83: the mean square end-to-end length is that of a random walk. *)
From Coq Require Import Reals ZArith Lra Lia.
From Coquelicot Require Import Coquelicot.
From Verif Require Import Scalar MConst MTreloar MFjc MIdeal SpecMoments SpecHooke PBase PMoments PHooke.
Open Scope R_scope.

(** The freely jointed chain at a given length: lengths in units of the contour length. *)
Theorem C83_fjc_nondimensional : forall prof (N : Z), (2 <= N <= 26)%Z ->
  mean_square_length (fjc_isometric.nondimensional_equilibrium_radial_distribution prof N) 0 1 (1 / IZR N).
Proof. exact fjc_square. Qed.
Print Assumptions C83_fjc_nondimensional.

(** The same with units: N l^2. *)
Theorem C83_fjc : forall prof (N : Z) (l : R), (2 <= N <= 26)%Z -> 0 < l ->
  mean_square_length (fjc_isometric.equilibrium_radial_distribution prof N l) 0 (IZR N * l) (IZR N * l ^ 2).
Proof. exact fjc_square_dimensional. Qed.
Print Assumptions C83_fjc.

(** The ideal chain. *)
Theorem C83_ideal_nondimensional : forall N, (0 < N)%Z ->
  half_line_mean_square_length (ideal_isometric.nondimensional_equilibrium_radial_distribution N) (1 / IZR N).
Proof. exact ideal_square. Qed.
Print Assumptions C83_ideal_nondimensional.

Theorem C83_ideal : forall N (l : R), (0 < N)%Z -> 0 < l ->
  half_line_mean_square_length (ideal_isometric.equilibrium_radial_distribution N l) (IZR N * l ^ 2).
Proof. exact ideal_square_dimensional. Qed.
Print Assumptions C83_ideal.

(** The most probable length of the ideal chain is l sqrt (2 N / 3). *)
Theorem C83_ideal_peak : forall N (l : R), (0 < N)%Z -> 0 < l ->
  most_probable (ideal_isometric.equilibrium_radial_distribution N l) (l * sqrt (2 * IZR N / 3)).
Proof. exact ideal_peak_dimensional. Qed.
Print Assumptions C83_ideal_peak.

Theorem C83_ideal_peak_nondimensional : forall N, (0 < N)%Z ->
  most_probable (ideal_isometric.nondimensional_equilibrium_radial_distribution N) (sqrt (2 / (3 * IZR N))).
Proof. exact ideal_peak. Qed.
Print Assumptions C83_ideal_peak_nondimensional.

(** Fluctuation and response: the slope of the extension per link at weak forces, which the
    other ensemble computes, is N / 3 times the mean square of the free chain. *)
Theorem C83_response : forall prof (N : Z), (2 <= N <= 26)%Z -> exists square,
  mean_square_length (fjc_isometric.nondimensional_equilibrium_radial_distribution prof N) 0 1 square /\
  weak_slope (@fjc_isotensional.nondimensional_end_to_end_length_per_link R R_scalar) (IZR N * square / 3).
Proof. exact fjc_response. Qed.
Print Assumptions C83_response.

(** A chain of eight links of length 1 covers the mean square distance 8. *)
Example C83_eight : mean_square_length (fjc_isometric.equilibrium_radial_distribution Release 8 1) 0 (IZR 8 * 1) (IZR 8 * 1 ^ 2).
Proof. apply C83_fjc; [lia | lra]. Qed.
Example C83_eight_ideal : half_line_mean_square_length (ideal_isometric.equilibrium_radial_distribution 8 1) (IZR 8 * 1 ^ 2).
Proof. apply C83_ideal; [lia | lra]. Qed.
