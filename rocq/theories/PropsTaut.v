(** C84: the pull of a chain that is almost straight. *)
From Coq Require Import Reals ZArith Lra Lia.
From Coquelicot Require Import Coquelicot.
From Verif Require Import Scalar MConst MTreloar MFjc MWlc SpecThermo SpecTaut PBase PTaut.
Open Scope R_scope.

(** The exact freely jointed chain within two link lengths of its full length.  Two
    links (N = 2) pull with kT / xi at every length, so their pull stays finite; from
    three links on the force grows without bound. *)
Theorem C84_fjc_nondimensional : forall prof (N : Z) (g : R), (2 <= N <= 34)%Z -> 0 < g -> 1 - 2 / IZR N <= g < 1 ->
  fjc_isometric.nondimensional_force prof N g = Some (((IZR N - 2) / (1 - g) + 1 / g) / IZR N).
Proof. exact fjc_taut. Qed.
Print Assumptions C84_fjc_nondimensional.

Theorem C84_fjc : forall prof (N : Z) (l xi T : R), (2 <= N <= 34)%Z -> 0 < l -> 0 < T -> 0 < xi -> (IZR N - 2) * l <= xi < IZR N * l ->
  fjc_isometric.force prof N l xi T = Some (kB * T * ((IZR N - 2) / (IZR N * l - xi) + 1 / xi)).
Proof. exact fjc_taut_dimensional. Qed.
Print Assumptions C84_fjc.

(** The Legendre method, whose force is found by iteration, has the pole 1 / (1 - g). *)
Theorem C84_fjc_legendre_nondimensional :
  simple_pole_within (@fjc_isometric_legendre.nondimensional_force R R_scalar) (99 / 100) (98 / 100) 1 /\
  (forall g : R, 1 / 1000 < g < 1 -> 3 / 5 * g <= (1 - g) * fjc_isometric_legendre.nondimensional_force g <= 1).
Proof. exact (conj fjc_legendre_very_taut fjc_legendre_taut). Qed.
Print Assumptions C84_fjc_legendre_nondimensional.

Theorem C84_fjc_legendre : forall N (l xi T : R), (0 < N)%Z -> 0 < l -> 0 < T -> 99 / 100 * (IZR N * l) <= xi < IZR N * l ->
  98 / 100 * (IZR N * (kB * T)) <= (IZR N * l - xi) * fjc_isometric_legendre.force N l xi T <= IZR N * (kB * T).
Proof. exact fjc_legendre_taut_dimensional. Qed.
Print Assumptions C84_fjc_legendre.

(** The worm-like chain with the persistence length p: the law kT / (4 p (1 - xi / L)^2) of Marko and Siggia. *)
Theorem C84_wlc_nondimensional : forall N (z : R), (0 < N)%Z -> 0 < z ->
  diverges_as (wlc_isometric.nondimensional_force N z) 1 2 (1 / (4 * (IZR N * z))).
Proof. exact wlc_taut. Qed.
Print Assumptions C84_wlc_nondimensional.

Theorem C84_wlc : forall N (l p T : R), (0 < N)%Z -> 0 < l -> 0 < p -> 0 < T ->
  diverges_as (fun xi => wlc_isometric.force N l p xi T) (IZR N * l) 2 (kB * T / (4 * p)).
Proof. exact wlc_taut_dimensional. Qed.
Print Assumptions C84_wlc.

Example C84_eight : fjc_isometric.nondimensional_force Debug 8 (9 / 10) = Some (((IZR 8 - 2) / (1 - 9 / 10) + 1 / (9 / 10)) / IZR 8).
Proof. apply C84_fjc_nondimensional; [lia | lra | lra]. Qed.
Example C84_stiff : diverges_as (fun xi => wlc_isometric.force 8 1 2 xi 300) (IZR 8 * 1) 2 (kB * 300 / (4 * 2)).
Proof. apply C84_wlc; [lia | lra | lra | lra]. Qed.
Example C84_legendre_range : 1 / 1000 < 1 / 2 < 1 /\ 99 / 100 <= 995 / 1000 < 1.
Proof. lra. Qed.
