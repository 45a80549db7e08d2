(** C70: stretching a freely jointed chain costs free energy.

    [walk_density] is the density of the random walk (SpecWalk).  The monotonicity
    notions for functions that may panic are in SpecBell. *)
From Coq Require Import Reals ZArith Lra Lia.
From Verif Require Import Scalar MFjc SpecWalk SpecBell PBellFjc.
Open Scope R_scope.

(** The density of a random walk of any number of links other than three falls
    strictly with the distance, as far as the walk reaches. *)
Theorem C70_walk : forall (links : nat) (r s : R), (2 <= links)%nat -> links <> 3%nat -> 0 < r -> r < s -> r < INR links ->
  walk_density links s < walk_density links r.
Proof. exact walk_falls. Qed.
Print Assumptions C70_walk.

(** Three links: flat up to one link length, and falling from there. *)
Theorem C70_walk_three : forall r s : R, 0 < r -> r < s -> r < 3 ->
  walk_density 3 s <= walk_density 3 r /\
  (s <= 1 -> walk_density 3 s = walk_density 3 r) /\ (1 < s -> walk_density 3 s < walk_density 3 r).
Proof. exact walk_three. Qed.
Print Assumptions C70_walk_three.

(** The force resists extension, at every length. *)
Theorem C70_force : forall prof (N : Z), N <> 3%Z -> forall g, (2 <= N <= 34)%Z -> 0 < g < 1 ->
  positive_at (fjc_isometric.nondimensional_force prof N) g.
Proof. exact force_positive. Qed.
Print Assumptions C70_force.

Theorem C70_force_dimensional : forall prof (N : Z), N <> 3%Z -> forall l T xi, (2 <= N <= 34)%Z -> 0 < l -> 0 < T -> 0 < xi < IZR N * l ->
  positive_at (fun y => fjc_isometric.force prof N l y T) xi.
Proof. exact force_dimensional. Qed.
Print Assumptions C70_force_dimensional.

(** Three links: no force up to a third of the contour length. *)
Theorem C70_force_three : forall prof g, 0 < g < 1 ->
  (g < 1 / 3 -> fjc_isometric.nondimensional_force prof 3 g = Some 0) /\
  (1 / 3 <= g -> positive_at (fjc_isometric.nondimensional_force prof 3) g).
Proof. exact three_force. Qed.
Print Assumptions C70_force_three.

(** The distribution falls ... *)
Theorem C70_distribution : forall prof (N : Z), N <> 3%Z -> (2 <= N <= 26)%Z ->
  strictly_falling (fjc_isometric.nondimensional_equilibrium_distribution prof N) 0 1.
Proof. exact density_falls. Qed.
Print Assumptions C70_distribution.

Theorem C70_distribution_dimensional : forall prof (N : Z), N <> 3%Z -> forall l, (2 <= N <= 26)%Z -> 0 < l ->
  strictly_falling (fjc_isometric.equilibrium_distribution prof N l) 0 (IZR N * l).
Proof. exact density_dimensional. Qed.
Print Assumptions C70_distribution_dimensional.

Theorem C70_distribution_three : forall prof,
  constant (fjc_isometric.nondimensional_equilibrium_distribution prof 3) 0 (1 / 3) /\
  strictly_falling (fjc_isometric.nondimensional_equilibrium_distribution prof 3) (1 / 3) 1.
Proof. exact three_density. Qed.
Print Assumptions C70_distribution_three.

(** ... and every Helmholtz free energy rises. *)
Theorem C70_free_energy : forall prof (N : Z), N <> 3%Z -> forall l m T, (2 <= N <= 26)%Z -> 0 < l ->
  strictly_rising (fun y => fjc_isometric.nondimensional_helmholtz_free_energy prof N l m y T) 0 1 /\
  strictly_rising (fun y => fjc_isometric.nondimensional_helmholtz_free_energy_per_link prof N l m y T) 0 1 /\
  strictly_rising (fjc_isometric.nondimensional_relative_helmholtz_free_energy prof N) 0 1 /\
  strictly_rising (fjc_isometric.nondimensional_relative_helmholtz_free_energy_per_link prof N) 0 1.
Proof. exact helmholtz_rises. Qed.
Print Assumptions C70_free_energy.

Theorem C70_free_energy_dimensional : forall prof (N : Z), N <> 3%Z -> forall l m T, (2 <= N <= 26)%Z -> 0 < l -> 0 < T ->
  strictly_rising (fun y => fjc_isometric.helmholtz_free_energy prof N l m y T) 0 (IZR N * l) /\
  strictly_rising (fun y => fjc_isometric.helmholtz_free_energy_per_link prof N l m y T) 0 (IZR N * l) /\
  strictly_rising (fun y => fjc_isometric.relative_helmholtz_free_energy prof N l y T) 0 (IZR N * l) /\
  strictly_rising (fun y => fjc_isometric.relative_helmholtz_free_energy_per_link prof N l y T) 0 (IZR N * l).
Proof. exact helmholtz_dimensional. Qed.
Print Assumptions C70_free_energy_dimensional.

(** The force itself need not rise: short chains get softer. *)
Theorem C70_two_links_soften : forall prof, strictly_falling (fjc_isometric.nondimensional_force prof 2) 0 1.
Proof. exact two_softer. Qed.
Print Assumptions C70_two_links_soften.
Theorem C70_three_links_soften : forall prof, strictly_falling (fjc_isometric.nondimensional_force prof 3) (1 / 3) (1 / 2).
Proof. exact three_softer. Qed.
Print Assumptions C70_three_links_soften.

Example C70_eight : positive_at (fjc_isometric.nondimensional_force Debug 8) (1 / 2).
Proof. apply C70_force; [lia | lia | lra]. Qed.
Example C70_hundred : walk_density 100 60 < walk_density 100 50.
Proof. apply C70_walk; [lia | lia | lra | lra |]. replace 50 with (INR 50) by (cbn; lra). apply lt_INR; lia. Qed.
