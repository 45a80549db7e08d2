(** The isometric freely jointed chain (Treloar sums): C09, C25-C28. *)
From Coq Require Import Reals ZArith Lra Lia.
From Coquelicot Require Import Coquelicot.
From Verif Require Import Scalar MConst MTreloar MFjc SpecThermo SpecWalk SpecIsometric PIsometric.
Open Scope R_scope.

(** ** C25: the distribution is the density of a walk of N independent links

    [walk_density] is built in SpecWalk by averaging over the sphere, one link
    after the other; distances per contour length are N times shorter and the
    densities N^3 times larger. *)
Theorem C25_density : forall prof (N : Z) (g : R), (2 <= N <= 26)%Z -> 0 < g < 1 ->
  fjc_isometric.nondimensional_equilibrium_distribution prof N g
  = Some (IZR N ^ 3 * walk_density (Z.to_nat N) (IZR N * g)).
Proof. exact z_density. Qed.
Print Assumptions C25_density.

Theorem C25_density_dimensional : forall prof (N : Z) (l xi : R), (2 <= N <= 26)%Z -> 0 < l -> 0 < xi < IZR N * l ->
  fjc_isometric.equilibrium_distribution prof N l xi = Some (walk_density (Z.to_nat N) (xi / l) / l ^ 3).
Proof. exact z_density_dimensional. Qed.
Print Assumptions C25_density_dimensional.

(** Projected on an axis it is the repeated convolution of the uniform density of
    one projected link: the projection at [g] of a radial density collects the
    rings 2 pi r dr of all spheres that reach beyond [g]. *)
Theorem C25_axis : forall prof (N : Z) (g : R), (2 <= N <= 26)%Z -> 0 < g < 1 ->
  integral (fun r => match fjc_isometric.nondimensional_equilibrium_distribution prof N r with
                     | Some p => Some (2 * PI * r * p) | None => None end) g 1
    (IZR N * axis_density (Z.to_nat N) (IZR N * g)).
Proof. exact z_axis. Qed.
Print Assumptions C25_axis.

Example three_links : forall r, 0 < r < 1 -> walk_density 3 r = 1 / (8 * PI).
Proof. exact three_links_density. Qed.

(** ** C26: normalisation *)
Theorem C26_nondimensional : forall prof (N : Z), (2 <= N <= 26)%Z ->
  integral (fjc_isometric.nondimensional_equilibrium_radial_distribution prof N) 0 1 1.
Proof. exact z_normalised. Qed.
Print Assumptions C26_nondimensional.

Theorem C26_dimensional : forall prof (N : Z) (l : R), (2 <= N <= 26)%Z -> 0 < l ->
  integral (fjc_isometric.equilibrium_radial_distribution prof N l) 0 (IZR N * l) 1.
Proof. exact z_normalised_dimensional. Qed.
Print Assumptions C26_dimensional.

(** ** C27: positivity *)
Theorem C27_positive : forall prof (N : Z) (g : R), (2 <= N <= 26)%Z -> 0 < g < 1 -> exists p,
  fjc_isometric.nondimensional_equilibrium_distribution prof N g = Some p /\ 0 < p.
Proof. exact z_positive. Qed.
Print Assumptions C27_positive.

(** ** C28: where the functions return *)
Theorem C28_force_domain : forall (N : Z) (g : R), (0 <= N <= 255)%Z ->
  (fjc_isometric.nondimensional_force Debug N g <> None <->
   (2 <= N <= 34)%Z /\ -1 - 2 / IZR N <= g < 1).
Proof. exact force_domain. Qed.
Print Assumptions C28_force_domain.

Theorem C28_distribution_domain : forall (N : Z) (g : R), (0 <= N <= 255)%Z ->
  (fjc_isometric.nondimensional_equilibrium_distribution Debug N g <> None <->
   (2 <= N <= 26)%Z /\ -1 - 2 / IZR N <= g < 1).
Proof. exact distribution_domain. Qed.
Print Assumptions C28_distribution_domain.

(** Without overflow checks the longer chains get a value that is too small. *)
Theorem C28_release_wrong : forall (N : Z) (g : R), (27 <= N <= 34)%Z -> 0 < g < 1 -> exists v,
  fjc_isometric.nondimensional_equilibrium_distribution Release N g = Some v /\
  v < IZR N ^ 3 * walk_density (Z.to_nat N) (IZR N * g).
Proof. exact z_release_wrong. Qed.
Print Assumptions C28_release_wrong.

(** ** C09: the force is the derivative of the free energy *)
Theorem C09_nondimensional : forall prof (N : Z) (l m T g : R), (2 <= N <= 26)%Z -> 0 < l -> 0 < g < 1 ->
  N <> 3%Z \/ g <> 1 / 3 ->
  conjugate (fun y => fjc_isometric.nondimensional_helmholtz_free_energy prof N l m y T)
    (fjc_isometric.nondimensional_force prof N) 0 1 (IZR N) g /\
  conjugate (fun y => fjc_isometric.nondimensional_helmholtz_free_energy_per_link prof N l m y T)
    (fjc_isometric.nondimensional_force prof N) 0 1 1 g /\
  conjugate (fjc_isometric.nondimensional_relative_helmholtz_free_energy prof N)
    (fjc_isometric.nondimensional_force prof N) 0 1 (IZR N) g /\
  conjugate (fjc_isometric.nondimensional_relative_helmholtz_free_energy_per_link prof N)
    (fjc_isometric.nondimensional_force prof N) 0 1 1 g.
Proof. exact z_conj_nondimensional. Qed.
Print Assumptions C09_nondimensional.

Theorem C09_dimensional : forall prof (N : Z) (l m T xi : R), (2 <= N <= 26)%Z -> 0 < l -> 0 < T ->
  0 < xi < IZR N * l -> N <> 3%Z \/ xi <> l ->
  conjugate (fun y => fjc_isometric.helmholtz_free_energy prof N l m y T)
    (fun y => fjc_isometric.force prof N l y T) 0 (IZR N * l) 1 xi /\
  conjugate (fun y => fjc_isometric.helmholtz_free_energy_per_link prof N l m y T)
    (fun y => fjc_isometric.force prof N l y T) 0 (IZR N * l) (1 / IZR N) xi /\
  conjugate (fun y => fjc_isometric.relative_helmholtz_free_energy prof N l y T)
    (fun y => fjc_isometric.force prof N l y T) 0 (IZR N * l) 1 xi /\
  conjugate (fun y => fjc_isometric.relative_helmholtz_free_energy_per_link prof N l y T)
    (fun y => fjc_isometric.force prof N l y T) 0 (IZR N * l) (1 / IZR N) xi.
Proof. exact z_conj_dimensional. Qed.
Print Assumptions C09_dimensional.

(** The one exception: three links at one third of the contour length, where the
    second term enters the sum, and where the free energy has no derivative. *)
Theorem C09_three_links_refuted : forall prof (l m T : R), 0 < l ->
  ~ exists A : R -> R, (forall y, 0 < y < 1 ->
      fjc_isometric.nondimensional_helmholtz_free_energy prof 3 l m y T = Some (A y)) /\ ex_derive A (1 / 3).
Proof. exact three_links_kink. Qed.
Print Assumptions C09_three_links_refuted.

Example C09_instance : exists f, fjc_isometric.nondimensional_force Debug 8 (1 / 2) = Some f.
Proof. apply z_force_positive; [lia | lra]. Qed.
