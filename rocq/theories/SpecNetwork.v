(** The stress of a polymer network as an average over its chains. *)
From Coq Require Import Reals ZArith List.
From Verif Require Import Scalar MEfjc SpecDamage.
Import ListNotations.
Open Scope R_scope.

(** The rule used for integrals over [0, infinity): substitute x = artanh w and
    sample w at 1/(n+1), ..., n/(n+1). *)
Definition node_sum (n : nat) (f : R -> R) : R :=
  sum_over (seq 1 n) (fun i =>
    let w := INR i / (INR n + 1) in
    f (ln ((1 + w) / (1 - w)) / 2) / (1 - w ^ 2) * (1 / (INR n + 1))).

(** Difference of the axial and the lateral stress carried by a chain of [links]
    links whose end-to-end vector has axial component z and lateral component r
    (per link): the tension times its extension, resolved along the axis, minus
    half of the part resolved on the two lateral directions. *)
Definition chain_stress (stiffness : R) (links : Z) (z r : R) : R :=
  let gamma := sqrt (z ^ 2 + r ^ 2) in
  IZR links * efjc_isometric_asymptotic_reduced_legendre.nondimensional_force stiffness gamma
    * (z ^ 2 - r ^ 2 / 2) / gamma.

(** Volume of a ring of radius r, counted for z and for -z. *)
Definition ring_volume (r : R) : R := 2 * (2 * PI * r).

(** Stress of the network whose chains now at (z, r) had the length
    [reference z r] in the undeformed network. *)
Definition network_stress (n : nat) (method : Z) (stiffness : R) (links : Z) (reference : R -> R -> R) : R :=
  node_sum n (fun z => node_sum n (fun r =>
    ring_volume r * chain_stress stiffness links z r * exp (- chain_energy method stiffness links 1 (reference z r))))
  / node_sum n (fun gamma => 4 * PI * gamma ^ 2 * exp (- chain_energy method stiffness links 1 gamma)).

(** Equibiaxial deformation: the plane is stretched and the axis contracts by
    the square of the stretch. *)
Definition reference_length_equibiaxial (stretch z r : R) : R := sqrt ((z * stretch ^ 2) ^ 2 + (r / stretch) ^ 2).

(** Stress of a network at stretch [s] that has been at largest stretch [m] and
    whose chains break beyond the extension [c]; the undeformed network is
    swollen by the volume factor [swelling]. *)
Definition damaged_stress (n : nat) (method : Z) (c stiffness : R) (links : Z) (swelling s m : R) : R :=
  let lengths := sampled_lengths n c in
  let dz := c / INR n in
  sum_over lengths (fun z => sum_over lengths (fun r =>
    if Rle_dec (length_at_maximum s m z r) c
    then ring_volume r * chain_stress stiffness links z r
           * exp (- chain_energy method stiffness links (Rpower swelling (1 / 3)) (reference_length s z r))
           * dz ^ 2 / swelling ^ 3
    else 0))
  / sum_over lengths (fun gamma =>
      4 * PI * gamma ^ 2 * exp (- chain_energy method stiffness links 1 gamma) * dz / swelling).
