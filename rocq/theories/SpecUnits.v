(** The same chain described in other units.

    A chain is described a second time with every length multiplied by [a] and every energy, and
    so every temperature, multiplied by [b], both positive.  The numerical values of the Boltzmann
    and Planck constants stay as they are, which fixes the other factors: forces are multiplied by
    b / a, link stiffnesses by b / a^2 and masses by 1 / (a^2 b). *)
From Coq Require Import Reals.
From Verif Require Import SpecThermo.
Open Scope R_scope.

(** [c'] answers in the new units what [c] answers in the old ones: extensions. *)
Definition same_lengths (a b : R) (c c' : isotensional) : Prop :=
  forall f eta,
  I_length c' (b / a * f) = a * I_length c f /\
  I_length_per_link c' (b / a * f) = a * I_length_per_link c f /\
  I_nd_length c' eta = I_nd_length c eta /\
  I_nd_length_per_link c' eta = I_nd_length_per_link c eta.

(** Relative Gibbs free energies. *)
Definition same_relative_gibbs (a b : R) (c c' : isotensional) : Prop :=
  forall f eta,
  I_rel_gibbs c' (b / a * f) = b * I_rel_gibbs c f /\
  I_rel_gibbs_per_link c' (b / a * f) = b * I_rel_gibbs_per_link c f /\
  I_nd_rel_gibbs c' eta = I_nd_rel_gibbs c eta /\
  I_nd_rel_gibbs_per_link c' eta = I_nd_rel_gibbs_per_link c eta.

(** Absolute Gibbs free energies, up to [s] (in units of kT) for each of the [n] links. *)
Definition gibbs_shifted (n T s a b : R) (c c' : isotensional) : Prop :=
  forall f eta,
  I_gibbs c' (b / a * f) = b * (I_gibbs c f + n * (kB * T * s)) /\
  I_gibbs_per_link c' (b / a * f) = b * (I_gibbs_per_link c f + kB * T * s) /\
  I_nd_gibbs c' eta = I_nd_gibbs c eta + n * s /\
  I_nd_gibbs_per_link c' eta = I_nd_gibbs_per_link c eta + s.

Definition same_gibbs (a b : R) (c c' : isotensional) : Prop :=
  forall f eta,
  I_gibbs c' (b / a * f) = b * I_gibbs c f /\
  I_gibbs_per_link c' (b / a * f) = b * I_gibbs_per_link c f /\
  I_nd_gibbs c' eta = I_nd_gibbs c eta /\
  I_nd_gibbs_per_link c' eta = I_nd_gibbs_per_link c eta.

(** The same for the Helmholtz free energies of the Legendre transformation, as functions of
    force. *)
Definition same_relative_helmholtz (a b : R) (h h' : isotensional_helmholtz) : Prop :=
  forall f eta,
  IH_rel_helmholtz h' (b / a * f) = b * IH_rel_helmholtz h f /\
  IH_rel_helmholtz_per_link h' (b / a * f) = b * IH_rel_helmholtz_per_link h f /\
  IH_nd_rel_helmholtz h' eta = IH_nd_rel_helmholtz h eta /\
  IH_nd_rel_helmholtz_per_link h' eta = IH_nd_rel_helmholtz_per_link h eta.

Definition same_helmholtz (a b : R) (h h' : isotensional_helmholtz) : Prop :=
  forall f eta,
  IH_helmholtz h' (b / a * f) = b * IH_helmholtz h f /\
  IH_helmholtz_per_link h' (b / a * f) = b * IH_helmholtz_per_link h f /\
  IH_nd_helmholtz h' eta = IH_nd_helmholtz h eta /\
  IH_nd_helmholtz_per_link h' eta = IH_nd_helmholtz_per_link h eta.

Definition helmholtz_shifted (n T s a b : R) (h h' : isotensional_helmholtz) : Prop :=
  forall f eta,
  IH_helmholtz h' (b / a * f) = b * (IH_helmholtz h f + n * (kB * T * s)) /\
  IH_helmholtz_per_link h' (b / a * f) = b * (IH_helmholtz_per_link h f + kB * T * s) /\
  IH_nd_helmholtz h' eta = IH_nd_helmholtz h eta + n * s /\
  IH_nd_helmholtz_per_link h' eta = IH_nd_helmholtz_per_link h eta + s.

(** Chains at given end-to-end length: forces and relative energies, then absolute energies. *)
Definition same_forces (a b : R) (c c' : isometric) : Prop :=
  forall xi gamma,
  S_force c' (a * xi) = b / a * S_force c xi /\
  S_nd_force c' gamma = S_nd_force c gamma /\
  S_rel_helmholtz c' (a * xi) = b * S_rel_helmholtz c xi /\
  S_rel_helmholtz_per_link c' (a * xi) = b * S_rel_helmholtz_per_link c xi /\
  S_nd_rel_helmholtz c' gamma = S_nd_rel_helmholtz c gamma /\
  S_nd_rel_helmholtz_per_link c' gamma = S_nd_rel_helmholtz_per_link c gamma.

Definition same_isometric_helmholtz (a b : R) (c c' : isometric) : Prop :=
  forall xi gamma,
  S_helmholtz c' (a * xi) = b * S_helmholtz c xi /\
  S_helmholtz_per_link c' (a * xi) = b * S_helmholtz_per_link c xi /\
  S_nd_helmholtz c' gamma = S_nd_helmholtz c gamma /\
  S_nd_helmholtz_per_link c' gamma = S_nd_helmholtz_per_link c gamma.

Definition isometric_helmholtz_shifted (n T s a b : R) (c c' : isometric) : Prop :=
  forall xi gamma,
  S_helmholtz c' (a * xi) = b * (S_helmholtz c xi + n * (kB * T * s)) /\
  S_helmholtz_per_link c' (a * xi) = b * (S_helmholtz_per_link c xi + kB * T * s) /\
  S_nd_helmholtz c' gamma = S_nd_helmholtz c gamma + n * s /\
  S_nd_helmholtz_per_link c' gamma = S_nd_helmholtz_per_link c gamma + s.

(** Functions that may fail: at the same force, or length, both fail or both answer. *)
Definition scaled (r : R) (x y : option R) : Prop := y = option_map (Rmult r) x.

(** Densities over positions in space and over end-to-end lengths. *)
Definition same_densities (a : R) (p g p' g' : R -> R) : Prop :=
  forall xi, p' (a * xi) = p xi / a ^ 3 /\ g' (a * xi) = g xi / a.
