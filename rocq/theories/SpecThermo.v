(** What a thermodynamic ensemble of a single chain promises, independent of any
    particular chain model.

    An ensemble is presented as the functions of one variable a user gets once
    the number of links, link length, hinge mass, temperature and material
    parameters are fixed.  Dimensional functions take a force (or an end-to-end
    length), nondimensional ones take force*l/kT (or length/(N*l)). *)
From Coq Require Import Reals.
From Coquelicot Require Import Coquelicot.
From Verif Require Import Scalar MConst.
Open Scope R_scope.

(** Boltzmann constant (J/mol/K) and Planck constant (J ns/mol) of the crate. *)
Definition kB : R := 8.314462618.
Definition hP : R := 0.06350779923502961.

(** Isotensional ensemble: controlled force. *)
Record isotensional := {
  I_length : R -> R;
  I_length_per_link : R -> R;
  I_nd_length : R -> R;
  I_nd_length_per_link : R -> R;
  I_gibbs : R -> R;
  I_gibbs_per_link : R -> R;
  I_rel_gibbs : R -> R;
  I_rel_gibbs_per_link : R -> R;
  I_nd_gibbs : R -> R;
  I_nd_gibbs_per_link : R -> R;
  I_nd_rel_gibbs : R -> R;
  I_nd_rel_gibbs_per_link : R -> R }.

(** The Helmholtz free energies offered by an isotensional/legendre module. *)
Record isotensional_helmholtz := {
  IH_helmholtz : R -> R;
  IH_helmholtz_per_link : R -> R;
  IH_rel_helmholtz : R -> R;
  IH_rel_helmholtz_per_link : R -> R;
  IH_nd_helmholtz : R -> R;
  IH_nd_helmholtz_per_link : R -> R;
  IH_nd_rel_helmholtz : R -> R;
  IH_nd_rel_helmholtz_per_link : R -> R }.

(** Isometric ensemble: controlled end-to-end length. *)
Record isometric := {
  S_force : R -> R;
  S_nd_force : R -> R;
  S_helmholtz : R -> R;
  S_helmholtz_per_link : R -> R;
  S_rel_helmholtz : R -> R;
  S_rel_helmholtz_per_link : R -> R;
  S_nd_helmholtz : R -> R;
  S_nd_helmholtz_per_link : R -> R;
  S_nd_rel_helmholtz : R -> R;
  S_nd_rel_helmholtz_per_link : R -> R }.

(** The Gibbs free energies offered by an isometric/legendre module. *)
Record isometric_gibbs := {
  SG_gibbs : R -> R;
  SG_gibbs_per_link : R -> R;
  SG_rel_gibbs : R -> R;
  SG_rel_gibbs_per_link : R -> R;
  SG_nd_gibbs : R -> R;
  SG_nd_gibbs_per_link : R -> R;
  SG_nd_rel_gibbs : R -> R;
  SG_nd_rel_gibbs_per_link : R -> R }.

(** Extension is minus the force derivative of every Gibbs free energy: at force
    [f] for the dimensional functions, at nondimensional force [eta] for the
    others. *)
Definition isotensional_conjugate_at (c : isotensional) (f eta : R) : Prop :=
  is_derive (I_gibbs c) f (- I_length c f) /\
  is_derive (I_gibbs_per_link c) f (- I_length_per_link c f) /\
  is_derive (I_rel_gibbs c) f (- I_length c f) /\
  is_derive (I_rel_gibbs_per_link c) f (- I_length_per_link c f) /\
  is_derive (I_nd_gibbs c) eta (- I_nd_length c eta) /\
  is_derive (I_nd_gibbs_per_link c) eta (- I_nd_length_per_link c eta) /\
  is_derive (I_nd_rel_gibbs c) eta (- I_nd_length c eta) /\
  is_derive (I_nd_rel_gibbs_per_link c) eta (- I_nd_length_per_link c eta).

(** Dimensional functions are the nondimensional ones at force*l/kT, rescaled. *)
Definition isotensional_dimensionless (l T : R) (c : isotensional) : Prop :=
  forall f, let eta := f * l / (kB * T) in
  I_length c f = l * I_nd_length c eta /\
  I_length_per_link c f = l * I_nd_length_per_link c eta /\
  I_gibbs c f = kB * T * I_nd_gibbs c eta /\
  I_gibbs_per_link c f = kB * T * I_nd_gibbs_per_link c eta /\
  I_rel_gibbs c f = kB * T * I_nd_rel_gibbs c eta /\
  I_rel_gibbs_per_link c f = kB * T * I_nd_rel_gibbs_per_link c eta.

Definition isotensional_helmholtz_dimensionless (l T : R) (h : isotensional_helmholtz) : Prop :=
  forall f, let eta := f * l / (kB * T) in
  IH_helmholtz h f = kB * T * IH_nd_helmholtz h eta /\
  IH_helmholtz_per_link h f = kB * T * IH_nd_helmholtz_per_link h eta /\
  IH_rel_helmholtz h f = kB * T * IH_nd_rel_helmholtz h eta /\
  IH_rel_helmholtz_per_link h f = kB * T * IH_nd_rel_helmholtz_per_link h eta.

(** Totals are [n] times the per-link functions. *)
Definition isotensional_extensive (n : R) (c : isotensional) : Prop :=
  forall x,
  I_length c x = n * I_length_per_link c x /\
  I_nd_length c x = n * I_nd_length_per_link c x /\
  I_gibbs c x = n * I_gibbs_per_link c x /\
  I_rel_gibbs c x = n * I_rel_gibbs_per_link c x /\
  I_nd_gibbs c x = n * I_nd_gibbs_per_link c x /\
  I_nd_rel_gibbs c x = n * I_nd_rel_gibbs_per_link c x.

Definition isotensional_helmholtz_extensive (n : R) (h : isotensional_helmholtz) : Prop :=
  forall x,
  IH_helmholtz h x = n * IH_helmholtz_per_link h x /\
  IH_rel_helmholtz h x = n * IH_rel_helmholtz_per_link h x /\
  IH_nd_helmholtz h x = n * IH_nd_helmholtz_per_link h x /\
  IH_nd_rel_helmholtz h x = n * IH_nd_rel_helmholtz_per_link h x.

(** A relative free energy differs from the absolute one by a constant: both have
    the same increments. *)
Definition same_increments (rel abs : R -> R) : Prop :=
  forall x y, rel x - rel y = abs x - abs y.

Definition isotensional_relative (c : isotensional) : Prop :=
  same_increments (I_rel_gibbs c) (I_gibbs c) /\
  same_increments (I_rel_gibbs_per_link c) (I_gibbs_per_link c) /\
  same_increments (I_nd_rel_gibbs c) (I_nd_gibbs c) /\
  same_increments (I_nd_rel_gibbs_per_link c) (I_nd_gibbs_per_link c).

Definition isotensional_helmholtz_relative (h : isotensional_helmholtz) : Prop :=
  same_increments (IH_rel_helmholtz h) (IH_helmholtz h) /\
  same_increments (IH_rel_helmholtz_per_link h) (IH_helmholtz_per_link h) /\
  same_increments (IH_nd_rel_helmholtz h) (IH_nd_helmholtz h) /\
  same_increments (IH_nd_rel_helmholtz_per_link h) (IH_nd_helmholtz_per_link h).

(** The relative Gibbs free energies vanish at the reference force whose
    nondimensional value is 1e-6. *)
Definition isotensional_reference (l T : R) (c : isotensional) : Prop :=
  let eta0 := / 10 ^ 6 in
  let f0 := eta0 * (kB * T) / l in
  I_rel_gibbs c f0 = 0 /\ I_rel_gibbs_per_link c f0 = 0 /\
  I_nd_rel_gibbs c eta0 = 0 /\ I_nd_rel_gibbs_per_link c eta0 = 0.

Definition isotensional_helmholtz_reference (l T : R) (h : isotensional_helmholtz) : Prop :=
  let eta0 := / 10 ^ 6 in
  let f0 := eta0 * (kB * T) / l in
  IH_rel_helmholtz h f0 = 0 /\ IH_rel_helmholtz_per_link h f0 = 0 /\
  IH_nd_rel_helmholtz h eta0 = 0 /\ IH_nd_rel_helmholtz_per_link h eta0 = 0.

(** Legendre transformation: Helmholtz = Gibbs + force * extension (absolute
    energies), and for the relative energies the same increments.  Zero force is
    excluded: there the code divides zero by zero. *)
Definition same_increments_off_zero (rel abs : R -> R) : Prop :=
  forall x y, x <> 0 -> y <> 0 -> rel x - rel y = abs x - abs y.

Definition isotensional_legendre (c : isotensional) (h : isotensional_helmholtz) : Prop :=
  (forall x, x <> 0 ->
    IH_helmholtz h x = I_gibbs c x + x * I_length c x /\
    IH_helmholtz_per_link h x = I_gibbs_per_link c x + x * I_length_per_link c x /\
    IH_nd_helmholtz h x = I_nd_gibbs c x + x * I_nd_length c x /\
    IH_nd_helmholtz_per_link h x = I_nd_gibbs_per_link c x + x * I_nd_length_per_link c x) /\
  same_increments_off_zero (IH_rel_helmholtz h)
    (fun x => I_rel_gibbs c x + x * I_length c x) /\
  same_increments_off_zero (IH_rel_helmholtz_per_link h)
    (fun x => I_rel_gibbs_per_link c x + x * I_length_per_link c x) /\
  same_increments_off_zero (IH_nd_rel_helmholtz h)
    (fun x => I_nd_rel_gibbs c x + x * I_nd_length c x) /\
  same_increments_off_zero (IH_nd_rel_helmholtz_per_link h)
    (fun x => I_nd_rel_gibbs_per_link c x + x * I_nd_length_per_link c x).

(** ** Isometric ensemble *)

Definition isometric_conjugate_at (n : R) (c : isometric) (xi gamma : R) : Prop :=
  is_derive (S_helmholtz c) xi (S_force c xi) /\
  is_derive (S_helmholtz_per_link c) xi (S_force c xi / n) /\
  is_derive (S_rel_helmholtz c) xi (S_force c xi) /\
  is_derive (S_rel_helmholtz_per_link c) xi (S_force c xi / n) /\
  is_derive (S_nd_helmholtz c) gamma (n * S_nd_force c gamma) /\
  is_derive (S_nd_helmholtz_per_link c) gamma (S_nd_force c gamma) /\
  is_derive (S_nd_rel_helmholtz c) gamma (n * S_nd_force c gamma) /\
  is_derive (S_nd_rel_helmholtz_per_link c) gamma (S_nd_force c gamma).

Definition isometric_dimensionless (n l T : R) (c : isometric) : Prop :=
  forall xi, let gamma := xi / (n * l) in
  S_force c xi = kB * T / l * S_nd_force c gamma /\
  S_helmholtz c xi = kB * T * S_nd_helmholtz c gamma /\
  S_helmholtz_per_link c xi = kB * T * S_nd_helmholtz_per_link c gamma /\
  S_rel_helmholtz c xi = kB * T * S_nd_rel_helmholtz c gamma /\
  S_rel_helmholtz_per_link c xi = kB * T * S_nd_rel_helmholtz_per_link c gamma.

Definition isometric_extensive (n : R) (c : isometric) : Prop :=
  forall x,
  S_helmholtz c x = n * S_helmholtz_per_link c x /\
  S_rel_helmholtz c x = n * S_rel_helmholtz_per_link c x /\
  S_nd_helmholtz c x = n * S_nd_helmholtz_per_link c x /\
  S_nd_rel_helmholtz c x = n * S_nd_rel_helmholtz_per_link c x.

Definition isometric_relative (c : isometric) : Prop :=
  same_increments (S_rel_helmholtz c) (S_helmholtz c) /\
  same_increments (S_rel_helmholtz_per_link c) (S_helmholtz_per_link c) /\
  same_increments (S_nd_rel_helmholtz c) (S_nd_helmholtz c) /\
  same_increments (S_nd_rel_helmholtz_per_link c) (S_nd_helmholtz_per_link c).

(** The relative Helmholtz free energies vanish at the end-to-end length whose
    nondimensional value per link is 1e-6. *)
Definition isometric_reference (n l : R) (c : isometric) : Prop :=
  let gamma0 := / 10 ^ 6 in
  let xi0 := gamma0 * (n * l) in
  S_rel_helmholtz c xi0 = 0 /\ S_rel_helmholtz_per_link c xi0 = 0 /\
  S_nd_rel_helmholtz c gamma0 = 0 /\ S_nd_rel_helmholtz_per_link c gamma0 = 0.

(** Gibbs = Helmholtz - force * length.  In nondimensional form the product of
    force*l/kT and length/(N l) is per link, so the total has a factor [n]. *)
Definition isometric_legendre (n : R) (c : isometric) (g : isometric_gibbs) : Prop :=
  (forall x,
    SG_gibbs g x = S_helmholtz c x - S_force c x * x /\
    SG_gibbs_per_link g x = S_helmholtz_per_link c x - S_force c x * x / n /\
    SG_nd_gibbs g x = S_nd_helmholtz c x - n * S_nd_force c x * x /\
    SG_nd_gibbs_per_link g x = S_nd_helmholtz_per_link c x - S_nd_force c x * x) /\
  same_increments (SG_rel_gibbs g) (fun x => S_rel_helmholtz c x - S_force c x * x) /\
  same_increments (SG_rel_gibbs_per_link g) (fun x => S_rel_helmholtz_per_link c x - S_force c x * x / n) /\
  same_increments (SG_nd_rel_gibbs g) (fun x => S_nd_rel_helmholtz c x - n * S_nd_force c x * x) /\
  same_increments (SG_nd_rel_gibbs_per_link g) (fun x => S_nd_rel_helmholtz_per_link c x - S_nd_force c x * x).
