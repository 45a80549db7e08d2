(** The thermodynamic identities of [SpecThermo] for functions that may panic
    (None).  An identity between two calls says that both panic or both return
    and then satisfy it. *)
From Coq Require Import Reals ZArith.
From Verif Require Import Scalar MConst MFjc MWlc SpecThermo SpecChains.
Open Scope R_scope.

(** Multiplication by a number, and sums and differences, of calls that may panic. *)
Definition oscale (k : R) (a : option R) : option R := match a with Some x => Some (k * x) | None => None end.
Definition oplus (a b : option R) : option R :=
  match a, b with Some x, Some y => Some (x + y) | _, _ => None end.
Definition ominus (a b : option R) : option R :=
  match a, b with Some x, Some y => Some (x - y) | _, _ => None end.

(** The same records as in [SpecThermo]. *)
Record p_isometric := {
  PS_force : R -> option R;
  PS_nd_force : R -> option R;
  PS_helmholtz : R -> option R;
  PS_helmholtz_per_link : R -> option R;
  PS_rel_helmholtz : R -> option R;
  PS_rel_helmholtz_per_link : R -> option R;
  PS_nd_helmholtz : R -> option R;
  PS_nd_helmholtz_per_link : R -> option R;
  PS_nd_rel_helmholtz : R -> option R;
  PS_nd_rel_helmholtz_per_link : R -> option R }.

Record p_isometric_gibbs := {
  PG_gibbs : R -> option R;
  PG_gibbs_per_link : R -> option R;
  PG_rel_gibbs : R -> option R;
  PG_rel_gibbs_per_link : R -> option R;
  PG_nd_gibbs : R -> option R;
  PG_nd_gibbs_per_link : R -> option R;
  PG_nd_rel_gibbs : R -> option R;
  PG_nd_rel_gibbs_per_link : R -> option R }.

Record p_isotensional := {
  PI_length : R -> option R;
  PI_length_per_link : R -> option R;
  PI_nd_length : R -> option R;
  PI_nd_length_per_link : R -> option R;
  PI_gibbs : R -> option R;
  PI_gibbs_per_link : R -> option R;
  PI_rel_gibbs : R -> option R;
  PI_rel_gibbs_per_link : R -> option R;
  PI_nd_gibbs : R -> option R;
  PI_nd_gibbs_per_link : R -> option R;
  PI_nd_rel_gibbs : R -> option R;
  PI_nd_rel_gibbs_per_link : R -> option R }.

Record p_isotensional_helmholtz := {
  PH_helmholtz : R -> option R;
  PH_helmholtz_per_link : R -> option R;
  PH_rel_helmholtz : R -> option R;
  PH_rel_helmholtz_per_link : R -> option R;
  PH_nd_helmholtz : R -> option R;
  PH_nd_helmholtz_per_link : R -> option R;
  PH_nd_rel_helmholtz : R -> option R;
  PH_nd_rel_helmholtz_per_link : R -> option R }.

(** ** The chains *)

Definition C_fjc_isometric (prof : profile) (N : Z) (l m T : R) : p_isometric := {|
  PS_force := fun x => fjc_isometric.force prof N l x T;
  PS_nd_force := fun x => fjc_isometric.nondimensional_force prof N x;
  PS_helmholtz := fun x => fjc_isometric.helmholtz_free_energy prof N l m x T;
  PS_helmholtz_per_link := fun x => fjc_isometric.helmholtz_free_energy_per_link prof N l m x T;
  PS_rel_helmholtz := fun x => fjc_isometric.relative_helmholtz_free_energy prof N l x T;
  PS_rel_helmholtz_per_link := fun x => fjc_isometric.relative_helmholtz_free_energy_per_link prof N l x T;
  PS_nd_helmholtz := fun x => fjc_isometric.nondimensional_helmholtz_free_energy prof N l m x T;
  PS_nd_helmholtz_per_link := fun x => fjc_isometric.nondimensional_helmholtz_free_energy_per_link prof N l m x T;
  PS_nd_rel_helmholtz := fun x => fjc_isometric.nondimensional_relative_helmholtz_free_energy prof N x;
  PS_nd_rel_helmholtz_per_link := fun x => fjc_isometric.nondimensional_relative_helmholtz_free_energy_per_link prof N x |}.

Definition C_fjc_isometric_legendre_gibbs (prof : profile) (N : Z) (l m T : R) : p_isometric_gibbs := {|
  PG_gibbs := fun x => fjc_isometric_legendre.gibbs_free_energy prof N l m x T;
  PG_gibbs_per_link := fun x => fjc_isometric_legendre.gibbs_free_energy_per_link prof N l m x T;
  PG_rel_gibbs := fun x => fjc_isometric_legendre.relative_gibbs_free_energy prof N l x T;
  PG_rel_gibbs_per_link := fun x => fjc_isometric_legendre.relative_gibbs_free_energy_per_link prof N l x T;
  PG_nd_gibbs := fun x => fjc_isometric_legendre.nondimensional_gibbs_free_energy prof N l m x T;
  PG_nd_gibbs_per_link := fun x => fjc_isometric_legendre.nondimensional_gibbs_free_energy_per_link prof N l m x T;
  PG_nd_rel_gibbs := fun x => fjc_isometric_legendre.nondimensional_relative_gibbs_free_energy prof N x;
  PG_nd_rel_gibbs_per_link := fun x => fjc_isometric_legendre.nondimensional_relative_gibbs_free_energy_per_link prof N x |}.

Definition C_wlc_isotensional (N : Z) (l m T p : R) : p_isotensional := {|
  PI_length := fun x => wlc_isotensional.end_to_end_length N l p x T;
  PI_length_per_link := fun x => wlc_isotensional.end_to_end_length_per_link N l p x T;
  PI_nd_length := fun x => wlc_isotensional.nondimensional_end_to_end_length N (zeta p N l) x;
  PI_nd_length_per_link := fun x => wlc_isotensional.nondimensional_end_to_end_length_per_link N (zeta p N l) x;
  PI_gibbs := fun x => wlc_isotensional.gibbs_free_energy N l m p x T;
  PI_gibbs_per_link := fun x => wlc_isotensional.gibbs_free_energy_per_link N l m p x T;
  PI_rel_gibbs := fun x => wlc_isotensional.relative_gibbs_free_energy N l p x T;
  PI_rel_gibbs_per_link := fun x => wlc_isotensional.relative_gibbs_free_energy_per_link N l p x T;
  PI_nd_gibbs := fun x => wlc_isotensional.nondimensional_gibbs_free_energy N l m (zeta p N l) x T;
  PI_nd_gibbs_per_link := fun x => wlc_isotensional.nondimensional_gibbs_free_energy_per_link N l m (zeta p N l) x T;
  PI_nd_rel_gibbs := fun x => wlc_isotensional.nondimensional_relative_gibbs_free_energy N (zeta p N l) x;
  PI_nd_rel_gibbs_per_link := fun x => wlc_isotensional.nondimensional_relative_gibbs_free_energy_per_link N (zeta p N l) x |}.

Definition C_wlc_isotensional_legendre (N : Z) (l m T p : R) : p_isotensional_helmholtz := {|
  PH_helmholtz := fun x => wlc_isotensional_legendre.helmholtz_free_energy N l m p x T;
  PH_helmholtz_per_link := fun x => wlc_isotensional_legendre.helmholtz_free_energy_per_link N l m p x T;
  PH_rel_helmholtz := fun x => wlc_isotensional_legendre.relative_helmholtz_free_energy N l p x T;
  PH_rel_helmholtz_per_link := fun x => wlc_isotensional_legendre.relative_helmholtz_free_energy_per_link N l p x T;
  PH_nd_helmholtz := fun x => wlc_isotensional_legendre.nondimensional_helmholtz_free_energy N l m (zeta p N l) x T;
  PH_nd_helmholtz_per_link := fun x => wlc_isotensional_legendre.nondimensional_helmholtz_free_energy_per_link N l m (zeta p N l) x T;
  PH_nd_rel_helmholtz := fun x => wlc_isotensional_legendre.nondimensional_relative_helmholtz_free_energy N (zeta p N l) x;
  PH_nd_rel_helmholtz_per_link := fun x => wlc_isotensional_legendre.nondimensional_relative_helmholtz_free_energy_per_link N (zeta p N l) x |}.

(** ** Dimensional against nondimensional functions *)

Definition p_isometric_dimensionless (n l T : R) (c : p_isometric) : Prop :=
  forall xi, let gamma := xi / (n * l) in
  PS_force c xi = oscale (kB * T / l) (PS_nd_force c gamma) /\
  PS_helmholtz c xi = oscale (kB * T) (PS_nd_helmholtz c gamma) /\
  PS_helmholtz_per_link c xi = oscale (kB * T) (PS_nd_helmholtz_per_link c gamma) /\
  PS_rel_helmholtz c xi = oscale (kB * T) (PS_nd_rel_helmholtz c gamma) /\
  PS_rel_helmholtz_per_link c xi = oscale (kB * T) (PS_nd_rel_helmholtz_per_link c gamma).

Definition p_isometric_gibbs_dimensionless (n l T : R) (g : p_isometric_gibbs) : Prop :=
  forall xi, let gamma := xi / (n * l) in
  PG_gibbs g xi = oscale (kB * T) (PG_nd_gibbs g gamma) /\
  PG_gibbs_per_link g xi = oscale (kB * T) (PG_nd_gibbs_per_link g gamma) /\
  PG_rel_gibbs g xi = oscale (kB * T) (PG_nd_rel_gibbs g gamma) /\
  PG_rel_gibbs_per_link g xi = oscale (kB * T) (PG_nd_rel_gibbs_per_link g gamma).

Definition p_isotensional_dimensionless (l T : R) (c : p_isotensional) : Prop :=
  forall f, let eta := f * l / (kB * T) in
  PI_length c f = oscale l (PI_nd_length c eta) /\
  PI_length_per_link c f = oscale l (PI_nd_length_per_link c eta) /\
  PI_gibbs c f = oscale (kB * T) (PI_nd_gibbs c eta) /\
  PI_gibbs_per_link c f = oscale (kB * T) (PI_nd_gibbs_per_link c eta) /\
  PI_rel_gibbs c f = oscale (kB * T) (PI_nd_rel_gibbs c eta) /\
  PI_rel_gibbs_per_link c f = oscale (kB * T) (PI_nd_rel_gibbs_per_link c eta).

Definition p_isotensional_helmholtz_dimensionless (l T : R) (h : p_isotensional_helmholtz) : Prop :=
  forall f, let eta := f * l / (kB * T) in
  PH_helmholtz h f = oscale (kB * T) (PH_nd_helmholtz h eta) /\
  PH_helmholtz_per_link h f = oscale (kB * T) (PH_nd_helmholtz_per_link h eta) /\
  PH_rel_helmholtz h f = oscale (kB * T) (PH_nd_rel_helmholtz h eta) /\
  PH_rel_helmholtz_per_link h f = oscale (kB * T) (PH_nd_rel_helmholtz_per_link h eta).

(** ** Totals *)

Definition p_isometric_extensive (n : R) (c : p_isometric) : Prop :=
  forall x,
  PS_helmholtz c x = oscale n (PS_helmholtz_per_link c x) /\
  PS_rel_helmholtz c x = oscale n (PS_rel_helmholtz_per_link c x) /\
  PS_nd_helmholtz c x = oscale n (PS_nd_helmholtz_per_link c x) /\
  PS_nd_rel_helmholtz c x = oscale n (PS_nd_rel_helmholtz_per_link c x).

Definition p_isometric_gibbs_extensive (n : R) (g : p_isometric_gibbs) : Prop :=
  forall x,
  PG_gibbs g x = oscale n (PG_gibbs_per_link g x) /\
  PG_rel_gibbs g x = oscale n (PG_rel_gibbs_per_link g x) /\
  PG_nd_gibbs g x = oscale n (PG_nd_gibbs_per_link g x) /\
  PG_nd_rel_gibbs g x = oscale n (PG_nd_rel_gibbs_per_link g x).

Definition p_isotensional_extensive (n : R) (c : p_isotensional) : Prop :=
  forall x,
  PI_length c x = oscale n (PI_length_per_link c x) /\
  PI_nd_length c x = oscale n (PI_nd_length_per_link c x) /\
  PI_gibbs c x = oscale n (PI_gibbs_per_link c x) /\
  PI_rel_gibbs c x = oscale n (PI_rel_gibbs_per_link c x) /\
  PI_nd_gibbs c x = oscale n (PI_nd_gibbs_per_link c x) /\
  PI_nd_rel_gibbs c x = oscale n (PI_nd_rel_gibbs_per_link c x).

Definition p_isotensional_helmholtz_extensive (n : R) (h : p_isotensional_helmholtz) : Prop :=
  forall x,
  PH_helmholtz h x = oscale n (PH_helmholtz_per_link h x) /\
  PH_rel_helmholtz h x = oscale n (PH_rel_helmholtz_per_link h x) /\
  PH_nd_helmholtz h x = oscale n (PH_nd_helmholtz_per_link h x) /\
  PH_nd_rel_helmholtz h x = oscale n (PH_nd_rel_helmholtz_per_link h x).

(** ** Relative free energies: the absolute one minus the absolute one at the
    reference length or force, 1e-6 in nondimensional units. *)

Definition difference_from (rel abs : R -> option R) (x0 x : R) : Prop := rel x = ominus (abs x) (abs x0).

(** For end-to-end lengths strictly between 0 and the contour length. *)
Definition p_isometric_relative (n l : R) (c : p_isometric) : Prop :=
  let gamma0 := / 10 ^ 6 in
  let xi0 := gamma0 * (n * l) in
  (forall xi, 0 < xi < n * l ->
    difference_from (PS_rel_helmholtz c) (PS_helmholtz c) xi0 xi /\
    difference_from (PS_rel_helmholtz_per_link c) (PS_helmholtz_per_link c) xi0 xi) /\
  (forall gamma, 0 < gamma < 1 ->
    difference_from (PS_nd_rel_helmholtz c) (PS_nd_helmholtz c) gamma0 gamma /\
    difference_from (PS_nd_rel_helmholtz_per_link c) (PS_nd_helmholtz_per_link c) gamma0 gamma).

Definition p_isometric_gibbs_relative (n l : R) (g : p_isometric_gibbs) : Prop :=
  let gamma0 := / 10 ^ 6 in
  let xi0 := gamma0 * (n * l) in
  (forall xi, 0 < xi < n * l ->
    difference_from (PG_rel_gibbs g) (PG_gibbs g) xi0 xi /\
    difference_from (PG_rel_gibbs_per_link g) (PG_gibbs_per_link g) xi0 xi) /\
  (forall gamma, 0 < gamma < 1 ->
    difference_from (PG_nd_rel_gibbs g) (PG_nd_gibbs g) gamma0 gamma /\
    difference_from (PG_nd_rel_gibbs_per_link g) (PG_nd_gibbs_per_link g) gamma0 gamma).

(** For every force. *)
Definition p_isotensional_relative (l T : R) (c : p_isotensional) : Prop :=
  let eta0 := / 10 ^ 6 in
  let f0 := eta0 * (kB * T) / l in
  (forall f, difference_from (PI_rel_gibbs c) (PI_gibbs c) f0 f) /\
  (forall f, difference_from (PI_rel_gibbs_per_link c) (PI_gibbs_per_link c) f0 f) /\
  (forall eta, difference_from (PI_nd_rel_gibbs c) (PI_nd_gibbs c) eta0 eta) /\
  (forall eta, difference_from (PI_nd_rel_gibbs_per_link c) (PI_nd_gibbs_per_link c) eta0 eta).

Definition p_isotensional_helmholtz_relative (l T : R) (h : p_isotensional_helmholtz) : Prop :=
  let eta0 := / 10 ^ 6 in
  let f0 := eta0 * (kB * T) / l in
  (forall f, difference_from (PH_rel_helmholtz h) (PH_helmholtz h) f0 f) /\
  (forall f, difference_from (PH_rel_helmholtz_per_link h) (PH_helmholtz_per_link h) f0 f) /\
  (forall eta, difference_from (PH_nd_rel_helmholtz h) (PH_nd_helmholtz h) eta0 eta) /\
  (forall eta, difference_from (PH_nd_rel_helmholtz_per_link h) (PH_nd_helmholtz_per_link h) eta0 eta).

(** ** Legendre transformations *)

Definition p_isometric_legendre (n l : R) (c : p_isometric) (g : p_isometric_gibbs) : Prop :=
  (forall x,
    PG_gibbs g x = ominus (PS_helmholtz c x) (oscale x (PS_force c x)) /\
    PG_gibbs_per_link g x = ominus (PS_helmholtz_per_link c x) (oscale (x / n) (PS_force c x)) /\
    PG_nd_gibbs g x = ominus (PS_nd_helmholtz c x) (oscale (n * x) (PS_nd_force c x)) /\
    PG_nd_gibbs_per_link g x = ominus (PS_nd_helmholtz_per_link c x) (oscale x (PS_nd_force c x))) /\
  (let gamma0 := / 10 ^ 6 in
   let xi0 := gamma0 * (n * l) in
   (forall xi, 0 < xi < n * l ->
     difference_from (PG_rel_gibbs g) (fun x => ominus (PS_rel_helmholtz c x) (oscale x (PS_force c x))) xi0 xi /\
     difference_from (PG_rel_gibbs_per_link g)
       (fun x => ominus (PS_rel_helmholtz_per_link c x) (oscale (x / n) (PS_force c x))) xi0 xi) /\
   (forall gamma, 0 < gamma < 1 ->
     difference_from (PG_nd_rel_gibbs g)
       (fun x => ominus (PS_nd_rel_helmholtz c x) (oscale (n * x) (PS_nd_force c x))) gamma0 gamma /\
     difference_from (PG_nd_rel_gibbs_per_link g)
       (fun x => ominus (PS_nd_rel_helmholtz_per_link c x) (oscale x (PS_nd_force c x))) gamma0 gamma)).

Definition p_isotensional_legendre (l T : R) (c : p_isotensional) (h : p_isotensional_helmholtz) : Prop :=
  (forall x,
    PH_helmholtz h x = oplus (PI_gibbs c x) (oscale x (PI_length c x)) /\
    PH_helmholtz_per_link h x = oplus (PI_gibbs_per_link c x) (oscale x (PI_length_per_link c x)) /\
    PH_nd_helmholtz h x = oplus (PI_nd_gibbs c x) (oscale x (PI_nd_length c x)) /\
    PH_nd_helmholtz_per_link h x = oplus (PI_nd_gibbs_per_link c x) (oscale x (PI_nd_length_per_link c x))) /\
  (let eta0 := / 10 ^ 6 in
   let f0 := eta0 * (kB * T) / l in
   (forall f, difference_from (PH_rel_helmholtz h) (fun x => oplus (PI_rel_gibbs c x) (oscale x (PI_length c x))) f0 f) /\
   (forall f, difference_from (PH_rel_helmholtz_per_link h)
      (fun x => oplus (PI_rel_gibbs_per_link c x) (oscale x (PI_length_per_link c x))) f0 f) /\
   (forall eta, difference_from (PH_nd_rel_helmholtz h)
      (fun x => oplus (PI_nd_rel_gibbs c x) (oscale x (PI_nd_length c x))) eta0 eta) /\
   (forall eta, difference_from (PH_nd_rel_helmholtz_per_link h)
      (fun x => oplus (PI_nd_rel_gibbs_per_link c x) (oscale x (PI_nd_length_per_link c x))) eta0 eta)).
