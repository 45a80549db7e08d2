(** Theorems for C11, C12, C13 and C14 on the modules whose functions may panic. *)
From Coq Require Import Reals ZArith Lra Lia.
From Verif Require Import Scalar MConst MFjc MWlc SpecThermo SpecChains SpecReference SpecPartial PIsometric PPartial PReference.
Open Scope R_scope.

(** ** C12 *)
Theorem C12_fjc_isometric : forall prof N l m T, (0 < N)%Z -> 0 < l -> 0 < T ->
  p_isometric_dimensionless (IZR N) l T (C_fjc_isometric prof N l m T) /\
  p_isometric_gibbs_dimensionless (IZR N) l T (C_fjc_isometric_legendre_gibbs prof N l m T).
Proof.
  intros prof N l m T H0 H1 H2.
  exact (conj (fjc_isometric_dimensionless prof N l m T H1) (fjc_isometric_legendre_gibbs_dimensionless prof N l m T)).
Qed.
Print Assumptions C12_fjc_isometric.

Theorem C12_wlc_isotensional : forall N l m T p, (0 < N)%Z -> 0 < l -> 0 < T ->
  p_isotensional_dimensionless l T (C_wlc_isotensional N l m T p) /\
  p_isotensional_helmholtz_dimensionless l T (C_wlc_isotensional_legendre N l m T p).
Proof.
  intros N l m T p H0 H1 H2.
  exact (conj (wlc_isotensional_dimensionless N l m T p) (wlc_isotensional_legendre_dimensionless N l m T p)).
Qed.
Print Assumptions C12_wlc_isotensional.

(** ** C13 *)
Theorem C13_fjc_isometric : forall prof N l m T, (0 < N)%Z -> 0 < l -> 0 < T ->
  p_isometric_extensive (IZR N) (C_fjc_isometric prof N l m T) /\
  p_isometric_gibbs_extensive (IZR N) (C_fjc_isometric_legendre_gibbs prof N l m T).
Proof.
  intros prof N l m T H0 H1 H2.
  exact (conj (fjc_isometric_extensive prof N l m T H0) (fjc_isometric_legendre_gibbs_extensive prof N l m T H0)).
Qed.
Print Assumptions C13_fjc_isometric.

Theorem C13_wlc_isotensional : forall N l m T p, (0 < N)%Z -> 0 < l -> 0 < T ->
  p_isotensional_extensive (IZR N) (C_wlc_isotensional N l m T p) /\
  p_isotensional_helmholtz_extensive (IZR N) (C_wlc_isotensional_legendre N l m T p).
Proof.
  intros N l m T p H0 H1 H2.
  exact (conj (wlc_isotensional_extensive N l m T p H0) (wlc_isotensional_legendre_extensive N l m T p H0)).
Qed.
Print Assumptions C13_wlc_isotensional.

(** ** C14 *)
Theorem C14_fjc_isometric : forall prof N l m T, (2 <= N <= 26)%Z -> 0 < l -> 0 < T ->
  p_isometric_relative (IZR N) l (C_fjc_isometric prof N l m T) /\
  p_isometric_gibbs_relative (IZR N) l (C_fjc_isometric_legendre_gibbs prof N l m T).
Proof.
  intros prof N l m T H0 H1 H2. assert (HN : (0 < N)%Z) by lia.
  pose proof (fun x => z_positive prof N x H0) as P.
  exact (conj (fjc_isometric_relative prof N l m T HN H1 P) (fjc_isometric_legendre_gibbs_relative prof N l m T HN H1 P)).
Qed.
Print Assumptions C14_fjc_isometric.

Theorem C14_wlc_isotensional : forall N l m T p, (0 < N)%Z -> 0 < l -> 0 < T ->
  p_isotensional_relative l T (C_wlc_isotensional N l m T p) /\
  p_isotensional_helmholtz_relative l T (C_wlc_isotensional_legendre N l m T p).
Proof.
  intros N l m T p H0 H1 H2.
  exact (conj (wlc_isotensional_relative N l m T p H0 H1 H2) (wlc_isotensional_legendre_relative N l m T p H0 H1 H2)).
Qed.
Print Assumptions C14_wlc_isotensional.

(** The ideal chain and the FJC use closed forms whose reference state is zero
    force or extension. *)
Theorem C14_ideal_reference : forall N l m T, (0 < N)%Z -> 0 < l -> 0 < T ->
  isometric_vanishing (C_ideal_isometric N l m T) /\ isotensional_vanishing (C_ideal_isotensional N l m T).
Proof. exact ideal_vanishing. Qed.
Print Assumptions C14_ideal_reference.

Theorem C14_fjc_reference : forall N l m T, (0 < N)%Z -> 0 < l -> 0 < T ->
  isometric_vanishing (C_fjc_isometric_legendre N l m T) /\ isotensional_vanishing (C_fjc_isotensional N l m T) /\
  isotensional_helmholtz_vanishing (C_fjc_isotensional_legendre N l m T).
Proof. exact fjc_vanishing. Qed.
Print Assumptions C14_fjc_reference.

(** ** C11 *)
Theorem C11_fjc_isometric : forall prof N l m T, (2 <= N <= 26)%Z -> 0 < l -> 0 < T ->
  p_isometric_legendre (IZR N) l (C_fjc_isometric prof N l m T) (C_fjc_isometric_legendre_gibbs prof N l m T).
Proof.
  intros prof N l m T H0 H1 H2. assert (HN : (0 < N)%Z) by lia.
  exact (fjc_isometric_legendre_legendre prof N l m T HN H1 (fun x => z_positive prof N x H0)).
Qed.
Print Assumptions C11_fjc_isometric.

Theorem C11_wlc_isotensional : forall N l m T p, (0 < N)%Z -> 0 < l -> 0 < T ->
  p_isotensional_legendre l T (C_wlc_isotensional N l m T p) (C_wlc_isotensional_legendre N l m T p).
Proof.
  intros N l m T p H0 H1 H2.
  exact (wlc_isotensional_legendre_legendre N l m T p H0 H1 H2).
Qed.
Print Assumptions C11_wlc_isotensional.

(** The functions of the FJC return for these lengths. *)
Example C11_fjc_isometric_example :
  (exists f, PS_nd_force (C_fjc_isometric Debug 8 1 1 300) (1 / 2) = Some f) /\
  (exists P, fjc_isometric.nondimensional_equilibrium_distribution Debug 8 (1 / 2) = Some P /\ 0 < P).
Proof. split; [apply z_force_positive | apply z_positive]; try lia; lra. Qed.
