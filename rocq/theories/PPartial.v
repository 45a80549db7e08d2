(** Proofs of the identities of [SpecPartial]. *)
From Coq Require Import Reals ZArith Lra Lia List Bool.
From Verif Require Import Scalar MMath MConst MTreloar MFjc MWlc SpecThermo SpecChains SpecPartial PBase.
Import ListNotations.
Open Scope R_scope.

(** Arguments of the calls. *)
Lemma arg_f : forall f l T : R, (f * l / BOLTZMANN_CONSTANT / T)%S = f * l / (kB * T).
Proof. intros. rewrite B_eq. apply grp_f2. Qed.

Lemma scale_Some : forall (a : option R) k h, (forall x, h x = k * x) ->
  match a with Some x => Some (h x) | None => None end = oscale k a.
Proof. intros a k h E. destruct a; simpl; [rewrite E|]; reflexivity. Qed.

Ltac opt := repeat match goal with
  | |- context [match ?c with Some _ => _ | None => _ end] =>
      lazymatch c with
      | context [match _ with Some _ => _ | None => _ end] => fail
      | _ => destruct c eqn:?; cbn [oscale oplus ominus]
      end
  | |- context [oscale _ ?c] =>
      lazymatch c with
      | context [match _ with Some _ => _ | None => _ end] => fail
      | Some _ => fail
      | _ => destruct c eqn:?; cbn [oscale oplus ominus]
      end
  end.

Lemma ominus_scale : forall k a b, ominus (oscale k a) (oscale k b) = oscale k (ominus a b).
Proof. intros k [a|] [b|]; cbn; try reflexivity. f_equal; ring. Qed.
Lemma oplus_scale : forall k a b, oplus (oscale k a) (oscale k b) = oscale k (oplus a b).
Proof. intros k [a|] [b|]; cbn; try reflexivity. f_equal; ring. Qed.
Lemma oscale_oscale : forall k j a, oscale k (oscale j a) = oscale (k * j) a.
Proof. intros k j [a|]; cbn; try reflexivity. f_equal; ring. Qed.

(** ** WLC, isotensional *)

Section Wlc.
Variables (N : Z) (l m T p : R).
Hypotheses (HN : (0 < N)%Z) (Hl : 0 < l) (HT : 0 < T).
Let z := zeta p N l.

Lemma wlc_isotensional_dimensionless : p_isotensional_dimensionless l T (C_wlc_isotensional N l m T p).
Proof.
  intros f. cbv zeta.
  cbn [PI_length PI_length_per_link PI_nd_length PI_nd_length_per_link PI_gibbs PI_gibbs_per_link PI_rel_gibbs
    PI_rel_gibbs_per_link PI_nd_gibbs PI_nd_gibbs_per_link PI_nd_rel_gibbs PI_nd_rel_gibbs_per_link C_wlc_isotensional].
  rewrite <- (arg_f f l T).
  repeat split; apply scale_Some; intros x;
    first [ reflexivity | change (x * BOLTZMANN_CONSTANT * T = kB * T * x); rewrite B_eq; ring ].
Qed.

Lemma wlc_isotensional_legendre_dimensionless :
  p_isotensional_helmholtz_dimensionless l T (C_wlc_isotensional_legendre N l m T p).
Proof.
  intros f. cbv zeta.
  cbn [PH_helmholtz PH_helmholtz_per_link PH_rel_helmholtz PH_rel_helmholtz_per_link PH_nd_helmholtz
    PH_nd_helmholtz_per_link PH_nd_rel_helmholtz PH_nd_rel_helmholtz_per_link C_wlc_isotensional_legendre].
  rewrite <- (arg_f f l T).
  repeat split; apply scale_Some; intros x;
    change (x * BOLTZMANN_CONSTANT * T = kB * T * x); rewrite B_eq; ring.
Qed.

Lemma NZ' : IZR N <> 0.
Proof. apply NZ, HN. Qed.

Lemma wlc_isotensional_extensive : p_isotensional_extensive (IZR N) (C_wlc_isotensional N l m T p).
Proof.
  intros f.
  cbn [PI_length PI_length_per_link PI_nd_length PI_nd_length_per_link PI_gibbs PI_gibbs_per_link PI_rel_gibbs
    PI_rel_gibbs_per_link PI_nd_gibbs PI_nd_gibbs_per_link PI_nd_rel_gibbs PI_nd_rel_gibbs_per_link C_wlc_isotensional].
  unfold wlc_isotensional.end_to_end_length, wlc_isotensional.end_to_end_length_per_link,
    wlc_isotensional.nondimensional_end_to_end_length_per_link,
    wlc_isotensional.gibbs_free_energy, wlc_isotensional.gibbs_free_energy_per_link,
    wlc_isotensional.relative_gibbs_free_energy, wlc_isotensional.relative_gibbs_free_energy_per_link,
    wlc_isotensional.nondimensional_relative_gibbs_free_energy,
    wlc_isotensional.nondimensional_relative_gibbs_free_energy_per_link,
    wlc_isotensional.nondimensional_gibbs_free_energy_per_link.
  pose proof NZ' as nz. unfold bind.
  repeat split; opt; try reflexivity; f_equal.
  all: change (@sofZ R R_scalar N) with (IZR N); rewrite ?B_eq.
  all: change (@smul R R_scalar) with Rmult; change (@sdiv R R_scalar) with Rdiv; change (@ssub R R_scalar) with Rminus;
    field; exact nz.
Qed.

Lemma wlc_isotensional_legendre_extensive :
  p_isotensional_helmholtz_extensive (IZR N) (C_wlc_isotensional_legendre N l m T p).
Proof.
  intros f.
  cbn [PH_helmholtz PH_helmholtz_per_link PH_rel_helmholtz PH_rel_helmholtz_per_link PH_nd_helmholtz
    PH_nd_helmholtz_per_link PH_nd_rel_helmholtz PH_nd_rel_helmholtz_per_link C_wlc_isotensional_legendre].
  unfold wlc_isotensional_legendre.helmholtz_free_energy, wlc_isotensional_legendre.helmholtz_free_energy_per_link,
    wlc_isotensional_legendre.relative_helmholtz_free_energy, wlc_isotensional_legendre.relative_helmholtz_free_energy_per_link,
    wlc_isotensional_legendre.nondimensional_relative_helmholtz_free_energy,
    wlc_isotensional_legendre.nondimensional_relative_helmholtz_free_energy_per_link,
    wlc_isotensional_legendre.nondimensional_helmholtz_free_energy_per_link.
  pose proof NZ' as nz. unfold bind.
  repeat split; opt; try reflexivity; f_equal.
  all: change (@sofZ R R_scalar N) with (IZR N); rewrite ?B_eq.
  all: change (@smul R R_scalar) with Rmult; change (@sdiv R R_scalar) with Rdiv; change (@ssub R R_scalar) with Rminus;
    field; exact nz.
Qed.

(** The free energies for two sets of dimensional parameters differ by a constant. *)
Definition hinge (l m T : R) : R :=
  ln (4 * sin (acos (exp (- (1) / z))) * PI ^ 2 * m * l ^ 2 * BOLTZMANN_CONSTANT * T / PLANCK_CONSTANT ^ 2).

Lemma wlc_psi_shift : forall l' m' T' x,
  wlc_isometric.nondimensional_helmholtz_free_energy N l' m' z x T' =
  wlc_isometric.nondimensional_helmholtz_free_energy N 1 1 z x 300 -
    (IZR N - 1) * (hinge l' m' T' - hinge 1 1 300).
Proof.
  intros. unfold wlc_isometric.nondimensional_helmholtz_free_energy. cbv zeta.
  match goal with |- ssub ?A (smul _ (sln ?b)) = ssub ?A' (smul _ (sln ?b')) - _ =>
    change (A - (IZR N - Rdec 1 0) * ln b = A' - (IZR N - Rdec 1 0) * ln b' - (IZR N - 1) * (hinge l' m' T' - hinge 1 1 300));
    assert (Eb : ln b = hinge l' m' T'); [|assert (Eb' : ln b' = hinge 1 1 300); [|rewrite Eb, Eb'; set (q := A)]] end.
  - reflexivity.
  - reflexivity.
  - change (Rdec 1 0) with 1. ring.
Qed.

Lemma wlc_gibbs_shift : forall l' m' T' x,
  wlc_isotensional.nondimensional_gibbs_free_energy N l' m' z x T' =
  match wlc_isotensional.nondimensional_gibbs_free_energy N 1 1 z x 300 with
  | Some g => Some (g - IZR N * (hinge l' m' T' - hinge 1 1 300))
  | None => None
  end.
Proof.
  intros. unfold wlc_isotensional.nondimensional_gibbs_free_energy. cbv zeta.
  match goal with |- context [math.inverse_newton_raphson_powered ?a ?b ?c ?d ?e ?f ?g] =>
    set (gh := math.inverse_newton_raphson_powered a b c d e f g) end.
  destruct (negb _); [reflexivity|]. f_equal.
  match goal with |- ssub (ssub (if _ then _ else sneg (sln (smul _ ?i))) (ssub ?w _)) ?k =
      ssub (ssub (if _ then _ else sneg (sln (smul _ ?i'))) _) ?k' - _ =>
    assert (Ei : i = i'); [|assert (Ek : k = hinge l' m' T'); [reflexivity|assert (Ek' : k' = hinge 1 1 300); [reflexivity|]]]
  end.
  - f_equal. apply FunctionalExtensionality.functional_extensionality. intros y.
    rewrite (wlc_psi_shift l' m' T' y), (wlc_psi_shift l' m' T' gh).
    set (py := wlc_isometric.nondimensional_helmholtz_free_energy N 1 1 z y 300).
    set (pg := wlc_isometric.nondimensional_helmholtz_free_energy N 1 1 z gh 300).
    set (D := (IZR N - 1) * (hinge l' m' T' - hinge 1 1 300)).
    set (a1 := (sofZ N * x * y)%S). set (a2 := (sofZ N * x * gh)%S).
    match goal with |- ?L = ?Rr => change (5 / 10 * (exp (a1 - (a2 - (pg - D)) - (py - D)) - exp (- a1 - (a2 - (pg - D)) - (py - D)))
        * IZR N * y / x = 5 / 10 * (exp (a1 - (a2 - pg) - py) - exp (- a1 - (a2 - pg) - py)) * IZR N * y / x) end.
    do 3 f_equal. f_equal; f_equal; f_equal; ring.
  - rewrite Ei, Ek, Ek', (wlc_psi_shift l' m' T' gh).
    match goal with |- ssub (ssub ?A (ssub ?w _)) _ = _ => set (a := A); set (b := w) end.
    set (pg := wlc_isometric.nondimensional_helmholtz_free_energy N 1 1 z gh 300).
    change (a - (b - (pg - (IZR N - 1) * (hinge l' m' T' - hinge 1 1 300))) - hinge l' m' T' =
      a - (b - pg) - hinge 1 1 300 - IZR N * (hinge l' m' T' - hinge 1 1 300)).
    ring.
Qed.

Lemma wlc_ref_arg : / 10 ^ 6 * (kB * T) / l * l / (kB * T) = / 10 ^ 6.
Proof. field. pose proof kB_pos; lra. Qed.

Ltac ring_o := change (@smul R R_scalar) with Rmult; change (@sdiv R R_scalar) with Rdiv;
  change (@ssub R R_scalar) with Rminus; change (@sadd R R_scalar) with Rplus;
  change (@sofZ R R_scalar N) with (IZR N);
  first [ring | field; exact NZ'].

Lemma wlc_nd_relative : forall eta,
  wlc_isotensional.nondimensional_relative_gibbs_free_energy N z eta =
  ominus (wlc_isotensional.nondimensional_gibbs_free_energy N l m z eta T)
    (wlc_isotensional.nondimensional_gibbs_free_energy N l m z (/ 10 ^ 6) T).
Proof.
  intros. rewrite (wlc_gibbs_shift l m T eta), (wlc_gibbs_shift l m T (/ 10 ^ 6)).
  unfold wlc_isotensional.nondimensional_relative_gibbs_free_energy.
  rewrite Z_eq. change (@sdec R R_scalar 1 0) with 1. change (@sdec R R_scalar 300 0) with 300.
  unfold bind. opt; try reflexivity. f_equal. ring_o.
Qed.

Lemma wlc_nd_relative_pl : forall eta,
  wlc_isotensional.nondimensional_relative_gibbs_free_energy_per_link N z eta =
  ominus (wlc_isotensional.nondimensional_gibbs_free_energy_per_link N l m z eta T)
    (wlc_isotensional.nondimensional_gibbs_free_energy_per_link N l m z (/ 10 ^ 6) T).
Proof.
  intros.
  unfold wlc_isotensional.nondimensional_relative_gibbs_free_energy_per_link,
    wlc_isotensional.nondimensional_gibbs_free_energy_per_link.
  rewrite (wlc_gibbs_shift l m T eta), (wlc_gibbs_shift l m T (/ 10 ^ 6)).
  rewrite Z_eq. change (@sdec R R_scalar 1 0) with 1. change (@sdec R R_scalar 300 0) with 300.
  unfold bind. opt; try reflexivity. f_equal. ring_o.
Qed.

Lemma wlc_isotensional_relative : p_isotensional_relative l T (C_wlc_isotensional N l m T p).
Proof.
  pose proof wlc_isotensional_dimensionless as D. unfold p_isotensional_dimensionless in D. cbv zeta in D.
  unfold p_isotensional_relative. cbv zeta. unfold difference_from.
  refine (conj _ (conj _ (conj wlc_nd_relative wlc_nd_relative_pl))); intros f;
    destruct (D f) as (_ & _ & D1 & D2 & D3 & D4);
    destruct (D (/ 10 ^ 6 * (kB * T) / l)) as (_ & _ & E1 & E2 & _ & _); rewrite wlc_ref_arg in E1, E2.
  - rewrite D1, D3, E1, ominus_scale. f_equal. apply wlc_nd_relative.
  - rewrite D2, D4, E2, ominus_scale. f_equal. apply wlc_nd_relative_pl.
Qed.

Lemma wlc_helm_shift : forall l' m' T' x,
  wlc_isotensional_legendre.nondimensional_helmholtz_free_energy N l' m' z x T' =
  match wlc_isotensional_legendre.nondimensional_helmholtz_free_energy N 1 1 z x 300 with
  | Some g => Some (g - IZR N * (hinge l' m' T' - hinge 1 1 300))
  | None => None
  end.
Proof.
  intros. unfold wlc_isotensional_legendre.nondimensional_helmholtz_free_energy.
  rewrite (wlc_gibbs_shift l' m' T' x). unfold bind. opt; try reflexivity. f_equal. ring_o.
Qed.

Lemma wlc_nd_relative_h : forall eta,
  wlc_isotensional_legendre.nondimensional_relative_helmholtz_free_energy N z eta =
  ominus (wlc_isotensional_legendre.nondimensional_helmholtz_free_energy N l m z eta T)
    (wlc_isotensional_legendre.nondimensional_helmholtz_free_energy N l m z (/ 10 ^ 6) T).
Proof.
  intros. rewrite (wlc_helm_shift l m T eta), (wlc_helm_shift l m T (/ 10 ^ 6)).
  unfold wlc_isotensional_legendre.nondimensional_relative_helmholtz_free_energy.
  rewrite Z_eq. change (@sdec R R_scalar 1 0) with 1. change (@sdec R R_scalar 300 0) with 300.
  unfold bind. opt; try reflexivity. f_equal. ring_o.
Qed.

Lemma wlc_nd_relative_h_pl : forall eta,
  wlc_isotensional_legendre.nondimensional_relative_helmholtz_free_energy_per_link N z eta =
  ominus (wlc_isotensional_legendre.nondimensional_helmholtz_free_energy_per_link N l m z eta T)
    (wlc_isotensional_legendre.nondimensional_helmholtz_free_energy_per_link N l m z (/ 10 ^ 6) T).
Proof.
  intros.
  unfold wlc_isotensional_legendre.nondimensional_relative_helmholtz_free_energy_per_link,
    wlc_isotensional_legendre.nondimensional_helmholtz_free_energy_per_link.
  rewrite (wlc_helm_shift l m T eta), (wlc_helm_shift l m T (/ 10 ^ 6)).
  rewrite Z_eq. change (@sdec R R_scalar 1 0) with 1. change (@sdec R R_scalar 300 0) with 300.
  unfold bind. opt; try reflexivity. f_equal. ring_o.
Qed.

Lemma wlc_isotensional_legendre_relative :
  p_isotensional_helmholtz_relative l T (C_wlc_isotensional_legendre N l m T p).
Proof.
  pose proof wlc_isotensional_legendre_dimensionless as D.
  unfold p_isotensional_helmholtz_dimensionless in D. cbv zeta in D.
  unfold p_isotensional_helmholtz_relative. cbv zeta. unfold difference_from.
  refine (conj _ (conj _ (conj wlc_nd_relative_h wlc_nd_relative_h_pl))); intros f;
    destruct (D f) as (D1 & D2 & D3 & D4);
    destruct (D (/ 10 ^ 6 * (kB * T) / l)) as (E1 & E2 & _ & _); rewrite wlc_ref_arg in E1, E2.
  - rewrite D1, D3, E1, ominus_scale. f_equal. apply wlc_nd_relative_h.
  - rewrite D2, D4, E2, ominus_scale. f_equal. apply wlc_nd_relative_h_pl.
Qed.

(** The Legendre transformation. *)
Lemma wlc_leg_nd : forall x,
  wlc_isotensional_legendre.nondimensional_helmholtz_free_energy N l m z x T =
  oplus (wlc_isotensional.nondimensional_gibbs_free_energy N l m z x T)
    (oscale x (wlc_isotensional.nondimensional_end_to_end_length N z x)).
Proof.
  intros. unfold wlc_isotensional_legendre.nondimensional_helmholtz_free_energy, bind. opt; reflexivity.
Qed.

Lemma wlc_leg_nd_pl : forall x,
  wlc_isotensional_legendre.nondimensional_helmholtz_free_energy_per_link N l m z x T =
  oplus (wlc_isotensional.nondimensional_gibbs_free_energy_per_link N l m z x T)
    (oscale x (wlc_isotensional.nondimensional_end_to_end_length_per_link N z x)).
Proof.
  intros. unfold wlc_isotensional_legendre.nondimensional_helmholtz_free_energy_per_link,
    wlc_isotensional.nondimensional_gibbs_free_energy_per_link,
    wlc_isotensional.nondimensional_end_to_end_length_per_link.
  rewrite wlc_leg_nd.
  destruct (wlc_isotensional.nondimensional_gibbs_free_energy N l m z x T);
    destruct (wlc_isotensional.nondimensional_end_to_end_length N z x); cbn [bind oplus oscale]; try reflexivity. f_equal. ring_o.
Qed.

Lemma wlc_isotensional_legendre_legendre :
  p_isotensional_legendre l T (C_wlc_isotensional N l m T p) (C_wlc_isotensional_legendre N l m T p).
Proof.
  pose proof wlc_isotensional_dimensionless as D. unfold p_isotensional_dimensionless in D. cbv zeta in D.
  pose proof wlc_isotensional_legendre_dimensionless as H.
  unfold p_isotensional_helmholtz_dimensionless in H. cbv zeta in H.
  assert (K : forall x (a : option R), oscale (kB * T) (oscale (x * l / (kB * T)) a) = oscale x (oscale l a)).
  { intros. rewrite !oscale_oscale. f_equal. field. pose proof kB_pos; lra. }
  assert (L : forall x,
    PH_helmholtz (C_wlc_isotensional_legendre N l m T p) x =
      oplus (PI_gibbs (C_wlc_isotensional N l m T p) x) (oscale x (PI_length (C_wlc_isotensional N l m T p) x)) /\
    PH_helmholtz_per_link (C_wlc_isotensional_legendre N l m T p) x =
      oplus (PI_gibbs_per_link (C_wlc_isotensional N l m T p) x) (oscale x (PI_length_per_link (C_wlc_isotensional N l m T p) x)) /\
    PH_nd_helmholtz (C_wlc_isotensional_legendre N l m T p) x =
      oplus (PI_nd_gibbs (C_wlc_isotensional N l m T p) x) (oscale x (PI_nd_length (C_wlc_isotensional N l m T p) x)) /\
    PH_nd_helmholtz_per_link (C_wlc_isotensional_legendre N l m T p) x =
      oplus (PI_nd_gibbs_per_link (C_wlc_isotensional N l m T p) x) (oscale x (PI_nd_length_per_link (C_wlc_isotensional N l m T p) x))).
  { intros x. destruct (D x) as (D1 & D2 & D3 & D4 & _ & _). destruct (H x) as (H1 & H2 & _ & _).
    refine (conj _ (conj _ (conj (wlc_leg_nd x) (wlc_leg_nd_pl x)))).
    - rewrite H1, D1, D3, <- K, oplus_scale. f_equal. exact (wlc_leg_nd (x * l / (kB * T))).
    - rewrite H2, D2, D4, <- K, oplus_scale. f_equal. exact (wlc_leg_nd_pl (x * l / (kB * T))). }
  split; [exact L|].
  pose proof wlc_isotensional_relative as RG. unfold p_isotensional_relative in RG. cbv zeta in RG.
  pose proof wlc_isotensional_legendre_relative as RH. unfold p_isotensional_helmholtz_relative in RH. cbv zeta in RH.
  cbv zeta. unfold difference_from in *.
  destruct RG as (G1 & G2 & G3 & G4). destruct RH as (H1 & H2 & H3 & H4).
  assert (X : forall (h g e : R -> option R) x0 x, (forall y, h y = oplus (g y) (oscale y (e y))) ->
     ominus (h x) (h x0) =
     ominus (oplus (ominus (g x) (g x0)) (oscale x (e x))) (oplus (ominus (g x0) (g x0)) (oscale x0 (e x0)))).
  { intros h g e x0 x E. rewrite (E x), (E x0).
    destruct (g x), (g x0), (e x), (e x0); cbn; try reflexivity. f_equal; ring. }
  refine (conj _ (conj _ (conj _ _))); intros f.
  - rewrite H1, (G1 f), (G1 (/ 10 ^ 6 * (kB * T) / l)). cbv beta.
    exact (X (PH_helmholtz (C_wlc_isotensional_legendre N l m T p)) (PI_gibbs (C_wlc_isotensional N l m T p)) (PI_length (C_wlc_isotensional N l m T p)) _ f (fun y => ltac:(destruct (L y) as (L1 & L2 & L3 & L4); assumption))).
  - rewrite H2, (G2 f), (G2 (/ 10 ^ 6 * (kB * T) / l)). cbv beta.
    exact (X (PH_helmholtz_per_link (C_wlc_isotensional_legendre N l m T p)) (PI_gibbs_per_link (C_wlc_isotensional N l m T p)) (PI_length_per_link (C_wlc_isotensional N l m T p)) _ f (fun y => ltac:(destruct (L y) as (L1 & L2 & L3 & L4); assumption))).
  - rewrite H3, (G3 f), (G3 (/ 10 ^ 6)). cbv beta.
    exact (X (PH_nd_helmholtz (C_wlc_isotensional_legendre N l m T p)) (PI_nd_gibbs (C_wlc_isotensional N l m T p)) (PI_nd_length (C_wlc_isotensional N l m T p)) _ f (fun y => ltac:(destruct (L y) as (L1 & L2 & L3 & L4); assumption))).
  - rewrite H4, (G4 f), (G4 (/ 10 ^ 6)). cbv beta.
    exact (X (PH_nd_helmholtz_per_link (C_wlc_isotensional_legendre N l m T p)) (PI_nd_gibbs_per_link (C_wlc_isotensional N l m T p)) (PI_nd_length_per_link (C_wlc_isotensional N l m T p)) _ f (fun y => ltac:(destruct (L y) as (L1 & L2 & L3 & L4); assumption))).
Qed.

End Wlc.

(** ** FJC, isometric *)

Section Fjc.
Variables (prof : profile) (N : Z) (l m T : R).
Hypotheses (HN : (0 < N)%Z) (Hl : 0 < l) (HT : 0 < T).

Ltac fold_R := change (@smul R R_scalar) with Rmult; change (@sdiv R R_scalar) with Rdiv;
  change (@ssub R R_scalar) with Rminus; change (@sadd R R_scalar) with Rplus; change (@sneg R R_scalar) with Ropp;
  change (@sofZ R R_scalar N) with (IZR N).

Lemma fjc_isometric_dimensionless : p_isometric_dimensionless (IZR N) l T (C_fjc_isometric prof N l m T).
Proof.
  intros x. cbv zeta. pose proof kB_pos.
  cbn [PS_force PS_nd_force PS_helmholtz PS_helmholtz_per_link PS_rel_helmholtz PS_rel_helmholtz_per_link
    PS_nd_helmholtz PS_nd_helmholtz_per_link PS_nd_rel_helmholtz PS_nd_rel_helmholtz_per_link C_fjc_isometric].
  repeat split; apply scale_Some; intros y;
    first [ change (y * BOLTZMANN_CONSTANT * T = kB * T * y); rewrite B_eq; ring
          | change (y * BOLTZMANN_CONSTANT * T / l = kB * T / l * y); rewrite B_eq; field; lra ].
Qed.

Lemma fjc_isometric_legendre_gibbs_dimensionless :
  p_isometric_gibbs_dimensionless (IZR N) l T (C_fjc_isometric_legendre_gibbs prof N l m T).
Proof.
  intros x. cbv zeta.
  cbn [PG_gibbs PG_gibbs_per_link PG_rel_gibbs PG_rel_gibbs_per_link PG_nd_gibbs PG_nd_gibbs_per_link PG_nd_rel_gibbs
    PG_nd_rel_gibbs_per_link C_fjc_isometric_legendre_gibbs].
  repeat split; apply scale_Some; intros y;
    change (y * BOLTZMANN_CONSTANT * T = kB * T * y); rewrite B_eq; ring.
Qed.

Lemma fjc_isometric_extensive : p_isometric_extensive (IZR N) (C_fjc_isometric prof N l m T).
Proof.
  intros f.
  cbn [PS_force PS_nd_force PS_helmholtz PS_helmholtz_per_link PS_rel_helmholtz PS_rel_helmholtz_per_link
    PS_nd_helmholtz PS_nd_helmholtz_per_link PS_nd_rel_helmholtz PS_nd_rel_helmholtz_per_link C_fjc_isometric].
  unfold fjc_isometric.helmholtz_free_energy, fjc_isometric.helmholtz_free_energy_per_link,
    fjc_isometric.nondimensional_helmholtz_free_energy_per_link,
    fjc_isometric.relative_helmholtz_free_energy, fjc_isometric.relative_helmholtz_free_energy_per_link,
    fjc_isometric.nondimensional_relative_helmholtz_free_energy_per_link.
  pose proof (NZ _ HN) as nz. unfold bind.
  repeat split; opt; try reflexivity; f_equal; fold_R; field; exact nz.
Qed.

Lemma fjc_isometric_legendre_gibbs_extensive :
  p_isometric_gibbs_extensive (IZR N) (C_fjc_isometric_legendre_gibbs prof N l m T).
Proof.
  intros f.
  cbn [PG_gibbs PG_gibbs_per_link PG_rel_gibbs PG_rel_gibbs_per_link PG_nd_gibbs PG_nd_gibbs_per_link PG_nd_rel_gibbs
    PG_nd_rel_gibbs_per_link C_fjc_isometric_legendre_gibbs].
  unfold fjc_isometric_legendre.gibbs_free_energy, fjc_isometric_legendre.gibbs_free_energy_per_link,
    fjc_isometric_legendre.relative_gibbs_free_energy, fjc_isometric_legendre.relative_gibbs_free_energy_per_link,
    fjc_isometric_legendre.nondimensional_relative_gibbs_free_energy,
    fjc_isometric_legendre.nondimensional_relative_gibbs_free_energy_per_link,
    fjc_isometric_legendre.nondimensional_gibbs_free_energy_per_link.
  pose proof (NZ _ HN) as nz. unfold bind.
  repeat split; opt; try reflexivity; f_equal; fold_R; field; exact nz.
Qed.

Definition fjc_hinge (l m T : R) : R :=
  ln (8 * PI ^ 2 * m * l ^ 2 * BOLTZMANN_CONSTANT * T / PLANCK_CONSTANT ^ 2).

Lemma fjc_nd_helmholtz : forall l' m' T' x, 0 < l' ->
  fjc_isometric.nondimensional_helmholtz_free_energy prof N l' m' x T' =
  match fjc_isometric.nondimensional_equilibrium_distribution prof N x with
  | Some P => Some (- ln (P / (IZR N * l') ^ 3) - (IZR N - 1) * fjc_hinge l' m' T')
  | None => None
  end.
Proof.
  intros. unfold fjc_isometric.nondimensional_helmholtz_free_energy, fjc_isometric.equilibrium_distribution. cbv zeta.
  replace (x * sofZ N * l' / (sofZ N * l'))%S with x
    by (fold_R; field; split; [lra | apply NZ, HN]).
  destruct (fjc_isometric.nondimensional_equilibrium_distribution prof N x); reflexivity.
Qed.

Lemma fjc_nd_gibbs : forall l' m' T' x, 0 < l' ->
  fjc_isometric_legendre.nondimensional_gibbs_free_energy prof N l' m' x T' =
  ominus (fjc_isometric.nondimensional_helmholtz_free_energy prof N l' m' x T')
    (oscale (IZR N * x) (fjc_isometric.nondimensional_force prof N x)).
Proof.
  intros. rewrite fjc_nd_helmholtz by assumption.
  unfold fjc_isometric_legendre.nondimensional_gibbs_free_energy, fjc_isometric.nondimensional_force,
    fjc_isometric.nondimensional_equilibrium_distribution. cbv zeta.
  destruct (fjc_thermodynamics.treloar_sum_0_with_prefactor prof N x) as [P|];
    destruct (fjc_thermodynamics.treloar_sums prof N x [0; 1]%Z) as [s|]; cbn [bind ominus oscale]; try reflexivity.
  - destruct (nth_error s 1) as [s1|]; cbn [bind ominus oscale]; [|reflexivity].
    destruct (nth_error s 0) as [s0|]; cbn [bind ominus oscale]; [|reflexivity].
    f_equal.
    match goal with |- ssub (ssub (sdiv (smul _ ?q) _) _) _ = _ => set (Q := q) end.
    change (- (x * IZR N) * Q / IZR N - ln (P / (IZR N * l') ^ 3) - (IZR N - 1) * fjc_hinge l' m' T' =
      - ln (P / (IZR N * l') ^ 3) - (IZR N - 1) * fjc_hinge l' m' T' - IZR N * x * (Q / IZR N)).
    pose proof (NZ _ HN). field; assumption.
  - destruct (nth_error s 1) as [s1|]; cbn [bind ominus oscale]; [|reflexivity].
    destruct (nth_error s 0) as [s0|]; cbn [bind ominus oscale]; reflexivity.
Qed.

(** Where the distribution is positive. *)
Hypothesis positive : forall x, 0 < x < 1 ->
  exists P, fjc_isometric.nondimensional_equilibrium_distribution prof N x = Some P /\ 0 < P.

Lemma fjc_nd_shift : forall l' m' T' x, 0 < l' -> 0 < x < 1 ->
  fjc_isometric.nondimensional_helmholtz_free_energy prof N l' m' x T' =
  match fjc_isometric.nondimensional_equilibrium_distribution prof N x with
  | Some P => Some (- ln P + (ln ((IZR N * l') ^ 3) - (IZR N - 1) * fjc_hinge l' m' T'))
  | None => None
  end.
Proof.
  intros l' m' T' x H Hx. rewrite fjc_nd_helmholtz by assumption.
  destruct (positive x Hx) as (P & -> & HP). f_equal.
  assert (0 < IZR N) by (apply IZR_lt; lia).
  assert (0 < (IZR N * l') ^ 3) by (apply pow_lt, Rmult_lt_0_compat; assumption).
  unfold Rdiv. rewrite ln_mult, ln_Rinv by (try apply Rinv_0_lt_compat; assumption). ring.
Qed.

Lemma ref_range : 0 < / 10 ^ 6 < 1.
Proof.
  assert (1 < 10 ^ 6) by (simpl; lra). split; [apply Rinv_0_lt_compat; lra|].
  rewrite <- Rinv_1. apply Rinv_lt_contravar; lra.
Qed.

Lemma fjc_nd_rel_helmholtz : forall x, 0 < x < 1 ->
  fjc_isometric.nondimensional_relative_helmholtz_free_energy prof N x =
  ominus (fjc_isometric.nondimensional_helmholtz_free_energy prof N l m x T)
    (fjc_isometric.nondimensional_helmholtz_free_energy prof N l m (/ 10 ^ 6) T).
Proof.
  intros x Hx. rewrite !fjc_nd_shift by (try assumption; apply ref_range).
  unfold fjc_isometric.nondimensional_relative_helmholtz_free_energy. rewrite Z_eq.
  destruct (positive x Hx) as (P & -> & HP). destruct (positive _ ref_range) as (P0 & -> & HP0).
  cbn [bind ominus]. f_equal. change (ln (P0 / P) =
    - ln P + (ln ((IZR N * l) ^ 3) - (IZR N - 1) * fjc_hinge l m T) - (- ln P0 + (ln ((IZR N * l) ^ 3) - (IZR N - 1) * fjc_hinge l m T))).
  unfold Rdiv. rewrite ln_mult, ln_Rinv by (try apply Rinv_0_lt_compat; assumption). ring.
Qed.

Lemma fjc_nd_rel_helmholtz_pl : forall x, 0 < x < 1 ->
  fjc_isometric.nondimensional_relative_helmholtz_free_energy_per_link prof N x =
  ominus (fjc_isometric.nondimensional_helmholtz_free_energy_per_link prof N l m x T)
    (fjc_isometric.nondimensional_helmholtz_free_energy_per_link prof N l m (/ 10 ^ 6) T).
Proof.
  intros x Hx. unfold fjc_isometric.nondimensional_relative_helmholtz_free_energy_per_link,
    fjc_isometric.nondimensional_helmholtz_free_energy_per_link.
  rewrite fjc_nd_rel_helmholtz by assumption.
  destruct (fjc_isometric.nondimensional_helmholtz_free_energy prof N l m x T),
    (fjc_isometric.nondimensional_helmholtz_free_energy prof N l m (/ 10 ^ 6) T); cbn [bind ominus]; try reflexivity.
  f_equal. fold_R. field. apply NZ, HN.
Qed.

Lemma fjc_nd_rel_gibbs : forall x, 0 < x < 1 ->
  fjc_isometric_legendre.nondimensional_relative_gibbs_free_energy prof N x =
  ominus (fjc_isometric_legendre.nondimensional_gibbs_free_energy prof N l m x T)
    (fjc_isometric_legendre.nondimensional_gibbs_free_energy prof N l m (/ 10 ^ 6) T).
Proof.
  intros x Hx. unfold fjc_isometric_legendre.nondimensional_relative_gibbs_free_energy. rewrite Z_eq.
  change (@sdec R R_scalar 1 0) with 1. change (@sdec R R_scalar 300 0) with 300.
  rewrite !fjc_nd_gibbs by lra.
  rewrite !fjc_nd_shift by (try assumption; try lra; apply ref_range).
  destruct (positive x Hx) as (P & -> & HP). destruct (positive _ ref_range) as (P0 & -> & HP0).
  destruct (fjc_isometric.nondimensional_force prof N x), (fjc_isometric.nondimensional_force prof N (/ 10 ^ 6));
    cbn [bind ominus oscale]; try reflexivity.
  f_equal. fold_R. ring.
Qed.

Lemma fjc_nd_rel_gibbs_pl : forall x, 0 < x < 1 ->
  fjc_isometric_legendre.nondimensional_relative_gibbs_free_energy_per_link prof N x =
  ominus (fjc_isometric_legendre.nondimensional_gibbs_free_energy_per_link prof N l m x T)
    (fjc_isometric_legendre.nondimensional_gibbs_free_energy_per_link prof N l m (/ 10 ^ 6) T).
Proof.
  intros x Hx. unfold fjc_isometric_legendre.nondimensional_relative_gibbs_free_energy_per_link,
    fjc_isometric_legendre.nondimensional_gibbs_free_energy_per_link. rewrite Z_eq.
  change (@sdec R R_scalar 1 0) with 1. change (@sdec R R_scalar 300 0) with 300.
  rewrite !fjc_nd_gibbs by lra.
  rewrite !fjc_nd_shift by (try assumption; try lra; apply ref_range).
  destruct (positive x Hx) as (P & -> & HP). destruct (positive _ ref_range) as (P0 & -> & HP0).
  destruct (fjc_isometric.nondimensional_force prof N x), (fjc_isometric.nondimensional_force prof N (/ 10 ^ 6));
    cbn [bind ominus oscale]; try reflexivity.
  f_equal. fold_R. field. apply NZ, HN.
Qed.

Lemma fjc_ref_arg : / 10 ^ 6 * (IZR N * l) / (IZR N * l) = / 10 ^ 6.
Proof. field. split; [lra | apply NZ, HN]. Qed.

Lemma fjc_range : forall xi, 0 < xi < IZR N * l -> 0 < xi / (IZR N * l) < 1.
Proof.
  intros xi [H1 H2]. assert (0 < IZR N * l) by lra. split.
  - apply Rdiv_lt_0_compat; assumption.
  - apply Rmult_lt_reg_r with (IZR N * l); [assumption|]. unfold Rdiv. rewrite Rmult_assoc, Rinv_l by lra. lra.
Qed.

Lemma fjc_isometric_relative : p_isometric_relative (IZR N) l (C_fjc_isometric prof N l m T).
Proof.
  pose proof fjc_isometric_dimensionless as D. unfold p_isometric_dimensionless in D. cbv zeta in D.
  unfold p_isometric_relative. cbv zeta. unfold difference_from. split.
  - intros xi Hxi. pose proof (fjc_range xi Hxi) as Hg.
    destruct (D xi) as (_ & D1 & D2 & D3 & D4).
    destruct (D (/ 10 ^ 6 * (IZR N * l))) as (_ & E1 & E2 & _ & _). rewrite fjc_ref_arg in E1, E2.
    rewrite D1, D2, D3, D4, E1, E2, !ominus_scale. split; f_equal.
    + exact (fjc_nd_rel_helmholtz _ Hg).
    + exact (fjc_nd_rel_helmholtz_pl _ Hg).
  - intros g Hg. split; [exact (fjc_nd_rel_helmholtz _ Hg) | exact (fjc_nd_rel_helmholtz_pl _ Hg)].
Qed.

Lemma fjc_isometric_legendre_gibbs_relative :
  p_isometric_gibbs_relative (IZR N) l (C_fjc_isometric_legendre_gibbs prof N l m T).
Proof.
  pose proof fjc_isometric_legendre_gibbs_dimensionless as D. unfold p_isometric_gibbs_dimensionless in D. cbv zeta in D.
  unfold p_isometric_gibbs_relative. cbv zeta. unfold difference_from. split.
  - intros xi Hxi. pose proof (fjc_range xi Hxi) as Hg.
    destruct (D xi) as (D1 & D2 & D3 & D4).
    destruct (D (/ 10 ^ 6 * (IZR N * l))) as (E1 & E2 & _ & _). rewrite fjc_ref_arg in E1, E2.
    rewrite D1, D2, D3, D4, E1, E2, !ominus_scale. split; f_equal.
    + exact (fjc_nd_rel_gibbs _ Hg).
    + exact (fjc_nd_rel_gibbs_pl _ Hg).
  - intros g Hg. split; [exact (fjc_nd_rel_gibbs _ Hg) | exact (fjc_nd_rel_gibbs_pl _ Hg)].
Qed.

Lemma fjc_nd_gibbs_pl : forall x,
  fjc_isometric_legendre.nondimensional_gibbs_free_energy_per_link prof N l m x T =
  ominus (fjc_isometric.nondimensional_helmholtz_free_energy_per_link prof N l m x T)
    (oscale x (fjc_isometric.nondimensional_force prof N x)).
Proof.
  intros. unfold fjc_isometric_legendre.nondimensional_gibbs_free_energy_per_link,
    fjc_isometric.nondimensional_helmholtz_free_energy_per_link.
  rewrite fjc_nd_gibbs by assumption.
  destruct (fjc_isometric.nondimensional_helmholtz_free_energy prof N l m x T),
    (fjc_isometric.nondimensional_force prof N x); cbn [bind ominus oscale]; try reflexivity.
  f_equal. fold_R. field. apply NZ, HN.
Qed.

Lemma fjc_isometric_legendre_legendre :
  p_isometric_legendre (IZR N) l (C_fjc_isometric prof N l m T) (C_fjc_isometric_legendre_gibbs prof N l m T).
Proof.
  pose proof fjc_isometric_dimensionless as D. unfold p_isometric_dimensionless in D. cbv zeta in D.
  pose proof fjc_isometric_legendre_gibbs_dimensionless as H. unfold p_isometric_gibbs_dimensionless in H. cbv zeta in H.
  pose proof (NZ _ HN) as nz.
  set (C := C_fjc_isometric prof N l m T) in *. set (G := C_fjc_isometric_legendre_gibbs prof N l m T) in *.
  assert (L : forall x,
    PG_gibbs G x = ominus (PS_helmholtz C x) (oscale x (PS_force C x)) /\
    PG_gibbs_per_link G x = ominus (PS_helmholtz_per_link C x) (oscale (x / IZR N) (PS_force C x)) /\
    PG_nd_gibbs G x = ominus (PS_nd_helmholtz C x) (oscale (IZR N * x) (PS_nd_force C x)) /\
    PG_nd_gibbs_per_link G x = ominus (PS_nd_helmholtz_per_link C x) (oscale x (PS_nd_force C x))).
  { intros x. destruct (D x) as (D1 & D2 & D3 & _ & _). destruct (H x) as (H1 & H2 & _ & _).
    refine (conj _ (conj _ (conj (fjc_nd_gibbs l m T x Hl) (fjc_nd_gibbs_pl x)))).
    - rewrite H1, D1, D2. set (g := x / (IZR N * l)).
      change (PG_nd_gibbs G g) with (fjc_isometric_legendre.nondimensional_gibbs_free_energy prof N l m g T).
      rewrite (fjc_nd_gibbs l m T g Hl). rewrite <- ominus_scale, !oscale_oscale. f_equal.
      change (PS_nd_force C g) with (fjc_isometric.nondimensional_force prof N g). f_equal.
      unfold g. field. repeat split; first [assumption | lra].
    - rewrite H2, D1, D3. set (g := x / (IZR N * l)).
      change (PG_nd_gibbs_per_link G g) with (fjc_isometric_legendre.nondimensional_gibbs_free_energy_per_link prof N l m g T).
      rewrite (fjc_nd_gibbs_pl g). rewrite <- ominus_scale, !oscale_oscale. f_equal.
      change (PS_nd_force C g) with (fjc_isometric.nondimensional_force prof N g). f_equal.
      unfold g. field. repeat split; first [assumption | lra]. }
  split; [exact L|].
  pose proof fjc_isometric_relative as RG. unfold p_isometric_relative in RG. cbv zeta in RG.
  pose proof fjc_isometric_legendre_gibbs_relative as RH. unfold p_isometric_gibbs_relative in RH. cbv zeta in RH.
  fold C in RG. fold G in RH.
  cbv zeta. unfold difference_from in *.
  destruct RG as (G1 & G2). destruct RH as (H1 & H2).
  assert (X : forall (h g e : R -> option R) (w : R -> R) x0 x, (forall y, h y = ominus (g y) (oscale (w y) (e y))) ->
     ominus (h x) (h x0) =
     ominus (ominus (ominus (g x) (g x0)) (oscale (w x) (e x))) (ominus (ominus (g x0) (g x0)) (oscale (w x0) (e x0)))).
  { intros h g e w x0 x E. rewrite (E x), (E x0).
    destruct (g x), (g x0), (e x), (e x0); cbn; try reflexivity. f_equal; ring. }
  assert (Rx : 0 < / 10 ^ 6 * (IZR N * l) < IZR N * l).
  { assert (0 < IZR N * l) by (apply Rmult_lt_0_compat; [apply IZR_lt; lia | assumption]).
    pose proof ref_range as [r1 r2]. split; [apply Rmult_lt_0_compat; assumption|].
    rewrite <- (Rmult_1_l (IZR N * l)) at 2. apply Rmult_lt_compat_r; assumption. }
  split.
  - intros xi Hxi. destruct (G1 xi Hxi) as [A1 A2]. destruct (G1 _ Rx) as [B1 B2]. destruct (H1 xi Hxi) as [K1 K2].
    split.
    + rewrite K1. cbv beta. rewrite A1, B1.
      exact (X (PG_gibbs G) (PS_helmholtz C) (PS_force C) (fun y => y) _ xi
        (fun y => ltac:(destruct (L y) as (L1 & L2 & L3 & L4); assumption))).
    + rewrite K2. cbv beta. rewrite A2, B2.
      exact (X (PG_gibbs_per_link G) (PS_helmholtz_per_link C) (PS_force C) (fun y => y / IZR N) _ xi
        (fun y => ltac:(destruct (L y) as (L1 & L2 & L3 & L4); assumption))).
  - intros g Hg. destruct (G2 g Hg) as [A1 A2]. destruct (G2 _ ref_range) as [B1 B2]. destruct (H2 g Hg) as [K1 K2].
    split.
    + rewrite K1. cbv beta. rewrite A1, B1.
      exact (X (PG_nd_gibbs G) (PS_nd_helmholtz C) (PS_nd_force C) (fun y => IZR N * y) _ g
        (fun y => ltac:(destruct (L y) as (L1 & L2 & L3 & L4); assumption))).
    + rewrite K2. cbv beta. rewrite A2, B2.
      exact (X (PG_nd_gibbs_per_link G) (PS_nd_helmholtz_per_link C) (PS_nd_force C) (fun y => y) _ g
        (fun y => ltac:(destruct (L y) as (L1 & L2 & L3 & L4); assumption))).
Qed.

End Fjc.
