(** The weak-potential approximation of the modified canonical ensemble. *)
From Coq Require Import Reals ZArith Lra Lia.
From Coquelicot Require Import Coquelicot.
From Verif Require Import Scalar MMath MConst MFjc SpecThermo SpecLangevin SpecModified PBase PLift PHyp PLangevin PConj PIsometric PModified.
Open Scope R_scope.
Import fjc_modified_canonical_asymptotic_weak_potential.

Definition Lv (x : R) : R := 1 / tanh x - 1 / x.
Definition lw (l m T : R) : R := ln (8 * PI ^ 2 * m * l ^ 2 * BOLTZMANN_CONSTANT * T / PLANCK_CONSTANT ^ 2).
(** Gibbs free energy and length per link as functions of the force. *)
Definition Gw (N kap x : R) : R := - ln (sinh x / x) + 1 / 2 * kap * N * Lv x ^ 2.
Definition Xw (N kap x : R) : R := Lv x * (1 - N * kap * (/ x ^ 2 - / sinh x ^ 2)).

Lemma Gw_derive : forall N kap x, 0 < x -> is_derive (Gw N kap) x (- Xw N kap x).
Proof.
  intros N kap x Hx. unfold Gw, Xw. evar_last.
  - apply (is_derive_plus (V := R_NormedModule) (fun x => - ln (sinh x / x)) (fun x => 1 / 2 * kap * N * Lv x ^ 2)).
    + apply derive_fjc. lra.
    + apply (is_derive_scal (fun x => Lv x ^ 2) x (1 / 2 * kap * N)).
      apply (is_derive_pow Lv 2 x (dlangevin x)).
      apply (is_derive_ext langevin).
      * intro t. unfold langevin, Lv, tanh. match goal with |- ?a = ?b => change (@eq R a b) end.
        f_equal. unfold Rdiv. rewrite Rinv_mult, Rinv_inv. ring.
      * apply is_derive_langevin, Hx.
  - unfold plus; cbn -[pow]. change (Nat.pred 2) with 1%nat. unfold dlangevin. fold (Lv x). simpl (INR 2).
    rewrite pow_1. try (match goal with |- ?a = ?b => change (@eq R a b) end). generalize (Lv x) (x ^ 2) (sinh x ^ 2); intros; unfold Rdiv; generalize (/ r0) (/ r1); intros; field.
Qed.

Section Weak.
Variables (N : Z) (l m T k : R).
Hypotheses (HN : (0 < N)%Z) (Hl : 0 < l) (HT : 0 < T) (Hk : 0 < k).
Let kap := k * l ^ 2 / (kB * T).
Let PN : 0 < IZR N. Proof. apply IZR_lt. exact HN. Qed.
Let KB := kB_pos.
Let Pk : 0 < kap.
Proof. unfold kap. apply Rdiv_lt_0_compat; [apply Rmult_lt_0_compat; [lra | apply pow_lt; lra] | apply Rmult_lt_0_compat; lra]. Qed.

Lemma arg_nd : forall eta, IZR N * kap * (eta / (IZR N * kap)) = eta.
Proof using Hl HT Hk HN. intro eta. field. lra. Qed.
Lemma arg_dim : forall f, k * (f / k) * l / BOLTZMANN_CONSTANT / T = f * l / (kB * T).
Proof using HT Hk. intro f. rewrite B_eq. field. lra. Qed.

Lemma nd_len_pl : forall eta, I_nd_length_per_link (C_weak_potential N l m T k) eta = Xw (IZR N) kap eta.
Proof using Hl HT Hk HN.
  intro eta. cbn -[nondimensional_end_to_end_length_per_link]. fold kap. unfold nondimensional_end_to_end_length_per_link.
  change (smul (smul (sofZ N) kap) (eta / (IZR N * kap))) with (IZR N * kap * (eta / (IZR N * kap))).
  rewrite arg_nd. reflexivity.
Qed.
Lemma nd_len : forall eta, I_nd_length (C_weak_potential N l m T k) eta = IZR N * Xw (IZR N) kap eta.
Proof using Hl HT Hk HN.
  intro eta. cbn -[nondimensional_end_to_end_length]. fold kap. unfold nondimensional_end_to_end_length.
  change (smul (smul (sofZ N) kap) (eta / (IZR N * kap))) with (IZR N * kap * (eta / (IZR N * kap))).
  rewrite arg_nd. change (IZR N * Lv eta * (1 - IZR N * kap * (/ eta ^ 2 - / sinh eta ^ 2)) = IZR N * Xw (IZR N) kap eta).
  unfold Xw. ring.
Qed.
Lemma len : forall f, I_length (C_weak_potential N l m T k) f = l * (IZR N * Xw (IZR N) kap (f * l / (kB * T))).
Proof using Hl HT Hk HN.
  intro f. cbn -[end_to_end_length]. unfold end_to_end_length.
  change (sdiv (sdiv (smul (smul k (f / k)) l) BOLTZMANN_CONSTANT) T) with (k * (f / k) * l / BOLTZMANN_CONSTANT / T).
  rewrite arg_dim. set (e := f * l / (kB * T)).
  change (IZR N * l * Lv e * (1 - k * IZR N * l ^ 2 / BOLTZMANN_CONSTANT / T * (/ e ^ 2 - / sinh e ^ 2)) = l * (IZR N * Xw (IZR N) kap e)).
  unfold Xw, kap. rewrite B_eq. unfold Rdiv. rewrite Rinv_mult. ring.
Qed.
Lemma len_pl : forall f, I_length_per_link (C_weak_potential N l m T k) f = l * Xw (IZR N) kap (f * l / (kB * T)).
Proof using Hl HT Hk HN.
  intro f. cbn -[end_to_end_length_per_link]. unfold end_to_end_length_per_link.
  change (sdiv (sdiv (smul (smul k (f / k)) l) BOLTZMANN_CONSTANT) T) with (k * (f / k) * l / BOLTZMANN_CONSTANT / T).
  rewrite arg_dim. set (e := f * l / (kB * T)).
  change (l * Lv e * (1 - k * IZR N * l ^ 2 / BOLTZMANN_CONSTANT / T * (/ e ^ 2 - / sinh e ^ 2)) = l * Xw (IZR N) kap e).
  unfold Xw, kap. rewrite B_eq. unfold Rdiv. rewrite Rinv_mult. ring.
Qed.

Lemma nd_gibbs_form : forall l m T d kap, nondimensional_gibbs_free_energy N l m d kap T
  = IZR N * (Gw (IZR N) kap (IZR N * kap * d) - lw l m T).
Proof using.
  intros l' m' T' d kap'. unfold nondimensional_gibbs_free_energy.
  change (smul (smul (sofZ N) kap') d) with (IZR N * kap' * d). set (e := IZR N * kap' * d).
  change (- IZR N * ln (sinh e / e) + 5 / 10 * kap' * IZR N ^ 2 * Lv e ^ 2 - IZR N * lw l' m' T' = IZR N * (Gw (IZR N) kap' e - lw l' m' T')).
  unfold Gw. field.
Qed.
Lemma nd_gibbs_pl_form : forall l m T d kap, nondimensional_gibbs_free_energy_per_link N l m d kap T
  = Gw (IZR N) kap (IZR N * kap * d) - lw l m T.
Proof using.
  intros l' m' T' d kap'. unfold nondimensional_gibbs_free_energy_per_link.
  change (smul (smul (sofZ N) kap') d) with (IZR N * kap' * d). set (e := IZR N * kap' * d).
  change (- ln (sinh e / e) + 5 / 10 * kap' * IZR N * Lv e ^ 2 - lw l' m' T' = Gw (IZR N) kap' e - lw l' m' T').
  unfold Gw. field.
Qed.
Lemma gibbs_form : forall m d, gibbs_free_energy N l m d k T
  = kB * T * (IZR N * (Gw (IZR N) kap (k * d * l / kB / T) - lw l m T)).
Proof using Hl HT Hk HN.
  intros m' d. unfold gibbs_free_energy.
  change (sdiv (sdiv (smul (smul k d) l) BOLTZMANN_CONSTANT) T) with (k * d * l / BOLTZMANN_CONSTANT / T).
  rewrite B_eq. set (e := k * d * l / kB / T).
  change (- IZR N * BOLTZMANN_CONSTANT * T * ln (sinh e / e) + 5 / 10 * k * (IZR N * l) ^ 2 * Lv e ^ 2
    - IZR N * BOLTZMANN_CONSTANT * T * lw l m' T = kB * T * (IZR N * (Gw (IZR N) kap e - lw l m' T))).
  unfold Gw, kap. rewrite B_eq. field. lra.
Qed.
Lemma gibbs_pl_form : forall m d, gibbs_free_energy_per_link N l m d k T
  = kB * T * (Gw (IZR N) kap (k * d * l / kB / T) - lw l m T).
Proof using Hl HT Hk HN.
  intros m' d. unfold gibbs_free_energy_per_link.
  change (sdiv (sdiv (smul (smul k d) l) BOLTZMANN_CONSTANT) T) with (k * d * l / BOLTZMANN_CONSTANT / T).
  rewrite B_eq. set (e := k * d * l / kB / T).
  change (- BOLTZMANN_CONSTANT * T * ln (sinh e / e) + 5 / 10 * k * (IZR N * l) ^ 2 / IZR N * Lv e ^ 2
    - BOLTZMANN_CONSTANT * T * lw l m' T = kB * T * (Gw (IZR N) kap e - lw l m' T)).
  unfold Gw, kap. rewrite B_eq. field. lra.
Qed.

Lemma ref_eq : k * (ZERO * IZR N * l) * l / kB / T = IZR N * kap * ZERO.
Proof using HT Hk HN. unfold kap. field. lra. Qed.

Definition g0 : R := Gw (IZR N) kap (IZR N * kap * ZERO).

Lemma forms : forall x, let c := C_weak_potential N l m T k in let y := x * l / (kB * T) in
  I_gibbs c x = kB * T * (IZR N * (Gw (IZR N) kap y - lw l m T)) /\
  I_gibbs_per_link c x = kB * T * (Gw (IZR N) kap y - lw l m T) /\
  I_rel_gibbs c x = kB * T * (IZR N * (Gw (IZR N) kap y - g0)) /\
  I_rel_gibbs_per_link c x = kB * T * (Gw (IZR N) kap y - g0) /\
  I_nd_gibbs c x = IZR N * (Gw (IZR N) kap x - lw l m T) /\
  I_nd_gibbs_per_link c x = Gw (IZR N) kap x - lw l m T /\
  I_nd_rel_gibbs c x = IZR N * (Gw (IZR N) kap x - g0) /\
  I_nd_rel_gibbs_per_link c x = Gw (IZR N) kap x - g0.
Proof using Hl HT Hk HN.
  intros x c y.
  assert (Y : k * (x / k) * l / kB / T = y) by (unfold y; field; lra).
  unfold c, C_weak_potential; cbn [I_gibbs I_gibbs_per_link I_rel_gibbs I_rel_gibbs_per_link I_nd_gibbs I_nd_gibbs_per_link I_nd_rel_gibbs I_nd_rel_gibbs_per_link]. fold kap.
  unfold relative_gibbs_free_energy, relative_gibbs_free_energy_per_link,
    nondimensional_relative_gibbs_free_energy, nondimensional_relative_gibbs_free_energy_per_link.
  change (smul (smul ZERO (sofZ N)) l) with (ZERO * IZR N * l). change (@ssub R R_scalar) with Rminus.
  rewrite ?nd_gibbs_form, ?nd_gibbs_pl_form, ?gibbs_form, ?gibbs_pl_form, ref_eq, Y, arg_nd. unfold g0.
  repeat split; ring.
Qed.

Lemma weak_dimensionless : isotensional_dimensionless l T (C_weak_potential N l m T k).
Proof using Hl HT Hk HN.
  intros f eta. pose proof (forms f) as (A1 & A2 & A3 & A4 & _). pose proof (forms eta) as (_ & _ & _ & _ & B1 & B2 & B3 & B4).
  rewrite len, len_pl, nd_len, nd_len_pl, A1, A2, A3, A4, B1, B2, B3, B4. repeat split; reflexivity.
Qed.
Lemma weak_extensive : isotensional_extensive (IZR N) (C_weak_potential N l m T k).
Proof using Hl HT Hk HN.
  intro x. pose proof (forms x) as (A1 & A2 & A3 & A4 & B1 & B2 & B3 & B4).
  rewrite len, len_pl, nd_len, nd_len_pl, A1, A2, A3, A4, B1, B2, B3, B4. repeat split; ring.
Qed.
Lemma weak_relative : isotensional_relative (C_weak_potential N l m T k).
Proof using Hl HT Hk HN.
  repeat split; intros x y; pose proof (forms x) as (A1 & A2 & A3 & A4 & B1 & B2 & B3 & B4);
  pose proof (forms y) as (A1' & A2' & A3' & A4' & B1' & B2' & B3' & B4');
  rewrite ?A1, ?A2, ?A3, ?A4, ?B1, ?B2, ?B3, ?B4, ?A1', ?A2', ?A3', ?A4', ?B1', ?B2', ?B3', ?B4'; ring.
Qed.

Lemma weak_conjugate : forall f eta, 0 < f -> 0 < eta -> isotensional_conjugate_at (C_weak_potential N l m T k) f eta.
Proof using Hl HT Hk HN.
  intros f eta Hf He.
  assert (D : forall x, 0 < x -> is_derive (I_nd_gibbs_per_link (C_weak_potential N l m T k)) x
                (- I_nd_length_per_link (C_weak_potential N l m T k) x)).
  { intros x Hx. rewrite nd_len_pl.
    apply (is_derive_ext (fun x => Gw (IZR N) kap x - lw l m T)).
    - intro t. symmetry. apply (forms t).
    - apply PConj.derive_shift, Gw_derive, Hx. }
  apply (lift_conjugate (IZR N) l T); auto using weak_dimensionless, weak_extensive, weak_relative, eta_pos.
Qed.

Lemma weak_force : forall d, force d k = k * d /\
  nondimensional_force N (d / (IZR N * l)) kap = (k * d) * l / (kB * T).
Proof using Hl HT Hk HN.
  intro d. split; [reflexivity|]. change (IZR N * kap * (d / (IZR N * l)) = k * d * l / (kB * T)). unfold kap. field. lra.
Qed.

End Weak.

(** Difference from the isotensional ensemble: proportional to the stiffness. *)
Lemma weak_leading : forall (N : Z) (eta : R), (0 < N)%Z -> exists c, forall kap, 0 < kap ->
  nondimensional_end_to_end_length_per_link N (eta / (IZR N * kap)) kap
    = fjc_isotensional.nondimensional_end_to_end_length_per_link eta + c * kap.
Proof.
  intros N eta HN. exists (- (Lv eta * IZR N * (/ eta ^ 2 - / sinh eta ^ 2))). intros kap Hk.
  assert (0 < IZR N) by (apply IZR_lt; exact HN).
  unfold nondimensional_end_to_end_length_per_link.
  change (smul (smul (sofZ N) kap) (eta / (IZR N * kap))) with (IZR N * kap * (eta / (IZR N * kap))).
  replace (IZR N * kap * (eta / (IZR N * kap))) with eta by (field; lra).
  change (Xw (IZR N) kap eta = Lv eta + - (Lv eta * IZR N * (/ eta ^ 2 - / sinh eta ^ 2)) * kap). unfold Xw. ring.
Qed.
