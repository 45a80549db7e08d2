(** Theorems for C48 and C10. *)
From Coq Require Import Reals ZArith Lra Lia.
From Coquelicot Require Import Coquelicot.
From Verif Require Import Scalar MConst MWlc SpecThermo SpecChains SpecPartition SpecWorm PWorm PWormExample PConjWlcBound.
Open Scope R_scope.

(** The shift does not appear in the value. *)
Theorem C48_gibbs : forall N l m T z eta g, (0 < N)%Z -> 0 < eta <= 100 ->
  wlc_isotensional.nondimensional_gibbs_free_energy N l m z eta T = Some g ->
  g = worm_gibbs N l m T z eta.
Proof. intros N l m T z eta g HN. exact (wlc_gibbs_value N z HN l m T eta g). Qed.
Print Assumptions C48_gibbs.

Theorem C48_length : forall N l m T z eta x, (0 < N)%Z -> 0 < eta ->
  wlc_isotensional.nondimensional_end_to_end_length N z eta = Some x ->
  is_derive (worm_gibbs N l m T z) eta (- x).
Proof. exact wlc_length_derive. Qed.
Print Assumptions C48_length.

(** A chain of eight links under a force at which the root finder returns. *)
Example C48_length_example : exists eta x, 0 < eta /\
  wlc_isotensional.nondimensional_end_to_end_length 8 (1 / 10) eta = Some x.
Proof.
  destruct (worm_length_returns 8 eq_refl) as [x E]. exists (wforce 8), x. split; [|exact E].
  pose proof (wforce_bounds 8 eq_refl). lra.
Qed.

(** The root finder is easiest to follow at strong forces.  A force of at most 100
    is strong for a long chain, here longer than a byte can hold. *)
Example C48_gibbs_example : exists eta g, 0 < eta <= 100 /\
  wlc_isotensional.nondimensional_gibbs_free_energy 3000000 1 1 (1 / 10) eta 300 = Some g.
Proof.
  destruct (worm_gibbs_returns 3000000 1 1 300 eq_refl) as [g E]. exists (wforce 3000000), g. split; [|exact E].
  pose proof (wforce_bounds 3000000 eq_refl). lra.
Qed.

(** ** C10 *)

(** The persistence length is at most 0.4 of the contour length. *)
Theorem C10_wlc_isometric_conjugate : forall N l m T p x,
  (0 < N)%Z -> 0 < l -> 0 < T -> 0 < p / (IZR N * l) <= 4 / 10 -> 0 < x < 1 ->
  exists d, is_derive (S_nd_helmholtz_per_link (C_wlc_isometric N l m T p)) x d /\
    Rabs (d - S_nd_force (C_wlc_isometric N l m T p) x) <= 5 / 10 ^ 14 * x / IZR N.
Proof. exact wlc_isometric_bound. Qed.
Print Assumptions C10_wlc_isometric_conjugate.

(** Without the bound on the persistence length the claim is false. *)
Theorem C10_wlc_stiff_refuted : forall N l m T,
  (0 < N)%Z -> 0 < l -> 0 < T ->
  exists d, is_derive (S_nd_helmholtz_per_link (C_wlc_isometric N l m T (1111 / 1000 * (IZR N * l)))) (99 / 100) d /\
    d <= S_nd_force (C_wlc_isometric N l m T (1111 / 1000 * (IZR N * l))) (99 / 100) - 4 / 100 / IZR N.
Proof. exact wlc_isometric_stiff. Qed.
Print Assumptions C10_wlc_stiff_refuted.
