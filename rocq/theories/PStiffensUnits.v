(** Compliance: comparison with the linear response, and lengths with units. *)
From Coq Require Import Reals ZArith List Lra Lia Psatz.
From Coquelicot Require Import Coquelicot.
From Verif Require Import Scalar MMath MConst MIdeal MFjc MEfjc MSwfjc.
From Verif Require Import SpecThermo SpecChains SpecHooke SpecStiffens PBase PHooke PHookeStrong PHookeAsymptotic PStiffens.
Open Scope R_scope.

Lemma below_slope : forall f slope, stiffens f -> weak_slope f slope -> forall x, 0 < x -> f x < slope * x.
Proof.
  intros f s S W x Hx. pose proof (S (x / 2) x ltac:(lra) ltac:(lra)) as A.
  assert (B : Rbar_le (f (x / 2) / (x / 2)) s).
  { apply (filterlim_le (F := at_right 0) (fun _ => f (x / 2) / (x / 2)) (fun t => f t / t)); [|apply filterlim_const | exact W].
    exists (mkposreal (x / 2) ltac:(lra)). intros t Ht Hp. cbn in Ht. unfold ball in Ht; cbn in Ht. unfold AbsRing_ball, abs, minus, plus, opp in Ht; cbn in Ht.
    rewrite Ropp_0, Rplus_0_r, Rabs_pos_eq in Ht by lra. left. apply S; lra. }
  cbn in B. apply Rmult_lt_reg_r with (/ x); [apply Rinv_0_lt_compat, Hx|]. rewrite Rmult_assoc, Rinv_r by lra. unfold Rdiv in *. lra.
Qed.

Lemma stiffens_scaled : forall g h a b, 0 < a -> 0 < b -> (forall f, 0 < f -> h f = a * g (b * f)) -> stiffens g -> stiffens h.
Proof.
  intros g h a b Ha Hb E S x y Hx H. rewrite !E by lra.
  pose proof (S (b * x) (b * y) ltac:(apply Rmult_lt_0_compat; assumption) ltac:(apply Rmult_lt_compat_l; assumption)) as Q.
  replace (a * g (b * y) / y) with (a * b * (g (b * y) / (b * y))) by (field; lra).
  replace (a * g (b * x) / x) with (a * b * (g (b * x) / (b * x))) by (field; lra).
  apply Rmult_lt_compat_l; [apply Rmult_lt_0_compat; assumption | exact Q].
Qed.

Lemma stiffens_units : forall g h N l T, (0 < N)%Z -> 0 < l -> 0 < T ->
  (forall f, 0 < f -> h f = IZR N * l * g (l / (kB * T) * f)) -> stiffens g -> stiffens h.
Proof.
  intros g h N l T HN Hl HT. pose proof kB_pos. assert (0 < IZR N) by (apply IZR_lt, HN).
  apply stiffens_scaled; [|apply Rdiv_lt_0_compat; [|apply Rmult_lt_0_compat]]; try assumption. apply Rmult_lt_0_compat; assumption.
Qed.

Lemma load_eq : forall f l T, 0 < T -> f * l / BOLTZMANN_CONSTANT / T = l / (kB * T) * f.
Proof. intros. rewrite B_eq. pose proof kB_pos. field. lra. Qed.

Lemma kappa_eq : forall k l T, 0 < T -> k * l ^ 2 / BOLTZMANN_CONSTANT / T = kappa k l T.
Proof. intros. rewrite B_eq. pose proof kB_pos. unfold kappa. field. lra. Qed.

Lemma kappa_pos : forall k l T, 0 < k -> 0 < l -> 0 < T -> 0 < kappa k l T.
Proof. intros. unfold kappa. pose proof kB_pos. apply Rdiv_lt_0_compat; apply Rmult_lt_0_compat; try assumption. apply pow_lt; assumption. Qed.

Lemma fjc_units : forall N l T, (0 < N)%Z -> 0 < l -> 0 < T -> stiffens (fun f => fjc_isotensional.end_to_end_length N l f T).
Proof.
  intros. apply (stiffens_units (@fjc_isotensional.nondimensional_end_to_end_length_per_link R R_scalar) _ N l T); try assumption; [|apply fjc_stiffens].
  intros f Hf. change (fjc_isotensional.nondimensional_end_to_end_length_per_link (f / BOLTZMANN_CONSTANT / T * l) * IZR N * l = IZR N * l * fjc_isotensional.nondimensional_end_to_end_length_per_link (l / (kB * T) * f)).
  replace (f / BOLTZMANN_CONSTANT / T * l) with (f * l / BOLTZMANN_CONSTANT / T) by (unfold Rdiv; ring). rewrite load_eq by assumption. ring.
Qed.

Lemma swfjc_units : forall N l w T, (0 < N)%Z -> 0 < l -> 0 < w -> 0 < T -> stiffens (fun f => swfjc_isotensional.end_to_end_length N l w f T).
Proof.
  intros. apply (stiffens_units (@swfjc_isotensional.nondimensional_end_to_end_length_per_link R R_scalar l w) _ N l T); try assumption; [|apply swfjc_stiffens; assumption].
  intros f Hf. change (IZR N * l * swfjc_isotensional.nondimensional_end_to_end_length_per_link l w (f * l / BOLTZMANN_CONSTANT / T) = IZR N * l * swfjc_isotensional.nondimensional_end_to_end_length_per_link l w (l / (kB * T) * f)).
  rewrite load_eq by assumption. reflexivity.
Qed.

Lemma efjc_units : forall N l k T, (0 < N)%Z -> 0 < l -> 0 < k -> 0 < T ->
  stiffens (fun f => efjc_isotensional_asymptotic.end_to_end_length N l k f T) /\
  stiffens (fun f => efjc_isotensional_asymptotic_alternative.end_to_end_length N l k f T) /\
  stiffens (fun f => efjc_isotensional_asymptotic_reduced.end_to_end_length N l k f T).
Proof.
  intros N l k T HN Hl Hk HT. split; [|split].
  - apply (stiffens_units (@efjc_isotensional_asymptotic.nondimensional_end_to_end_length_per_link R R_scalar (kappa k l T)) _ N l T); try assumption; [|apply efjc_stiffens, kappa_pos; assumption].
    intros f Hf. change (l * (IZR N * efjc_isotensional_asymptotic.nondimensional_end_to_end_length_per_link (k * l ^ 2 / BOLTZMANN_CONSTANT / T) (f * l / BOLTZMANN_CONSTANT / T)) = IZR N * l * efjc_isotensional_asymptotic.nondimensional_end_to_end_length_per_link (kappa k l T) (l / (kB * T) * f)).
    rewrite kappa_eq, load_eq by assumption. ring.
  - apply (stiffens_units (@efjc_isotensional_asymptotic_alternative.nondimensional_end_to_end_length_per_link R R_scalar (kappa k l T)) _ N l T); try assumption; [|apply efjc_alternative_stiffens, kappa_pos; assumption].
    intros f Hf. change (IZR N * l * efjc_isotensional_asymptotic_alternative.nondimensional_end_to_end_length_per_link (k * l ^ 2 / BOLTZMANN_CONSTANT / T) (f * l / BOLTZMANN_CONSTANT / T) = IZR N * l * efjc_isotensional_asymptotic_alternative.nondimensional_end_to_end_length_per_link (kappa k l T) (l / (kB * T) * f)).
    rewrite kappa_eq, load_eq by assumption. reflexivity.
  - apply (stiffens_units (@efjc_isotensional_asymptotic_reduced.nondimensional_end_to_end_length_per_link R R_scalar (kappa k l T)) _ N l T); try assumption; [|apply efjc_reduced_stiffens, kappa_pos; assumption].
    intros f Hf. pose proof kB_pos. change (IZR N * (l / tanh (f * l / BOLTZMANN_CONSTANT / T) - BOLTZMANN_CONSTANT * T / f + f / k) = IZR N * l * (1 / tanh (l / (kB * T) * f) - 1 / (l / (kB * T) * f) + l / (kB * T) * f / kappa k l T)).
    rewrite load_eq, B_eq by assumption. unfold kappa. unfold Rdiv at 1. set (t := / tanh (l / (kB * T) * f)). replace (1 / tanh (l / (kB * T) * f)) with t by (unfold t, Rdiv; ring). field. repeat split; lra.
Qed.

Lemma ideal_hookean : hookean (@ideal_isotensional.nondimensional_end_to_end_length_per_link R R_scalar).
Proof.
  intros x y Hx H. change (y / IZR 3 / y = x / IZR 3 / x) || change (y / Rdec 3 0 / y = x / Rdec 3 0 / x). field. lra.
Qed.

Lemma fjc_below : forall x, 0 < x -> fjc_isotensional.nondimensional_end_to_end_length_per_link x < ideal_isotensional.nondimensional_end_to_end_length_per_link x.
Proof.
  intros x Hx. change (ideal_isotensional.nondimensional_end_to_end_length_per_link x) with (x / 3). replace (x / 3) with (1 / 3 * x) by field. apply (below_slope _ (1 / 3)); [apply fjc_stiffens | | exact Hx].
  exact (hooke_slope _ _ _ fjc_hooke).
Qed.
