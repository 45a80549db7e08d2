(** Mirror symmetry of the chain models. *)
From Coq Require Import Reals ZArith List Bool Lra Lia Psatz.
From Coquelicot Require Import Coquelicot.
From Verif Require Import Scalar MMath MConst MTreloar MIdeal MFjc MSwfjc MEfjc MMorse MWlc.
From Verif Require Import SpecThermo SpecChains SpecReverse PBase PHyp.
From Verif Require PLift PIdentIdeal PIdentFjc PIdentSwfjc PIdentEfjc.
Import ListNotations.
Open Scope R_scope.

Lemma sinh_opp : forall x, sinh (- x) = - sinh x.
Proof. intro x. unfold sinh. rewrite Ropp_involutive. field. Qed.
Lemma cosh_opp : forall x, cosh (- x) = cosh x.
Proof. intro x. unfold cosh. rewrite Ropp_involutive. field. Qed.
Lemma tanh_opp : forall x, tanh (- x) = - tanh x.
Proof. intro x. unfold tanh. rewrite sinh_opp, cosh_opp. unfold Rdiv. ring. Qed.
Lemma sinh_nz : forall x, x <> 0 -> sinh x <> 0.
Proof.
  intros x H. destruct (Rtotal_order x 0) as [L|[E|G]]; [|contradiction|].
  - pose proof (PHyp.sinh_pos (- x) ltac:(lra)). rewrite sinh_opp in H0. lra.
  - pose proof (PHyp.sinh_pos x G). lra.
Qed.
Lemma tanh_nz : forall x, x <> 0 -> tanh x <> 0.
Proof.
  intros x H. unfold tanh. pose proof (sinh_nz x H). pose proof (PHyp.cosh_pos x).
  apply Rmult_integral_contrapositive. split; [assumption|apply Rinv_neq_0_compat; lra].
Qed.
Lemma inv_opp : forall x, / (- x) = - / x.
Proof. intro x. destruct (Req_dec x 0) as [->|H]; [rewrite Ropp_0, Rinv_0; ring | field; exact H]. Qed.

Lemma square_opp : forall x, powerRZ (- x) 2 = powerRZ x 2.
Proof. intro x. simpl. ring. Qed.
Lemma plus_opp : forall a b, - a + - b = - (a + b).
Proof. intros a b. ring. Qed.

(** Unfold a function of the real instance, and push the signs outwards. *)
Ltac to_R := cbv [stanh ssinh scosh sln sexp ssqrt sofZ spi smul sadd ssub sdiv sneg spowi R_scalar].
Ltac flip := unfold Rminus, Rdiv; repeat first [rewrite square_opp | rewrite sinh_opp | rewrite cosh_opp | rewrite tanh_opp | rewrite inv_opp | rewrite Ropp_involutive | rewrite Ropp_mult_distr_l_reverse | rewrite Ropp_mult_distr_r_reverse | rewrite plus_opp].

(** ** From one link, without dimensions, to all functions *)
Lemma eta_opp : forall f l T, - f * l / (kB * T) = - (f * l / (kB * T)).
Proof. intros f l T. unfold Rdiv. ring. Qed.

Lemma extension_lift : forall n l T c, 0 < l -> 0 < T -> isotensional_dimensionless l T c -> isotensional_extensive n c ->
  odd_on loaded (I_nd_length_per_link c) -> extension_reverses c.
Proof.
  intros n l T c Hl HT D X O.
  assert (A : odd_on loaded (I_length_per_link c)).
  { intros f Hf. destruct (D f) as (_ & -> & _). destruct (D (- f)) as (_ & -> & _). rewrite eta_opp, O; [ring|].
    apply PLift.eta_neq_0; assumption. }
  split; [|split; [exact A|split; [|exact O]]].
  - intros f Hf. destruct (X f) as (-> & _). destruct (X (- f)) as (-> & _). rewrite A by exact Hf. ring.
  - intros f Hf. destruct (X f) as (_ & -> & _). destruct (X (- f)) as (_ & -> & _). rewrite O by exact Hf. ring.
Qed.

Lemma increments_even : forall r a D, same_increments r a -> even_on D a -> even_on D r.
Proof. intros r a D S E x Hx. pose proof (S (- x) x) as Q. rewrite E in Q by exact Hx. lra. Qed.

Lemma gibbs_lift : forall n l T c, 0 < l -> 0 < T -> isotensional_dimensionless l T c -> isotensional_extensive n c -> isotensional_relative c ->
  even_on loaded (I_nd_gibbs_per_link c) -> gibbs_reverses c.
Proof.
  intros n l T c Hl HT D X (R1 & R2 & R3 & R4) E.
  assert (A : even_on loaded (I_gibbs_per_link c)).
  { intros f Hf. destruct (D f) as (_ & _ & _ & -> & _). destruct (D (- f)) as (_ & _ & _ & -> & _). rewrite eta_opp, E; [ring|].
    apply PLift.eta_neq_0; assumption. }
  assert (B : even_on loaded (I_gibbs c)).
  { intros f Hf. destruct (X f) as (_ & _ & -> & _). destruct (X (- f)) as (_ & _ & -> & _). rewrite A by exact Hf. ring. }
  assert (C : even_on loaded (I_nd_gibbs c)).
  { intros f Hf. destruct (X f) as (_ & _ & _ & _ & -> & _). destruct (X (- f)) as (_ & _ & _ & _ & -> & _). rewrite E by exact Hf. ring. }
  repeat (split; [first [exact A | exact B | exact C | exact E | eapply increments_even; eassumption]|]).
  eapply increments_even; eassumption.
Qed.

Lemma helmholtz_lift : forall c h, isotensional_legendre c h -> extension_reverses c -> gibbs_reverses c -> helmholtz_reverses h.
Proof.
  intros c h (A & S1 & S2 & S3 & S4) (O1 & O2 & O3 & O4) (G1 & G2 & G3 & G4 & G5 & G6 & G7 & G8).
  assert (N : forall x, loaded x -> loaded (- x)) by (intros x H; unfold loaded in *; lra).
  unfold helmholtz_reverses.
  repeat split; intros x Hx; pose proof (N x Hx) as Hn.
  - destruct (A x Hx) as (-> & _). destruct (A (- x) Hn) as (-> & _). rewrite O1, G1 by exact Hx. ring.
  - destruct (A x Hx) as (_ & -> & _). destruct (A (- x) Hn) as (_ & -> & _). rewrite O2, G2 by exact Hx. ring.
  - pose proof (S1 (- x) x Hn Hx) as Q. cbv beta in Q. rewrite O1, G3 in Q by exact Hx. lra.
  - pose proof (S2 (- x) x Hn Hx) as Q. cbv beta in Q. rewrite O2, G4 in Q by exact Hx. lra.
  - destruct (A x Hx) as (_ & _ & -> & _). destruct (A (- x) Hn) as (_ & _ & -> & _). rewrite O3, G5 by exact Hx. ring.
  - destruct (A x Hx) as (_ & _ & _ & ->). destruct (A (- x) Hn) as (_ & _ & _ & ->). rewrite O4, G6 by exact Hx. ring.
  - pose proof (S3 (- x) x Hn Hx) as Q. cbv beta in Q. rewrite O3, G7 in Q by exact Hx. lra.
  - pose proof (S4 (- x) x Hn Hx) as Q. cbv beta in Q. rewrite O4, G8 in Q by exact Hx. lra.
Qed.

(** ** The isotensional ensembles *)
Lemma ideal_isotensional : forall N l m T, (0 < N)%Z -> 0 < l -> 0 < T ->
  extension_reverses (C_ideal_isotensional N l m T) /\ gibbs_reverses (C_ideal_isotensional N l m T).
Proof.
  intros N l m T HN Hl HT. split.
  - apply (extension_lift (IZR N) l T); try assumption; [apply PIdentIdeal.ideal_isotensional_dimensionless|apply PIdentIdeal.ideal_isotensional_extensive|]; try assumption.
    intros x Hx. cbn -[IZR]. unfold ideal_isotensional.nondimensional_end_to_end_length_per_link. to_R. flip. ring.
  - apply (gibbs_lift (IZR N) l T); try assumption; [apply PIdentIdeal.ideal_isotensional_dimensionless|apply PIdentIdeal.ideal_isotensional_extensive|apply PIdentIdeal.ideal_isotensional_relative|]; try assumption.
    intros x Hx. cbn [I_nd_gibbs_per_link C_ideal_isotensional]. unfold ideal_isotensional.nondimensional_gibbs_free_energy_per_link. to_R. flip. reflexivity.
Qed.

Lemma fjc_isotensional : forall N l m T, (0 < N)%Z -> 0 < l -> 0 < T ->
  extension_reverses (C_fjc_isotensional N l m T) /\ gibbs_reverses (C_fjc_isotensional N l m T) /\
  helmholtz_reverses (C_fjc_isotensional_legendre N l m T).
Proof.
  intros N l m T HN Hl HT.
  assert (A : extension_reverses (C_fjc_isotensional N l m T)).
  { apply (extension_lift (IZR N) l T); try assumption; [apply PIdentFjc.fjc_isotensional_dimensionless|apply PIdentFjc.fjc_isotensional_extensive|]; try assumption.
    intros x Hx. cbn [I_nd_length_per_link C_fjc_isotensional]. unfold fjc_isotensional.nondimensional_end_to_end_length_per_link. to_R. flip. ring. }
  assert (B : gibbs_reverses (C_fjc_isotensional N l m T)).
  { apply (gibbs_lift (IZR N) l T); try assumption; [apply PIdentFjc.fjc_isotensional_dimensionless|apply PIdentFjc.fjc_isotensional_extensive|apply PIdentFjc.fjc_isotensional_relative|]; try assumption.
    intros x Hx. cbn [I_nd_gibbs_per_link C_fjc_isotensional]. unfold fjc_isotensional.nondimensional_gibbs_free_energy_per_link. to_R. flip. reflexivity. }
  split; [exact A|]. split; [exact B|]. apply (helmholtz_lift (C_fjc_isotensional N l m T)); [apply PIdentFjc.fjc_isotensional_legendre_legendre|..]; assumption.
Qed.

Lemma swfjc_isotensional : forall N l m T w, (0 < N)%Z -> 0 < l -> 0 < T -> 0 < w ->
  extension_reverses (C_swfjc_isotensional N l m T w).
Proof.
  intros N l m T w HN Hl HT Hw.
  apply (extension_lift (IZR N) l T); try assumption; [apply PIdentSwfjc.swfjc_isotensional_dimensionless|apply PIdentSwfjc.swfjc_isotensional_extensive|]; try assumption.
  intros x Hx. cbn [I_nd_length_per_link C_swfjc_isotensional]. unfold swfjc_isotensional.nondimensional_end_to_end_length_per_link. to_R.
  set (v := sdec 1 0 + w / l). clearbody v.
  replace (v * - x * cosh (v * - x) - sinh (v * - x) - - x * cosh (- x) + sinh (- x)) with (- (v * x * cosh (v * x) - sinh (v * x) - x * cosh x + sinh x)) by (flip; ring).
  replace (powerRZ v 2 * - x * sinh (v * - x) - - x * sinh (- x)) with (powerRZ v 2 * x * sinh (v * x) - x * sinh x) by (flip; ring).
  flip. ring.
Qed.

Lemma efjc_asymptotic : forall N l m T k, (0 < N)%Z -> 0 < l -> 0 < T -> 0 < k ->
  extension_reverses (C_efjc_isotensional_asymptotic N l m T k) /\ gibbs_reverses (C_efjc_isotensional_asymptotic N l m T k) /\
  helmholtz_reverses (C_efjc_isotensional_asymptotic_legendre N l m T k).
Proof.
  intros N l m T k HN Hl HT Hk.
  assert (A : extension_reverses (C_efjc_isotensional_asymptotic N l m T k)).
  { apply (extension_lift (IZR N) l T); try assumption; [apply PIdentEfjc.efjc_isotensional_asymptotic_dimensionless|apply PIdentEfjc.efjc_isotensional_asymptotic_extensive|]; try assumption.
    intros x Hx. cbn [I_nd_length_per_link C_efjc_isotensional_asymptotic]. unfold efjc_isotensional_asymptotic.nondimensional_end_to_end_length_per_link. to_R. flip. ring. }
  assert (B : gibbs_reverses (C_efjc_isotensional_asymptotic N l m T k)).
  { apply (gibbs_lift (IZR N) l T); try assumption; [apply PIdentEfjc.efjc_isotensional_asymptotic_dimensionless|apply PIdentEfjc.efjc_isotensional_asymptotic_extensive|apply PIdentEfjc.efjc_isotensional_asymptotic_relative|]; try assumption.
    intros x Hx. cbn [I_nd_gibbs_per_link C_efjc_isotensional_asymptotic]. unfold efjc_isotensional_asymptotic.nondimensional_gibbs_free_energy_per_link. to_R. flip. reflexivity. }
  split; [exact A|]. split; [exact B|]. apply (helmholtz_lift (C_efjc_isotensional_asymptotic N l m T k)); [apply PIdentEfjc.efjc_isotensional_asymptotic_legendre_legendre|..]; assumption.
Qed.

Lemma efjc_alternative : forall N l m T k, (0 < N)%Z -> 0 < l -> 0 < T -> 0 < k ->
  extension_reverses (C_efjc_isotensional_asymptotic_alternative N l m T k) /\ gibbs_reverses (C_efjc_isotensional_asymptotic_alternative N l m T k) /\
  helmholtz_reverses (C_efjc_isotensional_asymptotic_alternative_legendre N l m T k).
Proof.
  intros N l m T k HN Hl HT Hk.
  assert (A : extension_reverses (C_efjc_isotensional_asymptotic_alternative N l m T k)).
  { apply (extension_lift (IZR N) l T); try assumption; [apply PIdentEfjc.efjc_isotensional_asymptotic_alternative_dimensionless|apply PIdentEfjc.efjc_isotensional_asymptotic_alternative_extensive|]; try assumption.
    intros x Hx. cbn [I_nd_length_per_link C_efjc_isotensional_asymptotic_alternative]. unfold efjc_isotensional_asymptotic_alternative.nondimensional_end_to_end_length_per_link. to_R. flip. ring. }
  assert (B : gibbs_reverses (C_efjc_isotensional_asymptotic_alternative N l m T k)).
  { apply (gibbs_lift (IZR N) l T); try assumption; [apply PIdentEfjc.efjc_isotensional_asymptotic_alternative_dimensionless|apply PIdentEfjc.efjc_isotensional_asymptotic_alternative_extensive|apply PIdentEfjc.efjc_isotensional_asymptotic_alternative_relative|]; try assumption.
    intros x Hx. cbn [I_nd_gibbs_per_link C_efjc_isotensional_asymptotic_alternative]. unfold efjc_isotensional_asymptotic_alternative.nondimensional_gibbs_free_energy_per_link. to_R. flip. reflexivity. }
  split; [exact A|]. split; [exact B|]. apply (helmholtz_lift (C_efjc_isotensional_asymptotic_alternative N l m T k)); [apply PIdentEfjc.efjc_isotensional_asymptotic_alternative_legendre_legendre|..]; assumption.
Qed.

Lemma efjc_reduced : forall N l m T k, (0 < N)%Z -> 0 < l -> 0 < T -> 0 < k ->
  extension_reverses (C_efjc_isotensional_asymptotic_reduced N l m T k) /\ gibbs_reverses (C_efjc_isotensional_asymptotic_reduced N l m T k) /\
  helmholtz_reverses (C_efjc_isotensional_asymptotic_reduced_legendre N l m T k).
Proof.
  intros N l m T k HN Hl HT Hk.
  assert (A : extension_reverses (C_efjc_isotensional_asymptotic_reduced N l m T k)).
  { apply (extension_lift (IZR N) l T); try assumption; [apply PIdentEfjc.efjc_isotensional_asymptotic_reduced_dimensionless|apply PIdentEfjc.efjc_isotensional_asymptotic_reduced_extensive|]; try assumption.
    intros x Hx. cbn [I_nd_length_per_link C_efjc_isotensional_asymptotic_reduced]. unfold efjc_isotensional_asymptotic_reduced.nondimensional_end_to_end_length_per_link. to_R. flip. ring. }
  assert (B : gibbs_reverses (C_efjc_isotensional_asymptotic_reduced N l m T k)).
  { apply (gibbs_lift (IZR N) l T); try assumption; [apply PIdentEfjc.efjc_isotensional_asymptotic_reduced_dimensionless|apply PIdentEfjc.efjc_isotensional_asymptotic_reduced_extensive|apply PIdentEfjc.efjc_isotensional_asymptotic_reduced_relative|]; try assumption.
    intros x Hx. cbn [I_nd_gibbs_per_link C_efjc_isotensional_asymptotic_reduced]. unfold efjc_isotensional_asymptotic_reduced.nondimensional_gibbs_free_energy_per_link. to_R. flip. reflexivity. }
  split; [exact A|]. split; [exact B|]. apply (helmholtz_lift (C_efjc_isotensional_asymptotic_reduced N l m T k)); [apply PIdentEfjc.efjc_isotensional_asymptotic_reduced_legendre_legendre|..]; assumption.
Qed.

