(** Mirror symmetry in the isometric and the modified canonical ensembles. *)
From Coq Require Import Reals ZArith List Bool Lra Lia Psatz.
From Coquelicot Require Import Coquelicot.
From Verif Require Import Scalar MMath MConst MTreloar MIdeal MFjc MWlc.
From Verif Require Import SpecThermo SpecChains SpecReverse PBase PQuad PTreloar PReverse PReverseTreloar.
From Verif Require PIdentIdeal PIdentWlc PConjWlc PBessel PModified.
Import ListNotations.
Open Scope R_scope.

(** ** Lifting *)
Lemma isometric_lift : forall D n l T c, isometric_dimensionless n l T c -> isometric_extensive n c -> isometric_relative c ->
  odd_on D (S_nd_force c) -> even_on D (S_nd_helmholtz_per_link c) -> isometric_reverses_on D (n * l) c.
Proof.
  intros D n l T c Dm X (R1 & R2 & R3 & R4) O E.
  assert (F : forall x, - x / (n * l) = - (x / (n * l))) by (intro; unfold Rdiv; ring).
  assert (A : even_on (fun xi => D (xi / (n * l))) (S_helmholtz_per_link c)).
  { intros x Hx. destruct (Dm x) as (_ & _ & -> & _). destruct (Dm (- x)) as (_ & _ & -> & _). rewrite F, E by exact Hx. reflexivity. }
  assert (B : even_on (fun xi => D (xi / (n * l))) (S_helmholtz c)).
  { intros x Hx. destruct (X x) as (-> & _). destruct (X (- x)) as (-> & _). rewrite A by exact Hx. reflexivity. }
  assert (C : even_on D (S_nd_helmholtz c)).
  { intros x Hx. destruct (X x) as (_ & _ & -> & _). destruct (X (- x)) as (_ & _ & -> & _). rewrite E by exact Hx. reflexivity. }
  unfold isometric_reverses_on. cbv zeta. split.
  { intros x Hx. destruct (Dm x) as (-> & _). destruct (Dm (- x)) as (-> & _). rewrite F, O by exact Hx. ring. }
  split; [exact O|].
  repeat (split; [first [exact A | exact B | exact C | exact E | eapply increments_even; eassumption]|]).
  eapply increments_even; eassumption.
Qed.

(** ** The ideal chain *)
Lemma ideal_isometric : forall N l m T, (0 < N)%Z -> 0 < l -> 0 < T ->
  isometric_reverses_on anywhere (IZR N * l) (C_ideal_isometric N l m T).
Proof.
  intros N l m T HN Hl HT. apply isometric_lift with (T := T);
    [apply PIdentIdeal.ideal_isometric_dimensionless | apply PIdentIdeal.ideal_isometric_extensive | apply PIdentIdeal.ideal_isometric_relative | | ]; try assumption.
  - intros x _. change (3 * - x = - (3 * x)). ring.
  - intros x _. unR. ring.
Qed.

(** ** The worm-like chain *)
Definition small_argument (z x : R) : Prop := x <> 0 /\ Rabs (PConjWlc.wlc_bessel_argument z x) < 775 / 100.

Lemma argument_opp : forall z x, PConjWlc.wlc_bessel_argument z (- x) = - PConjWlc.wlc_bessel_argument z x.
Proof. intros z x. unfold PConjWlc.wlc_bessel_argument. replace ((- x) ^ 2) with (x ^ 2) by ring. unfold Rdiv. ring. Qed.

Lemma wlc_isometric : forall N l m T p, (0 < N)%Z -> 0 < l -> 0 < T -> 0 < p ->
  isometric_reverses_on (small_argument (zeta p N l)) (IZR N * l) (C_wlc_isometric N l m T p).
Proof.
  intros N l m T p HN Hl HT Hp. apply isometric_lift with (T := T);
    [apply PIdentWlc.wlc_isometric_dimensionless | apply PIdentWlc.wlc_isometric_extensive | apply PIdentWlc.wlc_isometric_relative | | ]; try assumption.
  - intros x [H0 Ha]. pose proof (argument_opp (zeta p N l) x) as AO.
    pose proof (PBessel.i0_even _ Ha) as B0. pose proof (PBessel.i1_odd _ Ha) as B1.
    unfold C_wlc_isometric, S_nd_force, MWlc.wlc_isometric.nondimensional_force. unR. rewrite !PConjWlc.wlc_scale_eq.
    change (PConjWlc.wlc_bessel_scale (zeta p N l) * (x / (1 - (473 / 1000) ^ 2 * x ^ 2))) with (PConjWlc.wlc_bessel_argument (zeta p N l) x).
    change (PConjWlc.wlc_bessel_scale (zeta p N l) * (- x / (1 - (473 / 1000) ^ 2 * (- x) ^ 2))) with (PConjWlc.wlc_bessel_argument (zeta p N l) (- x)).
    rewrite AO, B0, B1. replace ((- x) ^ 2) with (x ^ 2) by ring.
    unfold Rdiv. rewrite !inv_opp. ring.
  - intros x [H0 Ha]. pose proof (argument_opp (zeta p N l) x) as AO.
    pose proof (PBessel.i0_even _ Ha) as B0.
    unfold C_wlc_isometric, S_nd_helmholtz_per_link, MWlc.wlc_isometric.nondimensional_helmholtz_free_energy_per_link, MWlc.wlc_isometric.nondimensional_helmholtz_free_energy. unR. rewrite !PConjWlc.wlc_scale_eq.
    change (PConjWlc.wlc_bessel_scale (zeta p N l) * (x / (1 - (473 / 1000) ^ 2 * x ^ 2))) with (PConjWlc.wlc_bessel_argument (zeta p N l) x).
    change (PConjWlc.wlc_bessel_scale (zeta p N l) * (- x / (1 - (473 / 1000) ^ 2 * (- x) ^ 2))) with (PConjWlc.wlc_bessel_argument (zeta p N l) (- x)).
    rewrite AO, B0. replace ((- x) ^ 2) with (x ^ 2) by ring.
    unfold Rdiv. ring.
Qed.

(** ** A chain held by a potential *)
Section Exact.
Variables (prof : profile) (n : nat) (kap : R).
Hypotheses (Hn : (2 <= n <= 26)%nat) (Hk : 0 < kap).
Let N := Z.of_nat n.

Lemma e1_opp : forall d x, PModified.e1 n kap (- d) x = PModified.e2 n kap d x.
Proof. intros d x. unfold PModified.e1, PModified.e2. f_equal. ring. Qed.
Lemma e2_opp : forall d x, PModified.e2 n kap (- d) x = PModified.e1 n kap d x.
Proof. intros d x. unfold PModified.e1, PModified.e2. f_equal. ring. Qed.
Lemma part_even : forall d, PModified.part n kap (- d) = PModified.part n kap d.
Proof.
  intro d. apply PModified.quad_ext. intros x _. unfold PModified.den. rewrite e1_opp, e2_opp.
  replace (2 * PModified.st n kap * - d * x) with (- (2 * PModified.st n kap * d * x)) by ring. unfold Rdiv. rewrite inv_opp. ring.
Qed.
Lemma quad_opp : forall f, PModified.quad (fun x => - f x) = - PModified.quad f.
Proof.
  intro f. unfold PModified.quad. rewrite Ropp_mult_distr_l. f_equal.
  induction PModified.nodes as [|a q IH]; cbn [map Rsum fold_right]; [unfold Rsum; simpl; ring|].
  change (Rsum (map (fun x => - f x) (a :: q))) with (- f a + Rsum (map (fun x => - f x) q)).
  change (Rsum (map f (a :: q))) with (f a + Rsum (map f q)). rewrite IH. ring.
Qed.
Lemma num_odd : forall d, PModified.quad (PModified.num n kap (- d)) = - PModified.quad (PModified.num n kap d).
Proof.
  intro d. rewrite <- quad_opp. apply PModified.quad_ext. intros x _. unfold PModified.num. rewrite e1_opp, e2_opp.
  replace (2 * PModified.st n kap * - d * x) with (- (2 * PModified.st n kap * d * x)) by ring.
  replace (2 * PModified.st n kap * (- d) ^ 2 * x) with (2 * PModified.st n kap * d ^ 2 * x) by ring. unfold Rdiv. rewrite inv_opp. ring.
Qed.

Lemma modified_force : odd_option anywhere (fun d => fjc_modified_canonical.nondimensional_force prof N d kap).
Proof.
  intros d _. cbv beta. unfold N. eexists. split; [apply PModified.nd_force_any; assumption|].
  rewrite PModified.nd_force_any by assumption. rewrite part_even, num_odd. f_equal. unfold Rdiv. ring.
Qed.
Lemma modified_helmholtz : forall l m T, even_option anywhere (fun d => fjc_modified_canonical.nondimensional_helmholtz_free_energy prof N l m d kap T).
Proof.
  intros l m T d _. cbv beta. unfold N. eexists. split; [apply PModified.nd_helmholtz_any; assumption|].
  rewrite PModified.nd_helmholtz_any by assumption. rewrite part_even. reflexivity.
Qed.
Lemma modified_length : odd_option anywhere (fun d => fjc_modified_canonical.nondimensional_end_to_end_length_per_link prof N d kap).
Proof.
  intros d _. destruct (modified_force d I) as (v & A & B). unfold fjc_modified_canonical.nondimensional_end_to_end_length_per_link.
  rewrite A, B. cbn [bind]. eexists. split; [reflexivity|]. f_equal. to_R. unfold Rdiv. ring.
Qed.
Lemma modified_gibbs : forall l m T, even_option anywhere (fun d => fjc_modified_canonical.nondimensional_gibbs_free_energy prof N l m d kap T).
Proof.
  intros l m T d _. destruct (modified_helmholtz l m T d I) as (v & A & B). unfold fjc_modified_canonical.nondimensional_gibbs_free_energy.
  rewrite A, B. cbn [bind]. eexists. split; [reflexivity|]. f_equal. to_R. rewrite square_opp. reflexivity.
Qed.
End Exact.

Section Dimensional.
Variables (prof : profile) (n : nat) (l m k T : R).
Hypotheses (Hn : (2 <= n <= 26)%nat) (Hl : 0 < l) (Hk : 0 < k) (HT : 0 < T).
Let N := Z.of_nat n.
Lemma stiffness_pos : 0 < (k * spowi l 2 / BOLTZMANN_CONSTANT / T)%S.
Proof.
  change (0 < k * powerRZ l 2 / BOLTZMANN_CONSTANT / T). rewrite B_eq. pose proof kB_pos. assert (0 < powerRZ l 2) by (apply powerRZ_lt, Hl).
  repeat (apply Rdiv_lt_0_compat; [|assumption]). apply Rmult_lt_0_compat; assumption.
Qed.
Lemma modified_dimensional :
  odd_option anywhere (fun d => fjc_modified_canonical.force prof N l d k T) /\
  odd_option anywhere (fun d => fjc_modified_canonical.end_to_end_length prof N l d k T) /\
  even_option anywhere (fun d => fjc_modified_canonical.helmholtz_free_energy prof N l m d k T) /\
  even_option anywhere (fun d => fjc_modified_canonical.gibbs_free_energy prof N l m d k T).
Proof.
  assert (F : odd_option anywhere (fun d => fjc_modified_canonical.force prof N l d k T)).
  { intros d _. destruct (modified_force prof n _ Hn stiffness_pos (d / (IZR N * l)) I) as (v & A & B).
    exists (BOLTZMANN_CONSTANT * T / l * v). unfold fjc_modified_canonical.force.
    change (d / (sofZ N * l))%S with (d / (IZR N * l)). change (sdiv (- d) (smul (sofZ N) l)) with (- d / (IZR N * l)).
    replace (- d / (IZR N * l)) with (- (d / (IZR N * l))) by (unfold Rdiv; ring). unfold N in *. rewrite A, B. cbn [bind].
    split; f_equal. to_R. ring. }
  assert (E : even_option anywhere (fun d => fjc_modified_canonical.helmholtz_free_energy prof N l m d k T)).
  { intros d _. destruct (modified_helmholtz prof n _ Hn stiffness_pos l m T (d / (IZR N * l)) I) as (v & A & B).
    exists (BOLTZMANN_CONSTANT * T * v). unfold fjc_modified_canonical.helmholtz_free_energy.
    change (d / (sofZ N * l))%S with (d / (IZR N * l)). change (sdiv (- d) (smul (sofZ N) l)) with (- d / (IZR N * l)).
    replace (- d / (IZR N * l)) with (- (d / (IZR N * l))) by (unfold Rdiv; ring). unfold N in *. rewrite A, B. cbn [bind].
    split; reflexivity. }
  split; [exact F|split; [|split; [exact E|]]].
  - intros d _. destruct (F d I) as (v & A & B). unfold fjc_modified_canonical.end_to_end_length. rewrite A, B. cbn [bind].
    eexists. split; [reflexivity|]. f_equal. to_R. unfold Rdiv. ring.
  - intros d _. destruct (E d I) as (v & A & B). unfold fjc_modified_canonical.gibbs_free_energy. rewrite A, B. cbn [bind].
    eexists. split; [reflexivity|]. f_equal. to_R. rewrite square_opp. reflexivity.
Qed.
End Dimensional.

(** ** The two asymptotic limits *)
Lemma weak_potential : forall N l m k T,
  odd_on anywhere (fun d => fjc_modified_canonical_asymptotic_weak_potential.force d k) /\
  odd_on anywhere (fun d => fjc_modified_canonical_asymptotic_weak_potential.end_to_end_length N l d k T) /\
  even_on anywhere (fun d => fjc_modified_canonical_asymptotic_weak_potential.gibbs_free_energy N l m d k T).
Proof.
  intros N l m k T.
  assert (F : forall d, k * - d * l / BOLTZMANN_CONSTANT / T = - (k * d * l / BOLTZMANN_CONSTANT / T)) by (intro; unfold Rdiv; ring).
  split; [|split]; intros d _.
  - change (k * - d = - (k * d)). ring.
  - unfold fjc_modified_canonical_asymptotic_weak_potential.end_to_end_length. cbv zeta. to_R. rewrite F.
    set (x := k * d * l / BOLTZMANN_CONSTANT / T). rewrite tanh_opp, sinh_opp.
    replace (powerRZ (- x) (-2)) with (powerRZ x (-2)) by (simpl; f_equal; ring).
    replace (powerRZ (- sinh x) (-2)) with (powerRZ (sinh x) (-2)) by (simpl; f_equal; ring).
    unfold Rdiv. rewrite !inv_opp. ring.
  - unfold fjc_modified_canonical_asymptotic_weak_potential.gibbs_free_energy. cbv zeta. to_R. rewrite F.
    set (x := k * d * l / BOLTZMANN_CONSTANT / T). rewrite tanh_opp, sinh_opp.
    replace (- sinh x / - x) with (sinh x / x) by (unfold Rdiv; rewrite inv_opp; ring).
    replace (powerRZ (sdec 1 0 / - tanh x - sdec 1 0 / - x) 2) with (powerRZ (sdec 1 0 / tanh x - sdec 1 0 / x) 2); [reflexivity|].
    unfold Rdiv. rewrite !inv_opp. simpl. ring.
Qed.

Lemma sums_all : forall prof n g orders, (2 <= n <= 34)%nat -> -1 < g < 1 -> List.Forall (fun o => (0 <= o <= Z.of_nat (n - 2))%Z) orders ->
  fjc_thermodynamics.treloar_sums prof (Z.of_nat n) g orders = Some (map (fun o => S_sum n (n - 2 - Z.to_nat o) g) orders).
Proof.
  intros prof n g orders Hn Hg H. unfold fjc_thermodynamics.treloar_sums. rewrite two_in by lia. cbn [bind]. rewrite m_eq.
  change (@sofZ R R_scalar) with IZR. induction H as [|o q Ho H IH]; cbn [mapM map]; [reflexivity|].
  replace (Z.of_nat (n - 2) - o)%Z with (Z.of_nat (n - 2 - Z.to_nat o)) by lia.
  rewrite sums_ok' by assumption. cbn [bind]. rewrite IH. reflexivity.
Qed.

Lemma inv_square_opp : forall x, powerRZ (- x) (-2) = powerRZ x (-2).
Proof. intro x. simpl. f_equal. ring. Qed.
Lemma inv_cube_opp : forall x, powerRZ (- x) (-3) = - powerRZ x (-3).
Proof. intro x. simpl. rewrite <- inv_opp. f_equal. ring. Qed.
Lemma inv_one_opp : forall x, powerRZ (- x) (-1) = - powerRZ x (-1).
Proof. intro x. simpl. rewrite <- inv_opp. f_equal. ring. Qed.

Lemma strong_force : forall prof n k, (6 <= n <= 34)%nat ->
  odd_option inner (fun d => fjc_modified_canonical_asymptotic_strong_potential.nondimensional_force prof (Z.of_nat n) d k).
Proof.
  intros prof n k Hn d [Hd H0]. unfold fjc_modified_canonical_asymptotic_strong_potential.nondimensional_force.
  assert (Q : List.Forall (fun o => (0 <= o <= Z.of_nat (n - 2))%Z) [0; 1; 2; 3]%Z) by (repeat constructor; lia).
  rewrite (sums_all prof n d) by (assumption || lia). rewrite (sums_all prof n (- d)) by (assumption || lia || lra).
  cbn [map bind nth_error]. eexists. split; [reflexivity|]. f_equal.
  rewrite (S_sum_mirror n (n - 2 - Z.to_nat 0)), (S_sum_mirror n (n - 2 - Z.to_nat 1)), (S_sum_mirror n (n - 2 - Z.to_nat 2)), (S_sum_mirror n (n - 2 - Z.to_nat 3)) by lia.
  replace (n - 1 - (n - 2 - Z.to_nat 0))%nat with 1%nat by lia. replace (n - 1 - (n - 2 - Z.to_nat 1))%nat with 2%nat by lia.
  replace (n - 1 - (n - 2 - Z.to_nat 2))%nat with 3%nat by lia. replace (n - 1 - (n - 2 - Z.to_nat 3))%nat with 4%nat by lia.
  generalize (S_sum n (n - 2 - Z.to_nat 0) d) (S_sum n (n - 2 - Z.to_nat 1) d) (S_sum n (n - 2 - Z.to_nat 2) d) (S_sum n (n - 2 - Z.to_nat 3) d). intros s0 s1 s2 s3.
  replace ((-1) ^ 1 * s0) with (- s0) by ring. replace ((-1) ^ 2 * s1) with s1 by ring.
  replace ((-1) ^ 3 * s2) with (- s2) by ring. replace ((-1) ^ 4 * s3) with s3 by ring.
  to_R. rewrite inv_cube_opp, inv_square_opp, inv_one_opp.
  replace (s1 / - s0) with (- (s1 / s0)) by (unfold Rdiv; rewrite inv_opp; ring). rewrite !square_opp.
  unfold Rdiv. rewrite !inv_opp. ring.
Qed.

Lemma strong_helmholtz : forall prof n l m k T, (5 <= n <= 26)%nat ->
  even_option inner (fun d => fjc_modified_canonical_asymptotic_strong_potential.nondimensional_helmholtz_free_energy prof (Z.of_nat n) l m d k T).
Proof.
  intros prof n l m k T Hn d [Hd H0]. unfold fjc_modified_canonical_asymptotic_strong_potential.nondimensional_helmholtz_free_energy.
  assert (Q : List.Forall (fun o => (0 <= o <= Z.of_nat (n - 2))%Z) [0; 1; 2]%Z) by (repeat constructor; lia).
  rewrite (sums_all prof n d) by (assumption || lia). rewrite (sums_all prof n (- d)) by (assumption || lia || lra).
  destruct (distribution_even prof n ltac:(lia) d (conj Hd H0)) as (v & A & B).
  change (fjc_thermodynamics.treloar_sum_0_with_prefactor prof (Z.of_nat n) d = Some v) in A.
  change (fjc_thermodynamics.treloar_sum_0_with_prefactor prof (Z.of_nat n) (- d) = Some v) in B.
  rewrite A, B. cbn [map bind nth_error]. eexists. split; [reflexivity|]. f_equal.
  rewrite (S_sum_mirror n (n - 2 - Z.to_nat 0)), (S_sum_mirror n (n - 2 - Z.to_nat 1)), (S_sum_mirror n (n - 2 - Z.to_nat 2)) by lia.
  replace (n - 1 - (n - 2 - Z.to_nat 0))%nat with 1%nat by lia. replace (n - 1 - (n - 2 - Z.to_nat 1))%nat with 2%nat by lia.
  replace (n - 1 - (n - 2 - Z.to_nat 2))%nat with 3%nat by lia.
  generalize (S_sum n (n - 2 - Z.to_nat 0) d) (S_sum n (n - 2 - Z.to_nat 1) d) (S_sum n (n - 2 - Z.to_nat 2) d). intros s0 s1 s2.
  replace ((-1) ^ 1 * s0) with (- s0) by ring. replace ((-1) ^ 2 * s1) with s1 by ring.
  replace ((-1) ^ 3 * s2) with (- s2) by ring.
  to_R. rewrite inv_square_opp, inv_one_opp.
  replace (s1 / - s0) with (- (s1 / s0)) by (unfold Rdiv; rewrite inv_opp; ring). rewrite square_opp.
  match goal with |- context [powerRZ (?a * s1 / - s0 + - ?b) 2] => replace (a * s1 / - s0 + - b) with (- (a * s1 / s0 + b)) by (unfold Rdiv; rewrite inv_opp; ring) end.
  rewrite square_opp. match goal with |- context [?a * - s2 / - s0] => replace (a * - s2 / - s0) with (a * s2 / s0) by (unfold Rdiv; rewrite inv_opp; ring) end.
  reflexivity.
Qed.

Lemma reverses_mono : forall (D D' : R -> Prop) L c, (forall x, D' x -> D x) -> isometric_reverses_on D L c -> isometric_reverses_on D' L c.
Proof.
  intros D D' L c H. unfold isometric_reverses_on, odd_on, even_on. cbv zeta. intros (A1 & A2 & A3 & A4 & A5 & A6 & A7 & A8 & A9 & A10).
  repeat split; auto.
Qed.
