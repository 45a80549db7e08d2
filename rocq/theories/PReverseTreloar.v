(** Mirror symmetry of the isometric freely jointed chain. *)
From Coq Require Import Reals ZArith List Bool Lra Lia Psatz.
From Coquelicot Require Import Coquelicot.
From Verif Require Import Scalar MConst MTreloar MFjc SpecThermo SpecReverse PBase PQuad PIrwinHall PWalk PTreloar PReverse.
Import ListNotations.
Open Scope R_scope.

(** ** Symmetry of the spline *)
Lemma ih_mirror : forall d e x, ih (S e) (d + S (S e)) (INR (d + S (S e)) - x) = (-1) ^ d * ih (S e) (d + S (S e)) x.
Proof.
  induction d as [|d IH]; intros e x.
  - cbn [Nat.add pow]. rewrite ih_sym. ring.
  - change (S d + S (S e))%nat with (S (d + S (S e))). cbn [ih pow]. set (n := (d + S (S e))%nat) in *. rewrite S_INR.
    replace (INR n + 1 - x) with (INR n - (x - 1)) by ring. replace (INR n - (x - 1) - 1) with (INR n - x) by ring.
    unfold n in *. rewrite !IH. ring.
Qed.

Lemma ih_mirror' : forall n e x, (1 <= e)%nat -> (e < n)%nat -> ih e n (INR n - x) = (-1) ^ (n - 1 - e) * ih e n x.
Proof.
  intros n e x He Hn. destruct e as [|e]; [lia|]. pose proof (ih_mirror (n - S (S e)) e x) as H.
  replace (n - S (S e) + S (S e))%nat with n in H by lia. rewrite H. f_equal. f_equal. lia.
Qed.

Lemma ih_0_2 : forall x, 0 < x < 2 -> x <> 1 -> ih 0 2 (2 - x) = - ih 0 2 x.
Proof.
  intros x Hx H1. cbn [ih fact]. unfold pp. cbn [pow].
  repeat match goal with |- context [Rlt_dec 0 ?y] => destruct (Rlt_dec 0 y) end; simpl; lra.
Qed.

Lemma ih_0_3 : forall x, 0 < x < 3 -> x <> 1 -> x <> 2 -> ih 0 3 (3 - x) = ih 0 3 x.
Proof.
  intros x Hx H1 H2. cbn [ih fact]. unfold pp. cbn [pow].
  repeat match goal with |- context [Rlt_dec 0 ?y] => destruct (Rlt_dec 0 y) end; simpl; lra.
Qed.

Lemma arg_opp : forall n g, arg n (- g) = INR n - arg n g.
Proof. intros n g. unfold arg. field. Qed.

Lemma arg_range : forall n g, (2 <= n)%nat -> -1 < g < 1 -> 0 < arg n g < INR n.
Proof.
  intros n g Hn Hg. unfold arg. assert (0 < INR n) by (apply lt_0_INR; lia).
  split; [apply Rmult_lt_0_compat; lra|]. nra.
Qed.

Lemma S_sum_mirror : forall n e g, (1 <= e)%nat -> (e < n)%nat -> S_sum n e (- g) = (-1) ^ (n - 1 - e) * S_sum n e g.
Proof. intros n e g He Hn. unfold S_sum. rewrite arg_opp, ih_mirror' by assumption. unfold Rdiv. ring. Qed.

(** The leading sum is odd, also for two links. *)
Lemma leading_odd : forall n g, (2 <= n)%nat -> -1 < g < 1 -> g <> 0 -> ih (n - 2) n (arg n (- g)) = - ih (n - 2) n (arg n g).
Proof.
  intros n g Hn Hg H0. rewrite arg_opp. destruct (Nat.eq_dec n 2) as [->|N].
  - replace (INR 2) with 2 by (simpl; ring). unfold arg. replace (INR 2) with 2 by (simpl; ring). apply ih_0_2; lra.
  - rewrite ih_mirror' by lia. replace (n - 1 - (n - 2))%nat with 1%nat by lia. ring.
Qed.


(** The next sum is even, away from the kinks of three links. *)
Lemma next_even : forall n g, (3 <= n)%nat -> -1 < g < 1 -> off_kink n g -> ih (n - 3) n (arg n (- g)) = ih (n - 3) n (arg n g).
Proof.
  intros n g Hn Hg K. rewrite arg_opp. destruct (Nat.eq_dec n 3) as [->|N].
  - destruct K as [K|[K1 K2]]; [congruence|]. replace (INR 3) with 3 by (simpl; ring). unfold arg. replace (INR 3) with 3 by (simpl; ring).
    apply ih_0_3; lra.
  - rewrite ih_mirror' by lia. replace (n - 1 - (n - 3))%nat with 2%nat by lia. ring.
Qed.

(** ** The code's sums on both sides *)
Lemma sums_ok' : forall prof n g e, (2 <= n <= 34)%nat -> -1 < g < 1 ->
  fjc_thermodynamics.treloar_sum prof (Z.of_nat n) (IZR (Z.of_nat n)) ((1 - g) / 2)
    (scast U128_MAX (sceil (smul (IZR (Z.of_nat n)) ((1 - g) / 2)))) (Z.of_nat e) = Some (S_sum n e g).
Proof.
  intros prof n g e Hn Hg. pose proof (arg_range n g ltac:(lia) Hg) as Ha.
  rewrite <- INR_IZR_INZ. change (smul (INR n) ((1 - g) / 2)) with (arg n g).
  destruct (terms_ok n (arg n g) ltac:(lia) ltac:(lra)) as (k & Ek & Hk & Lk). rewrite Ek.
  rewrite treloar_sum_ok by lia. f_equal. apply sum_closed; (lia || lra).
Qed.

Lemma distribution_ok' : forall prof n g, (2 <= n <= 26)%nat -> -1 < g < 1 -> g <> 0 ->
  fjc_isometric.nondimensional_equilibrium_distribution prof (Z.of_nat n) g = Some (P n g).
Proof.
  intros prof n g Hn Hg H0. unfold fjc_isometric.nondimensional_equilibrium_distribution, fjc_thermodynamics.treloar_sum_0_with_prefactor.
  rewrite two_in by lia. cbn [bind]. rewrite m_eq. rewrite pow_ok by lia. cbn [bind].
  rewrite wrap_in. 2:{ assert (26 < U128_MAX)%Z by (vm_compute; reflexivity). lia. } cbn [bind].
  replace (Z.of_nat n - 2)%Z with (Z.of_nat (n - 2)) by lia.
  rewrite product_ok by (apply zfact_small; lia). cbn [bind].
  assert (Pn : 0 < INR n) by (apply lt_0_INR; lia).
  change (@sofZ R R_scalar) with IZR. rewrite sums_ok' by (lia || lra). cbn [bind]. f_equal.
  change (sdec 125 3) with (125 / 1000). change (@spi R R_scalar) with PI.
  change (125 / 1000 / PI / g * IZR (Z.of_nat n ^ Z.of_nat n) / IZR (zfact (n - 2)) * S_sum n (n - 2) g = P n g).
  rewrite zfact_fact. unfold S_sum, P. pose proof (fact_neq (n - 2)) as F. pose proof PI_RGT_0.
  rewrite <- pow_IZR, <- INR_IZR_INZ.
  replace (INR n ^ n) with (INR n ^ 2 * INR n ^ (n - 2)) by (rewrite <- pow_add; f_equal; lia).
  assert (INR n ^ (n - 2) <> 0) by (apply pow_nonzero; lra).
  field. repeat split; lra.
Qed.

Lemma P_even : forall n g, (2 <= n)%nat -> -1 < g < 1 -> g <> 0 -> P n (- g) = P n g.
Proof.
  intros n g Hn Hg H0. unfold P. rewrite leading_odd by assumption. pose proof PI_RGT_0. field. split; lra.
Qed.

(** Any domain symmetric about zero. *)

Lemma inner_opp : forall g, inner g -> inner (- g).
Proof. intros g [A B]. unfold inner. lra. Qed.

Lemma distribution_even : forall prof n, (2 <= n <= 26)%nat ->
  even_option inner (fjc_isometric.nondimensional_equilibrium_distribution prof (Z.of_nat n)).
Proof.
  intros prof n Hn g [Hg H0]. exists (P n g). split; [apply distribution_ok'; assumption|].
  rewrite distribution_ok' by (assumption || lra). f_equal. apply P_even; (lia || lra).
Qed.

(** The force needs two sums. *)
Lemma force_sums : forall prof n g, (2 <= n <= 34)%nat -> -1 < g < 1 -> exists s1 s0,
  fjc_isometric.nondimensional_force prof (Z.of_nat n) g = Some ((1 / g + (INR n / 2 - 1) * s1 / s0) / INR n) /\
  s0 = S_sum n (n - 2) g /\ ((3 <= n)%nat -> s1 = S_sum n (n - 3) g).
Proof.
  intros prof n g Hn Hg. unfold fjc_isometric.nondimensional_force, fjc_thermodynamics.treloar_sums.
  rewrite two_in by lia. cbn [bind]. rewrite m_eq. change (@sofZ R R_scalar) with IZR.
  cbn [mapM]. rewrite Z.sub_0_r. rewrite sums_ok' by assumption. cbn [bind].
  assert (E : exists s1, fjc_thermodynamics.treloar_sum prof (Z.of_nat n) (IZR (Z.of_nat n)) ((1 - g) / 2)
     (scast U128_MAX (sceil (smul (IZR (Z.of_nat n)) ((1 - g) / 2)))) (Z.of_nat (n - 2) - 1) = Some s1 /\ ((3 <= n)%nat -> s1 = S_sum n (n - 3) g)).
  { destruct (Nat.eq_dec n 2) as [->|N].
    - pose proof (arg_range 2 g ltac:(lia) Hg) as Ha.
      rewrite <- INR_IZR_INZ. change (smul (INR 2) ((1 - g) / 2)) with (arg 2 g).
      destruct (terms_ok 2 (arg 2 g) ltac:(lia) ltac:(simpl in *; lra)) as (k & Ek & Hk & Lk). rewrite Ek.
      rewrite treloar_sum_ok by lia. eexists. split; [reflexivity|]. lia.
    - replace (Z.of_nat (n - 2) - 1)%Z with (Z.of_nat (n - 3)) by lia. exists (S_sum n (n - 3) g). split; [apply sums_ok'; assumption | reflexivity]. }
  destruct E as (s1 & -> & E). cbn [bind nth_error]. exists s1, (S_sum n (n - 2) g). split; [|split; [reflexivity|exact E]].
  f_equal. rewrite half, <- INR_IZR_INZ.
  change ((1 / g + (1 / 2 * INR n - 1) * s1 / S_sum n (n - 2) g) / INR n = (1 / g + (INR n / 2 - 1) * s1 / S_sum n (n - 2) g) / INR n).
  replace (1 / 2 * INR n) with (INR n / 2) by field. reflexivity.
Qed.

Lemma force_odd : forall prof n, (2 <= n <= 34)%nat ->
  odd_option (fun g => inner g /\ off_kink n g) (fjc_isometric.nondimensional_force prof (Z.of_nat n)).
Proof.
  intros prof n Hn g [[Hg H0] K].
  destruct (force_sums prof n g Hn Hg) as (s1 & s0 & E & E0 & E1).
  destruct (force_sums prof n (- g) Hn ltac:(lra)) as (t1 & t0 & F & F0 & F1).
  eexists. split; [exact E|]. rewrite F. f_equal.
  assert (A : t0 = - s0). { rewrite E0, F0. unfold S_sum. rewrite leading_odd by (lia || lra). unfold Rdiv. ring. }
  assert (B : (INR n / 2 - 1) * t1 = (INR n / 2 - 1) * s1).
  { destruct (Nat.eq_dec n 2) as [->|N]; [replace (INR 2 / 2 - 1) with 0 by (simpl; field); ring|].
    rewrite E1, F1 by lia. unfold S_sum. rewrite next_even by (lia || assumption). reflexivity. }
  rewrite B, A. unfold Rdiv. rewrite !inv_opp. ring.
Qed.

(** ** The other functions *)
Lemma even_bind : forall D f (k : R -> R), even_option D f -> even_option D (fun x => let! r := f x in Some (k r)).
Proof. intros D f k E x Hx. destruct (E x Hx) as (v & A & B). exists (k v). rewrite A, B. split; reflexivity. Qed.

Lemma even_rescale : forall (D : R -> Prop) f (c : R), even_option D f -> even_option (fun x => D (x / c)) (fun x => f (x / c)).
Proof.
  intros D f c E x Hx. destruct (E (x / c) Hx) as (v & A & B). exists v. split; [exact A|].
  replace (- x / c) with (- (x / c)) by (unfold Rdiv; ring). exact B.
Qed.

Lemma even_ext : forall (D : R -> Prop) f g, (forall x, f x = g x) -> even_option D f -> even_option D g.
Proof. intros D f g X E x Hx. destruct (E x Hx) as (v & A & B). exists v. rewrite <- !X. split; assumption. Qed.

Section Other.
Variables (prof : profile) (n : nat) (l m T : R).
Hypotheses (Hn : (2 <= n <= 26)%nat) (Hl : 0 < l).
Let N := Z.of_nat n.
Let outer (xi : R) : Prop := inner (xi / (IZR N * l)).

Lemma nl_nz : IZR N * l <> 0.
Proof. unfold N. rewrite <- INR_IZR_INZ. assert (0 < INR n) by (apply lt_0_INR; lia). nra. Qed.

Lemma radial_even : even_option inner (fjc_isometric.nondimensional_equilibrium_radial_distribution prof N).
Proof.
  intros g Hg. destruct (distribution_even prof n Hn g Hg) as (v & A & B).
  unfold fjc_isometric.nondimensional_equilibrium_radial_distribution. unfold N. rewrite A, B. cbn [bind].
  eexists. split; [reflexivity|]. f_equal. to_R. rewrite square_opp. reflexivity.
Qed.

Lemma dimensional_even : even_option outer (fjc_isometric.equilibrium_distribution prof N l).
Proof.
  apply even_bind with (k := fun r => r / powerRZ (IZR N * l) 3) (f := fun xi => fjc_isometric.nondimensional_equilibrium_distribution prof N (xi / (IZR N * l))).
  apply even_rescale. apply distribution_even, Hn.
Qed.

Lemma dimensional_radial_even : even_option outer (fjc_isometric.equilibrium_radial_distribution prof N l).
Proof.
  apply even_bind with (k := fun r => r / (IZR N * l)) (f := fun xi => fjc_isometric.nondimensional_equilibrium_radial_distribution prof N (xi / (IZR N * l))).
  apply even_rescale. apply radial_even.
Qed.

Lemma helmholtz_even : even_option inner (fun g => fjc_isometric.nondimensional_helmholtz_free_energy prof N l m g T).
Proof.
  intros g Hg. unfold fjc_isometric.nondimensional_helmholtz_free_energy. change (@sofZ R R_scalar) with IZR.
  assert (A : outer (g * IZR N * l)). { unfold outer. replace (g * IZR N * l / (IZR N * l)) with g; [exact Hg|]. pose proof nl_nz. field. split; intro Z; apply H; rewrite Z; ring. }
  destruct (dimensional_even _ A) as (v & B & C).
  change (smul (smul g (IZR N)) l) with (g * IZR N * l). rewrite B.
  change (smul (smul (- g) (IZR N)) l) with (- g * IZR N * l). replace (- g * IZR N * l) with (- (g * IZR N * l)) by ring. rewrite C.
  cbn [bind]. eexists. split; reflexivity.
Qed.

Lemma relative_even : even_option inner (fjc_isometric.nondimensional_relative_helmholtz_free_energy prof N).
Proof.
  intros g Hg. unfold fjc_isometric.nondimensional_relative_helmholtz_free_energy.
  destruct (distribution_even prof n Hn g Hg) as (v & A & B).
  assert (Z : inner ZERO). { change (inner (1 / IZR (Z.pow_pos 10 6))). split; [simpl Z.pow_pos; split; lra|]. simpl Z.pow_pos. lra. }
  destruct (distribution_even prof n Hn ZERO Z) as (u & C & _).
  unfold N. rewrite A, B, C. cbn [bind]. eexists. split; reflexivity.
Qed.

Lemma energies_even :
  even_option outer (fun xi => fjc_isometric.helmholtz_free_energy prof N l m xi T) /\
  even_option outer (fun xi => fjc_isometric.helmholtz_free_energy_per_link prof N l m xi T) /\
  even_option outer (fun xi => fjc_isometric.relative_helmholtz_free_energy prof N l xi T) /\
  even_option outer (fun xi => fjc_isometric.relative_helmholtz_free_energy_per_link prof N l xi T) /\
  even_option inner (fun g => fjc_isometric.nondimensional_helmholtz_free_energy_per_link prof N l m g T) /\
  even_option inner (fjc_isometric.nondimensional_relative_helmholtz_free_energy_per_link prof N).
Proof.
  assert (A := helmholtz_even). assert (B := relative_even).
  assert (A1 : even_option inner (fun g => fjc_isometric.nondimensional_helmholtz_free_energy_per_link prof N l m g T)).
  { apply even_bind with (k := fun r => r / IZR N) (f := fun g => fjc_isometric.nondimensional_helmholtz_free_energy prof N l m g T). exact A. }
  assert (B1 : even_option inner (fjc_isometric.nondimensional_relative_helmholtz_free_energy_per_link prof N)).
  { apply even_bind with (k := fun r => r / IZR N) (f := fjc_isometric.nondimensional_relative_helmholtz_free_energy prof N). exact B. }
  split; [|split; [|split; [|split; [|split; [exact A1|exact B1]]]]].
  - apply even_bind with (k := fun r => r * BOLTZMANN_CONSTANT * T) (f := fun xi => fjc_isometric.nondimensional_helmholtz_free_energy prof N l m (xi / (IZR N * l)) T).
    apply (even_rescale inner (fun g => fjc_isometric.nondimensional_helmholtz_free_energy prof N l m g T)). exact A.
  - apply even_bind with (k := fun r => r * BOLTZMANN_CONSTANT * T) (f := fun xi => fjc_isometric.nondimensional_helmholtz_free_energy_per_link prof N l m (xi / (IZR N * l)) T).
    apply (even_rescale inner (fun g => fjc_isometric.nondimensional_helmholtz_free_energy_per_link prof N l m g T)). exact A1.
  - apply even_bind with (k := fun r => r * BOLTZMANN_CONSTANT * T) (f := fun xi => fjc_isometric.nondimensional_relative_helmholtz_free_energy prof N (xi / (IZR N * l))).
    apply even_rescale. exact B.
  - apply even_bind with (k := fun r => r * BOLTZMANN_CONSTANT * T) (f := fun xi => fjc_isometric.nondimensional_relative_helmholtz_free_energy_per_link prof N (xi / (IZR N * l))).
    apply even_rescale. exact B1.
Qed.
End Other.

Lemma dimensional_force_odd : forall prof n l T, (2 <= n <= 34)%nat -> 0 < l ->
  odd_option (fun xi => inner (xi / (IZR (Z.of_nat n) * l)) /\ off_kink n (xi / (IZR (Z.of_nat n) * l)))
    (fun xi => fjc_isometric.force prof (Z.of_nat n) l xi T).
Proof.
  intros prof n l T Hn Hl xi H. destruct (force_odd prof n Hn _ H) as (v & A & B).
  unfold fjc_isometric.force. change (@sofZ R R_scalar) with IZR.
  change (sdiv xi (smul (IZR (Z.of_nat n)) l)) with (xi / (IZR (Z.of_nat n) * l)).
  change (sdiv (- xi) (smul (IZR (Z.of_nat n)) l)) with (- xi / (IZR (Z.of_nat n) * l)).
  replace (- xi / (IZR (Z.of_nat n) * l)) with (- (xi / (IZR (Z.of_nat n) * l))) by (unfold Rdiv; ring).
  rewrite A, B. cbn [bind]. eexists. split; [reflexivity|]. f_equal. to_R. unfold Rdiv. ring.
Qed.

(** ** The jump of three links *)
Lemma three_links_jump : forall prof,
  fjc_isometric.nondimensional_force prof 3 (1 / 3) = Some (3 / 2) /\
  fjc_isometric.nondimensional_force prof 3 (- (1 / 3)) = Some 0.
Proof.
  intro prof.
  destruct (force_sums prof 3 (1 / 3) ltac:(lia) ltac:(lra)) as (s1 & s0 & E & E0 & E1).
  destruct (force_sums prof 3 (- (1 / 3)) ltac:(lia) ltac:(lra)) as (t1 & t0 & F & F0 & F1).
  specialize (E1 ltac:(lia)). specialize (F1 ltac:(lia)).
  assert (V : s0 = 1 / 3 /\ s1 = 1 /\ t0 = - (1 / 3) /\ t1 = - 2).
  { rewrite E0, E1, F0, F1. unfold S_sum, arg. replace (INR 3) with 3 by (simpl; ring).
    replace (3 * ((1 - 1 / 3) / 2)) with 1 by field. replace (3 * ((1 - - (1 / 3)) / 2)) with 2 by field.
    cbn [Nat.sub ih fact]. unfold pp.
    repeat match goal with |- context [Rlt_dec 0 ?y] => destruct (Rlt_dec 0 y); try lra end; simpl; repeat split; field. }
  destruct V as (-> & -> & -> & ->). change (Z.of_nat 3) with 3%Z in E, F. rewrite E, F. replace (INR 3) with 3 by (simpl; ring).
  split; f_equal; field.
Qed.
