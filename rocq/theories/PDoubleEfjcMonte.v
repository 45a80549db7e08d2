(** The lengths that the EFJC sampler draws in double precision. *)
From Coq Require Import Reals ZArith List Lra Lia Floats Psatz.
From Flocq Require Import Core Relative Plus_error BinarySingleNaN PrimFloat.
From Verif Require Import Scalar F64 MMonteCarlo SpecMonteCarlo PMonteCarlo SpecDouble SpecSampler PDouble PDoubleFjc PDoubleQuad PDoubleEfjc PDoubleContour PDoubleMonte.
From Coq Require Import Floats.
Import ListNotations.
Open Scope R_scope.

Local Notation u := unit_roundoff.
Local Notation least := (bpow radix2 (-1075)).
Local Notation Succ := Datatypes.S.

Section Walk.
Variable L : libm.
Local Instance S : Scalar float := F64 L.
Variable G : Type.
Variable link : G -> vec float * G.
Variable q : R.
Hypothesis Q : 1 <= q <= 2 ^ 11.
Hypothesis HL : forall g, all_finite (fst (link g)) /\ vlength (values (fst (link g))) <= q.

Fixpoint steps (n : nat) (p : vec float) (g : G) : list (vec float) * G :=
  match n with
  | O => ([], g)
  | Datatypes.S rest =>
      let '(r, g) := link g in
      let position := monte_carlo.add3 p r in
      let '(configuration, g) := steps rest position g in
      (position :: configuration, g)
  end.

Definition far (k : nat) : R := q * (INR k * (1 + 2 * INR k * u)).

Lemma far_small : forall k, INR k <= 2 ^ 20 -> 0 <= far k <= 2 ^ 32.
Proof.
  intros k K. pose proof (pos_INR k) as P. pose proof u_small as Us. unfold far.
  assert (A : 0 <= 2 * INR k * u <= 1) by (split; [apply Rmult_le_pos; lra|]; apply Rle_trans with (2 * 2 ^ 20 * / 2 ^ 50); [apply Rmult_le_compat; lra | lra]).
  assert (X : 0 <= INR k * (1 + 2 * INR k * u) <= 2 ^ 20 * 2) by (split; [apply Rmult_le_pos; lra | apply Rmult_le_compat; lra]).
  split; [apply Rmult_le_pos; lra|]. replace (2 ^ 32) with (2 ^ 11 * (2 ^ 20 * 2)) by ring. apply Rmult_le_compat; lra.
Qed.

Lemma far_step : forall k, INR (Succ k) <= 2 ^ 20 -> (1 + u) * (far k + q) <= far (Succ k).
Proof.
  intros k. unfold far. rewrite S_INR. intro K. pose proof (pos_INR k) as P. pose proof u_small as Us. set (n := INR k) in *.
  replace ((1 + u) * (q * (n * (1 + 2 * n * u)) + q)) with (q * ((1 + u) * (n * (1 + 2 * n * u) + 1))) by ring. apply Rmult_le_compat_l; [lra|].
  assert (NU : n * u <= 1) by (apply Rle_trans with (2 ^ 20 * / 2 ^ 50); [apply Rmult_le_compat; lra | lra]).
  assert (X : u * (n * (n * u)) <= u * (n * 1)) by (apply Rmult_le_compat_l; [lra|]; apply Rmult_le_compat_l; lra).
  assert (0 <= u * n) by (apply Rmult_le_pos; lra).
  replace ((1 + u) * (n * (1 + 2 * n * u) + 1)) with (n + 1 + u * (2 * n * n + n + 1) + 2 * (u * (n * (n * u)))) by ring.
  replace ((n + 1) * (1 + 2 * (n + 1) * u)) with (n + 1 + u * (2 * n * n + n + 1) + 3 * (u * n) + u) by ring. lra.
Qed.

Lemma steps_last : forall n k p g, INR (Succ n + k) <= 2 ^ 20 -> all_finite p -> vlength (values p) <= far k ->
  exists x, nth_error (fst (steps (Succ n) p g)) n = Some x /\ all_finite x /\ vlength (values x) <= far (Succ n + k).
Proof.
  induction n as [|n IH]; intros k p g K Fp Bp.
  - cbn [steps]. pose proof (HL g) as [Fr Br]. destruct (link g) as [r g1]. cbn [fst nth_error] in *.
    change (1 + k)%nat with (Succ k) in *. assert (K' : INR k <= 2 ^ 20) by (rewrite S_INR in K; lra). pose proof (far_small k K') as RS.
    destruct (step L p r (far k + q) Fp Fr) as [F1 B1]; [lra | lra |].
    eexists. split; [reflexivity|]. split; [exact F1|]. apply Rle_trans with (1 := B1). apply far_step. exact K.
  - change (steps (Succ (Succ n)) p g)
      with (let '(r, g1) := link g in let position := monte_carlo.add3 p r in
            let '(configuration, g2) := steps (Succ n) position g1 in (position :: configuration, g2)).
    pose proof (HL g) as [Fr Br]. destruct (link g) as [r g1]. cbn [fst] in *. cbv zeta.
    assert (K' : INR (Succ k) <= 2 ^ 20) by (apply Rle_trans with (2 := K); apply le_INR; lia).
    pose proof (far_small k ltac:(rewrite S_INR in K'; lra)) as RS.
    destruct (step L p r (far k + q) Fp Fr) as [F1 B1]; [lra | lra |].
    destruct (IH (Succ k) (monte_carlo.add3 p r) g1) as (x & Ex & Fx & Bx).
    + replace (Succ n + Succ k)%nat with (Succ (Succ n) + k)%nat by lia. exact K.
    + exact F1.
    + apply Rle_trans with (1 := B1). apply far_step. exact K'.
    + destruct (steps (Succ n) (monte_carlo.add3 p r) g1) as [c g2]. cbn [fst nth_error] in *. exists x. split; [exact Ex|]. split; [exact Fx|].
      replace (Succ (Succ n) + k)%nat with (Succ n + Succ k)%nat by lia. exact Bx.
Qed.

Lemma steps_length : forall n g, (0 < n)%nat -> INR n <= 2 ^ 20 -> exists x,
  nth_error (fst (steps n monte_carlo.zero3 g)) (Nat.pred n) = Some x /\
  finite (monte_carlo.norm3 x) /\ 0 <= value (monte_carlo.norm3 x) <= q * INR n * ((1 + 2 * INR n * u) * (1 + 4 * u)).
Proof.
  intros n g N0 N. destruct n as [|n]; [lia|]. pose proof u_small as Us.
  assert (Z3 : all_finite monte_carlo.zero3 /\ vlength (values monte_carlo.zero3) <= far 0).
  { unfold monte_carlo.zero3. change (@sdec float S 0 0) with (float_dec 0 0). replace (float_dec 0 0) with zero by (vm_compute; reflexivity). split; [vm_compute; repeat split|].
    unfold values. rewrite value_zero. unfold far, vlength, dot. cbn [INR]. replace (0 * 0 + 0 * 0 + 0 * 0) with 0 by ring. rewrite sqrt_0. lra. }
  destruct (steps_last n 0 monte_carlo.zero3 g) as (x & Ex & Fx & Bx); [rewrite Nat.add_0_r; exact N | apply Z3 | apply Z3 |]. rewrite Nat.add_0_r in Bx.
  exists x. split; [exact Ex|].
  assert (I : 1 <= INR (Succ n)) by (rewrite S_INR; pose proof (pos_INR n); lra).
  destruct (far_small (Succ n) N) as [R1 R2].
  destruct (norm_bound L x (far (Succ n)) Fx Bx) as [F B].
  { split; [|lra]. unfold far. assert (0 <= 2 * INR (Succ n) * u) by (apply Rmult_le_pos; lra).
    replace 1 with (1 * (1 * 1)) by ring. apply Rmult_le_compat; [lra | lra | lra |]. apply Rmult_le_compat; lra. }
  split; [exact F|]. split; [apply B|]. apply Rle_trans with (1 := proj2 B). unfold far. right. ring.
Qed.
End Walk.

Section Sampler.
Variable L : libm.
Variable G : Type.
Variable gen : G -> float * G.
Variable dist : G -> float * G.
Variable d : R.
Variable longest : R.
Hypothesis D : 0 <= d <= / 2 ^ 20.
Hypothesis H : trigonometry d L.
Hypothesis U : forall g, finite (fst (gen g)) /\ 0 <= value (fst (gen g)) <= 1.
Hypothesis LB : 1 <= longest <= 2 ^ 10.
Hypothesis HD : forall g, finite (fst (dist g)) /\ Rabs (value (fst (dist g))) <= longest.
Local Instance S' : Scalar float := F64 L.

Lemma scaled_component : forall l x, finite l -> finite x -> Rabs (value l) <= longest -> Rabs (value x) <= 2 ->
  finite (l * x)%float /\ exists e z, Rabs e <= u /\ Rabs z <= least /\ value (l * x)%float = value l * value x * (1 + e) + z.
Proof.
  intros l x Fl Fx Bl Bx. pose proof huge as HU.
  assert (B : Rabs (value l * value x) <= 2 ^ 10 * 2) by (rewrite Rabs_mult; apply Rmult_le_compat; try apply Rabs_pos; lra).
  destruct (mul_raw l x Fl Fx) as [F V]; [lra|]. split; [exact F|]. rewrite V. destruct (rnd_abs (value l * value x)) as (e & z & E & Z & ->). exists e, z. auto.
Qed.

Lemma efjc_link_bound : forall g, let r := fst (efjc_monte_carlo.random_link gen dist g) in
  all_finite r /\ vlength (values r) <= longest * (1 + (4.2 * d + 4 * u)).
Proof.
  intro g. cbv zeta. unfold efjc_monte_carlo.random_link. pose proof (HD g) as [Fl Bl]. destruct (dist g) as [lambda g1]. cbn [fst] in Fl, Bl.
  pose proof (link_near L G gen d D H U g1) as K. cbv zeta in K. unfold fjc_monte_carlo.random_link in K.
  destruct (gen g1) as [a g2]. destruct (gen g2) as [b g3]. cbv zeta in *. cbn [fst] in *.
  change (PDoubleMonte.S L) with S' in K.
  match type of K with all_finite (?X, ?Y, ?Z) /\ _ => set (x := X) in *; set (y := Y) in *; set (w := Z) in * end.
  destruct K as [(Fx & Fy & Fw) K]. unfold values in *. apply Rabs_le_inv in K. pose proof u_small as Us. pose proof least_tiny as TL.
  destruct (vlength_comp (value x) (value y) (value w)) as (Cx & Cy & Cw).
  destruct (scaled_component lambda x Fl Fx Bl) as (F1 & e1 & z1 & E1 & Z1 & V1); [lra|].
  destruct (scaled_component lambda y Fl Fy Bl) as (F2 & e2 & z2 & E2 & Z2 & V2); [lra|].
  destruct (scaled_component lambda w Fl Fw Bl) as (F3 & e3 & z3 & E3 & Z3 & V3); [lra|].
  cbn [smul S' F64]. split; [repeat split; assumption|]. rewrite V1, V2, V3.
  pose proof (triangle (value lambda * value x * (1 + e1), value lambda * value y * (1 + e2), value lambda * value w * (1 + e3)) (z1, z2, z3)) as T.
  unfold monte_carlo.add3 in T. cbn [sadd R_scalar] in T. apply Rle_trans with (1 := T).
  pose proof (dot_le3 z1 z2 z3 least Z1 Z2 Z3) as T2.
  pose proof (vlength_scale (value lambda * value x) (value lambda * value y) (value lambda * value w) e1 e2 e3 E1 E2 E3) as T3.
  assert (T4 : vlength (value lambda * value x, value lambda * value y, value lambda * value w) <= longest * (1 + (4.2 * d + 2.2 * u))).
  { pose proof (vlength_nonneg (value x, value y, value w)) as PV. pose proof (vlength_sq (value x, value y, value w)) as QV.
    apply Rle_trans with (Rabs (value lambda) * vlength (value x, value y, value w)); [|apply Rmult_le_compat; [apply Rabs_pos | lra | lra | lra]].
    apply vlength_le; [apply Rmult_le_pos; [apply Rabs_pos | exact PV]|].
    replace (Rabs (value lambda) * vlength (value x, value y, value w) * (Rabs (value lambda) * vlength (value x, value y, value w)))
      with (Rabs (value lambda) * Rabs (value lambda) * (vlength (value x, value y, value w) * vlength (value x, value y, value w))) by ring.
    rewrite QV. replace (Rabs (value lambda) * Rabs (value lambda)) with (value lambda * value lambda) by (rewrite <- Rabs_mult, Rabs_pos_eq; [reflexivity | apply Rle_0_sqr]).
    unfold dot. right. ring. }
  assert (T5 : (1 + u) * vlength (value lambda * value x, value lambda * value y, value lambda * value w) <= (1 + u) * (longest * (1 + (4.2 * d + 2.2 * u)))) by (apply Rmult_le_compat_l; lra).
  assert (T6 : 1 * (2 * least) <= longest * (2 * least)) by (apply Rmult_le_compat_r; lra).
  apply Rle_trans with (longest * ((1 + u) * (1 + (4.2 * d + 2.2 * u)) + 2 * least)); [lra|]. apply Rmult_le_compat_l; [lra|].
  assert (u * d <= u * / 2 ^ 20) by (apply Rmult_le_compat_l; lra). assert (u * u <= u * / 2 ^ 50) by (apply Rmult_le_compat_l; lra). lra.
Qed.

Lemma efjc_walk_steps : forall n p g, efjc_monte_carlo.walk gen dist n p g = steps L G (efjc_monte_carlo.random_link gen dist) n p g.
Proof.
  induction n as [|n IH]; intros p g; [reflexivity|]. cbn [efjc_monte_carlo.walk steps]. destruct (efjc_monte_carlo.random_link gen dist g) as [r g1]. cbv zeta. rewrite IH. reflexivity.
Qed.

Lemma efjc_sampled_length : forall n g, (0 < n)%nat -> INR n <= 2 ^ 20 -> exists l g',
  efjc_monte_carlo.random_nondimensional_end_to_end_length gen n dist g = Some (l, g') /\
  finite l /\ 0 <= value l <= longest * INR n * (1 + 5 * d + (3 * INR n + 10) * u).
Proof.
  intros n g N0 N. unfold efjc_monte_carlo.random_nondimensional_end_to_end_length, efjc_monte_carlo.random_configuration, monte_carlo.end_to_end_length. pose proof u_small as Us.
  destruct (steps_length L G (efjc_monte_carlo.random_link gen dist) (longest * (1 + (4.2 * d + 4 * u)))) with (n := n) (g := g) as (x & Ex & F & B).
  - split; [replace 1 with (1 * 1) at 1 by ring; apply Rmult_le_compat; lra|]. replace (2 ^ 11) with (2 ^ 10 * 2) by ring. apply Rmult_le_compat; lra.
  - exact efjc_link_bound.
  - exact N0.
  - exact N.
  - rewrite efjc_walk_steps. change (@monte_carlo.zero3 float S') with (@monte_carlo.zero3 float (S L)).
    destruct (steps L G (efjc_monte_carlo.random_link gen dist) n monte_carlo.zero3 g) as [c g']. cbn [fst] in Ex. destruct n as [|n]; [lia|]. cbn [Nat.pred] in Ex. rewrite Ex.
    exists (monte_carlo.norm3 x), g'. split; [reflexivity|]. split; [exact F|]. split; [apply B|]. apply Rle_trans with (1 := proj2 B).
    set (m := INR (Succ n)) in *. assert (M : 0 <= m) by apply pos_INR.
    replace (longest * (1 + (4.2 * d + 4 * u)) * m * ((1 + 2 * m * u) * (1 + 4 * u))) with (longest * m * ((1 + (4.2 * d + 4 * u)) * ((1 + 2 * m * u) * (1 + 4 * u)))) by ring.
    apply Rmult_le_compat_l; [apply Rmult_le_pos; lra|]. set (h := m * u). assert (Hh : 0 <= h <= / 2 ^ 20).
    { unfold h. split; [apply Rmult_le_pos; lra|]. apply Rle_trans with (2 ^ 20 * / 2 ^ 50); [apply Rmult_le_compat; lra | lra]. }
    replace (2 * m * u) with (2 * h) by (unfold h; ring). replace ((3 * m + 10) * u) with (3 * h + 10 * u) by (unfold h; ring). clearbody h. clear - Us D Hh.
    assert (Q1 : (1 + 2 * h) * (1 + 4 * u) <= 1 + 2.1 * h + 4 * u) by (assert (h * u <= h * / 2 ^ 50) by (apply Rmult_le_compat_l; lra); lra).
    apply Rle_trans with ((1 + (4.2 * d + 4 * u)) * (1 + 2.1 * h + 4 * u)); [apply Rmult_le_compat_l; lra|].
    assert (d * h <= / 2 ^ 20 * h) by (apply Rmult_le_compat_r; lra). assert (d * u <= / 2 ^ 20 * u) by (apply Rmult_le_compat_r; lra).
    assert (u * h <= / 2 ^ 50 * h) by (apply Rmult_le_compat_r; lra). assert (u * u <= / 2 ^ 50 * u) by (apply Rmult_le_compat_r; lra). lra.
Qed.
End Sampler.

(** A distribution of link lengths for the example: 1 and 5/4 in turn. *)
Definition two_lengths (g : bool) : float * bool := (if g then 1%float else 1.25%float, negb g).
Lemma efjc_sampler_case : 1 <= 2 <= 2 ^ 10 /\ (forall g, finite (fst (two_lengths g)) /\ Rabs (value (fst (two_lengths g))) <= 2) /\ (0 < 1000)%nat /\ INR 1000 <= 2 ^ 20.
Proof.
  split; [lra|]. split; [|split; [lia | rewrite INR_IZR_INZ; change (Z.of_nat 1000) with 1000%Z; lra]].
  intros [|]; cbn [two_lengths fst]; (split; [vm_compute; exact I|]).
  - change 1%float with one. rewrite value_one, Rabs_R1. lra.
  - unfold value. replace (Prim2SF 1.25%float) with (S754_finite false 5629499534213120 (-52)) by (vm_compute; reflexivity).
    change (Rabs (1 * (5629499534213120 * / 2 ^ 52)) <= 2). rewrite Rabs_pos_eq; lra.
Qed.
