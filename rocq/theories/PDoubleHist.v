(** The histogram of the FJC sampler in double precision. *)
From Coq Require Import Reals ZArith List Lra Lia Floats Psatz.
From Flocq Require Import Core Relative Plus_error BinarySingleNaN PrimFloat.
From Verif Require Import Scalar F64 MMonteCarlo SpecMonteCarlo PMonteCarlo PHistogram SpecDouble SpecSampler PDouble PDoubleFjc PDoubleQuad PDoubleEfjc PDoubleContour PDoubleMonte.
From Coq Require Import Floats.
Import ListNotations.
Open Scope R_scope.

Local Notation u := unit_roundoff.
Local Notation Succ := Datatypes.S.

Lemma ltb_value : forall x y, finite x -> finite y -> PrimFloat.ltb x y = Rlt_bool (value x) (value y).
Proof. intros x y Fx Fy. rewrite ltb_equiv, !value_B2R. apply Bltb_correct; apply finite_B; assumption. Qed.

Definition number (a b : R) (l : list R) : Z := how_many (in_interval a b) (in_interval_dec a b) l.

Lemma number_cons : forall a b x l, number a b (x :: l) = (number a b [x] + number a b l)%Z.
Proof. intros a b x l. unfold number. cbn [how_many]. lia. Qed.
Lemma number_in : forall a b x, a <= x < b -> number a b [x] = 1%Z.
Proof. intros a b x H. unfold number. cbn [how_many]. destruct (in_interval_dec a b x) as [K|K]; [reflexivity | elim K; exact H]. Qed.
Lemma number_out : forall a b x, x < a \/ b <= x -> number a b [x] = 0%Z.
Proof. intros a b x H. unfold number. cbn [how_many]. destruct (in_interval_dec a b x) as [K|K]; [unfold in_interval in K; lra | reflexivity]. Qed.

Section Histogram.
Variable L : libm.
Local Instance S : Scalar float := F64 L.

(** One sample: it is added to the bin it lies in. *)
Lemma count_one : forall (edge : nat -> float) (lower : nat -> R) (c : nat -> Z) x m k,
  (forall i, (i < k + m)%nat -> finite (edge i) /\ value (edge i) = lower (Succ i)) ->
  (forall i j, (i <= j <= k + m)%nat -> lower i <= lower j) ->
  finite x -> lower k <= value x ->
  monte_carlo.count_sample None x (map edge (seq k m)) (map c (seq k m))
  = Some (map (fun i => (c i + number (lower i) (lower (Succ i)) [value x])%Z) (seq k m)).
Proof.
  intros edge lower c x m. induction m as [|m IH]; intros k HE HM Fx Hx; [reflexivity|].
  cbn [seq map monte_carlo.count_sample]. destruct (HE k) as [Fe Ve]; [lia|]. change (@slt float S) with PrimFloat.ltb. rewrite (ltb_value x (edge k) Fx Fe), Ve.
  destruct (Rlt_bool_spec (value x) (lower (Succ k))) as [C|C].
  - rewrite number_in by (split; assumption). f_equal. f_equal. apply map_ext_in. intros i Hi. apply in_seq in Hi. rewrite number_out; [lia|]. left.
    apply Rlt_le_trans with (1 := C). apply HM. lia.
  - rewrite IH.
    + rewrite (number_out (lower k)) by (right; exact C). rewrite Z.add_0_r. reflexivity.
    + intros i Hi. apply HE. lia.
    + intros i j Hij. apply HM. lia.
    + exact Fx.
    + exact C.
Qed.

Lemma count_all : forall {G} (draw : G -> option (float * G)) N (edge : nat -> float) (lower : nat -> R) m n c g samples,
  (forall i, (i < m)%nat -> finite (edge i) /\ value (edge i) = lower (Succ i)) ->
  (forall i j, (i <= j <= m)%nat -> lower i <= lower j) ->
  sampled draw N n g = Some samples -> (forall x, In x samples -> finite x /\ lower O <= value x) ->
  monte_carlo.count_samples None draw N (map edge (seq 0 m)) n (map c (seq 0 m)) g
  = Some (map (fun i => (c i + number (lower i) (lower (Succ i)) (map value samples))%Z) (seq 0 m)).
Proof.
  intros G draw N edge lower m n. induction n as [|n IH]; intros c g samples HE HM HS HX.
  - cbn in HS. injection HS as <-. cbn [monte_carlo.count_samples]. f_equal. apply map_ext. intro i. unfold number. cbn [map how_many]. lia.
  - cbn [sampled] in HS. cbn [monte_carlo.count_samples]. destruct (draw g) as [[l g']|]; [|discriminate]. destruct (sampled draw N n g') as [rest|] eqn:ER; [|discriminate]. injection HS as <-.
    cbn [fst snd]. change (@sdiv float S) with PrimFloat.div. destruct (HX (l / N)%float) as [Fx Bx]; [left; reflexivity|].
    pose proof (count_one edge lower c (l / N)%float m 0 HE HM Fx Bx) as C1. cbn -[monte_carlo.count_sample monte_carlo.count_samples number seq map PrimFloat.div] in C1 |- *. rewrite C1.
    eapply eq_trans; [apply (IH (fun i => (c i + number (lower i) (lower (Succ i)) [value (l / N)%float])%Z) g' rest HE HM ER); intros x Hx; apply HX; right; exact Hx|]. f_equal. apply map_ext. intro i. cbn [map]. rewrite (number_cons _ _ (value (l / N)%float) (map value rest)). lia.
Qed.

(** The edges of the bins. *)
Definition edge_value (nb i : nat) : R := rnd (INR i / INR nb).

Lemma edge_exact : forall nb i, (i < nb)%nat -> (Z.of_nat nb <= 2 ^ 53)%Z ->
  let e := ((float_of_Z (Z.of_nat i) + float_dec 1 0) / float_of_Z (Z.of_nat nb))%float in
  finite e /\ value e = edge_value nb (Succ i).
Proof.
  intros nb i Hi Hn e. destruct (float_of_Z_exact (Z.of_nat i)) as [F1 V1]; [lia|]. destruct (float_of_Z_exact (Z.of_nat nb)) as [F2 V2]; [lia|]. pose proof huge as HU.
  rewrite <- INR_IZR_INZ in V1, V2. destruct (float_of_Z_exact (Z.of_nat (Succ i))) as [F3 V3]; [lia|]. rewrite <- INR_IZR_INZ, S_INR in V3.
  pose proof (pos_INR i) as Pi. assert (P : INR (Succ i) <= INR nb) by (apply le_INR; lia). rewrite S_INR in P.
  assert (B : INR nb <= 2 ^ 53) by (rewrite INR_IZR_INZ; apply Rle_trans with (IZR (2 ^ 53)); [apply IZR_le; exact Hn | right; rewrite pow_IZR; reflexivity]).
  destruct (add_raw (float_of_Z (Z.of_nat i)) (float_dec 1 0) F1) as [F4 V4]; [rewrite float_dec_1; exact finite_one | rewrite float_dec_1, value_one, V1, Rabs_pos_eq; lra |].
  rewrite float_dec_1, value_one, V1, <- V3, rnd_value, V3 in V4. unfold e, edge_value. rewrite S_INR, <- V2. rewrite float_dec_1 in F4 |- *. rewrite <- V4. apply div_raw; [exact F4 | rewrite V2; lra |].
  rewrite V4, V2. assert (Q : 0 <= (INR i + 1) / INR nb <= 1) by (split; [apply Rmult_le_pos; [lra | left; apply Rinv_0_lt_compat; lra] | apply Rmult_le_reg_r with (INR nb); [lra|]; unfold Rdiv; rewrite Rmult_assoc, Rinv_l by lra; lra]).
  rewrite Rabs_pos_eq; lra.
Qed.

Lemma edge_mono : forall nb i j, (0 < nb)%nat -> (i <= j)%nat -> edge_value nb i <= edge_value nb j.
Proof.
  intros nb i j Hn H. apply rnd_mono. apply Rmult_le_compat_r; [left; apply Rinv_0_lt_compat; apply lt_0_INR; exact Hn | apply le_INR; exact H].
Qed.
Lemma edge_0 : forall nb, edge_value nb 0 = 0.
Proof. intro nb. unfold edge_value. cbn [INR]. unfold Rdiv. rewrite Rmult_0_l. apply rnd_0. Qed.
Lemma edge_1 : forall nb, (0 < nb)%nat -> edge_value nb nb = 1.
Proof. intros nb H. unfold edge_value. replace (INR nb / INR nb) with 1 by (field; apply not_0_INR; lia). apply rnd_1. Qed.
Lemma edge_nearest : forall nb i, (0 < nb)%nat -> (i <= nb)%nat -> nearest_value (edge_value nb i) (INR i / INR nb).
Proof.
  intros nb i Hn Hi. assert (N : 0 < INR nb) by (apply lt_0_INR; exact Hn). pose proof (pos_INR i) as P. assert (I : INR i <= INR nb) by (apply le_INR; exact Hi).
  assert (Q : 0 <= INR i / INR nb <= 1) by (split; [apply Rmult_le_pos; [lra | left; apply Rinv_0_lt_compat; lra] | apply Rmult_le_reg_r with (INR nb); [lra|]; unfold Rdiv; rewrite Rmult_assoc, Rinv_l by lra; lra]).
  split.
  - apply represent. rewrite Rabs_pos_eq by lra. pose proof huge. lra.
  - intros y Fy. assert (VE : Valid_exp (SpecFloat.fexp FloatOps.prec emax)) by (apply fexp_correct; reflexivity).
    destruct (@round_N_pt radix2 (SpecFloat.fexp FloatOps.prec emax) VE (fun z => negb (Z.even z)) (INR i / INR nb)) as [_ K]. apply K. apply format_value.
Qed.

(** Altogether: the samples below one, each counted once. *)
Lemma total_number : forall (edge : nat -> R) l nb, (forall i, (i < nb)%nat -> edge i <= edge (Succ i)) ->
  fold_right Z.add 0%Z (map (fun i => number (edge i) (edge (Succ i)) l) (seq 0 nb)) = number (edge O) (edge nb) l.
Proof.
  intros edge l nb. induction nb as [|nb IH]; intro M.
  - cbn. unfold number. induction l as [|x l IHl]; [reflexivity|]. cbn [how_many]. rewrite <- IHl. destruct (in_interval_dec (edge 0%nat) (edge 0%nat) x) as [K|K]; [unfold in_interval in K; lra | reflexivity].
  - rewrite seq_S, map_app, fold_right_app. cbn [map fold_right]. rewrite Nat.add_0_l, Z.add_0_r.
    assert (A : forall (k : list Z) c, fold_right Z.add c k = (fold_right Z.add 0 k + c)%Z) by (intros k c; induction k as [|y k IHk]; cbn [fold_right]; lia).
    rewrite A, IH by (intros i Hi; apply M; lia). apply how_many_split. split; [|apply M; lia].
    clear - M. induction nb as [|nb IHn]; [lra|]. apply Rle_trans with (edge nb); [apply IHn; intros i Hi; apply M; lia | apply M; lia].
Qed.

Variable G : Type.
Variable gen : G -> float * G.
Variable d : R.
Hypothesis D : 0 <= d <= / 2 ^ 20.
Hypothesis H : trigonometry d L.
Hypothesis U : forall g, finite (fst (gen g)) /\ 0 <= value (fst (gen g)) <= 1.

Lemma sampled_finite : forall nl n g, (0 < nl)%nat -> INR nl <= 2 ^ 30 ->
  exists samples, sampled (fjc_monte_carlo.random_nondimensional_end_to_end_length gen nl) (float_of_Z (Z.of_nat nl)) n g = Some samples /\
  length samples = n /\ forall x, In x samples -> finite x /\ 0 <= value x.
Proof.
  intros nl n g H0 HN. revert g. induction n as [|n IH]; intro g; [exists []; split; [reflexivity|]; split; [reflexivity | intros x []]|].
  destruct (sampled_length L G gen d D H U nl g H0 HN) as (l & g' & E & F & B). change (PDoubleMonte.S L) with S in E. destruct (IH g') as (rest & E1 & E2 & E3).
  cbn [sampled]. rewrite E, E1. eexists. split; [reflexivity|]. split; [cbn [length]; rewrite E2; reflexivity|].
  intros x [<- | Hx]; [|apply E3; exact Hx].
  assert (N1 : 1 <= INR nl) by (change 1 with (INR 1); apply le_INR; lia). pose proof u_small as Us. pose proof huge as HU.
  assert (Z1 : (Z.of_nat nl <= 2 ^ 30)%Z) by (apply le_IZR; rewrite <- INR_IZR_INZ; apply Rle_trans with (1 := HN); right; rewrite pow_IZR; reflexivity).
  destruct (float_of_Z_exact (Z.of_nat nl)) as [F2 V2]; [lia|]. rewrite <- INR_IZR_INZ in V2.
  assert (LB : value l <= 2 ^ 30 * 2 ^ 31).
  { apply Rle_trans with (1 := proj2 B). assert ((3 * INR nl + 8) * u <= (3 * 2 ^ 30 + 8) * / 2 ^ 50) by (apply Rmult_le_compat; lra). assert (0 <= (3 * INR nl + 8) * u) by (apply Rmult_le_pos; lra). apply Rmult_le_compat; lra. }
  assert (Q : 0 <= value l / INR nl <= 2 ^ 61).
  { split; [apply Rmult_le_pos; [lra | left; apply Rinv_0_lt_compat; lra]|]. apply Rmult_le_reg_r with (INR nl); [lra|]. unfold Rdiv. rewrite Rmult_assoc, Rinv_l by lra.
    assert (2 ^ 61 * 1 <= 2 ^ 61 * INR nl) by (apply Rmult_le_compat_l; lra). lra. }
  destruct (div_raw l (float_of_Z (Z.of_nat nl)) F) as [F3 V3]; [rewrite V2; lra | rewrite V2, Rabs_pos_eq; lra|].
  split; [exact F3|]. rewrite V3, V2, <- rnd_0. apply rnd_mono. lra.
Qed.

Lemma double_histogram : forall nb nl n g, (0 < nb)%nat -> (Z.of_nat nb <= 2 ^ 53)%Z -> (0 < nl)%nat -> INR nl <= 2 ^ 30 ->
  exists samples (edge : nat -> R) centres,
    sampled (fjc_monte_carlo.random_nondimensional_end_to_end_length gen nl) (float_of_Z (Z.of_nat nl)) n g = Some samples /\
    length samples = n /\ (forall x, In x samples -> finite x /\ 0 <= value x) /\
    edge O = 0 /\ edge nb = 1 /\ (forall i, (i <= nb)%nat -> nearest_value (edge i) (INR i / INR nb)) /\ (forall i, (i < nb)%nat -> edge i <= edge (Succ i)) /\
    fold_right Z.add 0%Z (map (fun i => how_many (in_interval (edge i) (edge (Succ i))) (in_interval_dec _ _) (map value samples)) (seq 0 nb))
    = how_many (in_interval 0 1) (in_interval_dec 0 1) (map value samples) /\
    fjc_monte_carlo.nondimensional_equilibrium_radial_distribution gen nb nl n g
    = Some (centres, map (fun i => float_of_Z (how_many (in_interval (edge i) (edge (Succ i))) (in_interval_dec _ _) (map value samples))
                                   / (float_of_Z (Z.of_nat n) / float_of_Z (Z.of_nat nb)))%float (seq 0 nb)).
Proof.
  intros nb nl n g N0 NB L0 LN. destruct (sampled_finite nl n g L0 LN) as (samples & E & EL & EF).
  exists samples, (edge_value nb). eexists. split; [exact E|]. split; [exact EL|]. split; [exact EF|]. split; [apply edge_0|]. split; [apply edge_1, N0|]. split; [intros i Hi; apply edge_nearest; assumption|].
  assert (M : forall i, (i < nb)%nat -> edge_value nb i <= edge_value nb (Succ i)) by (intros i Hi; apply edge_mono; [exact N0 | lia]). split; [exact M|].
  split; [pose proof (total_number (edge_value nb) (map value samples) nb M) as T; rewrite edge_0, (edge_1 nb N0) in T; exact T|].
  unfold fjc_monte_carlo.nondimensional_equilibrium_radial_distribution, fjc_monte_carlo.bin_edges, monte_carlo.indices. rewrite map_map.
  assert (R0 : repeat 0%Z nb = map (fun _ : nat => 0%Z) (seq 0 nb)).
  { clear. generalize 0%nat at 1. induction nb as [|m IHm]; intro k; [reflexivity|]. cbn [repeat seq map]. rewrite <- (IHm (Succ k)). reflexivity. }
  rewrite R0. change (@sofZ float S (Z.of_nat nl)) with (float_of_Z (Z.of_nat nl)).
  rewrite (count_all (fjc_monte_carlo.random_nondimensional_end_to_end_length gen nl) (float_of_Z (Z.of_nat nl)) _ (edge_value nb) nb n (fun _ => 0%Z) g samples).
  - unfold bind. cbv beta iota zeta. rewrite map_map. reflexivity.
  - intros i Hi. apply edge_exact; assumption.
  - intros i j Hij. apply edge_mono; [exact N0 | lia].
  - exact E.
  - rewrite edge_0. exact EF.
Qed.

End Histogram.
