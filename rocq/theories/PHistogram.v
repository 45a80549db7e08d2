(** Monte Carlo histograms, and the panics of the freely rotating sampler. *)
From Coq Require Import Reals ZArith List Lra Lia.
From Coquelicot Require Import Coquelicot.
From Verif Require Import Scalar MMonteCarlo SpecMonteCarlo PQuad PMonteCarlo.
Import ListNotations.
Open Scope R_scope.

(** ** Extensible freely rotating chain *)
Section Efrc.
Context {G : Type} (gen dist : G -> R * G) (theta : R).

Lemma efrc_link : forall r g, dot r r <> 0 -> independent r (auxiliary gen (snd (dist g))) ->
  let w := fst (efrc_monte_carlo.random_link gen theta dist r g) in
  vlength w = Rabs (fst (dist g)) /\ dot r w = vlength r * fst (dist g) * cos theta.
Proof.
  intros r g Hr Hi. cbv zeta. unfold efrc_monte_carlo.random_link, auxiliary in *.
  destruct (dist g) as [lam g0]. cbn [fst snd] in *.
  destruct (gen g0) as [a g1]. cbn [fst snd] in *. destruct (gen g1) as [t0 g2]. cbn [fst snd] in *.
  destruct (gen g2) as [t1 g3]. cbn [fst snd] in *. destruct (gen g3) as [t2 g4]. cbn [fst snd] in *.
  assert (P : 0 < dot r r) by (pose proof (dot_nonneg r); lra).
  rewrite (norm3_R r). assert (N : 0 < vlength r) by (apply sqrt_lt_R0; exact P).
  set (rn := monte_carlo.div3 r (vlength r)). set (t := (t0, t1, t2)) in *.
  assert (Hn : dot rn rn = 1).
  { unfold rn. rewrite dot_div3, dot_comm, dot_div3, <- vlength_sq. field. lra. }
  assert (Hi' : independent rn t).
  { unfold independent in *. rewrite Hn. unfold rn. rewrite dot_div3.
    replace (1 * dot t t - (dot r t / vlength r) ^ 2) with ((dot r r * dot t t - dot r t ^ 2) / dot r r).
    - intro E. apply Hi. apply Rmult_eq_reg_r with (/ dot r r); [|apply Rinv_neq_0_compat; exact Hr]. rewrite Rmult_0_l. exact E.
    - rewrite <- (vlength_sq r). field. lra. }
  destruct (frame rn t Hn Hi') as (A & B & C & D & E). set (u := monte_carlo.div3 (frc_monte_carlo.cross rn t) (monte_carlo.norm3 (frc_monte_carlo.cross rn t))) in *. set (v := frc_monte_carlo.cross rn u) in *.
  destruct (rotate_unit (2 * PI * a) theta rn u v Hn A B C D E) as [W1 W2].
  set (w := frc_monte_carlo.rotate (cos (2 * PI * a)) (sin (2 * PI * a)) (cos theta) (sin theta) rn u v) in *.
  change (efrc_monte_carlo.rotate lam (scos (monte_carlo.TWO_PI * a)%S) (ssin (monte_carlo.TWO_PI * a)%S) (scos theta) (ssin theta) rn u v)
    with (efrc_monte_carlo.rotate lam (cos (2 * PI * a)) (sin (2 * PI * a)) (cos theta) (sin theta) rn u v).
  assert (S : efrc_monte_carlo.rotate lam (cos (2 * PI * a)) (sin (2 * PI * a)) (cos theta) (sin theta) rn u v = scaled lam w).
  { unfold w. destruct rn as [[? ?] ?], u as [[? ?] ?], v as [[? ?] ?]. reflexivity. }
  rewrite S. split.
  - rewrite vlength_scaled. unfold vlength. rewrite W1, sqrt_1. ring.
  - rewrite dot_comm, dot_scaled, dot_comm. rewrite <- W2. unfold rn. rewrite dot_div3. field. lra.
Qed.

Lemma efrc_link_state : forall r g, snd (efrc_monte_carlo.random_link gen theta dist r g) = snd (one_four dist gen g).
Proof.
  intros r g. unfold efrc_monte_carlo.random_link, one_four. destruct (dist g) as [lam g0]. cbn [fst snd].
  destruct (gen g0) as [a g1]. cbn [fst snd]. destruct (gen g1) as [t0 g2]. cbn [fst snd].
  destruct (gen g2) as [t1 g3]. cbn [fst snd]. destruct (gen g3) as [t2 g4]. reflexivity.
Qed.

Lemma efrc_walk_links : forall n r p g i a b lam, dot r r <> 0 -> never_parallel_extensible gen dist theta n r g ->
  let l := r :: links p (fst (efrc_monte_carlo.walk gen theta dist n r p g)) in
  nth_error l i = Some a -> nth_error l (S i) = Some b ->
  nth_error (map (fun d => fst (fst d)) (draws (one_four dist gen) n g)) i = Some lam ->
  vlength b = Rabs lam /\ dot a b = vlength a * lam * cos theta.
Proof.
  cbv zeta.
  induction n as [|n IH]; intros r p g i a b lam Hr Hs Ha Hb Hl.
  - cbn in Hb. destruct i; discriminate.
  - cbn [efrc_monte_carlo.walk never_parallel_extensible draws map] in *. destruct Hs as (H0 & Hi & Hs).
    destruct (efrc_link r g Hr Hi) as [Hw Hd].
    pose proof (efrc_link_state r g) as St.
    destruct (efrc_monte_carlo.random_link gen theta dist r g) as [w g1]. cbn [fst snd] in *. subst g1.
    assert (Hw0 : dot w w <> 0).
    { rewrite <- vlength_sq, Hw. pose proof (Rabs_pos_lt _ H0). intro E. apply Rmult_integral in E. lra. }
    specialize (IH w (monte_carlo.add3 p w) (snd (one_four dist gen g))).
    destruct (efrc_monte_carlo.walk gen theta dist n w (monte_carlo.add3 p w) (snd (one_four dist gen g))) as [c g2].
    cbn [fst links] in *. rewrite minus_add in *. destruct i as [|i].
    + cbn in Ha, Hb, Hl. injection Ha as <-. injection Hb as <-. injection Hl as <-. split; assumption.
    + exact (IH i a b lam Hw0 Hs Ha Hb Hl).
Qed.

Lemma efrc_configuration : forall n g i a b lam, never_parallel_extensible gen dist theta n x_axis g ->
  let l := x_axis :: links origin (fst (efrc_monte_carlo.random_configuration gen n theta dist g)) in
  nth_error l i = Some a -> nth_error l (S i) = Some b ->
  nth_error (map (fun d => fst (fst d)) (draws (one_four dist gen) n g)) i = Some lam ->
  vlength b = Rabs lam /\ dot a b = vlength a * lam * cos theta.
Proof.
  intros n g i a b lam Hs. apply (efrc_walk_links n x_axis origin g i a b lam); [rewrite x_axis_unit; lra | exact Hs].
Qed.
End Efrc.

(** ** Bins *)
Lemma how_many_app : forall P dec l k, how_many P dec (l ++ k) = (how_many P dec l + how_many P dec k)%Z.
Proof. intros P dec l k. induction l as [|x l IH]; cbn [app how_many]; lia. Qed.
Lemma how_many_nonneg : forall P dec l, (0 <= how_many P dec l)%Z.
Proof. intros P dec l. induction l as [|x l IH]; cbn [how_many]; [lia | destruct (dec x); lia]. Qed.

Section Bins.
Context (w : R) (Hw : 0 < w).

Definition edge (i : nat) : R := w * INR (S i).
Definition inside (i : nat) (x : R) : Z := if in_interval_dec (w * INR i) (w * INR (S i)) x then 1 else 0.

Lemma inside_0 : forall i x, x < w * INR i -> inside i x = 0%Z.
Proof. intros i x H. unfold inside. destruct (in_interval_dec _ _ x) as [I|I]; [|reflexivity]. unfold in_interval in I. lra. Qed.

Definition exceeds (limit : option R) (x : R) : Prop := match limit with Some m => m < x | None => False end.

Lemma count_sample_bins : forall limit x n k c, w * INR k <= x ->
  (n = O \/ ~ exceeds limit x) ->
  monte_carlo.count_sample limit x (map edge (seq k n)) (map c (seq k n))
  = Some (map (fun i => (c i + inside i x)%Z) (seq k n)).
Proof using Hw.
  intros limit x n. induction n as [|n IH]; intros k c Hk Hl; [reflexivity|].
  destruct Hl as [Hl|Hl]; [discriminate|].
  cbn [seq map monte_carlo.count_sample].
  replace (match limit with Some gm => slt gm x | None => false end) with false
    by (destruct limit as [m|]; [|reflexivity]; cbn in Hl; symmetry; change (slt m x) with (Rltb m x); unfold Rltb; destruct (Rlt_dec m x); [contradiction | reflexivity]).
  change (slt x (edge k)) with (Rltb x (edge k)). unfold Rltb. destruct (Rlt_dec x (edge k)) as [L|L].
  - f_equal. f_equal.
    + unfold inside. destruct (in_interval_dec _ _ x) as [I|I]; [reflexivity|]. exfalso. apply I. split; assumption.
    + apply map_ext_in. intros i Hi. apply in_seq in Hi. rewrite inside_0; [lia|].
      eapply Rlt_le_trans; [exact L|]. unfold edge. apply Rmult_le_compat_l; [lra|]. apply le_INR. lia.
  - unfold edge in L. rewrite (IH (S k) c) by (try (right; assumption); lra). cbn [bind]. f_equal. f_equal.
    unfold inside. destruct (in_interval_dec _ _ x) as [I|I]; [|lia]. unfold in_interval in I. lra.
Qed.

Lemma count_sample_panics : forall m x n k c, m < x -> (0 < n)%nat ->
  monte_carlo.count_sample (Some m) x (map edge (seq k n)) (map c (seq k n)) = None.
Proof.
  intros m x n k c H Hn. destruct n as [|n]; [lia|]. cbn [seq map monte_carlo.count_sample].
  change (slt m x) with (Rltb m x). unfold Rltb. destruct (Rlt_dec m x); [reflexivity | contradiction].
Qed.

Context {G : Type} (draw : G -> option (R * G)) (nl : R).

Lemma count_samples_bins : forall limit nb n c g l, normalised_samples draw nl n g = Some l ->
  (forall x, In x l -> 0 <= x) -> (forall x, In x l -> nb = O \/ ~ exceeds limit x) ->
  monte_carlo.count_samples limit draw nl (map edge (seq 0 nb)) n (map c (seq 0 nb)) g
  = Some (map (fun i => (c i + how_many (in_interval (w * INR i) (w * INR (S i))) (in_interval_dec _ _) l)%Z) (seq 0 nb)).
Proof using Hw.
  intros limit nb n. induction n as [|n IH]; intros c g l H H0 Hx.
  - cbn in H. injection H as <-. cbn [monte_carlo.count_samples]. f_equal. apply map_ext. intro i. cbn [how_many]. lia.
  - cbn [normalised_samples] in H. cbn [monte_carlo.count_samples]. destruct (draw g) as [[x g']|]; [|discriminate].
    destruct (normalised_samples draw nl n g') as [l'|] eqn:E; [|discriminate]. injection H as <-. cbn [bind fst snd].
    change (x / nl)%S with (x / nl).
    rewrite count_sample_bins by (first [rewrite Rmult_0_r; apply H0; left; reflexivity | apply Hx; left; reflexivity]).
    cbn [bind]. rewrite (IH _ _ l' E) by (intros z Hz; first [apply H0 | apply Hx]; right; exact Hz).
    f_equal. apply map_ext. intro i. cbn [how_many]. unfold inside. destruct (in_interval_dec _ _ (x / nl)); lia.
Qed.

Lemma count_samples_panics : forall m nb n c g l, normalised_samples draw nl n g = Some l -> (0 < nb)%nat ->
  (forall x, In x l -> 0 <= x) -> (exists x, In x l /\ m < x) ->
  monte_carlo.count_samples (Some m) draw nl (map edge (seq 0 nb)) n (map c (seq 0 nb)) g = None.
Proof using Hw.
  intros m nb n. induction n as [|n IH]; intros c g l H Hnb H0 (x & Hx & Hm).
  - cbn in H. injection H as <-. destruct Hx.
  - cbn [normalised_samples] in H. cbn [monte_carlo.count_samples]. destruct (draw g) as [[x0 g']|]; [|discriminate].
    destruct (normalised_samples draw nl n g') as [l'|] eqn:E; [|discriminate]. injection H as <-. cbn [bind fst snd].
    change (x0 / nl)%S with (x0 / nl).
    destruct (Rlt_dec m (x0 / nl)) as [L|L].
    + rewrite count_sample_panics by assumption. reflexivity.
    + rewrite count_sample_bins by (first [rewrite Rmult_0_r; apply H0; left; reflexivity | right; exact L]).
      cbn [bind]. apply (IH _ _ l' E Hnb); [intros z Hz; apply H0; right; exact Hz|].
      exists x. split; [|exact Hm]. destruct Hx as [<-|Hx]; [contradiction | exact Hx].
Qed.

Lemma normalised_samples_length : forall n g l, normalised_samples draw nl n g = Some l -> length l = n.
Proof.
  induction n as [|n IH]; intros g l H; cbn [normalised_samples] in H.
  - injection H as <-. reflexivity.
  - destruct (draw g) as [[x g']|]; [|discriminate]. destruct (normalised_samples draw nl n g') as [l'|] eqn:E; [|discriminate].
    injection H as <-. cbn [length]. rewrite (IH _ _ E). reflexivity.
Qed.

Lemma normalised_samples_all : forall (P : R -> Prop), (forall g x g', draw g = Some (x, g') -> P (x / nl)) ->
  forall n g l, normalised_samples draw nl n g = Some l -> forall x, In x l -> P x.
Proof.
  intros P HP. induction n as [|n IH]; intros g l H x Hx; cbn [normalised_samples] in H.
  - injection H as <-. destruct Hx.
  - destruct (draw g) as [[x0 g']|] eqn:D; [|discriminate]. destruct (normalised_samples draw nl n g') as [l'|] eqn:E; [|discriminate].
    injection H as <-. destruct Hx as [<-|Hx]; [exact (HP _ _ _ D) | exact (IH _ _ E x Hx)].
Qed.

Lemma normalised_samples_some : (forall g, draw g <> None) -> forall n g, exists l, normalised_samples draw nl n g = Some l.
Proof.
  intros H. induction n as [|n IH]; intro g; [exists []; reflexivity|]. cbn [normalised_samples].
  destruct (draw g) as [[x g']|] eqn:D; [|exfalso; exact (H g D)]. destruct (IH g') as [l ->]. eexists. reflexivity.
Qed.

(** The densities add up to the fraction of samples below the last edge. *)
Lemma how_many_split : forall a b c l, a <= b <= c ->
  (how_many (in_interval a b) (in_interval_dec a b) l + how_many (in_interval b c) (in_interval_dec b c) l
   = how_many (in_interval a c) (in_interval_dec a c) l)%Z.
Proof.
  intros a b c l H. induction l as [|x l IH]; cbn [how_many]; [reflexivity|].
  destruct (in_interval_dec a b x) as [A|A], (in_interval_dec b c x) as [B|B], (in_interval_dec a c x) as [C|C]; unfold in_interval in *; try lia; exfalso; lra.
Qed.

Lemma total_app : forall l k, total (l ++ k) = total l + total k.
Proof. induction l as [|x l IH]; intro k; cbn [app total]; [ring | rewrite IH; ring]. Qed.

Lemma how_many_none : forall a b l, b <= a -> how_many (in_interval a b) (in_interval_dec a b) l = 0%Z.
Proof.
  intros a b l H. induction l as [|x l IH]; [reflexivity|]. cbn [how_many]. rewrite IH.
  destruct (in_interval_dec a b x) as [I|I]; [|reflexivity]. unfold in_interval in I. lra.
Qed.

Lemma total_densities : forall nb l, (0 < length l)%nat ->
  total (densities w nb l) * w
  = IZR (how_many (in_interval 0 (w * INR nb)) (in_interval_dec _ _) l) / INR (length l).
Proof using Hw.
  intros nb l Hl. assert (P : 0 < INR (length l)) by (apply lt_0_INR; exact Hl).
  induction nb as [|nb IH].
  - cbn [densities]. unfold densities. cbn [seq map total INR]. rewrite Rmult_0_r, how_many_none by lra. unfold Rdiv. ring.
  - unfold densities in *. rewrite seq_S, map_app, total_app. cbn [map total]. rewrite Nat.add_0_l.
    rewrite 2!Rmult_plus_distr_r, IH.
    rewrite <- (how_many_split 0 (w * INR nb) (w * INR (S nb))).
    + rewrite plus_IZR. field. lra.
    + rewrite S_INR. pose proof (pos_INR nb). split; [apply Rmult_le_pos; lra | apply Rmult_le_compat_l; lra].
Qed.

Lemma densities_nonneg : forall nb l d, In d (densities w nb l) -> 0 <= d.
Proof using Hw.
  intros nb l d H. unfold densities in H. apply in_map_iff in H. destruct H as (i & <- & _).
  pose proof (how_many_nonneg (in_interval (w * INR i) (w * INR (S i))) (in_interval_dec _ _) l) as N.
  apply IZR_le in N. destruct l as [|x l].
  - cbn [length INR]. rewrite Rmult_0_l. unfold Rdiv. rewrite Rinv_0. lra.
  - apply Rmult_le_pos; [exact N|]. left. apply Rinv_0_lt_compat. apply Rmult_lt_0_compat; [apply lt_0_INR; cbn; lia | exact Hw].
Qed.
End Bins.

(** ** The samplers *)
Lemma repeat_map : forall (n : nat), repeat 0%Z n = map (fun _ : nat => 0%Z) (seq 0 n).
Proof.
  intro n. generalize 0%nat. induction n as [|n IH]; intro k; [reflexivity|]. cbn [repeat seq map]. f_equal. apply IH.
Qed.

Lemma indices_map : forall {A} (f : Z -> A) n, map f (monte_carlo.indices n) = map (fun i => f (Z.of_nat i)) (seq 0 n).
Proof. intros. unfold monte_carlo.indices. apply map_map. Qed.

Lemma fjc_edges : forall nb, (0 < nb)%nat -> (fjc_monte_carlo.bin_edges nb : list R) = map (edge (/ INR nb)) (seq 0 nb).
Proof.
  intros nb H. unfold fjc_monte_carlo.bin_edges. rewrite indices_map. apply map_ext. intro i. unfold edge.
  change ((IZR (Z.of_nat i) + 1) / IZR (Z.of_nat nb) = / INR nb * INR (S i)). rewrite <- 2!INR_IZR_INZ, S_INR. unfold Rdiv. ring.
Qed.

Lemma fjc_centers : forall nb, (0 < nb)%nat -> (fjc_monte_carlo.bin_centers nb : list R) = centres (/ INR nb) nb.
Proof.
  intros nb H. unfold fjc_monte_carlo.bin_centers, centres. rewrite indices_map. apply map_ext. intro i.
  change ((IZR (Z.of_nat i) + 5 / 10) / IZR (Z.of_nat nb) = (/ INR nb * INR i + / INR nb * INR (S i)) / 2).
  rewrite <- 2!INR_IZR_INZ, S_INR. assert (0 < INR nb) by (apply lt_0_INR; exact H). field. lra.
Qed.

Lemma scaled_edges : forall gm nb, (scaled_bins.bin_edges gm nb : list R) = map (edge (gm / INR nb)) (seq 0 nb).
Proof.
  intros gm nb. unfold scaled_bins.bin_edges. rewrite indices_map. apply map_ext. intro i. unfold edge.
  change (gm * (IZR (Z.of_nat i) + 1) / IZR (Z.of_nat nb) = gm / INR nb * INR (S i)). rewrite <- 2!INR_IZR_INZ, S_INR. unfold Rdiv. ring.
Qed.

Lemma scaled_centers : forall gm nb, (0 < nb)%nat -> (scaled_bins.bin_centers gm nb : list R) = centres (gm / INR nb) nb.
Proof.
  intros gm nb H. unfold scaled_bins.bin_centers, centres. rewrite indices_map. apply map_ext. intro i.
  change (gm * (IZR (Z.of_nat i) + 5 / 10) / IZR (Z.of_nat nb) = (gm / INR nb * INR i + gm / INR nb * INR (S i)) / 2).
  rewrite <- 2!INR_IZR_INZ, S_INR. assert (0 < INR nb) by (apply lt_0_INR; exact H). field. lra.
Qed.

Lemma fjc_histogram : forall {G} (gen : G -> R * G) nb nl n g, (0 < nb)%nat -> (0 < nl)%nat -> (0 < n)%nat ->
  exists samples,
    normalised_samples (fjc_monte_carlo.random_nondimensional_end_to_end_length gen nl) (INR nl) n g = Some samples /\
    length samples = n /\ (forall x, In x samples -> 0 <= x <= 1) /\
    fjc_monte_carlo.nondimensional_equilibrium_radial_distribution gen nb nl n g
    = Some (centres (/ INR nb) nb, densities (/ INR nb) nb samples).
Proof.
  intros G gen nb nl n g Hb Hl Hn. set (draw := fjc_monte_carlo.random_nondimensional_end_to_end_length gen nl).
  destruct (normalised_samples_some draw (INR nl)) with (n := n) (g := g) as [l E].
  { intros g' X. destruct (fjc_length_bound gen nl g' Hl) as (x & g2 & Y & _). unfold draw in X. rewrite X in Y. discriminate. }
  exists l. split; [exact E|]. pose proof (normalised_samples_length draw (INR nl) n g l E) as Len. split; [exact Len|].
  assert (Pl : 0 < INR nl) by (apply lt_0_INR; exact Hl). assert (Pb : 0 < INR nb) by (apply lt_0_INR; exact Hb).
  assert (B : forall x, In x l -> 0 <= x <= 1).
  { apply (normalised_samples_all draw (INR nl) (fun x => 0 <= x <= 1)) with (n := n) (g := g); [|exact E].
    intros g1 x g2 X. destruct (fjc_length_bound gen nl g1 Hl) as (y & g3 & Y & Z). unfold draw in X. rewrite X in Y. injection Y as <- <-.
    split; [apply Rmult_le_pos; [lra | left; apply Rinv_0_lt_compat, Pl]|].
    apply Rmult_le_reg_r with (INR nl); [exact Pl|]. unfold Rdiv. rewrite Rmult_assoc, Rinv_l by lra. lra. }
  split; [exact B|].
  unfold fjc_monte_carlo.nondimensional_equilibrium_radial_distribution. fold draw.
  change (sofZ (Z.of_nat nl)) with (IZR (Z.of_nat nl)). rewrite <- INR_IZR_INZ.
  rewrite (fjc_edges nb Hb), repeat_map.
  rewrite (count_samples_bins (/ INR nb) (Rinv_0_lt_compat _ Pb) draw (INR nl) None nb n (fun _ => 0%Z) g l E)
    by (first [intros x Hx; apply B; exact Hx | intros x Hx; right; exact (fun f => f)]).
  cbn [bind]. rewrite (fjc_centers nb Hb). f_equal. f_equal. rewrite map_map. unfold densities. apply map_ext. intro i.
  rewrite Len.
  change (IZR (0 + how_many (in_interval (/ INR nb * INR i) (/ INR nb * INR (S i))) (in_interval_dec (/ INR nb * INR i) (/ INR nb * INR (S i))) l)
    / (IZR (Z.of_nat n) / IZR (Z.of_nat nb)) = IZR (how_many (in_interval (/ INR nb * INR i) (/ INR nb * INR (S i))) (in_interval_dec (/ INR nb * INR i) (/ INR nb * INR (S i))) l)
    / (INR n * / INR nb)).
  rewrite Z.add_0_l, <- 2!INR_IZR_INZ. reflexivity.
Qed.

Lemma scaled_histogram : forall {G} (draw : G -> option (R * G)) gm nb nl n g samples,
  0 < gm -> (0 < nb)%nat -> (0 < n)%nat ->
  normalised_samples draw (INR nl) n g = Some samples -> (forall x, In x samples -> 0 <= x) ->
  ((forall x, In x samples -> x <= gm) ->
    scaled_bins.histogram gm draw nb nl n g = Some (centres (gm / INR nb) nb, densities (gm / INR nb) nb samples)) /\
  ((exists x, In x samples /\ gm < x) -> scaled_bins.histogram gm draw nb nl n g = None).
Proof.
  intros G draw gm nb nl n g l Hg Hb Hn E H0. pose proof (normalised_samples_length draw (INR nl) n g l E) as Len.
  assert (Pb : 0 < INR nb) by (apply lt_0_INR; exact Hb). assert (Pw : 0 < gm / INR nb) by (apply Rdiv_lt_0_compat; assumption).
  unfold scaled_bins.histogram. change (sofZ (Z.of_nat nl)) with (IZR (Z.of_nat nl)). rewrite <- INR_IZR_INZ.
  rewrite scaled_edges, repeat_map. split; intro H.
  - rewrite (count_samples_bins (gm / INR nb) Pw draw (INR nl) (Some gm) nb n (fun _ => 0%Z) g l E)
      by (first [exact H0 | intros x Hx; right; cbn; specialize (H x Hx); lra]).
    cbn [bind]. rewrite (scaled_centers gm nb Hb). f_equal. f_equal. rewrite map_map. unfold densities. apply map_ext. intro i.
    rewrite Len. set (q := how_many _ _ l).
    change (IZR (0 + q) / (gm * IZR (Z.of_nat n) / IZR (Z.of_nat nb)) = IZR q / (INR n * (gm / INR nb))).
    rewrite Z.add_0_l, <- 2!INR_IZR_INZ. f_equal. field. lra.
  - rewrite (count_samples_panics (gm / INR nb) Pw draw (INR nl) gm nb n (fun _ => 0%Z) g l E Hb H0 H). reflexivity.
Qed.

Lemma drawn_histogram : forall {G} (draw : G -> option (R * G)) gm nb nl n g, 0 < gm -> (0 < nb)%nat -> (0 < nl)%nat -> (0 < n)%nat ->
  (forall g, draw g <> None) -> (forall g x g', draw g = Some (x, g') -> 0 <= x) -> exists samples,
  normalised_samples draw (INR nl) n g = Some samples /\ length samples = n /\ (forall x, In x samples -> 0 <= x) /\
  is_histogram gm nb samples (scaled_bins.histogram gm draw nb nl n g).
Proof.
  intros G draw gm nb nl n g Hg Hb Hl Hn Ht H0.
  destruct (normalised_samples_some draw (INR nl) Ht n g) as [l E]. exists l.
  assert (N : forall x, In x l -> 0 <= x).
  { apply (normalised_samples_all draw (INR nl) (fun x => 0 <= x)) with (2 := E).
    intros g0 x g' Hd. apply Rmult_le_pos; [exact (H0 _ _ _ Hd)|]. left. apply Rinv_0_lt_compat, lt_0_INR. exact Hl. }
  split; [exact E|]. split; [exact (normalised_samples_length draw (INR nl) n g l E)|]. split; [exact N|].
  exact (scaled_histogram draw gm nb nl n g l Hg Hb Hn E N).
Qed.

Lemma end_length_some : forall n (c : list (vec R)), (0 < n)%nat -> length c = n -> exists x, monte_carlo.end_to_end_length n c = Some x /\ 0 <= x.
Proof.
  intros [|n] c Hn Hc; [lia|]. cbn [monte_carlo.end_to_end_length].
  destruct (nth_error c n) as [[[a b] d]|] eqn:E.
  - eexists. split; [reflexivity|]. apply sqrt_pos.
  - apply nth_error_None in E. lia.
Qed.

Lemma efjc_histogram : forall {G} (gen : G -> R * G) (sample : R -> R -> G -> R * G) nb nl gm kappa n g,
  0 < gm -> (0 < nb)%nat -> (0 < nl)%nat -> (0 < n)%nat ->
  (0 < kappa -> exists samples,
    normalised_samples (efjc_monte_carlo.random_nondimensional_end_to_end_length gen nl (sample 1 (1 / sqrt kappa))) (INR nl) n g
      = Some samples /\ length samples = n /\ (forall x, In x samples -> 0 <= x) /\
    is_histogram gm nb samples (efjc_monte_carlo.nondimensional_equilibrium_radial_distribution gen sample nb nl gm kappa n g)) /\
  (kappa <= 0 -> efjc_monte_carlo.nondimensional_equilibrium_radial_distribution gen sample nb nl gm kappa n g = None).
Proof.
  intros G gen sample nb nl gm kappa n g Hg Hb Hl Hn.
  assert (Len : forall dist m p g, length (fst (efjc_monte_carlo.walk gen dist m p g)) = m).
  { intros dist m. induction m as [|m IH]; intros p g0; [reflexivity|]. cbn [efjc_monte_carlo.walk].
    destruct (efjc_monte_carlo.random_link gen dist g0) as [r g1]. specialize (IH (monte_carlo.add3 p r) g1).
    destruct (efjc_monte_carlo.walk gen dist m _ g1) as [c g2]. cbn in IH |- *. rewrite IH. reflexivity. }
  unfold efjc_monte_carlo.nondimensional_equilibrium_radial_distribution.
  change (slt (sdec 0 0) kappa) with (if Rlt_dec 0 kappa then true else false).
  split; intro Hk; destruct (Rlt_dec 0 kappa) as [K|K]; try lra; [|reflexivity].
  apply drawn_histogram; try assumption.
  - intros g0. unfold efjc_monte_carlo.random_nondimensional_end_to_end_length, efjc_monte_carlo.random_configuration.
    pose proof (Len (sample 1 (1 / sqrt kappa)) nl monte_carlo.zero3 g0) as L.
    destruct (efjc_monte_carlo.walk gen _ nl _ g0) as [c g1]. destruct (end_length_some nl c Hl L) as (x & -> & _). discriminate.
  - intros g0 x g'. unfold efjc_monte_carlo.random_nondimensional_end_to_end_length, efjc_monte_carlo.random_configuration.
    pose proof (Len (sample 1 (1 / sqrt kappa)) nl monte_carlo.zero3 g0) as L.
    destruct (efjc_monte_carlo.walk gen _ nl _ g0) as [c g1]. destruct (end_length_some nl c Hl L) as (y & -> & Hy).
    intro E. inversion E. subst. exact Hy.
Qed.

Lemma efrc_histogram : forall {G} (gen : G -> R * G) (sample : R -> R -> G -> R * G) nb nl gm kappa theta n g,
  0 < gm -> (0 < nb)%nat -> (0 < nl)%nat -> (0 < n)%nat ->
  (0 < kappa -> exists samples,
    normalised_samples (efrc_monte_carlo.random_nondimensional_end_to_end_length gen nl theta (sample 1 (1 / sqrt kappa))) (INR nl) n g
      = Some samples /\ length samples = n /\ (forall x, In x samples -> 0 <= x) /\
    is_histogram gm nb samples (efrc_monte_carlo.nondimensional_equilibrium_radial_distribution gen sample nb nl gm kappa theta n g)) /\
  (kappa <= 0 -> efrc_monte_carlo.nondimensional_equilibrium_radial_distribution gen sample nb nl gm kappa theta n g = None).
Proof.
  intros G gen sample nb nl gm kappa theta n g Hg Hb Hl Hn.
  assert (Len : forall dist m r p g, length (fst (efrc_monte_carlo.walk gen theta dist m r p g)) = m).
  { intros dist m. induction m as [|m IH]; intros r0 p g0; [reflexivity|]. cbn [efrc_monte_carlo.walk].
    destruct (efrc_monte_carlo.random_link gen theta dist r0 g0) as [r g1]. specialize (IH r (monte_carlo.add3 p r) g1).
    destruct (efrc_monte_carlo.walk gen theta dist m r _ g1) as [c g2]. cbn in IH |- *. rewrite IH. reflexivity. }
  unfold efrc_monte_carlo.nondimensional_equilibrium_radial_distribution.
  change (slt (sdec 0 0) kappa) with (if Rlt_dec 0 kappa then true else false).
  split; intro Hk; destruct (Rlt_dec 0 kappa) as [K|K]; try lra; [|reflexivity].
  apply drawn_histogram; try assumption.
  - intros g0. unfold efrc_monte_carlo.random_nondimensional_end_to_end_length, efrc_monte_carlo.random_configuration.
    pose proof (Len (sample 1 (1 / sqrt kappa)) nl (1, 0, 0) monte_carlo.zero3 g0) as L.
    destruct (efrc_monte_carlo.walk gen theta _ nl _ _ g0) as [c g1]. destruct (end_length_some nl c Hl L) as (x & -> & _). discriminate.
  - intros g0 x g'. unfold efrc_monte_carlo.random_nondimensional_end_to_end_length, efrc_monte_carlo.random_configuration.
    pose proof (Len (sample 1 (1 / sqrt kappa)) nl (1, 0, 0) monte_carlo.zero3 g0) as L.
    destruct (efrc_monte_carlo.walk gen theta _ nl _ _ g0) as [c g1]. destruct (end_length_some nl c Hl L) as (y & -> & Hy).
    intro E. inversion E. subst. exact Hy.
Qed.

Lemma frc_gamma_max : forall theta, frc_monte_carlo.gamma_max theta = Rabs (cos (theta / 2)).
Proof.
  intro theta. change (sqrt (2 - 2 * cos (PI - theta)) / 2 = Rabs (cos (theta / 2))).
  replace (cos (PI - theta)) with (- cos theta) by (rewrite cos_minus, cos_PI, sin_PI; ring).
  replace theta with (2 * (theta / 2)) at 1 by field. rewrite cos_2a_cos.
  replace (2 - 2 * - (2 * cos (theta / 2) * cos (theta / 2) - 1)) with ((2 * cos (theta / 2)) * (2 * cos (theta / 2))) by ring.
  change ((2 * cos (theta / 2)) * (2 * cos (theta / 2))) with (Rsqr (2 * cos (theta / 2))). rewrite sqrt_Rsqr_abs, Rabs_mult, (Rabs_pos_eq 2) by lra.
  field.
Qed.

Lemma frc_histogram : forall {G} (gen : G -> R * G) nb nl theta n g,
  cos (theta / 2) <> 0 -> (0 < nb)%nat -> (0 < nl)%nat -> (0 < n)%nat -> exists samples,
    normalised_samples (frc_monte_carlo.random_nondimensional_end_to_end_length gen nl theta) (INR nl) n g = Some samples /\
    length samples = n /\ (forall x, In x samples -> 0 <= x) /\
    is_histogram (Rabs (cos (theta / 2))) nb samples
      (frc_monte_carlo.nondimensional_equilibrium_radial_distribution gen nb nl theta n g).
Proof.
  intros G gen nb nl theta n g Hg Hb Hl Hn.
  assert (Len : forall m r p g, length (fst (frc_monte_carlo.walk gen theta m r p g)) = m).
  { intros m. induction m as [|m IH]; intros r0 p g0; [reflexivity|]. cbn [frc_monte_carlo.walk].
    destruct (frc_monte_carlo.random_link gen theta r0 g0) as [r g1]. specialize (IH r (monte_carlo.add3 p r) g1).
    destruct (frc_monte_carlo.walk gen theta m r _ g1) as [c g2]. cbn in IH |- *. rewrite IH. reflexivity. }
  unfold frc_monte_carlo.nondimensional_equilibrium_radial_distribution. rewrite frc_gamma_max.
  apply drawn_histogram; try assumption.
  - apply Rabs_pos_lt. exact Hg.
  - intros g0. unfold frc_monte_carlo.random_nondimensional_end_to_end_length, frc_monte_carlo.random_configuration.
    pose proof (Len nl (1, 0, 0) monte_carlo.zero3 g0) as L.
    destruct (frc_monte_carlo.walk gen theta nl _ _ g0) as [c g1]. destruct (end_length_some nl c Hl L) as (x & -> & _). discriminate.
  - intros g0 x g'. unfold frc_monte_carlo.random_nondimensional_end_to_end_length, frc_monte_carlo.random_configuration.
    pose proof (Len nl (1, 0, 0) monte_carlo.zero3 g0) as L.
    destruct (frc_monte_carlo.walk gen theta nl _ _ g0) as [c g1]. destruct (end_length_some nl c Hl L) as (y & -> & Hy).
    intro E. inversion E. subst. exact Hy.
Qed.

(** ** Panics of the freely rotating sampler *)
Lemma count_sample_no_panic : forall m x (edges : list R) counts, ~ m < x ->
  exists counts', monte_carlo.count_sample (Some m) x edges counts = Some counts'.
Proof.
  intros m x edges. induction edges as [|e edges IH]; intros counts H; [eexists; reflexivity|].
  destruct counts as [|c counts]; [eexists; reflexivity|]. cbn [monte_carlo.count_sample].
  change (slt m x) with (Rltb m x). unfold Rltb at 1. destruct (Rlt_dec m x); [contradiction|].
  destruct (slt x e); [eexists; reflexivity|]. destruct (IH counts H) as [c' ->]. eexists; reflexivity.
Qed.

Lemma count_samples_no_panic : forall {G} (draw : G -> option (R * G)) m nl edges n counts g,
  (forall g', In g' (sample_states draw n g) -> exists x g2, draw g' = Some (x, g2) /\ x / nl <= m) ->
  exists counts', monte_carlo.count_samples (Some m) draw nl edges n counts g = Some counts'.
Proof.
  intros G draw m nl edges n. induction n as [|n IH]; intros counts g H; [eexists; reflexivity|].
  cbn [monte_carlo.count_samples]. destruct (H g) as (x & g2 & E & L); [left; reflexivity|]. rewrite E. cbn [bind fst snd].
  change (x / nl)%S with (x / nl).
  destruct (count_sample_no_panic m (x / nl) edges counts ltac:(lra)) as [c' ->]. cbn [bind]. apply IH.
  intros g' Hg. apply H. cbn [sample_states]. rewrite E. right. exact Hg.
Qed.

Lemma frc_even_safe : forall {G} (gen : G -> R * G) theta nb m n g, (0 < m)%nat ->
  (forall g', In g' (sample_states (frc_monte_carlo.random_nondimensional_end_to_end_length gen (m * 2) theta) n g) ->
     never_parallel gen theta (m * 2) x_axis g') ->
  exists h, frc_monte_carlo.nondimensional_equilibrium_radial_distribution gen nb (m * 2) theta n g = Some h.
Proof.
  intros G gen theta nb m n g Hm Hs. unfold frc_monte_carlo.nondimensional_equilibrium_radial_distribution, scaled_bins.histogram.
  change (sofZ (Z.of_nat (m * 2))) with (IZR (Z.of_nat (m * 2))). rewrite <- INR_IZR_INZ.
  set (draw := frc_monte_carlo.random_nondimensional_end_to_end_length gen (m * 2) theta) in *.
  destruct (count_samples_no_panic draw (frc_monte_carlo.gamma_max theta) (INR (m * 2))
    (scaled_bins.bin_edges (frc_monte_carlo.gamma_max theta) nb) n (repeat 0%Z nb) g) as [c ->].
  - intros g' Hg. destruct (frc_even_bound gen theta m g' Hm (Hs g' Hg)) as (l & g2 & E & _ & L). exists l, g2. split; assumption.
  - cbn [bind]. eexists; reflexivity.
Qed.

Lemma histogram_first_panics : forall {G} (draw : G -> option (R * G)) gm nb nl n g x g', (0 < nb)%nat ->
  draw g = Some (x, g') -> gm < x / INR nl -> scaled_bins.histogram gm draw nb nl (S n) g = None.
Proof.
  intros G draw gm nb nl n g x g' Hb E L. unfold scaled_bins.histogram.
  change (sofZ (Z.of_nat nl)) with (IZR (Z.of_nat nl)). rewrite <- INR_IZR_INZ. rewrite scaled_edges, repeat_map.
  cbn [monte_carlo.count_samples]. rewrite E. cbn [bind fst snd].
  change (x / INR nl)%S with (x / INR nl). rewrite count_sample_panics by assumption. reflexivity.
Qed.

Lemma frc_single_link_panics : forall {G} (gen : G -> R * G) theta nb n g, (0 < nb)%nat -> cos theta < 1 ->
  never_parallel gen theta 1 x_axis g ->
  frc_monte_carlo.nondimensional_equilibrium_radial_distribution gen nb 1 theta (S n) g = None.
Proof.
  intros G gen theta nb n g Hb Hc Hs. destruct (frc_length gen theta 1 g ltac:(lia)) as (l & g' & q & E & El & Q).
  apply (histogram_first_panics _ _ _ _ _ _ l g' Hb E). cbn [Nat.sub] in Q. rewrite frc_walk_one in Q.
  assert (Q' : monte_carlo.add3 origin (fst (frc_monte_carlo.random_link gen theta x_axis g)) = q) by congruence. clear Q. rename Q' into Q.
  destruct Hs as [Hi _]. destruct (frc_link gen theta x_axis g x_axis_unit Hi) as [Hw _].
  set (w := fst (frc_monte_carlo.random_link gen theta x_axis g)) in *.
  assert (L : l = 1).
  { rewrite El, <- Q. unfold vlength. replace (dot (@monte_carlo.add3 R R_scalar origin w) (@monte_carlo.add3 R R_scalar origin w)) with (dot w w); [rewrite Hw; apply sqrt_1|].
    destruct w as [[a b] c]. unfold monte_carlo.add3, origin, dot. cbn. ring. }
  rewrite L, gamma_max_R. cbn [INR]. apply Rmult_lt_reg_r with 2; [lra|].
  unfold Rdiv at 1. rewrite Rmult_assoc, Rinv_l by lra.
  replace (1 / 1 * 2) with 2 by field. pose proof (COS_bound theta).
  rewrite Rmult_1_r. apply Rlt_le_trans with (sqrt (2 * 2)); [apply sqrt_lt_1_alt; lra | rewrite sqrt_square; lra].
Qed.

(** The zigzag stream. *)
Section Zigzag.
Context (theta : R).
Let w : vec R := (cos theta, - sin theta, 0).

Lemma norm_half : forall a b : R, a * a + b * b = 1 ->
  monte_carlo.norm3 (a * (1 / 2), b * (1 / 2), 0) = 1 / 2.
Proof.
  intros a b H. rewrite norm3_R. unfold vlength, dot.
  replace (a * (1 / 2) * (a * (1 / 2)) + b * (1 / 2) * (b * (1 / 2)) + 0 * 0) with (1 / 2 * (1 / 2)) by nra.
  apply sqrt_square. lra.
Qed.

Lemma zigzag_link : forall a b phi, a * a + b * b = 1 ->
  let t : vec R := (0, 0, 1 / 2) in
  let r : vec R := (a, b, 0) in
  let u := monte_carlo.div3 (frc_monte_carlo.cross r t) (monte_carlo.norm3 (frc_monte_carlo.cross r t)) in
  let v := frc_monte_carlo.cross r u in
  sin phi = 0 ->
  frc_monte_carlo.rotate (cos phi) (sin phi) (cos theta) (sin theta) r u v
  = (b * cos phi * sin theta + a * cos theta, - a * cos phi * sin theta + b * cos theta, 0).
Proof.
  intros a b phi H t r u v Hp. assert (Ec : frc_monte_carlo.cross r t = (b * (1 / 2), (- a) * (1 / 2), 0)).
  { unfold r, t, frc_monte_carlo.cross. cbn. apply f_equal2; [apply f_equal2|]; ring. }
  assert (Eu : u = (b, - a, 0)).
  { unfold u. rewrite Ec. rewrite norm_half by nra. unfold monte_carlo.div3. cbn. apply f_equal2; [apply f_equal2|]; field. }
  unfold v. rewrite Eu. unfold r, frc_monte_carlo.rotate, frc_monte_carlo.cross. rewrite Hp. cbn. apply f_equal2; [apply f_equal2|]; ring.
Qed.

Lemma zigzag_even : frc_monte_carlo.random_link zigzag theta x_axis 0%nat = (w, 4%nat).
Proof.
  unfold frc_monte_carlo.random_link. cbn [zigzag]. f_equal.
  change (monte_carlo.TWO_PI * 0)%S with (2 * PI * 0).
  pose proof (zigzag_link 1 0 (2 * PI * 0) ltac:(ring)) as Z. cbv zeta in Z.
  eapply eq_trans; [apply Z; rewrite Rmult_0_r; apply sin_0|].
  rewrite Rmult_0_r, cos_0. unfold w. apply f_equal2; [apply f_equal2|]; ring.
Qed.

Lemma zigzag_odd : frc_monte_carlo.random_link zigzag theta w 4%nat = (x_axis, 0%nat).
Proof.
  unfold frc_monte_carlo.random_link. cbn [zigzag]. f_equal.
  change (monte_carlo.TWO_PI * (1 / 2))%S with (2 * PI * (1 / 2)).
  pose proof (sin2_cos2 theta) as SC. unfold Rsqr in SC.
  assert (P : 2 * PI * (1 / 2) = PI) by field.
  pose proof (zigzag_link (cos theta) (- sin theta) (2 * PI * (1 / 2)) ltac:(nra)) as Z. cbv zeta in Z.
  eapply eq_trans; [apply Z; rewrite P; apply sin_PI|].
  rewrite P, cos_PI. unfold x_axis. apply f_equal2; [apply f_equal2|]; nra.
Qed.

Lemma zigzag_walk : forall m p, exists q,
  nth_error (fst (frc_monte_carlo.walk zigzag theta (S (m * 2)) x_axis p 0%nat)) (m * 2) = Some q /\
  q = monte_carlo.add3 p (INR (S m) * cos theta + INR m, - (INR (S m) * sin theta), 0).
Proof.
  induction m as [|m IH]; intro p.
  - eexists. split; [apply frc_walk_one|]. rewrite zigzag_even. cbn [fst INR]. unfold w. f_equal. apply f_equal2; [apply f_equal2|]; ring.
  - destruct (IH (monte_carlo.add3 (monte_carlo.add3 p w) x_axis)) as (q & Q & E). exists q. split.
    + replace (S m * 2)%nat with (S (S (m * 2))) by lia. rewrite frc_walk_cons, zigzag_even. cbn [fst snd]. cbv zeta.
      rewrite frc_walk_cons, zigzag_odd. cbn [fst snd]. exact Q.
    + rewrite E. rewrite (S_INR (S m)), (S_INR m). destruct p as [[p0 p1] p2]. unfold w, x_axis, monte_carlo.add3. cbn. apply f_equal2; [apply f_equal2|]; ring.
Qed.

Lemma zigzag_panics : forall m nb n, (0 < nb)%nat -> cos theta < 1 ->
  frc_monte_carlo.nondimensional_equilibrium_radial_distribution zigzag nb (S (m * 2)) theta (S n) 0%nat = None.
Proof.
  intros m nb n Hb Hc. destruct (frc_length zigzag theta (S (m * 2)) 0%nat ltac:(lia)) as (l & g' & q & E & El & Q).
  apply (histogram_first_panics _ _ _ _ _ _ l g' Hb E). replace (S (m * 2) - 1)%nat with (m * 2)%nat in Q by lia.
  destruct (zigzag_walk m origin) as (q' & Q' & Eq). rewrite Q in Q'. injection Q' as <-.
  assert (D : dot q q = (INR (S m) * cos theta + INR m) ^ 2 + (INR (S m) * sin theta) ^ 2).
  { rewrite Eq. unfold monte_carlo.add3, origin, dot. cbn [sadd R_scalar]. ring. }
  pose proof (sin2_cos2 theta) as SC. unfold Rsqr in SC. pose proof (pos_INR m) as Pm. rewrite S_INR in D.
  rewrite El, gamma_max_R. set (nl := INR (S (m * 2))). assert (En : nl = 2 * INR m + 1) by (unfold nl; rewrite S_INR, mult_INR; cbn [INR]; ring).
  assert (Pn : 0 < nl) by lra. pose proof (COS_bound theta) as CB.
  apply Rmult_lt_reg_r with nl; [exact Pn|]. unfold Rdiv at 2. rewrite Rmult_assoc, Rinv_l, Rmult_1_r by lra.
  replace (sqrt (2 + 2 * cos theta) / 2 * nl) with (sqrt ((2 + 2 * cos theta) * (nl / 2 * (nl / 2)))).
  2:{ rewrite sqrt_mult_alt by lra. rewrite sqrt_square by lra. field. }
  unfold vlength. rewrite D. apply sqrt_lt_1_alt. split.
  - apply Rmult_le_pos; [lra|]. apply Rmult_le_pos; lra.
  - rewrite En. set (c := cos theta) in *. set (s := sin theta) in *. nra.
Qed.
End Zigzag.

(** One freely jointed link always lies on the last edge, so it is never counted. *)
Lemma fjc_single_link : forall {G} (gen : G -> R * G) nb n g, (0 < nb)%nat -> (0 < n)%nat ->
  exists d, fjc_monte_carlo.nondimensional_equilibrium_radial_distribution gen nb 1 n g = Some (centres (/ INR nb) nb, d) /\
    total d = 0.
Proof.
  intros G gen nb n g Hb Hn. destruct (fjc_histogram gen nb 1 n g Hb ltac:(lia) Hn) as (l & E & Len & _ & H).
  exists (densities (/ INR nb) nb l). split; [exact H|].
  assert (Pb : 0 < INR nb) by (apply lt_0_INR; exact Hb).
  assert (One : forall x, In x l -> x = 1).
  { apply (normalised_samples_all (fjc_monte_carlo.random_nondimensional_end_to_end_length gen 1) (INR 1) (fun x => x = 1)) with (n := n) (g := g); [|exact E].
    intros g1 x g2 X. unfold fjc_monte_carlo.random_nondimensional_end_to_end_length, fjc_monte_carlo.random_configuration in X.
    cbn [fjc_monte_carlo.walk] in X. pose proof (fjc_link_unit gen g1) as U.
    destruct (fjc_monte_carlo.random_link gen g1) as [r g3]. cbn [fst] in U. unfold monte_carlo.end_to_end_length in X. cbn [nth_error bind] in X.
    rewrite norm3_R, zero3_R in X.
    assert (V : vlength (@monte_carlo.add3 R R_scalar origin r) = 1).
    { unfold vlength. replace (dot (@monte_carlo.add3 R R_scalar origin r) (@monte_carlo.add3 R R_scalar origin r)) with (dot r r).
      - rewrite U. apply sqrt_1.
      - destruct r as [[a b] c]. unfold monte_carlo.add3, origin, dot. cbn. ring. }
    rewrite V in X. injection X as <- <-. cbn. field. }
  assert (T : total (densities (/ INR nb) nb l) * / INR nb = 0).
  { rewrite (total_densities (/ INR nb) (Rinv_0_lt_compat _ Pb)) by lia.
    replace (/ INR nb * INR nb) with 1 by (field; lra).
    replace (how_many (in_interval 0 1) (in_interval_dec 0 1) l) with 0%Z; [unfold Rdiv; ring|].
    clear - One. induction l as [|x l IH]; [reflexivity|]. cbn [how_many]. rewrite <- IH by (intros y Hy; apply One; right; exact Hy).
    rewrite (One x (or_introl eq_refl)). destruct (in_interval_dec 0 1 1) as [I|I]; [|reflexivity]. unfold in_interval in I. lra. }
  apply Rmult_integral in T. destruct T as [T|T]; [exact T|]. apply Rinv_neq_0_compat in T; [contradiction | lra].
Qed.

Lemma zigzag_never_parallel : forall theta m, never_parallel zigzag theta (m * 2) x_axis 0%nat.
Proof.
  intros theta. induction m as [|m IH]; [exact I|]. replace (S m * 2)%nat with (S (S (m * 2))) by lia.
  cbn [never_parallel]. rewrite zigzag_even. cbn [fst snd]. rewrite zigzag_odd. cbn [fst snd].
  split; [unfold independent, x_axis, auxiliary; cbn; lra|]. split; [|exact IH].
  unfold independent, auxiliary. cbn. pose proof (sin2_cos2 theta) as SC. unfold Rsqr in SC. nra.
Qed.

Lemma zigzag_returns : forall theta m p, snd (frc_monte_carlo.walk zigzag theta (m * 2) x_axis p 0%nat) = 0%nat.
Proof.
  intros theta. induction m as [|m IH]; intro p; [reflexivity|]. replace (S m * 2)%nat with (S (S (m * 2))) by lia.
  cbn [frc_monte_carlo.walk]. rewrite zigzag_even. rewrite zigzag_odd.
  specialize (IH (monte_carlo.add3 (monte_carlo.add3 p (cos theta, - sin theta, 0)) x_axis)).
  destruct (frc_monte_carlo.walk zigzag theta (m * 2) x_axis _ 0%nat) as [c g]. exact IH.
Qed.

Lemma zigzag_sample_states : forall theta m n g',
  In g' (sample_states (frc_monte_carlo.random_nondimensional_end_to_end_length zigzag (m * 2) theta) n 0%nat) -> g' = 0%nat.
Proof.
  intros theta m. induction n as [|n IH]; intros g' H; [destruct H|]. cbn [sample_states] in H. destruct H as [<-|H]; [reflexivity|].
  unfold frc_monte_carlo.random_nondimensional_end_to_end_length at 1, frc_monte_carlo.random_configuration in H.
  pose proof (zigzag_returns theta m monte_carlo.zero3) as Z. change (sdec 1 0, sdec 0 0, sdec 0 0) with x_axis in H.
  destruct (frc_monte_carlo.walk zigzag theta (m * 2) x_axis monte_carlo.zero3 0%nat) as [c g]. cbn [snd] in Z. subst g.
  destruct (monte_carlo.end_to_end_length (m * 2) c); [|destruct H]. cbn [bind] in H. exact (IH g' H).
Qed.
