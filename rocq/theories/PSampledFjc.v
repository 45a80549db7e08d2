(** The sampled freely jointed chain: probabilities and histogram. *)
From Coq Require Import Reals ZArith List Lra Lia.
From Coquelicot Require Import Coquelicot.
From Verif Require Import Scalar MFjc MMonteCarlo SpecMonteCarlo PMonteCarlo PHistogram SpecIsometric SpecWalk SpecSampling SpecSampled PSphere PSampling PSamplingWalk
  PIrwinHall PTreloar PPolyLaw PRadialLaw PSampled.
Import ListNotations.
Open Scope R_scope.

(** ** Integrals against the radial density *)
Lemma split_integral : forall (k : R -> R) c v, 0 <= c <= 1 -> is_RInt k 0 1 v -> exists a b, is_RInt k 0 c a /\ is_RInt k c 1 b /\ v = a + b.
Proof.
  intros k c v Hc A.
  destruct (ex_RInt_Chasles_1 (V := R_CompleteNormedModule) k 0 c 1 Hc (ex_intro _ v A)) as (a & Aa).
  destruct (ex_RInt_Chasles_2 (V := R_CompleteNormedModule) k 0 c 1 Hc (ex_intro _ v A)) as (b & Ab).
  exists a, b. split; [exact Aa|]. split; [exact Ab|].
  rewrite <- (is_RInt_unique (V := R_CompleteNormedModule) _ _ _ _ A). apply (is_RInt_unique (V := R_CompleteNormedModule)).
  apply (is_RInt_Chasles (V := R_NormedModule) k 0 c 1); assumption.
Qed.

Lemma radial_pieces : forall n c, (2 <= n)%nat -> 0 <= c <= 1 ->
  is_RInt (radial n) 0 c (cumulative n c) /\ is_RInt (radial n) c 1 (1 - cumulative n c) /\ 0 <= cumulative n c <= 1.
Proof.
  intros n c Hn Hc. pose proof (cumulative_integral n 1 Hn ltac:(lra)) as A. rewrite cumulative_1 in A by exact Hn.
  destruct (split_integral (radial n) c 1 Hc A) as (a & b & Aa & Ab & E).
  assert (Ea : a = cumulative n c).
  { rewrite <- (is_RInt_unique (V := R_CompleteNormedModule) _ _ _ _ Aa). apply (is_RInt_unique (V := R_CompleteNormedModule)). apply cumulative_integral; assumption. }
  subst a. replace b with (1 - cumulative n c) in Ab by lra. split; [exact Aa|]. split; [exact Ab|].
  assert (Z : forall x y, is_RInt (fun _ => 0) x y 0).
  { intros x y. pose proof (is_RInt_const (V := R_NormedModule) x y 0) as X. evar_last; [exact X|]. change ((y - x) * 0 = 0). ring. }
  split.
  - apply (is_RInt_le (fun _ => 0) (radial n) 0 c); [lra | apply Z | exact Aa|]. intros y Hy. apply radial_nonneg; [exact Hn | lra].
  - assert (0 <= 1 - cumulative n c); [|lra].
    apply (is_RInt_le (fun _ => 0) (radial n) c 1); [lra | apply Z | exact Ab|]. intros y Hy. apply radial_nonneg; [exact Hn | lra].
Qed.

Lemma bound_upper : forall n k c e v, (2 <= n)%nat -> 0 <= c <= 1 -> 0 <= e -> is_RInt (fun y => radial n y * k y) 0 1 v ->
  (forall y, 0 < y < c -> k y <= 1) -> (forall y, c < y < 1 -> k y <= e) -> v <= cumulative n c + e.
Proof.
  intros n k c e v Hn Hc He A H1 H2. destruct (radial_pieces n c Hn Hc) as (R1 & R2 & R3).
  destruct (split_integral _ c v Hc A) as (a & b & Aa & Ab & ->).
  assert (a <= cumulative n c).
  { apply (is_RInt_le (fun y => radial n y * k y) (radial n) 0 c); [lra | exact Aa | exact R1|]. intros y Hy.
    pose proof (radial_nonneg n y Hn ltac:(lra)). specialize (H1 y Hy). nra. }
  assert (b <= e * (1 - cumulative n c)).
  { apply (is_RInt_le (fun y => radial n y * k y) (fun y => scal e (radial n y)) c 1); [lra | exact Ab | apply (is_RInt_scal (V := R_NormedModule)); exact R2|].
    intros y Hy. pose proof (radial_nonneg n y Hn ltac:(lra)). specialize (H2 y Hy). change (radial n y * k y <= e * radial n y). nra. }
  nra.
Qed.

Lemma bound_lower : forall n k c e v, (2 <= n)%nat -> 0 <= c <= 1 -> 0 <= e -> is_RInt (fun y => radial n y * k y) 0 1 v ->
  (forall y, 0 < y < c -> 1 - e <= k y) -> (forall y, c < y < 1 -> 0 <= k y) -> cumulative n c - e <= v.
Proof.
  intros n k c e v Hn Hc He A H1 H2. destruct (radial_pieces n c Hn Hc) as (R1 & R2 & R3).
  destruct (split_integral _ c v Hc A) as (a & b & Aa & Ab & ->).
  assert ((1 - e) * cumulative n c <= a).
  { apply (is_RInt_le (fun y => scal (1 - e) (radial n y)) (fun y => radial n y * k y) 0 c); [lra | apply (is_RInt_scal (V := R_NormedModule)); exact R1 | exact Aa|]. intros y Hy.
    pose proof (radial_nonneg n y Hn ltac:(lra)). specialize (H1 y Hy). change ((1 - e) * radial n y <= radial n y * k y). nra. }
  assert (0 * (1 - cumulative n c) <= b).
  { apply (is_RInt_le (fun y => scal 0 (radial n y)) (fun y => radial n y * k y) c 1); [lra | apply (is_RInt_scal (V := R_NormedModule)); exact R2 | exact Ab|].
    intros y Hy. pose proof (radial_nonneg n y Hn ltac:(lra)). specialize (H2 y Hy). change (0 * radial n y <= radial n y * k y). nra. }
  nra.
Qed.

(** ** The end-to-end length of one sample *)
Definition extension (n : nat) (l : list R) : R := vlength (end_point (fst (fjc_monte_carlo.random_configuration tape n l))) / INR n.

Lemma extension_bounds : forall n l, (0 < n)%nat -> 0 <= extension n l <= 1.
Proof.
  intros n l Hn. destruct (fjc_length_bound tape n l Hn) as (x & g & E & Hx). rewrite fjc_length_end in E by exact Hn. inversion E as [[Ex Eg]].
  unfold extension. rewrite Ex. assert (0 < INR n) by (apply lt_0_INR; exact Hn). split.
  - apply Rmult_le_pos; [lra|]. left. apply Rinv_0_lt_compat. assumption.
  - apply Rmult_le_reg_r with (INR n); [assumption|]. unfold Rdiv. rewrite Rmult_assoc, Rinv_l by lra. lra.
Qed.

Lemma extension_square : forall n l, (0 < n)%nat -> square_end n l = (INR n * extension n l) ^ 2.
Proof.
  intros n l Hn. unfold square_end, extension. cbv zeta. rewrite <- vlength_sq. assert (0 < INR n) by (apply lt_0_INR; exact Hn). field. lra.
Qed.

Lemma pol_step_of : forall m a b, pol (fun u => step m (a + b * u)).
Proof.
  intros m a b. unfold step. apply (pol_power (fun u => 1 - (a + b * u) ^ m)). apply pol_minus; [apply pol_const|].
  apply (pol_power (fun u => a + b * u)). apply pol_plus; [apply pol_const | apply pol_scal, pol_id].
Qed.

(** A polynomial in the extension. *)
Lemma extension_average : forall n m a b, (2 <= n)%nat -> exists v,
  has_average (2 * n) (fun l => step m (a + b * extension n l ^ 2)) v /\ is_RInt (fun y => radial n y * step m (a + b * y ^ 2)) 0 1 v.
Proof.
  intros n m a b Hn. assert (PN : 0 < INR n) by (apply lt_0_INR; lia).
  destruct (fjc_pol_law n (fun u => step m (a + (b / INR n ^ 2) * u)) Hn (pol_step_of m a (b / INR n ^ 2))) as (v & A & J).
  exists v. split.
  - apply (has_average_ext _ (fun l => step m (a + (b / INR n ^ 2) * square_end n l))); [|exact A].
    intros l _ _. rewrite extension_square by lia. f_equal. field. lra.
  - apply (is_RInt_ext (fun y => radial n y * step m (a + (b / INR n ^ 2) * (INR n * y) ^ 2))); [|exact J].
    intros y _. do 2 f_equal. field. lra.
Qed.

Lemma below_mean : forall n c, (2 <= n)%nat -> 0 <= c <= 1 ->
  has_mean (2 * n) (fun l => if Rlt_dec (extension n l) c then 1 else 0) (cumulative n c).
Proof.
  intros n c Hn Hc e He. set (e1 := e / 16). assert (He1 : 0 < e1) by (unfold e1; lra).
  destruct (proj1 (filterlim_locally (cumulative n) (cumulative n c)) (cumulative_continuous n c Hn) (mkposreal e1 He1)) as (eta0 & CC).
  cbn in CC. set (eta := Rmin (eta0 / 2) 1). assert (Heta : 0 < eta) by (apply Rmin_pos; destruct eta0; cbn; lra).
  assert (eta_1 : eta <= 1) by apply Rmin_r. assert (eta_0 : eta < eta0) by (pose proof (Rmin_l (eta0 / 2) 1); destruct eta0; cbn in *; unfold eta; cbn; lra).
  assert (Close : forall c', Rabs (c' - c) <= eta -> Rabs (cumulative n c' - cumulative n c) <= e1).
  { intros c' H. left. apply (CC c'). change (Rabs (c' - c) < eta0). lra. }
  set (d := eta ^ 2 / 8). assert (Hd : 0 < d <= 1 / 8) by (unfold d; split; nra).
  destruct (step_close d e1 ltac:(lra) He1) as (m & Lo & Hi).
  set (x := fun y => 1 / 2 + (y ^ 2 - c ^ 2) / 4).
  assert (x_bounds : forall y, 0 <= y <= 1 -> 1 / 4 <= x y <= 3 / 4) by (intros y Hy; unfold x; split; nra).
  destruct (extension_average n m (1 / 2 - c ^ 2 / 4 - d) (1 / 4) Hn) as (vU & AU & JU).
  destruct (extension_average n m (1 / 2 - c ^ 2 / 4 + d) (1 / 4) Hn) as (vL & AL & JL).
  assert (EU : forall y, 1 / 2 - c ^ 2 / 4 - d + 1 / 4 * y ^ 2 = x y - d) by (intro y; unfold x; field).
  assert (EL : forall y, 1 / 2 - c ^ 2 / 4 + d + 1 / 4 * y ^ 2 = x y + d) by (intro y; unfold x; field).
  (* the two averages *)
  assert (BU : vU <= cumulative n c + 2 * e1).
  { set (c' := Rmin 1 (c + eta)). assert (Hc' : 0 <= c' <= 1) by (unfold c', Rmin; destruct (Rle_dec _ _); lra).
    assert (Rabs (c' - c) <= eta) by (unfold c', Rmin; destruct (Rle_dec _ _); rewrite Rabs_pos_eq; lra).
    pose proof (Close c' H) as K. apply Rabs_le_between in K.
    assert (vU <= cumulative n c' + e1); [|lra].
    apply (bound_upper n (fun y => step m (1 / 2 - c ^ 2 / 4 - d + 1 / 4 * y ^ 2)) c'); [exact Hn | exact Hc' | lra | exact JU| |].
    - intros y Hy. rewrite EU. apply step_bounds. pose proof (x_bounds y ltac:(lra)). lra.
    - intros y Hy. rewrite EU. assert (c + eta < y) by (unfold c', Rmin in Hy; destruct (Rle_dec _ _) in Hy; lra).
      apply Hi. pose proof (x_bounds y ltac:(lra)). split; [|lra]. assert (c ^ 2 + eta ^ 2 <= y ^ 2) by nra. unfold x, d in *. lra. }
  assert (BL : cumulative n c - 2 * e1 <= vL).
  { set (c' := Rmax 0 (c - eta)). assert (Hc' : 0 <= c' <= 1) by (unfold c', Rmax; destruct (Rle_dec _ _); lra).
    assert (Rabs (c' - c) <= eta) by (unfold c', Rmax; destruct (Rle_dec _ _); rewrite Rabs_left1; lra).
    pose proof (Close c' H) as K. apply Rabs_le_between in K.
    assert (cumulative n c' - e1 <= vL); [|lra].
    apply (bound_lower n (fun y => step m (1 / 2 - c ^ 2 / 4 + d + 1 / 4 * y ^ 2)) c'); [exact Hn | exact Hc' | lra | exact JL| |].
    - intros y Hy. rewrite EL. assert (y < c - eta) by (unfold c', Rmax in Hy; destruct (Rle_dec _ _) in Hy; lra).
      apply Lo. pose proof (x_bounds y ltac:(lra)). split; [lra|]. assert (y ^ 2 + eta ^ 2 <= c ^ 2) by nra. unfold x, d in *. lra.
    - intros y Hy. rewrite EL. apply step_bounds. pose proof (x_bounds y ltac:(lra)). lra. }
  assert (BL' : vL <= cumulative n c + e1).
  { apply (bound_upper n (fun y => step m (1 / 2 - c ^ 2 / 4 + d + 1 / 4 * y ^ 2)) c); [exact Hn | exact Hc | lra | exact JL| |].
    - intros y Hy. rewrite EL. apply step_bounds. pose proof (x_bounds y ltac:(lra)). lra.
    - intros y Hy. rewrite EL. apply Hi. pose proof (x_bounds y ltac:(lra)). assert (c ^ 2 <= y ^ 2) by nra. unfold x in *. lra. }
  exists (fun l => 1 * step m (1 / 2 - c ^ 2 / 4 + d + 1 / 4 * extension n l ^ 2) + - e1),
    (fun l => -1 * step m (1 / 2 - c ^ 2 / 4 + d + 1 / 4 * extension n l ^ 2)
       + (1 * step m (1 / 2 - c ^ 2 / 4 - d + 1 / 4 * extension n l ^ 2) + 2 * e1)), (1 * vL + - e1), (-1 * vL + (1 * vU + 2 * e1)).
  split; [apply average_lin; [exact AL | apply average_const]|].
  split; [apply average_lin; [exact AL | apply average_lin; [exact AU | apply average_const]]|].
  split; [|split].
  - apply Rabs_le_between. unfold e1 in *. lra.
  - unfold e1 in *. lra.
  - intros l _ _. rewrite EU, EL. pose proof (extension_bounds n l ltac:(lia)) as Hy. set (y := extension n l) in *. pose proof (x_bounds y Hy) as Hx.
    pose proof (step_bounds m (x y - d) ltac:(lra)) as SU. pose proof (step_bounds m (x y + d) ltac:(lra)) as SL.
    apply Rabs_le_between. destruct (Rlt_dec y c) as [Y|Y].
    + assert (1 - e1 <= step m (x y - d)); [|lra]. apply Lo. assert (y ^ 2 <= c ^ 2) by nra. split; [lra|]. unfold x. lra.
    + assert (step m (x y + d) <= e1); [|lra]. apply Hi. assert (c ^ 2 <= y ^ 2) by nra. split; [|lra]. unfold x. lra.
Qed.

Lemma between_mean : forall n a b, (2 <= n)%nat -> 0 <= a <= b -> b <= 1 ->
  has_mean (2 * n) (fun l => if in_interval_dec a b (extension n l) then 1 else 0) (cumulative n b - cumulative n a).
Proof.
  intros n a b Hn Ha Hb. replace (cumulative n b - cumulative n a) with (-1 * cumulative n a + cumulative n b) by ring.
  apply (mean_ext _ (fun l => -1 * (if Rlt_dec (extension n l) a then 1 else 0) + (if Rlt_dec (extension n l) b then 1 else 0))).
  - intros l _ _. destruct (in_interval_dec a b (extension n l)) as [I|I]; unfold in_interval in I;
      destruct (Rlt_dec (extension n l) a); destruct (Rlt_dec (extension n l) b); lra.
  - apply mean_lin; apply below_mean; (exact Hn || lra).
Qed.

Lemma radial_between : forall n a b, (2 <= n)%nat -> 0 <= a <= b -> b <= 1 -> is_RInt (radial n) a b (cumulative n b - cumulative n a).
Proof.
  intros n a b Hn Ha Hb. pose proof (cumulative_integral n a Hn ltac:(lra)) as A. pose proof (cumulative_integral n b Hn ltac:(lra)) as B.
  apply (is_RInt_swap (V := R_NormedModule)) in A.
  evar_last; [exact (is_RInt_Chasles (V := R_NormedModule) (radial n) a 0 b _ _ A B)|].
  change (- cumulative n a + cumulative n b = cumulative n b - cumulative n a). ring.
Qed.

(** ** Successive samples *)
Lemma walk_tape_app : forall n p l l', List.length l = (2 * n)%nat -> uniform l ->
  fjc_monte_carlo.walk tape n p (l ++ l') = (fst (fjc_monte_carlo.walk tape n p l), l').
Proof.
  induction n as [|n IH]; intros p l l' Hl U.
  - destruct l; [reflexivity | discriminate].
  - destruct l as [|a [|b l]]; [discriminate | cbn in Hl; lia|].
    inversion U as [|? ? Ha U1]; subst. inversion U1 as [|? ? Hb U2]; subst.
    cbn [app fjc_monte_carlo.walk]. rewrite !fjc_tape_link by exact Hb. cbv beta iota zeta.
    rewrite (IH _ l l') by (cbn in Hl; lia || assumption).
    destruct (fjc_monte_carlo.walk tape n (add3 p (sphere_point a b)) l). reflexivity.
Qed.

Definition bin_hit (n : nat) (a b : R) (l : list R) : R := if in_interval_dec a b (extension n l) then 1 else 0.

Lemma samples_blocks : forall nl a b, (0 < nl)%nat -> forall n l, List.length l = (n * (2 * nl))%nat -> uniform l -> exists samples,
  normalised_samples (fjc_monte_carlo.random_nondimensional_end_to_end_length tape nl) (INR nl) n l = Some samples /\
  IZR (how_many (in_interval a b) (in_interval_dec a b) samples) = sum_blocks (2 * nl) (bin_hit nl a b) n l.
Proof.
  intros nl a b Hl. induction n as [|n IH]; intros l L U.
  - exists []. split; reflexivity.
  - change (S n * (2 * nl))%nat with (2 * nl + n * (2 * nl))%nat in L. destruct (uniform_split (2 * nl) (n * (2 * nl)) l L U) as (L1 & U1 & L2 & U2).
    destruct (IH _ L2 U2) as (s & E & C). set (l1 := firstn (2 * nl) l) in *. set (l2 := skipn (2 * nl) l) in *.
    exists (extension nl l1 :: s). split.
    + cbn [normalised_samples]. rewrite fjc_length_end by exact Hl.
      assert (W : fjc_monte_carlo.random_configuration tape nl l = (fst (fjc_monte_carlo.random_configuration tape nl l1), l2)).
      { unfold fjc_monte_carlo.random_configuration. rewrite <- (firstn_skipn (2 * nl) l) at 1. apply walk_tape_app; assumption. }
      rewrite W. cbn [fst snd]. rewrite E. reflexivity.
    + cbn [how_many sum_blocks]. rewrite plus_IZR, C. fold l1 l2. f_equal. unfold bin_hit. destruct (in_interval_dec a b (extension nl l1)); reflexivity.
Qed.

Lemma histogram_entry : forall nb nl n i l, (0 < nb)%nat -> (0 < nl)%nat -> (0 < n)%nat -> (i < nb)%nat ->
  List.length l = (n * (2 * nl))%nat -> uniform l ->
  bin_density i (fjc_monte_carlo.nondimensional_equilibrium_radial_distribution tape nb nl n l)
  = INR nb / INR n * sum_blocks (2 * nl) (bin_hit nl (INR i / INR nb) (INR (S i) / INR nb)) n l.
Proof.
  intros nb nl n i l Hb Hl Hn Hi L U. destruct (fjc_histogram tape nb nl n l Hb Hl Hn) as (s & E & Ls & _ & ->).
  destruct (samples_blocks nl (INR i / INR nb) (INR (S i) / INR nb) Hl n l L U) as (s' & E' & C). rewrite E in E'. inversion E'; subst s'.
  cbn [bin_density]. unfold densities.
  assert (NM : forall (f : nat -> R), nth i (map f (seq 0 nb)) 0 = f i).
  { intros f. rewrite (nth_indep _ 0 (f 0%nat)) by (rewrite map_length, seq_length; exact Hi). rewrite map_nth, seq_nth by exact Hi. reflexivity. }
  rewrite NM, Ls.
  replace (/ INR nb * INR i) with (INR i / INR nb) by (unfold Rdiv; ring). replace (/ INR nb * INR (S i)) with (INR (S i) / INR nb) by (unfold Rdiv; ring).
  rewrite C. field. split; apply not_0_INR; lia.
Qed.

Lemma bin_hit_01 : forall n a b l, bin_hit n a b l = 0 \/ bin_hit n a b l = 1.
Proof. intros n a b l. unfold bin_hit. destruct (in_interval_dec a b (extension n l)); [right | left]; reflexivity. Qed.

Lemma bin_range : forall nb i, (i < nb)%nat -> 0 <= INR i / INR nb <= INR (S i) / INR nb /\ INR (S i) / INR nb <= 1.
Proof.
  intros nb i Hi. assert (Pb : 0 < INR nb) by (apply lt_0_INR; lia). assert (Q : 0 < / INR nb) by (apply Rinv_0_lt_compat, Pb).
  pose proof (pos_INR i). assert (INR (S i) <= INR nb) by (apply le_INR; lia). rewrite S_INR in *. unfold Rdiv. split; [split|].
  - apply Rmult_le_pos; lra.
  - apply Rmult_le_compat_r; lra.
  - apply Rmult_le_reg_r with (INR nb); [exact Pb|]. rewrite Rmult_assoc, Rinv_l by lra. lra.
Qed.

Lemma fjc_histogram_mean : forall nb nl n i, (2 <= nl)%nat -> (0 < n)%nat -> (i < nb)%nat -> exists p,
  is_RInt (radial nl) (INR i / INR nb) (INR (S i) / INR nb) p /\
  has_mean (n * (2 * nl)) (fun l => bin_density i (fjc_monte_carlo.nondimensional_equilibrium_radial_distribution tape nb nl n l)) (INR nb * p) /\
  has_mean (n * (2 * nl)) (fun l => (bin_density i (fjc_monte_carlo.nondimensional_equilibrium_radial_distribution tape nb nl n l) - INR nb * p) ^ 2)
    (INR nb ^ 2 * (p * (1 - p)) / INR n).
Proof.
  intros nb nl n i Hl Hn Hi. set (a := INR i / INR nb). set (b := INR (S i) / INR nb). pose proof (bin_range nb i Hi) as (Hab & Hb1). fold a b in Hab, Hb1.
  set (p := cumulative nl b - cumulative nl a). exists p. assert (Pn : 0 < INR n) by (apply lt_0_INR; exact Hn).
  split; [apply radial_between; assumption|].
  pose proof (between_mean nl a b Hl Hab Hb1) as MX. fold p in MX.
  change (has_mean (2 * nl) (bin_hit nl a b) p) in MX. split.
  - replace (INR nb * p) with (INR nb / INR n * 0 + INR nb * p) by ring.
    apply (mean_ext _ (fun l => INR nb / INR n * (sum_blocks (2 * nl) (bin_hit nl a b) n l - INR n * p) + INR nb * p)).
    + intros l L U. rewrite histogram_entry by (assumption || lia). fold a b. field. lra.
    + apply mean_affine. apply (sum_mean (2 * nl) (bin_hit nl a b) p (bin_hit_01 nl a b) MX n).
  - replace (INR nb ^ 2 * (p * (1 - p)) / INR n) with ((INR nb / INR n) ^ 2 * (INR n * (p * (1 - p))) + 0) by (field; lra).
    apply (mean_ext _ (fun l => (INR nb / INR n) ^ 2 * (sum_blocks (2 * nl) (bin_hit nl a b) n l - INR n * p) ^ 2 + 0)).
    + intros l L U. rewrite histogram_entry by (assumption || lia). fold a b. field. lra.
    + apply (mean_affine (n * (2 * nl)) ((INR nb / INR n) ^ 2) 0 (fun l => (sum_blocks (2 * nl) (bin_hit nl a b) n l - INR n * p) ^ 2)).
      apply (sum_variance (2 * nl) (bin_hit nl a b) p (bin_hit_01 nl a b) MX n).
Qed.

Lemma fjc_histogram_law : forall nb nl n i (f : R -> R), (2 <= nl)%nat -> (0 < n)%nat -> (i < nb)%nat -> exists p,
  is_RInt (radial nl) (INR i / INR nb) (INR (S i) / INR nb) p /\
  has_mean (n * (2 * nl)) (fun l => f (bin_density i (fjc_monte_carlo.nondimensional_equilibrium_radial_distribution tape nb nl n l)))
    (sum_f_R0 (fun k => Binomial.C n k * p ^ k * (1 - p) ^ (n - k) * f (INR nb * INR k / INR n)) n).
Proof.
  intros nb nl n i f Hl Hn Hi. set (a := INR i / INR nb). set (b := INR (S i) / INR nb). pose proof (bin_range nb i Hi) as (Hab & Hb1). fold a b in Hab, Hb1.
  set (p := cumulative nl b - cumulative nl a). exists p. assert (Pn : 0 < INR n) by (apply lt_0_INR; exact Hn).
  split; [apply radial_between; assumption|].
  pose proof (between_mean nl a b Hl Hab Hb1) as MX. fold p in MX. change (has_mean (2 * nl) (bin_hit nl a b) p) in MX.
  apply (mean_ext _ (fun l => (fun s => f (INR nb * s / INR n)) (sum_blocks (2 * nl) (bin_hit nl a b) n l))).
  - intros l L U. rewrite histogram_entry by (assumption || lia). fold a b. cbv beta. f_equal. field. lra.
  - apply (sum_binomial (2 * nl) (bin_hit nl a b) p (bin_hit_01 nl a b) MX n (fun s => f (INR nb * s / INR n))).
Qed.

Lemma fjc_histogram_deviation : forall nb nl n i d, (2 <= nl)%nat -> (0 < n)%nat -> (i < nb)%nat -> 0 < d -> exists p v,
  is_RInt (radial nl) (INR i / INR nb) (INR (S i) / INR nb) p /\
  has_mean (n * (2 * nl)) (fun l => if Rle_dec d (Rabs (bin_density i (fjc_monte_carlo.nondimensional_equilibrium_radial_distribution tape nb nl n l) - INR nb * p)) then 1 else 0) v /\
  0 <= v <= INR nb ^ 2 / (4 * INR n * d ^ 2).
Proof.
  intros nb nl n i d Hl Hn Hi Hd. destruct (fjc_histogram_mean nb nl n i Hl Hn Hi) as (p & I & _ & V).
  set (F := fun x => if Rle_dec d (Rabs (x - INR nb * p)) then 1 else 0).
  destruct (fjc_histogram_law nb nl n i F Hl Hn Hi) as (p' & I' & M). assert (Pn : 0 < INR n) by (apply lt_0_INR; exact Hn).
  assert (Ep : p' = p).
  { rewrite <- (is_RInt_unique _ _ _ _ I). rewrite <- (is_RInt_unique _ _ _ _ I'). reflexivity. }
  subst p'. eexists p, _. split; [exact I|]. split; [exact M|]. split.
  - apply (mean_le (n * (2 * nl)) (fun _ => 0) _ _ _ (mean_const _ _) M). intros l _ _. unfold F. destruct (Rle_dec _ _); lra.
  - apply Rle_trans with (/ d ^ 2 * (INR nb ^ 2 * (p * (1 - p)) / INR n) + 0).
    + apply (mean_le _ _ _ _ _ M (mean_affine _ (/ d ^ 2) 0 _ _ V)). intros l _ _. unfold F. destruct (Rle_dec _ _) as [A|A].
      * set (x := bin_density _ _ - _) in *. apply Rmult_le_reg_l with (d ^ 2); [nra|].
        replace (d ^ 2 * (/ d ^ 2 * x ^ 2 + 0)) with (x ^ 2) by (field; lra). rewrite <- (pow2_abs x). nra.
      * assert (0 <= / d ^ 2) by (apply Rlt_le, Rinv_0_lt_compat; nra). set (x := bin_density _ _ - _). pose proof (pow2_ge_0 x). nra.
    + replace (/ d ^ 2 * (INR nb ^ 2 * (p * (1 - p)) / INR n) + 0) with (INR nb ^ 2 / (4 * INR n * d ^ 2) * (4 * (p * (1 - p)))) by (field; lra).
      rewrite <- (Rmult_1_r (INR nb ^ 2 / (4 * INR n * d ^ 2))) at 2. apply Rmult_le_compat_l.
      * apply Rmult_le_pos; [apply pow2_ge_0 | apply Rlt_le, Rinv_0_lt_compat, Rmult_lt_0_compat; [lra | apply pow_lt, Hd]].
      * pose proof (pow2_ge_0 (2 * p - 1)). nra.
Qed.

(** ** The library's distribution *)
Lemma library_radial : forall prof n y, (2 <= n <= 26)%nat -> 0 < y < 1 ->
  fjc_isometric.nondimensional_equilibrium_radial_distribution prof (Z.of_nat n) y = Some (radial n y).
Proof.
  intros prof n y Hn Hy. unfold fjc_isometric.nondimensional_equilibrium_radial_distribution. rewrite distribution_ok by assumption. cbn [bind].
  f_equal. rewrite radial_P by lra. reflexivity.
Qed.

Lemma library_integral : forall prof n a b v, (2 <= n <= 26)%nat -> 0 <= a <= b -> b <= 1 -> is_RInt (radial n) a b v ->
  integral (fjc_isometric.nondimensional_equilibrium_radial_distribution prof (Z.of_nat n)) a b v.
Proof. intros prof n a b v Hn Hab Hb A. exists (radial n). split; [intros y Hy; apply library_radial; [exact Hn | lra] | exact A]. Qed.

Lemma walk_radial : forall n a b v, (2 <= n)%nat -> 0 <= a <= b -> is_RInt (radial n) a b v ->
  is_RInt (fun r => 4 * PI * r ^ 2 * walk_density n r) (INR n * a) (INR n * b) v.
Proof.
  intros n a b v Hn Hab A. assert (PN : 0 < INR n) by (apply lt_0_INR; lia).
  apply (is_RInt_ext (fun r => scal (/ INR n) (radial n (/ INR n * r + 0)))).
  - rewrite Rmin_left, Rmax_right by (apply Rmult_le_compat_l; lra). intros r Hr.
    assert (0 < r) by (assert (0 <= INR n * a) by (apply Rmult_le_pos; lra); lra).
    rewrite Rplus_0_r. assert (Py : 0 < / INR n * r) by (apply Rmult_lt_0_compat; [apply Rinv_0_lt_compat|]; assumption).
    rewrite radial_P by lra. rewrite P_walk by assumption. replace (INR n * (/ INR n * r)) with r by (field; lra).
    change (/ INR n * (4 * PI * (/ INR n * r) ^ 2 * (INR n ^ 3 * walk_density n r)) = 4 * PI * r ^ 2 * walk_density n r). field. lra.
  - apply (is_RInt_comp_lin (V := R_NormedModule)). replace (/ INR n * (INR n * a) + 0) with a by (field; lra).
    replace (/ INR n * (INR n * b) + 0) with b by (field; lra). exact A.
Qed.

Lemma fjc_walk_probability : forall n a b, (2 <= n)%nat -> 0 <= a <= b -> b <= INR n -> exists v,
  has_mean (2 * n) (fun l => match fjc_monte_carlo.random_nondimensional_end_to_end_length tape n l with
                             | Some (x, _) => if in_interval_dec a b x then 1 else 0 | None => 0 end) v /\
  is_RInt (fun r => 4 * PI * r ^ 2 * walk_density n r) a b v.
Proof.
  intros n a b Hn Hab Hb. assert (PN : 0 < INR n) by (apply lt_0_INR; lia). assert (Q : 0 < / INR n) by (apply Rinv_0_lt_compat, PN).
  set (a' := a / INR n). set (b' := b / INR n).
  assert (Ea : a = INR n * a') by (unfold a'; field; lra). assert (Eb : b = INR n * b') by (unfold b'; field; lra).
  assert (Hab' : 0 <= a' <= b') by (unfold a', b', Rdiv; split; [apply Rmult_le_pos | apply Rmult_le_compat_r]; lra).
  assert (Hb' : b' <= 1) by (apply Rmult_le_reg_l with (INR n); [exact PN|]; lra).
  exists (cumulative n b' - cumulative n a'). split.
  - apply (mean_ext _ (fun l => if in_interval_dec a' b' (extension n l) then 1 else 0)); [|apply between_mean; assumption].
    intros l _ _. rewrite fjc_length_end by lia. set (x := vlength _). assert (Ex : x = INR n * extension n l) by (unfold extension, x; field; lra).
    destruct (in_interval_dec a' b' (extension n l)) as [I|I]; destruct (in_interval_dec a b x) as [J|J]; try reflexivity; exfalso;
      unfold in_interval in *; [apply J | apply I]; rewrite Ea, Eb, Ex in *; split; nra.
  - rewrite Ea, Eb. apply walk_radial; [exact Hn | exact Hab' | apply radial_between; assumption].
Qed.
