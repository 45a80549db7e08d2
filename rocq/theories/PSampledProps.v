(** The statements of C67 in terms of the library's distribution. *)
From Coq Require Import Reals ZArith List Lra Lia.
From Coquelicot Require Import Coquelicot.
From Verif Require Import Scalar MFjc MMonteCarlo SpecMonteCarlo PMonteCarlo SpecIsometric SpecWalk SpecSampling SpecSampled PSamplingWalk
  PIrwinHall PTreloar PPolyLaw PRadialLaw PSampled PSampledFjc.
Import ListNotations.
Open Scope R_scope.

Lemma fjc_distribution_probability : forall prof n a b, (2 <= n <= 26)%nat -> 0 <= a <= b -> b <= 1 -> exists v,
  has_mean (2 * n) (fun l => match fjc_monte_carlo.random_nondimensional_end_to_end_length tape n l with
                             | Some (x, _) => if in_interval_dec (INR n * a) (INR n * b) x then 1 else 0 | None => 0 end) v /\
  integral (fjc_isometric.nondimensional_equilibrium_radial_distribution prof (Z.of_nat n)) a b v.
Proof.
  intros prof n a b Hn Hab Hb. assert (PN : 0 < INR n) by (apply lt_0_INR; lia). exists (cumulative n b - cumulative n a). split.
  - apply (mean_ext _ (fun l => if in_interval_dec a b (extension n l) then 1 else 0)); [|apply between_mean; assumption || lia].
    intros l _ _. rewrite fjc_length_end by lia. set (x := vlength _). assert (Ex : x = INR n * extension n l) by (unfold extension, x; field; lra).
    destruct (in_interval_dec a b (extension n l)) as [I|I]; destruct (in_interval_dec (INR n * a) (INR n * b) x) as [J|J]; try reflexivity; exfalso;
      unfold in_interval in *; [apply J | apply I]; rewrite Ex in *; split; nra.
  - apply library_integral; try assumption. apply radial_between; assumption || lia.
Qed.

Lemma bin_width : forall nb i p, (i < nb)%nat -> p / (INR (S i) / INR nb - INR i / INR nb) = INR nb * p.
Proof. intros nb i p Hi. assert (0 < INR nb) by (apply lt_0_INR; lia). rewrite S_INR. field. split; lra. Qed.

Lemma library_histogram_mean : forall prof nb nl n i, (2 <= nl <= 26)%nat -> (0 < n)%nat -> (i < nb)%nat -> exists p,
  integral (fjc_isometric.nondimensional_equilibrium_radial_distribution prof (Z.of_nat nl)) (INR i / INR nb) (INR (S i) / INR nb) p /\
  has_mean (n * (2 * nl)) (fun l => bin_density i (fjc_monte_carlo.nondimensional_equilibrium_radial_distribution tape nb nl n l))
    (p / (INR (S i) / INR nb - INR i / INR nb)) /\
  has_mean (n * (2 * nl)) (fun l => (bin_density i (fjc_monte_carlo.nondimensional_equilibrium_radial_distribution tape nb nl n l)
                                     - p / (INR (S i) / INR nb - INR i / INR nb)) ^ 2)
    (INR nb ^ 2 * (p * (1 - p)) / INR n).
Proof.
  intros prof nb nl n i Hl Hn Hi. destruct (fjc_histogram_mean nb nl n i ltac:(lia) Hn Hi) as (p & I & M & V). destruct (bin_range nb i Hi) as (R1 & R2).
  exists p. rewrite bin_width by exact Hi. split; [apply library_integral; assumption|]. split; assumption.
Qed.

Lemma library_histogram_law : forall prof nb nl n i (f : R -> R), (2 <= nl <= 26)%nat -> (0 < n)%nat -> (i < nb)%nat -> exists p,
  integral (fjc_isometric.nondimensional_equilibrium_radial_distribution prof (Z.of_nat nl)) (INR i / INR nb) (INR (S i) / INR nb) p /\
  has_mean (n * (2 * nl)) (fun l => f (bin_density i (fjc_monte_carlo.nondimensional_equilibrium_radial_distribution tape nb nl n l)))
    (sum_f_R0 (fun k => Binomial.C n k * p ^ k * (1 - p) ^ (n - k) * f (INR nb * INR k / INR n)) n).
Proof.
  intros prof nb nl n i f Hl Hn Hi. destruct (fjc_histogram_law nb nl n i f ltac:(lia) Hn Hi) as (p & I & M). destruct (bin_range nb i Hi) as (R1 & R2).
  exists p. split; [apply library_integral; assumption | exact M].
Qed.

Lemma library_histogram_deviation : forall prof nb nl n i d, (2 <= nl <= 26)%nat -> (0 < n)%nat -> (i < nb)%nat -> 0 < d -> exists p v,
  integral (fjc_isometric.nondimensional_equilibrium_radial_distribution prof (Z.of_nat nl)) (INR i / INR nb) (INR (S i) / INR nb) p /\
  has_mean (n * (2 * nl)) (fun l => if Rle_dec d (Rabs (bin_density i (fjc_monte_carlo.nondimensional_equilibrium_radial_distribution tape nb nl n l)
                                                        - INR nb * p)) then 1 else 0) v /\
  0 <= v <= INR nb ^ 2 / (4 * INR n * d ^ 2).
Proof.
  intros prof nb nl n i d Hl Hn Hi Hd. destruct (fjc_histogram_deviation nb nl n i d ltac:(lia) Hn Hi Hd) as (p & v & I & M & B).
  destruct (bin_range nb i Hi) as (R1 & R2). exists p, v. split; [apply library_integral; assumption|]. split; assumption.
Qed.

Lemma integral_unique : forall density a b v w, a <= b -> integral density a b v -> integral density a b w -> v = w.
Proof.
  intros density a b v w Hab (f & F & I) (g & G & J). rewrite <- (is_RInt_unique _ _ _ _ J). symmetry. apply is_RInt_unique.
  apply (is_RInt_ext f); [|exact I]. rewrite Rmin_left, Rmax_right by exact Hab. intros y Hy. specialize (F y Hy). rewrite (G y Hy) in F. congruence.
Qed.

Lemma two_links_example : has_mean 4 (fun l => match fjc_monte_carlo.random_nondimensional_end_to_end_length tape 2 l with
                             | Some (x, _) => if in_interval_dec 1 2 x then 1 else 0 | None => 0 end) (3 / 4).
Proof.
  destruct (fjc_walk_probability 2 1 2 (Nat.le_refl 2) ltac:(lra) ltac:(cbn; lra)) as (v & M & I).
  replace (3 / 4) with v; [exact M|]. apply (is_RInt_unique (V := R_CompleteNormedModule)) in I. rewrite <- I. apply is_RInt_unique.
  apply (is_RInt_ext (fun r => / 2 * r)).
  - rewrite Rmin_left, Rmax_right by lra. intros r Hr. unfold walk_density. cbn [Nat.sub two_links_and].
    destruct (Rlt_dec r 2); [|lra]. pose proof PI_RGT_0. change (/ 2 * r = 4 * PI * r ^ 2 * (1 / (8 * PI * r))). field. lra.
  - evar_last; [apply (is_RInt_derive (V := R_CompleteNormedModule) (fun r => r ^ 2 / 4) (fun r => / 2 * r))|].
    + intros x _. auto_derive; [exact Logic.I|]. field.
    + intros x _. apply (continuous_mult (fun _ => / 2) (fun r => r)); [apply continuous_const | apply continuous_id].
    + change (2 ^ 2 / 4 - 1 ^ 2 / 4 = 3 / 4). lra.
Qed.
