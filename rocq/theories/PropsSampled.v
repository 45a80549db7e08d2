(** Theorems for C67: the probabilities of the sampled lengths and the law of the histogram. *)
From Coq Require Import Reals ZArith List Lra Lia.
From Coquelicot Require Import Coquelicot.
From Verif Require Import Scalar MFjc MMonteCarlo SpecMonteCarlo SpecIsometric SpecWalk SpecSampling SpecSampled PSampled PSampledFjc PSampledProps.
Import ListNotations.
Open Scope R_scope.

(** The mean is one number, is the average of C66 where that exists, and preserves order. *)
Theorem C67_mean_unique : forall n f v w, has_mean n f v -> has_mean n f w -> v = w.
Proof. exact mean_unique. Qed.
Print Assumptions C67_mean_unique.

Theorem C67_mean_average : forall n f v, has_average n f v -> has_mean n f v.
Proof. exact average_mean. Qed.
Print Assumptions C67_mean_average.

Theorem C67_mean_le : forall n f g v w, has_mean n f v -> has_mean n g w ->
  (forall l, List.length l = n -> List.Forall (fun x => 0 < x < 1) l -> f l <= g l) -> v <= w.
Proof. exact mean_le. Qed.
Print Assumptions C67_mean_le.

(** The probability that a sampled length lies between [a] and [b] is the integral of
    the density of a walk of unit steps, for any number of links. *)
Theorem C67_walk : forall n a b, (2 <= n)%nat -> 0 <= a <= b -> b <= INR n -> exists v,
  has_mean (2 * n) (fun l => match fjc_monte_carlo.random_nondimensional_end_to_end_length tape n l with
                             | Some (x, _) => if in_interval_dec a b x then 1 else 0 | None => 0 end) v /\
  is_RInt (fun r => 4 * PI * r ^ 2 * walk_density n r) a b v.
Proof. exact fjc_walk_probability. Qed.
Print Assumptions C67_walk.

(** It is the integral of the radial distribution that the library computes, for the
    numbers of links where that does not overflow. *)
Theorem C67_distribution : forall prof n a b, (2 <= n <= 26)%nat -> 0 <= a <= b -> b <= 1 -> exists v,
  has_mean (2 * n) (fun l => match fjc_monte_carlo.random_nondimensional_end_to_end_length tape n l with
                             | Some (x, _) => if in_interval_dec (INR n * a) (INR n * b) x then 1 else 0 | None => 0 end) v /\
  integral (fjc_isometric.nondimensional_equilibrium_radial_distribution prof (Z.of_nat n)) a b v.
Proof. exact fjc_distribution_probability. Qed.
Print Assumptions C67_distribution.

(** The expected entry of the sampled histogram is the mean of the radial distribution of the
    library over the bin, and its mean square error is that of [n] independent samples. *)
Theorem C67_histogram : forall prof nb nl n i, (2 <= nl <= 26)%nat -> (0 < n)%nat -> (i < nb)%nat -> exists p,
  integral (fjc_isometric.nondimensional_equilibrium_radial_distribution prof (Z.of_nat nl)) (INR i / INR nb) (INR (S i) / INR nb) p /\
  has_mean (n * (2 * nl)) (fun l => bin_density i (fjc_monte_carlo.nondimensional_equilibrium_radial_distribution tape nb nl n l))
    (p / (INR (S i) / INR nb - INR i / INR nb)) /\
  has_mean (n * (2 * nl)) (fun l => (bin_density i (fjc_monte_carlo.nondimensional_equilibrium_radial_distribution tape nb nl n l)
                                     - p / (INR (S i) / INR nb - INR i / INR nb)) ^ 2)
    (INR nb ^ 2 * (p * (1 - p)) / INR n).
Proof. exact library_histogram_mean. Qed.
Print Assumptions C67_histogram.

(** The whole law of an entry: the number of samples in the bin is binomial. *)
Theorem C67_histogram_law : forall prof nb nl n i (f : R -> R), (2 <= nl <= 26)%nat -> (0 < n)%nat -> (i < nb)%nat -> exists p,
  integral (fjc_isometric.nondimensional_equilibrium_radial_distribution prof (Z.of_nat nl)) (INR i / INR nb) (INR (S i) / INR nb) p /\
  has_mean (n * (2 * nl)) (fun l => f (bin_density i (fjc_monte_carlo.nondimensional_equilibrium_radial_distribution tape nb nl n l)))
    (sum_f_R0 (fun k => Binomial.C n k * p ^ k * (1 - p) ^ (n - k) * f (INR nb * INR k / INR n)) n).
Proof. exact library_histogram_law. Qed.
Print Assumptions C67_histogram_law.

(** With more samples the histogram tends to the distribution: the probability of a deviation
    of [d] or more vanishes like the inverse of the number of samples. *)
Theorem C67_histogram_converges : forall prof nb nl n i d, (2 <= nl <= 26)%nat -> (0 < n)%nat -> (i < nb)%nat -> 0 < d -> exists p v,
  integral (fjc_isometric.nondimensional_equilibrium_radial_distribution prof (Z.of_nat nl)) (INR i / INR nb) (INR (S i) / INR nb) p /\
  has_mean (n * (2 * nl)) (fun l => if Rle_dec d (Rabs (bin_density i (fjc_monte_carlo.nondimensional_equilibrium_radial_distribution tape nb nl n l)
                                                        - INR nb * p)) then 1 else 0) v /\
  0 <= v <= INR nb ^ 2 / (4 * INR n * d ^ 2).
Proof. exact library_histogram_deviation. Qed.
Print Assumptions C67_histogram_converges.

(** The integrals over the bins determine [p]: the theorems speak of one number. *)
Theorem C67_integral_unique : forall density a b v w, a <= b -> integral density a b v -> integral density a b w -> v = w.
Proof. exact integral_unique. Qed.
Print Assumptions C67_integral_unique.

(** Two links: three of four samples are longer than one link. *)
Example C67_example : has_mean 4 (fun l => match fjc_monte_carlo.random_nondimensional_end_to_end_length tape 2 l with
                             | Some (x, _) => if in_interval_dec 1 2 x then 1 else 0 | None => 0 end) (3 / 4).
Proof. exact two_links_example. Qed.
