(** Doubles: the links and the lengths that the samplers draw (C87), the histogram
    of the FJC (C88), and a library that is correctly rounded at every argument. *)
From Coq Require Import Reals ZArith List Floats.
From Verif Require Import Scalar F64 MMonteCarlo SpecMonteCarlo SpecDouble SpecSampler PDoubleLibm PDoubleMonte PDoubleEfjcMonte PDoubleFrc PDoubleHist.
Open Scope R_scope.

Section Functions.
Variable L : libm.
Context {G : Type} (gen : G -> float * G).
Definition link : G -> vec float * G := @fjc_monte_carlo.random_link float (F64 L) G gen.
Definition sampled_length : nat -> G -> option (float * G) := @fjc_monte_carlo.random_nondimensional_end_to_end_length float (F64 L) G gen.
Definition efjc_sampled_length : nat -> (G -> float * G) -> G -> option (float * G) := @efjc_monte_carlo.random_nondimensional_end_to_end_length float (F64 L) G gen.
Definition frc_sampled_length : nat -> float -> G -> option (float * G) := @frc_monte_carlo.random_nondimensional_end_to_end_length float (F64 L) G gen.
Definition frc_distribution : nat -> nat -> float -> nat -> G -> option (list float * list float) := @frc_monte_carlo.nondimensional_equilibrium_radial_distribution float (F64 L) G gen.
Definition distribution : nat -> nat -> nat -> G -> option (list float * list float) := @fjc_monte_carlo.nondimensional_equilibrium_radial_distribution float (F64 L) G gen.
End Functions.

(** Whatever doubles between 0 and 1 the generator returns, a link is a vector
    of numbers whose length differs from 1 by the errors of sine and cosine, *)
Theorem C87_link : forall (L : libm) (G : Type) (gen : G -> float * G) (d : R), 0 <= d <= / 2 ^ 20 -> trigonometry d L ->
  (forall g, finite (fst (gen g)) /\ 0 <= value (fst (gen g)) <= 1) ->
  forall g, let r := fst (link L gen g) in
  all_finite r /\ Rabs (vlength (values r) - 1) <= 5 * d + 3 * unit_roundoff.
Proof. exact link_case. Qed.
Print Assumptions C87_link.

(** and the length of a chain of n links is a number, not negative, that exceeds
    n by no more than the errors of its links and of adding them. *)
Theorem C87_length : forall (L : libm) (G : Type) (gen : G -> float * G) (d : R), 0 <= d <= / 2 ^ 20 -> trigonometry d L ->
  (forall g, finite (fst (gen g)) /\ 0 <= value (fst (gen g)) <= 1) ->
  forall n g, (0 < n)%nat -> INR n <= 2 ^ 30 -> exists l g', sampled_length L gen n g = Some (l, g') /\
  finite l /\ 0 <= value l <= INR n * (1 + 5 * d + (3 * INR n + 8) * unit_roundoff).
Proof. exact PDoubleMonte.sampled_length. Qed.
Print Assumptions C87_length.

(** With extensible links, none longer than [longest], the same in proportion. *)
Theorem C87_efjc_length : forall (L : libm) (G : Type) (gen dist : G -> float * G) (d longest : R), 0 <= d <= / 2 ^ 20 -> trigonometry d L ->
  (forall g, finite (fst (gen g)) /\ 0 <= value (fst (gen g)) <= 1) ->
  1 <= longest <= 2 ^ 10 -> (forall g, finite (fst (dist g)) /\ Rabs (value (fst (dist g))) <= longest) ->
  forall n g, (0 < n)%nat -> INR n <= 2 ^ 20 -> exists l g', efjc_sampled_length L gen n dist g = Some (l, g') /\
  finite l /\ 0 <= value l <= longest * INR n * (1 + 5 * d + (3 * INR n + 10) * unit_roundoff).
Proof. exact PDoubleEfjcMonte.efjc_sampled_length. Qed.
Print Assumptions C87_efjc_length.

(** The freely rotating chain divides by the length of a cross product. On a
    stream of zeros, whatever the library, the angle and the number of links,
    the sampled length is NaN; *)
Theorem C87_frc_refuted : forall (L : libm) (theta : float) (n : nat), (0 < n)%nat ->
  (forall g, fst (zeros g) = 0%float) /\ frc_sampled_length L zeros n theta tt = Some (nan, tt).
Proof. exact frc_on_zeros. Qed.
Print Assumptions C87_frc_refuted.

(** and the samples vanish without a panic: no bin of the distribution holds any. *)
Theorem C87_frc_distribution_refuted : forall (L : libm) (theta : float) (bins links samples : nat), (0 < links)%nat ->
  exists centres densities, frc_distribution L zeros bins links theta samples tt = Some (centres, densities) /\
  length densities = bins /\ forall x, In x densities -> value x = 0.
Proof. exact frc_empty. Qed.
Print Assumptions C87_frc_distribution_refuted.

(** The distribution counts, between neighbouring edges, the samples whose length
    per link lies there. The edges are the doubles nearest to i/bins, the first
    is 0 and the last is 1, and the bins hold together every sample below 1, once. *)
Theorem C88_histogram : forall (L : libm) (G : Type) (gen : G -> float * G) (d : R), 0 <= d <= / 2 ^ 20 -> trigonometry d L ->
  (forall g, finite (fst (gen g)) /\ 0 <= value (fst (gen g)) <= 1) ->
  forall bins links n g, (0 < bins)%nat -> (Z.of_nat bins <= 2 ^ 53)%Z -> (0 < links)%nat -> INR links <= 2 ^ 30 ->
  exists samples (edge : nat -> R) centres,
    sampled (sampled_length L gen links) (float_of_Z (Z.of_nat links)) n g = Some samples /\
    length samples = n /\ (forall x, In x samples -> finite x /\ 0 <= value x) /\
    edge 0%nat = 0 /\ edge bins = 1 /\ (forall i, (i <= bins)%nat -> nearest_value (edge i) (INR i / INR bins)) /\ (forall i, (i < bins)%nat -> edge i <= edge (Nat.succ i)) /\
    fold_right Z.add 0%Z (map (fun i => how_many (in_interval (edge i) (edge (Nat.succ i))) (in_interval_dec _ _) (map value samples)) (seq 0 bins))
    = how_many (in_interval 0 1) (in_interval_dec 0 1) (map value samples) /\
    distribution L gen bins links n g
    = Some (centres, map (fun i => float_of_Z (how_many (in_interval (edge i) (edge (Nat.succ i))) (in_interval_dec _ _) (map value samples))
                                   / (float_of_Z (Z.of_nat n) / float_of_Z (Z.of_nat bins)))%float (seq 0 bins)).
Proof. exact double_histogram. Qed.
Print Assumptions C88_histogram.

(** A library, a generator and a number of links that meet the hypotheses. *)
Example C87_hypotheses : 0 <= / 2 ^ 50 <= / 2 ^ 20 /\ trigonometry (/ 2 ^ 50) rounded_libm /\
  (forall g, finite (fst (alternating g)) /\ 0 <= value (fst (alternating g)) <= 1) /\ (0 < 1000)%nat /\ INR 1000 <= 2 ^ 30.
Proof. exact sampler_case. Qed.

Example C87_efjc_hypotheses : 1 <= 2 <= 2 ^ 10 /\ (forall g, finite (fst (two_lengths g)) /\ Rabs (value (fst (two_lengths g))) <= 2) /\
  (0 < 1000)%nat /\ INR 1000 <= 2 ^ 20.
Proof. exact efjc_sampler_case. Qed.

(** The hypothesis on tanh of C57, C77 and C86 holds of that library at every double. *)
Example C86_library : forall x, nearest_double (l_tanh rounded_libm) tanh x.
Proof. exact rounded_tanh. Qed.
