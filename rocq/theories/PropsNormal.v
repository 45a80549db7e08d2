(** Theorems for C68: fluctuations of the samples and response of the library to a weak force. *)
From Coq Require Import Reals ZArith List Lra Lia.
From Coquelicot Require Import Coquelicot.
From Verif Require Import Scalar MFjc MEfjc MMonteCarlo SpecMonteCarlo SpecSampling SpecNormal PNormal PNormalChain.
Import ListNotations.
Open Scope R_scope.

Local Notation fjc := (@fjc_isotensional.nondimensional_end_to_end_length_per_link R R_scalar).
Local Notation efjc := (@efjc_isotensional_asymptotic.nondimensional_end_to_end_length_per_link R R_scalar).
Local Notation efjc_alternative := (@efjc_isotensional_asymptotic_alternative.nondimensional_end_to_end_length_per_link R R_scalar).
Local Notation efjc_reduced := (@efjc_isotensional_asymptotic_reduced.nondimensional_end_to_end_length_per_link R R_scalar).

(** In equilibrium, the mean square end-to-end length without force is three times the
    slope of the extension at zero force.  The freely jointed chain obeys it: *)
Theorem C68_fjc : forall n, (0 < n)%nat -> exists slope,
  filterlim (fun x => fjc x / x) (at_right 0) (locally slope) /\
  has_average (2 * n) (fun l => match fjc_monte_carlo.random_nondimensional_end_to_end_length tape n l with
                                | Some (x, _) => x ^ 2 | None => 0 end) (3 * INR n * slope).
Proof. exact fjc_response. Qed.
Print Assumptions C68_fjc.

(** The mean square length of the sampled extensible chain, with its normal link lengths. *)
Theorem C68_efjc_square : forall kappa n, 0 < kappa -> (0 < n)%nat -> exists h,
  (forall lengths, List.length lengths = n ->
    has_average (2 * n)
      (fun l => match efjc_monte_carlo.random_nondimensional_end_to_end_length number_tape n length_tape (lengths, l) with
                | Some (x, _) => x ^ 2 | None => 0 end) (h lengths)) /\
  normal_average 1 (1 / sqrt kappa) n h (INR n * (1 + 1 / kappa)).
Proof. exact efjc_normal_square. Qed.
Print Assumptions C68_efjc_square.

Theorem C68_normal_average_unique : forall mean deviation n f v w,
  normal_average mean deviation n f v -> normal_average mean deviation n f w -> v = w.
Proof. exact normal_average_unique. Qed.
Print Assumptions C68_normal_average_unique.

(** The library's response is that of links whose length has the square of the length as an
    additional weight, the area of the sphere it may point to. *)
Theorem C68_efjc_spring : forall kappa, 0 < kappa -> exists slope weight square,
  filterlim (fun x => efjc kappa x / x) (at_right 0) (locally slope) /\
  line_integral (fun x => normal_density 1 (1 / sqrt kappa) x * x ^ 2) weight /\
  line_integral (fun x => normal_density 1 (1 / sqrt kappa) x * x ^ 2 * x ^ 2) square /\
  square / weight = 3 * slope.
Proof. exact efjc_spring. Qed.
Print Assumptions C68_efjc_spring.

(** The sampler lacks the weight: whatever the approach of the library, its samples are too
    short for its response, for every stiffness and number of links. *)
Theorem C68_efjc_refuted : forall kappa n, 0 < kappa -> (0 < n)%nat -> exists h v,
  (forall lengths, List.length lengths = n ->
    has_average (2 * n)
      (fun l => match efjc_monte_carlo.random_nondimensional_end_to_end_length number_tape n length_tape (lengths, l) with
                | Some (x, _) => x ^ 2 | None => 0 end) (h lengths)) /\
  normal_average 1 (1 / sqrt kappa) n h v /\
  forall f, In f [efjc; efjc_alternative; efjc_reduced] -> exists slope,
    filterlim (fun x => f kappa x / x) (at_right 0) (locally slope) /\ v + 2 * INR n / kappa <= 3 * INR n * slope.
Proof. exact efjc_refuted. Qed.
Print Assumptions C68_efjc_refuted.

(** Ten links of stiffness 50: the mean square length of the samples is 10.2. *)
Example C68_example : exists h,
  (forall lengths, List.length lengths = 10%nat ->
    has_average 20
      (fun l => match efjc_monte_carlo.random_nondimensional_end_to_end_length number_tape 10 length_tape (lengths, l) with
                | Some (x, _) => x ^ 2 | None => 0 end) (h lengths)) /\
  normal_average 1 (1 / sqrt 50) 10 h (102 / 10).
Proof.
  destruct (C68_efjc_square 50 10 ltac:(lra) ltac:(lia)) as (h & A & N). exists h. split; [exact A|].
  replace (102 / 10) with (INR 10 * (1 + 1 / 50)) by (cbn; lra). exact N.
Qed.
