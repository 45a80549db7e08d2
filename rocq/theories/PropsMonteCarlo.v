(** Theorems for C32-C35: the Monte Carlo samplers. *)
From Coq Require Import Reals ZArith List Lra Lia.
From Coquelicot Require Import Coquelicot.
From Verif Require Import Scalar MMonteCarlo SpecMonteCarlo PMonteCarlo PHistogram.
Import ListNotations.
Open Scope R_scope.

(** ** C32: geometry of the configurations *)

(** Freely jointed: the links are independent points of the unit sphere, the k-th
    made from the k-th pair of random numbers. *)
Theorem C32_fjc_links : forall (G : Type) (gen : G -> R * G), unit_interval gen -> forall n g,
  links origin (fst (fjc_monte_carlo.random_configuration gen n g))
  = map (fun ab => sphere_point (fst ab) (snd ab)) (draws (two gen) n g).
Proof. exact @fjc_configuration. Qed.
Print Assumptions C32_fjc_links.

Theorem C32_fjc_unit : forall (G : Type) (gen : G -> R * G) n g r,
  In r (links origin (fst (fjc_monte_carlo.random_configuration gen n g))) -> vlength r = 1.
Proof. exact @fjc_unit_links. Qed.
Print Assumptions C32_fjc_unit.

(** Extensible freely jointed: the same points scaled by the sampled link lengths. *)
Theorem C32_efjc_links : forall (G : Type) (gen dist : G -> R * G), unit_interval gen -> forall n g,
  links origin (fst (efjc_monte_carlo.random_configuration gen n dist g))
  = map (fun lab => scaled (fst lab) (sphere_point (fst (snd lab)) (snd (snd lab)))) (draws (one_two dist gen) n g).
Proof. exact @efjc_configuration. Qed.
Print Assumptions C32_efjc_links.

Theorem C32_efjc_lengths : forall (G : Type) (gen dist : G -> R * G) n g,
  map vlength (links origin (fst (efjc_monte_carlo.random_configuration gen n dist g)))
  = map (fun lab => Rabs (fst lab)) (draws (one_two dist gen) n g).
Proof. exact @efjc_link_lengths. Qed.
Print Assumptions C32_efjc_lengths.

(** Freely rotating: unit links, consecutive ones (and the first one and the x
    axis) at the prescribed angle. *)
Theorem C32_frc_links : forall (G : Type) (gen : G -> R * G) theta n g i a b, never_parallel gen theta n x_axis g ->
  let l := x_axis :: links origin (fst (frc_monte_carlo.random_configuration gen n theta g)) in
  nth_error l i = Some a -> nth_error l (S i) = Some b -> vlength b = 1 /\ dot a b = cos theta.
Proof. exact @frc_configuration. Qed.
Print Assumptions C32_frc_links.

(** Extensible freely rotating: the lengths are the sampled ones, and consecutive
    links make the prescribed angle (its supplement when the sampled length is negative). *)
Theorem C32_efrc_links : forall (G : Type) (gen dist : G -> R * G) theta n g i a b lam,
  never_parallel_extensible gen dist theta n x_axis g ->
  let l := x_axis :: links origin (fst (efrc_monte_carlo.random_configuration gen n theta dist g)) in
  nth_error l i = Some a -> nth_error l (S i) = Some b ->
  nth_error (map (fun d => fst (fst d)) (draws (one_four dist gen) n g)) i = Some lam ->
  vlength b = Rabs lam /\ dot a b = vlength a * lam * cos theta.
Proof. exact @efrc_configuration. Qed.
Print Assumptions C32_efrc_links.

Example C32_fjc_example : unit_interval zigzag.
Proof. intro g. do 8 (destruct g as [|g]; [cbn; lra|]). cbn. lra. Qed.

Example C32_frc_example : forall theta, never_parallel zigzag theta 6 x_axis 0%nat.
Proof. intro theta. exact (zigzag_never_parallel theta 3). Qed.

(** ** C33: length at most the contour length *)

Theorem C33_fjc_length : forall (G : Type) (gen : G -> R * G) n g, (0 < n)%nat -> exists l g',
  fjc_monte_carlo.random_nondimensional_end_to_end_length gen n g = Some (l, g') /\ 0 <= l <= INR n.
Proof. exact @fjc_length_bound. Qed.
Print Assumptions C33_fjc_length.

Theorem C33_frc_length : forall (G : Type) (gen : G -> R * G) theta n g, (0 < n)%nat -> never_parallel gen theta n x_axis g -> exists l g',
  frc_monte_carlo.random_nondimensional_end_to_end_length gen n theta g = Some (l, g') /\ 0 <= l <= INR n.
Proof. exact @frc_length_bound. Qed.
Print Assumptions C33_frc_length.

(** ** C34: histograms *)

(** The freely jointed histogram: as many samples as requested, each in [0,1]; bin
    [i] of [nb] holds the fraction of the samples in [i/nb, (i+1)/nb), as a density. *)
Theorem C34_fjc_histogram : forall (G : Type) (gen : G -> R * G) nb nl n g, (0 < nb)%nat -> (0 < nl)%nat -> (0 < n)%nat ->
  exists samples,
    normalised_samples (fjc_monte_carlo.random_nondimensional_end_to_end_length gen nl) (INR nl) n g = Some samples /\
    length samples = n /\ (forall x, In x samples -> 0 <= x <= 1) /\
    fjc_monte_carlo.nondimensional_equilibrium_radial_distribution gen nb nl n g
    = Some (centres (/ INR nb) nb, densities (/ INR nb) nb samples).
Proof. exact @fjc_histogram. Qed.
Print Assumptions C34_fjc_histogram.

(** The samplers with a maximum extension (frc, efjc, efrc share this code): the
    same over [0, gamma_max) unless a sample exceeds the maximum, which panics. *)
Theorem C34_scaled_histogram : forall (G : Type) (draw : G -> option (R * G)) gm nb nl n g samples,
  0 < gm -> (0 < nb)%nat -> (0 < n)%nat ->
  normalised_samples draw (INR nl) n g = Some samples -> (forall x, In x samples -> 0 <= x) ->
  ((forall x, In x samples -> x <= gm) ->
    scaled_bins.histogram gm draw nb nl n g = Some (centres (gm / INR nb) nb, densities (gm / INR nb) nb samples)) /\
  ((exists x, In x samples /\ gm < x) -> scaled_bins.histogram gm draw nb nl n g = None).
Proof. exact @scaled_histogram. Qed.
Print Assumptions C34_scaled_histogram.

(** The published functions.  The freely rotating sampler: the limit is the extension
    |cos(theta/2)| of the zigzag. *)
Theorem C34_frc_histogram : forall (G : Type) (gen : G -> R * G) nb nl theta n g,
  cos (theta / 2) <> 0 -> (0 < nb)%nat -> (0 < nl)%nat -> (0 < n)%nat -> exists samples,
    normalised_samples (frc_monte_carlo.random_nondimensional_end_to_end_length gen nl theta) (INR nl) n g = Some samples /\
    length samples = n /\ (forall x, In x samples -> 0 <= x) /\
    is_histogram (Rabs (cos (theta / 2))) nb samples
      (frc_monte_carlo.nondimensional_equilibrium_radial_distribution gen nb nl theta n g).
Proof. exact @frc_histogram. Qed.
Print Assumptions C34_frc_histogram.

(** The extensible samplers draw the link lengths with mean 1 and standard deviation
    1/sqrt(kappa), and panic without a positive stiffness. *)
Theorem C34_efjc_histogram : forall (G : Type) (gen : G -> R * G) (sample : R -> R -> G -> R * G) nb nl gm kappa n g,
  0 < gm -> (0 < nb)%nat -> (0 < nl)%nat -> (0 < n)%nat ->
  (0 < kappa -> exists samples,
    normalised_samples (efjc_monte_carlo.random_nondimensional_end_to_end_length gen nl (sample 1 (1 / sqrt kappa))) (INR nl) n g
      = Some samples /\ length samples = n /\ (forall x, In x samples -> 0 <= x) /\
    is_histogram gm nb samples (efjc_monte_carlo.nondimensional_equilibrium_radial_distribution gen sample nb nl gm kappa n g)) /\
  (kappa <= 0 -> efjc_monte_carlo.nondimensional_equilibrium_radial_distribution gen sample nb nl gm kappa n g = None).
Proof. exact @efjc_histogram. Qed.
Print Assumptions C34_efjc_histogram.

Theorem C34_efrc_histogram : forall (G : Type) (gen : G -> R * G) (sample : R -> R -> G -> R * G) nb nl gm kappa theta n g,
  0 < gm -> (0 < nb)%nat -> (0 < nl)%nat -> (0 < n)%nat ->
  (0 < kappa -> exists samples,
    normalised_samples (efrc_monte_carlo.random_nondimensional_end_to_end_length gen nl theta (sample 1 (1 / sqrt kappa))) (INR nl) n g
      = Some samples /\ length samples = n /\ (forall x, In x samples -> 0 <= x) /\
    is_histogram gm nb samples (efrc_monte_carlo.nondimensional_equilibrium_radial_distribution gen sample nb nl gm kappa theta n g)) /\
  (kappa <= 0 -> efrc_monte_carlo.nondimensional_equilibrium_radial_distribution gen sample nb nl gm kappa theta n g = None).
Proof. exact @efrc_histogram. Qed.
Print Assumptions C34_efrc_histogram.

Example C34_efrc_example : exists samples, length samples = 5%nat /\
  is_histogram 2 10 samples (efrc_monte_carlo.nondimensional_equilibrium_radial_distribution zigzag
    (fun mean _ g => (mean, g)) 10 3 2 50 1 5 0%nat).
Proof.
  destruct (C34_efrc_histogram nat zigzag (fun mean _ g => (mean, g)) 10 3 2 50 1 5 0%nat) as [H _]; try lia; try lra.
  destruct H as (l & _ & L & _ & H); [lra|]. exists l. split; assumption.
Qed.

(** Densities are non-negative and integrate to the fraction of samples below the last edge. *)
Theorem C34_integral : forall w, 0 < w -> forall nb l, (0 < length l)%nat ->
  total (densities w nb l) * w
  = IZR (how_many (in_interval 0 (w * INR nb)) (in_interval_dec _ _) l) / INR (length l).
Proof. exact total_densities. Qed.
Print Assumptions C34_integral.

Theorem C34_nonnegative : forall w, 0 < w -> forall nb l d, In d (densities w nb l) -> 0 <= d.
Proof. exact densities_nonneg. Qed.
Print Assumptions C34_nonnegative.

(** A consequence a user may not expect: a chain of one link always has extension
    exactly 1, which is below no edge, so its histogram is empty. *)
Theorem C34_single_link : forall (G : Type) (gen : G -> R * G) nb n g, (0 < nb)%nat -> (0 < n)%nat ->
  exists d, fjc_monte_carlo.nondimensional_equilibrium_radial_distribution gen nb 1 n g = Some (centres (/ INR nb) nb, d) /\
    total d = 0.
Proof. exact @fjc_single_link. Qed.
Print Assumptions C34_single_link.

Example C34_example : exists samples, length samples = 7%nat /\
  fjc_monte_carlo.nondimensional_equilibrium_radial_distribution zigzag 10 3 7 0%nat
  = Some (centres (/ INR 10) 10, densities (/ INR 10) 10 samples).
Proof. destruct (C34_fjc_histogram nat zigzag 10 3 7 0%nat) as (l & _ & L & _ & H); try lia. exists l. split; assumption. Qed.

(** ** C35: the freely rotating sampler can panic *)

(** With an even number of links it never does. *)
Theorem C35_even_never_panics : forall (G : Type) (gen : G -> R * G) theta nb m n g, (0 < m)%nat ->
  (forall g', In g' (sample_states (frc_monte_carlo.random_nondimensional_end_to_end_length gen (m * 2) theta) n g) ->
     never_parallel gen theta (m * 2) x_axis g') ->
  exists h, frc_monte_carlo.nondimensional_equilibrium_radial_distribution gen nb (m * 2) theta n g = Some h.
Proof. exact @frc_even_safe. Qed.
Print Assumptions C35_even_never_panics.

Example C35_even_example : forall theta, exists h,
  frc_monte_carlo.nondimensional_equilibrium_radial_distribution zigzag 20 4 theta 100 0%nat = Some h.
Proof.
  intro theta. apply (C35_even_never_panics nat zigzag theta 20 2 100 0%nat); [lia|].
  intros g' H. apply (zigzag_sample_states theta 2) in H. subst g'. apply (zigzag_never_parallel theta 2).
Qed.

(** With any odd number of links, and any angle but zero, some stream of random
    numbers makes it panic. *)
Theorem C35_never_panics_refuted : forall m nb n theta, (0 < nb)%nat -> cos theta < 1 ->
  exists (G : Type) (gen : G -> R * G) g, unit_interval gen /\
  frc_monte_carlo.nondimensional_equilibrium_radial_distribution gen nb (S (m * 2)) theta (S n) g = None.
Proof.
  intros m nb n theta Hb Hc. exists nat, zigzag, 0%nat. split; [exact C32_fjc_example | apply zigzag_panics; assumption].
Qed.
Print Assumptions C35_never_panics_refuted.

(** With one link, every stream does. *)
Theorem C35_single_link_panics : forall (G : Type) (gen : G -> R * G) theta nb n g, (0 < nb)%nat -> cos theta < 1 ->
  never_parallel gen theta 1 x_axis g ->
  frc_monte_carlo.nondimensional_equilibrium_radial_distribution gen nb 1 theta (S n) g = None.
Proof. exact @frc_single_link_panics. Qed.
Print Assumptions C35_single_link_panics.
