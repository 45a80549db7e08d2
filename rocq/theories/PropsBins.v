(** C91: the distributions returned by the samplers are never negative in double
    precision; C87 for the extensible freely rotating chain. *)
From Coq Require Import Reals ZArith List Floats.
From Verif Require Import Scalar F64 MMonteCarlo SpecDouble SpecHistory SpecSampler PDoubleFrc PDoubleBins.
Import ListNotations.
Open Scope R_scope.

(** Every number of the list is not below zero, or is NaN. *)
Definition never_below_zero (l : list float) : Prop := forall x, In x l -> PrimFloat.ltb x 0 = false.

(** What is asked of the library for the freely rotating chain: its cosines lie
    between -1 and 1, or are NaN. *)
Definition bounded_cosine (L : libm) : Prop := forall x, l_cos L x = nan \/ finite (l_cos L x) /\ Rabs (value (l_cos L x)) <= 1.

(** The generator is any state machine: it may return numbers outside of [0, 1],
    infinities or NaN. Of the library nothing is assumed. *)
Theorem C91_fjc : forall (L : libm) (G : Type) (gen : G -> float * G) bins links samples g centres densities,
  (Z.of_nat bins <= 2 ^ 53)%Z -> (Z.of_nat samples <= 2 ^ 53)%Z ->
  @fjc_monte_carlo.nondimensional_equilibrium_radial_distribution float (F64 L) G gen bins links samples g = Some (centres, densities) ->
  never_below_zero centres /\ never_below_zero densities.
Proof. exact @fjc_nonneg. Qed.
Print Assumptions C91_fjc.

Theorem C91_efjc : forall (L : libm) (G : Type) (gen : G -> float * G) (normal : float -> float -> G -> float * G)
  bins links gamma_max kappa samples g centres densities,
  unsigned gamma_max -> (Z.of_nat bins <= 2 ^ 53)%Z -> (Z.of_nat samples <= 2 ^ 53)%Z ->
  @efjc_monte_carlo.nondimensional_equilibrium_radial_distribution float (F64 L) G gen normal bins links gamma_max kappa samples g = Some (centres, densities) ->
  never_below_zero centres /\ never_below_zero densities.
Proof. exact @efjc_nonneg. Qed.
Print Assumptions C91_efjc.

Theorem C91_efrc : forall (L : libm) (G : Type) (gen : G -> float * G) (normal : float -> float -> G -> float * G)
  bins links gamma_max kappa theta samples g centres densities,
  unsigned gamma_max -> (Z.of_nat bins <= 2 ^ 53)%Z -> (Z.of_nat samples <= 2 ^ 53)%Z ->
  @efrc_monte_carlo.nondimensional_equilibrium_radial_distribution float (F64 L) G gen normal bins links gamma_max kappa theta samples g = Some (centres, densities) ->
  never_below_zero centres /\ never_below_zero densities.
Proof. exact @efrc_nonneg. Qed.
Print Assumptions C91_efrc.

Theorem C91_frc : forall (L : libm) (G : Type) (gen : G -> float * G) bins links theta samples g centres densities,
  bounded_cosine L -> (Z.of_nat bins <= 2 ^ 53)%Z -> (Z.of_nat samples <= 2 ^ 53)%Z ->
  @frc_monte_carlo.nondimensional_equilibrium_radial_distribution float (F64 L) G gen bins links theta samples g = Some (centres, densities) ->
  never_below_zero centres /\ never_below_zero densities.
Proof. exact @frc_nonneg. Qed.
Print Assumptions C91_frc.

(** The extensible freely rotating chain shares the defect of the freely rotating
    one (C87_frc_refuted): on a stream of zeros, whatever link lengths are drawn,
    the sampled length is NaN, *)
Theorem C87_efrc_refuted : forall (L : libm) (lengths : unit -> float * unit) (theta : float) (n : nat), (0 < n)%nat ->
  (forall g, fst (zeros g) = 0%float) /\
  @efrc_monte_carlo.random_nondimensional_end_to_end_length float (F64 L) unit zeros n theta lengths tt = Some (nan, tt).
Proof. exact efrc_on_zeros. Qed.
Print Assumptions C87_efrc_refuted.

(** and the samples vanish without a panic. *)
Theorem C87_efrc_distribution_refuted : forall (L : libm) (normal : float -> float -> unit -> float * unit) theta gamma_max kappa bins links samples,
  (0 < links)%nat -> PrimFloat.ltb 0 kappa = true -> exists centres densities,
  @efrc_monte_carlo.nondimensional_equilibrium_radial_distribution float (F64 L) unit zeros normal bins links gamma_max kappa theta samples tt
  = Some (centres, densities) /\ length densities = bins /\ forall x, In x densities -> value x = 0.
Proof. exact efrc_empty. Qed.
Print Assumptions C87_efrc_distribution_refuted.

(** Runs of the four samplers that return, each with a bin that is not empty. *)
Definition halves (g : unit) : float * unit := (0.5%float, g).
Definition unit_lengths (_ _ : float) (g : unit) : float * unit := (1%float, g).
Definition has_positive (r : option (list float * list float)) : Prop :=
  match r with Some (_, densities) => existsb (fun d => PrimFloat.ltb 0 d) densities = true | None => False end.

Example C91_runs :
  bounded_cosine half_libm /\
  has_positive (@fjc_monte_carlo.nondimensional_equilibrium_radial_distribution float (F64 half_libm) unit halves 8 2 5 tt) /\
  has_positive (@efjc_monte_carlo.nondimensional_equilibrium_radial_distribution float (F64 half_libm) unit halves unit_lengths 8 2 2%float 50%float 5 tt) /\
  has_positive (@efrc_monte_carlo.nondimensional_equilibrium_radial_distribution float (F64 half_libm) unit halves unit_lengths 8 2 2%float 50%float 0%float 5 tt) /\
  has_positive (@frc_monte_carlo.nondimensional_equilibrium_radial_distribution float (F64 half_libm) unit halves 8 2 0%float 5 tt).
Proof. split; [exact half_cosine|]. refine (conj _ (conj _ (conj _ _))); vm_compute; reflexivity. Qed.
