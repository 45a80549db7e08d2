(** Theorems for C85, and for the worm-like chain in C57 and C75. *)
From Coq Require Import Reals ZArith Lra Lia.
From Verif Require Import Scalar MConst MWlc SpecThermo SpecHooke SpecAnswers PBase PWormReturns PWormAnswers PWormResponse.
Open Scope R_scope.

(** A chain of at least ten persistence lengths, pulled with any force up to twenty million kT per
    persistence length: every function answers.  The number of links is a u8.
    Missing: stronger forces, and stiffer chains. *)
Theorem C85_wlc_partial : forall N l p T F, (0 < N <= 255)%Z -> 0 < l -> 0 < T -> 0 < p <= 1 / 10 * (IZR N * l) ->
  0 < F <= 20000000 * (kB * T / p) ->
  answers (wlc_isotensional.end_to_end_length N l p F T) /\
  answers (wlc_isotensional.end_to_end_length_per_link N l p F T) /\
  answers (wlc_isotensional.relative_gibbs_free_energy N l p F T) /\
  answers (wlc_isotensional.relative_gibbs_free_energy_per_link N l p F T) /\
  answers (wlc_isotensional_legendre.relative_helmholtz_free_energy N l p F T) /\
  answers (wlc_isotensional_legendre.relative_helmholtz_free_energy_per_link N l p F T) /\
  forall m,
    answers (wlc_isotensional.gibbs_free_energy N l m p F T) /\
    answers (wlc_isotensional.gibbs_free_energy_per_link N l m p F T) /\
    answers (wlc_isotensional_legendre.helmholtz_free_energy N l m p F T) /\
    answers (wlc_isotensional_legendre.helmholtz_free_energy_per_link N l m p F T).
Proof. exact worm_answers_dimensional. Qed.
Print Assumptions C85_wlc_partial.

Theorem C85_wlc_nondimensional_partial : forall N z eta, (0 < N <= 255)%Z -> 0 < z <= 1 / 10 -> 0 < eta <= 20000000 / (IZR N * z) ->
  answers (wlc_isotensional.nondimensional_end_to_end_length N z eta) /\
  answers (wlc_isotensional.nondimensional_end_to_end_length_per_link N z eta) /\
  answers (wlc_isotensional.nondimensional_relative_gibbs_free_energy N z eta) /\
  answers (wlc_isotensional.nondimensional_relative_gibbs_free_energy_per_link N z eta) /\
  answers (wlc_isotensional_legendre.nondimensional_relative_helmholtz_free_energy N z eta) /\
  answers (wlc_isotensional_legendre.nondimensional_relative_helmholtz_free_energy_per_link N z eta) /\
  forall l m T,
    answers (wlc_isotensional.nondimensional_gibbs_free_energy N l m z eta T) /\
    answers (wlc_isotensional.nondimensional_gibbs_free_energy_per_link N l m z eta T) /\
    answers (wlc_isotensional_legendre.nondimensional_helmholtz_free_energy N l m z eta T) /\
    answers (wlc_isotensional_legendre.nondimensional_helmholtz_free_energy_per_link N l m z eta T).
Proof. exact worm_answers. Qed.
Print Assumptions C85_wlc_nondimensional_partial.

(** C57 and C75 for such a chain: its length exists, grows with the force and stays below the
    contour length, and at weak pulls it is a spring whose compliance is a third of the mean square
    end-to-end length of the isometric ensemble. *)
Theorem C57_wlc_flexible : forall N z, (0 < N <= 255)%Z -> 0 < z <= 1 / 10 ->
  exists f, (forall eta, 0 < eta <= 20000000 / (IZR N * z) -> wlc_isotensional.nondimensional_end_to_end_length N z eta = Some (f eta)) /\
    (forall eta, 0 < eta <= 20000000 / (IZR N * z) -> 0 < f eta < IZR N) /\
    (forall eta1 eta2, 0 < eta1 -> eta1 < eta2 -> eta2 <= 20000000 / (IZR N * z) -> f eta1 < f eta2).
Proof. exact flexible_increases. Qed.
Print Assumptions C57_wlc_flexible.

Theorem C75_wlc_slope : forall N l m T z, (0 < N <= 255)%Z -> 0 < z <= 1 / 10 ->
  let square := mean_square (fun g => wlc_isometric.nondimensional_helmholtz_free_energy N l m z g T) (1 / 10 ^ 6) 1 64 in
  exists f, (forall eta, 0 < eta <= 20000000 / (IZR N * z) -> wlc_isotensional.nondimensional_end_to_end_length N z eta = Some (f eta)) /\
    weak_slope f (IZR N ^ 2 * square / 3).
Proof. exact flexible_slope. Qed.
Print Assumptions C75_wlc_slope.

(** For every chain of at least 2.5 persistence lengths there is a force beyond which every
    function of the isotensional ensemble panics. *)
Theorem C85_wlc_refuted : forall N l p T, (0 < N)%Z -> 0 < l -> 0 < T -> 0 < p <= 4 / 10 * (IZR N * l) ->
  exists strong, 0 < strong /\ forall F, strong < F ->
  panics (wlc_isotensional.end_to_end_length N l p F T) /\
  panics (wlc_isotensional.end_to_end_length_per_link N l p F T) /\
  panics (wlc_isotensional.relative_gibbs_free_energy N l p F T) /\
  panics (wlc_isotensional.relative_gibbs_free_energy_per_link N l p F T) /\
  panics (wlc_isotensional_legendre.relative_helmholtz_free_energy N l p F T) /\
  panics (wlc_isotensional_legendre.relative_helmholtz_free_energy_per_link N l p F T) /\
  forall m,
    panics (wlc_isotensional.gibbs_free_energy N l m p F T) /\
    panics (wlc_isotensional.gibbs_free_energy_per_link N l m p F T) /\
    panics (wlc_isotensional_legendre.helmholtz_free_energy N l m p F T) /\
    panics (wlc_isotensional_legendre.helmholtz_free_energy_per_link N l m p F T).
Proof. exact worm_panics_dimensional. Qed.
Print Assumptions C85_wlc_refuted.

Theorem C85_wlc_nondimensional_refuted : forall N z, (0 < N)%Z -> 0 < z <= 4 / 10 ->
  exists strong, 0 < strong /\ forall eta, strong < eta ->
  panics (wlc_isotensional.nondimensional_end_to_end_length N z eta) /\
  panics (wlc_isotensional.nondimensional_end_to_end_length_per_link N z eta) /\
  panics (wlc_isotensional.nondimensional_relative_gibbs_free_energy N z eta) /\
  panics (wlc_isotensional.nondimensional_relative_gibbs_free_energy_per_link N z eta) /\
  panics (wlc_isotensional_legendre.nondimensional_relative_helmholtz_free_energy N z eta) /\
  panics (wlc_isotensional_legendre.nondimensional_relative_helmholtz_free_energy_per_link N z eta) /\
  forall l m T,
    panics (wlc_isotensional.nondimensional_gibbs_free_energy N l m z eta T) /\
    panics (wlc_isotensional.nondimensional_gibbs_free_energy_per_link N l m z eta T) /\
    panics (wlc_isotensional_legendre.nondimensional_helmholtz_free_energy N l m z eta T) /\
    panics (wlc_isotensional_legendre.nondimensional_helmholtz_free_energy_per_link N l m z eta T).
Proof. exact worm_panics. Qed.
Print Assumptions C85_wlc_nondimensional_refuted.

(** A chain of 128 links of 1 nm with a persistence length of 5 nm, pulled with kT per link length. *)
Example C85_example : forall T, 0 < T -> (0 < 128 <= 255)%Z /\ 0 < 5 <= 1 / 10 * (IZR 128 * 1) /\
  0 < kB * T / 1 <= 20000000 * (kB * T / 5).
Proof. intros T HT. pose proof (Rmult_lt_0_compat _ _ kB_pos HT). split; [lia | split; lra]. Qed.
