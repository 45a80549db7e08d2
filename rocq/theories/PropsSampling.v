(** Theorems for C66: averages over the random numbers of the Monte Carlo samplers. *)
From Coq Require Import Reals ZArith List Lra Lia.
From Coquelicot Require Import Coquelicot.
From Verif Require Import Scalar MFjc MMonteCarlo SpecMonteCarlo SpecIsometric SpecPartition SpecThermo SpecSampling PMonteCarlo PLaplace PSampling PSamplingWalk PSamplingRotate.
Import ListNotations.
Open Scope R_scope.

(** The average of a function over the random numbers is one number. *)
Theorem C66_average_unique : forall n f v w, has_average n f v -> has_average n f w -> v = w.
Proof. exact has_average_unique. Qed.
Print Assumptions C66_average_unique.

(** Freely jointed: the direction of a link is uniform on the sphere.  The average of
    any smooth function of its component along any [k] is that for a height
    uniform between -1 and 1, whatever the direction of [k]. *)
Theorem C66_fjc_isotropic : forall (g g1 g2 : R -> R) (k : vec R),
  (forall x, is_derive g x (g1 x)) -> (forall x, is_derive g1 x (g2 x)) -> (forall x, continuous g2 x) ->
  has_average 2 (fun l => g (dot k (fst (fjc_monte_carlo.random_link tape l)))) (RInt (fun z => g (vlength k * z)) (-1) 1 / 2).
Proof. exact fjc_isotropic. Qed.
Print Assumptions C66_fjc_isotropic.

(** The mean end-to-end vector is zero, and the mean square length is the number of links. *)
Theorem C66_fjc_mean : forall n k,
  has_average (2 * n) (fun l => dot k (end_point (fst (fjc_monte_carlo.random_configuration tape n l)))) 0.
Proof. exact fjc_mean. Qed.
Print Assumptions C66_fjc_mean.

Theorem C66_fjc_square : forall n, (0 < n)%nat ->
  has_average (2 * n) (fun l => match fjc_monte_carlo.random_nondimensional_end_to_end_length tape n l with
                                | Some (x, _) => x ^ 2 | None => 0 end) (INR n).
Proof. exact fjc_square_average. Qed.
Print Assumptions C66_fjc_square.

(** The characteristic function of the end-to-end vector is that of [n] independent
    unit vectors. *)
Theorem C66_fjc_characteristic : forall n k,
  has_average (2 * n) (fun l => cos (dot k (end_point (fst (fjc_monte_carlo.random_configuration tape n l))))) (sinc (vlength k) ^ n) /\
  has_average (2 * n) (fun l => sin (dot k (end_point (fst (fjc_monte_carlo.random_configuration tape n l))))) 0.
Proof. exact fjc_characteristic. Qed.
Print Assumptions C66_fjc_characteristic.

(** Averaging exp(force * extension) over the samples gives the isotensional free
    energy that the library computes, for a force in any direction. *)
Theorem C66_fjc_isotensional : forall n k, 0 < vlength k ->
  has_average (2 * n) (fun l => exp (dot k (end_point (fst (fjc_monte_carlo.random_configuration tape n l)))))
    (exp (- fjc_isotensional.nondimensional_relative_gibbs_free_energy (Z.of_nat n) (vlength k))).
Proof. exact fjc_partition. Qed.
Print Assumptions C66_fjc_isotensional.

(** The samples and the library's radial distribution agree: averaging
    exp(force * extension) over either gives the same value, for every force. *)
Theorem C66_fjc_distribution : forall prof n k, (2 <= n <= 26)%nat -> 0 < vlength k -> exists v,
  has_average (2 * n) (fun l => exp (dot k (end_point (fst (fjc_monte_carlo.random_configuration tape n l))))) v /\
  integral (fun g => match fjc_isometric.nondimensional_equilibrium_radial_distribution prof (Z.of_nat n) g with
                     | Some p => Some (p * angular_average (INR n * vlength k * g)) | None => None end) 0 1 v.
Proof. exact fjc_sampled_distribution. Qed.
Print Assumptions C66_fjc_distribution.

(** Extensible freely jointed, for given sampled link lengths. *)
Theorem C66_efjc_generating : forall lengths k,
  has_average (2 * List.length lengths)
    (fun l => exp (dot k (end_point (fst (efjc_monte_carlo.random_configuration number_tape (List.length lengths) length_tape (lengths, l))))))
    (product (map (fun x => sinhc (x * vlength k)) lengths)).
Proof. exact efjc_exp_average. Qed.
Print Assumptions C66_efjc_generating.

Theorem C66_efjc_square : forall lengths, (0 < List.length lengths)%nat ->
  has_average (2 * List.length lengths)
    (fun l => match efjc_monte_carlo.random_nondimensional_end_to_end_length number_tape (List.length lengths) length_tape (lengths, l) with
              | Some (x, _) => x ^ 2 | None => 0 end)
    (total (map (fun x => x ^ 2) lengths)).
Proof. exact efjc_square_average. Qed.
Print Assumptions C66_efjc_square.

(** Freely rotating: the mean end-to-end vector leans towards the x axis, from which
    the first link is rotated; the mean square length is the textbook one. *)
Theorem C66_frc_mean : forall theta n k,
  has_average (4 * n) (fun l => dot k (end_point (fst (frc_monte_carlo.random_configuration tape n theta (azimuth_first l)))))
    (ahead (cos theta) (repeat 1 n) * dot k x_axis).
Proof. exact frc_mean. Qed.
Print Assumptions C66_frc_mean.

Theorem C66_frc_square : forall theta n, (0 < n)%nat -> cos theta <> 1 ->
  has_average (4 * n) (fun l => match frc_monte_carlo.random_nondimensional_end_to_end_length tape n theta (azimuth_first l) with
                                | Some (x, _) => x ^ 2 | None => 0 end)
    (INR n * (1 + cos theta) / (1 - cos theta) - 2 * cos theta * (1 - cos theta ^ n) / (1 - cos theta) ^ 2).
Proof. exact frc_square_average. Qed.
Print Assumptions C66_frc_square.

(** Extensible freely rotating, for given positive link lengths. *)
Theorem C66_efrc_square : forall theta lengths, (0 < List.length lengths)%nat -> List.Forall (fun x => 0 < x) lengths ->
  has_average (4 * List.length lengths)
    (fun l => match efrc_monte_carlo.random_nondimensional_end_to_end_length number_tape (List.length lengths) theta length_tape (lengths, azimuth_first l) with
              | Some (x, _) => x ^ 2 | None => 0 end)
    (correlated_square (cos theta) lengths).
Proof. exact efrc_square_average. Qed.
Print Assumptions C66_efrc_square.

(** ** Cases that meet the hypotheses *)
Example C66_isotropic_example :
  has_average 2 (fun l => (dot (1, 2, 2) (fst (fjc_monte_carlo.random_link tape l))) ^ 2) 3.
Proof.
  pose proof (C66_fjc_isotropic (fun x => x ^ 2) (fun x => 2 * x) (fun _ => 2) (1, 2, 2)) as H. cbv beta in H.
  replace (vlength (1, 2, 2)) with 3 in H.
  2:{ unfold vlength, dot. replace (1 * 1 + 2 * 2 + 2 * 2) with (3 * 3) by ring. symmetry. apply sqrt_square. lra. }
  assert (V : RInt (fun z => (3 * z) ^ 2) (-1) 1 / 2 = 3).
  2:{ rewrite V in H. apply H; intro x; [auto_derive; [exact I | ring] | auto_derive; [exact I | ring] | apply continuous_const]. }
  { enough (E : RInt (fun z => (3 * z) ^ 2) (-1) 1 = 6) by (rewrite E; field).
    apply (is_RInt_unique (V := R_CompleteNormedModule)).
    assert (D : is_RInt (fun z => (3 * z) ^ 2) (-1) 1 (Hierarchy.minus (3 * 1 ^ 3) (3 * (-1) ^ 3))).
    { apply (is_RInt_derive (V := R_CompleteNormedModule) (fun z => 3 * z ^ 3)).
      - intros z _. auto_derive; [exact I | ring].
      - intros z _. apply (ex_derive_continuous (V := R_NormedModule)). auto_derive. exact I. }
    replace 6 with (Hierarchy.minus (3 * 1 ^ 3) (3 * (-1) ^ 3)); [exact D|]. unfold Hierarchy.minus, plus, opp; cbn. ring. }
Qed.

Example C66_length_example : 0 < vlength (1, 2, 2).
Proof. apply sqrt_lt_R0. unfold dot. lra. Qed.

(** At a right angle, the freely rotating chain has the mean square length of the
    freely jointed chain; for opposite consecutive links it does not grow. *)
Example C66_right_angle : has_average (4 * 10) (fun l =>
  match frc_monte_carlo.random_nondimensional_end_to_end_length tape 10 (PI / 2) (azimuth_first l) with Some (x, _) => x ^ 2 | None => 0 end) 10.
Proof.
  pose proof (C66_frc_square (PI / 2) 10) as H. rewrite cos_PI2 in H.
  assert (V : INR 10 * (1 + 0) / (1 - 0) - 2 * 0 * (1 - 0 ^ 10) / (1 - 0) ^ 2 = 10) by (cbn [INR]; field).
  rewrite V in H. apply H; [lia | lra].
Qed.

Example C66_straight : correlated_square 1 [1; 1; 1] = 9.
Proof. cbn. ring. Qed.
