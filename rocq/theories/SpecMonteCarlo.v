(** What a Monte Carlo configuration and a histogram should be. *)
From Coq Require Import Reals ZArith List.
From Verif Require Import Scalar MMonteCarlo.
Import ListNotations.
Open Scope R_scope.

(** ** Vectors *)
Definition dot (u v : vec R) : R :=
  let '(u0, u1, u2) := u in let '(v0, v1, v2) := v in u0 * v0 + u1 * v1 + u2 * v2.
Definition vlength (u : vec R) : R := sqrt (dot u u).
Definition minus (u v : vec R) : vec R :=
  let '(u0, u1, u2) := u in let '(v0, v1, v2) := v in (u0 - v0, u1 - v1, u2 - v2).
Definition scaled (c : R) (u : vec R) : vec R := let '(u0, u1, u2) := u in (c * u0, c * u1, c * u2).
Definition origin : vec R := (0, 0, 0).
Definition x_axis : vec R := (1, 0, 0).

(** The link vectors of a configuration (the positions of the link ends, the
    chain starting at [p]). *)
Fixpoint links (p : vec R) (configuration : list (vec R)) : list (vec R) :=
  match configuration with
  | [] => []
  | q :: rest => minus q p :: links q rest
  end.

(** The point of the unit sphere at height [1 - 2 b] and azimuth [2 PI a]: uniform
    on the sphere when [a] and [b] are uniform. *)
Definition sphere_point (a b : R) : vec R :=
  let z := 1 - 2 * b in
  (sqrt (1 - z ^ 2) * cos (2 * PI * a), sqrt (1 - z ^ 2) * sin (2 * PI * a), z).

(** ** Random streams *)
Section Streams.
Context {G : Type}.

(** [n] successive results of a procedure that advances the generator. *)
Fixpoint draws {A : Type} (d : G -> A * G) (n : nat) (g : G) : list A :=
  match n with
  | O => []
  | S m => fst (d g) :: draws d m (snd (d g))
  end.

(** Two numbers, in order. *)
Definition two (gen : G -> R * G) (g : G) : (R * R) * G :=
  ((fst (gen g), fst (gen (snd (gen g)))), snd (gen (snd (gen g)))).

(** A link length followed by two numbers. *)
Definition one_two (dist gen : G -> R * G) (g : G) : (R * (R * R)) * G :=
  ((fst (dist g), fst (two gen (snd (dist g)))), snd (two gen (snd (dist g)))).

(** All numbers in the unit interval. *)
Definition unit_interval (gen : G -> R * G) : Prop := forall g, 0 <= fst (gen g) < 1.

(** Two vectors that are not parallel. *)
Definition independent (u v : vec R) : Prop :=
  dot u u * dot v v - dot u v ^ 2 <> 0.

(** The three numbers that follow the first one. *)
Definition auxiliary (gen : G -> R * G) (g : G) : vec R :=
  let g1 := snd (gen g) in let g2 := snd (gen g1) in let g3 := snd (gen g2) in
  (fst (gen g1), fst (gen g2), fst (gen g3)).

(** Along the walk, the auxiliary direction is never parallel to the current
    link (when it is, the program divides zero by zero). *)
Fixpoint never_parallel (gen : G -> R * G) (theta : R) (n : nat) (r : vec R) (g : G) : Prop :=
  match n with
  | O => True
  | S m =>
      independent r (auxiliary gen g) /\
      never_parallel gen theta m (fst (frc_monte_carlo.random_link gen theta r g))
                                 (snd (frc_monte_carlo.random_link gen theta r g))
  end.

(** The same for the extensible sampler, which first draws the link length; that
    length must not be zero. *)
Fixpoint never_parallel_extensible (gen dist : G -> R * G) (theta : R) (n : nat) (r : vec R) (g : G) : Prop :=
  match n with
  | O => True
  | S m =>
      fst (dist g) <> 0 /\ independent r (auxiliary gen (snd (dist g))) /\
      never_parallel_extensible gen dist theta m (fst (efrc_monte_carlo.random_link gen theta dist r g))
                                                 (snd (efrc_monte_carlo.random_link gen theta dist r g))
  end.
End Streams.

(** ** Histograms *)

(** How many of the samples satisfy a condition. *)
Fixpoint how_many (P : R -> Prop) (dec : forall x, {P x} + {~ P x}) (l : list R) : Z :=
  match l with
  | [] => 0
  | x :: rest => (if dec x then 1 else 0) + how_many P dec rest
  end.

Definition in_interval (a b x : R) : Prop := a <= x < b.
Definition in_interval_dec (a b x : R) : {in_interval a b x} + {~ in_interval a b x}.
Proof.
  destruct (Rle_dec a x); [destruct (Rlt_dec x b)|]; [left | right | right]; unfold in_interval; tauto.
Defined.

(** The samples drawn, each divided by the number of links; [None] if a draw panics. *)
Fixpoint normalised_samples {G : Type} (draw : G -> option (R * G)) (number_of_links : R) (n : nat) (g : G)
    : option (list R) :=
  match n with
  | O => Some []
  | S m =>
      match draw g with
      | None => None
      | Some (x, g') =>
          match normalised_samples draw number_of_links m g' with
          | None => None
          | Some l => Some (x / number_of_links :: l)
          end
      end
  end.

Fixpoint total (l : list R) : R := match l with [] => 0 | x :: rest => x + total rest end.

(** A link length, a number and the auxiliary direction, in order. *)
Definition one_four {G : Type} (dist gen : G -> R * G) (g : G) : (R * R * vec R) * G :=
  let g0 := snd (dist g) in let g1 := snd (gen g0) in let g2 := snd (gen g1) in let g3 := snd (gen g2) in
  ((fst (dist g), fst (gen g0), auxiliary gen g0), snd (gen g3)).

(** The fraction of the samples in each of [number_of_bins] bins of width [w], as a density. *)
Definition densities (w : R) (number_of_bins : nat) (samples : list R) : list R :=
  map (fun i => IZR (how_many (in_interval (w * INR i) (w * INR (S i))) (in_interval_dec _ _) samples)
                / (INR (length samples) * w)) (seq 0 number_of_bins).

Definition centres (w : R) (number_of_bins : nat) : list R :=
  map (fun i => (w * INR i + w * INR (S i)) / 2) (seq 0 number_of_bins).

(** The generator states at which the samples start. *)
Fixpoint sample_states {G : Type} (draw : G -> option (R * G)) (n : nat) (g : G) : list G :=
  match n with
  | O => []
  | S m => g :: match draw g with Some (_, g') => sample_states draw m g' | None => [] end
  end.

(** A stream for which the freely rotating chain zigzags: the directions alternate
    between the x axis and its rotation by theta in the plane. *)
Definition zigzag (g : nat) : R * nat :=
  match g with
  | 0%nat => (0, 1%nat) | 1%nat => (0, 2%nat) | 2%nat => (0, 3%nat) | 3%nat => (1 / 2, 4%nat)
  | 4%nat => (1 / 2, 5%nat) | 5%nat => (0, 6%nat) | 6%nat => (0, 7%nat) | _ => (1 / 2, 0%nat)
  end.

(** [h] is the histogram of the samples over [nb] bins of the interval from 0 to
    [limit], or a panic if a sample is beyond the limit. *)
Definition is_histogram (limit : R) (nb : nat) (samples : list R) (h : option (list R * list R)) : Prop :=
  ((forall x, In x samples -> x <= limit) ->
     h = Some (centres (limit / INR nb) nb, densities (limit / INR nb) nb samples)) /\
  ((exists x, In x samples /\ limit < x) -> h = None).
