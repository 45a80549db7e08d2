(** Averages over independent random numbers, uniform in the unit interval. *)
From Coq Require Import Reals List.
From Coquelicot Require Import Coquelicot.
From Verif Require Import MMonteCarlo SpecMonteCarlo.
Import ListNotations.
Open Scope R_scope.

(** A generator that reads its numbers from a list. *)
Definition tape (l : list R) : R * list R :=
  match l with
  | [] => (0, [])
  | x :: rest => (x, rest)
  end.

(** The average of [f] over lists of [n] independent numbers, each uniform in the
    unit interval, exists and is [v]: an iterated Riemann integral.  Finitely many
    values of a number may be left out at each stage: they have probability zero. *)
Fixpoint has_average (n : nat) (f : list R -> R) (v : R) : Prop :=
  match n with
  | O => f [] = v
  | S m => exists (h : R -> R) (exceptions : list R),
      (forall x, 0 < x < 1 -> ~ In x exceptions -> has_average m (fun l => f (x :: l)) (h x)) /\ is_RInt h 0 1 v
  end.

(** Two tapes: one with the link lengths, one with the uniform numbers. *)
Definition length_tape (s : list R * list R) : R * (list R * list R) :=
  let '(x, rest) := tape (fst s) in (x, (rest, snd s)).
Definition number_tape (s : list R * list R) : R * (list R * list R) :=
  let '(x, rest) := tape (snd s) in (x, (fst s, rest)).

(** The end of a chain that starts at the origin. *)
Definition end_point (configuration : list (vec R)) : vec R := last configuration origin.

(** The average of exp(x cos(angle)) over all directions in space. *)
Definition sinhc (x : R) : R := if Req_EM_T x 0 then 1 else sinh x / x.
(** The average of cos(x cos(angle)) over all directions in space. *)
Definition sinc (x : R) : R := if Req_EM_T x 0 then 1 else sin x / x.

Fixpoint product (l : list R) : R := match l with [] => 1 | x :: rest => x * product rest end.

(** The rotating samplers use four numbers for a link: the azimuth and the three
    components of an auxiliary direction.  This function takes them with the
    azimuth last and puts it first, where the program reads it.  (The numbers are
    independent, so the order in which one averages over them is immaterial.) *)
Fixpoint azimuth_first (l : list R) : list R :=
  match l with
  | t0 :: t1 :: t2 :: a :: rest => a :: t0 :: t1 :: t2 :: azimuth_first rest
  | _ => l
  end.

(** [c x1 + c^2 x2 + c^3 x3 + ...] *)
Fixpoint ahead (c : R) (l : list R) : R :=
  match l with [] => 0 | x :: rest => c * (x + ahead c rest) end.

(** The sum over all pairs of links of the product of their lengths and of [c] to
    the power of their distance along the chain. *)
Fixpoint correlated_square (c : R) (l : list R) : R :=
  match l with [] => 0 | x :: rest => x ^ 2 + 2 * x * ahead c rest + correlated_square c rest end.
