(** The normal distribution, and averages over independent numbers drawn from it. *)
From Coq Require Import Reals List.
From Coquelicot Require Import Coquelicot.
Import ListNotations.
Open Scope R_scope.

Definition normal_density (mean deviation x : R) : R :=
  exp (- ((x - mean) / deviation) ^ 2 / 2) / (deviation * sqrt (2 * PI)).

(** [w] is integrable on every interval and its integral over the real line is [v]. *)
Definition line_integral (w : R -> R) (v : R) : Prop :=
  (forall a b, ex_RInt w a b) /\
  exists below above, is_lim (fun a => RInt w a 0) m_infty (Finite below) /\ is_lim (fun b => RInt w 0 b) p_infty (Finite above) /\ v = below + above.

(** The average of [f] over lists of [n] independent numbers with the given normal
    distribution exists and is [v]: an iterated improper Riemann integral. *)
Fixpoint normal_average (mean deviation : R) (n : nat) (f : list R -> R) (v : R) : Prop :=
  match n with
  | O => f [] = v
  | S m => exists h : R -> R, (forall x, normal_average mean deviation m (fun l => f (x :: l)) (h x)) /\
                              line_integral (fun x => normal_density mean deviation x * h x) v
  end.
