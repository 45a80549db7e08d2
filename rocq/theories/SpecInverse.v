(** What it means for a function to have been inverted by at most one hundred
    Newton steps with the relative tolerance 1e-6. *)
From Coq Require Import Reals.
From Coquelicot Require Import Coquelicot.
From Verif Require Import Scalar MMath SpecThermo.
Open Scope R_scope.

(** The estimate after k steps of x <- x + (y - F x) / (damping * fp x). *)
Fixpoint estimate (F fp : R -> R) (damping y guess : R) (k : nat) : R :=
  match k with
  | O => guess
  | S j => let x := estimate F fp damping y guess j in x + (y - F x) / (damping * fp x)
  end.

(** [result] is one of these estimates; if the cap of one hundred steps was not
    reached, the estimate before the last step had a relative residual of at most 1e-6. *)
Definition inverted (F fp : R -> R) (damping y guess result : R) : Prop :=
  exists k : nat, result = estimate F fp damping y guess k /\ (k <= 100)%nat /\
    ((k < 100)%nat -> exists j, k = S j /\ Rabs ((y - F (estimate F fp damping y guess j)) / y) <= 1 / 10 ^ 6).

(** The same with the derivative of F on [domain] in the role of fp. *)
Definition inverted_by_newton (F : R -> R) (domain : R -> Prop) (damping y guess result : R) : Prop :=
  exists fp, (forall x, domain x -> is_derive F x (fp x)) /\ inverted F fp damping y guess result.

(** The first guess of the solvers for links that break: the inverse Langevin
    function below full extension, and never beyond 95% of the largest link force m. *)
Definition capped_guess (y m : R) : R :=
  let g := if Rlt_dec y 1 then math.inverse_langevin y else 95 / 100 * m in
  if Rlt_dec m g then 95 / 100 * m else g.

(** (h(x + 1e-6) - h(x - 1e-6)) / 2e-6 *)
Definition central_difference (h : R -> R) (x : R) : R := (h (x + 1 / 1000000) - h (x - 1 / 1000000)) / (2 / 1000000).

(** The slope of the stretch of a log-squared link in terms of the Lambert function W. *)
Definition log_squared_slope (kap : R) (W : R -> R) (x : R) : R := kap / x ^ 2 * W x ^ 2 / (W x + 1).

(** The momentum factor ln (8 pi^2 m l^2 kT / h^2) of a hinge, and the
    configurational factor 1/2 ln (2 pi l^2 / kap) of a stiff link. *)
Definition hinge_term (l m T : R) : R := ln (8 * PI ^ 2 * m * l ^ 2 * kB * T / hP ^ 2).
Definition link_term (kap l : R) : R := 5 / 10 * ln (2 * PI * l ^ 2 / kap).
