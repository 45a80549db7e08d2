(** Integrals over the half line, and the error function. *)
From Coq Require Import Reals.
From Coquelicot Require Import Coquelicot.
Open Scope R_scope.

(** [w] is integrable on every [0, x] and its integral over [0, oo) is [v]. *)
Definition half_line_integral (w : R -> R) (v : R) : Prop :=
  (forall x, 0 < x -> ex_RInt w 0 x) /\ is_lim (fun x => RInt w 0 x) p_infty v.

(** erf(x) = 2/sqrt(pi) times the integral of exp(-t^2) over [0, x]. *)
Definition Erf (x : R) : R := 2 / sqrt PI * RInt (fun t => exp (- t ^ 2)) 0 x.
