(** The complementary error function, independently of the model: an improper
    integral. *)
From Coq Require Import Reals.
From Coquelicot Require Import Coquelicot.
Open Scope R_scope.

(** [v] is the integral of exp(-t^2) over t from [x] to infinity. *)
Definition gauss_tail (x v : R) : Prop :=
  is_lim (fun b => RInt (fun t => exp (- t ^ 2)) x b) p_infty v.

(** [e] is erfc(x) = 2/sqrt(pi) times that integral. *)
Definition is_erfc (x e : R) : Prop :=
  exists v, gauss_tail x v /\ e = 2 / sqrt PI * v.
