(** The Langevin function. *)
From Coq Require Import Reals.
Open Scope R_scope.

Definition langevin (x : R) : R := cosh x / sinh x - 1 / x.
