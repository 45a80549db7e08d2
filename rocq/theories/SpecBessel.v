(** The modified Bessel functions of the first kind, as power series. *)
From Coq Require Import Reals.
From Coquelicot Require Import Coquelicot.
Open Scope R_scope.

(** I0(x) = sum over k of (x^2/4)^k / (k!)^2. *)
Definition is_I0 (x v : R) : Prop :=
  is_series (fun k => (x ^ 2 / 4) ^ k / (INR (fact k) * INR (fact k))) v.

(** I1(x) = x/2 times the sum over k of (x^2/4)^k / (k! (k+1)!). *)
Definition is_I1 (x v : R) : Prop :=
  exists s, is_series (fun k => (x ^ 2 / 4) ^ k / (INR (fact k) * INR (fact (S k)))) s /\ v = x / 2 * s.
