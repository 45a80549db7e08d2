(** What is left of the length of a chain under tension when thermal agitation vanishes. *)
From Coq Require Import Reals.
From Verif Require Import SpecThermo.
Open Scope R_scope.

(** Under the force f the chain is shorter than N links of length l lam laid straight, by less
    than kT / f per link, at every temperature. *)
Definition straightens (n l lam f : R) (c : R -> isotensional) : Prop :=
  forall T, 0 < T ->
    l * lam - kB * T / f < I_length_per_link (c T) f < l * lam /\
    n * (l * lam - kB * T / f) < I_length (c T) f < n * (l * lam).

(** The length per link tends to x at vanishing temperature. *)
Definition cools_to (x f : R) (c : R -> isotensional) : Prop :=
  forall eps, 0 < eps -> exists T0, 0 < T0 /\ forall T, 0 < T -> T < T0 -> Rabs (I_length_per_link (c T) f - x) < eps.

(** The force in a Morse link of rest length l, stiffness k and energy e, stretched by the factor
    lam: the derivative of e (1 - exp (- a (lam - 1)))^2 with respect to the length l lam, where
    a = l sqrt (k / (2 e)). *)
Definition morse_bond_force (k e l lam : R) : R :=
  let a := l * sqrt (k / (2 * e)) in
  2 * e * a / l * (exp (- (a * (lam - 1))) * (1 - exp (- (a * (lam - 1))))).
