(** The response of a chain to weak and to strong pulls.

    Under a weak pull every chain is a linear spring: its links are turned towards
    the force against thermal agitation, and the extension per link is a third of
    the mean square length of a link times the force.  Under a strong pull the
    links line up, and the extension tends to the length of the longest link. *)
From Coq Require Import Reals.
From Coquelicot Require Import Coquelicot.
From Verif Require Import SpecPartition.
Open Scope R_scope.

(** At every force x the extension f x is [square] * x / 3 up to a factor cosh (longest * x). *)
Definition linear_within (f : R -> R) (square longest : R) : Prop :=
  forall x, 0 < x -> square * x / 3 / cosh (longest * x) <= f x <= square * x / 3 * cosh (longest * x).

(** Hooke's law: the slope of f at zero force. *)
Definition weak_slope (f : R -> R) (slope : R) : Prop := filterlim (fun x => f x / x) (at_right 0) (locally slope).

(** The extension stays below [longest], and comes as close to it as one likes. *)
Definition saturates (f : R -> R) (longest : R) : Prop :=
  (forall x, 0 < x -> f x < longest) /\ is_lim f p_infty longest.

(** The mean square length of a link with the potential u (in units of kT), for
    lengths at the nodes of the midpoint rule; the area of the sphere that a link of
    length s may point to gives it the weight s^2. *)
Definition mean_square (u : R -> R) (a b : R) (n : nat) : R :=
  midpoint_rule (fun s => s ^ 2 * (s ^ 2 * exp (- u s))) a b n / midpoint_rule (fun s => s ^ 2 * exp (- u s)) a b n.

(** The last node of the midpoint rule. *)
Definition last_node (a b : R) (n : nat) : R := b - (b - a) / INR n / 2.

(** The anharmonic coefficient of a link whose rest length is 1: 1 for a spring,
    smaller for a link that softens as it is stretched. *)
Definition anharmonicity (u : R -> R) : R := / (1 - Derive_n u 3 1 / Derive_n u 2 1 / 2).
