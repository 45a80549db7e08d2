(** C89: the numerical integration keeps the order of its integrands in double precision. *)
From Coq Require Import Reals ZArith List Floats.
From Verif Require Import Scalar F64 MMath SpecDouble PDoubleMono PDoubleMonoExample PDoubleMono2.
Open Scope R_scope.

(** The comparison [x <= y] of doubles, false when one of them is NaN. *)
Definition at_most (x y : float) : Prop := PrimFloat.leb x y = true.

Section Functions.
Variable L : libm.
Definition integrate : (float -> float) -> float -> float -> Z -> float := @math.integrate_1d float (F64 L).
Definition integrate_grid : (float -> float) -> list float -> float -> float := @math.integrate_1d_grid float (F64 L).
Definition integrate_grid_2d : (float -> float -> float) -> list float -> list float -> float -> float := @math.integrate_2d_grid float (F64 L).
Definition integrate_rectangle : (float -> float -> float) -> float -> float -> float -> float -> Z -> float := @math.integrate_2d float (F64 L).
Definition integrate_square : (float -> float -> float) -> float -> float -> Z -> float := @math.integrate_2d_symmetric float (F64 L).
Definition points : float -> float -> Z -> list float := fun a b n => @math.midpoint_grid float (F64 L) a ((b - a) / float_of_Z n)%float n.
End Functions.

(** The function is called only between the limits of integration. *)
Theorem C89_points : forall (L : libm) (a b : float) (n : Z), finite a -> finite b ->
  Rabs (value a) <= powerRZ 2 400 -> Rabs (value b) <= powerRZ 2 400 -> powerRZ 2 (-900) <= value b - value a -> (1 <= n <= 2 ^ 49)%Z ->
  (forall f, integrate L f a b n = integrate_grid L f (points L a b n) ((b - a) / float_of_Z n)%float) /\
  forall x, In x (points L a b n) -> finite x /\ value a <= value x <= value b.
Proof. exact (fun L a b n Fa Fb Ba Bb W N => conj (interval_grid L a b n) (points_between L a b n Fa Fb Ba Bb W N)). Qed.
Print Assumptions C89_points.

(** If [f x <= g x] for the doubles between the limits, the same comparison
    of the two results is true, unless a result overflows. *)
Theorem C89_order : forall (L : libm) (a b : float) (n : Z), finite a -> finite b ->
  Rabs (value a) <= powerRZ 2 400 -> Rabs (value b) <= powerRZ 2 400 -> powerRZ 2 (-900) <= value b - value a -> (1 <= n <= 2 ^ 49)%Z ->
  forall f g : float -> float,
  (forall x, finite x -> value a <= value x <= value b -> at_most (f x) (g x)) ->
  finite (integrate L f a b n) -> finite (integrate L g a b n) -> at_most (integrate L f a b n) (integrate L g a b n).
Proof. exact interval_mono. Qed.
Print Assumptions C89_order.

Theorem C89_sign : forall (L : libm) (a b : float) (n : Z), finite a -> finite b ->
  Rabs (value a) <= powerRZ 2 400 -> Rabs (value b) <= powerRZ 2 400 -> powerRZ 2 (-900) <= value b - value a -> (1 <= n <= 2 ^ 49)%Z ->
  forall f : float -> float,
  (forall x, finite x -> value a <= value x <= value b -> at_most 0 (f x)) ->
  finite (integrate L f a b n) -> at_most 0 (integrate L f a b n).
Proof. exact interval_nonneg. Qed.
Print Assumptions C89_sign.

(** Over any list of points, and over the products of two lists. *)
Theorem C89_grid : forall (L : libm) (f g : float -> float) (grid : list float) (dx : float),
  (forall x, In x grid -> at_most (f x) (g x)) -> at_most 0 dx ->
  finite (integrate_grid L f grid dx) -> finite (integrate_grid L g grid dx) ->
  at_most (integrate_grid L f grid dx) (integrate_grid L g grid dx).
Proof. exact grid_mono. Qed.
Print Assumptions C89_grid.

Theorem C89_grid_2d : forall (L : libm) (f g : float -> float -> float) (grid_x grid_y : list float) (da : float),
  (forall x y, In x grid_x -> In y grid_y -> at_most (f x y) (g x y)) -> at_most 0 da ->
  finite (integrate_grid_2d L f grid_x grid_y da) -> finite (integrate_grid_2d L g grid_x grid_y da) ->
  at_most (integrate_grid_2d L f grid_x grid_y da) (integrate_grid_2d L g grid_x grid_y da).
Proof. exact grid_2d_mono. Qed.
Print Assumptions C89_grid_2d.

(** Over a rectangle and over a square. *)
Definition interval (a b : float) : Prop :=
  finite a /\ finite b /\ Rabs (value a) <= powerRZ 2 400 /\ Rabs (value b) <= powerRZ 2 400 /\ powerRZ 2 (-900) <= value b - value a.

Theorem C89_rectangle : forall (L : libm) (a b c d : float) (n : Z), interval a b -> interval c d -> (1 <= n <= 2 ^ 49)%Z ->
  forall f g : float -> float -> float,
  (forall x y, finite x -> finite y -> value a <= value x <= value b -> value c <= value y <= value d -> at_most (f x y) (g x y)) ->
  finite (integrate_rectangle L f a b c d n) -> finite (integrate_rectangle L g a b c d n) ->
  at_most (integrate_rectangle L f a b c d n) (integrate_rectangle L g a b c d n).
Proof. exact rectangle_mono. Qed.
Print Assumptions C89_rectangle.

Theorem C89_square : forall (L : libm) (a b : float) (n : Z), interval a b -> (1 <= n <= 2 ^ 49)%Z ->
  forall f g : float -> float -> float,
  (forall x y, finite x -> finite y -> value a <= value x <= value b -> value a <= value y <= value b -> at_most (f x y) (g x y)) ->
  finite (integrate_square L f a b n) -> finite (integrate_square L g a b n) ->
  at_most (integrate_square L f a b n) (integrate_square L g a b n).
Proof. exact square_mono. Qed.
Print Assumptions C89_square.

(** The square and the identity from 0 to 1 meet the hypotheses. *)
Example C89_limits : interval zero one.
Proof. exact unit_limits. Qed.
Example C89_below : forall x, finite x -> value zero <= value x <= value one -> at_most (x * x) x.
Proof. exact square_below. Qed.
Example C89_finite : forall L : libm, finite (integrate L (fun x => (x * x)%float) zero one 1000) /\ finite (integrate L (fun x => x) zero one 1000).
Proof. exact example_finite. Qed.
