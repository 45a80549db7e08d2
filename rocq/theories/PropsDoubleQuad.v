(** The numerical integration in double precision (C65). *)
From Coq Require Import Reals ZArith List Lra.
From Coquelicot Require Import Coquelicot.
From Coq Require Import Floats.
From Verif Require Import Scalar F64 MMath SpecDouble PDoubleFjc PDoubleQuad PDoubleQuadExample.
Open Scope R_scope.

(** Adding any number of doubles. *)
Theorem C65_sum : forall (L : libm) (l : list float), List.Forall finite l ->
  (1 + unit_roundoff) ^ length l * total (map (fun x => Rabs (value x)) l) <= powerRZ 2 1023 ->
  finite (@ssum float (F64 L) l) /\
  Rabs (value (@ssum float (F64 L) l) - total (map value l))
    <= ((1 + unit_roundoff) ^ length l - 1) * total (map (fun x => Rabs (value x)) l).
Proof. exact sum_error. Qed.
Print Assumptions C65_sum.

(** Integrating over given points, *)
Theorem C65_grid : forall (L : libm) (f : float -> float) (grid : list float) (dx : float),
  List.Forall finite (map f grid) -> finite dx ->
  (1 + unit_roundoff) ^ length (map f grid) * total (map (fun x => Rabs (value x)) (map f grid)) <= powerRZ 2 500 ->
  Rabs (value dx) <= powerRZ 2 500 ->
  finite (@math.integrate_1d_grid float (F64 L) f grid dx) /\
  Rabs (value (@math.integrate_1d_grid float (F64 L) f grid dx) - total (map value (map f grid)) * value dx)
    <= ((1 + unit_roundoff) ^ (length (map f grid) + 1) - 1) * total (map (fun x => Rabs (value x)) (map f grid)) * Rabs (value dx)
       + powerRZ 2 (-1075).
Proof. exact (fun L f grid => grid_error L (map f grid)). Qed.
Print Assumptions C65_grid.

(** in two dimensions. *)
Theorem C65_grid_2d : forall (L : libm) (f : float -> float -> float) (grid_x grid_y : list float) (da : float),
  let values := flat_map (fun x => map (fun y => f x y) grid_y) grid_x in
  List.Forall finite values -> finite da ->
  (1 + unit_roundoff) ^ length values * total (map (fun x => Rabs (value x)) values) <= powerRZ 2 500 ->
  Rabs (value da) <= powerRZ 2 500 ->
  finite (@math.integrate_2d_grid float (F64 L) f grid_x grid_y da) /\
  Rabs (value (@math.integrate_2d_grid float (F64 L) f grid_x grid_y da) - total (map value values) * value da)
    <= ((1 + unit_roundoff) ^ (length values + 1) - 1) * total (map (fun x => Rabs (value x)) values) * Rabs (value da)
       + powerRZ 2 (-1075).
Proof. exact (fun L f gx gy => grid_error L (flat_map (fun x => map (fun y => f x y) gy) gx)). Qed.
Print Assumptions C65_grid_2d.

(** Integrating over an interval: the roundings of the points, of the function
    values, of their sum and of the product, for any number of points. *)
Theorem C65_midpoint : forall (L : libm) (a b : float) (n : Z), finite a -> finite b ->
  Rabs (value a) <= powerRZ 2 400 -> Rabs (value b) <= powerRZ 2 400 ->
  powerRZ 2 (-900) <= Rabs (value b - value a) -> (1 <= n <= 2 ^ 50)%Z ->
  forall (f : float -> float) (g : R -> R) B eps,
  computes f g (value a) (value b) (7 * unit_roundoff * (Rabs (value a) + Rabs (value b))) eps ->
  (forall y, Rmin (value a) (value b) <= y <= Rmax (value a) (value b) -> Rabs (g y) <= B) ->
  B + eps <= powerRZ 2 400 ->
  finite (@math.integrate_1d float (F64 L) f a b n) /\
  Rabs (value (@math.integrate_1d float (F64 L) f a b n) - @math.integrate_1d R R_scalar g (value a) (value b) n)
    <= Rabs (value b - value a) * (eps + (2 * IZR n + 8) * unit_roundoff * (B + eps)) + powerRZ 2 (-1075).
Proof. exact quadrature_error. Qed.
Print Assumptions C65_midpoint.

(** and so the distance to the integral. *)
Theorem C65_integral : forall (L : libm) (a b : float) (n : Z), finite a -> finite b ->
  Rabs (value a) <= powerRZ 2 400 -> Rabs (value b) <= powerRZ 2 400 ->
  powerRZ 2 (-900) <= value b - value a -> (1 <= n <= 2 ^ 50)%Z ->
  forall (f : float -> float) (g g1 g2 : R -> R) B eps M,
  computes f g (value a) (value b) (7 * unit_roundoff * (Rabs (value a) + Rabs (value b))) eps ->
  (forall y, value a <= y <= value b -> Rabs (g y) <= B /\ is_derive g y (g1 y) /\ is_derive g1 y (g2 y) /\ Rabs (g2 y) <= M) ->
  B + eps <= powerRZ 2 400 ->
  finite (@math.integrate_1d float (F64 L) f a b n) /\
  Rabs (value (@math.integrate_1d float (F64 L) f a b n) - RInt g (value a) (value b))
    <= (value b - value a) ^ 3 * M / (24 * IZR n ^ 2)
       + ((value b - value a) * (eps + (2 * IZR n + 8) * unit_roundoff * (B + eps)) + powerRZ 2 (-1075)).
Proof. exact integral_error. Qed.
Print Assumptions C65_integral.

(** The function that squares its argument meets the hypotheses from 0 to 1. *)
Example C65_square : computes (fun x => (x * x)%float) (fun y => y * y) (value zero) (value one)
  (7 * unit_roundoff * (Rabs (value zero) + Rabs (value one))) (/ 2 ^ 48).
Proof. exact square_computes. Qed.
Example C65_square_integral : forall L : libm,
  Rabs (value (@math.integrate_1d float (F64 L) (fun x => (x * x)%float) zero one 1000) - RInt (fun y => y * y) 0 1) <= / 10000000.
Proof. exact square_integral. Qed.
