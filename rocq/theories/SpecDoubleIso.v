(** What the isometric functions of the FJC assume about the rounding and the powers of small integers. *)
From Coq Require Import Reals ZArith List Floats.
From Verif Require Import Scalar F64 SpecDouble.
Import ListNotations.
Open Scope R_scope.

(** On doubles from 0 to 255 the platform rounds up, converts to integers and computes the
    powers of minus one exactly. *)
Definition exact_integers (L : libm) : Prop :=
  (forall x, finite x -> 0 <= value x <= 255 -> exists z : Z, IZR z - 1 < value x <= IZR z /\ l_ceil L x = float_of_Z z) /\
  (forall z, (0 <= z <= 255)%Z -> l_cast L U128_MAX (float_of_Z z) = z) /\
  (forall z, (0 <= z <= 255)%Z -> l_powf L (-1)%float (float_of_Z z) = if Z.even z then 1%float else (-1)%float).

(** The constant pi, to half a unit in the last place. *)
Definition nearest_pi (L : libm) : Prop := finite (l_pi L) /\ Rabs (value (l_pi L) - PI) <= unit_roundoff * PI.
