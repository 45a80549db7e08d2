(** The binary64 instance of [Scalar]: Coq's primitive floats for the IEEE
    operations, and a record of arbitrary functions for the platform's
    mathematical library (whose results are not specified by IEEE 754). *)
From Coq Require Import ZArith Bool Floats Uint63.
From Verif Require Import Scalar.

(** The functions of libm, about which nothing is assumed. *)
Record libm := {
  l_powf : float -> float -> float;
  l_exp : float -> float;
  l_ln : float -> float;
  l_log10 : float -> float;
  l_sinh : float -> float;
  l_cosh : float -> float;
  l_tanh : float -> float;
  l_sin : float -> float;
  l_cos : float -> float;
  l_acos : float -> float;
  l_atanh : float -> float;
  l_ceil : float -> float;
  l_pi : float;
  l_cast : Z -> float -> Z
}.

(** An integer as an unrounded number. *)
Definition exact (z : Z) : spec_float :=
  match z with
  | Z0 => S754_zero false
  | Zpos p => S754_finite false p 0
  | Zneg p => S754_finite true p 0
  end.

(** The nearest binary64 number to an integer. *)
Definition float_of_Z (z : Z) : float := SF2Prim (binary_normalize prec emax z 0 false).

(** [f64::powi]: repeated multiplication (the compiler may associate the
    product differently, and divides for a negative exponent). *)
Definition float_powi (x : float) (n : Z) : float :=
  match n with
  | Z0 => one
  | Zpos p => Pos.iter_op PrimFloat.mul p x
  | Zneg p => PrimFloat.div one (Pos.iter_op PrimFloat.mul p x)
  end.

(** A literal m * 10^-k: the quotient of two exact integers, rounded once. *)
Definition float_dec (m : Z) (k : N) : float :=
  SF2Prim (SFdiv prec emax (exact m) (exact (10 ^ Z.of_N k))).

Definition F64 (L : libm) : Scalar float := {|
  sadd := PrimFloat.add;
  ssub := PrimFloat.sub;
  smul := PrimFloat.mul;
  sdiv := PrimFloat.div;
  sneg := PrimFloat.opp;
  sabs := PrimFloat.abs;
  spowi := float_powi;
  spowf := l_powf L;
  sexp := l_exp L;
  sln := l_ln L;
  slog10 := l_log10 L;
  ssinh := l_sinh L;
  scosh := l_cosh L;
  stanh := l_tanh L;
  ssin := l_sin L;
  scos := l_cos L;
  sacos := l_acos L;
  satanh := l_atanh L;
  ssqrt := PrimFloat.sqrt;
  sceil := l_ceil L;
  spi := l_pi L;
  sdec := float_dec;
  sofZ := float_of_Z;
  scast := l_cast L;
  slt := PrimFloat.ltb;
  sle := PrimFloat.leb |}.
