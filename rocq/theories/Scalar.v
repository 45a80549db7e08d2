(** Scalars: the operations of Rust's [f64] that the crate uses, as a record of
    operations with no laws.  Every model function is written over an arbitrary
    [Scalar T]; [R_scalar] is the instance over Coq's real numbers. *)
From Coq Require Import Reals ZArith List Bool.
Import ListNotations.

Class Scalar (T : Type) := {
  sadd : T -> T -> T;
  ssub : T -> T -> T;
  smul : T -> T -> T;
  sdiv : T -> T -> T;
  sneg : T -> T;
  sabs : T -> T;              (* f64::abs *)
  spowi : T -> Z -> T;        (* f64::powi, exponent an i32 *)
  spowf : T -> T -> T;        (* f64::powf *)
  sexp : T -> T;
  sln : T -> T;
  slog10 : T -> T;
  ssinh : T -> T;
  scosh : T -> T;
  stanh : T -> T;
  ssin : T -> T;
  scos : T -> T;
  sacos : T -> T;
  satanh : T -> T;
  ssqrt : T -> T;
  sceil : T -> T;
  spi : T;                    (* std::f64::consts::PI *)
  sdec : Z -> N -> T;         (* the literal m * 10^-k *)
  sofZ : Z -> T;              (* integer as f64 *)
  scast : Z -> T -> Z;        (* float as unsigned integer with maximum hi: truncating, saturating; NaN gives 0 *)
  slt : T -> T -> bool;       (* a < b, false when unordered *)
  sle : T -> T -> bool        (* a <= b, false when unordered *)
}.

Declare Scope scalar_scope.
Delimit Scope scalar_scope with S.
Notation "a + b" := (sadd a b) : scalar_scope.
Notation "a - b" := (ssub a b) : scalar_scope.
Notation "a * b" := (smul a b) : scalar_scope.
Notation "a / b" := (sdiv a b) : scalar_scope.
Notation "- a" := (sneg a) : scalar_scope.
Notation "a <? b" := (slt a b) : scalar_scope.
Notation "a <=? b" := (sle a b) : scalar_scope.

(** Panics are [None]. *)
Definition bind {A B : Type} (x : option A) (f : A -> option B) : option B :=
  match x with Some a => f a | None => None end.
Notation "'let!' x := e1 'in' e2" := (bind e1 (fun x => e2))
  (at level 200, x name, e1 at level 100, e2 at level 200, right associativity).

Fixpoint mapM {A B : Type} (f : A -> option B) (l : list A) : option (list B) :=
  match l with
  | [] => Some []
  | a :: l' => let! b := f a in let! bs := mapM f l' in Some (b :: bs)
  end.

(** The half-open integer range [a..b] of Rust. *)
Definition zrange (a b : Z) : list Z :=
  map (fun i => (a + Z.of_nat i)%Z) (seq 0 (Z.to_nat (b - a))).

(** [Iterator::sum::<f64>()]: left fold from zero.  (Rust starts from 0.0, or
    from -0.0 in recent releases; the two differ only in the sign of a zero.) *)
Definition ssum {T : Type} {Sc : Scalar T} (l : list T) : T :=
  fold_left sadd l (sofZ 0).

(** ** Unsigned machine integers

    With overflow checks (the [dev]/[test] profiles) an overflow panics, without
    them (the [release] profile) it wraps. *)
Inductive profile := Debug | Release.

Definition U8_MAX : Z := 2 ^ 8 - 1.
Definition U128_MAX : Z := 2 ^ 128 - 1.

(** Result of an operation on an unsigned type with maximum value [hi]. *)
Definition wrap (prof : profile) (hi : Z) (r : Z) : option Z :=
  if ((0 <=? r) && (r <=? hi))%Z then Some r
  else match prof with Debug => None | Release => Some (r mod (hi + 1))%Z end.

(** Integer division panics on a zero divisor in every profile. *)
Definition checked_div (a b : Z) : option Z :=
  if (b =? 0)%Z then None else Some (a / b)%Z.

(** ** The real instance *)
Open Scope R_scope.

(** f64::powf: a negative base is meaningful only with an integral exponent. *)
Definition Rpowf (x y : R) : R :=
  if Rlt_dec 0 x then Rpower x y
  else if Req_EM_T (IZR (Int_part y)) y then powerRZ x (Int_part y)
  else 0.

Definition Rdec (m : Z) (k : N) : R :=
  match k with
  | N0 => IZR m
  | Npos p => IZR m / IZR (Z.pow_pos 10 p)
  end.

Definition Rceil (x : R) : R := - IZR (Int_part (- x)).

(** [x as u8]/[x as u128] for a real [x]: truncate towards zero and saturate. *)
Definition Rcast (hi : Z) (x : R) : Z := Z.max 0 (Z.min hi (Int_part x)).

Definition Rltb (x y : R) : bool := if Rlt_dec x y then true else false.
Definition Rleb (x y : R) : bool := if Rle_dec x y then true else false.

Definition Ratanh (x : R) : R := ln ((1 + x) / (1 - x)) / 2.

#[export] Instance R_scalar : Scalar R := {
  sadd := Rplus;
  ssub := Rminus;
  smul := Rmult;
  sdiv := Rdiv;
  sneg := Ropp;
  sabs := Rabs;
  spowi := powerRZ;
  spowf := Rpowf;
  sexp := exp;
  sln := ln;
  slog10 := fun x => ln x / ln 10;
  ssinh := sinh;
  scosh := cosh;
  stanh := tanh;
  ssin := sin;
  scos := cos;
  sacos := acos;
  satanh := Ratanh;
  ssqrt := sqrt;
  sceil := Rceil;
  spi := PI;
  sdec := Rdec;
  sofZ := IZR;
  scast := Rcast;
  slt := Rltb;
  sle := Rleb
}.
