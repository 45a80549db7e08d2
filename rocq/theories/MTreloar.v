(** Model of the Treloar sums of /repo/src/physics/single_chain/fjc/thermodynamics/mod.rs. *)
From Coq Require Import ZArith List Bool.
From Verif Require Import Scalar.
Import ListNotations.

Module fjc_thermodynamics.
Section Model.
Context {T : Type} {Sc : Scalar T}.
Local Open Scope scalar_scope.

(* [(1..=n).product::<u128>()]: a left fold of checked (Debug) or wrapping
   (Release) multiplications starting from 1. *)
Definition product_u128 (prof : profile) (n : Z) : option Z :=
  fold_left (fun acc i => let! a := acc in wrap prof U128_MAX (a * i)) (zrange 1 (n + 1)) (Some 1%Z).

(* [n.pow(e)] on u128: it panics (Debug) or wraps (Release) exactly when the
   mathematical power is out of range. *)
Definition pow_u128 (prof : profile) (n e : Z) : option Z :=
  wrap prof U128_MAX (n ^ e).

(* The largest number of u128 elements a Vec can hold (isize::MAX bytes). *)
Definition VEC_U128_MAX : Z := (2 ^ 63 - 1) / 16.

(* [(0..=last).collect::<Vec::<u128>>()]: collecting more than a Vec can hold
   panics with "capacity overflow" (reached in Release when k = 0 and k-1 wraps). *)
Definition collect_u128 (last : Z) : option (list Z) :=
  if (last <? VEC_U128_MAX)%Z then Some (zrange 0 (last + 1)) else None.

(* The binomial coefficient of lines 64 and 74:
   [((1..=n).product::<u128>()/(1..=*s).product::<u128>()/(1..=n-s).product::<u128>())] *)
Definition binomial_u128 (prof : profile) (n s : Z) : option Z :=
  let! a := product_u128 prof n in
  let! b := product_u128 prof s in
  let! q := checked_div a b in
  let! d := wrap prof U128_MAX (n - s) in
  let! c := product_u128 prof d in
  checked_div q c.

(* The summand of lines 64 and 74, with [e] the exponent ([p - order] or [p]). *)
Definition treloar_term (prof : profile) (n : Z) (number_of_links_f64 m : T) (e : Z) (s : Z) : option T :=
  let! b := binomial_u128 prof n s in
  Some (spowf (- sdec 1 0) (sofZ s) * sofZ b * spowi (m - sofZ s / number_of_links_f64) e).

(* The inner sum of lines 64 and 74 over [0..=k-1]. *)
Definition treloar_sum (prof : profile) (n : Z) (number_of_links_f64 m : T) (k e : Z) : option T :=
  let! last := wrap prof U128_MAX (k - 1) in
  let! ss := collect_u128 last in
  let! terms := mapM (treloar_term prof n number_of_links_f64 m e) ss in
  Some (ssum terms).

(* /repo/src/physics/single_chain/fjc/thermodynamics/mod.rs:57-65 *)
Definition treloar_sums (prof : profile) (number_of_links : Z)
    (nondimensional_end_to_end_length_per_link : T) (orders : list Z) : option (list T) :=
  let number_of_links_f64 := sofZ number_of_links in
  let n := number_of_links in
  let! p := wrap prof U8_MAX (number_of_links - 2) in
  let m := - nondimensional_end_to_end_length_per_link * sdec 5 1 + sdec 5 1 in
  let k := scast U128_MAX (sceil (number_of_links_f64 * m)) in
  mapM (fun order => treloar_sum prof n number_of_links_f64 m k (p - order)%Z) orders.

(* /repo/src/physics/single_chain/fjc/thermodynamics/mod.rs:67-75 *)
Definition treloar_sum_0_with_prefactor (prof : profile) (number_of_links : Z)
    (nondimensional_end_to_end_length_per_link : T) : option T :=
  let number_of_links_f64 := sofZ number_of_links in
  let n := number_of_links in
  let! p := wrap prof U8_MAX (number_of_links - 2) in
  let m := - nondimensional_end_to_end_length_per_link * sdec 5 1 + sdec 5 1 in
  let k := scast U128_MAX (sceil (number_of_links_f64 * m)) in
  let! nn := pow_u128 prof n n in
  let! n2 := wrap prof U128_MAX (n - 2) in
  let! n2f := product_u128 prof n2 in
  let! sum := treloar_sum prof n number_of_links_f64 m k p in
  Some (sdec 125 3 / spi / nondimensional_end_to_end_length_per_link * sofZ nn / sofZ n2f * sum).

End Model.
End fjc_thermodynamics.
