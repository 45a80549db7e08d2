(** Model of /repo/src/math/mod.rs, function by function. *)
From Coq Require Import ZArith List Bool.
From Verif Require Import Scalar MErfcx.
Import ListNotations.

Module math.
Section Model.
Context {T : Type} {Sc : Scalar T}.
Local Open Scope scalar_scope.

(** ** Root finding *)

(* /repo/src/math/mod.rs:8-15, the [while] loop of inverse_newton_raphson_powered.
   [fuel] is max_iters - iters, so [&iters < max_iters] is [fuel <> 0].  The
   result is the final x together with the number of iterations performed (the
   latter is [iters], which Rust discards) and the final residual_rel. *)
Fixpoint newton_powered_loop (y : T) (f fp : T -> T) (rel_tol : T) (power : Z)
    (fuel : nat) (iters : Z) (x residual_rel : T) : T * Z * T :=
  match fuel with
  | O => (x, iters, residual_rel)
  | S fuel' =>
      if rel_tol <? residual_rel then
        let f_adj := f x - y in
        let y_minus_f := - (spowi f_adj power) in
        let x' := x + y_minus_f / spowi f_adj (power - 1) / fp x / sofZ power in
        newton_powered_loop y f fp rel_tol power fuel' (iters + 1) x' (sabs (f_adj / y))
      else (x, iters, residual_rel)
  end.

(* /repo/src/math/mod.rs:1-17 *)
Definition inverse_newton_raphson_powered (y : T) (f fp : T -> T) (guess rel_tol : T)
    (max_iters : Z) (power : Z) : T :=
  fst (fst (newton_powered_loop y f fp rel_tol power (Z.to_nat max_iters) 0 guess (sdec 1 0))).

(* /repo/src/math/mod.rs:25-31, the [while] loop of inverse_newton_raphson. *)
Fixpoint newton_loop (y : T) (f fp : T -> T) (rel_tol : T)
    (fuel : nat) (iters : Z) (x residual_rel : T) : T * Z * T :=
  match fuel with
  | O => (x, iters, residual_rel)
  | S fuel' =>
      if rel_tol <? residual_rel then
        let y_minus_f := y - f x in
        let x' := x + y_minus_f / fp x in
        newton_loop y f fp rel_tol fuel' (iters + 1) x' (sabs (y_minus_f / y))
      else (x, iters, residual_rel)
  end.

(* /repo/src/math/mod.rs:19-33 *)
Definition inverse_newton_raphson (y : T) (f fp : T -> T) (guess rel_tol : T)
    (max_iters : Z) : T :=
  fst (fst (newton_loop y f fp rel_tol (Z.to_nat max_iters) 0 guess (sdec 1 0))).

(* /repo/src/math/mod.rs:43, the first closure *)
Definition langevin_f (x : T) : T := sdec 1 0 / stanh x - sdec 1 0 / x.

(* /repo/src/math/mod.rs:43, the second closure *)
Definition langevin_fp (x : T) : T := sdec 1 0 / spowi x 2 - sdec 1 0 / spowi (ssinh x) 2.

(* /repo/src/math/mod.rs:43, the initial guess *)
Definition langevin_guess (y : T) : T :=
  (sdec 214234 5 * spowi y 3 - sdec 422785 5 * spowi y 2 + sdec 3 0 * y) / (sdec 1 0 - y)
  / (sdec 71716 5 * spowi y 3 - sdec 41103 5 * spowi y 2 - sdec 39165 5 * y + sdec 1 0).

(* /repo/src/math/mod.rs:35-45 *)
Definition inverse_langevin (y : T) : T :=
  if y <=? sdec 1 3 then sdec 3 0 * y
  else inverse_newton_raphson y langevin_f langevin_fp (langevin_guess y) (sdec 1 6) 100.

(** ** Quadrature *)

(* /repo/src/math/mod.rs:50, the argument handed to f at [index] *)
Definition midpoint (x_min dx : T) (index : Z) : T := x_min + (sdec 5 1 + sofZ index) * dx.

(* /repo/src/math/mod.rs:47-51; num_points is a u128 *)
Definition integrate_1d (f : T -> T) (x_min x_max : T) (num_points : Z) : T :=
  let dx := (x_max - x_min) / sofZ num_points in
  ssum (map (fun index => f (midpoint x_min dx index)) (zrange 0 num_points)) * dx.

(* The same function for an integrand that may panic: the panic propagates. *)
Definition integrate_1d_m (f : T -> option T) (x_min x_max : T) (num_points : Z) : option T :=
  let dx := (x_max - x_min) / sofZ num_points in
  let! values := mapM (fun index => f (midpoint x_min dx index)) (zrange 0 num_points) in
  Some (ssum values * dx).

(* /repo/src/math/mod.rs:53-56 *)
Definition integrate_1d_grid (f : T -> T) (grid : list T) (dx : T) : T :=
  ssum (map f grid) * dx.

(* /repo/src/math/mod.rs:62, 63, 70: a generated midpoint grid *)
Definition midpoint_grid (x_min dx : T) (num_points : Z) : list T :=
  map (fun index => midpoint x_min dx index) (zrange 0 num_points).

(* /repo/src/math/mod.rs:58-65 *)
Definition integrate_2d (f : T -> T -> T) (x_min x_max y_min y_max : T) (num_points : Z) : T :=
  let dx := (x_max - x_min) / sofZ num_points in
  let dy := (y_max - y_min) / sofZ num_points in
  let grid_x := midpoint_grid x_min dx num_points in
  let grid_y := midpoint_grid y_min dy num_points in
  ssum (flat_map (fun x => map (fun y => f x y) grid_y) grid_x) * dx * dy.

(* /repo/src/math/mod.rs:67-72 *)
Definition integrate_2d_symmetric (f : T -> T -> T) (x_min x_max : T) (num_points : Z) : T :=
  let dx := (x_max - x_min) / sofZ num_points in
  let grid := midpoint_grid x_min dx num_points in
  ssum (flat_map (fun x => map (fun y => f x y) grid) grid) * spowi dx 2.

(* /repo/src/math/mod.rs:74-77 *)
Definition integrate_2d_grid (f : T -> T -> T) (grid_x grid_y : list T) (da : T) : T :=
  ssum (flat_map (fun x => map (fun y => f x y) grid_y) grid_x) * da.

(* /repo/src/math/mod.rs:79-82 *)
Definition integrate_2d_symmetric_grid (f : T -> T -> T) (grid : list T) (da : T) : T :=
  ssum (flat_map (fun x => map (fun y => f x y) grid) grid) * da.

(** ** Lambert W *)

(* /repo/src/math/mod.rs:90, one Halley step *)
Definition lambert_step (x w : T) : T :=
  w - (w * sexp w - x)
      / (sexp w * (w + sdec 1 0) - (w + sdec 2 0) * (w * sexp w - x) / (sdec 2 0 * w + sdec 2 0)).

(* /repo/src/math/mod.rs:86 *)
Definition lambert_iterations (x : T) : Z :=
  Z.max (scast U8_MAX (sceil (slog10 x / sdec 3 0))) 4.

(* /repo/src/math/mod.rs:84-93 *)
Definition lambert_w (x : T) : T :=
  Nat.iter (Z.to_nat (lambert_iterations x)) (lambert_step x) (sdec 75 2 * sln (x + sdec 1 0)).

(** ** Modified Bessel functions *)

(* /repo/src/math/mod.rs lines 115-131: the array [coefficients] *)
Definition bessel_i0_small : list T :=
  [(sdec 1 0);
   (sdec 2499999999999999 16);
   (sdec 2777777777777822 17);
   (sdec 1736111111110237 18);
   (sdec 6944444444533525 20);
   (sdec 1929012345132199 21);
   (sdec 3936759911025107 23);
   (sdec 6151186727044392 25);
   (sdec 7594070020589734 27);
   (sdec 7593897933698363 29);
   (sdec 6277677736362926 31);
   (sdec 4347097041532722 33);
   (sdec 2634177426901091 35);
   (sdec 1139430377448228 37);
   (sdec 9079269200856248 40)].

(* /repo/src/math/mod.rs lines 137-160: the array [coefficients] *)
Definition bessel_i0_mid : list T :=
  [(sdec 398942280401425 15);
   (sdec 4986778506049619 17);
   (sdec 2805062339283126 17);
   (sdec 2922112251660478 17);
   (sdec 4442072994936595 17);
   (sdec 1309705746058567 16);
   (sdec (-335052280231727) 14);
   (sdec 2330257115835147 13);
   (sdec (-1133663506971723) 11);
   (sdec 4240576743178673 10);
   (sdec (-1231570285956987) 8);
   (sdec 2802319381552675 7);
   (sdec (-5018839997137779) 6);
   (sdec 7080292430151091 5);
   (sdec (-7842610821248111) 4);
   (sdec 6768257378540965 3);
   (sdec (-449034849696138) 1);
   (sdec 2241552399669589 1);
   (sdec (-8134264678656593) 1);
   (sdec 2023910973916877 0);
   (sdec (-3086757152953708) 0);
   (sdec 2175875438638190 0)].

(* /repo/src/math/mod.rs lines 165-171: the array [coefficients] *)
Definition bessel_i0_large : list T :=
  [(sdec 3989422804014329 16);
   (sdec 4986778504914345 17);
   (sdec 2805063089165061 17);
   (sdec 2921790968539151 17);
   (sdec 4533712087625794 17)].

(* /repo/src/math/mod.rs lines 181-195: the array [coefficients] *)
Definition bessel_i1_small : list T :=
  [(sdec 8333333333333333 17);
   (sdec 6944444444444341 18);
   (sdec 3472222222225921 19);
   (sdec 1157407407354987 20);
   (sdec 275573192625479 21);
   (sdec 4920949692800671 24);
   (sdec 6834657311305621 26);
   (sdec 7593969849687574 28);
   (sdec 6904822652741917 30);
   (sdec 5220157095351373 32);
   (sdec 3410720494727771 34);
   (sdec 1625212890947171 36);
   (sdec 133289892816229 37)].

(* /repo/src/math/mod.rs lines 206-229: the array [coefficients] *)
Definition bessel_i1_mid : list T :=
  [(sdec 3989422804014406 16);
   (sdec (-1496033551613111) 16);
   (sdec (-4675104253598537) 17);
   (sdec (-4090895951581637) 17);
   (sdec (-5719036414430205) 17);
   (sdec (-1528189554374492) 16);
   (sdec 3458284470977172 15);
   (sdec (-2426181371595021) 13);
   (sdec 117878586599344 10);
   (sdec (-4404655582443487) 10);
   (sdec 1277677779341446 8);
   (sdec (-2903390398236656) 7);
   (sdec 5192386898222206 6);
   (sdec (-7313784438967834) 5);
   (sdec 8087824484994859 4);
   (sdec (-6967602516005787) 3);
   (sdec 4614040809616582 2);
   (sdec (-2298849639457172) 1);
   (sdec 8325554073334618 1);
   (sdec (-2067285045778906) 0);
   (sdec 3146401654361325 0);
   (sdec (-2213318202179221) 0)].

(* /repo/src/math/mod.rs lines 234-240: the array [coefficients] *)
Definition bessel_i1_large : list T :=
  [(sdec 3989422804014314 16);
   (sdec (-1496033551467584) 16);
   (sdec (-4675105322571775) 17);
   (sdec (-4090421597376992) 17);
   (sdec (-5843630344778927) 17)].


(* [coefficients.iter().enumerate().map(|(i, c)| c*t.powi(i)).sum::<f64>()] *)
Definition sum_powers (coefficients : list T) (t : T) : T :=
  ssum (map (fun '(i, c) => c * spowi t (Z.of_nat i)) (combine (seq 0 (length coefficients)) coefficients)).

(* [coefficients.iter().enumerate().map(|(i, c)| c/x.powi(i)).sum::<f64>()] *)
Definition sum_inverse_powers (coefficients : list T) (x : T) : T :=
  ssum (map (fun '(i, c) => c / spowi x (Z.of_nat i)) (combine (seq 0 (length coefficients)) coefficients)).

(* /repo/src/math/mod.rs:111-175 *)
Definition bessel_i0 (x : T) : T :=
  if x <? sdec 775 2 then
    let t := sdec 25 2 * spowi x 2 in
    sdec 1 0 + t * sum_powers bessel_i0_small t
  else if x <? sdec 500 0 then
    sexp x / ssqrt x * sum_inverse_powers bessel_i0_mid x
  else
    let expf := sexp (sdec 5 1 * x) in
    (expf / ssqrt x * sum_inverse_powers bessel_i0_large x) * expf.

(* /repo/src/math/mod.rs:177-244 *)
Definition bessel_i1 (x : T) : T :=
  if x <? sdec 775 2 then
    let t := sdec 25 2 * spowi x 2 in
    let more_coefficients := [sdec 1 0; sdec 5 1; sum_powers bessel_i1_small t] in
    sdec 5 1 * x * sum_powers more_coefficients t
  else if x <? sdec 500 0 then
    sexp x / ssqrt x * sum_inverse_powers bessel_i1_mid x
  else
    let expf := sexp (sdec 5 1 * x) in
    (expf / ssqrt x * sum_inverse_powers bessel_i1_large x) * expf.

(* /repo/src/math/mod.rs:95-109 *)
Definition bessel_i (nu : Z) (x : T) : T :=
  if Z.eqb nu 0 then bessel_i0 x
  else if Z.eqb nu 1 then bessel_i1 x
  else sdec (-1) 0.

(** ** Error functions *)

(* /repo/src/math/mod.rs:298 and the other arms: c0 + (c1 + (... + c6*t)*t)*t *)
Fixpoint horner (cs : list T) (t : T) : T :=
  match cs with
  | [] => sdec 0 0
  | [c] => c
  | c :: cs' => c + horner cs' t * t
  end.

(* /repo/src/math/mod.rs:290-800; [100_u8..=u8::MAX] is the default *)
Definition erfcx_helper (z : T) : T :=
  let zi := scast U8_MAX z in
  match nth_error erfcx_table (Z.to_nat zi) with
  | Some (c, cs) => let t := sdec 2 0 * z - c in horner cs t
  | None => sdec 1 0
  end.

(* f64::MAX = 2^1024 - 2^971 *)
Definition f64_max : T := sofZ (2 ^ 1024 - 2 ^ 971).

(* /repo/src/math/mod.rs:256-288 *)
Definition erfcx (x : T) : T :=
  if sdec 0 0 <=? x then
    if sdec 50 0 <=? x then
      if sdec 50000000 0 <? x then sdec 5641895835477563 16 / x
      else sdec 5641895835477563 16 * (spowi x 2 * (spowi x 2 + sdec 45 1) + sdec 2 0)
           / (x * (spowi x 2 * (spowi x 2 + sdec 5 0) + sdec 375 2))
    else erfcx_helper (sdec 400 0 / (sdec 4 0 + x))
  else if x <? sdec (-267) 1 then f64_max
  else if x <? sdec (-61) 1 then sdec 2 0 * sexp (spowi x 2)
  else sdec 2 0 * sexp (spowi x 2) - erfcx_helper (sdec 400 0 / (sdec 4 0 - x)).

(* /repo/src/math/mod.rs:251-254 *)
Definition erfc (x : T) : T := erfcx x / sexp (spowi x 2).

(* /repo/src/math/mod.rs:246-249 *)
Definition erf (x : T) : T := sdec 1 0 - erfc x.

End Model.
End math.
