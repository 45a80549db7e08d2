(** Theorems for C16-C20 and C22-C24: the extension of the freely jointed
    chain, the root finders, the inverse Langevin function and the quadratures. *)
From Coq Require Import Reals ZArith List Lra Lia Floats.
From Coquelicot Require Import Coquelicot.
From Verif Require Import Scalar F64 MMath MFjc SpecThermo SpecNewton SpecLangevin.
From Verif Require Import PBase PQuad PQuadError PNewton PLangevin PInvLangevin PSigmoid PFloat.
Import ListNotations.
Open Scope R_scope.

(** ** C16: the extension is a sigmoid in force *)

Theorem C16_odd : forall eta : R,
  fjc_isotensional.nondimensional_end_to_end_length_per_link (- eta)
  = - fjc_isotensional.nondimensional_end_to_end_length_per_link eta.
Proof. exact extension_odd. Qed.
Print Assumptions C16_odd.

Theorem C16_increasing : forall s t : R, 0 < s < t ->
  fjc_isotensional.nondimensional_end_to_end_length_per_link s < fjc_isotensional.nondimensional_end_to_end_length_per_link t.
Proof. exact extension_increasing. Qed.
Print Assumptions C16_increasing.

Theorem C16_range : forall eta : R, 0 < eta ->
  0 < fjc_isotensional.nondimensional_end_to_end_length_per_link eta < Rmin 1 (eta / 3).
Proof. exact extension_range. Qed.
Print Assumptions C16_range.

Theorem C16_limit :
  is_lim (fun eta : R => fjc_isotensional.nondimensional_end_to_end_length_per_link eta) p_infty 1.
Proof. exact extension_limit. Qed.
Print Assumptions C16_limit.

(** The same in dimensional quantities. *)
Theorem C16_length : forall N l T f g, (0 < N)%Z -> 0 < l -> 0 < T -> 0 < f < g ->
  0 < fjc_isotensional.end_to_end_length N l f T /\
  fjc_isotensional.end_to_end_length N l f T < fjc_isotensional.end_to_end_length N l g T /\
  fjc_isotensional.end_to_end_length N l g T < IZR N * l /\
  fjc_isotensional.end_to_end_length N l (- f) T = - fjc_isotensional.end_to_end_length N l f T.
Proof. exact length_bounds. Qed.
Print Assumptions C16_length.

Example C16_example : 0 < fjc_isotensional.end_to_end_length 8 1 20 300 < 8.
Proof. destruct (C16_length 8 1 300 20 21) as (A & B & C & _); [lia | lra | lra | lra|]. rewrite Rmult_1_r in C. lra. Qed.

(** ** C17: accuracy of the inverse Langevin function *)

Theorem C17_accuracy : forall y, 0 < y < 1 ->
  0 < math.inverse_langevin y /\ Rabs (langevin (math.inverse_langevin y) - y) <= / 1000000 * y.
Proof. exact inverse_langevin_accuracy. Qed.
Print Assumptions C17_accuracy.

(** On the branch that calls the root finder, the loop leaves before the cap of
    100 iterations, having taken at least one step; the result underestimates the
    exact inverse. *)
Theorem C17_terminates_by_tolerance : forall y, 1 / 1000 < y < 1 ->
  exists (r : R) (k : nat), 0 < r /\ langevin r = y /\
    math.inverse_langevin y = newton_iterate y langevin dlangevin k (guess_num y / (1 - y) / guess_den y) /\
    (0 < k < 100)%nat /\
    3 / 5 * r <= math.inverse_langevin y <= r /\
    0 <= y - langevin (math.inverse_langevin y) <= / 1000000 * y.
Proof. exact newton_inverse_langevin. Qed.
Print Assumptions C17_terminates_by_tolerance.

Example C17_example : Rabs (langevin (math.inverse_langevin (97 / 100)) - 97 / 100) <= / 1000000.
Proof. destruct (C17_accuracy (97 / 100)) as [_ A]; lra. Qed.

(** ** C18: the inverse Langevin function is not odd *)

Theorem C18_odd_refuted : exists y, -1 < y < 1 /\ math.inverse_langevin (- y) <> - math.inverse_langevin y.
Proof. exists (9 / 10). split; [lra | exact inverse_langevin_not_odd]. Qed.
Print Assumptions C18_odd_refuted.

(** What is true: small arguments, of either sign, are treated linearly, and so
    is every negative argument. *)
Theorem C18_odd_partial : forall y, -1 / 1000 <= y <= 1 / 1000 -> math.inverse_langevin (- y) = - math.inverse_langevin y.
Proof. intros y H. rewrite 2!inverse_langevin_negative by lra. ring. Qed.
Print Assumptions C18_odd_partial.

Theorem C18_negative : forall y, y <= 1 / 1000 -> math.inverse_langevin y = 3 * y.
Proof. exact inverse_langevin_negative. Qed.
Print Assumptions C18_negative.

(** ** C19: the root finders *)

(** The result is the k-th Newton iterate for some k up to the cap; the loop went
    on as long as the residual it had seen exceeded the tolerance; and when it left
    before the cap, the iterate before the last update meets the tolerance.  This
    holds for every scalar type, so also for floats and functions returning NaN. *)
Theorem C19_exit_condition : forall {T} {Sc : Scalar T} y f fp guess rel_tol max_iters, exists k : nat,
  math.inverse_newton_raphson y f fp guess rel_tol max_iters = newton_iterate y f fp k guess /\
  (Z.of_nat k <= Z.max 0 max_iters)%Z /\
  (k = O \/ slt rel_tol (sdec 1 0) = true) /\
  (forall j, (0 < j < k)%nat -> slt rel_tol (relative_residual y f (newton_iterate y f fp (j - 1) guess)) = true) /\
  ((Z.of_nat k < max_iters)%Z ->
    match k with
    | O => slt rel_tol (sdec 1 0) = false
    | S j => slt rel_tol (relative_residual y f (newton_iterate y f fp j guess)) = false
    end).
Proof. exact @newton_result. Qed.
Print Assumptions C19_exit_condition.

(** Both solvers look at the callbacks at no more than max_iters points. *)
Theorem C19_calls : forall {T} {Sc : Scalar T} y f fp (guess rel_tol : T) max_iters, exists pts : list T,
  (Z.of_nat (length pts) <= Z.max 0 max_iters)%Z /\
  forall g gp, (forall p, In p pts -> g p = f p /\ gp p = fp p) ->
    math.inverse_newton_raphson y g gp guess rel_tol max_iters = math.inverse_newton_raphson y f fp guess rel_tol max_iters.
Proof. exact @newton_calls. Qed.
Print Assumptions C19_calls.

Theorem C19_powered_calls : forall {T} {Sc : Scalar T} y f fp (guess rel_tol : T) max_iters power, exists pts : list T,
  (Z.of_nat (length pts) <= Z.max 0 max_iters)%Z /\
  forall g gp, (forall p, In p pts -> g p = f p /\ gp p = fp p) ->
    math.inverse_newton_raphson_powered y g gp guess rel_tol max_iters power
    = math.inverse_newton_raphson_powered y f fp guess rel_tol max_iters power.
Proof. exact @powered_calls. Qed.
Print Assumptions C19_powered_calls.

Theorem C19_root_is_fixed : forall y f fp guess rel_tol max_iters, f guess = y ->
  math.inverse_newton_raphson y f fp guess rel_tol max_iters = guess.
Proof. exact newton_at_root. Qed.
Print Assumptions C19_root_is_fixed.

(** In exact arithmetic the powered solver is the plain one with the step divided by the power. *)
Theorem C19_powered_is_damped : forall y f fp guess rel_tol max_iters power, (1 <= power)%Z ->
  math.inverse_newton_raphson_powered y f fp guess rel_tol max_iters power
  = math.inverse_newton_raphson y f (fun x => IZR power * fp x) guess rel_tol max_iters.
Proof. exact powered_damped. Qed.
Print Assumptions C19_powered_is_damped.

(** In floating point, the powered solver started on a root divides zero by zero:
    it returns NaN where the plain solver returns the root. *)
Theorem C19_powered_root_refuted : forall L : libm, exists y f fp guess,
  f guess = y /\
  is_nan (@math.inverse_newton_raphson_powered float (F64 L) y f fp guess (float_dec 1 6) 100 4) = true /\
  @math.inverse_newton_raphson float (F64 L) y f fp guess (float_dec 1 6) 100 = guess.
Proof. intro L. eexists _, _, _, _. exact (powered_root_nan L). Qed.
Print Assumptions C19_powered_root_refuted.

Example C19_example : math.inverse_newton_raphson 4 (fun x => x ^ 2) (fun x => 2 * x) 2 (/ 10) 7 = 2.
Proof. apply C19_root_is_fixed. lra. Qed.

(** ** C20: concave increasing functions *)

(** From a start at or below the root the result stays between the start and the
    root, and the residual keeps its sign and does not grow. *)
Theorem C20_from_below : forall D f fp y r, concave_increasing D f fp -> D r -> f r = y ->
  forall guess rel_tol max_iters, D guess -> guess <= r ->
  let res := math.inverse_newton_raphson y f fp guess rel_tol max_iters in
  guess <= res <= r /\ 0 <= y - f res <= y - f guess.
Proof. exact concave_result. Qed.
Print Assumptions C20_from_below.

(** From any start: unless no step is taken, the result is at most the root. *)
Theorem C20_any_start : forall D f fp y r, concave_increasing D f fp -> D r -> f r = y ->
  forall guess rel_tol max_iters, D guess -> D (newton_step y f fp guess) ->
  let res := math.inverse_newton_raphson y f fp guess rel_tol max_iters in
  res = guess \/ (newton_step y f fp guess <= res <= r /\ 0 <= y - f res <= y - f (newton_step y f fp guess)).
Proof. exact concave_result_any. Qed.
Print Assumptions C20_any_start.

(** The iterates themselves increase towards the root. *)
Theorem C20_iterates : forall D f fp y r, concave_increasing D f fp -> D r -> f r = y ->
  forall k x, D x -> x <= r ->
  x <= newton_iterate y f fp k x <= r /\ D (newton_iterate y f fp k x) /\
  0 <= y - f (newton_iterate y f fp k x) <= y - f x.
Proof. exact concave_iterates. Qed.
Print Assumptions C20_iterates.

Example C20_example : concave_increasing (fun x => 0 < x) langevin dlangevin.
Proof. exact langevin_concave. Qed.

(** ** C22: midpoint quadrature *)

Theorem C22_linear : forall f g c d a b n,
  math.integrate_1d (fun x => c * f x + d * g x) a b n =
  c * math.integrate_1d f a b n + d * math.integrate_1d g a b n.
Proof. exact integrate_1d_linear. Qed.
Print Assumptions C22_linear.

Theorem C22_monotone : forall f g a b n, (0 < n)%Z -> a < b ->
  (forall x, a < x < b -> f x <= g x) -> math.integrate_1d f a b n <= math.integrate_1d g a b n.
Proof. exact integrate_1d_mono. Qed.
Print Assumptions C22_monotone.

Theorem C22_affine_exact : forall c d a b n, (0 < n)%Z ->
  math.integrate_1d (fun x => c + d * x) a b n = c * (b - a) + d * (b ^ 2 - a ^ 2) / 2.
Proof. exact integrate_1d_affine. Qed.
Print Assumptions C22_affine_exact.

Theorem C22_split : forall f a b n m, (0 < n)%Z -> (0 < m)%Z ->
  math.integrate_1d f a b (n + m) =
  math.integrate_1d f a (a + IZR n * (b - a) / IZR (n + m)) n
  + math.integrate_1d f (a + IZR n * (b - a) / IZR (n + m)) b m.
Proof. exact integrate_1d_split. Qed.
Print Assumptions C22_split.

Theorem C22_reverse : forall f a b n, (0 < n)%Z ->
  math.integrate_1d f b a n = - math.integrate_1d f a b n.
Proof. exact integrate_1d_reverse. Qed.
Print Assumptions C22_reverse.

Example C22_example : math.integrate_1d (fun x => 1 + 2 * x) 0 3 7 = 12.
Proof. rewrite C22_affine_exact by lia. field. Qed.

(** ** C23: error and convergence *)

Theorem C23_error_bound : forall (f f1 f2 : R -> R) a b M, a <= b ->
  (forall x, a <= x <= b -> is_derive f x (f1 x)) ->
  (forall x, a <= x <= b -> is_derive f1 x (f2 x)) ->
  (forall x, a <= x <= b -> Rabs (f2 x) <= M) ->
  forall n, (0 < n)%Z -> Rabs (RInt f a b - math.integrate_1d f a b n) <= (b - a) ^ 3 * M / (24 * IZR n ^ 2).
Proof. exact midpoint_error. Qed.
Print Assumptions C23_error_bound.

Theorem C23_converges : forall (f : R -> R) a b, a <= b -> (forall x, a <= x <= b -> continuous f x) ->
  forall eps, 0 < eps ->
  exists n0, (0 < n0)%Z /\ forall n, (n0 <= n)%Z -> Rabs (RInt f a b - math.integrate_1d f a b n) <= eps.
Proof. exact midpoint_converges. Qed.
Print Assumptions C23_converges.

Example C23_example : Rabs (RInt exp 0 1 - math.integrate_1d exp 0 1 100) <= (1 - 0) ^ 3 * exp 1 / (24 * IZR 100 ^ 2).
Proof.
  apply (C23_error_bound exp exp exp); try lra; try lia; intros x Hx; try apply is_derive_exp.
  rewrite Rabs_pos_eq by (left; apply exp_pos). destruct (Req_dec x 1) as [->|N]; [lra|]. left. apply exp_increasing. lra.
Qed.

(** ** C24: two dimensions *)

Theorem C24_iterated : forall f x0 x1 y0 y1 n,
  math.integrate_2d f x0 x1 y0 y1 n = math.integrate_1d (fun x => math.integrate_1d (f x) y0 y1 n) x0 x1 n.
Proof. exact integrate_2d_iterated. Qed.
Print Assumptions C24_iterated.

Theorem C24_square : forall f a b n,
  math.integrate_2d_symmetric f a b n = math.integrate_2d f a b a b n.
Proof. exact integrate_2d_square. Qed.
Print Assumptions C24_square.

(** The grid variants, given the midpoints. *)
Theorem C24_grid_1d : forall {T} {Sc : Scalar T} (f : T -> T) a b n,
  math.integrate_1d_grid f (math.midpoint_grid a ((b - a) / sofZ n)%S n) ((b - a) / sofZ n)%S = math.integrate_1d f a b n.
Proof. exact @integrate_grid. Qed.
Print Assumptions C24_grid_1d.

Theorem C24_grid_2d : forall f x0 x1 y0 y1 n,
  math.integrate_2d_grid f (math.midpoint_grid x0 ((x1 - x0) / IZR n) n) (math.midpoint_grid y0 ((y1 - y0) / IZR n) n)
    ((x1 - x0) / IZR n * ((y1 - y0) / IZR n))
  = math.integrate_2d f x0 x1 y0 y1 n.
Proof. exact integrate_2d_grid_R. Qed.
Print Assumptions C24_grid_2d.

Theorem C24_grid_square : forall {T} {Sc : Scalar T} (f : T -> T -> T) a b n,
  math.integrate_2d_symmetric_grid f (math.midpoint_grid a ((b - a) / sofZ n)%S n) (spowi ((b - a) / sofZ n)%S 2)
  = math.integrate_2d_symmetric f a b n.
Proof. exact @integrate_2d_grid_square. Qed.
Print Assumptions C24_grid_square.

(** The midpoint grid is what its name says. *)
Theorem C24_midpoints : forall a b n i, (0 <= i < n)%Z ->
  nth_error (math.midpoint_grid a ((b - a) / IZR n) n) (Z.to_nat i) = Some (a + (IZR i + 1 / 2) * ((b - a) / IZR n)).
Proof. exact midpoint_grid_nth. Qed.
Print Assumptions C24_midpoints.

Example C24_example : math.integrate_2d (fun x y => 1 + 2 * y) 0 2 0 3 5 = 24.
Proof.
  rewrite C24_iterated.
  replace (fun x : R => math.integrate_1d (fun y => 1 + 2 * y) 0 3 5) with (fun x : R => 12 + 0 * x).
  - rewrite C22_affine_exact by lia. lra.
  - apply FunctionalExtensionality.functional_extensionality. intro x. rewrite C22_affine_exact by lia. lra.
Qed.
