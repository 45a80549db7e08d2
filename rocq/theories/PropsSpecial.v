(** The Lambert function and the modified Bessel functions: C44 and C45. *)
From Coq Require Import Reals ZArith Lra.
From Coquelicot Require Import Coquelicot.
From Verif Require Import Scalar MMath SpecBessel PBase PLambert PLambertNeg PBessel PBesselAccuracy.
Open Scope R_scope.

(** ** C44: lambert_w *)

(** Every x > -1/e has exactly one W > -1 with W e^W = x: the principal branch. *)
Theorem C44_principal_branch : forall x, - exp (-1) < x ->
  exists W, (-1 < W /\ W * exp W = x) /\ forall V, -1 < V -> V * exp V = x -> V = W.
Proof. exact principal. Qed.
Print Assumptions C44_principal_branch.

(** The value of the principal branch is the only fixed point of the iteration above -1. *)
Theorem C44_fixed_point : forall W w, -1 < W -> -1 < w ->
  (math.lambert_step (W * exp W) w = w <-> w = W).
Proof. exact step_fixed_iff. Qed.
Print Assumptions C44_fixed_point.

(** A step moves towards the principal branch and never past it. *)
Theorem C44_step : forall W w, -1 < W -> -1 < w ->
  let w' := math.lambert_step (W * exp W) w in
  (W <= w -> W <= w' <= w) /\ (w <= W -> w <= w' <= W).
Proof. exact (fun W w HW Hw => conj (step_above W w HW Hw) (step_below W w HW Hw)). Qed.
Print Assumptions C44_step.

(** The result lies between the principal branch and the first guess. *)
Theorem C44_bracket : forall W, -1 < W ->
  let x := W * exp W in
  let g := 75 / 100 * ln (x + 1) in
  Rmin W g <= math.lambert_w x <= Rmax W g.
Proof. exact (fun W HW => lambert_bracket W HW (guess_ok W)). Qed.
Print Assumptions C44_bracket.

Theorem C44_accuracy : forall W, 0 <= W * exp W <= 10 ^ 6 ->
  Rabs (math.lambert_w (W * exp W) - W) <= 1 / 10 ^ 10.
Proof. exact lambert_accuracy. Qed.
Print Assumptions C44_accuracy.

(** Negative arguments, which the log-squared links use: the result is as good as exact up to
    W = -2/3, and never leaves a residual of more than a thousandth, even next to the branch
    point -1/e, where the convergence is only linear. *)
Theorem C44_negative : forall W, -1 < W <= 0 ->
  let x := W * exp W in let w := math.lambert_w x in
  W <= w <= 0 /\ - x * (1 - 1 / 10 ^ 3) <= - (w * exp w) <= - x.
Proof. exact negative_residual. Qed.
Print Assumptions C44_negative.

Theorem C44_negative_accuracy : forall W, -2 / 3 <= W <= 0 ->
  Rabs (math.lambert_w (W * exp W) - W) <= 2 / 10 ^ 14 * Rabs W.
Proof. exact moderate. Qed.
Print Assumptions C44_negative_accuracy.

(** The number of iterations is at least four, at least log10(x)/3, and no larger than that rounded up. *)
Theorem C44_iterations : forall x, 0 < x <= 10 ^ 765 ->
  let n := Z.to_nat (math.lambert_iterations x) in
  (4 <= n)%nat /\ x <= 10 ^ (3 * n) /\ ((4 < n)%nat -> 10 ^ (3 * (n - 1)) < x).
Proof. exact iterations_spec. Qed.
Print Assumptions C44_iterations.

(** The loop runs exactly that many steps from the guess 0.75 ln(x + 1). *)
Theorem C44_loop : forall x : R,
  math.lambert_w x = Nat.iter (Z.to_nat (math.lambert_iterations x)) (math.lambert_step x) (75 / 100 * ln (x + 1)).
Proof. exact lambert_R. Qed.
Print Assumptions C44_loop.

Example C44_example : Rabs (math.lambert_w (1 * exp 1) - 1) <= 1 / 10 ^ 10.
Proof. apply C44_accuracy. pose proof (exp_pos 1). pose proof exp_le_3. simpl. lra. Qed.

(** ** C45: bessel_i *)

Theorem C45_I0_exists : forall x, exists v, is_I0 x v.
Proof. exact I0_exists. Qed.
Print Assumptions C45_I0_exists.

Theorem C45_I1_exists : forall x, exists v, is_I1 x v.
Proof. exact I1_exists. Qed.
Print Assumptions C45_I1_exists.

Theorem C45_I0_accuracy : forall x v, Rabs x < 775 / 100 -> is_I0 x v ->
  1 <= v /\ Rabs (math.bessel_i 0 x - v) <= 1 / 10 ^ 15 * v.
Proof. exact i0_accurate. Qed.
Print Assumptions C45_I0_accuracy.

Theorem C45_I1_accuracy : forall x v, Rabs x < 775 / 100 -> is_I1 x v ->
  Rabs (math.bessel_i 1 x - v) <= 1 / 10 ^ 15 * Rabs v.
Proof. exact i1_accurate. Qed.
Print Assumptions C45_I1_accuracy.

(** The asymptotic branches: 7.75 <= x < 500, and 500 <= x. *)
Theorem C45_I0_large_accuracy : forall x v, 775 / 100 <= x -> is_I0 x v ->
  0 < v /\ Rabs (math.bessel_i 0 x - v) <= 1 / (4 * 10 ^ 12) * v.
Proof. exact i0_large_accurate. Qed.
Print Assumptions C45_I0_large_accuracy.

Theorem C45_I1_large_accuracy : forall x v, 775 / 100 <= x -> is_I1 x v ->
  0 < v /\ Rabs (math.bessel_i 1 x - v) <= 1 / (4 * 10 ^ 12) * v.
Proof. exact i1_large_accurate. Qed.
Print Assumptions C45_I1_large_accuracy.

Theorem C45_even_partial : forall x : R, Rabs x < 775 / 100 -> math.bessel_i 0 (- x) = math.bessel_i 0 x.
Proof. exact i0_even. Qed.
Print Assumptions C45_even_partial.

Theorem C45_odd_partial : forall x : R, Rabs x < 775 / 100 -> math.bessel_i 1 (- x) = - math.bessel_i 1 x.
Proof. exact i1_odd. Qed.
Print Assumptions C45_odd_partial.

Theorem C45_other_orders : forall n (x : R), n <> 0%Z -> n <> 1%Z -> math.bessel_i n x = -1.
Proof. exact other_order. Qed.
Print Assumptions C45_other_orders.

(** Large negative arguments take the polynomial branch: the value is less than a fifth of I0. *)
Theorem C45_negative_refuted : forall x v, x <= -40 -> is_I0 x v -> 0 < v /\ math.bessel_i 0 x <= v / 5.
Proof. exact i0_far. Qed.
Print Assumptions C45_negative_refuted.

Example C45_example : exists v, is_I0 2 v /\ Rabs (math.bessel_i 0 2 - v) <= 1 / 10 ^ 15 * v.
Proof.
  destruct (I0_exists 2) as [v Hv]. exists v. split; [exact Hv |].
  apply C45_I0_accuracy; [rewrite Rabs_pos_eq; lra | exact Hv].
Qed.

Example C45_large_example : exists v, is_I1 1000 v /\ Rabs (math.bessel_i 1 1000 - v) <= 1 / (4 * 10 ^ 12) * v.
Proof.
  destruct (I1_exists 1000) as [v Hv]. exists v. split; [exact Hv |].
  apply C45_I1_large_accuracy; [lra | exact Hv].
Qed.
