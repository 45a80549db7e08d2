(** Proofs about the Newton solvers. *)
From Coq Require Import Reals ZArith List Lra Lia Bool.
From Coquelicot Require Import Coquelicot.
From Verif Require Import Scalar MMath SpecNewton.
Import ListNotations.
Open Scope R_scope.

Lemma iter_succ_r : forall {A} (g : A -> A) n x, Nat.iter (S n) g x = Nat.iter n g (g x).
Proof. intros A g n x. induction n as [|n IH]; [reflexivity|]. cbn in *. rewrite IH. reflexivity. Qed.

Lemma iter_succ : forall {A} (g : A -> A) n x, Nat.iter (S n) g x = g (Nat.iter n g x).
Proof. reflexivity. Qed.

(** ** Any scalar type *)
Section Loop.
Context {T : Type} {Sc : Scalar T}.
Variables (y rel_tol : T) (f fp : T -> T).

Lemma newton_loop_spec : forall fuel it x res, exists k : nat,
  fst (fst (math.newton_loop y f fp rel_tol fuel it x res)) = newton_iterate y f fp k x /\
  (k <= fuel)%nat /\
  (forall j, (0 < j < k)%nat -> slt rel_tol (relative_residual y f (newton_iterate y f fp (j - 1) x)) = true) /\
  ((0 < k)%nat -> slt rel_tol res = true) /\
  ((k < fuel)%nat ->
    match k with
    | O => slt rel_tol res = false
    | S j => slt rel_tol (relative_residual y f (newton_iterate y f fp j x)) = false
    end).
Proof.
  induction fuel as [|fuel IH]; intros it x res.
  - exists O. cbn. repeat split; try lia; intros; lia.
  - cbn [math.newton_loop]. destruct (slt rel_tol res) eqn:E.
    + cbv zeta. destruct (IH (it + 1)%Z (newton_step y f fp x) (relative_residual y f x)) as (k & E1 & L & P & Q & R).
      exists (S k). repeat split.
      * etransitivity; [exact E1|]. unfold newton_iterate. symmetry. apply iter_succ_r.
      * lia.
      * intros j Hj. destruct j as [|[|j]]; [lia | |].
        -- cbn [Nat.sub newton_iterate Nat.iter nat_rect]. apply Q. lia.
        -- specialize (P (S j) ltac:(lia)). replace (S j - 1)%nat with j in P by lia.
           replace (S (S j) - 1)%nat with (S j) by lia.
           unfold newton_iterate in *. rewrite iter_succ_r. exact P.
      * intro Hk. specialize (R ltac:(lia)). destruct k as [|k]; [exact R|].
        unfold newton_iterate in *. rewrite iter_succ_r. exact R.
    + exists O. repeat split; try lia; intros; first [lia | exact E].
Qed.

(** Only the values at the iterates before the result matter. *)
Lemma newton_loop_ext : forall fuel it x res, exists pts,
  (length pts <= fuel)%nat /\
  forall g gp, (forall p, In p pts -> g p = f p /\ gp p = fp p) ->
    math.newton_loop y g gp rel_tol fuel it x res = math.newton_loop y f fp rel_tol fuel it x res.
Proof.
  induction fuel as [|fuel IH]; intros it x res.
  - exists []. split; [cbn; lia | reflexivity].
  - cbn [math.newton_loop]. destruct (slt rel_tol res) eqn:E.
    + cbv zeta. destruct (IH (it + 1)%Z (x + (y - f x) / fp x)%S (sabs ((y - f x) / y))%S) as (pts & L & H).
      exists (x :: pts). split; [cbn; lia|]. intros g gp G.
      destruct (G x (or_introl eq_refl)) as [-> ->]. apply H. intros p Hp. apply G. right. exact Hp.
    + exists []. split; [cbn; lia | reflexivity].
Qed.

Lemma powered_loop_ext : forall power fuel it x res, exists pts,
  (length pts <= fuel)%nat /\
  forall g gp, (forall p, In p pts -> g p = f p /\ gp p = fp p) ->
    math.newton_powered_loop y g gp rel_tol power fuel it x res = math.newton_powered_loop y f fp rel_tol power fuel it x res.
Proof.
  intro power. induction fuel as [|fuel IH]; intros it x res.
  - exists []. split; [cbn; lia | reflexivity].
  - cbn [math.newton_powered_loop]. destruct (slt rel_tol res) eqn:E.
    + cbv zeta.
      destruct (IH (it + 1)%Z (x + - (spowi (f x - y) power) / spowi (f x - y) (power - 1) / fp x / sofZ power)%S
        (sabs ((f x - y) / y))%S) as (pts & L & H).
      exists (x :: pts). split; [cbn; lia|]. intros g gp G.
      destruct (G x (or_introl eq_refl)) as [-> ->]. apply H. intros p Hp. apply G. right. exact Hp.
    + exists []. split; [cbn; lia | reflexivity].
Qed.
End Loop.

Lemma newton_result : forall {T} {Sc : Scalar T} y f fp guess rel_tol max_iters, exists k : nat,
  math.inverse_newton_raphson y f fp guess rel_tol max_iters = newton_iterate y f fp k guess /\
  (Z.of_nat k <= Z.max 0 max_iters)%Z /\
  (k = O \/ slt rel_tol (sdec 1 0) = true) /\
  (forall j, (0 < j < k)%nat -> slt rel_tol (relative_residual y f (newton_iterate y f fp (j - 1) guess)) = true) /\
  ((Z.of_nat k < max_iters)%Z ->
    match k with
    | O => slt rel_tol (sdec 1 0) = false
    | S j => slt rel_tol (relative_residual y f (newton_iterate y f fp j guess)) = false
    end).
Proof.
  intros T Sc y f fp guess rel_tol max_iters.
  destruct (newton_loop_spec y rel_tol f fp (Z.to_nat max_iters) 0 guess (sdec 1 0)) as (k & E & L & P & Q & R).
  exists k. split; [exact E|]. split; [lia|]. split.
  { destruct k; [left; reflexivity | right; apply Q; lia]. }
  split; [exact P|]. intro H. apply R. lia.
Qed.

Lemma newton_calls : forall {T} {Sc : Scalar T} y f fp (guess rel_tol : T) max_iters, exists pts : list T,
  (Z.of_nat (length pts) <= Z.max 0 max_iters)%Z /\
  forall g gp, (forall p, In p pts -> g p = f p /\ gp p = fp p) ->
    math.inverse_newton_raphson y g gp guess rel_tol max_iters = math.inverse_newton_raphson y f fp guess rel_tol max_iters.
Proof.
  intros T Sc y f fp guess rel_tol max_iters.
  destruct (newton_loop_ext y rel_tol f fp (Z.to_nat max_iters) 0 guess (sdec 1 0)) as (pts & L & H).
  exists pts. split; [lia|]. intros g gp G. unfold math.inverse_newton_raphson. rewrite (H g gp G). reflexivity.
Qed.

Lemma powered_calls : forall {T} {Sc : Scalar T} y f fp (guess rel_tol : T) max_iters power, exists pts : list T,
  (Z.of_nat (length pts) <= Z.max 0 max_iters)%Z /\
  forall g gp, (forall p, In p pts -> g p = f p /\ gp p = fp p) ->
    math.inverse_newton_raphson_powered y g gp guess rel_tol max_iters power
    = math.inverse_newton_raphson_powered y f fp guess rel_tol max_iters power.
Proof.
  intros T Sc y f fp guess rel_tol max_iters power.
  destruct (powered_loop_ext y rel_tol f fp power (Z.to_nat max_iters) 0 guess (sdec 1 0)) as (pts & L & H).
  exists pts. split; [lia|]. intros g gp G. unfold math.inverse_newton_raphson_powered. rewrite (H g gp G). reflexivity.
Qed.

(** ** Reals *)

Lemma newton_step_root : forall y f fp x, f x = y -> newton_step y f fp x = x.
Proof.
  intros y f fp x H. unfold newton_step. change (x + (y - f x) / fp x = x). rewrite H. unfold Rdiv. ring.
Qed.

Lemma newton_iterate_root : forall y f fp k x, f x = y -> newton_iterate y f fp k x = x.
Proof.
  intros y f fp k x H. unfold newton_iterate. induction k as [|k IH]; [reflexivity|].
  rewrite iter_succ, IH. apply newton_step_root, H.
Qed.

Lemma newton_at_root : forall y f fp guess rel_tol max_iters, f guess = y ->
  math.inverse_newton_raphson y f fp guess rel_tol max_iters = guess.
Proof.
  intros y f fp guess rel_tol max_iters H.
  destruct (newton_result y f fp guess rel_tol max_iters) as (k & E & _). rewrite E. apply newton_iterate_root, H.
Qed.

(** The powered loop is the plain loop for the derivative multiplied by the power. *)
Lemma powered_step : forall d p, d <> 0 -> (1 <= p)%Z -> - (powerRZ d p) / powerRZ d (p - 1) = - d.
Proof.
  intros d p Hd Hp. replace p with ((p - 1) + 1)%Z at 1 by lia. rewrite powerRZ_add by exact Hd. rewrite powerRZ_1.
  field. apply powerRZ_NOR. exact Hd.
Qed.

Lemma powered_step_all : forall d p, (1 <= p)%Z -> - (powerRZ d p) / powerRZ d (p - 1) = - d.
Proof.
  intros d p Hp. destruct (Req_dec d 0) as [->|N]; [|apply powered_step; assumption].
  assert (E : powerRZ 0 p = 0).
  { destruct p as [|q|q]; try lia. cbn. apply pow_ne_zero. lia. }
  rewrite E. unfold Rdiv. ring.
Qed.

Lemma powered_is_damped : forall y f fp rel_tol power fuel it x res, (1 <= power)%Z ->
  math.newton_powered_loop y f fp rel_tol power fuel it x res
  = math.newton_loop y f (fun x => IZR power * fp x) rel_tol fuel it x res.
Proof.
  intros y f fp rel_tol power fuel. induction fuel as [|fuel IH]; intros it x res Hp; [reflexivity|].
  cbn [math.newton_powered_loop math.newton_loop]. destruct (slt rel_tol res); [|reflexivity]. cbv zeta.
  rewrite IH by exact Hp.
  assert (E1 : (x + - spowi (f x - y) power / spowi (f x - y) (power - 1) / fp x / sofZ power)%S
             = (x + (y - f x) / (IZR power * fp x))%S).
  { change (x + - powerRZ (f x - y) power / powerRZ (f x - y) (power - 1) / fp x / IZR power
      = x + (y - f x) / (IZR power * fp x)).
    rewrite powered_step_all by exact Hp. unfold Rdiv. rewrite Rinv_mult. ring. }
  assert (E2 : (sabs ((f x - y) / y))%S = (sabs ((y - f x) / y))%S).
  { change (Rabs ((f x - y) / y) = Rabs ((y - f x) / y)).
    replace ((f x - y) / y) with (- ((y - f x) / y)) by (unfold Rdiv; ring). apply Rabs_Ropp. }
  rewrite E1, E2. reflexivity.
Qed.

Lemma powered_damped : forall y f fp guess rel_tol max_iters power, (1 <= power)%Z ->
  math.inverse_newton_raphson_powered y f fp guess rel_tol max_iters power
  = math.inverse_newton_raphson y f (fun x => IZR power * fp x) guess rel_tol max_iters.
Proof.
  intros. unfold math.inverse_newton_raphson_powered, math.inverse_newton_raphson.
  rewrite powered_is_damped by assumption. reflexivity.
Qed.

(** ** Increasing concave functions *)
Section Concave.
Context (D : R -> Prop) (f fp : R -> R) (y r : R).
Context (HC : concave_increasing D f fp) (Dr : D r) (Hr : f r = y).

Let Hconv : forall x z t, D x -> D z -> x <= t <= z -> D t.
Proof using HC. exact (proj1 HC). Qed.
Let Hpos : forall x, D x -> 0 < fp x.
Proof using HC. exact (proj1 (proj2 HC)). Qed.
Let Htan : forall x z, D x -> D z -> f z <= f x + fp x * (z - x).
Proof using HC. exact (proj2 (proj2 HC)). Qed.

Lemma concave_increasing_le : forall x z, D x -> D z -> x <= z -> f x <= f z.
Proof using HC.
  intros x z Dx Dz H. pose proof (Htan z x Dz Dx). pose proof (Hpos z Dz). nra.
Qed.

Lemma concave_step_le : forall x, D x -> newton_step y f fp x <= r.
Proof using HC Dr Hr.
  intros x Dx. change (x + (y - f x) / fp x <= r).
  pose proof (Htan x r Dx Dr) as T. rewrite Hr in T. pose proof (Hpos x Dx) as P.
  apply Rplus_le_reg_l with (- x). apply Rmult_le_reg_r with (fp x); [exact P|].
  replace ((- x + (x + (y - f x) / fp x)) * fp x) with (y - f x) by (field; lra). lra.
Qed.

Lemma concave_step_ge : forall x, D x -> x <= r -> x <= newton_step y f fp x.
Proof using HC Dr Hr.
  intros x Dx H. change (x <= x + (y - f x) / fp x).
  pose proof (concave_increasing_le x r Dx Dr H). pose proof (Hpos x Dx).
  assert (0 <= (y - f x) / fp x); [|lra]. apply Rmult_le_pos; [lra | left; apply Rinv_0_lt_compat; assumption].
Qed.

Lemma concave_iterates : forall k x, D x -> x <= r ->
  x <= newton_iterate y f fp k x <= r /\ D (newton_iterate y f fp k x) /\
  0 <= y - f (newton_iterate y f fp k x) <= y - f x.
Proof using HC Dr Hr.
  intros k x Dx Hx. assert (B : x <= newton_iterate y f fp k x <= r /\ D (newton_iterate y f fp k x)).
  { unfold newton_iterate. induction k as [|k IH]; [cbn; split; [lra | exact Dx]|].
    rewrite iter_succ. set (z := Nat.iter k (newton_step y f fp) x) in *. destruct IH as [[L U] Dz].
    pose proof (concave_step_le z Dz). pose proof (concave_step_ge z Dz U).
    assert (X : x <= newton_step y f fp z <= r) by lra. split; [exact X|]. exact (Hconv x r _ Dx Dr X). }
  destruct B as [B Dk]. split; [exact B|]. split; [exact Dk|].
  pose proof (concave_increasing_le x _ Dx Dk (proj1 B)). pose proof (concave_increasing_le _ r Dk Dr (proj2 B)). lra.
Qed.

(** Each step leaves at most the fraction 1 - f'(next)/f'(current) of the residual. *)
Lemma concave_step_contracts : forall x, D x -> x <= r ->
  y - f (newton_step y f fp x) <= (y - f x) * (1 - fp (newton_step y f fp x) / fp x).
Proof using HC Dr Hr.
  intros x Dx Hx. pose proof (concave_step_ge x Dx Hx) as G. pose proof (concave_step_le x Dx) as L.
  pose proof (Hconv x r _ Dx Dr (conj G L)) as Dn. pose proof (Hpos x Dx) as P.
  pose proof (Htan (newton_step y f fp x) x Dn Dx) as T.
  assert (E : newton_step y f fp x - x = (y - f x) / fp x)
    by (change (x + (y - f x) / fp x - x = (y - f x) / fp x); ring).
  set (n := newton_step y f fp x) in *. 
  replace ((y - f x) * (1 - fp n / fp x)) with (y - f x - fp n * ((y - f x) / fp x)) by (field; lra).
  rewrite <- E. lra.
Qed.

Lemma concave_result : forall guess rel_tol max_iters, D guess -> guess <= r ->
  let res := math.inverse_newton_raphson y f fp guess rel_tol max_iters in
  guess <= res <= r /\ 0 <= y - f res <= y - f guess.
Proof using HC Dr Hr.
  intros guess rel_tol max_iters Dg Hg. cbv zeta.
  destruct (newton_result y f fp guess rel_tol max_iters) as (k & E & _). rewrite E.
  destruct (concave_iterates k guess Dg Hg) as (A & _ & B). split; assumption.
Qed.

(** From any start whose first step stays in the domain, the result after at
    least one step is at most the root. *)
Lemma concave_result_any : forall guess rel_tol max_iters, D guess -> D (newton_step y f fp guess) ->
  let res := math.inverse_newton_raphson y f fp guess rel_tol max_iters in
  res = guess \/ (newton_step y f fp guess <= res <= r /\ 0 <= y - f res <= y - f (newton_step y f fp guess)).
Proof using HC Dr Hr.
  intros guess rel_tol max_iters Dg D1. cbv zeta.
  destruct (newton_result y f fp guess rel_tol max_iters) as (k & E & _). rewrite E.
  destruct k as [|k]; [left; reflexivity|]. right.
  replace (newton_iterate y f fp (S k) guess) with (newton_iterate y f fp k (newton_step y f fp guess))
    by (unfold newton_iterate; symmetry; apply iter_succ_r).
  destruct (concave_iterates k (newton_step y f fp guess) D1 (concave_step_le guess Dg)) as (A & _ & B). split; assumption.
Qed.
End Concave.
