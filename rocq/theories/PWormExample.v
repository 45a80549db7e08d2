(** A force at which the isotensional worm-like chain returns: the one whose
    extension is the initial guess of the root finder. *)
From Coq Require Import Reals ZArith Lra Lia List Bool QArith.Qreals.
From Coquelicot Require Import Coquelicot.
From Verif Require Import Scalar MMath MConst MWlc SpecThermo SpecChains PBase PConjWlc PQuad PNormalised PErfPoly PBessel.
Import ListNotations.
Open Scope R_scope.

(** One step of the root finder, from a point whose image is within the tolerance. *)
Lemma newton_near_root : forall (f fp : R -> R) v x, Rabs ((f x - v) / v) <= 1 / 100000 -> f x <> v ->
  math.inverse_newton_raphson_powered v f fp x (1 / 100000) 100 2 = x - (f x - v) / fp x / 2.
Proof.
  intros f fp v x Hr Hn. unfold math.inverse_newton_raphson_powered.
  assert (E : forall n k y res, math.newton_powered_loop v f fp (1 / 100000) 2 n k y res =
    match n with
    | O => (y, k, res)
    | S n' => if Rltb (1 / 100000) res then
        math.newton_powered_loop v f fp (1 / 100000) 2 n' (k + 1) (y + - ((f y - v) * ((f y - v) * 1)) / ((f y - v) * 1) / fp y / 2)
          (Rabs ((f y - v) / v))
      else (y, k, res)
    end) by (intros [|n0]; reflexivity).
  replace (Z.to_nat 100) with (S (S 98)) by reflexivity.
  rewrite E. unfold Rltb at 1. match goal with |- context [Rlt_dec (1 / 100000) ?o] => change o with 1 end.
  destruct (Rlt_dec (1 / 100000) 1); [|lra].
  rewrite E. unfold Rltb at 1. destruct (Rlt_dec (1 / 100000) (Rabs ((f x - v) / v))); [lra|].
  cbn [fst]. match goal with |- ?e = _ => change e with (x + - ((f x - v) * ((f x - v) * 1)) / ((f x - v) * 1) / fp x / 2) end.
  unfold Rdiv. rewrite !Rmult_1_r.
  replace (- ((f x - v) * (f x - v)) * / (f x - v)) with (- (f x - v)) by (field; lra). ring.
Qed.

Definition wc0 (z : R) : R := 1 - Rpowf (1 + / (38 / 100 / Rpowf z (95 / 100)) ^ 5) (- (2 / 10)).
Definition wsum1 (q x : R) : R := q * (- (75 / 100) * x ^ 2 + 359375 / 1000000 * x ^ 4 - 109375 / 1000000 * x ^ 6)
  + (- (5 / 10) * x ^ 2 + 10625 / 10000 * x ^ 4 - 5625 / 10000 * x ^ 6).
Definition wsum2 (q x : R) : R := q * (- (75 / 100) * x ^ 2 + 2 * (359375 / 1000000) * x ^ 4 - 3 * (109375 / 1000000) * x ^ 6)
  + (- (5 / 10) * x ^ 2 + 2 * (10625 / 10000) * x ^ 4 - 3 * (5625 / 10000) * x ^ 6).

Lemma wlc_force_explicit : forall N z x,
  wlc_isometric.nondimensional_force N z x =
  - ((5 * x * (1 - wc0 z / ((1 - wc0 z * x ^ 2) / (1 - x ^ 2))) + wsum2 (/ z) x * 2 / x + 2 * x * wsum1 (/ z) x / (1 - x ^ 2)) / (1 - x ^ 2)
     + 2 * (473 / 1000) * wlc_bessel_argument z x * (1 + x * (473 / 1000) ^ 2 * (x / (1 - (473 / 1000) ^ 2 * x ^ 2)))
     + wlc_bessel_argument z x * math.bessel_i 1 (wlc_bessel_argument z x) / math.bessel_i 0 (wlc_bessel_argument z x) *
       (1 / x + 2 * (473 / 1000) ^ 2 * (x / (1 - (473 / 1000) ^ 2 * x ^ 2)))) / IZR N.
Proof.
  intros N z x. match goal with |- _ = ?r => remember r as rhs eqn:E end.
  unfold wlc_isometric.nondimensional_force. unR. subst rhs.
  rewrite !wlc_scale_eq. unfold wlc_bessel_argument, wc0, wsum1, wsum2.
  set (A := wlc_bessel_scale z). clearbody A.
  set (B1 := math.bessel_i 1 _). set (B0 := math.bessel_i 0 _). clearbody B1 B0.
  set (c := Rpowf _ _). clearbody c.
  replace (/ z ^ 1) with (/ z) by (simpl; rewrite Rmult_1_r; reflexivity).
  unfold Rdiv. ring.
Qed.

Definition near (x : R) : Prop := 999899 / 1000000 <= x <= 999901 / 1000000.
Definition wratio (x : R) : R := x / (1 - (473 / 1000) ^ 2 * x ^ 2).

Lemma near_ratio : forall x, near x -> 12 / 10 < wratio x < 14 / 10.
Proof.
  intros x H. unfold wratio. unfold near in H.
  assert (P : 9997 / 10000 <= x ^ 2 <= 1) by nra.
  split; (apply Rmult_lt_reg_r with (1 - (473 / 1000) ^ 2 * x ^ 2); [lra|]);
    unfold Rdiv; rewrite ?Rmult_assoc, ?Rinv_l by lra; lra.
Qed.

Lemma near_argument : forall x, near x -> -3 < wlc_bessel_argument (1 / 10) x < -2.
Proof.
  intros x H. assert (E : wlc_bessel_argument (1 / 10) x = - (1 / 10 * (14054 / 1000) * (1473 / 1000)) * wratio x).
  { unfold wlc_bessel_argument, wlc_bessel_scale. destruct (Rlt_dec (1 / 10) (125 / 1000)); [|lra].
    fold (wratio x). set (w := wratio x). clearbody w. field. }
  rewrite E. pose proof (near_ratio x H). lra.
Qed.

Lemma poly_coefficients : List.Forall (fun a => 0 <= Q2R a) poly0 /\ List.Forall (fun a => 0 <= Q2R a) poly1.
Proof.
  split; apply List.Forall_forall; intros a H; apply Rle_trans with (Q2R 0); [unfold Q2R; cbn; lra| |unfold Q2R; cbn; lra|]; apply Qle_Rle;
    (assert (E : List.forallb (fun b => Qle_bool 0 b) poly0 = true /\ List.forallb (fun b => Qle_bool 0 b) poly1 = true) by (split; vm_compute; reflexivity));
    destruct E as [E0 E1]; rewrite List.forallb_forall in E0, E1; apply Qle_bool_iff; auto.
Qed.

Lemma pe_head : forall a p t, List.Forall (fun b => 0 <= Q2R b) p -> 0 <= t -> Q2R a <= pe (a :: p) t.
Proof.
  intros a p t H Ht. change (pe (a :: p) t) with (Q2R a + t * pe p t).
  pose proof (pe_nonneg p t H Ht). pose proof (Rmult_le_pos t (pe p t) Ht H0). lra.
Qed.

Lemma pe_at : forall p (q : Q), pe p (Q2R q) = Q2R (List.fold_right (fun a r => Qplus a (Qmult q r)) 0%Q p).
Proof.
  intros p q. induction p as [|a p IH]; [unfold Q2R; cbn; lra|].
  change (pe (a :: p) (Q2R q)) with (Q2R a + Q2R q * pe p (Q2R q)). rewrite IH. cbn [List.fold_right].
  rewrite Q2R_plus, Q2R_mult. reflexivity.
Qed.

Lemma small_ratio : forall x, -3 < x < -2 ->
  0 <= x * math.bessel_i 1 x / math.bessel_i 0 x <= 100.
Proof.
  intros x Hx. change (math.bessel_i 1 x) with (math.bessel_i1 x). change (math.bessel_i 0 x) with (math.bessel_i0 x).
  rewrite i0_small, i1_small by lra. destruct poly_coefficients as [F0 F1].
  assert (Ht : 0 <= x ^ 2 / 4 <= 9 / 4) by nra.
  assert (I0 : 1 <= pe poly0 (x ^ 2 / 4)).
  { unfold poly0 in *. inversion F0; subst. replace 1 with (Q2R 1) at 1 by (unfold Q2R; cbn; lra). apply pe_head; [assumption | lra]. }
  assert (I1 : 0 <= pe poly1 (x ^ 2 / 4) <= 10).
  { split; [apply pe_nonneg; [assumption | lra]|].
    apply Rle_trans with (pe poly1 (9 / 4)); [apply pe_grow; [assumption | lra]|].
    replace (9 / 4) with (Q2R (9 # 4)) by (unfold Q2R; cbn; lra). rewrite pe_at.
    replace 10 with (Q2R 10) by (unfold Q2R; cbn; lra). apply Qle_Rle. apply Qle_bool_iff. vm_compute. reflexivity. }
  set (p := pe poly1 _) in *. set (q := pe poly0 _) in *. clearbody p q.
  assert (P : 0 <= x * (x / 2 * p) <= 100) by nra.
  split; [apply Rdiv_le_0_compat; lra|]. apply Rmult_le_reg_r with q; [lra|].
  unfold Rdiv. rewrite Rmult_assoc, Rinv_l by lra. nra.
Qed.

(** The part of the force that grows without bound, and the rest. *)
Definition wmain (x : R) : R := - ((wsum2 10 x * 2 / x + 2 * x * wsum1 10 x / (1 - x ^ 2)) / (1 - x ^ 2)).

Lemma near_force : forall N x, (0 < N)%Z -> near x ->
  wmain x - 26500 < wlc_isometric.nondimensional_force N (1 / 10) x * IZR N < wmain x + 26500.
Proof.
  intros N x HN Hx. assert (PN : 0 < IZR N) by (apply IZR_lt; exact HN).
  rewrite wlc_force_explicit.
  pose proof (near_argument x Hx) as A. pose proof (near_ratio x Hx) as H. fold (wratio x).
  set (a := wlc_bessel_argument _ _) in *.
  pose proof (small_ratio a A) as B. set (b := a * math.bessel_i 1 a / math.bessel_i 0 a) in *. clearbody b. clearbody a.
  assert (C : 0 < wc0 (1 / 10) < 1) by (apply wlc_c0_bounds; lra).
  set (c := wc0 (1 / 10)) in *. clearbody c. unfold near in Hx.
  assert (X : 19 / 100000 <= 1 - x ^ 2 <= 1) by nra.
  assert (D : 0 <= c / ((1 - c * x ^ 2) / (1 - x ^ 2)) <= 1).
  { assert (E : 1 <= (1 - c * x ^ 2) / (1 - x ^ 2)).
    { apply Rmult_le_reg_r with (1 - x ^ 2); [lra|]. unfold Rdiv at 1. rewrite Rmult_assoc, Rinv_l by lra. nra. }
    set (e := (1 - c * x ^ 2) / (1 - x ^ 2)) in *. clearbody e. split; [apply Rdiv_le_0_compat; lra|].
    apply Rmult_le_reg_r with e; [lra|]. unfold Rdiv. rewrite Rmult_assoc, Rinv_l by lra. lra. }
  set (d := c / _) in *. clearbody d.
  match goal with |- _ < ?u / IZR N * IZR N < _ => replace (u / IZR N * IZR N) with u by (field; lra) end.
  replace (/ (1 / 10)) with 10 by field.
  set (h := wratio x) in *. clearbody h.
  assert (Q1 : -5 < 2 * (473 / 1000) * a * (1 + x * (473 / 1000) ^ 2 * h) < 0).
  { assert (0 < x * (473 / 1000) ^ 2 * h < 4 / 10) by nra. set (w := x * (473 / 1000) ^ 2 * h) in *. clearbody w. nra. }
  assert (Q2 : 0 <= b * (1 / x + 2 * (473 / 1000) ^ 2 * h) <= 200).
  { assert (1 <= / x <= 101 / 100).
    { split; [rewrite <- Rinv_1; apply Rinv_le_contravar; lra|].
      apply Rmult_le_reg_r with x; [lra|]. rewrite Rinv_l; lra. }
    assert (1 <= 1 / x + 2 * (473 / 1000) ^ 2 * h <= 2) by lra.
    set (w := 1 / x + 2 * (473 / 1000) ^ 2 * h) in *. clearbody w. nra. }
  set (q1 := 2 * (473 / 1000) * a * _) in *. set (q2 := b * _) in *. clearbody q1 q2.
  assert (Q3 : 0 <= 5 * x * (1 - d) / (1 - x ^ 2) <= 26300).
  { split; [apply Rdiv_le_0_compat; nra|].
    apply Rmult_le_reg_r with (1 - x ^ 2); [lra|]. unfold Rdiv. rewrite Rmult_assoc, Rinv_l by lra. nra. }
  unfold wmain. 
  replace ((5 * x * (1 - d) + wsum2 10 x * 2 / x + 2 * x * wsum1 10 x / (1 - x ^ 2)) / (1 - x ^ 2)) with
    (5 * x * (1 - d) / (1 - x ^ 2) + (wsum2 10 x * 2 / x + 2 * x * wsum1 10 x / (1 - x ^ 2)) / (1 - x ^ 2)) by (field; lra).
  lra.
Qed.

Definition wguess : R := 9999 / 10000.
Definition wstep : R := 1 / 100000000.

Lemma main_values : 240000000 < wmain wguess < 260000000 /\ 99000 < wmain (wguess + wstep) - wmain (wguess - wstep).
Proof.
  unfold wmain, wguess, wstep, wsum1, wsum2. split; [split|]; lra.
Qed.

Definition wforce_at (e : R) (N : Z) : R := wlc_isometric.nondimensional_force N (1 / 10) wguess * (1 + e).
Definition wforce (N : Z) : R := wforce_at (/ 10 ^ 6) N.

Lemma wforce_bounds : forall N, (0 < N)%Z -> 0 < wforce N * IZR N < 300000000.
Proof.
  intros N HN. pose proof main_values as [V _].
  assert (Hn : near wguess) by (unfold near, wguess; lra).
  pose proof (near_force N wguess HN Hn) as F. unfold wforce, wforce_at.
  set (f := wlc_isometric.nondimensional_force N (1 / 10) wguess) in *. clearbody f.
  set (v := wmain wguess) in *. clearbody v.
  replace (f * (1 + / 10 ^ 6) * IZR N) with (f * IZR N * (1 + / 10 ^ 6)) by ring.
  set (w := f * IZR N) in *. clearbody w. lra.
Qed.

(** The root finder started at the guess stops inside the allowed interval. *)
Lemma guess_returns : forall e N, 0 < e <= 2 / 10 ^ 6 -> (0 < N)%Z ->
  let f := fun x => wlc_isometric.nondimensional_force N (1 / 10) x in
  let fp := fun x => (wlc_isometric.nondimensional_force N (1 / 10) (x + 1 / 100000000) -
    wlc_isometric.nondimensional_force N (1 / 10) (x - 1 / 100000000)) / (2 / 100000000) in
  0 <= math.inverse_newton_raphson_powered (wforce_at e N) f fp (9999 / 10000) (1 / 100000) 100 2 <= 1.
Proof.
  intros e N He HN f fp. assert (PN : 0 < IZR N) by (apply IZR_lt; exact HN).
  pose proof main_values as [V1 V2].
  assert (Hn : near wguess) by (unfold near, wguess; lra).
  assert (Hp : near (wguess + wstep)) by (unfold near, wguess, wstep; lra).
  assert (Hm : near (wguess - wstep)) by (unfold near, wguess, wstep; lra).
  pose proof (near_force N wguess HN Hn) as F. pose proof (near_force N _ HN Hp) as Fp. pose proof (near_force N _ HN Hm) as Fm.
  assert (Ef : f (9999 / 10000) = f wguess) by reflexivity.
  assert (Ew : wforce_at e N = f wguess * (1 + e)) by reflexivity.
  assert (Efp : fp (9999 / 10000) = (f (wguess + wstep) - f (wguess - wstep)) / (2 / 100000000)) by reflexivity.
  fold (f wguess) in F. fold (f (wguess + wstep)) in Fp. fold (f (wguess - wstep)) in Fm.
  assert (Pf : 0 < f wguess) by (apply Rmult_lt_reg_r with (IZR N); lra).
  rewrite newton_near_root.
  - rewrite Ef, Ew, Efp. clearbody fp. clear Efp Ew Ef.
    set (u := f wguess) in *. set (up := f (wguess + wstep)) in *. set (um := f (wguess - wstep)) in *.
    clearbody u up um. clear f.
    assert (D : u * IZR N < 300000000) by lra.
    assert (G : 45000 < (up - um) * IZR N) by lra.
    assert (K : 0 < u / (up - um) <= 10000).
    { assert (0 < up - um) by (apply Rmult_lt_reg_r with (IZR N); lra).
      split; [apply Rdiv_lt_0_compat; lra|]. apply Rmult_le_reg_r with (up - um); [lra|].
      unfold Rdiv. rewrite Rmult_assoc, Rinv_l by lra.
      apply Rmult_le_reg_r with (IZR N); [lra|]. nra. }
    assert (0 < up - um) by (apply Rmult_lt_reg_r with (IZR N); lra).
    replace (9999 / 10000 - (u - u * (1 + e)) / ((up - um) / (2 / 100000000)) / 2) with
      (9999 / 10000 + u / (up - um) * (e * / 10 ^ 8)) by (field; lra).
    set (r := u / (up - um)) in *. clearbody r. assert (0 < r * (e * / 10 ^ 8) <= 10000 * (2 / 10 ^ 6 * / 10 ^ 8)) by (split; [apply Rmult_lt_0_compat | apply Rmult_le_compat]; lra). lra.
  - rewrite Ef, Ew. set (u := f wguess) in *. clearbody u.
    replace ((u - u * (1 + e)) / (u * (1 + e))) with (- (e / (1 + e))) by (field; lra).
    assert (0 < e / (1 + e)) by (apply Rdiv_lt_0_compat; lra).
    assert (e / (1 + e) <= e) by (apply Rmult_le_reg_r with (1 + e); [lra|]; unfold Rdiv; rewrite Rmult_assoc, Rinv_l by lra; nra).
    rewrite Rabs_Ropp, Rabs_pos_eq; lra.
  - rewrite Ef, Ew. set (u := f wguess) in *. clearbody u. nra.
Qed.

Lemma worm_length_returns_at : forall e N, 0 < e <= 2 / 10 ^ 6 -> (0 < N)%Z -> exists x,
  wlc_isotensional.nondimensional_end_to_end_length N (1 / 10) (wforce_at e N) = Some x.
Proof.
  intros e N He HN. pose proof (guess_returns e N He HN) as G. unfold wlc_isotensional.nondimensional_end_to_end_length. cbv zeta in *.
  match type of G with 0 <= ?a <= 1 => match goal with |- context [math.inverse_newton_raphson_powered ?u ?v ?w ?x ?y ?z ?t] =>
    change (math.inverse_newton_raphson_powered u v w x y z t) with a; set (gh := a) in * end end.
  assert (E : negb ((@sdec R R_scalar 0 0 <=? gh)%S && (gh <=? sdec 1 0)%S)%bool = false).
  { change (negb (Rleb 0 gh && Rleb gh 1) = false). unfold Rleb. destruct (Rle_dec 0 gh); [|lra]. destruct (Rle_dec gh 1); [reflexivity | lra]. }
  rewrite E. eexists. reflexivity.
Qed.

Lemma worm_length_returns : forall N, (0 < N)%Z -> exists x,
  wlc_isotensional.nondimensional_end_to_end_length N (1 / 10) (wforce N) = Some x.
Proof. intros N HN. apply worm_length_returns_at; [lra | exact HN]. Qed.

Lemma worm_gibbs_returns : forall N l m T, (0 < N)%Z -> exists g,
  wlc_isotensional.nondimensional_gibbs_free_energy N l m (1 / 10) (wforce N) T = Some g.
Proof.
  intros N l m T HN. pose proof (guess_returns (/ 10 ^ 6) N ltac:(lra) HN) as G. unfold wlc_isotensional.nondimensional_gibbs_free_energy. cbv zeta in *.
  match type of G with 0 <= ?a <= 1 => match goal with |- context [math.inverse_newton_raphson_powered ?u ?v ?w ?x ?y ?z ?t] =>
    change (math.inverse_newton_raphson_powered u v w x y z t) with a; set (gh := a) in * end end.
  assert (E : negb ((@sdec R R_scalar 0 0 <=? gh)%S && (gh <=? sdec 1 0)%S)%bool = false).
  { change (negb (Rleb 0 gh && Rleb gh 1) = false). unfold Rleb. destruct (Rle_dec 0 gh); [|lra]. destruct (Rle_dec gh 1); [reflexivity | lra]. }
  rewrite E. eexists. reflexivity.
Qed.
