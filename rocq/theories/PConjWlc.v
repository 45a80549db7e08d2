(** Conjugacy of the isometric worm-like chain, up to the error of the Bessel
    function approximations. *)
From Coq Require Import Reals ZArith Lra Lia.
From Coquelicot Require Import Coquelicot.
From Verif Require Import Scalar MMath MConst MWlc SpecThermo SpecChains PBase PLift PHyp PConj PIdentWlc.
Open Scope R_scope.

(** The argument handed to the Bessel functions, for a nondimensional
    persistence length [z] and a nondimensional end-to-end length [x]. *)
Definition wlc_bessel_scale (z : R) : R :=
  - (if Rlt_dec z (125 / 1000) then 1
     else 1 - 1 / (177 / 1000 / (z - 111 / 1000) + 64 / 10 * Rpowf (z - 111 / 1000) (783 / 1000)))
  * z * (14054 / 1000) * (1 + 473 / 1000).
Definition wlc_bessel_argument (z x : R) : R :=
  wlc_bessel_scale z * (x / (1 - (473 / 1000) ^ 2 * x ^ 2)).

Lemma wlc_scale_eq : forall z,
  - (if Rltb z (125 / 1000) then 1
     else 1 - 1 / (177 / 1000 / (z - 111 / 1000) + 64 / 10 * Rpowf (z - 111 / 1000) (783 / 1000)))
  * z * (14054 / 1000) * (1 + 473 / 1000) = wlc_bessel_scale z.
Proof. intro z. unfold wlc_bessel_scale, Rltb. destruct (Rlt_dec z (125 / 1000)); reflexivity. Qed.

Section Derivative.
Variables (c0 q A : R) (B0 : R -> R).
Let sum1 x := 0 + (0 + - (75 / 100) * (q * (x ^ 2) ^ 1) + 359375 / 1000000 * (q * (x ^ 2) ^ 2)
                    + - (109375 / 1000000) * (q * (x ^ 2) ^ 3))
                + (0 + - (5 / 10) * (1 * (x ^ 2) ^ 1) + 10625 / 10000 * (1 * (x ^ 2) ^ 2)
                    + - (5625 / 10000) * (1 * (x ^ 2) ^ 3)).
Let sum2 x := 0 + (0 + 1 * - (75 / 100) * (q * (x ^ 2) ^ 1) + 2 * (359375 / 1000000) * (q * (x ^ 2) ^ 2)
                    + 3 * - (109375 / 1000000) * (q * (x ^ 2) ^ 3))
                + (0 + 1 * - (5 / 10) * (1 * (x ^ 2) ^ 1) + 2 * (10625 / 10000) * (1 * (x ^ 2) ^ 2)
                    + 3 * - (5625 / 10000) * (1 * (x ^ 2) ^ 3)).
Let h x := x / (1 - (473 / 1000) ^ 2 * x ^ 2).

Lemma derive_wlc_1 : forall x, 0 < x < 1 -> 0 < c0 < 1 ->
  is_derive (fun x => - (25 / 10 * ln ((1 - c0 * x ^ 2) / (1 - x ^ 2)))) x
    (- (5 * x * (1 - c0 / ((1 - c0 * x ^ 2) / (1 - x ^ 2))) / (1 - x ^ 2))).
Proof using c0.
  intros x Hx Hc. assert (0 < 1 - x ^ 2) by (simpl; nra). assert (0 < 1 - c0 * x ^ 2) by (simpl; nra).
  assert (0 < (1 - c0 * x ^ 2) / (1 - x ^ 2)) by (apply Rdiv_lt_0_compat; assumption).
  auto_derive.
  - simpl in *. repeat split; try lra.
    + unfold Rdiv, Rminus in *. lra.
  - field. repeat split; simpl in *; lra.
Qed.

Lemma derive_wlc_2 : forall x, 0 < x < 1 ->
  is_derive (fun x => - (sum1 x / (1 - x ^ 2))) x
    (- ((sum2 x * 2 / x + 2 * x * sum1 x / (1 - x ^ 2)) / (1 - x ^ 2))).
Proof using q.
  intros x Hx. assert (0 < 1 - x ^ 2) by (simpl; nra).
  unfold sum1, sum2. auto_derive.
  - simpl in *. lra.
  - field. repeat split; simpl in *; lra.
Qed.

Lemma derive_wlc_3 : forall x, 0 < x < 1 ->
  is_derive (fun x => - (A * h x * (473 / 1000) * x)) x
    (- (2 * (473 / 1000) * (A * h x) * (1 + x * (473 / 1000) ^ 2 * h x))).
Proof using A.
  intros x Hx. assert (0 < 1 - (473 / 1000) ^ 2 * x ^ 2) by (simpl; nra).
  unfold h. auto_derive.
  - simpl in *. lra.
  - field. simpl in *; lra.
Qed.

Lemma derive_wlc_4 : forall x b, 0 < x < 1 -> 0 < B0 (A * h x) -> is_derive B0 (A * h x) b ->
  is_derive (fun x => - ln (B0 (A * h x))) x
    (- (A * h x * b / B0 (A * h x) * (1 / x + 2 * (473 / 1000) ^ 2 * h x))).
Proof using A B0.
  clear sum1 sum2 q c0.
  intros x b Hx P D. assert (Q : 0 < 1 - (473 / 1000) ^ 2 * x ^ 2) by (simpl; nra).
  assert (DH : is_derive (fun x => A * h x) x (A * h x * (1 / x + 2 * (473 / 1000) ^ 2 * h x))).
  { unfold h. auto_derive; [simpl in *; lra|]. field. split; [simpl in *; lra | lra]. }
  assert (DB : is_derive (fun x => B0 (A * h x)) x (A * h x * (1 / x + 2 * (473 / 1000) ^ 2 * h x) * b)).
  { apply is_derive_Reals. apply is_derive_Reals in DH. apply is_derive_Reals in D.
    rewrite Rmult_comm. exact (derivable_pt_lim_comp (fun x => A * h x) B0 x _ _ DH D). }
  set (g := fun x => B0 (A * h x)) in *. change (0 < g x) in P.
  change (is_derive (fun x => - ln (g x)) x
    (- (A * h x * b / g x * (1 / x + 2 * (473 / 1000) ^ 2 * h x)))).
  assert (ex_derive g x) by (eexists; exact DB).
  assert (E : Derive g x = A * h x * (1 / x + 2 * (473 / 1000) ^ 2 * h x) * b) by (apply is_derive_unique; exact DB).
  clear DB. clearbody g. clear D. clearbody h.
  auto_derive; [tauto|]. change (Derive (fun x0 : R => g x0) x) with (Derive g x). rewrite E. field. lra.
Qed.
End Derivative.

Lemma wlc_c0_bounds : forall z, 0 < z ->
  0 < 1 - Rpowf (1 + / (38 / 100 / Rpowf z (95 / 100)) ^ 5) (- (2 / 10)) < 1.
Proof.
  intros z Hz.
  assert (P : 0 < Rpowf z (95 / 100)).
  { unfold Rpowf. destruct (Rlt_dec 0 z); [|lra]. unfold Rpower. apply exp_pos. }
  assert (Q : 0 < / (38 / 100 / Rpowf z (95 / 100)) ^ 5).
  { apply Rinv_0_lt_compat, pow_lt, Rdiv_lt_0_compat; lra. }
  set (y := / (38 / 100 / Rpowf z (95 / 100)) ^ 5) in *. clearbody y.
  unfold Rpowf. destruct (Rlt_dec 0 (1 + y)); [|lra].
  unfold Rpower. assert (L : 0 < ln (1 + y)) by (rewrite <- ln_1; apply ln_increasing; lra).
  split.
  - assert (exp (- (2 / 10) * ln (1 + y)) < exp 0) by (apply exp_increasing; nra).
    rewrite exp_0 in H. lra.
  - pose proof (exp_pos (- (2 / 10) * ln (1 + y))). lra.
Qed.

Local Opaque wlc_bessel_scale.

Lemma wlc_isometric_defect : forall N l m T p x b,
  (0 < N)%Z -> 0 < l -> 0 < T -> 0 < p -> 0 < x < 1 ->
  let z := zeta p N l in
  let arg := wlc_bessel_argument z x in
  0 < math.bessel_i 0 arg -> is_derive (math.bessel_i 0) arg b ->
  is_derive (S_nd_helmholtz_per_link (C_wlc_isometric N l m T p)) x
    (S_nd_force (C_wlc_isometric N l m T p) x
     + arg * (math.bessel_i 1 arg - b) / math.bessel_i 0 arg
       * (1 / x + 2 * (473 / 1000) ^ 2 * (x / (1 - (473 / 1000) ^ 2 * x ^ 2))) / IZR N).
Proof.
  intros N l m T p x b HN Hl HT Hp Hx z arg PB DB.
  assert (Hz : 0 < z).
  { unfold z, zeta. apply Rdiv_lt_0_compat; [exact Hp | apply Rmult_lt_0_compat; [apply IZR_lt, HN | exact Hl]]. }
  assert (HNR : 0 < IZR N) by (apply IZR_lt, HN).
  set (c0 := 1 - Rpowf (1 + / (38 / 100 / Rpowf z (95 / 100)) ^ 5) (- (2 / 10))).
  assert (Hc : 0 < c0 < 1) by (apply wlc_c0_bounds; exact Hz).
  pose proof (derive_wlc_1 c0 x Hx Hc) as D1.
  pose proof (derive_wlc_2 (/ z ^ 1) x Hx) as D2.
  pose proof (derive_wlc_3 (wlc_bessel_scale z) x Hx) as D3.
  pose proof (derive_wlc_4 (wlc_bessel_scale z) (math.bessel_i 0) x b Hx PB DB) as D4.
  cbv beta zeta in D1, D2, D3, D4.
  pose proof (derive_add _ _ _ _ _ _ D1 D2 eq_refl) as D12.
  pose proof (derive_add _ _ _ _ _ _ D12 D3 eq_refl) as D123.
  pose proof (derive_add _ _ _ _ _ _ D123 D4 eq_refl) as D.
  clear D1 D2 D3 D4 D12 D123.
  apply (derive_mult_const _ (/ IZR N)) in D.
  match type of D with is_derive ?f x ?d => apply (derive_same_increments _ f) end.
  - intros y w. unR. rewrite !wlc_scale_eq. unfold Rdiv. ring.
  - match type of D with is_derive ?f x ?d => match goal with |- is_derive _ _ ?d' =>
       assert (E : d' = d); [|rewrite E; exact D] end end.
    unfold arg, wlc_bessel_argument. unfold C_wlc_isometric, S_nd_force.
    unfold MWlc.wlc_isometric.nondimensional_force. unR. rewrite !wlc_scale_eq. 
    unfold Rdiv. ring.
Qed.
