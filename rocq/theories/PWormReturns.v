(** Forces at which the root finder of the isotensional worm-like chain ends inside the allowed interval:
    all those that hold a flexible chain up to 0.9999 of its length. *)
From Coq Require Import Reals ZArith Lra Lia List Bool QArith.Qreals.
From Coquelicot Require Import Coquelicot.
From Verif Require Import Scalar MMath MConst MWlc SpecThermo SpecChains PBase PConjWlc PConjWlcBound PErfPoly PBessel PWormExample PWormFails.
Open Scope R_scope.

(** ** Polynomials with non-negative coefficients *)
Fixpoint dominated (p q : list Q) : bool :=
  match p, q with
  | nil, q => List.forallb (fun b => Qle_bool 0 b) q
  | cons a p', cons b q' => Qle_bool a b && dominated p' q'
  | cons _ _, nil => false
  end.

Lemma dominated_le : forall p q t, dominated p q = true -> 0 <= t -> pe p t <= pe q t.
Proof.
  induction p as [|a p IH]; intros q t H Ht.
  - apply (pe_nonneg q t); [|exact Ht]. apply List.Forall_forall. intros b Hb. cbn [dominated] in H. rewrite List.forallb_forall in H.
    specialize (H b Hb). apply Qle_bool_iff, Qle_Rle in H. replace (Q2R 0) with 0 in H by (unfold Q2R; cbn; lra). exact H.
  - destruct q as [|b q]; [discriminate H|]. cbn [dominated] in H. apply andb_prop in H. destruct H as [H1 H2].
    apply Qle_bool_iff, Qle_Rle in H1. specialize (IH q t H2 Ht). rewrite !pe_cons.
    assert (t * pe p t <= t * pe q t) by (apply Rmult_le_compat_l; assumption). lra.
Qed.

Lemma pe_slope : forall p t, is_derive (pe p) t (pe (pder p) t).
Proof.
  induction p as [| a p IH]; intro t.
  - change (pe nil) with (fun _ : R => 0). apply (is_derive_const (V := R_NormedModule)).
  - change (pe (cons a p)) with (fun t => Q2R a + t * pe p t).
    change (pder (cons a p)) with (padd p (cons 0%Q (pder p))). rewrite pe_padd, pe_cons, Q2R_0.
    evar_last.
    + apply (is_derive_plus (V := R_NormedModule) (fun _ => Q2R a) (fun t => t * pe p t) t 0 (1 * pe p t + t * pe (pder p) t)).
      * apply (is_derive_const (V := R_NormedModule)).
      * apply (is_derive_mult (fun t => t) (pe p) t 1 (pe (pder p) t)).
        { apply (is_derive_id (K := R_AbsRing)). } { apply IH. } { intros n m. apply Rmult_comm. }
    + unfold plus; simpl. ring.
Qed.

(** The ratio of the Bessel functions, as a function of a quarter of the square. *)
Definition rr (u : R) : R := pe poly1 u / pe poly0 u.
Definition rr' (u : R) : R := (pe (pder poly1) u * pe poly0 u - pe poly1 u * pe (pder poly0) u) / pe poly0 u ^ 2.

Lemma poly0_pos : forall u, 0 <= u -> 1 <= pe poly0 u.
Proof.
  intros u Hu. destruct poly_coefficients as [F0 _]. unfold poly0 in *. inversion F0; subst.
  replace 1 with (Q2R 1) at 1 by (unfold Q2R; cbn; lra). apply pe_head; assumption.
Qed.

Lemma rr_bounds : forall u, 0 <= u -> 0 <= rr u <= 1.
Proof.
  intros u Hu. destruct poly_coefficients as [_ F1]. pose proof (poly0_pos u Hu) as P0. pose proof (pe_nonneg poly1 u F1 Hu) as P1.
  assert (D : pe poly1 u <= pe poly0 u) by (apply dominated_le; [vm_compute; reflexivity | exact Hu]). unfold rr.
  split; [apply Rdiv_le_0_compat; lra|]. apply Rmult_le_reg_r with (pe poly0 u); [lra|]. unfold Rdiv. rewrite Rmult_assoc, Rinv_l by lra. lra.
Qed.

Lemma rr_derive : forall u, 0 <= u -> is_derive rr u (rr' u).
Proof.
  intros u Hu. pose proof (poly0_pos u Hu) as P0. unfold rr, rr'. apply (is_derive_div (pe poly1) (pe poly0)); [apply pe_slope | apply pe_slope | lra].
Qed.

Lemma rr'_bounds : forall u, 0 <= u -> -1 <= rr' u <= 1.
Proof.
  intros u Hu. destruct poly_coefficients as [_ F1]. pose proof (poly0_pos u Hu) as P0. pose proof (pe_nonneg poly1 u F1 Hu) as P1.
  assert (D : pe poly1 u <= pe poly0 u) by (apply dominated_le; [vm_compute; reflexivity | exact Hu]).
  assert (D1 : pe (pder poly1) u <= pe poly0 u) by (apply dominated_le; [vm_compute; reflexivity | exact Hu]).
  assert (D0 : pe (pder poly0) u <= pe poly0 u) by (apply dominated_le; [vm_compute; reflexivity | exact Hu]).
  assert (N1 : 0 <= pe (pder poly1) u) by (apply (dominated_le nil (pder poly1)); [vm_compute; reflexivity | exact Hu]).
  assert (N0 : 0 <= pe (pder poly0) u) by (apply (dominated_le nil (pder poly0)); [vm_compute; reflexivity | exact Hu]).
  unfold rr'. set (p0 := pe poly0 u) in *. set (p1 := pe poly1 u) in *. set (d0 := pe (pder poly0) u) in *. set (d1 := pe (pder poly1) u) in *. clearbody p0 p1 d0 d1.
  assert (0 <= d1 * p0 <= p0 * p0) by (split; [apply Rmult_le_pos; lra | apply Rmult_le_compat_r; lra]).
  assert (0 <= p1 * d0 <= p0 * p0) by (split; [apply Rmult_le_pos; lra | apply Rmult_le_compat; lra]).
  assert (0 < p0 ^ 2) by (apply pow_lt; lra).
  split; (apply Rmult_le_reg_r with (p0 ^ 2); [assumption|]); replace ((d1 * p0 - p1 * d0) / p0 ^ 2 * p0 ^ 2) with (d1 * p0 - p1 * d0) by (field; lra); nra.
Qed.

Lemma ratio_eq : forall y, Rabs y < 775 / 100 -> y * math.bessel_i 1 y / math.bessel_i 0 y = y ^ 2 / 2 * rr (y ^ 2 / 4).
Proof.
  intros y Hy. apply Rabs_lt_between in Hy. change (math.bessel_i 1 y) with (math.bessel_i1 y). change (math.bessel_i 0 y) with (math.bessel_i0 y).
  rewrite i0_small, i1_small by lra. pose proof (poly0_pos (y ^ 2 / 4) ltac:(nra)) as P. unfold rr.
  set (a := pe poly1 _). set (b := pe poly0 _) in *. clearbody a b. field. lra.
Qed.

(** ** The pieces of the force *)
Definition wb : R := (473 / 1000) ^ 2.
Definition ws (z : R) : R := z * (14054 / 1000) * (1473 / 1000).
Definition wh (x : R) : R := x / (1 - wb * x ^ 2).
(** A part that gets steeper ... *)
Definition wsteep (z x : R) : R :=
  / z * (x / (1 - x ^ 2) ^ 2 + 5 / 10 * x - 4375 / 10000 * x ^ 3) + (x - 225 / 100 * x ^ 3 - 5 * (x / (1 - x ^ 2)))
  + 5 * (wc0 z * x / (1 - wc0 z * x ^ 2)) + 2 * (473 / 1000) * ws z * (x / (1 - wb * x ^ 2) ^ 2).
(** ... and the part with the Bessel functions. *)
Definition wtau (z x : R) : R := ws z ^ 2 / 4 * (x ^ 2 / (1 - wb * x ^ 2) ^ 2).
Definition wC (z x : R) : R := ws z ^ 2 / 2 * (x * (1 + wb * x ^ 2) / (1 - wb * x ^ 2) ^ 3).
Definition wC1 (z x : R) : R := ws z ^ 2 / 2 * ((1 + 8 * wb * x ^ 2 + 3 * wb ^ 2 * x ^ 4) / (1 - wb * x ^ 2) ^ 4).
Definition wbess (z x : R) : R := wC z x * rr (wtau z x).
Definition wbess' (z x : R) : R := wC1 z x * rr (wtau z x) + wC z x * (wC z x * rr' (wtau z x)).

Definition inside (x : R) : Prop := -1 < x < 1.

Lemma wb_value : wb = 223729 / 1000000.
Proof. unfold wb. field. Qed.

Lemma wh_bounds : forall x, inside x -> 776 / 1000 < 1 - wb * x ^ 2 <= 1 /\ -129 / 100 < wh x < 129 / 100.
Proof.
  intros x Hx. unfold inside in Hx. rewrite wb_value. unfold wh. rewrite wb_value. assert (0 <= x ^ 2 < 1) by nra.
  assert (D : 776 / 1000 < 1 - 223729 / 1000000 * x ^ 2 <= 1) by lra. split; [exact D|].
  split; (apply Rmult_lt_reg_r with (1 - 223729 / 1000000 * x ^ 2); [lra|]); replace (x / (1 - 223729 / 1000000 * x ^ 2) * (1 - 223729 / 1000000 * x ^ 2)) with x by (field; lra); lra.
Qed.

Lemma ws_bounds : forall z, 0 < z <= 1 / 10 -> 0 < ws z < 2071 / 1000.
Proof. intros z Hz. unfold ws. lra. Qed.

Lemma argument_eq : forall z x, 0 < z <= 1 / 10 -> wlc_bessel_argument z x = - (ws z * wh x).
Proof.
  intros z x Hz. unfold wlc_bessel_argument, wlc_bessel_scale, ws, wh, wb. destruct (Rlt_dec z (125 / 1000)); [|lra].
  set (w := x / _). clearbody w. field.
Qed.

Lemma force_split : forall N z x, (0 < N)%Z -> 0 < z <= 1 / 10 -> inside x ->
  wlc_isometric.nondimensional_force N z x * IZR N = wsteep z x - wbess z x.
Proof.
  intros N z x HN Hz Hx. assert (PN : 0 < IZR N) by (apply IZR_lt; exact HN). rewrite wlc_force_explicit, argument_eq by exact Hz.
  destruct (wh_bounds x Hx) as [D H]. pose proof (ws_bounds z Hz) as S.
  assert (A : Rabs (ws z * wh x) < 3).
  { rewrite Rabs_mult, (Rabs_pos_eq (ws z)) by lra. assert (Rabs (wh x) < 129 / 100) by (apply Rabs_lt_between; lra). pose proof (Rabs_pos (wh x)).
    apply Rle_lt_trans with (2071 / 1000 * (129 / 100)); [apply Rmult_le_compat; lra | lra]. }
  rewrite ratio_eq by (rewrite Rabs_Ropp; lra). replace ((- (ws z * wh x)) ^ 2) with ((ws z * wh x) ^ 2) by ring.
  unfold wbess. replace ((ws z * wh x) ^ 2 / 4) with (wtau z x) by (unfold wtau, wh; field; lra).
  fold wb. fold (wh x). unfold wC. set (t := rr _). clearbody t.
  assert (C : 0 < wc0 z < 1) by (apply wlc_c0_bounds; lra). set (c := wc0 z) in *. 
  assert (EN : forall u : R, u / IZR N * IZR N = u) by (intro u; field; lra). rewrite EN. clear EN.
  unfold inside in Hx. assert (X : 0 < 1 - x ^ 2 <= 1) by nra. assert (CX : 0 < 1 - c * x ^ 2) by nra.
  destruct (Req_dec x 0) as [->|X0].
  { unfold wsteep, wsum1, wsum2, wh, Rdiv. ring. }
  unfold wsteep. fold c. clearbody c. unfold wsum1, wsum2. unfold wh. set (s := ws z) in *. clearbody s. set (b := wb) in *. clearbody b.
  set (q := / z). clearbody q. 
  replace (2 * (473 / 1000) * - (s * (x / (1 - b * x ^ 2))) * (1 + x * b * (x / (1 - b * x ^ 2)))) with (- (2 * (473 / 1000) * s * (x / (1 - b * x ^ 2) ^ 2))) by (field; lra).
  replace ((s * (x / (1 - b * x ^ 2))) ^ 2 / 2 * t * (1 / x + 2 * b * (x / (1 - b * x ^ 2)))) with (s ^ 2 / 2 * (x * (1 + b * x ^ 2) / (1 - b * x ^ 2) ^ 3) * t) by (field; lra).
  set (k1 := 2 * (473 / 1000) * s * _). set (k2 := s ^ 2 / 2 * _ * t). clearbody k1 k2.
  field. repeat split; lra.
Qed.

Lemma tau_derive : forall z x, inside x -> is_derive (wtau z) x (wC z x).
Proof.
  intros z x Hx. destruct (wh_bounds x Hx) as [D _]. unfold wtau, wC. set (s := ws z). clearbody s. set (b := wb) in *. clearbody b.
  auto_derive; [repeat split; try lra; apply Rgt_not_eq; apply Rmult_lt_0_compat; lra | field; lra].
Qed.

Lemma C_derive : forall z x, inside x -> is_derive (wC z) x (wC1 z x).
Proof.
  intros z x Hx. destruct (wh_bounds x Hx) as [D _]. unfold wC1, wC. set (s := ws z). clearbody s. set (b := wb) in *. clearbody b.
  auto_derive; [repeat split; try lra; apply Rgt_not_eq; repeat apply Rmult_lt_0_compat; lra | field; lra].
Qed.

Lemma tau_nonneg : forall z x, inside x -> 0 <= wtau z x.
Proof.
  intros z x Hx. destruct (wh_bounds x Hx) as [D _]. unfold wtau. apply Rmult_le_pos; [pose proof (pow2_ge_0 (ws z)); lra|].
  apply Rdiv_le_0_compat; [apply pow2_ge_0 | apply pow_lt; lra].
Qed.

Lemma bess_derive : forall z x, inside x -> is_derive (wbess z) x (wbess' z x).
Proof.
  intros z x Hx. pose proof (tau_nonneg z x Hx) as T.
  pose proof (is_derive_comp rr (wtau z) x _ _ (rr_derive _ T) (tau_derive z x Hx)) as D1.
  pose proof (is_derive_mult (wC z) (fun t => rr (wtau z t)) x _ _ (C_derive z x Hx) D1 Rmult_comm) as D2.
  unfold wbess, wbess'. match type of D2 with is_derive _ _ ?d => match goal with |- is_derive _ _ ?e => replace e with d; [exact D2|] end end.
  reflexivity.
Qed.

(** A bound for the slope of the part with the Bessel functions. *)
Definition wl (g : R) : R := 215 / 100 + 199 / 10 * g + 27 * g ^ 2.

Lemma inverse_chord : forall x, inside x -> 0 < / (1 - wb * x ^ 2) <= 1 + 2883 / 10000 * x ^ 2.
Proof.
  intros x Hx. destruct (wh_bounds x Hx) as [D _]. split; [apply Rinv_0_lt_compat; lra|].
  apply Rmult_le_reg_r with (1 - wb * x ^ 2); [lra|]. rewrite Rinv_l by lra. rewrite wb_value. unfold inside in Hx.
  assert (0 <= x ^ 2 < 1) by nra. nra.
Qed.

Lemma powers_below : forall g, 0 <= g <= 1 -> 0 <= g ^ 2 <= g /\ 0 <= g ^ 3 <= g /\ 0 <= g ^ 4 <= g /\ 0 <= g ^ 5 <= g /\ 0 <= g ^ 6 <= g /\ 0 <= g ^ 7 <= g /\ 0 <= g ^ 8 <= g.
Proof.
  intros g Hg. assert (A : forall n, 0 <= g ^ S n <= g).
  { intro n. simpl. assert (0 <= g ^ n <= 1) by (split; [apply pow_le; lra | rewrite <- (pow1 n); apply pow_incr; lra]).
    split; [apply Rmult_le_pos; lra|]. rewrite <- (Rmult_1_r g) at 3. apply Rmult_le_compat_l; lra. }
  repeat split; apply A.
Qed.

Lemma C1_bound : forall z x, 0 < z <= 1 / 10 -> inside x -> 0 <= wC1 z x <= 2145 / 1000 * (1 + 711 / 100 * x ^ 2).
Proof.
  intros z x Hz Hx. pose proof (inverse_chord x Hx) as I. pose proof (ws_bounds z Hz) as S. destruct (wh_bounds x Hx) as [D _].
  unfold wC1. replace ((1 + 8 * wb * x ^ 2 + 3 * wb ^ 2 * x ^ 4) / (1 - wb * x ^ 2) ^ 4) with ((1 + 8 * wb * x ^ 2 + 3 * wb ^ 2 * (x ^ 2) ^ 2) * (/ (1 - wb * x ^ 2)) ^ 4) by (field; lra).
  rewrite wb_value in *. set (i := / (1 - _ * x ^ 2)) in *. clearbody i.
  unfold inside in Hx. assert (G : 0 <= x ^ 2 <= 1) by nra. set (g := x ^ 2) in *. clearbody g. destruct (powers_below g G) as (G2 & G3 & G4 & G5 & G6 & _ & _).
  assert (I4 : 0 <= i ^ 4 <= (1 + 2883 / 10000 * g) ^ 4) by (split; [apply pow_le; lra | apply pow_incr; lra]).
  assert (S0 : 0 <= ws z ^ 2 <= (2071 / 1000) ^ 2) by (split; [apply pow2_ge_0 | apply pow_incr; lra]). assert (S2 : 0 <= ws z ^ 2 / 2 <= 2145 / 1000) by lra.
  assert (K : 0 <= (1 + 8 * (223729 / 1000000) * g + 3 * (223729 / 1000000) ^ 2 * g ^ 2) * i ^ 4 <= 1 + 711 / 100 * g).
  { split; [apply Rmult_le_pos; lra|]. apply Rle_trans with ((1 + 8 * (223729 / 1000000) * g + 3 * (223729 / 1000000) ^ 2 * g ^ 2) * (1 + 2883 / 10000 * g) ^ 4); [apply Rmult_le_compat_l; lra|].
    ring_simplify. lra. }
  split; [apply Rmult_le_pos; lra | apply Rmult_le_compat; lra].
Qed.

Lemma C_bound : forall z x, 0 < z <= 1 / 10 -> inside x -> 0 <= wC z x ^ 2 <= 46 / 10 * x ^ 2 * (1 + 585 / 100 * x ^ 2).
Proof.
  intros z x Hz Hx. pose proof (inverse_chord x Hx) as I. pose proof (ws_bounds z Hz) as S. destruct (wh_bounds x Hx) as [D _]. split; [apply pow2_ge_0|].
  unfold wC. replace ((ws z ^ 2 / 2 * (x * (1 + wb * x ^ 2) / (1 - wb * x ^ 2) ^ 3)) ^ 2) with ((ws z ^ 2 / 2) ^ 2 * x ^ 2 * ((1 + wb * x ^ 2) ^ 2 * (/ (1 - wb * x ^ 2)) ^ 6)) by (field; lra).
  rewrite wb_value in *. set (i := / (1 - _ * x ^ 2)) in *. clearbody i.
  unfold inside in Hx. assert (G : 0 <= x ^ 2 <= 1) by nra. set (g := x ^ 2) in *. clearbody g. destruct (powers_below g G) as (G2 & G3 & G4 & G5 & G6 & G7 & G8).
  assert (I6 : 0 <= i ^ 6 <= (1 + 2883 / 10000 * g) ^ 6) by (split; [apply pow_le; lra | apply pow_incr; lra]).
  assert (S0 : 0 <= ws z ^ 2 <= (2071 / 1000) ^ 2) by (split; [apply pow2_ge_0 | apply pow_incr; lra]).
  assert (S2 : 0 <= (ws z ^ 2 / 2) ^ 2 <= 46 / 10) by (split; [apply pow2_ge_0|]; apply Rle_trans with ((21447 / 10000) ^ 2); [apply pow_incr; lra | lra]).
  assert (K : 0 <= (1 + 223729 / 1000000 * g) ^ 2 * i ^ 6 <= 1 + 585 / 100 * g).
  { split; [apply Rmult_le_pos; [apply pow2_ge_0 | lra]|]. apply Rle_trans with ((1 + 223729 / 1000000 * g) ^ 2 * (1 + 2883 / 10000 * g) ^ 6); [apply Rmult_le_compat_l; [apply pow2_ge_0 | lra]|].
    ring_simplify. lra. }
  apply Rmult_le_compat; [apply Rmult_le_pos; lra | lra | apply Rmult_le_compat_r; lra | lra].
Qed.

Lemma bess_slope : forall z x, 0 < z <= 1 / 10 -> inside x -> - wl (x ^ 2) <= wbess' z x <= wl (x ^ 2).
Proof.
  intros z x Hz Hx. pose proof (C1_bound z x Hz Hx) as B1. pose proof (C_bound z x Hz Hx) as B2. pose proof (tau_nonneg z x Hx) as T.
  pose proof (rr_bounds _ T) as R0. pose proof (rr'_bounds _ T) as R1. unfold wbess', wl.
  replace (wC z x * (wC z x * rr' (wtau z x))) with (wC z x ^ 2 * rr' (wtau z x)) by ring.
  set (r0 := rr _) in *. set (r1 := rr' _) in *. set (c1 := wC1 z x) in *. set (c2 := wC z x ^ 2) in *. clearbody r0 r1 c1 c2.
  unfold inside in Hx. assert (G : 0 <= x ^ 2 <= 1) by nra. set (g := x ^ 2) in *. clearbody g. assert (G2 : 0 <= g ^ 2) by apply pow2_ge_0.
  assert (0 <= c1 * r0 <= c1) by (split; [apply Rmult_le_pos; lra|]; rewrite <- (Rmult_1_r c1) at 2; apply Rmult_le_compat_l; lra).
  assert (- c2 <= c2 * r1 <= c2) by (split; nra). lra.
Qed.

(** The slope of the steep part. *)
Definition wslope (z x : R) : R :=
  / z * ((1 + 3 * x ^ 2) / (1 - x ^ 2) ^ 3 + 5 / 10 - 13125 / 10000 * x ^ 2) + (1 - 675 / 100 * x ^ 2 - 5 * ((1 + x ^ 2) / (1 - x ^ 2) ^ 2))
  + 5 * (wc0 z * (1 + wc0 z * x ^ 2) / (1 - wc0 z * x ^ 2) ^ 2) + 2 * (473 / 1000) * ws z * ((1 + 3 * wb * x ^ 2) / (1 - wb * x ^ 2) ^ 3).

Lemma steep_derive : forall z x, 0 < z <= 1 / 10 -> inside x -> is_derive (wsteep z) x (wslope z x).
Proof.
  intros z x Hz Hx. destruct (wh_bounds x Hx) as [D _]. assert (C : 0 < wc0 z < 1) by (apply wlc_c0_bounds; lra).
  unfold wsteep, wslope. set (c := wc0 z) in *. clearbody c. set (q := / z). clearbody q. set (s := ws z). clearbody s. 
  unfold inside in Hx. assert (X : 0 < 1 - x ^ 2) by nra. assert (CX : 0 < 1 - c * x ^ 2) by nra. set (b := wb) in *. clearbody b.
  auto_derive.
  - repeat split; try lra; apply Rgt_not_eq; try (apply Rmult_lt_0_compat); nra.
  - field. repeat split; lra.
Qed.

Lemma slope_mono : forall z x y, 0 < z <= 1 / 10 -> inside x -> inside y -> x ^ 2 <= y ^ 2 -> wslope z x <= wslope z y.
Proof.
  intros z x y Hz Hx Hy Hxy. destruct (wh_bounds x Hx) as [Dx _]. destruct (wh_bounds y Hy) as [Dy _]. assert (C : 0 < wc0 z < 1) by (apply wlc_c0_bounds; lra).
  assert (Q : 10 <= / z). { replace 10 with (/ (1 / 10)) by field. apply Rinv_le_contravar; lra. }
  pose proof (ws_bounds z Hz) as S. unfold wslope. set (c := wc0 z) in *. clearbody c. set (q := / z) in *. clearbody q. set (s := ws z) in *. clearbody s.
  unfold inside in *. assert (X : 0 <= x ^ 2 <= y ^ 2 /\ y ^ 2 < 1) by (split; [split|]; nra).
  assert (B : 0 < wb < 1) by (rewrite wb_value; lra). set (b := wb) in *. clearbody b.
  set (gx := x ^ 2) in *. set (gy := y ^ 2) in *. clearbody gx gy. clear x y Hx Hy Hxy. destruct X as [[X1 X2] X3].
  (* the reciprocals grow *)
  assert (R : forall k g g', 0 <= k <= 1 -> 0 <= g <= g' -> g' < 1 -> 0 < / (1 - k * g) <= / (1 - k * g')).
  { intros k g g' Hk Hg Hg'. assert (k * g <= k * g') by (apply Rmult_le_compat_l; lra). assert (k * g' < 1) by nra. split; [apply Rinv_0_lt_compat; lra | apply Rinv_le_contravar; lra]. }
  assert (P2 : c * (1 + c * gx) / (1 - c * gx) ^ 2 <= c * (1 + c * gy) / (1 - c * gy) ^ 2).
  { pose proof (R c gx gy ltac:(lra) ltac:(lra) X3) as I. unfold Rdiv. rewrite <- !pow_inv. apply Rmult_le_compat; [nra | apply pow_le; lra | nra | apply pow_incr; lra]. }
  assert (P3 : (1 + 3 * b * gx) / (1 - b * gx) ^ 3 <= (1 + 3 * b * gy) / (1 - b * gy) ^ 3).
  { pose proof (R b gx gy ltac:(lra) ltac:(lra) X3) as I. unfold Rdiv. rewrite <- !pow_inv. apply Rmult_le_compat; [nra | apply pow_le; lra | nra | apply pow_incr; lra]. }
  assert (P1 : q * ((1 + 3 * gx) / (1 - gx) ^ 3 + 5 / 10 - 13125 / 10000 * gx) + (1 - 675 / 100 * gx - 5 * ((1 + gx) / (1 - gx) ^ 2)) <=
    q * ((1 + 3 * gy) / (1 - gy) ^ 3 + 5 / 10 - 13125 / 10000 * gy) + (1 - 675 / 100 * gy - 5 * ((1 + gy) / (1 - gy) ^ 2))).
  { pose proof (R 1 gx gy ltac:(lra) ltac:(lra) X3) as I. rewrite !Rmult_1_l in I.
    assert (VX : 1 <= / (1 - gx)). { rewrite <- Rinv_1 at 1. apply Rinv_le_contravar; lra. }
    set (vx := / (1 - gx)) in *. set (vy := / (1 - gy)) in *.
    assert (Ex : gx = 1 - / vx) by (unfold vx; rewrite Rinv_inv; ring). assert (Ey : gy = 1 - / vy) by (unfold vy; rewrite Rinv_inv; ring).
    assert (F1 : forall g v, 1 <= v -> g = 1 - / v -> (1 + 3 * g) / (1 - g) ^ 3 = 4 * v ^ 3 - 3 * v ^ 2) by (intros g v Hv Eg; rewrite Eg; field; lra).
    assert (F2 : forall g v, 1 <= v -> g = 1 - / v -> (1 + g) / (1 - g) ^ 2 = 2 * v ^ 2 - v) by (intros g v Hv Eg; rewrite Eg; field; lra).
    rewrite (F1 gx vx), (F1 gy vy), (F2 gx vx), (F2 gy vy) by (try assumption; lra).
    assert (J : gy - gx <= vy - vx).
    { rewrite Ex, Ey. assert (E : 1 - / vy - (1 - / vx) = (vy - vx) * (/ vx * / vy)) by (field; lra). rewrite E. rewrite <- (Rmult_1_r (vy - vx)) at 2. apply Rmult_le_compat_l; [lra|].
      assert (/ vx <= / 1) by (apply Rinv_le_contravar; lra). assert (/ vy <= / 1) by (apply Rinv_le_contravar; lra). rewrite Rinv_1 in *.
      assert (0 < / vx) by (apply Rinv_0_lt_compat; lra). assert (0 < / vy) by (apply Rinv_0_lt_compat; lra).
      apply Rle_trans with (1 * 1); [apply Rmult_le_compat; lra | lra]. }
    clearbody vx vy. clear F1 F2 Ex Ey P2 P3 R. set (e := vy - vx) in *. set (S' := vx + vy).
    assert (E0 : 0 <= e) by (unfold e; lra). assert (HS : 2 <= S') by (unfold S'; lra).
    assert (G : 4 * vx ^ 3 - 3 * vx ^ 2 + 5 / 10 - 13125 / 10000 * gx + e * (3 * S' ^ 2 - 3 * S' - 13125 / 10000) <= 4 * vy ^ 3 - 3 * vy ^ 2 + 5 / 10 - 13125 / 10000 * gy).
    { replace (4 * vy ^ 3) with (4 * vx ^ 3 + e * (4 * (vx ^ 2 + vx * vy + vy ^ 2))) by (unfold e; ring).
      replace (3 * vy ^ 2) with (3 * vx ^ 2 + e * (3 * S')) by (unfold e, S'; ring).
      assert (e * (3 * S' ^ 2) <= e * (4 * (vx ^ 2 + vx * vy + vy ^ 2))) by (apply Rmult_le_compat_l; [lra | unfold S'; nra]).
      lra. }
    set (u := 4 * vx ^ 3 - 3 * vx ^ 2 + 5 / 10 - 13125 / 10000 * gx) in *. set (w := 4 * vy ^ 3 - 3 * vy ^ 2 + 5 / 10 - 13125 / 10000 * gy) in *. clearbody u w.
    assert (E1 : 0 <= e * (3 * S' ^ 2 - 3 * S' - 13125 / 10000)) by (apply Rmult_le_pos; [exact E0 | nra]).
    assert (10 * (w - u) <= q * (w - u)) by (apply Rmult_le_compat_r; lra).
    replace (vy ^ 2) with (vx ^ 2 + e * S') by (unfold e, S'; ring).
    assert (V : vy = vx + e) by (unfold e; ring). rewrite V at 1.
    assert (E2 : 0 <= e * (30 * S' ^ 2 - 40 * S' - 149 / 10)) by (apply Rmult_le_pos; [exact E0 | nra]).
    clearbody e S'. lra. }
  assert (2 * (473 / 1000) * s * ((1 + 3 * b * gx) / (1 - b * gx) ^ 3) <= 2 * (473 / 1000) * s * ((1 + 3 * b * gy) / (1 - b * gy) ^ 3)) by (apply Rmult_le_compat_l; lra).
  lra.
Qed.

Lemma slope_large : forall z x, 0 < z <= 1 / 10 -> inside x -> 3 * wl (x ^ 2) + 1 / 2 <= wslope z x.
Proof.
  intros z x Hz Hx. destruct (wh_bounds x Hx) as [D _].
  assert (Q : 10 <= / z). { replace 10 with (/ (1 / 10)) by field. apply Rinv_le_contravar; lra. }
  assert (C : 0 < wc0 z < 1) by (apply wlc_c0_bounds; lra). pose proof (ws_bounds z Hz) as S. unfold wslope. 
  set (c := wc0 z) in *. clearbody c. set (q := / z) in *. clearbody q. set (s := ws z) in *. clearbody s.
  unfold inside in Hx. assert (G : 0 <= x ^ 2 < 1) by nra. assert (B : 0 < wb < 1) by (rewrite wb_value; lra). set (b := wb) in *. clearbody b.
  set (g := x ^ 2) in *. clearbody g. clear x Hx.
  assert (CG : 0 <= c * g < 1) by (split; [apply Rmult_le_pos; lra | nra]). assert (BG : 0 <= b * g) by (apply Rmult_le_pos; lra).
  assert (P2 : 0 <= c * (1 + c * g) / (1 - c * g) ^ 2) by (apply Rdiv_le_0_compat; [apply Rmult_le_pos; lra | apply pow_lt; lra]).
  assert (P3 : 0 <= 2 * (473 / 1000) * s * ((1 + 3 * b * g) / (1 - b * g) ^ 3)) by (apply Rmult_le_pos; [lra | apply Rdiv_le_0_compat; [lra | apply pow_lt; lra]]).
  set (p2 := c * _ / _) in *. set (p3 := 2 * _ * s * _) in *. clearbody p2 p3. clear CG BG C S D B.
  assert (V : 1 + g + g ^ 2 <= / (1 - g)). { apply Rmult_le_reg_r with (1 - g); [lra|]. rewrite Rinv_l by lra. nra. }
  assert (G3 : 0 <= g ^ 3) by (apply pow_le; lra). assert (G4 : 0 <= g ^ 4) by (apply pow_le; lra). assert (G5 : 0 <= g ^ 5) by (apply pow_le; lra). assert (G6 : 0 <= g ^ 6) by (apply pow_le; lra).
  assert (V3 : 1 + 3 * g + 6 * g ^ 2 + 7 * g ^ 3 <= (/ (1 - g)) ^ 3).
  { apply Rle_trans with ((1 + g + g ^ 2) ^ 3); [|apply pow_incr; split; [nra | exact V]]. ring_simplify. lra. }
  set (w := (1 + 3 * g) / (1 - g) ^ 3 + 5 / 10 - 13125 / 10000 * g).
  assert (W : 0 <= w). { assert (1 <= (1 + 3 * g) / (1 - g) ^ 3); [|unfold w; lra]. unfold Rdiv. rewrite <- pow_inv. apply Rle_trans with (1 * 1); [lra | apply Rmult_le_compat; nra]. }
  assert (10 * w <= q * w) by (apply Rmult_le_compat_r; lra).
  assert (E : 10 * w + (1 - 675 / 100 * g - 5 * ((1 + g) / (1 - g) ^ 2)) = (5 + 30 * g + 5 * g ^ 2) * (/ (1 - g)) ^ 3 + 6 - 19875 / 1000 * g) by (unfold w; field; lra).
  assert (M : (5 + 30 * g + 5 * g ^ 2) * (1 + 3 * g + 6 * g ^ 2 + 7 * g ^ 3) <= (5 + 30 * g + 5 * g ^ 2) * (/ (1 - g)) ^ 3) by (apply Rmult_le_compat_l; [nra | exact V3]).
  assert (F : 3 * wl g + 1 / 2 <= (5 + 30 * g + 5 * g ^ 2) * (1 + 3 * g + 6 * g ^ 2 + 7 * g ^ 3) + 6 - 19875 / 1000 * g).
  { unfold wl. assert (0 <= 405 / 100 - 34575 / 1000 * g + 44 * g ^ 2 + 230 * g ^ 3).
    { pose proof (Rmult_le_pos g _ (proj1 G) (pow2_ge_0 (g - 17 / 100))). pose proof (pow2_ge_0 (g - 17 / 100)). nra. }
    ring_simplify. lra. }
  lra.
Qed.

Definition wforce_scaled (z x : R) : R := wsteep z x - wbess z x.

Lemma scaled_derive : forall z x, 0 < z <= 1 / 10 -> inside x -> is_derive (wforce_scaled z) x (wslope z x - wbess' z x).
Proof. intros z x Hz Hx. apply (is_derive_minus (wsteep z) (wbess z)); [apply steep_derive; assumption | apply bess_derive; assumption]. Qed.

Lemma wl_mono : forall g g', 0 <= g <= g' -> wl g <= wl g'.
Proof. intros g g' H. unfold wl. nra. Qed.

Lemma wl_pos : forall g, 0 <= g -> 215 / 100 <= wl g.
Proof. intros g H. unfold wl. nra. Qed.

Lemma scaled_between : forall z x y m M, 0 < z <= 1 / 10 -> inside x -> inside y -> inside m -> inside M -> x <= y ->
  (forall c, x <= c <= y -> m ^ 2 <= c ^ 2 <= M ^ 2) ->
  (wslope z m - wl (M ^ 2)) * (y - x) <= wforce_scaled z y - wforce_scaled z x <= (wslope z M + wl (M ^ 2)) * (y - x) /\
  y - x <= wforce_scaled z y - wforce_scaled z x.
Proof.
  intros z x y m M Hz Hx Hy Hm HM Hxy Hc2. destruct (Req_dec x y) as [->|N]; [lra|].
  destruct (MVT_gen (wforce_scaled z) x y (fun t => wslope z t - wbess' z t)) as (c & Hc & E).
  - intros t Ht. rewrite Rmin_left, Rmax_right in Ht by lra. apply scaled_derive; [exact Hz|]. unfold inside in *. lra.
  - intros t Ht. rewrite Rmin_left, Rmax_right in Ht by lra. apply continuity_pt_filterlim. apply (ex_derive_continuous (wforce_scaled z)). eexists.
    apply scaled_derive; [exact Hz|]. unfold inside in *. lra.
  - rewrite Rmin_left, Rmax_right in Hc by lra. assert (Ic : inside c) by (unfold inside in *; lra). rewrite E. destruct (Hc2 c Hc) as [L1 L2].
    pose proof (slope_mono z m c Hz Hm Ic L1). pose proof (slope_mono z c M Hz Ic HM L2).
    pose proof (bess_slope z c Hz Ic) as B. pose proof (slope_large z c Hz Ic) as L.
    pose proof (wl_mono (c ^ 2) (M ^ 2) ltac:(split; [apply pow2_ge_0 | assumption])).
    pose proof (wl_pos (c ^ 2) (pow2_ge_0 c)).
    split; [split; apply Rmult_le_compat_r; lra|]. rewrite <- (Rmult_1_l (y - x)) at 1. apply Rmult_le_compat_r; lra.
Qed.

Section Finder.
Variables (N : Z) (z : R).
Hypothesis HN : (0 < N)%Z.
Hypothesis Hz : 0 < z <= 1 / 10.
Let f (x : R) : R := wlc_isometric.nondimensional_force N z x.
Let fp (x : R) : R := (f (x + wstep) - f (x - wstep)) / (2 / 100000000).

Lemma finder_step : forall r x, 0 <= r <= x -> x <= 9999 / 10000 -> 0 <= f x - f r /\ 0 <= (f x - f r) / fp x / 2 <= x - r.
Proof.
  intros r x Hr Hx. assert (PN : 0 < IZR N) by (apply IZR_lt; exact HN).
  assert (Ir : inside r) by (unfold inside; lra). set (m := Rmax 0 (x - wstep)).
  assert (Hm : 0 <= m <= x /\ x <= m + wstep) by (unfold m, Rmax; destruct (Rle_dec 0 (x - wstep)); unfold wstep in *; lra).
  assert (Em' : forall c, x - wstep <= c -> m ^ 2 <= c ^ 2) by (intros c Hc; unfold m, Rmax; destruct (Rle_dec 0 (x - wstep)); [apply pow_incr; lra | pose proof (pow2_ge_0 c); lra]).
  clearbody m. assert (I0 : inside m) by (unfold inside; lra). assert (Ix : inside x) by (unfold inside; lra).
  assert (Ip : inside (x + wstep)) by (unfold inside, wstep; lra). assert (Im : inside (x - wstep)) by (unfold inside, wstep; lra).
  pose proof (force_split N z r HN Hz Ir) as Er. pose proof (force_split N z x HN Hz Ix) as Ex.
  pose proof (force_split N z _ HN Hz Ip) as Ep. pose proof (force_split N z _ HN Hz Im) as Em.
  fold (f r) in Er. fold (f x) in Ex. fold (f (x + wstep)) in Ep. fold (f (x - wstep)) in Em.
  fold (wforce_scaled z r) in Er. fold (wforce_scaled z x) in Ex. fold (wforce_scaled z (x + wstep)) in Ep. fold (wforce_scaled z (x - wstep)) in Em.
  destruct (scaled_between z r x 0 x Hz Ir Ix ltac:(unfold inside; lra) Ix ltac:(lra)) as [[_ S1] S1'].
  { intros c Hc. split; [pose proof (pow2_ge_0 c); lra | apply pow_incr; lra]. }
  destruct (scaled_between z x (x + wstep) x (x + wstep) Hz Ix Ip Ix Ip ltac:(unfold wstep; lra)) as [[S2 _] _].
  { intros c Hc. split; apply pow_incr; lra. }
  destruct (scaled_between z (x - wstep) x m (x + wstep) Hz Im Ix I0 Ip ltac:(unfold wstep; lra)) as [[S3 _] _].
  { intros c Hc. split; [apply Em'; lra|]. rewrite <- (pow2_abs c). apply pow_incr. split; [apply Rabs_pos|]. apply Rabs_le. unfold wstep in *; lra. }
  pose proof (slope_large z m Hz I0) as L3.
  assert (W1 : wl (x ^ 2) <= wl (m ^ 2) + 1 / 20).
  { assert (x ^ 2 <= m ^ 2 + 1 / 10 ^ 7) by (unfold wstep in *; nra). assert (0 <= m ^ 2 <= 1) by nra. assert (0 <= x ^ 2 <= 1) by nra.
    set (g := x ^ 2) in *. set (g' := m ^ 2) in *. clearbody g g'. unfold wl. nra. }
  assert (W2 : wl ((x + wstep) ^ 2) <= wl (m ^ 2) + 1 / 20).
  { assert ((x + wstep) ^ 2 <= m ^ 2 + 1 / 10 ^ 7) by (unfold wstep in *; nra). assert (0 <= m ^ 2 <= 1) by nra. assert (0 <= (x + wstep) ^ 2 <= 1) by (unfold inside in Ip; nra).
    set (g := (x + wstep) ^ 2) in *. set (g' := m ^ 2) in *. clearbody g g'. unfold wl. nra. }
  pose proof (wl_pos (m ^ 2) (pow2_ge_0 _)) as WP. pose proof (wl_pos (x ^ 2) (pow2_ge_0 _)) as WP'.
  pose proof (slope_large z x Hz Ix) as L2.
  assert (D : (wslope z x + wl (x ^ 2)) <= 2 * fp x * IZR N).
  { unfold fp. replace (2 * ((f (x + wstep) - f (x - wstep)) / (2 / 100000000)) * IZR N) with ((f (x + wstep) * IZR N - f (x - wstep) * IZR N) * 100000000) by field.
    rewrite Ep, Em. replace (x + wstep - x) with wstep in S2 by ring. replace (x - (x - wstep)) with wstep in S3 by ring.
    set (a1 := wforce_scaled z (x + wstep)) in *. set (a2 := wforce_scaled z (x - wstep)) in *. set (a0 := wforce_scaled z x) in *.
    set (k3 := wslope z m) in *. set (k2 := wslope z x) in *. set (l1 := wl (x ^ 2)) in *. set (l2 := wl ((x + wstep) ^ 2)) in *. set (l3 := wl (m ^ 2)) in *.
    clearbody a0 a1 a2 k2 k3 l1 l2 l3. unfold wstep in *. lra. }
  assert (U : (f x - f r) * IZR N <= (wslope z x + wl (x ^ 2)) * (x - r)) by (rewrite Rmult_minus_distr_r, Er, Ex; lra).
  assert (L : x - r <= (f x - f r) * IZR N) by (rewrite Rmult_minus_distr_r, Er, Ex; lra).
  set (g := f x - f r) in *. set (d := fp x) in *. clearbody g d. set (k := wslope z x + wl (x ^ 2)) in *. assert (Hk : 0 < k) by (unfold k; lra). clearbody k. clear - PN Hr Hx D U L Hk.
  assert (Hg : 0 <= g). { apply Rnot_lt_le. intro H. assert (g * IZR N < 0 * IZR N) by (apply Rmult_lt_compat_r; lra). lra. }
  assert (Hd : 0 < d). { apply Rnot_le_lt. intro H. assert (d * IZR N <= 0 * IZR N) by (apply Rmult_le_compat_r; lra). lra. }
  split; [exact Hg|]. split.
  - apply Rdiv_le_0_compat; [apply Rdiv_le_0_compat; lra | lra].
  - replace (g / d / 2) with (g * IZR N / (2 * d * IZR N)) by (field; lra). set (w := 2 * d * IZR N) in *. assert (0 < w) by lra.
    apply Rmult_le_reg_r with w; [assumption|]. replace (g * IZR N / w * w) with (g * IZR N) by (field; lra).
    apply Rle_trans with (1 := U). rewrite Rmult_comm. apply Rmult_le_compat_l; lra.
Qed.

Lemma loop_stays_inside : forall r, 0 <= r -> forall n k y res, r <= y <= 9999 / 10000 ->
  r <= fst (fst (math.newton_powered_loop (f r) f fp (1 / 100000) 2 n k y res)) <= 9999 / 10000.
Proof.
  intros r Hr. induction n as [|n IH]; intros k y res Hy.
  - exact Hy.
  - change (math.newton_powered_loop (f r) f fp (1 / 100000) 2 (S n) k y res) with
      (if Rltb (1 / 100000) res then math.newton_powered_loop (f r) f fp (1 / 100000) 2 n (k + 1) (y + - ((f y - f r) * ((f y - f r) * 1)) / ((f y - f r) * 1) / fp y / 2) (Rabs ((f y - f r) / f r))
       else (y, k, res)).
    destruct (Rltb (1 / 100000) res); [|exact Hy]. apply IH.
    destruct (finder_step r y ltac:(lra) ltac:(lra)) as [G S]. destruct (Req_dec (f y - f r) 0) as [E|E].
    + rewrite E. rewrite Rmult_0_l, Ropp_0. unfold Rdiv. rewrite !Rmult_0_l. lra.
    + set (g := f y - f r) in *. replace (- (g * (g * 1)) / (g * 1)) with (- g) by (field; exact E).
      replace (- g / fp y / 2) with (- (g / fp y / 2)) by (unfold Rdiv; ring). lra.
Qed.

Lemma finder_returns : forall r, 0 <= r <= 9999 / 10000 ->
  r <= math.inverse_newton_raphson_powered (f r) f fp (9999 / 10000) (1 / 100000) 100 2 <= 9999 / 10000.
Proof. intros r Hr. unfold math.inverse_newton_raphson_powered. apply loop_stays_inside; lra. Qed.
End Finder.

Lemma worm_answers_at : forall N z r, (0 < N)%Z -> 0 < z <= 1 / 10 -> 0 <= r <= 9999 / 10000 ->
  let eta := wlc_isometric.nondimensional_force N z r in
  (exists x, wlc_isotensional.nondimensional_end_to_end_length N z eta = Some x) /\
  (forall l m T, exists g, wlc_isotensional.nondimensional_gibbs_free_energy N l m z eta T = Some g).
Proof.
  intros N z r HN Hz Hr eta. pose proof (finder_returns N z HN Hz r Hr) as F. fold eta in F.
  split.
  - unfold wlc_isotensional.nondimensional_end_to_end_length. cbv zeta in *.
    match type of F with _ <= ?a <= _ => match goal with |- context [math.inverse_newton_raphson_powered ?u ?v ?w ?x ?y ?z ?t] =>
      change (math.inverse_newton_raphson_powered u v w x y z t) with a; set (gh := a) in * end end.
    assert (E : negb ((@sdec R R_scalar 0 0 <=? gh)%S && (gh <=? sdec 1 0)%S)%bool = false).
    { change (negb (Rleb 0 gh && Rleb gh 1) = false). unfold Rleb. destruct (Rle_dec 0 gh); [|lra]. destruct (Rle_dec gh 1); [reflexivity | lra]. }
    rewrite E. eexists. reflexivity.
  - intros l m T. unfold wlc_isotensional.nondimensional_gibbs_free_energy. cbv zeta in *.
    match type of F with _ <= ?a <= _ => match goal with |- context [math.inverse_newton_raphson_powered ?u ?v ?w ?x ?y ?z ?t] =>
      change (math.inverse_newton_raphson_powered u v w x y z t) with a; set (gh := a) in * end end.
    assert (E : negb ((@sdec R R_scalar 0 0 <=? gh)%S && (gh <=? sdec 1 0)%S)%bool = false).
    { change (negb (Rleb 0 gh && Rleb gh 1) = false). unfold Rleb. destruct (Rle_dec 0 gh); [|lra]. destruct (Rle_dec gh 1); [reflexivity | lra]. }
    rewrite E. eexists. reflexivity.
Qed.
