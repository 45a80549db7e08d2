(** The density of the random walk falls with the distance: two more links at a time. *)
From Coq Require Import Reals Lra Lia Factorial.
From Coquelicot Require Import Coquelicot.
From Verif Require Import SpecWalk PIrwinHall PWalk.
Open Scope R_scope.

(** ** Derivatives *)
Lemma ih_scaled : forall e n c s, (1 <= e)%nat -> is_derive (fun t => ih (S e) n ((c - t) / 2)) s (- (/ 2) * ih e n ((c - s) / 2)).
Proof.
  intros e n c s He. evar_last.
  - apply (is_derive_comp (V := R_NormedModule) (ih (S e) n) (fun t => (c - t) / 2)); [apply ih_derive; left; exact He|].
    auto_derive; [exact I | reflexivity].
  - unfold scal; simpl; unfold mult; simpl. field.
Qed.

Lemma ih_two : forall e n x, ih e (S (S n)) x = ih e n x - 2 * ih e n (x - 1) + ih e n (x - 2).
Proof. intros e n x. cbn [ih]. replace (x - 1 - 1) with (x - 2) by ring. ring. Qed.

Lemma h_beyond : forall j s, INR (S (S j)) <= s -> h j s = 0.
Proof. intros j s H. unfold h. apply ih_neg. lra. Qed.

Lemma h_nonneg : forall j s, 0 < s -> 0 <= h j s.
Proof. intros j s H. destruct (Rlt_dec s (INR (S (S j)))) as [L|L]; [left; apply h_pos; lra | rewrite h_beyond by lra; lra]. Qed.

Lemma h_odd : forall j s, (1 <= j)%nat -> h j (- s) = - h j s.
Proof.
  intros j s Hj. unfold h. set (N := INR (S (S j))).
  assert (A : is_derive (fun t => ih (S j) (S (S j)) ((N - t) / 2)) (- s) (- (/ 2) * ih j (S (S j)) ((N - - s) / 2))) by (apply ih_scaled, Hj).
  assert (B : is_derive (fun t => ih (S j) (S (S j)) ((N - t) / 2)) (- s) (/ 2 * ih j (S (S j)) ((N - s) / 2))).
  { apply (is_derive_ext (fun t => ih (S j) (S (S j)) ((N - - t) / 2))).
    - intro t. replace ((N - - t) / 2) with (N - (N - t) / 2) by field. unfold N. apply ih_sym.
    - evar_last.
      + apply (is_derive_comp (V := R_NormedModule) (fun u => ih (S j) (S (S j)) ((N - u) / 2)) (fun t => - t)); [apply ih_scaled, Hj|].
        auto_derive; [exact I | reflexivity].
      + unfold scal; simpl; unfold mult; simpl. replace (- - s) with s by ring. field. }
  apply is_derive_unique in A. apply is_derive_unique in B. rewrite A in B. lra.
Qed.

(** ** Monotonicity from the sign of the derivative *)
Lemma grows : forall (f df : R -> R) a b, a <= b -> (forall t, a <= t <= b -> is_derive f t (df t)) -> (forall t, a <= t <= b -> 0 <= df t) -> f a <= f b.
Proof.
  intros f df a b Hab D P. destruct (MVT_gen f a b df) as (c & Hc & E).
  - intros x Hx. rewrite Rmin_left, Rmax_right in Hx by lra. apply D. lra.
  - intros x Hx. rewrite Rmin_left, Rmax_right in Hx by lra. apply continuity_pt_filterlim, (ex_derive_continuous (V := R_NormedModule)). exists (df x). apply D. lra.
  - rewrite Rmin_left, Rmax_right in Hc by lra. specialize (P c Hc). nra.
Qed.
Lemma grows_strictly : forall (f df : R -> R) a b, a < b -> (forall t, a <= t <= b -> is_derive f t (df t)) -> (forall t, a <= t <= b -> 0 <= df t) -> 0 < df a -> f a < f b.
Proof.
  intros f df a b Hab D P PA.
  assert (X : exists t, a < t < b /\ f a < f t).
  { pose proof (D a ltac:(lra)) as DA. apply is_derive_Reals in DA. destruct (DA (df a / 2) ltac:(lra)) as (d & Hd).
    pose proof (cond_pos d) as DP. set (e := Rmin (d / 2) ((b - a) / 2)). assert (E : 0 < e) by (unfold e; apply Rmin_glb_lt; lra).
    assert (E1 : e <= d / 2) by apply Rmin_l. assert (E2 : e <= (b - a) / 2) by apply Rmin_r.
    specialize (Hd e ltac:(lra) ltac:(rewrite Rabs_pos_eq; lra)). exists (a + e). split; [lra|].
    apply Rabs_def2 in Hd. assert (Q : df a / 2 < (f (a + e) - f a) / e) by lra.
    apply (Rmult_lt_compat_r e) in Q; [|exact E]. unfold Rdiv in Q. rewrite (Rmult_assoc (f (a + e) - f a)), Rinv_l in Q by lra. nra. }
  destruct X as (t & Ht & Ft). apply Rlt_le_trans with (1 := Ft). apply (grows f df); [lra | intros; apply D; lra | intros; apply P; lra].
Qed.
Lemma falls_strictly : forall (f df : R -> R) a b, a < b -> (forall t, a <= t <= b -> is_derive f t (df t)) -> (forall t, a < t < b -> df t < 0) -> f b < f a.
Proof.
  intros f df a b Hab D P. assert (DD : forall c, a <= c <= b -> derivable_pt_lim f c (df c)) by (intros; apply is_derive_Reals, D; assumption).
  destruct (MVT_cor2 f df a b Hab DD) as (c & E & Hc). specialize (P c Hc). nra.
Qed.

(** ** The step *)
Definition falling (j : nat) : Prop := forall a b, 0 < a -> a <= b -> h j b * a <= h j a * b.
Definition gap (j : nat) : Prop := forall r, 0 < r < INR (S (S j)) -> h j (r + 2) * r < h j r * (r + 2).
Definition falling_strictly (j : nat) : Prop := forall a b, 0 < a -> a < b -> a < INR (S (S j)) -> h j b * a < h j a * b.

Lemma strict_falling : forall j, falling_strictly j -> falling j.
Proof.
  intros j H a b Ha Hab. destruct (Req_dec a b) as [->|N]; [lra|]. destruct (Rlt_dec a (INR (S (S j)))) as [L|L]; [left; apply H; lra|].
  rewrite (h_beyond j a), (h_beyond j b) by lra. lra.
Qed.
Lemma strict_gap : forall j, falling_strictly j -> gap j.
Proof. intros j H r Hr. apply H; lra. Qed.

Section Step.
Variable j : nat.
Hypothesis Hj : (1 <= j)%nat.
Hypothesis FA : falling j.
Hypothesis GA : gap j.
Local Notation N := (INR (S (S j))).

Definition A1 (t : R) : R := - 2 * ih (S j) (S (S j)) ((N - t) / 2).
Definition A2 (t : R) : R := 4 * ih (S (S j)) (S (S j)) ((N - t) / 2).
Lemma A1_derive : forall t, is_derive A1 t (h j t).
Proof.
  intro t. unfold A1. evar_last; [apply (is_derive_scal (fun t => ih (S j) (S (S j)) ((N - t) / 2))), ih_scaled, Hj|]. unfold h. field.
Qed.
Lemma A2_derive : forall t, is_derive A2 t (A1 t).
Proof.
  intro t. unfold A2. evar_last; [apply (is_derive_scal (fun t => ih (S (S j)) (S (S j)) ((N - t) / 2))), ih_scaled; lia|]. unfold A1. field.
Qed.

Definition k1 (s : R) : R := / 4 * (A1 (s - 2) - 2 * A1 s + A1 (s + 2)).
Lemma k_eq : forall s, h (S (S j)) s = / 4 * (A2 (s - 2) - 2 * A2 s + A2 (s + 2)).
Proof.
  intro s. unfold h, A2. rewrite ih_two. rewrite (S_INR (S (S (S j)))), (S_INR (S (S j))).
  replace ((N + 1 + 1 - s) / 2) with ((N - (s - 2)) / 2) by field.
  replace ((N - (s - 2)) / 2 - 1) with ((N - s) / 2) by field. replace ((N - (s - 2)) / 2 - 2) with ((N - (s + 2)) / 2) by field. field.
Qed.
Lemma shifted : forall (f df : R -> R) c t, (forall t, is_derive f t (df t)) -> is_derive (fun s => f (s + c)) t (df (t + c)).
Proof.
  intros f df c t D. evar_last; [apply (is_derive_comp (V := R_NormedModule) f (fun s => s + c)); [apply D | auto_derive; [exact I | reflexivity]]|].
  unfold scal; simpl; unfold mult; simpl. ring.
Qed.
Lemma second_difference : forall (f df : R -> R) t, (forall t, is_derive f t (df t)) ->
  is_derive (fun s => / 4 * (f (s - 2) - 2 * f s + f (s + 2))) t (/ 4 * (df (t - 2) - 2 * df t + df (t + 2))).
Proof.
  intros f df t D. apply (is_derive_scal (fun s => f (s - 2) - 2 * f s + f (s + 2))).
  apply (is_derive_plus (V := R_NormedModule) (fun s => f (s - 2) - 2 * f s) (fun s => f (s + 2))); [|apply shifted, D].
  apply (is_derive_minus (V := R_NormedModule) (fun s => f (s - 2)) (fun s => 2 * f s)); [apply (shifted f df (- 2)), D | apply is_derive_scal, D].
Qed.
Lemma k_derive : forall s, is_derive (h (S (S j))) s (k1 s).
Proof.
  intro s. apply (is_derive_ext (fun s => / 4 * (A2 (s - 2) - 2 * A2 s + A2 (s + 2)))); [intro t; symmetry; apply k_eq|].
  apply second_difference, A2_derive.
Qed.
Lemma k1_derive : forall s, is_derive k1 s (/ 4 * (h j (s - 2) - 2 * h j s + h j (s + 2))).
Proof. intro s. apply (second_difference A1 (h j)), A1_derive. Qed.

Definition D (s : R) : R := s * k1 s - h (S (S j)) s.
Lemma D_derive : forall s, is_derive D s (s * (/ 4 * (h j (s - 2) - 2 * h j s + h j (s + 2)))).
Proof.
  intro s. unfold D. evar_last.
  - apply (is_derive_minus (V := R_NormedModule) (fun s => s * k1 s) (h (S (S j)))); [|apply k_derive].
    apply (is_derive_mult (K := R_AbsRing) (fun s => s) k1); [apply (is_derive_id (K := R_AbsRing)) | apply k1_derive | intros; apply Rmult_comm].
  - unfold minus, plus, opp, scal, mult, one; simpl; unfold mult; simpl. ring.
Qed.

Lemma N_ge : 3 <= N.
Proof. rewrite !S_INR. assert (1 <= INR j) by (change 1 with (INR 1); apply le_INR, Hj). lra. Qed.

(** Up to two link lengths. *)
Lemma D_near : forall s, 0 < s <= 2 -> D s < 0.
Proof.
  intros s Hs. assert (D0 : D 0 = 0).
  { unfold D. assert (O : h (S (S j)) 0 = 0) by (pose proof (h_odd (S (S j)) 0 ltac:(lia)) as O; rewrite Ropp_0 in O; lra). rewrite O. ring. }
  rewrite <- D0. apply (falls_strictly D (fun s => s * (/ 4 * (h j (s - 2) - 2 * h j s + h j (s + 2))))); [lra | intros; apply D_derive|].
  intros r Hr. pose proof N_ge as NG. replace (r - 2) with (- (2 - r)) by ring. rewrite h_odd by exact Hj.
  pose proof (FA (2 - r) (r + 2) ltac:(lra) ltac:(lra)) as M. pose proof (GA r ltac:(lra)) as G.
  assert (X : - h j (2 - r) - 2 * h j r + h j (r + 2) < 0).
  { apply Rmult_lt_reg_r with (r + 2); [lra|]. nra. }
  nra.
Qed.

(** Beyond. *)
Lemma D_far : forall s, 2 < s < N + 2 -> D s < 0.
Proof.
  intros s Hs. pose proof N_ge as NG.
  set (p := h j s / s). assert (P0 : 0 <= p) by (apply Rmult_le_pos; [apply h_nonneg; lra | apply Rlt_le, Rinv_0_lt_compat; lra]).
  assert (PS : p * s = h j s) by (unfold p; field; lra).
  set (Bp := fun t => (t + 2) * A1 t - A2 t). set (Bm := fun t => (t - 2) * A1 t - A2 t).
  assert (DBp : forall t, is_derive Bp t ((t + 2) * h j t)).
  { intro t. unfold Bp. evar_last.
    - apply (is_derive_minus (V := R_NormedModule) (fun t => (t + 2) * A1 t) A2); [|apply A2_derive].
      apply (is_derive_mult (K := R_AbsRing) (fun t => t + 2) A1); [auto_derive; [exact I | reflexivity] | apply A1_derive | intros; apply Rmult_comm].
    - unfold minus, plus, opp, mult; simpl. ring. }
  assert (DBm : forall t, is_derive Bm t ((t - 2) * h j t)).
  { intro t. unfold Bm. evar_last.
    - apply (is_derive_minus (V := R_NormedModule) (fun t => (t - 2) * A1 t) A2); [|apply A2_derive].
      apply (is_derive_mult (K := R_AbsRing) (fun t => t - 2) A1); [auto_derive; [exact I | reflexivity] | apply A1_derive | intros; apply Rmult_comm].
    - unfold minus, plus, opp, mult; simpl. ring. }
  assert (ID : 4 * D s = (Bm (s + 2) - Bm s) - (Bp s - Bp (s - 2))).
  { unfold D. rewrite k_eq. unfold k1, Bm, Bp. field. }
  (* the part before *)
  assert (LO : p * ((s - 2) ^ 3 / 3 + (s - 2) ^ 2) * -1 + Bp (s - 2) < p * (s ^ 3 / 3 + s ^ 2) * -1 + Bp s).
  { apply (grows_strictly (fun t => p * (t ^ 3 / 3 + t ^ 2) * -1 + Bp t) (fun t => (t + 2) * (h j t - p * t))); [lra | | |].
    - intros t _. evar_last; [apply (is_derive_plus (V := R_NormedModule) (fun t => p * (t ^ 3 / 3 + t ^ 2) * -1) Bp); [auto_derive; [exact I | reflexivity] | apply DBp]|].
      unfold plus; simpl. field.
    - intros t Ht. apply Rmult_le_pos; [lra|]. assert (h j s * t <= h j t * s) by (apply FA; lra). assert (p * t * s = h j s * t) by (rewrite <- PS; ring).
      apply Rmult_le_reg_r with s; lra.
    - apply Rmult_lt_0_compat; [lra|]. pose proof (GA (s - 2) ltac:(lra)) as G. replace (s - 2 + 2) with s in G by ring.
      assert (p * (s - 2) * s = h j s * (s - 2)) by (rewrite <- PS; ring). apply Rmult_lt_reg_r with s; lra. }
  (* the part after *)
  assert (HI : p * (s ^ 3 / 3 - s ^ 2) - Bm s <= p * ((s + 2) ^ 3 / 3 - (s + 2) ^ 2) - Bm (s + 2)).
  { apply (grows (fun t => p * (t ^ 3 / 3 - t ^ 2) - Bm t) (fun t => (t - 2) * (p * t - h j t))); [lra | |].
    - intros t _. evar_last; [apply (is_derive_minus (V := R_NormedModule) (fun t => p * (t ^ 3 / 3 - t ^ 2)) Bm); [auto_derive; [exact I | reflexivity] | apply DBm]|].
      unfold minus, plus, opp; simpl. field.
    - intros t Ht. apply Rmult_le_pos; [lra|]. assert (h j t * s <= h j s * t) by (apply FA; lra). assert (p * t * s = h j s * t) by (rewrite <- PS; ring).
      apply Rmult_le_reg_r with s; lra. }
  assert (EQ : (s ^ 3 / 3 + s ^ 2) - ((s - 2) ^ 3 / 3 + (s - 2) ^ 2) = ((s + 2) ^ 3 / 3 - (s + 2) ^ 2) - (s ^ 3 / 3 - s ^ 2)) by field.
  assert (EQP : p * (s ^ 3 / 3 + s ^ 2) - p * ((s - 2) ^ 3 / 3 + (s - 2) ^ 2) = p * ((s + 2) ^ 3 / 3 - (s + 2) ^ 2) - p * (s ^ 3 / 3 - s ^ 2)) by (rewrite <- !Rmult_minus_distr_l, EQ; reflexivity).
  lra.
Qed.

Lemma D_negative : forall s, 0 < s < INR (S (S (S (S j)))) -> D s < 0.
Proof.
  intros s Hs. destruct (Rle_dec s 2) as [L|L]; [apply D_near; lra|]. apply D_far. rewrite (S_INR (S (S (S j)))), (S_INR (S (S j))) in Hs. lra.
Qed.

Lemma step : falling_strictly (S (S j)).
Proof.
  assert (X : forall a b, 0 < a -> a < b -> b <= INR (S (S (S (S j)))) -> h (S (S j)) b * a < h (S (S j)) a * b).
  { intros a b Ha Hab Hb.
    assert (Q : h (S (S j)) b / b < h (S (S j)) a / a).
    { apply (falls_strictly (fun s => h (S (S j)) s / s) (fun s => D s / s ^ 2)); [exact Hab | |].
      - intros t Ht. evar_last; [apply (is_derive_div (h (S (S j))) (fun s => s)); [apply k_derive | apply (is_derive_id (K := R_AbsRing)) | lra]|].
        unfold D. unfold one; simpl. field. lra.
      - intros t Ht. unfold Rdiv. apply Ropp_lt_cancel. rewrite Ropp_0, Ropp_mult_distr_l. apply Rmult_lt_0_compat; [pose proof (D_negative t ltac:(lra)); lra|].
        apply Rinv_0_lt_compat, pow_lt. lra. }
    apply (Rmult_lt_compat_r (a * b)) in Q; [|apply Rmult_lt_0_compat; lra].
    replace (h (S (S j)) b / b * (a * b)) with (h (S (S j)) b * a) in Q by (field; lra).
    replace (h (S (S j)) a / a * (a * b)) with (h (S (S j)) a * b) in Q by (field; lra). exact Q. }
  intros a b Ha Hab HN. destruct (Rle_dec b (INR (S (S (S (S j)))))) as [L|L]; [apply X; assumption|].
  rewrite (h_beyond (S (S j)) b) by lra. rewrite Rmult_0_l. apply Rmult_lt_0_compat; [apply h_pos; lra | lra].
Qed.
End Step.

(** ** Three and four links *)
Lemma h_1 : forall s, 0 <= s -> h 1 s = if Rle_dec s 1 then s else if Rle_dec s 3 then (3 - s) / 2 else 0.
Proof.
  intros s Hs. unfold h. cbn [ih fact]. unfold pp. replace (INR 3) with 3 by (simpl; ring).
  repeat match goal with |- context [Rlt_dec ?a ?b] => destruct (Rlt_dec a b) | |- context [Rle_dec ?a ?b] => destruct (Rle_dec a b) end; simpl; lra.
Qed.
Lemma h_2 : forall s, 0 <= s -> h 2 s = if Rle_dec s 2 then s - 3 / 8 * s ^ 2 else if Rle_dec s 4 then (4 - s) ^ 2 / 8 else 0.
Proof.
  intros s Hs. unfold h. cbn [ih fact]. unfold pp. replace (INR 4) with 4 by (simpl; ring).
  repeat match goal with |- context [Rlt_dec ?a ?b] => destruct (Rlt_dec a b) | |- context [Rle_dec ?a ?b] => destruct (Rle_dec a b) end; try (exfalso; lra); simpl; try field; nra.
Qed.

Lemma falling_1 : falling 1.
Proof.
  intros a b Ha Hab. rewrite (h_1 a), (h_1 b) by lra.
  destruct (Rle_dec b 1), (Rle_dec a 1), (Rle_dec b 3), (Rle_dec a 3); try lra; nra.
Qed.
Lemma gap_1 : gap 1.
Proof.
  intros r Hr. replace (INR 3) with 3 in Hr by (simpl; ring). rewrite (h_1 r), (h_1 (r + 2)) by lra.
  destruct (Rle_dec (r + 2) 1), (Rle_dec r 1), (Rle_dec (r + 2) 3), (Rle_dec r 3); try lra; nra.
Qed.
Lemma strict_2 : falling_strictly 2.
Proof.
  intros a b Ha Hab HN. replace (INR 4) with 4 in HN by (simpl; ring). rewrite (h_2 a), (h_2 b) by lra.
  destruct (Rle_dec b 2), (Rle_dec a 2); try lra.
  - assert (0 < a * b * (b - a)) by (apply Rmult_lt_0_compat; [apply Rmult_lt_0_compat|]; lra). nra.
  - destruct (Rle_dec b 4) as [L|L].
    + apply Rlt_le_trans with (b / 4 * a); [apply Rmult_lt_compat_r; nra|].
      assert (0 <= a * b * (2 - a)) by (apply Rmult_le_pos; [apply Rmult_le_pos|]; lra). nra.
    + assert (0 < a * b * (8 / 3 - a)) by (apply Rmult_lt_0_compat; [apply Rmult_lt_0_compat|]; lra). nra.
  - destruct (Rle_dec a 4); [|lra]. assert (0 < (4 - a) ^ 2) by (apply pow_lt; lra). destruct (Rle_dec b 4); [|nra].
    apply Rle_lt_trans with ((4 - a) ^ 2 / 8 * a); [|nra]. apply Rmult_le_compat_r; nra.
Qed.

Lemma all_strict : forall j, (2 <= j)%nat -> falling_strictly j.
Proof.
  assert (X : forall j, falling_strictly (S (S j)) /\ falling_strictly (S (S (S j)))).
  { induction j as [|j [I1 I2]].
    - split; [exact strict_2 | apply step; [lia | exact falling_1 | exact gap_1]].
    - split; [exact I2|]. apply step; [lia | apply strict_falling, I1 | apply strict_gap, I1]. }
  intros j Hj. destruct j as [|[|j]]; try lia. apply X.
Qed.

Lemma all_negative : forall j s, (2 <= j)%nat -> 0 < s < INR (S (S j)) -> is_derive (h j) s (- (/ 2) * ih (pred j) (S (S j)) ((INR (S (S j)) - s) / 2)) /\
  s * (- (/ 2) * ih (pred j) (S (S j)) ((INR (S (S j)) - s) / 2)) - h j s < 0.
Proof.
  intros j s Hj Hs. destruct j as [|[|j]]; try lia. cbn [pred]. 
  assert (DE : is_derive (h (S (S j))) s (- (/ 2) * ih (S j) (S (S (S (S j)))) ((INR (S (S (S (S j)))) - s) / 2))) by (apply ih_scaled; lia).
  split; [exact DE|].
  destruct j as [|j].
  - assert (E : ih 1 4 ((INR 4 - s) / 2) = if Rle_dec s 2 then -2 * (1 - 3 / 4 * s) else (4 - s) / 2).
    { cbn [ih fact]. unfold pp. replace (INR 4) with 4 in * by (simpl; ring).
      repeat match goal with |- context [Rlt_dec ?a ?b] => destruct (Rlt_dec a b) | |- context [Rle_dec ?a ?b] => destruct (Rle_dec a b) end; try (exfalso; lra); simpl; lra. }
    rewrite E, h_2 by lra. replace (INR 4) with 4 in Hs by (simpl; ring). destruct (Rle_dec s 2); [nra|]. destruct (Rle_dec s 4); nra.
  - assert (FJ : falling (S j) /\ gap (S j)).
    { destruct j as [|j]; [exact (conj falling_1 gap_1)|]. pose proof (all_strict (S (S j)) ltac:(lia)) as A. split; [apply strict_falling, A | apply strict_gap, A]. }
    pose proof (D_negative (S j) ltac:(lia) (proj1 FJ) (proj2 FJ) s Hs) as N. unfold D in N.
    pose proof (k_derive (S j) ltac:(lia) s) as K. apply is_derive_unique in K. apply is_derive_unique in DE. rewrite DE in K. rewrite <- K in N. exact N.
Qed.
