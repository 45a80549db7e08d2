(** Strictly convex differentiable functions have increasing derivatives; partition
    functions are strictly log-convex in the force. *)
From Coq Require Import Reals ZArith Lra Lia.
From Coquelicot Require Import Coquelicot.
From Verif Require Import SpecStability SpecPartition PPartition.
Open Scope R_scope.

Definition midconvex (f : R -> R) : Prop :=
  forall u v, 0 < u -> 0 < v -> u <> v -> 2 * f ((u + v) / 2) < f u + f v.

Lemma is_derive_slope : forall (f : R -> R) x d eps, is_derive f x d -> 0 < eps ->
  exists del, 0 < del /\ forall h, h <> 0 -> Rabs h < del -> Rabs ((f (x + h) - f x) / h - d) < eps.
Proof.
  intros f x d eps H He. apply is_derive_Reals in H. destruct (H eps He) as [[del Hd] P].
  exists del. split; [exact Hd|]. intros h Hh Hb. exact (P h Hh Hb).
Qed.

Lemma small_power : forall h del, 0 < h -> 0 < del -> exists n, h / 2 ^ n < del.
Proof.
  intros h del Hh Hd. destruct (pow_lt_1_zero (/ 2)) with (y := del / h) as [n Hn].
  - rewrite Rabs_pos_eq; lra.
  - apply Rdiv_lt_0_compat; lra.
  - exists n. specialize (Hn n (le_n n)). rewrite Rabs_pos_eq in Hn by (apply pow_le; lra).
    rewrite pow_inv in Hn. apply Rmult_lt_reg_r with (/ h); [apply Rinv_0_lt_compat; lra|].
    replace (h / 2 ^ n * / h) with (/ 2 ^ n) by (field; split; [lra | apply pow_nonzero; lra]). exact Hn.
Qed.

Lemma half_pow_pos : forall h n, 0 < h -> 0 < h / 2 ^ n.
Proof. intros. apply Rdiv_lt_0_compat; [assumption | apply pow_lt; lra]. Qed.

(** The slope to the right over h/2^n is at most the slope over h. *)
Lemma slope_right : forall f u h n, midconvex f -> 0 < u -> 0 < h ->
  (f (u + h / 2 ^ n) - f u) / (h / 2 ^ n) <= (f (u + h) - f u) / h.
Proof.
  intros f u h n Hf Hu Hh. induction n as [|n IH].
  - simpl. rewrite Rdiv_1. lra.
  - apply Rle_trans with (2 := IH). clear IH. pose proof (half_pow_pos h n Hh) as Hk.
    replace (h / 2 ^ S n) with (h / 2 ^ n / 2) by (simpl; field; apply pow_nonzero; lra).
    set (k := h / 2 ^ n) in *. clearbody k.
    assert (2 * f ((u + (u + k)) / 2) < f u + f (u + k)) by (apply Hf; lra).
    replace ((u + (u + k)) / 2) with (u + k / 2) in H by field.
    apply Rmult_le_reg_r with k; [lra|].
    replace ((f (u + k / 2) - f u) / (k / 2) * k) with (2 * (f (u + k / 2) - f u)) by (field; lra).
    replace ((f (u + k) - f u) / k * k) with (f (u + k) - f u) by (field; lra). lra.
Qed.

Lemma slope_left : forall f u h n, midconvex f -> 0 < u - h -> 0 < h ->
  (f u - f (u - h)) / h <= (f u - f (u - h / 2 ^ n)) / (h / 2 ^ n).
Proof.
  intros f u h n Hf Hu Hh.
  assert (Hle : forall n, h / 2 ^ n <= h).
  { intro p. apply Rmult_le_reg_r with (2 ^ p); [apply pow_lt; lra|].
    replace (h / 2 ^ p * 2 ^ p) with h by (field; apply pow_nonzero; lra).
    pose proof (pow_R1_Rle 2 p). nra. }
  induction n as [|n IH].
  - simpl. rewrite Rdiv_1. lra.
  - apply Rle_trans with (1 := IH). clear IH. pose proof (half_pow_pos h n Hh) as Hk. pose proof (Hle n) as Hl.
    replace (h / 2 ^ S n) with (h / 2 ^ n / 2) by (simpl; field; apply pow_nonzero; lra).
    set (k := h / 2 ^ n) in *. clearbody k.
    assert (2 * f ((u + (u - k)) / 2) < f u + f (u - k)) by (apply Hf; lra).
    replace ((u + (u - k)) / 2) with (u - k / 2) in H by field.
    apply Rmult_le_reg_r with k; [lra|].
    replace ((f u - f (u - k / 2)) / (k / 2) * k) with (2 * (f u - f (u - k / 2))) by (field; lra).
    replace ((f u - f (u - k)) / k * k) with (f u - f (u - k)) by (field; lra). lra.
Qed.

Lemma derive_le_slope : forall f u v d, midconvex f -> 0 < u -> u < v -> is_derive f u d -> d <= (f v - f u) / (v - u).
Proof.
  intros f u v d Hf Hu Huv Hd. destruct (Rle_or_lt d ((f v - f u) / (v - u))) as [|C]; [assumption|exfalso].
  destruct (is_derive_slope f u d (d - (f v - f u) / (v - u)) Hd) as [del [Hdel P]]; [lra|].
  destruct (small_power (v - u) del) as [n Hn]; [lra|assumption|].
  pose proof (half_pow_pos (v - u) n ltac:(lra)) as Hk.
  specialize (P ((v - u) / 2 ^ n) ltac:(lra)). rewrite (Rabs_pos_eq ((v - u) / 2 ^ n)) in P by lra. specialize (P Hn).
  pose proof (slope_right f u (v - u) n Hf Hu ltac:(lra)) as S. replace (u + (v - u)) with v in S by ring.
  apply Rabs_def2 in P. lra.
Qed.

Lemma slope_le_derive : forall f u v d, midconvex f -> 0 < u -> u < v -> is_derive f v d -> (f v - f u) / (v - u) <= d.
Proof.
  intros f u v d Hf Hu Huv Hd. destruct (Rle_or_lt ((f v - f u) / (v - u)) d) as [|C]; [assumption|exfalso].
  destruct (is_derive_slope f v d ((f v - f u) / (v - u) - d) Hd) as [del [Hdel P]]; [lra|].
  destruct (small_power (v - u) del) as [n Hn]; [lra|assumption|].
  pose proof (half_pow_pos (v - u) n ltac:(lra)) as Hk.
  specialize (P (- ((v - u) / 2 ^ n)) ltac:(lra)). rewrite Rabs_Ropp, (Rabs_pos_eq ((v - u) / 2 ^ n)) in P by lra. specialize (P Hn).
  pose proof (slope_left f v (v - u) n Hf ltac:(lra) ltac:(lra)) as S. replace (v - (v - u)) with u in S by ring.
  replace (v + - ((v - u) / 2 ^ n)) with (v - (v - u) / 2 ^ n) in P by ring.
  set (k := (v - u) / 2 ^ n) in *. clearbody k.
  replace ((f (v - k) - f v) / - k) with ((f v - f (v - k)) / k) in P by (field; lra).
  apply Rabs_def2 in P. lra.
Qed.

Lemma midconvex_derive : forall f df, midconvex f -> (forall x, 0 < x -> is_derive f x (df x)) ->
  forall u v, 0 < u -> 0 < v -> u < v -> df u < df v.
Proof.
  intros f df Hf Hd u v Hu Hv Huv. set (m := (u + v) / 2). assert (u < m < v) by (unfold m; lra).
  pose proof (derive_le_slope f u m (df u) Hf Hu ltac:(lra) (Hd u Hu)).
  pose proof (slope_le_derive f m v (df v) Hf ltac:(lra) ltac:(lra) (Hd v Hv)).
  assert (2 * f m < f u + f v) by (apply Hf; lra).
  apply Rle_lt_trans with (1 := H0). apply Rlt_le_trans with (2 := H1).
  replace (m - u) with ((v - u) / 2) by (unfold m; field). replace (v - m) with ((v - u) / 2) by (unfold m; field).
  apply Rmult_lt_compat_r; [apply Rinv_0_lt_compat; lra | lra].
Qed.

(** A free energy whose negative is convex and increasing has a positive increasing
    minus-derivative. *)
Lemma stable_of_convex : forall g F c phi,
  (forall x, 0 < x -> g x = - F x - c) -> midconvex F -> (forall u v, 0 < u -> u < v -> F u <= F v) ->
  (forall x, 0 < x -> is_derive g x (- phi x)) -> positive_increasing_on pulling phi.
Proof.
  intros g F c phi Hg HF Hi Hd.
  assert (HdF : forall x, 0 < x -> is_derive F x (phi x)).
  { intros x Hx. apply (is_derive_ext_loc (fun y => - g y - c)).
    - exists (mkposreal x Hx). intros y Hy. unfold ball in Hy; simpl in Hy; unfold AbsRing_ball, abs, minus, plus, opp in Hy; simpl in Hy.
      apply Rabs_def2 in Hy. change (- g y - c = F y). rewrite Hg by lra. ring.
    - replace (phi x) with (- - phi x - 0) by ring. apply (is_derive_minus (V := R_NormedModule)).
      + apply (is_derive_opp (V := R_NormedModule)). exact (Hd x Hx).
      + exact (is_derive_const (V := R_NormedModule) c x). }
  assert (Hm : forall x y, pulling x -> pulling y -> x < y -> phi x < phi y) by (intros x y; apply (midconvex_derive F phi HF HdF)).
  split; [|exact Hm]. intros x Hx. unfold pulling in Hx.
  apply Rle_lt_trans with (phi (x / 2)); [|apply Hm; unfold pulling; lra].
  apply Rle_trans with ((F (x / 2) - F (x / 4)) / (x / 2 - x / 4)).
  - pose proof (Hi (x / 4) (x / 2) ltac:(lra) ltac:(lra)).
    apply Rmult_le_pos; [lra | left; apply Rinv_0_lt_compat; lra].
  - apply (slope_le_derive F (x / 4) (x / 2)); [exact HF | lra | lra | apply HdF; lra].
Qed.

(** ** Log-convexity *)

Definition logconvex (z : R -> R) : Prop :=
  forall u v, 0 < u -> 0 < v -> u <> v -> z ((u + v) / 2) ^ 2 < z u * z v.

Definition positive (z : R -> R) : Prop := forall u, 0 < u -> 0 < z u.
Definition nondecreasing (z : R -> R) : Prop := forall u v, 0 < u -> u < v -> z u <= z v.

Lemma ln_midconvex : forall z, positive z -> logconvex z -> midconvex (fun x => ln (z x)).
Proof.
  intros z Hp Hl u v Hu Hv Huv. pose proof (Hl u v Hu Hv Huv) as H.
  pose proof (Hp u Hu). pose proof (Hp v Hv). pose proof (Hp ((u + v) / 2) ltac:(lra)).
  rewrite <- ln_mult by assumption.
  replace (2 * ln (z ((u + v) / 2))) with (ln (z ((u + v) / 2) * z ((u + v) / 2))) by (rewrite ln_mult by assumption; ring).
  apply ln_increasing; [apply Rmult_lt_0_compat; assumption | ]. simpl in H. lra.
Qed.

Lemma ln_nondecreasing : forall z, positive z -> nondecreasing z -> forall u v, 0 < u -> u < v -> ln (z u) <= ln (z v).
Proof. intros z Hp Hn u v Hu Huv. apply Rcomplements.ln_le; [apply Hp; exact Hu | apply Hn; assumption]. Qed.

Lemma stable_of_partition : forall g Z c phi, positive Z -> logconvex Z -> nondecreasing Z ->
  (forall x, 0 < x -> g x = - ln (Z x) - c) -> (forall x, 0 < x -> is_derive g x (- phi x)) ->
  positive_increasing_on pulling phi.
Proof.
  intros g Z c phi Hp Hl Hn Hg Hd. apply (stable_of_convex g (fun x => ln (Z x)) c phi); try assumption.
  - apply ln_midconvex; assumption.
  - apply ln_nondecreasing; assumption.
Qed.

(** The scaled inequality that passes through sums and integrals. *)
Lemma logconvex_scaled : forall a A B t, 0 < A -> 0 < B -> 0 <= a -> a ^ 2 < A * B -> 0 < t -> 2 * a < t * A + B / t.
Proof.
  intros a A B t HA HB Ha H Ht.
  assert (E : t * A * (B / t) = A * B) by (field; lra).
  set (p := t * A) in *. set (q := B / t) in *.
  assert (0 < p) by (unfold p; apply Rmult_lt_0_compat; assumption).
  assert (0 < q) by (unfold q; apply Rdiv_lt_0_compat; assumption). clearbody p q.
  apply Rnot_le_lt. intro C. pose proof (pow_incr (p + q) (2 * a) 2 (conj (Rlt_le _ _ (Rplus_lt_0_compat p q ltac:(assumption) ltac:(assumption))) C)) as P. pose proof (pow2_ge_0 (p - q)).
  replace ((2 * a) ^ 2) with (4 * a ^ 2) in P by ring. replace ((p + q) ^ 2) with ((p - q) ^ 2 + 4 * (p * q)) in P by ring. lra.
Qed.

Lemma scaled_logconvex : forall a A B, 0 < A -> 0 < B -> 0 <= a -> (forall t, 0 < t -> 2 * a < t * A + B / t) -> a ^ 2 < A * B.
Proof.
  intros a A B HA HB Ha H. set (t := sqrt (B / A)).
  assert (Ht : 0 < t) by (apply sqrt_lt_R0; apply Rdiv_lt_0_compat; assumption).
  assert (Et : t * t = B / A) by (apply sqrt_sqrt; left; apply Rdiv_lt_0_compat; assumption).
  specialize (H t Ht). assert (E : B / t = t * A) by (apply Rmult_eq_reg_r with t; [|lra]; replace (t * A * t) with (t * t * A) by ring; rewrite Et; field; lra).
  rewrite E in H. assert (a < t * A) by lra. replace (A * B) with ((t * A) ^ 2).
  - apply pow_lt_compat_l; [lra | lia] || nra.
  - replace ((t * A) ^ 2) with (t * t * A ^ 2) by ring. rewrite Et. field. lra.
Qed.

Lemma logconvex_mult_weak : forall y z, positive y -> positive z -> logconvex y ->
  (forall u v, 0 < u -> 0 < v -> z ((u + v) / 2) ^ 2 <= z u * z v) -> logconvex (fun x => y x * z x).
Proof.
  intros y z Hy Hz Ly Lz u v Hu Hv Huv. pose proof (Ly u v Hu Hv Huv) as H1. pose proof (Lz u v Hu Hv) as H2.
  pose proof (Hz u Hu). pose proof (Hz v Hv). pose proof (Hz ((u + v) / 2) ltac:(lra)). pose proof (Hy ((u + v) / 2) ltac:(lra)).
  rewrite Rpow_mult_distr. replace (y u * z u * (y v * z v)) with (y u * y v * (z u * z v)) by ring.
  apply Rlt_le_trans with (y u * y v * z ((u + v) / 2) ^ 2).
  - apply Rmult_lt_compat_r; [apply pow_lt; assumption | exact H1].
  - apply Rmult_le_compat_l; [|exact H2]. pose proof (pow_lt (y ((u + v) / 2)) 2 ltac:(assumption)). lra.
Qed.

Lemma logconvex_scal : forall k z, 0 < k -> logconvex z -> logconvex (fun x => k * z x).
Proof.
  intros k z Hk Hl u v Hu Hv Huv. pose proof (Hl u v Hu Hv Huv).
  replace ((k * z ((u + v) / 2)) ^ 2) with (k ^ 2 * z ((u + v) / 2) ^ 2) by ring.
  replace (k * z u * (k * z v)) with (k ^ 2 * (z u * z v)) by ring.
  apply Rmult_lt_compat_l; [apply pow_lt; exact Hk | exact H].
Qed.

Lemma logconvex_plus_weak : forall y z, positive y -> positive z -> logconvex y ->
  (forall u v, 0 < u -> 0 < v -> z ((u + v) / 2) ^ 2 <= z u * z v) -> logconvex (fun x => y x + z x).
Proof.
  intros y z Hy Hz Ly Lz u v Hu Hv Huv. pose proof (Ly u v Hu Hv Huv) as H1. pose proof (Lz u v Hu Hv) as H2.
  pose proof (Hz u Hu). pose proof (Hz v Hv). pose proof (Hz ((u + v) / 2) ltac:(lra)). pose proof (Hy ((u + v) / 2) ltac:(lra)).
  pose proof (Hy u Hu). pose proof (Hy v Hv).
  set (a := y ((u + v) / 2)) in *. set (b := z ((u + v) / 2)) in *. clearbody a b.
  set (A := y u) in *. set (A' := y v) in *. set (B := z u) in *. set (B' := z v) in *. clearbody A A' B B'.
  assert (K : 2 * (a * b) <= A * B' + A' * B).
  { assert (0 < A * B') by (apply Rmult_lt_0_compat; assumption). assert (0 < A' * B) by (apply Rmult_lt_0_compat; assumption).
    assert (0 < a * b) by (apply Rmult_lt_0_compat; assumption).
    assert ((a * b) ^ 2 <= (A * B') * (A' * B)).
    { rewrite Rpow_mult_distr. replace (A * B' * (A' * B)) with ((A * A') * (B * B')) by ring.
      apply Rmult_le_compat; try lra; apply pow_le; lra. }
    set (p := A * B') in *. set (q := A' * B) in *. set (r := a * b) in *. clearbody p q r.
    apply Rnot_lt_le. intro C. pose proof (pow2_ge_0 (p - q)). nra. }
  nra.
Qed.

Lemma logconvex_weak : forall z, logconvex z -> forall u v, 0 < u -> 0 < v -> z ((u + v) / 2) ^ 2 <= z u * z v.
Proof.
  intros z H u v Hu Hv. destruct (Req_dec u v) as [E|E].
  - subst v. replace ((u + u) / 2) with u by field. simpl. lra.
  - left. apply H; assumption.
Qed.

Lemma logconvex_plus : forall y z, positive y -> positive z -> logconvex y -> logconvex z -> logconvex (fun x => y x + z x).
Proof. intros y z Hy Hz Ly Lz. apply logconvex_plus_weak; try assumption. apply logconvex_weak; exact Lz. Qed.

Lemma positive_sum : forall (z : nat -> R -> R) n, (forall i, (i <= n)%nat -> positive (z i)) -> positive (fun x => sum_f_R0 (fun i => z i x) n).
Proof.
  intros z n. induction n as [|n IH]; intros H u Hu; simpl.
  - apply H; [lia | exact Hu].
  - apply Rplus_lt_0_compat; [apply IH; [intros i Hi; apply H; lia | exact Hu] | apply H; [lia | exact Hu]].
Qed.

Lemma logconvex_sum : forall (z : nat -> R -> R) n, (forall i, (i <= n)%nat -> positive (z i)) -> (forall i, (i <= n)%nat -> logconvex (z i)) ->
  logconvex (fun x => sum_f_R0 (fun i => z i x) n).
Proof.
  intros z n. induction n as [|n IH]; intros Hp Hl.
  - apply Hl; lia.
  - apply (logconvex_plus (fun x => sum_f_R0 (fun i => z i x) n) (z (S n))).
    + apply positive_sum. intros; apply Hp; lia.
    + apply Hp; lia.
    + apply IH; intros; [apply Hp | apply Hl]; lia.
    + apply Hl; lia.
Qed.

Lemma nondecreasing_sum : forall (z : nat -> R -> R) n, (forall i, (i <= n)%nat -> nondecreasing (z i)) -> nondecreasing (fun x => sum_f_R0 (fun i => z i x) n).
Proof. intros z n H u v Hu Huv. apply sum_Rle. intros i Hi. apply H; assumption. Qed.
