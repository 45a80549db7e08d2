(** Integer polynomials: derivatives, exact values at fractions, and bounds from Chebyshev expansions. *)
From Coq Require Import Reals ZArith List Lra Lia Psatz.
From Coquelicot Require Import Coquelicot.
From Verif Require Import PBessel.
Import ListNotations.
Open Scope R_scope.

Lemma zp_cons : forall a p t, zp (a :: p) t = IZR a + t * zp p t.
Proof. reflexivity. Qed.

(** ** Derivatives *)
Fixpoint zder (p : list Z) : list Z :=
  match p with [] => [] | a :: p' => zadd p' (0%Z :: zder p') end.

Lemma zp_derive : forall p t, is_derive (zp p) t (zp (zder p) t).
Proof.
  induction p as [|a p IH]; intro t.
  - apply (@is_derive_const R_AbsRing R_NormedModule).
  - cbn [zder]; rewrite zp_add, zp_cons.
    apply (is_derive_ext (fun t => IZR a + t * zp p t)); [reflexivity|].
    replace (zp p t + (0 + t * zp (zder p) t)) with (0 + (1 * zp p t + t * zp (zder p) t)) by ring.
    apply (is_derive_plus (fun _ => IZR a) (fun t => t * zp p t)).
    + apply (@is_derive_const R_AbsRing R_NormedModule).
    + apply (is_derive_mult (fun t => t) (zp p) t 1 (zp (zder p) t)).
      * apply (@is_derive_id R_AbsRing).
      * apply IH.
      * intros; apply Rmult_comm.
Qed.

(** 4 (t^2 p'' + 2 t p' - 2 p' - (c4/4) p). *)
Definition zres (c4 : Z) (p : list Z) : list Z :=
  let p1 := zder p in
  zadd (0%Z :: 0%Z :: map (Z.mul 4) (zder p1))
    (zadd (0%Z :: map (Z.mul 8) p1) (zadd (map (Z.mul (-8)) p1) (map (Z.mul (- c4)) p))).

Lemma zp_res : forall c4 p t, zp (zres c4 p) t
  = 4 * (t ^ 2 * zp (zder (zder p)) t + 2 * t * zp (zder p) t - 2 * zp (zder p) t - IZR c4 / 4 * zp p t).
Proof.
  intros c4 p t; unfold zres; cbv zeta.
  rewrite !zp_add, !zp_cons, !zp_scal, opp_IZR; field.
Qed.

(** ** Values at a/b *)
Fixpoint zhom (p : list Z) (a b : Z) : Z :=
  match p with [] => 0 | c :: p' => (c * b ^ Z.of_nat (length p) + a * zhom p' a b)%Z end.

Lemma zp_hom : forall p a b, IZR b <> 0 -> IZR (zhom p a b) = IZR b ^ length p * zp p (IZR a / IZR b).
Proof.
  induction p as [|c p IH]; intros a b Hb; [simpl; ring|].
  cbn [zhom]; rewrite plus_IZR, !mult_IZR, IH, <- pow_IZR, zp_cons by exact Hb.
  cbn [length pow]; field; exact Hb.
Qed.

(** ** Chebyshev expansions, with s = cos theta and T_k(s) = cos (k theta) *)
Fixpoint cev (k : R) (p : list Z) (th : R) : R :=
  match p with [] => 0 | a :: p' => IZR a * cos (k * th) + cev (k + 1) p' th end.

Lemma cev_add : forall p q k th, cev k (zadd p q) th = cev k p th + cev k q th.
Proof.
  induction p as [|a p IH]; intros [|b q] k th; simpl; try ring.
  rewrite IH, plus_IZR; ring.
Qed.

Lemma cev_scal : forall m p k th, cev k (map (Z.mul m) p) th = IZR m * cev k p th.
Proof.
  induction p as [|a p IH]; intros k th; simpl; [ring|].
  rewrite IH, mult_IZR; ring.
Qed.

Lemma cev_cos : forall p k th, 2 * cos th * cev k p th = cev (k + 1) p th + cev (k - 1) p th.
Proof.
  induction p as [|a p IH]; intros k th; simpl; [ring|].
  rewrite Rmult_plus_distr_l, IH.
  replace ((k + 1) * th) with (k * th + th) by ring.
  replace ((k - 1) * th) with (k * th - th) by ring.
  replace (k + 1 - 1) with k by ring. replace (k - 1 + 1) with k by ring.
  rewrite cos_plus, cos_minus; ring.
Qed.

Definition twice_s (p : list Z) : list Z :=
  match p with [] => [] | a :: p' => zadd (0%Z :: p) (zadd [0%Z; a] p') end.

Lemma cev_twice_s : forall p th, cev 0 (twice_s p) th = 2 * cos th * cev 0 p th.
Proof.
  intros [|a p] th; [simpl; ring|].
  rewrite cev_cos; unfold twice_s; rewrite !cev_add; cbn [cev].
  replace (0 - 1 + 1) with 0 by ring. replace ((0 - 1) * th) with (- ((0 + 1) * th)) by ring.
  rewrite cos_neg; ring.
Qed.

Fixpoint zcheb (p : list Z) (m h N : Z) : list Z :=
  match p with
  | [] => []
  | a :: p' =>
      let c := zcheb p' m h N in
      zadd [(a * (2 * N) ^ Z.of_nat (length p))%Z] (zadd (map (Z.mul (2 * m)) c) (map (Z.mul h) (twice_s c)))
  end.

Lemma cev_cheb : forall p m h N th, IZR N <> 0 ->
  cev 0 (zcheb p m h N) th = IZR (2 * N) ^ length p * zp p ((IZR m + IZR h * cos th) / IZR N).
Proof.
  induction p as [|a p IH]; intros m h N th HN; [simpl; ring|].
  cbn [zcheb]; cbv zeta.
  rewrite !cev_add, !cev_scal, cev_twice_s, IH, zp_cons by exact HN.
  cbn [cev]. rewrite Rmult_0_l, cos_0, mult_IZR, <- pow_IZR.
  set (Z := zp p _). rewrite !mult_IZR. cbn [length pow]. field; exact HN.
Qed.

Lemma cev_bound : forall p k th, Rabs (cev k p th) <= IZR (zabs p).
Proof.
  induction p as [|a p IH]; intros k th; simpl; [rewrite Rabs_R0; lra|].
  change (fold_right _ 0%Z p) with (zabs p); rewrite plus_IZR, abs_IZR.
  eapply Rle_trans; [apply Rabs_triang|].
  apply Rplus_le_compat; [|apply IH].
  rewrite Rabs_mult.
  assert (Rabs (cos (k * th)) <= 1) by (apply Rabs_le; pose proof (COS_bound (k * th)); lra).
  pose proof (Rabs_pos (IZR a)); nra.
Qed.

(** Any point of [(m-h)/N, (m+h)/N] is (m + h cos theta)/N. *)
Lemma cos_point : forall m h N t, 0 < h -> 0 < N -> (m - h) / N <= t <= (m + h) / N ->
  exists th, t = (m + h * cos th) / N.
Proof.
  intros m h N t Hh HN [H1 H2].
  assert (A : m - h <= t * N).
  { apply Rmult_le_compat_r with (r := N) in H1; [|lra].
    replace ((m - h) / N * N) with (m - h) in H1 by (field; lra). exact H1. }
  assert (B : t * N <= m + h).
  { apply Rmult_le_compat_r with (r := N) in H2; [|lra].
    replace ((m + h) / N * N) with (m + h) in H2 by (field; lra). exact H2. }
  exists (acos ((t * N - m) / h)). rewrite cos_acos.
  - field; lra.
  - split; apply (Rmult_le_reg_r h); try lra; unfold Rdiv; rewrite Rmult_assoc, Rinv_l by lra; lra.
Qed.

(** Bounds on an interval from the Chebyshev coefficients, the polynomial being over [d]. *)
Definition upper_ok (p : list Z) (m h N : Z) (num den : Z) : bool :=
  Z.leb (zabs (zcheb p m h N) * den) (num * (2 * N) ^ Z.of_nat (length p)).
Definition lower_ok (p : list Z) (m h N : Z) (num den : Z) : bool :=
  match zcheb p m h N with
  | [] => false
  | a :: c => Z.leb (num * (2 * N) ^ Z.of_nat (length p)) ((a - zabs c) * den)
  end.

Lemma upper_bound : forall p m h N num den t, upper_ok p m h N num den = true ->
  0 < IZR h -> 0 < IZR N -> 0 < IZR den -> (IZR m - IZR h) / IZR N <= t <= (IZR m + IZR h) / IZR N ->
  Rabs (zp p t) <= IZR num / IZR den.
Proof.
  intros p m h N num den t Hok Hh HN Hd Ht.
  destruct (cos_point _ _ _ _ Hh HN Ht) as [th ->].
  apply Z.leb_le, IZR_le in Hok. rewrite !mult_IZR, <- pow_IZR in Hok.
  pose proof (cev_bound (zcheb p m h N) 0 th) as B. rewrite cev_cheb in B by lra.
  set (k := IZR (2 * N) ^ length p) in *.
  assert (Hk : 0 < k) by (apply pow_lt; rewrite mult_IZR; lra).
  rewrite Rabs_mult, (Rabs_pos_eq k) in B by lra.
  set (z := Rabs _) in *. set (b := IZR (zabs _)) in *.
  apply (Rmult_le_reg_r (IZR den)); [exact Hd|].
  unfold Rdiv; rewrite Rmult_assoc, Rinv_l by lra.
  apply (Rmult_le_reg_l k); [exact Hk|].
  assert (k * z * IZR den <= b * IZR den) by (apply Rmult_le_compat_r; lra).
  lra.
Qed.

Lemma lower_bound : forall p m h N num den t, lower_ok p m h N num den = true ->
  0 < IZR h -> 0 < IZR N -> 0 < IZR den -> (IZR m - IZR h) / IZR N <= t <= (IZR m + IZR h) / IZR N ->
  IZR num / IZR den <= zp p t.
Proof.
  intros p m h N num den t Hok Hh HN Hd Ht.
  destruct (cos_point _ _ _ _ Hh HN Ht) as [th ->].
  unfold lower_ok in Hok. pose proof (cev_cheb p m h N th ltac:(lra)) as E.
  destruct (zcheb p m h N) as [|a c]; [discriminate|].
  apply Z.leb_le, IZR_le in Hok. rewrite !mult_IZR, minus_IZR, <- pow_IZR in Hok.
  cbn [cev] in E. rewrite Rmult_0_l, cos_0 in E.
  pose proof (cev_bound c (0 + 1) th) as B.
  pose proof (Rle_abs (- cev (0 + 1) c th)) as B'. rewrite Rabs_Ropp in B'.
  set (k := IZR (2 * N) ^ length p) in *.
  assert (Hk : 0 < k) by (apply pow_lt; rewrite mult_IZR; lra).
  set (z := zp p _) in *. set (b := IZR (zabs _)) in *.
  apply (Rmult_le_reg_r (IZR den)); [exact Hd|].
  unfold Rdiv; rewrite Rmult_assoc, Rinv_l by lra.
  apply (Rmult_le_reg_l k); [exact Hk|].
  assert ((IZR a - b) * IZR den <= k * z * IZR den) by (apply Rmult_le_compat_r; lra).
  lra.
Qed.
