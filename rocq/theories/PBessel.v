(** The series branch of [bessel_i] against the power series of I0 and I1. *)
From Coq Require Import Reals ZArith QArith Qabs Qreals List Lra Lia Psatz.
From Coquelicot Require Import Coquelicot.
From Verif Require Import Scalar MMath SpecBessel PErfPoly PErfRows PErfc PLambert PQuad PBase.
Import ListNotations.
Open Scope R_scope.

(** ** Series with quickly decreasing terms *)

Lemma series_tail : forall (a : nat -> R) n v, (forall k, 0 <= a k) -> (forall k, (n <= k)%nat -> a (S k) <= a k / 2) ->
  is_series a v -> sum_f_R0 a n <= v <= sum_f_R0 a n + a n.
Proof.
  intros a n v Ha Hd Hs.
  assert (L : is_lim_seq (sum_f_R0 a) v).
  { apply is_lim_seq_ext with (u := sum_n a); [intro; apply sum_n_Reals | exact Hs]. }
  split.
  - apply (is_lim_seq_le_loc (fun _ => sum_f_R0 a n) (sum_f_R0 a) (sum_f_R0 a n) v); [| apply is_lim_seq_const | exact L].
    exists n. intros m Hm. induction Hm as [| m Hm IH]; [lra |]. cbn [sum_f_R0]. pose proof (Ha (S m)). lra.
  - apply (is_lim_seq_le_loc (sum_f_R0 a) (fun _ => sum_f_R0 a n + a n) v (sum_f_R0 a n + a n)); [| exact L | apply is_lim_seq_const].
    exists n. intros m Hm. assert (sum_f_R0 a m <= sum_f_R0 a n + a n - a m); [| pose proof (Ha m); lra].
    induction Hm as [| m Hm IH]; [lra |]. cbn [sum_f_R0]. pose proof (Hd m Hm). lra.
Qed.

(** ** Integer polynomials on subintervals *)

Definition zp (p : list Z) (t : R) : R := fold_right (fun a r => IZR a + t * r) 0 p.
Fixpoint zadd (p q : list Z) : list Z :=
  match p, q with [], _ => q | _, [] => p | a :: p', b :: q' => (a + b)%Z :: zadd p' q' end.
Definition zlin (m : Z) (p : list Z) : list Z := zadd (map (Z.mul m) p) (0%Z :: p).
(** 2^(length p) p((m + s)/2) as a polynomial in s. *)
Fixpoint zshift (p : list Z) (m : Z) : list Z :=
  match p with [] => [] | a :: p' => zadd [(a * 2 ^ Z.of_nat (length p))%Z] (zlin m (zshift p' m)) end.
Definition zabs (p : list Z) : Z := fold_right (fun a r => (Z.abs a + r)%Z) 0%Z p.
Definition zev (p : list Z) (t : Z) : Z := fold_right (fun a r => (a + t * r)%Z) 0%Z p.

Lemma zp_add : forall p q t, zp (zadd p q) t = zp p t + zp q t.
Proof.
  induction p as [| a p IH]; intros [| b q] t; simpl; try lra. change (fold_right (fun a r => IZR a + t * r) 0) with (fun p => zp p t).
  cbv beta. rewrite IH, plus_IZR. ring.
Qed.
Lemma zp_scal : forall m p t, zp (map (Z.mul m) p) t = IZR m * zp p t.
Proof.
  induction p as [| a p IH]; intro t; simpl; [ring |]. change (fold_right (fun a r => IZR a + t * r) 0) with (fun p => zp p t).
  cbv beta. rewrite IH, mult_IZR. ring.
Qed.
Lemma zp_lin : forall m p t, zp (zlin m p) t = (IZR m + t) * zp p t.
Proof. intros. unfold zlin. rewrite zp_add, zp_scal. simpl. change (fold_right _ 0 p) with (zp p t). ring. Qed.
Lemma zp_shift : forall p m s, zp (zshift p m) s = 2 ^ length p * zp p ((IZR m + s) / 2).
Proof.
  induction p as [| a p IH]; intros m s; [simpl; ring |].
  cbn [zshift]. rewrite zp_add, zp_lin, IH. simpl (zp (a :: p) _). change (fold_right _ 0 p) with (zp p ((IZR m + s) / 2)).
  cbn [zp fold_right]. rewrite mult_IZR, <- (pow_IZR 2). cbn [length pow]. field.
Qed.
Lemma zp_bound : forall p t, Rabs t <= 1 -> Rabs (zp p t) <= IZR (zabs p).
Proof.
  induction p as [| a p IH]; intros t Ht; simpl; [rewrite Rabs_R0; lra |].
  change (fold_right _ 0 p) with (zp p t). change (fold_right _ 0%Z p) with (zabs p). rewrite plus_IZR, abs_IZR.
  eapply Rle_trans; [apply Rabs_triang |]. apply Rplus_le_compat_l. rewrite Rabs_mult. specialize (IH t Ht).
  pose proof (Rabs_pos (zp p t)). pose proof (Rabs_pos t). nra.
Qed.
Lemma zp_ev : forall p t, IZR (zev p t) = zp p (IZR t).
Proof.
  induction p as [| a p IH]; intro t; simpl; [reflexivity |].
  change (fold_right _ 0 p) with (zp p (IZR t)). change (fold_right _ 0%Z p) with (zev p t). rewrite plus_IZR, mult_IZR, IH. reflexivity.
Qed.

(** |E(t)| + tail <= 1e-15 * I(t) on [0,16], checked on sixteen unit intervals. *)
Definition piece_ok (E I : list Z) (tail : Z) (i : nat) : bool :=
  let L := (2 ^ Z.of_nat (length E))%Z in
  Z.leb ((zabs (zshift E (2 * Z.of_nat i + 1)) + tail * L) * 10 ^ 15) (L * zev I (Z.of_nat i)).
Definition pieces_ok (E I : list Z) (tail : Z) : bool := List.forallb (piece_ok E I tail) (seq 0 16).

Lemma zp_mono : forall p s t, List.Forall (fun a => (0 <= a)%Z) p -> 0 <= s <= t -> 0 <= zp p s <= zp p t.
Proof.
  induction p as [| a p IH]; intros s t Hp Hs; [simpl; lra |].
  inversion Hp as [| ? ? Ha Hp']; subst. specialize (IH s t Hp' Hs). simpl. fold (zp p s). fold (zp p t). apply IZR_le in Ha. nra.
Qed.

Lemma pieces_bound : forall E I tail t, pieces_ok E I tail = true ->
  List.Forall (fun a => (0 <= a)%Z) I -> 0 <= t < 16 -> Rabs (zp E t) + IZR tail <= 1 / 10 ^ 15 * zp I t.
Proof.
  intros E I tail t Hok HI Ht.
  destruct (base_Int_part t) as [A B]. set (k := Int_part t) in *.
  assert (K0 : (0 <= k)%Z). { assert (-1 < k)%Z; [apply lt_IZR; lra | lia]. }
  assert (K1 : (k < 16)%Z) by (apply lt_IZR; lra).
  pose proof (proj1 (List.forallb_forall _ _) Hok (Z.to_nat k) ltac:(apply in_seq; lia)) as P.
  unfold piece_ok in P. cbv zeta in P. rewrite Z2Nat.id in P by lia. apply Z.leb_le, IZR_le in P.
  rewrite !mult_IZR, plus_IZR, mult_IZR, zp_ev, <- (pow_IZR 2) in P.
  change (IZR (10 ^ 15)) with (IZR (10 ^ Z.of_nat 15)) in P. rewrite <- (pow_IZR 10) in P.
  pose proof (zp_shift E (2 * k + 1) (2 * (t - IZR k) - 1)) as Sh.
  replace ((IZR (2 * k + 1) + (2 * (t - IZR k) - 1)) / 2) with t in Sh by (rewrite plus_IZR, mult_IZR; field).
  pose proof (zp_bound (zshift E (2 * k + 1)) (2 * (t - IZR k) - 1) ltac:(apply Rabs_le; lra)) as Bd.
  rewrite Sh, Rabs_mult in Bd. set (L := 2 ^ length E) in *.
  assert (HL : 0 < L) by (unfold L; apply pow_lt; lra). rewrite (Rabs_pos_eq L) in Bd by lra.
  assert (0 <= IZR k) by (apply IZR_le; lia).
  pose proof (zp_mono I (IZR k) t HI ltac:(lra)) as [_ Mo].
  apply Rmult_le_reg_l with L; [exact HL |].
  assert (L * zp I (IZR k) <= L * zp I t) by (apply Rmult_le_compat_l; lra).
  replace (L * (1 / 10 ^ 15 * zp I t)) with ((L * zp I t) / 10 ^ 15) by (field; lra).
  apply Rmult_le_reg_r with (10 ^ 15); [apply pow_lt; lra |].
  replace (L * zp I t / 10 ^ 15 * 10 ^ 15) with (L * zp I t) by (field; lra).
  apply Rle_trans with ((IZR (zabs (zshift E (2 * k + 1))) + IZR tail * L) * 10 ^ 15); [| lra].
  apply Rmult_le_compat_r; [apply pow_le; lra | lra].
Qed.

(** A list of rationals over one denominator. *)
Definition scaled (D : positive) (p : list Q) (z : list Z) : bool :=
  if list_eq_dec Z.eq_dec (map (fun q => (Qnum q * (Zpos D / Zpos (Qden q)))%Z) p) z
  then List.forallb (fun q => Z.eqb (Zpos D mod Zpos (Qden q)) 0) p else false.
Lemma scaled_R : forall D p z t, scaled D p z = true -> zp z t = IZR (Zpos D) * pe p t.
Proof.
  intros D p z t H. unfold scaled in H. destruct list_eq_dec as [<- | n]; [| discriminate].
  induction p as [| q p IH]; [simpl; ring |].
  cbn [List.forallb] in H. apply andb_true_iff in H. destruct H as [H1 H2]. specialize (IH H2).
  rewrite pe_cons. cbn [map zp fold_right]. fold (zp (map (fun q => (Qnum q * (Zpos D / Zpos (Qden q)))%Z) p) t). rewrite IH.
  apply Z.eqb_eq in H1. pose proof (Z.div_mod (Zpos D) (Zpos (Qden q)) ltac:(lia)) as Dm. rewrite H1, Z.add_0_r in Dm.
  set (k := (Zpos D / Zpos (Qden q))%Z) in *. rewrite Dm. destruct q as [m d]. cbn [Qnum Qden] in *. rewrite Q2R_frac, !mult_IZR.
  assert (IZR (Zpos d) <> 0) by (apply not_0_IZR; lia). field. assumption.
Qed.

Lemma pe_nonneg : forall p t, List.Forall (fun a => 0 <= Q2R a) p -> 0 <= t -> 0 <= pe p t.
Proof.
  induction p as [| a p IH]; intros t Hp Ht; [simpl; lra |].
  inversion Hp as [| ? ? Ha Hp']; subst. specialize (IH t Hp' Ht). rewrite pe_cons. nra.
Qed.

(** ** Coefficient lists *)

Fixpoint factz (k : nat) : Z := match k with O => 1 | S k' => (Z.of_nat k * factz k')%Z end.
Lemma factz_pos : forall k, (0 < factz k)%Z.
Proof. induction k as [| k IH]; [reflexivity |]. cbn [factz]. apply Z.mul_pos_pos; lia. Qed.
Lemma factz_R : forall k, IZR (factz k) = INR (fact k).
Proof.
  induction k as [| k IH]; [reflexivity |].
  cbn [factz]. rewrite fact_simpl, mult_IZR, mult_INR, IH, (INR_IZR_INZ (S k)). reflexivity.
Qed.
Lemma fact_pos : forall k, 0 < INR (fact k).
Proof. intro k. apply INR_fact_lt_0. Qed.

Definition coeff (j k : nat) : Q := (1 # Z.to_pos (factz k * factz (j + k)%nat)%Z).
Lemma coeff_R : forall j k, Q2R (coeff j k) = / (INR (fact k) * INR (fact (j + k))).
Proof.
  intros j k. unfold coeff. rewrite Q2R_frac. pose proof (factz_pos k). pose proof (factz_pos (j + k)).
  rewrite Z2Pos.id by nia. rewrite mult_IZR, !factz_R. unfold Rdiv. ring.
Qed.
Lemma coeff_pos : forall j k, 0 < Q2R (coeff j k).
Proof. intros. rewrite coeff_R. apply Rinv_0_lt_compat, Rmult_lt_0_compat; apply fact_pos. Qed.
Lemma coeff_step : forall j k, Q2R (coeff j (S k)) * (INR (S k) * INR (j + S k)) = Q2R (coeff j k).
Proof.
  intros j k. rewrite !coeff_R. replace (j + S k)%nat with (S (j + k)) by lia.
  rewrite !fact_simpl, !mult_INR.
  pose proof (fact_pos k). pose proof (fact_pos (j + k)).
  assert (0 < INR (S k)) by (apply lt_0_INR; lia). assert (0 < INR (S (j + k))) by (apply lt_0_INR; lia).
  field. repeat split; lra.
Qed.

Definition last : nat := 31.
Definition coeffs (j : nat) : list Q := map (coeff j) (seq 0 (S last)).

Lemma pe_seq : forall f n k t, t ^ k * pe (map f (seq k (S n))) t = sum_f_R0 (fun i => Q2R (f (k + i)%nat) * t ^ (k + i)) n.
Proof.
  induction n as [| n IH]; intros k t.
  - simpl. rewrite Nat.add_0_r. ring.
  - rewrite decomp_sum by lia. cbn [pred].
    change (map f (seq k (S (S n)))) with (f k :: map f (seq (S k) (S n))). rewrite pe_cons, Nat.add_0_r.
    rewrite Rmult_plus_distr_l. f_equal; [ring |].
    replace (t ^ k * (t * pe (map f (seq (S k) (S n))) t)) with (t ^ S k * pe (map f (seq (S k) (S n))) t) by (simpl; ring).
    rewrite IH. apply sum_eq. intros i _. replace (S k + i)%nat with (k + S i)%nat by lia. reflexivity.
Qed.

Lemma series_coeffs : forall j t v, 0 <= t <= 16 ->
  is_series (fun k => Q2R (coeff j k) * t ^ k) v ->
  pe (coeffs j) t <= v <= pe (coeffs j) t + Q2R (coeff j last) * 16 ^ last.
Proof.
  intros j t v Ht Hs.
  assert (E : pe (coeffs j) t = sum_f_R0 (fun k => Q2R (coeff j k) * t ^ k) last).
  { pose proof (pe_seq (coeff j) last 0 t) as P. simpl (t ^ 0) in P. rewrite Rmult_1_l in P. exact P. }
  pose proof (series_tail (fun k => Q2R (coeff j k) * t ^ k) last v) as T. cbv beta in T.
  rewrite E. destruct T as [T1 T2].
  - intro k. apply Rmult_le_pos; [left; apply coeff_pos | apply pow_le; lra].
  - intros k Hk. pose proof (coeff_step j k) as C. pose proof (coeff_pos j (S k)) as P.
    rewrite <- C. cbn [pow].
    assert (32 <= INR (S k)) by (replace 32 with (INR 32) by (rewrite INR_IZR_INZ; reflexivity); apply le_INR; unfold last in Hk; lia).
    assert (32 <= INR (j + S k)) by (replace 32 with (INR 32) by (rewrite INR_IZR_INZ; reflexivity); apply le_INR; unfold last in Hk; lia).
    assert (0 <= t ^ k) by (apply pow_le; lra).
    assert (t * 2 <= INR (S k) * INR (j + S k)) by nra.
    assert (0 <= Q2R (coeff j (S k)) * t ^ k) by (apply Rmult_le_pos; lra).
    nra.
  - exact Hs.
  - split; [exact T1 |]. eapply Rle_trans; [exact T2 |]. apply Rplus_le_compat_l.
    apply Rmult_le_compat_l; [left; apply coeff_pos | apply pow_incr; lra].
Qed.

Lemma coeffs_nonneg : forall j, List.Forall (fun a => 0 <= Q2R a) (coeffs j).
Proof. intro j. apply List.Forall_forall. intros a Ha. unfold coeffs in Ha. apply in_map_iff in Ha. destruct Ha as [k [<- _]]. left. apply coeff_pos. Qed.

(** ** The code's polynomials *)

Definition lits (l : list literal) : list Q := map (fun l => Qdec (fst l) (snd l)) l.
Definition small0 : list Q := Eval vm_compute in lits (math.bessel_i0_small (Sc := literal_scalar)).
Definition small1 : list Q := Eval vm_compute in lits (math.bessel_i1_small (Sc := literal_scalar)).
Lemma lits_R : forall l, map Q2R (lits l) = map (fun l => Rdec (fst l) (snd l)) l.
Proof. intro l. unfold lits. rewrite map_map. apply map_ext. intros [m k]. apply Q2R_dec. Qed.
Lemma small0_R : math.bessel_i0_small (T := R) = map Q2R small0.
Proof.
  change small0 with (lits (math.bessel_i0_small (Sc := literal_scalar))). rewrite lits_R. reflexivity.
Qed.
Lemma small1_R : math.bessel_i1_small (T := R) = map Q2R small1.
Proof.
  change small1 with (lits (math.bessel_i1_small (Sc := literal_scalar))). rewrite lits_R. reflexivity.
Qed.

Lemma sum_powers_R : forall (cs : list R) t, math.sum_powers cs t = fold_right (fun a r => a + t * r) 0 cs.
Proof.
  intros cs t. unfold math.sum_powers. rewrite ssum_R.
  assert (G : forall (cs : list R) k, Rsum (map (fun '(i, c) => smul c (spowi t (Z.of_nat i))) (combine (seq k (length cs)) cs))
     = t ^ k * fold_right (fun a r => a + t * r) 0 cs).
  { clear cs. induction cs as [| c cs IH]; intros k; cbn [length seq combine map Rsum fold_right]; [ring |].
    rewrite IH. change (smul c (spowi t (Z.of_nat k))) with (c * powerRZ t (Z.of_nat k)). rewrite <- pow_powerRZ. simpl. ring. }
  rewrite G. simpl. ring.
Qed.
Lemma sum_powers_pe : forall cs t, math.sum_powers (map Q2R cs) t = pe cs t.
Proof. intros cs t. rewrite sum_powers_R. induction cs as [| a cs IH]; [reflexivity |]. simpl. rewrite IH. reflexivity. Qed.

Definition poly0 : list Q := 1%Q :: small0.
Definition poly1 : list Q := 1%Q :: (1 # 2) :: small1.

Lemma i0_small : forall x, x < 775 / 100 -> math.bessel_i0 x = pe poly0 (x ^ 2 / 4).
Proof.
  intros x Hx. unfold math.bessel_i0. change (x <? sdec 775 2)%S with (Rltb x (775 / 100)).
  unfold Rltb. destruct (Rlt_dec x (775 / 100)) as [_ | n]; [| lra].
  cbv zeta. rewrite small0_R, sum_powers_pe.
  replace (smul (sdec 25 2) (spowi x 2)) with (x ^ 2 / 4) by (change (x ^ 2 / 4 = 25 / 100 * x ^ 2); field).
  unfold poly0. rewrite pe_cons, Q2R_1. reflexivity.
Qed.
Lemma i1_small : forall x, x < 775 / 100 -> math.bessel_i1 x = x / 2 * pe poly1 (x ^ 2 / 4).
Proof.
  intros x Hx. unfold math.bessel_i1. change (x <? sdec 775 2)%S with (Rltb x (775 / 100)).
  unfold Rltb. destruct (Rlt_dec x (775 / 100)) as [_ | n]; [| lra].
  cbv zeta. rewrite small1_R, sum_powers_pe.
  replace (smul (sdec 25 2) (spowi x 2)) with (x ^ 2 / 4) by (change (x ^ 2 / 4 = 25 / 100 * x ^ 2); field).
  rewrite sum_powers_R. set (t := x ^ 2 / 4). unfold poly1. rewrite !pe_cons, Q2R_1, Q2R_frac. cbn [fold_right].
  change (5 / 10 * x * (1 + t * (5 / 10 + t * (pe small1 t + t * 0))) = x / 2 * (1 + t * (1 / 2 + t * pe small1 t))). field.
Qed.

Definition D : positive := Eval vm_compute in Z.to_pos (10 ^ 40 * factz 31 * factz 32).
Definition diff0 : list Q := Eval vm_compute in padd poly0 (pscal (- (1)) (coeffs 0)).
Definition diff1 : list Q := Eval vm_compute in padd poly1 (pscal (- (1)) (coeffs 1)).
Definition over (p : list Q) : list Z := map (fun q => (Qnum q * (Zpos D / Zpos (Qden q)))%Z) p.
Definition zdiff0 : list Z := Eval vm_compute in over diff0.
Definition zdiff1 : list Z := Eval vm_compute in over diff1.
Definition zcoeffs0 : list Z := Eval vm_compute in over (coeffs 0).
Definition zcoeffs1 : list Z := Eval vm_compute in over (coeffs 1).
Definition ztail (j : nat) : Z := (Zpos D / (factz 31 * factz (j + 31)%nat) * 16 ^ 31)%Z.
Definition ztail0 : Z := Eval vm_compute in ztail 0.
Definition ztail1 : Z := Eval vm_compute in ztail 1.

Lemma pieces0 : pieces_ok zdiff0 zcoeffs0 ztail0 = true.
Proof. vm_compute. reflexivity. Qed.
Lemma pieces1 : pieces_ok zdiff1 zcoeffs1 ztail1 = true.
Proof. vm_compute. reflexivity. Qed.

Lemma tail_scaled : forall (D : Z) j n zt, (zt * (factz n * factz (j + n)%nat) = D * 16 ^ Z.of_nat n)%Z ->
  IZR zt = IZR D * (Q2R (coeff j n) * 16 ^ n).
Proof.
  intros D j n zt Hz. apply (f_equal IZR) in Hz. rewrite !mult_IZR, !factz_R, <- (pow_IZR 16) in Hz. rewrite coeff_R.
  pose proof (fact_pos n). pose proof (fact_pos (j + n)).
  apply Rmult_eq_reg_r with (INR (fact n) * INR (fact (j + n))); [| apply Rgt_not_eq; apply Rmult_lt_0_compat; assumption].
  rewrite Hz. field. lra.
Qed.
Lemma coeffs_first : forall j n t v, 0 <= t -> pe (map (coeff j) (seq 0 (S n))) t <= v -> 1 <= v * INR (fact j).
Proof.
  intros j n t v Ht S1.
  assert (C0 : Q2R (coeff j 0) <= v).
  { eapply Rle_trans; [| exact S1]. cbn [seq map]. rewrite pe_cons.
    assert (0 <= pe (map (coeff j) (seq 1 n)) t).
    { assert (F : List.Forall (fun a => 0 <= Q2R a) (map (coeff j) (seq 1 n))).
      { apply List.Forall_forall. intros a Ha. apply in_map_iff in Ha. destruct Ha as [k [<- _]]. left. apply coeff_pos. }
      apply pe_nonneg; [exact F | lra]. }
    nra. }
  rewrite coeff_R, Nat.add_0_r in C0. change (INR (fact 0)) with 1 in C0. pose proof (fact_pos j).
  apply Rmult_le_reg_r with (/ INR (fact j)); [apply Rinv_0_lt_compat; assumption |].
  rewrite Rmult_assoc, Rinv_r by lra. rewrite Rmult_1_l in *. lra.
Qed.
Lemma scaled_bound : forall (d c t15 tl p : R), 0 < d ->
  Rabs (d * p) + d * tl <= t15 * (d * c) -> Rabs p + tl <= t15 * c.
Proof.
  intros d c e tl p Hd H. rewrite Rabs_mult, (Rabs_pos_eq d) in H by lra.
  apply Rmult_le_reg_l with d; [exact Hd |]. lra.
Qed.
Lemma poly_accurate : forall (D : positive) j poly diff zd zc zt t v,
  diff = padd poly (pscal (- (1)) (coeffs j)) ->
  scaled D diff zd = true -> scaled D (coeffs j) zc = true -> List.Forall (fun a => (0 <= a)%Z) zc ->
  (zt * (factz last * factz (j + last)%nat) = Zpos D * 16 ^ Z.of_nat last)%Z ->
  pieces_ok zd zc zt = true ->
  0 <= t < 16 -> is_series (fun k => Q2R (coeff j k) * t ^ k) v ->
  1 <= v * (INR (fact j)) /\ Rabs (pe poly t - v) <= 1 / 10 ^ 15 * v.
Proof.
  intros D j poly diff zd zc zt t v Ed Hd Hc Hp Hz Hok Ht Hs.
  pose proof (series_coeffs j t v ltac:(lra) Hs) as [S1 S2].
  pose proof (pieces_bound zd zc zt t Hok Hp Ht) as B.
  rewrite (scaled_R _ _ _ t Hd), (scaled_R _ _ _ t Hc), Ed, pe_padd, pe_pscal, Q2R_opp, Q2R_1 in B.
  rewrite (tail_scaled _ _ _ _ Hz) in B.
  apply scaled_bound in B; [| apply IZR_lt; reflexivity].
  split; [exact (coeffs_first j last t v ltac:(lra) S1) |].
  clear -S1 S2 B. revert S1 S2 B. generalize (Q2R (coeff j last) * 16 ^ last). intros tl S1 S2 B.
  generalize dependent (pe (coeffs j) t). intros c S1 S2 B.
  replace (pe poly t - v) with ((pe poly t + - (1) * c) + (c - v)) by ring.
  eapply Rle_trans; [apply Rabs_triang |]. rewrite (Rabs_left1 (c - v)) by lra. lra.
Qed.

Ltac zforall := repeat constructor; vm_compute; discriminate.

Lemma i0_accurate : forall x v, Rabs x < 775 / 100 -> is_I0 x v -> 1 <= v /\ Rabs (math.bessel_i 0 x - v) <= 1 / 10 ^ 15 * v.
Proof.
  intros x v Hx Hv. apply Rabs_def2 in Hx. change (math.bessel_i 0 x) with (math.bessel_i0 x). rewrite i0_small by lra.
  destruct (poly_accurate D 0 poly0 diff0 zdiff0 zcoeffs0 ztail0 (x ^ 2 / 4) v) as [P1 P2].
  - vm_compute. reflexivity.
  - vm_compute. reflexivity.
  - vm_compute. reflexivity.
  - zforall.
  - vm_compute. reflexivity.
  - exact pieces0.
  - split; [pose proof (pow2_ge_0 x); lra | nra].
  - eapply is_series_ext; [| exact Hv]. intro k. cbv beta. match goal with |- ?a = ?b => change (@eq R a b) end. rewrite coeff_R. cbn [Nat.add]. unfold Rdiv. ring.
  - split; [cbn [fact INR] in P1; lra | exact P2].
Qed.
Lemma i1_accurate : forall x v, Rabs x < 775 / 100 -> is_I1 x v -> Rabs (math.bessel_i 1 x - v) <= 1 / 10 ^ 15 * Rabs v.
Proof.
  intros x v Hx [s [Hs ->]]. apply Rabs_def2 in Hx. change (math.bessel_i 1 x) with (math.bessel_i1 x). rewrite i1_small by lra.
  destruct (poly_accurate D 1 poly1 diff1 zdiff1 zcoeffs1 ztail1 (x ^ 2 / 4) s) as [P1 P2].
  - vm_compute. reflexivity.
  - vm_compute. reflexivity.
  - vm_compute. reflexivity.
  - zforall.
  - vm_compute. reflexivity.
  - exact pieces1.
  - split; [pose proof (pow2_ge_0 x); lra | nra].
  - eapply is_series_ext; [| exact Hs]. intro k. cbv beta. match goal with |- ?a = ?b => change (@eq R a b) end. rewrite coeff_R. cbn [Nat.add]. unfold Rdiv. ring.
  - cbn [fact INR Nat.mul Nat.add] in P1. rewrite <- Rmult_minus_distr_l, !Rabs_mult. rewrite (Rabs_pos_eq s) by lra.
    pose proof (Rabs_pos (x / 2)). nra.
Qed.

Lemma I_exists_gen : forall j t, 0 <= t -> exists v, is_series (fun k => Q2R (coeff j k) * t ^ k) v.
Proof.
  intros j t Ht. assert (E : ex_series (fun k => Q2R (coeff j k) * t ^ k)).
  { apply (ex_series_le (K := R_AbsRing) (V := R_CompleteNormedModule) _ (fun k => / INR (fact k) * t ^ k)).
    - intro k. unfold norm; simpl. unfold abs; simpl. rewrite Rabs_pos_eq.
      + apply Rmult_le_compat_r; [apply pow_le; exact Ht |]. rewrite coeff_R. apply Rinv_le_contravar; [apply fact_pos |].
        pose proof (fact_pos k). assert (1 <= INR (fact (j + k))).
        { replace 1 with (INR 1) by reflexivity. apply le_INR. pose proof (lt_O_fact (j + k)). lia. }
        nra.
      + apply Rmult_le_pos; [left; apply coeff_pos | apply pow_le; exact Ht].
    - exists (exp t). pose proof (is_exp_Reals t) as P. unfold is_pseries in P.
      eapply is_series_ext; [| exact P]. intro k. unfold scal; simpl. unfold mult; simpl. rewrite pow_n_pow. ring. }
  destruct E as [v Hv]. exists v. exact Hv.
Qed.
Lemma I0_exists : forall x, exists v, is_I0 x v.
Proof.
  intro x. destruct (I_exists_gen 0 (x ^ 2 / 4)) as [v Hv]; [pose proof (pow2_ge_0 x); lra |].
  exists v. eapply is_series_ext; [| exact Hv]. intro k. cbv beta. match goal with |- ?a = ?b => change (@eq R a b) end. rewrite coeff_R. cbn [Nat.add]. unfold Rdiv. ring.
Qed.
Lemma I1_exists : forall x, exists v, is_I1 x v.
Proof.
  intro x. destruct (I_exists_gen 1 (x ^ 2 / 4)) as [v Hv]; [pose proof (pow2_ge_0 x); lra |].
  exists (x / 2 * v), v. split; [| reflexivity].
  eapply is_series_ext; [| exact Hv]. intro k. cbv beta. match goal with |- ?a = ?b => change (@eq R a b) end. rewrite coeff_R. cbn [Nat.add]. unfold Rdiv. ring.
Qed.

(** ** Parity *)

Lemma i0_even : forall x, Rabs x < 775 / 100 -> math.bessel_i 0 (- x) = math.bessel_i 0 x.
Proof.
  intros x Hx. apply Rabs_def2 in Hx. change (math.bessel_i0 (- x) = math.bessel_i0 x). rewrite !i0_small by lra.
  f_equal. field.
Qed.
Lemma i1_odd : forall x, Rabs x < 775 / 100 -> math.bessel_i 1 (- x) = - math.bessel_i 1 x.
Proof.
  intros x Hx. apply Rabs_def2 in Hx. change (math.bessel_i1 (- x) = - math.bessel_i1 x). rewrite !i1_small by lra.
  replace ((- x) ^ 2) with (x ^ 2) by ring. field.
Qed.
Lemma other_order : forall n (x : R), n <> 0%Z -> n <> 1%Z -> math.bessel_i n x = -1.
Proof.
  intros n x H0 H1. unfold math.bessel_i. rewrite (proj2 (Z.eqb_neq n 0) H0), (proj2 (Z.eqb_neq n 1) H1). reflexivity.
Qed.

(** ** Large negative arguments *)

Lemma pe_scale : forall p r s, List.Forall (fun a => 0 <= Q2R a) p -> 1 <= r -> 0 <= s ->
  pe p (r * s) <= r ^ length p * pe p s.
Proof.
  induction p as [| a p IH]; intros r s Hp Hr Hs; [simpl; lra |].
  inversion Hp as [| ? ? Ha Hp']; subst. specialize (IH r s Hp' Hr Hs). rewrite !pe_cons. cbn [length pow].
  assert (1 <= r ^ length p) by (apply pow_R1_Rle; exact Hr).
  assert (0 <= pe p s) by (apply pe_nonneg; assumption).
  apply Rle_trans with (Q2R a + r * s * (r ^ length p * pe p s)).
  - apply Rplus_le_compat_l. apply Rmult_le_compat_l; [nra | exact IH].
  - set (q := r ^ length p) in *. assert (1 * 1 <= r * q) by nra. nra.
Qed.
Lemma pe_grow : forall p s t, List.Forall (fun a => 0 <= Q2R a) p -> 0 <= s <= t -> pe p s <= pe p t.
Proof.
  induction p as [| a p IH]; intros s t Hp Hs; [simpl; lra |].
  inversion Hp as [| ? ? Ha Hp']; subst. specialize (IH s t Hp' Hs). pose proof (pe_nonneg p s Hp' ltac:(lra)). rewrite !pe_cons. nra.
Qed.
Lemma pe_app : forall p q t, pe (p ++ q) t = pe p t + t ^ length p * pe q t.
Proof.
  induction p as [| a p IH]; intros q t; [simpl; ring |]. cbn [app length pow]. rewrite !pe_cons, IH. ring.
Qed.
Lemma partial_sum : forall (a : nat -> R) n v, (forall k, 0 <= a k) -> is_series a v -> sum_f_R0 a n <= v.
Proof.
  intros a n v Ha Hs.
  assert (L : is_lim_seq (sum_f_R0 a) v).
  { apply is_lim_seq_ext with (u := sum_n a); [intro; apply sum_n_Reals | exact Hs]. }
  apply (is_lim_seq_le_loc (fun _ => sum_f_R0 a n) (sum_f_R0 a) (sum_f_R0 a n) v); [| apply is_lim_seq_const | exact L].
  exists n. intros m Hm. induction Hm as [| m Hm IH]; [lra |]. cbn [sum_f_R0]. pose proof (Ha (S m)). lra.
Qed.

Definition head0 : list Q := Eval vm_compute in firstn 16 (coeffs 0).
Definition rest0 : list Q := Eval vm_compute in skipn 16 (coeffs 0).
Lemma split0 : coeffs 0 = head0 ++ rest0.
Proof. vm_compute. reflexivity. Qed.
Lemma nonneg_check : forall p, List.forallb (fun q => Z.leb 0 (Qnum q)) p = true -> List.Forall (fun a => 0 <= Q2R a) p.
Proof.
  intros p H. apply List.Forall_forall. intros [m d] Ha. apply (proj1 (List.forallb_forall _ _) H) in Ha.
  cbn [Qnum] in Ha. apply Z.leb_le, IZR_le in Ha. rewrite Q2R_frac. apply Rmult_le_pos; [exact Ha |].
  left. apply Rinv_0_lt_compat. apply IZR_lt. reflexivity.
Qed.

Lemma far0_check : Qle_bool (5 * pev poly0 400) (inject_Z (400 ^ 16) * pev rest0 400) = true.
Proof. vm_compute. reflexivity. Qed.

Lemma i0_far : forall x v, x <= -40 -> is_I0 x v -> 0 < v /\ math.bessel_i 0 x <= v / 5.
Proof.
  intros x v Hx Hv. change (math.bessel_i 0 x) with (math.bessel_i0 x). rewrite i0_small by lra.
  assert (Ht : 400 <= x ^ 2 / 4) by nra. unfold is_I0 in Hv. set (t := x ^ 2 / 4) in *. clearbody t. clear Hx x.
  assert (P : pe (coeffs 0) t <= v).
  { pose proof (pe_seq (coeff 0) last 0 t) as P. simpl (t ^ 0) in P. rewrite Rmult_1_l in P. unfold coeffs. rewrite P.
    apply (partial_sum (fun i => Q2R (coeff 0 (0 + i)) * t ^ (0 + i))).
    - intro k. apply Rmult_le_pos; [left; apply coeff_pos | apply pow_le; lra].
    - eapply is_series_ext; [| exact Hv]. intro k. cbv beta. match goal with |- ?a = ?b => change (@eq R a b) end. rewrite coeff_R. cbn [Nat.add]. unfold Rdiv. ring. }
  rewrite split0, pe_app in P.
  assert (Hh : List.Forall (fun a => 0 <= Q2R a) head0) by (apply nonneg_check; vm_compute; reflexivity).
  assert (Hr : List.Forall (fun a => 0 <= Q2R a) rest0) by (apply nonneg_check; vm_compute; reflexivity).
  assert (Hp : List.Forall (fun a => 0 <= Q2R a) poly0) by (apply nonneg_check; vm_compute; reflexivity).
  assert (C : 5 * pe poly0 400 <= 400 ^ 16 * pe rest0 400).
  { pose proof far0_check as C. apply Qle_bool_iff, Qle_Rle in C. rewrite !Q2R_mult, !pe_pev, Q2R_Z in C.
    change (IZR (400 ^ 16)) with (IZR (400 ^ Z.of_nat 16)) in C. rewrite <- (pow_IZR 400) in C.
    replace (Q2R 5) with 5 in C by (unfold Q2R; simpl; field). replace (Q2R 400) with 400 in C by (unfold Q2R; simpl; field). exact C. }
  pose proof (pe_scale poly0 (t / 400) 400 Hp ltac:(lra) ltac:(lra)) as Sc.
  replace (t / 400 * 400) with t in Sc by field.
  change (length poly0) with 16%nat in Sc. change (length head0) with 16%nat in P.
  pose proof (pe_grow rest0 400 t Hr ltac:(lra)) as G.
  pose proof (pe_nonneg head0 t Hh ltac:(lra)) as N. 
  assert (T16 : t ^ 16 = (t / 400) ^ 16 * 400 ^ 16) by (rewrite <- Rpow_mult_distr; f_equal; field).
  assert (0 < (t / 400) ^ 16) by (apply pow_lt; lra).
  assert (0 < t ^ 16) by (apply pow_lt; lra).
  assert (M : t ^ 16 * pe rest0 400 <= t ^ 16 * pe rest0 t) by (apply Rmult_le_compat_l; lra).
  assert (M2 : (t / 400) ^ 16 * (5 * pe poly0 400) <= (t / 400) ^ 16 * (400 ^ 16 * pe rest0 400)) by (apply Rmult_le_compat_l; lra).
  replace ((t / 400) ^ 16 * (400 ^ 16 * pe rest0 400)) with (t ^ 16 * pe rest0 400) in M2 by (rewrite T16; ring).
  assert (1 <= pe poly0 t).
  { unfold poly0. rewrite pe_cons, Q2R_1. inversion Hp as [| ? ? _ Hp']; subst. pose proof (pe_nonneg small0 t Hp' ltac:(lra)). nra. }
  split; lra.
Qed.
