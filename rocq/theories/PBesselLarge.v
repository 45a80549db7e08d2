(** The asymptotic branches of [bessel_i] against I0 and I1. *)
From Coq Require Import Reals ZArith QArith Qreals List Lra Lia Psatz.
From Coquelicot Require Import Coquelicot.
From Verif Require Import Scalar MMath SpecBessel PErfPoly PErfRows PErfc PQuad PBase PBessel PBesselODE PBesselNum.
Import ListNotations.
Open Scope R_scope.

(** ** The code's polynomials over 10^17 *)
Definition S17 : positive := Eval vm_compute in Z.to_pos (10 ^ 17).
Definition over17 (p : list Q) : list Z := map (fun q => (Qnum q * (Zpos S17 / Zpos (Qden q)))%Z) p.
Definition mid0 : list Q := Eval vm_compute in lits (math.bessel_i0_mid (Sc := literal_scalar)).
Definition mid1 : list Q := Eval vm_compute in lits (math.bessel_i1_mid (Sc := literal_scalar)).
Definition large0 : list Q := Eval vm_compute in lits (math.bessel_i0_large (Sc := literal_scalar)).
Definition large1 : list Q := Eval vm_compute in lits (math.bessel_i1_large (Sc := literal_scalar)).
Lemma mid0_R : math.bessel_i0_mid (T := R) = map Q2R mid0.
Proof. change mid0 with (lits (math.bessel_i0_mid (Sc := literal_scalar))). rewrite lits_R. reflexivity. Qed.
Lemma mid1_R : math.bessel_i1_mid (T := R) = map Q2R mid1.
Proof. change mid1 with (lits (math.bessel_i1_mid (Sc := literal_scalar))). rewrite lits_R. reflexivity. Qed.
Lemma large0_R : math.bessel_i0_large (T := R) = map Q2R large0.
Proof. change large0 with (lits (math.bessel_i0_large (Sc := literal_scalar))). rewrite lits_R. reflexivity. Qed.
Lemma large1_R : math.bessel_i1_large (T := R) = map Q2R large1.
Proof. change large1 with (lits (math.bessel_i1_large (Sc := literal_scalar))). rewrite lits_R. reflexivity. Qed.
Definition zmid0 : list Z := Eval vm_compute in over17 mid0.
Definition zmid1 : list Z := Eval vm_compute in over17 mid1.
Definition zlarge0 : list Z := Eval vm_compute in over17 large0.
Definition zlarge1 : list Z := Eval vm_compute in over17 large1.

Lemma sum_inverse_powers_pe : forall cs x, 0 < x -> math.sum_inverse_powers (map Q2R cs) x = pe cs (1 / x).
Proof.
  intros cs x Hx. unfold math.sum_inverse_powers. rewrite ssum_R.
  assert (G : forall (cs : list R) k, Rsum (map (fun '(i, c) => sdiv c (spowi x (Z.of_nat i))) (combine (seq k (length cs)) cs))
     = (1 / x) ^ k * fold_right (fun a r => a + 1 / x * r) 0 cs).
  { clear cs. induction cs as [| c cs IH]; intros k; cbn [length seq combine map Rsum fold_right]; [ring |].
    rewrite IH. change (sdiv c (spowi x (Z.of_nat k))) with (c / powerRZ x (Z.of_nat k)). rewrite <- pow_powerRZ.
    replace (c / x ^ k) with (c * (1 / x) ^ k).
    - simpl. ring.
    - unfold Rdiv. rewrite Rmult_1_l, pow_inv. reflexivity. }
  rewrite G. simpl (_ ^ 0). rewrite Rmult_1_l.
  induction cs as [| a cs IH]; [reflexivity |]. simpl. rewrite IH. reflexivity.
Qed.

(** ** The approximation and its residual *)
Definition P (p : list Z) (x : R) : R := zp p (1 / x) / IZR (Zpos S17).
Definition P1 (p : list Z) (x : R) : R := - (1 / x) ^ 2 * zp (zder p) (1 / x) / IZR (Zpos S17).
Definition residual (c4 : Z) (p : list Z) (x : R) : R := (1 / x) ^ 2 * (zp (zres c4 p) (1 / x) / 4) / IZR (Zpos S17).

Lemma S17_pos : 0 < IZR (Zpos S17).
Proof. apply IZR_lt; reflexivity. Qed.

Lemma inv_derive : forall x, 0 < x -> is_derive (fun x => 1 / x) x (- (1 / x) ^ 2).
Proof. intros x Hx. auto_derive; [lra | field; lra]. Qed.

Lemma zp_inv_derive : forall p x, 0 < x -> is_derive (fun x => zp p (1 / x)) x (- (1 / x) ^ 2 * zp (zder p) (1 / x)).
Proof.
  intros p x Hx.
  apply (is_derive_comp (zp p) (fun x => 1 / x) x (zp (zder p) (1 / x)) (- (1 / x) ^ 2)).
  - apply zp_derive.
  - apply inv_derive; exact Hx.
Qed.

Lemma P_derive : forall p x, 0 < x -> is_derive (P p) x (P1 p x).
Proof.
  intros p x Hx. pose proof S17_pos as HS. unfold P, P1.
  replace (- (1 / x) ^ 2 * zp (zder p) (1 / x) / IZR (Zpos S17))
    with (/ IZR (Zpos S17) * (- (1 / x) ^ 2 * zp (zder p) (1 / x))) by (field; lra).
  apply (is_derive_ext (fun x => / IZR (Zpos S17) * zp p (1 / x))); [intro; apply Rmult_comm|].
  apply (is_derive_scal (fun x => zp p (1 / x))), zp_inv_derive; exact Hx.
Qed.

Lemma P1_derive : forall c4 p x, 0 < x ->
  is_derive (P1 p) x (residual c4 p x + IZR c4 / 4 * P p x / x ^ 2 - 2 * P1 p x).
Proof.
  intros c4 p x Hx. pose proof S17_pos as HS.
  assert (D2 : is_derive (fun x => - (1 / x) ^ 2) x (2 * (1 / x) ^ 3)) by (auto_derive; [lra | field; lra]).
  pose proof (zp_inv_derive (zder p) x Hx) as D3.
  pose proof (is_derive_mult _ _ x _ _ D2 D3 (fun n m => Rmult_comm n m)) as Dm.
  pose proof (is_derive_scal _ x (/ IZR (Zpos S17)) _ Dm) as Ds.
  match type of Ds with is_derive _ _ ?r' =>
    apply (is_derive_ext (fun x => / IZR (Zpos S17) * (- (1 / x) ^ 2 * zp (zder p) (1 / x)))) end.
  { intro y; unfold P1; match goal with |- ?a = ?b => change (@eq R a b) end; unfold Rdiv; ring. }
  match goal with |- is_derive _ _ ?r => match type of Ds with is_derive _ _ ?r' => replace r with r'; [exact Ds|] end end.
  unfold residual, P, P1. rewrite zp_res.
  set (z := zp p (1 / x)). set (z1 := zp (zder p) (1 / x)). set (z2 := zp (zder (zder p)) (1 / x)).
  change (/ IZR (Zpos S17) * (2 * (1 / x) ^ 3 * z1 + - (1 / x) ^ 2 * (- (1 / x) ^ 2 * z2))
   = (1 / x) ^ 2 * (4 * ((1 / x) ^ 2 * z2 + 2 * (1 / x) * z1 - 2 * z1 - IZR c4 / 4 * z) / 4) / IZR (Zpos S17)
     + IZR c4 / 4 * (z / IZR (Zpos S17)) / x ^ 2 - 2 * (- (1 / x) ^ 2 * z1 / IZR (Zpos S17))).
  field; lra.
Qed.

(** ** From the start of a branch to its end *)
Section Branch.
Variables (A A1 : R -> R) (n2 : R) (c4 : Z) (p : list Z).
Hypothesis HA : forall x, 0 < x -> is_derive A x (A1 x).
Hypothesis HA1 : forall x, 0 < x -> is_derive A1 x ((1 + n2 / x ^ 2) * A x - A1 x / x).
Hypothesis Hc : n2 - / 4 = IZR c4 / 4.

Definition err (x : R) : R := P p x - PBesselODE.scaled A x.
Definition flux (x : R) : R := P1 p x - scaled1 A A1 x + 2 * err x.

Lemma branch : forall x0 x1 m h N num den E0 G0 M, 0 < x0 ->
  upper_ok (zres c4 p) m h N num den = true -> 0 < IZR h -> 0 < IZR N -> 0 < IZR den ->
  (forall x, x0 <= x <= x1 -> (IZR m - IZR h) / IZR N <= 1 / x <= (IZR m + IZR h) / IZR N) ->
  Rabs (err x0) <= E0 -> Rabs (flux x0) <= G0 ->
  Rabs (IZR c4 / 4) < 2 * x0 -> E0 <= M ->
  G0 + (IZR num / IZR den / 4 / IZR (Zpos S17) + Rabs (IZR c4 / 4) * M) / x0 <= 2 * M ->
  forall x, x0 <= x <= x1 -> Rabs (err x) <= M /\ Rabs (flux x) <= G0 + (IZR num / IZR den / 4 / IZR (Zpos S17) + Rabs (IZR c4 / 4) * M) / x0.
Proof.
  intros x0 x1 m h N num den E0 G0 M Hx0 Hok Hh HN Hd Hin HE HG Hcx HEM HGM x Hx.
  refine (gronwall err (fun x => P1 p x - scaled1 A A1 x) (residual c4 p) (IZR c4 / 4)
    (IZR num / IZR den / 4 / IZR (Zpos S17)) x0 x1 E0 G0 Hx0 _ _ _ HE HG M Hcx HEM HGM x Hx); clear x Hx; intros x Hx.
  - apply (is_derive_minus (P p) (PBesselODE.scaled A)); [apply P_derive; lra|].
    apply (scaled_derive A A1 HA); lra.
  - replace (residual c4 p x + IZR c4 / 4 * err x / x ^ 2 - 2 * (P1 p x - scaled1 A A1 x))
      with (minus (residual c4 p x + IZR c4 / 4 * P p x / x ^ 2 - 2 * P1 p x)
                  ((n2 - / 4) * PBesselODE.scaled A x / x ^ 2 - 2 * scaled1 A A1 x)).
    + apply (is_derive_minus (P1 p) (scaled1 A A1)); [apply P1_derive; lra|].
      apply (scaled1_derive A A1 n2 HA HA1); lra.
    + rewrite Hc. unfold err. unfold minus, plus, opp. simpl. field; lra.
  - pose proof (upper_bound (zres c4 p) m h N num den (1 / x) Hok Hh HN Hd (Hin x Hx)) as U.
    unfold residual. pose proof S17_pos as HS.
    set (z := zp (zres c4 p) (1 / x)) in *. set (b := IZR num / IZR den) in *.
    assert (Hp : 0 < x ^ 2) by (apply pow_lt; lra).
    replace ((1 / x) ^ 2 * (z / 4) / IZR (Zpos S17)) with (z * (/ 4 / IZR (Zpos S17) / x ^ 2)) by (field; lra).
    replace (b / 4 / IZR (Zpos S17) / x ^ 2) with (b * (/ 4 / IZR (Zpos S17) / x ^ 2)) by (field; lra).
    rewrite Rabs_mult.
    assert (Hk : 0 < / 4 / IZR (Zpos S17) / x ^ 2).
    { repeat apply Rmult_lt_0_compat; try lra; apply Rinv_0_lt_compat; lra. }
    rewrite (Rabs_pos_eq (/ 4 / _ / _)) by lra.
    apply Rmult_le_compat_r; lra.
Qed.
End Branch.

(** ** Values at 31/4 *)
Lemma coeff_series : forall j (a : nat -> R) t, (forall k, Q2R (coeff j k) = a k) -> CV_radius a = p_infty ->
  is_series (fun k => Q2R (coeff j k) * t ^ k) (PSeries a t).
Proof.
  intros j a t Ha Hr.
  apply (is_series_ext (fun k => a k * t ^ k)).
  { intro k. match goal with |- ?u = ?v => change (@eq R u v) end. rewrite Ha. reflexivity. }
  unfold PSeries. apply Series_correct.
  apply (ex_series_ext (fun k => scal (pow_n t k) (a k))).
  { intro k. rewrite pow_n_pow. unfold scal. simpl. unfold mult. simpl. ring. }
  apply CV_radius_inside. rewrite Hr. exact I.
Qed.

Lemma coeff_a0 : forall k, Q2R (coeff 0 k) = a0 k.
Proof. intro k. rewrite coeff_R. reflexivity. Qed.
Lemma coeff_a1 : forall k, Q2R (coeff 1 k) = a1 k.
Proof. intro k. rewrite coeff_R. reflexivity. Qed.

Definition start_ok (zc : list Z) (zt lo hi den : Z) : bool :=
  let v := zhom zc 961 64 in let k := (64 ^ Z.of_nat (length zc))%Z in
  Z.leb (lo * (Zpos D * k)) (v * den) && Z.leb ((v + zt * k) * den) (hi * (Zpos D * k)).

Lemma start_bounds : forall j a zc zt lo hi den, (forall k, Q2R (coeff j k) = a k) -> CV_radius a = p_infty ->
  PBessel.scaled D (coeffs j) zc = true ->
  (zt * (factz last * factz (j + last)%nat) = Zpos D * 16 ^ Z.of_nat last)%Z ->
  0 < IZR den -> start_ok zc zt lo hi den = true ->
  IZR lo / IZR den <= PSeries a (961 / 64) <= IZR hi / IZR den.
Proof.
  intros j a zc zt lo hi den Ha Hr Hc Hz Hd Hok.
  pose proof (series_coeffs j (961 / 64) _ ltac:(lra) (coeff_series j a (961 / 64) Ha Hr)) as [L U].
  set (v := PSeries a (961 / 64)) in *.
  pose proof (scaled_R _ _ _ (961 / 64) Hc) as E.
  pose proof (tail_scaled _ _ _ _ Hz) as T.
  pose proof (zp_hom zc 961 64 ltac:(lra)) as Hm. rewrite E in Hm.
  unfold start_ok in Hok. cbv zeta in Hok. apply andb_true_iff in Hok. destruct Hok as [O1 O2].
  apply Z.leb_le, IZR_le in O1. apply Z.leb_le, IZR_le in O2.
  rewrite !mult_IZR in O1. rewrite !mult_IZR, plus_IZR, !mult_IZR in O2.
  rewrite Hm, <- (pow_IZR 64) in O1. rewrite Hm, T, <- (pow_IZR 64) in O2.
  assert (HD : 0 < IZR (Zpos D)) by (apply IZR_lt; reflexivity).
  set (d := IZR (Zpos D)) in *. clearbody d.
  assert (Hk : 0 < 64 ^ length zc) by (apply pow_lt; lra).
  set (k := 64 ^ length zc) in *. clearbody k.
  set (s := pe (coeffs j) (961 / 64)) in *. clearbody s.
  set (tl := Q2R (coeff j last) * 16 ^ last) in *. clearbody tl. clearbody v.
  assert (Hdk : 0 < d * k) by (apply Rmult_lt_0_compat; assumption).
  clear -L U O1 O2 Hdk Hd.
  split.
  - apply (Rmult_le_reg_r (IZR den)); [exact Hd|]. unfold Rdiv; rewrite Rmult_assoc, Rinv_l by lra.
    apply Rle_trans with (s * IZR den); [|apply Rmult_le_compat_r; lra].
    apply (Rmult_le_reg_l (d * k)); [exact Hdk|]. lra.
  - apply (Rmult_le_reg_r (IZR den)); [exact Hd|]. unfold Rdiv; rewrite Rmult_assoc, Rinv_l by lra.
    apply Rle_trans with ((s + tl) * IZR den); [apply Rmult_le_compat_r; lra|].
    apply (Rmult_le_reg_l (d * k)); [exact Hdk|]. lra.
Qed.

Lemma S0_bounds : 33851375374727594515 / 100000000000000000 <= PSeries a0 (961 / 64) <= 33851375374727594516 / 100000000000000000.
Proof.
  apply (start_bounds 0 a0 zcoeffs0 ztail0 _ _ _ coeff_a0 a0_radius); [vm_compute; reflexivity | vm_compute; reflexivity | lra | vm_compute; reflexivity].
Qed.
Lemma S1_bounds : 8151031765780732957 / 100000000000000000 <= PSeries a1 (961 / 64) <= 8151031765780732958 / 100000000000000000.
Proof.
  apply (start_bounds 1 a1 zcoeffs1 ztail1 _ _ _ coeff_a1 a1_radius); [vm_compute; reflexivity | vm_compute; reflexivity | lra | vm_compute; reflexivity].
Qed.

(** exp (31/4) from fifty terms of its series. *)
Definition ecoeffs : list Z := Eval vm_compute in map (fun k => (factz 50 / factz k)%Z) (seq 0 51).

Lemma ecoeffs_sum : forall t, zp ecoeffs t = IZR (factz 50) * sum_f_R0 (fun k => t ^ k / INR (fact k)) 50.
Proof.
  intro t.
  pose proof (pe_seq (fun k => (1 # Z.to_pos (factz k))%Q) 50 0 t) as E.
  assert (Sc : zp ecoeffs t = IZR (Zpos (Z.to_pos (factz 50))) * pe (map (fun k => (1 # Z.to_pos (factz k))%Q) (seq 0 51)) t).
  { apply scaled_R. vm_compute. reflexivity. }
  rewrite Z2Pos.id in Sc by apply factz_pos. rewrite Sc.
  simpl (t ^ 0) in E. rewrite Rmult_1_l in E. rewrite E. f_equal. apply sum_eq. intros i _.
  cbn [Nat.add]. rewrite Q2R_frac, Z2Pos.id by apply factz_pos. rewrite factz_R. unfold Rdiv. ring.
Qed.

Lemma exp_series : forall t, is_series (fun k => t ^ k / INR (fact k)) (exp t).
Proof.
  intro t. pose proof (is_exp_Reals t) as Pe. unfold is_pseries in Pe.
  eapply is_series_ext; [|exact Pe]. intro k. cbv beta. rewrite pow_n_pow. unfold scal. simpl. unfold mult. simpl. unfold Rdiv. reflexivity.
Qed.

Lemma exp_bounds : 23215724146110567463 / 10000000000000000 <= exp (31 / 4) <= 23215724146110567464 / 10000000000000000.
Proof.
  set (x := 31 / 4).
  pose proof (series_tail (fun k => x ^ k / INR (fact k)) 50 (exp x)) as T. cbv beta in T.
  destruct T as [T1 T2].
  - intro k. apply Rmult_le_pos; [apply pow_le; unfold x; lra | left; apply Rinv_0_lt_compat, fact_pos].
  - intros k Hk. rewrite fact_simpl, mult_INR. cbn [pow]. pose proof (fact_pos k).
    assert (50 <= INR (S k)) by (replace 50 with (INR 50) by (rewrite INR_IZR_INZ; reflexivity); apply le_INR; lia).
    replace (x * x ^ k / (INR (S k) * INR (fact k))) with (x ^ k / INR (fact k) * (x / INR (S k))) by (field; lra).
    replace (x ^ k / INR (fact k) / 2) with (x ^ k / INR (fact k) * / 2) by (field; lra).
    apply Rmult_le_compat_l; [apply Rmult_le_pos; [apply pow_le; unfold x; lra | left; apply Rinv_0_lt_compat; assumption]|].
    apply (Rmult_le_reg_r (INR (S k))); [lra|]. unfold Rdiv. rewrite Rmult_assoc, Rinv_l by lra. unfold x. lra.
  - apply exp_series.
  - pose proof (ecoeffs_sum x) as E.
    pose proof (zp_hom ecoeffs 31 4 ltac:(lra)) as Hm. fold x in Hm. rewrite E in Hm.
    set (s := sum_f_R0 (fun k => x ^ k / INR (fact k)) 50) in *. clearbody s.
    set (v := exp x) in *. clearbody v.
    assert (HF : IZR (factz 50) = INR (fact 50)) by apply factz_R.
    rewrite <- HF in T2.
    assert (Tl : IZR (4 ^ 50 * factz 50) * (x ^ 50 / IZR (factz 50)) = IZR (31 ^ 50)).
    { rewrite mult_IZR. change (4 ^ 50)%Z with (4 ^ Z.of_nat 50)%Z. change (31 ^ 50)%Z with (31 ^ Z.of_nat 50)%Z.
      rewrite <- !pow_IZR. unfold x, Rdiv. rewrite Rpow_mult_distr, pow_inv.
      pose proof (IZR_lt _ _ (factz_pos 50)). assert (0 < 4 ^ 50) by (apply pow_lt; lra).
      set (k := 4 ^ 50) in *. set (f := IZR (factz 50)) in *. set (y := 31 ^ 50). clearbody k f y. field. split; lra. }
    set (u := x ^ 50 / IZR (factz 50)) in *. clearbody u.
    set (F := (4 ^ 50 * factz 50)%Z) in *.
    assert (Sm : IZR F * s = IZR (zhom ecoeffs 31 4) / 4).
    { rewrite Hm. unfold F. rewrite mult_IZR. change (4 ^ 50)%Z with (4 ^ Z.of_nat 50)%Z. rewrite <- pow_IZR.
      change (length ecoeffs) with 51%nat. rewrite <- tech_pow_Rmult. field. }
    assert (HFp : 0 < IZR F) by (apply IZR_lt; vm_compute; reflexivity).
    assert (K1 : (23215724146110567463 * (4 * F) <= 10000000000000000 * zhom ecoeffs 31 4)%Z) by (vm_compute; discriminate).
    assert (K2 : (10000000000000000 * (zhom ecoeffs 31 4 + 4 * 31 ^ 50) <= 23215724146110567464 * (4 * F))%Z) by (vm_compute; discriminate).
    apply IZR_le in K1. apply IZR_le in K2. rewrite !mult_IZR in K1. rewrite !mult_IZR, plus_IZR, mult_IZR in K2.
    set (H := IZR (zhom ecoeffs 31 4)) in *. set (J := IZR (31 ^ 50)) in *. set (f := IZR F) in *. clearbody H J f.
    clear -T1 T2 Tl Sm HFp K1 K2.
    assert (f * v <= f * (s + u)) by (apply Rmult_le_compat_l; lra).
    assert (f * s <= f * v) by (apply Rmult_le_compat_l; lra).
    split; apply (Rmult_le_reg_l f); try exact HFp; lra.
Qed.

Lemma sqrt31_bounds : 556776436283002192211 / 100000000000000000000 <= sqrt 31 <= 556776436283002192212 / 100000000000000000000.
Proof.
  split.
  - rewrite <- (sqrt_pow2 (556776436283002192211 / 100000000000000000000)) by lra. apply sqrt_le_1_alt. lra.
  - rewrite <- (sqrt_pow2 (556776436283002192212 / 100000000000000000000)) by lra. apply sqrt_le_1_alt. lra.
Qed.

Lemma weight_bounds : Rabs (weight (31 / 4) - 1199136483486088891 / 1000000000000000000000) <= 2 / 1000000000000000000000.
Proof.
  unfold weight. rewrite exp_Ropp.
  replace (sqrt (31 / 4)) with (sqrt 31 / 2).
  2: { replace (31 / 4) with (31 * (/ 2) ^ 2) by field. rewrite sqrt_mult by lra. rewrite sqrt_pow2 by lra. reflexivity. }
  pose proof exp_bounds as [E1 E2]. pose proof sqrt31_bounds as [S1 S2].
  set (E := exp (31 / 4)) in *. set (S := sqrt 31) in *. clearbody E S.
  assert (HE : 0 < E) by lra.
  apply Rabs_le. split.
  - apply (Rmult_le_reg_r E); [exact HE|]. replace ((S / 2 * / E - 1199136483486088891 / 1000000000000000000000) * E)
      with (S / 2 - 1199136483486088891 / 1000000000000000000000 * E) by (field; lra). lra.
  - apply (Rmult_le_reg_r E); [exact HE|]. replace ((S / 2 * / E - 1199136483486088891 / 1000000000000000000000) * E)
      with (S / 2 - 1199136483486088891 / 1000000000000000000000 * E) by (field; lra). lra.
Qed.

Lemma product_close : forall a b a' b' da db X, Rabs (a - a') <= da -> Rabs (b - b') <= db -> Rabs a <= X ->
  Rabs (a * b - a' * b') <= X * db + Rabs b' * da.
Proof.
  intros a b a' b' da db X H1 H2 H3.
  replace (a * b - a' * b') with (a * (b - b') + b' * (a - a')) by ring.
  eapply Rle_trans; [apply Rabs_triang|]. rewrite !Rabs_mult.
  apply Rplus_le_compat; [apply Rmult_le_compat; try apply Rabs_pos; assumption | apply Rmult_le_compat_l; [apply Rabs_pos | assumption]].
Qed.
