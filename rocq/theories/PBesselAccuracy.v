(** The accuracy of [bessel_i] for arguments from 7.75 on. *)
From Coq Require Import Reals ZArith QArith Qreals List Lra Lia Psatz.
From Coquelicot Require Import Coquelicot.
From Verif Require Import Scalar MMath SpecBessel PErfPoly PErfRows PErfc PQuad PBase PBessel PBesselODE PBesselNum PBesselLarge.
Import ListNotations.
Open Scope R_scope.

Definition value_ok (p : list Z) (a b lo hi : Z) : bool :=
  let v := zhom p a b in let k := (b ^ Z.of_nat (length p))%Z in Z.leb (lo * k) v && Z.leb v (hi * k).
Lemma value_bounds : forall p a b lo hi, 0 < IZR b -> value_ok p a b lo hi = true ->
  IZR lo <= zp p (IZR a / IZR b) <= IZR hi.
Proof.
  intros p a b lo hi Hb Hok. unfold value_ok in Hok. cbv zeta in Hok. apply andb_true_iff in Hok. destruct Hok as [O1 O2].
  apply Z.leb_le, IZR_le in O1. apply Z.leb_le, IZR_le in O2. rewrite mult_IZR, <- pow_IZR in O1, O2.
  rewrite zp_hom in O1, O2 by lra.
  assert (Hk : 0 < IZR b ^ length p) by (apply pow_lt; exact Hb). set (k := IZR b ^ length p) in *. clearbody k.
  set (z := zp p _) in *. clearbody z. split; apply (Rmult_le_reg_l k); lra.
Qed.

Lemma S17_eq : IZR (Zpos S17) = 100000000000000000.
Proof. reflexivity. Qed.

Lemma I0_start : Rabs (I0 (31 / 4) - 33851375374727594515 / 100000000000000000) <= 1 / 100000000000000000.
Proof.
  unfold I0. replace ((31 / 4) ^ 2 / 4) with (961 / 64) by field. pose proof S0_bounds.
  set (s := PSeries a0 (961 / 64)) in *. clearbody s. apply Rabs_le. lra.
Qed.
Lemma I1_start : Rabs (I1 (31 / 4) - 31 / 8 * (8151031765780732957 / 100000000000000000)) <= 4 / 100000000000000000.
Proof.
  unfold I1. replace ((31 / 4) ^ 2 / 4) with (961 / 64) by field. pose proof S1_bounds.
  set (s := PSeries a1 (961 / 64)) in *. clearbody s. apply Rabs_le. lra.
Qed.

(** A linear combination of I0 and I1 at 31/4, times the weight. *)
Lemma weighted : forall k0 k1, Rabs k0 <= 2 -> Rabs k1 <= 2 ->
  Rabs (weight (31 / 4) * (k0 * I0 (31 / 4) + k1 * I1 (31 / 4))
    - 1199136483486088891 / 1000000000000000000000
      * (k0 * (33851375374727594515 / 100000000000000000) + k1 * (31 / 8 * (8151031765780732957 / 100000000000000000))))
  <= 4 / 1000000000000000000.
Proof.
  intros k0 k1 H0 H1.
  pose proof weight_bounds as W. pose proof I0_start as B0. pose proof I1_start as B1.
  set (w := weight (31 / 4)) in *. set (i0 := I0 (31 / 4)) in *. set (i1 := I1 (31 / 4)) in *. clearbody w i0 i1.
  set (w' := 1199136483486088891 / 1000000000000000000000) in *.
  set (j0 := 33851375374727594515 / 100000000000000000) in *.
  set (j1 := 31 / 8 * (8151031765780732957 / 100000000000000000)) in *.
  assert (Hw : Rabs w <= 2 / 1000).
  { replace w with ((w - w') + w') by ring. eapply Rle_trans; [apply Rabs_triang|].
    rewrite (Rabs_pos_eq w') by (unfold w'; lra). unfold w' in *. lra. }
  assert (Hb : Rabs ((k0 * i0 + k1 * i1) - (k0 * j0 + k1 * j1)) <= 10 / 100000000000000000).
  { replace ((k0 * i0 + k1 * i1) - (k0 * j0 + k1 * j1)) with (k0 * (i0 - j0) + k1 * (i1 - j1)) by ring.
    eapply Rle_trans; [apply Rabs_triang|]. rewrite !Rabs_mult.
    pose proof (Rmult_le_compat _ _ _ _ (Rabs_pos k0) (Rabs_pos (i0 - j0)) H0 B0).
    pose proof (Rmult_le_compat _ _ _ _ (Rabs_pos k1) (Rabs_pos (i1 - j1)) H1 B1). lra. }
  assert (Hj : Rabs (k0 * j0 + k1 * j1) <= 1400).
  { eapply Rle_trans; [apply Rabs_triang|]. rewrite !Rabs_mult.
    rewrite (Rabs_pos_eq j0) by (unfold j0; lra). rewrite (Rabs_pos_eq j1) by (unfold j1; lra).
    assert (Rabs k0 * j0 <= 2 * j0) by (apply Rmult_le_compat_r; [unfold j0; lra | exact H0]).
    assert (Rabs k1 * j1 <= 2 * j1) by (apply Rmult_le_compat_r; [unfold j1; lra | exact H1]).
    unfold j0, j1 in *. lra. }
  eapply Rle_trans; [apply (product_close w _ w' _ _ _ _ W Hb Hw)|]. lra.
Qed.

(** ** Order zero *)
Lemma A0_derive : forall x, 0 < x -> is_derive I0 x (I1 x).
Proof. intros x _. apply I0_derive. Qed.
Lemma A0_derive1 : forall x, 0 < x -> is_derive I1 x ((1 + 0 / x ^ 2) * I0 x - I1 x / x).
Proof.
  intros x Hx. replace ((1 + 0 / x ^ 2) * I0 x - I1 x / x) with (I0 x - I1 x / x) by (field; lra).
  apply I1_derive; lra.
Qed.

Definition A1' (x : R) : R := I0 x - I1 x / x.
Lemma A1_derive : forall x, 0 < x -> is_derive I1 x (A1' x).
Proof. intros x Hx. apply I1_derive; lra. Qed.
Lemma A1_derive1 : forall x, 0 < x -> is_derive A1' x ((1 + 1 / x ^ 2) * I1 x - A1' x / x).
Proof.
  intros x Hx. unfold A1'.
  assert (Dd : is_derive (fun x => I1 x / x) x ((I0 x - I1 x / x) / x - I1 x / x ^ 2)).
  { replace ((I0 x - I1 x / x) / x - I1 x / x ^ 2) with ((I0 x - I1 x / x) * / x + I1 x * (- / x ^ 2)) by (field; lra).
    apply (is_derive_mult I1 (fun x => / x) x); [apply I1_derive; lra | | intros; apply Rmult_comm].
    auto_derive; [lra | field; lra]. }
  pose proof (is_derive_minus _ _ _ _ _ (I0_derive x) Dd) as Dm.
  match goal with |- is_derive _ _ ?r => match type of Dm with is_derive _ _ ?r' => replace r with r'; [exact Dm|] end end.
  unfold minus, plus, opp. simpl. field; lra.
Qed.

Lemma start0 : Rabs (err I0 zmid0 (31 / 4)) <= 1 / 10 ^ 15 /\ Rabs (flux I0 I1 zmid0 (31 / 4)) <= 2 / 10 ^ 15.
Proof.
  pose proof (value_bounds zmid0 4 31 40592419228018415 40592419228018416 ltac:(lra) ltac:(vm_compute; reflexivity)) as V.
  pose proof (value_bounds (zder zmid0) 4 31 5917966762911548 5917966762911549 ltac:(lra) ltac:(vm_compute; reflexivity)) as V1.
  pose proof (weighted 1 0 ltac:(rewrite Rabs_pos_eq; lra) ltac:(rewrite Rabs_pos_eq; lra)) as W.
  pose proof (weighted (- (29 / 31)) 1 ltac:(rewrite Rabs_Ropp, Rabs_pos_eq; lra) ltac:(rewrite Rabs_pos_eq; lra)) as W1.
  unfold flux, err, P, P1, PBesselODE.scaled, scaled1. rewrite S17_eq.
  replace (1 / (31 / 4)) with (4 / 31) by field.
  replace (I0 (31 / 4) * (/ (2 * (31 / 4)) - 1) + I1 (31 / 4)) with (- (29 / 31) * I0 (31 / 4) + 1 * I1 (31 / 4)) by field.
  replace (weight (31 / 4) * I0 (31 / 4)) with (weight (31 / 4) * (1 * I0 (31 / 4) + 0 * I1 (31 / 4))) by ring.
  set (u := weight (31 / 4) * (1 * I0 (31 / 4) + 0 * I1 (31 / 4))) in *. clearbody u.
  set (u1 := weight (31 / 4) * (- (29 / 31) * I0 (31 / 4) + 1 * I1 (31 / 4))) in *. clearbody u1.
  set (z := zp zmid0 (4 / 31)) in *. clearbody z. set (z1 := zp (zder zmid0) (4 / 31)) in *. clearbody z1.
  apply Rabs_le_between in W. apply Rabs_le_between in W1. split; apply Rabs_le; split; lra.
Qed.

Lemma start1 : Rabs (err I1 zmid1 (31 / 4)) <= 1 / 10 ^ 15 /\ Rabs (flux I1 A1' zmid1 (31 / 4)) <= 2 / 10 ^ 15.
Proof.
  pose proof (value_bounds zmid1 4 31 37875023327556639 37875023327556640 ltac:(lra) ltac:(vm_compute; reflexivity)) as V.
  pose proof (value_bounds (zder zmid1) 4 31 (-16447875877202362) (-16447875877202361) ltac:(lra) ltac:(vm_compute; reflexivity)) as V1.
  pose proof (weighted 0 1 ltac:(rewrite Rabs_pos_eq; lra) ltac:(rewrite Rabs_pos_eq; lra)) as W.
  pose proof (weighted 1 (- (33 / 31)) ltac:(rewrite Rabs_pos_eq; lra) ltac:(rewrite Rabs_Ropp, Rabs_pos_eq; lra)) as W1.
  unfold flux, err, P, P1, PBesselODE.scaled, scaled1, A1'. rewrite S17_eq.
  replace (1 / (31 / 4)) with (4 / 31) by field.
  replace (I1 (31 / 4) * (/ (2 * (31 / 4)) - 1) + (I0 (31 / 4) - I1 (31 / 4) / (31 / 4)))
    with (1 * I0 (31 / 4) + - (33 / 31) * I1 (31 / 4)) by field.
  replace (weight (31 / 4) * I1 (31 / 4)) with (weight (31 / 4) * (0 * I0 (31 / 4) + 1 * I1 (31 / 4))) by ring.
  set (u := weight (31 / 4) * (0 * I0 (31 / 4) + 1 * I1 (31 / 4))) in *. clearbody u.
  set (u1 := weight (31 / 4) * (1 * I0 (31 / 4) + - (33 / 31) * I1 (31 / 4))) in *. clearbody u1.
  set (z := zp zmid1 (4 / 31)) in *. clearbody z. set (z1 := zp (zder zmid1) (4 / 31)) in *. clearbody z1.
  apply Rabs_le_between in W. apply Rabs_le_between in W1. split; apply Rabs_le; split; lra.
Qed.

(** ** The two branches *)
Lemma mid_points : forall x, 31 / 4 <= x <= 500 -> (2031 - 1969) / 31000 <= 1 / x <= (2031 + 1969) / 31000.
Proof.
  intros x Hx. replace (1 / x) with (/ x) by (field; lra). split.
  - replace ((2031 - 1969) / 31000) with (/ 500) by field. apply Rinv_le_contravar; lra.
  - replace ((2031 + 1969) / 31000) with (/ (31 / 4)) by field. apply Rinv_le_contravar; lra.
Qed.
Lemma large_points : forall x, 500 <= x -> (1 - 1) / 1000 <= 1 / x <= (1 + 1) / 1000.
Proof.
  intros x Hx. replace (1 / x) with (/ x) by (field; lra). split.
  - replace ((1 - 1) / 1000) with 0 by field. left. apply Rinv_0_lt_compat. lra.
  - replace ((1 + 1) / 1000) with (/ 500) by field. apply Rinv_le_contravar; lra.
Qed.

Lemma quarter : Rabs (IZR (-1) / 4) = 1 / 4.
Proof. rewrite Rabs_left; lra. Qed.
Lemma three_quarters : Rabs (IZR 3 / 4) = 3 / 4.
Proof. rewrite Rabs_pos_eq; lra. Qed.

Lemma mid0_err : forall x, 31 / 4 <= x <= 500 ->
  Rabs (err I0 zmid0 x) <= 8 / 10 ^ 14 /\ Rabs (flux I0 I1 zmid0 x) <= 154 / 10 ^ 15.
Proof.
  intros x Hx. destruct start0 as [HE HG].
  destruct (branch I0 I1 0 (-1) zmid0 A0_derive A0_derive1 ltac:(lra) (31 / 4) 500 2031 1969 31000 446000 1
    (1 / 10 ^ 15) (2 / 10 ^ 15) (8 / 10 ^ 14)) with (x := x) as [B1 B2];
    try assumption; try (rewrite quarter, ?S17_eq); try lra.
  - vm_compute. reflexivity.
  - exact mid_points.
  - split; [exact B1|]. rewrite quarter, S17_eq in B2. lra.
Qed.
Lemma mid1_err : forall x, 31 / 4 <= x <= 500 ->
  Rabs (err I1 zmid1 x) <= 8 / 10 ^ 14 /\ Rabs (flux I1 A1' zmid1 x) <= 154 / 10 ^ 15.
Proof.
  intros x Hx. destruct start1 as [HE HG].
  destruct (branch I1 A1' 1 3 zmid1 A1_derive A1_derive1 ltac:(lra) (31 / 4) 500 2031 1969 31000 446000 1
    (1 / 10 ^ 15) (2 / 10 ^ 15) (8 / 10 ^ 14)) with (x := x) as [B1 B2];
    try assumption; try (rewrite three_quarters, ?S17_eq); try lra.
  - vm_compute. reflexivity.
  - exact mid_points.
  - split; [exact B1|]. rewrite three_quarters, S17_eq in B2. lra.
Qed.

(** The polynomial changes at 500, by very little. *)
Lemma pass : forall A A1 p p' lo hi lo1 hi1,
  value_ok p 1 500 lo hi = true -> value_ok p' 1 500 (lo - 100) (hi + 100) = true ->
  value_ok (zder p) 1 500 lo1 hi1 = true -> value_ok (zder p') 1 500 (lo1 - 1000000) (hi1 + 1000000) = true ->
  (hi = lo + 1)%Z -> (hi1 = lo1 + 1)%Z ->
  Rabs (err A p 500) <= 8 / 10 ^ 14 -> Rabs (flux A A1 p 500) <= 154 / 10 ^ 15 ->
  Rabs (err A p' 500) <= 82 / 10 ^ 15 /\ Rabs (flux A A1 p' 500) <= 157 / 10 ^ 15.
Proof.
  intros A A1 p p' lo hi lo1 hi1 V1 V2 V3 V4 E1 E2 H1 H2.
  apply value_bounds in V1; [|lra]. apply value_bounds in V2; [|lra]. apply value_bounds in V3; [|lra]. apply value_bounds in V4; [|lra].
  rewrite minus_IZR, plus_IZR in V2, V4. subst hi hi1. rewrite !plus_IZR in V1, V2, V3, V4.
  unfold flux, err, P, P1 in *. rewrite S17_eq in *.
  set (u := PBesselODE.scaled A 500) in *. set (u1 := scaled1 A A1 500) in *. clearbody u u1.
  set (z := zp p (1 / 500)) in *. set (z' := zp p' (1 / 500)) in *. set (z1 := zp (zder p) (1 / 500)) in *. set (z1' := zp (zder p') (1 / 500)) in *.
  clearbody z z' z1 z1'. set (l := IZR lo) in *. set (l1 := IZR lo1) in *. clearbody l l1.
  replace ((1 / 500) ^ 2) with (1 / 250000) in * by field.
  apply Rabs_le_between in H1. apply Rabs_le_between in H2.
  split; apply Rabs_le; split; lra.
Qed.

Lemma large0_start : Rabs (err I0 zlarge0 500) <= 82 / 10 ^ 15 /\ Rabs (flux I0 I1 zlarge0 500) <= 157 / 10 ^ 15.
Proof.
  destruct (mid0_err 500 ltac:(lra)) as [H1 H2].
  apply (pass I0 I1 zmid0 zlarge0 39904212840852327 39904212840852328 4998033963892912 4998033963892913);
    try assumption; vm_compute; reflexivity.
Qed.
Lemma large1_start : Rabs (err I1 zlarge1 500) <= 82 / 10 ^ 15 /\ Rabs (flux I1 A1' zlarge1 500) <= 157 / 10 ^ 15.
Proof.
  destruct (mid1_err 500 ltac:(lra)) as [H1 H2].
  apply (pass I1 A1' zmid1 zlarge1 39864288635875641 39864288635875642 (-14979085208071999) (-14979085208071998));
    try assumption; vm_compute; reflexivity.
Qed.

Lemma large0_err : forall x, 500 <= x -> Rabs (err I0 zlarge0 x) <= 9 / 10 ^ 14.
Proof.
  intros x Hx. destruct large0_start as [HE HG].
  destruct (branch I0 I1 0 (-1) zlarge0 A0_derive A0_derive1 ltac:(lra) 500 x 1 1 1000 3040000 1
    (82 / 10 ^ 15) (157 / 10 ^ 15) (9 / 10 ^ 14)) with (x := x) as [B1 B2];
    try assumption; try (rewrite quarter, ?S17_eq); try lra.
  - vm_compute. reflexivity.
  - intros y Hy. apply large_points. lra.
Qed.
Lemma large1_err : forall x, 500 <= x -> Rabs (err I1 zlarge1 x) <= 9 / 10 ^ 14.
Proof.
  intros x Hx. destruct large1_start as [HE HG].
  destruct (branch I1 A1' 1 3 zlarge1 A1_derive A1_derive1 ltac:(lra) 500 x 1 1 1000 3040000 1
    (82 / 10 ^ 15) (157 / 10 ^ 15) (9 / 10 ^ 14)) with (x := x) as [B1 B2];
    try assumption; try (rewrite three_quarters, ?S17_eq); try lra.
  - vm_compute. reflexivity.
  - intros y Hy. apply large_points. lra.
Qed.

(** ** Relative accuracy *)
Lemma relative : forall A p x m h N, 0 < x -> Rabs (err A p x) <= 9 / 10 ^ 14 ->
  lower_ok p m h N 37800000000000000 1 = true -> 0 < IZR h -> 0 < IZR N ->
  (IZR m - IZR h) / IZR N <= 1 / x <= (IZR m + IZR h) / IZR N ->
  0 < A x /\ Rabs (exp x / sqrt x * P p x - A x) <= 1 / (4 * 10 ^ 12) * A x.
Proof.
  intros A p x m h N Hx He Hok Hh HN Hin.
  pose proof (lower_bound p m h N 37800000000000000 1 (1 / x) Hok Hh HN ltac:(lra) Hin) as L.
  assert (HP : 378 / 1000 <= P p x).
  { unfold P. rewrite S17_eq. lra. }
  unfold err, PBesselODE.scaled in He.
  pose proof (sqrt_lt_R0 x Hx) as Hs. pose proof (exp_pos x) as Hex.
  assert (Ew : weight x = / (exp x / sqrt x)). { unfold weight. rewrite exp_Ropp. field. lra. }
  set (g := exp x / sqrt x) in *.
  assert (Hg : 0 < g) by (unfold g; apply Rmult_lt_0_compat; [exact Hex | apply Rinv_0_lt_compat; exact Hs]).
  rewrite Ew in He. set (q := P p x) in *. set (a := A x) in *. clearbody q a g.
  set (v := / g * a) in *.
  assert (Ea : a = g * v) by (unfold v; field; lra). clearbody v. rewrite Ea.
  apply Rabs_le_between in He.
  assert (Hv : 37 / 100 <= v) by lra.
  split; [apply Rmult_lt_0_compat; lra|].
  replace (g * q - g * v) with (g * (q - v)) by ring. rewrite Rabs_mult, (Rabs_pos_eq g) by lra.
  replace (1 / (4 * 10 ^ 12) * (g * v)) with (g * (1 / (4 * 10 ^ 12) * v)) by ring.
  apply Rmult_le_compat_l; [lra|]. apply Rabs_le. split; lra.
Qed.

Lemma P_code : forall cs z x, 0 < x -> PBessel.scaled S17 cs z = true ->
  math.sum_inverse_powers (map Q2R cs) x = P z x.
Proof.
  intros cs z x Hx Hz. rewrite sum_inverse_powers_pe by exact Hx. unfold P. rewrite (scaled_R _ _ _ (1 / x) Hz).
  pose proof S17_pos. field. lra.
Qed.

Lemma half_twice : forall x q s : R, 0 < s -> exp (5 / 10 * x) / s * q * exp (5 / 10 * x) = exp x / s * q.
Proof.
  intros x q s Hs. replace (exp x) with (exp (5 / 10 * x) * exp (5 / 10 * x)) by (rewrite <- exp_plus; f_equal; field). field. lra.
Qed.

Lemma i0_code : forall x, 775 / 100 <= x ->
  math.bessel_i0 x = exp x / sqrt x * P (if Rlt_dec x 500 then zmid0 else zlarge0) x.
Proof.
  intros x Hx. unfold math.bessel_i0. change (x <? sdec 775 2)%S with (Rltb x (775 / 100)). change (x <? sdec 500 0)%S with (Rltb x 500).
  unfold Rltb. destruct (Rlt_dec x (775 / 100)) as [n | _]; [lra |]. destruct (Rlt_dec x 500) as [H | H]; cbv zeta.
  - rewrite mid0_R, (P_code mid0 zmid0 x) by (lra || (vm_compute; reflexivity)). reflexivity.
  - rewrite large0_R, (P_code large0 zlarge0 x) by (lra || (vm_compute; reflexivity)).
    change (exp (5 / 10 * x) / sqrt x * P zlarge0 x * exp (5 / 10 * x) = exp x / sqrt x * P zlarge0 x).
    apply half_twice, sqrt_lt_R0; lra.
Qed.
Lemma i1_code : forall x, 775 / 100 <= x ->
  math.bessel_i1 x = exp x / sqrt x * P (if Rlt_dec x 500 then zmid1 else zlarge1) x.
Proof.
  intros x Hx. unfold math.bessel_i1. change (x <? sdec 775 2)%S with (Rltb x (775 / 100)). change (x <? sdec 500 0)%S with (Rltb x 500).
  unfold Rltb. destruct (Rlt_dec x (775 / 100)) as [n | _]; [lra |]. destruct (Rlt_dec x 500) as [H | H]; cbv zeta.
  - rewrite mid1_R, (P_code mid1 zmid1 x) by (lra || (vm_compute; reflexivity)). reflexivity.
  - rewrite large1_R, (P_code large1 zlarge1 x) by (lra || (vm_compute; reflexivity)).
    change (exp (5 / 10 * x) / sqrt x * P zlarge1 x * exp (5 / 10 * x) = exp x / sqrt x * P zlarge1 x).
    apply half_twice, sqrt_lt_R0; lra.
Qed.

Lemma i0_large_accurate : forall x v, 775 / 100 <= x -> is_I0 x v ->
  0 < v /\ Rabs (math.bessel_i 0 x - v) <= 1 / (4 * 10 ^ 12) * v.
Proof.
  intros x v Hx Hv. apply I0_spec in Hv. subst v. change (math.bessel_i 0 x) with (math.bessel_i0 x). rewrite i0_code by exact Hx.
  destruct (Rlt_dec x 500) as [H | H].
  - destruct (mid0_err x ltac:(lra)) as [B _].
    apply (relative I0 zmid0 x 2031 1969 31000); [lra | lra | vm_compute; reflexivity | lra | lra | apply mid_points; lra].
  - apply (relative I0 zlarge0 x 1 1 1000); [lra | apply large0_err; lra | vm_compute; reflexivity | lra | lra | apply large_points; lra].
Qed.
Lemma i1_large_accurate : forall x v, 775 / 100 <= x -> is_I1 x v ->
  0 < v /\ Rabs (math.bessel_i 1 x - v) <= 1 / (4 * 10 ^ 12) * v.
Proof.
  intros x v Hx Hv. apply I1_spec in Hv. subst v. change (math.bessel_i 1 x) with (math.bessel_i1 x). rewrite i1_code by exact Hx.
  destruct (Rlt_dec x 500) as [H | H].
  - destruct (mid1_err x ltac:(lra)) as [B _].
    apply (relative I1 zmid1 x 2031 1969 31000); [lra | lra | vm_compute; reflexivity | lra | lra | apply mid_points; lra].
  - apply (relative I1 zlarge1 x 1 1 1000); [lra | apply large1_err; lra | vm_compute; reflexivity | lra | lra | apply large_points; lra].
Qed.
