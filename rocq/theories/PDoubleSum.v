(** The Treloar sums in double precision: their terms, and very small extensions. *)
From Coq Require Import Reals ZArith Lra Lia List Floats.
From Flocq Require Import Core BinarySingleNaN PrimFloat.
From Verif Require Import Scalar F64 MTreloar MFjc SpecDouble SpecDoubleIso PDouble PDoubleFjc PDoubleQuad PDoubleRel PDoubleIso PTreloar.
From Coq Require Import Floats.
Import ListNotations.
Open Scope R_scope.

(** The term [s] as it is computed. *)
Definition fterm (n : nat) (m : float) (e : Z) (s : nat) : float :=
  ((if Nat.even s then 1 else -1) * float_of_Z (binom n s) * float_powi (m - float_of_Z (Z.of_nat s) / float_of_Z (Z.of_nat n)) e)%float.

Definition prefactor (pi g : float) (n : nat) : float :=
  (0.125 / pi / g * float_of_Z (Z.of_nat n ^ Z.of_nat n) / float_of_Z (zfact (n - 2)))%float.

Section Lib.
Variable L : libm.
Hypothesis HL : exact_integers L.
Local Notation F := (F64 L).

Lemma fsum_ok : forall prof n m (k : nat) e, (n <= 34)%nat -> (1 <= k <= S n)%nat ->
  @fjc_thermodynamics.treloar_sum float F prof (Z.of_nat n) (float_of_Z (Z.of_nat n)) m (Z.of_nat k) e
  = Some (@ssum float F (map (fterm n m e) (seq 0 k))).
Proof.
  intros prof n m k e Hn Hk. unfold fjc_thermodynamics.treloar_sum.
  assert (34 < U128_MAX)%Z by (vm_compute; reflexivity).
  rewrite wrap_in by lia. cbn [bind].
  unfold fjc_thermodynamics.collect_u128.
  assert (34 < fjc_thermodynamics.VEC_U128_MAX)%Z by (vm_compute; reflexivity).
  replace (Z.of_nat k - 1 <? fjc_thermodynamics.VEC_U128_MAX)%Z with true by (symmetry; apply Z.ltb_lt; lia).
  cbn [bind]. replace (Z.of_nat k - 1 + 1)%Z with (Z.of_nat k) by lia. rewrite zrange_of_nat.
  rewrite (mapM_some _ _ _ (fun z => fterm n m e (Z.to_nat z))).
  - cbn [bind]. rewrite map_map. f_equal. f_equal. apply map_ext. intros s. rewrite Nat2Z.id. reflexivity.
  - intros z Hz. apply in_map_iff in Hz. destruct Hz as (s & <- & Hs). apply in_seq in Hs.
    unfold fjc_thermodynamics.treloar_term. rewrite binomial_ok by lia. cbn [bind]. f_equal. rewrite Nat2Z.id. unfold fterm.
    change (@sneg float F (@sdec float F 1 0)) with (- float_dec 1 0)%float. replace (- float_dec 1 0)%float with (-1)%float by (vm_compute; reflexivity).
    change (@spowf float F) with (l_powf L). change (@sofZ float F) with float_of_Z.
    destruct HL as (_ & _ & HP). rewrite (HP (Z.of_nat s)) by lia. replace (Z.even (Z.of_nat s)) with (Nat.even s); [reflexivity|].
    clear. induction s as [|s IH]; [reflexivity|]. rewrite Nat2Z.inj_succ, Nat.even_succ, Z.even_succ, <- Nat.negb_even, <- Z.negb_even, IH. reflexivity.
Qed.

(** The number of terms. *)
Lemma terms_float : forall x, finite x -> 0 < value x <= 255 -> exists k : nat,
  l_cast L U128_MAX (l_ceil L x) = Z.of_nat k /\ (1 <= k <= 255)%nat /\ INR k - 1 < value x <= INR k.
Proof.
  intros x Fx Hx. destruct HL as (HC & HT & _). destruct (HC x Fx ltac:(lra)) as (z & Hz & ->).
  assert (1 <= z <= 255)%Z. { split; [apply Zlt_succ_le; change 1%Z with (Z.succ 0); apply -> Z.succ_lt_mono; apply lt_IZR; lra|]. apply Zlt_succ_le. unfold Z.succ. apply lt_IZR. rewrite plus_IZR. lra. }
  exists (Z.to_nat z). rewrite HT, Z2Nat.id by lia. rewrite INR_IZR_INZ, Z2Nat.id by lia. repeat split; try lia; lra.
Qed.

(** The functions, given the middle and the number of terms. *)
Lemma fdist_ok : forall prof n g (m : float) k, (2 <= n <= 26)%nat -> (- g * float_dec 5 1 + float_dec 5 1)%float = m ->
  l_cast L U128_MAX (l_ceil L (float_of_Z (Z.of_nat n) * m)%float) = Z.of_nat k -> (1 <= k <= S n)%nat ->
  @fjc_isometric.nondimensional_equilibrium_distribution float F prof (Z.of_nat n) g
  = Some (prefactor (l_pi L) g n * @ssum float F (map (fterm n m (Z.of_nat (n - 2))) (seq 0 k)))%float.
Proof.
  intros prof n g m k Hn Hm Hc Hk. unfold fjc_isometric.nondimensional_equilibrium_distribution, fjc_thermodynamics.treloar_sum_0_with_prefactor.
  rewrite two_in by lia. cbn [bind].
  change (@sadd float F (@smul float F (@sneg float F g) (@sdec float F 5 1)) (@sdec float F 5 1)) with (- g * float_dec 5 1 + float_dec 5 1)%float.
  change (@scast float F) with (l_cast L). change (@sceil float F) with (l_ceil L). change (@sofZ float F) with float_of_Z. change (@smul float F) with PrimFloat.mul.
  rewrite Hm, Hc. rewrite pow_ok by lia. cbn [bind].
  rewrite wrap_in. 2:{ assert (26 < U128_MAX)%Z by (vm_compute; reflexivity). lia. } cbn [bind].
  replace (Z.of_nat n - 2)%Z with (Z.of_nat (n - 2)) by lia.
  rewrite product_ok by (apply zfact_small; lia). cbn [bind].
  rewrite fsum_ok by lia. cbn [bind].
  change (@sdec float F 125 3) with (float_dec 125 3). replace (float_dec 125 3) with 0.125%float by (vm_compute; reflexivity). reflexivity.
Qed.

Lemma fforce_ok : forall prof n g (m : float) k, (2 <= n <= 34)%nat -> (- g * float_dec 5 1 + float_dec 5 1)%float = m ->
  l_cast L U128_MAX (l_ceil L (float_of_Z (Z.of_nat n) * m)%float) = Z.of_nat k -> (1 <= k <= S n)%nat ->
  @fjc_isometric.nondimensional_force float F prof (Z.of_nat n) g
  = Some ((1 / g + (0.5 * float_of_Z (Z.of_nat n) - 1) * @ssum float F (map (fterm n m (Z.of_nat (n - 2) - 1)) (seq 0 k))
     / @ssum float F (map (fterm n m (Z.of_nat (n - 2))) (seq 0 k))) / float_of_Z (Z.of_nat n))%float.
Proof.
  intros prof n g m k Hn Hm Hc Hk. unfold fjc_isometric.nondimensional_force, fjc_thermodynamics.treloar_sums.
  rewrite two_in by lia. cbn [bind].
  change (@sadd float F (@smul float F (@sneg float F g) (@sdec float F 5 1)) (@sdec float F 5 1)) with (- g * float_dec 5 1 + float_dec 5 1)%float.
  change (@scast float F) with (l_cast L). change (@sceil float F) with (l_ceil L). change (@sofZ float F) with float_of_Z. change (@smul float F) with PrimFloat.mul.
  rewrite Hm, Hc. cbn [mapM bind]. rewrite !fsum_ok by lia. cbn [bind nth_error]. rewrite Z.sub_0_r.
  change (@sdec float F 1 0) with (float_dec 1 0). change (@sdec float F 5 1) with (float_dec 5 1).
  replace (float_dec 1 0) with 1%float by (vm_compute; reflexivity). replace (float_dec 5 1) with 0.5%float by (vm_compute; reflexivity). reflexivity.
Qed.

(** One half of the links. *)
Lemma half_terms : forall n, (2 <= n <= 26)%nat ->
  l_cast L U128_MAX (l_ceil L (float_of_Z (Z.of_nat n) * 0.5)%float) = Z.of_nat (Nat.div2 (S n)).
Proof.
  intros n Hn. assert (X : exists x, (float_of_Z (Z.of_nat n) * 0.5)%float = x /\ finite x /\ value x = INR n / 2).
  { destruct (float_of_Z_exact (Z.of_nat n) ltac:(lia)) as (F1 & V1). destruct PDoubleQuad.half as (Fh & Vh).
    assert (HE : float_dec 5 1 = 0.5%float) by (vm_compute; reflexivity). rewrite HE in *. rewrite <- INR_IZR_INZ in V1.
    assert (NB : 0 < INR n <= 26). { split; [apply lt_0_INR; lia|]. replace 26 with (INR 26) by (cbn; lra). apply le_INR; lia. }
    assert (BB : 16 <= bpow radix2 1023) by (change 16 with (bpow radix2 4); apply bpow_le; lia).
    destruct (mul_raw _ _ F1 Fh) as (F2 & V2); [rewrite V1, Vh, Rabs_pos_eq; lra|]. eexists; split; [reflexivity|]. split; [exact F2|].
    rewrite V2, V1, Vh. assert (P : Prec_gt_0 FloatOps.prec) by reflexivity. rewrite round_generic; [reflexivity | apply valid_rnd_N|].
    change (generic_format radix2 (FLT_exp (-1074) FloatOps.prec) (INR n * / 2)).
    apply generic_format_FLT. exists (Float radix2 (Z.of_nat n) (-1)).
    - unfold F2R. cbn [Fnum Fexp]. rewrite <- INR_IZR_INZ. reflexivity.
    - cbn [Fnum]. change (Zpower radix2 FloatOps.prec) with 9007199254740992%Z. lia.
    - cbn [Fexp]. lia. }
  destruct X as (x & -> & Fx & Vx). assert (NB : 0 < INR n <= 26). { split; [apply lt_0_INR; lia|]. replace 26 with (INR 26) by (cbn; lra). apply le_INR; lia. }
  destruct (terms_float x Fx ltac:(lra)) as (k & -> & _ & Hk). f_equal. rewrite Vx in Hk.
  assert (A : (n <= 2 * k)%nat). { apply INR_le. rewrite mult_INR. cbn [INR]. lra. }
  assert (B : (2 * k < n + 2)%nat). { apply INR_lt. rewrite mult_INR, plus_INR. cbn [INR]. lra. }
  pose proof (Nat.div2_odd (S n)) as D. destruct (Nat.odd (S n)); cbn [Nat.b2n] in D; lia.
Qed.

Definition small_sum (n : nat) (e : Z) : float := @ssum float F (map (fterm n 0.5%float e) (seq 0 (Nat.div2 (S n)))).

Lemma add_neg_inf : forall x, finite x -> (x + neg_infinity)%float = neg_infinity.
Proof.
  intros x Fx. apply Prim2SF_inj. rewrite add_spec. unfold finite in Fx. change (Prim2SF neg_infinity) with (S754_infinity true).
  destruct (Prim2SF x) as [[]|[]| |[]]; try contradiction; reflexivity.
Qed.

(** The sum is zero for 4, 8 and 16 links, and the force infinite. *)
Lemma force_infinite : forall prof (N : Z) g, In N [4; 8; 16]%Z -> finite g -> powerRZ 2 (-1000) <= value g <= / 2 ^ 57 ->
  @fjc_isometric.nondimensional_force float F prof N g = Some neg_infinity.
Proof.
  intros prof N g HN Fg Hg. rewrite pw in Hg. assert (G0 : 0 < value g) by (pose proof (bpow_gt_0 radix2 (-1000)); lra).
  assert (F1 : finite (1 / g)%float).
  { destruct (div_raw 1%float g) as (A & _); [vm_compute; exact I | lra | | exact A].
    replace (value 1%float) with 1 by (symmetry; exact value_one). rewrite Rabs_pos_eq by (apply Rlt_le, Rdiv_lt_0_compat; lra). unfold Rdiv. rewrite Rmult_1_l.
    apply Rle_trans with (/ bpow radix2 (-1000)); [apply Rinv_le_contravar; [apply bpow_gt_0 | lra]|]. rewrite bpow_inv. apply bpow_le. lia. }
  assert (M := middle g Fg (conj G0 (proj2 Hg))).
  assert (X : forall n, In n [4; 8; 16]%nat -> @fjc_isometric.nondimensional_force float F prof (Z.of_nat n) g = Some neg_infinity).
  { intros n Hn. assert (NB : (2 <= n <= 26)%nat) by (cbn in Hn; lia).
    rewrite (fforce_ok prof n g 0.5%float _ ltac:(lia) M (half_terms n NB)).
    2:{ cbn in Hn. destruct Hn as [<-|[<-|[<-|[]]]]; cbn; lia. }
    f_equal. set (q := (1 / g)%float) in *.
    destruct Hn as [<-|[<-|[<-|[]]]];
    (match goal with |- ((q + ?X) / ?Y)%float = _ => replace X with neg_infinity by (vm_compute; reflexivity); rewrite (add_neg_inf q F1) end; vm_compute; reflexivity). }
  destruct HN as [<-|[<-|[<-|[]]]]; [apply (X 4%nat) | apply (X 8%nat) | apply (X 16%nat)]; cbn; tauto.
Qed.

(** ** The factor in front of the sum *)
Definition front (n : nat) (g : R) : R := 125 / 1000 / PI / g * IZR (Z.of_nat n ^ Z.of_nat n) / IZR (zfact (n - 2)).

Lemma zpow_bound : forall n, (2 <= n <= 26)%nat -> (1 <= Z.of_nat n ^ Z.of_nat n <= 2 ^ 123)%Z.
Proof.
  intros n H. split; [pose proof (Z.pow_pos_nonneg (Z.of_nat n) (Z.of_nat n)); lia|].
  apply Z.le_trans with (26 ^ Z.of_nat n)%Z; [apply Z.pow_le_mono_l; lia|].
  apply Z.le_trans with (26 ^ 26)%Z; [apply Z.pow_le_mono_r; lia|]. vm_compute. discriminate.
Qed.
Lemma zfact_bound : forall n, (n <= 26)%nat -> (1 <= zfact (n - 2) <= 2 ^ 80)%Z.
Proof.
  intros n H. split; [pose proof (zfact_pos (n - 2)); lia|]. apply Z.le_trans with (zfact 24); [apply zfact_mono; lia|]. vm_compute. discriminate.
Qed.
Lemma bp : forall z, (0 <= z)%Z -> IZR (2 ^ z) = bpow radix2 z.
Proof. intros z H. rewrite <- (IZR_Zpower radix2 z H). reflexivity. Qed.

Lemma prefactor_error : nearest_pi L -> forall n g, (2 <= n <= 26)%nat -> finite g -> powerRZ 2 (-800) <= value g <= 1 ->
  finite (prefactor (l_pi L) g n) /\ rounded 11 (front n (value g)) (value (prefactor (l_pi L) g n)) /\
  bpow radix2 (-85) <= front n (value g) <= bpow radix2 924.
Proof.
  intros (FP & HP) n g Hn Fg Hg. rewrite pw in Hg. unfold prefactor, front.
  assert (P3 : 3 < PI <= 4) by (pose proof PI2_3_2; pose proof PI_4; unfold PI2 in *; lra).
  assert (RP : rounded 1 PI (value (l_pi L))).
  { exists ((value (l_pi L) - PI) / PI). split; [|field; lra]. rewrite pow_1. unfold Rdiv. rewrite Rabs_mult, Rabs_inv, (Rabs_pos_eq PI) by lra.
    apply Rmult_le_reg_r with PI; [lra|]. rewrite Rmult_assoc, Rinv_l by lra. lra. }
  assert (V8 : value 0.125%float = 125 / 1000).
  { unfold value. replace (Prim2SF 0.125%float) with (S754_finite false 4503599627370496 (-55)) by (vm_compute; reflexivity).
    change (1 * (4503599627370496 * / 2 ^ 55) = 125 / 1000). lra. }
  assert (F8 : finite 0.125%float) by (vm_compute; exact I).
  assert (G0 : 0 < value g) by (pose proof (bpow_gt_0 radix2 (-800)); lra).
  pose proof (zpow_bound n Hn) as ZN. pose proof (zfact_bound n (proj2 Hn)) as ZF.
  destruct (float_of_Z_rounded (Z.of_nat n ^ Z.of_nat n)) as (FN & RN).
  { split; [lia|]. apply Z.le_lt_trans with (1 := proj2 ZN). vm_compute. reflexivity. }
  destruct (float_of_Z_rounded (zfact (n - 2))) as (FF & RF).
  { split; [lia|]. apply Z.le_lt_trans with (1 := proj2 ZF). vm_compute. reflexivity. }
  assert (N1 : 1 <= IZR (Z.of_nat n ^ Z.of_nat n) <= bpow radix2 123) by (rewrite <- bp by lia; split; apply IZR_le; lia).
  assert (N2 : 1 <= IZR (zfact (n - 2)) <= bpow radix2 80) by (rewrite <- bp by lia; split; apply IZR_le; lia).
  set (nn := IZR (Z.of_nat n ^ Z.of_nat n)) in *. set (nf := IZR (zfact (n - 2))) in *.
  assert (A0 : / 32 <= 125 / 1000 / PI <= / 16).
  { split; apply Rmult_le_reg_r with PI; try lra; unfold Rdiv; rewrite (Rmult_assoc _ (/ PI)), Rinv_l by lra; lra. }
  assert (A1 : / 32 <= 125 / 1000 / PI / value g <= bpow radix2 800).
  { split.
    - apply Rmult_le_reg_r with (value g); [lra|]. unfold Rdiv at 1. rewrite (Rmult_assoc _ (/ value g)), Rinv_l by lra. nra.
    - unfold Rdiv at 1. rewrite <- (Rmult_1_l (bpow radix2 800)). apply Rmult_le_compat; try lra; [apply Rlt_le, Rinv_0_lt_compat; lra|].
      change 800%Z with (Z.opp (-800))%Z. rewrite <- bpow_inv. apply Rinv_le_contravar; [apply bpow_gt_0 | lra]. }
  assert (A2 : / 32 <= 125 / 1000 / PI / value g * nn <= bpow radix2 923).
  { split; [nra|]. change 923%Z with (800 + 123)%Z. rewrite bpow_plus. apply Rmult_le_compat; lra. }
  assert (A3 : bpow radix2 (-85) <= 125 / 1000 / PI / value g * nn / nf <= bpow radix2 924).
  { split.
    - change (-85)%Z with (-5 + Z.opp 80)%Z. rewrite bpow_plus. unfold Rdiv at 1. apply Rmult_le_compat; try (apply Rlt_le, bpow_gt_0); [change (bpow radix2 (-5)) with (/ 32); lra|].
      rewrite <- bpow_inv. apply Rinv_le_contravar; lra.
    - apply Rle_trans with (bpow radix2 923); [|apply bpow_le; lia]. apply Rle_trans with (2 := proj2 A2). unfold Rdiv at 1. rewrite <- (Rmult_1_r (125 / 1000 / PI / value g * nn)) at 2.
      apply Rmult_le_compat_l; [lra|]. rewrite <- Rinv_1. apply Rinv_le_contravar; lra. }
  assert (LO : bpow radix2 (-1000) <= / 32) by (change (/ 32) with (bpow radix2 (-5)); apply bpow_le; lia).
  assert (HI : / 16 <= bpow radix2 1000) by (change (/ 16) with (bpow radix2 (-4)); apply bpow_le; lia).
  assert (H8 : bpow radix2 800 <= bpow radix2 1000) by (apply bpow_le; lia).
  assert (H9 : bpow radix2 923 <= bpow radix2 1000) by (apply bpow_le; lia).
  assert (H10 : bpow radix2 924 <= bpow radix2 1000) by (apply bpow_le; lia).
  assert (L8 : bpow radix2 (-1000) <= bpow radix2 (-85)) by (apply bpow_le; lia).
  destruct (div_rounded 0 (125 / 1000) PI 0.125%float (l_pi L) ltac:(lia) ltac:(lra) F8) as (Fa & Ra); [rewrite V8; apply rounded_0 | exact RP | rewrite Rabs_pos_eq; lra|].
  destruct (div_rounded (0 + 3) (125 / 1000 / PI) (value g) _ g ltac:(lia) ltac:(lra) Fa Ra) as (Fb & Rb); [apply rounded_weak with 0%nat; [lia | apply rounded_0] | rewrite Rabs_pos_eq; lra|].
  destruct (mul_rounded (0 + 3 + 3) 1 _ _ _ _ ltac:(cbn; lia) Fb FN Rb RN) as (Fc & Rc); [fold nn; rewrite Rabs_pos_eq; lra|]. fold nn in Rc.
  destruct (div_rounded (0 + 3 + 3 + 1 + 1) _ nf _ _ ltac:(cbn; lia) ltac:(lra) Fc Rc RF) as (Fd & Rd); [rewrite Rabs_pos_eq by (pose proof (bpow_gt_0 radix2 (-85)); lra); lra|].
  split; [exact Fd|]. split; [|exact A3]. apply rounded_weak with (2 := Rd). cbn. lia.
Qed.

(** ** Very small extensions: the density vanishes or is negative *)
Lemma small_density : nearest_pi L -> forall prof n g, (2 <= n <= 26)%nat -> finite g -> powerRZ 2 (-800) <= value g <= / 2 ^ 57 ->
  @fjc_isometric.nondimensional_equilibrium_distribution float F prof (Z.of_nat n) g
  = Some (prefactor (l_pi L) g n * small_sum n (Z.of_nat (n - 2)))%float.
Proof.
  intros HP prof n g Hn Fg Hg. rewrite pw in Hg. assert (G0 : 0 < value g) by (pose proof (bpow_gt_0 radix2 (-800)); lra).
  apply (fdist_ok prof n g 0.5%float _ Hn (middle g Fg (conj G0 (proj2 Hg))) (half_terms n Hn)).
  pose proof (Nat.div2_odd (S n)) as D. destruct (Nat.odd (S n)); cbn [Nat.b2n] in D; lia.
Qed.

(** The same with the binomial coefficients from factorials, which are quicker to
    evaluate. *)
Definition qterm (n : nat) (m : float) (e : Z) (s : nat) : float :=
  ((if Nat.even s then 1 else -1) * float_of_Z (zfact n / (zfact s * zfact (n - s))) * float_powi (m - float_of_Z (Z.of_nat s) / float_of_Z (Z.of_nat n)) e)%float.
Lemma small_quick : forall n e, small_sum n e = @ssum float F (map (qterm n 0.5%float e) (seq 0 (Nat.div2 (S n)))).
Proof.
  intros n e. unfold small_sum. f_equal. apply map_ext_in. intros s Hs. apply in_seq in Hs. pose proof (Nat.div2_odd (S n)) as D.
  assert (SN : (s <= n)%nat) by (destruct (Nat.odd (S n)); cbn [Nat.b2n] in D; lia).
  unfold fterm, qterm. rewrite <- (binom_zfact n s SN), Z.div_mul; [reflexivity|]. pose proof (zfact_pos s). pose proof (zfact_pos (n - s)). nia.
Qed.

Lemma small_zero : nearest_pi L -> forall prof (N : Z) g, In N [4; 8; 16]%Z -> finite g -> powerRZ 2 (-800) <= value g <= / 2 ^ 57 ->
  exists v, @fjc_isometric.nondimensional_equilibrium_distribution float F prof N g = Some v /\ finite v /\ value v = 0.
Proof.
  intros HP prof N g HN Fg Hg. destruct (Z_of_nat_complete N) as (n & ->); [cbn in HN; lia|]. assert (Hn : (2 <= n <= 26)%nat) by (cbn in HN; lia).
  rewrite (small_density HP prof n g Hn Fg Hg). eexists; split; [reflexivity|].
  assert (G1 : value g <= 1) by lra. destruct (prefactor_error HP n g Hn Fg (conj (proj1 Hg) G1)) as (Fp & _). set (q := prefactor _ _ _) in *.
  assert (Z : small_sum n (Z.of_nat (n - 2)) = 0%float).
  { cbn in HN. assert (E : n = 4%nat \/ n = 8%nat \/ n = 16%nat) by lia. rewrite small_quick. destruct E as [->|[->| ->]]; vm_compute; reflexivity. }
  rewrite Z. assert (V0 : value 0%float = 0) by (vm_compute; reflexivity).
  destruct (mul_raw q 0%float Fp ltac:(vm_compute; exact I)) as (Fv & V); [rewrite V0, Rmult_0_r, Rabs_R0; apply bpow_ge_0|]. split; [exact Fv|].
  rewrite V, V0, Rmult_0_r. apply round_0, valid_rnd_N.
Qed.

Definition negative_at_rest : list Z := [5; 6; 10; 12; 13; 14; 21; 22; 25; 26]%Z.

Lemma small_negative : nearest_pi L -> forall prof (N : Z) g, In N negative_at_rest -> finite g -> powerRZ 2 (-800) <= value g <= / 2 ^ 57 ->
  exists v, @fjc_isometric.nondimensional_equilibrium_distribution float F prof N g = Some v /\ finite v /\ value v < 0.
Proof.
  intros HP prof N g HN Fg Hg. destruct (Z_of_nat_complete N) as (n & ->); [cbn in HN; lia|]. assert (Hn : (2 <= n <= 26)%nat) by (cbn in HN; lia).
  rewrite (small_density HP prof n g Hn Fg Hg). eexists; split; [reflexivity|].
  assert (G1 : value g <= 1) by lra. destruct (prefactor_error HP n g Hn Fg (conj (proj1 Hg) G1)) as (Fp & Rp & Bp). set (q := prefactor _ _ _) in *.
  assert (Z : exists m e, Prim2SF (small_sum n (Z.of_nat (n - 2))) = S754_finite true m e /\ (Zpos m <= 2 ^ 53)%Z /\ (-200 <= e <= 0)%Z).
  { cbn in HN. assert (E : In n [5; 6; 10; 12; 13; 14; 21; 22; 25; 26]%nat) by (cbn; lia). rewrite small_quick. clear - E.
    repeat (destruct E as [<-|E]; [match goal with |- context [Prim2SF ?x] => let v := eval vm_compute in (Prim2SF x) in replace (Prim2SF x) with v by (vm_compute; reflexivity) end; do 2 eexists; split; [reflexivity | lia]|]). destruct E. }
  destruct Z as (m & e & ES & Hm & He). set (s := small_sum _ _) in *. assert (Fs : finite s) by (unfold finite; rewrite ES; exact I).
  assert (Vs : value s = - (IZR (Zpos m) * bpow radix2 e)) by (unfold value; rewrite ES, pw; ring).
  assert (M1 : 1 <= IZR (Zpos m) <= bpow radix2 53) by (rewrite <- bp by lia; split; apply IZR_le; lia).
  assert (B1 : bpow radix2 (-200) <= bpow radix2 e <= 1) by (split; [apply bpow_le; lia | change 1 with (bpow radix2 0); apply bpow_le; lia]).
  pose proof (bpow_gt_0 radix2 (-200)) as B0.
  assert (S0 : bpow radix2 (-200) <= IZR (Zpos m) * bpow radix2 e <= bpow radix2 53).
  { split; [rewrite <- (Rmult_1_l (bpow radix2 (-200))) | rewrite <- (Rmult_1_r (bpow radix2 53))]; apply Rmult_le_compat; lra. }
  assert (SA : bpow radix2 (-200) <= Rabs (value s) <= bpow radix2 53) by (rewrite Vs, Rabs_Ropp, Rabs_pos_eq; lra).
  pose proof (bpow_gt_0 radix2 (-85)) as B85. pose proof (bpow_gt_0 radix2 53) as B53.
  destruct (mul_rounded 11 0 _ _ q s ltac:(lia) Fp Fs Rp (rounded_0 _)) as (Fv & Rv).
  { rewrite Rabs_mult, (Rabs_pos_eq (front n (value g))) by lra. split.
    - apply Rle_trans with (bpow radix2 (-85) * bpow radix2 (-200)); [rewrite <- bpow_plus; apply bpow_le; lia | apply Rmult_le_compat; lra].
    - apply Rle_trans with (bpow radix2 924 * bpow radix2 53); [apply Rmult_le_compat; lra | rewrite <- bpow_plus; apply bpow_le; lia]. }
  split; [exact Fv|]. apply (rounded_sign (11 + 0 + 1) (front n (value g) * value s) _ ltac:(lia) Rv). rewrite Vs. nra.
Qed.
End Lib.
