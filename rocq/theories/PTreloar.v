(** The Treloar sums of the isometric freely jointed chain. *)
From Coq Require Import Reals ZArith List Lra Lia Factorial.
From Coquelicot Require Import Coquelicot.
From Verif Require Import Scalar MConst MTreloar MFjc SpecThermo SpecWalk PBase PQuad PIrwinHall PWalk.
Import ListNotations.
Open Scope R_scope.

(** ** Factorials and binomial coefficients in u128 *)
Fixpoint zfact (n : nat) : Z := match n with O => 1%Z | S m => (zfact m * Z.of_nat n)%Z end.
Fixpoint binom (n s : nat) : Z :=
  match n, s with
  | _, O => 1%Z
  | O, S _ => 0%Z
  | S m, S t => (binom m t + binom m s)%Z
  end.

Lemma zfact_pos : forall n, (0 < zfact n)%Z.
Proof. induction n as [|n IH]; cbn [zfact]; lia. Qed.

Lemma zfact_mono1 : forall n, (zfact n <= zfact (S n))%Z.
Proof. intro n. cbn [zfact]. pose proof (zfact_pos n). nia. Qed.

Lemma zfact_mono : forall n m, (n <= m)%nat -> (zfact n <= zfact m)%Z.
Proof. intros n m H. induction H as [|m H IH]; [lia | pose proof (zfact_mono1 m); lia]. Qed.

Lemma zfact_fact : forall n, IZR (zfact n) = INR (fact n).
Proof.
  induction n as [|n IH]; [reflexivity|].
  cbn [zfact]. rewrite mult_IZR, IH. change (fact (S n)) with (S n * fact n)%nat.
  rewrite mult_INR, <- INR_IZR_INZ. ring.
Qed.

Lemma binom_0 : forall n, binom n 0 = 1%Z.
Proof. destruct n; reflexivity. Qed.

Lemma binom_gt : forall n s, (n < s)%nat -> binom n s = 0%Z.
Proof.
  induction n as [|n IH]; intros s H; destruct s as [|s]; try lia; cbn [binom]; [reflexivity|].
  rewrite !IH by lia. lia.
Qed.

Lemma binom_diag : forall n, binom n n = 1%Z.
Proof. induction n as [|n IH]; cbn [binom]; [reflexivity|]. rewrite IH, binom_gt by lia. lia. Qed.

Lemma binom_zfact : forall n s, (s <= n)%nat -> (binom n s * (zfact s * zfact (n - s)) = zfact n)%Z.
Proof.
  induction n as [|n IH]; intros s H.
  - replace s with 0%nat by lia. reflexivity.
  - destruct s as [|s].
    + rewrite binom_0, Nat.sub_0_r. cbn [zfact]. lia.
    + cbn [binom]. destruct (Nat.eq_dec s n) as [->|N].
      * rewrite binom_diag, (binom_gt n (S n)), Nat.sub_diag by lia. cbn [zfact]. lia.
      * replace (S n - S s)%nat with (n - s)%nat by lia.
        pose proof (IH s ltac:(lia)) as A. pose proof (IH (S s) ltac:(lia)) as B.
        replace (n - s)%nat with (S (n - S s)) in * by lia. cbn [zfact] in *.
        rewrite !Nat2Z.inj_succ in *. rewrite Nat2Z.inj_sub, Nat2Z.inj_succ in * by lia.
        nia.
Qed.

Lemma zrange_of_nat : forall n, zrange 0 (Z.of_nat n) = map Z.of_nat (seq 0 n).
Proof. intro n. unfold zrange. rewrite Z.sub_0_r, Nat2Z.id. reflexivity. Qed.

Lemma wrap_in : forall prof hi r, (0 <= r <= hi)%Z -> wrap prof hi r = Some r.
Proof.
  intros prof hi r H. unfold wrap.
  replace (0 <=? r)%Z with true by (symmetry; apply Z.leb_le; lia).
  replace (r <=? hi)%Z with true by (symmetry; apply Z.leb_le; lia). reflexivity.
Qed.

Lemma wrap_out : forall hi r, (r < 0 \/ hi < r)%Z -> wrap Debug hi r = None.
Proof.
  intros hi r H. unfold wrap. destruct ((0 <=? r)%Z && (r <=? hi)%Z)%bool eqn:E; [|reflexivity].
  apply andb_prop in E. destruct E as [A B]. apply Z.leb_le in A, B. lia.
Qed.

Lemma product_unfold : forall prof n, fjc_thermodynamics.product_u128 prof (Z.of_nat (S n))
  = bind (fjc_thermodynamics.product_u128 prof (Z.of_nat n)) (fun a => wrap prof U128_MAX (a * Z.of_nat (S n))).
Proof.
  intros prof n. unfold fjc_thermodynamics.product_u128, zrange.
  replace (Z.to_nat (Z.of_nat (S n) + 1 - 1)) with (S n) by lia.
  replace (Z.to_nat (Z.of_nat n + 1 - 1)) with n by lia.
  rewrite seq_S, map_app, fold_left_app. cbn [map fold_left].
  replace (1 + Z.of_nat (0 + n))%Z with (Z.of_nat (S n)) by lia. reflexivity.
Qed.

Lemma product_ok : forall prof n, (zfact n <= U128_MAX)%Z ->
  fjc_thermodynamics.product_u128 prof (Z.of_nat n) = Some (zfact n).
Proof.
  intros prof. induction n as [|n IH]; intro H; [reflexivity|].
  rewrite product_unfold, IH.
  - cbn [bind zfact]. apply wrap_in. pose proof (zfact_pos (S n)). cbn [zfact] in *. lia.
  - pose proof (zfact_mono1 n). lia.
Qed.

Lemma product_overflow : forall n, (U128_MAX < zfact n)%Z ->
  fjc_thermodynamics.product_u128 Debug (Z.of_nat n) = None.
Proof.
  induction n as [|n IH]; intro H.
  - exfalso. revert H. vm_compute. discriminate.
  - rewrite product_unfold. destruct (Z_lt_dec U128_MAX (zfact n)) as [L|L].
    + rewrite IH by exact L. reflexivity.
    + rewrite product_ok by lia. cbn [bind]. apply wrap_out. right. exact H.
Qed.

Lemma zfact_34 : (zfact 34 <= U128_MAX)%Z.
Proof. vm_compute. discriminate. Qed.
Lemma zfact_35 : (U128_MAX < zfact 35)%Z.
Proof. vm_compute. reflexivity. Qed.

Lemma zfact_small : forall n, (n <= 34)%nat -> (zfact n <= U128_MAX)%Z.
Proof. intros n H. pose proof (zfact_mono n 34 H). pose proof zfact_34. lia. Qed.
Lemma zfact_large : forall n, (35 <= n)%nat -> (U128_MAX < zfact n)%Z.
Proof. intros n H. pose proof (zfact_mono 35 n H). pose proof zfact_35. lia. Qed.

Lemma binomial_ok : forall prof n s, (n <= 34)%nat -> (s <= n)%nat ->
  fjc_thermodynamics.binomial_u128 prof (Z.of_nat n) (Z.of_nat s) = Some (binom n s).
Proof.
  intros prof n s Hn Hs. unfold fjc_thermodynamics.binomial_u128.
  rewrite !product_ok by (apply zfact_small; lia). cbn [bind].
  unfold checked_div. pose proof (zfact_pos s). pose proof (zfact_pos (n - s)).
  replace (zfact s =? 0)%Z with false by (symmetry; apply Z.eqb_neq; lia). cbn [bind].
  rewrite wrap_in.
  - cbn [bind]. replace (Z.of_nat n - Z.of_nat s)%Z with (Z.of_nat (n - s)) by lia.
    rewrite product_ok by (apply zfact_small; lia). cbn [bind].
    replace (zfact (n - s) =? 0)%Z with false by (symmetry; apply Z.eqb_neq; lia). f_equal.
    rewrite Z.div_div by lia. rewrite <- (binom_zfact n s Hs). apply Z.div_mul. nia.
  - assert (34 <= U128_MAX)%Z by (vm_compute; discriminate). lia.
Qed.

Lemma binomial_overflow : forall n s, (35 <= n)%nat ->
  fjc_thermodynamics.binomial_u128 Debug (Z.of_nat n) s = None.
Proof. intros n s H. unfold fjc_thermodynamics.binomial_u128. rewrite product_overflow by (apply zfact_large; lia). reflexivity. Qed.

Lemma binomial_beyond : forall n s, (n < s)%Z -> fjc_thermodynamics.binomial_u128 Debug n s = None.
Proof.
  intros n s H. unfold fjc_thermodynamics.binomial_u128.
  destruct (fjc_thermodynamics.product_u128 Debug n); [|reflexivity]. cbn [bind].
  destruct (fjc_thermodynamics.product_u128 Debug s); [|reflexivity]. cbn [bind].
  destruct (checked_div _ _); [|reflexivity]. cbn [bind].
  rewrite wrap_out by lia. reflexivity.
Qed.

(** ** The sum of alternating powers *)
Lemma Rsum_seq_head : forall f k, Rsum (map f (seq 0 (S k))) = f 0%nat + Rsum (map (fun s => f (S s)) (seq 0 k)).
Proof. intros f k. rewrite <- cons_seq. cbn [map Rsum]. rewrite <- seq_shift, map_map. reflexivity. Qed.

Lemma Rsum_seq_last : forall f k, Rsum (map f (seq 0 (S k))) = Rsum (map f (seq 0 k)) + f k.
Proof. intros f k. rewrite seq_S, map_app, Rsum_app. cbn. ring. Qed.

Lemma ih_sum : forall e n x, ih e n x
  = Rsum (map (fun s => (-1) ^ s * IZR (binom n s) * pp e (x - INR s)) (seq 0 (S n))) / INR (fact e).
Proof.
  intros e. pose proof (fact_neq e) as F. induction n as [|n IH]; intro x.
  - cbn [seq map Rsum ih binom pow]. simpl INR. rewrite Rminus_0_r. field. exact F.
  - cbn [ih]. rewrite !IH.
    rewrite (Rsum_seq_head _ (S n)). rewrite binom_0. simpl INR at 2. cbn [pow]. rewrite Rminus_0_r.
    rewrite (Rsum_ext (fun s => -1 * (-1) ^ s * IZR (binom (S n) (S s)) * pp e (x - INR (S s)))
       (fun s => ((-1) ^ S s * IZR (binom n (S s)) * pp e (x - INR (S s)))
                + -1 * ((-1) ^ s * IZR (binom n s) * pp e (x - 1 - INR s)))).
    2:{ intros s _. cbn [binom]. rewrite plus_IZR, S_INR.
        replace (x - (INR s + 1)) with (x - 1 - INR s) by ring. cbn [pow]. ring. }
    rewrite Rsum_plus, Rsum_scal.
    assert (A : Rsum (map (fun s => (-1) ^ s * IZR (binom n s) * pp e (x - INR s)) (seq 0 (S n)))
      = 1 * 1 * pp e x + Rsum (map (fun s => (-1) ^ S s * IZR (binom n (S s)) * pp e (x - INR (S s))) (seq 0 (S n)))).
    { transitivity (Rsum (map (fun s => (-1) ^ s * IZR (binom n s) * pp e (x - INR s)) (seq 0 (S (S n))))).
      - rewrite (Rsum_seq_last _ (S n)). rewrite (binom_gt n (S n)) by lia. ring.
      - rewrite (Rsum_seq_head _ (S n)). rewrite binom_0. simpl INR at 1. cbn [pow]. rewrite Rminus_0_r. ring. }
    rewrite A. field. exact F.
Qed.

(** Only the terms with a positive argument count. *)
Lemma Rsum_truncate : forall (f : nat -> R) k n, (k <= n)%nat -> (forall s, (k <= s < n)%nat -> f s = 0) ->
  Rsum (map f (seq 0 n)) = Rsum (map f (seq 0 k)).
Proof.
  intros f k n H. induction H as [|n H IH]; intro Z; [reflexivity|].
  rewrite Rsum_seq_last, IH by (intros; apply Z; lia). rewrite Z by lia. ring.
Qed.

(** ** The model sums over the reals *)
Lemma mapM_some : forall A B (f : A -> option B) (g : A -> B) l, (forall a, In a l -> f a = Some (g a)) ->
  mapM f l = Some (map g l).
Proof.
  intros A B f g. induction l as [|a l IH]; intro H; [reflexivity|].
  cbn [mapM map]. rewrite (H a) by (left; reflexivity). cbn [bind].
  rewrite IH by (intros; apply H; right; assumption). reflexivity.
Qed.

Lemma mapM_none : forall A B (f : A -> option B) l a, In a l -> f a = None -> mapM f l = None.
Proof.
  intros A B f. induction l as [|b l IH]; intros a I E; [destruct I|]. destruct I as [->|H]; cbn [mapM].
  - rewrite E. reflexivity.
  - destruct (f b); [|reflexivity]. cbn [bind]. rewrite (IH a H E). reflexivity.
Qed.

Lemma Int_part_spec : forall r z, IZR z <= r < IZR z + 1 -> Int_part r = z.
Proof.
  intros r z H. destruct (base_Int_part r) as [A B].
  assert (IZR (Int_part r) < IZR z + 1) by lra. assert (IZR z < IZR (Int_part r) + 1) by lra.
  rewrite <- plus_IZR in *. apply lt_IZR in H0, H1. lia.
Qed.

Lemma Int_part_IZR : forall z, Int_part (IZR z) = z.
Proof. intro z. apply Int_part_spec. lra. Qed.

Lemma powf_sign : forall s : nat, spowf (- sdec 1 0)%S (sofZ (Z.of_nat s)) = (-1) ^ s.
Proof.
  intro s. change (Rpowf (- 1) (IZR (Z.of_nat s)) = (-1) ^ s). unfold Rpowf.
  destruct (Rlt_dec 0 (-1)) as [H|_]; [lra|].
  replace (Int_part (IZR (Z.of_nat s))) with (Z.of_nat s).
  - destruct (Req_EM_T _ _) as [_|N]; [|contradiction]. rewrite pow_powerRZ. reflexivity.
  - symmetry. apply Int_part_IZR.
Qed.

Lemma treloar_sum_ok : forall prof n m (k : nat) e, (n <= 34)%nat -> (1 <= k <= S n)%nat ->
  fjc_thermodynamics.treloar_sum prof (Z.of_nat n) (INR n) m (Z.of_nat k) e
  = Some (Rsum (map (fun s => (-1) ^ s * IZR (binom n s) * powerRZ (m - INR s / INR n) e) (seq 0 k))).
Proof.
  intros prof n m k e Hn Hk. unfold fjc_thermodynamics.treloar_sum.
  assert (34 < U128_MAX)%Z by (vm_compute; reflexivity).
  rewrite wrap_in by lia. cbn [bind].
  unfold fjc_thermodynamics.collect_u128.
  assert (34 < fjc_thermodynamics.VEC_U128_MAX)%Z by (vm_compute; reflexivity).
  replace (Z.of_nat k - 1 <? fjc_thermodynamics.VEC_U128_MAX)%Z with true by (symmetry; apply Z.ltb_lt; lia).
  cbn [bind]. replace (Z.of_nat k - 1 + 1)%Z with (Z.of_nat k) by lia. rewrite zrange_of_nat.
  rewrite (mapM_some _ _ _ (fun z => (-1) ^ Z.to_nat z * IZR (binom n (Z.to_nat z)) * powerRZ (m - INR (Z.to_nat z) / INR n) e)).
  - cbn [bind]. rewrite ssum_R, map_map. f_equal. apply Rsum_ext. intros s _. rewrite Nat2Z.id. reflexivity.
  - intros z Hz. apply in_map_iff in Hz. destruct Hz as (s & <- & Hs). apply in_seq in Hs.
    unfold fjc_thermodynamics.treloar_term. rewrite binomial_ok by lia. cbn [bind]. f_equal.
    rewrite powf_sign, Nat2Z.id. change (@sofZ R R_scalar) with IZR. rewrite <- INR_IZR_INZ. reflexivity.
Qed.

(** The number of terms: the ceiling. *)
Lemma ceil_spec : forall x, exists z : Z, Rceil x = IZR z /\ x <= IZR z < x + 1.
Proof.
  intro x. exists (- Int_part (- x))%Z. unfold Rceil. rewrite opp_IZR. split; [reflexivity|].
  destruct (base_Int_part (- x)) as [A B]. lra.
Qed.

Lemma terms_ok : forall n x, (n <= 255)%nat -> 0 < x <= INR n + 1 ->
  exists k : nat, scast U128_MAX (sceil x) = Z.of_nat k /\ (1 <= k <= S n)%nat /\ x <= INR k < x + 1.
Proof.
  intros n x Hn Hx. destruct (ceil_spec x) as (z & E & L).
  exists (Z.to_nat z). change (scast U128_MAX (sceil x)) with (Rcast U128_MAX (Rceil x)).
  assert (0 < z)%Z by (apply lt_IZR; lra).
  assert (z < Z.of_nat n + 2)%Z. { apply lt_IZR. rewrite plus_IZR, <- INR_IZR_INZ. lra. }
  assert (300 < U128_MAX)%Z by (vm_compute; reflexivity).
  rewrite E. unfold Rcast. rewrite Int_part_IZR. split; [lia|]. split; [lia|].
  rewrite INR_IZR_INZ, Z2Nat.id by lia. exact L.
Qed.

Lemma terms_zero : forall x, x <= 0 -> scast U128_MAX (sceil x) = 0%Z.
Proof.
  intros x Hx. destruct (ceil_spec x) as (z & E & L).
  change (scast U128_MAX (sceil x)) with (Rcast U128_MAX (Rceil x)). rewrite E. unfold Rcast. rewrite Int_part_IZR.
  assert (z < 1)%Z by (apply lt_IZR; lra). lia.
Qed.

Lemma terms_many : forall n x, (n <= 255)%nat -> INR n + 1 < x ->
  (Z.of_nat n + 2 <= scast U128_MAX (sceil x))%Z.
Proof.
  intros n x Hn Hx. destruct (ceil_spec x) as (z & E & L).
  change (scast U128_MAX (sceil x)) with (Rcast U128_MAX (Rceil x)). rewrite E. unfold Rcast. rewrite Int_part_IZR.
  assert (Z.of_nat n + 1 < z)%Z. { apply lt_IZR. rewrite plus_IZR, <- INR_IZR_INZ. lra. }
  assert (300 < U128_MAX)%Z by (vm_compute; reflexivity). lia.
Qed.

(** The argument of the sums. *)
Definition arg (n : nat) (g : R) : R := INR n * ((1 - g) / 2).

Lemma half : (sdec 5 1 : R) = 1 / 2.
Proof. change (@sdec R R_scalar 5 1) with (IZR 5 / IZR 10). lra. Qed.

Lemma m_eq : forall g : R, (- g * sdec 5 1 + sdec 5 1)%S = (1 - g) / 2.
Proof. intro g. change (- g * (5 / 10) + 5 / 10 = (1 - g) / 2). lra. Qed.

(** A sum of nonnegative order in closed form, and one of order minus one. *)
Definition S_sum (n e : nat) (g : R) : R := ih e n (arg n g) * INR (fact e) / INR n ^ e.

Lemma sum_closed : forall n e g (k : nat), (1 <= n)%nat -> arg n g <= INR n -> 0 < arg n g -> arg n g <= INR k < arg n g + 1 ->
  Rsum (map (fun s => (-1) ^ s * IZR (binom n s) * powerRZ ((1 - g) / 2 - INR s / INR n) (Z.of_nat e)) (seq 0 k))
  = S_sum n e g.
Proof.
  intros n e g k Hn Hx Hp Hk. unfold S_sum. rewrite ih_sum. pose proof (fact_neq e) as F.
  assert (Pn : 0 < INR n) by (apply lt_0_INR; lia).
  assert (Pe : INR n ^ e <> 0) by (apply pow_nonzero; lra).
  set (x := arg n g) in *.
  assert (Kn : (k <= S n)%nat). { apply INR_le. rewrite S_INR. lra. }
  rewrite (Rsum_truncate _ k (S n) Kn).
  2:{ intros s Hs. rewrite pp_neg; [ring|]. assert (INR k <= INR s) by (apply le_INR; lia). lra. }
  replace (_ / INR (fact e) * INR (fact e) / INR n ^ e) with
    (/ INR n ^ e * Rsum (map (fun s => (-1) ^ s * IZR (binom n s) * pp e (x - INR s)) (seq 0 k))) by (field; split; assumption).
  rewrite <- Rsum_scal. apply Rsum_ext. intros s Hs. apply in_seq in Hs.
  assert (INR s + 1 <= INR k) by (rewrite <- S_INR; apply le_INR; lia).
  rewrite pp_pos by lra. rewrite <- pow_powerRZ.
  replace ((1 - g) / 2 - INR s / INR n) with ((x - INR s) * / INR n) by (unfold x, arg; field; lra).
  rewrite Rpow_mult_distr, pow_inv. ring.
Qed.

Lemma arg_bounds : forall n g, (2 <= n)%nat -> 0 < g < 1 -> 0 < arg n g < INR n / 2.
Proof.
  intros n g Hn Hg. unfold arg. assert (0 < INR n) by (apply lt_0_INR; lia).
  split; [apply Rmult_lt_0_compat; lra|]. nra.
Qed.

Lemma two_in : forall n prof, (2 <= n <= 255)%nat -> wrap prof U8_MAX (Z.of_nat n - 2) = Some (Z.of_nat (n - 2)).
Proof. intros n prof H. rewrite wrap_in; [f_equal; lia|]. unfold U8_MAX. lia. Qed.

(** ** The distribution *)
Lemma pow_ok : forall n prof, (2 <= n <= 26)%nat -> fjc_thermodynamics.pow_u128 prof (Z.of_nat n) (Z.of_nat n) = Some (Z.of_nat n ^ Z.of_nat n)%Z.
Proof.
  intros n prof H. unfold fjc_thermodynamics.pow_u128. apply wrap_in. split; [apply Z.pow_nonneg; lia|].
  apply Z.le_trans with (26 ^ Z.of_nat n)%Z; [apply Z.pow_le_mono_l; lia|].
  apply Z.le_trans with (26 ^ 26)%Z; [apply Z.pow_le_mono_r; lia|]. vm_compute. discriminate.
Qed.

Lemma pow_overflow : forall n, (27 <= n)%nat -> fjc_thermodynamics.pow_u128 Debug (Z.of_nat n) (Z.of_nat n) = None.
Proof.
  intros n H. unfold fjc_thermodynamics.pow_u128. apply wrap_out. right.
  apply Z.lt_le_trans with (27 ^ 27)%Z; [vm_compute; reflexivity|].
  apply Z.le_trans with (27 ^ Z.of_nat n)%Z; [apply Z.pow_le_mono_r; lia|apply Z.pow_le_mono_l; lia].
Qed.

Definition P (n : nat) (g : R) : R := INR n ^ 2 / (8 * PI * g) * ih (n - 2) n (arg n g).

Lemma distribution_ok : forall prof n g, (2 <= n <= 26)%nat -> 0 < g < 1 ->
  fjc_isometric.nondimensional_equilibrium_distribution prof (Z.of_nat n) g = Some (P n g).
Proof.
  intros prof n g Hn Hg. unfold fjc_isometric.nondimensional_equilibrium_distribution, fjc_thermodynamics.treloar_sum_0_with_prefactor.
  rewrite two_in by lia. cbn [bind]. rewrite m_eq. rewrite pow_ok by lia. cbn [bind].
  rewrite wrap_in. 2:{ assert (26 < U128_MAX)%Z by (vm_compute; reflexivity). lia. } cbn [bind].
  replace (Z.of_nat n - 2)%Z with (Z.of_nat (n - 2)) by lia.
  rewrite product_ok by (apply zfact_small; lia). cbn [bind].
  pose proof (arg_bounds n g ltac:(lia) Hg) as Ha.
  assert (Pn : 0 < INR n) by (apply lt_0_INR; lia).
  change (@sofZ R R_scalar) with IZR. rewrite <- INR_IZR_INZ.
  change (smul (INR n) ((1 - g) / 2)) with (arg n g).
  destruct (terms_ok n (arg n g) ltac:(lia) ltac:(lra)) as (k & Ek & Hk & Lk). rewrite Ek.
  rewrite treloar_sum_ok by lia. cbn [bind].
  rewrite sum_closed by (try lra; try lia). f_equal.
  change (sdec 125 3) with (125 / 1000). change (@spi R R_scalar) with PI.
  change (125 / 1000 / PI / g * IZR (Z.of_nat n ^ Z.of_nat n) / IZR (zfact (n - 2)) * S_sum n (n - 2) g = P n g).
  rewrite zfact_fact. unfold S_sum, P. pose proof (fact_neq (n - 2)) as F. pose proof PI_RGT_0.
  rewrite <- pow_IZR, <- INR_IZR_INZ.
  replace (INR n ^ n) with (INR n ^ 2 * INR n ^ (n - 2)) by (rewrite <- pow_add; f_equal; lia).
  assert (INR n ^ (n - 2) <> 0) by (apply pow_nonzero; lra).
  field. repeat split; lra.
Qed.

Lemma P_h : forall n g, (2 <= n)%nat -> 0 < g -> P n g = INR n ^ 2 / (8 * PI * g) * h (n - 2) (INR n * g).
Proof.
  intros n g Hn Hg. unfold P, h. f_equal. replace (S (S (n - 2))) with n by lia. f_equal. unfold arg. field.
Qed.

Lemma P_walk : forall n g, (2 <= n)%nat -> 0 < g -> P n g = INR n ^ 3 * walk_density n (INR n * g).
Proof.
  intros n g Hn Hg. assert (0 < INR n) by (apply lt_0_INR; lia). pose proof PI_RGT_0.
  unfold walk_density. rewrite walk_ih by (apply Rmult_lt_0_compat; lra). rewrite P_h by assumption. field. lra.
Qed.

Lemma P_pos : forall n g, (2 <= n)%nat -> 0 < g < 1 -> 0 < P n g.
Proof.
  intros n g Hn Hg. assert (0 < INR n) by (apply lt_0_INR; lia). pose proof PI_RGT_0.
  rewrite P_h by lra || lia. apply Rmult_lt_0_compat.
  - apply Rdiv_lt_0_compat; [apply pow_lt; lra|]. apply Rmult_lt_0_compat; lra.
  - apply h_pos. replace (S (S (n - 2))) with n by lia. split; [apply Rmult_lt_0_compat; lra|]. nra.
Qed.

Lemma is_RInt_arg : forall n (f : R -> R) a b v, (1 <= n)%nat -> is_RInt f (arg n a) (arg n b) v ->
  is_RInt (fun g => f (arg n g)) a b (- (2 / INR n) * v).
Proof.
  intros n f a b v Hn H. assert (0 < INR n) by (apply lt_0_INR; lia).
  apply is_RInt_ext with (f := fun g => scal (- (2 / INR n)) (scal (- (INR n / 2)) (f (- (INR n / 2) * g + INR n / 2)))).
  - intros g _. unfold scal; simpl; unfold mult; simpl. replace (- (INR n / 2) * g + INR n / 2) with (arg n g) by (unfold arg; field).
    field. lra.
  - apply (is_RInt_scal (V := R_NormedModule)). apply (is_RInt_comp_lin (V := R_NormedModule)).
    replace (- (INR n / 2) * a + INR n / 2) with (arg n a) by (unfold arg; field).
    replace (- (INR n / 2) * b + INR n / 2) with (arg n b) by (unfold arg; field). exact H.
Qed.

Lemma P_axis : forall n g, (2 <= n)%nat -> 0 < g < 1 ->
  is_RInt (fun r => 2 * PI * r * P n r) g 1 (INR n * axis_density n (INR n * g)).
Proof.
  intros n g Hn Hg. assert (0 < INR n) by (apply lt_0_INR; lia). pose proof PI_RGT_0.
  unfold axis_density. rewrite axis_ih by lia. replace (S (n - 1)) with n by lia.
  apply is_RInt_ext with (f := fun r => scal (INR n ^ 2 / 4) (ih (n - 2) n (arg n r))).
  - intros r Hr. rewrite Rmin_left, Rmax_right in Hr by lra. unfold P, scal; simpl; unfold mult; simpl. field. lra.
  - replace (INR n * (ih (n - 1) n ((INR n - INR n * g) / 2) / 2))
      with (scal (INR n ^ 2 / 4) (- (2 / INR n) * (ih (S (n - 2)) n (arg n 1) - ih (S (n - 2)) n (arg n g)))).
    + apply (is_RInt_scal (V := R_NormedModule)). apply is_RInt_arg; [lia|]. apply ih_int.
    + replace (arg n 1) with 0 by (unfold arg; field). rewrite ih_neg by lra.
      replace (S (n - 2)) with (n - 1)%nat by lia.
      replace ((INR n - INR n * g) / 2) with (arg n g) by (unfold arg; field).
      unfold scal; simpl; unfold mult; simpl. field. lra.
Qed.

(** Integration by parts in closed form. *)
Lemma P_normalised : forall n, (2 <= n)%nat -> is_RInt (fun g => 4 * PI * g ^ 2 * P n g) 0 1 1.
Proof.
  intros n Hn. assert (Pn : 0 < INR n) by (apply lt_0_INR; lia). pose proof PI_RGT_0.
  destruct n as [|[|j]]; [lia|lia|]. set (N := S (S j)) in *.
  (* x = arg g, g = 1 - 2x/N: the primitive of (1 - 2x/N) ih j N x is (1 - 2x/N) ih (S j) + (2/N) ih (S (S j)) *)
  assert (D : is_RInt (fun x => (1 - 2 * x / INR N) * ih j N x) (arg N 0) (arg N 1)
     (((1 - 2 * arg N 1 / INR N) * ih (S j) N (arg N 1) + 2 / INR N * ih (S (S j)) N (arg N 1))
      - ((1 - 2 * arg N 0 / INR N) * ih (S j) N (arg N 0) + 2 / INR N * ih (S (S j)) N (arg N 0)))).
  { set (G := fun x => (1 - 2 * x / INR N) * ih (S j) N x + 2 / INR N * ih (S (S j)) N x).
    change (is_RInt (fun x => (1 - 2 * x / INR N) * ih j N x) (arg N 0) (arg N 1) (minus (G (arg N 1)) (G (arg N 0)))).
    destruct j as [|j].
    - (* two links: the sum is constant on the range *)
      unfold G. replace (arg N 1) with 0 by (unfold arg; field). replace (arg N 0) with 1 by (unfold arg, N; simpl; field).
      assert (EN : INR N = 2) by (unfold N; simpl; ring). rewrite !EN.
      apply is_RInt_ext with (f := fun x => 1 - x).
      + intros x Hx. rewrite Rmin_right, Rmax_left in Hx by lra. unfold N. cbn [ih fact]. unfold pp.
        repeat match goal with |- context [Rlt_dec ?a ?b] => destruct (Rlt_dec a b) end; simpl; try (exfalso; lra); field.
      + replace (minus _ _) with (minus (0 - 0 ^ 2 / 2) (1 - 1 ^ 2 / 2)).
        * apply (is_RInt_derive (V := R_CompleteNormedModule) (fun x => x - x ^ 2 / 2) (fun x => 1 - x)).
          -- intros x _. auto_derive; [exact I|]. field.
          -- intros x _. apply (ex_derive_continuous (V := R_NormedModule)). auto_derive. exact I.
        * unfold N. cbn [ih fact Nat.mul Nat.add]. unfold pp, minus, plus, opp.
          repeat match goal with |- context [Rlt_dec ?a ?b] => destruct (Rlt_dec a b) end; simpl; try (exfalso; lra); lra.
    - apply (is_RInt_derive (V := R_CompleteNormedModule)).
      + intros x _. unfold G. evar_last.
        * apply (is_derive_plus (V := R_NormedModule)).
          -- apply (is_derive_mult (fun x => 1 - 2 * x / INR N) (ih (S (S j)) N)).
             ++ auto_derive; [exact I | reflexivity].
             ++ apply ih_derive. left. lia.
             ++ intros; apply Rmult_comm.
          -- apply (is_derive_scal (ih (S (S (S j))) N)). apply ih_derive. left. lia.
        * unfold plus, mult; simpl. field. apply Rgt_not_eq. exact Pn.
      + intros x _. apply (continuous_mult (K := R_AbsRing) (fun x => 1 - 2 * x / INR N) (ih (S j) N)).
        * apply (ex_derive_continuous (V := R_NormedModule)). auto_derive. exact I.
        * apply ih_continuous. lia. }
  apply (is_RInt_arg N) in D; [|unfold N; lia].
  replace (arg N 1) with 0 in D by (unfold arg; field). replace (arg N 0) with (INR N / 2) in D by (unfold arg; field).
  rewrite !(ih_neg _ _ 0) in D by lra.
  pose proof (ih_half j) as Hh. fold N in Hh. fold N in D. rewrite Hh in D.
  apply is_RInt_ext with (f := fun g => scal (INR N ^ 2 / 2) ((1 - 2 * arg N g / INR N) * ih j N (arg N g))).
  - intros g Hg. rewrite Rmin_left, Rmax_right in Hg by lra. unfold P. replace (N - 2)%nat with j by (unfold N; lia).
    change (INR N ^ 2 / 2 * ((1 - 2 * arg N g / INR N) * ih j N (arg N g))
      = 4 * PI * g ^ 2 * (INR N ^ 2 / (8 * PI * g) * ih j N (arg N g))).
    replace (2 * arg N g / INR N) with (1 - g) by (unfold arg; field; lra). field. lra.
  - evar_last; [apply (is_RInt_scal (V := R_NormedModule)); exact D|].
    change (INR N ^ 2 / 2 * (- (2 / INR N) * ((1 - 2 * 0 / INR N) * 0 + 2 / INR N * 0
      - ((1 - 2 * (INR N / 2) / INR N) * ih (S j) N (INR N / 2) + 2 / INR N * (1 / 2)))) = 1).
    field. apply Rgt_not_eq. exact Pn.
Qed.

(** ** The force *)
Lemma sums_ok : forall prof n g e, (2 <= n <= 34)%nat -> 0 < g < 1 ->
  fjc_thermodynamics.treloar_sum prof (Z.of_nat n) (IZR (Z.of_nat n)) ((1 - g) / 2)
    (scast U128_MAX (sceil (smul (IZR (Z.of_nat n)) ((1 - g) / 2)))) (Z.of_nat e) = Some (S_sum n e g).
Proof.
  intros prof n g e Hn Hg. pose proof (arg_bounds n g ltac:(lia) Hg) as Ha.
  rewrite <- INR_IZR_INZ. change (smul (INR n) ((1 - g) / 2)) with (arg n g).
  destruct (terms_ok n (arg n g) ltac:(lia) ltac:(lra)) as (k & Ek & Hk & Lk). rewrite Ek.
  rewrite treloar_sum_ok by lia. f_equal. apply sum_closed; (lia || lra).
Qed.

Definition F (n : nat) (g : R) : R :=
  (1 / g + (INR n / 2 - 1) * S_sum n (n - 3) g / S_sum n (n - 2) g) / INR n.

Lemma force_ok : forall prof n g, (2 <= n <= 34)%nat -> 0 < g < 1 ->
  fjc_isometric.nondimensional_force prof (Z.of_nat n) g = Some (F n g).
Proof.
  intros prof n g Hn Hg. unfold fjc_isometric.nondimensional_force, fjc_thermodynamics.treloar_sums.
  rewrite two_in by lia. cbn [bind]. rewrite m_eq. change (@sofZ R R_scalar) with IZR.
  cbn [mapM]. rewrite Z.sub_0_r. rewrite sums_ok by assumption. cbn [bind].
  assert (E : exists s1, fjc_thermodynamics.treloar_sum prof (Z.of_nat n) (IZR (Z.of_nat n)) ((1 - g) / 2)
     (scast U128_MAX (sceil (smul (IZR (Z.of_nat n)) ((1 - g) / 2)))) (Z.of_nat (n - 2) - 1) = Some s1 /\
     (INR n / 2 - 1) * s1 = (INR n / 2 - 1) * S_sum n (n - 3) g).
  { destruct (Nat.eq_dec n 2) as [->|N].
    - pose proof (arg_bounds 2 g ltac:(lia) Hg) as Ha.
      rewrite <- INR_IZR_INZ. change (smul (INR 2) ((1 - g) / 2)) with (arg 2 g).
      destruct (terms_ok 2 (arg 2 g) ltac:(lia) ltac:(simpl in *; lra)) as (k & Ek & Hk & Lk). rewrite Ek.
      rewrite treloar_sum_ok by lia. eexists. split; [reflexivity|]. replace (INR 2) with 2 by (simpl; ring). field_simplify. lra.
    - replace (Z.of_nat (n - 2) - 1)%Z with (Z.of_nat (n - 3)) by lia. exists (S_sum n (n - 3) g). split; [apply sums_ok; assumption | reflexivity]. }
  destruct E as (s1 & -> & E). cbn [bind nth_error]. f_equal. unfold F. rewrite half, <- INR_IZR_INZ, <- E.
  change ((1 / g + (1 / 2 * INR n - 1) * s1 / S_sum n (n - 2) g) / INR n = (1 / g + (INR n / 2 - 1) * s1 / S_sum n (n - 2) g) / INR n).
  replace (1 / 2 * INR n) with (INR n / 2) by field. reflexivity.
Qed.
