(** Rounding errors of the extension of the FJC in physical units. *)
From Coq Require Import Reals ZArith Lra Lia Floats Psatz.
From Flocq Require Import Core Relative Plus_error BinarySingleNaN PrimFloat.
From Verif Require Import Scalar F64 MConst MFjc SpecLangevin SpecNewton SpecDouble PDouble PDoubleFjc PLangevin PSigmoid PHyp PErfc PDoubleExample PDoubleQuad PDoubleRel PDoubleEfjc.
From Coq Require Import Floats.
Open Scope R_scope.

(** The gas constant in the units of the library, 8.314462618 J/(mol K). *)
Definition gas : R := 8314462618 / 10 ^ 9.

Lemma relative_slope : forall x, 0 < x -> dlangevin x * x <= 102 / 100.
Proof.
  intros x Hx. destruct langevin_concave as (_ & _ & K). pose proof (K x (x / 100) Hx ltac:(lra)) as H.
  pose proof (langevin_pos x Hx). pose proof (langevin_pos (x / 100) ltac:(lra)). lra.
Qed.

Lemma langevin_change : forall x y, 0 < x -> 0 < y -> 99 / 100 * x <= y -> Rabs (langevin y - langevin x) <= 104 / 100 * (Rabs (y - x) / x).
Proof.
  assert (I : forall x y, 0 < x <= y -> langevin x <= langevin y).
  { intros x y [Hx [Hy | ->]]; [|lra]. left. apply langevin_increasing. lra. }
  intros x y Hx Hy Hxy. destruct langevin_concave as (_ & P & K). destruct (Rle_or_lt x y) as [O|O].
  - pose proof (I x y ltac:(lra)). rewrite !Rabs_pos_eq by lra.
    pose proof (K x y Hx Hy). pose proof (relative_slope x Hx) as S.
    apply Rle_trans with (dlangevin x * x * ((y - x) / x)); [replace (dlangevin x * x * ((y - x) / x)) with (dlangevin x * (y - x)) by (field; lra); lra|].
    apply Rmult_le_compat_r; [|lra]. apply Rmult_le_pos; [lra | left; apply Rinv_0_lt_compat; lra].
  - rewrite Rabs_minus_sym, (Rabs_minus_sym y). pose proof (I y x ltac:(lra)). rewrite !Rabs_pos_eq by lra.
    pose proof (K y x Hy Hx). pose proof (relative_slope y Hy) as S.
    assert (Q : x / y <= 100 / 99).
    { apply Rmult_le_reg_r with y; [exact Hy|]. unfold Rdiv at 1. rewrite Rmult_assoc, Rinv_l by lra. lra. }
    assert (D0 : 0 <= (x - y) / x) by (apply Rmult_le_pos; [lra | left; apply Rinv_0_lt_compat; lra]).
    assert (Q0 : 0 < x / y) by (apply Rdiv_lt_0_compat; lra).
    apply Rle_trans with (dlangevin y * y * (x / y) * ((x - y) / x)); [replace (dlangevin y * y * (x / y) * ((x - y) / x)) with (dlangevin y * (x - y)) by (field; lra); lra|].
    apply Rmult_le_compat_r; [exact D0|]. pose proof (P y Hy).
    apply Rle_trans with (102 / 100 * (100 / 99)); [|lra]. apply Rmult_le_compat; [apply Rmult_le_pos; lra | lra | lra | lra].
Qed.

Section Lib.
Variable L : libm.
Local Notation S := (F64 L).
Local Notation B := (@BOLTZMANN_CONSTANT float S).

Lemma gas_double : finite B /\ rounded 1 gas (value B).
Proof.
  assert (F : finite B) by (vm_compute; exact I). split; [exact F|].
  assert (E : value B = 4680626343526340 / 2 ^ 49).
  { unfold value. replace (Prim2SF B) with (S754_finite false 4680626343526340 (-49)) by (vm_compute; reflexivity).
    change (1 * (4680626343526340 * / 2 ^ 49) = 4680626343526340 / 2 ^ 49). lra. }
  rewrite E. exists (4680626343526340 / 2 ^ 49 / gas - 1). unfold gas, unit_roundoff. split; [|field].
  apply Rabs_le. cbn [pow]. lra.
Qed.

Lemma units_unfold : forall N l f T, @fjc_isotensional.end_to_end_length float S N l f T =
  (@fjc_isotensional.nondimensional_end_to_end_length_per_link float S (f / B / T * l) * float_of_Z N * l)%float.
Proof. reflexivity. Qed.

Lemma units_accuracy : forall d N l f T, d <= / 2 ^ 20 -> (0 < N <= 255)%Z -> finite l -> finite f -> finite T ->
  powerRZ 2 (-100) <= value l <= powerRZ 2 100 -> powerRZ 2 (-100) <= value f <= powerRZ 2 100 -> powerRZ 2 (-100) <= value T <= powerRZ 2 100 ->
  accurate d (l_tanh L) tanh (f / B / T * l)%float ->
  let eta := value f * value l / (gas * value T) in
  finite (@fjc_isotensional.end_to_end_length float S N l f T) /\
  Rabs (value (@fjc_isotensional.end_to_end_length float S N l f T) - IZR N * value l * langevin eta)
    <= 7 * (d + 2 * unit_roundoff) * (1 + 1 / eta) * (IZR N * value l).
Proof.
  intros d N l f T Hd HN Fl Ff FT Rl Rf RT A. rewrite !pw in *. rewrite units_unfold.
  pose proof u_small as U. set (x := value f * value l / (gas * value T)). cbv zeta. fold x.
  pose proof (bpow_gt_0 radix2 (-100)) as P100. destruct gas_double as [FB RB].
  assert (G : bpow radix2 3 <= gas <= bpow radix2 4) by (unfold gas; cbn; lra).
  assert (PG : 0 < gas) by (unfold gas; lra).
  assert (sizes : forall a b i j p q, bpow radix2 i <= a <= bpow radix2 j -> bpow radix2 p <= b <= bpow radix2 q -> bpow radix2 (i - q) <= a / b <= bpow radix2 (j - p)).
  { intros a b i j p q [A1 A2] [B1 B2]. pose proof (bpow_gt_0 radix2 i). pose proof (bpow_gt_0 radix2 p). pose proof (bpow_gt_0 radix2 q). pose proof (bpow_gt_0 radix2 j).
    unfold Z.sub. rewrite !bpow_plus, <- !bpow_inv. unfold Rdiv. assert (0 < / bpow radix2 q) by (apply Rinv_0_lt_compat; assumption). assert (0 < / b) by (apply Rinv_0_lt_compat; lra).
    split; apply Rmult_le_compat; try lra; apply Rinv_le; lra. }
  pose proof (sizes _ _ _ _ _ _ Rf G) as S1. pose proof (sizes _ _ _ _ _ _ S1 RT) as S2.
  assert (S3 : bpow radix2 (-304) <= value f / gas / value T * value l <= bpow radix2 297).
  { pose proof (bpow_gt_0 radix2 (-100 - 4 - 100)). replace (-304)%Z with (-100 - 4 - 100 + -100)%Z by reflexivity. replace 297%Z with (100 - 3 - -100 + 100)%Z by reflexivity.
    rewrite !bpow_plus. split; apply Rmult_le_compat; lra. }
  assert (wide : forall v i j, (-1000 <= i)%Z -> (j <= 1000)%Z -> bpow radix2 i <= v <= bpow radix2 j -> bpow radix2 (-1000) <= Rabs v <= bpow radix2 1000).
  { intros v i j Hi Hj [V1 V2]. pose proof (bpow_gt_0 radix2 i). rewrite Rabs_pos_eq by lra. split; [apply Rle_trans with (2 := V1) | apply Rle_trans with (1 := V2)]; apply bpow_le; lia. }
  assert (W1 : bpow radix2 (-1000) <= Rabs (value f / gas) <= bpow radix2 1000) by (apply wide with (3 := S1); lia).
  assert (W2 : bpow radix2 (-1000) <= Rabs (value f / gas / value T) <= bpow radix2 1000) by (apply wide with (3 := S2); lia).
  assert (W3 : bpow radix2 (-1000) <= Rabs (value f / gas / value T * value l) <= bpow radix2 1000) by (apply wide with (3 := S3); lia).
  destruct (div_rounded 0 (value f) gas f B ltac:(lia) ltac:(lra) Ff (rounded_0 _) RB W1) as [F1 R1].
  destruct (div_rounded 3 _ (value T) _ T ltac:(lia) ltac:(lra) F1 R1 (rounded_weak 0 1 _ _ ltac:(lia) (rounded_0 _)) W2) as [F2 R2].
  destruct (mul_rounded 6 0 _ (value l) _ l ltac:(lia) F2 Fl R2 (rounded_0 _) W3) as [F3 R3].
  assert (Ex : value f / gas / value T * value l = x) by (unfold x; field; lra). rewrite Ex in *.
  assert (Px : 0 < x) by (pose proof (bpow_gt_0 radix2 (-304)); lra).
  set (eta := (f / B / T * l)%float) in *. set (y := value eta) in *.
  assert (Dy : Rabs (y - x) <= 71 / 10 * u * x).
  { destruct R3 as (e & E & Ey). rewrite Ey. replace (x * (1 + e) - x) with (e * x) by ring. rewrite Rabs_mult, (Rabs_pos_eq x) by lra. apply Rmult_le_compat_r; [lra|].
    apply Rle_trans with (1 := E). cbn [Nat.add]. unfold unit_roundoff. lra. }
  assert (ux : 71 / 10 * u * x <= x / 1000) by (unfold Rdiv at 2; rewrite (Rmult_comm x); apply Rmult_le_compat_r; lra).
  pose proof (Rabs_le_inv _ _ Dy) as Dy'. assert (Py : 0 < y) by lra.
  assert (Ry : powerRZ 2 (-1000) <= Rabs y <= powerRZ 2 1000).
  { rewrite !pw, Rabs_pos_eq by lra. assert (bpow radix2 298 = 2 * bpow radix2 297) by (replace 298%Z with (297 + 1)%Z by reflexivity; apply bpow_S).
    assert (bpow radix2 (-304) = 2 * bpow radix2 (-305)) by (replace (-304)%Z with (-305 + 1)%Z by reflexivity; apply bpow_S).
    split; [apply Rle_trans with (bpow radix2 (-305)); [apply bpow_le; lia | lra] | apply Rle_trans with (bpow radix2 298); [lra | apply bpow_le; lia]]. }
  pose proof (fjc_accuracy L d eta Hd F3 Ry A) as [Fa Aa]. fold y in Aa.
  assert (dp : 0 <= d).
  { destruct A as [_ A]. destruct (coth_parts y ltac:(lra)) as (TN & _ & _). pose proof (Rabs_pos (value (l_tanh L eta) - tanh y)). pose proof (Rabs_pos_lt _ TN).
    fold y in A. apply (Rmult_le_reg_r (Rabs (tanh y))); lra. }
  assert (PI : 0 < 1 / x) by (apply Rdiv_lt_0_compat; lra).
  assert (Iy : 0 < 1 / y <= 101 / 100 * (1 / x)).
  { split; [apply Rdiv_lt_0_compat; lra|]. apply Rmult_le_reg_r with y; [exact Py|]. replace (1 / y * y) with 1 by (field; lra).
    replace (101 / 100 * (1 / x) * y) with (101 / 100 * (y / x)) by (field; lra). assert (999 / 1000 <= y / x); [|lra].
    apply Rmult_le_reg_r with x; [exact Px|]. replace (y / x * x) with y by (field; lra). lra. }
  rewrite (Rabs_pos_eq (1 / y)) in Aa by lra. set (ep := d + 2 * u) in *. set (J := 1 + 1 / x) in *.
  assert (Pe : 0 < ep <= / 2 ^ 19) by (unfold ep; lra). assert (HJ : 1 <= J) by (unfold J; lra).
  pose proof (langevin_change x y Px Py ltac:(lra)) as LC.
  assert (LC' : Rabs (y - x) / x <= 71 / 10 * u).
  { apply Rmult_le_reg_r with x; [exact Px|]. unfold Rdiv at 1. rewrite Rmult_assoc, Rinv_l by lra. lra. }
  assert (eJ : ep <= ep * J) by (rewrite <- (Rmult_1_r ep) at 1; apply Rmult_le_compat_l; lra).
  assert (a_near : near (@fjc_isotensional.nondimensional_end_to_end_length_per_link float S eta) (langevin x) (58 / 10 * (ep * J))).
  { split; [exact Fa|]. match goal with |- Rabs (?v - _) <= _ => replace (v - langevin x) with ((v - langevin y) + (langevin y - langevin x)) by ring end.
    eapply Rle_trans; [apply Rabs_triang|]. assert (2 * ep * (1 + 1 / y) <= 2 * ep * (101 / 100 * J)) by (apply Rmult_le_compat_l; unfold J; lra). unfold ep in *. lra. }
  destruct (float_of_Z_exact N) as [FN VN]; [lia|]. assert (NN : near (float_of_Z N) (IZR N) 0) by (rewrite <- VN; apply near_self; exact FN).
  assert (BN : 1 <= IZR N <= 255) by (split; apply IZR_le; lia).
  pose proof (langevin_pos x Px) as LP. set (g := langevin x) in *.
  assert (B1 : 1000 * bpow radix2 304 <= bpow radix2 320).
  { apply Rle_trans with (bpow radix2 10 * bpow radix2 304); [apply Rmult_le_compat_r; [apply bpow_ge_0|cbn; lra]|]. rewrite <- bpow_plus. apply bpow_le. lia. }
  assert (B0 : 1 <= bpow radix2 304) by (change 1 with (bpow radix2 0); apply bpow_le; lia).
  assert (JB : J <= 2 * bpow radix2 304).
  { unfold J. assert (1 / x <= bpow radix2 304); [|lra]. unfold Rdiv. rewrite Rmult_1_l. replace (bpow radix2 304) with (/ bpow radix2 (-304)) by (rewrite bpow_inv; reflexivity). apply Rinv_le; [apply bpow_gt_0 | lra]. }
  assert (eJs : ep * J <= J / 100) by (unfold Rdiv; rewrite Rmult_comm; apply Rmult_le_compat_l; lra).
  set (M := IZR N) in *. assert (MeJ : 0 <= M * (ep * J)) by (apply Rmult_le_pos; lra).
  assert (Mb : M * (ep * J) <= 255 * (ep * J)) by (apply Rmult_le_compat_r; lra).
  assert (Mg : 0 <= g * M <= M) by (split; [apply Rmult_le_pos; lra|]; rewrite <- (Rmult_1_l M) at 2; apply Rmult_le_compat_r; lra).
  assert (H320 : 1000 * bpow radix2 320 <= bpow radix2 340).
  { apply Rle_trans with (bpow radix2 10 * bpow radix2 320); [apply Rmult_le_compat_r; [apply bpow_ge_0|cbn; lra]|]. rewrite <- bpow_plus. apply bpow_le. lia. }
  assert (H340 : bpow radix2 340 <= bpow radix2 1023) by (apply bpow_le; lia).
  assert (z0 : 0 < bpow radix2 (-1075)) by apply bpow_gt_0.
  assert (zu : bpow radix2 (-1075) <= u / 1000).
  { apply Rle_trans with (bpow radix2 (-63)); [apply bpow_le; lia|]. unfold unit_roundoff. change (bpow radix2 (-63)) with (/ 9223372036854775808). lra. }
  assert (up : forall v, 0 <= v -> 0 <= u * v <= v / 1000000).
  { intros v Hv. split; [apply Rmult_le_pos; lra|]. unfold Rdiv. rewrite Rmult_comm. apply Rmult_le_compat_l; lra. }
  assert (uM : u * (g * M) <= u * M) by (apply Rmult_le_compat_l; lra).
  assert (uMe : u * M <= M * (ep * J) / 2).
  { replace (u * M) with (M * u) by ring. unfold Rdiv. rewrite (Rmult_assoc M). apply Rmult_le_compat_l; [lra|]. unfold ep in *. lra. }
  assert (b_near : near (@fjc_isotensional.nondimensional_end_to_end_length_per_link float S eta * float_of_Z N)%float (g * M) (64 / 10 * (M * (ep * J)))).
  { eapply near_weak; [apply (near_mul _ _ _ _ _ _ a_near NN); lra|]. pose proof (up (M * (ep * J)) MeJ).
    assert (u <= u * M) by (rewrite <- (Rmult_1_r u) at 1; apply Rmult_le_compat_l; lra). lra. }
  set (K := M * (ep * J)) in *. set (v := value l) in *.
  assert (Kv : 0 <= K * v) by (apply Rmult_le_pos; lra).
  assert (zv : bpow radix2 (-1075) <= u / 1000 * v).
  { apply Rle_trans with (bpow radix2 (-63) * bpow radix2 (-100)); [rewrite <- bpow_plus; apply bpow_le; lia|]. apply Rmult_le_compat; try apply bpow_ge_0; [|lra].
    unfold unit_roundoff. change (bpow radix2 (-63)) with (/ 9223372036854775808). lra. }
  assert (Mgv : 0 <= g * M * v <= M * v) by (split; [apply Rmult_le_pos; lra | apply Rmult_le_compat_r; lra]).
  assert (uMv : u * (g * M * v) <= u * M * v) by (rewrite (Rmult_assoc u); apply Rmult_le_compat_l; lra).
  assert (uMKv : u * M * v <= K * v / 2) by (replace (K * v / 2) with (K / 2 * v) by field; apply Rmult_le_compat_r; lra).
  assert (uvM : u * v <= u * M * v) by (apply Rmult_le_compat_r; [lra|]; rewrite <- (Rmult_1_r u) at 1; apply Rmult_le_compat_l; lra).
  assert (l_near : near l v 0) by (apply near_self; exact Fl).
  assert (Mv : M * v <= bpow radix2 320 * bpow radix2 100) by (apply Rmult_le_compat; lra).
  assert (Kvb : K * v <= bpow radix2 320 * bpow radix2 100) by (apply Rmult_le_compat; lra).
  assert (H420 : 1000 * (bpow radix2 320 * bpow radix2 100) <= bpow radix2 1023).
  { apply Rle_trans with (bpow radix2 10 * (bpow radix2 320 * bpow radix2 100)); [apply Rmult_le_compat_r; [apply Rmult_le_pos; apply bpow_ge_0|cbn; lra]|]. rewrite <- !bpow_plus. apply bpow_le. lia. }
  destruct (near_mul _ _ _ _ _ _ b_near l_near) as [F V]; [lra | lra | lra |].
  split; [exact F|]. replace (M * v * g) with (g * M * v) by ring. eapply Rle_trans; [exact V|].
  pose proof (up (K * v) Kv). replace (7 * ep * J * (M * v)) with (7 * (K * v)) by (unfold K; ring). lra.
Qed.
End Lib.

(** A force of 2^-30 in units of kT per link length. *)
Definition weak_pull : float := (@BOLTZMANN_CONSTANT float (F64 double_libm) * small_force)%float.

Lemma units_case : finite 1%float /\ finite weak_pull /\
  powerRZ 2 (-100) <= value 1%float <= powerRZ 2 100 /\ powerRZ 2 (-100) <= value weak_pull <= powerRZ 2 100 /\
  accurate (/ 2 ^ 52) (l_tanh double_libm) tanh (weak_pull / @BOLTZMANN_CONSTANT float (F64 double_libm) / 1 * 1)%float.
Proof.
  assert (F : finite weak_pull) by (vm_compute; exact I).
  assert (E : (weak_pull / @BOLTZMANN_CONSTANT float (F64 double_libm) / 1 * 1)%float = small_force) by (vm_compute; reflexivity).
  assert (V : value weak_pull = 4680626343526340 / 2 ^ 79).
  { unfold value. replace (Prim2SF weak_pull) with (S754_finite false 4680626343526340 (-79)) by (vm_compute; reflexivity).
    change (1 * (4680626343526340 * / 2 ^ 79) = 4680626343526340 / 2 ^ 79). lra. }
  assert (H : / 1125899906842624 <= powerRZ 2 100 /\ 1 <= powerRZ 2 100 /\ powerRZ 2 (-100) <= / 1125899906842624).
  { rewrite !pw. split; [|split].
    - apply Rle_trans with (bpow radix2 0); [change (bpow radix2 0) with 1; lra | apply bpow_le; lia].
    - change 1 with (bpow radix2 0). apply bpow_le. lia.
    - change (/ 1125899906842624) with (bpow radix2 (-50)). apply bpow_le. lia. }
  rewrite E, V. split; [exact finite_one|]. split; [exact F|]. change 1%float with one. rewrite value_one. split; [lra|]. split; [lra | exact tanh_small].
Qed.
