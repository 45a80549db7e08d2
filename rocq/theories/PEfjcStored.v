(** What the extensible chain stores when it is held at an extension. *)
From Coq Require Import Reals ZArith Lra Lia.
From Coquelicot Require Import Coquelicot.
From Verif Require Import Scalar MConst MMath MEfjc SpecNewton SpecLangevin SpecThermo SpecInverse SpecFenchel
  PBase PHyp PLangevin PInverse PEfjcSolve PFenchel.
Open Scope R_scope.

Local Notation force := (@efjc_isometric_asymptotic_reduced_legendre.nondimensional_force R R_scalar).
Local Notation extension := (@efjc_isotensional_asymptotic_reduced.nondimensional_end_to_end_length_per_link R R_scalar).

Lemma extension_R : forall kap x, extension kap x = ext kap x.
Proof.
  intros kap x. pose proof PInvLangevin.langevin_f_R as F. apply (f_equal (fun f => f x)) in F. unfold math.langevin_f in F.
  unfold ext. rewrite <- F. reflexivity.
Qed.

Lemma solved_force : forall kap y, 0 < kap -> 0 < y -> y <> 1 ->
  0 < force kap y /\ 0 <= y - extension kap (force kap y) <= 2 / 1000000 * y.
Proof.
  intros kap y Hk Hy N. destruct (solved kap Hk y Hy N) as (r & k & _ & _ & E & _ & A & B).
  rewrite extension_R, E. split; [lra | exact B].
Qed.

Lemma solved_root : forall kap y, 0 < kap -> 0 < y -> y <> 1 -> exists r, 0 < r /\ extension kap r = y /\
  (forall s, 0 < s -> extension kap s = y -> s = r) /\ 0 < force kap y <= r /\ r - force kap y <= 2 / 1000000 * kap * y.
Proof.
  intros kap y Hk Hy N. destruct (solved kap Hk y Hy N) as (r & k & Hr & Er & E & _ & A & B). exists r. rewrite extension_R. rewrite E.
  split; [exact Hr|]. split; [exact Er|]. set (x := newton_iterate _ _ _ _ _) in *.
  assert (Grow : forall s t, 0 < s -> s <= t -> (t - s) / kap <= ext kap t - ext kap s).
  { intros s t Hs Hst. unfold ext. assert (langevin s <= langevin t).
    { destruct (Req_dec s t) as [->|M]; [lra|]. left. apply langevin_increasing. lra. }
    replace ((t - s) / kap) with (t / kap - s / kap) by (unfold Rdiv; ring). lra. }
  assert (Pos : forall u, 0 < u -> 0 < u / kap) by (intros; apply Rdiv_lt_0_compat; lra).
  split.
  - intros s Hs Es. rewrite extension_R in Es. destruct (Rtotal_order s r) as [L|[->|L]]; [|reflexivity|].
    + pose proof (Grow s r Hs ltac:(lra)). pose proof (Pos (r - s) ltac:(lra)). lra.
    + pose proof (Grow r s Hr ltac:(lra)). pose proof (Pos (s - r) ltac:(lra)). lra.
  - split; [lra|]. pose proof (Grow x r ltac:(lra) ltac:(lra)) as G. rewrite Er in G.
    apply Rmult_le_reg_r with (/ kap); [apply Rinv_0_lt_compat; exact Hk|].
    replace (2 / 1000000 * kap * y * / kap) with (2 / 1000000 * y) by (field; lra). unfold Rdiv in *. lra.
Qed.

(** ** Dimensions *)
Lemma round_trip : forall N l k xi T, (0 < N)%Z -> 0 < l -> 0 < k -> 0 < T -> 0 < xi -> xi <> IZR N * l ->
  let f := efjc_isometric_asymptotic_reduced_legendre.force N l k xi T in
  0 < f /\ 0 <= xi - efjc_isotensional_asymptotic_reduced.end_to_end_length N l k f T <= 2 / 1000000 * xi.
Proof.
  intros N l k xi T HN Hl Hk HT Hx Hne f. pose proof kB_pos as KB. apply IZR_lt in HN.
  assert (HL : 0 < IZR N * l) by (apply Rmult_lt_0_compat; lra).
  assert (HB : 0 < kB * T) by (apply Rmult_lt_0_compat; assumption).
  set (kap := k * l ^ 2 / kB / T). set (y := xi / (IZR N * l)).
  assert (Hkap : 0 < kap).
  { unfold kap. apply Rdiv_lt_0_compat; [apply Rdiv_lt_0_compat; [|exact KB] | exact HT]. apply Rmult_lt_0_compat; [exact Hk | apply pow_lt; exact Hl]. }
  assert (Hy : 0 < y) by (apply Rdiv_lt_0_compat; assumption).
  assert (Ny : y <> 1). { intro E. apply Hne. replace xi with (y * (IZR N * l)) by (unfold y; field; lra). rewrite E. ring. }
  assert (Ef : f = kB * T / l * force kap y).
  { unfold f, efjc_isometric_asymptotic_reduced_legendre.force. unR. rewrite ?B_eq. reflexivity. }
  clearbody f. destruct (solved_force kap y Hkap Hy Ny) as (P & B). set (x := force kap y) in *. clearbody x.
  split. { rewrite Ef. apply Rmult_lt_0_compat; [apply Rdiv_lt_0_compat; assumption | exact P]. }
  assert (Ex : efjc_isotensional_asymptotic_reduced.end_to_end_length N l k f T = IZR N * l * extension kap x).
  { unfold efjc_isotensional_asymptotic_reduced.end_to_end_length, efjc_isotensional_asymptotic_reduced.nondimensional_end_to_end_length_per_link.
    unR. rewrite ?B_eq. replace (f * l / kB / T) with x by (rewrite Ef; field; lra). rewrite Ef. unfold kap.
    assert (TH : 0 < tanh x) by (unfold tanh; apply Rdiv_lt_0_compat; [apply sinh_pos; exact P | apply cosh_pos]).
    set (th := tanh x) in *. clearbody th. field. repeat split; lra. }
  rewrite Ex. replace xi with (IZR N * l * y) by (unfold y; field; lra).
  replace (2 / 1000000 * (IZR N * l * y)) with (IZR N * l * (2 / 1000000 * y)) by field.
  split; [|rewrite <- Rmult_minus_distr_l; apply Rmult_le_compat_l; lra].
  rewrite <- Rmult_minus_distr_l. apply Rmult_le_pos; lra.
Qed.

(** ** Free energy *)
Section Stored.
Variables (kap l m T : R).
Hypothesis Hk : 0 < kap.
Let gibbs := fun e => efjc_isotensional_asymptotic_reduced.nondimensional_gibbs_free_energy_per_link l m kap e T.
Definition V (y e : R) : R := e * y + gibbs e.

Lemma V_W : forall y e, V y e = W y e - e ^ 2 / kap / 2 - (hinge_term l m T + link_term kap l).
Proof using Type.
  intros y e. unfold V, gibbs, efjc_isotensional_asymptotic_reduced.nondimensional_gibbs_free_energy_per_link, W.
  unR. rewrite ?B_eq, ?H_eq. unfold hinge_term, link_term, Rdiv. lra.
Qed.

Lemma V_derive : forall y e, 0 < e -> is_derive (V y) e (y - ext kap e).
Proof using Hk.
  intros y e He. apply (is_derive_ext (fun e => W y e - e ^ 2 / kap / 2 - (hinge_term l m T + link_term kap l))).
  { intro t. symmetry. apply V_W. }
  evar_last.
  - apply (is_derive_minus (V := R_NormedModule) (fun e => W y e - e ^ 2 / kap / 2) (fun _ => hinge_term l m T + link_term kap l)); [|apply (is_derive_const (V := R_NormedModule))].
    apply (is_derive_minus (V := R_NormedModule) (W y) (fun e => e ^ 2 / kap / 2)); [apply W_derive, He|].
    auto_derive; [trivial | reflexivity].
  - unfold minus, plus, opp, zero; cbn. unfold ext. field. lra.
Qed.

Lemma V_step : forall y a b, 0 < a -> a < b -> exists c, a < c < b /\ V y b - V y a = (y - ext kap c) * (b - a).
Proof using Hk.
  intros y a b Ha Hab. destruct (MVT_cor2 (V y) (fun e => y - ext kap e) a b Hab) as (c & E & Hc).
  - intros c Hc. apply is_derive_Reals, V_derive. lra.
  - exists c. split; [exact Hc | exact E].
Qed.

Lemma ext_le : forall s t, 0 < s -> s <= t -> ext kap s <= ext kap t.
Proof using Hk. intros s t Hs Hst. apply (PNewton.concave_increasing_le _ (ext kap) (slope kap) (ext_concave kap Hk)); lra. Qed.

Lemma V_max : forall y r e, 0 < r -> ext kap r = y -> 0 < e -> V y e <= V y r.
Proof using Hk.
  intros y r e Hr E He. destruct (Rtotal_order e r) as [L|[->|L]]; [|lra|].
  - destruct (V_step y e r He L) as (c & Hc & Q). pose proof (ext_le c r ltac:(lra) ltac:(lra)). nra.
  - destruct (V_step y r e Hr L) as (c & Hc & Q). pose proof (ext_le r c ltac:(lra) ltac:(lra)). nra.
Qed.

Lemma V_even : forall y e, 0 < y -> e < 0 -> V y e <= V y (- e).
Proof using Type.
  intros y e Hy He. rewrite !V_W. pose proof (W_even y e Hy He). replace ((- e) ^ 2) with (e ^ 2) by ring. lra.
Qed.

Lemma V_near : forall y r x, 0 < x -> x <= r -> ext kap r = y -> V y r - V y x <= (r - x) * (y - ext kap x).
Proof using Hk.
  intros y r x Hx Hxr E. destruct (Req_dec x r) as [->|N]; [rewrite E; lra|].
  destruct (V_step y x r Hx ltac:(lra)) as (c & Hc & Q). rewrite Q. pose proof (ext_le x c ltac:(lra) ltac:(lra)). nra.
Qed.

Lemma sup_near : forall y, 0 < y -> y <> 1 -> exists v, legendre_transform gibbs y v /\
  V y (force kap y) <= v <= V y (force kap y) + 4 / 10 ^ 12 * kap * y ^ 2.
Proof using Hk.
  intros y Hy N. destruct (solved_root kap y Hk Hy N) as (r & Hr & Er & _ & A & B).
  destruct (solved_force kap y Hk Hy N) as (P & C). rewrite extension_R in Er, C. exists (V y r). split; [split|split].
  - intros s (e & He & ->). change (V y e <= V y r). destruct (Rlt_dec 0 e) as [Q|Q]; [apply V_max; assumption|].
    apply Rle_trans with (V y (- e)); [apply V_even; lra | apply V_max; (assumption || lra)].
  - intros b Hb. apply Hb. exists r. split; [lra | reflexivity].
  - apply V_max; assumption.
  - pose proof (V_near y r (force kap y) P ltac:(lra) Er) as Q.
    assert ((r - force kap y) * (y - ext kap (force kap y)) <= (2 / 1000000 * kap * y) * (2 / 1000000 * y)) by (apply Rmult_le_compat; lra).
    replace (4 / 10 ^ 12 * kap * y ^ 2) with (2 / 1000000 * kap * y * (2 / 1000000 * y)) by field. lra.
Qed.

Lemma stored : forall N y, 0 < y -> y <> 1 ->
  let psi := efjc_isometric_asymptotic_reduced_legendre.nondimensional_helmholtz_free_energy_per_link N l m kap y T - (hinge_term l m T + link_term kap l) / IZR N in
  exists v, legendre_transform gibbs y v /\ psi <= v <= psi + 4 / 10 ^ 12 * kap * y ^ 2.
Proof using Hk.
  intros N y Hy Hne psi. destruct (sup_near y Hy Hne) as (v & S & B). exists v. split; [exact S|].
  assert (E : psi = V y (force kap y)); [|rewrite E; exact B].
  unfold psi. rewrite legendre_efjc_reduced. unfold V, gibbs. ring.
Qed.

Lemma stored_work : forall N y z, 0 < y -> y < z -> y <> 1 -> z <> 1 ->
  let psi := fun y => efjc_isometric_asymptotic_reduced_legendre.nondimensional_helmholtz_free_energy_per_link N l m kap y T in
  force kap y * (z - y) - 4 / 10 ^ 12 * kap * z ^ 2 <= psi z - psi y <= force kap z * (z - y) + 4 / 10 ^ 12 * kap * y ^ 2.
Proof using Hk.
  intros N y z Hy Hyz Ny Nz psi.
  assert (E : psi z - psi y = V z (force kap z) - V y (force kap y)).
  { unfold psi. rewrite !legendre_efjc_reduced. unfold V, gibbs. ring. }
  destruct (sup_near y Hy Ny) as (v & (Uv & _) & Bv). destruct (sup_near z ltac:(lra) Nz) as (w & (Uw & _) & Bw).
  destruct (solved_force kap y Hk Hy Ny) as (Py & _). destruct (solved_force kap z Hk ltac:(lra) Nz) as (Pz & _).
  assert (A : V z (force kap y) <= w) by (apply Uw; exists (force kap y); split; [lra | reflexivity]).
  assert (B : V y (force kap z) <= v) by (apply Uv; exists (force kap z); split; [lra | reflexivity]).
  rewrite E. unfold V in *. lra.
Qed.
End Stored.

(** ** The number of steps *)
From Coq Require Import FunctionalExtensionality.

Lemma terminates : forall kap y, 0 < kap -> 0 < y -> y <> 1 ->
  exists (fp : R -> R) (k : nat), (forall x, 0 < x -> is_derive (extension kap) x (fp x)) /\ (0 < k < 100)%nat /\
    force kap y = newton_iterate y (extension kap) fp k (if Rlt_dec y 1 then math.inverse_langevin y else kap * (y - 1)).
Proof.
  intros kap y Hk Hy N. destruct (solved kap Hk y Hy N) as (r & k & _ & _ & E & B & _). exists (slope kap), k.
  assert (Q : extension kap = ext kap) by (apply functional_extensionality; apply extension_R). rewrite Q.
  split; [intros x Hx; apply ext_derive; assumption|]. split; assumption.
Qed.
