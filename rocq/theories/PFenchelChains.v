(** The Legendre transforms that start from the force are maximal. *)
From Coq Require Import Reals ZArith Lra Lia.
From Coquelicot Require Import Coquelicot.
From Verif Require Import Scalar MConst SpecThermo SpecChains SpecStability SpecFenchel PBase PConj.
From Verif Require PropsConjugacy PropsStability PropsIdentities.
Open Scope R_scope.

(** An interval of positive forces. *)
Definition interval (D : R -> Prop) : Prop := (forall x, D x -> 0 < x) /\ (forall x y z, D x -> D z -> x < y -> y < z -> D y).

Lemma gibbs_step : forall D (len g : R -> R) x y, interval D -> (forall x, D x -> is_derive g x (- len x)) -> D x -> D y -> x < y ->
  exists c, D c /\ x < c < y /\ g y - g x = - len c * (y - x).
Proof.
  intros D len g x y (_ & I) C Dx Dy L. destruct (MVT_cor2 g (fun t => - len t) x y L) as (c & E & Hc).
  - intros c Hc. apply is_derive_Reals, C. destruct (Req_dec c x) as [->|N1]; [exact Dx|]. destruct (Req_dec c y) as [->|N2]; [exact Dy|].
    apply (I x c y Dx Dy); lra.
  - exists c. split; [apply (I x c y Dx Dy); lra|]. split; [exact Hc | exact E].
Qed.

Lemma largest : forall D (len g h : R -> R), interval D -> positive_increasing_on D len -> (forall x, D x -> is_derive g x (- len x)) ->
  (forall x, x <> 0 -> h x = g x + x * len x) -> largest_on D len g h.
Proof.
  intros D len g h I (_ & M) C H x y Dx Dy. rewrite H by (apply (proj1 I) in Dx; lra).
  destruct (Rtotal_order x y) as [L|[->|L]]; [|lra|].
  - destruct (gibbs_step D len g x y I C Dx Dy L) as (c & Dc & Hc & E). specialize (M x c Dx Dc ltac:(lra)). nra.
  - destruct (gibbs_step D len g y x I C Dy Dx L) as (c & Dc & Hc & E). specialize (M c x Dc Dx ltac:(lra)). nra.
Qed.

Lemma stores : forall D (len g h : R -> R), interval D -> positive_increasing_on D len -> (forall x, D x -> is_derive g x (- len x)) ->
  (forall x y, x <> 0 -> y <> 0 -> h x - h y = (g x + x * len x) - (g y + y * len y)) -> stores_work_on D len h.
Proof.
  intros D len g h I M C H x y Dx Dy L. rewrite H by (apply (proj1 I) in Dx; apply (proj1 I) in Dy; lra).
  pose proof (largest D len g (fun x => g x + x * len x) I M C (fun x _ => eq_refl)) as Q.
  pose proof (Q x y Dx Dy). pose proof (Q y x Dy Dx). lra.
Qed.

Lemma scaled_interval : forall D s, 0 < s -> interval D -> interval (fun f => D (f * s)).
Proof.
  intros D s Hs (P & I). split.
  - intros x Dx. apply P in Dx. destruct (Rle_dec x 0) as [L|L]; [exfalso; nra | lra].
  - intros x y z Dx Dz A B. apply (I (x * s) (y * s) (z * s)); try assumption; nra.
Qed.

Definition conjugate_on (D : R -> Prop) (l T : R) (c : isotensional) : Prop :=
  forall f eta, D (f * l / (kB * T)) -> D eta -> isotensional_conjugate_at c f eta.

Lemma chain_maximal : forall D l T c h, 0 < l -> 0 < T -> interval D -> conjugate_on D l T c -> isotensional_stable_on D l T c -> isotensional_legendre c h ->
  (exists x, D x) -> legendre_maximal_on D l T c h /\ legendre_work_on D l T c h.
Proof.
  intros D l T c h Hl HT I C (S1 & S2 & S3 & S4) (L & L1 & L2 & L3 & L4) (x0 & D0).
  pose proof kB_pos as KB. set (s := l / (kB * T)). assert (Hs : 0 < s) by (apply Rdiv_lt_0_compat; [exact Hl | apply Rmult_lt_0_compat; assumption]).
  assert (IE : interval (fun f => D (f * l / (kB * T)))).
  { pose proof (scaled_interval D s Hs I) as (P & Q). assert (EQ : forall f, f * l / (kB * T) = f * s) by (intro; unfold s; field; lra). split.
    - intros x Dx. rewrite EQ in Dx. apply P. exact Dx.
    - intros x y z Dx Dz A B. rewrite EQ in Dx, Dz |- *. apply (Q x y z); assumption. }
  assert (F0 : D (x0 / s * l / (kB * T))) by (replace (x0 / s * l / (kB * T)) with x0 by (unfold s; field; lra); exact D0).
  assert (CE : forall f, D (f * l / (kB * T)) -> isotensional_conjugate_at c f x0) by (intros; apply C; assumption).
  assert (CD : forall x, D x -> isotensional_conjugate_at c (x0 / s) x) by (intros; apply C; assumption).
  split; unfold legendre_maximal_on, legendre_work_on; cbv zeta.
  - split; [|split; [|split]]; (apply largest; [assumption | assumption | | intros x Hx; apply L; exact Hx]); intros x Dx;
      [apply (CE x Dx) | apply (CE x Dx) | apply (CD x Dx) | apply (CD x Dx)].
  - split; [|split; [|split; [|split; [|split; [|split; [|split]]]]]].
    + apply (stores _ _ (I_gibbs c)); [assumption | assumption | intros x Dx; apply (CE x Dx)|]. intros x y Hx Hy. destruct (L x Hx) as (A & _). destruct (L y Hy) as (B & _). rewrite A, B. reflexivity.
    + apply (stores _ _ (I_rel_gibbs c)); [assumption | assumption | intros x Dx; apply (CE x Dx)|]. exact L1.
    + apply (stores _ _ (I_gibbs_per_link c)); [assumption | assumption | intros x Dx; apply (CE x Dx)|]. intros x y Hx Hy. destruct (L x Hx) as (_ & A & _). destruct (L y Hy) as (_ & B & _). rewrite A, B. reflexivity.
    + apply (stores _ _ (I_rel_gibbs_per_link c)); [assumption | assumption | intros x Dx; apply (CE x Dx)|]. exact L2.
    + apply (stores _ _ (I_nd_gibbs c)); [assumption | assumption | intros x Dx; apply (CD x Dx)|]. intros x y Hx Hy. destruct (L x Hx) as (_ & _ & A & _). destruct (L y Hy) as (_ & _ & B & _). rewrite A, B. reflexivity.
    + apply (stores _ _ (I_nd_rel_gibbs c)); [assumption | assumption | intros x Dx; apply (CD x Dx)|]. exact L3.
    + apply (stores _ _ (I_nd_gibbs_per_link c)); [assumption | assumption | intros x Dx; apply (CD x Dx)|]. intros x y Hx Hy. destruct (L x Hx) as (_ & _ & _ & A). destruct (L y Hy) as (_ & _ & _ & B). rewrite A, B. reflexivity.
    + apply (stores _ _ (I_nd_rel_gibbs_per_link c)); [assumption | assumption | intros x Dx; apply (CD x Dx)|]. exact L4.
Qed.

Lemma pulling_interval : interval pulling.
Proof. unfold interval, pulling. split; intros; lra. Qed.
Lemma below_interval : forall m, interval (fun x => 0 < x < m).
Proof. unfold interval. split; intros; lra. Qed.

Lemma force_pos : forall f l T, 0 < l -> 0 < T -> 0 < f * l / (kB * T) -> 0 < f.
Proof.
  intros f l T Hl HT H. pose proof kB_pos. assert (0 < kB * T) by (apply Rmult_lt_0_compat; lra).
  apply Rnot_le_lt. intro F. assert (f * l / (kB * T) <= 0); [|lra]. unfold Rdiv. assert (0 < / (kB * T)) by (apply Rinv_0_lt_compat; lra). assert (f * l <= 0) by nra. nra.
Qed.

Definition maximal_and_work D l T c h : Prop := legendre_maximal_on D l T c h /\ legendre_work_on D l T c h.

Ltac pull := apply chain_maximal; [assumption | assumption | apply pulling_interval | | | | exists 1; unfold pulling; lra].

Lemma fjc_maximal : forall N l m T, (0 < N)%Z -> 0 < l -> 0 < T ->
  maximal_and_work pulling l T (C_fjc_isotensional N l m T) (C_fjc_isotensional_legendre N l m T).
Proof.
  intros N l m T HN Hl HT. pull.
  - intros f eta Hf He. unfold pulling in *. apply force_pos in Hf; try assumption. apply PropsConjugacy.C01_fjc_isotensional_conjugate; (assumption || lra).
  - apply PropsStability.C57_fjc; assumption.
  - apply PropsIdentities.C11_fjc_legendre; assumption.
Qed.

Lemma swfjc_maximal : forall N l m T w, (0 < N)%Z -> 0 < l -> 0 < T -> 0 < w ->
  maximal_and_work pulling l T (C_swfjc_isotensional N l m T w) (C_swfjc_isotensional_legendre N l m T w).
Proof.
  intros N l m T w HN Hl HT Hw. pull.
  - intros f eta Hf He. unfold pulling in *. apply force_pos in Hf; try assumption. apply PropsConjugacy.C02_swfjc_isotensional_conjugate; (assumption || lra).
  - apply PropsStability.C57_swfjc; assumption.
  - apply PropsIdentities.C11_swfjc_legendre; assumption.
Qed.

Lemma efjc_maximal : forall N l m T k, (0 < N)%Z -> 0 < l -> 0 < T -> 0 < k ->
  maximal_and_work pulling l T (C_efjc_isotensional_asymptotic N l m T k) (C_efjc_isotensional_asymptotic_legendre N l m T k) /\
  maximal_and_work pulling l T (C_efjc_isotensional_asymptotic_alternative N l m T k) (C_efjc_isotensional_asymptotic_alternative_legendre N l m T k) /\
  maximal_and_work pulling l T (C_efjc_isotensional_asymptotic_reduced N l m T k) (C_efjc_isotensional_asymptotic_reduced_legendre N l m T k).
Proof.
  intros N l m T k HN Hl HT Hk. destruct (PropsStability.C57_efjc_asymptotic N l m T k HN Hl HT Hk) as (A1 & A2 & A3).
  destruct (PropsIdentities.C11_efjc_legendre N l m T k HN Hl HT Hk) as (B2 & B1 & B3 & _).
  split; [|split]; (pull; [|assumption|assumption]); intros f eta Hf He; unfold pulling in *; (apply force_pos in Hf; try assumption);
    destruct (PropsConjugacy.C03_efjc_asymptotic_conjugate N l m T k f eta HN Hl HT Hk ltac:(lra) ltac:(lra)) as (C1 & C2 & C3); assumption.
Qed.

Lemma morse_maximal : forall N l m T k e, (0 < N)%Z -> 0 < l -> 0 < T -> 0 < k -> 0 < e ->
  maximal_and_work pulling l T (C_morse_isotensional N l m T k e) (C_morse_isotensional_legendre N l m T k e).
Proof.
  intros N l m T k e HN Hl HT Hk He. pull.
  - intros f eta Hf Hee. unfold pulling in *. apply force_pos in Hf; try assumption. apply PropsConjugacy.C05_morse_conjugate; (assumption || lra).
  - apply PropsStability.C57_morse; assumption.
  - apply PropsIdentities.C11_morse_legendre; assumption.
Qed.

Lemma morse_asymptotic_maximal : forall N l m T k e, (0 < N)%Z -> 0 < l -> 0 < T -> 0 < k -> 0 < e ->
  let D := fun x => 0 < x < sqrt (kappa k l T * epsilon e T / 8) in
  maximal_and_work D l T (C_morse_isotensional_asymptotic N l m T k e) (C_morse_isotensional_asymptotic_legendre N l m T k e) /\
  maximal_and_work D l T (C_morse_isotensional_asymptotic_reduced N l m T k e) (C_morse_isotensional_asymptotic_reduced_legendre N l m T k e).
Proof.
  intros N l m T k e HN Hl HT Hk He D. destruct (PropsStability.C57_morse_asymptotic N l m T k e HN Hl HT Hk He) as (A1 & A2).
  destruct (PropsIdentities.C11_morse_legendre N l m T k e HN Hl HT Hk He) as (B1 & B2 & _).
  pose proof (kappa_pos k l T Hk Hl HT) as K. pose proof (epsilon_pos e T He HT) as E.
  assert (Q : 0 < sqrt (kappa k l T * epsilon e T / 8)) by (apply sqrt_lt_R0; assert (0 < kappa k l T * epsilon e T) by (apply Rmult_lt_0_compat; assumption); lra).
  assert (NE : exists x, D x) by (exists (sqrt (kappa k l T * epsilon e T / 8) / 2); unfold D; lra).
  split; (apply chain_maximal; [assumption | assumption | apply below_interval | | assumption | assumption | exact NE]);
    intros f eta (Hf & Hf') (Hee & Hee'); (apply force_pos in Hf; try assumption);
    destruct (PropsConjugacy.C06_morse_asymptotic_conjugate N l m T k e f eta HN Hl HT Hk He ltac:(lra) ltac:(lra) Hf' Hee') as (C1 & C2); assumption.
Qed.

Lemma lennard_jones_maximal : forall N l m T k, (0 < N)%Z -> 0 < l -> 0 < T -> 0 < k ->
  maximal_and_work pulling l T (C_lennard_jones_isotensional N l m T k) (C_lennard_jones_isotensional_legendre N l m T k).
Proof.
  intros N l m T k HN Hl HT Hk. pull.
  - intros f eta Hf Hee. unfold pulling in *. apply force_pos in Hf; try assumption. apply PropsConjugacy.C05_lennard_jones_conjugate; (assumption || lra).
  - apply PropsStability.C57_lennard_jones; assumption.
  - apply PropsIdentities.C11_lennard_jones_legendre; assumption.
Qed.

Lemma log_squared_maximal : forall N l m T k, (0 < N)%Z -> 0 < l -> 0 < T -> 0 < k ->
  maximal_and_work pulling l T (C_log_squared_isotensional N l m T k) (C_log_squared_isotensional_legendre N l m T k).
Proof.
  intros N l m T k HN Hl HT Hk. pull.
  - intros f eta Hf Hee. unfold pulling in *. apply force_pos in Hf; try assumption. apply PropsConjugacy.C05_log_squared_conjugate; (assumption || lra).
  - apply PropsStability.C57_log_squared; assumption.
  - apply PropsIdentities.C11_log_squared_legendre; assumption.
Qed.
