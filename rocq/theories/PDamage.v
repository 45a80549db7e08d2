(** Proofs about the constitutive models. *)
From Coq Require Import Reals ZArith List Lra Lia Bool.
From Coquelicot Require Import Coquelicot.
From Verif Require Import Scalar MConst MEfjc MConstitutive SpecDamage PQuad.
Import ListNotations.
Open Scope R_scope.

(** ** Histories *)
Section History.
Context {T : Type} {Sc : Scalar T}.
Import hyperelastic_damage.BucheSilberstein.

Definition next_max (m s : T) : T := if slt m s then s else m.
Definition run_max (m : T) (h : list T) : T := fold_left next_max h m.

Lemma history_spec : forall o l m st os, history o l m st = Some os ->
  length os = l /\ (l <= length st)%nat /\
  forall i a, nth_error os i = Some a ->
    exists s, nth_error st i = Some s /\ response o s (run_max m (firstn (S i) st)) = Some a.
Proof.
  intros o l. induction l as [|l IH]; intros m st os H.
  - cbn in H. injection H as <-. repeat split; cbn; try lia. intros i a Hi. destruct i; discriminate.
  - cbn in H. destruct st as [|s st]; [discriminate|].
    fold (next_max m s) in H.
    destruct (hyperelastic_damage.uniaxial_tension (element o) (factor o) (grid o) (normalization o) (method o)
      (nondimensional_critical_extension o) (nondimensional_link_stiffness o) (number_of_links o)
      (swelling_ratio o) s (next_max m s)) as [a0|] eqn:E; [|discriminate]. cbn in H.
    destruct (history o l (next_max m s) st) as [os'|] eqn:E'; [|discriminate]. cbn in H. injection H as <-.
    apply IH in E'. destruct E' as (L & L' & P). repeat split; cbn; try lia.
    intros i a Hi. destruct i as [|i].
    + cbn in Hi. injection Hi as <-. exists s. split; [reflexivity|]. exact E.
    + cbn in Hi. destruct (P i a Hi) as (s' & S1 & S2). exists s'. split; [exact S1|].
      cbn [firstn run_max fold_left]. exact S2.
Qed.

Lemma history_total : forall o l m st,
  (l <= length st)%nat ->
  (forall i s, (i < l)%nat -> nth_error st i = Some s -> response o s (run_max m (firstn (S i) st)) <> None) ->
  history o l m st <> None.
Proof.
  intros o l. induction l as [|l IH]; intros m st L H; cbn; [discriminate|].
  destruct st as [|s st]; [cbn in L; lia|].
  pose proof (H O s ltac:(lia) eq_refl) as H0. cbn in H0. unfold response in H0.
  fold (next_max m s).
  destruct (hyperelastic_damage.uniaxial_tension (element o) (factor o) (grid o) (normalization o) (method o)
      (nondimensional_critical_extension o) (nondimensional_link_stiffness o) (number_of_links o)
      (swelling_ratio o) s (next_max m s)) as [a0|]; [|contradiction]. cbn.
  specialize (IH (next_max m s) st ltac:(cbn in L; lia)).
  destruct (history o l (next_max m s) st); [discriminate|]. exfalso. apply IH; [|reflexivity].
  intros i s' Hi Hs. specialize (H (S i) s' ltac:(lia) Hs). exact H.
Qed.

Lemma history_prefix : forall o l l' m st st' os os',
  (l <= l')%nat -> firstn l st = firstn l st' ->
  history o l m st = Some os -> history o l' m st' = Some os' -> os = firstn l os'.
Proof.
  intros o l. induction l as [|l IH]; intros l' m st st' os os' L F H H'.
  - cbn in H. injection H as <-. reflexivity.
  - destruct l' as [|l']; [lia|]. cbn in H, H'.
    destruct st as [|s st]; [discriminate|]. destruct st' as [|s' st']; [discriminate|].
    cbn in F. injection F as -> F.
    destruct (hyperelastic_damage.uniaxial_tension (element o) (factor o) (grid o) (normalization o) (method o)
      (nondimensional_critical_extension o) (nondimensional_link_stiffness o) (number_of_links o)
      (swelling_ratio o) s' (if slt m s' then s' else m)) as [a0|]; [|discriminate]. cbn in H, H'.
    destruct (history o l (if slt m s' then s' else m) st) as [os1|] eqn:E1; [|discriminate].
    destruct (history o l' (if slt m s' then s' else m) st') as [os2|] eqn:E2; [|discriminate].
    cbn in H, H'. injection H as <-. injection H' as <-. cbn. f_equal.
    eapply IH; [|exact F|exact E1|exact E2]. lia.
Qed.
End History.

Lemma run_max_R : forall h m, (forall s, In s (m :: h) -> s <= run_max m h) /\ In (run_max m h) (m :: h).
Proof.
  induction h as [|s h IH]; intro m.
  - split; [intros x [->|[]]; cbn; lra | left; reflexivity].
  - unfold run_max. cbn [fold_left]. fold (run_max (next_max m s) h).
    destruct (IH (next_max m s)) as [A B].
    assert (N : m <= next_max m s /\ s <= next_max m s /\ (next_max m s = m \/ next_max m s = s)).
    { unfold next_max. cbn [slt R_scalar]. unfold Rltb. destruct (Rlt_dec m s); repeat split; auto; lra. }
    destruct N as (N1 & N2 & N3). split.
    + intros x [<-|[<-|Hx]].
      * eapply Rle_trans; [exact N1 | apply A; left; reflexivity].
      * eapply Rle_trans; [exact N2 | apply A; left; reflexivity].
      * apply A; right; exact Hx.
    + destruct B as [B|B]; [|right; right; exact B].
      destruct N3 as [E|E]; rewrite E in *; [left; exact B | right; left; exact B].
Qed.

Lemma running_maximum_unique : forall h m m', is_running_maximum h m -> is_running_maximum h m' -> m = m'.
Proof. intros h m m' [A B] [A' B']. apply Rle_antisym; auto. Qed.

Lemma run_max_is : forall h, is_running_maximum h (run_max (1 : R) h).
Proof. intro h. destruct (run_max_R h 1) as [A B]. split; assumption. Qed.

(** ** Method dispatch *)

Lemma damage_uniaxial_some : forall {T} {Sc : Scalar T} e f (g : list T) n me c k N w s m,
  (exists a, hyperelastic_damage.uniaxial_tension e f g n me c k N w s m = Some a) <->
  sle (sdec 1 0) s = true /\ (me = 2 \/ me = 3)%Z /\ (2 <= length g)%nat.
Proof.
  intros T Sc e f g n me c k N w s m.
  assert (S : forall ex, (exists a, hyperelastic_damage.stress_and_probability ex e g n c w s m = Some a) <-> (2 <= length g)%nat).
  { intro ex. unfold hyperelastic_damage.stress_and_probability, hyperelastic_damage.grid_step.
    destruct g as [|g0 [|g1 g]]; cbn [nth_error bind length]; split; intro H;
      try (destruct H as [a H]; discriminate); try lia. eexists; reflexivity. }
  unfold hyperelastic_damage.uniaxial_tension. destruct (sle (sdec 1 0) s).
  - destruct (Z.eq_dec me 2) as [->|N2]; [rewrite S; intuition auto|].
    destruct (Z.eq_dec me 3) as [->|N3]; [rewrite S; intuition auto|].
    split.
    + intros [a H]. destruct me as [|[[p|p|]|[p|p|]|]|p]; try discriminate; exfalso; auto.
    + intros (_ & [->| ->] & _); contradiction.
  - split; [intros [a H]; discriminate | intros (H & _); discriminate].
Qed.

Lemma init_grid_length : forall {T} {Sc : Scalar T} n (c : T), length (hyperelastic_damage.init_grid n c) = n.
Proof. intros. unfold hyperelastic_damage.init_grid. rewrite map_length, seq_length. reflexivity. Qed.

Lemma damage_init_some : forall {T} {Sc : Scalar T} n me (c k : T) N w,
  (exists o, hyperelastic_damage.BucheSilberstein.init n me c k N w = Some o) <->
  (me = 2 \/ me = 3)%Z /\ (2 <= n)%nat.
Proof.
  intros T Sc n me c k N w. unfold hyperelastic_damage.BucheSilberstein.init, hyperelastic_damage.init.
  assert (G : (exists d, hyperelastic_damage.grid_step (hyperelastic_damage.init_grid n c) = Some d) <-> (2 <= n)%nat).
  { pose proof (init_grid_length n c) as L. destruct (hyperelastic_damage.init_grid n c) as [|g0 [|g1 g]];
      cbn in L; unfold hyperelastic_damage.grid_step; cbn; split; intro H; try lia;
      try (destruct H as [d H]; discriminate). eexists; reflexivity. }
  destruct (hyperelastic_damage.grid_step (hyperelastic_damage.init_grid n c)) as [d|].
  - assert (L : (2 <= n)%nat) by (apply G; eexists; reflexivity). cbn [bind].
    destruct (Z.eq_dec me 2) as [->|N2]; [split; [intros _; auto | intros _; eexists; reflexivity]|].
    destruct (Z.eq_dec me 3) as [->|N3]; [split; [intros _; auto | intros _; eexists; reflexivity]|].
    split.
    + intros [a H]. destruct me as [|[[p|p|]|[p|p|]|]|p]; try discriminate; exfalso; auto.
    + intros ([->| ->] & _); contradiction.
  - cbn [bind]. split; [intros [o H]; discriminate|].
    intros (_ & L). apply G in L. destruct L; discriminate.
Qed.

Lemma damage_init_fields : forall {T} {Sc : Scalar T} n me (c k : T) N w o,
  hyperelastic_damage.BucheSilberstein.init n me c k N w = Some o ->
  hyperelastic_damage.BucheSilberstein.method o = me /\
  hyperelastic_damage.BucheSilberstein.nondimensional_critical_extension o = c /\
  hyperelastic_damage.BucheSilberstein.grid o = hyperelastic_damage.init_grid n c /\
  hyperelastic_damage.BucheSilberstein.swelling_ratio o = w /\ (2 <= n)%nat /\ (me = 2 \/ me = 3)%Z.
Proof.
  intros T Sc n me c k N w o H.
  assert (P : (me = 2 \/ me = 3)%Z /\ (2 <= n)%nat) by (apply (damage_init_some n me c k N w); eauto).
  unfold hyperelastic_damage.BucheSilberstein.init, hyperelastic_damage.init in H.
  destruct (hyperelastic_damage.grid_step (hyperelastic_damage.init_grid n c)) as [d|]; [|discriminate].
  cbn [bind] in H. destruct P as [[->| ->] L]; injection H as <-; cbn; auto 8.
Qed.

Lemma damage_response_some : forall {T} {Sc : Scalar T} n me (c k : T) N w o s m,
  hyperelastic_damage.BucheSilberstein.init n me c k N w = Some o ->
  ((exists a, response o s m = Some a) <-> sle (sdec 1 0) s = true).
Proof.
  intros T Sc n me c k N w o s m H. apply damage_init_fields in H. destruct H as (M & _ & G & _ & L & P).
  unfold response. rewrite damage_uniaxial_some, M, G, init_grid_length. intuition auto.
Qed.

Lemma w_grid_length : forall {T} {Sc : Scalar T} n, length (hyperelastic.w_grid n : list T) = n.
Proof. intros. unfold hyperelastic.w_grid. rewrite map_length, seq_length. reflexivity. Qed.

Lemma hyperelastic_init_some : forall {T} {Sc : Scalar T} n me (k : T) N,
  (exists o, hyperelastic.BucheSilberstein.init n me k N = Some o) <->
  (me = 2 \/ me = 3)%Z /\ (2 <= n)%nat.
Proof.
  intros T Sc n me k N. unfold hyperelastic.BucheSilberstein.init, hyperelastic.init.
  assert (G : (exists d, (hyperelastic.dw n : option T) = Some d) <-> (2 <= n)%nat).
  { pose proof (w_grid_length n (T := T)) as L. unfold hyperelastic.dw.
    destruct (hyperelastic.w_grid n) as [|g0 [|g1 g]];
      cbn in L; cbn; split; intro H; try lia;
      try (destruct H as [d H]; discriminate). eexists; reflexivity. }
  destruct (hyperelastic.dw n) as [d|].
  - assert (L : (2 <= n)%nat) by (apply G; eexists; reflexivity). cbn [bind].
    destruct (Z.eq_dec me 2) as [->|N2]; [split; [intros _; auto | intros _; eexists; reflexivity]|].
    destruct (Z.eq_dec me 3) as [->|N3]; [split; [intros _; auto | intros _; eexists; reflexivity]|].
    split.
    + intros [a H]. destruct me as [|[[p|p|]|[p|p|]|]|p]; try discriminate; exfalso; auto.
    + intros ([->| ->] & _); contradiction.
  - cbn [bind]. split; [intros [o H]; discriminate|].
    intros (_ & L). apply G in L. destruct L; discriminate.
Qed.

Lemma hyperelastic_tension_some : forall {T} {Sc : Scalar T} (o : hyperelastic.BucheSilberstein.t T) s,
  ((exists a, hyperelastic.BucheSilberstein.uniaxial_tension o s = Some a) <->
    (hyperelastic.BucheSilberstein.method o = 2 \/ hyperelastic.BucheSilberstein.method o = 3)%Z) /\
  ((exists a, hyperelastic.BucheSilberstein.equibiaxial_tension o s = Some a) <->
    (hyperelastic.BucheSilberstein.method o = 2 \/ hyperelastic.BucheSilberstein.method o = 3)%Z).
Proof.
  intros T Sc o s.
  unfold hyperelastic.BucheSilberstein.uniaxial_tension, hyperelastic.BucheSilberstein.equibiaxial_tension,
    hyperelastic.uniaxial_tension, hyperelastic.equibiaxial_tension.
  generalize (hyperelastic.BucheSilberstein.method o) as me; intro me.
  destruct (Z.eq_dec me 2) as [->|N2]; [split; split; auto; intros _; eexists; reflexivity|].
  destruct (Z.eq_dec me 3) as [->|N3]; [split; split; auto; intros _; eexists; reflexivity|].
  split; (split; [intros [a H]; destruct me as [|[[p|p|]|[p|p|]|]|p]; try discriminate; exfalso; auto
                 | intros [->| ->]; contradiction]).
Qed.

(** ** Uniaxial against equibiaxial *)

Lemma grid_sum_R : forall (f : R -> R -> R -> R) e g,
  hyperelastic.grid_sum f e g =
  Rsum (flat_map (fun '(ei, z) => map (fun '(x, r) => f x z r) (combine ei g)) (combine e g)).
Proof. intros. unfold hyperelastic.grid_sum. apply ssum_R. Qed.

Lemma inner_neg : forall (f f' : R -> R -> R -> R) z (l : list (R * R)), (forall x z r, f' x z r = - f x z r) ->
  Rsum (map (fun '(x, r) => f' x z r) l) = - Rsum (map (fun '(x, r) => f x z r) l).
Proof.
  intros f f' z l H. induction l as [|[x r] l IH]; cbn; [ring|]. rewrite IH, H. ring.
Qed.

Lemma grid_sum_neg : forall (f f' : R -> R -> R -> R) e g, (forall x z r, f' x z r = - f x z r) ->
  hyperelastic.grid_sum f' e g = - hyperelastic.grid_sum f e g.
Proof.
  intros f f' e g H. rewrite 2!grid_sum_R. generalize (combine e g) as l.
  induction l as [|[ei z] l IH]; cbn; [ring|].
  rewrite 2!Rsum_app, IH, (inner_neg f f' z _ H). ring.
Qed.

Lemma equibiaxial_uniaxial : forall o s u b, s <> 0 ->
  hyperelastic.BucheSilberstein.uniaxial_tension o (/ s ^ 2) = Some u ->
  hyperelastic.BucheSilberstein.equibiaxial_tension o s = Some b -> b = - u.
Proof.
  intros o s u b Hs.
  unfold hyperelastic.BucheSilberstein.uniaxial_tension, hyperelastic.BucheSilberstein.equibiaxial_tension,
    hyperelastic.uniaxial_tension, hyperelastic.equibiaxial_tension.
  generalize (hyperelastic.BucheSilberstein.method o) as me; intro me.
  generalize (hyperelastic.nondimensional_relative_helmholtz_free_energy (hyperelastic.BucheSilberstein.number_of_links o)
    (hyperelastic.BucheSilberstein.nondimensional_link_stiffness o)) as F; intro F.
  assert (Q : forall z r, (z * s ^ 2) ^ 2 + (r / s) ^ 2 = (z / / s ^ 2) ^ 2 + / s ^ 2 * r ^ 2).
  { intros z r. field. exact Hs. }
  destruct (Z.eq_dec me 2) as [->|N2].
  { intros U B. injection U as <-. injection B as <-.
    change (@sdiv R R_scalar) with Rdiv. unfold Rdiv. rewrite Ropp_mult_distr_l. f_equal.
    apply (grid_sum_neg (fun element_ij z_i r_j => element_ij / exp _)).
    intros x z r. change (- x / exp (F (sqrt ((z * s ^ 2) ^ 2 + (r / s) ^ 2)))
      = - (x / exp (F (sqrt ((z / / s ^ 2) ^ 2 + / s ^ 2 * r ^ 2))))). rewrite Q. unfold Rdiv. ring. }
  destruct (Z.eq_dec me 3) as [->|N3].
  { intros U B. injection U as <-. injection B as <-.
    change (@sdiv R R_scalar) with Rdiv. unfold Rdiv. rewrite Ropp_mult_distr_l. f_equal.
    apply (grid_sum_neg (fun element_ij z_i r_j => element_ij / exp _)).
    intros x z r. change (- x / exp (hyperelastic.BucheSilberstein.factor o * ((z * s ^ 2) ^ 2 + (r / s) ^ 2))
      = - (x / exp (hyperelastic.BucheSilberstein.factor o * ((z / / s ^ 2) ^ 2 + / s ^ 2 * r ^ 2)))). rewrite Q. unfold Rdiv. ring. }
  intro U. exfalso. destruct me as [|[[p|p|]|[p|p|]|]|p]; try discriminate; auto.
Qed.

(** ** Chain breaking *)

Lemma survives_R : forall c s m z r,
  hyperelastic_damage.survives c s m z r = true <-> length_at_maximum s m z r <= c.
Proof.
  intros c s m z r.
  change (hyperelastic_damage.survives c s m z r) with (Rleb (length_at_maximum s m z r) c).
  unfold Rleb. destruct (Rle_dec (length_at_maximum s m z r) c); split; auto; discriminate.
Qed.

Lemma length_at_current : forall s z r, s <> 0 -> length_at_maximum s s z r = sqrt (z ^ 2 + r ^ 2).
Proof. intros s z r H. unfold length_at_maximum. f_equal. field. exact H. Qed.

(** Along the deformation the squared length is convex in the largest stretch. *)
Lemma convex_length : forall a b C m1 m2, 0 <= a -> 0 <= b -> 1 <= m1 <= m2 ->
  a + b <= C -> a * m2 ^ 2 + b / m2 <= C -> a * m1 ^ 2 + b / m1 <= C.
Proof.
  intros a b C m1 m2 Ha Hb [H1 H2] A B.
  assert (P : 0 <= (m1 - 1) * (m2 - m1)) by (apply Rmult_le_pos; lra).
  assert (X : m1 ^ 2 <= (1 + m2) * m1 - m2) by (simpl; lra).
  assert (Y : / m1 <= (1 + m2 - m1) / m2).
  { apply Rmult_le_reg_r with (m1 * m2); [apply Rmult_lt_0_compat; lra|].
    field_simplify; [|lra|lra]. lra. }
  assert (X' : a * m1 ^ 2 <= a * ((1 + m2) * m1 - m2)) by (apply Rmult_le_compat_l; assumption).
  assert (Y' : b * / m1 <= b * ((1 + m2 - m1) / m2)) by (apply Rmult_le_compat_l; assumption).
  destruct (Req_dec m2 1) as [E|E]; [subst m2; assert (m1 = 1) by lra; subst m1; exact B|].
  set (t := (m1 - 1) / (m2 - 1)).
  assert (T0 : 0 <= t <= 1).
  { unfold t. split; [apply Rmult_le_pos; [lra | left; apply Rinv_0_lt_compat; lra]|].
    apply Rmult_le_reg_r with (m2 - 1); [lra|]. unfold Rdiv. rewrite Rmult_assoc, Rinv_l by lra. lra. }
  assert (L : a * ((1 + m2) * m1 - m2) + b * ((1 + m2 - m1) / m2)
              = (1 - t) * (a + b) + t * (a * m2 ^ 2 + b / m2)).
  { unfold t. field. lra. }
  unfold Rdiv at 1. apply Rle_trans with ((1 - t) * (a + b) + t * (a * m2 ^ 2 + b / m2)); [lra|].
  apply Rle_trans with ((1 - t) * C + t * C); [|lra].
  apply Rplus_le_compat; apply Rmult_le_compat_l; lra.
Qed.

Lemma sqrt_le_iff : forall x c, 0 <= x -> 0 <= c -> (sqrt x <= c <-> x <= c ^ 2).
Proof.
  intros x c Hx Hc. split; intro H.
  - rewrite <- (sqrt_sqrt x Hx). simpl. rewrite Rmult_1_r.
    apply Rmult_le_compat; auto using sqrt_pos.
  - rewrite <- (sqrt_pow2 c Hc). apply sqrt_le_1_alt, H.
Qed.

Lemma breaking_irreversible : forall c s m1 m2 z r, 0 <= c -> 1 <= s -> 1 <= m1 <= m2 ->
  reference_length s z r <= c ->
  c < length_at_maximum s m1 z r -> c < length_at_maximum s m2 z r.
Proof.
  intros c s m1 m2 z r Hc Hs Hm H0 H1. apply Rnot_le_lt. intro H2. apply Rlt_not_le in H1. apply H1. clear H1.
  assert (E : forall m, 1 <= m -> (z * m / s) ^ 2 + s / m * r ^ 2 = (z / s) ^ 2 * m ^ 2 + (s * r ^ 2) / m)
    by (intros m Hm'; field; lra).
  assert (A : 0 <= (z / s) ^ 2) by apply pow2_ge_0.
  assert (B : 0 <= s * r ^ 2) by (apply Rmult_le_pos; [lra | apply pow2_ge_0]).
  assert (N : forall m, 1 <= m -> 0 <= (z / s) ^ 2 * m ^ 2 + (s * r ^ 2) / m).
  { intros m Hm'. apply Rplus_le_le_0_compat.
    - apply Rmult_le_pos; [exact A | apply pow2_ge_0].
    - apply Rmult_le_pos; [exact B | left; apply Rinv_0_lt_compat; lra]. }
  unfold length_at_maximum, reference_length in *.
  rewrite E in * by lra.
  apply sqrt_le_iff; [apply N; lra | exact Hc |].
  apply sqrt_le_iff in H2; [|apply N; lra | exact Hc].
  apply sqrt_le_iff in H0; [|apply Rplus_le_le_0_compat; assumption | exact Hc].
  exact (convex_length _ _ _ m1 m2 A B Hm H0 H2).
Qed.

(** ** The surviving probability *)

Lemma grid_sum_2_R : forall (f : R -> R -> R) g,
  hyperelastic_damage.grid_sum_2 f g = Rsum (map (fun z => Rsum (map (fun r => f z r) g)) g).
Proof.
  intros f g. unfold hyperelastic_damage.grid_sum_2. rewrite ssum_R.
  generalize g at 2 4. intro l. induction l as [|z l IH]; cbn; [reflexivity|]. rewrite Rsum_app, IH. reflexivity.
Qed.

Lemma Rsum_lt : forall {A} (f g : A -> R) l, (forall a, In a l -> f a <= g a) ->
  (exists a, In a l /\ f a < g a) -> Rsum (map f l) < Rsum (map g l).
Proof.
  intros A f g l; induction l as [|b l IH]; intros H (a & Ha & L); [destruct Ha|].
  cbn. assert (f b <= g b) by (apply H; left; reflexivity).
  assert (M : Rsum (map f l) <= Rsum (map g l)) by (apply Rsum_le; intros; apply H; right; assumption).
  destruct Ha as [->|Ha]; [lra|].
  assert (Rsum (map f l) < Rsum (map g l)); [|lra].
  apply IH; [intros; apply H; right; assumption | exists a; auto].
Qed.

(** The chain at stretch one of the cell with indices i, j in 1..256. *)
Lemma cells_between : forallb (fun i => forallb (fun j => negb ((65534 <=? i * i + j * j) && (i * i + j * j <=? 65536))%Z)
    (zrange 1 257)) (zrange 1 257) = true.
Proof. vm_cast_no_check (eq_refl true). Qed.

Lemma cell_gap : forall i j, (1 <= i <= 256)%Z -> (1 <= j <= 256)%Z ->
  (i * i + j * j <= 65536)%Z -> (i * i + j * j <= 65533)%Z.
Proof.
  intros i j Hi Hj H. pose proof cells_between as C.
  rewrite forallb_forall in C. specialize (C i ltac:(apply zrange_In; lia)).
  rewrite forallb_forall in C. specialize (C j ltac:(apply zrange_In; lia)).
  apply negb_true_iff, andb_false_iff in C. destruct C as [C|C]; apply Z.leb_gt in C; lia.
Qed.

Lemma cell_survives : forall c i j m, 0 < c -> (1 <= i <= 256)%Z -> (1 <= j <= 256)%Z -> 0 < m ->
  (length_at_maximum 1 m (c * IZR i / 256) (c * IZR j / 256) <= c <->
   IZR i ^ 2 * m ^ 2 + IZR j ^ 2 / m <= 65536).
Proof.
  intros c i j m Hc Hi Hj Hm. unfold length_at_maximum.
  assert (E : (c * IZR i / 256 * m / 1) ^ 2 + 1 / m * (c * IZR j / 256) ^ 2
              = c ^ 2 * ((IZR i ^ 2 * m ^ 2 + IZR j ^ 2 / m) / 65536)) by (field; lra).
  rewrite E.
  assert (P : 0 < c ^ 2) by (apply pow_lt; exact Hc).
  assert (Q : 0 <= IZR i ^ 2 * m ^ 2 + IZR j ^ 2 / m).
  { apply Rplus_le_le_0_compat; apply Rmult_le_pos; try apply pow2_ge_0. left; apply Rinv_0_lt_compat; lra. }
  rewrite sqrt_le_iff; [|apply Rmult_le_pos; lra | lra].
  split; intro H.
  - apply Rmult_le_reg_l with (c ^ 2); [exact P|]. lra.
  - replace (c ^ 2) with (c ^ 2 * 1) at 2 by ring. apply Rmult_le_compat_l; lra.
Qed.

Definition m0 : R := 1 + 2 / 100000.

Lemma cell_still_survives : forall c i j, 0 < c -> (1 <= i <= 256)%Z -> (1 <= j <= 256)%Z ->
  length_at_maximum 1 1 (c * IZR i / 256) (c * IZR j / 256) <= c ->
  length_at_maximum 1 m0 (c * IZR i / 256) (c * IZR j / 256) <= c.
Proof.
  intros c i j Hc Hi Hj H. assert (M : 0 < m0) by (unfold m0; lra).
  apply cell_survives in H; try assumption; [|lra]. apply cell_survives; try assumption.
  assert (G : (i * i + j * j <= 65533)%Z).
  { apply cell_gap; try assumption. apply le_IZR. rewrite plus_IZR, 2!mult_IZR. lra. }
  apply IZR_le in G. rewrite plus_IZR, 2!mult_IZR in G.
  assert (I2 : IZR i ^ 2 <= 65536).
  { simpl. assert (1 <= IZR i) by (apply IZR_le; lia). assert (IZR i <= 256) by (apply IZR_le; lia). nra. }
  assert (J : IZR j ^ 2 / m0 <= IZR j ^ 2).
  { apply Rmult_le_reg_r with m0; [exact M|]. unfold Rdiv. rewrite Rmult_assoc, Rinv_l by lra.
    pose proof (pow2_ge_0 (IZR j)). unfold m0. lra. }
  assert (I3 : IZR i ^ 2 * m0 ^ 2 <= IZR i ^ 2 + 3).
  { replace (m0 ^ 2) with (1 + 4 / 100000 + 4 / 10000000000) by (unfold m0; field). lra. }
  lra.
Qed.

Lemma healing_cell : forall c, 0 < c ->
  ~ length_at_maximum 1 1 (c * IZR 1 / 256) (c * IZR 256 / 256) <= c /\
  length_at_maximum 1 m0 (c * IZR 1 / 256) (c * IZR 256 / 256) <= c.
Proof.
  intros c Hc. split.
  - intro H. apply cell_survives in H; try lia; lra.
  - assert (M : 0 < m0) by (unfold m0; lra). apply cell_survives; try lia; try lra.
    apply Rmult_le_reg_r with m0; [exact M|]. field_simplify; [|lra]. unfold m0. lra.
Qed.

Lemma probability_R : forall ex e g n c w s m (sigma p : R),
  hyperelastic_damage.stress_and_probability ex e g n c w s m = Some (sigma, p) ->
  exists dz, hyperelastic_damage.grid_step g = Some dz /\
  p = Rsum (map (fun z => Rsum (map (fun r => r / exp (ex z r) *
        (if Rle_dec (length_at_maximum s m z r) c then 1 else 0)) g)) g) / n * 4 * PI * (dz / w) ^ 2.
Proof.
  intros ex e g n c w s m sigma p H. unfold hyperelastic_damage.stress_and_probability in H.
  destruct (hyperelastic_damage.grid_step g) as [dz|] eqn:D; [|discriminate]. cbn [bind] in H.
  set (x := hyperelastic_damage.grid_sum_2 _ _) in H.
  exists dz. split; [reflexivity|].
  assert (E : x = Rsum (map (fun z => Rsum (map (fun r => r / exp (ex z r) *
        (if Rle_dec (length_at_maximum s m z r) c then 1 else 0)) g)) g)).
  { unfold x. rewrite grid_sum_2_R.
    apply Rsum_ext. intros z _. apply Rsum_ext. intros r _. cbn [smul sdiv sexp R_scalar]. f_equal.
    pose proof (survives_R c s m z r) as S. destruct (hyperelastic_damage.survives c s m z r);
      destruct (Rle_dec (length_at_maximum s m z r) c) as [L|L]; try reflexivity.
    + exfalso. apply L, S, eq_refl.
    + exfalso. apply S in L. discriminate. }
  rewrite <- E. clearbody x. clear E. injection H as _ H. rewrite <- H. reflexivity.
Qed.

Lemma sum_over_Rsum : forall {A} (l : list A) f, sum_over l f = Rsum (map f l).
Proof. intros A l f. unfold sum_over. induction l as [|a l IH]; cbn; [reflexivity|]. rewrite IH. reflexivity. Qed.

Lemma init_grid_R : forall n c, hyperelastic_damage.init_grid n c = sampled_lengths n c.
Proof.
  intros n c. unfold hyperelastic_damage.init_grid, sampled_lengths. apply map_ext. intro i.
  change (c * IZR (Z.of_nat i + 1) / IZR (Z.of_nat n) = c * INR (S i) / INR n).
  rewrite <- INR_IZR_INZ. f_equal. f_equal. rewrite INR_IZR_INZ. f_equal. lia.
Qed.

Lemma sampled_step : forall n c, (2 <= n)%nat -> hyperelastic_damage.grid_step (sampled_lengths n c) = Some (c / INR n).
Proof.
  intros n c H. destruct n as [|[|n]]; try lia. unfold sampled_lengths, hyperelastic_damage.grid_step.
  generalize (INR (S (S n))) at 1 2 3. intro q. change (seq 0 (S (S n))) with (0%nat :: 1%nat :: seq 2 n).
  cbn [map nth_error bind]. f_equal. change (c * (1 + 1) / q - c * 1 / q = c / q). unfold Rdiv. ring.
Qed.

Lemma sampled_pos : forall n c z, 0 < c -> In z (sampled_lengths n c) -> 0 < z.
Proof.
  intros n c z Hc H. unfold sampled_lengths in H. apply in_map_iff in H. destruct H as (i & <- & H).
  apply in_seq in H. assert (0 < INR n) by (apply lt_0_INR; lia).
  apply Rdiv_lt_0_compat; [|assumption]. apply Rmult_lt_0_compat; [assumption|]. apply lt_0_INR; lia.
Qed.

Lemma div_exp : forall a b, a / exp b = a * exp (- b).
Proof. intros. rewrite exp_Ropp. reflexivity. Qed.

Lemma response_probability : forall n me c k N w o s m sigma p, 0 < w ->
  hyperelastic_damage.BucheSilberstein.init n me c k N w = Some o ->
  response o s m = Some (sigma, p) ->
  p = intact_fraction n me c k N w s m.
Proof.
  intros n me c k N w o s m sigma p Hw I H.
  pose proof (damage_init_fields n me c k N w o I) as (Me & Mc & Mg & Mw & Ln & Pm).
  assert (Hs : 1 <= s).
  { assert (E : exists a, response o s m = Some a) by eauto.
    apply (proj1 (damage_response_some n me c k N w o s m I)) in E.
    change (Rleb 1 s = true) in E. unfold Rleb in E. destruct (Rle_dec 1 s); [assumption | discriminate]. }
  assert (Q : forall z r, 0 <= (z / s) ^ 2 + s * r ^ 2).
  { intros z r. apply Rplus_le_le_0_compat; [apply pow2_ge_0|].
    apply Rmult_le_pos; [lra | apply pow2_ge_0]. }
  unfold hyperelastic_damage.BucheSilberstein.init, hyperelastic_damage.init in I.
  rewrite init_grid_R in *. rewrite (sampled_step n c Ln) in I. cbn [bind] in I.
  set (g := sampled_lengths n c) in *.
  assert (J : 0 < Rpower w (1 / 3)) by apply exp_pos.
  assert (Num : forall (E ex : R -> R -> R), (forall z r, ex z r = E z r) ->
    sum_over g (fun z => sum_over g (fun r => if Rle_dec (length_at_maximum s m z r) c
      then 4 * PI * r * exp (- E z r) * (c / INR n / w) ^ 2 else 0))
    = Rsum (map (fun z => Rsum (map (fun r => r / exp (ex z r) *
        (if Rle_dec (length_at_maximum s m z r) c then 1 else 0)) g)) g) * (4 * PI * (c / INR n / w) ^ 2)).
  { intros E ex X. rewrite sum_over_Rsum, (Rmult_comm (Rsum _)), <- Rsum_scal. apply Rsum_ext. intros z _.
    rewrite sum_over_Rsum, <- Rsum_scal. apply Rsum_ext. intros r _.
    rewrite X, div_exp. destruct (Rle_dec (length_at_maximum s m z r) c); ring. }
  assert (Den : forall (E ex : R -> R), (forall z, ex z = E z) ->
    sum_over g (fun z => 4 * PI * z ^ 2 * exp (- E z) * (c / INR n) / w)
    = Rsum (map (fun z => z ^ 2 / exp (ex z)) g) * 4 * PI * (c / INR n) / w).
  { intros E ex X. rewrite sum_over_Rsum.
    replace (Rsum (map (fun z => z ^ 2 / exp (ex z)) g) * 4 * PI * (c / INR n) / w)
      with (4 * PI * (c / INR n) / w * Rsum (map (fun z => z ^ 2 / exp (ex z)) g)) by (unfold Rdiv; ring).
    rewrite <- Rsum_scal. apply Rsum_ext. intros z _. rewrite X, div_exp. unfold Rdiv. ring. }
  unfold intact_fraction. fold g. cbv zeta.
  destruct Pm as [-> | ->]; injection I as <-; unfold response, hyperelastic_damage.uniaxial_tension in H;
    cbn [hyperelastic_damage.BucheSilberstein.element hyperelastic_damage.BucheSilberstein.factor
         hyperelastic_damage.BucheSilberstein.grid hyperelastic_damage.BucheSilberstein.method
         hyperelastic_damage.BucheSilberstein.normalization
         hyperelastic_damage.BucheSilberstein.nondimensional_critical_extension
         hyperelastic_damage.BucheSilberstein.nondimensional_link_stiffness
         hyperelastic_damage.BucheSilberstein.number_of_links
         hyperelastic_damage.BucheSilberstein.swelling_ratio] in H;
    (destruct (sle (sdec 1 0) s); [|discriminate]);
    apply probability_R in H; destruct H as (dz & D & ->); unfold g in D; rewrite (sampled_step n c Ln) in D; injection D as <-.
  - rewrite (Num _ (hyperelastic_damage.exponent_2 k N s)) by reflexivity.
    rewrite (Den _ (hyperelastic_damage.nondimensional_relative_helmholtz_free_energy N k)) by reflexivity.
    rewrite ssum_R.
    generalize (Rsum (map (fun z : R => Rsum (map (fun r : R => r / exp (hyperelastic_damage.exponent_2 k N s z r) *
      (if Rle_dec (length_at_maximum s m z r) c then 1 else 0)) g)) g)). intro x.
    set (y := Rsum (map (fun z : R => z ^ 2 / exp _) g)).
    change (x / (y * 4 * PI * (c / INR n) / w) * 4 * PI * (c / INR n / w) ^ 2
            = x * (4 * PI * (c / INR n / w) ^ 2) / (y * 4 * PI * (c / INR n) / w)).
    unfold Rdiv. ring.
  - set (fac := hyperelastic_damage.gaussian_factor k N).
    rewrite (Num _ (hyperelastic_damage.exponent_3 fac (spowf w (sdec 1 0 / sdec 3 0)%S) s)).
    2:{ intros z r. unfold chain_energy, reference_length. cbn [Z.eqb Pos.eqb].
        change (fac * ((z / s) ^ 2 + s * r ^ 2) / Rpowf w (1 / 3) ^ 2
          = 3 / 2 * IZR N * k * (k + 1) / (k ^ 2 + 6 * k + 3) * sqrt ((z / s) ^ 2 + s * r ^ 2) ^ 2 / Rpower w (1 / 3) ^ 2).
        rewrite pow2_sqrt by apply Q. unfold Rpowf. destruct (Rlt_dec 0 w); [|contradiction]. f_equal. f_equal.
        change (15 / 10 * IZR N * k * (k + 1) / (k ^ 2 + 6 * k + 3) = 3 / 2 * IZR N * k * (k + 1) / (k ^ 2 + 6 * k + 3)).
        replace (3 / 2) with (15 / 10) by field. reflexivity. }
    rewrite (Den _ (fun z => fac * z ^ 2)).
    2:{ intro z. unfold chain_energy. cbn [Z.eqb Pos.eqb].
        change (IZR 15 / 10 * IZR N * k * (k + 1) / (k ^ 2 + 6 * k + 3) * z ^ 2
         = 3 / 2 * IZR N * k * (k + 1) / (k ^ 2 + 6 * k + 3) * z ^ 2 / 1 ^ 2).
        replace (3 / 2) with (15 / 10) by field. unfold Rdiv. rewrite pow1, Rinv_1. ring. }
    rewrite ssum_R.
    set (x := Rsum (map (fun z : R => Rsum (map (fun r : R => r / exp (hyperelastic_damage.exponent_3 fac (spowf w (sdec 1 0 / sdec 3 0)%S) s z r) *
      (if Rle_dec (length_at_maximum s m z r) c then 1 else 0)) g)) g)).
    set (y := Rsum (map (fun z : R => z ^ 2 / exp _) g)).
    change (x / (y * 4 * PI * (c / INR n) / w) * 4 * PI * (c / INR n / w) ^ 2
            = x * (4 * PI * (c / INR n / w) ^ 2) / (y * 4 * PI * (c / INR n) / w)).
    unfold Rdiv. ring.
Qed.

Lemma sum_over_le : forall {A} (l : list A) f g, (forall a, In a l -> f a <= g a) -> sum_over l f <= sum_over l g.
Proof. intros. rewrite 2!sum_over_Rsum. apply Rsum_le. assumption. Qed.

Lemma sum_over_nonneg : forall {A} (l : list A) f, (forall a, In a l -> 0 <= f a) -> 0 <= sum_over l f.
Proof.
  intros A l f H. rewrite sum_over_Rsum. induction l as [|a l IH]; cbn; [lra|].
  apply Rplus_le_le_0_compat; [apply H; left; reflexivity | apply IH; intros; apply H; right; assumption].
Qed.

Lemma sum_over_lt : forall {A} (l : list A) f g a, (forall a, In a l -> f a <= g a) -> In a l -> f a < g a ->
  sum_over l f < sum_over l g.
Proof. intros. rewrite 2!sum_over_Rsum. apply Rsum_lt; eauto. Qed.

Lemma undeformed_weight_pos : forall n me c k N w, (2 <= n)%nat -> 0 < c -> 0 < w ->
  0 < sum_over (sampled_lengths n c) (fun gamma =>
      4 * PI * gamma ^ 2 * exp (- chain_energy me k N 1 gamma) * (c / INR n) / w).
Proof.
  intros n me c k N w Hn Hc Hw. rewrite sum_over_Rsum. apply Rsum_pos.
  - unfold sampled_lengths. destruct n; [lia|]. discriminate.
  - intros z Hz. apply sampled_pos in Hz; [|exact Hc]. pose proof PI_RGT_0.
    assert (0 < INR n) by (apply lt_0_INR; lia).
    assert (0 < z ^ 2) by (apply pow_lt; exact Hz).
    assert (0 < c / INR n) by (apply Rdiv_lt_0_compat; assumption).
    apply Rdiv_lt_0_compat; [|exact Hw].
    apply Rmult_lt_0_compat; [apply Rmult_lt_0_compat; [apply Rmult_lt_0_compat; [lra|]|apply exp_pos]|]; assumption.
Qed.

Lemma cell_weight_pos : forall n me c k N w s r E, (2 <= n)%nat -> 0 < c -> 0 < w -> 0 < r ->
  0 < 4 * PI * r * exp (- chain_energy me k N s E) * (c / INR n / w) ^ 2.
Proof.
  intros n me c k N w s r E Hn Hc Hw Hr. pose proof PI_RGT_0.
  assert (0 < INR n) by (apply lt_0_INR; lia).
  apply Rmult_lt_0_compat; [apply Rmult_lt_0_compat; [apply Rmult_lt_0_compat; lra|apply exp_pos]|].
  apply pow_lt. apply Rdiv_lt_0_compat; [apply Rdiv_lt_0_compat|]; assumption.
Qed.

Lemma intact_fraction_nonneg : forall n me c k N w s m, (2 <= n)%nat -> 0 < c -> 0 < w ->
  0 <= intact_fraction n me c k N w s m.
Proof.
  intros n me c k N w s m Hn Hc Hw. unfold intact_fraction. cbv zeta.
  apply Rmult_le_pos; [|left; apply Rinv_0_lt_compat, undeformed_weight_pos; assumption].
  apply sum_over_nonneg. intros z Hz. apply sum_over_nonneg. intros r Hr. apply sampled_pos in Hr; [|exact Hc].
  destruct (Rle_dec (length_at_maximum s m z r) c); [|lra]. left. apply cell_weight_pos; assumption.
Qed.

Lemma intact_fraction_mono : forall n me c k N w s m m', (2 <= n)%nat -> 0 < c -> 0 < w ->
  (forall z r, In z (sampled_lengths n c) -> In r (sampled_lengths n c) ->
    length_at_maximum s m z r <= c -> length_at_maximum s m' z r <= c) ->
  intact_fraction n me c k N w s m <= intact_fraction n me c k N w s m' /\
  ((exists z r, In z (sampled_lengths n c) /\ In r (sampled_lengths n c) /\
     ~ length_at_maximum s m z r <= c /\ length_at_maximum s m' z r <= c) ->
   intact_fraction n me c k N w s m < intact_fraction n me c k N w s m').
Proof.
  intros n me c k N w s m m' Hn Hc Hw H.
  assert (L : forall z r, In z (sampled_lengths n c) -> In r (sampled_lengths n c) ->
   (if Rle_dec (length_at_maximum s m z r) c
    then 4 * PI * r * exp (- chain_energy me k N (Rpower w (1 / 3)) (reference_length s z r)) * (c / INR n / w) ^ 2
    else 0) <=
   (if Rle_dec (length_at_maximum s m' z r) c
    then 4 * PI * r * exp (- chain_energy me k N (Rpower w (1 / 3)) (reference_length s z r)) * (c / INR n / w) ^ 2
    else 0)).
  { intros z r Hz Hr. destruct (Rle_dec (length_at_maximum s m z r) c) as [A|A].
    - apply H in A; try assumption. destruct (Rle_dec (length_at_maximum s m' z r) c); [lra | contradiction].
    - destruct (Rle_dec (length_at_maximum s m' z r) c); [|lra]. left. apply sampled_pos in Hr; [|assumption].
      apply cell_weight_pos; assumption. }
  unfold intact_fraction. cbv zeta. split.
  - apply Rmult_le_compat_r; [left; apply Rinv_0_lt_compat, undeformed_weight_pos; assumption|].
    apply sum_over_le. intros z Hz. apply sum_over_le. intros r Hr. apply L; assumption.
  - intros (z & r & Hz & Hr & A & B).
    apply Rmult_lt_compat_r; [apply Rinv_0_lt_compat, undeformed_weight_pos; assumption|].
    apply sum_over_lt with z; [|exact Hz|].
    + intros z' Hz'. apply sum_over_le. intros r' Hr'. apply L; assumption.
    + apply sum_over_lt with r; [|exact Hr|].
      * intros r' Hr'. apply L; assumption.
      * destruct (Rle_dec (length_at_maximum s m z r) c); [contradiction|].
        destruct (Rle_dec (length_at_maximum s m' z r) c); [|contradiction].
        apply sampled_pos in Hr; [|assumption]. apply cell_weight_pos; assumption.
Qed.

Lemma sampled_In_256 : forall c z, In z (sampled_lengths 256 c) <-> exists i, (1 <= i <= 256)%Z /\ z = c * IZR i / 256.
Proof.
  intros c z. unfold sampled_lengths. rewrite in_map_iff. rewrite (INR_IZR_INZ 256).
  change (Z.of_nat 256) with 256%Z. split.
  - intros (i & <- & H). apply in_seq in H. exists (Z.of_nat (S i)). split; [lia|]. rewrite INR_IZR_INZ. reflexivity.
  - intros (i & H & ->). exists (Z.to_nat (i - 1)). split.
    + rewrite INR_IZR_INZ. do 3 f_equal. lia.
    + apply in_seq. split; [apply Nat.le_0_l|]. apply Nat2Z.inj_lt. rewrite Z2Nat.id by lia.
      change (Z.of_nat (0 + 256)) with 256%Z. lia.
Qed.

Lemma healing : forall me c k N w, 0 < c -> 0 < w ->
  intact_fraction 256 me c k N w 1 1 < intact_fraction 256 me c k N w 1 m0.
Proof.
  intros me c k N w Hc Hw.
  apply intact_fraction_mono; try assumption; [apply Nat2Z.inj_le; change (2 <= 256)%Z; lia | |].
  - intros z r Hz Hr. apply sampled_In_256 in Hz, Hr. destruct Hz as (i & Hi & ->), Hr as (j & Hj & ->).
    apply cell_still_survives; assumption.
  - exists (c * IZR 1 / 256), (c * IZR 256 / 256). destruct (healing_cell c Hc) as [A B].
    repeat split; try assumption; apply sampled_In_256; eexists; (split; [|reflexivity]); lia.
Qed.

Lemma history_1 : forall {T} {Sc : Scalar T} (o : hyperelastic_damage.BucheSilberstein.t T) s a,
  response o s (next_max (sdec 1 0) s) = Some a -> hyperelastic_damage.BucheSilberstein.uniaxial_tension o 1 [s] = Some [a].
Proof.
  intros T Sc o s a H. unfold hyperelastic_damage.BucheSilberstein.uniaxial_tension.
  cbn. unfold response, next_max in H. rewrite H. reflexivity.
Qed.

Lemma history_2 : forall {T} {Sc : Scalar T} (o : hyperelastic_damage.BucheSilberstein.t T) s s' a a',
  response o s (next_max (sdec 1 0) s) = Some a ->
  response o s' (next_max (next_max (sdec 1 0) s) s') = Some a' ->
  hyperelastic_damage.BucheSilberstein.uniaxial_tension o 2 [s; s'] = Some [a; a'].
Proof.
  intros T Sc o s s' a a' H H'. unfold hyperelastic_damage.BucheSilberstein.uniaxial_tension.
  cbn. unfold response, next_max in H, H'. rewrite H. cbn. rewrite H'. reflexivity.
Qed.

Lemma next_max_R : forall a b : R, next_max a b = Rmax a b.
Proof.
  intros a b. unfold next_max. change (slt a b) with (Rltb a b). unfold Rltb.
  destruct (Rlt_dec a b); [rewrite Rmax_right by lra | rewrite Rmax_left by lra]; reflexivity.
Qed.

Lemma response_exists : forall n me c k N w o (s m : R), 1 <= s ->
  hyperelastic_damage.BucheSilberstein.init n me c k N w = Some o -> exists a, response o s m = Some a.
Proof.
  intros n me c k N w o s m Hs I. apply (damage_response_some n me c k N w o s m I).
  change (Rleb 1 s = true). unfold Rleb. destruct (Rle_dec 1 s); [reflexivity | contradiction].
Qed.

Lemma healing_history : forall me c k N w, (me = 2 \/ me = 3)%Z -> 0 < c -> 0 < w ->
  exists o s1 p1 q s2 p2,
    hyperelastic_damage.BucheSilberstein.init hyperelastic_damage.NUMGRID me c k N w = Some o /\
    hyperelastic_damage.BucheSilberstein.uniaxial_tension o 1 [1] = Some [(s1, p1)] /\
    hyperelastic_damage.BucheSilberstein.uniaxial_tension o 2 [m0; 1] = Some [q; (s2, p2)] /\ p1 < p2.
Proof.
  intros me c k N w Hm Hc Hw. assert (M : 1 < m0) by (unfold m0; lra).
  destruct (proj2 (damage_init_some hyperelastic_damage.NUMGRID me c k N w)) as [o I].
  { split; [exact Hm|]. apply Nat2Z.inj_le. change (2 <= 256)%Z. lia. }
  destruct (response_exists _ me c k N w o 1 1 ltac:(lra) I) as [[s1 p1] R1].
  destruct (response_exists _ me c k N w o m0 m0 ltac:(lra) I) as [q Rq].
  destruct (response_exists _ me c k N w o 1 m0 ltac:(lra) I) as [[s2 p2] R2].
  exists o, s1, p1, q, s2, p2. split; [exact I|]. split; [|split].
  - apply history_1. rewrite next_max_R. change (Rmax (sdec 1 0) 1) with (Rmax 1 1). rewrite Rmax_left by lra. exact R1.
  - assert (E : next_max (sdec 1 0 : R) m0 = m0)
      by (rewrite next_max_R; change (Rmax (sdec 1 0) m0) with (Rmax 1 m0); apply Rmax_right; lra).
    apply history_2; rewrite E; [exact Rq|]. rewrite next_max_R, Rmax_left by lra. exact R2.
  - rewrite (response_probability _ _ _ _ _ _ _ _ _ _ _ Hw I R1), (response_probability _ _ _ _ _ _ _ _ _ _ _ Hw I R2).
    apply healing; assumption.
Qed.

(** A larger critical extension at a fixed grid. *)
Lemma probability_mono : forall e f g n me c c' k N w s m sg p sg' p', 0 < n -> (forall z, In z g -> 0 <= z) ->
  c <= c' ->
  hyperelastic_damage.uniaxial_tension e f g n me c k N w s m = Some (sg, p) ->
  hyperelastic_damage.uniaxial_tension e f g n me c' k N w s m = Some (sg', p') ->
  0 <= p <= p'.
Proof.
  intros e f g n me c c' k N w s m sg p sg' p' Hn Hg Hc.
  assert (S : forall ex, hyperelastic_damage.stress_and_probability ex e g n c w s m = Some (sg, p) ->
    hyperelastic_damage.stress_and_probability ex e g n c' w s m = Some (sg', p') -> 0 <= p <= p').
  { intros ex A B. apply probability_R in A, B. destruct A as (dz & D & ->), B as (dz' & D' & ->).
    rewrite D in D'. injection D' as <-.
    assert (K : 0 <= / n * 4 * PI * (dz / w) ^ 2).
    { pose proof PI_RGT_0. assert (0 < / n) by (apply Rinv_0_lt_compat; exact Hn).
      apply Rmult_le_pos; [apply Rmult_le_pos; lra | apply pow2_ge_0]. }
    rewrite <- !sum_over_Rsum.
    assert (X : 0 <= sum_over g (fun z => Rsum (map (fun r => r / exp (ex z r) *
        (if Rle_dec (length_at_maximum s m z r) c then 1 else 0)) g))
      <= sum_over g (fun z => Rsum (map (fun r => r / exp (ex z r) *
        (if Rle_dec (length_at_maximum s m z r) c' then 1 else 0)) g))).
    { assert (W : forall z r, In r g -> 0 <= r / exp (ex z r)).
      { intros z r Hr. apply Rmult_le_pos; [apply Hg, Hr | left; apply Rinv_0_lt_compat, exp_pos]. }
      split.
      - apply sum_over_nonneg. intros z Hz. rewrite <- sum_over_Rsum. apply sum_over_nonneg. intros r Hr.
        apply Rmult_le_pos; [apply W, Hr|]. destruct (Rle_dec (length_at_maximum s m z r) c); lra.
      - apply sum_over_le. intros z Hz. rewrite <- !sum_over_Rsum. apply sum_over_le. intros r Hr.
        apply Rmult_le_compat_l; [apply W, Hr|].
        destruct (Rle_dec (length_at_maximum s m z r) c); destruct (Rle_dec (length_at_maximum s m z r) c'); lra. }
    revert X. generalize (sum_over g (fun z => Rsum (map (fun r => r / exp (ex z r) *
        (if Rle_dec (length_at_maximum s m z r) c then 1 else 0)) g))).
    generalize (sum_over g (fun z => Rsum (map (fun r => r / exp (ex z r) *
        (if Rle_dec (length_at_maximum s m z r) c' then 1 else 0)) g))).
    intros x' x [X1 X2]. unfold Rdiv in *.
    assert (Q : forall y, y * / n * 4 * PI * (dz * / w) ^ 2 = y * (/ n * 4 * PI * (dz * / w) ^ 2)) by (intro; ring).
    rewrite !Q. split; [apply Rmult_le_pos | apply Rmult_le_compat_r]; assumption. }
  unfold hyperelastic_damage.uniaxial_tension.
  destruct (sle (sdec 1 0) s); [|discriminate].
  destruct me as [|[[q|q|]|[q|q|]|]|q]; try discriminate; apply S.
Qed.

(** ** Statements for the property file *)
Import hyperelastic_damage.

Lemma history_accepts : forall n me c k N w o l (h : list R), BucheSilberstein.init n me c k N w = Some o ->
  ((exists os, BucheSilberstein.uniaxial_tension o l h = Some os) <->
   (l <= length h)%nat /\ forall s, In s (firstn l h) -> 1 <= s).
Proof.
  intros n me c k N w o l h I. unfold BucheSilberstein.uniaxial_tension. split.
  - intros [os H]. apply history_spec in H. destruct H as (Lo & Lh & H). split; [exact Lh|].
    intros s Hs. apply In_nth_error in Hs. destruct Hs as [i Hi].
    assert (Li : (i < l)%nat).
    { assert (i < length (firstn l h))%nat by (apply nth_error_Some; congruence). rewrite firstn_length in *. lia. }
    assert (Hi' : nth_error h i = Some s).
    { rewrite <- Hi. symmetry. rewrite <- (firstn_skipn l h) at 2. symmetry. apply nth_error_app1.
      rewrite firstn_length. lia. }
    destruct (nth_error os i) as [a|] eqn:E; [|apply nth_error_None in E; lia].
    destruct (H i a E) as (s' & S1 & S2). rewrite Hi' in S1. injection S1 as <-.
    assert (X : exists a, response o s (run_max (sdec 1 0) (firstn (S i) h)) = Some a) by eauto.
    apply (damage_response_some n me c k N w o _ _ I) in X. change (Rleb 1 s = true) in X. unfold Rleb in X.
    destruct (Rle_dec 1 s); [assumption | discriminate].
  - intros [Lh H].
    assert (T : BucheSilberstein.history o l (sdec 1 0) h <> None).
    { apply history_total; [exact Lh|]. intros i s Hi Hs.
      assert (A : 1 <= s).
      { apply H. apply nth_error_In with i. rewrite <- Hs. rewrite <- (firstn_skipn l h) at 2.
        symmetry. apply nth_error_app1. rewrite firstn_length. lia. }
      destruct (response_exists n me c k N w o s (run_max (sdec 1 0) (firstn (S i) h)) A I) as [a E]. congruence. }
    destruct (BucheSilberstein.history o l (sdec 1 0) h) as [os|]; [eauto | contradiction].
Qed.

Lemma history_outputs : forall (o : BucheSilberstein.t R) l h os,
  BucheSilberstein.uniaxial_tension o l h = Some os ->
  length os = l /\
  forall i a, nth_error os i = Some a ->
    exists s m, nth_error h i = Some s /\ is_running_maximum (firstn (S i) h) m /\ response o s m = Some a.
Proof.
  intros o l h os H. apply history_spec in H. destruct H as (Lo & Lh & H). split; [exact Lo|].
  intros i a E. destruct (H i a E) as (s & S1 & S2).
  exists s, (run_max 1 (firstn (S i) h)). split; [exact S1|]. split; [apply run_max_is | exact S2].
Qed.

Lemma history_only_maximum : forall (o : BucheSilberstein.t R) l l' h h' os os' i i' s m a a',
  BucheSilberstein.uniaxial_tension o l h = Some os -> BucheSilberstein.uniaxial_tension o l' h' = Some os' ->
  nth_error h i = Some s -> nth_error h' i' = Some s ->
  is_running_maximum (firstn (S i) h) m -> is_running_maximum (firstn (S i') h') m ->
  nth_error os i = Some a -> nth_error os' i' = Some a' -> a = a'.
Proof.
  intros o l l' h h' os os' i i' s m a a' H H' S S' M M' A A'.
  apply history_outputs in H, H'. destruct H as [_ H], H' as [_ H'].
  destruct (H i a A) as (s1 & m1 & E1 & X1 & R1). destruct (H' i' a' A') as (s2 & m2 & E2 & X2 & R2).
  rewrite S in E1. injection E1 as <-. rewrite S' in E2. injection E2 as <-.
  rewrite (running_maximum_unique _ _ _ X1 M) in R1. rewrite (running_maximum_unique _ _ _ X2 M') in R2. congruence.
Qed.

Lemma undamaged : forall n me c k N w s, s <> 0 ->
  intact_fraction n me c k N w s s = undamaged_fraction n me c k N w s.
Proof.
  intros n me c k N w s Hs. unfold intact_fraction, undamaged_fraction. cbv zeta. f_equal.
  rewrite !sum_over_Rsum. apply Rsum_ext. intros z _. rewrite !sum_over_Rsum. apply Rsum_ext. intros r _.
  rewrite (length_at_current s z r Hs). reflexivity.
Qed.

Lemma largest_so_far : forall h i (s : R), nth_error h i = Some s -> 1 <= s ->
  (forall s', In s' (firstn (S i) h) -> s' <= s) -> is_running_maximum (firstn (S i) h) s.
Proof.
  intros h i s Hi Hs H. split.
  - right. apply nth_error_In with i. rewrite <- Hi. rewrite <- (firstn_skipn (S i) h) at 2. symmetry.
    apply nth_error_app1. rewrite firstn_length. assert (i < length h)%nat by (apply nth_error_Some; congruence). lia.
  - intros s' [<-|H']; auto.
Qed.

Lemma undamaged_history : forall n me c k N w o l h os i s sigma p, 0 < w ->
  BucheSilberstein.init n me c k N w = Some o -> BucheSilberstein.uniaxial_tension o l h = Some os ->
  nth_error h i = Some s -> (forall s', In s' (firstn (S i) h) -> s' <= s) ->
  nth_error os i = Some (sigma, p) -> p = undamaged_fraction n me c k N w s.
Proof.
  intros n me c k N w o l h os i s sigma p Hw I H Hi Hmax Ho.
  assert (Hs : 1 <= s).
  { assert (X : exists os, BucheSilberstein.uniaxial_tension o l h = Some os) by eauto.
    apply (history_accepts n me c k N w o l h I) in X. destruct X as [Lh X]. apply X.
    pose proof (history_outputs o l h os H) as [Lo _].
    assert (i < l)%nat by (rewrite <- Lo; apply nth_error_Some; congruence).
    apply nth_error_In with i. rewrite <- Hi. rewrite <- (firstn_skipn l h) at 2. symmetry.
    apply nth_error_app1. rewrite firstn_length. lia. }
  apply history_outputs in H. destruct H as [_ H]. destruct (H i _ Ho) as (s' & m & E & M & R).
  rewrite Hi in E. injection E as <-.
  rewrite (running_maximum_unique _ _ _ M (largest_so_far h i s Hi Hs Hmax)) in R.
  rewrite (response_probability n me c k N w o s s sigma p Hw I R). apply undamaged. lra.
Qed.

Lemma intact_history : forall n me c k N w o l h os i s m sigma p, 0 < w ->
  BucheSilberstein.init n me c k N w = Some o -> BucheSilberstein.uniaxial_tension o l h = Some os ->
  nth_error h i = Some s -> is_running_maximum (firstn (S i) h) m ->
  nth_error os i = Some (sigma, p) -> p = intact_fraction n me c k N w s m.
Proof.
  intros n me c k N w o l h os i s m sigma p Hw I H Hi Hmax Ho.
  apply history_outputs in H. destruct H as [_ H]. destruct (H i _ Ho) as (s' & m' & E & M & R).
  rewrite Hi in E. injection E as <-. rewrite (running_maximum_unique _ _ _ M Hmax) in R.
  exact (response_probability n me c k N w o s m sigma p Hw I R).
Qed.

Lemma nonnegative_history : forall n me c k N w o l h os sigma p, 0 < c -> 0 < w ->
  BucheSilberstein.init n me c k N w = Some o -> BucheSilberstein.uniaxial_tension o l h = Some os ->
  In (sigma, p) os -> 0 <= p.
Proof.
  intros n me c k N w o l h os sigma p Hc Hw I H Hp. apply In_nth_error in Hp. destruct Hp as [i Hi].
  pose proof (damage_init_fields n me c k N w o I) as (_ & _ & _ & _ & Ln & _).
  apply history_outputs in H. destruct H as [_ H]. destruct (H i _ Hi) as (s & m & E & M & R).
  rewrite (response_probability n me c k N w o s m sigma p Hw I R). apply intact_fraction_nonneg; assumption.
Qed.

(** *** Linearity in the element table *)
Lemma grid_sum_table : forall (F : R -> R -> R) (W : R -> R -> R) (f : R -> R -> R -> R) g,
  (forall x z r, f x z r = x * W z r) ->
  hyperelastic.grid_sum f (table F g) g = sum_over g (fun z => sum_over g (fun r => F z r * W z r)).
Proof.
  intros F W f g Hf. rewrite grid_sum_R. unfold table. rewrite sum_over_Rsum.
  assert (A : forall (z : R) (h : list R), map (fun '(x, r) => f x z r) (combine (map (fun r => F z r) h) h)
              = map (fun r => F z r * W z r) h).
  { intros z h. induction h as [|r h IH]; cbn; [reflexivity|]. rewrite IH, Hf. reflexivity. }
  assert (B : forall h, Rsum (flat_map (fun '(ei, z) => map (fun '(x, r) => f x z r) (combine ei g))
      (combine (map (fun z => map (fun r => F z r) g) h) h))
      = Rsum (map (fun z => sum_over g (fun r => F z r * W z r)) h)).
  { induction h as [|z h IH]; cbn; [reflexivity|]. rewrite Rsum_app, IH, A, sum_over_Rsum. reflexivity. }
  apply B.
Qed.

Lemma tension_table : forall fa g n me k N s, (me = 2 \/ me = 3)%Z -> exists W V,
  forall F, hyperelastic.uniaxial_tension (table F g) fa g n me k N s
     = Some (sum_over g (fun z => sum_over g (fun r => F z r * W z r)) / n) /\
   hyperelastic.equibiaxial_tension (table F g) fa g n me k N s
     = Some (sum_over g (fun z => sum_over g (fun r => F z r * V z r)) / n).
Proof.
  intros fa g n me k N s [-> | ->].
  - exists (fun z r => / exp (hyperelastic.nondimensional_relative_helmholtz_free_energy N k (sqrt ((z / s) ^ 2 + s * r ^ 2)))),
     (fun z r => - / exp (hyperelastic.nondimensional_relative_helmholtz_free_energy N k (sqrt ((z * s ^ 2) ^ 2 + (r / s) ^ 2)))).
    intro F. split; unfold hyperelastic.uniaxial_tension, hyperelastic.equibiaxial_tension; f_equal.
    + change (@sdiv R R_scalar) with Rdiv. f_equal. apply grid_sum_table. intros x z r. reflexivity.
    + change (@sdiv R R_scalar) with Rdiv. f_equal. apply grid_sum_table. intros x z r.
      change (- x / exp (hyperelastic.nondimensional_relative_helmholtz_free_energy N k (sqrt ((z * s ^ 2) ^ 2 + (r / s) ^ 2)))
        = x * - / exp (hyperelastic.nondimensional_relative_helmholtz_free_energy N k (sqrt ((z * s ^ 2) ^ 2 + (r / s) ^ 2)))).
      unfold Rdiv. ring.
  - exists (fun z r => / exp (fa * ((z / s) ^ 2 + s * r ^ 2))), (fun z r => - / exp (fa * ((z * s ^ 2) ^ 2 + (r / s) ^ 2))).
    intro F. split; unfold hyperelastic.uniaxial_tension, hyperelastic.equibiaxial_tension; f_equal.
    + change (@sdiv R R_scalar) with Rdiv. f_equal. apply grid_sum_table. intros x z r. reflexivity.
    + change (@sdiv R R_scalar) with Rdiv. f_equal. apply grid_sum_table. intros x z r.
      change (- x / exp (fa * ((z * s ^ 2) ^ 2 + (r / s) ^ 2)) = x * - / exp (fa * ((z * s ^ 2) ^ 2 + (r / s) ^ 2))).
      unfold Rdiv. ring.
Qed.

Lemma sum_over_linear : forall {A} (l : list A) a b f g,
  sum_over l (fun x => a * f x + b * g x) = a * sum_over l f + b * sum_over l g.
Proof. intros A l a b f g. rewrite !sum_over_Rsum, <- 2!Rsum_scal, <- Rsum_plus. reflexivity. Qed.

Lemma sum_over_ext : forall {A} (l : list A) f g, (forall x, f x = g x) -> sum_over l f = sum_over l g.
Proof. intros. rewrite !sum_over_Rsum. apply Rsum_ext. auto. Qed.

Lemma double_linear : forall g a b (F G W : R -> R -> R) n,
  sum_over g (fun z => sum_over g (fun r => (a * F z r + b * G z r) * W z r)) / n
  = a * (sum_over g (fun z => sum_over g (fun r => F z r * W z r)) / n)
    + b * (sum_over g (fun z => sum_over g (fun r => G z r * W z r)) / n).
Proof.
  intros. rewrite (sum_over_ext g _ (fun z => a * sum_over g (fun r => F z r * W z r) + b * sum_over g (fun r => G z r * W z r))).
  - rewrite sum_over_linear. unfold Rdiv. ring.
  - intro z. rewrite <- sum_over_linear. apply sum_over_ext. intro r. ring.
Qed.

Lemma tension_linear : forall a b F G fa g n me k N s u v u' v', 
  hyperelastic.uniaxial_tension (table F g) fa g n me k N s = Some u ->
  hyperelastic.uniaxial_tension (table G g) fa g n me k N s = Some v ->
  hyperelastic.equibiaxial_tension (table F g) fa g n me k N s = Some u' ->
  hyperelastic.equibiaxial_tension (table G g) fa g n me k N s = Some v' ->
  hyperelastic.uniaxial_tension (table (fun z r => a * F z r + b * G z r) g) fa g n me k N s = Some (a * u + b * v) /\
  hyperelastic.equibiaxial_tension (table (fun z r => a * F z r + b * G z r) g) fa g n me k N s = Some (a * u' + b * v').
Proof.
  intros a b F G fa g n me k N s u v u' v' U V U' V'.
  assert (M : (me = 2 \/ me = 3)%Z).
  { unfold hyperelastic.uniaxial_tension in U. destruct me as [|[[q|q|]|[q|q|]|]|q]; try discriminate; auto. }
  destruct (tension_table fa g n me k N s M) as (W1 & W2 & H).
  destruct (H F) as [A A'], (H G) as [B B'], (H (fun z r => a * F z r + b * G z r)) as [C C'].
  rewrite A in U. rewrite A' in U'. rewrite B in V. rewrite B' in V'.
  injection U as <-. injection U' as <-. injection V as <-. injection V' as <-.
  rewrite C, C'. split; f_equal; apply double_linear.
Qed.

Lemma survives_irreversible : forall c s m1 m2 z r, 0 <= c -> 1 <= s -> 1 <= m1 <= m2 ->
  reference_length s z r <= c ->
  survives c s m1 z r = false -> survives c s m2 z r = false.
Proof.
  intros c s m1 m2 z r Hc Hs Hm H0 H1. apply not_true_is_false. intro H2. apply survives_R in H2.
  assert (c < length_at_maximum s m1 z r).
  { apply Rnot_le_lt. intro H. apply survives_R in H. congruence. }
  pose proof (breaking_irreversible c s m1 m2 z r Hc Hs Hm H0 H). lra.
Qed.

Lemma survives_example : reference_length 2 (1 / 2) (1 / 2) <= 1 /\ survives 1 2 5 (1 / 2) (1 / 2) = false.
Proof.
  split.
  - unfold reference_length. apply sqrt_le_iff; lra.
  - apply not_true_is_false. intro H. apply survives_R in H. unfold length_at_maximum in H.
    apply sqrt_le_iff in H; lra.
Qed.

Lemma hyperelastic_construction : forall (T : Type) (Sc : Scalar T) me (k : T) N,
  (exists o, hyperelastic.BucheSilberstein.init hyperelastic.NUMGRID me k N = Some o) <-> (me = 2 \/ me = 3)%Z.
Proof.
  intros. rewrite hyperelastic_init_some. split; [tauto|]. intro H. split; [exact H|].
  apply Nat2Z.inj_le. change (2 <= 256)%Z. lia.
Qed.

Lemma damage_construction : forall (T : Type) (Sc : Scalar T) me (c k : T) N w,
  (exists o, BucheSilberstein.init NUMGRID me c k N w = Some o) <-> (me = 2 \/ me = 3)%Z.
Proof.
  intros. rewrite damage_init_some. split; [tauto|]. intro H. split; [exact H|].
  apply Nat2Z.inj_le. change (2 <= 256)%Z. lia.
Qed.

Lemma hyperelastic_init_method : forall {T} {Sc : Scalar T} n me (k : T) N o,
  hyperelastic.BucheSilberstein.init n me k N = Some o -> hyperelastic.BucheSilberstein.method o = me.
Proof.
  intros T Sc n me k N o H. unfold hyperelastic.BucheSilberstein.init in H.
  destruct (hyperelastic.init n me k N) as [[[[e f] g] nn]|]; [|discriminate]. cbn in H. injection H as <-. reflexivity.
Qed.
