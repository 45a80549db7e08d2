(** From nondimensional per-link facts to all the functions of a chain. *)
From Coq Require Import Reals ZArith Lra Lia.
From Coquelicot Require Import Coquelicot.
From Verif Require Import SpecThermo PBase.
Open Scope R_scope.

Lemma eta_neq_0 : forall l T x, 0 < l -> 0 < T -> x <> 0 -> x * l / (kB * T) <> 0.
Proof.
  intros l T x Hl HT Hx. pose proof kB_pos. unfold Rdiv.
  apply Rmult_integral_contrapositive_currified.
  - apply Rmult_integral_contrapositive_currified; lra.
  - apply Rinv_neq_0_compat, Rmult_integral_contrapositive_currified; lra.
Qed.

Definition nd_legendre (c : isotensional) (h : isotensional_helmholtz) : Prop :=
  forall x, x <> 0 ->
    IH_nd_helmholtz_per_link h x = I_nd_gibbs_per_link c x + x * I_nd_length_per_link c x.

Lemma lift_legendre : forall n l T c h, 0 < l -> 0 < T ->
  isotensional_dimensionless l T c -> isotensional_helmholtz_dimensionless l T h ->
  isotensional_extensive n c -> isotensional_helmholtz_extensive n h ->
  isotensional_relative c -> isotensional_helmholtz_relative h ->
  nd_legendre c h -> isotensional_legendre c h.
Proof.
  intros n l T c h Hl HT Dc Dh Ec Eh (R1 & R2 & R3 & R4) (Q1 & Q2 & Q3 & Q4) L.
  pose proof kB_pos as HB.
  assert (A : forall x, x <> 0 ->
    IH_helmholtz h x = I_gibbs c x + x * I_length c x /\
    IH_helmholtz_per_link h x = I_gibbs_per_link c x + x * I_length_per_link c x /\
    IH_nd_helmholtz h x = I_nd_gibbs c x + x * I_nd_length c x /\
    IH_nd_helmholtz_per_link h x = I_nd_gibbs_per_link c x + x * I_nd_length_per_link c x).
  { intros x Hx.
    destruct (Dc x) as (D1 & D2 & D3 & D4 & _). destruct (Dh x) as (F1 & F2 & _).
    destruct (Ec x) as (_ & E2 & _ & _ & E5 & _). destruct (Eh x) as (_ & _ & G3 & _).
    set (y := x * l / (kB * T)) in *.
    assert (Hy : y <> 0) by (apply eta_neq_0; assumption).
    assert (P : x * l = kB * T * y) by (unfold y; field; lra).
    destruct (Ec y) as (_ & E2' & _ & _ & E5' & _). destruct (Eh y) as (_ & _ & G3' & _).
    rewrite D1, D2, D3, D4, F1, F2, G3', E2', E5', G3, E2, E5, (L x Hx), (L y Hy).
    repeat split.
    - replace (x * (l * (n * I_nd_length_per_link c y)))
        with (x * l * (n * I_nd_length_per_link c y)) by ring. rewrite P; ring.
    - replace (x * (l * (I_nd_length_per_link c y)))
        with (x * l * (I_nd_length_per_link c y)) by ring. rewrite P; ring.
    - ring. }
  split; [exact A|].
  repeat split; intros x y Hx Hy; destruct (A x Hx) as (X1 & X2 & X3 & X4);
    destruct (A y Hy) as (Y1 & Y2 & Y3 & Y4).
  - rewrite Q1, X1, Y1. specialize (R1 x y). lra.
  - rewrite Q2, X2, Y2. specialize (R2 x y). lra.
  - rewrite Q3, X3, Y3. specialize (R3 x y). lra.
  - rewrite Q4, X4, Y4. specialize (R4 x y). lra.
Qed.

(** Conjugacy. *)
Lemma derive_scaled : forall (g : R -> R) a b x d,
  is_derive g (a * x) d -> is_derive (fun y => b * g (a * y)) x (b * (a * d)).
Proof.
  intros g a b x d H.
  assert (A : is_derive (fun y : R => g (a * y)) x (a * d)).
  { apply is_derive_Reals. apply is_derive_Reals in H.
    replace (a * d) with (d * a) by ring.
    apply (derivable_pt_lim_comp (fun y => a * y) g).
    - apply is_derive_Reals. auto_derive; [exact I | ring].
    - exact H. }
  apply is_derive_Reals. apply is_derive_Reals in A.
  exact (derivable_pt_lim_scal (fun y : R => g (a * y)) b x _ A).
Qed.

Lemma derive_same_increments : forall (f g : R -> R) x d,
  same_increments f g -> is_derive g x d -> is_derive f x d.
Proof.
  intros f g x d H D.
  apply (is_derive_ext (fun y => g y + (f x - g x))).
  - intro y. specialize (H y x). lra.
  - apply is_derive_Reals. apply is_derive_Reals in D.
    replace d with (d + 0) by ring.
    apply derivable_pt_lim_plus; [exact D | apply derivable_pt_lim_const].
Qed.

Lemma derive_mult_const : forall (g : R -> R) n x d,
  is_derive g x d -> is_derive (fun y => n * g y) x (n * d).
Proof.
  intros g n x d D. apply is_derive_Reals. apply is_derive_Reals in D.
  exact (derivable_pt_lim_scal g n x d D).
Qed.

Lemma lift_conjugate : forall n l T c f eta, 0 < l -> 0 < T ->
  isotensional_dimensionless l T c -> isotensional_extensive n c -> isotensional_relative c ->
  is_derive (I_nd_gibbs_per_link c) (f * l / (kB * T)) (- I_nd_length_per_link c (f * l / (kB * T))) ->
  is_derive (I_nd_gibbs_per_link c) eta (- I_nd_length_per_link c eta) ->
  isotensional_conjugate_at c f eta.
Proof.
  intros n l T c f eta Hl HT D E (R1 & R2 & R3 & R4) Hf He.
  pose proof kB_pos as HB.
  assert (T1 : forall x, is_derive (I_nd_gibbs_per_link c) x (- I_nd_length_per_link c x) ->
            is_derive (I_nd_gibbs c) x (- I_nd_length c x)).
  { intros x H. destruct (E x) as (_ & E2 & _). rewrite E2.
    replace (- (n * I_nd_length_per_link c x)) with (n * (- I_nd_length_per_link c x)) by ring.
    apply (is_derive_ext (fun y => n * I_nd_gibbs_per_link c y)).
    - intro y. destruct (E y) as (_ & _ & _ & _ & E5 & _). symmetry; exact E5.
    - apply derive_mult_const; exact H. }
  assert (P : forall x, x * l / (kB * T) = (l / (kB * T)) * x) by (intro; field; lra).
  assert (G2 : is_derive (I_gibbs_per_link c) f (- I_length_per_link c f)).
  { apply (is_derive_ext (fun y => kB * T * I_nd_gibbs_per_link c (l / (kB * T) * y))).
    - intro y. destruct (D y) as (_ & _ & _ & D4 & _). rewrite D4, P. reflexivity.
    - destruct (D f) as (_ & D2 & _). rewrite D2. rewrite P in Hf |- *.
      replace (- (l * I_nd_length_per_link c (l / (kB * T) * f)))
        with (kB * T * (l / (kB * T) * (- I_nd_length_per_link c (l / (kB * T) * f)))) by (field; lra).
      apply derive_scaled; exact Hf. }
  assert (G1 : is_derive (I_gibbs c) f (- I_length c f)).
  { destruct (E f) as (E1 & _). rewrite E1.
    replace (- (n * I_length_per_link c f)) with (n * (- I_length_per_link c f)) by ring.
    apply (is_derive_ext (fun y => n * I_gibbs_per_link c y)).
    - intro y. destruct (E y) as (_ & _ & E3 & _). symmetry; exact E3.
    - apply derive_mult_const; exact G2. }
  refine (conj G1 (conj G2 (conj _ (conj _ (conj (T1 _ He) (conj He (conj _ _))))))).
  - eapply derive_same_increments; [exact R1 | exact G1].
  - eapply derive_same_increments; [exact R2 | exact G2].
  - eapply derive_same_increments; [exact R3 | apply T1; exact He].
  - eapply derive_same_increments; [exact R4 | exact He].
Qed.

Lemma lift_isometric_conjugate : forall n l T c xi gamma, 0 < n -> 0 < l -> 0 < T ->
  isometric_dimensionless n l T c -> isometric_extensive n c -> isometric_relative c ->
  is_derive (S_nd_helmholtz_per_link c) (xi / (n * l)) (S_nd_force c (xi / (n * l))) ->
  is_derive (S_nd_helmholtz_per_link c) gamma (S_nd_force c gamma) ->
  isometric_conjugate_at n c xi gamma.
Proof.
  intros n l T c xi gamma Hn Hl HT D E (R1 & R2 & R3 & R4) Hx Hg.
  pose proof kB_pos as HB.
  assert (T1 : forall x, is_derive (S_nd_helmholtz_per_link c) x (S_nd_force c x) ->
            is_derive (S_nd_helmholtz c) x (n * S_nd_force c x)).
  { intros x H.
    apply (is_derive_ext (fun y => n * S_nd_helmholtz_per_link c y)).
    - intro y. destruct (E y) as (_ & _ & E3 & _). symmetry; exact E3.
    - apply derive_mult_const; exact H. }
  assert (P : forall x, x / (n * l) = (/ (n * l)) * x) by (intro; field; lra).
  assert (G2 : is_derive (S_helmholtz_per_link c) xi (S_force c xi / n)).
  { apply (is_derive_ext (fun y => kB * T * S_nd_helmholtz_per_link c (/ (n * l) * y))).
    - intro y. destruct (D y) as (_ & _ & D3 & _). rewrite D3, P. reflexivity.
    - destruct (D xi) as (D1 & _). rewrite D1. rewrite P in Hx |- *.
      replace (kB * T / l * S_nd_force c (/ (n * l) * xi) / n)
        with (kB * T * (/ (n * l) * (S_nd_force c (/ (n * l) * xi)))) by (field; lra).
      apply derive_scaled; exact Hx. }
  assert (G1 : is_derive (S_helmholtz c) xi (S_force c xi)).
  { replace (S_force c xi) with (n * (S_force c xi / n)) by (field; lra).
    apply (is_derive_ext (fun y => n * S_helmholtz_per_link c y)).
    - intro y. destruct (E y) as (E1 & _). symmetry; exact E1.
    - apply derive_mult_const; exact G2. }
  refine (conj G1 (conj G2 (conj _ (conj _ (conj (T1 _ Hg) (conj Hg (conj _ _))))))).
  - eapply derive_same_increments; [exact R1 | exact G1].
  - eapply derive_same_increments; [exact R2 | exact G2].
  - eapply derive_same_increments; [exact R3 | apply T1; exact Hg].
  - eapply derive_same_increments; [exact R4 | exact Hg].
Qed.
