(** The sampled extensible freely jointed chain and the library's response to a weak force. *)
From Coq Require Import Reals ZArith List Lra Lia.
From Coquelicot Require Import Coquelicot.
From Verif Require Import Scalar MIdeal MFjc MEfjc MMonteCarlo SpecMonteCarlo SpecThermo SpecSampling SpecNormal PNormal PSampling PSamplingWalk PHyp PLimits.
Import ListNotations.
Open Scope R_scope.

Lemma normal_average_ext : forall mu s n f g v, (forall l, f l = g l) -> normal_average mu s n f v -> normal_average mu s n g v.
Proof.
  intros mu s n. induction n as [|n IH]; intros f g v E A; cbn [normal_average] in *; [rewrite <- E; exact A|].
  destruct A as (h & H & I). exists h. split; [|exact I]. intro x. eapply IH; [|apply H]. intro l. apply E.
Qed.

Lemma normal_total : forall mu s n c, 0 < s ->
  normal_average mu s n (fun l => c + total (map (fun x => x ^ 2) l)) (c + INR n * (mu ^ 2 + s ^ 2)).
Proof.
  intros mu s n. induction n as [|n IH]; intros c Hs; cbn [normal_average].
  - cbn. ring.
  - exists (fun x => (c + INR n * (mu ^ 2 + s ^ 2)) + 0 * x + 1 * x ^ 2). split.
    + intro x. pose proof (IH (c + x ^ 2) Hs) as H. 
      replace ((c + INR n * (mu ^ 2 + s ^ 2)) + 0 * x + 1 * x ^ 2) with (c + x ^ 2 + INR n * (mu ^ 2 + s ^ 2)) by ring.
      eapply normal_average_ext; [|exact H]. intro l. cbn [map total]. ring.
    + rewrite S_INR. replace (c + (INR n + 1) * (mu ^ 2 + s ^ 2)) with ((c + INR n * (mu ^ 2 + s ^ 2)) + 0 * mu + 1 * (mu ^ 2 + s ^ 2)) by ring.
      apply normal_quadratic, Hs.
Qed.

Lemma efjc_normal_square : forall kappa n, 0 < kappa -> (0 < n)%nat -> exists h,
  (forall lengths, List.length lengths = n ->
    has_average (2 * n)
      (fun l => match efjc_monte_carlo.random_nondimensional_end_to_end_length number_tape n length_tape (lengths, l) with
                | Some (x, _) => x ^ 2 | None => 0 end) (h lengths)) /\
  normal_average 1 (1 / sqrt kappa) n h (INR n * (1 + 1 / kappa)).
Proof.
  intros kappa n Hk Hn. exists (fun l => 0 + total (map (fun x => x ^ 2) l)). split.
  - intros lengths <-. rewrite Rplus_0_l. apply efjc_square_average, Hn.
  - assert (S : 0 < sqrt kappa) by (apply sqrt_lt_R0, Hk). assert (Q : sqrt kappa * sqrt kappa = kappa) by (apply sqrt_sqrt; lra).
    replace (INR n * (1 + 1 / kappa)) with (0 + INR n * (1 ^ 2 + (1 / sqrt kappa) ^ 2)).
    + apply normal_total. apply Rdiv_lt_0_compat; lra.
    + rewrite Rplus_0_l. f_equal. rewrite <- Q at 2. field. lra.
Qed.

(** ** Response to a weak force *)
Local Notation fjc := (@fjc_isotensional.nondimensional_end_to_end_length_per_link R R_scalar).
Local Notation efjc := (@efjc_isotensional_asymptotic.nondimensional_end_to_end_length_per_link R R_scalar).
Local Notation efjc_alternative := (@efjc_isotensional_asymptotic_alternative.nondimensional_end_to_end_length_per_link R R_scalar).
Local Notation efjc_reduced := (@efjc_isotensional_asymptotic_reduced.nondimensional_end_to_end_length_per_link R R_scalar).

Notation near_0 f c := (filterlim f (at_right 0) (locally (c : R))).

Lemma near_ext : forall (f g : R -> R) c, (forall x, 0 < x -> f x = g x) -> near_0 f c -> near_0 g c.
Proof.
  intros f g c E. apply filterlim_ext_loc. exists (mkposreal 1 Rlt_0_1). intros y _ Hy. apply E, Hy.
Qed.
Lemma near_eq : forall (f : R -> R) a b, a = b -> near_0 f a -> near_0 f b.
Proof. intros f a b <-. exact (fun H => H). Qed.
Lemma near_plus : forall (f g : R -> R) a b, near_0 f a -> near_0 g b -> near_0 (fun x => f x + g x) (a + b).
Proof. intros f g a b A B. eapply filterlim_comp_2; [exact A | exact B | apply (filterlim_plus (V := R_NormedModule))]. Qed.
Lemma near_mult : forall (f g : R -> R) a b, near_0 f a -> near_0 g b -> near_0 (fun x => f x * g x) (a * b).
Proof. intros f g a b A B. eapply filterlim_comp_2; [exact A | exact B | apply (filterlim_mult (K := R_AbsRing))]. Qed.
Lemma near_inv : forall (f : R -> R) a, a <> 0 -> near_0 f a -> near_0 (fun x => / f x) (/ a).
Proof. intros f a Ha A. eapply filterlim_comp; [exact A|]. apply (filterlim_Rinv_0 a) || apply (continuous_Rinv a Ha). Qed.
Lemma near_const : forall c, near_0 (fun _ => c) c.
Proof. intro c. apply filterlim_const. Qed.
Lemma near_id : near_0 (fun x => x) 0.
Proof. eapply filterlim_filter_le_1; [apply filter_le_within | apply filterlim_id]. Qed.

Lemma fjc_slope : near_0 (fun x => fjc x / x) (/ 3).
Proof.
  apply (near_ext (fun x => / 3 * (fjc x / @ideal_isotensional.nondimensional_end_to_end_length_per_link R R_scalar x))).
  - intros x Hx. rewrite ideal_eq. field. lra.
  - apply (near_eq _ (/ 3 * 1)); [ring|]. apply near_mult; [apply near_const | apply ratio_limit].
Qed.

Lemma tanh_slope : near_0 (fun x => tanh x / x) 1.
Proof.
  apply (near_ext (fun x => / (1 + x * fjc x))).
  - intros x Hx. rewrite fjc_eq. assert (tanh x <> 0) by (apply tanh_neq_0; lra).
    replace (1 + x * (1 / tanh x - 1 / x)) with (x / tanh x) by (field; lra). field. lra.
  - apply (near_eq _ (/ (1 + 0 * 0))); [field|]. apply near_inv; [lra|]. apply near_plus; [apply near_const|]. apply near_mult; [apply near_id | apply fjc_to_zero].
Qed.

Lemma reduced_slope : forall k, 0 < k -> near_0 (fun x => efjc_reduced k x / x) (/ 3 + / k).
Proof.
  intros k Hk. apply (near_ext (fun x => fjc x / x + / k)).
  - intros x Hx. change (efjc_reduced k x) with (fjc x + x / k). field. lra.
  - apply near_plus; [apply fjc_slope | apply near_const].
Qed.

Lemma alternative_slope : forall k, 0 < k -> near_0 (fun x => efjc_alternative k x / x) (/ 3 + (5 / 3) * / k).
Proof.
  intros k Hk. apply (near_ext (fun x => fjc x / x + ((2 + (-1) * (fjc x / x)) + (-1) * (fjc x * fjc x)) * / k)).
  - intros x Hx. rewrite alternative_eq, alternative_correction by exact Hx. field. lra.
  - apply near_plus; [apply fjc_slope|]. apply near_mult; [|apply near_const].
    apply (near_eq _ ((2 + (-1) * / 3) + (-1) * (0 * 0))); [field|]. repeat first [apply near_plus | apply near_mult];
      first [apply near_const | apply fjc_slope | apply fjc_to_zero].
Qed.

Lemma full_slope : forall k, 0 < k -> near_0 (fun x => efjc k x / x) (/ 3 + / k * (1 + (1 - / 3) * / (1 + / k))).
Proof.
  intros k Hk. assert (0 < / k) by (apply Rinv_0_lt_compat, Hk).
  apply (near_ext (fun x => fjc x / x + / k * (1 + (tanh x / x + (-1) * (fjc x / x)) * / (tanh x / x + / k)))).
  - intros x Hx. rewrite full_eq. replace (tanh x - 1 / tanh x + 1 / x) with (tanh x - fjc x) by (rewrite fjc_eq; ring).
    pose proof (PInverse.tanh_bounds x Hx). assert (0 < x * / k) by (apply Rmult_lt_0_compat; lra). field. repeat split; try lra. nra.
  - apply near_plus; [apply fjc_slope|]. apply near_mult; [apply near_const|]. apply near_plus; [apply near_const|].
    apply near_mult.
    + apply (near_eq _ (1 + (-1) * / 3)); [ring|]. apply near_plus; [apply tanh_slope|]. apply near_mult; [apply near_const | apply fjc_slope].
    + apply near_inv; [lra|]. apply near_plus; [apply tanh_slope | apply near_const].
Qed.

(** Links with the energy of a spring: the directions in space give a length its square as weight. *)
Lemma spring_moments : forall kappa, 0 < kappa ->
  line_integral (fun x => normal_density 1 (1 / sqrt kappa) x * x ^ 2) (1 + 1 / kappa) /\
  line_integral (fun x => normal_density 1 (1 / sqrt kappa) x * x ^ 2 * x ^ 2) (1 + 6 / kappa + 3 / kappa ^ 2).
Proof.
  intros kappa Hk. assert (S : 0 < sqrt kappa) by (apply sqrt_lt_R0, Hk). assert (Q : sqrt kappa * sqrt kappa = kappa) by (apply sqrt_sqrt; lra).
  set (s := 1 / sqrt kappa). assert (Hs : 0 < s) by (unfold s; apply Rdiv_lt_0_compat; lra).
  assert (E2 : s ^ 2 = 1 / kappa) by (unfold s; rewrite <- Q at 2; field; lra). assert (E4 : s ^ 4 = 1 / kappa ^ 2) by (replace (s ^ 4) with ((s ^ 2) ^ 2) by ring; rewrite E2; field; lra).
  split.
  - replace (1 + 1 / kappa) with (1 + s ^ 2 + 3 * 0) by (rewrite E2; ring).
    eapply line_integral_ext; [|apply (normal_moments 1 s Hs 1 (2 * s) (s ^ 2) 0 0)]. intro x. cbv beta. f_equal. field. lra.
  - replace (1 + 6 / kappa + 3 / kappa ^ 2) with (1 + 6 * s ^ 2 + 3 * s ^ 4) by (rewrite E2, E4; field; lra).
    eapply line_integral_ext; [|apply (normal_moments 1 s Hs 1 (4 * s) (6 * s ^ 2) (4 * s ^ 3) (s ^ 4))]. intro x. cbv beta. rewrite (Rmult_assoc (normal_density 1 s x) (x ^ 2)). f_equal. field. lra.
Qed.

Lemma fjc_response : forall n, (0 < n)%nat -> exists slope,
  near_0 (fun x => fjc x / x) slope /\
  has_average (2 * n) (fun l => match fjc_monte_carlo.random_nondimensional_end_to_end_length tape n l with
                                | Some (x, _) => x ^ 2 | None => 0 end) (3 * INR n * slope).
Proof.
  intros n Hn. exists (/ 3). split; [apply fjc_slope|]. replace (3 * INR n * / 3) with (INR n) by field. apply fjc_square_average, Hn.
Qed.

Lemma efjc_spring : forall kappa, 0 < kappa -> exists slope weight square,
  near_0 (fun x => efjc kappa x / x) slope /\
  line_integral (fun x => normal_density 1 (1 / sqrt kappa) x * x ^ 2) weight /\
  line_integral (fun x => normal_density 1 (1 / sqrt kappa) x * x ^ 2 * x ^ 2) square /\
  square / weight = 3 * slope.
Proof.
  intros kappa Hk. destruct (spring_moments kappa Hk) as (A & B). do 3 eexists. split; [apply full_slope, Hk|]. split; [exact A|]. split; [exact B|].
  field. lra.
Qed.

Lemma efjc_refuted : forall kappa n, 0 < kappa -> (0 < n)%nat -> exists h v,
  (forall lengths, List.length lengths = n ->
    has_average (2 * n)
      (fun l => match efjc_monte_carlo.random_nondimensional_end_to_end_length number_tape n length_tape (lengths, l) with
                | Some (x, _) => x ^ 2 | None => 0 end) (h lengths)) /\
  normal_average 1 (1 / sqrt kappa) n h v /\
  forall f, In f [efjc; efjc_alternative; efjc_reduced] -> exists slope,
    near_0 (fun x => f kappa x / x) slope /\ v + 2 * INR n / kappa <= 3 * INR n * slope.
Proof.
  intros kappa n Hk Hn. destruct (efjc_normal_square kappa n Hk Hn) as (h & A & N). exists h, (INR n * (1 + 1 / kappa)). split; [exact A|]. split; [exact N|].
  assert (0 < / kappa) by (apply Rinv_0_lt_compat, Hk). assert (0 < INR n) by (apply lt_0_INR, Hn). unfold Rdiv.
  intros f [<- | [<- | [<- | []]]]; eexists.
  - split; [apply full_slope, Hk|]. assert (0 < / (1 + / kappa)) by (apply Rinv_0_lt_compat; lra).
    assert (0 < / kappa * / (1 + / kappa)) by (apply Rmult_lt_0_compat; assumption). nra.
  - split; [apply alternative_slope, Hk|]. nra.
  - split; [apply reduced_slope, Hk|]. nra.
Qed.

Lemma normal_average_unique : forall mu s n f v w, normal_average mu s n f v -> normal_average mu s n f w -> v = w.
Proof.
  intros mu s n. induction n as [|n IH]; intros f v w A B; cbn [normal_average] in *; [congruence|].
  destruct A as (h & H & I & a & b & La & Lb & ->). destruct B as (k & K & J & c & d & Lc & Ld & ->).
  assert (E : forall x, h x = k x) by (intro x; apply (IH _ _ _ (H x) (K x))).
  assert (X : forall p q, RInt (fun x => normal_density mu s x * h x) p q = RInt (fun x => normal_density mu s x * k x) p q).
  { intros p q. apply RInt_ext. intros x _. rewrite E. reflexivity. }
  assert (Ea : Finite a = Finite c).
  { rewrite <- (is_lim_unique _ _ _ La), <- (is_lim_unique _ _ _ Lc). apply Lim_ext. intro; first [apply X | symmetry; apply X]. }
  assert (Eb : Finite b = Finite d).
  { rewrite <- (is_lim_unique _ _ _ Lb), <- (is_lim_unique _ _ _ Ld). apply Lim_ext. intro; first [apply X | symmetry; apply X]. }
  congruence.
Qed.
