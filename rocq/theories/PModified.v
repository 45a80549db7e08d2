(** Modified canonical ensemble of the freely jointed chain. *)
From Coq Require Import Reals ZArith List Lra Lia Psatz.
From Coquelicot Require Import Coquelicot.
From Verif Require Import Scalar MMath MConst MTreloar MFjc SpecThermo SpecIsometric SpecWalk SpecModified PBase PQuad PTreloar.
Import ListNotations.
Open Scope R_scope.

(** ** The quadrature with an integrand that returns *)
Lemma ZERO_pos : 0 < (ZERO : R) < 1.
Proof. rewrite Z_eq. split; [apply Rinv_0_lt_compat; lra|]. rewrite <- Rinv_1. apply Rinv_lt_contravar; lra. Qed.

Definition nodes : list R :=
  map (fun i => math.midpoint ZERO ((1 - ZERO) / IZR POINTS) i) (zrange 0 POINTS).

Lemma nodes_in : forall x, In x nodes -> 0 < x < 1.
Proof.
  intros x H. unfold nodes in H. apply in_map_iff in H. destruct H as [i [E Hi]]. apply zrange_In in Hi.
  pose proof (midpoint_between ZERO 1 POINTS i) as M.
  assert (ZERO < x < 1).
  { rewrite <- E. apply M; try assumption; try (unfold POINTS; lia). apply ZERO_pos. }
  pose proof ZERO_pos. lra.
Qed.

Definition quad (w : R -> R) : R := Rsum (map w nodes) * ((1 - ZERO) / IZR POINTS).

Lemma integrate_ok : forall (f : R -> option R) (w : R -> R), (forall x, 0 < x < 1 -> f x = Some (w x)) ->
  math.integrate_1d_m f ZERO ONE POINTS = Some (quad w).
Proof.
  intros f w H. unfold math.integrate_1d_m.
  change ((ONE - ZERO) / sofZ POINTS)%S with ((Rdec 1 0 - ZERO) / IZR POINTS). cbn [Rdec].
  rewrite (mapM_some _ _ _ (fun i => w (math.midpoint ZERO ((1 - ZERO) / IZR POINTS) i))).
  - cbn [bind]. unfold quad, nodes. rewrite ssum_R, map_map. reflexivity.
  - intros i Hi. apply H. apply nodes_in. unfold nodes. apply in_map. exact Hi.
Qed.

(** ** Averaging over directions *)
Lemma average_closed : forall beta k d x, 0 < beta -> 0 < k -> 0 < d -> 0 < x ->
  average_factor beta k d x =
  (exp (- (1 / 2) * (beta * k) * (d - x) ^ 2) - exp (- (1 / 2) * (beta * k) * (d + x) ^ 2)) / (2 * (beta * k) * d * x).
Proof.
  intros beta k d x Hb Hk Hd Hx. unfold average_factor.
  assert (S : 0 < beta * k) by (apply Rmult_lt_0_compat; lra). set (s := beta * k) in *.
  assert (SD : 0 < s * d * x) by (repeat apply Rmult_lt_0_compat; lra).
  assert (I : is_RInt (fun u => exp (- (beta * potential k d x u))) (-1) 1
    (minus (exp (- (beta * potential k d x 1)) / (s * d * x)) (exp (- (beta * potential k d x (-1))) / (s * d * x)))).
  { apply (is_RInt_derive (V := R_CompleteNormedModule) (fun u => exp (- (beta * potential k d x u)) / (s * d * x))).
    - intros u _. apply (is_derive_ext (fun u => exp (- (1 / 2) * s * (d ^ 2 + x ^ 2) + s * d * x * u) / (s * d * x))).
      { intro v. f_equal. f_equal. unfold potential, s. field. }
      replace (- (beta * potential k d x u)) with (- (1 / 2) * s * (d ^ 2 + x ^ 2) + s * d * x * u)
        by (unfold potential, s; field).
      generalize (- (1 / 2) * s * (d ^ 2 + x ^ 2)). set (b := s * d * x) in *. intro c.
      auto_derive; [exact I|]. field. lra.
    - intros u _. apply (ex_derive_continuous (V := R_NormedModule)). unfold potential. auto_derive. exact I. }
  apply (is_RInt_unique (V := R_CompleteNormedModule)) in I.
  transitivity (1 / 2 * (exp (- (beta * potential k d x 1)) / (s * d * x) - exp (- (beta * potential k d x (-1))) / (s * d * x))).
  { f_equal. exact I. }
  replace (- (beta * potential k d x 1)) with (- (1 / 2) * s * (d - x) ^ 2) by (unfold potential, s; field).
  replace (- (beta * potential k d x (-1))) with (- (1 / 2) * s * (d + x) ^ 2) by (unfold potential, s; field).
  field. repeat split; lra.
Qed.

(** ** The partition function and its derivative *)
Section Fixed.
Variables (prof : profile) (n : nat) (kap : R).
Hypotheses (Hn : (2 <= n <= 26)%nat) (Hk : 0 < kap).

Let N : Z := Z.of_nat n.
Definition st : R := INR n ^ 2 * kap.
Let Pn : 0 < INR n. Proof. apply lt_0_INR. lia. Qed.
Lemma st_pos : 0 < st.
Proof using Hn Hk. unfold st. apply Rmult_lt_0_compat; [apply pow_lt|]; assumption. Qed.

Definition e1 (d x : R) : R := exp (- (1 / 2) * st * (d - x) ^ 2).
Definition e2 (d x : R) : R := exp (- (1 / 2) * st * (d + x) ^ 2).
Definition den (d x : R) : R := 4 * PI * x ^ 2 * P n x * ((e1 d x - e2 d x) / (2 * st * d * x)).
Definition num (d x : R) : R := 4 * PI * x ^ 2 * P n x *
  ((st * (d - x) * e1 d x - st * (d + x) * e2 d x) / (2 * st * d * x) + (e1 d x - e2 d x) / (2 * st * d ^ 2 * x)).

Lemma den_derive : forall x d, 0 < d -> 0 < x -> is_derive (fun y => den y x) d (- num d x).
Proof using Hn Hk.
  intros x d Hd Hx. pose proof st_pos as S. unfold den, num, e1, e2.
  auto_derive.
  - repeat split; apply Rgt_not_eq; repeat apply Rmult_lt_0_compat; lra.
  - change (d + - x) with (d - x). set (E1 := exp _). set (E2 := exp _). field. repeat split; lra.
Qed.

Lemma den_pos : forall d x, 0 < d -> 0 < x < 1 -> 0 < den d x.
Proof using Hn Hk.
  intros d x Hd Hx. pose proof st_pos as S. pose proof PI_RGT_0. unfold den.
  apply Rmult_lt_0_compat.
  - apply Rmult_lt_0_compat; [|apply P_pos; [lia|exact Hx]].
    apply Rmult_lt_0_compat; [lra|]. apply pow_lt; lra.
  - apply Rdiv_lt_0_compat; [|repeat apply Rmult_lt_0_compat; lra].
    apply Rlt_Rminus. unfold e1, e2. apply exp_increasing.
    assert (0 < st * (d * x)) by (repeat apply Rmult_lt_0_compat; lra). nra.
Qed.

Lemma treloar_P : forall x, 0 < x < 1 -> fjc_thermodynamics.treloar_sum_0_with_prefactor prof N x = Some (P n x).
Proof using Hn.
  intros x Hx. pose proof (distribution_ok prof n x Hn Hx) as D.
  exact D.
Qed.

Lemma s_eq : IZR N ^ 2 * kap = st.
Proof using. unfold st, N. rewrite <- INR_IZR_INZ. reflexivity. Qed.

Definition part (d : R) : R := quad (den d).

Lemma part_pos : forall d, 0 < d -> 0 < part d.
Proof using Hn Hk.
  intros d Hd. unfold part, quad. pose proof ZERO_pos. apply Rmult_lt_0_compat.
  - apply Rsum_pos; [unfold nodes; cbn; discriminate|]. intros x Hx. apply nodes_in in Hx. apply den_pos; assumption.
  - apply Rdiv_lt_0_compat; [lra|]. apply IZR_lt. reflexivity.
Qed.

Lemma part_derive : forall d, 0 < d -> is_derive part d (- quad (num d)).
Proof using Hn Hk.
  intros d Hd. unfold part, quad. evar_last.
  - apply (is_derive_scal_l (K := R_AbsRing) (V := R_NormedModule)
      (fun y => Rsum (map (den y) nodes)) d (Rsum (map (fun x => - num d x) nodes)) ((1 - ZERO) / IZR POINTS)).
    apply (is_derive_Rsum (fun x y => den y x) (fun x => - num d x)).
    intros x Hx. apply nodes_in in Hx. apply den_derive; lra.
  - change (Rsum (map (fun x => - num d x) nodes) * ((1 - ZERO) / IZR POINTS)
      = - (Rsum (map (num d) nodes) * ((1 - ZERO) / IZR POINTS))).
    rewrite (Rsum_ext _ (fun x => -1 * num d x)) by (intros; ring). rewrite Rsum_scal. ring.
Qed.

Lemma nd_force_any : forall d, fjc_modified_canonical.nondimensional_force prof N d kap =
  Some (quad (num d) / part d / INR n).
Proof using Hn Hk.
  intros d. pose proof st_pos as S. unfold fjc_modified_canonical.nondimensional_force. cbv zeta.
  rewrite (integrate_ok _ (num d)).
  2:{ intros x Hx. rewrite (treloar_P x Hx). cbn [bind]. f_equal.
      change (4 * PI * x ^ 2 * P n x *
        ((IZR N ^ 2 * kap * (d - x) * exp (- (5 / 10) * (IZR N ^ 2 * kap) * (d - x) ^ 2)
          - IZR N ^ 2 * kap * (d + x) * exp (- (5 / 10) * (IZR N ^ 2 * kap) * (d + x) ^ 2)) / (2 * (IZR N ^ 2 * kap) * d * x)
         + (exp (- (5 / 10) * (IZR N ^ 2 * kap) * (d - x) ^ 2) - exp (- (5 / 10) * (IZR N ^ 2 * kap) * (d + x) ^ 2))
           / (2 * (IZR N ^ 2 * kap) * d ^ 2 * x)) = num d x).
      rewrite s_eq. replace (- (5 / 10)) with (- (1 / 2)) by lra. reflexivity. }
  cbn [bind]. rewrite (integrate_ok _ (den d)).
  2:{ intros x Hx. rewrite (treloar_P x Hx). cbn [bind]. f_equal.
      change (4 * PI * x ^ 2 * P n x *
        (exp (- (5 / 10) * (IZR N ^ 2 * kap) * (d - x) ^ 2) - exp (- (5 / 10) * (IZR N ^ 2 * kap) * (d + x) ^ 2))
           / (2 * (IZR N ^ 2 * kap) * d * x) = den d x).
      rewrite s_eq. replace (- (5 / 10)) with (- (1 / 2)) by lra. unfold den, e1, e2, Rdiv. ring. }
  cbn [bind]. f_equal. change (quad (num d) / part d / IZR N = quad (num d) / part d / INR n).
  unfold N. rewrite <- INR_IZR_INZ. reflexivity.
Qed.

Lemma nd_force_ok : forall d, 0 < d -> fjc_modified_canonical.nondimensional_force prof N d kap =
  Some (quad (num d) / part d / INR n).
Proof using Hn Hk. intros d _. apply nd_force_any. Qed.

Definition momentum (l m T : R) : R := (INR n - 1) * ln (8 * PI ^ 2 * m * l ^ 2 * kB * T / hP ^ 2).

Lemma nd_helmholtz_any : forall l m d T,
  fjc_modified_canonical.nondimensional_helmholtz_free_energy prof N l m d kap T =
  Some (- ln (part d) - momentum l m T).
Proof using Hn Hk.
  intros l m d T. pose proof st_pos as S. unfold fjc_modified_canonical.nondimensional_helmholtz_free_energy. cbv zeta.
  rewrite (integrate_ok _ (den d)).
  2:{ intros x Hx. rewrite (treloar_P x Hx). cbn [bind]. f_equal.
      change (4 * PI * x ^ 2 * P n x *
        (exp (- (5 / 10) * (IZR N ^ 2 * kap) * (d - x) ^ 2) - exp (- (5 / 10) * (IZR N ^ 2 * kap) * (d + x) ^ 2))
           / (2 * (IZR N ^ 2 * kap) * d * x) = den d x).
      rewrite s_eq. replace (- (5 / 10)) with (- (1 / 2)) by lra. unfold den, e1, e2, Rdiv. ring. }
  cbn [bind]. f_equal.
  change (- ln (part d) - (IZR N - 1) * ln (8 * PI ^ 2 * m * l ^ 2 * BOLTZMANN_CONSTANT * T / PLANCK_CONSTANT ^ 2)
    = - ln (part d) - momentum l m T).
  rewrite B_eq, H_eq. unfold momentum, N. rewrite <- INR_IZR_INZ. reflexivity.
Qed.

Lemma nd_helmholtz_ok : forall l m d T, 0 < d ->
  fjc_modified_canonical.nondimensional_helmholtz_free_energy prof N l m d kap T =
  Some (- ln (part d) - momentum l m T).
Proof using Hn Hk. intros l m d T _. apply nd_helmholtz_any. Qed.

(** Minus the logarithm of the partition function has N times the force as its
    derivative. *)
Lemma ln_part_derive : forall d c, 0 < d ->
  is_derive (fun y => - ln (part y) + c) d (INR n * (quad (num d) / part d / INR n)).
Proof using Hn Hk.
  intros d c Hd. pose proof (part_pos d Hd) as Q. evar_last.
  - apply (is_derive_plus (V := R_NormedModule) (fun y => - ln (part y)) (fun _ => c)).
    + apply (is_derive_opp (V := R_NormedModule) (fun y => ln (part y))).
      apply (is_derive_comp (V := R_NormedModule) ln part); [apply is_derive_ln; exact Q | apply part_derive; exact Hd].
    + apply (is_derive_const (V := R_NormedModule)).
  - change (- (- quad (num d) * / part d) + 0 = INR n * (quad (num d) / part d / INR n)). field. lra.
Qed.

Lemma rel_ok : exists c, forall d, 0 < d ->
  fjc_modified_canonical.nondimensional_relative_helmholtz_free_energy prof N d kap = Some (- ln (part d) + c).
Proof using Hn Hk.
  exists (ln (part ZERO)). intros d Hd. unfold fjc_modified_canonical.nondimensional_relative_helmholtz_free_energy.
  rewrite nd_helmholtz_ok by exact Hd. cbn [bind]. rewrite nd_helmholtz_ok by apply ZERO_pos. cbn [bind]. f_equal.
  change (- ln (part d) - momentum (sdec 1 0) (sdec 1 0) (sdec 300 0)
    - (- ln (part ZERO) - momentum (sdec 1 0) (sdec 1 0) (sdec 300 0)) = - ln (part d) + ln (part ZERO)). ring.
Qed.

End Fixed.

(** ** The public functions *)
Section Public.
Variables (prof : profile) (n : nat).
Hypothesis Hn : (2 <= n <= 26)%nat.
Let N : Z := Z.of_nat n.
Let Pn : 0 < INR n. Proof. apply lt_0_INR. lia. Qed.
Let IN : IZR N = INR n. Proof. unfold N. rewrite <- INR_IZR_INZ. reflexivity. Qed.

Lemma scaled : forall kap (energy force : R -> option R) a b c' k d hi, 0 < kap -> 0 < b -> 0 < d < hi ->
  (exists c, forall y, 0 < y -> energy y = Some (a * (- ln (part n kap (y / b)) + c))) ->
  (forall y, 0 < y -> force y = Some (c' * (quad (num n kap (y / b)) / part n kap (y / b) / INR n))) ->
  a / b * INR n = k * c' ->
  conjugate energy force 0 hi k d.
Proof using Hn.
  intros kap energy force a b c' k d hi Hk Hb Hd [c E] F K.
  exists (fun y => a * (- ln (part n kap (y / b)) + c)).
  exists (c' * (quad (num n kap (d / b)) / part n kap (d / b) / INR n)).
  split; [intros y Hy; apply E; lra|]. split; [apply F; lra|].
  assert (D : 0 < d / b) by (apply Rdiv_lt_0_compat; lra).
  evar_last.
  - apply (is_derive_scal (fun y => - ln (part n kap (y / b)) + c) d a).
    apply (is_derive_comp (V := R_NormedModule) (fun y => - ln (part n kap y) + c) (fun y => y / b)).
    + apply ln_part_derive; assumption.
    + auto_derive; [exact I | reflexivity].
  - change (a * (1 * / b * (INR n * (quad (num n kap (d / b)) / part n kap (d / b) / INR n)))
      = k * (c' * (quad (num n kap (d / b)) / part n kap (d / b) / INR n))).
    set (q := quad _ / _ / _). transitivity (a / b * INR n * q); [field; lra|]. rewrite K. ring.
Qed.

Section ND.
Variables (l m T kap d hi : R).
Hypotheses (Hkap : 0 < kap) (Hd : 0 < d < hi).

Lemma div1 : forall y : R, y / 1 = y.
Proof using. intro; field. Qed.

Lemma nd_conj :
  conjugate (fun y => fjc_modified_canonical.nondimensional_helmholtz_free_energy prof N l m y kap T)
    (fun y => fjc_modified_canonical.nondimensional_force prof N y kap) 0 hi (INR n) d /\
  conjugate (fun y => fjc_modified_canonical.nondimensional_helmholtz_free_energy_per_link prof N l m y kap T)
    (fun y => fjc_modified_canonical.nondimensional_force prof N y kap) 0 hi 1 d /\
  conjugate (fun y => fjc_modified_canonical.nondimensional_relative_helmholtz_free_energy prof N y kap)
    (fun y => fjc_modified_canonical.nondimensional_force prof N y kap) 0 hi (INR n) d /\
  conjugate (fun y => fjc_modified_canonical.nondimensional_relative_helmholtz_free_energy_per_link prof N y kap)
    (fun y => fjc_modified_canonical.nondimensional_force prof N y kap) 0 hi 1 d.
Proof using Hn Hkap Hd.
  assert (F : forall y, 0 < y -> fjc_modified_canonical.nondimensional_force prof N y kap
    = Some (1 * (quad (num n kap (y / 1)) / part n kap (y / 1) / INR n))).
  { intros y Hy. unfold N. rewrite nd_force_ok by assumption. rewrite div1. f_equal. ring. }
  destruct (rel_ok prof n kap Hn Hkap) as [r Er].
  split; [|split; [|split]].
  - apply (scaled kap _ _ 1 1 1); try assumption; try lra; try (field; lra).
    exists (- momentum n l m T). intros y Hy. unfold N. rewrite nd_helmholtz_ok by assumption. rewrite div1. f_equal. ring.
  - apply (scaled kap _ _ (/ INR n) 1 1); try assumption; try lra; try (field; lra).
    exists (- momentum n l m T). intros y Hy. unfold fjc_modified_canonical.nondimensional_helmholtz_free_energy_per_link.
    unfold N. rewrite nd_helmholtz_ok by assumption. cbn [bind]. rewrite div1. f_equal.
    change ((- ln (part n kap y) - momentum n l m T) / IZR N = / INR n * (- ln (part n kap y) + - momentum n l m T)).
    rewrite IN. field. lra.
  - apply (scaled kap _ _ 1 1 1); try assumption; try lra; try (field; lra).
    exists r. intros y Hy. unfold N. rewrite Er by assumption. rewrite div1. f_equal. ring.
  - apply (scaled kap _ _ (/ INR n) 1 1); try assumption; try lra; try (field; lra).
    exists r. intros y Hy. unfold fjc_modified_canonical.nondimensional_relative_helmholtz_free_energy_per_link.
    unfold N. rewrite Er by assumption. cbn [bind]. rewrite div1. f_equal.
    change ((- ln (part n kap y) + r) / IZR N = / INR n * (- ln (part n kap y) + r)). rewrite IN. field. lra.
Qed.
End ND.

Section Dim.
Variables (l m T k d hi : R).
Hypotheses (Hl : 0 < l) (HT : 0 < T) (Hk : 0 < k) (Hd : 0 < d < hi).

Let kap : R := k * l ^ 2 / BOLTZMANN_CONSTANT / T.
Let KB : 0 < BOLTZMANN_CONSTANT. Proof. rewrite B_eq. apply kB_pos. Qed.
Let Hkap : 0 < kap.
Proof. unfold kap. repeat apply Rdiv_lt_0_compat; try lra. apply Rmult_lt_0_compat; [lra|apply pow_lt; lra]. Qed.
Let b : R := IZR N * l.
Let Hb : 0 < b. Proof. unfold b. rewrite IN. apply Rmult_lt_0_compat; lra. Qed.

Lemma dim_conj :
  conjugate (fun y => fjc_modified_canonical.helmholtz_free_energy prof N l m y k T)
    (fun y => fjc_modified_canonical.force prof N l y k T) 0 hi 1 d /\
  conjugate (fun y => fjc_modified_canonical.helmholtz_free_energy_per_link prof N l m y k T)
    (fun y => fjc_modified_canonical.force prof N l y k T) 0 hi (/ INR n) d /\
  conjugate (fun y => fjc_modified_canonical.relative_helmholtz_free_energy prof N l y k T)
    (fun y => fjc_modified_canonical.force prof N l y k T) 0 hi 1 d /\
  conjugate (fun y => fjc_modified_canonical.relative_helmholtz_free_energy_per_link prof N l y k T)
    (fun y => fjc_modified_canonical.force prof N l y k T) 0 hi (/ INR n) d.
Proof using Hn Hl HT Hk Hd.
  assert (Y : forall y, 0 < y -> 0 < y / b) by (intros; apply Rdiv_lt_0_compat; lra).
  assert (F : forall y, 0 < y -> fjc_modified_canonical.force prof N l y k T
    = Some (kB * T / l * (quad (num n kap (y / b)) / part n kap (y / b) / INR n))).
  { intros y Hy. unfold fjc_modified_canonical.force.
    change (sdiv y (smul (sofZ N) l)) with (y / b).
    change (sdiv (sdiv (smul k (spowi l 2)) BOLTZMANN_CONSTANT) T) with kap.
    unfold N at 1. rewrite nd_force_ok by (assumption || (apply Y; assumption)). cbn [bind]. f_equal.
    }
  destruct (rel_ok prof n kap Hn Hkap) as [r Er].
  split; [|split; [|split]].
  - apply (scaled kap _ _ (kB * T) b (kB * T / l)); try assumption; try lra.
    2:{ unfold b. rewrite IN. field. lra. }
    exists (- momentum n l m T). intros y Hy. unfold fjc_modified_canonical.helmholtz_free_energy.
    change (sdiv y (smul (sofZ N) l)) with (y / b).
    change (sdiv (sdiv (smul k (spowi l 2)) BOLTZMANN_CONSTANT) T) with kap.
    unfold N. rewrite nd_helmholtz_ok by (assumption || (apply Y; assumption)). cbn [bind]. f_equal.
  - apply (scaled kap _ _ (kB * T / INR n) b (kB * T / l)); try assumption; try lra.
    2:{ unfold b. rewrite IN. field. lra. }
    exists (- momentum n l m T). intros y Hy. unfold fjc_modified_canonical.helmholtz_free_energy_per_link, fjc_modified_canonical.nondimensional_helmholtz_free_energy_per_link.
    change (sdiv y (smul (sofZ N) l)) with (y / b).
    change (sdiv (sdiv (smul k (spowi l 2)) BOLTZMANN_CONSTANT) T) with kap.
    unfold N at 1. rewrite nd_helmholtz_ok by (assumption || (apply Y; assumption)). cbn [bind]. f_equal.
    change (BOLTZMANN_CONSTANT * T * ((- ln (part n kap (y / b)) - momentum n l m T) / IZR N) =
      kB * T / INR n * (- ln (part n kap (y / b)) + - momentum n l m T)).
    rewrite B_eq, IN. field. lra.
  - apply (scaled kap _ _ (kB * T) b (kB * T / l)); try assumption; try lra.
    2:{ unfold b. rewrite IN. field. lra. }
    exists r. intros y Hy. unfold fjc_modified_canonical.relative_helmholtz_free_energy.
    change (sdiv y (smul (sofZ N) l)) with (y / b).
    change (sdiv (sdiv (smul k (spowi l 2)) BOLTZMANN_CONSTANT) T) with kap.
    unfold N. rewrite Er by (apply Y; assumption). cbn [bind]. f_equal.
  - apply (scaled kap _ _ (kB * T / INR n) b (kB * T / l)); try assumption; try lra.
    2:{ unfold b. rewrite IN. field. lra. }
    exists r. intros y Hy. unfold fjc_modified_canonical.relative_helmholtz_free_energy_per_link, fjc_modified_canonical.nondimensional_relative_helmholtz_free_energy_per_link.
    change (sdiv y (smul (sofZ N) l)) with (y / b).
    change (sdiv (sdiv (smul k (spowi l 2)) BOLTZMANN_CONSTANT) T) with kap.
    unfold N at 1. rewrite Er by (apply Y; assumption). cbn [bind]. f_equal.
    change (BOLTZMANN_CONSTANT * T * ((- ln (part n kap (y / b)) + r) / IZR N) = kB * T / INR n * (- ln (part n kap (y / b)) + r)).
    rewrite B_eq, IN. field. lra.
Qed.

(** The free energy is minus the logarithm of the averaged Boltzmann factor. *)
Lemma quad_ext : forall f g, (forall x, 0 < x < 1 -> f x = g x) -> quad f = quad g.
Proof using. intros f g H. unfold quad. f_equal. apply Rsum_ext. intros x Hx. apply H, nodes_in, Hx. Qed.

Lemma quad_integrate : forall f, quad f = math.integrate_1d f (1 / 10 ^ 6) 1 64.
Proof using.
  intro f. rewrite integrate_1d_R. unfold quad, nodes. rewrite map_map.
  replace (1 / 10 ^ 6) with (ZERO : R) by (rewrite Z_eq; lra). reflexivity.
Qed.
End Dim.

Lemma den_average : forall kap d x, 0 < kap -> 0 < d -> 0 < x ->
  den n kap d x = 4 * PI * x ^ 2 * (INR n ^ 3 * walk_density n (INR n * x)) * average_factor 1 (INR n ^ 2 * kap) d x.
Proof using Hn.
  intros kap d x Hk Hd Hx. unfold den. rewrite P_walk by (lia || lra). f_equal.
  assert (0 < INR n ^ 2 * kap) by (apply Rmult_lt_0_compat; [apply pow_lt|]; lra).
  rewrite average_closed by lra. rewrite Rmult_1_l. unfold e1, e2, st. reflexivity.
Qed.

Lemma nd_partition : forall l m T kap d, 0 < kap -> 0 < d ->
  fjc_modified_canonical.nondimensional_helmholtz_free_energy prof N l m d kap T =
  Some (- ln (math.integrate_1d (fun x => 4 * PI * x ^ 2 * (INR n ^ 3 * walk_density n (INR n * x))
                                          * average_factor 1 (INR n ^ 2 * kap) d x) (1 / 10 ^ 6) 1 64)
        - (INR n - 1) * ln (8 * PI ^ 2 * m * l ^ 2 * kB * T / hP ^ 2)).
Proof using Hn.
  intros l m T kap d Hk Hd. unfold N. rewrite nd_helmholtz_ok by assumption. f_equal. unfold momentum. f_equal. f_equal. f_equal.
  rewrite <- quad_integrate. unfold part. apply quad_ext. intros x Hx. apply den_average; lra.
Qed.

Lemma partition : forall l m T k d, 0 < l -> 0 < T -> 0 < k -> 0 < d ->
  fjc_modified_canonical.helmholtz_free_energy prof N l m d k T =
  Some (kB * T * (- ln (math.integrate_1d (fun x => 4 * PI * x ^ 2 * (INR n ^ 3 * walk_density n (INR n * x))
                                          * average_factor (1 / (kB * T)) k d (x * (INR n * l))) (1 / 10 ^ 6) 1 64)
        - (INR n - 1) * ln (8 * PI ^ 2 * m * l ^ 2 * kB * T / hP ^ 2))).
Proof using Hn.
  intros l m T k d Hl HT Hk Hd. unfold fjc_modified_canonical.helmholtz_free_energy.
  change (sdiv d (smul (sofZ N) l)) with (d / (IZR N * l)).
  change (sdiv (sdiv (smul k (spowi l 2)) BOLTZMANN_CONSTANT) T) with (k * l ^ 2 / BOLTZMANN_CONSTANT / T).
  rewrite B_eq, IN. pose proof kB_pos as KB. assert (L2 : 0 < l ^ 2) by (apply pow_lt; lra).
  assert (0 < INR n * l) by (apply Rmult_lt_0_compat; lra).
  assert (0 < k * l ^ 2 / kB / T) by (repeat apply Rdiv_lt_0_compat; try lra; apply Rmult_lt_0_compat; lra).
  assert (Q : 0 < d / (INR n * l)) by (apply Rdiv_lt_0_compat; lra).
  rewrite nd_partition by assumption. cbn [bind]. f_equal. change (@smul R R_scalar) with Rmult. rewrite ?B_eq.
  f_equal. f_equal. f_equal. f_equal. rewrite <- !quad_integrate. apply quad_ext. intros x Hx. f_equal.
  assert (0 < 1 / (kB * T)) by (apply Rdiv_lt_0_compat; [lra | apply Rmult_lt_0_compat; lra]).
  assert (0 < INR n ^ 2 * (k * l ^ 2 / kB / T)) by (apply Rmult_lt_0_compat; [apply pow_lt; lra | lra]).
  rewrite !average_closed; try lra. 2:{ apply Rmult_lt_0_compat; lra. }
  f_equal; [f_equal|].
  - f_equal. field. lra.
  - f_equal. field. lra.
  - field. repeat split; lra.
Qed.

End Public.

(** ** Identities that hold for any number of links *)
Ltac opt := unfold option_map; repeat match goal with
  | |- context [bind ?x _] => destruct x; cbn [bind]
  end; try reflexivity; f_equal.

Section Any.
Variables (prof : profile) (N : Z) (l m d k kap T : R).
Hypotheses (HN : (0 < N)%Z) (Hl : 0 < l) (HT : 0 < T) (Hk : 0 < k) (Hkap : 0 < kap).
Let PN : 0 < IZR N. Proof. apply IZR_lt. exact HN. Qed.
Import fjc_modified_canonical.

Lemma lengths :
  end_to_end_length prof N l d k T = option_map (fun f => d - f / k) (force prof N l d k T) /\
  end_to_end_length_per_link prof N l d k T = option_map (fun f => (d - f / k) / IZR N) (force prof N l d k T) /\
  nondimensional_end_to_end_length prof N d kap = option_map (fun f => IZR N * d - f / kap) (nondimensional_force prof N d kap) /\
  nondimensional_end_to_end_length_per_link prof N d kap
    = option_map (fun f => (IZR N * d - f / kap) / IZR N) (nondimensional_force prof N d kap).
Proof using HN Hkap.
  repeat split.
  unfold nondimensional_end_to_end_length_per_link. destruct (nondimensional_force prof N d kap) as [f|]; [|reflexivity].
  cbn [bind option_map]. f_equal. change (d - f / kap / IZR N = (IZR N * d - f / kap) / IZR N). field. lra.
Qed.

Lemma gibbs :
  gibbs_free_energy prof N l m d k T = option_map (fun a => a - 1 / 2 * k * d ^ 2) (helmholtz_free_energy prof N l m d k T) /\
  gibbs_free_energy_per_link prof N l m d k T
    = option_map (fun a => a - 1 / 2 * k * d ^ 2 / IZR N) (helmholtz_free_energy_per_link prof N l m d k T) /\
  relative_gibbs_free_energy prof N l d k T
    = option_map (fun a => a - 1 / 2 * k * d ^ 2) (relative_helmholtz_free_energy prof N l d k T) /\
  relative_gibbs_free_energy_per_link prof N l d k T
    = option_map (fun a => a - 1 / 2 * k * d ^ 2 / IZR N) (relative_helmholtz_free_energy_per_link prof N l d k T) /\
  nondimensional_gibbs_free_energy prof N l m d kap T
    = option_map (fun a => a - 1 / 2 * kap * (IZR N * d) ^ 2) (nondimensional_helmholtz_free_energy prof N l m d kap T) /\
  nondimensional_gibbs_free_energy_per_link prof N l m d kap T
    = option_map (fun a => a - 1 / 2 * kap * (IZR N * d) ^ 2 / IZR N) (nondimensional_helmholtz_free_energy_per_link prof N l m d kap T) /\
  nondimensional_relative_gibbs_free_energy prof N d kap
    = option_map (fun a => a - 1 / 2 * kap * (IZR N * d) ^ 2) (nondimensional_relative_helmholtz_free_energy prof N d kap) /\
  nondimensional_relative_gibbs_free_energy_per_link prof N d kap
    = option_map (fun a => a - 1 / 2 * kap * (IZR N * d) ^ 2 / IZR N) (nondimensional_relative_helmholtz_free_energy_per_link prof N d kap).
Proof using HN.
  repeat split;
  match goal with |- ?f _ = _ => unfold f | |- ?f _ _ = _ => unfold f | |- ?f _ _ _ = _ => unfold f | |- ?f _ _ _ _ = _ => unfold f
    | |- ?f _ _ _ _ _ = _ => unfold f | |- ?f _ _ _ _ _ _ = _ => unfold f | |- ?f _ _ _ _ _ _ _ = _ => unfold f | _ => idtac end.
  - unfold gibbs_free_energy. destruct (helmholtz_free_energy prof N l m d k T) as [h|]; [|reflexivity].
    cbn [bind option_map]. f_equal. change (h - 5 / 10 * k * d ^ 2 = h - 1 / 2 * k * d ^ 2). lra.
  - unfold gibbs_free_energy_per_link. destruct (helmholtz_free_energy_per_link prof N l m d k T) as [h|]; [|reflexivity].
    cbn [bind option_map]. f_equal. change (h - 5 / 10 * k * d ^ 2 / IZR N = h - 1 / 2 * k * d ^ 2 / IZR N). field. lra.
  - unfold relative_gibbs_free_energy. destruct (relative_helmholtz_free_energy prof N l d k T) as [h|]; [|reflexivity].
    cbn [bind option_map]. f_equal. change (h - 5 / 10 * k * d ^ 2 = h - 1 / 2 * k * d ^ 2). lra.
  - unfold relative_gibbs_free_energy_per_link. destruct (relative_helmholtz_free_energy_per_link prof N l d k T) as [h|]; [|reflexivity].
    cbn [bind option_map]. f_equal. change (h - 5 / 10 * k * d ^ 2 / IZR N = h - 1 / 2 * k * d ^ 2 / IZR N). field. lra.
  - unfold nondimensional_gibbs_free_energy. destruct (nondimensional_helmholtz_free_energy prof N l m d kap T) as [h|]; [|reflexivity].
    cbn [bind option_map]. f_equal. change (h - 5 / 10 * IZR N ^ 2 * kap * d ^ 2 = h - 1 / 2 * kap * (IZR N * d) ^ 2). field.
  - unfold nondimensional_gibbs_free_energy_per_link. destruct (nondimensional_helmholtz_free_energy_per_link prof N l m d kap T) as [h|]; [|reflexivity].
    cbn [bind option_map]. f_equal. change (h - 5 / 10 * IZR N * kap * d ^ 2 = h - 1 / 2 * kap * (IZR N * d) ^ 2 / IZR N). field. lra.
  - unfold nondimensional_relative_gibbs_free_energy. destruct (nondimensional_relative_helmholtz_free_energy prof N d kap) as [h|]; [|reflexivity].
    cbn [bind option_map]. f_equal. change (h - 5 / 10 * IZR N ^ 2 * kap * d ^ 2 = h - 1 / 2 * kap * (IZR N * d) ^ 2). field.
  - unfold nondimensional_relative_gibbs_free_energy_per_link. destruct (nondimensional_relative_helmholtz_free_energy_per_link prof N d kap) as [h|]; [|reflexivity].
    cbn [bind option_map]. f_equal. change (h - 5 / 10 * IZR N * kap * d ^ 2 = h - 1 / 2 * kap * (IZR N * d) ^ 2 / IZR N). field. lra.
Qed.

(** Dimensional functions are the nondimensional ones at distance/(N l) and
    stiffness*l^2/kT, rescaled. *)
Let z : R := d / (IZR N * l).
Let w : R := k * l ^ 2 / (kB * T).

Lemma w_eq : k * l ^ 2 / kB / T = w.
Proof using. unfold w, Rdiv. rewrite Rinv_mult. ring. Qed.

Lemma dimensionless :
  force prof N l d k T = option_map (fun f => kB * T / l * f) (nondimensional_force prof N z w) /\
  end_to_end_length prof N l d k T = option_map (fun x => l * x) (nondimensional_end_to_end_length prof N z w) /\
  end_to_end_length_per_link prof N l d k T = option_map (fun x => l * x) (nondimensional_end_to_end_length_per_link prof N z w) /\
  helmholtz_free_energy prof N l m d k T = option_map (fun a => kB * T * a) (nondimensional_helmholtz_free_energy prof N l m z w T) /\
  helmholtz_free_energy_per_link prof N l m d k T
    = option_map (fun a => kB * T * a) (nondimensional_helmholtz_free_energy_per_link prof N l m z w T) /\
  relative_helmholtz_free_energy prof N l d k T
    = option_map (fun a => kB * T * a) (nondimensional_relative_helmholtz_free_energy prof N z w) /\
  relative_helmholtz_free_energy_per_link prof N l d k T
    = option_map (fun a => kB * T * a) (nondimensional_relative_helmholtz_free_energy_per_link prof N z w) /\
  gibbs_free_energy prof N l m d k T = option_map (fun a => kB * T * a) (nondimensional_gibbs_free_energy prof N l m z w T) /\
  gibbs_free_energy_per_link prof N l m d k T
    = option_map (fun a => kB * T * a) (nondimensional_gibbs_free_energy_per_link prof N l m z w T) /\
  relative_gibbs_free_energy prof N l d k T
    = option_map (fun a => kB * T * a) (nondimensional_relative_gibbs_free_energy prof N z w) /\
  relative_gibbs_free_energy_per_link prof N l d k T
    = option_map (fun a => kB * T * a) (nondimensional_relative_gibbs_free_energy_per_link prof N z w).
Proof using HN Hl HT Hk.
  pose proof kB_pos as KB.
  assert (F : force prof N l d k T = option_map (fun f => kB * T / l * f) (nondimensional_force prof N z w)).
  { unfold force. change (sdiv d (smul (sofZ N) l)) with z.
    change (sdiv (sdiv (smul k (spowi l 2)) BOLTZMANN_CONSTANT) T) with (k * l ^ 2 / BOLTZMANN_CONSTANT / T).
    rewrite B_eq, w_eq. destruct (nondimensional_force prof N z w); [|reflexivity]. cbn [bind option_map]. f_equal. }
  assert (A1 : helmholtz_free_energy prof N l m d k T = option_map (fun a => kB * T * a) (nondimensional_helmholtz_free_energy prof N l m z w T)).
  { unfold helmholtz_free_energy. change (sdiv d (smul (sofZ N) l)) with z.
    change (sdiv (sdiv (smul k (spowi l 2)) BOLTZMANN_CONSTANT) T) with (k * l ^ 2 / BOLTZMANN_CONSTANT / T).
    rewrite B_eq, w_eq. destruct (nondimensional_helmholtz_free_energy prof N l m z w T); [|reflexivity]. cbn [bind option_map]. f_equal. }
  assert (A2 : helmholtz_free_energy_per_link prof N l m d k T
    = option_map (fun a => kB * T * a) (nondimensional_helmholtz_free_energy_per_link prof N l m z w T)).
  { unfold helmholtz_free_energy_per_link. change (sdiv d (smul (sofZ N) l)) with z.
    change (sdiv (sdiv (smul k (spowi l 2)) BOLTZMANN_CONSTANT) T) with (k * l ^ 2 / BOLTZMANN_CONSTANT / T).
    rewrite B_eq, w_eq. destruct (nondimensional_helmholtz_free_energy_per_link prof N l m z w T); [|reflexivity]. cbn [bind option_map]. f_equal. }
  assert (A3 : relative_helmholtz_free_energy prof N l d k T
    = option_map (fun a => kB * T * a) (nondimensional_relative_helmholtz_free_energy prof N z w)).
  { unfold relative_helmholtz_free_energy. change (sdiv d (smul (sofZ N) l)) with z.
    change (sdiv (sdiv (smul k (spowi l 2)) BOLTZMANN_CONSTANT) T) with (k * l ^ 2 / BOLTZMANN_CONSTANT / T).
    rewrite B_eq, w_eq. destruct (nondimensional_relative_helmholtz_free_energy prof N z w); [|reflexivity]. cbn [bind option_map]. f_equal. }
  assert (A4 : relative_helmholtz_free_energy_per_link prof N l d k T
    = option_map (fun a => kB * T * a) (nondimensional_relative_helmholtz_free_energy_per_link prof N z w)).
  { unfold relative_helmholtz_free_energy_per_link. change (sdiv d (smul (sofZ N) l)) with z.
    change (sdiv (sdiv (smul k (spowi l 2)) BOLTZMANN_CONSTANT) T) with (k * l ^ 2 / BOLTZMANN_CONSTANT / T).
    rewrite B_eq, w_eq. destruct (nondimensional_relative_helmholtz_free_energy_per_link prof N z w); [|reflexivity]. cbn [bind option_map]. f_equal. }
  split; [exact F|].
  split; [unfold end_to_end_length, nondimensional_end_to_end_length; rewrite F;
    destruct (nondimensional_force prof N z w) as [f|]; [|reflexivity]; cbn [bind option_map]; f_equal;
    change (d - kB * T / l * f / k = l * (IZR N * z - f / w)); unfold z, w; field; lra|].
  split; [unfold end_to_end_length_per_link, nondimensional_end_to_end_length_per_link; rewrite F;
    destruct (nondimensional_force prof N z w) as [f|]; [|reflexivity]; cbn [bind option_map]; f_equal;
    change ((d - kB * T / l * f / k) / IZR N = l * (z - f / w / IZR N)); unfold z, w; field; lra|].
  split; [exact A1|]. split; [exact A2|]. split; [exact A3|]. split; [exact A4|].
  split; [unfold gibbs_free_energy, nondimensional_gibbs_free_energy; rewrite A1;
    destruct (nondimensional_helmholtz_free_energy prof N l m z w T) as [f|]; [|reflexivity]; cbn [bind option_map]; f_equal;
    change (kB * T * f - 5 / 10 * k * d ^ 2 = kB * T * (f - 5 / 10 * IZR N ^ 2 * w * z ^ 2)); unfold z, w; field; lra|].
  split; [unfold gibbs_free_energy_per_link, nondimensional_gibbs_free_energy_per_link; rewrite A2;
    destruct (nondimensional_helmholtz_free_energy_per_link prof N l m z w T) as [f|]; [|reflexivity]; cbn [bind option_map]; f_equal;
    change (kB * T * f - 5 / 10 * k * d ^ 2 / IZR N = kB * T * (f - 5 / 10 * IZR N * w * z ^ 2)); unfold z, w; field; lra|].
  split; [unfold relative_gibbs_free_energy, nondimensional_relative_gibbs_free_energy; rewrite A3;
    destruct (nondimensional_relative_helmholtz_free_energy prof N z w) as [f|]; [|reflexivity]; cbn [bind option_map]; f_equal;
    change (kB * T * f - 5 / 10 * k * d ^ 2 = kB * T * (f - 5 / 10 * IZR N ^ 2 * w * z ^ 2)); unfold z, w; field; lra|].
  unfold relative_gibbs_free_energy_per_link, nondimensional_relative_gibbs_free_energy_per_link; rewrite A4;
    destruct (nondimensional_relative_helmholtz_free_energy_per_link prof N z w) as [f|]; [|reflexivity]; cbn [bind option_map]; f_equal;
    change (kB * T * f - 5 / 10 * k * d ^ 2 / IZR N = kB * T * (f - 5 / 10 * IZR N * w * z ^ 2)); unfold z, w; field; lra.
Qed.

(** Totals are N times the functions per link. *)
Lemma extensive :
  nondimensional_end_to_end_length prof N d kap = option_map (fun x => IZR N * x) (nondimensional_end_to_end_length_per_link prof N d kap) /\
  end_to_end_length prof N l d k T = option_map (fun x => IZR N * x) (end_to_end_length_per_link prof N l d k T) /\
  helmholtz_free_energy prof N l m d k T = option_map (fun x => IZR N * x) (helmholtz_free_energy_per_link prof N l m d k T) /\
  relative_helmholtz_free_energy prof N l d k T = option_map (fun x => IZR N * x) (relative_helmholtz_free_energy_per_link prof N l d k T) /\
  gibbs_free_energy prof N l m d k T = option_map (fun x => IZR N * x) (gibbs_free_energy_per_link prof N l m d k T) /\
  relative_gibbs_free_energy prof N l d k T = option_map (fun x => IZR N * x) (relative_gibbs_free_energy_per_link prof N l d k T) /\
  nondimensional_helmholtz_free_energy prof N l m d kap T
    = option_map (fun x => IZR N * x) (nondimensional_helmholtz_free_energy_per_link prof N l m d kap T) /\
  nondimensional_relative_helmholtz_free_energy prof N d kap
    = option_map (fun x => IZR N * x) (nondimensional_relative_helmholtz_free_energy_per_link prof N d kap) /\
  nondimensional_gibbs_free_energy prof N l m d kap T
    = option_map (fun x => IZR N * x) (nondimensional_gibbs_free_energy_per_link prof N l m d kap T) /\
  nondimensional_relative_gibbs_free_energy prof N d kap
    = option_map (fun x => IZR N * x) (nondimensional_relative_gibbs_free_energy_per_link prof N d kap).
Proof using HN Hl HT Hk Hkap.
  pose proof kB_pos as KB.
  assert (A : forall l m d kap T, nondimensional_helmholtz_free_energy prof N l m d kap T
    = option_map (fun x => IZR N * x) (nondimensional_helmholtz_free_energy_per_link prof N l m d kap T)).
  { intros l' m' d' k' T'. unfold nondimensional_helmholtz_free_energy_per_link.
    destruct (nondimensional_helmholtz_free_energy prof N l' m' d' k' T') as [f|]; [|reflexivity]. cbn [bind option_map]. f_equal.
    change (f = IZR N * (f / IZR N)). field. lra. }
  assert (B : forall d kap, nondimensional_relative_helmholtz_free_energy prof N d kap
    = option_map (fun x => IZR N * x) (nondimensional_relative_helmholtz_free_energy_per_link prof N d kap)).
  { intros d' k'. unfold nondimensional_relative_helmholtz_free_energy_per_link.
    destruct (nondimensional_relative_helmholtz_free_energy prof N d' k') as [f|]; [|reflexivity]. cbn [bind option_map]. f_equal.
    change (f = IZR N * (f / IZR N)). field. lra. }
  destruct dimensionless as (_ & _ & _ & D1 & D2 & D3 & D4 & _).
  destruct gibbs as (G1 & G2 & G3 & G4 & G5 & G6 & G7 & G8).
  destruct lengths as (L1 & L2 & L3 & L4).
  split; [rewrite L3, L4; destruct (nondimensional_force prof N d kap) as [f|]; [|reflexivity]; cbn [option_map]; f_equal; field; lra|].
  split; [rewrite L1, L2; destruct (force prof N l d k T) as [f|]; [|reflexivity]; cbn [option_map]; f_equal; field; lra|].
  assert (H1 : helmholtz_free_energy prof N l m d k T = option_map (fun x => IZR N * x) (helmholtz_free_energy_per_link prof N l m d k T)).
  { rewrite D1, D2, A. destruct (nondimensional_helmholtz_free_energy_per_link prof N l m z w T) as [f|]; [|reflexivity]; cbn [option_map]; f_equal; ring. }
  assert (H2 : relative_helmholtz_free_energy prof N l d k T = option_map (fun x => IZR N * x) (relative_helmholtz_free_energy_per_link prof N l d k T)).
  { rewrite D3, D4, B. destruct (nondimensional_relative_helmholtz_free_energy_per_link prof N z w) as [f|]; [|reflexivity]; cbn [option_map]; f_equal; ring. }
  split; [exact H1|]. split; [exact H2|].
  split; [rewrite G1, G2, H1; destruct (helmholtz_free_energy_per_link prof N l m d k T) as [f|]; [|reflexivity]; cbn [option_map]; f_equal; field; lra|].
  split; [rewrite G3, G4, H2; destruct (relative_helmholtz_free_energy_per_link prof N l d k T) as [f|]; [|reflexivity]; cbn [option_map]; f_equal; field; lra|].
  split; [apply A|]. split; [apply B|].
  split; [rewrite G5, G6, A; destruct (nondimensional_helmholtz_free_energy_per_link prof N l m d kap T) as [f|]; [|reflexivity]; cbn [option_map]; f_equal; field; lra|].
  rewrite G7, G8, B; destruct (nondimensional_relative_helmholtz_free_energy_per_link prof N d kap) as [f|]; [|reflexivity]; cbn [option_map]; f_equal; field; lra.
Qed.
End Any.
