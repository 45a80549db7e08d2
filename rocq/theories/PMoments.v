(** The mean square end-to-end length of the freely jointed chain and of the ideal chain. *)
From Coq Require Import Reals ZArith Lra Lia.
From Coquelicot Require Import Coquelicot.
From Verif Require Import Scalar MConst MTreloar MFjc MIdeal SpecThermo SpecGauss SpecPartition SpecIsometric SpecWalk SpecHooke SpecMoments
  PBase PHyp PLangevin PIrwinHall PWalk PTreloar PIsometric PLaplace PIdealDist PPartition.
From Verif Require PHooke PErfc.
Open Scope R_scope.

(** ** Bounds of the angular average *)
Lemma cosh_le_exp : forall x, 0 < x -> cosh x <= exp x.
Proof. intros x H. unfold cosh. assert (exp (- x) < exp x) by (apply exp_increasing; lra). lra. Qed.

Lemma sinh_le_cosh3 : forall x, 0 < x -> sinh x <= x + x ^ 3 / 6 * cosh x.
Proof.
  intros x Hx. left. cut (0 < x + x ^ 3 / 6 * cosh x - sinh x); [lra |].
  apply (pos_of_derive (fun x => x + x ^ 3 / 6 * cosh x - sinh x) (fun x => 1 + x ^ 2 / 2 * cosh x + x ^ 3 / 6 * sinh x - cosh x));
    [rewrite sinh_0; field | | | exact Hx].
  - unfold sinh, cosh. intros y _. auto_derive; [exact I |]. simpl. field.
  - clear x Hx. intros x Hx.
    apply (pos_of_derive (fun x => 1 + x ^ 2 / 2 * cosh x + x ^ 3 / 6 * sinh x - cosh x)
      (fun x => x * cosh x + x ^ 2 * sinh x + x ^ 3 / 6 * cosh x - sinh x));
      [rewrite sinh_0, cosh_0; field | | | exact Hx].
    + unfold sinh, cosh. intros y _. auto_derive; [exact I |]. simpl. field.
    + clear x Hx. intros x Hx. pose proof (sinh_pos x Hx). pose proof (cosh_pos x). pose proof (xcosh_gt x Hx).
      assert (0 < x ^ 2 * sinh x) by (apply Rmult_lt_0_compat; [apply pow_lt |]; assumption).
      assert (0 < x ^ 3 * cosh x) by (apply Rmult_lt_0_compat; [apply pow_lt |]; assumption). lra.
Qed.

Lemma quotient_bounds : forall x, 0 < x -> 1 + x ^ 2 / 6 <= sinh x / x <= 1 + x ^ 2 / 6 * cosh x.
Proof.
  intros x Hx. pose proof (sinh_gt_3 x Hx). pose proof (sinh_le_cosh3 x Hx). split.
  - apply (Rmult_le_reg_r x); [exact Hx |]. unfold Rdiv at 2. rewrite Rmult_assoc, Rinv_l by lra. lra.
  - apply (Rmult_le_reg_r x); [exact Hx |]. unfold Rdiv at 1. rewrite Rmult_assoc, Rinv_l by lra. lra.
Qed.

Lemma bernoulli : forall n x, 0 <= x -> 1 + INR n * x <= (1 + x) ^ n.
Proof.
  induction n as [|n IH]; intros x Hx; [simpl; lra |]. rewrite S_INR. simpl.
  pose proof (IH x Hx). pose proof (pos_INR n). assert (0 <= INR n * x) by (apply Rmult_le_pos; lra). nra.
Qed.

(** A number below exp (c t) for every small t > 0 is at most 1. *)
Lemma le_one : forall a c, 0 < c -> (forall t, 0 < t <= 1 -> a <= exp (c * t)) -> a <= 1.
Proof.
  intros a c Hc H. destruct (Rle_dec a 1) as [|Q]; [assumption | exfalso].
  assert (L : 0 < ln a) by (rewrite <- ln_1; apply ln_increasing; lra).
  set (t := Rmin 1 (ln a / (2 * c))).
  assert (T : 0 < t <= 1).
  { split; [apply Rmin_pos; [lra | apply Rdiv_lt_0_compat; lra] | apply Rmin_l]. }
  pose proof (H t T) as K. assert (c * t <= ln a / 2).
  { apply Rle_trans with (c * (ln a / (2 * c))); [apply Rmult_le_compat_l; [lra | apply Rmin_r] |]. right. field. lra. }
  assert (exp (c * t) < exp (ln a)) by (apply exp_increasing; lra). rewrite exp_ln in * by lra. lra.
Qed.

(** ** The freely jointed chain *)
Definition w (n : nat) (g : R) : R := 4 * PI * g ^ 2 * P n g.

Lemma w_form : forall n g, (2 <= n)%nat -> 0 < g -> w n g = INR n ^ 2 / 2 * g * ih (n - 2) n (arg n g).
Proof. intros n g Hn Hg. unfold w, P. pose proof PI_RGT_0. field. split; lra. Qed.

Lemma w_square_ex : forall n, (2 <= n)%nat -> ex_RInt (fun g => w n g * g ^ 2) 0 1.
Proof.
  intros n Hn. destruct n as [|[|[|j]]]; [lia | lia | |].
  - apply (ex_RInt_ext (V := R_NormedModule) (fun g => 2 * g * g ^ 2)).
    + intros g Hg. rewrite Rmin_left, Rmax_right in Hg by lra. rewrite w_form by (lia || lra).
      assert (A : 0 < arg 2 g < 1) by (unfold arg; simpl; lra).
      match goal with |- ?p = ?q => change (@eq R p q) end.
      cbn [Nat.sub ih fact]. unfold pp. set (y := arg 2 g) in *. clearbody y.
      repeat match goal with |- context [Rlt_dec ?a ?b] => destruct (Rlt_dec a b) end; simpl; try (exfalso; lra); field.
    + apply (ex_RInt_continuous (V := R_CompleteNormedModule)). intros g _.
      apply (ex_derive_continuous (V := R_NormedModule)). auto_derive. exact I.
  - set (n := S (S (S j))) in *.
    apply (ex_RInt_ext (V := R_NormedModule) (fun g => INR n ^ 2 / 2 * g * g ^ 2 * ih (n - 2) n (arg n g))).
    + intros g Hg. rewrite Rmin_left, Rmax_right in Hg by lra. rewrite w_form by (lia || lra).
      match goal with |- ?p = ?q => change (@eq R p q) end. ring.
    + apply (ex_RInt_continuous (V := R_CompleteNormedModule)). intros g _.
      apply (continuous_mult (K := R_AbsRing) (fun g => INR n ^ 2 / 2 * g * g ^ 2) (fun g => ih (n - 2) n (arg n g))).
      * apply (ex_derive_continuous (V := R_NormedModule)). auto_derive. exact I.
      * apply (continuous_comp (arg n) (ih (n - 2) n)).
        -- apply (ex_derive_continuous (V := R_NormedModule)). unfold arg. auto_derive. exact I.
        -- apply ih_continuous. unfold n. lia.
Qed.

Lemma w_square_bounds : forall n eta, (2 <= n)%nat -> 0 < eta ->
  let m := RInt (fun g => w n g * g ^ 2) 0 1 in
  1 + (INR n * eta) ^ 2 / 6 * m <= (sinh eta / eta) ^ n <= 1 + (INR n * eta) ^ 2 / 6 * cosh (INR n * eta) * m.
Proof.
  intros n eta Hn He m. assert (Pn : 0 < INR n) by (apply lt_0_INR; lia).
  pose proof (RInt_correct (V := R_CompleteNormedModule) _ _ _ (w_square_ex n Hn)) as Im. fold m in Im.
  pose proof (P_normalised n Hn) as I1. pose proof (P_laplace n eta Hn He) as IL.
  assert (Pne : 0 < INR n * eta) by (apply Rmult_lt_0_compat; lra).
  assert (K : forall c, is_RInt (fun g => w n g + c * (w n g * g ^ 2)) 0 1 (1 + c * m)).
  { intro c. apply (is_RInt_plus (V := R_NormedModule)); [exact I1 |]. apply (is_RInt_scal (V := R_NormedModule)). exact Im. }
  assert (B : forall g, 0 < g < 1 -> 0 < w n g /\ angular_average (INR n * eta * g) = sinh (INR n * eta * g) / (INR n * eta * g)
     /\ 0 < INR n * eta * g <= INR n * eta).
  { intros g Hg. assert (0 < INR n * eta * g) by (apply Rmult_lt_0_compat; lra). split; [| split].
    - unfold w. pose proof (P_pos n g Hn Hg). pose proof PI_RGT_0. apply Rmult_lt_0_compat; [| assumption].
      apply Rmult_lt_0_compat; [lra | apply pow_lt; lra].
    - apply angular_value. lra.
    - split; [assumption |]. nra. }
  split.
  - refine (is_RInt_le _ _ 0 1 _ _ _ (K ((INR n * eta) ^ 2 / 6)) IL _); [lra |].
    intros g Hg. destruct (B g Hg) as (W & A & X). change (4 * PI * g ^ 2 * P n g) with (w n g). rewrite A.
    destruct (quotient_bounds _ (proj1 X)) as [Q _].
    replace (w n g + (INR n * eta) ^ 2 / 6 * (w n g * g ^ 2)) with (w n g * (1 + (INR n * eta * g) ^ 2 / 6)) by field.
    apply Rmult_le_compat_l; lra.
  - refine (is_RInt_le _ _ 0 1 _ _ _ IL (K ((INR n * eta) ^ 2 / 6 * cosh (INR n * eta))) _); [lra |].
    intros g Hg. destruct (B g Hg) as (W & A & X). change (4 * PI * g ^ 2 * P n g) with (w n g). rewrite A.
    destruct (quotient_bounds _ (proj1 X)) as [_ Q].
    assert (C : cosh (INR n * eta * g) <= cosh (INR n * eta)).
    { apply PHooke.cosh_mono; lra. }
    replace (w n g + (INR n * eta) ^ 2 / 6 * cosh (INR n * eta) * (w n g * g ^ 2))
      with (w n g * (1 + (INR n * eta * g) ^ 2 / 6 * cosh (INR n * eta))) by field.
    apply Rmult_le_compat_l; [lra |]. eapply Rle_trans; [exact Q |]. apply Rplus_le_compat_l.
    apply Rmult_le_compat_l; [| exact C]. assert (0 <= (INR n * eta * g) ^ 2) by (apply pow2_ge_0). lra.
Qed.

Lemma w_square : forall n, (2 <= n)%nat -> RInt (fun g => w n g * g ^ 2) 0 1 = 1 / INR n.
Proof.
  intros n Hn. assert (Pn : 0 < INR n) by (apply lt_0_INR; lia).
  pose proof (w_square_bounds n) as B. set (m := RInt (fun g => w n g * g ^ 2) 0 1) in *. clearbody m.
  assert (U : INR n * m <= 1).
  { apply (le_one _ (INR n + 1)); [lra |]. intros t Ht. destruct (B t Hn (proj1 Ht)) as [L _]. clear B.
    destruct (quotient_bounds t (proj1 Ht)) as [_ Q].
    set (v := t ^ 2 / 6 * cosh t) in *. assert (T2 : 0 < t ^ 2) by (apply pow_lt; lra). pose proof (cosh_pos t) as CP.
    assert (V : 0 < v) by (unfold v; apply Rmult_lt_0_compat; lra).
    assert (E : (sinh t / t) ^ n <= exp (INR n * v)).
    { rewrite <- PErfc.exp_pow || rewrite PErfc.exp_pow. apply pow_incr. split.
      - left. apply Rdiv_lt_0_compat; [apply sinh_pos |]; lra.
      - eapply Rle_trans; [exact Q |]. apply exp_ineq1_le. }
    assert (E2 : exp (INR n * v) <= 1 + INR n * v * exp (INR n * v)).
    { set (z := INR n * v). pose proof (exp_ineq1_le (- z)) as H1. rewrite exp_Ropp in H1. pose proof (exp_pos z).
      apply (Rmult_le_compat_r (exp z)) in H1; [| lra]. rewrite Rinv_l in H1 by lra. lra. }
    assert (E3 : (INR n * t) ^ 2 / 6 * m <= INR n * v * exp (INR n * v)) by lra.
    assert (E4 : INR n * m <= cosh t * exp (INR n * v)).
    { apply (Rmult_le_reg_l (INR n * (t ^ 2 / 6))); [apply Rmult_lt_0_compat; lra |].
      replace (INR n * (t ^ 2 / 6) * (INR n * m)) with ((INR n * t) ^ 2 / 6 * m) by field.
      replace (INR n * (t ^ 2 / 6) * (cosh t * exp (INR n * v))) with (INR n * v * exp (INR n * v)) by (unfold v; field). exact E3. }
    eapply Rle_trans; [exact E4 |]. replace ((INR n + 1) * t) with (t + INR n * t) by ring. rewrite exp_plus.
    pose proof (cosh_le_exp t (proj1 Ht)) as C.
    assert (VT : v <= t).
    { unfold v. assert (exp t <= exp 1) by (destruct (Req_dec t 1) as [-> |]; [lra | left; apply exp_increasing; lra]).
      pose proof exp_le_3. replace t with (t * 1) at 3 by ring. replace (t ^ 2 / 6 * cosh t) with (t * (t * cosh t / 6)) by field.
      apply Rmult_le_compat_l; [lra |]. assert (t * cosh t <= 1 * 3) by (apply Rmult_le_compat; lra). lra. }
    apply Rmult_le_compat; [lra | left; apply exp_pos | exact C |].
    assert (INR n * v <= INR n * t) by (apply Rmult_le_compat_l; lra).
    destruct (Req_dec (INR n * v) (INR n * t)) as [-> |]; [lra | left; apply exp_increasing; lra]. }
  assert (D : 1 / (INR n * m) <= 1 /\ 0 < INR n * m).
  { assert (Mp : 0 < m).
    { destruct (B 1 Hn Rlt_0_1) as [_ L]. pose proof (bernoulli n (1 ^ 2 / 6) ltac:(lra)) as Q.
      destruct (quotient_bounds 1 Rlt_0_1) as [Q1 _].
      assert (Q2 : (1 + 1 ^ 2 / 6) ^ n <= (sinh 1 / 1) ^ n) by (apply pow_incr; lra).
      assert (0 < INR n * (1 ^ 2 / 6)) by (apply Rmult_lt_0_compat; lra).
      assert (Z : 0 < (INR n * 1) ^ 2 / 6 * cosh (INR n * 1)).
      { apply Rmult_lt_0_compat; [| apply cosh_pos]. apply Rdiv_lt_0_compat; [apply pow_lt |]; lra. }
      apply (Rmult_lt_reg_l _ _ _ Z). rewrite Rmult_0_r. lra. }
    assert (NM : 0 < INR n * m) by (apply Rmult_lt_0_compat; lra). split; [| exact NM].
    apply (le_one _ (INR n)); [lra |]. intros t Ht. destruct (B t Hn (proj1 Ht)) as [_ L]. clear B.
    destruct (quotient_bounds t (proj1 Ht)) as [Q _].
    assert (T2 : 0 < t ^ 2) by (apply pow_lt; lra).
    pose proof (bernoulli n (t ^ 2 / 6) ltac:(lra)) as Q0.
    assert (Q2 : (1 + t ^ 2 / 6) ^ n <= (sinh t / t) ^ n) by (apply pow_incr; lra).
    assert (E : INR n * (t ^ 2 / 6) <= (INR n * t) ^ 2 / 6 * cosh (INR n * t) * m) by lra.
    pose proof (cosh_le_exp (INR n * t) ltac:(apply Rmult_lt_0_compat; lra)) as C.
    apply (Rmult_le_reg_r (INR n * m)); [exact NM |]. unfold Rdiv. rewrite Rmult_assoc, Rinv_l, Rmult_1_r by lra.
    apply Rle_trans with (cosh (INR n * t) * (INR n * m)).
    - apply (Rmult_le_reg_l (INR n * (t ^ 2 / 6))); [apply Rmult_lt_0_compat; lra |].
      replace (INR n * (t ^ 2 / 6) * (cosh (INR n * t) * (INR n * m))) with ((INR n * t) ^ 2 / 6 * cosh (INR n * t) * m) by field. lra.
    - apply Rmult_le_compat_r; lra. }
  destruct D as [D NM]. assert (1 <= INR n * m).
  { apply (Rmult_le_compat_r (INR n * m)) in D; [| lra]. unfold Rdiv in D. rewrite Rmult_assoc, Rinv_l in D by lra. lra. }
  apply (Rmult_eq_reg_l (INR n)); [| lra]. unfold Rdiv. rewrite Rmult_1_l, Rinv_r by lra. lra.
Qed.

Lemma fjc_square : forall prof (N : Z), (2 <= N <= 26)%Z ->
  mean_square_length (fjc_isometric.nondimensional_equilibrium_radial_distribution prof N) 0 1 (1 / IZR N).
Proof.
  intros prof N HN. assert (Q : exists n, N = Z.of_nat n) by (exists (Z.to_nat N); lia). destruct Q as (n & ->).
  exists (fun g => w n g * g ^ 2). split.
  - intros y Hy. unfold fjc_isometric.nondimensional_equilibrium_radial_distribution. rewrite distribution_ok by (lia || lra). reflexivity.
  - rewrite <- INR_IZR_INZ, <- w_square by lia. apply (RInt_correct (V := R_CompleteNormedModule)), w_square_ex. lia.
Qed.

Lemma fjc_square_dimensional : forall prof (N : Z) (l : R), (2 <= N <= 26)%Z -> 0 < l ->
  mean_square_length (fjc_isometric.equilibrium_radial_distribution prof N l) 0 (IZR N * l) (IZR N * l ^ 2).
Proof.
  intros prof N l HN Hl. assert (PN : 0 < IZR N) by (apply IZR_lt; lia).
  assert (Pl : 0 < IZR N * l) by (apply Rmult_lt_0_compat; assumption).
  destruct (fjc_square prof N HN) as (v & Hv & I).
  exists (fun xi => (IZR N * l) ^ 2 * (/ (IZR N * l) * v (/ (IZR N * l) * xi + 0))). split.
  - intros y Hy. unfold fjc_isometric.equilibrium_radial_distribution.
    change (sdiv y (smul (sofZ N) l)) with (y / (IZR N * l)).
    assert (H : 0 < y / (IZR N * l) < 1).
    { split; [apply Rdiv_lt_0_compat; lra |]. apply Rmult_lt_reg_r with (IZR N * l); [exact Pl |].
      unfold Rdiv. rewrite Rmult_assoc, Rinv_l by lra. lra. }
    pose proof (Hv _ H) as E. cbv beta in E.
    destruct (fjc_isometric.nondimensional_equilibrium_radial_distribution prof N (y / (IZR N * l))) as [p|]; [| discriminate].
    apply (f_equal (fun o => match o with Some z => z | None => 0 end)) in E. cbn [bind].
    f_equal. change (p / (IZR N * l) * y ^ 2 = (IZR N * l) ^ 2 * (/ (IZR N * l) * v (/ (IZR N * l) * y + 0))).
    replace (/ (IZR N * l) * y + 0) with (y / (IZR N * l)) by (unfold Rdiv; ring). rewrite <- E. field. lra.
  - replace (IZR N * l ^ 2) with ((IZR N * l) ^ 2 * (1 / IZR N)) by (field; lra).
    apply (is_RInt_scal (V := R_NormedModule) _ _ _ ((IZR N * l) ^ 2)).
    apply (is_RInt_comp_lin (V := R_NormedModule) v (/ (IZR N * l)) 0 0 (IZR N * l) (1 / IZR N)).
    rewrite Rmult_0_r, Rplus_0_r, Rinv_l, Rplus_0_r by lra. exact I.
Qed.

Lemma fjc_response : forall prof (N : Z), (2 <= N <= 26)%Z -> exists square,
  mean_square_length (fjc_isometric.nondimensional_equilibrium_radial_distribution prof N) 0 1 square /\
  weak_slope (@fjc_isotensional.nondimensional_end_to_end_length_per_link R R_scalar) (IZR N * square / 3).
Proof.
  intros prof N HN. exists (1 / IZR N). split; [exact (fjc_square prof N HN) |].
  replace (IZR N * (1 / IZR N) / 3) with (1 / 3) by (field; apply not_0_IZR; lia).
  exact (PHooke.hooke_slope _ 1 1 PHooke.fjc_hooke).
Qed.

(** ** The ideal chain *)
Lemma maxwell_square_int : forall c x, 0 < c ->
  is_RInt (fun y => maxwell c y * y ^ 2) 0 x
    (3 / (2 * c) * RInt (maxwell c) 0 x - 4 / sqrt PI * c * sqrt c / (2 * c) * (x ^ 3 * exp (- c * x ^ 2))).
Proof.
  intros c x H. pose proof (sqrt_lt_R0 PI PI_RGT_0) as Pp. set (K := 4 / sqrt PI * c * sqrt c).
  assert (D : is_RInt (fun y => K / (2 * c) * (3 * y ^ 2 * exp (- c * y ^ 2) - 2 * c * y ^ 4 * exp (- c * y ^ 2))) 0 x
     (minus (K / (2 * c) * (x ^ 3 * exp (- c * x ^ 2))) (K / (2 * c) * (0 ^ 3 * exp (- c * 0 ^ 2))))).
  { apply (is_RInt_derive (V := R_CompleteNormedModule) (fun y => K / (2 * c) * (y ^ 3 * exp (- c * y ^ 2)))).
    - intros y _. auto_derive; [exact I |]. simpl. set (e := exp _). field. lra.
    - intros y _. apply (ex_derive_continuous (V := R_NormedModule)). auto_derive. exact I. }
  assert (M : is_RInt (maxwell c) 0 x (RInt (maxwell c) 0 x)).
  { apply (RInt_correct (V := R_CompleteNormedModule)). eexists. apply maxwell_int. exact H. }
  apply (is_RInt_scal (V := R_NormedModule) _ _ _ (3 / (2 * c))) in M.
  pose proof (is_RInt_minus (V := R_NormedModule) _ _ _ _ _ _ M D) as S.
  evar_last.
  - apply (is_RInt_ext (V := R_NormedModule)) with (2 := S). intros y _. unfold minus, plus, opp, scal; simpl; unfold mult; simpl.
    match goal with |- ?p = ?q => change (@eq R p q) end.
    rewrite !maxwell_eq by exact H. fold K. simpl. rewrite !Rmult_1_r. set (e := exp _). field. lra.
  - unfold minus, plus, opp, scal; simpl; unfold mult; simpl. match goal with |- ?p = ?q => change (@eq R p q) end. ring.
Qed.

Lemma cube_exp_lim : forall c, 0 < c -> is_lim (fun x => x ^ 3 * exp (- c * x ^ 2)) p_infty 0.
Proof.
  intros c H. assert (C : 0 < c / 3) by lra. pose proof (sqrt_lt_R0 _ C) as S. pose proof (x_exp_lim _ C) as L.
  set (f := fun x => sqrt (c / 3) * x * exp (- (c / 3) * x ^ 2)) in *.
  apply is_lim_ext with (f := fun x => / sqrt (c / 3) ^ 3 * (f x * (f x * f x))).
  - intro x. unfold f. replace (exp (- c * x ^ 2)) with (exp (- (c / 3) * x ^ 2) * (exp (- (c / 3) * x ^ 2) * exp (- (c / 3) * x ^ 2))).
    + set (e := exp _). field. lra.
    + rewrite <- !exp_plus. f_equal. field.
  - evar_last.
    + apply is_lim_scal_l. apply (is_lim_mult _ _ _ 0 0); [exact L | | exact I].
      evar_last; [apply (is_lim_mult _ _ _ 0 0); [exact L | exact L | exact I] |]. simpl. f_equal. ring.
    + simpl. f_equal. ring.
Qed.

Lemma maxwell_square : forall c, 0 < c -> half_line_integral (fun x => maxwell c x * x ^ 2) (3 / (2 * c)).
Proof.
  intros c H. split.
  - intros x _. eexists. apply maxwell_square_int; exact H.
  - apply is_lim_ext with (f := fun x => 3 / (2 * c) * RInt (maxwell c) 0 x - 4 / sqrt PI * c * sqrt c / (2 * c) * (x ^ 3 * exp (- c * x ^ 2))).
    + intro x. symmetry. apply (is_RInt_unique (V := R_CompleteNormedModule)). apply maxwell_square_int; exact H.
    + evar_last.
      * apply is_lim_minus with (3 / (2 * c) * 1) (4 / sqrt PI * c * sqrt c / (2 * c) * 0).
        -- apply (is_lim_scal_l (fun x => RInt (maxwell c) 0 x) (3 / (2 * c)) p_infty 1). exact (proj2 (maxwell_one c H)).
        -- apply (is_lim_scal_l (fun x => x ^ 3 * exp (- c * x ^ 2)) _ p_infty 0). apply cube_exp_lim, H.
        -- unfold is_Rbar_minus, is_Rbar_plus; simpl. reflexivity.
      * simpl. f_equal. ring.
Qed.

Lemma ideal_square : forall N, (0 < N)%Z ->
  half_line_mean_square_length (ideal_isometric.nondimensional_equilibrium_radial_distribution N) (1 / IZR N).
Proof.
  intros N HN. pose proof (IZR_lt _ _ HN). unfold half_line_mean_square_length.
  apply (half_line_ext (fun x => maxwell (a N) x * x ^ 2)); [intro; rewrite nd_radial by exact HN; reflexivity |].
  replace (1 / IZR N) with (3 / (2 * a N)) by (unfold a; field; lra). apply maxwell_square, a_pos, HN.
Qed.

Lemma half_line_scal : forall f v k, half_line_integral f v -> half_line_integral (fun x => k * f x) (k * v).
Proof.
  intros f v k [I L]. split.
  - intros x Hx. apply (ex_RInt_scal (V := R_NormedModule)), I, Hx.
  - apply is_lim_ext_loc with (f := fun x => k * RInt f 0 x).
    + exists 0. intros x Hx. symmetry. apply (RInt_scal (V := R_CompleteNormedModule)), I, Hx.
    + apply (is_lim_scal_l (fun x => RInt f 0 x) k p_infty v). exact L.
Qed.

Lemma ideal_square_dimensional : forall N l, (0 < N)%Z -> 0 < l ->
  half_line_mean_square_length (ideal_isometric.equilibrium_radial_distribution N l) (IZR N * l ^ 2).
Proof.
  intros N l HN Hl. pose proof (IZR_lt _ _ HN) as Pn. assert (Pl : 0 < IZR N * l) by (apply Rmult_lt_0_compat; assumption).
  unfold half_line_mean_square_length.
  apply (half_line_ext (fun x => (IZR N * l) ^ 2 * ((fun y => maxwell (a N) y * y ^ 2) (x / (IZR N * l)) / (IZR N * l)))).
  - intro x. rewrite radial by exact HN. field. lra.
  - replace (IZR N * l ^ 2) with ((IZR N * l) ^ 2 * (3 / (2 * a N))) by (unfold a; field; lra).
    apply half_line_scal. apply (half_line_scale (fun y => maxwell (a N) y * y ^ 2)); [exact Pl |]. apply maxwell_square, a_pos, HN.
Qed.

(** The most probable length. *)
Lemma maxwell_peak : forall c, 0 < c -> most_probable (maxwell c) (1 / sqrt c).
Proof.
  intros c H. pose proof (sqrt_lt_R0 c H) as S. pose proof (sqrt_lt_R0 PI PI_RGT_0) as Pp. pose proof (sqrt_sqrt c ltac:(lra)) as SS.
  set (K := 4 / sqrt PI * c * sqrt c).
  assert (KP : 0 < K) by (unfold K; repeat apply Rmult_lt_0_compat; try lra; apply Rinv_0_lt_compat; lra).
  set (d := fun x => K * (2 * x * (1 - c * x ^ 2)) * exp (- c * x ^ 2)).
  assert (D : forall x, is_derive (maxwell c) x (d x)).
  { intro x. apply (is_derive_ext (fun x => K * (x ^ 2 * exp (- c * x ^ 2)))); [intro; symmetry; apply maxwell_eq; exact H |].
    unfold d. auto_derive; [exact I |]. simpl. set (e := exp _). ring. }
  assert (PK : 0 < 1 / sqrt c) by (apply Rdiv_lt_0_compat; lra).
  assert (MV : forall x y, x < y -> exists z, x < z < y /\ maxwell c y - maxwell c x = d z * (y - x)).
  { intros x y Hxy. destruct (MVT_cor2 (maxwell c) d x y Hxy) as (z & E & Z).
    - intros z _. apply is_derive_Reals, D.
    - exists z. split; assumption. }
  assert (Q : c * (1 / sqrt c) ^ 2 = 1).
  { rewrite <- SS at 1. field. lra. }
  split; [exact PK | split].
  - intros x y Hx Hy. destruct (MV x y (proj2 Hx)) as (z & Z & E).
    assert (c * z ^ 2 < 1). { rewrite <- Q. apply Rmult_lt_compat_l; [exact H |]. simpl. nra. }
    assert (0 < d z). { unfold d. apply Rmult_lt_0_compat; [| apply exp_pos]. apply Rmult_lt_0_compat; [exact KP |]. apply Rmult_lt_0_compat; lra. }
    assert (0 < d z * (y - x)) by (apply Rmult_lt_0_compat; lra). lra.
  - intros x y Hx. destruct (MV x y (proj2 Hx)) as (z & Z & E).
    assert (1 < c * z ^ 2). { rewrite <- Q. apply Rmult_lt_compat_l; [exact H |]. simpl. nra. }
    assert (0 < - d z).
    { unfold d. replace (- (K * (2 * z * (1 - c * z ^ 2)) * exp (- c * z ^ 2))) with (K * (2 * z * (c * z ^ 2 - 1)) * exp (- c * z ^ 2)) by ring.
      apply Rmult_lt_0_compat; [| apply exp_pos]. apply Rmult_lt_0_compat; [exact KP |]. apply Rmult_lt_0_compat; lra. }
    assert (0 < - d z * (y - x)) by (apply Rmult_lt_0_compat; lra). lra.
Qed.

Lemma ideal_peak : forall N, (0 < N)%Z ->
  most_probable (ideal_isometric.nondimensional_equilibrium_radial_distribution N) (sqrt (2 / (3 * IZR N))).
Proof.
  intros N HN. pose proof (IZR_lt _ _ HN) as Pn. pose proof (maxwell_peak (a N) (a_pos N HN)) as (A & B & C).
  assert (E : sqrt (2 / (3 * IZR N)) = 1 / sqrt (a N)).
  { replace (2 / (3 * IZR N)) with (1 / a N) by (unfold a; field; lra). rewrite sqrt_div_alt by (apply a_pos, HN). rewrite sqrt_1. reflexivity. }
  rewrite E. split; [exact A | split]; intros; rewrite !nd_radial by exact HN; auto.
Qed.

Lemma ideal_peak_dimensional : forall N l, (0 < N)%Z -> 0 < l ->
  most_probable (ideal_isometric.equilibrium_radial_distribution N l) (l * sqrt (2 * IZR N / 3)).
Proof.
  intros N l HN Hl. pose proof (IZR_lt _ _ HN) as Pn. assert (Pl : 0 < IZR N * l) by (apply Rmult_lt_0_compat; assumption).
  pose proof (ideal_peak N HN) as (A & B & C). set (p := sqrt (2 / (3 * IZR N))) in *.
  assert (E : l * sqrt (2 * IZR N / 3) = IZR N * l * p).
  { unfold p. replace (2 * IZR N / 3) with (IZR N ^ 2 * (2 / (3 * IZR N))) by (field; lra).
    rewrite sqrt_mult_alt by apply pow2_ge_0. rewrite sqrt_pow2 by lra. ring. }
  rewrite E. clearbody p.
  assert (F : forall x, IZR N * l * (x / (IZR N * l)) = x) by (intro; field; lra).
  assert (R1 : forall x y, x < y -> x / (IZR N * l) < y / (IZR N * l)).
  { intros. apply Rmult_lt_compat_r; [apply Rinv_0_lt_compat; exact Pl | assumption]. }
  assert (R2 : forall x y, x <= y -> x / (IZR N * l) <= y / (IZR N * l)).
  { intros. apply Rmult_le_compat_r; [left; apply Rinv_0_lt_compat; exact Pl | assumption]. }
  assert (G : IZR N * l * p / (IZR N * l) = p) by (field; lra).
  assert (Z0 : 0 / (IZR N * l) = 0) by (field; lra).
  split; [apply Rmult_lt_0_compat; assumption | split]; intros x y Hx.
  - intro Hy. change (ideal_isometric.nondimensional_equilibrium_radial_distribution N (x / (IZR N * l)) / (IZR N * l)
      < ideal_isometric.nondimensional_equilibrium_radial_distribution N (y / (IZR N * l)) / (IZR N * l)).
    apply R1, B; [split; [rewrite <- Z0; apply R2, Hx | apply R1, Hx] | rewrite <- G; apply R2, Hy].
  - change (ideal_isometric.nondimensional_equilibrium_radial_distribution N (y / (IZR N * l)) / (IZR N * l)
      < ideal_isometric.nondimensional_equilibrium_radial_distribution N (x / (IZR N * l)) / (IZR N * l)).
    apply R1, C. split; [rewrite <- G; apply R2, Hx | apply R1, Hx].
Qed.
