(** The equilibrium distributions of the ideal chain. *)
From Coq Require Import Reals ZArith Lra Lia.
From Coquelicot Require Import Coquelicot.
From Verif Require Import Scalar MConst MIdeal SpecThermo SpecGauss PBase PGauss.
Open Scope R_scope.

Definition a (N : Z) : R := (3 / 2) * IZR N.
Lemma a_pos : forall N, (0 < N)%Z -> 0 < a N.
Proof. intros. unfold a. apply IZR_lt in H. lra. Qed.

(** Maxwell density 4 pi x^2 (a/pi)^(3/2) exp(-a x^2). *)
Definition maxwell (c x : R) : R := 4 * PI * x ^ 2 * Rpower (c / PI) (3 / 2) * exp (- c * x ^ 2).

Lemma Rpower_15 : forall c, 0 < c -> Rpower c (3 / 2) = c * sqrt c.
Proof.
  intros c H. replace (3 / 2) with (1 + / 2) by lra. rewrite Rpower_plus, Rpower_1, Rpower_sqrt; auto.
Qed.

Lemma maxwell_eq : forall c x, 0 < c -> maxwell c x = 4 / sqrt PI * c * sqrt c * (x ^ 2 * exp (- c * x ^ 2)).
Proof.
  intros c x H. pose proof PI_RGT_0. pose proof (sqrt_lt_R0 PI PI_RGT_0).
  unfold maxwell. rewrite Rpower_15 by (apply Rdiv_lt_0_compat; lra).
  rewrite sqrt_div_alt by lra. field. lra.
Qed.

Lemma maxwell_int : forall c x, 0 < c ->
  is_RInt (maxwell c) 0 x (2 / sqrt PI * (G (sqrt c * x) - sqrt c * x * exp (- c * x ^ 2))).
Proof.
  intros c x H. pose proof (sqrt_lt_R0 c H) as S. pose proof (sqrt_lt_R0 PI PI_RGT_0) as P.
  set (F := fun y => 2 / sqrt PI * (G (sqrt c * y) - sqrt c * y * exp (- c * y ^ 2))).
  replace (2 / sqrt PI * (G (sqrt c * x) - sqrt c * x * exp (- c * x ^ 2))) with (minus (F x) (F 0)).
  2:{ unfold F, minus, plus, opp; simpl. rewrite !Rmult_0_r, G_0. ring. }
  apply (is_RInt_derive (V := R_CompleteNormedModule)).
  - intros y _. unfold F. evar_last.
    + apply (is_derive_scal (fun y => G (sqrt c * y) - sqrt c * y * exp (- c * y ^ 2)) y (2 / sqrt PI)).
      apply (is_derive_minus (V := R_NormedModule) (fun y => G (sqrt c * y))).
      * apply (is_derive_comp (V := R_NormedModule) G (fun y => sqrt c * y)); [apply G_derive |].
        auto_derive; [exact I | reflexivity].
      * auto_derive; [exact I | reflexivity].
    + rewrite maxwell_eq by exact H. unfold minus, plus, opp, scal; simpl; unfold mult; simpl. unfold g.
      replace (- (sqrt c * y) ^ 2) with (- c * y ^ 2).
      2:{ rewrite Rpow_mult_distr. replace (sqrt c ^ 2) with c; [ring |]. simpl. rewrite Rmult_1_r, sqrt_sqrt; lra. }
      simpl. rewrite !Rmult_1_r. set (E := exp _). field. lra.
  - intros y _. apply (ex_derive_continuous (V := R_NormedModule)). unfold maxwell. auto_derive. exact I.
Qed.

(** x exp(-c x^2) tends to zero. *)
Lemma x_exp_lim : forall c, 0 < c -> is_lim (fun x => sqrt c * x * exp (- c * x ^ 2)) p_infty 0.
Proof.
  intros c H. pose proof (sqrt_lt_R0 c H) as S.
  apply (is_lim_le_le_loc (fun _ => 0) (fun x => / (sqrt c * x))).
  - exists 0. intros x Hx. set (u := sqrt c * x). assert (U : 0 < u) by (apply Rmult_lt_0_compat; lra).
    replace (- c * x ^ 2) with (- u ^ 2).
    2:{ unfold u. rewrite Rpow_mult_distr. replace (sqrt c ^ 2) with c; [ring |]. simpl. rewrite Rmult_1_r, sqrt_sqrt; lra. }
    pose proof (exp_pos (- u ^ 2)). split; [left; apply Rmult_lt_0_compat; lra |].
    rewrite exp_Ropp. pose proof (exp_ineq1_le (u ^ 2)). pose proof (exp_pos (u ^ 2)).
    apply (Rmult_le_reg_r (exp (u ^ 2))); [lra |]. rewrite Rmult_assoc, Rinv_l, Rmult_1_r by lra.
    apply (Rmult_le_reg_l u); [lra |]. rewrite <- Rmult_assoc, Rinv_r, Rmult_1_l by lra. simpl in *. lra.
  - apply is_lim_const.
  - apply (is_lim_inv (fun x => sqrt c * x) p_infty p_infty); [| discriminate].
    evar_last; [apply (is_lim_scal_l (fun x => x) (sqrt c) p_infty p_infty); apply is_lim_id |].
    simpl. unfold Rbar_mult'. destruct Rle_dec; [| lra]. destruct Rle_lt_or_eq_dec; [reflexivity | lra].
Qed.

Lemma scaled_lim : forall c, 0 < c -> is_lim (fun x => c * x) p_infty p_infty.
Proof.
  intros c H. evar_last; [apply (is_lim_scal_l (fun x => x) c p_infty p_infty); apply is_lim_id |].
  simpl. unfold Rbar_mult'. destruct Rle_dec; [| lra]. destruct Rle_lt_or_eq_dec; [reflexivity | lra].
Qed.

Lemma maxwell_one : forall c, 0 < c -> half_line_integral (maxwell c) 1.
Proof.
  intros c H. pose proof (sqrt_lt_R0 c H) as S. pose proof (sqrt_lt_R0 PI PI_RGT_0) as P. split.
  - intros x _. eexists. apply maxwell_int; exact H.
  - apply is_lim_ext with (f := fun x => 2 / sqrt PI * (G (sqrt c * x) - sqrt c * x * exp (- c * x ^ 2))).
    + intro x. symmetry. apply (is_RInt_unique (V := R_CompleteNormedModule)). apply maxwell_int; exact H.
    + evar_last.
      * apply is_lim_scal_l. apply is_lim_minus with (sqrt PI / 2) 0.
        -- apply (is_lim_comp G (fun x => sqrt c * x) p_infty (sqrt PI / 2) p_infty).
           ++ apply G_lim.
           ++ apply scaled_lim; exact S.
           ++ exists 0. intros; discriminate.
        -- apply x_exp_lim; exact H.
        -- unfold is_Rbar_minus, is_Rbar_plus; simpl. reflexivity.
      * simpl. f_equal. field. lra.
Qed.

(** Rescaling the variable. *)
Lemma half_line_scale : forall w v k, 0 < k -> half_line_integral w v ->
  half_line_integral (fun x => w (x / k) / k) v.
Proof.
  intros w v k Hk [I L].
  assert (E : forall x, 0 < x -> is_RInt (fun x => w (x / k) / k) 0 x (RInt w 0 (x / k))).
  { intros x Hx.
    assert (X : 0 < x / k) by (apply Rdiv_lt_0_compat; lra).
    pose proof (RInt_correct (V := R_CompleteNormedModule) w 0 (x / k) (I _ X)) as C.
    apply (is_RInt_ext (V := R_NormedModule) (fun y => scal (/ k) (w (/ k * y + 0)))).
    - intros y _. unfold scal; simpl; unfold mult; simpl. rewrite Rplus_0_r. unfold Rdiv.
      rewrite (Rmult_comm y). match goal with |- ?p = ?q => change (@eq R p q) end. ring.
    - apply (is_RInt_comp_lin (V := R_NormedModule)). rewrite Rmult_0_r, !Rplus_0_r.
      rewrite (Rmult_comm (/ k) x). exact C. }
  split.
  - intros x Hx. eexists. apply E; exact Hx.
  - apply is_lim_ext_loc with (f := fun x => RInt w 0 (x / k)).
    + exists 0. intros x Hx. symmetry. apply (is_RInt_unique (V := R_CompleteNormedModule)). apply E; exact Hx.
    + apply (is_lim_comp (fun y => RInt w 0 y) (fun x => x / k) p_infty v p_infty).
      * exact L.
      * apply is_lim_ext with (f := fun x => / k * x); [intro; unfold Rdiv; ring |].
        apply scaled_lim. apply Rinv_0_lt_compat; exact Hk.
      * exists 0. intros; discriminate.
Qed.

Lemma half_line_ext : forall w w' v, (forall x, w x = w' x) -> half_line_integral w v -> half_line_integral w' v.
Proof.
  intros w w' v E [I L]. split.
  - intros x Hx. apply (ex_RInt_ext w); [intros; apply E | apply I; exact Hx].
  - apply is_lim_ext with (f := fun x => RInt w 0 x); [| exact L].
    intro x. apply RInt_ext. intros; apply E.
Qed.

Lemma Rpowf_pos : forall x y, 0 < x -> Rpowf x y = Rpower x y.
Proof. intros. unfold Rpowf. destruct Rlt_dec; [reflexivity | lra]. Qed.

Section Ideal.
Variables (N : Z) (l : R).
Hypotheses (HN : (0 < N)%Z) (Hl : 0 < l).
Let n_pos : 0 < IZR N. Proof. apply IZR_lt in HN. exact HN. Qed.

Lemma nd_radial : forall x, ideal_isometric.nondimensional_equilibrium_radial_distribution N x = maxwell (a N) x.
Proof using HN.
  intro x. change (4 * PI * x ^ 2 * Rpowf (15 / 10 / PI * IZR N) (15 / 10) * exp (- (15 / 10) * x ^ 2 * IZR N) = maxwell (a N) x).
  pose proof PI_RGT_0. rewrite Rpowf_pos.
  2:{ apply Rmult_lt_0_compat; [apply Rdiv_lt_0_compat; lra | exact n_pos]. }
  replace (15 / 10 / PI * IZR N) with (a N / PI) by (unfold a; field; lra).
  replace (- (15 / 10) * x ^ 2 * IZR N) with (- a N * x ^ 2) by (unfold a; field).
  replace (15 / 10) with (3 / 2) by lra. unfold maxwell. set (r := Rpower _ _). set (e := exp _). ring.
Qed.

Lemma radial : forall x, ideal_isometric.equilibrium_radial_distribution N l x =
  maxwell (a N) (x / (IZR N * l)) / (IZR N * l).
Proof using HN. intro x. rewrite <- nd_radial. reflexivity. Qed.

Lemma nd_radial_dist : forall x, ideal_isometric.nondimensional_equilibrium_radial_distribution N x =
  4 * PI * x ^ 2 * ideal_isometric.nondimensional_equilibrium_distribution N x.
Proof using. intro x. unR. ring. Qed.

Lemma radial_dist : forall x, ideal_isometric.equilibrium_radial_distribution N l x =
  4 * PI * x ^ 2 * ideal_isometric.equilibrium_distribution N l x.
Proof using HN Hl.
  intro x. rewrite radial, maxwell_eq by (apply a_pos; exact HN).
  change (ideal_isometric.equilibrium_distribution N l x) with
    (Rpowf (15 / 10 / PI / IZR N / (l * (l * 1))) (15 / 10) * exp (- (15 / 10) * (x / l * (x / l * 1)) / IZR N)).
  pose proof PI_RGT_0. pose proof (sqrt_lt_R0 PI PI_RGT_0).
  assert (Q : 15 / 10 / PI / IZR N / (l * (l * 1)) = (a N / PI) * / ((IZR N * l) ^ 2)).
  { unfold a. field. split; lra. }
  rewrite Q. clear Q. set (c := IZR N * l). assert (0 < c) by (apply Rmult_lt_0_compat; assumption).
  pose proof (a_pos N HN) as A. pose proof (sqrt_lt_R0 _ A).
  rewrite Rpowf_pos.
  2:{ apply Rmult_lt_0_compat; [apply Rdiv_lt_0_compat; lra | apply Rinv_0_lt_compat; nra]. }
  replace (15 / 10) with (3 / 2) by lra. rewrite Rpower_15.
  2:{ apply Rmult_lt_0_compat; [apply Rdiv_lt_0_compat; lra | apply Rinv_0_lt_compat; nra]. }
  rewrite sqrt_mult_alt by (left; apply Rdiv_lt_0_compat; lra).
  rewrite sqrt_div_alt by lra. rewrite <- (pow_inv c 2).
  rewrite sqrt_pow2 by (left; apply Rinv_0_lt_compat; lra).
  replace (- a N * (x / c) ^ 2) with (- (3 / 2) * (x / l * (x / l * 1)) / IZR N).
  2:{ unfold a, c. field. lra. }
  set (E := exp _). simpl. field. repeat split; try lra.
Qed.

Lemma normalised :
  half_line_integral (ideal_isometric.nondimensional_equilibrium_radial_distribution N) 1 /\
  half_line_integral (ideal_isometric.equilibrium_radial_distribution N l) 1.
Proof using HN Hl.
  split.
  - apply (half_line_ext (maxwell (a N))); [intro; symmetry; apply nd_radial |].
    apply maxwell_one. apply a_pos; exact HN.
  - apply (half_line_ext (fun x => maxwell (a N) (x / (IZR N * l)) / (IZR N * l))); [intro; symmetry; apply radial |].
    apply half_line_scale; [apply Rmult_lt_0_compat; assumption |]. apply maxwell_one. apply a_pos; exact HN.
Qed.

Lemma ln_ratio : forall p u, 0 < p -> ln (p * exp u / (p * exp 0)) = u.
Proof using.
  intros p u Hp. rewrite exp_0. replace (p * exp u / (p * 1)) with (exp u) by (field; lra). apply ln_exp.
Qed.

Lemma dist_exp : forall x, ideal_isometric.equilibrium_distribution N l x =
  Rpowf (15 / 10 / PI / IZR N / l ^ 2) (15 / 10) * exp (- (15 / 10) * (x / l) ^ 2 / IZR N).
Proof using. reflexivity. Qed.
Lemma nd_dist_exp : forall x, ideal_isometric.nondimensional_equilibrium_distribution N x =
  Rpowf (15 / 10 / PI * IZR N) (15 / 10) * exp (- (15 / 10) * x ^ 2 * IZR N).
Proof using. reflexivity. Qed.

Lemma ln_dist : forall x, ln (ideal_isometric.equilibrium_distribution N l x / ideal_isometric.equilibrium_distribution N l 0) =
  - (3 / 2) * (x / l) ^ 2 / IZR N.
Proof using HN Hl.
  intro x. rewrite !dist_exp. replace (- (15 / 10) * (0 / l) ^ 2 / IZR N) with 0 by (field; lra).
  rewrite ln_ratio; [lra |]. pose proof PI_RGT_0. rewrite Rpowf_pos; [apply exp_pos |].
  apply Rdiv_lt_0_compat; [| apply pow_lt; exact Hl]. apply Rdiv_lt_0_compat; [| exact n_pos].
  apply Rdiv_lt_0_compat; lra.
Qed.

Lemma ln_nd_dist : forall x,
  ln (ideal_isometric.nondimensional_equilibrium_distribution N x / ideal_isometric.nondimensional_equilibrium_distribution N 0) =
  - (3 / 2) * x ^ 2 * IZR N.
Proof using HN.
  intro x. rewrite !nd_dist_exp. replace (- (15 / 10) * 0 ^ 2 * IZR N) with 0 by ring.
  rewrite ln_ratio; [lra |]. pose proof PI_RGT_0. rewrite Rpowf_pos; [apply exp_pos |].
  apply Rmult_lt_0_compat; [| exact n_pos]. apply Rdiv_lt_0_compat; lra.
Qed.

Lemma free_energy : forall m T x, let P := ideal_isometric.equilibrium_distribution N l in
  ideal_isometric.helmholtz_free_energy N l m x T - ideal_isometric.helmholtz_free_energy N l m 0 T =
    - (kB * T) * ln (P x / P 0) /\
  ideal_isometric.relative_helmholtz_free_energy N l x T = - (kB * T) * ln (P x / P 0).
Proof using HN Hl.
  intros m T x P. unfold P. rewrite ln_dist. split; unR; rewrite B_eq; field; lra.
Qed.

Lemma nd_free_energy : forall m T x, let P := ideal_isometric.nondimensional_equilibrium_distribution N in
  ideal_isometric.nondimensional_helmholtz_free_energy N l m x T - ideal_isometric.nondimensional_helmholtz_free_energy N l m 0 T =
    - ln (P x / P 0) /\
  ideal_isometric.nondimensional_relative_helmholtz_free_energy N x = - ln (P x / P 0).
Proof using HN.
  intros m T x P. unfold P. rewrite ln_nd_dist. split; unR; field; lra.
Qed.

End Ideal.
