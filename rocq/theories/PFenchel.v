(** The Legendre free energy of the freely jointed chain as a supremum, and the tails of the distribution. *)
From Coq Require Import Reals ZArith Lra Lia.
From Coquelicot Require Import Coquelicot.
From Verif Require Import Scalar MConst MMath MFjc SpecNewton SpecLangevin SpecThermo SpecIsometric SpecPartition SpecFenchel
  PBase PHyp PConj PLangevin PSigmoid PNewton PInvLangevin PTreloar PIsometric PPartition PLaplace.
Open Scope R_scope.

Local Notation gibbs := (@fjc_isotensional.nondimensional_relative_gibbs_free_energy_per_link R R_scalar).
Local Notation psi := (@fjc_isometric_legendre.nondimensional_relative_helmholtz_free_energy_per_link R R_scalar).
Local Notation force := (@fjc_isometric_legendre.nondimensional_force R R_scalar).

Definition W (y e : R) : R := e * y - ln (sinh e / e).
Lemma W_gibbs : forall y e, e * y + gibbs e = W y e.
Proof. intros y e. reflexivity. Qed.
Lemma psi_W : forall y, psi y = W y (force y).
Proof. intro y. reflexivity. Qed.

Lemma W_derive : forall y e, 0 < e -> is_derive (W y) e (y - langevin e).
Proof.
  intros y e He. unfold W. evar_last.
  - apply (is_derive_plus (V := R_NormedModule) (fun e => e * y) (fun e => - ln (sinh e / e))); [auto_derive; [exact I | reflexivity] | apply derive_fjc; lra].
  - unfold plus; simpl. rewrite <- extension_langevin. change (1 * y + - (1 / tanh e - 1 / e) = y - (1 / tanh e - 1 / e)). ring.
Qed.

Lemma W_step : forall y a b, 0 < a -> a < b -> exists c, a < c < b /\ W y b - W y a = (y - langevin c) * (b - a).
Proof.
  intros y a b Ha Hab. destruct (MVT_cor2 (W y) (fun e => y - langevin e) a b Hab) as (c & E & Hc).
  - intros c Hc. apply is_derive_Reals, W_derive. lra.
  - exists c. split; [exact Hc | exact E].
Qed.

Lemma W_max : forall y r e, 0 < r -> langevin r = y -> 0 < e -> W y e <= W y r.
Proof.
  intros y r e Hr E He. destruct (Rtotal_order e r) as [L|[->|L]]; [|lra|].
  - destruct (W_step y e r He L) as (c & Hc & Q). pose proof (langevin_increasing c r ltac:(lra)). nra.
  - destruct (W_step y r e Hr L) as (c & Hc & Q). pose proof (langevin_increasing r c ltac:(lra)). nra.
Qed.

Lemma W_near : forall y r x, 0 < x -> x <= r -> langevin r = y -> W y r - W y x <= (r - x) * (y - langevin x).
Proof.
  intros y r x Hx Hxr E. destruct (Req_dec x r) as [->|N]; [rewrite E; lra|].
  destruct (W_step y x r Hx ltac:(lra)) as (c & Hc & Q). rewrite Q. pose proof (langevin_increasing x c ltac:(lra)). nra.
Qed.

Lemma W_even : forall y e, 0 < y -> e < 0 -> W y e <= W y (- e).
Proof.
  intros y e Hy He. unfold W. replace (sinh (- e) / - e) with (sinh e / e) by (unfold sinh; rewrite Ropp_involutive; field; lra). nra.
Qed.

Lemma computed : forall y, 0 < y < 1 -> exists r, 0 < r /\ langevin r = y /\ 3 / 5 * r <= force y <= r /\ 0 <= y - langevin (force y) <= / 1000000 * y.
Proof.
  intros y Hy. unfold fjc_isometric_legendre.nondimensional_force. destruct (Rle_dec y (1 / 1000)) as [L|L].
  - destruct (langevin_root y Hy) as (r & R0 & E & B1 & B2 & B3 & B4). exists r. rewrite inverse_langevin_negative by exact L.
    destruct (inverse_langevin_accuracy y Hy) as (_ & A). rewrite inverse_langevin_negative in A by exact L.
    pose proof (langevin_upper_3 (3 * y) ltac:(lra)). rewrite Rabs_left1 in A by lra. repeat split; try lra. nra.
  - destruct (newton_inverse_langevin y ltac:(lra)) as (r & k & R0 & E & _ & _ & A & B). exists r. repeat split; (lra || assumption).
Qed.

Lemma tolerance : forall y r, 0 < y < 1 -> 0 < r -> langevin r = y -> 3 / 5 * r <= force y <= r -> 0 <= y - langevin (force y) <= / 1000000 * y ->
  W y r <= psi y + / 1000000 * (force y * y).
Proof.
  intros y r Hy R0 E A B. rewrite psi_W. pose proof (W_near y r (force y) ltac:(lra) ltac:(lra) E) as Q.
  assert ((r - force y) * (y - langevin (force y)) <= (2 / 3 * force y) * (/ 1000000 * y)) by (apply Rmult_le_compat; lra).
  assert (0 <= force y * y) by (apply Rmult_le_pos; lra). lra.
Qed.

Lemma upper : forall y e, 0 < y < 1 -> e <> 0 -> e * y + gibbs e <= psi y + / 1000000 * (force y * y).
Proof.
  intros y e Hy He. rewrite W_gibbs. destruct (computed y Hy) as (r & R0 & E & A & B). apply Rle_trans with (W y r); [|apply tolerance; assumption].
  destruct (Rlt_dec 0 e) as [P|P]; [apply W_max; assumption|]. apply Rle_trans with (W y (- e)); [apply W_even; lra | apply W_max; (assumption || lra)].
Qed.

Lemma fenchel : forall y, 0 < y < 1 -> exists v, legendre_transform gibbs y v /\ psi y <= v <= psi y + / 1000000 * (force y * y).
Proof.
  intros y Hy. destruct (computed y Hy) as (r & R0 & E & A & B). exists (W y r). split; [split|split].
  - intros s (e & He & ->). rewrite W_gibbs. destruct (Rlt_dec 0 e) as [P|P]; [apply W_max; assumption|].
    apply Rle_trans with (W y (- e)); [apply W_even; lra | apply W_max; (assumption || lra)].
  - intros b Hb. apply Hb. exists r. split; [lra | reflexivity].
  - rewrite psi_W. apply W_max; lra.
  - apply tolerance; assumption.
Qed.

Lemma work : forall y z, 0 < y -> y < z -> z < 1 ->
  force y * (z - y) - / 1000000 * (force z * z) <= psi z - psi y <= force z * (z - y) + / 1000000 * (force y * y).
Proof.
  intros y z Hy Hyz Hz.
  assert (Py : 0 < force y) by (apply inverse_langevin_accuracy; lra). assert (Pz : 0 < force z) by (apply inverse_langevin_accuracy; lra).
  pose proof (upper z (force y) ltac:(lra) ltac:(lra)) as U. pose proof (upper y (force z) ltac:(lra) ltac:(lra)) as V.
  rewrite W_gibbs in U, V. pose proof (psi_W y) as Ey. pose proof (psi_W z) as Ez. unfold W in *. lra.
Qed.

Lemma positive : forall y, 0 < y < 1 -> 0 < psi y.
Proof.
  intros y Hy. destruct (computed y Hy) as (r & R0 & E & A & B). rewrite psi_W.
  (* from W >= 0 near zero *)
  set (x := force y) in *. assert (X0 : 0 < x) by lra.
  assert (H : W y (x / 2) < W y x).
  { destruct (W_step y (x / 2) x ltac:(lra) ltac:(lra)) as (c & Hc & Q). pose proof (langevin_increasing c x ltac:(lra)). nra. }
  assert (L : forall d, 0 < d -> d <= x / 2 -> W y d <= W y (x / 2)).
  { intros d D0 D1. destruct (Req_dec d (x / 2)) as [->|N]; [lra|]. destruct (W_step y d (x / 2) D0 ltac:(lra)) as (c & Hc & Q).
    pose proof (langevin_increasing c x ltac:(lra)). nra. }
  assert (M : forall d, 0 < d -> ln (sinh d / d) <= d).
  { intros d D0. rewrite <- (ln_exp d) at 3. apply ln_le; [apply Rdiv_lt_0_compat; [apply sinh_pos|]; exact D0|].
    apply Rmult_le_reg_r with d; [exact D0|]. unfold Rdiv. rewrite Rmult_assoc, Rinv_l, Rmult_1_r by lra.
    unfold sinh. pose proof (exp_ineq1_le (- (2 * d))) as I. pose proof (exp_pos d) as P.
    replace (exp (- d)) with (exp d * exp (- (2 * d))) by (rewrite <- exp_plus; f_equal; ring). nra. }
  assert (0 <= W y (x / 2)); [|lra]. apply Rnot_lt_le. intro N.
  set (d := Rmin (x / 2) (- W y (x / 2) / 2)). assert (D0 : 0 < d) by (unfold d; apply Rmin_glb_lt; lra).
  assert (D1 : d <= x / 2) by apply Rmin_l. assert (D2 : d <= - W y (x / 2) / 2) by apply Rmin_r.
  pose proof (L d D0 D1) as Q. specialize (M d D0). unfold W in Q at 1. assert (0 < d * y) by (apply Rmult_lt_0_compat; lra). lra.
Qed.

(** ** The tails of the distribution *)
Lemma angular_increasing : forall a b, 0 < a -> a <= b -> angular_average a <= angular_average b.
Proof.
  intros a b Ha Hab. rewrite !angular_value by lra. destruct (Req_dec a b) as [->|N]; [lra|].
  assert (A0 : 0 < sinh a / a) by (apply Rdiv_lt_0_compat; [apply sinh_pos|]; exact Ha).
  assert (B0 : 0 < sinh b / b) by (apply Rdiv_lt_0_compat; [apply sinh_pos|]; lra).
  destruct (W_step 0 a b Ha ltac:(lra)) as (c & Hc & Q). unfold W in Q. pose proof (langevin_pos c ltac:(lra)) as L.
  assert (ln (sinh a / a) < ln (sinh b / b)) by nra. left. apply ln_lt_inv; assumption.
Qed.

Lemma radial_total : forall prof (N : Z) g, (2 <= N <= 26)%Z -> 0 < g < 1 -> exists v,
  integral (fjc_isometric.nondimensional_equilibrium_radial_distribution prof N) g 1 v /\ 0 <= v.
Proof.
  intros prof N g HN Hg. destruct (z_normalised prof N HN) as (w & Hw & I).
  assert (EX : ex_RInt w g 1) by (apply (ex_RInt_Chasles_2 (V := R_CompleteNormedModule) w 0 g 1); [lra | exists 1; exact I]).
  destruct EX as (v & V). exists v. split; [exists w; split; [intros; apply Hw; lra | exact V]|].
  apply (is_RInt_ge_0 w g 1); [lra | exact V|]. intros x Hx. destruct (z_positive prof N x HN ltac:(lra)) as (p & E & P0).
  specialize (Hw x ltac:(lra)). unfold fjc_isometric.nondimensional_equilibrium_radial_distribution in Hw. rewrite E in Hw. cbn [bind] in Hw. injection Hw as <-.
  change (0 <= 4 * PI * x ^ 2 * p). pose proof PI_RGT_0. apply Rmult_le_pos; [|lra]. apply Rmult_le_pos; [lra | apply pow_le; lra].
Qed.

Lemma tail : forall prof (N : Z) g eta v, (2 <= N <= 26)%Z -> 0 < g < 1 -> 0 < eta ->
  integral (fjc_isometric.nondimensional_equilibrium_radial_distribution prof N) g 1 v ->
  v * angular_average (IZR N * eta * g) <= exp (- fjc_isotensional.nondimensional_relative_gibbs_free_energy N eta).
Proof.
  intros prof N g eta v HN Hg He (w & Hw & I). assert (PN : 0 < IZR N) by (apply IZR_lt; lia).
  destruct (fjc_laplace prof N eta HN He) as (u & Hu & J).
  set (E := exp (- fjc_isotensional.nondimensional_relative_gibbs_free_energy N eta)) in *.
  assert (U0 : forall x, 0 < x < 1 -> 0 <= u x).
  { intros x Hx. specialize (Hu x Hx). destruct (z_positive prof N x HN ltac:(lra)) as (p & Ep & P0).
    unfold fjc_isometric.nondimensional_equilibrium_radial_distribution in Hu. rewrite Ep in Hu. cbn [bind] in Hu. injection Hu as <-.
    apply Rmult_le_pos; [|left; apply angular_pos]. change (0 <= 4 * PI * x ^ 2 * p). pose proof PI_RGT_0. apply Rmult_le_pos; [|lra]. apply Rmult_le_pos; [lra | apply pow_le; lra]. }
  assert (EX1 : ex_RInt u 0 g) by (apply (ex_RInt_Chasles_1 (V := R_CompleteNormedModule) u 0 g 1); [lra | exists E; exact J]).
  assert (EX2 : ex_RInt u g 1) by (apply (ex_RInt_Chasles_2 (V := R_CompleteNormedModule) u 0 g 1); [lra | exists E; exact J]).
  destruct EX1 as (a & A), EX2 as (b & B).
  assert (A0 : 0 <= a) by (apply (is_RInt_ge_0 u 0 g); [lra | exact A | intros; apply U0; lra]).
  assert (SUM : a + b = E).
  { pose proof (is_RInt_Chasles (V := R_NormedModule) u 0 g 1 a b A B) as C.
    apply (is_RInt_unique (V := R_CompleteNormedModule)) in C. apply (is_RInt_unique (V := R_CompleteNormedModule)) in J. rewrite J in C. symmetry. exact C. }
  assert (v * angular_average (IZR N * eta * g) <= b); [|lra].
  apply (is_RInt_le (fun x => w x * angular_average (IZR N * eta * g)) u g 1); [lra | | exact B |].
  - apply (is_RInt_ext (V := R_NormedModule) (fun x => scal (angular_average (IZR N * eta * g)) (w x))); [intros; apply Rmult_comm|].
    rewrite (Rmult_comm v). apply (is_RInt_scal (V := R_NormedModule)), I.
  - intros x Hx. specialize (Hu x ltac:(lra)). rewrite Hw in Hu by lra. injection Hu as <-.
    apply Rmult_le_compat_l.
    + specialize (Hw x ltac:(lra)). destruct (z_positive prof N x HN ltac:(lra)) as (p & Ep & P0).
      unfold fjc_isometric.nondimensional_equilibrium_radial_distribution in Hw. rewrite Ep in Hw. cbn [bind] in Hw. injection Hw as <-.
      change (0 <= 4 * PI * x ^ 2 * p). pose proof PI_RGT_0. apply Rmult_le_pos; [|lra]. apply Rmult_le_pos; [lra | apply pow_le; lra].
    + assert (0 < IZR N * eta) by (apply Rmult_lt_0_compat; lra). apply angular_increasing; [apply Rmult_lt_0_compat; lra | nra].
Qed.

Lemma tail_legendre : forall prof (N : Z) g, (2 <= N <= 26)%Z -> 0 < g < 1 -> exists v,
  integral (fjc_isometric.nondimensional_equilibrium_radial_distribution prof N) g 1 v /\ 0 <= v /\
  let z := IZR N * force g * g in
  v <= 2 * z / (1 - exp (- (2 * z))) * exp (- fjc_isometric_legendre.nondimensional_relative_helmholtz_free_energy N g).
Proof.
  intros prof N g HN Hg. destruct (radial_total prof N g HN Hg) as (v & I & V0). exists v. split; [exact I|]. split; [exact V0|]. intro z.
  assert (PN : 0 < IZR N) by (apply IZR_lt; lia). assert (F0 : 0 < force g) by (apply inverse_langevin_accuracy; lra).
  assert (Z0 : 0 < z) by (unfold z; apply Rmult_lt_0_compat; [apply Rmult_lt_0_compat|]; lra).
  pose proof (tail prof N g (force g) v HN Hg F0 I) as Q. fold z in Q. rewrite angular_value in Q by lra.
  change (fjc_isotensional.nondimensional_relative_gibbs_free_energy N (force g)) with (- IZR N * ln (sinh (force g) / force g)) in Q.
  change (fjc_isometric_legendre.nondimensional_relative_helmholtz_free_energy N g) with ((force g * g - ln (sinh (force g) / force g)) * IZR N).
  set (q := ln (sinh (force g) / force g)) in *.
  assert (S0 : 0 < sinh z) by (apply sinh_pos; exact Z0).
  assert (X : v <= z / sinh z * exp (- (- IZR N * q))).
  { apply Rmult_le_reg_r with (sinh z / z); [apply Rdiv_lt_0_compat; assumption|].
    replace (z / sinh z * exp (- (- IZR N * q)) * (sinh z / z)) with (exp (- (- IZR N * q))) by (field; lra). exact Q. }
  eapply Rle_trans; [exact X|]. apply Req_le.
  replace (exp (- ((force g * g - q) * IZR N))) with (exp (- z) * exp (- (- IZR N * q))) by (rewrite <- exp_plus; f_equal; unfold z; ring).
  rewrite <- Rmult_assoc. f_equal. unfold sinh in *.
  assert (EZ : exp (- (2 * z)) = exp (- z) * exp (- z)) by (rewrite <- exp_plus; f_equal; ring). rewrite EZ.
  assert (EI : exp z * exp (- z) = 1) by (rewrite <- exp_plus, Rplus_opp_r; apply exp_0).
  assert (P1 : 0 < exp (- z)) by apply exp_pos. assert (P2 : 0 < exp z) by apply exp_pos.
  assert (P3 : 1 - exp (- z) * exp (- z) = exp (- z) * (exp z - exp (- z))) by (rewrite Rmult_minus_distr_l, (Rmult_comm (exp (- z)) (exp z)), EI; reflexivity).
  rewrite P3. field. lra.
Qed.
