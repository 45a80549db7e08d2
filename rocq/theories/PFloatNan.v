(** Binary64 evaluations that produce NaN. *)
From Coq Require Import ZArith Bool Floats Lia.
From Verif Require Import Scalar F64 MMath MConst MIdeal MFjc MSwfjc MEfjc MMorse MLennardJones MLogSquared.
Open Scope float_scope.

Lemma sf_nan : Prim2SF nan = S754_nan.
Proof. vm_compute. reflexivity. Qed.
Lemma nan_add_l : forall y, nan + y = nan.
Proof. intro y. apply Prim2SF_inj. rewrite add_spec, sf_nan. reflexivity. Qed.
Lemma nan_add_r : forall y, y + nan = nan.
Proof. intro y. apply Prim2SF_inj. rewrite add_spec, sf_nan. destruct (Prim2SF y); reflexivity. Qed.
Lemma nan_sub_l : forall y, nan - y = nan.
Proof. intro y. apply Prim2SF_inj. rewrite sub_spec, sf_nan. reflexivity. Qed.
Lemma nan_sub_r : forall y, y - nan = nan.
Proof. intro y. apply Prim2SF_inj. rewrite sub_spec, sf_nan. destruct (Prim2SF y); reflexivity. Qed.
Lemma nan_mul_l : forall y, nan * y = nan.
Proof. intro y. apply Prim2SF_inj. rewrite mul_spec, sf_nan. reflexivity. Qed.
Lemma nan_mul_r : forall y, y * nan = nan.
Proof. intro y. apply Prim2SF_inj. rewrite mul_spec, sf_nan. destruct (Prim2SF y); reflexivity. Qed.
Lemma nan_div_l : forall y, nan / y = nan.
Proof. intro y. apply Prim2SF_inj. rewrite div_spec, sf_nan. reflexivity. Qed.
Lemma nan_abs : abs nan = nan.
Proof. vm_compute. reflexivity. Qed.
Lemma nan_lt : forall y, (y <? nan) = false.
Proof. intro y. rewrite ltb_spec, sf_nan. destruct (Prim2SF y); reflexivity. Qed.

Section Zero.
Variable L : libm.
Hypothesis tanh_0 : l_tanh L 0 = 0.
Local Existing Instance F64.
Local Notation S := (F64 L).

(** coth 0 - 1/0 *)
Lemma langevin_zero : @ssub float S (@sdiv float S (@sdec float S 1 0) (@stanh float S 0)) (@sdiv float S (@sdec float S 1 0) 0) = nan.
Proof.
  change (float_dec 1 0 / l_tanh L 0 - float_dec 1 0 / 0 = nan). rewrite tanh_0. vm_compute. reflexivity.
Qed.

Lemma fjc_zero : @fjc_isotensional.nondimensional_end_to_end_length_per_link float S 0 = nan.
Proof. exact langevin_zero. Qed.
Lemma fjc_length_zero : forall N l T,
  0 / @BOLTZMANN_CONSTANT float S / T * l = 0 ->
  @fjc_isotensional.end_to_end_length float S N l 0 T = nan.
Proof.
  intros N l T E. unfold fjc_isotensional.end_to_end_length. cbv zeta.
  change (@smul float S (@sdiv float S (@sdiv float S 0 BOLTZMANN_CONSTANT) T) l) with (0 / @BOLTZMANN_CONSTANT float S / T * l).
  rewrite E, langevin_zero.
  change (nan * float_of_Z N * l = nan). rewrite !nan_mul_l. reflexivity.
Qed.
Lemma efjc_zero : forall k, @efjc_isotensional_asymptotic.nondimensional_end_to_end_length_per_link float S k 0 = nan.
Proof.
  intro k. unfold efjc_isotensional_asymptotic.nondimensional_end_to_end_length_per_link. rewrite langevin_zero. apply nan_add_l.
Qed.
Lemma efjc_alternative_zero : forall k, @efjc_isotensional_asymptotic_alternative.nondimensional_end_to_end_length_per_link float S k 0 = nan.
Proof.
  intro k. unfold efjc_isotensional_asymptotic_alternative.nondimensional_end_to_end_length_per_link. rewrite langevin_zero. apply nan_add_l.
Qed.
Lemma efjc_reduced_zero : forall k, @efjc_isotensional_asymptotic_reduced.nondimensional_end_to_end_length_per_link float S k 0 = nan.
Proof.
  intro k. unfold efjc_isotensional_asymptotic_reduced.nondimensional_end_to_end_length_per_link. rewrite langevin_zero. apply nan_add_l.
Qed.
Lemma morse_zero : forall k e, @morse_isotensional_asymptotic.nondimensional_end_to_end_length_per_link float S k e 0 = nan.
Proof.
  intros k e. unfold morse_isotensional_asymptotic.nondimensional_end_to_end_length_per_link. cbv zeta. rewrite langevin_zero.
  change (@sadd float S) with add. rewrite !nan_add_l. reflexivity.
Qed.
Lemma morse_reduced_zero : forall k e, @morse_isotensional_asymptotic_reduced.nondimensional_end_to_end_length_per_link float S k e 0 = nan.
Proof.
  intros k e. unfold morse_isotensional_asymptotic_reduced.nondimensional_end_to_end_length_per_link. rewrite langevin_zero. apply nan_add_l.
Qed.
Lemma log_squared_zero : forall k, @log_squared_isotensional_asymptotic_reduced.nondimensional_end_to_end_length_per_link float S k 0 = nan.
Proof.
  intros k. unfold log_squared_isotensional_asymptotic_reduced.nondimensional_end_to_end_length_per_link. rewrite langevin_zero.
  change (@sadd float S) with add. change (@ssub float S) with sub. rewrite !nan_add_l. apply nan_sub_l.
Qed.
Lemma lennard_jones_zero : forall k, @lennard_jones_isotensional_asymptotic_reduced.nondimensional_end_to_end_length_per_link float S k 0 = nan.
Proof.
  intros k. unfold lennard_jones_isotensional_asymptotic_reduced.nondimensional_end_to_end_length_per_link. rewrite langevin_zero.
  change (@sadd float S) with add. change (@ssub float S) with sub. rewrite !nan_add_l. apply nan_sub_l.
Qed.

(** A Newton iteration whose first residual is NaN returns NaN. *)
Lemma loop_nan : forall y f fp guess tol res n i, f guess = nan -> (tol <? res) = true ->
  fst (fst (@math.newton_loop float S y f fp tol (Datatypes.S (Datatypes.S n)) i guess res)) = nan.
Proof.
  intros y f fp guess tol res n i E H.
  assert (E2 : forall j, fst (fst (@math.newton_loop float S y f fp tol (Datatypes.S n) j nan nan)) = nan).
  { intro j. cbn [math.newton_loop]. change (@slt float S tol nan) with (tol <? nan). rewrite nan_lt. reflexivity. }
  set (m := Datatypes.S n) in *. cbn [math.newton_loop].
  change (@slt float S tol res) with (tol <? res). rewrite H. cbv zeta. rewrite E.
  change (@ssub float S y nan) with (y - nan). rewrite nan_sub_r.
  change (@sdiv float S nan (fp guess)) with (nan / fp guess). rewrite nan_div_l.
  change (@sdiv float S nan y) with (nan / y). rewrite nan_div_l.
  change (@sadd float S guess nan) with (guess + nan). rewrite nan_add_r.
  change (@sabs float S nan) with (abs nan). rewrite nan_abs. apply E2.
Qed.
Lemma newton_nan : forall y f fp guess, f guess = nan ->
  @math.inverse_newton_raphson float S y f fp guess (@sdec float S 1 6) 100 = nan.
Proof.
  intros y f fp guess E. unfold math.inverse_newton_raphson.
  replace (Z.to_nat 100) with (Datatypes.S (Datatypes.S 98)) by reflexivity.
  apply loop_nan; [exact E |]. vm_compute. reflexivity.
Qed.

Lemma efjc_contour : forall k, k * 0 = 0 -> @efjc_isometric_asymptotic_legendre.nondimensional_force float S k 1 = nan.
Proof.
  intros k Hk. unfold efjc_isometric_asymptotic_legendre.nondimensional_force. cbv zeta.
  replace (@slt float S 1 (@sdec float S 1 0)) with false by (vm_compute; reflexivity).
  replace (@ssub float S 1 (@sdec float S 1 0)) with 0 by (vm_compute; reflexivity).
  change (@smul float S k 0) with (k * 0). rewrite Hk. apply newton_nan.
  rewrite langevin_zero. apply nan_add_l.
Qed.
Lemma efjc_alternative_contour : forall k, k * 0 = 0 -> @efjc_isometric_asymptotic_alternative_legendre.nondimensional_force float S k 1 = nan.
Proof.
  intros k Hk. unfold efjc_isometric_asymptotic_alternative_legendre.nondimensional_force. cbv zeta.
  replace (@slt float S 1 (@sdec float S 1 0)) with false by (vm_compute; reflexivity).
  replace (@ssub float S 1 (@sdec float S 1 0)) with 0 by (vm_compute; reflexivity).
  change (@smul float S k 0) with (k * 0). rewrite Hk. apply newton_nan.
  rewrite langevin_zero. apply nan_add_l.
Qed.
Lemma efjc_reduced_contour : forall k, k * 0 = 0 -> @efjc_isometric_asymptotic_reduced_legendre.nondimensional_force float S k 1 = nan.
Proof.
  intros k Hk. unfold efjc_isometric_asymptotic_reduced_legendre.nondimensional_force. cbv zeta.
  replace (@slt float S 1 (@sdec float S 1 0)) with false by (vm_compute; reflexivity).
  replace (@ssub float S 1 (@sdec float S 1 0)) with 0 by (vm_compute; reflexivity).
  change (@smul float S k 0) with (k * 0). rewrite Hk. apply newton_nan.
  rewrite langevin_zero. apply nan_add_l.
Qed.

Lemma swfjc_zero : forall l w, let v := @sadd float S (@sdec float S 1 0) (@sdiv float S w l) in
  l_sinh L 0 = 0 -> l_cosh L 0 = 1 -> v * 0 = 0 -> v * v * 0 = 0 ->
  @swfjc_isotensional.nondimensional_end_to_end_length_per_link float S l w 0 = nan.
Proof.
  intros l w v Hs Hc H1 H2. unfold swfjc_isotensional.nondimensional_end_to_end_length_per_link. cbv zeta. fold v.
  change (@smul float S) with mul. change (@ssub float S) with sub. change (@sadd float S) with add. change (@sdiv float S) with div.
  change (@spowi float S v 2) with (v * v). rewrite H1, H2.
  change (@ssinh float S 0) with (l_sinh L 0). change (@scosh float S 0) with (l_cosh L 0). rewrite Hs, Hc.
  vm_compute. reflexivity.
Qed.

(** A Newton iteration that starts at infinity and finds a zero residual there
    with a zero slope returns NaN. *)
Lemma loop_infinity : forall f fp tol res n i, f infinity = 1 -> fp infinity = 0 -> (tol <? res) = true -> (tol <? 0) = false ->
  fst (fst (@math.newton_loop float S 1 f fp tol (Datatypes.S (Datatypes.S n)) i infinity res)) = nan.
Proof.
  intros f fp tol res n i F P H H0.
  assert (E2 : forall j, fst (fst (@math.newton_loop float S 1 f fp tol (Datatypes.S n) j nan 0)) = nan).
  { intro j. cbn [math.newton_loop]. change (@slt float S tol 0) with (tol <? 0). rewrite H0. reflexivity. }
  set (m := Datatypes.S n) in *. cbn [math.newton_loop].
  change (@slt float S tol res) with (tol <? res). rewrite H. cbv zeta. rewrite F, P.
  replace (@sadd float S infinity (@sdiv float S (@ssub float S 1 1) 0)) with nan by (vm_compute; reflexivity).
  replace (@sabs float S (@sdiv float S (@ssub float S 1 1) 1)) with 0 by (vm_compute; reflexivity).
  apply E2.
Qed.
(** The inverse Langevin function at 1: the guess is infinite. *)
Lemma inverse_langevin_contour : l_tanh L infinity = 1 -> l_sinh L infinity = infinity ->
  @math.inverse_langevin float S 1 = nan.
Proof.
  intros Ht Hs. unfold math.inverse_langevin.
  replace (@sle float S 1 (@sdec float S 1 3)) with false by (vm_compute; reflexivity).
  replace (@math.langevin_guess float S 1) with infinity by (vm_compute; reflexivity).
  unfold math.inverse_newton_raphson.
  replace (Z.to_nat 100) with (Datatypes.S (Datatypes.S 98)) by reflexivity.
  apply loop_infinity; [| | vm_compute; reflexivity | vm_compute; reflexivity].
  - change (float_dec 1 0 / l_tanh L infinity - float_dec 1 0 / infinity = 1). rewrite Ht. vm_compute. reflexivity.
  - change (float_dec 1 0 / (infinity * infinity) - float_dec 1 0 / (l_sinh L infinity * l_sinh L infinity) = 0). rewrite Hs. vm_compute. reflexivity.
Qed.
End Zero.

(** A mathematical library with the values the lemmas above rely on. *)
Definition sample_libm : libm := {|
  l_powf := fun x _ => x; l_exp := fun _ => one; l_ln := fun x => x; l_log10 := fun x => x;
  l_sinh := fun x => x; l_cosh := fun _ => one;
  l_tanh := fun x => if PrimFloat.eqb x infinity then one else x;
  l_sin := fun x => x; l_cos := fun _ => one; l_acos := fun x => x; l_atanh := fun x => x;
  l_ceil := fun x => x; l_pi := 3.5%float; l_cast := fun _ _ => 0%Z |}.
Lemma sample_values : l_tanh sample_libm 0 = 0 /\ l_tanh sample_libm infinity = 1 /\
  l_sinh sample_libm 0 = 0 /\ l_sinh sample_libm infinity = infinity /\ l_cosh sample_libm 0 = 1.
Proof. repeat split; vm_compute; reflexivity. Qed.
