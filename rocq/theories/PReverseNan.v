(** Reversed forces that yield NaN in binary64. *)
From Coq Require Import ZArith List Bool Lia.
From Coq Require Import Floats.
From Verif Require Import Scalar F64 MMath MConst MSwfjc MMorse MLennardJones MLogSquared PFloatNan.
Import ListNotations.
Open Scope float_scope.

Section Nan.
Variable L : libm.
Variable eta : float.
Hypothesis ln_nan : l_ln L eta = nan.
Local Notation S := (F64 L).

Lemma fold_nan : forall (q : list float), fold_left (@sadd float S) (map (fun _ => nan) q) nan = nan.
Proof. induction q as [|a q IH]; [reflexivity|]. cbn [map fold_left]. change (@sadd float S nan nan) with (nan + nan). rewrite nan_add_l. exact IH. Qed.

Lemma integral_nan : forall f a b, (forall x, f x = nan) -> @math.integrate_1d float S f a b POINTS = nan.
Proof.
  intros f a b Hf. unfold math.integrate_1d. cbv zeta.
  erewrite map_ext; [|intro i; apply Hf]. cbn [POINTS].
  assert (E : forall q : list Z, q <> [] -> @ssum float S (map (fun _ => nan) q) = nan).
  { intros q Hq. destruct q as [|i q]; [congruence|]. unfold ssum. cbn [map fold_left].
    change (fold_left (@sadd float S) (map (fun _ => nan) q) (@sofZ float S 0 + nan) = nan). rewrite nan_add_r.
    clear. induction q as [|j q IH]; [reflexivity|]. cbn [map fold_left]. change (@sadd float S nan nan) with (nan + nan). rewrite nan_add_l. exact IH. }
  rewrite E; [apply nan_mul_l|]. vm_compute. discriminate.
Qed.

Lemma swfjc_gibbs : forall l m w T, @swfjc_isotensional.nondimensional_gibbs_free_energy_per_link float S l m w eta T = nan.
Proof.
  intros l m w T. unfold swfjc_isotensional.nondimensional_gibbs_free_energy_per_link. cbv zeta.
  change (@sln float S eta) with (l_ln L eta). rewrite ln_nan.
  change (@smul float S) with mul. change (@ssub float S) with sub. rewrite nan_mul_r, !nan_sub_l. reflexivity.
Qed.

Hypothesis exp_nan : l_exp L nan = nan.

Ltac nans := change (@sln float S eta) with (l_ln L eta); rewrite ln_nan; change (@ssub float S) with sub; change (@sadd float S) with add; change (@sdiv float S) with div;
  change (@sexp float S) with (l_exp L); rewrite ?nan_sub_r, ?nan_sub_l, ?nan_sub_r, ?nan_sub_l, ?exp_nan, ?nan_sub_r, ?nan_add_r, ?nan_add_l, ?nan_sub_l, ?nan_div_l; reflexivity.

Lemma morse_length : forall k e, @morse_isotensional.nondimensional_end_to_end_length_per_link float S k e eta = nan.
Proof. intros k e. unfold morse_isotensional.nondimensional_end_to_end_length_per_link. cbv zeta. apply integral_nan. intro x. nans. Qed.
Lemma log_squared_length : forall k, @log_squared_isotensional.nondimensional_end_to_end_length_per_link float S k eta = nan.
Proof. intros k. unfold log_squared_isotensional.nondimensional_end_to_end_length_per_link. cbv zeta. apply integral_nan. intro x. nans. Qed.
Lemma lennard_jones_length : forall k, @lennard_jones_isotensional.nondimensional_end_to_end_length_per_link float S k eta = nan.
Proof. intros k. unfold lennard_jones_isotensional.nondimensional_end_to_end_length_per_link. cbv zeta. apply integral_nan. intro x. nans. Qed.
End Nan.

(** A library that returns NaN for the logarithm of a negative number and for the
    exponential of NaN. *)
Definition domain_libm : libm := {|
  l_powf := fun x _ => x; l_exp := fun x => x;
  l_ln := fun x => if PrimFloat.ltb x zero then nan else x;
  l_log10 := fun x => x; l_sinh := fun x => x; l_cosh := fun x => x; l_tanh := fun x => x;
  l_sin := fun x => x; l_cos := fun x => x; l_acos := fun x => x; l_atanh := fun x => x;
  l_ceil := fun x => x; l_pi := 3.5%float; l_cast := fun _ _ => 0%Z |}.
Lemma domain_libm_ok : l_ln domain_libm (-2)%float = nan /\ l_exp domain_libm nan = nan.
Proof. split; [vm_compute; reflexivity|reflexivity]. Qed.
