(** Examples for the Python interface. *)
From Coq Require Import ZArith List Reals.
From Verif Require Import Scalar MArray SpecArray MConst MMath MTreloar MFjc MPython.
Import ListNotations.

Lemma elementwise_two_by_two : forall (f : R -> R) b,
  elementwise f (mk_array [2; 2]%nat [1; 2; 3; 4]%R) b ->
  b = mk_array [2; 2]%nat [f 1; f 2; f 3; f 4]%R.
Proof.
  intros f [s d] (Hs & Hl & H); cbn [shape entries length] in *; subst s; f_equal.
  destruct d as [|a [|b [|c [|e [|? ?]]]]]; try discriminate Hl.
  pose proof (H 0%nat _ eq_refl) as H0; pose proof (H 1%nat _ eq_refl) as H1.
  pose proof (H 2%nat _ eq_refl) as H2; pose proof (H 3%nat _ eq_refl) as H3.
  cbn [nth_error] in *; congruence.
Qed.

Lemma one_link_panics : forall x temperature : R,
  P_fjc_isometric.force Debug
    (P_fjc_thermodynamics.isometric (P_fjc.thermodynamics (P_fjc.init 1 1%R 1%R)))
    (mk_array [1]%nat [x]) temperature = None.
Proof.
  intros x t.
  assert (E : forall y : R, fjc_isometric.force Debug 1 1%R y t = None)
    by (intro y; unfold fjc_isometric.force, fjc_isometric.nondimensional_force,
          fjc_thermodynamics.treloar_sums; reflexivity).
  unfold P_fjc_isometric.force, mapv_panic; cbn [entries mapM].
  change (bind (bind (fjc_isometric.force Debug 1 1%R x t) (fun b => bind (Some []) (fun bs => Some (b :: bs))))
    (fun d => Some (mk_array [1]%nat d)) = None).
  rewrite E; reflexivity.
Qed.
