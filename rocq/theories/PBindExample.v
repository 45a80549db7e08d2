(** Examples for the interfaces of the constitutive models. *)
From Coq Require Import ZArith List Reals Lra Lia.
From Verif Require Import Scalar MArray MConstitutive MBindConstitutive SpecArray PDamage PBindConstitutive.
Import ListNotations.
Open Scope R_scope.

Lemma hyperelastic_exists : exists r : hyperelastic.BucheSilberstein.t R,
  hyperelastic.BucheSilberstein.init hyperelastic.NUMGRID 3 50 8 = Some r.
Proof. apply hyperelastic_construction; right; reflexivity. Qed.

Lemma damage_flattens : exists (p : P_hyperelastic_damage.t R) stretches stress probability,
  P_hyperelastic_damage.init hyperelastic_damage.NUMGRID 3 2 50 8 1 = Some p
  /\ well_shaped stretches
  /\ P_hyperelastic_damage.uniaxial_tension p stretches = Some (stress, probability)
  /\ shape stress <> shape stretches.
Proof.
  pose proof (python_damage (Sc := R_scalar) hyperelastic_damage.NUMGRID 3 2 50 8 1) as H.
  destruct (proj2 (damage_construction R _ 3%Z 2 50 8%Z 1)) as [o I]; [right; reflexivity|].
  rewrite I in H.
  destruct (P_hyperelastic_damage.init hyperelastic_damage.NUMGRID 3 2 50 8 1) as [p|]; [|contradiction].
  destruct H as (_ & _ & _ & _ & H).
  specialize (H (mk_array [1; 2]%nat [1; 2])).
  destruct (proj2 (history_accepts _ _ _ _ _ _ o 2 [1; 2] I)) as [os E].
  { split; [cbn; lia|]. intros s [<-|[<-|[]]]; lra. }
  cbn [entries length] in H; rewrite E in H.
  destruct (P_hyperelastic_damage.uniaxial_tension p (mk_array [1; 2]%nat [1; 2])) as [[a b]|] eqn:P; [|contradiction].
  destruct H as (Hs & _).
  exists p, (mk_array [1; 2]%nat [1; 2]), a, b; split; [reflexivity|]; split; [reflexivity|]; split; [exact P|].
  rewrite Hs; discriminate.
Qed.
