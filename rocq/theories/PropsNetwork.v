(** Theorems for C56: the stress of the constitutive models. *)
From Coq Require Import Reals ZArith List Lra Lia.
From Verif Require Import Scalar MConst MConstitutive SpecDamage SpecNetwork PDamage PNetwork PropsConstitutive.
Import ListNotations.
Open Scope R_scope.

Theorem C56_uniaxial : forall n me k N o s sigma, 0 < s ->
  hyperelastic.BucheSilberstein.init n me k N = Some o ->
  hyperelastic.BucheSilberstein.uniaxial_tension o s = Some sigma ->
  sigma = network_stress n me k N (reference_length s).
Proof. exact uniaxial_stress. Qed.
Print Assumptions C56_uniaxial.

(** Equibiaxial tension reports the stress in the plane minus the one along the
    axis, hence the sign. *)
Theorem C56_equibiaxial : forall n me k N o s sigma, s <> 0 ->
  hyperelastic.BucheSilberstein.init n me k N = Some o ->
  hyperelastic.BucheSilberstein.equibiaxial_tension o s = Some sigma ->
  sigma = - network_stress n me k N (reference_length_equibiaxial s).
Proof. exact equibiaxial_stress. Qed.
Print Assumptions C56_equibiaxial.

(** The first output of the damage model, for every history. *)
Theorem C56_damaged : forall n me c k N w o l h os i s m sigma p, 0 < w ->
  hyperelastic_damage.BucheSilberstein.init n me c k N w = Some o ->
  hyperelastic_damage.BucheSilberstein.uniaxial_tension o l h = Some os ->
  nth_error h i = Some s -> is_running_maximum (firstn (S i) h) m ->
  nth_error os i = Some (sigma, p) -> sigma = damaged_stress n me c k N w s m.
Proof. exact stress_history. Qed.
Print Assumptions C56_damaged.

Example C56_example : exists o u b,
  hyperelastic.BucheSilberstein.init hyperelastic.NUMGRID 2 (50 : R) 8 = Some o /\
  hyperelastic.BucheSilberstein.uniaxial_tension o (/ 3 ^ 2) = Some u /\
  hyperelastic.BucheSilberstein.equibiaxial_tension o 3 = Some b /\
  u = network_stress hyperelastic.NUMGRID 2 50 8 (reference_length (/ 3 ^ 2)) /\
  b = - network_stress hyperelastic.NUMGRID 2 50 8 (reference_length_equibiaxial 3).
Proof.
  destruct C40_example as (o & u & b & I & U & B & _). exists o, u, b. repeat (split; [assumption|]). split.
  - apply (C56_uniaxial hyperelastic.NUMGRID 2 50 8 o); try assumption. apply Rinv_0_lt_compat; lra.
  - apply (C56_equibiaxial hyperelastic.NUMGRID 2 50 8 o); try assumption. lra.
Qed.

Example C56_example_damaged : exists o os,
  hyperelastic_damage.BucheSilberstein.init hyperelastic_damage.NUMGRID 3 (12 / 10) 50 8 1 = Some o /\
  hyperelastic_damage.BucheSilberstein.uniaxial_tension o 3 [1; 3; 2] = Some os /\
  forall i s m sigma p, nth_error [1; 3; 2] i = Some s -> is_running_maximum (firstn (S i) [1; 3; 2]) m ->
    nth_error os i = Some (sigma, p) -> sigma = damaged_stress hyperelastic_damage.NUMGRID 3 (12 / 10) 50 8 1 s m.
Proof.
  destruct C36_example as (o & os & I & H & _). exists o, os. split; [exact I|]. split; [exact H|].
  intros i s m sigma p Hs Hm Hp.
  apply (C56_damaged _ _ _ _ _ _ o 3 [1; 3; 2] os i s m sigma p); try assumption; lra.
Qed.
