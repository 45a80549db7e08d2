(** C73: a network resists being stretched. *)
From Coq Require Import Reals ZArith Lra Lia.
From Coquelicot Require Import Coquelicot.
From Verif Require Import Scalar MConstitutive PModulus.
From Verif Require PDamage.
Open Scope R_scope.

(** The network of harmonic chains (method 3): the slope of the stress at the
    undeformed state is positive, whatever the grid.  The chain force that enters
    is positive by C72; at the contour length itself, which no test of the grid
    excludes, the model divides by zero with result zero. *)
Theorem C73_uniaxial_partial : forall n k N o sigma, 0 < k -> (0 < N)%Z -> hyperelastic.BucheSilberstein.init n 3 k N = Some o ->
  (forall s, 0 < s -> hyperelastic.BucheSilberstein.uniaxial_tension o s = Some (sigma s)) ->
  exists m, 0 < m /\ is_derive sigma 1 m.
Proof. exact uniaxial_modulus. Qed.
Print Assumptions C73_uniaxial_partial.

Theorem C73_equibiaxial_partial : forall n k N o sigma, 0 < k -> (0 < N)%Z -> hyperelastic.BucheSilberstein.init n 3 k N = Some o ->
  (forall s, 0 < s -> hyperelastic.BucheSilberstein.equibiaxial_tension o s = Some (sigma s)) ->
  exists m, 0 < m /\ is_derive sigma 1 m.
Proof. exact equibiaxial_modulus. Qed.
Print Assumptions C73_equibiaxial_partial.

(** The stress does not go on rising.  The grid of lateral extensions does not
    follow the deformation: its smallest point is fixed, so that the weight of every
    sampled chain and with it the stress vanish under a large stretch. *)
Theorem C73_growth_refuted : forall n k N o sigma, 0 < k -> (0 < N)%Z -> hyperelastic.BucheSilberstein.init n 3 k N = Some o ->
  (forall s, 0 < s -> hyperelastic.BucheSilberstein.uniaxial_tension o s = Some (sigma s)) ->
  is_lim sigma p_infty 0 /\ exists s t, 1 < s < t /\ 0 < sigma t < sigma s.
Proof. exact no_growth. Qed.
Print Assumptions C73_growth_refuted.

(** The grid of the code, stiff links. *)
Example C73_example : exists o sigma, hyperelastic.BucheSilberstein.init hyperelastic.NUMGRID 3 50 8 = Some o /\
  (forall s, 0 < s -> hyperelastic.BucheSilberstein.uniaxial_tension o s = Some (sigma s)) /\
  (exists m, 0 < m /\ is_derive sigma 1 m) /\ exists s t, 1 < s < t /\ sigma t < sigma s.
Proof.
  destruct (proj2 (PDamage.hyperelastic_init_some hyperelastic.NUMGRID 3 (50 : R) 8)) as (o & Ho).
  { split; [right; reflexivity | unfold hyperelastic.NUMGRID; lia]. }
  exists o. assert (Me : hyperelastic.BucheSilberstein.method o = 3%Z).
  { revert Ho. unfold hyperelastic.BucheSilberstein.init, Scalar.bind.
    destruct (hyperelastic.init hyperelastic.NUMGRID 3 (50 : R) 8) as [[[[e f] g] q]|]; [|discriminate]. intro H. injection H as <-. reflexivity. }
  exists (fun s => match hyperelastic.BucheSilberstein.uniaxial_tension o s with Some v => v | None => 0 end).
  assert (H : forall s, 0 < s -> hyperelastic.BucheSilberstein.uniaxial_tension o s
    = Some (match hyperelastic.BucheSilberstein.uniaxial_tension o s with Some v => v | None => 0 end)).
  { intros s _. unfold hyperelastic.BucheSilberstein.uniaxial_tension. rewrite Me. reflexivity. }
  split; [exact Ho|]. split; [exact H|]. split; [apply (C73_uniaxial_partial hyperelastic.NUMGRID 50 8 o _ ltac:(lra) ltac:(lia) Ho H)|].
  destruct (C73_growth_refuted hyperelastic.NUMGRID 50 8 o _ ltac:(lra) ltac:(lia) Ho H) as (_ & s & t & A & B). exists s, t. split; [exact A | apply B].
Qed.
