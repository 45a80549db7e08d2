(** Theorems for C36-C40: the constitutive models. *)
From Coq Require Import Reals ZArith List Lra Lia.
From Verif Require Import Scalar MConst MConstitutive SpecDamage PDamage.
Import ListNotations.
Open Scope R_scope.

(** ** C36: histories *)

(** A history of [l] outputs is computed exactly when enough stretches are
    given and none of the first [l] is below one; otherwise the call panics. *)
Theorem C36_accepted_histories : forall n me c k N w o l (h : list R),
  hyperelastic_damage.BucheSilberstein.init n me c k N w = Some o ->
  ((exists os, hyperelastic_damage.BucheSilberstein.uniaxial_tension o l h = Some os) <->
   (l <= length h)%nat /\ forall s, In s (firstn l h) -> 1 <= s).
Proof. exact history_accepts. Qed.
Print Assumptions C36_accepted_histories.

Theorem C36_outputs : forall (o : hyperelastic_damage.BucheSilberstein.t R) l h os,
  hyperelastic_damage.BucheSilberstein.uniaxial_tension o l h = Some os ->
  length os = l /\
  forall i a, nth_error os i = Some a ->
    exists s m, nth_error h i = Some s /\ is_running_maximum (firstn (S i) h) m /\ response o s m = Some a.
Proof. exact history_outputs. Qed.
Print Assumptions C36_outputs.

(** Later stretches do not change earlier outputs. *)
Theorem C36_causal : forall (T : Type) (Sc : Scalar T) (o : hyperelastic_damage.BucheSilberstein.t T) l l' st st' os os',
  (l <= l')%nat -> firstn l st = firstn l st' ->
  hyperelastic_damage.BucheSilberstein.uniaxial_tension o l st = Some os ->
  hyperelastic_damage.BucheSilberstein.uniaxial_tension o l' st' = Some os' -> os = firstn l os'.
Proof. exact (fun T Sc o l l' st st' os os' => history_prefix o l l' _ st st' os os'). Qed.
Print Assumptions C36_causal.

(** Two histories, even of different lengths, agree wherever their current
    stretch and largest stretch so far agree. *)
Theorem C36_only_maximum : forall (o : hyperelastic_damage.BucheSilberstein.t R) l l' h h' os os' i i' s m a a',
  hyperelastic_damage.BucheSilberstein.uniaxial_tension o l h = Some os ->
  hyperelastic_damage.BucheSilberstein.uniaxial_tension o l' h' = Some os' ->
  nth_error h i = Some s -> nth_error h' i' = Some s ->
  is_running_maximum (firstn (S i) h) m -> is_running_maximum (firstn (S i') h') m ->
  nth_error os i = Some a -> nth_error os' i' = Some a' -> a = a'.
Proof. exact history_only_maximum. Qed.
Print Assumptions C36_only_maximum.

(** A network that exists, loaded, unloaded and reloaded. *)
Example C36_example : exists o os,
  hyperelastic_damage.BucheSilberstein.init hyperelastic_damage.NUMGRID 3 (12 / 10) 50 8 1 = Some o /\
  hyperelastic_damage.BucheSilberstein.uniaxial_tension o 3 [1; 3; 2] = Some os /\ length os = 3%nat.
Proof.
  destruct (proj2 (damage_init_some hyperelastic_damage.NUMGRID 3 (12 / 10 : R) 50 8 1)) as [o I].
  { split; [right; reflexivity|]. apply Nat2Z.inj_le. change (2 <= 256)%Z. lia. }
  destruct (proj2 (C36_accepted_histories _ _ _ _ _ _ o 3 [1; 3; 2] I)) as [os H].
  { split; [cbn; lia|]. intros s [<-|[<-|[<-|[]]]]; lra. }
  exists o, os. split; [exact I|]. split; [exact H|]. apply C36_outputs in H. exact (proj1 H).
Qed.

Example C36_example_maximum : is_running_maximum (firstn 3 [1; 3; 2]) 3.
Proof. split; [right; right; left; reflexivity|]. intros s [<-|[<-|[<-|[<-|[]]]]]; lra. Qed.

(** ** C37: irreversibility of breaking *)

(** A chain that was intact in the undeformed network and is broken once the
    largest stretch is [m1] stays broken for every larger one. *)
Theorem C37_breaking_irreversible : forall c s m1 m2 z r, 0 <= c -> 1 <= s -> 1 <= m1 <= m2 ->
  reference_length s z r <= c ->
  hyperelastic_damage.survives c s m1 z r = false -> hyperelastic_damage.survives c s m2 z r = false.
Proof. exact survives_irreversible. Qed.
Print Assumptions C37_breaking_irreversible.

Example C37_example : reference_length 2 (1 / 2) (1 / 2) <= 1 /\
  hyperelastic_damage.survives 1 2 5 (1 / 2) (1 / 2) = false.
Proof. exact survives_example. Qed.

(** The claim about the surviving probability fails, for the grid of the code
    and every positive critical extension and swelling ratio: after stretching
    to 1.00002 and coming back, more chains are counted as intact than in the
    network that was never stretched. *)
Theorem C37_irreversible_refuted : forall me c k N w, (me = 2 \/ me = 3)%Z -> 0 < c -> 0 < w ->
  exists o s1 p1 q s2 p2,
    hyperelastic_damage.BucheSilberstein.init hyperelastic_damage.NUMGRID me c k N w = Some o /\
    hyperelastic_damage.BucheSilberstein.uniaxial_tension o 1 [1] = Some [(s1, p1)] /\
    hyperelastic_damage.BucheSilberstein.uniaxial_tension o 2 [1 + 2 / 100000; 1] = Some [q; (s2, p2)] /\ p1 < p2.
Proof. exact healing_history. Qed.
Print Assumptions C37_irreversible_refuted.

(** ** C38: surviving fraction *)

(** The second output is the fraction of intact chains. *)
Theorem C38_intact_fraction : forall n me c k N w o l h os i s m sigma p, 0 < w ->
  hyperelastic_damage.BucheSilberstein.init n me c k N w = Some o ->
  hyperelastic_damage.BucheSilberstein.uniaxial_tension o l h = Some os ->
  nth_error h i = Some s -> is_running_maximum (firstn (S i) h) m ->
  nth_error os i = Some (sigma, p) -> p = intact_fraction n me c k N w s m.
Proof. exact intact_history. Qed.
Print Assumptions C38_intact_fraction.

(** If the current stretch is the largest so far, the intact chains are those
    no longer than the critical extension. *)
Theorem C38_undamaged : forall n me c k N w o l h os i s sigma p, 0 < w ->
  hyperelastic_damage.BucheSilberstein.init n me c k N w = Some o ->
  hyperelastic_damage.BucheSilberstein.uniaxial_tension o l h = Some os ->
  nth_error h i = Some s -> (forall s', In s' (firstn (S i) h) -> s' <= s) ->
  nth_error os i = Some (sigma, p) -> p = undamaged_fraction n me c k N w s.
Proof. exact undamaged_history. Qed.
Print Assumptions C38_undamaged.

Theorem C38_nonnegative : forall n me c k N w o l h os sigma p, 0 < c -> 0 < w ->
  hyperelastic_damage.BucheSilberstein.init n me c k N w = Some o ->
  hyperelastic_damage.BucheSilberstein.uniaxial_tension o l h = Some os ->
  In (sigma, p) os -> 0 <= p.
Proof. exact nonnegative_history. Qed.
Print Assumptions C38_nonnegative.

Theorem C38_critical_extension_monotone : forall e f g n me c c' k N w s m sg p sg' p',
  0 < n -> (forall z, In z g -> 0 <= z) -> c <= c' ->
  hyperelastic_damage.uniaxial_tension e f g n me c k N w s m = Some (sg, p) ->
  hyperelastic_damage.uniaxial_tension e f g n me c' k N w s m = Some (sg', p') ->
  0 <= p <= p'.
Proof. exact probability_mono. Qed.
Print Assumptions C38_critical_extension_monotone.

(** The hypotheses are met by the example of C36. *)
Example C38_example : exists o os,
  hyperelastic_damage.BucheSilberstein.init hyperelastic_damage.NUMGRID 3 (12 / 10) 50 8 1 = Some o /\
  hyperelastic_damage.BucheSilberstein.uniaxial_tension o 3 [1; 3; 2] = Some os /\
  forall i s m sigma p, nth_error [1; 3; 2] i = Some s -> is_running_maximum (firstn (S i) [1; 3; 2]) m ->
    nth_error os i = Some (sigma, p) -> p = intact_fraction hyperelastic_damage.NUMGRID 3 (12 / 10) 50 8 1 s m /\ 0 <= p.
Proof.
  destruct C36_example as (o & os & I & H & _). exists o, os. split; [exact I|]. split; [exact H|].
  intros i s m sigma p Hs Hm Hp. split.
  - apply (C38_intact_fraction _ _ _ _ _ _ o 3 [1; 3; 2] os i s m sigma p); try assumption; lra.
  - apply (C38_nonnegative hyperelastic_damage.NUMGRID 3 (12 / 10) 50 8 1 o 3 [1; 3; 2] os sigma p);
      try assumption; try lra. exact (nth_error_In _ _ Hp).
Qed.

(** ** C39: method numbers *)

Theorem C39_hyperelastic_construction : forall (T : Type) (Sc : Scalar T) me (k : T) N,
  (exists o, hyperelastic.BucheSilberstein.init hyperelastic.NUMGRID me k N = Some o) <-> (me = 2 \/ me = 3)%Z.
Proof. exact hyperelastic_construction. Qed.
Print Assumptions C39_hyperelastic_construction.

Theorem C39_hyperelastic_evaluation : forall (T : Type) (Sc : Scalar T) (o : hyperelastic.BucheSilberstein.t T) s,
  ((exists a, hyperelastic.BucheSilberstein.uniaxial_tension o s = Some a) <->
    (hyperelastic.BucheSilberstein.method o = 2 \/ hyperelastic.BucheSilberstein.method o = 3)%Z) /\
  ((exists a, hyperelastic.BucheSilberstein.equibiaxial_tension o s = Some a) <->
    (hyperelastic.BucheSilberstein.method o = 2 \/ hyperelastic.BucheSilberstein.method o = 3)%Z).
Proof. exact @hyperelastic_tension_some. Qed.
Print Assumptions C39_hyperelastic_evaluation.

Theorem C39_damage_construction : forall (T : Type) (Sc : Scalar T) me (c k : T) N w,
  (exists o, hyperelastic_damage.BucheSilberstein.init hyperelastic_damage.NUMGRID me c k N w = Some o) <->
  (me = 2 \/ me = 3)%Z.
Proof. exact damage_construction. Qed.
Print Assumptions C39_damage_construction.

(** The free function panics exactly on other methods, on stretches not at
    least one, and on grids with fewer than two points. *)
Theorem C39_damage_evaluation : forall (T : Type) (Sc : Scalar T) e f (g : list T) n me c k N w s m,
  (exists a, hyperelastic_damage.uniaxial_tension e f g n me c k N w s m = Some a) <->
  sle (sdec 1 0) s = true /\ (me = 2 \/ me = 3)%Z /\ (2 <= length g)%nat.
Proof. exact @damage_uniaxial_some. Qed.
Print Assumptions C39_damage_evaluation.

(** ** C40: uniaxial against equibiaxial *)

Theorem C40_equibiaxial_uniaxial : forall o s u b, s <> 0 ->
  hyperelastic.BucheSilberstein.uniaxial_tension o (/ s ^ 2) = Some u ->
  hyperelastic.BucheSilberstein.equibiaxial_tension o s = Some b -> b = - u.
Proof. exact equibiaxial_uniaxial. Qed.
Print Assumptions C40_equibiaxial_uniaxial.

Theorem C40_linear_in_table : forall a b F G fa g n me k N s u v u' v',
  hyperelastic.uniaxial_tension (table F g) fa g n me k N s = Some u ->
  hyperelastic.uniaxial_tension (table G g) fa g n me k N s = Some v ->
  hyperelastic.equibiaxial_tension (table F g) fa g n me k N s = Some u' ->
  hyperelastic.equibiaxial_tension (table G g) fa g n me k N s = Some v' ->
  hyperelastic.uniaxial_tension (table (fun z r => a * F z r + b * G z r) g) fa g n me k N s = Some (a * u + b * v) /\
  hyperelastic.equibiaxial_tension (table (fun z r => a * F z r + b * G z r) g) fa g n me k N s = Some (a * u' + b * v').
Proof. exact tension_linear. Qed.
Print Assumptions C40_linear_in_table.

Example C40_example : exists o u b,
  hyperelastic.BucheSilberstein.init hyperelastic.NUMGRID 2 (50 : R) 8 = Some o /\
  hyperelastic.BucheSilberstein.uniaxial_tension o (/ 3 ^ 2) = Some u /\
  hyperelastic.BucheSilberstein.equibiaxial_tension o 3 = Some b /\ b = - u.
Proof.
  destruct (proj2 (C39_hyperelastic_construction R _ 2 50 8)) as [o I]; [left; reflexivity|].
  assert (M : hyperelastic.BucheSilberstein.method o = 2%Z) by (apply (hyperelastic_init_method _ _ _ _ _ I)).
  destruct (proj2 (proj1 (C39_hyperelastic_evaluation R _ o (/ 3 ^ 2)))) as [u U]; [left; exact M|].
  destruct (proj2 (proj2 (C39_hyperelastic_evaluation R _ o 3))) as [b B]; [left; exact M|].
  exists o, u, b. repeat (split; [assumption|]). apply (C40_equibiaxial_uniaxial o 3); try assumption; lra.
Qed.
