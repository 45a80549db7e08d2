(** C36 and C38 in double precision: histories of the damage model. *)
From Coq Require Import Reals ZArith List Floats.
From Verif Require Import Scalar F64 MConst MConstitutive SpecDamage SpecDouble SpecHistory PDoubleDamage PDoubleLibm PDoubleSign PDoubleIntact.
Import ListNotations.
Open Scope R_scope.

Section Functions.
Variable L : libm.
Definition network : Type := hyperelastic_damage.BucheSilberstein.t float.
Definition new_network : nat -> Z -> float -> float -> Z -> float -> option network := @hyperelastic_damage.BucheSilberstein.init float (F64 L).
Definition outputs : network -> nat -> list float -> option (list (float * float)) := @hyperelastic_damage.BucheSilberstein.uniaxial_tension float (F64 L).
Definition output : network -> float -> float -> option (float * float) := @response float (F64 L).
End Functions.

(** Of a history of numbers, [l] outputs are computed exactly when there are
    enough stretches and none of the first [l] is below one; *)
Theorem C36_binary64_accepted : forall (L : libm) n me c k N w (o : network) l h, (forall s, In s h -> finite s) ->
  new_network L n me c k N w = Some o ->
  ((exists os, outputs L o l h = Some os) <-> (l <= length h)%nat /\ forall s, In s (firstn l h) -> 1 <= value s).
Proof. exact double_accepts. Qed.
Print Assumptions C36_binary64_accepted.

(** a stretch that is not a number makes the call panic. *)
Theorem C36_binary64_nan : forall (L : libm) (o : network) l h, In nan (firstn l h) -> outputs L o l h = None.
Proof. exact double_nan. Qed.
Print Assumptions C36_binary64_nan.

Theorem C36_binary64_outputs : forall (L : libm) (o : network) l h os, (forall s, In s h -> finite s) ->
  outputs L o l h = Some os ->
  length os = l /\
  forall i a, nth_error os i = Some a ->
    exists s m, nth_error h i = Some s /\ is_largest (firstn (Datatypes.S i) h) m /\ output L o s m = Some a.
Proof. exact double_outputs. Qed.
Print Assumptions C36_binary64_outputs.

(** Two histories agree, to the last bit, wherever their current stretch and
    largest stretch so far agree. *)
Theorem C36_binary64_only_maximum : forall (L : libm) (o : network) l l' h h' os os' i i' s m m' a a',
  (forall s, In s h -> finite s) -> (forall s, In s h' -> finite s) ->
  outputs L o l h = Some os -> outputs L o l' h' = Some os' ->
  nth_error h i = Some s -> nth_error h' i' = Some s ->
  is_largest (firstn (Datatypes.S i) h) m -> is_largest (firstn (Datatypes.S i') h') m' -> value m = value m' ->
  nth_error os i = Some a -> nth_error os' i' = Some a' -> a = a'.
Proof. exact double_only_maximum. Qed.
Print Assumptions C36_binary64_only_maximum.

(** A network that exists, loaded and partly unloaded. *)
Example C36_binary64_example : forall L : libm, exists o os,
  new_network L hyperelastic_damage.NUMGRID 3 2%float 64%float 8 1%float = Some o /\
  outputs L o 3 [1%float; 3%float; 2%float] = Some os /\ (forall s, In s [1%float; 3%float; 2%float] -> finite s).
Proof. exact history_case. Qed.

(** The fraction of intact chains is never negative, whatever the rounding, if
    the exponential function and pi of the library have the sign +; *)
Theorem C38_binary64_nonnegative : forall (L : libm), (forall x, unsigned (l_exp L x)) -> unsigned (l_pi L) ->
  forall n me c k N w (o : network) l h os sigma p,
  (Z.of_nat n <= 2 ^ 53)%Z -> finite c -> 0 < value c <= powerRZ 2 900 -> unsigned w ->
  new_network L n me c k N w = Some o -> outputs L o l h = Some os -> In (sigma, p) os ->
  PrimFloat.ltb p 0 = false.
Proof. exact history_unsigned. Qed.
Print Assumptions C38_binary64_nonnegative.

(** chains that break later are intact at least as often. *)
Theorem C38_binary64_critical_extension : forall (L : libm), (forall x, unsigned (l_exp L x)) -> unsigned (l_pi L) ->
  forall e f g n me c c' k N w s m sg p sg' p',
  unsigned n -> (forall z, In z g -> unsigned z) -> finite c -> finite c' -> value c <= value c' ->
  @hyperelastic_damage.uniaxial_tension float (F64 L) e f g n me c k N w s m = Some (sg, p) ->
  @hyperelastic_damage.uniaxial_tension float (F64 L) e f g n me c' k N w s m = Some (sg', p') ->
  finite p -> finite p' -> value p <= value p'.
Proof. exact tension_mono. Qed.
Print Assumptions C38_binary64_critical_extension.

(** A correctly rounded library and the network of the example above meet the hypotheses. *)
Example C38_binary64_library : (forall x, unsigned (l_exp rounded_libm x)) /\ unsigned (l_pi rounded_libm).
Proof. exact rounded_unsigned. Qed.
Example C38_binary64_numbers : (Z.of_nat hyperelastic_damage.NUMGRID <= 2 ^ 53)%Z /\ finite 2%float /\ 0 < value 2%float <= powerRZ 2 900 /\ unsigned 1%float.
Proof. exact example_numbers. Qed.
