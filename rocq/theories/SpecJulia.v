(** What broadcasting a function of numbers over arrays means, in terms of the sizes of the
    arrays along each dimension and of their entries. *)
From Coq Require Import ZArith List Bool Arith.
From Verif Require Import MJuliaBase.
Import ListNotations.

Section Spec.
Context {T : Type}.

(** The arguments of a call, one array for each type. *)
Fixpoint arrays (s : list ctype) : Type :=
  match s with [] => unit | t :: s' => (jarray (cval (T := T) t) * arrays s')%type end.
Fixpoint numbers (s : list ctype) : Type :=
  match s with [] => unit | t :: s' => (cval (T := T) t * numbers s')%type end.
Fixpoint apply_arrays {r : Type} (s : list ctype) : bfun (T := T) s r -> arrays s -> r :=
  match s with [] => fun f _ => f | t :: s' => fun f a => apply_arrays s' (f (fst a)) (snd a) end.
Fixpoint apply_numbers {r : Type} (s : list ctype) : cfun (T := T) s r -> numbers s -> r :=
  match s with [] => fun f _ => f | t :: s' => fun f a => apply_numbers s' (f (fst a)) (snd a) end.
Fixpoint shapes (s : list ctype) : arrays s -> list (list nat) :=
  match s with [] => fun _ => [] | t :: s' => fun a => dims (fst a) :: shapes s' (snd a) end.

(** The size along dimension [k]; there are infinitely many dimensions of size 1. *)
Definition along (k : nat) (d : list nat) : nat := nth k d 1.

(** Two arrays clash: neither can be stretched along some dimension to the size of the other. *)
Definition clash (d1 d2 : list nat) : Prop :=
  exists k, along k d1 <> 1 /\ along k d2 <> 1 /\ along k d1 <> along k d2.

(** [index] points into an array of shape [d]. *)
Definition valid (index d : list nat) : Prop := Forall2 lt index d.

(** The entry of [a] that meets [index]: along a dimension of size 1 it is the only one,
    along the others the one at that place. *)
Definition meets (index own d : list nat) : Prop :=
  length own = length d /\
  forall k, k < length d -> nth k own 0 = if along k d =? 1 then 0 else nth k index 0.
Fixpoint meeting (index : list nat) (s : list ctype) : arrays s -> numbers s -> Prop :=
  match s with
  | [] => fun _ _ => True
  | t :: s' => fun a v =>
      (exists own, meets index own (dims (fst a)) /\ fst v = at_ (fst a) own) /\ meeting index s' (snd a) (snd v)
  end.

(** [result] is [f] broadcast over [a]. *)
Definition broadcasts {r : Type} (s : list ctype) (f : cfun (T := T) s r) (a : arrays s) (result : option (jarray r)) : Prop :=
  match result with
  | None => exists d1 d2, In d1 (shapes s a) /\ In d2 (shapes s a) /\ clash d1 d2
  | Some out =>
      (* the sizes are those of the arguments, stretched where an argument has size 1 *)
      (forall d k, In d (shapes s a) -> along k d = along k (dims out) \/ along k d = 1)
      /\ (forall k, along k (dims out) <> 1 -> exists d, In d (shapes s a) /\ along k d = along k (dims out))
      (* there are as many dimensions as the argument with the most of them has *)
      /\ (forall d, In d (shapes s a) -> length d <= length (dims out))
      /\ (dims out = [] \/ exists d, In d (shapes s a) /\ length d = length (dims out))
      (* the entries are those of [f] *)
      /\ (forall index, valid index (dims out) ->
            exists v, meeting index s a v /\ at_ out index = apply_numbers s f v)
  end.
End Spec.
