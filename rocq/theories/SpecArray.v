(** What it means for a function on arrays to act entry by entry. *)
From Coq Require Import List ZArith.
From Verif Require Import MArray.
Import ListNotations.

(** The number of entries an array of the given shape has. *)
Definition size (s : list nat) : nat := fold_right Nat.mul 1%nat s.

Definition well_shaped {A} (a : ndarray A) : Prop := length (entries a) = size (shape a).

(** [b] has the shape of [a], and its [i]-th entry is [f] of the [i]-th entry of [a]. *)
Definition elementwise {A B} (f : A -> B) (a : ndarray A) (b : ndarray B) : Prop :=
  shape b = shape a
  /\ length (entries b) = length (entries a)
  /\ forall i x, nth_error (entries a) i = Some x -> nth_error (entries b) i = Some (f x).

(** The same for a function that can fail: the whole call fails exactly when some entry does. *)
Definition elementwise_panic {A B} (f : A -> option B) (a : ndarray A) (r : option (ndarray B)) : Prop :=
  match r with
  | Some b =>
      shape b = shape a
      /\ length (entries b) = length (entries a)
      /\ forall i x, nth_error (entries a) i = Some x ->
         exists y, f x = Some y /\ nth_error (entries b) i = Some y
  | None => exists x, In x (entries a) /\ f x = None
  end.
