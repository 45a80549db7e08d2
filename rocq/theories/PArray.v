(** The two maps of MArray.v act entry by entry. *)
From Coq Require Import List ZArith Lia.
From Verif Require Import Scalar MArray SpecArray.
Import ListNotations.

Lemma mapv_elementwise : forall A B (f : A -> B) a, elementwise f a (mapv f a).
Proof.
  intros A B f a; unfold elementwise, mapv; cbn [shape entries].
  split; [reflexivity|]; split; [apply map_length|].
  intros i x H; apply map_nth_error; exact H.
Qed.

Lemma mapM_elementwise : forall A B (f : A -> option B) l,
  match mapM f l with
  | Some d => length d = length l
      /\ forall i x, nth_error l i = Some x -> exists y, f x = Some y /\ nth_error d i = Some y
  | None => exists x, In x l /\ f x = None
  end.
Proof.
  intros A B f l; induction l as [|a l IH]; cbn [mapM].
  - split; [reflexivity|]; intros [|i] x H; discriminate H.
  - destruct (f a) as [b|] eqn:E; cbn [bind].
    + destruct (mapM f l) as [d|]; cbn [bind].
      * destruct IH as [L IH]; split; [cbn [length]; rewrite L; reflexivity|].
        intros [|i] x H; cbn [nth_error] in *.
        -- injection H as <-; exists b; split; [exact E|reflexivity].
        -- exact (IH i x H).
      * destruct IH as (x & Hin & Hx); exists x; split; [right; exact Hin|exact Hx].
    + exists a; split; [left; reflexivity|exact E].
Qed.

Lemma mapv_panic_elementwise : forall A B (f : A -> option B) a,
  elementwise_panic f a (mapv_panic f a).
Proof.
  intros A B f a; unfold mapv_panic, elementwise_panic.
  pose proof (mapM_elementwise A B f (entries a)) as H.
  destruct (mapM f (entries a)) as [d|]; cbn [bind shape entries]; [|exact H].
  split; [reflexivity|exact H].
Qed.

(** An array that is mapped keeps a number of entries that fits its shape. *)
Lemma elementwise_well_shaped : forall A B (f : A -> B) a b,
  elementwise f a b -> well_shaped a -> well_shaped b.
Proof.
  intros A B f a b (Hs & Hl & _) Hw; unfold well_shaped in *; congruence.
Qed.

Lemma elementwise_of_mapv : forall A B (f g : A -> B) a b,
  b = mapv g a -> (forall x, g x = f x) -> elementwise f a b.
Proof.
  intros A B f g a b -> E.
  destruct (mapv_elementwise A B g a) as (Hs & Hl & H).
  split; [exact Hs|]; split; [exact Hl|].
  intros i x Hi; rewrite <- E; exact (H i x Hi).
Qed.

Lemma elementwise_of_mapv_panic : forall A B (f g : A -> option B) a r,
  r = mapv_panic g a -> (forall x, g x = f x) -> elementwise_panic f a r.
Proof.
  intros A B f g a r -> E.
  pose proof (mapv_panic_elementwise A B g a) as H.
  unfold elementwise_panic in *; destruct (mapv_panic g a) as [b|].
  - destruct H as (Hs & Hl & H); split; [exact Hs|]; split; [exact Hl|].
    intros i x Hi; rewrite <- E; exact (H i x Hi).
  - destruct H as (x & Hin & Hx); exists x; rewrite <- E; split; assumption.
Qed.

(** The hypotheses are the equations between the fields of the two objects; the methods
    have been unfolded to calls of the free functions. *)
Ltac elementwise_tac :=
  repeat match goal with |- _ /\ _ => split end;
  intros;
  match goal with
  | |- elementwise _ _ _ => eapply elementwise_of_mapv; [reflexivity | intro]
  | |- elementwise_panic _ _ _ => eapply elementwise_of_mapv_panic; [reflexivity | intro]
  | |- _ => idtac
  end;
  repeat match goal with E : _ = _ |- _ => rewrite E; clear E end;
  reflexivity.
