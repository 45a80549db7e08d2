(** A call that returns, and a call that panics. *)
Definition answers {A : Type} (call : option A) : Prop := exists v, call = Some v.
Definition panics {A : Type} (call : option A) : Prop := call = None.
