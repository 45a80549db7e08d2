(** What the Julia sources use of the Julia language: arrays and numbers, [broadcast], [ccall]. *)
From Coq Require Import ZArith List Bool Arith.
From Verif Require Import Scalar MConst MBindConstitutive.
Import ListNotations.
Local Open Scope scalar_scope.

(** ** Numbers and arrays *)

(** A number is an array without dimensions.  [at_] gives the entry at an index, one
    zero-based component per dimension. *)
Record jarray (A : Type) := { dims : list nat; at_ : list nat -> A }.
Arguments dims {A}.
Arguments at_ {A}.
Arguments Build_jarray {A}.
Definition num {A : Type} (a : A) : jarray A := {| dims := []; at_ := fun _ => a |}.

(** ** C functions *)

Inductive ctype := UInt8 | Float64.
Definition ctype_eq_dec (a b : ctype) : {a = b} + {a <> b}.
Proof. decide equality. Defined.

Section Julia.
Context {T : Type} {Sc : Scalar T}.

(** The values of the types UInt8 (0 to 255, as [Z]) and Float64. *)
Definition cval (t : ctype) : Type := match t with UInt8 => Z | Float64 => T end.
Fixpoint cfun (s : list ctype) (r : Type) : Type :=
  match s with [] => r | t :: s' => cval t -> cfun s' r end.
Fixpoint cmap {r r' : Type} (f : r -> r') (s : list ctype) : cfun s r -> cfun s r' :=
  match s with [] => f | t :: s' => fun g x => cmap f s' (g x) end.
Fixpoint cconst {r : Type} (v : r) (s : list ctype) : cfun s r :=
  match s with [] => v | t :: s' => fun _ => cconst v s' end.

(** A function exported by the library, with the types its definition gives its parameters.
    All of them return a Float64, or panic ([None]). *)
Record symbol := { sig : list ctype; body : cfun sig (option T) }.

(** [ccall((symbol, lib), Float64, (declared...), args...)].  A call whose declared types are
    not those of the definition has undefined behaviour, as in C. *)
Definition ccall (f : symbol) (declared : list ctype) : cfun declared (c_outcome T) :=
  match list_eq_dec ctype_eq_dec (sig f) declared with
  | left e => cmap Finished declared (eq_rect (sig f) (fun s => cfun s (option T)) (body f) declared e)
  | right _ => cconst Undefined declared
  end.

(** ** broadcast *)

(** The common shape: dimensions are matched from the first one, missing ones count as 1, and a
    dimension 1 stretches to the other.  [None] is the exception DimensionMismatch. *)
Fixpoint common (a b : list nat) : option (list nat) :=
  match a, b with
  | [], _ => Some b
  | _, [] => Some a
  | m :: a', n :: b' =>
      match common a' b' with
      | None => None
      | Some c => if m =? n then Some (m :: c) else if m =? 1 then Some (n :: c) else if n =? 1 then Some (m :: c) else None
      end
  end%nat.

(** The component of the index that an array of shape [d] uses. *)
Fixpoint pick (d index : list nat) : list nat :=
  match d, index with
  | n :: d', i :: index' => (if n =? 1 then O else i) :: pick d' index'
  | _, _ => []
  end%nat.

Fixpoint bfun (s : list ctype) (r : Type) : Type :=
  match s with [] => r | t :: s' => jarray (cval t) -> bfun s' r end.
Fixpoint broadcast_from {r : Type} (s : list ctype) (shape : option (list nat)) : (list nat -> cfun s r) -> bfun s (option (jarray r)) :=
  match s with
  | [] => fun f => match shape with None => None | Some d => Some {| dims := d; at_ := f |} end
  | t :: s' => fun f a =>
      broadcast_from s' (match shape with None => None | Some d => common d (dims a) end)
        (fun index => f index (at_ a (pick (dims a) index)))
  end.
(** [broadcast(f, args...)] of a function of numbers. *)
Definition broadcast {r : Type} (s : list ctype) (f : cfun s r) : bfun s (option (jarray r)) :=
  broadcast_from s (Some []) (fun _ => f).

(** The result of a Julia function: an exception, or for each entry what the C call gave.
    (Undefined behaviour or a panic in one entry ends the program; here it shows at that entry.) *)
Definition result : Type := option (jarray (c_outcome T)).

(** ** integrate *)

(** The outcome of running a computation on each element, in order. *)
Fixpoint outcomes {A : Type} (f : A -> c_outcome T) (l : list A) : c_outcome (list T) :=
  match l with
  | [] => Finished (Some [])
  | x :: l' =>
      match f x with
      | Undefined => Undefined
      | Finished None => Finished None
      | Finished (Some v) =>
          match outcomes f l' with
          | Undefined => Undefined
          | Finished None => Finished None
          | Finished (Some vs) => Finished (Some (v :: vs))
          end
      end
  end.
(** [sum] of a vector of numbers starts from its first entry. *)
Definition jsum (l : list T) : T := match l with [] => sdec 0 0 | x :: l' => fold_left sadd l' x end.
(** The outcome of a call with numbers only. *)
Definition single (r : result) : c_outcome T :=
  match r with None => Finished None | Some a => at_ a [] end.
Definition bind_outcome {A B : Type} (a : c_outcome A) (f : A -> c_outcome B) : c_outcome B :=
  match a with Undefined => Undefined | Finished None => Finished None | Finished (Some v) => f v end.

(* /repo/src/physics/single_chain/mod.jl:10-20 *)
Definition integrate (fun_ : T -> result) (lower_lim upper_lim : T) (num_points : nat) : c_outcome T :=
  let dx := (upper_lim - lower_lim) / sofZ (Z.of_nat num_points) in
  bind_outcome
    (outcomes (fun k => single (fun_ (lower_lim + (sdec 5 1 + sofZ (Z.of_nat k)) * dx))) (seq 0 num_points))
    (fun values => Finished (Some (jsum values * dx))).
(* /repo/src/physics/single_chain/mod.jl:6-8 *)
Definition jl_ONE : T := sdec 1 0.
Definition jl_ZERO : T := sdec 1 6.
Definition jl_POINTS : nat := 64.
(* The constant is written in each constructor that uses it:
   BOLTZMANN_CONSTANT::Float64 = 8.314462618, as in /repo/src/physics/mod.jl:8. *)
Definition jl_BOLTZMANN_CONSTANT : T := sdec 8314462618 9.
End Julia.
Arguments symbol : clear implicits.
Arguments result : clear implicits.
