(** The arrays that cross the Python interface (numpy's [ndarray], read by the crate as
    an [ndarray::ArrayViewD<f64>]) and the two ways the crate maps a function over one. *)
From Coq Require Import List ZArith.
From Verif Require Import Scalar.
Import ListNotations.

(** An array is its shape and its entries in logical (row-major) order.  Memory layout is
    not modelled. *)
Record ndarray (A : Type) := mk_array { shape : list nat; entries : list A }.
Arguments mk_array {A}.
Arguments shape {A}.
Arguments entries {A}.

(** [array.as_array().mapv(f).into_pyarray(py)], for example
    /repo/src/physics/single_chain/fjc/thermodynamics/isotensional/py.rs. *)
Definition mapv {A B : Type} (f : A -> B) (a : ndarray A) : ndarray B :=
  mk_array (shape a) (map f (entries a)).

(** The same when [f] can panic: the first panic ends the call. *)
Definition mapv_panic {A B : Type} (f : A -> option B) (a : ndarray A) : option (ndarray B) :=
  let! d := mapM f (entries a) in Some (mk_array (shape a) d).
