(** Constants shared by the physics modules. *)
From Coq Require Import ZArith.
From Verif Require Import Scalar.

Section Model.
Context {T : Type} {Sc : Scalar T}.

(* /repo/src/physics/mod.rs:8 *)
Definition BOLTZMANN_CONSTANT : T := sdec 8314462618 9.

(* /repo/src/physics/mod.rs:11 *)
Definition PLANCK_CONSTANT : T := sdec 6350779923502961 17.

(* /repo/src/physics/single_chain/mod.rs:30 *)
Definition ONE : T := sdec 1 0.

(* /repo/src/physics/single_chain/mod.rs:31, 1e-6 *)
Definition ZERO : T := sdec 1 6.

(* /repo/src/physics/single_chain/mod.rs:32 *)
Definition POINTS : Z := 64.

End Model.
