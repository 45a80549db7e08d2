(** Means of functions of random numbers that may jump, and the entries of a histogram. *)
From Coq Require Import Reals List.
From Verif Require Import SpecSampling.
Import ListNotations.
Open Scope R_scope.

(** The mean of [f] over lists of [n] independent uniform numbers is [v]: [f] is
    as close as one likes, on average, to functions whose averages are as close as
    one likes to [v]. *)
Definition has_mean (n : nat) (f : list R -> R) (v : R) : Prop :=
  forall e, 0 < e -> exists (g h : list R -> R) (vg vh : R),
    has_average n g vg /\ has_average n h vh /\ Rabs (vg - v) <= e /\ vh <= e /\
    forall l, length l = n -> Forall (fun x => 0 < x < 1) l -> Rabs (f l - g l) <= h l.

(** The [i]-th entry of the densities of a histogram. *)
Definition bin_density (i : nat) (histogram : option (list R * list R)) : R :=
  match histogram with Some (_, d) => nth i d 0 | None => 0 end.
