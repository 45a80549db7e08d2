(** Notions used to state the properties of the constitutive models. *)
From Coq Require Import Reals ZArith List.
From Verif Require Import Scalar MEfjc MConstitutive.
Import ListNotations.
Open Scope R_scope.

(** [m] is the largest of one and the stretches in [h]. *)
Definition is_running_maximum (h : list R) (m : R) : Prop :=
  In m (1 :: h) /\ forall s, In s (1 :: h) -> s <= m.

(** The output of the damage model at a current stretch, given the largest
    stretch so far: the free function with the parameters stored in the object. *)
Definition response {T : Type} {Sc : Scalar T} (o : hyperelastic_damage.BucheSilberstein.t T)
    (stretch maximum : T) : option (T * T) :=
  hyperelastic_damage.uniaxial_tension
    (hyperelastic_damage.BucheSilberstein.element o) (hyperelastic_damage.BucheSilberstein.factor o)
    (hyperelastic_damage.BucheSilberstein.grid o) (hyperelastic_damage.BucheSilberstein.normalization o)
    (hyperelastic_damage.BucheSilberstein.method o)
    (hyperelastic_damage.BucheSilberstein.nondimensional_critical_extension o)
    (hyperelastic_damage.BucheSilberstein.nondimensional_link_stiffness o)
    (hyperelastic_damage.BucheSilberstein.number_of_links o)
    (hyperelastic_damage.BucheSilberstein.swelling_ratio o) stretch maximum.

(** Length of a chain with current coordinates (z, r) at stretch [stretch] when
    the network was at its largest stretch [maximum] (incompressible uniaxial
    deformation moves z in proportion to the stretch and r to its inverse root). *)
Definition length_at_maximum (stretch maximum z r : R) : R :=
  sqrt ((z * maximum / stretch) ^ 2 + stretch / maximum * r ^ 2).

(** Length of the same chain in the undeformed network. *)
Definition reference_length (stretch z r : R) : R := sqrt ((z / stretch) ^ 2 + stretch * r ^ 2).

(** Sum of a function over a list. *)
Definition sum_over {A : Type} (l : list A) (f : A -> R) : R := fold_right Rplus 0 (map f l).

(** Nondimensional free energy of a chain of the given length: method 2 uses the
    EFJC free energy, method 3 the harmonic one, measured in a network swollen
    by the linear factor [j]. *)
Definition chain_energy (method : Z) (stiffness : R) (links : Z) (j : R) (length : R) : R :=
  if Z.eqb method 2
  then efjc_isometric_asymptotic_reduced_legendre.nondimensional_relative_helmholtz_free_energy links stiffness length
  else 3 / 2 * IZR links * stiffness * (stiffness + 1) / (stiffness ^ 2 + 6 * stiffness + 3) * length ^ 2 / j ^ 2.

(** The sampled chain coordinates c/n, 2c/n, ..., c. *)
Definition sampled_lengths (n : nat) (c : R) : list R :=
  map (fun i => c * INR (S i) / INR n) (seq 0 n).

(** Fraction of chains that are intact when the network at stretch [s] has been
    at largest stretch [m]: the Boltzmann weight of the surviving cells over the
    weight of all undeformed chains, by the rectangle rule with spacing c/n. *)
Definition intact_fraction (n : nat) (method : Z) (c stiffness : R) (links : Z) (swelling s m : R) : R :=
  let lengths := sampled_lengths n c in
  let dz := c / INR n in
  sum_over lengths (fun z => sum_over lengths (fun r =>
    if Rle_dec (length_at_maximum s m z r) c
    then 4 * PI * r * exp (- chain_energy method stiffness links (Rpower swelling (1 / 3)) (reference_length s z r))
           * (dz / swelling) ^ 2
    else 0))
  / sum_over lengths (fun gamma =>
      4 * PI * gamma ^ 2 * exp (- chain_energy method stiffness links 1 gamma) * dz / swelling).

(** The table with entry [f z r] for every pair of grid values. *)
Definition table (f : R -> R -> R) (grid : list R) : list (list R) :=
  map (fun z => map (fun r => f z r) grid) grid.

(** The fraction of chains intact at stretch [s] if the network was never
    stretched further: the chains no longer than the critical extension. *)
Definition undamaged_fraction (n : nat) (method : Z) (c stiffness : R) (links : Z) (swelling s : R) : R :=
  let lengths := sampled_lengths n c in
  let dz := c / INR n in
  sum_over lengths (fun z => sum_over lengths (fun r =>
    if Rle_dec (sqrt (z ^ 2 + r ^ 2)) c
    then 4 * PI * r * exp (- chain_energy method stiffness links (Rpower swelling (1 / 3)) (reference_length s z r))
           * (dz / swelling) ^ 2
    else 0))
  / sum_over lengths (fun gamma =>
      4 * PI * gamma ^ 2 * exp (- chain_energy method stiffness links 1 gamma) * dz / swelling).
