(** Link potentials: the force between the ends of a link of stretch [lam], in
    units of kT/l, for nondimensional stiffness [kap].

    Lennard-Jones potential kap/72 (lam^-12 - 2 lam^-6), log-squared potential
    kap/2 (ln lam)^2. *)
From Coq Require Import Reals.
Open Scope R_scope.

Definition lj_bond_force (kap lam : R) : R := kap / 6 * (/ lam ^ 7 - / lam ^ 13).
Definition log_squared_bond_force (kap lam : R) : R := kap * (ln lam / lam).
