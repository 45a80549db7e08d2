(** Theorems for C11, C12, C13 and C14 (generated by tools/gen_identities.py).  Each is a
    conjunction over the chain records of SpecChains.v of one chain model. *)
From Coq Require Import Reals ZArith Lra Lia.
From Coquelicot Require Import Coquelicot.
From Verif Require Import Scalar MMath MConst SpecThermo SpecChains PIdentIdeal PIdentFjc PIdentSwfjc PIdentEfjc PIdentMorse PIdentLennardJones PIdentLogSquared PIdentWlc.
Open Scope R_scope.

(** ** C12: Dimensional functions are rescaled nondimensional ones. *)

Theorem C12_ideal_dimensionless : forall N l m T,
  (0 < N)%Z -> 0 < l -> 0 < T -> 
  isometric_dimensionless (IZR N) l T (C_ideal_isometric N l m T) /\
  isotensional_dimensionless l T (C_ideal_isotensional N l m T).
Proof.
  intros N l m T H0 H1 H2. exact (conj (ideal_isometric_dimensionless N l m T H0 H1 H2)
  (ideal_isotensional_dimensionless N l m T H0 H1 H2)).
Qed.
Print Assumptions C12_ideal_dimensionless.

Example C12_ideal_dimensionless_example :
  isometric_dimensionless (IZR 8) 1 300 (C_ideal_isometric 8 1 1 300) /\
  isotensional_dimensionless 1 300 (C_ideal_isotensional 8 1 1 300).
Proof. exact (C12_ideal_dimensionless 8 1 1 300 ltac:(lia) ltac:(lra) ltac:(lra)). Qed.

Theorem C12_fjc_dimensionless : forall N l m T,
  (0 < N)%Z -> 0 < l -> 0 < T -> 
  isometric_dimensionless (IZR N) l T (C_fjc_isometric_legendre N l m T) /\
  isotensional_dimensionless l T (C_fjc_isotensional N l m T) /\
  isotensional_helmholtz_dimensionless l T (C_fjc_isotensional_legendre N l m T).
Proof.
  intros N l m T H0 H1 H2. exact (conj (fjc_isometric_legendre_dimensionless N l m T H0 H1 H2)
  (conj (fjc_isotensional_dimensionless N l m T H0 H1 H2)
  (fjc_isotensional_legendre_dimensionless N l m T H0 H1 H2))).
Qed.
Print Assumptions C12_fjc_dimensionless.

Example C12_fjc_dimensionless_example :
  isometric_dimensionless (IZR 8) 1 300 (C_fjc_isometric_legendre 8 1 1 300) /\
  isotensional_dimensionless 1 300 (C_fjc_isotensional 8 1 1 300) /\
  isotensional_helmholtz_dimensionless 1 300 (C_fjc_isotensional_legendre 8 1 1 300).
Proof. exact (C12_fjc_dimensionless 8 1 1 300 ltac:(lia) ltac:(lra) ltac:(lra)). Qed.

Theorem C12_swfjc_dimensionless : forall N l m T w,
  (0 < N)%Z -> 0 < l -> 0 < T -> 0 < w -> 
  isometric_dimensionless (IZR N) l T (C_swfjc_isometric_legendre N l m T w) /\
  isotensional_dimensionless l T (C_swfjc_isotensional N l m T w) /\
  isotensional_helmholtz_dimensionless l T (C_swfjc_isotensional_legendre N l m T w).
Proof.
  intros N l m T w H0 H1 H2 H3. exact (conj (swfjc_isometric_legendre_dimensionless N l m T w H0 H1 H2 H3)
  (conj (swfjc_isotensional_dimensionless N l m T w H0 H1 H2 H3)
  (swfjc_isotensional_legendre_dimensionless N l m T w H0 H1 H2 H3))).
Qed.
Print Assumptions C12_swfjc_dimensionless.

Example C12_swfjc_dimensionless_example :
  isometric_dimensionless (IZR 8) 1 300 (C_swfjc_isometric_legendre 8 1 1 300 (1 / 2)) /\
  isotensional_dimensionless 1 300 (C_swfjc_isotensional 8 1 1 300 (1 / 2)) /\
  isotensional_helmholtz_dimensionless 1 300 (C_swfjc_isotensional_legendre 8 1 1 300 (1 / 2)).
Proof. exact (C12_swfjc_dimensionless 8 1 1 300 (1 / 2) ltac:(lia) ltac:(lra) ltac:(lra) ltac:(lra)). Qed.

Theorem C12_efjc_dimensionless : forall N l m T k,
  (0 < N)%Z -> 0 < l -> 0 < T -> 0 < k -> 
  isometric_dimensionless (IZR N) l T (C_efjc_isometric_asymptotic_alternative_legendre N l m T k) /\
  isometric_dimensionless (IZR N) l T (C_efjc_isometric_asymptotic_legendre N l m T k) /\
  isometric_dimensionless (IZR N) l T (C_efjc_isometric_asymptotic_reduced_legendre N l m T k) /\
  isotensional_dimensionless l T (C_efjc_isotensional N l m T k) /\
  isotensional_dimensionless l T (C_efjc_isotensional_asymptotic N l m T k) /\
  isotensional_dimensionless l T (C_efjc_isotensional_asymptotic_alternative N l m T k) /\
  isotensional_helmholtz_dimensionless l T (C_efjc_isotensional_asymptotic_alternative_legendre N l m T k) /\
  isotensional_helmholtz_dimensionless l T (C_efjc_isotensional_asymptotic_legendre N l m T k) /\
  isotensional_dimensionless l T (C_efjc_isotensional_asymptotic_reduced N l m T k) /\
  isotensional_helmholtz_dimensionless l T (C_efjc_isotensional_asymptotic_reduced_legendre N l m T k) /\
  isotensional_helmholtz_dimensionless l T (C_efjc_isotensional_legendre N l m T k).
Proof.
  intros N l m T k H0 H1 H2 H3. exact (conj (efjc_isometric_asymptotic_alternative_legendre_dimensionless N l m T k H0 H1 H2 H3)
  (conj (efjc_isometric_asymptotic_legendre_dimensionless N l m T k H0 H1 H2 H3)
  (conj (efjc_isometric_asymptotic_reduced_legendre_dimensionless N l m T k H0 H1 H2 H3)
  (conj (efjc_isotensional_dimensionless N l m T k H0 H1 H2 H3)
  (conj (efjc_isotensional_asymptotic_dimensionless N l m T k H0 H1 H2 H3)
  (conj (efjc_isotensional_asymptotic_alternative_dimensionless N l m T k H0 H1 H2 H3)
  (conj (efjc_isotensional_asymptotic_alternative_legendre_dimensionless N l m T k H0 H1 H2 H3)
  (conj (efjc_isotensional_asymptotic_legendre_dimensionless N l m T k H0 H1 H2 H3)
  (conj (efjc_isotensional_asymptotic_reduced_dimensionless N l m T k H0 H1 H2 H3)
  (conj (efjc_isotensional_asymptotic_reduced_legendre_dimensionless N l m T k H0 H1 H2 H3)
  (efjc_isotensional_legendre_dimensionless N l m T k H0 H1 H2 H3))))))))))).
Qed.
Print Assumptions C12_efjc_dimensionless.

Example C12_efjc_dimensionless_example :
  isometric_dimensionless (IZR 8) 1 300 (C_efjc_isometric_asymptotic_alternative_legendre 8 1 1 300 500) /\
  isometric_dimensionless (IZR 8) 1 300 (C_efjc_isometric_asymptotic_legendre 8 1 1 300 500) /\
  isometric_dimensionless (IZR 8) 1 300 (C_efjc_isometric_asymptotic_reduced_legendre 8 1 1 300 500) /\
  isotensional_dimensionless 1 300 (C_efjc_isotensional 8 1 1 300 500) /\
  isotensional_dimensionless 1 300 (C_efjc_isotensional_asymptotic 8 1 1 300 500) /\
  isotensional_dimensionless 1 300 (C_efjc_isotensional_asymptotic_alternative 8 1 1 300 500) /\
  isotensional_helmholtz_dimensionless 1 300 (C_efjc_isotensional_asymptotic_alternative_legendre 8 1 1 300 500) /\
  isotensional_helmholtz_dimensionless 1 300 (C_efjc_isotensional_asymptotic_legendre 8 1 1 300 500) /\
  isotensional_dimensionless 1 300 (C_efjc_isotensional_asymptotic_reduced 8 1 1 300 500) /\
  isotensional_helmholtz_dimensionless 1 300 (C_efjc_isotensional_asymptotic_reduced_legendre 8 1 1 300 500) /\
  isotensional_helmholtz_dimensionless 1 300 (C_efjc_isotensional_legendre 8 1 1 300 500).
Proof. exact (C12_efjc_dimensionless 8 1 1 300 500 ltac:(lia) ltac:(lra) ltac:(lra) ltac:(lra)). Qed.

Theorem C12_morse_dimensionless : forall N l m T k e,
  (0 < N)%Z -> 0 < l -> 0 < T -> 0 < k -> 0 < e -> 
  isometric_dimensionless (IZR N) l T (C_morse_isometric_asymptotic_legendre N l m T k e) /\
  isometric_dimensionless (IZR N) l T (C_morse_isometric_asymptotic_reduced_legendre N l m T k e) /\
  isotensional_dimensionless l T (C_morse_isotensional N l m T k e) /\
  isotensional_dimensionless l T (C_morse_isotensional_asymptotic N l m T k e) /\
  isotensional_helmholtz_dimensionless l T (C_morse_isotensional_asymptotic_legendre N l m T k e) /\
  isotensional_dimensionless l T (C_morse_isotensional_asymptotic_reduced N l m T k e) /\
  isotensional_helmholtz_dimensionless l T (C_morse_isotensional_asymptotic_reduced_legendre N l m T k e) /\
  isotensional_helmholtz_dimensionless l T (C_morse_isotensional_legendre N l m T k e).
Proof.
  intros N l m T k e H0 H1 H2 H3 H4. exact (conj (morse_isometric_asymptotic_legendre_dimensionless N l m T k e H0 H1 H2 H3 H4)
  (conj (morse_isometric_asymptotic_reduced_legendre_dimensionless N l m T k e H0 H1 H2 H3 H4)
  (conj (morse_isotensional_dimensionless N l m T k e H0 H1 H2 H3 H4)
  (conj (morse_isotensional_asymptotic_dimensionless N l m T k e H0 H1 H2 H3 H4)
  (conj (morse_isotensional_asymptotic_legendre_dimensionless N l m T k e H0 H1 H2 H3 H4)
  (conj (morse_isotensional_asymptotic_reduced_dimensionless N l m T k e H0 H1 H2 H3 H4)
  (conj (morse_isotensional_asymptotic_reduced_legendre_dimensionless N l m T k e H0 H1 H2 H3 H4)
  (morse_isotensional_legendre_dimensionless N l m T k e H0 H1 H2 H3 H4)))))))).
Qed.
Print Assumptions C12_morse_dimensionless.

Example C12_morse_dimensionless_example :
  isometric_dimensionless (IZR 8) 1 300 (C_morse_isometric_asymptotic_legendre 8 1 1 300 500 50) /\
  isometric_dimensionless (IZR 8) 1 300 (C_morse_isometric_asymptotic_reduced_legendre 8 1 1 300 500 50) /\
  isotensional_dimensionless 1 300 (C_morse_isotensional 8 1 1 300 500 50) /\
  isotensional_dimensionless 1 300 (C_morse_isotensional_asymptotic 8 1 1 300 500 50) /\
  isotensional_helmholtz_dimensionless 1 300 (C_morse_isotensional_asymptotic_legendre 8 1 1 300 500 50) /\
  isotensional_dimensionless 1 300 (C_morse_isotensional_asymptotic_reduced 8 1 1 300 500 50) /\
  isotensional_helmholtz_dimensionless 1 300 (C_morse_isotensional_asymptotic_reduced_legendre 8 1 1 300 500 50) /\
  isotensional_helmholtz_dimensionless 1 300 (C_morse_isotensional_legendre 8 1 1 300 500 50).
Proof. exact (C12_morse_dimensionless 8 1 1 300 500 50 ltac:(lia) ltac:(lra) ltac:(lra) ltac:(lra) ltac:(lra)). Qed.

Theorem C12_lennard_jones_dimensionless : forall N l m T k,
  (0 < N)%Z -> 0 < l -> 0 < T -> 0 < k -> 
  isometric_dimensionless (IZR N) l T (C_lennard_jones_isometric_asymptotic_legendre N l m T k) /\
  isometric_dimensionless (IZR N) l T (C_lennard_jones_isometric_asymptotic_reduced_legendre N l m T k) /\
  isotensional_dimensionless l T (C_lennard_jones_isotensional N l m T k) /\
  isotensional_dimensionless l T (C_lennard_jones_isotensional_asymptotic N l m T k) /\
  isotensional_helmholtz_dimensionless l T (C_lennard_jones_isotensional_asymptotic_legendre N l m T k) /\
  isotensional_dimensionless l T (C_lennard_jones_isotensional_asymptotic_reduced N l m T k) /\
  isotensional_helmholtz_dimensionless l T (C_lennard_jones_isotensional_asymptotic_reduced_legendre N l m T k) /\
  isotensional_helmholtz_dimensionless l T (C_lennard_jones_isotensional_legendre N l m T k).
Proof.
  intros N l m T k H0 H1 H2 H3. exact (conj (lennard_jones_isometric_asymptotic_legendre_dimensionless N l m T k H0 H1 H2 H3)
  (conj (lennard_jones_isometric_asymptotic_reduced_legendre_dimensionless N l m T k H0 H1 H2 H3)
  (conj (lennard_jones_isotensional_dimensionless N l m T k H0 H1 H2 H3)
  (conj (lennard_jones_isotensional_asymptotic_dimensionless N l m T k H0 H1 H2 H3)
  (conj (lennard_jones_isotensional_asymptotic_legendre_dimensionless N l m T k H0 H1 H2 H3)
  (conj (lennard_jones_isotensional_asymptotic_reduced_dimensionless N l m T k H0 H1 H2 H3)
  (conj (lennard_jones_isotensional_asymptotic_reduced_legendre_dimensionless N l m T k H0 H1 H2 H3)
  (lennard_jones_isotensional_legendre_dimensionless N l m T k H0 H1 H2 H3)))))))).
Qed.
Print Assumptions C12_lennard_jones_dimensionless.

Example C12_lennard_jones_dimensionless_example :
  isometric_dimensionless (IZR 8) 1 300 (C_lennard_jones_isometric_asymptotic_legendre 8 1 1 300 500) /\
  isometric_dimensionless (IZR 8) 1 300 (C_lennard_jones_isometric_asymptotic_reduced_legendre 8 1 1 300 500) /\
  isotensional_dimensionless 1 300 (C_lennard_jones_isotensional 8 1 1 300 500) /\
  isotensional_dimensionless 1 300 (C_lennard_jones_isotensional_asymptotic 8 1 1 300 500) /\
  isotensional_helmholtz_dimensionless 1 300 (C_lennard_jones_isotensional_asymptotic_legendre 8 1 1 300 500) /\
  isotensional_dimensionless 1 300 (C_lennard_jones_isotensional_asymptotic_reduced 8 1 1 300 500) /\
  isotensional_helmholtz_dimensionless 1 300 (C_lennard_jones_isotensional_asymptotic_reduced_legendre 8 1 1 300 500) /\
  isotensional_helmholtz_dimensionless 1 300 (C_lennard_jones_isotensional_legendre 8 1 1 300 500).
Proof. exact (C12_lennard_jones_dimensionless 8 1 1 300 500 ltac:(lia) ltac:(lra) ltac:(lra) ltac:(lra)). Qed.

Theorem C12_log_squared_dimensionless : forall N l m T k,
  (0 < N)%Z -> 0 < l -> 0 < T -> 0 < k -> 
  isometric_dimensionless (IZR N) l T (C_log_squared_isometric_asymptotic_legendre N l m T k) /\
  isometric_dimensionless (IZR N) l T (C_log_squared_isometric_asymptotic_reduced_legendre N l m T k) /\
  isotensional_dimensionless l T (C_log_squared_isotensional N l m T k) /\
  isotensional_dimensionless l T (C_log_squared_isotensional_asymptotic N l m T k) /\
  isotensional_helmholtz_dimensionless l T (C_log_squared_isotensional_asymptotic_legendre N l m T k) /\
  isotensional_dimensionless l T (C_log_squared_isotensional_asymptotic_reduced N l m T k) /\
  isotensional_helmholtz_dimensionless l T (C_log_squared_isotensional_asymptotic_reduced_legendre N l m T k) /\
  isotensional_helmholtz_dimensionless l T (C_log_squared_isotensional_legendre N l m T k).
Proof.
  intros N l m T k H0 H1 H2 H3. exact (conj (log_squared_isometric_asymptotic_legendre_dimensionless N l m T k H0 H1 H2 H3)
  (conj (log_squared_isometric_asymptotic_reduced_legendre_dimensionless N l m T k H0 H1 H2 H3)
  (conj (log_squared_isotensional_dimensionless N l m T k H0 H1 H2 H3)
  (conj (log_squared_isotensional_asymptotic_dimensionless N l m T k H0 H1 H2 H3)
  (conj (log_squared_isotensional_asymptotic_legendre_dimensionless N l m T k H0 H1 H2 H3)
  (conj (log_squared_isotensional_asymptotic_reduced_dimensionless N l m T k H0 H1 H2 H3)
  (conj (log_squared_isotensional_asymptotic_reduced_legendre_dimensionless N l m T k H0 H1 H2 H3)
  (log_squared_isotensional_legendre_dimensionless N l m T k H0 H1 H2 H3)))))))).
Qed.
Print Assumptions C12_log_squared_dimensionless.

Example C12_log_squared_dimensionless_example :
  isometric_dimensionless (IZR 8) 1 300 (C_log_squared_isometric_asymptotic_legendre 8 1 1 300 500) /\
  isometric_dimensionless (IZR 8) 1 300 (C_log_squared_isometric_asymptotic_reduced_legendre 8 1 1 300 500) /\
  isotensional_dimensionless 1 300 (C_log_squared_isotensional 8 1 1 300 500) /\
  isotensional_dimensionless 1 300 (C_log_squared_isotensional_asymptotic 8 1 1 300 500) /\
  isotensional_helmholtz_dimensionless 1 300 (C_log_squared_isotensional_asymptotic_legendre 8 1 1 300 500) /\
  isotensional_dimensionless 1 300 (C_log_squared_isotensional_asymptotic_reduced 8 1 1 300 500) /\
  isotensional_helmholtz_dimensionless 1 300 (C_log_squared_isotensional_asymptotic_reduced_legendre 8 1 1 300 500) /\
  isotensional_helmholtz_dimensionless 1 300 (C_log_squared_isotensional_legendre 8 1 1 300 500).
Proof. exact (C12_log_squared_dimensionless 8 1 1 300 500 ltac:(lia) ltac:(lra) ltac:(lra) ltac:(lra)). Qed.

Theorem C12_wlc_dimensionless : forall N l m T p,
  (0 < N)%Z -> 0 < l -> 0 < T -> 0 < p -> 
  isometric_dimensionless (IZR N) l T (C_wlc_isometric N l m T p).
Proof.
  intros N l m T p H0 H1 H2 H3. exact (wlc_isometric_dimensionless N l m T p H0 H1 H2 H3).
Qed.
Print Assumptions C12_wlc_dimensionless.

Example C12_wlc_dimensionless_example :
  isometric_dimensionless (IZR 8) 1 300 (C_wlc_isometric 8 1 1 300 5).
Proof. exact (C12_wlc_dimensionless 8 1 1 300 5 ltac:(lia) ltac:(lra) ltac:(lra) ltac:(lra)). Qed.

(** ** C13: Totals are the number of links times the per-link functions. *)

Theorem C13_ideal_extensive : forall N l m T,
  (0 < N)%Z -> 0 < l -> 0 < T -> 
  isometric_extensive (IZR N) (C_ideal_isometric N l m T) /\
  isotensional_extensive (IZR N) (C_ideal_isotensional N l m T).
Proof.
  intros N l m T H0 H1 H2. exact (conj (ideal_isometric_extensive N l m T H0 H1 H2)
  (ideal_isotensional_extensive N l m T H0 H1 H2)).
Qed.
Print Assumptions C13_ideal_extensive.

Example C13_ideal_extensive_example :
  isometric_extensive (IZR 8) (C_ideal_isometric 8 1 1 300) /\
  isotensional_extensive (IZR 8) (C_ideal_isotensional 8 1 1 300).
Proof. exact (C13_ideal_extensive 8 1 1 300 ltac:(lia) ltac:(lra) ltac:(lra)). Qed.

Theorem C13_fjc_extensive : forall N l m T,
  (0 < N)%Z -> 0 < l -> 0 < T -> 
  isometric_extensive (IZR N) (C_fjc_isometric_legendre N l m T) /\
  isotensional_extensive (IZR N) (C_fjc_isotensional N l m T) /\
  isotensional_helmholtz_extensive (IZR N) (C_fjc_isotensional_legendre N l m T).
Proof.
  intros N l m T H0 H1 H2. exact (conj (fjc_isometric_legendre_extensive N l m T H0 H1 H2)
  (conj (fjc_isotensional_extensive N l m T H0 H1 H2)
  (fjc_isotensional_legendre_extensive N l m T H0 H1 H2))).
Qed.
Print Assumptions C13_fjc_extensive.

Example C13_fjc_extensive_example :
  isometric_extensive (IZR 8) (C_fjc_isometric_legendre 8 1 1 300) /\
  isotensional_extensive (IZR 8) (C_fjc_isotensional 8 1 1 300) /\
  isotensional_helmholtz_extensive (IZR 8) (C_fjc_isotensional_legendre 8 1 1 300).
Proof. exact (C13_fjc_extensive 8 1 1 300 ltac:(lia) ltac:(lra) ltac:(lra)). Qed.

Theorem C13_swfjc_extensive : forall N l m T w,
  (0 < N)%Z -> 0 < l -> 0 < T -> 0 < w -> 
  isometric_extensive (IZR N) (C_swfjc_isometric_legendre N l m T w) /\
  isotensional_extensive (IZR N) (C_swfjc_isotensional N l m T w) /\
  isotensional_helmholtz_extensive (IZR N) (C_swfjc_isotensional_legendre N l m T w).
Proof.
  intros N l m T w H0 H1 H2 H3. exact (conj (swfjc_isometric_legendre_extensive N l m T w H0 H1 H2 H3)
  (conj (swfjc_isotensional_extensive N l m T w H0 H1 H2 H3)
  (swfjc_isotensional_legendre_extensive N l m T w H0 H1 H2 H3))).
Qed.
Print Assumptions C13_swfjc_extensive.

Example C13_swfjc_extensive_example :
  isometric_extensive (IZR 8) (C_swfjc_isometric_legendre 8 1 1 300 (1 / 2)) /\
  isotensional_extensive (IZR 8) (C_swfjc_isotensional 8 1 1 300 (1 / 2)) /\
  isotensional_helmholtz_extensive (IZR 8) (C_swfjc_isotensional_legendre 8 1 1 300 (1 / 2)).
Proof. exact (C13_swfjc_extensive 8 1 1 300 (1 / 2) ltac:(lia) ltac:(lra) ltac:(lra) ltac:(lra)). Qed.

Theorem C13_efjc_extensive : forall N l m T k,
  (0 < N)%Z -> 0 < l -> 0 < T -> 0 < k -> 
  isometric_extensive (IZR N) (C_efjc_isometric_asymptotic_alternative_legendre N l m T k) /\
  isometric_extensive (IZR N) (C_efjc_isometric_asymptotic_legendre N l m T k) /\
  isometric_extensive (IZR N) (C_efjc_isometric_asymptotic_reduced_legendre N l m T k) /\
  isotensional_extensive (IZR N) (C_efjc_isotensional N l m T k) /\
  isotensional_extensive (IZR N) (C_efjc_isotensional_asymptotic N l m T k) /\
  isotensional_extensive (IZR N) (C_efjc_isotensional_asymptotic_alternative N l m T k) /\
  isotensional_helmholtz_extensive (IZR N) (C_efjc_isotensional_asymptotic_alternative_legendre N l m T k) /\
  isotensional_helmholtz_extensive (IZR N) (C_efjc_isotensional_asymptotic_legendre N l m T k) /\
  isotensional_extensive (IZR N) (C_efjc_isotensional_asymptotic_reduced N l m T k) /\
  isotensional_helmholtz_extensive (IZR N) (C_efjc_isotensional_asymptotic_reduced_legendre N l m T k) /\
  isotensional_helmholtz_extensive (IZR N) (C_efjc_isotensional_legendre N l m T k).
Proof.
  intros N l m T k H0 H1 H2 H3. exact (conj (efjc_isometric_asymptotic_alternative_legendre_extensive N l m T k H0 H1 H2 H3)
  (conj (efjc_isometric_asymptotic_legendre_extensive N l m T k H0 H1 H2 H3)
  (conj (efjc_isometric_asymptotic_reduced_legendre_extensive N l m T k H0 H1 H2 H3)
  (conj (efjc_isotensional_extensive N l m T k H0 H1 H2 H3)
  (conj (efjc_isotensional_asymptotic_extensive N l m T k H0 H1 H2 H3)
  (conj (efjc_isotensional_asymptotic_alternative_extensive N l m T k H0 H1 H2 H3)
  (conj (efjc_isotensional_asymptotic_alternative_legendre_extensive N l m T k H0 H1 H2 H3)
  (conj (efjc_isotensional_asymptotic_legendre_extensive N l m T k H0 H1 H2 H3)
  (conj (efjc_isotensional_asymptotic_reduced_extensive N l m T k H0 H1 H2 H3)
  (conj (efjc_isotensional_asymptotic_reduced_legendre_extensive N l m T k H0 H1 H2 H3)
  (efjc_isotensional_legendre_extensive N l m T k H0 H1 H2 H3))))))))))).
Qed.
Print Assumptions C13_efjc_extensive.

Example C13_efjc_extensive_example :
  isometric_extensive (IZR 8) (C_efjc_isometric_asymptotic_alternative_legendre 8 1 1 300 500) /\
  isometric_extensive (IZR 8) (C_efjc_isometric_asymptotic_legendre 8 1 1 300 500) /\
  isometric_extensive (IZR 8) (C_efjc_isometric_asymptotic_reduced_legendre 8 1 1 300 500) /\
  isotensional_extensive (IZR 8) (C_efjc_isotensional 8 1 1 300 500) /\
  isotensional_extensive (IZR 8) (C_efjc_isotensional_asymptotic 8 1 1 300 500) /\
  isotensional_extensive (IZR 8) (C_efjc_isotensional_asymptotic_alternative 8 1 1 300 500) /\
  isotensional_helmholtz_extensive (IZR 8) (C_efjc_isotensional_asymptotic_alternative_legendre 8 1 1 300 500) /\
  isotensional_helmholtz_extensive (IZR 8) (C_efjc_isotensional_asymptotic_legendre 8 1 1 300 500) /\
  isotensional_extensive (IZR 8) (C_efjc_isotensional_asymptotic_reduced 8 1 1 300 500) /\
  isotensional_helmholtz_extensive (IZR 8) (C_efjc_isotensional_asymptotic_reduced_legendre 8 1 1 300 500) /\
  isotensional_helmholtz_extensive (IZR 8) (C_efjc_isotensional_legendre 8 1 1 300 500).
Proof. exact (C13_efjc_extensive 8 1 1 300 500 ltac:(lia) ltac:(lra) ltac:(lra) ltac:(lra)). Qed.

Theorem C13_morse_extensive : forall N l m T k e,
  (0 < N)%Z -> 0 < l -> 0 < T -> 0 < k -> 0 < e -> 
  isometric_extensive (IZR N) (C_morse_isometric_asymptotic_legendre N l m T k e) /\
  isometric_extensive (IZR N) (C_morse_isometric_asymptotic_reduced_legendre N l m T k e) /\
  isotensional_extensive (IZR N) (C_morse_isotensional N l m T k e) /\
  isotensional_extensive (IZR N) (C_morse_isotensional_asymptotic N l m T k e) /\
  isotensional_helmholtz_extensive (IZR N) (C_morse_isotensional_asymptotic_legendre N l m T k e) /\
  isotensional_extensive (IZR N) (C_morse_isotensional_asymptotic_reduced N l m T k e) /\
  isotensional_helmholtz_extensive (IZR N) (C_morse_isotensional_asymptotic_reduced_legendre N l m T k e) /\
  isotensional_helmholtz_extensive (IZR N) (C_morse_isotensional_legendre N l m T k e).
Proof.
  intros N l m T k e H0 H1 H2 H3 H4. exact (conj (morse_isometric_asymptotic_legendre_extensive N l m T k e H0 H1 H2 H3 H4)
  (conj (morse_isometric_asymptotic_reduced_legendre_extensive N l m T k e H0 H1 H2 H3 H4)
  (conj (morse_isotensional_extensive N l m T k e H0 H1 H2 H3 H4)
  (conj (morse_isotensional_asymptotic_extensive N l m T k e H0 H1 H2 H3 H4)
  (conj (morse_isotensional_asymptotic_legendre_extensive N l m T k e H0 H1 H2 H3 H4)
  (conj (morse_isotensional_asymptotic_reduced_extensive N l m T k e H0 H1 H2 H3 H4)
  (conj (morse_isotensional_asymptotic_reduced_legendre_extensive N l m T k e H0 H1 H2 H3 H4)
  (morse_isotensional_legendre_extensive N l m T k e H0 H1 H2 H3 H4)))))))).
Qed.
Print Assumptions C13_morse_extensive.

Example C13_morse_extensive_example :
  isometric_extensive (IZR 8) (C_morse_isometric_asymptotic_legendre 8 1 1 300 500 50) /\
  isometric_extensive (IZR 8) (C_morse_isometric_asymptotic_reduced_legendre 8 1 1 300 500 50) /\
  isotensional_extensive (IZR 8) (C_morse_isotensional 8 1 1 300 500 50) /\
  isotensional_extensive (IZR 8) (C_morse_isotensional_asymptotic 8 1 1 300 500 50) /\
  isotensional_helmholtz_extensive (IZR 8) (C_morse_isotensional_asymptotic_legendre 8 1 1 300 500 50) /\
  isotensional_extensive (IZR 8) (C_morse_isotensional_asymptotic_reduced 8 1 1 300 500 50) /\
  isotensional_helmholtz_extensive (IZR 8) (C_morse_isotensional_asymptotic_reduced_legendre 8 1 1 300 500 50) /\
  isotensional_helmholtz_extensive (IZR 8) (C_morse_isotensional_legendre 8 1 1 300 500 50).
Proof. exact (C13_morse_extensive 8 1 1 300 500 50 ltac:(lia) ltac:(lra) ltac:(lra) ltac:(lra) ltac:(lra)). Qed.

Theorem C13_lennard_jones_extensive : forall N l m T k,
  (0 < N)%Z -> 0 < l -> 0 < T -> 0 < k -> 
  isometric_extensive (IZR N) (C_lennard_jones_isometric_asymptotic_legendre N l m T k) /\
  isometric_extensive (IZR N) (C_lennard_jones_isometric_asymptotic_reduced_legendre N l m T k) /\
  isotensional_extensive (IZR N) (C_lennard_jones_isotensional N l m T k) /\
  isotensional_extensive (IZR N) (C_lennard_jones_isotensional_asymptotic N l m T k) /\
  isotensional_helmholtz_extensive (IZR N) (C_lennard_jones_isotensional_asymptotic_legendre N l m T k) /\
  isotensional_extensive (IZR N) (C_lennard_jones_isotensional_asymptotic_reduced N l m T k) /\
  isotensional_helmholtz_extensive (IZR N) (C_lennard_jones_isotensional_asymptotic_reduced_legendre N l m T k) /\
  isotensional_helmholtz_extensive (IZR N) (C_lennard_jones_isotensional_legendre N l m T k).
Proof.
  intros N l m T k H0 H1 H2 H3. exact (conj (lennard_jones_isometric_asymptotic_legendre_extensive N l m T k H0 H1 H2 H3)
  (conj (lennard_jones_isometric_asymptotic_reduced_legendre_extensive N l m T k H0 H1 H2 H3)
  (conj (lennard_jones_isotensional_extensive N l m T k H0 H1 H2 H3)
  (conj (lennard_jones_isotensional_asymptotic_extensive N l m T k H0 H1 H2 H3)
  (conj (lennard_jones_isotensional_asymptotic_legendre_extensive N l m T k H0 H1 H2 H3)
  (conj (lennard_jones_isotensional_asymptotic_reduced_extensive N l m T k H0 H1 H2 H3)
  (conj (lennard_jones_isotensional_asymptotic_reduced_legendre_extensive N l m T k H0 H1 H2 H3)
  (lennard_jones_isotensional_legendre_extensive N l m T k H0 H1 H2 H3)))))))).
Qed.
Print Assumptions C13_lennard_jones_extensive.

Example C13_lennard_jones_extensive_example :
  isometric_extensive (IZR 8) (C_lennard_jones_isometric_asymptotic_legendre 8 1 1 300 500) /\
  isometric_extensive (IZR 8) (C_lennard_jones_isometric_asymptotic_reduced_legendre 8 1 1 300 500) /\
  isotensional_extensive (IZR 8) (C_lennard_jones_isotensional 8 1 1 300 500) /\
  isotensional_extensive (IZR 8) (C_lennard_jones_isotensional_asymptotic 8 1 1 300 500) /\
  isotensional_helmholtz_extensive (IZR 8) (C_lennard_jones_isotensional_asymptotic_legendre 8 1 1 300 500) /\
  isotensional_extensive (IZR 8) (C_lennard_jones_isotensional_asymptotic_reduced 8 1 1 300 500) /\
  isotensional_helmholtz_extensive (IZR 8) (C_lennard_jones_isotensional_asymptotic_reduced_legendre 8 1 1 300 500) /\
  isotensional_helmholtz_extensive (IZR 8) (C_lennard_jones_isotensional_legendre 8 1 1 300 500).
Proof. exact (C13_lennard_jones_extensive 8 1 1 300 500 ltac:(lia) ltac:(lra) ltac:(lra) ltac:(lra)). Qed.

Theorem C13_log_squared_extensive : forall N l m T k,
  (0 < N)%Z -> 0 < l -> 0 < T -> 0 < k -> 
  isometric_extensive (IZR N) (C_log_squared_isometric_asymptotic_legendre N l m T k) /\
  isometric_extensive (IZR N) (C_log_squared_isometric_asymptotic_reduced_legendre N l m T k) /\
  isotensional_extensive (IZR N) (C_log_squared_isotensional N l m T k) /\
  isotensional_extensive (IZR N) (C_log_squared_isotensional_asymptotic N l m T k) /\
  isotensional_helmholtz_extensive (IZR N) (C_log_squared_isotensional_asymptotic_legendre N l m T k) /\
  isotensional_extensive (IZR N) (C_log_squared_isotensional_asymptotic_reduced N l m T k) /\
  isotensional_helmholtz_extensive (IZR N) (C_log_squared_isotensional_asymptotic_reduced_legendre N l m T k) /\
  isotensional_helmholtz_extensive (IZR N) (C_log_squared_isotensional_legendre N l m T k).
Proof.
  intros N l m T k H0 H1 H2 H3. exact (conj (log_squared_isometric_asymptotic_legendre_extensive N l m T k H0 H1 H2 H3)
  (conj (log_squared_isometric_asymptotic_reduced_legendre_extensive N l m T k H0 H1 H2 H3)
  (conj (log_squared_isotensional_extensive N l m T k H0 H1 H2 H3)
  (conj (log_squared_isotensional_asymptotic_extensive N l m T k H0 H1 H2 H3)
  (conj (log_squared_isotensional_asymptotic_legendre_extensive N l m T k H0 H1 H2 H3)
  (conj (log_squared_isotensional_asymptotic_reduced_extensive N l m T k H0 H1 H2 H3)
  (conj (log_squared_isotensional_asymptotic_reduced_legendre_extensive N l m T k H0 H1 H2 H3)
  (log_squared_isotensional_legendre_extensive N l m T k H0 H1 H2 H3)))))))).
Qed.
Print Assumptions C13_log_squared_extensive.

Example C13_log_squared_extensive_example :
  isometric_extensive (IZR 8) (C_log_squared_isometric_asymptotic_legendre 8 1 1 300 500) /\
  isometric_extensive (IZR 8) (C_log_squared_isometric_asymptotic_reduced_legendre 8 1 1 300 500) /\
  isotensional_extensive (IZR 8) (C_log_squared_isotensional 8 1 1 300 500) /\
  isotensional_extensive (IZR 8) (C_log_squared_isotensional_asymptotic 8 1 1 300 500) /\
  isotensional_helmholtz_extensive (IZR 8) (C_log_squared_isotensional_asymptotic_legendre 8 1 1 300 500) /\
  isotensional_extensive (IZR 8) (C_log_squared_isotensional_asymptotic_reduced 8 1 1 300 500) /\
  isotensional_helmholtz_extensive (IZR 8) (C_log_squared_isotensional_asymptotic_reduced_legendre 8 1 1 300 500) /\
  isotensional_helmholtz_extensive (IZR 8) (C_log_squared_isotensional_legendre 8 1 1 300 500).
Proof. exact (C13_log_squared_extensive 8 1 1 300 500 ltac:(lia) ltac:(lra) ltac:(lra) ltac:(lra)). Qed.

Theorem C13_wlc_extensive : forall N l m T p,
  (0 < N)%Z -> 0 < l -> 0 < T -> 0 < p -> 
  isometric_extensive (IZR N) (C_wlc_isometric N l m T p).
Proof.
  intros N l m T p H0 H1 H2 H3. exact (wlc_isometric_extensive N l m T p H0 H1 H2 H3).
Qed.
Print Assumptions C13_wlc_extensive.

Example C13_wlc_extensive_example :
  isometric_extensive (IZR 8) (C_wlc_isometric 8 1 1 300 5).
Proof. exact (C13_wlc_extensive 8 1 1 300 5 ltac:(lia) ltac:(lra) ltac:(lra) ltac:(lra)). Qed.

(** ** C14: Relative and absolute free energies have the same increments. *)

Theorem C14_ideal_relative : forall N l m T,
  (0 < N)%Z -> 0 < l -> 0 < T -> 
  isometric_relative (C_ideal_isometric N l m T) /\
  isotensional_relative (C_ideal_isotensional N l m T).
Proof.
  intros N l m T H0 H1 H2. exact (conj (ideal_isometric_relative N l m T H0 H1 H2)
  (ideal_isotensional_relative N l m T H0 H1 H2)).
Qed.
Print Assumptions C14_ideal_relative.

Example C14_ideal_relative_example :
  isometric_relative (C_ideal_isometric 8 1 1 300) /\
  isotensional_relative (C_ideal_isotensional 8 1 1 300).
Proof. exact (C14_ideal_relative 8 1 1 300 ltac:(lia) ltac:(lra) ltac:(lra)). Qed.

Theorem C14_fjc_relative : forall N l m T,
  (0 < N)%Z -> 0 < l -> 0 < T -> 
  isometric_relative (C_fjc_isometric_legendre N l m T) /\
  isotensional_relative (C_fjc_isotensional N l m T) /\
  isotensional_helmholtz_relative (C_fjc_isotensional_legendre N l m T).
Proof.
  intros N l m T H0 H1 H2. exact (conj (fjc_isometric_legendre_relative N l m T H0 H1 H2)
  (conj (fjc_isotensional_relative N l m T H0 H1 H2)
  (fjc_isotensional_legendre_relative N l m T H0 H1 H2))).
Qed.
Print Assumptions C14_fjc_relative.

Example C14_fjc_relative_example :
  isometric_relative (C_fjc_isometric_legendre 8 1 1 300) /\
  isotensional_relative (C_fjc_isotensional 8 1 1 300) /\
  isotensional_helmholtz_relative (C_fjc_isotensional_legendre 8 1 1 300).
Proof. exact (C14_fjc_relative 8 1 1 300 ltac:(lia) ltac:(lra) ltac:(lra)). Qed.

Theorem C14_swfjc_relative : forall N l m T w,
  (0 < N)%Z -> 0 < l -> 0 < T -> 0 < w -> 
  isometric_relative (C_swfjc_isometric_legendre N l m T w) /\
  isotensional_relative (C_swfjc_isotensional N l m T w) /\
  isotensional_helmholtz_relative (C_swfjc_isotensional_legendre N l m T w).
Proof.
  intros N l m T w H0 H1 H2 H3. exact (conj (swfjc_isometric_legendre_relative N l m T w H0 H1 H2 H3)
  (conj (swfjc_isotensional_relative N l m T w H0 H1 H2 H3)
  (swfjc_isotensional_legendre_relative N l m T w H0 H1 H2 H3))).
Qed.
Print Assumptions C14_swfjc_relative.

Example C14_swfjc_relative_example :
  isometric_relative (C_swfjc_isometric_legendre 8 1 1 300 (1 / 2)) /\
  isotensional_relative (C_swfjc_isotensional 8 1 1 300 (1 / 2)) /\
  isotensional_helmholtz_relative (C_swfjc_isotensional_legendre 8 1 1 300 (1 / 2)).
Proof. exact (C14_swfjc_relative 8 1 1 300 (1 / 2) ltac:(lia) ltac:(lra) ltac:(lra) ltac:(lra)). Qed.

Theorem C14_efjc_relative : forall N l m T k,
  (0 < N)%Z -> 0 < l -> 0 < T -> 0 < k -> 
  isometric_relative (C_efjc_isometric_asymptotic_alternative_legendre N l m T k) /\
  isometric_relative (C_efjc_isometric_asymptotic_legendre N l m T k) /\
  isometric_relative (C_efjc_isometric_asymptotic_reduced_legendre N l m T k) /\
  isotensional_relative (C_efjc_isotensional N l m T k) /\
  isotensional_relative (C_efjc_isotensional_asymptotic N l m T k) /\
  isotensional_relative (C_efjc_isotensional_asymptotic_alternative N l m T k) /\
  isotensional_helmholtz_relative (C_efjc_isotensional_asymptotic_alternative_legendre N l m T k) /\
  isotensional_helmholtz_relative (C_efjc_isotensional_asymptotic_legendre N l m T k) /\
  isotensional_relative (C_efjc_isotensional_asymptotic_reduced N l m T k) /\
  isotensional_helmholtz_relative (C_efjc_isotensional_asymptotic_reduced_legendre N l m T k) /\
  isotensional_helmholtz_relative (C_efjc_isotensional_legendre N l m T k).
Proof.
  intros N l m T k H0 H1 H2 H3. exact (conj (efjc_isometric_asymptotic_alternative_legendre_relative N l m T k H0 H1 H2 H3)
  (conj (efjc_isometric_asymptotic_legendre_relative N l m T k H0 H1 H2 H3)
  (conj (efjc_isometric_asymptotic_reduced_legendre_relative N l m T k H0 H1 H2 H3)
  (conj (efjc_isotensional_relative N l m T k H0 H1 H2 H3)
  (conj (efjc_isotensional_asymptotic_relative N l m T k H0 H1 H2 H3)
  (conj (efjc_isotensional_asymptotic_alternative_relative N l m T k H0 H1 H2 H3)
  (conj (efjc_isotensional_asymptotic_alternative_legendre_relative N l m T k H0 H1 H2 H3)
  (conj (efjc_isotensional_asymptotic_legendre_relative N l m T k H0 H1 H2 H3)
  (conj (efjc_isotensional_asymptotic_reduced_relative N l m T k H0 H1 H2 H3)
  (conj (efjc_isotensional_asymptotic_reduced_legendre_relative N l m T k H0 H1 H2 H3)
  (efjc_isotensional_legendre_relative N l m T k H0 H1 H2 H3))))))))))).
Qed.
Print Assumptions C14_efjc_relative.

Example C14_efjc_relative_example :
  isometric_relative (C_efjc_isometric_asymptotic_alternative_legendre 8 1 1 300 500) /\
  isometric_relative (C_efjc_isometric_asymptotic_legendre 8 1 1 300 500) /\
  isometric_relative (C_efjc_isometric_asymptotic_reduced_legendre 8 1 1 300 500) /\
  isotensional_relative (C_efjc_isotensional 8 1 1 300 500) /\
  isotensional_relative (C_efjc_isotensional_asymptotic 8 1 1 300 500) /\
  isotensional_relative (C_efjc_isotensional_asymptotic_alternative 8 1 1 300 500) /\
  isotensional_helmholtz_relative (C_efjc_isotensional_asymptotic_alternative_legendre 8 1 1 300 500) /\
  isotensional_helmholtz_relative (C_efjc_isotensional_asymptotic_legendre 8 1 1 300 500) /\
  isotensional_relative (C_efjc_isotensional_asymptotic_reduced 8 1 1 300 500) /\
  isotensional_helmholtz_relative (C_efjc_isotensional_asymptotic_reduced_legendre 8 1 1 300 500) /\
  isotensional_helmholtz_relative (C_efjc_isotensional_legendre 8 1 1 300 500).
Proof. exact (C14_efjc_relative 8 1 1 300 500 ltac:(lia) ltac:(lra) ltac:(lra) ltac:(lra)). Qed.

Theorem C14_morse_relative : forall N l m T k e,
  (0 < N)%Z -> 0 < l -> 0 < T -> 0 < k -> 0 < e -> 
  isometric_relative (C_morse_isometric_asymptotic_legendre N l m T k e) /\
  isometric_relative (C_morse_isometric_asymptotic_reduced_legendre N l m T k e) /\
  isotensional_relative (C_morse_isotensional N l m T k e) /\
  isotensional_relative (C_morse_isotensional_asymptotic N l m T k e) /\
  isotensional_helmholtz_relative (C_morse_isotensional_asymptotic_legendre N l m T k e) /\
  isotensional_relative (C_morse_isotensional_asymptotic_reduced N l m T k e) /\
  isotensional_helmholtz_relative (C_morse_isotensional_asymptotic_reduced_legendre N l m T k e) /\
  isotensional_helmholtz_relative (C_morse_isotensional_legendre N l m T k e).
Proof.
  intros N l m T k e H0 H1 H2 H3 H4. exact (conj (morse_isometric_asymptotic_legendre_relative N l m T k e H0 H1 H2 H3 H4)
  (conj (morse_isometric_asymptotic_reduced_legendre_relative N l m T k e H0 H1 H2 H3 H4)
  (conj (morse_isotensional_relative N l m T k e H0 H1 H2 H3 H4)
  (conj (morse_isotensional_asymptotic_relative N l m T k e H0 H1 H2 H3 H4)
  (conj (morse_isotensional_asymptotic_legendre_relative N l m T k e H0 H1 H2 H3 H4)
  (conj (morse_isotensional_asymptotic_reduced_relative N l m T k e H0 H1 H2 H3 H4)
  (conj (morse_isotensional_asymptotic_reduced_legendre_relative N l m T k e H0 H1 H2 H3 H4)
  (morse_isotensional_legendre_relative N l m T k e H0 H1 H2 H3 H4)))))))).
Qed.
Print Assumptions C14_morse_relative.

Example C14_morse_relative_example :
  isometric_relative (C_morse_isometric_asymptotic_legendre 8 1 1 300 500 50) /\
  isometric_relative (C_morse_isometric_asymptotic_reduced_legendre 8 1 1 300 500 50) /\
  isotensional_relative (C_morse_isotensional 8 1 1 300 500 50) /\
  isotensional_relative (C_morse_isotensional_asymptotic 8 1 1 300 500 50) /\
  isotensional_helmholtz_relative (C_morse_isotensional_asymptotic_legendre 8 1 1 300 500 50) /\
  isotensional_relative (C_morse_isotensional_asymptotic_reduced 8 1 1 300 500 50) /\
  isotensional_helmholtz_relative (C_morse_isotensional_asymptotic_reduced_legendre 8 1 1 300 500 50) /\
  isotensional_helmholtz_relative (C_morse_isotensional_legendre 8 1 1 300 500 50).
Proof. exact (C14_morse_relative 8 1 1 300 500 50 ltac:(lia) ltac:(lra) ltac:(lra) ltac:(lra) ltac:(lra)). Qed.

Theorem C14_lennard_jones_relative : forall N l m T k,
  (0 < N)%Z -> 0 < l -> 0 < T -> 0 < k -> 
  isometric_relative (C_lennard_jones_isometric_asymptotic_legendre N l m T k) /\
  isometric_relative (C_lennard_jones_isometric_asymptotic_reduced_legendre N l m T k) /\
  isotensional_relative (C_lennard_jones_isotensional N l m T k) /\
  isotensional_relative (C_lennard_jones_isotensional_asymptotic N l m T k) /\
  isotensional_helmholtz_relative (C_lennard_jones_isotensional_asymptotic_legendre N l m T k) /\
  isotensional_relative (C_lennard_jones_isotensional_asymptotic_reduced N l m T k) /\
  isotensional_helmholtz_relative (C_lennard_jones_isotensional_asymptotic_reduced_legendre N l m T k) /\
  isotensional_helmholtz_relative (C_lennard_jones_isotensional_legendre N l m T k).
Proof.
  intros N l m T k H0 H1 H2 H3. exact (conj (lennard_jones_isometric_asymptotic_legendre_relative N l m T k H0 H1 H2 H3)
  (conj (lennard_jones_isometric_asymptotic_reduced_legendre_relative N l m T k H0 H1 H2 H3)
  (conj (lennard_jones_isotensional_relative N l m T k H0 H1 H2 H3)
  (conj (lennard_jones_isotensional_asymptotic_relative N l m T k H0 H1 H2 H3)
  (conj (lennard_jones_isotensional_asymptotic_legendre_relative N l m T k H0 H1 H2 H3)
  (conj (lennard_jones_isotensional_asymptotic_reduced_relative N l m T k H0 H1 H2 H3)
  (conj (lennard_jones_isotensional_asymptotic_reduced_legendre_relative N l m T k H0 H1 H2 H3)
  (lennard_jones_isotensional_legendre_relative N l m T k H0 H1 H2 H3)))))))).
Qed.
Print Assumptions C14_lennard_jones_relative.

Example C14_lennard_jones_relative_example :
  isometric_relative (C_lennard_jones_isometric_asymptotic_legendre 8 1 1 300 500) /\
  isometric_relative (C_lennard_jones_isometric_asymptotic_reduced_legendre 8 1 1 300 500) /\
  isotensional_relative (C_lennard_jones_isotensional 8 1 1 300 500) /\
  isotensional_relative (C_lennard_jones_isotensional_asymptotic 8 1 1 300 500) /\
  isotensional_helmholtz_relative (C_lennard_jones_isotensional_asymptotic_legendre 8 1 1 300 500) /\
  isotensional_relative (C_lennard_jones_isotensional_asymptotic_reduced 8 1 1 300 500) /\
  isotensional_helmholtz_relative (C_lennard_jones_isotensional_asymptotic_reduced_legendre 8 1 1 300 500) /\
  isotensional_helmholtz_relative (C_lennard_jones_isotensional_legendre 8 1 1 300 500).
Proof. exact (C14_lennard_jones_relative 8 1 1 300 500 ltac:(lia) ltac:(lra) ltac:(lra) ltac:(lra)). Qed.

Theorem C14_log_squared_relative : forall N l m T k,
  (0 < N)%Z -> 0 < l -> 0 < T -> 0 < k -> 
  isometric_relative (C_log_squared_isometric_asymptotic_legendre N l m T k) /\
  isometric_relative (C_log_squared_isometric_asymptotic_reduced_legendre N l m T k) /\
  isotensional_relative (C_log_squared_isotensional N l m T k) /\
  isotensional_relative (C_log_squared_isotensional_asymptotic N l m T k) /\
  isotensional_helmholtz_relative (C_log_squared_isotensional_asymptotic_legendre N l m T k) /\
  isotensional_relative (C_log_squared_isotensional_asymptotic_reduced N l m T k) /\
  isotensional_helmholtz_relative (C_log_squared_isotensional_asymptotic_reduced_legendre N l m T k) /\
  isotensional_helmholtz_relative (C_log_squared_isotensional_legendre N l m T k).
Proof.
  intros N l m T k H0 H1 H2 H3. exact (conj (log_squared_isometric_asymptotic_legendre_relative N l m T k H0 H1 H2 H3)
  (conj (log_squared_isometric_asymptotic_reduced_legendre_relative N l m T k H0 H1 H2 H3)
  (conj (log_squared_isotensional_relative N l m T k H0 H1 H2 H3)
  (conj (log_squared_isotensional_asymptotic_relative N l m T k H0 H1 H2 H3)
  (conj (log_squared_isotensional_asymptotic_legendre_relative N l m T k H0 H1 H2 H3)
  (conj (log_squared_isotensional_asymptotic_reduced_relative N l m T k H0 H1 H2 H3)
  (conj (log_squared_isotensional_asymptotic_reduced_legendre_relative N l m T k H0 H1 H2 H3)
  (log_squared_isotensional_legendre_relative N l m T k H0 H1 H2 H3)))))))).
Qed.
Print Assumptions C14_log_squared_relative.

Example C14_log_squared_relative_example :
  isometric_relative (C_log_squared_isometric_asymptotic_legendre 8 1 1 300 500) /\
  isometric_relative (C_log_squared_isometric_asymptotic_reduced_legendre 8 1 1 300 500) /\
  isotensional_relative (C_log_squared_isotensional 8 1 1 300 500) /\
  isotensional_relative (C_log_squared_isotensional_asymptotic 8 1 1 300 500) /\
  isotensional_helmholtz_relative (C_log_squared_isotensional_asymptotic_legendre 8 1 1 300 500) /\
  isotensional_relative (C_log_squared_isotensional_asymptotic_reduced 8 1 1 300 500) /\
  isotensional_helmholtz_relative (C_log_squared_isotensional_asymptotic_reduced_legendre 8 1 1 300 500) /\
  isotensional_helmholtz_relative (C_log_squared_isotensional_legendre 8 1 1 300 500).
Proof. exact (C14_log_squared_relative 8 1 1 300 500 ltac:(lia) ltac:(lra) ltac:(lra) ltac:(lra)). Qed.

Theorem C14_wlc_relative : forall N l m T p,
  (0 < N)%Z -> 0 < l -> 0 < T -> 0 < p -> 
  isometric_relative (C_wlc_isometric N l m T p).
Proof.
  intros N l m T p H0 H1 H2 H3. exact (wlc_isometric_relative N l m T p H0 H1 H2 H3).
Qed.
Print Assumptions C14_wlc_relative.

Example C14_wlc_relative_example :
  isometric_relative (C_wlc_isometric 8 1 1 300 5).
Proof. exact (C14_wlc_relative 8 1 1 300 5 ltac:(lia) ltac:(lra) ltac:(lra) ltac:(lra)). Qed.

(** ** C14: Relative free energies vanish at the nondimensional reference value 1e-6. *)

Theorem C14_swfjc_reference : forall N l m T w,
  (0 < N)%Z -> 0 < l -> 0 < T -> 0 < w -> 
  isometric_reference (IZR N) l (C_swfjc_isometric_legendre N l m T w) /\
  isotensional_reference l T (C_swfjc_isotensional N l m T w) /\
  isotensional_helmholtz_reference l T (C_swfjc_isotensional_legendre N l m T w).
Proof.
  intros N l m T w H0 H1 H2 H3. exact (conj (swfjc_isometric_legendre_reference N l m T w H0 H1 H2 H3)
  (conj (swfjc_isotensional_reference N l m T w H0 H1 H2 H3)
  (swfjc_isotensional_legendre_reference N l m T w H0 H1 H2 H3))).
Qed.
Print Assumptions C14_swfjc_reference.

Example C14_swfjc_reference_example :
  isometric_reference (IZR 8) 1 (C_swfjc_isometric_legendre 8 1 1 300 (1 / 2)) /\
  isotensional_reference 1 300 (C_swfjc_isotensional 8 1 1 300 (1 / 2)) /\
  isotensional_helmholtz_reference 1 300 (C_swfjc_isotensional_legendre 8 1 1 300 (1 / 2)).
Proof. exact (C14_swfjc_reference 8 1 1 300 (1 / 2) ltac:(lia) ltac:(lra) ltac:(lra) ltac:(lra)). Qed.

Theorem C14_efjc_reference : forall N l m T k,
  (0 < N)%Z -> 0 < l -> 0 < T -> 0 < k -> 
  isometric_reference (IZR N) l (C_efjc_isometric_asymptotic_alternative_legendre N l m T k) /\
  isometric_reference (IZR N) l (C_efjc_isometric_asymptotic_legendre N l m T k) /\
  isometric_reference (IZR N) l (C_efjc_isometric_asymptotic_reduced_legendre N l m T k) /\
  isotensional_reference l T (C_efjc_isotensional N l m T k) /\
  isotensional_reference l T (C_efjc_isotensional_asymptotic N l m T k) /\
  isotensional_reference l T (C_efjc_isotensional_asymptotic_alternative N l m T k) /\
  isotensional_helmholtz_reference l T (C_efjc_isotensional_asymptotic_alternative_legendre N l m T k) /\
  isotensional_helmholtz_reference l T (C_efjc_isotensional_asymptotic_legendre N l m T k) /\
  isotensional_reference l T (C_efjc_isotensional_asymptotic_reduced N l m T k) /\
  isotensional_helmholtz_reference l T (C_efjc_isotensional_asymptotic_reduced_legendre N l m T k) /\
  isotensional_helmholtz_reference l T (C_efjc_isotensional_legendre N l m T k).
Proof.
  intros N l m T k H0 H1 H2 H3. exact (conj (efjc_isometric_asymptotic_alternative_legendre_reference N l m T k H0 H1 H2 H3)
  (conj (efjc_isometric_asymptotic_legendre_reference N l m T k H0 H1 H2 H3)
  (conj (efjc_isometric_asymptotic_reduced_legendre_reference N l m T k H0 H1 H2 H3)
  (conj (efjc_isotensional_reference N l m T k H0 H1 H2 H3)
  (conj (efjc_isotensional_asymptotic_reference N l m T k H0 H1 H2 H3)
  (conj (efjc_isotensional_asymptotic_alternative_reference N l m T k H0 H1 H2 H3)
  (conj (efjc_isotensional_asymptotic_alternative_legendre_reference N l m T k H0 H1 H2 H3)
  (conj (efjc_isotensional_asymptotic_legendre_reference N l m T k H0 H1 H2 H3)
  (conj (efjc_isotensional_asymptotic_reduced_reference N l m T k H0 H1 H2 H3)
  (conj (efjc_isotensional_asymptotic_reduced_legendre_reference N l m T k H0 H1 H2 H3)
  (efjc_isotensional_legendre_reference N l m T k H0 H1 H2 H3))))))))))).
Qed.
Print Assumptions C14_efjc_reference.

Example C14_efjc_reference_example :
  isometric_reference (IZR 8) 1 (C_efjc_isometric_asymptotic_alternative_legendre 8 1 1 300 500) /\
  isometric_reference (IZR 8) 1 (C_efjc_isometric_asymptotic_legendre 8 1 1 300 500) /\
  isometric_reference (IZR 8) 1 (C_efjc_isometric_asymptotic_reduced_legendre 8 1 1 300 500) /\
  isotensional_reference 1 300 (C_efjc_isotensional 8 1 1 300 500) /\
  isotensional_reference 1 300 (C_efjc_isotensional_asymptotic 8 1 1 300 500) /\
  isotensional_reference 1 300 (C_efjc_isotensional_asymptotic_alternative 8 1 1 300 500) /\
  isotensional_helmholtz_reference 1 300 (C_efjc_isotensional_asymptotic_alternative_legendre 8 1 1 300 500) /\
  isotensional_helmholtz_reference 1 300 (C_efjc_isotensional_asymptotic_legendre 8 1 1 300 500) /\
  isotensional_reference 1 300 (C_efjc_isotensional_asymptotic_reduced 8 1 1 300 500) /\
  isotensional_helmholtz_reference 1 300 (C_efjc_isotensional_asymptotic_reduced_legendre 8 1 1 300 500) /\
  isotensional_helmholtz_reference 1 300 (C_efjc_isotensional_legendre 8 1 1 300 500).
Proof. exact (C14_efjc_reference 8 1 1 300 500 ltac:(lia) ltac:(lra) ltac:(lra) ltac:(lra)). Qed.

Theorem C14_morse_reference : forall N l m T k e,
  (0 < N)%Z -> 0 < l -> 0 < T -> 0 < k -> 0 < e -> 
  isometric_reference (IZR N) l (C_morse_isometric_asymptotic_legendre N l m T k e) /\
  isometric_reference (IZR N) l (C_morse_isometric_asymptotic_reduced_legendre N l m T k e) /\
  isotensional_reference l T (C_morse_isotensional N l m T k e) /\
  isotensional_reference l T (C_morse_isotensional_asymptotic N l m T k e) /\
  isotensional_helmholtz_reference l T (C_morse_isotensional_asymptotic_legendre N l m T k e) /\
  isotensional_reference l T (C_morse_isotensional_asymptotic_reduced N l m T k e) /\
  isotensional_helmholtz_reference l T (C_morse_isotensional_asymptotic_reduced_legendre N l m T k e) /\
  isotensional_helmholtz_reference l T (C_morse_isotensional_legendre N l m T k e).
Proof.
  intros N l m T k e H0 H1 H2 H3 H4. exact (conj (morse_isometric_asymptotic_legendre_reference N l m T k e H0 H1 H2 H3 H4)
  (conj (morse_isometric_asymptotic_reduced_legendre_reference N l m T k e H0 H1 H2 H3 H4)
  (conj (morse_isotensional_reference N l m T k e H0 H1 H2 H3 H4)
  (conj (morse_isotensional_asymptotic_reference N l m T k e H0 H1 H2 H3 H4)
  (conj (morse_isotensional_asymptotic_legendre_reference N l m T k e H0 H1 H2 H3 H4)
  (conj (morse_isotensional_asymptotic_reduced_reference N l m T k e H0 H1 H2 H3 H4)
  (conj (morse_isotensional_asymptotic_reduced_legendre_reference N l m T k e H0 H1 H2 H3 H4)
  (morse_isotensional_legendre_reference N l m T k e H0 H1 H2 H3 H4)))))))).
Qed.
Print Assumptions C14_morse_reference.

Example C14_morse_reference_example :
  isometric_reference (IZR 8) 1 (C_morse_isometric_asymptotic_legendre 8 1 1 300 500 50) /\
  isometric_reference (IZR 8) 1 (C_morse_isometric_asymptotic_reduced_legendre 8 1 1 300 500 50) /\
  isotensional_reference 1 300 (C_morse_isotensional 8 1 1 300 500 50) /\
  isotensional_reference 1 300 (C_morse_isotensional_asymptotic 8 1 1 300 500 50) /\
  isotensional_helmholtz_reference 1 300 (C_morse_isotensional_asymptotic_legendre 8 1 1 300 500 50) /\
  isotensional_reference 1 300 (C_morse_isotensional_asymptotic_reduced 8 1 1 300 500 50) /\
  isotensional_helmholtz_reference 1 300 (C_morse_isotensional_asymptotic_reduced_legendre 8 1 1 300 500 50) /\
  isotensional_helmholtz_reference 1 300 (C_morse_isotensional_legendre 8 1 1 300 500 50).
Proof. exact (C14_morse_reference 8 1 1 300 500 50 ltac:(lia) ltac:(lra) ltac:(lra) ltac:(lra) ltac:(lra)). Qed.

Theorem C14_lennard_jones_reference : forall N l m T k,
  (0 < N)%Z -> 0 < l -> 0 < T -> 0 < k -> 
  isometric_reference (IZR N) l (C_lennard_jones_isometric_asymptotic_legendre N l m T k) /\
  isometric_reference (IZR N) l (C_lennard_jones_isometric_asymptotic_reduced_legendre N l m T k) /\
  isotensional_reference l T (C_lennard_jones_isotensional N l m T k) /\
  isotensional_reference l T (C_lennard_jones_isotensional_asymptotic N l m T k) /\
  isotensional_helmholtz_reference l T (C_lennard_jones_isotensional_asymptotic_legendre N l m T k) /\
  isotensional_reference l T (C_lennard_jones_isotensional_asymptotic_reduced N l m T k) /\
  isotensional_helmholtz_reference l T (C_lennard_jones_isotensional_asymptotic_reduced_legendre N l m T k) /\
  isotensional_helmholtz_reference l T (C_lennard_jones_isotensional_legendre N l m T k).
Proof.
  intros N l m T k H0 H1 H2 H3. exact (conj (lennard_jones_isometric_asymptotic_legendre_reference N l m T k H0 H1 H2 H3)
  (conj (lennard_jones_isometric_asymptotic_reduced_legendre_reference N l m T k H0 H1 H2 H3)
  (conj (lennard_jones_isotensional_reference N l m T k H0 H1 H2 H3)
  (conj (lennard_jones_isotensional_asymptotic_reference N l m T k H0 H1 H2 H3)
  (conj (lennard_jones_isotensional_asymptotic_legendre_reference N l m T k H0 H1 H2 H3)
  (conj (lennard_jones_isotensional_asymptotic_reduced_reference N l m T k H0 H1 H2 H3)
  (conj (lennard_jones_isotensional_asymptotic_reduced_legendre_reference N l m T k H0 H1 H2 H3)
  (lennard_jones_isotensional_legendre_reference N l m T k H0 H1 H2 H3)))))))).
Qed.
Print Assumptions C14_lennard_jones_reference.

Example C14_lennard_jones_reference_example :
  isometric_reference (IZR 8) 1 (C_lennard_jones_isometric_asymptotic_legendre 8 1 1 300 500) /\
  isometric_reference (IZR 8) 1 (C_lennard_jones_isometric_asymptotic_reduced_legendre 8 1 1 300 500) /\
  isotensional_reference 1 300 (C_lennard_jones_isotensional 8 1 1 300 500) /\
  isotensional_reference 1 300 (C_lennard_jones_isotensional_asymptotic 8 1 1 300 500) /\
  isotensional_helmholtz_reference 1 300 (C_lennard_jones_isotensional_asymptotic_legendre 8 1 1 300 500) /\
  isotensional_reference 1 300 (C_lennard_jones_isotensional_asymptotic_reduced 8 1 1 300 500) /\
  isotensional_helmholtz_reference 1 300 (C_lennard_jones_isotensional_asymptotic_reduced_legendre 8 1 1 300 500) /\
  isotensional_helmholtz_reference 1 300 (C_lennard_jones_isotensional_legendre 8 1 1 300 500).
Proof. exact (C14_lennard_jones_reference 8 1 1 300 500 ltac:(lia) ltac:(lra) ltac:(lra) ltac:(lra)). Qed.

Theorem C14_log_squared_reference : forall N l m T k,
  (0 < N)%Z -> 0 < l -> 0 < T -> 0 < k -> 
  isometric_reference (IZR N) l (C_log_squared_isometric_asymptotic_legendre N l m T k) /\
  isometric_reference (IZR N) l (C_log_squared_isometric_asymptotic_reduced_legendre N l m T k) /\
  isotensional_reference l T (C_log_squared_isotensional N l m T k) /\
  isotensional_reference l T (C_log_squared_isotensional_asymptotic N l m T k) /\
  isotensional_helmholtz_reference l T (C_log_squared_isotensional_asymptotic_legendre N l m T k) /\
  isotensional_reference l T (C_log_squared_isotensional_asymptotic_reduced N l m T k) /\
  isotensional_helmholtz_reference l T (C_log_squared_isotensional_asymptotic_reduced_legendre N l m T k) /\
  isotensional_helmholtz_reference l T (C_log_squared_isotensional_legendre N l m T k).
Proof.
  intros N l m T k H0 H1 H2 H3. exact (conj (log_squared_isometric_asymptotic_legendre_reference N l m T k H0 H1 H2 H3)
  (conj (log_squared_isometric_asymptotic_reduced_legendre_reference N l m T k H0 H1 H2 H3)
  (conj (log_squared_isotensional_reference N l m T k H0 H1 H2 H3)
  (conj (log_squared_isotensional_asymptotic_reference N l m T k H0 H1 H2 H3)
  (conj (log_squared_isotensional_asymptotic_legendre_reference N l m T k H0 H1 H2 H3)
  (conj (log_squared_isotensional_asymptotic_reduced_reference N l m T k H0 H1 H2 H3)
  (conj (log_squared_isotensional_asymptotic_reduced_legendre_reference N l m T k H0 H1 H2 H3)
  (log_squared_isotensional_legendre_reference N l m T k H0 H1 H2 H3)))))))).
Qed.
Print Assumptions C14_log_squared_reference.

Example C14_log_squared_reference_example :
  isometric_reference (IZR 8) 1 (C_log_squared_isometric_asymptotic_legendre 8 1 1 300 500) /\
  isometric_reference (IZR 8) 1 (C_log_squared_isometric_asymptotic_reduced_legendre 8 1 1 300 500) /\
  isotensional_reference 1 300 (C_log_squared_isotensional 8 1 1 300 500) /\
  isotensional_reference 1 300 (C_log_squared_isotensional_asymptotic 8 1 1 300 500) /\
  isotensional_helmholtz_reference 1 300 (C_log_squared_isotensional_asymptotic_legendre 8 1 1 300 500) /\
  isotensional_reference 1 300 (C_log_squared_isotensional_asymptotic_reduced 8 1 1 300 500) /\
  isotensional_helmholtz_reference 1 300 (C_log_squared_isotensional_asymptotic_reduced_legendre 8 1 1 300 500) /\
  isotensional_helmholtz_reference 1 300 (C_log_squared_isotensional_legendre 8 1 1 300 500).
Proof. exact (C14_log_squared_reference 8 1 1 300 500 ltac:(lia) ltac:(lra) ltac:(lra) ltac:(lra)). Qed.

Theorem C14_wlc_reference : forall N l m T p,
  (0 < N)%Z -> 0 < l -> 0 < T -> 0 < p -> 
  isometric_reference (IZR N) l (C_wlc_isometric N l m T p).
Proof.
  intros N l m T p H0 H1 H2 H3. exact (wlc_isometric_reference N l m T p H0 H1 H2 H3).
Qed.
Print Assumptions C14_wlc_reference.

Example C14_wlc_reference_example :
  isometric_reference (IZR 8) 1 (C_wlc_isometric 8 1 1 300 5).
Proof. exact (C14_wlc_reference 8 1 1 300 5 ltac:(lia) ltac:(lra) ltac:(lra) ltac:(lra)). Qed.

(** ** C11: The two free energies are Legendre transforms of one another. *)

Theorem C11_fjc_legendre : forall N l m T,
  (0 < N)%Z -> 0 < l -> 0 < T -> 
  isotensional_legendre (C_fjc_isotensional N l m T) (C_fjc_isotensional_legendre N l m T).
Proof.
  intros N l m T H0 H1 H2. exact (fjc_isotensional_legendre_legendre N l m T H0 H1 H2).
Qed.
Print Assumptions C11_fjc_legendre.

Example C11_fjc_legendre_example :
  isotensional_legendre (C_fjc_isotensional 8 1 1 300) (C_fjc_isotensional_legendre 8 1 1 300).
Proof. exact (C11_fjc_legendre 8 1 1 300 ltac:(lia) ltac:(lra) ltac:(lra)). Qed.

Theorem C11_swfjc_legendre : forall N l m T w,
  (0 < N)%Z -> 0 < l -> 0 < T -> 0 < w -> 
  isotensional_legendre (C_swfjc_isotensional N l m T w) (C_swfjc_isotensional_legendre N l m T w).
Proof.
  intros N l m T w H0 H1 H2 H3. exact (swfjc_isotensional_legendre_legendre N l m T w H0 H1 H2 H3).
Qed.
Print Assumptions C11_swfjc_legendre.

Example C11_swfjc_legendre_example :
  isotensional_legendre (C_swfjc_isotensional 8 1 1 300 (1 / 2)) (C_swfjc_isotensional_legendre 8 1 1 300 (1 / 2)).
Proof. exact (C11_swfjc_legendre 8 1 1 300 (1 / 2) ltac:(lia) ltac:(lra) ltac:(lra) ltac:(lra)). Qed.

Theorem C11_efjc_legendre : forall N l m T k,
  (0 < N)%Z -> 0 < l -> 0 < T -> 0 < k -> 
  isotensional_legendre (C_efjc_isotensional_asymptotic_alternative N l m T k) (C_efjc_isotensional_asymptotic_alternative_legendre N l m T k) /\
  isotensional_legendre (C_efjc_isotensional_asymptotic N l m T k) (C_efjc_isotensional_asymptotic_legendre N l m T k) /\
  isotensional_legendre (C_efjc_isotensional_asymptotic_reduced N l m T k) (C_efjc_isotensional_asymptotic_reduced_legendre N l m T k) /\
  isotensional_legendre (C_efjc_isotensional N l m T k) (C_efjc_isotensional_legendre N l m T k).
Proof.
  intros N l m T k H0 H1 H2 H3. exact (conj (efjc_isotensional_asymptotic_alternative_legendre_legendre N l m T k H0 H1 H2 H3)
  (conj (efjc_isotensional_asymptotic_legendre_legendre N l m T k H0 H1 H2 H3)
  (conj (efjc_isotensional_asymptotic_reduced_legendre_legendre N l m T k H0 H1 H2 H3)
  (efjc_isotensional_legendre_legendre N l m T k H0 H1 H2 H3)))).
Qed.
Print Assumptions C11_efjc_legendre.

Example C11_efjc_legendre_example :
  isotensional_legendre (C_efjc_isotensional_asymptotic_alternative 8 1 1 300 500) (C_efjc_isotensional_asymptotic_alternative_legendre 8 1 1 300 500) /\
  isotensional_legendre (C_efjc_isotensional_asymptotic 8 1 1 300 500) (C_efjc_isotensional_asymptotic_legendre 8 1 1 300 500) /\
  isotensional_legendre (C_efjc_isotensional_asymptotic_reduced 8 1 1 300 500) (C_efjc_isotensional_asymptotic_reduced_legendre 8 1 1 300 500) /\
  isotensional_legendre (C_efjc_isotensional 8 1 1 300 500) (C_efjc_isotensional_legendre 8 1 1 300 500).
Proof. exact (C11_efjc_legendre 8 1 1 300 500 ltac:(lia) ltac:(lra) ltac:(lra) ltac:(lra)). Qed.

Theorem C11_morse_legendre : forall N l m T k e,
  (0 < N)%Z -> 0 < l -> 0 < T -> 0 < k -> 0 < e -> 
  isotensional_legendre (C_morse_isotensional_asymptotic N l m T k e) (C_morse_isotensional_asymptotic_legendre N l m T k e) /\
  isotensional_legendre (C_morse_isotensional_asymptotic_reduced N l m T k e) (C_morse_isotensional_asymptotic_reduced_legendre N l m T k e) /\
  isotensional_legendre (C_morse_isotensional N l m T k e) (C_morse_isotensional_legendre N l m T k e).
Proof.
  intros N l m T k e H0 H1 H2 H3 H4. exact (conj (morse_isotensional_asymptotic_legendre_legendre N l m T k e H0 H1 H2 H3 H4)
  (conj (morse_isotensional_asymptotic_reduced_legendre_legendre N l m T k e H0 H1 H2 H3 H4)
  (morse_isotensional_legendre_legendre N l m T k e H0 H1 H2 H3 H4))).
Qed.
Print Assumptions C11_morse_legendre.

Example C11_morse_legendre_example :
  isotensional_legendre (C_morse_isotensional_asymptotic 8 1 1 300 500 50) (C_morse_isotensional_asymptotic_legendre 8 1 1 300 500 50) /\
  isotensional_legendre (C_morse_isotensional_asymptotic_reduced 8 1 1 300 500 50) (C_morse_isotensional_asymptotic_reduced_legendre 8 1 1 300 500 50) /\
  isotensional_legendre (C_morse_isotensional 8 1 1 300 500 50) (C_morse_isotensional_legendre 8 1 1 300 500 50).
Proof. exact (C11_morse_legendre 8 1 1 300 500 50 ltac:(lia) ltac:(lra) ltac:(lra) ltac:(lra) ltac:(lra)). Qed.

Theorem C11_lennard_jones_legendre : forall N l m T k,
  (0 < N)%Z -> 0 < l -> 0 < T -> 0 < k -> 
  isotensional_legendre (C_lennard_jones_isotensional_asymptotic N l m T k) (C_lennard_jones_isotensional_asymptotic_legendre N l m T k) /\
  isotensional_legendre (C_lennard_jones_isotensional_asymptotic_reduced N l m T k) (C_lennard_jones_isotensional_asymptotic_reduced_legendre N l m T k) /\
  isotensional_legendre (C_lennard_jones_isotensional N l m T k) (C_lennard_jones_isotensional_legendre N l m T k).
Proof.
  intros N l m T k H0 H1 H2 H3. exact (conj (lennard_jones_isotensional_asymptotic_legendre_legendre N l m T k H0 H1 H2 H3)
  (conj (lennard_jones_isotensional_asymptotic_reduced_legendre_legendre N l m T k H0 H1 H2 H3)
  (lennard_jones_isotensional_legendre_legendre N l m T k H0 H1 H2 H3))).
Qed.
Print Assumptions C11_lennard_jones_legendre.

Example C11_lennard_jones_legendre_example :
  isotensional_legendre (C_lennard_jones_isotensional_asymptotic 8 1 1 300 500) (C_lennard_jones_isotensional_asymptotic_legendre 8 1 1 300 500) /\
  isotensional_legendre (C_lennard_jones_isotensional_asymptotic_reduced 8 1 1 300 500) (C_lennard_jones_isotensional_asymptotic_reduced_legendre 8 1 1 300 500) /\
  isotensional_legendre (C_lennard_jones_isotensional 8 1 1 300 500) (C_lennard_jones_isotensional_legendre 8 1 1 300 500).
Proof. exact (C11_lennard_jones_legendre 8 1 1 300 500 ltac:(lia) ltac:(lra) ltac:(lra) ltac:(lra)). Qed.

Theorem C11_log_squared_legendre : forall N l m T k,
  (0 < N)%Z -> 0 < l -> 0 < T -> 0 < k -> 
  isotensional_legendre (C_log_squared_isotensional_asymptotic N l m T k) (C_log_squared_isotensional_asymptotic_legendre N l m T k) /\
  isotensional_legendre (C_log_squared_isotensional_asymptotic_reduced N l m T k) (C_log_squared_isotensional_asymptotic_reduced_legendre N l m T k) /\
  isotensional_legendre (C_log_squared_isotensional N l m T k) (C_log_squared_isotensional_legendre N l m T k).
Proof.
  intros N l m T k H0 H1 H2 H3. exact (conj (log_squared_isotensional_asymptotic_legendre_legendre N l m T k H0 H1 H2 H3)
  (conj (log_squared_isotensional_asymptotic_reduced_legendre_legendre N l m T k H0 H1 H2 H3)
  (log_squared_isotensional_legendre_legendre N l m T k H0 H1 H2 H3))).
Qed.
Print Assumptions C11_log_squared_legendre.

Example C11_log_squared_legendre_example :
  isotensional_legendre (C_log_squared_isotensional_asymptotic 8 1 1 300 500) (C_log_squared_isotensional_asymptotic_legendre 8 1 1 300 500) /\
  isotensional_legendre (C_log_squared_isotensional_asymptotic_reduced 8 1 1 300 500) (C_log_squared_isotensional_asymptotic_reduced_legendre 8 1 1 300 500) /\
  isotensional_legendre (C_log_squared_isotensional 8 1 1 300 500) (C_log_squared_isotensional_legendre 8 1 1 300 500).
Proof. exact (C11_log_squared_legendre 8 1 1 300 500 ltac:(lia) ltac:(lra) ltac:(lra) ltac:(lra)). Qed.

Theorem C11_wlc_legendre : forall N l m T p,
  (0 < N)%Z -> 0 < l -> 0 < T -> 0 < p -> 
  isometric_legendre (IZR N) (C_wlc_isometric N l m T p) (CG_wlc_isometric_legendre N l m T p).
Proof.
  intros N l m T p H0 H1 H2 H3. exact (wlc_isometric_legendre_legendre N l m T p H0 H1 H2 H3).
Qed.
Print Assumptions C11_wlc_legendre.

Example C11_wlc_legendre_example :
  isometric_legendre (IZR 8) (C_wlc_isometric 8 1 1 300 5) (CG_wlc_isometric_legendre 8 1 1 300 5).
Proof. exact (C11_wlc_legendre 8 1 1 300 5 ltac:(lia) ltac:(lra) ltac:(lra) ltac:(lra)). Qed.

