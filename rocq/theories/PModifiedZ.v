(** The modified canonical ensemble: statements over the integers. *)
From Coq Require Import Reals ZArith Lra Lia.
From Coquelicot Require Import Coquelicot.
From Verif Require Import Scalar MMath MConst MFjc SpecThermo SpecWalk SpecIsometric SpecModified PBase PTreloar PIsometric PModified PStrong.
Open Scope R_scope.

Lemma to_regular : forall n g, (2 <= n)%nat -> (6 <= Z.of_nat n)%Z \/ ~ SpecModified.knot (Z.of_nat n) g -> regular n g.
Proof.
  intros n g Hn [H|H]; [left; lia|]. right. intros [s E]. apply H. exists (Z.of_nat s).
  rewrite <- !INR_IZR_INZ, <- E. unfold arg. assert (0 < INR n) by (apply lt_0_INR; lia). field. lra.
Qed.

Lemma z_nd_conj : forall prof (N : Z) (l m T kap d hi : R), (2 <= N <= 26)%Z -> 0 < kap -> 0 < d < hi ->
  conjugate (fun y => fjc_modified_canonical.nondimensional_helmholtz_free_energy prof N l m y kap T)
    (fun y => fjc_modified_canonical.nondimensional_force prof N y kap) 0 hi (IZR N) d /\
  conjugate (fun y => fjc_modified_canonical.nondimensional_helmholtz_free_energy_per_link prof N l m y kap T)
    (fun y => fjc_modified_canonical.nondimensional_force prof N y kap) 0 hi 1 d /\
  conjugate (fun y => fjc_modified_canonical.nondimensional_relative_helmholtz_free_energy prof N y kap)
    (fun y => fjc_modified_canonical.nondimensional_force prof N y kap) 0 hi (IZR N) d /\
  conjugate (fun y => fjc_modified_canonical.nondimensional_relative_helmholtz_free_energy_per_link prof N y kap)
    (fun y => fjc_modified_canonical.nondimensional_force prof N y kap) 0 hi 1 d.
Proof. intros prof N l m T kap d hi HN Hk Hd. to_nat N. apply nd_conj; (lia || assumption). Qed.

Lemma z_dim_conj : forall prof (N : Z) (l m T k d hi : R), (2 <= N <= 26)%Z -> 0 < l -> 0 < T -> 0 < k -> 0 < d < hi ->
  conjugate (fun y => fjc_modified_canonical.helmholtz_free_energy prof N l m y k T)
    (fun y => fjc_modified_canonical.force prof N l y k T) 0 hi 1 d /\
  conjugate (fun y => fjc_modified_canonical.helmholtz_free_energy_per_link prof N l m y k T)
    (fun y => fjc_modified_canonical.force prof N l y k T) 0 hi (1 / IZR N) d /\
  conjugate (fun y => fjc_modified_canonical.relative_helmholtz_free_energy prof N l y k T)
    (fun y => fjc_modified_canonical.force prof N l y k T) 0 hi 1 d /\
  conjugate (fun y => fjc_modified_canonical.relative_helmholtz_free_energy_per_link prof N l y k T)
    (fun y => fjc_modified_canonical.force prof N l y k T) 0 hi (1 / IZR N) d.
Proof.
  intros prof N l m T k d hi HN Hl HT Hk Hd. to_nat N. replace (1 / INR n) with (/ INR n) by (unfold Rdiv; ring).
  apply dim_conj; (lia || assumption).
Qed.

Lemma z_nd_partition : forall prof (N : Z) (l m T kap d : R), (2 <= N <= 26)%Z -> 0 < kap -> 0 < d ->
  fjc_modified_canonical.nondimensional_helmholtz_free_energy prof N l m d kap T =
  Some (- ln (math.integrate_1d (fun x => 4 * PI * x ^ 2 * (IZR N ^ 3 * walk_density (Z.to_nat N) (IZR N * x))
                                          * average_factor 1 (IZR N ^ 2 * kap) d x) (1 / 10 ^ 6) 1 64)
        - (IZR N - 1) * ln (8 * PI ^ 2 * m * l ^ 2 * kB * T / hP ^ 2)).
Proof. intros prof N l m T kap d HN Hk Hd. to_nat N. apply nd_partition; (lia || assumption). Qed.

Lemma z_partition : forall prof (N : Z) (l m T k d : R), (2 <= N <= 26)%Z -> 0 < l -> 0 < T -> 0 < k -> 0 < d ->
  fjc_modified_canonical.helmholtz_free_energy prof N l m d k T =
  Some (kB * T * (- ln (math.integrate_1d (fun x => 4 * PI * x ^ 2 * (IZR N ^ 3 * walk_density (Z.to_nat N) (IZR N * x))
                                          * average_factor (1 / (kB * T)) k d (x * (IZR N * l))) (1 / 10 ^ 6) 1 64)
        - (IZR N - 1) * ln (8 * PI ^ 2 * m * l ^ 2 * kB * T / hP ^ 2))).
Proof. intros prof N l m T k d HN Hl HT Hk Hd. to_nat N. apply partition; (lia || assumption). Qed.

Lemma z_strong_nd : forall prof (N : Z) (l m T kap g : R), (2 <= N <= 26)%Z -> 0 < l -> 0 < kap -> 0 < g < 1 ->
  (6 <= N)%Z \/ ~ SpecModified.knot N g ->
  conjugate (fun y => fjc_modified_canonical_asymptotic_strong_potential.nondimensional_helmholtz_free_energy prof N l m y kap T)
    (fun y => fjc_modified_canonical_asymptotic_strong_potential.nondimensional_force prof N y kap) 0 1 (IZR N) g /\
  conjugate (fun y => fjc_modified_canonical_asymptotic_strong_potential.nondimensional_helmholtz_free_energy_per_link prof N l m y kap T)
    (fun y => fjc_modified_canonical_asymptotic_strong_potential.nondimensional_force prof N y kap) 0 1 1 g /\
  conjugate (fun y => fjc_modified_canonical_asymptotic_strong_potential.nondimensional_relative_helmholtz_free_energy prof N y kap)
    (fun y => fjc_modified_canonical_asymptotic_strong_potential.nondimensional_force prof N y kap) 0 1 (IZR N) g /\
  conjugate (fun y => fjc_modified_canonical_asymptotic_strong_potential.nondimensional_relative_helmholtz_free_energy_per_link prof N y kap)
    (fun y => fjc_modified_canonical_asymptotic_strong_potential.nondimensional_force prof N y kap) 0 1 1 g.
Proof. intros prof N l m T kap g HN Hl Hk Hg Hr. to_nat N. apply strong_nd; try (lia || assumption). apply to_regular; [lia | exact Hr]. Qed.

Lemma z_strong_dim : forall prof (N : Z) (l m T k d : R), (2 <= N <= 26)%Z -> 0 < l -> 0 < T -> 0 < k -> 0 < d < IZR N * l ->
  (6 <= N)%Z \/ ~ SpecModified.knot N (d / (IZR N * l)) ->
  conjugate (fun y => fjc_modified_canonical_asymptotic_strong_potential.helmholtz_free_energy prof N l m y k T)
    (fun y => fjc_modified_canonical_asymptotic_strong_potential.force prof N l y k T) 0 (IZR N * l) 1 d /\
  conjugate (fun y => fjc_modified_canonical_asymptotic_strong_potential.helmholtz_free_energy_per_link prof N l m y k T)
    (fun y => fjc_modified_canonical_asymptotic_strong_potential.force prof N l y k T) 0 (IZR N * l) (1 / IZR N) d /\
  conjugate (fun y => fjc_modified_canonical_asymptotic_strong_potential.relative_helmholtz_free_energy prof N l y k T)
    (fun y => fjc_modified_canonical_asymptotic_strong_potential.force prof N l y k T) 0 (IZR N * l) 1 d /\
  conjugate (fun y => fjc_modified_canonical_asymptotic_strong_potential.relative_helmholtz_free_energy_per_link prof N l y k T)
    (fun y => fjc_modified_canonical_asymptotic_strong_potential.force prof N l y k T) 0 (IZR N * l) (1 / IZR N) d.
Proof.
  intros prof N l m T k d HN Hl HT Hk Hd Hr. to_nat N. replace (1 / INR n) with (/ INR n) by (unfold Rdiv; ring).
  apply strong_dim; try (lia || assumption). apply to_regular; [lia | exact Hr].
Qed.

Lemma z_strong_leading : forall prof (N : Z) (g : R), (2 <= N <= 26)%Z -> 0 < g < 1 -> exists f0,
  fjc_isometric.nondimensional_force prof N g = Some f0 /\
  exists c, forall kap, 0 < kap ->
    fjc_modified_canonical_asymptotic_strong_potential.nondimensional_force prof N g kap = Some (f0 + c / kap).
Proof. intros prof N g HN Hg. to_nat N. apply strong_leading; (lia || assumption). Qed.
