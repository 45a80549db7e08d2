(** Results do not depend on the units: densities, the exact freely jointed chain at given length
    and the worm-like chain under force. *)
From Coq Require Import Reals ZArith List Lra Lia Psatz.
From Verif Require Import Scalar MMath MConst MIdeal MFjc MSwfjc MWlc.
From Verif Require Import SpecThermo SpecChains SpecUnits PBase PUnits.
From Verif Require PIsometric.
Open Scope R_scope.

Lemma contour_units : forall a N l x, 0 < a -> (0 < N)%Z -> 0 < l -> a * x / (IZR N * (a * l)) = x / (IZR N * l).
Proof. intros a N l x Ha HN Hl. apply links_pos in HN. field. lra. Qed.

Lemma powf_units : forall a x, 0 < a -> 0 < x -> Rpowf (x / a ^ 2) (15 / 10) = Rpowf x (15 / 10) / a ^ 3.
Proof.
  intros a x Ha Hx. assert (P : 0 < a ^ 2) by (apply pow_lt; assumption). assert (Q : 0 < x / a ^ 2) by (apply Rdiv_lt_0_compat; assumption).
  unfold Rpowf. destruct (Rlt_dec 0 x) as [_|]; [|lra]. destruct (Rlt_dec 0 (x / a ^ 2)) as [_|]; [|lra].
  unfold Rpower. unfold Rdiv at 2. rewrite ln_mult by (try assumption; apply Rinv_0_lt_compat; assumption). rewrite ln_Rinv by assumption.
  replace (a ^ 2) with (a * a) by ring. rewrite ln_mult by assumption.
  replace (15 / 10 * (ln x + - (ln a + ln a))) with (15 / 10 * ln x - 3 * ln a) by field. unfold Rminus. rewrite exp_plus, exp_Ropp. unfold Rdiv. f_equal. f_equal.
  replace (3 * ln a) with (ln a + ln a + ln a) by ring. rewrite !exp_plus, exp_ln by assumption. ring.
Qed.

Section More.
Context {a b : R} (Ha : 0 < a) (Hb : 0 < b).

Lemma ideal_densities : forall N l, (0 < N)%Z -> 0 < l ->
  same_densities a
    (fun x => ideal_isometric.equilibrium_distribution N l x) (fun x => ideal_isometric.equilibrium_radial_distribution N l x)
    (fun x => ideal_isometric.equilibrium_distribution N (a * l) x) (fun x => ideal_isometric.equilibrium_radial_distribution N (a * l) x).
Proof.
  intros N l HN Hl xi. pose proof (contour_units a N l xi Ha HN Hl) as Q. pose proof (links_pos N HN). pose proof PI_RGT_0.
  unR. rewrite Q. split.
  - replace (15 / 10 / PI / IZR N / (a * l) ^ 2) with (15 / 10 / PI / IZR N / l ^ 2 / a ^ 2) by (field; repeat split; lra).
    rewrite powf_units; [|assumption|]. 2: { repeat apply Rdiv_lt_0_compat; try lra. apply pow_lt; assumption. }
    replace (a * xi / (a * l)) with (xi / l) by (field; lra). unfold Rdiv. ring.
  - field. lra.
Qed.

(** A density that is a nondimensional one at the length over the contour length. *)
Lemma densities : forall N l (p g p' g' P G P' G' : R -> R), (0 < N)%Z -> 0 < l ->
  (forall x, p' x = p x) -> (forall x, g' x = g x) ->
  (forall x, P x = p (x / (IZR N * l)) / (IZR N * l) ^ 3) -> (forall x, G x = g (x / (IZR N * l)) / (IZR N * l)) ->
  (forall x, P' x = p' (x / (IZR N * (a * l))) / (IZR N * (a * l)) ^ 3) -> (forall x, G' x = g' (x / (IZR N * (a * l))) / (IZR N * (a * l))) ->
  same_densities a P G P' G'.
Proof.
  intros N l p g p' g' P G P' G' HN Hl E F A B A' B' xi. pose proof (contour_units a N l xi Ha HN Hl) as Q. pose proof (links_pos N HN).
  rewrite A, B, A', B', Q, E, F. split; field; repeat split; lra.
Qed.

Lemma fjc_densities : forall N l c, (0 < N)%Z -> 0 < l ->
  same_densities a
    (fun x => fjc_isometric_legendre.equilibrium_distribution N l c x) (fun x => fjc_isometric_legendre.equilibrium_radial_distribution N l c x)
    (fun x => fjc_isometric_legendre.equilibrium_distribution N (a * l) c x) (fun x => fjc_isometric_legendre.equilibrium_radial_distribution N (a * l) c x).
Proof.
  intros N l c HN Hl. apply (densities N l (fjc_isometric_legendre.nondimensional_equilibrium_distribution N c) (fjc_isometric_legendre.nondimensional_equilibrium_radial_distribution N c)
    (fjc_isometric_legendre.nondimensional_equilibrium_distribution N c) (fjc_isometric_legendre.nondimensional_equilibrium_radial_distribution N c)); try assumption; reflexivity.
Qed.

Lemma wlc_densities : forall N l p c, (0 < N)%Z -> 0 < l ->
  same_densities a
    (fun x => wlc_isometric.equilibrium_distribution N l p c x) (fun x => wlc_isometric.equilibrium_radial_distribution N l p c x)
    (fun x => wlc_isometric.equilibrium_distribution N (a * l) (a * p) c x) (fun x => wlc_isometric.equilibrium_radial_distribution N (a * l) (a * p) c x).
Proof.
  intros N l p c HN Hl. apply (densities N l (wlc_isometric.nondimensional_equilibrium_distribution (zeta p N l) c) (wlc_isometric.nondimensional_equilibrium_radial_distribution (zeta p N l) c)
    (wlc_isometric.nondimensional_equilibrium_distribution (zeta (a * p) N (a * l)) c) (wlc_isometric.nondimensional_equilibrium_radial_distribution (zeta (a * p) N (a * l)) c)); try assumption; try reflexivity.
  all: intro; rewrite zeta_units by assumption; reflexivity.
Qed.

Lemma swfjc_nd : forall N l w c x, 0 < l ->
  (swfjc_isometric_legendre.nondimensional_equilibrium_distribution N (a * l) (a * w) c x : R) = swfjc_isometric_legendre.nondimensional_equilibrium_distribution N l w c x.
Proof.
  intros N l w c x Hl. unfold swfjc_isometric_legendre.nondimensional_equilibrium_distribution. rewrite sw_force by assumption.
  change (@sdiv R R_scalar (a * w) (a * l)) with (a * w / (a * l)). rewrite well_units by assumption. reflexivity.
Qed.

Lemma swfjc_densities : forall N l w c, (0 < N)%Z -> 0 < l ->
  same_densities a
    (fun x => swfjc_isometric_legendre.equilibrium_distribution N l w c x) (fun x => swfjc_isometric_legendre.equilibrium_radial_distribution N l w c x)
    (fun x => swfjc_isometric_legendre.equilibrium_distribution N (a * l) (a * w) c x) (fun x => swfjc_isometric_legendre.equilibrium_radial_distribution N (a * l) (a * w) c x).
Proof.
  intros N l w c HN Hl. apply (densities N l (swfjc_isometric_legendre.nondimensional_equilibrium_distribution N l w c) (swfjc_isometric_legendre.nondimensional_equilibrium_radial_distribution N l w c)
    (swfjc_isometric_legendre.nondimensional_equilibrium_distribution N (a * l) (a * w) c) (swfjc_isometric_legendre.nondimensional_equilibrium_radial_distribution N (a * l) (a * w) c)); try assumption; try reflexivity.
  - intro. apply swfjc_nd. assumption.
  - intro. unfold swfjc_isometric_legendre.nondimensional_equilibrium_radial_distribution. rewrite swfjc_nd by assumption. reflexivity.
Qed.

(** The exact freely jointed chain. *)
Ltac opt N l xi T Q := unfold scaled; unfold fjc_isometric.force, fjc_isometric.relative_helmholtz_free_energy, fjc_isometric.relative_helmholtz_free_energy_per_link,
    fjc_isometric.equilibrium_distribution, fjc_isometric.equilibrium_radial_distribution; cbv zeta;
  change (sofZ N * (a * l)%R)%S with (IZR N * (a * l)); change (sofZ N * l)%S with (IZR N * l);
  change (@sdiv R R_scalar (a * xi) (IZR N * (a * l))) with (a * xi / (IZR N * (a * l))); rewrite Q.

Lemma fjc_isometric_units : forall prof N l xi T, (0 < N)%Z -> 0 < l -> 0 < T ->
  scaled (b / a) (fjc_isometric.force prof N l xi T) (fjc_isometric.force prof N (a * l) (a * xi) (b * T)) /\
  scaled b (fjc_isometric.relative_helmholtz_free_energy prof N l xi T) (fjc_isometric.relative_helmholtz_free_energy prof N (a * l) (a * xi) (b * T)) /\
  scaled b (fjc_isometric.relative_helmholtz_free_energy_per_link prof N l xi T) (fjc_isometric.relative_helmholtz_free_energy_per_link prof N (a * l) (a * xi) (b * T)) /\
  scaled (/ a ^ 3) (fjc_isometric.equilibrium_distribution prof N l xi) (fjc_isometric.equilibrium_distribution prof N (a * l) (a * xi)) /\
  scaled (/ a) (fjc_isometric.equilibrium_radial_distribution prof N l xi) (fjc_isometric.equilibrium_radial_distribution prof N (a * l) (a * xi)).
Proof.
  intros prof N l xi T HN Hl HT. pose proof (contour_units a N l xi Ha HN Hl) as Q. pose proof (links_pos N HN).
  opt N l xi T Q. change (@sdiv R R_scalar xi (IZR N * l)) with (xi / (IZR N * l)). generalize (xi / (IZR N * l)). intro g.
  destruct (fjc_isometric.nondimensional_force prof N g) as [u|], (fjc_isometric.nondimensional_relative_helmholtz_free_energy prof N g) as [v|],
    (fjc_isometric.nondimensional_relative_helmholtz_free_energy_per_link prof N g) as [w|],
    (fjc_isometric.nondimensional_equilibrium_distribution prof N g) as [p|], (fjc_isometric.nondimensional_equilibrium_radial_distribution prof N g) as [q|].
  all: repeat split; try reflexivity; apply (f_equal (@Some R)).
  all: unR; field; repeat split; lra.
Qed.

(** The worm-like chain under force. *)
Lemma bend_units' : forall l m T s,
  (sdec 4 0 * s * spowi spi 2 * (m / (a ^ 2 * b))%R * spowi (a * l)%R 2 * BOLTZMANN_CONSTANT * (b * T)%R / spowi PLANCK_CONSTANT 2)%S =
  (sdec 4 0 * s * spowi spi 2 * m * spowi l 2 * BOLTZMANN_CONSTANT * T / spowi PLANCK_CONSTANT 2)%S.
Proof. intros. apply (bend_units Ha Hb). Qed.

Lemma wlc_nd_gibbs : forall N l m T z x,
  (wlc_isotensional.nondimensional_gibbs_free_energy N (a * l) (m / (a ^ 2 * b)) z x (b * T) : option R) = wlc_isotensional.nondimensional_gibbs_free_energy N l m z x T.
Proof.
  intros. unfold wlc_isotensional.nondimensional_gibbs_free_energy, wlc_isometric.nondimensional_helmholtz_free_energy. cbv zeta. rewrite bend_units'. reflexivity.
Qed.

Lemma wlc_isotensional_units : forall N l m p f T, (0 < N)%Z -> 0 < l -> 0 < T ->
  scaled a (wlc_isotensional.end_to_end_length N l p f T) (wlc_isotensional.end_to_end_length N (a * l) (a * p) (b / a * f) (b * T)) /\
  scaled a (wlc_isotensional.end_to_end_length_per_link N l p f T) (wlc_isotensional.end_to_end_length_per_link N (a * l) (a * p) (b / a * f) (b * T)) /\
  scaled b (wlc_isotensional.relative_gibbs_free_energy N l p f T) (wlc_isotensional.relative_gibbs_free_energy N (a * l) (a * p) (b / a * f) (b * T)) /\
  scaled b (wlc_isotensional.relative_gibbs_free_energy_per_link N l p f T) (wlc_isotensional.relative_gibbs_free_energy_per_link N (a * l) (a * p) (b / a * f) (b * T)) /\
  scaled b (wlc_isotensional.gibbs_free_energy N l m p f T) (wlc_isotensional.gibbs_free_energy N (a * l) (m / (a ^ 2 * b)) (a * p) (b / a * f) (b * T)) /\
  scaled b (wlc_isotensional.gibbs_free_energy_per_link N l m p f T) (wlc_isotensional.gibbs_free_energy_per_link N (a * l) (m / (a ^ 2 * b)) (a * p) (b / a * f) (b * T)).
Proof.
  intros N l m p f T HN Hl HT. pose proof kB_pos as K.
  assert (Z : forall q L, @sdiv R R_scalar q (sofZ N * L)%S = q / (IZR N * L)) by reflexivity.
  pose proof (contour_units a N l p Ha HN Hl) as Q.
  assert (E : @sdiv R R_scalar (@sdiv R R_scalar (@smul R R_scalar (b / a * f) (a * l)) BOLTZMANN_CONSTANT) (b * T) = f * l / (kB * T)).
  { change (b / a * f * (a * l) / BOLTZMANN_CONSTANT / (b * T) = f * l / (kB * T)). rewrite B_eq. field. repeat split; lra. }
  assert (E' : @sdiv R R_scalar (@sdiv R R_scalar (@smul R R_scalar f l) BOLTZMANN_CONSTANT) T = f * l / (kB * T)).
  { change (f * l / BOLTZMANN_CONSTANT / T = f * l / (kB * T)). rewrite B_eq. field. lra. }
  unfold scaled, wlc_isotensional.end_to_end_length, wlc_isotensional.end_to_end_length_per_link, wlc_isotensional.relative_gibbs_free_energy,
    wlc_isotensional.relative_gibbs_free_energy_per_link, wlc_isotensional.gibbs_free_energy, wlc_isotensional.gibbs_free_energy_per_link, wlc_isotensional.nondimensional_gibbs_free_energy_per_link.
  rewrite (Z p l), (Z (a * p) (a * l)), Q, E, E', wlc_nd_gibbs. generalize (f * l / (kB * T)), (p / (IZR N * l)). intros x z.
  destruct (wlc_isotensional.nondimensional_end_to_end_length N z x) as [u1|], (wlc_isotensional.nondimensional_end_to_end_length_per_link N z x) as [u2|],
    (wlc_isotensional.nondimensional_relative_gibbs_free_energy N z x) as [u3|], (wlc_isotensional.nondimensional_relative_gibbs_free_energy_per_link N z x) as [u4|],
    (wlc_isotensional.nondimensional_gibbs_free_energy N l m z x T) as [u5|].
  all: repeat split; try reflexivity; apply (f_equal (@Some R)).
  all: match goal with |- ?u = ?v => let U := eval cbn [bind sadd smul sdiv R_scalar] in (u = v) in change U end.
  all: ring.
Qed.

(** The exact freely jointed chain takes the logarithm of a density per volume. *)
Lemma hinge_units' : forall l m T,
  (sdec 8 0 * spowi spi 2 * (m / (a ^ 2 * b))%R * spowi (a * l)%R 2 * BOLTZMANN_CONSTANT * (b * T)%R / spowi PLANCK_CONSTANT 2)%S =
  (sdec 8 0 * spowi spi 2 * m * spowi l 2 * BOLTZMANN_CONSTANT * T / spowi PLANCK_CONSTANT 2)%S.
Proof. intros. apply (hinge_units Ha Hb). Qed.

Lemma fjc_isometric_shift : forall prof N l m xi T P, (0 < N)%Z -> 0 < l -> 0 < T ->
  fjc_isometric.equilibrium_distribution prof N l xi = Some P -> 0 < P ->
  exists A, fjc_isometric.helmholtz_free_energy prof N l m xi T = Some A /\
    fjc_isometric.helmholtz_free_energy prof N (a * l) (m / (a ^ 2 * b)) (a * xi) (b * T) = Some (b * (A + kB * T * (3 * ln a))).
Proof.
  intros prof N l m xi T P HN Hl HT D HP. pose proof (links_pos N HN) as Hn. pose proof (contour_units a N l xi Ha HN Hl) as Q.
  destruct (fjc_isometric_units prof N l xi T HN Hl HT) as (_ & _ & _ & D' & _). unfold scaled in D'. rewrite D in D'. cbn [option_map] in D'.
  unfold fjc_isometric.helmholtz_free_energy, fjc_isometric.nondimensional_helmholtz_free_energy.
  change (@sdiv R R_scalar xi (@smul R R_scalar (sofZ N) l)) with (xi / (IZR N * l)).
  change (@sdiv R R_scalar (a * xi) (@smul R R_scalar (sofZ N) (a * l))) with (a * xi / (IZR N * (a * l))). rewrite Q.
  change (@smul R R_scalar (@smul R R_scalar (xi / (IZR N * l)) (sofZ N)) l) with (xi / (IZR N * l) * IZR N * l).
  change (@smul R R_scalar (@smul R R_scalar (xi / (IZR N * l)) (sofZ N)) (a * l)) with (xi / (IZR N * l) * IZR N * (a * l)).
  replace (xi / (IZR N * l) * IZR N * l) with xi by (field; lra). replace (xi / (IZR N * l) * IZR N * (a * l)) with (a * xi) by (field; lra).
  rewrite D, D', hinge_units'. eexists. split; [reflexivity|]. cbn [bind]. f_equal.
  match goal with |- context [@sln R R_scalar (@sdiv R R_scalar ?u ?v)] => set (h := @sln R R_scalar (@sdiv R R_scalar u v)); clearbody h end. change (@sln R R_scalar P) with (ln P). change (@sln R R_scalar (/ a ^ 3 * P)) with (ln (/ a ^ 3 * P)).
  assert (L : ln (/ a ^ 3 * P) = ln P - 3 * ln a).
  { rewrite ln_mult; [| apply Rinv_0_lt_compat; apply pow_lt; assumption | assumption]. rewrite ln_Rinv by (apply pow_lt; assumption).
    replace (a ^ 3) with (a * a * a) by ring. rewrite !ln_mult by (try apply Rmult_lt_0_compat; assumption). ring. }
  rewrite L. change ((- (ln P - 3 * ln a) - (IZR N - Rdec 1 0) * h) * BOLTZMANN_CONSTANT * (b * T) = b * ((- ln P - (IZR N - Rdec 1 0) * h) * BOLTZMANN_CONSTANT * T + kB * T * (3 * ln a))).
  rewrite B_eq. ring.
Qed.
End More.

Lemma ln_not_0 : forall a, 0 < a -> a <> 1 -> ln a <> 0.
Proof. intros a Ha H E. apply H. apply ln_inv; [assumption | lra |]. rewrite ln_1. assumption. Qed.

Lemma shifted_refuted : forall n T a b c c', 0 < T -> 0 < a -> 0 < b -> a <> 1 -> gibbs_shifted n T (- ln a) a b c c' -> ~ same_gibbs a b c c'.
Proof. intros n T a b c c' HT Ha Hb H S E. apply (ln_not_0 a Ha H). destruct (S 0 0) as (_ & _ & _ & P), (E 0 0) as (_ & _ & _ & Q). lra. Qed.

Lemma efjc_absolute_refuted : forall a b N l m T k, 0 < a -> 0 < b -> a <> 1 -> (0 < N)%Z -> 0 < l -> 0 < T -> 0 < k ->
  ~ same_gibbs a b (C_efjc_isotensional N l m T k) (C_efjc_isotensional N (a * l) (m / (a ^ 2 * b)) (b * T) (b * k / a ^ 2)).
Proof.
  intros a b N l m T k Ha Hb H HN Hl HT Hk. destruct (efjc_isotensional_units a b N l m T k Ha Hb HN Hl HT Hk) as (_ & _ & S).
  exact (shifted_refuted _ _ _ _ _ _ HT Ha Hb H S).
Qed.

Lemma fjc_isometric_absolute : forall a b prof N l m xi T, 0 < a -> 0 < b -> (2 <= N <= 26)%Z -> 0 < l -> 0 < T -> 0 < xi < IZR N * l ->
  exists A, fjc_isometric.helmholtz_free_energy prof N l m xi T = Some A /\
    fjc_isometric.helmholtz_free_energy prof N (a * l) (m / (a ^ 2 * b)) (a * xi) (b * T) = Some (b * (A + kB * T * (3 * ln a))).
Proof.
  intros a b prof N l m xi T Ha Hb HN Hl HT Hx. assert (HN' : (0 < N)%Z) by lia. pose proof (links_pos N HN') as Hn.
  assert (C : 0 < IZR N * l) by (apply Rmult_lt_0_compat; assumption).
  assert (G : 0 < xi / (IZR N * l) < 1) by (split; [apply Rdiv_lt_0_compat; lra | apply Rmult_lt_reg_r with (IZR N * l); [lra|]; unfold Rdiv; rewrite Rmult_assoc, Rinv_l by lra; lra]).
  destruct (PIsometric.z_positive prof N (xi / (IZR N * l)) HN G) as (p & E & P).
  apply (fjc_isometric_shift Ha Hb prof N l m xi T (p / (IZR N * l) ^ 3)); try assumption.
  - unfold fjc_isometric.equilibrium_distribution. cbv zeta. change (@sdiv R R_scalar xi (@smul R R_scalar (sofZ N) l)) with (xi / (IZR N * l)). rewrite E. reflexivity.
  - apply Rdiv_lt_0_compat; [assumption | apply pow_lt; assumption].
Qed.
