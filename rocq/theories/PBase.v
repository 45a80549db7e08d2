(** Shared tactics and lemmas for proofs about the real instance. *)
From Coq Require Import Reals ZArith Lra Lia.
From Coquelicot Require Import Coquelicot.
From Verif Require Import Scalar MMath MConst MSwfjc MEfjc MMorse MLennardJones MLogSquared MWlc SpecThermo SpecChains.
Open Scope R_scope.

(** Unfold the scalar class before the real functions when checking conversions. *)
Global Strategy expand [sadd ssub smul sdiv sneg sabs spowi spowf sexp sln ssinh scosh stanh ssin scos sacos
  satanh ssqrt sceil spi sdec sofZ scast slt sle R_scalar powerRZ Rdec].
Global Strategy 1000 [Rminus Rdiv pow exp ln sinh cosh tanh sin cos sqrt PI acos Rabs Rpowf Rltb Rleb Rceil
  Rcast Ratanh kB hP BOLTZMANN_CONSTANT PLANCK_CONSTANT ZERO kappa epsilon zeta
  math.integrate_1d math.integrate_1d_m math.inverse_newton_raphson math.inverse_newton_raphson_powered
  math.inverse_langevin math.lambert_w math.bessel_i math.erf math.erfc math.erfcx].

(** Compute the model down to operations on the reals: first the definitions,
    with the scalar operations kept folded, then the operations themselves. *)
Ltac unR :=
  cbv -[sadd ssub smul sdiv sneg sabs spowi spowf sexp sln ssinh scosh stanh ssin scos sacos satanh ssqrt sceil spi sdec sofZ scast slt sle slog10 R_scalar
    Rplus Rminus Rmult Rdiv Ropp Rinv IZR pow exp ln sinh cosh tanh sin cos sqrt PI
    acos Rabs Rpowf Rltb Rleb Rceil Rcast Ratanh powerRZ Rdec is_derive kB hP kappa epsilon zeta
    not Rle Rlt Rge Rgt iff BOLTZMANN_CONSTANT PLANCK_CONSTANT ZERO
    math.integrate_1d math.integrate_1d_m math.inverse_newton_raphson math.inverse_newton_raphson_powered
    math.inverse_langevin math.lambert_w math.bessel_i math.erf math.erfc math.erfcx
    swfjc_isometric_legendre.nondimensional_force
    efjc_isometric_asymptotic_alternative_legendre.nondimensional_force
    efjc_isometric_asymptotic_legendre.nondimensional_force
    efjc_isometric_asymptotic_reduced_legendre.nondimensional_force
    morse_isometric_asymptotic_legendre.nondimensional_force
    morse_isometric_asymptotic_reduced_legendre.nondimensional_force
    lennard_jones_isometric_asymptotic_legendre.nondimensional_force
    lennard_jones_isometric_asymptotic_reduced_legendre.nondimensional_force
    log_squared_isometric_asymptotic_legendre.nondimensional_force
    log_squared_isometric_asymptotic_reduced_legendre.nondimensional_force
    lennard_jones_thermodynamics.nondimensional_link_stretch wlc_isometric.nondimensional_force];
  change (@sadd R R_scalar) with Rplus;
  change (@ssub R R_scalar) with Rminus;
  change (@smul R R_scalar) with Rmult;
  change (@sdiv R R_scalar) with Rdiv;
  change (@sneg R R_scalar) with Ropp;
  change (@sabs R R_scalar) with Rabs;
  change (@spowi R R_scalar) with powerRZ;
  change (@spowf R R_scalar) with Rpowf;
  change (@sexp R R_scalar) with exp;
  change (@sln R R_scalar) with ln;
  change (@ssinh R R_scalar) with sinh;
  change (@scosh R R_scalar) with cosh;
  change (@stanh R R_scalar) with tanh;
  change (@ssin R R_scalar) with sin;
  change (@scos R R_scalar) with cos;
  change (@sacos R R_scalar) with acos;
  change (@satanh R R_scalar) with Ratanh;
  change (@ssqrt R R_scalar) with sqrt;
  change (@sceil R R_scalar) with Rceil;
  change (@spi R R_scalar) with PI;
  change (@sdec R R_scalar) with Rdec;
  change (@sofZ R R_scalar) with IZR;
  change (@scast R R_scalar) with Rcast;
  change (@slt R R_scalar) with Rltb;
  change (@sle R R_scalar) with Rleb;
  cbv beta iota zeta delta [powerRZ Pos.to_nat Pos.iter_op Nat.add Init.Nat.add Rdec Z.pow Z.pow_pos Pos.iter
    Z.mul Pos.mul Z.of_N Pos.add Pos.succ].

Lemma B_eq : BOLTZMANN_CONSTANT = kB.
Proof. unfold BOLTZMANN_CONSTANT, kB; cbv -[Rdiv Rmult IZR Rinv]. lra. Qed.
Lemma H_eq : PLANCK_CONSTANT = hP.
Proof. unfold PLANCK_CONSTANT, hP; cbv -[Rdiv Rmult IZR Rinv]. lra. Qed.
Lemma Z_eq : (ZERO : R) = / 10 ^ 6.
Proof. unfold ZERO; cbv -[Rdiv Rmult IZR Rinv pow]. lra. Qed.

Lemma kB_pos : 0 < kB.
Proof. unfold kB. lra. Qed.
Lemma hP_pos : 0 < hP.
Proof. unfold hP. lra. Qed.

Global Hint Resolve kB_pos hP_pos : pos.

(** Normalise the nondimensional groups the code computes in various orders. *)
Lemma grp_f1 : forall f l T, f / kB / T * l = f * l / (kB * T).
Proof. intros; unfold Rdiv; rewrite Rinv_mult; ring. Qed.
Lemma grp_f2 : forall f l T, f * l / kB / T = f * l / (kB * T).
Proof. intros; unfold Rdiv; rewrite Rinv_mult; ring. Qed.
Lemma grp_e : forall e T, e / kB / T = epsilon e T.
Proof. intros; unfold Rdiv, epsilon, Rdiv; rewrite Rinv_mult; ring. Qed.
Lemma grp_k : forall k l T, k * l ^ 2 / kB / T = kappa k l T.
Proof. intros; unfold Rdiv, kappa, Rdiv; rewrite Rinv_mult; ring. Qed.
Lemma grp_p : forall p N l, p / (IZR N * l) = zeta p N l.
Proof. reflexivity. Qed.
Lemma grp_z : forall l T, 0 < l -> 0 < T -> ZERO * kB * T / l * l / (kB * T) = (ZERO : R).
Proof. intros; field; pose proof kB_pos; lra. Qed.

Lemma grp_x : forall x N l, x / IZR N / l = zeta x N l.
Proof. intros; unfold zeta, Rdiv; rewrite Rinv_mult; ring. Qed.

Lemma grp_zx : forall N l, (0 < N)%Z -> 0 < l -> zeta (ZERO * IZR N * l) N l = (ZERO : R).
Proof. intros; unfold zeta; field; split; [lra | apply not_0_IZR; lia]. Qed.
Lemma grp_kT : forall k l T, 0 < k -> 0 < l -> 0 < T -> 2 * PI * kB * T / k = 2 * PI * l ^ 2 / kappa k l T.
Proof. intros; unfold kappa; field; pose proof kB_pos; lra. Qed.

Lemma grp_z' : forall l T, 0 < l -> 0 < T -> ZERO * (kB * T) / l * l / (kB * T) = (ZERO : R).
Proof. intros; field; pose proof kB_pos; lra. Qed.
Lemma grp_zx' : forall N l, (0 < N)%Z -> 0 < l -> zeta (ZERO * (IZR N * l)) N l = (ZERO : R).
Proof. intros; unfold zeta; field; split; [lra | apply not_0_IZR; lia]. Qed.

Ltac groups N l T :=
  rewrite ?B_eq, ?H_eq;
  rewrite ?(grp_k _ l T), ?(grp_f1 _ l T), ?(grp_f2 _ l T), ?(grp_x _ N l);
  try match goal with k : R |- context [2 * PI * kB * T / ?k] => rewrite ?(grp_kT k l T) by assumption end;
  try match goal with e : R |- context [?x / kB / T] => is_var x; rewrite ?(grp_e x T) end;
  rewrite ?(grp_p _ N l);
  rewrite ?(grp_z l T), ?(grp_zx N l), ?(grp_z' l T), ?(grp_zx' N l) by assumption.

(** Replace calls of the numerical routines by variables. *)
Ltac abstract_calls := repeat match goal with
  | |- context [math.inverse_newton_raphson ?a ?b ?c ?d ?e ?f] =>
      generalize (math.inverse_newton_raphson a b c d e f); intro
  | |- context [math.inverse_newton_raphson_powered ?a ?b ?c ?d ?e ?f ?g] =>
      generalize (math.inverse_newton_raphson_powered a b c d e f g); intro
  | |- context [math.integrate_1d ?a ?b ?c ?d] =>
      generalize (math.integrate_1d a b c d); intro
  end.

(** Replace the inverses of compound denominators by variables. *)
Ltac abstract_inverses := unfold Rdiv; repeat match goal with
  | |- context [/ ?D] =>
      lazymatch D with
      | kB => fail
      | (kB * _)%R => fail
      | (?a * ?b)%R => rewrite (Rinv_mult a b)
      | (?b ^ _)%R => tryif (match goal with H : 0 < b |- _ => idtac end) then fail else (generalize (/ D); intro)
      | IZR _ => fail
      | _ => tryif is_var D then fail else (generalize (/ D); intro)
      end
  end.

Lemma NZ : forall N : Z, (0 < N)%Z -> IZR N <> 0.
Proof. intros; apply not_0_IZR; lia. Qed.

Ltac side := repeat split; first
  [ assumption | apply NZ; assumption | apply Rgt_not_eq; apply kB_pos | apply Rgt_not_eq; assumption
  | apply Rgt_not_eq; apply hP_pos | lra ].

(** Close an algebraic identity, treating the transcendental terms as variables. *)
Ltac algebra := first
  [ ring
  | unfold zeta, kappa, epsilon; field; side
  | abstract_inverses; field; side
  | unfold zeta, kappa, epsilon; abstract_inverses; field; side ].

Ltac identities N l T :=
  unR; rewrite <- ?Z_eq; repeat split; intros; groups N l T; abstract_calls; algebra.

(** Identities that hold with total division, whatever the sign of the argument. *)
Ltac identities_total N l T :=
  unR; rewrite <- ?Z_eq; repeat split; intros; groups N l T; abstract_calls;
  first [ algebra
        | unfold kappa, Rdiv; rewrite ?Rinv_mult, ?Rinv_inv;
          match goal with |- context [/ ?x] => is_var x; tryif (match goal with H : 0 < x |- _ => idtac end) then fail else generalize (/ x); intro end;
          repeat match goal with |- context [/ tanh ?D] => generalize (/ tanh D); intro end; field; side ].

(** The EFJC Legendre module divides by the stiffness and the hyperbolic tangent in the other order. *)
Ltac efjc_identities N l T :=
  unR; intros; groups N l T;
  match goal with |- context [?x / kappa ?k l T / tanh ?x] =>
    replace (x / kappa k l T / tanh x) with (x / tanh x / kappa k l T) by (unfold Rdiv; ring) end;
  algebra.
