(** The functions of the isotensional worm-like chain that wrap the root finder. *)
From Coq Require Import Reals Ranalysis5 ZArith Lra Lia.
From Coquelicot Require Import Coquelicot.
From Verif Require Import Scalar MMath MConst MWlc SpecThermo SpecChains SpecAnswers PBase PConjWlc PConjWlcBound PErfPoly PBessel PWormExample PWormFails PWormReturns.
Open Scope R_scope.

Ltac step A e := let Q := fresh in let T := type of A in match T with _ = ?v => assert (Q : e = v) by exact A; rewrite Q; clear Q; cbn [bind] end.

(** ** Which forces have an extension *)
Definition high : R := 9999 / 10000.

Lemma strong_force : forall z, 0 < z <= 1 / 10 -> 20000000 * / z <= wforce_scaled z high.
Proof.
  intros z Hz. assert (I : inside high) by (unfold inside, high; lra).
  assert (Q : 10 <= / z) by (replace 10 with (/ (1 / 10)) by field; apply Rinv_le_contravar; lra).
  assert (C : 0 < wc0 z < 1) by (apply wlc_c0_bounds; lra). pose proof (ws_bounds z Hz) as S.
  assert (B : wbess z high <= 10).
  { unfold wbess. pose proof (rr_bounds _ (tau_nonneg z high I)) as R0. pose proof (C_bound z high Hz I) as B. destruct (wh_bounds high I) as [D _].
    assert (P : 0 <= wC z high). { unfold wC. apply Rmult_le_pos; [pose proof (pow2_ge_0 (ws z)); lra|]. apply Rdiv_le_0_compat; [|apply pow_lt; lra].
      assert (0 < wb) by (rewrite wb_value; lra). apply Rmult_le_pos; [unfold high; lra|]. pose proof (pow2_ge_0 high). nra. }
    set (c := wC z high) in *. clearbody c. assert (c <= 10) by (unfold high in B; nra).
    apply Rle_trans with (10 * 1); [apply Rmult_le_compat; lra | lra]. }
  unfold wforce_scaled, wsteep. set (q := / z) in *. clearbody q. set (c := wc0 z) in *. clearbody c. set (s := ws z) in *. clearbody s.
  set (t := wbess z high) in *. clearbody t.
  assert (H1 : 24000000 <= high / (1 - high ^ 2) ^ 2) by (unfold high; lra).
  assert (H2 : high / (1 - high ^ 2) <= 5001) by (unfold high; lra).
  assert (H3 : 0 <= c * high / (1 - c * high ^ 2)) by (apply Rdiv_le_0_compat; unfold high; lra).
  assert (H4 : 0 <= 2 * (473 / 1000) * s * (high / (1 - wb * high ^ 2) ^ 2)).
  { apply Rmult_le_pos; [lra|]. rewrite wb_value. unfold high. lra. }
  set (k1 := high / (1 - high ^ 2) ^ 2) in *. set (k2 := high / (1 - high ^ 2)) in *. set (k3 := c * high / _) in *. set (k4 := 2 * _ * s * _) in *. clearbody k1 k2 k3 k4.
  assert (q * 23000000 <= q * (k1 + 5 / 10 * high - 4375 / 10000 * high ^ 3)) by (apply Rmult_le_compat_l; [lra|]; unfold high; lra).
  unfold high in *. lra.
Qed.

Lemma extension_exists : forall N z eta, (0 < N)%Z -> 0 < z <= 1 / 10 -> 0 < eta <= 20000000 / (IZR N * z) ->
  exists r, 0 <= r <= 9999 / 10000 /\ wlc_isometric.nondimensional_force N z r = eta.
Proof.
  intros N z eta HN Hz He. assert (PN : 0 < IZR N) by (apply IZR_lt; exact HN).
  pose proof (strong_force z Hz) as S.
  assert (W : wforce_scaled z 0 = 0) by (unfold wforce_scaled, wsteep, wbess, wC, Rdiv; ring).
  assert (U : eta * IZR N <= 20000000 * / z).
  { apply Rle_trans with (20000000 / (IZR N * z) * IZR N); [apply Rmult_le_compat_r; lra|]. right. field. split; lra. }
  assert (L : 0 < eta * IZR N) by (apply Rmult_lt_0_compat; lra).
  destruct (f_interv_is_interv (wforce_scaled z) 0 high (eta * IZR N)) as (r & Hr & E).
  - unfold high; lra.
  - lra.
  - intros t Ht. apply continuity_pt_filterlim. apply (ex_derive_continuous (wforce_scaled z)). eexists. apply scaled_derive; [exact Hz|]. unfold inside, high in *; lra.
  - exists r. split; [exact Hr|]. assert (I : inside r) by (unfold inside, high in *; lra).
    pose proof (force_split N z r HN Hz I) as F. fold (wforce_scaled z r) in F. rewrite E in F. apply Rmult_eq_reg_r with (IZR N); lra.
Qed.

Lemma worm_answers : forall N z eta, (0 < N <= 255)%Z -> 0 < z <= 1 / 10 -> 0 < eta <= 20000000 / (IZR N * z) ->
  answers (wlc_isotensional.nondimensional_end_to_end_length N z eta) /\
  answers (wlc_isotensional.nondimensional_end_to_end_length_per_link N z eta) /\
  answers (wlc_isotensional.nondimensional_relative_gibbs_free_energy N z eta) /\
  answers (wlc_isotensional.nondimensional_relative_gibbs_free_energy_per_link N z eta) /\
  answers (wlc_isotensional_legendre.nondimensional_relative_helmholtz_free_energy N z eta) /\
  answers (wlc_isotensional_legendre.nondimensional_relative_helmholtz_free_energy_per_link N z eta) /\
  forall l m T,
    answers (wlc_isotensional.nondimensional_gibbs_free_energy N l m z eta T) /\
    answers (wlc_isotensional.nondimensional_gibbs_free_energy_per_link N l m z eta T) /\
    answers (wlc_isotensional_legendre.nondimensional_helmholtz_free_energy N l m z eta T) /\
    answers (wlc_isotensional_legendre.nondimensional_helmholtz_free_energy_per_link N l m z eta T).
Proof.
  intros N z eta [HN HN'] Hz He. assert (PN : 0 < IZR N <= 255) by (split; [apply IZR_lt; exact HN | apply IZR_le; exact HN']).
  assert (A : forall e, 0 < e <= 20000000 / (IZR N * z) ->
     (exists x, wlc_isotensional.nondimensional_end_to_end_length N z e = Some x) /\
     (forall l m T, exists g, wlc_isotensional.nondimensional_gibbs_free_energy N l m z e T = Some g)).
  { intros e H. destruct (extension_exists N z e HN Hz H) as (r & Hr & <-). apply (worm_answers_at N z r HN Hz Hr). }
  destruct (A eta He) as ([v V] & G). destruct (A (/ 10 ^ 6)) as ([v0 V0] & G0).
  { split; [lra|]. assert (NZ : 0 < IZR N * z <= 255 * (1 / 10)) by (split; [apply Rmult_lt_0_compat; lra | apply Rmult_le_compat; lra]).
    apply Rmult_le_reg_r with (IZR N * z); [lra|]. replace (20000000 / (IZR N * z) * (IZR N * z)) with 20000000 by (field; split; lra). lra. }
  assert (EZ : (@ZERO R R_scalar) = / 10 ^ 6) by apply Z_eq.
  unfold answers, wlc_isotensional.nondimensional_end_to_end_length_per_link, wlc_isotensional.nondimensional_relative_gibbs_free_energy, wlc_isotensional.nondimensional_relative_gibbs_free_energy_per_link,
    wlc_isotensional_legendre.nondimensional_relative_helmholtz_free_energy, wlc_isotensional_legendre.nondimensional_relative_helmholtz_free_energy_per_link,
    wlc_isotensional.nondimensional_gibbs_free_energy_per_link, wlc_isotensional_legendre.nondimensional_helmholtz_free_energy_per_link, wlc_isotensional_legendre.nondimensional_helmholtz_free_energy,
    wlc_isotensional.nondimensional_gibbs_free_energy_per_link.
  rewrite EZ.
  repeat split; rewrite ?V, ?V0; cbn [bind];
    repeat lazymatch goal with
    | |- context [wlc_isotensional.nondimensional_gibbs_free_energy N ?b ?c z eta ?f] => destruct (G b c f) as [? ->]; cbn [bind]
    | |- context [wlc_isotensional.nondimensional_gibbs_free_energy N ?b ?c z _ ?f] => destruct (G0 b c f) as [? ->]; cbn [bind]
    end; eexists; reflexivity.
Qed.

Lemma worm_answers_dimensional : forall N l p T F, (0 < N <= 255)%Z -> 0 < l -> 0 < T -> 0 < p <= 1 / 10 * (IZR N * l) ->
  0 < F <= 20000000 * (kB * T / p) ->
  answers (wlc_isotensional.end_to_end_length N l p F T) /\
  answers (wlc_isotensional.end_to_end_length_per_link N l p F T) /\
  answers (wlc_isotensional.relative_gibbs_free_energy N l p F T) /\
  answers (wlc_isotensional.relative_gibbs_free_energy_per_link N l p F T) /\
  answers (wlc_isotensional_legendre.relative_helmholtz_free_energy N l p F T) /\
  answers (wlc_isotensional_legendre.relative_helmholtz_free_energy_per_link N l p F T) /\
  forall m,
    answers (wlc_isotensional.gibbs_free_energy N l m p F T) /\
    answers (wlc_isotensional.gibbs_free_energy_per_link N l m p F T) /\
    answers (wlc_isotensional_legendre.helmholtz_free_energy N l m p F T) /\
    answers (wlc_isotensional_legendre.helmholtz_free_energy_per_link N l m p F T).
Proof.
  intros N l p T F HN Hl HT Hp HF. assert (PN : 0 < IZR N) by (apply IZR_lt; lia). pose proof kB_pos as K.
  assert (L : 0 < IZR N * l) by (apply Rmult_lt_0_compat; assumption). assert (KT : 0 < kB * T) by (apply Rmult_lt_0_compat; assumption).
  set (z := p / (IZR N * l)). set (e := F * l / BOLTZMANN_CONSTANT / T).
  assert (Hz : 0 < z <= 1 / 10).
  { unfold z. split; [apply Rdiv_lt_0_compat; lra|]. apply Rmult_le_reg_r with (IZR N * l); [exact L|].
    replace (p / (IZR N * l) * (IZR N * l)) with p by (field; lra). lra. }
  assert (He : 0 < e <= 20000000 / (IZR N * z)).
  { unfold e. rewrite B_eq. split; (apply Rmult_lt_reg_r with (kB * T / l) || apply Rmult_le_reg_r with (kB * T / l)); try (apply Rdiv_lt_0_compat; assumption);
      replace (F * l / kB / T * (kB * T / l)) with F by (field; repeat split; lra); [lra|].
    replace (20000000 / (IZR N * z) * (kB * T / l)) with (20000000 * (kB * T / p)) by (unfold z; field; repeat split; lra). lra. }
  destruct (worm_answers N z e HN Hz He) as ((a1 & A1) & (a2 & A2) & (a3 & A3) & (a4 & A4) & (a5 & A5) & (a6 & A6) & A7). unfold z, e in *. clear z e. unfold answers in *.
  unfold wlc_isotensional.end_to_end_length, wlc_isotensional.end_to_end_length_per_link, wlc_isotensional.relative_gibbs_free_energy, wlc_isotensional.relative_gibbs_free_energy_per_link,
    wlc_isotensional_legendre.relative_helmholtz_free_energy, wlc_isotensional_legendre.relative_helmholtz_free_energy_per_link,
    wlc_isotensional.gibbs_free_energy, wlc_isotensional.gibbs_free_energy_per_link, wlc_isotensional_legendre.helmholtz_free_energy, wlc_isotensional_legendre.helmholtz_free_energy_per_link.
  repeat split; try destruct (A7 l m T) as ((b1 & B1) & (b2 & B2) & (b3 & B3) & (b4 & B4));
    lazymatch goal with
    | |- exists _, bind (wlc_isotensional.nondimensional_end_to_end_length ?a ?b ?c) _ = _ => step A1 (wlc_isotensional.nondimensional_end_to_end_length a b c)
    | |- exists _, bind (wlc_isotensional.nondimensional_end_to_end_length_per_link ?a ?b ?c) _ = _ => step A2 (wlc_isotensional.nondimensional_end_to_end_length_per_link a b c)
    | |- exists _, bind (wlc_isotensional.nondimensional_relative_gibbs_free_energy ?a ?b ?c) _ = _ => step A3 (wlc_isotensional.nondimensional_relative_gibbs_free_energy a b c)
    | |- exists _, bind (wlc_isotensional.nondimensional_relative_gibbs_free_energy_per_link ?a ?b ?c) _ = _ => step A4 (wlc_isotensional.nondimensional_relative_gibbs_free_energy_per_link a b c)
    | |- exists _, bind (wlc_isotensional_legendre.nondimensional_relative_helmholtz_free_energy ?a ?b ?c) _ = _ => step A5 (wlc_isotensional_legendre.nondimensional_relative_helmholtz_free_energy a b c)
    | |- exists _, bind (wlc_isotensional_legendre.nondimensional_relative_helmholtz_free_energy_per_link ?a ?b ?c) _ = _ => step A6 (wlc_isotensional_legendre.nondimensional_relative_helmholtz_free_energy_per_link a b c)
    | |- exists _, bind (wlc_isotensional.nondimensional_gibbs_free_energy ?a ?b ?c ?d ?e ?f) _ = _ => step B1 (wlc_isotensional.nondimensional_gibbs_free_energy a b c d e f)
    | |- exists _, bind (wlc_isotensional.nondimensional_gibbs_free_energy_per_link ?a ?b ?c ?d ?e ?f) _ = _ => step B2 (wlc_isotensional.nondimensional_gibbs_free_energy_per_link a b c d e f)
    | |- exists _, bind (wlc_isotensional_legendre.nondimensional_helmholtz_free_energy ?a ?b ?c ?d ?e ?f) _ = _ => step B3 (wlc_isotensional_legendre.nondimensional_helmholtz_free_energy a b c d e f)
    | |- exists _, bind (wlc_isotensional_legendre.nondimensional_helmholtz_free_energy_per_link ?a ?b ?c ?d ?e ?f) _ = _ => step B4 (wlc_isotensional_legendre.nondimensional_helmholtz_free_energy_per_link a b c d e f)
    end; eexists; reflexivity.
Qed.

Lemma worm_panics : forall N z, (0 < N)%Z -> 0 < z <= 4 / 10 -> exists strong, 0 < strong /\ forall eta, strong < eta ->
  panics (wlc_isotensional.nondimensional_end_to_end_length N z eta) /\
  panics (wlc_isotensional.nondimensional_end_to_end_length_per_link N z eta) /\
  panics (wlc_isotensional.nondimensional_relative_gibbs_free_energy N z eta) /\
  panics (wlc_isotensional.nondimensional_relative_gibbs_free_energy_per_link N z eta) /\
  panics (wlc_isotensional_legendre.nondimensional_relative_helmholtz_free_energy N z eta) /\
  panics (wlc_isotensional_legendre.nondimensional_relative_helmholtz_free_energy_per_link N z eta) /\
  forall l m T,
    panics (wlc_isotensional.nondimensional_gibbs_free_energy N l m z eta T) /\
    panics (wlc_isotensional.nondimensional_gibbs_free_energy_per_link N l m z eta T) /\
    panics (wlc_isotensional_legendre.nondimensional_helmholtz_free_energy N l m z eta T) /\
    panics (wlc_isotensional_legendre.nondimensional_helmholtz_free_energy_per_link N l m z eta T).
Proof.
  intros N z HN Hz. destruct (worm_breaks_down N z HN Hz) as (v & Hv & F). exists v. split; [exact Hv|]. intros eta He. destruct (F eta He) as [A G].
  unfold panics, wlc_isotensional.nondimensional_end_to_end_length_per_link, wlc_isotensional.nondimensional_relative_gibbs_free_energy, wlc_isotensional.nondimensional_relative_gibbs_free_energy_per_link,
    wlc_isotensional_legendre.nondimensional_relative_helmholtz_free_energy, wlc_isotensional_legendre.nondimensional_relative_helmholtz_free_energy_per_link,
    wlc_isotensional.nondimensional_gibbs_free_energy_per_link, wlc_isotensional_legendre.nondimensional_helmholtz_free_energy_per_link, wlc_isotensional_legendre.nondimensional_helmholtz_free_energy,
    wlc_isotensional.nondimensional_gibbs_free_energy_per_link.
  repeat split; rewrite ?A, ?G; reflexivity.
Qed.

Lemma worm_panics_dimensional : forall N l p T, (0 < N)%Z -> 0 < l -> 0 < T -> 0 < p <= 4 / 10 * (IZR N * l) -> exists strong, 0 < strong /\ forall F, strong < F ->
  panics (wlc_isotensional.end_to_end_length N l p F T) /\
  panics (wlc_isotensional.end_to_end_length_per_link N l p F T) /\
  panics (wlc_isotensional.relative_gibbs_free_energy N l p F T) /\
  panics (wlc_isotensional.relative_gibbs_free_energy_per_link N l p F T) /\
  panics (wlc_isotensional_legendre.relative_helmholtz_free_energy N l p F T) /\
  panics (wlc_isotensional_legendre.relative_helmholtz_free_energy_per_link N l p F T) /\
  forall m,
    panics (wlc_isotensional.gibbs_free_energy N l m p F T) /\
    panics (wlc_isotensional.gibbs_free_energy_per_link N l m p F T) /\
    panics (wlc_isotensional_legendre.helmholtz_free_energy N l m p F T) /\
    panics (wlc_isotensional_legendre.helmholtz_free_energy_per_link N l m p F T).
Proof.
  intros N l p T HN Hl HT Hp. assert (PN : 0 < IZR N) by (apply IZR_lt; exact HN). pose proof kB_pos as K.
  assert (L : 0 < IZR N * l) by (apply Rmult_lt_0_compat; assumption).
  assert (Hz : 0 < p / (IZR N * l) <= 4 / 10).
  { split; [apply Rdiv_lt_0_compat; lra|]. apply Rmult_le_reg_r with (IZR N * l); [exact L|]. unfold Rdiv at 1. rewrite Rmult_assoc, Rinv_l by lra. lra. }
  destruct (worm_panics N _ HN Hz) as (v & Hv & F). exists (v * kB * T / l).
  split; [apply Rdiv_lt_0_compat; [apply Rmult_lt_0_compat; [apply Rmult_lt_0_compat|]; assumption | exact Hl]|]. intros G HG.
  assert (E : v < G * l / BOLTZMANN_CONSTANT / T).
  { rewrite B_eq. apply Rmult_lt_reg_r with (kB * T / l); [apply Rdiv_lt_0_compat; [apply Rmult_lt_0_compat; assumption | exact Hl]|].
    replace (G * l / kB / T * (kB * T / l)) with G by (field; repeat split; lra). replace (v * (kB * T / l)) with (v * kB * T / l) by (unfold Rdiv; ring). exact HG. }
  destruct (F _ E) as (A1 & A2 & A3 & A4 & A5 & A6 & A7). unfold panics in *.
  unfold wlc_isotensional.end_to_end_length, wlc_isotensional.end_to_end_length_per_link, wlc_isotensional.relative_gibbs_free_energy, wlc_isotensional.relative_gibbs_free_energy_per_link,
    wlc_isotensional_legendre.relative_helmholtz_free_energy, wlc_isotensional_legendre.relative_helmholtz_free_energy_per_link,
    wlc_isotensional.gibbs_free_energy, wlc_isotensional.gibbs_free_energy_per_link, wlc_isotensional_legendre.helmholtz_free_energy, wlc_isotensional_legendre.helmholtz_free_energy_per_link.
  repeat split;
    lazymatch goal with
    | |- bind (wlc_isotensional.nondimensional_end_to_end_length ?a ?b ?c) _ = _ => step A1 (wlc_isotensional.nondimensional_end_to_end_length a b c)
    | |- bind (wlc_isotensional.nondimensional_end_to_end_length_per_link ?a ?b ?c) _ = _ => step A2 (wlc_isotensional.nondimensional_end_to_end_length_per_link a b c)
    | |- bind (wlc_isotensional.nondimensional_relative_gibbs_free_energy ?a ?b ?c) _ = _ => step A3 (wlc_isotensional.nondimensional_relative_gibbs_free_energy a b c)
    | |- bind (wlc_isotensional.nondimensional_relative_gibbs_free_energy_per_link ?a ?b ?c) _ = _ => step A4 (wlc_isotensional.nondimensional_relative_gibbs_free_energy_per_link a b c)
    | |- bind (wlc_isotensional_legendre.nondimensional_relative_helmholtz_free_energy ?a ?b ?c) _ = _ => step A5 (wlc_isotensional_legendre.nondimensional_relative_helmholtz_free_energy a b c)
    | |- bind (wlc_isotensional_legendre.nondimensional_relative_helmholtz_free_energy_per_link ?a ?b ?c) _ = _ => step A6 (wlc_isotensional_legendre.nondimensional_relative_helmholtz_free_energy_per_link a b c)
    | |- _ => destruct (A7 l m T) as (B1 & B2 & B3 & B4)
    end; try reflexivity;
    lazymatch goal with
    | |- bind (wlc_isotensional.nondimensional_gibbs_free_energy ?a ?b ?c ?d ?e ?f) _ = _ => step B1 (wlc_isotensional.nondimensional_gibbs_free_energy a b c d e f)
    | |- bind (wlc_isotensional.nondimensional_gibbs_free_energy_per_link ?a ?b ?c ?d ?e ?f) _ = _ => step B2 (wlc_isotensional.nondimensional_gibbs_free_energy_per_link a b c d e f)
    | |- bind (wlc_isotensional_legendre.nondimensional_helmholtz_free_energy ?a ?b ?c ?d ?e ?f) _ = _ => step B3 (wlc_isotensional_legendre.nondimensional_helmholtz_free_energy a b c d e f)
    | |- bind (wlc_isotensional_legendre.nondimensional_helmholtz_free_energy_per_link ?a ?b ?c ?d ?e ?f) _ = _ => step B4 (wlc_isotensional_legendre.nondimensional_helmholtz_free_energy_per_link a b c d e f)
    end; reflexivity.
Qed.
