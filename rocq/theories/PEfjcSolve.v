(** The Newton iteration that inverts the reduced asymptotic extension of the
    EFJC model: it halves the residual at every step, so that the cap of one
    hundred steps is never reached. *)
From Coq Require Import Reals Ranalysis5 ZArith List Lra Lia Bool.
From Coquelicot Require Import Coquelicot.
From Verif Require Import Scalar MMath MEfjc SpecNewton SpecLangevin PNewton PLangevin PInvLangevin.
Open Scope R_scope.

(** ** 1 / (1 - L) is convex *)
Lemma nonneg_of_derive : forall (g g' : R -> R), g 0 = 0 -> (forall x, 0 <= x -> is_derive g x (g' x)) ->
  (forall x, 0 <= x -> 0 <= g' x) -> forall x, 0 <= x -> 0 <= g x.
Proof.
  intros g g' H0 D P x Hx. destruct (Req_dec x 0) as [->|N]; [lra|].
  destruct (MVT_cor2 g g' 0 x ltac:(lra)) as (c & E & Hc).
  { intros c Hc. apply is_derive_Reals, D. lra. }
  rewrite H0 in E. pose proof (P c ltac:(lra)) as Q.
  assert (0 <= g' c * (x - 0)) by (apply Rmult_le_pos; lra). lra.
Qed.

(* e^u (a + b u + u^2 / 2) + s e^(-u) + p0 + p1 u + p2 u^2 + p3 u^3 *)
Definition tower (a b s p0 p1 p2 p3 u : R) : R :=
  exp u * (a + b * u + u ^ 2 / 2) + s * exp (- u) + p0 + p1 * u + p2 * u ^ 2 + p3 * u ^ 3.

Lemma tower_derive : forall a b s p0 p1 p2 p3 u,
  is_derive (tower a b s p0 p1 p2 p3) u (tower (a + b) (b + 1) (- s) p1 (2 * p2) (3 * p3) 0 u).
Proof. intros. unfold tower. auto_derive; [trivial|]. field. Qed.

Lemma tower_nonneg : forall a b s p0 p1 p2 p3, a + s + p0 = 0 ->
  (forall u, 0 <= u -> 0 <= tower (a + b) (b + 1) (- s) p1 (2 * p2) (3 * p3) 0 u) ->
  forall u, 0 <= u -> 0 <= tower a b s p0 p1 p2 p3 u.
Proof.
  intros a b s p0 p1 p2 p3 E H. apply (nonneg_of_derive _ (tower (a + b) (b + 1) (- s) p1 (2 * p2) (3 * p3) 0)).
  - unfold tower. rewrite Ropp_0, exp_0. lra.
  - intros u _. apply tower_derive.
  - exact H.
Qed.

Lemma tower_start : forall u, 0 <= u -> 0 <= tower 1 (-2) 1 (-2) 2 (1 / 2) (1 / 2) u.
Proof.
  do 6 (apply tower_nonneg; [lra|]). intros u Hu. unfold tower.
  pose proof (exp_pos u). pose proof (exp_pos (- u)).
  assert (0 <= exp u * (4 + 4 * u + u ^ 2 / 2)).
  { apply Rmult_le_pos; [lra|]. assert (0 <= u ^ 2) by apply pow2_ge_0. lra. }
  match goal with |- 0 <= ?e => replace e with (exp u * (4 + 4 * u + u ^ 2 / 2) + exp (- u)) by field end. lra.
Qed.

Lemma convex_key : forall x, 0 <= x -> 0 <= exp (- x) * (x ^ 3 + sinh x ^ 2) + x * (x * cosh x - 2 * sinh x).
Proof.
  intros x Hx. pose proof (tower_start (2 * x) ltac:(lra)) as T. unfold tower in T.
  assert (E : exp (2 * x) = exp x * exp x) by (rewrite <- exp_plus; f_equal; ring).
  assert (E' : exp (- (2 * x)) = exp (- x) * exp (- x)) by (rewrite <- exp_plus; f_equal; ring).
  assert (I : exp x * exp (- x) = 1) by (rewrite <- exp_plus, Rplus_opp_r; apply exp_0).
  rewrite E, E' in T. pose proof (exp_pos x) as P. pose proof (exp_pos (- x)) as Q. unfold sinh, cosh.
  set (a := exp x) in *. set (b := exp (- x)) in *. clearbody a b.
  apply Rmult_le_reg_l with (4 * a); [lra|]. rewrite Rmult_0_r.
  match goal with |- 0 <= ?e =>
    replace e with (a * a * (1 + (-2) * (2 * x) + (2 * x) ^ 2 / 2) + 1 * (b * b) + - 2 + 2 * (2 * x) + 1 / 2 * (2 * x) ^ 2 + 1 / 2 * (2 * x) ^ 3); [exact T|] end.
  replace (4 * a * (b * (x ^ 3 + ((a - b) / 2) ^ 2) + x * (x * ((a + b) / 2) - 2 * ((a - b) / 2))))
    with (4 * (a * b) * x ^ 3 + a * b * (a * a - 2 * (a * b) + b * b) + 2 * x ^ 2 * (a * a + a * b) - 4 * x * (a * a - a * b)) by field.
  rewrite I. field.
Qed.

Definition ddlangevin (x : R) : R := - 2 / x ^ 3 + 2 * cosh x / sinh x ^ 3.

Lemma dlangevin_derive : forall x, 0 < x -> is_derive dlangevin x (ddlangevin x).
Proof.
  intros x Hx. pose proof (sinh_pos x Hx) as S. unfold dlangevin, ddlangevin. evar_last.
  - apply (is_derive_minus (fun x => 1 / x ^ 2) (fun x => 1 / sinh x ^ 2)).
    + auto_derive; [nra|reflexivity].
    + apply (is_derive_comp (fun u => 1 / u ^ 2) sinh x).
      * auto_derive; [nra|reflexivity].
      * apply is_derive_sinh.
  - unfold minus, plus, opp, scal; cbn. unfold mult; cbn. field. split; lra.
Qed.

Lemma convex_sign : forall x, 0 < x -> 0 <= ddlangevin x * (1 - langevin x) + 2 * dlangevin x ^ 2.
Proof.
  intros x Hx. pose proof (sinh_pos x Hx) as S. pose proof (convex_key x ltac:(lra)) as K.
  assert (C : exp (- x) = cosh x - sinh x) by (unfold cosh, sinh; field).
  assert (H : cosh x ^ 2 = 1 + sinh x ^ 2).
  { unfold cosh, sinh. assert (I : exp x * exp (- x) = 1) by (rewrite <- exp_plus, Rplus_opp_r; apply exp_0).
    set (a := exp x) in *. set (b := exp (- x)) in *. clearbody a b.
    replace (((a + b) / 2) ^ 2) with (a * b + ((a - b) / 2) ^ 2) by field. lra. }
  rewrite C in K. unfold ddlangevin, langevin, dlangevin. set (c := cosh x) in *. set (s := sinh x) in *. clearbody c s.
  assert (P : 0 < x ^ 3 * s ^ 3) by (apply Rmult_lt_0_compat; apply pow_lt; assumption).
  apply Rmult_le_reg_l with (x ^ 3 * s ^ 3); [exact P|]. rewrite Rmult_0_r.
  replace (x ^ 3 * s ^ 3 * ((-2 / x ^ 3 + 2 * c / s ^ 3) * (1 - (c / s - 1 / x)) + 2 * (1 / x ^ 2 - 1 / s ^ 2) ^ 2))
    with (2 * ((c - s) * s ^ 2 + x ^ 3 * c + x ^ 2 * c - 2 * x * s - x ^ 3 * (c ^ 2 - 1) / s)) by (field; lra).
  rewrite H. replace (x ^ 3 * (1 + s ^ 2 - 1) / s) with (x ^ 3 * s) by (field; lra).
  replace (2 * ((c - s) * s ^ 2 + x ^ 3 * c + x ^ 2 * c - 2 * x * s - x ^ 3 * s))
    with (2 * ((c - s) * (x ^ 3 + s ^ 2) + x * (x * c - 2 * s))) by ring. lra.
Qed.

Definition phi (x : R) : R := 1 / (1 - langevin x).
Definition dphi (x : R) : R := dlangevin x / (1 - langevin x) ^ 2.

Lemma gap_pos : forall x, 0 < x -> 0 < 1 - langevin x.
Proof.
  intros x Hx. pose proof (langevin_upper_1 x Hx).
  assert (x / (1 + x) < 1); [|lra]. apply Rmult_lt_reg_r with (1 + x); [lra|]. field_simplify; lra.
Qed.

Lemma phi_derive : forall x, 0 < x -> is_derive phi x (dphi x).
Proof.
  intros x Hx. pose proof (gap_pos x Hx) as G. unfold phi, dphi. evar_last.
  - apply (is_derive_comp (fun u => 1 / (1 - u)) langevin x).
    + auto_derive; [|reflexivity]. lra.
    + apply is_derive_langevin, Hx.
  - unfold scal; cbn. unfold mult; cbn. field. lra.
Qed.

Lemma dphi_derive : forall x, 0 < x ->
  is_derive dphi x ((ddlangevin x * (1 - langevin x) + 2 * dlangevin x ^ 2) / (1 - langevin x) ^ 3).
Proof.
  intros x Hx. pose proof (gap_pos x Hx) as G. unfold dphi. evar_last.
  - apply (is_derive_mult dlangevin (fun x => / (1 - langevin x) ^ 2)); [apply dlangevin_derive, Hx | | intros; apply Rmult_comm].
    apply (is_derive_comp (fun u => / (1 - u) ^ 2) langevin x).
    + auto_derive; [nra|reflexivity].
    + apply is_derive_langevin, Hx.
  - unfold plus, scal; cbn. unfold mult; cbn. field. lra.
Qed.

Lemma dphi_increasing : forall s t, 0 < s <= t -> dphi s <= dphi t.
Proof.
  intros s t [Hs Ht]. destruct (Req_dec s t) as [->|N]; [lra|].
  destruct (MVT_cor2 dphi (fun x => (ddlangevin x * (1 - langevin x) + 2 * dlangevin x ^ 2) / (1 - langevin x) ^ 3) s t ltac:(lra)) as (c & E & Hc).
  { intros c Hc. apply is_derive_Reals, dphi_derive. lra. }
  assert (Q : 0 <= (ddlangevin c * (1 - langevin c) + 2 * dlangevin c ^ 2) / (1 - langevin c) ^ 3).
  { apply Rmult_le_pos; [apply convex_sign; lra|]. left. apply Rinv_0_lt_compat, pow_lt, gap_pos. lra. }
  apply Rminus_le. apply Ropp_le_cancel. rewrite Ropp_0, Ropp_minus_distr, E. apply Rmult_le_pos; lra.
Qed.

Lemma phi_tangent : forall x h, 0 < x -> 0 <= h -> phi x + h * dphi x <= phi (x + h).
Proof.
  intros x h Hx Hh. destruct (Req_dec h 0) as [->|N]; [rewrite Rplus_0_r; lra|].
  destruct (MVT_cor2 phi dphi x (x + h) ltac:(lra)) as (c & E & Hc).
  { intros c Hc. apply is_derive_Reals, phi_derive. lra. }
  pose proof (dphi_increasing x c ltac:(lra)). replace (x + h - x) with h in E by ring.
  assert (dphi x * h <= dphi c * h) by (apply Rmult_le_compat_r; lra). lra.
Qed.

(** A Newton step of length at most the gap up to full extension gains half of what its tangent promises. *)
Lemma half_gain : forall x h, 0 < x -> 0 <= h -> h * dlangevin x <= 1 - langevin x ->
  h * dlangevin x / 2 <= langevin (x + h) - langevin x.
Proof.
  intros x h Hx Hh B. pose proof (phi_tangent x h Hx Hh) as T. unfold phi, dphi in T.
  pose proof (gap_pos x Hx) as G. pose proof (gap_pos (x + h) ltac:(lra)) as G'. pose proof (dlangevin_pos x Hx) as P.
  set (g := 1 - langevin x) in *. set (g' := 1 - langevin (x + h)) in *. set (d := dlangevin x) in *.
  assert (Q : 0 <= h * d) by (apply Rmult_le_pos; lra).
  assert (K : g' * (g + h * d) <= g * g).
  { apply Rmult_le_compat_l with (r := g' * (g * g)) in T; [|apply Rmult_le_pos; [lra | apply Rmult_le_pos; lra]].
    replace (g' * (g * g) * (1 / g')) with (g * g) in T by (field; lra).
    replace (g' * (g * g) * (1 / g + h * (d / g ^ 2))) with (g' * (g + h * d)) in T by (field; lra). exact T. }
  replace (langevin (x + h) - langevin x) with (g - g') by (unfold g, g'; ring).
  clearbody g g' d. set (q := h * d) in *. clearbody q. clear T.
  (* g' <= g^2 / (g + q), g - g' >= g q / (g + q) >= q / 2 *)
  apply Rmult_le_reg_r with (g + q); [lra|]. nra.
Qed.

(** ** The extension and its slope *)
Section Chain.
Variable kap : R.
Hypothesis Hk : 0 < kap.

Definition ext (x : R) : R := langevin x + x / kap.
Definition slope (x : R) : R := dlangevin x + 1 / kap.

Lemma ik_pos : 0 < / kap.
Proof using Hk. apply Rinv_0_lt_compat, Hk. Qed.

Lemma ext_concave : concave_increasing (fun x => 0 < x) ext slope.
Proof using Hk.
  pose proof ik_pos as I. destruct langevin_concave as (A & B & C). split; [exact A|]. split.
  - intros x Hx. unfold slope. pose proof (B x Hx). unfold Rdiv. lra.
  - intros x z Hx Hz. unfold ext, slope. pose proof (C x z Hx Hz). unfold Rdiv. lra.
Qed.

Lemma ext_pos : forall x, 0 < x -> 0 < ext x.
Proof using Hk.
  intros x Hx. unfold ext. pose proof (langevin_lower_3 x Hx). pose proof ik_pos as I.
  assert (0 < x / (3 + x)) by (apply Rdiv_lt_0_compat; lra).
  assert (0 < x / kap) by (apply Rdiv_lt_0_compat; lra). lra.
Qed.

Lemma ext_derive : forall x, 0 < x -> is_derive ext x (slope x).
Proof using Hk.
  intros x Hx. unfold ext, slope. apply (is_derive_plus langevin (fun x => x / kap)); [apply is_derive_langevin, Hx|].
  auto_derive; [trivial | field; lra].
Qed.

Lemma ext_root : forall y, 0 < y -> exists r, 0 < r /\ ext r = y.
Proof using Hk.
  intros y Hy. pose proof ik_pos as I. set (a := y / (/ 3 + / kap)). set (b := kap * y).
  assert (A0 : 0 < a) by (apply Rdiv_lt_0_compat; lra).
  assert (Ea : a * / 3 + a * / kap = y) by (unfold a; field; split; lra).
  assert (Eb : b / kap = y) by (unfold b; field; lra).
  assert (AB : a < b). { apply Rmult_lt_reg_r with (/ kap); [exact I|]. unfold Rdiv in Eb. lra. }
  destruct (IVT_interv (fun x => ext x - y) a b) as (r & Hr & E).
  - intros x Hx. apply continuity_pt_minus; [|apply continuity_pt_const; intros u v; reflexivity].
    apply continuity_pt_filterlim. apply (ex_derive_continuous (V := R_NormedModule)). eexists.
    apply ext_derive. lra.
  - exact AB.
  - unfold ext. pose proof (langevin_upper_3 a A0). unfold Rdiv in *. lra.
  - unfold ext. rewrite Eb. pose proof (langevin_lower_3 b ltac:(lra)).
    assert (0 < b / (3 + b)) by (apply Rdiv_lt_0_compat; lra). lra.
  - exists r. split; lra.
Qed.

Section Solve.
Variables y r : R.
Hypothesis Hy : 0 < y.
Hypothesis Hr : 0 < r.
Hypothesis Er : ext r = y.

Let step := newton_step y ext slope.
Let iter := newton_iterate y ext slope.

Lemma step_halves : forall x, 0 < x <= r -> y - ext x <= 1 - langevin x ->
  x <= step x <= r /\ 0 <= y - ext (step x) <= (y - ext x) / 2.
Proof using Hk Hr Er.
  intros x Hx B. pose proof ext_concave as HC. pose proof ik_pos as I.
  destruct (concave_iterates _ ext slope y r HC Hr Er 1 x ltac:(lra) ltac:(lra)) as (L & _ & N).
  change (newton_iterate y ext slope 1 x) with (step x) in *.
  split; [exact L|]. split; [lra|].
  set (h := (y - ext x) / slope x). assert (Es : step x = x + h) by reflexivity.
  assert (S : 0 < slope x) by (destruct HC as (_ & P & _); apply P; lra).
  assert (Eh : h * slope x = y - ext x) by (unfold h; field; lra).
  assert (Hh : 0 <= h) by lra. rewrite Es. unfold ext at 1.
  assert (dl : h * dlangevin x = h * slope x - h / kap) by (unfold slope; field; lra).
  assert (0 <= h / kap) by (apply Rmult_le_pos; [lra | left; exact I]).
  pose proof (half_gain x h ltac:(lra) Hh ltac:(lra)) as G. unfold ext in *.
  replace ((x + h) / kap) with (x / kap + h / kap) by (field; lra). lra.
Qed.

(** The bound on the residual is kept along the way. *)
Lemma gap_kept : forall x, 0 < x <= r -> y - ext x <= 1 - langevin x -> y - ext (step x) <= 1 - langevin (step x).
Proof using Hk Hr Er.
  intros x Hx B. destruct (step_halves x Hx B) as (L & _). unfold ext in *.
  assert (x / kap <= step x / kap). { unfold Rdiv. apply Rmult_le_compat_r; [left; exact ik_pos | lra]. } lra.
Qed.

Lemma iterates_halve : forall k x, 0 < x <= r -> y - ext x <= 1 - langevin x ->
  x <= iter k x <= r /\ y - ext (iter k x) <= 1 - langevin (iter k x) /\ 0 <= y - ext (iter k x) <= (/ 2) ^ k * (y - ext x).
Proof using Hk Hr Er.
  intros k x Hx B. induction k as [|k (A & G & N)].
  - change (iter 0 x) with x. assert (ext x <= y).
    { rewrite <- Er. apply (concave_increasing_le _ ext slope ext_concave); lra. } simpl. lra.
  - change (iter (S k) x) with (step (iter k x)).
    destruct (step_halves (iter k x) ltac:(lra) G) as (L & M). pose proof (gap_kept (iter k x) ltac:(lra) G).
    split; [lra|]. split; [assumption|]. simpl. lra.
Qed.

Lemma residual_R : forall x, 0 <= y - ext x -> relative_residual y ext x = (y - ext x) / y.
Proof using Hy.
  intros x Hx. change (Rabs ((y - ext x) / y) = (y - ext x) / y). apply Rabs_pos_eq.
  apply Rmult_le_pos; [exact Hx | left; apply Rinv_0_lt_compat; lra].
Qed.

Lemma small_residual : forall x, (y - ext x) / y <= / 1000000 -> y - ext x <= / 1000000 * y.
Proof using Hy.
  intros x H. apply Rmult_le_compat_r with (r := y) in H; [|lra]. replace ((y - ext x) / y * y) with (y - ext x) in H by (field; lra). exact H.
Qed.

(** Whatever the first guess, if its successor lies below the root. *)
Lemma run : forall g, 0 < g ->
  0 < step g <= r -> y - ext (step g) <= 1 - langevin (step g) ->
  (Rabs ((y - ext g) / y) <= / 1000000 -> y - ext (step g) <= 2 / 1000000 * y) ->
  exists k, math.inverse_newton_raphson y ext slope g (/ 1000000) 100 = iter k g /\ (0 < k < 100)%nat /\
    0 < iter k g <= r /\ 0 <= y - ext (iter k g) <= 2 / 1000000 * y.
Proof using Hk Hr Er Hy.
  intros g Hg S1 B1 First.
  destruct (newton_result y ext slope g (/ 1000000) 100) as (k & E & Lk & K0 & Kj & Kx). exists k. split; [exact E|].
  assert (It : forall j, iter (S j) g = iter j (step g)) by (intro j; apply iter_succ_r).
  assert (D1 : 0 <= y - ext (step g) <= y).
  { pose proof (ext_pos (step g) ltac:(lra)). split; [|lra].
    assert (ext (step g) <= ext r); [|lra]. apply (concave_increasing_le _ ext slope ext_concave); lra. }
  assert (K100 : (k < 100)%nat).
  { apply Nat.nle_gt. intro K. specialize (Kj 32%nat ltac:(lia)). apply Rltb_true in Kj.
    replace (32 - 1)%nat with (S 30) in Kj by lia. change (newton_iterate y ext slope (S 30) g) with (iter (S 30) g) in Kj. rewrite It in Kj.
    destruct (iterates_halve 30 (step g) S1 B1) as (_ & _ & N & U).
    rewrite residual_R in Kj by exact N.
    assert (X : (y - ext (iter 30 (step g))) / y <= / 1000000); [|lra].
    apply Rmult_le_reg_r with y; [lra|]. unfold Rdiv. rewrite Rmult_assoc, Rinv_l by lra.
    assert (P : (/ 2) ^ 30 <= / 1000000) by (simpl; lra).
    assert ((/ 2) ^ 30 * (y - ext (step g)) <= / 1000000 * y); [|lra].
    apply Rmult_le_compat; [apply pow_le; lra | lra | exact P | lra]. }
  destruct k as [|k].
  { exfalso. specialize (Kx ltac:(lia)). apply Rltb_false in Kx. change (sdec 1 0 : R) with 1 in Kx. lra. }
  split; [lia|]. specialize (Kx ltac:(lia)). apply Rltb_false in Kx. change (newton_iterate y ext slope k g) with (iter k g) in Kx.
  rewrite It. destruct (iterates_halve k (step g) S1 B1) as (A & _ & N & U). split; [lra|]. split; [exact N|].
  destruct k as [|k]; [apply First, Kx|].
  rewrite It in Kx. destruct (iterates_halve k (step g) S1 B1) as (A' & G' & N' & _).
  rewrite residual_R in Kx by exact N'. apply small_residual in Kx.
  change (iter (S k) (step g)) with (step (iter k (step g))).
  destruct (step_halves (iter k (step g)) ltac:(lra) G') as (_ & M). lra.
Qed.

(** *** From the inverse Langevin function *)
Lemma langevin_start : y < 1 -> let g := math.inverse_langevin y in
  0 < g /\ 0 <= y - langevin g <= / 1000000 * y.
Proof using Hy.
  intros H1 g. pose proof (inverse_langevin_accuracy y ltac:(lra)) as (P & A). fold g in P, A.
  destruct (Rle_dec y (1 / 1000)) as [S|S].
  - assert (Eg : g = 3 * y). { unfold g. rewrite inverse_langevin_R. destruct (Rle_dec y (1 / 1000)); [reflexivity | contradiction]. }
    split; [exact P|]. pose proof (langevin_upper_3 g P) as U. rewrite Rabs_left1 in A by lra. lra.
  - destruct (newton_inverse_langevin y ltac:(lra)) as (s & k & _ & _ & _ & _ & _ & B). split; assumption.
Qed.

Lemma from_langevin : y < 1 -> let g := math.inverse_langevin y in
  0 < g /\ 0 < step g <= r /\ y - ext (step g) <= 1 - langevin (step g) /\
  (Rabs ((y - ext g) / y) <= / 1000000 -> y - ext (step g) <= 2 / 1000000 * y).
Proof using Hk Hr Er Hy.
  intros H1 g. pose proof (langevin_start H1) as (G & A). fold g in G, A. pose proof ik_pos as I. pose proof ext_concave as HC.
  assert (Sg : 0 < slope g) by (destruct HC as (_ & P & _); apply P; lra).
  assert (Dg : 0 < dlangevin g) by (apply dlangevin_pos; exact G).
  assert (Es : step g = (g * dlangevin g + (y - langevin g)) / slope g).
  { change (step g) with (g + (y - ext g) / slope g). unfold ext. apply Rmult_eq_reg_r with (slope g); [|lra].
    unfold Rdiv. rewrite Rmult_plus_distr_r, !Rmult_assoc, Rinv_l by lra. unfold slope, Rdiv. ring. }
  assert (P1 : 0 < step g).
  { rewrite Es. apply Rdiv_lt_0_compat; [|exact Sg]. assert (0 < g * dlangevin g) by (apply Rmult_lt_0_compat; assumption). lra. }
  assert (L1 : step g <= r) by (apply (concave_step_le _ ext slope y r HC Hr Er); exact G).
  split; [exact G|]. split; [lra|]. split.
  { unfold ext. assert (0 < step g / kap) by (apply Rdiv_lt_0_compat; lra). lra. }
  intro First.
  assert (R1 : Rabs (y - ext g) <= / 1000000 * y).
  { unfold Rdiv in First. rewrite Rabs_mult, (Rabs_pos_eq (/ y)) in First by (left; apply Rinv_0_lt_compat; lra).
    apply Rmult_le_reg_r with (/ y); [apply Rinv_0_lt_compat; lra|]. replace (/ 1000000 * y * / y) with (/ 1000000) by (field; lra). exact First. }
  destruct (Rle_dec (ext g) y) as [Lo|Hi].
  - (* below the root *)
    assert (Gr : g <= r).
    { destruct (Rle_dec g r) as [Q|Q]; [exact Q|]. exfalso.
      destruct HC as (_ & P & T). pose proof (T g r G Hr). pose proof (P g G).
      assert (slope g * (r - g) < 0); [|lra]. assert (0 < slope g * (g - r)) by (apply Rmult_lt_0_compat; lra). lra. }
    destruct (step_halves g ltac:(lra)) as (_ & M).
    { unfold ext. assert (0 < g / kap) by (apply Rdiv_lt_0_compat; lra). lra. }
    rewrite Rabs_pos_eq in R1 by lra. lra.
  - rewrite Rabs_left1 in R1 by lra.
    (* the step goes down *)
    set (x1 := step g) in *.
    assert (D : (g - x1) * slope g = ext g - y).
    { replace x1 with (g + (y - ext g) / slope g) by reflexivity. field. lra. }
    assert (Dn : 0 < g - x1).
    { apply Rmult_lt_reg_r with (slope g); [exact Sg|]. lra. }
    pose proof (langevin_increment x1 g ltac:(lra)) as (_ & Inc).
    assert (Q : dlangevin g * g ^ 2 * (1 / x1 - 1 / g) <= g / kap).
    { (* x1 >= g L' / (L' + 1/kap) *)
      assert (Lx : g * dlangevin g <= x1 * slope g). { rewrite Es. unfold Rdiv. rewrite Rmult_assoc, Rinv_l by lra. lra. }
      replace (dlangevin g * g ^ 2 * (1 / x1 - 1 / g)) with (g * (dlangevin g * (g - x1)) / x1) by (field; lra).
      apply Rmult_le_reg_r with x1; [exact P1|]. unfold Rdiv at 1. rewrite Rmult_assoc, Rinv_l, Rmult_1_r by lra.
      replace (g / kap * x1) with (g * (x1 / kap)) by (unfold Rdiv; ring). apply Rmult_le_compat_l; [lra|].
      unfold slope in Lx. unfold Rdiv in *. lra. }
    assert (B : (g - x1) / kap <= ext g - y).
    { rewrite <- D. unfold slope, Rdiv. rewrite Rmult_plus_distr_l, Rmult_1_l.
      assert (0 < (g - x1) * dlangevin g) by (apply Rmult_lt_0_compat; assumption). lra. }
    unfold ext in *. replace ((g - x1) / kap) with (g / kap - x1 / kap) in B by (unfold Rdiv; ring). lra.
Qed.

(** *** From the stretch of a straight chain *)
Lemma from_straight : 1 < y -> let g := kap * (y - 1) in
  0 < g /\ 0 < step g <= r /\ y - ext (step g) <= 1 - langevin (step g) /\
  (Rabs ((y - ext g) / y) <= / 1000000 -> y - ext (step g) <= 2 / 1000000 * y).
Proof using Hk Hr Er Hy.
  intros H1 g. assert (G : 0 < g) by (apply Rmult_lt_0_compat; lra).
  assert (Eg : ext g = langevin g + (y - 1)) by (unfold ext, g; field; lra).
  pose proof (gap_pos g G) as P. assert (B : y - ext g <= 1 - langevin g) by lra.
  assert (Gr : g <= r).
  { destruct (Rle_dec g r) as [Q|Q]; [exact Q|]. exfalso.
    pose proof ext_concave as (_ & S & T). pose proof (T g r G Hr). pose proof (S g G).
    assert (0 < slope g * (g - r)) by (apply Rmult_lt_0_compat; lra). lra. }
  destruct (step_halves g ltac:(lra) B) as (L & M). split; [exact G|]. split; [lra|]. split; [apply gap_kept; lra|].
  intro First. assert (R1 : Rabs (y - ext g) <= / 1000000 * y).
  { unfold Rdiv in First. rewrite Rabs_mult, (Rabs_pos_eq (/ y)) in First by (left; apply Rinv_0_lt_compat; lra).
    apply Rmult_le_reg_r with (/ y); [apply Rinv_0_lt_compat; lra|]. replace (/ 1000000 * y * / y) with (/ 1000000) by (field; lra). exact First. }
  rewrite Rabs_pos_eq in R1 by lra. lra.
Qed.
End Solve.

Lemma force_R : forall y, efjc_isometric_asymptotic_reduced_legendre.nondimensional_force kap y
  = math.inverse_newton_raphson y ext slope (if Rlt_dec y 1 then math.inverse_langevin y else kap * (y - 1)) (/ 1000000) 100.
Proof using Type.
  intro y. unfold efjc_isometric_asymptotic_reduced_legendre.nondimensional_force. cbv zeta.
  change (y <? sdec 1 0)%S with (Rltb y 1). rewrite <- tol_R.
  set (g := if Rltb y 1 then _ else _).
  assert (Eg : g = if Rlt_dec y 1 then math.inverse_langevin y else kap * (y - 1)) by (unfold g, Rltb; destruct (Rlt_dec y 1); reflexivity).
  rewrite <- Eg.
  destruct (@newton_calls R R_scalar y ext slope g (sdec 1 6) 100) as (pts & _ & H). apply H. intros p _.
  pose proof langevin_f_R as F. pose proof langevin_fp_R as F'.
  apply (f_equal (fun f => f p)) in F. apply (f_equal (fun f => f p)) in F'.
  unfold math.langevin_f in F. unfold math.langevin_fp in F'. unfold ext, slope. rewrite <- F, <- F'. split; reflexivity.
Qed.

Theorem solved : forall y, 0 < y -> y <> 1 ->
  let guess := if Rlt_dec y 1 then math.inverse_langevin y else kap * (y - 1) in
  exists r k, 0 < r /\ ext r = y /\
    efjc_isometric_asymptotic_reduced_legendre.nondimensional_force kap y = newton_iterate y ext slope k guess /\ (0 < k < 100)%nat /\
    0 < newton_iterate y ext slope k guess <= r /\ 0 <= y - ext (newton_iterate y ext slope k guess) <= 2 / 1000000 * y.
Proof using Hk.
  intros y Hy N guess. destruct (ext_root y Hy) as (r & Hr & Er). rewrite force_R. fold guess.
  assert (H : exists k, math.inverse_newton_raphson y ext slope guess (/ 1000000) 100 = newton_iterate y ext slope k guess /\ (0 < k < 100)%nat /\
    0 < newton_iterate y ext slope k guess <= r /\ 0 <= y - ext (newton_iterate y ext slope k guess) <= 2 / 1000000 * y).
  { unfold guess. destruct (Rlt_dec y 1) as [L|L].
    - destruct (from_langevin y r Hy Hr Er L) as (G & S & B & F). exact (run y r Hy Hr Er _ G S B F).
    - destruct (from_straight y r Hy Hr Er ltac:(lra)) as (G & S & B & F). exact (run y r Hy Hr Er _ G S B F). }
  destruct H as (k & H). exists r, k. tauto.
Qed.
End Chain.
