(** Stretching the freely jointed chain costs free energy. *)
From Coq Require Import Reals ZArith Lra Lia Factorial.
From Coquelicot Require Import Coquelicot.
From Verif Require Import Scalar MConst MTreloar MFjc SpecThermo SpecWalk SpecIsometric SpecBell PBase PQuad PIrwinHall PWalk PTreloar PIsometric PBell.
Open Scope R_scope.

(** ** The walk *)
Lemma walk_falls : forall n a b, (2 <= n)%nat -> n <> 3%nat -> 0 < a -> a < b -> a < INR n -> walk_density n b < walk_density n a.
Proof.
  intros n a b Hn N3 Ha Hab HN. unfold walk_density. rewrite !walk_ih by lra. pose proof PI_RGT_0.
  assert (X : h (n - 2) b * a < h (n - 2) a * b).
  { destruct (Nat.eq_dec n 2) as [->|N2].
    - assert (E : forall s, 0 < s -> h 0 s = if Rlt_dec s 2 then 1 else 0).
      { intros s Hs. unfold h. cbn [ih fact]. unfold pp. replace (INR 2) with 2 by (simpl; ring).
        repeat match goal with |- context [Rlt_dec ?x ?y] => destruct (Rlt_dec x y) end; try (exfalso; lra); simpl; field. }
      replace (INR 2) with 2 in HN by (simpl; ring). cbn [Nat.sub]. rewrite !E by lra. destruct (Rlt_dec b 2), (Rlt_dec a 2); lra.
    - apply all_strict; [lia | lra | lra |]. replace (S (S (n - 2))) with n by lia. exact HN. }
  apply Rmult_lt_reg_r with (8 * PI * (a * b)); [apply Rmult_lt_0_compat; [|apply Rmult_lt_0_compat]; lra|].
  match goal with |- ?l < ?r => replace l with (h (n - 2) b * a) by (field; lra); replace r with (h (n - 2) a * b) by (field; lra) end. exact X.
Qed.

Lemma walk_three : forall a b, 0 < a -> a < b -> a < 3 ->
  walk_density 3 b <= walk_density 3 a /\ (b <= 1 -> walk_density 3 b = walk_density 3 a) /\ (1 < b -> walk_density 3 b < walk_density 3 a).
Proof.
  intros a b Ha Hab HN. unfold walk_density. cbn [Nat.sub]. rewrite !walk_ih by lra. rewrite !h_1 by lra. pose proof PI_RGT_0.
  assert (E : forall x s, 0 < s -> x / (8 * PI * s) = / (8 * PI) * (x / s)) by (intros; field; lra). rewrite !E by lra.
  assert (Q : 0 < / (8 * PI)) by (apply Rinv_0_lt_compat; lra).
  set (va := (if Rle_dec a 1 then a else if Rle_dec a 3 then (3 - a) / 2 else 0)).
  set (vb := (if Rle_dec b 1 then b else if Rle_dec b 3 then (3 - b) / 2 else 0)).
  assert (A : va / a <= 1 /\ (a <= 1 -> va / a = 1) /\ (1 < a -> va / a = 3 / 2 * / a - 1 / 2)).
  { unfold va. destruct (Rle_dec a 1); [|destruct (Rle_dec a 3); [|lra]].
    - replace (a / a) with 1 by (field; lra). repeat split; lra.
    - replace ((3 - a) / 2 / a) with (3 / 2 * / a - 1 / 2) by (field; lra). assert (/ a <= 1) by (rewrite <- Rinv_1; apply Rinv_le_contravar; lra). repeat split; lra. }
  assert (B : (b <= 1 -> vb / b = 1) /\ (1 < b -> vb / b < 1 /\ (1 < a -> vb / b < 3 / 2 * / a - 1 / 2))).
  { unfold vb. assert (I : / b < / a) by (apply Rinv_lt_contravar; [apply Rmult_lt_0_compat; lra | lra]). destruct (Rle_dec b 1); [|destruct (Rle_dec b 3)].
    - replace (b / b) with 1 by (field; lra). repeat split; lra.
    - replace ((3 - b) / 2 / b) with (3 / 2 * / b - 1 / 2) by (field; lra). assert (/ b < 1) by (rewrite <- Rinv_1; apply Rinv_lt_contravar; lra). repeat split; lra.
    - replace (0 / b) with 0 by (field; lra). assert (/ 3 < / a) by (apply Rinv_lt_contravar; lra). repeat split; lra. }
  destruct A as (A1 & A2 & A3), B as (B1 & B2).
  repeat split; intros.
  - apply Rmult_le_compat_l; [lra|]. destruct (Rle_dec b 1) as [L|L]; [rewrite B1, A2; lra|]. destruct (B2 ltac:(lra)) as (B3 & B4).
    destruct (Rle_dec a 1) as [La|La]; [rewrite A2; lra | rewrite A3 by lra; specialize (B4 ltac:(lra)); lra].
  - rewrite B1, A2 by lra. reflexivity.
  - apply Rmult_lt_compat_l; [lra|]. destruct (B2 ltac:(lra)) as (B3 & B4).
    destruct (Rle_dec a 1) as [La|La]; [rewrite A2; lra | rewrite A3 by lra; apply B4; lra].
Qed.

Lemma P_falls : forall n a b, (2 <= n)%nat -> n <> 3%nat -> 0 < a -> a < b -> b < 1 -> P n b < P n a.
Proof.
  intros n a b Hn N3 Ha Hab Hb. assert (0 < INR n) by (apply lt_0_INR; lia). rewrite !P_walk by (lia || lra).
  apply Rmult_lt_compat_l; [apply pow_lt; assumption|]. apply walk_falls; try assumption; nra.
Qed.

(** ** The force *)
Lemma F_eq : forall n g, (3 <= n)%nat -> 0 < g < 1 -> F n g = (1 / g + INR n / 2 * (ih (n - 3) n (arg n g) / ih (n - 2) n (arg n g))) / INR n.
Proof.
  intros n g Hn Hg. pose proof (ih_arg_pos n g ltac:(lia) Hg) as Hpos. unfold F, S_sum. assert (PN : 0 < INR n) by (apply lt_0_INR; lia).
  pose proof (INR_fact_neq_0 (n - 3)) as F3.
  replace (fact (n - 2)) with ((n - 2) * fact (n - 3))%nat by (replace (n - 2)%nat with (S (n - 3)) by lia; reflexivity).
  rewrite mult_INR, (minus_INR n 2) by lia. replace (INR 2) with 2 by (simpl; ring).
  replace (INR n ^ (n - 2)) with (INR n * INR n ^ (n - 3)) by (replace (n - 2)%nat with (S (n - 3)) by lia; reflexivity).
  assert (INR n ^ (n - 3) <> 0) by (apply pow_nonzero; lra).
  assert (2 < INR n) by (replace 2 with (INR 2) by (simpl; ring); apply lt_INR; lia).
  field. repeat split; lra.
Qed.

Lemma F_positive : forall n g, (2 <= n)%nat -> n <> 3%nat -> 0 < g < 1 -> 0 < F n g.
Proof.
  intros n g Hn N3 Hg. assert (PN : 0 < INR n) by (apply lt_0_INR; lia). destruct (Nat.eq_dec n 2) as [->|N2].
  - unfold F. replace (INR 2 / 2 - 1) with 0 by (simpl; field). replace (0 * S_sum 2 (2 - 3) g / S_sum 2 (2 - 2) g) with 0 by (unfold Rdiv; ring). rewrite Rplus_0_r. apply Rdiv_lt_0_compat; [|lra]. apply Rdiv_lt_0_compat; lra.
  - rewrite F_eq by (lia || lra). pose proof (ih_arg_pos n g ltac:(lia) Hg) as Hpos.
    destruct (all_negative (n - 2) (INR n * g)) as (_ & D).
    + lia.
    + replace (S (S (n - 2))) with n by lia. split; [apply Rmult_lt_0_compat; lra | nra].
    + unfold h in D. replace (S (S (n - 2))) with n in D by lia. replace (pred (n - 2)) with (n - 3)%nat in D by lia.
      replace ((INR n - INR n * g) / 2) with (arg n g) in D by (unfold arg; field).
      apply Rdiv_lt_0_compat; [|exact PN].
      replace (1 / g + INR n / 2 * (ih (n - 3) n (arg n g) / ih (n - 2) n (arg n g)))
        with ((ih (n - 2) n (arg n g) + INR n * g / 2 * ih (n - 3) n (arg n g)) / (g * ih (n - 2) n (arg n g))) by (field; lra).
      apply Rdiv_lt_0_compat; [lra|]. apply Rmult_lt_0_compat; lra.
Qed.

Lemma F_three : forall g, 0 < g < 1 -> (g < 1 / 3 -> F 3 g = 0) /\ (1 / 3 <= g -> 0 < F 3 g).
Proof.
  intros g Hg. rewrite F_eq by (lia || lra). unfold arg. replace (INR 3) with 3 by (simpl; ring). cbn [ih Nat.sub fact]. unfold pp.
  assert (I1 : INR 1 = 1) by reflexivity. split; intro H;
    repeat match goal with |- context [Rlt_dec ?x ?y] => destruct (Rlt_dec x y) end; try (exfalso; lra); simpl pow; change (1 * 1)%nat with 1%nat; rewrite ?I1.
  - match goal with |- (1 / g + 3 / 2 * (?a / ?b)) / 3 = 0 => replace a with (-2) by field; replace b with (3 * g) by field end. field. lra.
  - match goal with |- 0 < ?e => replace e with ((1 / g + 3 / 2 * (1 / (3 * ((1 - g) / 2)))) / 3) by (field; repeat split; lra) end.
    assert (0 < 1 / g) by (apply Rdiv_lt_0_compat; lra). assert (0 < 1 / (3 * ((1 - g) / 2))) by (apply Rdiv_lt_0_compat; lra). lra.
Qed.

(** ** The functions *)
Lemma strictly_rising_ext : forall f g lo hi, (forall x, lo < x < hi -> f x = g x) -> strictly_rising g lo hi -> strictly_rising f lo hi.
Proof. intros f g lo hi E H x y A B C. rewrite !E by lra. apply H; assumption. Qed.

Section Chain.
Variables (prof : profile) (N : Z).
Hypothesis HN3 : N <> 3%Z.

Lemma force_positive : forall g, (2 <= N <= 34)%Z -> 0 < g < 1 -> positive_at (fjc_isometric.nondimensional_force prof N) g.
Proof.
  intros g HN Hg. to_nat N. exists (F n g). split; [apply force_ok; (lia || lra) | apply F_positive; (lia || lra)].
Qed.

Lemma force_dimensional : forall l T xi, (2 <= N <= 34)%Z -> 0 < l -> 0 < T -> 0 < xi < IZR N * l -> positive_at (fun y => fjc_isometric.force prof N l y T) xi.
Proof.
  intros l T xi HN Hl HT Hx. assert (PN : 0 < IZR N) by (apply IZR_lt; lia). assert (Pl : 0 < IZR N * l) by (apply Rmult_lt_0_compat; lra).
  assert (Hg : 0 < xi / (IZR N * l) < 1).
  { split; [apply Rdiv_lt_0_compat; lra|]. apply Rmult_lt_reg_r with (IZR N * l); [exact Pl|]. unfold Rdiv. rewrite Rmult_assoc, Rinv_l by lra. lra. }
  destruct (force_positive _ HN Hg) as (f & E & F0). unfold positive_at, fjc_isometric.force.
  change (sdiv xi (smul (sofZ N) l)) with (xi / (IZR N * l)). rewrite E. cbn [bind]. eexists. split; [reflexivity|].
  rewrite B_eq. change (0 < f * kB * T / l). apply Rdiv_lt_0_compat; [|exact Hl]. apply Rmult_lt_0_compat; [|exact HT]. apply Rmult_lt_0_compat; [exact F0 | exact kB_pos].
Qed.

Lemma scaled : forall d y, 0 < d -> 0 < y < d -> 0 < y / d < 1.
Proof.
  intros d y Hd Hy. split; [apply Rdiv_lt_0_compat; lra|]. apply Rmult_lt_reg_r with d; [exact Hd|]. unfold Rdiv. rewrite Rmult_assoc, Rinv_l by lra. lra.
Qed.

Lemma density_falls : (2 <= N <= 26)%Z -> strictly_falling (fjc_isometric.nondimensional_equilibrium_distribution prof N) 0 1.
Proof.
  intros HN a b Ha Hab Hb. to_nat N. exists (P n a), (P n b). rewrite !distribution_ok by (lia || lra). repeat split. apply P_falls; (lia || lra).
Qed.

Lemma density_dimensional : forall l, (2 <= N <= 26)%Z -> 0 < l -> strictly_falling (fjc_isometric.equilibrium_distribution prof N l) 0 (IZR N * l).
Proof.
  intros l HN Hl a b Ha Hab Hb. assert (PN : 0 < IZR N) by (apply IZR_lt; lia).
  rewrite !z_density_dimensional by (assumption || lra). do 2 eexists. repeat split.
  apply Rmult_lt_compat_r; [apply Rinv_0_lt_compat, pow_lt; exact Hl|]. to_nat N.
  apply walk_falls; [lia | lia | apply Rdiv_lt_0_compat; lra | apply Rmult_lt_compat_r; [apply Rinv_0_lt_compat; exact Hl | lra]|].
  apply Rmult_lt_reg_r with l; [exact Hl|]. unfold Rdiv. rewrite Rmult_assoc, Rinv_l by lra. lra.
Qed.

Lemma affine_rising : forall f n d c e, (2 <= n)%nat -> n <> 3%nat -> 0 < c -> 0 < d -> (forall y, 0 < y < d -> f y = Some (c * (- ln (P n (y / d)) + e))) -> strictly_rising f 0 d.
Proof.
  intros f n d c e Hn N3 Hc Hd E a b Ha Hab Hb. rewrite !E by lra. do 2 eexists. repeat split.
  pose proof (scaled d a Hd ltac:(lra)) as GA. pose proof (scaled d b Hd ltac:(lra)) as GB.
  apply Rmult_lt_compat_l; [exact Hc|]. assert (ln (P n (b / d)) < ln (P n (a / d))); [|lra].
  apply ln_increasing; [apply P_pos; (lia || lra)|]. apply P_falls; try (lia || lra). apply Rmult_lt_compat_r; [apply Rinv_0_lt_compat; exact Hd | lra].
Qed.

Lemma helmholtz_rises : forall l m T, (2 <= N <= 26)%Z -> 0 < l ->
  strictly_rising (fun y => fjc_isometric.nondimensional_helmholtz_free_energy prof N l m y T) 0 1 /\
  strictly_rising (fun y => fjc_isometric.nondimensional_helmholtz_free_energy_per_link prof N l m y T) 0 1 /\
  strictly_rising (fjc_isometric.nondimensional_relative_helmholtz_free_energy prof N) 0 1 /\
  strictly_rising (fjc_isometric.nondimensional_relative_helmholtz_free_energy_per_link prof N) 0 1.
Proof.
  intros l m T HN Hl. to_nat N. destruct (helmholtz_shift prof n l m T ltac:(lia) Hl) as (c & E). destruct (relative_shift prof n ltac:(lia)) as (c' & E').
  assert (PN : 0 < INR n) by (apply lt_0_INR; lia).
  assert (IN : 0 < / INR n) by (apply Rinv_0_lt_compat; exact PN).
  repeat split.
  - apply (affine_rising _ n 1 1 c); try (lia || lra). intros y Hy. rewrite E by lra. f_equal. replace (y / 1) with y by field. ring.
  - apply (affine_rising _ n 1 (/ INR n) c); try (lia || lra). intros y Hy. unfold fjc_isometric.nondimensional_helmholtz_free_energy_per_link. rewrite E by lra. cbn [bind].
    f_equal. change (@sofZ R R_scalar) with IZR. rewrite <- INR_IZR_INZ. replace (y / 1) with y by field.
    change ((- ln (P n y) + c) / INR n = / INR n * (- ln (P n y) + c)). field. lra.
  - apply (affine_rising _ n 1 1 c'); try (lia || lra). intros y Hy. rewrite E' by lra. f_equal. replace (y / 1) with y by field. ring.
  - apply (affine_rising _ n 1 (/ INR n) c'); try (lia || lra). intros y Hy. unfold fjc_isometric.nondimensional_relative_helmholtz_free_energy_per_link. rewrite E' by lra. cbn [bind].
    f_equal. change (@sofZ R R_scalar) with IZR. rewrite <- INR_IZR_INZ. replace (y / 1) with y by field.
    change ((- ln (P n y) + c') / INR n = / INR n * (- ln (P n y) + c')). field. lra.
Qed.

(** A dimensional function multiplies by the thermal energy. *)
Lemma dimensional_rising : forall (f : R -> option R) d T, 0 < d -> 0 < T -> strictly_rising f 0 1 ->
  strictly_rising (fun y => let! r := f (y / d) in Some (r * BOLTZMANN_CONSTANT * T)%S) 0 d.
Proof.
  intros f d T Hd HT H a b Ha Hab Hb. pose proof (scaled d a Hd ltac:(lra)) as GA. pose proof (scaled d b Hd ltac:(lra)) as GB.
  destruct (H (a / d) (b / d)) as (u & v & E1 & E2 & L); try lra.
  { apply Rmult_lt_compat_r; [apply Rinv_0_lt_compat; exact Hd | lra]. }
  rewrite E1, E2. cbn [bind]. do 2 eexists. repeat split. rewrite B_eq.
  change (u * kB * T < v * kB * T). pose proof kB_pos. apply Rmult_lt_compat_r; [exact HT|]. apply Rmult_lt_compat_r; lra.
Qed.

Lemma helmholtz_dimensional : forall l m T, (2 <= N <= 26)%Z -> 0 < l -> 0 < T ->
  strictly_rising (fun y => fjc_isometric.helmholtz_free_energy prof N l m y T) 0 (IZR N * l) /\
  strictly_rising (fun y => fjc_isometric.helmholtz_free_energy_per_link prof N l m y T) 0 (IZR N * l) /\
  strictly_rising (fun y => fjc_isometric.relative_helmholtz_free_energy prof N l y T) 0 (IZR N * l) /\
  strictly_rising (fun y => fjc_isometric.relative_helmholtz_free_energy_per_link prof N l y T) 0 (IZR N * l).
Proof.
  intros l m T HN Hl HT. assert (PN : 0 < IZR N) by (apply IZR_lt; lia). assert (Pl : 0 < IZR N * l) by (apply Rmult_lt_0_compat; lra).
  destruct (helmholtz_rises l m T HN Hl) as (A & B & C & D).
  repeat split.
  - exact (dimensional_rising _ _ T Pl HT A).
  - exact (dimensional_rising _ _ T Pl HT B).
  - exact (dimensional_rising _ _ T Pl HT C).
  - exact (dimensional_rising _ _ T Pl HT D).
Qed.
End Chain.

Lemma three_force : forall prof g, 0 < g < 1 ->
  (g < 1 / 3 -> fjc_isometric.nondimensional_force prof 3 g = Some 0) /\ (1 / 3 <= g -> positive_at (fjc_isometric.nondimensional_force prof 3) g).
Proof.
  intros prof g Hg. pose proof (force_ok prof 3 g ltac:(lia) Hg) as E. destruct (F_three g Hg) as (A & B). split; intro H.
  - change 3%Z with (Z.of_nat 3). rewrite E, A by exact H. reflexivity.
  - exists (F 3 g). split; [exact E | apply B, H].
Qed.

Lemma three_density : forall prof, constant (fjc_isometric.nondimensional_equilibrium_distribution prof 3) 0 (1 / 3) /\
  strictly_falling (fjc_isometric.nondimensional_equilibrium_distribution prof 3) (1 / 3) 1.
Proof.
  intro prof. split; intros a b Ha Hab Hb; change 3%Z with (Z.of_nat 3); rewrite !distribution_ok by (lia || lra).
  - exists (P 3 a). split; [reflexivity|]. f_equal. rewrite !P_walk by (lia || lra). f_equal. replace (INR 3) with 3 by (simpl; ring). apply walk_three; lra.
  - exists (P 3 a), (P 3 b). repeat split. rewrite !P_walk by (lia || lra). apply Rmult_lt_compat_l; [apply pow_lt, lt_0_INR; lia|].
    replace (INR 3) with 3 by (simpl; ring). apply walk_three; lra.
Qed.

(** ** Short chains get softer *)
Lemma F_two : forall g, 0 < g -> F 2 g = 1 / (2 * g).
Proof.
  intros g Hg. unfold F. replace (INR 2 / 2 - 1) with 0 by (simpl; field). replace (0 * S_sum 2 (2 - 3) g / S_sum 2 (2 - 2) g) with 0 by (unfold Rdiv; ring).
  replace (INR 2) with 2 by (simpl; ring). field. lra.
Qed.
Lemma two_softer : forall prof, strictly_falling (fjc_isometric.nondimensional_force prof 2) 0 1.
Proof.
  intros prof a b Ha Hab Hb. change 2%Z with (Z.of_nat 2). rewrite !force_ok by (lia || lra). do 2 eexists. repeat split. rewrite !F_two by lra.
  unfold Rdiv. rewrite !Rmult_1_l. apply Rinv_lt_contravar; [|lra]. apply Rmult_lt_0_compat; lra.
Qed.
Lemma F_three_far : forall g, 1 / 3 <= g < 1 -> F 3 g = (1 / g + 1 / (1 - g)) / 3.
Proof.
  intros g Hg. rewrite F_eq by (lia || lra). unfold arg. replace (INR 3) with 3 by (simpl; ring). cbn [ih Nat.sub fact]. unfold pp.
  assert (I1 : INR 1 = 1) by reflexivity.
  repeat match goal with |- context [Rlt_dec ?x ?y] => destruct (Rlt_dec x y) end; try (exfalso; lra); simpl pow; change (1 * 1)%nat with 1%nat; rewrite ?I1.
  match goal with |- (1 / g + 3 / 2 * (?a / ?b)) / 3 = _ => replace a with 1 by field; replace b with (3 * ((1 - g) / 2)) by field end. field. lra.
Qed.
Lemma three_softer : forall prof, strictly_falling (fjc_isometric.nondimensional_force prof 3) (1 / 3) (1 / 2).
Proof.
  intros prof a b Ha Hab Hb. change 3%Z with (Z.of_nat 3). rewrite !force_ok by (lia || lra). do 2 eexists. repeat split. rewrite !F_three_far by lra.
  replace (1 / b + 1 / (1 - b)) with (/ (b * (1 - b))) by (field; lra). replace (1 / a + 1 / (1 - a)) with (/ (a * (1 - a))) by (field; lra).
  apply Rmult_lt_compat_r; [lra|]. apply Rinv_lt_contravar; [|nra]. repeat apply Rmult_lt_0_compat; lra.
Qed.
