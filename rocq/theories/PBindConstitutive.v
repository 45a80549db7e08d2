(** Proofs about the Python and C interfaces of the constitutive models. *)
From Coq Require Import ZArith List Bool Lia Reals.
From Verif Require Import Scalar MArray MConstitutive MBindConstitutive SpecArray PArray.
Import ListNotations.

Module H := hyperelastic.BucheSilberstein.
Module D := hyperelastic_damage.BucheSilberstein.

Section Any.
Context {T : Type} {Sc : Scalar T}.

Lemma python_hyperelastic : forall n me (k : T) N,
  match P_hyperelastic.init n me k N, H.init n me k N with
  | Some p, Some r =>
      P_hyperelastic.nondimensional_link_stiffness p = H.nondimensional_link_stiffness r
      /\ P_hyperelastic.number_of_links p = H.number_of_links r
      /\ (forall stretch, elementwise_panic (fun x => H.uniaxial_tension r x) stretch (P_hyperelastic.uniaxial_tension p stretch))
      /\ (forall stretch, elementwise_panic (fun x => H.equibiaxial_tension r x) stretch (P_hyperelastic.equibiaxial_tension p stretch))
  | None, None => True
  | _, _ => False
  end.
Proof.
  intros n me k N; unfold P_hyperelastic.init, H.init.
  destruct (hyperelastic.init n me k N) as [[[[e f] g] z]|]; cbn [bind]; [|exact I].
  split; [reflexivity|]; split; [reflexivity|]; split; intro stretch;
    (eapply elementwise_of_mapv_panic; [reflexivity | intro; reflexivity]).
Qed.

Lemma results_history : forall (p : P_hyperelastic_damage.t T) (r : D.t T),
  P_hyperelastic_damage.element p = D.element r ->
  P_hyperelastic_damage.factor p = D.factor r ->
  P_hyperelastic_damage.grid p = D.grid r ->
  P_hyperelastic_damage.normalization p = D.normalization r ->
  P_hyperelastic_damage.method p = D.method r ->
  P_hyperelastic_damage.nondimensional_critical_extension p = D.nondimensional_critical_extension r ->
  P_hyperelastic_damage.nondimensional_link_stiffness p = D.nondimensional_link_stiffness r ->
  P_hyperelastic_damage.number_of_links p = D.number_of_links r ->
  P_hyperelastic_damage.swelling_ratio p = D.swelling_ratio r ->
  forall l m, P_hyperelastic_damage.results p m l = D.history r (length l) m l.
Proof.
  intros p r E1 E2 E3 E4 E5 E6 E7 E8 E9 l; induction l as [|s l IH]; intro m; [reflexivity|].
  cbn [P_hyperelastic_damage.results D.history length].
  rewrite E1, E2, E3, E4, E5, E6, E7, E8, E9, IH; reflexivity.
Qed.

Lemma history_length : forall (r : D.t T) l m st os, D.history r l m st = Some os -> length os = l.
Proof.
  intros r l; induction l as [|l IH]; intros m st os E; cbn [D.history] in E.
  - injection E as <-; reflexivity.
  - destruct st as [|s st]; [discriminate E|].
    match type of E with bind ?x _ = _ => destruct x; cbn [bind] in E; [|discriminate E] end.
    match type of E with bind ?x _ = _ => destruct x as [os'|] eqn:E2; cbn [bind] in E; [|discriminate E] end.
    injection E as <-; cbn [length]; f_equal; exact (IH _ _ _ E2).
Qed.

Lemma python_damage : forall n me (c k : T) N w,
  match P_hyperelastic_damage.init n me c k N w, D.init n me c k N w with
  | Some p, Some r =>
      P_hyperelastic_damage.nondimensional_critical_extension p = D.nondimensional_critical_extension r
      /\ P_hyperelastic_damage.nondimensional_link_stiffness p = D.nondimensional_link_stiffness r
      /\ P_hyperelastic_damage.number_of_links p = D.number_of_links r
      /\ P_hyperelastic_damage.swelling_ratio p = D.swelling_ratio r
      /\ (forall stretches,
           let l := length (entries stretches) in
           match P_hyperelastic_damage.uniaxial_tension p stretches, D.uniaxial_tension r l (entries stretches) with
           | Some (stress, probability), Some os =>
               shape stress = [l] /\ shape probability = [l]
               /\ entries stress = map fst os /\ entries probability = map snd os
           | None, None => True
           | _, _ => False
           end)
  | None, None => True
  | _, _ => False
  end.
Proof.
  intros n me c k N w; unfold P_hyperelastic_damage.init, D.init.
  destruct (hyperelastic_damage.init n me c k N w) as [[[[e f] g] z]|]; cbn [bind]; [|exact I].
  do 4 (split; [reflexivity|]); intro stretches; set (l := length (entries stretches)).
  unfold P_hyperelastic_damage.uniaxial_tension, D.uniaxial_tension.
  match goal with |- context [P_hyperelastic_damage.results ?p ?m ?x] =>
    match goal with |- context [D.history ?r _ _ _] =>
      rewrite (results_history p r eq_refl eq_refl eq_refl eq_refl eq_refl eq_refl eq_refl eq_refl eq_refl x m) end end.

  subst l.
  match goal with |- context [D.history ?r ?a ?b ?d] => destruct (D.history r a b d) as [os|] eqn:E end;
    cbn [bind]; [|exact I].
  pose proof (history_length _ _ _ _ _ E) as L.
  cbn [shape entries]; rewrite !map_length, L; repeat split.
Qed.

(** *** Raw buffers *)

Lemma rows_concat : forall (A : Type) width (ll : list (list A)) rest,
  (forall l, In l ll -> length l = width) ->
  rows (length ll) width (concat ll ++ rest) = ll.
Proof.
  intros A width ll; induction ll as [|l ll IH]; intros rest H; cbn [rows length concat]; [reflexivity|].
  pose proof (H l (or_introl eq_refl)) as L.
  rewrite <- app_assoc; f_equal.
  - rewrite firstn_app, L, Nat.sub_diag, firstn_O, app_nil_r; apply firstn_all2; lia.
  - rewrite skipn_app, L, Nat.sub_diag, skipn_O, skipn_all2 by lia.
    apply IH; intros l' Hl'; apply H; right; exact Hl'.
Qed.

Lemma concat_length_const : forall (A : Type) width (ll : list (list A)),
  (forall l, In l ll -> length l = width) -> length (concat ll) = (length ll * width)%nat.
Proof.
  intros A width ll; induction ll as [|l ll IH]; intro H; cbn [concat length]; [reflexivity|].
  rewrite app_length, (H l (or_introl eq_refl)), IH; [reflexivity|].
  intros l' Hl'; apply H; right; exact Hl'.
Qed.

Lemma init_sizes : forall n me (k : T) N o, H.init n me k N = Some o ->
  length (H.grid o) = n /\ length (H.element o) = n
  /\ (forall l, In l (H.element o) -> length l = n).
Proof.
  intros n me k N o E.
  assert (G : forall (A : list (list T)) (f : T) (g : list T) (z : T),
    hyperelastic.init n me k N = Some (A, f, g, z) ->
    length g = n /\ length A = n /\ (forall l, In l A -> length l = n)).
  { intros A f g z EI; unfold hyperelastic.init in EI.
    destruct (hyperelastic.dw n) as [d|]; cbn [bind] in EI; [|discriminate EI].
    assert (LG : length (hyperelastic.atanh_grid (Sc := Sc) n) = n)
      by (unfold hyperelastic.atanh_grid, hyperelastic.w_grid; rewrite !map_length, seq_length; reflexivity).
    assert (LW : length (hyperelastic.w_grid (Sc := Sc) n) = n)
      by (unfold hyperelastic.w_grid; rewrite map_length, seq_length; reflexivity).
    assert (LE : length (hyperelastic.init_elements n k N d) = n
      /\ forall l, In l (hyperelastic.init_elements n k N d) -> length l = n).
    { unfold hyperelastic.init_elements; split.
      - rewrite map_length, combine_length, LG, LW; lia.
      - intros l Hl; apply in_map_iff in Hl; destruct Hl as ([z' w'] & <- & _).
        rewrite map_length, combine_length, LG, LW; lia. }
    repeat match type of EI with context [match ?x with _ => _ end] => destruct x end;
      try discriminate EI; injection EI as <- _ <- _; split; [exact LG|exact LE|exact LG|exact LE]. }
  unfold H.init in E.
  destruct (hyperelastic.init n me k N) as [[[[A f] g] z]|]; cbn [bind] in E; [|discriminate E].
  injection E as <-; cbn [H.grid H.element]; exact (G A f g z eq_refl).
Qed.

Lemma first_enough : forall (A : Type) w len (l rest : list A),
  length l = w -> (w * len <= length (l ++ rest))%nat -> first_of_raw_parts w len (l ++ rest) = Some l.
Proof.
  intros A w len l rest L Hl; unfold first_of_raw_parts.
  rewrite (proj2 (Nat.leb_le _ _) Hl).
  rewrite firstn_app, L, Nat.sub_diag, firstn_O, app_nil_r, firstn_all2 by lia; reflexivity.
Qed.

Lemma with_raw_parts_enough : forall A n me (k : T) N o (f : list (list T) -> list T -> option A) more_e more_g,
  H.init n me k N = Some o ->
  (n * n * (n * n) <= length (concat (H.element o) ++ more_e))%nat ->
  (n * n <= length (H.grid o ++ more_g))%nat ->
  extern_hyperelastic.with_raw_parts n (concat (H.element o) ++ more_e) (H.grid o ++ more_g) f
  = Finished (f (H.element o) (H.grid o)).
Proof.
  intros A n me k N o f more_e more_g E He Hg.
  destruct (init_sizes n me k N o E) as (Lg & Le & Lr).
  unfold extern_hyperelastic.with_raw_parts.
  rewrite (first_enough _ _ _ _ _ Lg Hg).
  rewrite first_enough; [|rewrite (concat_length_const _ n) by exact Lr; rewrite Le; reflexivity|exact He].
  rewrite <- (app_nil_r (concat (H.element o))).
  rewrite <- Le at 1; rewrite rows_concat by exact Lr; reflexivity.
Qed.

Lemma with_raw_parts_undefined : forall A n me (k : T) N o (f : list (list T) -> list T -> option A),
  H.init n me k N = Some o ->
  extern_hyperelastic.with_raw_parts n (concat (H.element o)) (H.grid o) f = Undefined.
Proof.
  intros A n me k N o f E.
  destruct (init_sizes n me k N o E) as (Lg & Le & Lr).
  assert (Hn : (2 <= n)%nat).
  { destruct n as [|[|n]]; [| |lia]; exfalso; revert E;
      unfold H.init, hyperelastic.init, hyperelastic.dw, hyperelastic.w_grid; cbn; discriminate. }
  unfold extern_hyperelastic.with_raw_parts, first_of_raw_parts.
  rewrite Lg.
  replace (n * n <=? n)%nat with false; [reflexivity|].
  symmetry; apply Nat.leb_gt; nia.
Qed.

Lemma extern_enough : forall n me (k : T) N o more_e more_g stretch,
  H.init n me k N = Some o ->
  (n * n * (n * n) <= length (concat (H.element o) ++ more_e))%nat ->
  (n * n <= length (H.grid o ++ more_g))%nat ->
  extern_hyperelastic.constitutive_hyperelastic_buche_silberstein_uniaxial_tension n
    (concat (H.element o) ++ more_e) (H.factor o) (H.grid o ++ more_g) (H.normalization o) me k N stretch
  = Finished (H.uniaxial_tension o stretch)
  /\ extern_hyperelastic.constitutive_hyperelastic_buche_silberstein_equibiaxial_tension n
    (concat (H.element o) ++ more_e) (H.factor o) (H.grid o ++ more_g) (H.normalization o) me k N stretch
  = Finished (H.equibiaxial_tension o stretch).
Proof.
  intros n me k N o more_e more_g stretch E He Hg.
  assert (F : H.method o = me /\ H.nondimensional_link_stiffness o = k /\ H.number_of_links o = N).
  { unfold H.init in E; destruct (hyperelastic.init n me k N) as [[[[A f] g] z]|]; cbn [bind] in E; [|discriminate E].
    injection E as <-; repeat split. }
  destruct F as (F1 & F2 & F3).
  unfold extern_hyperelastic.constitutive_hyperelastic_buche_silberstein_uniaxial_tension,
    extern_hyperelastic.constitutive_hyperelastic_buche_silberstein_equibiaxial_tension.
  split; rewrite (with_raw_parts_enough T n me k N o _ more_e more_g E He Hg);
    unfold H.uniaxial_tension, H.equibiaxial_tension; rewrite F1, F2, F3; reflexivity.
Qed.

Lemma extern_undefined : forall n me (k : T) N o stretch,
  H.init n me k N = Some o ->
  extern_hyperelastic.constitutive_hyperelastic_buche_silberstein_uniaxial_tension n
    (concat (H.element o)) (H.factor o) (H.grid o) (H.normalization o) me k N stretch = Undefined
  /\ extern_hyperelastic.constitutive_hyperelastic_buche_silberstein_equibiaxial_tension n
    (concat (H.element o)) (H.factor o) (H.grid o) (H.normalization o) me k N stretch = Undefined.
Proof.
  intros n me k N o stretch E; split; exact (with_raw_parts_undefined T n me k N o _ E).
Qed.
End Any.
