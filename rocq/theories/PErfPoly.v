(** Polynomials with rational coefficients, and the table of [erfcx_helper] as one. *)
From Coq Require Import Reals ZArith QArith Qabs Qreals List Lra Lia.
From Verif Require Import Scalar MErfcx MMath.
Import ListNotations.
Open Scope R_scope.

Definition pe (p : list Q) (t : R) : R := fold_right (fun a r => Q2R a + t * r) 0 p.

Fixpoint padd (p q : list Q) : list Q :=
  match p, q with
  | [], _ => q
  | _, [] => p
  | a :: p', b :: q' => Qred (a + b) :: padd p' q'
  end.
Definition pscal (k : Q) (p : list Q) : list Q := map (fun a => Qred (k * a)) p.
Fixpoint pmul (p q : list Q) : list Q :=
  match p with [] => [] | a :: p' => padd (pscal a q) (0%Q :: pmul p' q) end.
Fixpoint pder (p : list Q) : list Q :=
  match p with [] => [] | a :: p' => padd p' (0%Q :: pder p') end.
Definition pabs (p : list Q) : Q := fold_right (fun a r => Qred (Qabs a + r)) 0%Q p.
Definition pev (p : list Q) (t : Q) : Q := fold_right (fun a r => Qred (a + t * r)) 0%Q p.

Lemma Q2R_red : forall a, Q2R (Qred a) = Q2R a.
Proof. intro a. apply Qeq_eqR, Qred_correct. Qed.
Lemma Q2R_0 : Q2R 0 = 0.
Proof. unfold Q2R. simpl. lra. Qed.
Lemma Q2R_1 : Q2R 1 = 1.
Proof. unfold Q2R. simpl. lra. Qed.
Lemma Q2R_Z : forall z, Q2R (inject_Z z) = IZR z.
Proof. intro z. unfold Q2R, inject_Z. simpl. field. Qed.

Lemma pe_padd : forall p q t, pe (padd p q) t = pe p t + pe q t.
Proof.
  induction p as [| a p IH]; intros [| b q] t; simpl; try lra.
  change (Q2R (Qred (a + b)) + t * pe (padd p q) t = Q2R a + t * pe p t + (Q2R b + t * pe q t)).
  rewrite IH, Q2R_red, Q2R_plus. ring.
Qed.
Lemma pe_pscal : forall k p t, pe (pscal k p) t = Q2R k * pe p t.
Proof.
  induction p as [| a p IH]; intros t; simpl; [ring |].
  change (Q2R (Qred (k * a)) + t * pe (pscal k p) t = Q2R k * (Q2R a + t * pe p t)).
  rewrite IH, Q2R_red, Q2R_mult. ring.
Qed.
Lemma pe_cons : forall a p t, pe (a :: p) t = Q2R a + t * pe p t.
Proof. reflexivity. Qed.
Lemma pe_pmul : forall p q t, pe (pmul p q) t = pe p t * pe q t.
Proof.
  induction p as [| a p IH]; intros q t; [simpl; ring |].
  change (pmul (a :: p) q) with (padd (pscal a q) (0%Q :: pmul p q)).
  rewrite pe_padd, pe_pscal, !pe_cons, IH, Q2R_0. ring.
Qed.
Lemma pe_pev : forall p t, Q2R (pev p t) = pe p (Q2R t).
Proof.
  induction p as [| a p IH]; intro t; [apply Q2R_0 |].
  change (pev (a :: p) t) with (Qred (a + t * pev p t)). rewrite Q2R_red, Q2R_plus, Q2R_mult, IH. reflexivity.
Qed.
Lemma Q2R_abs : forall a, Q2R (Qabs a) = Rabs (Q2R a).
Proof.
  intro a. destruct (Qlt_le_dec a 0) as [H | H].
  - rewrite (Qeq_eqR _ _ (Qabs_neg a (Qlt_le_weak _ _ H))), Q2R_opp, Rabs_left; [reflexivity |].
    apply Qlt_Rlt in H. rewrite Q2R_0 in H. exact H.
  - rewrite (Qeq_eqR _ _ (Qabs_pos a H)), Rabs_pos_eq; [reflexivity |].
    apply Qle_Rle in H. rewrite Q2R_0 in H. exact H.
Qed.
Lemma pe_bound : forall p t, Rabs t <= 1 -> Rabs (pe p t) <= Q2R (pabs p).
Proof.
  induction p as [| a p IH]; intros t Ht.
  - simpl. rewrite Rabs_R0, Q2R_0. lra.
  - rewrite pe_cons. change (pabs (a :: p)) with (Qred (Qabs a + pabs p)).
    rewrite Q2R_red, Q2R_plus, Q2R_abs.
    eapply Rle_trans; [apply Rabs_triang |]. apply Rplus_le_compat_l. rewrite Rabs_mult.
    specialize (IH t Ht). pose proof (Rabs_pos t). pose proof (Rabs_pos (pe p t)).
    apply Rle_trans with (1 * Rabs (pe p t)); [apply Rmult_le_compat_r |]; lra.
Qed.

(** ** The table *)

Definition Qdec (m : Z) (k : N) : Q :=
  match k with N0 => m # 1 | Npos p => m # Z.to_pos (Z.pow_pos 10 p) end.
Lemma Q2R_dec : forall m k, Q2R (Qdec m k) = Rdec m k.
Proof.
  intros m [| p]; unfold Qdec, Rdec, Q2R; cbn [Qnum Qden].
  - field.
  - rewrite Z2Pos.id; [reflexivity |]. rewrite <- Zpower_pos_nat || idtac.
    change (0 < 10 ^ Z.pos p)%Z. apply Z.pow_pos_nonneg; lia.
Qed.

(** The literals of the table, read off with an instance whose only meaningful field is [sdec]. *)
Definition literal : Type := (Z * N)%type.
#[local] Instance literal_scalar : Scalar literal := {
  sadd := fun x _ => x; ssub := fun x _ => x; smul := fun x _ => x; sdiv := fun x _ => x;
  sneg := fun x => x; sabs := fun x => x; spowi := fun x _ => x; spowf := fun x _ => x;
  sexp := fun x => x; sln := fun x => x; slog10 := fun x => x; ssinh := fun x => x;
  scosh := fun x => x; stanh := fun x => x; ssin := fun x => x; scos := fun x => x;
  sacos := fun x => x; satanh := fun x => x; ssqrt := fun x => x; sceil := fun x => x;
  spi := (0%Z, 0%N); sdec := fun m k => (m, k); sofZ := fun z => (z, 0%N);
  scast := fun _ _ => 0%Z; slt := fun _ _ => false; sle := fun _ _ => false }.

Definition conv {A} (f : Z -> N -> A) (row : literal * list literal) : A * list A :=
  (f (fst (fst row)) (snd (fst row)), map (fun l => f (fst l) (snd l)) (snd row)).
Definition table_Q : list (Q * list Q) := Eval vm_compute in map (conv Qdec) (erfcx_table (T := literal)).
Lemma table_R : erfcx_table (T := R) = map (fun row => (Q2R (fst row), map Q2R (snd row))) table_Q.
Proof.
  transitivity (map (conv Rdec) (erfcx_table (T := literal))); [reflexivity |].
  change table_Q with (map (conv Qdec) (erfcx_table (T := literal))). rewrite map_map. apply map_ext.
  intros [[m k] cs]. unfold conv. cbn [fst snd]. rewrite Q2R_dec. f_equal.
  rewrite map_map. apply map_ext. intros [m' k']. cbn [fst snd]. symmetry. apply Q2R_dec.
Qed.

Lemma horner_pe : forall cs t, math.horner (map Q2R cs) t = pe cs t.
Proof.
  induction cs as [| a cs IH]; intro t; [reflexivity |].
  destruct cs as [| b cs].
  - simpl. ring.
  - change (Q2R a + math.horner (map Q2R (b :: cs)) t * t = Q2R a + t * pe (b :: cs) t). rewrite IH. ring.
Qed.

Lemma helper_row : forall z k c cs, nth_error table_Q k = Some (c, cs) -> (k <= 255)%nat ->
  INR k <= z < INR k + 1 -> math.erfcx_helper z = pe cs (2 * z - Q2R c).
Proof.
  intros z k c cs Hk Hm [H1 H2].
  assert (Hi : Int_part z = Z.of_nat k).
  { rewrite INR_IZR_INZ in H1, H2. destruct (base_Int_part z) as [A B].
    assert (Int_part z < Z.of_nat k + 1)%Z by (apply lt_IZR; rewrite plus_IZR; lra).
    assert (Z.of_nat k < Int_part z + 1)%Z by (apply lt_IZR; rewrite plus_IZR; lra). lia. }
  unfold math.erfcx_helper. cbv zeta.
  replace (scast U8_MAX z) with (Z.of_nat k).
  - rewrite Nat2Z.id, table_R, nth_error_map, Hk. cbn [option_map fst snd]. apply horner_pe.
  - change (Z.of_nat k = Z.max 0 (Z.min U8_MAX (Int_part z))). rewrite Hi. unfold U8_MAX. lia.
Qed.
Lemma helper_100 : math.erfcx_helper 100 = 1.
Proof.
  unfold math.erfcx_helper. cbv zeta.
  replace (scast U8_MAX 100) with 100%Z; [reflexivity |].
  change (100%Z = Z.max 0 (Z.min U8_MAX (Int_part 100))).
  assert (Hi : Int_part 100 = 100%Z).
  { destruct (base_Int_part 100) as [A B].
    assert (Int_part 100 < 101)%Z by (apply lt_IZR; lra).
    assert (99 < Int_part 100)%Z by (apply lt_IZR; lra). lia. }
  rewrite Hi. reflexivity.
Qed.
