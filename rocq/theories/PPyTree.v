(** The tree of Python modules: proofs. *)
From Coq Require Import List String Bool Arith Lia.
From Verif Require Import MPyTree SpecPyTree.
Import ListNotations.
Open Scope string_scope.
Open Scope list_scope.

(** ** Listing all attributes *)
Fixpoint listing (f : nat) (h : heap) (a : address) : list (list string * value) :=
  match f with
  | O => []
  | S f' => ([], Submodule a) ::
      match nth_error h a with
      | None => []
      | Some m => flat_map (fun kv => match lookup (fst kv) (attributes m) with
          | Some (Submodule b) => map (fun pv => (fst kv :: fst pv, snd pv)) (listing f' h b)
          | Some (Class c) => [([fst kv], Class c)]
          | None => []
          end) (attributes m)
      end
  end.

Fixpoint enough (f : nat) (h : heap) (a : address) : bool :=
  match f with
  | O => false
  | S f' =>
      match nth_error h a with
      | None => true
      | Some m => forallb (fun kv => match lookup (fst kv) (attributes m) with
          | Some (Submodule b) => enough f' h b
          | _ => true
          end) (attributes m)
      end
  end.

Lemma lookup_In : forall k v l, lookup k l = Some v -> exists w, In (k, w) l.
Proof.
  intros k v l. induction l as [|[k' w] l IH]; cbn [lookup]; [discriminate|].
  destruct (String.eqb_spec k k') as [->|]; intro H.
  - exists w. left. reflexivity.
  - destruct (IH H) as [u Hu]. exists u. right. exact Hu.
Qed.

Lemma listing_complete : forall f h p a v, enough f h a = true -> attribute h a p = Some v -> In (p, v) (listing f h a).
Proof.
  intros f h. induction f as [|f IH]; intros p a v E H; [discriminate E|].
  cbn [enough listing] in *. destruct p as [|k p]; cbn [attribute] in H.
  - left. congruence.
  - right. destruct (nth_error h a) as [m|]; [|discriminate].
    destruct (lookup k (attributes m)) as [w|] eqn:L; [|discriminate].
    destruct (lookup_In _ _ _ L) as [u Hu]. rewrite forallb_forall in E. specialize (E _ Hu). cbn [fst] in E. rewrite L in E.
    apply in_flat_map. exists (k, u). split; [exact Hu|]. cbn [fst]. rewrite L.
    destruct w as [b|c].
    + apply in_map_iff. exists (p, v). split; [reflexivity|]. apply IH; assumption.
    + destruct p; [|discriminate]. left. congruence.
Qed.

Lemma listing_sound : forall f h p a v, In (p, v) (listing f h a) -> attribute h a p = Some v.
Proof.
  intros f h. induction f as [|f IH]; intros p a v H; [destruct H|].
  cbn [listing] in H. destruct H as [H|H]; [injection H as <- <-; reflexivity|].
  destruct (nth_error h a) as [m|] eqn:M; [|destruct H].
  apply in_flat_map in H. destruct H as [[k u] [Hu H]]. cbn [fst] in H.
  destruct (lookup k (attributes m)) as [[b|c]|] eqn:L; [| |destruct H].
  - apply in_map_iff in H. destruct H as [[q w] [E Hq]]. cbn [fst snd] in E. injection E as <- <-.
    cbn [attribute]. rewrite M, L. apply IH. exact Hq.
  - destruct H as [H|[]]. injection H as <- <-. cbn [attribute]. rewrite M, L. reflexivity.
Qed.

(** ** The package *)
Definition all : list (list string * value) := Eval vm_compute in listing 12 imported 0.
Lemma all_eq : all = listing 12 imported 0.
Proof. vm_compute. reflexivity. Qed.
Lemma all_enough : enough 12 imported 0 = true.
Proof. vm_compute. reflexivity. Qed.

Lemma attribute_all : forall p v, attribute imported 0 p = Some v <-> In (p, v) all.
Proof.
  intros p v. rewrite all_eq. split.
  - apply listing_complete. exact all_enough.
  - apply listing_sound.
Qed.

Fixpoint strings_eqb (p q : list string) : bool :=
  match p, q with
  | [], [] => true
  | x :: p', y :: q' => String.eqb x y && strings_eqb p' q'
  | _, _ => false
  end.
Lemma strings_eqb_eq : forall p q, strings_eqb p q = true <-> p = q.
Proof.
  induction p as [|x p IH]; intros [|y q]; cbn [strings_eqb]; try (split; congruence).
  rewrite andb_true_iff, String.eqb_eq, IH. split; [intros [-> ->]; reflexivity|]. intro E. injection E. auto.
Qed.

(** Each class of the listing is a source at its path, and conversely. *)
Definition in_sources (d : list string) (c : string) : bool :=
  existsb (fun s => String.eqb c (snd s) && strings_eqb d (fst s)) sources.
Lemma in_sources_In : forall d c, in_sources d c = true -> In (d, c) sources.
Proof.
  intros d c H. apply existsb_exists in H. destruct H as [[d' c'] [H E]]. cbn [fst snd] in E.
  apply andb_true_iff in E. destruct E as [E1 E2]. apply String.eqb_eq in E1. apply strings_eqb_eq in E2. subst. exact H.
Qed.

Lemma forward : forallb (fun pv => match snd pv with
  | Class (class_of d c) => in_sources d c && strings_eqb (fst pv) (path d c)
  | Submodule _ => true end) all = true.
Proof. vm_compute. reflexivity. Qed.

Definition found (p d : list string) (c : string) : bool :=
  match attribute imported 0 p with
  | Some (Class (class_of d' c')) => String.eqb c c' && strings_eqb d d'
  | _ => false
  end.
Lemma backward : forallb (fun s => found (path (fst s) (snd s)) (fst s) (snd s)) sources = true.
Proof. vm_compute. reflexivity. Qed.

Lemma published : forall p d c,
  attribute imported 0 p = Some (Class (class_of d c)) <-> In (d, c) sources /\ p = path d c.
Proof.
  intros p d c. split.
  - intro H. apply attribute_all in H. pose proof forward as F. rewrite forallb_forall in F. specialize (F _ H). cbn [fst snd] in F.
    apply andb_true_iff in F. destruct F as [F1 F2]. split; [apply in_sources_In; exact F1|apply strings_eqb_eq; exact F2].
  - intros [H ->]. pose proof backward as B. rewrite forallb_forall in B. specialize (B _ H). cbn [fst snd] in B.
    unfold found in B. destruct (attribute imported 0 (path d c)) as [[|[d' c']]|]; try discriminate.
    apply andb_true_iff in B. destruct B as [B1 B2]. apply String.eqb_eq in B1. apply strings_eqb_eq in B2. subst. reflexivity.
Qed.

(** ** Modules *)
Lemma attribute_app : forall h p q a v, q <> [] -> attribute h a (p ++ q) = Some v -> exists b, attribute h a p = Some (Submodule b) /\ attribute h b q = Some v.
Proof.
  intros h p q. induction p as [|k p IH]; intros a v Q H; [exists a; split; [reflexivity|exact H]|].
  cbn [attribute app] in *. destruct (nth_error h a) as [m|]; [|discriminate].
  destruct (lookup k (attributes m)) as [[b|c]|]; [apply IH; assumption| |discriminate].
  destruct p, q; cbn in H; (discriminate || congruence).
Qed.

Fixpoint prefix (p q : list string) : bool :=
  match p, q with
  | [], _ :: _ => true
  | x :: p', y :: q' => String.eqb x y && prefix p' q'
  | _, _ => false
  end.
Lemma prefix_app : forall p q, prefix p q = true -> exists r, q = p ++ r /\ r <> [].
Proof.
  induction p as [|x p IH]; intros [|y q] H; cbn [prefix] in H; try discriminate.
  - exists (y :: q). split; [reflexivity|discriminate].
  - apply andb_true_iff in H. destruct H as [E H]. apply String.eqb_eq in E. subst. destruct (IH q H) as [r [-> R]].
    exists r. split; [reflexivity|exact R].
Qed.

Lemma modules_forward : forallb (fun pv => match snd pv with
  | Submodule _ => existsb (fun s => prefix (fst pv) (path (fst s) (snd s))) sources
  | Class _ => true end) all = true.
Proof. vm_compute. reflexivity. Qed.

Lemma modules : forall p, (exists a, attribute imported 0 p = Some (Submodule a)) <-> package p.
Proof.
  intro p. split.
  - intros [a H]. apply attribute_all in H. pose proof modules_forward as F. rewrite forallb_forall in F. specialize (F _ H). cbn [fst snd] in F.
    apply existsb_exists in F. destruct F as [[d c] [Hs E]]. cbn [fst snd] in E. apply prefix_app in E. destruct E as [r [E R]].
    exists d, c, r. auto.
  - intros (d & c & q & Hs & E & Q). assert (H : attribute imported 0 (path d c) = Some (Class (class_of d c))) by (apply published; auto).
    rewrite E in H. destruct (attribute_app _ _ _ _ _ Q H) as [b [B _]]. exists b. exact B.
Qed.
