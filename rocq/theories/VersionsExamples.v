(** Inputs with several versions, and a way to see that they are independent (C14). *)
From Coq Require Import Ascii String Bool Arith ZArith List.
From Verif Require Import GoStrings GoMap NamesModel NamesSpec ConceptsModel ReporterModel ReaderModel ChecksModel ReaderSpec
  ReaderExamples VersionsSpec.
Import ListNotations.
Local Open Scope string_scope.

Definition keyb (k : key) (ids : list string) : bool := existsb (fun d => String.eqb (key_of d) k) ids.

(** No name used by the first version is declared by the second one without being declared by the
    first one. *)
Definition undisturbedb (e e' : entry) : bool :=
  forallb (fun u => negb (keyb (key_of u) (declared_types (source e'))) || keyb (key_of u) (declared_types (source e)))
    (type_uses (source e)) &&
  forallb (fun u => negb (keyb (key_of u) (declared_resources (source e'))) || keyb (key_of u) (declared_resources (source e)))
    (resource_uses (source e)).

Fixpoint undisturbed_allb (l : list entry) : bool :=
  match l with
  | [] => true
  | e :: l => forallb (undisturbedb e) l && undisturbed_allb l
  end.
Fixpoint differentb (l : list (string * string)) : bool :=
  match l with
  | [] => true
  | (s, v) :: l => forallb (fun x => negb (String.eqb s (fst x) && String.eqb v (snd x))) l && differentb l
  end.

Lemma keyb_true k ids : keyb k ids = true <-> In k (map key_of ids).
Proof.
  unfold keyb. rewrite existsb_exists, in_map_iff. split; intros (d & H1 & H2); exists d; split; auto.
  - now apply String.eqb_eq.
  - subst. apply String.eqb_refl.
Qed.

Lemma undisturbedb_sound e e' : undisturbedb e e' = true -> undisturbed e e'.
Proof.
  unfold undisturbedb. rewrite andb_true_iff, !forallb_forall. intros [H1 H2]. split.
  - intros d u D U E. right. apply keyb_true. specialize (H1 u U). apply orb_true_iff in H1 as [H1|H1]; [|assumption].
    apply negb_true_iff in H1. assert (X : keyb (key_of u) (declared_types (source e')) = true) by (apply keyb_true; rewrite <- E; now apply in_map).
    congruence.
  - intros d u D U E. apply keyb_true. specialize (H2 u U). apply orb_true_iff in H2 as [H2|H2]; [|assumption].
    apply negb_true_iff in H2. assert (X : keyb (key_of u) (declared_resources (source e')) = true) by (apply keyb_true; rewrite <- E; now apply in_map).
    congruence.
Qed.

Lemma independentb_sound inputs :
  differentb (map fst (entries inputs)) && undisturbed_allb (entries inputs) = true -> independent inputs.
Proof.
  rewrite andb_true_iff. intros [H1 H2]. split.
  - revert H1. generalize (map fst (entries inputs)) as l. clear. induction l as [|[s v] l IH]; intros H; [constructor|].
    cbn [differentb] in H. apply andb_true_iff in H as [H1 H2]. constructor; [|auto]. intros I. rewrite forallb_forall in H1.
    specialize (H1 _ I). cbn in H1. rewrite !String.eqb_refl in H1. discriminate.
  - revert H2. generalize (entries inputs) as l. clear. induction l as [|e l IH]; intros H; [constructor|].
    cbn [undisturbed_allb] in H. apply andb_true_iff in H as [H1 H2]. constructor; [|auto]. apply Forall_forall. intros e' I.
    rewrite forallb_forall in H1. now apply undisturbedb_sound, H1.
Qed.

(** Two services, three versions without errors, in two inputs. *)
Definition vs_good : list (list service_dir) :=
  [[("clusters_mgmt", [("v1", ex_files); ("v2", [("b.model", ex_uses_and_declares)])])];
   [("accounts_mgmt", [("v1", ex_files)])]].

(** The same names, but a version declares a type twice and a later one doesn't declare it. *)
Definition vs_bad : list (list service_dir) :=
  [[("clusters_mgmt", [("v1", ex_files); ("v2", [("b.model", ex_twice)])])];
   [("clusters_mgmt", [("v3", [("b.model", ex_uses)])])]].

Lemma vs_good_independent : independent vs_good.
Proof. apply independentb_sound. vm_compute. reflexivity. Qed.
Lemma vs_bad_independent : independent vs_bad.
Proof. apply independentb_sound. vm_compute. reflexivity. Qed.
Lemma vs_bad_camel : forall e, In e (entries vs_bad) -> camel_source (source e).
Proof.
  intros e H. repeat (destruct H as [<-|H]; [repeat split; repeat constructor; eexists _, _; repeat split; reflexivity|]). contradiction.
Qed.
