(** Proofs about reading documents: whole documents, and what can be done with the objects that have been read. *)
From Coq Require Import Ascii String Bool Arith ZArith NArith Lia Permutation List.
From Verif Require Import ConformSpec.
From Verif Require Import GoStrings GoMap GoMapProofs NamesModel NamesSpec NamesProofs ConceptsModel ConceptsSpec BindingModel GoNamesModel
  GoTimeModel ReporterModel ObjectsModel ObjectsSpec ObjectsProofs ObjectsProofs2 ObjectsProofs3 JsonModel JsonSpec
  JsonProofs JsonProofs2 JsonProofs3 JsonProofs4 JsonProofs5 JsonProofs6 JsonProofs7 ReadingSpec ReadingProofs ReadingProofs2 ReadingProofs3 ReadingProofs4 ReadingProofs5.
Import ListNotations.
Local Open Scope string_scope.

Section Documents.
  Context (o : oracle) (v : version) (S : standard v) (C : compiles v) (Sd : sound v).

  Lemma object_decoded k t j : mget k (v_types v) = Some t -> structural t -> clean j ->
    unmarshal_object o v t (tokens j) = match decode o v k false j with Some (VObject b) => Ok b [] | _ => Failed end.
  Proof.
    intros G K Cl. rewrite (decode_struct o v S k false t j G K). destruct j as [|b|s|s|l|ms]; try (destruct b); try reflexivity.
    rewrite (document_read o v t ms Cl). now destruct (fold_left _ _ _).
  Qed.

  Lemma document_meaning k t j b rest : mget k (v_types v) = Some t -> structural t -> clean j -> well_formed j ->
    (unmarshal_object o v t (tokens j) = Ok b rest <-> rest = [] /\ stands o v k false j (VObject b)).
  Proof.
    intros G K Cl W. rewrite (object_decoded k t j G K Cl), <- (decode_meaning o v S C Sd j k false (VObject b) W).
    rewrite (decode_struct o v S k false t j G K).
    destruct j as [|b'|s|s|l|ms]; try (destruct b'); try (split; [discriminate|intros [_ Q]; discriminate Q]).
    - split; [intros Q; injection Q as <- <-; auto|intros [-> Q]; now injection Q as ->].
    - destruct (fold_left _ _ _); cbn; split; try discriminate; [intros Q; injection Q as <- <-; auto|intros [-> Q]; now injection Q as ->|intros [_ Q]; discriminate Q].
  Qed.

  Lemma items_meaning e j m rest : clean j -> well_formed j ->
    (unmarshal_list o v e (tokens j) = Ok m rest <-> rest = [] /\ items_in (stands o v e false) j m).
  Proof.
    intros Cl W. destruct j as [|b|s|s|l|ms]; try (destruct b);
      try (split; [intros Q; discriminate Q|intros [_ [[Q _]|(l' & Q & _)]]; discriminate Q]).
    - split; [intros Q; injection Q as <- <-; split; [|left]; auto|]. intros [-> [[_ ->]|(l' & Q & _)]]; [reflexivity|discriminate Q].
    - rewrite (list_meaning o v S C Sd e l m rest Cl W). apply and_iff_compat_l. split; [intros H; right; eauto|]. intros [[Q _]|(l' & Q & H)]; [discriminate Q|now injection Q as <-].
  Qed.

  (** A document stands for one value at most. *)
  Lemma meaning_unique k link j x y : well_formed j -> stands o v k link j x -> stands o v k link j y -> x = y.
  Proof. intros W H1 H2. apply (decode_meaning o v S C Sd j k link) in H1, H2; auto. congruence. Qed.

  Lemma read_typed k t l b r : mget k (v_types v) = Some t -> structural t -> unmarshal_object o v t l = Ok b r ->
    object_typed v t b /\ (forall x, In x (o_fields b) -> no_nil x).
  Proof.
    intros G K E. destruct (C _ _ G K) as [F Tg]. destruct (object_good o v S C Sd t l b r K F (proj1 (Sd _ _ G) K) E) as (H1 & H2 & _). split; [assumption|].
    intros x I. exact (all1_in _ _ _ H2 I).
  Qed.

  Lemma items_typed e l m r : usable v e -> unmarshal_list o v e l = Ok m r -> all1 (typed v e false) m /\ all1 (fun y => y <> VNil /\ no_nil y) m.
  Proof. intros U E. apply (list_good o v S C Sd) in E; [|assumption]. apply items_parts in E. tauto. Qed.

  Context (Fa : faithful o) (Wn : writes_numbers o).

  Lemma read_written k t l b r : mget k (v_types v) = Some t -> structural t -> unmarshal_object o v t l = Ok b r ->
    exists w, marshal_object o v t (Some b) = WOk w.
  Proof.
    intros G K E. destruct (C _ _ G K) as [F Tg]. destruct (object_good o v S C Sd t l b r K F (proj1 (Sd _ _ G) K) E) as (H1 & _ & H3).
    apply (object_succeeds o v S C Fa t b K F H1). unfold object_printable. apply all_fields_self. destruct H1 as (Cp & _). split; [|intros i a x E1 E2 P; exact (H3 Wn i a x E1 E2 P)].
    symmetry. exact Cp.
  Qed.

  Lemma items_written k t e l m r : mget k (v_types v) = Some t -> plain v t -> t_element t = Some e -> unmarshal_list o v e l = Ok m r ->
    exists w, marshal_list o v e m = WOk w.
  Proof.
    intros G P E H. apply (list_good o v S C Sd) in H; [|now apply (element_usable v t)]. apply items_parts in H as (T & _ & Pr). specialize (Pr Wn).
    apply (list_succeeds o v S C Fa t e m P E T). exact Pr.
  Qed.

  Lemma read_stable k t l b r : mget k (v_types v) = Some t -> structural t -> unmarshal_object o v t l = Ok b r -> object_lossless v t b ->
    exists w b', marshal_object o v t (Some b) = WOk w /\ unmarshal_object o v t w = Ok b' [] /\ same_object v t b b'.
  Proof.
    intros G K E Ls. destruct (read_written k t l b r G K E) as [w Hw]. destruct (C _ _ G K) as [F Tg]. destruct (read_typed k t l b r G K E) as [T _].
    destruct (object_round_trip o v S C Fa t b w K F Tg T Ls Hw) as (b' & H1 & H2). eauto 6.
  Qed.
End Documents.
