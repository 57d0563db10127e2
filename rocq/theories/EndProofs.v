(** Proofs about the whole way from the directories of a model to the documents. *)
From Coq Require Import Ascii String Bool Arith ZArith Lia Permutation List.
From Verif Require Import GoStrings GoMap NamesModel NamesSpec ConceptsModel ConceptsSpec BindingModel GoNamesModel ReporterModel ReaderModel ReaderSpec VersionsSpec SourceSpec SourceProofs SourceProofs3
  SyntaxModel BufferModel ChecksModel ChecksSpec OpenapiModel OpenapiSpec OpenapiProofs6 ConformSpec ConformProofs3 ToolModel ToolSpec ToolProofs2.
From Verif Require Import TextModel ObjectsModel ObjectsSpec JsonModel JsonSpec JsonProofs8 JsonTextModel JsonTextSpec JsonTextProofs JsonTextProofs3 JsonLexModel JsonLexProofs ReadingSpec ReadingProofs7.
Import ListNotations.
Local Open Scope string_scope.

(** No type of an accepted model is undefined. *)
Lemma origin_defined ds v k t : origin ds v k t -> t_kind t <> UndefinedType.
Proof.
  intros [k0 t0 H|d t0 _ H| | | | ]; try congruence.
  - cbn in H. intros E. rewrite E in H. intuition discriminate.
  - destruct d; cbn in H; try contradiction; destruct H as (_ & K & _); congruence.
Qed.

Section End.
  Context (recover : string -> list report * outcome (list decl)) (lookup : string -> found) (sys : system).
  Context (paths : list string) (output : string) (inputs : list (list service_dir)) (m : model) (rs0 : list report).
  Hypothesis Mk : forall d, sys_mkdir sys d = None.
  Hypothesis Op : forall f, sys_open sys f = None.
  Hypothesis Np : paths <> [].
  Hypothesis No : output <> "".
  Hypothesis Ct : Forall2 (contains lookup) paths inputs.
  Hypothesis In_ : independent inputs.
  Hypothesis Rd : read inputs [] = Done (ROk m, rs0).
  Hypothesis Src : forall e, In e (entries inputs) -> flat_source (source e) /\ good_source (source e).
  Hypothesis Sep : forall s v s' v', in_model m s -> in_service s v -> in_model m s' -> in_service s' v' ->
    spec_path output s v = spec_path output s' v' -> s = s' /\ v = v'.
  Hypothesis Ds : forall s v, in_model m s -> in_service s v -> distinct_schemas v.

  Lemma end_to_end : exists n, forall fuel fs, (n <= fuel)%nat -> exists rs fs', openapi_command recover lookup sys fuel paths output fs = Exit 0 rs fs' /\
    forall s v, in_model m s -> in_service s v -> exists spec doc, mget (spec_path output s v) fs' = Some spec /\ json_document spec doc /\
      (forall o k t b l, faithful o -> mget k (v_types v) = Some t -> structural t -> object_typed v t b -> object_publishable v t b ->
         marshal_object o v t (Some b) = WOk l ->
         exists j, json_document (write_tokens 0 l) j /\ conforms doc (JObj [("$ref", JStr ("#/components/schemas/" ++ camel (t_name t)))]) j) /\
      (forall o k t text j, mget k (v_types v) = Some t -> structural t -> json_document text j ->
         conforms doc (JObj [("$ref", JStr ("#/components/schemas/" ++ camel (t_name t)))]) j -> shaped v k false j -> clean j -> reads_numbers o j ->
         exists b, unmarshal_object o v t (lex_text text) = Ok b []).
  Proof.
    assert (Ac : accepted lookup paths m) by (exists inputs, rs0; split; assumption).
    destruct (openapi_publishes recover lookup sys paths output m Mk Op Np No Ac) as (n & H).
    { intros s v k t Hs Hv Ht. destruct (together_source _ _ _ _ _ In_ Rd Hs Hv) as (e & _ & _ & _ & _ & O & _). exact (origin_defined _ _ _ _ (O k t Ht)). }
    exists n. intros fuel fs L. destruct (H fuel fs L) as (rs & fs' & E & _ & _ & P). exists rs, fs'. split; [exact E|].
    intros s v Hs Hv. destruct (P s v Hs Hv) as (s' & v' & r0 & f0 & spec & doc & Hs' & Hv' & Q & M & D & Pub).
    destruct (Sep _ _ _ _ Hs' Hv' Hs Hv Q) as [-> ->]. exists spec, doc. split; [exact M|]. split; [exact D|].
    destruct (together_source _ _ _ _ _ In_ Rd Hs Hv) as (e & He & St & Fl & Gd & _). destruct (Src e He) as [F G].
    pose proof (Fl F) as So. pose proof (Gd G) as Co. pose proof (Ds s v Hs Hv) as Di. split.
    - intros o k t b l Fo T K B Pb W. destruct (published_objects sys fuel output s v r0 f0 doc Pub St Co Di o k t b l Fo T K B Pb W) as (j & -> & Cf).
      exists j. split; [|exact Cf].
      destruct (object_document o v t b _ St Co Fo K (proj1 (Co _ _ T K)) B W) as (j2 & E2 & W2 & _). apply tokens_unique in E2. subst j2. now apply document_text.
    - intros o k t text j T K Dj Cf Sh Cl Rn. rewrite (lex_document _ _ Dj).
      exact (conforming_object sys fuel output s v r0 f0 doc Pub St Co So o k t j T K Cf Sh Cl (proj1 Dj) Rn).
  Qed.
End End.
