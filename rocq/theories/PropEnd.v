(** Properties of the whole way from the directories of a model to the documents. *)
From Coq Require Import Ascii String Bool Arith ZArith NArith List.
From Verif Require Import GoStrings GoMap NamesModel NamesSpec ConceptsModel ConceptsSpec BindingModel GoNamesModel GoTimeModel ReporterModel ReaderModel ReaderSpec VersionsSpec SourceSpec
  SyntaxModel BufferModel BufferExamples ChecksModel ChecksSpec OpenapiModel OpenapiSpec OpenapiProofs6 ConformSpec ToolModel ToolSpec ToolExamples.
From Verif Require Import TextModel ObjectsModel ObjectsSpec JsonModel JsonSpec JsonExamples JsonTextModel JsonTextSpec JsonLexModel ReadingSpec EndProofs EndExamples.
Import ListNotations.
Local Open Scope string_scope.

(** The command writes a specification for each version. The documents written by the generated code conform to it, and the generated
    code reads the documents that conform to it. *)
Theorem C81_end_to_end : forall recover lookup sys paths output inputs m rs0,
  (forall d, sys_mkdir sys d = None) -> (forall f, sys_open sys f = None) -> paths <> [] -> output <> "" ->
  Forall2 (contains lookup) paths inputs -> independent inputs -> read inputs [] = Done (ROk m, rs0) ->
  (forall e, In e (entries inputs) -> flat_source (source e) /\ good_source (source e)) ->
  (forall s v s' v', in_model m s -> in_service s v -> in_model m s' -> in_service s' v' -> spec_path output s v = spec_path output s' v' -> s = s' /\ v = v') ->
  (forall s v, in_model m s -> in_service s v -> distinct_schemas v) ->
  exists n, forall fuel fs, (n <= fuel)%nat -> exists rs fs', openapi_command recover lookup sys fuel paths output fs = Exit 0 rs fs' /\
    forall s v, in_model m s -> in_service s v -> exists spec doc, mget (spec_path output s v) fs' = Some spec /\ json_document spec doc /\
      (forall o k t b l, faithful o -> mget k (v_types v) = Some t -> structural t -> object_typed v t b -> object_publishable v t b ->
         marshal_object o v t (Some b) = WOk l ->
         exists j, json_document (write_tokens 0 l) j /\ conforms doc (JObj [("$ref", JStr ("#/components/schemas/" ++ camel (t_name t)))]) j) /\
      (forall o k t text j, mget k (v_types v) = Some t -> structural t -> json_document text j ->
         conforms doc (JObj [("$ref", JStr ("#/components/schemas/" ++ camel (t_name t)))]) j -> shaped v k false j -> clean j -> reads_numbers o j ->
         exists b, unmarshal_object o v t (lex_text text) = Ok b []).
Proof. exact end_to_end. Qed.
Print Assumptions C81_end_to_end.

Example C81_directories : (forall d, sys_mkdir ex_system d = None) /\ (forall f, sys_open ex_system f = None) /\
  Forall2 (contains ex_directories) ["model"] end_inputs /\ independent end_inputs /\ read end_inputs [] = Done (ROk end_model, end_reports) /\
  (forall e, In e (entries end_inputs) -> flat_source (source e) /\ good_source (source e)) /\
  (forall s v s' v', in_model end_model s -> in_service s v -> in_model end_model s' -> in_service s' v' -> spec_path "out" s v = spec_path "out" s' v' -> s = s' /\ v = v') /\
  (forall s v, in_model end_model s -> in_service s v -> distinct_schemas v) /\ in_model end_model end_service /\ in_service end_service end_version.
Proof.
  exact (conj (fun _ => eq_refl) (conj (fun _ => eq_refl) (conj end_contains (conj end_independent (conj end_read (conj end_source (conj end_separate (conj end_distinct end_in)))))))).
Qed.

Example C81_cluster : faithful ex_oracle /\ mget "cluster" (v_types end_version) = Some end_type /\ structural end_type /\
  object_typed end_version end_type end_object /\ object_publishable end_version end_type end_object /\
  marshal_object ex_oracle end_version end_type (Some end_object) = WOk (tokens end_json) /\
  shaped end_version "cluster" false end_json /\ clean end_json /\ reads_numbers ex_oracle end_json.
Proof.
  destruct end_found as (A & B & _), end_written as (C & D & E), end_shaped as (F & G & _ & H). repeat (split; [assumption || exact ex_faithful|]). exact H.
Qed.

(** In the example the document of the cluster conforms to the published specification, and is read back. *)
Example C81_exchange : exists n, forall fuel, (n <= fuel)%nat -> exists rs fs' spec doc, openapi_command ex_recover ex_directories ex_system fuel ["model"] "out" [] = Exit 0 rs fs' /\
  mget "out/clusters_mgmt/v1/openapi.json" fs' = Some spec /\ json_document spec doc /\
  conforms doc (JObj [("$ref", JStr "#/components/schemas/Cluster")]) end_json /\
  exists b, unmarshal_object ex_oracle end_version end_type (lex_text end_text) = Ok b [].
Proof. exact end_exchange. Qed.
