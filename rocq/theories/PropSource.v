(** Properties of the code generated for the types of a source: what the declarations say about the documents. *)
From Coq Require Import Ascii String Bool Arith ZArith NArith List.
From Verif Require Import GoStrings GoMap NamesModel NamesSpec ConceptsModel ConceptsSpec BindingModel GoNamesModel GoTimeModel ReporterModel
  ReaderModel ChecksModel ReaderSpec ReaderExamples SourceSpec SourceProofs SourceProofs3.
From Verif Require Import VersionsSpec.
From Verif Require Import TextModel ObjectsModel ObjectsSpec JsonModel JsonSpec JsonExamples JsonTextModel JsonTextSpec JsonLexModel ReadingSpec SourceExamples.
Import ListNotations.
Local Open Scope string_scope.

(** C78: all the types of a version come from its source: they are predefined, declared, or lists and maps. *)
Theorem C78_types_from_source : forall sd vd fs rs0 m rs s v, read [[(sd, [(vd, fs)])]] rs0 = Done (ROk m, rs) -> in_model m s -> in_service s v ->
  forall k t, type_at k v = Some t -> origin (all_decls fs) v k t.
Proof. exact returned_origin. Qed.
Print Assumptions C78_types_from_source.

Example C78_source : (exists m rs s, read [[("svc", [("v1", src_files)])]] [] = Done (ROk m, rs) /\ in_model m s /\ in_service s src_version) /\
  type_at "cluster" src_version = Some src_type /\ List.length (t_attrs src_type) = 5.
Proof. exact (conj src_returned (conj src_found eq_refl)). Qed.

(** The versions that are read meet the conditions of the properties of the generated code, if the source has no lists or maps of lists or
    maps and the names of the attributes are different in the documents. *)
Theorem C78_versions : forall sd vd fs rs0 m rs s v, read [[(sd, [(vd, fs)])]] rs0 = Done (ROk m, rs) -> in_model m s -> in_service s v ->
  standard v /\ (flat_source (all_decls fs) -> sound v) /\ (good_source (all_decls fs) -> compiles v) /\
  (flat_source (all_decls fs) -> forall r, In r (references (all_decls fs)) ->
     exists t, mget (ref_key r) (v_types v) = Some t /\ t_kind t <> UndefinedType /\ (In (t_kind t) [ListType; MapType] -> plain v t)).
Proof. exact returned_source. Qed.
Print Assumptions C78_versions.

Example C78_conditions : flat_source (all_decls src_files) /\ good_source (all_decls src_files) /\ In (RList "Node") (references (all_decls src_files)).
Proof. refine (conj src_flat (conj src_good _)). vm_compute. tauto. Qed.

(** The same for the versions that are read together with others. *)
Theorem C78_together : forall inputs m rs sv w, independent inputs -> read inputs [] = Done (ROk m, rs) -> in_model m sv -> in_service sv w ->
  exists e, In e (entries inputs) /\ standard w /\ (flat_source (source e) -> sound w) /\ (good_source (source e) -> compiles w) /\
    (forall k t, type_at k w = Some t -> origin (source e) w k t) /\
    exists m' rs' sv', read (alone e) [] = Done (ROk m', rs') /\ in_model m' sv' /\ in_service sv' w.
Proof. exact together_source. Qed.
Print Assumptions C78_together.

Example C78_inputs : independent src_inputs /\ List.length (entries src_inputs) = 2 /\ exists m rs, read src_inputs [] = Done (ROk m, rs).
Proof. split; [exact src_independent|]. split; [reflexivity|]. eexists _, _. vm_compute. reflexivity. Qed.

(** The reader doesn't check those conditions. *)
Theorem C78_names_refuted : exists m rs s v, read [[("svc", [("v1", src_clash)])]] [] = Done (ROk m, rs) /\ in_model m s /\ in_service s v /\ ~ compiles v.
Proof. exact src_clash_compiles. Qed.
Print Assumptions C78_names_refuted.

Theorem C78_lists_refuted : exists m rs s v, read [[("svc", [("v1", src_nested)])]] [] = Done (ROk m, rs) /\ in_model m s /\ in_service s v /\ ~ sound v.
Proof. exact src_nested_sound. Qed.
Print Assumptions C78_lists_refuted.

(** There is a type for each declared class or struct. *)
Theorem C78_declared : forall sd vd fs rs0 m rs s v, read [[(sd, [(vd, fs)])]] rs0 = Done (ROk m, rs) -> in_model m s -> in_service s v ->
  camel_source (all_decls fs) -> forall d id fixed ms, In d (all_decls fs) -> has_members d id fixed ms -> ~ In (key_of id) (derived_types (all_decls fs)) ->
  exists t, find_type (parse_using_case id) v = Some t /\ type_of_decl d t.
Proof. exact declared_type. Qed.
Print Assumptions C78_declared.

Example C78_class : camel_source (all_decls src_files) /\ In src_cluster (all_decls src_files) /\
  (exists ms, has_members src_cluster "Cluster" ["kind"; "id"; "href"] ms) /\ ~ In (key_of "Cluster") (derived_types (all_decls src_files)).
Proof. exact (conj src_camel (conj (proj1 src_declared) (conj (ex_intro _ _ (proj1 (proj2 src_declared))) (proj2 (proj2 src_declared))))). Qed.

(** The text of a document is accepted if and only if all the members with the names of declared attributes stand for values of the declared
    types, and the identifier, the link and the kind of the objects of classes are strings. *)
Theorem C78_accepted : forall sd vd fs rs0 m rs s v, read [[(sd, [(vd, fs)])]] rs0 = Done (ROk m, rs) -> in_model m s -> in_service s v ->
  flat_source (all_decls fs) -> good_source (all_decls fs) -> forall d id fixed ms, In d (all_decls fs) -> has_members d id fixed ms -> ~ In (key_of id) (derived_types (all_decls fs)) ->
  forall t, find_type (parse_using_case id) v = Some t -> type_of_decl d t ->
  forall o text members, json_document text (JObj members) -> clean (JObj members) ->
  ((exists b, unmarshal_object o v t (lex_text text) = Ok b []) <->
   (forall md j, In md ms -> In (json_name md, j) members -> exists x, stands o v (ref_key (md_ref md)) (md_link md) j x) /\
   (forall f j, In f fixed -> In (f, j) members -> exists s, text_in j s)).
Proof. exact declared_accepted. Qed.
Print Assumptions C78_accepted.

Example C78_document : find_type (parse_using_case "Cluster") src_version = Some src_type /\ json_document src_text src_doc /\ clean src_doc /\
  unmarshal_object ex_oracle src_version src_type (lex_text src_text) = Ok src_object [] /\
  unmarshal_object ex_oracle src_version src_type (lex_text (write_tokens 0 (tokens (JObj [("name", JNum "1")])))) = Failed.
Proof. exact (conj src_found (conj (proj1 src_document) (conj (proj2 src_document) (conj src_read src_rejected)))). Qed.

(** The getters of the attributes return what the last members with their names stand for, and say if there are such members. *)
Theorem C78_read : forall sd vd fs rs0 m rs s v, read [[(sd, [(vd, fs)])]] rs0 = Done (ROk m, rs) -> in_model m s -> in_service s v ->
  flat_source (all_decls fs) -> good_source (all_decls fs) -> forall d id fixed ms, In d (all_decls fs) -> has_members d id fixed ms -> ~ In (key_of id) (derived_types (all_decls fs)) ->
  forall t, find_type (parse_using_case id) v = Some t -> type_of_decl d t ->
  forall o text members b rest, json_document text (JObj members) -> clean (JObj members) ->
  unmarshal_object o v t (lex_text text) = Ok b rest -> rest = [] /\
  forall md, In md ms -> exists i, nth_error (t_attrs t) i = Some (attribute_of md) /\
    ((exists j x, last_member (json_name md) members j /\ stands o v (ref_key (md_ref md)) (md_link md) j x /\
        get_attr v t i (attribute_of md) (Some b) = (x, true)) \/
     (absent (json_name md) members /\ exists z, zero_of v (ref_key (md_ref md)) z /\ get_attr v t i (attribute_of md) (Some b) = (z, false))).
Proof. exact declared_read. Qed.
Print Assumptions C78_read.

Example C78_name : exists i a, nth_error (t_attrs src_type) i = Some a /\ attribute_name a = "name" /\
  get_attr src_version src_type i a (Some src_object) = (VScalar (SString "mine"), true).
Proof. exact src_getters. Qed.

(** The documents that are written have the members of the attributes that are present, and no others. *)
Theorem C78_written : forall sd vd fs rs0 m rs s v, read [[(sd, [(vd, fs)])]] rs0 = Done (ROk m, rs) -> in_model m s -> in_service s v ->
  good_source (all_decls fs) -> forall d id fixed ms, In d (all_decls fs) -> has_members d id fixed ms -> ~ In (key_of id) (derived_types (all_decls fs)) ->
  forall t, find_type (parse_using_case id) v = Some t -> type_of_decl d t ->
  forall o b l, faithful o -> object_typed v t b -> marshal_object o v t (Some b) = WOk l ->
  exists members, json_document (write_tokens 0 l) (JObj members) /\
    (forall f, In f (map fst members) -> In f fixed \/ In f (json_names ms)) /\
    forall md, In md ms -> exists i, nth_error (t_attrs t) i = Some (attribute_of md) /\
      ((exists j x, get_attr v t i (attribute_of md) (Some b) = (x, true) /\ x <> VNil /\ In (json_name md, j) members /\ shows o v (ref_key (md_ref md)) x j) \/
       (exists x p, get_attr v t i (attribute_of md) (Some b) = (x, p) /\ (p = false \/ x = VNil) /\ absent (json_name md) members)).
Proof. exact declared_written. Qed.
Print Assumptions C78_written.

Example C78_object : faithful ex_oracle /\ object_typed src_version src_type src_object /\ exists l, marshal_object ex_oracle src_version src_type (Some src_object) = WOk l /\ write_tokens 0 l <> "".
Proof. exact (conj ex_faithful (conj src_typed src_written)). Qed.
