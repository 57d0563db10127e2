(** Property theorems about the OpenAPI specifications (C47 - C49). *)
From Coq Require Import Ascii String Bool Arith ZArith NArith List.
From Verif Require Import GoStrings GoMap NamesModel ConceptsModel ReporterModel ReaderModel ReaderSpec ReaderExamples BindingModel GoNamesModel
  ObjectsSpec TextModel BufferModel BufferSpec BufferExamples JsonModel JsonSpec JsonTextModel JsonTextSpec JsonTextProofs3 ChecksModel ChecksSpec OpenapiModel
  OpenapiSpec OpenapiProofs5 OpenapiProofs6 OpenapiExamples.
Import ListNotations.
Local Open Scope string_scope.

(** C47: what is written is always the text of a JSON document, and of only one. *)
Theorem C47_document : forall sys fuel output s v reports fs reports' fs',
  generate_spec sys fuel output s v reports fs = Done (None, reports', fs') -> exists j, published sys fuel output s v reports fs j.
Proof. exact written_published. Qed.
Print Assumptions C47_document.

Theorem C47_general_information : forall sys fuel output s v reports fs j, published sys fuel output s v reports fs j ->
  at_path j ["openapi"] (JStr "3.0.0") /\ at_path j ["info"; "version"] (JStr (name_string (v_name v))) /\ at_path j ["info"; "title"] (JStr (name_string (s_name s))) /\
  (exists a b, at_path j ["servers"] (JArr [a; b]) /\ field a "url" (JStr "https://api.openshift.com") /\ field b "url" (JStr "https://api.stage.openshift.com")) /\
  at_path j ["components"; "securitySchemes"; "bearer"; "scheme"] (JStr "bearer") /\ at_path j ["security"] (JArr [JObj [("bearer", JArr [])]]).
Proof. exact general. Qed.
Print Assumptions C47_general_information.

(** The document is written for every model that has a root, no loops, no dangling references and no undefined types. *)
Theorem C47_succeeds : forall sys output s v r,
  (forall d, sys_mkdir sys d = None) -> (forall f, sys_open sys f = None) ->
  root v = Some r -> ~ has_dead_end v -> targets_exist v -> ~ has_loop v -> (forall k, used v k -> expressible v k) ->
  exists n, forall fuel reports fs, (n <= fuel)%nat -> errors_in reports 0 -> exists j reports' fs',
    published sys fuel output s v reports fs j /\ generate_spec sys fuel output s v reports fs = Done (None, reports', fs') /\ errors_in reports' 0.
Proof. exact spec_succeeds. Qed.
Print Assumptions C47_succeeds.

(** In particular for all the versions of the models that the reader returns, unless some types were left undefined. *)
Theorem C47_returned_models : forall sys output inputs rs0 m rs,
  (forall d, sys_mkdir sys d = None) -> (forall f, sys_open sys f = None) ->
  read inputs rs0 = Done (ROk m, rs) ->
  (forall s v k t, in_model m s -> in_service s v -> type_at k v = Some t -> t_kind t <> UndefinedType) ->
  exists n, forall fuel fs, (n <= fuel)%nat -> exists reports' fs', run_openapi sys fuel output m rs fs = Done (None, reports', fs') /\ errors_in reports' 0 /\
    (forall p, (forall s v, in_model m s -> in_service s v -> p <> spec_path output s v) -> mget p fs' = mget p fs) /\
    (forall s v, in_model m s -> in_service s v -> exists s' v' reports0 fs0 text j, in_model m s' /\ in_service s' v' /\
       spec_path output s' v' = spec_path output s v /\ mget (spec_path output s v) fs' = Some text /\ json_document text j /\
       published sys fuel output s' v' reports0 fs0 j).
Proof. exact returned_specs. Qed.
Print Assumptions C47_returned_models.

(** The generator only succeeds if the files of all the versions can be written. *)
Theorem C47_run_succeeds : forall sys fuel output m reports fs reports' fs', run_openapi sys fuel output m reports fs = Done (None, reports', fs') ->
  forall s v, In s (services m) -> In v (versions s) -> sys_mkdir sys (path_dir (spec_path output s v)) = None /\ sys_open sys (spec_path output s v) = None.
Proof. exact run_files. Qed.
Print Assumptions C47_run_succeeds.

(** It stops at the first error: the files of the versions before it are written, and no other file changes. *)
Theorem C47_run_fails : forall sys fuel output m reports fs e reports' fs', run_openapi sys fuel output m reports fs = Done (Some e, reports', fs') ->
  exists before s v after, spec_pairs m = (before ++ (s, v) :: after)%list /\
    (forall p, (forall s' v', In (s', v') before -> p <> spec_path output s' v') -> mget p fs' = mget p fs) /\
    (forall s' v', In (s', v') before -> exists text, mget (spec_path output s' v') fs' = Some text).
Proof. exact (fun sys fuel output m => specs_stop sys fuel output (spec_pairs m)). Qed.
Print Assumptions C47_run_fails.

Example C47_runs : exists m rs e reports fs, read ex_inputs [] = Done (ROk m, rs) /\
  run_openapi full_system 20 "out" m rs [] = Done (Some e, reports, fs) /\ e = "disk full" /\ fs = [].
Proof. exact ex_fails. Qed.

(** Nothing is written when errors have already been reported. *)
Theorem C47_refused : forall sys fuel output s v reports fs, ~ errors_in reports 0 ->
  (exists m r, generate_spec sys fuel output s v reports fs = Done (Some m, r, fs)) \/
  generate_spec sys fuel output s v reports fs = Panics \/ generate_spec sys fuel output s v reports fs = OutOfFuel.
Proof. exact spec_refused. Qed.
Print Assumptions C47_refused.

Example C47_written : exists m rs s v j, read ex_inputs [] = Done (ROk m, rs) /\ in_model m s /\ in_service s v /\ published ex_system 20 "out" s v [] [] j /\
  exists ps, at_path j ["paths"] (JObj ps) /\ map fst ps = ["/api/svc/v1"; "/api/svc/v1/clusters"; "/api/svc/v1/clusters/{cluster_id}"].
Proof. exact ex_published. Qed.
Example C47_conditions : exists v r, root v = Some r /\ ~ has_dead_end v /\ targets_exist v /\ ~ has_loop v /\ (forall k, used v k -> expressible v k) /\
  used v "cluster_list" /\ (exists path, length path = 2%nat /\ exists x, leads v path x).
Proof. exact ex_succeeds. Qed.
Example C47_model : exists m rs, read ex_inputs [] = Done (ROk m, rs) /\
  (forall s v k t, in_model m s -> in_service s v -> type_at k v = Some t -> t_kind t <> UndefinedType) /\ length m = 1%nat.
Proof. exact ex_returned. Qed.
Example C47_errors : ~ errors_in [err "bad"] 0.
Proof. exact ex_refused. Qed.

(** The names of the members of the objects are expected to be different, but they aren't always: a method of the root has
    the same path as the metadata. *)
Theorem C47_different_names_refuted : exists inputs fuel m rs s v j,
  read inputs [] = Done (ROk m, rs) /\ in_model m s /\ in_service s v /\ published ex_system fuel "out" s v [] [] j /\ repeated_name j ["paths"].
Proof. exact root_method_repeated. Qed.
Print Assumptions C47_different_names_refuted.

(** C48: all the operations described are those of the methods that can be reached, or the one of the metadata. *)
Theorem C48_operations : forall sys fuel output s v reports fs j, published sys fuel output s v reports fs j ->
  exists ps, field j "paths" ps /\
    (exists op, operation ps (url ["api"; service_segment s; version_segment v]) "get" op /\ describes_metadata op) /\
    (forall t vb op, operation ps t vb op ->
       (t = url ["api"; service_segment s; version_segment v] /\ vb = "get" /\ describes_metadata op) \/
       exists path r m, leads v path r /\ In m (r_methods r) /\ t = template s v path m /\ vb = str_lower (http_method m) /\ describes v path m op) /\
    (unambiguous s v -> forall path r m, leads v path r -> In m (r_methods r) ->
       exists op, operation ps (template s v path m) (str_lower (http_method m)) op /\ describes v path m op).
Proof. exact operations_sound. Qed.
Print Assumptions C48_operations.

(** Different segments are enough to have different paths. *)
Theorem C48_different_segments : forall s v, distinct_segments v -> unambiguous s v.
Proof. exact distinct_unambiguous. Qed.
Print Assumptions C48_different_segments.

Example C48_distinct : exists m rs s v j, read ex_inputs [] = Done (ROk m, rs) /\ in_model m s /\ in_service s v /\ published ex_system 20 "out" s v [] [] j /\
  distinct_segments v /\ length (v_resources v) = 3%nat.
Proof. exact ex_distinct. Qed.

(** Without that condition there are methods that aren't described. *)
Theorem C48_every_method_refuted : exists inputs fuel m rs s v j,
  read inputs [] = Done (ROk m, rs) /\ in_model m s /\ in_service s v /\ published ex_system fuel "out" s v [] [] j /\
  exists path r x, leads v path r /\ In x (r_methods r) /\
    forall ps op, field j "paths" ps -> ~ operation ps (template s v path x) (str_lower (http_method x)) op.
Proof. exact same_segment_undescribed. Qed.
Print Assumptions C48_every_method_refuted.

(** Two methods of a resource can use the same verb, and then the verb is repeated. *)
Theorem C48_one_operation_refuted : exists inputs fuel m rs s v j,
  read inputs [] = Done (ROk m, rs) /\ in_model m s /\ in_service s v /\ published ex_system fuel "out" s v [] [] j /\
  repeated_name j ["paths"; "/api/svc/v1/nodes"].
Proof. exact same_verb_repeated. Qed.
Print Assumptions C48_one_operation_refuted.

(** The names of the properties of the bodies aren't those that the client uses when they are changed with annotations. *)
Theorem C48_body_names_refuted : exists inputs fuel m rs s v j,
  read inputs [] = Done (ROk m, rs) /\ in_model m s /\ in_service s v /\ published ex_system fuel "out" s v [] [] j /\
  exists r x p l, mget "nodes" (v_resources v) = Some r /\ In x (r_methods r) /\ In p (request_body_params v x) /\
    at_path j ["paths"; "/api/svc/v1/nodes/reboot"; "post"; "requestBody"; "content"; "application/json"; "schema"; "properties"] (JObj l) /\
    ~ In (body_parameter_name p) (map fst l).
Proof. exact renamed_misnamed. Qed.
Print Assumptions C48_body_names_refuted.

(** C49: all the references lead to schemas of the document. *)
Theorem C49_references : forall sys fuel output s v reports fs j r, published sys fuel output s v reports fs j -> refers j r ->
  exists n x ss, r = ("#/components/schemas/" ++ n)%string /\ at_path j ["components"; "schemas"] (JObj ss) /\ In (n, x) ss.
Proof. exact references_resolve. Qed.
Print Assumptions C49_references.

(** The schemas are exactly those of the types, together with those of the metadata and of the errors. *)
Theorem C49_schemas : forall sys fuel output s v reports fs j, published sys fuel output s v reports fs j ->
  exists ss, at_path j ["components"; "schemas"] (JObj ss) /\
    (forall n x, In (n, x) ss ->
      (n = "Metadata" /\ x = metadata_schema) \/ (n = "Error" /\ error_schema x) \/ exists t, In t (types v) /\ n = camel (t_name t) /\ schema v t x) /\
    In ("Metadata", metadata_schema) ss /\ (exists x, In ("Error", x) ss /\ error_schema x) /\
    (forall t, In t (types v) -> t_kind t = EnumType \/ structural t -> exists x, In (camel (t_name t), x) ss /\ schema v t x).
Proof. exact schemas_exact. Qed.
Print Assumptions C49_schemas.

Example C49_referred : exists m rs s v j, read ex_inputs [] = Done (ROk m, rs) /\ in_model m s /\ in_service s v /\ published ex_system 20 "out" s v [] [] j /\
  refers j "#/components/schemas/Cluster" /\ refers j "#/components/schemas/Metadata".
Proof. exact ex_refers. Qed.

(** A type can have the name of one of those, and then the reference is ambiguous. *)
Theorem C49_one_schema_refuted : exists inputs fuel m rs s v j,
  read inputs [] = Done (ROk m, rs) /\ in_model m s /\ in_service s v /\ published ex_system fuel "out" s v [] [] j /\
  repeated_name j ["components"; "schemas"].
Proof. exact error_type_repeated. Qed.
Print Assumptions C49_one_schema_refuted.

(** The attributes of a class can have the names of those that all the classes have. *)
Theorem C49_different_properties_refuted : exists inputs fuel m rs s v j,
  read inputs [] = Done (ROk m, rs) /\ in_model m s /\ in_service s v /\ published ex_system fuel "out" s v [] [] j /\
  repeated_name j ["components"; "schemas"; "Thing"; "properties"].
Proof. exact own_id_repeated. Qed.
Print Assumptions C49_different_properties_refuted.
