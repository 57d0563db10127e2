(** Proofs about the generator of OpenAPI specifications: the complete documents. *)
From Coq Require Import Ascii String Bool Arith ZArith NArith Lia List.
From Verif Require Import GoStrings GoStringsProofs GoMap GoMapProofs NamesModel ConceptsModel ReporterModel ReaderModel ReaderSpec BindingModel
  GoNamesModel ObjectsModel ObjectsSpec TextModel BufferModel BufferSpec BufferProofs BufferProofs3 JsonModel JsonSpec JsonTextModel JsonTextSpec JsonTextProofs
  JsonTextProofs3 ChecksModel ChecksSpec PathsModel OpenapiModel OpenapiSpec OpenapiProofs OpenapiProofs2.
Import ListNotations.
Local Open Scope string_scope.

(** * Paths *)

Definition verb (m : method) : string := str_lower (http_method m).
Definition plain_methods (r : resource) : list method := filter (fun m => String.eqb (method_segment m) "") (r_methods r).
Definition segment_methods (r : resource) : list method := filter (fun m => negb (String.eqb (method_segment m) "")) (r_methods r).
Definition resource_doc (v : version) (prefix : string) (path : list locator) (r : resource) (ms : list (string * json)) : Prop :=
  exists a b, ms = (match a with [] => [] | _ => [(prefix, JObj a)] end ++ b)%list /\
    Forall2 (fun m x => exists op, x = (verb m, op) /\ describes v path m op) (plain_methods r) a /\
    Forall2 (fun m x => exists op, x = (prefix ++ "/" ++ method_segment m, JObj [(verb m, op)]) /\ describes v path m op) (segment_methods r) b.

Section Documents.
  Context (fuel : nat) (s : service) (v : version).

  Lemma resource_paths_yields prefix path r : quiet (generate_resource_paths fuel v prefix path r) ->
    exists ms, yields (generate_resource_paths fuel v prefix path r) ms /\ resource_doc v prefix path r ms.
  Proof.
    intros Q. unfold generate_resource_paths in *. fold (plain_methods r) in *. fold (segment_methods r) in *. quiets.
    destruct (yields_each (fun m => [StartObject (Some (prefix ++ "/" ++ method_segment m)%string)] ++ generate_method fuel v path m ++ [EndObject])%list
      (fun m x => exists op, x = (prefix ++ "/" ++ method_segment m, JObj [(verb m, op)]) /\ describes v path m op) (segment_methods r)) as (b & YB & FB).
    { intros m I. match goal with H : quiet (flat_map _ _) |- _ => pose proof (quiet_flat_map _ _ _ H I) as QM end. cbn [app] in QM. quiets.
      destruct (method_yields fuel v path m) as (op & Y & D); [assumption|]. eexists. split; [intros rest n acc st; run; reflexivity|]. eauto. }
    destruct (plain_methods r) as [|m0 ms0] eqn:P; cbn [length Nat.ltb Nat.leb] in *.
    - exists b. split; [exact YB|]. exists [], b. rewrite P. auto.
    - rewrite <- P in *. quiets. destruct (yields_each (generate_method fuel v path) (fun m x => exists op, x = (verb m, op) /\ describes v path m op) (plain_methods r))
        as (a & YA & FA).
      { intros m I. match goal with H : quiet (flat_map (generate_method _ _ _) _) |- _ => pose proof (quiet_flat_map _ _ _ H I) as QM end.
        destruct (method_yields fuel v path m) as (op & Y & D); [assumption|]. exists (verb m, op). eauto. }
      exists ([(prefix, JObj a)] ++ b)%list. split; [|exists a, b; repeat split; auto; destruct a; [rewrite P in FA; inversion FA|reflexivity]].
      intros rest n acc st. run. reflexivity.
  Qed.

  Definition metadata_ref : string * json := ("$ref", JStr "#/components/schemas/Metadata").
  Definition metadata_operation : json :=
    JObj [("description", JStr "Retrieves the version metadata.");
          ("responses", JObj [("200", JObj [("description", JStr "Success."); content_of [metadata_ref]]); default_response])].
  Lemma metadata_path_yields : yields (generate_metadata_path s v) [(absolute_path s v [], JObj [("get", metadata_operation)])].
  Proof.
    pose proof default_response_yields as D. intros rest n acc st. unfold generate_metadata_path, json_content. cbn [generate_description String.eqb].
    remember (absolute_path s v []) as p. run. reflexivity.
  Qed.
  Lemma metadata_operation_spec : describes_metadata metadata_operation.
  Proof.
    unfold describes_metadata, metadata_operation. split; [find_field|]. split; [find_none|]. split; [find_none|].
    eexists _, _. split; [find_field|]. split; [find_field|]. split; [find_path|apply default_response_spec].
  Qed.

  (** The members of the object that contains the paths. *)
  Definition prefixes_of (index : list (string * list locator)) : list string := sort (fun a b => Z.ltb (str_compare a b) 0) (mkeys index).
  Definition paths_doc (ms : list (string * json)) : Prop :=
    exists ps r root_ms rest_ms, paths fuel v = Done ps /\ root v = Some r /\
      ms = ((absolute_path s v [], JObj [("get", metadata_operation)]) :: root_ms ++ concat rest_ms)%list /\
      resource_doc v (absolute_path s v []) [] r root_ms /\
      Forall2 (fun prefix x => exists path r, mget prefix (path_index s v ps) = Some path /\ last_target v path = Some r /\ resource_doc v prefix path r x)
        (prefixes_of (path_index s v ps)) rest_ms.

  Lemma paths_yields : quiet (generate_paths fuel s v) ->
    exists ms, yields (generate_paths fuel s v) [("paths", JObj ms)] /\ paths_doc ms.
  Proof.
    intros Q. unfold generate_paths in *. destruct (paths fuel v) as [ps| |] eqn:P; [|quiets; contradiction|quiets; contradiction].
    fold (prefixes_of (path_index s v ps)) in *. quiets. pose proof metadata_path_yields as YM.
    destruct (root v) as [r|] eqn:R; [|quiets; contradiction].
    destruct (resource_paths_yields (absolute_path s v []) [] r) as (root_ms & YR & DR); [assumption|].
    match goal with H : quiet (flat_map ?f _) |- _ => destruct (yields_all f (fun prefix x => exists path r, mget prefix (path_index s v ps) = Some path /\
      last_target v path = Some r /\ resource_doc v prefix path r x) (prefixes_of (path_index s v ps))) as (rest_ms & YS & DS) end.
    { intros prefix I. match goal with H : quiet (flat_map _ _) |- _ => pose proof (quiet_flat_map _ _ _ H I) as QP end. cbn beta in QP.
      destruct (mget prefix (path_index s v ps)) as [path|]; [|quiets; contradiction]. destruct (last_target v path) as [r'|] eqn:L; [|quiets; contradiction].
      destruct (resource_paths_yields prefix path r' QP) as (x & Y & D). exists x. split; [assumption|]. eauto. }
    eexists. split; [|exists ps, r, root_ms, rest_ms; split; [assumption|]; split; [assumption|]; split; [reflexivity|]; split; assumption].
    intros rest n acc st. run. reflexivity.
  Qed.

  (** * Schemas *)

  Lemma struct_property_yields a : quiet (generate_struct_property fuel v a) ->
    exists x, yields (generate_struct_property fuel v a) [x] /\ property v (attribute_name a) (a_doc a) (a_type a) x.
  Proof.
    intros Q. unfold generate_struct_property in *. quiets. destruct (type_schema_fuel v fuel (a_type a)) as (l & Y & T); [assumption|].
    pose proof (description_yields (a_doc a)) as D. change (attribute_property_name a) with (attribute_name a). remember (attribute_name a) as nm.
    exists (nm, JObj (described (a_doc a) l)). split; [|exists l; auto]. intros rest n acc st. run. now rewrite <- described_app.
  Qed.

  Lemma string_property_yields n doc : doc <> "" -> yields (generate_string_property n doc) [string_property n doc].
  Proof.
    intros N rest m acc st. pose proof (description_yields doc) as D. rewrite described_some in D by now apply String.eqb_neq.
    unfold generate_string_property. run. reflexivity.
  Qed.

  Definition schema_doc (t : typ) (ms : list (string * json)) : Prop :=
    match t_kind t with
    | EnumType | ClassType | StructType => exists x, ms = [(camel (t_name t), x)] /\ schema v t x
    | _ => ms = []
    end.

  Lemma items_add {A} (f : A -> string) l : adds (map (fun x => Item (JStr (f x))) l) (map (fun x => JStr (f x)) l).
  Proof.
    induction l as [|a l IH]; [apply adds_nil|]. intros rest n acc st. cbn [map]. run. reflexivity.
  Qed.

  Lemma schema_yields t : quiet (generate_schema fuel v t) -> exists ms, yields (generate_schema fuel v t) ms /\ schema_doc t ms.
  Proof.
    intros Q. unfold generate_schema, is_enum, is_struct in *.
    assert (St : structural t -> quiet (generate_struct_schema fuel v t) -> exists x, yields (generate_struct_schema fuel v t) [(camel (t_name t), x)] /\ schema v t x).
    { clear Q. intros S Q. unfold generate_struct_schema in *. quiets. pose proof (description_yields (t_doc t)) as D. unfold schema_name in *.
      destruct (yields_each (generate_struct_property fuel v) (fun a x => property v (attribute_name a) (a_doc a) (a_type a) x) (t_attrs t)) as (xs & Y & F).
      { intros a I. apply struct_property_yields. eapply quiet_flat_map; eauto. }
      remember (camel (t_name t)) as nm.
      match goal with |- context [if is_class t then ?a else []] => assert (C : exists c, yields (if is_class t then a else []) c /\
        type_properties v t (c ++ xs)%list) end.
      { unfold is_class, type_properties. rewrite <- Heqnm. destruct S as [S|S]; rewrite S; cbn [kind_eqb].
        - eexists. split; [|exists xs; split; [assumption|reflexivity]].
          eapply (yields_app _ _ [_] [_; _]); [apply string_property_yields; discriminate|].
          apply (yields_app _ _ [_] [_]); apply string_property_yields; discriminate.
        - exists []. split; [apply yields_nil|]. exists xs. auto. }
      destruct C as (c & YC & TP). eexists. split; [|apply sc_struct; [exact S|exact TP]].
      intros rest n acc st. run. rewrite (described_app (t_doc t) [_]). reflexivity. }
    unfold schema_doc. destruct (t_kind t) eqn:K; cbn [kind_eqb orb] in *; try (exists []; split; [apply yields_nil|reflexivity]).
    - destruct St as (x & Y & H); [now left|assumption|]. eauto.
    - clear St. pose proof (description_yields (t_doc t)) as D. unfold generate_enum_schema, schema_name. remember (camel (t_name t)) as nm. pose proof (items_add enum_value_name (t_values t)) as A.
      eexists. split; [|eexists; split; [reflexivity|apply sc_enum; assumption]]. intros rest n acc st. run. rewrite (described_app (t_doc t) [_; _]). reflexivity.
    - destruct St as (x & Y & H); [now right|assumption|]. eauto.
  Qed.

  Definition error_properties : list (string * json) :=
    [string_property "kind" "Indicates the type of this object. Will always be 'Error'";
     ("id", JObj [("description", JStr "Numeric identifier of the error."); ("type", JStr "integer"); ("format", JStr "int32")]);
     string_property "href" "Self link.";
     string_property "code" "Globally unique code of the error, composed of the unique identifier of the API and the numeric identifier of the error. For example, for if the numeric identifier of the error is `93` and the identifier of the API is `clusters_mgmt` then the code will be `CLUSTERS-MGMT-93`.";
     string_property "reason" "Human readable description of the error.";
     ("details", JObj [("description", JStr "Extra information about the error."); ("type", JStr "object"); ("additionalProperties", JBool true)])].
  Definition error_doc : json := JObj [("type", JStr "object"); ("properties", JObj error_properties)].
  Lemma error_schema_yields : yields generate_error_schema [("Error", error_doc)].
  Proof. intros rest n acc st. unfold generate_error_schema, generate_string_property. cbn [generate_description String.eqb Ascii.eqb Bool.eqb]. run. reflexivity. Qed.
  Lemma error_doc_spec : error_schema error_doc.
  Proof.
    split; [unfold error_doc; find_field|]. exists error_properties. split; [unfold error_doc; find_field|]. split; [reflexivity|].
    unfold error_properties, string_property. split; [|split; [find_path|split; [find_path|split; find_path]]].
    intros k I. repeat (destruct I as [<-|I]; [find_path|]). destruct I.
  Qed.
  Lemma metadata_schema_yields : yields generate_metadata_schema [("Metadata", metadata_schema)].
  Proof. intros rest n acc st. unfold generate_metadata_schema. cbn [generate_description String.eqb Ascii.eqb Bool.eqb]. run. reflexivity. Qed.

  Definition schemas_doc (ms : list (string * json)) : Prop :=
    exists ts, ms = (("Metadata", metadata_schema) :: concat ts ++ [("Error", error_doc)])%list /\ Forall2 schema_doc (types v) ts.
  Definition components (ms : list (string * json)) : json :=
    JObj [("schemas", JObj ms);
          ("securitySchemes", JObj [("bearer", JObj [("type", JStr "http"); ("scheme", JStr "bearer"); ("bearerFormat", JStr "JWT")])])].

  Lemma components_yields : quiet (generate_components fuel v) ->
    exists ms, yields (generate_components fuel v) [("components", components ms)] /\ schemas_doc ms.
  Proof.
    intros Q. unfold generate_components in *. quiets. pose proof metadata_schema_yields as M. pose proof error_schema_yields as E.
    destruct (yields_all (generate_schema fuel v) schema_doc (types v)) as (ts & Y & F).
    { intros t I. apply schema_yields. eapply quiet_flat_map; eauto. }
    eexists. split; [|exists ts; split; [reflexivity|assumption]]. intros rest n acc st. run. reflexivity.
  Qed.

  (** * The document *)

  Definition info_doc : json :=
    JObj [("version", JStr (name_string (v_name v))); ("title", JStr (name_string (s_name s)));
          ("license", JObj [("name", JStr "Apache 2.0"); ("url", JStr "http://www.apache.org/licenses/LICENSE-2.0")]);
          ("contact", JObj [("name", JStr "OCM Feedback"); ("email", JStr "ocm-feedback@redhat.com")])].
  Definition servers_doc : json :=
    JArr [JObj [("description", JStr "Production"); ("url", JStr "https://api.openshift.com")];
          JObj [("description", JStr "Stage"); ("url", JStr "https://api.stage.openshift.com")]].
  Definition document (ps ss : list (string * json)) : json :=
    JObj [("openapi", JStr "3.0.0"); ("info", info_doc); ("servers", servers_doc); ("paths", JObj ps); ("components", components ss);
          ("security", JArr [JObj [("bearer", JArr [])]])].

  Lemma source_built : quiet (generate_spec_source fuel s v) ->
    exists ps ss, build (generate_spec_source fuel s v) [FArr None []] = Some [FArr None [document ps ss]] /\ paths_doc ps /\ schemas_doc ss.
  Proof.
    intros Q. unfold generate_spec_source in *. quiets. destruct paths_yields as (ps & YP & DP); [assumption|]. destruct components_yields as (ss & YC & DC); [assumption|].
    exists ps, ss. split; [|auto]. unfold document, info_doc, servers_doc. remember (name_string (v_name v)) as vn. remember (name_string (s_name s)) as sn.
    assert (YI : yields (generate_info s v) [("info", JObj [("version", JStr vn); ("title", JStr sn);
      ("license", JObj [("name", JStr "Apache 2.0"); ("url", JStr "http://www.apache.org/licenses/LICENSE-2.0")]);
      ("contact", JObj [("name", JStr "OCM Feedback"); ("email", JStr "ocm-feedback@redhat.com")])])]).
    { intros rest n acc st. unfold generate_info. rewrite <- Heqvn, <- Heqsn. run. reflexivity. }
    assert (YS : yields generate_servers [("servers", servers_doc)]) by (intros rest n acc st; unfold generate_servers; run; reflexivity).
    unfold generate_security. run. reflexivity.
  Qed.
End Documents.

(** * The file *)

Definition frame_good (f : frame) : Prop :=
  match f with FObj _ acc => all1 (fun p => well_formed (snd p)) acc | FArr _ acc => all1 well_formed acc end.
Lemma all1_snoc {A} (P : A -> Prop) l a : all1 P l -> P a -> all1 P (l ++ [a])%list.
Proof. induction l; cbn; intuition. Qed.
Lemma push_good name x st st' : push_value name x st = Some st' -> Forall frame_good st -> well_formed x -> Forall frame_good st'.
Proof.
  intros P F W. destruct name, st as [|[m acc|m acc] st]; try discriminate; injection P as <-; inversion F; subst; constructor; auto; now apply all1_snoc.
Qed.
Lemma step_good c st st' : step c st = Some st' -> Forall frame_good st -> Forall frame_good st'.
Proof.
  intros E F. destruct c; cbn [step] in E; try discriminate.
  - destruct (can_push name st); [|discriminate]. injection E as <-. constructor; [exact I|assumption].
  - destruct st as [|[m acc|m acc] r]; try discriminate. inversion F; subst. eapply push_good; eauto.
  - destruct (scalar_json value) eqn:X; [|discriminate]. eapply push_good; eauto. destruct value; try discriminate; exact I.
  - destruct (can_push name st); [|discriminate]. injection E as <-. constructor; [exact I|assumption].
  - destruct st as [|[m acc|m acc] [|g r]]; try discriminate. inversion F; subst. eapply push_good; eauto.
  - destruct (scalar_json value) eqn:X; [|discriminate]. eapply push_good; eauto. destruct value; try discriminate; exact I.
  - now injection E as <-.
Qed.
Lemma build_good l : forall st st', build l st = Some st' -> Forall frame_good st -> Forall frame_good st'.
Proof.
  induction l as [|c l IH]; intros st st' E F; cbn [build] in E; [now injection E as <-|].
  destruct (step c st) as [st1|] eqn:S; [|discriminate]. eapply IH; eauto using step_good.
Qed.

Lemma new_tracks reports : tracks [FArr None []] (ob_tokens (new_openapi_buffer reports)) (ob_stack (new_openapi_buffer reports)).
Proof. apply (tr_bottom [] 0). split; auto. Qed.

Lemma built_tokens l j reports : build l [FArr None []] = Some [FArr None [j]] ->
  exists b, execute_all l (new_openapi_buffer reports) = Done b /\ ob_tokens b = tokens j /\ ob_reports b = (reports ++ flat_map complaints l)%list /\ well_formed j.
Proof.
  intros B. destruct (build_executed _ _ _ _ B (new_tracks reports)) as (b & E & T & R). exists b. split; [assumption|]. split; [|split; [assumption|]].
  - inversion T; subst. reflexivity.
  - apply build_good in B; [|repeat constructor]. inversion B; subst. match goal with H : frame_good _ |- _ => apply H end.
Qed.

Lemma spec_written sys fuel output s v reports fs reports' fs' :
  generate_spec sys fuel output s v reports fs = Done (None, reports', fs') ->
  exists ps ss, build (generate_spec_source fuel s v) [FArr None []] = Some [FArr None [document s v ps ss]] /\
    paths_doc fuel s v ps /\ schemas_doc v ss /\ errors_in reports 0 /\ well_formed (document s v ps ss) /\
    fs' = mset (path_join [output; openapi_file_name s v]) (write_tokens 0 (tokens (document s v ps ss))) fs.
Proof.
  unfold generate_spec. generalize (source_built fuel s v). generalize (generate_spec_source fuel s v) as src. intros src SB W.
  destruct (execute_all src (new_openapi_buffer reports)) as [b| |] eqn:E; [|discriminate W|discriminate W].
  assert (W' : write_openapi sys (path_join [output; openapi_file_name s v]) (write_tokens 0 (ob_tokens b)) (ob_reports b) fs = (None, reports', fs')) by congruence.
  clear W. unfold write_openapi in W'. destruct (errors_found (error_count (ob_reports b))) eqn:Z; [discriminate|].
  assert (Z' : errors_in (ob_reports b) 0).
  { apply errors_zero. unfold errors_found in Z. destruct (Nat.ltb_spec 0 (error_count (ob_reports b))); [discriminate|lia]. }
  destruct (sys_mkdir sys _); [discriminate|]. destruct (sys_open sys _); [discriminate|]. injection W' as _ <-.
  destruct (executed_quiet _ _ _ E) as (more & R & Q). cbn in R. rewrite R in Z'. apply errors_zero_app in Z' as [Z1 Z2].
  destruct (SB (Q Z2)) as (ps & ss & B & DP & DS). exists ps, ss.
  destruct (built_tokens _ _ reports B) as (b' & E' & T & _ & WF). rewrite E in E'. injection E' as <-. rewrite T.
  split; [exact B|]. split; [exact DP|]. split; [exact DS|]. split; [exact Z1|]. split; [exact WF|reflexivity].
Qed.
