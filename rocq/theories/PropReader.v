(** Property theorems about the reader (C11 - C16, C56, C58, C59). *)
From Coq Require Import Ascii String Bool Arith ZArith Sorted Permutation List.
From Verif Require Import GoStrings GoMap NamesModel NamesSpec ConceptsModel ConceptsSpec ReporterModel
  ReaderModel ChecksModel ReaderSpec ReaderProofs ReaderProofs2 ReaderProofs3 ReaderProofs4 ReaderProofs5
  ReaderProofs6 ReaderProofs7 ReaderProofs8 ReaderExamples ReaderProofs9 ReaderProofs10.
Import ListNotations.
Local Open Scope string_scope.

(** C11 *)
Theorem C11_model_iff_no_errors : forall inputs rs0 r rs,
  read inputs rs0 = Done (r, rs) ->
  ((exists m, r = ROk m) <-> no_errors rs) /\
  (forall msg, r = RError msg <->
     (List.length (of_severity SError rs) = 1 /\ msg = "there was 1 error") \/
     (1 < List.length (of_severity SError rs) /\
      msg = "there were " ++ itoa (List.length (of_severity SError rs)) ++ " errors")) /\
  (exists added, rs = (rs0 ++ added)%list).
Proof. exact read_decision. Qed.
Print Assumptions C11_model_iff_no_errors.

Example C11_ok : succeeds (read [[("svc", [("v1", ex_files)])]] [warn "w"]) = true.
Proof. vm_compute. reflexivity. Qed.
Example C11_previous : fails "there was 1 error" (read [[("svc", [("v1", ex_files)])]] [err "e"]) = true.
Proof. vm_compute. reflexivity. Qed.
Example C11_many : fails "there were 5 errors" (read [[("svc", [("v1", ex_bad_files)])]] []) = true.
Proof. vm_compute. reflexivity. Qed.

(** C12 *)
Theorem C12_undefined_types_reported : forall s v fs rs id,
  camel_source (all_decls fs) -> camel_identifier id ->
  ~ builtin_key (key_of id) -> ~ In (key_of id) (derived_types (all_decls fs)) ->
  (In (err ("Type '" ++ id ++ "' isn't completely defined"))
     (undefined_reports (load_inputs [[(s, [(v, fs)])]] rs)) <->
   In id (type_uses (all_decls fs)) /\ ~ In id (declared_types (all_decls fs))).
Proof. exact undefined_types_reported. Qed.
Print Assumptions C12_undefined_types_reported.

Theorem C12_declared_types_never_undefined : forall s v fs rs id,
  camel_source (all_decls fs) -> In id (declared_types (all_decls fs)) ->
  ~ In (err ("Type '" ++ id ++ "' isn't completely defined"))
      (undefined_reports (load_inputs [[(s, [(v, fs)])]] rs)).
Proof. exact declared_types_not_undefined. Qed.
Print Assumptions C12_declared_types_never_undefined.

Theorem C12_undefined_resources_reported : forall s v fs rs id,
  camel_source (all_decls fs) -> camel_identifier id ->
  (In (err ("Resource '" ++ id ++ "' isn't completely defined"))
     (undefined_reports (load_inputs [[(s, [(v, fs)])]] rs)) <->
   In id (resource_uses (all_decls fs)) /\ ~ In id (declared_resources (all_decls fs))).
Proof. exact undefined_resources_reported. Qed.
Print Assumptions C12_undefined_resources_reported.

Example C12_camel : camel_source (all_decls ex_bad_files).
Proof. repeat split; repeat constructor; eexists _, _; repeat split; reflexivity. Qed.
Example C12_used : In "Node" (type_uses (all_decls ex_bad_files)) /\ ~ In "Node" (declared_types (all_decls ex_bad_files)).
Proof. vm_compute. split; [tauto|]. intros H. repeat destruct H as [H|H]; try discriminate; contradiction. Qed.
Example C12_not_derived : existsb (String.eqb (key_of "Node")) (derived_types (all_decls ex_bad_files)) = false.
Proof. vm_compute. reflexivity. Qed.

(** A use of the name of a list type is reported, or isn't, depending on the order: this is why names
    of derived types are excluded in the first theorem. *)
Theorem C12_derived_names_refuted : exists ds ds',
  (forall id, In id (type_uses ds) <-> In id (type_uses ds')) /\ declared_types ds = declared_types ds' /\
  fails "there was 1 error" (read [[("s", [("v1", [("f", ds)])])]] []) = true /\
  succeeds (read [[("s", [("v1", [("f", ds')])])]] []) = true.
Proof. exact derived_names_order. Qed.
Print Assumptions C12_derived_names_refuted.

(** C13 *)
Theorem C13_repeated_types_reported : forall n0 fs id,
  camel_source (all_decls fs) -> camel_identifier id ->
  ~ builtin_key (key_of id) -> ~ In (key_of id) (derived_types (all_decls fs)) ->
  (In (err ("Type '" ++ id ++ "' is already defined")) (rs_reports (load_files fs (fresh n0))) <->
   2 <= count_occ String.string_dec (declared_types (all_decls fs)) id).
Proof. exact dup_types_reported. Qed.
Print Assumptions C13_repeated_types_reported.

Theorem C13_builtin_types_cant_be_declared : forall n0 fs id,
  camel_source (all_decls fs) -> builtin_key (key_of id) -> ~ In (key_of id) (derived_types (all_decls fs)) ->
  In id (declared_types (all_decls fs)) ->
  In (err ("Type '" ++ id ++ "' is already defined")) (rs_reports (load_files fs (fresh n0))).
Proof. exact builtin_redeclared. Qed.
Print Assumptions C13_builtin_types_cant_be_declared.

Theorem C13_repeated_resources_reported : forall n0 fs id,
  camel_source (all_decls fs) -> camel_identifier id ->
  (In (err ("Resource '" ++ id ++ "' is already defined")) (rs_reports (load_files fs (fresh n0))) <->
   2 <= count_occ String.string_dec (declared_resources (all_decls fs)) id).
Proof. exact dup_resources_reported. Qed.
Print Assumptions C13_repeated_resources_reported.

Theorem C13_repeated_errors_reported : forall n0 fs id,
  camel_source (all_decls fs) -> camel_identifier id ->
  (In (err ("Error '" ++ id ++ "' is already defined")) (rs_reports (load_files fs (fresh n0))) <->
   2 <= count_occ String.string_dec (declared_errors (all_decls fs)) id).
Proof. exact dup_errors_reported. Qed.
Print Assumptions C13_repeated_errors_reported.

Theorem C13_first_type_kept : forall n0 fs ds1 d ds2 id,
  camel_source (all_decls fs) -> all_decls fs = (ds1 ++ d :: ds2)%list -> decl_types d = [id] ->
  ~ In id (declared_types ds1) -> ~ builtin_key (key_of id) ->
  ~ In (key_of id) (derived_types (all_decls fs)) ->
  exists t, find_type (parse_using_case id) (rs_version (load_files fs (fresh n0))) = Some t /\
    type_of_decl d t.
Proof. exact declared_type_kept. Qed.
Print Assumptions C13_first_type_kept.

Theorem C13_first_resource_kept : forall n0 fs ds1 d ds2 id,
  camel_source (all_decls fs) -> all_decls fs = (ds1 ++ d :: ds2)%list -> decl_resources d = [id] ->
  ~ In id (declared_resources ds1) ->
  exists r, find_resource (parse_using_case id) (rs_version (load_files fs (fresh n0))) = Some r /\
    resource_of_decl d r.
Proof. exact declared_resource_kept. Qed.
Print Assumptions C13_first_resource_kept.

Theorem C13_first_error_kept : forall n0 fs ds1 d ds2 id,
  camel_source (all_decls fs) -> all_decls fs = (ds1 ++ d :: ds2)%list -> decl_errors d = [id] ->
  ~ In id (declared_errors ds1) ->
  exists x, find_error (parse_using_case id) (rs_version (load_files fs (fresh n0))) = Some x /\
    error_of_decl d x.
Proof. exact declared_error_kept. Qed.
Print Assumptions C13_first_error_kept.

Example C13_counts :
  count_occ String.string_dec (declared_types (all_decls ex_bad_files)) "ClusterState" = 2 /\
  count_occ String.string_dec (declared_resources (all_decls ex_bad_files)) "Root" = 2 /\
  count_occ String.string_dec (declared_errors (all_decls ex_bad_files)) "NotFound" = 2 /\
  count_occ String.string_dec (declared_types (all_decls ex_bad_files)) "Cluster" = 1.
Proof. vm_compute. repeat split. Qed.

(** C14: the full statement is false. *)
Theorem C14_versions_independent_refuted : exists v1 v2,
  fails "there was 1 error" (read [[("s", [("v1", v1)])]] []) = true /\
  succeeds (read [[("s", [("v2", v2)])]] []) = true /\
  succeeds (read [[("s", [("v1", v1); ("v2", v2)])]] []) = true.
Proof. exact masked_undefined. Qed.
Print Assumptions C14_versions_independent_refuted.

Theorem C14_repeated_independent_refuted : exists v1 v2,
  fails "there was 1 error" (read [[("s", [("v1", v1)])]] []) = true /\
  fails "there was 1 error" (read [[("s", [("v2", v2)])]] []) = true /\
  succeeds (read [[("s", [("v1", v1); ("v2", v2)])]] []) = true.
Proof. exact masked_repeated. Qed.
Print Assumptions C14_repeated_independent_refuted.

(** Loading a version isn't affected by names left undefined by other versions that it doesn't declare;
    PropVersions.v has the theorems about complete models. *)
Theorem C14_loading_independent : forall fs v u ur rs,
  start_ok v ->
  (forall id, In id (declared_types (all_decls fs)) -> mhas (key_of id) u = false) ->
  (forall id, In id (declared_resources (all_decls fs)) -> mhas (key_of id) ur = false) ->
  let a := load_files fs (MkRState v u ur rs) in
  let b := load_files fs (MkRState v [] [] []) in
  rs_version a = rs_version b /\ rs_reports a = (rs ++ rs_reports b)%list /\
  (forall k, mhas k (rs_utypes a) = mhas k u || mhas k (rs_utypes b)) /\
  (forall k, mhas k (rs_uresources a) = mhas k ur || mhas k (rs_uresources b)).
Proof. exact leftover_load. Qed.
Print Assumptions C14_loading_independent.

Example C14_hypotheses :
  start_ok (new_version (parse_using_separator "v2" "_")) /\
  (forall id, In id (declared_types (all_decls ex_files)) -> mhas (key_of id) [(key_of "Foo", nm "Foo")] = false) /\
  (forall id, In id (declared_resources (all_decls ex_files)) -> mhas (key_of id) [(key_of "Foo", nm "Foo")] = false).
Proof.
  split; [apply new_version_wf|]. split; intros id H; vm_compute in H;
    repeat destruct H as [<-|H]; try contradiction; reflexivity.
Qed.

(** C15 *)
Theorem C15_list_types_added : forall v,
  indexed t_name (v_types v) ->
  let w := ensure_lists v in
  v_name w = v_name v /\ v_resources w = v_resources v /\ v_errors w = v_errors v /\
  (forall k t, type_at k v = Some t -> type_at k w = Some t) /\
  (forall k x, type_at k w = Some x -> type_at k v = Some x \/
     exists t, type_at (name_key (t_name t)) v = Some t /\ is_list t = false /\
       k = name_key (cat [t_name t; nList]) /\ t_name x = cat [t_name t; nList] /\ list_of t x) /\
  (forall k t, type_at k v = Some t -> is_list t = false ->
     exists lt, find_type (cat [t_name t; nList]) w = Some lt /\
       (find_type (cat [t_name t; nList]) v = None -> list_of t lt)).
Proof. exact ensure_lists_spec. Qed.
Print Assumptions C15_list_types_added.

Theorem C15_every_type_has_list : forall inputs rs0 m rs s v,
  read inputs rs0 = Done (ROk m, rs) -> in_model m s -> in_service s v ->
  forall k t, type_at k v = Some t -> is_list t = false ->
  exists lt, find_type (cat [t_name t; nList]) v = Some lt /\
    (is_list lt = true -> t_element lt = Some (name_key (t_name t))).
Proof. exact returned_lists. Qed.
Print Assumptions C15_every_type_has_list.

Theorem C15_single_version_lists : forall sd vd fs rs0 m rs s v k t,
  read [[(sd, [(vd, fs)])]] rs0 = Done (ROk m, rs) -> in_model m s -> in_service s v ->
  type_at k v = Some t -> is_list t = false ->
  (forall id, In id (declared_types (all_decls fs)) -> key_of id <> name_key (cat [t_name t; nList])) ->
  exists lt, find_type (cat [t_name t; nList]) v = Some lt /\ t_kind lt = ListType /\
    t_element lt = Some (name_key (t_name t)).
Proof. exact single_version_lists. Qed.
Print Assumptions C15_single_version_lists.

(** Without the last hypothesis it is false: a struct can take the name of the list. *)
Theorem C15_hijacked_list_refuted : exists ds,
  succeeds (read [[("s", [("v1", [("f", ds)])])]] []) = true /\
  exists t, find_type (cat [nm "Foo"; nList]) (ensure_lists (rs_version (load_files [("f", ds)] (fresh (nm "v1"))))) = Some t /\
    t_kind t = StructType.
Proof. exact hijacked_list. Qed.
Print Assumptions C15_hijacked_list_refuted.

Example C15_example :
  match find_type (nm "ClusterStateList") (ensure_lists (rs_version (load_files ex_files (fresh (nm "v1"))))) with
  | Some t => is_list t && match t_element t with Some k => String.eqb k "cluster_state" | None => false end
  | None => false
  end = true /\
  find_type (nm "ClusterStateList") (rs_version (load_files ex_files (fresh (nm "v1")))) = None.
Proof. vm_compute. split; reflexivity. Qed.

(** C16 *)
Theorem C16_directions : forall d st,
  let p := fst (exit_param d st) in
  (p_in p = true <-> In DIn (pd_directions d)) /\
  (p_out p = true <-> In DOut (pd_directions d) \/ pd_directions d = []).
Proof. exact param_directions. Qed.
Print Assumptions C16_directions.

Example C16_examples : map directions [[]; [DIn]; [DOut]; [DIn; DOut]; [DOut; DIn; DOut]] =
  [(false, true); (true, false); (false, true); (true, true); (true, true)].
Proof. reflexivity. Qed.

(** C56 *)
Theorem C56_error_count : forall r rs,
  let q := apply_reports r rs in
  rr_errors q = rr_errors r + List.length (of_severity SError rs) /\
  rr_err q = rr_err r ++ String.concat "" (map (fun p => error_prefix ++ rp_message p ++ newline) (of_severity SError rs)) /\
  rr_out q = rr_out r ++
    String.concat "" (flat_map (fun p => match rp_severity p with
                                     | SInfo => [info_prefix ++ rp_message p ++ newline]
                                     | SWarn => [warn_prefix ++ rp_message p ++ newline]
                                     | SError => []
                                     end) rs).
Proof. exact reporter_spec. Qed.
Print Assumptions C56_error_count.

Example C56_example :
  rr_errors (apply_reports new_reporter [info "a"; err "b"; warn "c"; err "d"]) = 2.
Proof. reflexivity. Qed.

(** C58 *)
Theorem C58_declared_types_returned : forall sd vd fs rs0 m rs s v d id,
  read [[(sd, [(vd, fs)])]] rs0 = Done (ROk m, rs) -> in_model m s -> in_service s v ->
  camel_source (all_decls fs) -> In d (all_decls fs) -> decl_types d = [id] ->
  ~ In (key_of id) (derived_types (all_decls fs)) ->
  exists t, find_type (parse_using_case id) v = Some t /\ type_of_decl d t.
Proof. exact returned_types. Qed.
Print Assumptions C58_declared_types_returned.

Theorem C58_declared_resources_returned : forall sd vd fs rs0 m rs s v d id,
  read [[(sd, [(vd, fs)])]] rs0 = Done (ROk m, rs) -> in_model m s -> in_service s v ->
  camel_source (all_decls fs) -> In d (all_decls fs) -> decl_resources d = [id] ->
  exists r, find_resource (parse_using_case id) v = Some r /\ resource_of_decl d r.
Proof. exact returned_resources. Qed.
Print Assumptions C58_declared_resources_returned.

Theorem C58_declared_errors_returned : forall sd vd fs rs0 m rs s v d id,
  read [[(sd, [(vd, fs)])]] rs0 = Done (ROk m, rs) -> in_model m s -> in_service s v ->
  camel_source (all_decls fs) -> In d (all_decls fs) -> decl_errors d = [id] ->
  exists x, find_error (parse_using_case id) v = Some x /\ error_of_decl d x.
Proof. exact returned_errors. Qed.
Print Assumptions C58_declared_errors_returned.

Theorem C58_nothing_else : forall sd vd fs rs0 m rs s v k,
  read [[(sd, [(vd, fs)])]] rs0 = Done (ROk m, rs) -> in_model m s -> in_service s v ->
  has_type v k ->
  builtin_key k \/ (exists id, In id (declared_types (all_decls fs)) /\ k = key_of id) \/
  In k (derived_types (all_decls fs)) \/
  (exists k0 t0, type_at k0 v = Some t0 /\ is_list t0 = false /\ k = name_key (cat [t_name t0; nList])).
Proof. exact nothing_else_types. Qed.
Print Assumptions C58_nothing_else.

Example C58_hypotheses :
  succeeds (read [[("svc", [("v1", ex_files)])]] []) = true /\ camel_source (all_decls ex_files) /\
  In ex_cluster (all_decls ex_files) /\ decl_types ex_cluster = ["Cluster"] /\
  existsb (String.eqb (key_of "Cluster")) (derived_types (all_decls ex_files)) = false /\
  In ex_clusters (all_decls ex_files) /\ In ex_error (all_decls ex_files).
Proof.
  split; [vm_compute; reflexivity|].
  split; [repeat split; repeat constructor; eexists _, _; repeat split; reflexivity|].
  split; [simpl; tauto|]. split; [reflexivity|]. split; [vm_compute; reflexivity|]. split; simpl; tauto.
Qed.

(** C59 *)
Theorem C59_returned_model_sound : forall inputs rs0 m rs s v,
  read inputs rs0 = Done (ROk m, rs) -> in_model m s -> in_service s v ->
  no_errors rs /\ closed_version v /\ targets_ok v /\ (exists r, root v = Some r) /\
  (forall k t, type_at k v = Some t -> k = name_key (t_name t)) /\
  (forall k t, type_at k v = Some t -> is_list t = false ->
     exists lt, find_type (cat [t_name t; nList]) v = Some lt) /\
  (forall k t, type_at k v = Some t -> is_list t = true ->
     exists n, k = name_key (cat [n; nList]) /\ t_element t = Some (name_key n)).
Proof. exact returned_model_sound. Qed.
Print Assumptions C59_returned_model_sound.

Theorem C59_single_version_defined : forall sd vd fs rs0 m rs s v k t,
  read [[(sd, [(vd, fs)])]] rs0 = Done (ROk m, rs) -> in_model m s -> in_service s v ->
  type_at k v = Some t -> t_kind t <> UndefinedType.
Proof. exact single_version_defined. Qed.
Print Assumptions C59_single_version_defined.

(** The predefined types are always there and no other type has their kinds; lists and maps have elements, with shorter
    names, so that their nesting is finite. *)
Theorem C59_kinds : forall inputs rs0 m rs s v,
  read inputs rs0 = Done (ROk m, rs) -> in_model m s -> in_service s v ->
  (forall k kd, In (k, kd) predefined_kinds -> exists t, type_at k v = Some t /\ t_kind t = kd) /\
  (forall k t, type_at k v = Some t -> t_kind t = ScalarType \/ t_kind t = InterfaceType -> In (k, t_kind t) predefined_kinds) /\
  (forall k t, type_at k v = Some t -> t_kind t = ListType \/ t_kind t = MapType ->
     exists e te, t_element t = Some e /\ type_at e v = Some te /\ (String.length e < String.length k)%nat).
Proof. exact returned_kinds. Qed.
Print Assumptions C59_kinds.

(** With several versions a model that contains undefined types can be returned. *)
Theorem C59_all_defined_refuted : exists inputs m rs s v t,
  read inputs [] = Done (ROk m, rs) /\ in_model m s /\ in_service s v /\
  find_type (nm "Bar") v = Some t /\ t_kind t = UndefinedType.
Proof. exact returned_undefined. Qed.
Print Assumptions C59_all_defined_refuted.

Example C59_reachable : exists m rs s v, read [[("svc", [("v1", ex_files)])]] [] = Done (ROk m, rs) /\
  in_model m s /\ in_service s v /\ List.length (v_types v) = 22 /\ List.length (v_resources v) = 3.
Proof. exact example_returned. Qed.
