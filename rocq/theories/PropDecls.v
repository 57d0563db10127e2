(** Property theorems about the declarations of the generated Go code (C72 and C73). *)
From Coq Require Import Ascii String Bool Arith List.
From Verif Require Import GoStrings GoMap NamesModel NamesSpec ConceptsModel BindingModel BindingSpec GoNamesModel ReporterModel ReaderModel ReaderSpec
  ChecksModel ReaderExamples DeclsModel DeclsSpec DeclsProofs DeclsProofs2 DeclsProofs3 DeclsExamples.
Import ListNotations.
Local Open Scope string_scope.

(** C72: the Go names used below. *)
Theorem C72_go_names : forall l t s,
  camel_identifier t ->
  (not_renamed l "go" -> go_name_or_public l (parse_using_case t) = t) /\ (renamed l "go" s -> go_name_or_public l (parse_using_case t) = s).
Proof. exact (fun l t s H => conj (go_named_identifier l _ t eq_refl H) (go_named_renamed l _ s)). Qed.
Print Assumptions C72_go_names.

Theorem C72_lettered_names : forall t, t <> "" -> lettered (parse_using_case t).
Proof. exact parse_lettered. Qed.
Print Assumptions C72_lettered_names.

Theorem C72_object_members : forall t,
  Forall (fun a => lettered (a_name a)) (t_attrs t) -> Forall exported (map attribute_accessor (t_attrs t)) ->
  valid_members (object_fields t) (object_methods t) <->
  (NoDup (map attribute_field (t_attrs t)) /\ avoids (map attribute_field (t_attrs t)) (object_fixed_fields (is_class t))) /\
  (NoDup (map attribute_accessor (t_attrs t)) /\ no_second_getter (map attribute_accessor (t_attrs t)) /\
   avoids (map attribute_accessor (t_attrs t)) (object_fixed_methods (is_class t))).
Proof. exact object_members. Qed.
Print Assumptions C72_object_members.

Theorem C72_builder_members : forall t,
  Forall (fun a => lettered (a_name a)) (t_attrs t) -> Forall exported (map attribute_accessor (t_attrs t)) ->
  valid_members (object_fields t) (builder_methods t) <->
  (NoDup (map attribute_field (t_attrs t)) /\ avoids (map attribute_field (t_attrs t)) (object_fixed_fields (is_class t))) /\
  (NoDup (map attribute_accessor (t_attrs t)) /\ avoids (map attribute_accessor (t_attrs t)) (builder_fixed_methods (is_class t))).
Proof. exact builder_members. Qed.
Print Assumptions C72_builder_members.

Theorem C72_request_members : forall m,
  Forall (fun p => lettered (p_name p)) (request_params m) -> Forall exported (map parameter_setter (request_params m)) ->
  valid_members (request_fields m) (request_methods m) <->
  (NoDup (map parameter_field (request_params m)) /\ avoids (map parameter_field (request_params m)) ["transport"; "path"; "query"; "header"]) /\
  (NoDup (map parameter_setter (request_params m)) /\
   avoids (map parameter_setter (request_params m)) ["Parameter"; "Header"; "Impersonate"; "Send"; "SendContext"]).
Proof. exact request_members. Qed.
Print Assumptions C72_request_members.

Theorem C72_response_members : forall m,
  Forall (fun p => lettered (p_name p)) (response_params m) -> Forall exported (map parameter_getter (response_params m)) ->
  valid_members (response_fields m) (response_methods m) <->
  (NoDup (map parameter_field (response_params m)) /\ ~ In "header" (map parameter_field (response_params m))) /\
  (NoDup (map parameter_getter (response_params m)) /\ no_second_getter (map parameter_getter (response_params m)) /\
   ~ In "Header" (map parameter_getter (response_params m))).
Proof. exact response_members. Qed.
Print Assumptions C72_response_members.

Theorem C72_poll_members : forall m,
  Forall exported (map parameter_setter (request_params m)) -> Forall exported (map parameter_getter (response_params m)) ->
  (valid_members poll_request_fields (poll_request_methods m) <->
   NoDup (map parameter_setter (request_params m)) /\
   avoids (map parameter_setter (request_params m)) ["Parameter"; "Header"; "Interval"; "Status"; "Predicate"; "StartContext"]) /\
  (valid_members poll_response_fields (poll_response_methods m) <->
   NoDup (map parameter_getter (response_params m)) /\ no_second_getter (map parameter_getter (response_params m)) /\
   ~ In "Header" (map parameter_getter (response_params m))).
Proof. exact (fun m H1 H2 => conj (poll_request_members m H1) (poll_response_members m H2)). Qed.
Print Assumptions C72_poll_members.

Theorem C72_client_members : forall r,
  Forall exported (map method_go_name (r_methods r)) -> Forall exported (map locator_go_name (r_locators r)) ->
  valid_members client_fields (client_methods (is_root r) r) <->
  NoDup (map method_go_name (r_methods r) ++ map locator_go_name (r_locators r)) /\
  (is_root r = true -> ~ In "Get" (map method_go_name (r_methods r) ++ map locator_go_name (r_locators r))) /\
  (find_method nGet r <> None -> ~ In "Poll" (map method_go_name (r_methods r) ++ map locator_go_name (r_locators r))).
Proof. exact (fun r => client_members (is_root r) r). Qed.
Print Assumptions C72_client_members.

(** The code that reads and writes the parameters uses the fields that are declared. *)
Theorem C72_parameter_fields : forall p,
  json_parameter_field p = parameter_field p <-> ~ In (go_private (p_name p)) ["err"; "status"].
Proof. exact json_field_iff. Qed.
Print Assumptions C72_parameter_fields.

(** The hypotheses and conditions hold for a class with three attributes and for a resource with methods. *)
Example C72_example :
  let t := MkTyp (parse_using_case "Cluster") ClassType
    [MkAttribute (parse_using_case "Name") "string" false "" []; MkAttribute (parse_using_case "Type") "string" false "" [];
     MkAttribute (parse_using_case "ManagedByTeam") "boolean" false "" []] [] None None "" [] in
  Forall (fun a => lettered (a_name a)) (t_attrs t) /\ Forall exported (map attribute_accessor (t_attrs t)) /\
  object_fields t = ["bitmap_"; "id"; "href"; "name"; "type_"; "managedByTeam"] /\
  valid_members (object_fields t) (object_methods t) /\ valid_members (object_fields t) (builder_methods t).
Proof.
  assert (L : forall l, Forall (fun a => lettered (a_name a)) [MkAttribute (parse_using_case "Name") "string" false "" l; MkAttribute (parse_using_case "Type") "string" false "" l;
     MkAttribute (parse_using_case "ManagedByTeam") "boolean" false "" l]) by (intros l; repeat constructor; apply parse_lettered; discriminate).
  split; [exact (L [])|]. split; [apply forall_exported; vm_compute; reflexivity|]. split; [vm_compute; reflexivity|].
  split; (split; [apply nodupb_spec; vm_compute; reflexivity|split; [apply nodupb_spec; vm_compute; reflexivity|]]);
    intros x Hx F; vm_compute in Hx, F; intuition (subst; discriminate).
Qed.

(** Models that are accepted, and for which the generated Go code can't be compiled. *)
Theorem C72_object_members_refuted :
  (exists v t, accepted ex_getters v /\ In t (types v) /\ ~ valid_members (object_fields t) (object_methods t)) /\
  (exists v t, accepted ex_empty v /\ In t (types v) /\ ~ valid_members (object_fields t) (object_methods t)) /\
  (exists v t, accepted ex_class_id v /\ In t (types v) /\ ~ valid_members (object_fields t) (object_methods t)) /\
  (exists v t, accepted ex_build v /\ In t (types v) /\ ~ valid_members (object_fields t) (builder_methods t)).
Proof.
  exact (conj (object_clash_example ex_getters "thing" ltac:(vm_compute; reflexivity))
    (conj (object_clash_example ex_empty "thing" ltac:(vm_compute; reflexivity))
    (conj (object_clash_example ex_class_id "thing" ltac:(vm_compute; reflexivity))
          (builder_clash_example ex_build "thing" ltac:(vm_compute; reflexivity))))).
Qed.
Print Assumptions C72_object_members_refuted.

Theorem C72_exchange_members_refuted :
  (exists v r m, accepted ex_header v /\ In r (resources v) /\ In m (r_methods r) /\ ~ valid_members (response_fields m) (response_methods m)) /\
  (exists v r m, accepted ex_path v /\ In r (resources v) /\ In m (r_methods r) /\ ~ valid_members (request_fields m) (request_methods m)).
Proof.
  exact (conj (response_clash_example ex_header "things" ltac:(vm_compute; reflexivity))
              (request_clash_example ex_path "things" ltac:(vm_compute; reflexivity))).
Qed.
Print Assumptions C72_exchange_members_refuted.

Theorem C72_client_members_refuted :
  (exists v r, accepted ex_root_get v /\ In r (resources v) /\ ~ valid_members client_fields (client_methods (is_root r) r)) /\
  (exists v r, accepted ex_poll v /\ In r (resources v) /\ ~ valid_members client_fields (client_methods (is_root r) r)).
Proof.
  exact (conj (client_clash_example ex_root_get "root" ltac:(vm_compute; reflexivity))
              (client_clash_example ex_poll "things" ltac:(vm_compute; reflexivity))).
Qed.
Print Assumptions C72_client_members_refuted.

Theorem C72_parameter_fields_refuted : exists v r m p,
  accepted ex_status v /\ In r (resources v) /\ In m (r_methods r) /\ In p (response_params m) /\ json_parameter_field p <> parameter_field p.
Proof. exact (undeclared_example ex_status "things" ltac:(vm_compute; reflexivity)). Qed.
Print Assumptions C72_parameter_fields_refuted.

(** C73 *)
Theorem C73_declarations_differ : forall v, compatible_names v -> NoDup (version_decls v).
Proof. exact declarations_nodup. Qed.
Print Assumptions C73_declarations_differ.

Example C73_declarations_example : exists v, accepted ex_all v /\ compatible_names v /\ 30 <= length (version_decls v).
Proof. exact compatible_example. Qed.

Theorem C73_files_differ : forall v, names_with_words v ->
  NoDup (version_files v) <->
  NoDup ("metadata" :: map (fun t => snake (t_name t)) (file_types v)) /\ NoDup ("metadata" :: map (fun r => snake (r_name r)) (resources v)) /\
  NoDup (map (fun t => snake (t_name t)) (builder_types v)) /\ NoDup (map (fun t => snake (t_name t)) (json_types v)).
Proof. exact files_iff. Qed.
Print Assumptions C73_files_differ.

Example C73_files_example : exists v, accepted ex_all v /\ names_with_words v /\ NoDup (version_files v) /\ 10 <= length (version_files v).
Proof. exact files_example. Qed.

(** Models that are accepted, and whose package has two declarations with the same name: a class with the name of another one and
    [Link], an enumerated value and a type, a struct with the name of another one and [List], and two pairs of resources and methods. *)
Theorem C73_declarations_differ_refuted :
  (exists v, accepted ex_link_kind v /\ ~ NoDup (version_decls v)) /\ (exists v, accepted ex_enum_value v /\ ~ NoDup (version_decls v)) /\
  (exists v, accepted ex_list_struct v /\ ~ NoDup (version_decls v)) /\ (exists v, accepted ex_pairs v /\ ~ NoDup (version_decls v)).
Proof.
  exact (conj (repeated_decls ex_link_kind ltac:(vm_compute; reflexivity)) (conj (repeated_decls ex_enum_value ltac:(vm_compute; reflexivity))
    (conj (repeated_decls ex_list_struct ltac:(vm_compute; reflexivity)) (repeated_decls ex_pairs ltac:(vm_compute; reflexivity))))).
Qed.
Print Assumptions C73_declarations_differ_refuted.

(** Models that are accepted, and where a file replaces another: a type named [Metadata], and two types whose names only differ in the case. *)
Theorem C73_files_differ_refuted :
  (exists v, accepted ex_metadata v /\ ~ NoDup (version_files v)) /\ (exists v, accepted ex_letters v /\ ~ NoDup (version_files v)).
Proof. exact (conj (repeated_files ex_metadata ltac:(vm_compute; reflexivity)) (repeated_files ex_letters ltac:(vm_compute; reflexivity))). Qed.
Print Assumptions C73_files_differ_refuted.
