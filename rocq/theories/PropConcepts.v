(** Property theorems about the concepts (C07 - C10). *)
From Coq Require Import Ascii String Bool Arith ZArith Sorted Permutation List.
From Verif Require Import GoStrings GoMap NamesModel NamesSpec ConceptsModel ConceptsSpec ConceptsProofs.
Import ListNotations.
Local Open Scope string_scope.

(** C07: maps. *)
Theorem C07_types_deterministic : forall v : version,
  indexed t_name (v_types v) ->
  sorted_by t_name (types v) /\ Permutation (map snd (v_types v)) (types v) /\
  (forall l, Permutation (map snd (v_types v)) l -> sorted_by t_name l -> l = types v) /\
  (forall v', Permutation (v_types v) (v_types v') -> types v' = types v).
Proof. exact types_spec. Qed.
Print Assumptions C07_types_deterministic.

Theorem C07_resources_deterministic : forall v : version,
  indexed r_name (v_resources v) ->
  sorted_by r_name (resources v) /\ Permutation (map snd (v_resources v)) (resources v) /\
  (forall l, Permutation (map snd (v_resources v)) l -> sorted_by r_name l -> l = resources v) /\
  (forall v', Permutation (v_resources v) (v_resources v') -> resources v' = resources v).
Proof. exact resources_spec. Qed.
Print Assumptions C07_resources_deterministic.

Theorem C07_versions_deterministic : forall s : service,
  indexed v_name (s_versions s) ->
  sorted_by v_name (versions s) /\ Permutation (map snd (s_versions s)) (versions s) /\
  (forall l, Permutation (map snd (s_versions s)) l -> sorted_by v_name l -> l = versions s) /\
  (forall s', Permutation (s_versions s) (s_versions s') -> versions s' = versions s).
Proof. exact versions_spec. Qed.
Print Assumptions C07_versions_deterministic.

Theorem C07_services_deterministic : forall m : model,
  indexed s_name m ->
  sorted_by s_name (services m) /\ Permutation (map snd m) (services m) /\
  (forall l, Permutation (map snd m) l -> sorted_by s_name l -> l = services m) /\
  (forall m', Permutation m m' -> services m' = services m).
Proof. exact services_spec. Qed.
Print Assumptions C07_services_deterministic.

(** The hypothesis of the theorems above holds for everything built with the API. *)
Theorem C07_types_always_indexed : forall ts n,
  indexed t_name (v_types (fold_left (fun v t => add_type t v) ts (new_version n))).
Proof. exact reachable_indexed. Qed.
Print Assumptions C07_types_always_indexed.

Theorem C07_resources_always_indexed : forall rs n,
  indexed r_name (v_resources (fold_left (fun v r => add_resource r v) rs (new_version n))).
Proof. exact reachable_resources_indexed. Qed.
Print Assumptions C07_resources_always_indexed.

Theorem C07_versions_always_indexed : forall vs n,
  indexed v_name (s_versions (fold_left (fun s v => add_version v s) vs (new_service n))).
Proof. exact reachable_versions_indexed. Qed.
Print Assumptions C07_versions_always_indexed.

Theorem C07_services_always_indexed : forall ss,
  indexed s_name (fold_left (fun m s => add_service s m) ss []).
Proof. exact reachable_services_indexed. Qed.
Print Assumptions C07_services_always_indexed.

(** C07: slices. *)
Theorem C07_attributes_deterministic : forall n xs,
  distinct_names a_name xs ->
  let r := t_attrs (fold_left (fun t a => add_attribute a t) xs (new_type n)) in
  sorted_by a_name r /\ Permutation xs r /\ (forall l, Permutation xs l -> sorted_by a_name l -> l = r) /\
  (forall ys, Permutation xs ys ->
     t_attrs (fold_left (fun t a => add_attribute a t) ys (new_type n)) = r).
Proof. exact attributes_spec. Qed.
Print Assumptions C07_attributes_deterministic.

Theorem C07_enum_values_deterministic : forall n xs,
  distinct_names ev_name xs ->
  let r := t_values (fold_left (fun t a => add_value a t) xs (new_type n)) in
  sorted_by ev_name r /\ Permutation xs r /\ (forall l, Permutation xs l -> sorted_by ev_name l -> l = r) /\
  (forall ys, Permutation xs ys ->
     t_values (fold_left (fun t a => add_value a t) ys (new_type n)) = r).
Proof. exact values_spec. Qed.
Print Assumptions C07_enum_values_deterministic.

Theorem C07_parameters_deterministic : forall n d an xs,
  distinct_names p_name xs ->
  let r := m_params (fold_left (fun t a => add_parameter a t) xs (MkMethod n [] d an)) in
  sorted_by p_name r /\ Permutation xs r /\ (forall l, Permutation xs l -> sorted_by p_name l -> l = r) /\
  (forall ys, Permutation xs ys ->
     m_params (fold_left (fun t a => add_parameter a t) ys (MkMethod n [] d an)) = r).
Proof. exact parameters_spec. Qed.
Print Assumptions C07_parameters_deterministic.

Theorem C07_methods_deterministic : forall n xs,
  distinct_names m_name xs ->
  let r := r_methods (fold_left (fun t a => add_method a t) xs (new_resource n)) in
  sorted_by m_name r /\ Permutation xs r /\ (forall l, Permutation xs l -> sorted_by m_name l -> l = r) /\
  (forall ys, Permutation xs ys ->
     r_methods (fold_left (fun t a => add_method a t) ys (new_resource n)) = r).
Proof. exact methods_spec. Qed.
Print Assumptions C07_methods_deterministic.

Theorem C07_locators_deterministic : forall n xs,
  distinct_names l_name xs ->
  let r := r_locators (fold_left (fun t a => add_locator a t) xs (new_resource n)) in
  sorted_by l_name r /\ Permutation xs r /\ (forall l, Permutation xs l -> sorted_by l_name l -> l = r) /\
  (forall ys, Permutation xs ys ->
     r_locators (fold_left (fun t a => add_locator a t) ys (new_resource n)) = r).
Proof. exact locators_spec. Qed.
Print Assumptions C07_locators_deterministic.

Example C07_nonvacuous :
  let mk s := MkAttribute (parse_using_case s) "string" false "" [] in
  let xs := [mk "Name"; mk "AWS"; mk "ExternalID"] in
  distinct_names a_name xs /\
  map (fun a => camel (a_name a))
    (t_attrs (fold_left (fun t a => add_attribute a t) xs (new_type (parse_using_case "Cluster"))))
    = ["AWS"; "ExternalID"; "Name"].
Proof.
  split; [|reflexivity]. unfold distinct_names. simpl.
  repeat constructor; simpl; intuition discriminate.
Qed.

(** C07 for errors is false of the code: the errors of a version can't be enumerated when there are
    two or more, because the comparison used for sorting uses a field that is never set. *)
Theorem C07_errors_refuted : forall l : list error,
  (forall e, In e l -> e_hidden_name e = None) -> 2 <= List.length l -> sort_errors l = None.
Proof. exact sort_errors_panics. Qed.
Print Assumptions C07_errors_refuted.

Example C07_errors_refuted_witness :
  errors (add_error (new_error (parse_using_case "NotFound"))
           (add_error (new_error (parse_using_case "Conflict")) (new_version (parse_using_separator "v1" "_"))))
  = None.
Proof. reflexivity. Qed.

(** C08 *)
Theorem C08_find_type_history : forall ts v n,
  find_type n (fold_left (fun v t => add_type t v) ts v) =
  match last_named t_name (name_string n) ts with Some t => Some t | None => find_type n v end.
Proof. exact find_type_history. Qed.
Print Assumptions C08_find_type_history.

Theorem C08_find_resource_history : forall rs v n,
  find_resource n (fold_left (fun v r => add_resource r v) rs v) =
  match last_named r_name (name_string n) rs with Some r => Some r | None => find_resource n v end.
Proof. exact find_resource_history. Qed.
Print Assumptions C08_find_resource_history.

Theorem C08_find_error_history : forall es v n,
  find_error n (fold_left (fun v e => add_error e v) es v) =
  match last_named e_name (name_string n) es with Some e => Some e | None => find_error n v end.
Proof. exact find_error_history. Qed.
Print Assumptions C08_find_error_history.

Theorem C08_find_version_history : forall vs s n,
  find_version n (fold_left (fun s v => add_version v s) vs s) =
  match last_named v_name (name_string n) vs with Some v => Some v | None => find_version n s end.
Proof. exact find_version_history. Qed.
Print Assumptions C08_find_version_history.

Theorem C08_find_service_history : forall ss (m : model) n,
  find_service n (fold_left (fun m s => add_service s m) ss m) =
  match last_named s_name (name_string n) ss with Some s => Some s | None => find_service n m end.
Proof. exact find_service_history. Qed.
Print Assumptions C08_find_service_history.

Theorem C08_maps_independent : forall t r e v n,
  find_resource n (add_type t v) = find_resource n v /\
  find_error n (add_type t v) = find_error n v /\
  find_type n (add_resource r v) = find_type n v /\
  find_error n (add_resource r v) = find_error n v /\
  find_type n (add_error e v) = find_type n v /\
  find_resource n (add_error e v) = find_resource n v.
Proof. exact add_frame. Qed.
Print Assumptions C08_maps_independent.

Theorem C08_find_in_slices : forall n t r m,
  match find_attribute n t with
  | Some a => In a (t_attrs t) /\ n_words (a_name a) = n_words n
  | None => forall a, In a (t_attrs t) -> n_words (a_name a) <> n_words n
  end /\
  match find_method n r with
  | Some a => In a (r_methods r) /\ n_words (m_name a) = n_words n
  | None => forall a, In a (r_methods r) -> n_words (m_name a) <> n_words n
  end /\
  match get_parameter n m with
  | Some a => In a (m_params m) /\ n_words (p_name a) = n_words n
  | None => forall a, In a (m_params m) -> n_words (p_name a) <> n_words n
  end.
Proof.
  exact (fun n t r m => conj (find_by_name_spec a_name n (t_attrs t))
           (conj (find_by_name_spec m_name n (r_methods r)) (find_by_name_spec p_name n (m_params m)))).
Qed.
Print Assumptions C08_find_in_slices.

Example C08_nonvacuous :
  let t1 := set_kind StructType (new_type (parse_using_case "Cluster")) in
  let t2 := set_kind ClassType (new_type (parse_using_case "Cluster")) in
  last_named t_name "cluster" [t1; t2] = Some t2 /\
  find_type (parse_using_case "Cluster")
    (fold_left (fun v t => add_type t v) [t1; t2] (new_version (parse_using_separator "v1" "_"))) = Some t2.
Proof. split; reflexivity. Qed.

(** C09 *)
Theorem C09_builtins_present : forall n id k kd, In (id, k, kd) builtins ->
  (exists t, type_at k (new_version n) = Some t /\ is_builtin_entry (id, k, kd) k t) /\
  (exists t, type_at (k ++ "_list") (new_version n) = Some t /\
             is_builtin_entry (id, k, kd) (k ++ "_list") t).
Proof. exact builtins_present. Qed.
Print Assumptions C09_builtins_present.

Theorem C09_nothing_else : forall n k t, type_at k (new_version n) = Some t ->
  exists b, In b builtins /\ is_builtin_entry b k t.
Proof. exact builtins_only. Qed.
Print Assumptions C09_nothing_else.

Theorem C09_predicates : forall v n t,
  indexed t_name (v_types v) -> type_at (name_string (t_name t)) v = Some t ->
  (is_builtin n (name_string (t_name t)) = true <-> find_type n v = Some t).
Proof. exact builtin_predicates. Qed.
Print Assumptions C09_predicates.

Example C09_nonvacuous :
  In ("Date", "date", ScalarType) builtins /\
  (exists t, type_at "date_list" (new_version (parse_using_separator "v1" "_")) = Some t) /\
  is_builtin nDate "date" = true /\ is_builtin nDate "string" = false.
Proof. repeat split; simpl; try tauto. eexists; reflexivity. Qed.

(** C10 *)
Theorem C10_exactly_one_category : forall m,
  (exists c, in_category c m = true) /\
  (forall c d, in_category c m = true -> in_category d m = true -> c = d).
Proof. exact (fun m => conj (category_exists m) (category_unique m)). Qed.
Print Assumptions C10_exactly_one_category.

Theorem C10_category_by_identifier : forall m id c,
  camel_identifier id -> m_name m = parse_using_case id ->
  (in_category c m = true <-> c = category_of id).
Proof. exact category_iff. Qed.
Print Assumptions C10_category_by_identifier.

Example C10_nonvacuous :
  camel_identifier "AsyncDelete" /\ camel_identifier "RegisterDisk" /\
  category_of "AsyncDelete" = CAsyncDelete /\ category_of "RegisterDisk" = CAction.
Proof.
  repeat split.
  - exists "A"%char, "syncDelete". repeat split.
  - exists "R"%char, "egisterDisk". repeat split.
Qed.
