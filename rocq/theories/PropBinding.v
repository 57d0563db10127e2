(** Property theorems about the HTTP binding (C24 - C26). *)
From Coq Require Import Ascii String Bool Arith ZArith Permutation List.
From Verif Require Import GoStrings GoMap NamesModel NamesSpec ConceptsModel ConceptsSpec ReporterModel
  ReaderModel ChecksModel ReaderSpec ReaderExamples ChecksSpec ChecksExamples BindingModel BindingSpec BindingProofs.
Import ListNotations.
Local Open Scope string_scope.

(** C24 *)
Theorem C24_request_parameters_split : forall v m,
  let q := request_query_params v m in
  let b := request_body_params v m in
  Permutation (q ++ b) (request_params m) /\
  subsequence q (m_params m) /\ subsequence b (m_params m) /\ subsequence (request_params m) (m_params m) /\
  (forall p, In p (request_params m) <-> In p (m_params m) /\ p_in p = true) /\
  (forall p, In p q <-> In p (m_params m) /\ p_in p = true /\ ~ action m /\ scalar_param v p) /\
  (forall p, In p b <-> In p (m_params m) /\ p_in p = true /\ (action m \/ ~ scalar_param v p)).
Proof. exact request_split. Qed.
Print Assumptions C24_request_parameters_split.

Theorem C24_response_parameters : forall m,
  response_body_params m = response_params m /\ subsequence (response_params m) (m_params m) /\
  (forall p, In p (response_params m) <-> In p (m_params m) /\ p_out p = true) /\
  Permutation (response_params m ++ filter (fun p => negb (p_out p)) (m_params m)) (m_params m).
Proof. exact response_spec'. Qed.
Print Assumptions C24_response_parameters.

Example C24_split :
  map (fun p => snake (p_name p)) (request_query_params ex_version ex_m_search) = ["size"] /\
  map (fun p => snake (p_name p)) (request_body_params ex_version ex_m_search) = ["body"] /\
  map (fun p => snake (p_name p)) (response_params ex_m_search) = ["items"; "size"; "total"] /\
  request_query_params ex_version ex_m_action = [] /\ request_body_params ex_version ex_m_action = m_params ex_m_action.
Proof. vm_compute. repeat split. Qed.

(** C25 *)
Theorem C25_rest_methods : forall ws verb status m,
  In (ws, (verb, status)) rest_verbs -> called ws (m_name m) ->
  http_method m = verb /\ default_status m = status /\ docs_http_method m = verb /\ method_segment m = "".
Proof. exact verb_rest. Qed.
Print Assumptions C25_rest_methods.

Theorem C25_actions : forall m, action m ->
  http_method m = "POST" /\ default_status m = "200" /\ docs_http_method m = "POST".
Proof. exact verb_action. Qed.
Print Assumptions C25_actions.

Theorem C25_every_method_has_a_category : forall m,
  action m \/ exists ws verb status, In (ws, (verb, status)) rest_verbs /\ called ws (m_name m).
Proof. exact action_dec. Qed.
Print Assumptions C25_every_method_has_a_category.

Theorem C25_docs_agree_with_clients : forall m, docs_http_method m = http_method m.
Proof. exact docs_agree. Qed.
Print Assumptions C25_docs_agree_with_clients.

Theorem C25_shared_verbs : forall m1 m2, ~ action m1 -> ~ action m2 -> http_method m1 = http_method m2 ->
  exists g ws1 ws2, In g verb_groups /\ In ws1 g /\ In ws2 g /\ called ws1 (m_name m1) /\ called ws2 (m_name m2).
Proof. exact verb_groups'. Qed.
Print Assumptions C25_shared_verbs.

Theorem C25_method_segments : forall m s,
  (~ action m -> method_segment m = "") /\
  (action m -> renamed (m_annots m) "http" s -> method_segment m = s) /\
  (action m -> not_renamed (m_annots m) "http" -> method_segment m = snake (m_name m)).
Proof. exact segment_spec. Qed.
Print Assumptions C25_method_segments.

Example C25_get : called ["get"] (m_name ex_m_get) /\ http_method ex_m_get = "GET" /\ default_status ex_m_delete = "202".
Proof. vm_compute. repeat split. Qed.
Example C25_action : action ex_m_action /\ method_segment ex_m_action = "reboot".
Proof.
  split; [|vm_compute; reflexivity]. intros ws H. simpl in H.
  repeat destruct H as [<-|H]; try contradiction; vm_compute; discriminate.
Qed.

(** C26 *)
Theorem C26_attribute_names : forall a s,
  (renamed (a_annots a) "json" s -> attribute_name a = s) /\
  (not_renamed (a_annots a) "json" -> attribute_name a = snake (a_name a)).
Proof. exact (fun a s => name_or_spec (a_annots a) "json" (a_name a) s). Qed.
Print Assumptions C26_attribute_names.

Theorem C26_query_parameter_names : forall p s,
  (renamed (p_annots p) "http" s -> query_parameter_name p = s) /\
  (not_renamed (p_annots p) "http" -> renamed (p_annots p) "json" s -> query_parameter_name p = s) /\
  (not_renamed (p_annots p) "http" -> not_renamed (p_annots p) "json" -> query_parameter_name p = snake (p_name p)).
Proof. exact query_name_spec. Qed.
Print Assumptions C26_query_parameter_names.

Theorem C26_body_parameter_names : forall p s,
  (renamed (p_annots p) "json" s -> body_parameter_name p = s) /\
  (not_renamed (p_annots p) "json" -> body_parameter_name p = snake (p_name p)).
Proof. exact (fun p s => name_or_spec (p_annots p) "json" (p_name p) s). Qed.
Print Assumptions C26_body_parameter_names.

Theorem C26_enum_value_names : forall e s,
  (renamed (ev_annots e) "json" s -> enum_value_name e = s) /\
  (not_renamed (ev_annots e) "json" -> enum_value_name e = snake (ev_name e)).
Proof. exact (fun e s => name_or_spec (ev_annots e) "json" (ev_name e) s). Qed.
Print Assumptions C26_enum_value_names.

Theorem C26_locator_segments : forall l s,
  (renamed (l_annots l) "http" s -> locator_segment l = s) /\
  (not_renamed (l_annots l) "http" -> locator_segment l = snake (l_name l)).
Proof. exact (fun l s => name_or_spec (l_annots l) "http" (l_name l) s). Qed.
Print Assumptions C26_locator_segments.

Theorem C26_service_and_version_segments : forall s v,
  service_segment s = snake (s_name s) /\ version_segment v = snake (v_name v).
Proof. exact (fun s v => conj eq_refl eq_refl). Qed.
Print Assumptions C26_service_and_version_segments.

(** Names that aren't strings are accepted, but the result isn't the name. *)
Theorem C26_numeric_names_refuted : exists a,
  gives (a_annots a) "json" "name" (LInt 5) /\ attribute_name a = "%!s(int=5)".
Proof.
  exact (ex_intro _ (MkAttribute (parse_using_case "Size") "integer" false "" [MkAnnotation "json" [("name", LInt 5)]])
    (conj (ex_intro _ [] (ex_intro _ _ (ex_intro _ [] (conj eq_refl (conj eq_refl (conj (Forall_nil _) eq_refl)))))) eq_refl)).
Qed.
Print Assumptions C26_numeric_names_refuted.

Example C26_renamed : renamed [MkAnnotation "http" []; MkAnnotation "json" [("name", LString "x")]; MkAnnotation "json" [("name", LString "y")]] "json" "x".
Proof.
  split; [|discriminate]. exists [MkAnnotation "http" []], (MkAnnotation "json" [("name", LString "x")]).
  eexists. split; [reflexivity|]. split; [reflexivity|]. split; [|reflexivity]. repeat constructor. discriminate.
Qed.
Example C26_not_renamed : not_renamed [MkAnnotation "http" []; MkAnnotation "json" [("name", LString "")]] "json".
Proof. intros l H. apply gives_spec in H as (x & [= <-] & [= <-]). reflexivity. Qed.
