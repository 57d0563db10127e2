(** Properties of the types of the generated Go code. *)
From Coq Require Import Ascii String Bool Arith List.
From Verif Require Import GoStrings GoMap NamesModel ConceptsModel BindingModel GoNamesModel ReporterModel ReaderModel ReaderSpec ChecksModel BufferModel DeclsModel DeclsExamples GoTypesModel ObjectsSpec
  GoTypesSpec GoTypesProofs GoTypesProofs3 GoTypesProofs4 GoTypesProofs5 GoTypesExamples.
Import ListNotations.
Local Open Scope string_scope.

(** C82: the code generated for an attribute uses the types that represent its type, and respects the rules of the language. *)
Theorem C82_attributes : forall pkg v a, package_path pkg -> standard v -> named_well v -> acceptable v (a_type a) (a_link a) ->
  exists c g b, generate_attribute pkg v a = Done (c, []) /\ represents v (a_type a) (a_link a) g /\ given_as g b /\ attribute_compiles v c g b.
Proof. exact (fun pkg v a P S N A => attribute_ok pkg v P S N a A). Qed.
Print Assumptions C82_attributes.

Example C82_attributes_example : exists v t, accepted ex_go v /\ ready v /\ package_path go_package /\ mget "machine" (v_types v) = Some t /\ 18 <= length (t_attrs t) /\
  forall a, In a (t_attrs t) -> acceptable v (a_type a) (a_link a).
Proof. exact attributes_example. Qed.

(** There is only one type that a text denotes, and only one that represents each type of the model. *)
Theorem C82_unique : (forall s g h, denotes s g -> denotes s h -> g = h) /\
  (forall v k link g h, standard v -> represents v k link g -> represents v k link h -> g = h).
Proof. exact (conj denotes_unique (fun v k link g h S => represents_unique v S k link g h)). Qed.
Print Assumptions C82_unique.

Example C82_unique_example : denotes "map[string]*ClusterBuilder" (GMap (GPtr (GNamed "ClusterBuilder"))) /\ denotes "[]time.Time" (GSlice GTime).
Proof. exact (conj (d_map _ _ (d_ptr _ _ (d_named _ (identifierb_sound "ClusterBuilder" eq_refl)))) (d_slice _ _ d_time)). Qed.

(** The package of time is imported when it is needed, and no other package is. *)
Theorem C82_imports : forall pkg v k link t, package_path pkg -> standard v -> named_well v -> acceptable v k link -> mget k (v_types v) = Some t ->
  exists o b g h, object_type pkg v k t link = Done (o, []) /\ builder_type pkg v k t link = Done (b, []) /\ represents v k link g /\ given_as g h /\
    imported pkg o g /\ imported pkg b h.
Proof. exact (fun pkg v k link t P S N A G => attribute_imports pkg v P S N k link t A G). Qed.
Print Assumptions C82_imports.

(** The code generated for the parameters of requests and responses. *)
Theorem C82_requests : forall pkg v m p, package_path pkg -> standard v -> named_well v -> acceptable v (p_type p) false -> is_items m p = false ->
  (forall t, mget (p_type p) (v_types v) = Some t -> t_kind t <> MapType) ->
  exists c, generate_request pkg v m p = Done (c, []) /\ request_compiles v c.
Proof. exact (fun pkg v m p P S N => request_ok pkg v P S N m p). Qed.
Print Assumptions C82_requests.

Theorem C82_responses : forall pkg v m p, package_path pkg -> standard v -> named_well v -> acceptable v (p_type p) false ->
  (forall t, mget (p_type p) (v_types v) = Some t -> t_kind t <> InterfaceType /\ (is_items m p = true -> t_kind t = ListType)) ->
  exists c, generate_response pkg v m p = Done (c, []) /\ response_compiles v (p_type p) c.
Proof. exact (fun pkg v m p P S N => response_ok pkg v P S N m p). Qed.
Print Assumptions C82_responses.

Example C82_parameters_example : exists v r, accepted ex_go v /\ ready v /\ package_path go_package /\ mget "machines" (v_resources v) = Some r /\
  7 <= length (flat_map request_params (r_methods r)) /\ 11 <= length (flat_map response_params (r_methods r)) /\
  forall m, In m (r_methods r) ->
    (forall p, In p (request_params m) -> acceptable v (p_type p) false /\ is_items m p = false /\ forall t, mget (p_type p) (v_types v) = Some t -> t_kind t <> MapType) /\
    (forall p, In p (response_params m) -> acceptable v (p_type p) false /\
       forall t, mget (p_type p) (v_types v) = Some t -> t_kind t <> InterfaceType /\ (is_items m p = true -> t_kind t = ListType)).
Proof. exact parameters_example. Qed.

(** The conditions are needed: without errors, the code generated for the maps of the requests, for the interfaces of the responses, and for the
    links to lists of scalars isn't accepted by the compiler. *)
Theorem C82_map_requests_rejected : forall pkg v m p t, package_path pkg -> standard v -> named_well v -> acceptable v (p_type p) false -> is_items m p = false ->
  mget (p_type p) (v_types v) = Some t -> t_kind t = MapType ->
  exists c, generate_request pkg v m p = Done (c, []) /\ ~ request_compiles v c.
Proof. exact (fun pkg v m p t P S N => map_request_wrong pkg v P S N m p t). Qed.
Print Assumptions C82_map_requests_rejected.

Example C82_map_requests_example : exists v r m p t, accepted ex_map_in v /\ ready v /\ In r (resources v) /\ In m (r_methods r) /\ In p (request_params m) /\
  acceptable v (p_type p) false /\ is_items m p = false /\ mget (p_type p) (v_types v) = Some t /\ t_kind t = MapType.
Proof. exact map_in_example. Qed.

Theorem C82_interface_responses_rejected : forall pkg v m p t, package_path pkg -> standard v -> named_well v -> is_items m p = false ->
  mget (p_type p) (v_types v) = Some t -> t_kind t = InterfaceType ->
  exists c, generate_response pkg v m p = Done (c, []) /\ ~ response_compiles v (p_type p) c.
Proof. exact (fun pkg v m p t P S N => interface_response_wrong pkg v P S N m p t). Qed.
Print Assumptions C82_interface_responses_rejected.

Example C82_interface_responses_example : exists v r m p t, accepted ex_any_out v /\ ready v /\ In r (resources v) /\ In m (r_methods r) /\ In p (response_params m) /\
  is_items m p = false /\ mget (p_type p) (v_types v) = Some t /\ t_kind t = InterfaceType.
Proof. exact any_out_example. Qed.

Theorem C82_scalar_links_rejected : forall pkg v a t e te, package_path pkg -> standard v -> mget (a_type a) (v_types v) = Some t -> t_kind t = ListType -> a_link a = true ->
  t_element t = Some e -> mget e (v_types v) = Some te -> In (t_kind te) [ScalarType; InterfaceType] ->
  exists c, generate_attribute pkg v a = Done (c, []) /\ ~ exists g, denotes (ac_object_field c) g.
Proof. exact (fun pkg v a t e te P S => link_scalar_wrong pkg v P S a t e te). Qed.
Print Assumptions C82_scalar_links_rejected.

Example C82_scalar_links_example : exists v t a ta e te, accepted ex_link_strings v /\ ready v /\ In t (types v) /\ In a (t_attrs t) /\ mget (a_type a) (v_types v) = Some ta /\
  t_kind ta = ListType /\ a_link a = true /\ t_element ta = Some e /\ mget e (v_types v) = Some te /\ In (t_kind te) [ScalarType; InterfaceType].
Proof. exact link_strings_example. Qed.

(** Lists and maps of lists or maps are accepted when the model is read, and errors are reported when the code is generated. *)
Theorem C82_nested_reported : forall pkg v a t e te c l, standard v -> mget (a_type a) (v_types v) = Some t -> In (t_kind t) [ListType; MapType] ->
  (t_kind t = ListType -> a_link a = false) -> t_element t = Some e -> mget e (v_types v) = Some te -> In (t_kind te) [ListType; MapType] ->
  generate_attribute pkg v a = Done (c, l) -> exists message, In (err message) l.
Proof. exact (fun pkg v a t e te c l S => nested_reported pkg v S a t e te c l). Qed.
Print Assumptions C82_nested_reported.

Example C82_nested_example : exists v t a ta e te, accepted ex_nested v /\ ready v /\ In t (types v) /\ In a (t_attrs t) /\ mget (a_type a) (v_types v) = Some ta /\
  t_kind ta = ListType /\ a_link a = false /\ t_element ta = Some e /\ mget e (v_types v) = Some te /\ In (t_kind te) [ListType; MapType] /\
  exists c l, generate_attribute go_package v a = Done (c, l).
Proof. exact nested_example. Qed.
