(** Properties that relate the documents written by the generated code to the OpenAPI specifications. *)
From Coq Require Import Ascii String Bool Arith ZArith NArith List.
From Verif Require Import OpenapiSpec.
From Verif Require Import ConformSpec ConformProofs3 ConformExamples ConformExamples2.
From Verif Require Import GoStrings GoMap NamesModel ConceptsModel ReporterModel BindingModel BindingSpec GoNamesModel GoTimeModel BufferModel BufferExamples ChecksSpec
  HelpersModel HelpersSpec HelpersExamples ObjectsModel ObjectsSpec JsonModel JsonSpec JsonExamples JsonTextModel JsonTextSpec ApiErrorModel RequestModel RequestSpec RequestExamples.
Import ListNotations.
Local Open Scope string_scope.

(** C70: the documents written for objects conform to the schemas published for their types. *)
Theorem C70_objects : forall sys fuel output s v reports fs doc, published sys fuel output s v reports fs doc -> standard v -> compiles v -> distinct_schemas v -> forall o k t b l,
  faithful o -> mget k (v_types v) = Some t -> structural t -> object_typed v t b -> object_publishable v t b ->
  marshal_object o v t (Some b) = WOk l ->
  exists j, l = tokens j /\ conforms doc (JObj [("$ref", JStr ("#/components/schemas/" ++ camel (t_name t)))]) j.
Proof. exact published_objects. Qed.
Print Assumptions C70_objects.

Example C70_thing : published ex_system 20 "out" ex_s ex_w [] [] ex_doc /\ standard ex_w /\ compiles ex_w /\ distinct_schemas ex_w /\ faithful ex_oracle /\
  mget "thing" (v_types ex_w) = Some ex_wt /\ structural ex_wt /\ object_typed ex_w ex_wt ex_whole /\ object_publishable ex_w ex_wt ex_whole /\
  marshal_object ex_oracle ex_w ex_wt (Some ex_whole) = WOk ex_whole_tokens /\ (forall i, i < 14 -> i <> 1 -> present ex_wt i ex_whole).
Proof.
  exact (conj ex_conform_published (conj ex_w_standard (conj ex_w_compiles (conj ex_w_distinct (conj ex_faithful (conj ex_wt_type (conj ex_wt_structural
    (conj ex_whole_typed (conj ex_whole_publishable (conj ex_whole_written ex_whole_present)))))))))).
Qed.

(** The same for the documents written for lists. *)
Theorem C70_lists : forall sys fuel output s v reports fs doc, published sys fuel output s v reports fs doc -> standard v -> compiles v -> distinct_schemas v -> forall o k t e l r sc,
  faithful o -> mget k (v_types v) = Some t -> t_kind t = ListType -> plain v t -> t_element t = Some e -> all1 (typed v e false) l -> all1 (publishable v e) l ->
  marshal_list o v e l = WOk r -> type_schema v k sc ->
  exists j, r = tokens j /\ conforms doc (JObj sc) j.
Proof. exact published_lists. Qed.
Print Assumptions C70_lists.

Example C70_thing_list : exists k t r sc, mget k (v_types ex_w) = Some t /\ t_kind t = ListType /\ plain ex_w t /\ t_element t = Some "thing" /\
  all1 (typed ex_w "thing" false) [VObject ex_whole] /\ all1 (publishable ex_w "thing") [VObject ex_whole] /\
  marshal_list ex_oracle ex_w "thing" [VObject ex_whole] = WOk r /\ type_schema ex_w k sc.
Proof. exact ex_whole_list. Qed.

(** The bodies of requests that are one value conform to the schema that the specification has for the request with that method and path. *)
Theorem C70_request_bodies : forall sys fuel output s v reports fs doc, published sys fuel output s v reports fs doc -> standard v -> compiles v -> distinct_schemas v ->
  forall (W E : Type) (transport : W -> http_request -> reply E * W) (o : oracle) (incomplete : json -> any)
    (show_float : Z -> string) (show_any : any -> string) (spare : nat), faithful o ->
  forall path x m, leads v path x -> In m (r_methods x) -> unambiguous s v ->
  forall r h w p y, request_valid h r -> request_whole m p -> request_body_params v m = [p] ->
  mget (go_private (p_name p)) (rq_fields r) = Some y -> y <> VNil -> typed v (p_type p) false y -> printable o v (p_type p) y -> publishable v (p_type p) y ->
  exists rs e w' h' q text j paths op sc,
    send_context W E transport o incomplete show_float show_any spare v m r h w = Finished W E rs e w' h' [q] /\ hr_body q = Some text /\ json_document text j /\
    OpenapiSpec.field doc "paths" paths /\ operation paths (template s v path m) (str_lower (hr_method q)) op /\
    at_path op ["requestBody"; "content"; "application/json"; "schema"] sc /\ conforms doc sc j.
Proof. exact published_bodies. Qed.
Print Assumptions C70_request_bodies.

Example C70_add : leads ex_w ex_path ex_target /\ In ex_w_add (r_methods ex_target) /\ unambiguous ex_s ex_w /\
  request_whole ex_w_add ex_w_body /\ request_body_params ex_w ex_w_add = [ex_w_body] /\
  request_valid ex_heap ex_w_request /\ mget (go_private (p_name ex_w_body)) (rq_fields ex_w_request) = Some (VObject ex_whole) /\ p_type ex_w_body = "thing" /\
  typed ex_w "thing" false (VObject ex_whole) /\ printable ex_oracle ex_w "thing" (VObject ex_whole) /\ publishable ex_w "thing" (VObject ex_whole).
Proof. exact (conj ex_w_leads (conj (proj1 ex_w_methods) (conj ex_w_unambiguous (conj (proj1 ex_w_add_whole) (conj (proj2 ex_w_add_whole) ex_w_sends))))). Qed.

(** The bodies of actions conform too, when the names of the parameters aren't changed with annotations. *)
Theorem C70_action_bodies : forall sys fuel output s v reports fs doc, published sys fuel output s v reports fs doc -> standard v -> compiles v -> distinct_schemas v ->
  forall (W E : Type) (transport : W -> http_request -> reply E * W) (o : oracle) (incomplete : json -> any)
    (show_float : Z -> string) (show_any : any -> string) (spare : nat), faithful o ->
  forall path x m, leads v path x -> In m (r_methods x) -> unambiguous s v ->
  forall r h w rs e w' h' q, request_valid h r -> action m -> request_body_params v m <> [] ->
  fields_typed v (rq_fields r) (request_body_params v m) ->
  (forall p y, In p (request_body_params v m) -> mget (go_private (p_name p)) (rq_fields r) = Some y -> y <> VNil -> publishable v (p_type p) y) ->
  (forall p, In p (request_body_params v m) -> json_name (p_annots p) = "") ->
  (forall p p', In p (request_body_params v m) -> In p' (request_body_params v m) -> snake (p_name p) = snake (p_name p') -> p = p') ->
  send_context W E transport o incomplete show_float show_any spare v m r h w = Finished W E rs e w' h' [q] ->
  exists text j paths op sc, hr_body q = Some text /\ json_document text j /\
    OpenapiSpec.field doc "paths" paths /\ operation paths (template s v path m) (str_lower (hr_method q)) op /\
    at_path op ["requestBody"; "content"; "application/json"; "schema"] sc /\ conforms doc sc j.
Proof. exact published_actions. Qed.
Print Assumptions C70_action_bodies.

Example C70_rename : In ex_w_rename (r_methods ex_target) /\ request_valid ex_heap ex_w_rename_request /\ action ex_w_rename /\ request_body_params ex_w ex_w_rename <> [] /\
  fields_typed ex_w (rq_fields ex_w_rename_request) (request_body_params ex_w ex_w_rename) /\
  (forall p y, In p (request_body_params ex_w ex_w_rename) -> mget (go_private (p_name p)) (rq_fields ex_w_rename_request) = Some y -> y <> VNil -> publishable ex_w (p_type p) y) /\
  (forall p, In p (request_body_params ex_w ex_w_rename) -> json_name (p_annots p) = "") /\
  (forall p p', In p (request_body_params ex_w ex_w_rename) -> In p' (request_body_params ex_w ex_w_rename) -> snake (p_name p) = snake (p_name p') -> p = p') /\
  exists rs e w' h' q, send_context nat string (always (Reply 204 [] "" None)) ex_oracle (fun _ => ANil) (fun _ => "0.5") (fun _ => "{}") 1 ex_w ex_w_rename ex_w_rename_request ex_heap 0 =
    Finished nat string rs e w' h' [q].
Proof. exact (conj (proj2 ex_w_methods) ex_w_renames). Qed.

(** Without those conditions the documents don't conform: lists of links are written as objects while the schemas say that they are arrays, *)
Theorem C70_links_refuted : nonconforming ex_children.
Proof. exact links_nonconforming. Qed.
Print Assumptions C70_links_refuted.

(** integers may have more than 32 bits, *)
Theorem C70_integers_refuted : nonconforming ex_large.
Proof. exact large_nonconforming. Qed.
Print Assumptions C70_integers_refuted.

(** values of enumerated types may not be declared, *)
Theorem C70_enums_refuted : nonconforming ex_unknown.
Proof. exact unknown_nonconforming. Qed.
Print Assumptions C70_enums_refuted.

(** and values of type [interface{}] may not be objects. *)
Theorem C70_interfaces_refuted : nonconforming ex_free.
Proof. exact free_nonconforming. Qed.
Print Assumptions C70_interfaces_refuted.

(** The schemas of classes and structs accept also everything that isn't an object, because they don't say that the values are objects. *)
Theorem C70_exactly_refuted : forall sys fuel output s v reports fs doc, published sys fuel output s v reports fs doc -> distinct_schemas v -> forall k t j,
  mget k (v_types v) = Some t -> structural t -> (forall l, j <> JObj l) ->
  conforms doc (JObj [("$ref", JStr ("#/components/schemas/" ++ camel (t_name t)))]) j.
Proof. exact published_untyped. Qed.
Print Assumptions C70_exactly_refuted.
