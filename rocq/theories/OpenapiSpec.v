(** What the OpenAPI specifications are expected to contain. *)
From Coq Require Import Ascii String Bool Arith ZArith NArith List.
From Verif Require Import GoStrings GoMap NamesModel ConceptsModel ReporterModel ReaderModel BindingModel GoNamesModel ObjectsSpec
  TextModel BufferModel JsonModel JsonSpec JsonTextModel JsonTextSpec ChecksModel ChecksSpec OpenapiModel.
Import ListNotations.
Local Open Scope string_scope.

(** The file has been written, and its content is a JSON document with the given value. *)
Definition published (sys : system) (fuel : nat) (output : string) (s : service) (v : version) (reports : list report) (fs : files) (j : json) : Prop :=
  exists reports' fs' text,
    generate_spec sys fuel output s v reports fs = Done (None, reports', fs') /\
    mget (path_join [output; path_join [snake (s_name s); snake (v_name v); "openapi.json"]]) fs' = Some text /\
    json_document text j.

(** * Reading documents *)

(** The value is an object that has exactly one member with that name. *)
Definition field (j : json) (k : string) (x : json) : Prop :=
  exists l1 l2, j = JObj (l1 ++ (k, x) :: l2)%list /\ ~ In k (map fst (l1 ++ l2)%list).

(** The value is an object without that member. *)
Definition no_field (j : json) (k : string) : Prop := exists l, j = JObj l /\ ~ In k (map fst l).

(** Follows a sequence of names. *)
Inductive at_path : json -> list string -> json -> Prop :=
| at_here j : at_path j [] j
| at_member j k x ks y : field j k x -> at_path x ks y -> at_path j (k :: ks) y.

(** The members of an object, with the description first, if there is one. *)
Definition described (doc : string) (l : list (string * json)) : list (string * json) :=
  if String.eqb doc "" then l else ("description", JStr doc) :: l.

(** * Types *)

(** The schemas of the predefined types. *)
Definition predefined : list (string * list (string * json)) :=
  [("boolean", [("type", JStr "boolean")]);
   ("integer", [("type", JStr "integer"); ("format", JStr "int32")]);
   ("long", [("type", JStr "integer"); ("format", JStr "int64")]);
   ("float", [("type", JStr "number"); ("format", JStr "float")]);
   ("string", [("type", JStr "string")]);
   ("date", [("type", JStr "string"); ("format", JStr "date-time")]);
   ("interface", [("type", JStr "object")])].

(** The members of the schemas of types. *)
Inductive type_schema (v : version) : key -> list (string * json) -> Prop :=
| ts_predefined k t l : mget k (v_types v) = Some t -> In (k, l) predefined -> type_schema v k l
| ts_named k t : mget k (v_types v) = Some t -> ~ In k (map fst predefined) -> In (t_kind t) [EnumType; ClassType; StructType] ->
    type_schema v k [("$ref", JStr ("#/components/schemas/" ++ camel (t_name t)))]
| ts_list k t e l : mget k (v_types v) = Some t -> ~ In k (map fst predefined) -> t_kind t = ListType -> t_element t = Some e -> type_schema v e l ->
    type_schema v k [("type", JStr "array"); ("items", JObj l)]
| ts_map k t e l : mget k (v_types v) = Some t -> ~ In k (map fst predefined) -> t_kind t = MapType -> t_element t = Some e -> type_schema v e l ->
    type_schema v k [("type", JStr "object"); ("additionalProperties", JObj l)].

(** The schema of a property. *)
Definition property (v : version) (n doc : string) (k : key) (p : string * json) : Prop :=
  exists l, type_schema v k l /\ p = (n, JObj (described doc l)).

(** * Methods *)

(** The path leads from the root to the resource. *)
Definition leads (v : version) (path : list locator) (r : resource) : Prop :=
  exists k, walk v "root" path k /\ mget k (v_resources v) = Some r.

(** The segments of a path, where the identifiers are replaced by place holders. *)
Definition placeholder (l : locator) : string := if l_variable l then "{" ++ locator_segment l ++ "_id}" else locator_segment l.
Definition resource_segments (s : service) (v : version) (path : list locator) : list string :=
  ("api" :: service_segment s :: version_segment v :: map placeholder path)%list.
Definition method_segments (m : method) : list string := if String.eqb (method_segment m) "" then [] else [method_segment m].

(** The text of a list of segments. *)
Fixpoint url (l : list string) : string := match l with [] => "" | x :: l => "/" ++ x ++ url l end.
Definition template (s : service) (v : version) (path : list locator) (m : method) : string :=
  url (resource_segments s v path ++ method_segments m)%list.

(** The operations of the paths of a document. *)
Definition operation (paths : json) (t verb : string) (op : json) : Prop :=
  exists ps ms, paths = JObj ps /\ In (t, JObj ms) ps /\ In (verb, op) ms.

(** Parameters. *)
Definition path_parameter (l : locator) (j : json) : Prop :=
  field j "name" (JStr (locator_segment l ++ "_id")) /\ field j "in" (JStr "path") /\ field j "required" (JBool true) /\
  at_path j ["schema"; "type"] (JStr "string").
Definition query_parameter (v : version) (p : parameter) (j : json) : Prop :=
  field j "name" (JStr (query_parameter_name p)) /\ field j "in" (JStr "query") /\ no_field j "required" /\
  (exists l, type_schema v (p_type p) l /\ field j "schema" (JObj l)) /\
  (if String.eqb (p_doc p) "" then no_field j "description" else field j "description" (JStr (p_doc p))).

(** The schema of a body: the one of the only parameter, or else an object with one property for each of them. *)
Definition body_schema (v : version) (m : method) (ps : list parameter) (j : json) : Prop :=
  (exists p l, ps = [p] /\ is_action m = false /\ type_schema v (p_type p) l /\ j = JObj l) \/
  ((is_action m = true \/ 2 <= length ps) /\
   exists l, Forall2 (fun p x => property v (snake (p_name p)) (p_doc p) (p_type p) x) ps l /\
     j = JObj [("type", JStr "object"); ("properties", JObj l)]).
Definition error_response (j : json) : Prop :=
  field j "description" (JStr "Error.") /\
  at_path j ["content"; "application/json"; "schema"] (JObj [("$ref", JStr "#/components/schemas/Error")]).

(** The description of a method. *)
Definition describes (v : version) (path : list locator) (m : method) (op : json) : Prop :=
  (if String.eqb (m_doc m) "" then no_field op "description" else field op "description" (JStr (m_doc m))) /\
  (exists a b, Forall2 path_parameter (filter l_variable path) a /\ Forall2 (query_parameter v) (request_query_params v m) b /\
     match (a ++ b)%list with [] => no_field op "parameters" | l => field op "parameters" (JArr l) end) /\
  match request_body_params v m with
  | [] => no_field op "requestBody"
  | ps => exists x, at_path op ["requestBody"; "content"; "application/json"; "schema"] x /\ body_schema v m ps x
  end /\
  (exists rs ok ko, field op "responses" (JObj rs) /\ rs = [(default_status m, ok); ("default", ko)] /\
     field ok "description" (JStr "Success.") /\
     match response_params m with
     | [] => no_field ok "content"
     | ps => exists x, at_path ok ["content"; "application/json"; "schema"] x /\ body_schema v m ps x
     end /\ error_response ko).

(** The description of the retrieval of the metadata. *)
Definition describes_metadata (op : json) : Prop :=
  field op "description" (JStr "Retrieves the version metadata.") /\ no_field op "parameters" /\ no_field op "requestBody" /\
  exists ok ko, field op "responses" (JObj [("200", ok); ("default", ko)]) /\ field ok "description" (JStr "Success.") /\
    at_path ok ["content"; "application/json"; "schema"] (JObj [("$ref", JStr "#/components/schemas/Metadata")]) /\ error_response ko.

(** * Schemas *)

Definition string_property (n doc : string) : string * json := (n, JObj [("description", JStr doc); ("type", JStr "string")]).

(** The schemas of types. *)
Definition type_properties (v : version) (t : typ) (l : list (string * json)) : Prop :=
  exists ps, Forall2 (fun a x => property v (attribute_name a) (a_doc a) (a_type a) x) (t_attrs t) ps /\
    l = ((match t_kind t with
          | ClassType =>
              [string_property "kind"
                 ("Indicates the type of this object. Will be '" ++ camel (t_name t) ++ "' if this is a complete object or '" ++
                  camel (t_name t) ++ "Link' if it is just a link.")%string;
               string_property "id" "Unique identifier of the object."; string_property "href" "Self link."]
          | _ => []
          end) ++ ps)%list.
Inductive schema (v : version) (t : typ) : json -> Prop :=
| sc_enum : t_kind t = EnumType ->
    schema v t (JObj (described (t_doc t) [("type", JStr "string"); ("enum", JArr (map (fun x => JStr (enum_value_name x)) (t_values t)))]))
| sc_struct l : structural t -> type_properties v t l -> schema v t (JObj (described (t_doc t) [("properties", JObj l)])).
Definition metadata_schema : json :=
  JObj [("description", JStr "Version metadata."); ("properties", JObj [string_property "server_version" "Version of the server."])].
Definition error_schema (j : json) : Prop :=
  field j "type" (JStr "object") /\
  exists l, field j "properties" (JObj l) /\ map fst l = ["kind"; "id"; "href"; "code"; "reason"; "details"] /\
    (forall k, In k ["kind"; "href"; "code"; "reason"] -> at_path (JObj l) [k; "type"] (JStr "string")) /\
    at_path (JObj l) ["id"; "type"] (JStr "integer") /\ at_path (JObj l) ["id"; "format"] (JStr "int32") /\
    at_path (JObj l) ["details"; "type"] (JStr "object") /\ at_path (JObj l) ["details"; "additionalProperties"] (JBool true).

(** * References *)

(** The references that occur anywhere in a document. *)
Inductive refers : json -> string -> Prop :=
| ref_here l s : In ("$ref", JStr s) l -> refers (JObj l) s
| ref_member l k x s : In (k, x) l -> refers x s -> refers (JObj l) s
| ref_item l x s : In x l -> refers x s -> refers (JArr l) s.

(** The types of the model can be expressed: the references to types lead to types, all of them defined, and the
    nesting of lists and maps is finite. *)
Inductive expressible (v : version) : key -> Prop :=
| ex_predefined k t : mget k (v_types v) = Some t -> In k (map fst predefined) -> expressible v k
| ex_named k t : mget k (v_types v) = Some t -> In (t_kind t) [EnumType; ClassType; StructType] -> expressible v k
| ex_nested k t e : mget k (v_types v) = Some t -> In (t_kind t) [ListType; MapType] -> t_element t = Some e -> expressible v e -> expressible v k.

(** The types used by the document: those of the attributes of the types of the version and of the parameters of the methods that can be reached. *)
Definition used (v : version) (k : key) : Prop :=
  (exists t a, In t (types v) /\ structural t /\ In a (t_attrs t) /\ k = a_type a) \/
  (exists path r m p, leads v path r /\ In m (r_methods r) /\ In p (m_params m) /\ k = p_type p).

(** * Paths without ambiguities *)

(** Different paths have different templates. *)
Definition unambiguous (s : service) (v : version) : Prop :=
  forall p q r r', leads v p r -> leads v q r' -> p <> [] -> q <> [] ->
    url (resource_segments s v p) = url (resource_segments s v q) -> p = q.

(** The segments of the locators of each resource are different and don't contain slashes. *)
Fixpoint no_slash (s : string) : Prop := match s with EmptyString => True | String c r => c <> "/"%char /\ no_slash r end.
Definition distinct_segments (v : version) : Prop :=
  forall path r, leads v path r -> NoDup (map placeholder (r_locators r)) /\ forall l, In l (r_locators r) -> no_slash (placeholder l).
