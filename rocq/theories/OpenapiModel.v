(** Model of the generator of OpenAPI specifications: pkg/generators/openapi.

    The generator is modelled as a list of the calls that it makes to its buffer and to its reporter, and the
    buffer as a function that executes those calls. *)
From Coq Require Import Ascii String Bool Arith ZArith NArith List.
From Verif Require Import GoStrings GoMap NamesModel ConceptsModel ReporterModel ReaderModel BindingModel GoNamesModel
  TextModel BufferModel JsonModel JsonTextModel ChecksModel PathsModel.
Import ListNotations.
Local Open Scope string_scope.

(** * The buffer *)

(** The calls to the buffer, the errors sent to the reporter, and the calls that never return: a nil pointer
    panic, and recursion that has exhausted the fuel of the model.  The values of fields and items are strings or
    booleans. *)
Inductive command :=
| StartObject (name : option string)
| EndObject
| Field (name : string) (value : json)
| StartArray (name : option string)
| EndArray
| Item (value : json)
| Complain (r : report)
| Crash
| Forever.

(** openapi/buffer.go:37-42: the tokens written to the stream and the stack of counters, with the top first. *)
Record openapi_buffer := MkOpenapiBuffer { ob_tokens : list token; ob_stack : list nat; ob_reports : list report }.

(** openapi/buffer.go:62-92 [Build].  It fails only if the name of the file is empty, but it never is: it ends
    with [openapi.json]. *)
Definition new_openapi_buffer (reports : list report) : openapi_buffer := MkOpenapiBuffer [] [0] reports.

(** openapi/buffer.go:108-122 [StartObject] and 141-155 [StartArray], which are the same except for the bracket. *)
Definition buffer_start (bracket : token) (name : option string) (b : openapi_buffer) : outcome openapi_buffer :=
  match ob_stack b with
  | [] => Panics
  | level :: stack =>
      let comma := if Nat.ltb 0 level then [TComma] else [] in
      match name with
      | Some n => Done (MkOpenapiBuffer (ob_tokens b ++ comma ++ [TStr n; TColon; bracket])%list (0 :: S level :: stack) (ob_reports b))
      | None => Done (MkOpenapiBuffer (ob_tokens b ++ comma ++ [bracket])%list (0 :: level :: stack) (ob_reports b))
      end
  end.

(** openapi/buffer.go:124-129 [EndObject] and 157-162 [EndArray]. *)
Definition buffer_end (bracket : token) (b : openapi_buffer) : outcome openapi_buffer :=
  match ob_stack b with
  | _ :: level :: stack => Done (MkOpenapiBuffer (ob_tokens b ++ [bracket])%list (S level :: stack) (ob_reports b))
  | _ => Panics
  end.

(** The tokens that [WriteVal] writes for strings and booleans. *)
Definition write_val (x : json) : list token :=
  match x with
  | JStr s => [TStr s]
  | JBool b => [TBool b]
  | _ => []
  end.

(** openapi/buffer.go:131-139 [Field] and 164-171 [Item]. *)
Definition buffer_value (name : option string) (x : json) (b : openapi_buffer) : outcome openapi_buffer :=
  match ob_stack b with
  | [] => Panics
  | level :: stack =>
      let comma := if Nat.ltb 0 level then [TComma] else [] in
      let label := match name with Some n => [TStr n; TColon] | None => [] end in
      Done (MkOpenapiBuffer (ob_tokens b ++ comma ++ label ++ write_val x)%list (S level :: stack) (ob_reports b))
  end.

(** One call. *)
Definition execute (c : command) (b : openapi_buffer) : outcome openapi_buffer :=
  match c with
  | StartObject n => buffer_start TLBrace n b
  | EndObject => buffer_end TRBrace b
  | Field n x => buffer_value (Some n) x b
  | StartArray n => buffer_start TLBracket n b
  | EndArray => buffer_end TRBracket b
  | Item x => buffer_value None x b
  | Complain r => Done (MkOpenapiBuffer (ob_tokens b) (ob_stack b) (ob_reports b ++ [r])%list)
  | Crash => Panics
  | Forever => OutOfFuel
  end.
Fixpoint execute_all (l : list command) (b : openapi_buffer) : outcome openapi_buffer :=
  match l with
  | [] => Done b
  | c :: l => match execute c b with Done b => execute_all l b | Panics => Panics | OutOfFuel => OutOfFuel end
  end.

(** * Names *)

(** openapi/names_calculator.go:73-76 [FileName]. *)
Definition openapi_file_name (s : service) (v : version) : string :=
  path_join [snake (s_name s); snake (v_name v); "openapi.json"].

(** openapi/names_calculator.go:79-81 [SchemaName]. *)
Definition schema_name (t : typ) : string := camel (t_name t).

(** openapi/names_calculator.go:84-90 [AttributePropertyName]. *)
Definition attribute_property_name (a : attribute) : string :=
  let n := json_name (a_annots a) in if String.eqb n "" then snake (a_name a) else n.

(** openapi/names_calculator.go:93-95 [ParameterPropertyName]. *)
Definition parameter_property_name (p : parameter) : string := snake (p_name p).

(** openapi_generator.go:647-664 [absolutePath]. *)
Definition absolute_path (s : service) (v : version) (path : list locator) : string :=
  "/api/" ++ str_join "/" ([service_segment s; version_segment v] ++
    map (fun l => if l_variable l then ("{" ++ locator_segment l ++ "_id}")%string else locator_segment l) path)%list.

(** * The generator *)

(** openapi_generator.go:641-645 [generateDescription]. *)
Definition generate_description (doc : string) : list command :=
  if String.eqb doc "" then [] else [Field "description" (JStr doc)].

(** openapi_generator.go:548-587 [generateSchemaReference]; the fuel bounds the nesting of lists and maps. *)
Fixpoint generate_schema_reference (fuel : nat) (v : version) (k : key) : list command :=
  match fuel with
  | O => [Forever]
  | S fuel =>
      match type_at k v with
      | None => [Crash]
      | Some t =>
          let nested := match t_element t with None => [Crash] | Some e => generate_schema_reference fuel v e end in
          if is_builtin nBoolean k then [Field "type" (JStr "boolean")]
          else if is_builtin nInteger k then [Field "type" (JStr "integer"); Field "format" (JStr "int32")]
          else if is_builtin nLong k then [Field "type" (JStr "integer"); Field "format" (JStr "int64")]
          else if is_builtin nFloat k then [Field "type" (JStr "number"); Field "format" (JStr "float")]
          else if is_builtin nString k then [Field "type" (JStr "string")]
          else if is_builtin nDate k then [Field "type" (JStr "string"); Field "format" (JStr "date-time")]
          else if is_builtin nInterface k then [Field "type" (JStr "object")]
          else if is_enum t || is_struct t then [Field "$ref" (JStr ("#/components/schemas/" ++ schema_name t))]
          else if is_list t then
            ([Field "type" (JStr "array"); StartObject (Some "items")] ++ nested ++ [EndObject])%list
          else if is_map t then
            ([Field "type" (JStr "object"); StartObject (Some "additionalProperties")] ++ nested ++ [EndObject])%list
          else [Complain (err ("Don't know how to generate schema reference for type '" ++ name_string (t_name t) ++ "'"))]
      end
  end.

Section Generator.
  (** The fuel, the service and the version. *)
  Context (fuel : nat) (s : service) (v : version).

  (** openapi_generator.go:184-197 [generateInfo]. *)
  Definition generate_info : list command :=
    [StartObject (Some "info");
     Field "version" (JStr (name_string (v_name v)));
     Field "title" (JStr (name_string (s_name s)));
     StartObject (Some "license");
     Field "name" (JStr "Apache 2.0");
     Field "url" (JStr "http://www.apache.org/licenses/LICENSE-2.0");
     EndObject;
     StartObject (Some "contact");
     Field "name" (JStr "OCM Feedback");
     Field "email" (JStr "ocm-feedback@redhat.com");
     EndObject;
     EndObject].

  (** openapi_generator.go:199-215 [generateServers]. *)
  Definition generate_servers : list command :=
    [StartArray (Some "servers");
     StartObject None;
     Field "description" (JStr "Production");
     Field "url" (JStr "https://api.openshift.com");
     EndObject;
     StartObject None;
     Field "description" (JStr "Stage");
     Field "url" (JStr "https://api.stage.openshift.com");
     EndObject;
     EndArray].

  (** The content of a request or response: openapi_generator.go:261-267, 271-277, 322-337, 396-411 and 416-422. *)
  Definition json_content (schema : list command) : list command :=
    ([StartObject (Some "content"); StartObject (Some "application/json"); StartObject (Some "schema")] ++ schema ++
     [EndObject; EndObject; EndObject])%list.

  (** The default response, which is the same in openapi_generator.go:268-277 and 415-424. *)
  Definition generate_default_response : list command :=
    ([StartObject (Some "default")] ++ generate_description "Error." ++
     json_content [Field "$ref" (JStr "#/components/schemas/Error")] ++ [EndObject])%list.

  (** openapi_generator.go:254-282 [generateMetadataPath]. *)
  Definition generate_metadata_path : list command :=
    ([StartObject (Some (absolute_path s v []));
      StartObject (Some "get")] ++
      generate_description "Retrieves the version metadata." ++
      [StartObject (Some "responses");
       StartObject (Some "200")] ++
       generate_description "Success." ++
       json_content [Field "$ref" (JStr "#/components/schemas/Metadata")] ++
       [EndObject] ++
       generate_default_response ++
       [EndObject; EndObject; EndObject])%list.

  (** openapi_generator.go:427-433 [genrateParameterProperty]. *)
  Definition generate_parameter_property (p : parameter) : list command :=
    ([StartObject (Some (parameter_property_name p))] ++ generate_description (p_doc p) ++
     generate_schema_reference fuel v (p_type p) ++ [EndObject])%list.

  (** The schema of the body of a request or a response: openapi_generator.go:324-333 and 400-409. *)
  Definition generate_body_schema (m : method) (parameters : list parameter) : list command :=
    if Nat.ltb 1 (length parameters) || is_action m then
      ([Field "type" (JStr "object"); StartObject (Some "properties")] ++
       flat_map generate_parameter_property parameters ++ [EndObject])%list
    else
      match parameters with
      | p :: _ => generate_schema_reference fuel v (p_type p)
      | [] => [Crash]
      end.

  (** openapi_generator.go:368-377 [generatePathParameter]. *)
  Definition generate_path_parameter (l : locator) : list command :=
    [StartObject None;
     Field "name" (JStr (locator_segment l ++ "_id"));
     Field "in" (JStr "path");
     StartObject (Some "schema");
     Field "type" (JStr "string");
     EndObject;
     Field "required" (JBool true);
     EndObject].

  (** openapi_generator.go:379-388 [generateQueryParameter]. *)
  Definition generate_query_parameter (p : parameter) : list command :=
    ([StartObject None; Field "name" (JStr (query_parameter_name p))] ++
     generate_description (p_doc p) ++
     [Field "in" (JStr "query"); StartObject (Some "schema")] ++
     generate_schema_reference fuel v (p_type p) ++ [EndObject; EndObject])%list.

  (** openapi_generator.go:344-366 [generateURLParameters]. *)
  Definition generate_url_parameters (path : list locator) (m : method) : list command :=
    let locators := filter l_variable path in
    let parameters := request_query_params v m in
    if Nat.ltb 0 (length locators + length parameters) then
      ([StartArray (Some "parameters")] ++ flat_map generate_path_parameter locators ++
       flat_map generate_query_parameter parameters ++ [EndArray])%list
    else [].

  (** openapi_generator.go:390-425 [generateResponses]. *)
  Definition generate_responses (m : method) : list command :=
    let parameters := response_params m in
    ([StartObject (Some "responses"); StartObject (Some (default_status m))] ++ generate_description "Success." ++
     (if Nat.ltb 0 (length parameters) then json_content (generate_body_schema m parameters) else []) ++
     [EndObject] ++ generate_default_response ++ [EndObject])%list.

  (** openapi_generator.go:315-342 [generateMethod]. *)
  Definition generate_method (path : list locator) (m : method) : list command :=
    let parameters := request_body_params v m in
    ([StartObject (Some (str_lower (http_method m)))] ++ generate_description (m_doc m) ++ generate_url_parameters path m ++
     (if Nat.ltb 0 (length parameters) then
        [StartObject (Some "requestBody")] ++ json_content (generate_body_schema m parameters) ++ [EndObject]
      else []) ++
     generate_responses m ++ [EndObject])%list.

  (** openapi_generator.go:284-314 [generateResourcePaths]. *)
  Definition generate_resource_paths (prefix : string) (path : list locator) (r : resource) : list command :=
    let with_segment := filter (fun m => negb (String.eqb (method_segment m) "")) (r_methods r) in
    let without_segment := filter (fun m => String.eqb (method_segment m) "") (r_methods r) in
    ((if Nat.ltb 0 (length without_segment) then
        [StartObject (Some prefix)] ++ flat_map (generate_method path) without_segment ++ [EndObject]
      else []) ++
     flat_map (fun m => [StartObject (Some (prefix ++ "/" ++ method_segment m)%string)] ++ generate_method path m ++ [EndObject]) with_segment)%list.

  (** openapi_generator.go:220-224: the index of the paths, where later paths replace earlier ones. *)
  Definition path_index (paths : list (list locator)) : list (string * list locator) :=
    fold_left (fun index path => mset (absolute_path s v path) path index) paths [].

  (** openapi_generator.go:246-247: the resource at the end of a path; a path is never empty. *)
  Definition last_target (path : list locator) : option resource :=
    match rev path with
    | l :: _ => match l_target l with Some k => resource_at k v | None => None end
    | [] => None
    end.

  (** openapi_generator.go:217-252 [generatePaths].  The prefixes are sorted, so the order in which they are taken
      from the index isn't relevant. *)
  Definition generate_paths : list command :=
    match paths fuel v with
    | Panics => [Crash]
    | OutOfFuel => [Forever]
    | Done ps =>
        let index := path_index ps in
        let prefixes := sort (fun a b => Z.ltb (str_compare a b) 0) (mkeys index) in
        ([StartObject (Some "paths")] ++
         generate_metadata_path ++
         match root v with
         | None => [Crash]
         | Some r => generate_resource_paths (absolute_path s v []) [] r
         end ++
         flat_map (fun prefix =>
           match mget prefix index with
           | None => [Crash]
           | Some path =>
               match last_target path with
               | None => [Crash]
               | Some r => generate_resource_paths prefix path r
               end
           end) prefixes ++
         [EndObject])%list
    end.

  (** openapi_generator.go:468-481 [generateMetadataSchema]. *)
  Definition generate_metadata_schema : list command :=
    ([StartObject (Some "Metadata")] ++ generate_description "Version metadata." ++
     [StartObject (Some "properties"); StartObject (Some "server_version")] ++ generate_description "Version of the server." ++
     [Field "type" (JStr "string"); EndObject; EndObject; EndObject])%list.

  (** openapi_generator.go:483-494 [generateEnumSchema]. *)
  Definition generate_enum_schema (t : typ) : list command :=
    ([StartObject (Some (schema_name t))] ++ generate_description (t_doc t) ++
     [Field "type" (JStr "string"); StartArray (Some "enum")] ++
     map (fun x => Item (JStr (enum_value_name x))) (t_values t) ++ [EndArray; EndObject])%list.

  (** openapi_generator.go:531-537 [generateStructProperty]. *)
  Definition generate_struct_property (a : attribute) : list command :=
    ([StartObject (Some (attribute_property_name a))] ++ generate_description (a_doc a) ++
     generate_schema_reference fuel v (a_type a) ++ [EndObject])%list.

  (** The properties of type string of the classes and of the errors. *)
  Definition generate_string_property (n doc : string) : list command :=
    ([StartObject (Some n)] ++ generate_description doc ++ [Field "type" (JStr "string"); EndObject])%list.

  (** openapi_generator.go:496-529 [generateStructSchema]. *)
  Definition generate_struct_schema (t : typ) : list command :=
    let n := schema_name t in
    ([StartObject (Some n)] ++ generate_description (t_doc t) ++ [StartObject (Some "properties")] ++
     (if is_class t then
        generate_string_property "kind"
          ("Indicates the type of this object. Will be '" ++ n ++ "' if this is a complete object or '" ++ n ++ "Link' if it is just a link.")%string ++
        generate_string_property "id" "Unique identifier of the object." ++
        generate_string_property "href" "Self link."
      else []) ++
     flat_map generate_struct_property (t_attrs t) ++ [EndObject; EndObject])%list.

  (** openapi_generator.go:459-466 [generateSchema]. *)
  Definition generate_schema (t : typ) : list command :=
    if is_enum t then generate_enum_schema t else if is_struct t then generate_struct_schema t else [].

  (** openapi_generator.go:589-639 [generateErrorSchema]. *)
  Definition generate_error_schema : list command :=
    ([StartObject (Some "Error"); Field "type" (JStr "object"); StartObject (Some "properties")] ++
     generate_string_property "kind" "Indicates the type of this object. Will always be 'Error'" ++
     [StartObject (Some "id")] ++ generate_description "Numeric identifier of the error." ++
     [Field "type" (JStr "integer"); Field "format" (JStr "int32"); EndObject] ++
     generate_string_property "href" "Self link." ++
     generate_string_property "code"
       "Globally unique code of the error, composed of the unique identifier of the API and the numeric identifier of the error. For example, for if the numeric identifier of the error is `93` and the identifier of the API is `clusters_mgmt` then the code will be `CLUSTERS-MGMT-93`." ++
     generate_string_property "reason" "Human readable description of the error." ++
     [StartObject (Some "details")] ++ generate_description "Extra information about the error." ++
     [Field "type" (JStr "object"); Field "additionalProperties" (JBool true); EndObject;
      EndObject; EndObject])%list.

  (** openapi_generator.go:435-457 [generateComponents]. *)
  Definition generate_components : list command :=
    ([StartObject (Some "components"); StartObject (Some "schemas")] ++
     generate_metadata_schema ++ flat_map generate_schema (types v) ++ generate_error_schema ++
     [EndObject;
      StartObject (Some "securitySchemes"); StartObject (Some "bearer");
      Field "type" (JStr "http"); Field "scheme" (JStr "bearer"); Field "bearerFormat" (JStr "JWT");
      EndObject; EndObject;
      EndObject])%list.

  (** openapi_generator.go:539-546 [generateSecurity]. *)
  Definition generate_security : list command :=
    [StartArray (Some "security"); StartObject None; StartArray (Some "bearer"); EndArray; EndObject; EndArray].

  (** openapi_generator.go:173-182 [generateSpecSource]. *)
  Definition generate_spec_source : list command :=
    ([StartObject None; Field "openapi" (JStr "3.0.0")] ++ generate_info ++ generate_servers ++ generate_paths ++
     generate_components ++ generate_security ++ [EndObject])%list.
End Generator.

(** openapi_generator.go:151-171 [generateSpec]. *)
Definition generate_spec (sys : system) (fuel : nat) (output : string) (s : service) (v : version) (reports : list report) (fs : files)
  : outcome (option string * list report * files) :=
  match execute_all (generate_spec_source fuel s v) (new_openapi_buffer reports) with
  | Done b => Done (write_openapi sys (path_join [output; openapi_file_name s v]) (write_tokens 0 (ob_tokens b)) (ob_reports b) fs)
  | Panics => Panics
  | OutOfFuel => OutOfFuel
  end.

(** openapi_generator.go:125-149 [Run]: all the versions of all the services, till the first error.  The counter of
    errors that is checked at the end is never incremented. *)
Fixpoint generate_specs (sys : system) (fuel : nat) (output : string) (l : list (service * version)) (reports : list report) (fs : files)
  : outcome (option string * list report * files) :=
  match l with
  | [] => Done (None, reports, fs)
  | (s, v) :: l =>
      match generate_spec sys fuel output s v reports fs with
      | Done (None, reports, fs) => generate_specs sys fuel output l reports fs
      | r => r
      end
  end.
Definition run_openapi (sys : system) (fuel : nat) (output : string) (m : model) (reports : list report) (fs : files)
  : outcome (option string * list report * files) :=
  generate_specs sys fuel output (flat_map (fun s => map (fun v => (s, v)) (versions s)) (services m)) reports fs.
