(** Model of the names of what the generators of Go code declare: the files of the package of a version, the
    declarations of that package, and the fields and methods of the generated types.

    Simplification: only the names are modelled, not the declarations themselves; the types whose members don't
    depend on the model (for example the list types, types_generator.go:458-590) aren't included in the part about
    members. *)
From Coq Require Import Ascii String Bool List.
From Verif Require Import GoStrings NamesModel ConceptsModel BindingModel GoNamesModel.
Import ListNotations.
Local Open Scope string_scope.

(** pkg/nomenclator/names.go, other names; each comment has the line of the name. *)
Definition nBuilder := nm "Builder". (* names.go:34 *)
Definition nClient := nm "Client". (* names.go:37 *)
Definition nError := nm "Error". (* names.go:47 *)
Definition nErrors := nm "Errors". (* names.go:48 *)
Definition nJSON := nm "JSON". (* names.go:69 *)
Definition nMetadata := nm "Metadata". (* names.go:82 *)
Definition nRead := nm "Read". (* names.go:97 *)
Definition nReader := nm "Reader". (* names.go:98 *)
Definition nRequest := nm "Request". (* names.go:100 *)
Definition nResource := nm "Resource". (* names.go:101 *)
Definition nResponse := nm "Response". (* names.go:102 *)
Definition nType := nm "Type". (* names.go:119 *)
Definition nWrite := nm "Write". (* names.go:128 *)

(** The sequence that the generators repeat: [annotations.GoName], and if it is empty then [names.Public] (for
    example types_generator.go:638-641). *)
Definition go_name_or_public (l : list annotation) (n : name) : string :=
  let g := go_name l in if String.eqb g "" then go_public n else g.

(** * Members of the types that represent objects *)

(** types_generator.go:602-604, builders_generator.go:638-640 and json_generator.go:1565-1567, [fieldName]. *)
Definition attribute_field (a : attribute) : string := go_private (a_name a).
(** types_generator.go:661-667, [getterName], and builders_generator.go:702-708, [setterName]. *)
Definition attribute_accessor (a : attribute) : string := go_name_or_public (a_annots a) (a_name a).

(** types_generator.go:333-348 and builders_generator.go:219-235, the fields of the struct: first the attributes
    that aren't boolean. *)
Definition object_fields (t : typ) : list string :=
  (["bitmap_"] ++ (if is_class t then ["id"; "href"] else [])
   ++ map attribute_field (filter (fun a => negb (is_builtin nBoolean (a_type a))) (t_attrs t))
   ++ map attribute_field (filter (fun a => is_builtin nBoolean (a_type a)) (t_attrs t)))%list.
(** types_generator.go:351-443, the methods. *)
Definition object_methods (t : typ) : list string :=
  ((if is_class t then ["Kind"; "Link"; "ID"; "GetID"; "HREF"; "GetHREF"] else []) ++ ["Empty"]
   ++ flat_map (fun a => [attribute_accessor a; ("Get" ++ attribute_accessor a)%string]) (t_attrs t))%list.
(** builders_generator.go:242-455, the methods of the builder. *)
Definition builder_methods (t : typ) : list string :=
  ((if is_class t then ["Link"; "ID"; "HREF"] else []) ++ ["Empty"] ++ map attribute_accessor (t_attrs t)
   ++ ["Copy"; "Build"])%list.

(** * Members of the clients *)

(** clients_generator.go:1243-1249, [avoidBuiltin]. *)
Definition avoid_builtin (n : string) (builtins : list string) : string :=
  if existsb (String.eqb n) builtins then n ++ "_" else n.
(** clients_generator.go:1251-1254, [builtinFields]. *)
Definition builtin_fields : list string := ["err"; "status"].
(** clients_generator.go:1256-1259, [builtinGetters]. *)
Definition builtin_getters : list string := ["Error"; "Status"].
(** clients_generator.go:1261, [builtinSetters]. *)
Definition builtin_setters : list string := [].

(** clients_generator.go:1039-1043, [fieldName]. *)
Definition parameter_field (p : parameter) : string := avoid_builtin (go_private (p_name p)) builtin_fields.
(** json_generator.go:1569-1571, [parameterFieldName]: the name of the same field, for the code that reads and writes
    the parameters. *)
Definition json_parameter_field (p : parameter) : string := go_private (p_name p).
(** clients_generator.go:1063-1070, [getterName]. *)
Definition parameter_getter (p : parameter) : string :=
  avoid_builtin (go_name_or_public (p_annots p) (p_name p)) builtin_getters.
(** clients_generator.go:1076-1083, [setterName]. *)
Definition parameter_setter (p : parameter) : string :=
  avoid_builtin (go_name_or_public (p_annots p) (p_name p)) builtin_setters.
(** clients_generator.go:1111-1117, [locatorName]. *)
Definition locator_go_name (l : locator) : string := go_name_or_public (l_annots l) (l_name l).
(** clients_generator.go:1119-1125, [methodName]. *)
Definition method_go_name (m : method) : string := go_name_or_public (m_annots m) (m_name m).

(** clients_generator.go:784-791, the fields of the request of a method. *)
Definition request_fields (m : method) : list string :=
  (["transport"; "path"; "query"; "header"] ++ map parameter_field (request_params m))%list.
(** clients_generator.go:794-840, its methods. *)
Definition request_methods (m : method) : list string :=
  (["Parameter"; "Header"; "Impersonate"] ++ map parameter_setter (request_params m) ++ ["Send"; "SendContext"])%list.
(** clients_generator.go:933-944, the fields of the response of a method. *)
Definition response_fields (m : method) : list string :=
  (["status"; "header"; "err"] ++ map parameter_field (response_params m))%list.
(** clients_generator.go:947-1007, its methods. *)
Definition response_methods (m : method) : list string :=
  (["Status"; "Header"; "Error"]
   ++ flat_map (fun p => [parameter_getter p; ("Get" ++ parameter_getter p)%string]) (response_params m))%list.
(** clients_generator.go:604-609, the fields of the request of the [Poll] method. *)
Definition poll_request_fields : list string := ["request"; "interval"; "statuses"; "predicates"].
(** clients_generator.go:612-684, its methods; the argument is the [Get] method of the resource. *)
Definition poll_request_methods (m : method) : list string :=
  (["Parameter"; "Header"] ++ map parameter_setter (request_params m)
   ++ ["Interval"; "Status"; "Predicate"; "StartContext"; "task"])%list.
(** clients_generator.go:687-689, the fields of the response of the [Poll] method. *)
Definition poll_response_fields : list string := ["response"].
(** clients_generator.go:692-735, its methods. *)
Definition poll_response_methods (m : method) : list string := response_methods m.

(** clients_generator.go:496-499, the fields of the client of a resource. *)
Definition client_fields : list string := ["transport"; "path"].
(** clients_generator.go:512-582 and 739, its methods; [root] says if it is the root of the version. *)
Definition client_methods (root : bool) (r : resource) : list string :=
  (map method_go_name (r_methods r) ++ (if root then ["Get"] else []) ++ map locator_go_name (r_locators r)
   ++ match find_method nGet r with Some _ => ["Poll"] | None => [] end)%list.

(** * Declarations of the package of a version *)

(** types_generator.go:645-655, [valueName]. *)
Definition value_const (t : typ) (e : enum_value) : string :=
  go_name_or_public (t_annots t) (t_name t) ++ go_name_or_public (ev_annots e) (ev_name e).
(** types_generator.go:700-706, [listName]. *)
Definition list_name (t : typ) : string := object_name t ++ "List".

(** types_generator.go:216-590: the declarations of the files of the types. *)
Definition types_decls (v : version) : list string :=
  "Metadata" :: flat_map (fun t =>
    if is_enum t then object_name t :: map (value_const t) (t_values t)
    else if is_struct t then
      ((if is_class t then [object_name t ++ "Kind"; object_name t ++ "LinkKind"; object_name t ++ "NilKind"]%string else [])
       ++ [object_name t; list_name t ++ "Kind"; list_name t ++ "LinkKind"; list_name t ++ "NilKind"; list_name t]%string)%list
    else []) (types v).

(** builders_generator.go:146-156: the types that have a builder, with the Go name of what it builds
    (builders_generator.go:561-583, [objectName]). *)
Definition built_name (v : version) (t : typ) : option string :=
  if is_struct t then Some (object_name t)
  else if is_list t then
    match t_element t with
    | Some e => match type_at e v with Some te => if is_struct te then Some (list_name te) else None | None => None end
    | None => None
    end
  else None.
(** builders_generator.go:216-240 and 501-511, with [builderName] (585-610) and [builderCtor] (612-636). *)
Definition builders_decls (v : version) : list string :=
  flat_map (fun t => match built_name v t with Some n => [n ++ "Builder"; "New" ++ n] | None => [] end) (types v).

(** json_generator.go:187-196: the types that have functions to marshal and unmarshal. *)
Definition has_json (v : version) (t : typ) : bool :=
  if is_struct t then true
  else if is_list t then
    match t_element t with
    | Some e => match type_at e v with Some te => is_scalar te || is_struct te | None => false end
    | None => false
    end
  else false.
(** json_generator.go:593-678 and 777-818, with [marshalTypeFunc] (1519-1526), [writeTypeFunc] (1528-1531),
    [unmarshalTypeFunc] (1542-1549) and [readTypeFunc] (1551-1554). *)
Definition json_type_decls (t : typ) : list string :=
  ["Marshal" ++ go_name_or_public (t_annots t) (t_name t); go_public (cat [nWrite; t_name t]);
   "Unmarshal" ++ go_name_or_public (t_annots t) (t_name t); go_public (cat [nRead; t_name t])].
(** json_generator.go:1619-1637 and clients_generator.go:1203-1221, [writeRequestFunc]. *)
Definition write_request_func (root : bool) (r : resource) (m : method) : string :=
  go_private (cat ([nWrite] ++ (if root then [] else [r_name r]) ++ [m_name m; nRequest])%list).
(** json_generator.go:1639-1657 and clients_generator.go:1223-1241, [readResponseFunc]. *)
Definition read_response_func (root : bool) (r : resource) (m : method) : string :=
  go_private (cat ([nRead] ++ (if root then [] else [r_name r]) ++ [m_name m; nResponse])%list).
(** pkg/concepts/resource.go:112-114, [IsRoot]; the comparison of pointers is a comparison of keys. *)
Definition is_root (r : resource) : bool := String.eqb (name_key (r_name r)) (name_key nRoot).
(** json_generator.go:480-527, the functions of the metadata. *)
Definition json_metadata_decls : list string := ["MarshalMetadata"; "writeMetadata"; "UnmarshalMetadata"; "readMetadata"].
(** json_generator.go:165-205 and 875-1240: the declarations of the files of the JSON support. *)
Definition json_decls (v : version) : list string :=
  (json_metadata_decls ++ flat_map json_type_decls (filter (has_json v) (types v))
   ++ flat_map (fun r =>
        flat_map (fun m => [write_request_func (is_root r) r m; read_response_func (is_root r) r m]) (r_methods r))
      (resources v))%list.

(** clients_generator.go:1127-1137, [clientName]. *)
Definition client_name (r : resource) : string :=
  (if is_root r then "" else go_name_or_public (r_annots r) (r_name r)) ++ "Client".
(** clients_generator.go:1139-1160 and 1162-1183, [requestName] and [responseName], without the last word. *)
Definition exchange_name (r : resource) (m : method) : string :=
  (if is_root r then "" else go_name_or_public (r_annots r) (r_name r)) ++ method_go_name m.
(** clients_generator.go:1185-1192 and 1194-1201, [pollRequestName] and [pollResponseName], without the last word. *)
Definition poll_name (r : resource) : string := go_name_or_public (r_annots r) (r_name r) ++ "Poll".
(** clients_generator.go:318, 326, 496-740, 784 and 933: the declarations of the files of the clients. *)
Definition clients_decls (v : version) : list string :=
  (["MetadataRequest"; "MetadataResponse"]
   ++ flat_map (fun r =>
        [client_name r; "New" ++ client_name r]%string
        ++ match find_method nGet r with
           | Some _ => [poll_name r ++ "Request"; poll_name r ++ "Response"]%string
           | None => []
           end
        ++ flat_map (fun m => [exchange_name r m ++ "Request"; exchange_name r m ++ "Response"]%string) (r_methods r))
      (resources v))%list.

(** errors_generator.go:777-779, [errorName]. *)
Definition error_const (e : error) : string := go_public (cat [e_name e; nError]).
(** errors_generator.go:757-771.  The errors are those of the version in the order of the map, as the order doesn't matter here;
    when there is more than one [Version.Errors] panics (see C07). *)
Definition errors_decls (v : version) : list string := map error_const (map snd (v_errors v)).

(** golang/openapi_generator.go:228. *)
Definition openapi_decls : list string := ["OpenAPI"].

(** All the declarations of the package of a version. *)
Definition version_decls (v : version) : list string :=
  (types_decls v ++ builders_decls v ++ json_decls v ++ clients_decls v ++ errors_decls v ++ openapi_decls)%list.

(** * Files of the package of a version *)

(** types_generator.go:594-600, [metadataFile] and [typeFile]; lines 157-176. *)
Definition types_files (v : version) : list string :=
  go_file (cat [nMetadata; nType])
  :: map (fun t => go_file (cat [t_name t; nType])) (filter (fun t => is_enum t || is_struct t) (types v)).
(** builders_generator.go:557-559, [fileName]; lines 143-160. *)
Definition builders_files (v : version) : list string :=
  map (fun t => go_file (cat [t_name t; nBuilder]))
    (filter (fun t => match built_name v t with Some _ => true | None => false end) (types v)).
(** json_generator.go:1507-1517, [metadataFile], [typeFile] and [resourceFile]; lines 162-205. *)
Definition json_files (v : version) : list string :=
  (go_file (cat [nMetadata; nReader])
   :: map (fun t => go_file (cat [t_name t; nType; nJSON])) (filter (has_json v) (types v))
   ++ map (fun r => go_file (cat [r_name r; nResource; nJSON])) (resources v))%list.
(** clients_generator.go:1023-1029, [metadataFile] and [resourceFile]; lines 270-287. *)
Definition clients_files (v : version) : list string :=
  go_file (cat [nMetadata; nClient]) :: map (fun r => go_file (cat [r_name r; nClient])) (resources v).
(** errors_generator.go:773-775, [errorsFile], and golang/openapi_generator.go:219. *)
Definition other_files : list string := [go_file nErrors; "openapi"].
(** All the files of the package of a version, without the extension. *)
Definition version_files (v : version) : list string :=
  (types_files v ++ builders_files v ++ json_files v ++ clients_files v ++ other_files)%list.
