(** Model of pkg/annotations and pkg/http: how methods, parameters, attributes and locators are bound to
    HTTP and JSON. *)
From Coq Require Import Ascii String Bool Arith ZArith List.
From Verif Require Import GoStrings GoMap NamesModel ConceptsModel ReporterModel.
Import ListNotations.
Local Open Scope string_scope.

(** Result of [fmt.Sprintf("%s", value)] for the values that the parameters of annotations can have. *)
Definition sprint_literal (l : literal) : string :=
  match l with
  | LString s => s
  | LInt z => "%!s(int=" ++ itoa_z z ++ ")"
  | LBool b => "%!s(bool=" ++ (if b then "true" else "false") ++ ")"
  end.

(** Shape of the functions of pkg/annotations: the text of a parameter of the first annotation with the
    given name, or the empty string.  pkg/concepts/annotation.go:54-56, [FindParameter]. *)
Definition annotation_text (a p : string) (l : list annotation) : string :=
  match get_annotation a l with
  | None => ""
  | Some x =>
      match mget p (an_params x) with
      | None => ""
      | Some v => sprint_literal v
      end
  end.

(** pkg/annotations/annotations.go:27-37. *)
Definition http_name : list annotation -> string := annotation_text "http" "name".
(** pkg/annotations/annotations.go:41-51. *)
Definition json_name : list annotation -> string := annotation_text "json" "name".
(** pkg/annotations/annotations.go:55-65. *)
Definition go_name : list annotation -> string := annotation_text "go" "name".
(** pkg/annotations/annotations.go:69-79. *)
Definition reference_path : list annotation -> string := annotation_text "ref" "path".

(** Kind of the type of a parameter, pkg/concepts/type.go: [IsScalar].  A reference to a type that
    doesn't exist can't happen in Go; it is modelled as a type that isn't scalar. *)
Definition scalar_in (v : version) (p : parameter) : bool :=
  match type_at (p_type p) v with
  | Some t => is_scalar t
  | None => false
  end.

(** pkg/http/binding_calculator.go:77-86, [RequestParameters]. *)
Definition request_params (m : method) : list parameter := filter p_in (m_params m).

(** pkg/http/binding_calculator.go:89-101, [RequestQueryParameters]. *)
Definition request_query_params (v : version) (m : method) : list parameter :=
  if is_action m then [] else filter (fun p => p_in p && scalar_in v p) (m_params m).

(** pkg/http/binding_calculator.go:104-122, [RequestBodyParameters]. *)
Definition request_body_params (v : version) (m : method) : list parameter :=
  if is_action m then filter p_in (m_params m)
  else filter (fun p => p_in p && negb (scalar_in v p)) (m_params m).

(** pkg/http/binding_calculator.go:125-134, [ResponseParameters]. *)
Definition response_params (m : method) : list parameter := filter p_out (m_params m).

(** pkg/http/binding_calculator.go:137-147, [ResponseBodyParameters]. *)
Definition response_body_params (m : method) : list parameter := filter p_out (m_params m).

(** pkg/http/binding_calculator.go:150-168, [Method]. *)
Definition http_method (m : method) : string :=
  let is n := name_equals (Some (m_name m)) (Some n) in
  if is nAdd then "POST"
  else if is nDelete || is nAsyncDelete then "DELETE"
  else if is nGet then "GET"
  else if is nList then "GET"
  else if is nPost then "POST"
  else if is nUpdate || is nAsyncUpdate then "PATCH"
  else "POST".

(** pkg/http/binding_calculator.go:172-190, [DefaultStatus]. *)
Definition default_status (m : method) : string :=
  let is n := name_equals (Some (m_name m)) (Some n) in
  itoa
    (if is nPost then 201
     else if is nAdd then 201
     else if is nAsyncUpdate then 202
     else if is nUpdate then 200
     else if is nDelete then 204
     else if is nAsyncDelete then 202
     else 200).

(** Shape of the calculation of names: the annotation or else the name in snake case. *)
Definition name_or (annotated : string) (n : name) : string :=
  if String.eqb annotated "" then snake n else annotated.

(** pkg/http/binding_calculator.go:193-199, [AttributeName]. *)
Definition attribute_name (a : attribute) : string := name_or (json_name (a_annots a)) (a_name a).

(** pkg/http/binding_calculator.go:203-217, [QueryParameterName]. *)
Definition query_parameter_name (p : parameter) : string :=
  let n := http_name (p_annots p) in
  if String.eqb n "" then name_or (json_name (p_annots p)) (p_name p) else n.

(** pkg/http/binding_calculator.go:221-227, [BodyParameterName]. *)
Definition body_parameter_name (p : parameter) : string := name_or (json_name (p_annots p)) (p_name p).

(** pkg/http/binding_calculator.go:230-236, [ServiceSegment].  Services are created by the reader from
    directories and never have annotations (pkg/language/reader.go:209-254). *)
Definition service_segment (s : service) : string := name_or (http_name []) (s_name s).

(** pkg/http/binding_calculator.go:239-245, [VersionSegment]; versions never have annotations. *)
Definition version_segment (v : version) : string := name_or (http_name []) (v_name v).

(** pkg/http/binding_calculator.go:248-257, [MethodSegment]. *)
Definition method_segment (m : method) : string :=
  if is_action m then name_or (http_name (m_annots m)) (m_name m) else "".

(** pkg/http/binding_calculator.go:260-266, [LocatorSegment]. *)
Definition locator_segment (l : locator) : string := name_or (http_name (l_annots l)) (l_name l).

(** pkg/http/binding_calculator.go:269-275, [EnumValueName]. *)
Definition enum_value_name (e : enum_value) : string := name_or (json_name (ev_annots e)) (ev_name e).

(** pkg/generators/docs/docs_generator.go:380-395, [httpMethod]. *)
Definition docs_http_method (m : method) : string :=
  let is n := name_equals (Some (m_name m)) (Some n) in
  if is nGet || is nList then "GET"
  else if is nAdd then "POST"
  else if is nUpdate || is nAsyncUpdate then "PATCH"
  else if is nDelete || is nAsyncDelete then "DELETE"
  else "POST".
