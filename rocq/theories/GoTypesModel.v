(** Model of the types used in the generated Go code: pkg/generators/golang/types_calculator.go, and the parts of types_generator.go,
    builders_generator.go, clients_generator.go and json_generator.go that use it.

    Simplifications:
    - Attributes with an owner of the link (those that the [@ref] annotation makes) aren't considered.
    - The messages of the errors contain the name of the type; in the code they contain all the fields of the type, attribute or parameter.
    - The templates aren't evaluated: what they generate for each attribute and parameter is a list of statements. The fields of the objects,
      builders, requests and responses are identified by the structure that contains them (C72 is about their names). *)
From Coq Require Import Ascii String Bool Arith ZArith List.
From Verif Require Import GoStrings GoMap NamesModel ConceptsModel ReporterModel GoNamesModel TextModel BufferModel ChecksModel DeclsModel.
Import ListNotations.
Local Open Scope string_scope.

(** types_calculator.go:546-551, [TypeReference]. *)
Record reference := MkReference { rf_import : string; rf_selector : string; rf_name : string; rf_text : string }.
Definition no_reference : reference := MkReference "" "" "" "".
Definition with_text (text : string) (r : reference) : reference := MkReference (rf_import r) (rf_selector r) (rf_name r) text.
Definition unknown (what : string) (t : typ) : list report := [err ("Don't know how to calculate " ++ what ++ " for type '" ++ name_string (t_name t) ++ "'")].

(** types_calculator.go:165-195: the types that all the versions have. *)
Definition builtin_reference (k : key) : option reference :=
  if is_builtin nBoolean k then Some (MkReference "" "" "bool" "bool")
  else if is_builtin nInteger k then Some (MkReference "" "" "int" "int")
  else if is_builtin nLong k then Some (MkReference "" "" "int64" "int64")
  else if is_builtin nFloat k then Some (MkReference "" "" "float64" "float64")
  else if is_builtin nString k then Some (MkReference "" "" "string" "string")
  else if is_builtin nInterface k then Some (MkReference "" "" "interface{}" "interface{}")
  else if is_builtin nDate k then Some (MkReference "time" "time" "Time" "time.Time")
  else None.

Section Calculator.
  (** The import path of the package of the version. *)
  Context (pkg : string) (v : version).

  (** types_calculator.go:438-471, [Package]. *)
  Definition type_package (k : key) (t : typ) : string * string * list report :=
    match builtin_reference k with
    | Some r => (rf_import r, rf_selector r, [])
    | None =>
        if is_enum t || is_struct t || is_list t then (pkg, path_base pkg, [])
        else ("", "", unknown "package name" t)
    end.

  (** types_calculator.go:196-203 and 226-233: the references to the types with a name. *)
  Definition named_reference (k : key) (t : typ) : reference * list report :=
    let '(i, s, l) := type_package k t in
    (MkReference i s (object_name t) (object_name t), l).

  (** types_calculator.go:160-243, [ValueReference], for the types that aren't lists or maps. *)
  Definition flat_reference (k : key) (t : typ) : reference * list report :=
    match builtin_reference k with
    | Some r => (r, [])
    | None => if is_enum t || is_struct t then named_reference k t else (no_reference, unknown "value reference" t)
    end.

  (** types_calculator.go:204-225: the references to lists and maps. A list or map without element isn't expected: the code fails with a
      panic. *)
  Definition collection_reference (prefix : string) (t : typ) : outcome (reference * list report) :=
    match t_element t with
    | None => Panics
    | Some e =>
        match type_at e v with
        | None => Panics
        | Some te =>
            if is_scalar te then
              let (r, l) := flat_reference e te in Done (with_text (prefix ++ rf_text r) r, l)
            else if is_struct te then
              let (r, l) := flat_reference e te in Done (with_text (prefix ++ "*" ++ rf_selector r ++ "." ++ rf_text r) r, l)
            else Done (no_reference, unknown "value reference" t)
        end
    end.

  (** types_calculator.go:160-243, [ValueReference]. *)
  Definition value_reference (k : key) (t : typ) : outcome (reference * list report) :=
    match builtin_reference k with
    | Some r => Done (r, [])
    | None =>
        if is_enum t then Done (flat_reference k t)
        else if is_list t then collection_reference "[]" t
        else if is_map t then collection_reference "map[string]" t
        else Done (flat_reference k t)
    end.

  (** types_calculator.go:245-264, [NullableReference], without a referenced version. *)
  Definition nullable_reference (k : key) (t : typ) : outcome (reference * list report) :=
    match value_reference k t with
    | Done (r, l) =>
        if is_scalar t && negb (is_interface t) then Done (with_text ("*" ++ rf_text r) r, l)
        else if is_struct t then Done (with_text ("*" ++ rf_selector r ++ "." ++ rf_name r) r, l)
        else Done (r, l)
    | other => other
    end.

  (** types_calculator.go:271-292, [ListReference]. *)
  Definition list_reference (t : typ) : outcome (reference * list report) :=
    if is_list t then
      match t_element t with
      | None => Panics
      | Some e =>
          match type_at e v with
          | None => Panics
          | Some te =>
              let '(i, s, l) := type_package e te in
              let n := object_name te ++ "List" in
              Done (MkReference i s n ("*" ++ s ++ "." ++ n), l)
          end
      end
    else Done (no_reference, unknown "list type reference" t).

  (** types_calculator.go:367-403, [BuilderReference], without a referenced version. *)
  Definition builder_reference (k : key) (t : typ) : outcome (reference * list report) :=
    if is_struct t then
      let '(i, s, l) := type_package k t in
      let n := object_name t ++ "Builder" in
      Done (MkReference i s n ("*" ++ s ++ "." ++ n), l)
    else if is_list t then
      match t_element t with
      | None => Panics
      | Some e =>
          match type_at e v with
          | None => Panics
          | Some te =>
              let '(i, s, l) := type_package e te in
              let n := object_name te ++ "ListBuilder" in
              Done (MkReference i s n ("*" ++ s ++ "." ++ n), l)
          end
      end
    else Done (no_reference, unknown "builder reference" t).

  (** types_calculator.go:405-436, [ZeroValue]. *)
  Definition zero_value (k : key) (t : typ) : string * list report :=
    if is_struct t || is_list t || is_map t || is_interface t then ("nil", [])
    else if is_enum t then let (r, l) := flat_reference k t in (rf_name r ++ "("""")", l)
    else if is_builtin nBoolean k then ("false", [])
    else if is_builtin nInteger k then ("0", [])
    else if is_builtin nLong k then ("0", [])
    else if is_builtin nFloat k then ("0.0", [])
    else if is_builtin nDate k then ("time.Time{}", [])
    else if is_builtin nString k then ("""""", [])
    else ("", unknown "zero value" t).

  (** * The types of the members of objects, builders, requests and responses *)

  (** types_generator.go:664-698, [fieldType], and 604-635, [getterType]: the code is the same. *)
  Definition object_type (k : key) (t : typ) (link : bool) : outcome (reference * list report) :=
    if is_scalar t then value_reference k t
    else if is_struct t then nullable_reference k t
    else if is_list t then if link then list_reference t else nullable_reference k t
    else if is_map t then nullable_reference k t
    else Done (no_reference, unknown "field type" t).

  (** builders_generator.go:663-668, 677-682, 731-736 and 745-750, with [Reference] (types_calculator.go:97-104), which ignores the name. *)
  Definition prefixed (prefix : string) (r : outcome (reference * list report)) : outcome (reference * list report) :=
    match r with
    | Done (r, l) => Done (MkReference (rf_import r) (rf_selector r) "" (prefix ++ rf_text r), l)
    | other => other
    end.
  Definition builder_collection (prefix : string) (k : key) (t : typ) : outcome (reference * list report) :=
    match t_element t with
    | None => Panics
    | Some e =>
        match type_at e v with
        | None => Panics
        | Some te => if is_scalar te then nullable_reference k t else prefixed prefix (builder_reference e te)
        end
    end.
  (** builders_generator.go:642-691, [fieldType], and 710-759, [setterType]: for lists and maps [NullableReference] is the same as
      [ValueReference]. *)
  Definition builder_type (k : key) (t : typ) (link : bool) : outcome (reference * list report) :=
    if is_scalar t then value_reference k t
    else if is_struct t then builder_reference k t
    else if is_list t then if link then builder_reference k t else builder_collection "[]" k t
    else if is_map t then builder_collection "map[string]" k t
    else Done (no_reference, unknown "builder field type" t).

  (** clients_generator.go:1045-1061, [fieldType]. When the type isn't known the code returns nil, after an error. *)
  Definition parameter_type (items : bool) (k : key) (t : typ) : outcome (reference * list report) :=
    if items then list_reference t
    else if is_scalar t || is_struct t || is_list t || is_map t then nullable_reference k t
    else Done (no_reference, unknown "field type" t).

  (** clients_generator.go:1089-1109, [accessorType]. *)
  Definition scalar_element (t : typ) : bool :=
    match t_element t with Some e => match type_at e v with Some te => is_scalar te | None => false end | None => false end.
  Definition accessor_type (items : bool) (k : key) (t : typ) : outcome (reference * list report) :=
    if is_list t && scalar_element t then nullable_reference k t
    else if items then list_reference t
    else if is_scalar t then value_reference k t
    else if is_struct t || is_list t || is_map t then nullable_reference k t
    else Done (no_reference, unknown "accessor type" t).

  (** buffer.go:414-427, [replaceValue]: the text of a reference in a file of the package of the version. *)
  Definition rendered (r : reference) : string :=
    match fst (replace_value (ArgReference (rf_import r) (rf_selector r) (rf_text r)) (MkGoBuffer pkg "" [] "")) with
    | ValString s => s
    | ValOther _ => ""
    end.
End Calculator.

(** * The code for an attribute or parameter *)

(** The structures that have a field for each attribute or parameter. *)
Inductive place := InObject | InBuilder | InRequest | InResponse.

(** Expressions: fields, the parameters of the functions, the variables of the loops, the values read from documents, and others. Types and
    constants are texts. [ECopied] is the builder returned by [Copy] for a new builder, and [EList] is a pointer to a list with those items. *)
Inductive expr :=
| EField (p : place)
| EValue
| EItem
| EDeref (e : expr)
| EAddr (e : expr)
| EMake (t : string)
| EEmpty (t : string)
| ECopied (constructor : string) (e : expr)
| EList (name : string) (e : expr)
| EConstant (text : string).

(** Statements: assignments to fields and to their elements, with a plain expression or with the result of [Build]; copies of slices, loops,
    conditionals that check if a field is nil or empty, and results. *)
Inductive stmt :=
| SSet (p : place) (e : expr)
| SSetBuilt (p : place) (e : expr)
| SSetItem (p : place) (e : expr)
| SSetItemBuilt (p : place) (e : expr)
| SCopy (p : place) (e : expr)
| SRange (e : expr) (body : stmt)
| SIfNotNil (e : expr) (body : list stmt) (otherwise : list stmt)
| SIfNotEmpty (e : expr) (body : list stmt) (otherwise : list stmt)
| SResult (e : expr).

(** The parameter of a setter: one value, or any number of them. *)
Inductive formal := One (t : string) | Any (t : string) | NoFormal.

(** The code of the functions that all the attributes have: types_generator.go:413-445 (getters), builders_generator.go:273-329 (setters),
    338-391 ([Copy]) and 398-452 ([Build]). *)
Definition getter_code (zero : string) : list stmt := [SResult (EField InObject); SResult (EConstant zero)].

Definition setter_formal (t : typ) (link : bool) (setter_type element_type : string) (te : option typ) : formal :=
  if is_list t then
    if link then One setter_type
    else match te with
         | Some te => if is_scalar te then Any element_type else Any ("*" ++ object_name te ++ "Builder")
         | None => NoFormal
         end
  else One setter_type.
Definition setter_code (t : typ) (link : bool) (element_type : string) (te : option typ) : list stmt :=
  if is_list t then
    if link then [SSet InBuilder EValue]
    else match te with
         | Some te =>
             if is_scalar te then [SSet InBuilder (EMake ("[]" ++ element_type)); SCopy InBuilder EValue]
             else [SSet InBuilder (EMake ("[]*" ++ object_name te ++ "Builder")); SCopy InBuilder EValue]
         | None => []
         end
  else if is_scalar t then [SSet InBuilder EValue] else [SSet InBuilder EValue; SIfNotNil EValue [] []].

Definition copy_code (t : typ) (link : bool) (field_type : string) (te : option typ) : list stmt :=
  if is_scalar t then [SSet InBuilder (EField InObject)]
  else if is_struct t then
    [SIfNotNil (EField InObject) [SSet InBuilder (ECopied ("New" ++ object_name t) (EField InObject))] [SSet InBuilder (EConstant "nil")]]
  else
    match te with
    | Some te =>
        if is_list t then
          [SIfNotNil (EField InObject)
             (if link then [SSet InBuilder (ECopied ("New" ++ object_name te ++ "List") (EField InObject))]
              else if is_scalar te then [SSet InBuilder (EMake field_type); SCopy InBuilder (EField InObject)]
              else if is_struct te then
                [SSet InBuilder (EMake ("[]*" ++ object_name te ++ "Builder")); SRange (EField InObject) (SSetItem InBuilder (ECopied ("New" ++ object_name te) EItem))]
              else [])
             [SSet InBuilder (EConstant "nil")]]
        else if is_map t then
          [SIfNotEmpty (EField InObject)
             (if is_scalar te then [SSet InBuilder (EEmpty field_type); SRange (EField InObject) (SSetItem InBuilder EItem)]
              else if is_struct te then
                [SSet InBuilder (EEmpty ("map[string]*" ++ object_name te ++ "Builder")); SRange (EField InObject) (SSetItem InBuilder (ECopied ("New" ++ object_name te) EItem))]
              else [])
             [SSet InBuilder (EConstant "nil")]]
        else []
    | None => []
    end.

Definition build_code (t : typ) (link : bool) (field_type : string) (te : option typ) : list stmt :=
  if is_scalar t then [SSet InObject (EField InBuilder)]
  else if is_struct t then [SIfNotNil (EField InBuilder) [SSetBuilt InObject (EField InBuilder)] []]
  else
    match te with
    | Some te =>
        if is_list t then
          [SIfNotNil (EField InBuilder)
             (if link then [SSetBuilt InObject (EField InBuilder)]
              else if is_scalar te then [SSet InObject (EMake field_type); SCopy InObject (EField InBuilder)]
              else if is_struct te then
                [SSet InObject (EMake ("[]*" ++ object_name te)); SRange (EField InBuilder) (SSetItemBuilt InObject EItem)]
              else [])
             []]
        else if is_map t then
          [SIfNotNil (EField InBuilder)
             (if is_scalar te then [SSet InObject (EMake field_type); SRange (EField InBuilder) (SSetItem InObject EItem)]
              else if is_struct te then
                [SSet InObject (EMake ("map[string]*" ++ object_name te)); SRange (EField InBuilder) (SSetItemBuilt InObject EItem)]
              else [])
             []]
        else []
    | None => []
    end.

(** clients_generator.go:821-828: the setter of a parameter of a request. *)
Definition request_setter_code (t : typ) : list stmt :=
  if is_struct t || is_list t then [SSet InRequest EValue] else [SSet InRequest (EAddr EValue)].

(** clients_generator.go:978-1005: the getters of a parameter of a response. *)
Definition response_getter_code (zero : string) (t : typ) : list stmt :=
  if is_scalar t then [SIfNotNil (EField InResponse) [SResult (EDeref (EField InResponse))] []; SResult (EConstant zero)]
  else if is_struct t || is_list t || is_map t then [SResult (EConstant "nil"); SResult (EField InResponse); SIfNotNil (EField InResponse) [] []]
  else [].

(** json_generator.go:1294-1315, [generateReadBodyParameter]: the value that has been read is stored in the response. *)
Definition read_parameter_code (t : typ) : list stmt :=
  if is_scalar t then [SSet InResponse (EAddr EItem)] else [SSet InResponse EItem].
(** json_generator.go:1030-1037 and 1162-1169: the items of a list that have been read are stored in the response, with [structName]
    (types_calculator.go:132-142). *)
Definition read_items_code (te : option typ) : list stmt :=
  match te with
  | Some te => if is_scalar te then [SSet InResponse EItem] else [SSet InResponse (EList (object_name te ++ "List") EItem)]
  | None => []
  end.

(** All that is generated for an attribute: the fields of the object and of the builder, the getters, the setter, and its parts of [Copy] and
    [Build]. *)
Record attribute_code := MkAttributeCode {
  ac_object_field : string; ac_getter_type : string; ac_getter : list stmt;
  ac_builder_field : string; ac_formal : formal; ac_setter : list stmt; ac_copy : list stmt; ac_build : list stmt }.

Section Generate.
  Context (pkg : string) (v : version).

  Definition element_of (t : typ) : option (key * typ) :=
    match t_element t with Some e => match type_at e v with Some te => Some (e, te) | None => None end | None => None end.

  (** The templates of types_generator.go:413-445 and builders_generator.go:223-452 for an attribute. *)
  Definition generate_attribute (a : attribute) : outcome (attribute_code * list report) :=
    match type_at (a_type a) v with
    | None => Panics
    | Some t =>
        let k := a_type a in
        let te := element_of t in
        match object_type pkg v k t (a_link a), builder_type pkg v k t (a_link a),
          (if is_list t && negb (a_link a) then match te with Some (e, te) => value_reference pkg v e te | None => Panics end else Done (no_reference, [])) with
        | Done (o, l1), Done (b, l2), Done (e, l3) =>
            let (zero, l4) := zero_value pkg k t in
            let text := rendered pkg b in
            let element := rendered pkg e in
            Done (MkAttributeCode (rendered pkg o) (rendered pkg o) (getter_code zero) text
                    (setter_formal t (a_link a) text element (option_map snd te)) (setter_code t (a_link a) element (option_map snd te))
                    (copy_code t (a_link a) text (option_map snd te)) (build_code t (a_link a) text (option_map snd te)),
                  (l1 ++ l4 ++ l2 ++ l3)%list)
        | _, _, _ => Panics
        end
    end.

  (** All that is generated for a parameter of a request (clients_generator.go:784-830) and of a response (934-1005), and the part of the code
      that reads responses that stores it. *)
  Record request_code := MkRequestCode { qc_field : string; qc_formal : formal; qc_setter : list stmt }.
  Record response_code := MkResponseCode { pc_field : string; pc_getter_type : string; pc_getter : list stmt; pc_read : list stmt }.

  Definition generate_request (m : method) (p : parameter) : outcome (request_code * list report) :=
    match type_at (p_type p) v with
    | None => Panics
    | Some t =>
        match parameter_type pkg v (is_items m p) (p_type p) t, accessor_type pkg v (is_items m p) (p_type p) t with
        | Done (f, l1), Done (s, l2) => Done (MkRequestCode (rendered pkg f) (One (rendered pkg s)) (request_setter_code t), (l1 ++ l2)%list)
        | _, _ => Panics
        end
    end.

  Definition generate_response (m : method) (p : parameter) : outcome (response_code * list report) :=
    match type_at (p_type p) v with
    | None => Panics
    | Some t =>
        let scalars := is_list t && scalar_element v t in
        match (if scalars then match element_of t with Some (e, te) => value_reference pkg v e te | None => Panics end
               else parameter_type pkg v (is_items m p) (p_type p) t),
              accessor_type pkg v (is_items m p) (p_type p) t with
        | Done (f, l1), Done (g, l2) =>
            let (zero, l3) := if is_scalar t then zero_value pkg (p_type p) t else ("", []) in
            Done (MkResponseCode (if scalars then "[]" ++ rendered pkg f else rendered pkg f) (rendered pkg g) (response_getter_code zero t)
                    (if is_items m p then read_items_code (option_map snd (element_of t)) else read_parameter_code t), (l1 ++ l2 ++ l3)%list)
        | _, _ => Panics
        end
    end.
End Generate.
