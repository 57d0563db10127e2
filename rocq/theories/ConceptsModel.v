(** Model of pkg/concepts and pkg/nomenclator.

    Simplification: Go pointers between concepts are modelled by the keys used in the maps of the
    version ([Name.String()]).  This is faithful as long as the concepts stored in those maps aren't
    replaced by other concepts with the same key, which only happens for classes that have the [ref]
    annotation (pkg/language/reader.go:433-438); that annotation isn't modelled.  Owner pointers
    aren't modelled: the owner of a concept is the one that contains it. *)
From Coq Require Import Ascii String Bool Arith ZArith List.
From Verif Require Import GoStrings GoMap NamesModel.
Import ListNotations.
Local Open Scope string_scope.

(** Keys of the maps: the result of [Name.String()]. *)
Definition key := string.

(** Values of literals: pkg/language/reader.go:936-979; the type [interface{}] of the default values
    of parameters (pkg/concepts/parameter.go:34) and of the parameters of annotations
    (pkg/concepts/annotation.go:26). *)
Inductive literal :=
| LBool (b : bool)
| LInt (z : Z)
| LString (s : string).

(** pkg/concepts/annotation.go:24-27.  Simplification: a parameter whose literal failed to parse has
    a nil value and an error has been reported; it is modelled as a missing parameter. *)
Record annotation := MkAnnotation { an_name : string; an_params : list (string * literal) }.

(** pkg/concepts/annotated.go:49-56, [GetAnnotation]: the first with the given name. *)
Definition get_annotation (n : string) (l : list annotation) : option annotation :=
  find (fun a => String.eqb (an_name a) n) l.

(** pkg/concepts/type.go:26-38, [TypeKind]. *)
Inductive kind :=
| UndefinedType | ClassType | EnumType | InterfaceType | ListType | MapType | ScalarType | StructType.

Definition kind_eqb (a b : kind) : bool :=
  match a, b with
  | UndefinedType, UndefinedType | ClassType, ClassType | EnumType, EnumType
  | InterfaceType, InterfaceType | ListType, ListType | MapType, MapType
  | ScalarType, ScalarType | StructType, StructType => true
  | _, _ => false
  end.

(** pkg/concepts/attribute.go:24-33.  The link owner is only used for [ref] and isn't modelled. *)
Record attribute := MkAttribute {
  a_name : name; a_type : key; a_link : bool; a_doc : string; a_annots : list annotation }.

(** pkg/concepts/type.go:279-285, [EnumValue]. *)
Record enum_value := MkEnumValue { ev_name : name; ev_doc : string; ev_annots : list annotation }.

(** pkg/concepts/type.go:70-82, [Type]. *)
Record typ := MkTyp {
  t_name : name; t_kind : kind; t_attrs : list attribute; t_values : list enum_value;
  t_element : option key; t_index : option key; t_doc : string; t_annots : list annotation }.

(** pkg/concepts/type.go:63-67, [NewType] and [SetName]. *)
Definition new_type (n : name) : typ := MkTyp n UndefinedType [] [] None None "" [].

(** pkg/concepts/type.go:111-113, [SetKind]. *)
Definition set_kind (k : kind) (t : typ) : typ :=
  MkTyp (t_name t) k (t_attrs t) (t_values t) (t_element t) (t_index t) (t_doc t) (t_annots t).

(** pkg/concepts/type.go:248-250, [SetElement]. *)
Definition set_element (e : key) (t : typ) : typ :=
  MkTyp (t_name t) (t_kind t) (t_attrs t) (t_values t) (Some e) (t_index t) (t_doc t) (t_annots t).

(** pkg/concepts/type.go:259-261, [SetIndex]. *)
Definition set_index (i : key) (t : typ) : typ :=
  MkTyp (t_name t) (t_kind t) (t_attrs t) (t_values t) (t_element t) (Some i) (t_doc t) (t_annots t).

(** pkg/concepts/documented.go: [SetDoc]. *)
Definition set_type_doc (d : string) (t : typ) : typ :=
  MkTyp (t_name t) (t_kind t) (t_attrs t) (t_values t) (t_element t) (t_index t) d (t_annots t).

(** pkg/concepts/annotated.go: [AddAnnotation], for several annotations. *)
Definition add_type_annots (l : list annotation) (t : typ) : typ :=
  MkTyp (t_name t) (t_kind t) (t_attrs t) (t_values t) (t_element t) (t_index t) (t_doc t)
    (t_annots t ++ l)%list.

(** Comparisons used by the [Less] methods, for example pkg/concepts/attribute.go:75-77. *)
Definition attr_less (a b : attribute) : bool := name_less (a_name a) (a_name b).
(** pkg/concepts/type.go:309-311. *)
Definition ev_less (a b : enum_value) : bool := name_less (ev_name a) (ev_name b).
(** pkg/concepts/type.go:270-272. *)
Definition typ_less (a b : typ) : bool := name_less (t_name a) (t_name b).

(** pkg/concepts/type.go:200-206, [AddAttribute]: append and sort. *)
Definition add_attribute (a : attribute) (t : typ) : typ :=
  MkTyp (t_name t) (t_kind t) (sort attr_less (t_attrs t ++ [a])%list) (t_values t) (t_element t)
    (t_index t) (t_doc t) (t_annots t).

(** pkg/concepts/type.go:217-224, [FindAttribute]. *)
Definition find_attribute (n : name) (t : typ) : option attribute :=
  find (fun a => name_equals (Some (a_name a)) (Some n)) (t_attrs t).

(** pkg/concepts/type.go:233-239, [AddValue]: append and sort. *)
Definition add_value (v : enum_value) (t : typ) : typ :=
  MkTyp (t_name t) (t_kind t) (t_attrs t) (sort ev_less (t_values t ++ [v])%list) (t_element t)
    (t_index t) (t_doc t) (t_annots t).

(** pkg/concepts/type.go:146-148, [IsClass]. *)
Definition is_class (t : typ) : bool := kind_eqb (t_kind t) ClassType.
(** pkg/concepts/type.go:151-153, [IsEnum]. *)
Definition is_enum (t : typ) : bool := kind_eqb (t_kind t) EnumType.
(** pkg/concepts/type.go:156-158, [IsInterface]. *)
Definition is_interface (t : typ) : bool := kind_eqb (t_kind t) InterfaceType.
(** pkg/concepts/type.go:161-163, [IsList]. *)
Definition is_list (t : typ) : bool := kind_eqb (t_kind t) ListType.
(** pkg/concepts/type.go:166-168, [IsMap]. *)
Definition is_map (t : typ) : bool := kind_eqb (t_kind t) MapType.
(** pkg/concepts/type.go:172-177, [IsScalar]. *)
Definition is_scalar (t : typ) : bool :=
  kind_eqb (t_kind t) ScalarType || kind_eqb (t_kind t) EnumType || kind_eqb (t_kind t) InterfaceType.
(** pkg/concepts/type.go:189-191, [IsStruct]. *)
Definition is_struct (t : typ) : bool :=
  kind_eqb (t_kind t) ClassType || kind_eqb (t_kind t) StructType.

(** pkg/concepts/parameter.go:25-35. *)
Record parameter := MkParameter {
  p_name : name; p_type : key; p_in : bool; p_out : bool; p_default : option literal;
  p_doc : string; p_annots : list annotation }.

(** pkg/concepts/parameter.go:106-108. *)
Definition param_less (a b : parameter) : bool := name_less (p_name a) (p_name b).

(** pkg/concepts/method.go:27-34. *)
Record method := MkMethod {
  m_name : name; m_params : list parameter; m_doc : string; m_annots : list annotation }.

(** pkg/concepts/method.go:57-63, [AddParameter]. *)
Definition add_parameter (p : parameter) (m : method) : method :=
  MkMethod (m_name m) (sort param_less (m_params m ++ [p])%list) (m_doc m) (m_annots m).

(** pkg/concepts/method.go:67-77, [GetParameter], for names that aren't nil. *)
Definition get_parameter (n : name) (m : method) : option parameter :=
  find (fun p => name_equals (Some (p_name p)) (Some n)) (m_params m).

(** pkg/concepts/method.go:157-159. *)
Definition method_less (a b : method) : bool := name_less (m_name a) (m_name b).

(** pkg/concepts/locator.go:24-32. *)
Record locator := MkLocator {
  l_name : name; l_variable : bool; l_target : option key; l_doc : string;
  l_annots : list annotation }.

(** pkg/concepts/locator.go:79-81. *)
Definition locator_less (a b : locator) : bool := name_less (l_name a) (l_name b).

(** pkg/concepts/locator.go:58-60, [SetVariable]; note that the argument is ignored. *)
Definition set_variable (b : bool) (l : locator) : locator :=
  MkLocator (l_name l) true (l_target l) (l_doc l) (l_annots l).

(** pkg/concepts/locator.go:68-70, [SetTarget]. *)
Definition set_target (k : key) (l : locator) : locator :=
  MkLocator (l_name l) (l_variable l) (Some k) (l_doc l) (l_annots l).

(** pkg/concepts/resource.go:26-34. *)
Record resource := MkResource {
  r_name : name; r_methods : list method; r_locators : list locator; r_doc : string;
  r_annots : list annotation }.

(** pkg/concepts/resource.go:37-39, [NewResource] and [SetName]. *)
Definition new_resource (n : name) : resource := MkResource n [] [] "" [].

(** pkg/concepts/resource.go:57-63, [AddMethod]. *)
Definition add_method (m : method) (r : resource) : resource :=
  MkResource (r_name r) (sort method_less (r_methods r ++ [m])%list) (r_locators r) (r_doc r)
    (r_annots r).

(** pkg/concepts/resource.go:66-73, [FindMethod]. *)
Definition find_method (n : name) (r : resource) : option method :=
  find (fun m => name_equals (Some (m_name m)) (Some n)) (r_methods r).

(** pkg/concepts/resource.go:103-109, [AddLocator]. *)
Definition add_locator (l : locator) (r : resource) : resource :=
  MkResource (r_name r) (r_methods r) (sort locator_less (r_locators r ++ [l])%list) (r_doc r)
    (r_annots r).

(** pkg/concepts/resource.go:82-89, [VariableLocator]. *)
Definition variable_locator (r : resource) : option locator := find l_variable (r_locators r).

(** pkg/concepts/resource.go:92-100, [ConstantLocators]. *)
Definition constant_locators (r : resource) : list locator :=
  filter (fun l => negb (l_variable l)) (r_locators r).

(** pkg/concepts/resource.go:123-125. *)
Definition resource_less (a b : resource) : bool := name_less (r_name a) (r_name b).

(** pkg/concepts/error.go:24-32.  The error has two name fields: the one set by [SetName]
    ([namedSupport.name]) and the one that hides it ([name]), which is never set. *)
Record error := MkError {
  e_name : name; e_hidden_name : option name; e_code : Z; e_doc : string; e_annots : list annotation }.

(** pkg/concepts/error.go:35-37, [NewError] and [SetName]. *)
Definition new_error (n : name) : error := MkError n None 0%Z "" [].

(** pkg/concepts/version.go:27-42. *)
Record version := MkVersion {
  v_name : name;
  v_types : list (key * typ);
  v_resources : list (key * resource);
  v_errors : list (key * error) }.

(** pkg/nomenclator/names.go:23-128, the names used by the model; each comment has the line of the name. *)
Definition nm (s : string) : name := parse_using_case s.
Definition nAdd := nm "Add". (* names.go:27 *)
Definition nAsyncDelete := nm "AsyncDelete". (* names.go:28 *)
Definition nAsyncUpdate := nm "AsyncUpdate". (* names.go:29 *)
Definition nBody := nm "Body". (* names.go:32 *)
Definition nBoolean := nm "Boolean". (* names.go:33 *)
Definition nDate := nm "Date". (* names.go:42 *)
Definition nDelete := nm "Delete". (* names.go:43 *)
Definition nFloat := nm "Float". (* names.go:51 *)
Definition nGet := nm "Get". (* names.go:54 *)
Definition nInteger := nm "Integer". (* names.go:64 *)
Definition nInterface := nm "Interface". (* names.go:65 *)
Definition nItems := nm "Items". (* names.go:66 *)
Definition nList := nm "List". (* names.go:76 *)
Definition nLong := nm "Long". (* names.go:77 *)
Definition nMap := nm "Map". (* names.go:80 *)
Definition nPage := nm "Page". (* names.go:90 *)
Definition nPost := nm "Post". (* names.go:94 *)
Definition nRoot := nm "Root". (* names.go:103 *)
Definition nSearch := nm "Search". (* names.go:106 *)
Definition nSize := nm "Size". (* names.go:111 *)
Definition nString := nm "String". (* names.go:114 *)
Definition nTotal := nm "Total". (* names.go:117 *)
Definition nUpdate := nm "Update". (* names.go:124 *)

Definition name_key (n : name) : key := name_string n.

(** pkg/concepts/version.go:94-99, [FindType], for names that aren't nil. *)
Definition find_type (n : name) (v : version) : option typ := mget (name_key n) (v_types v).

(** Follows a reference to a type: pointers to types, like those of pkg/concepts/type.go:79-80, are keys of the map of types (simplification). *)
Definition type_at (k : key) (v : version) : option typ := mget k (v_types v).

(** pkg/concepts/version.go:102-107, [AddType]. *)
Definition add_type (t : typ) (v : version) : version :=
  MkVersion (v_name v) (mset (name_key (t_name t)) t (v_types v)) (v_resources v) (v_errors v).

(** pkg/concepts/version.go:165-170, [FindResource]. *)
Definition find_resource (n : name) (v : version) : option resource :=
  mget (name_key n) (v_resources v).

(** Follows a reference to a resource: pointers, like the one of pkg/concepts/locator.go:31, are keys of the map of
    resources (simplification). *)
Definition resource_at (k : key) (v : version) : option resource := mget k (v_resources v).

(** pkg/concepts/version.go:173-178, [AddResource]. *)
Definition add_resource (r : resource) (v : version) : version :=
  MkVersion (v_name v) (v_types v) (mset (name_key (r_name r)) r (v_resources v)) (v_errors v).

(** pkg/concepts/version.go:188-190, [Root]. *)
Definition root (v : version) : option resource := mget (name_key nRoot) (v_resources v).

(** pkg/concepts/version.go:206-211, [FindError]. *)
Definition find_error (n : name) (v : version) : option error := mget (name_key n) (v_errors v).

(** pkg/concepts/version.go:214-219, [AddError]. *)
Definition add_error (e : error) (v : version) : version :=
  MkVersion (v_name v) (v_types v) (v_resources v) (mset (name_key (e_name e)) e (v_errors v)).

(** pkg/concepts/version.go:81-91, [Types]. *)
Definition types (v : version) : list typ := sort typ_less (mvals (v_types v)).

(** pkg/concepts/version.go:152-162, [Resources]. *)
Definition resources (v : version) : list resource := sort resource_less (mvals (v_resources v)).

(** pkg/concepts/error.go:66-68, [ErrorSlice.Less]: it uses the hidden name; [None] is the panic
    caused by the nil pointer inside [names.Compare] (pkg/names/name.go:143-144). *)
Definition error_less (a b : error) : option bool :=
  match e_hidden_name a, e_hidden_name b with
  | Some x, Some y => Some (name_less x y)
  | _, _ => None
  end.

(** [sort.Sort] calls [Less] at least once when there are two or more elements, and never otherwise. *)
Fixpoint sort_errors (l : list error) : option (list error) :=
  match l with
  | [] => Some []
  | [e] => Some [e]
  | a :: r =>
      match sort_errors r with
      | None => None
      | Some s =>
          (fix ins (s : list error) : option (list error) :=
             match s with
             | [] => Some [a]
             | b :: q =>
                 match error_less a b with
                 | None => None
                 | Some true => Some (a :: s)
                 | Some false => match ins q with Some q' => Some (b :: q') | None => None end
                 end
             end) s
      end
  end.

(** pkg/concepts/version.go:193-203, [Errors]; [None] is a panic. *)
Definition errors (v : version) : option (list error) := sort_errors (mvals (v_errors v)).

(** pkg/concepts/version.go:268-281, [addScalarType]. *)
Definition add_scalar_type (n : name) (v : version) : version :=
  add_type (set_element (name_key n) (set_kind ListType (new_type (cat [n; nList]))))
    (add_type (set_kind ScalarType (new_type n)) v).

(** pkg/concepts/version.go:283-296, [addInterfaceType]. *)
Definition add_interface_type (n : name) (v : version) : version :=
  add_type (set_element (name_key n) (set_kind ListType (new_type (cat [n; nList]))))
    (add_type (set_kind InterfaceType (new_type n)) v).

(** pkg/concepts/version.go:46-68, [NewVersion] and [SetName]. *)
Definition new_version (n : name) : version :=
  let v := MkVersion n [] [] [] in
  let v := add_scalar_type nBoolean v in
  let v := add_scalar_type nInteger v in
  let v := add_scalar_type nLong v in
  let v := add_scalar_type nFloat v in
  let v := add_scalar_type nString v in
  let v := add_scalar_type nDate v in
  add_interface_type nInterface v.

(** pkg/concepts/type.go:116-143 ([IsBoolean] and so on): the type is the one that its version returns
    for the built-in name.  The comparison of pointers is a comparison of keys. *)
Definition is_builtin (n : name) (k : key) : bool := String.eqb k (name_key n).

(** pkg/concepts/service.go:27-37. *)
Record service := MkService { s_name : name; s_versions : list (key * version) }.

(** pkg/concepts/service.go:40-44, [NewService] and [SetName]. *)
Definition new_service (n : name) : service := MkService n [].

(** pkg/concepts/service.go:70-75, [FindVersion]. *)
Definition find_version (n : name) (s : service) : option version := mget (name_key n) (s_versions s).

(** pkg/concepts/service.go:78-83, [AddVersion]. *)
Definition add_version (v : version) (s : service) : service :=
  MkService (s_name s) (mset (name_key (v_name v)) v (s_versions s)).

(** pkg/concepts/version.go:305-307. *)
Definition version_less (a b : version) : bool := name_less (v_name a) (v_name b).

(** pkg/concepts/service.go:57-67, [Versions]. *)
Definition versions (s : service) : list version := sort version_less (mvals (s_versions s)).

(** pkg/concepts/service.go:101-103. *)
Definition service_less (a b : service) : bool := name_less (s_name a) (s_name b).

(** pkg/concepts/model.go:26-29. *)
Definition model := list (key * service).

(** pkg/concepts/model.go:52-57, [FindService]. *)
Definition find_service (n : name) (m : model) : option service := mget (name_key n) m.

(** pkg/concepts/model.go:60-65, [AddService]. *)
Definition add_service (s : service) (m : model) : model := mset (name_key (s_name s)) s m.

(** pkg/concepts/model.go:39-49, [Services]. *)
Definition services (m : model) : list service := sort service_less (mvals m).

(** pkg/concepts/method.go:80-122. *)
Definition is_add (m : method) : bool := name_equals (Some (m_name m)) (Some nAdd).
Definition is_delete (m : method) : bool := name_equals (Some (m_name m)) (Some nDelete).
Definition is_async_delete (m : method) : bool := name_equals (Some (m_name m)) (Some nAsyncDelete).
Definition is_get (m : method) : bool := name_equals (Some (m_name m)) (Some nGet).
Definition is_list_method (m : method) : bool := name_equals (Some (m_name m)) (Some nList).
Definition is_post (m : method) : bool := name_equals (Some (m_name m)) (Some nPost).
Definition is_search (m : method) : bool := name_equals (Some (m_name m)) (Some nSearch).
Definition is_update (m : method) : bool := name_equals (Some (m_name m)) (Some nUpdate).
Definition is_async_update (m : method) : bool := name_equals (Some (m_name m)) (Some nAsyncUpdate).

(** pkg/concepts/method.go:125-148, [IsAction]. *)
Definition is_action (m : method) : bool :=
  if is_add m then false
  else if is_delete m then false
  else if is_async_delete m then false
  else if is_get m then false
  else if is_list_method m then false
  else if is_post m then false
  else if is_search m then false
  else if is_update m then false
  else if is_async_update m then false
  else true.

(** pkg/concepts/parameter.go:83-85, [IsItems]; the owner is passed explicitly. *)
Definition is_items (m : method) (p : parameter) : bool :=
  (is_list_method m || is_search m) && name_equals (Some (p_name p)) (Some nItems).

(** pkg/concepts/parameter.go:88-97, [IsBody]; the owner is passed explicitly. *)
Definition is_body (m : method) (p : parameter) : bool :=
  (is_add m || is_get m || is_search m || is_update m || is_async_update m)
  && name_equals (Some (p_name p)) (Some nBody).
