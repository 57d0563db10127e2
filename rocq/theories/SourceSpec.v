(** Vocabulary used to state what the source of a version says about the generated code. *)
From Coq Require Import Ascii String Bool Arith ZArith Permutation List.
From Verif Require Import GoStrings GoMap NamesModel NamesSpec ConceptsModel ConceptsSpec BindingModel ReporterModel ReaderModel ReaderSpec.
Import ListNotations.
Local Open Scope string_scope.

(** All the references to types of the source. *)
Definition references (ds : list decl) : list type_ref := flat_map decl_refs ds.

(** The type has what the declaration says, except for the capital letters of the name, which are those of the first mention. *)
Definition declared_as (d : decl) (t : typ) : Prop :=
  match d with
  | DEnum ans n vs doc =>
      name_key (t_name t) = key_of n /\ t_kind t = EnumType /\ t_doc t = doc /\ t_annots t = map annotation_of ans /\
      t_attrs t = [] /\ Permutation (map value_of vs) (t_values t)
  | DClass ans n ms doc =>
      name_key (t_name t) = key_of n /\ t_kind t = ClassType /\ t_doc t = doc /\ t_annots t = map annotation_of ans /\
      t_values t = [] /\ Permutation (map attribute_of ms) (t_attrs t)
  | DStruct ans n ms doc =>
      name_key (t_name t) = key_of n /\ t_kind t = StructType /\ t_doc t = doc /\ t_annots t = map annotation_of ans /\
      t_values t = [] /\ Permutation (map attribute_of ms) (t_attrs t)
  | DError _ _ _ _ | DResource _ _ _ _ => False
  end.

(** The lists of the predefined types. *)
Definition predefined_list (k e : key) : Prop := In e (map fst predefined_kinds) /\ k = e ++ "_list".

(** Where the types of a version come from. *)
Inductive origin (ds : list decl) (v : version) : key -> typ -> Prop :=
| from_predefined k t : In (k, t_kind t) predefined_kinds -> origin ds v k t
| from_declaration d t : In d ds -> declared_as d t -> origin ds v (name_key (t_name t)) t
| from_list e t : In (RList e) (references ds) -> t_kind t = ListType -> t_element t = Some (key_of e) -> origin ds v (list_key e) t
| from_map i e t : In (RMap i e) (references ds) -> t_kind t = MapType -> t_index t = Some (key_of i) -> t_element t = Some (key_of e) ->
    origin ds v (map_key i e) t
| from_predefined_list k e t : predefined_list k e -> t_kind t = ListType -> t_element t = Some e -> origin ds v k t
| from_type k te t : type_at k v = Some te -> t_kind te <> ListType -> t_kind t = ListType -> t_element t = Some k ->
    origin ds v (name_key (cat [t_name te; nList])) t.

(** Names that denote lists and maps. *)
Definition collection (ds : list decl) (k : key) : Prop := In k (derived_types ds) \/ exists e, predefined_list k e.

(** There are no lists or maps of lists or maps. *)
Definition flat_source (ds : list decl) : Prop :=
  forall r, In r (references ds) -> match r with RPlain _ => True | RList e | RMap _ e => ~ collection ds (key_of e) end.

(** The names of the members of the documents that represent a type. *)
Definition json_names (ms : list member_decl) : list string := map (fun m => attribute_name (attribute_of m)) ms.

(** The names are different and not empty, they aren't the given ones, and there aren't too many. *)
Definition good_members (fixed : list string) (ms : list member_decl) : Prop :=
  NoDup (json_names ms) /\ ~ In "" (json_names ms) /\ (forall f, In f fixed -> ~ In f (json_names ms)) /\ length fixed + length ms <= 63.
Definition good_source (ds : list decl) : Prop :=
  forall d, In d ds ->
    match d with
    | DClass _ _ ms _ => good_members ["kind"; "id"; "href"] ms
    | DStruct _ _ ms _ => good_members [] ms
    | _ => True
    end.

(** The name of the member of the documents for an attribute. *)
Definition json_name (md : member_decl) : string := attribute_name (attribute_of md).

(** The declarations of classes and structs: the name, the members that all the documents have and the attributes. *)
Inductive has_members : decl -> string -> list string -> list member_decl -> Prop :=
| class_members ans id ms doc : has_members (DClass ans id ms doc) id ["kind"; "id"; "href"] ms
| struct_members ans id ms doc : has_members (DStruct ans id ms doc) id [] ms.
