(** Vocabulary used to state the properties of the declarations of the generated Go code. *)
From Coq Require Import Ascii String Bool List.
From Verif Require Import GoStrings NamesModel ConceptsModel GoNamesModel DeclsModel.
Import ListNotations.
Local Open Scope string_scope.

(** The Go identifier is exported: it starts with an upper case letter. *)
Definition exported (s : string) : Prop := exists c r, s = String c r /\ is_upper c = true.

(** The first word of the name isn't empty. *)
Definition lettered (n : name) : Prop := exists w ws, n_words n = w :: ws /\ w_text w <> "".

(** None of the names in the first list is in the second. *)
Definition avoids (l reserved : list string) : Prop := forall x, In x l -> ~ In x reserved.

(** None of the names is the name of the second getter of another: in the generated code each attribute [X] has a getter
    [X] and a getter [GetX]. *)
Definition no_second_getter (l : list string) : Prop := forall x y, In x l -> In y l -> x <> "Get" ++ y.

(** The Go specification: the fields of a struct have different names, so do the methods of a type, and no field of a
    struct has the name of a method. *)
Definition valid_members (fields methods : list string) : Prop :=
  NoDup fields /\ NoDup methods /\ forall x, In x fields -> ~ In x methods.

(** The names that can't be used for attributes, because the generated code uses them: fields of the objects and of the
    builders, methods of the objects and methods of the builders. *)
Definition object_fixed_fields (class : bool) : list string := ("bitmap_" :: if class then ["id"; "href"] else []).
Definition object_fixed_methods (class : bool) : list string :=
  ((if class then ["Kind"; "Link"; "ID"; "GetID"; "HREF"; "GetHREF"] else []) ++ ["Empty"])%list.
Definition builder_fixed_methods (class : bool) : list string :=
  ((if class then ["Link"; "ID"; "HREF"] else []) ++ ["Empty"; "Copy"; "Build"])%list.

(** * Declarations *)

Definition starts_with (p s : string) : Prop := exists r, s = p ++ r.
Definition ends_with (x s : string) : Prop := exists r, s = r ++ x.

(** The words that the generators add at the beginning and at the end of the names of the types. *)
Definition reserved_beginnings : list string := ["New"; "Marshal"; "Unmarshal"; "Write"; "Read"; "write"; "read"].
Definition reserved_endings : list string := ["List"; "Kind"; "Builder"].

(** A Go name that doesn't start or end with any of those words. *)
Definition plain_go_name (s : string) : Prop :=
  s <> "" /\ (forall p, In p reserved_beginnings -> ~ starts_with p s) /\ (forall x, In x reserved_endings -> ~ ends_with x s).

(** The Go names of the enumerated types and structs of a version, with the constants of the values. *)
Definition chosen_type_names (v : version) : list string :=
  flat_map (fun t =>
    if is_enum t then object_name t :: map (value_const t) (t_values t)
    else if is_struct t then [object_name t] else []) (types v).
(** The Go names of the clients, requests and responses. *)
Definition chosen_client_names (v : version) : list string :=
  flat_map (fun r =>
    client_name r
    :: (if find_method nGet r then [poll_name r ++ "Request"; poll_name r ++ "Response"]%string else [])
    ++ flat_map (fun m => [exchange_name r m ++ "Request"; exchange_name r m ++ "Response"]%string) (r_methods r)) (resources v).
(** All the Go names that are chosen in the source of the version, and the fixed ones. *)
Definition chosen_names (v : version) : list string :=
  (["Metadata"; "MetadataRequest"; "MetadataResponse"; "OpenAPI"] ++ chosen_type_names v ++ chosen_client_names v
   ++ map error_const (map snd (v_errors v)))%list.

(** The names of the types that can be marshalled, with and without the annotations, and those of the pairs of resources and
    methods, without the annotations. *)
Definition json_type_names (v : version) : list string :=
  map (fun t => go_name_or_public (t_annots t) (t_name t)) (filter (has_json v) (types v)).
Definition json_plain_names (v : version) : list string := map (fun t => camel (t_name t)) (filter (has_json v) (types v)).
Definition exchange_plain_names (v : version) : list string :=
  flat_map (fun r => map (fun m => (if is_root r then "" else camel (r_name r)) ++ camel (m_name m)) (r_methods r)) (resources v).

(** The Go names of the elements of the list types whose elements are structs. *)
Definition list_element_names (v : version) : list string :=
  flat_map (fun t =>
    if is_struct t then [] else if is_list t then
      match t_element t with
      | Some e => match type_at e v with Some te => if is_struct te then [object_name te] else [] | None => [] end
      | None => []
      end
    else []) (types v).

(** The names that are chosen in the source of a version don't clash. *)
Record compatible_names (v : version) : Prop := {
  names_differ : NoDup (chosen_names v);
  names_plain : Forall plain_go_name (chosen_names v);
  structs_plain : forall t, In t (types v) -> is_struct t = true -> ~ ends_with "Link" (object_name t) /\ ~ ends_with "Nil" (object_name t);
  json_differ : NoDup ("Metadata" :: json_type_names v) /\ NoDup (json_plain_names v);
  exchanges_differ : NoDup (exchange_plain_names v);
  elements_differ : NoDup (list_element_names v) }.

(** The types that have a file of their own, a file for the builder and a file for the JSON support. *)
Definition file_types (v : version) : list typ := filter (fun t => is_enum t || is_struct t) (types v).
Definition builder_types (v : version) : list typ := filter (fun t => match built_name v t with Some _ => true | None => false end) (types v).
Definition json_types (v : version) : list typ := filter (has_json v) (types v).
(** All the names of the types and resources of the version have words. *)
Definition names_with_words (v : version) : Prop :=
  Forall (fun t => n_words (t_name t) <> []) (types v) /\ Forall (fun r => n_words (r_name r) <> []) (resources v).
