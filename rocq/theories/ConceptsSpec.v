(** Vocabulary used to state the properties of the concepts. *)
From Coq Require Import Ascii String Bool Arith ZArith Sorted Permutation List.
From Verif Require Import GoStrings NamesModel NamesSpec ConceptsModel.
Import ListNotations.
Local Open Scope string_scope.

(** The list is strictly sorted by the words of the names of its elements. *)
Definition sorted_by {A} (f : A -> name) (l : list A) : Prop :=
  StronglySorted (fun a b => words_lt (texts (f a)) (texts (f b))) l.

(** All the elements of the list have different names (different words). *)
Definition distinct_names {A} (f : A -> name) (l : list A) : Prop := NoDup (map (fun a => texts (f a)) l).

(** A map is well indexed if each thing is stored under the string form of its own name, and there
    are no repeated keys. *)
Definition indexed {A} (f : A -> name) (m : list (key * A)) : Prop :=
  NoDup (map fst m) /\ forall k a, In (k, a) m -> k = name_string (f a).

(** The last element of the list whose name has the given string form. *)
Fixpoint last_named {A} (f : A -> name) (k : key) (l : list A) : option A :=
  match l with
  | [] => None
  | a :: r =>
      match last_named f k r with
      | Some b => Some b
      | None => if String.eqb (name_string (f a)) k then Some a else None
      end
  end.

(** Built-in types: identifier, key and kind. *)
Definition builtins : list (string * string * kind) :=
  [ ("Boolean", "boolean", ScalarType); ("Integer", "integer", ScalarType);
    ("Long", "long", ScalarType); ("Float", "float", ScalarType);
    ("String", "string", ScalarType); ("Date", "date", ScalarType);
    ("Interface", "interface", InterfaceType) ].

(** The type [t], stored under [k], is the built-in [b] or its list type. *)
Definition is_builtin_entry (b : string * string * kind) (k : key) (t : typ) : Prop :=
  match b with
  | (id, bk, kd) =>
      (k = bk /\ t_kind t = kd /\ camel (t_name t) = id /\ t_element t = None) \/
      (k = bk ++ "_list" /\ t_kind t = ListType /\ camel (t_name t) = id ++ "List" /\
       t_element t = Some bk)
  end.

(** The categories of methods. *)
Inductive category :=
| CAdd | CAsyncDelete | CAsyncUpdate | CDelete | CGet | CList | CPost | CSearch | CUpdate | CAction.

(** The predicate of the method that corresponds to each category. *)
Definition in_category (c : category) (m : method) : bool :=
  match c with
  | CAdd => is_add m | CAsyncDelete => is_async_delete m | CAsyncUpdate => is_async_update m
  | CDelete => is_delete m | CGet => is_get m | CList => is_list_method m | CPost => is_post m
  | CSearch => is_search m | CUpdate => is_update m | CAction => is_action m
  end.

(** The category that corresponds to the identifier used in the source. *)
Definition category_of (id : string) : category :=
  if String.eqb id "Add" then CAdd
  else if String.eqb id "AsyncDelete" then CAsyncDelete
  else if String.eqb id "AsyncUpdate" then CAsyncUpdate
  else if String.eqb id "Delete" then CDelete
  else if String.eqb id "Get" then CGet
  else if String.eqb id "List" then CList
  else if String.eqb id "Post" then CPost
  else if String.eqb id "Search" then CSearch
  else if String.eqb id "Update" then CUpdate
  else CAction.
