(** Model of the [@ref] annotation of the classes: the import of the types of other versions
    (pkg/language/reader.go:399-534).

    The types are objects in memory that are shared between versions, so this model uses references.
    Simplification: the parts of the types that this code never changes (names, kinds, attributes and
    elements) are a function from references to descriptions, [shape]; the parts that it changes (the
    owner and the explicitly declared flag of the types, the link owner of the attributes and the
    table of types of the version being read) are the [state]. *)
From Coq Require Import Ascii String Bool Arith List.
From Verif Require Import GoStrings GoMap NamesModel ConceptsModel.
Import ListNotations.
Local Open Scope string_scope.

(** A pointer to a type. *)
Definition ref := nat.

(** A pointer to a version. *)
Definition vref := nat.

(** pkg/concepts/attribute.go:24-33, type [Attribute].  Simplification: only the type and the link
    flag; the link owner is in the state; the type of an attribute is never nil because the parser
    always sets it (pkg/language/reader.go:571-594). *)
Record rattribute := MkRattribute { ra_type : ref; ra_link : bool }.

(** pkg/concepts/type.go:70-82, type [Type].  Simplification: only what the import uses; the name is
    the text used as key of the tables of types. *)
Record rtype := MkRtype {
  rt_name : string; rt_kind : kind; rt_attributes : list rattribute; rt_element : option ref }.

(** The description of all the types in memory. *)
Definition shape := ref -> rtype.

(** The parts of the memory that the import changes: pkg/concepts/version.go:30-40 (field [types] of
    the version being read), pkg/concepts/type.go:75 (owner) and 81 (explicitly declared flag),
    pkg/concepts/attribute.go:32 (link owner, for each type and position of the attribute). *)
Record rstate := MkRstate {
  rs_table : list (string * ref); rs_owner : ref -> option vref; rs_explicit : ref -> bool;
  rs_link_owner : ref -> nat -> option vref }.

(** The result of a run: a state, a run time error, or more steps needed than the given ones (in Go
    an infinite recursion, which ends the process). *)
Inductive outcome := Finished (st : rstate) | Crash | Exhausted.

(** pkg/concepts/type.go:101-103, [SetOwner]. *)
Definition set_owner (r : ref) (v : option vref) (st : rstate) : rstate :=
  MkRstate (rs_table st) (fun x => if Nat.eqb x r then v else rs_owner st x) (rs_explicit st)
    (rs_link_owner st).

(** pkg/concepts/type.go:91-93, [SetExplicitDeclared] with the value true. *)
Definition set_explicit (r : ref) (st : rstate) : rstate :=
  MkRstate (rs_table st) (rs_owner st) (fun x => if Nat.eqb x r then true else rs_explicit st x)
    (rs_link_owner st).

(** pkg/concepts/attribute.go:35-37, [SetLinkOwner], for the attribute in position [i] of the type. *)
Definition set_link_owner (r : ref) (i : nat) (v : option vref) (st : rstate) : rstate :=
  MkRstate (rs_table st) (rs_owner st) (rs_explicit st)
    (fun x j => if Nat.eqb x r && Nat.eqb j i then v else rs_link_owner st x j).

(** pkg/concepts/type.go:179-185, [IsBasicType]. *)
Definition is_basic (sh : shape) (r : ref) : bool :=
  match rt_kind (sh r) with ScalarType | InterfaceType => true | _ => false end.

(** pkg/concepts/type.go:161-168, [IsList] and [IsMap], used together. *)
Definition is_container (sh : shape) (r : ref) : bool :=
  match rt_kind (sh r) with ListType | MapType => true | _ => false end.

(** pkg/concepts/version.go:102-107, [AddType], for the version being read. *)
Definition add_to_version (sh : shape) (here : vref) (r : ref) (st : rstate) : rstate :=
  set_owner r (Some here)
    (MkRstate (mset (rt_name (sh r)) r (rs_table st)) (rs_owner st) (rs_explicit st)
       (rs_link_owner st)).

(** pkg/language/reader.go:505-506, 511-512 and 528-529: the version has a type with the given name
    and it is explicitly declared. *)
Definition explicit_here (st : rstate) (k : string) : bool :=
  match mget k (rs_table st) with Some r => rs_explicit st r | None => false end.

(** pkg/language/reader.go:501-519, the link attributes, in position [i] of type [r]. *)
Definition import_link (sh : shape) (here : vref) (r : ref) (i : nat) (t : ref) (st : rstate) :
    outcome :=
  if explicit_here st (rt_name (sh t)) then Finished (set_owner t (Some here) st)
  else if is_container sh t then
    match rt_element (sh t) with
    | None => Crash
    | Some e =>
        if explicit_here st (rt_name (sh e))
        then Finished (set_owner e (Some here) (set_owner t (Some here) st))
        else Finished (set_link_owner r i (rs_owner st t) st)
    end
  else Finished (set_link_owner r i (rs_owner st t) st).

(** pkg/language/reader.go:499-526, the loop over the attributes of type [r], starting in position
    [i]; [rec] is the recursive call. *)
Fixpoint import_attributes (sh : shape) (here : vref) (rec : ref -> rstate -> outcome) (r : ref)
    (i : nat) (l : list rattribute) (st : rstate) : outcome :=
  match l with
  | [] => Finished st
  | a :: l' =>
      let t := ra_type a in
      let out :=
        if ra_link a then import_link sh here r i t st
        else if is_container sh t then
          match rt_element (sh t) with
          | None => Crash
          | Some e => rec e (add_to_version sh here t st)
          end
        else rec t st in
      match out with
      | Finished st' => import_attributes sh here rec r (S i) l' st'
      | other => other
      end
  end.

(** pkg/language/reader.go:528-532, what is done with a type after its attributes. *)
Definition import_itself (sh : shape) (here : vref) (r : ref) (st : rstate) : rstate :=
  add_to_version sh here r
    (if explicit_here st (rt_name (sh r)) then set_explicit r st else st).

(** pkg/language/reader.go:494-534, [recursivelyAddTypeToVersion]; the parameter [currType] isn't
    used by the code.  A number of nested calls larger than the fuel is [Exhausted]. *)
Fixpoint import (fuel : nat) (sh : shape) (here : vref) (r : ref) (st : rstate) : outcome :=
  match fuel with
  | O => Exhausted
  | S f =>
      if is_basic sh r then Finished st
      else
        match import_attributes sh here (import f sh here) r 0 (rt_attributes (sh r)) st with
        | Finished st' => Finished (import_itself sh here r st')
        | other => other
        end
  end.

(** pkg/language/reader.go:444-457, body of the loops of [removeLinkedAttributes] for the attribute in
    position [i] of type [x].  Simplification: line 446 compares the pointers to the names, and the
    only type that has the name object created by the declaration of a class is that class, so this
    compares the pointers to the types. *)
Definition remove_link (sh : shape) (typ x : ref) (i : nat) (t : ref) (st : rstate) : outcome :=
  let st1 :=
    if Nat.eqb t typ then set_explicit t (set_link_owner x i None st) else st in
  if is_container sh t then
    match rt_element (sh t) with
    | None => Crash
    | Some e =>
        if String.eqb (rt_name (sh e)) (rt_name (sh typ))
        then Finished
               (set_owner e (rs_owner st1 typ) (set_explicit e (set_explicit t (set_link_owner x i None st1))))
        else Finished st1
    end
  else Finished st1.

(** pkg/language/reader.go:443, the loop over the attributes of a type. *)
Fixpoint remove_links_of (sh : shape) (typ x : ref) (i : nat) (l : list rattribute) (st : rstate) :
    outcome :=
  match l with
  | [] => Finished st
  | a :: l' =>
      match remove_link sh typ x i (ra_type a) st with
      | Finished st' => remove_links_of sh typ x (S i) l' st'
      | other => other
      end
  end.

(** pkg/language/reader.go:442, the loop over the types of the version.  Simplification: the types are
    visited in the order of the table and not sorted by name; the visits only assign constants. *)
Fixpoint remove_links (sh : shape) (typ : ref) (l : list ref) (st : rstate) : outcome :=
  match l with
  | [] => Finished st
  | x :: l' =>
      match remove_links_of sh typ x 0 (rt_attributes (sh x)) st with
      | Finished st' => remove_links sh typ l' st'
      | other => other
      end
  end.

(** pkg/language/reader.go:441-460, [removeLinkedAttributes]. *)
Definition remove_linked_attributes (sh : shape) (typ : ref) (st : rstate) : outcome :=
  remove_links sh typ (mvals (rs_table st)) st.

(** What loading a service gives (pkg/language/reader.go:209-254, [loadService], called by a reader
    that starts empty): the tables of types of its versions, or nothing if it can't be loaded. *)
Definition loaded := option (list (string * list (string * ref))).

(** pkg/language/reader.go:462-491, [handleClassRef].  The files are an oracle: [load] gives what the
    service in a directory contains.  Simplification: what the nested reader reports isn't modelled. *)
Definition handle_class_ref (fuel : nat) (sh : shape) (here : vref) (load : string -> loaded)
    (inputs : list string) (path : string) (st : rstate) : outcome :=
  match inputs with
  | [input] =>
      match str_split "/" (trim_prefix path "/") with
      | service :: version :: typ :: _ =>
          match load (input ++ "/" ++ service) with
          | None => Crash
          | Some versions =>
              match mget (name_string (parse_using_separator version "_")) versions with
              | None => Crash
              | Some types =>
                  match mget (name_string (parse_using_separator typ "_")) types with
                  | None => Finished st
                  | Some r => import fuel sh here r st
                  end
              end
          end
      | _ => Crash
      end
  | _ => Crash
  end.

(** pkg/language/reader.go:433-438, the end of [ExitClassDecl], for a class that has been added to the
    version and that has the [@ref] annotation with a path that isn't empty. *)
Definition class_ref (fuel : nat) (sh : shape) (here : vref) (load : string -> loaded)
    (inputs : list string) (typ : ref) (path : string) (st : rstate) : outcome :=
  match remove_linked_attributes sh typ (set_explicit typ st) with
  | Finished st' => handle_class_ref fuel sh here load inputs path st'
  | other => other
  end.
