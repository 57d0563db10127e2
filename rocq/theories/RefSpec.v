(** What the import of the types of other versions should do, independently of the functions of the
    model that do it. *)
From Coq Require Import Ascii String Bool Arith List.
From Verif Require Import GoStrings GoMap NamesModel ConceptsModel RefModel.
Import ListNotations.
Local Open Scope string_scope.

(** The built-in types, that every version has. *)
Definition builtin (sh : shape) (r : ref) : Prop :=
  rt_kind (sh r) = ScalarType \/ rt_kind (sh r) = InterfaceType.

(** Lists and maps. *)
Definition container (sh : shape) (r : ref) : Prop :=
  rt_kind (sh r) = ListType \/ rt_kind (sh r) = MapType.

(** Some attribute of type [r] isn't a link and has type [t]. *)
Definition plain_attribute (sh : shape) (r : ref) (t : ref) : Prop :=
  exists i, nth_error (rt_attributes (sh r)) i = Some (MkRattribute t false).

(** The attribute in position [i] of type [r] is a link, and [t] is its type. *)
Definition link_attribute (sh : shape) (r : ref) (i : nat) (t : ref) : Prop :=
  nth_error (rt_attributes (sh r)) i = Some (MkRattribute t true).

(** The objects of type [r] contain objects of type [c], directly or inside lists or maps. *)
Definition contains (sh : shape) (r c : ref) : Prop :=
  ~ builtin sh r /\
  exists t, plain_attribute sh r t /\
    ((container sh t /\ rt_element (sh t) = Some c) \/ (~ container sh t /\ c = t)).

(** The objects of type [root] contain objects of type [r], at any depth. *)
Inductive part_of (sh : shape) (root : ref) : ref -> Prop :=
| part_root : part_of sh root root
| part_step r c : part_of sh root r -> contains sh r c -> part_of sh root c.

(** The types that a version needs in order to have type [root]: those of the parts that aren't
    built-in, and the lists and maps used by their attributes. *)
Definition needed (sh : shape) (root t : ref) : Prop :=
  (part_of sh root t /\ ~ builtin sh t) \/
  (exists r, part_of sh root r /\ ~ builtin sh r /\ plain_attribute sh r t /\ container sh t).

(** Objects of type [root] can't contain themselves, not even at an arbitrary depth. *)
Definition finite_parts (sh : shape) (root : ref) : Prop := Acc (fun c r => contains sh r c) root.

(** All the lists and maps have elements. *)
Definition with_elements (sh : shape) : Prop :=
  forall t, container sh t -> exists e, rt_element (sh t) = Some e.

(** The table of types has the types under their names. *)
Definition keyed (sh : shape) (st : rstate) : Prop :=
  forall k r, mget k (rs_table st) = Some r -> rt_name (sh r) = k.

(** Two needed types never have the same name. *)
Definition distinct_names (sh : shape) (root : ref) : Prop :=
  forall a b, needed sh root a -> needed sh root b -> rt_name (sh a) = rt_name (sh b) -> a = b.

(** The version has an explicitly declared type with the given name. *)
Definition declares (st : rstate) (k : string) : Prop :=
  exists r, mget k (rs_table st) = Some r /\ rs_explicit st r = true.

(** The version explicitly declares the given type, or the type of the elements if it is a list or a
    map. *)
Definition declared (sh : shape) (st : rstate) (t : ref) : Prop :=
  declares st (rt_name (sh t)) \/
  (container sh t /\ exists e, rt_element (sh t) = Some e /\ declares st (rt_name (sh e))).

(** The types to import come from another reader, where nothing is explicitly declared, and the
    version doesn't explicitly declare the lists and maps that will be imported. *)
Definition fresh (sh : shape) (root : ref) (st : rstate) : Prop :=
  (forall t, needed sh root t -> rs_explicit st t = false) /\
  (forall t, needed sh root t -> container sh t -> ~ declares st (rt_name (sh t))).

(** The links of the parts of [root] go to types that aren't needed. *)
Definition links_outside (sh : shape) (root : ref) : Prop :=
  forall r i t, part_of sh root r -> ~ builtin sh r -> link_attribute sh r i t -> ~ needed sh root t.

(** What a path with three components separated by slashes, with an optional slash at the beginning,
    refers to. *)
Definition refers (path service version typ : string) : Prop :=
  exists rest,
    (path = service ++ "/" ++ version ++ "/" ++ typ ++ rest \/
     path = "/" ++ service ++ "/" ++ version ++ "/" ++ typ ++ rest) /\
    (rest = "" \/ exists tail, rest = "/" ++ tail).

(** An attribute of type [t] holds objects of type [typ], or a list or a map of objects of a type with
    that name. *)
Definition mentions (sh : shape) (typ t : ref) : Prop :=
  t = typ \/ (container sh t /\ exists e, rt_element (sh t) = Some e /\ rt_name (sh e) = rt_name (sh typ)).

(** The type of the attribute in position [i] of type [x] is [t]. *)
Definition has_attribute (sh : shape) (x : ref) (i : nat) (t : ref) : Prop :=
  exists a, nth_error (rt_attributes (sh x)) i = Some a /\ ra_type a = t.

(** The text has no slashes. *)
Definition no_slash (s : string) : Prop := forall a b, s <> a ++ "/" ++ b.
