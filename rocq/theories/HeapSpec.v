(** Vocabulary used to state the properties of the memory used by objects, builders and lists. *)
From Coq Require Import Ascii String Bool Arith ZArith NArith List.
From Verif Require Import GoStrings GoMap NamesModel ConceptsModel ObjectsModel ObjectsSpec HeapModel.
Import ListNotations.
Local Open Scope string_scope.

(** What is reached from a reference is the given value, and only the given addresses are used. *)
Fixpoint holds (P : nat -> Prop) (m : memory) (r : ref) (x : value) {struct x} : Prop :=
  match x with
  | VScalar s => r = RScalar s
  | VNil => r = RNil
  | VObject o =>
      exists a b, r = RPtr a /\ P a /\ nth_error m a = Some (CObject b) /\
        o_bits b = o_bits o /\ o_id b = o_id o /\ o_href b = o_href o /\ all2 (holds P m) (o_fields b) (o_fields o)
  | VSlice l => exists a rs, r = RPtr a /\ P a /\ nth_error m a = Some (CSlice rs) /\ all2 (holds P m) rs l
  | VList h b s => exists a rs, r = RPtr a /\ P a /\ nth_error m a = Some (CList h b rs) /\ holds P m rs s
  | VMap l =>
      exists a rs, r = RPtr a /\ P a /\ nth_error m a = Some (CMap rs) /\ map fst rs = map fst l /\
        all2 (fun r p => holds P m r (snd p)) (map snd rs) l
  end.

(** There is a builder at an address, and what is reached from its fields are the given values, at other addresses. *)
Definition holds_builder (P : nat -> Prop) (m : memory) (a : nat) (b : object) : Prop :=
  ~ P a /\ exists c, nth_error m a = Some (CObject c) /\
    o_bits c = o_bits b /\ o_id c = o_id b /\ o_href c = o_href b /\ all2 (holds P m) (o_fields c) (o_fields b).

(** The number of levels of a value. *)
Fixpoint depth (x : value) : nat :=
  match x with
  | VScalar _ | VNil => 1
  | VObject o => S (list_max (map depth (o_fields o)))
  | VSlice l => S (list_max (map depth l))
  | VList _ _ s => S (depth s)
  | VMap l => S (list_max (map (fun p => depth (snd p)) l))
  end.

(** The memory has been allocated since the first moment and before the second one. *)
Definition between (m m' : memory) (a : nat) : Prop := length m <= a < length m'.

(** Nothing changed, but there may be more memory. *)
Definition extends (m m' : memory) : Prop := exists l, m' = (m ++ l)%list.

(** None of the steps modifies the given addresses. *)
Definition avoids (l : list step) (P : nat -> Prop) : Prop := forall s a, In s l -> modified s = Some a -> ~ P a.

(** The same call, with values and with references. *)
Definition same_call (c : call) (rc : ref_call) : Prop :=
  match c, rc with
  | CallLink x, RefLink y => x = y
  | CallID x, RefID y => x = y
  | CallHREF x, RefHREF y => x = y
  | _, _ => False
  end.
