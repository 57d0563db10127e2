(** Vocabulary used to state the properties of the generated objects, builders and lists. *)
From Coq Require Import Ascii String Bool Arith ZArith NArith List.
From Verif Require Import GoStrings GoMap NamesModel NamesSpec ConceptsModel ConceptsSpec GoTimeModel ObjectsModel.
Import ListNotations.
Local Open Scope string_scope.

(** The number of slots of the bitmap that are reserved: the link flag, the identifier and the link. *)
Definition reserved (t : typ) : nat := match t_kind t with ClassType => 3 | _ => 0 end.

(** The number of slots used by a type. *)
Definition slots (t : typ) : nat := reserved t + length (t_attrs t).

(** The masks of a type are constants that the Go compiler accepts. *)
Definition fits (t : typ) : Prop := slots t <= 63.

(** Struct types. *)
Definition structural (t : typ) : Prop := t_kind t = ClassType \/ t_kind t = StructType.

(** A slot of the bitmap is set. *)
Definition marked (n : nat) (o : object) : Prop := N.testbit (o_bits o) (N.of_nat n) = true.

(** An attribute is present. *)
Definition present (t : typ) (i : nat) (o : object) : Prop := marked (reserved t + i) o.

(** The link flag, the identifier and the link are present. *)
Definition is_link : object -> Prop := marked 0.
Definition has_id : object -> Prop := marked 1.
Definition has_href : object -> Prop := marked 2.

(** The object has a field for each attribute. *)
Definition complete (t : typ) (o : object) : Prop := length (o_fields o) = length (t_attrs t).

(** Only the slots of the type are used. *)
Definition bounded (t : typ) (o : object) : Prop := forall n, slots t <= n -> ~ marked n o.

(** The scalar types and their zero values. *)
Definition scalar_zeros : list (string * scalar) :=
  [("boolean", SBool false); ("integer", SInt 0); ("long", SInt 0); ("float", SFloat 0);
   ("string", SString ""); ("date", SDate zero_date)].

(** The version has the scalar types, and no other scalar types. *)
Definition standard (v : version) : Prop :=
  (forall k s, In (k, s) scalar_zeros -> exists t, mget k (v_types v) = Some t /\ t_kind t = ScalarType) /\
  (exists t, mget "interface" (v_types v) = Some t /\ t_kind t = InterfaceType) /\
  (forall k t, mget k (v_types v) = Some t -> t_kind t = ScalarType -> exists s, In (k, s) scalar_zeros) /\
  (forall k t, mget k (v_types v) = Some t -> t_kind t = InterfaceType -> k = "interface").

(** The zero value of a type. *)
Inductive zero_of (v : version) (k : key) : value -> Prop :=
| zero_scalar t s : mget k (v_types v) = Some t -> t_kind t = ScalarType -> In (k, s) scalar_zeros -> zero_of v k (VScalar s)
| zero_enum t : mget k (v_types v) = Some t -> t_kind t = EnumType -> zero_of v k (VScalar (SString ""))
| zero_interface t : mget k (v_types v) = Some t -> t_kind t = InterfaceType -> zero_of v k (VScalar (SAny ANil))
| zero_nil t : mget k (v_types v) = Some t -> In (t_kind t) [ClassType; StructType; ListType; MapType] -> zero_of v k VNil.

(** All the pairs of elements of two lists of the same length. *)
Definition all2 {A B : Type} (P : A -> B -> Prop) : list A -> list B -> Prop :=
  fix go (l : list A) (m : list B) {struct m} : Prop :=
    match m with
    | [] => l = []
    | b :: m => match l with a :: l => P a b /\ go l m | [] => False end
    end.

Definition all1 {A : Type} (P : A -> Prop) : list A -> Prop :=
  fix go (l : list A) : Prop := match l with [] => True | a :: l => P a /\ go l end.

(** Keys in strictly increasing order. *)
Inductive increasing : list string -> Prop :=
| inc_nil : increasing []
| inc_one s : increasing [s]
| inc_cons s t l : str_lt s t -> increasing (t :: l) -> increasing (s :: t :: l).

(** Maps inside of values of type [interface{}] are represented by their entries sorted by key. *)
Fixpoint sorted_any (a : any) : Prop :=
  match a with
  | ASlice l => all1 sorted_any l
  | AMap l => increasing (map fst l) /\ all1 (fun p => sorted_any (snd p)) l
  | _ => True
  end.

(** Values of scalar types. *)
Definition scalar_typed (k : key) (t : typ) (s : scalar) : Prop :=
  match t_kind t, s with
  | ScalarType, SBool _ => k = "boolean"
  | ScalarType, SInt z => (k = "integer" \/ k = "long") /\ (int64_min <= z <= int64_max)%Z
  | ScalarType, SFloat _ => k = "float"
  | ScalarType, SString _ => k = "string"
  | ScalarType, SDate _ => k = "date"
  | EnumType, SString _ => True
  | InterfaceType, SAny a => sorted_any a
  | _, _ => False
  end.

(** The elements of the list or map are scalars or structs. *)
Definition plain (v : version) (t : typ) : Prop :=
  exists e te, t_element t = Some e /\ mget e (v_types v) = Some te /\
    In (t_kind te) [ScalarType; EnumType; InterfaceType; ClassType; StructType].

(** The value can be stored in a field whose type is the given one. *)
Fixpoint typed (v : version) (k : key) (link : bool) (x : value) {struct x} : Prop :=
  match mget k (v_types v) with
  | None => False
  | Some t =>
      match t_kind t with
      | ScalarType | EnumType | InterfaceType => match x with VScalar s => scalar_typed k t s | _ => False end
      | ClassType | StructType =>
          match x with
          | VNil => True
          | VObject o =>
              complete t o /\ bounded t o /\ (t_kind t = StructType -> o_id o = "" /\ o_href o = "") /\
              all2 (fun a y => typed v (a_type a) (a_link a) y) (t_attrs t) (o_fields o)
          | _ => False
          end
      | ListType =>
          plain v t /\
          match t_element t with
          | None => False
          | Some e =>
              match x with
              | VNil => True
              | VSlice l => link = false /\ all1 (typed v e false) l
              | VList _ _ s => link = true /\ match s with VNil => True | VSlice l => all1 (typed v e false) l | _ => False end
              | _ => False
              end
          end
      | MapType =>
          plain v t /\
          match t_element t with
          | None => False
          | Some e =>
              match x with
              | VNil => True
              | VMap l => increasing (map fst l) /\ all1 (fun p => typed v e false (snd p)) l
              | _ => False
              end
          end
      | UndefinedType => False
      end
  end.

(** Objects of the given type. *)
Definition object_typed (v : version) (t : typ) (o : object) : Prop :=
  complete t o /\ bounded t o /\ (t_kind t = StructType -> o_id o = "" /\ o_href o = "") /\
  all2 (fun a y => typed v (a_type a) (a_link a) y) (t_attrs t) (o_fields o).

(** The elements of a slice. *)
Definition elements (s : value) : list value := match s with VSlice l => l | _ => [] end.

(** All the attributes with their positions, and the fields of two objects. *)
Definition all_fields (P : nat -> attribute -> value -> value -> Prop) : nat -> list attribute -> list value -> list value -> Prop :=
  fix go (i : nat) (l : list attribute) (m : list value) (n : list value) {struct m} : Prop :=
    match m with
    | [] => l = [] /\ n = []
    | x :: m =>
        match l, n with
        | a :: l, y :: n => P i a x y /\ go (S i) l m n
        | _, _ => False
        end
    end.

(** The methods of the objects can't tell the two values apart. *)
Fixpoint same (v : version) (k : key) (link : bool) (x y : value) {struct x} : Prop :=
  match mget k (v_types v) with
  | None => False
  | Some t =>
      match x with
      | VScalar _ | VNil => y = x
      | VObject o =>
          exists p, y = VObject p /\ o_bits p = o_bits o /\
            (has_id o -> o_id p = o_id o) /\ (has_href o -> o_href p = o_href o) /\
            all_fields (fun i a x y => present t i o -> same v (a_type a) (a_link a) x y) 0 (t_attrs t) (o_fields o) (o_fields p)
      | VSlice l => exists m, y = VSlice m /\ exists e, t_element t = Some e /\ all2 (fun y x => same v e false x y) m l
      | VList h b s =>
          exists s', y = VList h b s' /\ exists e, t_element t = Some e /\
            match s with
            | VSlice l => all2 (fun y x => same v e false x y) (elements s') l
            | _ => elements s' = []
            end
      | VMap l =>
          exists m, y = VMap m /\ map fst m = map fst l /\ exists e, t_element t = Some e /\
            all2 (fun y x => same v e false (snd x) y) (map snd m) l
      end
  end.

(** The methods of the objects can't tell the two objects apart. *)
Definition same_object (v : version) (t : typ) (o p : object) : Prop :=
  o_bits p = o_bits o /\
  (has_id o -> o_id p = o_id o) /\ (has_href o -> o_href p = o_href o) /\
  all_fields (fun i a x y => present t i o -> same v (a_type a) (a_link a) x y) 0 (t_attrs t) (o_fields o) (o_fields p).

(** Values that aren't changed by copying them to a builder and building: no nil elements, no empty
    maps, and no lists with the link flag or a link. *)
Fixpoint copyable (v : version) (k : key) (x : value) {struct x} : Prop :=
  match mget k (v_types v) with
  | None => False
  | Some t =>
      match x with
      | VScalar _ | VNil => True
      | VObject o =>
          all_fields (fun i a x _ => present t i o -> copyable v (a_type a) x) 0 (t_attrs t) (o_fields o) (o_fields o)
      | VSlice l => exists e, t_element t = Some e /\ all1 (fun y => y <> VNil /\ copyable v e y) l
      | VList h b s =>
          h = "" /\ b = false /\ exists e, t_element t = Some e /\
          match s with VSlice l => all1 (fun y => y <> VNil /\ copyable v e y) l | _ => True end
      | VMap l => l <> [] /\ exists e, t_element t = Some e /\ all1 (fun p => snd p <> VNil /\ copyable v e (snd p)) l
      end
  end.

Definition object_copyable (v : version) (t : typ) (o : object) : Prop :=
  all_fields (fun i a x _ => present t i o -> copyable v (a_type a) x) 0 (t_attrs t) (o_fields o) (o_fields o).

(** * Sequences of calls *)

(** The last value given by the calls that satisfy a condition. *)
Inductive last_call (f : call -> option value) : list call -> option value -> Prop :=
| last_none l : Forall (fun c => f c = None) l -> last_call f l None
| last_some l c x m : f c = Some x -> Forall (fun c => f c = None) m -> last_call f (l ++ c :: m) (Some x).

(** The value given by a call to the setter of an attribute. *)
Definition sets (i : nat) (c : call) : option value :=
  match c with CallSet j x => if Nat.eqb i j then Some x else None | _ => None end.

Definition sets_id (c : call) : option value := match c with CallID s => Some (VScalar (SString s)) | _ => None end.
Definition sets_href (c : call) : option value := match c with CallHREF s => Some (VScalar (SString s)) | _ => None end.
Definition sets_link (c : call) : option value := match c with CallLink b => Some (VScalar (SBool b)) | _ => None end.

(** Values that make an attribute absent: nil objects and maps. *)
Definition clears (v : version) (a : attribute) (x : value) : Prop :=
  exists t, mget (a_type a) (v_types v) = Some t /\ In (t_kind t) [ClassType; StructType; MapType] /\ x = VNil.

(** What a setter stores: the arguments of variadic setters are copied to a slice that is never nil. *)
Definition stores (v : version) (a : attribute) (x y : value) : Prop :=
  (exists t, mget (a_type a) (v_types v) = Some t /\ t_kind t = ListType /\ a_link a = false /\ x = VNil /\ y = VSlice []) \/
  (~ (exists t, mget (a_type a) (v_types v) = Some t /\ t_kind t = ListType /\ a_link a = false /\ x = VNil) /\ y = x).

(** * Callbacks *)

(** The sequence of states of a loop that calls a function for each of the elements till it returns
    false. *)
Inductive visits {S A : Type} (f : S -> A -> S * bool) : S -> list A -> S -> Prop :=
| visits_end s : visits f s [] s
| visits_stop s a l s' : f s a = (s', false) -> visits f s (a :: l) s'
| visits_next s a l s' s'' : f s a = (s', true) -> visits f s' l s'' -> visits f s (a :: l) s''.

(** * Built objects *)

(** The attributes have types that exist, and the elements of their lists and maps are scalars or
    structs. *)
Definition known (v : version) (t : typ) : Prop :=
  forall a, In a (t_attrs t) -> exists ta, mget (a_type a) (v_types v) = Some ta /\ t_kind ta <> UndefinedType /\
    (In (t_kind ta) [ListType; MapType] -> plain v ta).

(** Calls that the Go compiler accepts. *)
Definition valid_call (v : version) (t : typ) (c : call) : Prop :=
  match c with
  | CallSet i x => exists a, nth_error (t_attrs t) i = Some a /\ typed v (a_type a) (a_link a) x
  | _ => t_kind t = ClassType
  end.

(** The second value is the result of building the first one. *)
Inductive built (v : version) : key -> bool -> value -> value -> Prop :=
| built_scalar k link t x : mget k (v_types v) = Some t -> In (t_kind t) [ScalarType; EnumType; InterfaceType] ->
    built v k link x x
| built_nil k link t : mget k (v_types v) = Some t -> In (t_kind t) [ClassType; StructType; ListType; MapType] ->
    built v k link VNil VNil
| built_object k link t b p : mget k (v_types v) = Some t -> structural t ->
    o_bits p = o_bits b -> o_id p = o_id b -> o_href p = o_href b -> length (o_fields p) = length (o_fields b) ->
    (forall i a x y, nth_error (t_attrs t) i = Some a -> nth_error (o_fields b) i = Some x -> nth_error (o_fields p) i = Some y ->
       built v (a_type a) (a_link a) x y) ->
    built v k link (VObject b) (VObject p)
| built_slice k t e l m : mget k (v_types v) = Some t -> t_kind t = ListType -> t_element t = Some e ->
    Forall2 (built v e false) l m -> built v k false (VSlice l) (VSlice m)
| built_list k t e h b s m : mget k (v_types v) = Some t -> t_kind t = ListType -> t_element t = Some e ->
    Forall2 (built v e false) (elements s) m -> built v k true (VList h b s) (VList "" false (VSlice m))
| built_map k link t e l m : mget k (v_types v) = Some t -> t_kind t = MapType -> t_element t = Some e ->
    map fst m = map fst l -> Forall2 (built v e false) (map snd l) (map snd m) ->
    built v k link (VMap l) (VMap m).

(** No nil elements in lists and maps. *)
Fixpoint no_nil (x : value) : Prop :=
  match x with
  | VScalar _ | VNil => True
  | VObject o => all1 no_nil (o_fields o)
  | VSlice l => all1 (fun y => y <> VNil /\ no_nil y) l
  | VList _ _ s => match s with VSlice l => all1 (fun y => y <> VNil /\ no_nil y) l | _ => True end
  | VMap l => all1 (fun p => snd p <> VNil /\ no_nil (snd p)) l
  end.

Definition call_no_nil (c : call) : Prop := match c with CallSet _ x => no_nil x | _ => True end.
