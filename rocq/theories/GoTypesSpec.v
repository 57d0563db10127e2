(** The types of the Go language that the generated code uses, and the rules of the language for the statements that it contains. *)
From Coq Require Import Ascii String Bool List.
From Verif Require Import GoStrings GoMap NamesModel ConceptsModel ReporterModel GoNamesModel BufferModel DeclsModel GoTypesModel.
From Verif Require Import ObjectsSpec.
Import ListNotations.
Local Open Scope string_scope.

(** * Types and their texts *)

Inductive gotype :=
| GBasic (s : string)
| GTime
| GAny
| GNamed (n : string)
| GPtr (g : gotype)
| GSlice (g : gotype)
| GMap (g : gotype).

(** An exported Go identifier. *)
Definition ident_char (c : ascii) : bool := is_lower c || is_upper c || is_digit c || Ascii.eqb c "_".
Definition identifier (n : string) : Prop := exists c r, n = String c r /\ is_upper c = true /\ forall x, In x (list_ascii_of_string r) -> ident_char x = true.

Inductive denotes : string -> gotype -> Prop :=
| d_basic s : In s ["bool"; "int"; "int64"; "float64"; "string"] -> denotes s (GBasic s)
| d_time : denotes "time.Time" GTime
| d_any : denotes "interface{}" GAny
| d_named n : identifier n -> denotes n (GNamed n)
| d_ptr s g : denotes s g -> denotes ("*" ++ s) (GPtr g)
| d_slice s g : denotes s g -> denotes ("[]" ++ s) (GSlice g)
| d_map s g : denotes s g -> denotes ("map[string]" ++ s) (GMap g).

(** * The types that represent the types of the model *)

Definition basic_types : list (key * gotype) :=
  [("boolean", GBasic "bool"); ("integer", GBasic "int"); ("long", GBasic "int64"); ("float", GBasic "float64"); ("string", GBasic "string"); ("date", GTime)].

(** The type of the values that the getters return: pointers for structs and for links to lists. *)
Inductive represents (v : version) : key -> bool -> gotype -> Prop :=
| r_basic k link g : In (k, g) basic_types -> represents v k link g
| r_any link : represents v "interface" link GAny
| r_enum k link t : mget k (v_types v) = Some t -> t_kind t = EnumType -> represents v k link (GNamed (object_name t))
| r_struct k link t : mget k (v_types v) = Some t -> structural t -> represents v k link (GPtr (GNamed (object_name t)))
| r_slice k t e g : mget k (v_types v) = Some t -> t_kind t = ListType -> t_element t = Some e -> represents v e false g -> represents v k false (GSlice g)
| r_list k t e te : mget k (v_types v) = Some t -> t_kind t = ListType -> t_element t = Some e -> mget e (v_types v) = Some te -> structural te ->
    represents v k true (GPtr (GNamed (object_name te ++ "List")))
| r_map k link t e g : mget k (v_types v) = Some t -> t_kind t = MapType -> t_element t = Some e -> represents v e false g -> represents v k link (GMap g).

(** The type of the values given to the builders: structs are replaced by their builders. *)
Inductive given_as (g : gotype) : gotype -> Prop :=
| b_same : (forall n, g <> GPtr (GNamed n)) -> (forall n, g <> GSlice (GPtr (GNamed n))) -> (forall n, g <> GMap (GPtr (GNamed n))) -> given_as g g
| b_struct n : g = GPtr (GNamed n) -> given_as g (GPtr (GNamed (n ++ "Builder")))
| b_slice n : g = GSlice (GPtr (GNamed n)) -> given_as g (GSlice (GPtr (GNamed (n ++ "Builder"))))
| b_map n : g = GMap (GPtr (GNamed n)) -> given_as g (GMap (GPtr (GNamed (n ++ "Builder")))).

(** The types that the package of the version declares (see C73): the enumerated types, the structs and their lists, and the builders. *)
Definition declared (v : version) (n : string) : Prop :=
  exists t, In t (types v) /\
    ((t_kind t = EnumType \/ structural t) /\ n = object_name t \/
     structural t /\ n = object_name t ++ "List" \/
     exists m, built_name v t = Some m /\ n = m ++ "Builder").
Fixpoint all_declared (v : version) (g : gotype) : Prop :=
  match g with
  | GNamed n => declared v n
  | GPtr g | GSlice g | GMap g => all_declared v g
  | _ => True
  end.
Fixpoint mentions_time (g : gotype) : Prop := match g with GTime => True | GPtr g | GSlice g | GMap g => mentions_time g | _ => False end.

(** * The rules of the language *)

(** Constants: nil, false, numbers, strings and empty structures. *)
Inductive constant (v : version) : string -> gotype -> Prop :=
| c_nil_ptr g : constant v "nil" (GPtr g)
| c_nil_slice g : constant v "nil" (GSlice g)
| c_nil_map g : constant v "nil" (GMap g)
| c_nil_any : constant v "nil" GAny
| c_false : constant v "false" (GBasic "bool")
| c_zero s : In s ["int"; "int64"; "float64"] -> constant v "0" (GBasic s)
| c_fraction : constant v "0.0" (GBasic "float64")
| c_string : constant v """""" (GBasic "string")
| c_time : constant v "time.Time{}" GTime
| c_converted t : In t (types v) -> t_kind t = EnumType -> constant v (object_name t ++ "("""")") (GNamed (object_name t)).

(** What is known where the code appears: the types of the fields, of the parameter, of the variable of the loop, and of the result. *)
Record context := MkContext { cx_field : place -> option gotype; cx_value : option gotype; cx_item : option gotype; cx_result : option gotype }.
Definition with_item (g : gotype) (c : context) : context := MkContext (cx_field c) (cx_value c) (Some g) (cx_result c).

Section Rules.
  Context (v : version).

  (** The builder of a type is declared, with its constructor. *)
  Definition has_builder (n : string) : Prop := In (n ++ "Builder") (builders_decls v) /\ In ("New" ++ n) (builders_decls v).

  Inductive has_type (c : context) : expr -> gotype -> Prop :=
  | t_field p g : cx_field c p = Some g -> has_type c (EField p) g
  | t_value g : cx_value c = Some g -> has_type c EValue g
  | t_item g : cx_item c = Some g -> has_type c EItem g
  | t_deref e g : has_type c e (GPtr g) -> has_type c (EDeref e) g
  | t_addr_value g : has_type c EValue g -> has_type c (EAddr EValue) (GPtr g)
  | t_addr_item g : has_type c EItem g -> has_type c (EAddr EItem) (GPtr g)
  | t_make_slice s g : denotes s (GSlice g) -> has_type c (EMake s) (GSlice g)
  | t_make_map s g : denotes s (GMap g) -> has_type c (EMake s) (GMap g)
  | t_empty_map s g : denotes s (GMap g) -> has_type c (EEmpty s) (GMap g)
  | t_copied n e : has_builder n -> has_type c e (GPtr (GNamed n)) -> has_type c (ECopied ("New" ++ n) e) (GPtr (GNamed (n ++ "Builder")))
  | t_list n e : declared v (n ++ "List") -> has_type c e (GSlice (GPtr (GNamed n))) -> has_type c (EList (n ++ "List") e) (GPtr (GNamed (n ++ "List"))).

  (** An expression can be assigned to a variable of the same type, or of type [interface{}]. *)
  Inductive assignable (c : context) : expr -> gotype -> Prop :=
  | a_same e g : has_type c e g -> assignable c e g
  | a_any e g : has_type c e g -> assignable c e GAny
  | a_constant s g : constant v s g -> assignable c (EConstant s) g.

  (** The result of [Build] is a pointer to what the builder builds. *)
  Definition builds (c : context) (e : expr) (g : gotype) : Prop := exists n, has_builder n /\ has_type c e (GPtr (GNamed (n ++ "Builder"))) /\ g = GPtr (GNamed n).
  Definition element (g h : gotype) : Prop := g = GSlice h \/ g = GMap h.
  Definition nillable (g : gotype) : Prop := g = GAny \/ exists h, g = GPtr h \/ g = GSlice h \/ g = GMap h.

  Inductive well_typed (c : context) : stmt -> Prop :=
  | w_set p e g : cx_field c p = Some g -> assignable c e g -> well_typed c (SSet p e)
  | w_set_built p e g : cx_field c p = Some g -> builds c e g -> well_typed c (SSetBuilt p e)
  | w_set_item p e g h : cx_field c p = Some g -> element g h -> assignable c e h -> well_typed c (SSetItem p e)
  | w_set_item_built p e g h : cx_field c p = Some g -> element g h -> builds c e h -> well_typed c (SSetItemBuilt p e)
  | w_copy p e g : cx_field c p = Some (GSlice g) -> has_type c e (GSlice g) -> well_typed c (SCopy p e)
  | w_range e g h s : has_type c e g -> element g h -> well_typed (with_item h c) s -> well_typed c (SRange e s)
  | w_if_not_nil e g l l' : has_type c e g -> nillable g -> Forall (well_typed c) l -> Forall (well_typed c) l' -> well_typed c (SIfNotNil e l l')
  | w_if_not_empty e g l l' : has_type c e g -> (exists h, element g h) -> Forall (well_typed c) l -> Forall (well_typed c) l' -> well_typed c (SIfNotEmpty e l l')
  | w_result e g : cx_result c = Some g -> assignable c e g -> well_typed c (SResult e).

  (** The type of the parameter of a setter, inside the setter. *)
  Definition formal_type (f : formal) (g : gotype) : Prop :=
    match f with
    | One s => denotes s g
    | Any s => exists h, denotes s h /\ g = GSlice h
    | NoFormal => False
    end.

  (** The code of an attribute: the types exist, and the functions are accepted. *)
  Definition attribute_compiles (a : attribute_code) (g b : gotype) : Prop :=
    denotes (ac_object_field a) g /\ denotes (ac_getter_type a) g /\ denotes (ac_builder_field a) b /\ all_declared v g /\ all_declared v b /\
    (exists f, formal_type (ac_formal a) f /\ all_declared v f /\
       Forall (well_typed (MkContext (fun p => match p with InBuilder => Some b | _ => None end) (Some f) None None)) (ac_setter a)) /\
    Forall (well_typed (MkContext (fun p => match p with InObject => Some g | _ => None end) None None (Some g))) (ac_getter a) /\
    (let c := MkContext (fun p => match p with InObject => Some g | InBuilder => Some b | _ => None end) None None None in
     Forall (well_typed c) (ac_copy a) /\ Forall (well_typed c) (ac_build a)).

  (** The code of a parameter; the values that are read have the type that represents the type of the parameter. *)
  Definition request_compiles (q : request_code) : Prop :=
    exists f g, denotes (qc_field q) f /\ formal_type (qc_formal q) g /\ all_declared v f /\ all_declared v g /\
      Forall (well_typed (MkContext (fun p => match p with InRequest => Some f | _ => None end) (Some g) None None)) (qc_setter q).
  Definition response_compiles (k : key) (r : response_code) : Prop :=
    exists f g x, denotes (pc_field r) f /\ denotes (pc_getter_type r) g /\ all_declared v f /\ all_declared v g /\ represents v k false x /\
      Forall (well_typed (MkContext (fun p => match p with InResponse => Some f | _ => None end) None None (Some g))) (pc_getter r) /\
      Forall (well_typed (MkContext (fun p => match p with InResponse => Some f | _ => None end) None (Some x) None)) (pc_read r).
End Rules.

(** The path of the package of a version: the last element doesn't contain dots. *)
Definition package_path (pkg : string) : Prop :=
  exists dir base, pkg = dir ++ "/" ++ base /\ base <> "" /\ forall c, In c (list_ascii_of_string base) -> c <> "."%char /\ c <> "/"%char.

(** The names of the types of the version are identifiers. *)
Definition named_well (v : version) : Prop := forall t, In t (types v) -> t_kind t = EnumType \/ structural t -> identifier (object_name t).

(** Attributes and parameters with the types that can be used: no lists or maps of lists or maps, and links to lists of structs only. *)
Definition acceptable (v : version) (k : key) (link : bool) : Prop :=
  exists t, mget k (v_types v) = Some t /\ t_kind t <> UndefinedType /\
    (In (t_kind t) [ListType; MapType] -> plain v t) /\
    (t_kind t = ListType -> link = true -> exists e te, t_element t = Some e /\ mget e (v_types v) = Some te /\ structural te).

(** The text of the reference denotes the type, and putting it in a file of the package adds the import of the time package if it is needed, and
    no other import. *)
Definition imported (pkg : string) (r : reference) (g : gotype) : Prop :=
  denotes (rendered pkg r) g /\
  forall b, gb_pkg b = pkg ->
    let b' := snd (replace_value (ArgReference (rf_import r) (rf_selector r) (rf_text r)) b) in
    (mentions_time g -> mget "time" (gb_imports b') = Some "time" /\ forall i, i <> "time" -> mget i (gb_imports b') = mget i (gb_imports b)) /\
    (~ mentions_time g -> b' = b).
