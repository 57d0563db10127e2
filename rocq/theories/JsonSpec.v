(** Vocabulary used to state the properties of the JSON support. *)
From Coq Require Import Ascii String Bool Arith ZArith NArith Permutation List.
From Verif Require Import GoStrings GoMap NamesModel NamesSpec ConceptsModel ConceptsSpec BindingModel GoNamesModel GoTimeModel GoTimeSpec
  ReporterModel ObjectsModel ObjectsSpec JsonModel.
Import ListNotations.
Local Open Scope string_scope.

(** * The JSON grammar *)

(** Things separated by commas. *)
Fixpoint separated (l : list (list token)) : list token :=
  match l with
  | [] => []
  | [x] => x
  | x :: r => (x ++ TComma :: separated r)%list
  end.

(** The tokens of a value. *)
Fixpoint tokens (j : json) : list token :=
  match j with
  | JNull => [TNull]
  | JBool b => [TBool b]
  | JNum s => [TNum s]
  | JStr s => [TStr s]
  | JArr l => (TLBracket :: separated (map tokens l) ++ [TRBracket])%list
  | JObj l => (TLBrace :: separated (map (fun '(k, x) => TStr k :: TColon :: tokens x) l) ++ [TRBrace])%list
  end.

(** Strings of decimal digits. *)
Fixpoint digits (s : string) : Prop :=
  match s with
  | EmptyString => True
  | String c r => (48 <= nat_of_ascii c <= 57) /\ digits r
  end.

(** The texts of numbers that JSON allows. *)
Definition json_number (s : string) : Prop :=
  exists sign int frac exp, s = sign ++ int ++ frac ++ exp /\
    (sign = "" \/ sign = "-") /\
    (int = "0" \/ exists c r, int = String c r /\ c <> "0"%char /\ digits int) /\
    (frac = "" \/ exists d, frac = String "." d /\ d <> "" /\ digits d) /\
    (exp = "" \/ exists e d, exp = String e d /\ (e = "e"%char \/ e = "E"%char) /\
      exists s d', d = s ++ d' /\ In s [""; "+"; "-"] /\ d' <> "" /\ digits d').

(** All the numbers are valid. *)
Fixpoint well_formed (j : json) : Prop :=
  match j with
  | JNum s => json_number s
  | JArr l => all1 well_formed l
  | JObj l => all1 (fun p => well_formed (snd p)) l
  | _ => True
  end.

(** None of the members has an empty name. *)
Fixpoint clean (j : json) : Prop :=
  match j with
  | JArr l => all1 clean l
  | JObj l => all1 (fun p => fst p <> "" /\ clean (snd p)) l
  | _ => True
  end.

(** * Things that aren't modelled *)

(** What is assumed about the conversion of numbers and about the iteration of maps. *)
Definition faithful (o : oracle) : Prop :=
  (forall z s, format_float o z = Some s -> json_number s /\ parse_float o s = Some z) /\
  (forall l, Permutation l (order o l)).

(** * Values and documents *)

(** The JSON value for a value of type [interface{}]. *)
Fixpoint shows_any (o : oracle) (a : any) (j : json) {struct a} : Prop :=
  match a with
  | ANil => j = JNull
  | ABool b => j = JBool b
  | AFloat z => exists s, format_float o z = Some s /\ j = JNum s
  | AString s => j = JStr s
  | ASlice l => exists m, j = JArr m /\ all2 (fun y x => shows_any o x y) m l
  | AMap l =>
      exists m, j = JObj m /\ Permutation (map fst m) (map fst l) /\
        all1 (fun p => exists y, In (fst p, y) m /\ shows_any o (snd p) y) l
  end.

(** The JSON value for a scalar. *)
Definition shows_scalar (o : oracle) (s : scalar) (j : json) : Prop :=
  match s with
  | SBool b => j = JBool b
  | SInt z => j = JNum (itoa_z z)
  | SFloat z => exists s, format_float o z = Some s /\ j = JNum s
  | SString s => j = JStr s
  | SDate d => j = JStr (format_rfc3339 d)
  | SAny a => shows_any o a j
  end.

(** The names of the members that classes have in addition to the attributes. *)
Definition header (t : typ) (b : object) : list (string * json) :=
  match t_kind t with
  | ClassType =>
      (("kind", JStr (if N.testbit (o_bits b) 0 then object_name t ++ "Link" else object_name t)) ::
       (if N.testbit (o_bits b) 1 then [("id", JStr (o_id b))] else []) ++
       (if N.testbit (o_bits b) 2 then [("href", JStr (o_href b))] else []))%list
  | _ => []
  end.

(** The members of an object are the ones of the header followed by the ones for the attributes that are
    present and aren't nil. *)
Definition shows_fields (P : attribute -> value -> json -> Prop) (t : typ) (b : object) :
  nat -> list attribute -> list value -> list (string * json) -> Prop :=
  fix go (i : nat) (l : list attribute) (fs : list value) (m : list (string * json)) {struct fs} : Prop :=
    match fs with
    | [] => l = [] /\ m = []
    | x :: fs =>
        match l with
        | [] => False
        | a :: l =>
            (present t i b /\ x <> VNil /\ exists y m', m = (attribute_name a, y) :: m' /\ P a x y /\ go (S i) l fs m') \/
            ((~ present t i b \/ x = VNil) /\ go (S i) l fs m)
        end
    end.

(** The JSON value for a value of the given type. *)
Fixpoint shows (o : oracle) (v : version) (k : key) (x : value) (j : json) {struct x} : Prop :=
  match mget k (v_types v) with
  | None => False
  | Some t =>
      match x with
      | VScalar s => shows_scalar o s j
      | VNil => False
      | VObject b =>
          exists m, j = JObj (header t b ++ m)%list /\
            shows_fields (fun a x y => shows o v (a_type a) x y) t b 0 (t_attrs t) (o_fields b) m
      | VSlice l => exists e m, t_element t = Some e /\ j = JArr m /\ all2 (fun y x => shows o v e x y) m l
      | VList _ _ s =>
          exists e m, t_element t = Some e /\ j = JObj [("items", JArr m)] /\
            match s with VSlice l => all2 (fun y x => shows o v e x y) m l | _ => m = [] end
      | VMap l =>
          exists e m, t_element t = Some e /\ j = JObj m /\ map fst m = map fst l /\
            all2 (fun y x => shows o v e (snd x) y) (map snd m) l
      end
  end.

Definition shows_object (o : oracle) (v : version) (t : typ) (b : object) (j : json) : Prop :=
  exists m, j = JObj (header t b ++ m)%list /\
    shows_fields (fun a x y => shows o v (a_type a) x y) t b 0 (t_attrs t) (o_fields b) m.

(** * Values that can be written *)

(** The numbers have texts. *)
Fixpoint finite_any (o : oracle) (a : any) : Prop :=
  match a with
  | AFloat z => format_float o z <> None
  | ASlice l => all1 (finite_any o) l
  | AMap l => all1 (fun p => finite_any o (snd p)) l
  | _ => True
  end.

Definition finite (o : oracle) (s : scalar) : Prop :=
  match s with
  | SFloat z => format_float o z <> None
  | SAny a => finite_any o a
  | _ => True
  end.

(** Values that can be written: the numbers have texts and there are no nil elements. *)
Fixpoint printable (o : oracle) (v : version) (k : key) (x : value) {struct x} : Prop :=
  match mget k (v_types v) with
  | None => False
  | Some t =>
      match x with
      | VScalar s => finite o s
      | VNil => True
      | VObject b =>
          all_fields (fun i a x _ => present t i b -> printable o v (a_type a) x) 0 (t_attrs t) (o_fields b) (o_fields b)
      | VSlice l => exists e, t_element t = Some e /\ all1 (fun y => y <> VNil /\ printable o v e y) l
      | VList _ _ s =>
          exists e, t_element t = Some e /\
            match s with VSlice l => all1 (fun y => y <> VNil /\ printable o v e y) l | _ => True end
      | VMap l => exists e, t_element t = Some e /\ all1 (fun p => snd p <> VNil /\ printable o v e (snd p)) l
      end
  end.

Definition object_printable (o : oracle) (v : version) (t : typ) (b : object) : Prop :=
  all_fields (fun i a x _ => present t i b -> printable o v (a_type a) x) 0 (t_attrs t) (o_fields b) (o_fields b).

(** * Values that survive *)

Definition lossless_scalar (s : scalar) : Prop :=
  match s with
  | SDate d => plain_date d
  | _ => True
  end.

(** Values that don't lose anything when they are written: dates with whole seconds, no attributes that
    are present and nil, no lists with the link flag or a link, and no empty keys in maps. *)
Fixpoint lossless (v : version) (k : key) (x : value) {struct x} : Prop :=
  match mget k (v_types v) with
  | None => False
  | Some t =>
      match x with
      | VScalar s => lossless_scalar s
      | VNil => True
      | VObject b =>
          all_fields (fun i a x _ => present t i b -> x <> VNil /\ lossless v (a_type a) x) 0 (t_attrs t) (o_fields b) (o_fields b)
      | VSlice l => exists e, t_element t = Some e /\ all1 (lossless v e) l
      | VList h b s =>
          h = "" /\ b = false /\ exists e, t_element t = Some e /\
          match s with VSlice l => all1 (lossless v e) l | _ => True end
      | VMap l => exists e, t_element t = Some e /\ all1 (fun p => fst p <> "" /\ lossless v e (snd p)) l
      end
  end.

Definition object_lossless (v : version) (t : typ) (b : object) : Prop :=
  all_fields (fun i a x _ => present t i b -> x <> VNil /\ lossless v (a_type a) x) 0 (t_attrs t) (o_fields b) (o_fields b).

(** The names of the members of the documents are not empty and not repeated: Go doesn't compile switch
    statements with repeated cases. *)
Definition tagged (t : typ) : Prop :=
  NoDup (map attribute_name (t_attrs t)) /\ ~ In "" (map attribute_name (t_attrs t)) /\
  (t_kind t = ClassType -> forall a, In a (t_attrs t) -> ~ In (attribute_name a) ["kind"; "id"; "href"]).

(** The types of the version generate code that compiles. *)
Definition compiles (v : version) : Prop :=
  forall k t, mget k (v_types v) = Some t -> structural t -> fits t /\ tagged t.

(** The object is written and read without errors, but the value of an attribute isn't the same after that. *)
Definition changes (o : oracle) (v : version) (t : typ) (b : object) (i : nat) : Prop :=
  faithful o /\ standard v /\ compiles v /\ structural t /\ fits t /\ tagged t /\ object_typed v t b /\ present t i b /\
  exists a l r, nth_error (t_attrs t) i = Some a /\ marshal_object o v t (Some b) = WOk l /\ unmarshal_object o v t l = Ok r [] /\
    get_attr v t i a (Some r) <> get_attr v t i a (Some b).

(** * Unknown members *)

(** The names of the members that a type knows. *)
Definition member_names (t : typ) : list string :=
  ((match t_kind t with ClassType => ["kind"; "id"; "href"] | _ => [] end) ++ map attribute_name (t_attrs t))%list.

(** * Iteration order *)

(** There are no maps inside of a value of type [interface{}]. *)
Fixpoint concrete_any (a : any) : Prop :=
  match a with
  | ASlice l => all1 concrete_any l
  | AMap _ => False
  | _ => True
  end.

(** There are no maps inside of the values of type [interface{}]. *)
Fixpoint concrete (x : value) : Prop :=
  match x with
  | VScalar (SAny a) => concrete_any a
  | VScalar _ | VNil => True
  | VObject b => all1 concrete (o_fields b)
  | VSlice l => all1 concrete l
  | VList _ _ s => match s with VSlice l => all1 concrete l | _ => True end
  | VMap l => all1 (fun p => concrete (snd p)) l
  end.
