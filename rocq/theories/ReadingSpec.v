(** What JSON documents mean for the generated code that reads them: the value that a document stands for, according to the types of the model. *)
From Coq Require Import Ascii String Bool Arith ZArith NArith List.
From Verif Require Import ConformSpec.
From Verif Require Import GoStrings GoMap NamesModel ConceptsModel BindingModel GoNamesModel GoTimeModel ReporterModel ObjectsModel ObjectsSpec JsonModel JsonSpec.
Import ListNotations.
Local Open Scope string_scope.

(** * Members *)

(** When a name is repeated the last member is the one that counts. *)
Inductive last_member (f : string) : list (string * json) -> json -> Prop :=
| last_here l j m : ~ In f (map fst m) -> last_member f (l ++ (f, j) :: m) j.

Definition absent (f : string) (ms : list (string * json)) : Prop := ~ In f (map fst ms).

(** Strings; the null value is the empty string. *)
Inductive text_in : json -> string -> Prop :=
| text_string s : text_in (JStr s) s
| text_null : text_in JNull "".

(** * Dates *)

(** The digits of a fraction of a second, in nanoseconds; the digits after the ninth don't count. *)
Definition nanoseconds (f : string) : Z := decimal (substring 0 9 (f ++ "000000000")).

(** The date in a text: RFC 3339 with an optional fraction.  The offsets may have twenty four hours and sixty minutes. *)
Definition date_in (s : string) (d : date) : Prop :=
  exists year month day hour minute second fraction offset,
    s = year ++ "-" ++ month ++ "-" ++ day ++ "T" ++ hour ++ ":" ++ minute ++ ":" ++ second ++ fraction ++ offset /\
    within 4 0 9999 year /\ within 2 1 12 month /\ within 2 1 (days_in (decimal year) (decimal month)) day /\
    within 2 0 23 hour /\ within 2 0 59 minute /\ within 2 0 59 second /\
    d_year d = decimal year /\ d_month d = decimal month /\ d_day d = decimal day /\
    d_hour d = decimal hour /\ d_minute d = decimal minute /\ d_second d = decimal second /\
    ((fraction = "" /\ d_nano d = 0%Z) \/ (exists f, fraction = String "." f /\ f <> "" /\ digits f /\ d_nano d = nanoseconds f)) /\
    ((offset = "Z" /\ d_offset d = 0%Z) \/
     (exists sign h m, offset = String sign (h ++ ":" ++ m) /\ within 2 0 24 h /\ within 2 0 60 m /\
        ((sign = "+"%char /\ d_offset d = (decimal h * 3600 + decimal m * 60)%Z) \/ (sign = "-"%char /\ d_offset d = (- (decimal h * 3600 + decimal m * 60))%Z)))).

(** * Values *)

(** Values of type [interface{}]. *)
Inductive any_in (o : oracle) : json -> any -> Prop :=
| any_null : any_in o JNull ANil
| any_bool b : any_in o (JBool b) (ABool b)
| any_number s z : parse_float o s = Some z -> any_in o (JNum s) (AFloat z)
| any_string s : any_in o (JStr s) (AString s)
| any_array l m : Forall2 (any_in o) l m -> any_in o (JArr l) (ASlice m)
| any_object l m : increasing (map fst m) -> (forall f a, In (f, a) m -> exists j, last_member f l j /\ any_in o j a) ->
    (forall f j, In (f, j) l -> In f (map fst m) /\ exists a, any_in o j a) -> any_in o (JObj l) (AMap m).

(** Values of scalar and enumerated types. *)
Inductive scalar_in (o : oracle) (k : key) (t : typ) : json -> scalar -> Prop :=
| in_boolean b : t_kind t = ScalarType -> k = "boolean" -> scalar_in o k t (JBool b) (SBool b)
| in_integer s z : t_kind t = ScalarType -> k = "integer" \/ k = "long" -> integer_text s z -> (- 2 ^ 63 <= z < 2 ^ 63)%Z -> scalar_in o k t (JNum s) (SInt z)
| in_float s z : t_kind t = ScalarType -> k = "float" -> parse_float o s = Some z -> scalar_in o k t (JNum s) (SFloat z)
| in_string j s : t_kind t = ScalarType -> k = "string" -> text_in j s -> scalar_in o k t j (SString s)
| in_date j s d : t_kind t = ScalarType -> k = "date" -> text_in j s -> date_in s d -> scalar_in o k t j (SDate d)
| in_enum j s : t_kind t = EnumType -> text_in j s -> scalar_in o k t j (SString s)
| in_interface j a : t_kind t = InterfaceType -> any_in o j a -> scalar_in o k t j (SAny a).

(** The text of the last member with a name, the empty string if there is none. *)
Definition text_of (f : string) (ms : list (string * json)) (s : string) : Prop :=
  (exists j, last_member f ms j /\ text_in j s) \/ (absent f ms /\ s = "").

(** The members of an object, when the meaning of the values is given: the attributes that are present are those of the members, and
    their values are those of the last members with their names.  All the members must be correct.  The other members are ignored. *)
Definition members_in (M : key -> bool -> json -> value -> Prop) (v : version) (t : typ) (ms : list (string * json)) (b : object) : Prop :=
  complete t b /\ bounded t b /\
  (forall i a, nth_error (t_attrs t) i = Some a ->
     (forall j, In (attribute_name a, j) ms -> exists x, M (a_type a) (a_link a) j x) /\
     (exists x, nth_error (o_fields b) i = Some x /\
       ((present t i b /\ exists j, last_member (attribute_name a) ms j /\ M (a_type a) (a_link a) j x) \/
        (~ present t i b /\ absent (attribute_name a) ms /\ zero_of v (a_type a) x)))) /\
  (t_kind t = ClassType ->
     (forall f j, In f ["kind"; "id"; "href"] -> In (f, j) ms -> exists s, text_in j s) /\
     (is_link b <-> In ("kind", JStr (object_name t ++ "Link")) ms) /\
     (has_id b <-> ~ absent "id" ms) /\ text_of "id" ms (o_id b) /\ (has_href b <-> ~ absent "href" ms) /\ text_of "href" ms (o_href b)) /\
  (t_kind t = StructType -> o_id b = "" /\ o_href b = "").

(** The items of a list. *)
Definition items_in (M : json -> value -> Prop) (j : json) (l : list value) : Prop :=
  (j = JNull /\ l = []) \/ exists m, j = JArr m /\ Forall2 M m l.

(** The members of a list of links. *)
Definition list_in (M : json -> value -> Prop) (te : typ) (ms : list (string * json)) (href : string) (link : bool) (s : value) : Prop :=
  (forall f j, In f ["kind"; "href"] -> In (f, j) ms -> exists s, text_in j s) /\ (forall j, In ("items", j) ms -> exists l, items_in M j l) /\
  text_of "href" ms href /\ (link = true <-> last_member "kind" ms (JStr (object_name te ++ "ListLink"))) /\
  ((absent "items" ms /\ s = VNil) \/ exists j l, last_member "items" ms j /\ items_in M j l /\ s = VSlice l).

(** The value of the given type that a JSON value stands for.  Objects that are null are empty objects. *)
Inductive stands (o : oracle) (v : version) : key -> bool -> json -> value -> Prop :=
| stands_scalar k link t j s : mget k (v_types v) = Some t -> scalar_in o k t j s -> stands o v k link j (VScalar s)
| stands_object k link t ms b : mget k (v_types v) = Some t -> structural t -> members_in (stands o v) v t ms b -> stands o v k link (JObj ms) (VObject b)
| stands_null_object k link t b : mget k (v_types v) = Some t -> structural t -> members_in (fun _ _ _ _ => False) v t [] b -> stands o v k link JNull (VObject b)
| stands_slice k t e j l : mget k (v_types v) = Some t -> t_kind t = ListType -> t_element t = Some e -> items_in (stands o v e false) j l -> stands o v k false j (VSlice l)
| stands_list k t e te ms h b s : mget k (v_types v) = Some t -> t_kind t = ListType -> t_element t = Some e -> mget e (v_types v) = Some te ->
    list_in (stands o v e false) te ms h b s -> stands o v k true (JObj ms) (VList h b s)
| stands_null_list k t : mget k (v_types v) = Some t -> t_kind t = ListType -> stands o v k true JNull (VList "" false VNil)
| stands_map k link t e ms l : mget k (v_types v) = Some t -> t_kind t = MapType -> t_element t = Some e -> increasing (map fst l) ->
    (forall f x, In (f, x) l -> exists j, last_member f ms j /\ stands o v e false j x) ->
    (forall f j, In (f, j) ms -> In f (map fst l) /\ exists x, stands o v e false j x) -> stands o v k link (JObj ms) (VMap l)
| stands_null_map k link t : mget k (v_types v) = Some t -> t_kind t = MapType -> stands o v k link JNull (VMap []).

(** The types used by the attributes exist, and so do the types of the elements of lists and maps.  The lists that the reader adds for all
    the types may be lists of maps, but attributes and parameters don't use them. *)
Definition sound (v : version) : Prop :=
  forall k t, mget k (v_types v) = Some t -> (structural t -> known v t) /\
    (In (t_kind t) [ListType; MapType] -> exists e te, t_element t = Some e /\ mget e (v_types v) = Some te).

(** The type isn't a list or map of lists or maps. *)
Definition usable (v : version) (k : key) : Prop := forall t, mget k (v_types v) = Some t -> In (t_kind t) [ListType; MapType] -> plain v t.

(** Numbers that have been read can be written. *)
Definition writes_numbers (o : oracle) : Prop := forall s z, parse_float o s = Some z -> format_float o z <> None.

(** * Documents that conform to the published schemas *)

(** What the schemas don't say, but the generated code requires: the values of struct types are objects, and there are no lists of links. *)
Fixpoint shaped (v : version) (k : key) (link : bool) (j : json) {struct j} : Prop :=
  match mget k (v_types v) with
  | None => True
  | Some t =>
      match j with
      | JObj ms =>
          all1 (fun p => (structural t -> forall a, In a (t_attrs t) -> attribute_name a = fst p -> shaped v (a_type a) (a_link a) (snd p)) /\
                         (t_kind t = MapType -> forall e, t_element t = Some e -> shaped v e false (snd p))) ms
      | JArr l => ~ structural t /\ (t_kind t = ListType -> link = false /\ forall e, t_element t = Some e -> all1 (shaped v e false) l)
      | _ => ~ structural t
      end
  end.

(** All the numbers of the document can be read. *)
Fixpoint reads_numbers (o : oracle) (j : json) : Prop :=
  match j with
  | JNum s => parse_float o s <> None
  | JArr l => all1 (reads_numbers o) l
  | JObj ms => all1 (fun p => reads_numbers o (snd p)) ms
  | _ => True
  end.
