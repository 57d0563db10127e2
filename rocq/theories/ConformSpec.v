(** What it means that a JSON value conforms to a schema of an OpenAPI document, and the conditions that make the values
    written by the generated code conform to the schemas that the OpenAPI generator publishes for their types. *)
From Coq Require Import Ascii String Bool Arith ZArith NArith List.
From Verif Require Import OpenapiSpec.
From Verif Require Import GoStrings GoMap NamesModel ConceptsModel BindingModel GoNamesModel GoTimeModel ReporterModel ObjectsModel ObjectsSpec JsonModel JsonSpec.
Import ListNotations.
Local Open Scope string_scope.

(** * Texts of numbers and dates *)

(** The value of a sequence of decimal digits. *)
Definition decimal (s : string) : Z :=
  fold_left (fun a c => (a * 10 + (Z.of_nat (nat_of_ascii c) - 48))%Z) (list_ascii_of_string s) 0%Z.

(** The text of an integer. *)
Definition integer_text (s : string) (z : Z) : Prop :=
  exists d, d <> "" /\ digits d /\ ((s = d /\ z = decimal d) \/ (s = "-" ++ d /\ z = (- decimal d)%Z)).

(** A number of digits, and the limits of the value. *)
Definition within (n : nat) (low high : Z) (s : string) : Prop :=
  String.length s = n /\ digits s /\ (low <= decimal s <= high)%Z.

(** Dates, according to RFC 3339. *)
Definition date_time (s : string) : Prop :=
  exists year month day hour minute second offset,
    s = year ++ "-" ++ month ++ "-" ++ day ++ "T" ++ hour ++ ":" ++ minute ++ ":" ++ second ++ offset /\
    within 4 0 9999 year /\ within 2 1 12 month /\ within 2 1 (days_in (decimal year) (decimal month)) day /\
    within 2 0 23 hour /\ within 2 0 59 minute /\ within 2 0 59 second /\
    (offset = "Z" \/ exists sign h m, (sign = "+" \/ sign = "-") /\ offset = sign ++ h ++ ":" ++ m /\ within 2 0 23 h /\ within 2 0 59 m).

(** * Schemas *)

(** The keyword [type]. *)
Definition has_type (t : string) (j : json) : Prop :=
  (t = "boolean" /\ exists b, j = JBool b) \/
  (t = "integer" /\ exists s z, j = JNum s /\ integer_text s z) \/
  (t = "number" /\ exists s, j = JNum s /\ json_number s) \/
  (t = "string" /\ exists s, j = JStr s) \/
  (t = "object" /\ exists l, j = JObj l) \/
  (t = "array" /\ exists l, j = JArr l).

(** The keyword [format]. *)
Definition has_format (f : string) (j : json) : Prop :=
  (f = "int32" -> exists s z, j = JNum s /\ integer_text s z /\ (- 2 ^ 31 <= z < 2 ^ 31)%Z) /\
  (f = "int64" -> exists s z, j = JNum s /\ integer_text s z /\ (- 2 ^ 63 <= z < 2 ^ 63)%Z) /\
  (f = "date-time" -> exists s, j = JStr s /\ date_time s).

(** The schemas that a reference leads to. *)
Definition resolves (document : json) (r : string) (s : json) : Prop :=
  exists n ss, r = "#/components/schemas/" ++ n /\ at_path document ["components"; "schemas"] (JObj ss) /\ In (n, s) ss.

(** A value conforms to a schema of a document: it follows the references, or else it satisfies all the keywords.  The
    documentation isn't relevant, and properties are never mandatory. *)
Inductive conforms (document : json) : json -> json -> Prop :=
| conforms_reference l r j :
    In ("$ref", JStr r) l -> (exists s, resolves document r s) -> (forall s, resolves document r s -> conforms document s j) ->
    conforms document (JObj l) j
| conforms_keywords l j :
    ~ In "$ref" (map fst l) ->
    (forall t, In ("type", JStr t) l -> has_type t j) ->
    (forall f, In ("format", JStr f) l -> has_format f j) ->
    (forall e, In ("enum", JArr e) l -> In j e) ->
    (forall ps ms n s x, In ("properties", JObj ps) l -> j = JObj ms -> In (n, s) ps -> In (n, x) ms -> conforms document s x) ->
    (forall s xs x, In ("items", s) l -> j = JArr xs -> In x xs -> conforms document s x) ->
    (forall s ms n x, In ("additionalProperties", s) l -> s <> JBool true -> j = JObj ms -> In (n, x) ms ->
       ~ (exists ps, In ("properties", JObj ps) l /\ In n (map fst ps)) -> conforms document s x) ->
    conforms document (JObj l) j.

(** * Conditions *)

(** The components of the date are in their ranges. *)
Definition calendar_date (d : date) : Prop :=
  (0 <= d_year d <= 9999)%Z /\ (1 <= d_month d <= 12)%Z /\ (1 <= d_day d <= days_in (d_year d) (d_month d))%Z /\
  (0 <= d_hour d < 24)%Z /\ (0 <= d_minute d < 60)%Z /\ (0 <= d_second d < 60)%Z /\
  (exists m, d_offset d = (m * 60)%Z /\ (-1440 < m < 1440)%Z).

(** Scalars: the values of the enumerated types are those of the model, the values of type [interface{}] are maps, integers
    have 32 bits and dates are valid. *)
Definition publishable_scalar (k : key) (t : typ) (s : scalar) : Prop :=
  match s with
  | SBool _ | SFloat _ => True
  | SInt z => k = "integer" -> (- 2 ^ 31 <= z < 2 ^ 31)%Z
  | SString w => t_kind t = EnumType -> In w (map enum_value_name (t_values t))
  | SDate d => calendar_date d
  | SAny a => exists l, a = AMap l
  end.

(** All the scalars are like that, and there are no lists of links. *)
Fixpoint publishable (v : version) (k : key) (x : value) {struct x} : Prop :=
  match mget k (v_types v) with
  | None => False
  | Some t =>
      match x with
      | VScalar s => publishable_scalar k t s
      | VNil => True
      | VObject b =>
          all_fields (fun i a x _ => present t i b -> publishable v (a_type a) x) 0 (t_attrs t) (o_fields b) (o_fields b)
      | VSlice l => exists e, t_element t = Some e /\ all1 (publishable v e) l
      | VList _ _ _ => False
      | VMap l => exists e, t_element t = Some e /\ all1 (fun p => publishable v e (snd p)) l
      end
  end.
Definition object_publishable (v : version) (t : typ) (b : object) : Prop :=
  all_fields (fun i a x _ => present t i b -> publishable v (a_type a) x) 0 (t_attrs t) (o_fields b) (o_fields b).

(** The names of the schemas are different. *)
Definition distinct_schemas (v : version) : Prop :=
  forall t, In t (types v) -> t_kind t = EnumType \/ structural t ->
    camel (t_name t) <> "Metadata" /\ camel (t_name t) <> "Error" /\
    forall t', In t' (types v) -> camel (t_name t') = camel (t_name t) -> t' = t.
