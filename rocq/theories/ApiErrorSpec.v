(** Vocabulary used to state the properties of the errors of the API. *)
From Coq Require Import Ascii String Bool Arith ZArith NArith List.
From Verif Require Import GoStrings GoMap ReporterModel GoTimeModel ObjectsModel ObjectsSpec JsonModel JsonSpec ApiErrorModel.
Import ListNotations.
Local Open Scope string_scope.

(** Dates that can be written with the fraction of the second without loss: years of four digits and
    offsets of whole minutes of less than a day. *)
Definition precise_date (d : date) : Prop :=
  (0 <= d_year d <= 9999)%Z /\ (1 <= d_month d <= 12)%Z /\ (1 <= d_day d <= days_in (d_year d) (d_month d))%Z /\
  (0 <= d_hour d < 24)%Z /\ (0 <= d_minute d < 60)%Z /\ (0 <= d_second d < 60)%Z /\ (0 <= d_nano d < 1000000000)%Z /\
  (exists m, d_offset d = (m * 60)%Z /\ (-1440 < m < 1440)%Z).

(** Two errors have the same attributes with the same values. *)
Definition same_but_status (e r : api_error) : Prop :=
  get_id (Some r) = get_id (Some e) /\ get_href (Some r) = get_href (Some e) /\ get_code (Some r) = get_code (Some e) /\
  get_reason (Some r) = get_reason (Some e) /\ get_operation (Some r) = get_operation (Some e) /\
  get_details (Some r) = get_details (Some e) /\ get_timestamp (Some r) = get_timestamp (Some e).
Definition same_error (e r : api_error) : Prop := get_status (Some r) = get_status (Some e) /\ same_but_status e r.

(** The values that exist in Go: the status has 64 bits and the details are canonical. *)
Definition error_typed (e : api_error) : Prop :=
  (int64_min <= fst (get_status (Some e)) <= int64_max)%Z /\ sorted_any (fst (get_details (Some e))).

(** Errors that can be written: the numbers of the details have text, and the year of the timestamp has
    four digits. *)
Definition error_printable (o : oracle) (e : api_error) : Prop :=
  finite_any o (fst (get_details (Some e))) /\
  forall d, get_timestamp (Some e) = (Some d, true) -> (0 <= d_year d <= 9999)%Z.

(** Errors that can be read again. *)
Definition error_lossless (e : api_error) : Prop :=
  forall t, get_timestamp (Some e) = (t, true) -> exists d, t = Some d /\ precise_date d.

(** The members of the document of an error. *)
Definition optional {A : Type} (f : A -> json) (x : A * bool) : option json := if snd x then Some (f (fst x)) else None.
Definition describes (o : oracle) (e : api_error) (m : list (string * json)) : Prop :=
  NoDup (map fst m) /\
  incl (map fst m) ["kind"; "status"; "id"; "href"; "code"; "reason"; "operation_id"; "details"; "timestamp"] /\
  mget "kind" m = Some (JStr "Error") /\
  mget "status" m = optional (fun z => JNum (itoa_z z)) (get_status (Some e)) /\
  mget "id" m = optional JStr (get_id (Some e)) /\
  mget "href" m = optional JStr (get_href (Some e)) /\
  mget "code" m = optional JStr (get_code (Some e)) /\
  mget "reason" m = optional JStr (get_reason (Some e)) /\
  mget "operation_id" m = optional JStr (get_operation (Some e)) /\
  match get_details (Some e) with
  | (a, true) => exists j, mget "details" m = Some j /\ shows_any o a j
  | (_, false) => mget "details" m = None
  end /\
  match get_timestamp (Some e) with
  | (Some d, true) => exists s, mget "timestamp" m = Some (JStr s) /\ (precise_date d -> parse_rfc3339 s = Some d)
  | (None, true) => mget "timestamp" m = Some JNull
  | (_, false) => mget "timestamp" m = None
  end.

(** Members that can be read: missing ones, strings, integers and dates. *)
Definition is_string (j : option json) : Prop := match j with None | Some JNull | Some (JStr _) => True | _ => False end.
Definition is_integer (j : option json) : Prop :=
  match j with None => True | Some (JNum s) => parse_int s <> None | _ => False end.
Definition is_date (j : option json) : Prop :=
  match j with None => True | Some (JStr s) => parse_rfc3339 s <> None | _ => False end.

(** What is read from the members. *)
Definition string_of (j : option json) : string * bool :=
  match j with None => ("", false) | Some (JStr s) => (s, true) | Some _ => ("", true) end.
Definition integer_of (j : option json) : Z * bool :=
  match j with
  | None => (0%Z, false)
  | Some (JNum s) => (match parse_int s with Some z => z | None => 0%Z end, true)
  | Some _ => (0%Z, true)
  end.
Definition date_of (j : option json) : option date * bool :=
  match j with None => (None, false) | Some (JStr s) => (parse_rfc3339 s, true) | Some _ => (None, true) end.

(** * Messages *)

(** Enumerations: items separated by commas with a final conjunction. *)
Fixpoint enumeration (l : list string) : string :=
  match l with
  | [] => ""
  | [a] => a
  | [a; b] => a ++ " and " ++ b
  | a :: l => a ++ ", " ++ enumeration l
  end.

Definition mention {A : Type} (f : A -> string) (x : A * bool) : list string := if snd x then [f (fst x)] else [].

(** The parts of the message of an error. *)
Definition mentions (e : api_error) : list string :=
  (mention (fun z => ("status is " ++ itoa_z z)%string) (get_status (Some e)) ++
   mention (fun s => ("identifier is '" ++ s ++ "'")%string) (get_id (Some e)) ++
   mention (fun s => ("code is '" ++ s ++ "'")%string) (get_code (Some e)) ++
   mention (fun t => ("at '" ++ match t with Some d => format_rfc3339 d | None => "" end ++ "'")%string) (get_timestamp (Some e)) ++
   mention (fun s => ("operation identifier is '" ++ s ++ "'")%string) (get_operation (Some e)))%list.

(** * The builder *)

(** Something that happens to one attribute of an error, and to nothing else. *)
Inductive change :=
| ChStatus (z : Z) | ChId (s : string) | ChHref (s : string) | ChCode (s : string) | ChReason (s : string) | ChOperation (s : string)
| ChDetails (a : any) | ChTimestamp (d : option date).

(** What the methods of the builder do. *)
Definition changed (c : change) (e r : api_error) : Prop :=
  get_status (Some r) = match c with ChStatus z => (z, true) | _ => get_status (Some e) end /\
  get_id (Some r) = match c with ChId s => (s, true) | _ => get_id (Some e) end /\
  get_href (Some r) = match c with ChHref s => (s, true) | _ => get_href (Some e) end /\
  get_code (Some r) = match c with ChCode s => (s, true) | _ => get_code (Some e) end /\
  get_reason (Some r) = match c with ChReason s => (s, true) | _ => get_reason (Some e) end /\
  get_operation (Some r) = match c with ChOperation s => (s, true) | _ => get_operation (Some e) end /\
  get_details (Some r) = match c with ChDetails a => (a, true) | _ => get_details (Some e) end /\
  get_timestamp (Some r) = match c with ChTimestamp d => (d, true) | _ => get_timestamp (Some e) end.

(** * Replies *)

(** The reply has the given status and the document of an error with the given identifier and reason, and
    nothing else. *)
Definition is_reply (o : oracle) (s : sent) (status : Z) (id reason : string) : Prop :=
  exists l, s = Sent status "application/json" (WOk l) /\
    forall inc, exists r, unmarshal_error o inc l = Ok r [] /\ get_id (Some r) = (id, true) /\ get_reason (Some r) = (reason, true) /\
      snd (get_status (Some r)) = false /\ snd (get_href (Some r)) = false /\ snd (get_code (Some r)) = false /\
      snd (get_operation (Some r)) = false /\ snd (get_details (Some r)) = false /\ snd (get_timestamp (Some r)) = false.
