(** Model of the helper functions of the generated code: the ones generated by
    pkg/generators/golang/helpers_generator.go, and the ones that parse query parameters, generated by
    pkg/generators/golang/json_generator.go. *)
From Coq Require Import Ascii String Bool Arith ZArith NArith List.
From Verif Require Import GoStrings GoMap ReporterModel GoTimeModel.
Import ListNotations.
Local Open Scope string_scope.

(** * Parsing of query parameters *)

(** Values of type [url.Values], as read by the server: the names with their values.  The zero value for
    missing names is an empty list. *)
Definition query := list (string * list string).

Definition values_of (q : query) (name : string) : list string :=
  match mget name q with Some l => l | None => [] end.

(** Results of the functions that parse parameters: nil, a value or an error. *)
Inductive parsed (A : Type) := Missing | Value (x : A) | Invalid (message : string).
Arguments Missing {A}.
Arguments Value {A} x.
Arguments Invalid {A} message.

(** json_generator.go:312-323, 339-350, 364-375, 382-393 and 408-419: the part that is common to all the
    functions. *)
Definition parse_parameter {A : Type} (parse : string -> option A) (article : string) (q : query) (name : string) : parsed A :=
  let values := values_of q name in
  let count := length values in
  if Nat.eqb count 0 then Missing
  else if Nat.ltb 1 count then
    Invalid ("expected at most one value for parameter '" ++ name ++ "' but got " ++ itoa count)
  else
    let value := hd "" values in
    match parse value with
    | Some x => Value x
    | None => Invalid ("value '" ++ value ++ "' isn't valid for the '" ++ name ++ "' parameter because it isn't " ++ article)
    end.

(** json_generator.go:311-334 [ParseInteger]: the type [int] has 64 bits.  The text of the error of
    [strconv] is omitted here and below. *)
Definition parse_integer : query -> string -> parsed Z := parse_parameter parse_int "an integer".

(** json_generator.go:338-360 [ParseFloat]: the function [strconv.ParseFloat] is a parameter. *)
Definition parse_float_parameter (parse_float : string -> option Z) : query -> string -> parsed Z :=
  parse_parameter parse_float "a float".

(** json_generator.go:363-377 [ParseString] *)
Definition parse_string : query -> string -> parsed string := parse_parameter Some "a string".

(** json_generator.go:381-403 [ParseBoolean] *)
Definition parse_boolean : query -> string -> parsed bool := parse_parameter parse_bool "a boolean".

(** json_generator.go:407-429 [ParseDate] *)
Definition parse_date : query -> string -> parsed date := parse_parameter parse_rfc3339 "a date".

(** * Memory *)

(** Slices of strings: nil, or a part of an array; the arrays are identified by numbers. *)
Inductive slice := SliceNil | Slice (array offset len cap : nat).

(** The memory: the arrays of strings and the maps from strings to slices (the types [url.Values] and
    [http.Header]).  Both are identified by their positions in the lists. *)
Record heap := MkHeap { h_arrays : list (list string); h_maps : list (list (string * slice)) }.

Definition array_at (h : heap) (a : nat) : list string := nth a (h_arrays h) [].
Definition map_at (h : heap) (m : nat) : list (string * slice) := nth m (h_maps h) [].

(** The strings of a slice. *)
Definition slice_values (h : heap) (s : slice) : list string :=
  match s with
  | SliceNil => []
  | Slice a off len _ => firstn len (skipn off (array_at h a))
  end.

Definition slice_len (s : slice) : nat := match s with SliceNil => 0 | Slice _ _ n _ => n end.

(** Replaces an element of a list. *)
Fixpoint replace_nth {A : Type} (n : nat) (x : A) (l : list A) : list A :=
  match n, l with
  | _, [] => []
  | 0, _ :: l => x :: l
  | S n, y :: l => y :: replace_nth n x l
  end.

Definition new_array (l : list string) (h : heap) : heap * nat :=
  (MkHeap (h_arrays h ++ [l])%list (h_maps h), length (h_arrays h)).
Definition new_map (h : heap) : heap * nat :=
  (MkHeap (h_arrays h) (h_maps h ++ [[]])%list, length (h_maps h)).
Definition set_array (a : nat) (l : list string) (h : heap) : heap := MkHeap (replace_nth a l (h_arrays h)) (h_maps h).
Definition set_map (m : nat) (l : list (string * slice)) (h : heap) : heap := MkHeap (h_arrays h) (replace_nth m l (h_maps h)).

(** The slice of a name: [m[name]]. *)
Definition lookup (h : heap) (m : nat) (name : string) : slice :=
  match mget name (map_at h m) with Some s => s | None => SliceNil end.

(** The assignment [m[name] = s]. *)
Definition assign (h : heap) (m : nat) (name : string) (s : slice) : heap :=
  set_map m (mset name s (map_at h m)) h.

(** The assignment [s[i] = x]; out of range it panics, and then nothing is changed. *)
Definition slice_set (h : heap) (s : slice) (i : nat) (x : string) : heap :=
  match s with
  | SliceNil => h
  | Slice a off len _ => if Nat.ltb i len then set_array a (replace_nth (off + i) x (array_at h a)) h else h
  end.

(** The function [append] for one string.  When there is no capacity a new array is allocated: the
    parameter [spare] is the additional capacity of the new arrays. *)
Definition slice_append (spare : nat) (h : heap) (s : slice) (x : string) : heap * slice :=
  match s with
  | Slice a off len cap =>
      if Nat.ltb len cap then (set_array a (replace_nth (off + len) x (array_at h a)) h, Slice a off (len + 1) cap)
      else
        let '(h, b) := new_array (slice_values h s ++ [x] ++ repeat "" spare)%list h in
        (h, Slice b 0 (len + 1) (len + 1 + spare))
  | SliceNil =>
      let '(h, b) := new_array (x :: repeat "" spare) h in
      (h, Slice b 0 1 (1 + spare))
  end.

(** helpers_generator.go:202-209 [CopyValues]: a new array of the length of the slice. *)
Definition copy_values (h : heap) (s : slice) : heap * slice :=
  match s with
  | SliceNil => (h, SliceNil)
  | Slice _ _ len _ => let '(h, b) := new_array (slice_values h s) h in (h, Slice b 0 len len)
  end.

(** helpers_generator.go:172-174 and 190-192: the loop that copies the entries.  The order of the
    iteration isn't relevant because the names are different. *)
Fixpoint copy_entries (h : heap) (target : nat) (l : list (string * slice)) : heap :=
  match l with
  | [] => h
  | (name, s) :: l =>
      let '(h, s) := copy_values h s in
      copy_entries (assign h target name s) target l
  end.

(** helpers_generator.go:167-176 [CopyQuery]: nil for nil. *)
Definition copy_query (h : heap) (q : option nat) : heap * option nat :=
  match q with
  | None => (h, None)
  | Some m => let '(h', r) := new_map h in (copy_entries h' r (map_at h m), Some r)
  end.

(** helpers_generator.go:188-194 [CopyHeader]: an empty map for nil. *)
Definition copy_header (h : heap) (q : option nat) : heap * nat :=
  let '(h', r) := new_map h in
  (match q with
   | None => h'
   | Some m => copy_entries h' r (map_at h m)
   end, r).

(** [url.Values.Add]: [m[name] = append(m[name], x)]. *)
Definition values_add (spare : nat) (h : heap) (m : nat) (name x : string) : heap :=
  let '(h, s) := slice_append spare h (lookup h m name) x in assign h m name s.

(** The characters of header names: the token characters of RFC 7230. *)
Definition is_token_char (c : ascii) : bool :=
  is_lower c || is_upper c || is_digit c || existsb (Ascii.eqb c)
    ["!"%char; "#"%char; "$"%char; "%"%char; "&"%char; "'"%char; "*"%char; "+"%char; "-"%char; "."%char; "^"%char; "_"%char; "`"%char;
     "|"%char; "~"%char].

(** Loop of [textproto.CanonicalMIMEHeaderKey]: upper case at the start and after a dash, lower case
    anywhere else. *)
Fixpoint canonical_from (upper : bool) (s : string) : string :=
  match s with
  | "" => ""
  | String c r => String (if upper then to_upper c else to_lower c) (canonical_from (Ascii.eqb c "-") r)
  end.

(** [textproto.CanonicalMIMEHeaderKey]: names with other characters aren't changed. *)
Definition canonical_key (s : string) : string := if str_all is_token_char s then canonical_from true s else s.

(** [http.Header.Add] *)
Definition header_add (spare : nat) (h : heap) (m : nat) (name x : string) : heap :=
  values_add spare h m (canonical_key name) x.

(** * Text of the values of the parameters *)

(** The day after and the day before a given one. *)
Definition next_day (d : date) : date :=
  if Z.ltb (d_day d) (days_in (d_year d) (d_month d)) then
    MkDate (d_year d) (d_month d) (d_day d + 1) (d_hour d) (d_minute d) (d_second d) (d_nano d) (d_offset d)
  else if Z.ltb (d_month d) 12 then
    MkDate (d_year d) (d_month d + 1) 1 (d_hour d) (d_minute d) (d_second d) (d_nano d) (d_offset d)
  else MkDate (d_year d + 1) 1 1 (d_hour d) (d_minute d) (d_second d) (d_nano d) (d_offset d).
Definition previous_day (d : date) : date :=
  if Z.ltb 1 (d_day d) then
    MkDate (d_year d) (d_month d) (d_day d - 1) (d_hour d) (d_minute d) (d_second d) (d_nano d) (d_offset d)
  else if Z.ltb 1 (d_month d) then
    MkDate (d_year d) (d_month d - 1) (days_in (d_year d) (d_month d - 1)) (d_hour d) (d_minute d) (d_second d) (d_nano d) (d_offset d)
  else MkDate (d_year d - 1) 12 31 (d_hour d) (d_minute d) (d_second d) (d_nano d) (d_offset d).

(** Moves a date a number of days. *)
Definition shift_days (k : Z) (d : date) : date :=
  if Z.leb 0 k then Nat.iter (Z.to_nat k) next_day d else Nat.iter (Z.to_nat (- k)) previous_day d.

(** [Time.UTC] *)
Definition utc (d : date) : date :=
  let s := (d_hour d * 3600 + d_minute d * 60 + d_second d - d_offset d)%Z in
  let r := (s mod 86400)%Z in
  let e := shift_days (s / 86400) d in
  MkDate (d_year e) (d_month e) (d_day e) (r / 3600) (r / 60 mod 60) (r mod 60) (d_nano e) 0.

(** The values of the parameters; numbers of type [float64] are represented by their bits. *)
Inductive param :=
| PBool (b : bool)
| PInt (z : Z)
| PFloat (bits : Z)
| PString (s : string)
| PDate (d : date).

(** helpers_generator.go:156-162: the text of a value: dates are converted to UTC and formatted, and
    anything else is formatted with the verb [%v].  The format of numbers of type [float64] is a
    parameter. *)
Definition param_text (show_float : Z -> string) (p : param) : string :=
  match p with
  | PDate d => format_rfc3339 (utc d)
  | PBool b => if b then "true" else "false"
  | PInt z => itoa_z z
  | PFloat z => show_float z
  | PString s => s
  end.

(** helpers_generator.go:152-164 [AddValue]: the map is created if needed; returns the new value of the
    variable. *)
Definition add_value (show_float : Z -> string) (spare : nat) (h : heap) (q : option nat) (name : string) (p : param) : heap * option nat :=
  let '(h, m) := match q with Some m => (h, m) | None => new_map h end in
  (values_add spare h m name (param_text show_float p), Some m).

(** helpers_generator.go:180-185 [AddHeader]; the text is the result of formatting the value with the verb
    [%v]. *)
Definition add_header (spare : nat) (h : heap) (q : option nat) (name text : string) : heap * option nat :=
  let '(h, m) := match q with Some m => (h, m) | None => new_map h end in
  (header_add spare h m name text, Some m).

(** helpers_generator.go:196-199 [AddImpersonationHeader] *)
Definition add_impersonation_header (spare : nat) (h : heap) (q : option nat) (user : string) : heap * option nat :=
  add_header spare h q "Impersonate-User" user.

(** * Segments of paths *)

(** helpers_generator.go:212-220 [Segments]: the two loops remove the leading and trailing slashes. *)
Definition is_slash (c : ascii) : bool := Ascii.eqb c "/".
Definition segments (path : string) : list string :=
  str_split "/" (trim_right_func is_slash (trim_left_func is_slash path)).

(** * Polling *)

Section Polling.
  (** The state of the world, the results of the task and the errors. *)
  Context (W R E : Type).
  (** The task, that returns a status code, a result that may be nil and an error that may be nil. *)
  Context (task : W -> Z * option R * option E * W).
  (** The clock and [time.Sleep]. *)
  Context (now : W -> Z) (sleep : Z -> W -> W).

  (** helpers_generator.go:284-291 [evalStatus] *)
  Fixpoint eval_status (expected : list Z) (actual : Z) : bool :=
    match expected with
    | [] => false
    | current :: l => if Z.eqb actual current then true else eval_status l actual
    end.

  (** helpers_generator.go:298-302: the loop of the predicates. *)
  Fixpoint eval_loop (predicates : list (R -> bool)) (r : R) : bool :=
    match predicates with
    | [] => true
    | p :: l => if negb (p r) then false else eval_loop l r
    end.

  (** helpers_generator.go:294-304 [evalPredicates]: nil doesn't satisfy any predicate. *)
  Definition eval_predicates (predicates : list (R -> bool)) (object : option R) : bool :=
    match object with
    | None => Nat.eqb (length predicates) 0
    | Some r => eval_loop predicates r
    end.

  (** Results of polling: the result and the error of the function, and the state of the world at the
      start of each call of the task and at the end. *)
  Record polled := MkPolled { p_result : option R; p_error : option (E + string); p_starts : list W; p_final : W }.

  (** helpers_generator.go:254-278: the loop; [None] when the fuel isn't enough. *)
  Fixpoint poll_loop (n : nat) (deadline interval : Z) (statuses : list Z) (predicates : list (R -> bool)) (w : W) : option polled :=
    match n with
    | 0 => None
    | S n =>
        let '(status, result, err, w') := task w in
        let done := Some (MkPolled result (option_map inl err) [w] w') in
        if (match err with Some _ => true | None => false end) && Z.eqb status 0 then done
        else if eval_status statuses status && eval_predicates predicates result then done
        else if Z.ltb deadline (now w' + interval) then done
        else
          match poll_loop n deadline interval statuses predicates (sleep interval w') with
          | Some r => Some (MkPolled (p_result r) (p_error r) (w :: p_starts r) (p_final r))
          | None => None
          end
    end.

  (** helpers_generator.go:224-281 [PollContext]; the deadline is the one of the context. *)
  Definition poll_context (n : nat) (deadline : option Z) (interval : Z) (statuses : list Z) (predicates : list (R -> bool)) (w : W) :
    option polled :=
    match deadline with
    | None => Some (MkPolled None (Some (inr "context deadline is mandatory")) [] w)
    | Some d =>
        if Z.leb interval 0 then Some (MkPolled None (Some (inr "interval must be greater than zero")) [] w)
        else poll_loop n d interval (if Nat.eqb (length statuses) 0 then [200%Z] else statuses) predicates w
    end.
End Polling.

Arguments p_result {W R E}.
Arguments p_error {W R E}.
Arguments p_starts {W R E}.
Arguments p_final {W R E}.
