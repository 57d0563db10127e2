(** Model of the common errors code generated by pkg/generators/golang/errors_generator.go:182-721: the
    type that represents the errors of the API, its builder, its JSON support and the functions that send
    errors to clients.  The tokens of the JSON documents and the functions of jsoniter are in JsonModel.v. *)
From Coq Require Import Ascii String Bool Arith ZArith NArith List.
From Verif Require Import GoStrings GoMap ReporterModel GoTimeModel ObjectsModel JsonModel.
Import ListNotations.
Local Open Scope string_scope.

(** errors_generator.go:190-213: the types [Error] and [ErrorBuilder], which have the same fields.  The
    details are limited to the values that the reader produces; [None] is a nil timestamp. *)
Record api_error := MkApiError {
  e_bits : N;
  e_status : Z;
  e_id : string;
  e_href : string;
  e_code : string;
  e_reason : string;
  e_details : any;
  e_operation : string;
  e_timestamp : option date }.

(** * The builder *)

(** errors_generator.go:216-218 [NewError] *)
Definition new_error : api_error := MkApiError 0 0 "" "" "" "" ANil "" None.

(** errors_generator.go:221-274: the methods of the builder. *)
Definition set_status (z : Z) (b : api_error) : api_error :=
  MkApiError (set_bit (e_bits b) 1) z (e_id b) (e_href b) (e_code b) (e_reason b) (e_details b) (e_operation b) (e_timestamp b).
Definition set_id (s : string) (b : api_error) : api_error :=
  MkApiError (set_bit (e_bits b) 2) (e_status b) s (e_href b) (e_code b) (e_reason b) (e_details b) (e_operation b) (e_timestamp b).
Definition set_href (s : string) (b : api_error) : api_error :=
  MkApiError (set_bit (e_bits b) 4) (e_status b) (e_id b) s (e_code b) (e_reason b) (e_details b) (e_operation b) (e_timestamp b).
Definition set_code (s : string) (b : api_error) : api_error :=
  MkApiError (set_bit (e_bits b) 8) (e_status b) (e_id b) (e_href b) s (e_reason b) (e_details b) (e_operation b) (e_timestamp b).
Definition set_reason (s : string) (b : api_error) : api_error :=
  MkApiError (set_bit (e_bits b) 16) (e_status b) (e_id b) (e_href b) (e_code b) s (e_details b) (e_operation b) (e_timestamp b).
Definition set_operation (s : string) (b : api_error) : api_error :=
  MkApiError (set_bit (e_bits b) 32) (e_status b) (e_id b) (e_href b) (e_code b) (e_reason b) (e_details b) s (e_timestamp b).
Definition set_details (a : any) (b : api_error) : api_error :=
  MkApiError (set_bit (e_bits b) 64) (e_status b) (e_id b) (e_href b) (e_code b) (e_reason b) a (e_operation b) (e_timestamp b).
Definition set_timestamp (d : option date) (b : api_error) : api_error :=
  MkApiError (set_bit (e_bits b) 128) (e_status b) (e_id b) (e_href b) (e_code b) (e_reason b) (e_details b) (e_operation b) d.

(** errors_generator.go:278-292 [Copy] *)
Definition copy_error (b : api_error) (e : option api_error) : api_error :=
  match e with
  | None => b
  | Some e => MkApiError (e_bits e) (e_status e) (e_id e) (e_href e) (e_code e) (e_reason e) (e_details e) (e_operation e) (e_timestamp e)
  end.

(** errors_generator.go:295-308 [Build], which never fails. *)
Definition build_error (b : api_error) : api_error :=
  MkApiError (e_bits b) (e_status b) (e_id b) (e_href b) (e_code b) (e_reason b) (e_details b) (e_operation b) (e_timestamp b).

(** * The accessors; [None] is the nil pointer *)

(** errors_generator.go:311-316 [Kind] *)
Definition error_kind (e : option api_error) : string := match e with None => "ErrorNil" | Some _ => "Error" end.

(** The pattern of all the methods that return a value and a flag. *)
Definition getter {A : Type} (mask : Z) (field : api_error -> A) (zero : A) (e : option api_error) : A * bool :=
  match e with
  | Some e => if has_bit (e_bits e) mask then (field e, true) else (zero, false)
  | None => (zero, false)
  end.

(** errors_generator.go:328-334, 346-352, 364-370, 382-388, 400-406, 418-424, 436-442 and 454-460 *)
Definition get_status : option api_error -> Z * bool := getter 1 e_status 0%Z.
Definition get_id : option api_error -> string * bool := getter 2 e_id "".
Definition get_href : option api_error -> string * bool := getter 4 e_href "".
Definition get_code : option api_error -> string * bool := getter 8 e_code "".
Definition get_reason : option api_error -> string * bool := getter 16 e_reason "".
Definition get_operation : option api_error -> string * bool := getter 32 e_operation "".
Definition get_details : option api_error -> any * bool := getter 64 e_details ANil.
Definition get_timestamp : option api_error -> option date * bool := getter 128 e_timestamp None.

(** The pattern of the methods that return only the value, errors_generator.go:319-324, 337-342, 355-360,
    373-378, 391-396, 409-414, 427-432 and 445-450.  Only the one for the identifier is used by other
    functions. *)
Definition plain_getter {A : Type} (mask : Z) (field : api_error -> A) (zero : A) (e : option api_error) : A :=
  match e with
  | Some e => if has_bit (e_bits e) mask then field e else zero
  | None => zero
  end.
Definition error_status : option api_error -> Z := plain_getter 1 e_status 0%Z.
Definition error_id : option api_error -> string := plain_getter 2 e_id "".
Definition error_href : option api_error -> string := plain_getter 4 e_href "".
Definition error_code : option api_error -> string := plain_getter 8 e_code "".
Definition error_reason : option api_error -> string := plain_getter 16 e_reason "".
Definition error_operation : option api_error -> string := plain_getter 32 e_operation "".
Definition error_details : option api_error -> any := plain_getter 64 e_details ANil.
Definition error_timestamp : option api_error -> option date := plain_getter 128 e_timestamp None.

(** * The message *)

(** errors_generator.go:466-480: the chunks of the message; [None] is the panic caused by a nil timestamp. *)
Definition error_chunks (e : api_error) : option (list string) :=
  let chunks := [] in
  let chunks := if has_bit (e_bits e) 1 then app chunks ["status is " ++ itoa_z (e_status e)] else chunks in
  let chunks := if has_bit (e_bits e) 2 then app chunks ["identifier is '" ++ e_id e ++ "'"] else chunks in
  let chunks := if has_bit (e_bits e) 8 then app chunks ["code is '" ++ e_code e ++ "'"] else chunks in
  match
    (if has_bit (e_bits e) 128 then
       match e_timestamp e with
       | Some d => Some (app chunks ["at '" ++ format_rfc3339 d ++ "'"])
       | None => None
       end
     else Some chunks)
  with
  | None => None
  | Some chunks =>
      Some (if has_bit (e_bits e) 32 then app chunks ["operation identifier is '" ++ e_operation e ++ "'"] else chunks)
  end.

(** errors_generator.go:464-498 [Error]; [None] is a panic. *)
Definition error_message (e : api_error) : option string :=
  match error_chunks e with
  | None => None
  | Some chunks =>
      let size := length chunks in
      let result :=
        if Nat.eqb size 1 then nth 0 chunks ""
        else if Nat.ltb 1 size then str_join ", " (firstn (size - 1) chunks) ++ " and " ++ nth (size - 1) chunks ""
        else "" in
      let result :=
        if has_bit (e_bits e) 16 then
          (if negb (String.eqb result "") then result ++ ": " else result) ++ e_reason e
        else result in
      Some (if String.eqb result "" then "unknown error" else result)
  end.

(** * JSON *)

(** The digits of the fraction of a second, without trailing zeros: [rest] is what remains, less than ten
    times [scale]. *)
Fixpoint fraction_digits (n : nat) (scale rest : Z) : string :=
  match n with
  | 0 => ""
  | S n => if Z.eqb rest 0 then "" else String (digit (rest / scale)) (fraction_digits n (scale / 10) (rest mod scale))
  end.

(** The layout [time.RFC3339Nano]: like [time.RFC3339], with the fraction of the second after a dot if it
    isn't zero. *)
Definition format_rfc3339_nano (d : date) : string :=
  four_digits (d_year d) ++ "-" ++ two_digits (d_month d) ++ "-" ++ two_digits (d_day d) ++ "T" ++
  two_digits (d_hour d) ++ ":" ++ two_digits (d_minute d) ++ ":" ++ two_digits (d_second d) ++
  (if Z.eqb (d_nano d) 0 then "" else "." ++ fraction_digits 9 100000000 (d_nano d)) ++
  (if Z.eqb (d_offset d) 0 then "Z"
   else
     let o := (Z.abs (Z.quot (d_offset d) 60))%Z in
     (if Z.ltb (Z.quot (d_offset d) 60) 0 then "-" else "+") ++ two_digits (o / 60) ++ ":" ++ two_digits (o mod 60)).

(** [stream.WriteVal] for a pointer to a date, which uses [Time.MarshalJSON]: years with more than four
    digits are errors. *)
Definition write_timestamp (d : option date) : written :=
  match d with
  | None => WOk [TNull]
  | Some d => if Z.ltb (d_year d) 0 || Z.leb 10000 (d_year d) then WErr else WOk [TStr (format_rfc3339_nano d)]
  end.

(** The pattern of the optional members: the separator, the name and the value. *)
Definition write_member (present : bool) (name : string) (w : written) : written :=
  if present then wcat (WOk [TComma]) (wcat (WOk [TStr name; TColon]) w) else WOk [].

(** errors_generator.go:584-629 [writeError]; [None] is the nil pointer. *)
Definition write_error (o : oracle) (e : option api_error) : written :=
  match e with
  | None => WPanic
  | Some e =>
      wcat (WOk [TLBrace; TStr "kind"; TColon; TStr "Error"])
        (wcat (write_member (has_bit (e_bits e) 1) "status" (WOk [TNum (itoa_z (e_status e))]))
        (wcat (write_member (has_bit (e_bits e) 2) "id" (WOk [TStr (e_id e)]))
        (wcat (write_member (has_bit (e_bits e) 4) "href" (WOk [TStr (e_href e)]))
        (wcat (write_member (has_bit (e_bits e) 8) "code" (WOk [TStr (e_code e)]))
        (wcat (write_member (has_bit (e_bits e) 16) "reason" (WOk [TStr (e_reason e)]))
        (wcat (write_member (has_bit (e_bits e) 32) "operation_id" (WOk [TStr (e_operation e)]))
        (wcat (write_member (has_bit (e_bits e) 64) "details" (write_any o (e_details e)))
        (wcat (write_member (has_bit (e_bits e) 128) "timestamp" (write_timestamp (e_timestamp e)))
          (WOk [TRBrace])))))))))
  end.

Section ReadError.
  (** The result of [ReadAny().GetInterface()] when some number isn't valid: that error isn't detected, and
      the value isn't modelled. *)
  Context (o : oracle) (incomplete : json -> any).

  (** errors_generator.go:529-571: the loop of [readError]. *)
  Fixpoint read_error_loop (n : nat) (e : api_error) (l : list token) {struct n} : result api_error :=
    match n with
    | 0 => OutOfFuel
    | S n =>
        rbind (read_key l) (fun f l =>
          if String.eqb f "" then Ok e l
          else if String.eqb f "status" then rbind (read_int l) (fun z l => read_error_loop n (set_status z e) l)
          else if String.eqb f "id" then rbind (read_string l) (fun s l => read_error_loop n (set_id s e) l)
          else if String.eqb f "href" then rbind (read_string l) (fun s l => read_error_loop n (set_href s e) l)
          else if String.eqb f "code" then rbind (read_string l) (fun s l => read_error_loop n (set_code s e) l)
          else if String.eqb f "reason" then rbind (read_string l) (fun s l => read_error_loop n (set_reason s e) l)
          else if String.eqb f "operation_id" then rbind (read_string l) (fun s l => read_error_loop n (set_operation s e) l)
          else if String.eqb f "details" then
            rbind (parse_json n l) (fun j l =>
              read_error_loop n (set_details (match any_of o j with Some a => a | None => incomplete j end) e) l)
          else if String.eqb f "timestamp" then
            rbind (read_string l) (fun s l =>
              match parse_rfc3339 s with Some d => read_error_loop n (set_timestamp (Some d) e) l | None => Failed end)
          else rbind (parse_json n l) (fun _ l => read_error_loop n e l))
    end.

  (** errors_generator.go:507-515 [UnmarshalError] *)
  Definition unmarshal_error (l : list token) : result api_error := read_error_loop (fuel l) new_error l.

  (** errors_generator.go:519-527 [UnmarshalErrorStatus] *)
  Definition unmarshal_error_status (l : list token) (status : Z) : result api_error :=
    rbind (unmarshal_error l) (fun e l => Ok (set_status status e) l).
End ReadError.

(** * Sending errors *)

(** What the client receives: the status code, the content type and the body; or a panic of the handler,
    caused by [WriteHeader] when the status isn't valid.  Status codes less than 200 aren't different, as in
    versions of Go before 1.19. *)
Inductive sent := Sent (status : Z) (content_type : string) (body : written) | SendPanics.

(** [http.ResponseWriter.WriteHeader] panics if the status code doesn't have three digits. *)
Definition valid_status (z : Z) : bool := Z.leb 100 z && Z.leb z 999.

(** errors_generator.go:631-636 *)
Definition panic_error : api_error :=
  build_error (set_reason "An unexpected error happened, please check the log of the service for details" (set_id "1000" new_error)).

(** errors_generator.go:658-668 [SendPanic]: the status isn't set, so it is the default one. *)
Definition send_panic (o : oracle) : sent := Sent 200 "application/json" (write_error o (Some panic_error)).

(** errors_generator.go:641-654 [SendError]; messages sent to the log are omitted. *)
Definition send_error (o : oracle) (e : option api_error) : sent :=
  match parse_int (error_id e) with
  | None => send_panic o
  | Some status => if valid_status status then Sent status "application/json" (write_error o e) else SendPanics
  end.

(** errors_generator.go:671-685 [SendNotFound] *)
Definition send_not_found (o : oracle) (path : string) : sent :=
  send_error o (Some (build_error (set_reason ("Can't find resource for path '" ++ path ++ "'") (set_id "404" new_error)))).

(** errors_generator.go:688-702 [SendMethodNotAllowed] *)
Definition send_method_not_allowed (o : oracle) (method path : string) : sent :=
  send_error o (Some (build_error (set_reason ("Method '" ++ method ++ "' isn't supported for path '" ++ path ++ "'") (set_id "405" new_error)))).

(** errors_generator.go:705-720 [SendInternalServerError] *)
Definition send_internal_server_error (o : oracle) (method path : string) : sent :=
  send_error o (Some (build_error
    (set_reason ("Can't process '" ++ method ++ "' request for path '" ++ path ++ "' due to an internal" ++ "server error") (set_id "500" new_error)))).
