(** Model of the requests and responses generated by pkg/generators/golang/clients_generator.go, of the functions that write the
    bodies of the requests and read the bodies of the responses, generated by pkg/generators/golang/json_generator.go, and of the
    part of [net/url] that they use.

    The memory of the query parameters and headers is the one of HelpersModel.v; the texts of the JSON documents are converted to
    tokens by the lexer of JsonLexModel.v.  The context, which is only passed to the transport, is omitted. *)
From Coq Require Import Ascii String Bool Arith ZArith NArith List.
From Verif Require Import GoStrings GoMap NamesModel ConceptsModel ReporterModel BindingModel GoNamesModel GoTimeModel ObjectsModel
  TextModel HelpersModel ClientsModel JsonModel JsonTextModel JsonLexModel ApiErrorModel.
Import ListNotations.
Local Open Scope string_scope.

(** * Encoding of queries *)

(** [net/url], [shouldEscape] for the components of queries: the characters that aren't escaped. *)
Definition unreserved (c : ascii) : bool :=
  is_lower c || is_upper c || is_digit c || existsb (Ascii.eqb c) ["-"%char; "_"%char; "."%char; "~"%char].

(** [net/url], the string [upperhex]. *)
Definition upper_hex (n : N) : ascii := ascii_of_N (if N.ltb n 10 then 48 + n else 55 + n).

(** [net/url], [QueryEscape]. *)
Definition query_escape_char (c : ascii) : string :=
  if unreserved c then String c ""
  else if Ascii.eqb c " " then "+"
  else String "%" (String (upper_hex (N_of_ascii c / 16)) (String (upper_hex (N_of_ascii c mod 16)) "")).
Fixpoint query_escape (s : string) : string :=
  match s with
  | EmptyString => EmptyString
  | String c r => query_escape_char c ++ query_escape r
  end.

(** [net/url], [Values.Encode]: the names are sorted. *)
Definition encode_pair (name value : string) : string := query_escape name ++ "=" ++ query_escape value.
Definition encode (q : query) : string :=
  str_join "&"
    (flat_map (fun name => map (encode_pair name) (values_of q name)) (sort (fun a b => Z.ltb (str_compare a b) 0) (map fst q))).

(** * Requests *)

(** The names and the values of a map of the memory; nil is the empty map. *)
Definition entries (h : heap) (q : option nat) : query :=
  match q with
  | None => []
  | Some m => map (fun p => (fst p, slice_values h (snd p))) (map_at h m)
  end.

(** clients_generator.go:784-792: the request of a method.  The transport isn't included; the fields for the parameters are
    identified by their names, and the ones that don't appear are nil.  Fields that are pointers to scalars are represented by
    the scalars. *)
Record request := MkRequest { rq_path : string; rq_query : option nat; rq_header : option nat; rq_fields : list (string * value) }.

(** clients_generator.go:519-528: the methods of the client that create requests. *)
Definition new_request (c : client) (m : method) : request := MkRequest (request_path c m) None None [].

(** The value of a field. *)
Definition field_at (fs : list (string * value)) (n : string) : value := match mget n fs with Some x => x | None => VNil end.

(** clients_generator.go:813-829: the setters of the parameters. *)
Definition set_parameter (p : parameter) (x : value) (r : request) : request :=
  MkRequest (rq_path r) (rq_query r) (rq_header r) (mset (client_field p) x (rq_fields r)).

(** What the client gives to the transport: the method, the path and the encoded query of the URL, the headers and the body, if
    there is one. *)
Record http_request := MkHttpRequest {
  hr_method : string;
  hr_path : string;
  hr_query : string;
  hr_header : list (string * list string);
  hr_body : option string }.

(** What the transport returns: an error; or a response with the status, the headers, the text of the body, and the error that
    is returned after reading that text instead of the end of the file, if any.  Transports that return nil without an error
    aren't considered: they don't respect the contract of [http.RoundTripper]. *)
Inductive reply (E : Type) :=
| TransportFails (e : E)
| Reply (status : Z) (header : list (string * list string)) (body : string) (broken : option E).
Arguments TransportFails {E}.
Arguments Reply {E}.

(** clients_generator.go:932-943: the response of a method. *)
Record response := MkResponse {
  rs_status : Z;
  rs_header : list (string * list string);
  rs_error : option api_error;
  rs_fields : list (string * value) }.

(** The errors that a request can return: the ones of the transport, of writing the body of the request, of the API, of reading
    the body of the response from the transport, and of decoding it. *)
Inductive failure (E : Type) :=
| TransportError (e : E)
| WriteError
| ApiError (e : api_error)
| BodyError (e : E)
| DecodeError.
Arguments TransportError {E}.
Arguments WriteError {E}.
Arguments ApiError {E}.
Arguments BodyError {E}.
Arguments DecodeError {E}.

(** The last parameter with some property. *)
Definition last_parameter (f : parameter -> bool) (l : list parameter) : option parameter :=
  fold_left (fun r p => if f p then Some p else r) l None.

Section Bodies.
  Context (o : oracle) (v : version).

  (** json_generator.go:1398-1436 [generateWriteBodyParameter] for each parameter of an action; [count] is the variable of the
      generated code. *)
  Fixpoint write_parameters (count : nat) (l : list parameter) (fs : list (string * value)) : written :=
    match l with
    | [] => WOk []
    | p :: l =>
        match field_at fs (json_field p) with
        | VNil => write_parameters count l fs
        | x =>
            wcat (if Nat.ltb 0 count then WOk [TComma] else WOk [])
              (wcat (WOk [TStr (body_parameter_name p); TColon])
                (wcat (write_value o v (p_type p) false x) (write_parameters (count + 1) l fs)))
        end
    end.

  (** json_generator.go:884-1264: the functions that write the bodies of the requests.  The parameters that don't exist cause
      errors of the templates, represented here with panics. *)
  Definition write_request (m : method) (fs : list (string * value)) : written :=
    let write_body :=
      match get_parameter nBody m with
      | Some p => write_value o v (p_type p) false (field_at fs "body")
      | None => WPanic
      end in
    if is_add m then write_body
    else if is_delete m || is_async_delete m then WOk []
    else if is_get m then WOk []
    else if is_list_method m then WOk []
    else if is_post m then
      match last_parameter p_in (m_params m) with
      | Some p => write_value o v (p_type p) false (field_at fs (json_field p))
      | None => WOk []
      end
    else if is_search m then
      match last_parameter (fun p => name_equals (Some (p_name p)) (Some nBody)) (m_params m) with
      | Some p => write_value o v (p_type p) false (field_at fs (json_field p))
      | None => WOk []
      end
    else if is_update m || is_async_update m then write_body
    else
      match request_body_params v m with
      | [] => WOk []
      | l => wcat (WOk [TLBrace]) (wcat (write_parameters 0 l fs) (WOk [TRBrace]))
      end.

  (** One of the cases of the switch of the functions that read the bodies: the name of the member, the name of the field, the
      type, and the conversion of the value. *)
  Record case := MkCase { k_tag : string; k_field : string; k_type : key; k_wrap : value -> value }.

  (** json_generator.go:1300-1321 [generateReadBodyParameter] *)
  Definition parameter_case (p : parameter) : case := MkCase (body_parameter_name p) (json_field p) (p_type p) (fun x => x).

  (** json_generator.go:1027-1035: the case of the items of a list; scalars aren't wrapped. *)
  Definition items_case (p : parameter) : case :=
    let scalars :=
      match type_at (p_type p) v with
      | Some t => is_list t && match type_at (elem_key t) v with Some e => is_scalar e | None => false end
      | None => false
      end in
    MkCase "items" "items" (p_type p) (if scalars then (fun x => x) else VList "" false).

  (** The loop of json_generator.go:993-1040, 1127-1174 and 1237-1253; the names of the cases are different in code that
      compiles. *)
  Fixpoint read_cases (n : nat) (cases : list case) (fs : list (string * value)) (l : list token) : result (list (string * value)) :=
    match n with
    | 0 => OutOfFuel
    | S n =>
        rbind (read_key l) (fun f l =>
          if String.eqb f "" then Ok fs l
          else
            match find (fun c => String.eqb f (k_tag c)) cases with
            | Some c =>
                rbind (read_value o v n (k_type c) false l) (fun x l => read_cases n cases (mset (k_field c) (k_wrap c x) fs) l)
            | None => rbind (parse_json n l) (fun _ l => read_cases n cases fs l)
            end)
    end.

  (** json_generator.go:980-993 and 1105-1121: the cases of lists and searches, in the order of the switch. *)
  Definition has_name (n : name) (p : parameter) : bool := name_equals (Some (p_name p)) (Some n).
  Definition list_cases (search : bool) (m : method) : list case :=
    let one n := match last_parameter (has_name n) (m_params m) with Some p => [p] | None => [] end in
    let others :=
      filter (fun p => p_out p &&
        negb (has_name nPage p || has_name nSize p || has_name nTotal p || (search && has_name nBody p) || has_name nItems p)) (m_params m) in
    (map parameter_case (one nPage ++ one nSize ++ one nTotal ++ others) ++ map items_case (one nItems))%list.

  (** json_generator.go:884-1264: the functions that read the bodies of the responses.  The parameters that don't exist cause
      errors of the templates. *)
  Definition read_response (m : method) (l : list token) : result (list (string * value)) :=
    let read_one field p := rbind (read_value o v (S (fuel l)) (p_type p) false l) (fun x r => Ok [(field, x)] r) in
    let read_body := match get_parameter nBody m with Some p => read_one "body" p | None => Failed end in
    if is_add m then read_body
    else if is_delete m || is_async_delete m then Ok [] l
    else if is_get m then read_body
    else if is_list_method m then read_cases (fuel l) (list_cases false m) [] l
    else if is_post m then
      match last_parameter p_out (m_params m) with
      | Some p => read_one (json_field p) p
      | None => Ok [] l
      end
    else if is_search m then read_cases (fuel l) (list_cases true m) [] l
    else if is_update m || is_async_update m then read_body
    else
      match response_body_params m with
      | [] => Ok [] l
      | ps => read_cases (fuel l) (map parameter_case ps) [] l
      end.
End Bodies.

Section Sending.
  (** The state of the world and the errors of the transport. *)
  Context (W E : Type) (transport : W -> http_request -> reply E * W).
  (** The things that the model doesn't define: the ones of JsonModel.v, ApiErrorModel.v and HelpersModel.v, and the texts of
      values of type [interface{}]. *)
  Context (o : oracle) (incomplete : json -> any) (show_float : Z -> string) (show_any : any -> string) (spare : nat).
  Context (v : version).

  (** The value of a parameter, as given to [AddValue]. *)
  Definition param_of (s : scalar) : param :=
    match s with
    | SBool b => PBool b
    | SInt z => PInt z
    | SFloat z => PFloat z
    | SString s => PString s
    | SDate d => PDate d
    | SAny a => PString (show_any a)
    end.

  (** clients_generator.go:842-848: adds the query parameters that aren't nil.  The values of scalar parameters are scalars. *)
  Fixpoint add_parameters (h : heap) (q : option nat) (l : list parameter) (fs : list (string * value)) : heap * option nat :=
    match l with
    | [] => (h, q)
    | p :: l =>
        match field_at fs (client_field p) with
        | VScalar s => let '(h, q) := add_value show_float spare h q (query_parameter_name p) (param_of s) in add_parameters h q l fs
        | _ => add_parameters h q l fs
        end
    end.

  (** The results of sending a request: the response and the error, both possibly nil, the state of the world and of the memory,
      and the requests received by the transport; or a panic. *)
  Inductive sending :=
  | Finished (r : option response) (e : option (failure E)) (w : W) (h : heap) (sent : list http_request)
  | Panicked.

  (** clients_generator.go:877-900: what is done with a response.  The errors of the lexer and of the transport found while
      decoding aren't distinguished. *)
  Definition receive (m : method) (status : Z) (header : list (string * list string)) (body : string) (broken : option E) :
    option response * option (failure E) :=
    let peek := if String.eqb body "" then option_map BodyError broken else None in
    if String.eqb body "" && match broken with None => true | Some _ => false end then (Some (MkResponse status header None []), None)
    else if Z.leb 400 status then
      match unmarshal_error_status o incomplete (lex_text body) status with
      | Ok e _ => (Some (MkResponse status header (Some e) []), Some (ApiError e))
      | _ => (Some (MkResponse status header None []), Some DecodeError)
      end
    else
      match response_params m with
      | [] => (Some (MkResponse status header None []), peek)
      | _ =>
          match read_response o v m (lex_text body) with
          | Ok fs _ => (Some (MkResponse status header None fs), None)
          | _ => (Some (MkResponse status header None []), Some DecodeError)
          end
      end.

  (** clients_generator.go:840-901 [SendContext] *)
  Definition send_context (m : method) (r : request) (h : heap) (w : W) : sending :=
    let '(h, q) := copy_query h (rq_query r) in
    let '(h, q) := add_parameters h q (request_query_params v m) (rq_fields r) in
    let '(h, header) := copy_header h (rq_header r) in
    let send body :=
      let request := MkHttpRequest (http_method m) (rq_path r) (encode (entries h q)) (entries h (Some header)) body in
      match transport w request with
      | (TransportFails e, w) => Finished None (Some (TransportError e)) w h [request]
      | (Reply status hd body broken, w) => let '(rs, e) := receive m status hd body broken in Finished rs e w h [request]
      end in
    match request_body_params v m with
    | [] => send None
    | _ =>
        match write_request o v m (rq_fields r) with
        | WPanic => Panicked
        | WErr => Finished None (Some WriteError) w h []
        | WOk l => send (Some (write_tokens 0 l))
        end
    end.

  (** clients_generator.go:318-331: the request and the response of the metadata. *)
  Record metadata_request := MkMetadataRequest { mr_path : string; mr_query : option nat; mr_header : option nat }.
  Record metadata_response := MkMetadataResponse {
    mp_status : Z;
    mp_header : list (string * list string);
    mp_error : option api_error;
    mp_body : option (N * string) }.

  (** The errors of the request of the metadata: also the end of the file. *)
  Inductive metadata_failure := EndOfFile | Other (e : failure E).

  (** clients_generator.go:354-396 [SendContext]: the response, the error, the state of the world and the requests received by
      the transport.  The variable with the error isn't changed when the body is empty. *)
  Definition send_metadata (r : metadata_request) (h : heap) (w : W) :
    option metadata_response * option metadata_failure * W * heap * list http_request :=
    let '(h, q) := copy_query h (mr_query r) in
    let '(h, header) := copy_header h (mr_header r) in
    let request := MkHttpRequest "GET" (mr_path r) (encode (entries h q)) (entries h (Some header)) None in
    match transport w request with
    | (TransportFails e, w) => (None, Some (Other (TransportError e)), w, h, [request])
    | (Reply status hd body broken, w) =>
        if String.eqb body "" && match broken with None => true | Some _ => false end then
          (Some (MkMetadataResponse status hd None None), Some EndOfFile, w, h, [request])
        else if Z.leb 400 status then
          match unmarshal_error_status o incomplete (lex_text body) status with
          | Ok e _ => (Some (MkMetadataResponse status hd (Some e) None), Some (Other (ApiError e)), w, h, [request])
          | _ => (Some (MkMetadataResponse status hd None None), Some (Other DecodeError), w, h, [request])
          end
        else
          match unmarshal_metadata (lex_text body) with
          | Ok x _ => (Some (MkMetadataResponse status hd None (Some x)), None, w, h, [request])
          | _ => (Some (MkMetadataResponse status hd None None), Some (Other DecodeError), w, h, [request])
          end
    end.

  (** clients_generator.go:677-684: the task of the polling requests, where the state includes the memory.  The panics, that only
      happen with requests that have a body, aren't considered. *)
  Definition poll_task (m : method) (r : request) (x : W * heap) : Z * option response * option (failure E) * (W * heap) :=
    match send_context m r (snd x) (fst x) with
    | Finished (Some rs) e w h _ => (rs_status rs, Some rs, e, (w, h))
    | Finished None e w h _ => (0%Z, None, e, (w, h))
    | Panicked => (0%Z, None, None, x)
    end.

  (** clients_generator.go:604-609: the polling request. *)
  Record poll_request := MkPollRequest {
    pr_request : request;
    pr_interval : Z;
    pr_statuses : list Z;
    pr_predicates : list (response -> bool) }.

  (** clients_generator.go:739-743 [Poll] *)
  Definition new_poll (c : client) (m : method) : poll_request := MkPollRequest (new_request c m) 0 [] [].

  (** clients_generator.go:638-658 [Interval], [Status] and [Predicate] *)
  Definition poll_interval (z : Z) (r : poll_request) : poll_request :=
    MkPollRequest (pr_request r) z (pr_statuses r) (pr_predicates r).
  Definition poll_status (z : Z) (r : poll_request) : poll_request :=
    MkPollRequest (pr_request r) (pr_interval r) (pr_statuses r ++ [z]) (pr_predicates r).
  Definition poll_predicate (f : response -> bool) (r : poll_request) : poll_request :=
    MkPollRequest (pr_request r) (pr_interval r) (pr_statuses r) (pr_predicates r ++ [f]).

  (** clients_generator.go:665-673 [StartContext]: the deadline is the one of the context. *)
  Definition start_context (now : W -> Z) (sleep : Z -> W -> W) (n : nat) (deadline : option Z) (m : method) (r : poll_request) (h : heap) (w : W) :
    option (polled (W * heap) response (failure E)) :=
    poll_context (W * heap) response (failure E) (poll_task m (pr_request r)) (fun x => now (fst x)) (fun z x => (sleep z (fst x), snd x))
      n deadline (pr_interval r) (pr_statuses r) (pr_predicates r) (w, h).
End Sending.

(** clients_generator.go:946-968: the accessors of the responses; [None] is the nil pointer. *)
Definition response_status (r : option response) : Z := match r with Some r => rs_status r | None => 0%Z end.
Definition response_header (r : option response) : list (string * list string) := match r with Some r => rs_header r | None => [] end.
Definition response_error (r : option response) : option api_error := match r with Some r => rs_error r | None => None end.

(** clients_generator.go:978-990: the getter of a parameter that returns only the value; scalars that are nil are replaced by
    the zero value. *)
Definition get_response (v : version) (p : parameter) (r : option response) : value :=
  match r with
  | None => if scalar_in v p then zero_value v (p_type p) else VNil
  | Some r =>
      match field_at (rs_fields r) (client_field p) with
      | VNil => if scalar_in v p then zero_value v (p_type p) else VNil
      | x => x
      end
  end.

(** clients_generator.go:996-1006: the getter of a parameter that returns also a flag; when the flag is false the value is the
    zero value of the Go type. *)
Definition get_response_ok (v : version) (p : parameter) (r : option response) : value * bool :=
  match r with
  | None => (field_zero v (p_type p), false)
  | Some r =>
      match field_at (rs_fields r) (client_field p) with
      | VNil => (field_zero v (p_type p), false)
      | x => (x, true)
      end
  end.
