(** Properties of the requests sent by the generated clients, and of what they do with the responses. *)
From Coq Require Import Ascii String Bool Arith ZArith NArith List.
From Verif Require Import GoStrings GoMap ReporterModel NamesModel ConceptsModel BindingModel BindingSpec GoNamesModel GoTimeModel ObjectsModel ObjectsSpec ObjectsExamples
  HelpersModel HelpersSpec HelpersExamples ClientsModel JsonModel JsonSpec JsonProofs JsonExamples JsonTextModel JsonTextSpec JsonLexModel JsonLexProofs ApiErrorModel ApiErrorSpec
  ApiErrorExamples ChecksSpec RequestModel RequestSpec RequestProofs RequestProofs5 RequestProofs6 RequestProofs7 RequestExamples.
Import ListNotations.
Local Open Scope string_scope.
Local Notation encode := RequestModel.encode.

(** C40: sending a request performs one HTTP request with the method, path, headers and query parameters that were set, unless the body cannot be written; the maps of the request are not changed. *)
Theorem C40_requests : forall (W E : Type) (transport : W -> http_request -> reply E * W) (o : oracle) (incomplete : json -> any)
    (show_float : Z -> string) (show_any : any -> string) (spare : nat) (v : version) m r h w rs e w' h' sent,
  request_valid h r -> send_context W E transport o incomplete show_float show_any spare v m r h w = Finished W E rs e w' h' sent ->
  preserves h h' /\
  ((sent = [] /\ w' = w /\ rs = None /\ e = Some WriteError /\ request_body_params v m <> []) \/
   exists q l, sent = [q] /\ w' = snd (transport w q) /\ hr_method q = http_method m /\ hr_path q = rq_path r /\
     hr_header q = entries h (rq_header r) /\ parse_query (hr_query q) = Some l /\
     (forall n, named n l = (values_in h (rq_query r) n ++ if is_action m then [] else parameter_texts show_float show_any v (rq_fields r) n (m_params m))%list) /\
     (hr_body q = None <-> request_body_params v m = [])).
Proof. exact request_sent. Qed.
Print Assumptions C40_requests.

Example C40_list_request : exists rs h',
  ex_send (Reply 200 [("Content-Type", ["application/json"])] (write_tokens 0 (tokens (JObj ex_answer))) None) ex_list ex_list_request =
    Finished nat string rs None 1 h' [MkHttpRequest "GET" "/api/things" "Accept=x&page=2&size=a&size=b" [] None] /\
  ~ action ex_list /\ snd (get_response_ok ex_v ex_items_param rs) = true /\ get_response ex_v ex_page_param rs = VScalar (SInt 2) /\
  snd (get_response_ok ex_v ex_size_param rs) = false.
Proof. exact ex_list_sent. Qed.
Example C40_valid : request_valid ex_heap ex_get_request /\ request_valid ex_heap ex_list_request.
Proof. split; apply ex_request_valid; cbn; auto. Qed.

(** The result depends only on what the server returns: transport errors are returned, an empty body is not an error, and for the other bodies the status decides if they are decoded as an error or as the parameters of the response. *)
Theorem C40_outcomes : forall (W E : Type) (transport : W -> http_request -> reply E * W) (o : oracle) (incomplete : json -> any)
    (show_float : Z -> string) (show_any : any -> string) (spare : nat) (v : version) m r h w rs e w' h' q,
  request_valid h r -> send_context W E transport o incomplete show_float show_any spare v m r h w = Finished W E rs e w' h' [q] ->
  match fst (transport w q) with
  | TransportFails x => rs = None /\ e = Some (TransportError x)
  | Reply s hd b br =>
      exists p, rs = Some p /\ rs_status p = s /\ rs_header p = hd /\
      (b = "" -> br = None -> e = None /\ rs_error p = None /\ rs_fields p = []) /\
      (b <> "" \/ br <> None -> (400 <= s)%Z -> rs_fields p = [] /\
        ((exists a, e = Some (ApiError a) /\ rs_error p = Some a /\ get_status (Some a) = (s, true)) \/
         (e = Some DecodeError /\ rs_error p = None))) /\
      ((s < 400)%Z -> rs_error p = None /\
        (e = None \/ (e = Some DecodeError /\ rs_fields p = []) \/
         (exists x, e = Some (BodyError x) /\ br = Some x /\ b = "" /\ rs_fields p = [])))
  end.
Proof. exact outcome. Qed.
Print Assumptions C40_outcomes.

(** The errors that the server writes are returned to the caller. *)
Theorem C40_api_errors : forall (W E : Type) (transport : W -> http_request -> reply E * W) (o : oracle) (incomplete : json -> any)
    (show_float : Z -> string) (show_any : any -> string) (spare : nat) (v : version) m r h w rs e w' h' q s hd e0 l br,
  faithful o -> error_typed e0 -> error_lossless e0 -> write_error o (Some e0) = WOk l -> (400 <= s)%Z ->
  request_valid h r -> send_context W E transport o incomplete show_float show_any spare v m r h w = Finished W E rs e w' h' [q] ->
  fst (transport w q) = Reply s hd (write_tokens 0 l) br ->
  exists a, e = Some (ApiError a) /\ response_error rs = Some a /\ response_status rs = s /\ response_header rs = hd /\
    get_status (Some a) = (s, true) /\ same_but_status e0 a.
Proof. exact api_error_received. Qed.
Print Assumptions C40_api_errors.

Example C40_not_found : error_typed ex_error /\ error_lossless ex_error /\ write_error ex_oracle (Some ex_error) = WOk ex_error_document /\ exists rs a h' q,
  ex_send (Reply 404 [] (write_tokens 0 ex_error_document) None) ex_get ex_get_request = Finished nat string rs (Some (ApiError a)) 1 h' [q] /\
  fst (get_id (Some a)) = "404".
Proof. exact (conj ex_error_typed (conj ex_error_lossless (conj ex_error_written ex_error_received))). Qed.

(** The errors that have an empty body aren't reported. *)
Theorem C40_empty_errors_refuted : exists m r h' q, request_valid ex_heap r /\
  ex_send (Reply 500 [] "" None) m r = Finished nat string (Some (MkResponse 500 [] None [])) None 1 h' [q].
Proof. exact empty_error. Qed.
Print Assumptions C40_empty_errors_refuted.

(** When the body is one value the getter of the response returns it. *)
Theorem C40_decoded_values : forall (W E : Type) (transport : W -> http_request -> reply E * W) (o : oracle) (incomplete : json -> any)
    (show_float : Z -> string) (show_any : any -> string) (spare : nat) (v : version), standard v -> compiles v -> faithful o -> forall m r h w rs e w' h' q s hd b br p x j,
  response_whole m p -> In p (m_params m) -> p_out p = true -> ~ In (go_private (p_name p)) ["err"; "status"] ->
  request_valid h r -> send_context W E transport o incomplete show_float show_any spare v m r h w = Finished W E rs e w' h' [q] ->
  fst (transport w q) = Reply s hd b br -> (s < 400)%Z -> json_document b j -> represents o v (p_type p) x j ->
  e = None /\ response_status rs = s /\ response_header rs = hd /\ response_error rs = None /\
  exists y, get_response v p rs = y /\ get_response_ok v p rs = (y, true) /\ same v (p_type p) false x y.
Proof. exact whole_received. Qed.
Print Assumptions C40_decoded_values.

(** When the body is an object the getters return the members of that object. *)
Theorem C40_decoded_members : forall (W E : Type) (transport : W -> http_request -> reply E * W) (o : oracle) (incomplete : json -> any)
    (show_float : Z -> string) (show_any : any -> string) (spare : nat) (v : version), standard v -> compiles v -> faithful o -> forall m r h w rs e w' h' q s hd b br ms,
  response_object m -> separable m -> response_params m <> [] -> clean (JObj ms) -> NoDup (map fst ms) ->
  (forall p f j, response_parameter m p -> member_for m p f -> In (f, j) ms -> exists x, represents o v (p_type p) x j) ->
  request_valid h r -> send_context W E transport o incomplete show_float show_any spare v m r h w = Finished W E rs e w' h' [q] ->
  fst (transport w q) = Reply s hd b br -> (s < 400)%Z -> json_document b (JObj ms) ->
  e = None /\ response_status rs = s /\ response_header rs = hd /\ response_error rs = None /\
  forall p f, response_parameter m p -> member_for m p f -> ~ In (go_private (p_name p)) ["err"; "status"] ->
    (forall j x, In (f, j) ms -> represents o v (p_type p) x j ->
      exists y z, get_response v p rs = z /\ get_response_ok v p rs = (z, true) /\ same v (p_type p) false x y /\ received v m p y z) /\
    (~ In f (map fst ms) -> snd (get_response_ok v p rs) = false).
Proof. exact object_received. Qed.
Print Assumptions C40_decoded_members.

Example C40_get : response_whole ex_get (ex_param "Body" "thing" false true) /\ represents ex_oracle ex_v "thing" (VObject ex_object) ex_json /\
  json_document ex_text ex_json /\ exists rs h' q,
  ex_send (Reply 200 [] ex_text None) ex_get ex_get_request = Finished nat string rs None 1 h' [q] /\
  hr_path q = "/api/things/1 2" /\ hr_query q = "Accept=x&size=a&size=b" /\ hr_header q = [("none", []); ("empty", [])] /\
  snd (get_response_ok ex_v (ex_param "Body" "thing" false true) rs) = true.
Proof. exact (conj (proj1 ex_get_whole) (conj ex_thing_represented (conj ex_text_document ex_get_received))). Qed.
Example C40_list_response : standard ex_v /\ compiles ex_v /\ faithful ex_oracle /\ response_object ex_list /\ separable ex_list /\ clean (JObj ex_answer) /\
  NoDup (map fst ex_answer) /\ json_document (write_tokens 0 (tokens (JObj ex_answer))) (JObj ex_answer) /\
  forall p f j, response_parameter ex_list p -> member_for ex_list p f -> In (f, j) ex_answer -> exists x, represents ex_oracle ex_v (p_type p) x j.
Proof.
  exact (conj ex_standard (conj ex_compiles (conj ex_faithful (conj ex_list_object (conj ex_list_separable (conj ex_answer_clean (conj ex_answer_nodup
    (conj ex_answer_document ex_answer_represented)))))))).
Qed.

(** The parameters whose Go name is one of the fields of the response are lost. *)
Theorem C40_field_names_refuted : exists m p rs h' q, response_parameter m p /\ body_parameter_name p = "status" /\
  ex_send (Reply 200 [] "{""status"":""ready""}" None) m ex_act_request = Finished nat string rs None 1 h' [q] /\ snd (get_response_ok ex_v p rs) = false.
Proof. exact lost_status. Qed.
Print Assumptions C40_field_names_refuted.

(** When the body of the request is one value the text that is sent is a JSON document that shows it. *)
Theorem C40_bodies : forall (W E : Type) (transport : W -> http_request -> reply E * W) (o : oracle) (incomplete : json -> any)
    (show_float : Z -> string) (show_any : any -> string) (spare : nat) (v : version), standard v -> compiles v -> faithful o -> forall m r h w p x,
  request_valid h r -> request_whole m p -> request_body_params v m <> [] ->
  mget (go_private (p_name p)) (rq_fields r) = Some x -> x <> VNil -> typed v (p_type p) false x -> printable o v (p_type p) x ->
  exists rs e w' h' q text j, send_context W E transport o incomplete show_float show_any spare v m r h w = Finished W E rs e w' h' [q] /\ hr_body q = Some text /\ json_document text j /\
    shows o v (p_type p) x j.
Proof. exact whole_sent. Qed.
Print Assumptions C40_bodies.

(** The body of an action is a JSON object with one member for each parameter that was set. *)
Theorem C40_action_bodies : forall (W E : Type) (transport : W -> http_request -> reply E * W) (o : oracle) (incomplete : json -> any)
    (show_float : Z -> string) (show_any : any -> string) (spare : nat) (v : version), standard v -> compiles v -> faithful o -> forall m r h w rs e w' h' q,
  request_valid h r -> action m -> request_body_params v m <> [] ->
  fields_typed v (rq_fields r) (request_body_params v m) -> send_context W E transport o incomplete show_float show_any spare v m r h w = Finished W E rs e w' h' [q] ->
  exists text ms, hr_body q = Some text /\ json_document text (JObj ms) /\ shows_parameters o v (rq_fields r) (filter p_in (m_params m)) ms.
Proof. exact action_sent. Qed.
Print Assumptions C40_action_bodies.

Example C40_add : request_whole ex_add (ex_param "Body" "thing" true true) /\ request_body_params ex_v ex_add <> [] /\
  printable ex_oracle ex_v "thing" (VObject ex_object).
Proof. exact ex_add_whole. Qed.
Example C40_rename : action ex_act /\ fields_typed ex_v (rq_fields ex_act_request) (request_body_params ex_v ex_act) /\ exists h',
  ex_send (Reply 204 [] "" None) ex_act ex_act_request = Finished nat string (Some (MkResponse 204 [] None [])) None 1 h'
    [MkHttpRequest "POST" "/api/things/1/rename" "" [] (Some "{
  ""new_name"": ""x&\""y""
}")].
Proof. exact ex_act_sent. Qed.

(** Sending a request whose body wasn't set panics. *)
Theorem C40_nil_body_refuted : exists m r, request_body_params ex_v m <> [] /\ request_valid ex_heap r /\ forall r', ex_send r' m r = Panicked nat string.
Proof. exact nil_body. Qed.
Print Assumptions C40_nil_body_refuted.

(** The requests for the metadata. *)
Theorem C40_metadata : forall (W E : Type) (transport : W -> http_request -> reply E * W) (o : oracle) (incomplete : json -> any) r h w rs e w' h' sent,
  (forall m, mr_query r = Some m -> valid h m) -> (forall m, mr_header r = Some m -> valid h m) ->
  send_metadata W E transport o incomplete r h w = (rs, e, w', h', sent) ->
  preserves h h' /\ exists q l, sent = [q] /\ w' = snd (transport w q) /\ hr_method q = "GET" /\ hr_path q = mr_path r /\
    hr_header q = entries h (mr_header r) /\ hr_body q = None /\ parse_query (hr_query q) = Some l /\
    (forall n, named n l = values_in h (mr_query r) n) /\
    match fst (transport w q) with
    | TransportFails x => rs = None /\ e = Some (Other E (TransportError x))
    | Reply s hd b br =>
        exists p, rs = Some p /\ mp_status p = s /\ mp_header p = hd /\
        (b = "" -> br = None -> e = Some (EndOfFile E) /\ mp_error p = None /\ mp_body p = None) /\
        (b <> "" \/ br <> None -> (400 <= s)%Z -> mp_body p = None /\
          ((exists a, e = Some (Other E (ApiError a)) /\ mp_error p = Some a /\ get_status (Some a) = (s, true)) \/
           (e = Some (Other E DecodeError) /\ mp_error p = None))) /\
        (b <> "" \/ br <> None -> (s < 400)%Z -> mp_error p = None /\
          ((e = None /\ mp_body p <> None) \/ (e = Some (Other E DecodeError) /\ mp_body p = None))) /\
        (forall l, (s < 400)%Z -> json_document b (JObj l) -> ~ In "" (map fst l) -> NoDup (map fst l) ->
          match mget "server_version" l with
          | Some (JStr x) => e = None /\ mp_body p = Some (1%N, x)
          | Some JNull => e = None /\ mp_body p = Some (1%N, "")
          | Some _ => e = Some (Other E DecodeError)
          | None => e = None /\ mp_body p = Some (0%N, "")
          end)
    end.
Proof. exact metadata_sent. Qed.
Print Assumptions C40_metadata.

Example C40_server_version : exists h' q,
  ex_metadata (Reply 200 [] "{""server_version"":""123""}" None) = (Some (MkMetadataResponse 200 [] None (Some (1%N, "123"))), None, 1, h', [q]) /\ hr_method q = "GET".
Proof. exact ex_metadata_received. Qed.

(** An empty body is an error. *)
Theorem C40_empty_metadata_refuted : exists p h' q, ex_metadata (Reply 204 [] "" None) = (Some p, Some (EndOfFile string), 1, h', [q]) /\ (mp_status p < 400)%Z.
Proof. exact empty_metadata. Qed.
Print Assumptions C40_empty_metadata_refuted.

(** C41: each attempt of the poll sends the same request, and the maps of the request are not changed. *)
Theorem C41_polled_requests : forall (W E : Type) (transport : W -> http_request -> reply E * W) (o : oracle) (incomplete : json -> any)
    (show_float : Z -> string) (show_any : any -> string) (spare : nat) (v : version) now sleep n deadline m r h w res,
  request_valid h (pr_request r) -> request_body_params v m = [] ->
  start_context W E transport o incomplete show_float show_any spare v now sleep n deadline m r h w = Some res ->
  preserves h (snd (p_final res)) /\
  Forall (fun x => exists rs e w' h' q l, send_context W E transport o incomplete show_float show_any spare v m (pr_request r) (snd x) (fst x) = Finished W E rs e w' h' [q] /\
    hr_method q = http_method m /\ hr_path q = rq_path (pr_request r) /\ hr_header q = entries h (rq_header (pr_request r)) /\
    hr_body q = None /\ parse_query (hr_query q) = Some l /\
    (forall n, named n l = (values_in h (rq_query (pr_request r)) n ++ if is_action m then [] else parameter_texts show_float show_any v (rq_fields (pr_request r)) n (m_params m))%list))
    (p_starts res).
Proof. exact polled_requests. Qed.
Print Assumptions C41_polled_requests.

Example C41_two_attempts : exists res, start_context nat string later ex_oracle (fun _ => ANil) (fun _ => "0.5") (fun _ => "{}") 1 ex_v
    (fun w => Z.of_nat w) (fun _ w => w) 5 (Some 100%Z) ex_get (MkPollRequest ex_get_request 10 [200%Z] []) ex_heap 0 = Some res /\
  length (p_starts res) = 2 /\ fst (p_final res) = 2 /\ request_body_params ex_v ex_get = [] /\ request_valid ex_heap ex_get_request.
Proof. exact ex_polled. Qed.

(** C65: the query that the clients send can be parsed, and has the same values. *)
Theorem C65_queries : forall q,
  NoDup (map fst q) -> exists l, parse_query (encode q) = Some l /\ forall n, named n l = values_of q n.
Proof. exact encode_parse. Qed.
Print Assumptions C65_queries.

(** It only contains the characters that are allowed in queries. *)
Theorem C65_characters : forall q,
  str_all query_char (encode q) = true.
Proof. exact encode_allowed. Qed.
Print Assumptions C65_characters.

(** The server obtains the value of the parameter that was set in the request. *)
Theorem C65_server : forall (W E : Type) (transport : W -> http_request -> reply E * W) (o : oracle) (incomplete : json -> any)
    (show_float : Z -> string) (show_any : any -> string) (spare : nat) (v : version) m r h w rs e w' h' q l sq p s pf,
  request_valid h r ->
  send_context W E transport o incomplete show_float show_any spare v m r h w = Finished W E rs e w' h' [q] -> ~ action m ->
  filter (fun p' => p_in p' && scalar_in v p' && String.eqb (query_parameter_name p') (query_parameter_name p)) (m_params m) = [p] ->
  values_in h (rq_query r) (query_parameter_name p) = [] -> mget (client_field p) (rq_fields r) = Some (VScalar s) ->
  parse_query (hr_query q) = Some l -> (forall n, values_of sq n = named n l) ->
  match s with
  | SString x => parse_string sq (query_parameter_name p) = Value x
  | SInt z => (int64_min <= z <= int64_max)%Z -> parse_integer sq (query_parameter_name p) = Value z
  | SBool b => parse_boolean sq (query_parameter_name p) = Value b
  | SFloat z => pf (show_float z) = Some z -> parse_float_parameter pf sq (query_parameter_name p) = Value z
  | SDate d => valid_date d -> (0 <= d_year (utc d) <= 9999)%Z ->
      exists e, parse_date sq (query_parameter_name p) = Value e /\ instant e = instant d /\ d_nano e = 0%Z /\ d_offset e = 0%Z
  | SAny a => parse_string sq (query_parameter_name p) = Value (show_any a)
  end.
Proof. exact server_parses. Qed.
Print Assumptions C65_server.

Example C65_escaped : encode [("a b", ["1&2"; "é+"]); ("", [""]); ("none", []); ("Z", ["x;y="])] = "=&Z=x%3By%3D&a+b=1%262&a+b=%C3%A9%2B" /\
  NoDup (map fst [("a b", ["1&2"; "é+"]); ("", [""]); ("none", []); ("Z", ["x;y="])]).
Proof. exact ex_query. Qed.
Example C65_page : filter (fun p' => p_in p' && scalar_in ex_v p' && String.eqb (query_parameter_name p') (query_parameter_name ex_page_param)) (m_params ex_list) = [ex_page_param] /\
  values_in ex_heap (rq_query ex_list_request) (query_parameter_name ex_page_param) = [] /\
  mget (client_field ex_page_param) (rq_fields ex_list_request) = Some (VScalar (SInt 2)) /\ ~ action ex_list.
Proof. exact (conj (proj1 ex_page_alone) (conj (proj1 (proj2 ex_page_alone)) (conj (proj2 (proj2 ex_page_alone)) ex_list_not_action))). Qed.

(** C64: the readers see the values of the documents, whatever their white space and escapes. *)
Theorem C64_readers : forall text j, json_document text j -> lex_text text = tokens j.
Proof. exact lex_document. Qed.
Print Assumptions C64_readers.

Example C64_read_back : json_document ex_text ex_json /\ lex_text ex_text = tokens ex_json.
Proof. exact (conj ex_text_document (lex_document _ _ ex_text_document)). Qed.
