(** Examples used to show that the hypotheses of the theorems about requests can be satisfied, and counterexamples. *)
From Coq Require Import Ascii String Bool Arith ZArith NArith Lia Permutation List.
From Verif Require Import GoStrings GoMap ReporterModel NamesModel ConceptsModel BindingModel BindingSpec GoNamesModel GoTimeModel ObjectsModel ObjectsSpec ObjectsExamples
  HelpersModel HelpersSpec HelpersExamples ClientsModel JsonModel JsonSpec JsonProofs JsonExamples JsonTextModel JsonTextSpec JsonTextProofs ApiErrorModel ApiErrorSpec
  ApiErrorExamples ChecksSpec RequestModel RequestSpec RequestProofs3.
Import ListNotations.
Local Open Scope string_scope.

(** The methods of the example. *)
Definition ex_param (n : string) (k : key) (i u : bool) : parameter := MkParameter (parse_using_case n) k i u None "" [].
Definition ex_get : method := MkMethod (parse_using_case "Get") [ex_param "Body" "thing" false true] "" [].
Definition ex_add : method := MkMethod (parse_using_case "Add") [ex_param "Body" "thing" true true; ex_param "Force" "boolean" true false] "" [].
Definition ex_list : method := MkMethod (parse_using_case "List")
  [ex_param "Items" "thing_list" false true; ex_param "Page" "integer" true true; ex_param "Size" "integer" true true] "" [].
Definition ex_act : method := MkMethod (parse_using_case "Rename") [ex_param "NewName" "string" true false; ex_param "Old" "string" false true] "" [].

Definition ex_force : parameter := ex_param "Force" "boolean" true false.
Definition ex_items_param : parameter := ex_param "Items" "thing_list" false true.
Definition ex_page_param : parameter := ex_param "Page" "integer" true true.
Definition ex_size_param : parameter := ex_param "Size" "integer" true true.

(** Requests: the query has the parameters of the first map of the example of memory, and the headers of the second. *)
Definition ex_get_request : request := MkRequest "/api/things/1 2" (Some 0) (Some 1) [].
Definition ex_list_request : request := set_parameter ex_page_param (VScalar (SInt 2)) (MkRequest "/api/things" (Some 0) None []).
Definition ex_add_request : request :=
  set_parameter ex_force (VScalar (SBool true)) (MkRequest "/api/things" None (Some 1) [("body", VObject ex_object)]).
Definition ex_act_request : request := MkRequest "/api/things/1/rename" None None [("newName", VScalar (SString "x&""y"))].

Lemma ex_request_valid p q hd fs : In q [None; Some 0; Some 1] -> In hd [None; Some 0; Some 1] -> request_valid ex_heap (MkRequest p q hd fs).
Proof.
  intros Iq Ih. split; cbn; intros m E; [repeat destruct Iq as [Iq|Iq]|repeat destruct Ih as [Ih|Ih]]; subst; try discriminate; try contradiction;
    injection E as <-; first [exact ex_valid0|exact ex_valid1].
Qed.

(** A transport that always returns the same; the state of the world is the number of requests. *)
Definition always (r : reply string) (w : nat) (q : http_request) : reply string * nat := (r, S w).
Definition ex_send (r : reply string) : method -> request -> sending nat string :=
  fun m q => send_context nat string (always r) ex_oracle (fun _ => ANil) (fun _ => "0.5") (fun _ => "{}") 1 ex_v m q ex_heap 0.

Definition ex_json : json := Eval vm_compute in match parse_json 1000 ex_tokens with Ok j _ => j | _ => JNull end.
Definition ex_text : string := write_tokens 0 (tokens ex_json).

Lemma ex_thing_represented : represents ex_oracle ex_v "thing" (VObject ex_object) ex_json.
Proof.
  split; [apply typedb_sound; vm_compute; reflexivity|]. split; [discriminate|]. split; [apply losslessb_sound; vm_compute; reflexivity|].
  vm_compute. reflexivity.
Qed.

Definition ex_answer : list (string * json) := [("kind", JStr "ThingList"); ("page", JNum "2"); ("items", JArr [ex_json; ex_json])].
Lemma ex_things_represented : represents ex_oracle ex_v "thing_list" (VSlice ex_items) (JArr [ex_json; ex_json]).
Proof.
  split; [apply typedb_sound; vm_compute; reflexivity|]. split; [discriminate|]. split; [apply losslessb_sound; vm_compute; reflexivity|].
  vm_compute. reflexivity.
Qed.
Lemma ex_page_represented : represents ex_oracle ex_v "integer" (VScalar (SInt 2)) (JNum "2").
Proof.
  split; [apply typedb_sound; vm_compute; reflexivity|]. split; [discriminate|]. split; [apply losslessb_sound; vm_compute; reflexivity|].
  vm_compute. reflexivity.
Qed.
Lemma ex_called n ws : n_words n = map (fun s => MkWord s false) ws -> called ws n.
Proof. auto. Qed.
Lemma ex_list_object : response_object ex_list.
Proof. left. reflexivity. Qed.
Lemma ex_list_not_action : ~ action ex_list.
Proof. intros A. apply (A ["list"]); [cbn; tauto|reflexivity]. Qed.
Lemma ex_list_members p f : response_parameter ex_list p -> member_for ex_list p f ->
  (p = ex_items_param /\ f = "items") \/ (p = ex_page_param /\ f = "page") \/ (p = ex_size_param /\ f = "size").
Proof.
  intros (I & _) M. destruct I as [<-|[<-|[<-|[]]]].
  - left. split; [reflexivity|]. destruct M as [[_ ->]|[N ->]]; [reflexivity|]. reflexivity.
  - right. left. split; [reflexivity|]. destruct M as [[[_ C] _]|[_ ->]]; [discriminate|reflexivity].
  - right. right. split; [reflexivity|]. destruct M as [[[_ C] _]|[_ ->]]; [discriminate|reflexivity].
Qed.
Lemma ex_list_separable : separable ex_list.
Proof.
  split; [|split; [|split]].
  - intros p q [<-|[<-|[<-|[]]]] [<-|[<-|[<-|[]]]]; vm_compute; intros H; first [reflexivity|discriminate].
  - intros p q f Rp Rq Mp Mq. destruct (ex_list_members p f Rp Mp) as [[-> E]|[[-> E]|[-> E]]], (ex_list_members q f Rq Mq) as [[-> E']|[[-> E']|[-> E']]]; congruence.
  - intros p q (Ip & _) (Iq & _). revert p q Ip Iq. intros p q [<-|[<-|[<-|[]]]] [<-|[<-|[<-|[]]]]; vm_compute; intros H; first [reflexivity|discriminate].
  - intros _ p ws I _ _. split; [exact I|]. split; [|intros C; discriminate]. destruct I as [<-|[<-|[<-|[]]]]; reflexivity.
Qed.
Lemma ex_answer_represented p f j : response_parameter ex_list p -> member_for ex_list p f -> In (f, j) ex_answer ->
  exists x, represents ex_oracle ex_v (p_type p) x j.
Proof.
  intros Rp Mp I. unfold ex_answer in I. destruct (ex_list_members p f Rp Mp) as [[-> ->]|[[-> ->]|[-> ->]]]; repeat destruct I as [I|I]; try discriminate; try contradiction.
  - injection I as <-. exists (VSlice ex_items). exact ex_things_represented.
  - injection I as <-. exists (VScalar (SInt 2)). exact ex_page_represented.
Qed.
Lemma ex_answer_clean : clean (JObj ex_answer).
Proof. apply cleanb_sound. vm_compute. reflexivity. Qed.
Lemma ex_answer_nodup : NoDup (map fst ex_answer).
Proof. repeat constructor; cbn; intuition discriminate. Qed.

(** A request with query parameters, headers and one parameter. *)
Lemma ex_list_sent : exists rs h',
  ex_send (Reply 200 [("Content-Type", ["application/json"])] (write_tokens 0 (tokens (JObj ex_answer))) None) ex_list ex_list_request =
    Finished nat string rs None 1 h' [MkHttpRequest "GET" "/api/things" "Accept=x&page=2&size=a&size=b" [] None] /\
  ~ action ex_list /\ snd (get_response_ok ex_v ex_items_param rs) = true /\ get_response ex_v ex_page_param rs = VScalar (SInt 2) /\
  snd (get_response_ok ex_v ex_size_param rs) = false.
Proof. do 2 eexists. split; [vm_compute; reflexivity|]. split; [exact ex_list_not_action|]. vm_compute. auto. Qed.

Lemma ex_answer_document : json_document (write_tokens 0 (tokens (JObj ex_answer))) (JObj ex_answer).
Proof.
  assert (R := fun k x j => represented ex_oracle ex_v ex_standard ex_compiles ex_faithful k x j).
  destruct (R _ _ _ ex_things_represented) as (_ & _ & _ & _ & W1). destruct (R _ _ _ ex_page_represented) as (_ & _ & _ & _ & W2).
  apply document_text. exact (conj I (conj W2 (conj W1 I))).
Qed.
Lemma ex_text_document : json_document ex_text ex_json.
Proof.
  destruct (represented ex_oracle ex_v ex_standard ex_compiles ex_faithful _ _ _ ex_thing_represented) as (_ & _ & _ & _ & W).
  exact (document_text ex_json 0 W).
Qed.

Lemma ex_get_whole : response_whole ex_get (ex_param "Body" "thing" false true) /\ ~ In (go_private (p_name (ex_param "Body" "thing" false true))) ["err"; "status"].
Proof.
  split; [|vm_compute; intuition discriminate]. left. exists ["get"]. split; [now left|]. split; [reflexivity|].
  exists [], []. split; [reflexivity|]. split; [reflexivity|]. constructor.
Qed.

Lemma ex_get_received : exists rs h' q,
  ex_send (Reply 200 [] ex_text None) ex_get ex_get_request = Finished nat string rs None 1 h' [q] /\
  hr_path q = "/api/things/1 2" /\ hr_query q = "Accept=x&size=a&size=b" /\ hr_header q = [("none", []); ("empty", [])] /\
  snd (get_response_ok ex_v (ex_param "Body" "thing" false true) rs) = true.
Proof. do 3 eexists. split; [vm_compute; reflexivity|]. vm_compute. auto. Qed.

Lemma ex_error_received : exists rs a h' q,
  ex_send (Reply 404 [] (write_tokens 0 ex_error_document) None) ex_get ex_get_request = Finished nat string rs (Some (ApiError a)) 1 h' [q] /\
  fst (get_id (Some a)) = "404".
Proof. do 4 eexists. split; vm_compute; reflexivity. Qed.

Lemma ex_add_whole : request_whole ex_add (ex_param "Body" "thing" true true) /\ request_body_params ex_v ex_add <> [] /\
  printable ex_oracle ex_v "thing" (VObject ex_object).
Proof.
  split; [|split; [vm_compute; discriminate|]].
  - left. exists ["add"]. split; [now left|]. split; [reflexivity|]. exists [], [ex_force]. split; [reflexivity|]. split; [reflexivity|]. constructor.
  - destruct ex_thing_represented as (T & N & _ & Wr).
    exact (proj2 (proj2 (proj2 (value_document ex_oracle ex_v ex_standard ex_compiles ex_faithful _ _ _ T N Wr)))).
Qed.

Lemma ex_act_sent : action ex_act /\ fields_typed ex_v (rq_fields ex_act_request) (request_body_params ex_v ex_act) /\ exists h',
  ex_send (Reply 204 [] "" None) ex_act ex_act_request = Finished nat string (Some (MkResponse 204 [] None [])) None 1 h'
    [MkHttpRequest "POST" "/api/things/1/rename" "" [] (Some "{
  ""new_name"": ""x&\""y""
}")].
Proof.
  split; [|split].
  - intros ws I C. cbn in I. repeat destruct I as [<-|I]; try discriminate. contradiction.
  - intros p x [<-|[]] M. right. vm_compute in M. injection M as <-. apply typedb_sound. vm_compute. reflexivity.
  - eexists. vm_compute. reflexivity.
Qed.

(** Adding an object without setting it. *)
Lemma nil_body : exists m r, request_body_params ex_v m <> [] /\ request_valid ex_heap r /\ forall r', ex_send r' m r = Panicked nat string.
Proof.
  exists ex_add, (MkRequest "/api/things" None None []). split; [vm_compute; discriminate|]. split; [apply ex_request_valid; cbn; auto|].
  intros r'. vm_compute. reflexivity.
Qed.

(** An error of the server with an empty body. *)
Lemma empty_error : exists m r h' q, request_valid ex_heap r /\
  ex_send (Reply 500 [] "" None) m r = Finished nat string (Some (MkResponse 500 [] None [])) None 1 h' [q].
Proof.
  exists ex_get, ex_get_request. do 2 eexists. split; [apply ex_request_valid; cbn; auto|]. vm_compute. reflexivity.
Qed.

Definition ex_metadata (r : reply string) : option metadata_response * option (metadata_failure string) * nat * heap * list http_request :=
  send_metadata nat string (always r) ex_oracle (fun _ => ANil) (MkMetadataRequest "/api/svc/v1" (Some 0) (Some 1)) ex_heap 0.
Lemma ex_metadata_received : exists h' q,
  ex_metadata (Reply 200 [] "{""server_version"":""123""}" None) = (Some (MkMetadataResponse 200 [] None (Some (1%N, "123"))), None, 1, h', [q]) /\ hr_method q = "GET".
Proof. do 2 eexists. split; vm_compute; reflexivity. Qed.
Lemma empty_metadata : exists p h' q,
  ex_metadata (Reply 204 [] "" None) = (Some p, Some (EndOfFile string), 1, h', [q]) /\ (mp_status p < 400)%Z.
Proof. do 3 eexists. split; vm_compute; reflexivity. Qed.

(** A poll with two attempts: the server returns the object the second time. *)
Definition later (w : nat) (q : http_request) : reply string * nat :=
  (match w with 0 => Reply 404 [] "" None | _ => Reply 200 [] ex_text None end, S w).
Lemma ex_polled : exists res, start_context nat string later ex_oracle (fun _ => ANil) (fun _ => "0.5") (fun _ => "{}") 1 ex_v
    (fun w => Z.of_nat w) (fun _ w => w) 5 (Some 100%Z) ex_get (MkPollRequest ex_get_request 10 [200%Z] []) ex_heap 0 = Some res /\
  length (p_starts res) = 2 /\ fst (p_final res) = 2 /\ request_body_params ex_v ex_get = [] /\ request_valid ex_heap ex_get_request.
Proof.
  eexists. split; [vm_compute; reflexivity|]. repeat (split; [vm_compute; reflexivity|]). apply ex_request_valid; cbn; auto.
Qed.

(** A parameter of the response called "Status". *)
Lemma lost_status : exists m p rs h' q, response_parameter m p /\ body_parameter_name p = "status" /\
  ex_send (Reply 200 [] "{""status"":""ready""}" None) m ex_act_request = Finished nat string rs None 1 h' [q] /\ snd (get_response_ok ex_v p rs) = false.
Proof.
  exists (MkMethod (parse_using_case "Rename") [ex_param "NewName" "string" true false; ex_param "Status" "string" false true] "" []),
    (ex_param "Status" "string" false true). do 3 eexists.
  split; [split; [right; now left|]; split; [reflexivity|discriminate]|]. split; [reflexivity|]. split; [vm_compute; reflexivity|]. vm_compute. reflexivity.
Qed.

(** A query with characters that must be escaped. *)
Lemma ex_query : encode [("a b", ["1&2"; "é+"]); ("", [""]); ("none", []); ("Z", ["x;y="])] = "=&Z=x%3By%3D&a+b=1%262&a+b=%C3%A9%2B" /\
  NoDup (map fst [("a b", ["1&2"; "é+"]); ("", [""]); ("none", []); ("Z", ["x;y="])]).
Proof. split; [vm_compute; reflexivity|]. repeat constructor; cbn; intuition discriminate. Qed.

Lemma ex_page_alone : filter (fun p' => p_in p' && scalar_in ex_v p' && String.eqb (query_parameter_name p') (query_parameter_name ex_page_param)) (m_params ex_list) = [ex_page_param] /\
  values_in ex_heap (rq_query ex_list_request) (query_parameter_name ex_page_param) = [] /\
  mget (client_field ex_page_param) (rq_fields ex_list_request) = Some (VScalar (SInt 2)).
Proof. vm_compute. auto. Qed.
