(** Properties of the execution of the generated code that writes the bodies of the requests and reads the bodies of the responses. *)
From Coq Require Import Ascii String Bool Arith ZArith NArith List.
From Verif Require Import GoStrings GoMap NamesModel ConceptsModel ReporterModel BindingModel BindingSpec GoNamesModel DeclsModel ChecksModel
  ObjectsModel ObjectsSpec ObjectsExamples JsonModel JsonSpec JsonExamples ClientsModel JsonCodeModel JsonRunSpec JsonRunProofs6 JsonRunExamples JsonMethodsSpec JsonMethodsProofs3 JsonMethodsProofs6 JsonMethodsProofs7 JsonMethodsExamples.
From Verif Require RequestModel RequestSpec.
Import ListNotations.
Local Open Scope string_scope.

(** * C86: executing the generated functions that write the bodies of the requests gives the documents *)

(** The result is the one given by the model of the clients, for all the methods of all the resources, when the structure contains the values of the parameters. *)
Theorem C86_requests_run : forall o pkg v fs structures limit r m l fields, faithful o -> running pkg v fs -> In r (resources v) -> In m (r_methods r) ->
  carries v m fields l -> RequestSpec.fields_typed v fields (filter p_in (m_params m)) ->
  exists n0, forall n i, (n0 <= n)%nat ->
    call_function o (kind_constants v) structures fs limit n (write_request_func (is_root r) r m) [RStruct l; RWriter] (MkState (WOk []) i) =
    ended (RequestModel.write_request o v m fields) (MkState (WOk []) i).
Proof. exact run_request. Qed.
Print Assumptions C86_requests_run.

(** When the body is the value of one parameter the document shows it. *)
Theorem C86_request_documents : forall o pkg v fs structures limit r m l fields p x, faithful o -> running pkg v fs -> In r (resources v) -> In m (r_methods r) ->
  carries v m fields l -> RequestSpec.fields_typed v fields (filter p_in (m_params m)) ->
  RequestSpec.request_whole m p -> mget (go_private (p_name p)) fields = Some x -> x <> VNil -> typed v (p_type p) false x -> printable o v (p_type p) x ->
  exists n0 j, well_formed j /\ shows o v (p_type p) x j /\
    forall n i, (n0 <= n)%nat ->
      call_function o (kind_constants v) structures fs limit n (write_request_func (is_root r) r m) [RStruct l; RWriter] (MkState (WOk []) i) = Gives RNil (MkState (WOk (tokens j)) i).
Proof. exact run_whole_request. Qed.
Print Assumptions C86_request_documents.

Example C86_request_example : faithful ex_oracle /\ running ex_package ex_mv ex_mfunctions /\ In ex_mr (resources ex_mv) /\ In ex_madd (r_methods ex_mr) /\
  carries ex_mv ex_madd ex_add_fields (request_structure ex_mv ex_madd ex_add_fields) /\ RequestSpec.fields_typed ex_mv ex_add_fields (filter p_in (m_params ex_madd)) /\
  RequestSpec.request_whole ex_madd ex_body_param /\ p_type ex_body_param = "machine" /\
  typed ex_mv "machine" false (VObject ex_machine_object) /\ printable ex_oracle ex_mv "machine" (VObject ex_machine_object) /\
  exists l, call_function ex_oracle (kind_constants ex_mv) ex_mstructures ex_mfunctions 100 10 (write_request_func (is_root ex_mr) ex_mr ex_madd)
    [RStruct (request_structure ex_mv ex_madd ex_add_fields); RWriter] (MkState (WOk []) []) = Gives RNil (MkState (WOk l) []) /\ (1 < length l)%nat.
Proof.
  exact (conj ex_faithful (conj ex_mrunning (conj ex_mr_in (conj (proj1 (proj2 ex_methods_in)) (conj ex_add_carries (conj ex_add_typed (conj (proj1 ex_add_whole)
    (conj (proj2 ex_add_whole) (conj (proj1 ex_add_printable) (conj (proj2 ex_add_printable) ex_run_add)))))))))).
Qed.

(** The document of an action has one member for each of the parameters that aren't nil. *)
Theorem C86_action_documents : forall o pkg v fs structures limit r m l fields, faithful o -> running pkg v fs -> In r (resources v) -> In m (r_methods r) ->
  carries v m fields l -> RequestSpec.fields_typed v fields (filter p_in (m_params m)) ->
  action m -> filter p_in (m_params m) <> [] ->
  (forall p x, In p (m_params m) -> p_in p = true -> mget (go_private (p_name p)) fields = Some x -> x = VNil \/ printable o v (p_type p) x) ->
  exists n0 ms, well_formed (JObj ms) /\ RequestSpec.shows_parameters o v fields (filter p_in (m_params m)) ms /\
    forall n i, (n0 <= n)%nat ->
      call_function o (kind_constants v) structures fs limit n (write_request_func (is_root r) r m) [RStruct l; RWriter] (MkState (WOk []) i) =
      Gives RNil (MkState (WOk (tokens (JObj ms))) i).
Proof. exact run_action_request. Qed.
Print Assumptions C86_action_documents.

Example C86_action_example : In ex_start (r_methods ex_mr) /\ carries ex_mv ex_start ex_start_fields (request_structure ex_mv ex_start ex_start_fields) /\
  RequestSpec.fields_typed ex_mv ex_start_fields (filter p_in (m_params ex_start)) /\ action ex_start /\ filter p_in (m_params ex_start) <> [] /\
  (forall p x, In p (m_params ex_start) -> p_in p = true -> mget (go_private (p_name p)) ex_start_fields = Some x -> x = VNil \/ printable ex_oracle ex_mv (p_type p) x) /\
  call_function ex_oracle (kind_constants ex_mv) ex_mstructures ex_mfunctions 100 10 (write_request_func (is_root ex_mr) ex_mr ex_start)
    [RStruct (request_structure ex_mv ex_start ex_start_fields); RWriter] (MkState (WOk []) []) = Gives RNil (MkState (WOk ex_start_tokens) []).
Proof.
  exact (conj (proj1 ex_methods_in) (conj ex_start_carries (conj ex_start_typed (conj (proj1 ex_start_action) (conj (proj2 ex_start_action) (conj ex_start_printable ex_run_start)))))).
Qed.

(** * C87: executing the generated functions that read the bodies of the responses gives the values of the parameters *)

(** The result is the one given by the model of the clients, for all the methods of all the resources and all inputs. *)
Theorem C87_responses_run : forall o pkg v fs structures limit r m l ts n w, reading pkg v fs structures -> In r (resources v) -> In m (r_methods r) -> has_fields m l ->
  (2 * length ts + 5 <= n)%nat -> (2 * length ts + 3 <= limit)%nat ->
  match RequestModel.read_response o v m ts with
  | Ok fields rest => exists l',
      receive o v structures fs limit n (read_response_func (is_root r) r m) (RStruct l) (MkState w ts) = Received RNil (RStruct l') (MkState w rest) /\ filled v m fields l l'
  | Failed => receive o v structures fs limit n (read_response_func (is_root r) r m) (RStruct l) (MkState w ts) = Interrupted WrongDocument
  | OutOfFuel => False
  end.
Proof. exact run_response. Qed.
Print Assumptions C87_responses_run.

Example C87_run_example : reading ex_package ex_mv ex_mfunctions ex_mstructures /\ In ex_mr (resources ex_mv) /\ In ex_start (r_methods ex_mr) /\ has_fields ex_start (response_structure ex_start) /\
  (exists fields l, RequestModel.read_response ex_oracle ex_mv ex_start (tokens ex_start_response) = Ok fields [] /\ length fields = 5%nat /\
    receive ex_oracle ex_mv ex_mstructures ex_mfunctions 200 200 (read_response_func (is_root ex_mr) ex_mr ex_start) (RStruct (response_structure ex_start)) (MkState (WOk []) (tokens ex_start_response)) =
      Received RNil (RStruct l) (MkState (WOk []) []) /\ mget "ready" l = Some (RPtr (RBool true)) /\ mget "tags" l = Some (RSlice [RString "a"]) /\ mget "created" l = Some RNil) /\
  RequestModel.read_response ex_oracle ex_mv ex_start (tokens (JObj [("ready", JNum "1")])) = Failed /\
  receive ex_oracle ex_mv ex_mstructures ex_mfunctions 200 200 (read_response_func (is_root ex_mr) ex_mr ex_start) (RStruct (response_structure ex_start)) (MkState (WOk []) (tokens (JObj [("ready", JNum "1")]))) =
    Interrupted WrongDocument.
Proof. exact (conj ex_mreading (conj ex_mr_in (conj (proj1 ex_methods_in) (conj (response_structure_has ex_start) (conj ex_receive_start ex_receive_wrong))))). Qed.

(** When the body is the value of one parameter that field gets the value that was written, and the others don't change. *)
Theorem C87_whole_responses : forall o pkg v fs structures limit r m l p x j n w, faithful o -> reading pkg v fs structures -> In r (resources v) -> In m (r_methods r) -> has_fields m l ->
  RequestSpec.response_whole m p -> RequestSpec.represents o v (p_type p) x j -> (2 * length (tokens j) + 5 <= n)%nat -> (2 * length (tokens j) + 3 <= limit)%nat ->
  exists y l', receive o v structures fs limit n (read_response_func (is_root r) r m) (RStruct l) (MkState w (tokens j)) = Received RNil (RStruct l') (MkState w []) /\
    same v (p_type p) false x y /\ mget (client_field p) l' = Some (run_field v (p_type p) y) /\ forall f, f <> client_field p -> mget f l' = mget f l.
Proof. exact run_whole_response. Qed.
Print Assumptions C87_whole_responses.

Example C87_whole_example : faithful ex_oracle /\ In ex_madd (r_methods ex_mr) /\ has_fields ex_madd (response_structure ex_madd) /\ RequestSpec.response_whole ex_madd ex_body_param /\
  p_type ex_body_param = "machine" /\ RequestSpec.represents ex_oracle ex_mv "machine" ex_some_machine ex_machine_json /\
  exists l, receive ex_oracle ex_mv ex_mstructures ex_mfunctions 100 50 (read_response_func (is_root ex_mr) ex_mr ex_madd) (RStruct (response_structure ex_madd)) (MkState (WOk []) (tokens ex_machine_json)) =
    Received RNil (RStruct l) (MkState (WOk []) []) /\ mget "body" l = Some (run_value ex_mv "machine" ex_some_machine) /\ mget "status" l = Some (RInt 200).
Proof.
  exact (conj ex_faithful (conj (proj1 (proj2 ex_methods_in)) (conj (response_structure_has ex_madd) (conj ex_response_whole (conj (proj2 ex_add_whole) (conj ex_machine_represented ex_receive_add)))))).
Qed.

(** When the body is an object the fields of the parameters that it contains get the values that were written, and those of the ones that it doesn't contain don't change. *)
Theorem C87_object_responses : forall o pkg v fs structures limit r m l ms n w, faithful o -> reading pkg v fs structures -> In r (resources v) -> In m (r_methods r) -> has_fields m l ->
  RequestSpec.separable m -> RequestSpec.response_object m -> response_params m <> [] -> clean (JObj ms) -> NoDup (map fst ms) ->
  (forall p f j, RequestSpec.response_parameter m p -> RequestSpec.member_for m p f -> In (f, j) ms -> exists x, RequestSpec.represents o v (p_type p) x j) ->
  (2 * length (tokens (JObj ms)) + 5 <= n)%nat -> (2 * length (tokens (JObj ms)) + 3 <= limit)%nat ->
  exists l', receive o v structures fs limit n (read_response_func (is_root r) r m) (RStruct l) (MkState w (tokens (JObj ms))) = Received RNil (RStruct l') (MkState w []) /\
    (forall p f j x, RequestSpec.response_parameter m p -> RequestSpec.member_for m p f -> In (f, j) ms -> RequestSpec.represents o v (p_type p) x j ->
      exists y z, same v (p_type p) false x y /\ RequestSpec.received v m p y z /\ mget (client_field p) l' = Some (run_field v (p_type p) z)) /\
    (forall p f, RequestSpec.response_parameter m p -> RequestSpec.member_for m p f -> ~ In f (map fst ms) -> mget (client_field p) l' = mget (client_field p) l).
Proof. exact run_object_response. Qed.
Print Assumptions C87_object_responses.

Example C87_object_example : In ex_mlist (r_methods ex_mr) /\ has_fields ex_mlist (response_structure ex_mlist) /\ RequestSpec.separable ex_mlist /\ RequestSpec.response_object ex_mlist /\
  response_params ex_mlist <> [] /\ clean (JObj ex_page_answer) /\ NoDup (map fst ex_page_answer) /\
  (forall p f j, RequestSpec.response_parameter ex_mlist p -> RequestSpec.member_for ex_mlist p f -> In (f, j) ex_page_answer -> exists x, RequestSpec.represents ex_oracle ex_mv (p_type p) x j) /\
  exists l, receive ex_oracle ex_mv ex_mstructures ex_mfunctions 200 200 (read_response_func (is_root ex_mr) ex_mr ex_mlist) (RStruct (response_structure ex_mlist)) (MkState (WOk []) (tokens (JObj ex_page_answer))) =
    Received RNil (RStruct l) (MkState (WOk []) []) /\ mget "items" l = Some (run_value ex_mv "machine_list" (VList "" false (VSlice [ex_some_machine; ex_some_machine]))) /\
    mget "page" l = Some (RPtr (RInt 2)) /\ mget "size" l = Some RNil /\ mget "total" l = Some RNil.
Proof.
  exact (conj (proj2 (proj2 ex_methods_in)) (conj (response_structure_has ex_mlist) (conj ex_mlist_separable (conj (or_introl eq_refl) (conj (proj2 (proj2 ex_page_clean)) (conj (proj1 ex_page_clean)
    (conj (proj1 (proj2 ex_page_clean)) (conj ex_page_represented ex_receive_list)))))))).
Qed.

(** The errors that the streams and the iterators store, and those of the functions that are called, are returned by all the functions that receive what has to be written or
    read. *)
Theorem C87_errors_returned : forall pkg v fs reports fn, json_code pkg v = Done (fs, reports) -> In fn fs -> returns_errors fn.
Proof. exact json_errors. Qed.
Print Assumptions C87_errors_returned.

Example C87_errors_example : json_code ex_package ex_mv = Done (ex_mfunctions, []) /\ length ex_mfunctions = 74%nat /\
  ex_last "readMachinesListResponse" = Some (TReturn [XField (XVar "iterator") "Error"]) /\ ex_last "readMachinesAddResponse" = Some (TReturn [XVar "err"]) /\
  ex_last "writeMachinesStartRequest" = Some (TReturn [XField (XVar "stream") "Error"]) /\ ex_last "readMachineDeleteResponse" = Some (TReturn [XNil]) /\
  ex_last "UnmarshalMachine" = Some (TReturn []).
Proof. exact ex_errors. Qed.
