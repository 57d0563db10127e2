(** Property theorems about the settings of the requests and of the polls, and about the getters of the responses (C40 and C41). *)
From Coq Require Import Ascii String Bool Arith ZArith NArith List.
From Verif Require Import GoStrings GoMap NamesModel ConceptsModel BindingModel GoNamesModel ClientsModel HelpersModel HelpersSpec HelpersExamples
  JsonModel JsonExamples JsonTextModel JsonLexModel ApiErrorModel ObjectsModel ObjectsSpec ObjectsExamples RequestModel RequestSpec RequestExamples PollSpec PollProofs.
Import ListNotations.
Local Open Scope string_scope.

(** C41: whatever the order of the calls that configure the poll, it stops at the first attempt that has no answer, or that has
    one of all the given statuses and satisfies all the given predicates, or after which there is no time; the result is the
    response and the error of that attempt, and before each of the others it sleeps the interval of the last call. *)
Theorem C41_poll_settings : forall (W E : Type) (transport : W -> http_request -> reply E * W) (o : oracle) (incomplete : json -> any)
    (show_float : Z -> string) (show_any : any -> string) (spare : nat) (v : version) now sleep n deadline m cs z h w res r0,
  let q := fold_left call_poll cs (MkPollRequest r0 0 [] []) in
  let send := send_context W E transport o incomplete show_float show_any spare v in
  request_valid h r0 -> request_body_params v m = [] -> last_interval cs z -> (0 < z)%Z ->
  start_context W E transport o incomplete show_float show_any spare v now sleep n (Some deadline) m q h w = Some res ->
  exists l last rs e,
    p_starts res = (l ++ [last])%list /\ hd_error (p_starts res) = Some (w, h) /\
    (exists r, send m r0 (snd last) (fst last) = Finished W E rs e (fst (p_final res)) (snd (p_final res)) [r]) /\
    p_result res = rs /\ p_error res = option_map inl e /\
    (no_answer rs e \/ acceptable cs rs \/ (deadline < now (fst (p_final res)) + z)%Z) /\
    (forall a x y b, p_starts res = (a ++ x :: y :: b)%list ->
      exists rs e w' h' r, send m r0 (snd x) (fst x) = Finished W E rs e w' h' [r] /\
        ~ no_answer rs e /\ ~ acceptable cs rs /\ (now w' + z <= deadline)%Z /\ y = (sleep z w', h')).
Proof. exact polled_outcome. Qed.
Print Assumptions C41_poll_settings.

(** Three calls change the statuses and the predicates; the object is returned in the second attempt. *)
Example C41_settings : exists res,
  let cs := [Interval 5; Status 201; Predicate (fun r => Z.leb 100 (rs_status r)); Status 200; Predicate (fun r => Z.leb (rs_status r) 200); Interval 10]%Z in
  request_valid ex_heap ex_get_request /\ request_body_params ex_v ex_get = [] /\ last_interval cs 10 /\
  start_context nat string later ex_oracle (fun _ => ANil) (fun _ => "0.5") (fun _ => "{}") 1 ex_v
    (fun w => Z.of_nat w) (fun _ w => w) 5 (Some 100%Z) ex_get (fold_left call_poll cs (MkPollRequest ex_get_request 0 [] [])) ex_heap 0 = Some res /\
  length (p_starts res) = 2 /\ fst (p_final res) = 2 /\ option_map rs_status (p_result res) = Some 200%Z.
Proof.
  eexists. cbn zeta. split; [apply ex_request_valid; cbn; auto|]. split; [vm_compute; reflexivity|].
  split; [apply (last_here [Interval 5; Status 201; Predicate (fun r => Z.leb 100 (rs_status r)); Status 200; Predicate (fun r => Z.leb (rs_status r) 200)]%Z []); auto|].
  split; [vm_compute; reflexivity|]. repeat (split; [vm_compute; reflexivity|]). vm_compute. reflexivity.
Qed.

(** C40: after any sequence of calls to the setters each field has the value of the last call for it, or what it had if there is
    none, and nothing else of the request changes. *)
Theorem C40_setters : forall r (cs : list (parameter * value)),
  let q := fold_left (fun r c => set_parameter (fst c) (snd c) r) cs r in
  rq_path q = rq_path r /\ rq_query q = rq_query r /\ rq_header q = rq_header r /\
  forall n x, holds (rq_fields r) n x (map (fun c => (client_field (fst c), snd c)) cs) -> mget n (rq_fields q) = x.
Proof. exact setters_spec. Qed.
Print Assumptions C40_setters.

Example C40_set :
  let cs := [(ex_page_param, VScalar (SInt 2)); (ex_size_param, VScalar (SInt 10)); (ex_page_param, VScalar (SInt 3))] in
  let fs := rq_fields ex_list_request in
  let cs' := map (fun c => (client_field (fst c), snd c)) cs in
  holds fs "page" (Some (VScalar (SInt 3))) cs' /\ holds fs "size" (Some (VScalar (SInt 10))) cs' /\ holds fs "order" None cs'.
Proof.
  cbn zeta. split; [|split].
  - apply (holds_last _ "page" (VScalar (SInt 3)) [("page", VScalar (SInt 2)); ("size", VScalar (SInt 10))] []). auto.
  - apply (holds_last _ "size" (VScalar (SInt 10)) [("page", VScalar (SInt 2))] [("page", VScalar (SInt 3))]). cbn. intuition discriminate.
  - apply (holds_none (rq_fields ex_list_request) "order"). vm_compute. intuition discriminate.
Qed.

(** C40: when the flag of the getter says that a parameter was not received both getters return the zero value of its type, also
    when there is no response at all. *)
Theorem C40_absent_parameters : forall v p rs z,
  standard v -> zero_of v (p_type p) z -> snd (get_response_ok v p rs) = false ->
  get_response v p rs = z /\ fst (get_response_ok v p rs) = z.
Proof. exact response_absent. Qed.
Print Assumptions C40_absent_parameters.

Theorem C40_received_parameters : forall v p rs,
  (snd (get_response_ok v p rs) = true <-> exists r x, rs = Some r /\ mget (client_field p) (rs_fields r) = Some x /\ x <> VNil) /\
  (forall r x, rs = Some r -> mget (client_field p) (rs_fields r) = Some x -> x <> VNil ->
    get_response v p rs = x /\ fst (get_response_ok v p rs) = x).
Proof. exact response_present. Qed.
Print Assumptions C40_received_parameters.

Example C40_absent : exists t, standard ex_v /\ mget "integer" (v_types ex_v) = Some t /\ zero_of ex_v (p_type ex_page_param) (VScalar (SInt 0)) /\
  snd (get_response_ok ex_v ex_page_param (Some (MkResponse 200 [] None [("size", VScalar (SInt 10))]))) = false /\
  snd (get_response_ok ex_v ex_page_param None) = false /\
  snd (get_response_ok ex_v ex_size_param (Some (MkResponse 200 [] None [("size", VScalar (SInt 10))]))) = true.
Proof.
  eexists. split; [exact ex_standard|]. split; [vm_compute; reflexivity|].
  split; [eapply zero_scalar; [vm_compute; reflexivity|reflexivity|vm_compute; auto 10]|]. vm_compute. auto.
Qed.
