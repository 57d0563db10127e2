(** Examples for the properties of the execution of the functions that write the bodies of the requests and read the bodies of the responses. *)
From Coq Require Import Ascii String Bool Arith ZArith NArith List.
From Verif Require Import GoStrings GoMap GoMapProofs NamesModel ConceptsModel ReporterModel BindingModel GoNamesModel ReaderModel ReaderSpec DeclsModel ChecksModel GoTypesModel GoTypesSpec ReaderExamples DeclsExamples GoTypesExamples
  ObjectsModel ObjectsSpec ObjectsExamples JsonModel JsonSpec JsonExamples ClientsModel JsonCodeModel JsonCodeSpec JsonCodeExamples JsonRunSpec JsonRunExamples JsonMethodsSpec BindingSpec BindingProofs JsonProofs3 JsonProofs6 JsonRunProofs6.
From Verif Require RequestModel RequestSpec.
Import ListNotations.
Local Open Scope string_scope.

(** The version that the reader returns for the example of the code that reads and writes JSON documents. *)
Definition ex_mv : version := Eval vm_compute in
  match ChecksModel.read [[("svc", [("v1", [("a.model", ex_code)])])]] [] with
  | Done (ROk ((_, s) :: _), _) => match s_versions s with (_, v) :: _ => v | [] => ex_v end
  | _ => ex_v
  end.
Definition ex_mfunctions : list func := Eval vm_compute in match json_code ex_package ex_mv with Done (fs, _) => fs | _ => [] end.
Definition ex_mstructures (n : string) : option (list (string * gv)) := mget n (version_structures ex_mv).


Lemma ex_mv_accepted : accepted ex_code ex_mv.
Proof.
  eexists _, _, _. split; [vm_compute; reflexivity|]. split; [exists "svc"; vm_compute; reflexivity|exists "v1"; vm_compute; reflexivity].
Qed.
Lemma ex_mrunning : running ex_package ex_mv ex_mfunctions.
Proof.
  split; [apply standardb_sound; vm_compute; reflexivity|]. split.
  - apply (json_readyb_sound ex_code); [exact ex_mv_accepted| |vm_compute; reflexivity]. apply nodupb_sound. vm_compute. reflexivity.
  - split; [vm_compute; reflexivity|]. apply declared_onceb_sound. vm_compute. reflexivity.
Qed.
Lemma ex_mreading : reading ex_package ex_mv ex_mfunctions ex_mstructures.
Proof.
  split; [exact ex_mrunning|]. split; [exact (proj1 (proj2 ex_reading))|]. split; [apply namedb_sound; vm_compute; reflexivity|].
  apply version_structures_declared. vm_compute. reflexivity.
Qed.

(** A resource and its methods. *)
Definition ex_no_resource : resource := MkResource nBody [] [] "" [].
Definition ex_no_method : method := MkMethod nBody [] "" [].
Definition ex_mr : resource := Eval vm_compute in match mget "machines" (v_resources ex_mv) with Some r => r | None => ex_no_resource end.
Definition method_of_example (n : string) : method :=
  match find (fun m => String.eqb (name_key (m_name m)) n) (r_methods ex_mr) with Some m => m | None => ex_no_method end.
Definition ex_start : method := Eval vm_compute in method_of_example "start".
Definition ex_madd : method := Eval vm_compute in method_of_example "add".
Definition ex_mlist : method := Eval vm_compute in method_of_example "list".
Lemma ex_mr_in : In ex_mr (resources ex_mv).
Proof. vm_compute. tauto. Qed.
Lemma ex_methods_in : In ex_start (r_methods ex_mr) /\ In ex_madd (r_methods ex_mr) /\ In ex_mlist (r_methods ex_mr).
Proof. vm_compute. tauto. Qed.

Definition succeedsb (w : JsonModel.written) : bool := match w with WOk _ => true | _ => false end.

(** The request of an action. *)
Definition ex_mnode (n : string) : value := VObject (MkObject 1 "" "" [VScalar (SString n)]).
Definition ex_start_fields : list (string * value) :=
  [("ready", VScalar (SBool true)); ("state", VScalar (SString "ready")); ("node", ex_mnode "x"); ("tags", VSlice [VScalar (SString "a"); VScalar (SString "b")]);
   ("nodes", VSlice [ex_mnode "y"; ex_mnode "z"])].
Definition request_structure (v : version) (m : method) (fields : list (string * value)) : list (string * gv) :=
  map (fun p => (client_field p, run_field v (p_type p) (value_of fields (client_field p)))) (filter p_in (m_params m)).
Lemma ex_start_carries : carries ex_mv ex_start ex_start_fields (request_structure ex_mv ex_start ex_start_fields).
Proof. intros p I O. cbn in I. repeat (destruct I as [<-|I]; [try discriminate O; vm_compute; reflexivity|]). contradiction. Qed.
Lemma ex_start_typed : RequestSpec.fields_typed ex_mv ex_start_fields (filter p_in (m_params ex_start)).
Proof.
  intros p x I G. cbn in I. repeat (destruct I as [<-|I]; [vm_compute in G; try discriminate G; injection G as <-; right; apply typedb_sound; vm_compute; reflexivity|]). contradiction.
Qed.
Lemma ex_start_action : action ex_start /\ filter p_in (m_params ex_start) <> [].
Proof. split; [apply is_action_spec; vm_compute; reflexivity|vm_compute; discriminate]. Qed.
Lemma ex_start_printable p x : In p (m_params ex_start) -> p_in p = true -> mget (go_private (p_name p)) ex_start_fields = Some x -> x = VNil \/ printable ex_oracle ex_mv (p_type p) x.
Proof.
  pose proof ex_mrunning as (S & R & _). pose proof (ready_compiles ex_mv R) as Co.
  assert (W : forall k x, typedb ex_mv k false x = true -> succeedsb (JsonModel.write_value ex_oracle ex_mv k false x) = true -> x = VNil \/ printable ex_oracle ex_mv k x).
  { intros k y T Su. destruct (value_succeeds ex_oracle ex_mv S (compiled_version ex_mv Co) (proj2 ex_faithful) y k false (typedb_sound ex_mv y k false T)) as [E|E]; [now left|].
    right. apply E. unfold succeedsb in Su. unfold succeeds. destruct (JsonModel.write_value ex_oracle ex_mv k false y) as [l| |]; try discriminate. now exists l. }
  intros I O G. cbn in I. repeat (destruct I as [<-|I]; [vm_compute in G; try discriminate G; injection G as <-; apply W; vm_compute; reflexivity|]). contradiction.
Qed.
Definition ex_start_tokens : list token :=
  tokens (JObj [("node", JObj [("name", JStr "x")]); ("nodes", JArr [JObj [("name", JStr "y")]; JObj [("name", JStr "z")]]); ("ready", JBool true); ("state", JStr "ready");
                ("tags", JArr [JStr "a"; JStr "b"])]).
Lemma ex_run_start : call_function ex_oracle (kind_constants ex_mv) ex_mstructures ex_mfunctions 100 10 (write_request_func (is_root ex_mr) ex_mr ex_start)
  [RStruct (request_structure ex_mv ex_start ex_start_fields); RWriter] (MkState (WOk []) []) = Gives RNil (MkState (WOk ex_start_tokens) []).
Proof. vm_compute. reflexivity. Qed.

(** The request of a method where the body is one object. *)
Definition ex_machine_type : typ := match mget "machine" (v_types ex_mv) with Some t => t | None => ex_t end.
Definition ex_machine_object : object := MkObject 1 "1" "" (map (fun a => field_zero ex_mv (a_type a)) (t_attrs ex_machine_type)).
Definition ex_add_fields : list (string * value) := [("body", VObject ex_machine_object)].
Definition ex_body_param : parameter := hd (MkParameter nBody "" false false None "" []) (m_params ex_madd).
Lemma ex_add_carries : carries ex_mv ex_madd ex_add_fields (request_structure ex_mv ex_madd ex_add_fields).
Proof. intros p I O. cbn in I. repeat (destruct I as [<-|I]; [try discriminate O; vm_compute; reflexivity|]). contradiction. Qed.
Lemma ex_add_typed : RequestSpec.fields_typed ex_mv ex_add_fields (filter p_in (m_params ex_madd)).
Proof.
  intros p x I G. cbn in I. repeat (destruct I as [<-|I]; [vm_compute in G; try discriminate G; injection G as <-; right; apply typedb_sound; vm_compute; reflexivity|]). contradiction.
Qed.
Lemma ex_add_whole : RequestSpec.request_whole ex_madd ex_body_param /\ p_type ex_body_param = "machine".
Proof.
  split; [|reflexivity]. left. exists ["add"]. split; [cbn; tauto|]. split; [reflexivity|]. exists [], (tl (m_params ex_madd)). split; [reflexivity|]. split; [reflexivity|constructor].
Qed.
Lemma ex_add_printable : typed ex_mv "machine" false (VObject ex_machine_object) /\ printable ex_oracle ex_mv "machine" (VObject ex_machine_object).
Proof.
  pose proof ex_mrunning as (S & R & _). pose proof (ready_compiles ex_mv R) as Co.
  assert (T : typed ex_mv "machine" false (VObject ex_machine_object)) by (apply typedb_sound; vm_compute; reflexivity). split; [exact T|].
  destruct (value_succeeds ex_oracle ex_mv S (compiled_version ex_mv Co) (proj2 ex_faithful) _ _ _ T) as [E|E]; [discriminate|]. apply E.
  eexists. vm_compute. reflexivity.
Qed.
Lemma ex_run_add : exists l, call_function ex_oracle (kind_constants ex_mv) ex_mstructures ex_mfunctions 100 10 (write_request_func (is_root ex_mr) ex_mr ex_madd)
  [RStruct (request_structure ex_mv ex_madd ex_add_fields); RWriter] (MkState (WOk []) []) = Gives RNil (MkState (WOk l) []) /\ 1 < length l.
Proof. eexists. split; [vm_compute; reflexivity|]. cbn. repeat constructor. Qed.

(** The responses. *)
Definition response_structure (m : method) : list (string * gv) := ("status", RInt 200) :: map (fun p => (client_field p, RNil)) (filter p_out (m_params m)).
Lemma response_structure_has m : has_fields m (response_structure m).
Proof.
  intros p I O E. apply mget_none in E. apply E. cbn [response_structure mkeys map]. right. unfold mkeys. rewrite map_map. cbn [fst].
  apply in_map_iff. exists p. split; [reflexivity|]. apply filter_In. auto.
Qed.
Definition ex_some_machine : value := VObject (MkObject 522 "7" ""
  (map (fun a => if String.eqb (go_private (a_name a)) "count" then VScalar (SInt 3) else if String.eqb (go_private (a_name a)) "name" then VScalar (SString "a") else field_zero ex_mv (a_type a)) (t_attrs ex_machine_type))).
Definition ex_machine_json : json := JObj [("kind", JStr "Machine"); ("id", JStr "7"); ("count", JNum "3"); ("name", JStr "a")].
Lemma ex_machine_represented : RequestSpec.represents ex_oracle ex_mv "machine" ex_some_machine ex_machine_json.
Proof. split; [apply typedb_sound; vm_compute; reflexivity|]. split; [discriminate|]. split; [apply losslessb_sound; vm_compute; reflexivity|vm_compute; reflexivity]. Qed.
Lemma ex_response_whole : RequestSpec.response_whole ex_madd ex_body_param.
Proof. left. exists ["add"]. split; [cbn; tauto|]. split; [reflexivity|]. exists [], (tl (m_params ex_madd)). split; [reflexivity|]. split; [reflexivity|constructor]. Qed.
Lemma ex_receive_add : exists l, receive ex_oracle ex_mv ex_mstructures ex_mfunctions 100 50 (read_response_func (is_root ex_mr) ex_mr ex_madd) (RStruct (response_structure ex_madd)) (MkState (WOk []) (tokens ex_machine_json)) =
  Received RNil (RStruct l) (MkState (WOk []) []) /\ mget "body" l = Some (run_value ex_mv "machine" ex_some_machine) /\ mget "status" l = Some (RInt 200).
Proof. eexists. split; [vm_compute; reflexivity|]. vm_compute. auto. Qed.

Definition ex_page_answer : list (string * json) := [("kind", JStr "MachineList"); ("page", JNum "2"); ("items", JArr [ex_machine_json; ex_machine_json])].
Definition ex_list_param (n : string) : parameter :=
  match find (fun p => String.eqb (go_private (p_name p)) n) (m_params ex_mlist) with Some p => p | None => ex_body_param end.
Lemma ex_machines_represented : RequestSpec.represents ex_oracle ex_mv "machine_list" (VSlice [ex_some_machine; ex_some_machine]) (JArr [ex_machine_json; ex_machine_json]).
Proof. split; [apply typedb_sound; vm_compute; reflexivity|]. split; [discriminate|]. split; [apply losslessb_sound; vm_compute; reflexivity|vm_compute; reflexivity]. Qed.
Lemma ex_two_represented : RequestSpec.represents ex_oracle ex_mv "integer" (VScalar (SInt 2)) (JNum "2").
Proof. split; [apply typedb_sound; vm_compute; reflexivity|]. split; [discriminate|]. split; [apply losslessb_sound; vm_compute; reflexivity|vm_compute; reflexivity]. Qed.
Lemma ex_mlist_members p f : RequestSpec.response_parameter ex_mlist p -> RequestSpec.member_for ex_mlist p f -> f = go_private (p_name p) /\ In p (map ex_list_param ["items"; "page"; "size"; "total"]).
Proof.
  intros (I & O & _) M. cbn in I. destruct I as [<-|[<-|[<-|[<-|[<-|[]]]]]]; [discriminate O| | | |]; (split; [|vm_compute; tauto]).
  - destruct M as [[_ ->]|[_ ->]]; reflexivity.
  - destruct M as [[[_ C] _]|[_ ->]]; [discriminate|reflexivity].
  - destruct M as [[[_ C] _]|[_ ->]]; [discriminate|reflexivity].
  - destruct M as [[[_ C] _]|[_ ->]]; [discriminate|reflexivity].
Qed.
Lemma ex_mlist_separable : RequestSpec.separable ex_mlist.
Proof.
  assert (N : forall p q, In p (m_params ex_mlist) -> In q (m_params ex_mlist) -> go_private (p_name p) = go_private (p_name q) -> p = q).
  { intros p q [<-|[<-|[<-|[<-|[<-|[]]]]]] [<-|[<-|[<-|[<-|[<-|[]]]]]]; vm_compute; intros H; first [reflexivity|discriminate]. }
  split; [|split; [|split]].
  - intros p q Ip Iq E. apply N; auto. unfold go_private. now rewrite E.
  - intros p q f Rp Rq Mp Mq. apply N; [exact (proj1 Rp)|exact (proj1 Rq)|]. destruct (ex_mlist_members p f Rp Mp) as (<- & _), (ex_mlist_members q f Rq Mq) as (E & _). exact E.
  - intros p q Rp Rq. apply N; [exact (proj1 Rp)|exact (proj1 Rq)].
  - intros _ p ws I Iw Cw. split; [exact I|]. split; [|intros C; discriminate]. destruct I as [<-|[<-|[<-|[<-|[<-|[]]]]]]; try reflexivity.
    exfalso. cbn in Iw. repeat (destruct Iw as [<-|Iw]; [discriminate Cw|]). exact Iw.
Qed.
Lemma ex_page_represented p f j : RequestSpec.response_parameter ex_mlist p -> RequestSpec.member_for ex_mlist p f -> In (f, j) ex_page_answer -> exists x, RequestSpec.represents ex_oracle ex_mv (p_type p) x j.
Proof.
  intros Rp Mp I. destruct (ex_mlist_members p f Rp Mp) as (-> & Ip). unfold map in Ip.
  assert (E1 : go_private (p_name (ex_list_param "items")) = "items") by (vm_compute; reflexivity). assert (T1 : p_type (ex_list_param "items") = "machine_list") by (vm_compute; reflexivity).
  assert (E2 : go_private (p_name (ex_list_param "page")) = "page") by (vm_compute; reflexivity). assert (T2 : p_type (ex_list_param "page") = "integer") by (vm_compute; reflexivity).
  assert (E3 : go_private (p_name (ex_list_param "size")) = "size") by (vm_compute; reflexivity). assert (E4 : go_private (p_name (ex_list_param "total")) = "total") by (vm_compute; reflexivity).
  destruct Ip as [<-|[<-|[<-|[<-|[]]]]]; [rewrite E1 in I|rewrite E2 in I|rewrite E3 in I|rewrite E4 in I]; unfold ex_page_answer in I; destruct I as [I|[I|[I|[]]]]; try discriminate I; injection I as <-.
  - exists (VSlice [ex_some_machine; ex_some_machine]). rewrite T1. exact ex_machines_represented.
  - exists (VScalar (SInt 2)). rewrite T2. exact ex_two_represented.
Qed.
Lemma ex_page_clean : clean (JObj ex_page_answer) /\ NoDup (map fst ex_page_answer) /\ response_params ex_mlist <> [].
Proof. split; [apply cleanb_sound; vm_compute; reflexivity|]. split; [repeat constructor; cbn; intuition discriminate|vm_compute; discriminate]. Qed.
Lemma ex_receive_list : exists l, receive ex_oracle ex_mv ex_mstructures ex_mfunctions 200 200 (read_response_func (is_root ex_mr) ex_mr ex_mlist) (RStruct (response_structure ex_mlist)) (MkState (WOk []) (tokens (JObj ex_page_answer))) =
  Received RNil (RStruct l) (MkState (WOk []) []) /\ mget "items" l = Some (run_value ex_mv "machine_list" (VList "" false (VSlice [ex_some_machine; ex_some_machine]))) /\
  mget "page" l = Some (RPtr (RInt 2)) /\ mget "size" l = Some RNil /\ mget "total" l = Some RNil.
Proof. eexists. split; [vm_compute; reflexivity|]. vm_compute. auto. Qed.

(** The response of an action, with parameters of all the kinds. *)
Definition ex_start_response : json :=
  JObj [("labels", JObj [("x", JStr "y")]); ("node", JObj [("name", JStr "x")]); ("nodes", JArr [JObj [("name", JStr "y")]]); ("other", JArr [JNull]); ("ready", JBool true); ("tags", JArr [JStr "a"])].
Lemma ex_receive_start : exists fields l, RequestModel.read_response ex_oracle ex_mv ex_start (tokens ex_start_response) = Ok fields [] /\ length fields = 5 /\
  receive ex_oracle ex_mv ex_mstructures ex_mfunctions 200 200 (read_response_func (is_root ex_mr) ex_mr ex_start) (RStruct (response_structure ex_start)) (MkState (WOk []) (tokens ex_start_response)) =
  Received RNil (RStruct l) (MkState (WOk []) []) /\ mget "ready" l = Some (RPtr (RBool true)) /\ mget "tags" l = Some (RSlice [RString "a"]) /\ mget "created" l = Some RNil.
Proof. do 2 eexists. split; [vm_compute; reflexivity|]. split; [reflexivity|]. split; [vm_compute; reflexivity|]. vm_compute. auto. Qed.
(** A document that isn't correct. *)
Lemma ex_receive_wrong : RequestModel.read_response ex_oracle ex_mv ex_start (tokens (JObj [("ready", JNum "1")])) = Failed /\
  receive ex_oracle ex_mv ex_mstructures ex_mfunctions 200 200 (read_response_func (is_root ex_mr) ex_mr ex_start) (RStruct (response_structure ex_start)) (MkState (WOk []) (tokens (JObj [("ready", JNum "1")]))) =
  Interrupted WrongDocument.
Proof. split; vm_compute; reflexivity. Qed.

(** The last statement of some of the functions. *)
Definition ex_last (name : string) : option stm := match find (fun fn => String.eqb (fn_name fn) name) ex_mfunctions with Some fn => hd_error (rev (fn_body fn)) | None => None end.
Lemma ex_errors : json_code ex_package ex_mv = Done (ex_mfunctions, []) /\ length ex_mfunctions = 74 /\
  ex_last "readMachinesListResponse" = Some (TReturn [XField (XVar "iterator") "Error"]) /\ ex_last "readMachinesAddResponse" = Some (TReturn [XVar "err"]) /\
  ex_last "writeMachinesStartRequest" = Some (TReturn [XField (XVar "stream") "Error"]) /\ ex_last "readMachineDeleteResponse" = Some (TReturn [XNil]) /\
  ex_last "UnmarshalMachine" = Some (TReturn []).
Proof. split; [exact (proj1 (proj2 (proj2 ex_mrunning)))|]. vm_compute. repeat split. Qed.
