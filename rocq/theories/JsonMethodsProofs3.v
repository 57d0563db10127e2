(** Proofs about the execution of the functions that write the bodies of the requests: the properties. *)
From Coq Require Import Ascii String Bool Arith ZArith NArith Lia Permutation List.
From Verif Require Import GoStrings GoMap GoMapProofs NamesModel ConceptsModel ReporterModel BindingModel GoNamesModel DeclsModel ChecksModel GoTypesModel ObjectsModel ObjectsSpec
  JsonModel JsonSpec JsonProofs3 JsonProofs6 ClientsModel JsonCodeModel JsonCodeSpec JsonRunSpec JsonMethodsSpec JsonRunProofs6 JsonMethodsProofs2 BindingSpec BindingProofs.
From Verif Require RequestModel RequestSpec RequestProofs3.
Import ListNotations.
Local Open Scope string_scope.

Lemma run_request o pkg v fs structures limit r m l fields : faithful o -> running pkg v fs -> In r (resources v) -> In m (r_methods r) ->
  carries v m fields l -> RequestSpec.fields_typed v fields (filter p_in (m_params m)) ->
  exists n0, forall n i, n0 <= n -> run o v structures fs limit n (write_request_func (is_root r) r m) [RStruct l; RWriter] (MkState (WOk []) i) =
    ended (RequestModel.write_request o v m fields) (MkState (WOk []) i).
Proof.
  intros F (S & R & C & O) I J Ca T. pose proof R as (_ & _ & _ & RM).
  exact (request_runs o pkg v fs [] structures limit F S C O (ready_full v R) r m l fields (RM r m I J) Ca T I J).
Qed.

Lemma run_whole_request o pkg v fs structures limit r m l fields p x : faithful o -> running pkg v fs -> In r (resources v) -> In m (r_methods r) ->
  carries v m fields l -> RequestSpec.fields_typed v fields (filter p_in (m_params m)) ->
  RequestSpec.request_whole m p -> mget (go_private (p_name p)) fields = Some x -> x <> VNil -> typed v (p_type p) false x -> printable o v (p_type p) x ->
  exists n0 j, well_formed j /\ shows o v (p_type p) x j /\
    forall n i, n0 <= n -> run o v structures fs limit n (write_request_func (is_root r) r m) [RStruct l; RWriter] (MkState (WOk []) i) = Gives RNil (MkState (WOk (tokens j)) i).
Proof.
  intros F R I J Ca T Wh G N Tx P. destruct (run_request o pkg v fs structures limit r m l fields F R I J Ca T) as [n0 H]. destruct R as (S & R & _). pose proof (ready_compiles v R) as Co.
  destruct (proj2 (or_ind (fun H => False_ind _ (N H)) (fun H => H) (value_succeeds o v S (compiled_version v Co) (proj2 F) x (p_type p) false Tx)) P) as (w & W).
  destruct (RequestProofs3.value_document o v S Co F _ _ _ Tx N W) as (El & Wf & Sh & _). eexists n0, _. split; [exact Wf|]. split; [exact Sh|]. intros n i Le.
  rewrite H by exact Le. rewrite (RequestProofs3.whole_written o v m p fields Wh). unfold RequestModel.field_at, json_field. rewrite G, W, <- El. reflexivity.
Qed.

Lemma parameters_succeed o v fields l : standard v -> compiles v -> faithful o -> RequestSpec.fields_typed v fields l ->
  (forall p x, In p l -> mget (go_private (p_name p)) fields = Some x -> x = VNil \/ printable o v (p_type p) x) ->
  forall count, exists r, RequestModel.write_parameters o v count l fields = WOk r.
Proof.
  intros S Co F. induction l as [|p l IH]; intros T P count; [now exists []|]. cbn [RequestModel.write_parameters]. unfold RequestModel.field_at, json_field.
  assert (N : forall c, exists r, RequestModel.write_parameters o v c l fields = WOk r) by (apply IH; intros q x I; [apply T|apply P]; now right).
  destruct (mget (go_private (p_name p)) fields) as [x|] eqn:G; [|apply N].
  assert (X : x = VNil \/ exists r, JsonModel.write_value o v (p_type p) false x = WOk r).
  { destruct (T p x (or_introl eq_refl) G) as [->|Tx]; [now left|]. destruct (P p x (or_introl eq_refl) G) as [->|Px]; [now left|].
    destruct (value_succeeds o v S (compiled_version v Co) (proj2 F) x (p_type p) false Tx) as [->|Su]; [now left|]. right. exact (proj2 Su Px). }
  destruct X as [->|(r & W)]; [apply N|]. destruct (N (count + 1)) as (r' & W').
  destruct x; try apply N; rewrite W, W'; destruct (Nat.ltb 0 count); eexists; reflexivity.
Qed.

Lemma run_action_request o pkg v fs structures limit r m l fields : faithful o -> running pkg v fs -> In r (resources v) -> In m (r_methods r) ->
  carries v m fields l -> RequestSpec.fields_typed v fields (filter p_in (m_params m)) ->
  action m -> filter p_in (m_params m) <> [] ->
  (forall p x, In p (m_params m) -> p_in p = true -> mget (go_private (p_name p)) fields = Some x -> x = VNil \/ printable o v (p_type p) x) ->
  exists n0 ms, well_formed (JObj ms) /\ RequestSpec.shows_parameters o v fields (filter p_in (m_params m)) ms /\
    forall n i, n0 <= n -> run o v structures fs limit n (write_request_func (is_root r) r m) [RStruct l; RWriter] (MkState (WOk []) i) = Gives RNil (MkState (WOk (tokens (JObj ms))) i).
Proof.
  intros F R I J Ca T A N P. destruct (run_request o pkg v fs structures limit r m l fields F R I J Ca T) as [n0 H]. destruct R as (S & R & _). pose proof (ready_compiles v R) as Co.
  assert (E : request_body_params v m = filter p_in (m_params m)) by (unfold request_body_params; now rewrite (proj2 (is_action_spec m) A)).
  assert (W : exists w, RequestModel.write_request o v m fields = WOk w).
  { destruct (RequestProofs3.action_kinds m A) as (K1 & K2 & K3 & K4 & K5 & K6 & K7 & K8 & K9). unfold RequestModel.write_request. rewrite K1, K2, K3, K4, K5, K6, K7, K8, K9. cbn [orb]. rewrite E.
    destruct (parameters_succeed o v fields (filter p_in (m_params m)) S Co F T ltac:(intros p x Ip; apply filter_In in Ip as [Ip Op]; now apply P) 0) as (w & W).
    destruct (filter p_in (m_params m)); [contradiction|]. rewrite W. eexists. reflexivity. }
  destruct W as (w & W). rewrite <- E in T, N |- *. destruct (RequestProofs3.action_written o v S Co F m fields w A N T W) as (ms & -> & Wf & Sh).
  exists n0, ms. split; [exact Wf|]. split; [exact Sh|]. intros n i Le. rewrite H, W by exact Le. reflexivity.
Qed.
