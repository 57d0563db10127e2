(** Requests whose bodies conform to the schemas of the methods. *)
From Coq Require Import Ascii String Bool Arith ZArith NArith Lia List.
From Verif Require Import OpenapiSpec OpenapiProofs5 OpenapiExamples.
From Verif Require Import ConformSpec ConformProofs ConformProofs2 ConformProofs3 ConformExamples.
From Verif Require Import GoStrings GoMap GoMapProofs NamesModel ConceptsModel ReporterModel BindingModel BindingSpec GoNamesModel GoTimeModel ReaderModel ReaderSpec ReaderExamples BufferModel ChecksModel OpenapiModel BufferExamples ChecksSpec
  HelpersModel HelpersSpec HelpersExamples ObjectsModel ObjectsSpec ObjectsProofs2 ObjectsExamples JsonModel JsonSpec JsonProofs JsonProofs3 JsonProofs5 JsonProofs6 JsonProofs8 JsonExamples JsonTextModel JsonTextSpec ApiErrorModel RequestModel RequestSpec RequestExamples.
Import ListNotations.
Local Open Scope string_scope.


(** * Requests *)

Definition ex_root_resource : resource := match mget "root" (v_resources ex_w) with Some r => r | None => new_resource (parse_using_case "Root") end.
Definition ex_locator : locator := nth 0 (r_locators ex_root_resource) (MkLocator (parse_using_case "x") false None "" []).
Definition ex_path : list locator := [ex_locator].
Definition ex_target : resource := match mget "things" (v_resources ex_w) with Some r => r | None => new_resource (parse_using_case "Things") end.
Definition ex_method (i : nat) : method := nth i (r_methods ex_target) (MkMethod (parse_using_case "x") [] "" []).
Definition ex_w_add : method := ex_method 0.
Definition ex_w_rename : method := ex_method 1.
Lemma ex_w_unambiguous : unambiguous ex_s ex_w.
Proof. apply distinct_unambiguous, distinctb_sound. vm_compute. reflexivity. Qed.
Lemma ex_w_leads : leads ex_w ex_path ex_target.
Proof.
  exists "things". split; [|vm_compute; reflexivity].
  apply (walk_cons ex_w "root" ex_locator "things" [] "things"); [|constructor].
  exists ex_root_resource. split; [vm_compute; reflexivity|]. split; [apply nth_In; apply Nat.ltb_lt; vm_compute; reflexivity|vm_compute; reflexivity].
Qed.
Lemma ex_w_methods : In ex_w_add (r_methods ex_target) /\ In ex_w_rename (r_methods ex_target).
Proof. unfold ex_w_add, ex_w_rename, ex_method. split; apply nth_In; apply Nat.ltb_lt; vm_compute; reflexivity. Qed.
Definition ex_w_body : parameter := nth 0 (m_params ex_w_add) (MkParameter (parse_using_case "x") "" false false None "" []).
Lemma ex_w_add_whole : request_whole ex_w_add ex_w_body /\ request_body_params ex_w ex_w_add = [ex_w_body].
Proof.
  split; [|vm_compute; reflexivity]. left. exists ["add"]. split; [now left|]. split; [vm_compute; reflexivity|]. exists [], (skipn 1 (m_params ex_w_add)). split; [vm_compute; reflexivity|]. split; [vm_compute; reflexivity|constructor].
Qed.
Lemma printable_object o v k t b : mget k (v_types v) = Some t -> object_printable o v t b -> printable o v k (VObject b).
Proof. intros G H. cbn. rewrite G. exact H. Qed.
Lemma ex_whole_printable : object_printable ex_oracle ex_w ex_wt ex_whole.
Proof.
  assert (S : JsonProofs.succeeds (marshal_object ex_oracle ex_w ex_wt (Some ex_whole))) by (exists ex_whole_tokens; exact ex_whole_written). revert S.
  pose proof ex_whole_typed as T. revert T. generalize ex_whole. intros b T.
  apply (object_succeeds ex_oracle ex_w ex_w_standard ex_w_compiles ex_faithful ex_wt b ex_wt_structural (proj1 (ex_w_compiles _ _ ex_wt_type ex_wt_structural)) T).
Qed.
Definition ex_w_request : request := MkRequest "/api/svc/v1/things" None None [("body", VObject ex_whole)].
Lemma ex_w_sends : request_valid ex_heap ex_w_request /\ mget (go_private (p_name ex_w_body)) (rq_fields ex_w_request) = Some (VObject ex_whole) /\ p_type ex_w_body = "thing" /\
  typed ex_w "thing" false (VObject ex_whole) /\ printable ex_oracle ex_w "thing" (VObject ex_whole) /\ publishable ex_w "thing" (VObject ex_whole).
Proof.
  split; [apply ex_request_valid; cbn; auto|]. split; [vm_compute; reflexivity|]. split; [vm_compute; reflexivity|]. split; [apply typedb_sound; vm_compute; reflexivity|].
  split; [|apply publishableb_sound; vm_compute; reflexivity]. exact (printable_object ex_oracle ex_w "thing" ex_wt ex_whole ex_wt_type ex_whole_printable).
Qed.
Definition ex_w_rename_request : request := MkRequest "/api/svc/v1/things/rename" None None [("newName", VScalar (SString "x")); ("limit", VScalar (SInt 5))].
Lemma ex_w_rename_params p : In p (request_body_params ex_w ex_w_rename) ->
  (p_type p = "integer" /\ snake (p_name p) = "limit" /\ go_private (p_name p) = "limit" /\ json_name (p_annots p) = "" /\ p = nth 0 (request_body_params ex_w ex_w_rename) ex_w_body) \/
  (p_type p = "string" /\ snake (p_name p) = "new_name" /\ go_private (p_name p) = "newName" /\ json_name (p_annots p) = "" /\ p = nth 1 (request_body_params ex_w ex_w_rename) ex_w_body).
Proof.
  intros I. apply In_nth with (d := ex_w_body) in I as (n & L & E).
  assert (length (request_body_params ex_w ex_w_rename) = 2) as X by (vm_compute; reflexivity). rewrite X in L. clear X.
  destruct n as [|[|n]]; [left|right|lia]; rewrite <- E; vm_compute; auto.
Qed.
Lemma ex_w_renames : request_valid ex_heap ex_w_rename_request /\ action ex_w_rename /\ request_body_params ex_w ex_w_rename <> [] /\
  fields_typed ex_w (rq_fields ex_w_rename_request) (request_body_params ex_w ex_w_rename) /\
  (forall p y, In p (request_body_params ex_w ex_w_rename) -> mget (go_private (p_name p)) (rq_fields ex_w_rename_request) = Some y -> y <> VNil -> publishable ex_w (p_type p) y) /\
  (forall p, In p (request_body_params ex_w ex_w_rename) -> json_name (p_annots p) = "") /\
  (forall p p', In p (request_body_params ex_w ex_w_rename) -> In p' (request_body_params ex_w ex_w_rename) -> snake (p_name p) = snake (p_name p') -> p = p') /\
  exists rs e w' h' q, send_context nat string (always (Reply 204 [] "" None)) ex_oracle (fun _ => ANil) (fun _ => "0.5") (fun _ => "{}") 1 ex_w ex_w_rename ex_w_rename_request ex_heap 0 =
    Finished nat string rs e w' h' [q].
Proof.
  split; [apply ex_request_valid; cbn; auto|]. split; [apply BindingProofs.is_action_spec; vm_compute; reflexivity|]. split; [vm_compute; discriminate|]. split; [|split; [|split; [|split]]].
  - intros p x I. destruct (ex_w_rename_params p I) as [(-> & _ & -> & _)|(-> & _ & -> & _)]; intros [= <-]; right; apply typedb_sound; vm_compute; reflexivity.
  - intros p x I. destruct (ex_w_rename_params p I) as [(-> & _ & -> & _)|(-> & _ & -> & _)]; intros [= <-] _; apply publishableb_sound; vm_compute; reflexivity.
  - intros p I. destruct (ex_w_rename_params p I) as [(_ & _ & _ & H & _)|(_ & _ & _ & H & _)]; exact H.
  - intros p p' I I'. destruct (ex_w_rename_params p I) as [(_ & E & _ & _ & P)|(_ & E & _ & _ & P)], (ex_w_rename_params p' I') as [(_ & E' & _ & _ & P')|(_ & E' & _ & _ & P')]; rewrite E, E'; intros X; try discriminate X; exact (eq_trans P (eq_sym P')).
  - do 5 eexists. vm_compute. reflexivity.
Qed.

(** A list with that object. *)
Lemma structural_named t : structural t -> In (t_kind t) [EnumType; ClassType; StructType].
Proof. intros [->| ->]; cbn; auto. Qed.
Definition ex_list_tokens : list token := Eval vm_compute in tokens_of (marshal_list ex_oracle ex_w "thing" [VObject ex_whole]).
Definition ex_list_type : typ := match mget "thing_list" (v_types ex_w) with Some t => t | None => ex_wt end.
Lemma ex_whole_list : exists k t r sc, mget k (v_types ex_w) = Some t /\ t_kind t = ListType /\ plain ex_w t /\ t_element t = Some "thing" /\
  all1 (typed ex_w "thing" false) [VObject ex_whole] /\ all1 (publishable ex_w "thing") [VObject ex_whole] /\
  marshal_list ex_oracle ex_w "thing" [VObject ex_whole] = WOk r /\ type_schema ex_w k sc.
Proof.
  destruct ex_w_sends as (_ & _ & _ & T & _ & P).
  exists "thing_list", ex_list_type, ex_list_tokens. eexists. split; [vm_compute; reflexivity|]. split; [vm_compute; reflexivity|]. split; [apply plainb_sound; vm_compute; reflexivity|]. split; [vm_compute; reflexivity|].
  split; [exact (conj T I)|]. split; [exact (conj P I)|]. split; [vm_compute; reflexivity|].
  clear T P. apply (ts_list ex_w "thing_list" ex_list_type "thing" [("$ref", JStr ("#/components/schemas/" ++ camel (t_name ex_wt)))]).
  - vm_compute. reflexivity.
  - cbn. intuition discriminate.
  - vm_compute. reflexivity.
  - vm_compute. reflexivity.
  - apply (ts_named ex_w "thing" ex_wt ex_wt_type); [cbn; intuition discriminate|exact (structural_named ex_wt ex_wt_structural)].
Qed.
