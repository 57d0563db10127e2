(** Examples for the properties of the execution of the code that reads and writes JSON documents. *)
From Coq Require Import Ascii String Bool Arith ZArith NArith List.
From Verif Require Import GoStrings GoMap GoMapProofs NamesModel ConceptsModel ReporterModel BindingModel GoNamesModel DeclsModel ChecksModel GoTypesModel GoTypesSpec GoTypesExamples
  ObjectsModel ObjectsSpec ObjectsExamples JsonModel JsonSpec JsonExamples JsonCodeModel JsonCodeSpec JsonCodeExamples JsonRunSpec.
Import ListNotations.
Local Open Scope string_scope.

Definition declared_onceb (v : version) (fs : list func) : bool :=
  nodupb (map fn_name fs) && forallb (fun fn => forallb ident_char (list_ascii_of_string (fn_name fn))) fs && nodupb (map fst (kind_constants v)) && forallb (fun t => negb (is_struct t) || nodupb (object_fields t)) (types v).
Lemma declared_onceb_sound v fs : declared_onceb v fs = true -> declared_once v fs.
Proof.
  unfold declared_onceb. rewrite !andb_true_iff, !forallb_forall. intros [[[H1 H2] H3] H4]. split; [now apply nodupb_sound|]. split.
  - apply Forall_forall. intros fn I. specialize (H2 fn I). now rewrite forallb_forall in H2.
  - split; [now apply nodupb_sound|]. intros t I K. apply nodupb_sound. specialize (H4 t I). unfold is_struct in H4. destruct K as [K|K]; rewrite K in H4; exact H4.
Qed.

Definition ex_package : string := "example.com/model".
Definition ex_functions : list func := Eval vm_compute in match json_code ex_package ex_v with Done (fs, _) => fs | _ => [] end.
Definition ex_structures (n : string) : option (list (string * gv)) := None.

Definition types_readyb (v : version) : bool :=
  nodupb (mkeys (v_types v)) && forallb (fun t => match t_kind t with ClassType | StructType => type_readyb v t | ListType => element_existsb v t | _ => true end) (types v).
Lemma types_ready_sound v : flat_map r_methods (resources v) = [] -> types_readyb v = true -> json_ready v.
Proof.
  intros N H. apply andb_true_iff in H as [H1 H2]. rewrite forallb_forall in H2. split; [now apply nodupb_sound|]. split; [|split].
  - intros t T K. specialize (H2 t T). destruct K as [K|K]; rewrite K in H2; now apply type_readyb_sound.
  - intros t T K. specialize (H2 t T). rewrite K in H2. unfold element_existsb in H2. destruct (t_element t) as [e|]; [|discriminate]. destruct (mget e (v_types v)) as [te|] eqn:G; [|discriminate]. eauto.
  - intros r m I J. exfalso. assert (X : In m (flat_map r_methods (resources v))) by (apply in_flat_map; eauto). rewrite N in X. exact X.
Qed.
Lemma ex_ready : json_ready ex_v.
Proof. apply types_ready_sound; vm_compute; reflexivity. Qed.
Lemma ex_running : running ex_package ex_v ex_functions.
Proof.
  split; [exact ex_standard|]. split; [exact ex_ready|]. split; [vm_compute; reflexivity|]. apply declared_onceb_sound. vm_compute. reflexivity.
Qed.
Lemma ex_t_found : mget "thing" (v_types ex_v) = Some ex_t.
Proof. vm_compute. reflexivity. Qed.
Lemma ex_l_found : mget "thing_list" (v_types ex_v) = Some ex_l /\ t_kind ex_l = ListType.
Proof. vm_compute. auto. Qed.
Definition ex_state : state := MkState (WOk []) [].
Lemma ex_run_object : call_function ex_oracle (kind_constants ex_v) ex_structures ex_functions 100 10 (marshal_func ex_t) [run_value ex_v "thing" (VObject ex_object); RWriter] ex_state =
  Gives RNil (MkState (WOk ex_tokens) []).
Proof. vm_compute. reflexivity. Qed.
Lemma ex_run_items : call_function ex_oracle (kind_constants ex_v) ex_structures ex_functions 100 10 (marshal_func ex_l) [run_value ex_v "thing_list" (VSlice ex_items); RWriter] ex_state =
  Gives RNil (MkState (WOk ex_items_tokens) []).
Proof. vm_compute. reflexivity. Qed.

(** The structures of a version. *)
Definition version_structures (v : version) : list (string * list (string * gv)) :=
  flat_map (fun kt => let t := snd kt in if is_struct t then
    [(object_name t, (("bitmap_", RBits 0) :: (if is_class t then [("id", RString ""); ("href", RString "")] else [])
       ++ map (fun a => (attribute_field a, run_value v (a_type a) (field_zero v (a_type a)))) (t_attrs t))%list);
     (object_name t ++ "List", run_list "" false RNil)] else []) (v_types v).
Lemma version_structures_declared v : nodupb (mkeys (version_structures v)) = true -> declares v (fun n => mget n (version_structures v)).
Proof.
  intros N k t G K. apply nodupb_sound in N. apply mget_in in G.
  assert (S : is_struct t = true) by (unfold is_struct; destruct K as [K|K]; rewrite K; reflexivity).
  split; (apply mget_in_iff; [exact N|]; unfold version_structures; apply in_flat_map; exists (k, t); split; [exact G|]; cbn [snd]; rewrite S; cbn [In]; tauto).
Qed.
Definition ex_declared (n : string) : option (list (string * gv)) := mget n (version_structures ex_v).
Lemma ex_reading : reading ex_package ex_v ex_functions ex_declared.
Proof.
  split; [exact ex_running|]. split; [|split].
  - exists "example.com", "model". split; [reflexivity|]. split; [discriminate|]. intros c I. cbn in I. repeat (destruct I as [<-|I]; [split; discriminate|]). contradiction.
  - apply namedb_sound. vm_compute. reflexivity.
  - apply version_structures_declared. vm_compute. reflexivity.
Qed.
Definition ex_result (r : result object) : option object := match r with Ok b _ => Some b | _ => None end.
Lemma ex_run_read : exists b, ex_result (unmarshal_object ex_oracle ex_v ex_t ex_tokens) = Some b /\
  call_function ex_oracle (kind_constants ex_v) ex_declared ex_functions 1000 20 (unmarshal_func ex_t) [RSource] (MkState (WOk []) ex_tokens) =
    Gives (RTuple [run_value ex_v "thing" (VObject b); RNil]) (MkState (WOk []) []).
Proof. eexists. split; [vm_compute; reflexivity|]. vm_compute. reflexivity. Qed.
Lemma ex_run_wrong : call_function ex_oracle (kind_constants ex_v) ex_declared ex_functions 1000 20 (unmarshal_func ex_t) [RSource] (MkState (WOk []) (TLBracket :: ex_tokens)) =
  Ends WrongDocument.
Proof. vm_compute. reflexivity. Qed.
