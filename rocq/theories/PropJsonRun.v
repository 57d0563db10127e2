(** Properties of the execution of the generated code that reads and writes JSON documents. *)
From Coq Require Import Ascii String Bool Arith ZArith NArith List.
From Verif Require Import GoStrings GoMap NamesModel ConceptsModel ReporterModel BindingModel GoNamesModel ChecksModel
  ObjectsModel ObjectsSpec ObjectsExamples JsonModel JsonSpec JsonExamples JsonCodeModel JsonRunSpec JsonRunProofs6 JsonRunProofs12 JsonRunExamples.
Import ListNotations.
Local Open Scope string_scope.

(** * C84: executing the generated functions that write objects and lists gives the documents *)

Theorem C84_objects_run : forall o pkg v fs structures limit k t b, faithful o -> running pkg v fs -> mget k (v_types v) = Some t -> structural t -> object_typed v t b ->
  exists n0, forall n s, (n0 <= n)%nat ->
    call_function o (kind_constants v) structures fs limit n (marshal_func t) [run_value v k (VObject b); RWriter] s = ended (marshal_object o v t (Some b)) s.
Proof. exact run_object. Qed.
Print Assumptions C84_objects_run.

Theorem C84_objects_documents : forall o pkg v fs structures limit k t b, faithful o -> running pkg v fs -> mget k (v_types v) = Some t -> structural t -> object_typed v t b ->
  object_printable o v t b ->
  exists n0 j, well_formed j /\ shows_object o v t b j /\
    forall n s, (n0 <= n)%nat ->
      call_function o (kind_constants v) structures fs limit n (marshal_func t) [run_value v k (VObject b); RWriter] s = Gives RNil (MkState (WOk (tokens j)) (st_in s)).
Proof. exact run_object_document. Qed.
Print Assumptions C84_objects_documents.

Example C84_objects_example : faithful ex_oracle /\ running ex_package ex_v ex_functions /\ mget "thing" (v_types ex_v) = Some ex_t /\ structural ex_t /\
  object_typed ex_v ex_t ex_object /\ object_printable ex_oracle ex_v ex_t ex_object /\
  call_function ex_oracle (kind_constants ex_v) ex_structures ex_functions 100 10 (marshal_func ex_t) [run_value ex_v "thing" (VObject ex_object); RWriter] ex_state =
    Gives RNil (MkState (WOk ex_tokens) []).
Proof.
  split; [exact ex_faithful|]. split; [exact ex_running|]. split; [exact ex_t_found|]. split; [exact ex_structural|]. split; [exact ex_object_typed|].
  split; [exact ex_printable|exact ex_run_object].
Qed.

(** Nil pointers. *)
Theorem C84_nil_objects_panic : forall o pkg v fs structures limit k t, running pkg v fs -> mget k (v_types v) = Some t -> structural t ->
  forall n s, (2 <= n)%nat -> call_function o (kind_constants v) structures fs limit n (marshal_func t) [RNil; RWriter] s = Ends Panic.
Proof. exact run_nil. Qed.
Print Assumptions C84_nil_objects_panic.

Theorem C84_lists_run : forall o pkg v fs structures limit k t e l, faithful o -> running pkg v fs -> mget k (v_types v) = Some t -> t_kind t = ListType -> plain v t ->
  t_element t = Some e -> all1 (typed v e false) l ->
  exists n0, forall n s, (n0 <= n)%nat ->
    call_function o (kind_constants v) structures fs limit n (marshal_func t) [run_value v k (VSlice l); RWriter] s = ended (marshal_list o v e l) s.
Proof. exact run_list_value. Qed.
Print Assumptions C84_lists_run.

Theorem C84_lists_documents : forall o pkg v fs structures limit k t e l, faithful o -> running pkg v fs -> mget k (v_types v) = Some t -> t_kind t = ListType -> plain v t ->
  t_element t = Some e -> all1 (typed v e false) l -> all1 (fun y => y <> VNil /\ printable o v e y) l ->
  exists n0 m, well_formed (JArr m) /\ all2 (fun y x => shows o v e x y) m l /\
    forall n s, (n0 <= n)%nat ->
      call_function o (kind_constants v) structures fs limit n (marshal_func t) [run_value v k (VSlice l); RWriter] s = Gives RNil (MkState (WOk (tokens (JArr m))) (st_in s)).
Proof. exact run_list_document. Qed.
Print Assumptions C84_lists_documents.

Example C84_lists_example : mget "thing_list" (v_types ex_v) = Some ex_l /\ t_kind ex_l = ListType /\ plain ex_v ex_l /\ t_element ex_l = Some "thing" /\
  all1 (typed ex_v "thing" false) ex_items /\
  call_function ex_oracle (kind_constants ex_v) ex_structures ex_functions 100 10 (marshal_func ex_l) [run_value ex_v "thing_list" (VSlice ex_items); RWriter] ex_state =
    Gives RNil (MkState (WOk ex_items_tokens) []).
Proof.
  split; [exact (proj1 ex_l_found)|]. split; [exact (proj2 ex_l_found)|]. split; [exact ex_plain|]. split; [exact ex_element|]. split; [exact ex_items_typed|exact ex_run_items].
Qed.

(** * C85: executing the generated functions that read objects and lists gives the objects and the lists *)

Theorem C85_objects_read : forall o pkg v fs structures limit k t w l n, reading pkg v fs structures -> mget k (v_types v) = Some t -> structural t ->
  (2 * length l + 4 <= n)%nat -> (2 * length l + 2 <= limit)%nat ->
  call_function o (kind_constants v) structures fs limit n (unmarshal_func t) [RSource] (MkState w l) =
  parsed (unmarshal_object o v t l) (fun b => run_value v k (VObject b)) w.
Proof. exact run_read_object. Qed.
Print Assumptions C85_objects_read.

Theorem C85_lists_read : forall o pkg v fs structures limit k t e w l n, reading pkg v fs structures -> mget k (v_types v) = Some t -> t_kind t = ListType -> plain v t ->
  t_element t = Some e -> (2 * length l + 4 <= n)%nat -> (2 * length l + 2 <= limit)%nat ->
  call_function o (kind_constants v) structures fs limit n (unmarshal_func t) [RSource] (MkState w l) =
  parsed (unmarshal_list o v e l) (fun m => run_value v k (VSlice m)) w.
Proof. exact run_read_list. Qed.
Print Assumptions C85_lists_read.

Theorem C85_reading_ends : forall o pkg v fs structures limit k t w l n, reading pkg v fs structures -> mget k (v_types v) = Some t ->
  structural t \/ (t_kind t = ListType /\ plain v t) -> (2 * length l + 4 <= n)%nat -> (2 * length l + 2 <= limit)%nat ->
  call_function o (kind_constants v) structures fs limit n (unmarshal_func t) [RSource] (MkState w l) = Ends WrongDocument \/
  exists g rest, call_function o (kind_constants v) structures fs limit n (unmarshal_func t) [RSource] (MkState w l) = Gives (RTuple [g; RNil]) (MkState w rest).
Proof. exact run_ends. Qed.
Print Assumptions C85_reading_ends.

Theorem C85_presence_after_reading : forall o pkg v fs structures limit k t w l g s n, reading pkg v fs structures -> mget k (v_types v) = Some t -> structural t ->
  clean (JObj l) -> (2 * length (tokens (JObj l)) + 4 <= n)%nat -> (2 * length (tokens (JObj l)) + 2 <= limit)%nat ->
  call_function o (kind_constants v) structures fs limit n (unmarshal_func t) [RSource] (MkState w (tokens (JObj l))) = Gives g s ->
  exists r, g = RTuple [run_value v k (VObject r); RNil] /\ s = MkState w [] /\
    (forall i a, nth_error (t_attrs t) i = Some a -> (present t i r <-> In (attribute_name a) (map fst l))) /\
    (t_kind t = ClassType -> (has_id r <-> In "id" (map fst l)) /\ (has_href r <-> In "href" (map fst l)) /\ (is_link r <-> In ("kind", JStr (object_name t ++ "Link")) l)).
Proof. exact run_presence. Qed.
Print Assumptions C85_presence_after_reading.

Theorem C85_objects_return : forall o pkg v fs structures k t b, faithful o -> reading pkg v fs structures -> mget k (v_types v) = Some t -> structural t ->
  object_typed v t b -> object_printable o v t b -> object_lossless v t b ->
  exists l r, same_object v t b r /\ forall limit, (2 * length l + 2 <= limit)%nat -> exists n0, forall n s w, (n0 <= n)%nat ->
    call_function o (kind_constants v) structures fs limit n (marshal_func t) [run_value v k (VObject b); RWriter] s = Gives RNil (MkState (WOk l) (st_in s)) /\
    call_function o (kind_constants v) structures fs limit n (unmarshal_func t) [RSource] (MkState w l) = Gives (RTuple [run_value v k (VObject r); RNil]) (MkState w []).
Proof. exact run_object_returns. Qed.
Print Assumptions C85_objects_return.

Theorem C85_lists_return : forall o pkg v fs structures k t e l, faithful o -> reading pkg v fs structures -> mget k (v_types v) = Some t -> t_kind t = ListType -> plain v t ->
  t_element t = Some e -> all1 (typed v e false) l -> all1 (fun y => y <> VNil /\ printable o v e y) l -> all1 (lossless v e) l ->
  exists r m, all2 (fun y x => same v e false x y) m l /\ forall limit, (2 * length r + 2 <= limit)%nat -> exists n0, forall n s w, (n0 <= n)%nat ->
    call_function o (kind_constants v) structures fs limit n (marshal_func t) [run_value v k (VSlice l); RWriter] s = Gives RNil (MkState (WOk r) (st_in s)) /\
    call_function o (kind_constants v) structures fs limit n (unmarshal_func t) [RSource] (MkState w r) = Gives (RTuple [run_value v k (VSlice m); RNil]) (MkState w []).
Proof. exact run_list_returns. Qed.
Print Assumptions C85_lists_return.

Example C85_reading_example : reading ex_package ex_v ex_functions ex_declared /\ object_lossless ex_v ex_t ex_object /\ all1 (lossless ex_v "thing") ex_items /\
  (exists b, ex_result (unmarshal_object ex_oracle ex_v ex_t ex_tokens) = Some b /\
     call_function ex_oracle (kind_constants ex_v) ex_declared ex_functions 1000 20 (unmarshal_func ex_t) [RSource] (MkState (WOk []) ex_tokens) =
       Gives (RTuple [run_value ex_v "thing" (VObject b); RNil]) (MkState (WOk []) [])) /\
  call_function ex_oracle (kind_constants ex_v) ex_declared ex_functions 1000 20 (unmarshal_func ex_t) [RSource] (MkState (WOk []) (TLBracket :: ex_tokens)) = Ends WrongDocument.
Proof. split; [exact ex_reading|]. split; [exact ex_lossless|]. split; [exact ex_items_lossless|]. split; [exact ex_run_read|exact ex_run_wrong]. Qed.
