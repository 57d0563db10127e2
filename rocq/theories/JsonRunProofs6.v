(** Proofs about the execution of the functions that marshal objects and lists. *)
From Coq Require Import Ascii String Bool Arith ZArith NArith Lia Permutation List.
From Verif Require Import GoStrings GoMap GoMapProofs NamesModel ConceptsModel ReporterModel BindingModel GoNamesModel GoTimeModel DeclsModel DeclsSpec DeclsProofs ChecksModel GoTypesModel
  ObjectsModel ObjectsSpec ObjectsProofs ObjectsProofs2 JsonModel JsonSpec JsonProofs3 JsonProofs6 JsonProofs8 JsonCodeModel JsonRunSpec JsonRunProofs JsonRunProofs2 JsonRunProofs3 JsonRunProofs4 JsonRunProofs5.
Import ListNotations.
Local Open Scope string_scope.

Section Version.
  Context (o : oracle) (pkg : string) (v : version) (fs : list func) (reports : list report) (structures : string -> option (list (string * gv))) (limit : nat).
  Context (FAITH : faithful o) (STD : standard v).
  Context (CODE : json_code pkg v = Done (fs, reports)) (ONCE : declared_once v fs).
  Context (FULL : forall t, In t (types v) -> t_kind t = StructType -> t_attrs t <> []).
  Notation constants := (kind_constants v).
  Notation C := (call_function o constants structures fs limit).
  Notation called := (called o v fs structures limit).
  Notation callable := (callable o v fs structures limit).
  Let ORD := proj2 FAITH.

  Lemma not_declared f : In "."%char (list_ascii_of_string f) -> find (fun fn => String.eqb (fn_name fn) f) fs = None.
  Proof.
    intros U. destruct ONCE as (_ & Id & _). clear -Id U. induction Id as [|fn fs A _ IH]; [reflexivity|]. cbn [find].
    destruct (String.eqb_spec (fn_name fn) f) as [X|_]; [|exact IH]. rewrite <- X in U. specialize (A _ U). discriminate A.
  Qed.

  Lemma marshal_runs n x text t g w : In (marshal_code x text t) fs -> x = "object" \/ x = "list" -> called (S n) (write_func t) g w ->
    forall s, C (S (S n)) (marshal_func t) [g; RWriter] s = ended w s.
  Proof.
    intros I X H s. change (marshal_func t) with (fn_name (marshal_code x text t)). rewrite (call_known o v fs structures limit ONCE) by exact I.
    assert (NS : forall s, C (S n) "helpers.NewStream" [RWriter] s = Gives RStream (MkState (WOk []) (st_in s))).
    { intros s'. cbn [call_function]. rewrite (not_declared "helpers.NewStream" ltac:(cbn; tauto)). reflexivity. }
    set (e := [[(x, g); ("writer", RWriter); ("stream", RStream)]]).
    assert (Ls : lookup e "stream" = Some RStream) by (destruct X; subst x; reflexivity).
    assert (Lx : lookup e x = Some g) by (unfold e; cbn [lookup mget]; now rewrite String.eqb_refl).
    pose proof (emits_call o constants structures limit (C (S n)) e (write_func t) (XVar x) g w Ls) as E.
    specialize (E ltac:(intros s'; cbn [eval]; now rewrite Lx) H (MkState (WOk []) (st_in s)) ltac:(discriminate)).
    assert (B : block o constants structures limit (C (S n)) [[(x, g); ("writer", RWriter)]] s (fn_body (marshal_code x text t)) =
      match block o constants structures limit (C (S n)) e (MkState (WOk []) (st_in s)) [TDo (XCall (write_func t) [XVar x; the_stream])] with
      | Next e s => block o constants structures limit (C (S n)) e s
          [TDefine ["err"] (XMethod the_stream "Flush" []); TIf (XNotNil (XVar "err")) [TReturn [XVar "err"]] []; TReturn [XField the_stream "Error"]]
      | f => f end).
    { unfold marshal_code. cbn [fn_body]. rewrite block_cons.
      assert (Ex : exec o constants structures limit (C (S n)) [[(x, g); ("writer", RWriter)]] s (TDefine ["stream"] (XCall "helpers.NewStream" [XVar "writer"])) = Next e (MkState (WOk []) (st_in s))).
      { destruct X; subst x; cbn [exec eval lookup mget String.eqb Ascii.eqb Bool.eqb]; rewrite NS; reflexivity. }
      rewrite Ex. exact (block_app o constants structures limit (C (S n)) [_] _ _ [_; _; _]). }
    rewrite E in B. unfold run_function.
    assert (D : define_all [map (fun p => (fst p, zero_of_type (snd p))) (filter (fun p => negb (String.eqb (fst p) "")) (fn_results (marshal_code x text t)))]
      (map fst (fn_params (marshal_code x text t))) [g; RWriter] = Some [[(x, g); ("writer", RWriter)]]) by (destruct X; subst x; reflexivity).
    rewrite D, B. destruct w as [l| |]; [| |reflexivity]; destruct X; subst x; reflexivity.
  Qed.

  Lemma value_marshalled k t x text a link : mget k (v_types v) = Some t -> structural t \/ t_kind t = ListType -> typed v k link a -> (forall h b i, a <> VList h b i) ->
    (forall l, a <> VMap l) -> In (marshal_code x text t) fs -> x = "object" \/ x = "list" ->
    exists n0, forall n s, (n0 <= n)%nat -> C n (marshal_func t) [run_value v k a; RWriter] s = ended (JsonModel.write_value o v k false a) s.
  Proof.
    intros G K T N1 N2 I X. destruct (all_ready o pkg v fs reports structures limit ORD STD CODE ONCE FULL a k link T) as [n0 H].
    exists (S (S n0)). intros [|[|n]] s Le; try lia. apply (marshal_runs n x text t); auto. specialize (H (S n) ltac:(lia)).
    destruct a; try (exact (H t G K)); exfalso; [eapply N1|eapply N2]; reflexivity.
  Qed.

  Theorem object_marshalled k t b : mget k (v_types v) = Some t -> structural t -> object_typed v t b ->
    exists n0, forall n s, (n0 <= n)%nat -> C n (marshal_func t) [run_value v k (VObject b); RWriter] s = ended (marshal_object o v t (Some b)) s.
  Proof.
    intros G K T. destruct (struct_function pkg v fs reports CODE ONCE k t G K) as (w & code & _ & _ & _ & I).
    assert (T' : typed v k false (VObject b)) by (cbn [typed]; rewrite G; destruct K as [K|K]; rewrite K; unfold object_typed in T; rewrite K in T; exact T).
    destruct (value_marshalled k t "object" ("*" ++ object_name t) (VObject b) false G (or_introl K) T') as [n0 H]; [discriminate|discriminate|exact I|now left|].
    exists n0. intros n s Le. rewrite H by exact Le. f_equal.
    destruct (not_library v STD k t G) as (F0 & F1 & F2 & F3 & F4 & F5 & F6); [destruct K; congruence|]. cbn [JsonModel.write_value]. rewrite F1, F2, F3, F4, F5, F6.
    unfold type_at. rewrite G. unfold is_enum, is_interface, is_struct. destruct K as [K|K]; rewrite K; reflexivity.
  Qed.

  Theorem nil_marshalled k t : mget k (v_types v) = Some t -> structural t -> forall n s, (2 <= n)%nat -> C n (marshal_func t) [RNil; RWriter] s = Ends Panic.
  Proof.
    intros G K [|[|n]] s Le; try lia. destruct (struct_function pkg v fs reports CODE ONCE k t G K) as (w & code & _ & _ & _ & I).
    apply (marshal_runs n "object" _ t RNil WPanic I (or_introl eq_refl)). now apply (nil_called o pkg v fs reports structures limit CODE ONCE FULL n k t).
  Qed.

  Theorem list_marshalled k t e l : mget k (v_types v) = Some t -> t_kind t = ListType -> plain v t -> t_element t = Some e -> all1 (typed v e false) l ->
    exists n0, forall n s, (n0 <= n)%nat -> C n (marshal_func t) [run_value v k (VSlice l); RWriter] s = ended (marshal_list o v e l) s.
  Proof.
    intros G K Pl El T. assert (Pl' := Pl). destruct Pl' as (e' & te & El' & Ge & _). rewrite El in El'. injection El' as EK; subst e'.
    destruct (list_function pkg v fs reports CODE ONCE k t e te G K Pl El Ge) as (text & w & code & _ & _ & _ & I).
    assert (T' : typed v k false (VSlice l)) by (cbn [typed]; rewrite G, K, El; tauto).
    destruct (value_marshalled k t "list" text (VSlice l) false G (or_intror K) T') as [n0 H]; [discriminate|discriminate|exact I|now right|].
    exists n0. intros n s Le. rewrite H by exact Le. f_equal.
    destruct (not_library v STD k t G) as (F0 & F1 & F2 & F3 & F4 & F5 & F6); [congruence|]. cbn [JsonModel.write_value]. rewrite F1, F2, F3, F4, F5, F6.
    unfold type_at. rewrite G. unfold is_enum, is_interface, is_struct, is_list, elem_key. rewrite K, El. reflexivity.
  Qed.
End Version.

Lemma ready_compiles v : JsonCodeSpec.json_ready v -> compiles v.
Proof.
  intros (_ & R & _) k t G K. destruct (R t (in_types v k t G) K) as (F & T & _). split; assumption.
Qed.
Lemma ready_full v : JsonCodeSpec.json_ready v -> forall t, In t (types v) -> t_kind t = StructType -> t_attrs t <> [].
Proof. intros (_ & R & _) t I K. destruct (R t I (or_intror K)) as (_ & _ & F & _). now apply F. Qed.

Notation run o v structures fs limit := (call_function o (kind_constants v) structures fs limit).

Lemma run_object o pkg v fs structures limit k t b : faithful o -> running pkg v fs -> mget k (v_types v) = Some t -> structural t -> object_typed v t b ->
  exists n0, forall n s, (n0 <= n)%nat -> run o v structures fs limit n (marshal_func t) [run_value v k (VObject b); RWriter] s = ended (marshal_object o v t (Some b)) s.
Proof. intros F (S & R & C & O) G K T. exact (object_marshalled o pkg v fs [] structures limit F S C O (ready_full v R) k t b G K T). Qed.

Lemma run_nil o pkg v fs structures limit k t : running pkg v fs -> mget k (v_types v) = Some t -> structural t ->
  forall n s, (2 <= n)%nat -> run o v structures fs limit n (marshal_func t) [RNil; RWriter] s = Ends Panic.
Proof. intros (S & R & C & O) G K. exact (nil_marshalled o pkg v fs [] structures limit C O (ready_full v R) k t G K). Qed.

Lemma run_list_value o pkg v fs structures limit k t e l : faithful o -> running pkg v fs -> mget k (v_types v) = Some t -> t_kind t = ListType -> plain v t ->
  t_element t = Some e -> all1 (typed v e false) l ->
  exists n0, forall n s, (n0 <= n)%nat -> run o v structures fs limit n (marshal_func t) [run_value v k (VSlice l); RWriter] s = ended (marshal_list o v e l) s.
Proof. intros F (S & R & C & O) G K P E T. exact (list_marshalled o pkg v fs [] structures limit F S C O (ready_full v R) k t e l G K P E T). Qed.

(** * Documents *)

Lemma run_object_document o pkg v fs structures limit k t b : faithful o -> running pkg v fs -> mget k (v_types v) = Some t -> structural t -> object_typed v t b ->
  object_printable o v t b ->
  exists n0 j, well_formed j /\ shows_object o v t b j /\
    forall n s, (n0 <= n)%nat -> run o v structures fs limit n (marshal_func t) [run_value v k (VObject b); RWriter] s = Gives RNil (MkState (WOk (tokens j)) (st_in s)).
Proof.
  intros F R G K T P. destruct (run_object o pkg v fs structures limit k t b F R G K T) as [n0 H]. destruct R as (S & R & _). pose proof (ready_compiles v R) as C.
  destruct (C k t G K) as [Fi _]. destruct (proj2 (object_succeeds o v S C F t b K Fi T) P) as [l E].
  destruct (object_document o v t b l S C F K Fi T E) as (j & -> & W & Sh). exists n0, j. split; [exact W|]. split; [exact Sh|]. intros n s Le. rewrite H, E by exact Le. reflexivity.
Qed.

Lemma run_list_document o pkg v fs structures limit k t e l : faithful o -> running pkg v fs -> mget k (v_types v) = Some t -> t_kind t = ListType -> plain v t ->
  t_element t = Some e -> all1 (typed v e false) l -> all1 (fun y => y <> VNil /\ printable o v e y) l ->
  exists n0 m, well_formed (JArr m) /\ all2 (fun y x => shows o v e x y) m l /\
    forall n s, (n0 <= n)%nat -> run o v structures fs limit n (marshal_func t) [run_value v k (VSlice l); RWriter] s = Gives RNil (MkState (WOk (tokens (JArr m))) (st_in s)).
Proof.
  intros F R G K Pl El T P. destruct (run_list_value o pkg v fs structures limit k t e l F R G K Pl El T) as [n0 H]. destruct R as (S & R & _). pose proof (ready_compiles v R) as C.
  destruct (proj2 (list_succeeds o v S C F t e l Pl El T) P) as [r E].
  destruct (list_document o v t e l r S C F Pl El T E) as (m & -> & W & Sh). exists n0, m. split; [exact W|]. split; [exact Sh|]. intros n s Le. rewrite H, E by exact Le. reflexivity.
Qed.
