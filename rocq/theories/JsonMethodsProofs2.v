(** Proofs about the execution of the functions that write the bodies of the requests: all the methods. *)
From Coq Require Import Ascii String Bool Arith ZArith NArith Lia Permutation List.
From Verif Require Import GoStrings GoMap GoMapProofs NamesModel NamesProofs ConceptsModel ReporterModel BindingModel GoNamesModel GoTimeModel DeclsModel DeclsSpec DeclsProofs ChecksModel GoTypesModel
  ObjectsModel ObjectsSpec ObjectsProofs ObjectsProofs2 JsonModel JsonSpec JsonProofs3 ClientsModel JsonCodeModel JsonCodeSpec JsonCodeProofs4 JsonCodeProofs5 JsonCodeProofs6
  JsonRunSpec JsonMethodsSpec JsonRunProofs JsonRunProofs2 JsonRunProofs3 JsonRunProofs4 JsonRunProofs5 JsonRunProofs6 JsonMethodsProofs.
From Verif Require Import ChecksSpec.
From Verif Require RequestModel RequestSpec.
Import ListNotations.
Local Open Scope string_scope.

Section Version.
  Context (o : oracle) (pkg : string) (v : version) (fs : list func) (reports : list report) (structures : string -> option (list (string * gv))) (limit : nat).
  Context (FAITH : faithful o) (STD : standard v).
  Context (CODE : json_code pkg v = Done (fs, reports)) (ONCE : declared_once v fs).
  Context (FULL : forall t, In t (types v) -> t_kind t = StructType -> t_attrs t <> []).
  Notation constants := (kind_constants v).
  Notation C := (call_function o constants structures fs limit).
  Notation eval n := (eval o constants structures limit (C n)).
  Notation exec n := (exec o constants structures limit (C n)).
  Notation blk n := (block o constants structures limit (C n)).
  Notation emits n := (emits o constants structures limit (C n)).
  Let ORD := proj2 FAITH.

  Lemma method_functions r m : In r (resources v) -> In m (r_methods r) -> exists l rs, method_code pkg v r m = Done (l, rs) /\ incl l fs.
  Proof.
    intros R M. pose proof CODE as H. unfold json_code in H.
    destruct (collect (fun kt => type_code pkg v (fst kt) (snd kt)) (v_types v)) as [[x rx]| |]; try discriminate.
    destruct (collect (fun r => collect (method_code pkg v r) (r_methods r)) (resources v)) as [[y ry]| |] eqn:E; try discriminate. injection H as <- <-.
    destruct (collect_in _ _ _ _ r E R) as (l & rs & El & I). destruct (collect_in _ _ _ _ m El M) as (l' & rs' & El' & I').
    exists l', rs'. split; [exact El'|]. apply incl_appr. exact (incl_tran I' I).
  Qed.

  (** The value of a parameter that has a function that writes it. *)
  Lemma coded_marshalled k t a : mget k (v_types v) = Some t -> coded v t -> a = VNil \/ typed v k false a ->
    run_field v k a = run_value v k a /\
    exists n0, forall n s, (n0 <= n)%nat -> C n (marshal_func t) [run_value v k a; RWriter] s = ended (JsonModel.write_value o v k false a) s.
  Proof.
    intros G Cd T0. assert (T : typed v k false a).
    { destruct T0 as [->|T]; [|exact T]. cbn [typed]. rewrite G. destruct Cd as [[K|K]|[K (e & te & El & Ge & Ki)]]; rewrite K; [exact I|exact I|]. rewrite El. split; [|exact I]. exists e, te. auto. }
    assert (Ks : structural t \/ t_kind t = ListType) by (destruct Cd as [Cd|[Cd _]]; auto).
    assert (N1 : forall h b i, a <> VList h b i).
    { intros h b i ->. cbn [typed] in T. rewrite G in T. destruct Ks as [[K|K]|K]; rewrite K in T; try contradiction. destruct T as [_ T]. destruct (t_element t); [destruct T; discriminate|contradiction]. }
    assert (N2 : forall l, a <> VMap l).
    { intros l ->. cbn [typed] in T. rewrite G in T. destruct Ks as [[K|K]|K]; rewrite K in T; try contradiction. destruct T as [_ T]. destruct (t_element t); contradiction. }
    split.
    { unfold run_field. destruct a; try reflexivity; rewrite G; destruct Ks as [[K|K]|K]; rewrite K; reflexivity. }
    destruct Cd as [Cd|[K Pl]].
    - destruct (struct_function pkg v fs reports CODE ONCE k t G Cd) as (w & code & _ & _ & _ & I).
      eapply (value_marshalled o pkg v fs reports structures limit FAITH STD CODE ONCE FULL k t "object"); eauto.
    - destruct Pl as (e & te & El & Ge & Ki). destruct (list_function pkg v fs reports CODE ONCE k t e te G K ltac:(exists e, te; auto) El Ge) as (text & w & code & _ & _ & _ & I).
      eapply (value_marshalled o pkg v fs reports structures limit FAITH STD CODE ONCE FULL k t "list"); eauto.
  Qed.

  Section Method.
    Context (r : resource) (m : method) (l : list (string * gv)) (fields : list (string * value)).
    Context (READY : method_ready v m) (CAR : carries v m fields l) (TYP : RequestSpec.fields_typed v fields (filter p_in (m_params m))).
    Notation func_name := (write_request_func (is_root r) r m).
    Definition writes (body : list stm) (w : JsonModel.written) : Prop := In (request_func r m body) fs ->
      exists n0, forall n i, (n0 <= n)%nat -> C n func_name [RStruct l; RWriter] (MkState (WOk []) i) = ended w (MkState (WOk []) i).

    Lemma carried_field p : In p (m_params m) -> p_in p = true -> mget (json_parameter_field p) l = Some (run_field v (p_type p) (value_of fields (json_parameter_field p))).
    Proof.
      intros I P. rewrite <- (same_field v m READY p I). exact (CAR p I P).
    Qed.
    Lemma carried_typed p : In p (m_params m) -> p_in p = true -> value_of fields (json_parameter_field p) = VNil \/ typed v (p_type p) false (value_of fields (json_parameter_field p)).
    Proof.
      intros I P. unfold value_of. destruct (mget (json_parameter_field p) fields) as [x|] eqn:E; [|now left]. eapply TYP; [|exact E]. now apply filter_In.
    Qed.

    Lemma nothing_writes : writes nothing (WOk []).
    Proof. intros I. exists 1. intros [|n] i Le; [lia|]. change func_name with (fn_name (request_func r m nothing)). rewrite (call_known o v fs structures limit ONCE) by exact I. reflexivity. Qed.

    Lemma field_writes p t : In p (m_params m) -> p_in p = true -> mget (p_type p) (v_types v) = Some t -> coded v t ->
      writes (marshal_field t (json_parameter_field p)) (JsonModel.write_value o v (p_type p) false (value_of fields (json_parameter_field p))).
    Proof.
      intros I P G Cd J. destruct (coded_marshalled (p_type p) t _ G Cd (carried_typed p I P)) as (Er & n0 & H). exists (S n0). intros [|n] i Le; [lia|].
      change func_name with (fn_name (request_func r m (marshal_field t (json_parameter_field p)))). rewrite (call_known o v fs structures limit ONCE) by exact J.
      pose proof (carried_field p I P) as M. rewrite Er in M. specialize (H n (MkState (WOk []) i) ltac:(lia)).
      assert (Ev : eval n [[("request", RStruct l); ("writer", RWriter)]] (MkState (WOk []) i) (XCall (marshal_func t) [request_field (json_parameter_field p); XVar "writer"]) =
        ended (JsonModel.write_value o v (p_type p) false (value_of fields (json_parameter_field p))) (MkState (WOk []) i)).
      { rewrite <- H. unfold request_field. cbn [JsonRunSpec.eval lookup mget String.eqb Ascii.eqb Bool.eqb]. rewrite M. reflexivity. }
      assert (B : blk n [[("request", RStruct l); ("writer", RWriter)]] (MkState (WOk []) i) (marshal_field t (json_parameter_field p)) =
        match ended (JsonModel.write_value o v (p_type p) false (value_of fields (json_parameter_field p))) (MkState (WOk []) i) with
        | Gives g s => Returns (results g) [[("request", RStruct l); ("writer", RWriter)]] s | Ends x => Stops x end).
      { rewrite <- Ev. unfold marshal_field. rewrite block_cons.
        assert (Q : forall e s a, exec n e s (TReturn [a]) = match eval n e s a with Gives g s => Returns (results g) e s | Ends x => Stops x end) by reflexivity.
        rewrite Q. destruct (eval n _ _ _); reflexivity. }
      unfold run_function.
      assert (D : define_all [map (fun p => (fst p, zero_of_type (snd p))) (filter (fun p => negb (String.eqb (fst p) "")) (fn_results (request_func r m (marshal_field t (json_parameter_field p)))))]
        (map fst (fn_params (request_func r m (marshal_field t (json_parameter_field p))))) [RStruct l; RWriter] = Some [[("request", RStruct l); ("writer", RWriter)]]) by reflexivity.
      rewrite D. change (fn_body (request_func r m ?b)) with b. rewrite B.
      destruct (JsonModel.write_value o v (p_type p) false (value_of fields (json_parameter_field p))); reflexivity.
    Qed.

    Lemma object_writes code : JsonCodeModel.write_parameters v (filter p_in (m_params m)) = Done code ->
      writes ([TDefine ["count"] XZero; TDefine ["stream"] (XCall "helpers.NewStream" [XVar "writer"]); write "WriteObjectStart" []] ++ code
                   ++ [write "WriteObjectEnd" []; TDefine ["err"] (XMethod the_stream "Flush" []); TIf (XNotNil (XVar "err")) [TReturn [XVar "err"]] [];
                       TReturn [XField the_stream "Error"]])
        (wcat (WOk [TLBrace]) (wcat (RequestModel.write_parameters o v 0 (filter p_in (m_params m)) fields) (WOk [TRBrace]))).
    Proof.
      intros Cd J.
      assert (exists n0, forall n, (n0 <= n)%nat -> Forall (carried o v fs structures limit n l fields) (filter p_in (m_params m))) as [n0 H].
      { apply eventually_all. apply Forall_forall. intros p I. apply filter_In in I as (I & P). pose proof (carried_field p I P) as M. destruct (carried_typed p I P) as [E|T].
        - exists 0. intros n _. split; [exact M|now left].
        - destruct (all_ready o pkg v fs reports structures limit ORD STD CODE ONCE FULL _ _ _ T) as [n0 H]. exists n0. intros n Le. split; [exact M|]. right. split; [exact T|now apply H]. }
      exists (S (S n0)). intros [|[|n]] i Le; [lia|lia|]. specialize (H (S n) ltac:(lia)).
      set (body := ([TDefine ["count"] XZero; _; _] ++ _)%list) in *. change func_name with (fn_name (request_func r m body)). rewrite (call_known o v fs structures limit ONCE) by exact J.
      destruct (parameters_emit o v fs structures limit FAITH STD (S n) l fields (filter p_in (m_params m)) 0 code H Cd) as [c' E].
      assert (NS : forall s, C (S n) "helpers.NewStream" [RWriter] s = Gives RStream (MkState (WOk []) (st_in s))).
      { intros s'. cbn [call_function]. rewrite (not_declared v fs ONCE "helpers.NewStream" ltac:(cbn; tauto)). reflexivity. }
      assert (E' : emits (S n) (holder l 0) (write "WriteObjectStart" [] :: (code ++ [write "WriteObjectEnd" []])%list)
        (wcat (WOk [TLBrace]) (wcat (RequestModel.write_parameters o v 0 (filter p_in (m_params m)) fields) (WOk [TRBrace]))) (holder l c')).
      { eapply emits_cons; [apply emits_write0; [reflexivity|intros; reflexivity|discriminate]|]. eapply emits_app; [exact E|]. apply emits_write0; [reflexivity|intros; reflexivity|discriminate]. }
      set (w := wcat _ _) in *.
      assert (B : blk (S n) [[("request", RStruct l); ("writer", RWriter)]] (MkState (WOk []) i) body =
        match blk (S n) (holder l 0) (MkState (WOk []) i) (write "WriteObjectStart" [] :: (code ++ [write "WriteObjectEnd" []])%list) with
        | Next e s => blk (S n) e s [TDefine ["err"] (XMethod the_stream "Flush" []); TIf (XNotNil (XVar "err")) [TReturn [XVar "err"]] []; TReturn [XField the_stream "Error"]]
        | f => f end).
      { unfold body. cbn [app]. rewrite block_cons. cbn [JsonRunSpec.exec JsonRunSpec.eval define_all define mset String.eqb Ascii.eqb Bool.eqb]. rewrite block_cons.
        cbn [JsonRunSpec.exec JsonRunSpec.eval lookup mget String.eqb Ascii.eqb Bool.eqb]. rewrite NS. cbn [define_all define mset String.eqb Ascii.eqb Bool.eqb st_in].
        rewrite <- block_app. cbn [app]. rewrite <- app_assoc. reflexivity. }
      rewrite (E' (MkState (WOk []) i) ltac:(discriminate)) in B. unfold run_function.
      assert (D : define_all [map (fun p => (fst p, zero_of_type (snd p))) (filter (fun p => negb (String.eqb (fst p) "")) (fn_results (request_func r m body)))]
        (map fst (fn_params (request_func r m body))) [RStruct l; RWriter] = Some [[("request", RStruct l); ("writer", RWriter)]]) by reflexivity.
      rewrite D. cbn [request_func fn_body]. rewrite B. destruct w as [ts| |]; reflexivity.
    Qed.

    Lemma body_field_of p : called ["body"] (p_name p) -> value_of fields "body" = value_of fields (json_parameter_field p).
    Proof. intros X. now rewrite (body_field p X). Qed.

    Theorem request_runs : In r (resources v) -> In m (r_methods r) ->
      exists n0, forall n i, (n0 <= n)%nat -> C n func_name [RStruct l; RWriter] (MkState (WOk []) i) = ended (RequestModel.write_request o v m fields) (MkState (WOk []) i).
    Proof.
      intros R M. destruct (method_functions r m R M) as (lf & rs & MC & IN). unfold method_code in MC. cbv zeta in MC.
      pose proof READY as ((_ & A1 & A2 & A3 & A4 & A5 & A6 & A7) & _).
      assert (X : forall n ws, n_words n = map (fun s => MkWord s false) ws -> name_equals (Some (m_name m)) (Some n) = true -> called ws (m_name m)) by (intros n ws W E; now apply (equals_called n (m_name m) ws W)).
      assert (Go : forall code w, match code with Done (q, p, l) => Done ([request_func r m q; response_func r m p], l) | _ => Panics end = Done (lf, rs) ->
        (forall q p l', code = Done (q, p, l') -> writes q w) ->
        exists n0, forall n i, (n0 <= n)%nat -> C n func_name [RStruct l; RWriter] (MkState (WOk []) i) = ended w (MkState (WOk []) i)).
      { intros [[[q p] l']| |] w E H; try discriminate. injection E as <- <-. apply (H q p l' eq_refl). apply IN. now left. }
      assert (Body : forall ws b, In ws known_methods -> called ws (m_name m) -> In b (m_params m) -> (struct_param v b \/ list_param v b) -> in_out b -> called ["body"] (p_name b) ->
        forall q p l', add_code v m = Done (q, p, l') ->
        writes q (match get_parameter nBody m with Some p => JsonModel.write_value o v (p_type p) false (RequestModel.field_at fields "body") | None => WPanic end)).
      { intros ws b Iw Cw Ib SP (IO & _) CB q p l' E. assert (KM : known_method m) by (exists ws; auto). unfold add_code, typed_parameter in E.
        rewrite (find_named v m READY nBody ["body"] b eq_refl KM Ib CB) in E |- *. unfold type_at in E.
        assert (CT : exists t, mget (p_type b) (v_types v) = Some t /\ coded v t).
        { destruct SP as [SP|SP]; [now apply struct_coded|]. destruct (list_coded v m READY b Ib SP) as (t & G & Cd & _). eauto. }
        destruct CT as (t & G & Cd). rewrite G in E. injection E as <- _ _. change (RequestModel.field_at fields "body") with (value_of fields "body").
        rewrite (body_field_of b CB). rewrite <- (body_field b CB). now apply field_writes. }
      unfold is_add, is_delete, is_async_delete, is_get, is_list_method, is_post, is_search, is_update, is_async_update, RequestModel.write_request in *. cbv zeta.
      unfold is_add, is_delete, is_async_delete, is_get, is_list_method, is_post, is_search, is_update, is_async_update in *.
      destruct (name_equals (Some (m_name m)) (Some nAdd)) eqn:E1.
      { apply (X nAdd ["add"] eq_refl) in E1. destruct (A1 E1) as (l1 & b & l2 & EQ & (SP & IO & CB) & _). apply (Go _ _ MC).
        apply (Body ["add"] b); auto; [cbn; auto 10|]. rewrite EQ. apply in_or_app. right. now left. }
      destruct (name_equals (Some (m_name m)) (Some nDelete) || name_equals (Some (m_name m)) (Some nAsyncDelete)) eqn:E2.
      { apply (Go (Done (nothing, nothing, [])) _ MC). intros q p l' E. injection E as <- _ _. exact nothing_writes. }
      destruct (name_equals (Some (m_name m)) (Some nGet)) eqn:E4.
      { apply (Go _ _ MC). intros q p l' E. unfold get_code in E. destruct (typed_parameter v nBody m) as [[p0 t0]|]; [|discriminate]. injection E as <- _ _. exact nothing_writes. }
      destruct (name_equals (Some (m_name m)) (Some nList)) eqn:E5.
      { apply (Go _ _ MC). intros q p l' E. unfold list_method_code in E. destruct (read_page pkg v _ m) as [[p0 t0]| |]; [|discriminate|discriminate]. injection E as <- _ _. exact nothing_writes. }
      destruct (name_equals (Some (m_name m)) (Some nPost)) eqn:E6.
      { apply (X nPost ["post"] eq_refl) in E6. apply (Go _ _ MC). intros q p l' E. unfold post_code in E. cbv zeta in E.
        change (RequestModel.last_parameter p_in (m_params m)) with (last_parameter p_in m). destruct (last_parameter p_in m) as [b|] eqn:Lb.
        - unfold type_at in E. apply (last_some p_in) in Lb as (Ib & Pb). destruct (A5 E6) as (SA & _). rewrite Forall_forall in SA. destruct (struct_coded v b (SA b Ib Pb)) as (t & G & Cd).
          rewrite G in E. match type of E with match ?Q with _ => _ end = _ => destruct Q; [|discriminate] end. injection E as <- _ _. now apply field_writes.
        - match type of E with match ?Q with _ => _ end = _ => destruct Q; [|discriminate] end. injection E as <- _ _. exact nothing_writes. }
      destruct (name_equals (Some (m_name m)) (Some nSearch)) eqn:E7.
      { apply (X nSearch ["search"] eq_refl) in E7. apply (Go _ _ MC). intros q p l' E. unfold search_code in E. cbv zeta in E.
        destruct (A6 E7) as ((items & b & others & PERM & _ & _ & _ & SB & (Pb & _) & CB & _) & _).
        assert (Ib : In b (m_params m)) by (eapply Permutation_in; [apply Permutation_sym, PERM|right; now left]).
        change (RequestModel.last_parameter (fun p => name_equals (Some (p_name p)) (Some nBody)) (m_params m)) with (last_named nBody (m_params m)).
        assert (KM : known_method m) by (exists ["search"]; split; [cbn; auto 10|exact E7]).
        rewrite (last_named_at v m READY nBody ["body"] b eq_refl KM Ib CB) in E |- *. unfold type_at in E. destruct (struct_coded v b SB) as (t & G & Cd). rewrite G in E.
        destruct (read_page pkg v _ m) as [[p0 t0]| |]; [|discriminate|discriminate]. injection E as <- _ _. now apply field_writes. }
      destruct (name_equals (Some (m_name m)) (Some nUpdate) || name_equals (Some (m_name m)) (Some nAsyncUpdate)) eqn:E8.
      { assert (E : called ["update"] (m_name m) \/ called ["async"; "update"] (m_name m)) by (apply orb_true_iff in E8 as [E|E]; [left; exact (X nUpdate ["update"] eq_refl E)|right; exact (X nAsyncUpdate ["async"; "update"] eq_refl E)]).
        destruct (A7 E) as (l1 & b & l2 & EQ & (SP & IO & CB) & _). assert (Ib : In b (m_params m)) by (rewrite EQ; apply in_or_app; right; now left).
        apply (Go _ _ MC). destruct E as [E|E]; [apply (Body ["update"] b)|apply (Body ["async"; "update"] b)]; auto; cbn; auto 10. }
      apply (Go _ _ MC). intros q p l' E. unfold action_code in E.
      assert (Ac : request_body_params v m = filter p_in (m_params m)).
      { unfold request_body_params, is_action, is_add, is_delete, is_async_delete, is_get, is_list_method, is_post, is_search, is_update, is_async_update.
        apply orb_false_iff in E2 as (E2 & E3). apply orb_false_iff in E8 as (E8 & E9). rewrite E1, E2, E3, E4, E5, E6, E7, E8, E9. reflexivity. }
      rewrite Ac in *. destruct (JsonCodeModel.write_parameters v (filter p_in (m_params m))) as [code| |] eqn:Ew; try discriminate.
      destruct (JsonCodeModel.read_parameters pkg v (response_body_params m)) as [[cases rr]| |]; try discriminate. injection E as <- _ _.
      pose proof (object_writes code Ew) as Ow. destruct (filter p_in (m_params m)); [exact nothing_writes|exact Ow].
    Qed.
  End Method.
End Version.
