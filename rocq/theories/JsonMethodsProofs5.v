(** Proofs about the execution of the functions that read the bodies of the responses: all the methods. *)
From Coq Require Import Ascii String Bool Arith ZArith NArith Lia Permutation List.
From Verif Require Import GoStrings GoMap GoMapProofs NamesModel NamesProofs ConceptsModel ReporterModel BindingModel GoNamesModel GoTimeModel DeclsModel DeclsSpec DeclsProofs ChecksModel GoTypesModel GoTypesSpec
  ObjectsModel ObjectsSpec ObjectsProofs ObjectsProofs2 JsonModel JsonSpec JsonProofs3 JsonProofs4 JsonProofs5 JsonProofs6 ClientsModel JsonCodeModel JsonCodeSpec JsonCodeProofs4 JsonCodeProofs5 JsonCodeProofs6
  JsonRunSpec JsonMethodsSpec JsonRunProofs JsonRunProofs2 JsonRunProofs3 JsonRunProofs4 JsonRunProofs5 JsonRunProofs6 JsonRunProofs7 JsonRunProofs8 JsonRunProofs9 JsonRunProofs10 JsonRunProofs11 JsonMethodsProofs JsonMethodsProofs2 JsonMethodsProofs4.
From Verif Require Import ChecksSpec.
From Verif Require RequestModel RequestSpec.
Import ListNotations.
Local Open Scope string_scope.

Section Version.
  Context (o : oracle) (pkg : string) (v : version) (fs : list func) (structures : string -> option (list (string * gv))) (limit : nat).
  Context (PKG : package_path pkg) (STD : standard v) (NAMED : named_well v) (READY : json_ready v).
  Context (CODE : json_code pkg v = Done (fs, [])) (ONCE : declared_once v fs) (DECL : declares v structures).
  Context (r : resource) (m : method) (before : list (string * gv)).
  Context (HAS : forall p, In p (m_params m) -> p_out p = true -> mget (json_parameter_field p) before <> None).
  Context (MREADY : method_ready v m).
  Notation constants := (kind_constants v).
  Notation C := (call_function o constants structures fs limit).
  Notation eval n := (eval o constants structures limit (C n)).
  Notation exec n := (exec o constants structures limit (C n)).
  Notation blk n := (block o constants structures limit (C n)).
  Notation kept_fields := (kept_fields v m before).
  Notation func_name := (read_response_func (is_root r) r m).

  Definition reads (ts : list token) (body : list stm) (q : result (list (string * value))) : Prop := In (response_func r m body) fs ->
    forall n w, fuel ts + 3 <= n -> fuel ts + 1 <= limit ->
    match q with
    | Ok fields rest => exists l, receive o v structures fs limit n func_name (RStruct before) (MkState w ts) = Received RNil (RStruct l) (MkState w rest) /\ kept_fields fields l
    | Failed => receive o v structures fs limit n func_name (RStruct before) (MkState w ts) = Interrupted WrongDocument
    | OutOfFuel => False
    end.

  Definition started : frames := [[("response", RStruct before); ("reader", RSource)]].
  Lemma receive_known n body s : In (response_func r m body) fs ->
    receive o v structures fs limit n func_name (RStruct before) s =
    match blk n started s body with
    | Returns [g] e s => match lookup e "response" with Some response => Received g response s | None => Interrupted NotAllowed end
    | Stops x => Interrupted x
    | _ => Interrupted NotAllowed
    end.
  Proof.
    intros I. unfold receive. change func_name with (fn_name (response_func r m body)). rewrite (find_function fs (response_func r m body)); [reflexivity|exact (proj1 ONCE)|exact I].
  Qed.

  Lemma kept_start : kept_fields [] before.
  Proof. intros f. reflexivity. Qed.

  Lemma nothing_reads ts : reads ts nothing (Ok [] ts).
  Proof. intros I n w _ _. exists before. rewrite (receive_known n nothing) by exact I. split; [reflexivity|exact kept_start]. Qed.

  Lemma field_reads ts p t : In p (m_params m) -> p_out p = true -> mget (p_type p) (v_types v) = Some t -> coded v t ->
    reads ts (unmarshal_field t (json_parameter_field p)) (rbind (JsonModel.read_value o v (S (fuel ts)) (p_type p) false ts) (fun x rest => Ok [(json_parameter_field p, x)] rest)).
  Proof.
    intros I P G Cd J n w L1 L2. rewrite (receive_known n _ _ J).
    assert (Q : forall q : result value, q <> OutOfFuel -> (forall y rest, q = Ok y rest -> y <> VNil) -> C n (unmarshal_func t) [RSource] (MkState w ts) = parsed q (run_value v (p_type p)) w ->
      match rbind q (fun x rest => Ok [(json_parameter_field p, x)] rest) with
      | Ok fields rest => exists l, match blk n started (MkState w ts) (unmarshal_field t (json_parameter_field p)) with
          | Returns [g] e s => match lookup e "response" with Some response => Received g response s | None => Interrupted NotAllowed end
          | Stops x => Interrupted x | _ => Interrupted NotAllowed end = Received RNil (RStruct l) (MkState w rest) /\ kept_fields fields l
      | Failed => match blk n started (MkState w ts) (unmarshal_field t (json_parameter_field p)) with
          | Returns [g] e s => match lookup e "response" with Some response => Received g response s | None => Interrupted NotAllowed end
          | Stops x => Interrupted x | _ => Interrupted NotAllowed end = Interrupted WrongDocument
      | OutOfFuel => False
      end).
    { intros q No Nn E. unfold unmarshal_field. rewrite block_cons. unfold started. cbn [JsonRunSpec.exec JsonRunSpec.eval define_all define mset String.eqb Ascii.eqb Bool.eqb zero_of_type].
      rewrite block_cons. cbn [JsonRunSpec.exec JsonRunSpec.eval lookup mget String.eqb Ascii.eqb Bool.eqb]. rewrite E. destruct q as [y rest| |]; cbn [rbind parsed]; [|reflexivity|contradiction].
      exists (mset (json_parameter_field p) (run_value v (p_type p) y) before). unfold response_field. cbn [store_all store lookup mget String.eqb Ascii.eqb Bool.eqb].
      pose proof (HAS p I P) as H. destruct (mget (json_parameter_field p) before) eqn:Gb; [|contradiction]. split; [reflexivity|].
      assert (Er : run_value v (p_type p) y = run_field v (p_type p) y).
      { specialize (Nn y rest eq_refl). unfold run_field. destruct y; try contradiction; rewrite G; destruct Cd as [[K|K]|[K _]]; rewrite K; reflexivity. }
      rewrite Er. apply (kept_set v m before [] before p y kept_start I P). }
    assert (Nn : forall y rest, JsonModel.read_value o v (S (fuel ts)) (p_type p) false ts = Ok y rest -> y <> VNil) by (intros y rest; apply read_not_nil).
    assert (No : JsonModel.read_value o v (S (fuel ts)) (p_type p) false ts <> OutOfFuel).
    { intros E. pose proof (proj1 (read_advances o v (S (fuel ts))) (p_type p) false ts ltac:(unfold fuel; lia)) as A. rewrite E in A. exact A. }
    apply Q; [exact No|exact Nn|].
    assert (Kn : t_kind t <> ScalarType) by (destruct Cd as [[K|K]|[K _]]; congruence).
    destruct (not_library v STD (p_type p) t G Kn) as (F0 & F1 & F2 & F3 & F4 & F5 & F6).
    rewrite read_value_eq, F1, F2, F3, F4, F5, F6. unfold type_at. rewrite G. destruct Cd as [K|[K Pl]].
    - rewrite (object_read o pkg v fs structures limit PKG STD NAMED READY CODE ONCE DECL n (p_type p) t w ts G K ltac:(lia) ltac:(lia)). unfold unmarshal_object.
      unfold is_interface, is_enum, is_struct. destruct K as [K|K]; rewrite K; cbn [kind_eqb orb]; destruct (read_object o v (fuel ts) t (new_builder v t) ts); reflexivity.
    - pose proof Pl as (ke & te & El & Ge & Ki).
      rewrite (list_read o pkg v fs structures limit PKG STD NAMED READY CODE ONCE DECL n (p_type p) t ke w ts G K Pl El ltac:(lia) ltac:(lia)). unfold unmarshal_list.
      unfold is_interface, is_enum, is_struct, is_list, elem_key. rewrite K, El. cbn [kind_eqb orb]. destruct (read_items o v (fuel ts) ke [] ts); reflexivity.
  Qed.

  Lemma object_reads ts ccs cs : (forall n, Forall2 (coded_case o v fs structures limit m n) ccs cs) -> reads ts (JsonCodeModel.read_response ccs) (RequestModel.read_cases o v (fuel ts) cs [] ts).
  Proof.
    intros FA J n w L1 L2. rewrite (receive_known n _ _ J).
    destruct n as [|n]; [lia|].
    assert (B : blk (S n) started (MkState w ts) (JsonCodeModel.read_response ccs) =
      match loop limit (holds before) (MkState w ts) (iteration o v fs structures limit (S n) ccs) with
      | Next e s => blk (S n) e s [TReturn [XField the_iterator "Error"]] | f => f end).
    { unfold JsonCodeModel.read_response, started. rewrite block_cons. cbn [JsonRunSpec.exec JsonRunSpec.eval lookup mget String.eqb Ascii.eqb Bool.eqb].
      rewrite (new_iterator o v fs structures limit ONCE). cbn [define_all define mset String.eqb Ascii.eqb Bool.eqb]. reflexivity. }
    rewrite B. pose proof (cases_run o v fs structures limit m before HAS (S n) ccs cs (FA (S n)) (fuel ts) limit [] before w ts ltac:(lia) ltac:(lia) ltac:(lia) kept_start) as H.
    pose proof (cases_advance o v cs (fuel ts) [] ts ltac:(unfold fuel; lia)) as A. unfold advances in A.
    destruct (RequestModel.read_cases o v (fuel ts) cs [] ts) as [fields rest| |]; [| |contradiction].
    - destruct H as (l & -> & K). exists l. split; [reflexivity|exact K].
    - rewrite H. reflexivity.
  Qed.

  (** * Lists and searches *)

  Lemma page_reads ts special (search : bool) body rs : called ["list"] (m_name m) \/ called ["search"] (m_name m) -> known_method m ->
    (forall p, is_special special p = (RequestModel.has_name nPage p || RequestModel.has_name nSize p || RequestModel.has_name nTotal p || (search && RequestModel.has_name nBody p) || RequestModel.has_name nItems p)) ->
    paging_ok (m_params m) -> (exists p, In p (m_params m) /\ list_param v p /\ only_out p /\ called ["items"] (p_name p)) ->
    read_page pkg v special m = Done (body, rs) -> reads ts body (RequestModel.read_cases o v (fuel ts) (RequestModel.list_cases v search m) [] ts).
  Proof.
    intros LS KM SP (PG1 & PG2 & PG3) (p & I & LP & (D1 & D2) & Cp) E.
    destruct (list_coded v m MREADY p I LP) as (t & G & CT & KL). unfold read_page in E. rewrite (last_named_at v m MREADY nItems ["items"] p eq_refl KM I Cp) in E.
    change (type_at (p_type p) v) with (mget (p_type p) (v_types v)) in E. rewrite G in E.
    set (l := (option_list (last_named nPage (m_params m)) ++ option_list (last_named nSize (m_params m)) ++ option_list (last_named nTotal (m_params m)) ++ filter p_out (filter (fun p => negb (is_special special p)) (m_params m)))%list) in E.
    assert (LC : RequestModel.list_cases v search m = (map RequestModel.parameter_case l ++ [RequestModel.items_case v p])%list).
    { unfold RequestModel.list_cases.
      change (RequestModel.last_parameter (RequestModel.has_name nItems) (m_params m)) with (last_named nItems (m_params m)). rewrite (last_named_at v m MREADY nItems ["items"] p eq_refl KM I Cp).
      cbn [map]. f_equal. f_equal. unfold l, option_list.
      assert (FF : filter p_out (filter (fun p0 => negb (is_special special p0)) (m_params m)) =
        filter (fun p0 => p_out p0 && negb (RequestModel.has_name nPage p0 || RequestModel.has_name nSize p0 || RequestModel.has_name nTotal p0 || search && RequestModel.has_name nBody p0 || RequestModel.has_name nItems p0)) (m_params m)).
      { clear -SP. induction (m_params m) as [|q ps IH]; [reflexivity|]. cbn [filter]. rewrite SP.
        destruct (RequestModel.has_name nPage q || RequestModel.has_name nSize q || RequestModel.has_name nTotal q || search && RequestModel.has_name nBody q || RequestModel.has_name nItems q); cbn [negb filter];
          [rewrite andb_false_r; exact IH|]. rewrite andb_true_r. destruct (p_out q); [f_equal|]; exact IH. }
      rewrite FF. reflexivity. }
    rewrite LC. destruct (read_parameters pkg v l) as [[ccs l1]| |] eqn:R1; try discriminate.
    destruct (JsonCodeModel.read_value pkg v "items" (p_type p) t false) as [[code l2]| |] eqn:R2; try discriminate. injection E as <- <-.
    apply object_reads. intros n. apply Forall2_app.
    - eapply (parameters_coded o pkg v fs structures limit PKG STD NAMED READY CODE ONCE DECL m MREADY n l ccs); [|exact R1].
      intros q Q. unfold l in Q. rewrite !in_app_iff, !option_in, !filter_In in Q. destruct Q as [Q|[Q|[Q|((J & S) & O)]]]; [| | |auto].
      + apply (last_named_in m nPage ["page"] q eq_refl) in Q as (J & Q). destruct (PG1 q (first_of v m MREADY ["page"] q KM J Q)) as (_ & (_ & O) & _). auto.
      + apply (last_named_in m nSize ["size"] q eq_refl) in Q as (J & Q). destruct (PG2 q (first_of v m MREADY ["size"] q KM J Q)) as (_ & (_ & O) & _). auto.
      + apply (last_named_in m nTotal ["total"] q eq_refl) in Q as (J & Q). destruct (PG3 q (first_of v m MREADY ["total"] q KM J Q)) as (_ & (_ & O)). auto.
    - constructor; [|constructor]. eapply (items_coded o pkg v fs structures limit PKG STD NAMED READY CODE ONCE DECL m MREADY n p t code l2); auto. now apply items_field.
  Qed.

  Theorem response_runs ts : In r (resources v) -> In m (r_methods r) -> forall n w, fuel ts + 3 <= n -> fuel ts + 1 <= limit ->
    match RequestModel.read_response o v m ts with
    | Ok fields rest => exists l, receive o v structures fs limit n func_name (RStruct before) (MkState w ts) = Received RNil (RStruct l) (MkState w rest) /\ kept_fields fields l
    | Failed => receive o v structures fs limit n func_name (RStruct before) (MkState w ts) = Interrupted WrongDocument
    | OutOfFuel => False
    end.
  Proof.
    intros R M. destruct (method_functions pkg v fs [] CODE ONCE r m R M) as (lf & rs & MC & IN). unfold method_code in MC. cbv zeta in MC.
    pose proof MREADY as ((_ & A1 & A2 & A3 & A4 & A5 & A6 & A7) & _).
    assert (X : forall n ws, n_words n = map (fun s => MkWord s false) ws -> name_equals (Some (m_name m)) (Some n) = true -> called ws (m_name m)) by (intros n ws W E; now apply (equals_called n (m_name m) ws W)).
    assert (Go : forall code q, match code with Done (q, p, l) => Done ([request_func r m q; response_func r m p], l) | _ => Panics end = Done (lf, rs) ->
      (forall q' p l', code = Done (q', p, l') -> reads ts p q) ->
      forall n w, fuel ts + 3 <= n -> fuel ts + 1 <= limit ->
      match q with
      | Ok fields rest => exists l, receive o v structures fs limit n func_name (RStruct before) (MkState w ts) = Received RNil (RStruct l) (MkState w rest) /\ kept_fields fields l
      | Failed => receive o v structures fs limit n func_name (RStruct before) (MkState w ts) = Interrupted WrongDocument
      | OutOfFuel => False
      end).
    { intros [[[q' p] l']| |] q E H; try discriminate. injection E as <- <-. apply (H q' p l' eq_refl). apply IN. right. now left. }
    assert (Body : forall ws b t, In ws known_methods -> called ws (m_name m) -> In b (m_params m) -> p_out b = true -> called ["body"] (p_name b) -> mget (p_type b) (v_types v) = Some t -> coded v t ->
      typed_parameter v nBody m = Some (b, t) /\
      reads ts (unmarshal_field t "body") (match get_parameter nBody m with Some p => rbind (JsonModel.read_value o v (S (fuel ts)) (p_type p) false ts) (fun x r => Ok [("body", x)] r) | None => Failed end)).
    { intros ws b t Iw Cw Ib Ob CB G Cd. assert (KM : known_method m) by (exists ws; auto). unfold typed_parameter.
      rewrite (find_named v m MREADY nBody ["body"] b eq_refl KM Ib CB). unfold type_at. rewrite G. split; [reflexivity|]. rewrite <- (body_field b CB). now apply field_reads. }
    assert (Param : forall b, In b (m_params m) -> struct_param v b \/ list_param v b -> exists t, mget (p_type b) (v_types v) = Some t /\ coded v t).
    { intros b Ib [SP|SP]; [now apply struct_coded|]. destruct (list_coded v m MREADY b Ib SP) as (t & G & Cd & _). eauto. }
    unfold is_add, is_delete, is_async_delete, is_get, is_list_method, is_post, is_search, is_update, is_async_update, RequestModel.read_response in *. cbv zeta.
    unfold is_add, is_delete, is_async_delete, is_get, is_list_method, is_post, is_search, is_update, is_async_update in *.
    destruct (name_equals (Some (m_name m)) (Some nAdd)) eqn:E1.
    { apply (X nAdd ["add"] eq_refl) in E1. destruct (A1 E1) as (l1 & b & l2 & EQ & (SP & (_ & IO) & CB) & _). assert (Ib : In b (m_params m)) by (rewrite EQ; apply in_or_app; right; now left).
      destruct (Param b Ib ltac:(tauto)) as (t & G & Cd). destruct (Body ["add"] b t ltac:(cbn; auto 10) E1 Ib IO CB G Cd) as (T & H). apply (Go _ _ MC). intros q p l' E. unfold add_code in E. rewrite T in E. injection E as _ <- _. exact H. }
    destruct (name_equals (Some (m_name m)) (Some nDelete) || name_equals (Some (m_name m)) (Some nAsyncDelete)) eqn:E2.
    { apply (Go (Done (nothing, nothing, [])) (Ok [] ts) MC). intros q p l' E. injection E as _ <- _. apply nothing_reads. }
    destruct (name_equals (Some (m_name m)) (Some nGet)) eqn:E4.
    { apply (X nGet ["get"] eq_refl) in E4. destruct (A3 E4) as (l1 & b & l2 & EQ & (SP & (_ & IO) & CB) & _). assert (Ib : In b (m_params m)) by (rewrite EQ; apply in_or_app; right; now left).
      destruct (Param b Ib ltac:(tauto)) as (t & G & Cd). destruct (Body ["get"] b t ltac:(cbn; auto 10) E4 Ib IO CB G Cd) as (T & H). apply (Go _ _ MC). intros q p l' E. unfold get_code in E. rewrite T in E. injection E as _ <- _. exact H. }
    destruct (name_equals (Some (m_name m)) (Some nList)) eqn:E5.
    { apply (X nList ["list"] eq_refl) in E5. destruct (A4 E5) as ((l1 & b & l2 & EQ & (LP & OO & CI) & _) & PG). apply (Go _ _ MC). intros q p l' E. unfold list_method_code in E.
      destruct (read_page pkg v _ m) as [[p0 t0]| |] eqn:RP; [|discriminate|discriminate]. injection E as <- <- _.
      eapply (page_reads ts [nPage; nSize; nTotal; nItems] false); [now left|exists ["list"]; split; [cbn; auto 10|exact E5]| |exact PG| |exact RP].
      - intros x. unfold is_special, RequestModel.has_name. cbn [existsb andb]. rewrite !orb_false_r, !orb_assoc. reflexivity.
      - exists b. split; [rewrite EQ; apply in_or_app; right; now left|auto]. }
    destruct (name_equals (Some (m_name m)) (Some nPost)) eqn:E6.
    { apply (X nPost ["post"] eq_refl) in E6. apply (Go _ _ MC). intros q p l' E. unfold post_code in E. cbv zeta in E.
      change (RequestModel.last_parameter p_out (m_params m)) with (last_parameter p_out m). destruct (last_parameter p_out m) as [b|] eqn:Lb.
      - unfold type_at in E. apply (last_some p_out) in Lb as (Ib & Pb). destruct (A5 E6) as (_ & _ & (l1 & b' & l2 & EQ & (_ & SB) & N)). assert (PB : b = b').
        { rewrite Forall_forall in N. rewrite EQ in Ib. apply in_app_or in Ib as [Ib|[Ib|Ib]]; [|auto|]; exfalso; specialize (N b); rewrite N in Pb; try discriminate; apply in_or_app; auto. }
        subst b'. destruct (struct_coded v b SB) as (t & G & Cd).
        rewrite G in E. match type of E with match ?Q with _ => _ end = _ => destruct Q; [|discriminate] end. injection E as _ <- _. now apply field_reads.
      - match type of E with match ?Q with _ => _ end = _ => destruct Q; [|discriminate] end. injection E as _ <- _. apply nothing_reads. }
    destruct (name_equals (Some (m_name m)) (Some nSearch)) eqn:E7.
    { apply (X nSearch ["search"] eq_refl) in E7. apply (Go _ _ MC). intros q p l' E. unfold search_code in E. cbv zeta in E.
      destruct (A6 E7) as ((items & b & others & PERM & LP & OO & CI & _) & PG).
      assert (Ii : In items (m_params m)) by (eapply Permutation_in; [apply Permutation_sym, PERM|now left]).
      match type of E with match ?Q with _ => _ end = _ => destruct Q; [|discriminate] end.
      destruct (read_page pkg v _ m) as [[p0 t0]| |] eqn:RP; [|discriminate|discriminate]. injection E as _ <- _.
      eapply (page_reads ts [nPage; nSize; nTotal; nBody; nItems] true); [now right|exists ["search"]; split; [cbn; auto 10|exact E7]| |exact PG|exists items; auto|exact RP].
      intros x. unfold is_special, RequestModel.has_name. cbn [existsb andb]. rewrite !orb_false_r, !orb_assoc. reflexivity. }
    destruct (name_equals (Some (m_name m)) (Some nUpdate) || name_equals (Some (m_name m)) (Some nAsyncUpdate)) eqn:E8.
    { assert (E : called ["update"] (m_name m) \/ called ["async"; "update"] (m_name m)) by (apply orb_true_iff in E8 as [E|E]; [left; exact (X nUpdate ["update"] eq_refl E)|right; exact (X nAsyncUpdate ["async"; "update"] eq_refl E)]).
      destruct (A7 E) as (l1 & b & l2 & EQ & (SP & (_ & IO) & CB) & _). assert (Ib : In b (m_params m)) by (rewrite EQ; apply in_or_app; right; now left).
      destruct (Param b Ib ltac:(tauto)) as (t & G & Cd). apply (Go _ _ MC). intros q p l' E'. unfold add_code in E'.
      destruct E as [E|E]; [destruct (Body ["update"] b t ltac:(cbn; auto 10) E Ib IO CB G Cd) as (T & H)|destruct (Body ["async"; "update"] b t ltac:(cbn; auto 10) E Ib IO CB G Cd) as (T & H)]; rewrite T in E'; injection E' as _ <- _; exact H. }
    apply (Go _ _ MC). intros q p l' E. unfold action_code in E.
    destruct (JsonCodeModel.write_parameters v (request_body_params v m)) as [code| |]; try discriminate.
    destruct (JsonCodeModel.read_parameters pkg v (response_body_params m)) as [[cases rr]| |] eqn:RP; try discriminate. injection E as _ <- _.
    assert (O : reads ts (JsonCodeModel.read_response cases) (RequestModel.read_cases o v (fuel ts) (map RequestModel.parameter_case (response_body_params m)) [] ts)).
    { apply object_reads. intros n. eapply (parameters_coded o pkg v fs structures limit PKG STD NAMED READY CODE ONCE DECL m MREADY n); [|exact RP]. intros x H. now apply filter_In in H. }
    destruct (response_body_params m); [apply nothing_reads|exact O].
  Qed.
End Version.
