(** Proofs about the execution of the functions that read the bodies of the responses: the loops. *)
From Coq Require Import Ascii String Bool Arith ZArith NArith Lia Permutation List.
From Verif Require Import GoStrings GoMap GoMapProofs NamesModel ConceptsModel ReporterModel BindingModel GoNamesModel GoTimeModel DeclsModel DeclsSpec DeclsProofs ChecksModel GoTypesModel GoTypesSpec GoTypesProofs GoTypesProofs2 GoTypesProofs3
  ObjectsModel ObjectsSpec ObjectsProofs ObjectsProofs2 JsonModel JsonSpec JsonProofs3 JsonProofs4 JsonProofs5 JsonProofs6 JsonCodeModel JsonCodeSpec JsonRunSpec JsonMethodsSpec JsonRunProofs JsonRunProofs2 JsonRunProofs3 JsonRunProofs4 JsonRunProofs5 JsonRunProofs6 JsonRunProofs7 JsonRunProofs8 JsonRunProofs9 JsonRunProofs10 JsonRunProofs11.
From Verif Require RequestModel.
Import ListNotations.
Local Open Scope string_scope.

Section Version.
  Context (o : oracle) (pkg : string) (v : version) (fs : list func) (structures : string -> option (list (string * gv))) (limit : nat).
  Context (PKG : package_path pkg) (STD : standard v) (NAMED : named_well v) (READY : json_ready v).
  Context (CODE : json_code pkg v = Done (fs, [])) (ONCE : declared_once v fs) (DECL : declares v structures).
  Context (m : method) (before : list (string * gv)).
  Context (HAS : forall p, In p (m_params m) -> p_out p = true -> mget (json_parameter_field p) before <> None).
  Notation constants := (kind_constants v).
  Notation C := (call_function o constants structures fs limit).
  Notation eval n := (eval o constants structures limit (C n)).
  Notation exec n := (exec o constants structures limit (C n)).
  Notation blk n := (block o constants structures limit (C n)).
  Notation puts n := (puts o constants structures limit (C n)).
  Notation iteration := (iteration o v fs structures limit).

  Definition holds (l : list (string * gv)) : frames := [[("response", RStruct l); ("reader", RSource); ("iterator", RIterator); ("err", RNil)]].
  Definition kept_fields (fields : list (string * value)) (l : list (string * gv)) : Prop :=
    forall f, match mget f fields with
    | Some x => exists p, In p (m_params m) /\ p_out p = true /\ json_parameter_field p = f /\ mget f l = Some (run_field v (p_type p) x)
    | None => mget f l = mget f before
    end.

  Lemma kept_has fields l p : kept_fields fields l -> In p (m_params m) -> p_out p = true -> mget (json_parameter_field p) l <> None.
  Proof.
    intros K I P. specialize (K (json_parameter_field p)). destruct (mget (json_parameter_field p) fields).
    - destruct K as (q & _ & _ & _ & ->). discriminate.
    - rewrite K. now apply HAS.
  Qed.
  Lemma kept_set fields l p x : kept_fields fields l -> In p (m_params m) -> p_out p = true ->
    kept_fields (mset (json_parameter_field p) x fields) (mset (json_parameter_field p) (run_field v (p_type p) x) l).
  Proof.
    intros K I P f. destruct (String.eqb f (json_parameter_field p)) eqn:E.
    - apply String.eqb_eq in E. subst f. rewrite mget_mset_same. exists p. rewrite mget_mset_same. auto.
    - apply String.eqb_neq in E. rewrite !mget_mset_other by congruence. apply K.
  Qed.

  (** The code of a case and the model of it. *)
  Definition coded_case (n : nat) (cc : string * list stm) (c : RequestModel.case) : Prop :=
    fst cc = RequestModel.k_tag c /\
    (exists p, In p (m_params m) /\ p_out p = true /\ json_parameter_field p = RequestModel.k_field c /\ p_type p = RequestModel.k_type c) /\
    exists x code a, snd cc = (code ++ [TAssign [response_field (RequestModel.k_field c)] a])%list /\ x <> "response" /\
      (forall j f e w ts, j <= n -> j <= limit -> lookup (f :: e) "iterator" = Some RIterator ->
         puts n f e w ts code x (as_value (run_value v (RequestModel.k_type c)) (JsonModel.read_value o v j (RequestModel.k_type c) false ts))) /\
      (forall f e s y, y <> VNil -> mget x f = Some (run_value v (RequestModel.k_type c) y) -> eval n (f :: e) s a = Gives (run_field v (RequestModel.k_type c) (RequestModel.k_wrap c y)) s).

  Lemma find_coded n ccs cs f : Forall2 (coded_case n) ccs cs ->
    match find (fun c => String.eqb f (RequestModel.k_tag c)) cs with
    | Some c => exists cc, find (fun c => String.eqb f (fst c)) ccs = Some cc /\ coded_case n cc c
    | None => find (fun c => String.eqb f (fst c)) ccs = None
    end.
  Proof.
    intros F. induction F as [|cc c ccs cs H F IH]; [reflexivity|]. cbn [find]. pose proof H as (E & _). rewrite E. destruct (String.eqb f (RequestModel.k_tag c)); [eauto|exact IH].
  Qed.

  Lemma read_not_nil j k l y r : JsonModel.read_value o v j k false l = Ok y r -> y <> VNil.
  Proof.
    destruct j as [|j]; [discriminate|]. rewrite read_value_eq. intros H ->.
    repeat match type of H with
    | (if ?b then _ else _) = _ => destruct b
    | match type_at ?k ?v with _ => _ end = _ => destruct (type_at k v)
    | rbind ?q _ = _ => destruct q; cbn [rbind] in H
    | match any_of ?a ?b with _ => _ end = _ => destruct (any_of a b)
    | match parse_rfc3339 ?b with _ => _ end = _ => destruct (parse_rfc3339 b)
    end; discriminate.
  Qed.

  Lemma assign_response n f x l s s' fld a g : mget "response" f = None -> eval n (f :: [("field", x)] :: holds l) s a = Gives g s' -> mget fld l <> None ->
    exec n (f :: [("field", x)] :: holds l) s (TAssign [response_field fld] a) = Next (f :: [("field", x)] :: holds (mset fld g l)) s'.
  Proof.
    intros F E G. cbn [JsonRunSpec.exec]. rewrite E. cbn [store_all]. unfold response_field, store, holds. cbn [lookup]. rewrite F. cbn [mget String.eqb Ascii.eqb Bool.eqb].
    destruct (mget fld l) eqn:Gl; [|contradiction]. cbn [update]. rewrite F. reflexivity.
  Qed.

  Lemma cases_run n ccs cs : Forall2 (coded_case n) ccs cs -> forall j lim fields l w ts, j <= n -> j <= limit -> j <= lim -> kept_fields fields l ->
    match RequestModel.read_cases o v j cs fields ts with
    | Ok fields' rest => exists l', loop lim (holds l) (MkState w ts) (iteration n ccs) = Next (holds l') (MkState w rest) /\ kept_fields fields' l'
    | Failed => loop lim (holds l) (MkState w ts) (iteration n ccs) = Stops WrongDocument
    | OutOfFuel => True
    end.
  Proof.
    intros FA j. induction j as [|j IH]; intros lim fields l w ts L1 L2 L3 K; [exact I|]. destruct lim as [|lim]; [lia|]. cbn [loop RequestModel.read_cases].
    replace (iteration n ccs (holds l) (MkState w ts)) with
      (match read_key ts with
       | Ok f r => if String.eqb f "" then Breaks (holds l) (MkState w r) else
           leave (leave (blk n ([] :: [("field", RString f)] :: holds l) (MkState w r) (match find (fun c => String.eqb f (fst c)) ccs with Some c => snd c | None => [TDo (read "ReadAny")] end)))
       | Failed => Stops WrongDocument
       | OutOfFuel => Stops MoreSteps
       end) by (unfold JsonRunProofs9.iteration; rewrite case_step by reflexivity; reflexivity).
    destruct (read_key ts) as [f r| |]; cbn [rbind]; [|reflexivity|exact I]. destruct (String.eqb f ""); [exists l; auto|].
    pose proof (find_coded n ccs cs f FA) as FC. destruct (find (fun c => String.eqb f (RequestModel.k_tag c)) cs) as [c|].
    - destruct FC as (cc & -> & _ & (p & Ip & Op & Fp & Tp) & x & code & a & -> & Nx & HP & HA).
      specialize (HP j [] ([("field", RString f)] :: holds l) w r ltac:(lia) ltac:(lia) eq_refl).
      pose proof (read_not_nil j (RequestModel.k_type c) r) as NN.
      destruct (JsonModel.read_value o v j (RequestModel.k_type c) false r) as [y rest| |]; cbn [rbind as_value] in HP |- *; [| |exact I].
      + destruct HP as (f' & B & Gx & O). rewrite block_app, B, block_cons.
        assert (R0 : mget "response" f' = None) by (rewrite O; [reflexivity|cbn; intros [E|[E|[E|[]]]]; [now apply Nx|discriminate|discriminate]]).
        rewrite (assign_response n f' (RString f) l (MkState w rest) (MkState w rest) _ a _ R0 (HA f' _ _ y (NN y rest eq_refl) Gx)); [|rewrite <- Fp; now apply (kept_has fields)].
        cbn [block leave tl]. apply IH; [lia|lia|lia|]. rewrite <- Fp, <- Tp. now apply kept_set.
      + unfold JsonRunProofs7.puts in HP. rewrite block_app, HP. reflexivity.
    - rewrite FC. pose proof (any_step o constants structures limit (C n) ([] :: [("field", RString f)] :: holds l) w r j eq_refl ltac:(lia)) as A.
      destruct (parse_json j r) as [x rest| |]; cbn [rbind]; [| |exact I]; rewrite A; cbn [leave tl]; [|reflexivity]. apply IH; auto; lia.
  Qed.

  Lemma cases_advance cs : forall n fields l, 2 * length l + 1 <= n -> advances (RequestModel.read_cases o v n cs fields l) l.
  Proof.
    induction n as [|n IH]; intros fields l L; [lia|]. cbn [RequestModel.read_cases]. apply advances_bind; [apply key_advances|]. intros f r Lr.
    destruct (String.eqb f ""); [exact Lr|]. destruct (find _ cs) as [c|].
    - pose proof (proj1 (read_advances o v n) (RequestModel.k_type c) false r ltac:(lia)) as A. unfold advances in A.
      destruct (JsonModel.read_value o v n (RequestModel.k_type c) false r) as [y rest| |]; cbn [rbind]; [|exact I|contradiction]. eapply advances_less; [apply IH; lia|lia].
    - pose proof (proj1 (parse_advances n) r ltac:(lia)) as A. unfold advances in A.
      destruct (parse_json n r) as [y rest| |]; cbn [rbind]; [|exact I|contradiction]. eapply advances_less; [apply IH; lia|lia].
  Qed.

  (** * The cases *)

  Lemma field_expression n p t f e s y : mget (p_type p) (v_types v) = Some t -> y <> VNil -> mget "value" f = Some (run_value v (p_type p) y) ->
    eval n (f :: e) s (if is_scalar t then XAddr "value" else XVar "value") = Gives (run_field v (p_type p) y) s.
  Proof.
    intros G N M. assert (E : run_field v (p_type p) y = if is_scalar t then RPtr (run_value v (p_type p) y) else run_value v (p_type p) y).
    { unfold run_field, is_scalar. destruct y; try contradiction; rewrite G; destruct (t_kind t); reflexivity. }
    rewrite E. destruct (is_scalar t); cbn [JsonRunSpec.eval lookup]; now rewrite M.
  Qed.

  Context (MREADY : method_ready v m).

  Lemma parameter_coded n p cc rs : In p (m_params m) -> p_out p = true -> JsonCodeModel.read_parameter pkg v p = Done (cc, rs) -> coded_case n cc (RequestModel.parameter_case p).
  Proof.
    intros I P E. unfold JsonCodeModel.read_parameter in E. unfold type_at in E. destruct (mget (p_type p) (v_types v)) as [t|] eqn:G; [|discriminate].
    destruct (JsonCodeModel.read_value pkg v "value" (p_type p) t false) as [[code l]| |] eqn:R; try discriminate. injection E as <- <-.
    split; [reflexivity|]. split; [exists p; auto|]. exists "value", code. eexists. split; [reflexivity|]. split; [discriminate|]. cbn [RequestModel.parameter_case RequestModel.k_type RequestModel.k_wrap].
    split.
    - intros j f e w ts L1 L2 It. destruct (all_run o pkg v fs structures limit PKG STD NAMED READY CODE ONCE DECL j) as (HV & _).
      destruct MREADY as (_ & A & _). destruct (A p I) as (Ac & _). now apply (HV n (p_type p) t false "value" f e w ts code l L1 L2 Ac G (or_introl eq_refl) R).
    - intros f e s y N M. now apply field_expression.
  Qed.
  Lemma parameters_coded n l : forall ccs rs, (forall p, In p l -> In p (m_params m) /\ p_out p = true) -> JsonCodeModel.read_parameters pkg v l = Done (ccs, rs) ->
    Forall2 (coded_case n) ccs (map RequestModel.parameter_case l).
  Proof.
    induction l as [|p l IH]; intros ccs rs H E; cbn [JsonCodeModel.read_parameters] in E; [injection E as <- <-; constructor|].
    destruct (JsonCodeModel.read_parameter pkg v p) as [[cc rp]| |] eqn:R; try discriminate. destruct (JsonCodeModel.read_parameters pkg v l) as [[cl rl]| |] eqn:R'; try discriminate.
    injection E as <- <-. cbn [map]. constructor.
    - destruct (H p ltac:(now left)). now apply (parameter_coded n p cc rp).
    - apply (IH cl rl); [intros q Q; apply H; now right|reflexivity].
  Qed.

  Lemma items_coded n p t code rs : In p (m_params m) -> p_out p = true -> json_parameter_field p = "items" -> mget (p_type p) (v_types v) = Some t -> t_kind t = ListType ->
    JsonCodeModel.read_value pkg v "items" (p_type p) t false = Done (code, rs) ->
    coded_case n ("items", (code ++ [TAssign [response_field "items"] (if is_list t && scalar_element v t then XVar "items" else XNewItems (struct_name v t) (XVar "items"))])%list) (RequestModel.items_case v p).
  Proof.
    intros I P Fi G K R.
    assert (Pl : plain v t). { destruct MREADY as (_ & A & _). destruct (A p I) as ((t' & G' & _ & Pl & _) & _). rewrite G in G'. injection G' as <-. apply Pl. rewrite K. cbn. tauto. }
    pose proof Pl as (ke & te & El & Ge & Ki). assert (Ek : elem_key t = ke) by (unfold elem_key; now rewrite El).
    assert (IL : is_list t = true) by (unfold is_list; now rewrite K). assert (IM : is_map t = false) by (unfold is_map; now rewrite K).
    destruct (not_library v STD (p_type p) t G) as (F0 & F1 & F2 & F3 & F4 & F5 & F6); [congruence|].
    assert (Code : code = [TDefine ["items"] (XCall (read_func t) [the_iterator])]).
    { unfold JsonCodeModel.read_value in R. rewrite IM in R. injection R as <- <-. unfold read_flat, library_type. rewrite F1, F2, F3, F4, F5, F6.
      unfold is_interface, is_enum, is_struct, is_list. rewrite K. reflexivity. }
    split; [reflexivity|]. split; [exists p; auto|]. exists "items", code. eexists. split; [reflexivity|]. split; [discriminate|]. cbn [RequestModel.items_case RequestModel.k_type RequestModel.k_wrap].
    split.
    - intros j f e w ts L1 L2 It. subst code. apply puts_call. intros s Hs Ho. destruct j as [|j]; [exact Logic.I|]. destruct n as [|n]; [lia|].
      rewrite read_value_eq, F1, F2, F3, F4, F5, F6. unfold type_at. rewrite G. unfold is_interface, is_enum, is_struct. rewrite IL, K, Ek. cbn [kind_eqb orb].
      destruct (all_run o pkg v fs structures limit PKG STD NAMED READY CODE ONCE DECL j) as (_ & _ & _ & HI & _).
      pose proof (read_list_runs o pkg v fs structures limit PKG STD NAMED CODE ONCE j n (p_type p) t ke w ts HI ltac:(lia) ltac:(lia) G K Pl El) as H.
      assert (Ev : eval (S n) (f :: e) s (XCall (read_func t) [the_iterator]) = C (S n) (read_func t) [RIterator] (MkState w ts)) by (unfold the_iterator; cbn [JsonRunSpec.eval]; rewrite It; destruct s; cbn in *; subst; reflexivity).
      unfold as_value. destruct (read_items o v j ke [] ts) as [b r| |]; cbn [rbind]; [| |exact Logic.I]; now rewrite Ev.
    - intros f e s y N M. unfold type_at. rewrite G, IL, Ek, Ge. unfold scalar_element, type_at. rewrite El, Ge. cbn [andb].
      destruct (is_scalar te) eqn:Sc.
      + cbn [JsonRunSpec.eval lookup]. rewrite M. unfold run_field. destruct y; try contradiction; rewrite G, K; reflexivity.
      + assert (St : structural te). { unfold is_scalar in Sc. unfold structural. cbn in Ki. destruct (t_kind te); try discriminate; try tauto; intuition discriminate. }
        assert (SN : struct_name v t = object_name te ++ "List") by (unfold struct_name; rewrite IL; unfold element_of, type_at; rewrite El, Ge; reflexivity).
        destruct (DECL ke te Ge St) as (_ & D). cbn [JsonRunSpec.eval lookup]. rewrite M, SN, D. unfold run_field. rewrite G, K. reflexivity.
  Qed.
End Version.
