(** Proofs about the execution of the code that reads JSON documents: the values and the results. *)
From Coq Require Import Ascii String Bool Arith ZArith NArith Lia Permutation List.
From Verif Require Import GoStrings GoMap GoMapProofs NamesModel ConceptsModel ReporterModel BindingModel GoNamesModel GoTimeModel DeclsModel DeclsSpec DeclsProofs ChecksModel GoTypesModel GoTypesSpec GoTypesProofs GoTypesProofs2 GoTypesProofs3
  ObjectsModel ObjectsSpec ObjectsProofs ObjectsProofs2 JsonModel JsonSpec JsonProofs3 JsonProofs4 JsonProofs5 JsonProofs6 JsonCodeModel JsonCodeSpec JsonRunSpec JsonRunProofs JsonRunProofs2 JsonRunProofs3 JsonRunProofs4 JsonRunProofs5 JsonRunProofs6 JsonRunProofs7 JsonRunProofs8 JsonRunProofs9 JsonRunProofs10.
Import ListNotations.
Local Open Scope string_scope.

Section Version.
  Context (o : oracle) (pkg : string) (v : version) (fs : list func) (structures : string -> option (list (string * gv))) (limit : nat).
  Context (PKG : package_path pkg) (STD : standard v) (NAMED : named_well v) (READY : json_ready v).
  Context (CODE : json_code pkg v = Done (fs, [])) (ONCE : declared_once v fs) (DECL : declares v structures).
  Notation constants := (kind_constants v).
  Notation C := (call_function o constants structures fs limit).
  Notation eval n := (eval o constants structures limit (C n)).
  Notation exec n := (exec o constants structures limit (C n)).
  Notation blk n := (block o constants structures limit (C n)).
  Notation puts n := (puts o constants structures limit (C n)).
  Notation shown := (shown v).
  Notation reader := (reader v).

  Notation iteration := (iteration o v fs structures limit).
  Notation entry := (entry o v fs structures limit).
  Notation step := (step o v fs structures limit).
  Notation value_runs := (value_runs o pkg v fs structures limit).
  Notation object_runs := (object_runs o pkg v fs structures limit).
  Notation link_runs := (link_runs o v fs structures limit).
  Notation items_run := (items_run o pkg v fs structures limit).
  Notation entries_run := (entries_run o v fs structures limit).

  Lemma assoc3 (s : string) : (s ++ "List") ++ "Link" = s ++ "ListLink".
  Proof. induction s as [|c s IH]; [reflexivity|]. cbn. now rewrite IH. Qed.

  (** * Lists of links *)

  Lemma set_field n f e x r s s' m fld a g li : mget "value" f = Some (RStruct li) -> mget "value" x = None -> mget "value" r = None -> setter_field m = Some fld -> mget fld li <> None ->
    (forall i, a <> XAddr i) -> eval n (x :: r :: f :: e) s a = Gives g s' ->
    exec n (x :: r :: f :: e) s (TDo (XMethod (XVar "value") m [a])) = Next (x :: r :: mset "value" (RStruct (mset fld g li)) f :: e) s'.
  Proof.
    intros Gf Gx Gr Sf Gl Na E. cbn [JsonRunSpec.exec].
    assert (P : perform o constants structures limit (C n) (x :: r :: f :: e) s (XMethod (XVar "value") m [a]) = continue (store (x :: r :: f :: e) (XField (XVar "value") fld) g) s').
    { cbn [perform]. destruct a; try (rewrite Sf, E; reflexivity). exfalso. now apply (Na x0). }
    rewrite P. cbn [store lookup]. rewrite Gx, Gr, Gf. destruct (mget fld li); [|contradiction]. cbn [update]. rewrite Gx, Gr, Gf. reflexivity.
  Qed.

  Lemma link_next m : items_run m -> link_runs m -> link_runs (S m).
  Proof.
    intros HI HL n lim k t ke te f e href link items l w L1 L2 L3 G K El Ge St It Gv. rewrite read_list_eq. destruct lim as [|lim]; [lia|]. destruct n as [|n]; [lia|]. cbn [loop].
    assert (B : iteration (S n) (link_cases v t) (f :: e) (MkState w l) = match read_key l with
       | Ok y r => if String.eqb y "" then Breaks (f :: e) (MkState w r) else
           leave (leave (blk (S n) ([] :: [("field", RString y)] :: f :: e) (MkState w r) (match find (fun c => String.eqb y (fst c)) (link_cases v t) with Some c => snd c | None => [TDo (read "ReadAny")] end)))
       | Failed => Stops WrongDocument
       | OutOfFuel => Stops MoreSteps
       end) by (unfold JsonRunProofs9.iteration; rewrite case_step by exact It; reflexivity).
    rewrite B. clear B. destruct (read_key l) as [y r| |]; cbn [rbind]; [|reflexivity|exact I].
    destruct (String.eqb y ""); [exists f; split; [reflexivity|]; split; [exact Gv|intros z _; reflexivity]|].
    set (go := fun code => match leave (leave (blk (S n) ([] :: [("field", RString y)] :: f :: e) (MkState w r) code)) with Next e s => loop lim e s (iteration (S n) (link_cases v t)) | Breaks e s => Next e s | f => f end).
    assert (Next_ok : forall code href' link' items' r', leave (leave (blk (S n) ([] :: [("field", RString y)] :: f :: e) (MkState w r) code)) = Next (mset "value" (RStruct (run_list href' link' (run_value v k items'))) f :: e) (MkState w r') ->
      match read_list o v m t href' link' items' r' with
      | Ok z r'' => exists f', go code = Next (f' :: e) (MkState w r'') /\ mget "value" f' = Some (run_value v k z) /\ kept "value" f f'
      | Failed => go code = Stops WrongDocument | OutOfFuel => True end).
    { intros code href' link' items' r' Q. unfold go. rewrite Q.
      assert (It' : forall g, lookup (mset "value" g f :: e) "iterator" = Some RIterator) by (intros g; cbn [lookup] in *; rewrite mget_mset_other by discriminate; exact It).
      pose proof (HL (S n) lim k t ke te (mset "value" (RStruct (run_list href' link' (run_value v k items'))) f) e href' link' items' r' w ltac:(lia) ltac:(lia) ltac:(lia) G K El Ge St (It' _) (mget_mset_same _ _ _)) as H.
      destruct (read_list o v m t href' link' items' r') as [z r''| |]; [|exact H|exact I]. destruct H as (f' & Lp & Gv' & Kp). exists f'. split; [exact Lp|]. split; [exact Gv'|].
      intros u U. rewrite Kp by exact U. now apply mget_mset_other. }
    assert (Fail_ok : forall code, leave (leave (blk (S n) ([] :: [("field", RString y)] :: f :: e) (MkState w r) code)) = Stops WrongDocument -> go code = Stops WrongDocument).
    { intros code Q. unfold go. now rewrite Q. }
    fold (go (match find (fun c => String.eqb y (fst c)) (link_cases v t) with Some c => snd c | None => [TDo (read "ReadAny")] end)).
    assert (Rs : forall x, lookup (x :: [("field", RString y)] :: f :: e) "iterator" = match mget "iterator" x with Some g => Some g | None => Some RIterator end) by (intros x; cbn [lookup mget String.eqb Ascii.eqb Bool.eqb]; now rewrite <- It).
    assert (Sn : struct_name v t = object_name te ++ "List") by (unfold struct_name, is_list, element_of, type_at; rewrite K, El, Ge; reflexivity).
    assert (Ek : elem_key t = ke) by (unfold elem_key; now rewrite El).
    unfold link_cases. cbn [find fst]. destruct (String.eqb y "kind"); [|destruct (String.eqb y "href"); [|destruct (String.eqb y "items")]]; cbn [snd].
    - unfold type_at. rewrite Ek, Ge. rewrite Sn.
      set (code := [TDefine ["text"] (read "ReadString"); TDo (XMethod (XVar "value") "SetLink" [XEqual (XVar "text") (XName ((object_name te ++ "List") ++ "LinkKind"))])]).
      assert (Bk : leave (leave (blk (S n) ([] :: [("field", RString y)] :: f :: e) (MkState w r) code)) = match read_string r with
        | Ok s r' => Next (mset "value" (RStruct (run_list href (String.eqb s (object_name te ++ "ListLink")) (run_value v k items))) f :: e) (MkState w r')
        | Failed => Stops WrongDocument | OutOfFuel => Stops MoreSteps end).
      { unfold code. rewrite block_cons. cbn [JsonRunSpec.exec]. rewrite read_eval by (rewrite Rs; reflexivity).
        change (method_of o limit RIterator "ReadString" [] (MkState w r)) with (inputs (read_string r) RString (MkState w r)). destruct (read_string r) as [s r'| |]; cbn [inputs]; [|reflexivity|reflexivity].
        cbn [define_all define mset st_out]. rewrite block_cons.
        rewrite (set_field (S n) f e _ _ _ (MkState w r') "SetLink" "link" _ (RBool (String.eqb s (object_name te ++ "ListLink"))) _ Gv); [reflexivity|reflexivity|reflexivity|reflexivity|discriminate|discriminate|].
        cbn [JsonRunSpec.eval lookup mget String.eqb Ascii.eqb Bool.eqb]. rewrite not_rfc_link.
        rewrite (kind_constant v fs ONCE te _ (list_name te ++ "Link") (in_types v ke te Ge)).
        - unfold list_name. rewrite assoc3. reflexivity.
        - unfold is_struct. destruct St as [X|X]; rewrite X; reflexivity.
        - right. unfold kinds_of. right. now left. }
      destruct (read_string r) as [s r'| |]; cbn [rbind]; [|now apply Fail_ok|exact I]. now apply (Next_ok code href (String.eqb s (object_name te ++ "ListLink")) items r').
    - set (code := [TDo (XMethod (XVar "value") "SetHREF" [read "ReadString"])]).
      assert (Ev : eval (S n) ([] :: [("field", RString y)] :: f :: e) (MkState w r) (read "ReadString") = inputs (read_string r) RString (MkState w r)) by (rewrite read_eval by (rewrite Rs; reflexivity); reflexivity).
      destruct (read_string r) as [s r'| |]; cbn [rbind inputs st_out] in *; [| |exact I].
      + apply (Next_ok code s link items r'). unfold code. rewrite block_cons.
        rewrite (set_field (S n) f e _ _ _ (MkState w r') "SetHREF" "href" _ (RString s) _ Gv); [reflexivity|reflexivity|reflexivity|reflexivity|discriminate|discriminate|exact Ev].
      + apply Fail_ok. unfold code. rewrite block_cons. cbn [JsonRunSpec.exec]. unfold perform. cbn [setter_field String.eqb Ascii.eqb Bool.eqb].
        change (setter_field "SetHREF") with (Some "href"). unfold read at 1. cbv beta iota. fold (read "ReadString"). now rewrite Ev.
    - rewrite Ek. set (code := [TDo (XMethod (XVar "value") "SetItems" [XCall (read_func t) [the_iterator]])]).
      assert (Pl : plain v t) by (exists ke, te; split; [exact El|]; split; [exact Ge|]; cbn; destruct St as [X|X]; rewrite X; tauto).
      pose proof (read_list_runs o pkg v fs structures limit PKG STD NAMED CODE ONCE m n k t ke w r HI ltac:(lia) ltac:(lia) G K Pl El) as Rl.
      assert (Ev : eval (S n) ([] :: [("field", RString y)] :: f :: e) (MkState w r) (XCall (read_func t) [the_iterator]) = C (S n) (read_func t) [RIterator] (MkState w r)).
      { unfold the_iterator. cbn [JsonRunSpec.eval]. now rewrite Rs. }
      destruct (read_items o v m ke [] r) as [its r'| |]; cbn [rbind]; [| |exact I]; rewrite Rl in Ev.
      + apply (Next_ok code href link (VSlice its) r'). unfold code. rewrite block_cons.
        rewrite (set_field (S n) f e _ _ _ (MkState w r') "SetItems" "items" _ (run_value v k (VSlice its)) _ Gv); [reflexivity|reflexivity|reflexivity|reflexivity|discriminate|discriminate|exact Ev].
      + apply Fail_ok. unfold code. rewrite block_cons. cbn [JsonRunSpec.exec]. unfold perform.
        change (setter_field "SetItems") with (Some "items"). cbv beta iota. now rewrite Ev.
    - pose proof (any_step o constants structures limit (C (S n)) ([] :: [("field", RString y)] :: f :: e) w r m ltac:(rewrite Rs; reflexivity) ltac:(lia)) as A.
      destruct (parse_json m r) as [j rest| |]; cbn [rbind]; [| |exact I].
      + pose proof (HL (S n) lim k t ke te f e href link items rest w ltac:(lia) ltac:(lia) ltac:(lia) G K El Ge St It Gv) as H. unfold go. rewrite A. exact H.
      + apply Fail_ok. rewrite A. reflexivity.
  Qed.

  (** * Values *)

  Lemma as_scalar {A} k (h : A -> gv) (c : A -> scalar) (r : result A) : (forall a, run_scalar (c a) = h a) ->
    as_value (run_value v k) (rbind r (fun a l => Ok (VScalar (c a)) l)) = as_value h r.
  Proof. intros H. unfold as_value. destruct r; cbn [rbind]; [|reflexivity|reflexivity]. cbn [run_value]. now rewrite H. Qed.

  Lemma kept_puts n f e w l code x (r : result gv) : 
    match r with
    | Ok g rest => exists f', blk n (f :: e) (MkState w l) code = Next (f' :: e) (MkState w rest) /\ mget x f' = Some g /\ kept x f f'
    | Failed => blk n (f :: e) (MkState w l) code = Stops WrongDocument
    | OutOfFuel => True end -> puts n f e w l code x r.
  Proof. unfold JsonRunProofs7.puts. destruct r; auto. intros (f' & B & G & K). exists f'. split; [exact B|]. split; [exact G|]. intros y Y. apply K. intros ->. apply Y. now left. Qed.

  Lemma value_next m : object_runs m -> link_runs m -> items_run m -> entries_run m -> value_runs (S m).
  Proof.
    intros HO HL HI HE n k t link x f e w l code rs L1 L2 (t' & G' & Un & Pl & Lk) G X R It. rewrite G in G'. injection G' as <-. destruct n as [|n]; [lia|].
    assert (Nx : ~ In x ["text"; "err"; "iterator"]) by (destruct X as [->|[-> _]]; cbn; intuition discriminate).
    rewrite read_value_eq. unfold JsonCodeModel.read_value in R. destruct (is_map t) eqn:M.
    { (* Maps *)
      assert (K : t_kind t = MapType) by (unfold is_map in M; destruct (t_kind t); try discriminate; reflexivity).
      destruct X as [->|(-> & F & _)]; [|discriminate]. pose proof (Pl ltac:(rewrite K; cbn; tauto)) as P. pose proof P as (ke & te & El & Ge & Ki).
      destruct (not_library v STD k t G) as (F0 & F1 & F2 & F3 & F4 & F5 & F6); [congruence|]. rewrite F1, F2, F3, F4, F5, F6. unfold type_at. rewrite G.
      unfold is_interface, is_enum, is_struct, is_list. rewrite K, M. cbn [kind_eqb orb].
      destruct (value_reference pkg v k t) as [[rf lr]| |] eqn:V; try discriminate. unfold element_of, type_at in R. rewrite El, Ge in R. injection R as <- <-.
      pose proof (map_text pkg v PKG STD NAMED k t ke te rf lr G K P El Ge V) as Tx. assert (Ek : elem_key t = ke) by (unfold elem_key; now rewrite El). rewrite Ek.
      apply kept_puts. unfold as_value. rewrite block_cons. cbn [JsonRunSpec.exec JsonRunSpec.eval]. rewrite Tx. cbn [define_all define]. rewrite block_cons.
      set (body := entry (S n) (read_flat v "item" ke te false ++ [TAssign [XIndex (XVar "value") (XVar "key")] (XVar "item")])).
      change (exec (S n) (mset "value" (RMap []) f :: e) (MkState w l) (members "key" (read_flat v "item" ke te false ++ [TAssign [XIndex (XVar "value") (XVar "key")] (XVar "item")])%list))
        with (loop limit (mset "value" (RMap []) f :: e) (MkState w l) body).
      assert (It' : lookup (mset "value" (RMap []) f :: e) "iterator" = Some RIterator) by (cbn [lookup] in *; rewrite mget_mset_other by discriminate; exact It).
      pose proof (HE (S n) limit ke te (mset "value" (RMap []) f) e [] l w ltac:(lia) ltac:(lia) ltac:(lia) Ge Ki It' (mget_mset_same _ _ _) ltac:(constructor)) as H. cbv zeta in H. fold body in H.
      destruct (read_entries o v m ke [] l) as [acc r| |]; cbn [rbind]; [| |exact I].
      - destruct H as (f' & Lp & Gv & Kp). exists f'. rewrite Lp. split; [reflexivity|]. split; [|intros z Z; rewrite Kp by exact Z; now apply mget_mset_other].
        rewrite Gv. unfold shown_map. cbn [run_value]. rewrite G, Ek. reflexivity.
      - rewrite H. reflexivity. }
    injection R as <- <-. unfold read_flat, library_type.
    destruct (is_builtin nBoolean k) eqn:KBo; [rewrite (as_scalar k RBool SBool) by reflexivity; apply puts_define; [intros s <- <-; rewrite read_eval by exact It; reflexivity|apply bool_in]|].
    destruct (is_builtin nInteger k) eqn:KIn; [rewrite (as_scalar k RInt SInt) by reflexivity; apply puts_define; [intros s <- <-; rewrite read_eval by exact It; reflexivity|apply int_in]|].
    destruct (is_builtin nLong k) eqn:KLo; [rewrite (as_scalar k RInt SInt) by reflexivity; apply puts_define; [intros s <- <-; rewrite read_eval by exact It; reflexivity|apply int_in]|].
    destruct (is_builtin nFloat k) eqn:KFl; [rewrite (as_scalar k RFloat SFloat) by reflexivity; apply puts_define; [intros s <- <-; rewrite read_eval by exact It; reflexivity|apply float_in]|].
    destruct (is_builtin nString k) eqn:KSt; [rewrite (as_scalar k RString SString) by reflexivity; apply puts_define; [intros s <- <-; rewrite read_eval by exact It; reflexivity|apply string_in]|].
    unfold type_at. rewrite G.
    destruct (is_interface t) eqn:Kn.
    { replace (as_value _ _) with (rbind (parse_json m l) (fun j r => match any_of o j with Some a => Ok (RAny a) r | None => Failed end)).
      - apply puts_any; [exact It|intros ->; apply Nx; cbn; tauto|lia].
      - unfold as_value. destruct (parse_json m l) as [j r| |]; cbn [rbind]; [|reflexivity|reflexivity]. destruct (any_of o j); reflexivity. }
    destruct (is_builtin nDate k) eqn:Kd.
    { replace (as_value _ _) with (rbind (read_string l) (fun s r => match parse_rfc3339 s with Some d => Ok (RDate d) r | None => Failed end)).
      - apply puts_date; [exact It|exact Nx|]. intros a y s. apply (time_parse o v fs structures limit ONCE).
      - unfold as_value. destruct (read_string l) as [s r| |]; cbn [rbind]; [|reflexivity|reflexivity]. destruct (parse_rfc3339 s); reflexivity. }
    destruct (is_enum t) eqn:Ke; [rewrite (as_scalar k RString SString) by reflexivity; now apply puts_enum|].
    destruct (is_struct t) eqn:Ks.
    { assert (St : structural t) by (unfold is_struct in Ks; unfold structural; destruct (t_kind t); try discriminate; tauto).
      apply puts_call. intros s <- <-. pose proof (read_struct_runs o pkg v fs structures limit CODE ONCE DECL m n k t (st_out s) (st_in s) HO ltac:(lia) ltac:(lia) G St) as H.
      assert (Ev : eval (S n) (f :: e) s (XCall (read_func t) [the_iterator]) = C (S n) (read_func t) [RIterator] (MkState (st_out s) (st_in s))) by (unfold the_iterator; cbn [JsonRunSpec.eval]; rewrite It; now destruct s).
      unfold as_value. destruct (read_object o v m t (new_builder v t) (st_in s)) as [b r| |]; cbn [rbind]; [| |exact I]; now rewrite Ev. }
    destruct (is_list t) eqn:Kl.
    { assert (K : t_kind t = ListType) by (unfold is_list in Kl; destruct (t_kind t); try discriminate; reflexivity).
      destruct link.
      - destruct X as [->|(_ & _ & F)]; [|discriminate]. destruct (Lk K eq_refl) as (ke & te & El & Ge & St).
        assert (Sn : struct_name v t = object_name te ++ "List") by (unfold struct_name, element_of, type_at; rewrite Kl, El, Ge; reflexivity).
        apply kept_puts. unfold as_value.
        assert (Ex : exec (S n) (f :: e) (MkState w l) (TDefine ["value"] (XNew (struct_name v t))) = Next (mset "value" (RStruct (run_list "" false RNil)) f :: e) (MkState w l)).
        { cbn [JsonRunSpec.exec JsonRunSpec.eval]. rewrite Sn, (proj2 (DECL ke te Ge St)). reflexivity. }
        rewrite block_cons, Ex, block_cons.
        assert (It' : forall g, lookup (mset "value" g f :: e) "iterator" = Some RIterator) by (intros g; cbn [lookup] in *; rewrite mget_mset_other by discriminate; exact It).
        pose proof (HL (S n) limit k t ke te (mset "value" (RStruct (run_list "" false RNil)) f) e "" false VNil l w ltac:(lia) ltac:(lia) ltac:(lia) G K El Ge St (It' _) (mget_mset_same _ _ _)) as H.
        fold (link_cases v t).
        change (exec (S n) (mset "value" (RStruct (run_list "" false RNil)) f :: e) (MkState w l) (member_cases (link_cases v t))) with
          (loop limit (mset "value" (RStruct (run_list "" false RNil)) f :: e) (MkState w l) (iteration (S n) (link_cases v t))).
        destruct (read_list o v m t "" false VNil l) as [y r| |]; cbn [rbind]; [| |exact I].
        + destruct H as (f' & Lp & Gv & Kp). exists f'. rewrite Lp. split; [reflexivity|]. split; [exact Gv|]. intros z Z. rewrite Kp by exact Z. now apply mget_mset_other.
        + rewrite H. reflexivity.
      - pose proof (Pl ltac:(rewrite K; cbn; tauto)) as P. pose proof P as (ke & te & El & Ge & Ki). assert (Ek : elem_key t = ke) by (unfold elem_key; now rewrite El). rewrite Ek.
        apply puts_call. intros s <- <-. pose proof (read_list_runs o pkg v fs structures limit PKG STD NAMED CODE ONCE m n k t ke (st_out s) (st_in s) HI ltac:(lia) ltac:(lia) G K P El) as H.
        assert (Ev : eval (S n) (f :: e) s (XCall (read_func t) [the_iterator]) = C (S n) (read_func t) [RIterator] (MkState (st_out s) (st_in s))) by (unfold the_iterator; cbn [JsonRunSpec.eval]; rewrite It; now destruct s).
        unfold as_value. destruct (read_items o v m ke [] (st_in s)) as [its r| |]; cbn [rbind]; [| |exact I]; now rewrite Ev. }
    (* The other kinds are impossible *)
    exfalso. unfold is_interface, is_enum, is_struct, is_list, is_map in *. destruct (t_kind t) eqn:K; try discriminate; try contradiction.
    destruct STD as (_ & _ & S3 & _). destruct (S3 k t G K) as (sc & Isc). unfold is_builtin in *. destruct builtin_keys as (B1 & B2 & B3 & B4 & B5 & B6 & _).
    rewrite B1 in KBo. rewrite B2 in KIn. rewrite B3 in KLo. rewrite B4 in KFl. rewrite B5 in KSt. rewrite B6 in Kd.
    unfold scalar_zeros in Isc. cbn [In] in Isc. repeat (destruct Isc as [Isc|Isc]; [injection Isc as Isc _; rewrite <- Isc in *; discriminate|]). exact Isc.
  Qed.

  Lemma all_run m : value_runs m /\ object_runs m /\ link_runs m /\ items_run m /\ entries_run m.
  Proof.
    induction m as [|m (IV & IO & IL & II & IE)]; [repeat split; red; intros; exact I|].
    split; [now apply value_next|]. split; [now apply object_next|]. split; [now apply link_next|]. split; [now apply items_next|now apply (entries_next o pkg)].
  Qed.

  (** * The functions that users call *)

  Lemma unmarshal_runs {A} n x text t (h : A -> gv) (r : result A) w l : In (unmarshal_code x text t) fs -> x = "object" \/ x = "items" -> text <> "bool" -> text <> "interface{}" ->
    (forall a, results (h a) = [h a]) ->
    match r with
    | Ok a rest => C (S n) (read_func t) [RIterator] (MkState w l) = Gives (h a) (MkState w rest)
    | Failed => C (S n) (read_func t) [RIterator] (MkState w l) = Ends WrongDocument
    | OutOfFuel => False
    end ->
    C (S (S n)) (unmarshal_func t) [RSource] (MkState w l) = parsed r h w.
  Proof.
    intros I X T1 T2 Hr H. pose proof (call_known o v fs structures limit ONCE (S n) _ [RSource] (MkState w l) I) as Q. cbn [fn_name unmarshal_code] in Q. rewrite Q. clear Q. unfold run_function.
    unfold unmarshal_code. cbn [fn_results fn_params fn_body map fst snd filter].
    assert (Zx : zero_of_type text = RNil) by (unfold zero_of_type; apply String.eqb_neq in T1, T2; now rewrite T1, T2).
    assert (E : forall e s, exec (S n) e s (TDefine ["iterator"; "err"] (XCall "helpers.NewIterator" [XVar "source"])) =
      match lookup e "source" with Some g => Next (define (define e "iterator" RIterator) "err" RNil) s | None => Stops NotAllowed end).
    { intros e s. cbn [JsonRunSpec.exec JsonRunSpec.eval]. destruct (lookup e "source") as [g|]; [|reflexivity]. rewrite (new_iterator o v fs structures limit ONCE). reflexivity. }
    destruct X as [->| ->]; cbn [filter fst snd String.eqb Ascii.eqb Bool.eqb negb map]; rewrite Zx.
    - change (match define_all [[("object", RNil); ("err", RNil)]] ["source"] [RSource] with
        | None => Ends NotAllowed
        | Some e => match blk (S n) e (MkState w l) (fn_body (unmarshal_code "object" text t)) with
          | Next _ s => Ends NotAllowed
          | Returns [] e s => match sequence [lookup e "object"; lookup e "err"] with Some gs => Gives (result_of gs) s | None => Ends NotAllowed end
          | Returns gs _ s => if (length gs =? 2)%nat then Gives (result_of gs) s else Ends NotAllowed
          | Breaks _ _ => Ends NotAllowed
          | Stops x => Ends x
          end end = parsed r h w).
      cbn [define_all define mset String.eqb Ascii.eqb Bool.eqb fn_body unmarshal_code]. rewrite block_cons, E. cbn [lookup mget String.eqb Ascii.eqb Bool.eqb define mset].
      rewrite block_cons. cbn [JsonRunSpec.exec JsonRunSpec.eval lookup mget String.eqb Ascii.eqb Bool.eqb not_nil leave tl block the_iterator].
      destruct r as [a rest| |]; [| |contradiction]; rewrite H; [|reflexivity]. cbn [store_all store update mget mset String.eqb Ascii.eqb Bool.eqb continue lookup sequence result_of]. reflexivity.
    - change (match define_all [[("items", RNil); ("err", RNil)]] ["source"] [RSource] with
        | None => Ends NotAllowed
        | Some e => match blk (S n) e (MkState w l) (fn_body (unmarshal_code "items" text t)) with
          | Next _ s => Ends NotAllowed
          | Returns [] e s => match sequence [lookup e "items"; lookup e "err"] with Some gs => Gives (result_of gs) s | None => Ends NotAllowed end
          | Returns gs _ s => if (length gs =? 2)%nat then Gives (result_of gs) s else Ends NotAllowed
          | Breaks _ _ => Ends NotAllowed
          | Stops x => Ends x
          end end = parsed r h w).
      cbn [define_all define mset String.eqb Ascii.eqb Bool.eqb fn_body unmarshal_code]. rewrite block_cons, E. cbn [lookup mget String.eqb Ascii.eqb Bool.eqb define mset].
      rewrite block_cons. cbn [JsonRunSpec.exec JsonRunSpec.eval lookup mget String.eqb Ascii.eqb Bool.eqb not_nil leave tl block the_iterator].
      destruct r as [a rest| |]; [| |contradiction]; rewrite H; [|reflexivity]. cbn [store_all store update mget mset String.eqb Ascii.eqb Bool.eqb continue lookup sequence result_of]. reflexivity.
  Qed.

  Lemma object_read n k t w l : mget k (v_types v) = Some t -> structural t -> fuel l + 2 <= n -> fuel l <= limit ->
    C n (unmarshal_func t) [RSource] (MkState w l) = parsed (unmarshal_object o v t l) (fun b => run_value v k (VObject b)) w.
  Proof.
    intros G K N L. destruct n as [|[|n]]; [lia|lia|]. destruct (read_function pkg v fs CODE ONCE k t G K) as (cases & rs & _ & _ & Fn).
    pose proof (object_fuel o v t l) as Fu. eapply unmarshal_runs; [exact Fn|tauto|discriminate|discriminate|intros a; cbn [run_value]; rewrite G; reflexivity|].
    destruct (all_run (fuel l)) as (_ & HO & _). pose proof (read_struct_runs o pkg v fs structures limit CODE ONCE DECL (fuel l) n k t w l HO ltac:(lia) L G K) as H.
    unfold unmarshal_object in *. destruct (read_object o v (fuel l) t (new_builder v t) l); auto.
  Qed.
  Lemma list_read n k t ke w l : mget k (v_types v) = Some t -> t_kind t = ListType -> plain v t -> t_element t = Some ke -> fuel l + 2 <= n -> fuel l <= limit ->
    C n (unmarshal_func t) [RSource] (MkState w l) = parsed (unmarshal_list o v ke l) (fun items => run_value v k (VSlice items)) w.
  Proof.
    intros G K Pl El N L. destruct n as [|[|n]]; [lia|lia|]. pose proof Pl as (ke' & te & El' & Ge & Ki). rewrite El in El'. injection El' as EK; subst ke'.
    destruct (read_list_function pkg v fs PKG STD NAMED CODE ONCE k t ke te G K Pl El Ge) as (text & code & rs & (suffix & Tx) & _ & _ & Fn).
    pose proof (list_fuel o v ke l) as Fu. eapply unmarshal_runs; [exact Fn|tauto|rewrite Tx; discriminate|rewrite Tx; discriminate|intros a; cbn [run_value]; rewrite G; reflexivity|].
    destruct (all_run (fuel l)) as (_ & _ & _ & HI & _). pose proof (read_list_runs o pkg v fs structures limit PKG STD NAMED CODE ONCE (fuel l) n k t ke w l HI ltac:(lia) L G K Pl El) as H.
    unfold unmarshal_list in *. destruct (read_items o v (fuel l) ke [] l); auto.
  Qed.
End Version.
