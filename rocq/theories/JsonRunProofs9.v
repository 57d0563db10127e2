(** Proofs about the execution of the code that reads JSON documents: the loops. *)
From Coq Require Import Ascii String Bool Arith ZArith NArith Lia Permutation List.
From Verif Require Import GoStrings GoMap GoMapProofs NamesModel ConceptsModel ReporterModel BindingModel GoNamesModel GoTimeModel DeclsModel DeclsSpec DeclsProofs ChecksModel GoTypesModel GoTypesSpec GoTypesProofs GoTypesProofs2 GoTypesProofs3
  ObjectsModel ObjectsSpec ObjectsProofs ObjectsProofs2 JsonModel JsonSpec JsonProofs3 JsonProofs4 JsonProofs5 JsonProofs6 JsonCodeModel JsonCodeSpec JsonRunSpec JsonRunProofs JsonRunProofs2 JsonRunProofs3 JsonRunProofs4 JsonRunProofs5 JsonRunProofs6 JsonRunProofs7 JsonRunProofs8.
Import ListNotations.
Local Open Scope string_scope.

Section Version.
  Context (o : oracle) (pkg : string) (v : version) (fs : list func) (structures : string -> option (list (string * gv))) (limit : nat).
  Context (PKG : package_path pkg) (STD : standard v) (NAMED : named_well v) (READY : json_ready v).
  Context (CODE : json_code pkg v = Done (fs, [])) (ONCE : declared_once v fs) (DECL : declares v structures).
  Notation constants := (kind_constants v).
  Notation C := (call_function o constants structures fs limit).
  Notation eval n := (eval o constants structures limit (C n)).
  Notation exec n := (exec o constants structures limit (C n)).
  Notation blk n := (block o constants structures limit (C n)).
  Notation puts n := (puts o constants structures limit (C n)).
  Notation shown := (shown v).
  Notation reader := (reader v).

  Definition iteration (n : nat) (cases : list (string * list stm)) (e : frames) (s : state) : flow :=
    leave (blk n ([] :: e) s ([TDefine ["field"] (read "ReadObject"); TIf (XEqual (XVar "field") (XText "")) [TBreak] []] ++ [TSwitch (XVar "field") cases [TDo (read "ReadAny")]])%list).
  Definition entry (n : nat) (code : list stm) (e : frames) (s : state) : flow :=
    leave (blk n ([] :: e) s ([TDefine ["key"] (read "ReadObject"); TIf (XEqual (XVar "key") (XText "")) [TBreak] []] ++ code)%list).
  Definition step (n : nat) (code : list stm) (e : frames) (s : state) : flow :=
    match eval n e s (read "ReadArray") with
    | Gives (RBool true) s => leave (blk n ([] :: e) s code)
    | Gives (RBool false) s => Breaks e s
    | Gives _ _ => Stops NotAllowed
    | Ends x => Stops x
    end.

  (** * The variable with the object *)

  Definition inside (f : list (string * gv)) (x : gv) (g : gv) : frames := [f; [("field", x)]; [("iterator", RIterator); ("object", g)]].
  Lemma assign_object n f x l s s' fld a g : mget "object" f = None -> eval n (inside f x (RStruct l)) s a = Gives g s' -> mget fld l <> None ->
    exec n (inside f x (RStruct l)) s (TAssign [object_field fld] a) = Next (inside f x (RStruct (mset fld g l))) s'.
  Proof.
    intros F E G. cbn [JsonRunSpec.exec]. rewrite E. cbn [store_all]. unfold object_field, store, inside. cbn [lookup]. rewrite F. cbn [mget String.eqb Ascii.eqb Bool.eqb].
    destruct (mget fld l) eqn:Gl; [|contradiction]. cbn [update]. rewrite F. reflexivity.
  Qed.
  Lemma or_bits n f x t b mask s : mget "object" f = None ->
    exec n (inside f x (shown t b)) s (TOrBits (object_field "bitmap_") mask) = Next (inside f x (shown t (MkObject (set_bit (o_bits b) mask) (o_id b) (o_href b) (o_fields b)))) s.
  Proof.
    intros F. unfold shown, run_struct, inside. cbn [JsonRunSpec.exec JsonRunSpec.eval object_field lookup]. rewrite F. cbn [mget String.eqb Ascii.eqb Bool.eqb].
    unfold object_field. cbn [store lookup]. rewrite F. cbn [mget String.eqb Ascii.eqb Bool.eqb update]. rewrite F. reflexivity.
  Qed.

  Lemma kind_case n t b x w l : is_class t = true -> In t (types v) ->
    leave (leave (blk n (inside [] x (shown t b)) (MkState w l) [TDefine ["value"] (read "ReadString"); TIf (XEqual (XVar "value") (XName (object_name t ++ "LinkKind"))) [TOrBits (object_field "bitmap_") 1] []])) =
    match read_string l with
    | Ok s r => Next (reader t (MkObject (if String.eqb s (object_name t ++ "Link") then set_bit (o_bits b) 1 else o_bits b) (o_id b) (o_href b) (o_fields b))) (MkState w r)
    | Failed => Stops WrongDocument
    | OutOfFuel => Stops MoreSteps
    end.
  Proof.
    intros K T. rewrite block_cons. cbn [JsonRunSpec.exec]. rewrite read_eval by reflexivity.
    change (method_of o limit RIterator "ReadString" [] (MkState w l)) with (inputs (read_string l) RString (MkState w l)).
    destruct (read_string l) as [s r| |]; cbn [inputs]; [|reflexivity|reflexivity]. cbn [define_all define mset st_out inside].
    rewrite block_cons. cbn [JsonRunSpec.exec JsonRunSpec.eval lookup mget String.eqb Ascii.eqb Bool.eqb].
    rewrite not_rfc_link. rewrite (kind_constant v fs ONCE t _ (object_name t ++ "Link") T).
    2: { unfold is_class in K. unfold is_struct. destruct (t_kind t); try discriminate; reflexivity. }
    2: { left. split; [exact K|]. unfold kinds_of. right. now left. }
    destruct (String.eqb s (object_name t ++ "Link")).
    - change (leave (leave (match leave (match exec n ([] :: inside [("value", RString s)] x (shown t b)) (MkState w r) (TOrBits (object_field "bitmap_") 1) with Next e s => Next e s | f => f end) with Next e s => Next e s | f => f end)) =
        Next (reader t (MkObject (set_bit (o_bits b) 1) (o_id b) (o_href b) (o_fields b))) (MkState w r)).
      unfold shown at 1, run_struct, inside, object_field. cbn [JsonRunSpec.exec JsonRunSpec.eval object_field lookup mget String.eqb Ascii.eqb Bool.eqb store update mset continue leave tl]. reflexivity.
    - cbn [leave tl]. unfold reader. destruct b; reflexivity.
  Qed.
  Lemma text_case n t b x w l fld mask : is_class t = true -> (fld = "id" /\ mask = 2%Z) \/ (fld = "href" /\ mask = 4%Z) ->
    leave (leave (blk n (inside [] x (shown t b)) (MkState w l) [TAssign [object_field fld] (read "ReadString"); TOrBits (object_field "bitmap_") mask])) =
    match read_string l with
    | Ok s r => Next (reader t (MkObject (set_bit (o_bits b) mask) (if String.eqb fld "id" then s else o_id b) (if String.eqb fld "id" then o_href b else s) (o_fields b))) (MkState w r)
    | Failed => Stops WrongDocument
    | OutOfFuel => Stops MoreSteps
    end.
  Proof.
    intros K M. rewrite block_cons.
    assert (E : eval n (inside [] x (shown t b)) (MkState w l) (read "ReadString") = inputs (read_string l) RString (MkState w l)) by (rewrite read_eval by reflexivity; reflexivity).
    destruct (read_string l) as [s r| |]; cbn [inputs st_out] in E.
    - assert (X : exec n (inside [] x (shown t b)) (MkState w l) (TAssign [object_field fld] (read "ReadString")) =
        Next (inside [] x (shown t (MkObject (o_bits b) (if String.eqb fld "id" then s else o_id b) (if String.eqb fld "id" then o_href b else s) (o_fields b)))) (MkState w r)).
      { unfold shown, run_struct in *. rewrite K in *. rewrite (assign_object n [] x _ _ (MkState w r) fld _ (RString s) eq_refl E).
        - destruct M as [[-> _]|[-> _]]; reflexivity.
        - destruct M as [[-> _]|[-> _]]; discriminate. }
      rewrite X, block_cons, or_bits by reflexivity. reflexivity.
    - cbn [JsonRunSpec.exec]. rewrite E. reflexivity.
    - cbn [JsonRunSpec.exec]. rewrite E. reflexivity.
  Qed.
  Lemma attribute_case n t b x w l i a code (r : result value) : NoDup (object_fields t) -> full t b -> nth_error (t_attrs t) i = Some a ->
    puts n [] [[("field", x)]; [("iterator", RIterator); ("object", shown t b)]] w l code "value" (as_value (run_value v (a_type a)) r) ->
    match r with
    | Ok y rest => leave (leave (blk n (inside [] x (shown t b)) (MkState w l) (code ++ [TAssign [object_field (attribute_field a)] (XVar "value"); TOrBits (object_field "bitmap_") (bit_mask t i)])%list)) =
        Next (reader t (MkObject (set_bit (o_bits b) (bit_mask t i)) (o_id b) (o_href b) (set_nth i y (o_fields b)))) (MkState w rest)
    | Failed => leave (leave (blk n (inside [] x (shown t b)) (MkState w l) (code ++ [TAssign [object_field (attribute_field a)] (XVar "value"); TOrBits (object_field "bitmap_") (bit_mask t i)])%list)) = Stops WrongDocument
    | OutOfFuel => True
    end.
  Proof.
    intros N F E P. unfold as_value in P. destruct r as [y rest| |]; cbn [rbind] in P; [| |exact I].
    - destruct P as (f' & B & G & O). rewrite block_app. unfold inside in *. rewrite B.
      assert (Ob : mget "object" f' = None) by (rewrite O; [reflexivity|cbn; intuition discriminate]).
      destruct (assign_field v t i a y b N F E) as (fl & Sh & Gf & Sh'). rewrite block_cons.
      pose proof (assign_object n f' x fl (MkState w rest) (MkState w rest) (attribute_field a) (XVar "value") (run_value v (a_type a) y) Ob) as A.
      unfold inside in A. rewrite Sh. rewrite A; [|cbn [JsonRunSpec.eval lookup]; now rewrite G|exact Gf]. rewrite Sh', block_cons.
      pose proof (or_bits n f' x t (MkObject (o_bits b) (o_id b) (o_href b) (set_nth i y (o_fields b))) (bit_mask t i) (MkState w rest) Ob) as Q. unfold inside in Q. rewrite Q. reflexivity.
    - unfold puts, inside in *. cbn [JsonRunProofs7.puts] in P. rewrite block_app. unfold JsonRunProofs7.puts in P. rewrite P. reflexivity.
  Qed.

  (** * The induction *)

  Definition element_kinds := [ScalarType; EnumType; InterfaceType; ClassType; StructType].
  Lemma element_acceptable ke te : mget ke (v_types v) = Some te -> In (t_kind te) element_kinds -> acceptable v ke false.
  Proof.
    intros G K. exists te. split; [exact G|]. unfold element_kinds in K. cbn in K. split; [intros E; rewrite E in K; intuition discriminate|].
    split; [|intros _ X; discriminate]. intros [E|[E|[]]]; rewrite <- E in K; intuition discriminate.
  Qed.
  Lemma element_not_map te : In (t_kind te) element_kinds -> is_map te = false.
  Proof. intros K. unfold is_map. cbn in K. repeat (destruct K as [<-|K]; [reflexivity|]). contradiction. Qed.

  Definition value_runs (m : nat) : Prop := forall n k t link x f e w l code rs, m <= n -> m <= limit -> acceptable v k link -> mget k (v_types v) = Some t ->
    x = "value" \/ (x = "item" /\ is_map t = false /\ link = false) -> JsonCodeModel.read_value pkg v x k t link = Done (code, rs) -> lookup (f :: e) "iterator" = Some RIterator ->
    puts n f e w l code x (as_value (run_value v k) (JsonModel.read_value o v m k link l)).
  Definition object_runs (m : nat) : Prop := forall n lim k t b l w cases rs, m <= n -> m <= limit -> m <= lim -> mget k (v_types v) = Some t -> structural t ->
    read_attributes pkg v t 0 (t_attrs t) = Done (cases, rs) -> full t b ->
    match read_object o v m t b l with
    | Ok b' r => loop lim (reader t b) (MkState w l) (iteration n (read_class t ++ cases)) = Next (reader t b') (MkState w r)
    | Failed => loop lim (reader t b) (MkState w l) (iteration n (read_class t ++ cases)) = Stops WrongDocument
    | OutOfFuel => True
    end.
  Definition link_cases (t : typ) : list (string * list stm) :=
    [("kind", [TDefine ["text"] (read "ReadString"); TDo (XMethod (XVar "value") "SetLink" [XEqual (XVar "text") (XName (struct_name v t ++ "LinkKind"))])]);
     ("href", [TDo (XMethod (XVar "value") "SetHREF" [read "ReadString"])]);
     ("items", [TDo (XMethod (XVar "value") "SetItems" [XCall (read_func t) [the_iterator]])])].
  Definition kept (x : string) (f f' : list (string * gv)) : Prop := forall y, y <> x -> mget y f' = mget y f.
  Definition link_runs (m : nat) : Prop := forall n lim k t ke te f e href link items l w, m <= n -> m <= limit -> m <= lim -> mget k (v_types v) = Some t -> t_kind t = ListType ->
    t_element t = Some ke -> mget ke (v_types v) = Some te -> structural te -> lookup (f :: e) "iterator" = Some RIterator ->
    mget "value" f = Some (RStruct (run_list href link (run_value v k items))) ->
    match read_list o v m t href link items l with
    | Ok y r => exists f', loop lim (f :: e) (MkState w l) (iteration n (link_cases t)) = Next (f' :: e) (MkState w r) /\ mget "value" f' = Some (run_value v k y) /\ kept "value" f f'
    | Failed => loop lim (f :: e) (MkState w l) (iteration n (link_cases t)) = Stops WrongDocument
    | OutOfFuel => True
    end.
  Definition items_frames (ke : key) (acc : list value) : frames := [[("iterator", RIterator); ("list", RSlice (map (run_value v ke) acc))]].
  Definition items_run (m : nat) : Prop := forall n lim ke te acc l w code rs, m <= n -> m <= limit -> m <= lim -> mget ke (v_types v) = Some te -> In (t_kind te) element_kinds ->
    JsonCodeModel.read_value pkg v "item" ke te false = Done (code, rs) ->
    let body := step n (code ++ [TAssign [XVar "list"] (XAppend (XVar "list") (XVar "item"))]) in
    match read_items o v m ke acc l with
    | Ok acc' r => loop lim (items_frames ke acc) (MkState w l) body = Next (items_frames ke acc') (MkState w r)
    | Failed => loop lim (items_frames ke acc) (MkState w l) body = Stops WrongDocument
    | OutOfFuel => True
    end.
  Definition shown_map (ke : key) (acc : list (string * value)) : gv := RMap (map (fun p => (fst p, run_value v ke (snd p))) (canonical acc)).
  Definition entries_run (m : nat) : Prop := forall n lim ke te f e acc l w, m <= n -> m <= limit -> m <= lim -> mget ke (v_types v) = Some te -> In (t_kind te) element_kinds ->
    lookup (f :: e) "iterator" = Some RIterator -> mget "value" f = Some (shown_map ke acc) -> NoDup (mkeys acc) ->
    let body := entry n (read_flat v "item" ke te false ++ [TAssign [XIndex (XVar "value") (XVar "key")] (XVar "item")]) in
    match read_entries o v m ke acc l with
    | Ok acc' r => exists f', loop lim (f :: e) (MkState w l) body = Next (f' :: e) (MkState w r) /\ mget "value" f' = Some (shown_map ke acc') /\ kept "value" f f'
    | Failed => loop lim (f :: e) (MkState w l) body = Stops WrongDocument
    | OutOfFuel => True
    end.

  (** ** Objects *)
  Lemma find_app {A} (p : A -> bool) l1 l2 : find p (l1 ++ l2)%list = match find p l1 with Some a => Some a | None => find p l2 end.
  Proof. induction l1 as [|a l1 IH]; [reflexivity|]. cbn. now destruct (p a). Qed.
  Lemma set_nth_length {A} i (x : A) l : length (set_nth i x l) = length l.
  Proof. revert i. induction l as [|y l IH]; intros [|i]; cbn; auto. Qed.

  Lemma object_next m : value_runs m -> object_runs m -> object_runs (S m).
  Proof.
    intros HV HO n lim k t b l w cases rs L1 L2 L3 G K E F. rewrite read_object_eq. destruct lim as [|lim]; [lia|]. cbn [loop].
    replace (iteration n (read_class t ++ cases) (reader t b) (MkState w l)) with
      (match read_key l with
       | Ok f r => if String.eqb f "" then Breaks (reader t b) (MkState w r) else
           leave (leave (blk n (inside [] (RString f) (shown t b)) (MkState w r) (match find (fun c => String.eqb f (fst c)) (read_class t ++ cases) with Some c => snd c | None => [TDo (read "ReadAny")] end)))
       | Failed => Stops WrongDocument
       | OutOfFuel => Stops MoreSteps
       end) by (unfold iteration; rewrite case_step by reflexivity; reflexivity).
    destruct (read_key l) as [f r| |]; cbn [rbind]; [|reflexivity|exact I]. destruct (String.eqb f "") eqn:F0; [reflexivity|].
    assert (N : NoDup (object_fields t)) by (apply (proj2 (proj2 (proj2 ONCE)) t); [now apply (in_types v k)|exact K]).
    set (go := fun code => match leave (leave (blk n (inside [] (RString f) (shown t b)) (MkState w r) code)) with Next e s => loop lim e s (iteration n (read_class t ++ cases)) | Breaks e s => Next e s | f => f end).
    assert (Next_ok : forall code b' r', full t b' -> leave (leave (blk n (inside [] (RString f) (shown t b)) (MkState w r) code)) = Next (reader t b') (MkState w r') ->
      match read_object o v m t b' r' with Ok b'' r'' => go code = Next (reader t b'') (MkState w r'') | Failed => go code = Stops WrongDocument | OutOfFuel => True end).
    { intros code b' r' F' Q. unfold go. rewrite Q. apply (HO n lim k t b' r' w cases rs); auto; lia. }
    assert (Fail_ok : forall code, leave (leave (blk n (inside [] (RString f) (shown t b)) (MkState w r) code)) = Stops WrongDocument -> go code = Stops WrongDocument).
    { intros code Q. unfold go. now rewrite Q. }
    assert (T : In t (types v)) by now apply (in_types v k).
    assert (Rest : match (match find_tag f 0 (t_attrs t) with
        | Some (i, a) => rbind (JsonModel.read_value o v m (a_type a) (a_link a) r) (fun x l => read_object o v m t (MkObject (set_bit (o_bits b) (bit_mask t i)) (o_id b) (o_href b) (set_nth i x (o_fields b))) l)
        | None => rbind (parse_json m r) (fun _ l => read_object o v m t b l)
        end) with
        | Ok b' r' => go (match find (fun c => String.eqb f (fst c)) cases with Some c => snd c | None => [TDo (read "ReadAny")] end) = Next (reader t b') (MkState w r')
        | Failed => go (match find (fun c => String.eqb f (fst c)) cases with Some c => snd c | None => [TDo (read "ReadAny")] end) = Stops WrongDocument
        | OutOfFuel => True end).
    { pose proof (find_case pkg v t f (t_attrs t) 0 cases rs E) as FC. destruct (find_tag f 0 (t_attrs t)) as [[i a]|].
      - destruct FC as (d & ta & code & rs' & Ej & Ed & Ta & Rv & FC). cbn in Ej. subst d. rewrite FC. cbn [snd].
        assert (Ia : In a (t_attrs t)) by now apply (nth_error_In (t_attrs t) i).
        assert (Ac : acceptable v (a_type a) (a_link a)) by (destruct READY as (_ & R2 & _); now apply (R2 t T K)).
        pose proof (HV n (a_type a) ta (a_link a) "value" [] [[("field", RString f)]; [("iterator", RIterator); ("object", shown t b)]] w r code rs' ltac:(lia) ltac:(lia) Ac Ta (or_introl eq_refl) Rv eq_refl) as P.
        apply (attribute_case n t b (RString f) w r i a code _ N F Ed) in P. destruct (JsonModel.read_value o v m (a_type a) (a_link a) r) as [y rest| |]; cbn [rbind]; [| |exact I].
        + apply (Next_ok _ _ _) in P; [exact P|]. unfold full in *. cbn [o_fields]. now rewrite set_nth_length.
        + now apply Fail_ok.
      - rewrite FC. pose proof (any_step o constants structures limit (C n) (inside [] (RString f) (shown t b)) w r m eq_refl ltac:(lia)) as A.
        destruct (parse_json m r) as [j rest| |]; cbn [rbind]; [| |exact I].
        + apply Next_ok; [exact F|]. rewrite A. reflexivity.
        + apply Fail_ok. rewrite A. reflexivity. }
    fold (go (match find (fun c => String.eqb f (fst c)) (read_class t ++ cases) with Some c => snd c | None => [TDo (read "ReadAny")] end)).
    rewrite find_app. unfold read_class at 1 2. destruct (is_class t) eqn:Kc; cbn [andb]; [|exact Rest].
    cbn [find fst]. destruct (String.eqb f "kind") eqn:F1; [|destruct (String.eqb f "id") eqn:F2; [|destruct (String.eqb f "href") eqn:F3; [|exact Rest]]]; cbn [snd].
    - pose proof (kind_case n t b (RString f) w r Kc T) as Q. destruct (read_string r) as [s r'| |]; cbn [rbind]; [|now apply Fail_ok|exact I]. apply Next_ok; [exact F|exact Q].
    - pose proof (text_case n t b (RString f) w r "id" 2 Kc (or_introl (conj eq_refl eq_refl))) as Q. destruct (read_string r) as [s r'| |]; cbn [rbind]; [|now apply Fail_ok|exact I]. apply Next_ok; [exact F|exact Q].
    - pose proof (text_case n t b (RString f) w r "href" 4 Kc (or_intror (conj eq_refl eq_refl))) as Q. destruct (read_string r) as [s r'| |]; cbn [rbind]; [|now apply Fail_ok|exact I]. apply Next_ok; [exact F|exact Q].
  Qed.
End Version.
