(** Proofs about the execution of the code that writes the values of a version. *)
From Coq Require Import Ascii String Bool Arith ZArith NArith Lia Permutation List.
From Verif Require Import GoStrings GoMap GoMapProofs NamesModel ConceptsModel ReporterModel BindingModel GoNamesModel GoTimeModel DeclsModel ChecksModel GoTypesModel
  ObjectsModel ObjectsSpec ObjectsProofs ObjectsProofs2 JsonModel JsonSpec JsonProofs3 JsonCodeModel JsonRunSpec JsonRunProofs.
Import ListNotations.
Local Open Scope string_scope.

Lemma lookup_skip fr e x : (forall f, In f fr -> mget x f = None) -> lookup (fr ++ e)%list x = lookup e x.
Proof. induction fr as [|f fr IH]; intros H; [reflexivity|]. cbn. rewrite H by (now left). apply IH. intros g I. apply H. now right. Qed.

Lemma entries_items m keys : forall i, write_entries i keys m =
  write_items i (map (fun k => wcat (WOk [TStr k; TColon]) (match mget k m with Some w => w | None => WPanic end)) keys).
Proof. induction keys as [|k keys IH]; intros i; [reflexivity|]. cbn [write_entries map write_items]. now rewrite IH, !wcat_assoc. Qed.

Lemma set_nth_fill (done : list gv) g n : set_nth (length done) g (done ++ repeat (RString "") (S n))%list = ((done ++ [g]) ++ repeat (RString "") n)%list.
Proof. induction done as [|d done IH]; [reflexivity|]. cbn. now rewrite <- IH. Qed.

Lemma items_no_panic l : forall i, Forall (fun w => w <> WPanic) l -> write_items i l <> WPanic.
Proof.
  induction l as [|w l IH]; intros i F; cbn [write_items]; [discriminate|]. inversion F as [|? ? N F']; subst. specialize (IH (i + 1) F').
  destruct (Nat.ltb 0 i), w, (write_items (i + 1) l); cbn; auto; discriminate.
Qed.

Lemma any_no_panic o : (forall l, Permutation l (order o l)) -> forall a, write_any o a <> WPanic.
Proof.
  intros P. induction a as [| | | |l F|l F] using any_ind2; cbn [write_any]; try discriminate.
  - unfold write_float. destruct (format_float o z); discriminate.
  - assert (N : write_items 0 (map (write_any o) l) <> WPanic) by (apply items_no_panic; rewrite Forall_map; exact F).
    destruct (write_items 0 (map (write_any o) l)); cbn; auto; discriminate.
  - rewrite entries_items. match goal with |- wcat _ (wcat ?a _) <> _ => assert (N : a <> WPanic); [|destruct a; cbn; auto; discriminate] end.
    apply items_no_panic. rewrite Forall_map, Forall_forall. intros k I.
    apply Permutation_in with (l' := map fst l) in I; [|apply Permutation_sym, P].
    assert (exists w, mget k (map (fun '(k, x) => (k, write_any o x)) l) = Some w /\ w <> WPanic) as (w & -> & N).
    { clear -I F. induction l as [|[k' x] l IH]; [contradiction|]. inversion F as [|? ? N F']; subst. cbn. destruct (String.eqb_spec k k'); [eauto|].
      apply IH; auto. cbn in I. destruct I as [I|I]; auto. congruence. }
    now destruct w.
Qed.

Section Version.
  Context (o : oracle) (v : version) (fs : list func) (structures : string -> option (list (string * gv))) (limit : nat).
  Context (ORD : forall l, Permutation l (order o l)) (STD : standard v).
  Notation constants := (kind_constants v).
  Notation C := (call_function o constants structures fs limit).
  Notation eval n := (eval o constants structures limit (C n)).
  Notation exec n := (exec o constants structures limit (C n)).
  Notation blk n := (block o constants structures limit (C n)).
  Notation emits n := (emits o constants structures limit (C n)).

  Definition called (n : nat) (f : string) (g : gv) (w : written) : Prop := forall s, st_out s <> WPanic ->
    C n f [g; RStream] s = match w with WPanic => Ends Panic | _ => outputs w s end.
  Definition callable (n : nat) (k : key) (x : value) : Prop := forall t, mget k (v_types v) = Some t -> structural t \/ t_kind t = ListType ->
    called n (write_func t) (run_value v k x) (JsonModel.write_value o v k false x).
  Definition prepared (n : nat) (k : key) (x : value) : Prop :=
    match x with
    | VMap l => forall t, mget k (v_types v) = Some t -> Forall (fun p => callable n (elem_key t) (snd p)) l
    | VList _ _ items => callable n k items
    | _ => callable n k x
    end.
  Definition stable (n : nat) (e : frames) (e0 : jexpr) (g : gv) : Prop := forall fr s,
    (forall f x, In f fr -> In x ["object"; "request"; "value"; "stream"] -> mget x f = None) -> eval n (fr ++ e)%list s e0 = Gives g s.

  Lemma kind_tests k t : mget k (v_types v) = Some t -> ~ structural t -> t_kind t <> ListType -> t_kind t <> MapType -> t_kind t <> UndefinedType ->
    t_kind t = ScalarType \/ t_kind t = EnumType \/ t_kind t = InterfaceType.
  Proof. intros G S L M U. unfold structural in S. destruct (t_kind t); auto; exfalso; tauto. Qed.

  (** The tests of the code and of the model are about the same. *)
  Lemma not_library k t : mget k (v_types v) = Some t -> t_kind t <> ScalarType -> library_type k = None /\ is_builtin nDate k = false /\
    is_builtin nBoolean k = false /\ is_builtin nInteger k = false /\ is_builtin nLong k = false /\ is_builtin nFloat k = false /\ is_builtin nString k = false.
  Proof.
    intros G K. destruct STD as (S1 & _ & _ & _). destruct builtin_keys as (B1 & B2 & B3 & B4 & B5 & B6 & B7).
    assert (X : forall n s, In (name_key n, s) scalar_zeros -> is_builtin n k = false).
    { intros n s I. unfold is_builtin. destruct (String.eqb_spec k (name_key n)) as [->|N]; [|first [exact eq_refl|now apply String.eqb_neq]].
      destruct (S1 _ _ I) as (t' & G' & K'). rewrite G in G'. congruence. }
    assert (H1 : is_builtin nBoolean k = false) by (eapply X; rewrite B1; cbn; eauto 12).
    assert (H2 : is_builtin nInteger k = false) by (eapply X; rewrite B2; cbn; eauto 12).
    assert (H3 : is_builtin nLong k = false) by (eapply X; rewrite B3; cbn; eauto 12).
    assert (H4 : is_builtin nFloat k = false) by (eapply X; rewrite B4; cbn; eauto 12).
    assert (H5 : is_builtin nDate k = false) by (eapply X; rewrite B6; cbn; eauto 12).
    assert (H6 : is_builtin nString k = false) by (eapply X; rewrite B5; cbn; eauto 12).
    unfold library_type. rewrite H1, H2, H3, H4, H6. auto 10.
  Qed.

  (** Values that are scalars. *)
  Lemma scalar_emits n k t link x e e0 : mget k (v_types v) = Some t -> In (t_kind t) [ScalarType; EnumType; InterfaceType] -> typed v k link x ->
    lookup e "stream" = Some RStream -> (forall s, eval n e s e0 = Gives (run_value v k x) s) -> match e0 with XAddr _ => False | _ => True end ->
    emits n e (write_flat e0 k t link) (JsonModel.write_value o v k link x) e.
  Proof.
    intros G K T L E NA. assert (exists sc, x = VScalar sc /\ scalar_typed k t sc) as (sc & -> & S).
    { destruct x; cbn [typed] in T; rewrite G in T; cbn in K; repeat (destruct K as [K|K]; [rewrite <- K in T; try contradiction; eauto|]); try contradiction. }
    cbn [run_value] in E. clear T.
    destruct builtin_keys as (B1 & B2 & B3 & B4 & B5 & B6 & B7).
    destruct K as [Kt|[Kt|[Kt|[]]]]; symmetry in Kt; unfold scalar_typed in S; rewrite Kt in S.
    - (* scalars *)
      destruct sc; try contradiction; cbv beta iota in S; match type of S with _ /\ _ => destruct S as [S _] | _ => idtac end; match type of S with _ \/ _ => destruct S as [S|S] | _ => idtac end; subst k; unfold write_flat, library_type, is_builtin; cbn [JsonModel.write_value];
        unfold is_builtin; rewrite ?B1, ?B2, ?B3, ?B4, ?B5, ?B6; cbn [String.eqb Ascii.eqb Bool.eqb]; cbn [run_scalar] in E.
      + eapply emits_write1; [exact L|exact E|exact NA|reflexivity|intros ?; reflexivity|discriminate].
      + eapply emits_write1; [exact L|exact E|exact NA|reflexivity|intros ?; reflexivity|discriminate].
      + eapply emits_write1; [exact L|exact E|exact NA|reflexivity|intros ?; reflexivity|discriminate].
      + eapply emits_write1; [exact L|exact E|exact NA|reflexivity|intros ?; reflexivity|]. unfold write_float. destruct (format_float o bits); discriminate.
      + eapply emits_write1; [exact L|exact E|exact NA|reflexivity|intros ?; reflexivity|discriminate].
      + apply (emits_write1 _ _ _ _ _ e "WriteString" _ (RString (format_rfc3339 d))); auto; [|discriminate].
        intros s. cbn [JsonRunSpec.eval]. rewrite E. reflexivity.
    - (* enumerated types *)
      destruct sc; try contradiction. destruct (not_library k t G) as (F0 & F1 & F2 & F3 & F4 & F5 & F6); [congruence|].
      unfold write_flat. rewrite F0, F1. unfold is_enum. rewrite Kt. cbn [kind_eqb]. cbn [JsonModel.write_value]. rewrite F1, F2, F3, F4, F5, F6. unfold type_at. rewrite G.
      unfold is_enum. rewrite Kt. cbn [kind_eqb].
      apply (emits_write1 _ _ _ _ _ e "WriteString" _ (RString s)); auto; [|discriminate]. intros s'. cbn [JsonRunSpec.eval]. now rewrite E.
    - (* interface *)
      destruct sc; try contradiction. destruct (not_library k t G) as (F0 & F1 & F2 & F3 & F4 & F5 & F6); [congruence|].
      unfold write_flat. rewrite F0, F1. unfold is_enum, is_interface. rewrite Kt. cbn [kind_eqb]. cbn [JsonModel.write_value]. rewrite F1, F2, F3, F4, F5, F6. unfold type_at. rewrite G.
      unfold is_enum, is_interface. rewrite Kt. cbn [kind_eqb].
      apply (emits_write1 _ _ _ _ _ e "WriteVal" _ (RAny a)); auto. now apply any_no_panic.
  Qed.

  Ltac tests G Kt F :=
    let F0 := fresh in let F1 := fresh in let F2 := fresh in let F3 := fresh in let F4 := fresh in let F5 := fresh in let F6 := fresh in
    destruct (not_library _ _ G) as (F0 & F1 & F2 & F3 & F4 & F5 & F6); [congruence|];
    unfold write_flat; cbn [JsonModel.write_value]; rewrite ?F0, ?F1, ?F2, ?F3, ?F4, ?F5, ?F6; unfold type_at; rewrite ?G;
    unfold is_enum, is_interface, is_struct, is_list, is_map; rewrite ?Kt; cbn [kind_eqb orb].

  Lemma struct_link k t link x : mget k (v_types v) = Some t -> structural t -> JsonModel.write_value o v k link x = JsonModel.write_value o v k false x.
  Proof. intros G S. destruct x; destruct S as [Kt|Kt]; tests G Kt F; reflexivity. Qed.

  Lemma list_link k t h b x : mget k (v_types v) = Some t -> t_kind t = ListType -> x = VNil \/ (exists l, x = VSlice l) ->
    JsonModel.write_value o v k true (VList h b x) = wcat (WOk [TLBrace; TStr "items"; TColon]) (wcat (JsonModel.write_value o v k false x) (WOk [TRBrace])).
  Proof. intros G Kt [->|[l ->]]; tests G Kt F; reflexivity. Qed.
  Lemma list_link_nil k t : mget k (v_types v) = Some t -> t_kind t = ListType ->
    JsonModel.write_value o v k true VNil = wcat (WOk [TLBrace; TStr "items"; TColon]) (wcat (JsonModel.write_value o v k false VNil) (WOk [TRBrace])).
  Proof. intros G Kt; tests G Kt F; reflexivity. Qed.

  Lemma link_emits n k t x e e0 w : mget k (v_types v) = Some t -> t_kind t = ListType -> lookup e "stream" = Some RStream ->
    (forall s, eval n e s (XMethod e0 "Items" []) = Gives x s) -> called n (write_func t) x w ->
    emits n e (write_flat e0 k t true) (wcat (WOk [TLBrace; TStr "items"; TColon]) (wcat w (WOk [TRBrace]))) e.
  Proof.
    intros G Kt L E H. tests G Kt F.
    replace (wcat (WOk [TLBrace; TStr "items"; TColon]) (wcat w (WOk [TRBrace]))) with
      (wcat (WOk [TLBrace]) (wcat (WOk [TStr "items"; TColon]) (wcat w (wcat (WOk [TRBrace]) (WOk []))))) by (destruct w; reflexivity).
    eapply emits_cons; [apply emits_write0; [exact L|intros; reflexivity|discriminate]|].
    eapply emits_cons; [eapply emits_write1; [exact L|intros; reflexivity|exact I|reflexivity|intros; reflexivity|discriminate]|].
    eapply emits_cons; [eapply emits_call; [exact L|exact E|exact H]|].
    eapply emits_cons; [apply emits_write0; [exact L|intros; reflexivity|discriminate]|]. apply emits_nil.
  Qed.

  Lemma struct_emits n k t link x e e0 : mget k (v_types v) = Some t -> structural t -> typed v k link x -> prepared n k x ->
    lookup e "stream" = Some RStream -> (forall s, eval n e s e0 = Gives (run_value v k x) s) ->
    emits n e (write_flat e0 k t link) (JsonModel.write_value o v k link x) e.
  Proof.
    intros G S T P L E. rewrite (struct_link k t link x G S).
    assert (Cl : callable n k x) by (destruct x; cbn [typed] in T; rewrite G in T; destruct S as [Kt|Kt]; rewrite Kt in T; try contradiction; exact P).
    specialize (Cl t G (or_introl S)). clear P T.
    assert (X : write_flat e0 k t link = [TDo (XCall (write_func t) [e0; the_stream])]).
    { destruct (not_library k t G) as (F0 & F1 & _); [destruct S; congruence|]. unfold write_flat. rewrite F0, F1.
      unfold is_enum, is_interface, is_struct. destruct S as [Kt|Kt]; now rewrite Kt. }
    rewrite X. eapply emits_call; [exact L|exact E|exact Cl].
  Qed.

  Lemma flat_emits n k t link x e e0 : mget k (v_types v) = Some t -> t_kind t <> MapType -> typed v k link x -> prepared n k x ->
    lookup e "stream" = Some RStream -> (forall s, eval n e s e0 = Gives (run_value v k x) s) -> match e0 with XAddr _ => False | _ => True end ->
    emits n e (write_flat e0 k t link) (JsonModel.write_value o v k link x) e.
  Proof.
    intros G K T P L E NA. destruct (t_kind t) eqn:Kt; try (now contradiction K);
      try (apply scalar_emits; auto; rewrite Kt; cbn; now auto);
      try (apply struct_emits; auto; unfold structural; now auto).
    - destruct x; cbn [typed] in T; rewrite G, Kt in T; contradiction.
    - assert (T' := T). destruct x as [| | |l|h b items|]; cbn [typed] in T; rewrite G, Kt in T; destruct T as [_ T]; destruct (t_element t) as [ke|]; try contradiction.
      + (* nil *)
        destruct link.
        * rewrite (list_link_nil k t G Kt). apply (link_emits n k t RNil); [exact G|exact Kt|exact L| |].
          -- intros s. cbn [JsonRunSpec.eval]. now rewrite E.
          -- apply (P t G). now right.
        * assert (X : write_flat e0 k t false = [TDo (XCall (write_func t) [e0; the_stream])]) by (tests G Kt F; reflexivity).
          rewrite X. eapply emits_call; [exact L|exact E|]. apply (P t G). now right.
      + destruct T as [-> _].
        assert (X : write_flat e0 k t false = [TDo (XCall (write_func t) [e0; the_stream])]) by (tests G Kt F; reflexivity).
        rewrite X. eapply emits_call; [exact L|exact E|]. apply (P t G). now right.
      + destruct T as [-> T]. assert (It : items = VNil \/ exists l, items = VSlice l) by (destruct items; try contradiction; eauto).
        rewrite (list_link k t h b items G Kt It). apply (link_emits n k t (run_value v k items)); [exact G|exact Kt|exact L| |].
        * intros s. cbn [JsonRunSpec.eval]. rewrite E. reflexivity.
        * apply (P t G). now right.
  Qed.
End Version.
