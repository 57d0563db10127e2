(** Proofs about the execution of the code that writes maps. *)
From Coq Require Import Ascii String Bool Arith ZArith NArith Lia Permutation List.
From Verif Require Import GoStrings GoMap GoMapProofs NamesModel ConceptsModel ReporterModel BindingModel GoNamesModel GoTimeModel DeclsModel ChecksModel GoTypesModel
  ObjectsModel ObjectsSpec ObjectsProofs ObjectsProofs2 JsonModel JsonSpec JsonProofs3 JsonCodeModel JsonRunSpec JsonRunProofs JsonRunProofs2.
Import ListNotations.
Local Open Scope string_scope.

Lemma mget_map {A B} (f : A -> B) k (l : list (string * A)) : mget k (map (fun p => (fst p, f (snd p))) l) = option_map f (mget k l).
Proof. induction l as [|[k' a] l IH]; [reflexivity|]. cbn. now destruct (String.eqb k k'). Qed.

Section Version.
  Context (o : oracle) (v : version) (fs : list func) (structures : string -> option (list (string * gv))) (limit : nat).
  Context (ORD : forall l, Permutation l (order o l)) (STD : standard v).
  Notation constants := (kind_constants v).
  Notation C := (call_function o constants structures fs limit).
  Notation eval n := (eval o constants structures limit (C n)).
  Notation exec n := (exec o constants structures limit (C n)).
  Notation blk n := (block o constants structures limit (C n)).
  Notation emits n := (emits o constants structures limit (C n)).
  Notation callable := (callable o v fs structures limit).
  Notation prepared := (prepared o v fs structures limit).
  Notation stable := (stable o v fs structures limit).

  Lemma fill n e s ks : forall done,
    each ks ([("keys", RSlice (done ++ repeat (RString "") (length ks))%list); ("i", RInt (Z.of_nat (length done)))] :: e) s
      (fun k e s => leave (leave (blk n ([] :: [("key", RString k)] :: e) s [TAssign [XIndex (XVar "keys") (XVar "i")] (XVar "key"); TInc "i"]))) =
    Next ([("keys", RSlice (done ++ map RString ks)%list); ("i", RInt (Z.of_nat (length done + length ks)))] :: e) s.
  Proof.
    induction ks as [|k ks IH]; intros done.
    - cbn. now rewrite Nat.add_0_r.
    - cbn [each length]. rewrite block_cons.
      assert (X : exec n ([] :: [("key", RString k)] :: [("keys", RSlice (done ++ repeat (RString "") (S (length ks)))%list); ("i", RInt (Z.of_nat (length done)))] :: e) s
          (TAssign [XIndex (XVar "keys") (XVar "i")] (XVar "key")) =
        Next ([] :: [("key", RString k)] :: [("keys", RSlice ((done ++ [RString k]) ++ repeat (RString "") (length ks))%list); ("i", RInt (Z.of_nat (length done)))] :: e) s).
      { cbn [JsonRunSpec.exec JsonRunSpec.eval lookup mget String.eqb Ascii.eqb Bool.eqb store_all store].
        rewrite Nat2Z.id. replace (Z.leb 0 (Z.of_nat (length done))) with true by (symmetry; apply Z.leb_le; lia).
        replace (length done <? length (done ++ repeat (RString "") (S (length ks)))%list)%nat with true by (symmetry; apply Nat.ltb_lt; rewrite app_length; cbn; lia).
        cbn [andb]. rewrite set_nth_fill. reflexivity. }
      rewrite X. rewrite block_cons. cbn [JsonRunSpec.exec lookup mget String.eqb Ascii.eqb Bool.eqb store update mset continue JsonRunSpec.block leave tl].
      replace (Z.of_nat (length done) + 1)%Z with (Z.of_nat (length (done ++ [RString k]))) by (rewrite app_length; cbn; lia).
      rewrite IH. rewrite <- app_assoc. cbn [app map]. rewrite app_length. cbn [length]. replace (length done + 1 + length ks)%nat with (length done + S (length ks))%nat by lia. reflexivity.
  Qed.

  Lemma map_emits n k t ke te link x e e0 code : mget k (v_types v) = Some t -> t_kind t = MapType -> t_element t = Some ke -> mget ke (v_types v) = Some te ->
    typed v k link x -> prepared n k x -> lookup e "stream" = Some RStream -> stable n e e0 (run_value v k x) ->
    JsonCodeModel.write_value v e0 k t link = Done code ->
    emits n e code (JsonModel.write_value o v k link x) e.
  Proof.
    intros G Kt El Ge T P L E Cd. unfold JsonCodeModel.write_value, is_map in Cd. rewrite Kt in Cd. cbn [kind_eqb] in Cd.
    unfold element_of, type_at in Cd. rewrite El, Ge in Cd. injection Cd as <-.
    destruct (not_library v STD k t G) as (F0 & F1 & F2 & F3 & F4 & F5 & F6); [congruence|].
    assert (E' : forall s, eval n e s e0 = Gives (run_value v k x) s) by (intros s; apply (E [] s); contradiction).
    assert (T' := T). destruct x as [| | | | |l]; cbn [typed] in T; rewrite G, Kt, El in T; destruct T as [_ T]; try contradiction.
    - (* nil *)
      cbn [JsonModel.write_value]. rewrite F1, F2, F3, F4, F5, F6. unfold type_at. rewrite G. unfold is_enum, is_interface, is_struct, is_list, is_map. rewrite Kt. cbn [kind_eqb orb].
      eapply (emits_if _ _ _ _ _ e _ _ _ false _ []).
      + intros s. cbn [JsonRunSpec.eval]. rewrite E'. reflexivity.
      + apply emits_write0; [exact L|intros; reflexivity|discriminate].
    - destruct T as [Inc T]. cbn [JsonModel.write_value]. rewrite F1, F2, F3, F4, F5, F6. unfold type_at. rewrite G.
      unfold is_enum, is_interface, is_struct, is_list, is_map. rewrite Kt. cbn [kind_eqb orb].
      assert (Ek : elem_key t = ke) by (unfold elem_key; now rewrite El). rewrite Ek.
      set (l' := map (fun p => (fst p, run_value v ke (snd p))) l).
      assert (R : run_value v k (VMap l) = RMap l') by (cbn [run_value]; rewrite G, Ek; reflexivity). rewrite R in E, E'.
      assert (Fl : map fst l' = map fst l) by (unfold l'; rewrite map_map; apply map_ext; reflexivity).
      set (ks := order o (map fst l)). set (sorted := sort (fun a b => Z.ltb (str_compare a b) 0) ks).
      assert (Len : length l' = length ks) by (unfold ks; rewrite <- (Permutation_length (ORD (map fst l))), <- Fl; now rewrite map_length).
      rewrite entries_items.
      set (ws := map (fun k0 => wcat (WOk [TStr k0; TColon]) (match mget k0 (map (fun '(k1, y) => (k1, JsonModel.write_value o v ke false y)) l) with Some w => w | None => WPanic end)) sorted).
      eapply (emits_if _ _ _ _ _ e _ _ _ true _ [("keys", RSlice (map RString sorted)); ("i", RInt (Z.of_nat (length ks)))]).
      { intros s. cbn [JsonRunSpec.eval]. rewrite E'. reflexivity. }
      cbn iota.
      eapply emits_cons; [apply emits_write0; [exact L|intros; reflexivity|discriminate]|].
      (* keys := make([]string, len(m)) *)
      eapply (emits_skip _ _ _ _ _ _ ([("keys", RSlice (repeat (RString "") (length ks)))] :: e)).
      { intros s. cbn [JsonRunSpec.exec JsonRunSpec.eval]. pose proof (E [[]] s ltac:(intros f y [<-|[]] _; reflexivity)) as X. cbn [app] in X. rewrite X. cbn [results define_all define mset].
        rewrite Len, Nat2Z.id. reflexivity. }
      (* i := 0 *)
      eapply (emits_skip _ _ _ _ _ _ ([("keys", RSlice (repeat (RString "") (length ks))); ("i", RInt 0)] :: e)).
      { intros s. reflexivity. }
      (* the keys are collected *)
      eapply (emits_skip _ _ _ _ _ _ ([("keys", RSlice (map RString ks)); ("i", RInt (Z.of_nat (length ks)))] :: e)).
      { intros s. cbn [JsonRunSpec.exec]. pose proof (E [[("keys", RSlice (repeat (RString "") (length ks))); ("i", RInt 0)]] s
          ltac:(intros f y [<-|[]] I; cbn in I; repeat (destruct I as [<-|I]; [reflexivity|]); contradiction)) as X. cbn [app] in X. rewrite X.
        rewrite Fl. fold ks. exact (fill n e s ks []). }
      (* the keys are sorted *)
      eapply (emits_skip _ _ _ _ _ _ ([("keys", RSlice (map RString sorted)); ("i", RInt (Z.of_nat (length ks)))] :: e)).
      { intros s. cbn [JsonRunSpec.exec perform String.eqb Ascii.eqb Bool.eqb lookup mget store update mset continue]. rewrite map_map. cbn [as_string]. rewrite map_id. reflexivity. }
      set (e1 := [("keys", RSlice (map RString sorted)); ("i", RInt (Z.of_nat (length ks)))] :: e).
      replace (wcat (write_items 0 ws) (WOk [TRBrace])) with (wcat (write_items 0 ws) (wcat (WOk [TRBrace]) (WOk []))) by reflexivity.
      eapply (emits_cons _ _ _ _ _ e1 e1); [|eapply emits_cons; [apply emits_write0; [exact L|intros; reflexivity|discriminate]|apply emits_nil]].
      (* the entries are written *)
      intros s N. rewrite block_cons.
      match goal with |- match exec n e1 s (TRange ["i"; "key"] (XVar "keys") ?body) with _ => _ end = _ =>
        assert (X : exec n e1 s (TRange ["i"; "key"] (XVar "keys") body) =
          each (numbered 0 (map RString sorted)) e1 s (fun p e s => leave (leave (blk n ([] :: [("i", RInt (fst p)); ("key", snd p)] :: e) s body)))) by reflexivity
      end.
      rewrite X. clear X. change 0%Z with (Z.of_nat 0). rewrite (emits_each _ _ _ _ _ e1 "i" "key" _ _ ws 0).
      { destruct (write_items 0 ws); reflexivity. }
      { discriminate. }
      2: exact N.
      unfold ws. clear ws. assert (Sin : forall y, In y sorted -> In y (map fst l)).
      { intros y I. unfold sorted in I. rewrite (sort_in _ _ _) in I. apply (Permutation_in y (Permutation_sym (ORD (map fst l)))). exact I. }
      assert (E1 : stable n e1 e0 (RMap l')).
      { intros fr s1 H. unfold e1. change (_ :: e) with ([[("keys", RSlice (map RString sorted)); ("i", RInt (Z.of_nat (length ks)))]] ++ e)%list. rewrite app_assoc.
        apply E. intros f y I Y. apply in_app_or in I. destruct I as [I|[<-|[]]]; [now apply H|]. cbn in Y. repeat (destruct Y as [<-|Y]; [reflexivity|]); contradiction. }
      assert (L1 : lookup e1 "stream" = Some RStream) by exact L.
      assert (Pl : plain v t) by (cbn [typed] in T'; rewrite G, Kt in T'; exact (proj1 T')).
      destruct Pl as (ke' & te' & El' & Ge' & Ki). rewrite El in El'. injection El' as <-. rewrite Ge in Ge'. injection Ge' as <-.
      cbn [JsonRunProofs2.prepared] in P. specialize (P t G). rewrite Ek in P.
      clearbody e1. clearbody sorted. clear -Sin STD ORD E1 L1 T P Ge Ki Inc l'.
      induction sorted as [|key sorted IH]; cbn [map]; [constructor|]. constructor; [|apply IH; intros y I; apply Sin; now right].
      intros j J. assert (Hy : exists y, mget key l = Some y /\ typed v ke false y /\ callable n ke y).
      { specialize (Sin key (or_introl eq_refl)). clear -Sin T P. induction l as [|[k' y] l IH]; [contradiction|]. cbn [all1 snd] in T. inversion P; subst. cbn [snd] in *.
        cbn [mget]. destruct (String.eqb_spec key k'); [subst; exists y; tauto|]. apply IH; try tauto. cbn in Sin. destruct Sin; [congruence|auto]. }
      destruct Hy as (y & Gy & Ty & Cy).
      assert (Gl : mget key l' = Some (run_value v ke y)) by (unfold l'; rewrite mget_map, Gy; reflexivity).
      assert (Gw : mget key (map (fun '(k1, y) => (k1, JsonModel.write_value o v ke false y)) l) = Some (JsonModel.write_value o v ke false y)).
      { rewrite (map_ext (fun '(k1, y) => (k1, JsonModel.write_value o v ke false y)) (fun p => (fst p, JsonModel.write_value o v ke false (snd p)))) by (now intros []).
        rewrite mget_map, Gy. reflexivity. }
      rewrite Gw.
      assert (Pr : prepared n ke y).
      { destruct y; try exact Cy; exfalso; cbn [typed] in Ty; rewrite Ge in Ty; cbn in Ki; intuition (destruct (t_kind te); try discriminate; intuition). }
      exists [("item", run_value v ke y)], [("i", RInt j); ("key", RString key)].
      cbn [app]. eapply emits_cons.
      { eapply (emits_if _ _ _ _ _ _ _ _ _ (Z.ltb 0 j) _ []); [intros s; reflexivity|].
        destruct (Z.ltb 0 j); [|apply emits_nil]. apply emits_write0; [exact L1|intros; reflexivity|discriminate]. }
      eapply emits_skip.
      { intros s. cbn [JsonRunSpec.exec JsonRunSpec.eval]. pose proof (E1 [[]; [("i", RInt j); ("key", RString key)]] s
          ltac:(intros f z [<-|[<-|[]]] I; cbn in I; repeat (destruct I as [<-|I]; [reflexivity|]); contradiction)) as X. cbn [app] in X. rewrite X.
        cbn [lookup mget String.eqb Ascii.eqb Bool.eqb]. rewrite Gl. cbn [define_all define mset]. reflexivity. }
      eapply emits_cons.
      { apply (emits_write1 _ _ _ _ _ _ _ _ (RString key)); [exact L1|intros; reflexivity|exact I|reflexivity|intros; reflexivity|discriminate]. }
      apply flat_emits; [exact ORD|exact STD|exact Ge| |exact Ty|exact Pr|exact L1|intros s; reflexivity|exact I].
      intros K. rewrite K in Ki. cbn in Ki. intuition discriminate.
  Qed.

  Lemma value_emits n k t link x e e0 code : mget k (v_types v) = Some t -> typed v k link x -> prepared n k x -> lookup e "stream" = Some RStream ->
    stable n e e0 (run_value v k x) -> match e0 with XAddr _ => False | _ => True end -> JsonCodeModel.write_value v e0 k t link = Done code ->
    emits n e code (JsonModel.write_value o v k link x) e.
  Proof.
    intros G T P L E NA Cd. destruct (kind_eqb (t_kind t) MapType) eqn:Km.
    - assert (Kt : t_kind t = MapType) by (destruct (t_kind t); try discriminate; reflexivity).
      assert (Pl : plain v t) by (destruct x; cbn [typed] in T; rewrite G, Kt in T; exact (proj1 T)).
      destruct Pl as (ke & te & El & Ge & _). eapply map_emits; eauto.
    - assert (Kt : t_kind t <> MapType) by (intros X; rewrite X in Km; discriminate).
      unfold JsonCodeModel.write_value, is_map in Cd. rewrite Km in Cd. injection Cd as <-. apply flat_emits; auto. intros s. apply (E [] s). contradiction.
  Qed.
End Version.
