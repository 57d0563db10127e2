(** Proofs about the execution of the functions that write objects and lists. *)
From Coq Require Import Ascii String Bool Arith ZArith NArith Lia Permutation List.
From Verif Require Import GoStrings GoMap GoMapProofs NamesModel ConceptsModel ReporterModel BindingModel GoNamesModel GoTimeModel DeclsModel DeclsSpec DeclsProofs ChecksModel GoTypesModel
  ObjectsModel ObjectsSpec ObjectsProofs ObjectsProofs2 JsonModel JsonSpec JsonProofs3 JsonCodeModel JsonRunSpec JsonRunProofs JsonRunProofs2 JsonRunProofs3 JsonRunProofs4.
Import ListNotations.
Local Open Scope string_scope.

Lemma mget_app {A} k (l m : list (string * A)) : mget k (l ++ m)%list = match mget k l with Some a => Some a | None => mget k m end.
Proof. induction l as [|[k' a] l IH]; [reflexivity|]. cbn. now destruct (String.eqb k k'). Qed.

Lemma all2_forall2 {A B} (P : A -> B -> Prop) l : forall m, all2 P l m -> Forall2 P l m.
Proof. induction l as [|a l IH]; intros [|b m] H; cbn in H; try contradiction; try discriminate; [constructor|]. destruct H as [H1 H2]. constructor; [exact H1|now apply IH]. Qed.
Lemma all1_forall {A} (P : A -> Prop) l : all1 P l -> Forall P l.
Proof. induction l as [|a l IH]; intros H; cbn in H; constructor; [tauto|]. apply IH. tauto. Qed.

Section Version.
  Context (o : oracle) (pkg : string) (v : version) (fs : list func) (reports : list report) (structures : string -> option (list (string * gv))) (limit : nat).
  Context (ORD : forall l, Permutation l (order o l)) (STD : standard v).
  Context (CODE : json_code pkg v = Done (fs, reports)) (ONCE : declared_once v fs).
  Context (FULL : forall t, In t (types v) -> t_kind t = StructType -> t_attrs t <> []).
  Notation constants := (kind_constants v).
  Notation C := (call_function o constants structures fs limit).
  Notation eval n := (eval o constants structures limit (C n)).
  Notation exec n := (exec o constants structures limit (C n)).
  Notation blk n := (block o constants structures limit (C n)).
  Notation emits n := (emits o constants structures limit (C n)).
  Notation called := (called o v fs structures limit).
  Notation callable := (callable o v fs structures limit).
  Notation prepared := (prepared o v fs structures limit).
  Notation stable := (stable o v fs structures limit).

  Lemma in_types k t : mget k (v_types v) = Some t -> In t (types v).
  Proof. intros G. unfold types. apply sort_in. apply mget_in in G. apply in_map_iff. now exists (k, t). Qed.

  Lemma type_functions k t : mget k (v_types v) = Some t -> exists l rs, type_code pkg v k t = Done (l, rs) /\ incl l fs.
  Proof.
    intros G. apply mget_in in G. pose proof CODE as H. unfold json_code in H.
    destruct (collect (fun kt => type_code pkg v (fst kt) (snd kt)) (v_types v)) as [[x rx]| |] eqn:E; try discriminate.
    destruct (collect (fun r => collect (method_code pkg v r) (r_methods r)) (resources v)) as [[y ry]| |]; try discriminate. injection H as <- <-.
    destruct (collect_in _ _ _ _ (k, t) E G) as (l & rs & El & I). exists l, rs. split; [exact El|]. now apply incl_appl.
  Qed.

  Lemma call_known n fn args s : In fn fs -> C (S n) (fn_name fn) args s = run_function o constants structures limit (C n) fn args s.
  Proof. intros I. cbn [call_function]. rewrite (find_function fs fn); [reflexivity|exact (proj1 ONCE)|exact I]. Qed.

  (** A function that has a value and the stream as parameters. *)
  Lemma called_function n fn x text g w e' : In fn fs -> fn_params fn = [(x, text); ("stream", "*jsoniter.Stream")] -> fn_results fn = [] -> x <> "stream" ->
    emits n [[(x, g); ("stream", RStream)]] (fn_body fn) w e' -> called (S n) (fn_name fn) g w.
  Proof.
    intros I P R X E s N. rewrite call_known by exact I. unfold run_function. rewrite P, R. cbn [filter map define_all define mset fst].
    replace (String.eqb "stream" x) with false by (symmetry; apply String.eqb_neq; congruence). rewrite (E s N). destruct w; reflexivity.
  Qed.

  (** * Objects *)

  Lemma struct_function k t : mget k (v_types v) = Some t -> structural t -> exists w l, write_attributes v t 0 (t_attrs t) = Done l /\ In w fs /\
    w = MkFunc (write_func t) [("object", "*" ++ object_name t); ("stream", "*jsoniter.Stream")] []
          ([TDefine ["count"] XZero; write "WriteObjectStart" []] ++ write_class t
           ++ (match t_attrs t with [] => [] | _ => TVar "present_" "bool" :: l end) ++ [write "WriteObjectEnd" []]) /\
    In (marshal_code "object" ("*" ++ object_name t) t) fs.
  Proof.
    intros G K. destruct (type_functions k t G) as (l & rs & E & I). unfold type_code in E.
    replace (is_struct t) with true in E by (unfold is_struct; destruct K as [K|K]; rewrite K; reflexivity).
    unfold struct_code, write_code in E. destruct (write_attributes v t 0 (t_attrs t)) as [la| |] eqn:Ea; try discriminate.
    destruct (read_code pkg v t) as [[r rr]| |]; try discriminate. injection E as <- <-.
    eexists _, la. split; [reflexivity|]. split; [|split; [reflexivity|]]; apply I; cbn; auto.
  Qed.

  Lemma object_called n k t b : mget k (v_types v) = Some t -> structural t -> typed v k false (VObject b) ->
    Forall2 (fun a y => prepared n (a_type a) y) (t_attrs t) (o_fields b) ->
    called (S n) (write_func t) (run_value v k (VObject b)) (JsonModel.write_value o v k false (VObject b)).
  Proof.
    intros G K T P. destruct (struct_function k t G K) as (w & code & Ea & Iw & Ew & _).
    change (write_func t) with (fn_name (MkFunc (write_func t) [] [] [])).
    replace (fn_name (MkFunc (write_func t) [] [] [])) with (fn_name w) by (now rewrite Ew).
    assert (T' : complete t b /\ Forall2 (fun a y => typed v (a_type a) (a_link a) y) (t_attrs t) (o_fields b)).
    { cbn [typed] in T. rewrite G in T. destruct K as [K|K]; rewrite K in T; destruct T as (T1 & _ & _ & T2); split; auto; now apply all2_forall2. }
    destruct T' as [Co Ty].
    set (flds := ("bitmap_", RBits (o_bits b)) :: (if is_class t then [("id", RString (o_id b)); ("href", RString (o_href b))] else []) ++
                 zip_with (fun a y => (attribute_field a, run_value v (a_type a) y)) (t_attrs t) (o_fields b)).
    assert (R : run_value v k (VObject b) = RStruct flds) by (cbn [run_value]; now rewrite G). rewrite R.
    assert (W : JsonModel.write_value o v k false (VObject b) = write_members v t (o_bits b) (o_id b) (o_href b)
        (zip_with (fun a y => (a, y, JsonModel.write_value o v (a_type a) (a_link a) y)) (t_attrs t) (o_fields b))).
    { destruct (not_library v STD k t G) as (F0 & F1 & F2 & F3 & F4 & F5 & F6); [destruct K; congruence|]. cbn [JsonModel.write_value]. rewrite F1, F2, F3, F4, F5, F6.
      unfold type_at. rewrite G. unfold is_enum, is_interface, is_struct. destruct K as [K|K]; rewrite K; reflexivity. }
    rewrite W. clear W R.
    destruct ONCE as (_ & _ & CON & FIE). specialize (FIE t (in_types k t G) K). apply object_fields_nodup in FIE. destruct FIE as [ND AV].
    assert (Gf : Forall2 (fun a y => mget (attribute_field a) flds = Some (run_value v (a_type a) y)) (t_attrs t) (o_fields b)).
    { assert (Z : forall l m, length m = length l -> NoDup (map attribute_field l) ->
        Forall2 (fun a y => mget (attribute_field a) (zip_with (fun a y => (attribute_field a, run_value v (a_type a) y)) l m) = Some (run_value v (a_type a) y)) l m).
      { clear. induction l as [|a l IH]; intros [|y m] L N; try discriminate; constructor.
        - cbn. now rewrite String.eqb_refl.
        - cbn [map] in N. inversion N as [|? ? N1 N2]; subst. cbn [length] in L. specialize (IH m ltac:(lia) N2).
          clear -IH N1. set (zz := zip_with _ l m) in *.
          assert (Q : forall l' m', incl l' l -> Forall2 (fun a0 y0 => mget (attribute_field a0) zz = Some (run_value v (a_type a0) y0)) l' m' ->
            Forall2 (fun a0 y0 => mget (attribute_field a0) ((attribute_field a, run_value v (a_type a) y) :: zz) = Some (run_value v (a_type a0) y0)) l' m').
          { intros l' m' I F. induction F; constructor; [|apply IHF; intros z Iz; apply I; now right]. cbn [mget].
            destruct (String.eqb_spec (attribute_field x) (attribute_field a)) as [E|E]; [|assumption]. exfalso. apply N1. rewrite <- E. apply in_map, I. now left. }
          apply Q; [intros z Iz; exact Iz|exact IH]. }
      specialize (Z (t_attrs t) (o_fields b) Co ND). unfold flds. set (zz := zip_with (fun a y => (attribute_field a, run_value v (a_type a) y)) (t_attrs t) (o_fields b)) in *.
      assert (Q : forall l m, incl l (t_attrs t) -> Forall2 (fun a y => mget (attribute_field a) zz = Some (run_value v (a_type a) y)) l m ->
        Forall2 (fun a y => mget (attribute_field a) (("bitmap_", RBits (o_bits b)) :: (if is_class t then [("id", RString (o_id b)); ("href", RString (o_href b))] else []) ++ zz)%list =
          Some (run_value v (a_type a) y)) l m); [|apply Q; [intros z Iz; exact Iz|exact Z]].
      intros l m I F. clear Z. induction F as [|a y l m H F IH]; constructor; [|apply IH; intros z Iz; apply I; now right].
      assert (A : ~ In (attribute_field a) (object_fixed_fields (is_class t))) by (apply AV, in_map, I; now left).
      cbn [mget]. unfold object_fixed_fields in A. destruct (String.eqb_spec (attribute_field a) "bitmap_") as [E|_]; [exfalso; apply A; now left|].
      rewrite mget_app. destruct (is_class t); [|exact H]. cbn [mget].
      destruct (String.eqb_spec (attribute_field a) "id") as [E|_]; [exfalso; apply A; right; now left|].
      destruct (String.eqb_spec (attribute_field a) "href") as [E|_]; [exfalso; apply A; right; right; now left|]. exact H. }
    assert (All : Forall2 (fun a y => mget (attribute_field a) flds = Some (run_value v (a_type a) y) /\ typed v (a_type a) (a_link a) y /\ prepared n (a_type a) y) (t_attrs t) (o_fields b)).
    { clearbody flds. clear -Gf Ty P. revert Ty P. induction Gf; intros Ty P; constructor; inversion Ty; inversion P; subst; auto. }
    assert (Bits : mget "bitmap_" flds = Some (RBits (o_bits b))) by reflexivity.
    (* the attributes *)
    set (zw := zip_with (fun a y => (a, y, JsonModel.write_value o v (a_type a) (a_link a) y)) (t_attrs t) (o_fields b)) in *.
    assert (At : forall c, exists e', emits n (vars0 flds (Z.of_nat c)) (match t_attrs t with [] => [] | _ => TVar "present_" "bool" :: code end)
      (write_fields v t (o_bits b) (length (t_attrs t)) 0 c zw) e' /\ lookup e' "stream" = Some RStream).
    { intros c. assert (t_attrs t = [] \/ exists a r, t_attrs t = a :: r) as [Et|(a & r & Et)] by (destruct (t_attrs t); eauto).
      - unfold complete in Co. unfold zw. rewrite Et in *. destruct (o_fields b); [|discriminate]. cbn [zip_with write_fields]. exists (vars0 flds (Z.of_nat c)). split; [apply emits_nil|reflexivity].
      - replace (match t_attrs t with [] => [] | _ => TVar "present_" "bool" :: code end) with (TVar "present_" "bool" :: code) by (now rewrite Et).
        destruct (attributes_emit o v fs structures limit ORD STD n t (o_bits b) flds Bits (t_attrs t) (o_fields b) 0 c false code All Ea) as (c' & p' & E).
        exists (vars flds c' p'). split; [|reflexivity]. eapply emits_skip; [|exact E]. intros s. reflexivity. }
    unfold write_members.
    assert (exists e', emits n [[("object", RStruct flds); ("stream", RStream)]] (fn_body w) (write_members v t (o_bits b) (o_id b) (o_href b) zw) e') as [e' E].
    { rewrite Ew. cbn [fn_body]. unfold write_members. destruct (is_class t) eqn:Kc.
      - pose proof (class_emits o v fs structures limit n t (o_bits b) flds Bits (o_id b) (o_href b) CON Kc (in_types k t G)) as Cl.
        specialize (Cl ltac:(unfold flds; rewrite ?Kc; reflexivity) ltac:(unfold flds; rewrite ?Kc; reflexivity)). cbv zeta in Cl.
        destruct (At (if has_bit (o_bits b) 4 && negb (Nat.eqb (length (t_attrs t)) 0) then (if has_bit (o_bits b) 2 then 2 else 1) + 1 else (if has_bit (o_bits b) 2 then 2 else 1)))
          as (e' & Ee & Le).
        exists e'. cbn [app]. eapply emits_skip; [intros s; reflexivity|].
        eapply emits_cons; [apply emits_write0; [reflexivity|intros; reflexivity|discriminate]|].
        cbv zeta. replace (Nat.ltb 0 (if has_bit (o_bits b) 2 then 1 + 1 else 1)) with true by (destruct (has_bit (o_bits b) 2); reflexivity).
        match goal with |- emits n _ _ (wcat (wcat ?A (wcat ?B (wcat ?D ?R))) ?Q) _ => replace (wcat (wcat A (wcat B (wcat D R))) Q) with (wcat (wcat A (wcat B D)) (wcat R Q)) by
          (now rewrite !wcat_assoc) end.
        eapply emits_app; [exact Cl|]. eapply emits_app; [exact Ee|]. apply emits_write0; [exact Le|intros; reflexivity|discriminate].
      - destruct (At 0) as (e' & Ee & Le). exists e'. unfold write_class. rewrite Kc. cbn [app].
        eapply emits_skip; [intros s; reflexivity|].
        eapply emits_cons; [apply emits_write0; [reflexivity|intros; reflexivity|discriminate]|].
        eapply emits_app; [exact Ee|]. apply emits_write0; [exact Le|intros; reflexivity|discriminate]. }
    eapply called_function; [exact Iw|rewrite Ew; reflexivity|rewrite Ew; reflexivity|discriminate|exact E].
  Qed.

  Lemma nil_called n k t : mget k (v_types v) = Some t -> structural t -> called (S n) (write_func t) RNil WPanic.
  Proof.
    intros G K. destruct (struct_function k t G K) as (w & code & Ea & Iw & Ew & _).
    replace (write_func t) with (fn_name w) by (now rewrite Ew).
    eapply (called_function n w "object" _ RNil WPanic []); [exact Iw|rewrite Ew; reflexivity|rewrite Ew; reflexivity|discriminate|].
    rewrite Ew. cbn [fn_body app]. eapply emits_skip; [intros s; reflexivity|].
    change WPanic with (wcat (WOk [TLBrace]) WPanic). eapply emits_cons; [apply emits_write0; [reflexivity|intros; reflexivity|discriminate]|].
    unfold write_class. destruct (is_class t) eqn:Kc.
    - cbn [app]. change WPanic with (wcat (WOk [TStr "kind"; TColon]) WPanic).
      eapply emits_cons; [apply (emits_write1 _ _ _ _ _ _ _ _ (RString "kind")); [reflexivity|intros; reflexivity|exact I|reflexivity|intros; reflexivity|discriminate]|].
      eapply (emits_stop _ _ _ _ _ _ _ _ []). intros s N. reflexivity.
    - assert (Ks : t_kind t = StructType) by (destruct K as [K|K]; auto; unfold is_class in Kc; rewrite K in Kc; discriminate).
      pose proof (FULL t (in_types k t G) Ks) as Ne. destruct (t_attrs t) as [|a r]; [congruence|]. cbn [app].
      eapply emits_skip; [intros s; reflexivity|]. cbn [write_attributes] in Ea. unfold write_attribute in Ea.
      destruct (type_at (a_type a) v) as [ta|]; try discriminate.
      destruct (JsonCodeModel.write_value v (object_field (attribute_field a)) (a_type a) ta (a_link a)) as [wa| |]; try discriminate.
      destruct (write_attributes v t 1 r) as [wr| |]; try discriminate. injection Ea as <-. cbn [app].
      eapply (emits_stop _ _ _ _ _ _ _ _ []). intros s N. destruct (is_scalar ta); reflexivity.
  Qed.

  (** * Lists *)

  Lemma list_function k t ke te : mget k (v_types v) = Some t -> t_kind t = ListType -> plain v t -> t_element t = Some ke -> mget ke (v_types v) = Some te ->
    exists text w code, JsonCodeModel.write_value v (XVar "value") ke te false = Done code /\ In w fs /\
    w = MkFunc (write_func t) [("list", text); ("stream", "*jsoniter.Stream")] []
          [write "WriteArrayStart" []; TRange ["i"; "value"] (XVar "list") (TIf (XPositive (XVar "i")) [write "WriteMore" []] [] :: code); write "WriteArrayEnd" []] /\
    In (marshal_code "list" text t) fs.
  Proof.
    intros G K (ke' & te' & El' & Ge' & Ki) El Ge. rewrite El in El'. injection El' as EK; subst ke'. rewrite Ge in Ge'. injection Ge' as <-.
    destruct (type_functions k t G) as (l & rs & E & I). unfold type_code, is_struct, is_list in E. rewrite K in E. cbn [kind_eqb orb] in E.
    unfold element_of, type_at in E. rewrite El, Ge in E.
    replace (is_scalar te || (kind_eqb (t_kind te) ClassType || kind_eqb (t_kind te) StructType)) with true in E
      by (unfold is_scalar; cbn in Ki; repeat (destruct Ki as [<-|Ki]; [reflexivity|]); contradiction).
    unfold list_code in E. destruct (value_reference pkg v k t) as [[sr l1]| |]; try discriminate.
    destruct (JsonCodeModel.write_value v (XVar "value") ke te false) as [code| |] eqn:Ew; try discriminate.
    destruct (JsonCodeModel.read_value pkg v "item" ke te false) as [[rr l2]| |]; try discriminate. injection E as <- <-.
    eexists _, _, code. split; [reflexivity|]. split; [|split; [reflexivity|]]; apply I; cbn; auto.
  Qed.

  Lemma plain_prepared n ke te y : mget ke (v_types v) = Some te -> In (t_kind te) [ScalarType; EnumType; InterfaceType; ClassType; StructType] -> typed v ke false y ->
    callable n ke y <-> prepared n ke y.
  Proof.
    intros Ge Ki Ty. destruct y; try reflexivity; exfalso; cbn [typed] in Ty; rewrite Ge in Ty; cbn in Ki; intuition (destruct (t_kind te); try discriminate; intuition).
  Qed.

  Lemma list_called n k t ke x : mget k (v_types v) = Some t -> t_kind t = ListType -> t_element t = Some ke -> typed v k false x ->
    x = VNil \/ (exists l, x = VSlice l /\ Forall (callable n ke) l) ->
    called (S n) (write_func t) (run_value v k x) (JsonModel.write_value o v k false x).
  Proof.
    intros G K El T H.
    assert (Pl : plain v t) by (destruct x; cbn [typed] in T; rewrite G, K in T; exact (proj1 T)). assert (Pl' := Pl). destruct Pl' as (ke' & te & El' & Ge & Ki).
    rewrite El in El'. injection El' as EK; subst ke'.
    destruct (list_function k t ke te G K Pl El Ge) as (text & w & code & Ec & Iw & Ew & _).
    replace (write_func t) with (fn_name w) by (now rewrite Ew).
    destruct (not_library v STD k t G) as (F0 & F1 & F2 & F3 & F4 & F5 & F6); [congruence|].
    assert (Ek : elem_key t = ke) by (unfold elem_key; now rewrite El).
    set (e := [[("list", run_value v k x); ("stream", RStream)]]).
    eapply (called_function n w "list" text _ _ e); [exact Iw|rewrite Ew; reflexivity|rewrite Ew; reflexivity|discriminate|].
    rewrite Ew. cbn [fn_body].
    destruct H as [->|(l & -> & F)].
    - cbn [JsonModel.write_value]. rewrite F1, F2, F3, F4, F5, F6. unfold type_at. rewrite G. unfold is_enum, is_interface, is_struct, is_list. rewrite K. cbn [kind_eqb orb].
      change (WOk [TLBracket; TRBracket]) with (wcat (WOk [TLBracket]) (WOk [TRBracket])).
      eapply emits_cons; [apply emits_write0; [reflexivity|intros; reflexivity|discriminate]|].
      eapply emits_skip; [intros s; reflexivity|]. apply emits_write0; [reflexivity|intros; reflexivity|discriminate].
    - cbn [JsonModel.write_value]. rewrite F1, F2, F3, F4, F5, F6. unfold type_at. rewrite G. unfold is_enum, is_interface, is_struct, is_list. rewrite K. cbn [kind_eqb orb].
      rewrite Ek. eapply emits_cons; [apply emits_write0; [reflexivity|intros; reflexivity|discriminate]|].
      eapply (emits_cons _ _ _ _ _ e e); [|apply emits_write0; [reflexivity|intros; reflexivity|discriminate]].
      assert (Ty : Forall (typed v ke false) l).
      { cbn [typed] in T. rewrite G, K, El in T. apply all1_forall. exact (proj2 (proj2 T)). }
      intros s N. rewrite block_cons.
      assert (X : exec n e s (TRange ["i"; "value"] (XVar "list") (TIf (XPositive (XVar "i")) [write "WriteMore" []] [] :: code)) =
          each (numbered 0 (map (run_value v ke) l)) e s (fun p e s => leave (leave (blk n ([] :: [("i", RInt (fst p)); ("value", snd p)] :: e) s (TIf (XPositive (XVar "i")) [write "WriteMore" []] [] :: code))))).
      { cbn [JsonRunSpec.exec JsonRunSpec.eval]. unfold e. cbn [lookup mget String.eqb Ascii.eqb Bool.eqb run_value]. rewrite G, Ek. reflexivity. }
      rewrite X. clear X. change 0%Z with (Z.of_nat 0). rewrite (emits_each _ _ _ _ _ e "i" "value" _ _ (map (JsonModel.write_value o v ke false) l) 0).
      + destruct (write_items 0 (map (JsonModel.write_value o v ke false) l)); reflexivity.
      + discriminate.
      + assert (L : lookup e "stream" = Some RStream) by reflexivity. clearbody e. clear T N. induction l as [|y l IH]; cbn [map]; [constructor|].
        assert (F' := Forall_inv F). assert (Ty' := Forall_inv Ty). constructor; [|apply IH; eapply Forall_inv_tail; eassumption]. intros j J.
        exists [], [("i", RInt j); ("value", run_value v ke y)]. eapply emits_cons.
        * eapply (emits_if _ _ _ _ _ _ _ _ _ (Z.ltb 0 j) _ []); [intros s'; reflexivity|].
          destruct (Z.ltb 0 j); [|apply emits_nil]. apply emits_write0; [exact L|intros; reflexivity|discriminate].
        * eapply (value_emits o v fs structures limit ORD STD n ke te false y _ (XVar "value")); [exact Ge|assumption|now apply (plain_prepared n ke te)|exact L| |exact I|exact Ec].
          intros fr s' Hf. cbn [JsonRunSpec.eval]. rewrite lookup_skip by (intros f If; apply Hf; [exact If|right; right; now left]). reflexivity.
      + exact N.
  Qed.

  (** * All the values *)

  Lemma eventually_all {A} (P : nat -> A -> Prop) l : Forall (fun a => exists n0, forall n, (n0 <= n)%nat -> P n a) l -> exists n0, forall n, (n0 <= n)%nat -> Forall (P n) l.
  Proof.
    induction 1 as [|a l [n1 H] _ [n2 IH]]; [now exists 0|]. exists (n1 + n2)%nat. intros n N. constructor; [apply H; lia|apply IH; lia].
  Qed.

  Lemma nil_ready n k link : typed v k link VNil -> callable (S n) k VNil.
  Proof.
    intros T t G K. cbn [run_value]. destruct K as [K|K].
    - replace (JsonModel.write_value o v k false VNil) with WPanic; [now apply (nil_called n k t)|].
      destruct (not_library v STD k t G) as (F0 & F1 & F2 & F3 & F4 & F5 & F6); [destruct K; congruence|]. cbn [JsonModel.write_value]. rewrite F1, F2, F3, F4, F5, F6.
      unfold type_at. rewrite G. unfold is_enum, is_interface, is_struct. destruct K as [K|K]; rewrite K; reflexivity.
    - change RNil with (run_value v k VNil). cbn [typed] in T. rewrite G, K in T. destruct (t_element t) as [ke|] eqn:El; [|tauto].
      eapply (list_called n k t ke); [exact G|exact K|exact El| |now left]. cbn [typed]. rewrite G, K, El. tauto.
  Qed.

  Lemma all_ready : forall x k link, typed v k link x -> exists n0, forall n, (n0 <= n)%nat -> prepared n k x.
  Proof.
    induction x as [s| |b IH|l IH|h b items IH IHl|l IH] using value_ind2; intros k link T.
    - exists 0. intros n _ t G K. exfalso. cbn [typed] in T. rewrite G in T. destruct K as [[K|K]|K]; rewrite K in T; try contradiction. destruct T as [_ T]. destruct (t_element t); contradiction.
    - exists 1. intros [|n] N; [lia|]. now apply (nil_ready n k link).
    - destruct (mget k (v_types v)) as [t|] eqn:G; [|cbn [typed] in T; rewrite G in T; contradiction].
      assert (K : structural t).
      { cbn [typed] in T. rewrite G in T. unfold structural. destruct (t_kind t); auto; try contradiction; destruct T as [_ T]; destruct (t_element t); contradiction. }
      assert (Ty : Forall2 (fun a y => typed v (a_type a) (a_link a) y) (t_attrs t) (o_fields b)).
      { cbn [typed] in T. rewrite G in T. destruct K as [K|K]; rewrite K in T; apply all2_forall2; tauto. }
      assert (exists n0, forall n, (n0 <= n)%nat -> Forall2 (fun a y => prepared n (a_type a) y) (t_attrs t) (o_fields b)) as [n0 H].
      { clear -IH Ty. revert IH. induction Ty as [|a y l m Ty F IHF]; intros IH; [exists 0; constructor|].
        inversion IH as [|? ? H1 H2]; subst. destruct (H1 _ _ Ty) as [n1 N1]. destruct (IHF H2) as [n2 N2]. exists (n1 + n2)%nat. intros n N. constructor; [apply N1; lia|apply N2; lia]. }
      exists (S n0). intros [|n] N; [lia|]. intros t' G' _. rewrite G in G'. injection G' as <-. apply object_called; [exact G|exact K|exact T|apply H; lia].
    - destruct (mget k (v_types v)) as [t|] eqn:G; [|cbn [typed] in T; rewrite G in T; contradiction].
      assert (K : t_kind t = ListType).
      { cbn [typed] in T. rewrite G in T. destruct (t_kind t); auto; try contradiction. destruct T as [_ T]; destruct (t_element t); contradiction. }
      assert (T' := T). cbn [typed] in T'. rewrite G, K in T'. destruct T' as [Pl T']. destruct (t_element t) as [ke|] eqn:El; [|contradiction]. destruct T' as [-> Ty].
      apply all1_forall in Ty. assert (Pl' := Pl). destruct Pl' as (ke' & te & El' & Ge & Ki). rewrite El in El'. injection El' as EK; subst ke'.
      destruct (eventually_all (fun n y => callable n ke y) l) as [n0 H].
      { clear -IH Ty Ge Ki CODE ONCE FULL ORD STD. induction Ty as [|y l Ty F IHF]; constructor; inversion IH; subst; [|now apply IHF].
        destruct (H1 ke false Ty) as [n0 N]. exists n0. intros n Le. apply (plain_prepared n ke te); auto. }
      exists (S n0). intros [|n] N; [lia|]. intros t' G' _. rewrite G in G'. injection G' as <-.
      eapply (list_called n k t ke); eauto. right. exists l. split; [reflexivity|]. apply H. lia.
    - destruct (mget k (v_types v)) as [t|] eqn:G; [|cbn [typed] in T; rewrite G in T; contradiction].
      assert (K : t_kind t = ListType).
      { cbn [typed] in T. rewrite G in T. destruct (t_kind t); auto; try contradiction. destruct T as [_ T]; destruct (t_element t); contradiction. }
      cbn [typed] in T. rewrite G, K in T. destruct T as [Pl T]. destruct (t_element t) as [ke|] eqn:El; [|contradiction]. destruct T as [-> T].
      assert (Ti : typed v k false items).
      { destruct items; try contradiction; cbn [typed]; rewrite G, K, El; tauto. }
      destruct (IH k false Ti) as [n0 H]. exists n0. intros n N. specialize (H n N). destruct items; try contradiction; exact H.
    - destruct (mget k (v_types v)) as [t|] eqn:G; [|cbn [typed] in T; rewrite G in T; contradiction].
      assert (K : t_kind t = MapType).
      { cbn [typed] in T. rewrite G in T. destruct (t_kind t); auto; try contradiction. destruct T as [_ T]; destruct (t_element t); contradiction. }
      cbn [typed] in T. rewrite G, K in T. destruct T as [Pl T]. destruct (t_element t) as [ke|] eqn:El; [|contradiction]. destruct T as [_ Ty].
      apply all1_forall in Ty. destruct Pl as (ke' & te & El' & Ge & Ki). rewrite El in El'. injection El' as EK; subst ke'.
      destruct (eventually_all (fun n p => callable n ke (snd p)) l) as [n0 H].
      { clear -IH Ty Ge Ki CODE ONCE FULL ORD STD. induction Ty as [|y l Ty F IHF]; constructor; inversion IH; subst; [|now apply IHF].
        destruct (H1 ke false Ty) as [n0 N]. exists n0. intros n Le. apply (plain_prepared n ke te); auto. }
      exists n0. intros n N t' G'. rewrite G in G'. injection G' as <-. unfold elem_key. rewrite El. now apply H.
  Qed.
End Version.
