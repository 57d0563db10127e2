(** Proofs about the execution of the functions that write objects and lists. *)
From Coq Require Import Ascii String Bool Arith ZArith NArith Lia Permutation List.
From Verif Require Import GoStrings GoMap GoMapProofs NamesModel ConceptsModel ReporterModel BindingModel GoNamesModel GoTimeModel DeclsModel DeclsSpec DeclsProofs ChecksModel GoTypesModel
  ObjectsModel ObjectsSpec ObjectsProofs ObjectsProofs2 JsonModel JsonSpec JsonProofs3 JsonCodeModel JsonRunSpec JsonRunProofs JsonRunProofs2 JsonRunProofs3.
Import ListNotations.
Local Open Scope string_scope.

(** * Functions *)

Lemma collect_in {A : Type} (f : A -> outcome (list func * list report)) l : forall fs rs a, collect f l = Done (fs, rs) -> In a l ->
  exists x rs', f a = Done (x, rs') /\ incl x fs.
Proof.
  induction l as [|b l IH]; intros fs rs a H I; [contradiction|]. cbn [collect] in H.
  destruct (f b) as [[x rx]| |] eqn:Fb; try discriminate. destruct (collect f l) as [[y ry]| |] eqn:Cl; try discriminate. injection H as <- <-.
  destruct I as [<-|I].
  - exists x, rx. split; [exact Fb|]. now apply incl_appl.
  - destruct (IH y ry a eq_refl I) as (z & rz & E & In). exists z, rz. split; [exact E|]. now apply incl_appr.
Qed.

Lemma find_function fs fn : NoDup (map fn_name fs) -> In fn fs -> find (fun g => String.eqb (fn_name g) (fn_name fn)) fs = Some fn.
Proof.
  induction fs as [|g fs IH]; intros N I; [contradiction|]. cbn [map] in N. inversion N; subst. cbn [find].
  destruct (String.eqb_spec (fn_name g) (fn_name fn)) as [E|E].
  - destruct I as [->|I]; [reflexivity|]. exfalso. rewrite E in *. now apply H1, in_map.
  - destruct I as [->|I]; [congruence|]. now apply IH.
Qed.

Lemma not_rfc s : String.eqb (s ++ "Kind") "time.RFC3339" = false.
Proof.
  apply String.eqb_neq. intros H. do 12 (destruct s as [|? s]; [discriminate H|]; cbn in H; injection H as _ H). destruct s; discriminate.
Qed.
Lemma not_rfc_link s : String.eqb (s ++ "LinkKind") "time.RFC3339" = false.
Proof. replace (s ++ "LinkKind") with ((s ++ "Link") ++ "Kind"); [apply not_rfc|]. induction s as [|c s IH]; [reflexivity|]. cbn. now rewrite IH. Qed.

Section Version.
  Context (o : oracle) (v : version) (fs : list func) (structures : string -> option (list (string * gv))) (limit : nat).
  Context (ORD : forall l, Permutation l (order o l)) (STD : standard v).
  Notation constants := (kind_constants v).
  Notation C := (call_function o constants structures fs limit).
  Notation eval n := (eval o constants structures limit (C n)).
  Notation exec n := (exec o constants structures limit (C n)).
  Notation blk n := (block o constants structures limit (C n)).
  Notation emits n := (emits o constants structures limit (C n)).
  Notation called := (called o v fs structures limit).
  Notation callable := (callable o v fs structures limit).
  Notation prepared := (prepared o v fs structures limit).
  Notation stable := (stable o v fs structures limit).

  Lemma stable_cons n e e0 g f : stable n e e0 g -> (forall x, In x ["object"; "request"; "value"; "stream"] -> mget x f = None) -> stable n (f :: e) e0 g.
  Proof.
    intros S H fr s F. change (f :: e) with ([f] ++ e)%list. rewrite app_assoc. apply S. intros f' x I X. apply in_app_or in I. destruct I as [I|[<-|[]]]; auto.
  Qed.

  (** * Objects *)

  Section Object.
    Context (n : nat) (t : typ) (bits : N) (flds : list (string * gv)).
    Context (BITS : mget "bitmap_" flds = Some (RBits bits)).
    Definition vars (count : Z) (p : bool) : frames := [[("object", RStruct flds); ("stream", RStream); ("count", RInt count); ("present_", RBool p)]].

    Lemma more_emits f c p : mget "count" f = None -> mget "stream" f = None -> emits n (f :: vars (Z.of_nat c) p) [write_more] (if Nat.ltb 0 c then WOk [TComma] else WOk []) (f :: vars (Z.of_nat c) p).
    Proof.
      intros F1 F2. eapply (emits_if _ _ _ _ _ _ _ _ _ (Z.ltb 0 (Z.of_nat c)) _ []).
      - intros s. cbn [JsonRunSpec.eval lookup]. rewrite F1. reflexivity.
      - destruct c; [apply emits_nil|]. cbn [Z.ltb Z.of_nat Z.compare]. apply emits_write0; [cbn [lookup mget]; now rewrite F2|intros; reflexivity|discriminate].
    Qed.

    Lemma attributes_emit : forall l ys i c p code,
      Forall2 (fun a y => mget (attribute_field a) flds = Some (run_value v (a_type a) y) /\ typed v (a_type a) (a_link a) y /\ prepared n (a_type a) y) l ys ->
      write_attributes v t i l = Done code ->
      exists c' p', emits n (vars (Z.of_nat c) p) code
        (write_fields v t bits (length (t_attrs t)) i c (zip_with (fun a y => (a, y, JsonModel.write_value o v (a_type a) (a_link a) y)) l ys)) (vars c' p').
    Proof.
      intros l ys i c p code F. revert i c p code. induction F as [|a y l ys (Gf & Ty & Py) F IH]; intros i c p code Cd.
      - cbn in Cd. injection Cd as <-. eexists _, _. cbn. apply emits_nil.
      - cbn [write_attributes] in Cd. destruct (write_attribute v t i a) as [x| |] eqn:Ea; try discriminate.
        destruct (write_attributes v t (S i) l) as [code'| |] eqn:El; try discriminate. injection Cd as <-.
        unfold write_attribute, type_at in Ea. destruct (mget (a_type a) (v_types v)) as [ta|] eqn:Ga; [|discriminate].
        destruct (JsonCodeModel.write_value v (object_field (attribute_field a)) (a_type a) ta (a_link a)) as [w| |] eqn:Ew; try discriminate. injection Ea as <-.
        cbn [zip_with write_fields]. unfold type_at. rewrite Ga.
        set (present := has_bit bits (bit_mask t i) && (is_scalar ta || match y with VNil => false | _ => true end)).
        assert (Ev : forall q s, eval n (vars (Z.of_nat c) q) s (object_field (attribute_field a)) = Gives (run_value v (a_type a) y) s).
        { intros q s. unfold object_field, vars. cbn [JsonRunSpec.eval lookup mget String.eqb Ascii.eqb Bool.eqb]. now rewrite Gf. }
        assert (Eb : forall q s m, eval n (vars (Z.of_nat c) q) s (XBit (object_field "bitmap_") m) = Gives (RBool (has_bit bits m)) s).
        { intros q s m. unfold object_field, vars. cbn [JsonRunSpec.eval lookup mget String.eqb Ascii.eqb Bool.eqb]. now rewrite BITS. }
        assert (Nn : is_scalar ta = false -> not_nil (run_value v (a_type a) y) = match y with VNil => false | _ => true end).
        { intros S. unfold is_scalar in S. destruct y; cbn [typed] in Ty; rewrite Ga in Ty; cbn [run_value]; rewrite ?Ga; try reflexivity.
          destruct (t_kind ta); cbn in S; try discriminate; try contradiction; destruct Ty as [_ Ty]; destruct (t_element ta); contradiction. }
        assert (Ep : forall s, exec n (vars (Z.of_nat c) p) s (TAssign [XVar "present_"]
            (if is_scalar ta then XBit (object_field "bitmap_") (bit_mask t i) else XAnd (XBit (object_field "bitmap_") (bit_mask t i)) (XNotNil (object_field (attribute_field a))))) =
            Next (vars (Z.of_nat c) present) s).
        { intros s. unfold present. destruct (is_scalar ta) eqn:Sc; cbn [orb].
          - cbn [JsonRunSpec.exec]. rewrite Eb, andb_true_r. reflexivity.
          - cbn [JsonRunSpec.exec JsonRunSpec.eval]. specialize (Eb p s (bit_mask t i)). cbn [JsonRunSpec.eval] in Eb. rewrite Eb.
            destruct (has_bit bits (bit_mask t i)); cbn [andb]; [|reflexivity]. rewrite Ev, (Nn eq_refl). reflexivity. }
        destruct present eqn:Pr.
        + set (c1 := if Nat.ltb i (length (t_attrs t) - 1) then c + 1 else c).
          destruct (IH (S i) c1 true code' El) as (c' & p' & E'). exists c', p'. cbn [app].
          eapply emits_skip; [exact Ep|].
          match goal with |- emits n _ _ (wcat ?A (wcat ?B (wcat ?D ?R))) _ => replace (wcat A (wcat B (wcat D R))) with (wcat (wcat A (wcat B (wcat D (WOk [])))) R) by
            (rewrite wcat_nil_r; now rewrite !wcat_assoc) end.
          eapply (emits_cons _ _ _ _ _ _ (vars (Z.of_nat c1) true)); [|now rewrite Nat.add_1_r].
          eapply (emits_if _ _ _ _ _ _ _ _ _ true _ []); [intros s; reflexivity|].
          eapply emits_cons; [apply more_emits; reflexivity|].
          eapply emits_cons; [apply (emits_write1 _ _ _ _ _ _ _ _ (RString (attribute_name a))); [reflexivity|intros; reflexivity|exact I|reflexivity|intros; reflexivity|discriminate]|].
          eapply emits_app.
          * eapply (value_emits o v fs structures limit ORD STD n (a_type a) ta (a_link a) y _ (object_field (attribute_field a))); [exact Ga|exact Ty|exact Py|reflexivity| |exact I|exact Ew].
            apply stable_cons; [|intros; reflexivity]. intros fr s H. unfold object_field. cbn [JsonRunSpec.eval]. rewrite lookup_skip by (intros f If; apply H; [exact If|now left]).
            unfold vars. cbn [lookup mget String.eqb Ascii.eqb Bool.eqb]. now rewrite Gf.
          * unfold c1. destruct (Nat.ltb i (length (t_attrs t) - 1)); [|apply emits_nil].
            apply emits_silent. intros s. unfold vars. cbn [JsonRunSpec.exec lookup mget String.eqb Ascii.eqb Bool.eqb store update mset continue]. do 7 f_equal.
            rewrite Nat2Z.inj_add. reflexivity.
        + destruct (IH (S i) c false code' El) as (c' & p' & E'). exists c', p'. cbn [app].
          eapply emits_skip; [exact Ep|]. rewrite <- (wcat_nil_l (write_fields _ _ _ _ _ _ _)).
          eapply emits_cons; [|rewrite Nat.add_1_r; exact E'].
          eapply (emits_if _ _ _ _ _ _ _ _ _ false _ []); [intros s; reflexivity|]. apply emits_nil.
    Qed.

    (** The members that all the classes have. *)
    Definition vars0 (count : Z) : frames := [[("object", RStruct flds); ("stream", RStream); ("count", RInt count)]].
    Lemma bit0 e s m : lookup e "object" = Some (RStruct flds) -> eval n e s (XBit (object_field "bitmap_") m) = Gives (RBool (has_bit bits m)) s.
    Proof. intros L. unfold object_field. cbn [JsonRunSpec.eval]. rewrite L, BITS. reflexivity. Qed.
    Lemma inc0 c f : mget "count" f = None -> forall s, exec n (f :: vars0 (Z.of_nat c)) s (TInc "count") = Next (f :: vars0 (Z.of_nat (c + 1))) s.
    Proof.
      intros F s. unfold vars0. cbn [JsonRunSpec.exec lookup]. rewrite F. cbn [lookup mget String.eqb Ascii.eqb Bool.eqb store update]. rewrite F.
      cbn [mget String.eqb Ascii.eqb Bool.eqb mset continue]. now rewrite Nat2Z.inj_add.
    Qed.
    Lemma member_emits e x a y : lookup e "stream" = Some RStream -> (forall s, eval n e s a = Gives (RString y) s) -> match a with XAddr _ => False | _ => True end ->
      emits n e [write "WriteObjectField" [XText x]; write "WriteString" [a]] (WOk [TStr x; TColon; TStr y]) e.
    Proof.
      intros L E A. change (WOk [TStr x; TColon; TStr y]) with (wcat (WOk [TStr x; TColon]) (wcat (WOk [TStr y]) (WOk []))).
      eapply emits_cons; [apply (emits_write1 _ _ _ _ _ _ _ _ (RString x)); [exact L|intros; reflexivity|exact I|reflexivity|intros; reflexivity|discriminate]|].
      eapply emits_cons; [apply (emits_write1 _ _ _ _ _ _ _ _ (RString y)); [exact L|exact E|exact A|reflexivity|intros; reflexivity|discriminate]|]. apply emits_nil.
    Qed.

    Context (id href : string) (CONSTANTS : NoDup (map fst constants)).
    Lemma class_emits : is_class t = true -> In t (types v) -> mget "id" flds = Some (RString id) -> mget "href" flds = Some (RString href) ->
      let c1 := if has_bit bits 2 then 2 else 1 in
      emits n (vars0 0) (write_class t)
        (wcat (WOk [TStr "kind"; TColon; TStr (if has_bit bits 1 then object_name t ++ "Link" else object_name t)])
          (wcat (if has_bit bits 2 then WOk [TComma; TStr "id"; TColon; TStr id] else WOk [])
             (if has_bit bits 4 then WOk [TComma; TStr "href"; TColon; TStr href] else WOk [])))
        (vars0 (Z.of_nat (if has_bit bits 4 && negb (Nat.eqb (length (t_attrs t)) 0) then c1 + 1 else c1))).
    Proof.
      intros K T Gi Gh c1. unfold write_class. rewrite K.
      assert (Ci : forall c y, In (c, y) (kinds_of (object_name t)) -> mget c constants = Some y).
      { intros c y I. apply mget_in_iff; [exact CONSTANTS|]. unfold kind_constants. apply in_flat_map. exists t. split; [exact T|].
        replace (is_struct t) with true. 2: { unfold is_class in K. unfold is_struct. destruct (t_kind t); try discriminate; reflexivity. }
        rewrite K. apply in_or_app. now left. }
      assert (M : forall f c, (0 < c)%nat -> mget "count" f = None -> mget "stream" f = None -> emits n (f :: vars0 (Z.of_nat c)) [write_more] (WOk [TComma]) (f :: vars0 (Z.of_nat c))).
      { intros f c P F1 F2. eapply (emits_if _ _ _ _ _ _ _ _ _ true _ []).
        - intros s. cbn [JsonRunSpec.eval lookup]. rewrite F1. cbn [lookup mget vars0 String.eqb Ascii.eqb Bool.eqb].
          replace (Z.ltb 0 (Z.of_nat c)) with true by (symmetry; apply Z.ltb_lt; lia). reflexivity.
        - apply emits_write0; [cbn [lookup mget]; now rewrite F2|intros; reflexivity|discriminate]. }
      match goal with |- emits n _ ([?a; ?b; ?c; ?d; ?e]) (wcat (WOk [?x; ?y; ?z]) (wcat ?w1 ?w2)) _ =>
        replace (wcat (WOk [x; y; z]) (wcat w1 w2)) with (wcat (WOk [x; y]) (wcat (WOk [z]) (wcat w1 (wcat w2 (WOk []))))) by (rewrite wcat_nil_r; destruct w1, w2; reflexivity) end.
      eapply emits_cons; [apply (emits_write1 _ _ _ _ _ _ _ _ (RString "kind")); [reflexivity|intros; reflexivity|exact I|reflexivity|intros; reflexivity|discriminate]|].
      eapply emits_cons.
      { eapply (emits_if _ _ _ _ _ _ _ _ _ (has_bit bits 1) _ []); [intros s; apply bit0; reflexivity|].
        destruct (has_bit bits 1).
        - apply (emits_write1 _ _ _ _ _ _ _ _ (RString (object_name t ++ "Link"))); [reflexivity| |exact I|reflexivity|intros; reflexivity|discriminate].
          intros s. cbn [JsonRunSpec.eval]. rewrite not_rfc_link. rewrite (Ci _ (object_name t ++ "Link")); [reflexivity|]. unfold kinds_of. right. now left.
        - apply (emits_write1 _ _ _ _ _ _ _ _ (RString (object_name t))); [reflexivity| |exact I|reflexivity|intros; reflexivity|discriminate].
          intros s. cbn [JsonRunSpec.eval]. rewrite not_rfc. rewrite (Ci _ (object_name t)); [reflexivity|]. unfold kinds_of. now left. }
      eapply (emits_skip _ _ _ _ _ _ (vars0 1)); [intros s; reflexivity|].
      eapply (emits_cons _ _ _ _ _ _ (vars0 (Z.of_nat c1))).
      { eapply (emits_if _ _ _ _ _ _ _ _ _ (has_bit bits 2) _ []); [intros s; apply bit0; reflexivity|]. unfold c1.
        destruct (has_bit bits 2); [|apply emits_nil].
        change (WOk [TComma; TStr "id"; TColon; TStr id]) with (wcat (WOk [TComma]) (wcat (WOk [TStr "id"; TColon; TStr id]) (WOk []))).
        eapply emits_cons; [apply (M [] 1); [lia|reflexivity|reflexivity]|].
        eapply (emits_app _ _ _ _ _ _ _ _ [write "WriteObjectField" [XText "id"]; write "WriteString" [object_field "id"]]).
        - apply member_emits; [reflexivity| |exact I]. intros s. unfold object_field. cbn [JsonRunSpec.eval lookup mget vars0 String.eqb Ascii.eqb Bool.eqb]. now rewrite Gi.
        - apply emits_silent. intros s. reflexivity. }
      eapply emits_cons; [|apply emits_nil].
      eapply (emits_if _ _ _ _ _ _ _ _ _ (has_bit bits 4) _ []); [intros s; apply bit0; reflexivity|].
      destruct (has_bit bits 4); [|apply emits_nil]. cbn [andb].
      change (WOk [TComma; TStr "href"; TColon; TStr href]) with (wcat (WOk [TComma]) (wcat (WOk [TStr "href"; TColon; TStr href]) (WOk []))).
      eapply emits_cons; [apply (M [] c1); [unfold c1; destruct (has_bit bits 2); lia|reflexivity|reflexivity]|].
      eapply (emits_app _ _ _ _ _ _ _ _ [write "WriteObjectField" [XText "href"]; write "WriteString" [object_field "href"]]).
      - apply member_emits; [reflexivity| |exact I]. intros s. unfold object_field. cbn [JsonRunSpec.eval lookup mget vars0 String.eqb Ascii.eqb Bool.eqb]. now rewrite Gh.
      - destruct (t_attrs t); [apply emits_nil|]. apply emits_silent. intros s. cbn [length Nat.eqb negb]. apply (inc0 c1 []). reflexivity.
    Qed.
  End Object.
End Version.
