(** Proofs about the code that reads and writes JSON documents: the functions of the types. *)
From Coq Require Import Ascii String Bool Arith ZArith Lia List.
From Verif Require Import GoStrings GoStringsProofs GoMap GoMapProofs NamesModel NamesSpec ConceptsModel ReporterModel ChecksModel BindingModel GoNamesModel BufferModel ObjectsModel ObjectsProofs DeclsModel OpenapiProofs5
  GoTypesModel JsonCodeModel JsonModel JsonSpec ObjectsSpec GoTypesSpec JsonCodeSpec GoTypesProofs GoTypesProofs2 GoTypesProofs3 GoTypesProofs4 GoTypesProofs5 JsonCodeProofs JsonCodeProofs2 JsonCodeProofs3.
Import ListNotations.
Local Open Scope string_scope.

(** * Masks *)

Lemma bitmap_small t : structural t -> fits t -> bitmap_type t = (if (slots t <=? 32)%nat then "uint32" else "uint64", []).
Proof.
  intros K F. unfold bitmap_type. destruct (struct_is t K) as (_ & -> & _). cbn [negb]. unfold bitmap_size, fits, slots in *. rewrite reserved_eq in *. cbv zeta.
  assert (N : (64 - reserved t <? length (t_attrs t))%nat = false) by (apply Nat.ltb_ge; lia). rewrite N, (Nat.add_comm (length (t_attrs t))).
  destruct (reserved t + length (t_attrs t) <=? 32)%nat; reflexivity.
Qed.
Lemma mask_small t n : structural t -> fits t -> (n < slots t)%nat -> mask_fits (GBasic (fst (bitmap_type t))) (2 ^ Z.of_nat n).
Proof.
  intros K F I. rewrite (bitmap_small t K F). cbn [fst]. split; [apply Z.pow_nonneg; lia|]. destruct (Nat.leb_spec (slots t) 32).
  - left. split; [reflexivity|]. apply Z.pow_lt_mono_r; lia.
  - right. split; [reflexivity|]. unfold fits in F. apply Z.pow_lt_mono_r; lia.
Qed.
Lemma bit_mask_fits t i : structural t -> fits t -> (i < length (t_attrs t))%nat -> mask_fits (GBasic (fst (bitmap_type t))) (bit_mask t i).
Proof. intros K F I. rewrite mask_pow by (unfold fits, slots in F; lia). apply mask_small; auto. unfold slots. lia. Qed.
Lemma class_masks t m : t_kind t = ClassType -> fits t -> In m [1; 2; 4]%Z -> mask_fits (GBasic (fst (bitmap_type t))) m.
Proof.
  intros K F I. assert (S : (slots t >= 3)%nat) by (unfold slots, reserved; rewrite K; lia). assert (KS : structural t) by now left.
  cbn in I. destruct I as [<-|[<-|[<-|[]]]]; [apply (mask_small t 0)|apply (mask_small t 1)|apply (mask_small t 2)]; auto; lia.
Qed.

(** * Signatures *)

Definition type_text (pkg : string) (v : version) (k : key) (t : typ) : string :=
  if is_struct t then "*" ++ object_name t else match value_reference pkg v k t with Done (r, _) => rendered pkg r | _ => "" end.
Definition signature : Type := (string * list string * list string).
Definition signature_of (fn : func) : signature := (fn_name fn, map snd (fn_params fn), map snd (fn_results fn)).
Definition signatures (pkg : string) (v : version) (k : key) (t : typ) : list signature :=
  let s := type_text pkg v k t in
  [(marshal_func t, [s; "io.Writer"], ["error"]); (write_func t, [s; "*jsoniter.Stream"], []); (unmarshal_func t, ["interface{}"], [s; "error"]); (read_func t, ["*jsoniter.Iterator"], [s])].
Definition coded (v : version) (t : typ) : Prop := structural t \/ t_kind t = ListType /\ plain v t.

Section Types.
  Context (pkg : string) (v : version) (PKG : package_path pkg) (STD : standard v) (NAMED : named_well v).

  Lemma list_acceptable k t : mget k (v_types v) = Some t -> t_kind t = ListType -> plain v t -> acceptable v k false.
  Proof. intros G K P. exists t. split; [exact G|]. rewrite K. split; [discriminate|]. split; [auto|]. intros; discriminate. Qed.

  Lemma text_written k t g : mget k (v_types v) = Some t -> coded v t -> represents v k false g -> written v (type_text pkg v k t) g.
  Proof.
    intros G [KS|(K & P)] R; unfold type_text.
    - destruct (struct_is t KS) as (_ & -> & _). destruct (struct_reference pkg v STD NAMED k t G KS) as (_ & _ & ID & _ & D & _).
      replace g with (GPtr (GNamed (object_name t))); [left; split; [exact (d_ptr _ _ (d_named _ ID))|exact D]|].
      apply (represents_unique v STD k false); [now apply r_struct|exact R].
    - destruct (list_is t K) as (_ & -> & _). destruct (collection_text pkg v PKG STD NAMED k t g (list_acceptable k t G K P) G (or_introl K) R) as (r & -> & D & DD). left. auto.
  Qed.
  Lemma coded_represented k t : mget k (v_types v) = Some t -> coded v t -> exists g, represents v k false g.
  Proof.
    intros G [KS|(K & P)]; [eexists; eapply r_struct; eauto|]. destruct (shaped pkg v PKG STD NAMED k t false G (list_acceptable k t G K P)) as (g & R & _). eauto.
  Qed.

  Lemma library_written s g : In (s, g) library_types -> written v s g.
  Proof. intros I. right. now left. Qed.

  Ltac types_written := repeat (apply Forall2_cons; [first [assumption | apply library_written; listed; fail]|]); apply Forall2_nil.

  Lemma functions_from fs : (forall k t s, mget k (v_types v) = Some t -> coded v t -> In s (signatures pkg v k t) -> In s (map signature_of fs)) -> functions_of pkg v fs.
  Proof.
    intros H k t g G C R. pose proof (text_written k t g G C R) as W.
    assert (X : forall f ps rs ps' rs', In (f, ps, rs) (signatures pkg v k t) -> Forall2 (written v) ps ps' -> Forall2 (written v) rs rs' -> has_function v fs f ps' rs').
    { intros f ps rs ps' rs' I P Q. specialize (H k t _ G C I). apply in_map_iff in H as (fn & E & I'). unfold signature_of in E.
      replace f with (fn_name fn) by congruence. apply c_generated; [exact I'| |]; [replace (map snd (fn_params fn)) with ps by congruence|replace (map snd (fn_results fn)) with rs by congruence]; assumption. }
    assert (A : written v "interface{}" GAny) by (left; split; [apply d_any|exact Logic.I]).
    unfold signatures in X. cbv zeta in X. split; [|split; [|split]].
    - apply (X _ [type_text pkg v k t; "*jsoniter.Stream"] []); [cbn; auto|types_written|types_written].
    - apply (X _ ["*jsoniter.Iterator"] [type_text pkg v k t]); [cbn; auto 10|types_written|types_written].
    - apply (X _ [type_text pkg v k t; "io.Writer"] ["error"]); [cbn; auto|types_written|types_written].
    - apply (X _ ["interface{}"] [type_text pkg v k t; "error"]); [cbn; auto 10|types_written|types_written].
  Qed.

  (** Some functions with those signatures. *)
  Definition sample : list func :=
    flat_map (fun kt => map (fun s => MkFunc (fst (fst s)) (map (pair "") (snd (fst s))) (map (pair "") (snd s)) []) (signatures pkg v (fst kt) (snd kt))) (v_types v).
  Lemma sample_functions : functions_of pkg v sample.
  Proof.
    apply functions_from. intros k t s G _ I. apply in_map_iff. eexists. split; [|apply in_flat_map; exists (k, t); split; [now apply mget_in|apply in_map; exact I]].
    unfold signature_of. cbn [fn_name fn_params fn_results]. rewrite !map_map. cbn [snd]. rewrite !map_id. now destruct s as ((f & ps) & rs).
  Qed.

  (** * The functions of a type *)

  Section Functions.
    Context (fs : list func) (FN : functions_of pkg v fs).
    Notation compiles := (function_compiles pkg v fs).

    Lemma marshal_ok x k t g : In x ["object"; "list"] -> mget k (v_types v) = Some t -> coded v t -> represents v k false g -> compiles (marshal_code x (type_text pkg v k t) t).
    Proof.
      intros IX G C R. pose proof (text_written k t g G C R) as W. destruct (FN k t g G C R) as (F1 & F2 & F3 & F4). exists [g; gWriter], [gError].
      cbn [marshal_code fn_params fn_results fn_body map snd fst]. split; [types_written|]. split; [types_written|].
      cbn [combine filter fst String.eqb negb app length Nat.eqb map]. split; [|split; [|intros _; eexists [_; _; _; _], _; reflexivity]].
      - destruct IX as [<-|[<-|[]]]; repeat constructor; cbn; intuition discriminate.
      - apply define_one with (g := gStream); [eapply y_call; [apply c_library; listed|]; apply accepts_one, y_var; destruct IX as [<-|[<-|[]]]; reflexivity|destruct IX as [<-|[<-|[]]]; reflexivity|usage|].
        apply bl_statement; [eapply st_do; [exact Logic.I|]; eapply y_call; [exact F1|]; constructor; [apply x_same|apply accepts_one]; apply y_var; destruct IX as [<-|[<-|[]]]; reflexivity|].
        apply define_one with (g := gError); [eapply method_ok; [reflexivity|listed|constructor]|destruct IX as [<-|[<-|[]]]; reflexivity|reflexivity|].
        apply bl_statement.
        + apply st_if; [eapply y_not_nil; [apply y_var; reflexivity|now right]|apply bl_statement; [|apply bl_nil]|apply bl_nil]. apply st_return, accepts_one, y_var. reflexivity.
        + apply bl_statement; [|apply bl_nil]. apply st_return, accepts_one. eapply y_field; [apply y_var; reflexivity|apply f_stream].
    Qed.

    Lemma unmarshal_ok x k t g : In x ["object"; "items"] -> mget k (v_types v) = Some t -> coded v t -> represents v k false g -> compiles (unmarshal_code x (type_text pkg v k t) t).
    Proof.
      intros IX G C R. pose proof (text_written k t g G C R) as W. destruct (FN k t g G C R) as (F1 & F2 & F3 & F4). exists [GAny], [g; gError].
      cbn [unmarshal_code fn_params fn_results fn_body map snd fst]. split; [constructor; [left; split; [apply d_any|exact Logic.I]|constructor]|]. split; [types_written|].
      assert (FX : filter (fun p : string * gotype => negb (String.eqb (fst p) "")) (combine [x; "err"] [g; gError]) = [(x, g); ("err", gError)]) by (destruct IX as [<-|[<-|[]]]; reflexivity).
      rewrite FX. cbn [combine app length Nat.eqb map fst]. split; [|split; [|intros _; eexists [_; _; _; _], _; reflexivity]].
      - destruct IX as [<-|[<-|[]]]; repeat constructor; cbn; intuition discriminate.
      - apply define_two with (g := gIterator) (h := gError); [discriminate| |destruct IX as [<-|[<-|[]]]; reflexivity|right; destruct IX as [<-|[<-|[]]]; reflexivity|usage|usage|].
        { eapply y_call; [apply c_library; listed|]. apply accepts_one, y_var. reflexivity. }
        apply bl_statement.
        { apply st_if; [eapply y_not_nil; [apply y_var; reflexivity|now right]|apply bl_statement; [|apply bl_nil]|apply bl_nil]. now apply st_return_named. }
        apply bl_statement.
        { eapply st_assign; [split; [apply y_var; destruct IX as [<-|[<-|[]]]; reflexivity|exact Logic.I]|]. apply x_same. eapply y_call; [exact F2|]. apply accepts_one, y_var. reflexivity. }
        apply bl_statement.
        { eapply st_assign; [split; [apply y_var; reflexivity|exact Logic.I]|]. apply x_same. eapply y_field; [apply y_var; reflexivity|apply f_iterator]. }
        apply bl_statement; [|apply bl_nil]. now apply st_return_named.
    Qed.

    (** ** Structs *)

    Section Struct.
      Context (k : key) (t : typ) (G : mget k (v_types v) = Some t) (KS : structural t) (READY : type_ready v t).
      Notation gObject := (GPtr (GNamed (object_name t))).

      Lemma here : In t (types v). Proof. now apply mget_types in G. Qed.
      Lemma object_is : represents v k false gObject. Proof. now apply r_struct. Qed.
      Lemma object_text : written v ("*" ++ object_name t) gObject.
      Proof. pose proof (text_written k t gObject G (or_introl KS) object_is) as W. unfold type_text in W. now destruct (struct_is t KS) as (_ & E & _); rewrite E in W. Qed.

      Lemma field_at c f g : variable c "object" = Some gObject -> has_field pkg v gObject f g -> yields pkg v fs c (object_field f) [g].
      Proof. intros V H. eapply y_field; [apply y_var, V|exact H]. Qed.
      Lemma bitmap_field : has_field pkg v gObject "bitmap_" (GBasic (fst (bitmap_type t))).
      Proof. apply f_bitmap; [apply here|exact KS]. Qed.
      Lemma attribute_type a : In a (t_attrs t) -> exists ta g, mget (a_type a) (v_types v) = Some ta /\ acceptable v (a_type a) (a_link a) /\ represents v (a_type a) (a_link a) g /\
        shape v (a_type a) ta (a_link a) g /\ has_field pkg v gObject (attribute_field a) g.
      Proof.
        intros I. destruct READY as (_ & _ & _ & A). specialize (A a I). pose proof A as (ta & GA & _). destruct (attribute_ok pkg v PKG STD NAMED a A) as (ac & g & b & GEN & R & _ & D & _).
        exists ta, g. split; [exact GA|]. split; [exact A|]. split; [exact R|]. split.
        - destruct (shaped pkg v PKG STD NAMED (a_type a) ta (a_link a) GA A) as (g' & R' & S). now replace g with g' by (apply (represents_unique v STD (a_type a) (a_link a)); assumption).
        - eapply f_attribute; eauto using here.
      Qed.
      Lemma shape_nillable k' t' link g : shape v k' t' link g -> is_scalar t' = false -> nillable g.
      Proof.
        intros S. unfold nillable. destruct S; try (intros N; unfold is_scalar in N; match goal with K : t_kind t' = _ |- _ => rewrite K in N; discriminate N end); intros _; eauto 10.
      Qed.

      Section Write.
        Context (rs : list gotype) (named : bool).
        Notation statement := (statement pkg v fs rs named).
        Notation block := (block pkg v fs rs named).
        Definition scope_ok (c : env) : Prop := variable c "object" = Some gObject /\ variable c "stream" = Some gStream /\ variable c "count" = Some gInt.

        Lemma more_ok c : variable c "stream" = Some gStream -> variable c "count" = Some gInt -> statement c write_more.
        Proof.
          intros V C. apply st_if; [apply y_positive, y_var; exact C| |apply bl_nil]. apply bl_statement; [|apply bl_nil]. apply write_ok with (ps := []); [now vars|listed|constructor].
        Qed.
        Lemma name_ok c s : variable c "stream" = Some gStream -> statement c (write "WriteObjectField" [XText s]).
        Proof. intros V. apply write_ok with (ps := [gString]); [exact V|listed|apply accepts_one, y_text]. Qed.

        Lemma write_class_ok c : scope_ok c -> Forall (statement c) (write_class t).
        Proof.
          intros (V1 & V2 & V3). unfold write_class, is_class. destruct (t_kind t) eqn:K; cbn [kind_eqb]; try apply Forall_nil. destruct READY as (F & _).
          assert (B : forall c' m, variable c' "object" = Some gObject -> In m [1; 2; 4]%Z -> yields pkg v fs c' (XBit (object_field "bitmap_") m) [gBool]).
          { intros c' m V I. eapply y_bit; [apply field_at; [exact V|apply bitmap_field]|now apply class_masks]. }
          assert (W : forall c' f, variable c' "stream" = Some gStream -> variable c' "object" = Some gObject -> In f ["id"; "href"] -> statement c' (write "WriteString" [object_field f])).
          { intros c' f V V' I. apply write_ok with (ps := [gString]); [exact V|listed|]. apply accepts_one, field_at; [exact V'|]. apply f_builtin; auto using here. }
          assert (S : forall c' s, variable c' "stream" = Some gStream -> In s ["Kind"; "LinkKind"] -> statement c' (write "WriteString" [XName (object_name t ++ s)])).
          { intros c' s V I. apply write_ok with (ps := [gString]); [exact V|listed|]. apply accepts_one, y_name. apply s_kind; auto using here. }
          constructor; [now apply name_ok|]. constructor.
          { apply st_if; [apply B; [assumption|cbn; auto]| |]; (apply bl_statement; [|apply bl_nil]); (apply S; [now vars|cbn; auto]). }
          constructor; [now apply st_inc|]. constructor; [|constructor; [|constructor]].
          - apply st_if; [apply B; [assumption|cbn; auto]| |apply bl_nil]. apply block_all. constructor; [apply more_ok; now vars|]. constructor; [apply name_ok; now vars|]. constructor; [apply W; [now vars|now vars|cbn; auto]|].
            constructor; [apply st_inc; now vars|constructor].
          - apply st_if; [apply B; [assumption|cbn; auto]| |apply bl_nil]. apply block_all. cbn [app]. constructor; [apply more_ok; now vars|]. constructor; [apply name_ok; now vars|].
            constructor; [apply W; [now vars|now vars|cbn; auto]|]. destruct (t_attrs t); constructor; [apply st_inc; now vars|constructor].
        Qed.
        Lemma write_class_plain z : Forall (fun s => declares z s = false) (write_class t).
        Proof. unfold write_class. destruct (is_class t); repeat constructor. Qed.

        Lemma write_attribute_ok c i a : In a (t_attrs t) -> (i < length (t_attrs t))%nat -> scope_ok c -> variable c "present_" = Some gBool ->
          exists l, JsonCodeModel.write_attribute v t i a = Done l /\ Forall (statement c) l /\ uses "count" l = true /\ uses "present_" l = true /\ forall z, Forall (fun s => declares z s = false) l.
        Proof.
          intros I LT (V1 & V2 & V3) V4. destruct (attribute_type a I) as (ta & g & GA & A & R & S & HF). destruct READY as (F & _).
          unfold JsonCodeModel.write_attribute. change (type_at (a_type a) v) with (mget (a_type a) (v_types v)). rewrite GA. cbv zeta.
          destruct (write_value_ok pkg v fs PKG STD NAMED FN rs named (inside c false) (object_field (attribute_field a)) (a_type a) ta (a_link a) g GA S) as (l & E & FS & U & D).
          { intros c' O. apply field_at; [|exact HF]. rewrite O by (cbn; intuition discriminate). now vars. }
          { now vars. }
          assert (B : yields pkg v fs c (XBit (object_field "bitmap_") (bit_mask t i)) [gBool]).
          { eapply y_bit; [apply field_at; [exact V1|apply bitmap_field]|now apply bit_mask_fits]. }
          rewrite E. eexists. split; [reflexivity|]. split; [|split; [|split]].
          - constructor; [|constructor; [|constructor]].
            + eapply st_assign; [split; [apply y_var, V4|exact Logic.I]|]. apply x_same. destruct (is_scalar ta) eqn:SC; [exact B|]. apply y_and; [exact B|].
              eapply y_not_nil; [apply field_at; [exact V1|exact HF]|left; now apply (shape_nillable _ _ _ _ S)].
            + apply st_if; [apply y_var, V4| |apply bl_nil]. apply block_all. cbn [app]. constructor; [apply more_ok; now vars|]. constructor; [apply name_ok; now vars|].
              apply Forall_app. split; [exact FS|]. destruct (i <? length (t_attrs t) - 1)%nat; constructor; [apply st_inc; now vars|constructor].
          - destruct (is_scalar ta); reflexivity.
          - destruct (is_scalar ta); reflexivity.
          - intros z. repeat constructor.
        Qed.

        Lemma write_attributes_ok c l i : (forall a, In a l -> In a (t_attrs t)) -> (i + length l <= length (t_attrs t))%nat -> scope_ok c -> variable c "present_" = Some gBool ->
          exists r, write_attributes v t i l = Done r /\ Forall (statement c) r /\ (l <> [] -> uses "count" r = true /\ uses "present_" r = true) /\ forall z, Forall (fun s => declares z s = false) r.
        Proof.
          intros I LT SC V. revert i LT. induction l as [|a l IH]; intros i LT; [exists []; repeat split; auto; congruence|].
          cbn [length] in LT. destruct (write_attribute_ok c i a) as (x & E & FS & U1 & U2 & D); [apply I; now left|lia|exact SC|exact V|].
          destruct (IH (fun b J => I b (or_intror J)) (S i)) as (y & E' & FS' & _ & D'); [lia|].
          exists (x ++ y)%list. cbn [write_attributes]. rewrite E, E'. split; [reflexivity|]. split; [now apply Forall_app|]. split; [|intros z; now apply Forall_app].
          intros _. split; now apply uses_app_left.
        Qed.
      End Write.

      Lemma write_struct_ok : exists w, write_code v t = Done w /\ compiles w /\ signature_of w = (write_func t, ["*" ++ object_name t; "*jsoniter.Stream"], []).
      Proof.
        unfold write_code. pose (c0 := MkEnv [("object", gObject); ("stream", gStream)] [] false). pose (c1 := declare [("count", gInt)] c0). pose (c2 := declare [("present_", gBool)] c1).
        assert (S1 : scope_ok c1) by now split. assert (S2 : scope_ok c2) by now split.
        destruct (write_attributes_ok [] true c2 (t_attrs t) 0 (fun a I => I) (le_n _) S2 eq_refl) as (l & E & FS & U & D). rewrite E. eexists. split; [reflexivity|]. split; [|reflexivity].
        exists [gObject; gStream], []. cbn [fn_params fn_results fn_body map snd fst]. split; [constructor; [apply object_text|constructor; [apply library_written; listed|constructor]]|]. split; [constructor|].
        cbn [combine filter fst String.eqb negb app length Nat.eqb map]. split; [repeat constructor; cbn; intuition discriminate|]. split; [|congruence].
        change (MkEnv [("object", gObject); ("stream", gStream)] [] false) with c0.
        assert (END : forall c, variable c "stream" = Some gStream -> block pkg v fs [] true c [write "WriteObjectEnd" []]).
        { intros c V. apply bl_statement; [|apply bl_nil]. apply write_ok with (ps := []); [exact V|listed|constructor]. }
        apply define_one with (g := gInt); [apply y_zero|reflexivity| |].
        - rewrite uses_cons. cbn [declares write negb andb]. apply orb_true_iff. right. destruct READY as (_ & _ & NE & _). destruct KS as [K|K].
          + apply uses_app_left. unfold write_class, is_class. rewrite K. cbn [kind_eqb]. rewrite !uses_cons. cbn. now rewrite ?orb_true_r.
          + unfold write_class, is_class. rewrite K. cbn [kind_eqb app]. specialize (NE K). destruct (t_attrs t) as [|a r] eqn:AE; [congruence|].
            apply uses_app_left. rewrite uses_cons. cbn [declares String.eqb Ascii.eqb Bool.eqb negb andb used_in orb]. apply U. discriminate.
        - apply bl_statement; [apply write_ok with (ps := []); [reflexivity|listed|constructor]|]. apply block_app; [apply write_class_ok; exact S1|].
          destruct (t_attrs t) as [|a r] eqn:AE; [cbn [app]; now apply END|]. cbn [app]. apply bl_var with (g := gBool).
          + left. split; [apply (d_basic "bool"); cbn; auto|exact Logic.I].
          + reflexivity.
          + apply uses_app_left. apply U. discriminate.
          + apply block_app; [exact FS|now apply END].
      Qed.

      Section Read.
        Context (rs : list gotype) (named : bool).
        Notation block := (block pkg v fs rs named).

        Definition case_ok (c : env) (x : string * list stm) : Prop :=
          forall c', (forall y, y <> "field" -> variable c' y = variable c y) -> en_inner c' = [] -> block c' (snd x).

        Lemma or_bits_ok c m : variable c "object" = Some gObject -> mask_fits (GBasic (fst (bitmap_type t))) m -> statement pkg v fs rs named c (TOrBits (object_field "bitmap_") m).
        Proof. intros V M. eapply st_or_bits; [split; [apply field_at; [exact V|apply bitmap_field]|exact Logic.I]|exact M]. Qed.

        Lemma read_class_ok c x : variable c "object" = Some gObject -> variable c "iterator" = Some gIterator -> In x (read_class t) -> case_ok c x.
        Proof.
          intros V1 V2. unfold read_class, is_class. destruct (t_kind t) eqn:K; try contradiction. cbn [kind_eqb]. destruct READY as (F & _).
          assert (B : forall c' f m, variable c' "object" = Some gObject -> variable c' "iterator" = Some gIterator -> In f ["id"; "href"] -> In m [1; 2; 4]%Z ->
            block c' [TAssign [object_field f] (read "ReadString"); TOrBits (object_field "bitmap_") m]).
          { intros c' f m V V' I J. apply block_all. constructor; [|constructor; [apply or_bits_ok; auto; now apply class_masks|constructor]].
            eapply st_assign; [split; [apply field_at; [exact V|apply f_builtin; auto using here]|exact Logic.I]|]. apply x_same. eapply read_ok; [exact V'|listed]. }
          intros [<-|[<-|[<-|[]]]] c' O EI; cbn [snd]; pose proof (O "object" ltac:(discriminate)) as O1; pose proof (O "iterator" ltac:(discriminate)) as O2; rewrite V1 in O1; rewrite V2 in O2.
          - apply define_one with (g := gString); [eapply read_ok; [exact O2|listed]|now rewrite EI|reflexivity|]. apply bl_statement; [|apply bl_nil].
            apply st_if; [apply y_equal; [apply y_var; now vars|apply y_name, s_kind; cbn; auto using here]| |apply bl_nil]. apply bl_statement; [|apply bl_nil]. apply or_bits_ok; [now vars|]. apply class_masks; cbn; auto.
          - apply B; [assumption|assumption|cbn; auto|cbn; auto].
          - apply B; [assumption|assumption|cbn; auto|cbn; auto].
        Qed.

        Lemma read_attribute_ok c i a : In a (t_attrs t) -> (i < length (t_attrs t))%nat -> variable c "object" = Some gObject -> variable c "iterator" = Some gIterator ->
          exists l, JsonCodeModel.read_attribute pkg v t i a = Done ((attribute_name a, l), []) /\ case_ok c (attribute_name a, l).
        Proof.
          intros I LT V1 V2. destruct (attribute_type a I) as (ta & g & GA & A & R & S & HF). destruct READY as (F & _).
          unfold JsonCodeModel.read_attribute. change (type_at (a_type a) v) with (mget (a_type a) (v_types v)). rewrite GA.
          destruct (reads pkg v fs PKG STD NAMED FN rs named "value" (a_type a) ta (a_link a) g GA A R value_taken ltac:(discriminate)) as (l & -> & B).
          eexists. split; [reflexivity|]. intros c' O EI. cbn [snd]. pose proof (O "object" ltac:(discriminate)) as O1. pose proof (O "iterator" ltac:(discriminate)) as O2. rewrite V1 in O1. rewrite V2 in O2.
          apply B; [exact O2|intros y _; now rewrite EI|reflexivity|]. intros c2 W O'. assert (OB : variable c2 "object" = Some gObject) by (rewrite O' by (cbn; intuition discriminate); exact O1).
          apply block_all. constructor; [|constructor; [apply or_bits_ok; [exact OB|now apply bit_mask_fits]|constructor]].
          eapply st_assign; [split; [apply field_at; [exact OB|exact HF]|exact Logic.I]|apply x_same, y_var, W].
        Qed.

        Lemma read_attributes_ok c l i : (forall a, In a l -> In a (t_attrs t)) -> (i + length l <= length (t_attrs t))%nat -> variable c "object" = Some gObject -> variable c "iterator" = Some gIterator ->
          exists r, read_attributes pkg v t i l = Done (r, []) /\ map fst r = map attribute_name l /\ forall x, In x r -> case_ok c x.
        Proof.
          intros I LT V1 V2. revert i LT. induction l as [|a l IH]; intros i LT; [exists []; repeat split; auto; contradiction|].
          cbn [length] in LT. destruct (read_attribute_ok c i a) as (x & E & FS); [apply I; now left|lia|exact V1|exact V2|].
          destruct (IH (fun b J => I b (or_intror J)) (S i)) as (y & E' & N & FS'); [lia|].
          exists ((attribute_name a, x) :: y). cbn [read_attributes]. rewrite E, E'. split; [reflexivity|]. split; [cbn [map fst]; now rewrite N|]. intros z [<-|J]; auto.
        Qed.
      End Read.

      Lemma case_names l : map fst l = map attribute_name (t_attrs t) -> NoDup (map fst (read_class t ++ l)).
      Proof.
        intros E. rewrite map_app, E. destruct READY as (_ & (T1 & _ & T3) & _). unfold read_class, is_class. destruct (t_kind t) eqn:K; try exact T1. cbn [kind_eqb map fst app].
        specialize (T3 eq_refl). assert (X : forall s, In s ["kind"; "id"; "href"] -> ~ In s (map attribute_name (t_attrs t))).
        { intros s J H. apply in_map_iff in H as (a & <- & H). exact (T3 a H J). }
        constructor; [intros [H|[H|H]]; [discriminate|discriminate|exact (X "kind" (or_introl eq_refl) H)]|].
        constructor; [intros [H|H]; [discriminate|exact (X "id" (or_intror (or_introl eq_refl)) H)]|]. constructor; [exact (X "href" (or_intror (or_intror (or_introl eq_refl))))|exact T1].
      Qed.

      Lemma read_struct_ok : exists r, read_code pkg v t = Done (r, []) /\ compiles r /\ signature_of r = (read_func t, ["*jsoniter.Iterator"], ["*" ++ object_name t]).
      Proof.
        unfold read_code. pose (c0 := MkEnv [("iterator", gIterator)] [] false). pose (c1 := declare [("object", gObject)] c0).
        destruct (read_attributes_ok [gObject] false c1 (t_attrs t) 0 (fun a I => I) (le_n _) eq_refl eq_refl) as (l & E & N & FS). rewrite E. eexists. split; [reflexivity|]. split; [|reflexivity].
        exists [gIterator], [gObject]. cbn [fn_params fn_results fn_body map snd fst]. split; [constructor; [apply library_written; listed|constructor]|]. split; [constructor; [apply object_text|constructor]|].
        cbn [combine filter fst String.eqb negb app length Nat.eqb map]. split; [repeat constructor; cbn; intuition discriminate|]. split; [|intros _; eexists [_; _], _; reflexivity].
        change (MkEnv [("iterator", gIterator)] [] false) with c0. apply define_one with (g := gObject).
        - apply y_new. exists t. split; [apply here|auto].
        - reflexivity.
        - rewrite uses_cons. cbn [declares member_cases members negb andb]. replace (uses "object" _) with true by reflexivity. apply orb_true_r.
        - change (declare [("object", gObject)] c0) with c1. apply bl_statement; [|apply bl_statement; [|apply bl_nil]].
          + apply member_cases_ok; [reflexivity|now apply case_names|]. intros x J. apply in_app_or in J as [J|J]; [now apply read_class_ok|now apply FS].
          + apply st_return, accepts_one, y_var. reflexivity.
      Qed.

      Lemma struct_code_ok : exists l, struct_code pkg v t = Done (l, []) /\ Forall compiles l /\ map signature_of l = signatures pkg v k t.
      Proof.
        destruct write_struct_ok as (w & E1 & C1 & S1). destruct read_struct_ok as (r & E2 & C2 & S2). unfold struct_code. rewrite E1, E2. eexists. split; [reflexivity|].
        assert (TT : type_text pkg v k t = "*" ++ object_name t) by (unfold type_text; now destruct (struct_is t KS) as (_ & -> & _)).
        split; [|cbn [map]; rewrite S1, S2; unfold signatures; rewrite TT; reflexivity]. rewrite <- TT.
        constructor; [apply (marshal_ok "object" k t gObject); [cbn; auto|exact G|now left|apply object_is]|]. constructor; [exact C1|].
        constructor; [apply (unmarshal_ok "object" k t gObject); [cbn; auto|exact G|now left|apply object_is]|]. constructor; [exact C2|constructor].
      Qed.
    End Struct.

    (** ** Lists *)

    Lemma list_code_ok k t e te : mget k (v_types v) = Some t -> t_kind t = ListType -> t_element t = Some e -> mget e (v_types v) = Some te ->
      In (t_kind te) [ScalarType; EnumType; InterfaceType; ClassType; StructType] ->
      exists l, list_code pkg v k t e te = Done (l, []) /\ Forall compiles l /\ map signature_of l = signatures pkg v k t.
    Proof.
      intros G K E GE KE. assert (P : plain v t) by (exists e, te; auto). assert (C : coded v t) by (right; auto). pose proof (list_acceptable k t G K P) as A.
      pose proof (flat_acceptable v e te GE KE) as AE. destruct (shaped pkg v PKG STD NAMED e te false GE AE) as (h & R & S).
      assert (RL : represents v k false (GSlice h)) by now apply (r_slice v k t e).
      destruct (collection_text pkg v PKG STD NAMED k t (GSlice h) A G (or_introl K) RL) as (s & VR & D & DD).
      pose (c0 := MkEnv [("list", GSlice h); ("stream", gStream)] [] false). pose (c1 := inside (declare [("i", gInt); ("value", h)] (inside c0 true)) true).
      destruct (write_value_ok pkg v fs PKG STD NAMED FN [] true c1 (XVar "value") e te false h GE S) as (w & EW & FW & UW & DW).
      { intros c' O. apply y_var. rewrite O by (cbn; intuition discriminate). reflexivity. }
      { reflexivity. }
      destruct (reads pkg v fs PKG STD NAMED FN [GSlice h] false "item" e te false h GE AE R item_taken) as (r & ER & BR); [intros M; now apply not_map in KE|].
      unfold list_code. rewrite VR, EW, ER. eexists. split; [reflexivity|].
      assert (TT : type_text pkg v k t = rendered pkg s) by (unfold type_text; destruct (list_is t K) as (_ & -> & _); now rewrite VR). rewrite <- TT.
      split; [|reflexivity]. pose proof (text_written k t (GSlice h) G C RL) as W.
      constructor; [apply (marshal_ok "list" k t (GSlice h)); cbn; auto|]. constructor; [|constructor; [apply (unmarshal_ok "items" k t (GSlice h)); cbn; auto|constructor; [|constructor]]].
      - exists [GSlice h; gStream], []. cbn [fn_params fn_results fn_body map snd fst]. split; [constructor; [exact W|constructor; [apply library_written; listed|constructor]]|]. split; [constructor|].
        cbn [combine filter fst String.eqb negb app length Nat.eqb map]. split; [repeat constructor; cbn; intuition discriminate|]. split; [|congruence]. change (MkEnv _ [] false) with c0.
        apply block_all. constructor; [apply write_ok with (ps := []); [reflexivity|listed|constructor]|]. constructor; [|constructor; [apply write_ok with (ps := []); [reflexivity|listed|constructor]|constructor]].
        eapply st_range_items with (g := h); [apply y_var; reflexivity|discriminate|usage| |].
        + rewrite uses_cons. cbn [declares negb andb]. rewrite UW by reflexivity. apply orb_true_r.
        + change (inside _ true) with c1. apply block_all. constructor; [|exact FW]. apply st_if; [apply y_positive, y_var; reflexivity| |apply bl_nil].
          apply bl_statement; [|apply bl_nil]. apply write_ok with (ps := []); [reflexivity|listed|constructor].
      - exists [gIterator], [GSlice h]. cbn [fn_params fn_results fn_body map snd fst]. split; [constructor; [apply library_written; listed|constructor]|]. split; [constructor; [exact W|constructor]|].
        cbn [combine filter fst String.eqb negb app length Nat.eqb map]. split; [repeat constructor; cbn; intuition discriminate|]. split; [|intros _; eexists [_; _], _; reflexivity].
        apply define_one with (g := GSlice h); [eapply y_empty; [exact W|now left]|reflexivity| |].
        + rewrite uses_cons. cbn [declares negb andb]. replace (uses "list" [TReturn [XVar "list"]]) with true by reflexivity. apply orb_true_r.
        + apply bl_statement; [|apply bl_statement; [apply st_return, accepts_one, y_var; reflexivity|apply bl_nil]].
          apply st_while; [eapply read_ok; [reflexivity|listed]|]. apply BR; [reflexivity|intros y _; reflexivity|reflexivity|]. intros c' V O.
          assert (VL : variable c' "list" = Some (GSlice h)) by (rewrite O by (cbn; intuition discriminate); reflexivity).
          apply bl_statement; [|apply bl_nil]. eapply st_assign; [split; [apply y_var, VL|exact Logic.I]|]. apply x_same, y_append; [apply y_var, VL|apply x_same, y_var, V].
    Qed.

    Lemma type_code_ok k t : mget k (v_types v) = Some t -> (structural t -> type_ready v t) -> (t_kind t = ListType -> exists e te, t_element t = Some e /\ mget e (v_types v) = Some te) ->
      exists l, type_code pkg v k t = Done (l, []) /\ Forall compiles l /\ (coded v t -> map signature_of l = signatures pkg v k t).
    Proof.
      intros G RT RL. unfold type_code. destruct (t_kind t) eqn:K.
      2, 8: (assert (KS : structural t) by (unfold structural; auto); destruct (struct_code_ok k t G KS (RT KS)) as (l & E & C & S); destruct (struct_is t KS) as (_ & -> & _); exists l; auto).
      1-3, 5-6: (unfold is_struct, is_list; rewrite K; cbn [kind_eqb orb]; exists []; split; [reflexivity|]; split; [constructor|]; intros [[C|C]|(C & _)]; congruence).
      destruct (list_is t K) as (_ & I2 & I3 & _). rewrite I2, I3. destruct (RL eq_refl) as (e & te & E & GE). rewrite (element_at v t e te E GE).
      assert (X : In (t_kind te) [ScalarType; EnumType; InterfaceType; ClassType; StructType] /\ is_scalar te || is_struct te = true \/
                  ~ In (t_kind te) [ScalarType; EnumType; InterfaceType; ClassType; StructType] /\ is_scalar te || is_struct te = false).
      { unfold is_scalar, is_struct. destruct (t_kind te); cbn; intuition discriminate. }
      destruct X as [(X & ->)|(X & ->)].
      - destruct (list_code_ok k t e te G K E GE X) as (l & H1 & H2 & H3). exists l. auto.
      - exists []. split; [reflexivity|]. split; [constructor|]. intros [[C|C]|(_ & e' & te' & E' & GE' & KE')]; [congruence|congruence|]. exfalso. apply X. congruence.
    Qed.
  End Functions.
End Types.
