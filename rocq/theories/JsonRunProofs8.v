(** Proofs about the execution of the code that reads JSON documents: values, objects and lists. *)
From Coq Require Import Ascii String Bool Arith ZArith NArith Lia Permutation List.
From Verif Require Import GoStrings GoMap GoMapProofs NamesModel ConceptsModel ReporterModel BindingModel GoNamesModel GoTimeModel DeclsModel DeclsSpec DeclsProofs ChecksModel GoTypesModel GoTypesSpec GoTypesProofs GoTypesProofs2 GoTypesProofs3
  ObjectsModel ObjectsSpec ObjectsProofs ObjectsProofs2 JsonModel JsonSpec JsonProofs3 JsonProofs4 JsonProofs5 JsonProofs6 JsonCodeModel JsonCodeSpec JsonRunSpec JsonRunProofs JsonRunProofs2 JsonRunProofs3 JsonRunProofs4 JsonRunProofs5 JsonRunProofs6 JsonRunProofs7.
Import ListNotations.
Local Open Scope string_scope.

(** * Fields *)

Lemma mget_none {A} k (l : list (string * A)) : ~ In k (map fst l) -> mget k l = None.
Proof. induction l as [|[k' a] l IH]; intros N; [reflexivity|]. cbn in *. destruct (String.eqb_spec k k') as [->|E]; [exfalso; apply N; now left|]. apply IH. tauto. Qed.
Lemma mset_app_r {A} k (a : A) l m : ~ In k (map fst l) -> mset k a (l ++ m)%list = (l ++ mset k a m)%list.
Proof. induction l as [|[k' b] l IH]; intros N; [reflexivity|]. cbn in *. destruct (String.eqb_spec k k') as [->|E]; [exfalso; apply N; now left|]. f_equal. apply IH. tauto. Qed.
Lemma set_zip {A} (name : attribute -> string) (h : attribute -> A -> gv) : forall l i a (x : A) ys, NoDup (map name l) -> nth_error l i = Some a -> length ys = length l ->
  mset (name a) (h a x) (zip_with (fun b y => (name b, h b y)) l ys) = zip_with (fun b y => (name b, h b y)) l (set_nth i x ys) /\
  mget (name a) (zip_with (fun b y => (name b, h b y)) l ys) <> None.
Proof.
  induction l as [|b l IH]; intros i a x ys N E L; [destruct i; discriminate|]. destruct ys as [|y ys]; [discriminate|]. cbn in N. inversion N as [|? ? Nb Nl]; subst.
  destruct i as [|i]; cbn in E.
  - injection E as ->. cbn. rewrite String.eqb_refl. split; [reflexivity|discriminate].
  - cbn. destruct (String.eqb_spec (name a) (name b)) as [X|X]; [exfalso; apply Nb; rewrite <- X; now apply in_map, (nth_error_In l i)|].
    destruct (IH i a x ys Nl E ltac:(now injection L)) as [H1 H2]. split; [now rewrite H1|exact H2].
Qed.
Lemma field_names t a : NoDup (object_fields t) -> In a (t_attrs t) -> attribute_field a <> "bitmap_" /\ (is_class t = true -> attribute_field a <> "id" /\ attribute_field a <> "href").
Proof.
  intros N I. unfold object_fields in N.
  assert (J : In (attribute_field a) (map attribute_field (filter (fun a => negb (is_builtin nBoolean (a_type a))) (t_attrs t)) ++ map attribute_field (filter (fun a => is_builtin nBoolean (a_type a)) (t_attrs t)))%list).
  { apply in_or_app. destruct (is_builtin nBoolean (a_type a)) eqn:E; [right|left]; apply in_map, filter_In; rewrite E; auto. }
  cbn [app] in N. inversion N as [|? ? N1 N2]; subst. split; [intros E; apply N1; rewrite <- E; apply in_or_app; now right|].
  intros K. rewrite K in N2. cbn [app] in N2. inversion N2 as [|? ? N3 N4]; subst. inversion N4 as [|? ? N5 N6]; subst.
  split; intros E; [apply N3; right|apply N5]; now rewrite <- E.
Qed.
Lemma nodup_fields t : NoDup (object_fields t) -> NoDup (map attribute_field (t_attrs t)).
Proof.
  intros N. unfold object_fields in N. apply nodup_app in N. destruct N as (_ & N & _). apply nodup_app in N. destruct N as (_ & N & _).
  rewrite <- map_app in N. eapply Permutation_NoDup; [|exact N]. apply Permutation_map. clear. induction (t_attrs t) as [|a l IH]; [constructor|]. cbn [filter].
  destruct (is_builtin nBoolean (a_type a)); cbn [negb app].
  - eapply Permutation_trans; [apply Permutation_sym, Permutation_middle|]. now constructor.
  - now constructor.
Qed.

(** * Cases *)

Lemma find_case pkg v t f : forall l i cases rs, read_attributes pkg v t i l = Done (cases, rs) ->
  match find_tag f i l with
  | Some (j, a) => exists d ta code rs', j = i + d /\ nth_error l d = Some a /\ type_at (a_type a) v = Some ta /\ JsonCodeModel.read_value pkg v "value" (a_type a) ta (a_link a) = Done (code, rs') /\
      find (fun c => String.eqb f (fst c)) cases = Some (attribute_name a, (code ++ [TAssign [object_field (attribute_field a)] (XVar "value"); TOrBits (object_field "bitmap_") (bit_mask t j)])%list)
  | None => find (fun c : string * list stm => String.eqb f (fst c)) cases = None
  end.
Proof.
  induction l as [|a l IH]; intros i cases rs H; cbn [read_attributes find_tag] in *; [now injection H as <- <-|].
  destruct (read_attribute pkg v t i a) as [[x rx]| |] eqn:E; try discriminate. destruct (read_attributes pkg v t (S i) l) as [[y ry]| |] eqn:El; try discriminate. injection H as <- <-.
  unfold read_attribute in E. destruct (type_at (a_type a) v) as [ta|] eqn:T; [|discriminate]. destruct (JsonCodeModel.read_value pkg v "value" (a_type a) ta (a_link a)) as [[code rc]| |] eqn:R; try discriminate.
  injection E as <- <-. cbn [find fst]. destruct (String.eqb f (attribute_name a)) eqn:F.
  - exists 0, ta, code, rc. rewrite Nat.add_0_r. auto.
  - specialize (IH (S i) y ry El). replace (i + 1) with (S i) by lia. destruct (find_tag f (S i) l) as [[j b]|]; [|exact IH].
    destruct IH as (d & tb & cb & rb & Ej & Ed & Rest). exists (S d), tb, cb, rb. split; [lia|]. split; [exact Ed|exact Rest].
Qed.

Section Version.
  Context (o : oracle) (pkg : string) (v : version) (fs : list func) (structures : string -> option (list (string * gv))) (limit : nat).
  Context (PKG : package_path pkg) (STD : standard v) (NAMED : named_well v) (READY : json_ready v).
  Context (CODE : json_code pkg v = Done (fs, [])) (ONCE : declared_once v fs) (DECL : declares v structures).
  Notation constants := (kind_constants v).
  Notation C := (call_function o constants structures fs limit).
  Notation eval n := (eval o constants structures limit (C n)).
  Notation exec n := (exec o constants structures limit (C n)).
  Notation blk n := (block o constants structures limit (C n)).
  Notation puts n := (puts o constants structures limit (C n)).

  Lemma time_parse n a y s : C (S n) "time.Parse" [a; RString y] s = Gives (RTuple (match parse_rfc3339 y with Some d => [RDate d; RNil] | None => [RDate zero_date; RError] end)) s.
  Proof. cbn [call_function]. rewrite (not_declared v fs ONCE "time.Parse" ltac:(cbn; tauto)). reflexivity. Qed.
  Lemma new_iterator n a s : C (S n) "helpers.NewIterator" [a] s = Gives (RTuple [RIterator; RNil]) s.
  Proof. cbn [call_function]. rewrite (not_declared v fs ONCE "helpers.NewIterator" ltac:(cbn; tauto)). reflexivity. Qed.

  Lemma kind_constant t c y : In t (types v) -> is_struct t = true -> (is_class t = true /\ In (c, y) (kinds_of (object_name t))) \/ In (c, y) (kinds_of (list_name t)) -> mget c constants = Some y.
  Proof.
    intros T S H. apply mget_in_iff; [exact (proj1 (proj2 (proj2 ONCE)))|]. unfold kind_constants. apply in_flat_map. exists t. split; [exact T|]. rewrite S.
    apply in_or_app. destruct H as [[-> H]|H]; [now left|now right].
  Qed.

  (** The object in the variable. *)
  Definition shown (t : typ) (b : object) : gv :=
    run_struct t (o_bits b) (o_id b) (o_href b) (zip_with (fun a y => (attribute_field a, run_value v (a_type a) y)) (t_attrs t) (o_fields b)).
  Definition reader (t : typ) (b : object) : frames := [[("iterator", RIterator); ("object", shown t b)]].
  Definition full (t : typ) (b : object) : Prop := length (o_fields b) = length (t_attrs t).

  Lemma assign_field t i a x b : NoDup (object_fields t) -> full t b -> nth_error (t_attrs t) i = Some a ->
    exists l, shown t b = RStruct l /\ mget (attribute_field a) l <> None /\
      RStruct (mset (attribute_field a) (run_value v (a_type a) x) l) = shown t (MkObject (o_bits b) (o_id b) (o_href b) (set_nth i x (o_fields b))).
  Proof.
    intros N F E. assert (I : In a (t_attrs t)) by now apply (nth_error_In (t_attrs t) i). destruct (field_names t a N I) as [N1 N2].
    destruct (set_zip attribute_field (fun a y => run_value v (a_type a) y) (t_attrs t) i a x (o_fields b) (nodup_fields t N) E F) as [S1 S2].
    unfold shown, run_struct. eexists. split; [reflexivity|]. cbn [o_bits o_id o_href o_fields]. rewrite <- S1.
    cbn [mget mset]. replace (String.eqb (attribute_field a) "bitmap_") with false by (symmetry; now apply String.eqb_neq).
    destruct (is_class t); cbn [app mget mset]; [|split; [exact S2|reflexivity]].
    destruct (N2 eq_refl) as [N3 N4]. replace (String.eqb (attribute_field a) "id") with false by (symmetry; now apply String.eqb_neq).
    replace (String.eqb (attribute_field a) "href") with false by (symmetry; now apply String.eqb_neq). split; [exact S2|reflexivity].
  Qed.

  (** * The functions *)

  Lemma read_function k t : mget k (v_types v) = Some t -> structural t -> exists cases rs, read_attributes pkg v t 0 (t_attrs t) = Done (cases, rs) /\
    In (MkFunc (read_func t) [("iterator", "*jsoniter.Iterator")] [("", "*" ++ object_name t)]
          [TDefine ["object"] (XNew (object_name t)); member_cases (read_class t ++ cases); TReturn [XVar "object"]]) fs /\
    In (unmarshal_code "object" ("*" ++ object_name t) t) fs.
  Proof.
    intros G K. destruct (type_functions pkg v fs [] CODE ONCE k t G) as (l & rs & E & I). unfold type_code in E.
    replace (is_struct t) with true in E by (unfold is_struct; destruct K as [K|K]; rewrite K; reflexivity).
    unfold struct_code, read_code in E. destruct (write_code v t) as [w| |]; try discriminate.
    destruct (read_attributes pkg v t 0 (t_attrs t)) as [[cases rc]| |] eqn:Ea; try discriminate. injection E as <- <-.
    exists cases, rc. split; [reflexivity|]. split; apply I; cbn; auto.
  Qed.
  Lemma read_list_function k t ke te : mget k (v_types v) = Some t -> t_kind t = ListType -> plain v t -> t_element t = Some ke -> mget ke (v_types v) = Some te ->
    exists text code rs, (exists y, text = "[]" ++ y) /\ JsonCodeModel.read_value pkg v "item" ke te false = Done (code, rs) /\
    In (MkFunc (read_func t) [("iterator", "*jsoniter.Iterator")] [("", text)]
          [TDefine ["list"] (XEmpty text); TWhile (read "ReadArray") (code ++ [TAssign [XVar "list"] (XAppend (XVar "list") (XVar "item"))]); TReturn [XVar "list"]]) fs /\
    In (unmarshal_code "items" text t) fs.
  Proof.
    intros G K (ke' & te' & El' & Ge' & Ki) El Ge. rewrite El in El'. injection El' as EK; subst ke'. rewrite Ge in Ge'. injection Ge' as <-.
    destruct (type_functions pkg v fs [] CODE ONCE k t G) as (l & rs & E & I). unfold type_code, is_struct, is_list in E. rewrite K in E. cbn [kind_eqb orb] in E.
    unfold element_of, type_at in E. rewrite El, Ge in E.
    replace (is_scalar te || (kind_eqb (t_kind te) ClassType || kind_eqb (t_kind te) StructType)) with true in E
      by (unfold is_scalar; cbn in Ki; repeat (destruct Ki as [<-|Ki]; [reflexivity|]); contradiction).
    unfold list_code in E. destruct (value_reference pkg v k t) as [[sr l1]| |] eqn:V; try discriminate.
    destruct (JsonCodeModel.write_value v (XVar "value") ke te false) as [code| |] eqn:Ew; try discriminate.
    destruct (JsonCodeModel.read_value pkg v "item" ke te false) as [[rr l2]| |] eqn:Er; try discriminate. injection E as <- <-.
    exists (rendered pkg sr), rr, l2. split; [|split; [reflexivity|split; apply I; cbn; auto]].
    rewrite (list_value pkg v STD k t G K) in V. assert (D : dotless "[]") by now apply dotlessb_sound.
    assert (Ki' : In (t_kind te) [ScalarType; EnumType; InterfaceType] \/ structural te) by (unfold structural; cbn in *; intuition).
    destruct Ki' as [Ki'|Ki'].
    - destruct (collection_scalar pkg v PKG STD NAMED "[]" t ke te El Ge Ki' D) as (r & g & _ & _ & _ & V' & _ & _ & _ & _ & R). rewrite V in V'. assert (X : forall a b (c d : list report), Done (a, c) = Done (b, d) -> rendered pkg a = rendered pkg b) by (intros * Q; now injection Q as ->). rewrite (X _ _ _ _ V'), R. eexists. reflexivity.
    - destruct (collection_struct pkg v PKG STD NAMED "[]" t ke te El Ge Ki' D) as (r & V' & R & _). rewrite V in V'. assert (X : forall a b (c d : list report), Done (a, c) = Done (b, d) -> rendered pkg a = rendered pkg b) by (intros * Q; now injection Q as ->). rewrite (X _ _ _ _ V'), R. eexists. reflexivity.
  Qed.
  Lemma map_text k t ke te r l : mget k (v_types v) = Some t -> t_kind t = MapType -> plain v t -> t_element t = Some ke -> mget ke (v_types v) = Some te ->
    value_reference pkg v k t = Done (r, l) -> String.prefix "map[" (rendered pkg r) = true.
  Proof.
    intros G K (ke' & te' & El' & Ge' & Ki) El Ge V. rewrite El in El'. injection El' as EK; subst ke'. rewrite Ge in Ge'. injection Ge' as <-.
    rewrite (map_value pkg v STD k t G K) in V. assert (D : dotless "map[string]") by now apply dotlessb_sound.
    assert (Ki' : In (t_kind te) [ScalarType; EnumType; InterfaceType] \/ structural te) by (unfold structural; cbn in *; intuition).
    destruct Ki' as [Ki'|Ki'].
    - destruct (collection_scalar pkg v PKG STD NAMED "map[string]" t ke te El Ge Ki' D) as (r' & g & _ & _ & _ & V' & _ & _ & _ & _ & R). rewrite V in V'. assert (X : forall a b (c d : list report), Done (a, c) = Done (b, d) -> rendered pkg a = rendered pkg b) by (intros * Q; now injection Q as ->). now rewrite (X _ _ _ _ V'), R.
    - destruct (collection_struct pkg v PKG STD NAMED "map[string]" t ke te El Ge Ki' D) as (r' & V' & R & _). rewrite V in V'. assert (X : forall a b (c d : list report), Done (a, c) = Done (b, d) -> rendered pkg a = rendered pkg b) by (intros * Q; now injection Q as ->). now rewrite (X _ _ _ _ V'), R.
  Qed.
End Version.
