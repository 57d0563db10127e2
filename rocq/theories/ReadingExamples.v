(** Examples used to show that the hypotheses of the theorems about reading can be satisfied. *)
From Coq Require Import Ascii String Bool Arith ZArith NArith Lia List.
From Verif Require Import OpenapiSpec OpenapiExamples ConformSpec ConformProofs2 ConformProofs3 ConformExamples.
From Verif Require Import GoStrings GoMap GoMapProofs NamesModel ConceptsModel ReporterModel BindingModel GoNamesModel GoTimeModel BufferModel BufferExamples ChecksSpec
  HelpersModel ObjectsModel ObjectsSpec ObjectsProofs2 ObjectsExamples JsonModel JsonSpec JsonProofs JsonProofs3 JsonProofs6 JsonProofs7 JsonProofs8 JsonExamples JsonTextProofs3 ReadingSpec ReadingProofs5 ReadingProofs6.
Import ListNotations.
Local Open Scope string_scope.

(** * Decision procedures *)

Definition soundb (v : version) : bool :=
  forallb (fun p => match t_kind (snd p) with
    | ClassType | StructType => knownb v (snd p)
    | ListType | MapType => match t_element (snd p) with Some e => match mget e (v_types v) with Some _ => true | None => false end | None => false end
    | _ => true
    end) (v_types v).
Lemma soundb_sound v : soundb v = true -> sound v.
Proof.
  unfold soundb. rewrite forallb_forall. intros H k t G. specialize (H _ (mget_in _ _ _ G)). cbn [snd] in H. unfold structural. split.
  - intros [K|K]; rewrite K in H; now apply knownb_sound.
  - intros K. cbn in K. destruct K as [K|[K|[]]]; rewrite <- K in H; (destruct (t_element t) as [e|]; [|discriminate]); destruct (mget e (v_types v)) as [te|] eqn:E; try discriminate; eauto.
Qed.

Fixpoint shapedb (v : version) (k : key) (link : bool) (j : json) {struct j} : bool :=
  match mget k (v_types v) with
  | None => true
  | Some t =>
      let s := match t_kind t with ClassType | StructType => true | _ => false end in
      match j with
      | JObj ms =>
          forallb (fun p => (negb s || forallb (fun a => negb (String.eqb (attribute_name a) (fst p)) || shapedb v (a_type a) (a_link a) (snd p)) (t_attrs t)) &&
                            (negb (kind_eqb (t_kind t) MapType) || match t_element t with Some e => shapedb v e false (snd p) | None => true end)) ms
      | JArr l => negb s && (negb (kind_eqb (t_kind t) ListType) || (negb link && match t_element t with Some e => forallb (shapedb v e false) l | None => true end))
      | _ => negb s
      end
  end.
Lemma shapedb_sound v : forall j k link, shapedb v k link j = true -> shaped v k link j.
Proof.
  assert (Ns : forall t, negb (match t_kind t with ClassType | StructType => true | _ => false end) = true -> ~ structural t).
  { intros t H [K|K]; rewrite K in H; discriminate H. }
  induction j as [|b|s|s|l IH|ms IH] using json_ind2; intros k link H; cbn [shaped shapedb] in *; destruct (mget k (v_types v)) as [t|]; auto.
  - rewrite andb_true_iff in H. destruct H as [H1 H2]. split; [now apply Ns|]. intros K. rewrite K in H2. cbn [kind_eqb negb orb] in H2. rewrite andb_true_iff, negb_true_iff in H2. destruct H2 as [-> H2].
    split; [reflexivity|]. intros e E. rewrite E in H2. eapply all1b_sound; [|exact H2]. eapply Forall_impl; [|exact IH]. cbn. auto.
  - eapply all1b_sound; [|exact H]. eapply Forall_impl; [|exact IH]. cbn beta. intros [f j] Hj. cbn [fst snd] in *. rewrite andb_true_iff. intros [H1 H2]. split.
    + intros St a Ia E. apply orb_true_iff in H1 as [H1|H1]; [exfalso; exact (Ns _ H1 St)|]. rewrite forallb_forall in H1. specialize (H1 a Ia). rewrite E, String.eqb_refl in H1. cbn in H1. auto.
    + intros K e E. rewrite K in H2. cbn [kind_eqb negb orb] in H2. rewrite E in H2. auto.
Qed.

Fixpoint reads_numbersb (o : oracle) (j : json) : bool :=
  match j with
  | JNum s => match parse_float o s with Some _ => true | None => false end
  | JArr l => forallb (reads_numbersb o) l
  | JObj ms => forallb (fun p => reads_numbersb o (snd p)) ms
  | _ => true
  end.
Lemma reads_numbersb_sound o : forall j, reads_numbersb o j = true -> reads_numbers o j.
Proof.
  induction j as [|b|s|s|l IH|ms IH] using json_ind2; cbn; auto.
  - destruct (parse_float o s); discriminate.
  - intros H. eapply all1b_sound; [|exact H]. eapply Forall_impl; [|exact IH]. cbn. auto.
  - intros H. eapply all1b_sound; [|exact H]. eapply Forall_impl; [|exact IH]. cbn. auto.
Qed.

(** Documents whose numbers are integers. *)
Fixpoint integersb (j : json) : bool :=
  match j with
  | JNum s => match parse_int s with Some z => String.eqb s (itoa_z z) | None => false end
  | JArr l => forallb integersb l
  | JObj ms => forallb (fun p => integersb (snd p)) ms
  | _ => true
  end.
Lemma integersb_sound : forall j, integersb j = true -> well_formed j.
Proof.
  induction j as [|b|s|s|l IH|ms IH] using json_ind2; cbn; auto.
  - destruct (parse_int s) as [z|]; [|discriminate]. intros E. apply String.eqb_eq in E. rewrite E. apply integer_number.
  - intros H. eapply all1b_sound; [|exact H]. eapply Forall_impl; [|exact IH]. cbn. auto.
  - intros H. eapply all1b_sound; [|exact H]. eapply Forall_impl; [|exact IH]. cbn. auto.
Qed.

Lemma ex_w_sound : sound ex_w.
Proof. apply soundb_sound. vm_compute. reflexivity. Qed.
Lemma ex_writes_numbers : writes_numbers ex_oracle.
Proof.
  intros s z E. cbn [parse_float ex_oracle] in E. cbn [format_float ex_oracle]. apply parsed_range in E. unfold ex_format.
  rewrite (proj2 (Z.leb_le _ _) (proj1 E)), (proj2 (Z.leb_le _ _) (proj2 E)). discriminate.
Qed.

(** * A document *)

(** It has a repeated member, members that aren't known, a null, and a list of links. *)
Definition ex_read_doc : json :=
  JObj [("kind", JStr "Thing"); ("id", JStr "123"); ("name", JStr "first"); ("count", JNum "-5"); ("unknown", JArr [JNull; JObj [("x", JNum "1")]]);
        ("labels", JObj [("b", JStr "2"); ("a", JStr "1"); ("b", JStr "3")]); ("node", JObj [("size", JNum "7"); ("name", JNull)]); ("nodes", JNull);
        ("when", JStr "2024-02-29T10:20:30.25+01:00"); ("name", JStr "last"); ("any", JArr [JNum "1"; JBool true; JObj [("k", JNull)]]);
        ("children", JObj [("kind", JStr "ThingListLink"); ("href", JStr "/children"); ("items", JArr [JObj [("id", JStr "4")]])])].
Definition ex_read_object : object := Eval vm_compute in match unmarshal_object ex_oracle ex_w ex_wt (tokens ex_read_doc) with Ok b _ => b | _ => new_builder ex_w ex_wt end.
Lemma ex_read_ok : clean ex_read_doc /\ well_formed ex_read_doc /\ unmarshal_object ex_oracle ex_w ex_wt (tokens ex_read_doc) = Ok ex_read_object [].
Proof. split; [apply cleanb_sound; vm_compute; reflexivity|]. split; [apply integersb_sound; vm_compute; reflexivity|]. vm_compute. reflexivity. Qed.

(** The document of the object with all the attributes conforms to the published schema. *)
Definition ex_whole_doc : json := Eval vm_compute in match parse_json 1000 ex_whole_tokens with Ok j _ => j | _ => JNull end.
Lemma ex_whole_conforms : ex_whole_tokens = tokens ex_whole_doc /\ conforms ex_doc (JObj [("$ref", JStr ("#/components/schemas/" ++ camel (t_name ex_wt)))]) ex_whole_doc.
Proof.
  assert (E : ex_whole_tokens = tokens ex_whole_doc) by (vm_compute; reflexivity). split; [exact E|].
  destruct (published_objects _ _ _ _ _ _ _ _ ex_conform_published ex_w_standard ex_w_compiles ex_w_distinct ex_oracle "thing" ex_wt ex_whole ex_whole_tokens
    ex_faithful ex_wt_type ex_wt_structural ex_whole_typed ex_whole_publishable ex_whole_written) as (j & Q & H). rewrite E in Q. apply tokens_unique in Q. now subst.
Qed.
Lemma ex_whole_shaped : shaped ex_w "thing" false ex_whole_doc /\ clean ex_whole_doc /\ well_formed ex_whole_doc /\ reads_numbers ex_oracle ex_whole_doc.
Proof.
  split; [apply shapedb_sound; vm_compute; reflexivity|]. split; [apply cleanb_sound; vm_compute; reflexivity|]. split; [apply integersb_sound; vm_compute; reflexivity|].
  apply reads_numbersb_sound. vm_compute. reflexivity.
Qed.

(** An attribute that is a list of links. *)
Lemma ex_children_attribute : exists a ta, In a (t_attrs ex_wt) /\ a_link a = true /\ attribute_name a = "children" /\ mget (a_type a) (v_types ex_w) = Some ta /\ t_kind ta = ListType.
Proof.
  assert (H : match nth_error (t_attrs ex_wt) 1 with
    | Some a => a_link a && String.eqb (attribute_name a) "children" && match mget (a_type a) (v_types ex_w) with Some ta => kind_eqb (t_kind ta) ListType | None => false end
    | None => false end = true) by (vm_compute; reflexivity).
  destruct (nth_error (t_attrs ex_wt) 1) as [a|] eqn:E; [|discriminate]. rewrite !andb_true_iff, String.eqb_eq in H. destruct H as [[H1 H2] H3]. destruct (mget (a_type a) (v_types ex_w)) as [ta|] eqn:G; [|discriminate].
  exists a, ta. apply nth_error_In in E. apply kind_eqb_true in H3. exact (conj E (conj H1 (conj H2 (conj G H3)))).
Qed.

(** What the document means. *)
Lemma ex_read_values : nth_error (o_fields ex_read_object) 6 = Some (VScalar (SString "last")) /\ nth_error (o_fields ex_read_object) 4 = Some (VMap [("a", VScalar (SString "1")); ("b", VScalar (SString "3"))]) /\
  nth_error (o_fields ex_read_object) 8 = Some (VSlice []) /\ present ex_wt 8 ex_read_object /\ ~ present ex_wt 11 ex_read_object /\
  nth_error (o_fields ex_read_object) 13 = Some (VScalar (SDate (MkDate 2024 2 29 10 20 30 250000000 3600))) /\
  exists c, nth_error (o_fields ex_read_object) 1 = Some (VList "/children" true (VSlice [VObject c])) /\ o_id c = "4".
Proof.
  split; [vm_compute; reflexivity|]. split; [vm_compute; reflexivity|]. split; [vm_compute; reflexivity|]. split; [vm_compute; reflexivity|]. split; [vm_compute; discriminate|]. split; [vm_compute; reflexivity|].
  eexists. split; vm_compute; reflexivity.
Qed.

Lemma structural_usable v k t : mget k (v_types v) = Some t -> structural t -> usable v k.
Proof. intros G K t' G' K'. exfalso. rewrite G in G'. injection G' as <-. destruct K as [K|K], K' as [K'|[K'|[]]]; congruence. Qed.
Definition ex_read_list : json := JArr [ex_read_doc; JNull].
Definition ex_read_items : list value := [VObject ex_read_object; VObject (new_builder ex_w ex_wt)].
Lemma ex_read_list_ok : clean ex_read_list /\ well_formed ex_read_list /\ unmarshal_list ex_oracle ex_w "thing" (tokens ex_read_list) = Ok ex_read_items [].
Proof. split; [apply cleanb_sound; vm_compute; reflexivity|]. split; [apply integersb_sound; vm_compute; reflexivity|]. vm_compute. reflexivity. Qed.

(** The list of that document. *)
Definition ex_thing_schema : list (string * json) := [("$ref", JStr ("#/components/schemas/" ++ camel (t_name ex_wt)))].
Definition ex_list_type : typ := match mget "thing_list" (v_types ex_w) with Some t => t | None => ex_wt end.
Lemma ex_list_schema : mget "thing_list" (v_types ex_w) = Some ex_list_type /\ t_kind ex_list_type = ListType /\ t_element ex_list_type = Some "thing" /\
  type_schema ex_w "thing_list" [("type", JStr "array"); ("items", JObj ex_thing_schema)].
Proof.
  assert (G : mget "thing_list" (v_types ex_w) = Some ex_list_type) by (vm_compute; reflexivity).
  assert (K : t_kind ex_list_type = ListType) by (vm_compute; reflexivity). assert (E : t_element ex_list_type = Some "thing") by (vm_compute; reflexivity).
  split; [exact G|]. split; [exact K|]. split; [exact E|]. apply (ts_list ex_w "thing_list" ex_list_type "thing" ex_thing_schema G); [cbn; intuition discriminate|exact K|exact E|].
  apply (ts_named ex_w "thing" ex_wt ex_wt_type); [cbn; intuition discriminate|]. destruct ex_wt_structural as [Q|Q]; rewrite Q; cbn; tauto.
Qed.
Lemma array_conforms doc l j : conforms doc (JObj l) j -> conforms doc (JObj [("type", JStr "array"); ("items", JObj l)]) (JArr [j]).
Proof.
  intros H. apply conforms_keywords; cbn; try (intros; keys; fail); try (intuition discriminate).
  - intros t E. keys. do 5 right. split; [reflexivity|eauto].
  - intros s xs x E Q Ix. injection Q as <-. destruct Ix as [<-|[]]. keys. exact H.
Qed.
Lemma ex_list_conforms : conforms ex_doc (JObj [("type", JStr "array"); ("items", JObj ex_thing_schema)]) (JArr [ex_whole_doc]) /\
  shaped ex_w "thing_list" false (JArr [ex_whole_doc]) /\ clean (JArr [ex_whole_doc]) /\ well_formed (JArr [ex_whole_doc]) /\ reads_numbers ex_oracle (JArr [ex_whole_doc]).
Proof.
  destruct ex_whole_shaped as (_ & A & B & D). split; [|split; [apply shapedb_sound; vm_compute; reflexivity|exact (conj (conj A I) (conj (conj B I) (conj D I)))]].
  exact (array_conforms _ _ _ (proj2 ex_whole_conforms)).
Qed.
Lemma lossless_object v k t b : mget k (v_types v) = Some t -> lossless v k (VObject b) -> object_lossless v t b.
Proof. intros G H. cbn in H. rewrite G in H. exact H. Qed.
Definition ex_again : object := Eval vm_compute in match unmarshal_object ex_oracle ex_w ex_wt ex_whole_tokens with Ok b _ => b | _ => new_builder ex_w ex_wt end.
Lemma ex_again_ok : unmarshal_object ex_oracle ex_w ex_wt ex_whole_tokens = Ok ex_again [] /\ object_lossless ex_w ex_wt ex_again.
Proof. split; [vm_compute; reflexivity|]. apply (lossless_object ex_w "thing" ex_wt ex_again ex_wt_type). apply losslessb_sound. vm_compute. reflexivity. Qed.
