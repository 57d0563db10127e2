(** Examples used to show that the hypotheses of the theorems about conformance can be satisfied, and counterexamples. *)
From Coq Require Import Ascii String Bool Arith ZArith NArith Lia List.
From Verif Require Import OpenapiSpec OpenapiProofs5 OpenapiExamples.
From Verif Require Import ConformSpec ConformProofs ConformProofs2 ConformProofs3.
From Verif Require Import GoStrings GoMap GoMapProofs NamesModel ConceptsModel ReporterModel BindingModel BindingSpec GoNamesModel GoTimeModel ReaderModel ReaderSpec ReaderExamples BufferModel ChecksModel OpenapiModel BufferExamples ChecksSpec
  HelpersModel HelpersSpec HelpersExamples ObjectsModel ObjectsSpec ObjectsProofs2 ObjectsExamples JsonModel JsonSpec JsonProofs3 JsonProofs5 JsonProofs6 JsonProofs8 JsonExamples JsonTextModel JsonTextSpec ApiErrorModel RequestModel RequestSpec RequestExamples.
Import ListNotations.
Local Open Scope string_scope.

(** * Decision procedures *)

Definition calendarb (d : date) : bool :=
  Z.leb 0 (d_year d) && Z.leb (d_year d) 9999 && (Z.leb 1 (d_month d) && Z.leb (d_month d) 12) &&
  (Z.leb 1 (d_day d) && Z.leb (d_day d) (days_in (d_year d) (d_month d))) &&
  (Z.leb 0 (d_hour d) && Z.ltb (d_hour d) 24) && (Z.leb 0 (d_minute d) && Z.ltb (d_minute d) 60) &&
  (Z.leb 0 (d_second d) && Z.ltb (d_second d) 60) &&
  (Z.eqb (d_offset d) (d_offset d / 60 * 60) && (Z.ltb (-1440) (d_offset d / 60) && Z.ltb (d_offset d / 60) 1440)).
Lemma calendarb_sound d : calendarb d = true -> calendar_date d.
Proof.
  unfold calendarb, calendar_date. rewrite !andb_true_iff, !Z.leb_le, !Z.ltb_lt, !Z.eqb_eq. intros H.
  repeat (split; [lia|]). exists (d_offset d / 60)%Z. lia.
Qed.

Definition scalarb (k : key) (t : typ) (s : scalar) : bool :=
  match s with
  | SBool _ | SFloat _ => true
  | SInt z => negb (String.eqb k "integer") || (Z.leb (- 2 ^ 31) z && Z.ltb z (2 ^ 31))
  | SString w => negb (kind_eqb (t_kind t) EnumType) || existsb (String.eqb w) (map enum_value_name (t_values t))
  | SDate d => calendarb d
  | SAny a => match a with AMap _ => true | _ => false end
  end.
Lemma scalarb_sound k t s : scalarb k t s = true -> publishable_scalar k t s.
Proof.
  destruct s as [b|z|z|w|d|a]; cbn [scalarb publishable_scalar]; auto.
  - intros H ->. rewrite String.eqb_refl in H. cbn [negb orb] in H. rewrite andb_true_iff, Z.leb_le, Z.ltb_lt in H. exact H.
  - intros H K. rewrite K in H. cbn [kind_eqb negb orb] in H. apply existsb_exists in H as (y & I & E). apply String.eqb_eq in E. now subst.
  - apply calendarb_sound.
  - destruct a; try discriminate. eauto.
Qed.

Fixpoint publishableb (v : version) (k : key) (x : value) {struct x} : bool :=
  match mget k (v_types v) with
  | None => false
  | Some t =>
      match x with
      | VScalar s => scalarb k t s
      | VNil => true
      | VObject b =>
          all_fieldsb (fun i a x => negb (N.testbit (o_bits b) (N.of_nat (reserved t + i))) || publishableb v (a_type a) x) 0 (t_attrs t) (o_fields b)
      | VSlice l => match t_element t with Some e => forallb (publishableb v e) l | None => false end
      | VList _ _ _ => false
      | VMap l => match t_element t with Some e => forallb (fun p => publishableb v e (snd p)) l | None => false end
      end
  end.
Lemma publishableb_sound v : forall x k, publishableb v k x = true -> publishable v k x.
Proof.
  induction x as [s| |o IH|l IH|h b s IHs IHl|l IH] using value_ind2; intros k H.
  all: cbn [publishable publishableb] in *; destruct (mget k (v_types v)) as [t|]; [|discriminate]; auto.
  - now apply scalarb_sound.
  - eapply all_fieldsb_sound; [|exact H]. eapply Forall_impl; [|exact IH]. cbn. intros x Hx i a E P.
    unfold present, marked in P. rewrite P in E. cbn [negb orb] in E. auto.
  - destruct (t_element t) as [e|]; [|discriminate]. exists e. split; auto. eapply all1b_sound; [|exact H].
    eapply Forall_impl; [|exact IH]. cbn. auto.
  - discriminate.
  - destruct (t_element t) as [e|]; [|discriminate]. exists e. split; auto. eapply all1b_sound; [|exact H].
    eapply Forall_impl; [|exact IH]. cbn. auto.
Qed.
Lemma publishable_object v k t b : mget k (v_types v) = Some t -> publishable v k (VObject b) -> object_publishable v t b.
Proof. intros G H. cbn in H. rewrite G in H. exact H. Qed.

Definition schemasb (v : version) : bool :=
  JsonExamples.nodupb (map (fun t => camel (t_name t)) (types v)) && forallb (fun t => negb (String.eqb (camel (t_name t)) "Metadata") && negb (String.eqb (camel (t_name t)) "Error")) (types v).
Lemma nodup_inj {A} (f : A -> string) l a b : NoDup (map f l) -> In a l -> In b l -> f a = f b -> a = b.
Proof.
  induction l as [|c l IH]; cbn; intros N; [intros []|]. inversion N as [|? ? N1 N2]; subst. intros [->|Ia] [->|Ib] E; auto.
  - exfalso. apply N1. rewrite E. now apply in_map.
  - exfalso. apply N1. rewrite <- E. now apply in_map.
Qed.
Lemma schemasb_sound v : schemasb v = true -> distinct_schemas v.
Proof.
  unfold schemasb. rewrite andb_true_iff, forallb_forall. intros [N F] t I _. apply JsonExamples.nodupb_sound in N. specialize (F t I). rewrite andb_true_iff, !negb_true_iff, !String.eqb_neq in F.
  destruct F as [F1 F2]. split; [assumption|]. split; [assumption|]. intros t' I' E. exact (nodup_inj (fun t => camel (t_name t)) _ _ _ N I' I E).
Qed.

(** * Values that don't conform *)

Lemma conforms_type doc l j t : ~ In "$ref" (map fst l) -> In ("type", JStr t) l -> conforms doc (JObj l) j -> ConformSpec.has_type t j.
Proof. intros N I C. inversion C; subst; auto. exfalso. apply N. apply in_map_iff. eexists. split; [|eassumption]. reflexivity. Qed.
Lemma conforms_format doc l j t : ~ In "$ref" (map fst l) -> In ("format", JStr t) l -> conforms doc (JObj l) j -> has_format t j.
Proof. intros N I C. inversion C; subst; auto. exfalso. apply N. apply in_map_iff. eexists. split; [|eassumption]. reflexivity. Qed.
Lemma conforms_enum doc l j e : ~ In "$ref" (map fst l) -> In ("enum", JArr e) l -> conforms doc (JObj l) j -> In j e.
Proof. intros N I C. inversion C; subst; auto. exfalso. apply N. apply in_map_iff. eexists. split; [|eassumption]. reflexivity. Qed.
Lemma conforms_property doc l ps ms n s x : ~ In "$ref" (map fst l) -> In ("properties", JObj ps) l -> In (n, s) ps -> In (n, x) ms -> conforms doc (JObj l) (JObj ms) -> conforms doc s x.
Proof. intros N I J K C. inversion C; subst; eauto. exfalso. apply N. apply in_map_iff. eexists. split; [|eassumption]. reflexivity. Qed.
Lemma conforms_follow doc r s j : resolves doc r s -> conforms doc (JObj [("$ref", JStr r)]) j -> conforms doc s j.
Proof.
  intros R C. inversion C as [l r' j' I _ H E1|l j' N]; subst.
  - destruct I as [[= ->]|[]]. auto.
  - exfalso. apply N. now left.
Qed.

Definition value_of (s : string) : Z := match s with String "-" d => (- ConformSpec.decimal d)%Z | _ => ConformSpec.decimal s end.
Lemma integer_value s z : integer_text s z -> z = value_of s.
Proof.
  intros (d & N & D & [[-> ->]|[-> ->]]); [|reflexivity]. destruct d as [|c d]; [contradiction|]. destruct D as [D _]. unfold value_of.
  destruct c as [[] [] [] [] [] [] [] []]; try reflexivity. exfalso. vm_compute in D. lia.
Qed.

Definition refless (l : list (string * json)) : bool := negb (existsb (String.eqb "$ref") (map fst l)).
Lemma refless_sound l : refless l = true -> ~ In "$ref" (map fst l).
Proof. unfold refless. rewrite negb_true_iff. apply existsb_in. Qed.
Definition lookup (k : string) (l : list (string * json)) : option json := match filter (fun p => String.eqb (fst p) k) l with [(_, x)] => Some x | _ => None end.
Lemma lookup_in k l x : lookup k l = Some x -> In (k, x) l.
Proof.
  unfold lookup. destruct (filter _ l) as [|[k' y] [|]] eqn:F; try discriminate. intros [= ->]. assert (I : In (k', x) (filter (fun p => String.eqb (fst p) k) l)) by (rewrite F; now left).
  apply filter_In in I as [I E]. cbn in E. apply String.eqb_eq in E. now subst.
Qed.

(** The value of the property of an object whose type has the given schema violates something. *)
Definition bad_type (t : string) (j : json) : bool :=
  match j with
  | JObj _ => String.eqb t "array" | JArr _ => String.eqb t "object" | JStr _ => String.eqb t "object" | JNull => true
  | _ => false
  end.
Lemma bad_type_sound t j : bad_type t j = true -> ~ ConformSpec.has_type t j.
Proof.
  destruct j as [|b|s|s|l|l]; cbn; try discriminate; intros H T; try (apply String.eqb_eq in H; subst t); unfold ConformSpec.has_type in T;
    repeat match goal with H : _ \/ _ |- _ => destruct H as [H|H] | H : exists _, _ |- _ => destruct H | H : _ /\ _ |- _ => destruct H end; discriminate.
Qed.
Definition bad_format (f : string) (j : json) : bool :=
  match j with JNum s => String.eqb f "int32" && negb (Z.leb (- 2 ^ 31) (value_of s) && Z.ltb (value_of s) (2 ^ 31)) | _ => false end.
Lemma bad_format_sound f j : bad_format f j = true -> ~ has_format f j.
Proof.
  destruct j as [|b|s|s|l|l]; cbn [bad_format]; try discriminate. rewrite andb_true_iff, negb_true_iff. intros [E R] (H & _). apply String.eqb_eq in E. destruct (H E) as (s' & z & [= <-] & T & B).
  apply integer_value in T. subst z. rewrite (proj2 (Z.leb_le _ _) (proj1 B)), (proj2 (Z.ltb_lt _ _) (proj2 B)) in R. discriminate.
Qed.
Definition json_string (w : string) (j : json) : bool := match j with JStr x => String.eqb w x | _ => false end.
Definition bad_enum (e : list json) (j : json) : bool := match j with JStr w => negb (existsb (json_string w) e) | _ => false end.
Lemma bad_enum_sound e j : bad_enum e j = true -> ~ In j e.
Proof.
  destruct j as [|b|s|s|l|l]; cbn; try discriminate. rewrite negb_true_iff. intros H I. assert (existsb (json_string s) e = true); [|congruence].
  apply existsb_exists. eexists. split; [exact I|]. cbn. apply String.eqb_refl.
Qed.
Definition bad_simple (s j : json) : bool :=
  match s with
  | JObj l => refless l &&
      ((match lookup "type" l with Some (JStr t) => bad_type t j | _ => false end) ||
       (match lookup "format" l with Some (JStr f) => bad_format f j | _ => false end) ||
       (match lookup "enum" l with Some (JArr e) => bad_enum e j | _ => false end))
  | _ => false
  end.
Lemma bad_simple_sound doc s j : bad_simple s j = true -> ~ conforms doc s j.
Proof.
  destruct s as [| | | | |l]; try discriminate. cbn [bad_simple]. rewrite andb_true_iff, !orb_true_iff. intros [R H] C. apply refless_sound in R.
  destruct H as [[H|H]|H].
  - destruct (lookup "type" l) as [[]|] eqn:L; try discriminate. apply lookup_in in L. apply bad_type_sound in H. apply H. eapply conforms_type; eauto.
  - destruct (lookup "format" l) as [[]|] eqn:L; try discriminate. apply lookup_in in L. apply bad_format_sound in H. apply H. eapply conforms_format; eauto.
  - destruct (lookup "enum" l) as [[]|] eqn:L; try discriminate. apply lookup_in in L. apply bad_enum_sound in H. apply H. eapply conforms_enum; eauto.
Qed.
Definition prefix_of : string := "#/components/schemas/".
Definition resolved (doc : json) (n : string) : option json :=
  match get_path ["components"; "schemas"] doc with Some (JObj ss) => lookup n ss | _ => None end.
Lemma resolved_sound doc n s : resolved doc n = Some s -> resolves doc (prefix_of ++ n) s.
Proof.
  unfold resolved. destruct (get_path _ doc) as [[| | | | |ss]|] eqn:G; try discriminate. intros L. exists n, ss. split; [reflexivity|]. split; [now apply get_path_sound|now apply lookup_in].
Qed.
(** Simple schemas, and references to simple schemas. *)
Definition bad_value (doc s j : json) : bool :=
  bad_simple s j ||
  match s with
  | JObj [(k, JStr r)] =>
      String.eqb k "$ref" && existsb (fun n => String.eqb r (prefix_of ++ n) && match resolved doc n with Some s => bad_simple s j | None => false end)
        (match get_path ["components"; "schemas"] doc with Some (JObj ss) => map fst ss | _ => [] end)
  | _ => false
  end.
Lemma bad_value_sound doc s j : bad_value doc s j = true -> ~ conforms doc s j.
Proof.
  unfold bad_value. rewrite orb_true_iff. intros [H|H]; [now apply bad_simple_sound|].
  destruct s as [| | | | |[|[k [| | |r| |]] [|]]]; try discriminate. apply andb_true_iff in H as [E H]. apply String.eqb_eq in E.
  subst k. apply existsb_exists in H as (n & _ & H). apply andb_true_iff in H as [E H]. apply String.eqb_eq in E. subst r.
  destruct (resolved doc n) as [s|] eqn:R; [|discriminate]. apply resolved_sound in R. intros C. apply (conforms_follow _ _ _ _ R) in C. revert C. now apply bad_simple_sound.
Qed.
Definition bad_object (doc : json) (n p : string) (j : json) : bool :=
  match resolved doc n, j with
  | Some (JObj l), JObj ms =>
      refless l &&
      match lookup "properties" l, lookup p ms with
      | Some (JObj ps), Some x => match lookup p ps with Some s => bad_value doc s x | None => false end
      | _, _ => false
      end
  | _, _ => false
  end.
Lemma bad_object_sound doc n p j : bad_object doc n p j = true -> ~ conforms doc (JObj [("$ref", JStr ("#/components/schemas/" ++ n))]) j.
Proof.
  unfold bad_object. destruct (resolved doc n) as [[| | | | |l]|] eqn:R; try discriminate. destruct j as [| | | | |ms]; try discriminate. rewrite andb_true_iff. intros [F H] C.
  apply resolved_sound in R. apply (conforms_follow _ _ _ _ R) in C. apply refless_sound in F.
  destruct (lookup "properties" l) as [[| | | | |ps]|] eqn:L; try discriminate. destruct (lookup p ms) as [x|] eqn:Lx; [|discriminate]. destruct (lookup p ps) as [s|] eqn:Ls; [|discriminate].
  apply lookup_in in L, Lx, Ls. apply (bad_value_sound _ _ _ H). eapply conforms_property; eauto.
Qed.

(** * The example *)

Definition ex_things_res : decl :=
  DResource [] "Things"
    [RMMethod (MkMethodDecl [] "Add" [par [DIn; DOut] "Body" (RPlain "Thing") None] "");
     RMMethod (MkMethodDecl [] "Rename" [par [DIn] "NewName" (RPlain "String") None; par [DIn] "Limit" (RPlain "Integer") None] "")] "".
Definition ex_things_root : decl := DResource [] "Root" [RMLocator (MkLocatorDecl [] "Things" [LMTarget "Things"] "")] "".
Definition ex_conform_inputs : list (list service_dir) :=
  [[("svc", [("v1", [("a.model", [ex_things_root; ex_things_res; ex_thing; ex_two; ex_state])])])]].
Definition ex_first : option (service * version) := match first_version ex_conform_inputs with Some (_, _, s, v) => Some (s, v) | None => None end.
Definition ex_s : service := match ex_first with Some (s, _) => s | None => new_service (parse_using_separator "svc" "_") end.
Definition ex_w : version := match ex_first with Some (_, v) => v | None => new_version (parse_using_separator "v1" "_") end.
Definition ex_wt : typ := match mget "thing" (v_types ex_w) with Some t => t | None => new_type (parse_using_case "Thing") end.
Definition ex_doc : json := match OpenapiExamples.built 20 ex_s ex_w with Some j => j | None => JNull end.

Lemma ex_conform_read : exists m rs, read ex_conform_inputs [] = Done (ROk m, rs) /\ in_model m ex_s /\ in_service ex_s ex_w.
Proof.
  assert (H : match ex_first with Some _ => true | None => false end = true) by (vm_compute; reflexivity).
  unfold ex_s, ex_w. unfold ex_first in *. revert H. generalize (first_version_sound ex_conform_inputs). destruct (first_version ex_conform_inputs) as [[[[m rs] s] v]|]; [|discriminate].
  intros X _. exists m, rs. destruct (X m rs s v eq_refl) as (A & B & C). auto.
Qed.
Lemma ex_conform_published : published ex_system 20 "out" ex_s ex_w [] [] ex_doc.
Proof.
  apply written_version_sound. assert (H : succeeded (generate_spec ex_system 20 "out" ex_s ex_w [] []) = true) by (vm_compute; reflexivity). rewrite H. cbn [both].
  unfold ex_doc. assert (H2 : match OpenapiExamples.built 20 ex_s ex_w with Some _ => true | None => false end = true) by (vm_compute; reflexivity). destruct (OpenapiExamples.built 20 ex_s ex_w); [reflexivity|discriminate].
Qed.
Lemma ex_w_standard : standard ex_w.
Proof. apply standardb_sound. vm_compute. reflexivity. Qed.
Lemma ex_w_compiles : compiles ex_w.
Proof. apply compilesb_sound. vm_compute. reflexivity. Qed.
Lemma ex_w_distinct : distinct_schemas ex_w.
Proof. apply schemasb_sound. vm_compute. reflexivity. Qed.
Lemma ex_wt_type : mget "thing" (v_types ex_w) = Some ex_wt.
Proof. vm_compute. reflexivity. Qed.
Lemma ex_wt_structural : structural ex_wt.
Proof. left. vm_compute. reflexivity. Qed.
Lemma ex_wt_name : camel (t_name ex_wt) = "Thing".
Proof. vm_compute. reflexivity. Qed.

(** An object that has all the attributes except the list of links. *)
Definition with_calls (l : list call) : object :=
  match build_object ex_w ex_wt (apply_calls ex_w ex_wt (new_builder ex_w ex_wt) l) with Some p => p | None => new_builder ex_w ex_wt end.
Definition ex_whole_calls : list call :=
  (filter (fun c => match c with CallSet 1 _ => false | _ => true end) ex_calls ++ [CallSet 11 (VScalar (SString "ready")); CallSet 10 (VScalar (SFloat 3))])%list.
Definition ex_whole : object := with_calls ex_whole_calls.
Lemma ex_whole_typed : object_typed ex_w ex_wt ex_whole.
Proof. apply object_typedb_sound. vm_compute. reflexivity. Qed.
Lemma ex_whole_publishable : object_publishable ex_w ex_wt ex_whole.
Proof. apply (publishable_object ex_w "thing" ex_wt ex_whole ex_wt_type). apply publishableb_sound. vm_compute. reflexivity. Qed.
Definition ex_whole_tokens : list token := Eval vm_compute in tokens_of (marshal_object ex_oracle ex_w ex_wt (Some ex_whole)).
Lemma ex_whole_written : marshal_object ex_oracle ex_w ex_wt (Some ex_whole) = WOk ex_whole_tokens.
Proof. vm_compute. reflexivity. Qed.
Lemma ex_whole_present i : i < 14 -> i <> 1 -> present ex_wt i ex_whole.
Proof.
  intros L N. assert (H : forallb (fun i => Nat.eqb i 1 || N.testbit (o_bits ex_whole) (N.of_nat (reserved ex_wt + i))) (seq 0 14) = true) by (vm_compute; reflexivity).
  rewrite forallb_forall in H. specialize (H i). rewrite in_seq in H. specialize (H (conj (Nat.le_0_l i) L)). apply orb_true_iff in H as [H|H]; [apply Nat.eqb_eq in H; contradiction|exact H].
Qed.

(** Objects whose documents don't conform. *)
Definition nonconforming (b : object) : Prop :=
  exists sys fuel output s v doc o k t l j, published sys fuel output s v [] [] doc /\ standard v /\ compiles v /\ faithful o /\ distinct_schemas v /\
    mget k (v_types v) = Some t /\ structural t /\ object_typed v t b /\ marshal_object o v t (Some b) = WOk l /\ l = tokens j /\
    ~ conforms doc (JObj [("$ref", JStr ("#/components/schemas/" ++ camel (t_name t)))]) j.
Lemma nonconforming_of b p l j : object_typedb ex_w ex_wt b = true -> marshal_object ex_oracle ex_w ex_wt (Some b) = WOk l -> l = tokens j -> bad_object ex_doc "Thing" p j = true ->
  nonconforming b.
Proof.
  intros T M E B. exists ex_system, 20, "out", ex_s, ex_w, ex_doc, ex_oracle, "thing", ex_wt, l, j. split; [exact ex_conform_published|]. split; [exact ex_w_standard|]. split; [exact ex_w_compiles|].
  split; [exact ex_faithful|]. split; [exact ex_w_distinct|]. split; [exact ex_wt_type|]. split; [exact ex_wt_structural|]. split; [now apply object_typedb_sound|]. split; [exact M|]. split; [exact E|].
  rewrite ex_wt_name. now apply bad_object_sound with p.
Qed.
Ltac nonconforming p :=
  match goal with |- nonconforming ?b =>
    let l := eval vm_compute in (tokens_of (marshal_object ex_oracle ex_w ex_wt (Some b))) in
    let j := eval vm_compute in (match parse_json 1000 l with Ok j _ => j | _ => JNull end) in
    apply (nonconforming_of b p l j); vm_compute; reflexivity
  end.

(** Lists of links are written as objects, but the schemas say that they are arrays. *)
Definition ex_children : object := with_calls [CallSet 1 (VList "" false (VSlice [VObject ex_child]))].
Lemma links_nonconforming : nonconforming ex_children.
Proof. nonconforming "children". Qed.
(** Integers with more than 32 bits. *)
Definition ex_large : object := with_calls [CallSet 2 (VScalar (SInt 3000000000))].
Lemma large_nonconforming : nonconforming ex_large.
Proof. nonconforming "count". Qed.
(** Values of enumerated types that aren't in the model. *)
Definition ex_unknown : object := with_calls [CallSet 11 (VScalar (SString "exploded"))].
Lemma unknown_nonconforming : nonconforming ex_unknown.
Proof. nonconforming "state". Qed.
(** Values of type [interface{}] that aren't objects. *)
Definition ex_free : object := with_calls [CallSet 0 (VScalar (SAny (AString "text")))].
Lemma free_nonconforming : nonconforming ex_free.
Proof. nonconforming "any". Qed.
