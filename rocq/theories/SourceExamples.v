(** A source whose types can be used, and documents for them. *)
From Coq Require Import Ascii String Bool Arith ZArith NArith Lia List.
From Verif Require Import GoStrings GoMap NamesModel NamesSpec ConceptsModel ConceptsSpec BindingModel GoNamesModel GoTimeModel ReporterModel
  ReaderModel ChecksModel ReaderSpec ReaderExamples SourceSpec.
From Verif Require Import VersionsSpec VersionsProofs VersionsExamples.
From Verif Require Import TextModel ObjectsModel ObjectsSpec ObjectsExamples JsonModel JsonSpec JsonExamples JsonTextModel JsonTextSpec JsonTextProofs JsonLexModel ReadingSpec ReadingProofs6 SourceProofs3.
Import ListNotations.
Local Open Scope string_scope.

(** A version with a class and a struct that refer to each other, an enumerated type, lists, maps, links and an attribute with another name. *)
Definition src_cluster : decl :=
  DClass [] "Cluster"
    [attr "Name" (RPlain "String"); attr "Nodes" (RList "Node"); attr "State" (RPlain "ClusterState");
     MkMemberDecl [MkAnnotationDecl "json" [("name", LDString """up""" (Some "up"))]] true "Parent" (RPlain "Cluster") "The parent.";
     attr "Labels" (RMap "String" "String")] "A cluster.".
Definition src_node : decl := DStruct [] "Node" [attr "ID" (RPlain "Long"); attr "Cluster" (RPlain "Cluster")] "".
Definition src_files : list file :=
  [("a.model", [ex_root; ex_clusters; ex_cluster_res]); ("b.model", [src_cluster; src_node; ex_state; ex_error])].

Definition no_nested (ds : list decl) : bool :=
  forallb (fun r => match r with
    | RPlain _ => true
    | RList e | RMap _ e => negb (existsb (String.eqb (key_of e)) (derived_types ds)) && negb (existsb (fun p => String.eqb (key_of e) (fst p ++ "_list")) predefined_kinds)
    end) (references ds).

Lemma not_collection ds k : negb (existsb (String.eqb k) (derived_types ds)) && negb (existsb (fun p => String.eqb k (fst p ++ "_list")) predefined_kinds) = true ->
  ~ collection ds k.
Proof.
  intros H. apply andb_true_iff in H as [H1 H2]. apply negb_true_iff in H1, H2. intros [C|(e & C1 & C2)].
  - assert (X : existsb (String.eqb k) (derived_types ds) = true); [|congruence]. apply existsb_exists. exists k. split; [exact C|apply String.eqb_refl].
  - assert (X : existsb (fun p => String.eqb k (fst p ++ "_list")) predefined_kinds = true); [|congruence].
    apply in_map_iff in C1 as (p & <- & C1). apply existsb_exists. exists p. split; [exact C1|]. apply String.eqb_eq. exact C2.
Qed.

Lemma no_nested_flat ds : no_nested ds = true -> flat_source ds.
Proof.
  intros H r Hr. unfold no_nested in H. rewrite forallb_forall in H. specialize (H r Hr). destruct r; auto; now apply not_collection.
Qed.

Definition good_membersb (fixed : list string) (ms : list member_decl) : bool :=
  nodupb (json_names ms) && negb (existsb (String.eqb "") (json_names ms)) && forallb (fun f => negb (existsb (String.eqb f) (json_names ms))) fixed &&
  (length fixed + length ms <=? 63)%nat.
Definition good_sourceb (ds : list decl) : bool :=
  forallb (fun d => match d with DClass _ _ ms _ => good_membersb ["kind"; "id"; "href"] ms | DStruct _ _ ms _ => good_membersb [] ms | _ => true end) ds.

Lemma not_member f l : negb (existsb (String.eqb f) l) = true -> ~ In f l.
Proof.
  intros H I. apply negb_true_iff in H. assert (X : existsb (String.eqb f) l = true); [|congruence]. apply existsb_exists. exists f. split; [exact I|apply String.eqb_refl].
Qed.

Lemma good_membersb_sound fixed ms : good_membersb fixed ms = true -> good_members fixed ms.
Proof.
  intros H. unfold good_membersb in H. rewrite !andb_true_iff in H. destruct H as (((H1 & H2) & H3) & H4). split; [now apply nodupb_sound|].
  split; [now apply not_member|]. split; [|now apply Nat.leb_le]. rewrite forallb_forall in H3. intros f I. now apply not_member, H3.
Qed.

Lemma good_sourceb_sound ds : good_sourceb ds = true -> good_source ds.
Proof.
  intros H d Hd. unfold good_sourceb in H. rewrite forallb_forall in H. specialize (H d Hd). destruct d; auto; now apply good_membersb_sound.
Qed.

Lemma src_camel : camel_source (all_decls src_files).
Proof. repeat split; repeat constructor; eexists _, _; repeat split; reflexivity. Qed.
Lemma src_flat : flat_source (all_decls src_files).
Proof. apply no_nested_flat. vm_compute. reflexivity. Qed.
Lemma src_good : good_source (all_decls src_files).
Proof. apply good_sourceb_sound. vm_compute. reflexivity. Qed.

(** The source of the class and of the struct. *)
Lemma src_declared : In src_cluster (all_decls src_files) /\ has_members src_cluster "Cluster" ["kind"; "id"; "href"]
    [attr "Name" (RPlain "String"); attr "Nodes" (RList "Node"); attr "State" (RPlain "ClusterState");
     MkMemberDecl [MkAnnotationDecl "json" [("name", LDString """up""" (Some "up"))]] true "Parent" (RPlain "Cluster") "The parent."; attr "Labels" (RMap "String" "String")] /\
  ~ In (key_of "Cluster") (derived_types (all_decls src_files)).
Proof. split; [simpl; tauto|]. split; [constructor|]. apply not_member. vm_compute. reflexivity. Qed.

(** A document with repeated and unknown members. *)
Definition src_doc : json :=
  JObj [("kind", JStr "Cluster"); ("id", JStr "123"); ("name", JStr "first"); ("name", JStr "mine"); ("other", JArr [JNull]);
        ("nodes", JArr [JObj [("id", JNum "7"); ("cluster", JNull)]]); ("up", JObj [("kind", JStr "ClusterLink"); ("id", JStr "456")]);
        ("labels", JObj [("a", JStr "b")])].
Definition src_text : string := write_tokens 0 (tokens src_doc).

Lemma src_document : json_document src_text src_doc /\ clean src_doc.
Proof.
  split; [|apply cleanb_sound; vm_compute; reflexivity]. apply document_text. cbn. repeat split. exists "", "7", "", "". cbn. split; [reflexivity|]. split; [auto|].
  split; [right; exists "7"%char, ""; cbn; intuition (discriminate || lia)|auto].
Qed.

Definition returned (r : outcome (read_result * list report)) : option version :=
  match r with Done (ROk m, _) => match m with (_, s) :: _ => match s_versions s with (_, v) :: _ => Some v | _ => None end | _ => None end | _ => None end.
Definition src_version : version := Eval vm_compute in match returned (read [[("svc", [("v1", src_files)])]] []) with Some v => v | None => MkVersion (new_name []) [] [] [] end.
Definition src_type : typ := Eval vm_compute in match find_type (parse_using_case "Cluster") src_version with Some t => t | None => new_type (new_name []) end.

Lemma src_returned : exists m rs s, read [[("svc", [("v1", src_files)])]] [] = Done (ROk m, rs) /\ in_model m s /\ in_service s src_version.
Proof.
  eexists _, _, _. split; [vm_compute; reflexivity|]. split; [exists "svc"; reflexivity|]. exists "v1". vm_compute. reflexivity.
Qed.

Lemma src_found : find_type (parse_using_case "Cluster") src_version = Some src_type.
Proof. vm_compute. reflexivity. Qed.

(** A class with an attribute whose name is one of those that all classes have, and a list of lists: the reader accepts both. *)
Definition src_clash : list file := [("a.model", [ex_empty_root; DClass [] "Foo" [attr "ID" (RPlain "String")] ""])].
Definition src_nested : list file := [("a.model", [ex_empty_root; DStruct [] "Foo" [attr "A" (RList "Foo"); attr "B" (RList "FooList")] ""])].

Lemma src_clash_compiles : exists m rs s v, read [[("svc", [("v1", src_clash)])]] [] = Done (ROk m, rs) /\ in_model m s /\ in_service s v /\ ~ compiles v.
Proof.
  eexists _, _, _, _. split; [vm_compute; reflexivity|]. split; [exists "svc"; reflexivity|]. split; [exists "v1"; reflexivity|].
  intros C. edestruct (C "foo") as [_ (_ & _ & H)]; [vm_compute; reflexivity|left; reflexivity|].
  eapply H; [reflexivity|left; reflexivity|]. vm_compute. auto.
Qed.

Lemma src_nested_sound : exists m rs s v, read [[("svc", [("v1", src_nested)])]] [] = Done (ROk m, rs) /\ in_model m s /\ in_service s v /\ ~ sound v.
Proof.
  eexists _, _, _, _. split; [vm_compute; reflexivity|]. split; [exists "svc"; reflexivity|]. split; [exists "v1"; reflexivity|].
  intros C. edestruct (C "foo") as [H _]; [vm_compute; reflexivity|]. edestruct H as (t & T1 & _ & T3); [right; reflexivity|right; left; reflexivity|].
  vm_compute in T1. injection T1 as <-. destruct T3 as (e & te & E1 & E2 & E3); [left; reflexivity|]. vm_compute in E1. injection E1 as <-.
  vm_compute in E2. injection E2 as <-. vm_compute in E3. intuition discriminate.
Qed.

(** Several versions. *)
Definition src_inputs : list (list service_dir) := [[("svc", [("v1", src_files); ("v2", [("b.model", ex_uses_and_declares)])])]].
Lemma src_independent : independent src_inputs.
Proof. apply independentb_sound. vm_compute. reflexivity. Qed.

(** What is read and written. *)
Definition src_object : object := Eval vm_compute in
  match unmarshal_object ex_oracle src_version src_type (lex_text src_text) with Ok b _ => b | _ => MkObject 0 "" "" [] end.
Lemma src_read : unmarshal_object ex_oracle src_version src_type (lex_text src_text) = Ok src_object [].
Proof. vm_compute. reflexivity. Qed.
Lemma src_rejected : unmarshal_object ex_oracle src_version src_type (lex_text (write_tokens 0 (tokens (JObj [("name", JNum "1")])))) = Failed.
Proof. vm_compute. reflexivity. Qed.
Lemma src_getters : exists i a, nth_error (t_attrs src_type) i = Some a /\ attribute_name a = "name" /\
  get_attr src_version src_type i a (Some src_object) = (VScalar (SString "mine"), true).
Proof. exists 1%nat. eexists. split; [vm_compute; reflexivity|]. split; vm_compute; reflexivity. Qed.
Lemma src_written : exists l, marshal_object ex_oracle src_version src_type (Some src_object) = WOk l /\
  write_tokens 0 l <> "".
Proof. eexists. split; [vm_compute; reflexivity|]. vm_compute. discriminate. Qed.
Lemma src_typed : object_typed src_version src_type src_object.
Proof.
  destruct src_returned as (m & rs & s & R & Hs & Hv). destruct (returned_source _ _ _ _ _ _ _ _ R Hs Hv) as (St & So & Co & _).
  apply (read_typed ex_oracle src_version St (Co src_good) (So src_flat) "cluster" src_type (lex_text src_text) src_object [] src_found); [left; reflexivity|exact src_read].
Qed.
