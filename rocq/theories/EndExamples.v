(** Examples used to show that the hypotheses of the theorems about the whole way from the directories to the documents can be satisfied. *)
From Coq Require Import Ascii String Bool Arith ZArith NArith Lia Permutation Sorted List.
From Verif Require Import GoStrings GoMap NamesModel NamesSpec NamesProofs ConceptsModel ConceptsSpec BindingModel GoNamesModel ReporterModel ReaderModel ReaderSpec VersionsSpec VersionsExamples SourceSpec SourceExamples
  SyntaxModel SyntaxExamples BufferModel BufferSpec BufferProofs BufferExamples ChecksModel ChecksSpec OpenapiModel OpenapiSpec OpenapiProofs6 ConformSpec ConformExamples ToolModel ToolSpec ToolExamples.
From Verif Require Import TextModel ObjectsModel ObjectsSpec ObjectsExamples JsonModel JsonSpec JsonExamples JsonTextModel JsonTextSpec JsonTextProofs JsonTextProofs3 JsonLexModel ReadingSpec ReadingExamples EndProofs.
Import ListNotations.
Local Open Scope string_scope.

Definition loaded (s : string) : list decl := match load_text s with Loaded ds _ _ => ds | _ => [] end.
Definition clusters_decls : list decl := Eval vm_compute in loaded clusters_text.
Definition root_decls : list decl := Eval vm_compute in loaded root_text.
Definition end_inputs : list (list service_dir) :=
  [[("clusters_mgmt", [("v1", [("model/clusters_mgmt/v1/clusters.model", clusters_decls); ("model/clusters_mgmt/v1/root.model", root_decls)])])]].

Lemma clusters_declares : declares clusters_text clusters_decls.
Proof. eexists _, _. split; [vm_compute; reflexivity|]. apply ei_nil. Qed.
Lemma root_declares : declares root_text root_decls.
Proof. eexists _, _. split; [vm_compute; reflexivity|]. apply ei_nil. Qed.

Lemma end_contains : Forall2 (contains ex_directories) ["model"] end_inputs.
Proof.
  apply Forall2_cons; [|apply Forall2_nil]. unfold contains, ex_directories, ex_lookup. rewrite String.eqb_refl. eexists. eexists. split; [reflexivity|]. split.
  { split; [apply perm_swap|]. repeat constructor. }
  apply so_other; [discriminate|]. unfold ex_version. cbn [app].
  eapply so_service; [split; [apply perm_swap|]; repeat constructor| |apply so_nil].
  apply vo_other; [discriminate|].
  eapply vo_version; [| |apply vo_nil].
  - split.
    + eapply perm_trans; [apply perm_skip, perm_swap|]. eapply perm_trans; [apply perm_swap|]. apply perm_skip, perm_swap.
    + repeat constructor.
  - apply (fo_file "model/clusters_mgmt/v1" "clusters.model" clusters_text clusters_decls); [exact clusters_declares|].
    apply fo_other; [discriminate|]. apply (fo_file "model/clusters_mgmt/v1" "root.model" root_text root_decls); [exact root_declares|]. apply fo_nil.
Qed.

Definition end_model : model := Eval vm_compute in match read end_inputs [] with Done (ROk m, _) => m | _ => [] end.
Definition end_reports : list report := Eval vm_compute in match read end_inputs [] with Done (ROk _, l) => l | _ => [] end.
Lemma end_read : read end_inputs [] = Done (ROk end_model, end_reports).
Proof. vm_compute. reflexivity. Qed.
Lemma end_independent : independent end_inputs.
Proof. apply independentb_sound. vm_compute. reflexivity. Qed.
Lemma end_source e : In e (entries end_inputs) -> flat_source (source e) /\ good_source (source e).
Proof. intros [<-|[]]. split; [apply no_nested_flat|apply good_sourceb_sound]; vm_compute; reflexivity. Qed.

(** There is only one version. *)
Definition end_service : service := Eval vm_compute in match end_model with (_, s) :: _ => s | [] => new_service (new_name []) end.
Definition end_version : version := Eval vm_compute in match s_versions end_service with (_, v) :: _ => v | [] => new_version (new_name []) end.
Lemma end_only s v : in_model end_model s -> in_service s v -> s = end_service /\ v = end_version.
Proof.
  intros [k E] [k' E']. unfold end_model in E. cbn [mget fst snd] in E. destruct (String.eqb _ _); [|discriminate]. injection E as <-.
  cbn [s_versions mget fst snd] in E'. destruct (String.eqb _ _); [|discriminate]. injection E' as <-. split; reflexivity.
Qed.
Lemma end_separate s v s' v' : in_model end_model s -> in_service s v -> in_model end_model s' -> in_service s' v' ->
  spec_path "out" s v = spec_path "out" s' v' -> s = s' /\ v = v'.
Proof. intros A B C D _. destruct (end_only _ _ A B) as [-> ->], (end_only _ _ C D) as [-> ->]. split; reflexivity. Qed.
Lemma end_distinct s v : in_model end_model s -> in_service s v -> distinct_schemas v.
Proof. intros A B. destruct (end_only _ _ A B) as [_ ->]. apply schemasb_sound. vm_compute. reflexivity. Qed.
Lemma end_in : in_model end_model end_service /\ in_service end_service end_version.
Proof. split; [exists "clusters_mgmt"|exists "v1"]; reflexivity. Qed.

(** A cluster and its document. *)
Definition end_type : typ := Eval vm_compute in match mget "cluster" (v_types end_version) with Some t => t | None => new_type (new_name []) end.
Lemma end_found : mget "cluster" (v_types end_version) = Some end_type /\ structural end_type /\ camel (t_name end_type) = "Cluster".
Proof. split; [reflexivity|]. split; [left; reflexivity|vm_compute; reflexivity]. Qed.
Definition end_json : json := JObj [("kind", JStr "Cluster"); ("id", JStr "123"); ("href", JStr "/api/clusters/123"); ("name", JStr "mine")].
Definition end_text : string := write_tokens 0 (tokens end_json).
Definition end_object : object := Eval vm_compute in
  match unmarshal_object ex_oracle end_version end_type (lex_text end_text) with Ok b _ => b | _ => MkObject 0 "" "" [] end.
Lemma end_written : object_typed end_version end_type end_object /\ object_publishable end_version end_type end_object /\
  marshal_object ex_oracle end_version end_type (Some end_object) = WOk (tokens end_json).
Proof.
  split; [apply object_typedb_sound; vm_compute; reflexivity|]. split; [|vm_compute; reflexivity].
  apply (publishable_object end_version "cluster" end_type); [reflexivity|]. apply publishableb_sound. vm_compute. reflexivity.
Qed.
Lemma end_shaped : shaped end_version "cluster" false end_json /\ clean end_json /\ well_formed end_json /\ reads_numbers ex_oracle end_json.
Proof.
  split; [apply shapedb_sound; vm_compute; reflexivity|]. split; [apply cleanb_sound; vm_compute; reflexivity|]. split; [apply integersb_sound; vm_compute; reflexivity|].
  apply reads_numbersb_sound. vm_compute. reflexivity.
Qed.

Lemma end_exchange : exists n, forall fuel, (n <= fuel)%nat -> exists rs fs' spec doc, openapi_command ex_recover ex_directories ex_system fuel ["model"] "out" [] = Exit 0 rs fs' /\
  mget "out/clusters_mgmt/v1/openapi.json" fs' = Some spec /\ json_document spec doc /\
  conforms doc (JObj [("$ref", JStr "#/components/schemas/Cluster")]) end_json /\
  exists b, unmarshal_object ex_oracle end_version end_type (lex_text end_text) = Ok b [].
Proof.
  destruct (end_to_end ex_recover ex_directories ex_system ["model"] "out" end_inputs end_model end_reports (fun _ => eq_refl) (fun _ => eq_refl) ltac:(discriminate) ltac:(discriminate)
    end_contains end_independent end_read end_source end_separate end_distinct) as (n & H).
  exists n. intros fuel L. destruct (H fuel [] L) as (rs & fs' & E & P). destruct end_in as [I1 I2]. destruct (P _ _ I1 I2) as (spec & doc & M & D & W & R).
  exists rs, fs', spec, doc. split; [exact E|]. assert (Q : spec_path "out" end_service end_version = "out/clusters_mgmt/v1/openapi.json") by (vm_compute; reflexivity). rewrite Q in M.
  split; [exact M|]. split; [exact D|]. destruct end_found as (T & K & C), end_written as (B1 & B2 & B3), end_shaped as (S1 & S2 & S3 & S4).
  destruct (W ex_oracle "cluster" end_type end_object _ ex_faithful T K B1 B2 B3) as (j & Dj & Cf).
  assert (j = end_json) as -> by exact (document_unique _ _ _ Dj (document_text end_json 0 S3)). rewrite C in Cf. split; [exact Cf|].
  apply (R ex_oracle "cluster" end_type end_text end_json T K Dj); [rewrite C; exact Cf|exact S1|exact S2|exact S4].
Qed.
