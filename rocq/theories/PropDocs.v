(** Property theorems about the generated documentation (C74, C75 and C76). *)
From Coq Require Import Ascii String Bool Arith List.
From Verif Require Import GoStrings GoMap NamesModel NamesSpec ConceptsModel BindingModel BindingSpec BindingProofs GoNamesModel ReporterModel ReaderModel ReaderSpec
  ChecksModel TextModel TextSpec BufferModel BufferSpec BufferExamples DeclsExamples DocsModel DocsSpec DocsProofs DocsProofs2 DocsProofs3 DocsProofs4 DocsExamples.
Import ListNotations.
Local Open Scope string_scope.

(** C74: when the generator succeeds only the files of the pages change, and the file of a page shows exactly that page, unless another page with the same name is written later. *)
Theorem C74_pages : forall sys output m reports fs reports' fs', good_names m -> generate_docs sys output m reports fs = (None, reports', fs') ->
  (forall p, (forall page pieces, In (page, pieces) (model_pages m) -> p <> page_path output page) -> mget p fs' = mget p fs) /\
  (forall before page pieces after, model_pages m = (before ++ (page, pieces) :: after)%list -> ~ In page (map fst after) -> Forall fits pieces ->
     exists content, mget (page_path output page) fs' = Some content /\ shows pieces content).
Proof. exact docs_pages. Qed.
Print Assumptions C74_pages.

(** The content is determined by the pieces. *)
Theorem C74_content_unique : forall pieces c c', shows pieces c -> shows pieces c' -> c = c'.
Proof. exact shows_unique. Qed.
Print Assumptions C74_content_unique.

(** When the names are different all the pages are shown. *)
Theorem C74_all_pages : forall sys output m reports fs reports' fs', good_names m -> NoDup (resource_names m) -> NoDup (documented_names m) ->
  generate_docs sys output m reports fs = (None, reports', fs') ->
  forall page pieces, In (page, pieces) (model_pages m) -> Forall fits pieces -> exists content, mget (page_path output page) fs' = Some content /\ shows pieces content.
Proof. exact all_pages. Qed.
Print Assumptions C74_all_pages.

Example C74_all_pages_example : exists m rs reports fs, read (ex_input ex_docs) [] = Done (ROk m, rs) /\ good_names m /\
  generate_docs ex_system "out" m [] [] = (None, reports, fs) /\ NoDup (resource_names m) /\ NoDup (documented_names m) /\ 5 <= length (model_pages m) /\
  Forall (fun p => Forall fits (snd p)) (model_pages m) /\ mget "out/state_type.md" fs = Some ex_state_page.
Proof. exact docs_example. Qed.

(** The pages of resources, the pages of types and the index never have the same name. *)
Theorem C74_page_names : forall m, NoDup (map fst (model_pages m)) <-> NoDup (resource_names m) /\ NoDup (documented_names m).
Proof. exact page_names. Qed.
Print Assumptions C74_page_names.

(** The generator succeeds exactly when nothing has been reported and all the files can be written; when errors have been reported it changes nothing. *)
Theorem C74_success : forall sys output m reports fs, good_names m ->
  (errors_in reports 0 ->
   (exists reports' fs', generate_docs sys output m reports fs = (None, reports', fs')) <->
   (forall page pieces, In (page, pieces) (model_pages m) -> sys_mkdir sys (path_dir (page_path output page)) = None /\ sys_open sys (page_path output page) = None)) /\
  (~ errors_in reports 0 -> exists e reports', generate_docs sys output m reports fs = (Some e, reports', fs)).
Proof. exact (fun sys output m reports fs G => conj (docs_succeed sys output m reports fs G) (docs_errors sys output m reports fs)). Qed.
Print Assumptions C74_success.

(** All the versions have a root, so the pages of a model with several versions never have different names: one of the versions loses that page. *)
Theorem C74_versions_clash : forall inputs rs0 m rs, read inputs rs0 = Done (ROk m, rs) -> 2 <= length (model_versions m) -> ~ NoDup (resource_names m).
Proof. exact roots_clash. Qed.
Print Assumptions C74_versions_clash.

Example C74_versions_clash_example : exists m rs, read (two_versions ex_v1 ex_v2) [] = Done (ROk m, rs) /\ 2 <= length (model_versions m).
Proof. exact two_example. Qed.

(** A model with two versions that is accepted, and where the page of the type of the first version isn't in its file. *)
Theorem C74_all_pages_refuted : exists m rs reports fs page pieces, read (two_versions ex_v1 ex_v2) [] = Done (ROk m, rs) /\ good_names m /\
  generate_docs ex_system "out" m [] [] = (None, reports, fs) /\ In (page, pieces) (model_pages m) /\ Forall fits pieces /\
  forall content, mget (page_path "out" page) fs = Some content -> ~ shows pieces content.
Proof. exact lost_example. Qed.
Print Assumptions C74_all_pages_refuted.

(** C75: the index has a link for each resource and for each type. *)
Theorem C75_index : forall m v, In v (model_versions m) ->
  (forall r, In r (resources v) -> In (link (r_name r) "resource") (index_page m)) /\ (forall t, In t (types v) -> In (link (t_name t) "type") (index_page m)).
Proof. exact (fun m v I => conj (fun r => resource_linked m v r I) (fun t => type_linked m v t I)). Qed.
Print Assumptions C75_index.

(** The targets of the links of the resources, enumerated types, structs and classes exist. *)
Theorem C75_links : forall sys output m reports fs reports' fs' v, good_names m -> generate_docs sys output m reports fs = (None, reports', fs') -> In v (model_versions m) ->
  (forall r, In r (resources v) -> exists content, mget (page_path output (snake (r_name r) ++ "_resource")) fs' = Some content) /\
  (forall t, In t (types v) -> has_page t = true -> exists content, mget (page_path output (snake (t_name t) ++ "_type")) fs' = Some content).
Proof. exact links_live. Qed.
Print Assumptions C75_links.

(** The targets of other links aren't written. *)
Theorem C75_other_links : forall sys output m reports fs reports' fs' n, good_names m -> generate_docs sys output m reports fs = (None, reports', fs') ->
  free_of "/" n -> ~ In n (documented_names m) -> mget (page_path output (n ++ "_type")) fs' = mget (page_path output (n ++ "_type")) fs.
Proof. exact links_dead. Qed.
Print Assumptions C75_other_links.

(** A model that is accepted, and whose index has a link to a file that doesn't exist. *)
Theorem C75_links_refuted : exists m rs reports fs t, read (ex_input ex_docs) [] = Done (ROk m, rs) /\ good_names m /\ generate_docs ex_system "out" m [] [] = (None, reports, fs) /\
  In (link (t_name t) "type") (index_page m) /\ mget (page_path "out" (snake (t_name t) ++ "_type")) fs = None.
Proof. exact dead_example. Qed.
Print Assumptions C75_links_refuted.

(** C76: each row of a table is a line exactly when all its cells are, and summaries are lines exactly when there is a dot or there is only one line. *)
Theorem C76_rows : (forall cells, is_line (row cells) <-> Forall is_line cells) /\ (forall doc, is_line (doc_summary doc) <-> occurs "." doc \/ is_line doc).
Proof. exact (conj row_line summary_line). Qed.
Print Assumptions C76_rows.

Example C76_rows_example : is_line (row [code "id"; "-"; doc_summary ("One" ++ newline ++ "two. Three")]) /\ ~ is_line (row [code "id"; doc_summary ("One" ++ newline ++ "two")]).
Proof. split; [apply is_line_char_true|apply is_line_char_false]; vm_compute; reflexivity. Qed.

Theorem C76_rows_refuted : exists v t x, accepted ex_lines v /\ In t (types v) /\ has_page t = true /\ In x (struct_rows t) /\ ~ is_line (row x).
Proof. exact broken_example. Qed.
Print Assumptions C76_rows_refuted.

(** The names in the tables of attributes are those of the JSON documents, unless they are changed with annotations. *)
Theorem C76_names : forall a s,
  (not_renamed (a_annots a) "json" -> snake (a_name a) = attribute_name a) /\ (renamed (a_annots a) "json" s -> snake (a_name a) = attribute_name a <-> s = snake (a_name a)).
Proof. exact documented_names_json. Qed.
Print Assumptions C76_names.

Theorem C76_names_refuted : exists v t a, accepted ex_renamed v /\ In t (types v) /\ has_page t = true /\ In a (t_attrs t) /\ snake (a_name a) <> attribute_name a.
Proof. exact renamed_example. Qed.
Print Assumptions C76_names_refuted.

(** The fixed attributes of classes are documented exactly when there are other attributes. *)
Theorem C76_fixed_attributes : forall t, t_kind t = ClassType -> (incl fixed_rows (struct_rows t) <-> t_attrs t <> []).
Proof. exact fixed_documented. Qed.
Print Assumptions C76_fixed_attributes.

Theorem C76_fixed_attributes_refuted : exists v t, accepted ex_bare_class v /\ In t (types v) /\ t_kind t = ClassType /\ struct_rows t = [].
Proof. exact bare_example. Qed.
Print Assumptions C76_fixed_attributes_refuted.
