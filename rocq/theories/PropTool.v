(** C79 and C80: the directories of a model and the commands of the tool. *)
From Coq Require Import Ascii String Bool Arith ZArith List Permutation Sorted.
From Verif Require Import GoStrings GoMap NamesSpec ConceptsModel ConceptsSpec ReporterModel ReaderModel ReaderSpec GoNamesModel ObjectsSpec SyntaxModel BufferModel BufferSpec BufferExamples JsonModel JsonSpec
  JsonTextModel JsonTextSpec ChecksModel ChecksSpec OpenapiModel OpenapiSpec OpenapiProofs6 DocsModel DocsSpec DocsProofs2 DocsProofs3 ToolModel ToolSpec ToolProofs ToolProofs2 ToolExamples.
Import ListNotations.
Local Open Scope string_scope.

(** C79: the reader returns a model exactly when all the directories exist and contain services, versions and files in the language, and the
    declarations of those files are accepted. *)
Theorem C79_read : forall recover lookup paths m, reports_syntax recover -> proper lookup ->
  (exists rs, read_paths recover lookup paths [] = Done (ROk m, rs)) <-> accepted lookup paths m.
Proof. exact (fun recover lookup paths m R => read_paths_ok recover lookup R paths m). Qed.
Print Assumptions C79_read.

Example C79_read_example : reports_syntax ex_recover /\ proper ex_directories /\ exists m, accepted ex_directories ["model"] m /\ interesting m = true.
Proof. exact (conj ex_reports_syntax (conj ex_proper ex_accepted)). Qed.

(** Nothing has been reported then, and something has been reported otherwise. *)
Theorem C79_reports : forall recover lookup paths r rs, read_paths recover lookup paths [] = Done (r, rs) ->
  (errors_in rs 0 <-> exists m, r = ROk m).
Proof. exact read_paths_reports. Qed.
Print Assumptions C79_reports.

(** What a directory contains is determined. *)
Theorem C79_contains_unique : forall lookup dir a b, contains lookup dir a -> contains lookup dir b -> a = b.
Proof. exact contains_unique. Qed.
Print Assumptions C79_contains_unique.

(** The order of the entries of the directories doesn't matter, not even for the reports. *)
Theorem C79_order : forall recover lookup lookup' paths reports, proper lookup -> same_directories lookup lookup' ->
  read_paths recover lookup paths reports = read_paths recover lookup' paths reports.
Proof. exact order_irrelevant. Qed.
Print Assumptions C79_order.

Example C79_order_example : proper ex_directories /\ same_directories ex_directories ex_shuffled /\ ex_directories "model" <> ex_shuffled "model".
Proof. split; [exact ex_proper|]. split; [exact ex_same|]. vm_compute. discriminate. Qed.

(** All the regular files of the directories of the versions have to be in the language, whatever their names are. *)
Theorem C79_every_file : forall lookup paths m dir, accepted lookup paths m -> In dir paths ->
  exists services, lookup dir = Found (Directory (inl services)) /\
  forall s e, In (s, Directory e) services -> exists versions, e = inl versions /\
  forall v e, In (v, Directory e) versions -> exists files, e = inl files /\
  forall f c, In (f, Regular c) files -> exists text ds, c = inl text /\ declares text ds.
Proof. exact accepted_files. Qed.
Print Assumptions C79_every_file.

(** The help of the command says that only the files with extension [.model] are loaded: a file with another extension is loaded too, and the
    model is rejected because of it. *)
Theorem C79_extension_refuted : exists lookup lookup' text, proper lookup /\ proper lookup' /\
  (forall p, lookup' p = lookup p \/ (lookup p = Found (ex_tree []) /\ lookup' p = Found (ex_tree [("README.md", Regular (inl text))]))) /\
  (exists m, accepted lookup ["model"] m) /\ forall m, ~ accepted lookup' ["model"] m.
Proof. exact extension_example. Qed.
Print Assumptions C79_extension_refuted.

(** It also says that files are accepted, and that the files of all the sub directories are loaded. *)
Theorem C79_file_rejected : forall lookup paths m dir c, In dir paths -> lookup dir = Found (Regular c) -> ~ accepted lookup paths m.
Proof. exact file_rejected. Qed.
Print Assumptions C79_file_rejected.

Theorem C79_sub_directories_refuted : exists files text, ex_version [] = Directory (inl files) /\ In ("old", Directory (inl [("bad.model", Regular (inl text))])) files /\
  (forall ds, ~ declares text ds) /\ exists m, accepted ex_directories ["model"] m.
Proof. exact sub_directories_example. Qed.
Print Assumptions C79_sub_directories_refuted.

(** C80: the check ends with code zero exactly when the model is accepted. *)
Theorem C80_check : forall recover lookup paths fs, reports_syntax recover -> proper lookup ->
  (exists rs, check_command recover lookup paths fs = Exit 0 rs fs) <-> paths <> [] /\ exists m, accepted lookup paths m.
Proof. exact check_accepts. Qed.
Print Assumptions C80_check.

(** The codes are zero or one, and they are one exactly when errors have been reported; the check never changes files. *)
Theorem C80_check_code : forall recover lookup paths fs code rs fs', check_command recover lookup paths fs = Exit code rs fs' ->
  fs' = fs /\ ((code = 0%nat /\ errors_in rs 0) \/ (code = 1%nat /\ ~ errors_in rs 0)).
Proof. exact check_ends. Qed.
Print Assumptions C80_check_code.

Theorem C80_docs_code : forall recover lookup sys paths output fs code rs fs', docs_command recover lookup sys paths output fs = Exit code rs fs' ->
  (code = 0%nat /\ errors_in rs 0) \/ (code = 1%nat /\ ~ errors_in rs 0).
Proof. exact docs_ends. Qed.
Print Assumptions C80_docs_code.

Theorem C80_openapi_code : forall recover lookup sys fuel paths output fs code rs fs', openapi_command recover lookup sys fuel paths output fs = Exit code rs fs' ->
  (code = 0%nat /\ errors_in rs 0) \/ (code = 1%nat /\ ~ errors_in rs 0).
Proof. exact openapi_ends. Qed.
Print Assumptions C80_openapi_code.

Theorem C80_go_code : forall recover lookup generate sources goimports paths base output fs code rs fs',
  go_command recover lookup generate sources goimports paths base output fs = Exit code rs fs' -> code = 0%nat \/ (code = 1%nat /\ ~ errors_in rs 0).
Proof. exact go_ends. Qed.
Print Assumptions C80_go_code.

Example C80_codes : exit_code (check_command ex_recover ex_directories ["model"] []) = Some 0%nat /\ exit_code (check_command ex_recover ex_with_readme ["model"] []) = Some 1%nat /\
  exit_code (check_command ex_recover ex_directories [] []) = Some 1%nat.
Proof. exact ex_check_command. Qed.

(** The generators change no files when there are options missing or the model isn't accepted. *)
Theorem C80_nothing_generated : forall recover lookup paths fs code rs fs', reports_syntax recover -> proper lookup ->
  (forall sys output, paths = [] \/ output = "" \/ (forall m, ~ accepted lookup paths m) ->
     docs_command recover lookup sys paths output fs = Exit code rs fs' -> code = 1%nat /\ fs' = fs) /\
  (forall sys fuel output, paths = [] \/ output = "" \/ (forall m, ~ accepted lookup paths m) ->
     openapi_command recover lookup sys fuel paths output fs = Exit code rs fs' -> code = 1%nat /\ fs' = fs) /\
  (forall generate sources goimports base output, paths = [] \/ base = "" \/ output = "" \/ (forall m, ~ accepted lookup paths m) ->
     go_command recover lookup generate sources goimports paths base output fs = Exit code rs fs' -> code = 1%nat /\ fs' = fs).
Proof. exact nothing_generated. Qed.
Print Assumptions C80_nothing_generated.

Example C80_rejected : proper ex_with_readme /\ forall m, ~ accepted ex_with_readme ["model"] m.
Proof. exact (conj ex_readme_proper ex_rejected). Qed.

(** The documentation: when the command succeeds the pages of the accepted model are in the output directory, and it succeeds if they can be
    written. *)
Theorem C80_docs : forall recover lookup sys paths output fs rs fs', reports_syntax recover -> proper lookup ->
  docs_command recover lookup sys paths output fs = Exit 0 rs fs' -> exists m, accepted lookup paths m /\
  (good_names m ->
   (forall p, (forall page pieces, In (page, pieces) (model_pages m) -> p <> page_path output page) -> mget p fs' = mget p fs) /\
   (forall before page pieces after, model_pages m = (before ++ (page, pieces) :: after)%list -> ~ In page (map fst after) -> Forall fits pieces ->
      exists content, mget (page_path output page) fs' = Some content /\ shows pieces content)).
Proof. exact docs_published. Qed.
Print Assumptions C80_docs.

Theorem C80_docs_succeeds : forall recover lookup sys paths output fs m, paths <> [] -> output <> "" -> accepted lookup paths m -> good_names m ->
  (forall page pieces, In (page, pieces) (model_pages m) -> sys_mkdir sys (path_dir (page_path output page)) = None /\ sys_open sys (page_path output page) = None) ->
  exists rs fs', docs_command recover lookup sys paths output fs = Exit 0 rs fs'.
Proof. exact docs_command_succeeds. Qed.
Print Assumptions C80_docs_succeeds.

Example C80_docs_example : exit_code (docs_command ex_recover ex_directories ex_system ["model"] "out" []) = Some 0%nat /\
  mhas "out/cluster_type.md" (files_after (docs_command ex_recover ex_directories ex_system ["model"] "out" [])) = true.
Proof. exact ex_docs_command. Qed.

(** The specifications: the command succeeds and publishes the documents of all the versions of an accepted model without undefined types. *)
Theorem C80_openapi : forall recover lookup sys paths output m, (forall d, sys_mkdir sys d = None) -> (forall f, sys_open sys f = None) ->
  paths <> [] -> output <> "" -> accepted lookup paths m ->
  (forall s v k t, in_model m s -> in_service s v -> type_at k v = Some t -> t_kind t <> UndefinedType) ->
  exists n, forall fuel fs, (n <= fuel)%nat -> exists rs fs', openapi_command recover lookup sys fuel paths output fs = Exit 0 rs fs' /\ errors_in rs 0 /\
    (forall p, (forall s v, in_model m s -> in_service s v -> p <> spec_path output s v) -> mget p fs' = mget p fs) /\
    (forall s v, in_model m s -> in_service s v -> exists s' v' reports0 fs0 text j, in_model m s' /\ in_service s' v' /\
       spec_path output s' v' = spec_path output s v /\ mget (spec_path output s v) fs' = Some text /\ json_document text j /\
       published sys fuel output s' v' reports0 fs0 j).
Proof. exact openapi_publishes. Qed.
Print Assumptions C80_openapi.

Example C80_openapi_example : exit_code (openapi_command ex_recover ex_directories ex_system 20 ["model"] "out" []) = Some 0%nat /\
  map fst (files_after (openapi_command ex_recover ex_directories ex_system 20 ["model"] "out" [])) = ["out/clusters_mgmt/v1/openapi.json"].
Proof. exact ex_openapi_command. Qed.

(** The Go code: the command succeeds exactly when the model is accepted, all the generators succeed, in order, and the sorted list of the
    generated files can be formatted. *)
Theorem C80_go : forall recover lookup generate sources goimports paths base output fs fs',
  reports_syntax recover -> proper lookup -> (forall o f l, sources o f = inl l -> NoDup l) ->
  (exists rs, go_command recover lookup generate sources goimports paths base output fs = Exit 0 rs fs') <->
  paths <> [] /\ base <> "" /\ output <> "" /\ exists m rs0 rs1 fs1 l l', accepted lookup paths m /\ read_paths recover lookup paths [] = Done (ROk m, rs0) /\
    all_succeed (fun g => generate g base output m) [GoErrors; GoHelpers; GoTypes; GoBuilders; GoClients; GoJson; GoMetrics; GoOpenapi] rs0 fs rs1 fs1 /\
    sources output fs1 = inl l /\ Permutation l l' /\ StronglySorted str_lt l' /\ goimports l' fs1 = (None, fs').
Proof. exact go_zero. Qed.
Print Assumptions C80_go.

(** When a generator fails the following ones don't run and nothing is formatted. *)
Theorem C80_go_stops : forall recover lookup generate sources goimports paths base output fs m rs0 before g after rs1 fs1 e rs2 fs2,
  paths <> [] -> base <> "" -> output <> "" -> read_paths recover lookup paths [] = Done (ROk m, rs0) ->
  [GoErrors; GoHelpers; GoTypes; GoBuilders; GoClients; GoJson; GoMetrics; GoOpenapi] = (before ++ g :: after)%list ->
  all_succeed (fun g => generate g base output m) before rs0 fs rs1 fs1 -> generate g base output m rs1 fs1 = (Some e, rs2, fs2) ->
  go_command recover lookup generate sources goimports paths base output fs = Exit 1 (rs2 ++ [err ("Generation failed: " ++ e)])%list fs2.
Proof. exact go_stops. Qed.
Print Assumptions C80_go_stops.

Example C80_go_example : exit_code (go_command ex_recover ex_directories ex_generate ex_sources ex_goimports ["model"] "example.com/sdk" "out" []) = Some 0%nat /\
  exit_code (go_command ex_recover ex_directories ex_failing ex_sources ex_goimports ["model"] "example.com/sdk" "out" []) = Some 1%nat /\
  (forall o f l, ex_sources o f = inl l -> NoDup l).
Proof. exact ex_go_command. Qed.
