(** Property theorems about the buffers of the generators (C51). *)
From Coq Require Import Ascii String Bool Arith ZArith NArith Lia Permutation List.
From Verif Require Import GoStrings GoMap ReporterModel TextModel TextSpec GoNamesModel BufferModel BufferSpec BufferProofs BufferProofs3 BufferProofs4 BufferExamples.
Import ListNotations.
Local Open Scope string_scope.

(** C51: when errors were reported nothing is written, and the message tells how many. *)
Theorem C51_refused : forall reports n, errors_in reports n -> 0 < n ->
  (forall sys header order b fs, exists m r, write_go sys header order b reports fs = (Some m, r, fs) /\ says n m) /\
  (forall sys b fs, exists m r, write_md sys b reports fs = (Some m, r, fs) /\ says n m) /\
  (forall sys output content fs, exists m r, write_openapi sys output content reports fs = (Some m, r, fs) /\ says n m) /\
  (forall versions, exists m, write_model versions reports = (Some m, reports) /\ says n m).
Proof. exact all_refused. Qed.
Print Assumptions C51_refused.
Example C51_refused_ex : errors_in [err "a"; warn "b"; err "c"] 2 /\
  write_model [] [err "a"; warn "b"; err "c"] = (Some "there were 2 errors", [err "a"; warn "b"; err "c"]) /\
  write_model [] [info "b"; err "c"] = (Some "there was 1 error", [info "b"; err "c"]).
Proof. split; [repeat constructor; discriminate|split; reflexivity]. Qed.

(** The errors reported while text is emitted are never forgotten. *)
Theorem C51_errors_kept : forall t l reports,
  (forall b, exists more, snd (go_events t l (b, reports)) = (reports ++ more)%list) /\
  (forall b, exists more, snd (md_events t l (b, reports)) = (reports ++ more)%list).
Proof. exact (fun t l reports => conj (fun b => go_reports_kept t l b reports) (fun b => md_reports_kept t l b reports)). Qed.
Print Assumptions C51_errors_kept.
Example C51_errors_kept_ex : snd (go_events ex_engine [Emitted "x" []; Emitted "y" [ArgOther 0]] (ex_go, [])) =
  [err "Can't execute template 'x': no name"; err "Template 'y' should have an even number of arguments, but it has 1"].
Proof. reflexivity. Qed.

(** A Go file that is written successfully contains the header, the package statement, exactly one import for
    each package that is needed, other than the package of the file, and the texts of all the templates, without
    the extra blank lines.  The other files don't change. *)
Theorem C51_go_files : forall t l base output pkg file reports b reports' sys header order fs reports'' fs',
  (forall m, Permutation (order m) m) ->
  go_events t l (new_go_buffer base output pkg file, reports) = (b, reports') ->
  write_go sys header order b reports' fs = (None, reports'', fs') ->
  exists texts more imports block lines lines' code,
    all_rendered t (shown (path_join [base; pkg])) l texts more /\
    (NoDup (map fst imports) /\
     (forall i s, In (i, s) imports -> i <> "" /\ i <> path_join [base; pkg] /\ (mentioned l i s \/ In (i, s) more)) /\
     (forall i s, i <> "" -> i <> path_join [base; pkg] -> mentioned l i s \/ In (i, s) more -> In i (map fst imports))) /\
    import_block imports block /\
    text_lines (emitted texts) lines /\ Forall2 without_cr lines lines' /\ tidied lines' code /\
    mget (path_join [output; pkg; file ++ ".go"]) fs' =
      Some (header ++ newline ++ newline ++ "package " ++ clean_pkg (path_base (path_join [base; pkg])) ++ " // " ++ path_join [base; pkg] ++ newline ++ newline ++
            block ++ terminated code) /\
    only_changes (path_join [output; pkg; file ++ ".go"]) fs fs'.
Proof. exact go_complete. Qed.
Print Assumptions C51_go_files.
Example C51_go_files_ex : go_events ex_engine ex_history (new_go_buffer "b" "out" "p" "file", []) = (fst ex_go_after, snd ex_go_after) /\
  write_go ex_system "// Header" (fun l => l) (fst ex_go_after) (snd ex_go_after) [("other", "x")] =
  (None, [info "ok"; info "Writing file 'out/p/file.go'"], [("other", "x"); ("out/p/file.go", ex_go_text)]).
Proof. exact (conj eq_refl ex_go_written). Qed.

(** Writing a Go file fails only if there were errors, if the directory or the file can't be created or if there
    is a line that is too long. *)
Theorem C51_go_failures : forall sys header order b reports fs l, text_lines (gb_code b) l ->
  (exists m, fst (fst (write_go sys header order b reports fs)) = Some m) <->
  (~ errors_in reports 0 \/ sys_mkdir sys (path_dir (gb_file b)) <> None \/ sys_open sys (gb_file b) <> None \/ ~ Forall short l).
Proof. exact go_failures. Qed.
Print Assumptions C51_go_failures.
Example C51_go_failures_ex : fst (fst (write_go (MkSystem (fun d => if String.eqb d "out/p" then Some "no space" else None) (fun _ => None)) "" (fun l => l) ex_go [] [])) =
  Some "can't create output directory 'out/p': no space".
Proof. reflexivity. Qed.

(** In the last case the previous content of the file is lost. *)
Theorem C51_damaged_file_refuted : exists sys header order b reports fs m reports' fs',
  write_go sys header order b reports fs = (Some m, reports', fs') /\ errors_in reports 0 /\ mget (gb_file b) fs = Some "old" /\
  mget (gb_file b) fs' <> Some "old".
Proof. exact go_truncated. Qed.
Print Assumptions C51_damaged_file_refuted.

(** Failed or not, only one file changes. *)
Theorem C51_other_files :
  (forall sys header order b reports fs, only_changes (gb_file b) fs (snd (write_go sys header order b reports fs))) /\
  (forall sys b reports fs, only_changes (mb_file b) fs (snd (write_md sys b reports fs))) /\
  (forall sys output content reports fs, only_changes output fs (snd (write_openapi sys output content reports fs))).
Proof. exact other_files. Qed.
Print Assumptions C51_other_files.
Example C51_other_files_ex : mget "other" (snd (write_go ex_system "// Header" (fun l => l) (fst ex_go_after) (snd ex_go_after) [("other", "x")])) = Some "x".
Proof. rewrite ex_go_written. reflexivity. Qed.

(** A Markdown file that is written successfully contains the texts of all the templates, without indentation. *)
Theorem C51_markdown_files : forall t l output file reports b reports' sys fs reports'' fs',
  md_events t l (new_md_buffer output file, reports) = (b, reports') -> write_md sys b reports' fs = (None, reports'', fs') ->
  exists texts more lines, all_rendered t shown_plain l texts more /\ text_lines (emitted texts) lines /\
    (Forall short lines -> exists r, Forall2 cleaned lines r /\ mget (path_join [output; file ++ ".md"]) fs' = Some (terminated r)) /\
    only_changes (path_join [output; file ++ ".md"]) fs fs'.
Proof. exact md_complete. Qed.
Print Assumptions C51_markdown_files.
Example C51_markdown_files_ex : md_events ex_engine ex_history (new_md_buffer "out" "file", []) = (fst ex_md_after, snd ex_md_after) /\
  write_md ex_system (fst ex_md_after) (snd ex_md_after) [] =
  (None, [info "ok"; info "Writing file 'out/file.md'"], [("out/file.md", terminated [""; "type A"; ""; ""; "var x p.T"; ""])]).
Proof. exact (conj eq_refl ex_md_written). Qed.

(** If all the templates can be rendered and no other errors are reported then the files aren't refused. *)
Theorem C51_no_other_errors : forall t l reports texts more, unordered t -> errors_in reports 0 ->
  (forall b, all_rendered t (shown (gb_pkg b)) l texts more -> errors_in (snd (go_events t l (b, reports))) 0) /\
  (forall b, all_rendered t shown_plain l texts more -> errors_in (snd (md_events t l (b, reports))) 0).
Proof.
  exact (fun t l reports texts more U Z => conj (fun b => go_no_errors t l U b reports texts more Z) (fun b => md_no_errors t l U b reports texts more Z)).
Qed.
Print Assumptions C51_no_other_errors.
Example C51_no_other_errors_ex : unordered ex_engine /\ (exists texts more, all_rendered ex_engine (shown "b/p") ex_history texts more /\ length texts = 2) /\
  exists texts more, all_rendered ex_engine shown_plain ex_history texts more /\ length texts = 2.
Proof. exact (conj ex_engine_unordered (conj ex_rendered ex_rendered_md)). Qed.

Theorem C51_markdown_written : forall sys b reports fs l, errors_in reports 0 -> sys_mkdir sys (path_dir (mb_file b)) = None ->
  sys_open sys (mb_file b) = None -> text_lines (mb_code b) l -> Forall short l ->
  exists r fs', Forall2 cleaned l r /\ write_md sys b reports fs = (None, (reports ++ [info ("Writing file '" ++ mb_file b ++ "'")])%list, fs') /\
    mget (mb_file b) fs' = Some (terminated r).
Proof. exact md_written. Qed.
Print Assumptions C51_markdown_written.
Example C51_markdown_written_ex : write_md ex_system (fst ex_md_after) (snd ex_md_after) [] =
  (None, [info "ok"; info "Writing file 'out/file.md'"], [("out/file.md", terminated [""; "type A"; ""; ""; "var x p.T"; ""])]).
Proof. exact ex_md_written. Qed.

(** OpenAPI documents are written without changes. *)
Theorem C51_openapi_files : forall sys output content reports fs, errors_in reports 0 -> sys_mkdir sys (path_dir output) = None -> sys_open sys output = None ->
  exists fs', write_openapi sys output content reports fs = (None, (reports ++ [info ("Writing file '" ++ output ++ "'")])%list, fs') /\
    mget output fs' = Some content.
Proof. exact openapi_written. Qed.
Print Assumptions C51_openapi_files.
Example C51_openapi_files_ex : write_openapi ex_system "out/cm/v1/openapi.json" "{}" [info "ok"] [] =
  (None, [info "ok"; info "Writing file 'out/cm/v1/openapi.json'"], [("out/cm/v1/openapi.json", "{}")]).
Proof. reflexivity. Qed.

(** The writer of models reports the name of each type and of each resource, and no errors. *)
Theorem C51_models : forall versions reports, errors_in reports 0 ->
  exists more, write_model versions reports = (None, (reports ++ more)%list) /\ errors_in more 0 /\
  (forall m, In (info m) more <-> exists ts rs, In (ts, rs) versions /\
     ((exists t, In t ts /\ m = "Writing type '" ++ t ++ "'") \/ exists r, In r rs /\ m = "Writing resource '" ++ r ++ "'")).
Proof. exact model_written. Qed.
Print Assumptions C51_models.
Example C51_models_ex : write_model [(["A"; "B"], ["R"])] [] = (None, [info "Writing type 'A'"; info "Writing type 'B'"; info "Writing resource 'R'"]).
Proof. reflexivity. Qed.
