(** Property theorems about the processing of text (C50, C53, C54, C55 and C63). *)
From Coq Require Import Ascii String Bool Arith ZArith NArith Lia List.
From Verif Require Import GoStrings GoMap ReporterModel TextModel TextSpec TextProofs TextProofs2 TextProofs3 TextProofs4 TextExamples.
Import ListNotations.
Local Open Scope string_scope.

(** C50: every text is a list of lines, and the lines of the result are the ones that are kept.  The last line
    is always lost. *)
Theorem C50_kept_lines : forall code l l', text_lines code l -> Forall short l -> Forall2 without_cr l l' ->
  exists r, remove_extra_blank_lines code = Some (terminated r) /\ Forall is_line r /\ tidied l' r.
Proof. exact blank_lines_removed. Qed.
Print Assumptions C50_kept_lines.
Example C50_kept_lines_ex : text_lines ex_code ex_code_lines /\ Forall short ex_code_lines /\ Forall2 without_cr ex_code_lines ex_code_lines /\
  remove_extra_blank_lines ex_code = Some (terminated ex_code_result).
Proof. exact (conj ex_code_text (conj ex_code_short (conj ex_code_cr ex_code_removed))). Qed.

Theorem C50_any_text_has_lines : forall s, exists l, text_lines s l.
Proof. exact lines_exist. Qed.
Print Assumptions C50_any_text_has_lines.
Example C50_any_text_has_lines_ex : text_lines ex_code ex_code_lines /\ length ex_code_lines = 12.
Proof. exact (conj ex_code_text eq_refl). Qed.

(** The non blank lines of texts like the emitted ones are kept, in the same order. *)
Theorem C50_non_blank_lines : forall texts l l' k, Forall ends_blank texts -> text_lines (emitted texts) l -> Forall short l ->
  Forall2 without_cr l l' -> non_blank l' k -> exists r, remove_extra_blank_lines (emitted texts) = Some (terminated r) /\ non_blank r k.
Proof. exact emitted_kept. Qed.
Print Assumptions C50_non_blank_lines.
Example C50_non_blank_lines_ex : Forall ends_blank ex_templates /\ text_lines (emitted ex_templates) ex_template_lines /\
  Forall short ex_template_lines /\ Forall2 without_cr ex_template_lines ex_template_lines /\
  non_blank ex_template_lines [String tab "func f() {"; String tab "}"; "const x = 1"].
Proof.
  exact (conj ex_templates_blank (conj ex_template_text (conj (shorts ex_template_lines eq_refl) (conj (same_without_cr ex_template_lines eq_refl)
    (non_blank_filter ex_template_lines))))).
Qed.

(** The same for any text, except the last line. *)
Theorem C50_non_blank_lines_but_last : forall l r k, tidied l r -> non_blank (removelast l) k -> non_blank r k.
Proof. exact tidied_non_blank. Qed.
Print Assumptions C50_non_blank_lines_but_last.
Example C50_non_blank_lines_but_last_ex : exists r, tidied ex_code_lines r /\
  non_blank (removelast ex_code_lines) ["func f() {"; String tab "// Comment:"; String tab "g()"; "}"; "func g() {"; "}"].
Proof. eexists. split; [apply tidy_tidied|exact (non_blank_filter (removelast ex_code_lines))]. Qed.

(** There are never two consecutive blank lines: the ones that remain are before comments. *)
Theorem C50_no_double_blank_lines : forall l r, tidied l r ->
  no_double_blanks r /\ forall a x y b, r = (a ++ x :: y :: b)%list -> blank x -> comment y.
Proof. exact (fun l r T => conj (tidied_no_double l r T) (fun a x y b => tidied_comments l r a x y b T)). Qed.
Print Assumptions C50_no_double_blank_lines.
Example C50_no_double_blank_lines_ex : exists r, tidied ex_code_lines r /\ length r = 7.
Proof. eexists. split; [apply tidy_tidied|reflexivity]. Qed.

(** Removing the lines again removes only the last line. *)
Theorem C50_idempotent : forall code out r, plain_text code -> remove_extra_blank_lines code = Some out -> text_lines out r ->
  out = terminated r /\ remove_extra_blank_lines out = Some (terminated (removelast r)).
Proof. exact removed_twice. Qed.
Print Assumptions C50_idempotent.
Example C50_idempotent_ex : plain_text ex_code /\ remove_extra_blank_lines ex_code = Some (terminated ex_code_result) /\
  text_lines (terminated ex_code_result) ex_code_result.
Proof. exact (conj ex_code_plain (conj ex_code_removed (lines_terminated ex_code_result eq_refl))). Qed.

(** The result is an error only if there are lines of 65536 bytes or more. *)
Theorem C50_failures : forall code l, text_lines code l -> (remove_extra_blank_lines code = None <-> ~ Forall short l).
Proof. exact long_lines_fail. Qed.
Print Assumptions C50_failures.
Example C50_failures_ex : text_lines ex_code ex_code_lines /\ remove_extra_blank_lines ex_code <> None.
Proof. split; [exact ex_code_text|]. rewrite ex_code_removed. discriminate. Qed.

(** Without the condition about the last line the text isn't kept. *)
Theorem C50_last_line_refuted : exists code l k, text_lines code l /\ non_blank l k /\ k <> [] /\ remove_extra_blank_lines code = Some "".
Proof.
  exists (terminated ["package x"]), ["package x"], ["package x"].
  exact (conj (lines_terminated ["package x"] eq_refl) (conj (non_blank_filter ["package x"]) (conj (fun E => eq_ind ["package x"] (fun l => match l with [] => False | _ => True end) I [] E) eq_refl))).
Qed.
Print Assumptions C50_last_line_refuted.

(** C53: every line of a generated comment starts with the mark, whatever the documentation is. *)
Theorem C53_comments_stay_comments : forall s, (exists r, line_comment s = "// " ++ r) /\
  forall a b, line_comment s = a ++ String lf b -> exists r, b = "// " ++ r.
Proof. exact comment_starts. Qed.
Print Assumptions C53_comments_stay_comments.
Example C53_comments_stay_comments_ex : line_comment ("First." ++ newline ++ "os.Exit(1)") = ("// First." ++ newline) ++ "// os.Exit(1)".
Proof. reflexivity. Qed.

(** The comment contains the lines of the documentation, in the same order. *)
Theorem C53_comment_lines : forall l, l <> [] -> Forall is_line l ->
  line_comment (str_join newline l) = str_join newline (map (fun s => "// " ++ s) l).
Proof. exact comment_lines. Qed.
Print Assumptions C53_comment_lines.
Example C53_comment_lines_ex : Forall is_line ["First."; "os.Exit(1)"] /\ line_comment (str_join newline ["First."; "os.Exit(1)"]) = str_join newline ["// First."; "// os.Exit(1)"].
Proof. split; [exact (proj1 (lines_terminated ["First."; "os.Exit(1)"] eq_refl))|reflexivity]. Qed.

(** The documentation of a declaration is calculated from the comments of the lines immediately before it:
    when there are no error reports it is the text of those comments, the comments are used only once, and
    otherwise the comments aren't well written. *)
Theorem C53_documentation : forall c line block, comment_block c line block ->
  match get_doc c line with
  | GotDoc doc [] c' => documented block doc /\ consumed c line block c'
  | GotDoc doc reports c' =>
      doc = "" /\ Forall (fun r => rp_severity r = SError) reports /\ (forall d, ~ documented block d) /\ consumed c line block c'
  | DocPanics => exists s rest, block = ("//" ++ s)%string :: rest /\ blank s /\ forall d, ~ documented block d
  end.
Proof. exact doc_read. Qed.
Print Assumptions C53_documentation.
Example C53_documentation_ex : comment_block ex_comments 8 ["// First line."; "//"; "//   Indented line."] /\
  get_doc ex_comments 8 = GotDoc ex_doc [] [(3, "// Another.")].
Proof. exact (conj ex_block eq_refl). Qed.

Theorem C53_documentation_found : forall c line block doc, comment_block c line block -> documented block doc ->
  exists c', get_doc c line = GotDoc doc [] c' /\ consumed c line block c'.
Proof. exact doc_found. Qed.
Print Assumptions C53_documentation_found.
Example C53_documentation_found_ex : comment_block ex_comments 8 ["// First line."; "//"; "//   Indented line."] /\
  documented ["// First line."; "//"; "//   Indented line."] ex_doc.
Proof. exact (conj ex_block ex_documented). Qed.

(** There is always exactly one block of comments, and it has at most one documentation. *)
Theorem C53_documentation_unique : (forall c line, exists b, comment_block c line b) /\
  (forall c line b b', comment_block c line b -> comment_block c line b' -> b = b') /\
  (forall block d d', documented block d -> documented block d' -> d = d').
Proof. exact (conj block_exists (conj block_unique documented_unique)). Qed.
Print Assumptions C53_documentation_unique.
Example C53_documentation_unique_ex : comment_block ex_comments 8 ["// First line."; "//"; "//   Indented line."] /\
  documented ["// First line."; "//"; "//   Indented line."] ex_doc.
Proof. exact (conj ex_block ex_documented). Qed.

(** The comments seen by the lexer are the ones that are found later. *)
Theorem C53_comment_added : forall c line text k, comment_at (comment_add c line text) k = if Nat.eqb k line then Some text else comment_at c k.
Proof. exact comment_added. Qed.
Print Assumptions C53_comment_added.
Example C53_comment_added_ex : comment_at (comment_add ex_comments 6 "// Other") 6 = Some "// Other" /\ comment_at (comment_add ex_comments 6 "// Other") 5 = Some "// First line.".
Proof. split; reflexivity. Qed.

(** A comment that starts with an empty line stops the program. *)
Theorem C53_blank_first_line_refuted : exists c line, comment_block c line ["//"; "// Text."] /\ get_doc c line = DocPanics.
Proof. exact ex_blank_first_line. Qed.
Print Assumptions C53_blank_first_line_refuted.

(** C54: the summary is the complete documentation if there is no dot, otherwise the text till the first dot, in
    one line. *)
Theorem C54_no_dot : forall doc, ~ occurs "." doc -> doc_summary doc = doc.
Proof. exact summary_complete. Qed.
Print Assumptions C54_no_dot.
Example C54_no_dot_ex : ~ occurs "." ("Some" ++ newline ++ "text").
Proof. exact (lacks "." ("Some" ++ newline ++ "text") eq_refl). Qed.

Theorem C54_first_sentence : forall l rest, Forall is_line l -> Forall (fun s => ~ occurs "." s) l ->
  doc_summary (str_join newline l ++ "." ++ rest) = String.concat "" l ++ ".".
Proof. exact summary_sentence. Qed.
Print Assumptions C54_first_sentence.
Example C54_first_sentence_ex : Forall is_line ["First"; " sentence"] /\ Forall (fun s => ~ occurs "." s) ["First"; " sentence"] /\
  str_join newline ["First"; " sentence"] ++ "." ++ " Second. Third" = "First" ++ newline ++ " sentence. Second. Third" /\
  doc_summary ("First" ++ newline ++ " sentence. Second. Third") = "First sentence.".
Proof.
  split; [exact (proj1 (lines_terminated ["First"; " sentence"] eq_refl))|].
  split; [repeat constructor; now apply lacks|]. split; reflexivity.
Qed.

(** The words at the end of a line and at the start of the next one are joined. *)
Theorem C54_joined_words_refuted : exists a b, is_line a /\ is_line b /\ ~ blank a /\ ~ blank b /\
  (forall a' c, a <> a' ++ String c "" \/ is_space c = false) /\ doc_summary (a ++ newline ++ b ++ ".") = a ++ b ++ ".".
Proof. exact ex_joined_words. Qed.
Print Assumptions C54_joined_words_refuted.

(** When there is no dot the summary can have several lines. *)
Theorem C54_several_lines_refuted : exists doc, occurs lf (doc_summary doc).
Proof. exists ("a" ++ newline ++ "b"). exists "a", "b". reflexivity. Qed.
Print Assumptions C54_several_lines_refuted.

(** C55: the lines of the Markdown text are the original ones without tabs at the beginning and white space at
    the end. *)
Theorem C55_cleaned_lines : forall s l, text_lines s l -> Forall short l -> exists r, remove_tabs s = terminated r /\ Forall is_line r /\ Forall2 cleaned l r.
Proof. exact markdown_cleaned. Qed.
Print Assumptions C55_cleaned_lines.
Example C55_cleaned_lines_ex : text_lines ex_code ex_code_lines /\ Forall short ex_code_lines /\
  remove_tabs ex_code = terminated ["func f() {"; ""; "// Comment:"; ""; ""; "g()"; ""; "}"; ""; "func g() {"; "}"; ""].
Proof. exact (conj ex_code_text (conj ex_code_short eq_refl)). Qed.

Theorem C55_idempotent : forall s l, text_lines s l -> Forall short l -> remove_tabs (remove_tabs s) = remove_tabs s.
Proof. exact markdown_twice. Qed.
Print Assumptions C55_idempotent.
Example C55_idempotent_ex : text_lines ex_code ex_code_lines /\ Forall short ex_code_lines /\ remove_tabs ex_code <> ex_code.
Proof. exact (conj ex_code_text (conj ex_code_short ex_code_changed)). Qed.

(** Without the limit of the length of the lines the text can be lost. *)
Theorem C55_long_lines_refuted : exists s l, text_lines s l /\ Forall (fun x => ~ blank x) l /\ l <> [] /\ remove_tabs s = "".
Proof. exact markdown_lost. Qed.
Print Assumptions C55_long_lines_refuted.

(** C63: the array of bytes generated for some data has one literal for each byte, in the same order, with the
    value of the byte. *)
Theorem C63_byte_arrays : forall data, exists items, remove_char lf (byte_array data) = elements items /\
  Forall2 (fun item c => hex_literal item (N_of_ascii c)) items (list_ascii_of_string data).
Proof. exact byte_array_elements. Qed.
Print Assumptions C63_byte_arrays.
Example C63_byte_arrays_ex : remove_char lf (byte_array "Az") = elements ["0x41"; "0x7a"].
Proof. reflexivity. Qed.

(** C57: the name used in the package statement is the last element of the import path, without the parts that
    can't be part of an identifier. *)
Theorem C57_package_statement : (forall s, ~ occurs "-" s -> clean_pkg s = s) /\ (forall s, ~ occurs "-" s -> clean_pkg (s ++ "-go") = s) /\
  forall a s, a <> "" -> ~ occurs "-" s -> clean_pkg (a ++ "-" ++ s ++ "-go") = s /\ (s <> "go" -> clean_pkg (a ++ "-" ++ s) = s).
Proof. exact (conj clean_plain (conj clean_suffix clean_last)). Qed.
Print Assumptions C57_package_statement.
Example C57_package_statement_ex : ~ occurs "-" "sdk" /\ clean_pkg "ocm-sdk-go" = "sdk".
Proof. exact (conj (lacks "-" "sdk" eq_refl) eq_refl). Qed.
