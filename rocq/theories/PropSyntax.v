(** Property theorems about the language of the models (C66, C67, C68 and C69). *)
From Coq Require Import Ascii String Bool Arith ZArith NArith Lia List.
From Verif Require Import GoStrings ReporterModel TextModel TextSpec ReaderModel SyntaxModel SyntaxSpec SyntaxProofs2 SyntaxProofs4 SyntaxProofs7 SyntaxProofs9 SyntaxProofs10 SyntaxProofs11 SyntaxExamples.
Import ListNotations.
Local Open Scope string_scope.

(** C66: the declarations that are read from a text are those of the grammars. *)
Theorem C66_parse : forall s ds ignored c, parse_text s = Parsed ds ignored c <-> reads s ds ignored c.
Proof. exact parse_iff. Qed.
Print Assumptions C66_parse.
Example C66_parse_ex : reads ex_file ex_trees [] ex_file_comments.
Proof. exact (proj1 (parse_iff _ _ _ _) ex_parsed). Qed.

(** Otherwise there is an error. *)
Theorem C66_errors : forall s, (parse_text s = SyntaxError <-> forall ds ignored c, ~ reads s ds ignored c) /\ parse_text s <> ParseFuel.
Proof. exact (fun s => conj (parse_error_iff s) (parse_fuel s)). Qed.
Print Assumptions C66_errors.
Example C66_errors_ex : parse_text "class A { b }" = SyntaxError /\ parse_text "class A { b C } class B { #" = SyntaxError /\
  parse_text "class A { b C }" <> SyntaxError.
Proof. vm_compute. repeat split. discriminate. Qed.

(** The meaning is unique, although many words of the grammar are optional. *)
Theorem C66_unique : forall s ds ds' ignored ignored' c c',
  reads s ds ignored c -> reads s ds' ignored' c' -> ds = ds' /\ ignored = ignored' /\ c = c'.
Proof. exact reads_unique. Qed.
Print Assumptions C66_unique.
Example C66_unique_ex : reads ex_file ex_trees [] ex_file_comments.
Proof. exact (proj1 (parse_iff _ _ _ _) ex_parsed). Qed.
Theorem C66_unambiguous : forall ds ds' l, g_file ds l -> g_file ds' l -> ds = ds'.
Proof. exact file_unambiguous. Qed.
Print Assumptions C66_unambiguous.
Example C66_unambiguous_ex : exists l c, lexes 1 ex_file l c "" /\ g_file ex_trees l.
Proof. exact ex_sentence. Qed.

(** The text isn't always read completely: the declarations after a mistake like this one are ignored. *)
Theorem C66_ignored_text_refuted : exists s a ignored c, parse_text s = Parsed [a] ignored c /\ sd_name a = "A" /\
  load_text s = Loaded [DClass [] "A" [] ""] [] ignored /\
  exists before after n, ignored = (before ++ (n, TKeyword "class") :: (n, TIdent "C") :: after)%list.
Proof.
  exists (text ["class A {"; "}"; "clas B {"; "}"; "class C {"; "}"]). do 3 eexists. split; [vm_compute; reflexivity|].
  split; [reflexivity|]. split; [vm_compute; reflexivity|]. now exists [(3, TIdent "clas"); (3, TIdent "B"); (3, TPunct "{"); (4, TPunct "}")], [(5, TPunct "{"); (6, TPunct "}")], 5.
Qed.
Print Assumptions C66_ignored_text_refuted.

(** C67: the layout of the text doesn't change its meaning. *)
Theorem C67_layouts : forall g s g' s' l, gap g -> laid_out l s -> gap g' -> laid_out l s' ->
  match parse_text (g ++ s), parse_text (g' ++ s') with
  | Parsed ds ignored _, Parsed ds' ignored' _ => map unplaced ds = map unplaced ds' /\ map snd ignored = map snd ignored'
  | SyntaxError, SyntaxError => True
  | _, _ => False
  end.
Proof. exact layouts. Qed.
Print Assumptions C67_layouts.
Example C67_layouts_ex : laid_out ex_tokens ex_one_line /\ laid_out ex_tokens ex_long /\ parse_text ex_one_line = Parsed ex_small [] [].
Proof. exact (conj ex_one_line_laid (conj ex_long_laid (eq_refl (parse_text ex_one_line)))). Qed.

(** Everything that has valid names can be written, and is read back from any layout. *)
Theorem C67_written : forall ds, Forall decl_ok ds -> exists l, (exists s, laid_out l s) /\
  forall g s, gap g -> laid_out l s -> exists ds' c, parse_text (g ++ s) = Parsed ds' [] c /\ map unplaced ds' = map unplaced ds.
Proof. exact written. Qed.
Print Assumptions C67_written.
Example C67_written_ex : Forall decl_ok ex_small.
Proof. exact ex_small_ok. Qed.

(** The keywords can't be used as names, although there is only one way to understand the text. *)
Theorem C67_keywords_refuted : forall w, In w words -> matches NameRule w /\ parse_text ("class A { " ++ w ++ " String }") = SyntaxError.
Proof. exact keywords_refused. Qed.
Print Assumptions C67_keywords_refuted.
Example C67_keywords_refuted_ex : In "value" words /\ In "code" words /\ parse_text "class A { values String }" <> SyntaxError.
Proof. vm_compute. intuition discriminate. Qed.

(** C68: string literals have the value that the specification of Go gives them. *)
Theorem C68_string_literals : forall s v, unquote s = Some v <-> denotes s v.
Proof. exact unquote_iff. Qed.
Print Assumptions C68_string_literals.
Example C68_string_literals_ex : unquote (q ("\n\x41é" ++ "~")) = Some (String lf ("A" ++ String "195" (String "169" "~"))).
Proof. vm_compute. reflexivity. Qed.
Theorem C68_unique : forall s v v', denotes s v -> denotes s v' -> v = v'.
Proof. exact denotes_unique. Qed.
Print Assumptions C68_unique.
Example C68_unique_ex : denotes (q "a\tb") (String "a" (String tab "b")).
Proof. exact (proj1 (unquote_iff (q "a\tb") (String "a" (String tab "b"))) eq_refl). Qed.

(** But those that contain an escaped double quote can't be used: the first double quote ends the literal. *)
Theorem C68_escaped_quotes_refuted : exists s v, denotes s v /\ ~ matches StringRule s /\
  parse_text ("@go(name=" ++ s ++ ") class A { }") = SyntaxError.
Proof. exact escaped_quotes_refused. Qed.
Print Assumptions C68_escaped_quotes_refuted.

(** C69: each element has the documentation that is written in the lines before it. *)
Theorem C69_documentation : forall s ds ignored c, parse_text s = Parsed ds ignored c ->
  (forall n, In n (flat_map decl_lines ds) -> comment_at c n = None) -> NoDup (filter (commented c) (flat_map decl_lines ds)) ->
  (forall n, In n (flat_map decl_lines ds) -> exists doc, doc_for c n doc) ->
  exists ds', load_text s = Loaded ds' [] ignored /\ map bare ds' = map unplaced ds /\
    Forall2 (doc_for c) (flat_map decl_lines ds) (flat_map decl_docs ds').
Proof. exact load_documents. Qed.
Print Assumptions C69_documentation.
Example C69_documentation_ex : parse_text ex_file = Parsed ex_trees [] ex_file_comments /\
  (forall n, In n (flat_map decl_lines ex_trees) -> comment_at ex_file_comments n = None) /\
  NoDup (filter (commented ex_file_comments) (flat_map decl_lines ex_trees)) /\
  Forall2 (doc_for ex_file_comments) (flat_map decl_lines ex_trees) ex_docs.
Proof. exact (conj ex_parsed (conj ex_no_trailing (conj ex_no_repeat ex_doc_for))). Qed.
Theorem C69_documentation_unique : forall c n doc doc', doc_for c n doc -> doc_for c n doc' -> doc = doc'.
Proof. exact doc_for_unique. Qed.
Print Assumptions C69_documentation_unique.
Example C69_documentation_unique_ex : doc_for ex_file_comments 7 ("Status of a cluster." ++ newline ++ newline ++ "It changes.").
Proof. exact (got_doc ex_file_comments 7 ("Status of a cluster." ++ newline ++ newline ++ "It changes.") eq_refl). Qed.

(** Comments that aren't documentation aren't accepted in silence. *)
Theorem C69_faulty_comments : forall s ds ignored c n, parse_text s = Parsed ds ignored c ->
  (forall n, In n (flat_map decl_lines ds) -> comment_at c n = None) -> NoDup (filter (commented c) (flat_map decl_lines ds)) ->
  In n (flat_map decl_lines ds) -> (forall doc, ~ doc_for c n doc) ->
  load_text s = LoadPanics \/
  exists ds' reports, load_text s = Loaded ds' reports ignored /\ reports <> [] /\ Forall (fun r => rp_severity r = SError) reports.
Proof. exact load_reports. Qed.
Print Assumptions C69_faulty_comments.
Example C69_faulty_comments_ex : parse_text ex_faulty = Parsed [MkSDecl 3 [] "A" (BClass [])] [] ex_faulty_comments /\
  (forall doc, ~ doc_for ex_faulty_comments 3 doc) /\
  load_text ex_faulty = Loaded [DClass [] "A" [] ""] [err "Documentation comment at line 2 has different prefix than first line"; err "First line is '  One.'"; err "Offending line is ' Two.'"] [].
Proof. split; [exact ex_faulty_parsed|]. split; [exact ex_faulty_doc|vm_compute; reflexivity]. Qed.

(** Not if the element and its first member are in the same line: the member takes it. *)
Theorem C69_same_line_refuted : exists s, parse_text s = Parsed [MkSDecl 2 [] "A" (BClass [MkSMember 2 [] false "b" (RPlain "C")])] [] [(1, "// Documentation of A.")] /\
  load_text s = Loaded [DClass [] "A" [MkMemberDecl [] false "b" (RPlain "C") "Documentation of A."] ""] [] [].
Proof. exists (text ["// Documentation of A."; "class A { b C }"]). split; vm_compute; reflexivity. Qed.
Print Assumptions C69_same_line_refuted.

(** Nor if there is a comment in the line of the element: the member of the next line takes both. *)
Theorem C69_trailing_comment_refuted : exists s, load_text s =
  Loaded [DClass [] "A" [MkMemberDecl [] false "b" (RPlain "C") ("Documentation of A." ++ newline ++ "Trailing.")] ""] [] [].
Proof. exists (text ["// Documentation of A."; "class A { // Trailing."; "  b C"; "}"]). vm_compute; reflexivity. Qed.
Print Assumptions C69_trailing_comment_refuted.
