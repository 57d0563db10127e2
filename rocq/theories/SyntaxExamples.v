(** Examples used to show that the hypotheses of the theorems about the language can be satisfied. *)
From Coq Require Import Ascii String Bool Arith ZArith NArith Lia List.
From Verif Require Import GoStrings GoStringsProofs ReporterModel TextModel TextSpec TextProofs TextProofs4 TextExamples ReaderModel SyntaxModel SyntaxSpec SyntaxProofs2 SyntaxProofs5 SyntaxProofs6 SyntaxProofs7 SyntaxProofs9 SyntaxProofs10.
Import ListNotations.
Local Open Scope string_scope.

Definition text (l : list string) : string := terminated l.
Definition q (s : string) : string := String quote_char (s ++ String quote_char "").

(** A file with most of the elements of the language. *)
Definition ex_file : string := text
  ["/* License";
   "*/";
   "";
   "// Status of a cluster.";
   "//";
   "// It changes.";
   "@go(name=" ++ q "State" ++ ")";
   "enum Status {";
   "  // It is ready.";
   "  Ready";
   "  value Failed";
   "}";
   "";
   "resource Clusters {";
   "  // Lists them.";
   "  method List {";
   "    // Number of the page.";
   "    in out Page Integer = 1";
   "    out Items []Cluster";
   "  }";
   "  // Locates one.";
   "  locator Cluster { target Cluster variable ID }";
   "}"].
Definition ex_trees : list sdecl :=
  [MkSDecl 7 [MkAnnotationDecl "go" [("name", LDString (q "State") (Some "State"))]] "Status"
     (BEnum [MkSValue 10 [] "Ready"; MkSValue 11 [] "Failed"]);
   MkSDecl 14 [] "Clusters"
     (BResource
       [SMMethod (MkSMethod 16 [] "List"
          [MkSParam 18 [] [DIn; DOut] "Page" (RPlain "Integer") (Some (LDInt "1")); MkSParam 19 [] [DOut] "Items" (RList "Cluster") None]);
        SMLocator (MkSLocator 22 [] "Cluster" [LMTarget "Cluster"; LMVariable "ID"])])].
Definition ex_file_comments : comments :=
  [(4, "// Status of a cluster."); (5, "//"); (6, "// It changes."); (9, "// It is ready."); (15, "// Lists them.");
   (17, "// Number of the page."); (21, "// Locates one.")].
Lemma ex_parsed : parse_text ex_file = Parsed ex_trees [] ex_file_comments.
Proof. vm_compute. reflexivity. Qed.

(** The same tokens with another layout. *)
Definition ex_small : list sdecl := [MkSDecl 1 [] "A" (BClass [MkSMember 1 [] true "b" (RList "C")])].
Definition ex_tokens : list token :=
  [TKeyword "class"; TIdent "A"; TPunct "{"; TKeyword "link"; TIdent "b"; TPunct "["; TPunct "]"; TIdent "C"; TPunct "}"].
Definition ex_one_line : string := "class A{link b[]C}".
Definition ex_long : string := "class" ++ newline ++ "A { // The name." ++ newline ++ "link/* It is */b [ ] C } ".

Lemma gap_space s : gap s -> gap (String " " s). Proof. intros. apply gap_blank; [now left|assumption]. Qed.
Lemma gap_lf s : gap s -> gap (String lf s). Proof. intros. apply gap_blank; [unfold blank_char; tauto|assumption]. Qed.
Lemma text_keyword w : existsb (String.eqb w) keywords = true -> token_text (TKeyword w) w.
Proof. intros H. apply word_iff in H. apply (text_of_token (WordRule w)); [now split|constructor|discriminate]. Qed.
Lemma text_mark c : existsb (Ascii.eqb c) punctuation = true -> token_text (TPunct c) (String c "").
Proof. intros H. apply mark_iff in H. apply (text_of_token (MarkRule c)); [now split|constructor|discriminate]. Qed.
Lemma text_name c s : is_name_start c = true -> forallb is_name_char (list_ascii_of_string s) = true -> existsb (String.eqb (String c s)) keywords = false ->
  token_text (TIdent (String c s)) (String c s).
Proof.
  intros H K N. apply (text_of_token NameRule); [|constructor|].
  - exists c, s. split; [reflexivity|]. split; [now apply letter_iff|]. intros d O. apply name_char_iff. apply occurs_list in O. now apply (proj1 (forallb_forall _ _) K).
  - intros _ I. apply word_iff in I. congruence.
Qed.
Ltac token_by := first [apply text_keyword; reflexivity | apply text_mark; reflexivity | apply text_name; reflexivity].
Ltac apart_by := cbn; first [exact I | intros; discriminate | intros []; fail | intros ? []; fail | tauto].

Lemma laid_step t a g l s r : token_text t a -> gap g -> apart t l g -> laid_out l s -> r = a ++ g ++ s -> laid_out (t :: l) r.
Proof. intros. subst. now constructor. Qed.
Lemma ex_one_line_laid : laid_out ex_tokens ex_one_line.
Proof.
  unfold ex_tokens, ex_one_line.
  eapply (laid_step _ "class" " "); [token_by|apply gap_space, gap_nil|apart_by| |reflexivity].
  eapply (laid_step _ "A" ""); [token_by|apply gap_nil|apart_by| |reflexivity].
  eapply (laid_step _ "{" ""); [token_by|apply gap_nil|apart_by| |reflexivity].
  eapply (laid_step _ "link" " "); [token_by|apply gap_space, gap_nil|apart_by| |reflexivity].
  eapply (laid_step _ "b" ""); [token_by|apply gap_nil|apart_by| |reflexivity].
  eapply (laid_step _ "[" ""); [token_by|apply gap_nil|apart_by| |reflexivity].
  eapply (laid_step _ "]" ""); [token_by|apply gap_nil|apart_by| |reflexivity].
  eapply (laid_step _ "C" ""); [token_by|apply gap_nil|apart_by| |reflexivity].
  eapply (laid_step _ "}" ""); [token_by|apply gap_nil|apart_by| |reflexivity].
  constructor.
Qed.
Lemma line_comment s : has_char cr s = false -> has_char lf s = false -> matches LineRule ("//" ++ s).
Proof. intros A B. exists s. split; [reflexivity|]. split; now apply lacks. Qed.
Lemma block_comment s b : until_close s = Some (s, b) -> matches BlockRule ("/*" ++ s).
Proof. intros H. exists s. split; [reflexivity|]. now apply until_close_ends in H as (_ & H). Qed.
Lemma ex_long_laid : laid_out ex_tokens ex_long.
Proof.
  unfold ex_tokens, ex_long.
  eapply (laid_step _ "class" newline); [token_by|apply gap_lf, gap_nil|apart_by| |reflexivity].
  eapply (laid_step _ "A" " "); [token_by|apply gap_space, gap_nil|apart_by| |reflexivity].
  eapply (laid_step _ "{" (" // The name." ++ newline)); [token_by| |apart_by| |reflexivity].
  { apply gap_space. apply (gap_line ("//" ++ " The name.") lf ""); [now apply line_comment|now right|apply gap_nil]. }
  eapply (laid_step _ "link" "/* It is */"); [token_by| |apart_by| |reflexivity].
  { apply (gap_block ("/*" ++ " It is */") ""); [now apply (block_comment " It is */" "")|apply gap_nil]. }
  eapply (laid_step _ "b" " "); [token_by|apply gap_space, gap_nil|apart_by| |reflexivity].
  eapply (laid_step _ "[" " "); [token_by|apply gap_space, gap_nil|apart_by| |reflexivity].
  eapply (laid_step _ "]" " "); [token_by|apply gap_space, gap_nil|apart_by| |reflexivity].
  eapply (laid_step _ "C" " "); [token_by|apply gap_space, gap_nil|apart_by| |reflexivity].
  eapply (laid_step _ "}" " "); [token_by|apply gap_space, gap_nil|apart_by| |reflexivity].
  constructor.
Qed.

(** Trees that can be written. *)
Lemma name_is_ok c s : is_name_start c = true -> forallb is_name_char (list_ascii_of_string s) = true -> existsb (String.eqb (String c s)) keywords = false -> name_ok (String c s).
Proof.
  intros H K N. split.
  - exists c, s. split; [reflexivity|]. split; [now apply letter_iff|]. intros d O. apply name_char_iff. apply occurs_list in O. now apply (proj1 (forallb_forall _ _) K).
  - intros I. apply word_iff in I. congruence.
Qed.
Lemma ex_small_ok : Forall decl_ok ex_small.
Proof. repeat constructor; try (now apply name_is_ok). all: apply name_is_ok; reflexivity. Qed.

(** Documentation. *)
Definition block_of (c : comments) (line : nat) : list string := fst (collect_comments c line []).
Lemma block_of_spec c line : comment_block c line (block_of c line).
Proof.
  unfold block_of. destruct (collect_spec line c []) as (b & c' & E & B & _). rewrite E. cbn [fst]. now rewrite app_nil_r.
Qed.
Lemma doc_of c line doc c' : get_doc c line = GotDoc doc [] c' -> doc_for c line doc.
Proof.
  intros G. pose proof (doc_read c line _ (block_of_spec c line)) as R. rewrite G in R. exists (block_of c line). split; [apply block_of_spec|now destruct R].
Qed.
Definition ex_docs : list string :=
  ["It is ready."; ""; "Status of a cluster." ++ newline ++ newline ++ "It changes."; "Number of the page."; ""; "Lists them."; "Locates one."; ""].
Definition got (c : comments) (n : nat) (doc : string) : bool :=
  match get_doc c n with GotDoc d [] _ => String.eqb d doc | _ => false end.
Lemma got_doc c n doc : got c n doc = true -> doc_for c n doc.
Proof.
  unfold got. destruct (get_doc c n) as [d [|] c'|] eqn:G; try discriminate. intros E. apply String.eqb_eq in E. subst. eapply doc_of. exact G.
Qed.
Lemma ex_doc_for : Forall2 (doc_for ex_file_comments) (flat_map decl_lines ex_trees) ex_docs.
Proof. cbn [flat_map ex_trees decl_lines body_lines sd_body sd_line map app sv_line resource_member_lines sx_params sp_line sx_line sl_line]. unfold ex_docs. repeat constructor; apply got_doc; vm_compute; reflexivity. Qed.
Lemma ex_doc_lines : forall n, In n (flat_map decl_lines ex_trees) -> exists doc, doc_for ex_file_comments n doc.
Proof.
  intros n I. pose proof ex_doc_for as F. revert I F. generalize (flat_map decl_lines ex_trees) as l. generalize ex_docs as ds. intros ds l I F. induction F as [|m d l ds D F IH]; [easy|]. destruct I as [<-|I]; [now exists d|now apply IH].
Qed.
Lemma ex_no_trailing : forall n, In n (flat_map decl_lines ex_trees) -> comment_at ex_file_comments n = None.
Proof. intros n I. cbn in I. repeat (destruct I as [<-|I]; [reflexivity|]). easy. Qed.
Lemma ex_no_repeat : NoDup (filter (commented ex_file_comments) (flat_map decl_lines ex_trees)).
Proof. vm_compute. repeat constructor; cbn; intros H; repeat (destruct H as [H|H]; [discriminate|]); exact H. Qed.
Lemma ex_loaded : exists ds, load_text ex_file = Loaded ds [] [] /\ flat_map decl_docs ds = ex_docs.
Proof. eexists. split; vm_compute; reflexivity. Qed.

Definition ex_faulty : string := text ["//  One."; "// Two."; "class A {"; "}"].
Definition ex_faulty_comments : comments := [(1, "//  One."); (2, "// Two.")].
Lemma ex_faulty_parsed : parse_text ex_faulty = Parsed [MkSDecl 3 [] "A" (BClass [])] [] ex_faulty_comments.
Proof. vm_compute. reflexivity. Qed.
Lemma ex_faulty_doc : forall doc, ~ doc_for ex_faulty_comments 3 doc.
Proof. intros doc (b & B & D). destruct (doc_found _ _ _ _ B D) as (c & G & _). vm_compute in G. discriminate G. Qed.

(** Sentences of the grammar. *)
Lemma ex_sentence : exists l c, lexes 1 ex_file l c "" /\ g_file ex_trees l.
Proof.
  pose proof (proj1 (parse_iff _ _ _ _) ex_parsed) as (l & tail & L & G & _ & [(_ & ->)|(n & t & r & E & _)]); [|discriminate].
  rewrite app_nil_r in L. now exists l, ex_file_comments.
Qed.
Lemma keywords_refused w : In w words -> matches NameRule w /\ parse_text ("class A { " ++ w ++ " String }") = SyntaxError.
Proof. intros I. split; [now apply word_name|]. cbn in I. repeat (destruct I as [<-|I]; [vm_compute; reflexivity|]). destruct I. Qed.
Lemma escaped_quotes_refused : exists s v, denotes s v /\ ~ matches StringRule s /\ parse_text ("@go(name=" ++ s ++ ") class A { }") = SyntaxError.
Proof.
  exists (String quote_char ("a\" ++ String quote_char ("b" ++ String quote_char ""))), ("a" ++ String quote_char "b"). split; [|split].
  - apply unquote_iff. vm_compute. reflexivity.
  - intros (c & a & Q & E & _ & F). injection E as <- <-. specialize (F "a\" ("b" ++ String quote_char "") eq_refl). discriminate.
  - vm_compute. reflexivity.
Qed.
