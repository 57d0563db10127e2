(** Vocabulary used to state the properties of the language of models: the grammars ModelLexer.g4 and ModelParser.g4
    as sets of texts, and how comments become documentation. *)
From Coq Require Import Ascii String Bool Arith ZArith NArith List.
From Verif Require JsonTextSpec.
From Verif Require Import GoStrings TextModel TextSpec ReaderModel SyntaxModel.
Import ListNotations.
Local Open Scope string_scope.

(** * Words *)

(** Sets of characters. *)
Definition chars (s : string) (c : ascii) : Prop := In c (list_ascii_of_string s).
Definition letter : ascii -> Prop := chars "abcdefghijklmnopqrstuvwxyzABCDEFGHIJKLMNOPQRSTUVWXYZ_".
Definition number : ascii -> Prop := chars "0123456789".
Definition blank_char (c : ascii) : Prop := c = " "%char \/ c = tab \/ c = cr \/ c = lf.
Definition every (p : ascii -> Prop) (s : string) : Prop := forall c, occurs c s -> p c.

(** The rules of the lexer and the texts that they match.  The body of a string or block comment is as short as
    possible, so it can't contain the text that ends it. *)
Inductive rule := WordRule (s : string) | MarkRule (c : ascii) | NumberRule | StringRule | NameRule | LineRule | BlockRule | SpaceRule.
Definition words : list string :=
  ["attribute"; "class"; "code"; "enum"; "error"; "false"; "in"; "link"; "locator"; "method"; "out"; "parameter";
   "resource"; "struct"; "target"; "true"; "value"; "variable"].
Definition marks : string := "@{}[]()=".
Definition ends_at_first (close s : string) : Prop :=
  (exists a, s = a ++ close) /\ forall a b, s = a ++ close ++ b -> b = "".
Definition matches (r : rule) (s : string) : Prop :=
  match r with
  | WordRule w => In w words /\ s = w
  | MarkRule c => chars marks c /\ s = String c ""
  | NumberRule => s <> "" /\ every number s
  | StringRule => exists q a, (q = quote_char \/ q = back_quote) /\ s = String q a /\ ends_at_first (String q "") a
  | NameRule => exists c a, s = String c a /\ letter c /\ every (fun c => letter c \/ number c) a
  | LineRule => exists a, s = "//" ++ a /\ ~ occurs cr a /\ ~ occurs lf a
  | BlockRule => exists a, s = "/*" ++ a /\ ends_at_first "*/" a
  | SpaceRule => s <> "" /\ every blank_char s
  end.

(** The text at the beginning of another that the lexer takes: no rule matches a longer one, and words that are
    keywords aren't names. *)
Definition takes (s : string) (r : rule) (a b : string) : Prop :=
  s = a ++ b /\ matches r a /\
  (forall r' a' b', s = a' ++ b' -> matches r' a' -> String.length a' <= String.length a) /\
  (r = NameRule -> ~ In a words).

(** The tokens that the rules produce. *)
Inductive yields : rule -> string -> token -> Prop :=
| yields_word w : yields (WordRule w) w (TKeyword w)
| yields_mark c : yields (MarkRule c) (String c "") (TPunct c)
| yields_number a : yields NumberRule a (TInt a)
| yields_string a : yields StringRule a (TString a)
| yields_name a : yields NameRule a (TIdent a).

(** The number of lines that end in a text. *)
Definition newlines (s : string) : nat := count_occ ascii_dec (list_ascii_of_string s) lf.

(** The tokens and the line comments of a text that starts in a line, until the rest. *)
Inductive lexes : nat -> string -> list placed -> comments -> string -> Prop :=
| lexes_end n s : lexes n s [] [] s
| lexes_token n s r a b t l c rest :
    takes s r a b -> yields r a t -> lexes (n + newlines a) b l c rest -> lexes n s ((n, t) :: l) c rest
| lexes_comment n s a b l c rest :
    takes s LineRule a b -> lexes n b l c rest -> lexes n s l ((n, a) :: c) rest
| lexes_skip n s r a b l c rest :
    takes s r a b -> r = BlockRule \/ r = SpaceRule -> lexes (n + newlines a) b l c rest -> lexes n s l c rest.

(** A text that no rule matches. *)
Definition stuck (s : string) : Prop := s <> "" /\ forall r a b, s = a ++ b -> ~ matches r a.

(** * String literals *)

(** Octal digits; the hexadecimal ones and the encoding of code points are those of JsonTextSpec.v. *)
Definition octal_value (c : ascii) (n : N) : Prop := (48 <= N_of_ascii c <= 55 /\ n = N_of_ascii c - 48)%N.

(** Escape sequences, as the specification of Go defines them for the texts between double quotes. *)
Definition escapes : list (ascii * ascii) :=
  [("a", "007"); ("b", "008"); ("f", "012"); ("n", "010"); ("r", "013"); ("t", "009"); ("v", "011"); ("092", "092"); ("034", "034")]%char.
Definition scalar_value (n : N) : Prop := (n < 55296 \/ 57344 <= n < 1114112)%N.
Inductive piece : string -> string -> Prop :=
| piece_char c : c <> lf -> c <> "092"%char -> c <> quote_char -> piece (String c "") (String c "")
| piece_escape e c : In (e, c) escapes -> piece (String "092" (String e "")) (String c "")
| piece_octal a b c i j k : octal_value a i -> octal_value b j -> octal_value c k -> ((i * 8 + j) * 8 + k < 256)%N ->
    piece (String "092" (String a (String b (String c "")))) (String (ascii_of_N ((i * 8 + j) * 8 + k)) "")
| piece_byte a b i j : JsonTextSpec.hex_value a i -> JsonTextSpec.hex_value b j ->
    piece (String "092" (String "x" (String a (String b "")))) (String (ascii_of_N (i * 16 + j)) "")
| piece_rune4 a b c d n u : JsonTextSpec.hex4 a b c d n -> scalar_value n -> JsonTextSpec.utf8 n u ->
    piece (String "092" (String "u" (String a (String b (String c (String d "")))))) u
| piece_rune8 a b c d a' b' c' d' n m u : JsonTextSpec.hex4 a b c d n -> JsonTextSpec.hex4 a' b' c' d' m ->
    scalar_value (n * 65536 + m) -> JsonTextSpec.utf8 (n * 65536 + m) u ->
    piece (String "092" (String "U" (String a (String b (String c (String d
      (String a' (String b' (String c' (String d' "")))))))))) u.
Inductive pieces : string -> string -> Prop :=
| pieces_nil : pieces "" ""
| pieces_cons a x b y : piece a x -> pieces b y -> pieces (a ++ b) (x ++ y).

(** The value of a string literal: between back quotes there are no escape sequences, and carriage returns are
    ignored. *)
Inductive without (c : ascii) : string -> string -> Prop :=
| without_nil : without c "" ""
| without_skip s r : without c s r -> without c (String c s) r
| without_keep d s r : d <> c -> without c s r -> without c (String d s) (String d r).
Inductive denotes : string -> string -> Prop :=
| denotes_short body v : pieces body v -> denotes (String quote_char (body ++ String quote_char "")) v
| denotes_long body v : ~ occurs back_quote body -> without cr body v -> denotes (String back_quote (body ++ String back_quote "")) v.

(** * Sentences *)

(** Sets of sequences of tokens, and the operators of the grammars. *)
Definition language := list placed -> Prop.
Definition nothing : language := fun l => l = [].
Definition tok (t : token) : language := fun l => exists n, l = [(n, t)].
Definition seq (a b : language) : language := fun l => exists x y, l = (x ++ y)%list /\ a x /\ b y.
Definition either (a b : language) : language := fun l => a l \/ b l.
Definition maybe (a : language) : language := either nothing a.
Definition only (p : Prop) (a : language) : language := fun l => p /\ a l.
Definition starting (n : nat) (a : language) : language := fun l => a l /\ exists t r, l = (n, t) :: r.
Fixpoint each {A} (f : A -> language) (xs : list A) : language :=
  match xs with [] => nothing | x :: r => seq (f x) (each f r) end.
Notation "a >> b" := (seq a b) (at level 55, right associativity).
Definition word (s : string) : language := tok (TKeyword s).
Definition mark (c : ascii) : language := tok (TPunct c).
Definition ident (s : string) : language := tok (TIdent s).

(** The rules of ModelParser.g4, for each tree the sequences of tokens that have that tree. *)
Definition g_literal (x : literal_decl) : language :=
  match x with
  | LDBool true => word "true"
  | LDBool false => word "false"
  | LDInt s => tok (TInt s)
  | LDString s u => only (forall v, u = Some v <-> denotes s v) (tok (TString s))
  end.
Definition g_setting (x : string * literal_decl) : language := ident (fst x) >> mark "=" >> g_literal (snd x).
Definition g_annotation (x : annotation_decl) : language :=
  mark "@" >> ident (ad_name x) >>
  either (only (ad_params x = []) nothing) (mark "(" >> each g_setting (ad_params x) >> mark ")").
Definition g_annotations : list annotation_decl -> language := each g_annotation.
Definition g_reference (x : type_ref) : language :=
  match x with
  | RPlain n => ident n
  | RList e => mark "[" >> mark "]" >> ident e
  | RMap i e => mark "[" >> ident i >> mark "]" >> ident e
  end.
Definition braces (a : language) : language := mark "{" >> a >> mark "}".
Definition g_value (x : svalue) : language :=
  starting (sv_line x) (g_annotations (sv_annots x) >> maybe (word "value") >> ident (sv_name x)).
Definition g_member (x : smember) : language :=
  starting (sm_line x)
    (g_annotations (sm_annots x) >> (if sm_link x then word "link" else maybe (word "attribute")) >>
     ident (sm_name x) >> g_reference (sm_ref x)).
Definition g_direction (x : direction) : language := match x with DIn => word "in" | DOut => word "out" end.
Definition g_param (x : sparam) : language :=
  starting (sp_line x)
    (g_annotations (sp_annots x) >> maybe (word "parameter") >> each g_direction (sp_directions x) >>
     ident (sp_name x) >> g_reference (sp_ref x) >>
     match sp_default x with Some v => mark "=" >> g_literal v | None => nothing end).
Definition g_locator_member (x : locator_member) : language :=
  match x with LMTarget n => word "target" >> ident n | LMVariable n => word "variable" >> ident n end.
Definition g_method (x : smethod) : language :=
  starting (sx_line x)
    (g_annotations (sx_annots x) >> maybe (word "method") >> ident (sx_name x) >> braces (each g_param (sx_params x))).
Definition g_locator (x : slocator) : language :=
  starting (sl_line x)
    (g_annotations (sl_annots x) >> word "locator" >> ident (sl_name x) >> braces (each g_locator_member (sl_members x))).
Definition g_resource_member (x : sresource_member) : language :=
  match x with SMMethod m => g_method m | SMLocator l => g_locator l end.
Definition g_code (s : string) : language := word "code" >> tok (TInt s).
Definition g_body (name : string) (x : sbody) : language :=
  match x with
  | BEnum l => word "enum" >> ident name >> braces (each g_value l)
  | BClass l => word "class" >> ident name >> braces (each g_member l)
  | BStruct l => word "struct" >> ident name >> braces (each g_member l)
  | BError l => word "error" >> ident name >> braces (each g_code l)
  | BResource l => word "resource" >> ident name >> braces (each g_resource_member l)
  end.
Definition g_decl (x : sdecl) : language :=
  starting (sd_line x) (g_annotations (sd_annots x) >> g_body (sd_name x) (sd_body x)).
Definition g_file (l : list sdecl) : language := each g_decl l.

(** Tokens that can be the first of a declaration. *)
Definition opens_decl (t : token) : Prop :=
  t = TPunct "@" \/ exists s, In s ["class"; "enum"; "error"; "resource"; "struct"] /\ t = TKeyword s.

(** What a text means: its tokens are those of the declarations, and then there is nothing else, or something that
    isn't a declaration and that is ignored. *)
Definition reads (s : string) (ds : list sdecl) (ignored : list placed) (c : comments) : Prop :=
  exists tokens tail,
    lexes 1 s (tokens ++ ignored) c tail /\ g_file ds tokens /\ (tail = "" \/ stuck tail) /\
    ((ignored = [] /\ tail = "") \/ exists n t r, ignored = (n, t) :: r /\ ~ opens_decl t).

(** * Layout *)

(** The texts of the tokens. *)
Inductive token_text : token -> string -> Prop :=
| text_of_token r a t : matches r a -> yields r a t -> (r = NameRule -> ~ In a words) -> token_text t a.

(** What can be between tokens. *)
Inductive gap : string -> Prop :=
| gap_nil : gap ""
| gap_blank c s : blank_char c -> gap s -> gap (String c s)
| gap_line a c s : matches LineRule a -> c = cr \/ c = lf -> gap s -> gap (a ++ String c s)
| gap_block a s : matches BlockRule a -> gap s -> gap (a ++ s).

(** Tokens that need something between them. *)
Definition wordy (t : token) : Prop := match t with TPunct _ | TString _ => False | _ => True end.
Definition apart (t : token) (l : list token) (g : string) : Prop :=
  match l with u :: _ => wordy t -> wordy u -> g <> "" | [] => True end.

(** The texts of a sequence of tokens, with gaps after the tokens; the text may end with a line comment. *)
Inductive laid_out : list token -> string -> Prop :=
| laid_nil : laid_out [] ""
| laid_comment a : matches LineRule a -> laid_out [] a
| laid_token t a g l s : token_text t a -> gap g -> apart t l g -> laid_out l s -> laid_out (t :: l) (a ++ g ++ s).

(** The same tree, except for the lines. *)
Definition unplaced_value (x : svalue) := MkSValue 0 (sv_annots x) (sv_name x).
Definition unplaced_member (x : smember) := MkSMember 0 (sm_annots x) (sm_link x) (sm_name x) (sm_ref x).
Definition unplaced_param (x : sparam) :=
  MkSParam 0 (sp_annots x) (sp_directions x) (sp_name x) (sp_ref x) (sp_default x).
Definition unplaced_resource_member (x : sresource_member) :=
  match x with
  | SMMethod m => SMMethod (MkSMethod 0 (sx_annots m) (sx_name m) (map unplaced_param (sx_params m)))
  | SMLocator l => SMLocator (MkSLocator 0 (sl_annots l) (sl_name l) (sl_members l))
  end.
Definition unplaced_body (x : sbody) :=
  match x with
  | BEnum l => BEnum (map unplaced_value l)
  | BClass l => BClass (map unplaced_member l)
  | BStruct l => BStruct (map unplaced_member l)
  | BError l => BError l
  | BResource l => BResource (map unplaced_resource_member l)
  end.
Definition unplaced (x : sdecl) := MkSDecl 0 (sd_annots x) (sd_name x) (unplaced_body (sd_body x)).

(** Trees that can be written: names that aren't keywords, and literals with the form of literals. *)
Definition name_ok (s : string) : Prop := matches NameRule s /\ ~ In s words.
Definition literal_ok (x : literal_decl) : Prop :=
  match x with
  | LDBool _ => True
  | LDInt s => matches NumberRule s
  | LDString s u => matches StringRule s /\ forall v, u = Some v <-> denotes s v
  end.
Definition annotation_ok (x : annotation_decl) : Prop :=
  name_ok (ad_name x) /\ Forall (fun p => name_ok (fst p) /\ literal_ok (snd p)) (ad_params x).
Definition ref_ok (x : type_ref) : Prop :=
  match x with RPlain n => name_ok n | RList e => name_ok e | RMap i e => name_ok i /\ name_ok e end.
Definition value_ok (x : svalue) : Prop := Forall annotation_ok (sv_annots x) /\ name_ok (sv_name x).
Definition member_ok (x : smember) : Prop :=
  Forall annotation_ok (sm_annots x) /\ name_ok (sm_name x) /\ ref_ok (sm_ref x).
Definition param_ok (x : sparam) : Prop :=
  Forall annotation_ok (sp_annots x) /\ name_ok (sp_name x) /\ ref_ok (sp_ref x) /\
  match sp_default x with Some v => literal_ok v | None => True end.
Definition resource_member_ok (x : sresource_member) : Prop :=
  match x with
  | SMMethod m => Forall annotation_ok (sx_annots m) /\ name_ok (sx_name m) /\ Forall param_ok (sx_params m)
  | SMLocator l =>
      Forall annotation_ok (sl_annots l) /\ name_ok (sl_name l) /\
      Forall (fun y => match y with LMTarget n | LMVariable n => name_ok n end) (sl_members l)
  end.
Definition body_ok (x : sbody) : Prop :=
  match x with
  | BEnum l => Forall value_ok l
  | BClass l | BStruct l => Forall member_ok l
  | BError l => Forall (matches NumberRule) l
  | BResource l => Forall resource_member_ok l
  end.
Definition decl_ok (x : sdecl) : Prop := Forall annotation_ok (sd_annots x) /\ name_ok (sd_name x) /\ body_ok (sd_body x).

(** * Documentation *)

(** The lines where the nodes that have documentation start, in the order of the text of their ends. *)
Definition resource_member_lines (x : sresource_member) : list nat :=
  match x with SMMethod m => (map sp_line (sx_params m) ++ [sx_line m])%list | SMLocator l => [sl_line l] end.
Definition body_lines (x : sbody) : list nat :=
  match x with
  | BEnum l => map sv_line l
  | BClass l | BStruct l => map sm_line l
  | BError _ => []
  | BResource l => flat_map resource_member_lines l
  end.
Definition decl_lines (x : sdecl) : list nat := (body_lines (sd_body x) ++ [sd_line x])%list.

(** The documentation of the nodes, in the same order. *)
Definition resource_member_docs (x : resource_member) : list string :=
  match x with RMMethod m => (map pd_doc (xd_params m) ++ [xd_doc m])%list | RMLocator l => [ld_doc l] end.
Definition decl_docs (x : decl) : list string :=
  match x with
  | DEnum _ _ l d => (map vd_doc l ++ [d])%list
  | DClass _ _ l d | DStruct _ _ l d => (map md_doc l ++ [d])%list
  | DError _ _ _ d => [d]
  | DResource _ _ l d => (flat_map resource_member_docs l ++ [d])%list
  end.

(** A declaration without its documentation, and without lines. *)
Definition bare_value (x : value_decl) := MkSValue 0 (vd_annots x) (vd_name x).
Definition bare_member (x : member_decl) := MkSMember 0 (md_annots x) (md_link x) (md_name x) (md_ref x).
Definition bare_param (x : param_decl) :=
  MkSParam 0 (pd_annots x) (pd_directions x) (pd_name x) (pd_ref x) (pd_default x).
Definition bare_resource_member (x : resource_member) :=
  match x with
  | RMMethod m => SMMethod (MkSMethod 0 (xd_annots m) (xd_name m) (map bare_param (xd_params m)))
  | RMLocator l => SMLocator (MkSLocator 0 (ld_annots l) (ld_name l) (ld_members l))
  end.
Definition bare (x : decl) : sdecl :=
  match x with
  | DEnum a n l _ => MkSDecl 0 a n (BEnum (map bare_value l))
  | DClass a n l _ => MkSDecl 0 a n (BClass (map bare_member l))
  | DStruct a n l _ => MkSDecl 0 a n (BStruct (map bare_member l))
  | DError a n l _ => MkSDecl 0 a n (BError l)
  | DResource a n l _ => MkSDecl 0 a n (BResource (map bare_resource_member l))
  end.

(** The previous line has a comment. *)
Definition commented (c : comments) (line : nat) : bool :=
  match comment_at c (line - 1) with Some _ => true | None => false end.

(** The comments of the previous lines are documentation. *)
Definition doc_for (c : comments) (line : nat) (doc : string) : Prop :=
  exists block, comment_block c line block /\ documented block doc.
