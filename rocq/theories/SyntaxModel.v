(** Model of how the text of a file of a model becomes declarations: the lexer and the parser that ANTLR generates
    for pkg/language/ModelLexer.g4 and pkg/language/ModelParser.g4, and the part of pkg/language/reader.go that
    calls them and finds the documentation of each node.

    Simplifications:
    - The generated files (model_lexer.go, model_parser.go) contain serialized automata that the ANTLR runtime
      interprets, so what is modelled is the meaning of the grammars: the lexer takes the longest text that matches a
      rule, and the first of the rules that match it, and the parser decides with the next token, because the grammar
      is LL(1) except for the annotations that precede a declaration.
    - Files are UTF-8 texts.  All the characters that the grammar mentions are ASCII, so it doesn't matter that the
      model works with bytes, and the runtime with code points.
    - When there is a lexical or syntax error the model stops.  The parser of ANTLR continues in order to report
      more errors, but [Read] fails in any case (pkg/language/errors.go:66-71, pkg/language/reader.go:155-163).
    - Columns aren't modelled, because they are only used in error messages. *)
From Coq Require Import Ascii String Bool Arith ZArith NArith List.
From Verif Require Import GoStrings ReporterModel TextModel JsonLexModel ReaderModel.
Import ListNotations.
Local Open Scope string_scope.

(** * The lexer *)

(** The tokens: ModelLexer.g4:30-47 (keywords), 50-59 (punctuation), 62-64, 67-70 and 81-83. *)
Inductive token :=
| TKeyword (s : string)
| TPunct (c : ascii)
| TInt (s : string)
| TString (s : string)
| TIdent (s : string).

(** ModelLexer.g4:30-47. *)
Definition keywords : list string :=
  ["attribute"; "class"; "code"; "enum"; "error"; "false"; "in"; "link"; "locator"; "method"; "out"; "parameter";
   "resource"; "struct"; "target"; "true"; "value"; "variable"].

(** ModelLexer.g4:50-59. *)
Definition punctuation : list ascii := ["@"; "{"; "}"; "["; "]"; "("; ")"; "="]%char.

(** Characters of the grammar: quotes of ModelLexer.g4:72-78, slash and star of ModelLexer.g4:86-92. *)
Definition quote_char : ascii := "034".
Definition back_quote : ascii := "096".
Definition slash : ascii := "047".
Definition star_char : ascii := "042".

(** ModelLexer.g4:63 and 82. *)
Definition is_number_char (c : ascii) : bool := N.leb 48 (N_of_ascii c) && N.leb (N_of_ascii c) 57.
Definition is_name_start (c : ascii) : bool :=
  let n := N_of_ascii c in
  N.leb 65 n && N.leb n 90 || N.leb 97 n && N.leb n 122 || N.eqb n 95.
Definition is_name_char (c : ascii) : bool := is_name_start c || is_number_char c.

(** ModelLexer.g4:95. *)
Definition is_blank_char (c : ascii) : bool := existsb (N.eqb (N_of_ascii c)) [32; 9; 13; 10]%N.

(** ModelLexer.g4:87: the characters that can be part of a line comment. *)
Definition is_comment_char (c : ascii) : bool := negb (existsb (N.eqb (N_of_ascii c)) [13; 10]%N).

(** The longest prefix whose characters satisfy a condition, and the rest: the loops [+] and [*] of the rules. *)
Fixpoint span (p : ascii -> bool) (s : string) : string * string :=
  match s with
  | EmptyString => ("", "")
  | String c r => if p c then (let (a, b) := span p r in (String c a, b)) else ("", s)
  end.

(** ModelLexer.g4:72-78: the text until the next quote, which is included, and the rest; the loop [.*?] stops as
    soon as it can. *)
Fixpoint until_char (q : ascii) (s : string) : option (string * string) :=
  match s with
  | EmptyString => None
  | String c r =>
      if Ascii.eqb c q then Some (String c "", r)
      else match until_char q r with Some (a, b) => Some (String c a, b) | None => None end
  end.

(** ModelLexer.g4:90-92: the text until the end of the block comment, and the rest. *)
Fixpoint until_close (s : string) : option (string * string) :=
  match s with
  | EmptyString => None
  | String c r =>
      if Ascii.eqb c star_char && has_prefix r (String slash "") then Some (String c (String slash ""), str_drop 1 r)
      else match until_close r with Some (a, b) => Some (String c a, b) | None => None end
  end.

(** What the lexer does with the text that it finds: sends it to the parser, remembers it as a comment
    (ModelLexer.g4:24-26, 86-88) or skips it. *)
Inductive lexeme := LToken (t : token) | LComment | LSkip.

(** ModelLexer.g4: one step of the lexer: the kind of text, the text, and the rest.  The first character decides
    between all the rules, except for the keywords and the identifiers, and the two kinds of comments. *)
Definition lex_one (s : string) : option (lexeme * string * string) :=
  match s with
  | EmptyString => None
  | String c r =>
      if is_name_start c then
        let (a, b) := span is_name_char s in
        Some (LToken (if existsb (String.eqb a) keywords then TKeyword a else TIdent a), a, b)
      else if is_number_char c then
        let (a, b) := span is_number_char s in Some (LToken (TInt a), a, b)
      else if is_blank_char c then
        let (a, b) := span is_blank_char s in Some (LSkip, a, b)
      else if existsb (Ascii.eqb c) punctuation then Some (LToken (TPunct c), String c "", r)
      else if Ascii.eqb c quote_char || Ascii.eqb c back_quote then
        match until_char c r with
        | Some (a, b) => Some (LToken (TString (String c a)), String c a, b)
        | None => None
        end
      else if Ascii.eqb c slash then
        match r with
        | String d r' =>
            if Ascii.eqb d slash then
              let (a, b) := span is_comment_char r' in Some (LComment, String c (String d a), b)
            else if Ascii.eqb d star_char then
              match until_close r' with
              | Some (a, b) => Some (LSkip, String c (String d a), b)
              | None => None
              end
            else None
        | EmptyString => None
        end
      else None
  end.

(** ANTLR, lexer_atn_simulator.go, [Consume]: the line of the text after some other text. *)
Fixpoint lines_in (s : string) : nat :=
  match s with
  | EmptyString => 0
  | String c r => if Ascii.eqb c lf then S (lines_in r) else lines_in r
  end.

(** A token with the line where it starts. *)
Definition placed := (nat * token)%type.

(** The result of the lexer: the tokens, the map of comments, and how it ends. *)
Inductive lex_end := AtEnd | LexError (line : nat) | LexFuel.
Record lexed := MkLexed { lx_tokens : list placed; lx_comments : comments; lx_end : lex_end }.

(** ANTLR, lexer.go, [NextToken], called until the end of the text.  The comments that are in the same line replace
    each other, but a line comment is always the last thing of its line.  The runtime calls it when the parser needs
    a token; [parse_text] takes into account that the text after the last token that the parser looks at isn't
    analyzed. *)
Fixpoint lex_loop (fuel : nat) (line : nat) (s : string) : lexed :=
  match fuel with
  | 0 => MkLexed [] [] LexFuel
  | S fuel =>
      match s with
      | EmptyString => MkLexed [] [] AtEnd
      | _ =>
          match lex_one s with
          | None => MkLexed [] [] (LexError line)
          | Some (k, a, b) =>
              let l := lex_loop fuel (line + lines_in a) b in
              match k with
              | LToken t => MkLexed ((line, t) :: lx_tokens l) (lx_comments l) (lx_end l)
              | LComment => MkLexed (lx_tokens l) ((line, a) :: lx_comments l) (lx_end l)
              | LSkip => l
              end
          end
      end
  end.
Definition lex_file (s : string) : lexed := lex_loop (S (String.length s)) 1 s.

(** * String literals *)

(** strconv, quote.go, [UnquoteChar], for the simple escape sequences. *)
Definition simple_escape (c : ascii) : option ascii :=
  match N_of_ascii c with
  | 97%N => Some (ascii_of_N 7)
  | 98%N => Some (ascii_of_N 8)
  | 102%N => Some (ascii_of_N 12)
  | 110%N => Some (ascii_of_N 10)
  | 114%N => Some (ascii_of_N 13)
  | 116%N => Some (ascii_of_N 9)
  | 118%N => Some (ascii_of_N 11)
  | 34%N => Some (ascii_of_N 34)
  | 92%N => Some (ascii_of_N 92)
  | _ => None
  end.
Definition octal_of (c : ascii) : option N :=
  let x := N_of_ascii c in if N.leb 48 x && N.leb x 55 then Some (x - 48)%N else None.

(** unicode/utf8, [ValidRune]. *)
Definition valid_rune (n : N) : bool := N.ltb n 55296 || N.leb 57344 n && N.leb n 1114111.
Definition rune (n : N) : option string := if valid_rune n then Some (utf8_of n) else None.

(** strconv, quote.go, [unquote], for the text after the first double quote; an escaped single quote isn't valid
    between double quotes. *)
Fixpoint unquote_body (s : string) : option string :=
  let more a r := match a, r with Some a, Some b => Some (a ++ b) | _, _ => None end in
  match s with
  | EmptyString => None
  | String c r =>
      if Ascii.eqb c quote_char then (if String.eqb r "" then Some "" else None)
      else if Ascii.eqb c lf then None
      else if negb (N.eqb (N_of_ascii c) 92) then more (Some (String c "")) (unquote_body r)
      else
        match r with
        | EmptyString => None
        | String e r1 =>
            match simple_escape e with
            | Some x => more (Some (String x "")) (unquote_body r1)
            | None =>
                if N.eqb (N_of_ascii e) 120 then
                  match r1 with
                  | String a (String b r2) =>
                      more (match hex_of a, hex_of b with
                            | Some i, Some j => Some (String (ascii_of_N (i * 16 + j)) "") | _, _ => None end)
                           (unquote_body r2)
                  | _ => None
                  end
                else if N.eqb (N_of_ascii e) 117 then
                  match r1 with
                  | String a (String b (String x (String d r2))) =>
                      more (match hex4_of a b x d with Some n => rune n | None => None end) (unquote_body r2)
                  | _ => None
                  end
                else if N.eqb (N_of_ascii e) 85 then
                  match r1 with
                  | String a (String b (String x (String d (String a' (String b' (String x' (String d' r2))))))) =>
                      more (match hex4_of a b x d, hex4_of a' b' x' d' with
                            | Some n, Some m => rune (n * 65536 + m) | _, _ => None end) (unquote_body r2)
                  | _ => None
                  end
                else
                  match r1 with
                  | String a (String b r2) =>
                      more (match octal_of e, octal_of a, octal_of b with
                            | Some i, Some j, Some k =>
                                let n := ((i * 8 + j) * 8 + k)%N in
                                if N.ltb n 256 then Some (String (ascii_of_N n) "") else None
                            | _, _, _ => None end) (unquote_body r2)
                  | _ => None
                  end
            end
        end
  end.

(** strconv, quote.go, [Unquote], for texts that don't start with a single quote. *)
Definition unquote (text : string) : option string :=
  match text with
  | EmptyString => None
  | String q r =>
      if Ascii.eqb q back_quote then
        match until_char back_quote r with
        | Some (a, b) => if String.eqb b "" then Some (remove_char cr (str_take (String.length a - 1) a)) else None
        | None => None
        end
      else if Ascii.eqb q quote_char then unquote_body r
      else None
  end.

(** * The trees of the parser *)

(** The trees contain the line of the first token of the nodes that have documentation; the rest is like in
    ReaderModel.v.  Rules [enumMemberDecl], [structMemberDecl], [methodParameterDecl], [methodDecl] and [locatorDecl]:
    ModelParser.g4:54-57, 73-76, 124-131, 113-118 and 138-143. *)
Record svalue := MkSValue { sv_line : nat; sv_annots : list annotation_decl; sv_name : string }.
Record smember := MkSMember {
  sm_line : nat; sm_annots : list annotation_decl; sm_link : bool; sm_name : string; sm_ref : type_ref }.
Record sparam := MkSParam {
  sp_line : nat; sp_annots : list annotation_decl; sp_directions : list direction; sp_name : string;
  sp_ref : type_ref; sp_default : option literal_decl }.
Record smethod := MkSMethod {
  sx_line : nat; sx_annots : list annotation_decl; sx_name : string; sx_params : list sparam }.
Record slocator := MkSLocator {
  sl_line : nat; sl_annots : list annotation_decl; sl_name : string; sl_members : list locator_member }.

(** Rule [resourceMemberDecl]: ModelParser.g4:108-111. *)
Inductive sresource_member := SMMethod (m : smethod) | SMLocator (l : slocator).

(** The members of the declarations, rules [enumDecl], [classDecl], [structDecl], [errorDecl] and [resourceDecl]:
    ModelParser.g4:47-52, 59-71, 101-106 and 162-167. *)
Inductive sbody :=
| BEnum (l : list svalue)
| BClass (l : list smember)
| BStruct (l : list smember)
| BError (l : list string)
| BResource (l : list sresource_member).

(** Rules [declaration] and [typeDecl]: ModelParser.g4:35-45. *)
Record sdecl := MkSDecl { sd_line : nat; sd_annots : list annotation_decl; sd_name : string; sd_body : sbody }.

(** * The parser *)

(** The result of a rule: the tree and the rest of the tokens; or a syntax error.  Running out of fuel is a different
    result, that the theorems exclude. *)
Inductive parsed (A : Type) := POk (x : A) (rest : list placed) | PError | PFuel.
Arguments POk {A}.
Arguments PError {A}.
Arguments PFuel {A}.
Definition parser A := list placed -> parsed A.
Definition bind {A B} (p : parser A) (f : A -> parser B) : parser B :=
  fun l => match p l with POk x r => f x r | PError => PError | PFuel => PFuel end.
Definition ret {A} (x : A) : parser A := fun l => POk x l.
Notation "'let*' x ':=' p 'in' q" := (bind p (fun x => q)) (at level 200, x pattern, right associativity).

(** ANTLR, parser.go, [Match]. *)
Definition token_eqb (a b : token) : bool :=
  match a, b with
  | TKeyword s, TKeyword t | TInt s, TInt t | TString s, TString t | TIdent s, TIdent t => String.eqb s t
  | TPunct c, TPunct d => Ascii.eqb c d
  | _, _ => false
  end.
Definition expect (t : token) : parser unit := fun l =>
  match l with (_, u) :: r => if token_eqb t u then POk tt r else PError | [] => PError end.

(** The next token. *)
Definition next_is (p : token -> bool) (l : list placed) : bool :=
  match l with (_, t) :: _ => p t | [] => false end.

(** The line of the next token: [ctx.GetStart()]. *)
Definition start_line (l : list placed) : nat := match l with (n, _) :: _ => n | [] => 0 end.

(** The operator [?] applied to a token. *)
Definition optional (t : token) : parser bool := fun l =>
  match l with
  | (_, u) :: r => if token_eqb t u then POk true r else POk false l
  | [] => POk false l
  end.

(** The operator [*]: the loop continues while the next token can be the first of the rule. *)
Fixpoint many_loop {A} (fuel : nat) (first : token -> bool) (p : parser A) (l : list placed) : parsed (list A) :=
  if next_is first l then
    match fuel with
    | 0 => PFuel
    | S fuel =>
        match p l with
        | POk x r =>
            match many_loop fuel first p r with POk xs r' => POk (x :: xs) r' | PError => PError | PFuel => PFuel end
        | PError => PError
        | PFuel => PFuel
        end
    end
  else POk [] l.
Definition many {A} (first : token -> bool) (p : parser A) : parser (list A) :=
  fun l => many_loop (length l) first p l.

(** Tests of the next token. *)
Definition is_keyword (names : list string) (t : token) : bool :=
  match t with TKeyword s => existsb (String.eqb s) names | _ => false end.
Definition is_ident (t : token) : bool := match t with TIdent _ => true | _ => false end.
Definition is_at (t : token) : bool := token_eqb t (TPunct "@").

(** ModelParser.g4:208-210. *)
Definition p_identifier : parser string := fun l =>
  match l with (_, TIdent s) :: r => POk s r | _ => PError end.

(** ModelParser.g4:189-206. *)
Definition p_literal : parser literal_decl := fun l =>
  match l with
  | (_, TKeyword s) :: r =>
      if String.eqb s "true" then POk (LDBool true) r
      else if String.eqb s "false" then POk (LDBool false) r else PError
  | (_, TInt s) :: r => POk (LDInt s) r
  | (_, TString s) :: r => POk (LDString s (unquote s)) r
  | _ => PError
  end.

(** ModelParser.g4:185-187. *)
Definition p_annotation_parameter : parser (string * literal_decl) :=
  let* n := p_identifier in
  let* _ := expect (TPunct "=") in
  let* v := p_literal in
  ret (n, v).

(** ModelParser.g4:177-183. *)
Definition p_annotation : parser annotation_decl :=
  let* _ := expect (TPunct "@") in
  let* n := p_identifier in
  let* b := optional (TPunct "(") in
  if b : bool then
    let* ps := many is_ident p_annotation_parameter in
    let* _ := expect (TPunct ")") in
    ret (MkAnnotationDecl n ps)
  else ret (MkAnnotationDecl n []).
Definition p_annotations : parser (list annotation_decl) := many is_at p_annotation.

(** ModelParser.g4:83-99. *)
Definition p_reference : parser type_ref := fun l =>
  if next_is is_ident l then (let* n := p_identifier in ret (RPlain n)) l
  else
    (let* _ := expect (TPunct "[") in
     fun l =>
       if next_is is_ident l then
         (let* i := p_identifier in
          let* _ := expect (TPunct "]") in
          let* e := p_identifier in
          ret (RMap i e)) l
       else
         (let* _ := expect (TPunct "]") in
          let* e := p_identifier in
          ret (RList e)) l) l.

(** The part that is common to all the blocks: ['{' members* '}']. *)
Definition p_block {A} (first : token -> bool) (p : parser A) : parser (list A) :=
  let* _ := expect (TPunct "{") in
  let* l := many first p in
  let* _ := expect (TPunct "}") in
  ret l.

(** ModelParser.g4:54-57. *)
Definition p_value : parser svalue := fun l =>
  (let* a := p_annotations in
   let* _ := optional (TKeyword "value") in
   let* n := p_identifier in
   ret (MkSValue (start_line l) a n)) l.
Definition first_value (t : token) : bool := is_at t || is_ident t || is_keyword ["value"] t.

(** ModelParser.g4:73-81. *)
Definition p_member : parser smember := fun l =>
  (let* a := p_annotations in
   let* attr := optional (TKeyword "attribute") in
   let* link := (if attr : bool then ret false else optional (TKeyword "link")) in
   let* n := p_identifier in
   let* r := p_reference in
   ret (MkSMember (start_line l) a link n r)) l.
Definition first_member (t : token) : bool := is_at t || is_ident t || is_keyword ["attribute"; "link"] t.

(** ModelParser.g4:133-136. *)
Definition p_direction : parser direction := fun l =>
  match l with
  | (_, TKeyword s) :: r =>
      if String.eqb s "in" then POk DIn r else if String.eqb s "out" then POk DOut r else PError
  | _ => PError
  end.

(** ModelParser.g4:120-131. *)
Definition p_param : parser sparam := fun l =>
  (let* a := p_annotations in
   let* _ := optional (TKeyword "parameter") in
   let* d := many (is_keyword ["in"; "out"]) p_direction in
   let* n := p_identifier in
   let* r := p_reference in
   let* b := optional (TPunct "=") in
   let* v := (if b : bool then (let* v := p_literal in ret (Some v)) else ret None) in
   ret (MkSParam (start_line l) a d n r v)) l.
Definition first_param (t : token) : bool := is_at t || is_ident t || is_keyword ["parameter"; "in"; "out"] t.

(** ModelParser.g4:145-160. *)
Definition p_locator_member : parser locator_member := fun l =>
  if next_is (is_keyword ["target"]) l then
    (let* _ := expect (TKeyword "target") in let* n := p_identifier in ret (LMTarget n)) l
  else (let* _ := expect (TKeyword "variable") in let* n := p_identifier in ret (LMVariable n)) l.

(** ModelParser.g4:108-118 and 138-143: the annotations are common to the two alternatives. *)
Definition p_resource_member : parser sresource_member := fun l =>
  (let* a := p_annotations in
   let* b := optional (TKeyword "locator") in
   if b : bool then
     let* n := p_identifier in
     let* ms := p_block (is_keyword ["target"; "variable"]) p_locator_member in
     ret (SMLocator (MkSLocator (start_line l) a n ms))
   else
     let* _ := optional (TKeyword "method") in
     let* n := p_identifier in
     let* ps := p_block first_param p_param in
     ret (SMMethod (MkSMethod (start_line l) a n ps))) l.
Definition first_resource_member (t : token) : bool := is_at t || is_ident t || is_keyword ["locator"; "method"] t.

(** ModelParser.g4:169-175. *)
Definition p_error_member : parser string := fun l =>
  (let* _ := expect (TKeyword "code") in
   fun l => match l with (_, TInt s) :: r => POk s r | _ => PError end) l.

(** ModelParser.g4:35-71, 101-106 and 162-167: the annotations are common to all the alternatives. *)
Definition p_decl : parser sdecl := fun l =>
  (let* a := p_annotations in
   fun l' =>
     match l' with
     | (_, TKeyword k) :: l'' =>
         let with_body {A} (p : parser (list A)) (f : list A -> sbody) :=
           (let* n := p_identifier in let* ms := p in ret (MkSDecl (start_line l) a n (f ms))) l'' in
         if String.eqb k "enum" then with_body (p_block first_value p_value) BEnum
         else if String.eqb k "class" then with_body (p_block first_member p_member) BClass
         else if String.eqb k "struct" then with_body (p_block first_member p_member) BStruct
         else if String.eqb k "error" then with_body (p_block (is_keyword ["code"]) p_error_member) BError
         else if String.eqb k "resource" then with_body (p_block first_resource_member p_resource_member) BResource
         else PError
     | _ => PError
     end) l.
Definition first_decl (t : token) : bool :=
  is_at t || is_keyword ["class"; "enum"; "error"; "resource"; "struct"] t.

(** ModelParser.g4:31-33, pkg/language/model_parser.go:378-419: the rule doesn't mention the end of the file, so the
    parser stops at the first token that can't be the first of a declaration, and reports nothing. *)
Definition p_file : parser (list sdecl) := many first_decl p_decl.

(** pkg/language/reader.go:303-333, the lexer and the parser of a file: the declarations and the tokens that are
    ignored; or a lexical or syntax error.  The lexer fails before the parser only if the parser needs the text where
    the error is. *)
Inductive parse_result := Parsed (l : list sdecl) (ignored : list placed) (c : comments) | SyntaxError | ParseFuel.
Definition parse_text (s : string) : parse_result :=
  let x := lex_file s in
  match p_file (lx_tokens x), lx_end x with
  | POk l [], AtEnd => Parsed l [] (lx_comments x)
  | POk l [], LexError _ => SyntaxError
  | POk _ _, LexFuel => ParseFuel
  | POk l (t :: r), _ => Parsed l (t :: r) (lx_comments x)
  | PError, _ => SyntaxError
  | PFuel, _ => ParseFuel
  end.

(** * Documentation *)

(** The state while the tree is walked: the comments that haven't been used, and the reports. *)
Inductive walked A := Documented (x : A) (reports : list report) (c : comments) | WalkPanics.
Arguments Documented {A}.
Arguments WalkPanics {A}.
Definition walker A := comments -> walked A.
Definition wbind {A B} (w : walker A) (f : A -> walker B) : walker B := fun c =>
  match w c with
  | Documented x r c =>
      match f x c with Documented y r' c => Documented y (r ++ r') c | WalkPanics => WalkPanics end
  | WalkPanics => WalkPanics
  end.
Definition wret {A} (x : A) : walker A := fun c => Documented x [] c.
Notation "'doc*' x ':=' p 'in' q" := (wbind p (fun x => q)) (at level 200, x pattern, right associativity).
Fixpoint walk_all {A B} (f : A -> walker B) (l : list A) : walker (list B) :=
  match l with
  | [] => wret []
  | x :: r => doc* y := f x in doc* ys := walk_all f r in wret (y :: ys)
  end.

(** pkg/language/reader.go:1064-1117, the calls to [getDoc]. *)
Definition doc_at (line : nat) : walker string := fun c =>
  match get_doc c line with GotDoc d r c => Documented d r c | DocPanics => WalkPanics end.

(** pkg/language/reader.go:381-397 [ExitEnumMemberDecl], 571-594 [ExitStructMemberDecl], 789-827
    [ExitMethodParameterDecl], 753-780 [ExitMethodDecl], 829-863 [ExitLocatorDecl]: the nodes are left after their
    children. *)
Definition doc_value (v : svalue) : walker value_decl :=
  doc* d := doc_at (sv_line v) in wret (MkValueDecl (sv_annots v) (sv_name v) d).
Definition doc_member (m : smember) : walker member_decl :=
  doc* d := doc_at (sm_line m) in wret (MkMemberDecl (sm_annots m) (sm_link m) (sm_name m) (sm_ref m) d).
Definition doc_param (p : sparam) : walker param_decl :=
  doc* d := doc_at (sp_line p) in
  wret (MkParamDecl (sp_annots p) (sp_directions p) (sp_name p) (sp_ref p) (sp_default p) d).
Definition doc_method (m : smethod) : walker method_decl :=
  doc* ps := walk_all doc_param (sx_params m) in
  doc* d := doc_at (sx_line m) in
  wret (MkMethodDecl (sx_annots m) (sx_name m) ps d).
Definition doc_locator (l : slocator) : walker locator_decl :=
  doc* d := doc_at (sl_line l) in wret (MkLocatorDecl (sl_annots l) (sl_name l) (sl_members l) d).
Definition doc_resource_member (m : sresource_member) : walker resource_member :=
  match m with
  | SMMethod m => doc* x := doc_method m in wret (RMMethod x)
  | SMLocator l => doc* x := doc_locator l in wret (RMLocator x)
  end.

(** pkg/language/reader.go:346-379 [ExitEnumDecl], 399-439 [ExitClassDecl], 536-569 [ExitStructDecl], 715-751
    [ExitResourceDecl], 884-918 [ExitErrorDecl]. *)
Definition doc_decl (x : sdecl) : walker decl :=
  match sd_body x with
  | BEnum l => doc* ms := walk_all doc_value l in doc* d := doc_at (sd_line x) in wret (DEnum (sd_annots x) (sd_name x) ms d)
  | BClass l => doc* ms := walk_all doc_member l in doc* d := doc_at (sd_line x) in wret (DClass (sd_annots x) (sd_name x) ms d)
  | BStruct l => doc* ms := walk_all doc_member l in doc* d := doc_at (sd_line x) in wret (DStruct (sd_annots x) (sd_name x) ms d)
  | BError l => doc* d := doc_at (sd_line x) in wret (DError (sd_annots x) (sd_name x) l d)
  | BResource l =>
      doc* ms := walk_all doc_resource_member l in
      doc* d := doc_at (sd_line x) in
      wret (DResource (sd_annots x) (sd_name x) ms d)
  end.

(** pkg/language/reader.go:303-338, [loadFile], until the declarations are known: the reader model processes
    them.  The runtime calls the listener when it leaves each node, so the calls to [getDoc] are mixed with the rest
    of the work of the listener, which doesn't use the comments; only the order of the reports is different. *)
Inductive load_result :=
| Loaded (l : list decl) (reports : list report) (ignored : list placed)
| LoadFails
| LoadPanics
| LoadFuel.
Definition load_text (s : string) : load_result :=
  match parse_text s with
  | Parsed l ignored c =>
      match walk_all doc_decl l c with
      | Documented ds reports _ => Loaded ds reports ignored
      | WalkPanics => LoadPanics
      end
  | SyntaxError => LoadFails
  | ParseFuel => LoadFuel
  end.
