(** Model of the functions that process text: the ones that clean the generated Go and Markdown sources,
    the ones that generate comments and arrays of bytes, the summaries of the documentation and the
    documentation comments. *)
From Coq Require Import Ascii String Bool Arith ZArith NArith List.
From Verif Require Import GoStrings GoMap ReporterModel.
Import ListNotations.
Local Open Scope string_scope.

Definition lf : ascii := "010".
Definition cr : ascii := "013".
Definition tab : ascii := "009".

(** Standard library function [strings.TrimSpace]; only the white space of ASCII is considered, see
    GoStrings.v. *)
Definition trim_space (s : string) : string := trim_right_func is_space (trim_left_func is_space s).

(** Standard library function [strings.HasSuffix]. *)
Definition has_suffix (s p : string) : bool :=
  Nat.leb (String.length p) (String.length s) && String.eqb (str_drop (String.length s - String.length p) s) p.

(** Standard library function [strings.ReplaceAll] when the text that is replaced has one byte and the
    replacement is empty. *)
Fixpoint remove_char (c : ascii) (s : string) : string :=
  match s with
  | EmptyString => EmptyString
  | String d r => if Ascii.eqb d c then remove_char c r else String d (remove_char c r)
  end.

(** Standard library function [fmt.Fprintln] for a list of lines. *)
Definition println_all (l : list string) : string := fold_right (fun line r => (line ++ newline ++ r)%string) "" l.

(** * Scanning lines: standard library type [bufio.Scanner] with the default split function *)

(** [bufio.MaxScanTokenSize]: the size of the buffer, that has to contain a line and its terminator. *)
Definition scan_limit : N := 65536.
Definition too_long (line : string) : bool := N.leb scan_limit (N.of_nat (String.length line)).

(** [bufio.dropCR] *)
Definition drop_cr (line : string) : string :=
  if has_suffix line (String cr "") then str_take (String.length line - 1) line else line.

(** The loop of [Scan], using the list of the pieces separated by line feeds.  The last piece is a line only
    if it isn't empty.  The result contains the lines and, if there was a line that is too long, the text
    that was not read from the source: when that happens the buffer contains the first bytes of the line. *)
Fixpoint scan_loop (pieces : list string) : list string * option string :=
  match pieces with
  | [] => ([], None)
  | p :: ps =>
      if too_long p then ([], Some (str_drop (N.to_nat scan_limit) (str_join newline pieces)))
      else
        match ps with
        | [] => (if String.eqb p "" then [] else [drop_cr p], None)
        | _ :: _ => let (lines, rest) := scan_loop ps in (drop_cr p :: lines, rest)
        end
  end.
Definition scan_lines (s : string) : list string * option string := scan_loop (str_split lf s).

(** * Go sources *)

(** pkg/generators/golang/buffer.go:385-402: the body of the loop of [removeExtraBlankLines], for the lines
    [curr] and [next].  The result is the text that is printed and the new depth. *)
Definition blank_lines_step (depth : Z) (curr next : string) : list string * Z :=
  let curr_trim := trim_space curr in
  let next_trim := trim_space next in
  let depth := if has_suffix curr_trim " {" then (depth + 1)%Z else depth in
  let printed :=
    if String.eqb curr_trim "" then
      if Z.ltb 0 depth && has_prefix next_trim "//" then [curr] else []
    else [curr] in
  (printed, if String.eqb curr_trim "}" then (depth - 1)%Z else depth).

(** pkg/generators/golang/buffer.go:384-403: the loop. *)
Fixpoint blank_lines_loop (depth : Z) (next : string) (lines : list string) : list string :=
  match lines with
  | [] => []
  | line :: lines =>
      let (printed, depth) := blank_lines_step depth next line in
      (printed ++ blank_lines_loop depth line lines)%list
  end.

(** pkg/generators/golang/buffer.go:378-410 [removeExtraBlankLines]; [None] is an error. *)
Definition remove_extra_blank_lines (code : string) : option string :=
  match scan_lines code with
  | (lines, None) => Some (println_all (blank_lines_loop 0 "" lines))
  | (_, Some _) => None
  end.

(** pkg/generators/golang/buffer.go:430-436 [lineComment] *)
Definition line_comment (value : string) : string := str_join newline (map (fun line => ("// " ++ line)%string) (str_split lf value)).

(** The digits of verb [%x]. *)
Definition hex_digit (n : N) : ascii := ascii_of_N (if N.ltb n 10 then 48 + n else 87 + n).

(** Verb [%#2x] for a byte: the minimum width counts the prefix, so it has no effect. *)
Definition hex_byte (c : ascii) : string :=
  let n := N_of_ascii c in
  "0x" ++ (if N.leb 16 n then String (hex_digit (n / 16)) (String (hex_digit (n mod 16)) "") else String (hex_digit n) "").

(** pkg/generators/golang/buffer.go:444-450: the loop of [byteArray]; [i] is the index of the first byte. *)
Fixpoint byte_array_loop (i : nat) (data : string) : string :=
  match data with
  | EmptyString => EmptyString
  | String c r =>
      (if Nat.ltb 0 i && Nat.eqb (i mod 16) 0 then newline else "") ++ hex_byte c ++ "," ++ byte_array_loop (S i) r
  end.

(** pkg/generators/golang/buffer.go:440-455 [byteArray] *)
Definition byte_array (data : string) : string :=
  byte_array_loop 0 data ++ (if Nat.ltb 0 (String.length data) && negb (Nat.eqb (String.length data mod 16) 0) then newline else "").

(** Standard library function [strings.LastIndex] for a separator of one byte; [None] is -1. *)
Fixpoint last_index (c : ascii) (s : string) : option nat :=
  match s with
  | EmptyString => None
  | String d r =>
      match last_index c r with
      | Some i => Some (S i)
      | None => if Ascii.eqb d c then Some 0 else None
      end
  end.

(** pkg/generators/golang/buffer.go:460-469 [cleanPkg] *)
Definition clean_pkg (name : string) : string :=
  let name := if has_suffix name "-go" then str_take (String.length name - 3) name else name in
  match last_index "-" name with
  | Some (S i) => str_drop (S (S i)) name
  | _ => name
  end.

(** * Markdown *)

(** pkg/markdown/buffer.go:253-281 [removeTabs].  When a line is too long the function returns before the
    text is replaced, and that error is ignored by the caller, so the result is what the scanner did not
    read. *)
Definition remove_tabs (code : string) : string :=
  match scan_lines code with
  | (lines, None) =>
      let lines := map (trim_right_func is_space) lines in
      println_all (map (trim_left_func (fun c => Ascii.eqb c tab)) lines)
  | (_, Some rest) => rest
  end.

(** pkg/markdown/buffer.go:285-287 [backTicks], for strings. *)
Definition back_ticks (value : string) : string := "`" ++ value ++ "`".

(** pkg/generators/docs/docs_generator.go:401-418 [docSummary]; the index is always in the string. *)
Definition doc_summary (doc : string) : string :=
  if String.eqb doc "" then ""
  else
    match index_func (fun c => Ascii.eqb c ".") doc with
    | Some index => remove_char lf (str_take (index + 1) doc)
    | None => doc
    end.

(** * Documentation comments *)

(** pkg/language/reader.go:1061: the variable [comments], from line numbers to the text of the comments. *)
Definition comments := list (nat * string).
Definition comment_at (c : comments) (line : nat) : option string :=
  match find (fun p => Nat.eqb (fst p) line) c with Some p => Some (snd p) | None => None end.
Definition comment_delete (c : comments) (line : nat) : comments := filter (fun p => negb (Nat.eqb (fst p) line)) c.

(** ModelLexer.g4:24-26: what the lexer does with each comment. *)
Definition comment_add (c : comments) (line : nat) (text : string) : comments := (line, text) :: comment_delete c line.

(** pkg/language/reader.go:1067-1074: the loop that collects comments; [n] is the index plus one. *)
Fixpoint collect_comments (c : comments) (n : nat) (lines : list string) : list string * comments :=
  match n with
  | 0 => (lines, c)
  | S index =>
      match comment_at c index with
      | None => (lines, c)
      | Some line => collect_comments (comment_delete c index) index (line :: lines)
      end
  end.

(** pkg/language/reader.go:1077-1088: removes the marks; the error is the index and the text of the first
    line that isn't correct. *)
Fixpoint remove_marks (i : nat) (lines : list string) : list string + (nat * string) :=
  match lines with
  | [] => inl []
  | line :: rest =>
      if has_prefix line "//" then
        match remove_marks (S i) rest with inl r => inl (str_drop 2 line :: r) | inr e => inr e end
      else inr (i, line)
  end.

(** pkg/language/reader.go:1097-1111: removes the indentation. *)
Fixpoint remove_indent (prefix : string) (i : nat) (lines : list string) : list string + (nat * string) :=
  match lines with
  | [] => inl []
  | line :: rest =>
      let continue l := match remove_indent prefix (S i) rest with inl r => inl (l :: r) | inr e => inr e end in
      if String.eqb line "" then continue line
      else if has_prefix line prefix then continue (trim_prefix line prefix)
      else inr (i, line)
  end.

(** The results of [getDoc]: the documentation, the reports and the remaining comments; or a panic, that
    happens when the first line doesn't have a character that isn't white space. *)
Inductive doc_result := GotDoc (doc : string) (reports : list report) (c : comments) | DocPanics.

(** pkg/language/reader.go:1064-1117 [getDoc], for a token that is in the given line. *)
Definition get_doc (c : comments) (line : nat) : doc_result :=
  let (lines, c) := collect_comments c line [] in
  match remove_marks 0 lines with
  | inr (i, bad) =>
      GotDoc ""
        [err ("Documentation comment at line " ++ itoa_z (Z.of_nat line - Z.of_nat (length lines) + Z.of_nat i) ++ " doesn't start with '//'");
         err ("Offending line is '" ++ bad ++ "'")] c
  | inl [] => GotDoc "" [] c
  | inl (first :: rest) =>
      let lines := first :: rest in
      match index_func (fun r => negb (is_space r)) first with
      | None => DocPanics
      | Some index =>
          match remove_indent (str_take index first) 0 lines with
          | inr (i, bad) =>
              (* The message has the text of the first line, whose indentation has already been removed only in
                 the list. *)
              GotDoc ""
                [err ("Documentation comment at line " ++ itoa_z (Z.of_nat line - Z.of_nat (length lines) + Z.of_nat i) ++
                      " has different prefix than first line");
                 err ("First line is '" ++ first ++ "'");
                 err ("Offending line is '" ++ bad ++ "'")] c
          | inl lines => GotDoc (str_join newline lines) [] c
          end
      end
  end.
