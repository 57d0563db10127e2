(** Model of the buffers used by the generators: pkg/generators/golang/buffer.go, pkg/markdown/buffer.go and
    pkg/generators/openapi/buffer.go (only [Write]; the rest of that file is in OpenapiModel.v), and of
    pkg/language/writer.go. *)
From Coq Require Import Ascii String Bool Arith ZArith NArith List.
From Verif Require Import GoStrings GoMap ReporterModel GoNamesModel TextModel.
Import ListNotations.
Local Open Scope string_scope.

(** * The file system *)

(** The contents of the files. *)
Definition files := list (string * string).

(** Standard library functions [os.MkdirAll] and [os.OpenFile]: the errors that they return for each path.
    Simplification: writing and closing a file that has been opened doesn't fail. *)
Record system := MkSystem { sys_mkdir : string -> option string; sys_open : string -> option string }.

(** Standard library function [filepath.Dir] in Unix: everything but the last element, cleaned. *)
Definition path_dir (s : string) : string :=
  match last_index "/" s with
  | Some i => path_clean (str_take (i + 1) s)
  | None => "."
  end.

(** The check that is repeated in the functions that write files: golang/buffer.go:311-318,
    markdown/buffer.go:208-215, openapi/buffer.go:178-185 and language/writer.go:87-93. *)
Definition errors_found (errors : nat) : option string :=
  if Nat.ltb 0 errors then
    Some (if Nat.ltb 1 errors then "there were " ++ itoa errors ++ " errors" else "there was 1 error")
  else None.

(** * Templates *)

(** The arguments of the templates: strings, references to types, and other values, identified by a number.
    The keys should be strings. *)
Inductive argument := ArgString (s : string) | ArgReference (imprt selector text : string) | ArgOther (id : nat).

(** The values used to execute the templates. *)
Inductive value := ValString (s : string) | ValOther (id : nat).

(** The package [text/template]: the result of parsing and executing a template is the text and the imports of
    the references returned by the functions that the template calls, or the text of the error.  The first
    number is 0 for errors of the parser and 1 for errors of the execution. *)
Definition templates := string -> list (string * value) -> (string * list (string * string)) + (nat * string).

(** Standard library function [strings.Replace] when the replacement is empty and all the matches are
    replaced; the text that is replaced isn't empty.  The first argument is the number of bytes that have to
    be skipped. *)
Fixpoint remove_all (skip : nat) (old s : string) : string :=
  match s with
  | EmptyString => EmptyString
  | String c r =>
      match skip with
      | S n => remove_all n old r
      | 0 => if has_prefix s old then remove_all (String.length old - 1) old r else String c (remove_all 0 old r)
      end
  end.

(** The check of the number and type of the arguments: golang/buffer.go:171-192 and
    markdown/buffer.go:139-157. *)
Fixpoint check_keys (tmpl : string) (i : nat) (args : list argument) : list report :=
  match args with
  | [] | [_] => []
  | key :: _ :: rest =>
      let more := check_keys tmpl (i + 2) rest in
      match key with
      | ArgString _ => more
      | _ =>
          err ("Argument " ++ itoa i ++ " of template '" ++ tmpl ++ "' is a key, so it should be a string, but its type is " ++
               match key with ArgReference _ _ _ => "*golang.TypeReference" | _ => "other" end) :: more
      end
  end.

(** The map of the values: golang/buffer.go:200-205 and markdown/buffer.go:161-166. *)
Fixpoint argument_pairs (args : list argument) : list (string * argument) :=
  match args with
  | ArgString key :: value :: rest => (key, value) :: argument_pairs rest
  | _ => []
  end.
Definition argument_map (args : list argument) : list (string * argument) :=
  fold_left (fun m p => mset (fst p) (snd p) m) (argument_pairs args) [].

(** * Buffers for Go *)

(** golang/buffer.go:45-53; the functions are part of the templates. *)
Record go_buffer := MkGoBuffer { gb_pkg : string; gb_file : string; gb_imports : list (string * string); gb_code : string }.

(** golang/buffer.go:95-139 [Build], when all the mandatory parameters are provided. *)
Definition new_go_buffer (base output pkg file : string) : go_buffer :=
  MkGoBuffer (path_join [base; pkg]) (path_join [output; pkg; file ++ ".go"]) [] "".

(** golang/buffer.go:143-147 [Import] *)
Definition add_import (imprt selector : string) (b : go_buffer) : go_buffer :=
  if negb (String.eqb imprt "") && negb (String.eqb imprt (gb_pkg b)) then
    MkGoBuffer (gb_pkg b) (gb_file b) (mset imprt selector (gb_imports b)) (gb_code b)
  else b.

(** golang/buffer.go:414-427 [replaceValue] *)
Definition replace_value (v : argument) (b : go_buffer) : value * go_buffer :=
  match v with
  | ArgReference imprt selector text =>
      (ValString (if String.eqb imprt (gb_pkg b) then remove_all 0 (selector ++ ".") text else text), add_import imprt selector b)
  | ArgString s => (ValString s, b)
  | ArgOther id => (ValOther id, b)
  end.

(** golang/buffer.go:208-210: the values of the map.  Simplification: they are visited in the order of the
    arguments. *)
Fixpoint replace_values (l : list (string * argument)) (b : go_buffer) : list (string * value) * go_buffer :=
  match l with
  | [] => ([], b)
  | (k, v) :: r =>
      let (v, b) := replace_value v b in
      let (r, b) := replace_values r b in
      ((k, v) :: r, b)
  end.

(** golang/buffer.go:168-263 [Eval]; the list of reports contains everything that was sent to the reporter. *)
Definition eval_go (t : templates) (tmpl : string) (args : list argument) (b : go_buffer) (reports : list report)
    : string * go_buffer * list report :=
  let count := length args in
  if negb (Nat.eqb (count mod 2) 0) then
    ("", b, app reports [err ("Template '" ++ tmpl ++ "' should have an even number of arguments, but it has " ++ itoa count)])
  else
    let reports := app reports (check_keys tmpl 0 args) in
    if Nat.ltb 0 (error_count reports) then ("", b, reports)
    else
      let (data, b) := replace_values (argument_map args) b in
      match t tmpl data with
      | inl (text, imports) => (text, fold_left (fun b p => add_import (fst p) (snd p) b) imports b, reports)
      | inr (0, message) => ("", b, app reports [err ("Can't parse template '" ++ tmpl ++ "': " ++ message)])
      | inr (_, message) => ("", b, app reports [err ("Can't execute template '" ++ tmpl ++ "': " ++ message)])
      end.

(** golang/buffer.go:286-299 [Emit]; writing to a memory buffer never fails. *)
Definition emit_go (t : templates) (tmpl : string) (args : list argument) (b : go_buffer) (reports : list report) : go_buffer * list report :=
  let '(text, b, reports) := eval_go t tmpl args b reports in
  (MkGoBuffer (gb_pkg b) (gb_file b) (gb_imports b) (gb_code b ++ text ++ newline), reports).

(** golang/buffer.go:346-350 *)
Definition import_line (p : string * string) : string :=
  if negb (String.eqb (snd p) "") then snd p ++ " """ ++ fst p ++ """" ++ newline else """" ++ fst p ++ """" ++ newline.

(** golang/buffer.go:332-355: what is written before the code.  The order is the one of the loop over the map of
    imports. *)
Definition go_preamble (header : string) (order : list (string * string) -> list (string * string)) (b : go_buffer) : string :=
  header ++ newline ++ newline ++
  "package " ++ clean_pkg (path_base (gb_pkg b)) ++ " // " ++ gb_pkg b ++ newline ++ newline ++
  (if Nat.ltb 0 (length (gb_imports b)) then
     "import (" ++ newline ++ fold_right (fun p r => import_line p ++ r) "" (order (gb_imports b)) ++ ")" ++ newline ++ newline
   else "").

(** golang/buffer.go:302-374 [Write]; the result is the error.  When the code contains a line that is too long
    the file has already been written partially. *)
Definition write_go (sys : system) (header : string) (order : list (string * string) -> list (string * string)) (b : go_buffer)
    (reports : list report) (fs : files) : option string * list report * files :=
  let reports := app reports [info ("Writing file '" ++ gb_file b ++ "'")] in
  match errors_found (error_count reports) with
  | Some e => (Some e, reports, fs)
  | None =>
      match sys_mkdir sys (path_dir (gb_file b)) with
      | Some e => (Some ("can't create output directory '" ++ path_dir (gb_file b) ++ "': " ++ e), reports, fs)
      | None =>
          match sys_open sys (gb_file b) with
          | Some e => (Some ("can't open output file '" ++ gb_file b ++ "': " ++ e), reports, fs)
          | None =>
              match remove_extra_blank_lines (gb_code b) with
              | None =>
                  (Some "can't remove extra blank lines: bufio.Scanner: token too long", reports,
                   mset (gb_file b) (go_preamble header order b) fs)
              | Some code => (None, reports, mset (gb_file b) (go_preamble header order b ++ code) fs)
              end
          end
      end
  end.

(** * Buffers for Markdown *)

(** markdown/buffer.go:42-50; only the fields that are used. *)
Record md_buffer := MkMdBuffer { mb_file : string; mb_code : string }.

(** markdown/buffer.go:84-111 [Build], when all the mandatory parameters are provided. *)
Definition new_md_buffer (output file : string) : md_buffer := MkMdBuffer (path_join [output; file ++ ".md"]) "".

(** The values of the templates aren't replaced. *)
Definition plain_value (v : argument) : value :=
  match v with ArgString s => ValString s | ArgReference _ _ text => ValString text | ArgOther id => ValOther id end.

(** markdown/buffer.go:136-198 [Emit] *)
Definition emit_md (t : templates) (tmpl : string) (args : list argument) (b : md_buffer) (reports : list report) : md_buffer * list report :=
  let count := length args in
  if negb (Nat.eqb (count mod 2) 0) then
    (b, app reports [err ("Template '" ++ tmpl ++ "' should have an even number of arguments, but it has " ++ itoa count)])
  else
    let reports := app reports (check_keys tmpl 0 args) in
    if Nat.ltb 0 (error_count reports) then (b, reports)
    else
      match t tmpl (map (fun p => (fst p, plain_value (snd p))) (argument_map args)) with
      | inl (text, _) => (MkMdBuffer (mb_file b) (mb_code b ++ text ++ newline), reports)
      | inr (0, message) => (b, app reports [err ("Can't parse template '" ++ tmpl ++ "': " ++ message)])
      | inr (_, message) => (b, app reports [err ("Can't execute template '" ++ tmpl ++ "': " ++ message)])
      end.

(** markdown/buffer.go:201-250 [Write]; the error of [removeTabs] is ignored. *)
Definition write_md (sys : system) (b : md_buffer) (reports : list report) (fs : files) : option string * list report * files :=
  let reports := app reports [info ("Writing file '" ++ mb_file b ++ "'")] in
  match errors_found (error_count reports) with
  | Some e => (Some e, reports, fs)
  | None =>
      match sys_mkdir sys (path_dir (mb_file b)) with
      | Some e => (Some ("can't create output directory '" ++ path_dir (mb_file b) ++ "': " ++ e), reports, fs)
      | None =>
          match sys_open sys (mb_file b) with
          | Some e => (Some ("can't open output file '" ++ mb_file b ++ "': " ++ e), reports, fs)
          | None => (None, reports, mset (mb_file b) (remove_tabs (mb_code b)) fs)
          end
      end
  end.

(** * Buffers for OpenAPI *)

(** openapi/buffer.go:174-206 [Write]; the content is the one of the stream.  [ioutil.WriteFile] fails only
    if it can't open the file. *)
Definition write_openapi (sys : system) (output content : string) (reports : list report) (fs : files) : option string * list report * files :=
  match errors_found (error_count reports) with
  | Some e => (Some e, reports, fs)
  | None =>
      match sys_mkdir sys (path_dir output) with
      | Some e => (Some e, reports, fs)
      | None =>
          let reports := app reports [info ("Writing file '" ++ output ++ "'")] in
          match sys_open sys output with
          | Some e => (Some e, reports, fs)
          | None => (None, reports, mset output content fs)
          end
      end
  end.

(** * The writer *)

(** language/writer.go:74-119 [Write], when all the mandatory parameters are provided; the arguments are the
    names of the types and of the resources of each version.  It doesn't write files. *)
Definition write_model (versions : list (list string * list string)) (reports : list report) : option string * list report :=
  match errors_found (error_count reports) with
  | Some e => (Some e, reports)
  | None =>
      (None,
       app reports
         (flat_map (fun v => app (map (fun t => info ("Writing type '" ++ t ++ "'")) (fst v))
            (map (fun r => info ("Writing resource '" ++ r ++ "'")) (snd v))) versions))
  end.

(** * Histories *)

(** What can happen to a buffer before it is written. *)
Inductive event := Emitted (tmpl : string) (args : list argument) | Imported (imprt selector : string) | Reported (r : report).

Definition go_event (t : templates) (s : go_buffer * list report) (e : event) : go_buffer * list report :=
  match e with
  | Emitted tmpl args => emit_go t tmpl args (fst s) (snd s)
  | Imported imprt selector => (add_import imprt selector (fst s), snd s)
  | Reported r => (fst s, app (snd s) [r])
  end.
Definition go_events (t : templates) (l : list event) (s : go_buffer * list report) : go_buffer * list report := fold_left (go_event t) l s.

Definition md_event (t : templates) (s : md_buffer * list report) (e : event) : md_buffer * list report :=
  match e with
  | Emitted tmpl args => emit_md t tmpl args (fst s) (snd s)
  | Imported _ _ => s
  | Reported r => (fst s, app (snd s) [r])
  end.
Definition md_events (t : templates) (l : list event) (s : md_buffer * list report) : md_buffer * list report := fold_left (md_event t) l s.
