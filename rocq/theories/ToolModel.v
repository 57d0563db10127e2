(** Model of the part of pkg/language/reader.go that reads directories and files, and of the commands of the tool (cmd/metamodel).

    Simplifications:
    - The command line is already parsed: the commands receive the values of their options (cobra isn't modelled).
    - The directories don't change while they are read, and there are no symbolic links: what [os.Stat] finds in a directory is what
      [os.ReadDir] lists.
    - The directories that are read are trees, the files that are written are the ones of BufferModel.v. *)
From Coq Require Import Ascii String Bool Arith ZArith List.
From Verif Require Import GoStrings GoMap NamesModel ConceptsModel ReporterModel ReaderModel GoNamesModel SyntaxModel TextModel BufferModel ChecksModel OpenapiModel DocsModel.
Import ListNotations.
Local Open Scope string_scope.

(** * The directories that are read *)

(** What is in a path: a regular file, a directory or something else.  Files that can't be opened and directories that can't be listed have
    the message of the error. *)
Inductive node :=
| Regular (content : string + string)
| Directory (entries : list (string * node) + string)
| Special.

(** Standard library function [os.Stat]: the path doesn't exist, there is another error, or the path exists. *)
Inductive found := Missing | Unknown (message : string) | Found (n : node).

(** Standard library functions [os.ReadDir] and [ioutil.ReadDir]: the entries, sorted by name. *)
Definition read_dir (l : list (string * node)) : list (string * node) := sort (fun a b => Z.ltb (str_compare (fst a) (fst b)) 0) l.

(** The loops of the reader: stop at the first panic. *)
Fixpoint each {A B} (f : A -> B -> outcome B) (l : list A) (b : B) : outcome B :=
  match l with
  | [] => Done b
  | a :: l => match f a b with Done b => each f l b | Panics => Panics | OutOfFuel => OutOfFuel end
  end.

Definition add_reports (l : list report) (st : rstate) : rstate :=
  MkRState (rs_version st) (rs_utypes st) (rs_uresources st) (rs_reports st ++ l)%list.
Definition g_report (r : report) (g : gstate) : gstate := MkGState (g_model g) (g_utypes g) (g_uresources g) (g_reports g ++ [r])%list.

Section Directories.
  (** What the parser generated by ANTLR does with the texts that aren't in the language: the reports, and the declarations that the listener
      is called with. *)
  Context (recover : string -> list report * outcome (list decl)).
  (** What is in each path. *)
  Context (lookup : string -> found).

  (** pkg/language/reader.go:303-338, [loadFile]. The reports about the literals of a file are made before those about its declarations; in the
      code they are made while the declarations are visited. *)
  Definition load_source (path : string) (content : string + string) (st : rstate) : outcome rstate :=
    let st := add_report (info ("Loading file '" ++ path ++ "'")) st in
    match content with
    | inr e => Done (add_report (err ("Can't open source file '" ++ path ++ "': " ++ e)) st)
    | inl text =>
        match load_text text with
        | Loaded ds reports _ => Done (fold_left (fun st d => exit_decl d st) ds (add_reports reports st))
        | LoadFails =>
            match recover text with
            | (reports, Done ds) => Done (fold_left (fun st d => exit_decl d st) ds (add_reports reports st))
            | (_, Panics) => Panics
            | (_, OutOfFuel) => OutOfFuel
            end
        | LoadPanics => Panics
        | LoadFuel => OutOfFuel
        end
    end.

  (** pkg/language/reader.go:286-300: an entry of the directory of a version. *)
  Definition version_entry (dir : string) (e : string * node) (st : rstate) : outcome rstate :=
    match snd e with
    | Regular content => load_source (path_join [dir; fst e]) content st
    | _ =>
        Done (add_report (info ("Version directory '" ++ dir ++ "' should only model files but it contains '" ++ fst e ++
                                "' which isn't a regular file, it will be ignored")) st)
    end.

  (** pkg/language/reader.go:256-301, [loadVersion], when the path is a directory with that name. *)
  Definition load_version_dir (dir name : string) (entries : list (string * node) + string) (sg : service * gstate) : outcome (service * gstate) :=
    let (s, g) := sg in
    let n := parse_using_separator name "_" in
    let v := match find_version n s with Some v => v | None => new_version n end in
    let st := MkRState v (g_utypes g) (g_uresources g) (g_reports g) in
    let loaded :=
      match entries with
      | inr e => Done (add_report (err ("Can't list version directory '" ++ dir ++ "': " ++ e)) st)
      | inl l => each (version_entry dir) (read_dir l) st
      end in
    match loaded with
    | Done st => Done (add_version (rs_version st) s, MkGState (g_model g) (rs_utypes st) (rs_uresources st) (rs_reports st))
    | Panics => Panics
    | OutOfFuel => OutOfFuel
    end.

  (** pkg/language/reader.go:242-253: an entry of the directory of a service. *)
  Definition service_entry (dir : string) (e : string * node) (sg : service * gstate) : outcome (service * gstate) :=
    match snd e with
    | Directory entries => load_version_dir (path_join [dir; fst e]) (fst e) entries sg
    | _ =>
        Done (fst sg, g_report (info ("Service directory '" ++ dir ++ "' should only contain version sub-directories, but it contains file '" ++ fst e ++
                                      "', it will be ignored")) (snd sg))
    end.

  (** pkg/language/reader.go:209-254, [loadService], when the path is a directory with that name; the service is stored back when it has been
      loaded. *)
  Definition load_service_dir (dir name : string) (entries : list (string * node) + string) (g : gstate) : outcome gstate :=
    let n := parse_using_separator name "_" in
    let s := match find_service n (g_model g) with Some s => s | None => new_service n end in
    let loaded :=
      match entries with
      | inr e => Done (s, g_report (err ("Can't list service directory '" ++ dir ++ "': " ++ e)) g)
      | inl l => each (service_entry dir) (read_dir l) (s, g)
      end in
    match loaded with
    | Done (s, g) => Done (MkGState (add_service s (g_model g)) (g_utypes g) (g_uresources g) (g_reports g))
    | Panics => Panics
    | OutOfFuel => OutOfFuel
    end.

  (** pkg/language/reader.go:194-206: an entry of the directory of the model. *)
  Definition model_entry (dir : string) (e : string * node) (g : gstate) : outcome gstate :=
    match snd e with
    | Directory entries => load_service_dir (path_join [dir; fst e]) (fst e) entries g
    | _ =>
        Done (g_report (info ("Model directory '" ++ dir ++ "' should only contain service sub-directories, but it contains file '" ++ fst e ++
                              "', it will be ignored")) g)
    end.

  (** pkg/language/reader.go:171-207, [loadModel]. *)
  Definition load_model_dir (dir : string) (g : gstate) : outcome gstate :=
    match lookup dir with
    | Missing => Done (g_report (err ("Model directory '" ++ dir ++ "' doesn't exist")) g)
    | Unknown e => Done (g_report (err ("Can't check if model directory '" ++ dir ++ "' exists: " ++ e)) g)
    | Found (Directory (inl l)) => each (model_entry dir) (read_dir l) g
    | Found (Directory (inr e)) => Done (g_report (err ("Can't list model directory '" ++ dir ++ "': " ++ e)) g)
    | Found _ => Done (g_report (err ("Model directory '" ++ dir ++ "' isn't actually a directory")) g)
    end.

  (** pkg/language/reader.go:122-168: what [Read] does when the inputs have been loaded. *)
  Definition finish_read (g : gstate) : outcome (read_result * list report) :=
    let reports := (g_reports g ++ undefined_reports g)%list in
    let m := ensure_model_lists (g_model g) in
    match check_model m with
    | Done l => let reports := (reports ++ l)%list in Done (decide m reports, reports)
    | Panics => Panics
    | OutOfFuel => OutOfFuel
    end.

  (** pkg/language/reader.go:99-169, [Read]. *)
  Definition read_paths (paths : list string) (reports : list report) : outcome (read_result * list report) :=
    match each load_model_dir paths (MkGState [] [] [] reports) with
    | Done g => finish_read g
    | Panics => Panics
    | OutOfFuel => OutOfFuel
    end.

  (** * The commands *)

  (** How a command ends: with an exit code after some reports and changes to the files; or with a panic. *)
  Inductive ending := Exit (code : nat) (reports : list report) (fs : files) | Crash | Unfinished.

  (** The reports for the mandatory options that are missing. *)
  Definition missing_option (name : string) (missing : bool) : list report :=
    if missing then [err ("Option '--" ++ name ++ "' is mandatory")] else [].
  Definition no_paths (paths : list string) : bool := match paths with [] => true | _ => false end.

  (** The part that all the commands have: cmd/metamodel/generate/docs/cmd.go:72-94, cmd/metamodel/generate/openapi/cmd.go:73-95 and
      cmd/metamodel/generate/golang/cmd.go:84-110. *)
  Definition with_model (options : list report) (paths : list string) (fs : files) (next : model -> list report -> ending) : ending :=
    match options with
    | [] =>
        match read_paths paths [] with
        | Done (ROk m, reports) => next m reports
        | Done (RError e, reports) => Exit 1 (reports ++ [err ("Can't read model: " ++ e)])%list fs
        | Panics => Crash
        | OutOfFuel => Unfinished
        end
    | _ => Exit 1 options fs
    end.

  (** cmd/metamodel/check/cmd.go:55-87, [run]. *)
  Definition check_command (paths : list string) (fs : files) : ending :=
    match missing_option "model" (no_paths paths) with
    | [] =>
        match read_paths paths [] with
        | Done (ROk _, reports) => Exit 0 (reports ++ [info "Check succeeded"])%list fs
        | Done (RError e, reports) => Exit 1 (reports ++ [err ("Check failed: " ++ e)])%list fs
        | Panics => Crash
        | OutOfFuel => Unfinished
        end
    | options => Exit 1 options fs
    end.

  (** How the generators end: docs/cmd.go:112-122, openapi/cmd.go:131-141 and golang/cmd.go:277-284. *)
  Definition generated (r : option string * list report * files) : ending :=
    match r with
    | (None, reports, fs) => Exit 0 reports fs
    | (Some e, reports, fs) => Exit 1 (reports ++ [err ("Generation failed: " ++ e)])%list fs
    end.

  (** cmd/metamodel/generate/docs/cmd.go:64-123, [run]. The generator can be created because all its parameters are given. *)
  Definition docs_command (sys : system) (paths : list string) (output : string) (fs : files) : ending :=
    with_model (missing_option "model" (no_paths paths) ++ missing_option "output" (String.eqb output ""))%list paths fs
      (fun m reports => generated (generate_docs sys output m reports fs)).

  (** cmd/metamodel/generate/openapi/cmd.go:65-142, [run]. The calculators and
      the generator can be created because all their parameters are given. *)
  Definition openapi_command (sys : system) (fuel : nat) (paths : list string) (output : string) (fs : files) : ending :=
    with_model (missing_option "model" (no_paths paths) ++ missing_option "output" (String.eqb output ""))%list paths fs
      (fun m reports =>
         match run_openapi sys fuel output m reports fs with
         | Done r => generated r
         | Panics => Crash
         | OutOfFuel => Unfinished
         end).

  (** The generators of Go code, in the order in which they run: cmd/metamodel/generate/golang/cmd.go:152-275. *)
  Inductive go_generator := GoErrors | GoHelpers | GoTypes | GoBuilders | GoClients | GoJson | GoMetrics | GoOpenapi.
  Definition go_generators : list go_generator := [GoErrors; GoHelpers; GoTypes; GoBuilders; GoClients; GoJson; GoMetrics; GoOpenapi].

  Section Go.
    (** What each generator does with the base package, the output directory, the model, the reports and the files. *)
    Context (generate : go_generator -> string -> string -> model -> list report -> files -> option string * list report * files).
    (** The regular files with extension [.go] of a directory, or an error ([filepath.Walk]). *)
    Context (sources : string -> files -> list string + string).
    (** What [goimports -w] does to the files, with an error or not. *)
    Context (goimports : list string -> files -> option string * files).

    (** golang/cmd.go:277-284: the generators run till the first error. *)
    Fixpoint run_generators (l : list go_generator) (base output : string) (m : model) (reports : list report) (fs : files) : option string * list report * files :=
      match l with
      | [] => (None, reports, fs)
      | g :: l =>
          match generate g base output m reports fs with
          | (None, reports, fs) => run_generators l base output m reports fs
          | failure => failure
          end
      end.

    (** golang/cmd.go:286-314: the formatter, with the sorted list of the files. *)
    Definition format_sources (output : string) (reports : list report) (fs : files) : ending :=
      let reports := (reports ++ [info "Formatting generated files"])%list in
      match sources output fs with
      | inr e => Exit 1 (reports ++ [err ("Can't collect generated sources: " ++ e)])%list fs
      | inl l =>
          match goimports (sort (fun a b => Z.ltb (str_compare a b) 0) l) fs with
          | (None, fs) => Exit 0 reports fs
          | (Some e, fs) => Exit 1 (reports ++ [err ("Can't format generated sources: " ++ e)])%list fs
          end
      end.

    (** cmd/metamodel/generate/golang/cmd.go:76-318, [run]. The calculators and the
        generators can be created because all their parameters are given. *)
    Definition go_command (paths : list string) (base output : string) (fs : files) : ending :=
      with_model (missing_option "model" (no_paths paths) ++ missing_option "base" (String.eqb base "") ++ missing_option "output" (String.eqb output ""))%list paths fs
        (fun m reports =>
           match run_generators go_generators base output m reports fs with
           | (None, reports, fs) => format_sources output reports fs
           | (Some e, reports, fs) => Exit 1 (reports ++ [err ("Generation failed: " ++ e)])%list fs
           end).
  End Go.
End Directories.
