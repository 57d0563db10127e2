(** Model of pkg/language/reader.go.

    The input is the syntax tree that the parser generates for the grammar
    pkg/language/ModelParser.g4; the lexer and the parser are in SyntaxModel.v, and the part of the file
    system that matters is in BufferModel.v.
    The listener methods are called when leaving the nodes of the tree, so the functions below
    process the children of a node before the node.

    Simplifications:
    - Nodes carry the text of their documentation; [getDoc] is modelled separately (TextModel.v).
    - The [ref] annotation of classes (pkg/language/reader.go:433-438, 441-534) isn't modelled.
    - [undefinedErrors] is never populated, because nothing calls [addUndefinedError], so it is
      omitted. *)
From Coq Require Import Ascii String Bool Arith ZArith DecimalString List.
From Verif Require Import GoStrings GoMap NamesModel ConceptsModel ReporterModel.
Import ListNotations.
Local Open Scope string_scope.

(** * Syntax trees (pkg/language/ModelParser.g4) *)

(** Rule [literal].  The token of a string literal comes together with the result of
    [strconv.Unquote]. *)
Inductive literal_decl :=
| LDBool (b : bool)
| LDInt (digits : string)
| LDString (text : string) (unquoted : option string).

(** Rule [annotation]. *)
Record annotation_decl := MkAnnotationDecl {
  ad_name : string; ad_params : list (string * literal_decl) }.

(** Rule [typeReference]. *)
Inductive type_ref :=
| RPlain (n : string)
| RList (element : string)
| RMap (index element : string).

(** Rule [structMemberDecl]; the flag is true if the member starts with [link]. *)
Record member_decl := MkMemberDecl {
  md_annots : list annotation_decl; md_link : bool; md_name : string; md_ref : type_ref;
  md_doc : string }.

(** Rule [enumMemberDecl]. *)
Record value_decl := MkValueDecl {
  vd_annots : list annotation_decl; vd_name : string; vd_doc : string }.

(** Rule [parameterDirection]. *)
Inductive direction := DIn | DOut.

(** Rule [methodParameterDecl]. *)
Record param_decl := MkParamDecl {
  pd_annots : list annotation_decl; pd_directions : list direction; pd_name : string;
  pd_ref : type_ref; pd_default : option literal_decl; pd_doc : string }.

(** Rule [methodDecl]. *)
Record method_decl := MkMethodDecl {
  xd_annots : list annotation_decl; xd_name : string; xd_params : list param_decl; xd_doc : string }.

(** Rule [locatorMemberDecl]. *)
Inductive locator_member :=
| LMTarget (resource : string)
| LMVariable (name : string).

(** Rule [locatorDecl]. *)
Record locator_decl := MkLocatorDecl {
  ld_annots : list annotation_decl; ld_name : string; ld_members : list locator_member;
  ld_doc : string }.

(** Rule [resourceMemberDecl]. *)
Inductive resource_member :=
| RMMethod (m : method_decl)
| RMLocator (l : locator_decl).

(** Rules [declaration] and [typeDecl]. *)
Inductive decl :=
| DEnum (annots : list annotation_decl) (n : string) (values : list value_decl) (doc : string)
| DClass (annots : list annotation_decl) (n : string) (members : list member_decl) (doc : string)
| DStruct (annots : list annotation_decl) (n : string) (members : list member_decl) (doc : string)
| DError (annots : list annotation_decl) (n : string) (codes : list string) (doc : string)
| DResource (annots : list annotation_decl) (n : string) (members : list resource_member)
    (doc : string).

(** * State of the reader *)

(** pkg/language/reader.go:41-60, the part that the listener changes while it processes the files of
    one version.  The maps of undefined concepts contain the names of the concepts. *)
Record rstate := MkRState {
  rs_version : version;
  rs_utypes : list (key * name);
  rs_uresources : list (key * name);
  rs_reports : list report }.

Definition set_version (v : version) (st : rstate) : rstate :=
  MkRState v (rs_utypes st) (rs_uresources st) (rs_reports st).
Definition add_report (r : report) (st : rstate) : rstate :=
  MkRState (rs_version st) (rs_utypes st) (rs_uresources st) (rs_reports st ++ [r])%list.

(** pkg/language/reader.go:1012-1016, [isUndefinedType]. *)
Definition is_undefined_type (t : typ) (st : rstate) : bool :=
  mhas (name_key (t_name t)) (rs_utypes st).

(** pkg/language/reader.go:1018-1021, [addUndefinedType]. *)
Definition add_undefined_type (t : typ) (st : rstate) : rstate :=
  MkRState (rs_version st) (mset (name_key (t_name t)) (t_name t) (rs_utypes st)) (rs_uresources st)
    (rs_reports st).

(** pkg/language/reader.go:1023-1026, [removeUndefinedType]. *)
Definition remove_undefined_type (t : typ) (st : rstate) : rstate :=
  MkRState (rs_version st) (mdel (name_key (t_name t)) (rs_utypes st)) (rs_uresources st)
    (rs_reports st).

(** pkg/language/reader.go:1028-1032, [isUndefinedResource]. *)
Definition is_undefined_resource (r : resource) (st : rstate) : bool :=
  mhas (name_key (r_name r)) (rs_uresources st).

(** pkg/language/reader.go:1034-1037, [addUndefinedResource]. *)
Definition add_undefined_resource (r : resource) (st : rstate) : rstate :=
  MkRState (rs_version st) (rs_utypes st)
    (mset (name_key (r_name r)) (r_name r) (rs_uresources st)) (rs_reports st).

(** pkg/language/reader.go:1039-1042, [removeUndefinedResource]. *)
Definition remove_undefined_resource (r : resource) (st : rstate) : rstate :=
  MkRState (rs_version st) (rs_utypes st) (mdel (name_key (r_name r)) (rs_uresources st))
    (rs_reports st).

(** * Literals and annotations *)

(** Largest value of type [int]. *)
Definition max_int : N := 9223372036854775807%N.

(** Standard library function [strconv.Atoi] for sequences of decimal digits: the value, and whether
    there has been an error.  A value out of range gives the largest integer and an error. *)
Definition atoi (digits : string) : N * bool :=
  match NilEmpty.uint_of_string digits with
  | Some u =>
      let n := N.of_uint u in
      if negb (String.eqb digits "") && N.leb n max_int then (n, false)
      else if String.eqb digits "" then (0%N, true) else (max_int, true)
  | None => (0%N, true)
  end.

(** pkg/language/reader.go:936-979, [ExitBooleanLiteral], [ExitIntegerLiteral], [ExitStringLiteral]
    and [ExitLiteral].  The text of the error returned by [strconv] isn't modelled.  The message for
    string literals doesn't contain the text, because the variable has already been replaced by the empty result. *)
Definition exit_literal (l : literal_decl) (st : rstate) : option literal * rstate :=
  match l with
  | LDBool b => (Some (LBool b), st)
  | LDInt digits =>
      match atoi digits with
      | (n, false) => (Some (LInt (Z.of_N n)), st)
      | (_, true) => (None, add_report (err ("Incorrect integer literal '" ++ digits ++ "'")) st)
      end
  | LDString _ (Some s) => (Some (LString s), st)
  | LDString _ None => (None, add_report (err "Incorrect string literal ''") st)
  end.

(** pkg/language/reader.go:997-1010, [ExitAnnotationParameters] and [ExitAnnotationParameter]: the
    result is a map, so the last value of a repeated parameter wins.  A nil value is modelled as a
    missing parameter ([Annotation.FindParameter] returns nil in both cases). *)
Fixpoint exit_annotation_params (l : list (string * literal_decl)) (acc : list (string * literal))
    (st : rstate) : list (string * literal) * rstate :=
  match l with
  | [] => (acc, st)
  | (n, d) :: r =>
      let (v, st) := exit_literal d st in
      let acc := match v with Some x => mset n x acc | None => mdel n acc end in
      exit_annotation_params r acc st
  end.

(** pkg/language/reader.go:981-995, [ExitAnnotation]. *)
Definition exit_annotation (a : annotation_decl) (st : rstate) : annotation * rstate :=
  let (ps, st) := exit_annotation_params (ad_params a) [] st in
  (MkAnnotation (ad_name a) ps, st).

(** Calls a listener method for each node of a list, and collects the results. *)
Fixpoint exit_all {D R} (f : D -> rstate -> R * rstate) (l : list D) (st : rstate) : list R * rstate :=
  match l with
  | [] => ([], st)
  | d :: r =>
      let (x, st) := f d st in
      let (xs, st) := exit_all f r st in
      (x :: xs, st)
  end.

(** The annotations of a node. *)
Definition exit_annotations (l : list annotation_decl) (st : rstate) : list annotation * rstate :=
  exit_all exit_annotation l st.

(** * References *)

(** pkg/language/reader.go:340-344, [ExitIdentifier]. *)
Definition exit_identifier (text : string) : name := parse_using_case text.

(** pkg/language/reader.go:618-631, [ExitPlainTypeReference]; also the first part of
    [ExitListTypeReference] and of [ExitMapTypeReference]. *)
Definition refer_type (n : name) (st : rstate) : rstate :=
  match find_type n (rs_version st) with
  | Some _ => st
  | None =>
      let t := new_type n in
      add_undefined_type t (set_version (add_type t (rs_version st)) st)
  end.

(** pkg/language/reader.go:633-659, [ExitListTypeReference]. *)
Definition refer_list (element : name) (st : rstate) : key * rstate :=
  let st := refer_type element st in
  let n := cat [element; nList] in
  (name_key n,
   match find_type n (rs_version st) with
   | Some _ => st
   | None =>
       let t := set_element (name_key element) (set_kind ListType (new_type n)) in
       set_version (add_type t (rs_version st)) st
   end).

(** pkg/language/reader.go:661-690, [ExitMapTypeReference]. *)
Definition refer_map (index element : name) (st : rstate) : key * rstate :=
  let st := refer_type index st in
  let st := refer_type element st in
  let n := cat [index; element; nMap] in
  (name_key n,
   match find_type n (rs_version st) with
   | Some _ => st
   | None =>
       let t := set_element (name_key element)
                  (set_index (name_key index) (set_kind MapType (new_type n))) in
       set_version (add_type t (rs_version st)) st
   end).

(** pkg/language/reader.go:604-616, [ExitTypeReference]. *)
Definition exit_type_ref (r : type_ref) (st : rstate) : key * rstate :=
  match r with
  | RPlain n => (name_key (exit_identifier n), refer_type (exit_identifier n) st)
  | RList e => refer_list (exit_identifier e) st
  | RMap i e => refer_map (exit_identifier i) (exit_identifier e) st
  end.

(** pkg/language/reader.go:692-702, [ExitResourceReference]. *)
Definition exit_resource_ref (text : string) (st : rstate) : key * rstate :=
  let n := exit_identifier text in
  (name_key n,
   match find_resource n (rs_version st) with
   | Some _ => st
   | None =>
       let r := new_resource n in
       add_undefined_resource r (set_version (add_resource r (rs_version st)) st)
   end).

(** * Members *)

(** pkg/language/reader.go:380-397, [ExitEnumMemberDecl]. *)
Definition exit_value (d : value_decl) (st : rstate) : enum_value * rstate :=
  let (ans, st) := exit_annotations (vd_annots d) st in
  (MkEnumValue (exit_identifier (vd_name d)) (vd_doc d) ans, st).

(** pkg/language/reader.go:571-602, [ExitStructMemberDecl] and [ExitAttributeKind]. *)
Definition exit_member (d : member_decl) (st : rstate) : attribute * rstate :=
  let (ans, st) := exit_annotations (md_annots d) st in
  let (k, st) := exit_type_ref (md_ref d) st in
  (MkAttribute (exit_identifier (md_name d)) k (md_link d) (md_doc d) ans, st).

(** pkg/language/reader.go:804-816: directions of a parameter; the result is [In] and [Out]. *)
Definition directions (l : list direction) : bool * bool :=
  match l with
  | [] => (false, true)
  | _ =>
      fold_left
        (fun (io : bool * bool) d => match d with DIn => (true, snd io) | DOut => (fst io, true) end)
        l (false, false)
  end.

(** pkg/language/reader.go:789-827, [ExitMethodParameterDecl]. *)
Definition exit_param (d : param_decl) (st : rstate) : parameter * rstate :=
  let (ans, st) := exit_annotations (pd_annots d) st in
  let (k, st) := exit_type_ref (pd_ref d) st in
  let (dflt, st) :=
    match pd_default d with Some l => exit_literal l st | None => (None, st) end in
  let (i, o) := directions (pd_directions d) in
  (MkParameter (exit_identifier (pd_name d)) k i o dflt (pd_doc d) ans, st).

(** pkg/language/reader.go:753-787, [ExitMethodDecl] and [ExitMethodMemberDecl]. *)
Definition exit_method (d : method_decl) (st : rstate) : method * rstate :=
  let (ans, st) := exit_annotations (xd_annots d) st in
  let (ps, st) := exit_all exit_param (xd_params d) st in
  (fold_left (fun m p => add_parameter p m) ps
     (MkMethod (exit_identifier (xd_name d)) [] (xd_doc d) ans), st).

(** pkg/language/reader.go:864-882, [ExitLocatorMemberDecl], [ExitLocatorTargetDecl] and
    [ExitLocatorVariableDecl]: the target, or nothing if it is a variable. *)
Definition exit_locator_member (m : locator_member) (st : rstate) : option key * rstate :=
  match m with
  | LMTarget n => let (k, st) := exit_resource_ref n st in (Some k, st)
  | LMVariable _ => (None, st)
  end.

(** pkg/language/reader.go:829-862, [ExitLocatorDecl]. *)
Definition exit_locator (d : locator_decl) (st : rstate) : locator * rstate :=
  let (ans, st) := exit_annotations (ld_annots d) st in
  let (ms, st) := exit_all exit_locator_member (ld_members d) st in
  let l :=
    fold_left
      (fun l m => match m with Some k => set_target k l | None => set_variable true l end) ms
      (MkLocator (exit_identifier (ld_name d)) false None (ld_doc d) ans) in
  (l,
   match l_target l with
   | Some _ => st
   | None => add_report (err ("Locator '" ++ camel (l_name l) ++ "' doesn't have a target")) st
   end).

(** pkg/language/reader.go:704-713, [ExitResourceMemberDecl]. *)
Definition exit_resource_member (m : resource_member) (st : rstate)
    : (method + locator) * rstate :=
  match m with
  | RMMethod d => let (x, st) := exit_method d st in (inl x, st)
  | RMLocator d => let (x, st) := exit_locator d st in (inr x, st)
  end.

(** pkg/language/reader.go:924-934, [ExitErrorCodeDecl]. *)
Definition exit_code (digits : string) (st : rstate) : Z * rstate :=
  match atoi digits with
  | (n, false) => (Z.of_N n, st)
  | (n, true) => (Z.of_N n, add_report (err ("Error code '" ++ digits ++ "' isn't a valid integer")) st)
  end.

(** * Declarations *)

(** First part of [ExitEnumDecl] (pkg/language/reader.go:346-361), [ExitClassDecl]
    (pkg/language/reader.go:399-414) and [ExitStructDecl] (pkg/language/reader.go:536-551); the
    function [fill] does the rest of the changes of the type. *)
Definition declare_type (k : kind) (n : name) (fill : typ -> typ) (st : rstate) : rstate :=
  match find_type n (rs_version st) with
  | None => set_version (add_type (fill (set_kind k (new_type n))) (rs_version st)) st
  | Some t =>
      if is_undefined_type t st then
        remove_undefined_type t (set_version (add_type (fill (set_kind k t)) (rs_version st)) st)
      else add_report (err ("Type '" ++ camel n ++ "' is already defined")) st
  end.

(** Documentation and annotations of a type, pkg/language/reader.go:416-423 for example. *)
Definition fill_type (doc : string) (ans : list annotation) (t : typ) : typ :=
  add_type_annots ans (if String.eqb doc "" then t else set_type_doc doc t).

(** pkg/language/reader.go:346-378, [ExitEnumDecl]. *)
Definition exit_enum (annots : list annotation_decl) (n : string) (values : list value_decl)
    (doc : string) (st : rstate) : rstate :=
  let (ans, st) := exit_annotations annots st in
  let (vs, st) := exit_all exit_value values st in
  declare_type EnumType (exit_identifier n)
    (fun t => fold_left (fun t v => add_value v t) vs (fill_type doc ans t)) st.

(** pkg/language/reader.go:399-431, [ExitClassDecl], and pkg/language/reader.go:536-569,
    [ExitStructDecl]. *)
Definition exit_struct (k : kind) (annots : list annotation_decl) (n : string)
    (members : list member_decl) (doc : string) (st : rstate) : rstate :=
  let (ans, st) := exit_annotations annots st in
  let (ms, st) := exit_all exit_member members st in
  declare_type k (exit_identifier n)
    (fun t => fold_left (fun t a => add_attribute a t) ms (fill_type doc ans t)) st.

(** pkg/language/reader.go:884-922, [ExitErrorDecl] and [ExitErrorMemberDecl]. *)
Definition exit_error (annots : list annotation_decl) (n : string) (codes : list string)
    (doc : string) (st : rstate) : rstate :=
  let (ans, st) := exit_annotations annots st in
  let (cs, st) := exit_all exit_code codes st in
  let n := exit_identifier n in
  match find_error n (rs_version st) with
  | None =>
      let e := new_error n in
      set_version
        (add_error (MkError (e_name e) (e_hidden_name e) (last cs (e_code e)) doc ans)
           (rs_version st)) st
  | Some _ => add_report (err ("Error '" ++ camel n ++ "' is already defined")) st
  end.

(** Documentation, annotations and members of a resource, pkg/language/reader.go:731-750. *)
Definition fill_resource (doc : string) (ans : list annotation) (ms : list (method + locator))
    (r : resource) : resource :=
  fold_left
    (fun r m => match m with inl x => add_method x r | inr x => add_locator x r end) ms
    (MkResource (r_name r) (r_methods r) (r_locators r)
       (if String.eqb doc "" then r_doc r else doc) (r_annots r ++ ans)%list).

(** pkg/language/reader.go:715-751, [ExitResourceDecl]. *)
Definition exit_resource (annots : list annotation_decl) (n : string)
    (members : list resource_member) (doc : string) (st : rstate) : rstate :=
  let (ans, st) := exit_annotations annots st in
  let (ms, st) := exit_all exit_resource_member members st in
  let n := exit_identifier n in
  match find_resource n (rs_version st) with
  | None => set_version (add_resource (fill_resource doc ans ms (new_resource n)) (rs_version st)) st
  | Some r =>
      if is_undefined_resource r st then
        remove_undefined_resource r
          (set_version (add_resource (fill_resource doc ans ms r) (rs_version st)) st)
      else add_report (err ("Resource '" ++ camel n ++ "' is already defined")) st
  end.

(** The walk of a declaration (pkg/language/reader.go:337). *)
Definition exit_decl (d : decl) (st : rstate) : rstate :=
  match d with
  | DEnum ans n vs doc => exit_enum ans n vs doc st
  | DClass ans n ms doc => exit_struct ClassType ans n ms doc st
  | DStruct ans n ms doc => exit_struct StructType ans n ms doc st
  | DError ans n cs doc => exit_error ans n cs doc st
  | DResource ans n ms doc => exit_resource ans n ms doc st
  end.

(** * Files, versions, services and models *)

(** A file: its path and its declarations.  Files that can't be opened or that have syntax errors
    are in ToolModel. *)
Definition file := (string * list decl)%type.

(** pkg/language/reader.go:303-338, [loadFile]. *)
Definition load_file (f : file) (st : rstate) : rstate :=
  fold_left (fun st d => exit_decl d st) (snd f)
    (add_report (info ("Loading file '" ++ fst f ++ "'")) st).

(** The complete state of the reader between versions. *)
Record gstate := MkGState {
  g_model : model;
  g_utypes : list (key * name);
  g_uresources : list (key * name);
  g_reports : list report }.

(** A directory of a version: name and regular files. *)
Definition version_dir := (string * list file)%type.
(** A directory of a service: name and directories. *)
Definition service_dir := (string * list version_dir)%type.

(** pkg/language/reader.go:256-301, [loadVersion], for a directory that can be read and that contains
    only regular files; the version is stored back when it has been loaded. *)
Definition load_version (s : service) (d : version_dir) (g : gstate) : service * gstate :=
  let n := parse_using_separator (fst d) "_" in
  let v := match find_version n s with Some v => v | None => new_version n end in
  let st := MkRState v (g_utypes g) (g_uresources g) (g_reports g) in
  let st := fold_left (fun st f => load_file f st) (snd d) st in
  (add_version (rs_version st) s,
   MkGState (g_model g) (rs_utypes st) (rs_uresources st) (rs_reports st)).

(** pkg/language/reader.go:209-254, [loadService], for a directory that can be read and that contains
    only directories. *)
Definition load_service (d : service_dir) (g : gstate) : gstate :=
  let n := parse_using_separator (fst d) "_" in
  let s := match find_service n (g_model g) with Some s => s | None => new_service n end in
  let (s, g) :=
    fold_left (fun (sg : service * gstate) vd => load_version (fst sg) vd (snd sg)) (snd d) (s, g) in
  MkGState (add_service s (g_model g)) (g_utypes g) (g_uresources g) (g_reports g).

(** pkg/language/reader.go:171-207, [loadModel], for a directory that can be read and that contains
    only directories. *)
Definition load_model (dirs : list service_dir) (g : gstate) : gstate :=
  fold_left (fun g d => load_service d g) dirs g.

(** pkg/language/reader.go:107-120: load all the inputs. *)
Definition load_inputs (inputs : list (list service_dir)) (reports : list report) : gstate :=
  fold_left (fun g i => load_model i g) inputs (MkGState [] [] [] reports).

(** pkg/language/reader.go:122-131: report undefined concepts, in the order of iteration of the
    maps. *)
Definition undefined_reports (g : gstate) : list report :=
  (map (fun kn => err ("Type '" ++ camel (snd kn) ++ "' isn't completely defined")) (g_utypes g) ++
   map (fun kn => err ("Resource '" ++ camel (snd kn) ++ "' isn't completely defined"))
     (g_uresources g))%list.

(** pkg/language/reader.go:136-150: adds the list type of one type. *)
Definition ensure_list (v : version) (t : typ) : version :=
  if is_list t then v
  else
    let n := cat [t_name t; nList] in
    match find_type n v with
    | Some _ => v
    | None => add_type (set_element (name_key (t_name t)) (set_kind ListType (new_type n))) v
    end.

(** pkg/language/reader.go:136-150: all the types of a version. *)
Definition ensure_lists (v : version) : version := fold_left ensure_list (types v) v.

(** pkg/language/reader.go:133-152: all the versions of the model. *)
Definition ensure_service_lists (s : service) : service :=
  fold_left (fun s v => add_version (ensure_lists v) s) (versions s) s.
Definition ensure_model_lists (m : model) : model :=
  fold_left (fun m s => add_service (ensure_service_lists s) m) (services m) m.
