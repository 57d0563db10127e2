(** Model of the generator of documentation: pkg/generators/docs/docs_generator.go and pkg/markdown/names_calculator.go.

    The texts are the results of the execution of the templates, with their white space.  Simplification: the templates are
    constant and the functions that they call are total, so the execution never fails. *)
From Coq Require Import Ascii String Bool Arith List.
From Verif Require Import GoStrings GoMap NamesModel ConceptsModel BindingModel ReporterModel TextModel DeclsModel BufferModel.
Import ListNotations.
Local Open Scope string_scope.

(** pkg/nomenclator/names.go:63. *)
Definition nIndex := nm "Index".

(** names_calculator.go:70-77, [Display]; docs_generator.go:361-363, [displayName]. *)
Definition md_display (n : name) : string := str_join "" (map capitalize (n_words n)).
(** names_calculator.go:80-87, [File]. *)
Definition md_file (n : name) : string := str_join "_" (map (fun w => str_lower (w_text w)) (n_words n)).
(** names_calculator.go:90-97, [Tag]; docs_generator.go:365-367, [tagName]. *)
Definition md_tag (n : name) : string := "`" ++ str_join "_" (map (fun w => str_lower (w_text w)) (n_words n)) ++ "`".

(** docs_generator.go:369-378, [fileName], for types and for resources. *)
Definition type_page (t : typ) : string := md_file (cat [t_name t; nType]).
Definition resource_page (r : resource) : string := md_file (cat [r_name r; nResource]).

(** The end of a line of a template, and the tabs and text of the next one. *)
Definition tabs_of (n : nat) : string := String.concat "" (repeat (String tab "") n).
Definition line (n : nat) (text : string) : string := newline ++ tabs_of n ++ text.
(** The results of the iterations of a range. *)
Definition range {A} (f : A -> string) (l : list A) : string := String.concat "" (map f l).
(** The template [if] for lists: the condition is that the list isn't empty. *)
Definition if_any {A} (l : list A) (text : string) : string := match l with [] => "" | _ => text end.

(** docs_generator.go:178-204, [documentIndex]. *)
Definition index_links {A} (display page : A -> string) (items : version -> list A) (m : model) : string :=
  range (fun s => line 3 (range (fun v => line 4 (range (fun a =>
    line 5 ("[" ++ display a ++ "](" ++ page a ++ ".md)") ++ line 4 "") (items v)) ++ line 3 "") (versions s)) ++ line 2 "") (services m).
Definition index_text (m : model) : string :=
  line 2 "# Model" ++ line 0 "" ++ line 2 "## Resources" ++ line 0 "" ++
  line 2 (index_links (fun r => md_display (r_name r)) resource_page resources m) ++ line 0 "" ++ line 2 "## Types" ++ line 0 "" ++
  line 2 (index_links (fun t => md_display (t_name t)) type_page types m) ++ line 2 "".

(** docs_generator.go:234-270, [documentResource].  The detail of an object (397-399) is its documentation. *)
Definition resource_text (r : resource) : string :=
  line 2 ("# " ++ md_display (r_name r)) ++ line 0 "" ++ line 2 (r_doc r) ++ line 0 "" ++
  line 2 (if_any (r_methods r)
    (line 3 "| Name | Summary |" ++ line 3 "| ---- | ------- |" ++
     line 3 (range (fun m => "| " ++ md_display (m_name m) ++ " | " ++ doc_summary (m_doc m) ++ " |" ++ line 3 "") (r_methods r)))) ++ line 0 "" ++
  line 2 (range (fun m =>
    line 3 ("## " ++ md_display (m_name m) ++ " - " ++ docs_http_method m) ++ line 0 "" ++ line 3 (m_doc m) ++ line 0 "" ++
    line 3 (if_any (m_params m)
      (line 4 "| Name | Type | Direction | Summary |" ++ line 4 "| ---- | ---- | --------- | ------- |" ++
       line 4 (range (fun p => "| " ++ md_tag (p_name p) ++ " | - | - | " ++ doc_summary (p_doc p) ++ " |" ++ line 4 "") (m_params m)))) ++ line 0 "" ++
    line 3 (range (fun p => line 4 ("### " ++ md_display (p_name p)) ++ line 0 "" ++ line 4 (p_doc p) ++ line 3 "") (m_params m)) ++ line 2 "") (r_methods r)) ++
  line 2 "".

(** docs_generator.go:308-330, [documentEnum]. *)
Definition enum_text (t : typ) : string :=
  line 2 ("# " ++ md_display (t_name t)) ++ line 0 "" ++ line 2 (t_doc t) ++ line 0 "" ++
  line 2 (if_any (t_values t)
    (line 3 "| Name | Summary |" ++ line 3 "| ---- | ------- |" ++
     line 3 (range (fun e => "| " ++ md_tag (ev_name e) ++ " | " ++ doc_summary (ev_doc e) ++ " |" ++ line 3 "") (t_values t)))) ++ line 0 "" ++
  line 2 (range (fun e => line 3 ("### " ++ md_tag (ev_name e)) ++ line 0 "" ++ line 3 (ev_doc e) ++ line 2 "") (t_values t)) ++ line 2 "".

(** docs_generator.go:332-359, [documentStruct]. *)
Definition struct_text (t : typ) : string :=
  line 2 ("# " ++ md_display (t_name t)) ++ line 0 "" ++ line 2 (t_doc t) ++ line 0 "" ++
  line 2 (if_any (t_attrs t)
    (line 3 "| Name | Type | Summary |" ++ line 3 "| ---- | ---- | ------- |" ++
     line 3 (if is_class t then
       "| " ++ back_ticks "kind" ++ " | String | Name of the type of the object. |" ++ line 4 "| " ++ back_ticks "id" ++ " | String | Unique identifier of the object. |" ++
       line 4 "| " ++ back_ticks "href" ++ " | String | Link to the object. |" ++ line 3 "" else "") ++
     range (fun a => "| " ++ md_tag (a_name a) ++ " | - | " ++ doc_summary (a_doc a) ++ " |" ++ line 3 "") (t_attrs t))) ++ line 0 "" ++
  line 2 (range (fun a => line 3 ("## " ++ md_tag (a_name a)) ++ line 0 "" ++ line 3 (a_doc a) ++ line 2 "") (t_attrs t)) ++ line 2 "".

(** docs_generator.go:299-306, [documentType]. *)
Definition type_text (t : typ) : string := if is_enum t then enum_text t else if is_struct t then struct_text t else "".

(** docs_generator.go:153-176, 206-232 and 272-297, [generateIndex], [generateResource] and [generateType]: emits the text, unless errors have been reported, and
    writes the file.  The name of the file isn't empty. *)
Definition write_page (sys : system) (output : string) (page text : string) (reports : list report) (fs : files) : option string * list report * files :=
  let b := new_md_buffer output page in
  let b := if Nat.ltb 0 (error_count reports) then b else MkMdBuffer (mb_file b) (mb_code b ++ text ++ newline) in
  write_md sys b reports fs.

(** docs_generator.go:108-151, [Run]: the files that are written, in order.  The number of errors of the generator is never changed. *)
Definition pages_of_version (v : version) : list (string * string) :=
  (map (fun r => (resource_page r, resource_text r)) (resources v)
   ++ map (fun t => (type_page t, type_text t)) (filter (fun t => is_enum t || is_struct t) (types v)))%list.
Definition pages (m : model) : list (string * string) :=
  ((md_file nIndex, index_text m) :: flat_map (fun s => flat_map pages_of_version (versions s)) (services m))%list.
Fixpoint write_pages (sys : system) (output : string) (l : list (string * string)) (reports : list report) (fs : files) : option string * list report * files :=
  match l with
  | [] => (None, reports, fs)
  | (page, text) :: l =>
      match write_page sys output page text reports fs with
      | (None, reports, fs) => write_pages sys output l reports fs
      | failure => failure
      end
  end.
Definition generate_docs (sys : system) (output : string) (m : model) (reports : list report) (fs : files) : option string * list report * files :=
  write_pages sys output (pages m) reports fs.
