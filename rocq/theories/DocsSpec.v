(** Vocabulary used to state the properties of the generated documentation: the pages that a reader expects, as lists of pieces of text.
    Each piece starts in a new line, and can have several lines. *)
From Coq Require Import Ascii String Bool Arith NArith List.
From Verif Require Import GoStrings NamesModel NamesSpec ConceptsModel BindingModel ReporterModel GoNamesModel GoNamesSpec TextModel TextSpec.
Import ListNotations.
Local Open Scope string_scope.

(** The lines of a piece of text. *)
Definition lines_are (s : string) (l : list string) : Prop := l <> [] /\ Forall is_line l /\ s = str_join newline l.

(** The pieces fit in the buffer used to read lines, also when they are indented with the tabs of the templates. *)
Definition fits (s : string) : Prop := forall l x, lines_are s l -> In x l -> (N.of_nat (String.length x) + 5 < 65536)%N.

(** A file contains the lines of the pieces, in order, without tabs at the beginning and without white space at the end. *)
Definition shows (pieces : list string) (content : string) : Prop :=
  exists ls r, Forall2 lines_are pieces ls /\ Forall2 cleaned (concat ls) r /\ content = terminated r.

(** Rows and tables.  The second row has one dash for each character of the headers, and there is no table if there are no rows. *)
Definition row (cells : list string) : string := "| " ++ str_join " | " cells ++ " |".
Definition dashes (s : string) : string := String.concat "" (repeat "-" (String.length s)).
Definition table (headers : list string) (rows : list (list string)) : list string :=
  match rows with [] => [""] | _ => ([""; row headers; row (map dashes headers)] ++ map row rows ++ [""])%list end.
Definition section (title doc : string) : list string := [title; ""; doc; ""].
Definition code (s : string) : string := "`" ++ s ++ "`".

(** The page of an enumerated type. *)
Definition enum_page (t : typ) : list string :=
  ([""; ("# " ++ camel (t_name t))%string; ""; t_doc t; ""]
  ++ table ["Name"; "Summary"] (map (fun e => [code (snake (ev_name e)); doc_summary (ev_doc e)]) (t_values t))
  ++ [""; ""] ++ flat_map (fun e => section ("### " ++ code (snake (ev_name e)))%string (ev_doc e)) (t_values t) ++ [""])%list.

(** The page of a struct or class.  The fixed attributes of classes are only in the table. *)
Definition fixed_rows : list (list string) :=
  [[code "kind"; "String"; "Name of the type of the object."]; [code "id"; "String"; "Unique identifier of the object."];
   [code "href"; "String"; "Link to the object."]].
Definition attribute_rows (t : typ) : list (list string) := map (fun a => [code (snake (a_name a)); "-"; doc_summary (a_doc a)]) (t_attrs t).
Definition struct_rows (t : typ) : list (list string) :=
  match t_attrs t with [] => [] | _ => ((match t_kind t with ClassType => fixed_rows | _ => [] end) ++ attribute_rows t)%list end.
Definition struct_page (t : typ) : list string :=
  ([""; ("# " ++ camel (t_name t))%string; ""; t_doc t; ""]
  ++ table ["Name"; "Type"; "Summary"] (struct_rows t)
  ++ [""; ""] ++ flat_map (fun a => section ("## " ++ code (snake (a_name a)))%string (a_doc a)) (t_attrs t) ++ [""])%list.

(** The page of a resource. *)
Definition method_part (m : method) : list string :=
  ([("## " ++ camel (m_name m) ++ " - " ++ docs_http_method m)%string; ""; m_doc m; ""]
  ++ table ["Name"; "Type"; "Direction"; "Summary"] (map (fun p => [code (snake (p_name p)); "-"; "-"; doc_summary (p_doc p)]) (m_params m))
  ++ [""; ""] ++ flat_map (fun p => section ("### " ++ camel (p_name p))%string (p_doc p)) (m_params m) ++ [""])%list.
Definition resource_pieces (r : resource) : list string :=
  ([""; ("# " ++ camel (r_name r))%string; ""; r_doc r; ""]
  ++ table ["Name"; "Summary"] (map (fun m => [camel (m_name m); doc_summary (m_doc m)]) (r_methods r))
  ++ [""; ""] ++ flat_map method_part (r_methods r) ++ [""])%list.

(** The index: links to the pages of all the resources and types of all the versions of all the services. *)
Definition link (n : name) (kind : string) : string := "[" ++ camel n ++ "](" ++ snake n ++ "_" ++ kind ++ ".md)".
Definition links {A} (link : A -> string) (items : version -> list A) (m : model) : list string :=
  ("" :: flat_map (fun s => "" :: flat_map (fun v => "" :: flat_map (fun x => [link x; ""]) (items v) ++ [""]) (versions s) ++ [""]) (services m))%list.
Definition index_page (m : model) : list string :=
  ([""; "# Model"; ""; "## Resources"; ""] ++ links (fun r => link (r_name r) "resource") resources m ++ [""; "## Types"; ""]
   ++ links (fun t => link (t_name t) "type") types m ++ [""])%list.

(** The documented types. *)
Definition has_page (t : typ) : bool := match t_kind t with EnumType | ClassType | StructType => true | _ => false end.
Definition type_pieces (t : typ) : list string := match t_kind t with EnumType => enum_page t | _ => struct_page t end.

(** The names, without the extension, and the pieces of all the pages of a model, in the order that they are written. *)
Definition version_pages (v : version) : list (string * list string) :=
  (map (fun r => (snake (r_name r) ++ "_resource", resource_pieces r)%string) (resources v)
   ++ map (fun t => (snake (t_name t) ++ "_type", type_pieces t)%string) (filter has_page (types v)))%list.
Definition model_versions (m : model) : list version := flat_map versions (services m).
Definition model_pages (m : model) : list (string * list string) := (("index", index_page m) :: flat_map version_pages (model_versions m))%list.

(** All the resources and types have names, which don't contain slashes. *)
Definition good_name (n : name) : Prop := n_words n <> [] /\ free_of "/" (snake n).
Definition good_names (m : model) : Prop :=
  forall v, In v (model_versions m) -> Forall (fun r => good_name (r_name r)) (resources v) /\ Forall (fun t => good_name (t_name t)) (types v).

(** The names of all the resources, and of all the documented types. *)
Definition resource_names (m : model) : list string := flat_map (fun v => map (fun r => snake (r_name r)) (resources v)) (model_versions m).
Definition documented_names (m : model) : list string := flat_map (fun v => map (fun t => snake (t_name t)) (filter has_page (types v))) (model_versions m).

(** The path of the file of a page. *)
Definition page_path (output page : string) : string := path_join [output; page ++ ".md"].
