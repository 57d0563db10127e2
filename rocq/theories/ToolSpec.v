(** What the directories of a model contain, and how the commands end. *)
From Coq Require Import Ascii String Bool Arith List Permutation Sorted.
From Verif Require Import GoStrings GoMap NamesSpec ConceptsModel ReporterModel ReaderModel ReaderSpec GoNamesModel SyntaxModel BufferModel BufferSpec ChecksModel ToolModel.
Import ListNotations.
Local Open Scope string_scope.

(** The text of a file is in the language, and has these declarations (see C66 to C69 for the language). *)
Definition declares (text : string) (ds : list decl) : Prop := exists reports ignored, load_text text = Loaded ds reports ignored /\ errors_in reports 0.

(** The entries of a directory, in the order of their names. *)
Definition listed (l l' : list (string * node)) : Prop := Permutation l l' /\ StronglySorted (fun a b => str_lt (fst a) (fst b)) l'.

(** All the regular files of the directory of a version contain declarations; other entries are ignored. *)
Inductive files_of (dir : string) : list (string * node) -> list file -> Prop :=
| fo_nil : files_of dir [] []
| fo_file name text ds l fs : declares text ds -> files_of dir l fs -> files_of dir ((name, Regular (inl text)) :: l) ((path_join [dir; name], ds) :: fs)
| fo_other name n l fs : (forall c, n <> Regular c) -> files_of dir l fs -> files_of dir ((name, n) :: l) fs.

(** All the directories of a service are versions; other entries are ignored. *)
Inductive versions_of (dir : string) : list (string * node) -> list version_dir -> Prop :=
| vo_nil : versions_of dir [] []
| vo_version name l l' fs r vs : listed l l' -> files_of (path_join [dir; name]) l' fs -> versions_of dir r vs ->
    versions_of dir ((name, Directory (inl l)) :: r) ((name, fs) :: vs)
| vo_other name n r vs : (forall e, n <> Directory e) -> versions_of dir r vs -> versions_of dir ((name, n) :: r) vs.

(** All the directories of a model are services; other entries are ignored. *)
Inductive services_of (dir : string) : list (string * node) -> list service_dir -> Prop :=
| so_nil : services_of dir [] []
| so_service name l l' vs r ss : listed l l' -> versions_of (path_join [dir; name]) l' vs -> services_of dir r ss ->
    services_of dir ((name, Directory (inl l)) :: r) ((name, vs) :: ss)
| so_other name n r ss : (forall e, n <> Directory e) -> services_of dir r ss -> services_of dir ((name, n) :: r) ss.

(** What the directory given to the reader contains. *)
Definition contains (lookup : string -> found) (dir : string) (ss : list service_dir) : Prop :=
  exists l l', lookup dir = Found (Directory (inl l)) /\ listed l l' /\ services_of dir l' ss.

(** The entries of a directory have different names. *)
Inductive different_names : node -> Prop :=
| dn_regular c : different_names (Regular c)
| dn_special : different_names Special
| dn_unreadable e : different_names (Directory (inr e))
| dn_directory l : NoDup (map fst l) -> (forall name n, In (name, n) l -> different_names n) -> different_names (Directory (inl l)).
Definition proper (lookup : string -> found) : Prop := forall path n, lookup path = Found n -> different_names n.

(** The same directories, except for the order of the entries. *)
Inductive same_node : node -> node -> Prop :=
| sn_regular c : same_node (Regular c) (Regular c)
| sn_special : same_node Special Special
| sn_unreadable e : same_node (Directory (inr e)) (Directory (inr e))
| sn_directory l l' k : Permutation l l' -> Forall2 (fun a b => fst a = fst b /\ same_node (snd a) (snd b)) l' k -> same_node (Directory (inl l)) (Directory (inl k)).
Definition same_directories (lookup lookup' : string -> found) : Prop :=
  forall path, lookup path = lookup' path \/ exists n n', lookup path = Found n /\ lookup' path = Found n' /\ same_node n n'.

(** The parser always reports the texts that aren't in the language. *)
Definition reports_syntax (recover : string -> list report * outcome (list decl)) : Prop :=
  forall text, load_text text = LoadFails -> ~ errors_in (fst (recover text)) 0.

(** The model is accepted: the directories contain services, versions and declarations, and the reader of declarations accepts them. *)
Definition accepted (lookup : string -> found) (paths : list string) (m : model) : Prop :=
  exists inputs reports, Forall2 (contains lookup) paths inputs /\ read inputs [] = Done (ROk m, reports).

(** A sequence of steps that all succeed, each with the result of the previous one. *)
Inductive all_succeed {G} (step : G -> list report -> files -> option string * list report * files) : list G -> list report -> files -> list report -> files -> Prop :=
| as_nil rs fs : all_succeed step [] rs fs rs fs
| as_cons g l rs fs rs1 fs1 rs2 fs2 : step g rs fs = (None, rs1, fs1) -> all_succeed step l rs1 fs1 rs2 fs2 -> all_succeed step (g :: l) rs fs rs2 fs2.
