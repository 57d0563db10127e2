(** What is said of the versions that are read together (C14). *)
From Coq Require Import Ascii String Bool Arith ZArith List.
From Verif Require Import GoStrings GoMap NamesModel ConceptsModel ReporterModel ReaderModel ChecksModel ReaderSpec.
Import ListNotations.
Local Open Scope string_scope.

(** A version of the inputs: the name of the directory of the service, the name of the directory of the
    version and the files. *)
Definition entry := (string * string * list file)%type.

(** The versions of the inputs, in the order in which they are loaded. *)
Definition service_entries (d : service_dir) : list entry :=
  map (fun vd => (fst d, fst vd, snd vd)) (snd d).
Definition entries (inputs : list (list service_dir)) : list entry :=
  flat_map service_entries (concat inputs).

(** Inputs that contain only that version. *)
Definition alone (e : entry) : list (list service_dir) :=
  [[(fst (fst e), [(snd (fst e), snd e)])]].

(** The declarations of the files of a version. *)
Definition source (e : entry) : list decl := all_decls (snd e).

(** The second version doesn't declare names that the first one uses and doesn't declare. *)
Definition undisturbed (e e' : entry) : Prop :=
  (forall d u, In d (declared_types (source e')) -> In u (type_uses (source e)) -> key_of d = key_of u ->
     builtin_key (key_of u) \/ In (key_of u) (map key_of (declared_types (source e)))) /\
  (forall d u, In d (declared_resources (source e')) -> In u (resource_uses (source e)) ->
     key_of d = key_of u -> In (key_of u) (map key_of (declared_resources (source e)))).

(** All the versions are different, and no name left undefined by one is declared by a later one. *)
Definition independent (inputs : list (list service_dir)) : Prop :=
  NoDup (map fst (entries inputs)) /\ ForallOrdPairs undisturbed (entries inputs).

(** The version of a model with the names of those directories. *)
Definition version_of (m : model) (s v : string) : option version :=
  match find_service (parse_using_separator s "_") m with
  | Some sv => find_version (parse_using_separator v "_") sv
  | None => None
  end.
