(** Vocabulary used to state the properties of Go names and packages. *)
From Coq Require Import Ascii String Bool Arith List.
From Verif Require Import GoStrings NamesModel NamesSpec.
Import ListNotations.
Local Open Scope string_scope.

(** The keywords of the Go language, as listed in its specification. *)
Definition go_keywords : list string :=
  ["break"; "default"; "func"; "interface"; "select";
   "case"; "defer"; "go"; "map"; "struct";
   "chan"; "else"; "goto"; "package"; "switch";
   "const"; "fallthrough"; "if"; "range"; "type";
   "continue"; "for"; "import"; "return"; "var"].

(** Names that can be used as a directory. *)
Definition plain_segment (s : string) : Prop := s <> "" /\ s <> "." /\ s <> ".." /\ free_of "/" s.

(** The text of the words of a name, ignoring case and separation. *)
Definition squeezed (n : name) : string := str_lower (fold_right append "" (texts n)).
