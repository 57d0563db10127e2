(** Model of the calculators of Go names and packages: pkg/generators/golang/names_calculator.go,
    reserved_words.go and packages_calculator.go, and of the functions of the [path] package that they
    use. *)
From Coq Require Import Ascii String Bool Arith ZArith List.
From Verif Require Import GoStrings GoMap NamesModel ConceptsModel BindingModel.
Import ListNotations.
Local Open Scope string_scope.

(** pkg/generators/golang/reserved_words.go:32-58, [reservedWords]. *)
Definition reserved_words : list string :=
  ["break"; "case"; "chan"; "const"; "continue"; "default"; "defer"; "else"; "fallthrough"; "for"; "func";
   "go"; "goto"; "if"; "import"; "interface"; "map"; "package"; "range"; "return"; "select"; "struct";
   "switch"; "type"; "var"].

(** pkg/generators/golang/reserved_words.go:21-27, [AvoidReservedWord]. *)
Definition avoid_reserved (w : string) : string :=
  if existsb (String.eqb w) reserved_words then w ++ "_" else w.

(** pkg/generators/golang/names_calculator.go:69-78, [Public]. *)
Definition go_public (n : name) : string :=
  avoid_reserved (str_join "" (map capitalize (n_words n))).

(** pkg/generators/golang/names_calculator.go:81-94, [Private]. *)
Definition go_private (n : name) : string :=
  avoid_reserved
    (str_join ""
       (match n_words n with
        | [] => []
        | w :: ws => str_lower (w_text w) :: map capitalize ws
        end)).

(** pkg/generators/golang/names_calculator.go:97-99, [File]. *)
Definition go_file (n : name) : string := lower_joined "_" n.

(** Standard library function [path.Clean], using the list of the parts between slashes.  The stack has
    the last part first. *)
Fixpoint clean_parts (rooted : bool) (stack parts : list string) : list string :=
  match parts with
  | [] => rev stack
  | p :: ps =>
      if String.eqb p "" || String.eqb p "." then clean_parts rooted stack ps
      else if String.eqb p ".." then
        match stack with
        | [] => clean_parts rooted (if rooted then [] else [".."]) ps
        | q :: qs => if String.eqb q ".." then clean_parts rooted (".." :: stack) ps else clean_parts rooted qs ps
        end
      else clean_parts rooted (p :: stack) ps
  end.

(** Standard library function [path.Clean]. *)
Definition path_clean (s : string) : string :=
  let rooted := has_prefix s "/" in
  let body := str_join "/" (clean_parts rooted [] (str_split "/" s)) in
  if rooted then "/" ++ body else if String.eqb body "" then "." else body.

(** Standard library function [path.Join]. *)
Definition path_join (elems : list string) : string :=
  match filter (fun s => negb (String.eqb s "")) elems with
  | [] => ""
  | l => path_clean (str_join "/" l)
  end.

(** Standard library function [path.Base]. *)
Definition path_base (s : string) : string :=
  if String.eqb s "" then "."
  else
    let t := trim_right_func (fun c => Ascii.eqb c "/") s in
    let b := last (str_split "/" t) "" in
    if String.eqb b "" then "/" else b.

(** pkg/generators/golang/packages_calculator.go:83-85, [ServicePackage]. *)
Definition service_package (s : name) : string := lower_joined "" s.
(** pkg/generators/golang/packages_calculator.go:88-90, [ServiceImport]. *)
Definition service_import (base : string) (s : name) : string := path_join [base; service_package s].
(** pkg/generators/golang/packages_calculator.go:93-95, [ServiceSelector]. *)
Definition service_selector (s : name) : string := path_base (service_package s).
(** pkg/generators/golang/packages_calculator.go:98-103, [VersionPackage]; the names are those of the
    service and of the version. *)
Definition version_package (s v : name) : string := path_join [lower_joined "" s; lower_joined "" v].
(** pkg/generators/golang/packages_calculator.go:106-108, [VersionImport]. *)
Definition version_import (base : string) (s v : name) : string := path_join [base; version_package s v].
(** pkg/generators/golang/packages_calculator.go:111-113, [VersionSelector]. *)
Definition version_selector (s v : name) : string := path_base (version_package s v).
(** pkg/generators/golang/packages_calculator.go:116-118, [HelpersPackage]. *)
Definition helpers_package : string := "helpers".
(** pkg/generators/golang/packages_calculator.go:121-123, [HelpersImport]. *)
Definition helpers_import (base : string) : string := path_join [base; helpers_package].
(** pkg/generators/golang/packages_calculator.go:126-128, [MetricsPackage]. *)
Definition metrics_package : string := "metrics".
(** pkg/generators/golang/packages_calculator.go:131-133, [MetricsImport]. *)
Definition metrics_import (base : string) : string := path_join [base; helpers_package].
(** pkg/generators/golang/packages_calculator.go:136-138, [ErrorsPackage]. *)
Definition errors_package : string := "errors".
(** pkg/generators/golang/packages_calculator.go:141-143, [ErrorsImport]. *)
Definition errors_import (base : string) : string := path_join [base; errors_package].

(** pkg/generators/golang/types_generator.go:637-643, [objectName]; the same code is repeated in the other
    generators and in [StructReference] and [ValueReference] of types_calculator.go. *)
Definition object_name (t : typ) : string :=
  let n := go_name (t_annots t) in
  if String.eqb n "" then go_public (t_name t) else n.
