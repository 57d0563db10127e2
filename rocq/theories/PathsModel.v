(** Model of the enumeration of the paths of a version. *)
From Coq Require Import Ascii String Bool Arith ZArith List.
From Verif Require Import GoStrings GoMap NamesModel ConceptsModel ChecksModel.
Import ListNotations.
Local Open Scope string_scope.

(** pkg/concepts/version.go:256-262: the extensions of a path with each of the locators of the target
    of its last locator; [None] is the nil pointer panic of a locator without target.  Paths in the
    queue are never empty. *)
Definition extensions (v : version) (path : list locator) : option (list (list locator)) :=
  match rev path with
  | [] => None
  | lst :: _ =>
      match l_target lst with
      | None => None
      | Some k =>
          match resource_at k v with
          | None => None
          | Some r => Some (map (fun l => path ++ [l])%list (r_locators r))
          end
      end
  end.

(** pkg/concepts/version.go:243-263: the main loop. *)
Fixpoint paths_loop (fuel : nat) (v : version) (results pending : list (list locator))
    : outcome (list (list locator)) :=
  match pending with
  | [] => Done results
  | current :: pending =>
      match fuel with
      | O => OutOfFuel
      | S fuel =>
          match extensions v current with
          | None => Panics
          | Some es => paths_loop fuel v (results ++ [current])%list (pending ++ es)%list
          end
      end
  end.

(** pkg/concepts/version.go:230-266, [Paths]: a nil pointer panic if there is no root. *)
Definition paths (fuel : nat) (v : version) : outcome (list (list locator)) :=
  match root v with
  | None => Panics
  | Some r => paths_loop fuel v [] (map (fun l => [l]) (r_locators r))
  end.
