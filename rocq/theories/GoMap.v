(** Model of Go maps with string keys, and of [sort.Sort].

    A map is an association list without repeated keys.  The order of the list has no meaning: the
    iteration order of Go maps isn't specified, and the theorems that depend on it are stated for all
    the permutations. *)
From Coq Require Import Ascii String Bool Arith List.
Import ListNotations.

Section Maps.
  Context {A : Type}.

  (** Map read: [m[k]]; [None] is the missing value (nil for maps of pointers). *)
  Fixpoint mget (k : string) (m : list (string * A)) : option A :=
    match m with
    | [] => None
    | (k', a) :: r => if String.eqb k k' then Some a else mget k r
    end.

  (** Map assignment: [m[k] = a]. *)
  Fixpoint mset (k : string) (a : A) (m : list (string * A)) : list (string * A) :=
    match m with
    | [] => [(k, a)]
    | (k', a') :: r => if String.eqb k k' then (k, a) :: r else (k', a') :: mset k a r
    end.

  (** Map deletion: [delete(m, k)]. *)
  Fixpoint mdel (k : string) (m : list (string * A)) : list (string * A) :=
    match m with
    | [] => []
    | (k', a') :: r => if String.eqb k k' then mdel k r else (k', a') :: mdel k r
    end.

  Definition mkeys (m : list (string * A)) : list string := map fst m.
  Definition mvals (m : list (string * A)) : list A := map snd m.
  Definition mhas (k : string) (m : list (string * A)) : bool :=
    match mget k m with Some _ => true | None => false end.
End Maps.

Section Sorting.
  Context {A : Type} (less : A -> A -> bool).

  (** Inserts an element after all the elements that aren't greater. *)
  Fixpoint insert_sorted (a : A) (l : list A) : list A :=
    match l with
    | [] => [a]
    | b :: r => if less a b then a :: l else b :: insert_sorted a r
    end.

  (** Standard library function [sort.Sort].  Simplification: the real algorithm isn't stable for
      slices of more than twelve elements; this is an insertion sort.  The results are the same when
      no two elements are equivalent ([sort_unique] in GoMapProofs.v). *)
  Fixpoint sort (l : list A) : list A :=
    match l with
    | [] => []
    | a :: r => insert_sorted a (sort r)
    end.
End Sorting.
