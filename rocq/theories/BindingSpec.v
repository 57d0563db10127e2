(** Vocabulary used to state the properties of the HTTP binding. *)
From Coq Require Import Ascii String Bool Arith ZArith Permutation List.
From Verif Require Import GoStrings GoMap NamesModel NamesSpec ConceptsModel ConceptsSpec ChecksSpec.
Import ListNotations.
Local Open Scope string_scope.

(** Some of the elements of a list, in the same order. *)
Inductive subsequence {A} : list A -> list A -> Prop :=
| sub_nil : subsequence [] []
| sub_take a l l' : subsequence l l' -> subsequence (a :: l) (a :: l')
| sub_drop a l l' : subsequence l l' -> subsequence l (a :: l').

(** The method isn't in any of the categories. *)
Definition action (m : method) : Prop := forall ws, In ws known_methods -> ~ called ws (m_name m).

(** The methods that aren't actions, grouped by verb, with their status. *)
Definition rest_verbs : list (list string * (string * string)) :=
  [(["add"], ("POST", "201")); (["post"], ("POST", "201")); (["search"], ("POST", "200"));
   (["get"], ("GET", "200")); (["list"], ("GET", "200"));
   (["update"], ("PATCH", "200")); (["async"; "update"], ("PATCH", "202"));
   (["delete"], ("DELETE", "204")); (["async"; "delete"], ("DELETE", "202"))].

(** The groups of methods, not actions, that have the same verb. *)
Definition verb_groups : list (list (list string)) :=
  [[["add"]; ["post"]; ["search"]]; [["get"]; ["list"]];
   [["update"]; ["async"; "update"]]; [["delete"]; ["async"; "delete"]]].

(** The first annotation with the given name gives this value to the parameter. *)
Definition gives (ans : list annotation) (a p : string) (l : literal) : Prop :=
  exists l1 x l2, ans = (l1 ++ x :: l2)%list /\ an_name x = a /\ Forall (fun y => an_name y <> a) l1 /\
    mget p (an_params x) = Some l.

(** The annotations give this name, and it isn't empty. *)
Definition renamed (ans : list annotation) (a s : string) : Prop := gives ans a "name" (LString s) /\ s <> "".

(** The annotations don't say anything about the name, or they say that it is the empty string. *)
Definition not_renamed (ans : list annotation) (a : string) : Prop :=
  forall l, gives ans a "name" l -> l = LString "".
