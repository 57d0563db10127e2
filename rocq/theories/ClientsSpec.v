(** Vocabulary used to state the properties of the URLs used by the generated clients, and of the tree of paths. *)
From Coq Require Import Ascii String Bool Arith ZArith List.
From Verif Require Import GoStrings GoMap NamesModel ConceptsModel BindingModel ChecksSpec OpenapiSpec ClientsModel.
Import ListNotations.
Local Open Scope string_scope.

(** The segment that corresponds to a call to the method of a locator: the identifier for the variable ones. *)
Definition step_segment (step : locator * string) : string := if l_variable (fst step) then snd step else locator_segment (fst step).

(** The identifiers used in a sequence of calls. *)
Definition identifiers (path : list (locator * string)) : list string :=
  map snd (filter (fun step => l_variable (fst step)) path).

(** Replacement of the texts between braces by the given identifiers, in order. *)
Fixpoint fill (ids : list string) (inside : bool) (t : string) : string :=
  match t with
  | EmptyString => EmptyString
  | String c t =>
      if inside then fill ids (negb (Ascii.eqb c "}")) t
      else if Ascii.eqb c "{" then hd "" ids ++ fill (tl ids) true t
      else String c (fill ids false t)
  end.

Fixpoint no_braces (s : string) : Prop :=
  match s with EmptyString => True | String c s => c <> "{"%char /\ c <> "}"%char /\ no_braces s end.

(** What is found in a tree following a list of labels. *)
Inductive node : branch -> list string -> branch -> Prop :=
| node_here b : node b [] b
| node_inside l k x ks y : mget k l = Some x -> node x ks y -> node (Branch l) (k :: ks) y.

(** The labels of a path of locators, where the identifiers are replaced by dashes. *)
Definition label (l : locator) : string := if l_variable l then "-" else locator_segment l.
Definition labels (s : service) (v : version) (path : list locator) : list string :=
  ("api" :: service_segment s :: version_segment v :: map label path)%list.

(** The locators of each reachable resource have different labels. *)
Definition distinct_labels (v : version) : Prop := forall path r, leads v path r -> NoDup (map label (r_locators r)).
