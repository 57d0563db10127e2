(** Vocabulary used to state which methods are acceptable, and what loops of locators are. *)
From Coq Require Import Ascii String Bool Arith ZArith Permutation List.
From Verif Require Import GoStrings GoMap NamesModel NamesSpec ConceptsModel ConceptsSpec ReporterModel.
Import ListNotations.
Local Open Scope string_scope.

(** The name is made exactly of these words, none of them an initialism. *)
Definition called (ws : list string) (n : name) : Prop := n_words n = map (fun s => MkWord s false) ws.

(** The type of the parameter is one of the types of the version, of one of these kinds. *)
Definition kind_in (ks : list kind) (v : version) (p : parameter) : Prop :=
  exists t, mget (p_type p) (v_types v) = Some t /\ In (t_kind t) ks.
Definition scalar_param := kind_in [ScalarType; EnumType; InterfaceType].
Definition struct_param := kind_in [ClassType; StructType].
Definition list_param := kind_in [ListType].

(** Directions. *)
Definition only_in (p : parameter) : Prop := p_in p = true /\ p_out p = false.
Definition only_out (p : parameter) : Prop := p_in p = false /\ p_out p = true.
Definition in_out (p : parameter) : Prop := p_in p = true /\ p_out p = true.

(** One element of the list satisfies the first condition, and all the others the second. *)
Definition one_of {A} (P Q : A -> Prop) (l : list A) : Prop :=
  exists l1 b l2, l = (l1 ++ b :: l2)%list /\ P b /\ Forall Q (l1 ++ l2).

(** The first parameter with the given name. *)
Definition first_called (ws : list string) (ps : list parameter) (p : parameter) : Prop :=
  exists l1 l2, ps = (l1 ++ p :: l2)%list /\ called ws (p_name p) /\ Forall (fun q => ~ called ws (p_name q)) l1.

(** The default value is of the type of the parameter. *)
Definition default_ok (p : parameter) : Prop :=
  match p_default p with
  | None => True
  | Some (LBool _) => p_type p = "boolean"
  | Some (LInt _) => p_type p = "integer"
  | Some (LString _) => p_type p = "string"
  end.

(** The page, size and total parameters, if they exist, are as expected. *)
Definition paging_ok (ps : list parameter) : Prop :=
  (forall p, first_called ["page"] ps p -> p_type p = "integer" /\ in_out p /\ p_default p = Some (LInt 1)) /\
  (forall p, first_called ["size"] ps p -> p_type p = "integer" /\ in_out p /\ p_default p = Some (LInt 100)) /\
  (forall p, first_called ["total"] ps p -> p_type p = "integer" /\ only_out p).

(** Acceptable parameters of each kind of method. *)
Definition accepted_add (v : version) : list parameter -> Prop :=
  one_of (fun p => struct_param v p /\ in_out p /\ called ["body"] (p_name p)) (scalar_param v).
Definition accepted_delete (v : version) : list parameter -> Prop :=
  Forall (fun p => scalar_param v p /\ only_in p).
Definition accepted_get (v : version) : list parameter -> Prop :=
  one_of (fun p => struct_param v p /\ only_out p /\ called ["body"] (p_name p))
         (fun p => scalar_param v p /\ only_in p).
Definition accepted_update (v : version) : list parameter -> Prop :=
  one_of (fun p => (struct_param v p \/ list_param v p) /\ in_out p /\ called ["body"] (p_name p))
         (fun p => scalar_param v p /\ only_in p).
Definition accepted_list (v : version) (ps : list parameter) : Prop :=
  one_of (fun p => list_param v p /\ only_out p /\ called ["items"] (p_name p)) (scalar_param v) ps /\
  paging_ok ps.
Definition accepted_post (v : version) (ps : list parameter) : Prop :=
  Forall (fun p => p_in p = true -> struct_param v p) ps /\
  (Forall (fun p => p_in p = false) ps \/ one_of (fun p => p_in p = true) (fun p => p_in p = false) ps) /\
  one_of (fun p => p_out p = true /\ struct_param v p) (fun p => p_out p = false) ps.
Definition accepted_search (v : version) (ps : list parameter) : Prop :=
  (exists items body others,
     Permutation ps (items :: body :: others) /\
     list_param v items /\ only_out items /\ called ["items"] (p_name items) /\
     struct_param v body /\ only_in body /\ called ["body"] (p_name body) /\
     Forall (scalar_param v) others) /\
  paging_ok ps.

(** Every parameter has at least one direction (the reader always sets one). *)
Definition directed (ps : list parameter) : Prop := Forall (fun p => p_in p = true \/ p_out p = true) ps.

(** The names of the methods that aren't actions. *)
Definition known_methods : list (list string) :=
  [["add"]; ["async"; "delete"]; ["async"; "update"]; ["delete"]; ["get"]; ["list"]; ["post"]; ["search"]; ["update"]].

(** Acceptable methods. *)
Definition accepted_method (v : version) (m : method) : Prop :=
  Forall default_ok (m_params m) /\
  (called ["add"] (m_name m) -> accepted_add v (m_params m)) /\
  (called ["delete"] (m_name m) \/ called ["async"; "delete"] (m_name m) -> accepted_delete v (m_params m)) /\
  (called ["get"] (m_name m) -> accepted_get v (m_params m)) /\
  (called ["list"] (m_name m) -> accepted_list v (m_params m)) /\
  (called ["post"] (m_name m) -> accepted_post v (m_params m)) /\
  (called ["search"] (m_name m) -> accepted_search v (m_params m)) /\
  (called ["update"] (m_name m) \/ called ["async"; "update"] (m_name m) -> accepted_update v (m_params m)).

(** The text occurs in the message. *)
Definition mentions (s msg : string) : Prop := exists a b, msg = a ++ s ++ b.

(** * Locators *)

(** The locator belongs to the resource and its target is the other resource. *)
Definition follows (v : version) (k : key) (l : locator) (k' : key) : Prop :=
  exists r, mget k (v_resources v) = Some r /\ In l (r_locators r) /\ l_target l = Some k'.

(** Walks: sequences of locators, each of them defined in the target of the previous one. *)
Inductive walk (v : version) : key -> list locator -> key -> Prop :=
| walk_nil k : walk v k [] k
| walk_cons k l k' ls k'' : follows v k l k' -> walk v k' ls k'' -> walk v k (l :: ls) k''.

(** Resources that can be reached from the root. *)
Definition reachable (v : version) (k : key) : Prop := exists ls, walk v "root" ls k.

(** There is a loop that can be reached from the root. *)
Definition has_loop (v : version) : Prop := exists k ls, reachable v k /\ ls <> [] /\ walk v k ls k.

(** There is a locator without target that can be reached from the root. *)
Definition has_dead_end (v : version) : Prop :=
  exists k r l, reachable v k /\ mget k (v_resources v) = Some r /\ In l (r_locators r) /\ l_target l = None.

(** There are no references to resources that don't exist. *)
Definition targets_exist (v : version) : Prop :=
  forall k r l k', mget k (v_resources v) = Some r -> In l (r_locators r) -> l_target l = Some k' ->
  exists r', mget k' (v_resources v) = Some r'.

(** Walks with the owner of each locator, and loops that don't go twice through the same resource. *)
Inductive chain (v : version) : key -> list (key * locator) -> key -> Prop :=
| chain_nil k : chain v k [] k
| chain_cons k l k' ss k'' : follows v k l k' -> chain v k' ss k'' -> chain v k ((k, l) :: ss) k''.
Definition simple_loop (v : version) (loop : list (key * locator)) : Prop :=
  exists k, reachable v k /\ loop <> [] /\ chain v k loop k /\ NoDup (map fst loop).

(** Full name of the resource stored with a key. *)
Definition resource_named (sn : name) (v : version) (k : key) (s : string) : Prop :=
  exists r, mget k (v_resources v) = Some r /\ s = camel sn ++ "." ++ camel (v_name v) ++ "." ++ camel (r_name r).

(** A message names a locator and its owner. *)
Definition blames (sn : name) (v : version) (msg : string) (s : key * locator) : Prop :=
  mentions ("'" ++ camel (l_name (snd s)) ++ "'") msg /\
  exists o, resource_named sn v (fst s) o /\ mentions ("'" ++ o ++ "'") msg.

(** A message names a locator, its owner and its target. *)
Definition describes (sn : name) (v : version) (msg : string) (s : key * locator) : Prop :=
  blames sn v msg s /\
  exists k t, l_target (snd s) = Some k /\ resource_named sn v k t /\ mentions ("'" ++ t ++ "'") msg.

(** The method has no parameter with the given name. *)
Definition lacks (ws : list string) (m : method) : Prop := ~ exists p, In p (m_params m) /\ called ws (p_name p).

(** Full name of a method and of a parameter of that method. *)
Definition dotted (l : list name) : string := str_join "." (map camel l).
