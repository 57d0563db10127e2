(** What the settings of the polling requests, the setters of the requests and the getters of the responses should do. *)
From Coq Require Import String Bool ZArith List.
From Verif Require Import GoStrings GoMap NamesModel ConceptsModel ObjectsModel HelpersModel JsonModel ApiErrorModel RequestModel.
Import ListNotations.
Local Open Scope string_scope.

(** The calls that a program can do to configure a polling request, in order. *)
Inductive poll_call :=
| Interval (z : Z)
| Status (z : Z)
| Predicate (f : response -> bool).

Definition call_poll (r : poll_request) (c : poll_call) : poll_request :=
  match c with
  | Interval z => poll_interval z r
  | Status z => poll_status z r
  | Predicate f => poll_predicate f r
  end.

(** [z] is the interval of the last call that sets it. *)
Inductive last_interval : list poll_call -> Z -> Prop :=
| last_here a b z : (forall y, ~ In (Interval y) b) -> last_interval (a ++ Interval z :: b) z.

(** The outcome of an attempt is acceptable: the status is one of those given, or success if none was given, and the response
    satisfies all the predicates given. *)
Definition acceptable (cs : list poll_call) (rs : option response) : Prop :=
  let s := match rs with Some r => rs_status r | None => 0%Z end in
  (In (Status s) cs \/ (forall y, ~ In (Status y) cs) /\ s = 200%Z) /\
  (forall f, In (Predicate f) cs -> exists r, rs = Some r /\ f r = true).

(** The attempt failed before having a status. *)
Definition no_answer {E : Type} (rs : option response) (e : option E) : Prop :=
  e <> None /\ match rs with Some r => rs_status r | None => 0%Z end = 0%Z.

(** What is sent for a parameter when the setters are called in order, given what there was before. *)
Inductive holds : list (string * value) -> string -> option value -> list (string * value) -> Prop :=
| holds_none fs n cs : ~ In n (map fst cs) -> holds fs n (mget n fs) cs
| holds_last fs n x a b : ~ In n (map fst b) -> holds fs n (Some x) (a ++ (n, x) :: b).
