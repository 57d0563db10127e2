(** Examples used to show that the hypotheses of the theorems about the helper functions can be satisfied. *)
From Coq Require Import Ascii String Bool Arith ZArith NArith Lia List.
From Verif Require Import GoStrings GoMap GoTimeModel HelpersModel HelpersSpec.
Import ListNotations.
Local Open Scope string_scope.

(** Query parameters. *)
Definition ex_query : query := [("page", ["2"]); ("order", ["name"; "id"]); ("all", ["T"]); ("size", ["-07"]); ("bad", ["12a"]);
  ("at", ["2020-02-29T12:30:00+01:00"])].

(** A map with spare capacity and another one with a nil slice and an empty one. *)
Definition ex_heap : heap := MkHeap [["a"; "b"; ""]; ["x"]; []]
  [[("size", Slice 0 0 2 3); ("Accept", Slice 1 0 1 1)]; [("none", SliceNil); ("empty", Slice 2 0 0 0)]].

Lemma ex_valid0 : valid ex_heap 0.
Proof.
  split; [cbn; lia|]. split; [|repeat constructor; cbn; lia].
  repeat constructor; cbn; intuition discriminate.
Qed.
Lemma ex_valid1 : valid ex_heap 1.
Proof.
  split; [cbn; lia|]. split; [|repeat constructor; cbn; lia].
  repeat constructor; cbn; intuition discriminate.
Qed.
Lemma ex_separate0 : separate ex_heap 0.
Proof.
  intros p q a [<-|[<-|[]]] [<-|[<-|[]]] (? & ? & ? & E1) (? & ? & ? & E2); cbn in *; congruence.
Qed.

(** A date before midnight in its time zone, that is the next year in UTC. *)
Definition ex_date : date := MkDate 2019 12 31 23 30 5 7 (-3600).
Lemma ex_date_valid : valid_date ex_date.
Proof. unfold valid_date. vm_compute. intuition discriminate. Qed.

(** A task that succeeds at a given time; the state of the world is the clock, and each attempt takes one
    unit of time. *)
Definition ex_task (ready : Z) (w : Z) : Z * option Z * option string * Z :=
  if Z.leb ready w then (200%Z, Some w, None, w + 1)%Z else (404%Z, None, Some "not found", w + 1)%Z.
Definition ex_sleep (interval w : Z) : Z := (w + interval)%Z.
Definition ex_clock (w : Z) : Z := w.

(** A task that always succeeds but with results that aren't accepted. *)
Definition ex_starting (w : Z) : Z * option Z * option string * Z := (200%Z, Some w, None, w + 1)%Z.
