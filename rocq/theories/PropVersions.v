(** Property theorems about the versions that are read together (C14). *)
From Coq Require Import Ascii String Bool Arith ZArith List.
From Verif Require Import GoStrings GoMap NamesModel NamesSpec ConceptsModel ReporterModel ReaderModel ChecksModel ReaderSpec
  ReaderExamples VersionsSpec VersionsProofs VersionsExamples.
Import ListNotations.
Local Open Scope string_scope.

(** Reading several versions together succeeds exactly if reading each of them alone succeeds. *)
Theorem C14_versions_independent : forall inputs, independent inputs ->
  ((exists m rs, read inputs [] = Done (ROk m, rs)) <->
   forall e, In e (entries inputs) -> exists m rs, read (alone e) [] = Done (ROk m, rs)).
Proof. exact together_iff. Qed.
Print Assumptions C14_versions_independent.

(** The same, for the reads that don't panic. *)
Theorem C14_versions_end : forall inputs, independent inputs ->
  ((exists r rs, read inputs [] = Done (r, rs)) <->
   forall e, In e (entries inputs) -> exists r rs, read (alone e) [] = Done (r, rs)).
Proof. exact together_ends. Qed.
Print Assumptions C14_versions_end.

(** The model contains for each version exactly what reading it alone gives, and nothing else. *)
Theorem C14_versions_same : forall inputs m rs, independent inputs -> read inputs [] = Done (ROk m, rs) ->
  (forall s v fs, In (s, v, fs) (entries inputs) ->
     exists m' rs' w, read (alone (s, v, fs)) [] = Done (ROk m', rs') /\
       version_of m s v = Some w /\ version_of m' s v = Some w) /\
  (forall sv w, in_model m sv -> in_service sv w -> exists s v fs, In (s, v, fs) (entries inputs) /\
     s_name sv = parse_using_separator s "_" /\ version_of m s v = Some w).
Proof. exact together_same. Qed.
Print Assumptions C14_versions_same.

(** The reports are those made when reading each version alone. *)
Theorem C14_reports_same : forall inputs r rs, independent inputs ->
  (forall e, In e (entries inputs) -> camel_source (source e)) ->
  read inputs [] = Done (r, rs) ->
  forall x, In x rs <-> exists e r' rs', In e (entries inputs) /\ read (alone e) [] = Done (r', rs') /\ In x rs'.
Proof. exact together_reports. Qed.
Print Assumptions C14_reports_same.

Example C14_good : independent vs_good /\ List.length (entries vs_good) = 3%nat /\ succeeds (read vs_good []) = true.
Proof. split; [exact vs_good_independent|]. split; [reflexivity|]. vm_compute. reflexivity. Qed.

Example C14_bad : independent vs_bad /\ List.length (entries vs_bad) = 3%nat /\
  (forall e, In e (entries vs_bad) -> camel_source (source e)) /\
  fails "there were 2 errors" (read vs_bad []) = true.
Proof.
  split; [exact vs_bad_independent|]. split; [reflexivity|]. split; [|vm_compute; reflexivity].
  exact vs_bad_camel.
Qed.
