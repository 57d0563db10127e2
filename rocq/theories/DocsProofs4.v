(** Proofs about the documentation of the models returned by the reader. *)
From Coq Require Import Ascii String Bool Arith ZArith NArith Lia Permutation List.
From Verif Require Import GoStrings GoStringsProofs GoMap GoMapProofs NamesModel NamesSpec NamesProofs ConceptsModel ConceptsSpec ReporterModel ReaderModel ReaderSpec ReaderProofs ReaderProofs6 ReaderProofs7
  ChecksModel ChecksSpec PathsProofs OpenapiProofs6 TextModel TextSpec DocsModel DocsSpec DocsProofs DocsProofs2 DocsProofs3.
Import ListNotations.
Local Open Scope string_scope.

Lemma lower_string n : snake n = str_lower (name_string n).
Proof.
  unfold snake, lower_joined, name_string. induction (n_words n) as [|w l IH]; [reflexivity|]. destruct l as [|x l]; [reflexivity|].
  change (map (fun w => str_lower (w_text w)) (w :: x :: l)) with (str_lower (w_text w) :: map (fun w => str_lower (w_text w)) (x :: l)).
  change (map w_text (w :: x :: l)) with (w_text w :: map w_text (x :: l)).
  rewrite (str_join_cons _ _ (map (fun w => str_lower (w_text w)) (x :: l))), (str_join_cons _ _ (map w_text (x :: l))) by discriminate. rewrite IH, !str_lower_app. reflexivity.
Qed.

Lemma returned_root inputs rs0 m rs v : read inputs rs0 = Done (ROk m, rs) -> In v (model_versions m) -> In "root" (map (fun r => snake (r_name r)) (resources v)).
Proof.
  intros E I. destruct (returned_indexed _ _ _ _ E) as [I1 I2]. apply in_flat_map in I as (s & Is & Iv).
  assert (Hs : in_model m s) by now apply services_in. assert (Hv : in_service s v) by (apply versions_in; [now apply I2|assumption]).
  destruct (returned_no_loops _ _ _ _ _ _ E Hs Hv) as ((r & R) & _). destruct (returned_version_indexed _ _ _ _ _ _ E Hs Hv) as [_ IR].
  unfold root in R. pose proof (indexed_get _ _ _ _ IR R) as K. apply mget_in in R. apply in_map_iff. exists r. split.
  - rewrite lower_string, K. vm_compute. reflexivity.
  - unfold resources. apply sort_in. apply in_map_iff. exists (name_key nRoot, r). auto.
Qed.

Lemma roots_clash inputs rs0 m rs : read inputs rs0 = Done (ROk m, rs) -> 2 <= length (model_versions m) -> ~ NoDup (resource_names m).
Proof. intros E L. apply (shared_name _ "root" _ L). intros v I. exact (returned_root _ _ _ _ _ E I). Qed.
