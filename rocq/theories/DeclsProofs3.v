(** Proofs about the files of the package of a version. *)
From Coq Require Import Ascii String Bool Arith Lia Permutation List.
From Verif Require Import GoStrings GoStringsProofs GoMap NamesModel NamesSpec NamesProofs ConceptsModel
  GoNamesModel GoNamesProofs DeclsModel DeclsSpec DeclsProofs DeclsProofs2.
Import ListNotations.
Local Open Scope string_scope.

Lemma file_suffix n ns x : n_words n <> [] -> Forall (fun n => n_words n <> []) ns -> ns <> [] -> str_join "_" (map snake ns) = x ->
  go_file (cat (n :: ns)) = snake n ++ "_" ++ x.
Proof.
  intros Hn Hs N <-. change (go_file (cat (n :: ns))) with (snake (cat (n :: ns))). rewrite cat_snake by (constructor; auto).
  destruct ns as [|m ns]; [contradiction|]. reflexivity.
Qed.

Lemma nodup_append_iff (s : string) l : NoDup (map (fun x => x ++ s) l) <-> NoDup l.
Proof. split; [apply NoDup_map_inv|apply nodup_append]. Qed.

Definition file_groups (v : version) : list (list string) :=
  [["errors"; "openapi"];
   map (fun x => x ++ "_type_json") (map (fun t => snake (t_name t)) (json_types v));
   map (fun x => x ++ "_resource_json") (map (fun r => snake (r_name r)) (resources v));
   map (fun x => x ++ "_type") ("metadata" :: map (fun t => snake (t_name t)) (file_types v));
   map (fun x => x ++ "_builder") (map (fun t => snake (t_name t)) (builder_types v));
   map (fun x => x ++ "_reader") ["metadata"];
   map (fun x => x ++ "_client") ("metadata" :: map (fun r => snake (r_name r)) (resources v))].

Definition file_endings : list string := ["_type_json"; "_resource_json"; "_type"; "_builder"; "_reader"; "_client"].

Lemma words_concrete n : n_words n = [] \/ n_words n <> [].
Proof. destruct (n_words n); [left; reflexivity|right; discriminate]. Qed.

Lemma concrete_words : Forall (fun n => n_words n <> []) [nType; nJSON; nResource; nBuilder; nClient; nMetadata; nReader].
Proof. repeat constructor; vm_compute; discriminate. Qed.

Ltac wordy := repeat constructor; solve [assumption | vm_compute; discriminate].

Lemma map_file {A} (f : A -> name) ns s (l : list A) : Forall (fun n => n_words n <> []) ns -> ns <> [] -> "_" ++ str_join "_" (map snake ns) = s ->
  Forall (fun a => n_words (f a) <> []) l ->
  map (fun a => go_file (cat (f a :: ns))) l = map (fun x => x ++ s) (map (fun a => snake (f a)) l).
Proof.
  intros Hs N <- Hl. rewrite map_map. apply map_ext_in. intros a Ha. rewrite Forall_forall in Hl. apply file_suffix; auto.
Qed.

Lemma filter_words v p : names_with_words v -> Forall (fun t => n_words (t_name t) <> []) (filter p (types v)).
Proof. intros (H & _). rewrite Forall_forall in *. intros t Ht. apply filter_In in Ht. apply H. tauto. Qed.

Lemma files_perm v : names_with_words v -> Permutation (version_files v) (concat (file_groups v)).
Proof.
  intros W. apply perm_cnt. intros x. unfold version_files, types_files, builders_files, json_files, clients_files.
  change (filter (fun t => is_enum t || is_struct t) (types v)) with (file_types v).
  change (filter (fun t => match built_name v t with Some _ => true | None => false end) (types v)) with (builder_types v).
  change (filter (has_json v) (types v)) with (json_types v).
  rewrite (map_file t_name [nType] "_type") by (try (repeat constructor; vm_compute; discriminate); try discriminate; try (vm_compute; reflexivity); apply (filter_words v _ W)).
  rewrite (map_file t_name [nBuilder] "_builder") by (try (repeat constructor; vm_compute; discriminate); try discriminate; try (vm_compute; reflexivity); apply (filter_words v _ W)).
  rewrite (map_file t_name [nType; nJSON] "_type_json") by (try (repeat constructor; vm_compute; discriminate); try discriminate; try (vm_compute; reflexivity); apply (filter_words v _ W)).
  rewrite (map_file r_name [nResource; nJSON] "_resource_json") by (try (repeat constructor; vm_compute; discriminate); try discriminate; try (vm_compute; reflexivity); apply (proj2 W)).
  rewrite (map_file r_name [nClient] "_client") by (try (repeat constructor; vm_compute; discriminate); try discriminate; try (vm_compute; reflexivity); apply (proj2 W)).
  replace (go_file (cat [nMetadata; nType])) with "metadata_type" by (vm_compute; reflexivity).
  replace (go_file (cat [nMetadata; nReader])) with "metadata_reader" by (vm_compute; reflexivity).
  replace (go_file (cat [nMetadata; nClient])) with "metadata_client" by (vm_compute; reflexivity).
  replace other_files with ["errors"; "openapi"] by (vm_compute; reflexivity).
  unfold file_groups. cbn [concat]. rewrite !cnt_app, cnt_nil. rewrite !(cnt_cons' _ (_ :: _)).
  rewrite (map_cons (fun x => x ++ "_type")), (map_cons (fun x => x ++ "_client")), (map_cons (fun x => x ++ "_reader")). cbn [append map app].
  repeat match goal with |- context [cnt (?a :: ?l) ?x] => lazymatch l with [] => fail | _ => rewrite (cnt_cons' a l x) end end.
  rewrite ?cnt_app. lia.
Qed.

Lemma file_class_group s n l : In (s, n) [("_type_json", 1); ("_resource_json", 2); ("_type", 3); ("_builder", 4); ("_reader", 5); ("_client", 6)] ->
  Forall (fun x => ending_class file_endings x = n) (map (fun x => x ++ s) l).
Proof.
  intros Hs. apply Forall_forall. intros x Hx. apply in_map_iff in Hx. destruct Hx as (y & <- & _). unfold ending_class, file_endings, first_of, has_suffix.
  rewrite !str_rev_app.
  destruct Hs as [E|[E|[E|[E|[E|[E|[]]]]]]]; injection E as <- <-; cbn; rewrite ?prefix_nil; reflexivity.
Qed.

Lemma nodup_concat_in {A} (gs : list (list A)) g : NoDup (concat gs) -> In g gs -> NoDup g.
Proof.
  induction gs as [|h gs IH]; intros N []; cbn [concat] in N; apply nodup_app in N; [subst; tauto|]. apply IH; tauto.
Qed.

Lemma files_iff v : names_with_words v ->
  NoDup (version_files v) <->
  NoDup ("metadata" :: map (fun t => snake (t_name t)) (file_types v)) /\ NoDup ("metadata" :: map (fun r => snake (r_name r)) (resources v)) /\
  NoDup (map (fun t => snake (t_name t)) (builder_types v)) /\ NoDup (map (fun t => snake (t_name t)) (json_types v)).
Proof.
  intros W. pose proof (files_perm v W) as P. split.
  - intros N. apply (Permutation_NoDup P) in N. repeat apply conj.
    + apply (nodup_append_iff "_type"). apply (nodup_concat_in _ _ N). right. right. right. left. reflexivity.
    + apply (nodup_append_iff "_client"). apply (nodup_concat_in _ _ N). do 6 right. left. reflexivity.
    + apply (nodup_append_iff "_builder"). apply (nodup_concat_in _ _ N). do 4 right. left. reflexivity.
    + apply (nodup_append_iff "_type_json"). apply (nodup_concat_in _ _ N). right. left. reflexivity.
  - intros (N1 & N2 & N3 & N4). apply (Permutation_NoDup (Permutation_sym P)). apply (nodup_groups (ending_class file_endings) _ 0). intros i g Hi.
    unfold file_groups in Hi. destruct i as [|[|[|[|[|[|[|i]]]]]]]; [| | | | | | |destruct i; discriminate Hi]; cbn [nth_error] in Hi; injection Hi as <-.
    + split; [apply nodupb_spec; reflexivity|]. repeat constructor.
    + split; [exact (nodup_append _ _ N4)|]. exact (file_class_group "_type_json" 1 _ (or_introl eq_refl)).
    + split; [apply nodup_append; inversion N2; assumption|]. exact (file_class_group "_resource_json" 2 _ (or_intror (or_introl eq_refl))).
    + split; [exact (nodup_append "_type" _ N1)|]. apply (file_class_group "_type" 3 ("metadata" :: _)). cbn. tauto.
    + split; [exact (nodup_append _ _ N3)|]. apply (file_class_group "_builder" 4). cbn. tauto.
    + split; [apply nodupb_spec; reflexivity|]. apply (file_class_group "_reader" 5 ["metadata"]). cbn. tauto.
    + split; [exact (nodup_append "_client" _ N2)|]. apply (file_class_group "_client" 6 ("metadata" :: _)). cbn. tauto.
Qed.
