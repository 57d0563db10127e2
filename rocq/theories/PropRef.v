(** C71: the [@ref] annotation gives a version all the types that the referenced class needs. *)
From Coq Require Import Ascii String Bool Arith List.
From Verif Require Import GoStrings GoMap NamesModel ConceptsModel RefModel RefSpec.
From Verif Require Import RefProofs RefProofs2 RefProofs3 RefExamples.
Import ListNotations.
Local Open Scope string_scope.

(** After the import the version has, and owns, all the types that the referenced type needs: those of
    its attributes, of the elements of its lists and maps and of their attributes, at any depth. *)
Theorem C71_import_complete fuel sh here root st st' :
  import fuel sh here root st = Finished st' -> distinct_names sh root ->
  forall t, needed sh root t ->
    mget (rt_name (sh t)) (rs_table st') = Some t /\ rs_owner st' t = Some here.
Proof.
  exact (fun H D t Ht => conj (import_distinct fuel sh here root st st' H D t Ht)
                              (import_owner fuel sh here root st st' H t Ht)).
Qed.
Print Assumptions C71_import_complete.

Example C71_import_complete_demo :
  import 9 sh_demo 1 1 st_demo = Finished demo_done /\ distinct_names sh_demo 1 /\ needed sh_demo 1 5 /\
  mget "add_on_list" (rs_table st_demo) = None /\ rs_owner st_demo 5 = Some 2 /\
  mget "add_on_list" (rs_table demo_done) = Some 5 /\ rs_owner demo_done 5 = Some 1.
Proof.
  exact (conj demo_import (conj demo_distinct (conj demo_needed_list (conj eq_refl (conj eq_refl
    (C71_import_complete 9 sh_demo 1 1 st_demo demo_done demo_import demo_distinct 5 demo_needed_list)))))).
Qed.

(** Even if two of those types have the same name the version has one of them under that name. *)
Theorem C71_import_names fuel sh here root st st' :
  import fuel sh here root st = Finished st' ->
  forall t, needed sh root t ->
    exists t', needed sh root t' /\ rt_name (sh t') = rt_name (sh t) /\
      mget (rt_name (sh t)) (rs_table st') = Some t'.
Proof. exact (fun H => proj1 (import_table fuel sh here root st st' H)). Qed.
Print Assumptions C71_import_names.

Example C71_import_names_demo :
  import 9 sh_demo 1 1 st_demo = Finished demo_done /\ needed sh_demo 1 6.
Proof. exact (conj demo_import (or_introl (conj demo_part_add_on (demo_struct 6 (or_intror (or_intror (or_introl eq_refl))))))). Qed.

(** The types of the version that have other names aren't touched, and the owner of a type either
    stays or becomes the version. *)
Theorem C71_import_only fuel sh here root st st' :
  import fuel sh here root st = Finished st' ->
  (forall k, (forall t, needed sh root t -> rt_name (sh t) <> k) ->
     mget k (rs_table st') = mget k (rs_table st)) /\
  (forall t, rs_owner st' t = rs_owner st t \/ rs_owner st' t = Some here).
Proof.
  exact (fun H => conj (proj2 (import_table fuel sh here root st st' H))
                       (fun t => import_owner_builtin fuel sh here root st st' t H)).
Qed.
Print Assumptions C71_import_only.

Example C71_import_only_demo :
  import 9 sh_demo 1 1 st_demo = Finished demo_done /\
  mget "account" (rs_table demo_done) = Some 8 /\ mget "cluster" (rs_table st_demo) = Some 0 /\
  mget "cluster" (rs_table demo_done) = Some 1 /\ mget "string" (rs_table demo_done) = None /\
  rs_owner demo_done 2 = Some 2.
Proof. exact (conj demo_import (conj eq_refl (conj eq_refl (conj eq_refl (conj eq_refl eq_refl))))). Qed.

(** A link of an imported type to something that the version explicitly declares is treated as a link
    to a type of the version. *)
Theorem C71_links_declared fuel sh here root st st' r i t :
  import fuel sh here root st = Finished st' -> keyed sh st -> fresh sh root st ->
  part_of sh root r -> ~ builtin sh r -> link_attribute sh r i t -> declared sh st t ->
  rs_owner st' t = Some here /\ rs_link_owner st' r i = rs_link_owner st r i.
Proof. exact (link_declared fuel sh here root st st' r i t). Qed.
Print Assumptions C71_links_declared.

Example C71_links_declared_demo :
  rs_owner demo_done 9 = Some 1 /\ rs_link_owner demo_done 6 0 = None.
Proof.
  exact (C71_links_declared 9 sh_demo 1 1 st_demo demo_done 6 0 9 demo_import demo_keyed demo_fresh
           demo_part_add_on (demo_struct 6 (or_intror (or_intror (or_introl eq_refl)))) eq_refl demo_declared).
Qed.

(** The other links, when their types aren't imported as well, remember the version where the type
    is, and the type stays there. *)
Theorem C71_links_foreign fuel sh here root st st' r i t :
  import fuel sh here root st = Finished st' -> keyed sh st -> fresh sh root st ->
  part_of sh root r -> ~ builtin sh r -> link_attribute sh r i t -> ~ declared sh st t ->
  ~ needed sh root t ->
  rs_owner st' t = rs_owner st t /\ rs_link_owner st' r i = rs_owner st t.
Proof. exact (link_foreign fuel sh here root st st' r i t). Qed.
Print Assumptions C71_links_foreign.

Example C71_links_foreign_demo :
  rs_owner demo_done 7 = Some 2 /\ rs_link_owner demo_done 6 2 = Some 2.
Proof.
  exact (C71_links_foreign 9 sh_demo 1 1 st_demo demo_done 6 2 7 demo_import demo_keyed demo_fresh
           demo_part_add_on (demo_struct 6 (or_intror (or_intror (or_introl eq_refl)))) eq_refl
           demo_not_declared demo_not_needed).
Qed.

(** When the type of a link is imported as well that isn't true: the code generated for the attribute
    uses the version of the link, but the type isn't there any more. *)
Theorem C71_links_package_refuted :
  ~ (forall fuel sh here root st st' r i t v,
       import fuel sh here root st = Finished st' -> keyed sh st -> fresh sh root st ->
       part_of sh root r -> ~ builtin sh r -> link_attribute sh r i t ->
       rs_link_owner st' r i = Some v -> rs_owner st' t = Some v).
Proof.
  intro H.
  assert (E : rs_owner (finished (import 3 link_first 1 0 st_order)) 1 = Some 2).
  { apply (H 3 link_first 1 0 st_order _ 0 0 1 2).
    - vm_compute. reflexivity.
    - intros k r E. discriminate.
    - split; [reflexivity|]. intros t _ _ (r & E & _). discriminate.
    - constructor.
    - intros [E | E]; discriminate.
    - reflexivity.
    - vm_compute. reflexivity. }
  vm_compute in E. discriminate.
Qed.
Print Assumptions C71_links_package_refuted.

(** And with the attributes in another order the link of the type is to the version itself, whose
    package would have to import itself. *)
Theorem C71_links_order_refuted :
  ~ (forall fuel sh here root st st' r i t,
       import fuel sh here root st = Finished st' -> keyed sh st -> fresh sh root st ->
       (forall x, rs_owner st x <> Some here) -> (forall x j, rs_link_owner st x j = None) ->
       part_of sh root r -> ~ builtin sh r -> link_attribute sh r i t ->
       rs_link_owner st' r i <> Some here).
Proof.
  intro H.
  apply (H 3 link_last 1 0 st_order (finished (import 3 link_last 1 0 st_order)) 0 1 1).
  - vm_compute. reflexivity.
  - intros k r E. discriminate.
  - split; [reflexivity|]. intros t _ _ (r & E & _). discriminate.
  - discriminate.
  - reflexivity.
  - constructor.
  - intros [E | E]; discriminate.
  - reflexivity.
  - vm_compute. reflexivity.
Qed.
Print Assumptions C71_links_order_refuted.

(** The import ends if the objects of the type can't contain objects of the same type, and then the
    result doesn't depend on the number of nested calls allowed. *)
Theorem C71_import_ends sh here root :
  with_elements sh -> finite_parts sh root ->
  exists n, forall st, exists st', forall m, n <= m -> import m sh here root st = Finished st'.
Proof. exact (import_terminates sh here root). Qed.
Print Assumptions C71_import_ends.

Example C71_import_ends_demo : with_elements sh_demo /\ finite_parts sh_demo 1.
Proof. exact (conj demo_elements demo_finite). Qed.

(** Otherwise, for example for trees, it never ends. *)
Theorem C71_import_loops sh here root c d :
  with_elements sh -> part_of sh root c -> contains sh c d -> part_of sh d c ->
  forall n st, import n sh here root st = Exhausted.
Proof. exact (import_cycle sh here root c d). Qed.
Print Assumptions C71_import_loops.

Example C71_import_loops_demo : forall n st, import n sh_tree 1 0 st = Exhausted.
Proof.
  exact (C71_import_loops sh_tree 1 0 0 0 tree_elements (part_root _ _) tree_contains (part_root _ _)).
Qed.

(** The attributes that the version already had and that use the class stop being links to other
    versions, and the rest aren't changed. *)
Theorem C71_existing_attributes sh typ st st' :
  remove_linked_attributes sh typ st = Finished st' ->
  rs_table st' = rs_table st /\
  (forall x i t, In x (mvals (rs_table st)) -> has_attribute sh x i t -> mentions sh typ t ->
     rs_link_owner st' x i = None) /\
  (forall x i, (~ In x (mvals (rs_table st)) \/ exists t, has_attribute sh x i t /\ ~ mentions sh typ t) ->
     rs_link_owner st' x i = rs_link_owner st x i) /\
  (forall x i t e, In x (mvals (rs_table st)) -> has_attribute sh x i t -> container sh t ->
     rt_element (sh t) = Some e -> rt_name (sh e) = rt_name (sh typ) ->
     rs_explicit st' t = true /\ rs_explicit st' e = true /\ rs_owner st' e = rs_owner st typ).
Proof. exact (remove_linked_spec sh typ st st'). Qed.
Print Assumptions C71_existing_attributes.

Example C71_existing_attributes_demo :
  remove_linked_attributes sh_used 0 st_used = Finished used_done /\
  (rs_link_owner st_used 2 0 = Some 2 /\ rs_link_owner used_done 2 0 = None) /\
  (rs_link_owner st_used 2 1 = Some 2 /\ rs_link_owner used_done 2 1 = None) /\
  rs_link_owner used_done 2 2 = Some 2 /\ rs_explicit used_done 1 = true.
Proof.
  exact (conj used_remove (conj (conj eq_refl eq_refl) (conj (conj eq_refl eq_refl) (conj eq_refl eq_refl)))).
Qed.

(** The path of the annotation has the names of the service, of the version and of the type, and may
    start with a slash. *)
Theorem C71_path fuel sh here load input path s v t versions types r st :
  refers path s v t -> s <> "" -> no_slash s -> no_slash v -> no_slash t ->
  load (input ++ "/" ++ s) = Some versions -> mget v versions = Some types -> mget t types = Some r ->
  handle_class_ref fuel sh here load [input] path st = import fuel sh here r st.
Proof. exact (path_import fuel sh here load input path s v t versions types r st). Qed.
Print Assumptions C71_path.

Example C71_path_demo :
  refers "/clusters_mgmt/v1/cluster" "clusters_mgmt" "v1" "cluster" /\ no_slash "clusters_mgmt" /\
  handle_class_ref 9 sh_demo 1 load_demo ["model"] "/clusters_mgmt/v1/cluster" st_demo = Finished demo_done.
Proof. exact (conj demo_refers (conj (slash_free_ok "clusters_mgmt" eq_refl) eq_refl)). Qed.

(** A reference to a type that doesn't exist is silently ignored. *)
Theorem C71_unknown_type fuel sh here load input path s v t versions types st :
  refers path s v t -> s <> "" -> no_slash s -> no_slash v -> no_slash t ->
  load (input ++ "/" ++ s) = Some versions -> mget v versions = Some types -> mget t types = None ->
  handle_class_ref fuel sh here load [input] path st = Finished st.
Proof. exact (path_unknown fuel sh here load input path s v t versions types st). Qed.
Print Assumptions C71_unknown_type.

Example C71_unknown_type_demo :
  refers "clusters_mgmt/v1/claster/x" "clusters_mgmt" "v1" "claster" /\
  handle_class_ref 9 sh_demo 1 load_demo ["model"] "clusters_mgmt/v1/claster/x" st_demo = Finished st_demo.
Proof.
  exact (conj (ex_intro _ "/x" (conj (or_introl eq_refl) (or_intror (ex_intro _ "x" eq_refl)))) eq_refl).
Qed.

(** A reference to a service or version that doesn't exist, or inside a service that is being loaded
    because of another reference (the reader has no inputs then), ends the process. *)
Theorem C71_crash fuel sh here load inputs path s v t st :
  refers path s v t -> s <> "" -> no_slash s -> no_slash v -> no_slash t ->
  (forall input, In input inputs -> load (input ++ "/" ++ s) = None \/
     exists versions, load (input ++ "/" ++ s) = Some versions /\ mget v versions = None) ->
  handle_class_ref fuel sh here load inputs path st = Crash.
Proof. exact (path_crash fuel sh here load inputs path s v t st). Qed.
Print Assumptions C71_crash.

Example C71_crash_demo :
  handle_class_ref 9 sh_demo 1 load_demo [] "/clusters_mgmt/v1/cluster" st_demo = Crash.
Proof.
  exact (C71_crash 9 sh_demo 1 load_demo [] "/clusters_mgmt/v1/cluster" "clusters_mgmt" "v1" "cluster" st_demo
           demo_refers (fun E => eq_ind "" (fun s => if s then True else False) I "clusters_mgmt" (eq_sym E))
           (slash_free_ok "clusters_mgmt" eq_refl) (slash_free_ok "v1" eq_refl) (slash_free_ok "cluster" eq_refl)
           (fun _ (F : False) => match F with end)).
Qed.

(** All together: a class with the annotation is replaced by the referenced one, if it has the same
    name, and the version has all that it needs; the rest of the version doesn't change. *)
Theorem C71_class sh here load input typ path s v t versions types r st st1 :
  with_elements sh -> keyed sh st ->
  mget (rt_name (sh typ)) (rs_table st) = Some typ ->
  refers path s v t -> s <> "" -> no_slash s -> no_slash v -> no_slash t ->
  load (input ++ "/" ++ s) = Some versions -> mget v versions = Some types -> mget t types = Some r ->
  ~ builtin sh r -> rt_name (sh r) = rt_name (sh typ) ->
  finite_parts sh r -> distinct_names sh r ->
  remove_linked_attributes sh typ (set_explicit typ st) = Finished st1 -> fresh sh r st1 ->
  exists n st', (forall m, n <= m -> class_ref m sh here load [input] typ path st = Finished st') /\
    mget (rt_name (sh typ)) (rs_table st') = Some r /\ rs_explicit st' r = true /\
    rs_owner st' r = Some here /\
    (forall x, needed sh r x -> mget (rt_name (sh x)) (rs_table st') = Some x /\ rs_owner st' x = Some here) /\
    (forall k, (forall x, needed sh r x -> rt_name (sh x) <> k) -> mget k (rs_table st') = mget k (rs_table st)).
Proof. exact (class_import sh here load input typ path s v t versions types r st st1). Qed.
Print Assumptions C71_class.

Example C71_class_demo :
  with_elements sh_demo /\ keyed sh_demo st_demo /\ mget "cluster" (rs_table st_demo) = Some 0 /\
  refers "/clusters_mgmt/v1/cluster" "clusters_mgmt" "v1" "cluster" /\
  rt_name (sh_demo 1) = rt_name (sh_demo 0) /\ finite_parts sh_demo 1 /\ distinct_names sh_demo 1 /\
  remove_linked_attributes sh_demo 0 (set_explicit 0 st_demo) = Finished demo_removed /\
  fresh sh_demo 1 demo_removed.
Proof.
  exact (conj demo_elements (conj demo_keyed (conj eq_refl (conj demo_refers (conj eq_refl (conj demo_finite
    (conj demo_distinct (conj demo_remove demo_removed_fresh)))))))).
Qed.
