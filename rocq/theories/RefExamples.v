(** Concrete types for the examples about the import of the types of other versions. *)
From Coq Require Import Ascii String Bool Arith Lia List.
From Verif Require Import GoStrings GoMap NamesModel ConceptsModel RefModel RefSpec RefProofs RefProofs2.
Import ListNotations.
Local Open Scope string_scope.

(** The version being read is 1.  It has the class that has the annotation (0) and another one that
    has already been imported (8).  Version 2 has a class (1) with an string (2), an structure (3), a
    link (4) and a list (5) of objects (6) that have a link (7) to something that version 1 doesn't
    have, and another (9) to what version 1 already has. *)
Definition sh_demo : shape := fun r =>
  nth r [MkRtype "cluster" ClassType [] None;
         MkRtype "cluster" ClassType
           [MkRattribute 5 false; MkRattribute 4 true; MkRattribute 2 false; MkRattribute 3 false] None;
         MkRtype "string" ScalarType [] None;
         MkRtype "nodes" StructType [MkRattribute 2 false] None;
         MkRtype "flavour" ClassType [] None;
         MkRtype "add_on_list" ListType [] (Some 6);
         MkRtype "add_on" ClassType [MkRattribute 9 true; MkRattribute 2 false; MkRattribute 7 true] None;
         MkRtype "version" ClassType [] None;
         MkRtype "account" ClassType [] None;
         MkRtype "account" ClassType [] None]
    (MkRtype "other" StructType [] None).

Definition st_demo : rstate :=
  MkRstate [("cluster", 0); ("account", 8)]
    (fun r => if Nat.eqb r 0 || Nat.eqb r 8 then Some 1 else Some 2) (fun r => Nat.eqb r 0 || Nat.eqb r 8)
    (fun _ _ => None).

Definition finished (o : outcome) : rstate := match o with Finished st => st | _ => st_demo end.

Definition demo_done : rstate := finished (import 9 sh_demo 1 1 st_demo).

Lemma demo_import : import 9 sh_demo 1 1 st_demo = Finished demo_done.
Proof. vm_compute. reflexivity. Qed.

Lemma plain_in sh r t : plain_attribute sh r t <-> In (MkRattribute t false) (rt_attributes (sh r)).
Proof.
  split; [intros (i & E); eapply nth_error_In; eauto|intro H; apply In_nth_error in H; exact H].
Qed.

Lemma demo_parts r : part_of sh_demo 1 r -> In r [1; 2; 3; 6].
Proof.
  induction 1 as [|r c _ IH (NB & t & Hp & Hc)]; [now left|].
  apply plain_in in Hp.
  destruct IH as [<- | [<- | [<- | [<- | []]]]]; cbv [sh_demo nth rt_attributes In] in Hp.
  - destruct Hp as [E | [E | [E | [E | []]]]]; inversion E; subst t.
    + destruct Hc as [(_ & E1) | (N & _)]; [cbv in E1; inversion E1; subst; simpl; auto|].
      exfalso. apply N. left. reflexivity.
    + destruct Hc as [([E1 | E1] & _) | (_ & ->)]; [discriminate|discriminate|simpl; auto].
    + destruct Hc as [([E1 | E1] & _) | (_ & ->)]; [discriminate|discriminate|simpl; auto].
  - destruct Hp.
  - destruct Hp as [E | []]; inversion E; subst t.
    destruct Hc as [([E1 | E1] & _) | (_ & ->)]; [discriminate|discriminate|simpl; auto].
  - destruct Hp as [E | [E | [E | []]]]; inversion E; subst t.
    destruct Hc as [([E1 | E1] & _) | (_ & ->)]; [discriminate|discriminate|simpl; auto].
Qed.

Lemma demo_needed t : needed sh_demo 1 t -> In t [1; 3; 5; 6].
Proof.
  intros [(Hp & NB) | (r & Hp & NB & Hpl & Hc)]; apply demo_parts in Hp.
  - destruct Hp as [<- | [<- | [<- | [<- | []]]]]; simpl; auto. exfalso. apply NB. left. reflexivity.
  - apply plain_in in Hpl.
    destruct Hp as [<- | [<- | [<- | [<- | []]]]]; cbv [sh_demo nth rt_attributes In] in Hpl;
      repeat (destruct Hpl as [E | Hpl]; [inversion E; subst t; clear E|]); try destruct Hpl;
      try (destruct Hc as [E | E]; discriminate); simpl; auto.
Qed.

Lemma demo_distinct : distinct_names sh_demo 1.
Proof.
  intros a b Ha Hb. apply demo_needed in Ha. apply demo_needed in Hb.
  destruct Ha as [<- | [<- | [<- | [<- | []]]]]; destruct Hb as [<- | [<- | [<- | [<- | []]]]]; intro E; auto;
    vm_compute in E; discriminate.
Qed.

Lemma demo_fresh : fresh sh_demo 1 st_demo.
Proof.
  split.
  - intros t Ht. apply demo_needed in Ht. destruct Ht as [<- | [<- | [<- | [<- | []]]]]; reflexivity.
  - intros t Ht Hc. apply demo_needed in Ht.
    destruct Ht as [<- | [<- | [<- | [<- | []]]]]; try (destruct Hc as [E | E]; discriminate).
    intros (r & E & _). vm_compute in E. discriminate.
Qed.

Lemma demo_keyed : keyed sh_demo st_demo.
Proof.
  intros k r. unfold st_demo. cbn [rs_table mget].
  destruct (String.eqb_spec k "cluster") as [->|]; [intro E; inversion E; reflexivity|].
  destruct (String.eqb_spec k "account") as [->|]; [intro E; inversion E; reflexivity|discriminate].
Qed.

Lemma demo_elements : with_elements sh_demo.
Proof.
  intros t. do 10 (destruct t as [|t]; [intros [E | E]; first [discriminate | eexists; reflexivity]|]).
  intros [E | E]; unfold sh_demo in E; rewrite nth_overflow in E by (simpl; lia); discriminate.
Qed.

Lemma demo_finite : finite_parts sh_demo 1.
Proof. exact (import_finite _ _ _ _ _ _ demo_import). Qed.

Lemma demo_part_add_on : part_of sh_demo 1 6.
Proof.
  apply (part_step _ _ 1); [constructor|]. split; [intros [E | E]; discriminate|].
  exists 5. split; [exists 0; reflexivity|]. left. split; [left; reflexivity|reflexivity].
Qed.

Lemma demo_needed_list : needed sh_demo 1 5.
Proof.
  right. exists 1. split; [constructor|]. split; [intros [E | E]; discriminate|].
  split; [exists 0; reflexivity|left; reflexivity].
Qed.

Lemma demo_struct r : In r [1; 3; 6] -> ~ builtin sh_demo r.
Proof. intros [<- | [<- | [<- | []]]] [E | E]; discriminate. Qed.

Lemma demo_not_declared : ~ declared sh_demo st_demo 7.
Proof. intros [(r & E & _) | ([E | E] & _)]; vm_compute in E; discriminate. Qed.

Lemma demo_not_needed : ~ needed sh_demo 1 7.
Proof. intro H. apply demo_needed in H. simpl in H. intuition discriminate. Qed.

Lemma demo_declared : declared sh_demo st_demo 9.
Proof. left. exists 8. split; reflexivity. Qed.

(** A structure that contains a list of itself. *)
Definition sh_tree : shape := fun r =>
  nth r [MkRtype "tree" StructType [MkRattribute 1 false] None;
         MkRtype "tree_list" ListType [] (Some 0)]
    (MkRtype "other" StructType [] None).

Lemma tree_elements : with_elements sh_tree.
Proof.
  intros t. do 2 (destruct t as [|t]; [intros [E | E]; first [discriminate | eexists; reflexivity]|]).
  intros [E | E]; unfold sh_tree in E; rewrite nth_overflow in E by (simpl; lia); discriminate.
Qed.

Lemma tree_contains : contains sh_tree 0 0.
Proof.
  split; [intros [E | E]; discriminate|]. exists 1. split; [exists 0; reflexivity|].
  left. split; [left; reflexivity|reflexivity].
Qed.

(** A class with a link to a type and an attribute of that same type; only the order changes. *)
Definition sh_order (first second : rattribute) : shape := fun r =>
  nth r [MkRtype "cluster" ClassType [first; second] None;
         MkRtype "flavour" ClassType [] None]
    (MkRtype "other" StructType [] None).

Definition st_order : rstate := MkRstate [] (fun _ => Some 2) (fun _ => false) (fun _ _ => None).

Definition link_first : shape := sh_order (MkRattribute 1 true) (MkRattribute 1 false).
Definition link_last : shape := sh_order (MkRattribute 1 false) (MkRattribute 1 true).

(** The class of version 1, whose object is in an attribute and in a list of another class. *)
Definition sh_used : shape := fun r =>
  nth r [MkRtype "cluster" ClassType [] None;
         MkRtype "cluster_list" ListType [] (Some 0);
         MkRtype "report" ClassType [MkRattribute 0 true; MkRattribute 1 true; MkRattribute 3 true] None;
         MkRtype "flavour" ClassType [] None]
    (MkRtype "other" StructType [] None).

Definition st_used : rstate :=
  MkRstate [("report", 2); ("cluster", 0)] (fun r => if Nat.eqb r 3 then Some 2 else Some 1)
    (fun _ => false) (fun r i => if Nat.eqb r 2 then Some 2 else None).

Definition used_done : rstate := finished (remove_linked_attributes sh_used 0 st_used).

Lemma used_remove : remove_linked_attributes sh_used 0 st_used = Finished used_done.
Proof. vm_compute. reflexivity. Qed.

(** The files: one service with one version. *)
Definition load_demo (dir : string) : loaded :=
  if String.eqb dir "model/clusters_mgmt"
  then Some [("v1", [("cluster", 1); ("string", 2); ("add_on_list", 5); ("add_on", 6)])]
  else None.

Definition demo_removed : rstate := finished (remove_linked_attributes sh_demo 0 (set_explicit 0 st_demo)).

Lemma demo_remove : remove_linked_attributes sh_demo 0 (set_explicit 0 st_demo) = Finished demo_removed.
Proof. vm_compute. reflexivity. Qed.

Lemma demo_removed_fresh : fresh sh_demo 1 demo_removed.
Proof.
  split.
  - intros t Ht. apply demo_needed in Ht. destruct Ht as [<- | [<- | [<- | [<- | []]]]]; vm_compute; reflexivity.
  - intros t Ht Hc. apply demo_needed in Ht.
    destruct Ht as [<- | [<- | [<- | [<- | []]]]]; try (destruct Hc as [E | E]; discriminate).
    intros (r & E & _). vm_compute in E. discriminate.
Qed.

Lemma demo_refers : refers "/clusters_mgmt/v1/cluster" "clusters_mgmt" "v1" "cluster".
Proof. exists "". split; [right; reflexivity|left; reflexivity]. Qed.

Fixpoint slash_free (s : string) : bool :=
  match s with "" => true | String c s' => negb (Ascii.eqb c "/") && slash_free s' end.

Lemma slash_free_ok s : slash_free s = true -> no_slash s.
Proof.
  induction s as [|c s IH]; intros H a b E.
  - destruct a; discriminate.
  - cbn [slash_free] in H. apply andb_true_iff in H. destruct H as (H1 & H2).
    destruct a as [|d a]; cbn [append] in E.
    + inversion E; subst c. discriminate.
    + inversion E; subst. exact (IH H2 _ _ eq_refl).
Qed.
