(** Examples and counterexamples for the properties of the declarations of the generated Go code. *)
From Coq Require Import Ascii String Bool Arith List.
From Verif Require Import GoStrings GoStringsProofs GoMap GoMapProofs NamesModel ConceptsModel BindingModel GoNamesModel ReporterModel ReaderModel ReaderSpec
  ChecksModel ReaderExamples DeclsModel DeclsSpec DeclsProofs DeclsProofs2 DeclsProofs3.
Import ListNotations.
Local Open Scope string_scope.

(** The version that the reader returns for a file. *)
Definition accepted (ds : list decl) (v : version) : Prop :=
  exists m rs s, read [[("svc", [("v1", [("a.model", ds)])])]] [] = Done (ROk m, rs) /\ in_model m s /\ in_service s v.

Definition decide_read (ds : list decl) (f : version -> bool) : bool :=
  match read [[("svc", [("v1", [("a.model", ds)])])]] [] with
  | Done (ROk ((_, s) :: _), _) => match s_versions s with (_, v) :: _ => f v | [] => false end
  | _ => false
  end.
Lemma decide_read_sound ds f : decide_read ds f = true -> exists v, accepted ds v /\ f v = true.
Proof.
  unfold decide_read, accepted. destruct (read _ _) as [[[m|e] rs]| |]; try discriminate. destruct m as [|[k s] m]; [discriminate|].
  destruct (s_versions s) as [|[k' v] l] eqn:V; [discriminate|]. intros H. exists v. split; [|exact H]. exists ((k, s) :: m), rs, s.
  split; [reflexivity|]. split.
  - exists k. cbn. now rewrite String.eqb_refl.
  - exists k'. rewrite V. cbn. now rewrite String.eqb_refl.
Qed.

(** Decisions. *)
Definition inb (x : string) (l : list string) : bool := existsb (String.eqb x) l.
Lemma inb_true x l : inb x l = true -> In x l.
Proof. unfold inb. intros H. apply existsb_exists in H. destruct H as (y & I & E). apply String.eqb_eq in E. now subst. Qed.
Lemma nodupb_not l : nodupb l = false -> ~ NoDup l.
Proof.
  induction l as [|x l IH]; cbn; [discriminate|]. intros H N. inversion N as [|? ? N1 N2]; subst. apply andb_false_iff in H as [H|H]; [|now apply IH].
  apply negb_false_iff in H. apply existsb_exists in H as (y & I & E). apply String.eqb_eq in E. subst y. contradiction.
Qed.
Lemma clash_fields f m : nodupb f = false -> ~ valid_members f m.
Proof. intros H (N & _). exact (nodupb_not _ H N). Qed.
Lemma clash_methods f m : nodupb m = false -> ~ valid_members f m.
Proof. intros H (_ & N & _). exact (nodupb_not _ H N). Qed.
Definition clash (f m : list string) : bool := negb (nodupb f) || negb (nodupb m).
Lemma clash_sound f m : clash f m = true -> ~ valid_members f m.
Proof. unfold clash. intros H. apply orb_true_iff in H as [H|H]; apply negb_true_iff in H; [now apply clash_fields|now apply clash_methods]. Qed.

(** Types, methods and resources found by name. *)
Definition type_check (k : string) (f : typ -> bool) (v : version) : bool := match mget k (v_types v) with Some t => f t | None => false end.
Lemma type_check_sound k f v : type_check k f v = true -> exists t, In t (types v) /\ f t = true.
Proof.
  unfold type_check. destruct (mget k (v_types v)) as [t|] eqn:E; [|discriminate]. intros H. exists t. split; [|exact H].
  unfold types. apply sort_in. apply mget_in in E. apply in_map_iff. exists (k, t). auto.
Qed.
Definition resource_check (k : string) (f : resource -> bool) (v : version) : bool := match mget k (v_resources v) with Some r => f r | None => false end.
Lemma resource_check_sound k f v : resource_check k f v = true -> exists r, In r (resources v) /\ f r = true.
Proof.
  unfold resource_check. destruct (mget k (v_resources v)) as [r|] eqn:E; [|discriminate]. intros H. exists r. split; [|exact H].
  unfold resources. apply sort_in. apply mget_in in E. apply in_map_iff. exists (k, r). auto.
Qed.
Lemma in_type ds k f : decide_read ds (type_check k f) = true -> exists v t, accepted ds v /\ In t (types v) /\ f t = true.
Proof. intros H. destruct (decide_read_sound _ _ H) as (v & A & C). destruct (type_check_sound _ _ _ C) as (t & I & F). eauto. Qed.
Lemma in_resource ds k f : decide_read ds (resource_check k f) = true -> exists v r, accepted ds v /\ In r (resources v) /\ f r = true.
Proof. intros H. destruct (decide_read_sound _ _ H) as (v & A & C). destruct (resource_check_sound _ _ _ C) as (t & I & F). eauto. Qed.

(** * Members *)
Definition struct_of (n : string) (l : list string) : decl := DStruct [] n (map (fun a => attr a (RPlain "String")) l) "".
Definition class_of_attrs (n : string) (l : list string) : decl := DClass [] n (map (fun a => attr a (RPlain "String")) l) "".

Definition object_clash (t : typ) : bool := clash (object_fields t) (object_methods t).
Definition builder_clash (t : typ) : bool := clash (object_fields t) (builder_methods t).

Lemma object_clash_example ds k : decide_read ds (type_check k object_clash) = true ->
  exists v t, accepted ds v /\ In t (types v) /\ ~ valid_members (object_fields t) (object_methods t).
Proof. intros H. destruct (in_type _ _ _ H) as (v & t & A & B & C). apply clash_sound in C. eauto. Qed.
Lemma builder_clash_example ds k : decide_read ds (type_check k builder_clash) = true ->
  exists v t, accepted ds v /\ In t (types v) /\ ~ valid_members (object_fields t) (builder_methods t).
Proof. intros H. destruct (in_type _ _ _ H) as (v & t & A & B & C). apply clash_sound in C. eauto. Qed.

Definition ex_getters : list decl := [ex_empty_root; struct_of "Thing" ["Foo"; "GetFoo"]].
Definition ex_empty : list decl := [ex_empty_root; struct_of "Thing" ["Empty"]].
Definition ex_class_id : list decl := [ex_empty_root; class_of_attrs "Thing" ["ID"]].
Definition ex_build : list decl := [ex_empty_root; struct_of "Thing" ["Build"]].

Definition things (ms : list method_decl) : list decl :=
  [DResource [] "Root" [RMLocator (MkLocatorDecl [] "Things" [LMTarget "Things"] "")] ""; DResource [] "Things" (map RMMethod ms) ""; ex_node].
Definition ex_header : list decl := things [MkMethodDecl [] "Act" [par [DOut] "Header" (RPlain "String") None] ""].
Definition ex_path : list decl := things [MkMethodDecl [] "Act" [par [DIn] "Path" (RPlain "String") None] ""].
Definition ex_status : list decl := things [MkMethodDecl [] "Act" [par [DOut] "Status" (RPlain "String") None] ""].
Definition ex_poll : list decl :=
  things [MkMethodDecl [] "Get" [par [DOut] "Body" (RPlain "Node") None] ""; MkMethodDecl [] "Poll" [par [DOut] "Answer" (RPlain "String") None] ""].
Definition ex_root_get : list decl := [DResource [] "Root" [RMMethod (MkMethodDecl [] "Get" [par [DOut] "Body" (RPlain "Node") None] "")] ""; ex_node].

Lemma in_method ds k f : decide_read ds (resource_check k (fun r => existsb f (r_methods r))) = true ->
  exists v r m, accepted ds v /\ In r (resources v) /\ In m (r_methods r) /\ f m = true.
Proof.
  intros H. destruct (in_resource _ _ _ H) as (v & r & A & B & C). apply existsb_exists in C. destruct C as (m & I & F). exists v, r, m. auto.
Qed.
Lemma response_clash_example ds k : decide_read ds (resource_check k (fun r => existsb (fun m => clash (response_fields m) (response_methods m)) (r_methods r))) = true ->
  exists v r m, accepted ds v /\ In r (resources v) /\ In m (r_methods r) /\ ~ valid_members (response_fields m) (response_methods m).
Proof. intros H. destruct (in_method _ _ _ H) as (v & r & m & A & B & C & D). apply clash_sound in D. exists v, r, m. auto. Qed.
Lemma request_clash_example ds k : decide_read ds (resource_check k (fun r => existsb (fun m => clash (request_fields m) (request_methods m)) (r_methods r))) = true ->
  exists v r m, accepted ds v /\ In r (resources v) /\ In m (r_methods r) /\ ~ valid_members (request_fields m) (request_methods m).
Proof. intros H. destruct (in_method _ _ _ H) as (v & r & m & A & B & C & D). apply clash_sound in D. exists v, r, m. auto. Qed.
Lemma client_clash_example ds k : decide_read ds (resource_check k (fun r => clash client_fields (client_methods (is_root r) r))) = true ->
  exists v r, accepted ds v /\ In r (resources v) /\ ~ valid_members client_fields (client_methods (is_root r) r).
Proof. intros H. destruct (in_resource _ _ _ H) as (v & r & A & B & C). apply clash_sound in C. exists v, r. auto. Qed.
Definition undeclared_field (m : method) : bool :=
  existsb (fun p => negb (inb (json_parameter_field p) (map parameter_field (response_params m)))
                    && negb (String.eqb (json_parameter_field p) (parameter_field p))) (response_params m).
Lemma undeclared_example ds k : decide_read ds (resource_check k (fun r => existsb undeclared_field (r_methods r))) = true ->
  exists v r m p, accepted ds v /\ In r (resources v) /\ In m (r_methods r) /\ In p (response_params m) /\ json_parameter_field p <> parameter_field p.
Proof.
  intros H. destruct (in_method _ _ _ H) as (v & r & m & A & B & C & D). apply existsb_exists in D. destruct D as (p & I & D).
  apply andb_true_iff in D as [_ D]. apply negb_true_iff in D. exists v, r, m, p. repeat (split; [assumption|]). now apply String.eqb_neq.
Qed.

(** * Declarations and files *)
Lemma repeated_decls ds : decide_read ds (fun v => negb (nodupb (version_decls v))) = true -> exists v, accepted ds v /\ ~ NoDup (version_decls v).
Proof. intros H. destruct (decide_read_sound _ _ H) as (v & A & C). apply negb_true_iff in C. exists v. split; [exact A|]. now apply nodupb_not. Qed.
Lemma repeated_files ds : decide_read ds (fun v => negb (nodupb (version_files v))) = true -> exists v, accepted ds v /\ ~ NoDup (version_files v).
Proof. intros H. destruct (decide_read_sound _ _ H) as (v & A & C). apply negb_true_iff in C. exists v. split; [exact A|]. now apply nodupb_not. Qed.

Definition ex_link_kind : list decl := [ex_empty_root; class_of_attrs "Foo" []; class_of_attrs "FooLink" []].
Definition ex_enum_value : list decl := [ex_empty_root; DEnum [] "Foo" [MkValueDecl [] "Bar" ""] ""; struct_of "FooBar" []].
Definition ex_list_struct : list decl := [ex_empty_root; struct_of "Foo" []; struct_of "FooList" []].
Definition ex_pairs : list decl :=
  [DResource [] "Root" [RMLocator (MkLocatorDecl [] "First" [LMTarget "Foo"] ""); RMLocator (MkLocatorDecl [] "Second" [LMTarget "FooBar"] "")] "";
   DResource [] "Foo" [RMMethod (MkMethodDecl [] "BarRun" [] "")] ""; DResource [] "FooBar" [RMMethod (MkMethodDecl [] "Run" [] "")] ""].
Definition ex_metadata : list decl := [ex_empty_root; struct_of "Metadata" []].
Definition ex_letters : list decl := [ex_empty_root; struct_of "MyID" []; struct_of "MyId" []].

(** * The names of a version are compatible *)
Definition plainb (s : string) : bool :=
  negb (String.eqb s "") && forallb (fun p => negb (has_prefix s p)) reserved_beginnings && forallb (fun x => negb (has_suffix s x)) reserved_endings.
Lemma plainb_sound s : plainb s = true -> plain_go_name s.
Proof.
  unfold plainb, plain_go_name. intros H. apply andb_true_iff in H as [H H3]. apply andb_true_iff in H as [H1 H2].
  rewrite forallb_forall in H2, H3. split; [|split].
  - intros ->. discriminate.
  - intros p Hp (r & F). specialize (H2 p Hp). apply negb_true_iff in H2.
    assert (T : has_prefix s p = true) by (apply has_prefix_spec; exists r; exact F). congruence.
  - intros x Hx F. specialize (H3 x Hx). apply negb_true_iff in H3. apply has_suffix_spec in F. congruence.
Qed.
Definition compatibleb (v : version) : bool :=
  nodupb (chosen_names v) && forallb plainb (chosen_names v)
  && forallb (fun t => negb (is_struct t) || negb (has_suffix (object_name t) "Link") && negb (has_suffix (object_name t) "Nil")) (types v)
  && (nodupb ("Metadata" :: json_type_names v) && nodupb (json_plain_names v)) && nodupb (exchange_plain_names v) && nodupb (list_element_names v).
Lemma compatibleb_sound v : compatibleb v = true -> compatible_names v.
Proof.
  unfold compatibleb. intros H. apply andb_true_iff in H as [H H6]. apply andb_true_iff in H as [H H5]. apply andb_true_iff in H as [H H4].
  apply andb_true_iff in H as [H H3]. apply andb_true_iff in H as [H1 H2]. apply andb_true_iff in H4 as [H4 H4'].
  constructor.
  - exact (nodupb_spec _ H1).
  - apply Forall_forall. intros x Hx. rewrite forallb_forall in H2. apply plainb_sound. exact (H2 x Hx).
  - intros t Ht S. rewrite forallb_forall in H3. specialize (H3 t Ht). rewrite S in H3. cbn [negb orb] in H3. apply andb_true_iff in H3 as [H7 H8].
    apply negb_true_iff in H7. apply negb_true_iff in H8. split; intros F; apply has_suffix_spec in F; congruence.
  - split; [exact (nodupb_spec _ H4)|exact (nodupb_spec _ H4')].
  - exact (nodupb_spec _ H5).
  - exact (nodupb_spec _ H6).
Qed.

Definition ex_all : list decl := [ex_root; ex_clusters; ex_cluster_res; ex_cluster; ex_node; ex_state; ex_error].
Lemma compatible_example : exists v, accepted ex_all v /\ compatible_names v /\ 30 <= length (version_decls v).
Proof.
  assert (H : decide_read ex_all (fun v => compatibleb v && Nat.leb 30 (length (version_decls v))) = true) by (vm_compute; reflexivity).
  destruct (decide_read_sound _ _ H) as (v & A & C). clear H. apply andb_true_iff in C as [C D]. apply Nat.leb_le in D.
  exists v. split; [exact A|]. split; [exact (compatibleb_sound v C)|exact D].
Qed.

Definition filesb (v : version) : bool :=
  nodupb ("metadata" :: map (fun t => snake (t_name t)) (file_types v)) && nodupb ("metadata" :: map (fun r => snake (r_name r)) (resources v))
  && nodupb (map (fun t => snake (t_name t)) (builder_types v)) && nodupb (map (fun t => snake (t_name t)) (json_types v)).
Definition wordsb (v : version) : bool :=
  forallb (fun t => match n_words (t_name t) with [] => false | _ => true end) (types v)
  && forallb (fun r => match n_words (r_name r) with [] => false | _ => true end) (resources v).
Lemma wordsb_sound v : wordsb v = true -> names_with_words v.
Proof.
  unfold wordsb, names_with_words. intros H. apply andb_true_iff in H as [H1 H2]. rewrite forallb_forall in H1, H2. split; apply Forall_forall; intros x Hx E.
  - specialize (H1 x Hx). rewrite E in H1. discriminate.
  - specialize (H2 x Hx). rewrite E in H2. discriminate.
Qed.
Lemma files_example : exists v, accepted ex_all v /\ names_with_words v /\ NoDup (version_files v) /\ 10 <= length (version_files v).
Proof.
  assert (H : decide_read ex_all (fun v => wordsb v && nodupb (version_files v) && Nat.leb 10 (length (version_files v))) = true) by (vm_compute; reflexivity).
  destruct (decide_read_sound _ _ H) as (v & A & C). clear H. apply andb_true_iff in C as [C D]. apply andb_true_iff in C as [C E]. apply Nat.leb_le in D.
  exists v. split; [exact A|]. split; [exact (wordsb_sound v C)|]. split; [exact (nodupb_spec _ E)|exact D].
Qed.
