(** Examples and counterexamples for the properties of the generated documentation. *)
From Coq Require Import Ascii String Bool Arith ZArith NArith Lia List.
From Verif Require Import GoStrings GoStringsProofs GoMap GoMapProofs NamesModel NamesSpec NamesProofs ConceptsModel BindingModel BindingSpec GoNamesModel GoNamesSpec ReporterModel ReaderModel ReaderSpec
  ChecksModel ReaderExamples TextModel TextSpec TextProofs BufferModel BufferSpec BufferExamples DeclsProofs DeclsExamples DocsModel DocsSpec DocsProofs DocsProofs2 DocsProofs3 DocsProofs4.
Import ListNotations.
Local Open Scope string_scope.

(** Decisions. *)
Definition good_nameb (n : name) : bool := match n_words n with [] => false | _ => no_char "/" (snake n) end.
Definition good_namesb (m : model) : bool :=
  forallb (fun v => forallb (fun r => good_nameb (r_name r)) (resources v) && forallb (fun t => good_nameb (t_name t)) (types v)) (model_versions m).
Lemma good_nameb_sound n : good_nameb n = true -> good_name n.
Proof. unfold good_nameb, good_name. destruct (n_words n); [discriminate|]. intros H. split; [discriminate|]. now apply free_of_no_char. Qed.
Lemma good_namesb_sound m : good_namesb m = true -> good_names m.
Proof.
  unfold good_namesb, good_names. rewrite forallb_forall. intros H v I. apply H in I. apply andb_true_iff in I as [A B]. rewrite forallb_forall in A, B.
  split; apply Forall_forall; intros x X; apply good_nameb_sound; auto.
Qed.
Definition fitsb (s : string) : bool := forallb (fun x => N.ltb (N.of_nat (String.length x) + 5) 65536) (str_split lf s).
Lemma fitsb_sound s : fitsb s = true -> fits s.
Proof. unfold fitsb, fits. rewrite forallb_forall. intros H l x L I. rewrite (lines_unique _ _ L) in I. apply N.ltb_lt. now apply H. Qed.
Lemma all_fit l : forallb fitsb l = true -> Forall fits l.
Proof. rewrite forallb_forall. intros H. apply Forall_forall. intros x I. now apply fitsb_sound, H. Qed.

(** A model with several kinds of types, with documentation. *)
Definition ex_docs : list decl :=
  [DResource [] "Root" [RMLocator (MkLocatorDecl [] "Things" [LMTarget "Things"] "")] "The root.";
   DResource [] "Things"
     [RMMethod (MkMethodDecl [] "List" [MkParamDecl [] [DIn; DOut] "Page" (RPlain "Integer") (Some (LDInt "1")) "Index of the page. It starts with one.";
                                        MkParamDecl [] [DIn; DOut] "Size" (RPlain "Integer") (Some (LDInt "100")) "";
                                        MkParamDecl [] [DOut] "Total" (RPlain "Integer") None ""; MkParamDecl [] [DOut] "Items" (RList "Thing") None ""]
                 "Retrieves the things."); RMMethod (MkMethodDecl [] "DoIt" [] "")] "The things.";
   DClass [] "Thing" [MkMemberDecl [] false "FullName" (RPlain "String") ("Name of the" ++ newline ++ "thing. Not empty.");
                      MkMemberDecl [] false "State" (RPlain "State") ""] "A thing.";
   DEnum [] "State" [MkValueDecl [] "Ready" "It is ready. Really."; MkValueDecl [] "NotReady" "No."] "State of the thing."].

Definition docs_model (inputs : list (list service_dir)) : option model := match read inputs [] with Done (ROk m, _) => Some m | _ => None end.
Definition ex_input (ds : list decl) : list (list service_dir) := [[("svc", [("v1", [("a.model", ds)])])]].
Definition two_versions (a b : list decl) : list (list service_dir) := [[("svc", [("v1", [("a.model", a)]); ("v2", [("b.model", b)])])]].

Lemma docs_model_read inputs m : docs_model inputs = Some m -> exists rs, read inputs [] = Done (ROk m, rs).
Proof. unfold docs_model. destruct (read inputs []) as [[[m'|e] rs]| |]; try discriminate. intros [= ->]. eauto. Qed.

(** Everything that the theorems need: the model is accepted, its names are good, and the documentation is written. *)
Definition docs_check (inputs : list (list service_dir)) (f : model -> files -> bool) : bool :=
  match docs_model inputs with
  | Some m => good_namesb m && match generate_docs ex_system "out" m [] [] with (None, _, fs) => f m fs | _ => false end
  | None => false
  end.
Lemma docs_check_sound inputs f : docs_check inputs f = true ->
  exists m rs reports fs, read inputs [] = Done (ROk m, rs) /\ good_names m /\ generate_docs ex_system "out" m [] [] = (None, reports, fs) /\ f m fs = true.
Proof.
  unfold docs_check. destruct (docs_model inputs) as [m|] eqn:D; [|discriminate]. intros H. apply andb_true_iff in H as [G H]. apply docs_model_read in D as (rs & R).
  destruct (generate_docs ex_system "out" m [] []) as [[[e|] reports] fs] eqn:W; [discriminate|]. exists m, rs, reports, fs.
  split; [exact R|]. split; [now apply good_namesb_sound|]. split; [exact W|exact H].
Qed.

Definition ex_state_page : string :=
  str_join newline
    [""; "# State"; ""; "State of the thing."; ""; ""; "| Name | Summary |"; "| ---- | ------- |"; "| `not_ready` | No. |"; "| `ready` | It is ready. |"; ""; ""; "";
     "### `not_ready`"; ""; "No."; ""; "### `ready`"; ""; "It is ready. Really."; ""; ""; ""].
Definition file_is (p content : string) (fs : files) : bool := match mget p fs with Some s => String.eqb s content | None => false end.

Lemma docs_example : exists m rs reports fs, read (ex_input ex_docs) [] = Done (ROk m, rs) /\ good_names m /\
  generate_docs ex_system "out" m [] [] = (None, reports, fs) /\ NoDup (resource_names m) /\ NoDup (documented_names m) /\ 5 <= length (model_pages m) /\
  Forall (fun p => Forall fits (snd p)) (model_pages m) /\ mget "out/state_type.md" fs = Some ex_state_page.
Proof.
  destruct (docs_check_sound (ex_input ex_docs) (fun m fs => nodupb (resource_names m) && nodupb (documented_names m) && Nat.leb 5 (length (model_pages m)) &&
    forallb (fun p => forallb fitsb (snd p)) (model_pages m) && file_is "out/state_type.md" ex_state_page fs)) as (m & rs & reports & fs & R & G & W & H); [vm_compute; reflexivity|].
  exists m, rs, reports, fs. apply andb_true_iff in H as [H H5]. apply andb_true_iff in H as [H H4]. apply andb_true_iff in H as [H H3]. apply andb_true_iff in H as [H1 H2].
  repeat (split; [assumption|]). split; [now apply nodupb_spec|]. split; [now apply nodupb_spec|]. split; [now apply Nat.leb_le|]. split.
  - apply Forall_forall. intros p I. rewrite forallb_forall in H4. apply all_fit. now apply H4.
  - unfold file_is in H5. destruct (mget "out/state_type.md" fs); [|discriminate]. apply String.eqb_eq in H5. now subst.
Qed.

(** Two versions with the same type. *)
Definition ex_v1 : list decl := [ex_empty_root; DStruct [] "Thing" [] "First."].
Definition ex_v2 : list decl := [ex_empty_root; DStruct [] "Thing" [] "Second."].
Definition page_lost (page : string) (m : model) (fs : files) : bool :=
  existsb (fun p => match snd (fst p) with
    | text => String.eqb (fst (fst p)) page && forallb fitsb (snd (snd p)) && negb (file_is (page_path "out" page) (remove_tabs (text ++ newline)) fs) end)
    (combine (pages m) (model_pages m)).
Lemma combine_forall2 {A B} (R : A -> B -> Prop) l r a b : Forall2 R l r -> In (a, b) (combine l r) -> R a b /\ In b r.
Proof. intros F. induction F as [|x y l r H F IH]; intros I; [destruct I|]. destruct I as [[= -> ->]|I]; [split; [exact H|now left]|]. destruct (IH I). split; [assumption|now right]. Qed.
Lemma page_lost_sound page m fs : good_names m -> page_lost page m fs = true ->
  exists pieces, In (page, pieces) (model_pages m) /\ Forall fits pieces /\ forall content, mget (page_path "out" page) fs = Some content -> ~ shows pieces content.
Proof.
  intros G H. unfold page_lost in H. apply existsb_exists in H as ([[n text] [n' pieces]] & I & H). cbn [fst snd] in H.
  destruct (combine_forall2 _ _ _ _ _ (pages_spelled m G) I) as ((E & l & E' & S) & J). cbn [fst snd] in *. apply andb_true_iff in H as [H F]. apply andb_true_iff in H as [P Q].
  apply String.eqb_eq in P. subst n n'. exists pieces. split; [exact J|]. apply all_fit in Q. split; [exact Q|]. intros content M T. unfold file_is in F. rewrite M in F.
  apply negb_true_iff in F. apply String.eqb_neq in F. apply F. apply (shows_unique pieces); [exact T|]. subst pieces. inversion Q; subst. now apply spelled_shown.
Qed.

Lemma lost_example : exists m rs reports fs page pieces, read (two_versions ex_v1 ex_v2) [] = Done (ROk m, rs) /\ good_names m /\
  generate_docs ex_system "out" m [] [] = (None, reports, fs) /\ In (page, pieces) (model_pages m) /\ Forall fits pieces /\
  forall content, mget (page_path "out" page) fs = Some content -> ~ shows pieces content.
Proof.
  destruct (docs_check_sound (two_versions ex_v1 ex_v2) (page_lost "thing_type")) as (m & rs & reports & fs & R & G & W & H); [vm_compute; reflexivity|].
  destruct (page_lost_sound _ _ _ G H) as (pieces & P). exists m, rs, reports, fs, "thing_type", pieces. tauto.
Qed.
Lemma two_example : exists m rs, read (two_versions ex_v1 ex_v2) [] = Done (ROk m, rs) /\ 2 <= length (model_versions m).
Proof.
  destruct (docs_check_sound (two_versions ex_v1 ex_v2) (fun m _ => Nat.leb 2 (length (model_versions m)))) as (m & rs & reports & fs & R & G & W & H); [vm_compute; reflexivity|].
  exists m, rs. split; [exact R|]. now apply Nat.leb_le.
Qed.

(** Links to files that don't exist. *)
Definition dead_link (m : model) (fs : files) : bool :=
  existsb (fun v => existsb (fun t => negb (has_page t) && match mget (page_path "out" (snake (t_name t) ++ "_type")) fs with Some _ => false | None => true end) (types v)) (model_versions m).
Lemma in_links {A} (l : A -> string) items m v x : In v (model_versions m) -> In x (items v) -> In (l x) (links l items m).
Proof.
  intros I X. apply in_flat_map in I as (s & Is & Iv). unfold links. right. apply in_flat_map. exists s. split; [exact Is|]. right. apply in_or_app. left.
  apply in_flat_map. exists v. split; [exact Iv|]. right. apply in_or_app. left. apply in_flat_map. exists x. split; [exact X|]. now left.
Qed.
Lemma type_linked m v t : In v (model_versions m) -> In t (types v) -> In (link (t_name t) "type") (index_page m).
Proof.
  intros I T. unfold index_page. apply in_or_app. right. apply in_or_app. right. apply in_or_app. right. apply in_or_app. left.
  exact (in_links (fun t => link (t_name t) "type") types m v t I T).
Qed.
Lemma resource_linked m v r : In v (model_versions m) -> In r (resources v) -> In (link (r_name r) "resource") (index_page m).
Proof.
  intros I T. unfold index_page. apply in_or_app. right. apply in_or_app. left. exact (in_links (fun t => link (r_name t) "resource") resources m v r I T).
Qed.
Lemma dead_example : exists m rs reports fs t, read (ex_input ex_docs) [] = Done (ROk m, rs) /\ good_names m /\ generate_docs ex_system "out" m [] [] = (None, reports, fs) /\
  In (link (t_name t) "type") (index_page m) /\ mget (page_path "out" (snake (t_name t) ++ "_type")) fs = None.
Proof.
  destruct (docs_check_sound (ex_input ex_docs) dead_link) as (m & rs & reports & fs & R & G & W & H); [vm_compute; reflexivity|].
  apply existsb_exists in H as (v & I & H). apply existsb_exists in H as (t & T & H). apply andb_true_iff in H as [_ H]. exists m, rs, reports, fs, t.
  repeat (split; [assumption|]). split; [exact (type_linked m v t I T)|]. now destruct (mget _ fs).
Qed.

(** A class without attributes, an attribute that is renamed, and a summary with two lines. *)
Definition ex_bare_class : list decl := [ex_empty_root; DClass [] "Thing" [] ""].
Definition ex_renamed : list decl := [ex_empty_root; DStruct [] "Thing" [MkMemberDecl [MkAnnotationDecl "json" [("name", LDString """other""" (Some "other"))]] false "MyName" (RPlain "String") ""] ""].
Definition ex_lines : list decl := [ex_empty_root; DStruct [] "Thing" [MkMemberDecl [] false "MyName" (RPlain "String") ("One" ++ newline ++ "two")] ""].
Lemma bare_example : exists v t, accepted ex_bare_class v /\ In t (types v) /\ t_kind t = ClassType /\ struct_rows t = [].
Proof.
  destruct (in_type ex_bare_class "thing" (fun t => is_class t && match struct_rows t with [] => true | _ => false end)) as (v & t & A & I & H); [vm_compute; reflexivity|].
  exists v, t. apply andb_true_iff in H as [H1 H2]. repeat (split; [assumption|]). split; [|now destruct (struct_rows t)]. unfold is_class in H1. now destruct (t_kind t).
Qed.
Lemma renamed_example : exists v t a, accepted ex_renamed v /\ In t (types v) /\ has_page t = true /\ In a (t_attrs t) /\ snake (a_name a) <> attribute_name a.
Proof.
  destruct (in_type ex_renamed "thing" (fun t => has_page t && existsb (fun a => negb (String.eqb (snake (a_name a)) (attribute_name a))) (t_attrs t))) as (v & t & A & I & H); [vm_compute; reflexivity|].
  apply andb_true_iff in H as [P H]. apply existsb_exists in H as (a & J & H). exists v, t, a. repeat (split; [assumption|]). apply negb_true_iff in H. now apply String.eqb_neq.
Qed.
Lemma broken_example : exists v t x, accepted ex_lines v /\ In t (types v) /\ has_page t = true /\ In x (struct_rows t) /\ ~ is_line (row x).
Proof.
  destruct (in_type ex_lines "thing" (fun t => has_page t && existsb (fun x => negb (no_char lf (row x))) (struct_rows t))) as (v & t & A & I & H); [vm_compute; reflexivity|].
  apply andb_true_iff in H as [P H]. apply existsb_exists in H as (x & J & H). exists v, t, x. repeat (split; [assumption|]). apply negb_true_iff in H.
  intros L. apply is_line_char in L. congruence.
Qed.
