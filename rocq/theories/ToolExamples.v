(** Examples used to show that the hypotheses of the theorems about the directories and the commands can be satisfied. *)
From Coq Require Import Ascii String Bool Arith ZArith Lia List Permutation Sorted.
From Verif Require Import GoStrings GoMap GoMapProofs NamesSpec ConceptsModel ReporterModel ReaderModel ReaderSpec GoNamesModel SyntaxModel SyntaxExamples BufferModel BufferSpec BufferProofs BufferExamples ChecksModel
  OpenapiModel DocsModel ToolModel ToolSpec ToolProofs ToolProofs2.
Import ListNotations.
Local Open Scope string_scope.

Definition root_text : string := text ["resource Root {"; "  locator Clusters {"; "    target Clusters"; "  }"; "}"].
Definition clusters_text : string := text
  ["class Cluster {"; "  Name String"; "}"; ""; "resource Clusters {"; "  method List {"; "    in out Page Integer = 1"; "    in out Size Integer = 100"; "    out Total Integer"; "    out Items []Cluster"; "  }"; "}"].
Definition readme_text : string := text ["class of clusters"].


(** A parser that only says that there is an error. *)
Definition ex_recover (s : string) : list report * outcome (list decl) := ([err "Line 1, column 0: mismatched input"], Done []).
Lemma ex_reports_syntax : reports_syntax ex_recover.
Proof. intros s _. cbn. rewrite no_count, error_count_err. discriminate. Qed.

(** A directory with two files, and other things that are ignored. *)
Definition ex_version (more : list (string * node)) : node :=
  Directory (inl (more ++ [("root.model", Regular (inl root_text)); ("old", Directory (inl [("bad.model", Regular (inl readme_text))])); ("clusters.model", Regular (inl clusters_text))])%list).
Definition ex_tree (more : list (string * node)) : node :=
  Directory (inl [("clusters_mgmt", Directory (inl [("v1", ex_version more); ("OWNERS", Regular (inr "permission denied"))])); ("README.md", Regular (inl readme_text))]).
Definition ex_lookup (more : list (string * node)) (p : string) : found := if String.eqb p "model" then Found (ex_tree more) else Missing.
Definition ex_directories : string -> found := ex_lookup [].
Definition ex_with_readme : string -> found := ex_lookup [("README.md", Regular (inl readme_text))].
Definition ex_shuffled (p : string) : found :=
  if String.eqb p "model" then
    Found (Directory (inl [("README.md", Regular (inl readme_text)); ("clusters_mgmt", Directory (inl [("OWNERS", Regular (inr "permission denied"));
      ("v1", Directory (inl [("clusters.model", Regular (inl clusters_text)); ("root.model", Regular (inl root_text)); ("old", Directory (inl [("bad.model", Regular (inl readme_text))]))]))]))]))
  else Missing.

Fixpoint distinctb (l : list string) : bool := match l with [] => true | x :: l => negb (existsb (String.eqb x) l) && distinctb l end.
Lemma distinctb_sound l : distinctb l = true -> NoDup l.
Proof.
  induction l as [|x l IH]; intros H; constructor; cbn [distinctb] in H; apply andb_true_iff in H as [H1 H2]; [|auto]. intros I. apply negb_true_iff in H1.
  assert (E : existsb (String.eqb x) l = true) by (apply existsb_exists; exists x; split; [exact I|apply String.eqb_refl]). congruence.
Qed.
Fixpoint namedb (n : node) : bool :=
  match n with
  | Directory (inl l) => distinctb (map fst l) && (fix go l := match l with [] => true | (_, n) :: l => namedb n && go l end) l
  | _ => true
  end.
Lemma namedb_sound : forall n, namedb n = true -> different_names n.
Proof.
  fix IH 1. intros [c|[l|e]|] H; try constructor; cbn in H; apply andb_true_iff in H as [H1 H2].
  - now apply distinctb_sound.
  - clear H1. revert H2. induction l as [|[x n] l IHl]; intros H2 name m I; [destruct I|]. apply andb_true_iff in H2 as [H H2].
    destruct I as [E|I]; [injection E as _ <-; now apply IH|]. exact (IHl H2 name m I).
Qed.

Lemma ex_lookup_proper more : namedb (ex_tree more) = true -> proper (ex_lookup more).
Proof.
  intros H p n. unfold ex_lookup. destruct (String.eqb p "model"); [|discriminate]. intros E. injection E as <-. now apply namedb_sound.
Qed.
Lemma ex_proper : proper ex_directories.
Proof. apply ex_lookup_proper. vm_compute. reflexivity. Qed.
Lemma ex_readme_proper : proper ex_with_readme.
Proof. apply ex_lookup_proper. vm_compute. reflexivity. Qed.

Definition accepts (r : outcome (read_result * list report)) : option (model * list report) := match r with Done (ROk m, rs) => Some (m, rs) | _ => None end.
Lemma accepts_sound r m rs : accepts r = Some (m, rs) -> r = Done (ROk m, rs).
Proof. destruct r as [[[x|e] l]| |]; cbn; intros H; try discriminate. congruence. Qed.

Definition interesting (m : model) : bool :=
  match m with [(_, s)] => match s_versions s with [(_, v)] => mhas "cluster" (v_types v) && mhas "cluster_list" (v_types v) && Nat.eqb (length (v_resources v)) 2 | _ => false end | _ => false end.

Lemma ex_accepts : match accepts (read_paths ex_recover ex_directories ["model"] []) with Some (m, _) => interesting m | None => false end = true.
Proof. vm_compute. reflexivity. Qed.

Lemma accepted_of r (Q : model -> bool) : match accepts r with Some (m, _) => Q m | None => false end = true -> exists m rs, r = Done (ROk m, rs) /\ Q m = true.
Proof. destruct (accepts r) as [[m rs]|] eqn:E; [|discriminate]. intros H. exists m, rs. split; [now apply accepts_sound|exact H]. Qed.

Lemma ex_accepted : exists m, accepted ex_directories ["model"] m /\ interesting m = true.
Proof.
  destruct (accepted_of (read_paths ex_recover ex_directories ["model"] []) interesting ex_accepts) as (m & rs & E & I). exists m. split; [|exact I].
  exact (read_accepted ex_recover ex_directories ex_reports_syntax ["model"] m rs ex_proper E).
Qed.

(** With a file that isn't in the language, whatever its name is, the model isn't accepted. *)
Lemma readme_fails : load_text readme_text = LoadFails.
Proof. vm_compute. reflexivity. Qed.

Lemma ex_rejected m : ~ accepted ex_with_readme ["model"] m.
Proof.
  intros A. destruct (accepted_files _ _ _ "model" A (or_introl eq_refl)) as (ss & E & S). unfold ex_with_readme, ex_lookup in E. rewrite String.eqb_refl in E.
  injection E as <-. destruct (S _ _ (or_introl eq_refl)) as (vs & Ev & V). injection Ev as <-. destruct (V _ _ (or_introl eq_refl)) as (fs & Ef & F). injection Ef as <-.
  destruct (F _ _ (or_introl eq_refl)) as (t & ds & Et & (rs & ig & D & _)). injection Et as <-. rewrite readme_fails in D. discriminate.
Qed.

(** The same directories with the entries in another order. *)
Lemma ex_same : same_directories ex_directories ex_shuffled.
Proof.
  intros p. unfold ex_directories, ex_lookup, ex_shuffled. destruct (String.eqb p "model"); [right|left; reflexivity].
  eexists. eexists. split; [reflexivity|]. split; [reflexivity|]. unfold ex_tree, ex_version. cbn [app].
  eapply sn_directory; [apply perm_swap|]. apply Forall2_cons; [split; [reflexivity|constructor]|]. apply Forall2_cons; [|constructor]. split; [reflexivity|]. cbn [snd].
  eapply sn_directory; [apply perm_swap|]. apply Forall2_cons; [split; [reflexivity|constructor]|]. apply Forall2_cons; [|constructor]. split; [reflexivity|]. cbn [snd].
  eapply sn_directory; [eapply perm_trans; [apply perm_skip, perm_swap|apply perm_swap]|].
  repeat (apply Forall2_cons; [split; [reflexivity|]; cbn [snd]; try constructor|]); [|apply Forall2_nil].
  apply (sn_directory _ _ _ (Permutation_refl _)). apply Forall2_cons; [split; [reflexivity|constructor]|]. constructor.
Qed.

(** * The commands *)

Definition exit_code (e : ending) : option nat := match e with Exit c _ _ => Some c | _ => None end.
Definition files_after (e : ending) : files := match e with Exit _ _ fs => fs | _ => [] end.

Lemma ex_docs_command : exit_code (docs_command ex_recover ex_directories ex_system ["model"] "out" []) = Some 0%nat /\
  mhas "out/cluster_type.md" (files_after (docs_command ex_recover ex_directories ex_system ["model"] "out" [])) = true.
Proof. split; vm_compute; reflexivity. Qed.
Lemma ex_check_command : exit_code (check_command ex_recover ex_directories ["model"] []) = Some 0%nat /\ exit_code (check_command ex_recover ex_with_readme ["model"] []) = Some 1%nat /\
  exit_code (check_command ex_recover ex_directories [] []) = Some 1%nat.
Proof. repeat split; vm_compute; reflexivity. Qed.
Lemma ex_openapi_command : exit_code (openapi_command ex_recover ex_directories ex_system 20 ["model"] "out" []) = Some 0%nat /\
  map fst (files_after (openapi_command ex_recover ex_directories ex_system 20 ["model"] "out" [])) = ["out/clusters_mgmt/v1/openapi.json"].
Proof. split; vm_compute; reflexivity. Qed.

(** Generators that write a file each. *)
Definition ex_generate (g : go_generator) (base output : string) (m : model) (rs : list report) (fs : files) : option string * list report * files :=
  match g with
  | GoMetrics => (None, rs, fs)
  | GoClients => (None, rs, mset (output ++ "/clients.go") "package v1" fs)
  | _ => (None, rs, mset (output ++ "/types.go") "package v1" fs)
  end.
Definition ex_failing (g : go_generator) (base output : string) (m : model) (rs : list report) (fs : files) : option string * list report * files :=
  match g with GoClients => (Some "disk full", rs, fs) | _ => ex_generate g base output m rs fs end.
Definition ex_goimports (l : list string) (fs : files) : option string * files := (None, fs).
Definition ex_sources (output : string) (fs : files) : list string + string := inl (nodup string_dec (map fst fs)).
Lemma ex_go_command : exit_code (go_command ex_recover ex_directories ex_generate ex_sources ex_goimports ["model"] "example.com/sdk" "out" []) = Some 0%nat /\
  exit_code (go_command ex_recover ex_directories ex_failing ex_sources ex_goimports ["model"] "example.com/sdk" "out" []) = Some 1%nat /\
  (forall o f l, ex_sources o f = inl l -> NoDup l).
Proof. split; [vm_compute; reflexivity|]. split; [vm_compute; reflexivity|]. intros o f l E. injection E as <-. apply NoDup_nodup. Qed.

Lemma extension_example : exists lookup lookup' text, proper lookup /\ proper lookup' /\
  (forall p, lookup' p = lookup p \/ (lookup p = Found (ex_tree []) /\ lookup' p = Found (ex_tree [("README.md", Regular (inl text))]))) /\
  (exists m, accepted lookup ["model"] m) /\ forall m, ~ accepted lookup' ["model"] m.
Proof.
  exists ex_directories, ex_with_readme, readme_text. split; [exact ex_proper|]. split; [exact ex_readme_proper|]. split.
  - intros p. unfold ex_directories, ex_with_readme, ex_lookup. destruct (String.eqb p "model"); [right; split; reflexivity|left; reflexivity].
  - split; [|exact ex_rejected]. destruct ex_accepted as (m & A & _). exists m. exact A.
Qed.

Lemma sub_directories_example : exists files text, ex_version [] = Directory (inl files) /\ In ("old", Directory (inl [("bad.model", Regular (inl text))])) files /\
  (forall ds, ~ declares text ds) /\ exists m, accepted ex_directories ["model"] m.
Proof.
  eexists. exists readme_text. split; [reflexivity|]. split; [right; left; reflexivity|]. split.
  - intros ds (rs & ig & E & _). rewrite readme_fails in E. discriminate.
  - destruct ex_accepted as (m & A & _). exists m. exact A.
Qed.
