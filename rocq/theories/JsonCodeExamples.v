(** Examples for the properties of the code that reads and writes JSON documents. *)
From Coq Require Import Ascii String Bool Arith ZArith List.
From Verif Require Import GoStrings GoStringsProofs GoMap GoMapProofs NamesModel NamesProofs ConceptsModel BindingModel GoNamesModel ReporterModel ReaderModel ReaderSpec
  ChecksModel ChecksSpec ChecksProofs2 ReaderExamples DeclsModel DeclsSpec DeclsExamples OpenapiProofs5 GoTypesModel JsonCodeModel JsonModel JsonSpec JsonExamples ObjectsModel ObjectsSpec ObjectsExamples GoTypesSpec GoTypesExamples
  JsonCodeSpec.
Import ListNotations.
Local Open Scope string_scope.

(** * Decisions *)

Definition type_readyb (v : version) (t : typ) : bool :=
  Nat.leb (slots t) 63 && taggedb t && negb (kind_eqb (t_kind t) StructType && Nat.eqb (length (t_attrs t)) 0) &&
  forallb (fun a => acceptableb v (a_type a) (a_link a)) (t_attrs t).
Lemma type_readyb_sound v t : type_readyb v t = true -> type_ready v t.
Proof.
  unfold type_readyb. rewrite !andb_true_iff. intros [[[H1 H2] H3] H4]. split; [now apply Nat.leb_le in H1|]. split; [now apply taggedb_sound|]. split.
  - intros K E. rewrite K, E in H3. discriminate.
  - rewrite forallb_forall in H4. intros a I. now apply acceptableb_sound, H4.
Qed.
Definition element_existsb (v : version) (t : typ) : bool := match t_element t with Some e => match mget e (v_types v) with Some _ => true | None => false end | None => false end.
Definition method_readyb (v : version) (m : method) : bool :=
  forallb (fun p => acceptableb v (p_type p) false && negb (existsb (String.eqb (go_private (p_name p))) ["err"; "status"])) (m_params m) &&
  nodupb (map (fun p => go_private (p_name p)) (m_params m)) && nodupb ("items" :: map body_parameter_name (filter (fun p => negb (is_items m p)) (response_params m))) &&
  nodupb (map body_parameter_name (response_params m)).
Definition json_readyb (v : version) : bool :=
  nodupb (mkeys (v_types v)) && forallb (fun t => match t_kind t with ClassType | StructType => type_readyb v t | ListType => element_existsb v t | _ => true end) (types v) &&
  forallb (fun r => forallb (method_readyb v) (r_methods r)) (resources v).

(** The methods have been accepted by the checks of the reader. *)
Lemma json_readyb_sound ds v : accepted ds v -> NoDup (mkeys (v_resources v)) -> json_readyb v = true -> json_ready v.
Proof.
  intros (m & rs & s & R & M & S) ND H. unfold json_readyb in H. rewrite !andb_true_iff in H. destruct H as [[H1 H2] H3]. rewrite forallb_forall in H2, H3.
  split; [now apply nodupb_sound|]. split; [|split].
  - intros t T K. specialize (H2 t T). destruct K as [K|K]; rewrite K in H2; now apply type_readyb_sound.
  - intros t T K. specialize (H2 t T). rewrite K in H2. unfold element_existsb in H2. destruct (t_element t) as [e|]; [|discriminate]. destruct (mget e (v_types v)) as [te|] eqn:G; [|discriminate]. eauto.
  - intros r x I J. specialize (H3 r I). rewrite forallb_forall in H3. specialize (H3 x J). unfold method_readyb in H3. rewrite !andb_true_iff in H3. destruct H3 as [[[A B] C] D].
    assert (exists k, mget k (v_resources v) = Some r) as (k & G).
    { unfold resources, mvals in I. apply sort_in in I. apply in_map_iff in I as ((k & y) & <- & I). exists k. now apply mget_in_iff. }
    destruct (returned_methods _ _ _ _ _ _ _ _ _ R M S G J) as (_ & ACC). split; [exact ACC|]. rewrite forallb_forall in A. split.
    { intros p P. specialize (A p P). apply andb_true_iff in A as [A E]. split; [now apply acceptableb_sound|]. apply existsb_in. now apply negb_true_iff. }
    split; [intros _; now apply nodupb_sound|]. split; [intros _; now apply nodupb_sound|intros _; now apply nodupb_sound].
Qed.

(** * Examples *)

(** A class with attributes of all the kinds, and methods of all the kinds. *)
Definition paging : list param_decl :=
  [par [DIn; DOut] "Page" (RPlain "Integer") (Some (LDInt "1")); par [DIn; DOut] "Size" (RPlain "Integer") (Some (LDInt "100")); par [DOut] "Total" (RPlain "Integer") None].
Definition ex_code : list decl :=
  [DResource [] "Root" [RMLocator (MkLocatorDecl [] "Machines" [LMTarget "Machines"] "")] "";
   DResource [] "Machines"
     (RMLocator (MkLocatorDecl [] "Machine" [LMVariable "ID"; LMTarget "Machine"] "") :: map RMMethod
        [MkMethodDecl [] "List" (paging ++ [par [DIn] "Filter" (RPlain "String") None; par [DOut] "Items" (RList "Machine") None]) "";
         MkMethodDecl [] "Search" (paging ++ [par [DIn] "Body" (RPlain "Node") None; par [DOut] "Items" (RList "String") None]) "";
         MkMethodDecl [] "Add" [par [DIn; DOut] "Body" (RPlain "Machine") None; par [DIn] "Dry" (RPlain "Boolean") None] "";
         MkMethodDecl [] "Post" [par [DIn] "Request" (RPlain "Node") None; par [DOut] "Response" (RPlain "Machine") None] "";
         MkMethodDecl [] "Start" (par [DIn] "Data" (RPlain "Interface") None :: par [DOut] "Labels" (RMap "String" "String") None :: kinds_of_param [DIn; DOut]) "";
         MkMethodDecl [] "Stop" [] ""]) "";
   DResource [] "Machine"
     (map RMMethod
        [MkMethodDecl [] "Get" [par [DOut] "Body" (RPlain "Machine") None] ""; MkMethodDecl [] "Update" [par [DIn; DOut] "Body" (RPlain "Machine") None] "";
         MkMethodDecl [] "Delete" [] ""]) "";
   DClass [] "Empty" [] ""; ex_machine; ex_node; ex_state].

Definition count_functions (v : version) : nat := match json_code go_package v with Done (fs, []) => length fs | _ => 0 end.
Lemma code_example : exists v, accepted ex_code v /\ package_path go_package /\ standard v /\ named_well v /\ json_ready v /\
  count_functions v = 74 /\ forall ws, In ws [["list"]; ["search"]; ["add"]; ["post"]; ["get"]; ["update"]; ["delete"]; ["start"]] -> exists r m, In r (resources v) /\ In m (r_methods r) /\ called ws (m_name m).
Proof.
  assert (H : decide_read ex_code (fun v => readyb v && json_readyb v && nodupb (mkeys (v_resources v)) && Nat.eqb (count_functions v) 74 &&
    forallb (fun ws => existsb (fun r => existsb (fun m => words_equal (map (fun s => MkWord s false) ws) (n_words (m_name m))) (r_methods r)) (resources v))
      [["list"]; ["search"]; ["add"]; ["post"]; ["get"]; ["update"]; ["delete"]; ["start"]]) = true) by (vm_compute; reflexivity).
  destruct (decide_read_sound _ _ H) as (v & A & C). clear H. rewrite !andb_true_iff in C. destruct C as [[[[C1 C2] C3] C4] C5]. destruct (readyb_sound v C1) as (S & N).
  exists v. split; [exact A|]. split; [exact go_package_path|]. split; [exact S|]. split; [exact N|]. split; [apply (json_readyb_sound ex_code); auto; now apply nodupb_sound|].
  split; [now apply Nat.eqb_eq|]. intros ws I. rewrite forallb_forall in C5. specialize (C5 ws I). apply existsb_exists in C5 as (r & R & E). apply existsb_exists in E as (m & M & E).
  exists r, m. split; [exact R|]. split; [exact M|]. unfold called. symmetry. now apply words_equal_spec.
Qed.

(** A struct without attributes. *)
Definition ex_nothing : list decl := [ex_empty_root; DStruct [] "Nothing" [] ""].
Lemma nothing_example : exists v k t, accepted ex_nothing v /\ ready v /\ mget k (v_types v) = Some t /\ t_kind t = StructType /\ t_attrs t = [].
Proof.
  assert (H : decide_read ex_nothing (fun v => readyb v && match mget "nothing" (v_types v) with Some t => kind_eqb (t_kind t) StructType && Nat.eqb (length (t_attrs t)) 0 | None => false end) = true) by (vm_compute; reflexivity).
  destruct (decide_read_sound _ _ H) as (v & A & C). clear H. apply andb_true_iff in C as [C D]. destruct (mget "nothing" (v_types v)) as [t|] eqn:G; [|discriminate].
  exists v, "nothing", t. split; [exact A|]. split; [now apply readyb_sound|]. split; [exact G|]. apply andb_true_iff in D as [D E].
  split; [destruct (t_kind t); try discriminate; reflexivity|]. destruct (t_attrs t); [reflexivity|discriminate].
Qed.
