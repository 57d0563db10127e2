(** Examples used to show that the hypotheses of the theorems about OpenAPI specifications can be satisfied, and
    counterexamples. *)
From Coq Require Import Ascii String Bool Arith ZArith NArith Lia Permutation List.
From Verif Require Import GoStrings GoStringsProofs GoMap GoMapProofs NamesModel ConceptsModel ReporterModel ReaderModel ReaderSpec ReaderExamples ReaderProofs ReaderProofs2 ReaderProofs3 ReaderProofs4 ReaderProofs5 ReaderProofs6 ReaderProofs7 ReaderProofs8 ReaderProofs9
  BindingModel GoNamesModel ObjectsModel ObjectsSpec TextModel BufferModel BufferSpec BufferProofs BufferProofs3 BufferExamples JsonModel JsonSpec
  JsonTextModel JsonTextSpec ChecksModel ChecksSpec ChecksProofs ChecksProofs2 LoopsProofs PathsModel PathsProofs OpenapiModel OpenapiSpec OpenapiProofs
  OpenapiProofs2 OpenapiProofs3 OpenapiProofs4 OpenapiProofs5 OpenapiProofs6.
Import ListNotations.
Local Open Scope string_scope.

(** The first version of the model returned by the reader. *)
Definition first_version (inputs : list (list service_dir)) : option (model * list report * service * version) :=
  match read inputs [] with
  | Done (ROk m, rs) =>
      match m with
      | (_, s) :: _ => match s_versions s with (_, v) :: _ => Some (m, rs, s, v) | [] => None end
      | [] => None
      end
  | _ => None
  end.
Lemma first_version_sound inputs m rs s v : first_version inputs = Some (m, rs, s, v) ->
  read inputs [] = Done (ROk m, rs) /\ in_model m s /\ in_service s v.
Proof.
  unfold first_version. destruct (read inputs []) as [[[m'|e] rs']| |] eqn:E; try discriminate. destruct m' as [|[k s'] m']; [discriminate|].
  destruct (s_versions s') as [|[k' v'] l] eqn:V; [discriminate|]. intros [= <- <- <- <-]. split; [reflexivity|]. split.
  - exists k. cbn. now rewrite String.eqb_refl.
  - exists k'. rewrite V. cbn. now rewrite String.eqb_refl.
Qed.

(** The document that is built. *)
Definition built (fuel : nat) (s : service) (v : version) : option json :=
  match build (generate_spec_source fuel s v) [FArr None []] with Some [FArr None [j]] => Some j | _ => None end.
Lemma published_built sys fuel output s v reports fs j : published sys fuel output s v reports fs j -> built fuel s v = Some j.
Proof.
  intros P. destruct (published_document _ _ _ _ _ _ _ _ P) as (ps & ss & -> & B & _). unfold built. now rewrite B.
Qed.

(** The first version and its document. *)
Definition succeeded (o : outcome (option string * list report * files)) : bool := match o with Done (None, _, _) => true | _ => false end.
Lemma succeeded_true o : succeeded o = true -> exists r f, o = Done (None, r, f).
Proof. destruct o as [[[[e|] r] f]| |]; try discriminate. eauto. Qed.
Definition both (b : bool) (j : option json) : option json := if b then j else None.
Lemma both_some b j x : both b j = Some x -> b = true /\ j = Some x.
Proof. destruct b; [auto|discriminate]. Qed.
Notation written_version fuel s v := (both (succeeded (generate_spec ex_system fuel "out" s v [] [])) (built fuel s v)).
Lemma written_version_sound fuel s v j : written_version fuel s v = Some j -> published ex_system fuel "out" s v [] [] j.
Proof.
  intros H. apply both_some in H as [G B]. apply succeeded_true in G as (r & f & G).
  destruct (written_published _ _ _ _ _ _ _ _ _ G) as (j' & P). pose proof (published_built _ _ _ _ _ _ _ _ P) as B'. rewrite B in B'. injection B' as <-. exact P.
Qed.

(** Decides something about that document. *)
Definition decide_written (fuel : nat) (inputs : list (list service_dir)) (f : service -> version -> json -> bool) : bool :=
  match first_version inputs with
  | Some (_, _, s, v) => match written_version fuel s v with Some j => f s v j | None => false end
  | None => false
  end.
Lemma decide_written_sound fuel inputs f : decide_written fuel inputs f = true ->
  exists m rs s v j, read inputs [] = Done (ROk m, rs) /\ in_model m s /\ in_service s v /\ published ex_system fuel "out" s v [] [] j /\ f s v j = true.
Proof.
  unfold decide_written. destruct (first_version inputs) as [[[[m rs] s] v]|] eqn:F; [|discriminate].
  generalize (written_version_sound fuel s v). destruct (written_version fuel s v) as [j|]; intros W; [|discriminate]. intros H. exists m, rs, s, v, j.
  destruct (first_version_sound _ _ _ _ _ F) as (A & B & C). repeat (split; [assumption|]). split; [apply W; reflexivity|assumption].
Qed.

(** Reading documents. *)
Definition get (k : string) (j : json) : option json :=
  match j with JObj l => match filter (fun p => String.eqb (fst p) k) l with [(_, x)] => Some x | _ => None end | _ => None end.
Lemma filter_single {A} (f : A -> bool) l x : filter f l = [x] -> exists l1 l2, l = (l1 ++ x :: l2)%list /\ forall y, In y (l1 ++ l2)%list -> f y = false.
Proof.
  induction l as [|a l IH]; cbn; [discriminate|]. destruct (f a) eqn:E.
  - intros [= -> H]. exists [], l. split; [reflexivity|]. cbn. intros y I. destruct (f y) eqn:F; [|reflexivity].
    assert (In y (filter f l)) as J by (apply filter_In; auto). rewrite H in J. destruct J.
  - intros H. destruct (IH H) as (l1 & l2 & -> & N). exists (a :: l1), l2. split; [reflexivity|]. cbn. intros y [<-|I]; auto.
Qed.
Lemma get_sound k j x : get k j = Some x -> field j k x.
Proof.
  unfold get. destruct j as [| | | | | l]; try discriminate. destruct (filter _ l) as [|[k' y] [|]] eqn:F; try discriminate. intros [= ->].
  assert (In (k', x) (filter (fun p => String.eqb (fst p) k) l)) as I by (rewrite F; now left). apply filter_In in I as [_ E]. cbn in E. apply String.eqb_eq in E. subst k'.
  destruct (filter_single _ _ _ F) as (l1 & l2 & -> & N). exists l1, l2. split; [reflexivity|]. intros J. apply in_map_iff in J as ([a b] & J1 & J2). cbn in J1. subst a.
  apply N in J2. cbn in J2. now rewrite String.eqb_refl in J2.
Qed.
Fixpoint get_path (ks : list string) (j : json) : option json :=
  match ks with [] => Some j | k :: ks => match get k j with Some x => get_path ks x | None => None end end.
Lemma get_path_sound ks : forall j x, get_path ks j = Some x -> at_path j ks x.
Proof.
  induction ks as [|k ks IH]; cbn; intros j x.
  - intros [= ->]. constructor.
  - destruct (get k j) as [y|] eqn:G; [|discriminate]. intros H. apply at_member with y; [now apply get_sound|auto].
Qed.
Lemma field_fun j k x y : field j k x -> field j k y -> x = y.
Proof.
  intros (l1 & l2 & -> & N) (a & b & E & N'). injection E as E.
  assert (forall l1 l2 a b : list (string * json), (l1 ++ (k, x) :: l2 = a ++ (k, y) :: b)%list -> ~ In k (map fst (l1 ++ l2)%list) -> ~ In k (map fst (a ++ b)%list) -> x = y) as H.
  { clear. induction l1 as [|p l1 IH]; intros l2 [|q a] b E N N'; cbn in *.
    - now injection E.
    - injection E as <- E. exfalso. apply N'. now left.
    - injection E as -> E. exfalso. apply N. now left.
    - injection E as <- E. apply (IH l2 a b E); [intros I; apply N; now right|intros I; apply N'; now right]. }
  eapply H; eauto.
Qed.

(** A name that occurs twice. *)
Fixpoint nodupb (l : list string) : bool := match l with [] => true | x :: l => negb (existsb (String.eqb x) l) && nodupb l end.
Lemma nodupb_false l : nodupb l = false -> ~ NoDup l.
Proof.
  induction l as [|x l IH]; cbn; [discriminate|]. intros H N. inversion N as [|? ? N1 N2]; subst. apply andb_false_iff in H as [H|H]; [|now apply IH].
  apply negb_false_iff in H. apply existsb_exists in H as (y & I & E). apply String.eqb_eq in E. subst y. contradiction.
Qed.
Definition names_of (j : json) : list string := match j with JObj l => map fst l | _ => [] end.
Lemma names_repeated j : nodupb (names_of j) = false -> exists l, j = JObj l /\ ~ NoDup (map fst l).
Proof.
  destruct j as [| | | | | l]; try discriminate. intros H. exists l. split; [reflexivity|]. now apply nodupb_false.
Qed.

Definition single (ds : list decl) : list (list service_dir) := [[("svc", [("v1", [("a.model", ds)])])]].
Definition has_repeated (ks : list string) (_ : service) (_ : version) (j : json) : bool :=
  match get_path ks j with Some x => negb (nodupb (names_of x)) | None => false end.
Definition repeated_name (j : json) (ks : list string) : Prop := exists l, at_path j ks (JObj l) /\ ~ NoDup (map fst l).
Lemma has_repeated_sound ks s v j : has_repeated ks s v j = true -> repeated_name j ks.
Proof.
  unfold has_repeated. destruct (get_path ks j) as [x|] eqn:G; [|discriminate]. intros H. apply negb_true_iff in H.
  destruct (names_repeated _ H) as (l & -> & N). exists l. split; [now apply get_path_sound|assumption].
Qed.
Lemma repeated_example fuel inputs ks : decide_written fuel inputs (has_repeated ks) = true ->
  exists m rs s v j, read inputs [] = Done (ROk m, rs) /\ in_model m s /\ in_service s v /\ published ex_system fuel "out" s v [] [] j /\ repeated_name j ks.
Proof.
  intros H. destruct (decide_written_sound _ _ _ H) as (m & rs & s & v & j & A & B & C & D & E). clear H. exists m, rs, s, v, j.
  repeat (split; [assumption|]). now apply has_repeated_sound in E.
Qed.

(** The root has a method: its path is the one of the metadata. *)
Definition ex_root_method : list decl :=
  [DResource [] "Root" [RMMethod (MkMethodDecl [] "Get" [par [DOut] "Body" (RPlain "Node") None] "")] ""; ex_node].
Lemma root_method_repeated : exists inputs fuel m rs s v j,
  read inputs [] = Done (ROk m, rs) /\ in_model m s /\ in_service s v /\ published ex_system fuel "out" s v [] [] j /\ repeated_name j ["paths"].
Proof. exists (single ex_root_method), 20. apply repeated_example. vm_compute. reflexivity. Qed.

(** A resource with two methods that use the same verb. *)
Definition ex_same_verb : list decl :=
  [DResource [] "Root" [RMLocator (MkLocatorDecl [] "Nodes" [LMTarget "Nodes"] "")] "";
   DResource [] "Nodes"
     [RMMethod (MkMethodDecl [] "Add" [par [DIn; DOut] "Body" (RPlain "Node") None] "");
      RMMethod (MkMethodDecl [] "Post" [par [DIn] "Request" (RPlain "Node") None; par [DOut] "Response" (RPlain "Node") None] "")] ""; ex_node].
Lemma same_verb_repeated : exists inputs fuel m rs s v j,
  read inputs [] = Done (ROk m, rs) /\ in_model m s /\ in_service s v /\ published ex_system fuel "out" s v [] [] j /\
  repeated_name j ["paths"; "/api/svc/v1/nodes"].
Proof. exists (single ex_same_verb), 20. apply repeated_example. vm_compute. reflexivity. Qed.

(** A type that has the name of a predefined schema. *)
Definition ex_error_type : list decl := [ex_empty_root; DStruct [] "Error" [attr "Text" (RPlain "String")] ""].
Lemma error_type_repeated : exists inputs fuel m rs s v j,
  read inputs [] = Done (ROk m, rs) /\ in_model m s /\ in_service s v /\ published ex_system fuel "out" s v [] [] j /\
  repeated_name j ["components"; "schemas"].
Proof. exists (single ex_error_type), 20. apply repeated_example. vm_compute. reflexivity. Qed.

(** Two locators with the same segment: the methods of one of the resources aren't described. *)
Definition ex_same_segment : list decl :=
  [DResource [] "Root"
     [RMLocator (MkLocatorDecl [] "Items" [LMTarget "First"] "");
      RMLocator (MkLocatorDecl [MkAnnotationDecl "http" [("name", LDString """items""" (Some "items"))]] "Things" [LMTarget "Second"] "")] "";
   DResource [] "First" [RMMethod (MkMethodDecl [] "Delete" [] "")] "";
   DResource [] "Second" [RMMethod (MkMethodDecl [] "Get" [par [DOut] "Body" (RPlain "Node") None] "")] ""; ex_node].
Definition has_operation (ps : json) (t verb : string) : bool :=
  match ps with
  | JObj l => existsb (fun p => String.eqb (fst p) t && match snd p with JObj ms => existsb (fun q => String.eqb (fst q) verb) ms | _ => false end) l
  | _ => false
  end.
Lemma has_operation_complete ps t verb op : operation ps t verb op -> has_operation ps t verb = true.
Proof.
  intros (l & ms & -> & I & J). cbn. apply existsb_exists. exists (t, JObj ms). split; [assumption|]. cbn. rewrite String.eqb_refl. cbn.
  apply existsb_exists. exists (verb, op). split; [assumption|]. apply String.eqb_refl.
Qed.
Definition first_step (v : version) (l : locator) : option resource :=
  match l_target l with Some k => mget k (v_resources v) | None => None end.
Definition undescribed (s : service) (v : version) (j : json) : bool :=
  match root v, get "paths" j with
  | Some r, Some ps =>
      existsb (fun l => match first_step v l with
        | Some r' => existsb (fun m => negb (has_operation ps (template s v [l] m) (str_lower (http_method m)))) (r_methods r')
        | None => false
        end) (r_locators r)
  | _, _ => false
  end.
Lemma undescribed_sound s v j : undescribed s v j = true ->
  exists path r m, leads v path r /\ In m (r_methods r) /\
    forall ps op, field j "paths" ps -> ~ operation ps (template s v path m) (str_lower (http_method m)) op.
Proof.
  unfold undescribed. destruct (root v) as [r|] eqn:R; [|discriminate]. destruct (get "paths" j) as [ps|] eqn:G; [|discriminate].
  intros H. apply existsb_exists in H as (l & I & H). unfold first_step in H. destruct (l_target l) as [k|] eqn:T; [|discriminate].
  destruct (mget k (v_resources v)) as [r'|] eqn:M; [|discriminate]. apply existsb_exists in H as (m & J & H). exists [l], r', m. split; [|split; [assumption|]].
  - exists k. split; [|assumption]. apply walk_cons with k; [|apply walk_nil]. exists r. repeat split; assumption.
  - intros ps' op F O. apply get_sound in G. rewrite (field_fun _ _ _ _ F G) in O. rewrite (has_operation_complete _ _ _ _ O) in H. discriminate.
Qed.
Lemma same_segment_undescribed : exists inputs fuel m rs s v j,
  read inputs [] = Done (ROk m, rs) /\ in_model m s /\ in_service s v /\ published ex_system fuel "out" s v [] [] j /\
  exists path r x, leads v path r /\ In x (r_methods r) /\
    forall ps op, field j "paths" ps -> ~ operation ps (template s v path x) (str_lower (http_method x)) op.
Proof.
  exists (single ex_same_segment), 20. assert (H : decide_written 20 (single ex_same_segment) undescribed = true) by (vm_compute; reflexivity).
  destruct (decide_written_sound _ _ _ H) as (m & rs & s & v & j & A & B & C & D & E). clear H. exists m, rs, s, v, j. repeat (split; [assumption|]). now apply undescribed_sound.
Qed.

(** The names of the properties of bodies ignore the annotations that the client obeys. *)
Definition ex_renamed : list decl :=
  [DResource [] "Root" [RMLocator (MkLocatorDecl [] "Nodes" [LMTarget "Nodes"] "")] "";
   DResource [] "Nodes"
     [RMMethod (MkMethodDecl [] "Reboot"
        [MkParamDecl [MkAnnotationDecl "json" [("name", LDString """at""" (Some "at"))]] [DIn] "When" (RPlain "Date") None ""] "")] ""].
Definition renamed_path : list string :=
  ["paths"; "/api/svc/v1/nodes/reboot"; "post"; "requestBody"; "content"; "application/json"; "schema"; "properties"].
Definition misnamed (n : string) (ks : list string) (s : service) (v : version) (j : json) : bool :=
  match mget n (v_resources v), get_path ks j with
  | Some r, Some (JObj l) => existsb (fun m => existsb (fun p => negb (existsb (String.eqb (body_parameter_name p)) (map fst l))) (request_body_params v m)) (r_methods r)
  | _, _ => false
  end.
Lemma misnamed_sound n ks s v j : misnamed n ks s v j = true ->
  exists r x p l, mget n (v_resources v) = Some r /\ In x (r_methods r) /\ In p (request_body_params v x) /\
    at_path j ks (JObj l) /\ ~ In (body_parameter_name p) (map fst l).
Proof.
  unfold misnamed. destruct (mget n (v_resources v)) as [r|] eqn:R; [|discriminate].
  destruct (get_path ks j) as [[| | | | | l]|] eqn:G; try discriminate. intros E.
  apply existsb_exists in E as (x & I & E). apply existsb_exists in E as (p & J & E). exists r, x, p, l. repeat (split; [first [reflexivity|assumption]|]).
  split; [now apply get_path_sound|]. intros K. apply negb_true_iff in E.
  enough (existsb (String.eqb (body_parameter_name p)) (map fst l) = true) by congruence. apply existsb_exists. eexists. split; [exact K|apply String.eqb_refl].
Qed.
Lemma renamed_misnamed : exists inputs fuel m rs s v j,
  read inputs [] = Done (ROk m, rs) /\ in_model m s /\ in_service s v /\ published ex_system fuel "out" s v [] [] j /\
  exists r x p l, mget "nodes" (v_resources v) = Some r /\ In x (r_methods r) /\ In p (request_body_params v x) /\
    at_path j renamed_path (JObj l) /\ ~ In (body_parameter_name p) (map fst l).
Proof.
  exists (single ex_renamed), 20. assert (H : decide_written 20 (single ex_renamed) (misnamed "nodes" renamed_path) = true) by (vm_compute; reflexivity).
  destruct (decide_written_sound _ _ _ H) as (m & rs & s & v & j & A & B & C & D & E). clear H. exists m, rs, s, v, j. repeat (split; [assumption|]).
  exact (misnamed_sound _ _ _ _ _ E).
Qed.

(** Attributes of classes that have the names of the predefined ones are repeated. *)
Definition ex_own_id : list decl := [ex_empty_root; DClass [] "Thing" [attr "ID" (RPlain "String")] ""].
Lemma own_id_repeated : exists inputs fuel m rs s v j,
  read inputs [] = Done (ROk m, rs) /\ in_model m s /\ in_service s v /\ published ex_system fuel "out" s v [] [] j /\
  repeated_name j ["components"; "schemas"; "Thing"; "properties"].
Proof. exists (single ex_own_id), 20. apply repeated_example. vm_compute. reflexivity. Qed.

(** A model that is described correctly. *)
Definition ex_inputs : list (list service_dir) := [[("svc", [("v1", ex_files)])]].
Definition expect (ks : list string) (ns : list string) (_ : service) (_ : version) (j : json) : bool :=
  match get_path ks j with Some (JObj l) => if list_eq_dec string_dec (map fst l) ns then true else false | _ => false end.
Lemma expect_sound ks ns s v j : expect ks ns s v j = true -> exists l, at_path j ks (JObj l) /\ map fst l = ns.
Proof.
  unfold expect. destruct (get_path ks j) as [[| | | | | l]|] eqn:G; try discriminate. destruct (list_eq_dec _ _ _) as [N|]; [|discriminate].
  intros _. exists l. split; [now apply get_path_sound|exact N].
Qed.
Definition ex_templates : list string := ["/api/svc/v1"; "/api/svc/v1/clusters"; "/api/svc/v1/clusters/{cluster_id}"].
Lemma ex_published : exists m rs s v j, read ex_inputs [] = Done (ROk m, rs) /\ in_model m s /\ in_service s v /\ published ex_system 20 "out" s v [] [] j /\
  exists ps, at_path j ["paths"] (JObj ps) /\ map fst ps = ex_templates.
Proof.
  assert (H : decide_written 20 ex_inputs (expect ["paths"] ex_templates) = true) by (vm_compute; reflexivity).
  destruct (decide_written_sound _ _ _ H) as (m & rs & s & v & j & A & B & C & D & E). clear H. exists m, rs, s, v, j. repeat (split; [assumption|]).
  exact (expect_sound _ _ _ _ _ E).
Qed.
Lemma succeeds_of inputs :
  match first_version inputs with
    | Some (_, _, _, v) => forallb (fun p => negb (kind_eqb (t_kind (snd p)) UndefinedType)) (v_types v) &&
        match mget "clusters" (v_resources v), mget "root" (v_resources v) with
        | Some r, Some r0 =>
           existsb (fun m => existsb (fun p => String.eqb (p_type p) "cluster_list") (m_params m)) (r_methods r) &&
           match r_locators r0, r_locators r with
           | [l0], [l] => match l_target l0, l_target l with Some k0, Some k => String.eqb k0 "clusters" && mhas k (v_resources v) | _, _ => false end
           | _, _ => false
           end
        | _, _ => false
        end
    | None => false
    end = true ->
  exists v r, root v = Some r /\ ~ has_dead_end v /\ targets_exist v /\ ~ has_loop v /\ (forall k, used v k -> expressible v k) /\
  used v "cluster_list" /\ (exists path, length path = 2%nat /\ exists x, leads v path x).
Proof.
  intros H.
  destruct (first_version inputs) as [[[[m rs] s] v]|] eqn:F; [|discriminate]. destruct (first_version_sound _ _ _ _ _ F) as (R & M & V).
  destruct (returned_no_loops _ _ _ _ _ _ R M V) as ((r & RT) & A & B & C). exists v, r. apply andb_true_iff in H as [D H].
  destruct (mget "clusters" (v_resources v)) as [rc|] eqn:RC; [|discriminate]. destruct (mget "root" (v_resources v)) as [r0|] eqn:RR; [|discriminate].
  apply andb_true_iff in H as [H L]. destruct (r_locators r0) as [|l0 [|]] eqn:L0; try discriminate. destruct (r_locators rc) as [|l [|]] eqn:L1; try discriminate.
  destruct (l_target l0) as [k0|] eqn:T0; [|discriminate]. destruct (l_target l) as [k|] eqn:T1; [|discriminate]. apply andb_true_iff in L as [E L].
  apply String.eqb_eq in E. subst k0. unfold mhas in L. destruct (mget k (v_resources v)) as [rk|] eqn:RK; [|discriminate].
  assert (W0 : follows v "root" l0 "clusters") by (exists r0; repeat split; [assumption|rewrite L0; now left|assumption]).
  assert (W1 : follows v "clusters" l k) by (exists rc; repeat split; [assumption|rewrite L1; now left|assumption]).
  repeat (split; [assumption|]). split.
  { apply (returned_expressible _ _ _ _ _ _ R M V). intros k' t T KU. rewrite forallb_forall in D. specialize (D _ (mget_in _ _ _ T)). cbn in D. now rewrite KU in D. }
  split.
  - right. apply existsb_exists in H as (x & I & H). apply existsb_exists in H as (p & J & H). apply String.eqb_eq in H. exists [l0], rc, x, p. repeat split; auto.
    exists "clusters". split; [|assumption]. apply walk_cons with "clusters"; [assumption|apply walk_nil].
  - exists [l0; l]. split; [reflexivity|]. exists rk, k. split; [|assumption]. apply walk_cons with "clusters"; [assumption|]. apply walk_cons with k; [assumption|apply walk_nil].
Qed.
Lemma ex_succeeds : exists v r, root v = Some r /\ ~ has_dead_end v /\ targets_exist v /\ ~ has_loop v /\ (forall k, used v k -> expressible v k) /\
  used v "cluster_list" /\ (exists path, length path = 2%nat /\ exists x, leads v path x).
Proof. apply (succeeds_of ex_inputs). vm_compute. reflexivity. Qed.

(** Segments that are different. *)
Lemma nodupb_true l : nodupb l = true -> NoDup l.
Proof.
  induction l as [|x l IH]; cbn; [constructor|]. intros H. apply andb_true_iff in H as [H1 H2]. constructor; [|auto]. intros I. apply negb_true_iff in H1.
  enough (existsb (String.eqb x) l = true) by congruence. apply existsb_exists. exists x. split; [assumption|apply String.eqb_refl].
Qed.
Fixpoint no_slashb (s : string) : bool := match s with EmptyString => true | String c r => negb (Ascii.eqb c "/"%char) && no_slashb r end.
Lemma no_slashb_sound s : no_slashb s = true -> no_slash s.
Proof.
  induction s as [|c r IH]; cbn; [auto|]. intros H. apply andb_true_iff in H as [H1 H2]. split; [|auto]. intros ->. discriminate.
Qed.
Definition distinctb (v : version) : bool :=
  forallb (fun p => nodupb (map placeholder (r_locators (snd p))) && forallb (fun l => no_slashb (placeholder l)) (r_locators (snd p))) (v_resources v).
Lemma distinctb_sound v : distinctb v = true -> distinct_segments v.
Proof.
  unfold distinctb. rewrite forallb_forall. intros H path r (k & _ & M). specialize (H _ (mget_in _ _ _ M)). cbn in H. apply andb_true_iff in H as [H1 H2].
  split; [now apply nodupb_true|]. rewrite forallb_forall in H2. intros l I. apply no_slashb_sound, H2, I.
Qed.
Definition ex_distinct_check (_ : service) (v : version) (_ : json) : bool := distinctb v && Nat.eqb (length (v_resources v)) 3.
Lemma ex_distinct : exists m rs s v j, read ex_inputs [] = Done (ROk m, rs) /\ in_model m s /\ in_service s v /\ published ex_system 20 "out" s v [] [] j /\
  distinct_segments v /\ length (v_resources v) = 3%nat.
Proof.
  assert (H : decide_written 20 ex_inputs ex_distinct_check = true) by (vm_compute; reflexivity).
  destruct (decide_written_sound _ _ _ H) as (m & rs & s & v & j & A & B & C & D & E). clear H. exists m, rs, s, v, j. repeat (split; [assumption|]).
  clear A. unfold ex_distinct_check in E. apply andb_true_iff in E as [E1 E2]. split; [now apply distinctb_sound|now apply Nat.eqb_eq].
Qed.
Lemma ex_returned : exists m rs, read ex_inputs [] = Done (ROk m, rs) /\
  (forall s v k t, in_model m s -> in_service s v -> type_at k v = Some t -> t_kind t <> UndefinedType) /\ length m = 1%nat.
Proof.
  assert (H : match first_version ex_inputs with Some (m, _, _, _) => Nat.eqb (length m) 1 | None => false end = true) by (vm_compute; reflexivity).
  revert H. pose proof (fun m rs s v k t R M V => single_version_defined "svc" "v1" ex_files [] m rs s v k t R M V) as X. change [[("svc", [("v1", ex_files)])]] with ex_inputs in X.
  revert X. generalize ex_inputs. intros i X. destruct (first_version i) as [[[[m rs] s] v]|] eqn:F; [|discriminate]. intros H.
  destruct (first_version_sound _ _ _ _ _ F) as (R & M & V). exists m, rs. split; [assumption|]. split; [|now apply Nat.eqb_eq].
  intros s' v' k t M' V'. exact (X m rs s' v' k t R M' V').
Qed.
(** Errors that have already been reported. *)
Lemma ex_refused : ~ errors_in [err "bad"] 0.
Proof. intros H. inversion H; subst; congruence. Qed.

(** References that occur in a document. *)
Fixpoint refersb (r : string) (j : json) : bool :=
  match j with
  | JObj l => (fix go (l : list (string * json)) : bool :=
      match l with [] => false | (k, x) :: l => (String.eqb k "$ref" && match x with JStr s => String.eqb s r | _ => false end) || refersb r x || go l end) l
  | JArr l => (fix go (l : list json) : bool := match l with [] => false | x :: l => refersb r x || go l end) l
  | _ => false
  end.
Lemma refersb_sound r : forall j, refersb r j = true -> refers j r.
Proof.
  fix IH 1. intros [|b|n|t|l|l]; cbn; try discriminate.
  - intros H. assert (exists x, In x l /\ refers x r) as (x & I & R).
    { induction l as [|x l IHl]; [discriminate|]. apply orb_true_iff in H as [H|H]; [exists x; split; [now left|now apply IH]|].
      destruct (IHl H) as (y & I & R). exists y. split; [now right|assumption]. }
    now apply ref_item with x.
  - intros H. assert ((exists k x, In (k, x) l /\ refers x r) \/ In ("$ref", JStr r) l) as [(k & x & I & R)|I].
    { induction l as [|[k x] l IHl]; [discriminate|]. rewrite !orb_true_iff in H. destruct H as [[H|H]|H].
      - right. left. apply andb_true_iff in H as [H1 H2]. apply String.eqb_eq in H1. destruct x; try discriminate. apply String.eqb_eq in H2. now subst.
      - left. exists k, x. split; [now left|now apply IH].
      - destruct (IHl H) as [(k' & y & I & R)|I]; [left; exists k', y; split; [now right|assumption]|right; now right]. }
    + now apply ref_member with k x.
    + now apply ref_here.
Qed.
Definition ex_refers_check (_ : service) (_ : version) (j : json) : bool :=
  refersb "#/components/schemas/Cluster" j && refersb "#/components/schemas/Metadata" j.
Lemma ex_refers : exists m rs s v j, read ex_inputs [] = Done (ROk m, rs) /\ in_model m s /\ in_service s v /\ published ex_system 20 "out" s v [] [] j /\
  refers j "#/components/schemas/Cluster" /\ refers j "#/components/schemas/Metadata".
Proof.
  assert (H : decide_written 20 ex_inputs ex_refers_check = true) by (vm_compute; reflexivity).
  destruct (decide_written_sound _ _ _ H) as (m & rs & s & v & j & A & B & C & D & E). clear H. exists m, rs, s, v, j. repeat (split; [assumption|]).
  clear A. unfold ex_refers_check in E. apply andb_true_iff in E as [E1 E2]. split; now apply refersb_sound.
Qed.

(** A file system that is full. *)
Definition full_system : system := MkSystem (fun _ => None) (fun _ => Some "disk full").
Definition fails_check (i : list (list service_dir)) : bool :=
  match read i [] with
  | Done (ROk m, rs) => match run_openapi full_system 20 "out" m rs [] with Done (Some e, _, []) => String.eqb e "disk full" | _ => false end
  | _ => false
  end.
Lemma ex_fails : exists m rs e reports fs, read ex_inputs [] = Done (ROk m, rs) /\
  run_openapi full_system 20 "out" m rs [] = Done (Some e, reports, fs) /\ e = "disk full" /\ fs = [].
Proof.
  assert (H : fails_check ex_inputs = true) by (vm_compute; reflexivity). revert H. unfold fails_check. generalize ex_inputs. intros i H.
  destruct (read i []) as [[[m|] rs]| |]; try discriminate H. destruct (run_openapi full_system 20 "out" m rs []) as [[[[e|] reports] [|]]| |] eqn:R; try discriminate H.
  apply String.eqb_eq in H. exists m, rs, e, reports, []. split; [reflexivity|]. split; [exact R|]. split; [exact H|reflexivity].
Qed.
