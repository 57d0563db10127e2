(** Examples for the properties of the types of the generated Go code. *)
From Coq Require Import Ascii String Bool Arith List.
From Verif Require Import GoStrings GoStringsProofs GoMap GoMapProofs NamesModel ConceptsModel BindingModel GoNamesModel ReporterModel ReaderModel ReaderSpec
  ChecksModel ReaderExamples DeclsModel DeclsSpec DeclsExamples OpenapiProofs5 GoTypesModel ObjectsSpec ObjectsExamples GoTypesSpec.
Import ListNotations.
Local Open Scope string_scope.

Definition identifierb (n : string) : bool :=
  match n with String c r => is_upper c && forallb ident_char (list_ascii_of_string r) | EmptyString => false end.
Lemma identifierb_sound n : identifierb n = true -> identifier n.
Proof. destruct n as [|c r]; [discriminate|]. cbn [identifierb]. intros H. apply andb_true_iff in H as [U R]. rewrite forallb_forall in R. exists c, r. auto. Qed.
Definition namedb (v : version) : bool := forallb (fun t => negb (is_enum t || is_struct t) || identifierb (object_name t)) (types v).
Lemma namedb_sound v : namedb v = true -> named_well v.
Proof.
  unfold namedb. rewrite forallb_forall. intros H t T K. specialize (H t T). apply identifierb_sound.
  replace (is_enum t || is_struct t) with true in H; [exact H|]. unfold is_enum, is_struct. destruct K as [K|[K|K]]; now rewrite K.
Qed.

Definition struct_elementb (v : version) (t : typ) : bool :=
  match t_element t with Some e => match mget e (v_types v) with Some te => is_struct te | None => false end | None => false end.
Definition acceptableb (v : version) (k : key) (link : bool) : bool :=
  match mget k (v_types v) with
  | Some t =>
      match t_kind t with
      | UndefinedType => false
      | ListType => plainb v t && (negb link || struct_elementb v t)
      | MapType => plainb v t
      | _ => true
      end
  | None => false
  end.
Lemma acceptableb_sound v k link : acceptableb v k link = true -> acceptable v k link.
Proof.
  unfold acceptableb. destruct (mget k (v_types v)) as [t|] eqn:G; [|discriminate]. intros H. exists t. split; [exact G|]. split; [intros E; now rewrite E in H|]. split.
  - intros K. apply plainb_sound. cbn in K. destruct (t_kind t); try (exfalso; intuition discriminate); [now apply andb_true_iff in H as [H _]|exact H].
  - intros K ->. rewrite K in H. apply andb_true_iff in H as [_ H]. cbn [negb orb] in H. unfold struct_elementb in H.
    destruct (t_element t) as [e|]; [|discriminate]. destruct (mget e (v_types v)) as [te|] eqn:GE; [|discriminate]. exists e, te. split; [reflexivity|]. split; [exact GE|].
    unfold structural. unfold is_struct in H. destruct (t_kind te); try discriminate; auto.
Qed.

(** A class with attributes of all the kinds, and methods with parameters of all the kinds that work. *)
Definition ex_machine : decl :=
  DClass [] "Machine"
    [attr "Ready" (RPlain "Boolean"); attr "Count" (RPlain "Integer"); attr "Size" (RPlain "Long"); attr "Load" (RPlain "Float"); attr "Name" (RPlain "String");
     attr "Created" (RPlain "Date"); attr "Data" (RPlain "Interface"); attr "State" (RPlain "ClusterState"); attr "Node" (RPlain "Node");
     MkMemberDecl [] true "Parent" (RPlain "Machine") ""; attr "Tags" (RList "String"); attr "Dates" (RList "Date"); attr "States" (RList "ClusterState"); attr "Nodes" (RList "Node");
     MkMemberDecl [] true "Others" (RList "Machine") ""; attr "Labels" (RMap "String" "String"); attr "Times" (RMap "String" "Date"); attr "Parts" (RMap "String" "Node")] "".
Definition kinds_of_param (ds : list direction) : list param_decl :=
  [par ds "Ready" (RPlain "Boolean") None; par ds "Created" (RPlain "Date") None; par ds "State" (RPlain "ClusterState") None;
   par ds "Node" (RPlain "Node") None; par ds "Tags" (RList "String") None; par ds "Nodes" (RList "Node") None].
Definition ex_go : list decl :=
  [DResource [] "Root" [RMLocator (MkLocatorDecl [] "Machines" [LMTarget "Machines"] "")] "";
   DResource [] "Machines"
     (map RMMethod
        [MkMethodDecl [] "List"
           [par [DIn; DOut] "Page" (RPlain "Integer") (Some (LDInt "1")); par [DIn; DOut] "Size" (RPlain "Integer") (Some (LDInt "100"));
            par [DOut] "Total" (RPlain "Integer") None; par [DOut] "Items" (RList "Machine") None] "";
         MkMethodDecl [] "Start" (par [DIn] "Data" (RPlain "Interface") None :: kinds_of_param [DIn]) "";
         MkMethodDecl [] "Check" (par [DOut] "Labels" (RMap "String" "String") None :: par [DOut] "Parts" (RMap "String" "Node") None :: kinds_of_param [DOut]) ""]) "";
   ex_machine; ex_node; ex_state].

Definition go_package : string := "example.com/sdk/svc/v1".
Lemma go_package_path : package_path go_package.
Proof.
  exists "example.com/sdk/svc", "v1". split; [reflexivity|]. split; [discriminate|].
  intros c I. cbn in I. repeat (destruct I as [<-|I]; [split; discriminate|]). contradiction.
Qed.

Definition readyb (v : version) : bool := standardb v && namedb v.
Definition ready (v : version) : Prop := standard v /\ named_well v.
Lemma readyb_sound v : readyb v = true -> ready v.
Proof. unfold readyb. intros H. apply andb_true_iff in H as [A B]. split; [now apply standardb_sound|now apply namedb_sound]. Qed.

Definition attributesb (v : version) (t : typ) : bool := forallb (fun a => acceptableb v (a_type a) (a_link a)) (t_attrs t) && Nat.leb 18 (length (t_attrs t)).
Lemma attributes_example : exists v t, accepted ex_go v /\ ready v /\ package_path go_package /\ mget "machine" (v_types v) = Some t /\ 18 <= length (t_attrs t) /\
  forall a, In a (t_attrs t) -> acceptable v (a_type a) (a_link a).
Proof.
  assert (H : decide_read ex_go (fun v => readyb v && match mget "machine" (v_types v) with Some t => attributesb v t | None => false end) = true) by (vm_compute; reflexivity).
  destruct (decide_read_sound _ _ H) as (v & A & C). clear H. apply andb_true_iff in C as [C D]. destruct (mget "machine" (v_types v)) as [t|] eqn:G; [|discriminate].
  unfold attributesb in D. apply andb_true_iff in D as [D E]. apply Nat.leb_le in E. rewrite forallb_forall in D. exists v, t. split; [exact A|]. split; [now apply readyb_sound|].
  split; [exact go_package_path|]. split; [exact G|]. split; [exact E|]. intros a I. apply acceptableb_sound. auto.
Qed.

Definition kind_of (v : version) (k : key) (f : typ -> bool) : bool := match mget k (v_types v) with Some t => f t | None => false end.
Definition requestsb (v : version) (m : method) : bool :=
  forallb (fun p => acceptableb v (p_type p) false && negb (is_items m p) && kind_of v (p_type p) (fun t => negb (is_map t))) (request_params m).
Definition responsesb (v : version) (m : method) : bool :=
  forallb (fun p => acceptableb v (p_type p) false && kind_of v (p_type p) (fun t => negb (is_interface t) && (negb (is_items m p) || is_list t))) (response_params m).
Lemma parameters_example : exists v r, accepted ex_go v /\ ready v /\ package_path go_package /\ mget "machines" (v_resources v) = Some r /\
  7 <= length (flat_map request_params (r_methods r)) /\ 11 <= length (flat_map response_params (r_methods r)) /\
  forall m, In m (r_methods r) ->
    (forall p, In p (request_params m) -> acceptable v (p_type p) false /\ is_items m p = false /\ forall t, mget (p_type p) (v_types v) = Some t -> t_kind t <> MapType) /\
    (forall p, In p (response_params m) -> acceptable v (p_type p) false /\
       forall t, mget (p_type p) (v_types v) = Some t -> t_kind t <> InterfaceType /\ (is_items m p = true -> t_kind t = ListType)).
Proof.
  assert (H : decide_read ex_go (fun v => readyb v && match mget "machines" (v_resources v) with
    | Some r => Nat.leb 7 (length (flat_map request_params (r_methods r))) && Nat.leb 11 (length (flat_map response_params (r_methods r))) && forallb (fun m => requestsb v m && responsesb v m) (r_methods r)
    | None => false end) = true) by (vm_compute; reflexivity).
  destruct (decide_read_sound _ _ H) as (v & A & C). clear H. apply andb_true_iff in C as [C D]. destruct (mget "machines" (v_resources v)) as [r|] eqn:G; [|discriminate].
  apply andb_true_iff in D as [D E]. apply andb_true_iff in D as [D F]. apply Nat.leb_le in D. apply Nat.leb_le in F. rewrite forallb_forall in E.
  exists v, r. split; [exact A|]. split; [now apply readyb_sound|]. split; [exact go_package_path|]. split; [exact G|]. split; [exact D|]. split; [exact F|].
  intros m I. specialize (E m I). apply andb_true_iff in E as [E1 E2]. unfold requestsb in E1. unfold responsesb in E2. rewrite forallb_forall in E1, E2. split.
  - intros p J. specialize (E1 p J). apply andb_true_iff in E1 as [E1 X]. apply andb_true_iff in E1 as [E1 Y]. split; [now apply acceptableb_sound|].
    split; [now apply negb_true_iff in Y|]. intros t T K. unfold kind_of in X. rewrite T in X. unfold is_map in X. now rewrite K in X.
  - intros p J. specialize (E2 p J). apply andb_true_iff in E2 as [E2 X]. split; [now apply acceptableb_sound|].
    intros t T. unfold kind_of in X. rewrite T in X. apply andb_true_iff in X as [X Y]. split.
    + intros K. unfold is_interface in X. now rewrite K in X.
    + intros II. rewrite II in Y. cbn [negb orb] in Y. unfold is_list in Y. destruct (t_kind t); try discriminate. reflexivity.
Qed.

(** Sources that are accepted, and the code generated for them isn't. *)
Definition ex_map_in : list decl := things [MkMethodDecl [] "Act" [par [DIn] "Labels" (RMap "String" "String") None] ""].
Definition ex_any_out : list decl := things [MkMethodDecl [] "Act" [par [DOut] "Data" (RPlain "Interface") None] ""].
Definition ex_link_strings : list decl := [ex_empty_root; DStruct [] "Thing" [MkMemberDecl [] true "Tags" (RList "String") ""] ""].
Definition ex_nested : list decl := [ex_empty_root; DStruct [] "Thing" [attr "Tables" (RList "StringList")] ""].

Lemma map_in_example : exists v r m p t, accepted ex_map_in v /\ ready v /\ In r (resources v) /\ In m (r_methods r) /\ In p (request_params m) /\
  acceptable v (p_type p) false /\ is_items m p = false /\ mget (p_type p) (v_types v) = Some t /\ t_kind t = MapType.
Proof.
  assert (H : decide_read ex_map_in (fun v => readyb v && resource_check "things" (fun r => existsb (fun m => existsb (fun p =>
    acceptableb v (p_type p) false && negb (is_items m p) && kind_of v (p_type p) is_map) (request_params m)) (r_methods r)) v) = true) by (vm_compute; reflexivity).
  destruct (decide_read_sound _ _ H) as (v & A & C). clear H. apply andb_true_iff in C as [C D]. destruct (resource_check_sound _ _ _ D) as (r & R & E).
  apply existsb_exists in E as (m & M & E). apply existsb_exists in E as (p & P & E). apply andb_true_iff in E as [E X]. apply andb_true_iff in E as [E Y].
  unfold kind_of in X. destruct (mget (p_type p) (v_types v)) as [t|] eqn:G; [|discriminate]. exists v, r, m, p, t. repeat (split; [assumption || now apply readyb_sound || now apply acceptableb_sound || now apply negb_true_iff in Y|]).
  unfold is_map in X. destruct (t_kind t); try discriminate. reflexivity.
Qed.
Lemma any_out_example : exists v r m p t, accepted ex_any_out v /\ ready v /\ In r (resources v) /\ In m (r_methods r) /\ In p (response_params m) /\
  is_items m p = false /\ mget (p_type p) (v_types v) = Some t /\ t_kind t = InterfaceType.
Proof.
  assert (H : decide_read ex_any_out (fun v => readyb v && resource_check "things" (fun r => existsb (fun m => existsb (fun p =>
    negb (is_items m p) && kind_of v (p_type p) is_interface) (response_params m)) (r_methods r)) v) = true) by (vm_compute; reflexivity).
  destruct (decide_read_sound _ _ H) as (v & A & C). clear H. apply andb_true_iff in C as [C D]. destruct (resource_check_sound _ _ _ D) as (r & R & E).
  apply existsb_exists in E as (m & M & E). apply existsb_exists in E as (p & P & E). apply andb_true_iff in E as [Y X].
  unfold kind_of in X. destruct (mget (p_type p) (v_types v)) as [t|] eqn:G; [|discriminate]. exists v, r, m, p, t. repeat (split; [assumption || now apply readyb_sound || now apply negb_true_iff in Y|]).
  unfold is_interface in X. destruct (t_kind t); try discriminate. reflexivity.
Qed.
Definition elementb (v : version) (t : typ) (f : typ -> bool) : bool := match t_element t with Some e => kind_of v e f | None => false end.
Lemma link_strings_example : exists v t a ta e te, accepted ex_link_strings v /\ ready v /\ In t (types v) /\ In a (t_attrs t) /\ mget (a_type a) (v_types v) = Some ta /\ t_kind ta = ListType /\
  a_link a = true /\ t_element ta = Some e /\ mget e (v_types v) = Some te /\ In (t_kind te) [ScalarType; InterfaceType].
Proof.
  assert (H : decide_read ex_link_strings (fun v => readyb v && type_check "thing" (fun t => existsb (fun a => a_link a && kind_of v (a_type a) (fun ta =>
    is_list ta && elementb v ta (fun te => kind_eqb (t_kind te) ScalarType))) (t_attrs t)) v) = true) by (vm_compute; reflexivity).
  destruct (decide_read_sound _ _ H) as (v & A & C). clear H. apply andb_true_iff in C as [C D]. destruct (type_check_sound _ _ _ D) as (t & T & E).
  apply existsb_exists in E as (a & I & E). apply andb_true_iff in E as [L E]. unfold kind_of in E. destruct (mget (a_type a) (v_types v)) as [ta|] eqn:G; [|discriminate].
  apply andb_true_iff in E as [E F]. unfold elementb, kind_of in F. destruct (t_element ta) as [e|] eqn:EE; [|discriminate]. destruct (mget e (v_types v)) as [te|] eqn:GE; [|discriminate].
  exists v, t, a, ta, e, te. repeat (split; [assumption || now apply readyb_sound|]). split; [unfold is_list in E; destruct (t_kind ta); try discriminate; reflexivity|].
  repeat (split; [assumption|]). destruct (t_kind te); try discriminate. now left.
Qed.
Lemma nested_example : exists v t a ta e te, accepted ex_nested v /\ ready v /\ In t (types v) /\ In a (t_attrs t) /\ mget (a_type a) (v_types v) = Some ta /\ t_kind ta = ListType /\
  a_link a = false /\ t_element ta = Some e /\ mget e (v_types v) = Some te /\ In (t_kind te) [ListType; MapType] /\ exists c l, generate_attribute go_package v a = Done (c, l).
Proof.
  assert (H : decide_read ex_nested (fun v => readyb v && type_check "thing" (fun t => existsb (fun a => negb (a_link a) && kind_of v (a_type a) (fun ta =>
    is_list ta && elementb v ta is_list && match generate_attribute go_package v a with Done _ => true | _ => false end)) (t_attrs t)) v) = true) by (vm_compute; reflexivity).
  destruct (decide_read_sound _ _ H) as (v & A & C). clear H. apply andb_true_iff in C as [C D]. destruct (type_check_sound _ _ _ D) as (t & T & E).
  apply existsb_exists in E as (a & I & E). apply andb_true_iff in E as [L E]. unfold kind_of in E. destruct (mget (a_type a) (v_types v)) as [ta|] eqn:G; [|discriminate].
  apply andb_true_iff in E as [E X]. apply andb_true_iff in E as [E F]. unfold elementb, kind_of in F. destruct (t_element ta) as [e|] eqn:EE; [|discriminate]. destruct (mget e (v_types v)) as [te|] eqn:GE; [|discriminate].
  exists v, t, a, ta, e, te. repeat (split; [assumption || now apply readyb_sound|]). split; [unfold is_list in E; destruct (t_kind ta); try discriminate; reflexivity|].
  split; [now apply negb_true_iff in L|]. repeat (split; [assumption|]). split; [unfold is_list in F; destruct (t_kind te); try discriminate; now left|].
  destruct (generate_attribute go_package v a) as [(c & l)| |]; try discriminate. eauto.
Qed.
