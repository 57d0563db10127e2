(** Proofs about the reader. *)
From Coq Require Import Ascii String Bool Arith ZArith Lia Permutation Sorted List.
From Verif Require Import GoStrings GoStringsProofs GoMap GoMapProofs NamesModel NamesSpec NamesProofs
  ConceptsModel ConceptsSpec ConceptsProofs ReporterModel ReaderModel ReaderSpec.
Import ListNotations.
Local Open Scope string_scope.

(** * Reading as a sequence of events

    The results of the listener methods don't depend on the state, and their effects on the state are
    sequences of events of seven kinds. *)
Inductive ev :=
| EReport (r : report)
| EUse (n : name)
| ENew (t : typ)
| EDecl (k : kind) (n : name) (fill : typ -> typ)
| EUseRes (n : name)
| EDeclRes (n : name) (fill : resource -> resource)
| EDeclErr (e : error).

Definition run_ev (st : rstate) (e : ev) : rstate :=
  match e with
  | EReport r => add_report r st
  | EUse n => refer_type n st
  | ENew t =>
      match find_type (t_name t) (rs_version st) with
      | Some _ => st
      | None => set_version (add_type t (rs_version st)) st
      end
  | EDecl k n fill => declare_type k n fill st
  | EUseRes n =>
      match find_resource n (rs_version st) with
      | Some _ => st
      | None =>
          add_undefined_resource (new_resource n)
            (set_version (add_resource (new_resource n) (rs_version st)) st)
      end
  | EDeclRes n fill =>
      match find_resource n (rs_version st) with
      | None => set_version (add_resource (fill (new_resource n)) (rs_version st)) st
      | Some r =>
          if is_undefined_resource r st then
            remove_undefined_resource r (set_version (add_resource (fill r) (rs_version st)) st)
          else add_report (err ("Resource '" ++ camel n ++ "' is already defined")) st
      end
  | EDeclErr e =>
      match find_error (e_name e) (rs_version st) with
      | None => set_version (add_error e (rs_version st)) st
      | Some _ => add_report (err ("Error '" ++ camel (e_name e) ++ "' is already defined")) st
      end
  end.

Definition run (l : list ev) (st : rstate) : rstate := fold_left run_ev l st.

Lemma run_app l m st : run (l ++ m)%list st = run m (run l st).
Proof. apply fold_left_app. Qed.

Definition literal_evs (l : literal_decl) : list ev :=
  match l with
  | LDBool _ => []
  | LDInt digits =>
      if snd (atoi digits) then [EReport (err ("Incorrect integer literal '" ++ digits ++ "'"))] else []
  | LDString _ (Some _) => []
  | LDString _ None => [EReport (err "Incorrect string literal ''")]
  end.

Lemma exit_literal_run l st : exit_literal l st = (literal_of l, run (literal_evs l) st).
Proof.
  destruct l as [b|d|t [u|]]; simpl; try reflexivity.
  destruct (atoi d) as [n []]; reflexivity.
Qed.

Definition annotation_evs (a : annotation_decl) : list ev :=
  flat_map (fun p => literal_evs (snd p)) (ad_params a).

Lemma exit_annotation_params_run l : forall acc st,
  exit_annotation_params l acc st =
  (fold_left (fun acc nl => match literal_of (snd nl) with
                            | Some x => mset (fst nl) x acc
                            | None => mdel (fst nl) acc
                            end) l acc, run (flat_map (fun p => literal_evs (snd p)) l) st).
Proof.
  induction l as [|[n d] l IH]; intros acc st; [reflexivity|].
  cbn [exit_annotation_params flat_map fst snd fold_left]. rewrite exit_literal_run, IH, run_app.
  reflexivity.
Qed.

Lemma exit_annotation_run a st : exit_annotation a st = (annotation_of a, run (annotation_evs a) st).
Proof.
  unfold exit_annotation. rewrite exit_annotation_params_run. reflexivity.
Qed.

Lemma exit_all_run {D R} (f : D -> rstate -> R * rstate) (pure : D -> R) (evs : D -> list ev) :
  (forall d st, f d st = (pure d, run (evs d) st)) ->
  forall l st, exit_all f l st = (map pure l, run (flat_map evs l) st).
Proof.
  intros H. induction l as [|d l IH]; intros st; [reflexivity|].
  cbn [exit_all map flat_map]. rewrite H, IH, run_app. reflexivity.
Qed.

Definition annots_evs (l : list annotation_decl) : list ev := flat_map annotation_evs l.

Lemma exit_annotations_run l st :
  exit_annotations l st = (map annotation_of l, run (annots_evs l) st).
Proof. apply exit_all_run. exact exit_annotation_run. Qed.

Definition list_type (e : name) : typ :=
  set_element (name_key e) (set_kind ListType (new_type (cat [e; nList]))).
Definition map_type (i e : name) : typ :=
  set_element (name_key e)
    (set_index (name_key i) (set_kind MapType (new_type (cat [i; e; nMap])))).

Definition ref_evs (r : type_ref) : list ev :=
  match r with
  | RPlain n => [EUse (parse_using_case n)]
  | RList e => [EUse (parse_using_case e); ENew (list_type (parse_using_case e))]
  | RMap i e =>
      [EUse (parse_using_case i); EUse (parse_using_case e);
       ENew (map_type (parse_using_case i) (parse_using_case e))]
  end.

Lemma exit_type_ref_run r st : exit_type_ref r st = (ref_key r, run (ref_evs r) st).
Proof. destruct r; reflexivity. Qed.

Definition value_evs (d : value_decl) : list ev := annots_evs (vd_annots d).

Lemma exit_value_run d st : exit_value d st = (value_of d, run (value_evs d) st).
Proof. unfold exit_value. rewrite exit_annotations_run. reflexivity. Qed.

Definition member_evs (d : member_decl) : list ev := (annots_evs (md_annots d) ++ ref_evs (md_ref d))%list.

Lemma exit_member_run d st : exit_member d st = (attribute_of d, run (member_evs d) st).
Proof.
  unfold exit_member. rewrite exit_annotations_run, exit_type_ref_run. unfold member_evs.
  now rewrite run_app.
Qed.

Definition param_of (d : param_decl) : parameter :=
  MkParameter (parse_using_case (pd_name d)) (ref_key (pd_ref d)) (fst (directions (pd_directions d)))
    (snd (directions (pd_directions d)))
    (match pd_default d with Some l => literal_of l | None => None end) (pd_doc d)
    (map annotation_of (pd_annots d)).

Definition param_evs (d : param_decl) : list ev :=
  (annots_evs (pd_annots d) ++ ref_evs (pd_ref d) ++
   match pd_default d with Some l => literal_evs l | None => [] end)%list.

Lemma exit_param_run d st : exit_param d st = (param_of d, run (param_evs d) st).
Proof.
  unfold exit_param, param_of, param_evs. rewrite exit_annotations_run, exit_type_ref_run.
  rewrite !run_app. destruct (pd_default d) as [l|].
  - rewrite exit_literal_run. destruct (directions _). reflexivity.
  - destruct (directions _). reflexivity.
Qed.

Definition meth_of (d : method_decl) : method :=
  fold_left (fun m p => add_parameter p m) (map param_of (xd_params d))
    (MkMethod (parse_using_case (xd_name d)) [] (xd_doc d) (map annotation_of (xd_annots d))).

Definition method_evs (d : method_decl) : list ev :=
  (annots_evs (xd_annots d) ++ flat_map param_evs (xd_params d))%list.

Lemma exit_method_run d st : exit_method d st = (meth_of d, run (method_evs d) st).
Proof.
  unfold exit_method, meth_of, method_evs. rewrite exit_annotations_run.
  rewrite (exit_all_run exit_param param_of param_evs exit_param_run), run_app. reflexivity.
Qed.

Definition lmember_of (m : locator_member) : option key :=
  match m with LMTarget n => Some (key_of n) | LMVariable _ => None end.
Definition lmember_evs (m : locator_member) : list ev :=
  match m with LMTarget n => [EUseRes (parse_using_case n)] | LMVariable _ => [] end.

Lemma exit_locator_member_run m st :
  exit_locator_member m st = (lmember_of m, run (lmember_evs m) st).
Proof. destruct m; reflexivity. Qed.

Definition loc_of (d : locator_decl) : locator :=
  fold_left
    (fun l m => match m with Some k => set_target k l | None => set_variable true l end)
    (map lmember_of (ld_members d))
    (MkLocator (parse_using_case (ld_name d)) false None (ld_doc d) (map annotation_of (ld_annots d))).

Definition locator_evs (d : locator_decl) : list ev :=
  (annots_evs (ld_annots d) ++ flat_map lmember_evs (ld_members d) ++
   match l_target (loc_of d) with
   | Some _ => []
   | None => [EReport (err ("Locator '" ++ camel (l_name (loc_of d)) ++ "' doesn't have a target"))]
   end)%list.

Lemma exit_locator_run d st : exit_locator d st = (loc_of d, run (locator_evs d) st).
Proof.
  unfold exit_locator, locator_evs. rewrite exit_annotations_run.
  rewrite (exit_all_run exit_locator_member lmember_of lmember_evs exit_locator_member_run).
  fold (loc_of d). rewrite !run_app.
  change (exit_identifier (ld_name d)) with (parse_using_case (ld_name d)).
  fold (loc_of d). destruct (l_target (loc_of d)); reflexivity.
Qed.

Definition rmember_of (m : resource_member) : method + locator :=
  match m with RMMethod d => inl (meth_of d) | RMLocator d => inr (loc_of d) end.
Definition rmember_evs (m : resource_member) : list ev :=
  match m with RMMethod d => method_evs d | RMLocator d => locator_evs d end.

Lemma exit_resource_member_run m st :
  exit_resource_member m st = (rmember_of m, run (rmember_evs m) st).
Proof.
  destruct m as [d|d]; simpl.
  - now rewrite exit_method_run.
  - now rewrite exit_locator_run.
Qed.

Definition code_of (c : string) : Z := Z.of_N (fst (atoi c)).
Definition code_evs (c : string) : list ev :=
  if snd (atoi c) then [EReport (err ("Error code '" ++ c ++ "' isn't a valid integer"))] else [].

Lemma exit_code_run c st : exit_code c st = (code_of c, run (code_evs c) st).
Proof. unfold exit_code, code_of, code_evs. destruct (atoi c) as [n []]; reflexivity. Qed.

Definition err_of (ans : list annotation_decl) (n : string) (codes : list string) (doc : string) : error :=
  MkError (parse_using_case n) None (last (map code_of codes) 0%Z) doc (map annotation_of ans).

Definition decl_evs (d : decl) : list ev :=
  match d with
  | DEnum ans n vs doc =>
      (annots_evs ans ++ flat_map value_evs vs ++
       [EDecl EnumType (parse_using_case n)
          (fun t => fold_left (fun t v => add_value v t) (map value_of vs)
                      (fill_type doc (map annotation_of ans) t))])%list
  | DClass ans n ms doc =>
      (annots_evs ans ++ flat_map member_evs ms ++
       [EDecl ClassType (parse_using_case n)
          (fun t => fold_left (fun t a => add_attribute a t) (map attribute_of ms)
                      (fill_type doc (map annotation_of ans) t))])%list
  | DStruct ans n ms doc =>
      (annots_evs ans ++ flat_map member_evs ms ++
       [EDecl StructType (parse_using_case n)
          (fun t => fold_left (fun t a => add_attribute a t) (map attribute_of ms)
                      (fill_type doc (map annotation_of ans) t))])%list
  | DError ans n codes doc =>
      (annots_evs ans ++ flat_map code_evs codes ++ [EDeclErr (err_of ans n codes doc)])%list
  | DResource ans n ms doc =>
      (annots_evs ans ++ flat_map rmember_evs ms ++
       [EDeclRes (parse_using_case n)
          (fill_resource doc (map annotation_of ans) (map rmember_of ms))])%list
  end.

Lemma exit_decl_run d st : exit_decl d st = run (decl_evs d) st.
Proof.
  destruct d as [ans n vs doc|ans n ms doc|ans n ms doc|ans n codes doc|ans n ms doc];
    cbn [exit_decl decl_evs].
  - unfold exit_enum. rewrite exit_annotations_run.
    rewrite (exit_all_run exit_value value_of value_evs exit_value_run), !run_app. reflexivity.
  - unfold exit_struct. rewrite exit_annotations_run.
    rewrite (exit_all_run exit_member attribute_of member_evs exit_member_run), !run_app. reflexivity.
  - unfold exit_struct. rewrite exit_annotations_run.
    rewrite (exit_all_run exit_member attribute_of member_evs exit_member_run), !run_app. reflexivity.
  - unfold exit_error. rewrite exit_annotations_run.
    rewrite (exit_all_run exit_code code_of code_evs exit_code_run), !run_app. reflexivity.
  - unfold exit_resource. rewrite exit_annotations_run.
    rewrite (exit_all_run exit_resource_member rmember_of rmember_evs exit_resource_member_run), !run_app.
    reflexivity.
Qed.

Definition file_evs (f : file) : list ev :=
  EReport (info ("Loading file '" ++ fst f ++ "'")) :: flat_map decl_evs (snd f).

Lemma load_file_run f st : load_file f st = run (file_evs f) st.
Proof.
  unfold load_file, file_evs. cbn [run fold_left run_ev]. fold run_ev.
  change (fold_left run_ev (flat_map decl_evs (snd f)) ?x) with (run (flat_map decl_evs (snd f)) x).
  generalize (add_report (info ("Loading file '" ++ fst f ++ "'")) st). clear st.
  induction (snd f) as [|d l IH]; intros st; [reflexivity|].
  cbn [fold_left flat_map]. rewrite IH, run_app, exit_decl_run. reflexivity.
Qed.

Lemma load_files_run fs st : load_files fs st = run (flat_map file_evs fs) st.
Proof.
  unfold load_files. revert st. induction fs as [|f fs IH]; intros st; [reflexivity|].
  cbn [fold_left flat_map]. now rewrite IH, run_app, load_file_run.
Qed.

(** * Undefined and repeated types (C12, C13) *)

Definition used (l : list ev) (k : key) : Prop := exists n, In (EUse n) l /\ name_key n = k.
Definition declared (l : list ev) (k : key) : Prop :=
  exists kd n fill, In (EDecl kd n fill) l /\ name_key n = k.
Definition introduced (l : list ev) (k : key) : Prop := exists t, In (ENew t) l /\ name_key (t_name t) = k.
Definition used_res (l : list ev) (k : key) : Prop := exists n, In (EUseRes n) l /\ name_key n = k.
Definition declared_res (l : list ev) (k : key) : Prop :=
  exists n fill, In (EDeclRes n fill) l /\ name_key n = k.
Definition declared_err (l : list ev) (k : key) : Prop :=
  exists e, In (EDeclErr e) l /\ name_key (e_name e) = k.

(** Filling a type or a resource doesn't change its name. *)
Definition ok_ev (e : ev) : Prop :=
  match e with
  | EDecl _ _ fill => forall t, t_name (fill t) = t_name t
  | EDeclRes _ fill => forall r, r_name (fill r) = r_name r
  | _ => True
  end.

Definition start_ok (v : version) : Prop :=
  indexed t_name (v_types v) /\ indexed r_name (v_resources v).

Lemma indexed_get {A} (f : A -> name) m k a : indexed f m -> mget k m = Some a -> name_string (f a) = k.
Proof. intros H E. symmetry. apply (proj2 H). now apply mget_in. Qed.

Lemma run_ev_indexed st e : ok_ev e -> start_ok (rs_version st) -> start_ok (rs_version (run_ev st e)).
Proof.
  intros He [Ht Hr].
  destruct e as [r|n|t|k n fill|n|n fill|x]; simpl; try (now split).
  - unfold refer_type. destruct (find_type n (rs_version st)); simpl; split; auto.
    now apply indexed_mset.
  - destruct (find_type (t_name t) (rs_version st)); simpl; split; auto. now apply indexed_mset.
  - unfold declare_type. destruct (find_type n (rs_version st)) as [t|]; [|split; simpl; auto; now apply indexed_mset].
    destruct (is_undefined_type t st); simpl; split; auto. now apply indexed_mset.
  - destruct (find_resource n (rs_version st)); simpl; split; auto. now apply indexed_mset.
  - destruct (find_resource n (rs_version st)) as [r|]; [|split; simpl; auto; now apply indexed_mset].
    destruct (is_undefined_resource r st); simpl; split; auto. now apply indexed_mset.
  - destruct (find_error (e_name x) (rs_version st)); simpl; split; auto.
Qed.

Lemma run_indexed l : forall st, Forall ok_ev l -> start_ok (rs_version st) ->
  start_ok (rs_version (run l st)).
Proof.
  induction l as [|e l IH]; intros st Hl Hs; [exact Hs|].
  inversion Hl; subst. apply IH; auto. now apply run_ev_indexed.
Qed.

Lemma run_snoc l e st : run (l ++ [e])%list st = run_ev (run l st) e.
Proof. now rewrite run_app. Qed.

(** Relation between the events processed and the types of the state. *)
Record type_inv (b : key -> Prop) (l : list ev) (st : rstate) : Prop := {
  ti_names : forall k n, In (k, n) (rs_utypes st) -> k = name_key n /\ In (EUse n) l;
  ti_types : forall k, mhas k (v_types (rs_version st)) = true <->
             b k \/ used l k \/ declared l k \/ introduced l k;
  ti_undefined : forall k, mhas k (rs_utypes st) = true -> used l k /\ ~ declared l k /\ ~ b k;
  ti_missing : forall k, used l k -> ~ declared l k -> ~ b k -> ~ introduced l k ->
               mhas k (rs_utypes st) = true }.

Lemma used_snoc l e k : used (l ++ [e])%list k <->
  used l k \/ match e with EUse n => name_key n = k | _ => False end.
Proof.
  unfold used. split.
  - intros (n & H & <-). apply in_app_iff in H as [H|[->|[]]]; [left; eauto|now right].
  - intros [(n & H & <-)|H].
    + exists n. rewrite in_app_iff. auto.
    + destruct e; try contradiction. exists n. rewrite in_app_iff. simpl. auto.
Qed.

Lemma declared_snoc l e k : declared (l ++ [e])%list k <->
  declared l k \/ match e with EDecl _ n _ => name_key n = k | _ => False end.
Proof.
  unfold declared. split.
  - intros (kd & n & fill & H & <-). apply in_app_iff in H as [H|[->|[]]]; [left; eauto 6|now right].
  - intros [(kd & n & fill & H & <-)|H].
    + exists kd, n, fill. rewrite in_app_iff. auto.
    + destruct e as [| | |kd n fill| | |]; try contradiction. exists kd, n, fill.
      rewrite in_app_iff. simpl. auto.
Qed.

Lemma introduced_snoc l e k : introduced (l ++ [e])%list k <->
  introduced l k \/ match e with ENew t => name_key (t_name t) = k | _ => False end.
Proof.
  unfold introduced. split.
  - intros (t & H & <-). apply in_app_iff in H as [H|[->|[]]]; [left; eauto|now right].
  - intros [(t & H & <-)|H].
    + exists t. rewrite in_app_iff. auto.
    + destruct e; try contradiction. exists t. rewrite in_app_iff. simpl. auto.
Qed.

Lemma mhas_find (n : name) (v : version) :
  mhas (name_key n) (v_types v) = match find_type n v with Some _ => true | None => false end.
Proof. reflexivity. Qed.

Lemma mhas_false k {A} (m : list (key * A)) : mget k m = None -> mhas k m = false.
Proof. unfold mhas. now intros ->. Qed.

Lemma mhas_some k {A} (m : list (key * A)) a : mget k m = Some a -> mhas k m = true.
Proof. unfold mhas. now intros ->. Qed.

Ltac inv_snoc := intros; rewrite ?used_snoc, ?declared_snoc, ?introduced_snoc in *.

Lemma type_inv_step b l st e : ok_ev e -> start_ok (rs_version st) -> type_inv b l st ->
  type_inv b (l ++ [e])%list (run_ev st e).
Proof.
  intros Hok [Hix _] [Hn Ht Hu Hm].
  assert (Hframe : forall st', rs_version st' = rs_version st \/ v_types (rs_version st') = v_types (rs_version st) ->
            rs_utypes st' = rs_utypes st ->
            match e with EUse _ | EDecl _ _ _ | ENew _ => False | _ => True end ->
            type_inv b (l ++ [e])%list st').
  { intros st' Hv Hut He.
    assert (Hv' : v_types (rs_version st') = v_types (rs_version st)) by (destruct Hv as [->|]; auto).
    constructor; rewrite ?Hut, ?Hv'.
    - intros k n H. apply Hn in H as [-> H]. split; [reflexivity|]. apply in_app_iff. auto.
    - inv_snoc. rewrite Ht. destruct e; try contradiction; tauto.
    - intros k H. inv_snoc. apply Hu in H. destruct e; try contradiction; tauto.
    - intros k H1 H2 H3 H4. inv_snoc. apply Hm; destruct e; try contradiction; tauto. }
  destruct e as [r|n|t|kd n fill|n|n fill|x].
  - apply Hframe; auto.
  - (* a use *)
    cbn [run_ev]. unfold refer_type. destruct (find_type n (rs_version st)) as [t|] eqn:E.
    + assert (Hk : b (name_key n) \/ used l (name_key n) \/ declared l (name_key n) \/ introduced l (name_key n)).
      { apply Ht. now rewrite mhas_find, E. }
      constructor.
      * intros k m H. apply Hn in H as [-> H]. split; [reflexivity|]. apply in_app_iff. auto.
      * inv_snoc. rewrite Ht. split; [tauto|]. intros [H|[[H|<-]|[[H|[]]|[H|[]]]]]; tauto.
      * intros k H. inv_snoc. apply Hu in H. tauto.
      * intros k H1 H2 H3 H4. inv_snoc. destruct H1 as [H1|<-]; apply Hm; tauto.
    + assert (Hk : ~ (b (name_key n) \/ used l (name_key n) \/ declared l (name_key n) \/ introduced l (name_key n))).
      { rewrite <- Ht, mhas_find, E. discriminate. }
      constructor; simpl.
      * intros k m H. fold (name_key n) in H.
        destruct (in_dec String.string_dec (name_key n) (mkeys (rs_utypes st))) as [Hi|Hi].
        { apply mhas_true in Hi. apply Hu in Hi. tauto. }
        rewrite mset_not_in in H by assumption.
        apply in_app_iff in H as [H|[H|[]]].
        -- apply Hn in H as [-> H]. split; [reflexivity|]. apply in_app_iff. auto.
        -- injection H as <- <-. split; [reflexivity|]. apply in_app_iff. simpl. auto.
      * inv_snoc. rewrite mhas_mset, orb_true_iff, String.eqb_eq, Ht.
        split; [intros [->|H]; tauto|]. intros [H|[[H|<-]|[[H|[]]|[H|[]]]]]; tauto.
      * intros k. rewrite mhas_mset, orb_true_iff, String.eqb_eq. inv_snoc.
        destruct H as [->|H]; [tauto|]. apply Hu in H. tauto.
      * intros k H1 H2 H3 H4. inv_snoc. rewrite mhas_mset, orb_true_iff, String.eqb_eq.
        destruct H1 as [H1|<-]; [right; apply Hm; tauto|auto].
  - (* an introduction *)
    cbn [run_ev]. destruct (find_type (t_name t) (rs_version st)) as [t'|] eqn:E.
    + assert (Hk : b (name_key (t_name t)) \/ used l (name_key (t_name t)) \/ declared l (name_key (t_name t)) \/ introduced l (name_key (t_name t))).
      { apply Ht. now rewrite mhas_find, E. }
      constructor.
      * intros k m H. apply Hn in H as [-> H]. split; [reflexivity|]. apply in_app_iff. auto.
      * inv_snoc. rewrite Ht. split; [tauto|]. intros [H|[[H|[]]|[[H|[]]|[H|<-]]]]; tauto.
      * intros k H. inv_snoc. apply Hu in H. tauto.
      * intros k H1 H2 H3 H4. inv_snoc. apply Hm; tauto.
    + assert (Hk : ~ (b (name_key (t_name t)) \/ used l (name_key (t_name t)) \/ declared l (name_key (t_name t)) \/ introduced l (name_key (t_name t)))).
      { rewrite <- Ht, mhas_find, E. discriminate. }
      constructor; simpl.
      * intros k m H. apply Hn in H as [-> H]. split; [reflexivity|]. apply in_app_iff. auto.
      * inv_snoc. rewrite mhas_mset, orb_true_iff, String.eqb_eq, Ht.
        split; [intros [->|H]; tauto|]. intros [H|[[H|[]]|[[H|[]]|[H|<-]]]]; tauto.
      * intros k H. inv_snoc. apply Hu in H. tauto.
      * intros k H1 H2 H3 H4. inv_snoc. apply Hm; tauto.
  - (* a declaration *)
    cbn [run_ev]. unfold declare_type. destruct (find_type n (rs_version st)) as [t|] eqn:E.
    + assert (Hk : b (name_key n) \/ used l (name_key n) \/ declared l (name_key n) \/ introduced l (name_key n)).
      { apply Ht. now rewrite mhas_find, E. }
      assert (Ek : name_key (t_name t) = name_key n) by exact (indexed_get t_name _ _ _ Hix E).
      unfold is_undefined_type. rewrite Ek.
      destruct (mhas (name_key n) (rs_utypes st)) eqn:Eu.
      * simpl in Hok. constructor; simpl; unfold name_key in *; rewrite ?Hok; simpl; rewrite ?Ek.
        -- intros k m H. apply mdel_in in H as [_ H]. apply Hn in H as [-> H]. split; [reflexivity|].
           apply in_app_iff. auto.
        -- inv_snoc. rewrite mhas_mset, orb_true_iff, String.eqb_eq, Ht. unfold name_key.
           split; [intros [->|H]; tauto|]. intros [H|[[H|[]]|[[H|<-]|[H|[]]]]]; tauto.
        -- intros k. rewrite mhas_mdel, andb_true_iff, negb_true_iff, String.eqb_neq.
           intros [H1 H2]. inv_snoc. apply Hu in H2. unfold name_key. intuition congruence.
        -- intros k H1 H2 H3 H4. inv_snoc. unfold name_key in H2.
           rewrite mhas_mdel, andb_true_iff, negb_true_iff, String.eqb_neq.
           split; [intuition congruence|]. apply Hm; tauto.
      * constructor; simpl.
        -- intros k m H. apply Hn in H as [-> H]. split; [reflexivity|]. apply in_app_iff. auto.
        -- inv_snoc. rewrite Ht. split; [tauto|]. intros [H|[[H|[]]|[[H|<-]|[H|[]]]]]; tauto.
        -- intros k H. inv_snoc. pose proof (Hu k H). intuition (subst; congruence).
        -- intros k H1 H2 H3 H4. inv_snoc. apply Hm; tauto.
    + assert (Hk : ~ (b (name_key n) \/ used l (name_key n) \/ declared l (name_key n) \/ introduced l (name_key n))).
      { rewrite <- Ht, mhas_find, E. discriminate. }
      simpl in Hok. constructor; simpl; unfold name_key in *; rewrite ?Hok; simpl.
      * intros k m H. apply Hn in H as [-> H]. split; [reflexivity|]. apply in_app_iff. auto.
      * inv_snoc. rewrite mhas_mset, orb_true_iff, String.eqb_eq, Ht. unfold name_key.
        split; [intros [->|H]; tauto|]. intros [H|[[H|[]]|[[H|<-]|[H|[]]]]]; tauto.
      * intros k H. inv_snoc. apply Hu in H. unfold name_key. intuition (subst; tauto).
      * intros k H1 H2 H3 H4. inv_snoc. apply Hm; tauto.
  - cbn [run_ev]. destruct (find_resource n (rs_version st)); apply Hframe; auto.
  - cbn [run_ev]. destruct (find_resource n (rs_version st)) as [r|]; [destruct (is_undefined_resource r st)|]; apply Hframe; auto.
  - cbn [run_ev]. destruct (find_error (e_name x) (rs_version st)); apply Hframe; auto.
Qed.

(** Relation between the events processed and the resources of the state. *)
Record res_inv (l : list ev) (st : rstate) : Prop := {
  ri_names : forall k n, In (k, n) (rs_uresources st) -> k = name_key n /\ In (EUseRes n) l;
  ri_resources : forall k, mhas k (v_resources (rs_version st)) = true <->
                 used_res l k \/ declared_res l k;
  ri_undefined : forall k, mhas k (rs_uresources st) = true <-> used_res l k /\ ~ declared_res l k }.

Lemma used_res_snoc l e k : used_res (l ++ [e])%list k <->
  used_res l k \/ match e with EUseRes n => name_key n = k | _ => False end.
Proof.
  unfold used_res. split.
  - intros (n & H & <-). apply in_app_iff in H as [H|[->|[]]]; [left; eauto|now right].
  - intros [(n & H & <-)|H].
    + exists n. rewrite in_app_iff. auto.
    + destruct e; try contradiction. exists n. rewrite in_app_iff. simpl. auto.
Qed.

Lemma declared_res_snoc l e k : declared_res (l ++ [e])%list k <->
  declared_res l k \/ match e with EDeclRes n _ => name_key n = k | _ => False end.
Proof.
  unfold declared_res. split.
  - intros (n & fill & H & <-). apply in_app_iff in H as [H|[->|[]]]; [left; eauto 6|now right].
  - intros [(n & fill & H & <-)|H].
    + exists n, fill. rewrite in_app_iff. auto.
    + destruct e as [| | | | |n fill|]; try contradiction. exists n, fill.
      rewrite in_app_iff. simpl. auto.
Qed.

Lemma mhas_find_res (n : name) (v : version) :
  mhas (name_key n) (v_resources v) = match find_resource n v with Some _ => true | None => false end.
Proof. reflexivity. Qed.

Lemma res_inv_step l st e : ok_ev e -> start_ok (rs_version st) -> res_inv l st ->
  res_inv (l ++ [e])%list (run_ev st e).
Proof.
  intros Hok [_ Hix] [Hn Ht Hu].
  assert (Hframe : forall st', v_resources (rs_version st') = v_resources (rs_version st) ->
            rs_uresources st' = rs_uresources st ->
            match e with EUseRes _ | EDeclRes _ _ => False | _ => True end ->
            res_inv (l ++ [e])%list st').
  { intros st' Hv Hut He. constructor; rewrite ?Hut, ?Hv.
    - intros k n H. apply Hn in H as [-> H]. split; [reflexivity|]. apply in_app_iff. auto.
    - intros k. rewrite used_res_snoc, declared_res_snoc, Ht. destruct e; try contradiction; tauto.
    - intros k. rewrite used_res_snoc, declared_res_snoc, Hu. destruct e; try contradiction; tauto. }
  destruct e as [r|n|t|kd n fill|n|n fill|x].
  - apply Hframe; auto.
  - cbn [run_ev]. unfold refer_type. destruct (find_type n (rs_version st)); apply Hframe; auto.
  - cbn [run_ev]. destruct (find_type (t_name t) (rs_version st)); apply Hframe; auto.
  - cbn [run_ev]. unfold declare_type. destruct (find_type n (rs_version st)) as [t|]; [destruct (is_undefined_type t st)|]; apply Hframe; auto.
  - cbn [run_ev]. destruct (find_resource n (rs_version st)) as [t|] eqn:E.
    + assert (Hk : used_res l (name_key n) \/ declared_res l (name_key n)).
      { apply Ht. now rewrite mhas_find_res, E. }
      constructor.
      * intros k m H. apply Hn in H as [-> H]. split; [reflexivity|]. apply in_app_iff. auto.
      * intros k. rewrite used_res_snoc, declared_res_snoc, Ht. split; [tauto|].
        intros [[H|<-]|[H|[]]]; tauto.
      * intros k. rewrite used_res_snoc, declared_res_snoc, Hu. split; [tauto|].
        intros [[H|<-] Hd]; tauto.
    + assert (Hk : ~ (used_res l (name_key n) \/ declared_res l (name_key n))).
      { rewrite <- Ht, mhas_find_res, E. discriminate. }
      constructor; simpl.
      * intros k m H. fold (name_key n) in H.
        destruct (in_dec String.string_dec (name_key n) (mkeys (rs_uresources st))) as [Hi|Hi].
        { apply mhas_true in Hi. apply Hu in Hi. tauto. }
        rewrite mset_not_in in H by assumption.
        apply in_app_iff in H as [H|[H|[]]].
        -- apply Hn in H as [-> H]. split; [reflexivity|]. apply in_app_iff. auto.
        -- injection H as <- <-. split; [reflexivity|]. apply in_app_iff. simpl. auto.
      * intros k. rewrite used_res_snoc, declared_res_snoc, mhas_mset, orb_true_iff, String.eqb_eq, Ht.
        split; [intros [->|H]; tauto|]. intros [[H|<-]|[H|[]]]; tauto.
      * intros k. rewrite used_res_snoc, declared_res_snoc, mhas_mset, orb_true_iff, String.eqb_eq, Hu.
        split; [intros [->|H]; tauto|]. intros [[H|<-] Hd]; tauto.
  - cbn [run_ev]. destruct (find_resource n (rs_version st)) as [r|] eqn:E.
    + assert (Hk : used_res l (name_key n) \/ declared_res l (name_key n)).
      { apply Ht. now rewrite mhas_find_res, E. }
      assert (Ek : name_key (r_name r) = name_key n) by exact (indexed_get r_name _ _ _ Hix E).
      unfold is_undefined_resource. rewrite Ek.
      destruct (mhas (name_key n) (rs_uresources st)) eqn:Eu.
      * simpl in Hok. constructor; simpl; unfold name_key in *; rewrite ?Hok; simpl; rewrite ?Ek.
        -- intros k m H. apply mdel_in in H as [_ H]. apply Hn in H as [-> H]. split; [reflexivity|].
           apply in_app_iff. auto.
        -- intros k. rewrite used_res_snoc, declared_res_snoc, mhas_mset, orb_true_iff, String.eqb_eq, Ht.
           unfold name_key. split; [intros [->|H]; tauto|]. intros [[H|[]]|[H|<-]]; tauto.
        -- intros k. rewrite used_res_snoc, declared_res_snoc, mhas_mdel, andb_true_iff, negb_true_iff,
             String.eqb_neq, Hu. unfold name_key. intuition congruence.
      * constructor; simpl.
        -- intros k m H. apply Hn in H as [-> H]. split; [reflexivity|]. apply in_app_iff. auto.
        -- intros k. rewrite used_res_snoc, declared_res_snoc, Ht. split; [tauto|].
           intros [[H|[]]|[H|<-]]; tauto.
        -- intros k. rewrite used_res_snoc, declared_res_snoc. split; [|intros H; apply Hu; tauto].
           intros H. pose proof (proj1 (Hu k) H). intuition (subst; congruence).
    + assert (Hk : ~ (used_res l (name_key n) \/ declared_res l (name_key n))).
      { rewrite <- Ht, mhas_find_res, E. discriminate. }
      simpl in Hok. constructor; simpl; unfold name_key in *; rewrite ?Hok; simpl.
      * intros k m H. apply Hn in H as [-> H]. split; [reflexivity|]. apply in_app_iff. auto.
      * intros k. rewrite used_res_snoc, declared_res_snoc, mhas_mset, orb_true_iff, String.eqb_eq, Ht.
        unfold name_key. split; [intros [->|H]; tauto|]. intros [[H|[]]|[H|<-]]; tauto.
      * intros k. rewrite used_res_snoc, declared_res_snoc, Hu. unfold name_key.
        split; [intros [H1 H2]; intuition (subst; tauto)|tauto].
  - cbn [run_ev]. destruct (find_error (e_name x) (rs_version st)); apply Hframe; auto.
Qed.

Lemma run_inv b l : Forall ok_ev l -> forall st l0, start_ok (rs_version st) ->
  type_inv b l0 st -> res_inv l0 st ->
  type_inv b (l0 ++ l)%list (run l st) /\ res_inv (l0 ++ l)%list (run l st).
Proof.
  intros Hl. induction Hl as [|e l He Hl IH]; intros st l0 Hs Ht Hr.
  - rewrite app_nil_r. auto.
  - change (run (e :: l) st) with (run l (run_ev st e)).
    replace (l0 ++ e :: l)%list with ((l0 ++ [e]) ++ l)%list by now rewrite <- app_assoc.
    apply IH.
    + now apply run_ev_indexed.
    + now apply type_inv_step.
    + now apply res_inv_step.
Qed.

Lemma fresh_ok n : start_ok (rs_version (fresh n)).
Proof. split; [apply new_version_indexed|]. split; [constructor|intros k a []]. Qed.

Lemma builtin_key_has n k : mhas k (v_types (new_version n)) = true <-> builtin_key k.
Proof.
  unfold mhas. change (mget k (v_types (new_version n))) with (type_at k (new_version n)). split.
  - destruct (type_at k (new_version n)) as [t|] eqn:E; [|discriminate]. intros _.
    apply builtins_only in E as [[[id bk] kd] [Hin H]]. exists (id, bk, kd). split; [assumption|].
    simpl in *. tauto.
  - intros [[[id bk] kd] [Hin H]]. destruct (builtins_present n id bk kd Hin) as [[t [E _]] [t' [E' _]]].
    simpl in H. destruct H as [->| ->]; [now rewrite E|now rewrite E'].
Qed.

Lemma fresh_type_inv n : type_inv builtin_key [] (fresh n).
Proof.
  constructor; unfold fresh; cbn [rs_version rs_utypes].
  - intros k m [].
  - intros k. rewrite <- (builtin_key_has n). split; [auto|].
    intros [H|[[m [[] _]]|[(kd & m & f & [] & _)|[t [[] _]]]]]. exact H.
  - discriminate.
  - intros k [m [[] _]].
Qed.

Lemma fresh_res_inv n : res_inv [] (fresh n).
Proof.
  constructor; simpl.
  - intros k m [].
  - intros k. split; [discriminate|]. intros [[m [[] _]]|(m & f & [] & _)].
  - intros k. split; [discriminate|]. intros [[m [[] _]] _].
Qed.

(** * The events of the declarations *)

Definition evs_uses (l : list ev) : list name :=
  flat_map (fun e => match e with EUse n => [n] | _ => [] end) l.
Definition evs_news (l : list ev) : list name :=
  flat_map (fun e => match e with ENew t => [t_name t] | _ => [] end) l.
Definition evs_decls (l : list ev) : list name :=
  flat_map (fun e => match e with EDecl _ n _ => [n] | _ => [] end) l.
Definition evs_ruses (l : list ev) : list name :=
  flat_map (fun e => match e with EUseRes n => [n] | _ => [] end) l.
Definition evs_rdecls (l : list ev) : list name :=
  flat_map (fun e => match e with EDeclRes n _ => [n] | _ => [] end) l.
Definition evs_edecls (l : list ev) : list name :=
  flat_map (fun e => match e with EDeclErr x => [e_name x] | _ => [] end) l.

Lemma used_evs l k : used l k <-> In k (map name_key (evs_uses l)).
Proof.
  unfold used, evs_uses. rewrite in_map_iff. split.
  - intros (n & H & <-). exists n. split; [reflexivity|]. apply in_flat_map. eexists; split; eauto. simpl. auto.
  - intros (n & <- & H). apply in_flat_map in H as (e & He & Hn). destruct e; try contradiction.
    destruct Hn as [->|[]]. eauto.
Qed.
Lemma introduced_evs l k : introduced l k <-> In k (map name_key (evs_news l)).
Proof.
  unfold introduced, evs_news. rewrite in_map_iff. split.
  - intros (n & H & <-). exists (t_name n). split; [reflexivity|]. apply in_flat_map. eexists; split; eauto. simpl. auto.
  - intros (n & <- & H). apply in_flat_map in H as (e & He & Hn). destruct e; try contradiction.
    destruct Hn as [<-|[]]. eauto.
Qed.
Lemma declared_evs l k : declared l k <-> In k (map name_key (evs_decls l)).
Proof.
  unfold declared, evs_decls. rewrite in_map_iff. split.
  - intros (kd & n & f & H & <-). exists n. split; [reflexivity|]. apply in_flat_map. eexists; split; eauto. simpl. auto.
  - intros (n & <- & H). apply in_flat_map in H as (e & He & Hn). destruct e; try contradiction.
    destruct Hn as [<-|[]]. eauto 6.
Qed.
Lemma used_res_evs l k : used_res l k <-> In k (map name_key (evs_ruses l)).
Proof.
  unfold used_res, evs_ruses. rewrite in_map_iff. split.
  - intros (n & H & <-). exists n. split; [reflexivity|]. apply in_flat_map. eexists; split; eauto. simpl. auto.
  - intros (n & <- & H). apply in_flat_map in H as (e & He & Hn). destruct e; try contradiction.
    destruct Hn as [->|[]]. eauto.
Qed.
Lemma declared_res_evs l k : declared_res l k <-> In k (map name_key (evs_rdecls l)).
Proof.
  unfold declared_res, evs_rdecls. rewrite in_map_iff. split.
  - intros (n & f & H & <-). exists n. split; [reflexivity|]. apply in_flat_map. eexists; split; eauto. simpl. auto.
  - intros (n & <- & H). apply in_flat_map in H as (e & He & Hn). destruct e; try contradiction.
    destruct Hn as [<-|[]]. eauto 6.
Qed.

Lemma flat_map_nil {A B} (f : A -> list B) l : (forall a, In a l -> f a = []) -> flat_map f l = [].
Proof.
  induction l as [|a l IH]; intros H; [reflexivity|]. simpl. rewrite H by now left.
  apply IH. intros b Hb. apply H. now right.
Qed.

Lemma flat_map_flat_map {A B C} (f : A -> list B) (g : B -> list C) l :
  flat_map g (flat_map f l) = flat_map (fun a => flat_map g (f a)) l.
Proof. induction l as [|a l IH]; simpl; [reflexivity|]. now rewrite flat_map_app, IH. Qed.

Lemma map_flat_map {A B C} (f : A -> list B) (g : B -> C) l :
  map g (flat_map f l) = flat_map (fun a => map g (f a)) l.
Proof. induction l as [|a l IH]; simpl; [reflexivity|]. now rewrite map_app, IH. Qed.

Lemma flat_map_map {A B C} (f : A -> B) (g : B -> list C) l :
  flat_map g (map f l) = flat_map (fun a => g (f a)) l.
Proof. induction l as [|a l IH]; simpl; [reflexivity|]. now rewrite IH. Qed.

(** Events that are only reports. *)
Definition report_only (l : list ev) : Prop :=
  Forall (fun e => match e with EReport _ => True | _ => False end) l.

Lemma report_only_app l m : report_only l -> report_only m -> report_only (l ++ m)%list.
Proof. intros. apply Forall_app. auto. Qed.

Lemma report_only_flat {A} (f : A -> list ev) l : (forall a, report_only (f a)) -> report_only (flat_map f l).
Proof. intros H. induction l; simpl; [constructor|]. now apply report_only_app. Qed.

Lemma literal_report_only l : report_only (literal_evs l).
Proof.
  destruct l as [b|d|t [u|]]; simpl; try destruct (snd (atoi d)); repeat constructor.
Qed.

Lemma annots_report_only l : report_only (annots_evs l).
Proof.
  apply report_only_flat. intros a. apply report_only_flat. intros p. apply literal_report_only.
Qed.

Lemma code_report_only c : report_only (code_evs c).
Proof. unfold code_evs. destruct (snd (atoi c)); repeat constructor. Qed.

Lemma report_only_nil {A} (f : ev -> list A) l :
  report_only l -> (forall r, f (EReport r) = []) -> flat_map f l = [].
Proof.
  intros Hl Hf. apply flat_map_nil. intros e He. pose proof (proj1 (Forall_forall _ _) Hl e He) as H.
  destruct e; try contradiction. apply Hf.
Qed.

Section Projection.
  (** A projection of the events that ignores reports. *)
  Context {A : Type} (f : ev -> list A) (Hf : forall r, f (EReport r) = []).

  Lemma proj_literal l : flat_map f (literal_evs l) = [].
  Proof. apply report_only_nil; auto using literal_report_only. Qed.
  Lemma proj_annots l : flat_map f (annots_evs l) = [].
  Proof. apply report_only_nil; auto using annots_report_only. Qed.
  Lemma proj_values vs : flat_map f (flat_map value_evs vs) = [].
  Proof. apply report_only_nil; auto. apply report_only_flat. intros v. apply annots_report_only. Qed.
  Lemma proj_codes cs : flat_map f (flat_map code_evs cs) = [].
  Proof. apply report_only_nil; auto. apply report_only_flat. apply code_report_only. Qed.
  Lemma proj_members ms : flat_map f (flat_map member_evs ms) = flat_map (flat_map f) (map (fun m => ref_evs (md_ref m)) ms).
  Proof.
    rewrite flat_map_flat_map, flat_map_map. apply flat_map_ext. intros m. unfold member_evs.
    now rewrite flat_map_app, proj_annots.
  Qed.
  Lemma proj_params ps : flat_map f (flat_map param_evs ps) = flat_map (flat_map f) (map (fun p => ref_evs (pd_ref p)) ps).
  Proof.
    rewrite flat_map_flat_map, flat_map_map. apply flat_map_ext. intros p. unfold param_evs.
    rewrite !flat_map_app, proj_annots. destruct (pd_default p); rewrite ?proj_literal; simpl;
      now rewrite app_nil_r.
  Qed.
  Lemma proj_method d : flat_map f (method_evs d) = flat_map (flat_map f) (map (fun p => ref_evs (pd_ref p)) (xd_params d)).
  Proof. unfold method_evs. now rewrite flat_map_app, proj_annots, proj_params. Qed.
  Lemma proj_locator d : flat_map f (locator_evs d) = flat_map f (flat_map lmember_evs (ld_members d)).
  Proof.
    unfold locator_evs. rewrite !flat_map_app, proj_annots. simpl.
    destruct (l_target (loc_of d)); simpl; rewrite ?Hf; now rewrite app_nil_r.
  Qed.
End Projection.

Lemma decl_uses_spec d : evs_uses (decl_evs d) = map parse_using_case (flat_map ref_uses (decl_refs d)).
Proof.
  assert (Hr : forall r, evs_uses (ref_evs r) = map parse_using_case (ref_uses r)) by now intros [].
  assert (H0 : forall r, (fun e => match e with EUse n => [n] | _ => [] end) (EReport r) = @nil name) by reflexivity.
  unfold evs_uses in *.
  destruct d as [ans n vs doc|ans n ms doc|ans n ms doc|ans n codes doc|ans n ms doc];
    cbn [decl_evs decl_refs]; rewrite !flat_map_app, (proj_annots _ H0);
    rewrite ?(proj_values _ H0), ?(proj_codes _ H0), ?(proj_members _ H0); try reflexivity.
  - cbn [app flat_map]. rewrite app_nil_r, !flat_map_map, map_flat_map.
    apply flat_map_ext. intros m. apply Hr.
  - cbn [app flat_map]. rewrite app_nil_r, !flat_map_map, map_flat_map.
    apply flat_map_ext. intros m. apply Hr.
  - cbn [app flat_map]. rewrite app_nil_r, !flat_map_flat_map, map_flat_map.
    apply flat_map_ext. intros [x|x]; cbn [rmember_evs].
    + rewrite (proj_method _ H0), !flat_map_map, map_flat_map. apply flat_map_ext. intros p. apply Hr.
    + rewrite (proj_locator _ H0), flat_map_flat_map. simpl. apply flat_map_nil. now intros [].
Qed.

Lemma decl_news_spec d :
  map name_key (evs_news (decl_evs d)) = flat_map ref_derived (decl_refs d).
Proof.
  assert (Hr : forall r, map name_key (evs_news (ref_evs r)) = ref_derived r) by now intros [].
  assert (H0 : forall r, (fun e => match e with ENew t => [t_name t] | _ => [] end) (EReport r) = @nil name) by reflexivity.
  unfold evs_news in *.
  destruct d as [ans n vs doc|ans n ms doc|ans n ms doc|ans n codes doc|ans n ms doc];
    cbn [decl_evs decl_refs]; rewrite !flat_map_app, (proj_annots _ H0);
    rewrite ?(proj_values _ H0), ?(proj_codes _ H0), ?(proj_members _ H0); try reflexivity.
  - cbn [app flat_map]. rewrite app_nil_r, !flat_map_map, map_flat_map.
    apply flat_map_ext. intros m. apply Hr.
  - cbn [app flat_map]. rewrite app_nil_r, !flat_map_map, map_flat_map.
    apply flat_map_ext. intros m. apply Hr.
  - cbn [app flat_map]. rewrite app_nil_r, !flat_map_flat_map, map_flat_map.
    apply flat_map_ext. intros [x|x]; cbn [rmember_evs].
    + rewrite (proj_method _ H0), !flat_map_map, map_flat_map. apply flat_map_ext. intros p. apply Hr.
    + rewrite (proj_locator _ H0), flat_map_flat_map. simpl.
      rewrite (flat_map_nil _ (ld_members x)); [reflexivity|]. now intros [].
Qed.

Lemma decl_ruses_spec d : evs_ruses (decl_evs d) = map parse_using_case (decl_targets d).
Proof.
  assert (Hr : forall r, evs_ruses (ref_evs r) = []) by now intros [].
  assert (H0 : forall r, (fun e => match e with EUseRes n => [n] | _ => [] end) (EReport r) = @nil name) by reflexivity.
  unfold evs_ruses in *.
  destruct d as [ans n vs doc|ans n ms doc|ans n ms doc|ans n codes doc|ans n ms doc];
    cbn [decl_evs decl_targets]; rewrite !flat_map_app, (proj_annots _ H0);
    rewrite ?(proj_values _ H0), ?(proj_codes _ H0), ?(proj_members _ H0); try reflexivity.
  - cbn [app flat_map]. rewrite app_nil_r, !flat_map_map. apply flat_map_nil. intros m _. apply Hr.
  - cbn [app flat_map]. rewrite app_nil_r, !flat_map_map. apply flat_map_nil. intros m _. apply Hr.
  - cbn [app flat_map]. rewrite app_nil_r, !flat_map_flat_map, map_flat_map.
    apply flat_map_ext. intros [x|x]; cbn [rmember_evs member_targets map].
    + rewrite (proj_method _ H0), !flat_map_map. apply flat_map_nil. intros p _. apply Hr.
    + rewrite (proj_locator _ H0), flat_map_flat_map, map_flat_map. apply flat_map_ext. now intros [].
Qed.

Lemma decl_decls_spec d : evs_decls (decl_evs d) = map parse_using_case (decl_types d).
Proof.
  assert (Hr : forall r, evs_decls (ref_evs r) = []) by now intros [].
  assert (H0 : forall r, (fun e => match e with EDecl _ n _ => [n] | _ => [] end) (EReport r) = @nil name) by reflexivity.
  unfold evs_decls in *.
  destruct d as [ans n vs doc|ans n ms doc|ans n ms doc|ans n codes doc|ans n ms doc];
    cbn [decl_evs decl_types]; rewrite !flat_map_app, (proj_annots _ H0);
    rewrite ?(proj_values _ H0), ?(proj_codes _ H0), ?(proj_members _ H0); try reflexivity.
  - cbn [app]. rewrite flat_map_map, flat_map_nil; [reflexivity|]. intros m _. apply Hr.
  - cbn [app]. rewrite flat_map_map, flat_map_nil; [reflexivity|]. intros m _. apply Hr.
  - cbn [app flat_map map]. rewrite app_nil_r, flat_map_flat_map. apply flat_map_nil.
    intros [x|x] _; cbn [rmember_evs].
    + rewrite (proj_method _ H0), !flat_map_map. apply flat_map_nil. intros p _. apply Hr.
    + rewrite (proj_locator _ H0), flat_map_flat_map. apply flat_map_nil. now intros [].
Qed.

Lemma decl_rdecls_spec d : evs_rdecls (decl_evs d) = map parse_using_case (decl_resources d).
Proof.
  assert (Hr : forall r, evs_rdecls (ref_evs r) = []) by now intros [].
  assert (H0 : forall r, (fun e => match e with EDeclRes n _ => [n] | _ => [] end) (EReport r) = @nil name) by reflexivity.
  unfold evs_rdecls in *.
  destruct d as [ans n vs doc|ans n ms doc|ans n ms doc|ans n codes doc|ans n ms doc];
    cbn [decl_evs decl_resources]; rewrite !flat_map_app, (proj_annots _ H0);
    rewrite ?(proj_values _ H0), ?(proj_codes _ H0), ?(proj_members _ H0); try reflexivity.
  - cbn [app]. rewrite flat_map_map, flat_map_nil; [reflexivity|]. intros m _. apply Hr.
  - cbn [app]. rewrite flat_map_map, flat_map_nil; [reflexivity|]. intros m _. apply Hr.
  - cbn [app flat_map map]. rewrite flat_map_flat_map, flat_map_nil; [reflexivity|].
    intros [x|x] _; cbn [rmember_evs].
    + rewrite (proj_method _ H0), !flat_map_map. apply flat_map_nil. intros p _. apply Hr.
    + rewrite (proj_locator _ H0), flat_map_flat_map. apply flat_map_nil. now intros [].
Qed.

Lemma decl_edecls_spec d : evs_edecls (decl_evs d) = map parse_using_case (decl_errors d).
Proof.
  assert (Hr : forall r, evs_edecls (ref_evs r) = []) by now intros [].
  assert (H0 : forall r, (fun e => match e with EDeclErr x => [e_name x] | _ => [] end) (EReport r) = @nil name) by reflexivity.
  unfold evs_edecls in *.
  destruct d as [ans n vs doc|ans n ms doc|ans n ms doc|ans n codes doc|ans n ms doc];
    cbn [decl_evs decl_errors]; rewrite !flat_map_app, (proj_annots _ H0);
    rewrite ?(proj_values _ H0), ?(proj_codes _ H0), ?(proj_members _ H0); try reflexivity.
  - cbn [app]. rewrite flat_map_map, flat_map_nil; [reflexivity|]. intros m _. apply Hr.
  - cbn [app]. rewrite flat_map_map, flat_map_nil; [reflexivity|]. intros m _. apply Hr.
  - cbn [app flat_map map]. rewrite flat_map_flat_map, flat_map_nil; [reflexivity|].
    intros [x|x] _; cbn [rmember_evs].
    + rewrite (proj_method _ H0), !flat_map_map. apply flat_map_nil. intros p _. apply Hr.
    + rewrite (proj_locator _ H0), flat_map_flat_map. apply flat_map_nil. now intros [].
Qed.

Lemma files_proj {A} (f : ev -> list A) fs : (forall r, f (EReport r) = []) ->
  flat_map f (flat_map file_evs fs) = flat_map (fun d => flat_map f (decl_evs d)) (all_decls fs).
Proof.
  intros Hf. unfold all_decls. rewrite !flat_map_flat_map. apply flat_map_ext. intros x.
  unfold file_evs. cbn [flat_map]. rewrite Hf. apply flat_map_flat_map.
Qed.

Definition all_evs (fs : list file) : list ev := flat_map file_evs fs.

Lemma all_uses fs : evs_uses (all_evs fs) = map parse_using_case (type_uses (all_decls fs)).
Proof.
  unfold evs_uses, all_evs. rewrite files_proj by reflexivity. unfold type_uses.
  rewrite flat_map_flat_map, map_flat_map. apply flat_map_ext. exact decl_uses_spec.
Qed.
Lemma all_news fs : map name_key (evs_news (all_evs fs)) = derived_types (all_decls fs).
Proof.
  unfold evs_news, all_evs. rewrite files_proj by reflexivity. unfold derived_types.
  rewrite flat_map_flat_map, map_flat_map. apply flat_map_ext. exact decl_news_spec.
Qed.
Lemma all_decls_spec fs : evs_decls (all_evs fs) = map parse_using_case (declared_types (all_decls fs)).
Proof.
  unfold evs_decls, all_evs. rewrite files_proj by reflexivity. unfold declared_types.
  rewrite map_flat_map. apply flat_map_ext. exact decl_decls_spec.
Qed.
Lemma all_ruses fs : evs_ruses (all_evs fs) = map parse_using_case (resource_uses (all_decls fs)).
Proof.
  unfold evs_ruses, all_evs. rewrite files_proj by reflexivity. unfold resource_uses.
  rewrite map_flat_map. apply flat_map_ext. exact decl_ruses_spec.
Qed.
Lemma all_rdecls fs : evs_rdecls (all_evs fs) = map parse_using_case (declared_resources (all_decls fs)).
Proof.
  unfold evs_rdecls, all_evs. rewrite files_proj by reflexivity. unfold declared_resources.
  rewrite map_flat_map. apply flat_map_ext. exact decl_rdecls_spec.
Qed.
Lemma all_edecls fs : evs_edecls (all_evs fs) = map parse_using_case (declared_errors (all_decls fs)).
Proof.
  unfold evs_edecls, all_evs. rewrite files_proj by reflexivity. unfold declared_errors.
  rewrite map_flat_map. apply flat_map_ext. exact decl_edecls_spec.
Qed.

(** All the events of the declarations are well formed. *)
Lemma report_only_ok l : report_only l -> Forall ok_ev l.
Proof. apply Forall_impl. intros []; simpl; tauto. Qed.

Lemma fold_add_value_name vs t : t_name (fold_left (fun t v => add_value v t) vs t) = t_name t.
Proof. revert t. induction vs; intros t; [reflexivity|]. simpl. now rewrite IHvs. Qed.
Lemma fold_add_attribute_name vs t : t_name (fold_left (fun t v => add_attribute v t) vs t) = t_name t.
Proof. revert t. induction vs; intros t; [reflexivity|]. simpl. now rewrite IHvs. Qed.
Lemma fill_type_name doc ans t : t_name (fill_type doc ans t) = t_name t.
Proof. unfold fill_type. destruct (String.eqb doc ""); reflexivity. Qed.
Lemma fill_resource_name doc ans ms r : r_name (fill_resource doc ans ms r) = r_name r.
Proof.
  unfold fill_resource.
  assert (H : forall ms r, r_name (fold_left (fun r m => match m with inl x => add_method x r | inr x => add_locator x r end) ms r) = r_name r).
  { clear. induction ms as [|[m|m] ms IH]; intros r; [reflexivity| |]; simpl; now rewrite IH. }
  now rewrite H.
Qed.

Lemma ref_ok r : Forall ok_ev (ref_evs r).
Proof. destruct r; repeat constructor. Qed.

Lemma flat_ok {A} (f : A -> list ev) l : (forall a, Forall ok_ev (f a)) -> Forall ok_ev (flat_map f l).
Proof. intros H. induction l; simpl; [constructor|]. apply Forall_app. auto. Qed.

Lemma member_ok m : Forall ok_ev (member_evs m).
Proof. apply Forall_app. split; [apply report_only_ok, annots_report_only|apply ref_ok]. Qed.

Lemma rmember_ok m : Forall ok_ev (rmember_evs m).
Proof.
  destruct m as [d|d]; simpl.
  - apply Forall_app. split; [apply report_only_ok, annots_report_only|]. apply flat_ok. intros p.
    apply Forall_app. split; [apply report_only_ok, annots_report_only|].
    apply Forall_app. split; [apply ref_ok|].
    destruct (pd_default p); [apply report_only_ok, literal_report_only|constructor].
  - apply Forall_app. split; [apply report_only_ok, annots_report_only|].
    apply Forall_app. split; [apply flat_ok; intros []; repeat constructor|].
    destruct (l_target (loc_of d)); repeat constructor.
Qed.

Lemma decl_ok d : Forall ok_ev (decl_evs d).
Proof.
  destruct d as [ans n vs doc|ans n ms doc|ans n ms doc|ans n codes doc|ans n ms doc];
    cbn [decl_evs]; apply Forall_app; (split; [apply report_only_ok, annots_report_only|]);
    apply Forall_app; split; try (repeat constructor; fail).
  - apply flat_ok. intros v. apply report_only_ok, annots_report_only.
  - constructor; [|constructor]. intros t. now rewrite fold_add_value_name, fill_type_name.
  - apply flat_ok, member_ok.
  - constructor; [|constructor]. intros t. now rewrite fold_add_attribute_name, fill_type_name.
  - apply flat_ok, member_ok.
  - constructor; [|constructor]. intros t. now rewrite fold_add_attribute_name, fill_type_name.
  - apply flat_ok. intros c. apply report_only_ok, code_report_only.
  - apply flat_ok, rmember_ok.
  - constructor; [|constructor]. intros r. apply fill_resource_name.
Qed.

Lemma all_ok fs : Forall ok_ev (all_evs fs).
Proof. apply flat_ok. intros f. constructor; [exact I|]. apply flat_ok, decl_ok. Qed.

Lemma load_inv n fs :
  type_inv builtin_key (all_evs fs) (load_files fs (fresh n)) /\
  res_inv (all_evs fs) (load_files fs (fresh n)).
Proof.
  rewrite load_files_run.
  apply (run_inv builtin_key (all_evs fs) (all_ok fs) (fresh n) []).
  - apply fresh_ok.
  - apply fresh_type_inv.
  - apply fresh_res_inv.
Qed.
