(** Proofs about the reader: messages, contents of the declared concepts, references. *)
From Coq Require Import Ascii String Bool Arith ZArith Lia Permutation Sorted List.
From Verif Require Import GoStrings GoStringsProofs GoMap GoMapProofs NamesModel NamesSpec NamesProofs
  ConceptsModel ConceptsSpec ConceptsProofs ReporterModel ReaderModel ReaderSpec ReaderProofs.
Import ListNotations.
Local Open Scope string_scope.

Lemma sapp_inv_tail a b c : a ++ c = b ++ c -> a = b.
Proof.
  intros H. assert (L : String.length a = String.length b).
  { apply (f_equal String.length) in H. rewrite !sapp_length in H. lia. }
  revert b H L. induction a as [|x a IH]; intros [|y b] H L; try discriminate; [reflexivity|].
  simpl in H. injection H as -> H. f_equal. apply IH; auto.
Qed.

Lemma quoted_inj p a b s : p ++ a ++ s = p ++ b ++ s -> a = b.
Proof. intros H. apply sapp_inv_head in H. now apply sapp_inv_tail in H. Qed.

(** * Undefined concepts at the end (C12) *)

Lemma single_version s v fs rs :
  let st := load_files fs (MkRState (new_version (parse_using_separator v "_")) [] [] rs) in
  let g := load_inputs [[(s, [(v, fs)])]] rs in
  g_utypes g = rs_utypes st /\ g_uresources g = rs_uresources st /\ g_reports g = rs_reports st.
Proof. repeat split. Qed.

(** Reports are only appended, and don't influence anything else. *)
Definition with_reports (rs : list report) (st : rstate) : rstate :=
  MkRState (rs_version st) (rs_utypes st) (rs_uresources st) (rs ++ rs_reports st)%list.

Lemma run_ev_reports rs st e : run_ev (with_reports rs st) e = with_reports rs (run_ev st e).
Proof.
  destruct e as [r|n|t|k n fill|n|n fill|x]; cbn [run_ev].
  - unfold add_report, with_reports. simpl. now rewrite app_assoc.
  - unfold refer_type. cbn [rs_version with_reports].
    destruct (find_type n (rs_version st)); reflexivity.
  - cbn [rs_version with_reports]. destruct (find_type (t_name t) (rs_version st)); reflexivity.
  - unfold declare_type. cbn [rs_version with_reports].
    destruct (find_type n (rs_version st)) as [t|]; [|reflexivity].
    unfold is_undefined_type. cbn [rs_utypes with_reports].
    destruct (mhas (name_key (t_name t)) (rs_utypes st)); [reflexivity|].
    unfold add_report, with_reports. simpl. now rewrite app_assoc.
  - cbn [rs_version with_reports]. destruct (find_resource n (rs_version st)); reflexivity.
  - cbn [rs_version with_reports]. destruct (find_resource n (rs_version st)) as [r|]; [|reflexivity].
    unfold is_undefined_resource. cbn [rs_uresources with_reports].
    destruct (mhas (name_key (r_name r)) (rs_uresources st)); [reflexivity|].
    unfold add_report, with_reports. simpl. now rewrite app_assoc.
  - cbn [rs_version with_reports]. destruct (find_error (e_name x) (rs_version st)); [|reflexivity].
    unfold add_report, with_reports. simpl. now rewrite app_assoc.
Qed.

Lemma run_reports l rs : forall st, run l (with_reports rs st) = with_reports rs (run l st).
Proof.
  induction l as [|e l IH]; intros st; [reflexivity|].
  change (run (e :: l) ?x) with (run l (run_ev x e)). now rewrite run_ev_reports, IH.
Qed.

Lemma load_reports fs v rs :
  load_files fs (MkRState v [] [] rs) = with_reports rs (load_files fs (MkRState v [] [] [])).
Proof.
  rewrite !load_files_run, <- run_reports. unfold with_reports. simpl. now rewrite app_nil_r.
Qed.

Lemma in_keys id ids : camel_identifier id -> Forall camel_identifier ids ->
  (In (key_of id) (map name_key (map parse_using_case ids)) <-> In id ids).
Proof.
  intros Hid Hids. rewrite map_map, in_map_iff. split.
  - intros (x & E & Hx). rewrite Forall_forall in Hids.
    apply lookup_key_injective in E; auto. now subst.
  - intros H. exists id. auto.
Qed.

Lemma type_report_iff n fs id rs : camel_source (all_decls fs) -> camel_identifier id ->
  (In (err ("Type '" ++ id ++ "' isn't completely defined"))
     (undefined_reports (MkGState rs (rs_utypes (load_files fs (fresh n)))
        (rs_uresources (load_files fs (fresh n))) [])) <->
   mhas (key_of id) (rs_utypes (load_files fs (fresh n))) = true).
Proof.
  intros (Hu & Hd & _) Hid. destruct (load_inv n fs) as [Ht _].
  set (st := load_files fs (fresh n)) in *.
  unfold undefined_reports. cbn [g_utypes g_uresources]. rewrite in_app_iff, !in_map_iff. split.
  - intros [([k m] & E & H)|([k m] & E & H)]; [|discriminate].
    unfold err in E. simpl in E.
    injection E as E. apply sapp_inv_tail in E. destruct (ti_names _ _ _ Ht k m H) as [-> Hin].
    assert (Hm : In m (evs_uses (all_evs fs))).
    { unfold evs_uses. apply in_flat_map. exists (EUse m). simpl. auto. }
    rewrite all_uses in Hm. apply in_map_iff in Hm as (x & <- & Hx).
    rewrite Forall_forall in Hu. rewrite camel_parse in E by auto. subst x.
    apply mhas_true. apply in_map_iff. eexists; split; [|exact H]. reflexivity.
  - intros H. left. apply mhas_true in H. apply in_map_iff in H as ([k m] & E & H). simpl in E. subst k.
    exists (key_of id, m). split; [|exact H]. destruct (ti_names _ _ _ Ht _ m H) as [E Hin].
    assert (Hm : In m (evs_uses (all_evs fs))).
    { unfold evs_uses. apply in_flat_map. exists (EUse m). simpl. auto. }
    rewrite all_uses in Hm. apply in_map_iff in Hm as (x & <- & Hx).
    rewrite Forall_forall in Hu. apply lookup_key_injective in E; auto. subst x. simpl.
    rewrite camel_parse by auto. reflexivity.
Qed.

Lemma resource_report_iff n fs id rs : camel_source (all_decls fs) -> camel_identifier id ->
  (In (err ("Resource '" ++ id ++ "' isn't completely defined"))
     (undefined_reports (MkGState rs (rs_utypes (load_files fs (fresh n)))
        (rs_uresources (load_files fs (fresh n))) [])) <->
   mhas (key_of id) (rs_uresources (load_files fs (fresh n))) = true).
Proof.
  intros (_ & _ & Hu & _) Hid. destruct (load_inv n fs) as [_ Ht].
  set (st := load_files fs (fresh n)) in *.
  unfold undefined_reports. cbn [g_utypes g_uresources]. rewrite in_app_iff, !in_map_iff. split.
  - intros [([k m] & E & H)|([k m] & E & H)]; [discriminate|].
    unfold err in E. simpl in E.
    injection E as E. apply sapp_inv_tail in E. destruct (ri_names _ _ Ht k m H) as [-> Hin].
    assert (Hm : In m (evs_ruses (all_evs fs))).
    { unfold evs_ruses. apply in_flat_map. exists (EUseRes m). simpl. auto. }
    rewrite all_ruses in Hm. apply in_map_iff in Hm as (x & <- & Hx).
    rewrite Forall_forall in Hu. rewrite camel_parse in E by auto. subst x.
    apply mhas_true. apply in_map_iff. eexists; split; [|exact H]. reflexivity.
  - intros H. right. apply mhas_true in H. apply in_map_iff in H as ([k m] & E & H). simpl in E. subst k.
    exists (key_of id, m). split; [|exact H]. destruct (ri_names _ _ Ht _ m H) as [E Hin].
    assert (Hm : In m (evs_ruses (all_evs fs))).
    { unfold evs_ruses. apply in_flat_map. exists (EUseRes m). simpl. auto. }
    rewrite all_ruses in Hm. apply in_map_iff in Hm as (x & <- & Hx).
    rewrite Forall_forall in Hu. apply lookup_key_injective in E; auto. subst x. simpl.
    rewrite camel_parse by auto. reflexivity.
Qed.

Lemma undefined_single s v fs rs id :
  (In id (undefined_reports (load_inputs [[(s, [(v, fs)])]] rs)) <->
   In id (undefined_reports (MkGState [] (rs_utypes (load_files fs (fresh (parse_using_separator v "_"))))
        (rs_uresources (load_files fs (fresh (parse_using_separator v "_")))) []))).
Proof.
  destruct (single_version s v fs rs) as (E1 & E2 & _).
  unfold undefined_reports. rewrite E1, E2, load_reports. reflexivity.
Qed.

Lemma undefined_types_reported s v fs rs id :
  camel_source (all_decls fs) -> camel_identifier id ->
  ~ builtin_key (key_of id) -> ~ In (key_of id) (derived_types (all_decls fs)) ->
  (In (err ("Type '" ++ id ++ "' isn't completely defined"))
     (undefined_reports (load_inputs [[(s, [(v, fs)])]] rs)) <->
   In id (type_uses (all_decls fs)) /\ ~ In id (declared_types (all_decls fs))).
Proof.
  intros Hc Hid Hb Hn. rewrite undefined_single, type_report_iff by assumption.
  destruct (load_inv (parse_using_separator v "_") fs) as [[_ _ Hu Hm] _].
  set (st := load_files fs (fresh (parse_using_separator v "_"))) in *.
  destruct Hc as (H1 & H2 & _).
  assert (Eu : used (all_evs fs) (key_of id) <-> In id (type_uses (all_decls fs))).
  { rewrite used_evs, all_uses. now apply in_keys. }
  assert (Ed : declared (all_evs fs) (key_of id) <-> In id (declared_types (all_decls fs))).
  { rewrite declared_evs, all_decls_spec. now apply in_keys. }
  assert (En : ~ introduced (all_evs fs) (key_of id)) by now rewrite introduced_evs, all_news.
  split.
  - intros H. apply Hu in H. tauto.
  - intros [H3 H4]. apply Hm; tauto.
Qed.

Lemma declared_types_not_undefined s v fs rs id :
  camel_source (all_decls fs) -> In id (declared_types (all_decls fs)) ->
  ~ In (err ("Type '" ++ id ++ "' isn't completely defined"))
      (undefined_reports (load_inputs [[(s, [(v, fs)])]] rs)).
Proof.
  intros Hc Hid. pose proof Hc as (_ & H2 & _). pose proof H2 as H2'.
  rewrite Forall_forall in H2. specialize (H2 id Hid).
  rewrite undefined_single, type_report_iff by assumption.
  destruct (load_inv (parse_using_separator v "_") fs) as [[_ _ Hu _] _].
  intros H. apply Hu in H as (_ & H & _). apply H.
  rewrite declared_evs, all_decls_spec. now apply in_keys.
Qed.

Lemma undefined_resources_reported s v fs rs id :
  camel_source (all_decls fs) -> camel_identifier id ->
  (In (err ("Resource '" ++ id ++ "' isn't completely defined"))
     (undefined_reports (load_inputs [[(s, [(v, fs)])]] rs)) <->
   In id (resource_uses (all_decls fs)) /\ ~ In id (declared_resources (all_decls fs))).
Proof.
  intros Hc Hid. rewrite undefined_single, resource_report_iff by assumption.
  destruct (load_inv (parse_using_separator v "_") fs) as [_ [_ _ Hu]].
  rewrite Hu, used_res_evs, declared_res_evs, all_ruses, all_rdecls.
  destruct Hc as (_ & _ & H1 & H2 & _). now rewrite !in_keys.
Qed.

(** * Repeated declarations (C13) *)

(** The other reports don't look like those of repeated declarations. *)
Definition other_message (r : report) : Prop :=
  has_prefix (rp_message r) "Type '" = false /\ has_prefix (rp_message r) "Resource '" = false /\
  has_prefix (rp_message r) "Error '" = false.
Definition quiet_ev (e : ev) : Prop := match e with EReport r => other_message r | _ => True end.

Lemma flat_quiet {A} (f : A -> list ev) l : (forall a, Forall quiet_ev (f a)) -> Forall quiet_ev (flat_map f l).
Proof. intros H. induction l; simpl; [constructor|]. apply Forall_app. auto. Qed.

Lemma literal_quiet l : Forall quiet_ev (literal_evs l).
Proof.
  destruct l as [b|d|t [u|]]; simpl; try constructor.
  - destruct (snd (atoi d)); repeat constructor.
  - repeat constructor.
  - constructor.
Qed.

Lemma annots_quiet l : Forall quiet_ev (annots_evs l).
Proof. apply flat_quiet. intros a. apply flat_quiet. intros p. apply literal_quiet. Qed.

Lemma ref_quiet r : Forall quiet_ev (ref_evs r).
Proof. destruct r; repeat constructor. Qed.

Lemma member_quiet m : Forall quiet_ev (member_evs m).
Proof. apply Forall_app. split; [apply annots_quiet|apply ref_quiet]. Qed.

Lemma rmember_quiet m : Forall quiet_ev (rmember_evs m).
Proof.
  destruct m as [d|d]; simpl.
  - apply Forall_app. split; [apply annots_quiet|]. apply flat_quiet. intros p.
    apply Forall_app. split; [apply annots_quiet|]. apply Forall_app. split; [apply ref_quiet|].
    destruct (pd_default p); [apply literal_quiet|constructor].
  - apply Forall_app. split; [apply annots_quiet|].
    apply Forall_app. split; [apply flat_quiet; intros []; repeat constructor|].
    destruct (l_target (loc_of d)); repeat constructor.
Qed.

Lemma decl_quiet d : Forall quiet_ev (decl_evs d).
Proof.
  destruct d as [ans n vs doc|ans n ms doc|ans n ms doc|ans n codes doc|ans n ms doc];
    cbn [decl_evs]; apply Forall_app; (split; [apply annots_quiet|]);
    apply Forall_app; split; try (repeat constructor; fail).
  - apply flat_quiet. intros v. apply annots_quiet.
  - apply flat_quiet, member_quiet.
  - apply flat_quiet, member_quiet.
  - apply flat_quiet. intros c. unfold code_evs. destruct (snd (atoi c)); repeat constructor.
  - apply flat_quiet, rmember_quiet.
Qed.

Lemma all_quiet fs : Forall quiet_ev (all_evs fs).
Proof. apply flat_quiet. intros f. constructor; [repeat constructor|]. apply flat_quiet, decl_quiet. Qed.

(** A message about a repeated type. *)
Definition dup_type (x : string) : report := err ("Type '" ++ x ++ "' is already defined").
Definition dup_resource (x : string) : report := err ("Resource '" ++ x ++ "' is already defined").
Definition dup_error (x : string) : report := err ("Error '" ++ x ++ "' is already defined").

(** The sequence contains a declaration, and something before. *)
Definition repeated (before : list ev -> name -> Prop) (sel : ev -> list name) (l : list ev) (x : string) : Prop :=
  exists l1 e l2 n, l = (l1 ++ e :: l2)%list /\ sel e = [n] /\ camel n = x /\ before l1 n.

Lemma repeated_snoc before sel l e x : repeated before sel (l ++ [e])%list x <->
  repeated before sel l x \/ exists n, sel e = [n] /\ camel n = x /\ before l n.
Proof.
  split.
  - intros (l1 & e' & l2 & n & E & H1 & H2 & H3).
    destruct l2 as [|y l2] using rev_ind.
    + apply app_inj_tail in E as [-> ->]. right. eauto.
    + change (l1 ++ e' :: l2 ++ [y])%list with (l1 ++ (e' :: l2) ++ [y])%list in E.
      rewrite app_assoc in E. apply app_inj_tail in E as [-> ->]. left. exists l1, e', l2, n. auto.
  - intros [(l1 & e' & l2 & n & -> & H)|(n & H)].
    + exists l1, e', (l2 ++ [e])%list, n. rewrite <- app_assoc. auto.
    + exists l, e, [], n. auto.
Qed.

Definition sel_type (e : ev) : list name := match e with EDecl _ n _ => [n] | _ => [] end.
Definition sel_res (e : ev) : list name := match e with EDeclRes n _ => [n] | _ => [] end.
Definition sel_err (e : ev) : list name := match e with EDeclErr x => [e_name x] | _ => [] end.

Lemma other_not_dup r x : other_message r -> r <> dup_type x /\ r <> dup_resource x /\ r <> dup_error x.
Proof.
  intros (H1 & H2 & H3). unfold dup_type, dup_resource, dup_error.
  split; [|split]; intros ->; unfold err, rp_message in *; rewrite has_prefix_app in *; discriminate.
Qed.

(** State of the reader after some events, for reports. *)
Definition type_blocked (st : rstate) (n : name) : Prop :=
  mhas (name_key n) (v_types (rs_version st)) = true /\ mhas (name_key n) (rs_utypes st) = false.
Definition res_blocked (st : rstate) (n : name) : Prop :=
  mhas (name_key n) (v_resources (rs_version st)) = true /\ mhas (name_key n) (rs_uresources st) = false.
Definition err_blocked (st : rstate) (n : name) : Prop :=
  mhas (name_key n) (v_errors (rs_version st)) = true.

Lemma run_ev_dups st e x : start_ok (rs_version st) -> quiet_ev e ->
  (In (dup_type x) (rs_reports (run_ev st e)) <->
   In (dup_type x) (rs_reports st) \/ exists n, sel_type e = [n] /\ camel n = x /\ type_blocked st n) /\
  (In (dup_resource x) (rs_reports (run_ev st e)) <->
   In (dup_resource x) (rs_reports st) \/ exists n, sel_res e = [n] /\ camel n = x /\ res_blocked st n) /\
  (In (dup_error x) (rs_reports (run_ev st e)) <->
   In (dup_error x) (rs_reports st) \/ exists n, sel_err e = [n] /\ camel n = x /\ err_blocked st n).
Proof.
  intros [Hix Hixr] Hq.
  assert (Hsame : forall (st' : rstate), rs_reports st' = rs_reports st ->
     (sel_type e = [] \/ exists n, sel_type e = [n] /\ ~ type_blocked st n) ->
     (sel_res e = [] \/ exists n, sel_res e = [n] /\ ~ res_blocked st n) ->
     (sel_err e = [] \/ exists n, sel_err e = [n] /\ ~ err_blocked st n) ->
     (In (dup_type x) (rs_reports st') <->
      In (dup_type x) (rs_reports st) \/ exists n, sel_type e = [n] /\ camel n = x /\ type_blocked st n) /\
     (In (dup_resource x) (rs_reports st') <->
      In (dup_resource x) (rs_reports st) \/ exists n, sel_res e = [n] /\ camel n = x /\ res_blocked st n) /\
     (In (dup_error x) (rs_reports st') <->
      In (dup_error x) (rs_reports st) \/ exists n, sel_err e = [n] /\ camel n = x /\ err_blocked st n)).
  { intros st' -> H1 H2 H3. repeat split; intros H; auto.
    - destruct H as [H|(n & E & _ & Hb)]; [auto|]. destruct H1 as [H1|(m & H1 & H4)]; [congruence|].
      rewrite H1 in E. injection E as ->. contradiction.
    - destruct H as [H|(n & E & _ & Hb)]; [auto|]. destruct H2 as [H2|(m & H2 & H4)]; [congruence|].
      rewrite H2 in E. injection E as ->. contradiction.
    - destruct H as [H|(n & E & _ & Hb)]; [auto|]. destruct H3 as [H3|(m & H3 & H4)]; [congruence|].
      rewrite H3 in E. injection E as ->. contradiction. }
  destruct e as [r|n|t|kd n fill|n|n fill|y]; cbn [run_ev].
  - (* report *)
    simpl in Hq. destruct (other_not_dup r x Hq) as (H1 & H2 & H3). cbn [sel_type sel_res sel_err].
    unfold add_report. cbn [rs_reports]. rewrite !in_app_iff.
    repeat split; intros H.
    + destruct H as [H|[H|[]]]; [auto|congruence].
    + destruct H as [H|(m & E & _)]; [auto|discriminate].
    + destruct H as [H|[H|[]]]; [auto|congruence].
    + destruct H as [H|(m & E & _)]; [auto|discriminate].
    + destruct H as [H|[H|[]]]; [auto|congruence].
    + destruct H as [H|(m & E & _)]; [auto|discriminate].
  - unfold refer_type. destruct (find_type n (rs_version st)); apply Hsame; simpl; auto.
  - destruct (find_type (t_name t) (rs_version st)); apply Hsame; simpl; auto.
  - unfold declare_type. destruct (find_type n (rs_version st)) as [t|] eqn:E.
    + assert (Ek : name_key (t_name t) = name_key n) by exact (indexed_get t_name _ _ _ Hix E).
      unfold is_undefined_type. rewrite Ek. destruct (mhas (name_key n) (rs_utypes st)) eqn:Eu.
      * apply Hsame; simpl; auto. right. exists n. split; [reflexivity|]. intros [_ H]. congruence.
      * cbn [sel_type sel_res sel_err]. unfold add_report. cbn [rs_reports]. rewrite !in_app_iff.
        repeat split; intros H.
        -- destruct H as [H|[H|[]]]; [auto|]. right. exists n. split; [reflexivity|].
           unfold dup_type, err in H. injection H as H. apply sapp_inv_tail in H. split; [assumption|].
           split; [now rewrite mhas_find, E|assumption].
        -- destruct H as [H|(m & Em & <- & _)]; [auto|]. injection Em as <-. right. left. reflexivity.
        -- destruct H as [H|[H|[]]]; [auto|discriminate].
        -- destruct H as [H|(m & Em & _)]; [auto|discriminate].
        -- destruct H as [H|[H|[]]]; [auto|discriminate].
        -- destruct H as [H|(m & Em & _)]; [auto|discriminate].
    + apply Hsame; simpl; auto. right. exists n. split; [reflexivity|]. intros [H _].
      rewrite mhas_find, E in H. discriminate.
  - destruct (find_resource n (rs_version st)); apply Hsame; simpl; auto.
  - destruct (find_resource n (rs_version st)) as [t|] eqn:E.
    + assert (Ek : name_key (r_name t) = name_key n) by exact (indexed_get r_name _ _ _ Hixr E).
      unfold is_undefined_resource. rewrite Ek. destruct (mhas (name_key n) (rs_uresources st)) eqn:Eu.
      * apply Hsame; simpl; auto. right. exists n. split; [reflexivity|]. intros [_ H]. congruence.
      * cbn [sel_type sel_res sel_err]. unfold add_report. cbn [rs_reports]. rewrite !in_app_iff.
        repeat split; intros H.
        -- destruct H as [H|[H|[]]]; [auto|discriminate].
        -- destruct H as [H|(m & Em & _)]; [auto|discriminate].
        -- destruct H as [H|[H|[]]]; [auto|]. right. exists n. split; [reflexivity|].
           unfold dup_resource, err in H. injection H as H. apply sapp_inv_tail in H. split; [assumption|].
           split; [now rewrite mhas_find_res, E|assumption].
        -- destruct H as [H|(m & Em & <- & _)]; [auto|]. injection Em as <-. right. left. reflexivity.
        -- destruct H as [H|[H|[]]]; [auto|discriminate].
        -- destruct H as [H|(m & Em & _)]; [auto|discriminate].
    + apply Hsame; simpl; auto. right. exists n. split; [reflexivity|]. intros [H _].
      rewrite mhas_find_res, E in H. discriminate.
  - destruct (find_error (e_name y) (rs_version st)) as [t|] eqn:E.
    + cbn [sel_type sel_res sel_err]. unfold add_report. cbn [rs_reports]. rewrite !in_app_iff.
      repeat split; intros H.
      * destruct H as [H|[H|[]]]; [auto|discriminate].
      * destruct H as [H|(m & Em & _)]; [auto|discriminate].
      * destruct H as [H|[H|[]]]; [auto|discriminate].
      * destruct H as [H|(m & Em & _)]; [auto|discriminate].
      * destruct H as [H|[H|[]]]; [auto|]. right. exists (e_name y). split; [reflexivity|].
        unfold dup_error, err in H. injection H as H. apply sapp_inv_tail in H. split; [assumption|].
        unfold err_blocked, mhas, find_error in *. now rewrite E.
      * destruct H as [H|(m & Em & <- & _)]; [auto|]. injection Em as <-. right. left. reflexivity.
    + apply Hsame; simpl; auto. right. exists (e_name y). split; [reflexivity|].
      unfold err_blocked, mhas, find_error in *. now rewrite E.
Qed.
