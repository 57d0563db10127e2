(** Proofs about the types of the versions that are read: where they come from. *)
From Coq Require Import Ascii String Bool Arith ZArith Lia Permutation Sorted List.
From Verif Require Import GoStrings GoStringsProofs GoMap GoMapProofs NamesModel NamesSpec NamesProofs
  ConceptsModel ConceptsSpec ConceptsProofs BindingModel ReporterModel ReaderModel ChecksModel ReaderSpec ReaderProofs
  ReaderProofs2 ReaderProofs3 ReaderProofs4 ReaderProofs5 ReaderProofs6 ReaderProofs7 ReaderProofs8 ReaderProofs10 SourceSpec.
Import ListNotations.
Local Open Scope string_scope.

(** The events of the source. *)
Definition source_ev (ds : list decl) (e : ev) : Prop :=
  match e with
  | ENew t => (exists x, In (RList x) (references ds) /\ t = list_type (parse_using_case x)) \/
              (exists i x, In (RMap i x) (references ds) /\ t = map_type (parse_using_case i) (parse_using_case x))
  | EDecl kd n fill => exists d, In d ds /\ forall m, name_key m = name_key n -> declared_as d (fill (set_kind kd (new_type m)))
  | _ => True
  end.

Lemma report_only_source ds l : report_only l -> Forall (source_ev ds) l.
Proof. apply Forall_impl. intros []; simpl; tauto. Qed.

Lemma ref_source ds r : In r (references ds) -> Forall (source_ev ds) (ref_evs r).
Proof.
  intros H. destruct r as [m|m|i m]; cbn [ref_evs]; repeat (first [apply Forall_nil | apply Forall_cons]); simpl; eauto 8.
Qed.

Lemma all_source fs : Forall (source_ev (all_decls fs)) (all_evs fs).
Proof.
  apply flat_forall. intros f Hf. constructor; [exact I|]. apply flat_forall. intros d Hd0.
  assert (Hd : In d (all_decls fs)) by (apply in_flat_map; eauto).
  assert (Hr : forall r, In r (decl_refs d) -> In r (references (all_decls fs))) by (intros r Hr; apply in_flat_map; eauto).
  destruct d as [ans n vs doc|ans n ms doc|ans n ms doc|ans n codes doc|ans n ms doc];
    cbn [decl_evs]; apply Forall_app; (split; [apply report_only_source, annots_report_only|]); apply Forall_app; split.
  - apply flat_forall. intros v _. apply report_only_source, annots_report_only.
  - repeat constructor. exists (DEnum ans n vs doc). split; [exact Hd|]. intros m Hm.
    destruct (enum_contents doc (map annotation_of ans) m (map value_of vs)) as (E1&?&?&?&?&?).
    cbn [declared_as]. rewrite E1. repeat split; assumption.
  - apply flat_forall. intros v Hv. apply Forall_app. split; [apply report_only_source, annots_report_only|].
    apply ref_source, Hr. cbn [decl_refs]. now apply in_map.
  - repeat constructor. exists (DClass ans n ms doc). split; [exact Hd|]. intros m Hm.
    destruct (struct_contents doc (map annotation_of ans) ClassType m (map attribute_of ms)) as (E1&?&?&?&?&?).
    cbn [declared_as]. rewrite E1. repeat split; assumption.
  - apply flat_forall. intros v Hv. apply Forall_app. split; [apply report_only_source, annots_report_only|].
    apply ref_source, Hr. cbn [decl_refs]. now apply in_map.
  - repeat constructor. exists (DStruct ans n ms doc). split; [exact Hd|]. intros m Hm.
    destruct (struct_contents doc (map annotation_of ans) StructType m (map attribute_of ms)) as (E1&?&?&?&?&?).
    cbn [declared_as]. rewrite E1. repeat split; assumption.
  - apply flat_forall. intros v _. apply report_only_source, code_report_only.
  - repeat constructor.
  - apply flat_forall. intros m Hm. destruct m as [x|x]; cbn [rmember_evs].
    + apply Forall_app. split; [apply report_only_source, annots_report_only|]. apply flat_forall. intros p Hp.
      apply Forall_app. split; [apply report_only_source, annots_report_only|]. apply Forall_app. split.
      * apply ref_source, Hr. cbn [decl_refs]. apply in_flat_map. exists (RMMethod x). split; [exact Hm|]. now apply in_map.
      * destruct (pd_default p); [apply report_only_source, literal_report_only|constructor].
    + apply Forall_app. split; [apply report_only_source, annots_report_only|]. apply Forall_app. split.
      * apply flat_forall. intros y _. destruct y; repeat constructor.
      * destruct (l_target (loc_of x)); repeat constructor.
  - repeat constructor.
Qed.

(** The types of a version that isn't complete yet. *)
Definition pre_origin (ds : list decl) (v : version) (k : key) (t : typ) : Prop := t_kind t = UndefinedType \/ origin ds v k t.
Definition loaded (ds : list decl) (v0 : version) (st : rstate) : Prop :=
  forall k t, mget k (v_types (rs_version st)) = Some t -> pre_origin ds v0 k t.

Lemma loaded_step ds v0 st e : ok_ev e -> source_ev ds e -> start_ok (rs_version st) -> blank st -> loaded ds v0 st -> loaded ds v0 (run_ev st e).
Proof.
  intros Hok Hs [Hix _] [B _] L. destruct e as [r|n|t|kd n fill|n|n fill|x]; cbn [run_ev]; try exact L.
  - unfold refer_type. destruct (find_type n (rs_version st)) eqn:E; [exact L|].
    intros k t. simpl. rewrite mget_mset. destruct (String.eqb k (name_key n)); [|apply L]. intros [= <-]. now left.
  - destruct (find_type (t_name t) (rs_version st)) eqn:E; [exact L|].
    intros k t'. simpl. rewrite mget_mset. destruct (String.eqb k (name_key (t_name t))) eqn:Ek; [|apply L].
    intros [= <-]. apply String.eqb_eq in Ek. subst k. right. destruct Hs as [(y & Hy & ->)|(i & y & Hy & ->)].
    + apply (from_list ds v0 y); auto.
    + apply (from_map ds v0 i y); auto.
  - simpl in Hok, Hs. destruct Hs as (d & Hd & Hf). unfold declare_type. destruct (find_type n (rs_version st)) as [t|] eqn:E.
    + unfold is_undefined_type. destruct (mhas (name_key (t_name t)) (rs_utypes st)) eqn:Eu; [|exact L].
      unfold find_type in E. pose proof (indexed_get _ _ _ _ Hix E) as En. fold (name_key (t_name t)) in En.
      intros k t'. simpl. rewrite Hok. simpl. rewrite mget_mset. destruct (String.eqb k (name_key (t_name t))) eqn:Ek; [|apply L].
      intros [= <-]. apply String.eqb_eq in Ek. subst k. right.
      unfold mhas in Eu. destruct (mget (name_key (t_name t)) (rs_utypes st)) as [m|] eqn:Em; [|discriminate]. clear Eu. apply B in Em. rewrite En in Em. fold (name_key n) in E. rewrite E in Em. injection Em as ->.
      specialize (Hf m En). rewrite <- (Hok (set_kind kd (new_type m))) at 1. simpl.
      replace (name_key m) with (name_key (t_name (fill (set_kind kd (new_type m))))) by (now rewrite Hok).
      now apply from_declaration with d.
    + intros k t'. simpl. rewrite Hok. simpl. rewrite mget_mset. destruct (String.eqb k (name_key n)) eqn:Ek; [|apply L].
      intros [= <-]. apply String.eqb_eq in Ek. subst k. right. specialize (Hf n eq_refl).
      replace (name_key n) with (name_key (t_name (fill (set_kind kd (new_type n))))) by (now rewrite Hok).
      now apply from_declaration with d.
  - destruct (find_resource n (rs_version st)); exact L.
  - destruct (find_resource n (rs_version st)) as [r|]; [|exact L]. destruct (is_undefined_resource r st); exact L.
  - destruct (find_error (e_name x) (rs_version st)); exact L.
Qed.

Lemma loaded_run ds v0 l : forall st, Forall ok_ev l -> Forall (source_ev ds) l -> start_ok (rs_version st) -> blank st -> loaded ds v0 st -> loaded ds v0 (run l st).
Proof.
  induction l as [|e l IH]; intros st Ho Hs S B L; [exact L|]. inversion Ho as [|? ? O1 O2]; subst. inversion Hs as [|? ? S1 S2]; subst.
  cbn [run fold_left]. apply IH; auto.
  - now apply run_ev_indexed.
  - now apply blank_step.
  - now apply loaded_step.
Qed.

Lemma fresh_loaded ds v0 n : loaded ds v0 (fresh n).
Proof.
  intros k t H. right. destruct (builtins_only n k t H) as [[[id bk] kd] [Hin Hb]]. simpl in Hb.
  assert (P : In (bk, kd) predefined_kinds) by (apply predefined_builtins; eauto).
  destruct Hb as [(-> & Hk & _)|(-> & Hk & _ & He)].
  - apply from_predefined. now rewrite Hk.
  - apply (from_predefined_list ds v0 (bk ++ "_list") bk); [|exact Hk|exact He]. split; [|reflexivity]. apply in_map_iff. now exists (bk, kd).
Qed.

Lemma files_loaded fs v0 n : loaded (all_decls fs) v0 (load_files fs (fresh n)).
Proof.
  rewrite load_files_run. apply loaded_run.
  - apply all_ok.
  - apply all_source.
  - apply fresh_ok.
  - split; intros k x H; discriminate H.
  - apply fresh_loaded.
Qed.

(** What is known of the version that is returned. *)
Lemma returned_loaded sd vd fs rs0 m rs s v :
  read [[(sd, [(vd, fs)])]] rs0 = Done (ROk m, rs) -> in_model m s -> in_service s v ->
  v = ensure_lists (rs_version (load_files fs (fresh (parse_using_separator vd "_")))) /\
  start_ok (rs_version (load_files fs (fresh (parse_using_separator vd "_")))).
Proof.
  intros E Hs Hv. apply read_spec in E. cbv zeta in E. destruct E as (cs & Ec & -> & Ed).
  symmetry in Ed. apply (proj1 (decide_spec _ _)) in Ed as [Hn ->].
  destruct (returned_version _ rs0 s v Hs Hv) as (s1 & v1 & Hs1 & Hv1 & -> & -> & Hok1 & _).
  pose proof (single_model sd vd fs rs0 s1 v1 Hs1 Hv1) as Ev. cbv zeta in Ev.
  rewrite load_reports in Ev. unfold with_reports in Ev. cbn [rs_version] in Ev. rewrite Ev in *. split; [reflexivity|exact Hok1].
Qed.

Lemma returned_origin sd vd fs rs0 m rs s v :
  read [[(sd, [(vd, fs)])]] rs0 = Done (ROk m, rs) -> in_model m s -> in_service s v ->
  forall k t, type_at k v = Some t -> origin (all_decls fs) v k t.
Proof.
  intros E Hs Hv k t Ht. pose proof (single_version_defined _ _ _ _ _ _ _ _ _ _ E Hs Hv Ht) as Hd.
  destruct (returned_loaded _ _ _ _ _ _ _ _ E Hs Hv) as [-> Hok].
  set (w := rs_version (load_files fs (fresh (parse_using_separator vd "_")))) in *.
  destruct (ensure_lists_spec w (proj1 Hok)) as (_ & _ & _ & E4 & E5 & _). cbv zeta in *.
  destruct (E5 k t Ht) as [Hw|(te & Hte & Hl & -> & _ & Hk & He)].
  - destruct (files_loaded fs (ensure_lists w) (parse_using_separator vd "_") k t Hw) as [H|H]; [contradiction|exact H].
  - apply (from_type (all_decls fs) (ensure_lists w) (name_key (t_name te)) te t); auto.
    intros Hk'. unfold is_list in Hl. now rewrite Hk' in Hl.
Qed.

(** The references denote types that are completely defined, and they aren't lists or maps of lists or maps. *)
Lemma reference_exists sd vd fs rs0 m rs s v :
  read [[(sd, [(vd, fs)])]] rs0 = Done (ROk m, rs) -> in_model m s -> in_service s v ->
  forall r, In r (references (all_decls fs)) -> forall k, k = ref_key r \/ In k (map key_of (ref_uses r)) ->
  exists t, type_at k (rs_version (load_files fs (fresh (parse_using_separator vd "_")))) = Some t /\ type_at k v = Some t /\ t_kind t <> UndefinedType.
Proof.
  intros E Hs Hv r Hr k Hk. destruct (ref_key_mentioned fs r Hr) as [U1 U2].
  assert (M : mhas k (v_types (rs_version (load_files fs (fresh (parse_using_separator vd "_"))))) = true).
  { rewrite load_files_run. fold (all_evs fs). apply (mentioned_exists (all_evs fs) (fresh _) (all_ok fs) (fresh_ok _) k).
    destruct Hk as [->|Hk]; [exact U2|]. apply in_map_iff in Hk as (id & <- & Hid). left. now apply U1. }
  apply has_type_mhas in M as (t & Ht). exists t. split; [exact Ht|].
  destruct (returned_parts _ _ _ _ _ _ _ _ E Hs Hv) as (_ & P & _). pose proof (P k t Ht) as Hv'. split; [exact Hv'|].
  exact (single_version_defined _ _ _ _ _ _ _ _ _ _ E Hs Hv Hv').
Qed.
