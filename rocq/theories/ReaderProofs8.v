(** Proofs about the reader: kinds of the list types, and several versions. *)
From Coq Require Import Ascii String Bool Arith ZArith Lia Permutation Sorted List.
From Verif Require Import GoStrings GoStringsProofs GoMap GoMapProofs NamesModel NamesSpec NamesProofs
  ConceptsModel ConceptsSpec ConceptsProofs ReporterModel ReaderModel ChecksModel ReaderSpec ReaderProofs
  ReaderProofs2 ReaderProofs3 ReaderProofs4 ReaderProofs5 ReaderProofs6 ReaderProofs7.
Import ListNotations.
Local Open Scope string_scope.

(** * Kinds of the types that aren't declared *)

Fixpoint last_char (s : string) : option ascii :=
  match s with
  | "" => None
  | String c r => match last_char r with Some d => Some d | None => Some c end
  end.

Lemma last_char_app a b c : last_char b = Some c -> last_char (a ++ b) = Some c.
Proof. intros H. induction a as [|x a IH]; simpl; [assumption|]. now rewrite IH. Qed.

Lemma list_key_shape n : exists p, name_key (cat [n; nList]) = p ++ "list".
Proof.
  rewrite list_name_key. destruct (n_words n).
  - exists "". reflexivity.
  - exists (name_key n ++ "_"). now rewrite sapp_assoc.
Qed.

Lemma map_name_key i e : last_char (name_key (cat [i; e; nMap])) = Some "p"%char.
Proof.
  unfold name_key, name_string. rewrite cat_words. cbn [flat_map]. rewrite app_nil_r, app_assoc, map_app.
  generalize (map w_text (n_words i ++ n_words e)). intros ws.
  change (map w_text (n_words nMap)) with ["map"].
  induction ws as [|w ws IH]; [reflexivity|]. cbn [app str_join] in *.
  destruct ws as [|w' ws]; cbn [app] in *.
  - now apply last_char_app, last_char_app.
  - now apply last_char_app, last_char_app.
Qed.

(** Possible kinds of a type that isn't declared in the source. *)
Definition undeclared_kind (k : key) (t : typ) : Prop :=
  t_kind t = UndefinedType \/ t_kind t = ListType \/ (t_kind t = MapType /\ last_char k = Some "p"%char) \/
  (exists b, In b builtins /\ k = snd (fst b)).

Definition derived_ev (e : ev) : Prop :=
  match e with
  | ENew t => (exists n, t = list_type n) \/ (exists i e, t = map_type i e)
  | _ => True
  end.

Lemma undeclared_kinds fs n0 k t :
  mget k (v_types (rs_version (load_files fs (fresh n0)))) = Some t ->
  ~ declared (all_evs fs) k -> undeclared_kind k t.
Proof.
  intros H Hd. rewrite load_files_run in H. fold (all_evs fs) in H.
  assert (S : stored (fun k t => declared (all_evs fs) k \/ undeclared_kind k t) (fun _ _ => True)
                (rs_version (run (all_evs fs) (fresh n0)))).
  { apply stored_run; [apply all_ok|apply fresh_ok| |].
    - apply Forall_forall. intros e He. destruct e as [r|n|t'|kd n fill|n|n fill|x]; cbn [ev_stored]; auto.
      + right. now left.
      + right. pose proof (all_kind fs) as K.
        assert (E : forall e, In e (all_evs fs) -> derived_ev e).
        { apply Forall_forall.
          assert (RO : forall l, report_only l -> Forall derived_ev l).
          { intros l. apply Forall_impl. intros []; tauto. }
          assert (RF : forall r, Forall derived_ev (ref_evs r)).
          { intros [m|m|i m]; cbn [ref_evs];
              repeat (first [apply Forall_nil | apply Forall_cons; [simpl; eauto|]]). }
          apply flat_forall. intros f _. constructor; [exact I|]. apply flat_forall. intros d _.
          destruct d as [ans n vs doc|ans n ms doc|ans n ms doc|ans n codes doc|ans n ms doc];
            cbn [decl_evs]; apply Forall_app; (split; [apply RO, annots_report_only|]); apply Forall_app; split;
            try (repeat constructor; fail).
          - apply flat_forall. intros v _. apply RO, annots_report_only.
          - apply flat_forall. intros v _. apply Forall_app. split; [apply RO, annots_report_only|apply RF].
          - apply flat_forall. intros v _. apply Forall_app. split; [apply RO, annots_report_only|apply RF].
          - apply flat_forall. intros v _. apply RO, code_report_only.
          - apply flat_forall. intros m _. destruct m as [x|x]; cbn [rmember_evs].
            + apply Forall_app. split; [apply RO, annots_report_only|]. apply flat_forall. intros p _.
              apply Forall_app. split; [apply RO, annots_report_only|]. apply Forall_app. split; [apply RF|].
              destruct (pd_default p); [apply RO, literal_report_only|constructor].
            + apply Forall_app. split; [apply RO, annots_report_only|]. apply Forall_app. split.
              * apply flat_forall. intros y _. destruct y; repeat constructor.
              * destruct (l_target (loc_of x)); repeat constructor. }
        specialize (E _ He). destruct E as [[m ->]|(i & m & ->)].
        * right. now left.
        * right. right. left. split; [reflexivity|]. apply map_name_key.
      + intros t' _ _. left. exists kd, n, fill. auto.
    - split; [|auto]. intros k' t' H'. right. unfold undeclared_kind.
      destruct (builtins_only n0 k' t' H') as [[[id bk] kd] [Hin Hb]]. simpl in Hb.
      destruct Hb as [(-> & _)|(_ & Hk & _)]; [|auto]. right. right. right. exists (id, bk, kd). auto. }
  apply S in H as [H|H]; [contradiction|assumption].
Qed.

Lemma list_key_kind n k t : k = name_key (cat [n; nList]) -> undeclared_kind k t -> t_kind t <> UndefinedType ->
  t_kind t = ListType.
Proof.
  intros Hk [H|[H|[[_ H]|([[id bk] kd] & Hin & H)]]] Hn; try contradiction; [assumption| |].
  - exfalso. destruct (list_key_shape n) as [p Hp]. rewrite Hk, Hp in H.
    rewrite (last_char_app p "list" "t"%char eq_refl) in H. discriminate.
  - exfalso. destruct (list_key_shape n) as [p Hp]. rewrite Hk, Hp in H. simpl in H. clear - Hin H.
    simpl in Hin.
    repeat (destruct Hin as [[= <- <- <-]|Hin];
      [repeat (let c := fresh in destruct p as [|c p]; simpl in H; [discriminate H|injection H as -> H])|]);
      try contradiction; destruct p; discriminate.
Qed.

(** For a version that is read alone. *)
Lemma single_version_lists sd vd fs rs0 m rs s v k t :
  read [[(sd, [(vd, fs)])]] rs0 = Done (ROk m, rs) -> in_model m s -> in_service s v ->
  type_at k v = Some t -> is_list t = false ->
  (forall id, In id (declared_types (all_decls fs)) -> key_of id <> name_key (cat [t_name t; nList])) ->
  exists lt, find_type (cat [t_name t; nList]) v = Some lt /\ t_kind lt = ListType /\
    t_element lt = Some (name_key (t_name t)).
Proof.
  intros E Hs Hv Ht Hl Hd.
  destruct (returned_model_sound _ _ _ _ _ _ E Hs Hv) as (Hn & _ & _ & _ & _ & HL & HE).
  destruct (HL k t Ht Hl) as (lt & Hlt). exists lt. split; [assumption|].
  assert (Hk : t_kind lt = ListType).
  { pose proof (single_version_defined _ _ _ _ _ _ _ _ _ _ E Hs Hv Hlt) as Hdef.
    pose proof E as E'. apply read_spec in E'. cbv zeta in E'. destruct E' as (cs & Ec & -> & Ed).
    symmetry in Ed. apply (proj1 (decide_spec _ _)) in Ed as [_ ->].
    destruct (returned_version _ rs0 s v Hs Hv) as (s1 & v1 & Hs1 & Hv1 & -> & -> & Hok1 & _).
    pose proof (single_model sd vd fs rs0 s1 v1 Hs1 Hv1) as Ev. cbv zeta in Ev.
    destruct (ensure_lists_spec v1 (proj1 Hok1)) as (_ & _ & _ & _ & E5 & _). cbv zeta in *.
    pose proof Hlt as Hlt'.
    apply E5 in Hlt' as [H|(t' & _ & _ & _ & _ & Hk & _)]; [|assumption].
    rewrite load_reports in Ev. unfold with_reports in Ev. cbn [rs_version] in Ev. rewrite Ev in H.
    eapply list_key_kind; [reflexivity| |exact Hdef].
    eapply undeclared_kinds; [exact H|].
    rewrite declared_evs, all_decls_spec, map_map. intros Hin. apply in_map_iff in Hin as (id & Eid & Hin).
    exact (Hd id Hin Eid). }
  split; [assumption|].
  destruct (HE _ lt Hlt) as (n & En & Eel); [unfold is_list; now rewrite Hk|].
  rewrite Eel. f_equal. now apply list_name_inj in En.
Qed.

(** * Names that other versions left undefined (C14) *)

Definition leftover (u ur : list (key * name)) (st st' : rstate) : Prop :=
  rs_version st' = rs_version st /\ rs_reports st' = rs_reports st /\
  (forall k, mhas k (rs_utypes st') = mhas k u || mhas k (rs_utypes st)) /\
  (forall k, mhas k (rs_uresources st') = mhas k ur || mhas k (rs_uresources st)).

Lemma leftover_step u ur st st' e : ok_ev e -> start_ok (rs_version st) ->
  match e with
  | EDecl _ n _ => mhas (name_key n) u = false
  | EDeclRes n _ => mhas (name_key n) ur = false
  | _ => True
  end ->
  leftover u ur st st' -> leftover u ur (run_ev st e) (run_ev st' e).
Proof.
  intros Hok [Hix Hixr] He (Ev & Er & Eu & Eur).
  destruct st' as [v' u' ur' r']. cbn [rs_version rs_reports rs_utypes rs_uresources] in *. subst v' r'.
  destruct e as [r|n|t|kd n fill|n|n fill|x]; cbn [run_ev].
  - repeat split; auto.
  - unfold refer_type. cbn [rs_version]. destruct (find_type n (rs_version st)); repeat split; auto.
    intros k. cbn [add_undefined_type set_version rs_utypes]. rewrite !mhas_mset, Eu.
    now destruct (String.eqb k _), (mhas k u).
  - cbn [rs_version]. destruct (find_type (t_name t) (rs_version st)); repeat split; auto.
  - unfold declare_type. cbn [rs_version]. destruct (find_type n (rs_version st)) as [t|] eqn:E.
    + assert (Ek : name_key (t_name t) = name_key n) by exact (indexed_get t_name _ _ _ Hix E).
      unfold is_undefined_type. cbn [rs_utypes]. rewrite Eu, Ek, He. cbn [orb].
      destruct (mhas (name_key n) (rs_utypes st)); repeat split; auto.
      intros k. cbn [remove_undefined_type set_version rs_utypes]. rewrite !mhas_mdel, Eu, Ek.
      destruct (String.eqb_spec k (name_key n)) as [->|]; simpl; [now rewrite He|reflexivity].
    + repeat split; auto.
  - cbn [rs_version]. destruct (find_resource n (rs_version st)); repeat split; auto.
    intros k. cbn [add_undefined_resource set_version rs_uresources]. rewrite !mhas_mset, Eur.
    now destruct (String.eqb k _), (mhas k ur).
  - cbn [rs_version]. destruct (find_resource n (rs_version st)) as [t|] eqn:E.
    + assert (Ek : name_key (r_name t) = name_key n) by exact (indexed_get r_name _ _ _ Hixr E).
      unfold is_undefined_resource. cbn [rs_uresources]. rewrite Eur, Ek, He. cbn [orb].
      destruct (mhas (name_key n) (rs_uresources st)); repeat split; auto.
      intros k. cbn [remove_undefined_resource set_version rs_uresources]. rewrite !mhas_mdel, Eur, Ek.
      destruct (String.eqb_spec k (name_key n)) as [->|]; simpl; [now rewrite He|reflexivity].
    + repeat split; auto.
  - cbn [rs_version]. destruct (find_error (e_name x) (rs_version st)); repeat split; auto.
Qed.

Lemma leftover_load fs v u ur rs : start_ok v ->
  (forall id, In id (declared_types (all_decls fs)) -> mhas (key_of id) u = false) ->
  (forall id, In id (declared_resources (all_decls fs)) -> mhas (key_of id) ur = false) ->
  let a := load_files fs (MkRState v u ur rs) in
  let b := load_files fs (MkRState v [] [] []) in
  rs_version a = rs_version b /\ rs_reports a = (rs ++ rs_reports b)%list /\
  (forall k, mhas k (rs_utypes a) = mhas k u || mhas k (rs_utypes b)) /\
  (forall k, mhas k (rs_uresources a) = mhas k ur || mhas k (rs_uresources b)).
Proof.
  intros Hs Hu Hur. cbv zeta.
  assert (L : leftover u ur (load_files fs (MkRState v [] [] rs)) (load_files fs (MkRState v u ur rs))).
  { rewrite !load_files_run. fold (all_evs fs).
    assert (H0 : leftover u ur (MkRState v [] [] rs) (MkRState v u ur rs)).
    { repeat split; simpl; intros k; now rewrite orb_false_r. }
    assert (Hd : forall n kd fill, In (EDecl kd n fill) (all_evs fs) -> mhas (name_key n) u = false).
    { intros n kd fill H. assert (D : In n (evs_decls (all_evs fs))).
      { unfold evs_decls. apply in_flat_map. eexists; split; [exact H|]. simpl. auto. }
      rewrite all_decls_spec in D. apply in_map_iff in D as (id & <- & Hid). exact (Hu id Hid). }
    assert (Hdr : forall n fill, In (EDeclRes n fill) (all_evs fs) -> mhas (name_key n) ur = false).
    { intros n fill H. assert (D : In n (evs_rdecls (all_evs fs))).
      { unfold evs_rdecls. apply in_flat_map. eexists; split; [exact H|]. simpl. auto. }
      rewrite all_rdecls in D. apply in_map_iff in D as (id & <- & Hid). exact (Hur id Hid). }
    assert (Hok := all_ok fs).
    assert (Hs0 : start_ok (rs_version (MkRState v [] [] rs))) by exact Hs. clear Hs Hu Hur.
    revert Hok Hd Hdr H0 Hs0. generalize (MkRState v [] [] rs) as st. generalize (MkRState v u ur rs) as st'.
    induction (all_evs fs) as [|e l IH]; intros st' st Hok Hd Hdr H0 Hs0; [assumption|].
    inversion Hok; subst. change (run (e :: l) ?x) with (run l (run_ev x e)). apply IH; auto.
    - intros n kd fill H. eapply Hd. right. exact H.
    - intros n fill H. eapply Hdr. right. exact H.
    - apply leftover_step; auto. destruct e; auto.
      + eapply Hd. now left.
      + eapply Hdr. now left.
    - now apply run_ev_indexed. }
  destruct L as (L1 & L2 & L3 & L4). rewrite load_reports in L1, L2, L3, L4. repeat split; auto.
Qed.

(** * Contents of the model that is returned (C58) *)

Lemma no_dup_declared ids (id : string) ds1 ds2 : ids = (ds1 ++ id :: ds2)%list ->
  ~ (2 <= count_occ String.string_dec ids id)%nat -> ~ In id ds1.
Proof.
  intros -> H Hin. apply H. rewrite count_occ_app, count_occ_cons_eq by reflexivity.
  apply (count_occ_In String.string_dec) in Hin. lia.
Qed.

Lemma returned_parts sd vd fs rs0 m rs s v :
  read [[(sd, [(vd, fs)])]] rs0 = Done (ROk m, rs) -> in_model m s -> in_service s v ->
  let n0 := parse_using_separator vd "_" in
  let w := rs_version (load_files fs (fresh n0)) in
  no_errors (rs_reports (load_files fs (fresh n0))) /\
  (forall k t, type_at k w = Some t -> type_at k v = Some t) /\
  v_resources v = v_resources w /\ v_errors v = v_errors w /\ v_name v = v_name w.
Proof.
  intros E Hs Hv. cbv zeta. apply read_spec in E. cbv zeta in E. destruct E as (cs & Ec & -> & Ed).
  symmetry in Ed. apply (proj1 (decide_spec _ _)) in Ed as [Hn ->].
  apply no_errors_app in Hn as [Hn _].
  destruct (returned_version _ rs0 s v Hs Hv) as (s1 & v1 & Hs1 & Hv1 & -> & -> & Hok1 & _).
  pose proof (single_model sd vd fs rs0 s1 v1 Hs1 Hv1) as Ev.
  destruct (single_version sd vd fs rs0) as (_ & _ & Er). cbv zeta in *.
  rewrite load_reports in Ev, Er. rewrite Er in Hn. unfold with_reports in Ev, Hn. cbn [rs_version rs_reports] in Ev, Hn.
  apply no_errors_app in Hn as [_ Hn]. split; [exact Hn|].
  change (MkRState (new_version (parse_using_separator vd "_")) [] [] []) with (fresh (parse_using_separator vd "_")) in Ev.
  rewrite <- Ev. destruct (ensure_lists_spec v1 (proj1 Hok1)) as (E1 & E2 & E3 & E4 & _). cbv zeta in *.
  repeat split; auto.
Qed.

Lemma returned_types sd vd fs rs0 m rs s v d id :
  read [[(sd, [(vd, fs)])]] rs0 = Done (ROk m, rs) -> in_model m s -> in_service s v ->
  camel_source (all_decls fs) -> In d (all_decls fs) -> decl_types d = [id] ->
  ~ In (key_of id) (derived_types (all_decls fs)) ->
  exists t, find_type (parse_using_case id) v = Some t /\ type_of_decl d t.
Proof.
  intros E Hs Hv Hc Hd Hid Hder.
  destruct (returned_parts _ _ _ _ _ _ _ _ E Hs Hv) as (Hn & Ht & _). cbv zeta in *.
  apply in_split in Hd as (ds1 & ds2 & Eds).
  assert (Eids : declared_types (all_decls fs) = (declared_types ds1 ++ id :: declared_types ds2)%list).
  { unfold declared_types. rewrite Eds, flat_map_app. cbn [flat_map]. now rewrite Hid. }
  assert (Hin : In id (declared_types (all_decls fs))) by (rewrite Eids; apply in_app_iff; simpl; auto).
  assert (Hcid : camel_identifier id).
  { destruct Hc as (_ & Hc & _). rewrite Forall_forall in Hc. auto. }
  assert (Hb : ~ builtin_key (key_of id)).
  { intros Hb. eapply Hn. apply builtin_redeclared; eauto. }
  destruct (declared_type_kept (parse_using_separator vd "_") fs ds1 d ds2 id) as (t & Hf & Hct); auto.
  - eapply no_dup_declared; [exact Eids|]. intros H2. eapply Hn. apply dup_types_reported; eauto.
  - exists t. split; [|assumption]. apply Ht. exact Hf.
Qed.

Lemma returned_resources sd vd fs rs0 m rs s v d id :
  read [[(sd, [(vd, fs)])]] rs0 = Done (ROk m, rs) -> in_model m s -> in_service s v ->
  camel_source (all_decls fs) -> In d (all_decls fs) -> decl_resources d = [id] ->
  exists r, find_resource (parse_using_case id) v = Some r /\ resource_of_decl d r.
Proof.
  intros E Hs Hv Hc Hd Hid.
  destruct (returned_parts _ _ _ _ _ _ _ _ E Hs Hv) as (Hn & _ & Hr & _). cbv zeta in *.
  apply in_split in Hd as (ds1 & ds2 & Eds).
  assert (Eids : declared_resources (all_decls fs) = (declared_resources ds1 ++ id :: declared_resources ds2)%list).
  { unfold declared_resources. rewrite Eds, flat_map_app. cbn [flat_map]. now rewrite Hid. }
  assert (Hin : In id (declared_resources (all_decls fs))) by (rewrite Eids; apply in_app_iff; simpl; auto).
  assert (Hcid : camel_identifier id).
  { destruct Hc as (_ & _ & _ & Hc & _). rewrite Forall_forall in Hc. auto. }
  destruct (declared_resource_kept (parse_using_separator vd "_") fs ds1 d ds2 id) as (t & Hf & Hct); auto.
  - eapply no_dup_declared; [exact Eids|]. intros H2. eapply Hn. apply dup_resources_reported; eauto.
  - exists t. split; [|assumption]. unfold find_resource. rewrite Hr. exact Hf.
Qed.

Lemma returned_errors sd vd fs rs0 m rs s v d id :
  read [[(sd, [(vd, fs)])]] rs0 = Done (ROk m, rs) -> in_model m s -> in_service s v ->
  camel_source (all_decls fs) -> In d (all_decls fs) -> decl_errors d = [id] ->
  exists x, find_error (parse_using_case id) v = Some x /\ error_of_decl d x.
Proof.
  intros E Hs Hv Hc Hd Hid.
  destruct (returned_parts _ _ _ _ _ _ _ _ E Hs Hv) as (Hn & _ & _ & Hr & _). cbv zeta in *.
  apply in_split in Hd as (ds1 & ds2 & Eds).
  assert (Eids : declared_errors (all_decls fs) = (declared_errors ds1 ++ id :: declared_errors ds2)%list).
  { unfold declared_errors. rewrite Eds, flat_map_app. cbn [flat_map]. now rewrite Hid. }
  assert (Hin : In id (declared_errors (all_decls fs))) by (rewrite Eids; apply in_app_iff; simpl; auto).
  assert (Hcid : camel_identifier id).
  { destruct Hc as (_ & _ & _ & _ & Hc). rewrite Forall_forall in Hc. auto. }
  destruct (declared_error_kept (parse_using_separator vd "_") fs ds1 d ds2 id) as (t & Hf & Hct); auto.
  - eapply no_dup_declared; [exact Eids|]. intros H2. eapply Hn. apply dup_errors_reported; eauto.
  - exists t. split; [|assumption]. unfold find_error. rewrite Hr. exact Hf.
Qed.

(** Every stored type or resource of a version that is read alone comes from the source. *)
Lemma nothing_else_types sd vd fs rs0 m rs s v k :
  read [[(sd, [(vd, fs)])]] rs0 = Done (ROk m, rs) -> in_model m s -> in_service s v ->
  has_type v k ->
  builtin_key k \/ (exists id, In id (declared_types (all_decls fs)) /\ k = key_of id) \/
  In k (derived_types (all_decls fs)) \/
  (exists k0 t0, type_at k0 v = Some t0 /\ is_list t0 = false /\ k = name_key (cat [t_name t0; nList])).
Proof.
  intros E Hs Hv [t Ht].
  pose proof E as E0. apply read_spec in E0. cbv zeta in E0. destruct E0 as (cs & Ec & -> & Ed).
  symmetry in Ed. apply (proj1 (decide_spec _ _)) in Ed as [Hn ->].
  apply no_errors_app in Hn as [_ Hn]. apply no_errors_app in Hn as [Hn _].
  apply undefined_none in Hn as [Hu _].
  destruct (returned_version _ rs0 s v Hs Hv) as (s1 & v1 & Hs1 & Hv1 & -> & -> & Hok1 & _).
  pose proof (single_model sd vd fs rs0 s1 v1 Hs1 Hv1) as Ev.
  destruct (single_version sd vd fs rs0) as (Eu & _). cbv zeta in *. rewrite Eu in Hu.
  rewrite load_reports in Ev, Hu. unfold with_reports in Ev, Hu. cbn [rs_version rs_utypes] in Ev, Hu.
  change (MkRState (new_version (parse_using_separator vd "_")) [] [] []) with (fresh (parse_using_separator vd "_")) in *.
  destruct (ensure_lists_spec v1 (proj1 Hok1)) as (_ & _ & _ & E4 & E5 & _). cbv zeta in *.
  apply E5 in Ht as [Ht|(t' & Ht' & Hl & -> & _)].
  2:{ right. right. right. exists (name_key (t_name t')), t'. auto. }
  destruct (load_inv (parse_using_separator vd "_") fs) as [[_ HT _ HM] _].
  assert (Hh : mhas k (v_types (rs_version (load_files fs (fresh (parse_using_separator vd "_"))))) = true).
  { apply has_type_mhas. exists t. now rewrite <- Ev. }
  assert (D : forall k, declared (all_evs fs) k -> exists id, In id (declared_types (all_decls fs)) /\ k = key_of id).
  { intros k' Hd'. rewrite declared_evs, all_decls_spec, map_map in Hd'. apply in_map_iff in Hd' as (id & <- & Hid).
    exists id. split; [exact Hid|reflexivity]. }
  assert (I' : forall k, introduced (all_evs fs) k -> In k (derived_types (all_decls fs))).
  { intros k' Hi'. now rewrite introduced_evs, all_news in Hi'. }
  apply HT in Hh as [H|[H|[H|H]]]; auto.
  destruct (in_dec String.string_dec k (map name_key (evs_decls (all_evs fs)))) as [Hd|Hd].
  { right. left. apply D. now apply declared_evs. }
  destruct (in_dec String.string_dec k (map name_key (evs_news (all_evs fs)))) as [Hi|Hi].
  { right. right. left. apply I'. now apply introduced_evs. }
  destruct (mhas k (v_types (new_version (new_name [])))) eqn:Hb.
  { left. now apply builtin_key_has in Hb. }
  rewrite <- declared_evs in Hd. rewrite <- introduced_evs in Hi.
  assert (Hb' : ~ builtin_key k).
  { intros Hb'. apply (builtin_key_has (new_name [])) in Hb'. congruence. }
  specialize (HM k H Hd Hb' Hi). rewrite Hu in HM. discriminate.
Qed.
