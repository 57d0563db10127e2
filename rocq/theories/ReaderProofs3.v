(** Proofs about the reader: repeated declarations, contents of the declared concepts. *)
From Coq Require Import Ascii String Bool Arith ZArith Lia Permutation Sorted List.
From Verif Require Import GoStrings GoStringsProofs GoMap GoMapProofs NamesModel NamesSpec NamesProofs
  ConceptsModel ConceptsSpec ConceptsProofs ReporterModel ReaderModel ReaderSpec ReaderProofs ReaderProofs2.
Import ListNotations.
Local Open Scope string_scope.

(** * Runs split at one event *)

Lemma forall_app_l {A} (P : A -> Prop) l m : Forall P (l ++ m)%list -> Forall P l.
Proof. rewrite Forall_app. tauto. Qed.

Lemma run_dups st l x : start_ok (rs_version st) -> Forall ok_ev l -> Forall quiet_ev l ->
  (In (dup_type x) (rs_reports (run l st)) <->
   In (dup_type x) (rs_reports st) \/
   exists l1 e l2 n, l = (l1 ++ e :: l2)%list /\ sel_type e = [n] /\ camel n = x /\
     type_blocked (run l1 st) n) /\
  (In (dup_resource x) (rs_reports (run l st)) <->
   In (dup_resource x) (rs_reports st) \/
   exists l1 e l2 n, l = (l1 ++ e :: l2)%list /\ sel_res e = [n] /\ camel n = x /\
     res_blocked (run l1 st) n) /\
  (In (dup_error x) (rs_reports (run l st)) <->
   In (dup_error x) (rs_reports st) \/
   exists l1 e l2 n, l = (l1 ++ e :: l2)%list /\ sel_err e = [n] /\ camel n = x /\
     err_blocked (run l1 st) n).
Proof.
  intros Hs. induction l as [|e l IH] using rev_ind; intros Hok Hq.
  - cbn [run fold_left].
    repeat split; intros H; auto; destruct H as [H|(l1 & e & l2 & n & E & _)]; auto;
      now destruct l1.
  - apply Forall_app in Hok as [Hok He]. apply Forall_app in Hq as [Hq Hqe].
    apply Forall_inv in He. apply Forall_inv in Hqe.
    specialize (IH Hok Hq). destruct IH as (I1 & I2 & I3).
    rewrite run_snoc.
    destruct (run_ev_dups (run l st) e x (run_indexed l st Hok Hs) Hqe) as (J1 & J2 & J3).
    rewrite J1, J2, J3, I1, I2, I3.
    assert (R : forall (before : rstate -> name -> Prop) sel,
      (exists l1 e' l2 n, (l ++ [e])%list = (l1 ++ e' :: l2)%list /\ sel e' = [n] /\ camel n = x /\
         before (run l1 st) n) <->
      (exists l1 e' l2 n, l = (l1 ++ e' :: l2)%list /\ sel e' = [n] /\ camel n = x /\
         before (run l1 st) n) \/ exists n, sel e = [n] /\ camel n = x /\ before (run l st) n).
    { intros before sel.
      exact (repeated_snoc (fun l n => before (run l st) n) sel l e x). }
    rewrite !R. tauto.
Qed.

(** What blocks a declaration: a previous declaration, or a built-in type. *)
Lemma type_blocked_iff n0 l n : Forall ok_ev l -> ~ introduced l (name_key n) ->
  (type_blocked (run l (fresh n0)) n <-> builtin_key (name_key n) \/ declared l (name_key n)).
Proof.
  intros Hok Hn.
  destruct (run_inv builtin_key l Hok (fresh n0) [] (fresh_ok n0) (fresh_type_inv n0) (fresh_res_inv n0))
    as [[_ Ht Hu Hm] _].
  rewrite app_nil_l in *. unfold type_blocked. rewrite Ht.
  destruct (mhas (name_key n) (rs_utypes (run l (fresh n0)))) eqn:E.
  - apply Hu in E. split; [intros [_ H]; discriminate|]. tauto.
  - split.
    + intros [H _].
      destruct (in_dec String.string_dec (name_key n) (map name_key (evs_decls l))) as [Hd|Hd];
        rewrite <- declared_evs in Hd; [now right|].
      destruct H as [H|[H|[H|H]]]; auto; [|contradiction].
      destruct (mhas (name_key n) (v_types (new_version n0))) eqn:Eb.
      * left. now apply builtin_key_has in Eb.
      * exfalso. assert (Hb : ~ builtin_key (name_key n)).
        { rewrite <- (builtin_key_has n0). congruence. }
        specialize (Hm _ H Hd Hb Hn). congruence.
    + intros H. split; [tauto|reflexivity].
Qed.

Lemma res_blocked_iff n0 l n : Forall ok_ev l ->
  (res_blocked (run l (fresh n0)) n <-> declared_res l (name_key n)).
Proof.
  intros Hok.
  destruct (run_inv builtin_key l Hok (fresh n0) [] (fresh_ok n0) (fresh_type_inv n0) (fresh_res_inv n0))
    as [_ [_ Ht Hu]].
  rewrite app_nil_l in *. unfold res_blocked. rewrite Ht.
  destruct (mhas (name_key n) (rs_uresources (run l (fresh n0)))) eqn:E.
  - apply Hu in E. split; [intros [_ H]; discriminate|]. tauto.
  - split; [|tauto]. intros [H _].
    destruct (in_dec String.string_dec (name_key n) (map name_key (evs_rdecls l))) as [Hd|Hd];
      rewrite <- declared_res_evs in Hd; [assumption|].
    destruct H as [H|H]; [|assumption]. exfalso.
    assert (H' : mhas (name_key n) (rs_uresources (run l (fresh n0))) = true) by (apply Hu; tauto).
    congruence.
Qed.

Lemma err_blocked_iff n0 l n :
  (err_blocked (run l (fresh n0)) n <-> declared_err l (name_key n)).
Proof.
  unfold err_blocked, declared_err. induction l as [|e l IH] using rev_ind.
  - simpl. split; [discriminate|]. intros (e & [] & _).
  - rewrite run_snoc.
    assert (F : forall st', v_errors (rs_version st') = v_errors (rs_version (run l (fresh n0))) ->
       (forall x, e <> EDeclErr x) ->
       (mhas (name_key n) (v_errors (rs_version st')) = true <->
        exists x, In (EDeclErr x) (l ++ [e])%list /\ name_key (e_name x) = name_key n)).
    { intros st' -> Hne. rewrite IH. split.
      - intros (x & H & E). exists x. rewrite in_app_iff. auto.
      - intros (x & H & E). exists x. apply in_app_iff in H as [H|[H|[]]]; auto. now apply Hne in H. }
    destruct e as [r|m|t|kd m fill|m|m fill|y]; cbn [run_ev]; try (apply F; [reflexivity|discriminate]).
    + apply F; [|discriminate]. unfold refer_type. now destruct (find_type m _).
    + apply F; [|discriminate]. now destruct (find_type (t_name t) _).
    + apply F; [|discriminate]. unfold declare_type. destruct (find_type m _) as [t|]; [|reflexivity].
      now destruct (is_undefined_type t _).
    + apply F; [|discriminate]. now destruct (find_resource m _).
    + apply F; [|discriminate]. destruct (find_resource m _) as [t|]; [|reflexivity].
      now destruct (is_undefined_resource t _).
    + destruct (find_error (e_name y) (rs_version (run l (fresh n0)))) as [z|] eqn:E.
      * unfold add_report. cbn [rs_version]. rewrite IH. split.
        -- intros (x & H & Ex). exists x. rewrite in_app_iff. auto.
        -- intros (x & H & Ex). apply in_app_iff in H as [H|[H|[]]]; [eauto|]. injection H as ->.
           apply IH. unfold find_error in E. rewrite Ex in E. now apply mhas_some in E.
      * unfold set_version, add_error. cbn [rs_version v_errors].
        rewrite mhas_mset, orb_true_iff, String.eqb_eq, IH. split.
        -- intros [H|(x & H & Ex)].
           ++ exists y. rewrite in_app_iff. simpl. auto.
           ++ exists x. rewrite in_app_iff. auto.
        -- intros (x & H & Ex). apply in_app_iff in H as [H|[H|[]]]; [eauto|]. injection H as ->. auto.
Qed.

(** Splits of the events correspond to splits of the declared names. *)
Lemma split_flat {A B} (f : A -> list B) l : (forall a, List.length (f a) <= 1) ->
  forall u x w, flat_map f l = (u ++ x :: w)%list ->
  exists l1 a l2, l = (l1 ++ a :: l2)%list /\ flat_map f l1 = u /\ f a = [x] /\ flat_map f l2 = w.
Proof.
  intros Hf. induction l as [|a l IH]; intros u x w E; [now destruct u|].
  cbn [flat_map] in E. specialize (Hf a). destruct (f a) as [|y [|? ?]] eqn:Ea; [| |simpl in Hf; lia].
  - destruct (IH u x w E) as (l1 & b & l2 & -> & H1 & H2 & H3).
    exists (a :: l1), b, l2. repeat split; auto. simpl. now rewrite Ea.
  - destruct u as [|z u]; simpl in E; injection E as -> E.
    + exists [], a, l. auto.
    + destruct (IH u x w E) as (l1 & b & l2 & -> & H1 & H2 & H3).
      exists (a :: l1), b, l2. repeat split; auto. simpl. now rewrite Ea, H1.
Qed.

Lemma count_split (ids : list string) id :
  2 <= count_occ String.string_dec ids id <-> exists u w, ids = (u ++ id :: w)%list /\ In id u.
Proof.
  split.
  - induction ids as [|a ids IH]; simpl; [lia|]. destruct (String.string_dec a id) as [->|Ha]; intros H.
    + assert (Hin : In id ids) by (apply (count_occ_In String.string_dec); lia).
      apply in_split in Hin as (u & w & ->). exists (id :: u), w. simpl. auto.
    + destruct (IH H) as (u & w & -> & Hu). exists (a :: u), w. simpl. auto.
  - intros (u & w & -> & Hu). apply (count_occ_In String.string_dec) in Hu.
    rewrite count_occ_app, count_occ_cons_eq by reflexivity. lia.
Qed.

Lemma dup_split (sel : ev -> list name) (l : list ev) (ids : list string) id :
  (forall e, List.length (sel e) <= 1) ->
  flat_map sel l = map parse_using_case ids ->
  camel_identifier id -> Forall camel_identifier ids ->
  ((exists l1 e l2 n, l = (l1 ++ e :: l2)%list /\ sel e = [n] /\ camel n = id /\
      In (name_key n) (map name_key (flat_map sel l1))) <->
   2 <= count_occ String.string_dec ids id).
Proof.
  intros Hs E Hid Hids. rewrite count_split. split.
  - intros (l1 & e & l2 & n & -> & He & Hc & Hin).
    rewrite flat_map_app in E. cbn [flat_map] in E. rewrite He in E. simpl in E.
    symmetry in E. apply map_eq_app in E as (u & r & -> & Eu & Er).
    destruct r as [|y w]; [discriminate|]. simpl in Er. injection Er as Ey Ew.
    rewrite Forall_app in Hids. destruct Hids as [Hu Hw]. apply Forall_inv in Hw.
    rewrite <- Ey, camel_parse in Hc by assumption. subst y.
    exists u, w. split; [reflexivity|].
    rewrite <- Eu, <- Ey in Hin. change (name_key (parse_using_case id)) with (key_of id) in Hin.
    apply (in_keys id u Hid Hu). exact Hin.
  - intros (u & w & -> & Hu). rewrite map_app in E. cbn [map] in E.
    destruct (split_flat sel l Hs _ _ _ E) as (l1 & e & l2 & -> & E1 & E2 & E3).
    exists l1, e, l2, (parse_using_case id). repeat split; auto; [now apply camel_parse|].
    rewrite E1. apply in_map. now apply in_map.
Qed.

Lemma dup_types_reported n0 fs id :
  camel_source (all_decls fs) -> camel_identifier id ->
  ~ builtin_key (key_of id) -> ~ In (key_of id) (derived_types (all_decls fs)) ->
  (In (err ("Type '" ++ id ++ "' is already defined")) (rs_reports (load_files fs (fresh n0))) <->
   2 <= count_occ String.string_dec (declared_types (all_decls fs)) id).
Proof.
  intros (_ & Hd & _) Hid Hb Hn. rewrite load_files_run. fold (all_evs fs).
  destruct (run_dups (fresh n0) (all_evs fs) id (fresh_ok n0) (all_ok fs) (all_quiet fs)) as (H & _ & _).
  rewrite H. cbn [rs_reports fresh In]. clear H.
  rewrite <- (dup_split sel_type (all_evs fs) (declared_types (all_decls fs)) id); auto.
  2:{ intros []; simpl; lia. }
  2:{ exact (all_decls_spec fs). }
  assert (P : forall l1 e l2 n, all_evs fs = (l1 ++ e :: l2)%list -> sel_type e = [n] -> camel n = id ->
    (type_blocked (run l1 (fresh n0)) n <-> In (name_key n) (map name_key (flat_map sel_type l1)))).
  { intros l1 e l2 n E He Hc.
    assert (Hkn : name_key n = key_of id).
    { assert (Hin : In n (map parse_using_case (declared_types (all_decls fs)))).
      { rewrite <- all_decls_spec. unfold evs_decls. apply in_flat_map. exists e.
        rewrite E, in_app_iff. split; [simpl; auto|]. destruct e; simpl in He; try discriminate.
        injection He as ->. simpl. auto. }
      apply in_map_iff in Hin as (x & <- & Hx). rewrite Forall_forall in Hd.
      rewrite camel_parse in Hc by auto. now subst. }
    rewrite type_blocked_iff.
    - rewrite declared_evs, Hkn. unfold evs_decls. tauto.
    - pose proof (all_ok fs) as Hok. rewrite E in Hok. now apply forall_app_l in Hok.
    - rewrite Hkn. intros (t & Ht & Hk). apply Hn. rewrite <- all_news, <- introduced_evs.
      exists t. rewrite E, in_app_iff. auto. }
  split.
  - intros [[]|(l1 & e & l2 & n & E & He & Hc & Hbl)]. exists l1, e, l2, n. repeat split; auto.
    now apply (P l1 e l2 n).
  - intros (l1 & e & l2 & n & E & He & Hc & Hbl). right. exists l1, e, l2, n. repeat split; auto;
    now apply (P l1 e l2 n).
Qed.

Lemma builtin_redeclared n0 fs id :
  camel_source (all_decls fs) -> builtin_key (key_of id) -> ~ In (key_of id) (derived_types (all_decls fs)) ->
  In id (declared_types (all_decls fs)) ->
  In (err ("Type '" ++ id ++ "' is already defined")) (rs_reports (load_files fs (fresh n0))).
Proof.
  intros (_ & Hd & _) Hb Hn Hin. rewrite load_files_run. fold (all_evs fs).
  destruct (run_dups (fresh n0) (all_evs fs) id (fresh_ok n0) (all_ok fs) (all_quiet fs)) as (H & _ & _).
  apply H. right. clear H.
  apply in_split in Hin as (u & w & E).
  assert (E' : flat_map sel_type (all_evs fs) = (map parse_using_case u ++ parse_using_case id :: map parse_using_case w)%list).
  { change (flat_map sel_type (all_evs fs)) with (evs_decls (all_evs fs)).
    rewrite all_decls_spec, E, map_app. reflexivity. }
  apply split_flat in E' as (l1 & e & l2 & El & E1 & E2 & E3); [|intros []; simpl; lia].
  exists l1, e, l2, (parse_using_case id). repeat split; auto.
  - apply camel_parse. rewrite Forall_forall in Hd. apply Hd. rewrite E, in_app_iff. simpl. auto.
  - apply type_blocked_iff; [| |left; exact Hb].
    + pose proof (all_ok fs) as Hok. rewrite El in Hok. now apply forall_app_l in Hok.
    + intros (t & Ht & Hk). apply Hn. rewrite <- all_news, <- introduced_evs.
      exists t. rewrite El, in_app_iff. auto.
  - apply type_blocked_iff; [| |left; exact Hb].
    + pose proof (all_ok fs) as Hok. rewrite El in Hok. now apply forall_app_l in Hok.
    + intros (t & Ht & Hk). apply Hn. rewrite <- all_news, <- introduced_evs.
      exists t. rewrite El, in_app_iff. auto.
Qed.

Lemma dup_resources_reported n0 fs id :
  camel_source (all_decls fs) -> camel_identifier id ->
  (In (err ("Resource '" ++ id ++ "' is already defined")) (rs_reports (load_files fs (fresh n0))) <->
   2 <= count_occ String.string_dec (declared_resources (all_decls fs)) id).
Proof.
  intros (_ & _ & _ & Hd & _) Hid. rewrite load_files_run. fold (all_evs fs).
  destruct (run_dups (fresh n0) (all_evs fs) id (fresh_ok n0) (all_ok fs) (all_quiet fs)) as (_ & H & _).
  rewrite H. cbn [rs_reports fresh In]. clear H.
  rewrite <- (dup_split sel_res (all_evs fs) (declared_resources (all_decls fs)) id); auto.
  2:{ intros []; simpl; lia. }
  2:{ exact (all_rdecls fs). }
  assert (P : forall l1 e l2 n, all_evs fs = (l1 ++ e :: l2)%list ->
    (res_blocked (run l1 (fresh n0)) n <-> In (name_key n) (map name_key (flat_map sel_res l1)))).
  { intros l1 e l2 n E. rewrite res_blocked_iff.
    - rewrite declared_res_evs. unfold evs_rdecls. tauto.
    - pose proof (all_ok fs) as Hok. rewrite E in Hok. now apply forall_app_l in Hok. }
  split.
  - intros [[]|(l1 & e & l2 & n & E & He & Hc & Hbl)]. exists l1, e, l2, n. repeat split; auto.
    now apply (P l1 e l2 n).
  - intros (l1 & e & l2 & n & E & He & Hc & Hbl). right. exists l1, e, l2, n. repeat split; auto;
    now apply (P l1 e l2 n).
Qed.

Lemma dup_errors_reported n0 fs id :
  camel_source (all_decls fs) -> camel_identifier id ->
  (In (err ("Error '" ++ id ++ "' is already defined")) (rs_reports (load_files fs (fresh n0))) <->
   2 <= count_occ String.string_dec (declared_errors (all_decls fs)) id).
Proof.
  intros (_ & _ & _ & _ & Hd) Hid. rewrite load_files_run. fold (all_evs fs).
  destruct (run_dups (fresh n0) (all_evs fs) id (fresh_ok n0) (all_ok fs) (all_quiet fs)) as (_ & _ & H).
  rewrite H. cbn [rs_reports fresh In]. clear H.
  rewrite <- (dup_split sel_err (all_evs fs) (declared_errors (all_decls fs)) id); auto.
  2:{ intros []; simpl; lia. }
  2:{ exact (all_edecls fs). }
  assert (P : forall l1 n,
    (err_blocked (run l1 (fresh n0)) n <-> In (name_key n) (map name_key (flat_map sel_err l1)))).
  { intros l1 n. rewrite err_blocked_iff. unfold declared_err. rewrite in_map_iff. split.
    - intros (x & Hx & Ex). exists (e_name x). split; [assumption|]. apply in_flat_map.
      exists (EDeclErr x). simpl. auto.
    - intros (m & Em & Hm). apply in_flat_map in Hm as (y & Hy & Hm). destruct y; try contradiction.
      destruct Hm as [<-|[]]. eauto. }
  split.
  - intros [[]|(l1 & e & l2 & n & E & He & Hc & Hbl)]. exists l1, e, l2, n. repeat split; auto.
    now apply P.
  - intros (l1 & e & l2 & n & E & He & Hc & Hbl). right. exists l1, e, l2, n. repeat split; auto;
    now apply P.
Qed.
