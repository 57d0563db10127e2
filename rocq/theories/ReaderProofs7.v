(** Proofs about the reader: kinds, complete models, final decision. *)
From Coq Require Import Ascii String Bool Arith ZArith Lia Permutation Sorted List.
From Verif Require Import GoStrings GoStringsProofs GoMap GoMapProofs NamesModel NamesSpec NamesProofs
  ConceptsModel ConceptsSpec ConceptsProofs ReporterModel ReaderModel ChecksModel ReaderSpec ReaderProofs
  ReaderProofs2 ReaderProofs3 ReaderProofs4 ReaderProofs5 ReaderProofs6.
Import ListNotations.
Local Open Scope string_scope.

(** * Reports and errors *)

Lemma error_count_fold rs : forall r,
  rr_errors (apply_reports r rs) =
  (rr_errors r + List.length (filter (fun p => match rp_severity p with SError => true | _ => false end) rs))%nat.
Proof.
  induction rs as [|p rs IH]; intros r; simpl; [lia|].
  change (apply_reports (apply_report r p) rs) with (fold_left apply_report rs (apply_report r p)) in IH.
  unfold apply_reports in *. cbn [fold_left]. rewrite IH. unfold apply_report.
  destruct (rp_severity p); simpl; lia.
Qed.

Lemma error_count_filter rs :
  error_count rs = List.length (filter (fun p => match rp_severity p with SError => true | _ => false end) rs).
Proof. unfold error_count. now rewrite error_count_fold. Qed.

Lemma error_count_zero rs : error_count rs = 0%nat <-> no_errors rs.
Proof.
  rewrite error_count_filter. unfold no_errors. split.
  - intros H m Hin. apply length_zero_iff_nil in H.
    assert (Hf : In (err m) (filter (fun p => match rp_severity p with SError => true | _ => false end) rs))
      by now apply filter_In.
    rewrite H in Hf. exact Hf.
  - intros H. apply length_zero_iff_nil. induction rs as [|[s m] rs IH]; [reflexivity|]. simpl.
    destruct s; try (apply IH; intros x Hx; apply (H x); now right).
    exfalso. apply (H m). now left.
Qed.

Lemma no_errors_app a b : no_errors (a ++ b)%list <-> no_errors a /\ no_errors b.
Proof.
  unfold no_errors. split.
  - intros H. split; intros m Hm; apply (H m); apply in_app_iff; auto.
  - intros [H1 H2] m Hm. apply in_app_iff in Hm as [Hm|Hm]; [now apply (H1 m)|now apply (H2 m)].
Qed.

Lemma decide_spec m rs :
  (forall m', decide m rs = ROk m' <-> no_errors rs /\ m' = m) /\
  (forall msg, decide m rs = RError msg <->
     (error_count rs = 1%nat /\ msg = "there was 1 error") \/
     ((1 < error_count rs)%nat /\ msg = "there were " ++ itoa (error_count rs) ++ " errors")).
Proof.
  unfold decide. destruct (Nat.ltb_spec 0 (error_count rs)) as [H|H].
  - destruct (Nat.ltb_spec 1 (error_count rs)) as [H1|H1]; split; intros x; split.
    + discriminate.
    + intros [E _]. apply error_count_zero in E. lia.
    + intros [= <-]. right. auto.
    + intros [[E _]|[_ ->]]; [lia|reflexivity].
    + discriminate.
    + intros [E _]. apply error_count_zero in E. lia.
    + intros [= <-]. left. split; [lia|reflexivity].
    + intros [[_ ->]|[E _]]; [reflexivity|lia].
  - assert (E : error_count rs = 0%nat) by lia. split; intros x; split.
    + intros [= <-]. split; [now apply error_count_zero|reflexivity].
    + now intros [_ ->].
    + discriminate.
    + intros [[E' _]|[E' _]]; lia.
Qed.

(** What the reader reports, in the order of the three phases. *)
Lemma read_spec inputs rs0 r rs : read inputs rs0 = Done (r, rs) ->
  let g := load_inputs inputs rs0 in
  let m := ensure_model_lists (g_model g) in
  exists cs, check_model m = Done cs /\ rs = (g_reports g ++ undefined_reports g ++ cs)%list /\ r = decide m rs.
Proof.
  unfold read. cbv zeta. destruct (check_model _) as [cs| |]; try discriminate.
  intros [= <- <-]. exists cs. rewrite <- app_assoc. auto.
Qed.

(** Reports aren't lost. *)
Lemma run_ev_grow st e : exists x, rs_reports (run_ev st e) = (rs_reports st ++ x)%list.
Proof.
  destruct e as [r|n|t|kd n fill|n|n fill|x]; cbn [run_ev].
  - exists [r]. reflexivity.
  - unfold refer_type. exists []. destruct (find_type n (rs_version st)); now rewrite app_nil_r.
  - exists []. destruct (find_type (t_name t) (rs_version st)); now rewrite app_nil_r.
  - unfold declare_type. destruct (find_type n (rs_version st)) as [t|].
    + destruct (is_undefined_type t st); [exists []; now rewrite app_nil_r|eexists; reflexivity].
    + exists []. now rewrite app_nil_r.
  - exists []. destruct (find_resource n (rs_version st)); now rewrite app_nil_r.
  - destruct (find_resource n (rs_version st)) as [t|].
    + destruct (is_undefined_resource t st); [exists []; now rewrite app_nil_r|eexists; reflexivity].
    + exists []. now rewrite app_nil_r.
  - destruct (find_error (e_name x) (rs_version st)).
    + eexists; reflexivity.
    + exists []. now rewrite app_nil_r.
Qed.

Lemma run_grow l : forall st, exists x, rs_reports (run l st) = (rs_reports st ++ x)%list.
Proof.
  induction l as [|e l IH]; intros st; [exists []; now rewrite app_nil_r|].
  change (run (e :: l) st) with (run l (run_ev st e)).
  destruct (IH (run_ev st e)) as [x ->]. destruct (run_ev_grow st e) as [y ->].
  exists (y ++ x)%list. now rewrite app_assoc.
Qed.

Lemma run_report_in l : forall st r, In (EReport r) l -> In r (rs_reports (run l st)).
Proof.
  induction l as [|e l IH]; intros st r H; [contradiction|].
  change (run (e :: l) st) with (run l (run_ev st e)). destruct H as [->|H]; [|now apply IH].
  destruct (run_grow l (run_ev st (EReport r))) as [x ->]. apply in_app_iff. left.
  simpl. apply in_app_iff. simpl. auto.
Qed.

(** * Locators without targets are reported *)

Lemma load_files_targets fs st : start_ok (rs_version st) ->
  no_errors (rs_reports (load_files fs st)) -> targets_ok (rs_version st) ->
  targets_ok (rs_version (load_files fs st)).
Proof.
  intros Hs Hn Ht. rewrite load_files_run in *. fold (all_evs fs) in *.
  assert (S : stored (good_type (fun _ => True)) (good_res (fun _ => True) (fun o => o <> None)) (rs_version (run (all_evs fs) st)) \/ True)
    by now right. clear S.
  assert (S : stored (fun _ _ => True) (good_res (fun _ => True) (fun o => o <> None)) (rs_version (run (all_evs fs) st))).
  { apply stored_run; auto using all_ok.
    - assert (A : Forall (ev_stored (good_type (fun _ => True)) (good_res (fun _ => True) (fun o => o <> None))) (all_evs fs)).
      { apply all_stored. intros d Hd.
        destruct d as [ans n vs doc|ans n ms doc|ans n ms doc|ans n codes doc|ans n ms doc];
          cbn [decl_ok_in]; try (exact I); try (intros m Hm; split; [intros|]; exact I).
        intros m Hm. destruct m as [x|x]; [intros p Hp; split; [intros|]; exact I|].
        unfold locator_ok_in. intros E. destruct (loc_contents x) as (_ & _ & _ & Et & _). rewrite E in Et.
        eapply (Hn ("Locator '" ++ camel (l_name (loc_of x)) ++ "' doesn't have a target")).
        apply run_report_in. unfold all_decls in Hd. apply in_flat_map in Hd as (f & Hf & Hd).
        unfold all_evs. apply in_flat_map. exists f. split; [assumption|]. right.
        apply in_flat_map. eexists. split; [exact Hd|]. cbn [decl_evs]. apply in_app_iff. right.
        apply in_app_iff. left. apply in_flat_map. exists (RMLocator x). split; [assumption|].
        cbn [rmember_evs]. unfold locator_evs. rewrite Et. apply in_app_iff. right. apply in_app_iff. right.
        now left. }
      eapply Forall_impl; [|exact A]. intros [r|n|t|kd n fill|n|n fill|x]; cbn [ev_stored]; auto.
    - split; [auto|]. intros k r H. split; [auto|]. exact (Ht k r H). }
  intros k r H. apply S in H as [_ H]. exact H.
Qed.

(** * Kinds *)

Definition kind_ev (e : ev) : Prop :=
  match e with
  | ENew t => t_kind t <> UndefinedType
  | EDecl kd _ fill => kd <> UndefinedType /\ forall t, t_kind (fill t) = t_kind t
  | _ => True
  end.

Definition undef_ok (st : rstate) : Prop :=
  forall k t, mget k (v_types (rs_version st)) = Some t -> t_kind t = UndefinedType -> mhas k (rs_utypes st) = true.

Lemma undef_step st e : ok_ev e -> kind_ev e -> start_ok (rs_version st) -> undef_ok st -> undef_ok (run_ev st e).
Proof.
  intros Hok Hke [Hix _] H.
  destruct e as [r|n|t|kd n fill|n|n fill|x]; cbn [run_ev]; try exact H.
  - unfold refer_type. destruct (find_type n (rs_version st)); [exact H|].
    intros k t. simpl. change (name_string n) with (name_key n). rewrite mget_mset, mhas_mset.
    destruct (String.eqb_spec k (name_key n)); [reflexivity|]. apply H.
  - destruct (find_type (t_name t) (rs_version st)); [exact H|]. intros k t'. simpl. rewrite mget_mset.
    destruct (String.eqb_spec k (name_key (t_name t))); [|apply H]. intros [= <-] E. contradiction.
  - unfold declare_type. simpl in Hok. destruct Hke as [Hk Hf]. destruct (find_type n (rs_version st)) as [t|] eqn:E.
    + assert (Ek : name_key (t_name t) = name_key n) by exact (indexed_get t_name _ _ _ Hix E).
      unfold is_undefined_type. destruct (mhas (name_key (t_name t)) (rs_utypes st)); [|exact H].
      intros k t'. simpl. rewrite Hok. simpl. rewrite mget_mset, mhas_mdel.
      destruct (String.eqb_spec k (name_key (t_name t))); [|apply H].
      intros [= <-]. rewrite Hf. simpl. contradiction.
    + intros k t'. simpl. rewrite Hok. simpl. change (name_string n) with (name_key n). rewrite mget_mset.
      destruct (String.eqb_spec k (name_key n)); [|apply H]. intros [= <-]. rewrite Hf. simpl. contradiction.
  - destruct (find_resource n (rs_version st)); exact H.
  - destruct (find_resource n (rs_version st)) as [r|]; [destruct (is_undefined_resource r st)|]; exact H.
  - destruct (find_error (e_name x) (rs_version st)); exact H.
Qed.

Lemma report_only_kind l : report_only l -> Forall kind_ev l.
Proof. apply Forall_impl. intros []; simpl; tauto. Qed.

Lemma all_kind fs : Forall kind_ev (all_evs fs).
Proof.
  assert (R : forall r, Forall kind_ev (ref_evs r)) by (intros []; repeat constructor; discriminate).
  assert (A : forall l, Forall kind_ev (annots_evs l)) by (intros l; apply report_only_kind, annots_report_only).
  assert (M : forall ms, Forall kind_ev (flat_map member_evs ms)).
  { intros ms. apply flat_forall. intros m _. apply Forall_app. auto. }
  assert (F : forall doc ans t, t_kind (fill_type doc ans t) = t_kind t).
  { intros. unfold fill_type. now destruct (String.eqb doc ""). }
  apply flat_forall. intros f _. constructor; [exact I|]. apply flat_forall. intros d _.
  destruct d as [ans n vs doc|ans n ms doc|ans n ms doc|ans n codes doc|ans n ms doc];
    cbn [decl_evs]; apply Forall_app; (split; [apply A|]); apply Forall_app; split; auto.
  - apply flat_forall. intros v _. apply A.
  - constructor; [|constructor]. split; [discriminate|]. intros t.
    destruct (fold_value_frame (map value_of vs) (fill_type doc (map annotation_of ans) t)) as (E & _).
    cbv zeta in E. now rewrite E.
  - constructor; [|constructor]. split; [discriminate|]. intros t.
    destruct (fold_attr_frame (map attribute_of ms) (fill_type doc (map annotation_of ans) t)) as (E & _).
    cbv zeta in E. now rewrite E.
  - constructor; [|constructor]. split; [discriminate|]. intros t.
    destruct (fold_attr_frame (map attribute_of ms) (fill_type doc (map annotation_of ans) t)) as (E & _).
    cbv zeta in E. now rewrite E.
  - apply flat_forall. intros c _. apply report_only_kind, code_report_only.
  - repeat constructor.
  - apply flat_forall. intros m _. destruct m as [x|x]; cbn [rmember_evs].
    + apply Forall_app. split; [apply A|]. apply flat_forall. intros p _.
      apply Forall_app. split; [apply A|]. apply Forall_app. split; [apply R|].
      destruct (pd_default p); [apply report_only_kind, literal_report_only|constructor].
    + apply Forall_app. split; [apply A|]. apply Forall_app. split.
      * apply flat_forall. intros y _. destruct y; repeat constructor.
      * destruct (l_target (loc_of x)); repeat constructor.
  - repeat constructor.
Qed.

Lemma load_files_undef fs st : start_ok (rs_version st) -> undef_ok st -> undef_ok (load_files fs st).
Proof.
  intros Hs H. rewrite load_files_run. fold (all_evs fs).
  assert (Hok := all_ok fs). assert (Hk := all_kind fs). revert st Hs H.
  induction (all_evs fs) as [|e l IH]; intros st Hs H; [assumption|].
  inversion Hok; inversion Hk; subst. change (run (e :: l) st) with (run l (run_ev st e)).
  apply IH; auto; [now apply run_ev_indexed|now apply undef_step].
Qed.

Lemma fresh_undef n : undef_ok (fresh n).
Proof.
  intros k t H E. exfalso. unfold fresh in H. cbn [rs_version] in H.
  destruct (builtins_only n k t H) as [[[id bk] kd] [Hin Hb]]. simpl in Hb.
  assert (kd <> UndefinedType).
  { repeat (destruct Hin as [[= <- <- <-]|Hin]; [discriminate|]). contradiction. }
  destruct Hb as [(_ & Hk & _)|(_ & Hk & _)]; congruence.
Qed.

(** * All the versions of a model *)

Section Lift.
  Context (VP : list report -> version -> Prop).
  Context (VP_new : forall rs n, VP rs (new_version n)).
  Context (VP_mono : forall rs rs' v, VP rs v -> VP (rs ++ rs')%list v).
  Context (VP_load : forall fs v u ur rs, VP rs v ->
    let st := load_files fs (MkRState v u ur rs) in VP (rs_reports st) (rs_version st)).

  Definition serv_ok (rs : list report) (s : service) : Prop :=
    indexed v_name (s_versions s) /\ forall v, in_service s v -> VP rs v.
  Definition mod_ok (rs : list report) (m : model) : Prop :=
    indexed s_name m /\ forall s, in_model m s -> serv_ok rs s.

  Lemma serv_mono rs rs' s : serv_ok rs s -> serv_ok (rs ++ rs')%list s.
  Proof. intros [H1 H2]. split; auto. Qed.

  Lemma mset_in_values {A} k (a b : A) m : (exists j, mget j (mset k a m) = Some b) -> b = a \/ exists j, mget j m = Some b.
  Proof.
    intros [j H]. rewrite mget_mset in H. destruct (String.eqb j k); [left; congruence|right; eauto].
  Qed.

  Lemma load_version_ok s d g :
    serv_ok (g_reports g) s ->
    let sg := load_version s d g in
    serv_ok (g_reports (snd sg)) (fst sg) /\ g_model (snd sg) = g_model g /\
    s_name (fst sg) = s_name s /\ exists x, g_reports (snd sg) = (g_reports g ++ x)%list.
  Proof.
    intros [Hix Hv]. unfold load_version. cbv zeta.
    set (n := parse_using_separator (fst d) "_").
    set (v := match find_version n s with Some v => v | None => new_version n end).
    set (st := fold_left _ (snd d) _).
    assert (Hvp : VP (g_reports g) v).
    { unfold v. destruct (find_version n s) as [w|] eqn:E; [|apply VP_new]. apply Hv. eexists; exact E. }
    assert (Hst := VP_load (snd d) v (g_utypes g) (g_uresources g) (g_reports g) Hvp).
    cbv zeta in Hst. change (load_files (snd d) _) with st in Hst.
    assert (Hg : exists x, rs_reports st = (g_reports g ++ x)%list).
    { destruct (run_grow (all_evs (snd d)) (MkRState v (g_utypes g) (g_uresources g) (g_reports g))) as [x Hx].
      exists x. cbn [rs_reports] in Hx. rewrite <- Hx. unfold all_evs. rewrite <- load_files_run. reflexivity. }
    split; [|auto]. simpl. split; [now apply indexed_mset|].
    intros w Hw. apply mset_in_values in Hw as [->|Hw]; [assumption|].
    destruct Hg as [x ->]. now apply VP_mono, Hv.
  Qed.

  Lemma load_versions_ok l : forall s g,
    serv_ok (g_reports g) s ->
    let sg := fold_left (fun (sg : service * gstate) vd => load_version (fst sg) vd (snd sg)) l (s, g) in
    serv_ok (g_reports (snd sg)) (fst sg) /\ g_model (snd sg) = g_model g /\
    s_name (fst sg) = s_name s /\ exists x, g_reports (snd sg) = (g_reports g ++ x)%list.
  Proof.
    induction l as [|d l IH]; intros s g H; cbn [fold_left].
    - simpl. repeat split; try apply H. exists []. now rewrite app_nil_r.
    - destruct (load_version_ok s d g H) as (H1 & H2 & H3 & x & H4). cbn [fst snd] in *.
      destruct (load_version s d g) as [s' g']. cbn [fst snd] in *.
      destruct (IH s' g' H1) as (I1 & I2 & I3 & y & I4). cbv zeta in *.
      repeat split; try apply I1; try congruence. exists (x ++ y)%list. rewrite I4, H4. now rewrite app_assoc.
  Qed.

  Lemma load_service_ok d g : mod_ok (g_reports g) (g_model g) ->
    mod_ok (g_reports (load_service d g)) (g_model (load_service d g)).
  Proof.
    intros [Hix Hs]. unfold load_service. cbv zeta.
    set (n := parse_using_separator (fst d) "_").
    set (s := match find_service n (g_model g) with Some s => s | None => new_service n end).
    assert (Hok : serv_ok (g_reports g) s).
    { unfold s. destruct (find_service n (g_model g)) as [w|] eqn:E; [apply Hs; eexists; exact E|].
      split; [split; [constructor|intros k a []]|]. intros v [k H]. discriminate. }
    destruct (load_versions_ok (snd d) s g Hok) as (H1 & H2 & H3 & x & H4). cbv zeta in *.
    destruct (fold_left _ (snd d) (s, g)) as [s' g']. cbn [fst snd] in *.
    split; simpl; [rewrite H2; now apply indexed_mset|].
    intros w Hw. apply mset_in_values in Hw as [->|Hw]; [assumption|].
    rewrite H4. apply serv_mono, Hs. now rewrite <- H2.
  Qed.

  Lemma load_inputs_ok inputs rs :
    let g := load_inputs inputs rs in mod_ok (g_reports g) (g_model g).
  Proof.
    unfold load_inputs.
    assert (H : mod_ok (g_reports (MkGState [] [] [] rs)) (g_model (MkGState [] [] [] rs))).
    { split; [split; [constructor|intros k a []]|]. intros s [k E]. discriminate. }
    revert H. generalize (MkGState [] [] [] rs) as g. induction inputs as [|i inputs IH]; intros g H; [exact H|].
    cbn [fold_left]. apply IH. unfold load_model. clear IH. revert g H.
    induction i as [|d i IH]; intros g H; [exact H|]. cbn [fold_left]. apply IH. now apply load_service_ok.
  Qed.
End Lift.

(** Everything that holds for each version that is loaded. *)
Definition loaded_ok (rs : list report) (v : version) : Prop :=
  start_ok v /\ wf_version v /\ (no_errors rs -> targets_ok v).

Lemma loaded_versions inputs rs :
  let g := load_inputs inputs rs in mod_ok loaded_ok (g_reports g) (g_model g).
Proof.
  apply load_inputs_ok.
  - intros rs' n. destruct (new_version_wf n) as [H1 H2]. split; [assumption|]. split; [assumption|].
    intros _ k r H. discriminate.
  - intros r1 r2 v (H1 & H2 & H3). split; [assumption|]. split; [assumption|].
    intros H. apply no_errors_app in H. apply H3, H.
  - intros fs v u ur r (H1 & H2 & H3). cbv zeta.
    destruct (load_files_wf fs (MkRState v u ur r)) as [W1 W2]; auto.
    split; [assumption|]. split; [assumption|]. intros Hn. apply load_files_targets; auto.
    apply H3. rewrite load_files_run in Hn. destruct (run_grow (flat_map file_evs fs) (MkRState v u ur r)) as [x Hx].
    rewrite Hx in Hn. apply no_errors_app in Hn. apply Hn.
Qed.

(** * The model that is returned *)

Lemma fold_mset_spec {A} (kf : A -> key) (f : A -> A) l : forall m k, NoDup (map kf l) ->
  mget k (fold_left (fun m a => mset (kf a) (f a) m) l m) =
  match find (fun a => String.eqb (kf a) k) l with Some a => Some (f a) | None => mget k m end.
Proof.
  induction l as [|a l IH]; intros m k Hnd; [reflexivity|]. inversion Hnd as [|? ? Hni Hnd']; subst.
  cbn [fold_left find]. rewrite IH by assumption. rewrite mget_mset, String.eqb_sym.
  destruct (String.eqb_spec (kf a) k) as [Ek|Hne]; [|reflexivity].
  destruct (find (fun a0 => String.eqb (kf a0) k) l) as [b|] eqn:E; [|reflexivity].
  exfalso. apply find_some in E as [Hb Eb]. apply String.eqb_eq in Eb. apply Hni. rewrite Ek, <- Eb. now apply in_map.
Qed.

Lemma map_update_spec {A} (nf : A -> name) (less : A -> A -> bool) (f : A -> A) m k :
  indexed nf m ->
  mget k (fold_left (fun m a => mset (name_key (nf a)) (f a) m) (sort less (mvals m)) m) = option_map f (mget k m).
Proof.
  intros [Hnd Hk].
  assert (P : Permutation (map (fun a => name_key (nf a)) (sort less (mvals m))) (map fst m)).
  { eapply Permutation_trans; [apply Permutation_map, Permutation_sym, sort_perm|].
    unfold mvals. rewrite map_map. apply Permutation_refl'.
    clear Hnd. induction m as [|[k' a] m IH]; [reflexivity|]. simpl.
    rewrite IH by (intros; apply Hk; now right). f_equal. symmetry. apply Hk. now left. }
  rewrite (fold_mset_spec (fun a => name_key (nf a))).
  2:{ eapply Permutation_NoDup; [apply Permutation_sym, P|exact Hnd]. }
  destruct (find _ _) as [a|] eqn:E.
  - apply find_some in E as [Ha Ea]. apply String.eqb_eq in Ea.
    apply sort_in in Ha. unfold mvals in Ha. apply in_map_iff in Ha as ([k' a'] & Ea' & Hin). simpl in Ea'. subst a'.
    pose proof (Hk _ _ Hin) as Ek. unfold name_key in Ea. rewrite Ea in Ek. subst k'.
    apply (mget_in_iff k a m Hnd) in Hin. now rewrite Hin.
  - destruct (mget k m) as [a|] eqn:G; [|reflexivity]. exfalso.
    apply mget_in in G. pose proof (Hk _ _ G) as Ek.
    assert (Ha : In a (sort less (mvals m))).
    { apply sort_in. unfold mvals. apply in_map_iff. exists (k, a). auto. }
    apply (find_none _ _ E) in Ha. apply String.eqb_neq in Ha. apply Ha. now rewrite Ek.
Qed.

Lemma ensure_list_name v t : v_name (ensure_list v t) = v_name v.
Proof. apply ensure_list_frame. Qed.
Lemma ensure_lists_name v : v_name (ensure_lists v) = v_name v.
Proof.
  unfold ensure_lists. generalize (types v) as l. intros l. revert v.
  induction l as [|t l IH]; intros v; [reflexivity|]. cbn [fold_left]. now rewrite IH, ensure_list_name.
Qed.

Lemma ensure_service_name s : s_name (ensure_service_lists s) = s_name s.
Proof.
  unfold ensure_service_lists. generalize (versions s) as l. intros l. revert s.
  induction l as [|v l IH]; intros s; [reflexivity|]. cbn [fold_left]. now rewrite IH.
Qed.

Lemma ensure_service_spec s k : indexed v_name (s_versions s) ->
  mget k (s_versions (ensure_service_lists s)) = option_map ensure_lists (mget k (s_versions s)).
Proof.
  intros H. rewrite <- (map_update_spec v_name version_less ensure_lists _ k H).
  unfold ensure_service_lists, versions. f_equal.
  generalize (sort version_less (mvals (s_versions s))) as l. intros l. clear H. revert s.
  induction l as [|v l IH]; intros s; [reflexivity|]. cbn [fold_left]. rewrite IH. simpl.
  unfold name_key. now rewrite ensure_lists_name.
Qed.

Lemma ensure_model_spec m k : indexed s_name m ->
  mget k (ensure_model_lists m) = option_map ensure_service_lists (mget k m).
Proof.
  intros H. rewrite <- (map_update_spec s_name service_less ensure_service_lists _ k H).
  unfold ensure_model_lists, services. f_equal.
  generalize (sort service_less (mvals m)) as l. intros l. clear H. revert m.
  induction l as [|v l IH]; intros m; [reflexivity|]. cbn [fold_left]. rewrite IH. simpl.
  unfold name_key, add_service. now rewrite ensure_service_name.
Qed.

(** A version of the model that is returned comes from one that has been loaded. *)
Lemma returned_version inputs rs s' v' :
  let g := load_inputs inputs rs in
  in_model (ensure_model_lists (g_model g)) s' -> in_service s' v' ->
  exists s v, in_model (g_model g) s /\ in_service s v /\ v' = ensure_lists v /\ s' = ensure_service_lists s /\
    loaded_ok (g_reports g) v.
Proof.
  cbv zeta. destruct (loaded_versions inputs rs) as [Hix Hs]. cbv zeta in *.
  intros [ks Hks] [kv Hkv]. rewrite (ensure_model_spec _ _ Hix) in Hks.
  destruct (mget ks (g_model (load_inputs inputs rs))) as [s|] eqn:Es; [|discriminate]. injection Hks as <-.
  assert (Hin : in_model (g_model (load_inputs inputs rs)) s) by (eexists; exact Es).
  destruct (Hs s Hin) as [Hixv Hv]. rewrite (ensure_service_spec _ _ Hixv) in Hkv.
  destruct (mget kv (s_versions s)) as [v|] eqn:Ev; [|discriminate]. injection Hkv as <-.
  assert (Hiv : in_service s v) by (eexists; exact Ev).
  exists s, v. exact (conj Hin (conj Hiv (conj eq_refl (conj eq_refl (Hv v Hiv))))).
Qed.

Lemma targets_ensure v : indexed t_name (v_types v) -> targets_ok v -> targets_ok (ensure_lists v).
Proof.
  intros Hix H k r. unfold resource_at. destruct (ensure_lists_spec v Hix) as (_ & E & _). cbv zeta in E.
  rewrite E. apply H.
Qed.

Lemma run_all_in {A} (f : A -> outcome (list report)) l rs a : run_all f l = Done rs -> In a l ->
  exists x, f a = Done x /\ incl x rs.
Proof.
  revert rs. induction l as [|b l IH]; intros rs E H; [contradiction|]. simpl in E.
  destruct (f b) as [x| |] eqn:Eb; try discriminate.
  destruct (run_all f l) as [y| |] eqn:El; try discriminate. injection E as <-.
  destruct H as [<-|H].
  - exists x. split; [assumption|]. now apply incl_appl, incl_refl.
  - destruct (IH y eq_refl H) as (z & Hz & Hi). exists z. split; [assumption|]. now apply incl_appr.
Qed.

Lemma in_services m s : indexed s_name m -> in_model m s -> In s (services m).
Proof.
  intros _ [k H]. unfold services. apply sort_in. apply mget_in in H. unfold mvals.
  apply in_map_iff. exists (k, s). auto.
Qed.
Lemma in_versions s v : in_service s v -> In v (versions s).
Proof.
  intros [k H]. unfold versions. apply sort_in. apply mget_in in H. unfold mvals.
  apply in_map_iff. exists (k, v). auto.
Qed.

Lemma checked_version m cs s v : check_model m = Done cs -> in_model m s -> in_service s v ->
  exists x, check_version (s_name s) v = Done x /\ incl x cs.
Proof.
  intros E Hs Hv. unfold check_model in E.
  assert (Hin : In s (services m)).
  { destruct Hs as [k H]. unfold services. apply sort_in. apply mget_in in H. unfold mvals.
    apply in_map_iff. exists (k, s). auto. }
  destruct (run_all_in _ _ _ _ E Hin) as (y & Ey & Hy). unfold check_service in Ey.
  destruct (run_all_in _ _ _ _ Ey (in_versions s v Hv)) as (x & Ex & Hx).
  exists x. split; [assumption|]. eapply incl_tran; eauto.
Qed.

Lemma check_version_root sn v x : check_version sn v = Done x -> exists r, root v = Some r.
Proof.
  unfold check_version, check_locator_loops. destruct (root v); [eauto|discriminate].
Qed.

(** The versions of a model that is returned without errors. *)
Lemma returned_model_sound inputs rs0 m rs s v :
  read inputs rs0 = Done (ROk m, rs) -> in_model m s -> in_service s v ->
  no_errors rs /\ closed_version v /\ targets_ok v /\ (exists r, root v = Some r) /\
  (forall k t, type_at k v = Some t -> k = name_key (t_name t)) /\
  (forall k t, type_at k v = Some t -> is_list t = false ->
     exists lt, find_type (cat [t_name t; nList]) v = Some lt) /\
  (forall k t, type_at k v = Some t -> is_list t = true ->
     exists n, k = name_key (cat [n; nList]) /\ t_element t = Some (name_key n)).
Proof.
  intros E Hs Hv. apply read_spec in E. cbv zeta in E. destruct E as (cs & Ec & -> & Ed).
  symmetry in Ed. apply (proj1 (decide_spec _ _)) in Ed as [Hn ->].
  split; [assumption|].
  destruct (returned_version inputs rs0 s v Hs Hv) as (s1 & v1 & Hs1 & Hv1 & -> & -> & Hok1 & Hw1 & Ht1).
  destruct (ensure_lists_wf v1 Hok1 Hw1) as [Hok Hw].
  split; [now apply wf_closed|]. split.
  { apply targets_ensure; [apply Hok1|]. apply Ht1. apply no_errors_app in Hn. apply Hn. }
  split.
  { destruct (checked_version _ _ _ _ Ec Hs Hv) as (x & Ex & _). eapply check_version_root; eauto. }
  split; [intros k t H; symmetry; apply (indexed_get t_name _ _ _ (proj1 Hok) H)|].
  split.
  - intros k t H Hl. destruct (ensure_lists_spec v1 (proj1 Hok1)) as (_ & _ & _ & E4 & E5 & E6). cbv zeta in *.
    pose proof (E5 k t H) as [H'|(t' & _ & _ & _ & _ & Hk & _)].
    + destruct (E6 k t H' Hl) as (lt & Hlt & _). eauto.
    + unfold is_list in Hl. rewrite Hk in Hl. discriminate.
  - intros k t H Hl. destruct Hw as [T _]. destruct (T k t H) as [_ L].
    destruct L as (n & He & Hk); [|eauto]. unfold is_list in Hl. now destruct (t_kind t).
Qed.

(** With only one version all the kinds are known. *)
Lemma single_model s v fs rs :
  let st := load_files fs (MkRState (new_version (parse_using_separator v "_")) [] [] rs) in
  forall s' v', in_model (g_model (load_inputs [[(s, [(v, fs)])]] rs)) s' -> in_service s' v' ->
  v' = rs_version st.
Proof.
  cbv zeta. intros s' v' [ks Hs] [kv Hv].
  unfold load_inputs, load_model, load_service, load_version in Hs. simpl in Hs.
  destruct (String.eqb ks _); [|discriminate]. injection Hs as <-. simpl in Hv.
  destruct (String.eqb kv _); [|discriminate]. injection Hv as <-. reflexivity.
Qed.

Lemma undefined_none g : no_errors (undefined_reports g) -> g_utypes g = [] /\ g_uresources g = [].
Proof.
  unfold undefined_reports. intros H. apply no_errors_app in H as [H1 H2]. split.
  - destruct (g_utypes g) as [|[k n] l]; [reflexivity|]. exfalso. eapply H1. now left.
  - destruct (g_uresources g) as [|[k n] l]; [reflexivity|]. exfalso. eapply H2. now left.
Qed.

Lemma single_version_defined sd vd fs rs0 m rs s v k t :
  read [[(sd, [(vd, fs)])]] rs0 = Done (ROk m, rs) -> in_model m s -> in_service s v ->
  type_at k v = Some t -> t_kind t <> UndefinedType.
Proof.
  intros E Hs Hv Ht. apply read_spec in E. cbv zeta in E. destruct E as (cs & Ec & -> & Ed).
  symmetry in Ed. apply (proj1 (decide_spec _ _)) in Ed as [Hn ->].
  apply no_errors_app in Hn as [_ Hn]. apply no_errors_app in Hn as [Hn _].
  apply undefined_none in Hn as [Hu _].
  destruct (returned_version _ rs0 s v Hs Hv) as (s1 & v1 & Hs1 & Hv1 & -> & -> & Hok1 & _).
  pose proof (single_model sd vd fs rs0 s1 v1 Hs1 Hv1) as Ev.
  destruct (single_version sd vd fs rs0) as (Eu & _). cbv zeta in *. rewrite Eu in Hu.
  destruct (ensure_lists_spec v1 (proj1 Hok1)) as (_ & _ & _ & _ & E5 & _). cbv zeta in *.
  apply E5 in Ht as [Ht|(t' & _ & _ & _ & _ & Hk & _)]; [|rewrite Hk; discriminate].
  intros Hk. assert (U : undef_ok (load_files fs (MkRState (new_version (parse_using_separator vd "_")) [] [] rs0))).
  { apply load_files_undef; [apply new_version_wf|]. exact (fresh_undef _). }
  unfold undef_ok in U. rewrite <- Ev, Hu in U. discriminate (U k t Ht Hk).
Qed.
