(** Proofs about the reader: references, kinds, list types, several versions. *)
From Coq Require Import Ascii String Bool Arith ZArith Lia Permutation Sorted List.
From Verif Require Import GoStrings GoStringsProofs GoMap GoMapProofs NamesModel NamesSpec NamesProofs
  ConceptsModel ConceptsSpec ConceptsProofs ReporterModel ReaderModel ReaderSpec ReaderProofs ReaderProofs2
  ReaderProofs3 ReaderProofs4.
Import ListNotations.
Local Open Scope string_scope.

(** * Invariants of the stored types and resources *)

Section Stored.
  Context (TP : key -> typ -> Prop) (RP : key -> resource -> Prop).

  Definition stored (v : version) : Prop :=
    (forall k t, mget k (v_types v) = Some t -> TP k t) /\
    (forall k r, mget k (v_resources v) = Some r -> RP k r).

  Definition ev_stored (e : ev) : Prop :=
    match e with
    | EUse n => TP (name_key n) (new_type n)
    | ENew t => TP (name_key (t_name t)) t
    | EDecl kd n fill =>
        (forall t, name_key (t_name t) = name_key n -> t = new_type n \/ TP (name_key n) t ->
           TP (name_key n) (fill (set_kind kd t)))
    | EUseRes n => RP (name_key n) (new_resource n)
    | EDeclRes n fill =>
        (forall r, name_key (r_name r) = name_key n -> r = new_resource n \/ RP (name_key n) r ->
           RP (name_key n) (fill r))
    | EReport _ | EDeclErr _ => True
    end.

  Lemma stored_step st e : ok_ev e -> start_ok (rs_version st) -> ev_stored e -> stored (rs_version st) ->
    stored (rs_version (run_ev st e)).
  Proof.
    intros Hok [Hix Hixr] He [T R].
    destruct e as [r|n|t|kd n fill|n|n fill|x]; cbn [run_ev]; try (now split).
    - unfold refer_type. destruct (find_type n (rs_version st)) eqn:E; [now split|].
      split; [|exact R]. intros k t. simpl. change (name_string n) with (name_key n).
      rewrite mget_mset. destruct (String.eqb_spec k (name_key n)); [|apply T].
      intros [= <-]. now subst.
    - destruct (find_type (t_name t) (rs_version st)) eqn:E; [now split|].
      split; [|exact R]. intros k t'. simpl.
      rewrite mget_mset. destruct (String.eqb_spec k (name_key (t_name t))); [|apply T].
      intros [= <-]. now subst.
    - unfold declare_type. simpl in Hok. destruct (find_type n (rs_version st)) as [t|] eqn:E.
      + assert (Ek : name_key (t_name t) = name_key n) by exact (indexed_get t_name _ _ _ Hix E).
        unfold is_undefined_type. destruct (mhas (name_key (t_name t)) (rs_utypes st)); [|now split].
        split; [|exact R]. intros k t'. simpl. rewrite Hok. simpl.
        rewrite mget_mset. destruct (String.eqb_spec k (name_key (t_name t))); [|apply T].
        intros [= <-]. subst. rewrite Ek. apply He; auto.
      + split; [|exact R]. intros k t'. simpl. rewrite Hok. simpl. change (name_string n) with (name_key n).
        rewrite mget_mset. destruct (String.eqb_spec k (name_key n)); [|apply T].
        intros [= <-]. subst. apply He; auto.
    - destruct (find_resource n (rs_version st)) eqn:E; [now split|].
      split; [exact T|]. intros k t. simpl. change (name_string n) with (name_key n).
      rewrite mget_mset. destruct (String.eqb_spec k (name_key n)); [|apply R].
      intros [= <-]. now subst.
    - simpl in Hok. destruct (find_resource n (rs_version st)) as [t|] eqn:E.
      + assert (Ek : name_key (r_name t) = name_key n) by exact (indexed_get r_name _ _ _ Hixr E).
        unfold is_undefined_resource. destruct (mhas (name_key (r_name t)) (rs_uresources st)); [|now split].
        split; [exact T|]. intros k t'. simpl. rewrite Hok. simpl.
        rewrite mget_mset. destruct (String.eqb_spec k (name_key (r_name t))); [|apply R].
        intros [= <-]. subst. rewrite Ek. apply He; auto.
      + split; [exact T|]. intros k t'. simpl. rewrite Hok. simpl. change (name_string n) with (name_key n).
        rewrite mget_mset. destruct (String.eqb_spec k (name_key n)); [|apply R].
        intros [= <-]. subst. apply He; auto.
    - destruct (find_error (e_name x) (rs_version st)); now split.
  Qed.

  Lemma stored_run l : forall st, Forall ok_ev l -> start_ok (rs_version st) -> Forall ev_stored l ->
    stored (rs_version st) -> stored (rs_version (run l st)).
  Proof.
    induction l as [|e l IH]; intros st Hok Hs He H; [assumption|].
    inversion Hok; inversion He; subst. change (run (e :: l) st) with (run l (run_ev st e)).
    apply IH; auto; [now apply run_ev_indexed|now apply stored_step].
  Qed.
End Stored.

(** * Nothing is removed *)

Lemma grows_step st e k : ok_ev e -> start_ok (rs_version st) ->
  (mhas k (v_types (rs_version st)) = true -> mhas k (v_types (rs_version (run_ev st e))) = true) /\
  (mhas k (v_resources (rs_version st)) = true -> mhas k (v_resources (rs_version (run_ev st e))) = true).
Proof.
  intros Hok Hs. destruct e as [r|n|t|kd n fill|n|n fill|x]; cbn [run_ev]; try (now split).
  - unfold refer_type. destruct (find_type n (rs_version st)); split; auto.
    intros H. simpl. rewrite mhas_mset, H. apply orb_true_r.
  - destruct (find_type (t_name t) (rs_version st)); split; auto.
    intros H. simpl. rewrite mhas_mset, H. apply orb_true_r.
  - unfold declare_type. destruct (find_type n (rs_version st)) as [t|].
    + destruct (is_undefined_type t st); split; auto. intros H. simpl. rewrite mhas_mset, H. apply orb_true_r.
    + split; auto. intros H. simpl. rewrite mhas_mset, H. apply orb_true_r.
  - destruct (find_resource n (rs_version st)); split; auto.
    intros H. simpl. rewrite mhas_mset, H. apply orb_true_r.
  - destruct (find_resource n (rs_version st)) as [t|].
    + destruct (is_undefined_resource t st); split; auto. intros H. simpl. rewrite mhas_mset, H. apply orb_true_r.
    + split; auto. intros H. simpl. rewrite mhas_mset, H. apply orb_true_r.
  - destruct (find_error (e_name x) (rs_version st)); split; auto.
Qed.

Lemma grows l : forall st k, Forall ok_ev l -> start_ok (rs_version st) ->
  (mhas k (v_types (rs_version st)) = true -> mhas k (v_types (rs_version (run l st))) = true) /\
  (mhas k (v_resources (rs_version st)) = true -> mhas k (v_resources (rs_version (run l st))) = true).
Proof.
  induction l as [|e l IH]; intros st k Hok Hs; [split; auto|].
  inversion Hok; subst. change (run (e :: l) st) with (run l (run_ev st e)).
  destruct (grows_step st e k) as [G1 G2]; auto.
  destruct (IH (run_ev st e) k) as [G3 G4]; auto. now apply run_ev_indexed.
Qed.

Lemma mentioned_exists l : forall st, Forall ok_ev l -> start_ok (rs_version st) -> forall k,
  (used l k \/ introduced l k -> mhas k (v_types (rs_version (run l st))) = true) /\
  (used_res l k -> mhas k (v_resources (rs_version (run l st))) = true).
Proof.
  induction l as [|e l IH]; intros st Hok Hs k.
  - split; [intros [(n & [] & _)|(t & [] & _)]|intros (n & [] & _)].
  - inversion Hok; subst. change (run (e :: l) st) with (run l (run_ev st e)).
    assert (Hs' : start_ok (rs_version (run_ev st e))) by now apply run_ev_indexed.
    destruct (IH (run_ev st e)) with (k := k) as [I1 I2]; auto.
    destruct (grows l (run_ev st e) k) as [G1 G2]; auto. split.
    + intros [(n & [->|Hn] & <-)|(t & [->|Ht] & <-)].
      * apply G1. cbn [run_ev]. unfold refer_type. rewrite mhas_find.
        destruct (find_type n (rs_version st)) eqn:E; [now rewrite E|].
        simpl. unfold find_type. simpl. change (name_string n) with (name_key n). now rewrite mget_mset_same.
      * apply I1. left. exists n. auto.
      * apply G1. cbn [run_ev]. rewrite mhas_find.
        destruct (find_type (t_name t) (rs_version st)) eqn:E; [now rewrite E|].
        simpl. unfold find_type. simpl. now rewrite mget_mset_same.
      * apply I1. right. exists t. auto.
    + intros (n & [->|Hn] & <-).
      * apply G2. cbn [run_ev]. rewrite mhas_find_res.
        destruct (find_resource n (rs_version st)) eqn:E; [now rewrite E|].
        simpl. unfold find_resource. simpl. change (name_string n) with (name_key n). now rewrite mget_mset_same.
      * apply I2. exists n. auto.
Qed.

(** * References (closed versions) *)

(** Types and resources whose references belong to the given sets. *)
Definition refs_in (P : key -> Prop) (t : typ) : Prop :=
  (forall a, In a (t_attrs t) -> P (a_type a)) /\
  (forall k, t_element t = Some k -> P k) /\ (forall k, t_index t = Some k -> P k).
Definition res_in (P : key -> Prop) (Q : option key -> Prop) (r : resource) : Prop :=
  (forall m p, In m (r_methods r) -> In p (m_params m) -> P (p_type p)) /\
  (forall l, In l (r_locators r) -> Q (l_target l)).

(** The element of a list type is the type whose name is part of the name of the list type. *)
Definition list_rule (k : key) (t : typ) : Prop :=
  t_kind t = ListType -> exists n, t_element t = Some (name_key n) /\ k = name_key (cat [n; nList]).

Definition good_type (P : key -> Prop) (k : key) (t : typ) : Prop := refs_in P t /\ list_rule k t.
Definition good_res (P : key -> Prop) (Q : option key -> Prop) (k : key) (r : resource) : Prop := res_in P Q r.

Lemma refs_new P n : refs_in P (new_type n).
Proof. repeat split; simpl; try discriminate; intros a []. Qed.

Lemma report_only_stored TP RP l : report_only l -> Forall (ev_stored TP RP) l.
Proof. apply Forall_impl. intros []; simpl; tauto. Qed.

Lemma flat_forall {A B} (Pr : B -> Prop) (f : A -> list B) l :
  (forall a, In a l -> Forall Pr (f a)) -> Forall Pr (flat_map f l).
Proof.
  intros H. induction l as [|a l IH]; simpl; [constructor|]. apply Forall_app. split.
  - apply H. now left.
  - apply IH. intros b Hb. apply H. now right.
Qed.

Section Refs.
  Context (P : key -> Prop) (Q : option key -> Prop).

  (** All the keys mentioned by a reference. *)
  Definition ref_ok_in (r : type_ref) : Prop := (forall id, In id (ref_uses r) -> P (key_of id)) /\ P (ref_key r).

  Lemma ref_stored r : ref_ok_in r -> Forall (ev_stored (good_type P) (good_res P Q)) (ref_evs r).
  Proof.
    intros [H1 H2].
    assert (U : forall n, ev_stored (good_type P) (good_res P Q) (EUse n)).
    { intros n. split; [apply refs_new|]. intros E. discriminate. }
    destruct r as [n|e|i e]; simpl in H1.
    - constructor; [apply U|constructor].
    - constructor; [apply U|constructor; [|constructor]]. split.
      + repeat split; simpl; try discriminate; [intros a []|]. intros k [= <-]. apply H1. auto.
      + intros _. exists (parse_using_case e). split; reflexivity.
    - constructor; [apply U|constructor; [apply U|constructor; [|constructor]]]. split.
      + repeat split; simpl; try discriminate; [intros a []| |]; intros k [= <-]; apply H1; auto.
      + intros E. discriminate.
  Qed.

  Definition member_ok_in (m : member_decl) : Prop := ref_ok_in (md_ref m).
  Definition method_ok_in (m : method_decl) : Prop := forall p, In p (xd_params m) -> ref_ok_in (pd_ref p).
  Definition locator_ok_in (l : locator_decl) : Prop := Q (last_target (ld_members l)).

  Definition decl_ok_in (d : decl) : Prop :=
    match d with
    | DClass _ _ ms _ | DStruct _ _ ms _ => forall m, In m ms -> member_ok_in m
    | DResource _ _ ms _ =>
        forall m, In m ms -> match m with RMMethod x => method_ok_in x | RMLocator x => locator_ok_in x end
    | DEnum _ _ _ _ | DError _ _ _ _ => True
    end.

  Lemma fill_type_refs doc ans t : refs_in P t -> refs_in P (fill_type doc ans t).
  Proof. unfold fill_type. destruct (String.eqb doc ""); auto. Qed.

  Lemma fold_attr_elements ms : forall t,
    let t' := fold_left (fun t a => add_attribute a t) ms t in
    t_element t' = t_element t /\ t_index t' = t_index t.
  Proof. induction ms; intros t; [split; reflexivity|]. simpl. apply (IHms (add_attribute a t)). Qed.

  Lemma fold_attr_refs ms t : (forall a, In a ms -> P (a_type a)) -> refs_in P t ->
    refs_in P (fold_left (fun t a => add_attribute a t) ms t).
  Proof.
    intros Hm (H1 & H2 & H3). destruct (fold_attr_elements ms t) as [E1 E2]. cbv zeta in *.
    unfold refs_in. rewrite E1, E2. repeat split; auto. rewrite fold_add_attribute.
    intros a Ha. eapply Permutation_in in Ha; [|apply Permutation_sym, fold_sort_perm].
    apply in_app_iff in Ha as [Ha|Ha]; auto.
  Qed.

  Lemma fold_value_refs vs : forall t, refs_in P t -> refs_in P (fold_left (fun t v => add_value v t) vs t).
  Proof. induction vs; intros t H; [assumption|]. simpl. apply IHvs. exact H. Qed.

  Lemma struct_stored kd n doc ans ms : kd <> ListType -> (forall m, In m ms -> member_ok_in m) ->
    ev_stored (good_type P) (good_res P Q)
      (EDecl kd n (fun t => fold_left (fun t a => add_attribute a t) (map attribute_of ms) (fill_type doc ans t))).
  Proof.
    intros Hkd Hm t _ Ht. split.
    - apply fold_attr_refs.
      + intros a Ha. apply in_map_iff in Ha as (m & <- & Hin). apply (Hm m Hin).
      + apply fill_type_refs. destruct Ht as [->|[Ht _]]; [apply refs_new|exact Ht].
    - intros E. exfalso. apply Hkd. rewrite <- E.
      destruct (fold_attr_frame (map attribute_of ms) (fill_type doc ans (set_kind kd t))) as (F & _).
      cbv zeta in F. rewrite F. unfold fill_type. now destruct (String.eqb doc "").
  Qed.

  Lemma resource_stored n doc ans ms :
    (forall m, In m ms -> match m with RMMethod x => method_ok_in x | RMLocator x => locator_ok_in x end) ->
    ev_stored (good_type P) (good_res P Q)
      (EDeclRes n (fill_resource doc ans (map rmember_of ms))).
  Proof.
    intros Hms r _ Hr.
    assert (Hr' : res_in P Q r).
    { destruct Hr as [->|Hr]; [|exact Hr]. split; simpl; [intros m p []|intros l []]. }
    clear Hr. unfold good_res, fill_resource.
    set (b := MkResource _ _ _ _ _). assert (Hb : res_in P Q b) by exact Hr'. clearbody b. clear Hr' r.
    revert b Hb. induction ms as [|m ms IH]; intros b [B1 B2]; [split; assumption|].
    cbn [map fold_left]. apply IH; [intros x Hx; apply Hms; now right|].
    specialize (Hms m (or_introl eq_refl)). destruct m as [x|x]; cbn [rmember_of].
    - split; [|exact B2]. intros y p Hy Hp. cbn [add_method r_methods] in Hy.
      apply sort_in in Hy. apply in_app_iff in Hy as [Hy|[<-|[]]]; [eauto|].
      destruct (meth_contents x) as (_ & _ & _ & ps & F & Pm).
      eapply Permutation_in in Hp; [|apply Permutation_sym, Pm].
      assert (G : exists d, In d (xd_params x) /\ parameter_of d p).
      { clear - F Hp. induction F; [contradiction|]. destruct Hp as [<-|Hp]; [eexists; simpl; eauto|].
        destruct (IHF Hp) as (d & Hd & Hd'). exists d. simpl. auto. }
      destruct G as (d & Hd & _ & Et & _). rewrite Et. apply (Hms d Hd).
    - split; [exact B1|]. intros y Hy. cbn [add_locator r_locators] in Hy.
      apply sort_in in Hy. apply in_app_iff in Hy as [Hy|[<-|[]]]; [eauto|].
      destruct (loc_contents x) as (_ & _ & _ & E & _). rewrite E. exact Hms.
  Qed.

  Lemma decl_stored d : decl_ok_in d -> Forall (ev_stored (good_type P) (good_res P Q)) (decl_evs d).
  Proof.
    intros Hd.
    assert (A : forall l, Forall (ev_stored (good_type P) (good_res P Q)) (annots_evs l)).
    { intros l. apply report_only_stored, annots_report_only. }
    assert (M : forall ms, (forall m, In m ms -> member_ok_in m) ->
       Forall (ev_stored (good_type P) (good_res P Q)) (flat_map member_evs ms)).
    { intros ms Hms. apply flat_forall. intros m Hm. apply Forall_app. split; [apply A|].
      apply ref_stored, Hms, Hm. }
    destruct d as [ans n vs doc|ans n ms doc|ans n ms doc|ans n codes doc|ans n ms doc];
      cbn [decl_evs]; apply Forall_app; (split; [apply A|]); apply Forall_app; split.
    - apply flat_forall. intros v _. apply A.
    - constructor; [|constructor]. intros t _ Ht. split.
      + apply fold_value_refs, fill_type_refs. destruct Ht as [->|[Ht _]]; [apply refs_new|exact Ht].
      + intros E. exfalso.
        destruct (fold_value_frame (map value_of vs) (fill_type doc (map annotation_of ans) (set_kind EnumType t))) as (F & _).
        cbv zeta in F. rewrite F in E. unfold fill_type in E. destruct (String.eqb doc ""); discriminate.
    - now apply M.
    - constructor; [|constructor]. apply struct_stored; [discriminate|exact Hd].
    - now apply M.
    - constructor; [|constructor]. apply struct_stored; [discriminate|exact Hd].
    - apply flat_forall. intros c _. apply report_only_stored, code_report_only.
    - repeat constructor.
    - apply flat_forall. intros m Hm. specialize (Hd m Hm). destruct m as [x|x]; cbn [rmember_evs].
      + apply Forall_app. split; [apply A|]. apply flat_forall. intros p Hp.
        apply Forall_app. split; [apply A|]. apply Forall_app. split; [apply ref_stored, Hd, Hp|].
        destruct (pd_default p); [apply report_only_stored, literal_report_only|constructor].
      + apply Forall_app. split; [apply A|]. apply Forall_app. split.
        * apply flat_forall. intros y _. destruct y; simpl; [|constructor].
          constructor; [|constructor]. split; simpl; [intros m p []|intros l []].
        * destruct (l_target (loc_of x)); repeat constructor.
    - constructor; [|constructor]. apply resource_stored. exact Hd.
  Qed.
End Refs.

Lemma ref_key_mentioned fs r : In r (flat_map decl_refs (all_decls fs)) ->
  (forall id, In id (ref_uses r) -> used (all_evs fs) (key_of id)) /\
  (used (all_evs fs) (ref_key r) \/ introduced (all_evs fs) (ref_key r)).
Proof.
  intros Hr.
  assert (U : forall id, In id (ref_uses r) -> used (all_evs fs) (key_of id)).
  { intros id Hid. rewrite used_evs, all_uses. unfold key_of. apply in_map. apply in_map.
    unfold type_uses. apply in_flat_map. eauto. }
  split; [exact U|].
  assert (D : forall k, In k (ref_derived r) -> introduced (all_evs fs) k).
  { intros k Hk. rewrite introduced_evs, all_news. unfold derived_types. apply in_flat_map. eauto. }
  destruct r; simpl in *; auto.
Qed.

Lemma member_target_mentioned fs ans n ms doc l t :
  In (DResource ans n ms doc) (all_decls fs) -> In (RMLocator l) ms -> In (LMTarget t) (ld_members l) ->
  used_res (all_evs fs) (key_of t).
Proof.
  intros H1 H2 H3. rewrite used_res_evs, all_ruses. unfold key_of. apply in_map. apply in_map.
  unfold resource_uses. apply in_flat_map. exists (DResource ans n ms doc). split; [assumption|].
  cbn [decl_targets]. apply in_flat_map. exists (RMLocator l). split; [assumption|].
  cbn [member_targets]. apply in_flat_map. exists (LMTarget t). simpl. auto.
Qed.

Lemma last_target_in ms k : last_target ms = Some k -> exists t, In (LMTarget t) ms /\ k = key_of t.
Proof.
  induction ms as [|[t|t] ms IH]; simpl; [discriminate| |].
  - destruct (last_target ms) eqn:E.
    + intros [= ->]. destruct (IH eq_refl) as (t' & H & ->). exists t'. auto.
    + intros [= <-]. exists t. auto.
  - intros E. destruct (IH E) as (t' & H & ->). exists t'. auto.
Qed.

(** Well formed references of a version: closed, and the element of each list type is right. *)
Definition wf_version (v : version) : Prop :=
  stored (good_type (has_type v)) (good_res (has_type v) (fun o => forall k, o = Some k -> has_resource v k)) v.

Lemma has_type_mhas v k : has_type v k <-> mhas k (v_types v) = true.
Proof.
  unfold has_type, type_at, mhas. split; [now intros [t ->]|].
  destruct (mget k (v_types v)); [eauto|discriminate].
Qed.
Lemma has_resource_mhas v k : has_resource v k <-> mhas k (v_resources v) = true.
Proof.
  unfold has_resource, resource_at, mhas. split; [now intros [t ->]|].
  destruct (mget k (v_resources v)); [eauto|discriminate].
Qed.

Lemma decls_ok_in fs (Q : option key -> Prop) v st : v = rs_version (run (all_evs fs) st) ->
  start_ok (rs_version st) ->
  (forall ans n ms doc l, In (DResource ans n ms doc) (all_decls fs) -> In (RMLocator l) ms ->
     Q (last_target (ld_members l))) ->
  forall d, In d (all_decls fs) -> decl_ok_in (has_type v) Q d.
Proof.
  intros -> Hs HQ d Hd.
  assert (R : forall r, In r (decl_refs d) -> ref_ok_in (has_type (rs_version (run (all_evs fs) st))) r).
  { intros r Hr. destruct (ref_key_mentioned fs r) as [H1 H2]; [apply in_flat_map; eauto|].
    split; [intros id Hid|]; apply has_type_mhas.
    - apply (mentioned_exists (all_evs fs) st (all_ok fs) Hs). left. now apply H1.
    - apply (mentioned_exists (all_evs fs) st (all_ok fs) Hs). exact H2. }
  destruct d as [ans n vs doc|ans n ms doc|ans n ms doc|ans n codes doc|ans n ms doc];
    cbn [decl_ok_in]; auto.
  - intros m Hm. apply R. simpl. now apply in_map.
  - intros m Hm. apply R. simpl. now apply in_map.
  - intros m Hm. destruct m as [x|x].
    + intros p Hp. apply R. cbn [decl_refs]. apply in_flat_map. exists (RMMethod x). split; [assumption|].
      now apply in_map.
    + eapply HQ; eauto.
Qed.

Lemma all_stored fs P Q : (forall d, In d (all_decls fs) -> decl_ok_in P Q d) ->
  Forall (ev_stored (good_type P) (good_res P Q)) (all_evs fs).
Proof.
  intros H. apply flat_forall. intros f Hf. constructor; [exact I|]. apply flat_forall. intros d Hd.
  apply decl_stored, H. unfold all_decls. apply in_flat_map. eauto.
Qed.

Lemma stored_impl (TP TP' : key -> typ -> Prop) (RP RP' : key -> resource -> Prop) v :
  (forall k t, TP k t -> TP' k t) -> (forall k r, RP k r -> RP' k r) -> stored TP RP v -> stored TP' RP' v.
Proof. intros H1 H2 [T R]. split; intros; eauto. Qed.

Lemma refs_in_impl (P P' : key -> Prop) t : (forall k, P k -> P' k) -> refs_in P t -> refs_in P' t.
Proof. intros H (H1 & H2 & H3). repeat split; eauto. Qed.

Lemma good_type_impl (P P' : key -> Prop) k t : (forall k, P k -> P' k) -> good_type P k t -> good_type P' k t.
Proof. intros H [H1 H2]. split; [eapply refs_in_impl; eauto|assumption]. Qed.

Lemma load_files_wf fs st : start_ok (rs_version st) -> wf_version (rs_version st) ->
  start_ok (rs_version (load_files fs st)) /\ wf_version (rs_version (load_files fs st)).
Proof.
  intros Hs Hw. rewrite load_files_run. fold (all_evs fs).
  split; [apply run_indexed; auto using all_ok|].
  unfold wf_version. set (v := rs_version (run (all_evs fs) st)).
  apply stored_run; auto using all_ok.
  - apply all_stored. apply (decls_ok_in fs _ v st); auto.
    intros ans n ms doc l Hd Hl k Hk. apply last_target_in in Hk as (t & Ht & ->).
    apply has_resource_mhas. apply (mentioned_exists (all_evs fs) st (all_ok fs) Hs).
    eapply member_target_mentioned; eauto.
  - eapply stored_impl; [| |exact Hw].
    + intros k t. apply good_type_impl. intros k'. rewrite !has_type_mhas. apply grows; auto using all_ok.
    + intros k r [H1 H2]. split.
      * intros m p Hm Hp. apply has_type_mhas. apply grows; auto using all_ok. apply has_type_mhas. eauto.
      * intros l Hl k' Hk'. apply has_resource_mhas. apply grows; auto using all_ok.
        apply has_resource_mhas. eapply H2; eauto.
Qed.

Lemma wf_closed v : wf_version v -> closed_version v.
Proof.
  intros [T R]. split.
  - intros k t H. apply T in H as [H _]. exact H.
  - intros k r H. apply R in H as [H1 H2]. split; eauto.
Qed.

Lemma new_version_wf n : start_ok (new_version n) /\ wf_version (new_version n).
Proof.
  split; [apply fresh_ok|]. split; [|intros k r H; discriminate].
  intros k t H. apply mget_in in H.
  assert (HH : forall k, In k (map fst (v_types (new_version n))) -> has_type (new_version n) k).
  { intros k' Hk'. apply has_type_mhas, mhas_true. exact Hk'. }
  assert (Hkeys : map fst (v_types (new_version n)) = map fst (v_types (new_version (new_name [])))) by reflexivity.
  rewrite Hkeys in HH. clear Hkeys. revert HH.
  generalize (has_type (new_version n)). intros P HP.
  vm_compute in HP. vm_compute in H.
  repeat (destruct H as [H|H];
    [injection H as <- <-; split;
     [repeat split; simpl; try discriminate; try (intros ? HF; exact (False_ind _ HF));
        try (intros ? [= <-]; apply HP; tauto)
     |first [intros E; discriminate E
            |intros _; exists nBoolean; split; reflexivity
            |intros _; exists nInteger; split; reflexivity
            |intros _; exists nLong; split; reflexivity
            |intros _; exists nFloat; split; reflexivity
            |intros _; exists nString; split; reflexivity
            |intros _; exists nDate; split; reflexivity
            |intros _; exists nInterface; split; reflexivity]]|]);
    try contradiction.
Qed.
