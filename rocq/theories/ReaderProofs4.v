(** Proofs about the reader: contents of the declared concepts. *)
From Coq Require Import Ascii String Bool Arith ZArith Lia Permutation Sorted List.
From Verif Require Import GoStrings GoStringsProofs GoMap GoMapProofs NamesModel NamesSpec NamesProofs
  ConceptsModel ConceptsSpec ConceptsProofs ReporterModel ReaderModel ReaderSpec ReaderProofs ReaderProofs2
  ReaderProofs3.
Import ListNotations.
Local Open Scope string_scope.

(** * What is defined doesn't change *)

Lemma eqb_neq a b : a <> b -> String.eqb a b = false.
Proof. apply String.eqb_neq. Qed.

Lemma frozen_type_step st e k : ok_ev e -> start_ok (rs_version st) ->
  mhas k (v_types (rs_version st)) = true -> mhas k (rs_utypes st) = false ->
  mget k (v_types (rs_version (run_ev st e))) = mget k (v_types (rs_version st)) /\
  mhas k (rs_utypes (run_ev st e)) = false.
Proof.
  intros Hok [Hix _] Hk Hu.
  destruct e as [r|n|t|kd n fill|n|n fill|x]; cbn [run_ev]; try (now split).
  - unfold refer_type. destruct (find_type n (rs_version st)) eqn:E; [now split|].
    assert (Hne : k <> name_key n).
    { intros ->. unfold find_type in E. apply mhas_false in E. congruence. }
    simpl. change (name_string n) with (name_key n). rewrite mget_mset, mhas_mset, eqb_neq by assumption. now split.
  - destruct (find_type (t_name t) (rs_version st)) eqn:E; [now split|].
    assert (Hne : k <> name_key (t_name t)).
    { intros ->. unfold find_type in E. apply mhas_false in E. congruence. }
    simpl. rewrite mget_mset, eqb_neq by assumption. now split.
  - unfold declare_type. destruct (find_type n (rs_version st)) as [t|] eqn:E.
    + assert (Ek : name_key (t_name t) = name_key n) by exact (indexed_get t_name _ _ _ Hix E).
      unfold is_undefined_type. destruct (mhas (name_key (t_name t)) (rs_utypes st)) eqn:Eu; [|now split].
      assert (Hne : k <> name_key (t_name t)) by (intros ->; congruence).
      simpl in Hok |- *. rewrite Hok. simpl. rewrite mget_mset, mhas_mdel, eqb_neq by assumption. now rewrite Hu.
    + assert (Hne : k <> name_key n).
      { intros ->. unfold find_type in E. apply mhas_false in E. congruence. }
      simpl in Hok |- *. rewrite Hok. simpl. rewrite mget_mset, eqb_neq by assumption. now split.
  - destruct (find_resource n (rs_version st)); now split.
  - destruct (find_resource n (rs_version st)) as [t|]; [|now split].
    destruct (is_undefined_resource t st); now split.
  - destruct (find_error (e_name x) (rs_version st)); now split.
Qed.

Lemma frozen_res_step st e k : ok_ev e -> start_ok (rs_version st) ->
  mhas k (v_resources (rs_version st)) = true -> mhas k (rs_uresources st) = false ->
  mget k (v_resources (rs_version (run_ev st e))) = mget k (v_resources (rs_version st)) /\
  mhas k (rs_uresources (run_ev st e)) = false.
Proof.
  intros Hok [_ Hix] Hk Hu.
  destruct e as [r|n|t|kd n fill|n|n fill|x]; cbn [run_ev]; try (now split).
  - unfold refer_type. destruct (find_type n (rs_version st)); now split.
  - destruct (find_type (t_name t) (rs_version st)); now split.
  - unfold declare_type. destruct (find_type n (rs_version st)) as [t|]; [|now split].
    destruct (is_undefined_type t st); now split.
  - destruct (find_resource n (rs_version st)) eqn:E; [now split|].
    assert (Hne : k <> name_key n).
    { intros ->. unfold find_resource in E. apply mhas_false in E. congruence. }
    simpl. change (name_string n) with (name_key n). rewrite mget_mset, mhas_mset, eqb_neq by assumption. now split.
  - destruct (find_resource n (rs_version st)) as [t|] eqn:E.
    + assert (Ek : name_key (r_name t) = name_key n) by exact (indexed_get r_name _ _ _ Hix E).
      unfold is_undefined_resource. destruct (mhas (name_key (r_name t)) (rs_uresources st)) eqn:Eu; [|now split].
      assert (Hne : k <> name_key (r_name t)) by (intros ->; congruence).
      simpl in Hok |- *. rewrite Hok. simpl. rewrite mget_mset, mhas_mdel, eqb_neq by assumption. now rewrite Hu.
    + assert (Hne : k <> name_key n).
      { intros ->. unfold find_resource in E. apply mhas_false in E. congruence. }
      simpl in Hok |- *. rewrite Hok. simpl. rewrite mget_mset, eqb_neq by assumption. now split.
  - destruct (find_error (e_name x) (rs_version st)); now split.
Qed.

Lemma frozen_err_step st e k x :
  mget k (v_errors (rs_version st)) = Some x -> mget k (v_errors (rs_version (run_ev st e))) = Some x.
Proof.
  intros Hk. destruct e as [r|n|t|kd n fill|n|n fill|y]; cbn [run_ev]; auto.
  - unfold refer_type. destruct (find_type n (rs_version st)); auto.
  - destruct (find_type (t_name t) (rs_version st)); auto.
  - unfold declare_type. destruct (find_type n (rs_version st)) as [t|]; auto.
    destruct (is_undefined_type t st); auto.
  - destruct (find_resource n (rs_version st)); auto.
  - destruct (find_resource n (rs_version st)) as [t|]; auto.
    destruct (is_undefined_resource t st); auto.
  - destruct (find_error (e_name y) (rs_version st)) eqn:E; auto.
    simpl. rewrite mget_mset, eqb_neq; auto. intros ->. unfold find_error in E. congruence.
Qed.

Lemma frozen_type l : forall st k, Forall ok_ev l -> start_ok (rs_version st) ->
  mhas k (v_types (rs_version st)) = true -> mhas k (rs_utypes st) = false ->
  mget k (v_types (rs_version (run l st))) = mget k (v_types (rs_version st)) /\
  mhas k (rs_utypes (run l st)) = false.
Proof.
  induction l as [|e l IH]; intros st k Hok Hs Hk Hu; [now split|].
  inversion Hok; subst. change (run (e :: l) st) with (run l (run_ev st e)).
  destruct (frozen_type_step st e k) as [E1 E2]; auto.
  destruct (IH (run_ev st e) k) as [E3 E4]; auto.
  - now apply run_ev_indexed.
  - unfold mhas. now rewrite E1.
  - now rewrite E3.
Qed.

Lemma frozen_res l : forall st k, Forall ok_ev l -> start_ok (rs_version st) ->
  mhas k (v_resources (rs_version st)) = true -> mhas k (rs_uresources st) = false ->
  mget k (v_resources (rs_version (run l st))) = mget k (v_resources (rs_version st)) /\
  mhas k (rs_uresources (run l st)) = false.
Proof.
  induction l as [|e l IH]; intros st k Hok Hs Hk Hu; [now split|].
  inversion Hok; subst. change (run (e :: l) st) with (run l (run_ev st e)).
  destruct (frozen_res_step st e k) as [E1 E2]; auto.
  destruct (IH (run_ev st e) k) as [E3 E4]; auto.
  - now apply run_ev_indexed.
  - unfold mhas. now rewrite E1.
  - now rewrite E3.
Qed.

Lemma frozen_err l : forall st k x,
  mget k (v_errors (rs_version st)) = Some x -> mget k (v_errors (rs_version (run l st))) = Some x.
Proof.
  induction l as [|e l IH]; intros st k x Hk; [assumption|].
  change (run (e :: l) st) with (run l (run_ev st e)). now apply IH, frozen_err_step.
Qed.

(** * What isn't defined yet is blank *)

Definition blank (st : rstate) : Prop :=
  (forall k n, mget k (rs_utypes st) = Some n -> mget k (v_types (rs_version st)) = Some (new_type n)) /\
  (forall k n, mget k (rs_uresources st) = Some n -> mget k (v_resources (rs_version st)) = Some (new_resource n)).

Lemma blank_step st e : ok_ev e -> start_ok (rs_version st) -> blank st -> blank (run_ev st e).
Proof.
  intros Hok [Hix Hixr] [B R].
  destruct e as [r|n|t|kd n fill|n|n fill|x]; cbn [run_ev]; try (now split).
  - unfold refer_type. destruct (find_type n (rs_version st)) eqn:E; [now split|].
    split; [|exact R]. intros k m. simpl. change (name_string n) with (name_key n).
    rewrite !mget_mset. destruct (String.eqb k (name_key n)); [now intros [= ->]|apply B].
  - destruct (find_type (t_name t) (rs_version st)) eqn:E; [now split|].
    split; [|exact R]. intros k m H. simpl in H |- *. rewrite mget_mset.
    destruct (String.eqb k (name_key (t_name t))) eqn:Ek; [|now apply B].
    apply String.eqb_eq in Ek. subst. apply B in H. unfold find_type in E. congruence.
  - unfold declare_type. destruct (find_type n (rs_version st)) as [t|] eqn:E.
    + unfold is_undefined_type. destruct (mhas (name_key (t_name t)) (rs_utypes st)) eqn:Eu; [|now split].
      split; [|exact R]. intros k m H. simpl in Hok, H |- *. rewrite Hok. simpl.
      rewrite mget_mdel in H. rewrite mget_mset.
      destruct (String.eqb k (name_key (t_name t))) eqn:Ek; [discriminate|now apply B].
    + split; [|exact R]. intros k m H. simpl in Hok, H |- *. rewrite Hok. simpl. rewrite mget_mset.
      change (name_string n) with (name_key n).
      destruct (String.eqb k (name_key n)) eqn:Ek; [|now apply B].
      apply String.eqb_eq in Ek. subst. apply B in H. unfold find_type in E. congruence.
  - destruct (find_resource n (rs_version st)) eqn:E; [now split|].
    split; [exact B|]. intros k m. simpl. change (name_string n) with (name_key n).
    rewrite !mget_mset. destruct (String.eqb k (name_key n)); [now intros [= ->]|apply R].
  - destruct (find_resource n (rs_version st)) as [t|] eqn:E.
    + unfold is_undefined_resource. destruct (mhas (name_key (r_name t)) (rs_uresources st)) eqn:Eu; [|now split].
      split; [exact B|]. intros k m H. simpl in Hok, H |- *. rewrite Hok. simpl.
      rewrite mget_mdel in H. rewrite mget_mset.
      destruct (String.eqb k (name_key (r_name t))) eqn:Ek; [discriminate|now apply R].
    + split; [exact B|]. intros k m H. simpl in Hok, H |- *. rewrite Hok. simpl. rewrite mget_mset.
      change (name_string n) with (name_key n).
      destruct (String.eqb k (name_key n)) eqn:Ek; [|now apply R].
      apply String.eqb_eq in Ek. subst. apply R in H. unfold find_resource in E. congruence.
  - destruct (find_error (e_name x) (rs_version st)); now split.
Qed.

Lemma blank_run l : forall st, Forall ok_ev l -> start_ok (rs_version st) -> blank st -> blank (run l st).
Proof.
  induction l as [|e l IH]; intros st Hok Hs Hb; [assumption|]. inversion Hok; subst.
  change (run (e :: l) st) with (run l (run_ev st e)).
  apply IH; auto; [now apply run_ev_indexed|now apply blank_step].
Qed.

(** * The first declaration is the one kept *)

Lemma first_type n0 l1 kd n fill l2 :
  Forall ok_ev (l1 ++ EDecl kd n fill :: l2)%list ->
  ~ declared l1 (name_key n) -> ~ builtin_key (name_key n) -> ~ introduced l1 (name_key n) ->
  exists m, name_key m = name_key n /\ (m = n \/ In (EUse m) l1) /\
    mget (name_key n) (v_types (rs_version (run (l1 ++ EDecl kd n fill :: l2)%list (fresh n0)))) =
    Some (fill (set_kind kd (new_type m))).
Proof.
  intros Hok Hd Hb Hi. apply Forall_app in Hok as [Hok1 Hok2]. inversion Hok2 as [|? ? He Hok3]; subst.
  destruct (run_inv builtin_key l1 Hok1 (fresh n0) [] (fresh_ok n0) (fresh_type_inv n0) (fresh_res_inv n0))
    as [Hti _].
  pose proof (run_indexed l1 (fresh n0) Hok1 (fresh_ok n0)) as Hs.
  assert (B : blank (run l1 (fresh n0))).
  { apply blank_run; auto; [apply fresh_ok|]. split; intros k m; discriminate. }
  rewrite run_app. set (st := run l1 (fresh n0)) in *.
  change (run (EDecl kd n fill :: l2) st) with (run l2 (declare_type kd n fill st)).
  pose proof (run_ev_indexed st (EDecl kd n fill) He Hs) as Hs'. cbn [run_ev] in Hs'.
  assert (Hm : exists m, name_key m = name_key n /\ (m = n \/ In (EUse m) l1) /\
     mget (name_key n) (v_types (rs_version (declare_type kd n fill st))) = Some (fill (set_kind kd (new_type m))) /\
     mhas (name_key n) (rs_utypes (declare_type kd n fill st)) = false).
  { simpl in He. unfold declare_type. destruct (find_type n (rs_version st)) as [t|] eqn:E.
    - assert (Hk : mhas (name_key n) (rs_utypes st) = true).
      { apply (ti_missing _ _ _ Hti); auto.
        assert (H : mhas (name_key n) (v_types (rs_version st)) = true) by now rewrite mhas_find, E.
        apply (ti_types _ _ _ Hti) in H. rewrite app_nil_l in H. tauto. }
      unfold mhas in Hk. destruct (mget (name_key n) (rs_utypes st)) as [m|] eqn:Em; [|discriminate].
      pose proof (proj1 B _ _ Em) as Hbl. unfold find_type in E. rewrite Hbl in E. injection E as <-.
      apply mget_in in Em. apply (ti_names _ _ _ Hti) in Em as [Ek Hu]. rewrite app_nil_l in Hu.
      exists m. repeat split; auto.
      + unfold is_undefined_type. cbn [t_name new_type]. rewrite <- Ek.
        unfold mhas. rewrite (proj2 (mget_in_iff _ _ _ _)) with (a := m) || idtac.
        destruct (mget (name_key n) (rs_utypes st)) eqn:Em'.
        * simpl. rewrite He. simpl. change (name_string m) with (name_key m). now rewrite <- Ek, mget_mset_same.
        * apply mget_none in Em'. exfalso. apply Em'.
          apply mhas_true. apply (ti_missing _ _ _ Hti); auto. rewrite app_nil_l.
          exists m. auto.
      + unfold is_undefined_type. cbn [t_name new_type]. rewrite <- Ek.
        destruct (mhas (name_key n) (rs_utypes st)) eqn:Em'.
        * simpl. change (name_string m) with (name_key m). rewrite <- Ek, mhas_mdel, String.eqb_refl. reflexivity.
        * simpl. exact Em'.
    - exists n. repeat split; auto.
      + simpl. rewrite He. simpl. change (name_string n) with (name_key n). now rewrite mget_mset_same.
      + simpl. destruct (mhas (name_key n) (rs_utypes st)) eqn:Eu; [|reflexivity].
        unfold mhas in Eu. destruct (mget (name_key n) (rs_utypes st)) eqn:Em; [|discriminate].
        apply (proj1 B) in Em. unfold find_type in E. congruence. }
  destruct Hm as (m & Ek & Hmn & Eg & Eu). exists m. repeat split; auto.
  rewrite <- Eg. apply frozen_type; auto. unfold mhas. now rewrite Eg.
Qed.

Lemma first_res n0 l1 n fill l2 :
  Forall ok_ev (l1 ++ EDeclRes n fill :: l2)%list -> ~ declared_res l1 (name_key n) ->
  exists m, name_key m = name_key n /\ (m = n \/ In (EUseRes m) l1) /\
    mget (name_key n) (v_resources (rs_version (run (l1 ++ EDeclRes n fill :: l2)%list (fresh n0)))) =
    Some (fill (new_resource m)).
Proof.
  intros Hok Hd. apply Forall_app in Hok as [Hok1 Hok2]. inversion Hok2 as [|? ? He Hok3]; subst.
  destruct (run_inv builtin_key l1 Hok1 (fresh n0) [] (fresh_ok n0) (fresh_type_inv n0) (fresh_res_inv n0))
    as [_ Hti].
  pose proof (run_indexed l1 (fresh n0) Hok1 (fresh_ok n0)) as Hs.
  assert (B : blank (run l1 (fresh n0))).
  { apply blank_run; auto; [apply fresh_ok|]. split; intros k m; discriminate. }
  rewrite run_app. set (st := run l1 (fresh n0)) in *.
  change (run (EDeclRes n fill :: l2) st) with (run l2 (run_ev st (EDeclRes n fill))).
  pose proof (run_ev_indexed st (EDeclRes n fill) He Hs) as Hs'.
  assert (Hm : exists m, name_key m = name_key n /\ (m = n \/ In (EUseRes m) l1) /\
     mget (name_key n) (v_resources (rs_version (run_ev st (EDeclRes n fill)))) = Some (fill (new_resource m)) /\
     mhas (name_key n) (rs_uresources (run_ev st (EDeclRes n fill))) = false).
  { simpl in He. cbn [run_ev]. destruct (find_resource n (rs_version st)) as [t|] eqn:E.
    - assert (Hk : mhas (name_key n) (rs_uresources st) = true).
      { apply (ri_undefined _ _ Hti). rewrite app_nil_l. split; [|assumption].
        assert (H : mhas (name_key n) (v_resources (rs_version st)) = true) by now rewrite mhas_find_res, E.
        apply (ri_resources _ _ Hti) in H. rewrite app_nil_l in H. tauto. }
      pose proof Hk as Hk'. unfold mhas in Hk. destruct (mget (name_key n) (rs_uresources st)) as [m|] eqn:Em; [|discriminate].
      pose proof (proj2 B _ _ Em) as Hbl. unfold find_resource in E. rewrite Hbl in E. injection E as <-.
      apply mget_in in Em. apply (ri_names _ _ Hti) in Em as [Ek Hu]. rewrite app_nil_l in Hu.
      exists m. unfold is_undefined_resource. cbn [r_name new_resource]. rewrite <- Ek, Hk'.
      repeat split; auto.
      + simpl. rewrite He. simpl. change (name_string m) with (name_key m). now rewrite <- Ek, mget_mset_same.
      + simpl. change (name_string m) with (name_key m). rewrite <- Ek, mhas_mdel, String.eqb_refl. reflexivity.
    - exists n. repeat split; auto.
      + simpl. rewrite He. simpl. change (name_string n) with (name_key n). now rewrite mget_mset_same.
      + simpl. destruct (mhas (name_key n) (rs_uresources st)) eqn:Eu; [|reflexivity].
        unfold mhas in Eu. destruct (mget (name_key n) (rs_uresources st)) eqn:Em; [|discriminate].
        apply (proj2 B) in Em. unfold find_resource in E. congruence. }
  destruct Hm as (m & Ek & Hmn & Eg & Eu). exists m. repeat split; auto.
  rewrite <- Eg. apply frozen_res; auto. unfold mhas. now rewrite Eg.
Qed.

Lemma first_err n0 l1 x l2 : ~ declared_err l1 (name_key (e_name x)) ->
  mget (name_key (e_name x)) (v_errors (rs_version (run (l1 ++ EDeclErr x :: l2)%list (fresh n0)))) = Some x.
Proof.
  intros Hd. rewrite run_app.
  change (run (EDeclErr x :: l2) ?st) with (run l2 (run_ev st (EDeclErr x))).
  apply frozen_err. cbn [run_ev]. rewrite <- (err_blocked_iff n0) in Hd.
  unfold err_blocked, mhas in Hd. unfold find_error.
  destruct (mget (name_key (e_name x)) (v_errors (rs_version (run l1 (fresh n0))))); [now contradiction Hd|].
  simpl. apply mget_mset_same.
Qed.

(** * Splits of the declarations *)

Lemma all_split fs : forall ds1 d ds2, all_decls fs = (ds1 ++ d :: ds2)%list ->
  exists E1 E2, all_evs fs = (E1 ++ decl_evs d ++ E2)%list /\
    forall A (sel : ev -> list A), (forall r, sel (EReport r) = []) ->
      flat_map sel E1 = flat_map (fun d => flat_map sel (decl_evs d)) ds1.
Proof.
  induction fs as [|f fs IH]; intros ds1 d ds2 E.
  - now destruct ds1.
  - unfold all_decls in E. cbn [flat_map] in E. fold (all_decls fs) in E.
    assert (F : forall A (sel : ev -> list A), (forall r, sel (EReport r) = []) ->
       flat_map sel (file_evs f) = flat_map (fun d => flat_map sel (decl_evs d)) (snd f)).
    { intros A sel Hsel. unfold file_evs. cbn [flat_map]. rewrite Hsel. apply flat_map_flat_map. }
    apply app_eq_app in E as (l & [[E1 E2]|[E1 E2]]).
    + destruct l as [|d' l].
      * simpl in E2. symmetry in E2. destruct (IH [] d ds2 E2) as (G1 & G2 & EG & S).
        exists (file_evs f ++ G1)%list, G2. split.
        -- unfold all_evs. cbn [flat_map]. fold (all_evs fs). now rewrite EG, app_assoc.
        -- intros A sel Hsel. rewrite flat_map_app, F, S by assumption.
           rewrite E1, app_nil_r. simpl. now rewrite app_nil_r.
      * simpl in E2. injection E2 as <- E2.
        exists (EReport (info ("Loading file '" ++ fst f ++ "'")) :: flat_map decl_evs ds1),
          (flat_map decl_evs l ++ all_evs fs)%list. split.
        -- unfold all_evs. cbn [flat_map]. fold (all_evs fs). unfold file_evs.
           rewrite E1, flat_map_app. cbn [flat_map]. simpl. now rewrite <- !app_assoc.
        -- intros A sel Hsel. cbn [flat_map]. rewrite Hsel. apply flat_map_flat_map.
    + destruct (IH l d ds2 E2) as (G1 & G2 & EG & S).
      exists (file_evs f ++ G1)%list, G2. split.
      -- unfold all_evs. cbn [flat_map]. fold (all_evs fs). now rewrite EG, app_assoc.
      -- intros A sel Hsel. rewrite E1, !flat_map_app, F, S by assumption. reflexivity.
Qed.

(** * Contents *)

Lemma fold_sort_perm {A} (less : A -> A -> bool) xs : forall acc,
  Permutation (acc ++ xs)%list (fold_left (fun l x => sort less (l ++ [x])%list) xs acc).
Proof.
  induction xs as [|x xs IH]; intros acc; cbn [fold_left]; [now rewrite app_nil_r|].
  rewrite <- IH. replace (acc ++ x :: xs)%list with ((acc ++ [x]) ++ xs)%list by now rewrite <- app_assoc.
  apply Permutation_app_tail, sort_perm.
Qed.

Lemma fill_type_blank doc ans k n :
  let t := fill_type doc ans (set_kind k (new_type n)) in
  t_name t = n /\ t_kind t = k /\ t_doc t = doc /\ t_annots t = ans /\ t_attrs t = [] /\ t_values t = [].
Proof.
  unfold fill_type. destruct (String.eqb doc "") eqn:E; simpl; repeat split; auto.
  symmetry. now apply String.eqb_eq.
Qed.

Lemma fold_value_frame vs : forall t,
  let t' := fold_left (fun t v => add_value v t) vs t in
  t_kind t' = t_kind t /\ t_doc t' = t_doc t /\ t_annots t' = t_annots t /\ t_attrs t' = t_attrs t.
Proof. induction vs; intros t; [repeat split|]. simpl. apply (IHvs (add_value a t)). Qed.

Lemma fold_attr_frame vs : forall t,
  let t' := fold_left (fun t v => add_attribute v t) vs t in
  t_kind t' = t_kind t /\ t_doc t' = t_doc t /\ t_annots t' = t_annots t /\ t_values t' = t_values t.
Proof. induction vs; intros t; [repeat split|]. simpl. apply (IHvs (add_attribute a t)). Qed.

Lemma enum_contents doc ans n vs :
  let t := fold_left (fun t v => add_value v t) vs (fill_type doc ans (set_kind EnumType (new_type n))) in
  t_name t = n /\ t_kind t = EnumType /\ t_doc t = doc /\ t_annots t = ans /\ t_attrs t = [] /\
  Permutation vs (t_values t).
Proof.
  destruct (fill_type_blank doc ans EnumType n) as (E1 & E2 & E3 & E4 & E5 & E6).
  set (b := fill_type doc ans (set_kind EnumType (new_type n))) in *.
  destruct (fold_value_frame vs b) as (F1 & F2 & F3 & F4). cbv zeta.
  rewrite F1, F2, F3, F4, E2, E3, E4, E5, fold_add_value_name, E1. repeat split.
  rewrite fold_add_value, E6. apply (fold_sort_perm ev_less vs []).
Qed.

Lemma struct_contents doc ans k n vs :
  let t := fold_left (fun t v => add_attribute v t) vs (fill_type doc ans (set_kind k (new_type n))) in
  t_name t = n /\ t_kind t = k /\ t_doc t = doc /\ t_annots t = ans /\ t_values t = [] /\
  Permutation vs (t_attrs t).
Proof.
  destruct (fill_type_blank doc ans k n) as (E1 & E2 & E3 & E4 & E5 & E6).
  set (b := fill_type doc ans (set_kind k (new_type n))) in *.
  destruct (fold_attr_frame vs b) as (F1 & F2 & F3 & F4). cbv zeta.
  rewrite F1, F2, F3, F4, E2, E3, E4, E6, fold_add_attribute_name, E1. repeat split.
  rewrite fold_add_attribute, E5. apply (fold_sort_perm attr_less vs []).
Qed.

Lemma directions_spec l :
  (fst (directions l) = true <-> declared_in l) /\ (snd (directions l) = true <-> declared_out l).
Proof.
  unfold directions, declared_in, declared_out. destruct l as [|d l]; [simpl; intuition discriminate|].
  remember (d :: l) as m eqn:Em. assert (Hne : m <> []) by (subst; discriminate). clear Em d l.
  assert (G : forall m i o,
    let r := fold_left (fun (io : bool * bool) d => match d with DIn => (true, snd io) | DOut => (fst io, true) end) m (i, o) in
    (fst r = true <-> i = true \/ In DIn m) /\ (snd r = true <-> o = true \/ In DOut m)).
  { clear. induction m as [|d m IH]; intros i o; [simpl; intuition|].
    cbn [fold_left]. destruct d; cbn [fst snd].
    - destruct (IH true o) as [H1 H2]. rewrite H1, H2. simpl. intuition discriminate.
    - destruct (IH i true) as [H1 H2]. rewrite H1, H2. simpl. intuition discriminate. }
  destruct (G m false false) as [H1 H2]. cbv zeta in *. destruct m; [contradiction|].
  rewrite H1, H2. intuition discriminate.
Qed.

Lemma forall2_map {A B} (P : A -> B -> Prop) (f : A -> B) l : (forall a, P a (f a)) -> Forall2 P l (map f l).
Proof. intros H. induction l; simpl; constructor; auto. Qed.

Lemma param_contents d : parameter_of d (param_of d).
Proof. destruct (directions_spec (pd_directions d)). repeat split; simpl; tauto. Qed.

Lemma fold_param_frame ps : forall m,
  let m' := fold_left (fun m p => add_parameter p m) ps m in
  m_name m' = m_name m /\ m_doc m' = m_doc m /\ m_annots m' = m_annots m.
Proof. induction ps; intros m; [repeat split|]. simpl. apply (IHps (add_parameter a m)). Qed.

Lemma meth_contents d : method_of d (meth_of d).
Proof.
  unfold meth_of. destruct (fold_param_frame (map param_of (xd_params d))
    (MkMethod (parse_using_case (xd_name d)) [] (xd_doc d) (map annotation_of (xd_annots d)))) as (E1 & E2 & E3).
  cbv zeta in *. unfold method_of. rewrite E1, E2, E3. repeat split.
  exists (map param_of (xd_params d)). split.
  - apply forall2_map, param_contents.
  - rewrite fold_add_parameter. simpl. apply (fold_sort_perm param_less _ []).
Qed.

Lemma loc_contents d : locator_of d (loc_of d).
Proof.
  unfold loc_of, locator_of.
  assert (G : forall ms l, let l' := fold_left
     (fun l m => match m with Some k => set_target k l | None => set_variable true l end)
     (map lmember_of ms) l in
     l_name l' = l_name l /\ l_doc l' = l_doc l /\ l_annots l' = l_annots l /\
     l_target l' = match last_target ms with Some k => Some k | None => l_target l end /\
     (l_variable l' = true <-> l_variable l = true \/ exists n, In (LMVariable n) ms)).
  { induction ms as [|m ms IH]; intros l.
    - simpl. repeat split; auto. intros [H|[n []]]; auto.
    - cbn [map fold_left]. destruct m as [n|n]; cbn [lmember_of].
      + destruct (IH (set_target (key_of n) l)) as (E1 & E2 & E3 & E4 & E5). cbv zeta in *.
        rewrite E1, E2, E3, E4, E5. simpl. repeat split; auto.
        * now destruct (last_target ms).
        * intros [H|[x H]]; eauto.
        * intros [H|[x [H|H]]]; eauto. discriminate.
      + destruct (IH (set_variable true l)) as (E1 & E2 & E3 & E4 & E5). cbv zeta in *.
        rewrite E1, E2, E3, E4, E5. simpl. repeat split; eauto. }
  destruct (G (ld_members d) (MkLocator (parse_using_case (ld_name d)) false None (ld_doc d)
    (map annotation_of (ld_annots d)))) as (E1 & E2 & E3 & E4 & E5). cbv zeta in *.
  rewrite E1, E2, E3, E4, E5. simpl. repeat split.
  - now destruct (last_target (ld_members d)).
  - intros [H|H]; [discriminate|assumption].
  - auto.
Qed.

Lemma resource_contents doc ans n ms :
  let r := fill_resource doc (map annotation_of ans) (map rmember_of ms) (new_resource n) in
  r_name r = n /\ r_doc r = doc /\ r_annots r = map annotation_of ans /\
  (exists xs, Forall2 method_of (member_methods ms) xs /\ Permutation xs (r_methods r)) /\
  (exists ls, Forall2 locator_of (member_locators ms) ls /\ Permutation ls (r_locators r)).
Proof.
  cbv zeta. rewrite fill_resource_name. split; [reflexivity|]. unfold fill_resource.
  set (b := MkResource _ _ _ _ _).
  assert (G : forall ms r, let r' := fold_left (fun r m => match m with inl x => add_method x r | inr x => add_locator x r end) (map rmember_of ms) r in
    r_doc r' = r_doc r /\ r_annots r' = r_annots r /\
    r_methods r' = fold_left (fun l x => sort method_less (l ++ [x])%list) (map meth_of (member_methods ms)) (r_methods r) /\
    r_locators r' = fold_left (fun l x => sort locator_less (l ++ [x])%list) (map loc_of (member_locators ms)) (r_locators r)).
  { clear. induction ms as [|[m|m] ms IH]; intros r; [repeat split| |]; cbn [map fold_left rmember_of].
    - apply (IH (add_method (meth_of m) r)).
    - apply (IH (add_locator (loc_of m) r)). }
  destruct (G ms b) as (E1 & E2 & E3 & E4). cbv zeta in *. rewrite E1, E2, E3, E4. simpl.
  repeat split.
  - destruct (String.eqb doc "") eqn:E; [|reflexivity]. symmetry. now apply String.eqb_eq.
  - exists (map meth_of (member_methods ms)). split.
    + apply forall2_map, meth_contents.
    + apply (fold_sort_perm method_less _ []).
  - exists (map loc_of (member_locators ms)). split.
    + apply forall2_map, loc_contents.
    + apply (fold_sort_perm locator_less _ []).
Qed.

(** * The model contains what was declared *)

Lemma type_decl_evs d id : decl_types d = [id] ->
  exists R kd fill, decl_evs d = (R ++ [EDecl kd (parse_using_case id) fill])%list /\
    type_of_decl d (fill (set_kind kd (new_type (parse_using_case id)))).
Proof.
  destruct d as [ans n vs doc|ans n ms doc|ans n ms doc|ans n codes doc|ans n ms doc];
    cbn [decl_types]; intros [= ->]; cbn [decl_evs].
  - eexists _, _, _. rewrite app_assoc. split; [reflexivity|].
    destruct (enum_contents doc (map annotation_of ans) (parse_using_case id) (map value_of vs)) as (?&?&?&?&?&?).
    repeat split; assumption.
  - eexists _, _, _. rewrite app_assoc. split; [reflexivity|].
    destruct (struct_contents doc (map annotation_of ans) ClassType (parse_using_case id) (map attribute_of ms)) as (?&?&?&?&?&?).
    repeat split; assumption.
  - eexists _, _, _. rewrite app_assoc. split; [reflexivity|].
    destruct (struct_contents doc (map annotation_of ans) StructType (parse_using_case id) (map attribute_of ms)) as (?&?&?&?&?&?).
    repeat split; assumption.
Qed.

Lemma declared_type_kept n0 fs ds1 d ds2 id :
  camel_source (all_decls fs) -> all_decls fs = (ds1 ++ d :: ds2)%list -> decl_types d = [id] ->
  ~ In id (declared_types ds1) -> ~ builtin_key (key_of id) ->
  ~ In (key_of id) (derived_types (all_decls fs)) ->
  exists t, find_type (parse_using_case id) (rs_version (load_files fs (fresh n0))) = Some t /\
    type_of_decl d t.
Proof.
  intros (Hcu & Hcd & _) E Hd Hfirst Hb Hn. rewrite load_files_run. fold (all_evs fs).
  destruct (all_split fs ds1 d ds2 E) as (E1 & E2 & Eall & S).
  destruct (type_decl_evs d id Hd) as (R & kd & fill & Ed & Hc).
  rewrite Ed in Eall. rewrite <- (app_assoc R), (app_assoc E1) in Eall. cbn [app] in Eall.
  assert (Hid : camel_identifier id).
  { rewrite Forall_forall in Hcd. apply Hcd. rewrite E. unfold declared_types. rewrite flat_map_app, in_app_iff.
    right. cbn [flat_map]. rewrite Hd. simpl. auto. }
  assert (HR : evs_decls R = []).
  { pose proof (decl_decls_spec d) as H. rewrite Ed, Hd in H. unfold evs_decls in *.
    rewrite flat_map_app in H. simpl in H. now apply (app_inj_tail (flat_map _ R) []) in H. }
  assert (H1 : ~ declared (E1 ++ R)%list (name_key (parse_using_case id))).
  { rewrite declared_evs. unfold evs_decls. rewrite flat_map_app. unfold evs_decls in HR. rewrite HR, app_nil_r.
    rewrite S by reflexivity.
    replace (flat_map _ ds1) with (map parse_using_case (declared_types ds1)).
    - change (name_key (parse_using_case id)) with (key_of id). rewrite in_keys; auto. rewrite E in Hcd. unfold declared_types in Hcd. rewrite flat_map_app in Hcd.
      now apply Forall_app in Hcd.
    - unfold declared_types. rewrite map_flat_map. apply flat_map_ext. intros d'. symmetry. apply decl_decls_spec. }
  destruct (first_type n0 (E1 ++ R)%list kd (parse_using_case id) fill E2) as (m & Ek & Hm & Eg).
  - rewrite <- Eall. apply all_ok.
  - assumption.
  - exact Hb.
  - intros (t & Ht & Hk). apply Hn. rewrite <- all_news, <- introduced_evs. exists t. split; [|exact Hk].
    rewrite Eall. apply in_app_iff. now left.
  - rewrite Eall. exists (fill (set_kind kd (new_type m))). split; [exact Eg|].
    destruct Hm as [->|Hm]; [assumption|].
    assert (Hin : In m (evs_uses (all_evs fs))).
    { unfold evs_uses. apply in_flat_map. exists (EUse m). rewrite Eall. split; [|simpl; auto].
      apply in_app_iff. now left. }
    rewrite all_uses in Hin. apply in_map_iff in Hin as (x & <- & Hx).
    rewrite Forall_forall in Hcu. apply lookup_key_injective in Ek; auto. now subst.
Qed.

Lemma declared_resource_kept n0 fs ds1 d ds2 id :
  camel_source (all_decls fs) -> all_decls fs = (ds1 ++ d :: ds2)%list -> decl_resources d = [id] ->
  ~ In id (declared_resources ds1) ->
  exists r, find_resource (parse_using_case id) (rs_version (load_files fs (fresh n0))) = Some r /\
    resource_of_decl d r.
Proof.
  intros (_ & _ & Hcu & Hcd & _) E Hd Hfirst. rewrite load_files_run. fold (all_evs fs).
  destruct (all_split fs ds1 d ds2 E) as (E1 & E2 & Eall & S).
  assert (HD : exists R fill, decl_evs d = (R ++ [EDeclRes (parse_using_case id) fill])%list /\
    resource_of_decl d (fill (new_resource (parse_using_case id)))).
  { destruct d as [ans n vs doc|ans n ms doc|ans n ms doc|ans n codes doc|ans n ms doc];
      cbn [decl_resources] in Hd; try discriminate. injection Hd as ->. cbn [decl_evs].
    eexists _, _. rewrite app_assoc. split; [reflexivity|]. apply resource_contents. }
  destruct HD as (R & fill & Ed & Hc).
  rewrite Ed in Eall. rewrite <- (app_assoc R), (app_assoc E1) in Eall. cbn [app] in Eall.
  assert (Hid : camel_identifier id).
  { rewrite Forall_forall in Hcd. apply Hcd. rewrite E. unfold declared_resources. rewrite flat_map_app, in_app_iff.
    right. cbn [flat_map]. rewrite Hd. simpl. auto. }
  assert (HR : evs_rdecls R = []).
  { pose proof (decl_rdecls_spec d) as H. rewrite Ed, Hd in H. unfold evs_rdecls in *.
    rewrite flat_map_app in H. simpl in H. now apply (app_inj_tail (flat_map _ R) []) in H. }
  assert (H1 : ~ declared_res (E1 ++ R)%list (name_key (parse_using_case id))).
  { rewrite declared_res_evs. unfold evs_rdecls. rewrite flat_map_app. unfold evs_rdecls in HR. rewrite HR, app_nil_r.
    rewrite S by reflexivity.
    replace (flat_map _ ds1) with (map parse_using_case (declared_resources ds1)).
    - change (name_key (parse_using_case id)) with (key_of id). rewrite in_keys; auto. rewrite E in Hcd. unfold declared_resources in Hcd. rewrite flat_map_app in Hcd.
      now apply Forall_app in Hcd.
    - unfold declared_resources. rewrite map_flat_map. apply flat_map_ext. intros d'. symmetry. apply decl_rdecls_spec. }
  destruct (first_res n0 (E1 ++ R)%list (parse_using_case id) fill E2) as (m & Ek & Hm & Eg).
  - rewrite <- Eall. apply all_ok.
  - assumption.
  - rewrite Eall. exists (fill (new_resource m)). split; [exact Eg|].
    destruct Hm as [->|Hm]; [assumption|].
    assert (Hin : In m (evs_ruses (all_evs fs))).
    { unfold evs_ruses. apply in_flat_map. exists (EUseRes m). rewrite Eall. split; [|simpl; auto].
      apply in_app_iff. now left. }
    rewrite all_ruses in Hin. apply in_map_iff in Hin as (x & <- & Hx).
    rewrite Forall_forall in Hcu. apply lookup_key_injective in Ek; auto. now subst.
Qed.

Lemma declared_error_kept n0 fs ds1 d ds2 id :
  camel_source (all_decls fs) -> all_decls fs = (ds1 ++ d :: ds2)%list -> decl_errors d = [id] ->
  ~ In id (declared_errors ds1) ->
  exists x, find_error (parse_using_case id) (rs_version (load_files fs (fresh n0))) = Some x /\
    error_of_decl d x.
Proof.
  intros (_ & _ & _ & _ & Hcd) E Hd Hfirst. rewrite load_files_run. fold (all_evs fs).
  destruct (all_split fs ds1 d ds2 E) as (E1 & E2 & Eall & S).
  assert (HD : exists R x, decl_evs d = (R ++ [EDeclErr x])%list /\ e_name x = parse_using_case id /\
    error_of_decl d x).
  { destruct d as [ans n vs doc|ans n ms doc|ans n ms doc|ans n codes doc|ans n ms doc];
      cbn [decl_errors] in Hd; try discriminate. injection Hd as ->. cbn [decl_evs].
    eexists _, _. rewrite app_assoc. split; [reflexivity|]. repeat split. }
  destruct HD as (R & x & Ed & Ex & Hc).
  rewrite Ed in Eall. rewrite <- (app_assoc R), (app_assoc E1) in Eall. cbn [app] in Eall.
  assert (Hid : camel_identifier id).
  { rewrite Forall_forall in Hcd. apply Hcd. rewrite E. unfold declared_errors. rewrite flat_map_app, in_app_iff.
    right. cbn [flat_map]. rewrite Hd. simpl. auto. }
  assert (HR : evs_edecls R = []).
  { pose proof (decl_edecls_spec d) as H. rewrite Ed, Hd in H. unfold evs_edecls in *.
    rewrite flat_map_app in H. simpl in H. now apply (app_inj_tail (flat_map _ R) []) in H. }
  exists x. split; [|assumption]. unfold find_error. rewrite Eall, <- Ex. apply first_err.
  intros (y & Hy & Ek). rewrite Ex in Ek.
  assert (Hin : In (e_name y) (evs_edecls (E1 ++ R)%list)).
  { unfold evs_edecls. apply in_flat_map. exists (EDeclErr y). simpl. auto. }
  unfold evs_edecls in *. rewrite flat_map_app, HR, app_nil_r, S in Hin by reflexivity.
  replace (flat_map _ ds1) with (map parse_using_case (declared_errors ds1)) in Hin.
  - apply in_map_iff in Hin as (z & Ez & Hz). rewrite <- Ez in Ek.
    rewrite E in Hcd. unfold declared_errors in Hcd. rewrite flat_map_app in Hcd.
    apply Forall_app in Hcd as [Hcd _]. rewrite Forall_forall in Hcd.
    apply lookup_key_injective in Ek; auto. now subst.
  - unfold declared_errors. rewrite map_flat_map. apply flat_map_ext. intros d'. symmetry. apply decl_edecls_spec.
Qed.
