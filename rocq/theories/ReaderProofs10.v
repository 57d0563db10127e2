(** Proofs about the reader: the predefined types keep their kinds, and the names of lists and maps are longer than the names of their elements. *)
From Coq Require Import Ascii String Bool Arith ZArith Lia Permutation Sorted List.
From Verif Require Import GoStrings GoStringsProofs GoMap GoMapProofs NamesModel NamesSpec NamesProofs
  ConceptsModel ConceptsSpec ConceptsProofs ReporterModel ReaderModel ChecksModel ReaderSpec ReaderProofs
  ReaderProofs2 ReaderProofs3 ReaderProofs4 ReaderProofs5 ReaderProofs6 ReaderProofs7 ReaderProofs8.
Import ListNotations.
Local Open Scope string_scope.

Definition made_ev (e : ev) : Prop :=
  match e with
  | ENew t => (exists n, t = list_type n) \/ (exists i e, t = map_type i e)
  | EDecl kd _ fill => In kd [EnumType; ClassType; StructType] /\ forall t, t_kind (fill t) = t_kind t
  | _ => True
  end.

Lemma report_only_made l : report_only l -> Forall made_ev l.
Proof. apply Forall_impl. intros []; simpl; tauto. Qed.

Lemma all_made fs : Forall made_ev (all_evs fs).
Proof.
  assert (R : forall r, Forall made_ev (ref_evs r)).
  { intros [m|m|i m]; cbn [ref_evs]; repeat (first [apply Forall_nil | apply Forall_cons; [simpl; eauto|]]). }
  assert (A : forall l, Forall made_ev (annots_evs l)) by (intros l; apply report_only_made, annots_report_only).
  assert (M : forall ms, Forall made_ev (flat_map member_evs ms)).
  { intros ms. apply flat_forall. intros m _. apply Forall_app. auto. }
  assert (F : forall doc ans t, t_kind (fill_type doc ans t) = t_kind t).
  { intros. unfold fill_type. now destruct (String.eqb doc ""). }
  apply flat_forall. intros f _. constructor; [exact I|]. apply flat_forall. intros d _.
  destruct d as [ans n vs doc|ans n ms doc|ans n ms doc|ans n codes doc|ans n ms doc];
    cbn [decl_evs]; apply Forall_app; (split; [apply A|]); apply Forall_app; split; auto.
  - apply flat_forall. intros v _. apply A.
  - constructor; [|constructor]. split; [cbn; auto|]. intros t.
    destruct (fold_value_frame (map value_of vs) (fill_type doc (map annotation_of ans) t)) as (E & _).
    cbv zeta in E. now rewrite E.
  - constructor; [|constructor]. split; [cbn; auto|]. intros t.
    destruct (fold_attr_frame (map attribute_of ms) (fill_type doc (map annotation_of ans) t)) as (E & _).
    cbv zeta in E. now rewrite E.
  - constructor; [|constructor]. split; [cbn; auto|]. intros t.
    destruct (fold_attr_frame (map attribute_of ms) (fill_type doc (map annotation_of ans) t)) as (E & _).
    cbv zeta in E. now rewrite E.
  - apply flat_forall. intros c _. apply report_only_made, code_report_only.
  - repeat constructor.
  - apply flat_forall. intros m _. destruct m as [x|x]; cbn [rmember_evs].
    + apply Forall_app. split; [apply A|]. apply flat_forall. intros p _.
      apply Forall_app. split; [apply A|]. apply Forall_app. split; [apply R|].
      destruct (pd_default p); [apply report_only_made, literal_report_only|constructor].
    + apply Forall_app. split; [apply A|]. apply Forall_app. split.
      * apply flat_forall. intros y _. destruct y; repeat constructor.
      * destruct (l_target (loc_of x)); repeat constructor.
  - repeat constructor.
Qed.

(** * What holds for each version *)

Definition kind_ok (k : key) (t : typ) : Prop :=
  match t_kind t with
  | ScalarType | InterfaceType => exists id, In (id, k, t_kind t) builtins
  | ListType | MapType => exists e, t_element t = Some e /\ (String.length e < String.length k)%nat
  | _ => True
  end.
Definition kinds_ok (v : version) : Prop := forall k t, mget k (v_types v) = Some t -> kind_ok k t.
Definition builtins_ok (v : version) : Prop :=
  forall id k kd, In (id, k, kd) builtins -> exists t, mget k (v_types v) = Some t /\ t_kind t = kd.
Definition undef_free (u : list (key * name)) : Prop := forall id k kd, In (id, k, kd) builtins -> mhas k u = false.
Definition version_ok (v : version) : Prop := start_ok v /\ kinds_ok v /\ builtins_ok v.
Definition state_ok (st : rstate) : Prop := version_ok (rs_version st) /\ undef_free (rs_utypes st).

Lemma join_longer a b : (String.length (str_join "_" (map w_text b)) < String.length (str_join "_" (map w_text (a ++ b ++ n_words nMap))))%nat.
Proof.
  assert (L : forall x y : list string, y <> [] -> (String.length (str_join "_" y) <= String.length (str_join "_" (x ++ y)))%nat).
  { induction x as [|s x IH]; intros y N; [cbn [app]; lia|]. cbn [app]. specialize (IH y N). destruct (x ++ y)%list as [|s' l] eqn:E; [destruct x; [now subst|discriminate]|].
    change (str_join "_" (s :: s' :: l)) with (s ++ "_" ++ str_join "_" (s' :: l)). rewrite !sapp_length. lia. }
  rewrite map_app. eapply Nat.lt_le_trans; [|apply L; rewrite map_app; change (map w_text (n_words nMap)) with ["map"]; now destruct (map w_text b)].
  rewrite map_app. change (map w_text (n_words nMap)) with ["map"]. generalize (map w_text b). clear. intros l. induction l as [|s l IH]; [cbn; lia|].
  destruct l as [|s' l]; [cbn [app str_join]; rewrite !sapp_length; cbn; lia|]. cbn [app] in *.
  change (str_join "_" (s :: s' :: l)) with (s ++ "_" ++ str_join "_" (s' :: l)).
  change (str_join "_" (s :: s' :: (l ++ ["map"])%list)) with (s ++ "_" ++ str_join "_" (s' :: (l ++ ["map"])%list)). rewrite !sapp_length. lia.
Qed.

Lemma list_key_longer n : (String.length (name_key n) < String.length (name_key (cat [n; nList])))%nat.
Proof.
  rewrite list_name_key. unfold name_key, name_string. destruct (n_words n) as [|w l]; [cbn; lia|]. rewrite sapp_length. cbn. lia.
Qed.
Lemma map_key_longer i e : (String.length (name_key e) < String.length (name_key (cat [i; e; nMap])))%nat.
Proof.
  unfold name_key, name_string. rewrite cat_words. cbn [flat_map]. rewrite app_nil_r. apply join_longer.
Qed.

Lemma made_kind e t : made_ev e -> e = ENew t -> kind_ok (name_key (t_name t)) t.
Proof.
  intros M ->. destruct M as [[n ->]|(i & n & ->)]; unfold kind_ok; cbn [list_type map_type set_element set_index set_kind new_type t_kind t_element t_name].
  - exists (name_key n). split; [reflexivity|apply list_key_longer].
  - exists (name_key n). split; [reflexivity|apply map_key_longer].
Qed.

Lemma declared_kind kd fill n t : In kd [EnumType; ClassType; StructType] -> (forall t, t_kind (fill t) = t_kind t) -> kind_ok n (fill (set_kind kd t)).
Proof. intros K F. unfold kind_ok. rewrite F. cbn [set_kind t_kind]. destruct K as [<-|[<-|[<-|[]]]]; exact I. Qed.

Lemma state_step st e : ok_ev e -> made_ev e -> state_ok st -> state_ok (run_ev st e).
Proof.
  intros Hok Hm ((Hs & Hk & Hb) & Hu).
  assert (HS : start_ok (rs_version (run_ev st e))) by now apply run_ev_indexed.
  destruct e as [r|n|t|kd n fill|n|n fill|x]; cbn [run_ev] in *.
  - split; [split; [assumption|split]|]; assumption.
  - unfold refer_type in *. destruct (find_type n (rs_version st)) as [t|] eqn:E; [split; [split; [assumption|split]|]; assumption|].
    split; [split; [assumption|split]|].
    + intros k t. cbn. change (name_string n) with (name_key n). rewrite mget_mset. destruct (String.eqb_spec k (name_key n)); [|apply Hk]. intros [= <-]. exact I.
    + intros id k kd I. destruct (Hb id k kd I) as (t & T & K). exists t. split; [|assumption]. cbn. change (name_string n) with (name_key n). rewrite mget_mset.
      destruct (String.eqb_spec k (name_key n)) as [->|]; [|assumption]. unfold find_type in E. congruence.
    + intros id k kd I. cbn. change (name_string n) with (name_key n). rewrite mhas_mset, (Hu id k kd I), orb_false_r. destruct (String.eqb_spec k (name_key n)) as [->|]; [|reflexivity].
      destruct (Hb id _ kd I) as (t & T & _). unfold find_type in E. congruence.
  - destruct (find_type (t_name t) (rs_version st)) as [t'|] eqn:E; [split; [split; [assumption|split]|]; assumption|].
    split; [split; [assumption|split]|assumption].
    + intros k t'. cbn. rewrite mget_mset. destruct (String.eqb_spec k (name_key (t_name t))) as [->|]; [|apply Hk]. intros [= <-]. now apply (made_kind (ENew t)).
    + intros id k kd I. destruct (Hb id k kd I) as (t' & T & K). exists t'. split; [|assumption]. cbn. rewrite mget_mset.
      destruct (String.eqb_spec k (name_key (t_name t))) as [->|]; [|assumption]. unfold find_type in E. congruence.
  - cbn [ok_ev] in Hok. destruct Hm as [HK HF]. unfold declare_type in *. destruct (find_type n (rs_version st)) as [t|] eqn:E.
    + assert (Ek : name_key (t_name t) = name_key n) by exact (indexed_get t_name _ _ _ (proj1 Hs) E).
      unfold is_undefined_type in *. destruct (mhas (name_key (t_name t)) (rs_utypes st)) eqn:U; [|split; [split; [assumption|split]|]; assumption].
      split; [split; [assumption|split]|].
      * intros k t'. cbn. rewrite Hok. cbn. rewrite mget_mset. destruct (String.eqb_spec k (name_key (t_name t))) as [->|]; [|apply Hk].
        intros [= <-]. now apply declared_kind.
      * intros id k kd' I. destruct (Hb id k kd' I) as (t' & T & K). exists t'. split; [|assumption]. cbn. rewrite Hok. cbn. rewrite mget_mset.
        destruct (String.eqb_spec k (name_key (t_name t))) as [->|]; [|assumption]. rewrite (Hu id _ kd' I) in U. discriminate.
      * intros id k kd' I. cbn. rewrite mhas_mdel, (Hu id k kd' I). now destruct (String.eqb k _).
    + split; [split; [assumption|split]|assumption].
      * intros k t'. cbn. rewrite Hok. cbn. change (name_string n) with (name_key n). rewrite mget_mset. destruct (String.eqb_spec k (name_key n)) as [->|]; [|apply Hk].
        intros [= <-]. now apply declared_kind.
      * intros id k kd' I. destruct (Hb id k kd' I) as (t' & T & K). exists t'. split; [|assumption]. cbn. rewrite Hok. cbn. change (name_string n) with (name_key n). rewrite mget_mset.
        destruct (String.eqb_spec k (name_key n)) as [->|]; [|assumption]. unfold find_type in E. congruence.
  - destruct (find_resource n (rs_version st)); split; (split; [assumption|split]) || idtac; assumption.
  - destruct (find_resource n (rs_version st)) as [r|]; [destruct (is_undefined_resource r st)|]; split; (split; [assumption|split]) || idtac; assumption.
  - destruct (find_error (e_name x) (rs_version st)); split; (split; [assumption|split]) || idtac; assumption.
Qed.

Lemma files_state fs st : state_ok st -> state_ok (load_files fs st).
Proof.
  intros H. rewrite load_files_run. fold (all_evs fs). assert (Hok := all_ok fs). assert (Hm := all_made fs). revert st H.
  induction (all_evs fs) as [|e l IH]; intros st H; [assumption|]. inversion Hok; inversion Hm; subst. change (run (e :: l) st) with (run l (run_ev st e)).
  apply IH; auto. now apply state_step.
Qed.

Lemma new_version_ok n : version_ok (new_version n).
Proof.
  split; [apply new_version_wf|]. split.
  - intros k t T. destruct (builtins_only n k t T) as [[[id bk] kd] [Hin Hb]]. cbn [is_builtin_entry] in Hb. unfold kind_ok.
    destruct Hb as [(-> & K & _)|(-> & K & _ & E)].
    + rewrite K. assert (D : kd = ScalarType \/ kd = InterfaceType) by (cbn in Hin; repeat (destruct Hin as [[= <- <- <-]|Hin]; [auto|]); destruct Hin).
      destruct D as [-> | ->]; exists id; assumption.
    + rewrite K. exists bk. split; [assumption|]. rewrite sapp_length. cbn. lia.
  - intros id k kd I. destruct (builtins_present n id k kd I) as [(t & T & B) _]. exists t. split; [assumption|]. cbn [is_builtin_entry] in B.
    destruct B as [(_ & K & _)|(E & _)]; [assumption|]. exfalso. apply (f_equal String.length) in E. rewrite sapp_length in E. cbn in E. lia.
Qed.

(** * All the versions *)

Definition model_ok (g : gstate) : Prop :=
  undef_free (g_utypes g) /\ forall s v, in_model (g_model g) s -> in_service s v -> version_ok v.

Lemma load_version_state s d g : undef_free (g_utypes g) -> (forall v, in_service s v -> version_ok v) ->
  let sg := load_version s d g in
  undef_free (g_utypes (snd sg)) /\ (forall v, in_service (fst sg) v -> version_ok v) /\ g_model (snd sg) = g_model g.
Proof.
  intros U V. unfold load_version. cbv zeta. set (n := parse_using_separator (fst d) "_").
  set (v := match find_version n s with Some v => v | None => new_version n end).
  assert (Hv : version_ok v).
  { unfold v. destruct (find_version n s) as [w|] eqn:E; [|apply new_version_ok]. apply V. eexists; exact E. }
  destruct (files_state (snd d) (MkRState v (g_utypes g) (g_uresources g) (g_reports g)) (conj Hv U)) as [H1 H2].
  unfold load_files in *. cbn [fst snd g_utypes g_model]. split; [assumption|]. split; [|reflexivity].
  intros w Hw. unfold in_service, add_version in Hw. cbn [s_versions] in Hw. apply mset_in_values in Hw as [->|Hw]; [assumption|]. now apply V.
Qed.

Lemma load_versions_state l : forall s g, undef_free (g_utypes g) -> (forall v, in_service s v -> version_ok v) ->
  let sg := fold_left (fun (sg : service * gstate) vd => load_version (fst sg) vd (snd sg)) l (s, g) in
  undef_free (g_utypes (snd sg)) /\ (forall v, in_service (fst sg) v -> version_ok v) /\ g_model (snd sg) = g_model g.
Proof.
  induction l as [|d l IH]; intros s g U V; cbn [fold_left]; [auto|].
  destruct (load_version_state s d g U V) as (H1 & H2 & H3). cbn [fst snd] in *. destruct (load_version s d g) as [s' g']. cbn [fst snd] in *.
  destruct (IH s' g' H1 H2) as (I1 & I2 & I3). cbv zeta in *. split; [assumption|]. split; [assumption|congruence].
Qed.

Lemma load_service_state d g : model_ok g -> model_ok (load_service d g).
Proof.
  intros [U V]. unfold load_service. cbv zeta. set (n := parse_using_separator (fst d) "_").
  set (s := match find_service n (g_model g) with Some s => s | None => new_service n end).
  assert (Hs : forall v, in_service s v -> version_ok v).
  { unfold s. intros v I. destruct (find_service n (g_model g)) as [w|] eqn:E; [apply (V w); [eexists; exact E|assumption]|]. destruct I as [k H]. discriminate. }
  destruct (load_versions_state (snd d) s g U Hs) as (H1 & H2 & H3). cbv zeta in *.
  destruct (fold_left _ (snd d) (s, g)) as [s' g']. cbn [fst snd] in *. split; [assumption|].
  intros w v Hw Hv. unfold in_model in Hw. cbn [g_model] in Hw. unfold add_service in Hw. apply mset_in_values in Hw as [->|Hw]; [now apply H2|].
  rewrite H3 in Hw. now apply (V w).
Qed.

Lemma load_inputs_state inputs rs : model_ok (load_inputs inputs rs).
Proof.
  unfold load_inputs. assert (H : model_ok (MkGState [] [] [] rs)).
  { split; [intros id k kd _; reflexivity|]. intros s v [k E]. discriminate. }
  revert H. generalize (MkGState [] [] [] rs) as g. induction inputs as [|i inputs IH]; intros g H; [exact H|]. cbn [fold_left]. apply IH. unfold load_model. clear IH.
  revert g H. induction i as [|d i IH]; intros g H; [exact H|]. cbn [fold_left]. apply IH. now apply load_service_state.
Qed.

Lemma returned_ok inputs rs0 m rs s v : read inputs rs0 = Done (ROk m, rs) -> in_model m s -> in_service s v -> kinds_ok v /\ builtins_ok v.
Proof.
  intros E Hs Hv. apply read_spec in E. cbv zeta in E. destruct E as (cs & Ec & -> & Ed). symmetry in Ed. apply (proj1 (decide_spec _ _)) in Ed as [Hn ->].
  destruct (returned_version inputs rs0 s v Hs Hv) as (s1 & v1 & Hs1 & Hv1 & -> & -> & _).
  destruct (load_inputs_state inputs rs0) as [_ V]. destruct (V s1 v1 Hs1 Hv1) as (S1 & K1 & B1).
  destruct (ensure_lists_spec v1 (proj1 S1)) as (_ & _ & _ & E4 & E5 & _). cbv zeta in *. split.
  - intros k t T. apply E5 in T as [T|(t' & _ & _ & -> & _ & K & El)]; [now apply K1|]. unfold kind_ok. rewrite K. exists (name_key (t_name t')).
    split; [assumption|apply list_key_longer].
  - intros id k kd I. destruct (B1 id k kd I) as (t & T & K). exists t. split; [now apply E4|assumption].
Qed.

Lemma predefined_builtins k kd : In (k, kd) predefined_kinds <-> exists id, In (id, k, kd) builtins.
Proof.
  split.
  - intros H. cbn in H. repeat (destruct H as [[= <- <-]|H]; [eexists; cbn; eauto 12|]). destruct H.
  - intros (id & H). cbn in H. repeat (destruct H as [[= _ <- <-]|H]; [cbn; auto 12|]). destruct H.
Qed.

Lemma returned_kinds inputs rs0 m rs s v : read inputs rs0 = Done (ROk m, rs) -> in_model m s -> in_service s v ->
  (forall k kd, In (k, kd) predefined_kinds -> exists t, type_at k v = Some t /\ t_kind t = kd) /\
  (forall k t, type_at k v = Some t -> t_kind t = ScalarType \/ t_kind t = InterfaceType -> In (k, t_kind t) predefined_kinds) /\
  (forall k t, type_at k v = Some t -> t_kind t = ListType \/ t_kind t = MapType ->
     exists e te, t_element t = Some e /\ type_at e v = Some te /\ (String.length e < String.length k)%nat).
Proof.
  intros E Hs Hv. destruct (returned_ok _ _ _ _ _ _ E Hs Hv) as [K B]. destruct (returned_model_sound _ _ _ _ _ _ E Hs Hv) as (_ & (CT & _) & _). split; [|split].
  - intros k kd I. apply predefined_builtins in I as (id & I). exact (B id k kd I).
  - intros k t T KT. specialize (K k t T). unfold kind_ok in K. apply predefined_builtins. destruct KT as [KT|KT]; rewrite KT in *; exact K.
  - intros k t T KT. specialize (K k t T). unfold kind_ok in K. destruct (CT k t T) as (_ & CE & _).
    assert (X : exists e, t_element t = Some e /\ (String.length e < String.length k)%nat) by (destruct KT as [KT|KT]; rewrite KT in K; exact K).
    destruct X as (e & EL & L). destruct (CE e EL) as (te & TE). exists e, te. auto.
Qed.
