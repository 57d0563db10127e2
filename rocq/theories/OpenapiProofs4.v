(** Proofs about the generator of OpenAPI specifications: the operations and the references. *)
From Coq Require Import Ascii String Bool Arith ZArith NArith Lia Permutation List.
From Verif Require Import GoStrings GoStringsProofs GoMap GoMapProofs NamesModel ConceptsModel ReporterModel ReaderModel ReaderSpec BindingModel
  GoNamesModel ObjectsModel ObjectsSpec TextModel BufferModel BufferSpec BufferProofs BufferProofs3 JsonModel JsonSpec JsonTextModel JsonTextSpec JsonTextProofs
  JsonTextProofs3 ChecksModel ChecksSpec LoopsProofs PathsModel PathsProofs OpenapiModel OpenapiSpec OpenapiProofs OpenapiProofs2 OpenapiProofs3.
Import ListNotations.
Local Open Scope string_scope.

(** * The paths of the version *)

Definition extended (v : version) (p : list locator) : Prop :=
  exists q l k r, p = (q ++ [l])%list /\ walk v "root" q k /\ mget k (v_resources v) = Some r /\ In l (r_locators r).
Definition arrives (v : version) (p : list locator) : Prop := p <> [] /\ exists r, leads v p r.

Lemma walk_snoc v a p k l k' : walk v a p k -> follows v k l k' -> walk v a (p ++ [l])%list k'.
Proof. induction 1; intros F; cbn [app]; econstructor; eauto. constructor. Qed.

Lemma extended_arrives v p es : extended v p -> extensions v p = Some es -> arrives v p /\ forall q, In q es -> extended v q.
Proof.
  intros (q & l & k & r & -> & W & R & I) E. rewrite extensions_last in E. destruct (l_target l) as [k'|] eqn:T; [|discriminate].
  destruct (mget k' (v_resources v)) as [r'|] eqn:R'; [|discriminate]. injection E as <-.
  assert (W' : walk v "root" (q ++ [l])%list k') by (eapply walk_snoc; eauto; exists r; auto).
  split; [split; [now destruct q|exists r', k'; auto]|]. intros x X. apply in_map_iff in X as (l' & <- & I'). exists (q ++ [l])%list, l', k', r'. auto.
Qed.

Lemma loop_sound v fuel : forall acc pend ps, paths_loop fuel v acc pend = Done ps ->
  (forall p, In p acc -> arrives v p) -> (forall p, In p pend -> extended v p) -> forall p, In p ps -> arrives v p.
Proof.
  induction fuel as [|fuel IH]; intros acc pend ps E A P; destruct pend as [|p pend]; cbn [paths_loop] in E; try discriminate; try (injection E as <-; assumption).
  destruct (extensions v p) as [es|] eqn:X; [|discriminate]. destruct (extended_arrives v p es (P p (or_introl eq_refl)) X) as [H1 H2].
  apply (IH _ _ _ E); intros q I; apply in_app_iff in I as [I|I]; auto.
  - destruct I as [<-|[]]. assumption.
  - apply P. now right.
Qed.

Lemma paths_exact v fuel ps : paths fuel v = Done ps -> forall p, In p ps <-> arrives v p.
Proof.
  intros E. unfold paths in E. destruct (root v) as [r|] eqn:R; [|discriminate]. change (root v) with (mget "root" (v_resources v)) in R. intros p. split.
  - apply (loop_sound v fuel _ _ _ E); [intros q []|]. intros q I. apply in_map_iff in I as (l & <- & I). exists [], l, "root", r. repeat split; auto. constructor.
  - destruct (loop_closed v fuel _ _ _ E) as [E1 E2]; [intros q []|]. cbn [app] in E1. intros [N (r' & k & W & _)]. clear r'. revert k W N.
    induction p as [|l p IH] using rev_ind; intros k W N; [congruence|]. destruct (walk_last _ _ _ W N) as (q & x & k' & Eq & Wq & (r1 & R1 & I1 & T1)).
    apply app_inj_tail in Eq as [<- <-]. destruct p as [|l0 p0].
    + apply E1. inversion Wq; subst. rewrite R in R1. injection R1 as <-. cbn. apply in_map_iff. eauto.
    + apply (E2 (l0 :: p0)); [apply (IH k'); [assumption|discriminate]|]. unfold ext. rewrite (walk_extensions v (l0 :: p0) k' r1 Wq ltac:(discriminate) R1). apply in_map_iff. eauto.
Qed.

Lemma last_target_leads v path r : path <> [] -> last_target v path = Some r -> arrives v path -> leads v path r.
Proof.
  intros N L (_ & r' & k & W & R). destruct (walk_last _ _ _ W N) as (q & l & k' & -> & _ & (r1 & _ & _ & T)). unfold last_target in L. rewrite rev_app_distr in L. cbn [rev app] in L.
  rewrite T in L. exists k. auto.
Qed.

Lemma leads_root v r : root v = Some r -> leads v [] r.
Proof. intros R. exists "root". split; [constructor|exact R]. Qed.
Lemma leads_nil v r r' : root v = Some r -> leads v [] r' -> r' = r.
Proof. intros R (k & W & H). inversion W; subst. change (mget "root" (v_resources v)) with (root v) in H. congruence. Qed.

(** * Templates *)

Lemma sapp_assoc a b c : ((a ++ b) ++ c = a ++ (b ++ c))%string.
Proof. induction a; cbn; congruence. Qed.
Lemma url_app a b : url (a ++ b)%list = (url a ++ url b)%string.
Proof. induction a as [|x a IH]; [reflexivity|]. cbn [url app append]. now rewrite IH, sapp_assoc. Qed.
Lemma url_join x l : ("/" ++ str_join "/" (x :: l))%string = url (x :: l).
Proof.
  revert x. induction l as [|y l IH]; intros x.
  - cbn. now rewrite sapp_nil_r.
  - change (str_join "/" (x :: y :: l)) with (x ++ "/" ++ str_join "/" (y :: l))%string. rewrite IH. reflexivity.
Qed.
Lemma absolute_url s v path : absolute_path s v path = url (resource_segments s v path).
Proof.
  unfold absolute_path, resource_segments. cbn [app]. fold placeholder.
  change ("/api/" ++ str_join "/" (service_segment s :: version_segment v :: map placeholder path))%string
    with ("/api" ++ ("/" ++ str_join "/" (service_segment s :: version_segment v :: map placeholder path)))%string.
  rewrite url_join. reflexivity.
Qed.
Lemma template_plain s v path m : method_segment m = "" -> template s v path m = absolute_path s v path.
Proof. intros E. unfold template, method_segments. rewrite E, app_nil_r. symmetry. apply absolute_url. Qed.
Lemma template_segment s v path m : method_segment m <> "" -> template s v path m = (absolute_path s v path ++ "/" ++ method_segment m)%string.
Proof.
  intros E. unfold template, method_segments. apply String.eqb_neq in E. rewrite E, url_app, <- absolute_url. cbn [url]. now rewrite sapp_nil_r.
Qed.

(** * The index *)

Lemma index_fold s v ps : forall idx, NoDup (mkeys idx) -> NoDup (mkeys (fold_left (fun index path => mset (absolute_path s v path) path index) ps idx)).
Proof. induction ps as [|p ps IH]; intros idx N; [assumption|]. cbn [fold_left]. apply IH. now apply nodup_mset. Qed.
Lemma index_sound s v ps : forall idx k p, mget k (fold_left (fun index path => mset (absolute_path s v path) path index) ps idx) = Some p ->
  mget k idx = Some p \/ (In p ps /\ k = absolute_path s v p).
Proof.
  induction ps as [|q ps IH]; intros idx k p E; [now left|]. cbn [fold_left] in E. apply IH in E as [E|[E ->]]; [|right; split; [now right|reflexivity]].
  rewrite mget_mset in E. destruct (String.eqb_spec k (absolute_path s v q)) as [->|N]; [|now left]. injection E as <-. right. split; [now left|reflexivity].
Qed.
Lemma index_complete s v ps : forall idx p, In p ps \/ mhas (absolute_path s v p) idx = true ->
  exists q, mget (absolute_path s v p) (fold_left (fun index path => mset (absolute_path s v path) path index) ps idx) = Some q.
Proof.
  induction ps as [|a ps IH]; intros idx p H; cbn [fold_left].
  - destruct H as [[]|H]. unfold mhas in H. destruct (mget (absolute_path s v p) idx); [eauto|discriminate].
  - apply IH. destruct H as [[->|H]|H]; [right|now left|right].
    + rewrite mhas_mset, String.eqb_refl. reflexivity.
    + rewrite mhas_mset, H. apply orb_true_r.
Qed.

(** * Operations *)

Section Operations.
  Context (s : service) (v : version).

  Lemma resource_doc_sound prefix path r ms t vb op : resource_doc v prefix path r ms -> operation (JObj ms) t vb op ->
    prefix = absolute_path s v path ->
    exists m, In m (r_methods r) /\ t = template s v path m /\ vb = str_lower (http_method m) /\ describes v path m op.
  Proof.
    intros (a & b & -> & FA & FB) (ps & ms0 & [= <-] & I1 & I2) ->. apply in_app_iff in I1 as [I1|I1].
    - destruct a as [|x0 a0] eqn:A; [destruct I1|]. rewrite <- A in *. destruct I1 as [[= <- <-]|[]].
      destruct (Forall2_in_r _ _ _ _ FA I2) as (m & I & op' & [= -> ->] & D). unfold plain_methods in I. apply filter_In in I as [I E]. apply String.eqb_eq in E.
      exists m. rewrite template_plain by assumption. auto.
    - destruct (Forall2_in_r _ _ _ _ FB I1) as (m & I & op' & [= -> ->] & D). destruct I2 as [[= <- <-]|[]]. unfold segment_methods in I. apply filter_In in I as [I E].
      apply negb_true_iff, String.eqb_neq in E. exists m. rewrite template_segment by assumption. auto.
  Qed.

  Lemma resource_doc_complete prefix path r ms m : resource_doc v prefix path r ms -> In m (r_methods r) -> prefix = absolute_path s v path ->
    exists op, operation (JObj ms) (template s v path m) (str_lower (http_method m)) op /\ describes v path m op.
  Proof.
    intros (a & b & -> & FA & FB) I ->. destruct (String.eqb_spec (method_segment m) "") as [E|E].
    - assert (IP : In m (plain_methods r)) by (apply filter_In; split; [assumption|now apply String.eqb_eq]).
      destruct (Forall2_in_l _ _ _ _ FA IP) as (x & IX & op & -> & D). exists op. split; [|assumption]. rewrite template_plain by assumption.
      destruct a as [|x0 a0] eqn:A; [destruct IX|]. rewrite <- A in *. eexists _, a. split; [reflexivity|]. split; [apply in_app_iff; left; now left|assumption].
    - assert (IP : In m (segment_methods r)) by (apply filter_In; split; [assumption|now apply negb_true_iff, String.eqb_neq]).
      destruct (Forall2_in_l _ _ _ _ FB IP) as (x & IX & op & -> & D). exists op. split; [|assumption]. rewrite template_segment by assumption.
      eexists _, _. split; [reflexivity|]. split; [apply in_app_iff; right; exact IX|now left].
  Qed.

  Lemma operation_app a b t vb op : operation (JObj (a ++ b)%list) t vb op <-> operation (JObj a) t vb op \/ operation (JObj b) t vb op.
  Proof.
    split.
    - intros (ps & ms & [= <-] & I1 & I2). apply in_app_iff in I1 as [I1|I1]; [left|right]; eexists _, _; eauto.
    - intros [(ps & ms & [= <-] & I1 & I2)|(ps & ms & [= <-] & I1 & I2)]; eexists _, _; (split; [reflexivity|]); (split; [apply in_app_iff; eauto|assumption]).
  Qed.
  Lemma operation_concat l t vb op : operation (JObj (concat l)) t vb op <-> exists x, In x l /\ operation (JObj x) t vb op.
  Proof.
    induction l as [|a l IH]; cbn [concat].
    - split; [intros (ps & ms & [= <-] & [] & _)|intros (x & [] & _)].
    - rewrite operation_app, IH. split.
      + intros [H|(x & I & H)]; [exists a; split; [now left|assumption]|exists x; split; [now right|assumption]].
      + intros (x & [->|I] & H); [now left|right; eauto].
  Qed.

  Lemma paths_sound fuel ps t vb op : paths_doc fuel s v ps -> operation (JObj ps) t vb op ->
    (t = url ["api"; service_segment s; version_segment v] /\ vb = "get" /\ describes_metadata op) \/
    exists path r m, leads v path r /\ In m (r_methods r) /\ t = template s v path m /\ vb = str_lower (http_method m) /\ describes v path m op.
  Proof.
    intros (pl & r & rm & xs & P & R & -> & DR & DX) O. pose proof (paths_exact _ _ _ P) as EX.
    change (?a :: ?b) with ([a] ++ b)%list in O. rewrite !operation_app, operation_concat in O. destruct O as [O|[O|(x & I & O)]].
    - left. destruct O as (? & ms & [= <-] & [[= <- <-]|[]] & [[= <- <-]|[]]). split; [|split; [reflexivity|apply metadata_operation_spec]].
      rewrite absolute_url. reflexivity.
    - right. destruct (resource_doc_sound _ _ _ _ _ _ _ DR O eq_refl) as (m & H). exists [], r, m. split; [now apply leads_root|exact H].
    - right. destruct (Forall2_in_r _ _ _ _ DX I) as (prefix & IP & path & r' & G & L & D).
      apply index_sound in G as [G|[G1 G2]]; [discriminate|]. pose proof (proj1 (EX path) G1) as AR.
      destruct (resource_doc_sound _ _ _ _ _ _ _ D O G2) as (m & H). exists path, r', m. split; [|exact H].
      apply last_target_leads; auto. now destruct AR.
  Qed.

  Lemma paths_metadata fuel ps : paths_doc fuel s v ps -> exists op, operation (JObj ps) (url ["api"; service_segment s; version_segment v]) "get" op /\ describes_metadata op.
  Proof.
    intros (pl & r & rm & xs & P & R & -> & DR & DX). exists metadata_operation. split; [|apply metadata_operation_spec].
    eexists _, [("get", metadata_operation)]. split; [reflexivity|]. split; [left|now left]. now rewrite absolute_url.
  Qed.

  Lemma paths_complete fuel ps path r m : paths_doc fuel s v ps -> leads v path r -> In m (r_methods r) ->
    exists path' r', leads v path' r' /\ url (resource_segments s v path') = url (resource_segments s v path) /\ (path = [] -> path' = []) /\
      (path <> [] -> path' <> []) /\
      forall m, In m (r_methods r') -> exists op, operation (JObj ps) (template s v path' m) (str_lower (http_method m)) op /\ describes v path' m op.
  Proof.
    intros (pl & r0 & rm & xs & P & R & -> & DR & DX) L I. pose proof (paths_exact _ _ _ P) as EX.
    destruct path as [|l path].
    - exists [], r0. split; [now apply leads_root|]. split; [reflexivity|]. split; [auto|]. split; [auto|]. intros m' I'.
      destruct (resource_doc_complete _ _ _ _ _ DR I' eq_refl) as (op & O & D). exists op. split; [|assumption].
      change (?a :: ?b) with ([a] ++ b)%list. rewrite !operation_app. auto.
    - assert (IP : In (l :: path) pl) by (apply EX; split; [discriminate|eauto]).
      destruct (index_complete s v pl [] (l :: path) (or_introl IP)) as (q & G). fold (path_index s v pl) in G.
      destruct (index_sound s v pl [] _ _ G) as [X|[G1 G2]]; [discriminate|].
      assert (IK : In (absolute_path s v (l :: path)) (prefixes_of (path_index s v pl))) by (apply sort_in; apply mget_in in G; now apply (in_map fst) in G).
      destruct (Forall2_in_l _ _ _ _ DX IK) as (x & IX & q' & r' & G' & LT & D). rewrite G in G'. injection G' as <-.
      pose proof (proj1 (EX q) G1) as AR. destruct AR as [NQ AR']. exists q, r'. split; [apply last_target_leads; auto; now split|].
      split; [rewrite <- !absolute_url; auto|]. split; [discriminate|]. split; [auto|]. intros m' I'.
      destruct (resource_doc_complete _ _ _ _ _ D I' G2) as (op & O & D'). exists op. split; [|assumption].
      change (?a :: ?b) with ([a] ++ b)%list. rewrite !operation_app, operation_concat. right. right. eauto.
  Qed.

  Lemma paths_all fuel ps path r m : paths_doc fuel s v ps -> unambiguous s v -> leads v path r -> In m (r_methods r) ->
    exists op, operation (JObj ps) (template s v path m) (str_lower (http_method m)) op /\ describes v path m op.
  Proof.
    intros D U L I. destruct (paths_complete fuel ps path r m D L I) as (q & r' & L' & E & N1 & N2 & H).
    assert (q = path). { destruct path as [|l path]; [auto|]. apply (U q (l :: path) r' r); auto; [|discriminate]. apply N2. discriminate. }
    subst q. destruct L as (k & W & R), L' as (k' & W' & R').
    assert (r' = r).
    { assert (forall a p b b', walk v a p b -> walk v a p b' -> b = b') as WU.
      { intros a p b b' X. revert b'. induction X as [|? ? ? ? ? F X IH]; intros b' Y; inversion Y as [|? ? ? ? ? F' Y']; subst; [reflexivity|].
        destruct F as (? & _ & _ & T), F' as (? & _ & _ & T'). rewrite T in T'. injection T' as <-. auto. }
      rewrite (WU _ _ _ _ W' W) in R'. congruence. }
    subst r'. auto.
  Qed.
End Operations.
