(** Proofs about the generator of OpenAPI specifications: the models returned by the reader, and all the versions. *)
From Coq Require Import Ascii String Bool Arith ZArith NArith Lia Permutation List.
From Verif Require Import GoStrings GoStringsProofs GoMap GoMapProofs NamesModel ConceptsModel ConceptsSpec ReporterModel ReaderModel ReaderSpec ReaderProofs ReaderProofs6 ReaderProofs7
  ReaderProofs10 BindingModel GoNamesModel ObjectsModel ObjectsSpec TextModel BufferModel BufferSpec BufferProofs BufferProofs3 BufferProofs4 JsonModel JsonSpec
  JsonTextModel JsonTextSpec JsonTextProofs JsonTextProofs3 ChecksModel ChecksSpec LoopsProofs PathsModel PathsProofs OpenapiModel OpenapiSpec OpenapiProofs
  OpenapiProofs2 OpenapiProofs3 OpenapiProofs4 OpenapiProofs5.
Import ListNotations.
Local Open Scope string_scope.

(** The versions that the reader returns contain the predefined types. *)
Lemma returned_standard inputs rs0 m rs s v : read inputs rs0 = Done (ROk m, rs) -> in_model m s -> in_service s v -> standard v.
Proof.
  intros E Hs Hv. destruct (returned_ok _ _ _ _ _ _ E Hs Hv) as [K B].
  assert (Z : forall k, (exists z, In (k, z) scalar_zeros) <-> exists id, In (id, k, ScalarType) builtins).
  { intros k. split.
    - intros (z & I). cbn in I. repeat (destruct I as [[= <- _]|I]; [cbn; eexists; eauto 10|]). destruct I.
    - intros (id & I). cbn in I. repeat (destruct I as [[= _ <-]|I]; [cbn; eexists; eauto 10|]). destruct I as [[=]|[]]. }
  split; [|split; [|split]].
  - intros k z I. destruct (proj1 (Z k) (ex_intro _ z I)) as (id & J). exact (B id k ScalarType J).
  - apply (B "Interface"). cbn. auto 10.
  - intros k t T KT. specialize (K k t T). unfold kind_ok in K. rewrite KT in K. apply Z, K.
  - intros k t T KT. specialize (K k t T). unfold kind_ok in K. rewrite KT in K. destruct K as (id & I). cbn in I.
    repeat (destruct I as [[=]|I]; try congruence). destruct I.
Qed.

Lemma returned_version_indexed inputs rs0 m rs s v : read inputs rs0 = Done (ROk m, rs) -> in_model m s -> in_service s v -> start_ok v.
Proof.
  intros E Hs Hv. apply read_spec in E. cbv zeta in E. destruct E as (cs & Ec & -> & Ed). symmetry in Ed. apply (proj1 (decide_spec _ _)) in Ed as [Hn ->].
  destruct (returned_version inputs rs0 s v Hs Hv) as (s1 & v1 & Hs1 & Hv1 & -> & -> & Hok1 & Hw1 & _). now apply ensure_lists_wf.
Qed.

(** All the types of those versions can be expressed, except those that are undefined. *)
Lemma returned_expressible inputs rs0 m rs s v : read inputs rs0 = Done (ROk m, rs) -> in_model m s -> in_service s v ->
  (forall k t, type_at k v = Some t -> t_kind t <> UndefinedType) -> forall k, used v k -> expressible v k.
Proof.
  intros E Hs Hv D. destruct (returned_ok _ _ _ _ _ _ E Hs Hv) as [K B]. destruct (returned_model_sound _ _ _ _ _ _ E Hs Hv) as (_ & (CT & CR) & _).
  destruct (returned_version_indexed _ _ _ _ _ _ E Hs Hv) as [IX _].
  assert (X : forall n k, (String.length k < n)%nat -> has_type v k -> expressible v k).
  { induction n as [|n IH]; intros k L [t T]; [lia|]. pose proof (K k t T) as KT. pose proof (D k t T) as DT. unfold kind_ok in KT. unfold type_at in T.
    assert (P : (exists id kd, In (id, k, kd) builtins) -> expressible v k).
    { intros (id & kd & I). apply ex_predefined with t; [assumption|]. cbn in I. repeat (destruct I as [[= _ <- _]|I]; [cbn; auto 10|]). destruct I. }
    assert (N : In (t_kind t) [ListType; MapType] -> (exists e, t_element t = Some e /\ (String.length e < String.length k)%nat) -> expressible v k).
    { intros KI (e & EL & LE). apply ex_nested with t e; auto. apply IH; [lia|]. destruct (CT k t T) as (_ & CE & _). now apply CE. }
    destruct (t_kind t) eqn:KK; try congruence; try (apply ex_named with t; [assumption|rewrite KK; cbn; auto]; fail).
    - apply P. destruct KT as (id & I). eauto.
    - apply N; [cbn; auto|assumption].
    - apply N; [cbn; auto|assumption].
    - apply P. destruct KT as (id & I). eauto. }
  intros k U. apply (X (S (String.length k))); [lia|]. destruct U as [(t & a & IT & _ & IA & ->)|(path & r & me & p & (kr & W & R) & IM & IP & ->)].
  - unfold types in IT. apply sort_in in IT. apply in_map_iff in IT as ([k0 t0] & <- & I0). cbn [snd] in *.
    apply (mget_in_iff k0 t0 (v_types v) (proj1 IX)) in I0. destruct (CT k0 t0 I0) as (CA & _). now apply CA.
  - destruct (CR kr r R) as (CM & _). eapply CM; eauto.
Qed.

(** * All the versions *)

Definition spec_path (output : string) (s : service) (v : version) : string := path_join [output; path_join [snake (s_name s); snake (v_name v); "openapi.json"]].

Lemma specs_succeed sys output l :
  (forall s v, In (s, v) l -> exists n, forall fuel reports fs, (n <= fuel)%nat -> errors_in reports 0 -> exists j reports' fs',
    published sys fuel output s v reports fs j /\ generate_spec sys fuel output s v reports fs = Done (None, reports', fs') /\ errors_in reports' 0) ->
  exists n, forall fuel reports fs, (n <= fuel)%nat -> errors_in reports 0 -> exists reports' fs',
    generate_specs sys fuel output l reports fs = Done (None, reports', fs') /\ errors_in reports' 0 /\
    (forall p, (forall s v, In (s, v) l -> p <> spec_path output s v) -> mget p fs' = mget p fs) /\
    (forall s v, In (s, v) l -> exists s' v' reports0 fs0 text j, In (s', v') l /\ spec_path output s' v' = spec_path output s v /\
       mget (spec_path output s v) fs' = Some text /\ json_document text j /\ published sys fuel output s' v' reports0 fs0 j).
Proof.
  induction l as [|[s v] l IH]; intros H.
  - exists 0. intros fuel reports fs _ Z. exists reports, fs. cbn [generate_specs]. repeat split; auto. intros s v [].
  - destruct IH as (n & N); [intros s' v' I; apply H; now right|]. destruct (H s v (or_introl eq_refl)) as (n' & N'). exists (n + n'). intros fuel reports fs L Z.
    destruct (N' fuel reports fs ltac:(lia) Z) as (j & r1 & f1 & P & G & Z1). destruct (N fuel r1 f1 ltac:(lia) Z1) as (r2 & f2 & G2 & Z2 & FR & W).
    cbn [generate_specs]. rewrite G. exists r2, f2. split; [assumption|]. split; [assumption|].
    pose proof P as (r1' & f1' & text & G' & M & D). rewrite G in G'. injection G' as <- <-. fold (spec_path output s v) in M.
    assert (F1 : forall p, p <> spec_path output s v -> mget p f1 = mget p fs).
    { intros p NP. destruct (spec_written _ _ _ _ _ _ _ _ _ G) as (ps & ss & _ & _ & _ & _ & _ & ->). now apply mget_mset_other. }
    split.
    + intros p NP. rewrite FR by (intros s' v' I; apply NP; now right). apply F1, NP. now left.
    + intros s' v' [[= <- <-]|I].
      * destruct (in_dec string_dec (spec_path output s v) (map (fun sv => spec_path output (fst sv) (snd sv)) l)) as [I|NI].
        -- apply in_map_iff in I as ([s' v'] & E & I). cbn [fst snd] in E. destruct (W s' v' I) as (s2 & v2 & r0 & f0 & tx & j2 & I2 & E2 & M2 & D2 & P2).
           exists s2, v2, r0, f0, tx, j2. split; [now right|]. rewrite <- E. auto.
        -- exists s, v, reports, fs, text, j. split; [now left|]. split; [reflexivity|]. split; [|auto]. rewrite FR; [assumption|].
           intros s' v' I E. apply NI. rewrite E. exact (in_map (fun sv => spec_path output (fst sv) (snd sv)) l (s', v') I).
      * destruct (W s' v' I) as (s2 & v2 & r0 & f0 & tx & j2 & I2 & R2). exists s2, v2, r0, f0, tx, j2. split; [now right|assumption].
Qed.

Lemma returned_indexed inputs rs0 m rs : read inputs rs0 = Done (ROk m, rs) ->
  indexed s_name m /\ forall s, in_model m s -> indexed v_name (s_versions s).
Proof.
  intros E. apply read_spec in E. cbv zeta in E. destruct E as (cs & Ec & -> & Ed). symmetry in Ed. apply (proj1 (decide_spec _ _)) in Ed as [Hn ->].
  destruct (loaded_versions inputs rs0) as [Hix Hs]. cbv zeta in *. split; [now apply ensure_model_indexed|].
  intros s [k H]. rewrite (ensure_model_spec _ _ Hix) in H. destruct (mget k (g_model (load_inputs inputs rs0))) as [s1|] eqn:E1; [|discriminate]. injection H as <-.
  apply ensure_service_indexed. apply (Hs s1). eexists; exact E1.
Qed.

Lemma returned_specs sys output inputs rs0 m rs :
  (forall d, sys_mkdir sys d = None) -> (forall f, sys_open sys f = None) ->
  read inputs rs0 = Done (ROk m, rs) ->
  (forall s v k t, in_model m s -> in_service s v -> type_at k v = Some t -> t_kind t <> UndefinedType) ->
  exists n, forall fuel fs, (n <= fuel)%nat -> exists reports' fs', run_openapi sys fuel output m rs fs = Done (None, reports', fs') /\ errors_in reports' 0 /\
    (forall p, (forall s v, in_model m s -> in_service s v -> p <> spec_path output s v) -> mget p fs' = mget p fs) /\
    (forall s v, in_model m s -> in_service s v -> exists s' v' reports0 fs0 text j, in_model m s' /\ in_service s' v' /\
       spec_path output s' v' = spec_path output s v /\ mget (spec_path output s v) fs' = Some text /\ json_document text j /\
       published sys fuel output s' v' reports0 fs0 j).
Proof.
  intros MK OP E D.
  assert (NE : errors_in rs 0).
  { pose proof E as E'. apply read_spec in E'. cbv zeta in E'. destruct E' as (cs & Ec & -> & Ed). symmetry in Ed. apply (proj1 (decide_spec _ _)) in Ed as [Hn _].
    apply errors_zero. now apply error_count_zero. }
  set (l := flat_map (fun s => map (fun v => (s, v)) (versions s)) (services m)).
  assert (IL : forall s v, In (s, v) l <-> in_model m s /\ in_service s v).
  { destruct (returned_indexed _ _ _ _ E) as [I1 I2]. intros s v. unfold l. rewrite in_flat_map. split.
    - intros (s0 & IS & IV). apply in_map_iff in IV as (v0 & [= -> ->] & IV). assert (in_model m s) by now apply services_in. split; [assumption|].
      apply versions_in; [now apply I2|assumption].
    - intros [Hs Hv]. exists s. split; [now apply services_in|]. apply in_map_iff. exists v. split; [reflexivity|]. apply versions_in; [now apply I2|assumption]. }
  destruct (specs_succeed sys output l) as (n & N).
  { intros s v I. apply IL in I as [Hs Hv]. destruct (returned_no_loops _ _ _ _ _ _ E Hs Hv) as ((r & R) & DE & TE & NL).
    apply (spec_succeeds sys output s v r); auto. apply (returned_expressible _ _ _ _ _ _ E Hs Hv). intros k t. now apply (D s v). }
  exists n. intros fuel fs L. destruct (N fuel rs fs L NE) as (r' & f' & G & Z & FR & W). exists r', f'. split; [exact G|]. split; [assumption|]. split.
  - intros p NP. apply FR. intros s v I. apply IL in I as [Hs Hv]. now apply NP.
  - intros s v Hs Hv. destruct (W s v) as (s' & v' & r0 & f0 & tx & j & I & R); [now apply IL|]. apply IL in I as [Hs' Hv'].
    exists s', v', r0, f0, tx, j. auto.
Qed.

(** * Failures *)

(** All the versions of a model, with their services. *)
Definition spec_pairs (m : model) : list (service * version) := flat_map (fun s => map (fun v => (s, v)) (versions s)) (services m).

Lemma spec_files sys fuel output s v reports fs reports' fs' : generate_spec sys fuel output s v reports fs = Done (None, reports', fs') ->
  sys_mkdir sys (path_dir (spec_path output s v)) = None /\ sys_open sys (spec_path output s v) = None.
Proof.
  unfold generate_spec. generalize (generate_spec_source fuel s v) as src. intros src.
  destruct (execute_all src _) as [b| |]; [|intros W; discriminate W|intros W; discriminate W].
  change (path_join [output; openapi_file_name s v]) with (spec_path output s v). generalize (spec_path output s v) as p, (write_tokens 0 (ob_tokens b)) as c. intros p c W.
  assert (W' : write_openapi sys p c (ob_reports b) fs = (None, reports', fs')) by congruence. clear W. revert W'. unfold write_openapi.
  destruct (errors_found _); [discriminate|]. destruct (sys_mkdir sys _); [discriminate|]. destruct (sys_open sys _); [discriminate|]. auto.
Qed.

Lemma spec_failed sys fuel output s v reports fs e reports' fs' : generate_spec sys fuel output s v reports fs = Done (Some e, reports', fs') -> fs' = fs.
Proof.
  unfold generate_spec. generalize (generate_spec_source fuel s v) as src. intros src.
  destruct (execute_all src _) as [b| |]; [|intros W; discriminate W|intros W; discriminate W].
  generalize (path_join [output; openapi_file_name s v]) as p, (write_tokens 0 (ob_tokens b)) as c. intros p c W.
  assert (W' : write_openapi sys p c (ob_reports b) fs = (Some e, reports', fs')) by congruence. clear W. revert W'. unfold write_openapi.
  destruct (errors_found _); [congruence|]. destruct (sys_mkdir sys _); [congruence|]. destruct (sys_open sys _); congruence.
Qed.

Lemma specs_cons sys fuel output s v l reports fs : generate_specs sys fuel output ((s, v) :: l) reports fs =
  match generate_spec sys fuel output s v reports fs with Done (None, reports, fs) => generate_specs sys fuel output l reports fs | r => r end.
Proof. reflexivity. Qed.

Lemma specs_files sys fuel output l : forall reports fs reports' fs', generate_specs sys fuel output l reports fs = Done (None, reports', fs') ->
  forall s v, In (s, v) l -> sys_mkdir sys (path_dir (spec_path output s v)) = None /\ sys_open sys (spec_path output s v) = None.
Proof.
  induction l as [|[s v] l IH]; intros reports fs reports' fs' E s' v' I; [destruct I|]. rewrite specs_cons in E.
  destruct (generate_spec sys fuel output s v reports fs) as [[[[e|] r1] f1]| |] eqn:G; try discriminate E.
  destruct I as [[= <- <-]|I]; [exact (spec_files _ _ _ _ _ _ _ _ _ G)|exact (IH _ _ _ _ E _ _ I)].
Qed.

Lemma run_files sys fuel output m reports fs reports' fs' : run_openapi sys fuel output m reports fs = Done (None, reports', fs') ->
  forall s v, In s (services m) -> In v (versions s) -> sys_mkdir sys (path_dir (spec_path output s v)) = None /\ sys_open sys (spec_path output s v) = None.
Proof.
  intros E s v Hs Hv. apply (specs_files _ _ _ _ _ _ _ _ E). apply in_flat_map. exists s. split; [assumption|]. apply in_map_iff. now exists v.
Qed.

Lemma specs_stop sys fuel output l : forall reports fs e reports' fs', generate_specs sys fuel output l reports fs = Done (Some e, reports', fs') ->
  exists before s v after, l = (before ++ (s, v) :: after)%list /\
    (forall p, (forall s' v', In (s', v') before -> p <> spec_path output s' v') -> mget p fs' = mget p fs) /\
    (forall s' v', In (s', v') before -> exists text, mget (spec_path output s' v') fs' = Some text).
Proof.
  induction l as [|[s v] l IH]; intros reports fs e reports' fs' E; [discriminate|]. rewrite specs_cons in E.
  destruct (generate_spec sys fuel output s v reports fs) as [[[[e1|] r1] f1]| |] eqn:G; try discriminate E.
  - injection E as <- <- <-. apply spec_failed in G as ->. exists [], s, v, l. repeat split. intros s' v' [].
  - destruct (spec_written _ _ _ _ _ _ _ _ _ G) as (ps & ss & _ & _ & _ & _ & _ & F1). change (path_join [output; openapi_file_name s v]) with (spec_path output s v) in F1.
    destruct (IH _ _ _ _ _ E) as (before & s' & v' & after & -> & U & W). exists ((s, v) :: before), s', v', after. split; [reflexivity|]. split.
    + intros p N. rewrite U by (intros s2 v2 I2; apply N; now right). rewrite F1. apply mget_mset_other. apply N. now left.
    + intros s2 v2 [[= <- <-]|I2]; [|now apply W].
      destruct (in_dec string_dec (spec_path output s v) (map (fun sv => spec_path output (fst sv) (snd sv)) before)) as [I|NI].
      * apply in_map_iff in I as ([s3 v3] & E3 & I3). cbn [fst snd] in E3. rewrite <- E3. now apply W.
      * rewrite U; [rewrite F1; eexists; apply mget_mset_same|]. intros s3 v3 I3 E3. apply NI. rewrite E3.
        exact (in_map (fun sv => spec_path output (fst sv) (snd sv)) before (s3, v3) I3).
Qed.
