(** Proofs about the versions that are read together (C14). *)
From Coq Require Import Ascii String Bool Arith ZArith Lia Permutation Sorted List.
From Verif Require Import GoStrings GoStringsProofs GoMap GoMapProofs NamesModel NamesSpec NamesProofs
  ConceptsModel ConceptsSpec ConceptsProofs ReporterModel ReaderModel ChecksModel ReaderSpec ReaderProofs
  ReaderProofs2 ReaderProofs3 ReaderProofs4 ReaderProofs5 ReaderProofs6 ReaderProofs7 ReaderProofs8
  LoopsProofs PathsProofs VersionsSpec.
Import ListNotations.
Local Open Scope string_scope.

(** * Names left undefined, with the names themselves *)

Lemma in_mset_weak {A} j (b : A) k a m : In (j, b) (mset k a m) -> (j = k /\ b = a) \/ In (j, b) m.
Proof.
  induction m as [|[i x] m IH]; simpl; [intros [[= <- <-]|[]]; auto|].
  destruct (String.eqb_spec k i) as [->|N]; simpl; [intros [[= <- <-]|H]; auto|].
  intros [[= <- <-]|H]; [auto|]. destruct (IH H); auto.
Qed.

Definition known (l : list ev) (u : list (key * name)) (k : key) (n : name) : Prop :=
  In (k, n) u \/ (k = name_key n /\ In (EUse n) l).
Definition known_res (l : list ev) (u : list (key * name)) (k : key) (n : name) : Prop :=
  In (k, n) u \/ (k = name_key n /\ In (EUseRes n) l).

Lemma names_step st e k n :
  (In (k, n) (rs_utypes (run_ev st e)) -> known [e] (rs_utypes st) k n) /\
  (In (k, n) (rs_uresources (run_ev st e)) -> known_res [e] (rs_uresources st) k n).
Proof.
  unfold known, known_res. destruct e as [r|m|t|kd m fill|m|m fill|x]; cbn [run_ev].
  - split; auto.
  - unfold refer_type. destruct (find_type m (rs_version st)); split; auto.
    intros H. cbn [add_undefined_type set_version rs_utypes] in H. apply in_mset_weak in H as [[-> ->]|H]; [|auto].
    right. split; [reflexivity|]. now left.
  - destruct (find_type (t_name t) (rs_version st)); split; auto.
  - unfold declare_type. destruct (find_type m (rs_version st)) as [t|]; [|split; auto].
    destruct (is_undefined_type t st); split; auto.
    intros H. cbn [remove_undefined_type set_version rs_utypes] in H. apply mdel_in in H as [_ H]. auto.
  - destruct (find_resource m (rs_version st)); split; auto.
    intros H. cbn [add_undefined_resource set_version rs_uresources] in H. apply in_mset_weak in H as [[-> ->]|H]; [|auto].
    right. split; [reflexivity|]. now left.
  - destruct (find_resource m (rs_version st)) as [t|]; [|split; auto].
    destruct (is_undefined_resource t st); split; auto.
    intros H. cbn [remove_undefined_resource set_version rs_uresources] in H. apply mdel_in in H as [_ H]. auto.
  - destruct (find_error (e_name x) (rs_version st)); split; auto.
Qed.

Lemma names_run l : forall st k n,
  (In (k, n) (rs_utypes (run l st)) -> known l (rs_utypes st) k n) /\
  (In (k, n) (rs_uresources (run l st)) -> known_res l (rs_uresources st) k n).
Proof.
  induction l as [|e l IH]; intros st k n; [split; intros H; now left|].
  change (run (e :: l) st) with (run l (run_ev st e)). destruct (IH (run_ev st e) k n) as [I1 I2].
  destruct (names_step st e k n) as [S1 S2]. unfold known, known_res in *. split; intros H.
  - destruct (I1 H) as [X|[-> X]]; [|right; simpl; auto]. destruct (S1 X) as [Y|[-> [Y|[]]]]; [auto|]. right. simpl. auto.
  - destruct (I2 H) as [X|[-> X]]; [|right; simpl; auto]. destruct (S2 X) as [Y|[-> [Y|[]]]]; [auto|]. right. simpl. auto.
Qed.

Lemma names_load fs st k n :
  (In (k, n) (rs_utypes (load_files fs st)) ->
     In (k, n) (rs_utypes st) \/ exists u, In u (type_uses (all_decls fs)) /\ k = key_of u /\ n = parse_using_case u) /\
  (In (k, n) (rs_uresources (load_files fs st)) ->
     In (k, n) (rs_uresources st) \/ exists u, In u (resource_uses (all_decls fs)) /\ k = key_of u /\ n = parse_using_case u).
Proof.
  rewrite load_files_run. fold (all_evs fs). destruct (names_run (all_evs fs) st k n) as [H1 H2]. split; intros H.
  - destruct (H1 H) as [X|[-> X]]; [auto|right].
    assert (Hm : In n (evs_uses (all_evs fs))).
    { unfold evs_uses. apply in_flat_map. exists (EUse n). simpl. auto. }
    rewrite all_uses in Hm. apply in_map_iff in Hm as (x & <- & Hx). exists x. auto.
  - destruct (H2 H) as [X|[-> X]]; [auto|right].
    assert (Hm : In n (evs_ruses (all_evs fs))).
    { unfold evs_ruses. apply in_flat_map. exists (EUseRes n). simpl. auto. }
    rewrite all_ruses in Hm. apply in_map_iff in Hm as (x & <- & Hx). exists x. auto.
Qed.

(** * What is left by each version *)

Definition vname (e : entry) : name := parse_using_separator (snd (fst e)) "_".
Definition sname (e : entry) : name := parse_using_separator (fst (fst e)) "_".
Definition solo (e : entry) : rstate := load_files (snd e) (fresh (vname e)).

Lemma sep_key a b : name_key (parse_using_separator a "_") = name_key (parse_using_separator b "_") -> a = b.
Proof. apply separator_key_injective. Qed.

Lemma left_types e k : mhas k (rs_utypes (solo e)) = true ->
  exists u, In u (type_uses (source e)) /\ k = key_of u /\ ~ builtin_key (key_of u) /\
    ~ In (key_of u) (map key_of (declared_types (source e))).
Proof.
  intros H. destruct (load_inv (vname e) (snd e)) as [T _]. fold (solo e) in T.
  destruct (ti_undefined _ _ _ T k H) as ((n & U & <-) & D & B).
  assert (Hm : In n (evs_uses (all_evs (snd e)))).
  { unfold evs_uses. apply in_flat_map. exists (EUse n). simpl. auto. }
  rewrite all_uses in Hm. apply in_map_iff in Hm as (x & <- & Hx). exists x. split; [exact Hx|]. split; [reflexivity|].
  split; [exact B|]. intros I. apply D. apply in_map_iff in I as (d & E & I).
  assert (Z : In (parse_using_case d) (evs_decls (all_evs (snd e)))) by (rewrite all_decls_spec; now apply in_map).
  unfold evs_decls in Z. apply in_flat_map in Z as (ev & I' & Z). destruct ev; try contradiction.
  destruct Z as [Z|[]]. subst. exists k, (parse_using_case d), fill. split; [exact I'|]. exact E.
Qed.

Lemma left_resources e k : mhas k (rs_uresources (solo e)) = true ->
  exists u, In u (resource_uses (source e)) /\ k = key_of u /\
    ~ In (key_of u) (map key_of (declared_resources (source e))).
Proof.
  intros H. destruct (load_inv (vname e) (snd e)) as [_ T]. fold (solo e) in T.
  apply (ri_undefined _ _ T k) in H as ((n & U & <-) & D).
  assert (Hm : In n (evs_ruses (all_evs (snd e)))).
  { unfold evs_ruses. apply in_flat_map. exists (EUseRes n). simpl. auto. }
  rewrite all_ruses in Hm. apply in_map_iff in Hm as (x & <- & Hx). exists x. split; [exact Hx|]. split; [reflexivity|].
  intros I. apply D. apply in_map_iff in I as (d & E & I).
  assert (Z : In (parse_using_case d) (evs_rdecls (all_evs (snd e)))) by (rewrite all_rdecls; now apply in_map).
  unfold evs_rdecls in Z. apply in_flat_map in Z as (ev & I' & Z). destruct ev; try contradiction.
  destruct Z as [Z|[]]. subst. exists (parse_using_case d), fill. split; [exact I'|]. exact E.
Qed.

Lemma undisturbed_types e e' d : undisturbed e e' -> In d (declared_types (source e')) ->
  mhas (key_of d) (rs_utypes (solo e)) = false.
Proof.
  intros [H _] I. destruct (mhas (key_of d) (rs_utypes (solo e))) eqn:E; [|reflexivity]. exfalso.
  apply left_types in E as (u & U & K & B & D). destruct (H d u I U K); contradiction.
Qed.
Lemma undisturbed_resources e e' d : undisturbed e e' -> In d (declared_resources (source e')) ->
  mhas (key_of d) (rs_uresources (solo e)) = false.
Proof.
  intros [_ H] I. destruct (mhas (key_of d) (rs_uresources (solo e))) eqn:E; [|reflexivity]. exfalso.
  apply left_resources in E as (u & U & K & D). exact (D (H d u I U K)).
Qed.

(** * The state of the reader after some of the versions *)

Record left_ok (rs0 : list report) (done : list entry) (g : gstate) : Prop := {
  lo_reports : g_reports g = (rs0 ++ flat_map (fun e => rs_reports (solo e)) done)%list;
  lo_types : forall k, mhas k (g_utypes g) = true <-> exists e, In e done /\ mhas k (rs_utypes (solo e)) = true;
  lo_resources : forall k, mhas k (g_uresources g) = true <-> exists e, In e done /\ mhas k (rs_uresources (solo e)) = true;
  lo_tnames : forall k n, In (k, n) (g_utypes g) ->
    exists e u, In e done /\ In u (type_uses (source e)) /\ k = key_of u /\ n = parse_using_case u;
  lo_rnames : forall k n, In (k, n) (g_uresources g) ->
    exists e u, In e done /\ In u (resource_uses (source e)) /\ k = key_of u /\ n = parse_using_case u }.

Record serv_has (done : list entry) (s : string) (sv : service) : Prop := {
  sh_name : s_name sv = parse_using_separator s "_";
  sh_all : forall e, In e done -> fst (fst e) = s -> find_version (vname e) sv = Some (rs_version (solo e));
  sh_only : forall k v, mget k (s_versions sv) = Some v ->
    exists e, In e done /\ fst (fst e) = s /\ k = name_key (vname e) /\ v = rs_version (solo e) }.

Record mod_has (done : list entry) (m : model) : Prop := {
  mh_only : forall k sv, mget k m = Some sv -> exists s, k = name_key (parse_using_separator s "_") /\ serv_has done s sv;
  mh_all : forall e, In e done -> exists sv, find_service (sname e) m = Some sv }.

Lemma solo_name e : v_name (rs_version (solo e)) = vname e.
Proof.
  unfold solo. assert (G : forall fs st, v_name (rs_version (load_files fs st)) = v_name (rs_version st)).
  { intros fs st. rewrite load_files_run. generalize (flat_map file_evs fs). intros l. revert st.
    induction l as [|ev l IH]; intros st; [reflexivity|]. change (run (ev :: l) st) with (run l (run_ev st ev)). rewrite IH. clear.
    destruct ev as [r|m|t|kd m fill|m|m fill|x]; cbn [run_ev]; try reflexivity.
    - unfold refer_type. destruct (find_type m (rs_version st)); reflexivity.
    - destruct (find_type (t_name t) (rs_version st)); reflexivity.
    - unfold declare_type. destruct (find_type m (rs_version st)) as [t|]; [|reflexivity]. destruct (is_undefined_type t st); reflexivity.
    - destruct (find_resource m (rs_version st)); reflexivity.
    - destruct (find_resource m (rs_version st)) as [t|]; [|reflexivity]. destruct (is_undefined_resource t st); reflexivity.
    - destruct (find_error (e_name x) (rs_version st)); reflexivity. }
  rewrite G. reflexivity.
Qed.

Lemma version_step rs0 done s sv g vd : left_ok rs0 done g -> serv_has done s sv ->
  ~ In (s, fst vd) (map fst done) -> (forall e, In e done -> undisturbed e (s, fst vd, snd vd)) ->
  let sg := load_version sv vd g in let e := (s, fst vd, snd vd) in
  left_ok rs0 (done ++ [e])%list (snd sg) /\ serv_has (done ++ [e])%list s (fst sg) /\ g_model (snd sg) = g_model g.
Proof.
  intros L S N U. cbv zeta. set (e := (s, fst vd, snd vd)) in *. unfold load_version. cbv zeta.
  change (parse_using_separator (fst vd) "_") with (vname e).
  assert (F : find_version (vname e) sv = None).
  { destruct (find_version (vname e) sv) as [v|] eqn:F; [|reflexivity]. exfalso.
    destruct (sh_only _ _ _ S _ _ F) as (e0 & I & E1 & E2 & _). apply N. apply in_map_iff. exists e0. split; [|assumption].
    apply sep_key in E2. destruct e0 as [[a b] c]. cbn in *. congruence. }
  rewrite F. change (fold_left _ (snd vd) ?st) with (load_files (snd vd) st).
  destruct (leftover_load (snd vd) (new_version (vname e)) (g_utypes g) (g_uresources g) (g_reports g)) as (E1 & E2 & E3 & E4).
  - apply new_version_wf.
  - intros id I. destruct (mhas (key_of id) (g_utypes g)) eqn:E; [|reflexivity]. apply (lo_types _ _ _ L) in E as (e0 & I0 & E).
    rewrite (undisturbed_types e0 e id (U e0 I0) I) in E. discriminate.
  - intros id I. destruct (mhas (key_of id) (g_uresources g)) eqn:E; [|reflexivity]. apply (lo_resources _ _ _ L) in E as (e0 & I0 & E).
    rewrite (undisturbed_resources e0 e id (U e0 I0) I) in E. discriminate.
  - cbv zeta in *. set (st := load_files (snd vd) (MkRState _ _ _ _)) in *.
    change (load_files (snd vd) (MkRState (new_version (vname e)) [] [] [])) with (solo e) in *.
    cbn [fst snd]. split; [split|split; [split|reflexivity]].
    + cbn [g_reports]. rewrite E2, (lo_reports _ _ _ L), flat_map_app, app_assoc. cbn [flat_map]. now rewrite app_nil_r.
    + intros k. cbn [g_utypes]. rewrite E3, orb_true_iff, (lo_types _ _ _ L). split.
      * intros [(e0 & I & H)|H]; [exists e0|exists e]; rewrite in_app_iff; simpl; auto.
      * intros (e0 & I & H). apply in_app_iff in I as [I|[<-|[]]]; [left; eauto|now right].
    + intros k. cbn [g_uresources]. rewrite E4, orb_true_iff, (lo_resources _ _ _ L). split.
      * intros [(e0 & I & H)|H]; [exists e0|exists e]; rewrite in_app_iff; simpl; auto.
      * intros (e0 & I & H). apply in_app_iff in I as [I|[<-|[]]]; [left; eauto|now right].
    + intros k n I. cbn [g_utypes] in I. apply (names_load (snd vd)) in I as [I|(u & I & X)].
      * destruct (lo_tnames _ _ _ L k n I) as (e0 & u & I0 & X). exists e0, u. rewrite in_app_iff. auto.
      * exists e, u. rewrite in_app_iff. simpl. auto.
    + intros k n I. cbn [g_uresources] in I. apply (names_load (snd vd)) in I as [I|(u & I & X)].
      * destruct (lo_rnames _ _ _ L k n I) as (e0 & u & I0 & X). exists e0, u. rewrite in_app_iff. auto.
      * exists e, u. rewrite in_app_iff. simpl. auto.
    + exact (sh_name _ _ _ S).
    + intros e0 I Es. unfold find_version, add_version. cbn [s_versions]. rewrite E1, solo_name, mget_mset.
      apply in_app_iff in I as [I|[<-|[]]].
      * destruct (String.eqb_spec (name_key (vname e0)) (name_key (vname e))) as [E|_]; [|now apply (sh_all _ _ _ S)].
        exfalso. apply N. apply in_map_iff. exists e0. split; [|assumption]. apply sep_key in E. destruct e0 as [[a b] c]. cbn in *. congruence.
      * now rewrite String.eqb_refl.
    + intros k v H. unfold add_version in H. cbn [s_versions] in H. rewrite E1, solo_name, mget_mset in H.
      destruct (String.eqb_spec k (name_key (vname e))) as [->|_].
      * injection H as <-. exists e. rewrite in_app_iff. simpl. auto.
      * destruct (sh_only _ _ _ S _ _ H) as (e0 & I & X). exists e0. rewrite in_app_iff. auto.
Qed.

Lemma versions_step rs0 s vds : forall done sv g, left_ok rs0 done g -> serv_has done s sv ->
  NoDup (map fst (done ++ map (fun vd => (s, fst vd, snd vd)) vds)) ->
  ForallOrdPairs undisturbed (done ++ map (fun vd => (s, fst vd, snd vd)) vds) ->
  let sg := fold_left (fun (sg : service * gstate) vd => load_version (fst sg) vd (snd sg)) vds (sv, g) in
  left_ok rs0 (done ++ map (fun vd => (s, fst vd, snd vd)) vds)%list (snd sg) /\
  serv_has (done ++ map (fun vd => (s, fst vd, snd vd)) vds)%list s (fst sg) /\ g_model (snd sg) = g_model g.
Proof.
  assert (Ord : forall (e : entry) l1 l2, ForallOrdPairs undisturbed (l1 ++ e :: l2) -> forall e0, In e0 l1 -> undisturbed e0 e).
  { intros e l1 l2. induction l1 as [|a l1 IH]; intros H e0 I; [contradiction|]. cbn in H. inversion H; subst.
    destruct I as [<-|I]; [|now apply IH]. rewrite Forall_forall in H2. apply H2, in_app_iff. simpl. auto. }
  induction vds as [|vd vds IH]; intros done sv g L S N O; cbn [map fold_left]; cbv zeta.
  - rewrite app_nil_r. auto.
  - cbn [map] in N, O. destruct (version_step rs0 done s sv g vd L S) as (L' & S' & M').
    + rewrite map_app in N. cbn [map] in N. apply NoDup_remove_2 in N. intros I. apply N, in_app_iff. now left.
    + intros e0 I. now apply (Ord _ _ _ O).
    + cbv zeta in *. cbn [fst snd]. destruct (load_version sv vd g) as [sv' g']. cbn [fst snd] in *.
      specialize (IH (done ++ [(s, fst vd, snd vd)])%list sv' g' L' S'). rewrite <- app_assoc in IH. cbn [app] in IH.
      specialize (IH N O). cbv zeta in IH. rewrite <- M'. exact IH.
Qed.

Lemma serv_has_new done s : (forall e, In e done -> fst (fst e) <> s) -> serv_has done s (new_service (parse_using_separator s "_")).
Proof.
  intros H. split; [reflexivity| |].
  - intros e I E. now destruct (H e I).
  - intros k v E. discriminate.
Qed.

Lemma serv_has_more done more s sv : serv_has done s sv -> (forall e, In e more -> fst (fst e) <> s) -> serv_has (done ++ more)%list s sv.
Proof.
  intros [H1 H2 H3] N. split; [assumption| |].
  - intros e I E. apply in_app_iff in I as [I|I]; [auto|]. now destruct (N e I).
  - intros k v E. destruct (H3 k v E) as (e & I & X). exists e. rewrite in_app_iff. auto.
Qed.

Lemma service_step rs0 done g d : left_ok rs0 done g -> mod_has done (g_model g) ->
  NoDup (map fst (done ++ service_entries d)) -> ForallOrdPairs undisturbed (done ++ service_entries d) ->
  left_ok rs0 (done ++ service_entries d)%list (load_service d g) /\
  mod_has (done ++ service_entries d)%list (g_model (load_service d g)).
Proof.
  intros L M N O. unfold load_service. cbv zeta. set (n := parse_using_separator (fst d) "_").
  set (sv := match find_service n (g_model g) with Some s => s | None => new_service n end).
  assert (S : serv_has done (fst d) sv).
  { unfold sv. destruct (find_service n (g_model g)) as [w|] eqn:F.
    - destruct (mh_only _ _ M _ _ F) as (s & E & S). apply sep_key in E. now subst.
    - apply serv_has_new. intros e I E. destruct (mh_all _ _ M e I) as (w & W). unfold sname in W. rewrite E in W.
      change (parse_using_separator (fst d) "_") with n in W. congruence. }
  unfold service_entries in *. destruct (versions_step rs0 (fst d) (snd d) done sv g L S N O) as (L' & S' & M').
  cbv zeta in *. destruct (fold_left _ (snd d) (sv, g)) as [sv' g']. cbn [fst snd] in *. split.
  - destruct L' as [A B C D E]. split; assumption.
  - cbn [g_model]. rewrite M'. unfold add_service. rewrite (sh_name _ _ _ S'). change (parse_using_separator (fst d) "_") with n. split.
    + intros k w H. rewrite mget_mset in H. destruct (String.eqb_spec k (name_key n)) as [->|X].
      * injection H as <-. exists (fst d). auto.
      * destruct (mh_only _ _ M _ _ H) as (s & E & S0). exists s. split; [assumption|]. apply serv_has_more; [assumption|].
        intros e I Es. apply in_map_iff in I as (vd & <- & _). cbn in Es. subst s. now apply X.
    + intros e I. unfold find_service. rewrite mget_mset. destruct (String.eqb_spec (name_key (sname e)) (name_key n)) as [_|X]; [eauto|].
      apply in_app_iff in I as [I|I]; [exact (mh_all _ _ M e I)|]. apply in_map_iff in I as (vd & <- & _). now destruct X.
Qed.

Lemma nodup_prefix {A} (l1 l2 : list A) : NoDup (l1 ++ l2) -> NoDup l1.
Proof.
  induction l1 as [|a l1 IH]; intros H; [constructor|]. cbn [app] in H. apply NoDup_cons_iff in H as [NI ND]. apply NoDup_cons; [|eauto].
  intros I. apply NI, in_app_iff. now left.
Qed.

Lemma services_step rs0 ds : forall done g, left_ok rs0 done g -> mod_has done (g_model g) ->
  NoDup (map fst (done ++ flat_map service_entries ds)) -> ForallOrdPairs undisturbed (done ++ flat_map service_entries ds) ->
  left_ok rs0 (done ++ flat_map service_entries ds)%list (load_model ds g) /\
  mod_has (done ++ flat_map service_entries ds)%list (g_model (load_model ds g)).
Proof.
  assert (Pre : forall l1 l2 : list entry, ForallOrdPairs undisturbed (l1 ++ l2) -> ForallOrdPairs undisturbed l1).
  { induction l1 as [|a l1 IH]; intros l2 H; [constructor|]. inversion H; subst. constructor; [|eauto].
    rewrite Forall_app in H2. apply H2. }
  unfold load_model. induction ds as [|d ds IH]; intros done g L M N O; cbn [fold_left flat_map].
  - rewrite app_nil_r. auto.
  - cbn [flat_map] in N, O. rewrite app_assoc in *.
    destruct (service_step rs0 done g d L M) as [L' M'].
    + rewrite map_app in N. exact (nodup_prefix _ _ N).
    + now apply Pre in O.
    + apply (IH _ _ L' M' N O).
Qed.

Lemma load_concat inputs g : fold_left (fun g i => load_model i g) inputs g = load_model (concat inputs) g.
Proof.
  revert g. induction inputs as [|i inputs IH]; intros g; [reflexivity|]. cbn [fold_left concat]. rewrite IH.
  unfold load_model. now rewrite fold_left_app.
Qed.

Lemma loaded inputs rs0 : independent inputs ->
  left_ok rs0 (entries inputs) (load_inputs inputs rs0) /\ mod_has (entries inputs) (g_model (load_inputs inputs rs0)).
Proof.
  intros [N O]. unfold load_inputs. rewrite load_concat.
  apply (services_step rs0 (concat inputs) [] (MkGState [] [] [] rs0)); auto.
  - split; cbn; try (intros; contradiction).
    + now rewrite app_nil_r.
    + split; [discriminate|intros (e & [] & _)].
    + split; [discriminate|intros (e & [] & _)].
  - split; [discriminate|intros e []].
Qed.

Lemma alone_independent e : independent (alone e).
Proof. destruct e as [[s v] fs]. split; cbn; repeat constructor; auto. Qed.
Lemma alone_entries e : entries (alone e) = [e].
Proof. now destruct e as [[s v] fs]. Qed.

(** * The checks *)

Lemma run_all_total {A} (f : A -> outcome (list report)) l :
  (exists rs, run_all f l = Done rs) <-> forall a, In a l -> exists x, f a = Done x.
Proof.
  split.
  - intros (rs & E) a I. destruct (run_all_in _ _ _ _ E I) as (x & X & _). eauto.
  - induction l as [|a l IH]; intros H; [exists []; reflexivity|]. cbn [run_all].
    destruct (H a (or_introl eq_refl)) as (x & ->). destruct IH as (y & ->); [|eauto]. intros b I. apply H. now right.
Qed.

Definition part (m : model) (sn : name) (v : version) : Prop := exists s, in_model m s /\ in_service s v /\ s_name s = sn.

Lemma check_parts m : indexed s_name m -> (forall s, in_model m s -> indexed v_name (s_versions s)) ->
  ((exists cs, check_model m = Done cs) <-> forall sn v, part m sn v -> exists x, check_version sn v = Done x) /\
  (forall cs, check_model m = Done cs -> forall r, In r cs <-> exists sn v x, part m sn v /\ check_version sn v = Done x /\ In r x).
Proof.
  intros I1 I2. unfold check_model. split.
  - rewrite run_all_total. split.
    + intros H sn v (s & Hs & Hv & <-). destruct (H s) as (x & X); [now apply services_in|]. unfold check_service in X.
      assert (Y : exists rs, run_all (check_version (s_name s)) (versions s) = Done rs) by eauto. rewrite run_all_total in Y. apply Y, versions_in; auto.
    + intros H s Hs. apply services_in in Hs; [|assumption]. unfold check_service. apply run_all_total. intros v Hv. apply versions_in in Hv; [|auto].
      apply H. exists s. auto.
  - intros cs E r. apply run_all_done in E as [E1 E2]. split.
    + intros I. destruct (E2 r I) as (s & x & Hs & X & R). unfold check_service in X. apply run_all_done in X as [_ X2].
      destruct (X2 r R) as (v & y & Hv & Y & R'). apply services_in in Hs; [|assumption]. apply versions_in in Hv; [|auto].
      exists (s_name s), v, y. split; [exists s; auto|auto].
    + intros (sn & v & x & (s & Hs & Hv & <-) & X & R). destruct (E1 s) as (y & Y & I); [now apply services_in|]. apply I.
      unfold check_service in Y. destruct (run_all_in _ _ _ v Y) as (z & Z & J); [apply versions_in; auto|].
      apply J. congruence.
Qed.

(** The versions of the model before the checks. *)
Lemma parts inputs rs0 : independent inputs ->
  let m := ensure_model_lists (g_model (load_inputs inputs rs0)) in
  indexed s_name m /\ (forall s, in_model m s -> indexed v_name (s_versions s)) /\
  (forall sn v, part m sn v <-> exists e, In e (entries inputs) /\ sn = sname e /\ v = ensure_lists (rs_version (solo e))) /\
  (forall e, In e (entries inputs) -> version_of m (fst (fst e)) (snd (fst e)) = Some (ensure_lists (rs_version (solo e)))).
Proof.
  intros H. cbv zeta. destruct (loaded inputs rs0 H) as [_ M]. set (g := load_inputs inputs rs0) in *.
  destruct (loaded_versions inputs rs0) as [Hix Hs]. cbv zeta in *. fold g in Hix, Hs.
  split; [now apply ensure_model_indexed|]. split; [|split].
  - intros s [k E]. rewrite (ensure_model_spec _ _ Hix) in E.
    destruct (mget k (g_model g)) as [s1|] eqn:E1; [|discriminate]. injection E as <-.
    apply ensure_service_indexed. apply (Hs s1). eexists; exact E1.
  - intros sn v. split.
    + intros (s & [k E] & [kv Ev] & <-). rewrite (ensure_model_spec _ _ Hix) in E.
      destruct (mget k (g_model g)) as [s1|] eqn:E1; [|discriminate]. injection E as <-.
      rewrite ensure_service_spec in Ev by (apply (Hs s1); eexists; exact E1).
      destruct (mget kv (s_versions s1)) as [v1|] eqn:Ev1; [|discriminate]. injection Ev as <-.
      destruct (mh_only _ _ M _ _ E1) as (s & _ & S). destruct (sh_only _ _ _ S _ _ Ev1) as (e & I & X1 & X2 & ->).
      exists e. split; [assumption|]. split; [|reflexivity]. rewrite ensure_service_name, (sh_name _ _ _ S). unfold sname. now rewrite X1.
    + intros (e & I & -> & ->). destruct (mh_all _ _ M e I) as (s1 & E1). destruct (mh_only _ _ M _ _ E1) as (s & X & S).
      apply sep_key in X. exists (ensure_service_lists s1). split; [|split].
      * exists (name_key (sname e)). rewrite (ensure_model_spec _ _ Hix). unfold find_service in E1. now rewrite E1.
      * exists (name_key (vname e)). rewrite ensure_service_spec by (apply (Hs s1); eexists; exact E1).
        pose proof (sh_all _ _ _ S e I X) as F. unfold find_version in F. now rewrite F.
      * rewrite ensure_service_name, (sh_name _ _ _ S). unfold sname. now rewrite X.
  - intros e I. destruct (mh_all _ _ M e I) as (s1 & E1). destruct (mh_only _ _ M _ _ E1) as (s & X & S).
    apply sep_key in X. unfold version_of. change (parse_using_separator (fst (fst e)) "_") with (sname e).
    change (parse_using_separator (snd (fst e)) "_") with (vname e). unfold find_service. rewrite (ensure_model_spec _ _ Hix).
    unfold find_service in E1. rewrite E1. cbn [option_map]. unfold find_version.
    rewrite ensure_service_spec by (apply (Hs s1); eexists; exact E1).
    pose proof (sh_all _ _ _ S e I X) as F. unfold find_version in F. now rewrite F.
Qed.

(** What one version contributes. *)
Definition checked (e : entry) : outcome (list report) := check_version (sname e) (ensure_lists (rs_version (solo e))).

Lemma reads inputs rs0 : independent inputs ->
  ((exists r rs, read inputs rs0 = Done (r, rs)) <-> forall e, In e (entries inputs) -> exists x, checked e = Done x) /\
  (forall r rs, read inputs rs0 = Done (r, rs) ->
    let g := load_inputs inputs rs0 in
    exists cs, rs = (rs0 ++ flat_map (fun e => rs_reports (solo e)) (entries inputs) ++ undefined_reports g ++ cs)%list /\
      (forall x, In x cs <-> exists e l, In e (entries inputs) /\ checked e = Done l /\ In x l) /\
      r = decide (ensure_model_lists (g_model g)) rs).
Proof.
  intros H. destruct (parts inputs rs0 H) as (I1 & I2 & P & _). cbv zeta in *.
  destruct (check_parts _ I1 I2) as [C1 C2]. destruct (loaded inputs rs0 H) as [L _].
  assert (T : (forall sn v, part (ensure_model_lists (g_model (load_inputs inputs rs0))) sn v -> exists x, check_version sn v = Done x) <->
    forall e, In e (entries inputs) -> exists x, checked e = Done x).
  { split.
    - intros X e I. apply X, P. exists e. auto.
    - intros X sn v Y. apply P in Y as (e & I & -> & ->). exact (X e I). }
  split.
  - rewrite <- T, <- C1. unfold read. cbv zeta. split.
    + intros (r & rs & E). destruct (check_model _) as [cs| |]; try discriminate. eauto.
    + intros (cs & ->). eauto.
  - intros r rs E. apply read_spec in E. cbv zeta in E. destruct E as (cs & E & -> & ->). exists cs.
    rewrite (lo_reports _ _ _ L), <- app_assoc. split; [reflexivity|]. split; [|reflexivity].
    intros x. rewrite (C2 cs E). split.
    + intros (sn & v & l & Y & Z). apply P in Y as (e & I & -> & ->). exists e, l. auto.
    + intros (e & l & I & Z & J). exists (sname e), (ensure_lists (rs_version (solo e))), l. split; [apply P; eauto|auto].
Qed.

Lemma undefined_errors rs0 done g : left_ok rs0 done g ->
  (no_errors (undefined_reports g) <-> forall e, In e done -> rs_utypes (solo e) = [] /\ rs_uresources (solo e) = []).
Proof.
  assert (Em : forall u : list (key * name), u = [] <-> forall k, mhas k u = false).
  { intros [|[k n] u]; split; intros H; auto; [discriminate|]. specialize (H k). unfold mhas in H. cbn in H. rewrite String.eqb_refl in H. discriminate. }
  intros L. split.
  - intros N e I. apply undefined_none in N as [N1 N2]. split; apply Em; intros k.
    + destruct (mhas k (rs_utypes (solo e))) eqn:E; [|reflexivity]. assert (X : mhas k (g_utypes g) = true) by (apply (lo_types _ _ _ L); eauto).
      rewrite N1 in X. discriminate.
    + destruct (mhas k (rs_uresources (solo e))) eqn:E; [|reflexivity]. assert (X : mhas k (g_uresources g) = true) by (apply (lo_resources _ _ _ L); eauto).
      rewrite N2 in X. discriminate.
  - intros H. assert (N1 : g_utypes g = []).
    { apply Em. intros k. destruct (mhas k (g_utypes g)) eqn:E; [|reflexivity]. apply (lo_types _ _ _ L) in E as (e & I & E).
      rewrite (proj1 (H e I)) in E. discriminate. }
    assert (N2 : g_uresources g = []).
    { apply Em. intros k. destruct (mhas k (g_uresources g)) eqn:E; [|reflexivity]. apply (lo_resources _ _ _ L) in E as (e & I & E).
      rewrite (proj2 (H e I)) in E. discriminate. }
    unfold undefined_reports. rewrite N1, N2. intros m [].
Qed.

Definition fine (e : entry) : Prop :=
  no_errors (rs_reports (solo e)) /\ (rs_utypes (solo e) = [] /\ rs_uresources (solo e) = []) /\
  exists l, checked e = Done l /\ no_errors l.

Lemma read_fine inputs : independent inputs ->
  ((exists m rs, read inputs [] = Done (ROk m, rs)) <-> forall e, In e (entries inputs) -> fine e).
Proof.
  intros H. destruct (reads inputs [] H) as [R1 R2]. destruct (loaded inputs [] H) as [L _]. cbv zeta in *.
  pose proof (undefined_errors _ _ _ L) as U. split.
  - intros (m & rs & E) e I. assert (T := proj1 R1 (ex_intro _ _ (ex_intro _ _ E)) e I). destruct T as (l & C).
    destruct (R2 _ _ E) as (cs & E1 & E2 & E3). symmetry in E3. apply (proj1 (decide_spec _ _)) in E3 as [N _].
    rewrite E1 in N. cbn [app] in N. apply no_errors_app in N as [N1 N]. apply no_errors_app in N as [N2 N3].
    split; [|split; [now apply U|]].
    + intros x X. apply (N1 x), in_flat_map. eauto.
    + exists l. split; [assumption|]. intros x X. apply (N3 x), E2. eauto.
  - intros F. assert (T : exists r rs, read inputs [] = Done (r, rs)).
    { apply R1. intros e I. destruct (F e I) as (_ & _ & l & C & _). eauto. }
    destruct T as (r & rs & E). destruct (R2 _ _ E) as (cs & E1 & E2 & E3).
    exists (ensure_model_lists (g_model (load_inputs inputs []))), rs. rewrite E. do 2 f_equal.
    rewrite E3. apply decide_spec. split; [|reflexivity]. rewrite E1. cbn [app]. rewrite !no_errors_app. split; [|split].
    + intros x X. apply in_flat_map in X as (e & I & X). exact (proj1 (F e I) x X).
    + apply U. intros e I. apply (F e I).
    + intros x X. apply E2 in X as (e & l & I & C & X). destruct (F e I) as (_ & _ & l' & C' & N). apply (N x). congruence.
Qed.

Lemma alone_fine e : (exists m rs, read (alone e) [] = Done (ROk m, rs)) <-> fine e.
Proof.
  rewrite (read_fine _ (alone_independent e)), alone_entries. split; [intros H; apply H; now left|intros H e0 [<-|[]]; exact H].
Qed.

(** * The theorems *)

Lemma together_iff inputs : independent inputs ->
  ((exists m rs, read inputs [] = Done (ROk m, rs)) <->
   forall e, In e (entries inputs) -> exists m rs, read (alone e) [] = Done (ROk m, rs)).
Proof.
  intros H. rewrite (read_fine _ H). split; intros F e I; apply alone_fine; auto.
Qed.

Lemma together_same inputs m rs : independent inputs -> read inputs [] = Done (ROk m, rs) ->
  (forall s v fs, In (s, v, fs) (entries inputs) ->
     exists m' rs' w, read (alone (s, v, fs)) [] = Done (ROk m', rs') /\
       version_of m s v = Some w /\ version_of m' s v = Some w) /\
  (forall sv w, in_model m sv -> in_service sv w -> exists s v fs, In (s, v, fs) (entries inputs) /\
     s_name sv = parse_using_separator s "_" /\ version_of m s v = Some w).
Proof.
  intros H E. pose proof (proj1 (together_iff _ H) (ex_intro _ _ (ex_intro _ _ E))) as A.
  apply read_spec in E. cbv zeta in E. destruct E as (cs & _ & _ & E). symmetry in E. apply (proj1 (decide_spec _ _)) in E as [_ ->].
  destruct (parts inputs [] H) as (_ & _ & P & V). cbv zeta in *. split.
  - intros s v fs I. destruct (A _ I) as (m' & rs' & E'). exists m', rs', (ensure_lists (rs_version (solo (s, v, fs)))).
    split; [exact E'|]. split; [exact (V _ I)|].
    apply read_spec in E'. cbv zeta in E'. destruct E' as (cs' & _ & _ & E'). symmetry in E'. apply (proj1 (decide_spec _ _)) in E' as [_ ->].
    destruct (parts _ [] (alone_independent (s, v, fs))) as (_ & _ & _ & V'). cbv zeta in V'. apply (V' (s, v, fs)). rewrite alone_entries. now left.
  - intros sv w Hs Hv. destruct (proj1 (P (s_name sv) w)) as ([[s v] fs] & I & E1 & ->); [exists sv; auto|].
    exists s, v, fs. split; [exact I|]. split; [exact E1|]. exact (V _ I).
Qed.

Lemma together_ends inputs : independent inputs ->
  ((exists r rs, read inputs [] = Done (r, rs)) <->
   forall e, In e (entries inputs) -> exists r rs, read (alone e) [] = Done (r, rs)).
Proof.
  intros H. rewrite (proj1 (reads _ [] H)). split; intros F e I.
  - apply (proj1 (reads _ [] (alone_independent e))). rewrite alone_entries. intros e0 [<-|[]]. auto.
  - pose proof (proj1 (proj1 (reads _ [] (alone_independent e))) (F e I)) as X. apply X. rewrite alone_entries. now left.
Qed.

Lemma undefined_in rs0 done g : left_ok rs0 done g -> (forall e, In e done -> camel_source (source e)) ->
  forall x, In x (undefined_reports g) <->
    (exists e u, In e done /\ In u (type_uses (source e)) /\ mhas (key_of u) (rs_utypes (solo e)) = true /\
       x = err ("Type '" ++ u ++ "' isn't completely defined")) \/
    (exists e u, In e done /\ In u (resource_uses (source e)) /\ mhas (key_of u) (rs_uresources (solo e)) = true /\
       x = err ("Resource '" ++ u ++ "' isn't completely defined")).
Proof.
  intros L C x. unfold undefined_reports. rewrite in_app_iff, !in_map_iff.
  assert (CT : forall e u, In e done -> In u (type_uses (source e)) -> camel_identifier u).
  { intros e u I J. destruct (C e I) as (X & _). rewrite Forall_forall in X. auto. }
  assert (CR : forall e u, In e done -> In u (resource_uses (source e)) -> camel_identifier u).
  { intros e u I J. destruct (C e I) as (_ & _ & X & _). rewrite Forall_forall in X. auto. }
  assert (T1 : forall e k, mhas k (rs_utypes (solo e)) = true -> exists u, In u (type_uses (source e)) /\ k = key_of u).
  { intros e k E. destruct (left_types e k E) as (u & U1 & U2 & _). eauto. }
  assert (T2 : forall e k, mhas k (rs_uresources (solo e)) = true -> exists u, In u (resource_uses (source e)) /\ k = key_of u).
  { intros e k E. destruct (left_resources e k E) as (u & U1 & U2 & _). eauto. }
  split.
  - intros [([k n] & <- & I)|([k n] & <- & I)]; [left|right].
    + destruct (lo_tnames _ _ _ L k n I) as (e & u & I1 & I2 & -> & ->).
      assert (X : mhas (key_of u) (g_utypes g) = true) by (apply mhas_true; apply in_map_iff; eexists; split; [|exact I]; reflexivity).
      apply (lo_types _ _ _ L) in X as (e' & I' & X). destruct (T1 _ _ X) as (u' & U' & E). apply lookup_key_injective in E; [|eauto|eauto]. subst u'.
      exists e', u. cbn [snd]. rewrite camel_parse by eauto. auto.
    + destruct (lo_rnames _ _ _ L k n I) as (e & u & I1 & I2 & -> & ->).
      assert (X : mhas (key_of u) (g_uresources g) = true) by (apply mhas_true; apply in_map_iff; eexists; split; [|exact I]; reflexivity).
      apply (lo_resources _ _ _ L) in X as (e' & I' & X). destruct (T2 _ _ X) as (u' & U' & E). apply lookup_key_injective in E; [|eauto|eauto]. subst u'.
      exists e', u. cbn [snd]. rewrite camel_parse by eauto. auto.
  - intros [(e & u & I & U & X & ->)|(e & u & I & U & X & ->)]; [left|right].
    + assert (Y : mhas (key_of u) (g_utypes g) = true) by (apply (lo_types _ _ _ L); eauto). apply mhas_true in Y.
      apply in_map_iff in Y as ([k n] & E & Y). cbn in E. subst k. exists (key_of u, n). split; [|exact Y].
      destruct (lo_tnames _ _ _ L _ _ Y) as (e' & u' & I1 & I2 & E & ->). apply lookup_key_injective in E; [|eauto|eauto]. subst u'.
      cbn [snd]. now rewrite camel_parse by eauto.
    + assert (Y : mhas (key_of u) (g_uresources g) = true) by (apply (lo_resources _ _ _ L); eauto). apply mhas_true in Y.
      apply in_map_iff in Y as ([k n] & E & Y). cbn in E. subst k. exists (key_of u, n). split; [|exact Y].
      destruct (lo_rnames _ _ _ L _ _ Y) as (e' & u' & I1 & I2 & E & ->). apply lookup_key_injective in E; [|eauto|eauto]. subst u'.
      cbn [snd]. now rewrite camel_parse by eauto.
Qed.

Lemma together_reports inputs r rs : independent inputs -> (forall e, In e (entries inputs) -> camel_source (source e)) ->
  read inputs [] = Done (r, rs) ->
  forall x, In x rs <-> exists e r' rs', In e (entries inputs) /\ read (alone e) [] = Done (r', rs') /\ In x rs'.
Proof.
  intros H C E x. pose proof (proj1 (together_ends _ H) (ex_intro _ _ (ex_intro _ _ E))) as A.
  destruct (proj2 (reads _ [] H) _ _ E) as (cs & -> & CS & _). destruct (loaded _ [] H) as [L _]. cbn [app].
  assert (Q : forall e r' rs', In e (entries inputs) -> read (alone e) [] = Done (r', rs') ->
    (In x rs' <-> In x (rs_reports (solo e)) \/ (In x (undefined_reports (load_inputs (alone e) [])) \/ exists l, checked e = Done l /\ In x l))).
  { intros e r' rs' I E'. destruct (proj2 (reads _ [] (alone_independent e)) _ _ E') as (cs' & -> & CS' & _). cbn [app].
    rewrite !in_app_iff, alone_entries. cbn [flat_map]. rewrite app_nil_r, CS', alone_entries. split.
    - intros [X|[X|(e0 & l & [<-|[]] & X)]]; eauto.
    - intros [X|[X|(l & X)]]; auto. right. right. exists e, l. simpl. tauto. }
  assert (UA : forall e, In e (entries inputs) -> In x (undefined_reports (load_inputs (alone e) [])) <->
    (exists e0 u, In e0 [e] /\ In u (type_uses (source e0)) /\ mhas (key_of u) (rs_utypes (solo e0)) = true /\
       x = err ("Type '" ++ u ++ "' isn't completely defined")) \/
    (exists e0 u, In e0 [e] /\ In u (resource_uses (source e0)) /\ mhas (key_of u) (rs_uresources (solo e0)) = true /\
       x = err ("Resource '" ++ u ++ "' isn't completely defined"))).
  { intros e I. destruct (loaded _ [] (alone_independent e)) as [L' _]. rewrite alone_entries in L'. apply (undefined_in _ _ _ L').
    intros e0 [<-|[]]. auto. }
  rewrite !in_app_iff, (undefined_in _ _ _ L C), CS, in_flat_map. split.
  - intros [(e & I & X)|[[(e & u & I & X)|(e & u & I & X)]|(e & l & I & X)]]; destruct (A e I) as (r' & rs' & E'); exists e, r', rs';
      (split; [exact I|]); (split; [exact E'|]); apply (Q e r' rs' I E').
    + auto.
    + right. left. apply UA; [exact I|]. left. exists e, u. simpl. tauto.
    + right. left. apply UA; [exact I|]. right. exists e, u. simpl. tauto.
    + right. right. eauto.
  - intros (e & r' & rs' & I & E' & X). apply (Q e r' rs' I E') in X as [X|[X|(l & X)]].
    + left. eauto.
    + right. left. apply UA in X; [|exact I]. destruct X as [(e0 & u & [<-|[]] & X)|(e0 & u & [<-|[]] & X)]; [left|right]; exists e, u; tauto.
    + right. right. exists e, l. tauto.
Qed.
