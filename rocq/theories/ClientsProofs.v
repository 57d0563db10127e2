(** Proofs about the URLs used by the generated clients, and about the tree of paths. *)
From Coq Require Import Ascii String Bool Arith ZArith NArith Lia Permutation List.
From Verif Require Import GoStrings GoStringsProofs GoMap GoMapProofs NamesModel ConceptsModel ConceptsSpec ReporterModel ReaderModel ReaderSpec ReaderProofs ReaderProofs6 ReaderProofs7
  ReaderProofs10 BindingModel BindingSpec BindingProofs GoNamesModel GoNamesSpec GoNamesProofs ChecksModel ChecksSpec LoopsProofs OpenapiSpec OpenapiProofs4 OpenapiProofs5 OpenapiProofs6 ClientsModel ClientsSpec.
Import ListNotations.
Local Open Scope string_scope.

(** * URLs *)

Lemma url_not_empty l : l <> [] -> url l <> "".
Proof. destruct l; [congruence|discriminate]. Qed.

Lemma url_split l : Forall plain_segment l -> l <> [] -> str_split "/" (url l) = "" :: l.
Proof.
  intros H N. destruct l as [|x l]; [congruence|]. rewrite <- url_join. change ("/" ++ str_join "/" (x :: l))%string with ("" ++ String "/" (str_join "/" (x :: l)))%string.
  rewrite split_sep. cbn [str_split split_loop app]. f_equal. apply join_split; [|discriminate]. eapply Forall_impl; [|exact H]. intros a. apply plain_no_slash.
Qed.

Lemma url_prefix l x : l <> [] -> has_prefix (url l ++ x) "/" = true.
Proof. destruct l as [|y l]; [congruence|]. intros _. cbn [url append has_prefix]. rewrite Ascii.eqb_refl. destruct ((y ++ url l) ++ x)%string; reflexivity. Qed.

Lemma join_url l x : l <> [] -> Forall plain_segment l -> plain_segment x -> path_join [url l; x] = url (l ++ [x])%list.
Proof.
  intros N H X. unfold path_join. cbn [filter]. rewrite (negb_nonempty (url l)) by now apply url_not_empty. rewrite (negb_nonempty x) by apply X.
  change (str_join "/" [url l; x]) with (url l ++ "/" ++ str_join "/" [x])%string.
  rewrite (clean_of_parts (url l) _ [x] eq_refl ltac:(discriminate)) by (constructor; [assumption|constructor]).
  rewrite url_prefix by assumption. rewrite url_split by assumption. cbn [clean_parts]. change (String.eqb "" "" || String.eqb "" ".") with true. cbv iota.
  rewrite clean_plain by assumption. cbn [rev app]. unfold GoNamesProofs.root. destruct (l ++ [x])%list as [|y l'] eqn:E; [now destruct l|]. exact (url_join y l').
Qed.

Section Urls.
  Context (v : version).

  Lemma locate_path path : forall base k k', base <> [] -> Forall plain_segment base -> Forall (fun st => plain_segment (step_segment st)) path ->
    walk v k (map fst path) k' ->
    locate_all (MkClient k (url base)) path = Some (MkClient k' (url (base ++ map step_segment path)%list)).
  Proof.
    induction path as [|[l id] path IH]; intros base k k' NB PB PP W; cbn [map fst] in W; inversion W; subst.
    - cbn [map locate_all]. now rewrite app_nil_r.
    - match goal with F : follows v _ _ _ |- _ => destruct F as (r & R & IL & T) end. inversion PP as [|? ? P1 P2]; subst.
      cbn [locate_all]. unfold locate. rewrite T. cbn [c_path]. fold (step_segment (l, id)). unfold step_segment in P1 at 1. cbn [fst snd] in P1.
      rewrite join_url by assumption. rewrite (IH (base ++ [if l_variable l then id else locator_segment l])%list _ k').
      + cbn [map]. rewrite <- app_assoc. reflexivity.
      + intros E. now apply app_eq_nil in E as [_ E].
      + apply Forall_app. split; [assumption|]. constructor; [assumption|constructor].
      + assumption.
      + assumption.
  Qed.

  Lemma client_paths base path r m : base <> [] -> Forall plain_segment base -> plain_segment (version_segment v) ->
    Forall (fun st => plain_segment (step_segment st)) path -> (method_segment m = "" \/ plain_segment (method_segment m)) ->
    leads v (map fst path) r ->
    exists c, locate_all (version_client (url base) v) path = Some c /\ mget (c_resource c) (v_resources v) = Some r /\
      request_path c m = url (base ++ version_segment v :: map step_segment path ++ method_segments m)%list /\
      metadata_path (version_client (url base) v) = url (base ++ [version_segment v])%list.
  Proof.
    intros NB PB PV PP PM (k & W & R). unfold version_client. rewrite join_url by assumption.
    assert (PB' : Forall plain_segment (base ++ [version_segment v])%list) by (apply Forall_app; split; [assumption|constructor; [assumption|constructor]]).
    rewrite (locate_path path (base ++ [version_segment v])%list "root" k); auto; [|intros E; now apply app_eq_nil in E as [_ E]].
    eexists. split; [reflexivity|]. cbn [c_resource c_path]. split; [assumption|]. split; [|reflexivity].
    unfold request_path, method_segments. cbn [c_path]. destruct (String.eqb_spec (method_segment m) "") as [E|E].
    - rewrite app_nil_r, <- app_assoc. reflexivity.
    - destruct PM as [PM|PM]; [contradiction|]. rewrite join_url; [|now destruct base| |assumption].
      + rewrite <- !app_assoc. reflexivity.
      + apply Forall_app. split; [assumption|]. clear -PP. induction PP; cbn [map]; constructor; auto.
  Qed.
End Urls.

(** * Substitution *)

Lemma fill_plain ids a b : no_braces a -> fill ids false (a ++ b) = (a ++ fill ids false b)%string.
Proof.
  induction a as [|c a IH]; intros H; [reflexivity|]. destruct H as (H1 & H2 & H3). cbn [append fill]. destruct (Ascii.eqb_spec c "{"); [contradiction|].
  now rewrite IH.
Qed.

Lemma fill_inside ids a b : no_braces a -> fill ids true (a ++ "}" ++ b) = fill ids false b.
Proof.
  induction a as [|c a IH]; intros H.
  - cbn [append fill]. reflexivity.
  - destruct H as (H1 & H2 & H3). cbn [append fill]. destruct (Ascii.eqb_spec c "}"); [contradiction|]. cbn [negb]. now apply IH.
Qed.

Lemma fill_url l : forall ids, Forall no_braces l -> fill ids false (url l) = url l.
Proof.
  induction l as [|x l IH]; intros ids H; [reflexivity|]. inversion H; subst. cbn [url]. change ("/" ++ x ++ url l)%string with (String "/" (x ++ url l)%string).
  cbn [fill]. change (Ascii.eqb "/" "{") with false. cbv iota. rewrite fill_plain by assumption. now rewrite IH.
Qed.

Lemma no_braces_app a b : no_braces a -> no_braces b -> no_braces (a ++ b).
Proof. induction a as [|c a IH]; intros H K; [assumption|]. destruct H as (H1 & H2 & H3). cbn [append no_braces]. auto. Qed.

Lemma fill_steps path : forall tail ids, Forall (fun st => no_braces (locator_segment (fst st))) path ->
  fill (identifiers path ++ ids)%list false (url (map placeholder (map fst path)) ++ tail) = (url (map step_segment path) ++ fill ids false tail)%string.
Proof.
  induction path as [|[l id] path IH]; intros tail ids H; [reflexivity|]. inversion H as [|? ? H1 H2]; subst. cbn [fst] in H1.
  cbn [map fst url]. unfold placeholder at 1, step_segment at 1, identifiers. cbn [filter fst snd]. destruct (l_variable l) eqn:V.
  - cbn [map snd]. change ("/" ++ ("{" ++ locator_segment l ++ "_id}") ++ url (map placeholder (map fst path)))%string
      with (String "/" (String "{" ((locator_segment l ++ "_id}") ++ url (map placeholder (map fst path)))%string)).
    cbn [append fill app]. change (Ascii.eqb "/" "{") with false. change (Ascii.eqb "{" "{") with true. cbv iota. cbn [hd tl].
    assert (X : (((locator_segment l ++ "_id}") ++ url (map placeholder (map fst path))) ++ tail)%string =
      ((locator_segment l ++ "_id") ++ "}" ++ (url (map placeholder (map fst path)) ++ tail))%string).
    { rewrite !sapp_assoc. reflexivity. }
    rewrite X. rewrite fill_inside by (apply no_braces_app; [assumption|repeat split; discriminate]).
    fold (identifiers path). rewrite IH by assumption. rewrite !sapp_assoc. reflexivity.
  - change ("/" ++ locator_segment l ++ url (map placeholder (map fst path)))%string with (String "/" (locator_segment l ++ url (map placeholder (map fst path)))%string).
    cbn [append fill]. change (Ascii.eqb "/" "{") with false. cbv iota. rewrite sapp_assoc. rewrite fill_plain by assumption. fold (identifiers path). rewrite IH by assumption.
    rewrite !sapp_assoc. reflexivity.
Qed.

Lemma fill_template s v path m : no_braces (service_segment s) -> no_braces (version_segment v) -> no_braces (method_segment m) ->
  Forall (fun st => no_braces (locator_segment (fst st))) path ->
  fill (identifiers path) false (template s v (map fst path) m) =
  url (["api"; service_segment s] ++ version_segment v :: map step_segment path ++ method_segments m)%list.
Proof.
  intros NS NV NM NP. unfold template, resource_segments.
  change (("api" :: service_segment s :: version_segment v :: map placeholder (map fst path)) ++ method_segments m)%list
    with (["api"; service_segment s; version_segment v] ++ (map placeholder (map fst path) ++ method_segments m))%list.
  change (["api"; service_segment s] ++ version_segment v :: map step_segment path ++ method_segments m)%list
    with (["api"; service_segment s; version_segment v] ++ (map step_segment path ++ method_segments m))%list.
  rewrite !url_app. pose proof (fill_steps path (url (method_segments m)) [] NP) as F. rewrite app_nil_r in F.
  assert (K : forall ids l x, Forall no_braces l -> fill ids false (url l ++ x) = (url l ++ fill ids false x)%string).
  { intros ids l x. induction l as [|y l IH]; intros H; [reflexivity|]. inversion H; subst. cbn [url].
    change (("/" ++ y ++ url l) ++ x)%string with (String "/" ((y ++ url l) ++ x)%string). cbn [fill]. change (Ascii.eqb "/" "{") with false. cbv iota.
    rewrite sapp_assoc, fill_plain by assumption. rewrite IH by assumption. cbn [append]. now rewrite sapp_assoc. }
  rewrite K by (repeat constructor; try discriminate; assumption). rewrite F. rewrite (fill_url (method_segments m)).
  - reflexivity.
  - unfold method_segments. destruct (String.eqb (method_segment m) ""); repeat constructor; assumption.
Qed.

Lemma client_urls s v path r m : plain_segment (service_segment s) -> plain_segment (version_segment v) ->
  Forall (fun st => plain_segment (step_segment st)) path -> (method_segment m = "" \/ plain_segment (method_segment m)) ->
  no_braces (service_segment s) -> no_braces (version_segment v) -> no_braces (method_segment m) -> Forall (fun st => no_braces (locator_segment (fst st))) path ->
  leads v (map fst path) r ->
  exists c, locate_all (version_client (url ["api"; service_segment s]) v) path = Some c /\ mget (c_resource c) (v_resources v) = Some r /\
    request_path c m = fill (identifiers path) false (template s v (map fst path) m).
Proof.
  intros PS PV PP PM NS NV NM NP L.
  destruct (client_paths v ["api"; service_segment s] path r m) as (c & C & R & P & _); auto; try discriminate.
  - repeat constructor; try discriminate; try assumption; try (apply PS). all: try (intros [?|?]; try discriminate; cbn in *; intuition discriminate).
  - exists c. split; [assumption|]. split; [assumption|]. rewrite P. symmetry. now apply fill_template.
Qed.
