(** Proofs about the HTTP binding. *)
From Coq Require Import Ascii String Bool Arith ZArith Lia Permutation List.
From Verif Require Import GoStrings GoStringsProofs GoMap GoMapProofs NamesModel NamesSpec NamesProofs
  ConceptsModel ConceptsSpec ConceptsProofs ReporterModel ReaderModel ChecksModel ReaderSpec
  ChecksSpec ChecksProofs ChecksProofs2 BindingModel BindingSpec.
Import ListNotations.
Local Open Scope string_scope.

Lemma filter_subsequence {A} (f : A -> bool) l : subsequence (filter f l) l.
Proof. induction l as [|a l IH]; simpl; [constructor|]. destruct (f a); constructor; assumption. Qed.

Lemma nil_subsequence {A} (l : list A) : subsequence [] l.
Proof. induction l; constructor; assumption. Qed.

Lemma is_action_spec m : is_action m = true <-> action m.
Proof.
  pose proof (method_called m nAdd ["add"] eq_refl) as M1.
  pose proof (method_called m nDelete ["delete"] eq_refl) as M2.
  pose proof (method_called m nAsyncDelete ["async"; "delete"] eq_refl) as M3.
  pose proof (method_called m nGet ["get"] eq_refl) as M4.
  pose proof (method_called m nList ["list"] eq_refl) as M5.
  pose proof (method_called m nPost ["post"] eq_refl) as M6.
  pose proof (method_called m nSearch ["search"] eq_refl) as M7.
  pose proof (method_called m nUpdate ["update"] eq_refl) as M8.
  pose proof (method_called m nAsyncUpdate ["async"; "update"] eq_refl) as M9.
  unfold is_action, is_add, is_delete, is_async_delete, is_get, is_list_method, is_post, is_search,
    is_update, is_async_update, action, known_methods.
  assert (N : forall b (P : Prop), (b = true <-> P) -> forall c, (if b then false else c) = true <-> ~ P /\ c = true).
  { intros [] P H c; [|intuition discriminate]. split; [discriminate|]. intros [H1 _]. exfalso. apply H1, H. reflexivity. }
  rewrite (N _ _ M1), (N _ _ M2), (N _ _ M3), (N _ _ M4), (N _ _ M5), (N _ _ M6), (N _ _ M7), (N _ _ M8), (N _ _ M9).
  split.
  - intros H ws Hin. simpl in Hin. repeat destruct Hin as [<-|Hin]; try contradiction; tauto.
  - intros H. repeat split; try (apply H; simpl; tauto).
Qed.

Lemma scalar_in_spec v p : scalar_in v p = true <-> scalar_param v p.
Proof.
  unfold scalar_in, scalar_param, kind_in, type_at. destruct (mget (p_type p) (v_types v)) as [t|].
  - unfold is_scalar. rewrite !orb_true_iff, !kind_eqb_eq. simpl. split.
    + intros H. exists t. split; [reflexivity|]. intuition congruence.
    + intros (t' & [= <-] & H). intuition congruence.
  - split; [discriminate|]. intros (t & H & _). discriminate.
Qed.

Lemma filter_partition {A} (f g : A -> bool) l :
  Permutation (filter (fun a => f a && g a) l ++ filter (fun a => f a && negb (g a)) l) (filter f l).
Proof.
  induction l as [|a l IH]; simpl; [constructor|]. destruct (f a); simpl; [|assumption].
  destruct (g a); simpl; [now constructor|]. apply Permutation_sym, Permutation_cons_app, Permutation_sym, IH.
Qed.

(** * Parameters *)

Lemma request_split v m :
  let q := request_query_params v m in
  let b := request_body_params v m in
  Permutation (q ++ b) (request_params m) /\
  subsequence q (m_params m) /\ subsequence b (m_params m) /\ subsequence (request_params m) (m_params m) /\
  (forall p, In p (request_params m) <-> In p (m_params m) /\ p_in p = true) /\
  (forall p, In p q <-> In p (m_params m) /\ p_in p = true /\ ~ action m /\ scalar_param v p) /\
  (forall p, In p b <-> In p (m_params m) /\ p_in p = true /\ (action m \/ ~ scalar_param v p)).
Proof.
  cbv zeta. unfold request_query_params, request_body_params, request_params.
  pose proof (is_action_spec m) as A.
  assert (R : forall p, In p (filter p_in (m_params m)) <-> In p (m_params m) /\ p_in p = true) by (intros p; apply filter_In).
  destruct (is_action m).
  - assert (Ha : action m) by now apply A. split; [apply Permutation_refl|].
    split; [apply nil_subsequence|]. split; [apply filter_subsequence|]. split; [apply filter_subsequence|].
    split; [exact R|]. split; intros p.
    + simpl. tauto.
    + rewrite R. tauto.
  - assert (Ha : ~ action m) by (intros H; apply A in H; discriminate).
    split; [apply filter_partition|].
    split; [apply filter_subsequence|]. split; [apply filter_subsequence|]. split; [apply filter_subsequence|].
    split; [exact R|]. split; intros p; rewrite filter_In, andb_true_iff.
    + rewrite scalar_in_spec. tauto.
    + rewrite negb_true_iff, <- not_true_iff_false, scalar_in_spec. tauto.
Qed.

Lemma response_spec' m :
  response_body_params m = response_params m /\ subsequence (response_params m) (m_params m) /\
  (forall p, In p (response_params m) <-> In p (m_params m) /\ p_out p = true) /\
  Permutation (response_params m ++ filter (fun p => negb (p_out p)) (m_params m)) (m_params m).
Proof.
  split; [reflexivity|]. split; [apply filter_subsequence|]. split; [intros p; apply filter_In|].
  pose proof (filter_partition (fun _ => true) p_out (m_params m)) as H. simpl in H.
  eapply Permutation_trans; [exact H|].
  assert (E : forall l : list parameter, filter (fun _ => true) l = l).
  { intros l. induction l as [|a l IH]; [reflexivity|]. simpl. now rewrite IH. }
  rewrite E. apply Permutation_refl.
Qed.

(** * Verbs *)

Lemma verb_rest ws verb status m : In (ws, (verb, status)) rest_verbs -> called ws (m_name m) ->
  http_method m = verb /\ default_status m = status /\ docs_http_method m = verb /\ method_segment m = "".
Proof.
  intros Hin Hc.
  assert (S : method_segment m = "").
  { unfold method_segment. destruct (is_action m) eqn:E; [|reflexivity]. apply is_action_spec in E. exfalso.
    apply (E ws); [|assumption]. simpl in Hin. unfold known_methods. simpl.
    repeat destruct Hin as [[= <- <- <-]|Hin]; try contradiction; tauto. }
  unfold http_method, default_status, docs_http_method. cbv zeta.
  assert (G : forall n ws', n_words n = map (fun s => MkWord s false) ws' ->
    name_equals (Some (m_name m)) (Some n) = if list_eq_dec String.string_dec ws' ws then true else false).
  { intros n ws' Hn. destruct (list_eq_dec String.string_dec ws' ws) as [->|Hne].
    - now apply (method_called m n ws Hn).
    - now apply (is_not m n ws' ws). }
  rewrite (G nAdd ["add"] eq_refl), (G nDelete ["delete"] eq_refl), (G nAsyncDelete ["async"; "delete"] eq_refl),
    (G nGet ["get"] eq_refl), (G nList ["list"] eq_refl), (G nPost ["post"] eq_refl),
    (G nUpdate ["update"] eq_refl), (G nAsyncUpdate ["async"; "update"] eq_refl).
  simpl in Hin. repeat destruct Hin as [[= <- <- <-]|Hin]; try contradiction; (split; [|split; [|split; [|assumption]]]); reflexivity.
Qed.

Lemma verb_action m : action m ->
  http_method m = "POST" /\ default_status m = "200" /\ docs_http_method m = "POST".
Proof.
  intros Ha. unfold http_method, default_status, docs_http_method. cbv zeta.
  assert (G : forall n ws, n_words n = map (fun s => MkWord s false) ws -> In ws known_methods ->
    name_equals (Some (m_name m)) (Some n) = false).
  { intros n ws Hn Hin. apply not_true_iff_false. intros E. apply (method_called m n ws Hn) in E. exact (Ha ws Hin E). }
  rewrite (G nAdd ["add"]), (G nDelete ["delete"]), (G nAsyncDelete ["async"; "delete"]),
    (G nGet ["get"]), (G nList ["list"]), (G nPost ["post"]),
    (G nUpdate ["update"]), (G nAsyncUpdate ["async"; "update"]); simpl; auto 12.
Qed.

Lemma action_dec m : action m \/ exists ws verb status, In (ws, (verb, status)) rest_verbs /\ called ws (m_name m).
Proof.
  destruct (is_action m) eqn:E; [left; now apply is_action_spec|]. right.
  unfold is_action, is_add, is_delete, is_async_delete, is_get, is_list_method, is_post, is_search,
    is_update, is_async_update in E.
  Ltac pick m n ws := 
    destruct (name_equals (Some (m_name m)) (Some n)) eqn:?;
      [exists ws; eexists _, _; split; [simpl; intuition reflexivity|now apply (method_called m n ws eq_refl)]|].
  pick m nAdd ["add"]. pick m nDelete ["delete"]. pick m nAsyncDelete ["async"; "delete"]. pick m nGet ["get"].
  pick m nList ["list"]. pick m nPost ["post"]. pick m nSearch ["search"]. pick m nUpdate ["update"].
  pick m nAsyncUpdate ["async"; "update"]. discriminate.
Qed.

Lemma docs_agree m : docs_http_method m = http_method m.
Proof.
  destruct (action_dec m) as [H|(ws & verb & status & Hin & Hc)].
  - destruct (verb_action m H) as (-> & _ & ->). reflexivity.
  - destruct (verb_rest _ _ _ m Hin Hc) as (-> & _ & -> & _). reflexivity.
Qed.

(** * Names *)

Lemma gives_spec ans a p l : gives ans a p l <->
  exists x, get_annotation a ans = Some x /\ mget p (an_params x) = Some l.
Proof.
  unfold gives, get_annotation. split.
  - intros (l1 & x & l2 & -> & Ex & Hl1 & Hp). exists x. split; [|assumption].
    induction l1 as [|y l1 IH]; cbn [find app].
    + rewrite Ex, String.eqb_refl. reflexivity.
    + inversion Hl1 as [|? ? Hy Hl1']; subst. destruct (String.eqb_spec (an_name y) (an_name x)); [contradiction|]. auto.
  - intros (x & Hx & Hp). induction ans as [|y ans IH]; [discriminate|]. cbn [find] in Hx.
    destruct (String.eqb_spec (an_name y) a) as [E|E].
    + injection Hx as <-. exists [], y, ans. auto.
    + destruct (IH Hx) as (l1 & x' & l2 & -> & H1 & H2 & H3). exists (y :: l1), x', l2. auto.
Qed.

Lemma text_renamed ans a s : renamed ans a s -> annotation_text a "name" ans = s /\ s <> "".
Proof.
  intros [H Hne]. apply gives_spec in H as (x & H1 & H2). unfold annotation_text. rewrite H1, H2. auto.
Qed.

Lemma text_not_renamed ans a : not_renamed ans a -> annotation_text a "name" ans = "".
Proof.
  intros H. unfold annotation_text. destruct (get_annotation a ans) as [x|] eqn:E; [|reflexivity].
  destruct (mget "name" (an_params x)) as [l|] eqn:El; [|reflexivity].
  rewrite (H l); [reflexivity|]. apply gives_spec. eauto.
Qed.

Lemma name_or_spec ans a n s :
  (renamed ans a s -> name_or (annotation_text a "name" ans) n = s) /\
  (not_renamed ans a -> name_or (annotation_text a "name" ans) n = snake n).
Proof.
  split.
  - intros H. apply text_renamed in H as [-> H]. unfold name_or. destruct (String.eqb_spec s ""); [contradiction|reflexivity].
  - intros H. rewrite (text_not_renamed _ _ H). reflexivity.
Qed.

Lemma query_name_spec p s :
  (renamed (p_annots p) "http" s -> query_parameter_name p = s) /\
  (not_renamed (p_annots p) "http" -> renamed (p_annots p) "json" s -> query_parameter_name p = s) /\
  (not_renamed (p_annots p) "http" -> not_renamed (p_annots p) "json" -> query_parameter_name p = snake (p_name p)).
Proof.
  unfold query_parameter_name. cbv zeta. split; [|split].
  - intros H. apply text_renamed in H as [E H]. unfold http_name. rewrite E.
    destruct (String.eqb_spec s ""); [contradiction|reflexivity].
  - intros H1 H2. unfold http_name. rewrite (text_not_renamed _ _ H1). simpl. now apply name_or_spec.
  - intros H1 H2. unfold http_name. rewrite (text_not_renamed _ _ H1). simpl. exact (proj2 (name_or_spec _ "json" _ "") H2).
Qed.

Lemma segment_spec m s :
  (~ action m -> method_segment m = "") /\
  (action m -> renamed (m_annots m) "http" s -> method_segment m = s) /\
  (action m -> not_renamed (m_annots m) "http" -> method_segment m = snake (m_name m)).
Proof.
  unfold method_segment. pose proof (is_action_spec m) as A. destruct (is_action m).
  - assert (action m) by now apply A. split; [contradiction|]. split; intros _ H'; [now apply name_or_spec|exact (proj2 (name_or_spec _ "http" _ "") H')].
  - split; [reflexivity|]. split; intros H'; apply A in H'; discriminate.
Qed.

Lemma verb_groups' m1 m2 : ~ action m1 -> ~ action m2 -> http_method m1 = http_method m2 ->
  exists g ws1 ws2, In g verb_groups /\ In ws1 g /\ In ws2 g /\ called ws1 (m_name m1) /\ called ws2 (m_name m2).
Proof.
  intros H1 H2 E.
  destruct (action_dec m1) as [|(ws1 & verb1 & status1 & Hin1 & Hc1)]; [contradiction|].
  destruct (action_dec m2) as [|(ws2 & verb2 & status2 & Hin2 & Hc2)]; [contradiction|].
  destruct (verb_rest _ _ _ m1 Hin1 Hc1) as (E1 & _). destruct (verb_rest _ _ _ m2 Hin2 Hc2) as (E2 & _).
  rewrite E1, E2 in E. clear E1 E2. subst verb2.
  assert (G : exists g, In g verb_groups /\ In ws1 g /\ In ws2 g).
  { simpl in Hin1, Hin2.
    repeat destruct Hin1 as [[= <- <- <-]|Hin1]; try contradiction;
      repeat destruct Hin2 as [[= <- <-]|Hin2]; try contradiction.
    all: first
      [ exists [["add"]; ["post"]; ["search"]]; simpl; now auto 10
      | exists [["get"]; ["list"]]; simpl; now auto 10
      | exists [["update"]; ["async"; "update"]]; simpl; now auto 10
      | exists [["delete"]; ["async"; "delete"]]; simpl; now auto 10 ]. }
  destruct G as (g & G1 & G2 & G3). exists g, ws1, ws2. auto.
Qed.
