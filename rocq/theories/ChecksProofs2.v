(** Proofs about the checks: methods of the models that are returned, warnings, messages. *)
From Coq Require Import Ascii String Bool Arith ZArith Lia Permutation List.
From Verif Require Import GoStrings GoStringsProofs GoMap GoMapProofs NamesModel NamesSpec NamesProofs
  ConceptsModel ConceptsSpec ConceptsProofs ReporterModel ReaderModel ChecksModel ReaderSpec ReaderProofs
  ReaderProofs4 ReaderProofs5 ReaderProofs6 ReaderProofs7 ChecksSpec ChecksProofs.
Import ListNotations.
Local Open Scope string_scope.

(** * All the parameters have directions *)

Definition directed_resource (r : resource) : Prop := forall m, In m (r_methods r) -> directed (m_params m).
Definition directed_version (v : version) : Prop :=
  forall k r, resource_at k v = Some r -> directed_resource r.

Lemma directed_method d : directed (m_params (meth_of d)).
Proof.
  destruct (meth_contents d) as (_ & _ & _ & ps & F & P). apply Forall_forall. intros p Hp.
  eapply Permutation_in in Hp; [|apply Permutation_sym, P]. clear P.
  induction F as [|x y l l' Hxy F IH]; [contradiction|]. destruct Hp as [<-|Hp]; [|auto].
  destruct Hxy as (_ & _ & Hi & Ho & _). rewrite Hi, Ho. unfold declared_in, declared_out.
  destruct (pd_directions x) as [|[|] ds]; simpl; auto.
Qed.

Lemma directed_fill doc ans ms : forall r, directed_resource r ->
  directed_resource (fill_resource doc ans (map rmember_of ms) r).
Proof.
  intros r Hr. unfold fill_resource. set (b := MkResource _ _ _ _ _).
  assert (Hb : directed_resource b) by exact Hr. clearbody b. clear Hr r.
  revert b Hb. induction ms as [|m ms IH]; intros b Hb; [assumption|]. cbn [map fold_left]. apply IH.
  destruct m as [x|x]; cbn [rmember_of].
  - intros y Hy. cbn [add_method r_methods] in Hy. apply sort_in in Hy.
    apply in_app_iff in Hy as [Hy|[<-|[]]]; [auto|apply directed_method].
  - exact Hb.
Qed.

Lemma directed_new n : directed_resource (new_resource n).
Proof. intros m []. Qed.

Lemma directed_evs fs : Forall (ev_stored (fun _ _ => True) (fun _ r => directed_resource r)) (all_evs fs).
Proof.
  assert (R : forall l, report_only l -> Forall (ev_stored (fun _ _ => True) (fun _ r => directed_resource r)) l).
  { intros l. apply report_only_stored. }
  assert (A : forall l, Forall (ev_stored (fun _ _ => True) (fun _ r => directed_resource r)) (annots_evs l)).
  { intros l. apply R, annots_report_only. }
  assert (T : forall r, Forall (ev_stored (fun _ _ => True) (fun _ r => directed_resource r)) (ref_evs r)).
  { intros []; repeat constructor. }
  assert (M : forall ms, Forall (ev_stored (fun _ _ => True) (fun _ r => directed_resource r)) (flat_map member_evs ms)).
  { intros ms. apply flat_forall. intros m _. apply Forall_app. auto. }
  apply flat_forall. intros f _. constructor; [exact I|]. apply flat_forall. intros d _.
  destruct d as [ans n vs doc|ans n ms doc|ans n ms doc|ans n codes doc|ans n ms doc];
    cbn [decl_evs]; apply Forall_app; (split; [apply A|]); apply Forall_app; split; auto.
  - apply flat_forall. intros v _. apply A.
  - constructor; [|constructor]. simpl. auto.
  - constructor; [|constructor]. simpl. auto.
  - constructor; [|constructor]. simpl. auto.
  - apply flat_forall. intros c _. apply R, code_report_only.
  - repeat constructor.
  - apply flat_forall. intros m _. destruct m as [x|x]; cbn [rmember_evs].
    + apply Forall_app. split; [apply A|]. apply flat_forall. intros p _.
      apply Forall_app. split; [apply A|]. apply Forall_app. split; [apply T|].
      destruct (pd_default p); [apply R, literal_report_only|constructor].
    + apply Forall_app. split; [apply A|]. apply Forall_app. split.
      * apply flat_forall. intros y _. destruct y; constructor; [|constructor]. apply directed_new.
      * destruct (l_target (loc_of x)); repeat constructor.
  - constructor; [|constructor]. simpl. intros r _ [->|Hr]; apply directed_fill; auto using directed_new.
Qed.

Lemma directed_loaded inputs rs :
  let g := load_inputs inputs rs in
  mod_ok (fun _ v => start_ok v /\ directed_version v) (g_reports g) (g_model g).
Proof.
  apply load_inputs_ok.
  - intros rs' n. split; [apply new_version_wf|]. intros k r H. discriminate.
  - auto.
  - intros fs v u ur r [H1 H2]. cbv zeta. rewrite load_files_run. fold (all_evs fs). split.
    + apply run_indexed; auto using all_ok.
    + destruct (stored_run (fun _ _ => True) (fun _ r => directed_resource r) (all_evs fs) (MkRState v u ur r))
        as [_ S]; auto using all_ok, directed_evs. now split.
Qed.

Lemma directed_returned inputs rs0 m rs s v :
  read inputs rs0 = Done (ROk m, rs) -> in_model m s -> in_service s v -> directed_version v.
Proof.
  intros E Hs Hv. apply read_spec in E. cbv zeta in E. destruct E as (cs & _ & Ers & Er).
  destruct (decide_spec (ensure_model_lists (g_model (load_inputs inputs rs0))) rs) as [D1 _].
  symmetry in Er. apply D1 in Er as [_ ->].
  destruct (returned_version _ _ _ _ Hs Hv) as (s0 & v0 & Hs0 & Hv0 & -> & _ & Hok & _).
  destruct (directed_loaded inputs rs0) as [_ D]. destruct (D s0 Hs0) as [_ Dv]. destruct (Dv v0 Hv0) as [_ Hd].
  intros k r. unfold resource_at. destruct (ensure_lists_spec v0 (proj1 Hok)) as (_ & Er' & _). cbv zeta in Er'.
  rewrite Er'. apply Hd.
Qed.

(** * Methods of the models that are returned *)

Lemma in_resources v k r : resource_at k v = Some r -> In r (resources v).
Proof.
  intros H. unfold resources. apply sort_in. apply mget_in in H. unfold mvals.
  apply in_map_iff. exists (k, r). auto.
Qed.

Lemma checked_methods sn v x k r m : check_version sn v = Done x -> resource_at k v = Some r -> In m (r_methods r) ->
  incl (check_method (MkScope sn v (r_name r) (m_name m)) m) x.
Proof.
  intros E Hr Hm. unfold check_version in E. cbv zeta in E.
  destruct (check_locator_loops (loop_fuel v) sn v) as [l| |]; try discriminate. injection E as <-.
  apply incl_appl. cbn [concat]. apply incl_appr, incl_appl.
  intros y Hy. apply in_flat_map. exists r. split; [now apply in_resources in Hr|].
  unfold check_resource. apply in_flat_map. eauto.
Qed.

Lemma returned_methods inputs rs0 m rs s v k r x :
  read inputs rs0 = Done (ROk m, rs) -> in_model m s -> in_service s v ->
  resource_at k v = Some r -> In x (r_methods r) -> directed (m_params x) /\ accepted_method v x.
Proof.
  intros E Hs Hv Hr Hx. pose proof (directed_returned _ _ _ _ _ _ E Hs Hv k r Hr x Hx) as Hd.
  split; [assumption|].
  destruct (returned_model_sound _ _ _ _ _ _ E Hs Hv) as (Hn & _).
  apply read_spec in E. cbv zeta in E. destruct E as (cs & Ec & Ers & Er).
  destruct (decide_spec (ensure_model_lists (g_model (load_inputs inputs rs0))) rs) as [D1 _].
  symmetry in Er. apply D1 in Er as [_ ->].
  destruct (checked_version _ _ _ _ Ec Hs Hv) as (y & Ey & Hy).
  apply (check_method_spec (MkScope (s_name s) v (r_name r) (m_name x)) x Hd).
  intros msg Hmsg. apply (Hn msg). rewrite Ers. apply in_app_iff. right. apply in_app_iff. right. apply Hy.
  eapply checked_methods; eauto.
Qed.

(** * Warnings *)

Lemma each_no_warn l bad msg w : ~ In (warn w) (each l bad msg).
Proof.
  unfold each. intros H. apply in_flat_map in H as (p & _ & H). destruct (bad p); [|contradiction].
  destruct H as [H|[]]. discriminate.
Qed.

Lemma unless_no_warn {A} (l : list A) msg w : ~ In (warn w) (unless_one l msg).
Proof. unfold unless_one. destruct (Nat.eqb (List.length l) 1); [intros []|]. intros [H|[]]. discriminate. Qed.

Lemma param_no_warn sc p w : ~ In (warn w) (check_parameter sc p).
Proof.
  unfold check_parameter. destruct (p_default p); [|intros []]. cbv zeta.
  match goal with |- context [if ?b then _ else _] => destruct b end; [intros []|]. intros [H|[]]. discriminate.
Qed.

Lemma get_none n ws m : n_words n = map (fun s => MkWord s false) ws -> (get_parameter n m = None <-> lacks ws m).
Proof.
  intros Hn. unfold get_parameter, lacks. split.
  - intros E (p & Hp & Hc). apply (find_none _ _ E) in Hp. rewrite <- not_true_iff_false, name_equals_words, Hn in Hp.
    now apply Hp.
  - intros H. destruct (find _ _) as [p|] eqn:E; [|reflexivity]. exfalso. apply find_some in E as [Hp E].
    rewrite name_equals_words, Hn in E. apply H. exists p. auto.
Qed.

Lemma request_warn sc m n d w : In (warn w) (check_request_parameter sc m n d) <->
  get_parameter n m = None /\ w = "Method '" ++ method_fqn sc ++ "' doesn't have a '" ++ camel n ++ "' parameter".
Proof.
  unfold check_request_parameter. destruct (get_parameter n m) as [p|].
  - split; [|intros [H _]; discriminate]. intros H. exfalso. cbn [concat] in H.
    repeat (apply in_app_iff in H as [H|H]; [now apply each_no_warn in H|]). contradiction.
  - simpl. split; [intros [[= <-]|[]]; auto|]. intros [_ ->]. auto.
Qed.

Lemma response_warn sc m n w : In (warn w) (check_response_parameter sc m n) <->
  get_parameter n m = None /\ w = "Method '" ++ method_fqn sc ++ "' doesn't have a '" ++ camel n ++ "' parameter".
Proof.
  unfold check_response_parameter. destruct (get_parameter n m) as [p|].
  - split; [|intros [H _]; discriminate]. intros H. exfalso. cbn [concat] in H.
    repeat (apply in_app_iff in H as [H|H]; [now apply each_no_warn in H|]). contradiction.
  - simpl. split; [intros [[= <-]|[]]; auto|]. intros [_ ->]. auto.
Qed.

Definition lacks_warning (sc : scope) (m : method) (w : string) : Prop :=
  exists ws n, In (ws, n) [(["page"], "Page"); (["size"], "Size"); (["total"], "Total")] /\ lacks ws m /\
    w = "Method '" ++ method_fqn sc ++ "' doesn't have a '" ++ n ++ "' parameter".

Lemma paging_warn sc m w : In (warn w) (check_paging sc m) <-> lacks_warning sc m w.
Proof.
  unfold check_paging. cbn [concat]. rewrite !in_app_iff, request_warn, request_warn, response_warn.
  rewrite (get_none nPage ["page"] m eq_refl), (get_none nSize ["size"] m eq_refl), (get_none nTotal ["total"] m eq_refl).
  change (camel nPage) with "Page". change (camel nSize) with "Size". change (camel nTotal) with "Total".
  assert (L : lacks_warning sc m w <->
    (lacks ["page"] m /\ w = "Method '" ++ method_fqn sc ++ "' doesn't have a 'Page' parameter") \/
    (lacks ["size"] m /\ w = "Method '" ++ method_fqn sc ++ "' doesn't have a 'Size' parameter") \/
    (lacks ["total"] m /\ w = "Method '" ++ method_fqn sc ++ "' doesn't have a 'Total' parameter")).
  { unfold lacks_warning. split.
    - intros (ws & n & Hin & Hl & ->). destruct Hin as [[= <- <-]|[[= <- <-]|[[= <- <-]|[]]]]; auto.
    - intros [[H ->]|[[H ->]|[H ->]]];
        [exists ["page"], "Page"|exists ["size"], "Size"|exists ["total"], "Total"];
        (split; [simpl; auto|split; [exact H|reflexivity]]). }
  rewrite L. split; [|tauto].
  intros [H|[H|[H|[H|[H|[H|[H|H]]]]]]]; try tauto.
  - now apply unless_no_warn in H.
  - unfold check_items in H. destruct (get_parameter nItems m); [contradiction|]. destruct H as [H|[]]. discriminate.
  - now apply each_no_warn in H.
  - now apply each_no_warn in H.
  - contradiction.
Qed.

Ltac no_warn H :=
  cbn [concat] in H; rewrite ?in_app_iff in H;
  repeat match type of H with
  | _ \/ _ => destruct H as [H|H]
  end;
  try (now apply each_no_warn in H); try (now apply unless_no_warn in H); try contradiction.

Lemma method_warnings sc m w : In (warn w) (check_method sc m) <->
  (called ["list"] (m_name m) \/ called ["search"] (m_name m)) /\ lacks_warning sc m w.
Proof.
  unfold check_method. cbn [concat]. rewrite !in_app_iff.
  assert (P : ~ In (warn w) (flat_map (check_parameter sc) (m_params m))).
  { intros H. apply in_flat_map in H as (p & _ & H). now apply param_no_warn in H. }
  pose proof (method_called m nAdd ["add"] eq_refl) as M1.
  pose proof (method_called m nDelete ["delete"] eq_refl) as M2.
  pose proof (method_called m nAsyncDelete ["async"; "delete"] eq_refl) as M3.
  pose proof (method_called m nGet ["get"] eq_refl) as M4.
  pose proof (method_called m nList ["list"] eq_refl) as M5.
  pose proof (method_called m nPost ["post"] eq_refl) as M6.
  pose proof (method_called m nSearch ["search"] eq_refl) as M7.
  assert (U : forall ws ws', called ws (m_name m) -> called ws' (m_name m) -> ws = ws').
  { intros ws ws' H H'. exact (called_unique _ _ _ H H'). }
  assert (X : forall ws, ws <> ["list"] -> ws <> ["search"] -> called ws (m_name m) ->
    ~ (called ["list"] (m_name m) \/ called ["search"] (m_name m))).
  { intros ws H1 H2 Hc [H|H]; [apply H1|apply H2]; eauto. }
  unfold is_add, is_delete, is_async_delete, is_get, is_list_method, is_post, is_search in *.
  destruct (name_equals (Some (m_name m)) (Some nAdd)).
  { assert (N := X ["add"] ltac:(discriminate) ltac:(discriminate) (proj1 M1 eq_refl)).
    split; [|tauto]. intros [H|[H|H]]; try tauto; [|contradiction]. exfalso. unfold check_add in H. no_warn H. }
  destruct (name_equals (Some (m_name m)) (Some nDelete)) eqn:E2; [|destruct (name_equals (Some (m_name m)) (Some nAsyncDelete)) eqn:E3].
  { assert (N := X ["delete"] ltac:(discriminate) ltac:(discriminate) (proj1 M2 eq_refl)).
    split; [|tauto]. intros [H|[H|H]]; try tauto; [|contradiction]. exfalso. simpl orb in H. cbv iota in H. unfold check_delete in H. no_warn H. }
  { assert (N := X ["async"; "delete"] ltac:(discriminate) ltac:(discriminate) (proj1 M3 eq_refl)).
    split; [|tauto]. intros [H|[H|H]]; try tauto; [|contradiction]. exfalso. simpl orb in H. cbv iota in H. unfold check_delete in H. no_warn H. }
  simpl orb.
  destruct (name_equals (Some (m_name m)) (Some nGet)).
  { assert (N := X ["get"] ltac:(discriminate) ltac:(discriminate) (proj1 M4 eq_refl)).
    split; [|tauto]. intros [H|[H|H]]; try tauto; [|contradiction]. exfalso. unfold check_get in H. no_warn H. }
  destruct (name_equals (Some (m_name m)) (Some nList)).
  { pose proof (proj1 M5 eq_refl). unfold check_list. cbn [concat]. rewrite !in_app_iff, paging_warn.
    pose proof (each_no_warn (m_params m) (fun p => negb (p_scalar sc p) && negb (p_list sc p))
     (fun p => "Type of parameter '" ++ param_fqn sc p ++ "' should be scalar or list but it is '" ++
               kind_string (t_kind (param_type sc p)) ++ "'") w). simpl. tauto. }
  destruct (name_equals (Some (m_name m)) (Some nPost)).
  { assert (N := X ["post"] ltac:(discriminate) ltac:(discriminate) (proj1 M6 eq_refl)).
    split; [|tauto]. intros [H|[H|H]]; try tauto; [|contradiction]. exfalso. unfold check_post in H. no_warn H.
    destruct (Nat.ltb 1 (List.length (filter p_in (m_params m)))); [|contradiction]. destruct H as [H|[]]. discriminate. }
  destruct (name_equals (Some (m_name m)) (Some nSearch)).
  { pose proof (proj1 M7 eq_refl).
    split; [|intros [_ H']; left; unfold check_search; cbn [concat]; rewrite !in_app_iff, paging_warn; tauto].
    intros [H'|[H'|H']]; try tauto; [|contradiction]. split; [tauto|].
    unfold check_search in H'. cbn [concat] in H'. rewrite !in_app_iff, paging_warn in H'.
    destruct H' as [H'|[H'|[H'|[H'|[H'|H']]]]]; auto; exfalso.
    - now apply each_no_warn in H'.
    - now apply each_no_warn in H'.
    - now apply unless_no_warn in H'.
    - apply in_flat_map in H' as (p & _ & H'). no_warn H'.
    - contradiction. }
  split; [|intros [[H|H] _]; [apply M5 in H|apply M7 in H]; discriminate].
  intros [H|[H|H]]; try contradiction. exfalso.
  destruct (is_update m || is_async_update m).
  { unfold check_update in H. no_warn H. }
  destruct (is_action m); [contradiction|]. destruct H as [H|[]]. discriminate.
Qed.

(** * Messages *)

Lemma mentions_app a s b : mentions s (a ++ s ++ b).
Proof. exists a, b. reflexivity. Qed.

(** Every report names the method or one of its parameters. *)
Definition named_in (sc : scope) (m : method) (msg : string) : Prop :=
  mentions (method_fqn sc) msg \/ exists p, In p (m_params m) /\ mentions (param_fqn sc p) msg.

Lemma each_named sc m l bad msg r : incl l (m_params m) ->
  (forall p, mentions (method_fqn sc) (msg p) \/ mentions (param_fqn sc p) (msg p)) ->
  In r (each l bad msg) -> named_in sc m (rp_message r).
Proof.
  intros Hl Hm H. unfold each in H. apply in_flat_map in H as (p & Hp & H). destruct (bad p); [|contradiction].
  destruct H as [<-|[]]. simpl. destruct (Hm p); [left; assumption|right; eauto].
Qed.

Lemma unless_named {A} sc m (l : list A) msg r : mentions (method_fqn sc) msg ->
  In r (unless_one l msg) -> named_in sc m (rp_message r).
Proof.
  intros Hm H. unfold unless_one in H. destruct (Nat.eqb (List.length l) 1); [contradiction|].
  destruct H as [<-|[]]. left. exact Hm.
Qed.

Lemma get_in n m p : get_parameter n m = Some p -> In p (m_params m).
Proof. apply find_some. Qed.

Ltac name_it H :=
  cbn [concat] in H; rewrite ?in_app_iff in H;
  repeat match type of H with _ \/ _ => destruct H as [H|H] end;
  try contradiction;
  first [ eapply each_named in H; [exact H| |];
          [ first [ apply incl_refl | apply incl_filter ]
          | intros ?; first [ left; apply mentions_app | right; apply mentions_app ] ]
        | eapply unless_named in H; [exact H|apply mentions_app]
        | idtac ].

Lemma request_named sc m n d r : In r (check_request_parameter sc m n d) -> named_in sc m (rp_message r).
Proof.
  unfold check_request_parameter. destruct (get_parameter n m) as [p|] eqn:E.
  - apply get_in in E. assert (I : incl [p] (m_params m)) by (intros x [<-|[]]; exact E).
    intros H. cbn [concat] in H. rewrite !in_app_iff in H. destruct H as [H|[H|[H|H]]]; [| | |contradiction];
      (eapply each_named in H; [exact H|exact I|]; intros ?; right; apply mentions_app).
  - intros [<-|[]]. left. apply mentions_app.
Qed.

Lemma response_named sc m n r : In r (check_response_parameter sc m n) -> named_in sc m (rp_message r).
Proof.
  unfold check_response_parameter. destruct (get_parameter n m) as [p|] eqn:E.
  - apply get_in in E. assert (I : incl [p] (m_params m)) by (intros x [<-|[]]; exact E).
    intros H. cbn [concat] in H. rewrite !in_app_iff in H. destruct H as [H|[H|H]]; [| |contradiction];
      (eapply each_named in H; [exact H|exact I|]; intros ?; right; apply mentions_app).
  - intros [<-|[]]. left. apply mentions_app.
Qed.

Lemma paging_named sc m r : In r (check_paging sc m) -> named_in sc m (rp_message r).
Proof.
  unfold check_paging. intros H. name_it H.
  - now apply request_named in H.
  - now apply request_named in H.
  - now apply response_named in H.
  - unfold check_items in H. destruct (get_parameter nItems m); [contradiction|]. destruct H as [<-|[]].
    left. apply mentions_app.
Qed.

Lemma method_reports_named sc m r : In r (check_method sc m) -> named_in sc m (rp_message r).
Proof.
  unfold check_method. cbn [concat]. rewrite !in_app_iff. intros [H|[H|H]]; [| |contradiction].
  2:{ apply in_flat_map in H as (p & Hp & H). unfold check_parameter in H.
      destruct (p_default p); [|contradiction]. cbv zeta in H.
      match type of H with context [if ?b then _ else _] => destruct b end; [contradiction|].
      destruct H as [<-|[]]. right. exists p. split; [assumption|]. apply mentions_app. }
  destruct (is_add m). { unfold check_add in H. name_it H. }
  destruct (is_delete m || is_async_delete m). { unfold check_delete in H. name_it H. }
  destruct (is_get m). { unfold check_get in H. name_it H. }
  destruct (is_list_method m). { unfold check_list in H. name_it H. now apply paging_named in H. }
  destruct (is_post m).
  { unfold check_post in H. name_it H.
    destruct (Nat.ltb 1 (List.length (filter p_in (m_params m)))); [|contradiction]. destruct H as [<-|[]].
    left. apply mentions_app. }
  destruct (is_search m).
  { unfold check_search in H. name_it H; [now apply paging_named in H|].
    apply in_flat_map in H as (p & Hp & H). apply filter_In in Hp as [Hp _].
    assert (I : incl [p] (m_params m)) by (intros x [<-|[]]; exact Hp).
    cbn [concat] in H. rewrite !in_app_iff in H. destruct H as [H|[H|H]]; [| |contradiction];
      (eapply each_named in H; [exact H|exact I|]; intros ?; right; apply mentions_app). }
  destruct (is_update m || is_async_update m). { unfold check_update in H. name_it H. }
  destruct (is_action m); [contradiction|]. destruct H as [<-|[]]. left. apply mentions_app.
Qed.

(** * Each category *)

Lemma is_not m n ws ws' : called ws' (m_name m) -> n_words n = map (fun s => MkWord s false) ws -> ws <> ws' ->
  name_equals (Some (m_name m)) (Some n) = false.
Proof.
  intros Hc Hn Hne. apply not_true_iff_false. intros E. apply (method_called m n ws Hn) in E. apply Hne.
  exact (called_unique _ _ _ E Hc).
Qed.

Lemma is_that m n ws : called ws (m_name m) -> n_words n = map (fun s => MkWord s false) ws ->
  name_equals (Some (m_name m)) (Some n) = true.
Proof. intros Hc Hn. now apply (method_called m n ws Hn). Qed.

Ltac other Hc n ws := rewrite (is_not _ n ws _ Hc eq_refl) by discriminate; cbn [orb].
Ltac this Hc n ws := rewrite (is_that _ n ws Hc eq_refl); cbn [orb].
Ltac not_add Hc := other Hc nAdd ["add"].
Ltac not_delete Hc := other Hc nDelete ["delete"].
Ltac not_async_delete Hc := other Hc nAsyncDelete ["async"; "delete"].
Ltac not_get Hc := other Hc nGet ["get"].
Ltac not_list Hc := other Hc nList ["list"].
Ltac not_post Hc := other Hc nPost ["post"].
Ltac not_search Hc := other Hc nSearch ["search"].
Ltac not_update Hc := other Hc nUpdate ["update"].

Ltac category :=
  unfold check_method, is_add, is_delete, is_async_delete, is_get, is_list_method, is_post, is_search,
    is_update, is_async_update.

Lemma split_defaults sc m c (A : Prop) : (no_errors c <-> A) ->
  (no_errors (concat [c; flat_map (check_parameter sc) (m_params m)]) <-> A /\ Forall default_ok (m_params m)).
Proof.
  intros H. rewrite no_errors_concat, !Forall_cons_iff, no_errors_flat_map, H.
  assert (D : Forall (fun p => no_errors (check_parameter sc p)) (m_params m) <-> Forall default_ok (m_params m)).
  { split; apply Forall_impl; intros p; apply check_parameter_spec. }
  assert (Forall no_errors []) by constructor. tauto.
Qed.

Lemma add_category sc m : called ["add"] (m_name m) ->
  (no_errors (check_method sc m) <-> accepted_add (sc_version sc) (m_params m) /\ Forall default_ok (m_params m)).
Proof. intros Hc. category. this Hc nAdd ["add"]. apply split_defaults, check_add_spec. Qed.

Lemma delete_category sc m : called ["delete"] (m_name m) \/ called ["async"; "delete"] (m_name m) ->
  (no_errors (check_method sc m) <-> accepted_delete (sc_version sc) (m_params m) /\ Forall default_ok (m_params m)).
Proof.
  intros [Hc|Hc]; category; not_add Hc.
  - this Hc nDelete ["delete"]. apply split_defaults, check_delete_spec.
  - not_delete Hc. this Hc nAsyncDelete ["async"; "delete"]. apply split_defaults, check_delete_spec.
Qed.

Lemma get_category sc m : called ["get"] (m_name m) ->
  (no_errors (check_method sc m) <-> accepted_get (sc_version sc) (m_params m) /\ Forall default_ok (m_params m)).
Proof. intros Hc. category. not_add Hc. not_delete Hc. not_async_delete Hc. this Hc nGet ["get"]. apply split_defaults, check_get_spec. Qed.

Lemma list_category sc m : called ["list"] (m_name m) ->
  (no_errors (check_method sc m) <-> accepted_list (sc_version sc) (m_params m) /\ Forall default_ok (m_params m)).
Proof. intros Hc. category. not_add Hc. not_delete Hc. not_async_delete Hc. not_get Hc. this Hc nList ["list"]. apply split_defaults, check_list_spec. Qed.

Lemma post_category sc m : called ["post"] (m_name m) ->
  (no_errors (check_method sc m) <-> accepted_post (sc_version sc) (m_params m) /\ Forall default_ok (m_params m)).
Proof. intros Hc. category. not_add Hc. not_delete Hc. not_async_delete Hc. not_get Hc. not_list Hc. this Hc nPost ["post"]. apply split_defaults, check_post_spec. Qed.

Lemma search_category sc m : called ["search"] (m_name m) -> directed (m_params m) ->
  (no_errors (check_method sc m) <-> accepted_search (sc_version sc) (m_params m) /\ Forall default_ok (m_params m)).
Proof. intros Hc Hd. category. not_add Hc. not_delete Hc. not_async_delete Hc. not_get Hc. not_list Hc. not_post Hc. this Hc nSearch ["search"]. apply split_defaults, check_search_spec, Hd. Qed.

Lemma update_category sc m : called ["update"] (m_name m) \/ called ["async"; "update"] (m_name m) ->
  (no_errors (check_method sc m) <-> accepted_update (sc_version sc) (m_params m) /\ Forall default_ok (m_params m)).
Proof.
  intros [Hc|Hc]; category; not_add Hc; not_delete Hc; not_async_delete Hc; not_get Hc; not_list Hc; not_post Hc; not_search Hc.
  - this Hc nUpdate ["update"]. apply split_defaults, check_update_spec.
  - not_update Hc. this Hc nAsyncUpdate ["async"; "update"]. apply split_defaults, check_update_spec.
Qed.

Lemma action_category sc m : ~ In (map w_text (n_words (m_name m))) known_methods ->
  (no_errors (check_method sc m) <-> Forall default_ok (m_params m)).
Proof.
  intros Hn. unfold check_method. assert (K : forall n ws, n_words n = map (fun s => MkWord s false) ws -> In ws known_methods ->
    name_equals (Some (m_name m)) (Some n) = false).
  { intros n ws Hw Hin. apply not_true_iff_false. intros E. apply (method_called m n ws Hw) in E. apply Hn.
    unfold called in E. rewrite E, map_map, map_id. exact Hin. }
  assert (A : is_action m = true).
  { unfold is_action, is_add, is_delete, is_async_delete, is_get, is_list_method, is_post, is_search, is_update, is_async_update.
    rewrite (K nAdd ["add"]), (K nDelete ["delete"]), (K nAsyncDelete ["async"; "delete"]), (K nGet ["get"]),
      (K nList ["list"]), (K nPost ["post"]), (K nSearch ["search"]), (K nUpdate ["update"]), (K nAsyncUpdate ["async"; "update"]);
      simpl; auto 12. }
  rewrite A. unfold is_add, is_delete, is_async_delete, is_get, is_list_method, is_post, is_search, is_update, is_async_update.
  rewrite (K nAdd ["add"]), (K nDelete ["delete"]), (K nAsyncDelete ["async"; "delete"]), (K nGet ["get"]),
    (K nList ["list"]), (K nPost ["post"]), (K nSearch ["search"]), (K nUpdate ["update"]), (K nAsyncUpdate ["async"; "update"]);
    simpl orb; cbv iota; simpl; auto 12.
  rewrite app_nil_r, no_errors_flat_map. split; apply Forall_impl; intros p; apply check_parameter_spec.
Qed.
