(** Proofs about the generator of OpenAPI specifications: references, success and ambiguities. *)
From Coq Require Import Ascii String Bool Arith ZArith NArith Lia Permutation List.
From Verif Require Import GoStrings GoStringsProofs GoMap GoMapProofs NamesModel ConceptsModel ReporterModel ReaderModel ReaderSpec BindingModel
  GoNamesModel ObjectsModel ObjectsSpec TextModel BufferModel BufferSpec BufferProofs BufferProofs3 BufferProofs4 JsonModel JsonSpec JsonTextModel JsonTextSpec
  JsonTextProofs JsonTextProofs3 ChecksModel ChecksSpec LoopsProofs PathsModel PathsProofs OpenapiModel OpenapiSpec OpenapiProofs OpenapiProofs2 OpenapiProofs3
  OpenapiProofs4.
Import ListNotations.
Local Open Scope string_scope.

Lemma published_document sys fuel output s v reports fs j : published sys fuel output s v reports fs j ->
  exists ps ss, j = document s v ps ss /\ build (generate_spec_source fuel s v) [FArr None []] = Some [FArr None [document s v ps ss]] /\
    paths_doc fuel s v ps /\ schemas_doc v ss.
Proof.
  intros (r' & fs' & text & G & M & D). destruct (spec_written _ _ _ _ _ _ _ _ _ G) as (ps & ss & B & P & S & _ & W & ->).
  unfold openapi_file_name in M. rewrite mget_mset_same in M. injection M as <-. exists ps, ss.
  split; [exact (document_unique _ _ _ D (document_text _ 0 W))|auto].
Qed.

Lemma written_published sys fuel output s v reports fs reports' fs' :
  generate_spec sys fuel output s v reports fs = Done (None, reports', fs') -> exists j, published sys fuel output s v reports fs j.
Proof.
  intros G. destruct (spec_written _ _ _ _ _ _ _ _ _ G) as (ps & ss & B & P & S & _ & W & E).
  eexists _, reports', fs', _. split; [exact G|]. split; [rewrite E; apply mget_mset_same|apply document_text; exact W].
Qed.

(** * What holds for all the calls of the generator *)

Definition ordinary (c : command) : Prop :=
  match c with
  | Complain _ | Crash | Forever => False
  | Field n _ => n <> "$ref"
  | _ => True
  end.

Lemma Forall_flat_map {A B} (P : B -> Prop) (f : A -> list B) l : (forall a, In a l -> Forall P (f a)) -> Forall P (flat_map f l).
Proof. intros H. apply Forall_forall. intros b I. apply in_flat_map in I as (a & I & J). apply (proj1 (Forall_forall _ _) (H a I)). exact J. Qed.

Section Source.
  Context (fuel : nat) (s : service) (v : version) (P : command -> Prop).
  Context (H1 : forall c, ordinary c -> P c) (H2 : forall k, used v k -> Forall P (generate_schema_reference fuel v k))
    (H3 : P (Field "$ref" (JStr "#/components/schemas/Error"))) (H4 : P (Field "$ref" (JStr "#/components/schemas/Metadata")))
    (ps : list (list locator)) (HP : paths fuel v = Done ps).

  Ltac pieces := repeat match goal with
    | |- Forall _ [] => apply Forall_nil
    | |- Forall _ (_ ++ _)%list => apply Forall_app; split
    | |- Forall _ (_ :: _) => apply Forall_cons; [first [assumption|apply H1; cbn [ordinary]; first [discriminate|exact I]]|]
    end.
  Lemma description_all doc : Forall P (generate_description doc).
  Proof. unfold generate_description. destruct (String.eqb doc ""); pieces. Qed.
  Lemma default_response_all : Forall P generate_default_response.
  Proof. unfold generate_default_response, json_content. pieces; apply description_all. Qed.
  Lemma body_all m l : l <> [] -> (forall p, In p l -> used v (p_type p)) -> Forall P (generate_body_schema fuel v m l).
  Proof.
    intros N U. unfold generate_body_schema. destruct (Nat.ltb 1 (length l) || is_action m).
    - pieces. apply Forall_flat_map. intros p I. unfold generate_parameter_property. pieces; [apply description_all|auto].
    - destruct l; [congruence|]. apply H2, U. now left.
  Qed.
  Lemma method_all path r m : leads v path r -> In m (r_methods r) -> Forall P (generate_method fuel v path m).
  Proof.
    intros L I. assert (U : forall p, In p (m_params m) -> used v (p_type p)) by (intros p J; right; exists path, r, m, p; auto).
    assert (UB : forall p, In p (request_body_params v m) -> used v (p_type p))
      by (intros p J; apply U; unfold request_body_params in J; destruct (is_action m); now apply filter_In in J).
    assert (UR : forall p, In p (response_params m) -> used v (p_type p)) by (intros p J; apply U; now apply filter_In in J).
    unfold generate_method, generate_responses, generate_url_parameters. pieces; try apply description_all; try apply default_response_all.
    - destruct (Nat.ltb 0 _); pieces.
      + apply Forall_flat_map. intros l J. unfold generate_path_parameter. pieces.
      + apply Forall_flat_map. intros p J. unfold generate_query_parameter. pieces; [apply description_all|]. apply H2, U.
        unfold request_query_params in J. destruct (is_action m); [destruct J|now apply filter_In in J].
    - destruct (request_body_params v m) as [|p l] eqn:E; cbn [length Nat.ltb Nat.leb]; pieces. unfold json_content. pieces. apply body_all; [discriminate|assumption].
    - destruct (response_params m) as [|p l] eqn:E; cbn [length Nat.ltb Nat.leb]; unfold json_content; pieces. apply body_all; [discriminate|assumption].
  Qed.
  Lemma resource_paths_all prefix path r : leads v path r -> Forall P (generate_resource_paths fuel v prefix path r).
  Proof.
    intros L. unfold generate_resource_paths. pieces.
    - destruct (Nat.ltb 0 _); pieces. apply Forall_flat_map. intros m J. apply filter_In in J as [J _]. eapply method_all; eauto.
    - apply Forall_flat_map. intros m J. apply filter_In in J as [J _]. pieces. eapply method_all; eauto.
  Qed.
  Lemma paths_root : exists r, root v = Some r.
  Proof. unfold paths in HP. destruct (root v); [eauto|discriminate]. Qed.
  Lemma paths_part : Forall P (generate_paths fuel s v).
  Proof.
    unfold generate_paths. rewrite HP. pose proof (paths_exact _ _ _ HP) as EX. destruct paths_root as (r & R). rewrite R. pieces.
    - unfold generate_metadata_path, json_content. pieces; try apply description_all; apply default_response_all.
    - apply resource_paths_all. now apply leads_root.
    - apply Forall_flat_map. intros prefix I. apply sort_in in I. destruct (mget prefix (path_index s v ps)) as [path|] eqn:G.
      + destruct (index_sound s v ps [] _ _ G) as [X|[IP _]]; [discriminate|]. apply EX in IP. destruct IP as [N (r' & k & W & R')].
        assert (LT : last_target v path = Some r').
        { destruct (walk_last _ _ _ W N) as (q & l & k' & -> & _ & (r1 & _ & _ & T)). unfold last_target. rewrite rev_app_distr. cbn [rev app]. rewrite T. exact R'. }
        rewrite LT. apply resource_paths_all. exists k. auto.
      + exfalso. apply mget_none in G. auto.
  Qed.
  Lemma schema_all t : In t (types v) -> Forall P (generate_schema fuel v t).
  Proof.
    intros I. unfold generate_schema. destruct (is_enum t) eqn:E; [|destruct (is_struct t) eqn:S; [|constructor]].
    - unfold generate_enum_schema. pieces; [apply description_all|]. apply Forall_forall. intros c C. apply in_map_iff in C as (x & <- & _). now apply H1.
    - assert (ST : structural t) by (unfold is_struct, structural in *; destruct (t_kind t); try discriminate; auto).
      unfold generate_struct_schema, generate_string_property. pieces; try apply description_all.
      + destruct (is_class t); pieces; apply description_all.
      + apply Forall_flat_map. intros a A. unfold generate_struct_property. pieces; [apply description_all|]. apply H2. left.
        exists t, a. auto.
  Qed.
  Lemma source_all : Forall P (generate_spec_source fuel s v).
  Proof.
    unfold generate_spec_source, generate_info, generate_servers, generate_components, generate_security, generate_metadata_schema, generate_error_schema,
      generate_string_property. pieces; try apply description_all; [apply paths_part|]. apply Forall_flat_map. intros t I. now apply schema_all.
  Qed.
End Source.

(** * References *)

Definition frame_refers (f : frame) (r : string) : Prop := match f with FObj _ acc => refers (JObj acc) r | FArr _ acc => refers (JArr acc) r end.
Definition stack_refers (st : list frame) (r : string) : Prop := exists f, In f st /\ frame_refers f r.

Lemma refers_scalar x r : scalar_json x = true -> ~ refers x r.
Proof. intros S R. destruct x; try discriminate; inversion R. Qed.
Lemma refers_snoc_obj acc n x r : refers (JObj (acc ++ [(n, x)])%list) r -> refers (JObj acc) r \/ (n = "$ref" /\ x = JStr r) \/ refers x r.
Proof.
  intros R. inversion R as [l s I|l k y s I Y|]; subst; apply in_app_iff in I as [I|[I|[]]].
  - left. now constructor.
  - injection I as -> ->. auto.
  - left. now apply ref_member with k y.
  - injection I as -> ->. auto.
Qed.
Lemma refers_snoc_arr acc x r : refers (JArr (acc ++ [x])%list) r -> refers (JArr acc) r \/ refers x r.
Proof. intros R. inversion R as [| |l y s I Y]; subst. apply in_app_iff in I as [I|[->|[]]]; [left; now apply ref_item with y|now right]. Qed.

Lemma push_refers n x st st' r : push_value n x st = Some st' -> stack_refers st' r -> stack_refers st r \/ (n = Some "$ref" /\ x = JStr r) \/ refers x r.
Proof.
  intros P (f & I & R). destruct n as [n|], st as [|[m acc|m acc] st]; try discriminate; injection P as <-.
  - destruct I as [<-|I]; [|left; exists f; split; [now right|assumption]]. cbn in R. apply refers_snoc_obj in R as [R|[[-> ->]|R]]; auto.
    left. eexists. split; [now left|exact R].
  - destruct I as [<-|I]; [|left; exists f; split; [now right|assumption]]. cbn in R. apply refers_snoc_arr in R as [R|R]; auto.
    left. eexists. split; [now left|exact R].
Qed.

Lemma step_refers c st st' r : step c st = Some st' -> stack_refers st' r -> stack_refers st r \/ c = Field "$ref" (JStr r).
Proof.
  intros E R. destruct c; cbn [step] in E; try discriminate.
  - destruct (can_push name st); [|discriminate]. injection E as <-. destruct R as (f & [<-|I] & R); [inversion R; contradiction|left; exists f; auto].
  - destruct st as [|[m acc|m acc] st]; try discriminate. destruct (push_refers _ _ _ _ _ E R) as [(f & I & Q)|[[_ Q]|Q]]; [left; exists f; split; [now right|assumption]|discriminate Q|].
    left. eexists. split; [now left|exact Q].
  - destruct (scalar_json value) eqn:S; [|discriminate]. destruct (push_refers _ _ _ _ _ E R) as [Q|[[Q ->]|Q]]; [now left|injection Q as ->; now right|].
    exfalso. now apply (refers_scalar value r).
  - destruct (can_push name st); [|discriminate]. injection E as <-. destruct R as (f & [<-|I] & R); [inversion R; contradiction|left; exists f; auto].
  - destruct st as [|[m acc|m acc] [|g st]]; try discriminate. destruct (push_refers _ _ _ _ _ E R) as [(f & I & Q)|[[_ Q]|Q]]; [left; exists f; split; [now right|assumption]|discriminate Q|].
    left. eexists. split; [now left|exact Q].
  - destruct (scalar_json value) eqn:S; [|discriminate]. destruct (push_refers _ _ _ _ _ E R) as [Q|[[Q _]|Q]]; [now left|discriminate Q|].
    exfalso. now apply (refers_scalar value r).
  - injection E as <-. now left.
Qed.

Lemma build_refers l : forall st st' r, build l st = Some st' -> stack_refers st' r -> stack_refers st r \/ In (Field "$ref" (JStr r)) l.
Proof.
  induction l as [|c l IH]; intros st st' r B R; cbn [build] in B; [injection B as <-; now left|].
  destruct (step c st) as [st1|] eqn:E; [|discriminate]. destruct (IH _ _ _ B R) as [Q|Q]; [|right; now right].
  destruct (step_refers _ _ _ _ E Q) as [Q'| ->]; [now left|right; now left].
Qed.

(** The references are to the schemas of the document. *)
Definition known_ref (v : version) (r : string) : Prop :=
  exists n, r = ("#/components/schemas/" ++ n)%string /\
    (n = "Metadata" \/ n = "Error" \/ exists t, In t (types v) /\ In (t_kind t) [EnumType; ClassType; StructType] /\ n = camel (t_name t)).
Definition ref_ok (v : version) (c : command) : Prop :=
  match c with Field n (JStr r) => n = "$ref" -> known_ref v r | _ => True end.

Lemma mget_types v k t : mget k (v_types v) = Some t -> In t (types v).
Proof. intros M. unfold types. apply sort_in. apply mget_in in M. apply in_map_iff. now exists (k, t). Qed.

Lemma reference_ok v fuel : forall k, Forall (ref_ok v) (generate_schema_reference fuel v k).
Proof.
  induction fuel as [|fuel IH]; intros k; cbn [generate_schema_reference]; [repeat constructor|]. unfold type_at.
  destruct (mget k (v_types v)) as [t|] eqn:T; [|repeat constructor].
  assert (N : Forall (ref_ok v) (match t_element t with None => [Crash] | Some e => generate_schema_reference fuel v e end))
    by (destruct (t_element t); [apply IH|repeat constructor]).
  assert (F : forall n x, n <> "$ref" -> ref_ok v (Field n (JStr x))) by (intros n x D E; contradiction).
  repeat match goal with |- context [if is_builtin ?a ?b then _ else _] => destruct (is_builtin a b); [repeat (constructor; [apply F; discriminate|]); constructor|] end.
  destruct (is_enum t || is_struct t) eqn:K.
  - repeat constructor. intros _. exists (camel (t_name t)). split; [reflexivity|]. right. right. exists t. split; [eapply mget_types; eauto|]. split; [|reflexivity].
    unfold is_enum, is_struct in K. destruct (t_kind t); try discriminate; cbn; auto.
  - destruct (is_list t); [|destruct (is_map t)].
    + cbn [app]. constructor; [apply F; discriminate|]. constructor; [exact I|]. apply Forall_app. split; [assumption|repeat constructor].
    + cbn [app]. constructor; [apply F; discriminate|]. constructor; [exact I|]. apply Forall_app. split; [assumption|repeat constructor].
    + repeat constructor.
Qed.

Lemma source_refs fuel s v ps : paths fuel v = Done ps -> Forall (ref_ok v) (generate_spec_source fuel s v).
Proof.
  intros P. apply (source_all fuel s v (ref_ok v)) with (ps := ps); auto.
  - intros c O. destruct c as [| |n x| | | | | |]; try exact I. destruct x; try exact I. intros E. exfalso. exact (O E).
  - intros k _. apply reference_ok.
  - intros _. exists "Error". auto.
  - intros _. exists "Metadata". auto.
Qed.

Lemma schemas_known v ss n : schemas_doc v ss ->
  n = "Metadata" \/ n = "Error" \/ (exists t, In t (types v) /\ In (t_kind t) [EnumType; ClassType; StructType] /\ n = camel (t_name t)) -> exists x, In (n, x) ss.
Proof.
  intros (ts & -> & F) [->|[->|(t & I & K & ->)]].
  - eexists. now left.
  - eexists. right. apply in_app_iff. right. now left.
  - destruct (Forall2_in_l _ _ _ _ F I) as (x & IX & D). unfold schema_doc in D.
    assert (E : exists y, x = [(camel (t_name t), y)] /\ schema v t y) by (destruct K as [K|[K|[K|[]]]]; rewrite <- K in D; exact D).
    destruct E as (y & -> & _). exists y. right. apply in_app_iff. left. apply in_concat. eexists. split; [exact IX|now left].
Qed.

Lemma document_schemas s v ps ss : at_path (document s v ps ss) ["components"; "schemas"] (JObj ss).
Proof. unfold document, components. generalize (JObj ps) (JObj ss) (info_doc s v) servers_doc. intros. find_path. Qed.

Lemma references_resolve sys fuel output s v reports fs j r : published sys fuel output s v reports fs j -> refers j r ->
  exists n x ss, r = ("#/components/schemas/" ++ n)%string /\ at_path j ["components"; "schemas"] (JObj ss) /\ In (n, x) ss.
Proof.
  intros P R. destruct (published_document _ _ _ _ _ _ _ _ P) as (ps & ss & -> & B & D & S). destruct D as (pl & r0 & rm & xs & HP & _).
  assert (SR : stack_refers [FArr None [document s v ps ss]] r) by (eexists; split; [now left|]; apply ref_item with (document s v ps ss); [now left|assumption]).
  destruct (build_refers _ _ _ _ B SR) as [(f & [<-|[]] & Q)|I]; [inversion Q; contradiction|].
  pose proof (proj1 (Forall_forall _ _) (source_refs fuel s v pl HP) _ I eq_refl) as (n & -> & K).
  destruct (schemas_known v ss n S K) as (x & IX). exists n, x, ss. split; [reflexivity|]. split; [apply document_schemas|assumption].
Qed.

Lemma schemas_exact sys fuel output s v reports fs j : published sys fuel output s v reports fs j ->
  exists ss, at_path j ["components"; "schemas"] (JObj ss) /\
    (forall n x, In (n, x) ss ->
      (n = "Metadata" /\ x = metadata_schema) \/ (n = "Error" /\ error_schema x) \/ exists t, In t (types v) /\ n = camel (t_name t) /\ schema v t x) /\
    In ("Metadata", metadata_schema) ss /\ (exists x, In ("Error", x) ss /\ error_schema x) /\
    (forall t, In t (types v) -> t_kind t = EnumType \/ structural t -> exists x, In (camel (t_name t), x) ss /\ schema v t x).
Proof.
  intros P. destruct (published_document _ _ _ _ _ _ _ _ P) as (ps & ss & -> & _ & _ & S). exists ss. split; [apply document_schemas|].
  destruct S as (ts & -> & F). split; [|split; [now left|split]].
  - intros n x [[= <- <-]|I]; [now left|]. apply in_app_iff in I as [I|[[= <- <-]|[]]]; [|right; left; split; [reflexivity|apply error_doc_spec]].
    right. right. apply in_concat in I as (l & IL & IX). destruct (Forall2_in_r _ _ _ _ F IL) as (t & IT & D). exists t. split; [assumption|]. unfold schema_doc in D.
    destruct (t_kind t); try (subst l; destruct IX); destruct D as (y & -> & SC); destruct IX as [[= <- <-]|[]]; auto.
  - eexists. split; [right; apply in_app_iff; right; now left|apply error_doc_spec].
  - intros t IT K. destruct (Forall2_in_l _ _ _ _ F IT) as (l & IL & D). unfold schema_doc in D.
    assert (E : exists y, l = [(camel (t_name t), y)] /\ schema v t y) by (destruct K as [K|[K|K]]; rewrite K in D; exact D).
    destruct E as (y & -> & SC). exists y. split; [|assumption]. right. apply in_app_iff. left. apply in_concat. eexists. split; [exact IL|now left].
Qed.

(** * General information *)

Lemma general sys fuel output s v reports fs j : published sys fuel output s v reports fs j ->
  at_path j ["openapi"] (JStr "3.0.0") /\ at_path j ["info"; "version"] (JStr (name_string (v_name v))) /\ at_path j ["info"; "title"] (JStr (name_string (s_name s))) /\
  (exists a b, at_path j ["servers"] (JArr [a; b]) /\ field a "url" (JStr "https://api.openshift.com") /\ field b "url" (JStr "https://api.stage.openshift.com")) /\
  at_path j ["components"; "securitySchemes"; "bearer"; "scheme"] (JStr "bearer") /\ at_path j ["security"] (JArr [JObj [("bearer", JArr [])]]).
Proof.
  intros P. destruct (published_document _ _ _ _ _ _ _ _ P) as (ps & ss & -> & _ & _ & S). unfold document, components, info_doc, servers_doc.
  generalize (JObj ps) (JObj ss) (JStr (name_string (v_name v))) (JStr (name_string (s_name s))). intros a b c d.
  repeat split; try find_path. eexists _, _. split; [find_path|]. split; find_field.
Qed.

Lemma document_paths s v ps ss : at_path (document s v ps ss) ["paths"] (JObj ps).
Proof. unfold document, components. generalize (JObj ps) (JObj ss) (info_doc s v) servers_doc. intros. find_path. Qed.

(** * Operations *)

Lemma operations_sound sys fuel output s v reports fs j : published sys fuel output s v reports fs j ->
  exists ps, field j "paths" ps /\
    (exists op, operation ps (url ["api"; service_segment s; version_segment v]) "get" op /\ describes_metadata op) /\
    (forall t vb op, operation ps t vb op ->
       (t = url ["api"; service_segment s; version_segment v] /\ vb = "get" /\ describes_metadata op) \/
       exists path r m, leads v path r /\ In m (r_methods r) /\ t = template s v path m /\ vb = str_lower (http_method m) /\ describes v path m op) /\
    (unambiguous s v -> forall path r m, leads v path r -> In m (r_methods r) ->
       exists op, operation ps (template s v path m) (str_lower (http_method m)) op /\ describes v path m op).
Proof.
  intros P. destruct (published_document _ _ _ _ _ _ _ _ P) as (ps & ss & -> & _ & D & _). exists (JObj ps).
  split; [pose proof (document_paths s v ps ss) as X; inversion X as [|? ? ? ? ? F H]; subst; inversion H; subst; exact F|].
  split; [eapply paths_metadata; eauto|]. split; [intros t vb op; eapply paths_sound; eauto|].
  intros U path r m L I. eapply paths_all; eauto.
Qed.

(** * Unambiguous templates *)

Lemma no_slash_split x : forall y a b, no_slash x -> no_slash y -> (x ++ url a = y ++ url b)%string -> x = y /\ url a = url b.
Proof.
  induction x as [|c x IH]; intros y a b X Y E; destruct y as [|d y]; cbn [append] in E.
  - auto.
  - destruct a as [|u a]; [discriminate|]. cbn [url append] in E. injection E as <- E. destruct Y as [Y _]. congruence.
  - destruct b as [|u b]; [discriminate|]. cbn [url append] in E. injection E as -> E. destruct X as [X _]. congruence.
  - injection E as -> E. destruct X as [_ X], Y as [_ Y]. destruct (IH y a b X Y E) as [-> H]. auto.
Qed.
Lemma url_inj a : forall b, Forall no_slash a -> Forall no_slash b -> url a = url b -> a = b.
Proof.
  induction a as [|x a IH]; intros [|y b] A B E; cbn [url append] in E; try discriminate; [reflexivity|]. injection E as E. inversion A; inversion B; subst.
  apply no_slash_split in E as [-> E]; auto. f_equal. auto.
Qed.
Lemma sapp_inv_head a b c : (a ++ b = a ++ c)%string -> b = c.
Proof. induction a; cbn; [auto|]. intros [= E]. auto. Qed.

Lemma walk_app v a p k q k' : walk v a p k -> walk v k q k' -> walk v a (p ++ q)%list k'.
Proof. induction 1; cbn [app]; auto. intros W. econstructor; eauto. Qed.

Lemma walk_same v (D : distinct_segments v) : forall p q0 a k k' q, walk v "root" q0 a -> walk v a p k -> walk v a q k' ->
  map placeholder p = map placeholder q -> p = q.
Proof.
  induction p as [|l p IH]; intros q0 a k k' q W0 W W' E; destruct q as [|l' q]; try discriminate; [reflexivity|]. cbn [map] in E. injection E as E1 E2.
  inversion W as [|? ? b ? ? F X]; subst. inversion W' as [|? ? b' ? ? F' X']; subst. pose proof F as (r & R & I & T). pose proof F' as (r' & R' & I' & T').
  rewrite R in R'. injection R' as <-. destruct (D q0 r) as [N _]; [exists a; auto|].
  assert (l' = l).
  { clear -N I I' E1. induction (r_locators r) as [|x xs IH]; [destruct I|]. cbn [map] in N. inversion N as [|? ? A B]; subst. destruct I as [->|I], I' as [->|I']; auto.
    - exfalso. apply A. rewrite E1. now apply in_map.
    - exfalso. apply A. rewrite <- E1. now apply in_map. }
  subst l'. rewrite T in T'. injection T' as <-. f_equal. eapply (IH (q0 ++ [l])%list b); eauto. eapply walk_snoc; eauto.
Qed.
Lemma walk_no_slash v (D : distinct_segments v) : forall p q0 a k, walk v "root" q0 a -> walk v a p k -> Forall no_slash (map placeholder p).
Proof.
  induction p as [|l p IH]; intros q0 a k W0 W; cbn [map]; [constructor|]. inversion W as [|? ? b ? ? F X]; subst. pose proof F as (r & R & I & T).
  constructor; [destruct (D q0 r) as [_ H]; [exists a; auto|auto]|]. eapply (IH (q0 ++ [l])%list b); eauto. eapply walk_snoc; eauto.
Qed.

Lemma distinct_unambiguous s v : distinct_segments v -> unambiguous s v.
Proof.
  intros D p q r r' (k & W & R) (k' & W' & R') _ _ E. unfold resource_segments in E. cbn [url] in E. apply sapp_inv_head in E.
  apply sapp_inv_head in E. apply sapp_inv_head in E. apply sapp_inv_head in E. apply sapp_inv_head in E. apply sapp_inv_head in E.
  apply url_inj in E; [|apply (walk_no_slash v D p [] "root" k (walk_nil v "root") W)|apply (walk_no_slash v D q [] "root" k' (walk_nil v "root") W')].
  exact (walk_same v D p [] "root" k k' q (walk_nil v "root") W W' E).
Qed.

(** * Success *)

Lemma expressible_quiet v k : expressible v k -> exists n, forall fuel, (n <= fuel)%nat -> quiet (generate_schema_reference fuel v k).
Proof.
  assert (B : forall fuel t k e, mget k (v_types v) = Some t -> (In k (map fst predefined) \/ In (t_kind t) [EnumType; ClassType; StructType] \/
    (In (t_kind t) [ListType; MapType] /\ t_element t = Some e /\ quiet (generate_schema_reference fuel v e))) -> quiet (generate_schema_reference (S fuel) v k)).
  { intros fuel t k0 e T H. cbn [generate_schema_reference]. unfold type_at. rewrite T. unfold is_builtin.
    change (name_key nBoolean) with "boolean" in *. change (name_key nInteger) with "integer" in *. change (name_key nLong) with "long" in *.
    change (name_key nFloat) with "float" in *. change (name_key nString) with "string" in *. change (name_key nDate) with "date" in *.
    change (name_key nInterface) with "interface" in *.
    repeat match goal with |- context [if String.eqb k0 ?b then _ else _] => destruct (String.eqb_spec k0 b); [repeat (constructor; [exact I|]); constructor|] end.
    destruct H as [H|[H|(H & E & Q)]].
    - exfalso. cbn in H. intuition congruence.
    - destruct (is_enum t || is_struct t) eqn:K; [repeat constructor|]. exfalso. unfold is_enum, is_struct in K. destruct H as [H|[H|[H|[]]]]; rewrite <- H in K; discriminate.
    - rewrite E. destruct (is_enum t || is_struct t); [repeat constructor|]. destruct (is_list t) eqn:L; [|destruct (is_map t) eqn:M].
      + cbn [app]. constructor; [exact I|]. constructor; [exact I|]. apply quiet_app. split; [assumption|repeat constructor].
      + cbn [app]. constructor; [exact I|]. constructor; [exact I|]. apply quiet_app. split; [assumption|repeat constructor].
      + exfalso. unfold is_list, is_map in *. destruct H as [H|[H|[]]]; rewrite <- H in *; discriminate. }
  induction 1 as [k t T P|k t T K|k t e T K E X (n & IH)].
  - exists 1. intros [|fuel] L; [lia|]. eapply (B fuel t k ""); eauto.
  - exists 1. intros [|fuel] L; [lia|]. eapply (B fuel t k ""); eauto.
  - exists (S n). intros [|fuel] L; [lia|]. eapply (B fuel t k e); eauto. right. right. repeat split; auto. apply IH. lia.
Qed.

Lemma quiet_bound v l : (forall k, In k l -> expressible v k) -> exists n, forall fuel k, (n <= fuel)%nat -> In k l -> quiet (generate_schema_reference fuel v k).
Proof.
  induction l as [|k l IH]; intros H; [exists 0; intros ? ? ? []|]. destruct IH as (n & N); [intros; apply H; now right|].
  destruct (expressible_quiet v k) as (n' & N'); [apply H; now left|]. exists (n + n'). intros fuel k' L [<-|I]; [apply N'; lia|apply N; [lia|assumption]].
Qed.

Lemma leads_unique v path r r' : leads v path r -> leads v path r' -> r = r'.
Proof.
  intros (k & W & R) (k' & W' & R').
  assert (WU : forall a p b b', walk v a p b -> walk v a p b' -> b = b').
  { intros a p b b' X. revert b'. induction X as [|? ? ? ? ? F X IH]; intros b' Y; inversion Y as [|? ? ? ? ? F' Y']; subst; [reflexivity|].
    destruct F as (? & _ & _ & T), F' as (? & _ & _ & T'). rewrite T in T'. injection T' as <-. auto. }
  rewrite (WU _ _ _ _ W' W) in R'. congruence.
Qed.

(** All the types that are used, when the paths are known. *)
Lemma used_list v ps r : root v = Some r -> (forall p, In p ps <-> arrives v p) ->
  exists l, forall k, In k l <-> used v k.
Proof.
  intros R EX. set (target := fun p => match last_target v p with Some r => [r] | None => [] end).
  exists (flat_map (fun t => if is_struct t then map a_type (t_attrs t) else []) (types v) ++
    flat_map (fun r => flat_map (fun m => map p_type (m_params m)) (r_methods r)) (r :: flat_map target ps))%list.
  intros k. rewrite in_app_iff, !in_flat_map. split.
  - intros [(t & IT & IK)|(r' & IR & IK)].
    + left. destruct (is_struct t) eqn:S; [|destruct IK]. apply in_map_iff in IK as (a & <- & IA). exists t, a. repeat split; auto.
      unfold is_struct in S. unfold structural. destruct (t_kind t); try discriminate; auto.
    + right. apply in_flat_map in IK as (m & IM & IK). apply in_map_iff in IK as (p & <- & IP). destruct IR as [<-|IR].
      * exists [], r, m, p. repeat split; auto. now apply leads_root.
      * apply in_flat_map in IR as (path & I1 & I2). unfold target in I2. destruct (last_target v path) as [r1|] eqn:LT; [|destruct I2]. destruct I2 as [<-|[]].
        apply EX in I1. exists path, r1, m, p. repeat split; auto. apply last_target_leads; auto. now destruct I1.
  - intros [(t & a & IT & S & IA & ->)|(path & r' & m & p & L & IM & IP & ->)].
    + left. exists t. split; [assumption|]. destruct S as [S|S]; unfold is_struct; rewrite S; cbn [kind_eqb orb]; now apply in_map.
    + right. exists r'. split; [|apply in_flat_map; exists m; split; [assumption|now apply in_map]]. destruct path as [|l path].
      * left. symmetry. eapply leads_nil; eauto.
      * right. apply in_flat_map. exists (l :: path). split; [apply EX; split; [discriminate|eauto]|]. unfold target.
        destruct L as (k & W & R'). destruct (walk_last _ _ _ W ltac:(discriminate)) as (q & x & k' & E & _ & (r1 & _ & _ & T)).
        unfold last_target. rewrite E, rev_app_distr. cbn [rev app]. rewrite T. unfold resource_at. rewrite R'. now left.
Qed.

Lemma source_quiet s v r : root v = Some r -> ~ has_dead_end v -> targets_exist v -> ~ has_loop v -> (forall k, used v k -> expressible v k) ->
  exists n, forall fuel, (n <= fuel)%nat -> quiet (generate_spec_source fuel s v).
Proof.
  intros R DE TE NL EX. destruct (paths_spec v r R DE TE NL) as (n & ps & P & S & _ & _).
  assert (AR : forall p, In p ps <-> arrives v p) by (apply (paths_exact v n); apply P; lia).
  destruct (used_list v ps r R AR) as (l & L). destruct (quiet_bound v l) as (n' & N'); [intros k I; apply EX, L, I|].
  exists (n + n'). intros fuel F. apply (source_all fuel s v quiet_command) with (ps := ps); try exact I.
  - intros c O. destruct c; try exact I; destruct O.
  - intros k U. apply N'; [lia|now apply L].
  - apply P. lia.
Qed.

Lemma quiet_complaints l : quiet l -> errors_in (flat_map complaints l) 0.
Proof.
  induction 1 as [|c l H F IH]; [constructor|]. cbn [flat_map]. apply errors_zero_app. split; [|assumption]. destruct c; cbn [complaints]; first [exact H|constructor|destruct H].
Qed.

Lemma spec_succeeds sys output s v r :
  (forall d, sys_mkdir sys d = None) -> (forall f, sys_open sys f = None) ->
  root v = Some r -> ~ has_dead_end v -> targets_exist v -> ~ has_loop v -> (forall k, used v k -> expressible v k) ->
  exists n, forall fuel reports fs, (n <= fuel)%nat -> errors_in reports 0 -> exists j reports' fs',
    published sys fuel output s v reports fs j /\ generate_spec sys fuel output s v reports fs = Done (None, reports', fs') /\ errors_in reports' 0.
Proof.
  intros MK OP R DE TE NL EX. destruct (source_quiet s v r R DE TE NL EX) as (n & N). exists n. intros fuel reports fs F Z. specialize (N fuel F).
  destruct (source_built fuel s v N) as (ps & ss & B & _ & _). destruct (built_tokens _ _ reports B) as (b & E & _ & RB & _).
  assert (G : exists reports' fs', generate_spec sys fuel output s v reports fs = Done (None, reports', fs') /\ errors_in reports' 0).
  { unfold generate_spec. revert E N RB. generalize (generate_spec_source fuel s v) as src. intros src E N RB. rewrite E.
    assert (ZB : errors_in (ob_reports b) 0) by (rewrite RB; apply errors_zero_app; split; [assumption|now apply quiet_complaints]).
    destruct (openapi_written sys (path_join [output; openapi_file_name s v]) (write_tokens 0 (ob_tokens b)) (ob_reports b) fs ZB (MK _) (OP _)) as (fs' & W & _).
    rewrite W. eexists _, fs'. split; [reflexivity|]. apply errors_zero_app. split; [assumption|]. constructor; [discriminate|constructor]. }
  destruct G as (reports' & fs' & G & Z'). destruct (written_published _ _ _ _ _ _ _ _ _ G) as (j & PJ). exists j, reports', fs'. auto.
Qed.

(** Nothing is written if there were errors. *)
Lemma spec_refused sys fuel output s v reports fs : ~ errors_in reports 0 ->
  (exists m r, generate_spec sys fuel output s v reports fs = Done (Some m, r, fs)) \/
  generate_spec sys fuel output s v reports fs = Panics \/ generate_spec sys fuel output s v reports fs = OutOfFuel.
Proof.
  intros Z. unfold generate_spec. generalize (generate_spec_source fuel s v) as src. intros src.
  destruct (execute_all src (new_openapi_buffer reports)) as [b| |] eqn:E; auto. left.
  destruct (executed_quiet _ _ _ E) as (more & R & _). cbn [new_openapi_buffer ob_reports] in R.
  assert (ZB : ~ errors_in (ob_reports b) 0) by (rewrite R; intros H; apply errors_zero_app in H as [H _]; contradiction).
  unfold write_openapi. destruct (errors_found (error_count (ob_reports b))) as [m|] eqn:F; [eauto|].
  exfalso. apply ZB. apply errors_zero. unfold errors_found in F. destruct (Nat.ltb_spec 0 (error_count (ob_reports b))) as [L|L]; [now destruct (Nat.ltb 1 _)|lia].
Qed.
