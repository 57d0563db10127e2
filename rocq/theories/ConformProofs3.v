(** Statements for the property theorems about conformance. *)
From Coq Require Import Ascii String Bool Arith ZArith NArith Lia List.
From Verif Require Import OpenapiSpec OpenapiProofs5.
From Verif Require Import ConformSpec ConformProofs ConformProofs2.
From Verif Require Import GoStrings GoMap NamesModel ConceptsModel ReporterModel BindingModel BindingSpec BindingProofs GoNamesModel GoTimeModel TextModel BufferModel BufferSpec ChecksSpec ClientsModel
  HelpersModel HelpersSpec ObjectsModel ObjectsSpec ObjectsProofs2 JsonModel JsonSpec JsonProofs3 JsonProofs8 JsonTextModel JsonTextSpec
  ApiErrorModel RequestModel RequestSpec RequestProofs5.
Import ListNotations.
Local Open Scope string_scope.

Section Published.
  Context (sys : system) (fuel : nat) (output : string) (s : service) (v : version) (reports : list report) (fs : files) (doc : json).
  Context (Pd : published sys fuel output s v reports fs doc) (St : standard v) (Co : compiles v) (D : distinct_schemas v).

  Lemma published_value o k link x j l : faithful o -> typed v k link x -> publishable v k x -> shows o v k x j -> type_schema v k l -> conforms doc (JObj l) j.
  Proof.
    intros Fa. destruct (schemas_exact _ _ _ _ _ _ _ _ Pd) as (ss & HP & H1 & _ & _ & H2). intros. eapply (value_conforms o v doc ss); eauto.
  Qed.

  Lemma published_objects o k t b l : faithful o -> mget k (v_types v) = Some t -> structural t -> object_typed v t b -> object_publishable v t b ->
    marshal_object o v t (Some b) = WOk l ->
    exists j, l = tokens j /\ conforms doc (JObj [("$ref", JStr ("#/components/schemas/" ++ camel (t_name t)))]) j.
  Proof.
    intros Fa G K T P W. destruct (Co _ _ G K) as [F _]. destruct (object_document o v t b l St Co Fa K F T W) as (j & -> & _ & m & -> & Sh). eexists. split; [reflexivity|].
    destruct (schemas_exact _ _ _ _ _ _ _ _ Pd) as (ss & HP & H1 & _ & _ & H2). eapply (reference_conforms v doc ss); eauto; [eapply mget_types; eauto|].
    intros sc SC. destruct T as (_ & _ & _ & T). eapply (object_schema_conforms o v doc); eauto. apply Forall_forall. intros x _. eapply (value_conforms o v doc ss); eauto.
  Qed.

  Lemma published_lists o k t e l r sc : faithful o -> mget k (v_types v) = Some t -> t_kind t = ListType -> plain v t -> t_element t = Some e -> all1 (typed v e false) l -> all1 (publishable v e) l ->
    marshal_list o v e l = WOk r -> type_schema v k sc ->
    exists j, r = tokens j /\ conforms doc (JObj sc) j.
  Proof.
    intros Fa G K Pl E T P W TS. destruct (list_document o v t e l r St Co Fa Pl E T W) as (m & -> & _ & Sh). eexists. split; [reflexivity|].
    apply (published_value o k false (VSlice l) _ _ Fa); auto.
    - cbn. rewrite G, K, E. auto.
    - cbn. rewrite G. eauto.
    - cbn. rewrite G. eauto 10.
  Qed.

  Lemma published_untyped k t j : mget k (v_types v) = Some t -> structural t -> (forall l, j <> JObj l) ->
    conforms doc (JObj [("$ref", JStr ("#/components/schemas/" ++ camel (t_name t)))]) j.
  Proof.
    intros G K N. destruct (schemas_exact _ _ _ _ _ _ _ _ Pd) as (ss & HP & H1 & _ & _ & H2). eapply (reference_conforms v doc ss); eauto; [eapply mget_types; eauto|].
    intros sc SC. destruct SC as [E|ps _ TP]; [destruct K; congruence|]. apply conforms_described. apply conforms_keywords; cbn; try (intros; keys; fail); try (intuition discriminate).
    intros qs ms n s' x _ E. exfalso. exact (N _ E).
  Qed.

  Lemma parameters_member o qs : forall ps ms n x, shows_parameters o v qs ps ms -> In (n, x) ms ->
    exists p y, In p ps /\ mget (go_private (p_name p)) qs = Some y /\ y <> VNil /\ n = body_parameter_name p /\ shows o v (p_type p) y x.
  Proof.
    induction ps as [|p ps IH]; intros ms n x Sh I; cbn in Sh; [subst; destruct I|].
    assert (R : shows_parameters o v qs ps ms -> exists p' y, In p' (p :: ps) /\ mget (go_private (p_name p')) qs = Some y /\ y <> VNil /\ n = body_parameter_name p' /\ shows o v (p_type p') y x).
    { intros Sh'. destruct (IH _ _ _ Sh' I) as (p' & y & A & B). exists p', y. split; [now right|assumption]. }
    destruct (mget (go_private (p_name p)) qs) as [y|] eqn:G; [|auto].
    assert (R2 : (exists j ms', ms = (body_parameter_name p, j) :: ms' /\ shows o v (p_type p) y j /\ shows_parameters o v qs ps ms') -> y <> VNil ->
      exists p' y, In p' (p :: ps) /\ mget (go_private (p_name p')) qs = Some y /\ y <> VNil /\ n = body_parameter_name p' /\ shows o v (p_type p') y x).
    { intros (j & ms' & -> & Sj & Sh') NN. destruct I as [[= <- <-]|I].
      - exists p, y. split; [now left|]. auto.
      - destruct (IH _ _ _ Sh' I) as (p' & y' & A & B). exists p', y'. split; [now right|assumption]. }
    destruct y; auto; apply R2; auto; discriminate.
  Qed.

  Section Sending.
    Context (W E : Type) (transport : W -> http_request -> reply E * W) (o : oracle) (incomplete : json -> any)
      (show_float : Z -> string) (show_any : any -> string) (spare : nat) (Fa : faithful o).
    Context (path : list locator) (x : resource) (m : method) (Le : leads v path x) (Im : In m (r_methods x)) (U : unambiguous s v).

    Lemma request_schema p ps : request_body_params v m = p :: ps ->
      exists paths op sc, OpenapiSpec.field doc "paths" paths /\ operation paths (template s v path m) (str_lower (http_method m)) op /\
        at_path op ["requestBody"; "content"; "application/json"; "schema"] sc /\ body_schema v m (p :: ps) sc.
    Proof.
      intros B. destruct (operations_sound _ _ _ _ _ _ _ _ Pd) as (paths & F & _ & _ & Op). destruct (Op U path x m Le Im) as (op & O & De).
      destruct De as (_ & _ & De & _). rewrite B in De. destruct De as (sc & A & BS). exists paths, op, sc. auto.
    Qed.

    Lemma published_bodies r h w p y : request_valid h r -> request_whole m p -> request_body_params v m = [p] ->
      mget (go_private (p_name p)) (rq_fields r) = Some y -> y <> VNil -> typed v (p_type p) false y -> printable o v (p_type p) y -> publishable v (p_type p) y ->
      exists rs e w' h' q text j paths op sc,
        send_context W E transport o incomplete show_float show_any spare v m r h w = Finished W E rs e w' h' [q] /\ hr_body q = Some text /\ json_document text j /\
        OpenapiSpec.field doc "paths" paths /\ operation paths (template s v path m) (str_lower (hr_method q)) op /\
        at_path op ["requestBody"; "content"; "application/json"; "schema"] sc /\ conforms doc sc j.
    Proof.
      intros V Rw B G N T Pr Pu. destruct (whole_sent W E transport o incomplete show_float show_any spare v St Co Fa m r h w p y V Rw) as (rs & e & w' & h' & q & text & j & Sd & Hb & Dc & Sh); auto; [rewrite B; discriminate|].
      destruct (request_schema p [] B) as (paths & op & sc & F & O & A & BS). exists rs, e, w', h', q, text, j, paths, op, sc. repeat (split; [assumption|]).
      assert (hr_method q = http_method m) as ->.
      { destruct (request_sent W E transport o incomplete show_float show_any spare v m r h w rs e w' h' [q] V Sd) as (_ & [(X & _)|(q' & l & [= <-] & _ & M & _)]); [discriminate|assumption]. }
      repeat (split; [assumption|]). destruct BS as [(p' & l & [= <-] & _ & TS & ->)|(A' & l & _ & ->)].
      - eapply published_value; eauto.
      - exfalso. destruct A' as [A'|A']; [|cbn in A'; lia]. apply is_action_spec in A'. destruct Rw as [(ws & Iw & Ca & _)|[(Ca & _)|(Ca & _)]].
        + apply (A' ws); [|assumption]. cbn in Iw |- *. intuition.
        + apply (A' ["post"]); [cbn; tauto|assumption].
        + apply (A' ["search"]); [cbn; tauto|assumption].
    Qed.

    Lemma published_actions r h w rs e w' h' q : request_valid h r -> action m -> request_body_params v m <> [] ->
      fields_typed v (rq_fields r) (request_body_params v m) ->
      (forall p y, In p (request_body_params v m) -> mget (go_private (p_name p)) (rq_fields r) = Some y -> y <> VNil -> publishable v (p_type p) y) ->
      (forall p, In p (request_body_params v m) -> json_name (p_annots p) = "") ->
      (forall p p', In p (request_body_params v m) -> In p' (request_body_params v m) -> snake (p_name p) = snake (p_name p') -> p = p') ->
      send_context W E transport o incomplete show_float show_any spare v m r h w = Finished W E rs e w' h' [q] ->
      exists text j paths op sc, hr_body q = Some text /\ json_document text j /\
        OpenapiSpec.field doc "paths" paths /\ operation paths (template s v path m) (str_lower (hr_method q)) op /\
        at_path op ["requestBody"; "content"; "application/json"; "schema"] sc /\ conforms doc sc j.
    Proof.
      intros V Ac NE FT Pu NA ND Sd. destruct (action_sent W E transport o incomplete show_float show_any spare v St Co Fa m r h w rs e w' h' q V Ac NE FT Sd) as (text & ms & Hb & Dc & Sh).
      assert (EB : request_body_params v m = filter p_in (m_params m)) by (unfold request_body_params; now rewrite (proj2 (is_action_spec m) Ac)). rewrite <- EB in Sh.
      destruct (request_body_params v m) as [|p0 ps0] eqn:B; [contradiction|]. destruct (request_schema p0 ps0 B) as (paths & op & sc & F & O & A & BS).
      exists text, (JObj ms), paths, op, sc. repeat (split; [assumption|]).
      assert (hr_method q = http_method m) as ->.
      { destruct (request_sent W E transport o incomplete show_float show_any spare v m r h w rs e w' h' [q] V Sd) as (_ & [(X & _)|(q' & l & [= <-] & _ & M & _)]); [discriminate|assumption]. }
      repeat (split; [assumption|]). destruct BS as [(p' & l & _ & X & _)|(_ & l & TS & ->)]; [rewrite (proj2 (is_action_spec m) Ac) in X; discriminate|].
      apply conforms_keywords; cbn; try (intros; keys; fail); try (intuition discriminate).
      - intros t0 I. keys. do 4 right. left. split; [reflexivity|eauto].
      - intros qs ms' n sc x' I [= <-] IS IX. assert (qs = l) as -> by (keys; reflexivity). clear I.
        destruct (Forall2_In_r _ _ _ _ TS IS) as (p & Ip & ts & Ts & [= -> ->]).
        destruct (parameters_member o _ _ _ _ _ Sh IX) as (p' & y & Ip' & G & NN & En & Sy).
        assert (E2 : body_parameter_name p' = snake (p_name p')) by (unfold body_parameter_name, name_or; now rewrite (NA p' Ip')).
        rewrite E2 in En. pose proof (ND p p' Ip Ip' En) as <-. apply conforms_described.
        destruct (FT p y Ip G) as [->|T]; [contradiction|]. eapply published_value; eauto.
    Qed.
  End Sending.
End Published.
