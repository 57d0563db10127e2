(** Proofs about the generator of OpenAPI specifications: the documents of the methods and of the types. *)
From Coq Require Import Ascii String Bool Arith ZArith NArith Lia List.
From Verif Require Import GoStrings GoStringsProofs GoMap GoMapProofs NamesModel ConceptsModel ReporterModel ReaderModel ReaderSpec BindingModel
  ObjectsModel ObjectsSpec TextModel BufferModel BufferSpec BufferProofs3 JsonModel JsonSpec JsonTextModel JsonTextSpec
  ChecksModel ChecksSpec PathsModel OpenapiModel OpenapiSpec OpenapiProofs.
Import ListNotations.
Local Open Scope string_scope.

(** * Calls that add members and items *)

Definition yields (l : list command) (ms : list (string * json)) : Prop :=
  forall rest n acc st, build (l ++ rest)%list (FObj n acc :: st) = build rest (FObj n (acc ++ ms)%list :: st).
Definition adds (l : list command) (xs : list json) : Prop :=
  forall rest n acc st, build (l ++ rest)%list (FArr n acc :: st) = build rest (FArr n (acc ++ xs)%list :: st).

Ltac run := repeat (progress (rewrite <- ?app_assoc; cbn [app build step can_push push_value scalar_json]) ||
  match goal with
  | H : yields ?l _ |- context [build (?l ++ _)%list] => rewrite H
  | H : adds ?l _ |- context [build (?l ++ _)%list] => rewrite H
  end).

Lemma yields_app a b x y : yields a x -> yields b y -> yields (a ++ b)%list (x ++ y)%list.
Proof. intros A B rest n acc st. run. reflexivity. Qed.
Lemma yields_nil : yields [] [].
Proof. intros rest n acc st. cbn [app]. now rewrite app_nil_r. Qed.
Lemma adds_nil : adds [] [].
Proof. intros rest n acc st. cbn [app]. now rewrite app_nil_r. Qed.

Lemma yields_each {A} (f : A -> list command) (P : A -> string * json -> Prop) l :
  (forall a, In a l -> exists x, yields (f a) [x] /\ P a x) -> exists xs, yields (flat_map f l) xs /\ Forall2 P l xs.
Proof.
  induction l as [|a l IH]; intros H.
  - exists []. split; [apply yields_nil|constructor].
  - destruct (H a (or_introl eq_refl)) as (x & Y & Q). destruct IH as (xs & Ys & Qs); [intros b I; apply H; now right|].
    exists (x :: xs). split; [|now constructor]. cbn [flat_map]. apply (yields_app _ _ [x] xs); auto.
Qed.
Lemma yields_all {A} (f : A -> list command) (P : A -> list (string * json) -> Prop) l :
  (forall a, In a l -> exists x, yields (f a) x /\ P a x) -> exists xs, yields (flat_map f l) (concat xs) /\ Forall2 P l xs.
Proof.
  induction l as [|a l IH]; intros H.
  - exists []. split; [apply yields_nil|constructor].
  - destruct (H a (or_introl eq_refl)) as (x & Y & Q). destruct IH as (xs & Ys & Qs); [intros b I; apply H; now right|].
    exists (x :: xs). split; [|now constructor]. cbn [flat_map concat]. now apply yields_app.
Qed.
Lemma adds_each {A} (f : A -> list command) (P : A -> json -> Prop) l :
  (forall a, In a l -> exists x, adds (f a) [x] /\ P a x) -> exists xs, adds (flat_map f l) xs /\ Forall2 P l xs.
Proof.
  induction l as [|a l IH]; intros H.
  - exists []. split; [apply adds_nil|constructor].
  - destruct (H a (or_introl eq_refl)) as (x & Y & Q). destruct IH as (xs & Ys & Qs); [intros b I; apply H; now right|].
    exists (x :: xs). split; [|now constructor]. cbn [flat_map]. intros rest n acc st. run. reflexivity.
Qed.

Lemma Forall2_length {A B} (P : A -> B -> Prop) l m : Forall2 P l m -> length l = length m.
Proof. induction 1; cbn; congruence. Qed.

Lemma Forall2_in_l {A B} (P : A -> B -> Prop) l m a : Forall2 P l m -> In a l -> exists b, In b m /\ P a b.
Proof. induction 1 as [|x y l m H F IH]; intros I; [destruct I|]. destruct I as [->|I]; [exists y; split; [now left|assumption]|]. destruct (IH I) as (b & J & Q). exists b. split; [now right|assumption]. Qed.
Lemma Forall2_in_r {A B} (P : A -> B -> Prop) l m b : Forall2 P l m -> In b m -> exists a, In a l /\ P a b.
Proof. induction 1 as [|x y l m H F IH]; intros I; [destruct I|]. destruct I as [->|I]; [exists x; split; [now left|assumption]|]. destruct (IH I) as (a & J & Q). exists a. split; [now right|assumption]. Qed.

Lemma quiet_flat_map {A} (f : A -> list command) l a : quiet (flat_map f l) -> In a l -> quiet (f a).
Proof.
  intros Q I. apply Forall_forall. intros c C. apply (proj1 (Forall_forall _ _) Q). apply in_flat_map. eauto.
Qed.
Ltac quiets :=
  repeat match goal with
  | H : quiet (_ ++ _)%list |- _ => apply quiet_app in H; destruct H
  | H : Forall quiet_command (_ ++ _)%list |- _ => apply quiet_app in H; destruct H
  | H : Forall quiet_command (_ :: _) |- _ => apply Forall_cons_iff in H; destruct H
  | H : quiet (_ :: _) |- _ => apply Forall_cons_iff in H; destruct H
  end.

(** * Fields *)

Lemma field_head k x l : ~ In k (map fst l) -> field (JObj ((k, x) :: l)) k x.
Proof. exists [], l. auto. Qed.
Lemma field_tail k k' x y l : k <> k' -> field (JObj l) k x -> field (JObj ((k', y) :: l)) k x.
Proof. intros N (l1 & l2 & [= ->] & H). exists ((k', y) :: l1), l2. split; [reflexivity|]. cbn. intros [->|I]; auto. Qed.
Lemma no_field_intro k l : ~ In k (map fst l) -> no_field (JObj l) k.
Proof. exists l. auto. Qed.
Ltac absent := cbn [map fst app]; intros XX; repeat (destruct XX as [XX|XX]; [discriminate XX|]); exact XX.
Ltac find_field := first [apply field_head; absent | apply field_tail; [discriminate|find_field]].
Ltac find_path := first [apply at_here | eapply at_member; [find_field|find_path]].
Ltac find_none := apply no_field_intro; absent.

Lemma described_app doc l : described doc l = (described doc [] ++ l)%list.
Proof. unfold described. now destruct (String.eqb doc ""). Qed.
Lemma described_some doc l : String.eqb doc "" = false -> described doc l = ("description", JStr doc) :: l.
Proof. unfold described. now intros ->. Qed.
Lemma described_none doc l : String.eqb doc "" = true -> described doc l = l.
Proof. unfold described. now intros ->. Qed.

(** * Schema references *)

Lemma description_yields doc : yields (generate_description doc) (described doc []).
Proof. intros rest n acc st. unfold generate_description, described. destruct (String.eqb doc ""); run; [now rewrite app_nil_r|reflexivity]. Qed.

Lemma type_schema_fuel v fuel : forall k, quiet (generate_schema_reference fuel v k) ->
  exists l, yields (generate_schema_reference fuel v k) l /\ type_schema v k l.
Proof.
  induction fuel as [|fuel IH]; intros k Q; cbn [generate_schema_reference] in *; [quiets; contradiction|]. unfold type_at in *.
  destruct (mget k (v_types v)) as [t|] eqn:T; [|quiets; contradiction]. unfold is_builtin in *.
  change (name_key nBoolean) with "boolean" in *. change (name_key nInteger) with "integer" in *. change (name_key nLong) with "long" in *.
  change (name_key nFloat) with "float" in *. change (name_key nString) with "string" in *. change (name_key nDate) with "date" in *.
  change (name_key nInterface) with "interface" in *.
  assert (P : forall l, In (k, l) predefined -> yields (map (fun p => Field (fst p) (snd p)) l) l -> exists l', yields (map (fun p => Field (fst p) (snd p)) l) l' /\ type_schema v k l').
  { intros l I Y. exists l. split; [assumption|]. eapply ts_predefined; eauto. }
  assert (Y1 : forall n s, yields [Field n (JStr s)] [(n, JStr s)]) by (intros n s rest m acc st; run; reflexivity).
  assert (Y2 : forall n s n' s', yields [Field n (JStr s); Field n' (JStr s')] [(n, JStr s); (n', JStr s')])
    by (intros n s n' s' rest m acc st; run; reflexivity).
  destruct (String.eqb_spec k "boolean") as [->|N1]; [apply (P [("type", JStr "boolean")]); [cbn; auto 10|apply Y1]|].
  destruct (String.eqb_spec k "integer") as [->|N2]; [apply (P [("type", JStr "integer"); ("format", JStr "int32")]); [cbn; auto 10|apply Y2]|].
  destruct (String.eqb_spec k "long") as [->|N3]; [apply (P [("type", JStr "integer"); ("format", JStr "int64")]); [cbn; auto 10|apply Y2]|].
  destruct (String.eqb_spec k "float") as [->|N4]; [apply (P [("type", JStr "number"); ("format", JStr "float")]); [cbn; auto 10|apply Y2]|].
  destruct (String.eqb_spec k "string") as [->|N5]; [apply (P [("type", JStr "string")]); [cbn; auto 10|apply Y1]|].
  destruct (String.eqb_spec k "date") as [->|N6]; [apply (P [("type", JStr "string"); ("format", JStr "date-time")]); [cbn; auto 10|apply Y2]|].
  destruct (String.eqb_spec k "interface") as [->|N7]; [apply (P [("type", JStr "object")]); [cbn; auto 10|apply Y1]|].
  assert (N : ~ In k (map fst predefined)) by (cbn; intuition).
  unfold is_enum, is_struct, is_list, is_map in *.
  destruct (t_kind t) eqn:K; cbn [kind_eqb orb] in *.
  - quiets. exfalso. eapply errors_one. eassumption.
  - eexists. split; [apply Y1|]. eapply ts_named; eauto. rewrite K. cbn. auto.
  - eexists. split; [apply Y1|]. eapply ts_named; eauto. rewrite K. cbn. auto.
  - quiets. exfalso. eapply errors_one. eassumption.
  - quiets. destruct (t_element t) as [e|] eqn:E; [|quiets; contradiction]. destruct (IH e) as (l & Y & S); [assumption|].
    eexists. split; [|eapply ts_list; eauto]. intros rest n acc st. run. reflexivity.
  - quiets. destruct (t_element t) as [e|] eqn:E; [|quiets; contradiction]. destruct (IH e) as (l & Y & S); [assumption|].
    eexists. split; [|eapply ts_map; eauto]. intros rest n acc st. run. reflexivity.
  - quiets. exfalso. eapply errors_one. eassumption.
  - eexists. split; [apply Y1|]. eapply ts_named; eauto. rewrite K. cbn. auto.
Qed.

(** * Methods *)

Definition content_of (l : list (string * json)) : string * json := ("content", JObj [("application/json", JObj [("schema", JObj l)])]).

Lemma json_content_yields schema l : yields schema l -> yields (json_content schema) [content_of l].
Proof. intros Y rest n acc st. unfold json_content. run. reflexivity. Qed.

Definition error_ref : string * json := ("$ref", JStr "#/components/schemas/Error").
Definition default_response : string * json := ("default", JObj [("description", JStr "Error."); content_of [error_ref]]).
Lemma default_response_yields : yields generate_default_response [default_response].
Proof. intros rest n acc st. unfold generate_default_response, json_content. cbn [generate_description String.eqb]. run. reflexivity. Qed.
Lemma default_response_spec : error_response (snd default_response).
Proof. split; [find_field|]. find_path. Qed.

Section Methods.
  Context (fuel : nat) (s : service) (v : version).

  Lemma property_yields p : quiet (generate_parameter_property fuel v p) ->
    exists x, yields (generate_parameter_property fuel v p) [x] /\ property v (snake (p_name p)) (p_doc p) (p_type p) x.
  Proof.
    intros Q. unfold generate_parameter_property in *. quiets. destruct (type_schema_fuel v fuel (p_type p)) as (l & Y & T); [assumption|].
    pose proof (description_yields (p_doc p)) as D.
    exists (snake (p_name p), JObj (described (p_doc p) l)). split; [|exists l; auto]. intros rest n acc st. run. now rewrite <- described_app.
  Qed.

  Lemma body_yields m ps : ps <> [] -> quiet (generate_body_schema fuel v m ps) ->
    exists l, yields (generate_body_schema fuel v m ps) l /\ body_schema v m ps (JObj l).
  Proof.
    intros N Q. unfold generate_body_schema in *. destruct (Nat.ltb 1 (length ps) || is_action m) eqn:E.
    - quiets. destruct (yields_each (generate_parameter_property fuel v) (fun p x => property v (snake (p_name p)) (p_doc p) (p_type p) x) ps) as (xs & Y & F).
      { intros a I. apply property_yields. eapply quiet_flat_map; eauto. }
      exists [("type", JStr "object"); ("properties", JObj xs)]. split; [intros rest n acc st; run; reflexivity|]. right. split; [|eauto].
      apply orb_true_iff in E as [E|E]; [right; apply Nat.ltb_lt in E; lia|now left].
    - apply orb_false_iff in E as [E A]. apply Nat.ltb_ge in E. destruct ps as [|p [|p' ps]]; [congruence| |cbn in E; lia].
      destruct (type_schema_fuel v fuel (p_type p)) as (l & Y & T); [assumption|]. exists l. split; [assumption|]. left. exists p, l. auto.
  Qed.

  Lemma path_parameter_adds l : exists x, adds (generate_path_parameter l) [x] /\ path_parameter l x.
  Proof.
    eexists. split; [intros rest n acc st; unfold generate_path_parameter; run; reflexivity|]. cbn [app].
    split; [find_field|]. split; [find_field|]. split; [find_field|]. find_path.
  Qed.

  Lemma query_parameter_adds p : quiet (generate_query_parameter fuel v p) -> exists x, adds (generate_query_parameter fuel v p) [x] /\ query_parameter v p x.
  Proof.
    intros Q. unfold generate_query_parameter in *. quiets. destruct (type_schema_fuel v fuel (p_type p)) as (l & Y & T); [assumption|].
    pose proof (description_yields (p_doc p)) as D.
    exists (JObj (("name", JStr (query_parameter_name p)) :: described (p_doc p) [("in", JStr "query"); ("schema", JObj l)])).
    split; [intros rest n acc st; run; rewrite (described_app (p_doc p) [_; _]); reflexivity|].
    unfold query_parameter. destruct (String.eqb (p_doc p) "") eqn:E.
    - rewrite described_none by assumption. repeat split; try find_field; try find_none. exists l. split; [assumption|find_field].
    - rewrite described_some by assumption. repeat split; try find_field; try find_none. exists l. split; [assumption|find_field].
  Qed.

  Lemma url_parameters_yields path m : quiet (generate_url_parameters fuel v path m) ->
    exists a b, Forall2 path_parameter (filter l_variable path) a /\ Forall2 (query_parameter v) (request_query_params v m) b /\
      yields (generate_url_parameters fuel v path m) (match (a ++ b)%list with [] => [] | l => [("parameters", JArr l)] end).
  Proof.
    intros Q. unfold generate_url_parameters in *.
    destruct (adds_each generate_path_parameter path_parameter (filter l_variable path)) as (a & A & FA); [intros; apply path_parameter_adds|].
    destruct (Nat.ltb_spec 0 (length (filter l_variable path) + length (request_query_params v m))) as [L|L].
    - quiets. destruct (adds_each (generate_query_parameter fuel v) (query_parameter v) (request_query_params v m)) as (b & B & FB).
      { intros p I. apply query_parameter_adds. eapply quiet_flat_map; eauto. }
      exists a, b. split; [assumption|]. split; [assumption|].
      destruct (a ++ b)%list as [|x l] eqn:E.
      + apply Forall2_length in FA, FB. apply app_eq_nil in E as [-> ->]. cbn in *. lia.
      + rewrite <- E. intros rest n acc st. run. reflexivity.
    - assert (E : a = [] /\ request_query_params v m = []).
      { apply Forall2_length in FA. destruct a; [|cbn in FA; lia]. destruct (request_query_params v m); [auto|cbn in L; lia]. }
      destruct E as [-> ->]. exists [], []. split; [assumption|]. split; [constructor|]. apply yields_nil.
  Qed.

  Lemma responses_yields m : quiet (generate_responses fuel v m) ->
    exists ok, yields (generate_responses fuel v m) [("responses", JObj [(default_status m, ok); default_response])] /\
      field ok "description" (JStr "Success.") /\
      match response_params m with
      | [] => no_field ok "content"
      | ps => exists x, at_path ok ["content"; "application/json"; "schema"] x /\ body_schema v m ps x
      end.
  Proof.
    intros Q. unfold generate_responses in *. quiets. pose proof default_response_yields as D.
    remember (default_status m) as ds. clear Heqds. remember (response_params m) as ps. destruct ps as [|p ps]; cbn [length Nat.ltb Nat.leb] in *.
    - eexists. split; [intros rest n acc st; cbn [generate_description String.eqb]; run; reflexivity|]. cbn [app]. split; [find_field|find_none].
    - unfold json_content in *. quiets. destruct (body_yields m (p :: ps)) as (l & Y & B); [discriminate|assumption|].
      eexists. split; [intros rest n acc st; cbn [generate_description String.eqb]; run; reflexivity|]. cbn [app]. split; [find_field|].
      exists (JObj l). split; [find_path|assumption].
  Qed.

  Lemma method_yields path m : quiet (generate_method fuel v path m) ->
    exists op, yields (generate_method fuel v path m) [(str_lower (http_method m), op)] /\ describes v path m op.
  Proof.
    intros Q. unfold generate_method in *. quiets. destruct (url_parameters_yields path m) as (a & b & FA & FB & YU); [assumption|].
    destruct (responses_yields m) as (ok & YR & OK1 & OK2); [assumption|]. pose proof (description_yields (m_doc m)) as D.
    remember (match (a ++ b)%list with [] => [] | l => [("parameters", JArr l)] end) as up.
    remember (str_lower (http_method m)) as verb. clear Heqverb.
    assert (R : exists rb, yields (if Nat.ltb 0 (length (request_body_params v m)) then
        [StartObject (Some "requestBody")] ++ json_content (generate_body_schema fuel v m (request_body_params v m)) ++ [EndObject] else [])%list rb /\
      match request_body_params v m with
      | [] => rb = []
      | ps => exists l, rb = [("requestBody", JObj [content_of l])] /\ body_schema v m ps (JObj l)
      end).
    { remember (request_body_params v m) as ps. destruct ps as [|p ps]; cbn [length Nat.ltb Nat.leb] in *.
      - exists []. split; [apply yields_nil|reflexivity].
      - unfold json_content in *. quiets. destruct (body_yields m (p :: ps)) as (l & Y & B); [discriminate|assumption|].
        eexists. split; [intros rest n acc st; run; reflexivity|]. exists l. auto. }
    destruct R as (rb & YB & RB).
    exists (JObj (described (m_doc m) (up ++ rb ++ [("responses", JObj [(default_status m, ok); default_response])])%list)).
    split.
    { intros rest n acc st. run. f_equal. f_equal. f_equal. f_equal. f_equal. f_equal. f_equal. rewrite (described_app (m_doc m) (_ ++ _)). reflexivity. }
    remember (request_body_params v m) as ps.
    assert (UP : match up with [] => (a ++ b)%list = [] | x :: r => r = [] /\ fst x = "parameters" /\ snd x = JArr (a ++ b) /\ (a ++ b)%list <> [] end).
    { subst up. destruct (a ++ b)%list; cbn; auto. repeat split. discriminate. }
    assert (RB' : match rb with [] => ps = [] | x :: r => r = [] /\ ps <> [] /\ exists l, x = ("requestBody", JObj [content_of l]) /\ body_schema v m ps (JObj l) end).
    { destruct ps; [now subst rb|]. destruct RB as (l & -> & B). repeat split; [discriminate|eauto]. }
    clear YU YB Hequp RB.
    assert (Resp : field (JObj (described (m_doc m) (up ++ rb ++ [("responses", JObj [(default_status m, ok); default_response])])%list)) "responses"
      (JObj [(default_status m, ok); default_response])).
    { unfold described. remember (default_status m) as ds.
      destruct up as [|[pn pv] [|? ?]], rb as [|[bn bv] [|? ?]]; try (destruct UP as [UP ?]; discriminate UP); try (destruct RB' as [RB' ?]; discriminate RB');
        cbn [fst snd] in *; repeat match goal with H : _ /\ _ |- _ => destruct H | H : exists _, _ |- _ => destruct H end; subst;
        repeat match goal with H : (_, _) = (_, _) |- _ => injection H as -> -> end; destruct (String.eqb (m_doc m) ""); cbn [app]; find_field. }
    unfold describes. split; [|split; [|split]].
    - unfold described.
      destruct up as [|[pn pv] [|? ?]], rb as [|[bn bv] [|? ?]]; try (destruct UP as [UP ?]; discriminate UP); try (destruct RB' as [RB' ?]; discriminate RB');
        cbn [fst snd] in *; repeat match goal with H : _ /\ _ |- _ => destruct H | H : exists _, _ |- _ => destruct H end; subst;
        repeat match goal with H : (_, _) = (_, _) |- _ => injection H as -> -> end; destruct (String.eqb (m_doc m) ""); cbn [app]; first [find_field|find_none].
    - exists a, b. split; [assumption|]. split; [assumption|]. remember (default_status m) as ds.
      destruct up as [|[pn pv] [|? ?]]; try (destruct UP as [UP ?]; discriminate UP).
      + rewrite UP. unfold described. destruct rb as [|[bn bv] [|? ?]]; try (destruct RB' as [RB' ?]; discriminate RB');
          repeat match goal with H : _ /\ _ |- _ => destruct H | H : exists _, _ |- _ => destruct H end; subst;
          repeat match goal with H : (_, _) = (_, _) |- _ => injection H as -> -> end; destruct (String.eqb (m_doc m) ""); cbn [app]; find_none.
      + destruct UP as (_ & U1 & U2 & U3). cbn [fst snd] in *. subst pn pv. destruct (a ++ b)%list as [|x r] eqn:E; [congruence|]. unfold described.
        destruct rb as [|[bn bv] [|? ?]]; try (destruct RB' as [RB' ?]; discriminate RB');
          repeat match goal with H : _ /\ _ |- _ => destruct H | H : exists _, _ |- _ => destruct H end; subst;
          repeat match goal with H : (_, _) = (_, _) |- _ => injection H as -> -> end; destruct (String.eqb (m_doc m) ""); cbn [app]; find_field.
    - rewrite <- Heqps. clear Heqps. remember (default_status m) as ds. destruct rb as [|[bn bv] [|? ?]]; try (destruct RB' as [RB' ?]; discriminate RB').
      + rewrite RB'. unfold described. destruct up as [|[pn pv] [|? ?]]; try (destruct UP as [UP ?]; discriminate UP);
          cbn [fst snd] in *; repeat match goal with H : _ /\ _ |- _ => destruct H end; subst; destruct (String.eqb (m_doc m) ""); cbn [app]; find_none.
      + destruct RB' as (_ & NP & l & [= -> ->] & B). destruct ps as [|p ps]; [congruence|]. exists (JObj l). split; [|assumption]. unfold described, content_of.
        destruct up as [|[pn pv] [|? ?]]; try (destruct UP as [UP ?]; discriminate UP);
          cbn [fst snd] in *; repeat match goal with H : _ /\ _ |- _ => destruct H end; subst; destruct (String.eqb (m_doc m) ""); cbn [app]; find_path.
    - exists [(default_status m, ok); default_response], ok, (snd default_response). split; [exact Resp|]. split; [reflexivity|].
      split; [assumption|]. split; [assumption|apply default_response_spec].
  Qed.
End Methods.
