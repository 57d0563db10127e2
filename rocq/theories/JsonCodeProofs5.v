(** Proofs about the code that reads and writes JSON documents: the functions of the methods. *)
From Coq Require Import Ascii String Bool Arith ZArith Lia Permutation List.
From Verif Require Import GoStrings GoStringsProofs GoMap GoMapProofs NamesModel NamesSpec NamesProofs ConceptsModel ReporterModel ChecksModel ChecksSpec BindingModel GoNamesModel BufferModel ObjectsModel ObjectsProofs DeclsModel OpenapiProofs5
  GoTypesModel JsonCodeModel JsonModel JsonSpec ObjectsSpec GoTypesSpec JsonCodeSpec GoTypesProofs GoTypesProofs2 GoTypesProofs3 GoTypesProofs4 GoTypesProofs5 JsonCodeProofs JsonCodeProofs2 JsonCodeProofs3 JsonCodeProofs4.
Import ListNotations.
Local Open Scope string_scope.

Lemma called_private ws n : called ws n -> go_private n = go_private (new_name (map (fun s => MkWord s false) ws)).
Proof. intros C. destruct n as [x l]. unfold called in C. cbn [n_words] in C. subst. reflexivity. Qed.
Lemma equals_called n m ws : n_words n = map (fun s => MkWord s false) ws -> (name_equals (Some m) (Some n) = true <-> called ws m).
Proof. intros H. rewrite name_equals_words, H. reflexivity. Qed.
Lemma equals_not n m ws : n_words n = map (fun s => MkWord s false) ws -> (name_equals (Some m) (Some n) = false <-> ~ called ws m).
Proof. intros H. rewrite <- (equals_called n m ws H). now rewrite not_true_iff_false. Qed.

Lemma distinct_in {A B} (f : A -> B) l x y : NoDup (map f l) -> In x l -> In y l -> f x = f y -> x = y.
Proof.
  induction l as [|a l IH]; intros N I J E; [contradiction|]. cbn [map] in N. inversion N as [|? ? N1 N2]; subst.
  destruct I as [->|I], J as [->|J]; auto; exfalso; apply N1; [rewrite E|rewrite <- E]; now apply in_map.
Qed.

Lemma last_found {A} (f : A -> bool) l o : fold_left (fun found p => if f p then Some p else found) l o =
  match fold_left (fun found p => if f p then Some p else found) l None with Some p => Some p | None => o end.
Proof.
  revert o. induction l as [|a l IH]; intros o; [reflexivity|]. cbn [fold_left]. rewrite IH. destruct (f a); [|reflexivity].
  symmetry. rewrite IH. now destruct (fold_left _ l None).
Qed.
Lemma last_some {A} (f : A -> bool) l p : fold_left (fun found p => if f p then Some p else found) l None = Some p -> In p l /\ f p = true.
Proof.
  induction l as [|a l IH]; [discriminate|]. cbn [fold_left]. rewrite last_found. destruct (fold_left _ l None) eqn:E.
  - intros H. destruct (IH H). split; [now right|assumption].
  - destruct (f a) eqn:F; [|discriminate]. intros H. replace p with a by congruence. split; [now left|exact F].
Qed.
Lemma last_none {A} (f : A -> bool) l : fold_left (fun found p => if f p then Some p else found) l None = None -> forall p, In p l -> f p = false.
Proof.
  induction l as [|a l IH]; [intros _ p []|]. cbn [fold_left]. rewrite last_found. destruct (fold_left _ l None); [discriminate|]. destruct (f a) eqn:F; [discriminate|].
  intros _ p [<-|I]; auto.
Qed.

Section Methods.
  Context (pkg : string) (v : version) (PKG : package_path pkg) (STD : standard v) (NAMED : named_well v).
  Context (fs : list func) (FN : functions_of pkg v fs).
  Context (r : resource) (m : method) (RES : In r (resources v)) (MET : In m (r_methods r)) (READY : method_ready v m).
  Notation compiles := (function_compiles pkg v fs).
  Notation gRequest := (GPtr (GNamed (exchange_name r m ++ "Request"))).
  Notation gResponse := (GPtr (GNamed (exchange_name r m ++ "Response"))).
  Notation yields := (yields pkg v fs).
  Notation statement := (statement pkg v fs [gError] false).
  Notation block := (block pkg v fs [gError] false).

  Lemma exchange_written s : In s ["Request"; "Response"] -> written v ("*" ++ exchange_name r m ++ s) (GPtr (GNamed (exchange_name r m ++ s))).
  Proof.
    intros I. right. right. exists (exchange_name r m ++ s). split; [|auto]. unfold clients_decls. apply in_or_app. right. apply in_flat_map. exists r. split; [exact RES|].
    apply in_or_app. right. apply in_or_app. right. apply in_flat_map. exists m. split; [exact MET|]. cbn in I. destruct I as [<-|[<-|[]]]; cbn; auto.
  Qed.

  Definition request_env : env := MkEnv [("request", gRequest); ("writer", gWriter)] [] false.
  Definition response_env : env := MkEnv [("response", gResponse); ("reader", gReader)] [] false.
  Lemma request_func_ok body : block request_env body -> (exists l es, body = (l ++ [TReturn es])%list) -> compiles (request_func r m body).
  Proof.
    intros B E. exists [gRequest; gWriter], [gError]. cbn [request_func fn_params fn_results fn_body map snd fst].
    split; [constructor; [apply exchange_written; cbn; auto|constructor; [apply library_written; listed|constructor]]|]. split; [constructor; [apply library_written; listed|constructor]|].
    cbn [combine filter fst String.eqb negb app length Nat.eqb map]. split; [repeat constructor; cbn; intuition discriminate|]. auto.
  Qed.
  Lemma response_func_ok body : block response_env body -> (exists l es, body = (l ++ [TReturn es])%list) -> compiles (response_func r m body).
  Proof.
    intros B E. exists [gResponse; gReader], [gError]. cbn [response_func fn_params fn_results fn_body map snd fst].
    split; [constructor; [apply exchange_written; cbn; auto|constructor; [apply library_written; listed|constructor]]|]. split; [constructor; [apply library_written; listed|constructor]|].
    cbn [combine filter fst String.eqb negb app length Nat.eqb map]. split; [repeat constructor; cbn; intuition discriminate|]. auto.
  Qed.
  Definition body_ok (c : env) (l : list stm) : Prop := block c l /\ exists l' es, l = (l' ++ [TReturn es])%list.
  Lemma nothing_ok c : body_ok c nothing.
  Proof. split; [|exists [], [XNil]; reflexivity]. apply bl_statement; [|apply bl_nil]. apply st_return. constructor; [apply x_nil; now right|constructor]. Qed.

  (** * Fields *)

  Lemma same_field p : In p (m_params m) -> parameter_field p = json_parameter_field p.
  Proof.
    intros I. destruct READY as (_ & P & _). destruct (P p I) as (_ & N). unfold parameter_field, avoid_builtin, json_parameter_field.
    destruct (existsb (String.eqb (go_private (p_name p))) builtin_fields) eqn:E; [|reflexivity]. exfalso. apply N. apply existsb_exists in E as (x & J & E). apply String.eqb_eq in E. rewrite E. exact J.
  Qed.
  Lemma parameter_acceptable p : In p (m_params m) -> acceptable v (p_type p) false.
  Proof. intros I. destruct READY as (_ & P & _). now destruct (P p I). Qed.

  (** The type of the field, given the type of the values. *)
  Definition field_type (t : typ) (g f : gotype) : Prop :=
    t_kind t = InterfaceType /\ f = GAny /\ g = GAny \/ is_scalar t = true /\ t_kind t <> InterfaceType /\ f = GPtr g \/ is_scalar t = false /\ f = g.

  Lemma request_field_ok p t g : In p (request_params m) -> is_items m p = false -> mget (p_type p) (v_types v) = Some t -> represents v (p_type p) false g ->
    exists f, has_field pkg v gRequest (json_parameter_field p) f /\ field_type t g f.
  Proof.
    intros I NI G R. assert (J : In p (m_params m)) by now apply filter_In in I. pose proof (parameter_acceptable p J) as A.
    assert (X : exists f n, nullable_reference pkg v (p_type p) t = Done (n, []) /\ denotes (rendered pkg n) f /\ field_type t g f /\ is_scalar t || is_struct t || is_list t || is_map t = true /\
      exists a l, accessor_type pkg v false (p_type p) t = Done (a, l)).
    { destruct (scalar_cases v _ t A G) as [K|K].
      - destruct (scalar_text pkg v PKG STD NAMED _ t G K) as (r0 & n & g' & z & V & N & R' & D & DD & Z & C & X). destruct (scalar_is t K) as (I1 & I2 & I3 & I4).
        replace g' with g in * by (apply (represents_unique v STD (p_type p) false); assumption). unfold accessor_type. rewrite I1, I3, V. cbn [orb andb].
        destruct X as [(X1 & -> & X2)|(X1 & X2)]; [exists GAny, n|exists (GPtr g), n]; (split; [exact N|]); (split; [exact X2|]); (split; [unfold field_type; auto 10|]); (split; [reflexivity|eauto]).
      - destruct (nullable_text pkg v PKG STD NAMED _ t A G K) as (n & g' & N & R' & D & DD & X). replace g' with g in * by (apply (represents_unique v STD (p_type p) false); assumption).
        assert (S : is_scalar t = false) by (unfold is_scalar; destruct (t_kind t); cbn in K |- *; try reflexivity; exfalso; auto).
        assert (SLM : is_struct t || is_list t || is_map t = true).
        { destruct X as [(X & _)|[(X & _)|(X & _)]]; [now destruct (struct_is t X) as (_ & -> & _)|destruct (list_is t X) as (_ & -> & -> & _); reflexivity|destruct (map_is t X) as (_ & -> & -> & -> & _); reflexivity]. }
        exists g, n. split; [exact N|]. split; [exact D|]. split; [right; right; auto|]. rewrite S. split; [exact SLM|]. unfold accessor_type. rewrite N, S, SLM. destruct (is_list t && scalar_element v t); eauto. }
    destruct X as (f & n & N & D & F & SLM & a & l & AT). exists f. split; [|exact F]. rewrite <- (same_field p J). eapply f_request; [exact RES|exact MET|exact I| |].
    - unfold generate_request. change (type_at (p_type p) v) with (mget (p_type p) (v_types v)). rewrite G, NI, AT. unfold parameter_type. rewrite SLM, N. reflexivity.
    - exact D.
  Qed.

  (** The field of the items. *)
  Definition items_type (t : typ) (g f : gotype) : Prop :=
    scalar_element v t = true /\ f = g \/
    scalar_element v t = false /\ exists e te, t_element t = Some e /\ mget e (v_types v) = Some te /\ structural te /\ g = GSlice (GPtr (GNamed (object_name te))) /\ f = GPtr (GNamed (object_name te ++ "List")).

  Lemma response_field_ok p t g : In p (response_params m) -> (is_items m p = true -> t_kind t = ListType) -> mget (p_type p) (v_types v) = Some t -> represents v (p_type p) false g ->
    exists f, has_field pkg v gResponse (json_parameter_field p) f /\ (is_items m p = false -> field_type t g f) /\ (is_items m p = true -> items_type t g f).
  Proof.
    intros I IL G R. assert (J : In p (m_params m)) by now apply filter_In in I. pose proof (parameter_acceptable p J) as A.
    assert (FIELD : forall c l f, generate_response pkg v m p = Done (c, l) -> denotes (pc_field c) f -> has_field pkg v gResponse (json_parameter_field p) f).
    { intros c l f H D. rewrite <- (same_field p J). eapply f_response; eauto. }
    unfold generate_response in FIELD. change (type_at (p_type p) v) with (mget (p_type p) (v_types v)) in FIELD. rewrite G in FIELD. cbv zeta in FIELD.
    destruct (scalar_cases v _ t A G) as [K|K].
    - assert (NI : is_items m p = false) by (destruct (is_items m p); [rewrite (IL eq_refl) in K; cbn in K; intuition discriminate|reflexivity]).
      destruct (scalar_text pkg v PKG STD NAMED _ t G K) as (r0 & n & g' & z & V & N & R' & D & DD & Z & C & X). destruct (scalar_is t K) as (I1 & I2 & I3 & I4).
      replace g' with g in * by (apply (represents_unique v STD (p_type p) false); assumption). rewrite NI in *. unfold parameter_type, accessor_type in FIELD. rewrite I1, I3, V, N, Z in FIELD. cbn [orb andb] in FIELD.
      destruct X as [(X1 & -> & X2)|(X1 & X2)]; [exists GAny|exists (GPtr g)]; (split; [eapply FIELD; [reflexivity|exact X2]|]); (split; [unfold field_type; auto 10|discriminate]).
    - destruct (nullable_text pkg v PKG STD NAMED _ t A G K) as (n & g' & N & R' & D & DD & X). replace g' with g in * by (apply (represents_unique v STD (p_type p) false); assumption).
      assert (S : is_scalar t = false) by (unfold is_scalar; destruct (t_kind t); cbn in K |- *; try reflexivity; exfalso; auto).
      assert (SLM : is_struct t || is_list t || is_map t = true).
      { destruct X as [(X & _)|[(X & _)|(X & _)]]; [now destruct (struct_is t X) as (_ & -> & _)|destruct (list_is t X) as (_ & -> & -> & _); reflexivity|destruct (map_is t X) as (_ & -> & -> & -> & _); reflexivity]. }
      assert (FT : field_type t g g) by (right; right; auto).
      rewrite S in FIELD. destruct (is_list t) eqn:LT.
      + assert (KL : t_kind t = ListType) by (unfold is_list in LT; destruct (t_kind t); try discriminate; reflexivity).
        pose proof A as (t' & G' & _ & P & _). replace t' with t in * by congruence. destruct (flat_kind v t) as (e & te & E & GE & KE); [apply P; rewrite KL; cbn; auto|].
        assert (SE : scalar_element v t = is_scalar te) by (unfold scalar_element; rewrite E; change (type_at e v) with (mget e (v_types v)); now rewrite GE).
        rewrite SE, (element_at v t e te E GE) in FIELD. cbn [andb] in FIELD. unfold items_type. rewrite SE. destruct KE as [KE|KE].
        * destruct (scalar_is te KE) as (J1 & J2 & J3 & J4). destruct (collection_scalar pkg v PKG STD NAMED "[]" t e te E GE KE slice_dotless) as (re & ge & RE & F & DE & CR & VE & DN & RI & RT & RP).
          assert (GG : g = GSlice ge) by (apply (represents_unique v STD (p_type p) false); [exact R|now apply (r_slice v _ t e)]).
          rewrite J1 in *. unfold accessor_type in FIELD. rewrite LT, SE, N, VE in FIELD. cbn [andb] in FIELD. exists g. split; [|split; auto].
          eapply FIELD; [reflexivity|]. cbn [pc_field]. rewrite GG, RT. now apply d_slice.
        * destruct (struct_is te KE) as (J1 & J2 & J3 & J4 & J5 & J6). destruct (struct_reference pkg v STD NAMED _ te GE KE) as (FR & V & ID & T & D1 & D2 & HB & D3).
          assert (OWN : type_package pkg e te = (pkg, path_base pkg, [])) by (apply (own_package pkg v STD _ te GE); destruct KE as [KE|KE]; rewrite KE; cbn; auto).
          rewrite J1 in *. unfold accessor_type, parameter_type in FIELD. rewrite LT, SE, S, N in FIELD. cbn [andb] in FIELD. destruct (is_items m p).
          -- exists (GPtr (GNamed (object_name te ++ "List"))). split; [|split; [discriminate|]].
             ++ unfold list_reference in FIELD. rewrite LT, E in FIELD. change (type_at e v) with (mget e (v_types v)) in FIELD. rewrite GE, OWN in FIELD. eapply FIELD; [reflexivity|]. cbn [pc_field].
                pose proof (identifier_app _ "List" ID eq_refl) as IDL. rewrite (render_own pkg PKG "*") by (try apply star_dotless; now apply identifier_dotless). exact (d_ptr _ _ (d_named _ IDL)).
             ++ intros _. right. split; [reflexivity|]. exists e, te. repeat (split; [auto; fail|]). split; [|reflexivity].
                apply (represents_unique v STD (p_type p) false); [exact R|apply (r_slice v _ t e); auto; now apply r_struct].
          -- exists g. split; [|split; [auto|discriminate]]. rewrite !orb_true_r in FIELD. cbn [orb] in FIELD. eapply FIELD; [reflexivity|exact D].
      + assert (NI : is_items m p = false) by (destruct (is_items m p); [unfold is_list in LT; rewrite (IL eq_refl) in LT; discriminate|reflexivity]). rewrite NI in *.
        exists g. split; [|split; [auto|discriminate]]. unfold accessor_type, parameter_type in FIELD. rewrite LT, S, N, SLM in FIELD. cbn [andb] in FIELD. rewrite orb_false_l, SLM in FIELD. eapply FIELD; [reflexivity|exact D].
  Qed.

  (** * Bodies *)

  Lemma marshal_body p t : In p (request_params m) -> is_items m p = false -> mget (p_type p) (v_types v) = Some t -> coded v t -> body_ok request_env (marshal_field t (json_parameter_field p)).
  Proof.
    intros I NI G C. destruct (coded_represented pkg v PKG STD NAMED _ t G C) as (g & R). destruct (request_field_ok p t g I NI G R) as (f & HF & FT).
    assert (f = g) as ->.
    { destruct FT as [(K & _)|[(S & _)|(_ & E)]]; [| |exact E]; exfalso; (destruct C as [[C|C]|(C & _)]; [| |]); try congruence; unfold is_scalar in S; rewrite C in S; discriminate. }
    destruct (FN _ t g G C R) as (_ & _ & F & _). split; [|eexists [], _; reflexivity]. apply bl_statement; [|apply bl_nil]. apply st_return, accepts_one. eapply y_call; [exact F|].
    constructor; [apply x_same; eapply y_field; [apply y_var; reflexivity|exact HF]|]. apply accepts_one, y_var. reflexivity.
  Qed.

  Lemma unmarshal_body p t : In p (response_params m) -> is_items m p = false -> mget (p_type p) (v_types v) = Some t -> coded v t -> body_ok response_env (unmarshal_field t (json_parameter_field p)).
  Proof.
    intros I NI G C. destruct (coded_represented pkg v PKG STD NAMED _ t G C) as (g & R). destruct (response_field_ok p t g I) as (f & HF & FT & _); [congruence|exact G|exact R|]. specialize (FT NI).
    assert (f = g) as ->.
    { destruct FT as [(K & _)|[(S & _)|(_ & E)]]; [| |exact E]; exfalso; (destruct C as [[C|C]|(C & _)]; [| |]); try congruence; unfold is_scalar in S; rewrite C in S; discriminate. }
    destruct (FN _ t g G C R) as (_ & _ & _ & F). split; [|eexists [_; _], _; reflexivity]. apply bl_var with (g := gError); [apply library_written; listed|reflexivity|reflexivity|].
    apply bl_statement; [|apply bl_statement; [|apply bl_nil]].
    - eapply st_assign_all; [eapply y_call; [exact F|]|].
      + constructor; [|constructor]. eapply x_any, y_var. reflexivity.
      + constructor; [|constructor; [|constructor]]; (split; [|exact Logic.I]); [eapply y_field; [apply y_var; reflexivity|exact HF]|apply y_var; reflexivity].
    - apply st_return, accepts_one, y_var. reflexivity.
  Qed.

  (** * Documents with members *)

  Lemma read_response_ok cases : NoDup (map fst cases) ->
    (forall x, In x cases -> forall c, variable c "response" = Some gResponse -> variable c "iterator" = Some gIterator -> en_inner c = [] -> block c (snd x)) ->
    body_ok response_env (read_response cases).
  Proof.
    intros N F. split; [|eexists [_; _; _], _; reflexivity]. apply define_two with (g := gIterator) (h := gError); [discriminate| |reflexivity|left; reflexivity| |reflexivity|].
    - eapply y_call; [apply c_library; listed|]. constructor; [|constructor]. eapply x_any, y_var. reflexivity.
    - rewrite !uses_cons. cbn [declares member_cases members negb andb]. replace (uses "iterator" []) with false by reflexivity. replace (used_in "iterator" (TReturn [XField the_iterator "Error"])) with true by reflexivity. now rewrite !orb_true_r.
    - apply bl_statement; [|apply bl_statement; [|apply bl_statement; [|apply bl_nil]]].
      + apply st_if; [eapply y_not_nil; [apply y_var; reflexivity|now right]| |apply bl_nil]. apply bl_statement; [|apply bl_nil]. apply st_return, accepts_one, y_var. reflexivity.
      + apply member_cases_ok; [reflexivity|exact N|]. intros x I c' O EI. apply (F x I); [rewrite O by discriminate; reflexivity|rewrite O by discriminate; reflexivity|exact EI].
      + apply st_return, accepts_one. eapply y_field; [apply y_var; reflexivity|apply f_iterator].
  Qed.

  Definition case_read (x : string * list stm) : Prop :=
    forall c, variable c "response" = Some gResponse -> variable c "iterator" = Some gIterator -> en_inner c = [] -> block c (snd x).

  Lemma read_parameter_ok p : In p (response_params m) -> is_items m p = false -> exists l, JsonCodeModel.read_parameter pkg v p = Done ((body_parameter_name p, l), []) /\ case_read (body_parameter_name p, l).
  Proof.
    intros I NI. assert (J : In p (m_params m)) by now apply filter_In in I. pose proof (parameter_acceptable p J) as A. pose proof A as (t & G & _).
    destruct (shaped pkg v PKG STD NAMED _ t false G A) as (g & R & S). destruct (response_field_ok p t g I) as (f & HF & FT & _); [congruence|exact G|exact R|]. specialize (FT NI).
    unfold JsonCodeModel.read_parameter. change (type_at (p_type p) v) with (mget (p_type p) (v_types v)). rewrite G.
    destruct (reads pkg v fs PKG STD NAMED FN [gError] false "value" (p_type p) t false g G A R value_taken ltac:(discriminate)) as (l & -> & B).
    eexists. split; [reflexivity|]. intros c V1 V2 EI. cbn [snd]. apply B; [exact V2|intros y _; now rewrite EI|destruct (is_scalar t); reflexivity|].
    intros c' W O. assert (V3 : variable c' "response" = Some gResponse) by (rewrite O by (cbn; intuition discriminate); exact V1).
    apply bl_statement; [|apply bl_nil]. eapply st_assign; [split; [eapply y_field; [apply y_var, V3|exact HF]|exact Logic.I]|].
    destruct FT as [(K & -> & ->)|[(SC & _ & ->)|(SC & ->)]].
    - unfold is_scalar. rewrite K. cbn [kind_eqb orb]. eapply x_any, y_addr, W.
    - rewrite SC. apply x_same, y_addr, W.
    - rewrite SC. apply x_same, y_var, W.
  Qed.

  Lemma read_parameters_ok l : (forall p, In p l -> In p (response_params m) /\ is_items m p = false) ->
    exists cs, read_parameters pkg v l = Done (cs, []) /\ map fst cs = map body_parameter_name l /\ forall x, In x cs -> case_read x.
  Proof.
    induction l as [|p l IH]; intros H; [exists []; repeat split; auto; contradiction|]. destruct (read_parameter_ok p) as (x & E & C); [apply H; now left|apply H; now left|].
    destruct (IH (fun q I => H q (or_intror I))) as (y & E' & N & C'). eexists. cbn [read_parameters]. rewrite E, E'. split; [reflexivity|]. split; [cbn [map fst]; now rewrite N|]. intros z [<-|I]; auto.
  Qed.

  (** Writing. *)
  Lemma write_parameter_ok c p : In p (request_params m) -> is_items m p = false -> variable c "request" = Some gRequest -> variable c "stream" = Some gStream -> variable c "count" = Some gInt ->
    exists l, JsonCodeModel.write_parameter v p = Done l /\ Forall (statement c) l /\ uses "count" l = true /\ forall z, Forall (fun s => declares z s = false) l.
  Proof.
    intros I NI V1 V2 V3. assert (J : In p (m_params m)) by now apply filter_In in I. pose proof (parameter_acceptable p J) as A. pose proof A as (t & G & _).
    destruct (shaped pkg v PKG STD NAMED _ t false G A) as (g & R & S). destruct (request_field_ok p t g I NI G R) as (f & HF & FT).
    unfold JsonCodeModel.write_parameter. change (type_at (p_type p) v) with (mget (p_type p) (v_types v)). rewrite G. cbv zeta.
    pose (e := if is_scalar t && negb (is_interface t) then XDeref (request_field (json_parameter_field p)) else request_field (json_parameter_field p)).
    assert (FY : forall c', variable c' "request" = Some gRequest -> yields c' (request_field (json_parameter_field p)) [f]) by (intros c' V; eapply y_field; [apply y_var, V|exact HF]).
    destruct (write_value_ok pkg v fs PKG STD NAMED FN [gError] false (inside c false) e (p_type p) t false g G S) as (l & E & FS & U & D).
    { intros c' O. assert (V : variable c' "request" = Some gRequest) by (rewrite O by (cbn; intuition discriminate); now vars). specialize (FY c' V). unfold e.
      destruct FT as [(K & -> & ->)|[(SC & K & ->)|(SC & ->)]].
      - unfold is_scalar, is_interface. rewrite K. exact FY.
      - rewrite SC. unfold is_interface. destruct (t_kind t); try congruence; cbn [kind_eqb negb andb]; now apply y_deref.
      - rewrite SC. exact FY. }
    { now vars. }
    fold e. rewrite E. eexists. split; [reflexivity|]. split; [|split; [reflexivity|intros z; repeat constructor]]. constructor; [|constructor].
    apply st_if; [eapply y_not_nil; [apply FY, V1|left]| |apply bl_nil].
    - destruct FT as [(K & -> & ->)|[(SC & K & ->)|(SC & ->)]]; [now left|right; eauto|]. now apply (shape_nillable v _ _ _ _ S).
    - apply block_all. cbn [app]. constructor; [apply more_ok; now vars|]. constructor; [apply name_ok; now vars|]. apply Forall_app. split; [exact FS|]. constructor; [apply st_inc; now vars|constructor].
  Qed.

  Lemma write_parameters_ok c l : (forall p, In p l -> In p (request_params m) /\ is_items m p = false) -> variable c "request" = Some gRequest -> variable c "stream" = Some gStream -> variable c "count" = Some gInt ->
    exists w, write_parameters v l = Done w /\ Forall (statement c) w /\ (l <> [] -> uses "count" w = true) /\ forall z, Forall (fun s => declares z s = false) w.
  Proof.
    intros H V1 V2 V3. induction l as [|p l IH]; [exists []; repeat split; auto; congruence|].
    destruct (write_parameter_ok c p) as (x & E & C & U & D); [apply H; now left|apply H; now left|exact V1|exact V2|exact V3|].
    destruct (IH (fun q I => H q (or_intror I))) as (y & E' & C' & U' & D'). exists (x ++ y)%list. cbn [write_parameters]. rewrite E, E'. split; [reflexivity|]. split; [now apply Forall_app|].
    split; [intros _; now apply uses_app_left|intros z; now apply Forall_app].
  Qed.
End Methods.
