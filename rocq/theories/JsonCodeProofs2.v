(** Proofs about the code that reads and writes JSON documents: the statements for the values. *)
From Coq Require Import Ascii String Bool Arith ZArith Lia List.
From Verif Require Import GoStrings GoStringsProofs GoMap GoMapProofs NamesModel NamesSpec ConceptsModel ReporterModel ChecksModel BindingModel GoNamesModel BufferModel ObjectsModel DeclsModel OpenapiProofs5
  GoTypesModel JsonCodeModel JsonModel JsonSpec ObjectsSpec GoTypesSpec JsonCodeSpec GoTypesProofs GoTypesProofs2 GoTypesProofs3 GoTypesProofs4 GoTypesProofs5 JsonCodeProofs.
Import ListNotations.
Local Open Scope string_scope.

Ltac usage := cbn; rewrite ?orb_true_r; reflexivity.
Ltac kinds K := unfold is_map, is_interface, is_enum, is_struct, is_list, is_scalar, is_class; rewrite ?K; cbn [kind_eqb orb].

(** The functions that the code of the values calls. *)
Definition functions_of (pkg : string) (v : version) (fs : list func) : Prop :=
  forall k t g, mget k (v_types v) = Some t -> structural t \/ t_kind t = ListType /\ plain v t -> represents v k false g ->
    has_function v fs (write_func t) [g; gStream] [] /\ has_function v fs (read_func t) [gIterator] [g] /\
    has_function v fs (marshal_func t) [g; gWriter] [gError] /\ has_function v fs (unmarshal_func t) [GAny] [g; gError].

Section Values.
  Context (pkg : string) (v : version) (fs : list func) (PKG : package_path pkg) (STD : standard v) (NAMED : named_well v) (FN : functions_of pkg v fs).
  Context (rs : list gotype) (named : bool).
  Notation yields := (yields pkg v fs).
  Notation accepts := (accepts pkg v fs).
  Notation statement := (statement pkg v fs rs named).
  Notation block := (block pkg v fs rs named).

  Lemma block_app c l l' : Forall (statement c) l -> block c l' -> block c (l ++ l').
  Proof. induction 1 as [|s l S F IH]; intros B; [exact B|]. apply bl_statement; auto. Qed.
  Lemma block_all c l : Forall (statement c) l -> block c l.
  Proof. intros F. rewrite <- (app_nil_r l). apply block_app; [exact F|apply bl_nil]. Qed.
  Lemma accepts_one c e g : yields c e [g] -> Forall2 (accepts c) [e] [g].
  Proof. intros Y. constructor; [now apply x_same|constructor]. Qed.
  Lemma var_ok c x g : variable c x = Some g -> yields c (XVar x) [g].
  Proof. apply y_var. Qed.
  Lemma method_ok c x g m args ps r : variable c x = Some g -> In (g, m, ps, r) library_methods -> Forall2 (accepts c) args ps -> yields c (XMethod (XVar x) m args) r.
  Proof. intros V I F. eapply y_method; [apply y_var, V|apply m_library, I|exact F]. Qed.
  Lemma write_ok c m args ps : variable c "stream" = Some gStream -> In (gStream, m, ps, []) library_methods -> Forall2 (accepts c) args ps -> statement c (write m args).
  Proof. intros V I F. apply (st_do _ _ _ _ _ c _ []); [exact Logic.I|]. eapply method_ok; eauto. Qed.
  Lemma read_ok c m r : variable c "iterator" = Some gIterator -> In (gIterator, m, [], r) library_methods -> yields c (read m) r.
  Proof. intros V I. eapply method_ok; eauto. Qed.
  Lemma define_one c x e g l : yields c e [g] -> mget x (en_inner c) = None -> uses x l = true -> block (declare [(x, g)] c) l -> block c (TDefine [x] e :: l).
  Proof.
    intros Y N U B. apply (bl_define _ _ _ _ _ c [x] e [g]); [exact Y|reflexivity|repeat constructor; intros []|exists x; cbn; auto| |exact B].
    intros y h [E|[]]. injection E as <- <-. now left.
  Qed.
  Lemma define_two c x y e g h l : x <> y -> yields c e [g; h] -> mget x (en_inner c) = None -> mget y (en_inner c) = None \/ mget y (en_inner c) = Some h -> uses x l = true -> uses y l = true ->
    block (declare [(x, g); (y, h)] c) l -> block c (TDefine [x; y] e :: l).
  Proof.
    intros D Y N M U W B. apply (bl_define _ _ _ _ _ c [x; y] e [g; h]); [exact Y|reflexivity|repeat constructor; cbn; intuition congruence|exists x; cbn; auto| |exact B].
    intros z i [E|[E|[]]]; injection E as <- <-; [now left|]. destruct M as [M|M]; [left; auto|right; exact M].
  Qed.
  Lemma format_ok c : accepts c (XName "time.RFC3339") gString.
  Proof. apply x_same, y_name, s_format. Qed.
  Lemma enum_text k t : mget k (v_types v) = Some t -> t_kind t = EnumType -> text_type v (GNamed (object_name t)).
  Proof. intros G K. right. exists t. split; [now apply mget_types in G|auto]. Qed.
  Lemma written_declared s g : denotes s g -> all_declared v g -> written v s g.
  Proof. left. auto. Qed.
  Lemma enum_declared k t : mget k (v_types v) = Some t -> t_kind t = EnumType -> declared v (object_name t).
  Proof. intros G K. exists t. split; [now apply mget_types in G|auto]. Qed.

  (** * Writing *)

  Lemma write_flat_ok c e k t link g : mget k (v_types v) = Some t -> shape v k t link g -> t_kind t <> MapType -> yields c e [g] -> variable c "stream" = Some gStream ->
    Forall (statement c) (write_flat e k t link).
  Proof.
    intros G S NM Y V. unfold write_flat. destruct S as [m s L K B W R|L D K E|L D K|L D K I|L D KS I|e0 te h L D K -> P E GE A KE R|e0 te L D K -> P E GE KE I|e0 te h L D K]; rewrite L, ?D.
    - constructor; [|constructor]. apply write_ok with (ps := [GBasic s]); [exact V|exact W|now apply accepts_one].
    - constructor; [|constructor]. apply write_ok with (ps := [gString]); [exact V|listed|]. apply accepts_one. eapply y_method; [exact Y|apply m_library; listed|].
      constructor; [apply format_ok|constructor].
    - kinds K. constructor; [|constructor]. apply write_ok with (ps := [GAny]); [exact V|listed|now apply accepts_one].
    - kinds K. constructor; [|constructor]. apply write_ok with (ps := [gString]); [exact V|listed|]. apply accepts_one. eapply y_convert; [|exact Y|now left|now apply (enum_text k)].
      apply written_declared; [apply (d_basic "string"); cbn; auto 10|exact Logic.I].
    - destruct (struct_is t KS) as (I1 & I2 & I3 & I4 & I5 & I6). assert (EN : is_enum t = false) by (unfold is_enum; destruct KS as [-> | ->]; reflexivity).
      assert (IN : is_interface t = false) by (unfold is_interface; destruct KS as [-> | ->]; reflexivity). rewrite EN, IN, I2.
      constructor; [|constructor]. eapply st_do; [exact Logic.I|]. eapply y_call; [apply (FN k t (GPtr (GNamed (object_name t)))); [exact G|now left|now apply r_struct]|].
      constructor; [now apply x_same|]. apply accepts_one. now apply y_var.
    - kinds K. constructor; [|constructor]. eapply st_do; [exact Logic.I|]. eapply y_call; [apply (FN k t (GSlice h)); [exact G|now right|now apply (r_slice v k t e0)]|].
      constructor; [now apply x_same|]. apply accepts_one. now apply y_var.
    - kinds K. assert (T : In te (types v)) by now apply mget_types in GE. repeat constructor.
      + apply write_ok with (ps := []); [exact V|listed|constructor].
      + apply write_ok with (ps := [gString]); [exact V|listed|apply accepts_one, y_text].
      + eapply st_do; [exact Logic.I|]. eapply y_call; [apply (FN k t (GSlice (GPtr (GNamed (object_name te))))); [exact G|now right|apply (r_slice v k t e0); auto; now apply r_struct]|].
        constructor; [|apply accepts_one; now apply y_var]. apply x_same. eapply y_method; [exact Y|now apply m_items|constructor].
      + apply write_ok with (ps := []); [exact V|listed|constructor].
    - congruence.
  Qed.

  Lemma write_flat_uses z e k t link g : shape v k t link g -> t_kind t <> MapType -> occurs z e = true -> uses z (write_flat e k t link) = true.
  Proof.
    intros S NM O. unfold write_flat. destruct S as [m s L K B W R|L D K E|L D K|L D K I|L D KS I|e0 te h L D K -> P E GE A KE R|e0 te L D K -> P E GE KE I|e0 te h L D K]; rewrite L, ?D.
    1-4: try (kinds K); rewrite uses_cons; cbn [used_in write occurs the_stream existsb]; rewrite O; rewrite ?orb_true_r; reflexivity.
    - destruct (struct_is t KS) as (I1 & I2 & I3 & I4 & I5 & I6). assert (EN : is_enum t = false) by (unfold is_enum; destruct KS as [-> | ->]; reflexivity).
      assert (IN : is_interface t = false) by (unfold is_interface; destruct KS as [-> | ->]; reflexivity). rewrite EN, IN, I2.
      rewrite uses_cons; cbn [used_in write occurs the_stream existsb]; rewrite O; rewrite ?orb_true_r; reflexivity.
    - kinds K. rewrite uses_cons; cbn [used_in write occurs the_stream existsb]; rewrite O; rewrite ?orb_true_r; reflexivity.
    - kinds K. rewrite !uses_cons; cbn [used_in write occurs the_stream existsb declares]; rewrite O; cbn [orb negb andb]; rewrite ?orb_true_r; reflexivity.
    - congruence.
  Qed.
  Lemma write_flat_plain z e k t link : Forall (fun s => declares z s = false) (write_flat e k t link).
  Proof.
    unfold write_flat. destruct (library_type k); [repeat constructor|]. destruct (is_builtin nDate k); [repeat constructor|]. destruct (is_enum t); [repeat constructor|].
    destruct (is_interface t); [repeat constructor|]. destruct (is_struct t); [repeat constructor|]. destruct (is_list t); [|constructor]. destruct link; repeat constructor.
  Qed.

  Lemma element_at t e te : t_element t = Some e -> mget e (v_types v) = Some te -> element_of v t = Some (e, te).
  Proof. intros E G. unfold element_of. rewrite E. change (type_at e v) with (mget e (v_types v)). now rewrite G. Qed.
  Lemma not_map te : In (t_kind te) [ScalarType; EnumType; InterfaceType; ClassType; StructType] -> t_kind te <> MapType.
  Proof. intros I E. rewrite E in I. cbn in I. intuition discriminate. Qed.
  Lemma flat_not_map k t link g : shape v k t link g -> t_kind t <> MapType -> is_map t = false.
  Proof. intros _ N. unfold is_map. destruct (t_kind t); auto; congruence. Qed.

  Definition steady (c : env) (e : jexpr) (g : gotype) : Prop :=
    forall c', (forall y, ~ In y ["keys"; "i"; "key"; "item"] -> variable c' y = variable c y) -> yields c' e [g].

  Lemma write_value_ok c e k t link g : mget k (v_types v) = Some t -> shape v k t link g -> steady c e g -> variable c "stream" = Some gStream ->
    exists l, JsonCodeModel.write_value v e k t link = Done l /\ Forall (statement c) l /\ (forall z, occurs z e = true -> uses z l = true) /\ (forall z, Forall (fun s => declares z s = false) l).
  Proof.
    intros G S ST V. unfold JsonCodeModel.write_value.
    assert (M : t_kind t = MapType \/ t_kind t <> MapType) by (destruct (t_kind t); auto; right; discriminate). destruct M as [M|M].
    - inversion S as [ | | | |L D [K|K]| | |e0 te h L D K P E GE A KE R]; subst; try congruence.
      unfold is_map. rewrite M. cbn [kind_eqb]. rewrite (element_at t e0 te E GE). eexists. split; [reflexivity|].
      assert (SH : shape v e0 te false h).
      { destruct (shaped pkg v PKG STD NAMED e0 te false GE A) as (h' & R' & S'). now replace h with h' by (apply (represents_unique v STD e0 false); assumption). }
      split; [|split].
      + constructor; [|constructor]. apply st_if; [eapply y_not_nil; [apply ST; auto|left; right; exists h; auto]| |apply bl_statement; [|apply bl_nil]].
        2: { apply write_ok with (ps := []); [now vars|listed|constructor]. }
        apply bl_statement; [apply write_ok with (ps := []); [now vars|listed|constructor]|].
        apply define_one with (g := GSlice gString); [|reflexivity|usage|].
        { apply y_make; [apply written_declared; [apply (d_slice "string"), (d_basic "string"); cbn; auto 10|exact Logic.I]|]. eapply y_len; [apply ST|now right]. intros y N. now vars. }
        apply define_one with (g := gInt); [apply y_zero|reflexivity|usage|].
        apply bl_statement.
        { eapply st_range_keys; [apply ST|usage|].
          - intros y N. rewrite !variable_declare, variable_inside. cbn [mget]. destruct (String.eqb_spec y "i") as [->|]; [cbn in N; tauto|]. destruct (String.eqb_spec y "keys") as [->|]; [cbn in N; tauto|]. reflexivity.
          - apply bl_statement; [|apply bl_statement; [|apply bl_nil]].
            + eapply st_assign; [split; [|exact Logic.I]; eapply y_slice_index; apply y_var; vars; reflexivity|]. apply x_same, y_var. vars. reflexivity.
            + apply st_inc. vars. reflexivity. }
        apply bl_statement.
        { eapply st_do; [exact Logic.I|]. eapply y_call; [apply c_library; listed|]. apply accepts_one, y_var. vars. reflexivity. }
        apply bl_statement; [|apply bl_statement; [apply write_ok with (ps := []); [now vars|listed|constructor]|apply bl_nil]].
        eapply st_range_items; [apply y_var; vars; reflexivity|discriminate|usage|usage|].
        cbn [app]. apply bl_statement.
        { apply st_if; [apply y_positive, y_var; vars; reflexivity| |apply bl_nil]. apply bl_statement; [apply write_ok with (ps := []); [now vars|listed|constructor]|apply bl_nil]. }
        apply define_one with (g := h); [|reflexivity| |].
        { eapply y_map_index; [apply ST|apply y_var; vars; reflexivity]. intros y N. rewrite !variable_inside, !variable_declare, !variable_inside. cbn [mget].
          destruct (String.eqb_spec y "i") as [->|]; [cbn in N; tauto|]. destruct (String.eqb_spec y "key") as [->|]; [cbn in N; tauto|].
          rewrite !variable_declare, variable_inside. cbn [mget]. destruct (String.eqb_spec y "i") as [->|]; [congruence|]. destruct (String.eqb_spec y "keys") as [->|]; [cbn in N; tauto|]. reflexivity. }
        { rewrite uses_cons. cbn [used_in occurs write the_stream existsb String.eqb Ascii.eqb Bool.eqb orb declares negb andb].
          eapply write_flat_uses; [exact SH|now apply not_map|reflexivity]. }
        apply bl_statement; [apply write_ok with (ps := [gString]); [now vars|listed|apply accepts_one, y_var; vars; reflexivity]|].
        apply block_all. eapply write_flat_ok; [exact GE|exact SH|now apply not_map|apply y_var; vars; reflexivity|now vars].
      + intros z O. rewrite uses_cons. cbn [used_in occurs]. rewrite O. reflexivity.
      + intros z. repeat constructor.
    - rewrite (flat_not_map k t link g S M). eexists. split; [reflexivity|]. split; [eapply write_flat_ok; eauto; now apply ST|]. split; [intros z O; eapply write_flat_uses; eauto|intros z; apply write_flat_plain].
  Qed.
End Values.
