(** Proofs about the code that reads and writes JSON documents: the statements that read values. *)
From Coq Require Import Ascii String Bool Arith ZArith Lia List.
From Verif Require Import GoStrings GoStringsProofs GoMap GoMapProofs NamesModel NamesSpec ConceptsModel ReporterModel ChecksModel BindingModel GoNamesModel BufferModel ObjectsModel DeclsModel OpenapiProofs5
  GoTypesModel JsonCodeModel JsonModel JsonSpec ObjectsSpec GoTypesSpec JsonCodeSpec GoTypesProofs GoTypesProofs2 GoTypesProofs3 GoTypesProofs4 GoTypesProofs5 JsonCodeProofs JsonCodeProofs2.
Import ListNotations.
Local Open Scope string_scope.

Section Values.
  Context (pkg : string) (v : version) (fs : list func) (PKG : package_path pkg) (STD : standard v) (NAMED : named_well v) (FN : functions_of pkg v fs).
  Context (rs : list gotype) (named : bool).
  Notation yields := (yields pkg v fs).
  Notation accepts := (accepts pkg v fs).
  Notation statement := (statement pkg v fs rs named).
  Notation block := (block pkg v fs rs named).

  (** The texts of lists and maps. *)
  Lemma collection_text k t g : acceptable v k false -> mget k (v_types v) = Some t -> t_kind t = ListType \/ t_kind t = MapType -> represents v k false g ->
    exists r, value_reference pkg v k t = Done (r, []) /\ denotes (rendered pkg r) g /\ all_declared v g.
  Proof.
    intros A G K R. destruct (nullable_text pkg v PKG STD NAMED k t A G) as (r & g' & N & R' & D & DD & _); [destruct K as [-> | ->]; cbn; intuition discriminate|].
    replace g with g' by (apply (represents_unique v STD k false); assumption). exists r. split; [|auto].
    assert (S : is_scalar t = false /\ is_struct t = false) by (unfold is_scalar, is_struct; destruct K as [-> | ->]; auto). destruct S as (S1 & S2).
    unfold nullable_reference in N. rewrite S1, S2 in N. cbn [andb] in N. destruct (value_reference pkg v k t) as [(r0 & l0)| |]; congruence.
  Qed.

  Lemma members_ok c name body : mget name (en_inner (inside c true)) = None -> variable c "iterator" = Some gIterator ->
    (forall c', variable c' name = Some gString -> (forall y, y <> name -> variable c' y = variable c y) -> en_inner c' = [(name, gString)] -> block c' body) ->
    statement c (members name body).
  Proof.
    intros N V B. apply st_for. cbn [app]. apply define_one with (g := gString); [eapply read_ok; [now vars|listed]|exact N| |].
    - rewrite uses_cons. cbn [used_in occurs]. now rewrite String.eqb_refl.
    - assert (VN : variable (declare [(name, gString)] (inside c true)) name = Some gString) by (rewrite variable_declare; cbn [mget]; now rewrite String.eqb_refl).
      apply bl_statement.
      + apply st_if; [apply y_equal; [apply y_var; now rewrite VN|apply y_text]| |apply bl_nil]. apply bl_statement; [|apply bl_nil]. apply st_break. cbn. now rewrite orb_true_r.
      + apply B; [exact VN| |reflexivity]. intros y NY. rewrite variable_declare, variable_inside. cbn [mget]. destruct (String.eqb_spec y name); [contradiction|reflexivity].
  Qed.

  Lemma member_cases_ok c cases : variable c "iterator" = Some gIterator -> NoDup (map fst cases) ->
    (forall k, In k cases -> forall c', (forall y, y <> "field" -> variable c' y = variable c y) -> en_inner c' = [] -> block c' (snd k)) ->
    statement c (member_cases cases).
  Proof.
    intros V N F. apply members_ok; [reflexivity|exact V|]. intros c' V' O _. apply bl_statement; [|apply bl_nil]. apply st_switch; [now apply y_var|exact N| |].
    - apply Forall_forall. intros k I. apply (F k I); [|reflexivity]. intros y NY. rewrite variable_inside. now apply O.
    - apply bl_statement; [|apply bl_nil]. eapply st_do; [exact Logic.I|]. eapply read_ok; [|listed]. rewrite variable_inside, O by discriminate. exact V.
  Qed.

  Definition taken (x : string) : Prop := forall y, In y ["text"; "err"; "iterator"; "field"; "key"] -> String.eqb x y = false /\ String.eqb y x = false.

  Lemma read_flat_ok c x k t link g rest : mget k (v_types v) = Some t -> shape v k t link g -> t_kind t <> MapType -> taken x -> variable c "iterator" = Some gIterator ->
    (forall y, In y [x; "text"; "err"] -> mget y (en_inner c) = None) -> uses x rest = true ->
    (forall c', variable c' x = Some g -> (forall y, ~ In y [x; "text"; "err"] -> variable c' y = variable c y) -> block c' rest) ->
    block c (read_flat v x k t link ++ rest).
  Proof.
    intros G S NM NX V N U B.
    destruct (NX "text") as (X1 & X2); [cbn; auto|]. destruct (NX "err") as (X3 & X4); [cbn; auto|]. destruct (NX "iterator") as (X5 & X6); [cbn; auto|]. destruct (NX "field") as (X7 & X8); [cbn; auto 10|].
    pose proof (N x (or_introl eq_refl)) as N1. pose proof (N "text" (or_intror (or_introl eq_refl))) as N2. pose proof (N "err" (or_intror (or_intror (or_introl eq_refl)))) as N3.
    pose proof (String.eqb_refl x) as XX.
    assert (ONE : block (declare [(x, g)] c) rest).
    { apply B; [rewrite variable_declare; cbn [mget]; now rewrite XX|]. intros y NY. rewrite variable_declare. cbn [mget]. destruct (String.eqb_spec y x) as [->|]; [cbn in NY; tauto|reflexivity]. }
    assert (VI : variable (declare [(x, g)] c) "iterator" = Some gIterator) by (rewrite variable_declare; cbn [mget]; now rewrite X6).
    unfold read_flat. destruct S as [m s L K BT W R|L D K E|L D K|L D K I|L D KS I|e0 te h L D K -> P E GE A KE R|e0 te L D K -> P E GE KE I|e0 te h L D K]; rewrite L, ?D.
    - cbn [app]. eapply define_one; [eapply read_ok; [exact V|exact R]|exact N1|exact U|exact ONE].
    - kinds K. cbn [app]. apply define_one with (g := gString); [eapply read_ok; [exact V|listed]|exact N2|reflexivity|].
      apply define_two with (g := GTime) (h := gError).
      + intros ->. discriminate.
      + eapply y_call; [apply c_library; listed|]. constructor; [apply format_ok|]. apply accepts_one, y_var. now vars.
      + rewrite inner_declare. cbn [app mget]. rewrite X1. exact N1.
      + left. rewrite inner_declare. cbn [app mget]. exact N3.
      + rewrite uses_cons, U. cbn [declares negb andb]. apply orb_true_r.
      + reflexivity.
      + apply bl_statement.
        * apply st_if; [eapply y_not_nil; [apply y_var|now right]| |apply bl_nil].
          -- rewrite variable_declare. cbn [mget]. rewrite X4. reflexivity.
          -- apply bl_statement; [|apply bl_nil]. eapply st_do; [exact Logic.I|]. eapply method_ok with (g := gIterator); [|listed|].
             ++ rewrite variable_inside, !variable_declare. cbn [mget]. rewrite X6. exact V.
             ++ constructor; [apply x_same, y_text|]. apply accepts_one. eapply method_ok with (g := gError); [|listed|constructor].
                rewrite variable_inside, !variable_declare. cbn [mget]. rewrite X4. reflexivity.
        * apply B; [rewrite variable_declare; cbn [mget]; now rewrite XX|]. intros y NY. rewrite !variable_declare. cbn [mget]. cbn [In] in NY.
          destruct (String.eqb_spec y x) as [->|]; [tauto|]. destruct (String.eqb_spec y "err") as [->|]; [tauto|]. destruct (String.eqb_spec y "text") as [->|]; [tauto|]. reflexivity.
    - kinds K. cbn [app]. apply bl_var with (g := GAny); [apply written_declared; [apply d_any|exact Logic.I]|exact N1| |].
      + rewrite uses_cons. cbn [used_in occurs existsb]. now rewrite XX, ?orb_true_r.
      + apply bl_statement; [|exact ONE]. eapply st_do; [exact Logic.I|]. eapply method_ok; [exact VI|listed|]. constructor; [|constructor]. eapply x_any, y_addr.
        rewrite variable_declare. cbn [mget]. now rewrite XX.
    - kinds K. cbn [app]. apply define_one with (g := gString); [eapply read_ok; [exact V|listed]|exact N2|reflexivity|].
      apply define_one with (g := GNamed (object_name t)).
      + eapply y_convert with (h := gString); [apply written_declared; [now apply d_named|now apply (enum_declared v k)]|apply y_var; now vars|now apply (enum_text v k)|now left].
      + rewrite inner_declare. cbn [app mget]. rewrite X1. exact N1.
      + exact U.
      + apply B; [rewrite variable_declare; cbn [mget]; now rewrite XX|]. intros y NY. rewrite !variable_declare. cbn [mget]. cbn [In] in NY.
        destruct (String.eqb_spec y x) as [->|]; [tauto|]. destruct (String.eqb_spec y "text") as [->|]; [tauto|]. reflexivity.
    - destruct (struct_is t KS) as (I1 & I2 & I3 & I4 & I5 & I6). rewrite I5, I6, I2. cbn [app].
      eapply define_one; [|exact N1|exact U|exact ONE]. eapply y_call; [apply (FN k t (GPtr (GNamed (object_name t)))); [exact G|now left|now apply r_struct]|].
      apply accepts_one. now apply y_var.
    - kinds K. cbn [app].
      eapply define_one; [|exact N1|exact U|exact ONE]. eapply y_call; [apply (FN k t (GSlice h)); [exact G|now right|now apply (r_slice v k t e0)]|].
      apply accepts_one. now apply y_var.
    - kinds K. cbn [app]. assert (SN : struct_name v t = object_name te ++ "List") by (unfold struct_name, is_list; rewrite K, (element_at v t e0 te E GE); reflexivity).
      rewrite SN. assert (T : In te (types v)) by now apply mget_types in GE.
      apply define_one with (g := GPtr (GNamed (object_name te ++ "List"))); [apply y_new; exists te; auto|exact N1| |].
      { rewrite uses_cons, U. cbn [declares member_cases members negb andb]. apply orb_true_r. }
      apply bl_statement; [|exact ONE]. apply member_cases_ok; [exact VI|cbn [map fst]; repeat constructor; cbn; intuition discriminate|].
      assert (VX : forall c', (forall y, y <> "field" -> variable c' y = variable (declare [(x, GPtr (GNamed (object_name te ++ "List")))] c) y) ->
        variable c' x = Some (GPtr (GNamed (object_name te ++ "List"))) /\ variable c' "iterator" = Some gIterator).
      { intros c' O. split; [|rewrite O by discriminate; exact VI]. rewrite O by (intros ->; discriminate). rewrite variable_declare. cbn [mget]. now rewrite XX. }
      intros q [<-|[<-|[<-|[]]]] c' O EI; destruct (VX c' O) as (VX1 & VX2); cbn [snd].
      + apply define_one with (g := gString); [eapply read_ok; [exact VX2|listed]|now rewrite EI|cbn; rewrite ?X2, ?orb_true_r; reflexivity|].
        apply bl_statement; [|apply bl_nil]. eapply st_do; [exact Logic.I|]. eapply y_method; [apply y_var|now apply (m_set_link v te)|].
        * rewrite variable_declare. cbn [mget]. rewrite X1. exact VX1.
        * apply accepts_one, y_equal; [apply y_var; now vars|]. apply y_name. now apply s_list_kind.
      + apply bl_statement; [|apply bl_nil]. eapply st_do; [exact Logic.I|]. eapply y_method; [apply y_var, VX1|now apply (m_set_href v te)|].
        apply accepts_one. eapply read_ok; [exact VX2|listed].
      + apply bl_statement; [|apply bl_nil]. eapply st_do; [exact Logic.I|]. eapply y_method; [apply y_var, VX1|now apply (m_set_items v te)|].
        apply accepts_one. eapply y_call; [apply (FN k t (GSlice (GPtr (GNamed (object_name te))))); [exact G|now right|apply (r_slice v k t e0); auto; now apply r_struct]|].
        apply accepts_one. now apply y_var.
    - congruence.
  Qed.

  Lemma item_taken : taken "item". Proof. intros y I. cbn in I. repeat (destruct I as [<-|I]; [split; reflexivity|]). contradiction. Qed.
  Lemma value_taken : taken "value". Proof. intros y I. cbn in I. repeat (destruct I as [<-|I]; [split; reflexivity|]). contradiction. Qed.
  Lemma items_taken : taken "items". Proof. intros y I. cbn in I. repeat (destruct I as [<-|I]; [split; reflexivity|]). contradiction. Qed.

  (** Reading of any value. *)
  Lemma read_value_ok x k t link g : mget k (v_types v) = Some t -> acceptable v k link -> represents v k link g -> shape v k t link g -> taken x -> t_kind t = MapType -> x <> "item" ->
    exists l, JsonCodeModel.read_value pkg v x k t link = Done (l, []) /\
      forall c rest, variable c "iterator" = Some gIterator -> (forall y, In y [x; "text"; "err"] -> mget y (en_inner c) = None) -> uses x rest = true ->
        (forall c', variable c' x = Some g -> (forall y, ~ In y [x; "text"; "err"] -> variable c' y = variable c y) -> block c' rest) -> block c (l ++ rest).
  Proof.
    intros G A R S NX M NI. unfold JsonCodeModel.read_value, is_map. rewrite M. cbn [kind_eqb].
    inversion S as [ | | | |L D [K|K]| | |e0 te h L D K P E GE A' KE R']; subst; try congruence.
    assert (R2 : represents v k false (GMap h)) by now apply (r_map v k false t e0).
    assert (A2 : acceptable v k false).
    { destruct A as (t' & G' & A1 & A2 & A3). exists t'. split; [exact G'|]. split; [exact A1|]. split; [exact A2|]. intros _ F. discriminate. }
    destruct (collection_text k t (GMap h) A2 G (or_intror M) R2) as (r & VR & DN & DD). rewrite VR, (element_at v t e0 te E GE).
    eexists. split; [reflexivity|]. intros c rest V N U B.
    assert (SH : shape v e0 te false h).
    { destruct (shaped pkg v PKG STD NAMED e0 te false GE A') as (h' & R'' & S'). now replace h with h' by (apply (represents_unique v STD e0 false); assumption). }
    destruct (NX "text") as (X1 & X2); [cbn; auto|]. destruct (NX "iterator") as (X5 & X6); [cbn; auto|]. destruct (NX "key") as (X7 & X8); [cbn; auto 10|]. pose proof (String.eqb_refl x) as XX.
    destruct (NX "err") as (X3 & X4); [cbn; auto|].
    assert (X9 : String.eqb x "item" = false) by (destruct (String.eqb_spec x "item"); [contradiction|reflexivity]).
    cbn [app]. apply define_one with (g := GMap h).
    - eapply y_empty; [apply written_declared; [exact DN|exact DD]|now right].
    - apply N. cbn. auto.
    - rewrite uses_cons, U. cbn [declares members negb andb]. apply orb_true_r.
    - apply bl_statement.
      + apply members_ok; [reflexivity|rewrite variable_declare; cbn [mget]; now rewrite X6|]. intros c' V' O EI.
        apply (read_flat_ok c' "item" e0 te false h); [exact GE|exact SH|now apply not_map|apply item_taken| | |usage|].
        * rewrite O by discriminate. rewrite variable_declare. cbn [mget]. now rewrite X6.
        * intros y I. rewrite EI. cbn in I. repeat (destruct I as [<-|I]; [reflexivity|]). contradiction.
        * intros c2 V2 O2. apply bl_statement; [|apply bl_nil]. eapply st_assign; [split; [|exact Logic.I]|apply x_same, y_var, V2].
          eapply y_map_index; apply y_var; rewrite O2.
          -- rewrite O by (intros ->; discriminate). rewrite variable_declare. cbn [mget]. now rewrite XX.
          -- cbn. intros [<-|[<-|[<-|[]]]]; congruence.
          -- exact V'.
          -- cbn. intuition discriminate.
      + apply B; [rewrite variable_declare; cbn [mget]; now rewrite XX|]. intros y NY. rewrite variable_declare. cbn [mget]. destruct (String.eqb_spec y x) as [->|]; [cbn in NY; tauto|reflexivity].
  Qed.

  Lemma reads x k t link g : mget k (v_types v) = Some t -> acceptable v k link -> represents v k link g -> taken x -> (t_kind t = MapType -> x <> "item") ->
    exists l, JsonCodeModel.read_value pkg v x k t link = Done (l, []) /\
      forall c rest, variable c "iterator" = Some gIterator -> (forall y, In y [x; "text"; "err"] -> mget y (en_inner c) = None) -> uses x rest = true ->
        (forall c', variable c' x = Some g -> (forall y, ~ In y [x; "text"; "err"] -> variable c' y = variable c y) -> block c' rest) -> block c (l ++ rest).
  Proof.
    intros G A R NX NI. destruct (shaped pkg v PKG STD NAMED k t link G A) as (g' & R' & S). replace g' with g in * by (apply (represents_unique v STD k link); assumption).
    assert (M : t_kind t = MapType \/ t_kind t <> MapType) by (destruct (t_kind t); auto; right; discriminate). destruct M as [M|M]; [apply read_value_ok; auto|].
    unfold JsonCodeModel.read_value. rewrite (flat_not_map v k t link g S M). eexists. split; [reflexivity|]. intros. eapply read_flat_ok; eauto.
  Qed.
End Values.
