(** Proofs about the imports that the types of the attributes need, and about the types that represent those of the model. *)
From Coq Require Import Ascii String Bool Arith Lia List.
From Verif Require Import GoStrings GoStringsProofs GoMap GoMapProofs NamesModel NamesSpec ConceptsModel ReporterModel ChecksModel GoNamesModel GoNamesSpec GoNamesProofs
  BufferModel BufferProofs2 DeclsModel OpenapiProofs5 GoTypesModel ObjectsSpec GoTypesSpec GoTypesProofs GoTypesProofs2 GoTypesProofs3.
Import ListNotations.
Local Open Scope string_scope.

Section Imports.
  Context (pkg : string) (v : version) (PKG : package_path pkg) (STD : standard v) (NAMED : named_well v).

  Lemma import_right r g : denotes (rendered pkg r) g -> right_import pkg r g -> imported pkg r g.
  Proof.
    intros D (R1 & R2). split; [exact D|]. intros b <-. cbn [replace_value snd]. cbv zeta. split.
    - intros M. destruct (R1 M) as (-> & ->). unfold add_import.
      destruct (path_selector _ PKG) as (_ & _ & N). assert (E : ("time" =? gb_pkg b) = false) by (apply String.eqb_neq; congruence). rewrite E. cbn [negb String.eqb andb gb_imports].
      split; [apply mget_mset_same|]. intros i NI. now apply mget_mset_other.
    - intros M. unfold add_import. destruct (R2 M) as [R|R]; rewrite R; [reflexivity|]. now rewrite String.eqb_refl, andb_false_r.
  Qed.

  Lemma own_right r g : rf_import r = pkg -> ~ mentions_time g -> right_import pkg r g.
  Proof. intros E N. split; [tauto|auto]. Qed.

  Lemma attribute_imports k link t : acceptable v k link -> mget k (v_types v) = Some t ->
    exists o b go gb, object_type pkg v k t link = Done (o, []) /\ builder_type pkg v k t link = Done (b, []) /\ represents v k link go /\ given_as go gb /\ imported pkg o go /\ imported pkg b gb.
  Proof.
    intros (t' & G' & NU & P & L) G. replace t' with t in * by congruence. clear t' G'.
    assert (C : In (t_kind t) [ScalarType; EnumType; InterfaceType] \/ structural t \/ t_kind t = ListType \/ t_kind t = MapType).
    { unfold structural. cbn. destruct (t_kind t); auto 10; congruence. }
    destruct C as [K|[K|[K|K]]].
    - destruct (scalar_reference pkg v PKG STD NAMED _ t G K) as (r & g & R & F & D & V & FR & DN & RI & RF & _). destruct (scalar_is t K) as (I1 & I2 & I3 & I4).
      assert (RT : rendered pkg r = rf_text r) by (destruct RF; [now apply render_foreign|now apply render_dotless]).
      exists r, r, g, g. unfold object_type, builder_type. rewrite I1, V. repeat (split; [auto using flat_same; fail|]). split; apply import_right; auto; now rewrite RT.
    - destruct (struct_reference pkg v STD NAMED _ t G K) as (FR & V & ID & T & D1 & D2 & HB & D3). destruct (struct_is t K) as (I1 & I2 & I3 & I4 & I5 & I6).
      assert (OWN : type_package pkg k t = (pkg, path_base pkg, [])) by (apply (own_package pkg v STD _ t G); destruct K as [K|K]; rewrite K; cbn; auto).
      pose proof (identifier_app _ "Builder" ID eq_refl) as IDB.
      eexists _, _, (GPtr (GNamed (object_name t))), (GPtr (GNamed (object_name t ++ "Builder"))). unfold object_type, builder_type, nullable_reference, builder_reference. rewrite I1, I2, V, FR, OWN. cbn [andb].
      split; [reflexivity|]. split; [reflexivity|]. split; [now apply r_struct|]. split; [now apply (b_struct _ (object_name t))|].
      unfold with_text; cbn [rf_import rf_selector rf_name rf_text]. split; (apply import_right; [|now apply own_right; [|cbn]]);
        rewrite (render_own pkg PKG "*") by (try apply star_dotless; now apply identifier_dotless); [exact (d_ptr _ _ (d_named _ ID))|exact (d_ptr _ _ (d_named _ IDB))].
    - destruct (list_is t K) as (I1 & I2 & I3 & I4 & I5 & I6). unfold object_type, builder_type. rewrite I1, I2, I3. destruct link.
      + destruct (L K eq_refl) as (e & te & E & GE & KE). destruct (struct_reference pkg v STD NAMED _ te GE KE) as (FR & V & ID & T & D1 & D2 & HB & D3).
        assert (OWN : type_package pkg e te = (pkg, path_base pkg, [])) by (apply (own_package pkg v STD _ te GE); destruct KE as [KE|KE]; rewrite KE; cbn; auto).
        pose proof (identifier_app _ "List" ID eq_refl) as IDL. pose proof (identifier_app _ "Builder" IDL eq_refl) as IDB.
        eexists _, _, (GPtr (GNamed (object_name te ++ "List"))), (GPtr (GNamed ((object_name te ++ "List") ++ "Builder"))). unfold list_reference, builder_reference. rewrite I2, I3, E.
        change (type_at e v) with (mget e (v_types v)). rewrite GE, OWN. split; [reflexivity|]. split; [reflexivity|]. split; [now apply (r_list v _ t e)|]. split; [now apply (b_struct _ (object_name te ++ "List"))|].
        replace (object_name te ++ "ListBuilder") with ((object_name te ++ "List") ++ "Builder") by (now rewrite sapp_assoc).
        split; (apply import_right; [|now apply own_right; [|cbn]]);
          rewrite (render_own pkg PKG "*") by (try apply star_dotless; now apply identifier_dotless); [exact (d_ptr _ _ (d_named _ IDL))|exact (d_ptr _ _ (d_named _ IDB))].
      + unfold nullable_reference. rewrite (list_value pkg v STD _ t G K), I1, I2. destruct (flat_kind v t) as (e & te & E & GE & [KE|KE]); [apply P; rewrite K; cbn; auto| |].
        * destruct (collection_scalar pkg v PKG STD NAMED "[]" t e te E GE KE slice_dotless) as (r & g & R & F & D & CR & VE & DN & RI & RT & RP). destruct (scalar_is te KE) as (J1 & _).
          unfold builder_collection, nullable_reference. rewrite E. change (type_at e v) with (mget e (v_types v)). rewrite GE, J1, (list_value pkg v STD _ t G K), CR, I1, I2. cbn [andb].
          eexists _, _, (GSlice g), (GSlice g). split; [reflexivity|]. split; [reflexivity|]. split; [now apply (r_slice v _ t e)|]. split; [now apply flat_slice_same|].
          assert (IM : imported pkg (with_text ("[]" ++ rf_text r) r) (GSlice g)) by (apply import_right; [rewrite RP; exact (d_slice _ _ DN)|exact RI]). auto.
        * destruct (collection_struct pkg v PKG STD NAMED "[]" t e te E GE KE slice_dotless) as (r & CR & RP & RI). destruct (struct_reference pkg v STD NAMED _ te GE KE) as (FR & V & ID & T & D1 & D2 & HB & D3).
          destruct (struct_is te KE) as (J1 & J2 & _). assert (OWN : type_package pkg e te = (pkg, path_base pkg, [])) by (apply (own_package pkg v STD _ te GE); destruct KE as [KE|KE]; rewrite KE; cbn; auto).
          pose proof (identifier_app _ "Builder" ID eq_refl) as IDB.
          unfold builder_collection, builder_reference. rewrite E. change (type_at e v) with (mget e (v_types v)). rewrite GE, J1, J2, CR, OWN. cbn [andb prefixed rf_import rf_selector rf_text].
          eexists _, _, (GSlice (GPtr (GNamed (object_name te)))), (GSlice (GPtr (GNamed (object_name te ++ "Builder")))).
          split; [reflexivity|]. split; [reflexivity|]. split; [apply (r_slice v _ t e); auto; now apply r_struct|]. split; [now apply (b_slice _ (object_name te))|].
          split; (apply import_right; [|now apply own_right; [|cbn]]).
          -- rewrite RP. exact (d_slice _ _ (d_ptr _ _ (d_named _ ID))).
          -- change ("[]" ++ "*" ++ path_base pkg ++ "." ++ object_name te ++ "Builder") with ("[]*" ++ path_base pkg ++ "." ++ object_name te ++ "Builder").
             rewrite (render_own pkg PKG "[]*") by (try (now apply dotlessb_sound); now apply identifier_dotless). exact (d_slice _ _ (d_ptr _ _ (d_named _ IDB))).
    - destruct (map_is t K) as (I1 & I2 & I3 & I4 & I5 & I6). unfold object_type, builder_type. rewrite I1, I2, I3, I4.
      unfold nullable_reference. rewrite (map_value pkg v STD _ t G K), I1, I2. destruct (flat_kind v t) as (e & te & E & GE & [KE|KE]); [apply P; rewrite K; cbn; auto| |].
      * destruct (collection_scalar pkg v PKG STD NAMED "map[string]" t e te E GE KE map_dotless) as (r & g & R & F & D & CR & VE & DN & RI & RT & RP). destruct (scalar_is te KE) as (J1 & _).
        unfold builder_collection, nullable_reference. rewrite E. change (type_at e v) with (mget e (v_types v)). rewrite GE, J1, (map_value pkg v STD _ t G K), CR, I1, I2. cbn [andb].
        eexists _, _, (GMap g), (GMap g). split; [reflexivity|]. split; [reflexivity|]. split; [now apply (r_map v _ _ t e)|]. split; [now apply flat_map_same|].
        assert (IM : imported pkg (with_text ("map[string]" ++ rf_text r) r) (GMap g)) by (apply import_right; [rewrite RP; exact (d_map _ _ DN)|exact RI]). auto.
      * destruct (collection_struct pkg v PKG STD NAMED "map[string]" t e te E GE KE map_dotless) as (r & CR & RP & RI). destruct (struct_reference pkg v STD NAMED _ te GE KE) as (FR & V & ID & T & D1 & D2 & HB & D3).
        destruct (struct_is te KE) as (J1 & J2 & _). assert (OWN : type_package pkg e te = (pkg, path_base pkg, [])) by (apply (own_package pkg v STD _ te GE); destruct KE as [KE|KE]; rewrite KE; cbn; auto).
        pose proof (identifier_app _ "Builder" ID eq_refl) as IDB.
        unfold builder_collection, builder_reference. rewrite E. change (type_at e v) with (mget e (v_types v)). rewrite GE, J1, J2, CR, OWN. cbn [andb prefixed rf_import rf_selector rf_text].
        eexists _, _, (GMap (GPtr (GNamed (object_name te)))), (GMap (GPtr (GNamed (object_name te ++ "Builder")))).
        split; [reflexivity|]. split; [reflexivity|]. split; [apply (r_map v _ _ t e); auto; now apply r_struct|]. split; [now apply (b_map _ (object_name te))|].
        split; (apply import_right; [|now apply own_right; [|cbn]]).
        -- rewrite RP. exact (d_map _ _ (d_ptr _ _ (d_named _ ID))).
        -- change ("map[string]" ++ "*" ++ path_base pkg ++ "." ++ object_name te ++ "Builder") with ("map[string]*" ++ path_base pkg ++ "." ++ object_name te ++ "Builder").
           rewrite (render_own pkg PKG "map[string]*") by (try (now apply dotlessb_sound); now apply identifier_dotless). exact (d_map _ _ (d_ptr _ _ (d_named _ IDB))).
  Qed.

  (** A type of the model is represented by one type. *)
  Lemma represents_unique k link g h : represents v k link g -> represents v k link h -> g = h.
  Proof.
    intros R. revert h. pose proof STD as (S1 & (ti & S2 & S2') & S3 & S4).
    assert (BK : forall k g t, In (k, g) basic_types -> mget k (v_types v) = Some t -> t_kind t = ScalarType).
    { intros k' g' t I G. assert (exists s, In (k', s) scalar_zeros) as (s & I') by (unfold basic_types in I; cbn in I; repeat (destruct I as [I|I]; [injection I as <- <-; eexists; cbn; eauto 10|]); contradiction).
      destruct (S1 k' s I') as (t' & G' & K'). congruence. }
    assert (BI : forall g, ~ In ("interface", g) basic_types) by (intros g' I; unfold basic_types in I; cbn in I; repeat (destruct I as [I|I]; [discriminate I|]); exact I).
    assert (BF : forall k g g', In (k, g) basic_types -> In (k, g') basic_types -> g = g').
    { intros k' g1 g2 I J. unfold basic_types in I, J. cbn in I, J.
      repeat (destruct I as [I|I]; [injection I as <- <-; repeat (destruct J as [J|J]; [first [discriminate J|now injection J as <-]|]); contradiction|]). contradiction. }
    assert (ST : forall t, structural t -> t_kind t = ClassType \/ t_kind t = StructType) by (intros t X; exact X).
    Ltac clash BK BI ST := repeat match goal with
      | H : structural _ |- _ => apply ST in H
      | H : In ("interface", _) basic_types |- _ => destruct (BI _ H)
      | H : In (?k, _) basic_types, G : mget ?k _ = Some _ |- _ => pose proof (BK _ _ _ H G); clear H
      | H : mget ?k _ = Some ?t, G : mget ?k _ = Some ?u |- _ => first [constr_eq t u; fail 1 | assert (t = u) by congruence; subst]
      end.
    induction R as [k link g I|link|k link t G K|k link t G K|k t e g G K E R IH|k t e te G K E GE KE|k link t e g G K E R IH]; intros h R'.
    all: inversion R' as [k' link' g' I'|link'|k' link' t' G' K'|k' link' t' G' K'|k' t' e' g' G' K' E' R''|k' t' e' te' G' K' E' GE' KE'|k' link' t' e' g' G' K' E' R'']; subst.
    all: try (exfalso; clash BK BI ST; intuition congruence).
    all: try reflexivity.
    all: try (eapply BF; eassumption).
    all: clash BK BI ST; try reflexivity.
    all: try (f_equal; apply IH; congruence).
    all: assert (e' = e) by congruence; subst; first [f_equal; now apply IH|idtac].
    all: assert (te' = te) by congruence; subst; reflexivity.
  Qed.
End Imports.
