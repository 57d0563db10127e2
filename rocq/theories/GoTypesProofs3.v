(** Proofs about the types of the code generated for attributes and parameters. *)
From Coq Require Import Ascii String Bool Arith Lia List.
From Verif Require Import GoStrings GoStringsProofs GoMap GoMapProofs NamesModel NamesSpec ConceptsModel ReporterModel ChecksModel GoNamesModel GoNamesSpec GoNamesProofs
  BufferModel BufferProofs2 DeclsModel OpenapiProofs5 GoTypesModel ObjectsSpec GoTypesSpec GoTypesProofs GoTypesProofs2.
Import ListNotations.
Local Open Scope string_scope.

Lemma flat_same g : flat g -> given_as g g.
Proof. intros F. apply b_same; intros n ->; exact F. Qed.
Lemma flat_slice_same g : flat g -> given_as (GSlice g) (GSlice g).
Proof. intros F. apply b_same; try discriminate. intros n [= ->]. exact F. Qed.
Lemma flat_map_same g : flat g -> given_as (GMap g) (GMap g).
Proof. intros F. apply b_same; try discriminate. intros n [= ->]. exact F. Qed.

Lemma nillable_any : nillable GAny. Proof. now left. Qed.
Lemma nillable_ptr g : nillable (GPtr g). Proof. right. exists g. auto. Qed.
Lemma nillable_slice g : nillable (GSlice g). Proof. right. exists g. auto. Qed.
Lemma nillable_map g : nillable (GMap g). Proof. right. exists g. auto. Qed.
Lemma element_slice g : element (GSlice g) g. Proof. now left. Qed.
Lemma element_map g : element (GMap g) g. Proof. now right. Qed.
#[global] Hint Resolve nillable_any nillable_ptr nillable_slice nillable_map element_slice element_map : gotypes.
#[global] Hint Constructors denotes : gotypes.

Ltac field := first [apply t_field; reflexivity | apply t_value; reflexivity | apply t_item; reflexivity].
Ltac typing :=
  match goal with
  | |- Forall _ [] => apply Forall_nil
  | |- Forall _ (_ :: _) => apply Forall_cons; typing
  | |- well_typed _ _ (SSet _ (EConstant _)) => eapply w_set; [reflexivity|apply a_constant; auto; try (constructor; fail)]
  | |- well_typed _ _ (SSet _ _) => eapply w_set; [reflexivity|apply a_same; typing]
  | |- well_typed _ _ (SSetItem _ _) => eapply w_set_item; [reflexivity|solve [auto with gotypes]|apply a_same; typing]
  | |- well_typed _ _ (SSetBuilt _ _) => eapply w_set_built; [reflexivity|eexists; split; [|split; [field|reflexivity]]; auto]
  | |- well_typed _ _ (SSetItemBuilt _ _) => eapply w_set_item_built; [reflexivity|solve [auto with gotypes]|eexists; split; [|split; [field|reflexivity]]; auto]
  | |- well_typed _ _ (SCopy _ _) => eapply w_copy; [reflexivity|field]
  | |- well_typed _ _ (SRange _ _) => eapply w_range; [field|solve [auto with gotypes]|typing]
  | |- well_typed _ _ (SIfNotNil _ _ _) => eapply w_if_not_nil; [field|solve [auto with gotypes]|typing|typing]
  | |- well_typed _ _ (SIfNotEmpty _ _ _) => eapply w_if_not_empty; [field|solve [eauto with gotypes]|typing|typing]
  | |- well_typed _ _ (SResult (EConstant _)) => eapply w_result; [reflexivity|apply a_constant; auto; try (constructor; fail)]
  | |- well_typed _ _ (SResult _) => eapply w_result; [reflexivity|apply a_same; typing]
  | |- has_type _ _ (EDeref _) _ => apply t_deref; field
  | |- has_type _ _ (EAddr EValue) _ => apply t_addr_value; field
  | |- has_type _ _ (EAddr EItem) _ => apply t_addr_item; field
  | |- has_type _ _ (EMake ("map" ++ _)) _ => apply t_make_map; auto with gotypes
  | |- has_type _ _ (EMake _) (GSlice _) => apply t_make_slice; auto with gotypes
  | |- has_type _ _ (EMake _) (GMap _) => apply t_make_map; auto with gotypes
  | |- has_type _ _ (EEmpty _) _ => apply t_empty_map; auto with gotypes
  | |- has_type _ _ (ECopied _ _) _ => apply t_copied; [auto|field]
  | |- has_type _ _ (EList _ _) _ => apply t_list; [auto|field]
  | |- has_type _ _ _ _ => field
  end.

Section Attributes.
  Context (pkg : string) (v : version) (PKG : package_path pkg) (STD : standard v) (NAMED : named_well v).

  Lemma slice_dotless : dotless "[]". Proof. now apply dotlessb_sound. Qed.
  Lemma map_dotless : dotless "map[string]". Proof. now apply dotlessb_sound. Qed.
  Lemma star_dotless : dotless "*". Proof. now apply dotlessb_sound. Qed.

  Definition compiles (a : attribute) : Prop :=
    exists c g b, generate_attribute pkg v a = Done (c, []) /\ represents v (a_type a) (a_link a) g /\ given_as g b /\ attribute_compiles v c g b.

  Lemma scalar_attribute a t : mget (a_type a) (v_types v) = Some t -> In (t_kind t) [ScalarType; EnumType; InterfaceType] -> compiles a.
  Proof.
    intros G K. destruct (scalar_reference pkg v PKG STD NAMED _ t G K) as (r & g & R & F & D & V & FR & DN & RI & RF & _ & _ & z & Z & C).
    destruct (scalar_is t K) as (I1 & I2 & I3 & I4).
    assert (RT : rendered pkg r = rf_text r) by (destruct RF; [now apply render_foreign|now apply render_dotless]).
    eexists _, g, g. split.
    - unfold generate_attribute. change (type_at (a_type a) v) with (mget (a_type a) (v_types v)). rewrite G. cbv zeta.
      unfold object_type, builder_type. rewrite I1, I3, V, Z. cbn [andb app]. reflexivity.
    - split; [apply R|]. split; [now apply flat_same|].
      unfold attribute_compiles. cbn [ac_object_field ac_getter_type ac_builder_field ac_formal ac_setter ac_getter ac_copy ac_build]. rewrite RT.
      unfold setter_formal, setter_code, copy_code, build_code, getter_code. rewrite I1, I3.
      repeat (split; [auto; fail|]). split; [|split; [typing|split; typing]].
      exists g. split; [exact DN|]. split; [exact D|typing].
  Qed.

  Lemma struct_attribute a t : mget (a_type a) (v_types v) = Some t -> structural t -> compiles a.
  Proof.
    intros G K. destruct (struct_reference pkg v STD NAMED _ t G K) as (FR & V & ID & T & D1 & D2 & HB & D3).
    destruct (struct_is t K) as (I1 & I2 & I3 & I4 & I5 & I6).
    assert (OWN : type_package pkg (a_type a) t = (pkg, path_base pkg, [])).
    { apply (own_package pkg v STD _ t G). destruct K as [K|K]; rewrite K; cbn; auto. }
    pose proof (identifier_app _ "Builder" ID eq_refl) as IDB.
    eexists _, (GPtr (GNamed (object_name t))), (GPtr (GNamed (object_name t ++ "Builder"))). split.
    - unfold generate_attribute. change (type_at (a_type a) v) with (mget (a_type a) (v_types v)). rewrite G. cbv zeta.
      unfold object_type, builder_type, nullable_reference, builder_reference, zero_value. rewrite I1, I2, I3, V, FR, OWN.
      cbn [andb orb app with_text rf_import rf_selector rf_name rf_text]. reflexivity.
    - split; [now apply r_struct|]. split; [now apply (b_struct _ (object_name t))|].
      unfold attribute_compiles, with_text. cbn [ac_object_field ac_getter_type ac_builder_field ac_formal ac_setter ac_getter ac_copy ac_build rf_import rf_selector rf_name rf_text].
      rewrite !(render_own pkg PKG "*") by (try apply star_dotless; now apply identifier_dotless).
      unfold setter_formal, setter_code, copy_code, build_code, getter_code. rewrite I1, I2, I3.
      pose proof (d_ptr _ _ (d_named _ ID)) as DO. pose proof (d_ptr _ _ (d_named _ IDB)) as DB.
      split; [exact DO|]. split; [exact DO|]. split; [exact DB|]. split; [exact D1|]. split; [exact D3|].
      split; [|split; [typing|split; typing]].
      exists (GPtr (GNamed (object_name t ++ "Builder"))). split; [now apply (d_ptr (object_name t ++ "Builder")), d_named|]. split; [exact D3|typing].
  Qed.

  Lemma list_value k t : mget k (v_types v) = Some t -> t_kind t = ListType -> value_reference pkg v k t = collection_reference pkg v "[]" t.
  Proof.
    intros G K. destruct (list_is t K) as (I1 & I2 & I3 & I4 & I5 & I6). destruct (not_builtin v STD k t G) as (B & _); [rewrite K; cbn; intuition discriminate|].
    unfold value_reference. now rewrite B, I5, I3.
  Qed.
  Lemma map_value k t : mget k (v_types v) = Some t -> t_kind t = MapType -> value_reference pkg v k t = collection_reference pkg v "map[string]" t.
  Proof.
    intros G K. destruct (map_is t K) as (I1 & I2 & I3 & I4 & I5 & I6). destruct (not_builtin v STD k t G) as (B & _); [rewrite K; cbn; intuition discriminate|].
    unfold value_reference. now rewrite B, I5, I3, I4.
  Qed.

  Lemma list_builder t e te : In t (types v) -> t_kind t = ListType -> t_element t = Some e -> mget e (v_types v) = Some te -> structural te ->
    has_builder v (object_name te ++ "List") /\ declared v ((object_name te ++ "List") ++ "Builder").
  Proof.
    intros T K E G KE. destruct (list_is t K) as (I1 & I2 & I3 & I4 & I5 & I6). destruct (struct_is te KE) as (J1 & J2 & _).
    assert (BN : built_name v t = Some (object_name te ++ "List")).
    { unfold built_name. rewrite I2, I3, E. change (type_at e v) with (mget e (v_types v)). now rewrite G, J2. }
    split.
    - split; apply in_flat_map; exists t; (split; [exact T|]); rewrite BN; cbn; auto.
    - exists t. split; [exact T|]. right. right. eauto.
  Qed.

  Lemma list_attribute a t : mget (a_type a) (v_types v) = Some t -> t_kind t = ListType -> a_link a = false -> plain v t -> compiles a.
  Proof.
    intros G K L P. destruct (list_is t K) as (I1 & I2 & I3 & I4 & I5 & I6). destruct (flat_kind v t P) as (e & te & E & GE & [KE|KE]).
    - destruct (collection_scalar pkg v PKG STD NAMED "[]" t e te E GE KE slice_dotless) as (r & g & R & F & D & CR & VE & DN & RI & RT & RP).
      destruct (scalar_is te KE) as (J1 & J2 & J3 & J4).
      eexists _, (GSlice g), (GSlice g). split.
      + unfold generate_attribute. change (type_at (a_type a) v) with (mget (a_type a) (v_types v)). rewrite G. cbv zeta.
        unfold object_type, builder_type, builder_collection, nullable_reference, zero_value, element_of. rewrite I1, I2, I3, L, E.
        change (type_at e v) with (mget e (v_types v)). rewrite GE, J1, (list_value _ t G K), CR, VE. cbn [andb orb app negb option_map snd]. reflexivity.
      + rewrite L. split; [now apply (r_slice v _ t e)|]. split; [now apply flat_slice_same|].
        unfold attribute_compiles. cbn [ac_object_field ac_getter_type ac_builder_field ac_formal ac_setter ac_getter ac_copy ac_build]. rewrite RT, RP.
        unfold setter_formal, setter_code, copy_code, build_code, getter_code. rewrite I1, I2, I3, J1.
        pose proof (d_slice _ _ DN) as DM.
        split; [exact DM|]. split; [exact DM|]. split; [exact DM|]. split; [exact D|]. split; [exact D|]. split; [|split; [typing|split; typing]].
        exists (GSlice g). split; [exists g; auto|]. split; [exact D|typing].
    - destruct (collection_struct pkg v PKG STD NAMED "[]" t e te E GE KE slice_dotless) as (r & CR & RP & RI).
      destruct (struct_reference pkg v STD NAMED _ te GE KE) as (FR & V & ID & T & D1 & D2 & HB & D3).
      destruct (struct_is te KE) as (J1 & J2 & J3 & J4 & J5 & J6).
      assert (OWN : type_package pkg e te = (pkg, path_base pkg, [])).
      { apply (own_package pkg v STD _ te GE). destruct KE as [KE|KE]; rewrite KE; cbn; auto. }
      pose proof (identifier_app _ "Builder" ID eq_refl) as IDB.
      eexists _, (GSlice (GPtr (GNamed (object_name te)))), (GSlice (GPtr (GNamed (object_name te ++ "Builder")))). split.
      + unfold generate_attribute. change (type_at (a_type a) v) with (mget (a_type a) (v_types v)). rewrite G. cbv zeta.
        unfold object_type, builder_type, builder_collection, nullable_reference, zero_value, element_of. rewrite I1, I2, I3, L, E.
        change (type_at e v) with (mget e (v_types v)). rewrite GE, J1, (list_value _ t G K), CR, V, FR. unfold builder_reference. rewrite J2, OWN.
        cbn [andb orb app negb option_map snd prefixed rf_import rf_selector rf_text]. reflexivity.
      + rewrite L. split; [apply (r_slice v _ t e); auto; now apply r_struct|]. split; [now apply (b_slice _ (object_name te))|].
        unfold attribute_compiles. cbn [ac_object_field ac_getter_type ac_builder_field ac_formal ac_setter ac_getter ac_copy ac_build].
        change ("[]" ++ "*" ++ path_base pkg ++ "." ++ object_name te ++ "Builder") with ("[]*" ++ path_base pkg ++ "." ++ object_name te ++ "Builder").
        rewrite (render_own pkg PKG "[]*") by (try (now apply dotlessb_sound); now apply identifier_dotless). rewrite RP.
        unfold setter_formal, setter_code, copy_code, build_code, getter_code. rewrite I1, I2, I3, J1, J2.
        assert (DB : denotes ("*" ++ object_name te ++ "Builder") (GPtr (GNamed (object_name te ++ "Builder")))) by (apply d_ptr; now apply d_named).
        assert (DO : denotes ("*" ++ object_name te) (GPtr (GNamed (object_name te)))) by (apply d_ptr; now apply d_named).
        pose proof (d_slice _ _ DB) as DSB. pose proof (d_slice _ _ DO) as DSO.
        split; [exact DSO|]. split; [exact DSO|]. split; [exact DSB|]. split; [exact D1|]. split; [exact D3|]. split; [|split; [typing|split; typing]].
        exists (GSlice (GPtr (GNamed (object_name te ++ "Builder")))). split; [eexists; split; [exact DB|reflexivity]|]. split; [exact D3|typing].
  Qed.

  Lemma map_attribute a t : mget (a_type a) (v_types v) = Some t -> t_kind t = MapType -> plain v t -> compiles a.
  Proof.
    intros G K P. destruct (map_is t K) as (I1 & I2 & I3 & I4 & I5 & I6). destruct (flat_kind v t P) as (e & te & E & GE & [KE|KE]).
    - destruct (collection_scalar pkg v PKG STD NAMED "map[string]" t e te E GE KE map_dotless) as (r & g & R & F & D & CR & VE & DN & RI & RT & RP).
      destruct (scalar_is te KE) as (J1 & J2 & J3 & J4).
      eexists _, (GMap g), (GMap g). split.
      + unfold generate_attribute. change (type_at (a_type a) v) with (mget (a_type a) (v_types v)). rewrite G. cbv zeta.
        unfold object_type, builder_type, builder_collection, nullable_reference, zero_value, element_of. rewrite I1, I2, I3, I4, E.
        change (type_at e v) with (mget e (v_types v)). rewrite GE, J1, (map_value _ t G K), CR. cbn [andb orb app negb option_map snd]. reflexivity.
      + split; [now apply (r_map v _ _ t e)|]. split; [now apply flat_map_same|].
        unfold attribute_compiles. cbn [ac_object_field ac_getter_type ac_builder_field ac_formal ac_setter ac_getter ac_copy ac_build]. rewrite RP.
        unfold setter_formal, setter_code, copy_code, build_code, getter_code. rewrite I1, I2, I3, I4, J1.
        pose proof (d_map _ _ DN) as DM.
        split; [exact DM|]. split; [exact DM|]. split; [exact DM|]. split; [exact D|]. split; [exact D|]. split; [|split; [typing|split; typing]].
        exists (GMap g). split; [exact DM|]. split; [exact D|typing].
    - destruct (collection_struct pkg v PKG STD NAMED "map[string]" t e te E GE KE map_dotless) as (r & CR & RP & RI).
      destruct (struct_reference pkg v STD NAMED _ te GE KE) as (FR & V & ID & T & D1 & D2 & HB & D3).
      destruct (struct_is te KE) as (J1 & J2 & J3 & J4 & J5 & J6).
      assert (OWN : type_package pkg e te = (pkg, path_base pkg, [])).
      { apply (own_package pkg v STD _ te GE). destruct KE as [KE|KE]; rewrite KE; cbn; auto. }
      pose proof (identifier_app _ "Builder" ID eq_refl) as IDB.
      eexists _, (GMap (GPtr (GNamed (object_name te)))), (GMap (GPtr (GNamed (object_name te ++ "Builder")))). split.
      + unfold generate_attribute. change (type_at (a_type a) v) with (mget (a_type a) (v_types v)). rewrite G. cbv zeta.
        unfold object_type, builder_type, builder_collection, nullable_reference, zero_value, element_of. rewrite I1, I2, I3, I4, E.
        change (type_at e v) with (mget e (v_types v)). rewrite GE, J1, (map_value _ t G K), CR. unfold builder_reference. rewrite J2, OWN.
        cbn [andb orb app negb option_map snd prefixed rf_import rf_selector rf_text]. reflexivity.
      + split; [apply (r_map v _ _ t e); auto; now apply r_struct|]. split; [now apply (b_map _ (object_name te))|].
        unfold attribute_compiles. cbn [ac_object_field ac_getter_type ac_builder_field ac_formal ac_setter ac_getter ac_copy ac_build].
        change ("map[string]" ++ "*" ++ path_base pkg ++ "." ++ object_name te ++ "Builder") with ("map[string]*" ++ path_base pkg ++ "." ++ object_name te ++ "Builder").
        rewrite (render_own pkg PKG "map[string]*") by (try (now apply dotlessb_sound); now apply identifier_dotless). rewrite RP.
        unfold setter_formal, setter_code, copy_code, build_code, getter_code. rewrite I1, I2, I3, I4, J1, J2.
        assert (DB : denotes ("*" ++ object_name te ++ "Builder") (GPtr (GNamed (object_name te ++ "Builder")))) by (apply d_ptr; now apply d_named).
        assert (DO : denotes ("*" ++ object_name te) (GPtr (GNamed (object_name te)))) by (apply d_ptr; now apply d_named).
        pose proof (d_map _ _ DB) as DSB. pose proof (d_map _ _ DO) as DSO.
        split; [exact DSO|]. split; [exact DSO|]. split; [exact DSB|]. split; [exact D1|]. split; [exact D3|]. split; [|split; [typing|split; typing]].
        exists (GMap (GPtr (GNamed (object_name te ++ "Builder")))). split; [exact DSB|]. split; [exact D3|typing].
  Qed.

  Lemma link_attribute a t e te : mget (a_type a) (v_types v) = Some t -> t_kind t = ListType -> a_link a = true -> t_element t = Some e -> mget e (v_types v) = Some te ->
    structural te -> compiles a.
  Proof.
    intros G K L E GE KE. destruct (list_is t K) as (I1 & I2 & I3 & I4 & I5 & I6).
    destruct (struct_reference pkg v STD NAMED _ te GE KE) as (FR & V & ID & T & D1 & D2 & HB & D3).
    destruct (struct_is te KE) as (J1 & J2 & J3 & J4 & J5 & J6).
    assert (OWN : type_package pkg e te = (pkg, path_base pkg, [])).
    { apply (own_package pkg v STD _ te GE). destruct KE as [KE|KE]; rewrite KE; cbn; auto. }
    destruct (list_builder t e te) as (LB & LD); auto; [now apply mget_types in G|].
    pose proof (identifier_app _ "List" ID eq_refl) as IDL. pose proof (identifier_app _ "Builder" IDL eq_refl) as IDB.
    eexists _, (GPtr (GNamed (object_name te ++ "List"))), (GPtr (GNamed ((object_name te ++ "List") ++ "Builder"))). split.
    - unfold generate_attribute. change (type_at (a_type a) v) with (mget (a_type a) (v_types v)). rewrite G. cbv zeta.
      unfold object_type, builder_type, builder_reference, list_reference, zero_value, element_of. rewrite I1, I2, I3, L, E.
      change (type_at e v) with (mget e (v_types v)). rewrite GE, OWN. cbn [andb orb app negb option_map snd]. reflexivity.
    - rewrite L. split; [now apply (r_list v _ t e)|]. split; [now apply (b_struct _ (object_name te ++ "List"))|].
      unfold attribute_compiles. cbn [ac_object_field ac_getter_type ac_builder_field ac_formal ac_setter ac_getter ac_copy ac_build].
      replace (object_name te ++ "ListBuilder") with ((object_name te ++ "List") ++ "Builder") by (now rewrite sapp_assoc).
      rewrite !(render_own pkg PKG "*") by (try apply star_dotless; now apply identifier_dotless).
      unfold setter_formal, setter_code, copy_code, build_code, getter_code. rewrite I1, I2, I3.
      pose proof (d_ptr _ _ (d_named _ IDL)) as DL. pose proof (d_ptr _ _ (d_named _ IDB)) as DB.
      split; [exact DL|]. split; [exact DL|]. split; [exact DB|]. split; [exact D2|]. split; [exact LD|]. split; [|split; [typing|split; typing]].
      exists (GPtr (GNamed ((object_name te ++ "List") ++ "Builder"))). split; [exact DB|]. split; [exact LD|typing].
  Qed.

  Lemma attribute_ok a : acceptable v (a_type a) (a_link a) -> compiles a.
  Proof.
    intros (t & G & NU & P & L). destruct (t_kind t) eqn:K; try congruence.
    all: try (apply (scalar_attribute a t G); rewrite K; cbn; auto; fail).
    all: try (apply (struct_attribute a t G); unfold structural; auto; fail).
    - destruct (a_link a) eqn:AL; [|apply (list_attribute a t G K AL), P; cbn; auto].
      destruct (L eq_refl eq_refl) as (e & te & E & GE & KE). now apply (link_attribute a t e te).
    - apply (map_attribute a t G K), P. cbn; auto.
  Qed.
End Attributes.
