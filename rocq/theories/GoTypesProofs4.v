(** Proofs about the types of the code generated for parameters, about the imports, and about the code that isn't valid. *)
From Coq Require Import Ascii String Bool Arith Lia List.
From Verif Require Import GoStrings GoStringsProofs GoMap GoMapProofs NamesModel NamesSpec ConceptsModel ReporterModel ChecksModel GoNamesModel GoNamesSpec GoNamesProofs
  BufferModel BufferProofs2 DeclsModel OpenapiProofs5 GoTypesModel ObjectsSpec GoTypesSpec GoTypesProofs GoTypesProofs2 GoTypesProofs3.
Import ListNotations.
Local Open Scope string_scope.

Section Parameters.
  Context (pkg : string) (v : version) (PKG : package_path pkg) (STD : standard v) (NAMED : named_well v).

  (** The texts of the types of the parameters that aren't items. *)
  Lemma nullable_text k t : acceptable v k false -> mget k (v_types v) = Some t -> ~ In (t_kind t) [ScalarType; EnumType; InterfaceType] ->
    exists r g, nullable_reference pkg v k t = Done (r, []) /\ represents v k false g /\ denotes (rendered pkg r) g /\ all_declared v g /\
      (structural t /\ g = GPtr (GNamed (object_name t)) \/ t_kind t = ListType /\ (exists h, g = GSlice h) \/ t_kind t = MapType /\ (exists h, g = GMap h)).
  Proof.
    intros (t' & G' & NU & P & _) G NS. replace t' with t in * by congruence. clear t' G'.
    assert (C : structural t \/ t_kind t = ListType \/ t_kind t = MapType).
    { unfold structural. cbn in NS. destruct (t_kind t); auto; exfalso; auto 10. }
    destruct C as [KS|[K|K]].
    - destruct (struct_reference pkg v STD NAMED k t G KS) as (FR & V & ID & T & D1 & D2 & HB & D3).
      destruct (struct_is t KS) as (I1 & I2 & I3 & I4 & I5 & I6).
      eexists _, (GPtr (GNamed (object_name t))). split; [unfold nullable_reference; rewrite V, FR, I1, I2; cbn [andb]; reflexivity|].
      unfold with_text. cbn [rf_import rf_selector rf_name rf_text]. rewrite (render_own pkg PKG "*") by (try apply star_dotless; now apply identifier_dotless).
      split; [now apply r_struct|]. split; [exact (d_ptr _ _ (d_named _ ID))|]. split; [exact D1|]. left. auto.
    - destruct (list_is t K) as (I1 & I2 & I3 & I4 & I5 & I6). destruct (flat_kind v t) as (e & te & E & GE & [KE|KE]); [apply P; rewrite K; cbn; auto| |].
      + destruct (collection_scalar pkg v PKG STD NAMED "[]" t e te E GE KE slice_dotless) as (r & g & R & F & D & CR & VE & DN & RI & RT & RP).
        eexists _, (GSlice g). split; [unfold nullable_reference; rewrite (list_value pkg v STD _ t G K), CR, I1, I2; cbn [andb]; reflexivity|]. rewrite RP.
        split; [now apply (r_slice v _ t e)|]. split; [exact (d_slice _ _ DN)|]. split; [exact D|]. right. left. eauto.
      + destruct (collection_struct pkg v PKG STD NAMED "[]" t e te E GE KE slice_dotless) as (r & CR & RP & RI).
        destruct (struct_reference pkg v STD NAMED _ te GE KE) as (FR & V & ID & T & D1 & D2 & HB & D3).
        eexists _, (GSlice (GPtr (GNamed (object_name te)))). split; [unfold nullable_reference; rewrite (list_value pkg v STD _ t G K), CR, I1, I2; cbn [andb]; reflexivity|]. rewrite RP.
        split; [apply (r_slice v _ t e); auto; now apply r_struct|]. split; [exact (d_slice _ _ (d_ptr _ _ (d_named _ ID)))|]. split; [exact D1|]. right. left. eauto.
    - destruct (map_is t K) as (I1 & I2 & I3 & I4 & I5 & I6). destruct (flat_kind v t) as (e & te & E & GE & [KE|KE]); [apply P; rewrite K; cbn; auto| |].
      + destruct (collection_scalar pkg v PKG STD NAMED "map[string]" t e te E GE KE map_dotless) as (r & g & R & F & D & CR & VE & DN & RI & RT & RP).
        eexists _, (GMap g). split; [unfold nullable_reference; rewrite (map_value pkg v STD _ t G K), CR, I1, I2; cbn [andb]; reflexivity|]. rewrite RP.
        split; [now apply (r_map v _ _ t e)|]. split; [exact (d_map _ _ DN)|]. split; [exact D|]. right. right. eauto.
      + destruct (collection_struct pkg v PKG STD NAMED "map[string]" t e te E GE KE map_dotless) as (r & CR & RP & RI).
        destruct (struct_reference pkg v STD NAMED _ te GE KE) as (FR & V & ID & T & D1 & D2 & HB & D3).
        eexists _, (GMap (GPtr (GNamed (object_name te)))). split; [unfold nullable_reference; rewrite (map_value pkg v STD _ t G K), CR, I1, I2; cbn [andb]; reflexivity|]. rewrite RP.
        split; [apply (r_map v _ _ t e); auto; now apply r_struct|]. split; [exact (d_map _ _ (d_ptr _ _ (d_named _ ID)))|]. split; [exact D1|]. right. right. eauto.
  Qed.

  Lemma scalar_cases k t : acceptable v k false -> mget k (v_types v) = Some t ->
    In (t_kind t) [ScalarType; EnumType; InterfaceType] \/ ~ In (t_kind t) [ScalarType; EnumType; InterfaceType].
  Proof. intros _ _. destruct (t_kind t); cbn; intuition discriminate. Qed.

  (** The texts of the types of scalar parameters. *)
  Lemma scalar_text k t : mget k (v_types v) = Some t -> In (t_kind t) [ScalarType; EnumType; InterfaceType] ->
    exists r n g z, value_reference pkg v k t = Done (r, []) /\ nullable_reference pkg v k t = Done (n, []) /\ represents v k false g /\ denotes (rendered pkg r) g /\ all_declared v g /\
      zero_value pkg k t = (z, []) /\ constant v z g /\
      (t_kind t = InterfaceType /\ g = GAny /\ denotes (rendered pkg n) g \/ t_kind t <> InterfaceType /\ denotes (rendered pkg n) (GPtr g)).
  Proof.
    intros G K. destruct (scalar_reference pkg v PKG STD NAMED _ t G K) as (r & g & R & F & D & V & FR & DN & RI & RF & N1 & N2 & z & Z & C).
    destruct (scalar_is t K) as (I1 & I2 & I3 & I4).
    assert (RT : rendered pkg r = rf_text r) by (destruct RF; [now apply render_foreign|now apply render_dotless]).
    destruct (is_interface t) eqn:I.
    - assert (KI : t_kind t = InterfaceType) by (unfold is_interface in I; destruct (t_kind t); try discriminate; reflexivity).
      exists r, r, g, z. split; [exact V|]. split; [unfold nullable_reference; now rewrite V, I1, I2, I|]. rewrite RT. repeat (split; [auto; fail|]). left. auto.
    - assert (KI : t_kind t <> InterfaceType) by (unfold is_interface in I; intros E; now rewrite E in I).
      exists r, (with_text ("*" ++ rf_text r) r), g, z. split; [exact V|]. split; [unfold nullable_reference; rewrite V, I1, I; reflexivity|]. rewrite RT. repeat (split; [auto; fail|]).
      right. split; [exact KI|]. replace (rendered pkg (with_text ("*" ++ rf_text r) r)) with ("*" ++ rf_text r); [now apply d_ptr|].
      symmetry. destruct RF as [RF|RF]; [now apply render_foreign|]. apply render_dotless. cbn. now apply (dotless_app "*"); [apply star_dotless|].
  Qed.

  Lemma request_ok m p : acceptable v (p_type p) false -> is_items m p = false -> (forall t, mget (p_type p) (v_types v) = Some t -> t_kind t <> MapType) ->
    exists c, generate_request pkg v m p = Done (c, []) /\ request_compiles v c.
  Proof.
    intros A I NM. pose proof A as (t & G & _). specialize (NM t G). destruct (scalar_cases _ t A G) as [K|K].
    - destruct (scalar_text _ t G K) as (r & n & g & z & V & N & R & D & DD & Z & C & X). destruct (scalar_is t K) as (I1 & I2 & I3 & I4).
      eexists. split.
      + unfold generate_request. change (type_at (p_type p) v) with (mget (p_type p) (v_types v)). rewrite G. unfold parameter_type, accessor_type.
        rewrite I, I1, I3, V, N. cbn [orb andb app]. reflexivity.
      + unfold request_compiles. cbn [qc_field qc_formal qc_setter]. unfold request_setter_code. rewrite I2, I3. cbn [orb].
        destruct X as [(_ & -> & X)|(_ & X)].
        * exists GAny, GAny. repeat (split; [assumption|]). apply Forall_cons; [|apply Forall_nil]. eapply w_set; [reflexivity|]. eapply a_any. typing.
        * exists (GPtr g), g. repeat (split; [assumption|]). typing.
    - destruct (nullable_text _ t A G K) as (r & g & N & R & D & DD & X).
      assert (S : is_scalar t = false) by (unfold is_scalar; destruct (t_kind t); cbn in K |- *; try reflexivity; exfalso; auto).
      assert (SL : is_struct t || is_list t = true).
      { destruct X as [(X & _)|[(X & _)|(X & _)]]; [now destruct (struct_is t X) as (_ & -> & _)|destruct (list_is t X) as (_ & -> & -> & _); reflexivity|congruence]. }
      exists (MkRequestCode (rendered pkg r) (One (rendered pkg r)) [SSet InRequest EValue]). split.
      + unfold generate_request. change (type_at (p_type p) v) with (mget (p_type p) (v_types v)). rewrite G. unfold parameter_type, accessor_type.
        rewrite I, S, N. cbn [orb]. unfold request_setter_code. rewrite !SL. cbn [orb andb app]. destruct (is_list t && scalar_element v t); reflexivity.
      + exists g, g. cbn [qc_field qc_formal qc_setter]. repeat (split; [assumption|]). typing.
  Qed.

  Lemma response_ok m p : acceptable v (p_type p) false ->
    (forall t, mget (p_type p) (v_types v) = Some t -> t_kind t <> InterfaceType /\ (is_items m p = true -> t_kind t = ListType)) ->
    exists c, generate_response pkg v m p = Done (c, []) /\ response_compiles v (p_type p) c.
  Proof.
    intros A NI. pose proof A as (t & G & NU & P & _). destruct (NI t G) as (NI' & IL). clear NI. destruct (scalar_cases _ t A G) as [K|K].
    - destruct (scalar_text _ t G K) as (r & n & g & z & V & N & R & D & DD & Z & C & X). destruct (scalar_is t K) as (I1 & I2 & I3 & I4).
      destruct X as [(X & _)|(_ & X)]; [congruence|].
      assert (I : is_items m p = false).
      { destruct (is_items m p); [|reflexivity]. rewrite (IL eq_refl) in K. cbn in K. intuition discriminate. }
      eexists. split.
      + unfold generate_response. change (type_at (p_type p) v) with (mget (p_type p) (v_types v)). rewrite G. unfold parameter_type, accessor_type.
        rewrite I, I1, I3, V, N, Z. cbn [orb andb app]. reflexivity.
      + exists (GPtr g), g, g. cbn [pc_field pc_getter_type pc_getter pc_read]. repeat (split; [assumption|]).
        unfold response_getter_code, read_parameter_code. rewrite I1. split; typing.
    - destruct (nullable_text _ t A G K) as (r & g & N & R & D & DD & X).
      assert (S : is_scalar t = false) by (unfold is_scalar; destruct (t_kind t); cbn in K |- *; try reflexivity; exfalso; auto).
      assert (SLM : is_struct t || is_list t || is_map t = true).
      { destruct X as [(X & _)|[(X & _)|(X & _)]]; [now destruct (struct_is t X) as (_ & -> & _)|destruct (list_is t X) as (_ & -> & -> & _); reflexivity|destruct (map_is t X) as (_ & -> & -> & -> & _); reflexivity]. }
      assert (TYP : forall f : gotype, f = g -> Forall (well_typed v (MkContext (fun p => match p with InResponse => Some f | _ => None end) None None (Some f))) (response_getter_code "" t)).
      { intros f ->. unfold response_getter_code. rewrite S, SLM. destruct X as [(X & ->)|[(X & h & ->)|(X & h & ->)]]; typing. }
      assert (TYR : Forall (well_typed v (MkContext (fun p => match p with InResponse => Some g | _ => None end) None (Some g) None)) (read_parameter_code t)).
      { unfold read_parameter_code. rewrite S. typing. }
      destruct (is_list t) eqn:LT.
      + assert (KL : t_kind t = ListType) by (unfold is_list in LT; destruct (t_kind t); try discriminate; reflexivity).
        destruct (flat_kind v t) as (e & te & E & GE & [KE|KE]); [apply P; rewrite KL; cbn; auto| |].
        * destruct (scalar_is te KE) as (J1 & J2 & J3 & J4). destruct (collection_scalar pkg v PKG STD NAMED "[]" t e te E GE KE slice_dotless) as (re & ge & RE & F & DE & CR & VE & DN & RI & RT & RP).
          assert (RG : rendered pkg r = "[]" ++ rendered pkg re).
          { unfold nullable_reference in N. rewrite (list_value pkg v STD _ t G KL), CR, S in N. destruct (list_is t KL) as (_ & H2 & _). rewrite H2 in N. cbn [andb] in N. replace r with (with_text ("[]" ++ rf_text re) re) by congruence. now rewrite RP, RT. }
          eexists. split.
          -- unfold generate_response. change (type_at (p_type p) v) with (mget (p_type p) (v_types v)). rewrite G. unfold parameter_type, accessor_type, scalar_element, element_of.
             rewrite E. change (type_at e v) with (mget e (v_types v)). rewrite GE, J1, LT, S, VE, N. cbn [orb andb app option_map snd]. reflexivity.
          -- exists g, g, g. cbn [pc_field pc_getter_type pc_getter pc_read]. rewrite <- RG. repeat (split; [assumption|]). split; [now apply TYP|].
             destruct (is_items m p); [|exact TYR]. unfold read_items_code. rewrite J1. typing.
        * destruct (struct_is te KE) as (J1 & J2 & J3 & J4 & J5 & J6). destruct (struct_reference pkg v STD NAMED _ te GE KE) as (FR & V & ID & T & D1 & D2 & HB & D3).
          assert (OWN : type_package pkg e te = (pkg, path_base pkg, [])).
          { apply (own_package pkg v STD _ te GE). destruct KE as [KE|KE]; rewrite KE; cbn; auto. }
          destruct (is_items m p) eqn:I.
          -- pose proof (identifier_app _ "List" ID eq_refl) as IDL. eexists. split.
             ++ unfold generate_response. change (type_at (p_type p) v) with (mget (p_type p) (v_types v)). rewrite G. unfold parameter_type, accessor_type, scalar_element, element_of, list_reference.
                rewrite E. change (type_at e v) with (mget e (v_types v)). rewrite GE, J1, LT, S, I, OWN. cbn [orb andb app option_map snd]. reflexivity.
             ++ exists (GPtr (GNamed (object_name te ++ "List"))), (GPtr (GNamed (object_name te ++ "List"))), (GSlice (GPtr (GNamed (object_name te)))).
                cbn [pc_field pc_getter_type pc_getter pc_read]. rewrite (render_own pkg PKG "*") by (try apply star_dotless; now apply identifier_dotless).
                pose proof (d_ptr _ _ (d_named _ IDL)) as DL. split; [exact DL|]. split; [exact DL|]. split; [exact D2|]. split; [exact D2|].
                split; [apply (r_slice v _ t e); auto; now apply r_struct|]. unfold response_getter_code, read_items_code. rewrite S, LT, J1, orb_true_r. cbn [orb]. split; typing.
          -- eexists. split.
             ++ unfold generate_response. change (type_at (p_type p) v) with (mget (p_type p) (v_types v)). rewrite G. unfold parameter_type, accessor_type, scalar_element, element_of.
                rewrite E. change (type_at e v) with (mget e (v_types v)). rewrite GE, J1, LT, S, I, N. rewrite !orb_false_l, !orb_true_r. cbn [orb andb app option_map snd]. reflexivity.
             ++ exists g, g, g. cbn [pc_field pc_getter_type pc_getter pc_read]. repeat (split; [assumption|]). split; [now apply TYP|exact TYR].
      + assert (I : is_items m p = false).
        { destruct (is_items m p); [|reflexivity]. unfold is_list in LT. rewrite (IL eq_refl) in LT. discriminate. }
        assert (SM : is_struct t || is_map t = true) by (destruct (is_struct t), (is_map t); auto).
        eexists. split.
        * unfold generate_response. change (type_at (p_type p) v) with (mget (p_type p) (v_types v)). rewrite G. unfold parameter_type, accessor_type.
          rewrite I, S, LT, N. rewrite !orb_false_l, orb_false_r, SM. cbn [orb andb app]. reflexivity.
        * exists g, g, g. cbn [pc_field pc_getter_type pc_getter pc_read]. repeat (split; [assumption|]). split; [now apply TYP|exact TYR].
  Qed.

  (** * Code that isn't valid *)

  Lemma map_request_wrong m p t : acceptable v (p_type p) false -> is_items m p = false -> mget (p_type p) (v_types v) = Some t -> t_kind t = MapType ->
    exists c, generate_request pkg v m p = Done (c, []) /\ ~ request_compiles v c.
  Proof.
    intros A I G K. destruct (map_is t K) as (I1 & I2 & I3 & I4 & I5 & I6).
    destruct (nullable_text _ t A G) as (r & g & N & R & D & DD & X); [rewrite K; cbn; intuition discriminate|].
    destruct X as [([X|X] & _)|[(X & _)|(_ & h & ->)]]; try congruence.
    eexists. split.
    - unfold generate_request. change (type_at (p_type p) v) with (mget (p_type p) (v_types v)). rewrite G. unfold parameter_type, accessor_type.
      rewrite I, I1, I2, I3, I4, N. cbn [orb andb app]. reflexivity.
    - unfold request_compiles. cbn [qc_field qc_formal qc_setter]. unfold request_setter_code. rewrite I2, I3. cbn [orb].
      intros (f & g & DF & DG & _ & _ & W). pose proof (denotes_unique _ _ _ D DF) as <-. clear DF DG. apply Forall_inv in W.
      inversion W as [p' e g' EF AS| | | | | | | |]; subst. cbn in EF. injection EF as <-.
      inversion AS as [e' g' HT|e' g' HT|]; subst. inversion HT.
  Qed.

  Lemma interface_response_wrong m p t : is_items m p = false -> mget (p_type p) (v_types v) = Some t -> t_kind t = InterfaceType ->
    exists c, generate_response pkg v m p = Done (c, []) /\ ~ response_compiles v (p_type p) c.
  Proof.
    intros I G K. destruct (scalar_text _ t G) as (r & n & g & z & V & N & R & D & DD & Z & C & X); [rewrite K; cbn; auto|].
    destruct X as [(_ & -> & X)|(X & _)]; [|congruence]. destruct (scalar_is t) as (I1 & I2 & I3 & I4); [rewrite K; cbn; auto|].
    eexists. split.
    - unfold generate_response. change (type_at (p_type p) v) with (mget (p_type p) (v_types v)). rewrite G. unfold parameter_type, accessor_type.
      rewrite I, I1, I3, V, N, Z. cbn [orb andb app]. reflexivity.
    - unfold response_compiles. cbn [pc_field pc_getter_type pc_getter pc_read]. unfold response_getter_code. rewrite I1.
      intros (f & g & x & DF & _ & _ & _ & _ & W & _). pose proof (denotes_unique _ _ _ X DF) as <-. clear DF. apply Forall_inv in W.
      inversion W as [| | | | | |e g' l l' HT NL WL WL'| |]; subst. apply Forall_inv in WL.
      inversion WL as [| | | | | | | |e0 g0 ER AS]; subst. clear -AS. inversion AS as [e' g' HT|e' g' HT|]; subst; inversion HT as [| | |e'' g'' HT'| | | | | | |]; subst; inversion HT' as [p' g1 EF| | | | | | | | | |]; cbn in EF; discriminate.
  Qed.

  Lemma link_scalar_wrong a t e te : mget (a_type a) (v_types v) = Some t -> t_kind t = ListType -> a_link a = true -> t_element t = Some e -> mget e (v_types v) = Some te ->
    In (t_kind te) [ScalarType; InterfaceType] -> exists c, generate_attribute pkg v a = Done (c, []) /\ ~ exists g, denotes (ac_object_field c) g.
  Proof.
    intros G K L E GE KE. destruct (list_is t K) as (I1 & I2 & I3 & I4 & I5 & I6). pose proof (pkg_facts pkg PKG) as (P0 & P1 & P2).
    assert (B : exists r, builtin_reference e = Some r /\ (rf_import r = "" /\ rf_selector r = "" \/ rf_import r = "time" /\ rf_selector r = "time")).
    { destruct STD as (_ & _ & S3 & S4). destruct KE as [KE|[KE|[]]]; symmetry in KE.
      - destruct (S3 e te GE KE) as (s & I). unfold scalar_zeros in I. cbn [In] in I.
        repeat (destruct I as [I|I]; [injection I as <- <-; eexists; split; [vm_compute; reflexivity|]; cbn; auto|]). contradiction.
      - rewrite (S4 e te GE KE). eexists. split; [vm_compute; reflexivity|]. cbn. auto. }
    destruct B as (r & B & S). eexists. split.
    - unfold generate_attribute. change (type_at (a_type a) v) with (mget (a_type a) (v_types v)). rewrite G. cbv zeta.
      unfold object_type, builder_type, builder_reference, list_reference, zero_value, element_of, type_package. rewrite I1, I2, I3, L, E.
      change (type_at e v) with (mget e (v_types v)). rewrite GE, B. cbn [andb orb app negb option_map snd]. reflexivity.
    - cbn [ac_object_field]. rewrite rendered_eq. cbn [rf_import rf_selector rf_text]. destruct S as [(S1 & S2)|(S1 & S2)]; rewrite S1, S2.
      + assert (N : ("" =? pkg) = false) by (apply String.eqb_neq; congruence). rewrite N. intros (g & D). cbn [append] in D.
        inversion D as [s I| | |n ID|s h D'| |]; subst; [cbn in I; intuition discriminate|now pose proof (identifier_head _ _ _ ID eq_refl)|].
        inversion D' as [s I| | |n ID|s h' D''| |]; subst; [cbn in I; intuition discriminate|now pose proof (identifier_head _ _ _ ID eq_refl)].
      + assert (N : ("time" =? pkg) = false) by (apply String.eqb_neq; congruence). rewrite N. intros (g & D). cbn [append] in D.
        inversion D as [s I| | |n ID|s h D'| |]; subst; [cbn in I; intuition discriminate|now pose proof (identifier_head _ _ _ ID eq_refl)|].
        inversion D' as [s I EQ|EQ| |n ID EQ|s h' D''| |]; subst; [cbn in I; intuition discriminate| |now pose proof (identifier_head _ _ _ ID eq_refl)].
        apply (f_equal String.length) in EQ as LN. rewrite sapp_length in LN. cbn [String.length] in LN.
        destruct (object_name te) as [|c n]; [discriminate EQ|cbn [String.length] in LN; lia].
  Qed.

  Lemma nested_reported a t e te c l : mget (a_type a) (v_types v) = Some t -> In (t_kind t) [ListType; MapType] -> (t_kind t = ListType -> a_link a = false) ->
    t_element t = Some e -> mget e (v_types v) = Some te -> In (t_kind te) [ListType; MapType] -> generate_attribute pkg v a = Done (c, l) -> exists message, In (err message) l.
  Proof.
    intros G K L E GE KE GA. unfold generate_attribute in GA. change (type_at (a_type a) v) with (mget (a_type a) (v_types v)) in GA. rewrite G in GA. cbv zeta in GA.
    assert (OT : object_type pkg v (a_type a) t (a_link a) = Done (no_reference, unknown "value reference" t)).
    { assert (CR : forall p, collection_reference pkg v p t = Done (no_reference, unknown "value reference" t)).
      { intros p. unfold collection_reference. rewrite E. change (type_at e v) with (mget e (v_types v)). rewrite GE.
        unfold is_scalar, is_struct. destruct KE as [KE|[KE|[]]]; rewrite <- KE; reflexivity. }
      unfold object_type, nullable_reference. destruct K as [K|[K|[]]]; symmetry in K.
      - destruct (list_is t K) as (I1 & I2 & I3 & I4 & I5 & I6). rewrite I1, I2, I3, (L K), (list_value pkg v STD _ t G K), CR. reflexivity.
      - destruct (map_is t K) as (I1 & I2 & I3 & I4 & I5 & I6). rewrite I1, I2, I3, I4, (map_value pkg v STD _ t G K), CR. reflexivity. }
    rewrite OT in GA. destruct (builder_type pkg v (a_type a) t (a_link a)) as [(b & l2)| |]; try discriminate.
    destruct (if is_list t && negb (a_link a) then _ else _) as [(x & l3)| |]; try discriminate.
    destruct (zero_value pkg (a_type a) t) as (z & l4). assert (l = (unknown "value reference" t ++ l4 ++ l2 ++ l3)%list) as -> by congruence.
    eexists. apply in_or_app. left. unfold unknown. left. reflexivity.
  Qed.
End Parameters.
