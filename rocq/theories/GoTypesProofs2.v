(** Proofs about the references to types in the generated Go code. *)
From Coq Require Import Ascii String Bool Arith Lia List.
From Verif Require Import GoStrings GoStringsProofs GoMap GoMapProofs NamesModel NamesSpec ConceptsModel ReporterModel ChecksModel GoNamesModel GoNamesSpec GoNamesProofs
  BufferModel BufferProofs2 DeclsModel OpenapiProofs5 GoTypesModel ObjectsSpec GoTypesSpec GoTypesProofs.
Import ListNotations.
Local Open Scope string_scope.

Lemma path_selector pkg : package_path pkg -> dotless (path_base pkg) /\ pkg <> "" /\ pkg <> "time".
Proof.
  intros (dir & base & -> & N & C). split.
  - rewrite base_of_last.
    + intros c I. now apply C in I.
    + split; [exact N|]. split; [|split].
      * intros ->. destruct (C "."%char); [now left|congruence].
      * intros ->. destruct (C "."%char); [now left|congruence].
      * intros H. now destruct (C "/"%char H).
  - split.
    + intros E. apply sapp_eq_nil in E as (_ & E). discriminate.
    + intros E. assert (I : In "/"%char (list_ascii_of_string "time")) by (rewrite <- E, !chars_app; apply in_or_app; right; now left).
      repeat (destruct I as [I|I]; [discriminate I|]). exact I.
Qed.

(** * Kinds *)

Lemma flat_kind v t : plain v t -> exists e te, t_element t = Some e /\ mget e (v_types v) = Some te /\
  (In (t_kind te) [ScalarType; EnumType; InterfaceType] \/ structural te).
Proof.
  intros (e & te & E & T & K). exists e, te. repeat split; auto. unfold structural. cbn in K |- *.
  repeat match goal with H : _ \/ _ |- _ => destruct H as [H|H] end; auto 10.
Qed.

Lemma scalar_is t : In (t_kind t) [ScalarType; EnumType; InterfaceType] -> is_scalar t = true /\ is_struct t = false /\ is_list t = false /\ is_map t = false.
Proof. unfold is_scalar, is_struct, is_list, is_map. intros [H|[H|[H|[]]]]; rewrite <- H; auto. Qed.
Lemma struct_is t : structural t -> is_scalar t = false /\ is_struct t = true /\ is_list t = false /\ is_map t = false /\ is_enum t = false /\ is_interface t = false.
Proof. unfold is_scalar, is_struct, is_list, is_map, is_enum, is_interface. intros [H|H]; rewrite H; repeat split. Qed.
Lemma list_is t : t_kind t = ListType -> is_scalar t = false /\ is_struct t = false /\ is_list t = true /\ is_map t = false /\ is_enum t = false /\ is_interface t = false.
Proof. unfold is_scalar, is_struct, is_list, is_map, is_enum, is_interface. intros H; rewrite H; repeat split. Qed.
Lemma map_is t : t_kind t = MapType -> is_scalar t = false /\ is_struct t = false /\ is_list t = false /\ is_map t = true /\ is_enum t = false /\ is_interface t = false.
Proof. unfold is_scalar, is_struct, is_list, is_map, is_enum, is_interface. intros H; rewrite H; repeat split. Qed.

(** * References *)

Definition flat (g : gotype) : Prop := match g with GPtr _ | GSlice _ | GMap _ => False | _ => True end.

(** What is known about the import of a type. *)
Definition right_import (pkg : string) (r : reference) (g : gotype) : Prop :=
  (mentions_time g -> rf_import r = "time" /\ rf_selector r = "time") /\ (~ mentions_time g -> rf_import r = "" \/ rf_import r = pkg).

Section References.
  Context (pkg : string) (v : version) (PKG : package_path pkg) (STD : standard v) (NAMED : named_well v).

  Lemma pkg_facts : dotless (path_base pkg) /\ pkg <> "" /\ pkg <> "time".
  Proof. now apply path_selector. Qed.

  Lemma not_builtin k t : mget k (v_types v) = Some t -> ~ In (t_kind t) [ScalarType; InterfaceType] -> builtin_reference k = None /\ (forall g, ~ In (k, g) basic_types).
  Proof.
    intros G N. destruct STD as (S1 & (ti & S2 & S2') & _ & _).
    assert (Z : forall k' s, In (k', s) scalar_zeros -> k <> k').
    { intros k' s I ->. destruct (S1 k' s I) as (t' & G' & K). apply N. replace t with t' by congruence. rewrite K. now left. }
    assert (ZI : k <> "interface"). { intros ->. apply N. replace t with ti by congruence. rewrite S2'. right. now left. }
    assert (D : forall n, In (name_key n) ["boolean"; "integer"; "long"; "float"; "string"; "interface"; "date"] -> is_builtin n k = false).
    { intros n I. unfold is_builtin. apply String.eqb_neq. intros E. rewrite <- E in I. cbn [In] in I.
      repeat (destruct I as [I|I]; [symmetry in I; first [exact (ZI I)|eapply Z; [|exact I]; cbn; eauto 20]|]). exact I. }
    split.
    - unfold builtin_reference. rewrite !D; [reflexivity|..]; vm_compute; auto 10.
    - intros g I. unfold basic_types in I. cbn [In] in I.
      repeat (destruct I as [I|I]; [injection I as E _; symmetry in E; eapply Z; [|exact E]; cbn; eauto 20|]). exact I.
  Qed.

  Lemma basic_builtin k g : In (k, g) basic_types -> exists r, builtin_reference k = Some r /\ denotes (rf_text r) g /\ rf_import r <> pkg /\ right_import pkg r g /\ flat g.
  Proof.
    intros I. unfold basic_types in I. cbn [In] in I.
    pose proof pkg_facts as (_ & P1 & P2).
    repeat (destruct I as [I|I]; [injection I as <- <-; eexists; split; [vm_compute; reflexivity|]; split; [|split; [cbn; congruence|split; [split; cbn; tauto|exact Logic.I]]]; cbn; try (constructor; cbn; tauto)|]).
    contradiction.
  Qed.

  Lemma scalar_basic k s : In (k, s) scalar_zeros -> exists g, In (k, g) basic_types.
  Proof. intros I. unfold scalar_zeros in I. cbn [In] in I. repeat (destruct I as [I|I]; [injection I as <- <-; eexists; cbn; eauto 10|]). contradiction. Qed.

  Lemma render_foreign r : rf_import r <> pkg -> rendered pkg r = rf_text r.
  Proof. intros N. rewrite rendered_eq. apply String.eqb_neq in N. now rewrite N. Qed.
  Lemma render_dotless r : dotless (rf_text r) -> rendered pkg r = rf_text r.
  Proof. intros N. rewrite rendered_eq. destruct (String.eqb (rf_import r) pkg); [now apply remove_none|reflexivity]. Qed.
  Lemma render_own p n s : dotless p -> dotless n -> rendered pkg (MkReference pkg (path_base pkg) s (p ++ path_base pkg ++ "." ++ n)) = p ++ n.
  Proof. intros P N. rewrite rendered_eq. cbn [rf_import rf_selector rf_text]. rewrite String.eqb_refl. apply remove_selector; auto. apply pkg_facts. Qed.

  Lemma own_package k t : mget k (v_types v) = Some t -> In (t_kind t) [EnumType; ClassType; StructType; ListType] -> type_package pkg k t = (pkg, path_base pkg, []).
  Proof.
    intros G K. destruct (not_builtin k t G) as (B & _); [intros [H|[H|[]]]; rewrite <- H in K; cbn in K; intuition discriminate|].
    unfold type_package. rewrite B. unfold is_enum, is_struct, is_list. cbn in K. destruct K as [K|[K|[K|[K|[]]]]]; now rewrite <- K.
  Qed.

  (** Scalars, enumerated types and interfaces. *)
  Lemma scalar_reference k t : mget k (v_types v) = Some t -> In (t_kind t) [ScalarType; EnumType; InterfaceType] ->
    exists r g, (forall link, represents v k link g) /\ flat g /\ all_declared v g /\ value_reference pkg v k t = Done (r, []) /\ flat_reference pkg k t = (r, []) /\
      denotes (rf_text r) g /\ right_import pkg r g /\ (rf_import r <> pkg \/ dotless (rf_text r)) /\ (t_kind t = InterfaceType -> g = GAny) /\ (t_kind t <> InterfaceType -> g <> GAny) /\
      exists z, zero_value pkg k t = (z, []) /\ constant v z g.
  Proof.
    intros G K. pose proof pkg_facts as (P0 & P1 & P2). pose proof STD as (_ & _ & S3 & S4). destruct K as [K|[K|[K|[]]]]; symmetry in K.
    - destruct (S3 k t G K) as (s & I). apply scalar_basic in I as (g & I). destruct (basic_builtin k g I) as (r & B & D & N & R & F).
      exists r, g. split; [intros link; now constructor|]. split; [exact F|]. split; [|split; [unfold value_reference; now rewrite B|]].
      { clear - I. unfold basic_types in I. cbn [In] in I. repeat (destruct I as [I|I]; [injection I as <- <-; exact Logic.I|]). contradiction. }
      split; [unfold flat_reference; now rewrite B|]. split; [exact D|]. split; [exact R|]. split; [now left|]. split; [congruence|]. split.
      { intros _. clear - I. intros ->. unfold basic_types in I. cbn [In] in I. repeat (destruct I as [I|I]; [discriminate I|]). contradiction. }
      unfold zero_value, is_struct, is_list, is_map, is_interface, is_enum. rewrite K. cbn [kind_eqb orb].
      clear - I. unfold basic_types in I. cbn [In] in I.
      repeat (destruct I as [I|I]; [injection I as <- <-; eexists; split; [vm_compute; reflexivity|constructor; cbn; tauto]|]). contradiction.
    - destruct (not_builtin k t G) as (B & _); [rewrite K; cbn; intuition discriminate|].
      assert (T : In t (types v)) by now apply mget_types in G. pose proof (NAMED t T (or_introl K)) as ID.
      assert (IE : is_enum t = true) by (unfold is_enum; now rewrite K).
      assert (FR : flat_reference pkg k t = (MkReference pkg (path_base pkg) (object_name t) (object_name t), [])).
      { unfold flat_reference. rewrite B, IE. cbn [orb]. unfold named_reference. rewrite (own_package k t G); [reflexivity|]. rewrite K. now left. }
      exists (MkReference pkg (path_base pkg) (object_name t) (object_name t)), (GNamed (object_name t)).
      split; [intros link; now apply r_enum|]. split; [exact Logic.I|]. split; [exists t; auto|]. split; [unfold value_reference; now rewrite B, IE, FR|]. split; [exact FR|].
      split; [now constructor|]. split; [split; cbn; tauto|]. split; [right; now apply identifier_dotless|]. split; [congruence|]. split; [discriminate|].
      exists (object_name t ++ "("""")"). split; [|now apply c_converted].
      unfold zero_value. replace (is_struct t || is_list t || is_map t || is_interface t) with false by (unfold is_struct, is_list, is_map, is_interface; now rewrite K).
      rewrite IE, FR. reflexivity.
    - pose proof (S4 k t G K) as ->. exists (MkReference "" "" "interface{}" "interface{}"), GAny.
      split; [intros link; apply r_any|]. split; [exact Logic.I|]. split; [exact Logic.I|]. split; [reflexivity|]. split; [reflexivity|]. split; [constructor|].
      split; [split; cbn; tauto|]. split; [left; cbn; congruence|]. split; [reflexivity|]. split; [congruence|]. exists "nil". split; [|constructor].
      unfold zero_value, is_struct, is_list, is_map, is_interface. now rewrite K.
  Qed.

  Lemma struct_reference k t : mget k (v_types v) = Some t -> structural t ->
    flat_reference pkg k t = (MkReference pkg (path_base pkg) (object_name t) (object_name t), []) /\ value_reference pkg v k t = Done (flat_reference pkg k t) /\
    identifier (object_name t) /\ In t (types v) /\ declared v (object_name t) /\ declared v (object_name t ++ "List") /\ has_builder v (object_name t) /\ declared v (object_name t ++ "Builder").
  Proof.
    intros G K. destruct (struct_is t K) as (I1 & I2 & I3 & I4 & I5 & I6).
    destruct (not_builtin k t G) as (B & _); [destruct K as [K|K]; rewrite K; cbn; intuition discriminate|].
    assert (T : In t (types v)) by now apply mget_types in G. pose proof (NAMED t T (or_intror K)) as ID.
    assert (BN : built_name v t = Some (object_name t)) by (unfold built_name; now rewrite I2).
    split; [|split; [|split; [exact ID|split; [exact T|split; [|split; [|split]]]]]].
    - unfold flat_reference. rewrite B, I2, orb_true_r. unfold named_reference. rewrite (own_package k t G); [reflexivity|]. destruct K as [K|K]; rewrite K; cbn; auto.
    - unfold value_reference. now rewrite B, I5, I3, I4.
    - exists t. split; [exact T|]. left. auto.
    - exists t. split; [exact T|]. right. left. auto.
    - split; apply in_flat_map; exists t; (split; [exact T|]); rewrite BN; cbn; auto.
    - exists t. split; [exact T|]. right. right. eauto.
  Qed.

  (** Lists and maps. *)
  Lemma collection_scalar prefix t e te : t_element t = Some e -> mget e (v_types v) = Some te -> In (t_kind te) [ScalarType; EnumType; InterfaceType] -> dotless prefix ->
    exists r g, represents v e false g /\ flat g /\ all_declared v g /\ collection_reference pkg v prefix t = Done (with_text (prefix ++ rf_text r) r, []) /\ value_reference pkg v e te = Done (r, []) /\
      denotes (rf_text r) g /\ right_import pkg r g /\ rendered pkg r = rf_text r /\ rendered pkg (with_text (prefix ++ rf_text r) r) = prefix ++ rf_text r.
  Proof.
    intros E G K P. destruct (scalar_reference e te G K) as (r & g & R & F & D & V & FR & DN & RI & RF & _). destruct (scalar_is te K) as (I1 & _).
    exists r, g. repeat (split; [auto; fail|]). split.
    - unfold collection_reference. now rewrite E; change (type_at e v) with (mget e (v_types v)); rewrite G, I1, FR.
    - split; [exact V|]. split; [exact DN|]. split; [exact RI|]. destruct RF as [N|N].
      + split; now rewrite render_foreign.
      + split; rewrite render_dotless; auto. cbn. now apply dotless_app.
  Qed.

  Lemma collection_struct prefix t e te : t_element t = Some e -> mget e (v_types v) = Some te -> structural te -> dotless prefix ->
    exists r, collection_reference pkg v prefix t = Done (r, []) /\ rendered pkg r = prefix ++ "*" ++ object_name te /\ rf_import r = pkg.
  Proof.
    intros E G K P. destruct (struct_reference e te G K) as (FR & _ & ID & _). destruct (struct_is te K) as (I1 & I2 & _).
    eexists. split; [|split].
    - unfold collection_reference. rewrite E; change (type_at e v) with (mget e (v_types v)); rewrite G, I1, I2, FR. cbn [rf_selector rf_text]. reflexivity.
    - unfold with_text. cbn [rf_import rf_selector rf_name rf_text].
      rewrite <- (sapp_assoc prefix "*" (path_base pkg ++ "." ++ object_name te)). rewrite render_own.
      + now rewrite sapp_assoc.
      + apply dotless_app; [exact P|now apply dotlessb_sound].
      + now apply identifier_dotless.
    - reflexivity.
  Qed.
End References.
