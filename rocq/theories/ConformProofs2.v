(** The values that are written conform to the schemas of their types. *)
From Coq Require Import Ascii String Bool Arith ZArith NArith Lia List.
From Verif Require Import OpenapiSpec OpenapiProofs5.
From Verif Require Import ConformSpec ConformProofs.
From Verif Require Import GoStrings GoMap NamesModel ConceptsModel BindingModel GoNamesModel GoTimeModel ReporterModel ObjectsModel ObjectsSpec ObjectsProofs2 JsonModel JsonSpec JsonProofs3 JsonProofs8.
Import ListNotations.
Local Open Scope string_scope.

(** * Paths *)

Lemma field_in l k x y : OpenapiSpec.field (JObj l) k x -> In (k, y) l -> y = x.
Proof.
  intros (l1 & l2 & [= ->] & N) I. rewrite map_app, in_app_iff in N. apply in_app_iff in I as [I|[I|I]].
  - exfalso. apply N. left. apply in_map_iff. now exists (k, y).
  - congruence.
  - exfalso. apply N. right. apply in_map_iff. now exists (k, y).
Qed.
Lemma field_here j k x : OpenapiSpec.field j k x -> exists l, j = JObj l /\ In (k, x) l.
Proof. intros (l1 & l2 & -> & _). eexists. split; [reflexivity|]. apply in_app_iff. right. now left. Qed.
Lemma path_same j p x : at_path j p x -> forall y, at_path j p y -> x = y.
Proof.
  induction 1 as [|j k x ks z F A IH]; intros y B; inversion B; subst; [reflexivity|]. apply IH.
  destruct (field_here _ _ _ F) as (l & -> & _). match goal with F' : OpenapiSpec.field (JObj l) k ?w |- _ => destruct (field_here _ _ _ F') as (l' & [= <-] & I') end. rewrite <- (field_in _ _ _ _ F I'). assumption.
Qed.

(** * Keywords *)

Ltac keys := repeat match goal with
  | H : In _ (_ :: _) |- _ => destruct H as [H|H]
  | H : In _ [] |- _ => destruct H
  | H : (_, _) = (_, _) |- _ => first [discriminate H | injection H; clear H; intros; subst]
  | H : _ \/ _ |- _ => destruct H as [H|H]
  | H : False |- _ => destruct H
  end.

Lemma conforms_described doc d l j : conforms doc (JObj l) j -> conforms doc (JObj (described d l)) j.
Proof.
  unfold described. destruct (String.eqb d ""); auto. intros C. inversion C; subst.
  - eapply conforms_reference; eauto. now right.
  - apply conforms_keywords.
    + cbn. intros [E|E]; [discriminate E|contradiction].
    + intros t [E|E]; [discriminate E|auto].
    + intros f [E|E]; [discriminate E|auto].
    + intros e [E|E]; [discriminate E|auto].
    + intros ps ms n s x [E|E]; [discriminate E|eauto].
    + intros s xs x [E|E]; [discriminate E|eauto].
    + intros s ms n x [E|E]; [discriminate E|]. intros. match goal with H : forall s ms n x, In ("additionalProperties", s) l -> _ |- _ => eapply H; eauto end.
      intros (ps & I & K). match goal with H : ~ _ |- _ => apply H end. exists ps. split; [now right|assumption].
Qed.

Lemma string_property_conforms doc n d s : conforms doc (snd (string_property n d)) (JStr s).
Proof.
  apply conforms_keywords; cbn.
  - intuition discriminate.
  - intros t I. keys. right. right. right. left. eauto.
  - intros t I. keys.
  - intros t I. keys.
  - intros. keys.
  - intros. keys.
  - intros. keys.
Qed.

(** * Members *)

Lemma fields_member P t b : forall fs i l m n x, shows_fields P t b i l fs m -> In (n, x) m ->
  exists j a y, nth_error l j = Some a /\ nth_error fs j = Some y /\ present t (i + j) b /\ y <> VNil /\ n = attribute_name a /\ P a y x.
Proof.
  induction fs as [|y fs IH]; intros i l m n x S I; cbn in S.
  - destruct S as [-> ->]. destruct I.
  - destruct l as [|a l]; [destruct S|]. destruct S as [(Pr & N & z & m' & -> & Pz & S)|[_ S]].
    + destruct I as [[= <- <-]|I].
      * exists 0, a, y. rewrite Nat.add_0_r. auto 10.
      * destruct (IH _ _ _ _ _ S I) as (j & a' & y' & A & B & C & D). exists (Datatypes.S j), a', y'. rewrite Nat.add_succ_r. auto.
    + destruct (IH _ _ _ _ _ S I) as (j & a' & y' & A & B & C & D). exists (Datatypes.S j), a', y'. rewrite Nat.add_succ_r. auto.
Qed.

Lemma header_member t b n x : In (n, x) (header t b) -> t_kind t = ClassType /\ In n ["kind"; "id"; "href"] /\ exists s, x = JStr s.
Proof.
  unfold header. destruct (t_kind t); try (intros []; fail). intros I. split; [reflexivity|]. destruct I as [[= <- <-]|I]; [cbn; eauto|].
  apply in_app_iff in I as [I|I].
  - destruct (N.testbit (o_bits b) 1); [|destruct I]. destruct I as [[= <- <-]|[]]. cbn; eauto 10.
  - destruct (N.testbit (o_bits b) 2); [|destruct I]. destruct I as [[= <- <-]|[]]. cbn; eauto 10.
Qed.

Lemma Forall2_In_r {A B} (R : A -> B -> Prop) l m y : Forall2 R l m -> In y m -> exists x, In x l /\ R x y.
Proof. induction 1; [intros []|]. intros [->|I]; [eexists; split; [now left|assumption]|]. destruct (IHForall2 I) as (z & ? & ?). exists z. split; [now right|assumption]. Qed.

(** The properties of the schema of a type. *)
Lemma properties_member v t l n s : type_properties v t l -> In (n, s) l ->
  (t_kind t = ClassType /\ In n ["kind"; "id"; "href"] /\ exists d, s = snd (string_property n d)) \/
  exists a ts, In a (t_attrs t) /\ n = attribute_name a /\ type_schema v (a_type a) ts /\ s = JObj (described (a_doc a) ts).
Proof.
  intros (ps & F & ->) I. apply in_app_iff in I as [I|I].
  - left. destruct (t_kind t); try (destruct I; fail). split; [reflexivity|]. destruct I as [[= <- <-]|[[= <- <-]|[[= <- <-]|[]]]]; (split; [cbn; tauto|]); eexists; reflexivity.
  - right. destruct (Forall2_In_r _ _ _ _ F I) as (a & IA & ts & TS & [= -> ->]). eauto 10.
Qed.

Lemma all2_in {A B} (P : A -> B -> Prop) l m a : all2 P l m -> In a l -> exists b, In b m /\ P a b.
Proof.
  revert l. induction m as [|b m IH]; intros l H I; cbn in H; [subst; destruct I|]. destruct l as [|a' l]; [destruct H|]. destruct H as [H1 H2].
  destruct I as [->|I]; [exists b; split; [now left|assumption]|]. destruct (IH _ H2 I) as (z & ? & ?). exists z. split; [now right|assumption].
Qed.

Lemma nodup_attr l (a b : attribute) : NoDup (map attribute_name l) -> In a l -> In b l -> attribute_name a = attribute_name b -> a = b.
Proof.
  induction l as [|c l IH]; cbn; intros N; [intros []|]. inversion N; subst. intros [->|Ia] [->|Ib] E; auto.
  - exfalso. match goal with H : ~ _ |- _ => apply H end. rewrite E. apply in_map_iff. now exists b.
  - exfalso. match goal with H : ~ _ |- _ => apply H end. rewrite <- E. apply in_map_iff. now exists a.
Qed.

(** * Types *)

Lemma predefined_scalar v k t l : standard v -> mget k (v_types v) = Some t -> In (k, l) predefined -> t_kind t = ScalarType \/ t_kind t = InterfaceType.
Proof.
  intros (S1 & (ti & GI & KI) & _) G I.
  assert (E : k = "interface" \/ exists s, In (k, s) scalar_zeros).
  { cbn in I. repeat (destruct I as [[= <- <-]|I]; [cbn; auto; right; eexists; tauto|]). destruct I. }
  destruct E as [->|(s & E)]; [right; congruence|]. destruct (S1 _ _ E) as (t' & G' & K'). left. congruence.
Qed.
Lemma not_predefined v k t : standard v -> mget k (v_types v) = Some t -> ~ In k (map fst predefined) -> t_kind t <> ScalarType /\ t_kind t <> InterfaceType.
Proof.
  intros (_ & _ & S3 & S4) G N. split; intros K.
  - destruct (S3 _ _ G K) as (s & I). apply N. cbn in *. repeat (destruct I as [[= <- <-]|I]; [tauto|]). destruct I.
  - apply N. rewrite (S4 _ _ G K). cbn. tauto.
Qed.

Lemma float_number o s n : faithful o -> format_float o n = Some s -> json_number s.
Proof. intros [F _] E. now apply F in E. Qed.

Lemma int64_bounds z : (int64_min <= z <= int64_max)%Z -> (- 2 ^ 63 <= z < 2 ^ 63)%Z.
Proof. unfold int64_min, int64_max. lia. Qed.

Section Conform.
  Context (o : oracle) (v : version) (doc : json) (ss : list (string * json)).
  Context (S : standard v) (C : compiles v) (Fa : faithful o) (D : distinct_schemas v).
  Context (HP : at_path doc ["components"; "schemas"] (JObj ss)).
  Context (H1 : forall n x, In (n, x) ss ->
      (n = "Metadata" /\ x = metadata_schema) \/ (n = "Error" /\ error_schema x) \/ exists t, In t (types v) /\ n = camel (t_name t) /\ schema v t x).
  Context (H2 : forall t, In t (types v) -> t_kind t = EnumType \/ structural t -> exists x, In (camel (t_name t), x) ss /\ schema v t x).

  Lemma sapp_head a b c : a ++ b = a ++ c -> b = c.
  Proof. induction a; cbn; [auto|]. intros [= E]. auto. Qed.

  Lemma reference_conforms t j : In t (types v) -> t_kind t = EnumType \/ structural t -> (forall s, schema v t s -> conforms doc s j) ->
    conforms doc (JObj [("$ref", JStr ("#/components/schemas/" ++ camel (t_name t)))]) j.
  Proof.
    intros I K H. eapply conforms_reference; [now left| |].
    - destruct (H2 t I K) as (x & IX & _). exists x, (camel (t_name t)), ss. auto.
    - intros s (n & ss' & E & P & IS). apply sapp_head in E. subst n. pose proof (path_same _ _ _ HP _ P) as [= <-].
      destruct (D t I K) as (N1 & N2 & U). destruct (H1 _ _ IS) as [[E _]|[[E _]|(t' & I' & E & SC)]]; try contradiction. rewrite (U t' I' (eq_sym E)) in SC. auto.
  Qed.

  (** The scalars of the predefined types. *)
  Lemma predefined_conforms k t l s j : mget k (v_types v) = Some t -> In (k, l) predefined -> scalar_typed k t s -> publishable_scalar k t s -> shows_scalar o s j ->
    conforms doc (JObj l) j.
  Proof.
    intros G I T P J. destruct (predefined_scalar v k t l S G I) as [K|K]; unfold scalar_typed in T; rewrite K in T.
    - destruct s as [b|z|z|w|d|a]; cbn in P, J; try contradiction.
      + subst. cbn in I. keys. apply conforms_keywords; cbn; try (intros; keys; fail); try (intuition discriminate). intros t0 I. keys. left. eauto.
      + subst. destruct T as [[->| ->] B]; cbn in I; keys; (apply conforms_keywords; cbn; try (intros; keys; fail); try (intuition discriminate));
          intros t0 I; keys.
        * right. left. split; [reflexivity|]. do 2 eexists. split; [reflexivity|apply itoa_text].
        * split; [|split]; intros E; try discriminate E. do 2 eexists. split; [reflexivity|]. split; [apply itoa_text|auto].
        * right. left. split; [reflexivity|]. do 2 eexists. split; [reflexivity|apply itoa_text].
        * split; [|split]; intros E; try discriminate E. do 2 eexists. split; [reflexivity|]. split; [apply itoa_text|]. now apply int64_bounds.
      + destruct J as (w & F & ->). subst. cbn in I. keys. apply conforms_keywords; cbn; try (intros; keys; fail); try (intuition discriminate); intros t0 I; keys.
        * right. right. left. split; [reflexivity|]. eexists. split; [reflexivity|]. eapply float_number; eauto.
        * split; [|split]; intros E; discriminate E.
      + subst. cbn in I. keys. apply conforms_keywords; cbn; try (intros; keys; fail); try (intuition discriminate). intros t0 I. keys. right. right. right. left. eauto.
      + subst. cbn in I. keys. apply conforms_keywords; cbn; try (intros; keys; fail); try (intuition discriminate); intros t0 I; keys.
        * right. right. right. left. eauto.
        * split; [|split]; intros E; try discriminate E. eexists. split; [reflexivity|]. now apply format_date_time.
    - destruct S as (_ & _ & _ & S4). apply (S4 k t G) in K. subst k.
      destruct s as [b|z|z|w|d|a]; try contradiction. destruct P as (m & ->). destruct J as (m' & -> & _).
      cbn in I. keys. apply conforms_keywords; cbn; try (intros; keys; fail); try (intuition discriminate). intros t0 I. keys. right. right. right. right. left. eauto.
  Qed.

  Definition good (x : value) : Prop := forall k link j l, typed v k link x -> publishable v k x -> shows o v k x j -> type_schema v k l -> conforms doc (JObj l) j.

  (** Objects. *)
  Lemma object_schema_conforms k t b m s : mget k (v_types v) = Some t -> structural t ->
    all2 (fun a y => typed v (a_type a) (a_link a) y) (t_attrs t) (o_fields b) -> object_publishable v t b ->
    shows_fields (fun a x y => shows o v (a_type a) x y) t b 0 (t_attrs t) (o_fields b) m ->
    Forall good (o_fields b) -> schema v t s -> conforms doc s (JObj (header t b ++ m)%list).
  Proof.
    intros G St T P Sh IH SC. destruct (C _ _ G St) as (_ & ND & _ & RN). apply all2_nth in T as [_ T]. apply all_fields_self in P as [_ P]. rewrite Forall_forall in IH.
    destruct SC as [K|ps _ TP]; [destruct St as [E|E]; rewrite E in K; discriminate|]. apply conforms_described. apply conforms_keywords; try (intros; keys; fail).
    - cbn. intuition discriminate.
    - intros qs ms n s x I [= <-] IS IX. destruct I as [[= ->]|[]]. destruct (properties_member _ _ _ _ _ TP IS) as [(K & IN & d & ->)|(a & ts & IA & -> & TS & ->)].
      + apply in_app_iff in IX as [IX|IX].
        * apply header_member in IX as (_ & _ & w & ->). apply string_property_conforms.
        * destruct (fields_member _ _ _ _ _ _ _ _ _ Sh IX) as (i & a & y & A & _ & _ & _ & -> & _). exfalso. apply (RN K a); [eapply nth_error_In; eauto|assumption].
      + apply conforms_described. apply in_app_iff in IX as [IX|IX].
        * apply header_member in IX as (K & IN & _). exfalso. now apply (RN K a).
        * destruct (fields_member _ _ _ _ _ _ _ _ _ Sh IX) as (i & a' & y & A & B & Pr & _ & E & SY).
          assert (a' = a) as -> by (apply (nodup_attr (t_attrs t)); auto; eapply nth_error_In; eauto).
          apply (IH y (nth_error_In _ _ B) (a_type a) (a_link a)); auto.
          -- exact (T i a y A B).
          -- exact (P i a y A B Pr).
  Qed.

  Lemma value_conforms x : good x.
  Proof.
    induction x as [s| |b IH|l IH|h b s _ _|l IH] using value_ind2; intros k link j w T P J TS.
    - cbn in T, P, J. destruct (mget k (v_types v)) as [t|] eqn:G; [|contradiction].
      assert (ST : scalar_typed k t s) by (destruct (t_kind t); try contradiction; auto; destruct (t_element t); tauto).
      inversion TS as [k' t' l' G' I'|k' t' G' N' K'|k' t' e l' G' N' K' E' TS'|k' t' e l' G' N' K' E' TS']; subst; assert (t' = t) as -> by congruence.
      + eapply predefined_conforms; eauto.
      + destruct (not_predefined v k t S G N'). assert (K : t_kind t = EnumType).
        { unfold scalar_typed in ST. destruct (t_kind t), s; try contradiction; try reflexivity; congruence. }
        apply reference_conforms; [eapply mget_types; eauto|now left|]. intros sc SC.
        unfold scalar_typed in ST. rewrite K in ST. destruct s as [| | |x| |]; try contradiction. cbn in J, P. subst j. specialize (P K).
        destruct SC as [_|ps St _]; [|destruct St as [E|E]; rewrite E in K; discriminate]. apply conforms_described. apply conforms_keywords; cbn; try (intros; keys; fail); try (intuition discriminate).
        * intros t0 I. clear K'. keys. right. right. right. left. eauto.
        * intros e I. clear K'. keys. apply in_map_iff in P as (ev & <- & IE). apply in_map_iff. now exists ev.
      + unfold scalar_typed in ST. rewrite K' in ST. destruct s; contradiction.
      + unfold scalar_typed in ST. rewrite K' in ST. destruct s; contradiction.
    - cbn in J. destruct (mget k (v_types v)); contradiction.
    - cbn in T, P, J. destruct (mget k (v_types v)) as [t|] eqn:G; [|contradiction]. destruct J as (m & -> & Sh).
      assert (St : structural t) by (destruct (t_kind t) eqn:K; try contradiction; try (now left); try (now right); destruct (t_element t); tauto).
      assert (T' : object_typed v t b) by (destruct St as [St|St]; rewrite St in T; unfold object_typed; rewrite St; exact T). destruct T' as (_ & _ & _ & T').
      inversion TS as [k' t' l' G' I'|k' t' G' N' K'|k' t' e l' G' N' K' E' TS'|k' t' e l' G' N' K' E' TS']; subst; assert (t' = t) as -> by congruence.
      + destruct (predefined_scalar v k t w S G I') as [K|K], St as [K2|K2]; congruence.
      + apply reference_conforms; [eapply mget_types; eauto|now right|]. intros sc SC. eapply object_schema_conforms; eauto.
      + destruct St; congruence.
      + destruct St; congruence.
    - cbn in T, P, J. destruct (mget k (v_types v)) as [t|] eqn:G; [|contradiction]. destruct P as (e & E & P), J as (e' & m & E2 & -> & J). assert (e' = e) as -> by congruence. clear E2.
      assert (K : t_kind t = ListType) by (destruct (t_kind t) eqn:K; try contradiction; try reflexivity; rewrite E in T; tauto). rewrite K, E in T. destruct T as (_ & -> & T).
      inversion TS as [k' t' l' G' I'|k' t' G' N' K'|k' t' e' l' G' N' K' E' TS'|k' t' e' l' G' N' K' E' TS']; subst; assert (t' = t) as -> by congruence.
      + destruct (predefined_scalar v k t w S G I'); congruence.
      + rewrite K in K'. cbn in K'. intuition discriminate.
      + assert (e' = e) as -> by congruence. apply conforms_keywords; cbn; try (intros; keys; fail); try (intuition discriminate).
        * intros t0 I. keys. do 5 right. split; [reflexivity|eauto].
        * intros s xs x I [= <-] IX. keys. destruct (all2_in _ _ _ _ J IX) as (y & IY & SY). rewrite Forall_forall in IH. apply all1_forall in P, T. rewrite Forall_forall in P, T.
          apply (IH y IY e false x); auto.
      + congruence.
    - cbn in P. destruct (mget k (v_types v)); contradiction.
    - cbn in T, P, J. destruct (mget k (v_types v)) as [t|] eqn:G; [|contradiction]. destruct P as (e & E & P), J as (e' & m & E2 & -> & EM & J). assert (e' = e) as -> by congruence. clear E2.
      assert (K : t_kind t = MapType) by (destruct (t_kind t) eqn:K; try contradiction; try reflexivity; rewrite E in T; tauto). rewrite K, E in T. destruct T as (_ & _ & T).
      inversion TS as [k' t' l' G' I'|k' t' G' N' K'|k' t' e' l' G' N' K' E' TS'|k' t' e' l' G' N' K' E' TS']; subst; assert (t' = t) as -> by congruence.
      + destruct (predefined_scalar v k t w S G I'); congruence.
      + rewrite K in K'. cbn in K'. intuition discriminate.
      + congruence.
      + assert (e' = e) as -> by congruence. apply conforms_keywords; cbn; try (intros; keys; fail); try (intuition discriminate).
        * intros t0 I. keys. do 4 right. left. eauto.
        * intros s ms n x I NB [= <-] IX _. keys. assert (IX' : In x (map snd m)) by (apply in_map_iff; now exists (n, x)).
          destruct (all2_in _ _ _ _ J IX') as (y & IY & SY). rewrite Forall_forall in IH. apply all1_forall in P, T. rewrite Forall_forall in P, T.
          apply (IH y IY e false x); auto.
  Qed.
End Conform.
