(** Documents that conform to the published schemas can be read. *)
From Coq Require Import Ascii String Bool Arith ZArith NArith Lia Permutation List.
From Verif Require Import OpenapiSpec OpenapiProofs5.
From Verif Require Import ConformSpec ConformProofs2.
From Verif Require Import GoStrings GoMap GoMapProofs NamesModel NamesSpec NamesProofs ConceptsModel ConceptsSpec BindingModel GoNamesModel
  GoTimeModel ReporterModel ReaderModel BufferModel ObjectsModel ObjectsSpec ObjectsProofs ObjectsProofs2 ObjectsProofs3 JsonModel JsonSpec
  JsonProofs JsonProofs2 JsonProofs3 JsonProofs4 JsonProofs5 JsonProofs6 JsonProofs7 ReadingSpec ReadingProofs ReadingProofs2 ReadingProofs3 ReadingProofs4 ReadingProofs6.
Import ListNotations.
Local Open Scope string_scope.

(** * Keywords *)

Lemma described_in d l k x : k <> "description" -> (In (k, x) (described d l) <-> In (k, x) l).
Proof. unfold described. destruct (String.eqb d ""); [tauto|]. cbn. intros N. split; [intros [E|I]; [injection E as <- _; contradiction|assumption]|auto]. Qed.

Lemma described_ref d l : In "$ref" (map fst (described d l)) <-> In "$ref" (map fst l).
Proof. unfold described. destruct (String.eqb d ""); [tauto|]. cbn. split; [intros [E|I]; [discriminate E|assumption]|auto]. Qed.

Lemma conforms_undescribed doc d l j : conforms doc (JObj (described d l)) j -> conforms doc (JObj l) j.
Proof.
  unfold described. destruct (String.eqb d ""); auto. intros C. inversion C as [l' r j' I X F E1 E2|l' j' N T Fo En Pr It Ad E1 E2]; subst.
  - apply (conforms_reference doc l r); auto. destruct I as [E|E]; [discriminate E|assumption].
  - apply conforms_keywords.
    + intros I. apply N. now right.
    + intros t I. apply T. now right.
    + intros f I. apply Fo. now right.
    + intros e I. apply En. now right.
    + intros ps ms n s x I. apply (Pr ps ms n s x). now right.
    + intros s xs x I. apply (It s xs x). now right.
    + intros s ms n x I NT -> IX NP. apply (Ad s ms n x); auto; [now right|]. intros (ps & [E|IP] & K); [discriminate E|]. apply NP. eauto.
Qed.

Lemma conforms_plain doc l j : conforms doc (JObj l) j -> ~ In "$ref" (map fst l) ->
  (forall t, In ("type", JStr t) l -> ConformSpec.has_type t j) /\ (forall f, In ("format", JStr f) l -> has_format f j) /\ (forall e, In ("enum", JArr e) l -> In j e) /\
  (forall ps ms n s x, In ("properties", JObj ps) l -> j = JObj ms -> In (n, s) ps -> In (n, x) ms -> conforms doc s x) /\
  (forall s xs x, In ("items", s) l -> j = JArr xs -> In x xs -> conforms doc s x) /\
  (forall s ms n x, In ("additionalProperties", s) l -> s <> JBool true -> j = JObj ms -> In (n, x) ms ->
     ~ (exists ps, In ("properties", JObj ps) l /\ In n (map fst ps)) -> conforms doc s x).
Proof.
  intros C N. inversion C as [l' r j' I X F E1 E2|l' j' N' T Fo En Pr It Ad E1 E2]; subst; [|tauto]. exfalso. apply N. now apply (in_map fst) in I.
Qed.

Lemma date_time_read s : date_time s -> exists d, date_in s d.
Proof.
  intros (year & month & day & hour & minute & second & offset & -> & A1 & A2 & A3 & A4 & A5 & A6 & Of).
  assert (Z : exists z, (offset = "Z" /\ z = 0%Z) \/
     (exists sign h m, offset = String sign (h ++ ":" ++ m) /\ within 2 0 24 h /\ within 2 0 60 m /\
        ((sign = "+"%char /\ z = (decimal h * 3600 + decimal m * 60)%Z) \/ (sign = "-"%char /\ z = (- (decimal h * 3600 + decimal m * 60))%Z)))).
  { assert (L : forall n a b c x, within n a b x -> (b <= c)%Z -> within n a c x) by (intros n a b c x (Q1 & Q2 & Q3) Q; split; [assumption|split; [assumption|lia]]).
    destruct Of as [->|(sign & h & m & Sg & -> & Wh & Wm)]; [eauto|]. apply (L _ _ _ 24%Z) in Wh; [|lia]. apply (L _ _ _ 60%Z) in Wm; [|lia].
    destruct Sg as [-> | ->]; eexists; right; do 3 eexists; (split; [reflexivity|]); repeat (split; [assumption|]); [left|right]; split; reflexivity. }
  destruct Z as [z Z]. exists (MkDate (decimal year) (decimal month) (decimal day) (decimal hour) (decimal minute) (decimal second) 0 z).
  exists year, month, day, hour, minute, second, "", offset. cbn [d_year d_month d_day d_hour d_minute d_second d_nano d_offset].
  repeat (split; [first [reflexivity | assumption]|]). split; [now left|exact Z].
Qed.

Lemma any_total o j : reads_numbers o j -> any_of o j <> None.
Proof.
  induction j as [|b|s|s|l IH|ms IH] using json_ind2; intros H; cbn [any_of]; try discriminate.
  - cbn in H. now destruct (parse_float o s).
  - cbn in H. intros E. assert (Q : sequence (map (any_of o) l) <> None); [|destruct (sequence (map (any_of o) l)); [discriminate E|contradiction]]. clear E.
    induction l as [|j l IHl]; cbn [map sequence]; [discriminate|]. destruct H as [H1 H2]. inversion IH as [|? ? I1 I2]; subst. specialize (I1 H1). specialize (IHl I2 H2).
    destruct (any_of o j); [|contradiction]. destruct (sequence _); [discriminate|contradiction].
  - cbn in H. intros E. assert (Q : sequence (map (fun '(k, x) => option_map (pair k) (any_of o x)) ms) <> None).
    2: { destruct (sequence (map (fun '(k, x) => option_map (pair k) (any_of o x)) ms)); [discriminate E|contradiction]. }
    clear E. induction ms as [|[f j] ms IHl]; cbn [map sequence]; [discriminate|]. destruct H as [H1 H2]. inversion IH as [|? ? I1 I2]; subst. cbn [snd] in I1, H1. specialize (I1 H1). specialize (IHl I2 H2).
    destruct (any_of o j); [cbn [option_map]|contradiction]. destruct (sequence _); [discriminate|contradiction].
Qed.

Lemma sequence_total {A B} (f : A -> option B) l : (forall a, In a l -> f a <> None) -> sequence (map f l) <> None.
Proof.
  induction l as [|a l IH]; intros H; cbn [map sequence]; [discriminate|]. assert (Q : f a <> None) by (apply H; now left). destruct (f a); [|contradiction].
  assert (Q' : sequence (map f l) <> None) by (apply IH; intros y I; apply H; now right). destruct (sequence _); [discriminate|contradiction].
Qed.

Lemma Forall2_In_l {A B} (R : A -> B -> Prop) l m a : Forall2 R l m -> In a l -> exists b, In b m /\ R a b.
Proof. induction 1 as [|x y l m H F IH]; [intros []|]. intros [->|I]; [exists y; split; [now left|assumption]|]. destruct (IH I) as (z & ? & ?). exists z. split; [now right|assumption]. Qed.

Section Conforming.
  Context (o : oracle) (v : version) (doc : json) (ss : list (string * json)) (S : standard v).
  Context (HP : at_path doc ["components"; "schemas"] (JObj ss)).
  Context (H2 : forall t, In t (types v) -> t_kind t = EnumType \/ structural t -> exists x, In (camel (t_name t), x) ss /\ schema v t x).

  Lemma conforms_named k t j : mget k (v_types v) = Some t -> t_kind t = EnumType \/ structural t ->
    conforms doc (JObj [("$ref", JStr ("#/components/schemas/" ++ camel (t_name t)))]) j -> exists sc, schema v t sc /\ conforms doc sc j.
  Proof.
    intros G K H. destruct (H2 t (mget_types _ _ _ G) K) as (x & IX & SC). exists x. split; [assumption|]. inversion H as [l r j' I _ F E1|l j' N]; subst.
    - destruct I as [Q|[]]. injection Q as <-. apply F. exists (camel (t_name t)), ss. auto.
    - exfalso. apply N. now left.
  Qed.

  Lemma struct_total k t ms : mget k (v_types v) = Some t -> structural t -> conforms doc (JObj [("$ref", JStr ("#/components/schemas/" ++ camel (t_name t)))]) (JObj ms) ->
    (forall a l j, In a (t_attrs t) -> In (attribute_name a, j) ms -> type_schema v (a_type a) l -> conforms doc (JObj l) j -> decode o v (a_type a) (a_link a) j <> None) ->
    fold_left (object_step (decode o v) t) ms (Some (new_builder v t)) <> None.
  Proof.
    intros G K H HD E. destruct (conforms_named k t _ G (or_intror K) H) as (sc & SC & Cf). destruct SC as [Ke|ps _ TP]; [destruct K; congruence|].
    apply conforms_undescribed in Cf. destruct (conforms_plain _ _ _ Cf) as (_ & _ & _ & Pr & _); [cbn; intros [Q|[]]; discriminate Q|]. clear Cf H.
    assert (PR : forall n s x, In (n, s) ps -> In (n, x) ms -> conforms doc s x) by (intros n s x; exact (Pr ps ms n s x (or_introl eq_refl) eq_refl)). clear Pr.
    destruct TP as (qs & Fq & ->).
    assert (HA : forall i a j, nth_error (t_attrs t) i = Some a -> In (attribute_name a, j) ms -> decode o v (a_type a) (a_link a) j <> None).
    { intros i a j Ea I. apply nth_error_In in Ea. destruct (Forall2_In_l _ _ _ _ Fq Ea) as (p & Ip & l & TS & ->). apply (HD a l j Ea I TS). eapply conforms_undescribed.
      eapply PR; [|exact I]. apply in_app_iff. right. exact Ip. }
    assert (HS : t_kind t = ClassType -> forall f j, In f ["kind"; "id"; "href"] -> In (f, j) ms -> decode_string j <> None).
    { intros Kc f j If I. rewrite Kc in PR. assert (Q : exists d, conforms doc (snd (string_property f d)) j).
      { destruct If as [<-|[<-|[<-|[]]]]; eexists; (eapply PR; [|exact I]); [now left|right; now left|right; right; now left]. }
      destruct Q as [d Q]. destruct (conforms_plain _ _ _ Q) as (T & _); [cbn; intros [X|[X|[]]]; discriminate X|]. specialize (T "string" (or_intror (or_introl eq_refl))).
      unfold ConformSpec.has_type in T. destruct T as [(X & _)|[(X & _)|[(X & _)|[(_ & s & ->)|[(X & _)|(X & _)]]]]]; discriminate. }
    apply (fold_fails (decode o v) t ms (new_builder v t) (new_builder v t)) in E. apply Exists_exists in E as ([f j] & I & E). rewrite step_effect in E.
    destruct (effect_of (decode o v) t (f, j)) eqn:Q; try discriminate E. clear E. unfold effect_of in Q. cbn [fst snd] in Q.
    assert (HT : find_tag f 0 (t_attrs t) = None \/ exists i a x, find_tag f 0 (t_attrs t) = Some (i, a) /\ decode o v (a_type a) (a_link a) j = Some x).
    { pose proof (find_tag_spec f (t_attrs t) 0) as Ft. destruct (find_tag f 0 (t_attrs t)) as [[i a]|]; [|now left]. destruct Ft as (i' & -> & Ea & <-). right.
      specialize (HA i' a j Ea I). destruct (decode o v (a_type a) (a_link a) j) as [x|] eqn:D; [|contradiction]. do 3 eexists. split; [reflexivity|exact D]. }
    destruct (is_class t) eqn:Cl; cbn [andb] in Q.
    - assert (Kc : t_kind t = ClassType) by (now apply class_kind). specialize (HS Kc).
      destruct (String.eqb_spec f "kind") as [->|N1]; [specialize (HS "kind" j ltac:(cbn; auto) I); now destruct (decode_string j)|].
      destruct (String.eqb_spec f "id") as [->|N2]; [specialize (HS "id" j ltac:(cbn; auto) I); now destruct (decode_string j)|].
      destruct (String.eqb_spec f "href") as [->|N3]; [specialize (HS "href" j ltac:(cbn; auto) I); now destruct (decode_string j)|].
      destruct HT as [E|(i & a & x & E & D)]; rewrite E in Q; [discriminate Q|rewrite D in Q; discriminate Q].
    - destruct HT as [E|(i & a & x & E & D)]; rewrite E in Q; [discriminate Q|rewrite D in Q; discriminate Q].
  Qed.

  Definition obeys (j : json) : Prop := forall k link l, type_schema v k l -> conforms doc (JObj l) j -> shaped v k link j -> well_formed j -> reads_numbers o j -> decode o v k link j <> None.

  Lemma scalar_total k link t j s : mget k (v_types v) = Some t -> simple t -> well_formed j -> scalar_in o k t j s -> decode o v k link j <> None.
  Proof.
    intros G K W H. rewrite (decode_simple o v S k link t j G K). assert (E : decode_scalar_of o k t j = Some (VScalar s)) by (apply scalar_read; eauto). congruence.
  Qed.

  Lemma predefined_total k link t l j : mget k (v_types v) = Some t -> In (k, l) predefined -> conforms doc (JObj l) j -> well_formed j -> reads_numbers o j -> decode o v k link j <> None.
  Proof.
    intros G I Cf W R. destruct (conforms_plain _ _ _ Cf) as (T & F & _).
    { cbn in I. keys; cbn; intros Q; keys; discriminate. }
    assert (Kd : k <> "interface" -> t_kind t = ScalarType).
    { intros N. destruct (predefined_scalar v k t l S G I) as [K|K]; [assumption|]. destruct S as (_ & _ & _ & S4). now apply (S4 k t G) in K. }
    assert (Sc : forall s, k <> "interface" -> scalar_in o k t j s -> decode o v k link j <> None).
    { intros s N H. apply (scalar_total k link t j s G); auto. unfold simple. rewrite (Kd N). cbn. auto. }
    cbn in I. destruct I as [I|[I|[I|[I|[I|[I|[I|[]]]]]]]]; injection I as <- <-.
    - specialize (T "boolean" (or_introl eq_refl)). destruct T as [(_ & b & ->)|[(X & _)|[(X & _)|[(X & _)|[(X & _)|(X & _)]]]]]; try discriminate X.
      apply (Sc (SBool b)); [discriminate|]. apply in_boolean; [apply Kd; discriminate|reflexivity].
    - specialize (F "int32" (or_intror (or_introl eq_refl))). destruct F as (F & _ & _). destruct (F eq_refl) as (s & z & -> & It & B).
      apply (Sc (SInt z)); [discriminate|]. apply in_integer; [apply Kd; discriminate|auto|assumption|]. lia.
    - specialize (F "int64" (or_intror (or_introl eq_refl))). destruct F as (_ & F & _). destruct (F eq_refl) as (s & z & -> & It & B).
      apply (Sc (SInt z)); [discriminate|]. apply in_integer; [apply Kd; discriminate|auto|assumption|]. lia.
    - specialize (T "number" (or_introl eq_refl)). destruct T as [(X & _)|[(X & _)|[(_ & s & -> & J)|[(X & _)|[(X & _)|(X & _)]]]]]; try discriminate X.
      cbn in R. destruct (parse_float o s) as [z|] eqn:E; [|contradiction]. apply (Sc (SFloat z)); [discriminate|]. apply in_float; [apply Kd; discriminate|reflexivity|assumption].
    - specialize (T "string" (or_introl eq_refl)). destruct T as [(X & _)|[(X & _)|[(X & _)|[(_ & s & ->)|[(X & _)|(X & _)]]]]]; try discriminate X.
      apply (Sc (SString s)); [discriminate|]. apply in_string; [apply Kd; discriminate|reflexivity|constructor].
    - specialize (F "date-time" (or_intror (or_introl eq_refl))). destruct F as (_ & _ & F). destruct (F eq_refl) as (s & -> & Dt). destruct (date_time_read s Dt) as [d D].
      apply (Sc (SDate d)); [discriminate|]. eapply in_date; [apply Kd; discriminate|reflexivity|constructor|assumption].
    - assert (K : t_kind t = InterfaceType) by (destruct S as (_ & (ti & GI & KI) & _); congruence).
      pose proof (any_total o j R) as A. destruct (any_of o j) as [a|] eqn:E; [|contradiction]. apply (scalar_total "interface" link t j (SAny a) G); auto.
      + unfold simple. rewrite K. cbn. auto.
      + apply in_interface; [assumption|now apply any_read].
  Qed.

  Lemma value_obeys j : obeys j.
  Proof.
    assert (Main : forall j, (forall ms f x, j = JObj ms -> In (f, x) ms -> obeys x) -> (forall l x, j = JArr l -> In x l -> obeys x) -> obeys j).
    2: { induction j as [|b|s|s|l IH|ms IH] using json_ind2; apply Main; try (intros; discriminate).
         - intros l' x Q I. injection Q as <-. rewrite Forall_forall in IH. auto.
         - intros ms' f x Q I. injection Q as <-. rewrite Forall_forall in IH. exact (IH (f, x) I). }
    clear j. intros j HO HA k link l TS Cf Sh W R. destruct TS as [k t l G I|k t G N K|k t e l G N K E TS|k t e l G N K E TS].
    - now apply (predefined_total k link t l j).
    - assert (Sp : t_kind t = EnumType \/ structural t) by (unfold structural; cbn in K; intuition congruence). destruct Sp as [Ke|Ks].
      + destruct (conforms_named k t j G (or_introl Ke) Cf) as (sc & SC & Cs). destruct SC as [_|ps Kx _]; [|destruct Kx; congruence]. apply conforms_undescribed in Cs.
        destruct (conforms_plain _ _ _ Cs) as (T & _); [cbn; intros Q; keys; discriminate|]. specialize (T "string" (or_introl eq_refl)).
        destruct T as [(X & _)|[(X & _)|[(X & _)|[(_ & s & ->)|[(X & _)|(X & _)]]]]]; try discriminate X.
        apply (scalar_total k link t (JStr s) (SString s) G); auto; [unfold simple; rewrite Ke; cbn; auto|]. apply in_enum; [assumption|constructor].
      + rewrite (decode_struct o v S k link t j G Ks). destruct j as [|b|s|s|l|ms]; cbn [shaped] in Sh; rewrite G in Sh; try contradiction; [destruct Sh; contradiction|].
        intros Q. apply (struct_total k t ms G Ks Cf); [|destruct (fold_left _ _ _); [discriminate Q|reflexivity]].
        intros a l j Ia Ij TS Cj. cbn in W, R. apply (HO ms (attribute_name a) j eq_refl Ij (a_type a) (a_link a) l TS Cj).
        * destruct (all1_in _ _ _ Sh Ij) as [X _]. exact (X Ks a Ia eq_refl).
        * exact (all1_in _ _ _ W Ij).
        * exact (all1_in _ _ _ R Ij).
    - destruct (conforms_plain _ _ _ Cf) as (T & _ & _ & _ & It & _); [cbn; intros Q; keys; discriminate|]. specialize (T "array" (or_introl eq_refl)).
      destruct T as [(X & _)|[(X & _)|[(X & _)|[(X & _)|[(X & _)|(_ & m & ->)]]]]]; try discriminate X.
      cbn [shaped] in Sh. rewrite G in Sh. destruct Sh as [_ Sh]. destruct (Sh K) as [-> She]. specialize (She e E).
      rewrite (decode_list o v S k false t _ G K). cbn [decode_items]. unfold elem_key. rewrite E. intros Q.
      apply (sequence_total (decode o v e false) m); [|destruct (sequence _); [discriminate Q|reflexivity]].
      intros x Ix. apply (HA m x eq_refl Ix e false l TS).
      + exact (It _ _ _ (or_intror (or_introl eq_refl)) eq_refl Ix).
      + exact (all1_in _ _ _ She Ix).
      + exact (all1_in _ _ _ W Ix).
      + exact (all1_in _ _ _ R Ix).
    - destruct (conforms_plain _ _ _ Cf) as (T & _ & _ & _ & _ & Ad); [cbn; intros Q; keys; discriminate|]. specialize (T "object" (or_introl eq_refl)).
      destruct T as [(X & _)|[(X & _)|[(X & _)|[(X & _)|[(_ & ms & ->)|(X & _)]]]]]; try discriminate X.
      cbn [shaped] in Sh. rewrite G in Sh. rewrite (decode_map o v S k link t _ G K). unfold elem_key. rewrite E.
      destruct (put_some (decode o v e false) ms) with (m := @nil (string * value)) as [m' ->]; [|discriminate].
      intros f x Ix. apply (HO ms f x eq_refl Ix e false l TS).
      + apply (Ad _ ms f x (or_intror (or_introl eq_refl))); [discriminate|reflexivity|assumption|]. intros (ps & Ip & _). cbn in Ip. keys; discriminate.
      + destruct (all1_in _ _ _ Sh Ix) as [_ X]. exact (X K e E).
      + exact (all1_in _ _ _ W Ix).
      + exact (all1_in _ _ _ R Ix).
  Qed.
End Conforming.

Section Statements.
  Context (sys : system) (fuel : nat) (output : string) (s : service) (v : version) (reports : list report) (fs : files) (doc : json).
  Context (Pd : published sys fuel output s v reports fs doc) (S : standard v) (C : compiles v) (Sd : sound v).

  Lemma conforming_read o k link l j : type_schema v k l -> conforms doc (JObj l) j -> shaped v k link j -> well_formed j -> reads_numbers o j ->
    exists x, stands o v k link j x.
  Proof.
    intros TS Cf Sh W R. destruct (schemas_exact _ _ _ _ _ _ _ _ Pd) as (ss & HP & _ & _ & _ & H2).
    pose proof (value_obeys o v doc ss S HP H2 j k link l TS Cf Sh W R) as D. destruct (decode o v k link j) as [x|] eqn:E; [|contradiction].
    exists x. now apply (decode_meaning o v S C Sd).
  Qed.

  Lemma conforming_object o k t j : mget k (v_types v) = Some t -> structural t ->
    conforms doc (JObj [("$ref", JStr ("#/components/schemas/" ++ camel (t_name t)))]) j -> shaped v k false j -> clean j -> well_formed j -> reads_numbers o j ->
    exists b, unmarshal_object o v t (tokens j) = Ok b [].
  Proof.
    intros G K Cf Sh Cl W R. assert (TS : type_schema v k [("$ref", JStr ("#/components/schemas/" ++ camel (t_name t)))]).
    { apply ts_named; [assumption| |unfold structural in K; cbn; intuition congruence]. intros I. apply in_map_iff in I as ([k' l] & E & I). cbn in E. subst k'.
      destruct (predefined_scalar v k t l S G I) as [Q|Q]; destruct K; congruence. }
    destruct (conforming_read o k false _ j TS Cf Sh W R) as [x Hx].
    assert (E : exists b, x = VObject b).
    { destruct (stands_inv o v _ _ _ _ _ Hx G) as [(Q & _)|[(_ & b & -> & _)|[(Q & _)|[(Q & _)|[(Q & _)|[(Q & _)|(Q & _)]]]]]]; eauto; exfalso; destruct K as [K|K];
        try (unfold simple in Q; rewrite K in Q; cbn in Q; intuition discriminate); rewrite K in Q; discriminate. }
    destruct E as [b ->]. exists b. apply (document_meaning o v S C Sd k t j b [] G K Cl W). auto.
  Qed.

  Lemma conforming_list o k t e l j : mget k (v_types v) = Some t -> t_kind t = ListType -> t_element t = Some e -> type_schema v k l ->
    conforms doc (JObj l) j -> shaped v k false j -> clean j -> well_formed j -> reads_numbers o j ->
    exists m, unmarshal_list o v e (tokens j) = Ok m [].
  Proof.
    intros G K E TS Cf Sh Cl W R. destruct (conforming_read o k false _ j TS Cf Sh W R) as [x Hx].
    assert (Q : exists m, items_in (stands o v e false) j m).
    { destruct (stands_inv o v _ _ _ _ _ Hx G) as [(Q & _)|[(Q & _)|[(_ & _ & e' & m & E' & _ & Q)|[(_ & Q & _)|[(_ & Q & _)|[(Q & _)|(Q & _)]]]]]]; try discriminate Q; try congruence.
      - exfalso. unfold simple in Q. rewrite K in Q. cbn in Q. intuition discriminate.
      - exfalso. destruct Q; congruence.
      - rewrite E in E'. injection E' as <-. eauto. }
    destruct Q as [m Q]. exists m. apply (items_meaning o v S C Sd e j m [] Cl W). auto.
  Qed.

  (** Lists of links. *)
  Lemma conforming_links o k t a ta : distinct_schemas v -> mget k (v_types v) = Some t -> structural t -> In a (t_attrs t) -> a_link a = true ->
    mget (a_type a) (v_types v) = Some ta -> t_kind ta = ListType ->
    conforms doc (JObj [("$ref", JStr ("#/components/schemas/" ++ camel (t_name t)))]) (JObj [(attribute_name a, JArr [])]) /\
    unmarshal_object o v t (tokens (JObj [(attribute_name a, JArr [])])) = Failed.
  Proof.
    intros D G K Ia L Ga Ka. destruct (C _ _ G K) as [F Tg]. split.
    - destruct (schemas_exact _ _ _ _ _ _ _ _ Pd) as (ss & HP & H1 & _ & _ & H2). eapply (reference_conforms v doc ss); eauto; [eapply mget_types; eauto|].
      intros sc SC. destruct SC as [Q|ps _ TP]; [destruct K; congruence|]. apply conforms_described. apply conforms_keywords; cbn; try (intros; keys; fail); try (intuition discriminate).
      intros qs ms n sc x Iq Q Is Ix. destruct Iq as [Iq|[]]. injection Iq as ->. injection Q as <-. destruct Ix as [Ix|[]]. injection Ix as <- <-.
      destruct Tg as (ND & _ & RN). destruct (properties_member _ _ _ _ _ TP Is) as [(Kc & IN & _)|(a' & ts & Ia' & E & TS & ->)]; [exfalso; exact (RN Kc a Ia IN)|].
      assert (a' = a) as -> by (apply (nodup_attr (t_attrs t)); auto). apply conforms_described. inversion TS as [k' t' l' G' I'|k' t' G' N' K'|k' t' e l' G' N' K' E' TS'|k' t' e l' G' N' K' E' TS']; subst.
      + exfalso. destruct (predefined_scalar v _ t' ts S G' I') as [Q|Q]; congruence.
      + exfalso. rewrite Ga in G'. injection G' as <-. rewrite Ka in K'. cbn in K'. intuition discriminate.
      + apply conforms_keywords; cbn; try (intros; keys; fail); try (intuition discriminate).
        * intros t0 I. keys. do 5 right. split; [reflexivity|eauto].
        * intros sc xs x I Q Ix. injection Q as <-. destruct Ix.
      + exfalso. rewrite Ga in G'. injection G' as <-. congruence.
    - assert (Cl : clean (JObj [(attribute_name a, JArr [])])) by (cbn; destruct Tg as (_ & NE & _); repeat split; intros Q; apply NE; rewrite <- Q; now apply in_map).
      rewrite (document_read o v t _ Cl). destruct (fold_left _ _ _) as [b|] eqn:E; [|reflexivity]. exfalso.
      apply (object_read v t (decode o v) (stands o v) S F Tg K (proj1 (Sd _ _ G) K) [(attribute_name a, JArr [])]) in E; [|intros f j k' link x [Q|[]]; injection Q as <- <-; apply (decode_meaning o v S C Sd); exact I].
      destruct E as (_ & _ & A & _). apply In_nth_error in Ia as [i Ei]. destruct (A i a Ei) as [B _]. destruct (B (JArr []) (or_introl eq_refl)) as [x Hx].
      rewrite L in Hx. destruct (stands_inv o v _ _ _ _ _ Hx Ga) as [(Q & _)|[(Q & _)|[(_ & Q & _)|[(_ & _ & e & te & ms & h & b' & s' & _ & _ & Q & _)|[(_ & _ & Q & _)|[(Q & _)|(Q & _)]]]]]]; try discriminate Q; try congruence.
      + unfold simple in Q. rewrite Ka in Q. cbn in Q. intuition discriminate.
      + destruct Q; congruence.
  Qed.
End Statements.
