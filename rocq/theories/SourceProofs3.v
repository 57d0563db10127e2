(** Proofs about the documents of the types of the source. *)
From Coq Require Import Ascii String Bool Arith ZArith NArith Lia Permutation List.
From Verif Require Import GoStrings GoMap NamesModel NamesSpec ConceptsModel ConceptsSpec BindingModel GoNamesModel GoTimeModel ReporterModel
  ReaderModel ChecksModel ReaderSpec ReaderProofs8 SourceSpec SourceProofs SourceProofs2.
From Verif Require Import VersionsSpec VersionsProofs.
From Verif Require Import TextModel ObjectsModel ObjectsSpec ObjectsProofs JsonModel JsonSpec JsonProofs4 JsonProofs6 JsonProofs7 JsonTextModel JsonTextSpec JsonTextProofs3
  JsonLexModel JsonLexProofs ReadingSpec ReadingProofs2 ReadingProofs4.
Import ListNotations.
Local Open Scope string_scope.

Lemma object_accepted o v t ms : standard v -> compiles v -> sound v -> structural t -> fits t -> tagged t -> known v t -> clean (JObj ms) -> well_formed (JObj ms) ->
  ((exists b, unmarshal_object o v t (tokens (JObj ms)) = Ok b []) <->
   (forall a j, In a (t_attrs t) -> In (attribute_name a, j) ms -> exists x, stands o v (a_type a) (a_link a) j x) /\
   (t_kind t = ClassType -> forall f j, In f ["kind"; "id"; "href"] -> In (f, j) ms -> exists s, text_in j s)).
Proof.
  intros S C Sd K F Tg Kn Cl W. split.
  - intros [b E]. apply (object_meaning o v S C Sd t ms b [] K F Tg Kn Cl W) in E as (_ & _ & _ & A & B & _). split.
    + intros a j Ha. apply In_nth_error in Ha as [i Hi]. now apply (A i a Hi).
    + intros Kc. now apply (B Kc).
  - intros [A B]. rewrite (document_read o v t ms Cl). destruct (fold_left _ _ _) as [b|] eqn:E; [now exists b|exfalso].
    apply (fold_fails (decode o v) t ms _ (new_builder v t)) in E. apply Exists_exists in E as ([f j] & I & E). rewrite step_effect in E.
    assert (Wj : well_formed j) by (cbn in W; exact (all1_in _ _ _ W I)).
    destruct (effect_of (decode o v) t (f, j)) eqn:Q; try discriminate. clear E. unfold effect_of in Q. cbn [fst snd] in Q.
    assert (T : forall g, is_class t && String.eqb f g = true -> In g ["kind"; "id"; "href"] -> decode_string j <> None).
    { intros g H Hg D. apply andb_true_iff in H as [H1 H2]. apply class_kind in H1. apply String.eqb_eq in H2. subst g.
      destruct (B H1 f j Hg I) as [s Hs]. apply text_read in Hs. congruence. }
    destruct (is_class t && String.eqb f "kind") eqn:E1. { destruct (decode_string j) eqn:D; [discriminate|]. apply (T "kind"); simpl; auto. }
    destruct (is_class t && String.eqb f "id") eqn:E2. { destruct (decode_string j) eqn:D; [discriminate|]. apply (T "id"); simpl; auto. }
    destruct (is_class t && String.eqb f "href") eqn:E3. { destruct (decode_string j) eqn:D; [discriminate|]. apply (T "href"); simpl; auto. }
    pose proof (find_tag_spec f (t_attrs t) 0) as X. destruct (find_tag f 0 (t_attrs t)) as [[i a]|] eqn:G; [|discriminate].
    destruct (decode o v (a_type a) (a_link a) j) eqn:D; [discriminate|].
    assert (Ha : In a (t_attrs t) /\ f = attribute_name a). { destruct X as (i' & _ & X1 & X2). split; [now apply nth_error_In in X1|now symmetry]. }
    destruct Ha as [Ha ->]. destruct (A a j Ha I) as [x Hx]. apply (decode_meaning o v S C Sd j _ _ x Wj) in Hx. congruence.
Qed.

(** * What is written *)

Lemma fields_members P t b fs : forall i l m, shows_fields P t b i l fs m ->
  (forall f j, In (f, j) m -> exists n a x, nth_error l n = Some a /\ nth_error fs n = Some x /\ f = attribute_name a /\ present t (i + n) b /\ x <> VNil /\ P a x j) /\
  (forall n a x, nth_error l n = Some a -> nth_error fs n = Some x -> present t (i + n) b -> x <> VNil -> exists j, In (attribute_name a, j) m /\ P a x j).
Proof.
  induction fs as [|x fs IH]; intros i l m H; cbn in H.
  - destruct H as [-> ->]. split; [intros f j []|]. intros [|n]; discriminate.
  - destruct l as [|a l]; [contradiction|]. destruct H as [(H1 & H2 & y & m' & -> & H3 & H4)|(H1 & H2)].
    + destruct (IH _ _ _ H4) as [A B]. split.
      * intros f j [Q|Q].
        -- injection Q as <- <-. exists 0, a, x. rewrite Nat.add_0_r. auto 9.
        -- destruct (A f j Q) as (n & a' & x' & X). exists (S n), a', x'. rewrite Nat.add_succ_comm in X || rewrite <- Nat.add_succ_comm. exact X.
      * intros [|n] a' x' E1 E2 Pr Nn.
        -- injection E1 as <-. injection E2 as <-. exists y. split; [now left|exact H3].
        -- rewrite <- Nat.add_succ_comm in Pr. destruct (B n a' x' E1 E2 Pr Nn) as (j & J1 & J2). exists j. split; [now right|exact J2].
    + destruct (IH _ _ _ H2) as [A B]. split.
      * intros f j Q. destruct (A f j Q) as (n & a' & x' & X). exists (S n), a', x'. rewrite <- Nat.add_succ_comm. exact X.
      * intros [|n] a' x' E1 E2 Pr Nn.
        -- injection E1 as <-. injection E2 as <-. rewrite Nat.add_0_r in Pr. tauto.
        -- rewrite <- Nat.add_succ_comm in Pr. exact (B n a' x' E1 E2 Pr Nn).
Qed.

Lemma getter_cases v t i a (b : object) : fits t -> nth_error (t_attrs t) i = Some a -> complete t b ->
  (exists x, nth_error (o_fields b) i = Some x /\ present t i b /\ get_attr v t i a (Some b) = (x, true)) \/
  (~ present t i b /\ exists z, get_attr v t i a (Some b) = (z, false)).
Proof.
  intros F A C. assert (L : nth_error (o_fields b) i <> None). { apply nth_error_Some. rewrite C. apply nth_error_Some. congruence. }
  destruct (nth_error (o_fields b) i) as [x|] eqn:X; [|congruence].
  destruct (N.testbit (o_bits b) (N.of_nat (reserved t + i))) eqn:P.
  - left. exists x. split; [reflexivity|]. split; [exact P|]. now apply getter_present.
  - right. split; [unfold present, marked; congruence|]. unfold get_attr. rewrite fits_mask by (auto; apply nth_error_Some; congruence).
    rewrite has_bit_pow, P. eauto.
Qed.

Section Returned.
  Context (sd vd : string) (fs : list file) (rs0 : list report) (m : model) (rs : list report) (s : service) (v : version).
  Hypothesis E : read [[(sd, [(vd, fs)])]] rs0 = Done (ROk m, rs).
  Hypothesis Hs : in_model m s.
  Hypothesis Hv : in_service s v.
  Let ds := all_decls fs.
  Hypothesis Cs : camel_source ds.
  Hypothesis Fl : flat_source ds.
  Hypothesis Gd : good_source ds.
  Context (d : decl) (id : string) (fixed : list string) (ms : list member_decl).
  Hypothesis Hd : In d ds.
  Hypothesis Hm : has_members d id fixed ms.
  Hypothesis Nd : ~ In (key_of id) (derived_types ds).

  Let St : standard v := returned_standard _ _ _ _ _ _ _ _ E Hs Hv.
  Let Co : compiles v := returned_compiles _ _ _ _ _ _ _ _ E Hs Hv Gd.
  Let So : sound v := returned_sound _ _ _ _ _ _ _ _ E Hs Hv Fl.

  Lemma declared_type : exists t, find_type (parse_using_case id) v = Some t /\ type_of_decl d t.
  Proof. apply (returned_types sd vd fs rs0 m rs s v d id E Hs Hv Cs Hd); [destruct Hm; reflexivity|exact Nd]. Qed.

  Lemma declared_attrs t : type_of_decl d t -> structural t /\ Permutation (map attribute_of ms) (t_attrs t) /\
    fixed = match t_kind t with ClassType => ["kind"; "id"; "href"] | _ => [] end.
  Proof. destruct Hm; cbn [type_of_decl]; intros (_ & K & _ & _ & _ & P); rewrite K; split; auto; [now left|now right]. Qed.

  Lemma declared_attr t md : type_of_decl d t -> In md ms -> In (attribute_of md) (t_attrs t).
  Proof. intros T I. apply declared_attrs in T as (_ & P & _). apply (Permutation_in _ P). now apply in_map. Qed.

  Lemma declared_position t md : type_of_decl d t -> In md ms -> exists i, nth_error (t_attrs t) i = Some (attribute_of md).
  Proof. intros T I. now apply In_nth_error, declared_attr. Qed.

  Lemma declared_structural t : type_of_decl d t -> structural t.
  Proof. intros T. exact (proj1 (declared_attrs t T)). Qed.

  Section Type_.
    Context (t : typ).
    Hypothesis Ft : find_type (parse_using_case id) v = Some t.
    Hypothesis T : type_of_decl d t.

    Let K : structural t := declared_structural t T.
    Let F : fits t := proj1 (Co _ _ Ft K).
    Let Tg : tagged t := proj2 (Co _ _ Ft K).
    Let Kn : known v t := proj1 (So _ _ Ft) K.

    Lemma declared_accepted o text members : json_document text (JObj members) -> clean (JObj members) ->
      ((exists b, unmarshal_object o v t (lex_text text) = Ok b []) <->
       (forall md j, In md ms -> In (json_name md, j) members -> exists x, stands o v (ref_key (md_ref md)) (md_link md) j x) /\
       (forall f j, In f fixed -> In (f, j) members -> exists s, text_in j s)).
    Proof.
      clearbody F Tg Kn. intros D Cl. rewrite (lex_document _ _ D). rewrite (object_accepted o v t members St Co So K F Tg Kn Cl (proj1 D)).
      pose proof (proj2 (declared_attrs t T)) as (P & Fx). split; intros [A B]; split.
      - intros md j I. apply (A (attribute_of md) j). now apply declared_attr.
      - intros f j I. rewrite Fx in I. destruct (t_kind t) eqn:Kt; try contradiction. now apply B.
      - intros a j I. apply (Permutation_in _ (Permutation_sym P)) in I. apply in_map_iff in I as (md & <- & I). now apply A.
      - intros Kt. rewrite Fx, Kt in B. exact B.
    Qed.

    Lemma declared_read o text members b rest : json_document text (JObj members) -> clean (JObj members) ->
      unmarshal_object o v t (lex_text text) = Ok b rest -> rest = [] /\
      forall md, In md ms -> exists i, nth_error (t_attrs t) i = Some (attribute_of md) /\
        ((exists j x, last_member (json_name md) members j /\ stands o v (ref_key (md_ref md)) (md_link md) j x /\
            get_attr v t i (attribute_of md) (Some b) = (x, true)) \/
         (absent (json_name md) members /\ exists z, zero_of v (ref_key (md_ref md)) z /\ get_attr v t i (attribute_of md) (Some b) = (z, false))).
    Proof.
      clearbody F Tg Kn. intros D Cl H. rewrite (lex_document _ _ D) in H. apply (object_meaning o v St Co So t members b rest K F Tg Kn Cl (proj1 D)) in H as (-> & _ & _ & A & _).
      split; [reflexivity|]. intros md I. destruct (declared_position t md T I) as [i Hi]. exists i. split; [exact Hi|].
      destruct (A i _ Hi) as (_ & x & X & [(P & j & L & M)|(P & L & Z)]).
      - left. exists j, x. split; [exact L|]. split; [exact M|]. now apply getter_present.
      - right. split; [exact L|]. exists x. split; [exact Z|]. now apply getter_absent.
    Qed.

    Lemma declared_written o b l : faithful o -> object_typed v t b -> marshal_object o v t (Some b) = WOk l ->
      exists members, json_document (write_tokens 0 l) (JObj members) /\
        (forall f, In f (map fst members) -> In f fixed \/ In f (json_names ms)) /\
        forall md, In md ms -> exists i, nth_error (t_attrs t) i = Some (attribute_of md) /\
          ((exists j x, get_attr v t i (attribute_of md) (Some b) = (x, true) /\ x <> VNil /\ In (json_name md, j) members /\ shows o v (ref_key (md_ref md)) x j) \/
           (exists x p, get_attr v t i (attribute_of md) (Some b) = (x, p) /\ (p = false \/ x = VNil) /\ absent (json_name md) members)).
    Proof.
      clearbody F Tg Kn. intros Fa Ty W. destruct (object_text o v t b l St Co Fa K F Ty W) as (j & D & (ml & -> & Sh) & _).
      exists (header t b ++ ml)%list. split; [exact D|]. destruct (fields_members _ _ _ _ _ _ _ Sh) as [A B].
      pose proof (proj2 (declared_attrs t T)) as (P & Fx).
      assert (Hh : forall f, In f (map fst (header t b)) -> In f fixed).
      { intros f. rewrite Fx. unfold header. destruct (t_kind t); try contradiction. cbn [map fst app].
        destruct (N.testbit (o_bits b) 1), (N.testbit (o_bits b) 2); simpl; intuition. }
      assert (Nm : forall f, In f (map fst ml) -> exists md, In md ms /\ f = json_name md).
      { intros f I. apply in_map_iff in I as ([f' j] & <- & I). destruct (A f' j I) as (n & a & x & N & _ & -> & _).
        apply nth_error_In in N. apply (Permutation_in _ (Permutation_sym P)) in N. apply in_map_iff in N as (md & <- & N). now exists md. }
      split.
      - intros f I. rewrite map_app, in_app_iff in I. destruct I as [I|I]; [left; now apply Hh|right].
        destruct (Nm f I) as (md & H1 & ->). apply in_map_iff. now exists md.
      - intros md I. destruct (declared_position t md T I) as [i Hi]. exists i. split; [exact Hi|].
        assert (Cm : complete t b) by apply Ty.
        assert (Nh : ~ In (json_name md) (map fst (header t b))).
        { intros H. apply Hh in H. rewrite Fx in H. destruct (t_kind t) eqn:Kt; try contradiction.
          destruct Tg as (_ & _ & X). apply (X Kt (attribute_of md)); [now apply nth_error_In in Hi|exact H]. }
        assert (Ab : (forall x, nth_error (o_fields b) i = Some x -> ~ present t i b \/ x = VNil) -> absent (json_name md) (header t b ++ ml)%list).
        { intros Q. unfold absent. rewrite map_app, in_app_iff. intros [H|H]; [now apply Nh|]. apply in_map_iff in H as ([f j] & Ef & H). cbn in Ef. subst f.
          destruct (A _ j H) as (n & a & x & N1 & N2 & N3 & N4 & N5 & _). assert (n = i).
          { destruct Tg as (Nn & _). apply (proj1 (NoDup_nth_error _) Nn).
            - rewrite map_length. apply nth_error_Some. congruence.
            - rewrite !nth_error_map, N1, Hi. cbn. f_equal. symmetry. exact N3. }
          subst n. destruct (Q x N2) as [X|X]; [exact (X N4)|exact (N5 X)]. }
        destruct (getter_cases v t i _ b F Hi Cm) as [(x & X & Pr & G)|(Pr & z & G)].
        + assert (Dc : x = VNil \/ x <> VNil) by (destruct x; auto; right; discriminate). destruct Dc as [Q|Q].
          * right. exists x, true. split; [exact G|]. split; [now right|]. apply Ab. intros y Y. right. congruence.
          * left. destruct (B i _ x Hi X Pr Q) as (j & J1 & J2). exists j, x. split; [exact G|]. split; [exact Q|]. split; [apply in_app_iff; now right|exact J2].
        + right. exists z, false. split; [exact G|]. split; [now left|]. apply Ab. auto.
    Qed.
  End Type_.
End Returned.

(** * Versions that are read together *)

Lemma version_of_in m s v w : version_of m s v = Some w -> exists sv, in_model m sv /\ in_service sv w.
Proof.
  unfold version_of, find_service, find_version. destruct (mget _ m) as [sv|] eqn:G; [|discriminate]. intros H. exists sv. split; eexists; eassumption.
Qed.

Lemma together_source inputs m rs sv w : independent inputs -> read inputs [] = Done (ROk m, rs) -> in_model m sv -> in_service sv w ->
  exists e, In e (entries inputs) /\ standard w /\ (flat_source (source e) -> sound w) /\ (good_source (source e) -> compiles w) /\
    (forall k t, type_at k w = Some t -> origin (source e) w k t) /\
    exists m' rs' sv', read (alone e) [] = Done (ROk m', rs') /\ in_model m' sv' /\ in_service sv' w.
Proof.
  intros I R Hs Hv. destruct (together_same inputs m rs I R) as [A B]. destruct (B sv w Hs Hv) as (s & v & fs & He & _ & Hw).
  destruct (A s v fs He) as (m' & rs' & w' & R' & Hw' & Hm'). assert (w' = w) by congruence. subst w'.
  destruct (version_of_in _ _ _ _ Hm') as (sv' & H1 & H2). exists (s, v, fs). unfold alone, source in *. cbn [fst snd] in *. split; [exact He|].
  split; [exact (returned_standard _ _ _ _ _ _ _ _ R' H1 H2)|]. split; [exact (returned_sound _ _ _ _ _ _ _ _ R' H1 H2)|].
  split; [exact (returned_compiles _ _ _ _ _ _ _ _ R' H1 H2)|]. split; [exact (returned_origin _ _ _ _ _ _ _ _ R' H1 H2)|].
  exists m', rs', sv'. auto.
Qed.

Lemma returned_source sd vd fs rs0 m rs s v : read [[(sd, [(vd, fs)])]] rs0 = Done (ROk m, rs) -> in_model m s -> in_service s v ->
  standard v /\ (flat_source (all_decls fs) -> sound v) /\ (good_source (all_decls fs) -> compiles v) /\
  (flat_source (all_decls fs) -> forall r, In r (references (all_decls fs)) ->
     exists t, mget (ref_key r) (v_types v) = Some t /\ t_kind t <> UndefinedType /\ (In (t_kind t) [ListType; MapType] -> plain v t)).
Proof.
  intros R Hs Hv. split; [exact (returned_standard _ _ _ _ _ _ _ _ R Hs Hv)|]. split; [exact (returned_sound _ _ _ _ _ _ _ _ R Hs Hv)|].
  split; [exact (returned_compiles _ _ _ _ _ _ _ _ R Hs Hv)|]. intros F r. exact (reference_type _ _ _ _ _ _ _ _ R Hs Hv r F).
Qed.
