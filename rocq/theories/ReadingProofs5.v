(** Proofs about reading documents: what has been read has the right types, and it can be written. *)
From Coq Require Import Ascii String Bool Arith ZArith NArith Lia Permutation List.
From Verif Require Import ConformSpec.
From Verif Require Import GoStrings GoMap GoMapProofs NamesModel NamesSpec NamesProofs ConceptsModel ConceptsSpec BindingModel GoNamesModel
  GoTimeModel ReporterModel ObjectsModel ObjectsSpec ObjectsProofs ObjectsProofs2 ObjectsProofs3 JsonModel JsonSpec
  JsonProofs JsonProofs2 JsonProofs3 JsonProofs4 JsonProofs5 JsonProofs6 JsonProofs7 ReadingSpec ReadingProofs ReadingProofs2 ReadingProofs3 ReadingProofs4.
Import ListNotations.
Local Open Scope string_scope.

Lemma any_sorted o : forall j a, any_in o j a -> sorted_any a.
Proof.
  induction j as [|b|s|s|l IH|ms IH] using json_ind2; intros a H; inversion H; subst; try exact I; cbn.
  - rewrite Forall_forall in IH. match goal with F : Forall2 _ _ _ |- _ => revert IH; induction F as [|j' a' l m P F Q]; intros IH; cbn; auto end.
    split; [apply (IH j'); auto; now left|]. apply Q; [now constructor|]. intros j'' I. apply IH. now right.
  - split; [assumption|]. apply all1_forall, Forall_forall. intros [f a] I. cbn. match goal with Q : forall f a, In (f, a) m -> _ |- _ => destruct (Q f a I) as (j & L & Aj) end.
    rewrite Forall_forall in IH. apply (IH (f, j) (last_in _ _ _ L)). exact Aj.
Qed.

Lemma any_finite o : writes_numbers o -> forall j a, any_in o j a -> finite_any o a.
Proof.
  intros W. induction j as [|b|s|s|l IH|ms IH] using json_ind2; intros a H; inversion H; subst; try exact I; cbn.
  - eapply W. eassumption.
  - rewrite Forall_forall in IH. match goal with F : Forall2 _ _ _ |- _ => revert IH; induction F as [|j' a' l m P F Q]; intros IH; cbn; auto end.
    split; [apply (IH j'); auto; now left|]. apply Q; [now constructor|]. intros j'' I. apply IH. now right.
  - apply all1_forall, Forall_forall. intros [f a] I. cbn. match goal with Q : forall f a, In (f, a) m -> _ |- _ => destruct (Q f a I) as (j & L & Aj) end.
    rewrite Forall_forall in IH. apply (IH (f, j) (last_in _ _ _ L)). exact Aj.
Qed.

Lemma parsed_range s z : parse_int s = Some z -> (int64_min <= z <= int64_max)%Z.
Proof.
  unfold parse_int. intros E.
  assert (G : forall sign r, (match r with "" => None | _ => match digits_value r with
      | Some n => let z := (sign * n)%Z in if Z.leb int64_min z && Z.leb z int64_max then Some z else None | None => None end end) = Some z -> (int64_min <= z <= int64_max)%Z).
  { clear E. intros sign r. destruct r; [discriminate|]. destruct (digits_value _) as [n|]; [|discriminate]. cbv zeta.
    destruct (Z.leb_spec int64_min (sign * n)), (Z.leb_spec (sign * n) int64_max); try discriminate. intros Q. injection Q as <-. auto. }
  destruct s as [|c r]; [discriminate E|].
  destruct c as [[] [] [] [] [] [] [] []]; first [exact (G 1%Z (String _ r) E)|exact (G 1%Z r E)|exact (G (-1)%Z r E)].
Qed.

Section Typed.
  Context (o : oracle) (v : version) (S : standard v) (C : compiles v) (Sd : sound v).

  Definition good (k : key) (link : bool) (x : value) : Prop := typed v k link x /\ no_nil x /\ x <> VNil /\ (writes_numbers o -> printable o v k x).

  Definition good_object (t : typ) (b : object) : Prop :=
    object_typed v t b /\ all1 no_nil (o_fields b) /\
    (writes_numbers o -> forall i a x, nth_error (t_attrs t) i = Some a -> nth_error (o_fields b) i = Some x -> present t i b -> printable o v (a_type a) x).

  Lemma good_scalar k link t s : mget k (v_types v) = Some t -> scalar_typed k t s -> (writes_numbers o -> finite o s) -> good k link (VScalar s).
  Proof.
    intros G T F. split; [|split; [exact I|split; [discriminate|intros W; cbn; rewrite G; auto]]]. cbn. rewrite G. unfold scalar_typed in *. destruct (t_kind t); try exact T; destruct s; contradiction.
  Qed.

  Lemma good_new t : known v t -> good_object t (new_builder v t).
  Proof.
    intros K. split; [now apply new_typed|]. split; [apply new_no_nil|]. intros _ i a x _ _ P. unfold present, marked in P. cbn [new_builder o_bits] in P. rewrite N.bits_0 in P. discriminate.
  Qed.

  Lemma set_nth_no_nil i x l : all1 no_nil l -> no_nil x -> all1 no_nil (set_nth i x l).
  Proof. revert i. induction l as [|y l IH]; intros [|i]; cbn; auto; intros [H1 H2] H; auto. Qed.

  Lemma good_attr t b i a x : fits t -> good_object t b -> nth_error (t_attrs t) i = Some a -> good (a_type a) (a_link a) x ->
    good_object t (MkObject (set_bit (o_bits b) (bit_mask t i)) (o_id b) (o_href b) (set_nth i x (o_fields b))).
  Proof.
    intros F ((T1 & T2 & T3 & T4) & N & P) A (Tx & Nx & _ & Px). assert (L : i < length (t_attrs t)) by (apply nth_error_Some; congruence).
    assert (Mk : forall n, marked n (MkObject (set_bit (o_bits b) (bit_mask t i)) (o_id b) (o_href b) (set_nth i x (o_fields b))) <-> n = reserved t + i \/ marked n b).
    { intros n. unfold marked. cbn [o_bits]. rewrite fits_mask by auto. rewrite set_bit_pow, orb_true_iff, Nat.eqb_eq. intuition congruence. }
    split; [split; [|split; [|split]]|split].
    - unfold complete in *. cbn. now rewrite set_nth_length.
    - intros n Ln Q. apply Mk in Q as [-> |Q]; [unfold slots in Ln; lia|now apply (T2 n)].
    - exact T3.
    - cbn [o_fields]. eapply all2_set_nth; eauto.
    - cbn [o_fields]. now apply set_nth_no_nil.
    - intros W j a' y A' Y Pj. unfold present in Pj. apply Mk in Pj. cbn [o_fields] in Y. destruct (Nat.eq_dec j i) as [->|Nj].
      + rewrite set_nth_same in Y by (unfold complete in T1; lia). injection Y as <-. rewrite A in A'. injection A' as <-. auto.
      + rewrite set_nth_other in Y by auto. destruct Pj as [Q|Q]; [lia|]. now apply (P W j a' y).
  Qed.

  Lemma good_header t b bits i h : t_kind t = ClassType -> good_object t b -> (forall n, N.testbit bits (N.of_nat n) = true -> n < 3 \/ marked n b) ->
    good_object t (MkObject bits i h (o_fields b)).
  Proof.
    intros K ((T1 & T2 & T3 & T4) & N & P) B. split; [split; [exact T1|split; [|split; [congruence|exact T4]]]|split; [exact N|]].
    - intros n L Q. apply B in Q as [Q|Q]; [|now apply (T2 n)]. unfold slots, reserved in L. rewrite K in L. lia.
    - intros W j a x A X Q. apply (P W j a x A X). unfold present in *. apply B in Q as [Q|Q]; [|assumption]. unfold reserved in Q. rewrite K in Q. lia.
  Qed.

  Lemma good_value_object k link t b : mget k (v_types v) = Some t -> structural t -> good_object t b -> good k link (VObject b).
  Proof.
    intros G K (T & N & P). split; [|split; [exact N|split; [discriminate|]]].
    - destruct T as (T1 & T2 & T3 & T4). cbn. rewrite G. destruct K as [Kt|Kt]; rewrite Kt in *; auto.
    - intros W. cbn. rewrite G. specialize (P W). destruct T as (T1 & _). apply all_fields_self. split; [symmetry; exact T1|]. intros j a x A X Q. apply (P j a x A X Q).
  Qed.

  Definition good_items (e : key) (l : list value) : Prop := Forall (good e false) l.

  Definition good_entries (e : key) (m : list (string * value)) : Prop := NoDup (mkeys m) /\ Forall (fun p => good e false (snd p)) m.

  Lemma items_parts e l : good_items e l -> all1 (typed v e false) l /\ all1 (fun y => y <> VNil /\ no_nil y) l /\ (writes_numbers o -> all1 (fun y => y <> VNil /\ printable o v e y) l).
  Proof.
    induction 1 as [|x l (T & N & Z & P) F (I1 & I2 & I3)]; cbn; auto. repeat split; auto.
  Qed.

  Lemma good_slice k t e l : mget k (v_types v) = Some t -> t_kind t = ListType -> plain v t -> t_element t = Some e -> good_items e l -> good k false (VSlice l).
  Proof.
    intros G K Pl Ee H. destruct (items_parts _ _ H) as (T & N & P). split; [|split; [exact N|split; [discriminate|]]].
    - cbn. rewrite G, K, Ee. auto.
    - intros W. cbn. rewrite G. exists e. auto.
  Qed.

  Lemma good_list k t e h b s : mget k (v_types v) = Some t -> t_kind t = ListType -> plain v t -> t_element t = Some e ->
    (s = VNil \/ exists l, s = VSlice l /\ good_items e l) -> good k true (VList h b s).
  Proof.
    intros G K Pl Ee [->|(l & -> & H)].
    - split; [cbn; rewrite G, K, Ee; auto|]. split; [exact I|]. split; [discriminate|]. intros W. cbn. rewrite G. eauto.
    - destruct (items_parts _ _ H) as (T & N & P). split; [|split; [exact N|split; [discriminate|]]].
      + cbn. rewrite G, K, Ee. auto.
      + intros W. cbn. rewrite G. exists e. auto.
  Qed.

  Lemma good_map k link t e m : mget k (v_types v) = Some t -> t_kind t = MapType -> plain v t -> t_element t = Some e -> good_entries e m -> good k link (VMap (canonical m)).
  Proof.
    intros G K Pl Ee [N H]. pose proof (sorted_keys_increasing m N) as In'. assert (H' : Forall (fun p => good e false (snd p)) (canonical m)).
    { apply Forall_forall. intros p I. apply sort_in in I. rewrite Forall_forall in H. auto. }
    revert In' H'. generalize (canonical m). clear - G K Pl Ee. intros l In' H. split; [|split; [|split; [discriminate|]]].
    - cbn. rewrite G, K, Ee. split; [assumption|]. split; [assumption|]. apply all1_forall. eapply Forall_impl; [|exact H]. intros p (T & _). exact T.
    - cbn. apply all1_forall. eapply Forall_impl; [|exact H]. intros p (_ & Nn & Z & _). auto.
    - intros W. cbn. rewrite G. exists e. split; [assumption|]. apply all1_forall. eapply Forall_impl; [|exact H]. intros p (_ & _ & Z & P). auto.
  Qed.

  Lemma good_put e m f x : good_entries e m -> good e false x -> good_entries e (mset f x m).
  Proof.
    intros [N H] X. split; [now apply nodup_mset|]. apply Forall_forall. intros [g y] I. apply mset_in in I; [|assumption]. rewrite Forall_forall in H. cbn.
    destruct I as [[-> ->]|[_ I]]; [assumption|]. exact (H (g, y) I).
  Qed.

  Lemma bind_ok {A B} (r : result A) (f : A -> list token -> result B) y rest : rbind r f = Ok y rest -> exists x l, r = Ok x l /\ f x l = Ok y rest.
  Proof. destruct r; cbn; try discriminate. eauto. Qed.

  Lemma element_usable t e : plain v t -> t_element t = Some e -> usable v e.
  Proof. intros (e' & te & Ee & Ge & Ke) E t' G' K'. exfalso. rewrite E in Ee. injection Ee as <-. rewrite Ge in G'. injection G' as <-. cbn in Ke, K'. intuition congruence. Qed.

  Lemma attribute_usable t a : known v t -> In a (t_attrs t) -> usable v (a_type a).
  Proof. intros Kn I t' G' K'. destruct (Kn a I) as (ta & Ga & _ & P). rewrite Ga in G'. injection G' as <-. auto. Qed.

  Lemma read_good n :
    (forall k link l x r, usable v k -> read_value o v n k link l = Ok x r -> good k link x) /\
    (forall t b l b' r, structural t -> fits t -> known v t -> good_object t b -> read_object o v n t b l = Ok b' r -> good_object t b') /\
    (forall k t e h b s l x r, mget k (v_types v) = Some t -> t_kind t = ListType -> plain v t -> t_element t = Some e -> (s = VNil \/ exists l, s = VSlice l /\ good_items e l) ->
       read_list o v n t h b s l = Ok x r -> good k true x) /\
    (forall e acc l m r, usable v e -> good_items e acc -> read_items o v n e acc l = Ok m r -> good_items e m) /\
    (forall e acc l m r, usable v e -> good_entries e acc -> read_entries o v n e acc l = Ok m r -> good_entries e m).
  Proof.
    induction n as [|n (I1 & I2 & I3 & I4 & I5)]; [repeat split; intros; discriminate|]. split; [|split; [|split; [|split]]].
    - intros k link l x r Us E. destruct (mget k (v_types v)) as [t|] eqn:G.
      + destruct (Sd _ _ G) as [Kn _]. pose proof (Us t G) as Pl. assert (U : type_at k v = Some t) by exact G.
        assert (KO : structural t -> good k link x).
        { intros K. destruct (C _ _ G K) as [F _]. destruct (not_builtin _ _ _ S G) as (E1 & E2 & E3 & E4 & E5 & E6); [destruct K; congruence|].
          rewrite read_value_eq, E1, E2, E3, E4, E5, U, E6 in E. unfold is_interface, is_enum, is_struct in E.
          assert (E' : rbind (read_object o v n t (new_builder v t) l) (fun b r => Ok (VObject b) r) = Ok x r) by (destruct K as [K|K]; rewrite K in E; exact E).
          apply bind_ok in E' as (b & l1 & Eb & Q). injection Q as <- <-. apply I2 in Eb; auto; [|now apply good_new, Kn]. now apply (good_value_object k link t). }
        destruct (t_kind t) eqn:K; try (apply KO; unfold structural; tauto).
        * destruct (not_builtin _ _ _ S G ltac:(congruence)) as (E1 & E2 & E3 & E4 & E5 & E6).
          rewrite read_value_eq, E1, E2, E3, E4, E5, U, E6 in E. unfold is_interface, is_enum, is_struct, is_list, is_map in E. rewrite K in E. discriminate E.
        * destruct (not_builtin _ _ _ S G ltac:(congruence)) as (E1 & E2 & E3 & E4 & E5 & E6).
          rewrite read_value_eq, E1, E2, E3, E4, E5, U, E6 in E. unfold is_interface, is_enum in E. rewrite K in E. apply bind_ok in E as (s & l1 & _ & Q). injection Q as <- <-.
          apply (good_scalar k link t); [assumption|unfold scalar_typed; now rewrite K|intros _; exact I].
        * destruct (not_builtin _ _ _ S G ltac:(congruence)) as (E1 & E2 & E3 & E4 & E5 & E6).
          rewrite read_value_eq, E1, E2, E3, E4, E5, U in E. unfold is_interface in E. rewrite K in E. apply bind_ok in E as (j & l1 & _ & Q).
          destruct (any_of o j) as [a|] eqn:Ea; [|discriminate Q]. injection Q as <- <-. apply any_read in Ea. apply (good_scalar k link t); auto.
          -- unfold scalar_typed. rewrite K. now apply any_sorted in Ea.
          -- intros W. now apply (any_finite o W) in Ea.
        * destruct (not_builtin _ _ _ S G ltac:(congruence)) as (E1 & E2 & E3 & E4 & E5 & E6). specialize (Pl ltac:(cbn; tauto)). destruct Pl as (e & te & Ee & Ge & Ke).
          assert (Pl : plain v t) by (exists e, te; auto). assert (Ek : elem_key t = e) by (unfold elem_key; now rewrite Ee).
          rewrite read_value_eq, E1, E2, E3, E4, E5, U, E6 in E. unfold is_interface, is_enum, is_struct, is_list in E. rewrite K in E. cbn [kind_eqb orb] in E. destruct link.
          -- apply bind_ok in E as (y & l1 & Ey & Q). injection Q as <- <-. apply (I3 k t e) in Ey; auto.
          -- apply bind_ok in E as (m & l1 & Em & Q). injection Q as <- <-. rewrite Ek in Em. apply I4 in Em; [|now apply (element_usable t)|constructor]. now apply (good_slice k t e).
        * destruct (not_builtin _ _ _ S G ltac:(congruence)) as (E1 & E2 & E3 & E4 & E5 & E6). specialize (Pl ltac:(cbn; tauto)). destruct Pl as (e & te & Ee & Ge & Ke).
          assert (Pl : plain v t) by (exists e, te; auto). assert (Ek : elem_key t = e) by (unfold elem_key; now rewrite Ee).
          rewrite read_value_eq, E1, E2, E3, E4, E5, U, E6 in E. unfold is_interface, is_enum, is_struct, is_list, is_map in E. rewrite K in E. cbn [kind_eqb orb] in E.
          apply bind_ok in E as (m & l1 & Em & Q). injection Q as <- <-. rewrite Ek in Em. apply I5 in Em; [|now apply (element_usable t)|split; constructor]. now apply (good_map k link t e).
        * destruct S as (_ & _ & S3 & _). destruct (S3 _ _ G K) as [z Hz]. destruct builtin_keys as (B1 & B2 & B3 & B4 & B5 & B6 & _).
          rewrite read_value_eq in E. unfold is_builtin in E. rewrite B1, B2, B3, B4, B5, B6 in E. cbn in Hz.
          assert (Sc : forall s, scalar_typed k t s -> (writes_numbers o -> finite o s) -> good k link (VScalar s)) by (intros s; now apply good_scalar).
          unfold scalar_typed in Sc. rewrite K in Sc.
          destruct Hz as [Hz|[Hz|[Hz|[Hz|[Hz|[Hz|[]]]]]]]; injection Hz as <- _; cbn [String.eqb Ascii.eqb Bool.eqb] in E.
          -- apply bind_ok in E as (s & l1 & _ & Q). injection Q as <- <-. apply Sc; [reflexivity|cbn; auto].
          -- apply bind_ok in E as (z' & l1 & Ez & Q). injection Q as <- <-. apply Sc; [split; [auto|]|cbn; auto]. destruct l as [|[] l]; try discriminate Ez. cbn in Ez.
             destruct (parse_int s) eqn:Ep; [|discriminate Ez]. injection Ez as <- <-. now apply parsed_range in Ep.
          -- apply bind_ok in E as (z' & l1 & Ez & Q). injection Q as <- <-. apply Sc; [split; [auto|]|cbn; auto]. destruct l as [|[] l]; try discriminate Ez. cbn in Ez.
             destruct (parse_int s) eqn:Ep; [|discriminate Ez]. injection Ez as <- <-. now apply parsed_range in Ep.
          -- apply bind_ok in E as (z' & l1 & Ez & Q). injection Q as <- <-. apply Sc; [reflexivity|]. intros W. destruct l as [|[] l]; try discriminate Ez. cbn in Ez.
             destruct (parse_float o s) eqn:Ep; [|discriminate Ez]. injection Ez as <- <-. cbn. now apply (W s).
          -- apply bind_ok in E as (s & l1 & _ & Q). injection Q as <- <-. apply Sc; [reflexivity|cbn; auto].
          -- rewrite U in E. unfold is_interface in E. rewrite K in E. cbn [kind_eqb] in E. apply bind_ok in E as (s & l1 & _ & Q). destruct (parse_rfc3339 s) as [d|]; [|discriminate Q].
             injection Q as <- <-. apply Sc; [reflexivity|cbn; auto].
      + exfalso. destruct S as (S1 & _). destruct builtin_keys as (B1 & B2 & B3 & B4 & B5 & B6 & _).
        assert (N : forall s, In s (map fst scalar_zeros) -> String.eqb k s = false).
        { intros s H. apply String.eqb_neq. intros ->. apply in_map_iff in H as ([k' z] & Q & H). cbn in Q. subst k'. destruct (S1 _ _ H) as (t & Q & _). congruence. }
        rewrite read_value_eq in E. unfold is_builtin in E. rewrite B1, B2, B3, B4, B5, !N in E by (cbn; tauto). unfold type_at in E. rewrite G in E. discriminate E.
    - intros t b l b' r K F Kn Gb E. rewrite read_object_eq in E. apply bind_ok in E as (f & l1 & _ & E). destruct (String.eqb f ""); [now injection E as <- <-|].
      destruct (is_class t && String.eqb f "kind") eqn:E1; [|destruct (is_class t && String.eqb f "id") eqn:E2; [|destruct (is_class t && String.eqb f "href") eqn:E3]].
      + apply andb_true_iff in E1 as [E1 _]. apply class_kind in E1. apply bind_ok in E as (s & l2 & _ & E). cbv zeta in E. apply I2 in E; auto. apply good_header; auto.
        intros m. destruct (String.eqb s _); [rewrite set_bit_0, orb_true_iff, Nat.eqb_eq; intros [<-|Q]; [left; lia|right; exact Q]|intros Q; right; exact Q].
      + apply andb_true_iff in E2 as [E2 _]. apply class_kind in E2. apply bind_ok in E as (s & l2 & _ & E). apply I2 in E; auto. apply good_header; auto.
        intros m. rewrite set_bit_1, orb_true_iff, Nat.eqb_eq; intros [<-|Q]; [left; lia|right; exact Q].
      + apply andb_true_iff in E3 as [E3 _]. apply class_kind in E3. apply bind_ok in E as (s & l2 & _ & E). apply I2 in E; auto. apply good_header; auto.
        intros m. rewrite set_bit_2, orb_true_iff, Nat.eqb_eq; intros [<-|Q]; [left; lia|right; exact Q].
      + pose proof (find_tag_spec f (t_attrs t) 0) as Ft. destruct (find_tag f 0 (t_attrs t)) as [[i a]|].
        * destruct Ft as (i' & -> & A & _). apply bind_ok in E as (x & l2 & Ex & E). apply I1 in Ex; [|apply nth_error_In in A; now apply (attribute_usable t)]. apply I2 in E; auto. now apply (good_attr t b i' a x).
        * apply bind_ok in E as (x & l2 & _ & E). now apply I2 in E.
    - intros k t e h b s l x r G K Pl Ee Hs E. rewrite read_list_eq in E. apply bind_ok in E as (f & l1 & _ & E). destruct (String.eqb f ""); [injection E as <- <-; now apply (good_list k t e)|].
      destruct (String.eqb f "kind"); [apply bind_ok in E as (s' & l2 & _ & E); cbv zeta in E; now apply (I3 k t e) in E|].
      destruct (String.eqb f "href"); [apply bind_ok in E as (s' & l2 & _ & E); now apply (I3 k t e) in E|].
      destruct (String.eqb f "items"); [|apply bind_ok in E as (s' & l2 & _ & E); now apply (I3 k t e) in E].
      apply bind_ok in E as (m & l2 & Em & E). assert (Ek : elem_key t = e) by (unfold elem_key; now rewrite Ee). rewrite Ek in Em. apply I4 in Em; [|now apply (element_usable t)|constructor].
      apply (I3 k t e) in E; auto. right. eauto.
    - intros e acc l m r Us Ha E. rewrite read_items_eq in E. apply bind_ok in E as (more & l1 & _ & E). destruct more; [|now injection E as <- <-].
      apply bind_ok in E as (x & l2 & Ex & E). apply I1 in Ex; [|assumption]. apply I4 in E; auto. apply Forall_app. split; [assumption|]. now constructor.
    - intros e acc l m r Us Ha E. rewrite read_entries_eq in E. apply bind_ok in E as (f & l1 & _ & E). destruct (String.eqb f ""); [now injection E as <- <-|].
      apply bind_ok in E as (x & l2 & Ex & E). apply I1 in Ex; [|assumption]. apply I5 in E; auto. now apply good_put.
  Qed.

  Lemma object_good t l b r : structural t -> fits t -> known v t -> unmarshal_object o v t l = Ok b r -> good_object t b.
  Proof. intros K F Kn. unfold unmarshal_object. apply (proj1 (proj2 (read_good _))); auto. now apply good_new. Qed.

  Lemma list_good e l m r : usable v e -> unmarshal_list o v e l = Ok m r -> good_items e m.
  Proof. intros U. unfold unmarshal_list. apply (proj1 (proj2 (proj2 (proj2 (read_good _))))); [assumption|constructor]. Qed.
End Typed.
