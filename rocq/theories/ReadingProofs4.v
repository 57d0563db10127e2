(** Proofs about reading documents: lists, and values of any type. *)
From Coq Require Import Ascii String Bool Arith ZArith NArith Lia Permutation List.
From Verif Require Import ConformSpec.
From Verif Require Import GoStrings GoMap GoMapProofs NamesModel NamesSpec NamesProofs ConceptsModel ConceptsSpec BindingModel GoNamesModel
  GoTimeModel ReporterModel ObjectsModel ObjectsSpec ObjectsProofs ObjectsProofs2 ObjectsProofs3 JsonModel JsonSpec
  JsonProofs JsonProofs2 JsonProofs3 JsonProofs4 JsonProofs5 JsonProofs6 JsonProofs7 ReadingSpec ReadingProofs ReadingProofs2 ReadingProofs3.
Import ListNotations.
Local Open Scope string_scope.

Lemma not_empty_name t : "" <> object_name t ++ "ListLink".
Proof. intros E. destruct (object_name t); discriminate E. Qed.

Section Lists.
  Context (items : json -> option (list value)) (te : typ).

  Notation step := (list_step items te).

  Lemma list_none ms : fold_left step ms None = None.
  Proof. induction ms; auto. Qed.

  (** What is known about the members. *)
  Definition correct (p : string * json) : Prop :=
    (In (fst p) ["kind"; "href"] -> decode_string (snd p) <> None) /\ (fst p = "items" -> items (snd p) <> None).

  Lemma step_some h b s p : (exists r, step (Some (h, b, s)) p = Some r) <-> correct p.
  Proof.
    destruct p as [f j]. unfold correct. cbn [list_step fst snd]. destruct (String.eqb_spec f "kind") as [->|N1]; [|destruct (String.eqb_spec f "href") as [->|N2]; [|destruct (String.eqb_spec f "items") as [->|N3]]].
    - destruct (decode_string j); split; [|eauto| |]; [intros _; split; [|discriminate]; congruence|intros [r E]; discriminate|]. intros [H _]. exfalso. apply H; cbn; auto.
    - destruct (decode_string j); split; [|eauto| |]; [intros _; split; [|discriminate]; congruence|intros [r E]; discriminate|]. intros [H _]. exfalso. apply H; cbn; auto.
    - destruct (items j); split; [|eauto| |]; [intros _; split; [|congruence]; intros [Q|[Q|[]]]; discriminate|intros [r E]; discriminate|]. intros [_ H]. now contradiction H.
    - split; [|eauto]. intros _. split; [|congruence]. intros [Q|[Q|[]]]; congruence.
  Qed.

  Lemma list_total ms : (forall p, In p ms -> correct p) -> forall r, exists r', fold_left step ms (Some r) = Some r'.
  Proof.
    induction ms as [|p ms IH]; intros H r; cbn [fold_left]; [eauto|]. destruct r as [[h b] s]. destruct (proj2 (step_some h b s p)) as [r E]; [apply H; now left|].
    rewrite E. apply IH. intros q Q. apply H. now right.
  Qed.

  Lemma list_fold ms : forall h b s h' b' s', fold_left step ms (Some (h, b, s)) = Some (h', b', s') ->
    (forall p, In p ms -> correct p) /\
    (absent "href" ms -> h' = h) /\ (forall j, last_member "href" ms j -> decode_string j = Some h') /\
    (absent "kind" ms -> b' = b) /\ (forall j, last_member "kind" ms j -> b' = match decode_string j with Some x => String.eqb x (object_name te ++ "ListLink") | None => false end) /\
    (absent "items" ms -> s' = s) /\ (forall j, last_member "items" ms j -> exists m, items j = Some m /\ s' = VSlice m).
  Proof.
    induction ms as [|[f j] ms IH]; intros h b s h' b' s' E; cbn [fold_left] in E.
    - injection E as <- <- <-. split; [intros p []|]. repeat (split; [first [reflexivity|intros j H; apply last_in in H; destruct H]|]). intros j H. apply last_in in H. destruct H.
    - assert (C : correct (f, j)).
      { apply (step_some h b s). destruct (step (Some (h, b, s)) (f, j)) eqn:Q; [eauto|]. now rewrite list_none in E. }
      assert (Ab : forall g, absent g ((f, j) :: ms) <-> f <> g /\ absent g ms) by (intros g; unfold absent; cbn; tauto).
      assert (La : forall g j', last_member g ((f, j) :: ms) j' <-> last_member g ms j' \/ absent g ms /\ f = g /\ j = j').
      { intros g j'. rewrite last_cons. split; intros [Q|[Q Q']]; auto; right; split; auto; [injection Q'; auto|destruct Q' as [-> ->]; reflexivity]. }
      cbn [list_step fst snd] in E. destruct (String.eqb_spec f "kind") as [->|N1]; [|destruct (String.eqb_spec f "href") as [->|N2]; [|destruct (String.eqb_spec f "items") as [->|N3]]].
      + destruct (decode_string j) as [x|] eqn:D; [|now rewrite list_none in E]. destruct (IH _ _ _ _ _ _ E) as (P & H1 & H2 & K1 & K2 & I1 & I2).
        split; [intros p [<-|Q]; auto|]. split; [intros Q; apply Ab in Q; tauto|]. split; [intros j' Q; apply La in Q as [Q|(_ & Q & _)]; [auto|discriminate Q]|].
        split; [intros Q; apply Ab in Q; tauto|]. split; [intros j' Q; apply La in Q as [Q|(Q & _ & <-)]; [auto|rewrite D; auto]|].
        split; [intros Q; apply Ab in Q; tauto|]. intros j' Q; apply La in Q as [Q|(_ & Q & _)]; [auto|discriminate Q].
      + destruct (decode_string j) as [x|] eqn:D; [|now rewrite list_none in E]. destruct (IH _ _ _ _ _ _ E) as (P & H1 & H2 & K1 & K2 & I1 & I2).
        split; [intros p [<-|Q]; auto|]. split; [intros Q; apply Ab in Q; tauto|]. split; [intros j' Q; apply La in Q as [Q|(Q & _ & <-)]; [auto|rewrite D, H1; auto]|].
        split; [intros Q; apply Ab in Q; tauto|]. split; [intros j' Q; apply La in Q as [Q|(_ & Q & _)]; [auto|discriminate Q]|].
        split; [intros Q; apply Ab in Q; tauto|]. intros j' Q; apply La in Q as [Q|(_ & Q & _)]; [auto|discriminate Q].
      + destruct (items j) as [x|] eqn:D; [|now rewrite list_none in E]. destruct (IH _ _ _ _ _ _ E) as (P & H1 & H2 & K1 & K2 & I1 & I2).
        split; [intros p [<-|Q]; auto|]. split; [intros Q; apply Ab in Q; tauto|]. split; [intros j' Q; apply La in Q as [Q|(_ & Q & _)]; [auto|discriminate Q]|].
        split; [intros Q; apply Ab in Q; tauto|]. split; [intros j' Q; apply La in Q as [Q|(_ & Q & _)]; [auto|discriminate Q]|].
        split; [intros Q; apply Ab in Q; tauto|]. intros j' Q; apply La in Q as [Q|(Q & _ & <-)]; [auto|]. exists x. auto.
      + destruct (IH _ _ _ _ _ _ E) as (P & H1 & H2 & K1 & K2 & I1 & I2).
        split; [intros p [<-|Q]; auto|]. split; [intros Q; apply Ab in Q; tauto|]. split; [intros j' Q; apply La in Q as [Q|(_ & Q & _)]; [auto|congruence]|].
        split; [intros Q; apply Ab in Q; tauto|]. split; [intros j' Q; apply La in Q as [Q|(_ & Q & _)]; [auto|congruence]|].
        split; [intros Q; apply Ab in Q; tauto|]. intros j' Q; apply La in Q as [Q|(_ & Q & _)]; [auto|congruence].
  Qed.

  Context (M : json -> value -> Prop) (ms : list (string * json)).
  Context (HI : forall f j l, In (f, j) ms -> (items j = Some l <-> items_in M j l)).

  Lemma list_read h b s : fold_left step ms (Some ("", false, VNil)) = Some (h, b, s) <-> list_in M te ms h b s.
  Proof.
    assert (Fw : forall h b s, fold_left step ms (Some ("", false, VNil)) = Some (h, b, s) -> list_in M te ms h b s).
    { clear h b s. intros h b s E. destruct (list_fold _ _ _ _ _ _ _ E) as (P & H1 & H2 & K1 & K2 & I1 & I2). split; [|split; [|split; [|split]]].
      - intros f j Hf H. destruct (P _ H) as [Q _]. cbn [fst snd] in Q. destruct (decode_string j) as [x|] eqn:D; [|exfalso; apply Q; auto]. exists x. now apply text_read.
      - intros j H. destruct (P _ H) as [_ Q]. cbn [fst snd] in Q. destruct (items j) as [l|] eqn:D; [|now contradiction Q]. exists l. now apply (HI _ _ _ H).
      - destruct (absent_or "href" ms) as [N|[j L]]; [right; auto|left]. exists j. split; [assumption|]. apply text_read. auto.
      - destruct (absent_or "kind" ms) as [N|[j L]].
        + rewrite (K1 N). split; [discriminate|]. intros L. now apply last_known in L.
        + rewrite (K2 j L). split.
          * destruct j; cbn [decode_string]; try discriminate; intros Q; apply String.eqb_eq in Q; [now apply not_empty_name in Q|subst; assumption].
          * intros L'. rewrite (last_unique _ _ _ _ L L'). cbn. apply String.eqb_refl.
      - destruct (absent_or "items" ms) as [N|[j L]]; [left; auto|right]. destruct (I2 j L) as (m & E1 & ->). exists j, m. split; [assumption|]. split; [|reflexivity]. now apply (HI _ _ _ (last_in _ _ _ L)). }
    split; [apply Fw|]. intros (T & It & Hr & Hk & Hs).
    destruct (list_total ms) with (r := ("", false, VNil)) as [[[h' b'] s'] E].
    { intros [f j] H. split; cbn [fst snd].
      - intros Hf. destruct (T f j Hf H) as [x Hx]. apply text_read in Hx. congruence.
      - intros ->. destruct (It j H) as [l Hl]. apply (HI _ _ _ H) in Hl. congruence. }
    rewrite E. destruct (Fw _ _ _ E) as (_ & _ & Hr' & Hk' & Hs').
    assert (h' = h) as -> by (eapply text_unique; eauto).
    assert (b' = b) as ->. { destruct b, b'; auto; [|symmetry]; [apply Hk', Hk|apply Hk, Hk']; reflexivity. }
    assert (s' = s) as ->; [|reflexivity].
    destruct Hs as [[N ->]|(j & l & L & Il & ->)], Hs' as [[N' ->]|(j' & l' & L' & Il' & ->)]; auto.
    - now apply last_known in L'.
    - now apply last_known in L.
    - pose proof (last_unique _ _ _ _ L L') as <-. apply (HI _ _ _ (last_in _ _ _ L)) in Il, Il'. congruence.
  Qed.
End Lists.

Lemma all1_in {A} (P : A -> Prop) l a : all1 P l -> In a l -> P a.
Proof. induction l as [|b l IH]; [intros _ []|]. intros [H1 H2] [<-|H]; auto. Qed.

Section Meaning.
  Context (o : oracle) (v : version) (S : standard v) (C : compiles v) (Sd : sound v).

  Definition meant (j : json) : Prop := well_formed j -> forall k link x, decode o v k link j = Some x <-> stands o v k link j x.

  Definition meant_items (j : json) : Prop := well_formed j -> forall e l, decode_items (decode o v e false) j = Some l <-> items_in (stands o v e false) j l.

  Lemma array_meant l : Forall meant l -> meant_items (JArr l).
  Proof.
    intros IH W e m. cbn [decode_items]. rewrite Forall_forall in IH. cbn in W.
    rewrite (items_read (decode o v e false) (stands o v e false)) by (intros j x H; apply IH; auto; now apply (all1_in _ _ _ W)).
    unfold items_in. split; [right; eauto|]. intros [[Q _]|(m' & Q & H)]; [discriminate Q|]. now injection Q as ->.
  Qed.

  Lemma decode_struct k link t j : mget k (v_types v) = Some t -> structural t ->
    decode o v k link j = match j with
      | JNull => Some (VObject (new_builder v t))
      | JObj ms => option_map VObject (fold_left (object_step (decode o v) t) ms (Some (new_builder v t)))
      | _ => None
      end.
  Proof.
    intros G K. assert (U : type_at k v = Some t) by exact G. destruct (not_builtin _ _ _ S G) as (E1 & E2 & E3 & E4 & E5 & E6); [destruct K; congruence|].
    destruct j; cbn [decode]; rewrite E1, E2, E3, E4, E5, U, E6; unfold is_interface, is_enum, is_struct; destruct K as [-> | ->]; reflexivity.
  Qed.

  Lemma decode_list k link t j : mget k (v_types v) = Some t -> t_kind t = ListType ->
    decode o v k link j = if link then
        match j with
        | JNull => Some (VList "" false VNil)
        | JObj ms => option_map (fun '(h, b, s) => VList h b s)
            (fold_left (list_step (decode_items (decode o v (elem_key t) false)) (match type_at (elem_key t) v with Some te => te | None => t end)) ms (Some ("", false, VNil)))
        | _ => None
        end
      else option_map VSlice (decode_items (decode o v (elem_key t) false) j).
  Proof.
    intros G K. assert (U : type_at k v = Some t) by exact G. destruct (not_builtin _ _ _ S G) as (E1 & E2 & E3 & E4 & E5 & E6); [congruence|].
    destruct j; cbn [decode]; rewrite E1, E2, E3, E4, E5, U, E6; unfold is_interface, is_enum, is_struct, is_list; rewrite K; cbn [kind_eqb orb]; destruct link; reflexivity.
  Qed.

  Lemma decode_map k link t j : mget k (v_types v) = Some t -> t_kind t = MapType ->
    decode o v k link j = match j with
      | JNull => Some (VMap [])
      | JObj ms => option_map VMap (option_map canonical (fold_left (put (decode o v (elem_key t) false)) ms (Some [])))
      | _ => None
      end.
  Proof.
    intros G K. assert (U : type_at k v = Some t) by exact G. destruct (not_builtin _ _ _ S G) as (E1 & E2 & E3 & E4 & E5 & E6); [congruence|].
    destruct j as [| | | | |ms]; cbn [decode]; rewrite E1, E2, E3, E4, E5, U, E6; unfold is_interface, is_enum, is_struct, is_list, is_map; rewrite K; cbn [kind_eqb orb]; try reflexivity.
    change (entry_step (decode o v (elem_key t) false)) with (put (decode o v (elem_key t) false)). now destruct (fold_left _ ms _).
  Qed.

  Lemma decode_undefined k link t j : mget k (v_types v) = Some t -> t_kind t = UndefinedType -> decode o v k link j = None.
  Proof.
    intros G K. assert (U : type_at k v = Some t) by exact G. destruct (not_builtin _ _ _ S G) as (E1 & E2 & E3 & E4 & E5 & E6); [congruence|].
    destruct j; cbn [decode]; rewrite E1, E2, E3, E4, E5, U, E6; unfold is_interface, is_enum, is_struct, is_list, is_map; rewrite K; reflexivity.
  Qed.

  Lemma stands_inv k link j x t : stands o v k link j x -> mget k (v_types v) = Some t ->
    (simple t /\ exists s, x = VScalar s /\ scalar_in o k t j s) \/
    (structural t /\ exists b, x = VObject b /\ ((exists ms, j = JObj ms /\ members_in (stands o v) v t ms b) \/ (j = JNull /\ members_in (fun _ _ _ _ => False) v t [] b))) \/
    (t_kind t = ListType /\ link = false /\ exists e l, t_element t = Some e /\ x = VSlice l /\ items_in (stands o v e false) j l) \/
    (t_kind t = ListType /\ link = true /\ exists e te ms h b s, t_element t = Some e /\ mget e (v_types v) = Some te /\ j = JObj ms /\ x = VList h b s /\ list_in (stands o v e false) te ms h b s) \/
    (t_kind t = ListType /\ link = true /\ j = JNull /\ x = VList "" false VNil) \/
    (t_kind t = MapType /\ exists e ms l, t_element t = Some e /\ j = JObj ms /\ x = VMap l /\ increasing (map fst l) /\
      (forall f x, In (f, x) l -> exists j, last_member f ms j /\ stands o v e false j x) /\ (forall f j, In (f, j) ms -> In f (map fst l) /\ exists x, stands o v e false j x)) \/
    (t_kind t = MapType /\ j = JNull /\ x = VMap []).
  Proof.
    intros H G. destruct H; match goal with Q : mget k _ = Some _ |- _ => rewrite G in Q; injection Q as <- end.
    - left. split; [|eauto]. unfold simple. destruct H0 as [? K|? ? K|? ? K|? ? K|? ? ? K|? ? K|? ? K]; rewrite K; cbn; tauto.
    - right. left. split; [assumption|]. eexists. split; [reflexivity|]. left. eauto.
    - right. left. split; [assumption|]. eexists. split; [reflexivity|]. right. auto.
    - do 2 right. left. eauto 10.
    - do 3 right. left. do 2 (split; [auto|]). exists e, te, ms, h, b, s. auto 10.
    - do 4 right. left. auto.
    - do 5 right. left. split; [auto|]. exists e, ms, l. auto 10.
    - do 6 right. auto.
  Qed.

  Lemma value_meant : forall j, meant j /\ meant_items j.
  Proof.
    assert (Main : forall j, (forall ms f x, j = JObj ms -> In (f, x) ms -> meant x /\ meant_items x) -> (forall l, j = JArr l -> Forall meant l) -> meant j /\ meant_items j).
    { intros j HO HA. assert (MI : meant_items j).
      { destruct j as [|b|s|s|l|ms]; try (intros W e l'; cbn; split; [discriminate|intros [[Q _]|(m & Q & _)]; discriminate Q]); [|now apply array_meant, HA].
        intros W e l. cbn. unfold items_in. split; [intros Q; injection Q as <-; auto|]. intros [[_ ->]|(m & Q & _)]; [reflexivity|discriminate Q]. }
      split; [|assumption]. intros W k link x. destruct (mget k (v_types v)) as [t|] eqn:G.
      2:{ rewrite decode_unknown by assumption. split; [discriminate|]. intros H. inversion H; congruence. }
      destruct (Sd _ _ G) as [Kn Pl].
      assert (KS : simple t -> decode o v k link j = Some x <-> stands o v k link j x).
      { intros K. rewrite (decode_simple o v S k link t j G K), (scalar_read o k t j x K W). split.
        - intros (s & -> & H). now apply (stands_scalar o v k link t j s).
        - intros H. apply (stands_inv _ _ _ _ t) in H; [|assumption]. unfold simple, structural in *. cbn in K.
          destruct H as [(_ & H)|[(Q & _)|[(Q & _)|[(Q & _)|[(Q & _)|[(Q & _)|(Q & _)]]]]]]; [exact H| | | | | |]; intuition congruence. }
      assert (KO : structural t -> decode o v k link j = Some x <-> stands o v k link j x).
      { intros K. destruct (C _ _ G K) as [F Tg]. specialize (Kn K). rewrite (decode_struct k link t j G K).
        assert (HM : forall ms, j = JObj ms -> forall f j k link x, In (f, j) ms -> decode o v k link j = Some x <-> stands o v k link j x).
        { intros ms Ej f j' k' link' x' I. apply (HO ms f j' Ej I). rewrite Ej in W. cbn in W. exact (all1_in _ _ _ W I). }
        pose proof (fun ms E b => object_read v t (decode o v) (stands o v) S F Tg K Kn ms (HM ms E) b) as OR.
        assert (ON : forall b, Some (new_builder v t) = Some b <-> members_in (fun _ _ _ _ => False) v t [] b).
        { intros b. apply (object_read v t (fun _ _ _ => None) (fun _ _ _ _ => False) S F Tg K Kn []). intros ? ? ? ? ? []. }
        split.
        - destruct j as [|b|s|s|l|ms]; try discriminate.
          + intros Q. injection Q as <-. apply (stands_null_object o v k link t); auto. now apply ON.
          + destruct (fold_left (object_step (decode o v) t) ms (Some (new_builder v t))) as [b|] eqn:E; [|discriminate]. intros Q. injection Q as <-. apply (stands_object o v k link t); auto.
            now apply (OR ms eq_refl).
        - intros H. apply (stands_inv _ _ _ _ t) in H; [|assumption]. unfold simple in H.
          destruct H as [(Q & _)|[(_ & b & -> & [(ms & -> & H)|[-> H]])|[(Q & _)|[(Q & _)|[(Q & _)|[(Q & _)|(Q & _)]]]]]]; try (exfalso; unfold structural in K; cbn in Q; intuition congruence).
          + apply (OR ms eq_refl) in H. rewrite H. reflexivity.
          + apply ON in H. injection H as <-. reflexivity. }
      destruct (t_kind t) eqn:K; try (apply KS; unfold simple; rewrite K; cbn; tauto); try (apply KO; unfold structural; tauto).
      - (* undefined *) rewrite (decode_undefined k link t j G K). split; [discriminate|].
        intros H. apply (stands_inv _ _ _ _ t) in H; [|assumption]. unfold simple, structural in H. rewrite K in H. cbn in H. intuition discriminate.
      - (* list *) destruct Pl as (e & te & Ee & Ge); [cbn; tauto|]. rewrite (decode_list k link t j G K). assert (Ek : elem_key t = e) by (unfold elem_key; now rewrite Ee). rewrite Ek. destruct link.
        + unfold type_at. rewrite Ge.
          assert (HL : forall ms, j = JObj ms -> forall f j l, In (f, j) ms -> decode_items (decode o v e false) j = Some l <-> items_in (stands o v e false) j l).
          { intros ms Ej f j' l I. apply (HO ms f j' Ej I). rewrite Ej in W. cbn in W. exact (all1_in _ _ _ W I). }
          pose proof (fun ms E h b s => list_read (decode_items (decode o v e false)) te (stands o v e false) ms (HL ms E) h b s) as LR. split.
          * destruct j as [|b|s|s|l|ms]; try discriminate.
            -- intros Q. injection Q as <-. now apply (stands_null_list o v k t).
            -- destruct (fold_left (list_step (decode_items (decode o v e false)) te) ms (Some ("", false, VNil))) as [[[h b] s]|] eqn:E; [|discriminate]. intros Q. injection Q as <-.
               apply (stands_list o v k t e te); auto. now apply (LR ms eq_refl).
          * intros H. apply (stands_inv _ _ _ _ t) in H; [|assumption]. unfold simple, structural in H. rewrite K in H. cbn in H.
            destruct H as [(Q & _)|[(Q & _)|[(_ & Q & _)|[(_ & _ & H)|[(_ & _ & -> & ->)|[(Q & _)|(Q & _)]]]]]]; try (exfalso; intuition discriminate); [|reflexivity].
            destruct H as (e' & te' & ms & h & b & s & Ee' & Ge' & -> & -> & H). rewrite Ee in Ee'. injection Ee' as <-. rewrite Ge in Ge'. injection Ge' as <-.
            apply (LR ms eq_refl) in H. rewrite H. reflexivity.
        + split.
          * destruct (decode_items (decode o v e false) j) as [l|] eqn:E; [|discriminate]. intros Q. injection Q as <-. apply (stands_slice o v k t e); auto. now apply MI.
          * intros H. apply (stands_inv _ _ _ _ t) in H; [|assumption]. unfold simple, structural in H. rewrite K in H. cbn in H.
            destruct H as [(Q & _)|[(Q & _)|[(_ & _ & e' & l & Ee' & -> & H)|[(_ & Q & _)|[(_ & Q & _)|[(Q & _)|(Q & _)]]]]]]; try (exfalso; intuition discriminate).
            rewrite Ee in Ee'. injection Ee' as <-. apply MI in H; [|assumption]. rewrite H. reflexivity.
      - (* map *) destruct Pl as (e & te & Ee & Ge); [cbn; tauto|]. rewrite (decode_map k link t j G K). assert (Ek : elem_key t = e) by (unfold elem_key; now rewrite Ee). rewrite Ek.
        assert (HM : forall ms, j = JObj ms -> forall f j x, In (f, j) ms -> decode o v e false j = Some x <-> stands o v e false j x).
        { intros ms Ej f j' x' I. apply (HO ms f j' Ej I). rewrite Ej in W. cbn in W. exact (all1_in _ _ _ W I). }
        pose proof (fun ms E l => map_read (decode o v e false) (stands o v e false) ms l (HM ms E)) as MR. split.
        + destruct j as [|b|s|s|l|ms]; try discriminate.
          * intros Q. injection Q as <-. now apply (stands_null_map o v k link t).
          * destruct (option_map canonical (fold_left (put (decode o v e false)) ms (Some []))) as [l|] eqn:E; [|discriminate]. intros Q. injection Q as <-.
            apply (MR ms eq_refl) in E as (H1 & H2 & H3). now apply (stands_map o v k link t e).
        + intros H. apply (stands_inv _ _ _ _ t) in H; [|assumption]. unfold simple, structural in H. rewrite K in H. cbn in H.
          destruct H as [(Q & _)|[(Q & _)|[(Q & _)|[(Q & _)|[(Q & _)|[(_ & e' & ms & l & Ee' & -> & -> & H)|(_ & -> & ->)]]]]]]; try (exfalso; intuition discriminate); [|reflexivity].
          rewrite Ee in Ee'. injection Ee' as <-. apply (MR ms eq_refl) in H. rewrite H. reflexivity. }
    induction j as [|b|s|s|l IH|ms IH] using json_ind2; apply Main; try discriminate.
    - intros l' Q. injection Q as <-. eapply Forall_impl; [|exact IH]. cbn. tauto.
    - intros ms' f x Q I. injection Q as <-. rewrite Forall_forall in IH. exact (IH (f, x) I).
  Qed.

  Lemma decode_meaning j k link x : well_formed j -> (decode o v k link j = Some x <-> stands o v k link j x).
  Proof. intros W. now apply value_meant. Qed.

  Lemma object_meaning t ms b rest : structural t -> fits t -> tagged t -> known v t -> clean (JObj ms) -> well_formed (JObj ms) ->
    (unmarshal_object o v t (tokens (JObj ms)) = Ok b rest <-> rest = [] /\ members_in (stands o v) v t ms b).
  Proof.
    intros K F Tg Kn Cl W. rewrite (document_read o v t ms Cl). cbn in W.
    pose proof (object_read v t (decode o v) (stands o v) S F Tg K Kn ms (fun f j k link x I => decode_meaning j k link x (all1_in _ _ _ W I)) b) as Q. rewrite <- Q. clear.
    destruct (fold_left _ _ _) as [b'|]; cbn; [|split; [discriminate|intros [_ H]; discriminate]]. split.
    - intros H. injection H as <- <-. auto.
    - intros [-> H]. now injection H as ->.
  Qed.

  Lemma list_meaning e l m rest : clean (JArr l) -> well_formed (JArr l) ->
    (unmarshal_list o v e (tokens (JArr l)) = Ok m rest <-> rest = [] /\ Forall2 (stands o v e false) l m).
  Proof.
    intros Cl W. rewrite <- (app_nil_r (tokens _)), list_decoded by (apply (proj2 (clean_legible v (JArr l) Cl))). cbn in W.
    rewrite <- (items_read (decode o v e false) (stands o v e false) l m (fun j x I => decode_meaning j e false x (all1_in _ _ _ W I))).
    destruct (sequence _) as [b'|]; cbn; [|split; [discriminate|intros [_ H]; discriminate]]. split.
    - intros H. injection H as <- <-. auto.
    - intros [-> H]. now injection H as ->.
  Qed.
End Meaning.
