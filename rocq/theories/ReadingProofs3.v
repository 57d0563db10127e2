(** Proofs about reading documents: objects. *)
From Coq Require Import Ascii String Bool Arith ZArith NArith Lia Permutation List.
From Verif Require Import ConformSpec.
From Verif Require Import GoStrings GoMap GoMapProofs NamesModel NamesSpec NamesProofs ConceptsModel ConceptsSpec BindingModel GoNamesModel
  GoTimeModel ReporterModel ObjectsModel ObjectsSpec ObjectsProofs ObjectsProofs2 ObjectsProofs3 JsonModel JsonSpec
  JsonProofs JsonProofs2 JsonProofs3 JsonProofs4 JsonProofs5 JsonProofs6 JsonProofs7 ReadingSpec ReadingProofs ReadingProofs2.
Import ListNotations.
Local Open Scope string_scope.

Lemma nth_same {A} (l : list A) : forall m, (forall i, nth_error l i = nth_error m i) -> l = m.
Proof.
  induction l as [|a l IH]; intros m H; [destruct m as [|b m]; [reflexivity|discriminate (H 0)]|]. destruct m as [|b m]; [discriminate (H 0)|].
  pose proof (H 0) as E. injection E as ->. f_equal. apply IH. intros i. exact (H (Datatypes.S i)).
Qed.

Section Identifiers.
  Context (dec : key -> bool -> json -> option value) (t : typ).

  Notation step := (object_step dec t).

  Lemma effect_kind j : is_class t = true -> effect_of dec t ("kind", j) = match decode_string j with Some s => Kind (String.eqb s (object_name t ++ "Link")) | None => Fails end.
  Proof. intros C. unfold effect_of. rewrite C. reflexivity. Qed.
  Lemma effect_id j : is_class t = true -> effect_of dec t ("id", j) = match decode_string j with Some s => Id s | None => Fails end.
  Proof. intros C. unfold effect_of. rewrite C. reflexivity. Qed.
  Lemma effect_href j : is_class t = true -> effect_of dec t ("href", j) = match decode_string j with Some s => Href s | None => Fails end.
  Proof. intros C. unfold effect_of. rewrite C. reflexivity. Qed.

  Lemma effect_names p :
    match effect_of dec t p with
    | Id _ => is_class t = true /\ fst p = "id"
    | Href _ => is_class t = true /\ fst p = "href"
    | Kind _ => is_class t = true /\ fst p = "kind"
    | _ => True
    end.
  Proof.
    unfold effect_of. destruct (is_class t); cbn [andb].
    - destruct (String.eqb_spec (fst p) "kind"); [destruct (decode_string (snd p)); auto|]. destruct (String.eqb_spec (fst p) "id"); [destruct (decode_string (snd p)); auto|].
      destruct (String.eqb_spec (fst p) "href"); [destruct (decode_string (snd p)); auto|]. destruct (find_tag (fst p) 0 (t_attrs t)) as [[i a]|]; auto. now destruct (dec (a_type a) (a_link a) (snd p)).
    - destruct (find_tag (fst p) 0 (t_attrs t)) as [[i a]|]; auto. now destruct (dec (a_type a) (a_link a) (snd p)).
  Qed.

  Lemma id_fold l : forall b b', fold_left step l (Some b) = Some b' ->
    (is_class t = false \/ absent "id" l -> o_id b' = o_id b) /\ (is_class t = true -> forall j, last_member "id" l j -> text_in j (o_id b')).
  Proof.
    induction l as [|[f j] l IH]; intros b b' E; cbn [fold_left] in E.
    - injection E as <-. split; [auto|]. intros _ j H. apply last_in in H. destruct H.
    - destruct (step (Some b) (f, j)) as [b1|] eqn:E1; [|now rewrite fold_none in E]. destruct (IH _ _ E) as [A L]. rewrite step_effect in E1. split.
      + intros H. rewrite A by (destruct H as [H|H]; [auto|right; intros I; apply H; now right]). pose proof (effect_names (f, j)) as N. destruct (effect_of dec t (f, j)); cbn in E1; try discriminate; injection E1 as <-; try reflexivity.
        exfalso. destruct N as [N1 N2]. cbn in N2. subst f. destruct H as [H|H]; [congruence|]. apply H. now left.
      + intros C j' H. apply last_cons in H as [H|[H Q]]; [now apply L|]. injection Q as -> ->. rewrite A by auto. rewrite (effect_id _ C) in E1.
        destruct (decode_string j') as [s|] eqn:D; cbn in E1; [|discriminate]. injection E1 as <-. now apply text_read.
  Qed.

  Lemma href_fold l : forall b b', fold_left step l (Some b) = Some b' ->
    (is_class t = false \/ absent "href" l -> o_href b' = o_href b) /\ (is_class t = true -> forall j, last_member "href" l j -> text_in j (o_href b')).
  Proof.
    induction l as [|[f j] l IH]; intros b b' E; cbn [fold_left] in E.
    - injection E as <-. split; [auto|]. intros _ j H. apply last_in in H. destruct H.
    - destruct (step (Some b) (f, j)) as [b1|] eqn:E1; [|now rewrite fold_none in E]. destruct (IH _ _ E) as [A L]. rewrite step_effect in E1. split.
      + intros H. rewrite A by (destruct H as [H|H]; [auto|right; intros I; apply H; now right]). pose proof (effect_names (f, j)) as N. destruct (effect_of dec t (f, j)); cbn in E1; try discriminate; injection E1 as <-; try reflexivity.
        exfalso. destruct N as [N1 N2]. cbn in N2. subst f. destruct H as [H|H]; [congruence|]. apply H. now left.
      + intros C j' H. apply last_cons in H as [H|[H Q]]; [now apply L|]. injection Q as -> ->. rewrite A by auto. rewrite (effect_href _ C) in E1.
        destruct (decode_string j') as [s|] eqn:D; cbn in E1; [|discriminate]. injection E1 as <-. now apply text_read.
  Qed.

  Lemma complete_fold l : forall b b', fold_left step l (Some b) = Some b' -> complete t b -> complete t b'.
  Proof.
    induction l as [|p l IH]; intros b b' E C; cbn [fold_left] in E; [injection E as <-; exact C|].
    destruct (step (Some b) p) as [b1|] eqn:Q; [|now rewrite fold_none in E]. apply (IH _ _ E).
    rewrite step_effect in Q. destruct (effect_of dec t p); cbn in Q; try discriminate; injection Q as <-; auto. unfold complete in *. cbn. now rewrite set_nth_length.
  Qed.

  Lemma slot_bounded p n : slot dec t p = Some n -> n < slots t.
  Proof.
    unfold slot, slots, reserved. pose proof (effect_names p) as N. destruct (effect_of dec t p) as [| | [] | | |i x] eqn:E; try discriminate; intros Q; injection Q as <-.
    1-3: destruct N as [N _]; apply class_kind in N; rewrite N; lia.
    apply effect_attr in E as (a & E & _). assert (i < length (t_attrs t)) by (apply nth_error_Some; congruence). unfold reserved. lia.
  Qed.
End Identifiers.

Section Objects.
  Context (v : version) (t : typ) (dec : key -> bool -> json -> option value) (M : key -> bool -> json -> value -> Prop).
  Context (S : standard v) (F : fits t) (Tg : tagged t) (K : structural t) (Kn : known v t) (ms : list (string * json)).
  Context (HM : forall f j k link x, In (f, j) ms -> (dec k link j = Some x <-> M k link j x)).

  Notation step := (object_step dec t).

  Lemma attr_zero i a : nth_error (t_attrs t) i = Some a -> zero_of v (a_type a) (field_zero v (a_type a)).
  Proof. intros E. apply nth_error_In in E. destruct (Kn a E) as (ta & G & U & _). now apply (zero_exists v _ ta S G U). Qed.

  Lemma object_read_fwd b : fold_left step ms (Some (new_builder v t)) = Some b -> members_in M v t ms b.
  Proof.
    intros E.
    assert (Z : forall n, ~ marked n (new_builder v t)).
    { intros n. unfold marked, new_builder. cbn [o_bits]. rewrite N.bits_0. discriminate. }
    assert (Mk : forall n, marked n b <-> exists p, In p ms /\ slot dec t p = Some n).
    { intros n. rewrite (fold_bits dec t F ms _ _ E n). specialize (Z n). tauto. }
    assert (Nf : forall p, In p ms -> effect_of dec t p <> Fails) by (intros p; now apply (fold_none_fails _ _ _ _ _ _ E)).
    destruct (id_fold _ _ _ _ _ E) as [Ia Il]. destruct (href_fold _ _ _ _ _ E) as [Ha Hl]. cbn [new_builder o_id o_href] in Ia, Ha.
    split; [apply (complete_fold _ _ _ _ _ E), new_complete|]. split; [|split; [|split]].
    - intros n L Hn. apply Mk in Hn as (p & _ & Hp). apply slot_bounded in Hp. lia.
    - intros i a A.
      assert (P : present t i b <-> ~ absent (attribute_name a) ms).
      { unfold present. rewrite Mk. split.
        - intros (p & H & Sl) N. apply (slot_attr _ _ Tg) with (a := a) in Sl; auto. apply N. rewrite <- Sl. now apply in_map.
        - intros N. destruct (in_dec string_dec (attribute_name a) (map fst ms)) as [H|H]; [|now contradiction N]. apply in_map_iff in H as (p & Ep & H). exists p.
          split; [assumption|]. apply (slot_attr _ _ Tg) with (a := a); auto. }
      split.
      + intros j H. pose proof (Nf _ H) as Q. rewrite (effect_of_attr dec t Tg _ _ _ A) in Q. destruct (dec (a_type a) (a_link a) j) as [x|] eqn:D; [|congruence]. exists x. now apply (HM _ _ _ _ _ H).
      + destruct (absent_or (attribute_name a) ms) as [N|[j L]].
        * exists (field_zero v (a_type a)). split.
          -- rewrite (field_kept dec t _ _ _ _ _ E A N). cbn. now rewrite nth_error_map, A.
          -- right. split; [rewrite P; tauto|]. split; [assumption|]. now apply (attr_zero i).
        * pose proof (last_in _ _ _ L) as H. pose proof (last_known _ _ _ L) as Nab. revert L. intros L. destruct L as [l j m N].
          destruct (field_last dec t Tg _ _ _ _ _ _ (new_builder v t) i a E A eq_refl N (new_complete v t) (new_complete v t)) as (n' & E1 & E2).
          rewrite step_effect, (effect_of_attr dec t Tg _ _ _ A) in E1. destruct (dec (a_type a) (a_link a) j) as [x|] eqn:D; [|discriminate]. cbn [apply_effect] in E1. injection E1 as <-.
          exists x. split.
          -- rewrite E2. cbn [o_fields]. apply set_nth_same. rewrite (new_complete v t). apply nth_error_Some. congruence.
          -- left. split; [now apply P|]. exists j. split; [now constructor|]. now apply (HM _ _ _ _ _ H).
    - intros Kc. assert (C : is_class t = true) by (now apply class_kind). assert (R := fun p H => slot_reserved dec t p Kc (Nf p H)).
      assert (Pr : forall f n, (forall p, In p ms -> (slot dec t p = Some n <-> fst p = f)) -> (marked n b <-> ~ absent f ms)).
      { intros f n Hs. rewrite Mk. split.
        - intros (p & H & Q) N. apply N. apply (Hs p H) in Q. rewrite <- Q. now apply in_map.
        - intros N. destruct (in_dec string_dec f (map fst ms)) as [H|H]; [|now contradiction N]. apply in_map_iff in H as (p & Ep & H). exists p. split; [assumption|]. now apply Hs. }
      split; [|split; [|split; [|split; [|split]]]].
      + intros f j Hf H. pose proof (Nf _ H) as Q. destruct Hf as [<-|[<-|[<-|[]]]].
        * rewrite effect_kind in Q by assumption. destruct (decode_string j) as [s|] eqn:D; [|congruence]. exists s. now apply text_read.
        * rewrite effect_id in Q by assumption. destruct (decode_string j) as [s|] eqn:D; [|congruence]. exists s. now apply text_read.
        * rewrite effect_href in Q by assumption. destruct (decode_string j) as [s|] eqn:D; [|congruence]. exists s. now apply text_read.
      + unfold is_link. rewrite Mk. split.
        * intros (p & H & Q). apply R in Q; [|assumption]. now rewrite <- Q.
        * intros H. eexists. split; [exact H|]. now apply R.
      + apply Pr. intros p H. apply (R p H).
      + destruct (absent_or "id" ms) as [N|[j L]]; [right; auto|left; eauto].
      + apply Pr. intros p H. apply (R p H).
      + destruct (absent_or "href" ms) as [N|[j L]]; [right; auto|left; eauto].
    - intros Ks. assert (C : is_class t = false) by (unfold is_class; now rewrite Ks). auto.
  Qed.

  Lemma text_unique f s s' : text_of f ms s -> text_of f ms s' -> s = s'.
  Proof.
    intros [(j & L & T)|[N ->]] [(j' & L' & T')|[N' ->]]; auto.
    - pose proof (last_unique _ _ _ _ L L') as <-. apply text_read in T, T'. congruence.
    - now apply last_known in L.
    - now apply last_known in L'.
  Qed.

  Lemma object_unique b b' : members_in M v t ms b -> members_in M v t ms b' -> b = b'.
  Proof.
    intros (C1 & B1 & A1 & H1 & S1) (C2 & B2 & A2 & H2 & S2).
    assert (P : forall i a, nth_error (t_attrs t) i = Some a -> (present t i b <-> present t i b')).
    { intros i a A. destruct (A1 i a A) as (_ & x & _ & [[P1 (j & L & _)]|[P1 [N _]]]), (A2 i a A) as (_ & y & _ & [[P2 (j' & L' & _)]|[P2 [N' _]]]); try tauto.
      - now apply last_known in L.
      - now apply last_known in L'. }
    assert (Fi : o_fields b = o_fields b').
    { apply nth_same. intros i. destruct (nth_error (t_attrs t) i) as [a|] eqn:A.
      - destruct (A1 i a A) as (_ & x & X & HX), (A2 i a A) as (_ & y & Y & HY). rewrite X, Y. apply f_equal.
        destruct HX as [[P1 (j & L & Mx)]|[P1 [N Zx]]], HY as [[P2 (j' & L' & My)]|[P2 [N' Zy]]].
        + pose proof (last_unique _ _ _ _ L L') as <-. apply (HM _ _ _ _ _ (last_in _ _ _ L)) in Mx, My. congruence.
        + now apply last_known in L.
        + now apply last_known in L'.
        + now apply (zero_fun v (a_type a)).
      - apply nth_error_None in A. unfold complete in C1, C2. rewrite !(proj2 (nth_error_None _ _)) by lia. reflexivity. }
    assert (Bi : forall n, marked n b <-> marked n b').
    { intros n. destruct (le_lt_dec (slots t) n) as [L|L]; [split; intros Hn; exfalso; [now apply (B1 n)|now apply (B2 n)]|].
      assert (At : reserved t <= n -> (marked n b <-> marked n b')).
      { intros R. destruct (nth_error (t_attrs t) (n - reserved t)) as [a|] eqn:A.
        - specialize (P _ _ A). unfold present in P. now replace (reserved t + (n - reserved t)) with n in P by lia.
        - apply nth_error_None in A. unfold slots in L. lia. }
      destruct K as [Kc|Ks].
      - destruct (H1 Kc) as (_ & L1 & I1 & _ & F1 & _), (H2 Kc) as (_ & L2 & I2 & _ & F2 & _). unfold is_link, has_id, has_href in *.
        destruct n as [|[|[|n]]]; [now rewrite L1, L2|now rewrite I1, I2|now rewrite F1, F2|]. apply At. unfold reserved. rewrite Kc. lia.
      - apply At. unfold reserved. rewrite Ks. lia. }
    assert (Bt : o_bits b = o_bits b').
    { apply N.bits_inj. intros n. specialize (Bi (N.to_nat n)). unfold marked in Bi. rewrite N2Nat.id in Bi. destruct (N.testbit (o_bits b) n), (N.testbit (o_bits b') n); auto; [symmetry|]; tauto. }
    assert (Ii : o_id b = o_id b' /\ o_href b = o_href b').
    { destruct K as [Kc|Ks].
      - destruct (H1 Kc) as (_ & _ & _ & T1 & _ & R1), (H2 Kc) as (_ & _ & _ & T2 & _ & R2). split; eapply text_unique; eauto.
      - destruct (S1 Ks) as [-> ->], (S2 Ks) as [-> ->]. auto. }
    destruct b, b'. cbn in *. destruct Ii. congruence.
  Qed.

  Lemma object_read b : fold_left step ms (Some (new_builder v t)) = Some b <-> members_in M v t ms b.
  Proof.
    split; [apply object_read_fwd|]. intros H. destruct (fold_left step ms (Some (new_builder v t))) as [b'|] eqn:E.
    - apply object_read_fwd in E. apply f_equal. now apply object_unique.
    - exfalso. apply (fold_fails dec t ms (new_builder v t) (new_builder v t)) in E. apply Exists_exists in E as ([f j] & I & E). rewrite step_effect in E.
      destruct H as (_ & _ & A & Hc & _). destruct (effect_of dec t (f, j)) eqn:Q; try discriminate E. clear E. unfold effect_of in Q. cbn [fst snd] in Q.
      destruct (is_class t) eqn:C; cbn [andb] in Q.
      + assert (Kc : t_kind t = ClassType) by (now apply class_kind). destruct (Hc Kc) as (T & _).
        destruct (String.eqb_spec f "kind") as [->|N1]; [destruct (T "kind" j) as [s Hs]; [cbn; auto|assumption|]; apply text_read in Hs; rewrite Hs in Q; discriminate|].
        destruct (String.eqb_spec f "id") as [->|N2]; [destruct (T "id" j) as [s Hs]; [cbn; auto|assumption|]; apply text_read in Hs; rewrite Hs in Q; discriminate|].
        destruct (String.eqb_spec f "href") as [->|N3]; [destruct (T "href" j) as [s Hs]; [cbn; auto|assumption|]; apply text_read in Hs; rewrite Hs in Q; discriminate|].
        pose proof (find_tag_spec f (t_attrs t) 0) as Ft. destruct (find_tag f 0 (t_attrs t)) as [[i a]|]; [|discriminate]. destruct Ft as (i' & -> & Ea & <-).
        destruct (proj1 (A i' a Ea) j I) as [x Hx]. apply (HM _ _ _ _ _ I) in Hx. rewrite Hx in Q. discriminate.
      + pose proof (find_tag_spec f (t_attrs t) 0) as Ft. destruct (find_tag f 0 (t_attrs t)) as [[i a]|]; [|discriminate]. destruct Ft as (i' & -> & Ea & <-).
        destruct (proj1 (A i' a Ea) j I) as [x Hx]. apply (HM _ _ _ _ _ I) in Hx. rewrite Hx in Q. discriminate.
  Qed.
End Objects.
