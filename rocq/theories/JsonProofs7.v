(** Proofs about reading JSON: the members of the documents. *)
From Coq Require Import Ascii String Bool Arith ZArith NArith Lia Permutation List.
From Verif Require Import GoStrings GoMap GoMapProofs NamesModel NamesSpec NamesProofs ConceptsModel ConceptsSpec BindingModel GoNamesModel
  GoTimeModel GoTimeSpec GoTimeProofs ReporterModel ObjectsModel ObjectsSpec ObjectsProofs ObjectsProofs2 ObjectsProofs3 JsonModel JsonSpec
  JsonProofs JsonProofs2 JsonProofs3 JsonProofs4 JsonProofs5 JsonProofs6.
Import ListNotations.
Local Open Scope string_scope.

Lemma set_bit_comm b i j : set_bit (set_bit b i) j = set_bit (set_bit b j) i.
Proof. unfold set_bit. now rewrite <- !N.lor_assoc, (N.lor_comm (Z.to_N i)). Qed.

Lemma set_nth_comm {A} i j (x y : A) l : i <> j -> set_nth i x (set_nth j y l) = set_nth j y (set_nth i x l).
Proof.
  revert i j. induction l as [|a l IH]; intros i j N; [now destruct i, j|].
  destruct i as [|i], j as [|j]; cbn; auto; [congruence|]. now rewrite IH by congruence.
Qed.

Section Members.
  Context (dec : key -> bool -> json -> option value) (t : typ).

  Notation step := (object_step dec t).

  (** The effect of a member. *)
  Inductive effect : Type :=
  | Fails
  | Nothing
  | Kind (link : bool)
  | Id (s : string)
  | Href (s : string)
  | Attr (i : nat) (x : value).

  Definition effect_of (p : string * json) : effect :=
    let f := fst p in
    if is_class t && String.eqb f "kind" then
      match decode_string (snd p) with Some s => Kind (String.eqb s (object_name t ++ "Link")) | None => Fails end
    else if is_class t && String.eqb f "id" then match decode_string (snd p) with Some s => Id s | None => Fails end
    else if is_class t && String.eqb f "href" then match decode_string (snd p) with Some s => Href s | None => Fails end
    else
      match find_tag f 0 (t_attrs t) with
      | Some (i, a) => match dec (a_type a) (a_link a) (snd p) with Some x => Attr i x | None => Fails end
      | None => Nothing
      end.

  Definition apply_effect (e : effect) (b : object) : option object :=
    match e with
    | Fails => None
    | Nothing => Some b
    | Kind link => Some (MkObject (if link then set_bit (o_bits b) 1 else o_bits b) (o_id b) (o_href b) (o_fields b))
    | Id s => Some (MkObject (set_bit (o_bits b) 2) s (o_href b) (o_fields b))
    | Href s => Some (MkObject (set_bit (o_bits b) 4) (o_id b) s (o_fields b))
    | Attr i x => Some (MkObject (set_bit (o_bits b) (bit_mask t i)) (o_id b) (o_href b) (set_nth i x (o_fields b)))
    end.

  Lemma step_effect b p : step (Some b) p = apply_effect (effect_of p) b.
  Proof.
    unfold object_step, effect_of. destruct (is_class t && String.eqb (fst p) "kind"); [now destruct (decode_string (snd p))|].
    destruct (is_class t && String.eqb (fst p) "id"); [now destruct (decode_string (snd p))|].
    destruct (is_class t && String.eqb (fst p) "href"); [now destruct (decode_string (snd p))|].
    destruct (find_tag (fst p) 0 (t_attrs t)) as [[i a]|]; auto. now destruct (dec (a_type a) (a_link a) (snd p)).
  Qed.

  (** Effects of members with different names. *)
  Lemma effects_differ p q : fst p <> fst q ->
    match effect_of p, effect_of q with
    | Kind _, Kind _ | Id _, Id _ | Href _, Href _ => False
    | Attr i _, Attr j _ => i <> j
    | _, _ => True
    end.
  Proof.
    intros N. unfold effect_of.
    assert (D : forall s, String.eqb (fst p) s = true -> String.eqb (fst q) s = true -> False).
    { intros s E1 E2. apply String.eqb_eq in E1. apply String.eqb_eq in E2. congruence. }
    pose proof (find_tag_spec (fst p) (t_attrs t) 0) as Q1. pose proof (find_tag_spec (fst q) (t_attrs t) 0) as Q2.
    assert (A : match find_tag (fst p) 0 (t_attrs t), find_tag (fst q) 0 (t_attrs t) with Some (i, _), Some (j, _) => i <> j | _, _ => True end).
    { destruct (find_tag (fst p) 0 (t_attrs t)) as [[i a]|]; auto. destruct (find_tag (fst q) 0 (t_attrs t)) as [[j b]|]; auto.
      destruct Q1 as (i' & -> & E1 & F1), Q2 as (j' & -> & E2 & F2). cbn. intros ->. congruence. }
    specialize (D "kind") as D1. specialize (D "id") as D2. specialize (D "href") as D3. clear D N Q1 Q2.
    destruct (is_class t); cbn [andb].
    - destruct (String.eqb (fst p) "kind"), (String.eqb (fst q) "kind"); try (now exfalso; auto);
      destruct (String.eqb (fst p) "id"), (String.eqb (fst q) "id"); try (now exfalso; auto);
      destruct (String.eqb (fst p) "href"), (String.eqb (fst q) "href"); try (now exfalso; auto);
      destruct (decode_string (snd p)), (decode_string (snd q)); auto;
      destruct (find_tag (fst p) 0 (t_attrs t)) as [[i a]|]; destruct (find_tag (fst q) 0 (t_attrs t)) as [[j b]|]; auto;
      try destruct (dec (a_type a) (a_link a) (snd p)); try destruct (dec (a_type b) (a_link b) (snd q)); auto.
    - destruct (find_tag (fst p) 0 (t_attrs t)) as [[i a]|]; destruct (find_tag (fst q) 0 (t_attrs t)) as [[j b]|]; auto;
      try destruct (dec (a_type a) (a_link a) (snd p)); try destruct (dec (a_type b) (a_link b) (snd q)); auto.
  Qed.

  Lemma steps_commute acc p q : fst p <> fst q -> step (step acc p) q = step (step acc q) p.
  Proof.
    intros N. destruct acc as [b|]; [|reflexivity]. rewrite !step_effect. pose proof (effects_differ p q N) as D.
    destruct (effect_of p) eqn:E1, (effect_of q) eqn:E2; cbn [apply_effect]; try contradiction;
      repeat (rewrite step_effect; try rewrite E1; try rewrite E2; cbn [apply_effect o_bits o_id o_href o_fields]); try reflexivity;
      f_equal; f_equal; try (destruct link; try reflexivity); try apply set_bit_comm. apply set_nth_comm. congruence.
  Qed.

  Lemma fold_permuted l m : Permutation l m -> NoDup (map fst l) -> forall acc, fold_left step l acc = fold_left step m acc.
  Proof.
    induction 1 as [|p l m P IH|p q l|l1 l2 l3 P1 IH1 P2 IH2]; intros N acc; auto.
    - cbn in *. inversion N; subst. now apply IH.
    - cbn in *. inversion N; subst. rewrite steps_commute; auto. intros E. apply H1. cbn. auto.
    - rewrite IH1 by auto. apply IH2. eapply Permutation_NoDup; [apply Permutation_map; exact P1|auto].
  Qed.

  Lemma unknown_step acc p : ~ In (fst p) (member_names t) -> step acc p = acc.
  Proof.
    intros N. destruct acc as [b|]; [|reflexivity]. unfold object_step, member_names in *.
    assert (R : forall s, In s ["kind"; "id"; "href"] -> is_class t && String.eqb (fst p) s = false).
    { intros s H. destruct (is_class t) eqn:K; auto. apply class_kind in K. rewrite K in N. cbn. apply String.eqb_neq. intros <-. apply N.
      apply in_app_iff. now left. }
    rewrite !R by (cbn; auto). pose proof (find_tag_spec (fst p) (t_attrs t) 0) as Q. destruct (find_tag (fst p) 0 (t_attrs t)) as [[i a]|]; auto.
    destruct Q as (j & _ & E & F). exfalso. apply N, in_app_iff. right. rewrite <- F. apply in_map. now apply nth_error_In in E.
  Qed.

  (** Each member is read or not regardless of the others. *)
  Lemma step_fails b b' p : step (Some b) p = None <-> step (Some b') p = None.
  Proof. rewrite !step_effect. destruct (effect_of p); cbn; split; congruence. Qed.

  Lemma fold_fails l : forall b n : object, fold_left step l (Some b) = None <-> Exists (fun p => step (Some n) p = None) l.
  Proof.
    induction l as [|p l IH]; intros b n; cbn [fold_left].
    - split; [discriminate|inversion 1].
    - rewrite Exists_cons. destruct (step (Some b) p) as [b'|] eqn:E.
      + rewrite (IH b' n). split; auto. intros [H|H]; auto. apply (step_fails b n) in H. congruence.
      + split; [left; now apply (step_fails b n)|]. intros _. now apply fold_none.
  Qed.

  (** * The bits *)

  Context (F : fits t) (Tg : tagged t) (K : structural t).

  Lemma effect_attr p i x : effect_of p = Attr i x -> exists a, nth_error (t_attrs t) i = Some a /\ fst p = attribute_name a /\ dec (a_type a) (a_link a) (snd p) = Some x.
  Proof.
    unfold effect_of. intros E. destruct (is_class t && String.eqb (fst p) "kind"); [destruct (decode_string (snd p)); discriminate|].
    destruct (is_class t && String.eqb (fst p) "id"); [destruct (decode_string (snd p)); discriminate|].
    destruct (is_class t && String.eqb (fst p) "href"); [destruct (decode_string (snd p)); discriminate|].
    pose proof (find_tag_spec (fst p) (t_attrs t) 0) as Q. destruct (find_tag (fst p) 0 (t_attrs t)) as [[i' a]|]; [|discriminate].
    destruct (dec (a_type a) (a_link a) (snd p)) eqn:D; [|discriminate]. injection E as -> ->. destruct Q as (j & -> & E1 & E2). exists a. auto.
  Qed.

  Lemma effect_of_attr i a j : nth_error (t_attrs t) i = Some a ->
    effect_of (attribute_name a, j) = match dec (a_type a) (a_link a) j with Some x => Attr i x | None => Fails end.
  Proof.
    intros E. destruct Tg as (N & _ & C). unfold effect_of. cbn [fst snd].
    assert (H : forall s, In s ["kind"; "id"; "href"] -> is_class t && String.eqb (attribute_name a) s = false).
    { intros s H. destruct (is_class t) eqn:Kc; auto. apply class_kind in Kc. cbn. apply String.eqb_neq. intros <-.
      apply (C Kc a); auto. now apply nth_error_In in E. }
    rewrite !H by (cbn; auto). now rewrite (find_tag_nth _ _ _ _ N E).
  Qed.

  (** The slot that a member sets. *)
  Definition slot (p : string * json) : option nat :=
    match effect_of p with
    | Kind true => Some 0
    | Id _ => Some 1
    | Href _ => Some 2
    | Attr i _ => Some (reserved t + i)
    | _ => None
    end.

  Lemma step_bits b p b' : step (Some b) p = Some b' -> forall n, marked n b' <-> slot p = Some n \/ marked n b.
  Proof.
    rewrite step_effect. intros E n. unfold marked, slot.
    destruct (effect_of p) as [| | [] | | |i x] eqn:Ef; cbn in E; try discriminate; injection E as <-; cbn [o_bits].
    - split; [auto|]. intros [H|H]; [discriminate|auto].
    - rewrite set_bit_0. rewrite orb_true_iff, Nat.eqb_eq. split; intros [H|H]; auto; left; congruence.
    - split; [auto|]. intros [H|H]; [discriminate|auto].
    - rewrite set_bit_1. rewrite orb_true_iff, Nat.eqb_eq. split; intros [H|H]; auto; left; congruence.
    - rewrite set_bit_2. rewrite orb_true_iff, Nat.eqb_eq. split; intros [H|H]; auto; left; congruence.
    - apply effect_attr in Ef. destruct Ef as (a & Ea & _). rewrite fits_mask; auto; [|apply nth_error_Some; congruence].
      rewrite set_bit_pow. rewrite orb_true_iff, Nat.eqb_eq. split; intros [H|H]; auto; left; congruence.
  Qed.

  Lemma fold_bits l : forall b b', fold_left step l (Some b) = Some b' ->
    forall n, marked n b' <-> (exists p, In p l /\ slot p = Some n) \/ marked n b.
  Proof.
    induction l as [|p l IH]; intros b b' E n; cbn [fold_left] in E.
    - injection E as <-. split; auto. intros [(p & [] & _)|H]; auto.
    - destruct (step (Some b) p) as [b1|] eqn:E1; [|now rewrite fold_none in E].
      rewrite (IH _ _ E n). rewrite (step_bits _ _ _ E1). split.
      + intros [(q & H & Q)|[H|H]]; [left; exists q|left; exists p|]; cbn; auto.
      + intros [(q & [<-|H] & Q)|H]; auto. left. eauto.
  Qed.

  Lemma fold_none_fails l b b' p : fold_left step l (Some b) = Some b' -> In p l -> effect_of p <> Fails.
  Proof.
    intros E H Q. assert (Ex : Exists (fun p => step (Some b) p = None) l).
    { apply Exists_exists. exists p. split; auto. rewrite step_effect, Q. reflexivity. }
    apply (fold_fails l b b) in Ex. congruence.
  Qed.

  Lemma slot_attr p i a : effect_of p <> Fails -> nth_error (t_attrs t) i = Some a ->
    (slot p = Some (reserved t + i) <-> fst p = attribute_name a).
  Proof.
    intros N E. split.
    - unfold slot. destruct (effect_of p) as [| | [] | | |i' x] eqn:Ef; intros H; try discriminate; injection H as H.
      1-3: exfalso; unfold reserved in H; destruct (t_kind t) eqn:Kt; try lia; revert Ef; unfold effect_of;
        assert (Cl : is_class t = false) by (unfold is_class; now rewrite Kt); rewrite Cl; cbn [andb];
        (destruct (find_tag (fst p) 0 (t_attrs t)) as [[? a']|]; [destruct (dec (a_type a') (a_link a') (snd p))|]; discriminate).
      apply effect_attr in Ef. destruct Ef as (a' & E' & Fp & _). assert (i' = i) by lia. subst. congruence.
    - destruct p as [f j]. cbn. intros ->. unfold slot. rewrite (effect_of_attr _ _ _ E) in *. destruct (dec (a_type a) (a_link a) j); congruence.
  Qed.

  Lemma slot_reserved p : t_kind t = ClassType -> effect_of p <> Fails ->
    (slot p = Some 1 <-> fst p = "id") /\ (slot p = Some 2 <-> fst p = "href") /\
    (slot p = Some 0 <-> p = ("kind", JStr (object_name t ++ "Link"))).
  Proof.
    intros Kc N. assert (Cl : is_class t = true) by (now apply class_kind). unfold slot.
    assert (R : reserved t = 3) by (unfold reserved; now rewrite Kc).
    destruct p as [f j]. revert N. unfold effect_of. rewrite Cl. cbn [andb fst snd].
    destruct (String.eqb f "kind") eqn:E1.
    { apply String.eqb_eq in E1. subst f. destruct (decode_string j) as [s|] eqn:D; [|congruence]. intros _.
      destruct (String.eqb s (object_name t ++ "Link")) eqn:E; (split; [split; discriminate|]); (split; [split; discriminate|]).
      - apply String.eqb_eq in E. subst s. split; auto. intros _.
        destruct j; cbn in D; try discriminate; [|congruence]. injection D as D. destruct (object_name t); discriminate.
      - apply String.eqb_neq in E. split; [discriminate|]. intros H. injection H as ->. cbn in D. congruence. }
    apply String.eqb_neq in E1. destruct (String.eqb f "id") eqn:E2.
    { apply String.eqb_eq in E2. subst f. destruct (decode_string j) as [s|] eqn:D; [|congruence]. intros _.
      split; [tauto|]. split; split; try discriminate; intros H; congruence. }
    apply String.eqb_neq in E2. destruct (String.eqb f "href") eqn:E3.
    { apply String.eqb_eq in E3. subst f. destruct (decode_string j) as [s|] eqn:D; [|congruence]. intros _.
      split; [split; discriminate|]. split; [tauto|]. split; try discriminate; intros H; congruence. }
    apply String.eqb_neq in E3.
    destruct (find_tag f 0 (t_attrs t)) as [[i a]|]; [destruct (dec (a_type a) (a_link a) j); [|congruence]|]; intros _;
      repeat split; intros H; try congruence; injection H as H; try lia; congruence.
  Qed.

  (** * The values *)

  Lemma field_kept l : forall b b' i a, fold_left step l (Some b) = Some b' -> nth_error (t_attrs t) i = Some a ->
    ~ In (attribute_name a) (map fst l) -> nth_error (o_fields b') i = nth_error (o_fields b) i.
  Proof.
    induction l as [|p l IH]; intros b b' i a E A N; cbn [fold_left] in E; [now injection E as <-|].
    destruct (step (Some b) p) as [b1|] eqn:E1; [|now rewrite fold_none in E].
    cbn in N. rewrite (IH _ _ _ _ E A) by tauto. rewrite step_effect in E1.
    destruct (effect_of p) as [| | | | |i' x] eqn:Ef; cbn in E1; try discriminate; injection E1 as <-; auto. cbn.
    apply effect_attr in Ef. destruct Ef as (a' & A' & Fp & _). apply set_nth_other. intros ->. apply N. left. congruence.
  Qed.

  Lemma field_last l f j m (b b' n : object) i a : fold_left step (l ++ (f, j) :: m) (Some b) = Some b' ->
    nth_error (t_attrs t) i = Some a -> attribute_name a = f -> ~ In f (map fst m) -> complete t b -> complete t n ->
    exists n', step (Some n) (f, j) = Some n' /\ nth_error (o_fields b') i = nth_error (o_fields n') i.
  Proof.
    intros E A Ef N Cb Cn. rewrite fold_left_app in E. cbn [fold_left] in E.
    destruct (fold_left step l (Some b)) as [b1|] eqn:E1; [|change (step None (f, j)) with (@None object) in E; rewrite fold_none in E; [discriminate|reflexivity]].
    destruct (step (Some b1) (f, j)) as [b2|] eqn:E2; [|now rewrite fold_none in E].
    rewrite (field_kept _ _ _ _ _ E A) by (now rewrite Ef).
    destruct (step (Some n) (f, j)) as [n'|] eqn:E3; [|apply (step_fails n b1) in E3; congruence].
    exists n'. split; auto. subst f. rewrite step_effect, (effect_of_attr _ _ _ A) in E2, E3.
    destruct (dec (a_type a) (a_link a) j) as [x|]; [|discriminate]. cbn in E2, E3. injection E2 as <-. injection E3 as <-. cbn.
    assert (L : i < length (t_attrs t)) by (apply nth_error_Some; congruence).
    assert (C1 : length (o_fields b1) = length (t_attrs t)).
    { revert E1 Cb. clear. revert b. induction l as [|p l IH]; intros b E C; cbn [fold_left] in E; [injection E as <-; exact C|].
      destruct (step (Some b) p) as [b'|] eqn:Q; [|now rewrite fold_none in E]. apply (IH _ E).
      rewrite step_effect in Q. destruct (effect_of p); cbn in Q; try discriminate; injection Q as <-; auto. unfold complete in *. cbn. now rewrite set_nth_length. }
    rewrite !set_nth_same; auto; [now rewrite Cn|lia].
  Qed.
End Members.

Section Documents.
  Context (o : oracle) (v : version) (t : typ).

  Lemma clean_members ms : clean (JObj ms) -> all1 (legible_member v t) ms.
  Proof.
    cbn. induction ms as [|p ms IH]; cbn; auto. intros [[C1 C2] C3]. split; auto. split; auto.
    destruct (find_tag (fst p) 0 (t_attrs t)) as [[i a]|]; auto. now apply clean_legible.
  Qed.

  Lemma document_read ms : clean (JObj ms) ->
    unmarshal_object o v t (tokens (JObj ms)) = of_option (fold_left (object_step (decode o v) t) ms (Some (new_builder v t))) [].
  Proof. intros C. rewrite <- (app_nil_r (tokens _)). apply object_decoded. now apply clean_members. Qed.

  Lemma unknown_ignored l f x m : f <> "" -> ~ In f (member_names t) -> clean (JObj (l ++ m)) ->
    unmarshal_object o v t (tokens (JObj (l ++ (f, x) :: m))) = unmarshal_object o v t (tokens (JObj (l ++ m))).
  Proof.
    intros Ne N C. rewrite (document_read _ C). rewrite <- (app_nil_r (tokens _)), object_decoded.
    - rewrite !fold_left_app. cbn [fold_left]. now rewrite unknown_step.
    - apply clean_members in C. apply all1_app in C. destruct C as [C1 C2]. apply all1_app. split; auto. cbn [all1]. split; auto.
      split; auto. cbn [fst]. pose proof (find_tag_spec f (t_attrs t) 0) as Q. destruct (find_tag f 0 (t_attrs t)) as [[i a]|]; auto.
      destruct Q as (j & _ & E & F). exfalso. apply N. unfold member_names. apply in_app_iff. right. rewrite <- F. apply in_map. now apply nth_error_In in E.
  Qed.

  Lemma order_irrelevant l m : Permutation l m -> NoDup (map fst l) -> clean (JObj l) ->
    unmarshal_object o v t (tokens (JObj l)) = unmarshal_object o v t (tokens (JObj m)).
  Proof.
    intros P N C. assert (C' : clean (JObj m)).
    { cbn in *. apply all1_forall. apply all1_forall in C. eapply Permutation_Forall; eauto. }
    rewrite !document_read by auto. now rewrite (fold_permuted _ _ _ _ P N).
  Qed.

  Lemma document_presence l (r : object) rest : fits t -> tagged t -> structural t -> clean (JObj l) ->
    unmarshal_object o v t (tokens (JObj l)) = Ok r rest ->
    rest = [] /\
    (forall i a, nth_error (t_attrs t) i = Some a -> (present t i r <-> In (attribute_name a) (map fst l))) /\
    (t_kind t = ClassType ->
      (has_id r <-> In "id" (map fst l)) /\ (has_href r <-> In "href" (map fst l)) /\
      (is_link r <-> In ("kind", JStr (object_name t ++ "Link")) l)).
  Proof.
    intros F Tg K C E. rewrite (document_read _ C) in E.
    destruct (fold_left _ _ _) as [b|] eqn:Fo in E; [|discriminate]. cbn in E. injection E as -> <-. split; auto.
    assert (Z : forall n, ~ marked n (new_builder v t)).
    { intros n. unfold marked, new_builder. cbn [o_bits]. rewrite N.bits_0. discriminate. }
    assert (M : forall n, marked n r <-> exists p, In p l /\ slot (decode o v) t p = Some n).
    { intros n. rewrite (fold_bits (decode o v) t F l _ _ Fo n). specialize (Z n). tauto. }
    assert (Nf : forall p, In p l -> effect_of (decode o v) t p <> Fails) by (intros p; now apply (fold_none_fails _ _ _ _ _ _ Fo)).
    split.
    - intros i a A. unfold present. rewrite M. split.
      + intros (p & H & S). apply (slot_attr _ _ Tg) with (a := a) in S; auto. rewrite <- S. now apply in_map.
      + intros H. apply in_map_iff in H. destruct H as (p & E & H). exists p. split; auto. apply (slot_attr _ _ Tg) with (a := a); auto.
    - intros Kc. assert (R := fun p H => slot_reserved (decode o v) t p Kc (Nf p H)). unfold has_id, has_href, is_link. rewrite !M.
      split; [|split]; split; try intros (p & H & S).
      + apply R in S; auto. rewrite <- S. now apply in_map.
      + intros H. apply in_map_iff in H. destruct H as (p & E & H). exists p. split; auto. now apply R.
      + apply R in S; auto. rewrite <- S. now apply in_map.
      + intros H. apply in_map_iff in H. destruct H as (p & E & H). exists p. split; auto. now apply R.
      + apply R in S; auto. now rewrite <- S.
      + intros H. eexists. split; [exact H|]. now apply R.
  Qed.

  (** A document with one member. *)
  Definition single (p : string * json) : list token := tokens (JObj [p]).

  Lemma single_read p : clean (JObj [p]) ->
    unmarshal_object o v t (single p) = of_option (object_step (decode o v) t (Some (new_builder v t)) p) [].
  Proof. intros C. unfold single. rewrite document_read by auto. reflexivity. Qed.

  Lemma members_independent l : clean (JObj l) ->
    (unmarshal_object o v t (tokens (JObj l)) = Failed <-> exists p, In p l /\ unmarshal_object o v t (tokens (JObj [p])) = Failed).
  Proof.
    intros C. rewrite (document_read _ C). assert (Cp : forall p, In p l -> clean (JObj [p])).
    { intros p H. cbn in C |- *. split; auto. now apply (all1_In _ _ _ C). }
    assert (Q : of_option (fold_left (object_step (decode o v) t) l (Some (new_builder v t))) [] = Failed <->
      fold_left (object_step (decode o v) t) l (Some (new_builder v t)) = None).
    { destruct (fold_left _ _ _); cbn; split; congruence. }
    rewrite Q, (fold_fails _ _ _ _ (new_builder v t)), Exists_exists. split.
    - intros (p & H & E). exists p. split; auto. rewrite document_read by auto. cbn [fold_left]. now rewrite E.
    - intros (p & H & E). exists p. split; auto. rewrite document_read in E by auto. cbn [fold_left] in E.
      now destruct (object_step _ _ _ _).
  Qed.

  Lemma last_member l j m (r : object) rest i a : fits t -> tagged t -> clean (JObj (l ++ (attribute_name a, j) :: m)) ->
    nth_error (t_attrs t) i = Some a -> ~ In (attribute_name a) (map fst m) ->
    unmarshal_object o v t (tokens (JObj (l ++ (attribute_name a, j) :: m))) = Ok r rest ->
    exists r', unmarshal_object o v t (tokens (JObj [(attribute_name a, j)])) = Ok r' [] /\
      nth_error (o_fields r) i = nth_error (o_fields r') i.
  Proof.
    intros F Tg C A N E. rewrite (document_read _ C) in E.
    destruct (fold_left _ _ _) as [b|] eqn:Fo in E; [|discriminate]. cbn in E. injection E as -> <-.
    destruct (field_last _ t Tg _ _ _ _ _ _ (new_builder v t) i a Fo A eq_refl N (new_complete v t) (new_complete v t)) as (n' & E1 & E2).
    exists n'. split; auto. rewrite document_read.
    - cbn [fold_left]. now rewrite E1.
    - cbn in C |- *. apply all1_app in C. destruct C as [_ [C _]]. auto.
  Qed.
End Documents.
