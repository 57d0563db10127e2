(** Proofs about the import of the types of other versions: the import is a sequence of events. *)
From Coq Require Import Ascii String Bool Arith Lia List.
From Verif Require Import GoStrings GoMap GoMapProofs NamesModel ConceptsModel RefModel RefSpec.
Import ListNotations.
Local Open Scope string_scope.

Lemma is_basic_builtin sh r : is_basic sh r = true <-> builtin sh r.
Proof.
  unfold is_basic, builtin. destruct (rt_kind (sh r)); split; intro H; try discriminate; auto;
    destruct H as [H | H]; discriminate.
Qed.

Lemma is_container_iff sh r : is_container sh r = true <-> container sh r.
Proof.
  unfold is_container, container. destruct (rt_kind (sh r)); split; intro H; try discriminate; auto;
    destruct H as [H | H]; discriminate.
Qed.

Lemma is_basic_false sh r : is_basic sh r = false <-> ~ builtin sh r.
Proof. rewrite <- is_basic_builtin. destruct (is_basic sh r); intuition congruence. Qed.

Lemma is_container_false sh r : is_container sh r = false <-> ~ container sh r.
Proof. rewrite <- is_container_iff. destruct (is_container sh r); intuition congruence. Qed.

Lemma explicit_here_iff st k : explicit_here st k = true <-> declares st k.
Proof.
  unfold explicit_here, declares. destruct (mget k (rs_table st)) as [r|]; split.
  - intro H. now exists r.
  - intros (r' & E & H). congruence.
  - discriminate.
  - intros (r' & E & _). discriminate.
Qed.

Lemma explicit_here_false st k : explicit_here st k = false <-> ~ declares st k.
Proof. rewrite <- explicit_here_iff. destruct (explicit_here st k); intuition congruence. Qed.

(** The three things that happen during an import. *)
Inductive event := ELink (r : ref) (i : nat) (t : ref) | EAdd (t : ref) | ESelf (r : ref).

Definition do_event (sh : shape) (here : vref) (ev : event) (st : rstate) : outcome :=
  match ev with
  | ELink r i t => import_link sh here r i t st
  | EAdd t => Finished (add_to_version sh here t st)
  | ESelf r => Finished (import_itself sh here r st)
  end.

Inductive runs (sh : shape) (here : vref) : rstate -> list event -> rstate -> Prop :=
| runs_nil st : runs sh here st [] st
| runs_cons ev evs st st1 st' :
    do_event sh here ev st = Finished st1 -> runs sh here st1 evs st' -> runs sh here st (ev :: evs) st'.

Lemma runs_app sh here evs1 : forall evs2 st st1 st2,
  runs sh here st evs1 st1 -> runs sh here st1 evs2 st2 -> runs sh here st (evs1 ++ evs2)%list st2.
Proof.
  induction evs1 as [|ev evs1 IH]; intros evs2 st st1 st2 H1 H2; inversion H1; subst; simpl; auto.
  econstructor; eauto.
Qed.

(** The events of the import of a type. *)
Definition event_of (sh : shape) (root : ref) (ev : event) : Prop :=
  match ev with
  | ELink r i t => part_of sh root r /\ ~ builtin sh r /\ link_attribute sh r i t
  | EAdd t => exists r, part_of sh root r /\ ~ builtin sh r /\ plain_attribute sh r t /\ container sh t
  | ESelf r => part_of sh root r /\ ~ builtin sh r
  end.

Lemma part_trans sh a b c : part_of sh a b -> part_of sh b c -> part_of sh a c.
Proof. intros H1 H2. induction H2; auto. econstructor; eauto. Qed.

Lemma part_first sh a c : part_of sh a c -> c = a \/ exists b, contains sh a b /\ part_of sh b c.
Proof.
  induction 1 as [|r c H IH Hc]; auto.
  right. destruct IH as [-> | (b & Hb & Hp)].
  - exists c. split; auto. constructor.
  - exists b. split; auto. econstructor; eauto.
Qed.

Lemma part_builtin sh a c : builtin sh a -> part_of sh a c -> c = a.
Proof.
  intros Hb H. destruct (part_first _ _ _ H) as [E | (b & (N & _) & _)]; auto; contradiction.
Qed.

(** The events of one attribute. *)
Definition event_at (sh : shape) (r : ref) (i : nat) (a : rattribute) (ev : event) : Prop :=
  if ra_link a then ev = ELink r i (ra_type a)
  else if is_container sh (ra_type a)
       then ev = EAdd (ra_type a) \/ exists e, rt_element (sh (ra_type a)) = Some e /\ event_of sh e ev
       else event_of sh (ra_type a) ev.

Lemma attributes_events sh here rec r :
  (forall c st st', rec c st = Finished st' ->
     exists evs, runs sh here st evs st' /\ forall ev, In ev evs <-> event_of sh c ev) ->
  forall l i st st', import_attributes sh here rec r i l st = Finished st' ->
  exists evs, runs sh here st evs st' /\
    forall ev, In ev evs <-> exists j a, nth_error l j = Some a /\ event_at sh r (i + j) a ev.
Proof.
  intros Hrec l. induction l as [|a l IH]; intros i st st' H; cbn [import_attributes] in H.
  - inversion H; subst. exists []. split; [constructor|]. intro ev; split; [intros []|].
    intros (j & a & E & _). destruct j; discriminate.
  - cbv zeta in H.
    assert (Hone : exists st1 evs1,
      runs sh here st evs1 st1 /\ (forall ev, In ev evs1 <-> event_at sh r i a ev) /\
      import_attributes sh here rec r (S i) l st1 = Finished st').
    { unfold event_at. destruct (ra_link a) eqn:EL.
      - destruct (import_link sh here r i (ra_type a) st) as [st1| |] eqn:E1; try discriminate.
        exists st1, [ELink r i (ra_type a)]. split; [|split; auto].
        + econstructor; [exact E1|constructor].
        + intro ev. simpl. intuition.
      - destruct (is_container sh (ra_type a)) eqn:EC.
        + destruct (rt_element (sh (ra_type a))) as [e|] eqn:EE; try discriminate.
          destruct (rec e (add_to_version sh here (ra_type a) st)) as [st1| |] eqn:E1; try discriminate.
          destruct (Hrec _ _ _ E1) as (evs & Hr & Hin).
          exists st1, (EAdd (ra_type a) :: evs). split; [|split; auto].
          * econstructor; [reflexivity|exact Hr].
          * intro ev. simpl. rewrite Hin. split.
            -- intros [E | E]; [left; auto|right; exists e; auto].
            -- intros [E | (e' & E & H')]; [left; auto|right; congruence].
        + destruct (rec (ra_type a) st) as [st1| |] eqn:E1; try discriminate.
          destruct (Hrec _ _ _ E1) as (evs & Hr & Hin). exists st1, evs. auto. }
    destruct Hone as (st1 & evs1 & R1 & I1 & H1).
    destruct (IH _ _ _ H1) as (evs2 & R2 & I2).
    exists (evs1 ++ evs2)%list. split; [eapply runs_app; eauto|].
    intro ev. rewrite in_app_iff, I1, I2. split.
    + intros [E | (j & b & Ej & E)].
      * exists 0, a. rewrite Nat.add_0_r. auto.
      * exists (S j), b. replace (i + S j) with (S i + j) by lia. auto.
    + intros (j & b & Ej & E). destruct j as [|j].
      * left. simpl in Ej. rewrite Nat.add_0_r in E. congruence.
      * right. exists j, b. replace (S i + j) with (i + S j) by lia. auto.
Qed.

Lemma event_of_step sh r ev : ~ builtin sh r ->
  (event_of sh r ev <->
   (exists j a, nth_error (rt_attributes (sh r)) j = Some a /\ event_at sh r j a ev) \/ ev = ESelf r).
Proof.
  intro NB. split.
  - intro H.
    assert (Hsub : forall c, contains sh r c -> event_of sh c ev ->
      exists j a, nth_error (rt_attributes (sh r)) j = Some a /\ event_at sh r j a ev).
    { intros c (_ & t & (j & Ej) & Ht) Hc. exists j, (MkRattribute t false). split; auto.
      unfold event_at. cbn [ra_link ra_type].
      destruct Ht as [(Hct & He) | (Hct & ->)].
      - apply is_container_iff in Hct. rewrite Hct. right. exists c. auto.
      - apply is_container_false in Hct. rewrite Hct. auto. }
    destruct ev as [x i t | t | x]; cbn [event_of] in *.
    + destruct H as (Hp & Hb & Hl). destruct (part_first _ _ _ Hp) as [-> | (b & Hb1 & Hp1)].
      * left. exists i, (MkRattribute t true). split; auto. unfold event_at. reflexivity.
      * left. apply (Hsub b); auto.
    + destruct H as (x & Hp & Hb & Hpl & Hc). destruct (part_first _ _ _ Hp) as [-> | (b & Hb1 & Hp1)].
      * left. destruct Hpl as (j & Ej). exists j, (MkRattribute t false). split; auto.
        unfold event_at. cbn [ra_link ra_type]. apply is_container_iff in Hc. rewrite Hc. auto.
      * left. apply (Hsub b); auto. exists x. auto.
    + destruct H as (Hp & Hb). destruct (part_first _ _ _ Hp) as [-> | (b & Hb1 & Hp1)]; auto.
      left. apply (Hsub b); auto.
  - intros [(j & a & Ej & H) | ->].
    + unfold event_at in H. destruct a as [t l]; cbn [ra_link ra_type] in H. destruct l.
      * subst ev. cbn [event_of]. split; [constructor|]. auto.
      * assert (Hlift : forall c, contains sh r c -> event_of sh c ev -> event_of sh r ev).
        { intros c Hc He. destruct ev as [x i u | u | x]; cbn [event_of] in *.
          - destruct He as (Hp & H'). split; auto. eapply part_trans; [|exact Hp].
            econstructor; [constructor|exact Hc].
          - destruct He as (x & Hp & H'). exists x. split; auto. eapply part_trans; [|exact Hp].
            econstructor; [constructor|exact Hc].
          - destruct He as (Hp & H'). split; auto. eapply part_trans; [|exact Hp].
            econstructor; [constructor|exact Hc]. }
        destruct (is_container sh t) eqn:EC.
        -- apply is_container_iff in EC. destruct H as [-> | (e & Ee & He)].
           ++ cbn [event_of]. exists r. split; [constructor|]. repeat split; auto. now exists j.
           ++ apply (Hlift e); auto. split; auto. exists t. split; [now exists j|]. left; auto.
        -- apply is_container_false in EC. apply (Hlift t); auto. split; auto. exists t.
           split; [now exists j|]. right; auto.
    + cbn [event_of]. split; [constructor|auto].
Qed.

Lemma import_events sh here : forall fuel r st st', import fuel sh here r st = Finished st' ->
  exists evs, runs sh here st evs st' /\ forall ev, In ev evs <-> event_of sh r ev.
Proof.
  induction fuel as [|f IH]; intros r st st' H; cbn [import] in H; [discriminate|].
  destruct (is_basic sh r) eqn:EB.
  - inversion H; subst. exists []. split; [constructor|]. intro ev. split; [intros []|].
    apply is_basic_builtin in EB. intro He. exfalso.
    destruct ev as [x i t | t | x]; cbn [event_of] in He.
    + destruct He as (Hp & Hb & _). apply Hb. rewrite (part_builtin _ _ _ EB Hp). exact EB.
    + destruct He as (x & Hp & Hb & _). apply Hb. rewrite (part_builtin _ _ _ EB Hp). exact EB.
    + destruct He as (Hp & Hb). apply Hb. rewrite (part_builtin _ _ _ EB Hp). exact EB.
  - destruct (import_attributes sh here (import f sh here) r 0 (rt_attributes (sh r)) st)
      as [st1| |] eqn:E1; try discriminate.
    inversion H; subst st'.
    destruct (attributes_events _ _ _ _ (fun c a b => IH c a b) _ _ _ _ E1) as (evs & R & I).
    exists (evs ++ [ESelf r])%list. split.
    + eapply runs_app; [exact R|]. econstructor; [reflexivity|constructor].
    + intro ev. apply is_basic_false in EB. rewrite (event_of_step _ _ _ EB), in_app_iff, I.
      simpl. intuition.
Qed.

(** Which types are added to the table. *)
Definition adds (ev : event) (t : ref) : Prop := ev = EAdd t \/ ev = ESelf t.

Lemma needed_events sh root t :
  needed sh root t <-> exists ev, event_of sh root ev /\ adds ev t.
Proof.
  unfold needed, adds. split.
  - intros [H | H].
    + exists (ESelf t). auto.
    + exists (EAdd t). auto.
  - intros (ev & He & [-> | ->]); cbn [event_of] in He; auto.
Qed.

(** *** The table *)

Lemma link_table sh here r i t st st' :
  import_link sh here r i t st = Finished st' ->
  rs_table st' = rs_table st /\ rs_explicit st' = rs_explicit st.
Proof.
  unfold import_link. intro H.
  repeat match type of H with
         | context [if ?b then _ else _] => destruct b
         | context [match ?b with _ => _ end] => destruct b
         end; inversion H; subst; auto.
Qed.

Lemma event_table sh here ev st st' k : do_event sh here ev st = Finished st' ->
  mget k (rs_table st') = mget k (rs_table st) /\ (forall t, adds ev t -> rt_name (sh t) <> k) \/
  exists t, adds ev t /\ rt_name (sh t) = k /\ mget k (rs_table st') = Some t.
Proof.
  assert (Hadd : forall t s, mget k (rs_table (add_to_version sh here t s)) =
    if String.eqb k (rt_name (sh t)) then Some t else mget k (rs_table s)).
  { intros t s. unfold add_to_version, set_owner. cbn [rs_table]. apply mget_mset. }
  destruct ev as [r i t | t | r]; cbn [do_event]; intro H.
  - left. destruct (link_table _ _ _ _ _ _ _ H) as (-> & _). split; auto.
    intros x [E | E]; discriminate.
  - inversion H; subst. rewrite Hadd. destruct (String.eqb_spec k (rt_name (sh t))) as [->|N].
    + right. exists t. unfold adds. auto.
    + left. split; auto. intros x [E | E]; inversion E; subst; auto.
  - inversion H; subst. unfold import_itself. rewrite Hadd.
    destruct (String.eqb_spec k (rt_name (sh r))) as [->|N].
    + right. exists r. unfold adds. auto.
    + left. split; [|intros x [E | E]; inversion E; subst; auto].
      destruct (explicit_here st (rt_name (sh r))); reflexivity.
Qed.

Lemma runs_table sh here k : forall st evs st', runs sh here st evs st' ->
  mget k (rs_table st') = mget k (rs_table st) /\
    (forall ev t, In ev evs -> adds ev t -> rt_name (sh t) <> k) \/
  exists ev t, In ev evs /\ adds ev t /\ rt_name (sh t) = k /\ mget k (rs_table st') = Some t.
Proof.
  intros st evs st' H. induction H as [st | ev evs st st1 st' He H IH].
  - left. split; [reflexivity|]. intros ev t [].
  - destruct IH as [(E & N) | (ev' & t & Hin & IH)].
    + destruct (event_table _ _ _ _ _ k He) as [(E1 & N1) | (t & A & E1 & M)].
      * left. split; [congruence|]. intros ev' t [<- | Hin] A; eauto.
      * right. exists ev, t. split; [now left|]. rewrite E. auto.
    + right. exists ev', t. split; [now right|]. exact IH.
Qed.

(** *** The owners *)

(** The types whose owner an event can change. *)
Definition owns (sh : shape) (st : rstate) (ev : event) (t : ref) : Prop :=
  adds ev t \/
  exists r i u, ev = ELink r i u /\
    ((u = t /\ declared sh st u) \/
     (container sh u /\ rt_element (sh u) = Some t /\ declares st (rt_name (sh t)))).

Lemma event_owner sh here ev st st' t : do_event sh here ev st = Finished st' ->
  (rs_owner st' t = rs_owner st t /\ ~ adds ev t) \/ (rs_owner st' t = Some here /\ owns sh st ev t).
Proof.
  assert (Hset : forall x v s, rs_owner (set_owner x v s) t = if Nat.eqb t x then v else rs_owner s t)
    by reflexivity.
  destruct ev as [r i u | u | r]; cbn [do_event]; intro H.
  - assert (NA : ~ adds (ELink r i u) t) by (intros [E | E]; discriminate).
    unfold import_link in H.
    destruct (explicit_here st (rt_name (sh u))) eqn:E1.
    + inversion H; subst st'. rewrite Hset. destruct (Nat.eqb_spec t u) as [->|N]; auto.
      right. split; auto. right. exists r, i, u. split; auto. left. split; auto. left.
      now apply explicit_here_iff.
    + destruct (is_container sh u) eqn:EC.
      * apply is_container_iff in EC.
        destruct (rt_element (sh u)) as [e|] eqn:EE; try discriminate.
        destruct (explicit_here st (rt_name (sh e))) eqn:E2.
        -- inversion H; subst st'. apply explicit_here_iff in E2. rewrite !Hset.
           destruct (Nat.eqb_spec t e) as [->|N].
           ++ right. split; auto. right. exists r, i, u. split; auto.
           ++ destruct (Nat.eqb_spec t u) as [->|N2]; auto.
              right. split; auto. right. exists r, i, u. split; auto. left. split; auto. right.
              split; auto. exists e. auto.
        -- inversion H; subst st'. auto.
      * inversion H; subst st'. auto.
  - inversion H; subst st'. unfold add_to_version. rewrite Hset.
    destruct (Nat.eqb_spec t u) as [->|N].
    + right. split; auto. left. now left.
    + left. split; [reflexivity|]. intros [E | E]; inversion E; subst; auto.
  - inversion H; subst st'. unfold import_itself, add_to_version. rewrite Hset.
    destruct (Nat.eqb_spec t r) as [->|N].
    + right. split; auto. left. now right.
    + left. split.
      * cbn [rs_owner]. destruct (explicit_here st (rt_name (sh r))); reflexivity.
      * intros [E | E]; inversion E; subst; auto.
Qed.

Lemma runs_owner_kept sh here t : forall st evs st', runs sh here st evs st' ->
  rs_owner st t = Some here -> rs_owner st' t = Some here.
Proof.
  intros st evs st' H. induction H as [st | ev evs st st1 st' He H IH]; auto.
  intro E. apply IH. destruct (event_owner _ _ _ _ _ t He) as [(E1 & _) | (E1 & _)]; congruence.
Qed.

Lemma runs_owner_added sh here t : forall st evs st', runs sh here st evs st' ->
  (exists ev, In ev evs /\ adds ev t) -> rs_owner st' t = Some here.
Proof.
  intros st evs st' H. induction H as [st | ev evs st st1 st' He H IH]; intros (x & Hin & A).
  - destruct Hin.
  - destruct Hin as [-> | Hin].
    + eapply runs_owner_kept; [exact H|].
      destruct (event_owner _ _ _ _ _ t He) as [(_ & N) | (E1 & _)]; [contradiction|exact E1].
    + apply IH. eauto.
Qed.

(** *** The link owners *)

Lemma event_link_owner sh here ev st st' r i : do_event sh here ev st = Finished st' ->
  rs_link_owner st' r i = rs_link_owner st r i /\
    (forall t, ev = ELink r i t -> declared sh st t /\ rs_owner st' t = Some here) \/
  exists t, ev = ELink r i t /\ ~ declared sh st t /\ rs_link_owner st' r i = rs_owner st t.
Proof.
  destruct ev as [x j u | u | x]; cbn [do_event]; intro H.
  - unfold import_link in H.
    destruct (explicit_here st (rt_name (sh u))) eqn:E1.
    + inversion H; subst st'. left. split; [reflexivity|]. intros t E; inversion E; subst. split.
      * left. now apply explicit_here_iff.
      * cbn [rs_owner set_owner]. now rewrite Nat.eqb_refl.
    + apply explicit_here_false in E1. destruct (is_container sh u) eqn:EC.
      * apply is_container_iff in EC.
        destruct (rt_element (sh u)) as [e|] eqn:EE; try discriminate.
        destruct (explicit_here st (rt_name (sh e))) eqn:E2.
        -- inversion H; subst st'. left. split; [reflexivity|]. intros t E; inversion E; subst. split.
           ++ right. split; auto. exists e. split; auto. now apply explicit_here_iff.
           ++ cbn [rs_owner set_owner]. rewrite Nat.eqb_refl. now destruct (Nat.eqb t e).
        -- apply explicit_here_false in E2. inversion H; subst st'. cbn [rs_link_owner set_link_owner].
           destruct (Nat.eqb_spec r x) as [->|N]; [destruct (Nat.eqb_spec i j) as [->|N]|]; simpl.
           ++ right. exists u. repeat split; auto. intros [D | (_ & e' & Ee & D)]; auto.
              apply E2. congruence.
           ++ left. split; auto. intros t E; inversion E; congruence.
           ++ left. split; auto. intros t E; inversion E; congruence.
      * apply is_container_false in EC. inversion H; subst st'. cbn [rs_link_owner set_link_owner].
        destruct (Nat.eqb_spec r x) as [->|N]; [destruct (Nat.eqb_spec i j) as [->|N]|]; simpl.
        -- right. exists u. repeat split; auto. intros [D | (C & _)]; auto.
        -- left. split; auto. intros t E; inversion E; congruence.
        -- left. split; auto. intros t E; inversion E; congruence.
  - inversion H; subst. left. split; [reflexivity|]. discriminate.
  - inversion H; subst. left. split; [|discriminate]. unfold import_itself.
    destruct (explicit_here st (rt_name (sh x))); reflexivity.
Qed.

(** *** The explicitly declared types *)

Definition same_declared (sh : shape) (root : ref) (st0 st : rstate) : Prop :=
  keyed sh st /\ (forall k, explicit_here st k = explicit_here st0 k) /\
  (forall t, needed sh root t -> rs_explicit st t = true -> explicit_here st0 (rt_name (sh t)) = true).

Lemma keyed_add sh here r st : keyed sh st -> keyed sh (add_to_version sh here r st).
Proof.
  intros K k x. unfold add_to_version, set_owner. cbn [rs_table]. rewrite mget_mset.
  destruct (String.eqb_spec k (rt_name (sh r))) as [->|N]; [congruence|apply K].
Qed.

Lemma keyed_event sh here ev st st' : do_event sh here ev st = Finished st' -> keyed sh st -> keyed sh st'.
Proof.
  destruct ev as [x j u | u | x]; cbn [do_event]; intros H K.
  - destruct (link_table _ _ _ _ _ _ _ H) as (E & _). intros k r. rewrite E. apply K.
  - inversion H; subst. now apply keyed_add.
  - inversion H; subst. unfold import_itself. apply keyed_add.
    destruct (explicit_here st (rt_name (sh x))); exact K.
Qed.

Lemma explicit_add sh here r st k : explicit_here (add_to_version sh here r st) k =
  if String.eqb k (rt_name (sh r)) then rs_explicit st r else explicit_here st k.
Proof.
  unfold explicit_here, add_to_version, set_owner. cbn [rs_table rs_explicit]. rewrite mget_mset.
  now destruct (String.eqb k (rt_name (sh r))).
Qed.

Lemma event_declared sh here root st0 ev st st' :
  fresh sh root st0 -> event_of sh root ev ->
  do_event sh here ev st = Finished st' ->
  same_declared sh root st0 st -> same_declared sh root st0 st'.
Proof.
  intros (F1 & F2) He H (K & E & X). split; [eapply keyed_event; eauto|].
  destruct ev as [x j u | u | x]; cbn [do_event] in H.
  - destruct (link_table _ _ _ _ _ _ _ H) as (T & Ex). split.
    + intro k. unfold explicit_here. rewrite T, Ex. apply E.
    + intros t Hn. rewrite Ex. now apply X.
  - inversion H; subst st'. clear H.
    assert (Hn : needed sh root u) by (apply needed_events; exists (EAdd u); unfold adds; auto).
    assert (Hc : container sh u) by (destruct He as (? & _ & _ & _ & Hc); exact Hc).
    split; [|exact X]. intro k. rewrite explicit_add. destruct (String.eqb_spec k (rt_name (sh u))) as [->|N]; auto.
    specialize (F2 u Hn Hc). apply explicit_here_false in F2. rewrite F2.
    destruct (rs_explicit st u) eqn:EX; auto. specialize (X u Hn EX). congruence.
  - inversion H; subst st'. clear H.
    assert (Hn : needed sh root x) by (apply needed_events; exists (ESelf x); unfold adds; auto).
    unfold import_itself. destruct (explicit_here st (rt_name (sh x))) eqn:EX.
    + split.
      * intro k. rewrite explicit_add. cbn [rs_explicit set_explicit]. rewrite Nat.eqb_refl.
        destruct (String.eqb_spec k (rt_name (sh x))) as [->|N]; [rewrite <- E; auto|].
        rewrite <- E. unfold explicit_here. cbn [rs_table rs_explicit set_explicit].
        destruct (mget k (rs_table st)) as [y|] eqn:M; auto.
        destruct (Nat.eqb_spec y x) as [->|N2]; auto. apply K in M. congruence.
      * intros t Ht. cbn [rs_explicit add_to_version set_owner set_explicit].
        destruct (Nat.eqb_spec t x) as [->|N]; [intros _; rewrite <- E; exact EX|now apply X].
    + split.
      * intro k. rewrite explicit_add. destruct (String.eqb_spec k (rt_name (sh x))) as [->|N]; auto.
        rewrite <- E, EX. destruct (rs_explicit st x) eqn:EY; auto.
        specialize (X x Hn EY). rewrite <- E, EX in X. discriminate.
      * intros t Ht. apply X. exact Ht.
Qed.

Lemma same_declared_refl sh root st : keyed sh st -> fresh sh root st -> same_declared sh root st st.
Proof.
  intros K (F1 & _). split; auto. split; auto. intros t Hn E. rewrite (F1 t Hn) in E. discriminate.
Qed.

Lemma same_declares sh root st0 st k : same_declared sh root st0 st -> (declares st k <-> declares st0 k).
Proof. intros (_ & E & _). rewrite <- !explicit_here_iff, E. tauto. Qed.

Lemma same_declared_iff sh root st0 st t :
  same_declared sh root st0 st -> (declared sh st t <-> declared sh st0 t).
Proof.
  intro H. unfold declared. rewrite (same_declares _ _ _ _ _ H).
  split; (intros [D | (C & e & Ee & D)]; [now left|right; split; auto; exists e; split; auto;
    apply (same_declares _ _ _ _ _ H); exact D]).
Qed.
