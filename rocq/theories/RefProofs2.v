(** Proofs about the import of the types of other versions: what the version has afterwards, when the
    import ends, and the annotation. *)
From Coq Require Import Ascii String Bool Arith Lia List.
From Verif Require Import GoStrings GoMap GoStringsProofs GoMapProofs NamesModel ConceptsModel.
From Verif Require Import RefModel RefSpec RefProofs.
Import ListNotations.
Local Open Scope string_scope.

Lemma import_table fuel sh here root st st' : import fuel sh here root st = Finished st' ->
  (forall t, needed sh root t ->
     exists t', needed sh root t' /\ rt_name (sh t') = rt_name (sh t) /\
       mget (rt_name (sh t)) (rs_table st') = Some t') /\
  (forall k, (forall t, needed sh root t -> rt_name (sh t) <> k) ->
     mget k (rs_table st') = mget k (rs_table st)).
Proof.
  intro H. destruct (import_events _ _ _ _ _ _ H) as (evs & R & I). split.
  - intros t Ht. destruct (runs_table _ _ (rt_name (sh t)) _ _ _ R) as [(_ & N) | (ev & t' & Hin & A & E & M)].
    + exfalso. apply needed_events in Ht. destruct Ht as (ev & He & A).
      apply (N ev t); auto. now apply I.
    + exists t'. split; auto. apply needed_events. exists ev. split; auto. now apply I.
  - intros k Hk. destruct (runs_table _ _ k _ _ _ R) as [(E & _) | (ev & t' & Hin & A & E & M)]; auto.
    exfalso. apply (Hk t'); auto. apply needed_events. exists ev. split; auto. now apply I.
Qed.

Lemma import_distinct fuel sh here root st st' : import fuel sh here root st = Finished st' ->
  distinct_names sh root ->
  forall t, needed sh root t -> mget (rt_name (sh t)) (rs_table st') = Some t.
Proof.
  intros H D t Ht. destruct (import_table _ _ _ _ _ _ H) as (T & _).
  destruct (T t Ht) as (t' & Ht' & E & M). rewrite M. f_equal. now apply D.
Qed.

Lemma import_owner fuel sh here root st st' : import fuel sh here root st = Finished st' ->
  forall t, needed sh root t -> rs_owner st' t = Some here.
Proof.
  intros H t Ht. destruct (import_events _ _ _ _ _ _ H) as (evs & R & I).
  eapply runs_owner_added; [exact R|]. apply needed_events in Ht. destruct Ht as (ev & He & A).
  exists ev. split; auto. now apply I.
Qed.

Lemma import_owner_builtin fuel sh here root st st' t : import fuel sh here root st = Finished st' ->
  rs_owner st' t = rs_owner st t \/ rs_owner st' t = Some here.
Proof.
  intro H. destruct (import_events _ _ _ _ _ _ H) as (evs & R & _). clear H.
  induction R as [st | ev evs st st1 st' He R IH]; auto.
  destruct (event_owner _ _ _ _ _ t He) as [(E1 & _) | (E1 & _)]; destruct IH as [IH | IH]; auto;
    rewrite IH; auto; rewrite E1; auto.
Qed.

Lemma import_keyed fuel sh here root st st' : import fuel sh here root st = Finished st' ->
  keyed sh st -> keyed sh st'.
Proof.
  intro H. destruct (import_events _ _ _ _ _ _ H) as (evs & R & _). clear H.
  induction R as [st | ev evs st st1 st' He R IH]; auto. intro K. apply IH.
  eapply keyed_event; eauto.
Qed.

(** *** Links *)

Lemma runs_declared sh here root st0 : fresh sh root st0 -> forall st evs st', runs sh here st evs st' ->
  (forall ev, In ev evs -> event_of sh root ev) ->
  same_declared sh root st0 st -> same_declared sh root st0 st'.
Proof.
  intros F st evs st' R. induction R as [st | ev evs st st1 st' He R IH]; intros Hin S; auto.
  apply IH; [intros; apply Hin; now right|].
  eapply event_declared; eauto. apply Hin. now left.
Qed.

Lemma runs_not_owned sh here root st0 t : fresh sh root st0 ->
  ~ needed sh root t -> ~ declared sh st0 t ->
  forall st evs st', runs sh here st evs st' -> (forall ev, In ev evs -> event_of sh root ev) ->
  same_declared sh root st0 st -> rs_owner st' t = rs_owner st t.
Proof.
  intros F NN ND st evs st' R. induction R as [st | ev evs st st1 st' He R IH]; intros Hin S; auto.
  assert (S1 : same_declared sh root st0 st1).
  { eapply event_declared; eauto. apply Hin. now left. }
  rewrite IH; auto; [|intros; apply Hin; now right].
  destruct (event_owner _ _ _ _ _ t He) as [(E1 & _) | (_ & O)]; auto. exfalso.
  destruct O as [A | (r & i & u & -> & [(-> & D) | (C & E & D)])].
  - apply NN. apply needed_events. exists ev. split; auto. apply Hin. now left.
  - apply ND. apply (same_declared_iff _ _ _ _ _ S). exact D.
  - apply ND. left. apply (same_declares _ _ _ _ _ S). exact D.
Qed.

Lemma link_type sh r i t t' : link_attribute sh r i t -> link_attribute sh r i t' -> t = t'.
Proof. unfold link_attribute. congruence. Qed.

Lemma link_declared fuel sh here root st st' r i t :
  import fuel sh here root st = Finished st' -> keyed sh st -> fresh sh root st ->
  part_of sh root r -> ~ builtin sh r -> link_attribute sh r i t -> declared sh st t ->
  rs_owner st' t = Some here /\ rs_link_owner st' r i = rs_link_owner st r i.
Proof.
  intros H K F Hp Hb Hl D. destruct (import_events _ _ _ _ _ _ H) as (evs & R & I).
  assert (Hev : In (ELink r i t) evs) by (apply I; cbn [event_of]; auto).
  assert (Hall : forall ev, In ev evs -> event_of sh root ev) by (intros; now apply I).
  pose proof (same_declared_refl _ _ _ K F) as S. clear H I.
  assert (G : forall s l s', runs sh here s l s' -> (forall ev, In ev l -> event_of sh root ev) ->
    same_declared sh root st s ->
    rs_link_owner s' r i = rs_link_owner s r i /\ (In (ELink r i t) l -> rs_owner s' t = Some here)).
  { intros s l s' R'. induction R' as [s | ev l s s1 s' He R' IH]; intros Ha Ss.
    - split; [reflexivity|intros []].
    - assert (S1 : same_declared sh root st s1).
      { apply (event_declared sh here root st ev s s1); auto. apply Ha. now left. }
      destruct IH as (IH1 & IH2); auto; [intros; apply Ha; now right|].
      destruct (event_link_owner _ _ _ _ _ r i He) as [(E & O) | (u & -> & ND & _)].
      + split; [congruence|]. intros [-> | Hin]; auto.
        eapply runs_owner_kept; [exact R'|]. now apply (O t).
      + exfalso. apply ND. apply (same_declared_iff _ _ _ _ _ Ss).
        specialize (Ha _ (or_introl eq_refl)). cbn [event_of] in Ha. destruct Ha as (_ & _ & Hl').
        now rewrite <- (link_type _ _ _ _ _ Hl Hl'). }
  destruct (G _ _ _ R Hall S) as (G1 & G2). auto.
Qed.

Lemma link_foreign fuel sh here root st st' r i t :
  import fuel sh here root st = Finished st' -> keyed sh st -> fresh sh root st ->
  part_of sh root r -> ~ builtin sh r -> link_attribute sh r i t -> ~ declared sh st t ->
  ~ needed sh root t ->
  rs_owner st' t = rs_owner st t /\ rs_link_owner st' r i = rs_owner st t.
Proof.
  intros H K F Hp Hb Hl ND NN. destruct (import_events _ _ _ _ _ _ H) as (evs & R & I).
  assert (Hev : In (ELink r i t) evs) by (apply I; cbn [event_of]; auto).
  assert (Hall : forall ev, In ev evs -> event_of sh root ev) by (intros; now apply I).
  pose proof (same_declared_refl _ _ _ K F) as S. clear H I.
  split; [eapply runs_not_owned; eauto|].
  assert (G : forall s l s', runs sh here s l s' -> (forall ev, In ev l -> event_of sh root ev) ->
    same_declared sh root st s -> rs_owner s t = rs_owner st t ->
    (rs_link_owner s r i = rs_owner st t \/ In (ELink r i t) l) -> rs_link_owner s' r i = rs_owner st t).
  { intros s l s' R'. induction R' as [s | ev l s s1 s' He R' IH]; intros Ha Ss Eo Hor.
    - destruct Hor as [E | []]. exact E.
    - assert (S1 : same_declared sh root st s1).
      { apply (event_declared sh here root st ev s s1); auto. apply Ha. now left. }
      assert (R1 : runs sh here s [ev] s1) by (econstructor; [exact He|constructor]).
      apply IH; auto; [intros; apply Ha; now right| |].
      + rewrite <- Eo. eapply (runs_not_owned sh here root st t F NN ND); eauto.
        intros ev' [<- | []]. apply Ha. now left.
      + destruct (event_link_owner _ _ _ _ _ r i He) as [(E & O) | (u & -> & _ & E)].
        * destruct Hor as [Hor | [-> | Hin]]; auto.
          -- left. congruence.
          -- exfalso. apply ND. apply (same_declared_iff _ _ _ _ _ Ss). now apply (O t).
        * left. specialize (Ha _ (or_introl eq_refl)). cbn [event_of] in Ha. destruct Ha as (_ & _ & Hl').
          rewrite <- (link_type _ _ _ _ _ Hl Hl') in E. congruence. }
  eapply G; eauto.
Qed.

(** *** Termination *)

Lemma attributes_rec sh here rec r : forall l i st st',
  import_attributes sh here rec r i l st = Finished st' ->
  forall t c, In (MkRattribute t false) l ->
    ((container sh t /\ rt_element (sh t) = Some c) \/ (~ container sh t /\ c = t)) ->
    exists s s', rec c s = Finished s'.
Proof.
  induction l as [|a l IH]; intros i st st' H t c Hin Hc; [destruct Hin|].
  cbn [import_attributes] in H. cbv zeta in H. destruct Hin as [-> | Hin].
  - cbn [ra_link ra_type] in H. destruct Hc as [(C & E) | (C & ->)].
    + apply is_container_iff in C. rewrite C, E in H.
      destruct (rec c (add_to_version sh here t st)) as [s| |] eqn:ER; try discriminate. eauto.
    + apply is_container_false in C. rewrite C in H.
      destruct (rec t st) as [s| |] eqn:ER; try discriminate. eauto.
  - match type of H with (match ?o with _ => _ end) = _ => destruct o as [s| |]; try discriminate end.
    eapply IH; eauto.
Qed.

Lemma import_finite sh here : forall fuel r st st', import fuel sh here r st = Finished st' ->
  finite_parts sh r.
Proof.
  induction fuel as [|f IH]; intros r st st' H; cbn [import] in H; [discriminate|].
  constructor. intros c (NB & t & (i & Ei) & Hc). apply is_basic_false in NB. rewrite NB in H.
  destruct (import_attributes sh here (import f sh here) r 0 (rt_attributes (sh r)) st)
    as [st1| |] eqn:E1; try discriminate.
  destruct (attributes_rec _ _ _ _ _ _ _ _ E1 t c) as (s & s' & E); auto.
  - eapply nth_error_In; eauto.
  - eapply IH; eauto.
Qed.

Lemma link_finished sh here r i t st : with_elements sh -> exists st', import_link sh here r i t st = Finished st'.
Proof.
  intro W. unfold import_link. destruct (explicit_here st (rt_name (sh t))); eauto.
  destruct (is_container sh t) eqn:EC; eauto. apply is_container_iff in EC.
  destruct (W t EC) as (e & ->). destruct (explicit_here st (rt_name (sh e))); eauto.
Qed.

Lemma attributes_finished sh here rec r : with_elements sh -> forall l i,
  (forall t c, In (MkRattribute t false) l ->
    ((container sh t /\ rt_element (sh t) = Some c) \/ (~ container sh t /\ c = t)) ->
    forall s, exists s', rec c s = Finished s') ->
  forall st, exists st', import_attributes sh here rec r i l st = Finished st'.
Proof.
  intro W. induction l as [|a l IH]; intros i Hrec st; cbn [import_attributes]; eauto. cbv zeta.
  assert (Hl : forall s, exists st', import_attributes sh here rec r (S i) l s = Finished st').
  { apply IH. intros t c Hin. apply Hrec. now right. }
  destruct a as [t lk]; cbn [ra_link ra_type]. destruct lk.
  - destruct (link_finished sh here r i t st W) as (s & ->). apply Hl.
  - destruct (is_container sh t) eqn:EC.
    + apply is_container_iff in EC. destruct (W t EC) as (e & E). rewrite E.
      destruct (Hrec t e (or_introl eq_refl) (or_introl (conj EC E)) (add_to_version sh here t st)) as (s & ->).
      apply Hl.
    + apply is_container_false in EC.
      destruct (Hrec t t (or_introl eq_refl) (or_intror (conj EC eq_refl)) st) as (s & ->). apply Hl.
Qed.

Lemma bounded (P : ref -> nat -> Prop) (l : list ref) :
  (forall c n m, P c n -> n <= m -> P c m) -> (forall c, In c l -> exists n, P c n) ->
  exists n, forall c, In c l -> P c n.
Proof.
  intros M. induction l as [|c l IH]; intro H.
  - exists 0. intros c [].
  - destruct IH as (n1 & H1); [intros; apply H; now right|].
    destruct (H c (or_introl eq_refl)) as (n2 & H2). exists (max n1 n2).
    intros d [<- | Hin]; [eapply M; [exact H2|lia]|eapply M; [apply H1; exact Hin|lia]].
Qed.

(** The type whose import an attribute needs. *)
Definition contained_in (sh : shape) (a : rattribute) : list ref :=
  if ra_link a then []
  else if is_container sh (ra_type a)
       then match rt_element (sh (ra_type a)) with Some e => [e] | None => [] end
       else [ra_type a].

Lemma contained_spec sh a c : In c (contained_in sh a) <->
  exists t, a = MkRattribute t false /\
    ((container sh t /\ rt_element (sh t) = Some c) \/ (~ container sh t /\ c = t)).
Proof.
  unfold contained_in. destruct a as [t lk]; cbn [ra_link ra_type]. destruct lk.
  - split; [intros []|]. intros (u & E & _). discriminate.
  - destruct (is_container sh t) eqn:EC.
    + apply is_container_iff in EC. destruct (rt_element (sh t)) as [e|] eqn:EE.
      * split.
        -- intros [<- | []]. exists t. auto.
        -- intros (u & E & [(_ & X) | (X & _)]); inversion E; subst u; [left; congruence|contradiction].
      * split; [intros []|]. intros (u & E & [(_ & X) | (X & _)]); inversion E; subst u; [congruence|contradiction].
    + apply is_container_false in EC. split.
      * intros [<- | []]. exists t. auto.
      * intros (u & E & [(X & _) | (_ & ->)]); inversion E; subst u; [contradiction|now left].
Qed.

Lemma finite_import sh here r : with_elements sh -> finite_parts sh r ->
  exists n, forall m, n <= m -> forall st, exists st', import m sh here r st = Finished st'.
Proof.
  intros W H. induction H as [r _ IH].
  destruct (is_basic sh r) eqn:EB.
  - exists 1. intros m Hm st. destruct m as [|m]; [lia|]. cbn [import]. rewrite EB. eauto.
  - apply is_basic_false in EB.
    destruct (bounded
      (fun c n => forall m, n <= m -> forall st, exists st', import m sh here c st = Finished st')
      (flat_map (contained_in sh) (rt_attributes (sh r)))) as (n & Hn).
    + intros c n m Hn Hm k Hk. apply Hn. lia.
    + intros c Hc. apply in_flat_map in Hc. destruct Hc as (a & Ha & Hc). apply contained_spec in Hc.
      destruct Hc as (t & -> & Ht). apply IH. split; auto. exists t. split; auto.
      apply In_nth_error in Ha. exact Ha.
    + exists (S n). intros m Hm st. destruct m as [|m]; [lia|]. cbn [import].
      apply is_basic_false in EB. rewrite EB.
      destruct (attributes_finished sh here (import m sh here) r W (rt_attributes (sh r)) 0) with (st := st)
        as (st1 & ->); eauto.
      intros t c Hin Hc. apply Hn; [|lia]. apply in_flat_map. exists (MkRattribute t false). split; auto.
      apply contained_spec. eauto.
Qed.

(** More fuel doesn't change the result. *)
Lemma attributes_mono sh here rec rec' r :
  (forall c st st', rec c st = Finished st' -> rec' c st = Finished st') ->
  forall l i st st', import_attributes sh here rec r i l st = Finished st' ->
  import_attributes sh here rec' r i l st = Finished st'.
Proof.
  intro Hr. induction l as [|a l IH]; intros i st st' H; cbn [import_attributes] in *; auto. cbv zeta in *.
  destruct (ra_link a).
  - destruct (import_link sh here r i (ra_type a) st); try discriminate. auto.
  - destruct (is_container sh (ra_type a)).
    + destruct (rt_element (sh (ra_type a))) as [e|]; try discriminate.
      destruct (rec e (add_to_version sh here (ra_type a) st)) as [s| |] eqn:E; try discriminate.
      rewrite (Hr _ _ _ E). auto.
    + destruct (rec (ra_type a) st) as [s| |] eqn:E; try discriminate. rewrite (Hr _ _ _ E). auto.
Qed.

Lemma import_mono sh here : forall n m r st st', n <= m ->
  import n sh here r st = Finished st' -> import m sh here r st = Finished st'.
Proof.
  induction n as [|n IH]; intros m r st st' Hm H; cbn [import] in H; [discriminate|].
  destruct m as [|m]; [lia|]. cbn [import]. destruct (is_basic sh r); auto.
  destruct (import_attributes sh here (import n sh here) r 0 (rt_attributes (sh r)) st) as [s| |] eqn:E;
    try discriminate.
  rewrite (attributes_mono sh here (import n sh here) (import m sh here) r) with (st' := s); auto.
  intros c a b Hc. eapply IH; [|exact Hc]. lia.
Qed.

Lemma import_terminates sh here root : with_elements sh -> finite_parts sh root ->
  exists n, forall st, exists st', forall m, n <= m -> import m sh here root st = Finished st'.
Proof.
  intros W F. destruct (finite_import sh here root W F) as (n & Hn). exists n. intro st.
  destruct (Hn n (le_n n) st) as (st' & E). exists st'. intros m Hm. eapply import_mono; eauto.
Qed.

Lemma attributes_no_crash sh here rec r : with_elements sh ->
  (forall c st, rec c st <> Crash) ->
  forall l i st, import_attributes sh here rec r i l st <> Crash.
Proof.
  intros W Hr. induction l as [|a l IH]; intros i st; cbn [import_attributes]; [discriminate|]. cbv zeta.
  destruct (ra_link a).
  - destruct (link_finished sh here r i (ra_type a) st W) as (s & ->). apply IH.
  - destruct (is_container sh (ra_type a)) eqn:EC.
    + apply is_container_iff in EC. destruct (W _ EC) as (e & ->).
      destruct (rec e (add_to_version sh here (ra_type a) st)) as [s| |] eqn:E; auto; [|discriminate].
      exfalso. exact (Hr _ _ E).
    + destruct (rec (ra_type a) st) as [s| |] eqn:E; auto; [|discriminate].
      exfalso. exact (Hr _ _ E).
Qed.

Lemma import_no_crash sh here : with_elements sh -> forall n r st, import n sh here r st <> Crash.
Proof.
  intro W. induction n as [|n IH]; intros r st; cbn [import]; [discriminate|].
  destruct (is_basic sh r); [discriminate|].
  destruct (import_attributes sh here (import n sh here) r 0 (rt_attributes (sh r)) st) as [s| |] eqn:E;
    try discriminate.
  exfalso. exact (attributes_no_crash sh here _ r W IH _ _ _ E).
Qed.

Lemma part_finite sh a c : finite_parts sh a -> part_of sh a c -> finite_parts sh c.
Proof. intros F H. induction H as [|r c H IH Hc]; auto. apply (Acc_inv IH). exact Hc. Qed.

Lemma no_cycle sh c : finite_parts sh c -> forall d, contains sh c d -> part_of sh d c -> False.
Proof.
  intro F. induction F as [c F IH]. intros d Hc Hp.
  destruct (part_first _ _ _ Hp) as [-> | (e & He & Hp')].
  - exact (IH _ Hc _ Hc Hp).
  - apply (IH _ Hc e He). eapply part_step; [exact Hp'|exact Hc].
Qed.

Lemma import_cycle sh here root c d : with_elements sh ->
  part_of sh root c -> contains sh c d -> part_of sh d c ->
  forall n st, import n sh here root st = Exhausted.
Proof.
  intros W Hp Hc Hd n st. destruct (import n sh here root st) as [s| |] eqn:E; auto; exfalso.
  - apply import_finite in E. exact (no_cycle _ _ (part_finite _ _ _ E Hp) _ Hc Hd).
  - exact (import_no_crash sh here W n root st E).
Qed.
