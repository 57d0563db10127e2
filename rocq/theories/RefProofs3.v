(** Proofs about the annotation that imports types: the paths, and the attributes that already used the
    class. *)
From Coq Require Import Ascii String Bool Arith Lia List.
From Verif Require Import GoStrings GoMap GoStringsProofs GoMapProofs NamesModel NamesProofs ConceptsModel.
From Verif Require Import RefModel RefSpec RefProofs RefProofs2.
Import ListNotations.
Local Open Scope string_scope.

(** *** The attributes that already used the class *)

Definition mentionsb (sh : shape) (typ t : ref) : bool :=
  Nat.eqb t typ ||
  (is_container sh t &&
   match rt_element (sh t) with Some e => String.eqb (rt_name (sh e)) (rt_name (sh typ)) | None => false end).

Lemma mentionsb_iff sh typ t : mentionsb sh typ t = true <-> mentions sh typ t.
Proof.
  unfold mentionsb, mentions. rewrite orb_true_iff, andb_true_iff, Nat.eqb_eq, is_container_iff.
  destruct (rt_element (sh t)) as [e|]; split.
  - intros [H | (H & E)]; auto. apply String.eqb_eq in E. right. split; auto. eauto.
  - intros [H | (H & e' & E & N)]; auto. right. split; auto. inversion E; subst. now apply String.eqb_eq.
  - intros [H | (H & E)]; auto. discriminate.
  - intros [H | (H & e' & E & N)]; auto. discriminate.
Qed.

(** What one step does. *)
Lemma remove_link_effect sh typ x i t st st' : remove_link sh typ x i t st = Finished st' ->
  rs_table st' = rs_table st /\
  (forall y j, rs_link_owner st' y j =
     if Nat.eqb y x && Nat.eqb j i && mentionsb sh typ t then None else rs_link_owner st y j) /\
  rs_owner st' typ = rs_owner st typ /\
  (forall y, rs_explicit st y = true -> rs_explicit st' y = true) /\
  (forall y, rs_owner st' y = rs_owner st y \/ rs_owner st' y = rs_owner st typ) /\
  (container sh t -> forall e, rt_element (sh t) = Some e -> rt_name (sh e) = rt_name (sh typ) ->
     rs_explicit st' t = true /\ rs_explicit st' e = true /\ rs_owner st' e = rs_owner st typ) /\
  (forall y, rs_owner st y = rs_owner st typ -> rs_owner st' y = rs_owner st typ).
Proof.
  unfold remove_link. cbv zeta. intro H.
  set (st1 := if Nat.eqb t typ then set_explicit t (set_link_owner x i None st) else st) in *.
  assert (T1 : rs_table st1 = rs_table st) by (unfold st1; destruct (Nat.eqb t typ); reflexivity).
  assert (O1 : rs_owner st1 = rs_owner st) by (unfold st1; destruct (Nat.eqb t typ); reflexivity).
  assert (E1 : forall y, rs_explicit st y = true -> rs_explicit st1 y = true).
  { intros y Hy. unfold st1. destruct (Nat.eqb t typ); auto. cbn [rs_explicit set_explicit set_link_owner].
    now destruct (Nat.eqb y t). }
  assert (L1 : forall y j, rs_link_owner st1 y j =
    if Nat.eqb y x && Nat.eqb j i && Nat.eqb t typ then None else rs_link_owner st y j).
  { intros y j. unfold st1. destruct (Nat.eqb t typ).
    - rewrite andb_true_r. reflexivity.
    - rewrite andb_false_r. reflexivity. }
  clearbody st1. unfold mentionsb.
  destruct (is_container sh t) eqn:EC.
  - destruct (rt_element (sh t)) as [e|] eqn:EE; [|discriminate].
    destruct (String.eqb_spec (rt_name (sh e)) (rt_name (sh typ))) as [EN|EN].
    + inversion H; subst st'; clear H.
      cbn [rs_table rs_owner rs_explicit rs_link_owner set_owner set_explicit set_link_owner].
      rewrite O1. split; [exact T1|]. split; [|split; [|split; [|split; [|split]]]].
      * intros y j. simpl. rewrite orb_true_r, andb_true_r, L1.
        destruct (Nat.eqb y x && Nat.eqb j i); reflexivity.
      * now destruct (Nat.eqb typ e).
      * intros y Hy. destruct (Nat.eqb y e); auto. destruct (Nat.eqb y t); auto.
      * intro y. destruct (Nat.eqb y e); auto.
      * intros _ e' E' _. inversion E'; subst e'. rewrite !Nat.eqb_refl.
        split; [|split]; auto. now destruct (Nat.eqb t e).
      * intros y Hy. destruct (Nat.eqb y e); auto.
    + inversion H; subst st'; clear H. rewrite O1. split; [exact T1|].
      split; [|split; [|split; [|split; [|split]]]]; auto.
      * intros y j. rewrite L1. simpl. now rewrite orb_false_r.
      * intros _ e' E' N'. inversion E'; subst e'. contradiction.
  - inversion H; subst st'; clear H. rewrite O1. split; [exact T1|].
    split; [|split; [|split; [|split; [|split]]]]; auto.
    * intros y j. rewrite L1. simpl. now rewrite orb_false_r.
    * intro C. apply is_container_iff in C. congruence.
Qed.

(** What a sequence of steps does. *)
Inductive removes (sh : shape) (typ : ref) : rstate -> list (ref * nat * ref) -> rstate -> Prop :=
| removes_nil st : removes sh typ st [] st
| removes_cons x i t l st st1 st' : remove_link sh typ x i t st = Finished st1 ->
    removes sh typ st1 l st' -> removes sh typ st ((x, i, t) :: l) st'.

Lemma removes_app sh typ l1 : forall l2 st st1 st2, removes sh typ st l1 st1 -> removes sh typ st1 l2 st2 ->
  removes sh typ st (l1 ++ l2)%list st2.
Proof.
  induction l1 as [|a l1 IH]; intros l2 st st1 st2 H1 H2; inversion H1; subst; simpl; auto.
  econstructor; eauto.
Qed.

Lemma remove_links_of_steps sh typ x : forall l i st st', remove_links_of sh typ x i l st = Finished st' ->
  exists evs, removes sh typ st evs st' /\
    forall y j t, In (y, j, t) evs <-> y = x /\ exists k a, j = i + k /\ nth_error l k = Some a /\ ra_type a = t.
Proof.
  induction l as [|a l IH]; intros i st st' H; cbn [remove_links_of] in H.
  - inversion H; subst. exists []. split; [constructor|]. intros y j t. split; [intros []|].
    intros (_ & k & a & _ & E & _). destruct k; discriminate.
  - destruct (remove_link sh typ x i (ra_type a) st) as [st1| |] eqn:E1; try discriminate.
    destruct (IH _ _ _ H) as (evs & R & I). exists ((x, i, ra_type a) :: evs). split; [econstructor; eauto|].
    intros y j t. simpl. rewrite I. split.
    + intros [E | (-> & k & b & -> & Ek & Et)].
      * inversion E; subst. split; auto. exists 0, a. repeat split; auto; lia.
      * split; auto. exists (S k), b. repeat split; auto; lia.
    + intros (-> & k & b & -> & Ek & Et). destruct k as [|k].
      * left. simpl in Ek. inversion Ek; subst b. rewrite Nat.add_0_r. congruence.
      * right. split; auto. exists k, b. repeat split; auto; lia.
Qed.

Lemma remove_links_steps sh typ : forall l st st', remove_links sh typ l st = Finished st' ->
  exists evs, removes sh typ st evs st' /\
    forall y j t, In (y, j, t) evs <-> In y l /\ has_attribute sh y j t.
Proof.
  induction l as [|x l IH]; intros st st' H; cbn [remove_links] in H.
  - inversion H; subst. exists []. split; [constructor|]. intros y j t. simpl. tauto.
  - destruct (remove_links_of sh typ x 0 (rt_attributes (sh x)) st) as [st1| |] eqn:E1; try discriminate.
    destruct (remove_links_of_steps _ _ _ _ _ _ _ E1) as (evs1 & R1 & I1).
    destruct (IH _ _ H) as (evs2 & R2 & I2). exists (evs1 ++ evs2)%list.
    split; [eapply removes_app; eauto|].
    intros y j t. rewrite in_app_iff, I1, I2. simpl. unfold has_attribute. split.
    + intros [(-> & k & a & -> & Ek & Et) | (Hin & Ha)]; auto. split; auto. exists a. auto.
    + intros ([<- | Hin] & a & Ea & Et); [left|right; eauto].
      split; auto. exists j, a. auto.
Qed.

Lemma has_attribute_fun sh x i t t' : has_attribute sh x i t -> has_attribute sh x i t' -> t = t'.
Proof. intros (a & E & <-) (b & E' & <-). congruence. Qed.

Lemma removes_effect sh typ st evs st' : removes sh typ st evs st' ->
  (forall y j t, In (y, j, t) evs -> has_attribute sh y j t) ->
  rs_table st' = rs_table st /\ rs_owner st' typ = rs_owner st typ /\
  (forall y, rs_explicit st y = true -> rs_explicit st' y = true) /\
  (forall y, rs_owner st' y = rs_owner st y \/ rs_owner st' y = rs_owner st typ) /\
  (forall y, rs_owner st y = rs_owner st typ -> rs_owner st' y = rs_owner st typ) /\
  (forall y j, rs_link_owner st' y j = rs_link_owner st y j \/ rs_link_owner st' y j = None) /\
  (forall y j t, has_attribute sh y j t -> ~ mentions sh typ t -> rs_link_owner st' y j = rs_link_owner st y j) /\
  (forall y j, (forall t, ~ In (y, j, t) evs) -> rs_link_owner st' y j = rs_link_owner st y j) /\
  (forall y j t, In (y, j, t) evs -> mentions sh typ t -> rs_link_owner st' y j = None) /\
  (forall y j t e, In (y, j, t) evs -> container sh t -> rt_element (sh t) = Some e ->
     rt_name (sh e) = rt_name (sh typ) ->
     rs_explicit st' t = true /\ rs_explicit st' e = true /\ rs_owner st' e = rs_owner st typ).
Proof.
  intro R. induction R as [st | x i t l st st1 st' H R IH]; intro Hall.
  - repeat split; auto; intros; exfalso; match goal with H : In _ [] |- _ => destruct H end.
  - destruct (remove_link_effect _ _ _ _ _ _ _ H) as (T & L & O & E & O2 & C & O3).
    destruct IH as (IT & IO & IE & IO2 & IO3 & IL & IM & IN & IS & IC); [intros; apply Hall; now right|].
    assert (Hthis : has_attribute sh x i t) by (apply Hall; now left).
    split; [congruence|]. split; [congruence|]. split; [auto|].
    split; [|split; [|split; [|split; [|split; [|split]]]]].
    + intro y. destruct (IO2 y) as [-> | ->]; destruct (O2 y) as [E2 | E2]; auto; right; congruence.
    + intros y Hy. rewrite <- O. apply IO3. rewrite O. auto.
    + intros y j. destruct (IL y j) as [-> | ->]; auto. rewrite L.
      destruct (Nat.eqb y x && Nat.eqb j i && mentionsb sh typ t); auto.
    + intros y j u Hu NM. rewrite (IM y j u Hu NM), L.
      destruct (Nat.eqb_spec y x) as [->|]; [destruct (Nat.eqb_spec j i) as [->|]|]; auto. simpl.
      destruct (mentionsb sh typ t) eqn:EM; auto. exfalso. apply NM.
      rewrite (has_attribute_fun _ _ _ _ _ Hu Hthis). now apply mentionsb_iff.
    + intros y j N. rewrite IN by (intros u Hin; apply (N u); now right). rewrite L.
      destruct (Nat.eqb_spec y x) as [->|]; [destruct (Nat.eqb_spec j i) as [->|]|]; auto.
      exfalso. apply (N t). now left.
    + intros y j u [Eq | Hin] M; [|eauto]. inversion Eq; subst y j u.
      destruct (IL x i) as [-> | ->]; auto. rewrite L, !Nat.eqb_refl. simpl.
      apply mentionsb_iff in M. now rewrite M.
    + intros y j u e [Eq | Hin] Hc He Hn.
      * inversion Eq; subst y j u. destruct (C Hc e He Hn) as (X1 & X2 & X3). split; [auto|]. split; [auto|].
        rewrite <- O. apply IO3. congruence.
      * destruct (IC y j u e Hin Hc He Hn) as (X1 & X2 & X3). split; auto. split; auto. congruence.
Qed.

Lemma remove_linked_spec sh typ st st' : remove_linked_attributes sh typ st = Finished st' ->
  rs_table st' = rs_table st /\
  (forall x i t, In x (mvals (rs_table st)) -> has_attribute sh x i t -> mentions sh typ t ->
     rs_link_owner st' x i = None) /\
  (forall x i, (~ In x (mvals (rs_table st)) \/ exists t, has_attribute sh x i t /\ ~ mentions sh typ t) ->
     rs_link_owner st' x i = rs_link_owner st x i) /\
  (forall x i t e, In x (mvals (rs_table st)) -> has_attribute sh x i t -> container sh t ->
     rt_element (sh t) = Some e -> rt_name (sh e) = rt_name (sh typ) ->
     rs_explicit st' t = true /\ rs_explicit st' e = true /\ rs_owner st' e = rs_owner st typ).
Proof.
  intro H. destruct (remove_links_steps _ _ _ _ _ H) as (evs & R & I).
  destruct (removes_effect _ _ _ _ _ R) as (IT & IO & IE & IO2 & IO3 & IL & IM & IN & IS & IC).
  { intros y j t Hin. now apply I. }
  split; auto. split; [|split].
  - intros x i t Hx Ha M. apply (IS x i t); auto. apply I. auto.
  - intros x i [N | (t & Ha & NM)]; [|eauto]. apply IN. intros t Hin. apply I in Hin. tauto.
  - intros x i t e Hx Ha. intros. apply (IC x i t e); auto. apply I. auto.
Qed.

Lemma remove_linked_explicit sh typ st st' : remove_linked_attributes sh typ st = Finished st' ->
  (forall y, rs_explicit st y = true -> rs_explicit st' y = true).
Proof.
  intro H. destruct (remove_links_steps _ _ _ _ _ H) as (evs & R & I).
  destruct (removes_effect _ _ _ _ _ R) as (IT & IO & IE & _); [|exact IE].
  intros y j t Hin. now apply I.
Qed.

Lemma remove_linked_finished sh typ st : with_elements sh -> exists st', remove_linked_attributes sh typ st = Finished st'.
Proof.
  intro W. unfold remove_linked_attributes. generalize (mvals (rs_table st)) as l. intro l. revert st.
  assert (H1 : forall x i t st, exists st', remove_link sh typ x i t st = Finished st').
  { intros x i t st. unfold remove_link. cbv zeta. destruct (is_container sh t) eqn:EC; eauto.
    apply is_container_iff in EC. destruct (W t EC) as (e & ->).
    destruct (String.eqb (rt_name (sh e)) (rt_name (sh typ))); eauto. }
  assert (H2 : forall x l i st, exists st', remove_links_of sh typ x i l st = Finished st').
  { intros x l0. induction l0 as [|a l0 IH]; intros i st; cbn [remove_links_of]; eauto.
    destruct (H1 x i (ra_type a) st) as (s & ->). apply IH. }
  induction l as [|x l IH]; intro st; cbn [remove_links]; eauto.
  destruct (H2 x (rt_attributes (sh x)) 0 st) as (s & ->). apply IH.
Qed.

(** *** The paths *)

Lemma no_slash_char s : no_slash s -> no_char "/" s = true.
Proof.
  induction s as [|c s IH]; intro H; [reflexivity|].
  unfold no_char. cbn [str_all]. apply andb_true_iff. split.
  - apply negb_true_iff. destruct (Ascii.eqb_spec c "/") as [->|N]; auto. exfalso. apply (H "" s). reflexivity.
  - apply IH. intros a b E. apply (H (String c a) b). now rewrite E.
Qed.

Lemma split_first a b : no_char "/" a = true -> str_split "/" (a ++ "/" ++ b) = a :: str_split "/" b.
Proof.
  intro H. unfold str_split. rewrite split_loop_app_clean by exact H.
  change ("/" ++ b) with (String "/" b). cbn [split_loop]. rewrite Ascii.eqb_refl. reflexivity.
Qed.

Lemma split_last a : no_char "/" a = true -> str_split "/" a = [a].
Proof.
  intro H. unfold str_split. rewrite <- (sapp_nil_r a) at 1. rewrite split_loop_app_clean by exact H. reflexivity.
Qed.

Lemma path_components path s v t : refers path s v t -> s <> "" -> no_slash s -> no_slash v -> no_slash t ->
  exists more, str_split "/" (trim_prefix path "/") = s :: v :: t :: more.
Proof.
  intros (rest & Hpath & Hrest) Hne Hs Hv Ht.
  assert (E : trim_prefix path "/" = s ++ "/" ++ v ++ "/" ++ t ++ rest).
  { destruct Hpath as [-> | ->].
    - destruct s as [|c s]; [congruence|]. unfold trim_prefix.
      destruct (has_prefix (String c s ++ "/" ++ v ++ "/" ++ t ++ rest) "/") eqn:HP; [|reflexivity].
      exfalso. cbn [append has_prefix] in HP. apply andb_true_iff in HP. destruct HP as (HP & _).
      apply Ascii.eqb_eq in HP. apply (Hs "" s). now rewrite HP.
    - apply (trim_prefix_app "/"). }
  rewrite E. rewrite (split_first s) by now apply no_slash_char.
  rewrite (split_first v) by now apply no_slash_char.
  destruct Hrest as [-> | (tail & ->)].
  - exists []. rewrite sapp_nil_r, split_last by now apply no_slash_char. reflexivity.
  - exists (str_split "/" tail). rewrite split_first by now apply no_slash_char. reflexivity.
Qed.

Lemma path_import fuel sh here load input path s v t versions types r st :
  refers path s v t -> s <> "" -> no_slash s -> no_slash v -> no_slash t ->
  load (input ++ "/" ++ s) = Some versions -> mget v versions = Some types -> mget t types = Some r ->
  handle_class_ref fuel sh here load [input] path st = import fuel sh here r st.
Proof.
  intros Hr Hne Hs Hv Ht HL HV HT. destruct (path_components _ _ _ _ Hr Hne Hs Hv Ht) as (more & E).
  unfold handle_class_ref. rewrite E, HL, !separator_join_split, HV, HT. reflexivity.
Qed.

Lemma path_unknown fuel sh here load input path s v t versions types st :
  refers path s v t -> s <> "" -> no_slash s -> no_slash v -> no_slash t ->
  load (input ++ "/" ++ s) = Some versions -> mget v versions = Some types -> mget t types = None ->
  handle_class_ref fuel sh here load [input] path st = Finished st.
Proof.
  intros Hr Hne Hs Hv Ht HL HV HT. destruct (path_components _ _ _ _ Hr Hne Hs Hv Ht) as (more & E).
  unfold handle_class_ref. rewrite E, HL, !separator_join_split, HV, HT. reflexivity.
Qed.

Lemma path_crash fuel sh here load inputs path s v t st :
  refers path s v t -> s <> "" -> no_slash s -> no_slash v -> no_slash t ->
  (forall input, In input inputs -> load (input ++ "/" ++ s) = None \/
     exists versions, load (input ++ "/" ++ s) = Some versions /\ mget v versions = None) ->
  handle_class_ref fuel sh here load inputs path st = Crash.
Proof.
  intros Hr Hne Hs Hv Ht H. destruct (path_components _ _ _ _ Hr Hne Hs Hv Ht) as (more & E).
  unfold handle_class_ref. rewrite E. destruct inputs as [|input [|]]; auto.
  destruct (H input (or_introl eq_refl)) as [-> | (versions & -> & HV)]; auto.
  rewrite separator_join_split, HV. reflexivity.
Qed.

(** *** The whole annotation *)

Lemma import_explicit fuel sh here root st st' : import fuel sh here root st = Finished st' ->
  keyed sh st -> fresh sh root st -> distinct_names sh root ->
  forall t, needed sh root t -> (rs_explicit st' t = true <-> declares st (rt_name (sh t))).
Proof.
  intros H K F D t Ht. pose proof (import_distinct _ _ _ _ _ _ H D t Ht) as M.
  destruct (import_events _ _ _ _ _ _ H) as (evs & R & I).
  assert (S : same_declared sh root st st').
  { eapply runs_declared; [exact F|exact R|intros; now apply I|now apply same_declared_refl]. }
  destruct S as (_ & E & _). specialize (E (rt_name (sh t))). unfold explicit_here at 1 in E.
  rewrite M in E. rewrite E. apply explicit_here_iff.
Qed.

Lemma class_import sh here load input typ path s v t versions types r st st1 :
  with_elements sh -> keyed sh st ->
  mget (rt_name (sh typ)) (rs_table st) = Some typ ->
  refers path s v t -> s <> "" -> no_slash s -> no_slash v -> no_slash t ->
  load (input ++ "/" ++ s) = Some versions -> mget v versions = Some types -> mget t types = Some r ->
  ~ builtin sh r -> rt_name (sh r) = rt_name (sh typ) ->
  finite_parts sh r -> distinct_names sh r ->
  remove_linked_attributes sh typ (set_explicit typ st) = Finished st1 -> fresh sh r st1 ->
  exists n st', (forall m, n <= m -> class_ref m sh here load [input] typ path st = Finished st') /\
    mget (rt_name (sh typ)) (rs_table st') = Some r /\ rs_explicit st' r = true /\
    rs_owner st' r = Some here /\
    (forall x, needed sh r x -> mget (rt_name (sh x)) (rs_table st') = Some x /\ rs_owner st' x = Some here) /\
    (forall k, (forall x, needed sh r x -> rt_name (sh x) <> k) -> mget k (rs_table st') = mget k (rs_table st)).
Proof.
  intros W K HM Hr Hne Hs Hv Ht HL HV HT NB EN FP D HR F.
  destruct (import_terminates sh here r W FP) as (n & Hn). destruct (Hn st1) as (st' & Hst').
  pose proof (Hst' n (le_n n)) as Hi.
  assert (T1 : rs_table st1 = rs_table st).
  { destruct (remove_linked_spec _ _ _ _ HR) as (T & _). exact T. }
  assert (K1 : keyed sh st1) by (intros k x; rewrite T1; apply K).
  assert (Nr : needed sh r r) by (left; split; [constructor|exact NB]).
  exists n, st'. split; [|split; [|split; [|split; [|split]]]].
  - intros m Hm. unfold class_ref. rewrite HR. rewrite (path_import m sh here load input path s v t versions types r); auto.
  - rewrite <- EN. exact (import_distinct _ _ _ _ _ _ Hi D r Nr).
  - apply (import_explicit _ _ _ _ _ _ Hi K1 F D r Nr). rewrite EN. exists typ. split; [rewrite T1; exact HM|].
    apply (remove_linked_explicit _ _ _ _ HR). cbn [rs_explicit set_explicit]. now rewrite Nat.eqb_refl.
  - exact (import_owner _ _ _ _ _ _ Hi r Nr).
  - intros x Hx. split; [exact (import_distinct _ _ _ _ _ _ Hi D x Hx)|exact (import_owner _ _ _ _ _ _ Hi x Hx)].
  - intros k Hk. rewrite <- T1. destruct (import_table _ _ _ _ _ _ Hi) as (_ & T). now apply T.
Qed.
