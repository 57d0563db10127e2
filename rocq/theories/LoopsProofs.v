(** Proofs about the loops of locators. *)
From Coq Require Import Ascii String Bool Arith ZArith Lia Permutation Sorted List.
From Verif Require Import GoStrings GoStringsProofs GoMap GoMapProofs NamesModel NamesSpec NamesProofs
  ConceptsModel ConceptsSpec ConceptsProofs ReporterModel ReaderModel ChecksModel ReaderSpec ReaderProofs
  ReaderProofs4 ReaderProofs5 ReaderProofs6 ReaderProofs7 ChecksSpec ChecksProofs ChecksProofs2.
Import ListNotations.
Local Open Scope string_scope.

Lemma root_key v : root v = mget "root" (v_resources v).
Proof. reflexivity. Qed.

(** * Chains: walks with the owners of the locators *)

Section Chains.
Context (v : version).

Notation chain := (chain v).

Lemma chain_walk k ss k' : chain k ss k' -> walk v k (map snd ss) k'.
Proof. induction 1; simpl; econstructor; eauto. Qed.

Lemma walk_chain k ls k' : walk v k ls k' -> exists ss, chain k ss k' /\ map snd ss = ls.
Proof.
  induction 1 as [k|k l k' ls k'' Hf Hw (ss & Hc & E)]; [exists []; split; constructor|].
  exists ((k, l) :: ss). split; [econstructor; eauto|]. simpl. now rewrite E.
Qed.

Lemma chain_app k ss1 k1 ss2 k2 : chain k ss1 k1 -> chain k1 ss2 k2 -> chain k (ss1 ++ ss2)%list k2.
Proof. induction 1; simpl; intros; [assumption|]. econstructor; eauto. Qed.

Lemma chain_split k ss1 ss2 k2 : chain k (ss1 ++ ss2)%list k2 -> exists k1, chain k ss1 k1 /\ chain k1 ss2 k2.
Proof.
  revert k. induction ss1 as [|s ss1 IH]; intros k H; [exists k; split; [constructor|assumption]|].
  simpl in H. inversion H as [|? l k' ? ? Hf Hc]; subst. destruct (IH k' Hc) as (k1 & H1 & H2).
  exists k1. split; [|assumption]. econstructor; eauto.
Qed.

Lemma chain_head k s ss k' : chain k (s :: ss) k' -> fst s = k.
Proof. intros H. inversion H. reflexivity. Qed.

Lemma walk_app k ls1 k1 ls2 k2 : walk v k ls1 k1 -> walk v k1 ls2 k2 -> walk v k (ls1 ++ ls2)%list k2.
Proof. induction 1; simpl; intros; [assumption|]. econstructor; eauto. Qed.

Lemma walk_split k ls1 ls2 k2 : walk v k (ls1 ++ ls2)%list k2 -> exists k1, walk v k ls1 k1 /\ walk v k1 ls2 k2.
Proof.
  revert k. induction ls1 as [|s ss1 IH]; intros k H; [exists k; split; [constructor|assumption]|].
  simpl in H. inversion H as [|? l k' ? ? Hf Hc]; subst. destruct (IH k' Hc) as (k1 & H1 & H2).
  exists k1. split; [|assumption]. econstructor; eauto.
Qed.

Lemma chain_owners k ss k' : chain k ss k' -> incl (map fst ss) (map fst (v_resources v)).
Proof.
  induction 1 as [|k l k' ss k'' (r & Hr & _) Hc IH]; [intros x []|]. simpl. intros x [<-|Hx]; [|auto].
  apply mget_in in Hr. apply (in_map fst) in Hr. exact Hr.
Qed.

(** A sequence with repeated elements. *)
Lemma not_nodup_split (l : list key) : ~ NoDup l -> exists a l1 l2 l3, l = (l1 ++ a :: l2 ++ a :: l3)%list.
Proof.
  induction l as [|a l IH]; intros H; [exfalso; apply H; constructor|].
  destruct (in_dec String.string_dec a l) as [Hin|Hni].
  - apply in_split in Hin as (l2 & l3 & ->). exists a, [], l2, l3. reflexivity.
  - destruct IH as (b & l1 & l2 & l3 & ->).
    + intros Hnd. apply H. now constructor.
    + exists b, (a :: l1), l2, l3. reflexivity.
Qed.

Lemma nodup_dec (l : list key) : {NoDup l} + {~ NoDup l}.
Proof. apply ListDec.NoDup_dec, String.string_dec. Qed.

(** Long walks contain loops. *)
Lemma long_walk_loops ls k : walk v "root" ls k -> (List.length (v_resources v) < List.length ls)%nat -> has_loop v.
Proof.
  intros Hw Hlen. destruct (walk_chain _ _ _ Hw) as (ss & Hc & <-). rewrite map_length in Hlen.
  destruct (nodup_dec (map fst ss)) as [Hnd|Hnd].
  - exfalso. pose proof (NoDup_incl_length Hnd (chain_owners _ _ _ Hc)) as H. rewrite !map_length in H. lia.
  - apply not_nodup_split in Hnd as (a & l1 & l2 & l3 & E).
    apply map_eq_app in E as (s1 & s' & -> & <- & E). apply map_eq_cons in E as (x & s2 & -> & Ex & E).
    apply map_eq_app in E as (s2' & s3' & -> & <- & E). apply map_eq_cons in E as (y & s3 & -> & Ey & _).
    apply chain_split in Hc as (k1 & H1 & H2). pose proof (chain_head _ _ _ _ H2) as Hx.
    change (x :: s2' ++ y :: s3)%list with ((x :: s2') ++ y :: s3)%list in H2.
    apply chain_split in H2 as (k2 & H2 & H3). pose proof (chain_head _ _ _ _ H3) as Hy.
    assert (k1 = a) by congruence. assert (k2 = a) by congruence. subst k1 k2.
    exists a, (map snd (x :: s2')). split; [|split; [discriminate|apply chain_walk; congruence]].
    exists (map snd s1). apply chain_walk. congruence.
Qed.

(** Loops give walks as long as desired. *)
Lemma loop_long_walk : has_loop v -> forall n, exists ls k, walk v "root" ls k /\ (n <= List.length ls)%nat /\ ls <> [].
Proof.
  intros (k & ls & (ls0 & H0) & Hne & Hl) n.
  assert (R : forall n, exists ls', walk v k ls' k /\ (n <= List.length ls')%nat /\ ls' <> []).
  { clear n. induction n as [|n (ls' & H1 & H2 & H3)]; [exists ls; split; [assumption|split; [lia|assumption]]|].
    exists (ls ++ ls')%list. split; [eapply walk_app; eauto|]. rewrite app_length.
    destruct ls; [contradiction|]. split; [simpl; lia|discriminate]. }
  destruct (R n) as (ls' & H1 & H2 & H3). exists (ls0 ++ ls')%list, k.
  split; [eapply walk_app; eauto|]. rewrite app_length. split; [lia|].
  intros E. apply app_eq_nil in E as [_ E]. contradiction.
Qed.

(** * Paths explored by the check, last locator first *)

Inductive explored_from (p : list step) : list step -> Prop :=
| ef_refl : explored_from p p
| ef_next s q k r l : explored_from p (s :: q) -> l_target (snd s) = Some k -> ~ In k (map fst (s :: q)) ->
    mget k (v_resources v) = Some r -> In l (r_locators r) -> explored_from p ((k, l) :: s :: q).

Definition explored (q : list step) : Prop :=
  exists r l, mget "root" (v_resources v) = Some r /\ In l (r_locators r) /\ explored_from [("root", l)] q.

Lemma explored_trans a b c : explored_from a b -> explored_from b c -> explored_from a c.
Proof. intros H. induction 1; [assumption|]. econstructor; eauto. Qed.

Lemma explored_first p q : explored_from p q ->
  q = p \/ exists s p' k r l, p = s :: p' /\ l_target (snd s) = Some k /\ ~ In k (map fst p) /\
     mget k (v_resources v) = Some r /\ In l (r_locators r) /\ explored_from ((k, l) :: p) q.
Proof.
  induction 1 as [|s q k r l H IH Ht Hn Hr Hl]; [auto|]. right. destruct IH as [E|(s0 & p' & k0 & r0 & l0 & -> & H1 & H2 & H3 & H4 & H5)].
  - destruct p as [|s0 p']; [discriminate|]. injection E as <- <-.
    exists s, q, k, r, l. repeat (split; [assumption || reflexivity|]). constructor.
  - exists s0, p', k0, r0, l0. repeat (split; [assumption || reflexivity|]). econstructor; eauto.
Qed.

Lemma cut_none k q : forall acc, cut_at k q acc = None <-> ~ In k (map fst q).
Proof.
  induction q as [|s q IH]; intros acc; simpl; [tauto|]. destruct (String.eqb_spec (fst s) k) as [E|E].
  - split; [discriminate|]. intros H. exfalso. auto.
  - rewrite IH. tauto.
Qed.

Lemma cut_some k q : forall acc loop, cut_at k q acc = Some loop ->
  exists s q1 q2, q = (q1 ++ s :: q2)%list /\ fst s = k /\ ~ In k (map fst q1) /\ loop = (s :: rev q1 ++ acc)%list.
Proof.
  induction q as [|s q IH]; intros acc loop; simpl; [discriminate|]. destruct (String.eqb_spec (fst s) k) as [E|E].
  - intros [= <-]. exists s, [], q. repeat split; auto.
  - intros H. destruct (IH _ _ H) as (s' & q1 & q2 & -> & E1 & H1 & ->). exists s', (s :: q1), q2.
    repeat split; auto.
    + simpl. intros [H2|H2]; auto.
    + simpl. now rewrite <- app_assoc.
Qed.

Lemma list_eq_nil {A} (l : list A) : {l = []} + {l <> []}.
Proof. destruct l; [now left|right; discriminate]. Qed.

Lemma nodup_app_l {A} (l l2 : list A) : NoDup (l ++ l2)%list -> NoDup l.
Proof.
  induction l as [|a l IH]; simpl; intros Hnd; [constructor|].
  inversion Hnd as [|? ? Ha Hb]; subst. constructor; [|auto].
  intros Hin. apply Ha. apply in_app_iff. auto.
Qed.

Section Search.
Context (sn : name).

Lemma run_all_done {A} (f : A -> outcome (list report)) l rs : run_all f l = Done rs ->
  (forall a, In a l -> exists x, f a = Done x /\ incl x rs) /\
  (forall y, In y rs -> exists a x, In a l /\ f a = Done x /\ In y x).
Proof.
  intros E. split; [intros a Ha; exact (run_all_in _ _ _ _ E Ha)|]. revert rs E.
  induction l as [|a l IH]; intros rs E y Hy; simpl in E; [injection E as <-; contradiction|].
  destruct (f a) as [x| |] eqn:Ea; try discriminate.
  destruct (run_all f l) as [z| |] eqn:El; try discriminate. injection E as <-.
  apply in_app_iff in Hy as [Hy|Hy]; [exists a, x; simpl; auto|].
  destruct (IH z eq_refl y Hy) as (b & w & H1 & H2 & H3). exists b, w. simpl. auto.
Qed.

Lemma run_all_panics {A} (f : A -> outcome (list report)) l : run_all f l = Panics -> exists a, In a l /\ f a = Panics.
Proof.
  induction l as [|a l IH]; simpl; [discriminate|]. destruct (f a) eqn:Ea; try discriminate.
  - destruct (run_all f l); try discriminate. intros _. destruct IH as (b & H1 & H2); [reflexivity|]. exists b. auto.
  - intros _. exists a. auto.
Qed.

Lemma run_all_fuel {A} (f : A -> outcome (list report)) l : run_all f l = OutOfFuel -> exists a, In a l /\ f a = OutOfFuel.
Proof.
  induction l as [|a l IH]; simpl; [discriminate|]. destruct (f a) eqn:Ea; try discriminate.
  - destruct (run_all f l); try discriminate. intros _. destruct IH as (b & H1 & H2); [reflexivity|]. exists b. auto.
  - intros _. exists a. auto.
Qed.

(** What is known about a path that has been explored: the last locator has a target, and if it closes
    a loop it has been reported. *)
Definition handled (rs : list report) (q : list step) : Prop :=
  exists s q' k, q = s :: q' /\ l_target (snd s) = Some k /\
    (In k (map fst q) -> exists loop, cut_at k q [] = Some loop /\ incl (report_loop sn v loop) rs).

Definition closes (q loop : list step) : Prop :=
  exists s q' k, q = s :: q' /\ l_target (snd s) = Some k /\ cut_at k q [] = Some loop.

Lemma search_done fuel : forall lst prev rs, check_path_loops fuel sn v lst prev = Done rs ->
  (forall q, explored_from (lst :: prev) q -> handled rs q) /\
  (forall y, In y rs -> exists q loop, explored_from (lst :: prev) q /\ closes q loop /\ In y (report_loop sn v loop)).
Proof.
  induction fuel as [|fuel IH]; intros lst prev rs E; [discriminate|]. cbn [check_path_loops] in E.
  destruct (l_target (snd lst)) as [k|] eqn:Et; [|discriminate].
  destruct (cut_at k (lst :: prev) []) as [loop|] eqn:Ec.
  - injection E as <-. split.
    + intros q Hq. destruct (explored_first _ _ Hq) as [->|(s & p' & k0 & r & l & Es & Ht & Hn & _)].
      * exists lst, prev, k. split; [reflexivity|]. split; [assumption|]. intros _. exists loop. split; [assumption|apply incl_refl].
      * exfalso. injection Es as <- <-. rewrite Et in Ht. injection Ht as <-.
        apply (cut_none k (lst :: prev) []) in Hn. congruence.
    + intros y Hy. exists (lst :: prev), loop. split; [constructor|]. split; [|assumption].
      exists lst, prev, k. auto.
  - unfold resource_at in E. destruct (mget k (v_resources v)) as [r|] eqn:Er; [|discriminate].
    apply run_all_done in E as [E1 E2]. split.
    + intros q Hq. destruct (explored_first _ _ Hq) as [->|(s & p' & k0 & r0 & l & Es & Ht & Hn & Hr & Hl & Hq')].
      * exists lst, prev, k. split; [reflexivity|]. split; [assumption|]. intros H. exfalso.
        apply (cut_none k (lst :: prev) []) in Ec. contradiction.
      * injection Es as <- <-. rewrite Et in Ht. injection Ht as <-. rewrite Er in Hr. injection Hr as <-.
        destruct (E1 (k, l)) as (x & Hx & Hi); [unfold steps_of; apply in_map_iff; eauto|].
        apply IH in Hx as [Hx _]. destruct (Hx q Hq') as (s1 & q1 & k1 & Eq & Ht1 & Hc). exists s1, q1, k1.
        split; [assumption|]. split; [assumption|]. intros H. destruct (Hc H) as (loop & H1 & H2).
        exists loop. split; [assumption|]. eapply incl_tran; eauto.
    + intros y Hy. destruct (E2 y Hy) as (a & x & Ha & Hx & Hyx). apply IH in Hx as [_ Hx].
      destruct (Hx y Hyx) as (q & loop & H1 & H2 & H3). exists q, loop. split; [|auto].
      unfold steps_of in Ha. apply in_map_iff in Ha as (l & <- & Hl).
      eapply explored_trans; [|exact H1]. econstructor; eauto; [constructor|].
      now apply (cut_none k (lst :: prev) []).
Qed.

Lemma search_panics fuel : forall lst prev, check_path_loops fuel sn v lst prev = Panics ->
  exists s q, explored_from (lst :: prev) (s :: q) /\
    (l_target (snd s) = None \/ exists k, l_target (snd s) = Some k /\ mget k (v_resources v) = None).
Proof.
  induction fuel as [|fuel IH]; intros lst prev E; [discriminate|]. cbn [check_path_loops] in E.
  destruct (l_target (snd lst)) as [k|] eqn:Et; [|exists lst, prev; split; [constructor|auto]].
  destruct (cut_at k (lst :: prev) []) as [loop|] eqn:Ec; [discriminate|].
  unfold resource_at in E. destruct (mget k (v_resources v)) as [r|] eqn:Er.
  - apply run_all_panics in E as (a & Ha & E). apply IH in E as (s & q & H1 & H2). exists s, q. split; [|assumption].
    unfold steps_of in Ha. apply in_map_iff in Ha as (l & <- & Hl).
    eapply explored_trans; [|exact H1]. econstructor; eauto; [constructor|].
    now apply (cut_none k (lst :: prev) []).
  - exists lst, prev. split; [constructor|eauto].
Qed.

Lemma search_fuel fuel : forall lst prev, check_path_loops fuel sn v lst prev = OutOfFuel ->
  exists q, explored_from (lst :: prev) q /\ List.length q = (S (List.length prev) + fuel)%nat.
Proof.
  induction fuel as [|fuel IH]; intros lst prev E.
  - exists (lst :: prev). split; [constructor|]. simpl. lia.
  - cbn [check_path_loops] in E. destruct (l_target (snd lst)) as [k|] eqn:Et; [|discriminate].
    destruct (cut_at k (lst :: prev) []) as [loop|] eqn:Ec; [discriminate|].
    unfold resource_at in E. destruct (mget k (v_resources v)) as [r|] eqn:Er; [|discriminate].
    apply run_all_fuel in E as (a & Ha & E). apply IH in E as (q & H1 & H2). exists q.
    split; [|simpl in *; lia]. unfold steps_of in Ha. apply in_map_iff in Ha as (l & <- & Hl).
    eapply explored_trans; [|exact H1]. econstructor; eauto; [constructor|].
    now apply (cut_none k (lst :: prev) []).
Qed.

(** Explored paths are chains from the root, without repeated owners. *)
Lemma explored_chain q : explored q ->
  NoDup (map fst q) /\ incl (map fst q) (map fst (v_resources v)) /\
  exists s q', q = s :: q' /\ (exists r, mget (fst s) (v_resources v) = Some r /\ In (snd s) (r_locators r)) /\
    chain "root" (rev q') (fst s).
Proof.
  intros (r0 & l0 & Hr0 & Hl0 & H). induction H as [|s q k r l H (I1 & I2 & s' & q' & E & I3 & I4) Ht Hn Hr Hl].
  - split; [repeat constructor; simpl; tauto|]. split.
    + simpl. intros x [<-|[]]. apply mget_in in Hr0. apply (in_map fst) in Hr0. exact Hr0.
    + exists ("root", l0), []. split; [reflexivity|]. split; [eauto|]. constructor.
  - injection E as <- <-. split; [now constructor|]. split.
    + intros x [<-|Hx]; [|auto]. apply mget_in in Hr. apply (in_map fst) in Hr. exact Hr.
    + exists (k, l), (s :: q). split; [reflexivity|]. split; [simpl; eauto|].
      simpl. eapply chain_app; [exact I4|]. destruct s as [ks ls]. destruct I3 as (r' & H1 & H2).
      simpl in *. econstructor; [|constructor]. exists r'. auto.
Qed.

Lemma explored_length q : explored q -> (List.length q <= List.length (v_resources v))%nat.
Proof.
  intros H. destruct (explored_chain q H) as (H1 & H2 & _).
  pose proof (NoDup_incl_length H1 H2) as H3. rewrite !map_length in H3. exact H3.
Qed.

Lemma loops_terminate fuel : (List.length (v_resources v) <= fuel)%nat -> check_locator_loops fuel sn v <> OutOfFuel.
Proof.
  intros Hf E. unfold check_locator_loops in E. destruct (root v) as [r|] eqn:Er; [|discriminate].
  apply run_all_fuel in E as (a & Ha & E). unfold steps_of in Ha. apply in_map_iff in Ha as (l & <- & Hl).
  apply search_fuel in E as (q & H1 & H2). assert (He : explored q) by (exists r, l; auto).
  apply explored_length in He. simpl in H2. lia.
Qed.

Lemma loops_done fuel rs : check_locator_loops fuel sn v = Done rs ->
  (exists r, root v = Some r) /\
  (forall q, explored q -> handled rs q) /\
  (forall y, In y rs -> exists q loop, explored q /\ closes q loop /\ In y (report_loop sn v loop)).
Proof.
  unfold check_locator_loops. destruct (root v) as [r|] eqn:Er; [|discriminate]. intros E.
  split; [eauto|]. apply run_all_done in E as [E1 E2]. split.
  - intros q (r' & l & Hr & Hl & Hq). rewrite <- root_key, Er in Hr. injection Hr as <-.
    destruct (E1 ("root", l)) as (x & Hx & Hi); [unfold steps_of; apply in_map_iff; eauto|].
    apply search_done in Hx as [Hx _]. destruct (Hx q Hq) as (s1 & q1 & k1 & Eq & Ht1 & Hc). exists s1, q1, k1.
    split; [assumption|]. split; [assumption|]. intros H. destruct (Hc H) as (loop & H1 & H2).
    exists loop. split; [assumption|]. eapply incl_tran; eauto.
  - intros y Hy. destruct (E2 y Hy) as (a & x & Ha & Hx & Hyx). apply search_done in Hx as [_ Hx].
    destruct (Hx y Hyx) as (q & loop & H1 & H2 & H3). exists q, loop. split; [|auto].
    unfold steps_of in Ha. apply in_map_iff in Ha as (l & <- & Hl). exists r, l. auto.
Qed.

Lemma explored_reachable s q : explored (s :: q) -> reachable v (fst s).
Proof.
  intros H. destruct (explored_chain _ H) as (_ & _ & s' & q' & E & _ & Hc). injection E as <- <-.
  exists (map snd (rev q)). now apply chain_walk.
Qed.

Lemma loops_panic fuel : check_locator_loops fuel sn v = Panics -> targets_exist v ->
  root v = None \/ has_dead_end v.
Proof.
  unfold check_locator_loops. destruct (root v) as [r|] eqn:Er; [|auto]. intros E Ht. right.
  apply run_all_panics in E as (a & Ha & E). unfold steps_of in Ha. apply in_map_iff in Ha as (l & <- & Hl).
  apply search_panics in E as (s & q & H1 & H2). assert (He : explored (s :: q)) by (exists r, l; auto).
  pose proof (explored_reachable _ _ He) as Hre.
  destruct (explored_chain _ He) as (_ & _ & s' & q' & E & (r' & Hr' & Hl') & _). injection E as <- <-.
  destruct H2 as [H2|(k & H2 & H3)].
  - exists (fst s), r', (snd s). auto.
  - destruct (Ht _ _ _ _ Hr' Hl' H2) as [r2 Hr2]. congruence.
Qed.

(** Every resource that can be reached is the owner of the last locator of an explored path, unless it
    has no locators. *)
Lemma reachable_explored rs fuel k : check_locator_loops fuel sn v = Done rs -> reachable v k ->
  forall r l, mget k (v_resources v) = Some r -> In l (r_locators r) -> exists q, explored ((k, l) :: q).
Proof.
  intros E (ls & Hw). destruct (loops_done _ _ E) as (_ & Hh & _).
  assert (G : forall k0 k1 ls, walk v k0 ls k1 ->
    (forall r l, mget k0 (v_resources v) = Some r -> In l (r_locators r) -> exists q, explored ((k0, l) :: q)) ->
    forall r l, mget k1 (v_resources v) = Some r -> In l (r_locators r) -> exists q, explored ((k1, l) :: q)).
  { clear k ls Hw. induction 1 as [k|k l k' ls k'' (r & Hr & Hl & Ht) Hw IH]; intros H; [exact H|].
    apply IH. intros r' l' Hr' Hl'. destruct (H r l Hr Hl) as (q & Hq).
    destruct (in_dec String.string_dec k' (map fst ((k, l) :: q))) as [Hin|Hni].
    - (* the target is the owner of a previous locator *)
      assert (G2 : forall q k', explored q -> In k' (map fst q) -> forall r' l', mget k' (v_resources v) = Some r' ->
        In l' (r_locators r') -> exists q', explored ((k', l') :: q')).
      { clear. intros q k' (r0 & l0 & Hr0 & Hl0 & H). induction H as [|s q k r l H IH Ht Hn Hr Hl]; intros Hin r' l' Hr' Hl'.
        - destruct Hin as [<-|[]]. simpl in Hr'. exists []. exists r0, l'. split; [assumption|].
          split; [congruence|constructor].
        - destruct Hin as [<-|Hin]; [|eauto]. simpl in Hr'. exists (s :: q), r0, l0.
          split; [assumption|]. split; [assumption|]. simpl. econstructor; eauto. }
      eapply G2; eauto.
    - exists ((k, l) :: q). destruct Hq as (r0 & l0 & Hr0 & Hl0 & Hq). exists r0, l0.
      split; [assumption|]. split; [assumption|]. econstructor; eauto. }
  eapply G; [exact Hw|]. intros r l Hr Hl. exists [], r, l. split; [assumption|]. split; [assumption|constructor].
Qed.

Lemma loops_done_targets fuel rs : check_locator_loops fuel sn v = Done rs -> ~ has_dead_end v.
Proof.
  intros E (k & r & l & Hre & Hr & Hl & Ht). destruct (reachable_explored _ _ _ E Hre _ _ Hr Hl) as (q & Hq).
  destruct (loops_done _ _ E) as (_ & Hh & _). destruct (Hh _ Hq) as (s & q' & k' & Es & Hs & _).
  injection Es as <- <-. simpl in Hs. congruence.
Qed.

(** * Reported loops *)

Notation reported_loop := (simple_loop v).

Lemma closes_loop q loop : explored q -> closes q loop -> reported_loop loop.
Proof.
  intros He (s & q' & k & -> & Ht & Hc). apply cut_some in Hc as (x & q1 & q2 & E & Ex & Hn & ->).
  destruct (explored_chain _ He) as (Hnd & _ & s' & q'' & E' & (r' & Hr' & Hl') & Hch). injection E' as <- <-.
  assert (Hfull : chain "root" (rev (s :: q')) k).
  { simpl. eapply chain_app; [exact Hch|]. destruct s as [ks ls]. econstructor; [|constructor]. exists r'. auto. }
  rewrite E, rev_app_distr in Hfull. simpl in Hfull. rewrite <- app_assoc in Hfull.
  apply chain_split in Hfull as (k1 & H1 & H2). simpl in H2. pose proof (chain_head _ _ _ _ H2) as Hk.
  rewrite Ex in Hk. subst k1. exists k. rewrite app_nil_r. split; [exists (map snd (rev q2)); now apply chain_walk|].
  split; [discriminate|]. split; [assumption|].
  rewrite E in Hnd. rewrite map_app in Hnd. cbn [map] in Hnd. cbn [map]. rewrite map_rev.
  apply NoDup_remove in Hnd as [Hnd1 Hnd2]. constructor.
  - intros Hin. apply Hnd2. apply in_app_iff. left. now apply in_rev.
  - apply NoDup_rev. exact (nodup_app_l _ _ Hnd1).
Qed.

Lemma report_loop_error loop : loop <> [] -> exists m, In (err m) (report_loop sn v loop).
Proof.
  destruct loop as [|s [|s' loop]]; [contradiction| |]; intros _; eexists; unfold report_loop; left; reflexivity.
Qed.

Lemma loops_sound fuel rs m : check_locator_loops fuel sn v = Done rs -> In (err m) rs ->
  exists loop, reported_loop loop /\ In (err m) (report_loop sn v loop).
Proof.
  intros E H. destruct (loops_done _ _ E) as (_ & _ & Hr). destruct (Hr _ H) as (q & loop & H1 & H2 & H3).
  exists loop. split; [eapply closes_loop; eauto|assumption].
Qed.

Lemma loops_complete fuel rs : check_locator_loops fuel sn v = Done rs -> has_loop v -> exists m, In (err m) rs.
Proof.
  intros E Hl. destruct (loops_done _ _ E) as (_ & Hh & _).
  assert (D : (exists q loop, explored q /\ closes q loop) \/ forall q loop, explored q -> ~ closes q loop).
  { (* decided by the reports *)
    destruct rs as [|y rs].
    - right. intros q loop Hq (s & q' & k & -> & Ht & Hc). destruct (Hh _ Hq) as (s0 & q0 & k0 & Es & Ht0 & Hin).
      injection Es as <- <-. rewrite Ht in Ht0. injection Ht0 as <-.
      destruct Hin as (loop' & Hc' & Hi).
      + destruct (in_dec String.string_dec k (map fst (s :: q'))) as [|Hni]; [assumption|].
        apply (cut_none k (s :: q') []) in Hni. congruence.
      + destruct (report_loop_error loop') as [m Hm].
        { apply cut_some in Hc' as (x & q1 & q2 & _ & _ & _ & ->). discriminate. }
        apply Hi in Hm. contradiction.
    - left. destruct (loops_done _ _ E) as (_ & _ & Hr). destruct (Hr y (or_introl eq_refl)) as (q & loop & H1 & H2 & _).
      eauto. }
  destruct D as [(q & loop & Hq & Hc)|D].
  - destruct Hc as (s & q' & k & -> & Ht & Hc). destruct (Hh _ Hq) as (s0 & q0 & k0 & Es & Ht0 & Hin).
    injection Es as <- <-. rewrite Ht in Ht0. injection Ht0 as <-.
    destruct Hin as (loop' & Hc' & Hi).
    + destruct (in_dec String.string_dec k (map fst (s :: q'))) as [|Hni]; [assumption|].
      apply (cut_none k (s :: q') []) in Hni. congruence.
    + destruct (report_loop_error loop') as [m Hm].
      { apply cut_some in Hc' as (x & q1 & q2 & _ & _ & _ & ->). discriminate. }
      exists m. now apply Hi.
  - (* all the walks are explored, so there are no long walks *)
    exfalso. destruct (loop_long_walk Hl (S (List.length (v_resources v)))) as (ls & k & Hw & Hlen & Hne).
    destruct (walk_chain _ _ _ Hw) as (ss & Hc & <-). rewrite map_length in Hlen.
    assert (Hx : explored (rev ss)).
    { clear Hw Hlen. assert (Hne' : ss <> []) by (intros ->; now apply Hne). clear Hne. revert k Hc Hne'.
      induction ss as [|s ss IH] using rev_ind; intros k Hc Hne; [contradiction|]. clear Hne.
      apply chain_split in Hc as (k1 & H1 & H2). inversion H2 as [|? l k' ? ? Hf Hn]; subst.
      inversion Hn; subst. destruct Hf as (r & Hr & Hlr & Ht). rewrite rev_app_distr. simpl.
      destruct (list_eq_nil ss) as [->|Hne].
      - inversion H1; subst. exists r, l. split; [assumption|]. split; [assumption|constructor].
      - specialize (IH k1 H1 Hne). destruct (explored_chain _ IH) as (_ & _ & s & q' & Eq & (r1 & Hr1 & Hl1) & Hch).
        rewrite Eq in *. assert (Hk1 : l_target (snd s) = Some k1).
        { apply (f_equal (@rev step)) in Eq. rewrite rev_involutive in Eq. simpl in Eq. rewrite Eq in H1.
          apply chain_split in H1 as (k2 & _ & H1). inversion H1 as [|? l1 ? ? ? Hf1 Hn1]; subst. inversion Hn1; subst.
          destruct Hf1 as (? & _ & _ & Ht1). exact Ht1. }
        destruct IH as (r0 & l0 & Hr0 & Hl0 & IH). exists r0, l0. split; [assumption|]. split; [assumption|].
        econstructor; eauto. intros Hin. destruct (cut_at k1 (s :: q') []) as [loop|] eqn:Ec.
        + apply (D (s :: q') loop); [exists r0, l0; auto|]. exists s, q', k1. auto.
        + apply cut_none in Ec. contradiction. }
    apply explored_length in Hx. rewrite rev_length in Hx. exact (Nat.nle_succ_diag_l _ (Nat.le_trans _ _ _ Hlen Hx)).
Qed.

Lemma loops_exact fuel : targets_exist v -> (List.length (v_resources v) <= fuel)%nat ->
  (check_locator_loops fuel sn v = Panics <-> root v = None \/ has_dead_end v) /\
  (forall rs, check_locator_loops fuel sn v = Done rs -> ((exists m, In (err m) rs) <-> has_loop v)) /\
  check_locator_loops fuel sn v <> OutOfFuel.
Proof.
  intros Ht Hf. pose proof (loops_terminate fuel Hf) as Hno. split; [|split; [|assumption]].
  - split; [intros E; now apply (loops_panic fuel)|]. intros H.
    destruct (check_locator_loops fuel sn v) as [rs| |] eqn:E; [|reflexivity|contradiction]. exfalso.
    destruct H as [H|H].
    + unfold check_locator_loops in E. rewrite H in E. discriminate.
    + now apply (loops_done_targets _ _ E).
  - intros rs E. split; [|now apply loops_complete with fuel].
    intros [m H]. destruct (loops_sound _ _ _ E H) as (loop & (k & H1 & H2 & H3 & _) & _).
    exists k, (map snd loop). split; [assumption|]. split; [|now apply chain_walk].
    intros E'. apply map_eq_nil in E'. contradiction.
Qed.

(** * Every simple loop is reported *)

Definition ready (q : list step) (k : key) : Prop :=
  (q = [] /\ k = "root") \/ exists s q0, q = s :: q0 /\ explored q /\ l_target (snd s) = Some k.

Lemma ready_step q k l k' : ready q k -> ~ In k (map fst q) -> follows v k l k' ->
  explored ((k, l) :: q) /\ ready ((k, l) :: q) k'.
Proof.
  intros Hr Hn (r & H1 & H2 & H3). assert (He : explored ((k, l) :: q)).
  { destruct Hr as [[-> ->]|(s & q0 & -> & He & Ht)].
    - exists r, l. split; [assumption|]. split; [assumption|constructor].
    - destruct He as (r0 & l0 & A & B & C). exists r0, l0. split; [assumption|]. split; [assumption|].
      econstructor; eauto. }
  split; [assumption|]. right. exists (k, l), q. auto.
Qed.

Lemma ready_extend ss k k' : chain k ss k' -> forall q, NoDup (map fst ss) ->
  (forall x, In x (map fst ss) -> ~ In x (map fst q)) -> ready q k -> ready (rev ss ++ q)%list k'.
Proof.
  induction 1 as [k|k l k1 ss k2 Hf Hc IH]; intros q Hnd Hd Hr; [assumption|].
  simpl. rewrite <- app_assoc. simpl. inversion Hnd as [|? ? Hni Hnd']; subst.
  destruct (ready_step q k l k1 Hr) as [_ Hr']; [apply Hd; now left|assumption|].
  apply IH; auto. intros x Hx [E|Hin].
  - simpl in E. subst x. contradiction.
  - apply (Hd x); [now right|assumption].
Qed.

Lemma first_hit (S : list key) q : explored q -> (exists o, In o (map fst q) /\ In o S) ->
  exists q' k', ready q' k' /\ In k' S /\ forall o, In o (map fst q') -> ~ In o S.
Proof.
  intros (r0 & l0 & Hr0 & Hl0 & H). induction H as [|s q k r l H IH Ht Hn Hr Hl]; intros (o & Ho & HS).
  - destruct Ho as [<-|[]]. exists [], "root". split; [left; auto|]. split; [assumption|]. intros o [].
  - destruct (Exists_dec (fun o => In o S) (map fst (s :: q)) (fun o => in_dec String.string_dec o S)) as [Hex|Hex].
    + apply Exists_exists in Hex as (o' & H1 & H2). apply IH. eauto.
    + assert (Hno : forall o, In o (map fst (s :: q)) -> ~ In o S).
      { intros o' H1 H2. apply Hex, Exists_exists. eauto. }
      destruct Ho as [<-|Ho]; [|exfalso; now apply (Hno o)]. simpl in HS.
      exists (s :: q), k. split; [|auto]. right. exists s, q. split; [reflexivity|]. split; [|assumption].
      exists r0, l0. auto.
Qed.

Lemma cut_exact k q1 : forall s q2 acc, fst s = k -> ~ In k (map fst q1) ->
  cut_at k (q1 ++ s :: q2)%list acc = Some (s :: rev q1 ++ acc)%list.
Proof.
  induction q1 as [|x q1 IH]; intros s q2 acc E Hn; simpl.
  - rewrite E, String.eqb_refl. reflexivity.
  - destruct (String.eqb_spec (fst x) k) as [E'|E']; [exfalso; apply Hn; now left|].
    rewrite IH; [|assumption|intros H; apply Hn; now right]. now rewrite <- app_assoc.
Qed.

Lemma simple_loops_reported fuel rs loop : check_locator_loops fuel sn v = Done rs -> simple_loop v loop ->
  exists a b, loop = (a ++ b)%list /\ incl (report_loop sn v (b ++ a)) rs.
Proof.
  intros E (k & Hre & Hne & Hc & Hnd).
  destruct loop as [|[k0 l] rest]; [contradiction|]. pose proof (chain_head _ _ _ _ Hc) as Hk. simpl in Hk. subst k0.
  inversion Hc as [|? ? k1 ? ? Hf Hc']; subst. destruct Hf as (r & Hr & Hl & Ht).
  destruct (reachable_explored _ _ _ E Hre _ _ Hr Hl) as (q & Hq).
  destruct (first_hit (map fst ((k, l) :: rest)) _ Hq) as (q' & k' & Hrd & Hin & Hno).
  { exists k. simpl. auto. }
  apply in_map_iff in Hin as ([k'' l'] & E' & Hin). simpl in E'. subst k''.
  apply in_split in Hin as (a & b & Eab). rewrite Eab in *.
  exists a, ((k', l') :: b). split; [reflexivity|].
  assert (Hrot : chain k' (((k', l') :: b) ++ a) k').
  { apply chain_split in Hc as (k2 & C1 & C2). pose proof (chain_head _ _ _ _ C2) as Hk2. simpl in Hk2. subst k2.
    eapply chain_app; eauto. }
  assert (Pm : Permutation (map fst (a ++ (k', l') :: b)) (map fst (((k', l') :: b) ++ a))).
  { apply Permutation_map, Permutation_app_comm. }
  assert (Hnd2 : NoDup (map fst (((k', l') :: b) ++ a))) by (eapply Permutation_NoDup; eauto).
  set (loop2 := (((k', l') :: b) ++ a)%list) in *.
  pose proof (ready_extend loop2 k' k' Hrot q' Hnd2) as Hfin.
  assert (Hready : ready (rev loop2 ++ q')%list k').
  { apply Hfin; [|assumption]. intros x Hx Hx'. apply (Hno x Hx'). eapply Permutation_in; [apply Permutation_sym, Pm|exact Hx]. }
  clear Hfin.
  assert (Er : (rev loop2 ++ q')%list = (rev (b ++ a) ++ (k', l') :: q')%list).
  { unfold loop2. simpl. now rewrite <- app_assoc. }
  rewrite Er in Hready. destruct Hready as [[E0 _]|(s & q0 & E0 & He & Hts)].
  { destruct (rev (b ++ a)); discriminate. }
  destruct (loops_done _ _ E) as (_ & Hh & _). destruct (Hh _ He) as (s1 & q1 & k2 & E1 & Ht1 & Hr1).
  assert (s1 = s) by congruence. subst s1. rewrite Hts in Ht1. injection Ht1 as <-.
  destruct Hr1 as (loop' & Hcut & Hincl).
  { rewrite map_app. apply in_app_iff. right. now left. }
  rewrite cut_exact in Hcut; [|reflexivity|].
  - injection Hcut as <-. rewrite rev_involutive, app_nil_r in Hincl. exact Hincl.
  - rewrite map_rev. intros H. apply in_rev in H. unfold loop2 in Hnd2. simpl in Hnd2. now inversion Hnd2.
Qed.

(** * Contents of the messages *)

Lemma resource_label_spec k r : mget k (v_resources v) = Some r ->
  resource_named sn v k (resource_label sn v k).
Proof.
  intros H. exists r. split; [assumption|]. unfold resource_label, resource_at. rewrite H. reflexivity.
Qed.

Notation blames := (blames sn v).
Notation describes := (describes sn v).

Lemma mentions_at pre s post msg : msg = pre ++ s ++ post -> mentions s msg.
Proof. intros ->. exists pre, post. reflexivity. Qed.

Lemma chain_steps k ss k' s : chain k ss k' -> In s ss ->
  exists r k1, mget (fst s) (v_resources v) = Some r /\ l_target (snd s) = Some k1.
Proof.
  induction 1 as [k|k l k1 ss k2 (r & H1 & H2 & H3) Hc IH]; [contradiction|]. intros [<-|H]; eauto.
Qed.

Lemma chain_target k ss k' s k1 : chain k ss k' -> (exists r, mget k' (v_resources v) = Some r) ->
  In s ss -> l_target (snd s) = Some k1 -> exists r, mget k1 (v_resources v) = Some r.
Proof.
  intros Hc. induction Hc as [k|k l k0 ss k2 (r & H1 & H2 & H3) Hc IH]; intros Hr Hin Ht; [contradiction|].
  destruct Hin as [<-|Hin]; [|eauto]. simpl in Ht. rewrite H3 in Ht. injection Ht as <-.
  inversion Hc as [|? ? ? ? ? (r' & Hr' & _) _]; subst; eauto.
Qed.

Lemma simple_loop_steps loop s : simple_loop v loop -> In s loop ->
  exists r k t, mget (fst s) (v_resources v) = Some r /\ l_target (snd s) = Some k /\ mget k (v_resources v) = Some t.
Proof.
  intros (k & _ & Hne & Hc & _) Hin. destruct (chain_steps _ _ _ _ Hc Hin) as (r & k1 & H1 & H2).
  destruct (chain_target k loop k s k1 Hc) as [t Ht]; auto; [|eauto 6].
  destruct loop as [|s0 loop]; [contradiction|]. inversion Hc as [|? ? ? ? ? (r' & Hr' & _) _]; subst. eauto.
Qed.

Lemma report_blames loop msg : simple_loop v loop -> In (err msg) (report_loop sn v loop) ->
  exists pre s, loop = (pre ++ [s])%list /\ blames msg s.
Proof.
  intros Hs Hin. assert (Hne : loop <> []) by (destruct Hs as (k & _ & H & _); exact H).
  destruct loop as [|s [|s' loop]]; [contradiction| |].
  - exists [], s. split; [reflexivity|]. unfold report_loop in Hin. destruct Hin as [[= <-]|[]].
    destruct (simple_loop_steps _ s Hs (or_introl eq_refl)) as (r & _ & _ & Hr & _). split.
    + exists "Locator ". eexists. rewrite !sapp_assoc. reflexivity.
    + exists (resource_label sn v (fst s)). split; [eapply resource_label_spec; eauto|].
      exists ("Locator '" ++ camel (l_name (snd s)) ++ "' introduces a loop, it is defined in resource "). eexists.
      rewrite !sapp_assoc. reflexivity.
  - unfold report_loop in Hin. cbn [concat app] in Hin.
    assert (El : exists pre, (s :: s' :: loop) = (pre ++ [last (s' :: loop) s])%list).
    { exists (s :: removelast (s' :: loop)). cbn [app]. apply f_equal. apply (app_removelast_last s (l := s' :: loop)). discriminate. }
    destruct El as [pre El]. exists pre, (last (s' :: loop) s). split; [assumption|].
    assert (Hl : In (last (s' :: loop) s) (s :: s' :: loop)) by (rewrite El; apply in_app_iff; simpl; auto).
    destruct (simple_loop_steps _ _ Hs Hl) as (r & _ & _ & Hr & _).
    destruct Hin as [[= <-]|[[=]|Hin]].
    + split.
      * exists "Locator ". eexists. rewrite !sapp_assoc. reflexivity.
      * exists (resource_label sn v (fst (last (s' :: loop) s))). split; [eapply resource_label_spec; eauto|].
        exists ("Locator '" ++ camel (l_name (snd (last (s' :: loop) s))) ++ "' defined in resource "). eexists.
        rewrite !sapp_assoc. reflexivity.
    + exfalso. apply in_app_iff in Hin as [Hin|Hin].
      * apply in_map_iff in Hin as (x & Hx & _). discriminate.
      * destruct Hin as [[=]|[]].
Qed.

Lemma describe_describes what s msg loop : simple_loop v loop -> In s loop ->
  msg = what ++ " locator of the loop is '" ++ camel (l_name (snd s)) ++ "' defined in resource '" ++
        resource_label sn v (fst s) ++ "' and targeting resource '" ++ target_label sn v s ++ "'" ->
  describes msg s.
Proof.
  intros Hs Hin ->. destruct (simple_loop_steps _ s Hs Hin) as (r & k & t & Hr & Ht & Hk). split; [split|].
  - exists (what ++ " locator of the loop is "). eexists. rewrite !sapp_assoc. reflexivity.
  - exists (resource_label sn v (fst s)). split; [eapply resource_label_spec; eauto|].
    exists (what ++ " locator of the loop is '" ++ camel (l_name (snd s)) ++ "' defined in resource "). eexists.
    rewrite !sapp_assoc. reflexivity.
  - exists k, (resource_label sn v k). split; [assumption|]. split; [eapply resource_label_spec; eauto|].
    exists (what ++ " locator of the loop is '" ++ camel (l_name (snd s)) ++ "' defined in resource '" ++
        resource_label sn v (fst s) ++ "' and targeting resource "), "".
    unfold target_label. rewrite Ht. rewrite !sapp_assoc. reflexivity.
Qed.

Lemma report_describes loop s : simple_loop v loop -> In s loop -> (1 < List.length loop)%nat ->
  exists msg, In (info msg) (report_loop sn v loop) /\ describes msg s.
Proof.
  intros Hs Hin Hlen. destruct loop as [|s0 [|s1 loop]]; [contradiction|simpl in Hlen; lia|].
  unfold report_loop. cbn [concat app].
  assert (C : s = s0 \/ In s (removelast (s1 :: loop)) \/ s = last (s1 :: loop) s0).
  { destruct Hin as [<-|Hin]; [auto|]. right. rewrite (app_removelast_last s0 (l := s1 :: loop)) in Hin by discriminate.
    apply in_app_iff in Hin as [Hin|[<-|[]]]; auto. }
  destruct C as [->|[C| ->]]; eexists; (split; [|eapply (describe_describes _ _ _ _ Hs Hin); reflexivity]).
  - right. left. reflexivity.
  - right. right. apply in_app_iff. left. apply in_map_iff. exists s. split; [reflexivity|assumption].
  - right. right. apply in_app_iff. right. left. reflexivity.
Qed.

Lemma loop_messages fuel rs msg : check_locator_loops fuel sn v = Done rs -> In (err msg) rs ->
  exists pre s, simple_loop v (pre ++ [s]) /\ blames msg s /\
    (pre <> [] -> forall x, In x (pre ++ [s])%list -> exists note, In (info note) rs /\ describes note x).
Proof.
  intros E H. destruct (loops_done _ _ E) as (_ & Hh & Hr). destruct (Hr _ H) as (q & loop & H1 & H2 & H3).
  pose proof (closes_loop _ _ H1 H2) as Hs. destruct (report_blames _ _ Hs H3) as (pre & s & -> & Hb).
  exists pre, s. split; [assumption|]. split; [assumption|]. intros Hpre x Hx.
  destruct (report_describes _ x Hs Hx) as (note & Hn & Hd).
  { rewrite app_length. destruct pre; [contradiction|]. simpl. lia. }
  exists note. split; [|assumption]. destruct H2 as (s1 & q1 & k1 & -> & Ht & Hc).
  destruct (Hh _ H1) as (s2 & q2 & k2 & E2 & Ht2 & Hin). injection E2 as <- <-. rewrite Ht in Ht2. injection Ht2 as <-.
  destruct Hin as (loop' & Hc' & Hi).
  - destruct (in_dec String.string_dec k1 (map fst (s1 :: q1))) as [|Hni]; [assumption|].
    apply (cut_none k1 (s1 :: q1) []) in Hni. congruence.
  - rewrite Hc in Hc'. injection Hc' as <-. now apply Hi.
Qed.

Lemma every_loop_blamed fuel rs loop : check_locator_loops fuel sn v = Done rs -> simple_loop v loop ->
  exists s msg, In s loop /\ In (err msg) rs /\ blames msg s.
Proof.
  intros E Hs. destruct (simple_loops_reported _ _ _ E Hs) as (a & b & -> & Hi).
  assert (Hs2 : simple_loop v (b ++ a)).
  { destruct Hs as (k & Hre & Hne & Hc & Hnd). apply chain_split in Hc as (k1 & C1 & C2).
    exists k1. split; [|split; [|split]].
    - destruct Hre as [ls Hw]. exists (ls ++ map snd a)%list. eapply walk_app; [exact Hw|now apply chain_walk].
    - destruct a, b; try discriminate; contradiction.
    - eapply chain_app; eauto.
    - eapply Permutation_NoDup; [|exact Hnd]. apply Permutation_map, Permutation_app_comm. }
  destruct (report_loop_error (b ++ a)) as [m Hm].
  { destruct Hs2 as (k & _ & H & _). exact H. }
  destruct (report_blames _ _ Hs2 Hm) as (pre & s & Ep & Hb). exists s, m. split; [|split; [now apply Hi|assumption]].
  assert (Hin : In s (b ++ a)%list) by (rewrite Ep; apply in_app_iff; simpl; auto).
  apply in_app_iff. apply in_app_iff in Hin. tauto.
Qed.

End Search.
End Chains.
