(** Proofs about the enumeration of paths, and about the termination of the reader. *)
From Coq Require Import Ascii String Bool Arith ZArith Lia Permutation Sorted List.
From Verif Require Import GoStrings GoStringsProofs GoMap GoMapProofs NamesModel NamesSpec NamesProofs
  ConceptsModel ConceptsSpec ConceptsProofs ReporterModel ReaderModel ChecksModel ReaderSpec ReaderProofs
  ReaderProofs4 ReaderProofs5 ReaderProofs6 ReaderProofs7 ChecksSpec ChecksProofs ChecksProofs2 LoopsProofs
  PathsModel.
Import ListNotations.
Local Open Scope string_scope.

Section Paths.
Context (v : version).

Definition ext (p : list locator) : list (list locator) :=
  match extensions v p with Some es => es | None => [] end.

Lemma loop_level L : forall R acc fuel, (forall p, In p L -> extensions v p <> None) ->
  paths_loop (List.length L + fuel) v acc (L ++ R)%list = paths_loop fuel v (acc ++ L)%list (R ++ flat_map ext L)%list.
Proof.
  induction L as [|p L IH]; intros R acc fuel H.
  - simpl. now rewrite !app_nil_r.
  - cbn [List.length Nat.add app paths_loop flat_map]. unfold ext at 1.
    destruct (extensions v p) as [es|] eqn:E; [|exfalso; apply (H p); [now left|assumption]].
    rewrite <- app_assoc. rewrite IH by (intros q Hq; apply H; now right).
    rewrite <- !app_assoc. reflexivity.
Qed.

Fixpoint level (n : nat) : list (list locator) :=
  match n with
  | O => []
  | S O => match root v with Some r => map (fun l => [l]) (r_locators r) | None => [] end
  | S m => flat_map ext (level m)
  end.

Lemma level_next n : (1 <= n)%nat -> level (S n) = flat_map ext (level n).
Proof. destruct n; [lia|reflexivity]. Qed.

Lemma walk_last ls k : walk v "root" ls k -> ls <> [] ->
  exists ls' l k', ls = (ls' ++ [l])%list /\ walk v "root" ls' k' /\ follows v k' l k.
Proof.
  intros Hw Hne. destruct (exists_last Hne) as (ls' & l & ->). apply walk_split in Hw as (k' & H1 & H2).
  exists ls', l, k'. split; [reflexivity|]. split; [assumption|]. inversion H2 as [|? ? ? ? ? Hf Hn]; subst.
  now inversion Hn; subst.
Qed.

Lemma extensions_last p l : extensions v (p ++ [l])%list =
  match l_target l with
  | None => None
  | Some k => match mget k (v_resources v) with
              | None => None
              | Some r => Some (map (fun x => (p ++ [l]) ++ [x])%list (r_locators r))
              end
  end.
Proof. unfold extensions. rewrite rev_app_distr. reflexivity. Qed.

Lemma walk_extensions p k r : walk v "root" p k -> p <> [] -> mget k (v_resources v) = Some r ->
  extensions v p = Some (map (fun x => p ++ [x])%list (r_locators r)).
Proof.
  intros Hw Hne Hr. destruct (walk_last _ _ Hw Hne) as (p' & l & k' & -> & _ & (r' & _ & _ & Ht)).
  rewrite extensions_last, Ht, Hr. reflexivity.
Qed.

Section Ok.
Context (r0 : resource) (Hroot : root v = Some r0) (Hdead : ~ has_dead_end v) (Hexist : targets_exist v).

Lemma step_ok k r l : reachable v k -> mget k (v_resources v) = Some r -> In l (r_locators r) ->
  exists k' r', l_target l = Some k' /\ mget k' (v_resources v) = Some r'.
Proof.
  intros Hk Hr Hl. destruct (l_target l) as [k'|] eqn:E.
  - destruct (Hexist _ _ _ _ Hr Hl E) as [r' H]. eauto.
  - exfalso. apply Hdead. exists k, r, l. auto.
Qed.

Lemma walk_resource ls k : walk v "root" ls k -> exists r, mget k (v_resources v) = Some r.
Proof.
  intros Hw. destruct (list_eq_nil ls) as [->|Hne].
  - inversion Hw; subst. exists r0. exact Hroot.
  - destruct (walk_last _ _ Hw Hne) as (p' & l & k' & _ & _ & (r' & H1 & H2 & Ht)). eauto.
Qed.

Lemma level_spec n p : (1 <= n)%nat -> (In p (level n) <-> List.length p = n /\ exists k, walk v "root" p k).
Proof.
  intros Hn. revert p. induction n as [|n IH]; [lia|]. intros p. destruct n as [|n].
  - cbn [level]. rewrite Hroot, in_map_iff. split.
    + intros (l & <- & Hl). split; [reflexivity|].
      destruct (step_ok "root" r0 l) as (k' & r' & H1 & H2); auto; [exists []; constructor|].
      exists k'. econstructor; [|constructor]. exists r0. auto.
    + intros [Hlen (k & Hw)]. destruct p as [|l [|]]; try discriminate.
      inversion Hw as [|? ? ? ? ? (r & Hr & Hl & Ht) Hn']; subst. exists l. split; [reflexivity|].
      rewrite <- root_key, Hroot in Hr. injection Hr as <-. exact Hl.
  - rewrite level_next by lia. specialize (IH ltac:(lia)). rewrite in_flat_map. split.
    + intros (q & Hq & Hp). apply IH in Hq as [Hlen (k & Hw)]. destruct (walk_resource _ _ Hw) as [r Hr].
      unfold ext in Hp. rewrite (walk_extensions q k r Hw) in Hp; [|intros ->; discriminate|assumption].
      apply in_map_iff in Hp as (x & <- & Hx). split; [rewrite app_length, Hlen; simpl; lia|].
      destruct (step_ok k r x) as (k' & r' & H1 & H2); auto; [now exists q|].
      exists k'. eapply walk_app; [exact Hw|]. econstructor; [|constructor]. exists r. auto.
    + intros [Hlen (k & Hw)]. destruct (walk_last _ _ Hw) as (q & l & k' & -> & Hq & (r & Hr & Hl & Ht)); [intros ->; discriminate|].
      rewrite app_length in Hlen. simpl in Hlen. exists q. split; [apply IH; split; [lia|eauto]|].
      unfold ext. rewrite (walk_extensions q k' r Hq); [|intros ->; simpl in Hlen; lia|assumption].
      apply in_map_iff. eauto.
Qed.

Lemma level_ok n p : (1 <= n)%nat -> In p (level n) -> extensions v p <> None.
Proof.
  intros Hn Hp. apply level_spec in Hp as [Hlen (k & Hw)]; [|assumption]. destruct (walk_resource _ _ Hw) as [r Hr].
  rewrite (walk_extensions p k r Hw); [discriminate|intros ->; simpl in Hlen; lia|assumption].
Qed.

Definition levels (n : nat) : list (list locator) := concat (map level (seq 1 n)).

Lemma levels_next n : levels (S n) = (levels n ++ level (S n))%list.
Proof.
  unfold levels. rewrite seq_S, map_app, concat_app. simpl. now rewrite app_nil_r.
Qed.

Lemma loop_levels n : forall fuel,
  paths_loop (List.length (levels n) + fuel) v [] (level 1) = paths_loop fuel v (levels n) (level (S n)).
Proof.
  induction n as [|n IH]; intros fuel; [reflexivity|].
  rewrite levels_next, app_length, <- Nat.add_assoc, IH.
  rewrite <- (app_nil_r (level (S n))) at 2. rewrite loop_level by (intros p; apply level_ok; lia).
  rewrite (level_next (S n)) by lia. reflexivity.
Qed.

Lemma levels_in n p : In p (levels n) <-> (1 <= List.length p <= n)%nat /\ exists k, walk v "root" p k.
Proof.
  unfold levels. rewrite in_concat. split.
  - intros (x & Hx & Hp). apply in_map_iff in Hx as (i & <- & Hi). apply in_seq in Hi.
    apply level_spec in Hp as [H1 H2]; [|lia]. split; [lia|assumption].
  - intros [H1 H2]. exists (level (List.length p)). split; [apply in_map_iff; exists (List.length p); split; [reflexivity|apply in_seq; lia]|].
    apply level_spec; [lia|auto].
Qed.

Lemma levels_sorted n : StronglySorted (fun p q => List.length p <= List.length q)%nat (levels n).
Proof.
  induction n as [|n IH]; [constructor|]. rewrite levels_next.
  assert (H1 : forall p, In p (levels n) -> (List.length p <= n)%nat) by (intros p Hp; apply levels_in in Hp; lia).
  assert (H2 : forall p, In p (level (S n)) -> List.length p = S n) by (intros p Hp; apply level_spec in Hp; [tauto|lia]).
  revert IH H1. generalize (levels n) as l. induction l as [|p l IHl]; intros Hs H1.
  - cbn [app]. clear H1 Hs. revert H2. generalize (level (S n)) as l. intros l. induction l as [|q l IHl]; intros H2; [constructor|].
    constructor; [apply IHl; intros; apply H2; now right|]. apply Forall_forall. intros x Hx.
    rewrite (H2 q), (H2 x); simpl; auto.
  - inversion Hs; subst. cbn [app]. constructor; [apply IHl; auto; intros; apply H1; now right|].
    apply Forall_app. split; [assumption|]. apply Forall_forall. intros x Hx. rewrite (H2 x Hx).
    specialize (H1 p (or_introl eq_refl)). lia.
Qed.

Lemma nodup_flat {A B} (f : A -> list B) l : NoDup l -> (forall a, In a l -> NoDup (f a)) ->
  (forall a a' b, In a l -> In a' l -> In b (f a) -> In b (f a') -> a = a') -> NoDup (flat_map f l).
Proof.
  induction l as [|a l IH]; intros Hnd H1 H2; [constructor|]. inversion Hnd; subst. cbn [flat_map].
  assert (G : forall l1 l2 : list B, NoDup l1 -> NoDup l2 -> (forall b, In b l1 -> ~ In b l2) -> NoDup (l1 ++ l2)%list).
  { clear. induction l1 as [|b l1 IH]; intros l2 N1 N2 D; [assumption|]. inversion N1; subst. simpl. constructor.
    - intros Hin. apply in_app_iff in Hin as [Hin|Hin]; [contradiction|]. apply (D b); simpl; auto.
    - apply IH; auto. intros x Hx. apply D. now right. }
  apply G.
  - apply H1. now left.
  - apply IH; auto; [intros; apply H1; now right|]. intros x x' b Hx Hx'. apply H2; now right.
  - intros b Hb Hin. apply in_flat_map in Hin as (a' & Ha' & Hb'). assert (a = a') by (eapply H2; simpl; eauto). subst. contradiction.
Qed.

Lemma nodup_map {A B} (f : A -> B) l : (forall a b, f a = f b -> a = b) -> NoDup l -> NoDup (map f l).
Proof.
  intros Hf. induction 1 as [|a l Hn Hnd IH]; [constructor|]. simpl. constructor; [|assumption].
  intros H. apply in_map_iff in H as (b & E & Hb). apply Hf in E. subst. contradiction.
Qed.

Lemma level_nodup n : (forall k r, mget k (v_resources v) = Some r -> NoDup (r_locators r)) -> NoDup (level n).
Proof.
  intros Hnd. induction n as [|n IH]; [constructor|]. destruct n as [|n].
  - cbn [level]. rewrite Hroot. apply nodup_map; [intros a b [= ->]; reflexivity|]. exact (Hnd _ _ Hroot).
  - rewrite level_next by lia. apply nodup_flat; auto.
    + intros p Hp. unfold ext. apply level_spec in Hp as [Hlen (k & Hw)]; [|lia]. destruct (walk_resource _ _ Hw) as [r Hr].
      rewrite (walk_extensions p k r Hw); [|intros ->; discriminate|assumption].
      apply nodup_map; [|eauto]. intros a b E. apply app_inv_head in E. now injection E.
    + intros p p' q Hp Hp' Hq Hq'.
      assert (G : forall p, In p (level (S n)) -> In q (ext p) -> exists x, q = (p ++ [x])%list).
      { clear. intros p Hp Hq. unfold ext, extensions in Hq. destruct (rev p) as [|x]; [contradiction|].
        destruct (l_target x); [|contradiction]. destruct (resource_at k v); [|contradiction].
        apply in_map_iff in Hq as (y & <- & _). eauto. }
      destruct (G p Hp Hq) as [x ->]. destruct (G p' Hp' Hq') as [y E]. now apply app_inj_tail in E.
Qed.

Lemma levels_nodup n : (forall k r, mget k (v_resources v) = Some r -> NoDup (r_locators r)) -> NoDup (levels n).
Proof.
  intros Hnd. unfold levels. rewrite <- flat_map_concat_map. apply nodup_flat.
  - apply seq_NoDup.
  - intros i _. now apply level_nodup.
  - intros i j p Hi Hj Hp Hp'. apply in_seq in Hi. apply in_seq in Hj.
    apply level_spec in Hp as [<- _]; [|lia]. apply level_spec in Hp' as [<- _]; [|lia]. reflexivity.
Qed.

Lemma paths_spec : ~ has_loop v ->
  exists n ps, (forall fuel, (n <= fuel)%nat -> paths fuel v = Done ps) /\
    (forall p, In p ps <-> p <> [] /\ exists k, walk v "root" p k) /\
    StronglySorted (fun p q => List.length p <= List.length q)%nat ps /\
    ((forall k r, mget k (v_resources v) = Some r -> NoDup (r_locators r)) -> NoDup ps).
Proof.
  intros Hl. set (N := List.length (v_resources v)).
  assert (Hlen : forall p k, walk v "root" p k -> (List.length p <= N)%nat).
  { intros p k Hw. destruct (le_gt_dec (List.length p) N) as [|Hgt]; [assumption|]. exfalso. apply Hl.
    exact (long_walk_loops v p k Hw Hgt). }
  assert (E : level (S N) = []).
  { destruct (level (S N)) as [|p l] eqn:E; [reflexivity|]. exfalso.
    assert (Hp : In p (level (S N))) by (rewrite E; now left). apply level_spec in Hp as [H1 (k & H2)]; [|lia].
    apply Hlen in H2. lia. }
  exists (List.length (levels N)), (levels N). split.
  - intros fuel Hf. unfold paths. rewrite Hroot. change (map (fun l => [l]) (r_locators r0)) with (map (fun l : locator => [l]) (r_locators r0)).
    replace (map (fun l : locator => [l]) (r_locators r0)) with (level 1) by (cbn [level]; now rewrite Hroot).
    replace fuel with (List.length (levels N) + (fuel - List.length (levels N)))%nat by lia.
    rewrite loop_levels, E. destruct (fuel - _)%nat; reflexivity.
  - split; [|split; [apply levels_sorted|intros H; now apply levels_nodup]].
    intros p. rewrite levels_in. split.
    + intros [H1 H2]. split; [intros ->; simpl in H1; lia|assumption].
    + intros [H1 (k & H2)]. split; [|eauto]. pose proof (Hlen _ _ H2). destruct p; [contradiction|]. simpl in *. lia.
Qed.

(** With loops it doesn't terminate. *)
Lemma loop_closed fuel : forall acc pend ps, paths_loop fuel v acc pend = Done ps ->
  (forall p, In p acc -> incl (ext p) (acc ++ pend)%list) ->
  incl (acc ++ pend)%list ps /\ forall p, In p ps -> incl (ext p) ps.
Proof.
  induction fuel as [|fuel IH]; intros acc pend ps E H.
  - destruct pend; [|discriminate]. injection E as <-. rewrite app_nil_r in *. split; [apply incl_refl|assumption].
  - destruct pend as [|p pend]; cbn [paths_loop] in E.
    + injection E as <-. rewrite app_nil_r in *. split; [apply incl_refl|assumption].
    + destruct (extensions v p) as [es|] eqn:Ee; [|discriminate]. apply IH in E as [E1 E2].
      * split; [|assumption]. intros x Hx. apply E1. repeat rewrite in_app_iff in *. simpl in *. tauto.
      * intros q Hq x Hx. apply in_app_iff in Hq as [Hq|[<-|[]]].
        -- apply (H q Hq) in Hx. repeat rewrite in_app_iff in *. simpl in *. tauto.
        -- unfold ext in Hx. rewrite Ee in Hx. repeat rewrite in_app_iff. tauto.
Qed.

Lemma paths_no_loop fuel ps : paths fuel v = Done ps -> ~ has_loop v.
Proof.
  intros E Hl. unfold paths in E. rewrite Hroot in E. apply loop_closed in E as [E1 E2]; [|intros p []].
  simpl in E1.
  assert (Hall : forall p k, walk v "root" p k -> p <> [] -> In p ps).
  { intros p. induction p as [|l p IH] using rev_ind; intros k Hw Hne; [contradiction|]. clear Hne.
    destruct (walk_last _ _ Hw) as (q & x & k' & Eq & Hq & (r & Hr & Hlr & Ht)); [now destruct p|].
    apply app_inj_tail in Eq as [<- <-]. destruct (list_eq_nil p) as [->|Hne].
    - apply E1. inversion Hq; subst. rewrite <- root_key, Hroot in Hr. injection Hr as <-. simpl.
      apply in_map_iff. eauto.
    - apply (E2 p); [eauto|]. unfold ext. rewrite (walk_extensions p k' r Hq Hne Hr). apply in_map_iff. eauto. }
  destruct (loop_long_walk v Hl (S (list_max (map (@List.length locator) ps)))) as (ls & k & Hw & Hlen & Hne).
  pose proof (Hall _ _ Hw Hne) as Hin. assert (M : Forall (fun k => k <= list_max (map (@List.length locator) ps))%nat (map (@List.length locator) ps)).
  { now apply list_max_le. }
  rewrite Forall_forall in M. specialize (M (List.length ls)). apply (in_map (@List.length locator)) in Hin.
  specialize (M Hin). lia.
Qed.

End Ok.
End Paths.

(** * The complete reader *)

Lemma wf_targets v : wf_version v -> targets_exist v.
Proof.
  intros [_ W] k r l k' Hr Hl Ht. destruct (W k r Hr) as [_ H]. exact (H l Hl k' Ht).
Qed.

Lemma check_version_outcome sn v : targets_exist v ->
  (check_version sn v = Panics <-> root v = None \/ has_dead_end v) /\ check_version sn v <> OutOfFuel.
Proof.
  intros Ht. destruct (loops_exact v sn (loop_fuel v) Ht) as (H1 & _ & H3).
  { unfold loop_fuel. apply Nat.le_succ_diag_r. }
  unfold check_version. cbv zeta. destruct (check_locator_loops (loop_fuel v) sn v).
  - split; [|discriminate]. rewrite <- H1. split; discriminate.
  - split; [|discriminate]. rewrite <- H1. split; reflexivity.
  - contradiction.
Qed.

Lemma run_all_outcome {A} (f : A -> outcome (list report)) l : (forall a, In a l -> f a <> OutOfFuel) ->
  (run_all f l = Panics <-> exists a, In a l /\ f a = Panics) /\ run_all f l <> OutOfFuel.
Proof.
  intros H. assert (Hno : run_all f l <> OutOfFuel).
  { intros E. apply run_all_fuel in E as (a & Ha & E). now apply (H a). }
  split; [|assumption]. split; [apply run_all_panics|]. intros (a & Ha & E).
  destruct (run_all f l) eqn:Er; [|reflexivity|contradiction].
  destruct (run_all_in _ _ _ _ Er Ha) as (x & Hx & _). congruence.
Qed.

Lemma services_in m s : indexed s_name m -> (In s (services m) <-> in_model m s).
Proof.
  intros [Hnd _]. unfold services, in_model. rewrite sort_in. unfold mvals. rewrite in_map_iff. split.
  - intros ([k a] & <- & H). exists k. now apply mget_in_iff.
  - intros [k H]. exists (k, s). split; [reflexivity|]. now apply mget_in.
Qed.
Lemma versions_in s v : indexed v_name (s_versions s) -> (In v (versions s) <-> in_service s v).
Proof.
  intros [Hnd _]. unfold versions, in_service. rewrite sort_in. unfold mvals. rewrite in_map_iff. split.
  - intros ([k a] & <- & H). exists k. now apply mget_in_iff.
  - intros [k H]. exists (k, v). split; [reflexivity|]. now apply mget_in.
Qed.

Lemma mset_indexed_fold {A} (nf : A -> name) l : forall m, indexed nf m ->
  indexed nf (fold_left (fun m a => mset (name_key (nf a)) a m) l m).
Proof. induction l as [|a l IH]; intros m H; [assumption|]. cbn [fold_left]. apply IH. now apply indexed_mset. Qed.

Lemma ensure_service_indexed s : indexed v_name (s_versions s) -> indexed v_name (s_versions (ensure_service_lists s)).
Proof.
  unfold ensure_service_lists. generalize (versions s) as l. intros l. revert s.
  induction l as [|v l IH]; intros s H; [assumption|]. cbn [fold_left]. apply IH. simpl. now apply indexed_mset.
Qed.
Lemma ensure_model_indexed m : indexed s_name m -> indexed s_name (ensure_model_lists m).
Proof.
  unfold ensure_model_lists. generalize (services m) as l. intros l. revert m.
  induction l as [|v l IH]; intros s H; [assumption|]. cbn [fold_left]. apply IH. unfold add_service. now apply indexed_mset.
Qed.

Lemma follows_ensure v k l k' : indexed t_name (v_types v) -> (follows (ensure_lists v) k l k' <-> follows v k l k').
Proof.
  intros Hix. unfold follows. destruct (ensure_lists_spec v Hix) as (_ & E & _). cbv zeta in E. now rewrite E.
Qed.
Lemma walk_ensure v k ls k' : indexed t_name (v_types v) -> (walk (ensure_lists v) k ls k' <-> walk v k ls k').
Proof.
  intros Hix. split; induction 1; try constructor; econstructor; eauto; now apply follows_ensure.
Qed.
Lemma dead_end_ensure v : indexed t_name (v_types v) -> (has_dead_end (ensure_lists v) <-> has_dead_end v).
Proof.
  intros Hix. unfold has_dead_end, reachable. destruct (ensure_lists_spec v Hix) as (_ & E & _). cbv zeta in E. rewrite E.
  split; intros (k & r & l & (ls & Hw) & H); exists k, r, l; (split; [exists ls|assumption]); apply (walk_ensure v _ _ _ Hix); exact Hw.
Qed.
Lemma root_ensure v : indexed t_name (v_types v) -> root (ensure_lists v) = root v.
Proof.
  intros Hix. unfold root. destruct (ensure_lists_spec v Hix) as (_ & E & _). cbv zeta in E. now rewrite E.
Qed.

Lemma read_outcome inputs rs0 :
  let m := g_model (load_inputs inputs rs0) in
  (read inputs rs0 = Panics <->
   exists s v, in_model m s /\ in_service s v /\ (root v = None \/ has_dead_end v)) /\
  read inputs rs0 <> OutOfFuel.
Proof.
  cbv zeta. set (g := load_inputs inputs rs0). destruct (loaded_versions inputs rs0) as [Hix Hs]. cbv zeta in *.
  fold g in Hix, Hs.
  pose proof (ensure_model_indexed _ Hix) as Hix'.
  assert (V : forall s v, in_model (ensure_model_lists (g_model g)) s -> in_service s v -> targets_exist v).
  { intros s v H1 H2. destruct (returned_version inputs rs0 s v H1 H2) as (s1 & v1 & _ & _ & -> & -> & Hok1 & Hw1 & _).
    apply wf_targets. now apply ensure_lists_wf. }
  assert (IS : forall s, in_model (ensure_model_lists (g_model g)) s -> indexed v_name (s_versions s)).
  { intros s [k H]. rewrite (ensure_model_spec _ _ Hix) in H.
    destruct (mget k (g_model g)) as [s1|] eqn:E1; [|discriminate]. injection H as <-.
    apply ensure_service_indexed. apply (Hs s1). eexists; exact E1. }
  assert (C : (check_model (ensure_model_lists (g_model g)) = Panics <->
     exists s v, in_model (g_model g) s /\ in_service s v /\ (root v = None \/ has_dead_end v)) /\
     check_model (ensure_model_lists (g_model g)) <> OutOfFuel).
  { assert (S : forall s, in_model (ensure_model_lists (g_model g)) s ->
      (check_service s = Panics <-> exists v, in_service s v /\ (root v = None \/ has_dead_end v)) /\ check_service s <> OutOfFuel).
    { intros s H. unfold check_service.
      assert (Hv : forall v, In v (versions s) -> targets_exist v) by (intros v Hv; apply (V s); [assumption|now apply versions_in in Hv; auto]).
      destruct (run_all_outcome (check_version (s_name s)) (versions s)) as [R1 R2].
      { intros v Hin. apply check_version_outcome. auto. }
      split; [|assumption]. rewrite R1. split; intros (v & H1 & H2); exists v.
      - split; [apply versions_in; auto|]. apply (check_version_outcome (s_name s) v); auto.
      - apply versions_in in H1; [|auto]. split; [assumption|]. apply check_version_outcome; auto. }
    unfold check_model.
    destruct (run_all_outcome check_service (services (ensure_model_lists (g_model g)))) as [R1 R2].
    { intros s H. apply S. now apply services_in in H. }
    split; [|assumption]. rewrite R1. split.
    - intros (s & H1 & H2). apply services_in in H1; [|assumption]. apply S in H2 as (v & Hv & Hd); [|assumption].
      destruct (returned_version inputs rs0 s v H1 Hv) as (s1 & v1 & Hs1 & Hv1 & -> & -> & Hok1 & _).
      exists s1, v1. split; [assumption|]. split; [assumption|].
      rewrite root_ensure, dead_end_ensure in Hd by apply Hok1. exact Hd.
    - intros (s & v & [ks H1] & [kv H2] & Hd).
      assert (H1' : in_model (ensure_model_lists (g_model g)) (ensure_service_lists s)).
      { exists ks. rewrite (ensure_model_spec _ _ Hix), H1. reflexivity. }
      destruct (Hs s (ex_intro _ ks H1)) as [Hixv Hvp]. destruct (Hvp v (ex_intro _ kv H2)) as [Hok _].
      exists (ensure_service_lists s). split; [now apply services_in|]. apply S; [assumption|].
      exists (ensure_lists v). split; [exists kv; rewrite (ensure_service_spec _ _ Hixv), H2; reflexivity|].
      rewrite root_ensure, dead_end_ensure by apply Hok. exact Hd. }
  unfold read. cbv zeta. fold g. destruct (check_model (ensure_model_lists (g_model g))).
  - split; [|discriminate]. rewrite <- (proj1 C). split; discriminate.
  - split; [|discriminate]. rewrite <- (proj1 C). split; reflexivity.
  - destruct C as [_ C]. contradiction.
Qed.

(** Returned models have no loops, so their paths can be enumerated. *)
Lemma returned_no_loops inputs rs0 m rs s v :
  read inputs rs0 = Done (ROk m, rs) -> in_model m s -> in_service s v ->
  (exists r, root v = Some r) /\ ~ has_dead_end v /\ targets_exist v /\ ~ has_loop v.
Proof.
  intros E Hs Hv. destruct (returned_model_sound _ _ _ _ _ _ E Hs Hv) as (Hn & _ & Ht & Hr & _).
  split; [assumption|].
  apply read_spec in E. cbv zeta in E. destruct E as (cs & Ec & Ers & Er).
  destruct (decide_spec (ensure_model_lists (g_model (load_inputs inputs rs0))) rs) as [D1 _].
  symmetry in Er. apply D1 in Er as [_ ->].
  destruct (returned_version inputs rs0 s v Hs Hv) as (s1 & v1 & _ & _ & -> & -> & Hok1 & Hw1 & _).
  assert (Hte : targets_exist (ensure_lists v1)) by (apply wf_targets; now apply ensure_lists_wf).
  destruct (checked_version _ _ _ _ Ec Hs Hv) as (x & Ex & Hx).
  unfold check_version in Ex. cbv zeta in Ex.
  destruct (check_locator_loops (loop_fuel (ensure_lists v1)) (s_name (ensure_service_lists s1)) (ensure_lists v1)) as [l| |] eqn:El; try discriminate.
  injection Ex as <-. split; [eapply loops_done_targets; eauto|]. split; [assumption|].
  intros Hl. destruct (loops_complete _ _ _ _ El Hl) as [msg Hm]. apply (Hn msg). rewrite Ers.
  apply in_app_iff. right. apply in_app_iff. right. apply Hx. apply in_app_iff. right. exact Hm.
Qed.
