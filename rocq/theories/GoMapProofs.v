(** Laws of the model of maps and of sorting. *)
From Coq Require Import Ascii String Bool Arith Lia Permutation Sorted RelationClasses List.
From Verif Require Import GoMap.
Import ListNotations.

(** * Maps *)

Section Maps.
  Context {A : Type}.
  Implicit Types (m : list (string * A)).

  Lemma mget_mset_same k a m : mget k (mset k a m) = Some a.
  Proof.
    induction m as [|[k' a'] m IH]; simpl.
    - now rewrite String.eqb_refl.
    - destruct (String.eqb k k') eqn:E; simpl.
      + now rewrite String.eqb_refl.
      + now rewrite E.
  Qed.

  Lemma mget_mset_other k k' a m : k' <> k -> mget k' (mset k a m) = mget k' m.
  Proof.
    intros Hn. induction m as [|[j b] m IH]; simpl.
    - destruct (String.eqb_spec k' k); [congruence|reflexivity].
    - destruct (String.eqb_spec k j) as [->|Hj]; simpl.
      + destruct (String.eqb_spec k' j); [congruence|reflexivity].
      + now rewrite IH.
  Qed.

  Lemma mget_mset k k' a m : mget k' (mset k a m) = if String.eqb k' k then Some a else mget k' m.
  Proof.
    destruct (String.eqb_spec k' k) as [->|H].
    - apply mget_mset_same.
    - now apply mget_mset_other.
  Qed.

  Lemma mget_none k m : mget k m = None <-> ~ In k (mkeys m).
  Proof.
    induction m as [|[j b] m IH]; simpl; [tauto|].
    destruct (String.eqb_spec k j) as [->|H].
    - split; [discriminate|tauto].
    - rewrite IH. split; [intros H1 [H2|H2]; congruence || tauto | tauto].
  Qed.

  Lemma mget_in k a m : mget k m = Some a -> In (k, a) m.
  Proof.
    induction m as [|[j b] m IH]; simpl; [discriminate|].
    destruct (String.eqb_spec k j) as [->|H].
    - intros E; injection E as ->. now left.
    - auto.
  Qed.

  Lemma mget_in_iff k a m : NoDup (mkeys m) -> (mget k m = Some a <-> In (k, a) m).
  Proof.
    intros Hnd. split; [apply mget_in|].
    induction m as [|[j b] m IH]; simpl; [contradiction|].
    inversion Hnd as [|x y Hx Hy]; subst. intros [E|E].
    - injection E as -> ->. now rewrite String.eqb_refl.
    - destruct (String.eqb_spec k j) as [->|H]; [|auto].
      destruct Hx. apply in_map_iff. exists (j, a). auto.
  Qed.

  Lemma mkeys_mset_in k a m : In k (mkeys m) -> mkeys (mset k a m) = mkeys m.
  Proof.
    induction m as [|[j b] m IH]; simpl; [contradiction|].
    intros H. destruct (String.eqb_spec k j) as [->|Hj]; simpl; [reflexivity|].
    f_equal. apply IH. destruct H; [congruence|assumption].
  Qed.

  Lemma mset_not_in k a m : ~ In k (mkeys m) -> mset k a m = m ++ [(k, a)].
  Proof.
    induction m as [|[j b] m IH]; simpl; [reflexivity|].
    intros H. destruct (String.eqb_spec k j) as [->|Hj]; [tauto|].
    rewrite IH; auto.
  Qed.

  Lemma mkeys_mset k a m j : In j (mkeys (mset k a m)) <-> j = k \/ In j (mkeys m).
  Proof.
    destruct (in_dec String.string_dec k (mkeys m)) as [H|H].
    - rewrite mkeys_mset_in by assumption. split; [auto|]. intros [->|]; assumption.
    - rewrite mset_not_in by assumption. unfold mkeys. rewrite map_app, in_app_iff. simpl.
      intuition congruence.
  Qed.

  Lemma nodup_mset k a m : NoDup (mkeys m) -> NoDup (mkeys (mset k a m)).
  Proof.
    intros H. destruct (in_dec String.string_dec k (mkeys m)) as [Hk|Hk].
    - now rewrite mkeys_mset_in.
    - rewrite mset_not_in by assumption. unfold mkeys. rewrite map_app. simpl.
      apply NoDup_rev in H. rewrite <- (rev_involutive (map fst m ++ [k])).
      apply NoDup_rev. rewrite rev_app_distr. simpl. constructor; [|exact H].
      intros Hi. apply in_rev in Hi. now apply Hk.
  Qed.

  Lemma mget_mdel k k' m : mget k' (mdel k m) = if String.eqb k' k then None else mget k' m.
  Proof.
    induction m as [|[j b] m IH]; simpl; [now destruct (String.eqb k' k)|].
    destruct (String.eqb_spec k j) as [->|Hj]; simpl; rewrite IH.
    - now destruct (String.eqb k' j).
    - destruct (String.eqb_spec k' j) as [->|H]; [|reflexivity].
      destruct (String.eqb_spec j k); [congruence|reflexivity].
  Qed.

  Lemma mdel_in k m j b : In (j, b) (mdel k m) <-> j <> k /\ In (j, b) m.
  Proof.
    induction m as [|[i c] m IH]; simpl; [tauto|].
    destruct (String.eqb_spec k i) as [->|Hi]; simpl; rewrite IH.
    - split; [tauto|]. intros [H [E|E]]; [congruence|tauto].
    - split; [intros [E|E]; [injection E as -> ->|]; intuition congruence|tauto].
  Qed.

  Lemma mhas_mset k k' a m : mhas k' (mset k a m) = String.eqb k' k || mhas k' m.
  Proof. unfold mhas. rewrite mget_mset. now destruct (String.eqb k' k). Qed.

  Lemma mhas_mdel k k' m : mhas k' (mdel k m) = negb (String.eqb k' k) && mhas k' m.
  Proof. unfold mhas. rewrite mget_mdel. now destruct (String.eqb k' k). Qed.

  Lemma mdel_incl k m j : In j (mkeys (mdel k m)) -> In j (mkeys m).
  Proof.
    induction m as [|[i b] m IH]; simpl; [tauto|].
    destruct (String.eqb k i); simpl; tauto.
  Qed.

  Lemma nodup_mdel k m : NoDup (mkeys m) -> NoDup (mkeys (mdel k m)).
  Proof.
    induction m as [|[i b] m IH]; simpl; [auto|]. intros H.
    inversion H as [|x y Hx Hy]; subst.
    destruct (String.eqb k i); simpl; [auto|].
    constructor; [|auto]. intros Hi. apply Hx. eapply mdel_incl; eauto.
  Qed.

  Lemma mset_in k a m j b : NoDup (mkeys m) ->
    (In (j, b) (mset k a m) <-> (j = k /\ b = a) \/ (j <> k /\ In (j, b) m)).
  Proof.
    intros Hnd. rewrite <- (mget_in_iff j b (mset k a m)) by now apply nodup_mset.
    rewrite mget_mset. destruct (String.eqb_spec j k) as [->|H].
    - split; [intros E; injection E; auto|]. intros [[_ ->]|[H _]]; [reflexivity|congruence].
    - rewrite mget_in_iff by assumption. intuition congruence.
  Qed.

  Lemma mhas_true k m : mhas k m = true <-> In k (mkeys m).
  Proof.
    unfold mhas. destruct (mget k m) eqn:E.
    - apply mget_in in E. split; [|reflexivity]. intros _. apply in_map_iff. eexists; split; eauto.
      reflexivity.
    - apply mget_none in E. split; [discriminate|contradiction].
  Qed.

  Lemma mget_some k m : In k (mkeys m) -> exists a, mget k m = Some a.
  Proof.
    intros H. apply mhas_true in H. unfold mhas in H. destruct (mget k m) as [a|]; [eauto|discriminate].
  Qed.

  (** The answers of a map don't depend on the order of the list. *)
  Lemma mget_perm k m m' : NoDup (mkeys m) -> Permutation m m' -> mget k m = mget k m'.
  Proof.
    intros Hnd Hp.
    assert (Hnd' : NoDup (mkeys m')).
    { eapply Permutation_NoDup; [|exact Hnd]. now apply Permutation_map. }
    destruct (mget k m) as [a|] eqn:E.
    - symmetry. apply mget_in_iff; [assumption|]. eapply Permutation_in; [exact Hp|].
      now apply mget_in.
    - symmetry. apply mget_none. apply mget_none in E. intros H. apply E.
      eapply Permutation_in; [|exact H]. apply Permutation_sym. now apply Permutation_map.
  Qed.
End Maps.

(** * Sorting *)

Section Sorting.
  Context {A : Type} (less : A -> A -> bool).

  Definition lt (a b : A) : Prop := less a b = true.

  Lemma insert_perm a l : Permutation (a :: l) (insert_sorted less a l).
  Proof.
    induction l as [|b l IH]; simpl; [apply Permutation_refl|].
    destruct (less a b); [apply Permutation_refl|].
    eapply Permutation_trans; [apply perm_swap|]. now constructor.
  Qed.

  Lemma sort_perm l : Permutation l (sort less l).
  Proof.
    induction l as [|a l IH]; simpl; [constructor|].
    eapply Permutation_trans; [|apply insert_perm]. now constructor.
  Qed.

  Lemma sort_length l : length (sort less l) = length l.
  Proof. apply Permutation_length, Permutation_sym, sort_perm. Qed.

  Lemma sort_in a l : In a (sort less l) <-> In a l.
  Proof.
    split; apply Permutation_in; [apply Permutation_sym|]; apply sort_perm.
  Qed.

  Hypothesis trans : forall a b c, less a b = true -> less b c = true -> less a c = true.

  (** No two different elements of the list are equivalent. *)
  Definition separated (l : list A) : Prop :=
    ForallOrdPairs (fun a b => less a b = true \/ less b a = true) l.

  Lemma separated_perm l l' : Permutation l l' -> separated l -> separated l'.
  Proof.
    unfold separated. intros Hp. induction Hp as [|x l l' Hp IH|x y l|l l' l'' H1 IH1 H2 IH2];
      intros H.
    - exact H.
    - inversion H as [|a b Ha Hb]; subst. constructor; [|auto].
      rewrite Forall_forall in *. intros z Hz. apply Ha.
      eapply Permutation_in; [apply Permutation_sym; exact Hp|exact Hz].
    - inversion H as [|a b Ha Hb]; subst. inversion Hb as [|a' b' Ha' Hb']; subst.
      inversion Ha as [|c d Hc Hd]; subst. constructor.
      + constructor; [tauto|]. assumption.
      + constructor; assumption.
    - auto.
  Qed.

  Lemma insert_sorted_sorted a l :
    StronglySorted lt l -> Forall (fun b => less a b = true \/ less b a = true) l ->
    StronglySorted lt (insert_sorted less a l).
  Proof.
    induction l as [|b l IH]; intros Hs Hc; simpl.
    - constructor; constructor.
    - inversion Hs as [|x y Hy Hx]; subst. inversion Hc as [|c d Hb Hd]; subst.
      destruct (less a b) eqn:E.
      + constructor; [assumption|]. constructor; [exact E|].
        eapply Forall_impl; [|exact Hx]. intros c Hc'. unfold lt in *. eapply trans; eauto.
      + constructor; [auto|]. rewrite Forall_forall in *. intros c Hin.
        eapply Permutation_in in Hin; [|apply Permutation_sym, insert_perm].
        destruct Hin as [<-|Hin]; [|auto]. unfold lt. destruct Hb; congruence.
  Qed.

  Lemma sort_sorted l : separated l -> StronglySorted lt (sort less l).
  Proof.
    induction l as [|a l IH]; intros H; simpl; [constructor|].
    inversion H as [|x y Hx Hy]; subst. apply insert_sorted_sorted; [auto|].
    rewrite Forall_forall in *. intros c Hc. apply Hx. now apply sort_in.
  Qed.

  Hypothesis irrefl : forall a, less a a = false.

  Lemma sorted_unique l : forall l',
    StronglySorted lt l -> StronglySorted lt l' -> Permutation l l' -> l = l'.
  Proof.
    induction l as [|a l IH]; intros l' Hl Hl' Hp.
    - symmetry. now apply Permutation_nil.
    - destruct l' as [|b l']; [now apply Permutation_sym, Permutation_nil in Hp|].
      inversion Hl as [|x y Hy Hx]; subst. inversion Hl' as [|x y Hy' Hx']; subst.
      assert (E : a = b).
      { assert (Ha : In a (b :: l')) by (eapply Permutation_in; [exact Hp|now left]).
        assert (Hb : In b (a :: l))
          by (eapply Permutation_in; [apply Permutation_sym; exact Hp|now left]).
        destruct Ha as [Ha|Ha]; [congruence|]. destruct Hb as [Hb|Hb]; [congruence|].
        rewrite Forall_forall in Hx, Hx'. apply Hx in Hb. apply Hx' in Ha. unfold lt in *.
        assert (C := trans _ _ _ Ha Hb). now rewrite irrefl in C. }
      subst b. f_equal. apply IH; auto. eapply Permutation_cons_inv; exact Hp.
  Qed.

  (** Whatever sorting algorithm is used and whatever the order of the input is, the result is the
      same. *)
  Lemma sort_unique l l' :
    separated l -> Permutation l l' -> StronglySorted lt l' -> l' = sort less l.
  Proof.
    intros Hsep Hp Hs. apply sorted_unique; [assumption|now apply sort_sorted|].
    eapply Permutation_trans; [apply Permutation_sym; exact Hp|apply sort_perm].
  Qed.

  Lemma sort_perm_eq l l' : separated l -> Permutation l l' -> sort less l = sort less l'.
  Proof.
    intros Hsep Hp. symmetry. apply sort_unique; [assumption| |].
    - eapply Permutation_trans; [exact Hp|apply sort_perm].
    - apply sort_sorted. eapply separated_perm; eauto.
  Qed.
End Sorting.
