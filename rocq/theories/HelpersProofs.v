(** Proofs about the helper functions: memory. *)
From Coq Require Import Ascii String Bool Arith ZArith NArith Lia List.
From Verif Require Import GoStrings GoMap GoMapProofs GoTimeModel HelpersModel HelpersSpec.
Import ListNotations.
Local Open Scope string_scope.

(** * Lists *)

Lemma replace_length {A} n (x : A) l : length (replace_nth n x l) = length l.
Proof. revert n. induction l as [|y l IH]; intros [|n]; cbn; auto. Qed.

Lemma nth_replace_same {A} n (x d : A) l : n < length l -> nth n (replace_nth n x l) d = x.
Proof. revert n. induction l as [|y l IH]; intros [|n]; cbn; intros H; auto; try lia. apply IH. lia. Qed.

Lemma nth_replace_other {A} n m (x d : A) l : n <> m -> nth m (replace_nth n x l) d = nth m l d.
Proof. revert n m. induction l as [|y l IH]; intros [|n] [|m]; cbn; intros H; auto; try lia. Qed.

Lemma firstn_replace_after {A} n k (x : A) l : n <= k -> firstn n (replace_nth k x l) = firstn n l.
Proof. revert n k. induction l as [|y l IH]; intros [|n] [|k]; cbn; intros H; auto; try lia. f_equal. apply IH. lia. Qed.

Lemma skipn_replace {A} n k (x : A) l : skipn n (replace_nth (n + k) x l) = replace_nth k x (skipn n l).
Proof. revert l. induction n as [|n IH]; intros l; [reflexivity|]. destruct l; cbn; [now destruct k|]. apply IH. Qed.

Lemma firstn_replace_last {A} n (x : A) l : n < length l -> firstn (n + 1) (replace_nth n x l) = (firstn n l ++ [x])%list.
Proof. revert n. induction l as [|y l IH]; intros [|n]; cbn; intros H; try lia; auto. f_equal. apply IH. lia. Qed.

(** * Arrays and maps *)

Lemma array_new_old h l a : a < length (h_arrays h) -> array_at (fst (new_array l h)) a = array_at h a.
Proof. intros H. unfold array_at, new_array. cbn. now rewrite app_nth1. Qed.

Lemma array_new_same h l : array_at (fst (new_array l h)) (length (h_arrays h)) = l.
Proof. unfold array_at, new_array. cbn. rewrite app_nth2 by lia. now rewrite Nat.sub_diag. Qed.

Lemma array_set_same h l a : a < length (h_arrays h) -> array_at (set_array a l h) a = l.
Proof. intros H. unfold array_at, set_array. cbn. now apply nth_replace_same. Qed.

Lemma array_set_other h l a b : a <> b -> array_at (set_array a l h) b = array_at h b.
Proof. intros H. unfold array_at, set_array. cbn. now apply nth_replace_other. Qed.

Lemma map_set_same h l m : m < length (h_maps h) -> map_at (set_map m l h) m = l.
Proof. intros H. unfold map_at, set_map. cbn. now apply nth_replace_same. Qed.

Lemma map_set_other h l m n : m <> n -> map_at (set_map m l h) n = map_at h n.
Proof. intros H. unfold map_at, set_map. cbn. now apply nth_replace_other. Qed.

Lemma slice_values_ext h h' s : (forall a, in_array s a -> array_at h' a = array_at h a) -> slice_values h' s = slice_values h s.
Proof. destruct s as [|a off len cap]; cbn; auto. intros H. rewrite H; auto. now exists off, len, cap. Qed.

Lemma slice_valid_ext h h' s : length (h_arrays h) <= length (h_arrays h') ->
  (forall a, in_array s a -> length (array_at h' a) = length (array_at h a)) -> slice_valid h s -> slice_valid h' s.
Proof. destruct s as [|a off len cap]; cbn; auto. intros L H. rewrite H by (now exists off, len, cap). lia. Qed.

(** * What an operation changes *)

(** The effect of an operation on a map: the arrays that change were used by the map, the other maps don't
    change, and the arrays that the map uses after it were used before or are new. *)
Definition effect (h h' : heap) (m : nat) : Prop :=
  length (h_arrays h) <= length (h_arrays h') /\ length (h_maps h) <= length (h_maps h') /\
  (forall n, n <> m -> n < length (h_maps h) -> map_at h' n = map_at h n) /\
  (forall a, a < length (h_arrays h) -> (forall p, In p (map_at h m) -> ~ in_array (snd p) a) -> array_at h' a = array_at h a) /\
  (forall a, a < length (h_arrays h) -> length (array_at h' a) = length (array_at h a)) /\
  (forall p a, In p (map_at h' m) -> in_array (snd p) a ->
     length (h_arrays h) <= a \/ exists q, In q (map_at h m) /\ fst q = fst p /\ in_array (snd q) a).

Lemma effect_refl h m : effect h h m.
Proof.
  split; [lia|]. split; [lia|]. split; [auto|]. split; [auto|]. split; [auto|]. intros p a I A. right. exists p. auto.
Qed.

Lemma lookup_in h m name a : in_array (lookup h m name) a -> exists p, In p (map_at h m) /\ fst p = name /\ in_array (snd p) a.
Proof.
  unfold lookup. destruct (mget name (map_at h m)) as [s|] eqn:G.
  - intros H. apply mget_in in G. exists (name, s). auto.
  - intros (? & ? & ? & H). discriminate.
Qed.

(** Appending changes only the array of the slice, and the result is the same array or a new one. *)
Lemma append_effect spare h s x h' s' : slice_append spare h s x = (h', s') -> slice_valid h s ->
  h_maps h' = h_maps h /\ length (h_arrays h) <= length (h_arrays h') /\
  (forall a, a < length (h_arrays h) -> ~ in_array s a -> array_at h' a = array_at h a) /\
  (forall a, a < length (h_arrays h) -> length (array_at h' a) = length (array_at h a)) /\
  (forall a, in_array s' a -> a = length (h_arrays h) \/ in_array s a) /\
  slice_valid h' s' /\ slice_values h' s' = (slice_values h s ++ [x])%list /\ s' <> SliceNil.
Proof.
  unfold slice_append. destruct s as [|a off len cap]; cbn [slice_valid].
  - destruct (new_array (x :: repeat "" spare) h) as [g b] eqn:N. intros E _. injection E as <- <-.
    assert (B : b = length (h_arrays h)) by (now injection N as _ <-). assert (G : g = fst (new_array (x :: repeat "" spare) h)) by now rewrite N.
    subst g b. split; [reflexivity|]. split; [cbn; rewrite app_length; lia|]. split; [intros; now apply array_new_old|].
    split; [intros; now rewrite array_new_old|]. split; [intros a (? & ? & ? & E); injection E as <-; auto|].
    split; [|split; [|discriminate]].
    + cbn [slice_valid]. rewrite array_new_same. cbn. rewrite app_length, repeat_length. cbn. lia.
    + cbn [slice_values]. rewrite array_new_same. cbn. reflexivity.
  - intros E (Va & Vl & Vc). destruct (Nat.ltb_spec len cap) as [L|L].
    + injection E as <- <-. split; [reflexivity|]. split; [cbn; rewrite replace_length; lia|].
      split; [intros b Hb Nb; apply array_set_other; intros <-; apply Nb; now exists off, len, cap|].
      split. { intros b Hb. destruct (Nat.eq_dec a b) as [<-|D]; [rewrite array_set_same by auto; apply replace_length|now rewrite array_set_other]. }
      split; [intros b (? & ? & ? & E); injection E as <-; right; now exists off, len, cap|].
      split; [|split; [|discriminate]].
      * cbn [slice_valid]. rewrite array_set_same by auto. cbn. rewrite !replace_length. lia.
      * cbn [slice_values]. rewrite array_set_same by auto. rewrite skipn_replace. apply firstn_replace_last. rewrite skipn_length. lia.
    + destruct (new_array (slice_values h (Slice a off len cap) ++ [x] ++ repeat "" spare)%list h) as [g b] eqn:N. injection E as <- <-.
      assert (B : b = length (h_arrays h)) by (now injection N as _ <-).
      assert (G : g = fst (new_array (slice_values h (Slice a off len cap) ++ [x] ++ repeat "" spare)%list h)) by now rewrite N.
      subst g b. split; [reflexivity|]. split; [cbn; rewrite app_length; lia|]. split; [intros; now apply array_new_old|].
      split; [intros; now rewrite array_new_old|]. split; [intros b (? & ? & ? & E); injection E as <-; auto|].
      assert (Ln : length (slice_values h (Slice a off len cap)) = len).
      { cbn. rewrite firstn_length, skipn_length. lia. }
      split; [|split; [|discriminate]].
      * cbn [slice_valid]. rewrite array_new_same. rewrite !app_length, Ln. cbn. rewrite app_length, repeat_length. cbn. lia.
      * cbn [slice_values] in *. rewrite array_new_same. cbn [skipn]. revert Ln. generalize (firstn len (skipn off (array_at h a))) as u.
        intros u Ln. rewrite app_assoc, firstn_app, app_length, Ln. cbn [length].
        rewrite Nat.sub_diag. cbn [firstn]. rewrite app_nil_r. rewrite firstn_all2; [reflexivity|].
        rewrite app_length, Ln. cbn. lia.
Qed.

Lemma set_effect h s i x : slice_valid h s ->
  length (h_arrays (slice_set h s i x)) = length (h_arrays h) /\ h_maps (slice_set h s i x) = h_maps h /\
  (forall a, ~ in_array s a -> array_at (slice_set h s i x) a = array_at h a) /\
  (forall a, length (array_at (slice_set h s i x) a) = length (array_at h a)).
Proof.
  destruct s as [|a off len cap]; cbn [slice_set slice_valid]; [auto|]. intros (Va & Vl & Vc). destruct (Nat.ltb i len); auto.
  split; [cbn; apply replace_length|]. split; [reflexivity|]. split.
  - intros b Nb. apply array_set_other. intros <-. apply Nb. now exists off, len, cap.
  - intros b. destruct (Nat.eq_dec a b) as [<-|D]; [rewrite array_set_same by auto; apply replace_length|now rewrite array_set_other].
Qed.

Lemma lookup_valid h m name : valid h m -> slice_valid h (lookup h m name).
Proof.
  intros (_ & _ & F). unfold lookup. destruct (mget name (map_at h m)) as [s|] eqn:G; [|exact I].
  apply mget_in in G. rewrite Forall_forall in F. exact (F _ G).
Qed.

Lemma valid_ext h h' m : effect h h' m -> forall n, n <> m -> valid h n -> valid h' n.
Proof.
  intros (L1 & L2 & M & _ & L3 & _) n D (V1 & V2 & V3). unfold valid. rewrite M by auto.
  split; [lia|]. split; [auto|]. eapply Forall_impl; [|exact V3]. intros p Hp. apply (slice_valid_ext h); auto.
  intros a (off & len & cap & E). apply L3. cbv beta in Hp. rewrite E in Hp. cbn in Hp. tauto.
Qed.

(** Assigning a slice to a name. *)
Lemma assign_effect h g m name s : valid h m -> h_maps g = h_maps h -> length (h_arrays h) <= length (h_arrays g) ->
  (forall a, a < length (h_arrays h) -> ~ in_array (lookup h m name) a -> array_at g a = array_at h a) ->
  (forall a, a < length (h_arrays h) -> length (array_at g a) = length (array_at h a)) ->
  (forall a, in_array s a -> length (h_arrays h) <= a \/ in_array (lookup h m name) a) -> slice_valid g s ->
  effect h (assign g m name s) m /\ valid (assign g m name s) m.
Proof.
  intros (V1 & V2 & V3) Hm La Ha Hl Hs Sv. assert (Ng : map_at g m = map_at h m) by (unfold map_at; now rewrite Hm).
  assert (Vg : m < length (h_maps g)) by (now rewrite Hm). unfold assign. split.
  - split; [exact La|]. split; [cbn; rewrite replace_length; now rewrite Hm|]. split.
    { intros n D Hn. rewrite map_set_other by auto. unfold map_at. now rewrite Hm. }
    split. { intros a A N. apply Ha; auto. intros I. apply lookup_in in I. destruct I as (p & I & _ & J). exact (N p I J). }
    split; [exact Hl|]. intros p a I A. rewrite map_set_same in I by auto. rewrite Ng in I.
    destruct p as [j b]. apply mset_in in I; [|exact V2]. destruct I as [[-> ->]|[D I]].
    + apply Hs in A. destruct A as [A|A]; [auto|]. right. apply lookup_in in A. destruct A as (q & Q1 & Q2 & Q3). exists q. auto.
    + right. exists (j, b). auto.
  - unfold valid. rewrite map_set_same by auto. rewrite Ng. split; [cbn; now rewrite replace_length|]. split; [now apply nodup_mset|].
    apply Forall_forall. intros [j b] I. apply mset_in in I; [|exact V2]. destruct I as [[-> ->]|[D I]].
    + exact Sv.
    + rewrite Forall_forall in V3. specialize (V3 _ I). cbn [snd] in *. apply (slice_valid_ext h); auto.
      intros a (off & len & cap & ->). cbn in V3. cbn. apply Hl. tauto.
Qed.

Lemma add_effect spare h m name x : valid h m -> effect h (values_add spare h m name x) m /\ valid (values_add spare h m name x) m.
Proof.
  intros V. unfold values_add. destruct (slice_append spare h (lookup h m name) x) as [g s] eqn:A.
  destruct (append_effect _ _ _ _ _ _ A (lookup_valid h m name V)) as (A1 & A2 & A3 & A4 & A5 & A6 & A7 & A8).
  apply assign_effect; auto. intros a I. destruct (A5 a I) as [->|J]; auto.
Qed.

Lemma op_effect h m o : valid h m -> effect h (run_op h m o) m /\ valid (run_op h m o) m.
Proof.
  intros V. destruct o as [spare name x|name i x|name|name l]; cbn [run_op].
  - now apply add_effect.
  - destruct (set_effect h (lookup h m name) i x (lookup_valid h m name V)) as (S1 & S2 & S3 & S4). destruct V as (V1 & V2 & V3).
    assert (Ng : forall n, map_at (slice_set h (lookup h m name) i x) n = map_at h n) by (intros; unfold map_at; now rewrite S2).
    split.
    + split; [lia|]. split; [rewrite S2; lia|]. split; [auto|]. split.
      { intros a A N. apply S3. intros I. apply lookup_in in I. destruct I as (p & I & _ & J). exact (N p I J). }
      split; [auto|]. intros p a I A. rewrite Ng in I. right. exists p. auto.
    + unfold valid. rewrite Ng, S2. split; [auto|]. split; [auto|]. eapply Forall_impl; [|exact V3]. intros p. apply slice_valid_ext; [lia|]. auto.
  - destruct V as (V1 & V2 & V3). split.
    + split; [cbn; lia|]. split; [cbn; rewrite replace_length; lia|]. split; [intros; apply map_set_other; auto|].
      split; [auto|]. split; [auto|]. intros p a I A. rewrite map_set_same in I by auto. destruct p as [j b]. apply mdel_in in I.
      right. exists (j, b). tauto.
    + unfold valid. rewrite map_set_same by auto. split; [cbn; now rewrite replace_length|]. split; [now apply nodup_mdel|].
      apply Forall_forall. intros [j b] I. apply mdel_in in I. rewrite Forall_forall in V3. apply (V3 (j, b)). tauto.
  - destruct (new_array l h) as [g a] eqn:N. assert (B : a = length (h_arrays h)) by (now injection N as _ <-).
    assert (G : g = fst (new_array l h)) by now rewrite N. subst g a. apply assign_effect; auto.
    + cbn. rewrite app_length. lia.
    + intros. now apply array_new_old.
    + intros. now rewrite array_new_old.
    + intros a (? & ? & ? & E). injection E as <-. auto.
    + cbn [slice_valid]. rewrite array_new_same. cbn. rewrite app_length. cbn. lia.
Qed.

(** A map that doesn't share arrays doesn't change, and doesn't share arrays after the operation. *)
Lemma effect_frame h h' m n : effect h h' m -> n <> m -> valid h n -> disjoint h m n -> contents h' n = contents h n /\ disjoint h' m n.
Proof.
  intros (L1 & L2 & M & A & L3 & U) D (V1 & V2 & V3) Dj.
  assert (Bound : forall q a, In q (map_at h n) -> in_array (snd q) a -> a < length (h_arrays h)).
  { intros q a I (off & len & cap & E). rewrite Forall_forall in V3. specialize (V3 _ I). rewrite E in V3. cbn in V3. tauto. }
  split.
  - unfold contents. rewrite M by auto. apply map_ext_in. intros q I. f_equal. unfold observe. destruct (snd q) as [|a off len cap] eqn:E; auto.
    f_equal. apply slice_values_ext. intros b J. rewrite <- E in J. apply A; [eauto|]. intros p Ip Jp. eapply Dj; eauto.
  - intros p q a Ip Iq Jp Jq. rewrite M in Iq by auto. destruct (U p a Ip Jp) as [B|(p' & I' & _ & J')].
    + specialize (Bound q a Iq Jq). lia.
    + eapply Dj; eauto.
Qed.

Lemma run_frame l : forall h m n, n <> m -> valid h m -> valid h n -> disjoint h m n -> contents (run h m l) n = contents h n.
Proof.
  induction l as [|o l IH]; intros h m n D Vm Vn Dj; [reflexivity|]. unfold run. cbn [fold_left]. fold (run (run_op h m o) m l).
  destruct (op_effect h m o Vm) as [E V]. destruct (effect_frame _ _ _ _ E D Vn Dj) as [C Dj'].
  rewrite IH; auto. now apply (valid_ext h _ m E n D).
Qed.

(** * Copies *)

Lemma copy_values_spec h s h' s' : copy_values h s = (h', s') -> slice_valid h s ->
  h_maps h' = h_maps h /\ length (h_arrays h) <= length (h_arrays h') /\
  (forall a, a < length (h_arrays h) -> array_at h' a = array_at h a) /\
  (forall a, in_array s' a -> a = length (h_arrays h)) /\ (forall a, in_array s' a -> length (h_arrays h') = length (h_arrays h) + 1) /\
  slice_valid h' s' /\ observe h' s' = observe h s.
Proof.
  unfold copy_values. destruct s as [|a off len cap]; cbn [slice_valid].
  - intros E _. injection E as <- <-. repeat (split; [solve [auto|intros a (? & ? & ? & ?); discriminate]|]). split; [exact I|reflexivity].
  - intros E (Va & Vl & Vc). destruct (new_array (slice_values h (Slice a off len cap)) h) as [g b] eqn:N. injection E as <- <-.
    assert (B : b = length (h_arrays h)) by (now injection N as _ <-).
    assert (G : g = fst (new_array (slice_values h (Slice a off len cap)) h)) by now rewrite N. subst g b.
    assert (Ln : length (slice_values h (Slice a off len cap)) = len) by (cbn; rewrite firstn_length, skipn_length; lia).
    split; [reflexivity|]. split; [cbn; rewrite app_length; lia|]. split; [intros; now apply array_new_old|].
    split; [intros b (? & ? & ? & E); now injection E as <-|]. split; [intros b (? & ? & ? & E); cbn; now rewrite app_length|]. split.
    + cbn [slice_valid]. rewrite array_new_same, Ln. cbn [h_arrays new_array fst]. rewrite app_length. cbn. lia.
    + cbn [observe]. f_equal. cbn [slice_values]. rewrite array_new_same. cbn [skipn]. rewrite <- Ln at 1. now rewrite firstn_all.
Qed.

(** What is known while the entries of a map are copied: the entries that were copied use only arrays that
    are new, and different names use different arrays. *)
Definition copying (h0 h : heap) (r : nat) : Prop :=
  length (h_arrays h0) <= length (h_arrays h) /\ length (h_maps h) = S (length (h_maps h0)) /\ r = length (h_maps h0) /\
  (forall n, n < length (h_maps h0) -> map_at h n = map_at h0 n) /\
  (forall a, a < length (h_arrays h0) -> array_at h a = array_at h0 a) /\
  valid h r /\ separate h r /\
  (forall p a, In p (map_at h r) -> in_array (snd p) a -> length (h_arrays h0) <= a).

Lemma observe_ext h h' s : (forall a, in_array s a -> array_at h' a = array_at h a) -> observe h' s = observe h s.
Proof. intros H. unfold observe. destruct s; auto. f_equal. now apply slice_values_ext. Qed.

Lemma in_array_valid h s a : slice_valid h s -> in_array s a -> a < length (h_arrays h).
Proof. intros V (off & len & cap & ->). cbn in V. tauto. Qed.

Lemma in_array_same s a b : in_array s a -> in_array s b -> a = b.
Proof. intros (? & ? & ? & ->) (? & ? & ? & E). now injection E as <-. Qed.

Lemma copy_entries_spec h0 r l : Forall (fun p => slice_valid h0 (snd p)) l -> NoDup (map fst l) -> forall h, copying h0 h r ->
  (forall p, In p l -> ~ In (fst p) (map fst (map_at h r))) ->
  copying h0 (copy_entries h r l) r /\
  contents (copy_entries h r l) r = (contents h r ++ map (fun p => (fst p, observe h0 (snd p))) l)%list.
Proof.
  induction l as [|[name s] l IH]; intros F N h Cp Fr.
  - cbn. rewrite app_nil_r. auto.
  - inversion F as [|? ? Sv F']; subst. cbn [map fst] in N. inversion N as [|? ? N1 N2]; subst. cbn [snd] in Sv. cbn [copy_entries].
    assert (Fn : ~ In name (map fst (map_at h r))) by (apply (Fr (name, s)); now left).
    destruct Cp as (C1 & C2 & C3 & C4 & C5 & C6 & C7 & C8).
    assert (Sh : slice_valid h s).
    { apply (slice_valid_ext h0); auto. intros a A. rewrite C5; auto. exact (in_array_valid _ _ _ Sv A). }
    destruct (copy_values h s) as [g s'] eqn:Cv.
    destruct (copy_values_spec _ _ _ _ Cv Sh) as (V1 & V2 & V3 & V4 & V5 & V6 & V7).
    assert (Mg : forall n, map_at g n = map_at h n) by (intros; unfold map_at; now rewrite V1).
    assert (Rb : r < length (h_maps g)) by (rewrite V1; lia).
    assert (Ma : map_at (assign g r name s') r = (map_at h r ++ [(name, s')])%list).
    { unfold assign. rewrite map_set_same by auto. rewrite Mg. now apply mset_not_in. }
    assert (Bd : forall p a, In p (map_at h r) -> in_array (snd p) a -> a < length (h_arrays h)).
    { intros p a I A. destruct C6 as (_ & _ & C6). rewrite Forall_forall in C6. exact (in_array_valid _ _ _ (C6 _ I) A). }
    assert (Ar : forall a, array_at (assign g r name s') a = array_at g a) by reflexivity.
    assert (Oh : observe h s = observe h0 s).
    { apply observe_ext. intros a A. apply C5. exact (in_array_valid _ _ _ Sv A). }
    assert (Cn : copying h0 (assign g r name s') r).
    { split; [cbn; lia|]. split; [cbn; rewrite replace_length, V1; auto|]. split; [auto|].
      split. { intros n L. unfold assign. rewrite map_set_other by lia. rewrite Mg. auto. }
      split. { intros a L. rewrite Ar, V3 by lia. auto. }
      split.
      { split; [cbn; now rewrite replace_length|]. rewrite Ma. split.
        - rewrite map_app. cbn. destruct C6 as (_ & C6 & _). apply NoDup_Add with (a := name) (l := map fst (map_at h r)); [|auto].
          rewrite <- (app_nil_r (map fst (map_at h r))) at 1. apply Add_app.
        - apply Forall_app. split; [|constructor; [|constructor]].
          + destruct C6 as (_ & _ & C6). rewrite Forall_forall in *. intros p I. apply (slice_valid_ext h); [cbn; lia| |auto].
            intros a A. rewrite Ar, V3; eauto.
          + exact V6. }
      split.
      { intros p q a Ip Iq Ap Aq. rewrite Ma in Ip, Iq. apply in_app_or in Ip, Iq.
        destruct Ip as [Ip|[<-|[]]], Iq as [Iq|[<-|[]]]; auto.
        - exact (C7 p q a Ip Iq Ap Aq).
        - cbn in Aq. specialize (V4 a Aq). specialize (Bd p a Ip Ap). lia.
        - cbn in Ap. specialize (V4 a Ap). specialize (Bd q a Iq Aq). lia. }
      intros p a Ip Ap. rewrite Ma in Ip. apply in_app_or in Ip. destruct Ip as [Ip|[<-|[]]]; [eauto|]. cbn in Ap. rewrite (V4 a Ap). lia. }
    destruct (IH F' N2 (assign g r name s') Cn) as [IH1 IH2].
    { intros p I. rewrite Ma, map_app, in_app_iff. cbn. intros [H|[H|[]]].
      - apply (Fr p); [now right|auto].
      - apply N1. rewrite H. now apply in_map. }
    split; [exact IH1|]. rewrite IH2. cbn [map fst snd].
    unfold contents at 1. rewrite Ma, map_app. cbn [map fst snd]. rewrite <- Oh, <- V7.
    assert (Eq : map (fun p => (fst p, observe (assign g r name s') (snd p))) (map_at h r) = contents h r).
    { apply map_ext_in. intros p I. f_equal. apply observe_ext. intros a A. rewrite Ar. apply V3. eauto. }
    rewrite Eq, <- app_assoc. reflexivity.
Qed.

Lemma new_map_copying h : copying h (fst (new_map h)) (length (h_maps h)).
Proof.
  assert (M : map_at (fst (new_map h)) (length (h_maps h)) = []).
  { unfold map_at, new_map. cbn. rewrite app_nth2 by lia. now rewrite Nat.sub_diag. }
  split; [cbn; lia|]. split; [cbn; rewrite app_length; cbn; lia|]. split; [auto|].
  split. { intros n L. unfold map_at, new_map. cbn. now rewrite app_nth1. }
  split; [auto|]. split.
  { split; [cbn; rewrite app_length; cbn; lia|]. rewrite M. split; constructor. }
  split; intros p; rewrite M; intros; contradiction.
Qed.

Lemma copied h m : valid h m ->
  let r := length (h_maps h) in
  let h' := copy_entries (fst (new_map h)) r (map_at h m) in
  copying h h' r /\ contents h' r = contents h m.
Proof.
  intros (V1 & V2 & V3) r h'. subst r h'.
  assert (M : map_at (fst (new_map h)) (length (h_maps h)) = []).
  { unfold map_at, new_map. cbn. rewrite app_nth2 by lia. now rewrite Nat.sub_diag. }
  destruct (copy_entries_spec h (length (h_maps h)) (map_at h m) V3 V2 (fst (new_map h)) (new_map_copying h)) as [A B].
  - intros p I. rewrite M. auto.
  - split; [exact A|]. rewrite B. unfold contents at 1. now rewrite M.
Qed.

Lemma copying_frame h h' r m : copying h h' r -> valid h m -> valid h' m /\ contents h' m = contents h m /\ disjoint h' r m /\ m <> r.
Proof.
  intros (C1 & C2 & C3 & C4 & C5 & C6 & C7 & C8) (V1 & V2 & V3).
  assert (Bd : forall p a, In p (map_at h m) -> in_array (snd p) a -> a < length (h_arrays h)).
  { intros p a I A. rewrite Forall_forall in V3. exact (in_array_valid _ _ _ (V3 _ I) A). }
  split; [|split; [|split; [|lia]]].
  - unfold valid. rewrite C4 by auto. split; [lia|]. split; [auto|]. rewrite Forall_forall in *. intros p I.
    apply (slice_valid_ext h); auto. intros a A. rewrite C5; eauto.
  - unfold contents. rewrite C4 by auto. apply map_ext_in. intros p I. f_equal. apply observe_ext. intros a A. apply C5. eauto.
  - intros p q a Ip Iq Ap Aq. rewrite C4 in Iq by auto. specialize (C8 p a Ip Ap). specialize (Bd q a Iq Aq). lia.
Qed.

Lemma disjoint_sym h m n : disjoint h m n -> disjoint h n m.
Proof. intros D p q a Ip Iq Ap Aq. exact (D q p a Iq Ip Aq Ap). Qed.

(** The copy has the same contents, and changes of one of them aren't seen in the other one. *)
Lemma query_copied h m h' r : valid h m -> copy_query h (Some m) = (h', r) ->
  exists c, r = Some c /\ c <> m /\ valid h' c /\ separate h' c /\ contents h' c = contents h m /\ contents h' m = contents h m /\
    (forall l, contents (run h' c l) m = contents h m) /\ (forall l, contents (run h' m l) c = contents h m).
Proof.
  intros V E. unfold copy_query in E. cbn [new_map] in E. injection E as <- <-.
  destruct (copied h m V) as [C1 C2]. destruct (copying_frame _ _ _ _ C1 V) as (F1 & F2 & F3 & F4).
  exists (length (h_maps h)). destruct C1 as (D1 & D2 & D3 & D4 & D5 & D6 & D7 & D8).
  split; [reflexivity|]. split; [auto|]. split; [exact D6|]. split; [exact D7|]. split; [exact C2|]. split; [exact F2|]. split.
  - intros l. rewrite <- F2. apply run_frame; auto.
  - intros l. rewrite <- C2. apply run_frame; auto. now apply disjoint_sym.
Qed.

Lemma header_copied h q h' c : (forall m, q = Some m -> valid h m) -> copy_header h q = (h', c) ->
  valid h' c /\ separate h' c /\ contents h' c = match q with Some m => contents h m | None => [] end /\
  (forall m, q = Some m -> c <> m /\ contents h' m = contents h m /\
    (forall l, contents (run h' c l) m = contents h m) /\ (forall l, contents (run h' m l) c = contents h m)).
Proof.
  intros V E. destruct q as [m|].
  - assert (Vm := V m eq_refl). destruct (query_copied h m (fst (copy_query h (Some m))) (snd (copy_query h (Some m))) Vm) as
      (d & Ed & A1 & A2 & A3 & A4 & A5 & A6 & A7); [now destruct (copy_query h (Some m))|].
    unfold copy_header in E. cbn [new_map] in E. injection E as <- <-. cbn in Ed. injection Ed as <-. cbn [copy_query new_map fst] in *.
    split; [exact A2|]. split; [exact A3|]. split; [exact A4|]. intros n En. injection En as <-. auto.
  - unfold copy_header in E. cbn [new_map] in E. injection E as <- <-.
    destruct (new_map_copying h) as (D1 & D2 & D3 & D4 & D5 & D6 & D7 & D8).
    split; [exact D6|]. split; [exact D7|]. split; [|discriminate].
    unfold contents, map_at. cbn. rewrite app_nth2 by lia. now rewrite Nat.sub_diag.
Qed.

(** * Adding values *)

Lemma values_ext h h' m name : map_at h' m = map_at h m -> (forall a, in_array (lookup h m name) a -> array_at h' a = array_at h a) ->
  values_at h' m name = values_at h m name.
Proof. intros M A. unfold values_at, lookup in *. rewrite M. now apply slice_values_ext. Qed.

Lemma lookup_assign g m name s n : m < length (h_maps g) -> lookup (assign g m name s) m n = if String.eqb n name then s else lookup g m n.
Proof. intros H. unfold lookup, assign. rewrite map_set_same by auto. rewrite mget_mset. now destruct (String.eqb n name). Qed.

Lemma added spare h m name x : valid h m -> separate h m ->
  separate (values_add spare h m name x) m /\
  forall n, values_at (values_add spare h m name x) m n = if String.eqb n name then (values_at h m name ++ [x])%list else values_at h m n.
Proof.
  intros V Sp. destruct (add_effect spare h m name x V) as [E _]. unfold values_add in *.
  destruct (slice_append spare h (lookup h m name) x) as [g s] eqn:A.
  destruct (append_effect _ _ _ _ _ _ A (lookup_valid h m name V)) as (A1 & A2 & A3 & A4 & A5 & A6 & A7 & A8).
  assert (Vg : m < length (h_maps g)) by (rewrite A1; apply V).
  assert (Mg : map_at g m = map_at h m) by (unfold map_at; now rewrite A1).
  assert (Bd : forall p a, In p (map_at h m) -> in_array (snd p) a -> a < length (h_arrays h)).
  { intros p a I B. destruct V as (_ & _ & V). rewrite Forall_forall in V. exact (in_array_valid _ _ _ (V _ I) B). }
  split.
  - intros p q a Ip Iq Ap Aq. unfold assign in Ip, Iq. rewrite map_set_same, Mg in Ip, Iq by auto.
    destruct p as [j b], q as [k c]. destruct V as (_ & V & _). apply mset_in in Ip, Iq; auto.
    assert (One : forall j b, In (j, b) (map_at h m) -> in_array b a -> in_array s a -> j = name).
    { intros i d I B C. apply A5 in C. destruct C as [->|C]; [specialize (Bd _ _ I B); lia|].
      apply lookup_in in C. destruct C as (p & Ip' & E' & Ap'). rewrite <- E'. exact (Sp (i, d) p a I Ip' B Ap'). }
    destruct Ip as [[-> ->]|[D1 Ip]], Iq as [[-> ->]|[D2 Iq]]; cbn [fst snd] in *; auto.
    + symmetry. eauto.
    + eauto.
    + exact (Sp (j, b) (k, c) a Ip Iq Ap Aq).
  - intros n. unfold values_at. rewrite lookup_assign by auto. destruct (String.eqb n name) eqn:D.
    + change (slice_values g s = (slice_values h (lookup h m name) ++ [x])%list). exact A7.
    + change (slice_values g (lookup g m n) = slice_values h (lookup h m n)). unfold lookup at 1. rewrite Mg. fold (lookup h m n).
      apply slice_values_ext. intros a B. apply A3; [exact (in_array_valid _ _ _ (lookup_valid h m n V) B)|].
      intros C. apply lookup_in in B, C. destruct B as (p & P1 & P2 & P3), C as (q & Q1 & Q2 & Q3).
      apply String.eqb_neq in D. apply D. rewrite <- P2, <- Q2. exact (Sp p q a P1 Q1 P3 Q3).
Qed.

(** Values added one after another. *)
Definition add_all (spare : nat) (h : heap) (m : nat) (l : list (string * string)) : heap :=
  fold_left (fun h p => values_add spare h m (fst p) (snd p)) l h.

Lemma added_all spare l : forall h m, valid h m -> separate h m ->
  valid (add_all spare h m l) m /\ separate (add_all spare h m l) m /\
  forall n, values_at (add_all spare h m l) m n = (values_at h m n ++ map snd (filter (fun p => String.eqb (fst p) n) l))%list.
Proof.
  induction l as [|[name x] l IH]; intros h m V S; cbn.
  - split; [auto|]. split; [auto|]. intros. now rewrite app_nil_r.
  - destruct (added spare h m name x V S) as [S' A]. destruct (add_effect spare h m name x V) as [_ V'].
    destruct (IH _ _ V' S') as (I1 & I2 & I3). split; [exact I1|]. split; [exact I2|]. intros n.
    unfold add_all in *. rewrite I3, A. rewrite (String.eqb_sym name n). destruct (String.eqb n name) eqn:E; [|reflexivity].
    apply String.eqb_eq in E. subst. cbn. now rewrite <- app_assoc.
Qed.
