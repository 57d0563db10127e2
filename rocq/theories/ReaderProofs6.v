(** Proofs about the reader: list types, complete models, several versions, final decision. *)
From Coq Require Import Ascii String Bool Arith ZArith Lia Permutation Sorted List.
From Verif Require Import GoStrings GoStringsProofs GoMap GoMapProofs NamesModel NamesSpec NamesProofs
  ConceptsModel ConceptsSpec ConceptsProofs ReporterModel ReaderModel ChecksModel ReaderSpec ReaderProofs
  ReaderProofs2 ReaderProofs3 ReaderProofs4 ReaderProofs5.
Import ListNotations.
Local Open Scope string_scope.

(** * List types (C15) *)

Lemma list_name_key n :
  name_key (cat [n; nList]) = if match n_words n with [] => true | _ => false end then "list"
                              else name_key n ++ "_list".
Proof.
  unfold name_key, name_string. rewrite cat_words. cbn [flat_map]. rewrite app_nil_r, map_app.
  destruct (n_words n) as [|w ws]; [reflexivity|]. cbn [map].
  generalize (w_text w). clear w. induction ws as [|x ws IH]; intros s; [reflexivity|].
  cbn [map app str_join] in *. rewrite IH. now rewrite !sapp_assoc.
Qed.

Lemma list_name_inj a b : name_key (cat [a; nList]) = name_key (cat [b; nList]) -> name_key a = name_key b.
Proof.
  rewrite !list_name_key. unfold name_key, name_string.
  destruct (n_words a) as [|x xs]; destruct (n_words b) as [|y ys]; intros E.
  - reflexivity.
  - exfalso. apply (f_equal String.length) in E. rewrite sapp_length in E. simpl String.length in E. lia.
  - exfalso. apply (f_equal String.length) in E. rewrite sapp_length in E. simpl String.length in E. lia.
  - now apply sapp_inv_tail in E.
Qed.

(** One type that is the list of another one. *)
Definition list_of (t lt : typ) : Prop :=
  t_kind lt = ListType /\ t_element lt = Some (name_key (t_name t)).

Lemma ensure_list_frame v t :
  v_name (ensure_list v t) = v_name v /\ v_resources (ensure_list v t) = v_resources v /\
  v_errors (ensure_list v t) = v_errors v /\
  (forall k x, mget k (v_types v) = Some x -> mget k (v_types (ensure_list v t)) = Some x).
Proof.
  unfold ensure_list. destruct (is_list t); [now repeat split|].
  destruct (find_type (cat [t_name t; nList]) v) eqn:E; [now repeat split|].
  repeat split. intros k x H. simpl. rewrite mget_mset.
  destruct (String.eqb_spec k (name_key (cat [t_name t; nList]))) as [->|]; [|assumption].
  unfold find_type in E. congruence.
Qed.

Lemma ensure_list_new v t k x : mget k (v_types (ensure_list v t)) = Some x ->
  mget k (v_types v) = Some x \/
  (is_list t = false /\ k = name_key (cat [t_name t; nList]) /\ x = list_type (t_name t)).
Proof.
  unfold ensure_list. destruct (is_list t) eqn:El; [auto|].
  destruct (find_type (cat [t_name t; nList]) v) eqn:E; [auto|].
  simpl. rewrite mget_mset.
  destruct (String.eqb_spec k (name_key (cat [t_name t; nList]))) as [->|]; [|auto].
  intros [= <-]. right. auto.
Qed.

Lemma ensure_list_has v t : is_list t = false ->
  exists lt, find_type (cat [t_name t; nList]) (ensure_list v t) = Some lt /\
    (find_type (cat [t_name t; nList]) v = None -> list_of t lt).
Proof.
  intros El. unfold ensure_list. rewrite El.
  destruct (find_type (cat [t_name t; nList]) v) as [x|] eqn:E.
  - exists x. split; [assumption|]. discriminate.
  - exists (list_type (t_name t)). split; [|intros _; now split].
    unfold find_type. simpl. change (name_string (cat [t_name t; nList])) with (name_key (cat [t_name t; nList])).
    now rewrite mget_mset_same.
Qed.

Lemma ensure_fold l : forall v,
  let w := fold_left ensure_list l v in
  v_name w = v_name v /\ v_resources w = v_resources v /\ v_errors w = v_errors v /\
  (forall k x, mget k (v_types v) = Some x -> mget k (v_types w) = Some x) /\
  (forall k x, mget k (v_types w) = Some x -> mget k (v_types v) = Some x \/
     exists t, In t l /\ is_list t = false /\ k = name_key (cat [t_name t; nList]) /\ x = list_type (t_name t)) /\
  (forall t, In t l -> is_list t = false -> exists lt, find_type (cat [t_name t; nList]) w = Some lt).
Proof.
  induction l as [|t l IH]; intros v; cbn [fold_left].
  - repeat split; auto. intros t [].
  - destruct (ensure_list_frame v t) as (F1 & F2 & F3 & F4).
    destruct (IH (ensure_list v t)) as (I1 & I2 & I3 & I4 & I5 & I6). cbv zeta in *.
    rewrite I1, I2, I3, F1, F2, F3. repeat split; auto.
    + intros k x H. apply I5 in H as [H|(t' & Ht & H)]; [|right; exists t'; simpl; tauto].
      apply ensure_list_new in H as [H|H]; [auto|]. right. exists t. simpl. tauto.
    + intros t' [<-|Ht'] Hl; [|now apply I6].
      destruct (ensure_list_has v t Hl) as (lt & Hlt & _). exists lt. unfold find_type in *. now apply I4.
Qed.

Lemma types_in v t : In t (types v) <-> In t (mvals (v_types v)).
Proof. unfold types. apply sort_in. Qed.

Lemma stored_types v k t : indexed t_name (v_types v) ->
  (mget k (v_types v) = Some t <-> In t (types v) /\ k = name_key (t_name t)).
Proof.
  intros [Hnd Hk]. rewrite types_in. unfold mvals. rewrite in_map_iff. split.
  - intros H. apply mget_in in H. split; [exists (k, t); auto|]. now apply Hk.
  - intros [([k' t'] & E & H) ->]. simpl in E. subst t'. rewrite (Hk _ _ H) in H.
    now apply mget_in_iff.
Qed.

Lemma ensure_lists_spec v : indexed t_name (v_types v) ->
  let w := ensure_lists v in
  v_name w = v_name v /\ v_resources w = v_resources v /\ v_errors w = v_errors v /\
  (forall k t, type_at k v = Some t -> type_at k w = Some t) /\
  (forall k x, type_at k w = Some x -> type_at k v = Some x \/
     exists t, type_at (name_key (t_name t)) v = Some t /\ is_list t = false /\
       k = name_key (cat [t_name t; nList]) /\ t_name x = cat [t_name t; nList] /\ list_of t x) /\
  (forall k t, type_at k v = Some t -> is_list t = false ->
     exists lt, find_type (cat [t_name t; nList]) w = Some lt /\
       (find_type (cat [t_name t; nList]) v = None -> list_of t lt)).
Proof.
  intros Hix. unfold ensure_lists. destruct (ensure_fold (types v) v) as (I1 & I2 & I3 & I4 & I5 & I6).
  cbv zeta in *. unfold type_at. repeat split; auto.
  - intros k x H. apply I5 in H as [H|(t & Ht & Hl & -> & ->)]; [auto|]. right.
    exists t. repeat split; auto. apply stored_types; auto.
  - intros k t H Hl. apply stored_types in H; auto. destruct H as [H ->].
    destruct (I6 t H Hl) as (lt & Hlt). exists lt. split; [assumption|]. intros Hn.
    unfold find_type in Hlt, Hn. apply I5 in Hlt as [E|(t' & Ht' & _ & Ek & ->)]; [congruence|].
    split; [reflexivity|]. simpl. f_equal. symmetry. now apply list_name_inj in Ek.
Qed.

Lemma ensure_list_wf v t : start_ok v -> wf_version v -> has_type v (name_key (t_name t)) ->
  start_ok (ensure_list v t) /\ wf_version (ensure_list v t).
Proof.
  intros Hs [T R] Ht. destruct (ensure_list_frame v t) as (F1 & F2 & F3 & F4).
  assert (M : forall k, has_type v k -> has_type (ensure_list v t) k).
  { intros k [x Hx]. exists x. now apply F4. }
  split.
  - unfold ensure_list. destruct (is_list t); [assumption|].
    destruct (find_type (cat [t_name t; nList]) v); [assumption|].
    destruct Hs as [Hix Hixr]. split; [|exact Hixr]. now apply indexed_mset.
  - split.
    + intros k x H. apply ensure_list_new in H as [H|(_ & -> & ->)].
      * eapply good_type_impl; [exact M|]. now apply T.
      * split.
        -- repeat split; simpl; try discriminate; [intros a []|]. intros k [= <-]. now apply M.
        -- intros _. exists (t_name t). split; reflexivity.
    + rewrite F2. intros k r H. apply R in H as [H1 H2]. split.
      * intros m p Hm Hp. apply M. eauto.
      * intros l Hl k' Hk'. destruct (H2 l Hl k' Hk') as [x Hx]. exists x. unfold resource_at. now rewrite F2.
Qed.

Lemma ensure_lists_wf v : start_ok v -> wf_version v ->
  start_ok (ensure_lists v) /\ wf_version (ensure_lists v).
Proof.
  intros Hs Hw. unfold ensure_lists.
  assert (Hl : forall t, In t (types v) -> has_type v (name_key (t_name t))).
  { intros t Ht. exists t. apply stored_types; [apply Hs|auto]. }
  revert Hl. generalize (types v) as l. intros l. revert v Hs Hw.
  induction l as [|t l IH]; intros v Hs Hw Hl; [now split|]. cbn [fold_left].
  destruct (ensure_list_wf v t) as [Hs' Hw']; auto; [apply Hl; now left|].
  apply IH; auto. intros t' Ht'. destruct (Hl t' (or_intror Ht')) as [x Hx]. exists x.
  now apply ensure_list_frame.
Qed.
