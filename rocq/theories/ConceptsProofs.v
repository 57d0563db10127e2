(** Proofs about the concepts. *)
From Coq Require Import Ascii String Bool Arith ZArith Lia Sorted Permutation List.
From Verif Require Import GoStrings GoStringsProofs GoMap GoMapProofs NamesModel NamesSpec NamesProofs
  ConceptsModel ConceptsSpec.
Import ListNotations.
Local Open Scope string_scope.

(** * Generic facts about things sorted by name *)

Section ByName.
  Context {A : Type} (f : A -> name).
  Let less (a b : A) : bool := name_less (f a) (f b).

  Lemma less_trans a b c : less a b = true -> less b c = true -> less a c = true.
  Proof. apply name_less_order. Qed.

  Lemma less_irrefl a : less a a = false.
  Proof. apply (proj1 name_less_order). Qed.

  Lemma distinct_separated l : distinct_names f l -> separated less l.
  Proof.
    induction l as [|a l IH]; intros H; [constructor|].
    unfold distinct_names in H. simpl in H. inversion H as [|x y Hx Hy]; subst.
    constructor; [|now apply IH]. apply Forall_forall. intros b Hb.
    destruct (proj1 (proj2 (proj2 name_less_order)) (f a) (f b)) as [E|[E|E]]; [now left| |now right].
    destruct Hx. apply in_map_iff. exists b. auto.
  Qed.

  Lemma sorted_by_iff l : sorted_by f l <-> StronglySorted (lt less) l.
  Proof.
    unfold sorted_by, lt, less. split; intros H;
      (induction H as [|a l Hs IH Hf]; constructor; [assumption|];
       eapply Forall_impl; [|exact Hf]; intros b; apply name_less_lt).
  Qed.

  Lemma sort_by_name_spec l : distinct_names f l ->
    sorted_by f (sort less l) /\ Permutation l (sort less l) /\
    (forall l', Permutation l l' -> sort less l' = sort less l) /\
    (forall l', Permutation l l' -> sorted_by f l' -> l' = sort less l).
  Proof.
    intros H. assert (Hs := distinct_separated l H).
    split; [|split; [|split]].
    - apply sorted_by_iff. apply sort_sorted; [exact less_trans|exact Hs].
    - apply sort_perm.
    - intros l' Hp. symmetry. apply sort_perm_eq; try exact less_trans; try exact less_irrefl; auto.
    - intros l' Hp Hl'. apply sort_unique; try exact less_trans; try exact less_irrefl; auto.
      now apply sorted_by_iff.
  Qed.

  (** Appending one by one and sorting each time is the same as sorting at the end. *)
  Lemma add_sorted_fold xs : forall acc,
    distinct_names f (acc ++ xs)%list -> sort less acc = acc ->
    fold_left (fun l x => sort less (l ++ [x])%list) xs acc = sort less (acc ++ xs)%list.
  Proof.
    induction xs as [|x xs IH]; intros acc Hd Ha; simpl.
    - now rewrite app_nil_r.
    - assert (Hd1 : distinct_names f (acc ++ [x])%list).
      { unfold distinct_names in *. rewrite !map_app in *. simpl in *.
        replace (map (fun a => texts (f a)) acc ++ texts (f x) :: map (fun a => texts (f a)) xs)%list
          with ((map (fun a => texts (f a)) acc ++ [texts (f x)]) ++ map (fun a => texts (f a)) xs)%list
          in Hd by now rewrite <- app_assoc.
        revert Hd. generalize (map (fun a => texts (f a)) acc ++ [texts (f x)])%list as u.
        generalize (map (fun a => texts (f a)) xs) as w. clear.
        intros w u. induction u as [|z u IHu]; simpl; [constructor|]. intros H.
        inversion H as [|p q Hp Hq]; subst. constructor; [|auto].
        intros Hi. apply Hp. apply in_or_app. now left. }
      assert (Hp : Permutation (acc ++ [x])%list (sort less (acc ++ [x])%list)) by apply sort_perm.
      rewrite IH.
      + apply sort_perm_eq; try exact less_trans; try exact less_irrefl; auto.
        * apply distinct_separated. unfold distinct_names in *.
          eapply Permutation_NoDup; [|exact Hd]. apply Permutation_map.
          rewrite (app_assoc acc [x] xs : (acc ++ x :: xs)%list = _).
          now apply Permutation_app_tail.
        * rewrite (app_assoc acc [x] xs : (acc ++ x :: xs)%list = _).
          apply Permutation_sym. now apply Permutation_app_tail.
      + unfold distinct_names in *. eapply Permutation_NoDup; [|exact Hd]. apply Permutation_map.
        rewrite (app_assoc acc [x] xs : (acc ++ x :: xs)%list = _).
        now apply Permutation_app_tail.
      + apply sort_perm_eq; try exact less_trans; try exact less_irrefl; auto.
        * apply distinct_separated. unfold distinct_names in *.
          eapply Permutation_NoDup; [|exact Hd1]. now apply Permutation_map.
        * apply Permutation_sym. exact Hp.
  Qed.

  Lemma indexed_distinct m : indexed f m -> distinct_names f (mvals m).
  Proof.
    intros [Hnd Hk]. unfold distinct_names, mvals. rewrite map_map.
    assert (H : forall m', (forall k a, In (k, a) m' -> k = name_string (f a)) ->
              NoDup (map fst m') -> NoDup (map (fun x : key * A => texts (f (snd x))) m')).
    { clear. induction m' as [|[k a] m' IH]; simpl; intros Hk Hnd; [constructor|].
      inversion Hnd as [|x y Hx Hy]; subst. constructor; [|auto].
      intros Hi. apply in_map_iff in Hi as ([k' a'] & E & Hi). simpl in E.
      apply Hx. apply in_map_iff. exists (k', a'). split; [|assumption]. simpl.
      rewrite (Hk k a) by now left. rewrite (Hk k' a') by now right.
      unfold name_string. unfold texts in E. now rewrite E. }
    now apply H.
  Qed.

  Lemma indexed_mset m a : indexed f m -> indexed f (mset (name_string (f a)) a m).
  Proof.
    intros [Hnd Hk]. split; [now apply nodup_mset|].
    intros k b H. apply mset_in in H; [|assumption]. destruct H as [[-> ->]|[_ H]]; auto.
  Qed.

  Lemma fold_mset_last xs : forall m k,
    mget k (fold_left (fun m a => mset (name_string (f a)) a m) xs m) =
    match last_named f k xs with Some a => Some a | None => mget k m end.
  Proof.
    induction xs as [|x xs IH]; intros m k; simpl; [reflexivity|].
    rewrite IH. destruct (last_named f k xs); [reflexivity|].
    rewrite mget_mset. rewrite (String.eqb_sym k).
    destruct (String.eqb_spec (name_string (f x)) k); reflexivity.
  Qed.

  Lemma fold_mset_indexed xs : forall m, indexed f m ->
    indexed f (fold_left (fun m a => mset (name_string (f a)) a m) xs m).
  Proof.
    induction xs as [|x xs IH]; intros m H; simpl; [assumption|]. apply IH. now apply indexed_mset.
  Qed.
End ByName.

(** * Maps of concepts (C07, C08) *)

Lemma types_spec v : indexed t_name (v_types v) ->
  sorted_by t_name (types v) /\ Permutation (map snd (v_types v)) (types v) /\
  (forall l, Permutation (map snd (v_types v)) l -> sorted_by t_name l -> l = types v) /\
  (forall v', Permutation (v_types v) (v_types v') -> types v' = types v).
Proof.
  intros H. apply indexed_distinct in H.
  destruct (sort_by_name_spec t_name _ H) as (H1 & H2 & H3 & H4).
  repeat split; auto. intros v' Hp. unfold types. apply H3. now apply Permutation_map.
Qed.

Lemma resources_spec v : indexed r_name (v_resources v) ->
  sorted_by r_name (resources v) /\ Permutation (map snd (v_resources v)) (resources v) /\
  (forall l, Permutation (map snd (v_resources v)) l -> sorted_by r_name l -> l = resources v) /\
  (forall v', Permutation (v_resources v) (v_resources v') -> resources v' = resources v).
Proof.
  intros H. apply indexed_distinct in H.
  destruct (sort_by_name_spec r_name _ H) as (H1 & H2 & H3 & H4).
  repeat split; auto. intros v' Hp. unfold resources. apply H3. now apply Permutation_map.
Qed.

Lemma versions_spec s : indexed v_name (s_versions s) ->
  sorted_by v_name (versions s) /\ Permutation (map snd (s_versions s)) (versions s) /\
  (forall l, Permutation (map snd (s_versions s)) l -> sorted_by v_name l -> l = versions s) /\
  (forall s', Permutation (s_versions s) (s_versions s') -> versions s' = versions s).
Proof.
  intros H. apply indexed_distinct in H.
  destruct (sort_by_name_spec v_name _ H) as (H1 & H2 & H3 & H4).
  repeat split; auto. intros s' Hp. unfold versions. apply H3. now apply Permutation_map.
Qed.

Lemma services_spec (m : model) : indexed s_name m ->
  sorted_by s_name (services m) /\ Permutation (map snd m) (services m) /\
  (forall l, Permutation (map snd m) l -> sorted_by s_name l -> l = services m) /\
  (forall m', Permutation m m' -> services m' = services m).
Proof.
  intros H. apply indexed_distinct in H.
  destruct (sort_by_name_spec s_name _ H) as (H1 & H2 & H3 & H4).
  repeat split; auto. intros m' Hp. unfold services. apply H3. now apply Permutation_map.
Qed.

Lemma add_type_indexed v t : indexed t_name (v_types v) -> indexed t_name (v_types (add_type t v)).
Proof. apply indexed_mset. Qed.

Lemma new_version_indexed n : indexed t_name (v_types (new_version n)).
Proof.
  unfold new_version, add_interface_type, add_scalar_type.
  repeat apply add_type_indexed. split; [constructor|]. simpl. tauto.
Qed.

Lemma fold_add_type ts : forall v,
  v_types (fold_left (fun v t => add_type t v) ts v) =
  fold_left (fun m a => mset (name_string (t_name a)) a m) ts (v_types v).
Proof. induction ts as [|t ts IH]; intros v; simpl; [reflexivity|]. now rewrite IH. Qed.

Lemma fold_add_resource rs : forall v,
  v_resources (fold_left (fun v r => add_resource r v) rs v) =
  fold_left (fun m a => mset (name_string (r_name a)) a m) rs (v_resources v).
Proof. induction rs as [|t ts IH]; intros v; simpl; [reflexivity|]. now rewrite IH. Qed.

Lemma fold_add_error es : forall v,
  v_errors (fold_left (fun v e => add_error e v) es v) =
  fold_left (fun m a => mset (name_string (e_name a)) a m) es (v_errors v).
Proof. induction es as [|t ts IH]; intros v; simpl; [reflexivity|]. now rewrite IH. Qed.

Lemma fold_add_version vs : forall s,
  s_versions (fold_left (fun s v => add_version v s) vs s) =
  fold_left (fun m a => mset (name_string (v_name a)) a m) vs (s_versions s).
Proof. induction vs as [|t ts IH]; intros v; simpl; [reflexivity|]. now rewrite IH. Qed.

Lemma reachable_indexed ts n :
  indexed t_name (v_types (fold_left (fun v t => add_type t v) ts (new_version n))).
Proof. rewrite fold_add_type. apply fold_mset_indexed. apply new_version_indexed. Qed.

Lemma reachable_resources_indexed rs n :
  indexed r_name (v_resources (fold_left (fun v r => add_resource r v) rs (new_version n))).
Proof. rewrite fold_add_resource. apply fold_mset_indexed. split; [constructor|simpl; tauto]. Qed.

Lemma reachable_versions_indexed vs n :
  indexed v_name (s_versions (fold_left (fun s v => add_version v s) vs (new_service n))).
Proof. rewrite fold_add_version. apply fold_mset_indexed. split; [constructor|simpl; tauto]. Qed.

Lemma reachable_services_indexed ss :
  indexed s_name (fold_left (fun m s => add_service s m) ss []).
Proof. unfold add_service, name_key. apply fold_mset_indexed. split; [constructor|simpl; tauto]. Qed.

(** Frame: additions to one map don't touch the others. *)
Lemma find_type_history ts v n :
  find_type n (fold_left (fun v t => add_type t v) ts v) =
  match last_named t_name (name_string n) ts with Some t => Some t | None => find_type n v end.
Proof. unfold find_type. rewrite fold_add_type. apply fold_mset_last. Qed.

Lemma find_resource_history rs v n :
  find_resource n (fold_left (fun v r => add_resource r v) rs v) =
  match last_named r_name (name_string n) rs with Some r => Some r | None => find_resource n v end.
Proof. unfold find_resource. rewrite fold_add_resource. apply fold_mset_last. Qed.

Lemma find_error_history es v n :
  find_error n (fold_left (fun v e => add_error e v) es v) =
  match last_named e_name (name_string n) es with Some e => Some e | None => find_error n v end.
Proof. unfold find_error. rewrite fold_add_error. apply fold_mset_last. Qed.

Lemma find_version_history vs s n :
  find_version n (fold_left (fun s v => add_version v s) vs s) =
  match last_named v_name (name_string n) vs with Some v => Some v | None => find_version n s end.
Proof. unfold find_version. rewrite fold_add_version. apply fold_mset_last. Qed.

Lemma find_service_history ss (m : model) n :
  find_service n (fold_left (fun m s => add_service s m) ss m) =
  match last_named s_name (name_string n) ss with Some s => Some s | None => find_service n m end.
Proof. unfold find_service, add_service, name_key. apply fold_mset_last. Qed.

Lemma add_frame t r e v n :
  find_resource n (add_type t v) = find_resource n v /\
  find_error n (add_type t v) = find_error n v /\
  find_type n (add_resource r v) = find_type n v /\
  find_error n (add_resource r v) = find_error n v /\
  find_type n (add_error e v) = find_type n v /\
  find_resource n (add_error e v) = find_resource n v.
Proof. repeat split. Qed.

(** * Slices of concepts (C07) *)

Lemma fold_add_attribute xs : forall t,
  t_attrs (fold_left (fun t a => add_attribute a t) xs t) =
  fold_left (fun l x => sort attr_less (l ++ [x])%list) xs (t_attrs t).
Proof. induction xs as [|x xs IH]; intros t; simpl; [reflexivity|]. now rewrite IH. Qed.

Lemma fold_add_value xs : forall t,
  t_values (fold_left (fun t a => add_value a t) xs t) =
  fold_left (fun l x => sort ev_less (l ++ [x])%list) xs (t_values t).
Proof. induction xs as [|x xs IH]; intros t; simpl; [reflexivity|]. now rewrite IH. Qed.

Lemma fold_add_parameter xs : forall m,
  m_params (fold_left (fun m a => add_parameter a m) xs m) =
  fold_left (fun l x => sort param_less (l ++ [x])%list) xs (m_params m).
Proof. induction xs as [|x xs IH]; intros t; simpl; [reflexivity|]. now rewrite IH. Qed.

Lemma fold_add_method xs : forall r,
  r_methods (fold_left (fun r a => add_method a r) xs r) =
  fold_left (fun l x => sort method_less (l ++ [x])%list) xs (r_methods r).
Proof. induction xs as [|x xs IH]; intros t; simpl; [reflexivity|]. now rewrite IH. Qed.

Lemma fold_add_locator xs : forall r,
  r_locators (fold_left (fun r a => add_locator a r) xs r) =
  fold_left (fun l x => sort locator_less (l ++ [x])%list) xs (r_locators r).
Proof. induction xs as [|x xs IH]; intros t; simpl; [reflexivity|]. now rewrite IH. Qed.

Lemma slice_spec {A} (f : A -> name) (xs : list A) :
  distinct_names f xs ->
  let r := fold_left (fun l x => sort (fun a b => name_less (f a) (f b)) (l ++ [x])%list) xs [] in
  sorted_by f r /\ Permutation xs r /\ (forall l, Permutation xs l -> sorted_by f l -> l = r) /\
  (forall ys, Permutation xs ys ->
     fold_left (fun l x => sort (fun a b => name_less (f a) (f b)) (l ++ [x])%list) ys [] = r).
Proof.
  intros H. cbv zeta. rewrite (add_sorted_fold f xs []) by (simpl; auto).
  destruct (sort_by_name_spec f xs H) as (H1 & H2 & H3 & H4). simpl app.
  repeat split; auto. intros ys Hp. rewrite (add_sorted_fold f ys []).
  - simpl. now apply H3.
  - simpl. unfold distinct_names in *. eapply Permutation_NoDup; [|exact H]. now apply Permutation_map.
  - reflexivity.
Qed.

Lemma attributes_spec n xs : distinct_names a_name xs ->
  let r := t_attrs (fold_left (fun t a => add_attribute a t) xs (new_type n)) in
  sorted_by a_name r /\ Permutation xs r /\ (forall l, Permutation xs l -> sorted_by a_name l -> l = r) /\
  (forall ys, Permutation xs ys ->
     t_attrs (fold_left (fun t a => add_attribute a t) ys (new_type n)) = r).
Proof.
  intros H. cbv zeta. destruct (slice_spec a_name xs H) as (H1 & H2 & H3 & H4).
  rewrite fold_add_attribute. repeat split; auto.
  intros ys Hp. rewrite fold_add_attribute. now apply H4.
Qed.

Lemma values_spec n xs : distinct_names ev_name xs ->
  let r := t_values (fold_left (fun t a => add_value a t) xs (new_type n)) in
  sorted_by ev_name r /\ Permutation xs r /\ (forall l, Permutation xs l -> sorted_by ev_name l -> l = r) /\
  (forall ys, Permutation xs ys ->
     t_values (fold_left (fun t a => add_value a t) ys (new_type n)) = r).
Proof.
  intros H. cbv zeta. destruct (slice_spec ev_name xs H) as (H1 & H2 & H3 & H4).
  rewrite fold_add_value. repeat split; auto.
  intros ys Hp. rewrite fold_add_value. now apply H4.
Qed.

Lemma parameters_spec n d an xs : distinct_names p_name xs ->
  let r := m_params (fold_left (fun t a => add_parameter a t) xs (MkMethod n [] d an)) in
  sorted_by p_name r /\ Permutation xs r /\ (forall l, Permutation xs l -> sorted_by p_name l -> l = r) /\
  (forall ys, Permutation xs ys ->
     m_params (fold_left (fun t a => add_parameter a t) ys (MkMethod n [] d an)) = r).
Proof.
  intros H. cbv zeta. destruct (slice_spec p_name xs H) as (H1 & H2 & H3 & H4).
  rewrite fold_add_parameter. repeat split; auto.
  intros ys Hp. rewrite fold_add_parameter. now apply H4.
Qed.

Lemma methods_spec n xs : distinct_names m_name xs ->
  let r := r_methods (fold_left (fun t a => add_method a t) xs (new_resource n)) in
  sorted_by m_name r /\ Permutation xs r /\ (forall l, Permutation xs l -> sorted_by m_name l -> l = r) /\
  (forall ys, Permutation xs ys ->
     r_methods (fold_left (fun t a => add_method a t) ys (new_resource n)) = r).
Proof.
  intros H. cbv zeta. destruct (slice_spec m_name xs H) as (H1 & H2 & H3 & H4).
  rewrite fold_add_method. repeat split; auto.
  intros ys Hp. rewrite fold_add_method. now apply H4.
Qed.

Lemma locators_spec n xs : distinct_names l_name xs ->
  let r := r_locators (fold_left (fun t a => add_locator a t) xs (new_resource n)) in
  sorted_by l_name r /\ Permutation xs r /\ (forall l, Permutation xs l -> sorted_by l_name l -> l = r) /\
  (forall ys, Permutation xs ys ->
     r_locators (fold_left (fun t a => add_locator a t) ys (new_resource n)) = r).
Proof.
  intros H. cbv zeta. destruct (slice_spec l_name xs H) as (H1 & H2 & H3 & H4).
  rewrite fold_add_locator. repeat split; auto.
  intros ys Hp. rewrite fold_add_locator. now apply H4.
Qed.

Lemma find_by_name_spec {A} (f : A -> name) n (l : list A) :
  match find (fun a => name_equals (Some (f a)) (Some n)) l with
  | Some a => In a l /\ n_words (f a) = n_words n
  | None => forall a, In a l -> n_words (f a) <> n_words n
  end.
Proof.
  destruct (find (fun a => name_equals (Some (f a)) (Some n)) l) as [a|] eqn:E.
  - apply find_some in E as [H1 H2]. now apply name_equals_words in H2.
  - intros a Ha H. apply (find_none _ _ E) in Ha. apply name_equals_words in H. congruence.
Qed.

(** * Errors: a version with two or more errors panics *)

Lemma sort_errors_panics l :
  (forall e, In e l -> e_hidden_name e = None) -> 2 <= length l -> sort_errors l = None.
Proof.
  induction l as [|a l IH]; simpl; intros Hh Hl; [lia|].
  destruct l as [|b l]; [simpl in Hl; lia|].
  destruct l as [|c l].
  - simpl. unfold error_less. rewrite (Hh a) by now left. reflexivity.
  - assert (H : sort_errors (b :: c :: l) = None).
    { apply IH; [|simpl; lia]. intros e He. apply Hh. now right. }
    rewrite H. reflexivity.
Qed.

(** * Built-in types (C09) *)

Lemma builtins_present n id k kd : In (id, k, kd) builtins ->
  (exists t, type_at k (new_version n) = Some t /\ is_builtin_entry (id, k, kd) k t) /\
  (exists t, type_at (k ++ "_list") (new_version n) = Some t /\
             is_builtin_entry (id, k, kd) (k ++ "_list") t).
Proof.
  intros H. unfold builtins in H. cbn [In] in H.
  repeat (destruct H as [H|H];
    [injection H as <- <- <-; split; eexists; (split; [vm_compute; reflexivity|]);
      [left|right]; repeat split|]).
  contradiction.
Qed.

Ltac find_builtin :=
  first [ apply Exists_cons_hd; first [ left; repeat split; vm_compute; reflexivity
                                      | right; repeat split; vm_compute; reflexivity ]
        | apply Exists_cons_tl; find_builtin ].

Lemma builtins_only n k t : type_at k (new_version n) = Some t ->
  exists b, In b builtins /\ is_builtin_entry b k t.
Proof.
  intros H. apply mget_in in H. apply Exists_exists. unfold builtins. vm_compute in H.
  repeat (destruct H as [H|H]; [injection H as <- <-; find_builtin|]).
  contradiction.
Qed.

Lemma builtin_predicates v n t :
  indexed t_name (v_types v) -> type_at (name_string (t_name t)) v = Some t ->
  (is_builtin n (name_string (t_name t)) = true <-> find_type n v = Some t).
Proof.
  intros Hi Ht. unfold is_builtin, find_type, name_key. rewrite String.eqb_eq. split.
  - intros <-. exact Ht.
  - intros H. apply mget_in in H. symmetry. now apply (proj2 Hi).
Qed.

(** * Categories (C10) *)

Lemma category_unique m c d :
  in_category c m = true -> in_category d m = true -> c = d.
Proof.
  assert (E : forall a b, name_equals (Some (m_name m)) (Some a) = true ->
              name_equals (Some (m_name m)) (Some b) = true -> words_equal (n_words a) (n_words b) = true).
  { intros a b Ha Hb. apply name_equals_words in Ha, Hb. apply words_equal_spec. congruence. }
  intros Hc Hd.
  destruct c, d; try reflexivity; exfalso; unfold in_category in *;
    try (unfold is_add, is_delete, is_async_delete, is_get, is_list_method, is_post, is_search,
           is_update, is_async_update in *;
         specialize (E _ _ Hc Hd); vm_compute in E; discriminate).
  all: unfold is_action in *;
    repeat match goal with
    | H : context [if ?b then _ else _] |- _ => destruct b eqn:?
    end; congruence.
Qed.

Lemma category_exists m : exists c, in_category c m = true.
Proof.
  destruct (is_action m) eqn:E; [now exists CAction|]. unfold is_action in E.
  destruct (is_add m) eqn:E1; [now exists CAdd|].
  destruct (is_delete m) eqn:E2; [now exists CDelete|].
  destruct (is_async_delete m) eqn:E3; [now exists CAsyncDelete|].
  destruct (is_get m) eqn:E4; [now exists CGet|].
  destruct (is_list_method m) eqn:E5; [now exists CList|].
  destruct (is_post m) eqn:E6; [now exists CPost|].
  destruct (is_search m) eqn:E7; [now exists CSearch|].
  destruct (is_update m) eqn:E8; [now exists CUpdate|].
  destruct (is_async_update m) eqn:E9; [now exists CAsyncUpdate|]. discriminate.
Qed.

Lemma named_iff m id s :
  camel_identifier id -> camel_identifier s -> m_name m = parse_using_case id ->
  name_equals (Some (m_name m)) (Some (nm s)) = String.eqb id s.
Proof.
  intros Hid Hs Hm. apply eq_true_iff_eq. rewrite name_equals_words, String.eqb_eq, Hm.
  split; [now apply parse_injective|intros ->; reflexivity].
Qed.

Lemma category_of_identifier m id :
  camel_identifier id -> m_name m = parse_using_case id -> in_category (category_of id) m = true.
Proof.
  intros Hid Hm.
  assert (H : forall s, camel_identifier s ->
                name_equals (Some (m_name m)) (Some (nm s)) = String.eqb id s)
    by (intros; now apply named_iff).
  assert (C : forall s c r, s = String c r -> upper_or_digit c = true ->
                str_all (fun d => is_lower d || upper_or_digit d) r = true -> camel_identifier s).
  { intros s c r -> H1 H2. exists c, r. auto. }
  assert (H1 := H "Add" ltac:(eapply C; reflexivity)).
  assert (H2 := H "AsyncDelete" ltac:(eapply C; reflexivity)).
  assert (H3 := H "AsyncUpdate" ltac:(eapply C; reflexivity)).
  assert (H4 := H "Delete" ltac:(eapply C; reflexivity)).
  assert (H5 := H "Get" ltac:(eapply C; reflexivity)).
  assert (H6 := H "List" ltac:(eapply C; reflexivity)).
  assert (H7 := H "Post" ltac:(eapply C; reflexivity)).
  assert (H8 := H "Search" ltac:(eapply C; reflexivity)).
  assert (H9 := H "Update" ltac:(eapply C; reflexivity)).
  unfold category_of, in_category, is_action, is_add, is_delete, is_async_delete, is_get,
    is_list_method, is_post, is_search, is_update, is_async_update,
    nAdd, nDelete, nAsyncDelete, nGet, nList, nPost, nSearch, nUpdate, nAsyncUpdate in *.
  destruct (String.eqb id "Add") eqn:E1; [exact H1|].
  destruct (String.eqb id "AsyncDelete") eqn:E2; [exact H2|].
  destruct (String.eqb id "AsyncUpdate") eqn:E3; [exact H3|].
  destruct (String.eqb id "Delete") eqn:E4; [exact H4|].
  destruct (String.eqb id "Get") eqn:E5; [exact H5|].
  destruct (String.eqb id "List") eqn:E6; [exact H6|].
  destruct (String.eqb id "Post") eqn:E7; [exact H7|].
  destruct (String.eqb id "Search") eqn:E8; [exact H8|].
  destruct (String.eqb id "Update") eqn:E9; [exact H9|].
  rewrite H1, H2, H3, H4, H5, H6, H7, H8, H9. reflexivity.
Qed.

Lemma category_iff m id c :
  camel_identifier id -> m_name m = parse_using_case id ->
  (in_category c m = true <-> c = category_of id).
Proof.
  intros Hid Hm. assert (H := category_of_identifier m id Hid Hm). split.
  - intros Hc. eapply category_unique; eauto.
  - intros ->. exact H.
Qed.
