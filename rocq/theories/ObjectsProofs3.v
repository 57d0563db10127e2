(** Proofs about building objects. *)
From Coq Require Import Ascii String Bool Arith ZArith NArith Lia List.
From Verif Require Import GoStrings GoMap NamesModel NamesSpec ConceptsModel ConceptsSpec GoTimeModel ObjectsModel ObjectsSpec
  ObjectsProofs ObjectsProofs2.
Import ListNotations.
Local Open Scope string_scope.

(** * Build *)

(** Building a value: it succeeds if there are no nil elements, and the result is the expected one. *)
Definition builds (v : version) (x : value) : Prop :=
  forall k link, typed v k link x ->
    (no_nil x -> build_value v k link x <> None) /\
    (forall y, build_value v k link x = Some y -> built v k link x y).

Lemma builds_fields v l m :
  Forall (builds v) m -> all2 (fun a y => typed v (a_type a) (a_link a) y) l m ->
  (all1 no_nil m -> build_fields v l m <> None) /\
  (forall ys, build_fields v l m = Some ys ->
     length ys = length m /\
     forall i a x y, nth_error l i = Some a -> nth_error m i = Some x -> nth_error ys i = Some y ->
       built v (a_type a) (a_link a) x y).
Proof.
  revert l. induction m as [|x m IH]; intros l F T.
  - cbn. split; [discriminate|]. intros ys E. injection E as <-. split; auto. intros [|i]; discriminate.
  - destruct l as [|a l]; [cbn in T; contradiction|]. cbn in T. destruct T as [T1 T2].
    inversion F as [|? ? F1 F2]; subst. destruct (F1 _ _ T1) as [B1 B2]. destruct (IH l F2 T2) as [I1 I2].
    unfold build_fields in *. cbn.
    destruct (build_value v (a_type a) (a_link a) x) as [y|] eqn:E.
    + destruct (sequence _) as [ys|].
      * split; [discriminate|]. intros zs Ez. injection Ez as <-. destruct (I2 ys eq_refl) as [L I3].
        split; [cbn; now rewrite L|]. intros [|i] a' x' y'; cbn.
        -- intros Ea Ex Ey. injection Ea as <-. injection Ex as <-. injection Ey as <-. auto.
        -- apply I3.
      * split; [|discriminate]. intros [_ H]. exfalso. now apply I1.
    + split; [|discriminate]. intros [H _]. exfalso. now apply B1.
Qed.

Lemma builds_items v e te l : mget e (v_types v) = Some te ->
  Forall (builds v) l -> all1 (typed v e false) l ->
  (all1 (fun y => y <> VNil /\ no_nil y) l -> sequence (map (build_item v e) l) <> None) /\
  (forall ys, sequence (map (build_item v e) l) = Some ys -> Forall2 (built v e false) l ys /\ length ys = length l).
Proof.
  intros G. induction l as [|x l IH]; intros F T.
  - cbn. split; [discriminate|]. intros ys E. injection E as <-. split; auto.
  - cbn in T. destruct T as [T1 T2]. inversion F as [|? ? F1 F2]; subst.
    destruct (F1 _ _ T1) as [B1 B2]. destruct (IH F2 T2) as [I1 I2]. cbn [map sequence].
    destruct (build_item v e x) as [y|] eqn:E.
    + assert (E' : build_value v e false x = Some y) by (destruct x; try discriminate; exact E).
      destruct (sequence (map (build_item v e) l)) as [ys|].
      * split; [discriminate|]. intros zs Ez. injection Ez as <-. destruct (I2 ys eq_refl) as [L I3].
        split; [constructor; auto|cbn; now rewrite I3].
      * split; [|discriminate]. intros [_ H]. exfalso. now apply I1.
    + split; [|discriminate]. intros [[H1 H2] _]. exfalso. apply (B1 H2). destruct x; try exact E; congruence.
Qed.

Lemma built_refl_scalars v e te l : mget e (v_types v) = Some te -> is_scalar te = true -> Forall2 (built v e false) l l.
Proof.
  intros G S. induction l; constructor; auto. eapply built_scalar; eauto.
  unfold is_scalar in S. destruct (t_kind te); cbn in S; try discriminate; simpl; auto.
Qed.

Lemma build_spec v : forall x, builds v x.
Proof.
  induction x as [s| |o IH|l IH|h b s IHs IHl|l IH] using value_ind2; intros k link T.
  - assert (exists t, mget k (v_types v) = Some t /\ is_scalar t = true) as [t [G S]].
    { cbn in T. destruct (mget k (v_types v)) as [t|]; [|contradiction]. exists t. split; auto. unfold is_scalar.
      destruct (t_kind t); try contradiction; auto; destruct (t_element t); tauto. }
    destruct (scalar_eq v k link t (VScalar s) G S) as [_ ->]. split; [discriminate|].
    intros y E. injection E as <-. eapply built_scalar; eauto.
    unfold is_scalar in S. destruct (t_kind t); cbn in S; try discriminate; simpl; auto.
  - assert (exists t, mget k (v_types v) = Some t /\ is_scalar t = false /\ t_kind t <> UndefinedType) as [t [G [S U]]].
    { cbn in T. destruct (mget k (v_types v)) as [t|]; [|contradiction]. exists t. split; auto. unfold is_scalar.
      destruct (t_kind t); try contradiction; auto; split; auto; discriminate. }
    destruct (nil_eq v k link t G S) as [_ ->]. split; [discriminate|].
    intros y E. injection E as <-. eapply built_nil; eauto.
    unfold is_scalar in S. destruct (t_kind t); cbn in S; try discriminate; simpl; auto; congruence.
  - assert (exists t, mget k (v_types v) = Some t /\ structural t) as [t [G S]].
    { cbn in T. destruct (mget k (v_types v)) as [t|]; [|contradiction]. exists t. split; auto. unfold structural.
      destruct (t_kind t); try contradiction; auto; destruct (t_element t); tauto. }
    assert (T' : object_typed v t o).
    { cbn in T. rewrite G in T. unfold object_typed. destruct S as [S|S]; rewrite S in *; exact T. }
    destruct T' as (T1 & T2 & T3 & T4).
    rewrite (build_object_eq _ _ _ t) by auto.
    destruct (builds_fields v (t_attrs t) (o_fields o) IH T4) as [B1 B2].
    destruct (build_fields v (t_attrs t) (o_fields o)) as [ys|].
    + split; [discriminate|]. intros y E. injection E as <-. destruct (B2 ys eq_refl) as [L B3].
      assert (W : (if is_class t then o_id o else "") = o_id o /\ (if is_class t then o_href o else "") = o_href o).
      { unfold is_class. destruct S as [S|S]; rewrite S in *; cbn; auto. destruct T3 as [-> ->]; auto. }
      destruct W as [W1 W2].
      eapply built_object; eauto.
    + split; [|discriminate]. cbn. intros H. exfalso. now apply B1.
  - assert (exists t, mget k (v_types v) = Some t /\ t_kind t = ListType) as [t [G S]].
    { cbn in T. destruct (mget k (v_types v)) as [t|]; [|contradiction]. exists t. split; auto.
      destruct (t_kind t); try contradiction; auto; destruct (t_element t); tauto. }
    assert (Pl : plain v t). { cbn in T. rewrite G, S in T. tauto. }
    destruct Pl as (e & te & E & Ge & Ke).
    assert (T' : link = false /\ all1 (typed v e false) l).
    { cbn in T. rewrite G, S, E in T. tauto. }
    destruct T' as [-> T']. rewrite (build_slice_eq _ _ t e te) by auto.
    destruct (is_scalar te) eqn:Se.
    + split; [discriminate|]. intros y Ey. injection Ey as <-. eapply built_slice; eauto. eapply built_refl_scalars; eauto.
    + assert (St : is_struct te = true).
      { unfold is_scalar, is_struct in *. cbn in Ke. destruct (t_kind te); auto; try discriminate; repeat destruct Ke as [Ke|Ke]; discriminate || contradiction. }
      rewrite St. destruct (builds_items v e te l Ge IH T') as [B1 B2].
      destruct (sequence _) as [ys|].
      * split; [discriminate|]. intros y Ey. injection Ey as <-. eapply built_slice; eauto. now apply B2.
      * split; [|discriminate]. cbn. intros H. exfalso. now apply B1.
  - assert (exists t, mget k (v_types v) = Some t /\ t_kind t = ListType) as [t [G S]].
    { cbn in T. destruct (mget k (v_types v)) as [t|]; [|contradiction]. exists t. split; auto.
      destruct (t_kind t); try contradiction; auto; destruct (t_element t); tauto. }
    assert (Pl : plain v t). { cbn in T. rewrite G, S in T. tauto. }
    destruct Pl as (e & te & E & Ge & Ke).
    assert (T' : link = true /\ match s with VNil => True | VSlice l => all1 (typed v e false) l | _ => False end).
    { cbn in T. rewrite G, S, E in T. tauto. }
    destruct T' as [-> T']. rewrite (build_list_eq _ _ t e te) by auto.
    destruct s as [| | |l| |]; try contradiction.
    + cbn. split; [discriminate|]. intros y Ey. injection Ey as <-. eapply built_list; eauto. cbn. constructor.
    + destruct (builds_items v e te l Ge (IHl l eq_refl) T') as [B1 B2].
      destruct (sequence _) as [ys|].
      * split; [discriminate|]. intros y Ey. injection Ey as <-. eapply built_list; eauto. now apply B2.
      * split; [|discriminate]. cbn. intros H. exfalso. now apply B1.
  - assert (exists t, mget k (v_types v) = Some t /\ t_kind t = MapType) as [t [G S]].
    { cbn in T. destruct (mget k (v_types v)) as [t|]; [|contradiction]. exists t. split; auto.
      destruct (t_kind t); try contradiction; auto; destruct (t_element t); tauto. }
    assert (Pl : plain v t). { cbn in T. rewrite G, S in T. tauto. }
    destruct Pl as (e & te & E & Ge & Ke).
    assert (T' : increasing (map fst l) /\ all1 (fun p => typed v e false (snd p)) l).
    { cbn in T. rewrite G, S, E in T. tauto. }
    destruct T' as [_ T'].
    rewrite (build_map_eq _ _ _ t e te) by auto.
    destruct (is_scalar te) eqn:Se.
    + split; [discriminate|]. intros y Ey. injection Ey as <-. eapply built_map; eauto. eapply built_refl_scalars; eauto.
    + assert (St : is_struct te = true).
      { unfold is_scalar, is_struct in *. cbn in Ke. destruct (t_kind te); auto; try discriminate; repeat destruct Ke as [Ke|Ke]; discriminate || contradiction. }
      rewrite St. rewrite <- (map_map snd (build_item v e)).
      destruct (builds_items v e te (map snd l) Ge (Forall_snd _ _ IH) (all1_snd _ _ T')) as [B1 B2].
      destruct (sequence _) as [ys|].
      * split; [discriminate|]. intros y Ey. injection Ey as <-. destruct (B2 ys eq_refl) as [B3 B4]. rewrite map_length in B4.
        destruct (combine_fst (map fst l) ys) as [C1 C2]; [now rewrite map_length|].
        eapply built_map; eauto. now rewrite C2.
      * split; [|discriminate]. cbn. intros H. exfalso. apply B1; auto.
        apply (all1_snd (fun y => y <> VNil /\ no_nil y)). exact H.
Qed.

Lemma build_object_spec v t b : structural t -> object_typed v t b ->
  (all1 no_nil (o_fields b) -> exists p, build_object v t b = Some p) /\
  (forall p, build_object v t b = Some p ->
     o_bits p = o_bits b /\ o_id p = o_id b /\ o_href p = o_href b /\ length (o_fields p) = length (o_fields b) /\
     forall i a x y, nth_error (t_attrs t) i = Some a -> nth_error (o_fields b) i = Some x -> nth_error (o_fields p) i = Some y ->
       built v (a_type a) (a_link a) x y).
Proof.
  intros S (T1 & T2 & T3 & T4).
  assert (F : Forall (builds v) (o_fields b)) by (apply Forall_forall; intros; now apply build_spec).
  destruct (builds_fields v (t_attrs t) (o_fields b) F T4) as [B1 B2]. unfold build_object, build_fields in *.
  assert (W : (if is_class t then o_id b else "") = o_id b /\ (if is_class t then o_href b else "") = o_href b).
  { unfold is_class. destruct S as [S|S]; rewrite S in *; cbn; auto. destruct T3 as [-> ->]; auto. }
  destruct W as [W1 W2]. destruct (sequence _) as [ys|].
  - split; [eauto|]. intros p E. injection E as <-. cbn [o_bits o_id o_href o_fields]. destruct (B2 ys eq_refl) as [L B3]. auto 10.
  - split; [|discriminate]. intros H. exfalso. now apply B1.
Qed.

(** * The state of a builder *)

Lemma zero_typed v k link t : standard v -> mget k (v_types v) = Some t -> t_kind t <> UndefinedType ->
  (In (t_kind t) [ListType; MapType] -> plain v t) ->
  typed v k link (field_zero v k).
Proof.
  intros S G K E. destruct (zero_exists v k t S G K) as [_ Z].
  destruct Z as [t' s G' K' I|t' G' K'|t' G' K'|t' G' K']; rewrite G in G'; injection G' as <-; cbn; rewrite G.
  - rewrite K'. unfold scalar_typed. rewrite K'. simpl in I.
    repeat destruct I as [I|I]; try contradiction; injection I as <- <-; auto; (split; [auto|split; vm_compute; discriminate]).
  - rewrite K'. unfold scalar_typed. now rewrite K'.
  - rewrite K'. unfold scalar_typed. now rewrite K'.
  - destruct (t_kind t) eqn:Kt; auto; simpl in K'; try (intuition discriminate); destruct E as (e & te & E & Ge & Ke); simpl; auto; (split; [exists e, te; auto|now rewrite E]).
Qed.

Lemma new_typed v t : standard v -> known v t -> object_typed v t (new_builder v t).
Proof.
  intros S K. split; [apply new_complete|]. split.
  - intros n _. unfold marked. cbn. discriminate.
  - split; [auto|]. cbn. unfold known in K. induction (t_attrs t) as [|a l IH]; cbn; auto. split.
    + destruct (K a) as (ta & G & U & Pl); [left; auto|]. eapply zero_typed; eauto.
    + apply IH. intros a' H. apply K. right. auto.
Qed.

Lemma all2_set_nth {A B} (P : A -> B -> Prop) l m i a x :
  all2 P l m -> nth_error l i = Some a -> P a x -> all2 P l (set_nth i x m).
Proof.
  revert l i. induction m as [|y m IH]; intros l [|i]; cbn; auto.
  - destruct l as [|a' l]; [tauto|]. cbn. intros [H1 H2] E H. injection E as ->. auto.
  - destruct l as [|a' l]; [tauto|]. cbn. intros [H1 H2] E H. split; auto.
Qed.

Lemma stored_typed v t b i a x : object_typed v t b -> fits t -> nth_error (t_attrs t) i = Some a -> typed v (a_type a) (a_link a) x ->
  object_typed v t (apply_call v t b (CallSet i x)).
Proof.
  intros (T1 & T2 & T3 & T4) F A Tx.
  assert (Ty : match mget (a_type a) (v_types v) with Some ta => is_list ta = true /\ a_link a = false /\ x = VNil -> typed v (a_type a) (a_link a) (VSlice []) | None => True end).
  { destruct (mget (a_type a) (v_types v)) as [ta|] eqn:G; auto. intros (L & Lk & ->). cbn in *. rewrite G in *.
    unfold is_list in L. destruct (t_kind ta); cbn in L; try discriminate. destruct (t_element ta); tauto. }
  split; [now apply apply_complete|]. split; [|split].
  - intros n Hn. rewrite marked_other; auto. cbn [slot_of].
    assert (i < length (t_attrs t)) by (apply nth_error_Some; congruence). unfold slots in Hn. lia.
  - destruct (set_rest v t b i x) as [-> ->]. auto.
  - cbn [apply_call]. rewrite A. unfold type_at. destruct (mget (a_type a) (v_types v)) as [ta|] eqn:G; auto.
    destruct (is_list ta) eqn:L; [destruct (a_link a) eqn:Lk|]; cbn [o_fields].
    + eapply all2_set_nth; eauto. rewrite Lk. auto.
    + eapply all2_set_nth; eauto. rewrite Lk. destruct x; auto.
    + eapply all2_set_nth; eauto.
Qed.

Lemma call_typed v t b c : fits t -> object_typed v t b -> valid_call v t c -> object_typed v t (apply_call v t b c).
Proof.
  intros F T V. destruct c as [l|s|s|i x]; cbn in V.
  4:{ destruct V as (a & A & Tx). eapply stored_typed; eauto. }
  all: destruct T as (T1 & T2 & T3 & T4); (split; [now apply apply_complete|]); split; [|split; [intros; congruence|auto]];
    intros n Hn; rewrite marked_other; auto; cbn [slot_of]; unfold slots, reserved in Hn; rewrite V in Hn; lia.
Qed.

Lemma calls_typed v t l b : fits t -> object_typed v t b -> Forall (valid_call v t) l -> object_typed v t (apply_calls v t b l).
Proof.
  intros F. unfold apply_calls. revert b. induction l as [|c l IH]; cbn; intros b T V; auto.
  inversion V; subst. apply IH; auto. now apply call_typed.
Qed.

Lemma call_keeps_no_nil v t b c : all1 no_nil (o_fields b) -> call_no_nil c -> all1 no_nil (o_fields (apply_call v t b c)).
Proof.
  assert (S : forall i x l, all1 no_nil l -> no_nil x -> all1 no_nil (set_nth i x l)).
  { intros i x l. revert i. induction l as [|y l IH]; intros [|i]; cbn; auto; intros [H1 H2] H; auto. }
  intros H C. destruct c as [l|s|s|i x]; auto. cbn [apply_call]. destruct (nth_error (t_attrs t) i); auto.
  destruct (type_at _ v) as [ta|]; auto. destruct (is_list ta); [destruct (a_link a)|]; cbn [o_fields]; apply S; auto.
  cbn in C. destruct x; auto.
Qed.

Lemma calls_keep_no_nil v t l b : all1 no_nil (o_fields b) -> Forall call_no_nil l -> all1 no_nil (o_fields (apply_calls v t b l)).
Proof.
  unfold apply_calls. revert b. induction l as [|c l IH]; cbn; intros b T V; auto.
  inversion V; subst. apply IH; auto. now apply call_keeps_no_nil.
Qed.

Lemma new_no_nil v t : all1 no_nil (o_fields (new_builder v t)).
Proof.
  cbn. induction (t_attrs t) as [|a l IH]; cbn; auto. split; auto.
  unfold field_zero. repeat match goal with |- context [if ?c then _ else _] => destruct c; [exact I|] end.
  destruct (type_at _ _) as [ta|]; [destruct (is_enum ta)|]; exact I.
Qed.

(** * Sequences of calls *)

Section Sequences.
  Context (v : version) (t : typ) (l : list call).
  Context (HS : standard v) (HF : fits t) (HT : structural t) (HK : known v t).
  Context (HV : Forall (valid_call v t) l).

  Lemma sequence_typed : object_typed v t (apply_calls v t (new_builder v t) l).
  Proof. apply calls_typed; auto. now apply new_typed. Qed.

  Lemma sequence_builds : Forall call_no_nil l -> exists p, build_object v t (apply_calls v t (new_builder v t) l) = Some p.
  Proof.
    intros H. apply build_object_spec; auto using sequence_typed. apply calls_keep_no_nil; auto. apply new_no_nil.
  Qed.

  Lemma sequence_attr (p : object) i a z : build_object v t (apply_calls v t (new_builder v t) l) = Some p ->
    nth_error (t_attrs t) i = Some a -> zero_of v (a_type a) z ->
    (last_call (sets i) l None -> get_attr v t i a (Some p) = (z, false)) /\
    (forall x, last_call (sets i) l (Some x) -> clears v a x -> get_attr v t i a (Some p) = (VNil, false)) /\
    (forall x, last_call (sets i) l (Some x) -> ~ clears v a x ->
       exists y r, stores v a x y /\ built v (a_type a) (a_link a) y r /\ get_attr v t i a (Some p) = (r, true)).
  Proof.
    intros B A Z. destruct (build_object_spec v t _ HT sequence_typed) as [_ BS].
    destruct (BS p B) as (B1 & B2 & B3 & B4 & B5).
    assert (W : t_kind t = ClassType \/ Forall (fun c => exists j x, c = CallSet j x) l).
    { destruct HT as [K|K]; auto. right. eapply Forall_impl; [|exact HV]. intros [b|s|s|j x] Vc; cbn in Vc; eauto; congruence. }
    destruct (HK a) as (ta & G & U & _). { eapply nth_error_In; eauto. }
    assert (P : present t i p <-> present t i (apply_calls v t (new_builder v t) l)).
    { unfold present, marked. rewrite B1. tauto. }
    split; [|split].
    - intros H. pose proof (calls_attr v t l i a None HF A W (ex_intro _ ta (conj G U)) H) as C. cbn in C.
      apply getter_absent; auto. tauto.
    - intros x H Cl. pose proof (calls_attr v t l i a (Some x) HF A W (ex_intro _ ta (conj G U)) H) as C. cbn in C.
      assert (z = VNil) as <-.
      { destruct Cl as (t' & G' & K' & ->). eapply zero_fun; eauto. eapply zero_nil; eauto. simpl in *. intuition. }
      apply getter_absent; auto. tauto.
    - intros x H Cl. pose proof (calls_attr v t l i a (Some x) HF A W (ex_intro _ ta (conj G U)) H) as C. cbn in C.
      destruct C as [C1 (y & C2 & C3)]. assert (L : nth_error (o_fields p) i <> None).
      { apply nth_error_Some. rewrite B4. apply nth_error_Some. congruence. }
      destruct (nth_error (o_fields p) i) as [r|] eqn:Er; [|congruence].
      exists y, r. split; auto. split; [eapply B5; eauto|]. apply getter_present; auto. tauto.
  Qed.

  Lemma sequence_rest (p : object) : t_kind t = ClassType -> build_object v t (apply_calls v t (new_builder v t) l) = Some p ->
    (last_call sets_id l None -> get_id (Some p) = ("", false)) /\
    (forall s, last_call sets_id l (Some (VScalar (SString s))) -> get_id (Some p) = (s, true)) /\
    (last_call sets_href l None -> get_href (Some p) = ("", false)) /\
    (forall s, last_call sets_href l (Some (VScalar (SString s))) -> get_href (Some p) = (s, true)) /\
    (last_call sets_link l None -> object_link (Some p) = false) /\
    (last_call sets_link l (Some (VScalar (SBool true))) -> object_link (Some p) = true).
  Proof.
    intros K B. destruct (build_object_spec v t _ HT sequence_typed) as [_ BS].
    destruct (BS p B) as (B1 & B2 & B3 & _). clear BS. set (b := apply_calls v t (new_builder v t) l) in *.
    assert (M : forall n, marked n p <-> marked n b) by (intros; unfold marked; rewrite B1; tauto).
    destruct (id_getters p) as (I1 & I2 & I3 & I4). destruct (kind_getter t p) as (I5 & I6).
    unfold has_id, has_href, is_link in *.
    split; [|split; [|split; [|split; [|split]]]].
    - intros H. pose proof (calls_id v t l None K HF H) as C. cbn in C. apply I2. rewrite M. exact C.
    - intros s H. pose proof (calls_id v t l _ K HF H) as C. cbn in C. destruct C as [C1 C2]. fold b in C2. injection C2 as ->.
      rewrite <- B2. apply I1. rewrite M. exact C1.
    - intros H. pose proof (calls_href v t l None K HF H) as C. cbn in C. apply I4. rewrite M. exact C.
    - intros s H. pose proof (calls_href v t l _ K HF H) as C. cbn in C. destruct C as [C1 C2]. fold b in C2. injection C2 as ->.
      rewrite <- B3. apply I3. rewrite M. exact C1.
    - intros H. pose proof (calls_link v t l None K HF H) as C. cbn in C. apply I6. rewrite M. exact C.
    - intros H. pose proof (calls_link v t l _ K HF H) as C. cbn in C. apply I5. rewrite M. exact C.
  Qed.
End Sequences.

(** * What the relation between objects means *)

Lemma all_fields_nth (P : nat -> attribute -> value -> value -> Prop) l m n j :
  all_fields P j l m n -> forall i a x y, nth_error l i = Some a -> nth_error m i = Some x -> nth_error n i = Some y -> P (j + i) a x y.
Proof.
  revert j l n. induction m as [|x0 m IH]; intros j l n H i a x y.
  - destruct i; discriminate.
  - cbn in H. destruct l as [|a0 l], n as [|y0 n]; try contradiction. destruct H as [H1 H2].
    destruct i as [|i]; cbn.
    + intros E1 E2 E3. injection E1 as <-. injection E2 as <-. injection E3 as <-. now rewrite Nat.add_0_r.
    + intros. replace (j + S i) with (S j + i) by lia. eapply IH; eauto.
Qed.

Lemma all_fields_length (P : nat -> attribute -> value -> value -> Prop) l m n j :
  all_fields P j l m n -> length m = length l /\ length n = length l.
Proof.
  revert j l n. induction m as [|x0 m IH]; intros j l n H; cbn in H.
  - destruct H as [-> ->]. auto.
  - destruct l as [|a0 l], n as [|y0 n]; try contradiction. destruct H as [H1 H2].
    destruct (IH _ _ _ H2) as [E1 E2]. cbn. auto.
Qed.

Lemma same_getters v t (o p : object) : structural t -> standard v -> known v t -> fits t -> same_object v t o p ->
  object_link (Some p) = object_link (Some o) /\ get_id (Some p) = get_id (Some o) /\
  get_href (Some p) = get_href (Some o) /\ object_empty t (Some p) = object_empty t (Some o) /\
  forall i a, nth_error (t_attrs t) i = Some a ->
    snd (get_attr v t i a (Some p)) = snd (get_attr v t i a (Some o)) /\
    match fst (get_attr v t i a (Some o)) with
    | VScalar s => fst (get_attr v t i a (Some p)) = VScalar s
    | VNil => fst (get_attr v t i a (Some p)) = VNil
    | x => same v (a_type a) (a_link a) x (fst (get_attr v t i a (Some p)))
    end.
Proof.
  intros St S K F (E1 & E2 & E3 & E4).
  assert (M : forall n, marked n p <-> marked n o) by (intros; unfold marked; rewrite E1; tauto).
  split; [cbn; now rewrite E1|]. split; [|split; [|split]].
  - cbn. rewrite E1. destruct (has_bit (o_bits o) 2) eqn:H; auto. rewrite E2; auto. unfold has_id, marked. rewrite has_bit_1 in H. exact H.
  - cbn. rewrite E1. destruct (has_bit (o_bits o) 4) eqn:H; auto. rewrite E3; auto. unfold has_href, marked. rewrite has_bit_2 in H. exact H.
  - unfold object_empty. now rewrite E1.
  - intros i a A. destruct (K a) as (ta & G & U & _). { eapply nth_error_In; eauto. }
    destruct (zero_exists v _ ta S G U) as [_ Z].
    destruct (all_fields_length _ _ _ _ _ E4) as [L1 L2].
    assert (Li : i < length (t_attrs t)) by (apply nth_error_Some; congruence).
    destruct (nth_error (o_fields o) i) as [x|] eqn:X; [|apply nth_error_None in X; lia].
    destruct (nth_error (o_fields p) i) as [y|] eqn:Y; [|apply nth_error_None in Y; lia].
    pose proof (all_fields_nth _ _ _ _ _ E4 i a x y A X Y) as Sm. cbn [Nat.add] in Sm.
    destruct (N.testbit (o_bits o) (N.of_nat (reserved t + i))) eqn:B.
    + assert (P1 : present t i o) by exact B. assert (P2 : present t i p) by (unfold present; rewrite M; exact B).
      destruct (getter_present v t i a o x F A X P1) as [_ ->].
      destruct (getter_present v t i a p y F A Y P2) as [_ ->]. cbn [fst snd]. split; auto.
      specialize (Sm P1). destruct x; auto; cbn in Sm; rewrite G in Sm; auto.
    + assert (P1 : ~ present t i o) by (unfold present, marked; congruence).
      assert (P2 : ~ present t i p) by (unfold present; rewrite M; exact P1).
      destruct (getter_absent v t i a o _ S F A Z P1) as [_ ->].
      destruct (getter_absent v t i a p _ S F A Z P2) as [_ ->]. cbn [fst snd]. split; auto.
      destruct Z as [? ? ? ? ?|? ? ?|? ? ?|? ? ?]; auto.
Qed.

Lemma copy_discards v t b b' o : object_typed v t o -> complete t b -> complete t b' ->
  (t_kind t = StructType -> o_id b = "" /\ o_href b = "" /\ o_id b' = "" /\ o_href b' = "") -> structural t ->
  copy_object v t b (Some o) = copy_object v t b' (Some o).
Proof.
  intros (_ & _ & _ & T) C C' W S. cbn [copy_object]. rewrite !copied_fields by auto. unfold is_class.
  destruct S as [K|K]; rewrite K in *; cbn; auto. destruct W as (-> & -> & -> & ->); auto.
Qed.

(** * Other *)

Lemma id_setters v t (b : object) s :
  (has_id (apply_call v t b (CallID s)) /\ o_id (apply_call v t b (CallID s)) = s /\
   o_href (apply_call v t b (CallID s)) = o_href b /\ o_fields (apply_call v t b (CallID s)) = o_fields b /\
   (forall n, n <> 1 -> marked n (apply_call v t b (CallID s)) <-> marked n b)) /\
  (has_href (apply_call v t b (CallHREF s)) /\ o_href (apply_call v t b (CallHREF s)) = s /\
   o_id (apply_call v t b (CallHREF s)) = o_id b /\ o_fields (apply_call v t b (CallHREF s)) = o_fields b /\
   (forall n, n <> 2 -> marked n (apply_call v t b (CallHREF s)) <-> marked n b)) /\
  (is_link (apply_call v t b (CallLink true)) /\
   o_id (apply_call v t b (CallLink true)) = o_id b /\ o_href (apply_call v t b (CallLink true)) = o_href b /\
   o_fields (apply_call v t b (CallLink true)) = o_fields b /\
   (forall n, n <> 0 -> marked n (apply_call v t b (CallLink true)) <-> marked n b)).
Proof.
  split; [|split]; (split; [|split; [|split; [|split]]]); try reflexivity.
  - unfold has_id, marked. cbn [apply_call o_bits]. now rewrite set_bit_1.
  - intros n H. unfold marked. cbn [apply_call o_bits]. rewrite set_bit_1. destruct (Nat.eqb_spec 1 n); [congruence|tauto].
  - unfold has_href, marked. cbn [apply_call o_bits]. now rewrite set_bit_2.
  - intros n H. unfold marked. cbn [apply_call o_bits]. rewrite set_bit_2. destruct (Nat.eqb_spec 2 n); [congruence|tauto].
  - unfold is_link, marked. cbn [apply_call o_bits]. now rewrite set_bit_0.
  - intros n H. unfold marked. cbn [apply_call o_bits]. rewrite set_bit_0. destruct (Nat.eqb_spec 0 n); [congruence|tauto].
Qed.

Lemma list_empty_spec l :
  list_empty l = true <-> (l = None \/ exists h b, l = Some (MkList h b None) \/ l = Some (MkList h b (Some []))).
Proof.
  destruct l as [[h b [[|x m]|]]|]; cbn; split; auto.
  - intros _. right. exists h, b. auto.
  - discriminate.
  - intros [H|(h' & b' & [H|H])]; discriminate.
  - intros _. right. exists h, b. auto.
Qed.

Lemma built_bounded v t l (p : object) : standard v -> fits t -> structural t -> known v t ->
  Forall (valid_call v t) l -> build_object v t (apply_calls v t (new_builder v t) l) = Some p -> bounded t p.
Proof.
  intros S F T K V B. pose proof (sequence_typed v t l S F K V) as Ty.
  destruct (build_object_spec v t _ T Ty) as [_ BS]. destruct (BS p B) as (B1 & _).
  destruct Ty as (_ & Bd & _). intros n Hn. unfold marked. rewrite B1. apply Bd, Hn.
Qed.

Lemma list_accessors l i :
  list_len l = length (list_slice l) /\
  ((0 <= i < Z.of_nat (list_len l))%Z -> nth_error (list_slice l) (Z.to_nat i) = Some (list_get i l)) /\
  (~ (0 <= i < Z.of_nat (list_len l))%Z -> list_get i l = VNil) /\
  (forall h b m, l = Some (MkList h b (Some m)) -> list_slice l = m) /\
  (list_empty l = true <-> list_len l = 0).
Proof.
  destruct l as [l|].
  - split; [reflexivity|]. rewrite get_spec. cbn [list_len list_slice list_empty].
    split; [|split; [|split; [|apply Nat.eqb_eq]]].
    + intros [H1 H2]. destruct (Z.leb_spec 0 i); [|lia].
      destruct (nth_error (slice_items (l_items l)) (Z.to_nat i)) eqn:E; auto. apply nth_error_None in E. lia.
    + intros H. destruct (Z.leb_spec 0 i); auto.
      assert (E : nth_error (slice_items (l_items l)) (Z.to_nat i) = None) by (apply nth_error_None; lia). now rewrite E.
    + intros h b m E. injection E as ->. reflexivity.
  - cbn. split; auto. split; [lia|]. split; auto. split; [discriminate|tauto].
Qed.

Lemma each_spec {S} (f : S -> value -> S * bool) s l r : visits f s (list_slice l) r <-> r = list_each f s l.
Proof.
  assert (H : visits f s (list_slice l) (list_each f s l)).
  { destruct l as [l|]; [apply each_visits|constructor]. }
  split; [intros H'; eapply visits_fun; eauto|intros ->; exact H].
Qed.

Lemma range_spec {S} (f : S -> nat -> value -> S * bool) s l r :
  visits (fun s p => f s (fst p) (snd p)) s (combine (seq 0 (list_len l)) (list_slice l)) r <-> r = list_range f s l.
Proof.
  assert (H : visits (fun s p => f s (fst p) (snd p)) s (combine (seq 0 (list_len l)) (list_slice l)) (list_range f s l)).
  { destruct l as [l|]; [apply range_visits|constructor]. }
  split; [intros H'; eapply visits_fun; eauto|intros ->; exact H].
Qed.

Lemma list_properties t h b m s :
  let l := MkList h b m in
  list_href (Some l) = h /\ list_link (Some l) = b /\ list_items (Some l) = m /\
  get_list_href (Some l) = (h, negb (String.eqb h "")) /\
  list_kind t (Some l) = GoNamesModel.object_name t ++ (if b then "ListLink" else "List") /\
  list_kind t None = GoNamesModel.object_name t ++ "ListNil" /\
  list_href None = "" /\ get_list_href None = ("", false) /\ list_link None = false /\ list_items None = None /\
  list_href (Some (set_href s l)) = s /\ list_link (Some (set_href s l)) = b /\ list_items (Some (set_href s l)) = m.
Proof.
  cbn. destruct (String.eqb_spec h "") as [->|E]; cbn; destruct b; repeat split; reflexivity.
Qed.
