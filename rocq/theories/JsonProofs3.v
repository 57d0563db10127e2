(** Proofs about what is written: success, content and well formed numbers. *)
From Coq Require Import Ascii String Bool Arith ZArith NArith Lia Permutation DecimalString DecimalZ DecimalFacts Decimal Sorted List.
From Verif Require Import GoStrings GoStringsProofs GoMap GoMapProofs NamesModel NamesSpec NamesProofs ConceptsModel ConceptsSpec BindingModel GoNamesModel
  GoTimeModel GoTimeSpec ReporterModel ObjectsModel ObjectsSpec ObjectsProofs ObjectsProofs2 ObjectsProofs3 JsonModel JsonSpec JsonProofs JsonProofs2.
Import ListNotations.
Local Open Scope string_scope.

(** * Success *)

Lemma all_fields_self (P : nat -> attribute -> value -> value -> Prop) i l m :
  all_fields P i l m m <->
  (length l = length m /\ forall j a x, nth_error l j = Some a -> nth_error m j = Some x -> P (i + j) a x x).
Proof.
  revert i l. induction m as [|x m IH]; intros i l; cbn.
  - split; [intros [-> _]; split; [reflexivity|]; intros [|j]; discriminate|]. intros [L _]. destruct l; [auto|discriminate].
  - destruct l as [|a l]; [split; [contradiction|intros [L _]; discriminate]|]. rewrite IH. split.
    + intros (H & L & F). split; [cbn; congruence|]. intros [|j] a' x' E1 E2; cbn in E1, E2.
      * injection E1 as <-. injection E2 as <-. now rewrite Nat.add_0_r.
      * replace (i + S j) with (S i + j) by lia. eauto.
    + intros [L F]. split; [specialize (F 0 a x eq_refl eq_refl); now rewrite Nat.add_0_r in F|]. split; [cbn in L; congruence|].
      intros j a' x' E1 E2. specialize (F (S j) a' x' E1 E2). now replace (i + S j) with (S i + j) in F by lia.
Qed.

Lemma all2_nth {A B} (P : A -> B -> Prop) l m :
  all2 P l m <-> (length l = length m /\ forall j a x, nth_error l j = Some a -> nth_error m j = Some x -> P a x).
Proof.
  revert l. induction m as [|x m IH]; intros l; cbn.
  - split; [intros ->; split; [reflexivity|]; intros [|j]; discriminate|]. intros [L _]. destruct l; [auto|discriminate].
  - destruct l as [|a l]; [split; [contradiction|intros [L _]; discriminate]|]. rewrite IH. split.
    + intros (H & L & F). split; [cbn; congruence|]. intros [|j] a' x' E1 E2; cbn in E1, E2; [congruence|eauto].
    + intros [L F]. split; [apply (F 0); reflexivity|]. split; [cbn in L; congruence|]. intros j. apply (F (S j)).
Qed.

Lemma all1_forall {A} (P : A -> Prop) l : all1 P l <-> Forall P l.
Proof. induction l; cbn; split; auto; try tauto; [intros [? ?]; constructor; tauto|inversion 1; subst; tauto]. Qed.

Lemma filled_present v a x : scalar_filled v a x ->
  (match type_at (a_type a) v with Some ta => is_scalar ta | None => false end || match x with VNil => false | _ => true end) = not_nil x.
Proof.
  unfold scalar_filled. destruct (type_at (a_type a) v) as [ta|]; [|reflexivity]. destruct x; intros H; try apply orb_true_r.
  destruct (is_scalar ta); auto. now contradiction H.
Qed.

Lemma fields_succeed v t bits (f : attribute -> value -> written) (P : attribute -> value -> Prop) (l : list attribute) (m : list value) i n count :
  fits t -> n = length (t_attrs t) -> i + length l = n ->
  all2 (fun a x => scalar_filled v a x /\ (x <> VNil -> (succeeds (f a x) <-> P a x)) /\ (x = VNil -> P a x)) l m ->
  (succeeds (write_fields v t bits n i count (zip_with (fun a x => (a, x, f a x)) l m)) <->
   forall j a x, nth_error l j = Some a -> nth_error m j = Some x -> N.testbit bits (N.of_nat (reserved t + (i + j))) = true -> P a x).
Proof.
  intros F -> . revert i l count. induction m as [|x m IH]; intros i l count L H.
  - cbn in H. subst l. cbn. rewrite ok_succeeds. split; auto. intros _ [|j]; discriminate.
  - destruct l as [|a l]; [contradiction|]. destruct H as [(H1 & H2 & H2') H3]. cbn [zip_with] in *.
    cbn [write_fields] in *. rewrite has_mask by (auto; cbn in L; lia).
    replace (i + 1) with (S i) by lia. rewrite (filled_present _ _ _ H1).
    assert (IH' : forall c, succeeds (write_fields v t bits (length (t_attrs t)) (S i) c (zip_with (fun a x => (a, x, f a x)) l m)) <->
      forall j a x, nth_error l j = Some a -> nth_error m j = Some x -> N.testbit bits (N.of_nat (reserved t + (S i + j))) = true -> P a x).
    { intros c. apply IH; auto. cbn in L. lia. }
    clear IH. destruct (N.testbit bits (N.of_nat (reserved t + i)) && not_nil x) eqn:B.
    + rewrite !wcat_succeeds, comma_succeeds, ok_succeeds, IH'. apply andb_true_iff in B. destruct B as [B1 B2].
      assert (Nn : x <> VNil) by (intros ->; discriminate). rewrite (H2 Nn). split.
      * intros (_ & _ & H & G) [|j] a' x' E1 E2 E3; cbn in E1, E2; [congruence|]. apply (G j); auto. now replace (S i + j) with (i + S j) by lia.
      * intros G. split; auto. split; auto. split; [apply (G 0); auto; now rewrite Nat.add_0_r|].
        intros j a' x' E1 E2 E3. apply (G (S j)); auto. now replace (i + S j) with (S i + j) by lia.
    + rewrite IH'. split.
      * intros G [|j] a' x' E1 E2 E3; cbn in E1, E2; [|apply (G j); auto; now replace (S i + j) with (i + S j) by lia].
        injection E1 as <-. injection E2 as <-. rewrite Nat.add_0_r in E3. rewrite E3 in B. cbn in B. apply H2'. destruct x; auto; discriminate.
      * intros G j a' x' E1 E2 E3. apply (G (S j)); auto. now replace (i + S j) with (S i + j) by lia.
Qed.

Lemma if_succeeds (b : bool) l m : succeeds (if b then WOk l else WOk m) <-> True.
Proof. destruct b; apply ok_succeeds. Qed.

Lemma marshal_succeeds o v t b : fits t -> structural t ->
  all2 (fun a x => scalar_filled v a x /\ (x <> VNil -> (succeeds (write_value o v (a_type a) (a_link a) x) <-> printable o v (a_type a) x)) /\
    (x = VNil -> printable o v (a_type a) x)) (t_attrs t) (o_fields b) ->
  (succeeds (marshal_object o v t (Some b)) <-> object_printable o v t b).
Proof.
  intros F K H. unfold marshal_object, write_members, object_printable. rewrite all_fields_self.
  rewrite !wcat_succeeds, !ok_succeeds.
  assert (L : length (t_attrs t) = length (o_fields b)) by (apply all2_nth in H; tauto).
  assert (E : forall c, succeeds (write_fields v t (o_bits b) (length (t_attrs t)) 0 c
    (zip_with (fun a x => (a, x, write_value o v (a_type a) (a_link a) x)) (t_attrs t) (o_fields b))) <->
    forall j a x, nth_error (t_attrs t) j = Some a -> nth_error (o_fields b) j = Some x ->
      N.testbit (o_bits b) (N.of_nat (reserved t + (0 + j))) = true -> printable o v (a_type a) x).
  { intros c. apply (fields_succeed v t (o_bits b) (fun a x => write_value o v (a_type a) (a_link a) x) (fun a x => printable o v (a_type a) x)); auto. }
  unfold present, marked.
  destruct (is_class t).
  - rewrite !wcat_succeeds, !ok_succeeds, !if_succeeds, E. split; [intros (_ & (_ & _ & _ & G) & _); auto|intros [_ G]; auto 10].
  - rewrite E. split; [intros (_ & G & _); auto|intros [_ G]; auto].
Qed.

Lemma item_succeeds o v t e x : standard v -> plain v t -> t_element t = Some e -> typed v e false x ->
  (x = VNil \/ (succeeds (write_value o v e false x) <-> printable o v e x)) ->
  (succeeds (write_value o v e false x) <-> x <> VNil /\ printable o v e x).
Proof.
  intros S (e' & te & E & G & K) E' T [->|W].
  - rewrite E in E'. injection E' as ->. cbn in T. rewrite G in T.
    assert (K' : structural te).
    { unfold structural. destruct (t_kind te); try contradiction; auto; cbn in K; intuition discriminate. }
    rewrite (write_nil _ _ S _ _ _ G K'). split; [intros [? ?]; discriminate|intros [? _]; congruence].
  - rewrite W. split; [|tauto]. intros Pr. split; auto. intros ->. rewrite E in E'. injection E' as ->. cbn in T. rewrite G in T.
    assert (K' : structural te).
    { unfold structural. destruct (t_kind te); try contradiction; auto; cbn in K; intuition discriminate. }
    rewrite (write_nil _ _ S _ _ _ G K') in W. apply W in Pr. destruct Pr. discriminate.
Qed.

Lemma items_succeed2 o v t e l : standard v -> plain v t -> t_element t = Some e ->
  Forall (fun x => forall k link, typed v k link x -> x = VNil \/ (succeeds (write_value o v k link x) <-> printable o v k x)) l ->
  all1 (typed v e false) l ->
  (Forall succeeds (map (write_value o v e false) l) <-> all1 (fun y => y <> VNil /\ printable o v e y) l).
Proof.
  intros S P E F. induction F as [|x l H F IH]; intros A; cbn; [split; auto|]. destruct A as [A1 A2].
  specialize (IH A2). pose proof (item_succeeds o v t e x S P E A1 (H _ _ A1)) as W. split.
  - inversion 1; subst. tauto.
  - intros [? ?]. constructor; tauto.
Qed.

Lemma nil_printable o v k link : typed v k link VNil -> printable o v k VNil.
Proof. cbn. destruct (mget k (v_types v)); auto. Qed.

Lemma value_succeeds o v : standard v -> compiled v -> (forall m, Permutation m (order o m)) ->
  forall x k link, typed v k link x -> x = VNil \/ (succeeds (write_value o v k link x) <-> printable o v k x).
Proof.
  intros S C P.
  induction x as [s| |b IH|l IH|h b s _ IH|l IH] using value_ind2; intros k link T; [right|now left|right..]; cbn in T;
    destruct (mget k (v_types v)) as [t|] eqn:Gk; try contradiction.
  - assert (T' : scalar_typed k t s).
    { destruct (t_kind t); try contradiction; auto; try (now destruct T as [_ T]; destruct (t_element t)). }
    rewrite (write_scalar_eq _ _ S _ _ _ _ Gk T'). cbn. rewrite Gk.
    destruct s; cbn [write_scalar finite]; try (rewrite ok_succeeds; tauto).
    + unfold write_float. destruct (format_float o bits); [rewrite ok_succeeds; split; [discriminate|auto]|].
      split; [intros [? ?]; discriminate|congruence].
    + apply any_succeeds; auto. unfold scalar_typed in T'. destruct (t_kind t); try contradiction. exact T'.
  - assert (K : structural t).
    { unfold structural. destruct (t_kind t); try contradiction; auto; now destruct T as [_ T]; destruct (t_element t). }
    assert (T' : all2 (fun a y => typed v (a_type a) (a_link a) y) (t_attrs t) (o_fields b)).
    { destruct (t_kind t); try contradiction; try (now destruct T as [_ T]; destruct (t_element t)); now destruct T as (_ & _ & _ & T). }
    rewrite (write_struct_eq _ _ S _ _ _ _ Gk K). rewrite marshal_succeeds; eauto.
    + unfold object_printable. cbn. rewrite Gk. reflexivity.
    + eapply all2_impl; [|exact T']. cbn. intros a x I Tx. split; [now apply typed_filled|]. rewrite Forall_forall in IH. split.
      * intros N. now destruct (IH x I (a_type a) (a_link a) Tx).
      * intros ->. exact (nil_printable o _ _ _ Tx).
  - destruct (t_kind t) eqn:K; try contradiction; destruct T as [Pl T]; destruct (t_element t) as [e|] eqn:E; try contradiction.
    destruct T as [-> T]. rewrite (write_slice_eq _ _ S _ _ _ _ Gk K E). unfold marshal_list.
    rewrite !wcat_succeeds, !ok_succeeds, items_succeed, (items_succeed2 _ _ t); auto. cbn. rewrite Gk, E. split.
    + intros (_ & H & _). eauto.
    + intros (e' & He & H). injection He as <-. auto.
  - destruct (t_kind t) eqn:K; try contradiction; destruct T as [Pl T]; destruct (t_element t) as [e|] eqn:E; try contradiction.
    destruct T as [-> T]. rewrite (write_list_eq _ _ S _ _ _ _ _ _ Gk K E); [|destruct s; try contradiction; eauto].
    unfold marshal_list. rewrite !wcat_succeeds, !ok_succeeds, items_succeed. cbn. rewrite Gk, E. split.
    + intros (_ & (_ & H & _) & _). exists e. split; auto. destruct s; auto. apply (items_succeed2 _ _ t) in H; auto.
    + intros (e' & He & H). injection He as <-. repeat split; auto. destruct s; try contradiction; [constructor|].
      apply (items_succeed2 _ _ t); auto.
  - destruct (t_kind t) eqn:K; try contradiction; destruct T as [Pl T]; destruct (t_element t) as [e|] eqn:E; try contradiction.
    destruct T as [Inc T]. rewrite (write_map_eq _ _ S _ _ _ _ _ Gk K E). rewrite sorted_keys by auto.
    assert (Fs : map fst (map (fun '(k, y) => (k, write_value o v e false y)) l) = map fst l).
    { rewrite map_map. apply map_ext. now intros []. }
    rewrite !wcat_succeeds, !ok_succeeds, entries_succeed; [|rewrite Fs; auto|rewrite Fs; now apply increasing_nodup|rewrite Fs; auto].
    cbn. rewrite Gk, E.
    assert (H : Forall (fun p => succeeds (snd p)) (map (fun '(k, y) => (k, write_value o v e false y)) l) <->
                all1 (fun p => snd p <> VNil /\ printable o v e (snd p)) l).
    { clear Fs Inc. induction IH as [|[k' y] l H F IHl]; cbn; [split; auto|]. destruct T as [T1 T2]. specialize (IHl T2).
      pose proof (item_succeeds o v t e y S Pl E T1 (H _ _ T1)) as W. split.
      - inversion 1; subst. cbn in *. tauto.
      - intros [? ?]. constructor; cbn in *; tauto. }
    rewrite H. split.
    + intros (_ & G & _). eauto.
    + intros (e' & He & G). injection He as <-. auto.
Qed.

(** * Content *)

Lemma any_shown o a : (forall m, Permutation m (order o m)) -> sorted_any a -> finite_any o a -> shows_any o a (encode_any o a).
Proof.
  intros P. induction a using any_ind2; intros S F; cbn in *; auto.
  - unfold encode_float. destruct (format_float o z) as [s|]; [eauto|congruence].
  - exists (map (encode_any o) l). split; auto. induction H as [|x l H G IH]; cbn; auto. destruct S, F. split; auto.
  - eexists. split; [reflexivity|]. destruct S as [S1 S2]. split.
    + rewrite map_map. cbn. rewrite map_id. apply Permutation_sym, P.
    + rewrite all1_forall, Forall_forall in *. intros [k x] I. exists (encode_any o x). split.
      * apply in_map_iff. exists k. split.
        -- cbn. f_equal. unfold find_json.
           assert (M : mget k (map (fun '(k, x) => (k, encode_any o x)) l) = Some (encode_any o x)).
           { apply mget_in_iff; [|apply in_map_iff; now exists (k, x)]. unfold mkeys. rewrite map_map. erewrite map_ext; [apply increasing_nodup, S1|now intros []]. }
           now rewrite M.
        -- eapply Permutation_in; [apply P|]. apply in_map_iff. now exists (k, x).
      * apply (H _ I); [apply (S2 _ I)|apply (F _ I)].
Qed.

Lemma fields_shown (Q : attribute -> value -> json -> Prop) t (b : object) (g : attribute -> value -> json) l m i :
  length l = length m ->
  (forall j a x, nth_error l j = Some a -> nth_error m j = Some x -> present t (i + j) b -> x <> VNil -> Q a x (g a x)) ->
  shows_fields Q t b i l m (encode_members t (o_bits b) i (zip_with (fun a x => (a, x, g a x)) l m)).
Proof.
  revert i l. induction m as [|x m IH]; intros i l L H.
  - destruct l; [|discriminate]. cbn. auto.
  - destruct l as [|a l]; [discriminate|]. cbn [zip_with encode_members shows_fields].
    assert (IH' : shows_fields Q t b (S i) l m (encode_members t (o_bits b) (S i) (zip_with (fun a x => (a, x, g a x)) l m))).
    { apply IH; [cbn in L; congruence|]. intros j a' x' E1 E2 E3 E4. apply (H (S j)); auto. now replace (i + S j) with (S i + j) by lia. }
    unfold present, marked in *. destruct (N.testbit (o_bits b) (N.of_nat (reserved t + i))) eqn:B; cbn [andb].
    + destruct (not_nil x) eqn:Nn.
      * left. split; auto. assert (x <> VNil) by (intros ->; discriminate). split; auto. do 2 eexists. split; [reflexivity|].
        split; [|exact IH']. apply (H 0); auto. now rewrite Nat.add_0_r.
      * right. split; [|exact IH']. right. destruct x; auto; discriminate.
    + right. split; auto.
Qed.

Lemma items_shown o v e l : Forall (fun x => forall k link, typed v k link x -> x <> VNil -> printable o v k x -> shows o v k x (encode o v k x)) l ->
  all1 (typed v e false) l -> all1 (fun y => y <> VNil /\ printable o v e y) l -> all2 (fun y x => shows o v e x y) (map (encode o v e) l) l.
Proof. intros F. induction F as [|x l H F IH]; cbn; auto. intros [T1 T2] [[N P1] P2]. split; eauto. Qed.

Lemma value_shown o v : (forall m, Permutation m (order o m)) ->
  forall x k link, typed v k link x -> x <> VNil -> printable o v k x -> shows o v k x (encode o v k x).
Proof.
  intros P.
  induction x as [s| |b IH|l IH|h b s _ IH|l IH] using value_ind2; intros k link T N Pr; try (now contradiction N); cbn in T, Pr |- *;
    destruct (mget k (v_types v)) as [t|] eqn:Gk; try contradiction.
  - assert (T' : scalar_typed k t s).
    { destruct (t_kind t); try contradiction; auto; try (now destruct T as [_ T]; destruct (t_element t)). }
    destruct s; cbn [shows_scalar encode_scalar finite] in *; auto.
    + unfold encode_float. destruct (format_float o bits); [eauto|congruence].
    + apply any_shown; auto. unfold scalar_typed in T'. destruct (t_kind t); try contradiction. exact T'.
  - assert (T' : all2 (fun a y => typed v (a_type a) (a_link a) y) (t_attrs t) (o_fields b)).
    { destruct (t_kind t); try contradiction; try (now destruct T as [_ T]; destruct (t_element t)); now destruct T as (_ & _ & _ & T). }
    eexists. split; [reflexivity|]. apply all2_nth in T'. destruct T' as [L T'].
    apply (fields_shown (fun a x y => shows o v (a_type a) x y) t b (fun a x => encode o v (a_type a) x)); auto.
    intros j a x E1 E2 E3 E4. rewrite Forall_forall in IH. apply all_fields_self in Pr. destruct Pr as [_ Pr].
    apply (IH x (nth_error_In _ _ E2) (a_type a) (a_link a)); eauto.
  - destruct (t_kind t) eqn:K; try contradiction; destruct T as [Pl T]; destruct (t_element t) as [e|] eqn:E; try contradiction.
    destruct T as [-> T]. destruct Pr as (e' & He & Pr). injection He as <-. rewrite (elem_eq _ _ E).
    exists e, (map (encode o v e) l). split; auto. split; auto. now apply items_shown.
  - destruct (t_kind t) eqn:K; try contradiction; destruct T as [Pl T]; destruct (t_element t) as [e|] eqn:E; try contradiction.
    destruct T as [-> T]. destruct Pr as (e' & He & Pr). injection He as <-. rewrite (elem_eq _ _ E).
    do 2 eexists. split; [reflexivity|]. split; [reflexivity|]. destruct s; auto. apply items_shown; auto.
  - destruct (t_kind t) eqn:K; try contradiction; destruct T as [Pl T]; destruct (t_element t) as [e|] eqn:E; try contradiction.
    destruct T as [Inc T]. destruct Pr as (e' & He & Pr). injection He as <-. rewrite (elem_eq _ _ E).
    do 2 eexists. split; [reflexivity|]. split; [reflexivity|]. split; [rewrite map_map; apply map_ext; now intros []|].
    clear Inc N. induction IH as [|[k' y] l H F IHl]; cbn; auto. destruct T as [T1 T2], Pr as [[N P1] P2]. split; eauto.
Qed.

(** * Numbers *)

Lemma digits_uint u : digits (NilEmpty.string_of_uint u).
Proof. induction u; cbn; auto; split; auto; vm_compute; lia. Qed.

Lemma integer_number z : json_number (itoa_z z).
Proof.
  assert (U : forall u, (u = zero \/ (u <> Nil /\ forall u', u <> D0 u')) ->
    NilZero.string_of_uint u = "0" \/ exists c r, NilZero.string_of_uint u = String c r /\ c <> "0"%char /\ digits (NilZero.string_of_uint u)).
  { intros u [->|[N0 N1]]; [now left|]. right. pose proof (digits_uint u) as D.
    destruct u; try (now contradiction N0); try (now contradiction (N1 u)); cbn [NilZero.string_of_uint];
      do 2 eexists; split; try reflexivity; split; try discriminate; exact D. }
  assert (Norm : Z.to_int z = norm (Z.to_int z)).
  { rewrite <- (DecimalZ.of_to z) at 1. apply DecimalZ.to_of. }
  unfold itoa_z. destruct (Z.to_int z) as [u|u] eqn:E.
  - cbn in Norm. injection Norm as Norm.
    assert (H : u = zero \/ (u <> Nil /\ forall u', u <> D0 u')).
    { unfold unorm in Norm. destruct (nzhead u) eqn:Z; auto; right; subst u; split; try discriminate. exact (fun u' H => nzhead_nonzero _ _ Z). }
    exists "", (NilZero.string_of_uint u), "", "". split; [now rewrite !sapp_nil_r|]. split; auto.
  - cbn in Norm. destruct (nzhead u) eqn:Z; try discriminate; injection Norm as Norm;
      [exfalso; exact (nzhead_nonzero _ _ Z)|..];
      (exists "-", (NilZero.string_of_uint u), "", ""; split; [now rewrite !sapp_nil_r|]; split; auto; split; auto; apply U; right; subst u; split; discriminate).
Qed.

Lemma float_wf o z : faithful o -> well_formed (encode_float o z).
Proof. intros [F _]. unfold encode_float. destruct (format_float o z) eqn:E; cbn; auto. now destruct (F _ _ E). Qed.

Lemma any_wf o a : faithful o -> well_formed (encode_any o a).
Proof.
  intros F. induction a using any_ind2; cbn; auto; [now apply float_wf| |].
  - induction H; cbn; auto.
  - rewrite all1_forall, Forall_forall. intros p I. apply in_map_iff in I. destruct I as [k [<- I]]. cbn.
    unfold find_json. destruct (mget k _) as [j|] eqn:E; cbn; auto. apply mget_in in E. apply in_map_iff in E.
    destruct E as [[k' x] [E I']]. injection E as <- <-. rewrite Forall_forall in H. now apply (H _ I').
Qed.

Lemma members_wf t bits i l : Forall (fun p => well_formed (snd p)) l -> all1 (fun p => well_formed (snd p)) (encode_members t bits i l).
Proof.
  intros F. revert i. induction F as [|[[a x] j] l H F IH]; intros i; cbn; auto. destruct (_ && _); cbn; auto.
Qed.

Lemma header_wf t b : all1 (fun p => well_formed (snd p)) (header t b).
Proof. unfold header. destruct (t_kind t); cbn; auto. split; auto. destruct (N.testbit _ 1), (N.testbit _ 2); cbn; auto. Qed.

Lemma all1_app {A} (P : A -> Prop) l m : all1 P (l ++ m) <-> all1 P l /\ all1 P m.
Proof. rewrite !all1_forall, Forall_app. reflexivity. Qed.

Lemma value_wf o v : faithful o -> forall x k, well_formed (encode o v k x).
Proof.
  intros F. induction x as [s| |b IH|l IH|h b s _ IH|l IH] using value_ind2; intros k; cbn;
    destruct (mget k (v_types v)) as [t|]; cbn; auto.
  - destruct s; cbn [encode_scalar well_formed]; auto; [apply integer_number|now apply float_wf|now apply any_wf].
  - rewrite all1_app. split; [apply header_wf|]. apply members_wf.
    generalize (t_attrs t). induction IH as [|x m H G IHm]; intros [|a l]; cbn; constructor; cbn; auto.
  - induction IH; cbn; auto.
  - split; auto. destruct s; cbn; auto. specialize (IH _ eq_refl). induction IH; cbn; auto.
  - induction IH as [|[k' y] l H G IHl]; cbn; auto.
Qed.

Lemma object_wf o v t b : faithful o -> well_formed (encode_object o v t b).
Proof.
  intros F. cbn. rewrite all1_app. split; [apply header_wf|]. apply members_wf.
  generalize (t_attrs t). induction (o_fields b) as [|x m IH]; intros [|a l]; cbn; constructor; cbn; auto. now apply value_wf.
Qed.
