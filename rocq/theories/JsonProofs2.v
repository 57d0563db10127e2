(** Proofs about writing objects. *)
From Coq Require Import Ascii String Bool Arith ZArith NArith Lia Permutation DecimalString DecimalZ Decimal Sorted List.
From Verif Require Import GoStrings GoMap GoMapProofs NamesModel NamesSpec NamesProofs ConceptsModel ConceptsSpec BindingModel GoNamesModel
  GoTimeModel GoTimeSpec ReporterModel ObjectsModel ObjectsSpec ObjectsProofs ObjectsProofs2 ObjectsProofs3 JsonModel JsonSpec JsonProofs.
Import ListNotations.
Local Open Scope string_scope.

(** * Equations *)

Lemma not_builtin v k t : standard v -> mget k (v_types v) = Some t -> t_kind t <> ScalarType ->
  is_builtin nBoolean k = false /\ is_builtin nInteger k = false /\ is_builtin nLong k = false /\
  is_builtin nFloat k = false /\ is_builtin nString k = false /\ is_builtin nDate k = false.
Proof.
  intros (S1 & _) G K. destruct builtin_keys as (B1 & B2 & B3 & B4 & B5 & B6 & _).
  unfold is_builtin. rewrite B1, B2, B3, B4, B5, B6.
  assert (N : forall kk, In kk (map fst scalar_zeros) -> String.eqb k kk = false).
  { intros kk HI. apply String.eqb_neq. intros ->. apply in_map_iff in HI. destruct HI as [[k' s] [E HI]].
    simpl in E. subst. destruct (S1 _ _ HI) as [t' [G' K']]. rewrite G in G'. injection G' as <-. contradiction. }
  rewrite !N by (simpl; auto 10). auto 10.
Qed.

Lemma scalar_kind t : is_scalar t = true <-> In (t_kind t) [ScalarType; EnumType; InterfaceType].
Proof. unfold is_scalar, is_interface. destruct (t_kind t); cbn; intuition (try discriminate). Qed.

Lemma str_less a b : Z.ltb (str_compare a b) 0 = true <-> str_lt a b.
Proof.
  rewrite <- str_compare_lt. rewrite Z.ltb_lt. unfold str_compare. destruct (String.compare a b); lia.
Qed.

(** Sorting by increasing keys. *)
Lemma sort_increasing {A} (f : A -> string) (l m : list A) : increasing (map f l) -> Permutation l m ->
  sort (fun a b => Z.ltb (str_compare (f a) (f b)) 0) m = l.
Proof.
  intros I P. symmetry. apply sort_unique.
  - intros a b c. rewrite !str_less. apply str_lt_trans.
  - intros a. destruct (Z.ltb _ 0) eqn:E; auto. apply str_less in E. now apply str_lt_irrefl in E.
  - eapply separated_perm; [exact P|]. clear P. induction l as [|a l IH]; constructor.
    + apply Forall_forall. intros b H. left. apply str_less. apply (increasing_head _ _ _ I). now apply in_map.
    + apply IH. now apply increasing_tail in I.
  - now apply Permutation_sym.
  - clear P. induction l as [|a l IH]; constructor.
    + apply IH. now apply increasing_tail in I.
    + apply Forall_forall. intros b H. apply str_less. apply (increasing_head _ _ _ I). now apply in_map.
Qed.

Section Equations.
  Context (o : oracle) (v : version) (S : standard v).

  Ltac pick K := unfold is_enum, is_interface, is_struct, is_list, is_map; rewrite K; cbn [kind_eqb orb andb negb].

  Lemma write_scalar_eq k link t s : mget k (v_types v) = Some t -> scalar_typed k t s ->
    write_value o v k link (VScalar s) = write_scalar o s.
  Proof.
    intros G T. unfold scalar_typed in T. destruct (t_kind t) eqn:K; try contradiction.
    - destruct (not_builtin _ _ _ S G ltac:(congruence)) as (E1 & E2 & E3 & E4 & E5 & E6).
      cbn [write_value]. rewrite E1, E2, E3, E4, E5, E6. unfold type_at. rewrite G. pick K. destruct s; try contradiction. reflexivity.
    - destruct (not_builtin _ _ _ S G ltac:(congruence)) as (E1 & E2 & E3 & E4 & E5 & E6).
      cbn [write_value]. rewrite E1, E2, E3, E4, E5, E6. unfold type_at. rewrite G. pick K. destruct s; try contradiction. reflexivity.
    - destruct builtin_keys as (B1 & B2 & B3 & B4 & B5 & B6 & _). cbn [write_value]. unfold is_builtin. rewrite B1, B2, B3, B4, B5, B6.
      destruct s; try contradiction; subst; try reflexivity. destruct T as [[->| ->] _]; reflexivity.
  Qed.

  Lemma write_struct_eq k link t b : mget k (v_types v) = Some t -> structural t ->
    write_value o v k link (VObject b) = marshal_object o v t (Some b).
  Proof.
    intros G K. assert (K' : t_kind t <> ScalarType) by (destruct K; congruence).
    destruct (not_builtin _ _ _ S G K') as (E1 & E2 & E3 & E4 & E5 & E6).
    cbn [write_value]. rewrite E1, E2, E3, E4, E5, E6. unfold type_at. rewrite G. destruct K as [K|K]; pick K; reflexivity.
  Qed.

  Lemma elem_eq t e : t_element t = Some e -> elem_key t = e.
  Proof. unfold elem_key. now intros ->. Qed.

  Lemma write_slice_eq k t e l : mget k (v_types v) = Some t -> t_kind t = ListType -> t_element t = Some e ->
    write_value o v k false (VSlice l) = marshal_list o v e l.
  Proof.
    intros G K E. destruct (not_builtin _ _ _ S G ltac:(congruence)) as (E1 & E2 & E3 & E4 & E5 & E6).
    cbn [write_value]. rewrite E1, E2, E3, E4, E5, E6. unfold type_at. rewrite G. pick K. rewrite (elem_eq _ _ E). reflexivity.
  Qed.

  Lemma write_list_eq k t e h b s : mget k (v_types v) = Some t -> t_kind t = ListType -> t_element t = Some e ->
    (s = VNil \/ exists l, s = VSlice l) ->
    write_value o v k true (VList h b s) =
    wcat (WOk [TLBrace; TStr "items"; TColon]) (wcat (marshal_list o v e (elements s)) (WOk [TRBrace])).
  Proof.
    intros G K E HS. destruct (not_builtin _ _ _ S G ltac:(congruence)) as (E1 & E2 & E3 & E4 & E5 & E6).
    cbn [write_value]. rewrite E1, E2, E3, E4, E5, E6. unfold type_at. rewrite G. pick K. rewrite (elem_eq _ _ E).
    destruct HS as [->|[l ->]]; reflexivity.
  Qed.

  Lemma write_map_eq k link t e l : mget k (v_types v) = Some t -> t_kind t = MapType -> t_element t = Some e ->
    write_value o v k link (VMap l) =
    wcat (WOk [TLBrace])
      (wcat (write_entries 0 (sort (fun a b => Z.ltb (str_compare a b) 0) (order o (map fst l)))
               (map (fun '(k, y) => (k, write_value o v e false y)) l)) (WOk [TRBrace])).
  Proof.
    intros G K E. destruct (not_builtin _ _ _ S G ltac:(congruence)) as (E1 & E2 & E3 & E4 & E5 & E6).
    cbn [write_value]. rewrite E1, E2, E3, E4, E5, E6. unfold type_at. rewrite G. pick K. rewrite (elem_eq _ _ E). reflexivity.
  Qed.

  Lemma write_nil k link t : mget k (v_types v) = Some t -> structural t -> write_value o v k link VNil = WPanic.
  Proof.
    intros G K. assert (K' : t_kind t <> ScalarType) by (destruct K; congruence).
    destruct (not_builtin _ _ _ S G K') as (E1 & E2 & E3 & E4 & E5 & E6).
    cbn [write_value]. rewrite E1, E2, E3, E4, E5, E6. unfold type_at. rewrite G. destruct K as [K|K]; pick K; reflexivity.
  Qed.
End Equations.

Lemma sorted_keys o l : increasing l -> (forall m, Permutation m (order o m)) ->
  sort (fun a b => Z.ltb (str_compare a b) 0) (order o l) = l.
Proof. intros I P. apply (sort_increasing (fun x => x)); [now rewrite map_id|apply P]. Qed.

(** * Objects *)

Lemma has_mask t i bits : fits t -> i < length (t_attrs t) -> has_bit bits (bit_mask t i) = N.testbit bits (N.of_nat (reserved t + i)).
Proof. intros F H. rewrite (fits_mask _ _ F H). apply has_bit_pow. Qed.

(** The fields and their types. *)
Definition scalar_filled (v : version) (a : attribute) (x : value) : Prop :=
  match type_at (a_type a) v with Some ta => is_scalar ta = true -> x <> VNil | None => True end.

Lemma typed_filled v a x : typed v (a_type a) (a_link a) x -> scalar_filled v a x.
Proof.
  unfold scalar_filled, type_at. destruct x; cbn; try discriminate.
  all: destruct (mget (a_type a) (v_types v)) as [t|]; auto; rewrite scalar_kind; try discriminate.
  destruct (t_kind t); cbn; intuition (try discriminate).
Qed.

Lemma fields_written v t bits (f : attribute -> value -> written) (g : attribute -> value -> json) (l : list attribute) (m : list value) i n count r :
  fits t -> n = length (t_attrs t) -> i + length l = n ->
  all2 (fun a x => scalar_filled v a x /\ (x <> VNil -> writes (f a x) (g a x))) l m ->
  write_fields v t bits n i count (zip_with (fun a x => (a, x, f a x)) l m) = WOk r ->
  r = lead count (map member (encode_members t bits i (zip_with (fun a x => (a, x, g a x)) l m))).
Proof.
  intros F -> . revert i l count r. induction m as [|x m IH]; intros i l count r L H E.
  - cbn in H. subst l. cbn in E. inversion E. unfold lead. now destruct (Nat.ltb 0 count).
  - destruct l as [|a l]; [contradiction|]. destruct H as [[H1 H2] H3]. cbn [zip_with] in *.
    cbn [write_fields encode_members] in *. rewrite has_mask in E by (auto; cbn in L; lia).
    replace (i + 1) with (S i) in E by lia.
    assert (C : (match type_at (a_type a) v with Some ta => is_scalar ta | None => false end || match x with VNil => false | _ => true end) = not_nil x).
    { unfold scalar_filled in H1. destruct (type_at (a_type a) v) as [ta|]; [|reflexivity]. destruct x; try apply orb_true_r.
      destruct (is_scalar ta); auto. now contradiction H1. }
    rewrite C in E. destruct (N.testbit bits (N.of_nat (reserved t + i)) && not_nil x) eqn:P.
    + apply wcat_ok in E. destruct E as (l1 & l2 & E1 & E & ->). apply wcat_ok in E. destruct E as (l3 & l4 & E3 & E & ->).
      apply wcat_ok in E. destruct E as (l5 & l6 & E5 & E & ->). apply IH in E; auto; [|cbn in L; lia]. subst l6.
      cbn [map]. rewrite lead_cons. apply andb_true_iff in P. destruct P as [_ P]. apply H2 in E5; [|intros ->; discriminate P].
      inversion E3. subst l3 l5. cbn [member fst snd].
      assert (D : lead (if Nat.ltb i (length (t_attrs t) - 1) then count + 1 else count)
        (map member (encode_members t bits (S i) (zip_with (fun a x => (a, x, g a x)) l m))) =
        commas (map member (encode_members t bits (S i) (zip_with (fun a x => (a, x, g a x)) l m)))).
      { destruct (Nat.ltb i (length (t_attrs t) - 1)) eqn:Lt.
        - unfold lead. replace (Nat.ltb 0 (count + 1)) with true; [reflexivity|]. symmetry. apply Nat.ltb_lt. lia.
        - apply Nat.ltb_ge in Lt. destruct l as [|? l]; [|cbn in L; lia]. destruct m; [|contradiction].
          unfold lead. now destruct (Nat.ltb 0 count). }
      rewrite D. destruct (Nat.ltb 0 count); inversion E1; reflexivity.
    + apply IH in E; auto. cbn in L. lia.
Qed.

Lemma members_written v t (b : object) (f : attribute -> value -> written) (g : attribute -> value -> json) r :
  fits t -> structural t ->
  all2 (fun a x => scalar_filled v a x /\ (x <> VNil -> writes (f a x) (g a x))) (t_attrs t) (o_fields b) ->
  write_members v t (o_bits b) (o_id b) (o_href b) (zip_with (fun a x => (a, x, f a x)) (t_attrs t) (o_fields b)) = WOk r ->
  r = tokens (JObj (header t b ++ encode_members t (o_bits b) 0 (zip_with (fun a x => (a, x, g a x)) (t_attrs t) (o_fields b))))%list.
Proof.
  intros F K H E. unfold write_members in E. apply wcat_ok in E. destruct E as (l1 & l2 & E1 & E & ->).
  apply wcat_ok in E. destruct E as (l3 & l4 & E3 & E4 & ->). inversion E1. inversion E4. subst l1 l4.
  rewrite tokens_object. cbn [app]. f_equal. f_equal. unfold header, is_class in *. destruct K as [K|K]; rewrite K in *; cbn [kind_eqb] in *.
  - apply wcat_ok in E3. destruct E3 as (l5 & l6 & E5 & E & ->). apply wcat_ok in E. destruct E as (l7 & l8 & E7 & E & ->).
    apply wcat_ok in E. destruct E as (l9 & l10 & E9 & E & ->).
    rewrite has_bit_0, has_bit_1, has_bit_2 in *.
    assert (L : forall c, Nat.ltb 0 c = true -> forall ms, lead c ms = commas ms) by (intros c Hc ms; unfold lead; now rewrite Hc).
    apply fields_written with (g := g) in E; auto. rewrite L in E
      by (apply Nat.ltb_lt; destruct (N.testbit _ 1), (N.testbit _ 2 && _); lia).
    cbn [app map]. rewrite separated_cons. rewrite map_app, commas_app, map_app, commas_app. subst l10.
    inversion E5. subst l5.
    destruct (N.testbit (o_bits b) 1), (N.testbit (o_bits b) 2); inversion E7; inversion E9; subst; unfold commas; cbn [app map member fst snd tokens flat_map]; rewrite ?app_nil_r, <- ?app_assoc; reflexivity.
  - apply fields_written with (g := g) in E3; auto.
Qed.

Lemma marshal_written o v t b r : fits t -> structural t ->
  all2 (fun a x => scalar_filled v a x /\ (x <> VNil -> writes (write_value o v (a_type a) (a_link a) x) (encode o v (a_type a) x))) (t_attrs t) (o_fields b) ->
  marshal_object o v t (Some b) = WOk r -> r = tokens (encode_object o v t b).
Proof.
  intros F K H E. unfold marshal_object in E. unfold encode_object.
  eapply (members_written v t b (fun a x => write_value o v (a_type a) (a_link a) x) (fun a x => encode o v (a_type a) x)); eauto.
Qed.

Lemma all2_impl {A B} (P Q : A -> B -> Prop) l m : (forall a b, In b m -> P a b -> Q a b) -> all2 P l m -> all2 Q l m.
Proof.
  revert l. induction m as [|b m IH]; intros l H A2; [exact A2|]. destruct l as [|a l]; [contradiction|].
  destruct A2 as [A1 A2]. split; [apply H; [now left|exact A1]|]. apply IH; auto. intros. apply H; auto. now right.
Qed.

Definition compiled (v : version) : Prop := forall k t, mget k (v_types v) = Some t -> structural t -> fits t.

Lemma item_writes o v t e x : standard v -> plain v t -> t_element t = Some e -> typed v e false x ->
  (x = VNil \/ writes (write_value o v e false x) (encode o v e x)) -> writes (write_value o v e false x) (encode o v e x).
Proof.
  intros S (e' & te & E & G & K) E' T [->|W]; [|exact W]. rewrite E in E'. injection E' as ->. cbn in T. rewrite G in T.
  assert (K' : structural te).
  { unfold structural. destruct (t_kind te); try contradiction; auto; cbn in K; intuition discriminate. }
  rewrite (write_nil _ _ S _ _ _ G K'). discriminate.
Qed.

Lemma items_write o v t e l : standard v -> plain v t -> t_element t = Some e ->
  Forall (fun x => forall k link, typed v k link x -> x = VNil \/ writes (write_value o v k link x) (encode o v k x)) l ->
  all1 (typed v e false) l -> Forall2 writes (map (write_value o v e false) l) (map (encode o v e) l).
Proof.
  intros S P E F. induction F as [|x l H F IH]; intros A; cbn; constructor; destruct A as [A1 A2]; auto.
  apply (item_writes _ _ t); auto.
Qed.

Lemma find_keys l : NoDup (map fst l) -> map (fun k => (k, find_json k l)) (map fst l) = l.
Proof.
  intros N. rewrite map_map. rewrite <- (map_id l) at 2. apply map_ext_in. intros [k j] I. cbn. f_equal.
  unfold find_json. apply mget_in_iff in I; auto. now rewrite I.
Qed.

(** What is written for a value is its encoding. *)
Lemma value_written o v : standard v -> compiled v -> (forall m, Permutation m (order o m)) ->
  forall x k link, typed v k link x -> x <> VNil -> writes (write_value o v k link x) (encode o v k x).
Proof.
  intros S C P. 
  assert (G : forall x k link, typed v k link x -> x = VNil \/ writes (write_value o v k link x) (encode o v k x)).
  2:{ intros x k link T N. now destruct (G x k link T). }
  induction x as [s| |b IH|l IH|h b s _ IH|l IH] using value_ind2; intros k link T; [right|now left|right..]; cbn in T;
    destruct (mget k (v_types v)) as [t|] eqn:Gk; try contradiction.
  - assert (T' : scalar_typed k t s).
    { destruct (t_kind t); try contradiction; auto; try (now destruct T as [_ T]; destruct (t_element t)). }
    rewrite (write_scalar_eq _ _ S _ _ _ _ Gk T'). cbn. rewrite Gk.
    unfold writes. destruct s; cbn [write_scalar encode_scalar tokens]; intros l E; try (injection E as <-; reflexivity); [now apply float_written|now apply any_written].
  - assert (K : structural t).
    { unfold structural. destruct (t_kind t); try contradiction; auto; now destruct T as [_ T]; destruct (t_element t). }
    assert (T' : all2 (fun a y => typed v (a_type a) (a_link a) y) (t_attrs t) (o_fields b)).
    { destruct (t_kind t); try contradiction; try (now destruct T as [_ T]; destruct (t_element t)); now destruct T as (_ & _ & _ & T). }
    rewrite (write_struct_eq _ _ S _ _ _ _ Gk K). intros r E. apply marshal_written in E; eauto.
    + rewrite E. cbn. rewrite Gk. reflexivity.
    + eapply all2_impl; [|exact T']. cbn. intros a x I Tx. split; [now apply typed_filled|]. intros N.
      rewrite Forall_forall in IH. now destruct (IH x I (a_type a) (a_link a) Tx).
  - destruct (t_kind t) eqn:K; try contradiction; destruct T as [Pl T]; destruct (t_element t) as [e|] eqn:E; try contradiction.
    destruct T as [-> T]. rewrite (write_slice_eq _ _ S _ _ _ _ Gk K E). intros r W.
    apply (array_written _ (map (encode o v e) l)) in W.
    + rewrite W. cbn. rewrite Gk, (elem_eq _ _ E). reflexivity.
    + now apply (items_write o v t).
  - destruct (t_kind t) eqn:K; try contradiction; destruct T as [Pl T]; destruct (t_element t) as [e|] eqn:E; try contradiction.
    destruct T as [-> T]. rewrite (write_list_eq _ _ S _ _ _ _ _ _ Gk K E); [|destruct s; try contradiction; eauto].
    intros r W. apply wcat_ok in W. destruct W as (l1 & l2 & W1 & W & ->). apply wcat_ok in W.
    destruct W as (l3 & l4 & W3 & W4 & ->). inversion W1. inversion W4.
    apply (array_written _ (map (encode o v e) (elements s))) in W3.
    + rewrite W3. cbn. rewrite Gk, (elem_eq _ _ E). destruct s; try contradiction; reflexivity.
    + destruct s; try contradiction; [constructor|]. apply (items_write o v t); auto.
  - destruct (t_kind t) eqn:K; try contradiction; destruct T as [Pl T]; destruct (t_element t) as [e|] eqn:E; try contradiction.
    destruct T as [Inc T]. rewrite (write_map_eq _ _ S _ _ _ _ _ Gk K E). intros r W. rewrite sorted_keys in W by auto.
    assert (Fs : map fst (map (fun '(k, y) => (k, encode o v e y)) l) = map fst l).
    { rewrite map_map. apply map_ext. now intros []. }
    apply (entries_object _ (map (fun '(k, y) => (k, encode o v e y)) l)) in W.
    + rewrite W. cbn [encode]. rewrite Gk, (elem_eq _ _ E). do 2 f_equal. rewrite <- Fs. apply find_keys. rewrite Fs. now apply increasing_nodup.
    + rewrite Fs, map_map. apply map_ext. now intros [].
    + clear W Fs Inc. induction IH as [|[k' y] l H F IHl]; cbn; constructor; destruct T as [T1 T2]; auto.
      apply (item_writes _ _ t); auto.
Qed.
