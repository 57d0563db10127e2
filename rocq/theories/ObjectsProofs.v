(** Proofs about the bitmap, the getters, the setters and the lists of the generated objects. *)
From Coq Require Import Ascii String Bool Arith ZArith NArith Lia List.
From Verif Require Import GoStrings GoMap NamesModel NamesSpec NamesProofs ConceptsModel ConceptsSpec ReporterModel GoTimeModel ObjectsModel ObjectsSpec.
Import ListNotations.
Local Open Scope string_scope.

(** * Bits *)

Lemma land_pow2 b n : N.land b (2 ^ n) = 0%N <-> N.testbit b n = false.
Proof.
  split.
  - intros H. assert (H' : N.testbit (N.land b (2 ^ n)) n = false) by (rewrite H; apply N.bits_0).
    rewrite N.land_spec, N.pow2_bits_true, andb_true_r in H'. exact H'.
  - intros H. apply N.bits_inj. intros m. rewrite N.land_spec, N.bits_0.
    destruct (N.eq_dec m n) as [->|E].
    + now rewrite H.
    + rewrite N.pow2_bits_false by congruence. apply andb_false_r.
Qed.

Lemma to_N_pow n : Z.to_N (2 ^ Z.of_nat n) = (2 ^ N.of_nat n)%N.
Proof. rewrite Z2N.inj_pow by lia. rewrite <- nat_N_Z, N2Z.id. reflexivity. Qed.

Lemma has_bit_pow b n : has_bit b (2 ^ Z.of_nat n) = N.testbit b (N.of_nat n).
Proof.
  unfold has_bit. rewrite to_N_pow. destruct (N.testbit b (N.of_nat n)) eqn:E.
  - apply negb_true_iff, N.eqb_neq. intros H. apply land_pow2 in H. congruence.
  - apply negb_false_iff, N.eqb_eq. now apply land_pow2.
Qed.

Lemma set_bit_pow b n m : N.testbit (set_bit b (2 ^ Z.of_nat n)) (N.of_nat m) = (Nat.eqb n m || N.testbit b (N.of_nat m)).
Proof.
  unfold set_bit. rewrite to_N_pow, N.lor_spec. destruct (Nat.eqb_spec n m) as [->|E].
  - rewrite N.pow2_bits_true. apply orb_true_r.
  - rewrite N.pow2_bits_false by lia. apply orb_false_r.
Qed.

Lemma clear_bit_pow b n m : N.testbit (clear_bit b (2 ^ Z.of_nat n)) (N.of_nat m) = (negb (Nat.eqb n m) && N.testbit b (N.of_nat m)).
Proof.
  unfold clear_bit. rewrite to_N_pow, N.ldiff_spec. destruct (Nat.eqb_spec n m) as [->|E].
  - rewrite N.pow2_bits_true. apply andb_false_r.
  - rewrite N.pow2_bits_false by lia. apply andb_true_r.
Qed.

Lemma has_bit_0 b : has_bit b 1 = N.testbit b 0.
Proof. exact (has_bit_pow b 0). Qed.
Lemma has_bit_1 b : has_bit b 2 = N.testbit b 1.
Proof. exact (has_bit_pow b 1). Qed.
Lemma has_bit_2 b : has_bit b 4 = N.testbit b 2.
Proof. exact (has_bit_pow b 2). Qed.

Lemma set_bit_0 b m : N.testbit (set_bit b 1) (N.of_nat m) = (Nat.eqb 0 m || N.testbit b (N.of_nat m)).
Proof. exact (set_bit_pow b 0 m). Qed.
Lemma set_bit_1 b m : N.testbit (set_bit b 2) (N.of_nat m) = (Nat.eqb 1 m || N.testbit b (N.of_nat m)).
Proof. exact (set_bit_pow b 1 m). Qed.
Lemma set_bit_2 b m : N.testbit (set_bit b 4) (N.of_nat m) = (Nat.eqb 2 m || N.testbit b (N.of_nat m)).
Proof. exact (set_bit_pow b 2 m). Qed.
Lemma clear_bit_0 b m : N.testbit (clear_bit b 1) (N.of_nat m) = (negb (Nat.eqb 0 m) && N.testbit b (N.of_nat m)).
Proof. exact (clear_bit_pow b 0 m). Qed.

Lemma reserved_eq t : (if is_class t then 3 else 0) = reserved t.
Proof. unfold is_class, reserved. now destruct (t_kind t). Qed.

Lemma mask_pow t i : reserved t + i < 63 -> bit_mask t i = (2 ^ Z.of_nat (reserved t + i))%Z.
Proof.
  intros H. unfold bit_mask, go_shift. rewrite reserved_eq.
  destruct (Nat.ltb_spec (reserved t + i) 63); [reflexivity|lia].
Qed.

Lemma fits_mask t i : fits t -> i < length (t_attrs t) -> bit_mask t i = (2 ^ Z.of_nat (reserved t + i))%Z.
Proof. unfold fits, slots. intros. apply mask_pow. lia. Qed.

(** * Size of the bitmap *)

Lemma structural_is t : is_struct t = true <-> structural t.
Proof. unfold is_struct, structural. destruct (t_kind t); cbn; intuition congruence. Qed.

Lemma bitmap_rejected t : structural t ->
  (exists m, snd (bitmap_type t) = [err m]) <-> 64 < slots t.
Proof.
  intros H. apply structural_is in H. unfold bitmap_type. rewrite H, reserved_eq. cbn [negb].
  unfold slots. assert (reserved t <= 3) by (unfold reserved; destruct (t_kind t); lia).
  destruct (Nat.ltb_spec (64 - reserved t) (length (t_attrs t))) as [L|L].
  - split; [lia|]. intros _. eexists. reflexivity.
  - split; [|lia]. intros [m Hm]. discriminate.
Qed.

Lemma bitmap_width t : structural t -> slots t <= 64 ->
  bitmap_type t = ((if Nat.leb (slots t) 32 then "uint32" else "uint64"), []).
Proof.
  intros H L. apply structural_is in H. unfold bitmap_type, bitmap_size. rewrite H, reserved_eq. cbn [negb].
  unfold slots in *. assert (reserved t <= 3) by (unfold reserved; destruct (t_kind t); lia).
  destruct (Nat.ltb_spec (64 - reserved t) (length (t_attrs t))); [lia|].
  rewrite (Nat.add_comm (length (t_attrs t))).
  destruct (Nat.leb (reserved t + length (t_attrs t)) 32); reflexivity.
Qed.

Lemma mask_bounds t i : fits t -> i < length (t_attrs t) ->
  (0 < bit_mask t i < 2 ^ Z.of_nat (slots t))%Z.
Proof.
  intros F L. rewrite fits_mask by assumption. split.
  - apply Z.pow_pos_nonneg; lia.
  - apply Z.pow_lt_mono_r; unfold slots; lia.
Qed.

Lemma mask_inj t i j : fits t -> i < length (t_attrs t) -> j < length (t_attrs t) ->
  bit_mask t i = bit_mask t j -> i = j.
Proof.
  intros F Li Lj. rewrite !fits_mask by assumption. intros E.
  apply Z.pow_inj_r in E; lia.
Qed.

Lemma mask_disjoint t i j : fits t -> i < length (t_attrs t) -> j < length (t_attrs t) -> i <> j ->
  Z.land (bit_mask t i) (bit_mask t j) = 0%Z.
Proof.
  intros F Li Lj Hij. rewrite !fits_mask by assumption. apply Z.bits_inj'. intros n Hn.
  rewrite Z.land_spec, Z.bits_0, !Z.pow2_bits_eqb by lia.
  destruct (Z.eqb_spec (Z.of_nat (reserved t + i)) n); destruct (Z.eqb_spec (Z.of_nat (reserved t + j)) n); try reflexivity.
  exfalso. lia.
Qed.

Lemma mask_not_reserved t i m : t_kind t = ClassType -> fits t -> i < length (t_attrs t) -> In m [1; 2; 4]%Z ->
  Z.land (bit_mask t i) m = 0%Z.
Proof.
  intros C F L H. rewrite fits_mask by assumption.
  assert (exists n, n < 3 /\ m = (2 ^ Z.of_nat n)%Z) as [n [Hn ->]].
  { destruct H as [<-|[<-|[<-|[]]]]; [exists 0|exists 1|exists 2]; split; try lia; reflexivity. }
  apply Z.bits_inj'. intros k Hk. rewrite Z.land_spec, Z.bits_0, !Z.pow2_bits_eqb by lia.
  unfold reserved. rewrite C.
  destruct (Z.eqb_spec (Z.of_nat (3 + i)) k); destruct (Z.eqb_spec (Z.of_nat n) k); try reflexivity.
  exfalso. lia.
Qed.

(** * Getters *)

Lemma builtin_keys :
  name_key nBoolean = "boolean" /\ name_key nInteger = "integer" /\ name_key nLong = "long" /\
  name_key nFloat = "float" /\ name_key nString = "string" /\ name_key nDate = "date" /\
  name_key nInterface = "interface".
Proof. vm_compute. auto 10. Qed.

Lemma zero_fun v k x y : zero_of v k x -> zero_of v k y -> x = y.
Proof.
  intros H1 H2. destruct H1 as [t s G K I|t G K|t G K|t G K]; destruct H2 as [t' s' G' K' I'|t' G' K'|t' G' K'|t' G' K'];
    rewrite G in G'; injection G' as <-; try congruence; try reflexivity;
    try (rewrite K in K'; simpl in K'; intuition discriminate); try (rewrite K' in K; simpl in K; intuition discriminate).
  f_equal. simpl in I, I'.
  repeat match goal with H : _ \/ _ |- _ => destruct H as [H|H] end; try contradiction;
    injection I as <- <-; first [discriminate I' | injection I'; congruence].
Qed.

Ltac kinds t :=
  unfold is_struct, is_scalar, is_list, is_map, is_enum, is_interface, is_class, is_builtin in *;
  destruct (t_kind t) eqn:?; cbn [kind_eqb orb andb negb] in *.

Lemma zero_exists v k t : standard v -> mget k (v_types v) = Some t -> t_kind t <> UndefinedType ->
  zero_of v k (zero_value v k) /\ zero_of v k (field_zero v k).
Proof.
  intros (S1 & S2 & S3 & S4) G K.
  destruct builtin_keys as (B1 & B2 & B3 & B4 & B5 & B6 & B7).
  unfold zero_value, field_zero, type_at, is_builtin. rewrite G, B1, B2, B3, B4, B5, B6, B7.
  assert (N : forall kk, t_kind t <> ScalarType -> In kk (map fst scalar_zeros) -> String.eqb k kk = false).
  { intros kk HK HI. apply String.eqb_neq. intros ->. apply in_map_iff in HI. destruct HI as [[k' s] [E HI]].
    simpl in E. subst. destruct (S1 _ _ HI) as [t' [G' K']]. rewrite G in G'. injection G' as <-. contradiction. }
  assert (NI : t_kind t <> InterfaceType -> String.eqb k "interface" = false).
  { intros HK. apply String.eqb_neq. intros ->. destruct S2 as [t' [G' K']]. rewrite G in G'. injection G' as <-. contradiction. }
  destruct (t_kind t) eqn:E; try congruence;
    unfold is_struct, is_scalar, is_list, is_map, is_enum, is_interface; rewrite E; cbn [kind_eqb orb andb negb].
  all: try (rewrite NI by discriminate; rewrite (N "boolean"), (N "integer"), (N "long"), (N "float"), (N "string"), (N "date") by (try discriminate; simpl; auto 10)).
  - split; apply (zero_nil _ _ t); simpl; auto; rewrite E; auto.
  - split; apply (zero_enum _ _ t); auto.
  - pose proof (S4 _ _ G E) as Hk. subst k. simpl. split; apply (zero_interface _ _ t); auto.
  - split; apply (zero_nil _ _ t); simpl; auto; rewrite E; auto.
  - split; apply (zero_nil _ _ t); simpl; auto; rewrite E; auto.
  - destruct (S3 _ _ G E) as [s Hs].
    split; simpl in Hs; repeat match goal with H : _ \/ _ |- _ => destruct H as [H|H] end; try contradiction;
      injection Hs as <- <-; cbn; eapply zero_scalar; eauto; simpl; auto 10.
  - split; apply (zero_nil _ _ t); simpl; auto; rewrite E; auto.
Qed.

Lemma getter_present v t i a (o : object) x : fits t -> nth_error (t_attrs t) i = Some a -> nth_error (o_fields o) i = Some x ->
  present t i o -> object_attr v t i a (Some o) = x /\ get_attr v t i a (Some o) = (x, true).
Proof.
  intros F A X P. unfold object_attr, get_attr, field.
  rewrite fits_mask by (auto; apply nth_error_Some; congruence).
  rewrite has_bit_pow. unfold present, marked in P. rewrite P.
  erewrite nth_error_nth by eassumption. auto.
Qed.

Lemma getter_absent v t i a (o : object) z : standard v -> fits t -> nth_error (t_attrs t) i = Some a -> zero_of v (a_type a) z ->
  ~ present t i o -> object_attr v t i a (Some o) = z /\ get_attr v t i a (Some o) = (z, false).
Proof.
  intros S F A Z P. unfold object_attr, get_attr.
  rewrite fits_mask by (auto; apply nth_error_Some; congruence).
  rewrite has_bit_pow. unfold present, marked in P. destruct (N.testbit _ _); [congruence|].
  assert (exists ta, mget (a_type a) (v_types v) = Some ta /\ t_kind ta <> UndefinedType) as [ta [G K]].
  { destruct Z as [t' s' G' K' I'|t' G' K'|t' G' K'|t' G' K']; exists t'; split; auto; try congruence.
    intros E; rewrite E in K'; simpl in K'; intuition discriminate. }
  destruct (zero_exists v _ ta S G K) as [Z1 Z2].
  rewrite (zero_fun _ _ _ _ Z1 Z), (zero_fun _ _ _ _ Z2 Z). auto.
Qed.

Lemma getter_nil v t i a z : standard v -> zero_of v (a_type a) z ->
  object_attr v t i a None = z /\ get_attr v t i a None = (z, false).
Proof.
  intros S Z. unfold object_attr, get_attr.
  assert (exists ta, mget (a_type a) (v_types v) = Some ta /\ t_kind ta <> UndefinedType) as [ta [G K]].
  { destruct Z as [t' s' G' K' I'|t' G' K'|t' G' K'|t' G' K']; exists t'; split; auto; try congruence.
    intros E; rewrite E in K'; simpl in K'; intuition discriminate. }
  destruct (zero_exists v _ ta S G K) as [Z1 Z2].
  rewrite (zero_fun _ _ _ _ Z1 Z), (zero_fun _ _ _ _ Z2 Z). auto.
Qed.

Lemma id_getters (o : object) :
  (has_id o -> object_id (Some o) = o_id o /\ get_id (Some o) = (o_id o, true)) /\
  (~ has_id o -> object_id (Some o) = "" /\ get_id (Some o) = ("", false)) /\
  (has_href o -> object_href (Some o) = o_href o /\ get_href (Some o) = (o_href o, true)) /\
  (~ has_href o -> object_href (Some o) = "" /\ get_href (Some o) = ("", false)).
Proof.
  unfold has_id, has_href, marked. cbn. rewrite has_bit_1, has_bit_2.
  change (N.pos (Pos.of_succ_nat 0)) with 1%N. change (N.pos (Pos.of_succ_nat 1)) with 2%N.
  destruct (N.testbit _ 1), (N.testbit _ 2); intuition congruence.
Qed.

Lemma kind_getter t (o : object) :
  (is_link o -> object_link (Some o) = true /\ object_kind t (Some o) = GoNamesModel.object_name t ++ "Link") /\
  (~ is_link o -> object_link (Some o) = false /\ object_kind t (Some o) = GoNamesModel.object_name t).
Proof.
  unfold is_link, marked. cbn. rewrite has_bit_0. destruct (N.testbit _ 0); intuition congruence.
Qed.

(** * Empty *)

Lemma bits_zero b : (forall n, N.testbit b (N.of_nat n) = false) <-> b = 0%N.
Proof.
  split.
  - intros H. apply N.bits_inj. intros m. rewrite N.bits_0. rewrite <- (N2Nat.id m). apply H.
  - intros -> n. apply N.bits_0.
Qed.

Lemma empty_spec t (o : object) : structural t -> bounded t o ->
  object_empty t (Some o) = true <->
  ((forall i, i < length (t_attrs t) -> ~ present t i o) /\ (t_kind t = ClassType -> ~ has_id o /\ ~ has_href o)).
Proof.
  intros [C|C] B; unfold object_empty, is_class; rewrite C; cbn [kind_eqb]; rewrite N.eqb_eq, <- bits_zero.
  - unfold present, has_id, has_href, marked, reserved. rewrite C. split.
    + intros H. assert (H' : forall n, n <> 0 -> N.testbit (o_bits o) (N.of_nat n) <> true).
      { intros n Hn. specialize (H n). rewrite clear_bit_0 in H.
        destruct (Nat.eqb_spec 0 n); [lia|]. cbn in H. congruence. }
      split; [intros; apply H'; lia|]. intros _; split; apply H'; lia.
    + intros [H1 H2] n. rewrite clear_bit_0. specialize (H2 eq_refl).
      destruct n as [|[|[|n]]]; cbn [Nat.eqb negb andb]; auto; [now apply not_true_is_false|now apply not_true_is_false|].
      apply not_true_is_false. destruct (Nat.lt_ge_cases n (length (t_attrs t))).
      * now apply H1.
      * apply B. unfold slots, reserved. rewrite C. lia.
  - unfold present, marked, reserved. rewrite C. split.
    + intros H. split; [|congruence]. intros i _. rewrite H. discriminate.
    + intros [H1 _] n. apply not_true_is_false. destruct (Nat.lt_ge_cases n (length (t_attrs t))).
      * now apply H1.
      * apply B. unfold slots, reserved. rewrite C. lia.
Qed.

(** * Setters *)

Lemma set_nth_length {A} i (x : A) l : length (set_nth i x l) = length l.
Proof. revert i. induction l as [|y l IH]; intros [|i]; cbn; auto. Qed.

Lemma set_nth_same {A} i (x : A) l : i < length l -> nth_error (set_nth i x l) i = Some x.
Proof. revert i. induction l as [|y l IH]; intros [|i] H; cbn in *; auto; try lia. apply IH. lia. Qed.

Lemma set_nth_other {A} i j (x : A) l : i <> j -> nth_error (set_nth i x l) j = nth_error l j.
Proof.
  revert i j. induction l as [|y l IH]; intros [|i] [|j] H; cbn; auto; try lia.
Qed.

Lemma apply_complete v t b c : complete t b -> complete t (apply_call v t b c).
Proof.
  unfold complete. destruct c as [l|s|s|i x]; cbn; auto. intros H.
  destruct (nth_error (t_attrs t) i); auto. destruct (type_at _ v) as [ta|]; auto.
  destruct (is_list ta); [destruct (a_link a)|]; cbn; now rewrite set_nth_length.
Qed.

Lemma new_complete v t : complete t (new_builder v t).
Proof. unfold complete. cbn. apply map_length. Qed.

Lemma calls_complete v t l b : complete t b -> complete t (apply_calls v t b l).
Proof.
  unfold apply_calls. revert b. induction l as [|c l IH]; cbn; intros b H; auto. apply IH. now apply apply_complete.
Qed.

(** Which slot a call can change. *)
Definition slot_of (t : typ) (c : call) : nat :=
  match c with CallLink _ => 0 | CallID _ => 1 | CallHREF _ => 2 | CallSet i _ => reserved t + i end.

Lemma marked_other v t b c n : fits t -> n <> slot_of t c -> marked n (apply_call v t b c) <-> marked n b.
Proof.
  intros F H. unfold marked. destruct c as [l|s|s|i x]; cbn [slot_of] in H; cbn [apply_call o_bits].
  - rewrite set_bit_0. destruct (Nat.eqb_spec 0 n); [congruence|]. tauto.
  - rewrite set_bit_1. destruct (Nat.eqb_spec 1 n); [congruence|]. tauto.
  - rewrite set_bit_2. destruct (Nat.eqb_spec 2 n); [congruence|]. tauto.
  - destruct (nth_error (t_attrs t) i) eqn:E; [|tauto].
    rewrite (fits_mask t i) by (auto; apply nth_error_Some; congruence).
    destruct (type_at _ v) as [ta|]; [|tauto].
    destruct (is_list ta); [destruct (a_link a)|destruct (is_scalar ta); [|destruct x]]; cbn [o_bits];
      rewrite ?set_bit_pow, ?clear_bit_pow; destruct (Nat.eqb_spec (reserved t + i) n); try congruence; cbn; tauto.
Qed.

Lemma set_fields v t b i j x : i <> j -> nth_error (o_fields (apply_call v t b (CallSet i x))) j = nth_error (o_fields b) j.
Proof.
  intros H. cbn [apply_call]. destruct (nth_error (t_attrs t) i); auto. destruct (type_at _ v) as [ta|]; auto.
  destruct (is_list ta); [destruct (a_link a)|]; cbn [o_fields]; now rewrite set_nth_other.
Qed.

Lemma set_rest v t b i x :
  o_id (apply_call v t b (CallSet i x)) = o_id b /\ o_href (apply_call v t b (CallSet i x)) = o_href b.
Proof.
  cbn [apply_call]. destruct (nth_error (t_attrs t) i); auto. destruct (type_at _ v) as [ta|]; auto.
  destruct (is_list ta); [destruct (a_link a)|]; auto.
Qed.

Lemma set_stores v t b i a x ta : complete t b -> fits t -> nth_error (t_attrs t) i = Some a ->
  mget (a_type a) (v_types v) = Some ta ->
  exists y, stores v a x y /\ nth_error (o_fields (apply_call v t b (CallSet i x))) i = Some y.
Proof.
  intros C F A G. assert (L : i < length (o_fields b)).
  { rewrite C. apply nth_error_Some. congruence. }
  cbn [apply_call]. rewrite A. unfold type_at. rewrite G.
  unfold stores, is_list. destruct (t_kind ta) eqn:K; cbn [kind_eqb].
  5:{ destruct (a_link a) eqn:Lk.
      - cbn [o_fields]. rewrite set_nth_same by auto. exists x. split; auto. right. split; auto.
        intros (t' & _ & _ & E & _). congruence.
      - cbn [o_fields]. rewrite set_nth_same by auto. eexists. split; [|reflexivity].
        destruct x; try (right; split; [intros (t' & _ & _ & _ & E); discriminate|reflexivity]).
        left. exists ta. auto. }
  all: cbn [o_fields]; rewrite set_nth_same by auto; exists x; split; auto; right; split; auto;
    intros (t' & G' & K' & _); rewrite G in G'; injection G' as <-; congruence.
Qed.

Lemma set_present v t b i a x : fits t -> nth_error (t_attrs t) i = Some a ->
  (exists ta, mget (a_type a) (v_types v) = Some ta /\ t_kind ta <> UndefinedType) ->
  present t i (apply_call v t b (CallSet i x)) <-> ~ clears v a x.
Proof.
  intros F A (ta & G & K). cbn [apply_call]. rewrite A. unfold type_at. rewrite G.
  rewrite (fits_mask t i) by (auto; apply nth_error_Some; congruence).
  unfold present, marked, clears, is_list, is_scalar.
  destruct (t_kind ta) eqn:E; try congruence; cbn [kind_eqb orb].
  4:{ destruct (a_link a); cbn [o_bits]; rewrite set_bit_pow, Nat.eqb_refl; split; auto;
      intros _ (t' & G' & K' & _); rewrite G in G'; injection G' as <-; rewrite E in K'; simpl in K'; intuition discriminate. }
  2,3,5: cbn [o_bits]; rewrite set_bit_pow, Nat.eqb_refl; split; auto;
      intros _ (t' & G' & K' & _); rewrite G in G'; injection G' as <-; rewrite E in K'; simpl in K'; intuition discriminate.
  all: cbn [o_bits]; destruct x; rewrite ?set_bit_pow, ?clear_bit_pow, Nat.eqb_refl; cbn [negb andb orb];
    (split; [intros H; try discriminate H; intros (t' & _ & _ & H'); discriminate H'|auto]).
  all: intros H; exfalso; apply H; exists ta; rewrite E; simpl; auto 10.
Qed.

(** The last call. *)

Lemma last_call_snoc f l c r : last_call f l r ->
  last_call f (l ++ [c]) (match f c with Some x => Some x | None => r end).
Proof.
  intros H. destruct (f c) as [x|] eqn:E.
  - apply (last_some f l c x []); auto.
  - destruct H as [l H|l d x m D H].
    + apply last_none. apply Forall_app; auto.
    + rewrite <- app_assoc. cbn [app]. apply last_some; auto. apply Forall_app; auto.
Qed.

Lemma last_call_exists f l : exists r, last_call f l r.
Proof.
  induction l as [|c l [r IH]] using rev_ind.
  - exists None. apply last_none. constructor.
  - eexists. apply last_call_snoc, IH.
Qed.

Lemma last_call_fun f l : forall r1 r2, last_call f l r1 -> last_call f l r2 -> r1 = r2.
Proof.
  assert (N : forall l c m, Forall (fun c => f c = None) (l ++ c :: m) -> f c = None).
  { intros l0 c m H. apply Forall_app in H. destruct H as [_ H]. now inversion H. }
  intros r1 r2 H1 H2. destruct H1 as [l H1|l c x m C H1].
  - inversion H2 as [l' H2' E1 E2|l' c x m C H2' E1 E2]; auto. subst. apply N in H1. congruence.
  - remember (l ++ c :: m)%list as L eqn:EL. destruct H2 as [L H2|l' d y m' D H2].
    + subst. apply N in H2. congruence.
    + revert l' EL. induction l as [|e l IH]; intros [|e' l'] EL; cbn in EL; injection EL as E1 E2; subst.
      * congruence.
      * exfalso. apply Forall_app in H1. destruct H1 as [_ H1]. inversion H1. congruence.
      * exfalso. apply Forall_app in H2. destruct H2 as [_ H2]. inversion H2. congruence.
      * apply (IH l'). auto.
Qed.

Lemma calls_snoc v t b l c : apply_calls v t b (l ++ [c]) = apply_call v t (apply_calls v t b l) c.
Proof. unfold apply_calls. now rewrite fold_left_app. Qed.

Lemma calls_attr v t l i a r : fits t -> nth_error (t_attrs t) i = Some a ->
  (t_kind t = ClassType \/ Forall (fun c => exists j x, c = CallSet j x) l) ->
  (exists ta, mget (a_type a) (v_types v) = Some ta /\ t_kind ta <> UndefinedType) ->
  last_call (sets i) l r ->
  let b := apply_calls v t (new_builder v t) l in
  match r with
  | None => ~ present t i b
  | Some x => (present t i b <-> ~ clears v a x) /\ exists y, stores v a x y /\ nth_error (o_fields b) i = Some y
  end.
Proof.
  intros F A W T. revert r. induction l as [|c l IH] using rev_ind; intros r H.
  - assert (r = None) as ->. { eapply last_call_fun; eauto. apply last_none. constructor. }
    cbn. unfold present, marked. cbn. discriminate.
  - assert (W' : t_kind t = ClassType \/ Forall (fun c => exists j x, c = CallSet j x) l).
    { destruct W as [W|W]; auto. right. apply Forall_app in W. tauto. }
    specialize (IH W'). destruct (last_call_exists (sets i) l) as [r0 H0]. specialize (IH r0 H0).
    assert (r = match sets i c with Some x => Some x | None => r0 end) as ->.
    { eapply last_call_fun; eauto. now apply last_call_snoc. }
    cbn zeta. rewrite calls_snoc. set (b := apply_calls v t (new_builder v t) l) in *. cbv zeta in IH.
    assert (Cb : complete t b) by (apply calls_complete, new_complete).
    destruct (sets i c) as [x|] eqn:E.
    + destruct c as [| | |j y]; try discriminate. cbn in E. destruct (Nat.eqb_spec i j); [|discriminate].
      injection E as ->. subst j. split.
      * now apply set_present.
      * destruct T as (ta & G & _). eapply set_stores; eauto.
    + assert (NS : reserved t + i <> slot_of t c).
      { destruct c as [l0|s|s|j y]; cbn [slot_of]; cbn in E.
        1-3: destruct W as [W|W]; [unfold reserved; rewrite W; lia|].
        1-3: apply Forall_app in W; destruct W as [_ W]; inversion W as [|? ? (j & x & Hj)]; discriminate.
        destruct (Nat.eqb_spec i j); [discriminate|lia]. }
      assert (M : present t i (apply_call v t b c) <-> present t i b) by (now apply marked_other).
      destruct r0 as [x|]; [|tauto]. destruct IH as [I1 (y & I2 & I3)]. split; [tauto|].
      exists y. split; auto. rewrite <- I3. destruct c as [l0|s|s|j z]; auto.
      apply set_fields. cbn in E. destruct (Nat.eqb_spec i j); [discriminate|congruence].
Qed.

Lemma slot_class t c n : t_kind t = ClassType -> n < 3 -> slot_of t c = n ->
  (n = 0 /\ exists b, c = CallLink b) \/ (n = 1 /\ exists s, c = CallID s) \/ (n = 2 /\ exists s, c = CallHREF s).
Proof.
  intros C L H. destruct c as [b|s|s|i x]; cbn in H; subst; eauto 10.
  unfold reserved in L. rewrite C in L. lia.
Qed.

Lemma calls_id v t l r : t_kind t = ClassType -> fits t -> last_call sets_id l r ->
  let b := apply_calls v t (new_builder v t) l in
  match r with None => ~ has_id b | Some x => has_id b /\ x = VScalar (SString (o_id b)) end.
Proof.
  intros C F. revert r. induction l as [|c l IH] using rev_ind; intros r H.
  - assert (r = None) as ->. { eapply last_call_fun; eauto. apply last_none. constructor. }
    cbn. unfold has_id, marked. cbn. discriminate.
  - destruct (last_call_exists sets_id l) as [r0 H0]. specialize (IH r0 H0).
    assert (r = match sets_id c with Some x => Some x | None => r0 end) as ->.
    { eapply last_call_fun; eauto. now apply last_call_snoc. }
    cbn zeta. rewrite calls_snoc. set (b := apply_calls v t (new_builder v t) l) in *. cbv zeta in IH.
    destruct c as [l0|s|s|j y]; cbn [sets_id].
    + assert (M : has_id (apply_call v t b (CallLink l0)) <-> has_id b) by (apply marked_other; cbn; auto).
      destruct r0; tauto.
    + split; [|reflexivity]. unfold has_id, marked. cbn [apply_call o_bits].
      now rewrite set_bit_1.
    + assert (M : has_id (apply_call v t b (CallHREF s)) <-> has_id b) by (apply marked_other; cbn; auto).
      destruct r0; tauto.
    + assert (M : has_id (apply_call v t b (CallSet j y)) <-> has_id b).
      { apply marked_other; auto. cbn. unfold reserved. rewrite C. lia. }
      destruct (set_rest v t b j y) as [-> _]. destruct r0; tauto.
Qed.

Lemma calls_href v t l r : t_kind t = ClassType -> fits t -> last_call sets_href l r ->
  let b := apply_calls v t (new_builder v t) l in
  match r with None => ~ has_href b | Some x => has_href b /\ x = VScalar (SString (o_href b)) end.
Proof.
  intros C F. revert r. induction l as [|c l IH] using rev_ind; intros r H.
  - assert (r = None) as ->. { eapply last_call_fun; eauto. apply last_none. constructor. }
    cbn. unfold has_href, marked. cbn. discriminate.
  - destruct (last_call_exists sets_href l) as [r0 H0]. specialize (IH r0 H0).
    assert (r = match sets_href c with Some x => Some x | None => r0 end) as ->.
    { eapply last_call_fun; eauto. now apply last_call_snoc. }
    cbn zeta. rewrite calls_snoc. set (b := apply_calls v t (new_builder v t) l) in *. cbv zeta in IH.
    destruct c as [l0|s|s|j y]; cbn [sets_href].
    + assert (M : has_href (apply_call v t b (CallLink l0)) <-> has_href b) by (apply marked_other; cbn; auto).
      destruct r0; tauto.
    + assert (M : has_href (apply_call v t b (CallID s)) <-> has_href b) by (apply marked_other; cbn; auto).
      destruct r0; tauto.
    + split; [|reflexivity]. unfold has_href, marked. cbn [apply_call o_bits].
      now rewrite set_bit_2.
    + assert (M : has_href (apply_call v t b (CallSet j y)) <-> has_href b).
      { apply marked_other; auto. cbn. unfold reserved. rewrite C. lia. }
      destruct (set_rest v t b j y) as [_ ->]. destruct r0; tauto.
Qed.

Lemma calls_link v t l r : t_kind t = ClassType -> fits t -> last_call sets_link l r ->
  let b := apply_calls v t (new_builder v t) l in
  match r with None => ~ is_link b | Some _ => is_link b end.
Proof.
  intros C F. revert r. induction l as [|c l IH] using rev_ind; intros r H.
  - assert (r = None) as ->. { eapply last_call_fun; eauto. apply last_none. constructor. }
    cbn. unfold is_link, marked. cbn. discriminate.
  - destruct (last_call_exists sets_link l) as [r0 H0]. specialize (IH r0 H0).
    assert (r = match sets_link c with Some x => Some x | None => r0 end) as ->.
    { eapply last_call_fun; eauto. now apply last_call_snoc. }
    cbn zeta. rewrite calls_snoc. set (b := apply_calls v t (new_builder v t) l) in *. cbv zeta in IH.
    destruct (sets_link c) as [x|] eqn:E.
    + destruct c; try discriminate. unfold is_link, marked. cbn [apply_call o_bits].
      now rewrite set_bit_0.
    + assert (M : is_link (apply_call v t b c) <-> is_link b).
      { apply marked_other; auto. destruct c; try discriminate E; cbn; try lia. unfold reserved. rewrite C. lia. }
      destruct r0; tauto.
Qed.

(** * Lists *)

Lemma each_visits {S} (f : S -> value -> S * bool) s l : visits f s l (each_loop f s l).
Proof.
  revert s. induction l as [|x l IH]; intros s; cbn; [constructor|].
  destruct (f s x) as [s' go] eqn:E. destruct go; [eapply visits_next; eauto|now apply visits_stop].
Qed.

Lemma visits_fun {S A} (f : S -> A -> S * bool) s l r1 r2 : visits f s l r1 -> visits f s l r2 -> r1 = r2.
Proof.
  intros H. revert r2. induction H; intros r2 H2; inversion H2; subst; auto; try congruence.
  apply IHvisits. congruence.
Qed.

Lemma range_visits {S} (f : S -> nat -> value -> S * bool) s i l :
  visits (fun s p => f s (fst p) (snd p)) s (combine (seq i (length l)) l) (range_loop f s i l).
Proof.
  revert s i. induction l as [|x l IH]; intros s i; cbn; [constructor|].
  destruct (f s i x) as [s' go] eqn:E. destruct go; [|now apply visits_stop].
  eapply visits_next; [exact E|]. rewrite Nat.add_1_r. apply IH.
Qed.

Lemma get_spec i l :
  list_get i (Some l) =
    (if Z.leb 0 i then match nth_error (slice_items (l_items l)) (Z.to_nat i) with Some x => x | None => VNil end else VNil).
Proof.
  cbn. destruct (Z.ltb_spec i 0), (Z.leb_spec 0 i); try lia; cbn; auto.
  destruct (Z.leb_spec (Z.of_nat (length (slice_items (l_items l)))) i) as [L|L].
  - assert (N : nth_error (slice_items (l_items l)) (Z.to_nat i) = None) by (apply nth_error_None; lia).
    now rewrite N.
  - destruct (nth_error _ _) eqn:E.
    + now apply nth_error_nth.
    + apply nth_error_None in E. lia.
Qed.

(** * Sorted keys *)

Lemma increasing_head s l t : increasing (s :: l) -> In t l -> str_lt s t.
Proof.
  revert s. induction l as [|u l IH]; intros s H I; [contradiction|]. inversion H; subst. destruct I as [->|I]; auto.
  apply (str_lt_trans _ u); auto.
Qed.

Lemma increasing_tail s l : increasing (s :: l) -> increasing l.
Proof. inversion 1; subst; [constructor|auto]. Qed.

Lemma increasing_nodup l : increasing l -> NoDup l.
Proof.
  induction l as [|s l IH]; intros H; constructor.
  - intros I. apply (str_lt_irrefl s). now apply (increasing_head s l).
  - apply IH. now apply increasing_tail in H.
Qed.
