(** Proofs about reading JSON: the round trip of objects. *)
From Coq Require Import Ascii String Bool Arith ZArith NArith Lia Permutation List.
From Verif Require Import GoStrings GoMap GoMapProofs NamesModel NamesSpec NamesProofs ConceptsModel ConceptsSpec BindingModel GoNamesModel
  GoTimeModel GoTimeSpec GoTimeProofs ReporterModel ObjectsModel ObjectsSpec ObjectsProofs ObjectsProofs2 ObjectsProofs3 JsonModel JsonSpec
  JsonProofs JsonProofs2 JsonProofs3 JsonProofs4 JsonProofs5.
Import ListNotations.
Local Open Scope string_scope.

Lemma find_tag_spec f l n :
  match find_tag f n l with
  | Some (i, a) => exists j, i = n + j /\ nth_error l j = Some a /\ attribute_name a = f
  | None => ~ In f (map attribute_name l)
  end.
Proof.
  revert n. induction l as [|a l IH]; intros n; cbn; [auto|]. destruct (String.eqb f (attribute_name a)) eqn:E.
  - apply String.eqb_eq in E. exists 0. rewrite Nat.add_0_r. auto.
  - apply String.eqb_neq in E. specialize (IH (n + 1)). destruct (find_tag f (n + 1) l) as [[i b]|].
    + destruct IH as (j & -> & E1 & E2). exists (S j). split; [lia|auto].
    + intros [H|H]; [congruence|auto].
Qed.

Lemma find_tag_nth l n i a : NoDup (map attribute_name l) -> nth_error l i = Some a ->
  find_tag (attribute_name a) n l = Some (n + i, a).
Proof.
  revert n i. induction l as [|b l IH]; intros n i N E; [destruct i; discriminate|]. cbn in N. inversion N; subst. destruct i as [|i]; cbn in *.
  - injection E as ->. rewrite String.eqb_refl, Nat.add_0_r. reflexivity.
  - destruct (String.eqb (attribute_name a) (attribute_name b)) eqn:Q.
    + apply String.eqb_eq in Q. exfalso. apply H1. rewrite <- Q. apply in_map. now apply nth_error_In in E.
    + rewrite (IH (n + 1) i) by auto. do 2 f_equal. lia.
Qed.

Lemma class_kind t : is_class t = true <-> t_kind t = ClassType.
Proof. unfold is_class. destruct (t_kind t); cbn; split; congruence. Qed.

Section Back.
  Context (dec : key -> bool -> json -> option value) (t : typ) (F : fits t) (Tg : tagged t).

  (** What a member with the name of an attribute does. *)
  Lemma attribute_step (b : object) i a j : nth_error (t_attrs t) i = Some a ->
    object_step dec t (Some b) (attribute_name a, j) =
    match dec (a_type a) (a_link a) j with
    | Some x => Some (MkObject (set_bit (o_bits b) (2 ^ Z.of_nat (reserved t + i))) (o_id b) (o_href b) (set_nth i x (o_fields b)))
    | None => None
    end.
  Proof.
    intros E. destruct Tg as (N & _ & C). unfold object_step. cbn [fst snd].
    assert (H : forall s, In s ["kind"; "id"; "href"] -> is_class t && String.eqb (attribute_name a) s = false).
    { intros s H. destruct (is_class t) eqn:K; auto. apply class_kind in K. cbn. apply String.eqb_neq. intros <-.
      apply (C K a); auto. now apply nth_error_In in E. }
    rewrite !H by (cbn; auto). rewrite (find_tag_nth _ _ _ _ N E). cbn [plus].
    rewrite fits_mask; auto. apply nth_error_Some. congruence.
  Qed.

  Lemma members_decoded (bits : N) (Q : attribute -> value -> value -> Prop) (enc : attribute -> value -> json) :
    forall l fs i (b : object), (forall j a, nth_error l j = Some a -> nth_error (t_attrs t) (i + j) = Some a) ->
    length fs = length l -> complete t b -> i + length l = length (t_attrs t) ->
    (forall j a x, nth_error l j = Some a -> nth_error fs j = Some x -> N.testbit bits (N.of_nat (reserved t + (i + j))) = true ->
       x <> VNil /\ exists y, dec (a_type a) (a_link a) (enc a x) = Some y /\ Q a x y) ->
    exists r : object, fold_left (object_step dec t) (encode_members t bits i (zip_with (fun a x => (a, x, enc a x)) l fs)) (Some b) = Some r /\
      o_id r = o_id b /\ o_href r = o_href b /\ complete t r /\
      (forall n, N.testbit (o_bits r) (N.of_nat n) =
         N.testbit (o_bits b) (N.of_nat n) || (Nat.leb (reserved t + i) n && Nat.ltb n (slots t) && N.testbit bits (N.of_nat n))) /\
      (forall j, j < i -> nth_error (o_fields r) j = nth_error (o_fields b) j) /\
      (forall j a x, nth_error l j = Some a -> nth_error fs j = Some x -> N.testbit bits (N.of_nat (reserved t + (i + j))) = true ->
         exists y, nth_error (o_fields r) (i + j) = Some y /\ Q a x y).
  Proof.
    induction l as [|a l IH]; intros fs i b A L Cb Le D.
    - destruct fs; [|discriminate]. cbn [length] in Le. exists b. repeat split; auto.
      + intros n. unfold slots. destruct (Nat.leb_spec (reserved t + i) n), (Nat.ltb_spec n (reserved t + length (t_attrs t))); try lia; cbn; now rewrite orb_false_r.
      + intros [|j]; discriminate.
    - destruct fs as [|x fs]; [discriminate|]. cbn in L. injection L as L. cbn [length] in Le.
      assert (Ai : nth_error (t_attrs t) i = Some a) by (rewrite <- (Nat.add_0_r i); now apply A).
      assert (A' : forall j a0, nth_error l j = Some a0 -> nth_error (t_attrs t) (S i + j) = Some a0).
      { intros j a0 E. replace (S i + j) with (i + S j) by lia. now apply A. }
      assert (D' : forall j a0 x0, nth_error l j = Some a0 -> nth_error fs j = Some x0 -> N.testbit bits (N.of_nat (reserved t + (S i + j))) = true ->
        x0 <> VNil /\ exists y, dec (a_type a0) (a_link a0) (enc a0 x0) = Some y /\ Q a0 x0 y).
      { intros j a0 x0 E1 E2 E3. apply (D (S j)); auto. replace (i + S j) with (S i + j) by lia. exact E3. }
      change (zip_with (fun a x => (a, x, enc a x)) (a :: l) (x :: fs)) with ((a, x, enc a x) :: zip_with (fun a x => (a, x, enc a x)) l fs).
      cbn [encode_members].
      destruct (N.testbit bits (N.of_nat (reserved t + i))) eqn:B.
      + assert (B' := B). rewrite <- (Nat.add_0_r i) in B'. destruct (D 0 a x eq_refl eq_refl B') as (Nn & y & Dy & Qy).
        assert (NN : not_nil x = true) by (destruct x; auto; congruence). rewrite NN. cbn [andb fold_left].
        rewrite (attribute_step _ _ _ _ Ai), Dy.
        set (b' := MkObject _ _ _ _). destruct (IH fs (S i) b') as (r & R1 & R2 & R3 & R4 & R5 & R6 & R7); auto.
        * unfold complete, b'. cbn. now rewrite set_nth_length.
        * lia.
        * exists r. split; [exact R1|]. split; [exact R2|]. split; [exact R3|]. split; [exact R4|]. split; [|split].
          -- intros n. rewrite R5. unfold b'. cbn [o_bits]. rewrite set_bit_pow.
             destruct (Nat.eqb_spec (reserved t + i) n) as [E|E].
             ++ subst n. rewrite B. unfold slots. rewrite Nat.leb_refl. destruct (Nat.ltb_spec (reserved t + i) (reserved t + length (t_attrs t))); [|lia].
                cbn. now rewrite orb_true_r.
             ++ destruct (Nat.leb_spec (reserved t + S i) n), (Nat.leb_spec (reserved t + i) n); try lia; reflexivity.
          -- intros j Hj. rewrite R6 by lia. unfold b'. cbn. apply set_nth_other. lia.
          -- intros [|j] a0 x0 E1 E2 E3; cbn in E1, E2.
             ++ injection E1 as <-. injection E2 as <-. exists y. split; auto. rewrite Nat.add_0_r, R6 by lia. unfold b'. cbn.
                apply set_nth_same. rewrite Cb. apply nth_error_Some. congruence.
             ++ replace (i + S j) with (S i + j) in E3 |- * by lia. eauto.
      + cbn [andb fold_left]. destruct (IH fs (S i) b) as (r & R1 & R2 & R3 & R4 & R5 & R6 & R7); auto; [lia|].
        exists r. split; [exact R1|]. split; [exact R2|]. split; [exact R3|]. split; [exact R4|]. split; [|split].
        * intros n. rewrite R5. destruct (Nat.eq_dec (reserved t + i) n) as [E|E].
          -- subst n. rewrite B. now rewrite !andb_false_r.
          -- destruct (Nat.leb_spec (reserved t + S i) n), (Nat.leb_spec (reserved t + i) n); try lia; reflexivity.
        * intros j Hj. apply R6. lia.
        * intros [|j] a0 x0 E1 E2 E3; cbn in E1, E2.
          -- rewrite Nat.add_0_r in E3. congruence.
          -- replace (i + S j) with (S i + j) in E3 |- * by lia. eauto.
  Qed.

  Lemma append_other s : String.eqb s (s ++ "Link") = false.
  Proof. induction s; cbn; auto. now rewrite Ascii.eqb_refl. Qed.

  (** What the header does to a new object. *)
  Lemma header_decoded (b n : object) : structural t -> o_bits n = 0%N -> o_id n = "" -> o_href n = "" ->
    exists r : object, fold_left (object_step dec t) (header t b) (Some n) = Some r /\ o_fields r = o_fields n /\
      (has_id b -> t_kind t = ClassType -> o_id r = o_id b) /\ (has_href b -> t_kind t = ClassType -> o_href r = o_href b) /\
      (t_kind t = StructType -> o_id r = "" /\ o_href r = "") /\
      (forall m, N.testbit (o_bits r) (N.of_nat m) = (Nat.ltb m (reserved t) && N.testbit (o_bits b) (N.of_nat m))).
  Proof.
    intros K Nb Ni Nh. unfold header, has_id, has_href, marked, reserved. destruct K as [K|K]; rewrite K.
    - assert (Cl : is_class t = true) by (now apply class_kind).
      change (N.of_nat 1) with 1%N. change (N.of_nat 2) with 2%N.
      cbn [fold_left app]. unfold object_step at 2. rewrite Cl. cbn [fst snd andb String.eqb Ascii.eqb Bool.eqb decode_string].
      assert (Z : forall x (e : bool), object_step dec t (Some x) ("id", JStr (o_id b)) = Some (MkObject (set_bit (o_bits x) 2) (o_id b) (o_href x) (o_fields x))).
      { intros x e. unfold object_step. rewrite Cl. reflexivity. }
      assert (Y : forall x (e : bool), object_step dec t (Some x) ("href", JStr (o_href b)) = Some (MkObject (set_bit (o_bits x) 4) (o_id x) (o_href b) (o_fields x))).
      { intros x e. unfold object_step. rewrite Cl. reflexivity. }
      assert (X : (if N.testbit (o_bits b) 0 then object_name t ++ "Link" else object_name t) =? (object_name t ++ "Link") = N.testbit (o_bits b) 0).
      { destruct (N.testbit (o_bits b) 0); [apply String.eqb_refl|apply append_other]. }
      rewrite X. rewrite fold_left_app. rewrite Nb, Ni, Nh.
      assert (M : forall m, m < 3 \/ 3 <= m) by lia.
      destruct (N.testbit (o_bits b) 1) eqn:B1; cbn [fold_left]; try rewrite (Z _ true); destruct (N.testbit (o_bits b) 2) eqn:B2; cbn [fold_left];
        try rewrite (Y _ true); eexists; (split; [reflexivity|]); cbn [o_fields o_id o_href o_bits]; (split; [reflexivity|]);
        (split; [intros; congruence|]); (split; [intros; congruence|]); (split; [intros; congruence|]);
        intros m; try rewrite set_bit_2; try rewrite set_bit_1;
        (assert (B0 : N.testbit (if N.testbit (o_bits b) 0 then set_bit 0 1 else 0%N) (N.of_nat m) = Nat.eqb 0 m && N.testbit (o_bits b) 0);
         [destruct (N.testbit (o_bits b) 0); [rewrite set_bit_0|]; rewrite N.bits_0; destruct (Nat.eqb 0 m); reflexivity|]); rewrite B0;
        destruct m as [|[|[|m]]]; cbn [Nat.eqb Nat.ltb Nat.leb orb andb]; try (change (N.of_nat 0) with 0%N); try (change (N.of_nat 1) with 1%N); try (change (N.of_nat 2) with 2%N);
        try rewrite B1; try rewrite B2; auto; try (now rewrite !orb_false_r); try reflexivity.
    - exists n. cbn. split; [reflexivity|]. split; [reflexivity|]. split; [intros; congruence|]. split; [intros; congruence|]. split; [auto|].
      intros m. now rewrite Nb, N.bits_0.
  Qed.
End Back.

Lemma all_fields_intro (P : nat -> attribute -> value -> value -> Prop) : forall m l n j,
  length m = length l -> length n = length l ->
  (forall i a x y, nth_error l i = Some a -> nth_error m i = Some x -> nth_error n i = Some y -> P (j + i) a x y) ->
  all_fields P j l m n.
Proof.
  induction m as [|x m IH]; intros l n j L1 L2 H; destruct l as [|a l], n as [|y n]; try discriminate; cbn; auto.
  split.
  - rewrite <- (Nat.add_0_r j). now apply H.
  - apply IH; cbn in *; try congruence. intros i a' x' y' E1 E2 E3. replace (S (j + i)) with (j + S i) by lia. now apply H.
Qed.

(** * The round trip *)

Section RoundTrip.
  Context (o : oracle) (v : version) (S : standard v) (C : compiles v) (Fa : faithful o).

  (** Reading what was written. *)
  Definition back (x : value) : Prop := forall k link, typed v k link x -> x <> VNil -> printable o v k x -> lossless v k x ->
    exists y, decode o v k link (encode o v k x) = Some y /\ same v k link x y.

  Lemma object_back t (b : object) : structural t -> fits t -> tagged t -> object_typed v t b ->
    object_printable o v t b -> object_lossless v t b -> Forall back (o_fields b) ->
    exists r : object, fold_left (object_step (decode o v) t)
      (header t b ++ encode_members t (o_bits b) 0 (zip_with (fun a y => (a, y, encode o v (a_type a) y)) (t_attrs t) (o_fields b)))
      (Some (new_builder v t)) = Some r /\ same_object v t b r.
  Proof.
    intros K F Tg (Cm & Bd & Ci & T) Pr Ls IH. rewrite fold_left_app.
    destruct (header_decoded (decode o v) t b (new_builder v t) K eq_refl eq_refl eq_refl) as (r1 & -> & Rf & Ri & Rh & Rs & Rb).
    apply all2_nth in T. destruct T as [TL T]. apply all_fields_self in Pr. apply all_fields_self in Ls.
    destruct Pr as [_ Pr], Ls as [_ Ls]. rewrite Forall_forall in IH.
    destruct (members_decoded (decode o v) t F Tg (o_bits b) (fun a x y => same v (a_type a) (a_link a) x y)
      (fun a y => encode o v (a_type a) y) (t_attrs t) (o_fields b) 0 r1) as (r & -> & I1 & I2 & I3 & I4 & I5 & I6); auto.
    - unfold complete. rewrite Rf. apply new_complete.
    - intros j a x E1 E2 E3. destruct (Ls j a x E1 E2 E3) as [N Lx]. split; auto.
      apply (IH x (nth_error_In _ _ E2) (a_type a) (a_link a)); eauto.
    - exists r. split; [reflexivity|].
      assert (BB : forall m, N.testbit (o_bits r) (N.of_nat m) = N.testbit (o_bits b) (N.of_nat m)).
      { intros m. rewrite I4, Rb. rewrite Nat.add_0_r. destruct (Nat.ltb_spec m (reserved t)), (Nat.leb_spec (reserved t) m); try lia; cbn [andb orb].
        - now rewrite orb_false_r.
        - destruct (Nat.ltb_spec m (slots t)); cbn; auto. specialize (Bd m H1). unfold marked in Bd. now destruct (N.testbit (o_bits b) (N.of_nat m)). }
      unfold same_object. split; [|split; [|split]].
      + apply N.bits_inj. intros m. rewrite <- (N2Nat.id m). apply BB.
      + intros H. rewrite I1. destruct K as [K|K]; [auto|].
        destruct (Rs K) as [-> _], (Ci K) as [-> _]. reflexivity.
      + intros H. rewrite I2. destruct K as [K|K]; [auto|].
        destruct (Rs K) as [_ ->], (Ci K) as [_ ->]. reflexivity.
      + apply all_fields_intro; auto. intros i a x y E1 E2 E3 P. destruct (I6 i a x E1 E2 P) as (y' & E & Q). cbn in E. congruence.
  Qed.

  Lemma items_back e l : Forall back l -> all1 (typed v e false) l -> all1 (fun y => y <> VNil /\ printable o v e y) l ->
    all1 (lossless v e) l ->
    exists m, sequence (map (decode o v e false) (map (encode o v e) l)) = Some m /\ all2 (fun y x => same v e false x y) m l.
  Proof.
    intros F. induction F as [|x l H F IH]; cbn; intros T P L; [exists []; auto|].
    destruct T as [T1 T2], P as [[N P1] P2], L as [L1 L2]. destruct (H e false T1 N P1 L1) as (y & -> & Q).
    destruct (IH T2 P2 L2) as (m & -> & Q'). exists (y :: m). cbn. auto.
  Qed.

  Lemma entries_back e l m0 : Forall (fun p => back (snd p)) l -> all1 (fun p => typed v e false (snd p)) l ->
    all1 (fun p => snd p <> VNil /\ printable o v e (snd p)) l -> all1 (fun p => fst p <> "" /\ lossless v e (snd p)) l ->
    NoDup (map fst m0 ++ map fst l) ->
    exists m, fold_left (entry_step (decode o v e false)) (map (fun '(k, y) => (k, encode o v e y)) l) (Some m0) = Some (m0 ++ m)%list /\
      map fst m = map fst l /\ all2 (fun y x => same v e false (snd x) y) (map snd m) l.
  Proof.
    intros F. revert m0. induction F as [|[k x] l H F IH]; cbn [all1 map fst snd fold_left]; intros m0 T P L N.
    - exists []. rewrite app_nil_r. cbn. auto.
    - destruct T as [T1 T2], P as [[Nn P1] P2], L as [[_ L1] L2]. destruct (H e false T1 Nn P1 L1) as (y & E & Q).
      unfold entry_step at 2. cbn [fst snd] in *. rewrite E.
      rewrite mset_not_in by (apply NoDup_remove_2 in N; intros X; apply N, in_app_iff; now left).
      destruct (IH (m0 ++ [(k, y)])%list) as (m & -> & M1 & M2); auto.
      + rewrite map_app. cbn. now rewrite <- app_assoc.
      + exists ((k, y) :: m). rewrite <- app_assoc. cbn. rewrite M1. auto.
  Qed.

  Ltac pick K := unfold is_enum, is_interface, is_struct, is_list, is_map; rewrite K; cbn [kind_eqb orb andb negb].

  Lemma decode_struct k link t j : mget k (v_types v) = Some t -> structural t ->
    decode o v k link j =
    match j with
    | JNull => Some (VObject (new_builder v t))
    | JObj ms => option_map VObject (fold_left (object_step (decode o v) t) ms (Some (new_builder v t)))
    | _ => None
    end.
  Proof.
    intros G K. assert (K' : t_kind t <> ScalarType) by (destruct K; congruence).
    destruct (not_builtin _ _ _ S G K') as (E1 & E2 & E3 & E4 & E5 & E6).
    destruct j; cbn [decode]; rewrite E1, E2, E3, E4, E5, E6; unfold type_at; rewrite G; destruct K as [K|K]; pick K; reflexivity.
  Qed.

  Lemma decode_slice k t e l : mget k (v_types v) = Some t -> t_kind t = ListType -> t_element t = Some e ->
    decode o v k false (JArr l) = option_map VSlice (sequence (map (decode o v e false) l)).
  Proof.
    intros G K E. destruct (not_builtin _ _ _ S G ltac:(congruence)) as (E1 & E2 & E3 & E4 & E5 & E6).
    cbn [decode]. rewrite E1, E2, E3, E4, E5, E6. unfold type_at. rewrite G. pick K. rewrite (elem_eq _ _ E). reflexivity.
  Qed.

  Lemma decode_list k t e l : mget k (v_types v) = Some t -> t_kind t = ListType -> t_element t = Some e ->
    decode o v k true (JObj [("items", JArr l)]) =
    option_map (fun m => VList "" false (VSlice m)) (sequence (map (decode o v e false) l)).
  Proof.
    intros G K E. destruct (not_builtin _ _ _ S G ltac:(congruence)) as (E1 & E2 & E3 & E4 & E5 & E6).
    cbn [decode]. rewrite E1, E2, E3, E4, E5, E6. unfold type_at. rewrite G. pick K. rewrite (elem_eq _ _ E).
    cbn [fold_left]. unfold list_step. cbn [fst snd String.eqb Ascii.eqb Bool.eqb]. now destruct (sequence _).
  Qed.

  Lemma decode_map k link t e l : mget k (v_types v) = Some t -> t_kind t = MapType -> t_element t = Some e ->
    decode o v k link (JObj l) = option_map (fun m => VMap (canonical m)) (fold_left (entry_step (decode o v e false)) l (Some [])).
  Proof.
    intros G K E. destruct (not_builtin _ _ _ S G ltac:(congruence)) as (E1 & E2 & E3 & E4 & E5 & E6).
    cbn [decode]. rewrite E1, E2, E3, E4, E5, E6. unfold type_at. rewrite G. pick K. rewrite (elem_eq _ _ E). reflexivity.
  Qed.

  Lemma value_back : forall x, back x.
  Proof.
    induction x as [s| |b IH|l IH|h b s _ IH|l IH] using value_ind2; intros k link T N Pr Ls; try (now contradiction N); cbn in T, Pr, Ls;
      cbn [encode same]; destruct (mget k (v_types v)) as [t|] eqn:Gk; try contradiction.
    - assert (T' : scalar_typed k t s).
      { destruct (t_kind t); try contradiction; auto; try (now destruct T as [_ T]; destruct (t_element t)). }
      exists (VScalar s). split; auto. now apply (decode_scalar o v k link t).
    - assert (K : structural t).
      { unfold structural. destruct (t_kind t); try contradiction; auto; now destruct T as [_ T]; destruct (t_element t). }
      assert (T' : object_typed v t b).
      { unfold object_typed. destruct (t_kind t); try contradiction; auto; now destruct T as [_ T]; destruct (t_element t). }
      destruct (C _ _ Gk K) as [F Tg]. destruct (object_back t b K F Tg T' Pr Ls IH) as (r & E & Q).
      exists (VObject r). rewrite (decode_struct _ _ _ _ Gk K), E. split; [reflexivity|]. exists r. split; auto.
    - destruct (t_kind t) eqn:K; try contradiction; destruct T as [Pl T]; destruct (t_element t) as [e|] eqn:E; try contradiction.
      destruct T as [-> T]. destruct Pr as (e' & He & Pr). injection He as <-. destruct Ls as (e' & He & Ls). injection He as <-.
      rewrite (elem_eq _ _ E), (decode_slice _ _ _ _ Gk K E).
      destruct (items_back e l IH T Pr Ls) as (m & -> & Q). exists (VSlice m). split; [reflexivity|]. eauto.
    - destruct (t_kind t) eqn:K; try contradiction; destruct T as [Pl T]; destruct (t_element t) as [e|] eqn:E; try contradiction.
      destruct T as [-> T]. destruct Pr as (e' & He & Pr). injection He as <-. destruct Ls as (-> & -> & e' & He & Ls). injection He as <-.
      rewrite (elem_eq _ _ E), (decode_list _ _ _ _ Gk K E). destruct s; try contradiction.
      + exists (VList "" false (VSlice [])). split; [reflexivity|]. eexists. split; [reflexivity|]. eauto.
      + destruct (items_back e l (IH _ eq_refl) T Pr Ls) as (m & -> & Q). eexists. split; [reflexivity|]. eexists. split; [reflexivity|]. eauto.
    - destruct (t_kind t) eqn:K; try contradiction; destruct T as [Pl T]; destruct (t_element t) as [e|] eqn:E; try contradiction.
      destruct T as [Inc T]. destruct Pr as (e' & He & Pr). injection He as <-. destruct Ls as (e' & He & Ls). injection He as <-.
      rewrite (elem_eq _ _ E), (decode_map _ _ _ _ _ Gk K E).
      destruct (entries_back e l [] IH T Pr Ls (increasing_nodup _ Inc)) as (m & -> & M1 & M2). cbn [app option_map].
      rewrite (canonical_perm m m); [|now rewrite M1|apply Permutation_refl]. eexists. split; [reflexivity|]. eauto 10.
  Qed.

  (** * Legibility of what is written *)

  Lemma members_legible t bits (enc : attribute -> value -> json) : forall l fs i,
    (forall j a x, nth_error l j = Some a -> nth_error fs j = Some x ->
       N.testbit bits (N.of_nat (reserved t + (i + j))) = true -> x <> VNil -> legible_member v t (attribute_name a, enc a x)) ->
    all1 (legible_member v t) (encode_members t bits i (zip_with (fun a x => (a, x, enc a x)) l fs)).
  Proof.
    induction l as [|a l IH]; intros fs i H; [destruct fs; exact I|]. destruct fs as [|x fs]; [exact I|].
    change (zip_with (fun a x => (a, x, enc a x)) (a :: l) (x :: fs)) with ((a, x, enc a x) :: zip_with (fun a x => (a, x, enc a x)) l fs).
    cbn [encode_members].
    assert (IH' : all1 (legible_member v t) (encode_members t bits (Datatypes.S i) (zip_with (fun a x => (a, x, enc a x)) l fs))).
    { apply IH. intros j a0 x0 E1 E2 E3. apply (H (Datatypes.S j)); auto. replace (i + Datatypes.S j) with (Datatypes.S i + j) by lia. exact E3. }
    destruct (N.testbit bits (N.of_nat (reserved t + i)) && not_nil x) eqn:B; auto. cbn [all1]. split; auto.
    apply andb_true_iff in B. destruct B as [B Nn]. apply (H 0); auto; [now rewrite Nat.add_0_r|]. intros ->. discriminate.
  Qed.

  Lemma header_legible t (b : object) : tagged t -> all1 (legible_member v t) (header t b).
  Proof.
    intros (_ & _ & R). unfold header. destruct (t_kind t) eqn:K; try exact I.
    assert (G : forall f j, In f ["kind"; "id"; "href"] -> legible_member v t (f, j)).
    { intros f j H. split; [intros E; cbn in E; subst f; cbn in H; intuition discriminate|]. cbn [fst].
      pose proof (find_tag_spec f (t_attrs t) 0) as Q. destruct (find_tag f 0 (t_attrs t)) as [[i a]|]; auto.
      destruct Q as (j' & _ & E & <-). exfalso. apply (R eq_refl a); auto. now apply nth_error_In in E. }
    cbn [all1]. split; [apply G; cbn; auto|]. apply all1_app. split.
    - destruct (N.testbit (o_bits b) 1); cbn; auto. split; auto. apply G. cbn. auto.
    - destruct (N.testbit (o_bits b) 2); cbn; auto. split; auto. apply G. cbn. auto.
  Qed.

  Definition shown_legible (x : value) : Prop :=
    forall k link, typed v k link x -> lossless v k x -> legible v k link (encode o v k x).

  Lemma object_legible t (b : object) : structural t -> fits t -> tagged t ->
    all2 (fun a y => typed v (a_type a) (a_link a) y) (t_attrs t) (o_fields b) ->
    object_lossless v t b -> Forall shown_legible (o_fields b) ->
    all1 (legible_member v t) (header t b ++ encode_members t (o_bits b) 0 (zip_with (fun a y => (a, y, encode o v (a_type a) y)) (t_attrs t) (o_fields b))).
  Proof.
    intros K F Tg T Ls IH. apply all1_app. split; [now apply header_legible|]. apply (members_legible t (o_bits b)).
    intros j a x E1 E2 E3 Nn. apply all2_nth in T. destruct T as [_ T]. apply all_fields_self in Ls. destruct Ls as [_ Ls].
    rewrite Forall_forall in IH. destruct Tg as (N1 & N2 & _). split.
    - cbn. intros E. apply N2. rewrite <- E. apply in_map. now apply nth_error_In in E1.
    - cbn [fst snd]. rewrite (find_tag_nth _ _ _ _ N1 E1). apply (IH x (nth_error_In _ _ E2)); eauto. now apply (Ls j a x).
  Qed.

  Lemma scalar_legible k link t j : mget k (v_types v) = Some t -> In (t_kind t) [ScalarType; EnumType; InterfaceType] ->
    (t_kind t <> InterfaceType -> match j with JArr _ | JObj _ => False | _ => True end) -> legible v k link j.
  Proof.
    intros G K H. assert (U : type_at k v = Some t) by exact G.
    destruct j; cbn [legible]; rewrite U; unfold is_interface; (destruct (kind_eqb (t_kind t) InterfaceType) eqn:E; [exact I|]);
      try (destruct (is_struct t); [exact I|]; destruct (is_list t); exact I); exfalso; apply H; intros Q; rewrite Q in E; discriminate.
  Qed.

  Lemma value_legible : forall x, shown_legible x.
  Proof.
    induction x as [s| |b IH|l IH|h b s _ IH|l IH] using value_ind2; intros k link T Ls; cbn in T, Ls;
      cbn [encode]; destruct (mget k (v_types v)) as [t|] eqn:Gk; try contradiction.
    - assert (T' : scalar_typed k t s).
      { destruct (t_kind t); try contradiction; auto; try (now destruct T as [_ T]; destruct (t_element t)). }
      apply (scalar_legible k link t); auto.
      + unfold scalar_typed in T'. destruct (t_kind t); try contradiction; cbn; auto.
      + intros N. unfold scalar_typed in T'. destruct s; cbn [encode_scalar]; auto.
        * unfold encode_float. now destruct (format_float o bits).
        * destruct (t_kind t); try contradiction; now contradiction N.
    - unfold legible, type_at. rewrite Gk. destruct (is_interface t); auto. destruct (is_struct t); auto. now destruct (is_list t).
    - assert (K : structural t).
      { unfold structural. destruct (t_kind t); try contradiction; auto; now destruct T as [_ T]; destruct (t_element t). }
      assert (T' : all2 (fun a y => typed v (a_type a) (a_link a) y) (t_attrs t) (o_fields b)).
      { destruct (t_kind t); try contradiction; try (now destruct T as [_ T]; destruct (t_element t)); now destruct T as (_ & _ & _ & T). }
      destruct (C _ _ Gk K) as [F Tg]. cbn [legible]. unfold type_at. rewrite Gk.
      assert (X := object_legible t b K F Tg T' Ls IH). destruct K as [K|K]; pick K; exact X.
    - destruct (t_kind t) eqn:K; try contradiction; destruct T as [Pl T]; destruct (t_element t) as [e|] eqn:E; try contradiction.
      destruct T as [-> T]. destruct Ls as (e' & He & Ls). injection He as <-. rewrite (elem_eq _ _ E).
      cbn [legible]. unfold type_at. rewrite Gk. pick K. rewrite (elem_eq _ _ E).
      induction IH as [|x l H F IHl]; cbn in *; auto. destruct T, Ls. auto.
    - destruct (t_kind t) eqn:K; try contradiction; destruct T as [Pl T]; destruct (t_element t) as [e|] eqn:E; try contradiction.
      destruct T as [-> T]. destruct Ls as (-> & -> & e' & He & Ls). injection He as <-. rewrite (elem_eq _ _ E).
      cbn [legible]. unfold type_at. rewrite Gk. pick K. rewrite (elem_eq _ _ E).
      cbn [all1 fst snd]. split; auto. split; [discriminate|]. destruct s; try contradiction; [exact I|].
      specialize (IH _ eq_refl). induction IH as [|x l H F IHl]; cbn in *; auto. destruct T, Ls. auto.
    - destruct (t_kind t) eqn:K; try contradiction; destruct T as [Pl T]; destruct (t_element t) as [e|] eqn:E; try contradiction.
      destruct T as [Inc T]. destruct Ls as (e' & He & Ls). injection He as <-. rewrite (elem_eq _ _ E).
      cbn [legible]. unfold type_at. rewrite Gk. pick K. rewrite (elem_eq _ _ E).
      clear Inc. induction IH as [|[k' x] l H F IHl]; cbn in *; auto. destruct T, Ls as [[L1 L2] L3]. auto.
  Qed.

  Lemma compiled_version : compiled v.
  Proof. intros k t' G St. now apply (C k t' G St). Qed.

  Lemma object_succeeds t (b : object) : structural t -> fits t -> object_typed v t b ->
    (succeeds (marshal_object o v t (Some b)) <-> object_printable o v t b).
  Proof.
    intros K F (_ & _ & _ & T). apply (marshal_succeeds o v t b); auto.
    eapply all2_impl; [|exact T]. cbn. intros a x I Tx. split; [now apply typed_filled|].
    split.
    - intros Nn. destruct (value_succeeds o v S compiled_version (proj2 Fa) x _ _ Tx); [congruence|auto].
    - intros ->. exact (nil_printable o _ _ _ Tx).
  Qed.

  Lemma object_written t (b : object) l : structural t -> fits t -> object_typed v t b ->
    marshal_object o v t (Some b) = WOk l -> l = tokens (encode_object o v t b).
  Proof.
    intros K F (_ & _ & _ & T) W. apply (marshal_written o v t b); auto. eapply all2_impl; [|exact T]. cbn. intros a x I Tx.
    split; [now apply typed_filled|]. intros Nn. apply value_written; auto; [apply compiled_version|exact (proj2 Fa)].
  Qed.

  (** Unmarshalling a marshalled object. *)
  Lemma object_round_trip t (b : object) l : structural t -> fits t -> tagged t -> object_typed v t b ->
    object_lossless v t b -> marshal_object o v t (Some b) = WOk l ->
    exists r, unmarshal_object o v t l = Ok r [] /\ same_object v t b r.
  Proof.
    intros K F Tg T Ls W.
    assert (Pr : object_printable o v t b) by (apply object_succeeds; auto; now exists l).
    apply object_written in W; auto.
    subst l. destruct (object_back t b K F Tg T Pr Ls) as (r & E & Q); [apply Forall_forall; intros; apply value_back|].
    exists r. split; auto. rewrite <- (app_nil_r (tokens _)). unfold encode_object. rewrite object_decoded.
    - now rewrite E.
    - apply object_legible; auto; [now destruct T as (_ & _ & _ & T)|]. apply Forall_forall. intros. apply value_legible.
  Qed.

  (** Unmarshalling a marshalled list. *)
  Lemma list_written t e l r : plain v t -> t_element t = Some e -> all1 (typed v e false) l ->
    marshal_list o v e l = WOk r -> r = tokens (JArr (map (encode o v e) l)).
  Proof.
    intros Pl E T W. apply (array_written _ (map (encode o v e) l)) in W; auto. apply (items_write o v t); auto.
    apply Forall_forall. intros x _ k link Tx. destruct x; [right|now left|right..]; apply value_written; auto; try discriminate;
      try apply compiled_version; exact (proj2 Fa).
  Qed.

  Lemma list_succeeds t e l : plain v t -> t_element t = Some e -> all1 (typed v e false) l ->
    (succeeds (marshal_list o v e l) <-> all1 (fun y => y <> VNil /\ printable o v e y) l).
  Proof.
    intros Pl E T. unfold marshal_list. rewrite !wcat_succeeds, !ok_succeeds, items_succeed.
    rewrite (items_succeed2 o v t e l S Pl E); [tauto| |auto].
    apply Forall_forall. intros x _ k link Tx. apply value_succeeds; auto; [apply compiled_version|exact (proj2 Fa)].
  Qed.

  Lemma list_round_trip t e l r : plain v t -> t_element t = Some e -> all1 (typed v e false) l ->
    all1 (fun y => y <> VNil /\ printable o v e y) l -> all1 (lossless v e) l ->
    marshal_list o v e l = WOk r ->
    exists m, unmarshal_list o v e r = Ok m [] /\ all2 (fun y x => same v e false x y) m l.
  Proof.
    intros Pl E T Pr Ls W. apply (list_written t) in W; auto. subst r.
    destruct (items_back e l) as (m & D & Q); auto; [apply Forall_forall; intros; apply value_back|].
    exists m. split; auto. rewrite <- (app_nil_r (tokens _)), list_decoded; [now rewrite D|].
    clear Q D Pr. induction l as [|x l IH]; cbn in *; auto. destruct T, Ls. split; auto. now apply value_legible.
  Qed.
End RoundTrip.
