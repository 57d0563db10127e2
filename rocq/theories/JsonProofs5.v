(** Proofs about reading JSON: termination, and the round trip. *)
From Coq Require Import Ascii String Bool Arith ZArith NArith Lia Permutation List.
From Verif Require Import GoStrings GoMap GoMapProofs NamesModel NamesSpec NamesProofs ConceptsModel ConceptsSpec BindingModel GoNamesModel
  GoTimeModel GoTimeSpec GoTimeProofs ReporterModel ObjectsModel ObjectsSpec ObjectsProofs ObjectsProofs2 ObjectsProofs3 JsonModel JsonSpec
  JsonProofs JsonProofs2 JsonProofs3 JsonProofs4.
Import ListNotations.
Local Open Scope string_scope.

(** * Termination *)

(** The fuel isn't exhausted, and some tokens are consumed. *)
Definition advances {A} (r : result A) (l : list token) : Prop :=
  match r with Ok _ rest => length rest < length l | Failed => True | OutOfFuel => False end.

Lemma advances_failed {A} l : advances (@Failed A) l.
Proof. exact I. Qed.
Local Hint Resolve advances_failed : core.

Lemma advances_bind {A B} (r : result A) (f : A -> list token -> result B) l :
  advances r l -> (forall a rest, length rest < length l -> advances (f a rest) l) -> advances (rbind r f) l.
Proof. destruct r; cbn; auto. Qed.

Lemma advances_less {A} (r : result A) l m : advances r l -> length l <= length m -> advances r m.
Proof. destruct r; cbn; auto. lia. Qed.

Lemma key_advances l : advances (read_key l) l.
Proof. destruct l as [|[] [|[] [|[] l]]]; cbn; auto; lia. Qed.

Lemma more_advances l : advances (read_more l) l.
Proof. destruct l as [|[] [|[] l]]; cbn; auto; lia. Qed.

Lemma string_advances l : advances (read_string l) l.
Proof. destruct l as [|[] l]; cbn; auto; lia. Qed.

Lemma bool_advances l : advances (read_bool l) l.
Proof. destruct l as [|[] l]; cbn; auto; lia. Qed.

Lemma int_advances l : advances (read_int l) l.
Proof. destruct l as [|[] l]; cbn; auto. destruct (parse_int s); cbn; auto; lia. Qed.

Lemma float_advances o l : advances (read_float o l) l.
Proof. destruct l as [|[] l]; cbn; auto. destruct (parse_float o s); cbn; auto; lia. Qed.

Lemma parse_advances n :
  (forall l, 2 * length l + 1 <= n -> advances (parse_json n l) l) /\
  (forall acc l, 2 * length l + 2 <= n -> advances (parse_items n acc l) l) /\
  (forall acc k l, 2 * length l + 2 <= n -> advances (parse_members n acc k l) l).
Proof.
  induction n as [|n (I1 & I2 & I3)]; [repeat split; intros; lia|]. split; [|split].
  - intros l L.
    destruct l as [|[] l]; cbn in L |- *; auto; try lia.
    + destruct l as [|[] l]; auto; try (cbn; lia). destruct l as [|[] l]; auto.
      eapply advances_less; [apply I3|]; cbn in *; lia.
    + destruct l as [|x l]; [eapply advances_less; [apply I2|]; cbn in *; lia|].
      destruct x; try (eapply advances_less; [apply I2|]; cbn in *; lia). cbn. lia.
  - intros acc l L. cbn [parse_items]. apply advances_bind; [apply I1; lia|]. intros j [|[] r] H; cbn in *; auto; [lia|].
    eapply advances_less; [apply I2|]; lia.
  - intros acc k l L. cbn [parse_members]. apply advances_bind; [apply I1; lia|]. intros j [|[] r] H; cbn in *; auto; [lia|].
    destruct r as [|[] [|[] r]]; auto; (eapply advances_less; [apply I3|]; cbn in H; lia).
Qed.

Section Termination.
  Context (o : oracle) (v : version).

  Lemma read_advances n :
    (forall k link l, 2 * length l + 2 <= n -> advances (read_value o v n k link l) l) /\
    (forall t b l, 2 * length l + 1 <= n -> advances (read_object o v n t b l) l) /\
    (forall t h b s l, 2 * length l + 1 <= n -> advances (read_list o v n t h b s l) l) /\
    (forall e acc l, 2 * length l + 1 <= n -> advances (read_items o v n e acc l) l) /\
    (forall e acc l, 2 * length l + 1 <= n -> advances (read_entries o v n e acc l) l).
  Proof.
    induction n as [|n (I1 & I2 & I3 & I4 & I5)]; [repeat split; intros; lia|]. split; [|split; [|split; [|split]]].
    - intros k link l L. rewrite read_value_eq.
      assert (D : forall A (r : result A) (f : A -> value), advances r l -> advances (rbind r (fun x r => Ok (f x) r)) l).
      { intros A r f H. apply advances_bind; auto. }
      destruct (is_builtin nBoolean k); [apply D, bool_advances|]. destruct (is_builtin nInteger k); [apply D, int_advances|].
      destruct (is_builtin nLong k); [apply D, int_advances|]. destruct (is_builtin nFloat k); [apply D, float_advances|].
      destruct (is_builtin nString k); [apply D, string_advances|]. destruct (type_at k v) as [t|]; [|exact I].
      destruct (is_interface t).
      { apply advances_bind; [apply (proj1 (parse_advances n)); lia|]. intros j r H. destruct (any_of o j); cbn; auto. }
      destruct (is_builtin nDate k).
      { apply advances_bind; [apply string_advances|]. intros j r H. destruct (parse_rfc3339 j); cbn; auto. }
      destruct (is_enum t); [apply D, string_advances|]. destruct (is_struct t); [apply D, I2; lia|].
      destruct (is_list t); [destruct link; [apply (D _ _ (fun x => x)), I3; lia|apply D, I4; lia]|].
      destruct (is_map t); [apply D, I5; lia|exact I].
    - intros t b l L. rewrite read_object_eq. apply advances_bind; [apply key_advances|]. intros f r H.
      assert (N : forall b r', length r' < length l -> advances (read_object o v n t b r') l).
      { intros b' r' H'. eapply advances_less; [apply I2; lia|lia]. }
      assert (D : forall A (x : result A) g, advances x r -> advances (rbind x (fun x r => read_object o v n t (g x) r)) l).
      { intros A x g H'. destruct x; cbn in *; auto. apply N. lia. }
      destruct (String.eqb f ""); [exact H|].
      destruct (is_class t && String.eqb f "kind"); [apply (D _ _ (fun s => MkObject (if String.eqb s (object_name t ++ "Link") then set_bit (o_bits b) 1 else o_bits b) (o_id b) (o_href b) (o_fields b))), string_advances|].
      destruct (is_class t && String.eqb f "id"); [apply (D _ _ (fun s => MkObject (set_bit (o_bits b) 2) s (o_href b) (o_fields b))), string_advances|].
      destruct (is_class t && String.eqb f "href"); [apply (D _ _ (fun s => MkObject (set_bit (o_bits b) 4) (o_id b) s (o_fields b))), string_advances|].
      destruct (find_tag f 0 (t_attrs t)) as [[i a]|].
      + apply (D _ _ (fun x => MkObject (set_bit (o_bits b) (bit_mask t i)) (o_id b) (o_href b) (set_nth i x (o_fields b)))), I1. lia.
      + apply (D _ _ (fun _ => b)), (proj1 (parse_advances n)). lia.
    - intros t h b s l L. rewrite read_list_eq. apply advances_bind; [apply key_advances|]. intros f r H.
      assert (N : forall h b s r', length r' < length l -> advances (read_list o v n t h b s r') l).
      { intros h' b' s' r' H'. eapply advances_less; [apply I3; lia|lia]. }
      destruct (String.eqb f ""); [exact H|].
      destruct (String.eqb f "kind"); [pose proof (string_advances r); destruct (read_string r); cbn in *; auto; apply N; lia|].
      destruct (String.eqb f "href"); [pose proof (string_advances r); destruct (read_string r); cbn in *; auto; apply N; lia|].
      destruct (String.eqb f "items").
      + pose proof (I4 (elem_key t) [] r ltac:(lia)). destruct (read_items o v n (elem_key t) [] r); cbn in *; auto; apply N; lia.
      + pose proof (proj1 (parse_advances n) r ltac:(lia)). destruct (parse_json n r); cbn in *; auto; apply N; lia.
    - intros e acc l L. rewrite read_items_eq. apply advances_bind; [apply more_advances|]. intros [] r H; [|exact H].
      pose proof (I1 e false r ltac:(lia)). destruct (read_value o v n e false r); cbn in *; auto.
      eapply advances_less; [apply I4; lia|lia].
    - intros e acc l L. rewrite read_entries_eq. apply advances_bind; [apply key_advances|]. intros f r H.
      destruct (String.eqb f ""); [exact H|].
      pose proof (I1 e false r ltac:(lia)). destruct (read_value o v n e false r); cbn in *; auto.
      eapply advances_less; [apply I5; lia|lia].
  Qed.

  Lemma object_fuel t l : unmarshal_object o v t l <> OutOfFuel.
  Proof.
    unfold unmarshal_object, fuel. assert (H := proj1 (proj2 (read_advances (2 + 2 * length l))) t (new_builder v t) l ltac:(lia)).
    intros E. rewrite E in H. exact H.
  Qed.

  Lemma list_fuel e l : unmarshal_list o v e l <> OutOfFuel.
  Proof.
    unfold unmarshal_list, fuel. assert (H := proj1 (proj2 (proj2 (proj2 (read_advances (2 + 2 * length l))))) e [] l ltac:(lia)).
    intros E. rewrite E in H. exact H.
  Qed.

  Lemma object_decoded t ms rest : all1 (legible_member v t) ms ->
    unmarshal_object o v t (tokens (JObj ms) ++ rest) =
    of_option (fold_left (object_step (decode o v) t) ms (Some (new_builder v t))) rest.
  Proof.
    intros C. unfold unmarshal_object. apply object_start; auto.
    - apply Forall_forall. intros p _. apply value_read.
    - unfold fuel. rewrite app_length. lia.
  Qed.

  Lemma list_decoded e l rest : all1 (legible v e false) l ->
    unmarshal_list o v e (tokens (JArr l) ++ rest) = of_option (sequence (map (decode o v e false) l)) rest.
  Proof.
    intros C. unfold unmarshal_list. apply items_start; auto.
    - apply Forall_forall. intros p _. apply value_read.
    - unfold fuel. rewrite app_length. lia.
  Qed.
End Termination.

(** * Values of any type *)

Lemma assign_new {A} (l : list (string * A)) m : NoDup (map fst m ++ map fst l) ->
  fold_left (fun m p => mset (fst p) (snd p) m) l m = (m ++ l)%list.
Proof.
  revert m. induction l as [|[k x] l IH]; intros m N; cbn; [now rewrite app_nil_r|].
  rewrite mset_not_in.
  - rewrite IH; [now rewrite <- app_assoc|]. rewrite map_app. cbn in *. now rewrite <- app_assoc.
  - cbn in N. apply NoDup_remove_2 in N. intros H. apply N, in_app_iff. now left.
Qed.

Lemma assign_all_nodup {A} (l : list (string * A)) : NoDup (map fst l) -> assign_all l = l.
Proof. intros N. apply (assign_new l []). exact N. Qed.

Lemma canonical_perm {A} (l m : list (string * A)) : increasing (map fst l) -> Permutation l m -> canonical m = l.
Proof. apply sort_increasing. Qed.

Lemma sequence_map {A B} (f : A -> option B) l m : Forall2 (fun a b => f a = Some b) l m -> sequence (map f l) = Some m.
Proof. induction 1; cbn; auto. now rewrite H, IHForall2. Qed.

Lemma find_json_in l k x : NoDup (map fst l) -> In (k, x) l -> find_json k l = x.
Proof.
  intros N H. apply mget_in_iff in H; auto. unfold find_json. now rewrite H.
Qed.

Lemma any_back o a : faithful o -> sorted_any a -> finite_any o a -> any_of o (encode_any o a) = Some a.
Proof.
  intros [Fl Pm]. induction a using any_ind2; intros S F; cbn [encode_any any_of finite_any] in *; auto.
  - unfold encode_float. destruct (format_float o z) as [s|] eqn:E; [|congruence]. cbn. apply Fl in E. destruct E as [_ ->]. reflexivity.
  - rewrite (sequence_map _ _ l); [reflexivity|].
    cbn in S. induction H; cbn in *; constructor; auto; [apply H|apply IHForall]; tauto.
  - cbn in S. destruct S as [Inc S]. pose proof (increasing_nodup _ Inc) as ND.
    set (m := map (fun '(k, x) => (k, encode_any o x)) l).
    assert (Km : map fst m = map fst l) by (unfold m; rewrite map_map; apply map_ext; now intros []).
    assert (G : exists l', Permutation l l' /\ Forall2 (fun p q => (fun '(k, x) => option_map (pair k) (any_of o x)) p = Some q)
              (map (fun k => (k, find_json k m)) (order o (map fst l))) l').
    { assert (P := Pm (map fst l)). apply (Permutation_map (fun k => (k, find_json k m))) in P.
      rewrite <- Km in P at 1. rewrite find_keys in P by (now rewrite Km).
      assert (G0 : Forall2 (fun p q => (fun '(k, x) => option_map (pair k) (any_of o x)) p = Some q) m l).
      { unfold m. clear Km P ND Inc m. induction H as [|[k x] l H Hl IH]; cbn in *; constructor.
        - destruct S, F. cbn in *. rewrite H by auto. reflexivity.
        - apply IH; tauto. }
      destruct (Permutation_Forall2 P G0) as (l' & P' & G1). eauto. }
    destruct G as (l' & P & G). rewrite (sequence_map _ _ _ G). cbn. f_equal. f_equal.
    apply canonical_perm; auto. rewrite assign_all_nodup; auto.
    apply (Permutation_NoDup (Permutation_map fst P) ND).
Qed.

(** * Scalars *)

Lemma decode_scalar o v k link t s : standard v -> faithful o -> mget k (v_types v) = Some t -> scalar_typed k t s ->
  finite o s -> lossless_scalar s -> decode o v k link (encode_scalar o s) = Some (VScalar s).
Proof.
  intros S Fa G T F L. unfold scalar_typed in T.
  assert (D : decode o v k link (encode_scalar o s) =
    if is_builtin nBoolean k then match encode_scalar o s with JBool b => Some (VScalar (SBool b)) | _ => None end
    else if is_builtin nInteger k then option_map (fun z => VScalar (SInt z)) (decode_int (encode_scalar o s))
    else if is_builtin nLong k then option_map (fun z => VScalar (SInt z)) (decode_int (encode_scalar o s))
    else if is_builtin nFloat k then
      match encode_scalar o s with JNum s => option_map (fun z => VScalar (SFloat z)) (parse_float o s) | _ => None end
    else if is_builtin nString k then option_map (fun s => VScalar (SString s)) (decode_string (encode_scalar o s))
    else if is_interface t then option_map (fun a => VScalar (SAny a)) (any_of o (encode_scalar o s))
    else if is_builtin nDate k then
      match decode_string (encode_scalar o s) with Some s => option_map (fun d => VScalar (SDate d)) (parse_rfc3339 s) | None => None end
    else if is_enum t then option_map (fun s => VScalar (SString s)) (decode_string (encode_scalar o s))
    else decode o v k link (encode_scalar o s)).
  { assert (U : type_at k v = Some t) by exact G. destruct (encode_scalar o s) eqn:E; cbn [decode]; rewrite U;
      repeat match goal with |- (if ?b then _ else _) = _ => destruct b; [reflexivity|] end; reflexivity. }
  destruct (t_kind t) eqn:K; try contradiction.
  - destruct (not_builtin _ _ _ S G ltac:(congruence)) as (E1 & E2 & E3 & E4 & E5 & E6).
    rewrite D, E1, E2, E3, E4, E5, E6. unfold is_interface, is_enum. rewrite K. cbn [kind_eqb].
    destruct s; try contradiction. reflexivity.
  - destruct (not_builtin _ _ _ S G ltac:(congruence)) as (E1 & E2 & E3 & E4 & E5 & E6).
    rewrite D, E1, E2, E3, E4, E5, E6. unfold is_interface, is_enum. rewrite K. cbn [kind_eqb].
    destruct s; try contradiction. cbn [encode_scalar]. now rewrite any_back.
  - destruct builtin_keys as (B1 & B2 & B3 & B4 & B5 & B6 & _). rewrite D. clear D. unfold is_builtin. rewrite B1, B2, B3, B4, B5, B6.
    destruct s; try contradiction; subst; cbn [encode_scalar String.eqb Ascii.eqb Bool.eqb decode_int decode_string option_map]; try reflexivity.
    + destruct T as [[->| ->] T]; cbn [String.eqb Ascii.eqb Bool.eqb]; rewrite parse_itoa by auto; reflexivity.
    + cbn [finite] in F. unfold encode_float. destruct (format_float o bits) as [s|] eqn:E; [|congruence].
      apply (proj1 Fa) in E. destruct E as [_ ->]. reflexivity.
    + unfold is_interface. rewrite K. cbn [kind_eqb]. rewrite parse_format by exact L. reflexivity.
Qed.
