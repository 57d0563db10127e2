(** Proofs about reading documents: members, maps and scalars. *)
From Coq Require Import Ascii String Bool Arith ZArith NArith Lia Permutation Sorting List.
From Verif Require Import ConformSpec.
From Verif Require Import GoStrings GoMap GoMapProofs NamesModel NamesSpec NamesProofs ConceptsModel ConceptsSpec BindingModel GoNamesModel
  GoTimeModel ReporterModel ObjectsModel ObjectsSpec ObjectsProofs ObjectsProofs2 ObjectsProofs3 JsonModel JsonSpec
  JsonProofs JsonProofs2 JsonProofs3 JsonProofs4 JsonProofs5 ReadingSpec ReadingProofs.
Import ListNotations.
Local Open Scope string_scope.

(** * Last members *)

Lemma last_in f ms j : last_member f ms j -> In (f, j) ms.
Proof. intros [l j' m N]. apply in_app_iff. right. now left. Qed.

Lemma last_exists f ms : In f (map fst ms) -> exists j, last_member f ms j.
Proof.
  induction ms as [|[g j] ms IH]; [intros []|]. intros H. destruct (in_dec string_dec f (map fst ms)) as [I|N].
  - destruct (IH I) as (j' & [l j'' m N]). exists j''. exact (last_here f ((g, j) :: l) j'' m N).
  - destruct H as [<-|H]; [|tauto]. exists j. exact (last_here (fst (g, j)) [] j ms N).
Qed.

Lemma last_cons f p ms j : last_member f (p :: ms) j <-> last_member f ms j \/ (absent f ms /\ p = (f, j)).
Proof.
  split.
  - intros H. remember (p :: ms) as ms' eqn:E. destruct H as [l j m N]. destruct l as [|q l]; injection E as <- <-; [right; auto|left; now constructor].
  - intros [[l j' m N]|[N ->]]; [exact (last_here f (p :: l) j' m N)|exact (last_here f [] j ms N)].
Qed.

Lemma last_unique f ms j j' : last_member f ms j -> last_member f ms j' -> j = j'.
Proof.
  induction ms as [|p ms IH]; [intros H; apply last_in in H; destruct H|]. rewrite !last_cons. intros [H|[N H]] [H'|[N' H']]; auto.
  - exfalso. apply N'. apply last_in in H. now apply (in_map fst) in H.
  - exfalso. apply N. apply last_in in H'. now apply (in_map fst) in H'.
  - congruence.
Qed.

Lemma last_known f ms j : last_member f ms j -> ~ absent f ms.
Proof. intros H N. apply N. apply last_in in H. now apply (in_map fst) in H. Qed.

Lemma absent_or f ms : absent f ms \/ exists j, last_member f ms j.
Proof. destruct (in_dec string_dec f (map fst ms)) as [I|N]; [right; now apply last_exists|now left]. Qed.

(** * Maps *)

Section Maps.
  Context {A : Type} (d : json -> option A).

  Definition put (acc : option (list (string * A))) (p : string * json) : option (list (string * A)) :=
    match acc with
    | None => None
    | Some m => match d (snd p) with Some x => Some (mset (fst p) x m) | None => None end
    end.

  Lemma put_none ms : fold_left put ms None = None.
  Proof. induction ms; auto. Qed.

  Lemma put_some ms : (forall f j, In (f, j) ms -> d j <> None) -> forall m, exists m', fold_left put ms (Some m) = Some m'.
  Proof.
    induction ms as [|[f j] ms IH]; intros H m; cbn [fold_left]; [eauto|]. unfold put at 2. cbn [fst snd]. destruct (d j) as [x|] eqn:E.
    - apply IH. intros g j' I. apply (H g j'). now right.
    - exfalso. apply (H f j); [now left|exact E].
  Qed.

  Lemma put_spec ms : forall m m', fold_left put ms (Some m) = Some m' -> NoDup (mkeys m) ->
    NoDup (mkeys m') /\ (forall f j, In (f, j) ms -> d j <> None) /\ (forall f, absent f ms -> mget f m' = mget f m) /\ (forall f j, last_member f ms j -> mget f m' = d j) /\
    (forall f, In f (mkeys m') <-> In f (map fst ms) \/ In f (mkeys m)).
  Proof.
    induction ms as [|[f j] ms IH]; intros m m' E N; cbn [fold_left] in E.
    - injection E as <-. split; [assumption|]. split; [intros f j []|]. split; [auto|]. split; [intros f j H; apply last_in in H; destruct H|]. cbn. tauto.
    - unfold put at 2 in E. cbn [fst snd] in E. destruct (d j) as [x|] eqn:Dj; [|now rewrite put_none in E].
      destruct (IH _ _ E (nodup_mset _ _ _ N)) as (N' & Dd & Ab & La & Ke). split; [assumption|]. split; [|split; [|split]].
      + intros g j' [H|H]; [injection H as <- <-; congruence|eauto].
      + intros g H. cbn in H. rewrite Ab by (intros I; apply H; now right). apply mget_mset_other. intros ->. apply H. now left.
      + intros g j' H. apply last_cons in H as [H|[H Q]]; [now apply La|]. injection Q as <- <-. rewrite Ab by assumption. now rewrite mget_mset_same.
      + intros g. rewrite Ke, mkeys_mset. cbn. intuition congruence.
  Qed.

  Lemma sorted_keys_increasing (m : list (string * A)) : NoDup (mkeys m) -> increasing (map fst (canonical m)).
  Proof.
    intros N. unfold canonical.
    assert (S : StronglySorted (lt (fun a b : string * A => Z.ltb (str_compare (fst a) (fst b)) 0)) (sort (fun a b : string * A => Z.ltb (str_compare (fst a) (fst b)) 0) m)).
    { apply sort_sorted; [intros a b c; rewrite !str_less; apply str_lt_trans|]. unfold mkeys in N. unfold GoMapProofs.separated. induction m as [|a m IH]; constructor.
      - apply Forall_forall. intros b H. cbn in N. inversion N as [|? ? Na Nm]; subst. destruct (str_trichotomy (fst a) (fst b)) as [L|[L|L]]; [left|exfalso|right].
        + now apply str_less.
        + apply Na. rewrite L. now apply in_map.
        + now apply str_less.
      - inversion N; subst. apply IH; assumption. }
    revert S. generalize (sort (fun a b : string * A => Z.ltb (str_compare (fst a) (fst b)) 0) m). clear. intros l S.
    induction S as [|a l S IH F]; cbn; [constructor|]. destruct l as [|b l]; cbn in *; [constructor|]. constructor; [|assumption].
    inversion F; subst. now apply str_less.
  Qed.

  Context (R : json -> A -> Prop).

  Lemma map_read ms (l : list (string * A)) : (forall f j x, In (f, j) ms -> (d j = Some x <-> R j x)) ->
    (option_map canonical (fold_left put ms (Some [])) = Some l <->
     increasing (map fst l) /\ (forall f x, In (f, x) l -> exists j, last_member f ms j /\ R j x) /\ (forall f j, In (f, j) ms -> In f (map fst l) /\ exists x, R j x)).
  Proof.
    intros HR. split.
    - destruct (fold_left put ms (Some [])) as [m|] eqn:E; [|discriminate]. intros Q. injection Q as <-.
      destruct (put_spec _ _ _ E (NoDup_nil _)) as (N & Dd & Ab & La & Ke). split; [now apply sorted_keys_increasing|]. split.
      + intros f x H. apply sort_in in H. pose proof (in_map fst _ _ H) as K. apply Ke in K. destruct K as [K|[]].
        destruct (last_exists _ _ K) as [j Hj]. exists j. split; [assumption|]. apply (HR f j x (last_in _ _ _ Hj)). rewrite <- (La _ _ Hj). now apply mget_in_iff.
      + intros f j H. split.
        * assert (K : In f (mkeys m)) by (apply Ke; left; exact (in_map fst _ _ H)). unfold mkeys in K. apply in_map_iff in K as (p & <- & K). apply in_map. now apply sort_in.
        * destruct (d j) as [x|] eqn:Dj; [|now contradiction (Dd f j)]. exists x. now apply (HR f j).
    - intros (In' & Hl & Hm). destruct (put_some ms) with (m := @nil (string * A)) as [m E].
      { intros f j H. destruct (Hm f j H) as (_ & x & Hx). apply (HR f j x H) in Hx. congruence. }
      rewrite E. cbn [option_map]. apply f_equal. destruct (put_spec _ _ _ E (NoDup_nil _)) as (N & Dd & Ab & La & Ke).
      apply canonical_perm; [assumption|]. apply NoDup_Permutation.
      + apply (NoDup_map_inv fst). now apply increasing_nodup.
      + apply (NoDup_map_inv fst). exact N.
      + intros [f x]. split.
        * intros H. destruct (Hl f x H) as (j & Hj & Hx). apply mget_in. rewrite (La _ _ Hj). now apply (HR f j x (last_in _ _ _ Hj)).
        * intros H. pose proof (in_map fst _ _ H) as K. apply Ke in K. destruct K as [K|[]]. destruct (last_exists _ _ K) as [j Hj].
          destruct (Hm _ _ (last_in _ _ _ Hj)) as (Kl & _). cbn [fst] in *. apply in_map_iff in Kl as ([f' x'] & Ef & Hl'). cbn in Ef. subst f'.
          destruct (Hl _ _ Hl') as (j' & Hj' & Rx). pose proof (last_unique _ _ _ _ Hj Hj') as <-. apply (HR f j x' (last_in _ _ _ Hj)) in Rx.
          apply mget_in_iff in H; [|assumption]. rewrite (La _ _ Hj) in H. congruence.
  Qed.

  Lemma put_sequence ms : forall m, option_map (fun l => fold_left (fun m p => mset (fst p) (snd p) m) l m) (sequence (map (fun '(k, x) => option_map (pair k) (d x)) ms)) = fold_left put ms (Some m).
  Proof.
    induction ms as [|[f j] ms IH]; intros m; [reflexivity|]. cbn [map sequence fold_left]. unfold put at 2. cbn [fst snd]. destruct (d j) as [x|]; cbn [option_map]; [|now rewrite put_none].
    rewrite <- IH. now destruct (sequence _).
  Qed.

  Lemma items_read l (m : list A) : (forall j x, In j l -> (d j = Some x <-> R j x)) -> (sequence (map d l) = Some m <-> Forall2 R l m).
  Proof.
    revert m. induction l as [|j l IH]; intros m HR; cbn [map sequence].
    - split; [intros E; injection E as <-; constructor|]. intros H. inversion H. reflexivity.
    - split.
      + destruct (d j) as [x|] eqn:E; [|discriminate]. destruct (sequence (map d l)) as [m'|] eqn:E'; [|discriminate]. intros Q. injection Q as <-.
        constructor; [apply HR; auto; now left|]. apply IH; auto. intros j' x' H. apply HR. now right.
      + intros H. inversion H as [|? x ? m' Hx Hm]; subst. apply HR in Hx; [|now left]. rewrite Hx. apply IH in Hm; [now rewrite Hm|]. intros j' x' H'. apply HR. now right.
  Qed.
End Maps.

(** * Values of type [interface{}] *)

Lemma any_read o : forall j a, any_of o j = Some a <-> any_in o j a.
Proof.
  induction j as [|b|s|s|l IH|ms IH] using json_ind2; intros a; cbn [any_of].
  - split; [intros E; injection E as <-; constructor|now inversion 1].
  - split; [intros E; injection E as <-; constructor|now inversion 1].
  - split; [|inversion 1; subst; rewrite H1; reflexivity]. destruct (parse_float o s) as [z|] eqn:E; [|discriminate]. intros Q. injection Q as <-. now constructor.
  - split; [intros E; injection E as <-; constructor|now inversion 1].
  - rewrite Forall_forall in IH. pose proof (fun m => items_read (any_of o) (any_in o) l m (fun j x H => IH j H x)) as Q. split.
    + destruct (sequence (map (any_of o) l)) as [m|] eqn:E; [|discriminate]. intros Q'. injection Q' as <-. constructor. now apply Q.
    + inversion 1; subst. assert (E : sequence (map (any_of o) l) = Some m) by (now apply Q). rewrite E. reflexivity.
  - rewrite Forall_forall in IH. pose proof (fun m => map_read (any_of o) (any_in o) ms m (fun f j x H => IH (f, j) H x)) as Q.
    assert (E : option_map (fun m => AMap (canonical (assign_all m))) (sequence (map (fun '(k, x) => option_map (pair k) (any_of o x)) ms)) =
      option_map AMap (option_map canonical (fold_left (put (any_of o)) ms (Some [])))).
    { rewrite <- put_sequence. unfold assign_all. now destruct (sequence _). }
    rewrite E. split.
    + destruct (option_map canonical (fold_left (put (any_of o)) ms (Some []))) as [m|] eqn:E'; [|discriminate]. intros Q'. injection Q' as <-.
      destruct (proj1 (Q m) eq_refl) as (H1 & H2 & H3). now constructor.
    + inversion 1; subst. assert (E' : option_map canonical (fold_left (put (any_of o)) ms (Some [])) = Some m) by (apply Q; auto). rewrite E'. reflexivity.
Qed.

(** * Scalars *)

Lemma text_read j s : decode_string j = Some s <-> text_in j s.
Proof. split; [destruct j; try discriminate; intros E; injection E as <-; constructor|]. now intros []. Qed.

Section Scalars.
  Context (o : oracle) (v : version) (S : standard v).

  Definition decode_scalar_of (k : key) (t : typ) (j : json) : option value :=
    match t_kind t with
    | ScalarType =>
        if String.eqb k "boolean" then match j with JBool b => Some (VScalar (SBool b)) | _ => None end
        else if String.eqb k "integer" then option_map (fun z => VScalar (SInt z)) (decode_int j)
        else if String.eqb k "long" then option_map (fun z => VScalar (SInt z)) (decode_int j)
        else if String.eqb k "float" then match j with JNum s => option_map (fun z => VScalar (SFloat z)) (parse_float o s) | _ => None end
        else if String.eqb k "string" then option_map (fun s => VScalar (SString s)) (decode_string j)
        else if String.eqb k "date" then match decode_string j with Some s => option_map (fun d => VScalar (SDate d)) (parse_rfc3339 s) | None => None end
        else None
    | EnumType => option_map (fun s => VScalar (SString s)) (decode_string j)
    | InterfaceType => option_map (fun a => VScalar (SAny a)) (any_of o j)
    | _ => None
    end.

  Definition simple (t : typ) : Prop := In (t_kind t) [ScalarType; EnumType; InterfaceType].

  Lemma decode_simple k link t j : mget k (v_types v) = Some t -> simple t -> decode o v k link j = decode_scalar_of k t j.
  Proof.
    intros G K. unfold decode_scalar_of. destruct builtin_keys as (B1 & B2 & B3 & B4 & B5 & B6 & _).
    assert (U : type_at k v = Some t) by exact G.
    destruct (t_kind t) eqn:Kt; try (exfalso; unfold simple in K; rewrite Kt in K; cbn in K; intuition discriminate).
    - destruct (not_builtin _ _ _ S G ltac:(congruence)) as (E1 & E2 & E3 & E4 & E5 & E6).
      destruct j; cbn [decode]; rewrite E1, E2, E3, E4, E5, U, E6; unfold is_interface, is_enum; rewrite Kt; reflexivity.
    - destruct (not_builtin _ _ _ S G ltac:(congruence)) as (E1 & E2 & E3 & E4 & E5 & E6).
      destruct j; cbn [decode]; rewrite E1, E2, E3, E4, E5, U; unfold is_interface; rewrite Kt; reflexivity.
    - destruct S as (_ & _ & S3 & _). destruct (S3 _ _ G Kt) as [s Hs].
      assert (Q : forall j, decode o v k link j = if is_builtin nBoolean k then match j with JBool b => Some (VScalar (SBool b)) | _ => None end
        else if is_builtin nInteger k then option_map (fun z => VScalar (SInt z)) (decode_int j)
        else if is_builtin nLong k then option_map (fun z => VScalar (SInt z)) (decode_int j)
        else if is_builtin nFloat k then match j with JNum s => option_map (fun z => VScalar (SFloat z)) (parse_float o s) | _ => None end
        else if is_builtin nString k then option_map (fun s => VScalar (SString s)) (decode_string j)
        else if is_builtin nDate k then match decode_string j with Some s => option_map (fun d => VScalar (SDate d)) (parse_rfc3339 s) | None => None end
        else decode o v k link j).
      { intros j'. destruct j'; cbn [decode]; rewrite U; unfold is_interface; rewrite Kt; cbn [kind_eqb];
          repeat match goal with |- (if ?b then _ else _) = _ => destruct b; [reflexivity|] end; reflexivity. }
      rewrite Q. unfold is_builtin. rewrite B1, B2, B3, B4, B5, B6. cbn in Hs.
      repeat match goal with H : _ \/ _ |- _ => destruct H as [H|H] end; try contradiction; injection Hs as <- _; reflexivity.
  Qed.

  Lemma decode_unknown k link j : mget k (v_types v) = None -> decode o v k link j = None.
  Proof.
    intros G. destruct S as (S1 & _). destruct builtin_keys as (B1 & B2 & B3 & B4 & B5 & B6 & _).
    assert (N : forall s, In s (map fst scalar_zeros) -> String.eqb k s = false).
    { intros s H. apply String.eqb_neq. intros ->. apply in_map_iff in H as ([k' z] & E & H). cbn in E. subst k'. destruct (S1 _ _ H) as (t & Q & _). congruence. }
    destruct j; cbn [decode]; unfold is_builtin; rewrite B1, B2, B3, B4, B5, !N by (cbn; tauto); unfold type_at; rewrite G; reflexivity.
  Qed.

  Lemma scalar_read k t j x : simple t -> well_formed j -> (decode_scalar_of k t j = Some x <-> exists s, x = VScalar s /\ scalar_in o k t j s).
  Proof.
    intros K W. unfold decode_scalar_of. unfold simple in K. destruct (t_kind t) eqn:Kt; try (exfalso; cbn in K; intuition discriminate).
    - split.
      + destruct (decode_string j) as [s|] eqn:E; [|discriminate]. intros Q. injection Q as <-. exists (SString s). split; [reflexivity|]. apply in_enum; [assumption|now apply text_read].
      + intros (s & -> & H). inversion H; subst; try congruence. apply text_read in H1. rewrite H1. reflexivity.
    - split.
      + destruct (any_of o j) as [a|] eqn:E; [|discriminate]. intros Q. injection Q as <-. exists (SAny a). split; [reflexivity|]. apply in_interface; [assumption|now apply any_read].
      + intros (s & -> & H). inversion H; subst; try congruence. apply any_read in H1. rewrite H1. reflexivity.
    - assert (I : option_map (fun z => VScalar (SInt z)) (decode_int j) = Some x <-> exists s z, j = JNum s /\ x = VScalar (SInt z) /\ integer_text s z /\ (- 2 ^ 63 <= z < 2 ^ 63)%Z).
      { split.
        - destruct (decode_int j) as [z|] eqn:E; [|discriminate]. intros Q. injection Q as <-. destruct j as [| |s| | |]; try discriminate E. exists s, z. repeat (split; [reflexivity|]).
          now apply integer_read.
        - intros (s & z & -> & -> & H). cbn [decode_int]. assert (E : parse_int s = Some z) by (now apply integer_read). rewrite E. reflexivity. }
      destruct (String.eqb_spec k "boolean") as [->|N1].
      { split; [destruct j; try discriminate; intros Q; injection Q as <-; eexists; split; [reflexivity|now constructor]|].
        intros (s & -> & H). inversion H; subst; try congruence; try (intuition discriminate). }
      destruct (String.eqb_spec k "integer") as [->|N2].
      { rewrite I. split; [intros (s & z & -> & -> & H1 & H2); eexists; split; [reflexivity|now constructor; auto]|].
        intros (s & -> & H). inversion H; subst; try congruence; try (intuition discriminate). do 2 eexists. eauto. }
      destruct (String.eqb_spec k "long") as [->|N3].
      { rewrite I. split; [intros (s & z & -> & -> & H1 & H2); eexists; split; [reflexivity|now constructor; auto]|].
        intros (s & -> & H). inversion H; subst; try congruence; try (intuition discriminate). do 2 eexists. eauto. }
      destruct (String.eqb_spec k "float") as [->|N4].
      { split.
        - destruct j as [| |s| | |]; try discriminate. destruct (parse_float o s) as [z|] eqn:E; [|discriminate]. intros Q. injection Q as <-. eexists. split; [reflexivity|now constructor].
        - intros (s & -> & H). inversion H; subst; try congruence; try (intuition discriminate). match goal with P : parse_float _ _ = Some _ |- _ => rewrite P end. reflexivity. }
      destruct (String.eqb_spec k "string") as [->|N5].
      { split.
        - destruct (decode_string j) as [s|] eqn:E; [|discriminate]. intros Q. injection Q as <-. eexists. split; [reflexivity|]. apply in_string; auto. now apply text_read.
        - intros (s & -> & H). inversion H; subst; try congruence; try (intuition discriminate). match goal with P : text_in _ _ |- _ => apply text_read in P; rewrite P end. reflexivity. }
      destruct (String.eqb_spec k "date") as [->|N6].
      { split.
        - destruct (decode_string j) as [s|] eqn:E; [|discriminate]. destruct (parse_rfc3339 s) as [d|] eqn:E'; [|discriminate]. intros Q. injection Q as <-. eexists. split; [reflexivity|].
          apply in_date with (s := s); auto; [now apply text_read|now apply date_read].
        - intros (s & -> & H). inversion H; subst; try congruence; try (intuition discriminate). match goal with P : text_in _ _ |- _ => apply text_read in P; rewrite P end.
          match goal with P : date_in _ _ |- _ => apply date_read in P; rewrite P end. reflexivity. }
      split; [discriminate|]. intros (s & -> & H). inversion H; subst; try congruence; intuition congruence.
  Qed.
End Scalars.
