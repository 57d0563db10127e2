(** Proofs about writing JSON. *)
From Coq Require Import Ascii String Bool Arith ZArith NArith Lia Permutation DecimalString DecimalZ Decimal List.
From Verif Require Import GoStrings GoMap GoMapProofs NamesModel NamesSpec NamesProofs ConceptsModel ConceptsSpec BindingModel GoNamesModel
  GoTimeModel GoTimeSpec ReporterModel ObjectsModel ObjectsSpec ObjectsProofs ObjectsProofs2 ObjectsProofs3 JsonModel JsonSpec.
Import ListNotations.
Local Open Scope string_scope.

(** * Streams *)

Definition succeeds (w : written) : Prop := exists l, w = WOk l.

Lemma wcat_ok a b l : wcat a b = WOk l -> exists l1 l2, a = WOk l1 /\ b = WOk l2 /\ l = (l1 ++ l2)%list.
Proof. destruct a, b; cbn; intros H; inversion H; eauto. Qed.

Lemma wcat_succeeds a b : succeeds (wcat a b) <-> succeeds a /\ succeeds b.
Proof.
  unfold succeeds. split.
  - intros [l H]. destruct (wcat_ok _ _ _ H) as (l1 & l2 & -> & -> & _). eauto.
  - intros [[l ->] [m ->]]. cbn. eauto.
Qed.

Lemma ok_succeeds l : succeeds (WOk l) <-> True.
Proof. unfold succeeds. split; eauto. Qed.

Lemma comma_succeeds (b : bool) : succeeds (if b then WOk [TComma] else WOk []) <-> True.
Proof. destruct b; apply ok_succeeds. Qed.

(** Each of the things preceded by a comma. *)
Definition commas (l : list (list token)) : list token := flat_map (cons TComma) l.

Lemma separated_cons x l : separated (x :: l) = (x ++ commas l)%list.
Proof.
  revert x. induction l as [|y l IH]; intros x; [cbn; now rewrite app_nil_r|].
  change (separated (x :: y :: l)) with (x ++ TComma :: separated (y :: l))%list. rewrite IH. cbn. reflexivity.
Qed.

Lemma commas_app l m : commas (l ++ m) = (commas l ++ commas m)%list.
Proof. unfold commas. apply flat_map_app. Qed.

Definition lead (count : nat) (l : list (list token)) : list token := if Nat.ltb 0 count then commas l else separated l.

Lemma lead_cons count x l : lead count (x :: l) = ((if Nat.ltb 0 count then [TComma] else []) ++ x ++ commas l)%list.
Proof. unfold lead. destruct (Nat.ltb 0 count); [reflexivity|]. apply separated_cons. Qed.

(** The thing written is the given value, if it is written. *)
Definition writes (w : written) (j : json) : Prop := forall l, w = WOk l -> l = tokens j.

Lemma items_written ws js i l : Forall2 writes ws js -> write_items i ws = WOk l -> l = lead i (map tokens js).
Proof.
  intros F. revert i l. induction F as [|w j ws js H F IH]; intros i l E.
  - cbn in E. inversion E. unfold lead. now destruct (Nat.ltb 0 i).
  - cbn [write_items] in E. apply wcat_ok in E. destruct E as (l1 & l2 & E1 & E2 & ->). apply wcat_ok in E2. destruct E2 as (l3 & l4 & E3 & E4 & ->).
    apply IH in E4. subst l4. cbn [map]. rewrite lead_cons. apply H in E3. subst l3.
    replace (lead (i + 1) (map tokens js)) with (commas (map tokens js)) by (unfold lead; destruct i; reflexivity).
    destruct (Nat.ltb 0 i); inversion E1; reflexivity.
Qed.

Lemma items_succeed ws i : succeeds (write_items i ws) <-> Forall succeeds ws.
Proof.
  revert i. induction ws as [|w ws IH]; intros i; cbn [write_items]; [rewrite ok_succeeds; split; auto|].
  rewrite !wcat_succeeds, comma_succeeds, IH. split; [intros (_ & ? & ?); auto|inversion 1; auto].
Qed.

Definition member (p : string * json) : list token := TStr (fst p) :: TColon :: tokens (snd p).

Lemma tokens_object m : tokens (JObj m) = (TLBrace :: separated (map member m) ++ [TRBrace])%list.
Proof.
  cbn. do 3 f_equal. apply map_ext. now intros [k j].
Qed.

Definition find_json (k : string) (l : list (string * json)) : json := match mget k l with Some j => j | None => JNull end.

Lemma entries_written m js : map fst js = map fst m -> Forall2 writes (map snd m) (map snd js) ->
  forall keys i l, write_entries i keys m = WOk l -> l = lead i (map (fun k => member (k, find_json k js)) keys).
Proof.
  intros E F. assert (G : forall k, match mget k m with Some w => writes w (find_json k js) | None => True end).
  { intros k. unfold find_json. revert js E F. induction m as [|[k' w] m IH]; intros [|[k'' j] js] E F; cbn in *; try discriminate; auto.
    inversion E; subst. inversion F; subst. destruct (String.eqb k k'); [auto|]. now apply IH. }
  intros keys. induction keys as [|k keys IH]; intros i l W.
  - cbn in W. inversion W. unfold lead. now destruct (Nat.ltb 0 i).
  - cbn [write_entries] in W. apply wcat_ok in W. destruct W as (l1 & l2 & E1 & W & ->). apply wcat_ok in W.
    destruct W as (l3 & l4 & E3 & W & ->). apply wcat_ok in W. destruct W as (l5 & l6 & E5 & W & ->). apply IH in W. subst l6.
    cbn [map]. rewrite lead_cons. specialize (G k). destruct (mget k m) as [w|]; [|discriminate]. apply G in E5. subst l5.
    inversion E3. subst l3.
    replace (lead (i + 1)) with commas by (unfold lead; destruct i; reflexivity).
    destruct (Nat.ltb 0 i); inversion E1; reflexivity.
Qed.

Lemma entries_succeed m keys i : (forall k, In k keys -> In k (map fst m)) -> NoDup (map fst m) ->
  (forall k, In k (map fst m) -> In k keys) ->
  (succeeds (write_entries i keys m) <-> Forall (fun p => succeeds (snd p)) m).
Proof.
  intros H N H'. assert (G : succeeds (write_entries i keys m) <-> Forall (fun k => exists w, mget k m = Some w /\ succeeds w) keys).
  { clear H'. revert i. induction keys as [|k keys IH]; intros i; cbn [write_entries]; [rewrite ok_succeeds; split; auto|].
    rewrite !wcat_succeeds, comma_succeeds, ok_succeeds, IH; [|intros; apply H; now right]. split.
    - intros (_ & _ & S & F). constructor; auto. destruct (mget_some k m) as [w E]; [apply H; now left|]. rewrite E in S. eauto.
    - inversion 1 as [|? ? [w [E S]]]; subst. rewrite E. auto. }
  rewrite G, !Forall_forall. split.
  - intros F [k w] I. destruct (F k) as [w' [E S]]; [apply H', in_map_iff; now exists (k, w)|].
    apply mget_in_iff in I; auto. cbn. congruence.
  - intros F k I. destruct (mget_some k m (H _ I)) as [w E]. exists w. split; auto. apply mget_in in E. now apply (F (k, w)).
Qed.

Section JsonInd.
  Context (P : json -> Prop).
  Context (H1 : P JNull) (H2 : forall b, P (JBool b)) (H3 : forall s, P (JNum s)) (H4 : forall s, P (JStr s)).
  Context (H5 : forall l, Forall P l -> P (JArr l)) (H6 : forall l, Forall (fun p => P (snd p)) l -> P (JObj l)).
  Fixpoint json_ind2 (j : json) : P j :=
    match j with
    | JNull => H1 | JBool b => H2 b | JNum s => H3 s | JStr s => H4 s
    | JArr l => H5 l ((fix go (l : list json) : Forall P l :=
        match l with [] => Forall_nil _ | y :: l => Forall_cons _ (json_ind2 y) (go l) end) l)
    | JObj l => H6 l ((fix go (l : list (string * json)) : Forall (fun p => P (snd p)) l :=
        match l with [] => Forall_nil _ | (k, y) :: l => Forall_cons (k, y) (json_ind2 y) (go l) end) l)
    end.
End JsonInd.

Section Writing.
  Context (o : oracle).

  Definition encode_float (z : Z) : json := match format_float o z with Some s => JNum s | None => JNull end.

  Fixpoint encode_any (a : any) : json :=
    match a with
    | ANil => JNull
    | ABool b => JBool b
    | AFloat z => encode_float z
    | AString s => JStr s
    | ASlice l => JArr (map encode_any l)
    | AMap l => let m := map (fun '(k, x) => (k, encode_any x)) l in JObj (map (fun k => (k, find_json k m)) (order o (map fst l)))
    end.

  Definition encode_scalar (s : scalar) : json :=
    match s with
    | SBool b => JBool b
    | SInt z => JNum (itoa_z z)
    | SFloat z => encode_float z
    | SString s => JStr s
    | SDate d => JStr (format_rfc3339 d)
    | SAny a => encode_any a
    end.

  Definition not_nil (x : value) : bool := match x with VNil => false | _ => true end.

  Fixpoint encode_members (t : typ) (bits : N) (i : nat) (l : list (attribute * value * json)) : list (string * json) :=
    match l with
    | [] => []
    | (a, x, j) :: r =>
        if N.testbit bits (N.of_nat (reserved t + i)) && not_nil x
        then (attribute_name a, j) :: encode_members t bits (S i) r
        else encode_members t bits (S i) r
    end.

  Fixpoint encode (v : version) (k : key) (x : value) {struct x} : json :=
    match mget k (v_types v) with
    | None => JNull
    | Some t =>
        match x with
        | VScalar s => encode_scalar s
        | VNil => JNull
        | VObject b =>
            JObj (header t b ++ encode_members t (o_bits b) 0
              (zip_with (fun a y => (a, y, encode v (a_type a) y)) (t_attrs t) (o_fields b)))%list
        | VSlice l => JArr (map (encode v (elem_key t)) l)
        | VList _ _ s => JObj [("items", JArr (match s with VSlice l => map (encode v (elem_key t)) l | _ => [] end))]
        | VMap l => JObj (map (fun '(k, y) => (k, encode v (elem_key t) y)) l)
        end
    end.

  Definition encode_object (v : version) (t : typ) (b : object) : json :=
    JObj (header t b ++ encode_members t (o_bits b) 0
      (zip_with (fun a y => (a, y, encode v (a_type a) y)) (t_attrs t) (o_fields b)))%list.

  Definition write_scalar (s : scalar) : written :=
    match s with
    | SBool b => WOk [TBool b]
    | SInt z => WOk [TNum (itoa_z z)]
    | SFloat z => write_float o z
    | SString s => WOk [TStr s]
    | SDate d => WOk [TStr (format_rfc3339 d)]
    | SAny a => write_any o a
    end.

  Lemma float_written z : writes (write_float o z) (encode_float z).
  Proof. unfold write_float, encode_float, writes. destruct (format_float o z); intros l E; inversion E; reflexivity. Qed.

  Lemma array_written ws js l : Forall2 writes ws js ->
    wcat (WOk [TLBracket]) (wcat (write_items 0 ws) (WOk [TRBracket])) = WOk l -> l = tokens (JArr js).
  Proof.
    intros F E. apply wcat_ok in E. destruct E as (l1 & l2 & E1 & E & ->). apply wcat_ok in E.
    destruct E as (l3 & l4 & E3 & E4 & ->). apply (items_written _ _ _ _ F) in E3. subst l3. inversion E1. inversion E4. reflexivity.
  Qed.

  Lemma entries_object m js keys l : map fst js = map fst m -> Forall2 writes (map snd m) (map snd js) ->
    wcat (WOk [TLBrace]) (wcat (write_entries 0 keys m) (WOk [TRBrace])) = WOk l ->
    l = tokens (JObj (map (fun k => (k, find_json k js)) keys)).
  Proof.
    intros M F E. apply wcat_ok in E. destruct E as (l1 & l2 & E1 & E & ->). apply wcat_ok in E.
    destruct E as (l3 & l4 & E3 & E4 & ->). apply (entries_written _ _ M F) in E3. subst l3. inversion E1. inversion E4.
    rewrite tokens_object, map_map. reflexivity.
  Qed.

  Lemma any_written a : writes (write_any o a) (encode_any a).
  Proof.
    induction a using any_ind2; intros l' E; cbn [write_any encode_any] in *;
      try (inversion E; reflexivity).
    - now apply float_written.
    - apply (array_written _ (map encode_any l)) in E; auto. clear E l'. induction H; cbn; constructor; auto.
    - apply (entries_object _ (map (fun '(k, x) => (k, encode_any x)) l)) in E; auto.
      + rewrite !map_map. apply map_ext. now intros [].
      + clear E l'. induction H as [|[k y] l H F IH]; cbn; constructor; auto.
  Qed.

  Lemma any_succeeds a : (forall l, Permutation l (order o l)) -> sorted_any a -> (succeeds (write_any o a) <-> finite_any o a).
  Proof.
    intros P. induction a using any_ind2; intros S; cbn [write_any finite_any]; try (rewrite ok_succeeds; tauto).
    - unfold write_float. destruct (format_float o z) eqn:E; [rewrite ok_succeeds; split; [discriminate|auto]|].
      split; [intros [? ?]; discriminate|congruence].
    - rewrite !wcat_succeeds, !ok_succeeds, items_succeed. cbn in S.
      enough (Forall succeeds (map (write_any o) l) <-> all1 (finite_any o) l) by tauto.
      induction H as [|x l H F IH]; cbn; [split; auto|]. destruct S as [S1 S2].
      specialize (IH S2). specialize (H S1). split.
      + inversion 1; subst. tauto.
      + intros [A B]. constructor; tauto.
    - rewrite !wcat_succeeds, !ok_succeeds. cbn in S. destruct S as [S1 S2]. rewrite entries_succeed.
      + enough (Forall (fun p => succeeds (snd p)) (map (fun '(k, x) => (k, write_any o x)) l) <-> all1 (fun p => finite_any o (snd p)) l) by tauto.
        clear S1. induction H as [|[k x] l H F IH]; cbn; [split; auto|]. destruct S2 as [S2 S3]. specialize (IH S3). specialize (H S2). split.
        * inversion 1; subst. cbn in *. tauto.
        * intros [A B]. constructor; cbn in *; tauto.
      + intros k I. rewrite map_map. apply Permutation_in with (l' := map fst l) in I; [|apply Permutation_sym, P].
        apply in_map_iff in I. destruct I as [[k' x] [<- I]]. apply in_map_iff. now exists (k', x).
      + rewrite map_map. erewrite map_ext; [apply increasing_nodup, S1|]. now intros [].
      + intros k I. apply Permutation_in with (l := map fst l); [apply P|]. rewrite map_map in I.
        apply in_map_iff in I. destruct I as [[k' x] [<- I]]. apply in_map_iff. now exists (k', x).
  Qed.
End Writing.
