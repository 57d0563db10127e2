(** Proofs about the encoding of queries. *)
From Coq Require Import Ascii String Bool Arith ZArith NArith Lia Permutation List.
From Verif Require Import GoStrings GoStringsProofs GoMap GoMapProofs HelpersModel HelpersSpec RequestModel RequestSpec.
Import ListNotations.
Local Open Scope string_scope.

Lemma hex_back n : (n < 16)%N -> hex_value (upper_hex n) = Some n.
Proof.
  intros H. assert (D : In n [0;1;2;3;4;5;6;7;8;9;10;11;12;13;14;15]%N).
  { assert (n = 0 \/ n = 1 \/ n = 2 \/ n = 3 \/ n = 4 \/ n = 5 \/ n = 6 \/ n = 7 \/ n = 8 \/ n = 9 \/ n = 10 \/ n = 11 \/ n = 12 \/
      n = 13 \/ n = 14 \/ n = 15)%N as D by lia. cbn [In]. intuition auto. }
  cbn [In] in D. repeat (destruct D as [<-|D]; [reflexivity|]). contradiction.
Qed.

Lemma unescape_char c r : query_unescape (query_escape_char c ++ r) = option_map (String c) (query_unescape r).
Proof.
  destruct (query_unescape r) eqn:E; destruct c as [[] [] [] [] [] [] [] []]; simpl; rewrite E; reflexivity.
Qed.

Lemma unescape_escape s : query_unescape (query_escape s) = Some s.
Proof.
  induction s as [|c s IH]; [reflexivity|]. cbn [query_escape]. rewrite unescape_char, IH. reflexivity.
Qed.

(** Characters that don't appear in escaped texts. *)
Definition special (c : ascii) : bool := Ascii.eqb c "=" || Ascii.eqb c "&" || Ascii.eqb c ";".

Lemma escape_char_clean c : str_all (fun c => negb (special c)) (query_escape_char c) = true.
Proof. destruct c as [[] [] [] [] [] [] [] []]; reflexivity. Qed.

Lemma escape_clean s : str_all (fun c => negb (special c)) (query_escape s) = true.
Proof.
  induction s as [|c s IH]; [reflexivity|]. cbn [query_escape]. rewrite str_all_app, escape_char_clean, IH. reflexivity.
Qed.

Lemma all_weaken (p q : ascii -> bool) s : (forall c, p c = true -> q c = true) -> str_all p s = true -> str_all q s = true.
Proof.
  intros H. induction s as [|c s IH]; [reflexivity|]. cbn [str_all]. rewrite !andb_true_iff. intros [A B]. auto.
Qed.

Lemma cut_clean a b : str_all (fun c => negb (special c)) a = true -> cut_equals (a ++ "=" ++ b) = (a, b).
Proof.
  induction a as [|c a IH]; [reflexivity|]. cbn [str_all]. rewrite andb_true_iff, negb_true_iff. intros [C A].
  cbn [append cut_equals]. apply orb_false_iff in C. destruct C as [C _]. apply orb_false_iff in C. destruct C as [-> _].
  specialize (IH A). cbn [append] in IH. rewrite IH. reflexivity.
Qed.

Lemma pair_back k x : parse_pair (encode_pair k x) = Some (k, x).
Proof.
  unfold parse_pair, encode_pair. rewrite cut_clean by apply escape_clean. rewrite !unescape_escape.
  replace (str_all _ _) with true; [reflexivity|]. symmetry.
  rewrite !str_all_app. cbn [str_all].
  assert (W : forall c, negb (special c) = true -> negb (Ascii.eqb c ";") = true).
  { intros c. unfold special. rewrite !negb_true_iff, !orb_false_iff. tauto. }
  rewrite !(all_weaken _ _ _ W) by apply escape_clean. reflexivity.
Qed.

Lemma pair_no_ampersand k x : no_char "&" (encode_pair k x) = true.
Proof.
  unfold no_char, encode_pair. rewrite !str_all_app. cbn [str_all].
  assert (W : forall c, negb (special c) = true -> negb (Ascii.eqb c "&") = true).
  { intros c. unfold special. rewrite !negb_true_iff, !orb_false_iff. tauto. }
  rewrite !(all_weaken _ _ _ W) by apply escape_clean. reflexivity.
Qed.

Lemma pair_not_empty k x : encode_pair k x <> "".
Proof. unfold encode_pair. destruct (query_escape k); discriminate. Qed.

Lemma pairs_back (l : list (string * string)) :
  parse_query (str_join "&" (map (fun p => encode_pair (fst p) (snd p)) l)) = Some l.
Proof.
  unfold parse_query. destruct l as [|p l]; [reflexivity|]. rewrite join_split; [|apply Forall_map, Forall_forall; intros; apply pair_no_ampersand|discriminate].
  generalize (p :: l). intros m. induction m as [|q m IH]; [reflexivity|]. cbn [map filter].
  destruct (String.eqb_spec (encode_pair (fst q) (snd q)) "") as [E|_]; [now apply pair_not_empty in E|].
  cbn [negb parse_pairs]. rewrite pair_back, IH. now destruct q.
Qed.

(** The pairs in the order in which they are written. *)
Definition pairs_of (q : query) (keys : list string) : list (string * string) :=
  flat_map (fun name => map (pair name) (values_of q name)) keys.

Lemma encode_pairs q : encode q = str_join "&" (map (fun p => encode_pair (fst p) (snd p))
  (pairs_of q (sort (fun a b => Z.ltb (str_compare a b) 0) (map fst q)))).
Proof.
  unfold encode, pairs_of. f_equal. induction (sort _ _) as [|k l IH]; [reflexivity|].
  cbn [flat_map]. rewrite map_app, IH. f_equal. rewrite map_map. reflexivity.
Qed.

Lemma pairs_named q keys n : NoDup keys -> named n (pairs_of q keys) = if existsb (String.eqb n) keys then values_of q n else [].
Proof.
  unfold named, pairs_of. induction keys as [|k keys IH]; intros D; [reflexivity|]. inversion D as [|? ? N D']; subst.
  cbn [flat_map existsb]. rewrite filter_app, map_app, (IH D').
  assert (Same : forall l : list string, map snd (filter (fun p : string * string => String.eqb (fst p) n) (map (pair k) l)) =
    if String.eqb k n then l else []).
  { induction l as [|x l IHl]; [now destruct (String.eqb k n)|]. cbn [map filter fst]. destruct (String.eqb k n); [cbn [map snd]; now rewrite IHl|apply IHl]. }
  rewrite Same. rewrite (String.eqb_sym n k). destruct (String.eqb_spec k n) as [->|_]; [|reflexivity].
  cbn [orb]. destruct (existsb (String.eqb n) keys) eqn:X; [|now rewrite app_nil_r].
  apply existsb_exists in X. destruct X as (y & I & E). apply String.eqb_eq in E. subst y. contradiction.
Qed.

Lemma values_missing (q : query) n : ~ In n (map fst q) -> values_of q n = [].
Proof.
  intros H. unfold values_of. destruct (mget n q) as [l|] eqn:G; [|reflexivity]. exfalso. apply H.
  clear H. induction q as [|[k x] q IH]; [discriminate|]. cbn in G. cbn. destruct (String.eqb_spec n k) as [->|_]; auto.
Qed.

Lemma encode_parse q : NoDup (map fst q) -> exists l, parse_query (encode q) = Some l /\ forall n, named n l = values_of q n.
Proof.
  intros D. rewrite encode_pairs. eexists. split; [apply pairs_back|]. intros n.
  assert (D' : NoDup (sort (fun a b => Z.ltb (str_compare a b) 0) (map fst q))).
  { eapply Permutation_NoDup; [apply sort_perm|exact D]. }
  rewrite (pairs_named q _ n D'). destruct (existsb _ _) eqn:X; [reflexivity|]. symmetry. apply values_missing. intros I.
  enough (existsb (String.eqb n) (sort (fun a b => Z.ltb (str_compare a b) 0) (map fst q)) = true) by congruence.
  apply existsb_exists. exists n. split; [now apply sort_in|apply String.eqb_refl].
Qed.
