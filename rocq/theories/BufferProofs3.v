(** Proofs about the histories of the buffers of the generators. *)
From Coq Require Import Ascii String Bool Arith ZArith NArith Lia Permutation List.
From Verif Require Import GoStrings GoStringsProofs GoMap GoMapProofs ReporterModel ReaderSpec ReaderProofs7 TextModel TextSpec TextProofs TextProofs2 TextProofs3 TextProofs4
  GoNamesModel BufferModel BufferSpec BufferProofs BufferProofs2.
Import ListNotations.
Local Open Scope string_scope.

Lemma errors_zero l : errors_in l 0 <-> error_count l = 0.
Proof. split; [intros H; now apply errors_in_unique in H|intros H; rewrite <- H; apply errors_in_count]. Qed.
Lemma errors_zero_app a b : errors_in (a ++ b)%list 0 <-> errors_in a 0 /\ errors_in b 0.
Proof. rewrite !errors_zero, error_count_app. lia. Qed.
Lemma errors_one m : ~ errors_in [err m] 0.
Proof. intros H. apply errors_zero in H. discriminate. Qed.

Lemma seen_shown pkg a v : shown pkg a v <-> v = seen pkg a.
Proof.
  assert (D : forall s, (s ++ ".")%string <> "") by (now intros [|c s]).
  split.
  - intros H. destruct H; cbn [seen]; try reflexivity.
    + destruct (String.eqb_spec i pkg); [contradiction|reflexivity].
    + rewrite String.eqb_refl. f_equal. eapply without_unique; [apply D|eassumption|now apply without_remove].
  - intros ->. destruct a; cbn [seen]; try constructor. destruct (String.eqb_spec imprt pkg) as [->|N].
    + apply sh_own. now apply without_remove.
    + now apply sh_foreign.
Qed.
Lemma plain_shown a v : shown_plain a v <-> v = plain_value a.
Proof. split; [intros H; destruct H; reflexivity|intros ->; destruct a; constructor]. Qed.

Lemma mget_map {A B} (f : A -> B) k l : mget k (map (fun p : string * A => (fst p, f (snd p))) l) = option_map f (mget k l).
Proof. induction l as [|[j a] l IH]; [reflexivity|]. cbn [map mget fst snd]. now destruct (String.eqb k j). Qed.
Lemma mkeys_map {A B} (f : A -> B) l : mkeys (map (fun p : string * A => (fst p, f (snd p))) l) = mkeys l.
Proof. unfold mkeys. rewrite map_map. apply map_ext. now intros [? ?]. Qed.

Lemma data_spec (show : argument -> value -> Prop) f args pairs : (forall a v, show a v <-> v = f a) -> keyed args pairs ->
  let data := map (fun p => (fst p, f (snd p))) (argument_map args) in
  NoDup (map fst data) /\ forall k v, mget k data = Some v <-> exists a, last_value k pairs a /\ show a v.
Proof.
  intros F K data. destruct (argument_map_spec _ _ K) as (M & N). split; [change (NoDup (mkeys data)); unfold data; now rewrite mkeys_map|].
  intros k v. unfold data. rewrite mget_map. split.
  - destruct (mget k (argument_map args)) as [a|] eqn:E; [|discriminate]. intros H. injection H as <-. exists a. split; [now apply M|now apply F].
  - intros (a & L & S). apply M in L. rewrite L. apply F in S. now subst.
Qed.

Lemma data_same (show : argument -> value -> Prop) d d' pairs :
  (forall k v, mget k d = Some v <-> exists a, last_value k pairs a /\ show a v) ->
  (forall k v, mget k d' = Some v <-> exists a, last_value k pairs a /\ show a v) -> forall k, mget k d = mget k d'.
Proof.
  intros H H' k. destruct (mget k d) as [v|] eqn:E.
  - symmetry. apply H', H, E.
  - destruct (mget k d') as [v|] eqn:E'; [|reflexivity]. apply H', H in E'. congruence.
Qed.

Lemma keyed_unique args pairs pairs' : keyed args pairs -> keyed args pairs' -> pairs = pairs'.
Proof. intros K K'. apply keyed_pairs in K, K'. destruct K as [<- _], K' as [<- _]. reflexivity. Qed.

(** * Go *)

Lemma eval_go_spec t tmpl args b reports text b' reports' : eval_go t tmpl args b reports = (text, b', reports') ->
  (exists more, reports' = (reports ++ more)%list) /\
  (errors_in reports' 0 -> exists pairs imports, keyed args pairs /\ rendered t (shown (gb_pkg b)) tmpl args text imports /\ reports' = reports /\
     b' = add_imports (references (argument_map args) ++ imports) b).
Proof.
  unfold eval_go. cbv zeta. destruct (Nat.eqb_spec (length args mod 2) 0) as [E|E]; cbn [negb].
  2: { intros H. injection H as <- <- <-. split; [eauto|]. intros Z. apply errors_zero_app in Z. destruct Z as [_ Z]. now apply errors_one in Z. }
  destruct (Nat.ltb_spec 0 (error_count (reports ++ check_keys tmpl 0 args)%list)) as [L|L].
  { intros H. injection H as <- <- <-. split; [eauto|]. intros Z. apply errors_zero in Z. lia. }
  assert (Z : error_count (reports ++ check_keys tmpl 0 args)%list = 0) by lia. rewrite error_count_app in Z.
  destruct (check_keys_errors tmpl args 0 E ltac:(lia)) as (pairs & K). destruct (keyed_pairs _ _ K) as (_ & _ & C). rewrite C, app_nil_r.
  rewrite replace_values_spec. destruct (data_spec (shown (gb_pkg b)) (seen (gb_pkg b)) args pairs (seen_shown (gb_pkg b)) K) as (N & D). cbv zeta in N, D.
  set (data := map (fun p : string * argument => (fst p, seen (gb_pkg b) (snd p))) (argument_map args)) in *.
  destruct (t tmpl data) as [[text0 imports]|[[|n] m]] eqn:R.
  - intros H. injection H as <- <- <-. split; [exists []; now rewrite app_nil_r|]. intros _. exists pairs, imports.
    split; [exact K|]. split; [exists pairs, data; auto|]. split; [reflexivity|]. now rewrite add_imports_app.
  - intros H. injection H as <- <- <-. split; [eauto|]. intros Q. apply errors_zero_app in Q. destruct Q as [_ Q]. now apply errors_one in Q.
  - intros H. injection H as <- <- <-. split; [eauto|]. intros Q. apply errors_zero_app in Q. destruct Q as [_ Q]. now apply errors_one in Q.
Qed.

Lemma eval_go_rendered t tmpl args b reports text imports : unordered t -> errors_in reports 0 -> rendered t (shown (gb_pkg b)) tmpl args text imports ->
  exists b', eval_go t tmpl args b reports = (text, b', reports).
Proof.
  intros U Z (pairs & data' & K & R & N' & D'). destruct (keyed_pairs _ _ K) as (_ & E & C). unfold eval_go. cbv zeta.
  rewrite E. cbn [Nat.eqb negb]. rewrite C, app_nil_r. apply errors_zero in Z. rewrite Z. cbn [Nat.ltb Nat.leb].
  rewrite replace_values_spec. destruct (data_spec (shown (gb_pkg b)) (seen (gb_pkg b)) args pairs (seen_shown (gb_pkg b)) K) as (N & D). cbv zeta in N, D.
  rewrite (U tmpl _ data' N N' (data_same _ _ _ _ D D')), R. eauto.
Qed.

Lemma references_in m i s : NoDup (mkeys m) -> (In (i, s) (references m) <-> exists k t, mget k m = Some (ArgReference i s t)).
Proof.
  intros N. unfold references. rewrite in_flat_map. split.
  - intros ((k & v) & I & J). cbn [snd] in J. destruct v as [|i' s' t|]; try easy. destruct J as [J|[]]. injection J as -> ->. exists k, t. now apply mget_in_iff.
  - intros (k & t & G). exists (k, ArgReference i s t). split; [now apply mget_in_iff|now left].
Qed.

Lemma emitted_cons s l : emitted (s :: l) = (s ++ newline ++ emitted l)%string.
Proof. unfold emitted. cbn [map String.concat]. destruct l; cbn [map String.concat]; rewrite ?sapp_nil_r, ?sapp_assoc; reflexivity. Qed.

Lemma go_events_spec t l : forall b reports b' reports', go_events t l (b, reports) = (b', reports') ->
  (exists more, reports' = (reports ++ more)%list) /\ gb_file b' = gb_file b /\ gb_pkg b' = gb_pkg b /\
  (errors_in reports' 0 -> exists texts imports refs, all_rendered t (shown (gb_pkg b)) l texts imports /\
     gb_code b' = (gb_code b ++ emitted texts)%string /\ gb_imports b' = gb_imports (add_imports refs b) /\
     forall i s, In (i, s) refs <-> mentioned l i s \/ In (i, s) imports).
Proof.
  induction l as [|e l IH]; intros b reports b' reports' H.
  - injection H as <- <-. split; [exists []; now rewrite app_nil_r|]. split; [reflexivity|]. split; [reflexivity|]. intros _. exists [], [], [].
    split; [constructor|]. split; [now rewrite sapp_nil_r|]. split; [reflexivity|].
    intros i s. split; [intros []|]. intros [[[]|(? & ? & ? & ? & ? & [] & _)]|[]].
  - cbn [go_events fold_left] in H. fold (go_events t l (go_event t (b, reports) e)) in H.
    destruct e as [tmpl args|i s|r]; cbn [go_event fst snd] in H.
    + unfold emit_go in H. destruct (eval_go t tmpl args b reports) as [[text b1] reports1] eqn:E.
      destruct (eval_go_spec _ _ _ _ _ _ _ _ E) as ((more1 & M1) & S).
      assert (P1 : gb_pkg b1 = gb_pkg b /\ gb_file b1 = gb_file b).
      { revert E. unfold eval_go. cbv zeta. destruct (negb _); [intros H'; injection H' as <- <- <-; auto|].
        destruct (Nat.ltb _ _); [intros H'; injection H' as <- <- <-; auto|].
        rewrite replace_values_spec. destruct (add_imports_rest (references (argument_map args)) b) as (A1 & A2 & _).
        destruct (t _ _) as [[? ims]|[[|?] ?]]; intros H'; injection H' as <- <- <-; auto.
        fold (add_imports ims (add_imports (references (argument_map args)) b)).
        destruct (add_imports_rest ims (add_imports (references (argument_map args)) b)) as (-> & -> & _). auto. }
      destruct P1 as [P1 P2]. apply IH in H. destruct H as ((more & M) & F & P & Q). cbn [gb_pkg gb_file gb_code gb_imports] in *.
      split; [exists (more1 ++ more)%list; subst; now rewrite app_assoc|]. split; [congruence|]. split; [congruence|].
      intros Z. destruct (Q Z) as (texts & imports & refs & A & C & I & J).
      assert (Z1 : errors_in reports1 0) by (rewrite M in Z; apply errors_zero_app in Z; tauto).
      destruct (S Z1) as (pairs & ims & K & R & _ & B1). rewrite P1 in A.
      exists (text :: texts), (ims ++ imports)%list, ((references (argument_map args) ++ ims) ++ refs)%list.
      split; [now constructor|]. split; [|split].
      * rewrite C, emitted_cons, B1. destruct (add_imports_rest (references (argument_map args) ++ ims) b) as (_ & _ & ->). now rewrite !sapp_assoc.
      * rewrite I, add_imports_app, <- B1. clear. set (b2 := MkGoBuffer (gb_pkg b1) (gb_file b1) (gb_imports b1) (gb_code b1 ++ text ++ newline)%string).
        assert (E : gb_imports b2 = gb_imports b1 /\ gb_pkg b2 = gb_pkg b1) by auto. revert E. generalize b2. clear. intros b2. revert b1 b2.
        induction refs as [|[i s] refs IH]; intros b1 b2 [E1 E2]; [exact E1|].
        change (gb_imports (add_imports refs (add_import i s b2)) = gb_imports (add_imports refs (add_import i s b1))).
        apply IH. unfold add_import. rewrite E1, E2. destruct (_ && _); cbn; auto.
      * intros i s. rewrite !in_app_iff, J. destruct (argument_map_spec _ _ K) as (V & N). rewrite (references_in _ _ _ N).
        unfold mentioned. split.
        -- intros [[(k & x & G)|G]|[[G|(tm & ar & pr & k & x & G1 & G2)]|G]]; auto.
           ++ left. right. exists tmpl, args, pairs, k, x. split; [now left|]. split; [exact K|]. now apply V.
           ++ left. left. now right.
           ++ left. right. exists tm, ar, pr, k, x. split; [now right|exact G2].
        -- intros [[G|(tm & ar & pr & k & x & [G1|G1] & G2 & G3)]|[G|G]]; auto.
           ++ destruct G as [G|G]; [discriminate|auto].
           ++ injection G1 as <- <-. rewrite (keyed_unique _ _ _ G2 K) in G3. left. left. exists k, x. now apply V.
           ++ right. left. right. exists tm, ar, pr, k, x. auto.
    + apply IH in H. destruct H as (M & F & P & Q). destruct (add_import_rest i s b) as (P1 & F1 & C1). rewrite P1, F1 in *.
      split; [exact M|]. split; [exact F|]. split; [exact P|]. intros Z. destruct (Q Z) as (texts & imports & refs & A & C & I & J).
      exists texts, imports, ((i, s) :: refs). split; [now constructor|]. split; [now rewrite C, C1|]. split; [exact I|].
      intros j x. cbn [In]. rewrite J. unfold mentioned. split.
      * intros [G|[[G|(tm & ar & pr & k & y & G1 & G2)]|G]]; auto.
        -- injection G as <- <-. left. left. now left.
        -- left. left. now right.
        -- left. right. exists tm, ar, pr, k, y. split; [now right|exact G2].
      * intros [[[G|G]|(tm & ar & pr & k & y & [G1|G1] & G2)]|G]; auto.
        -- injection G as <- <-. auto.
        -- discriminate.
        -- right. left. right. exists tm, ar, pr, k, y. auto.
    + apply IH in H. destruct H as ((more & M) & F & P & Q).
      split; [exists (r :: more); subst; now rewrite <- app_assoc|]. split; [exact F|]. split; [exact P|].
      intros Z. destruct (Q Z) as (texts & imports & refs & A & C & I & J).
      exists texts, imports, refs. split; [constructor; [|exact A]|]. 2: split; [exact C|]. 2: split; [exact I|].
      * subst reports'. apply errors_zero_app in Z. destruct Z as [Z _]. apply errors_zero_app in Z. destruct Z as [_ Z].
        destruct r as [sv m]. cbn. intros ->. now apply errors_one in Z.
      * intros i s. rewrite J. unfold mentioned. split.
        -- intros [[G|(tm & ar & pr & k & y & G1 & G2)]|G]; auto.
           ++ left. left. now right.
           ++ left. right. exists tm, ar, pr, k, y. split; [now right|exact G2].
        -- intros [[[G|G]|(tm & ar & pr & k & y & [G1|G1] & G2)]|G]; auto; try discriminate.
           left. right. exists tm, ar, pr, k, y. auto.
Qed.
