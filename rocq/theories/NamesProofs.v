(** Proofs about names. *)
From Coq Require Import Ascii String Bool Arith ZArith NArith Lia List.
From Verif Require Import GoStrings GoStringsProofs NamesModel NamesSpec.
Import ListNotations.
Local Open Scope string_scope.

(** * Order *)

Lemma ascii_compare_lt a b : Ascii.compare a b = Lt <-> nat_of_ascii a < nat_of_ascii b.
Proof.
  unfold Ascii.compare, nat_of_ascii. rewrite N.compare_lt_iff. lia.
Qed.

Lemma ascii_compare_gt a b : Ascii.compare a b = Gt <-> nat_of_ascii b < nat_of_ascii a.
Proof.
  unfold Ascii.compare, nat_of_ascii. rewrite N.compare_gt_iff. lia.
Qed.

Lemma string_compare_lt a b : String.compare a b = Lt <-> str_lt a b.
Proof.
  revert b; induction a as [|x a IH]; intros [|y b]; simpl.
  - split; [discriminate | intros H; inversion H].
  - split; [constructor | reflexivity].
  - split; [discriminate | intros H; inversion H].
  - destruct (Ascii.compare x y) eqn:E.
    + apply Ascii.compare_eq_iff in E. subst y. rewrite IH. split.
      * now constructor.
      * intros H; inversion H; subst; [lia | assumption].
    + split; [|reflexivity]. intros _. constructor. now apply ascii_compare_lt.
    + split; [discriminate|]. apply ascii_compare_gt in E.
      intros H; inversion H; subst; lia.
Qed.

Lemma str_compare_lt a b : str_compare a b = (-1)%Z <-> str_lt a b.
Proof.
  rewrite <- string_compare_lt. unfold str_compare.
  destruct (String.compare a b); split; congruence.
Qed.

Lemma str_compare_range a b :
  str_compare a b = (-1)%Z \/ str_compare a b = 0%Z \/ str_compare a b = 1%Z.
Proof. unfold str_compare. destruct (String.compare a b); auto. Qed.

Lemma str_lt_irrefl a : ~ str_lt a a.
Proof. rewrite <- str_compare_lt, str_compare_refl. discriminate. Qed.

Lemma str_lt_trans a b c : str_lt a b -> str_lt b c -> str_lt a c.
Proof.
  intros H; revert c; induction H as [x s|x y s t Hxy|x s t Hst IH]; intros c Hc;
    inversion Hc; subst; try (constructor; auto; lia).
Qed.

Lemma str_lt_asym a b : str_lt a b -> ~ str_lt b a.
Proof. intros H1 H2. exact (str_lt_irrefl a (str_lt_trans _ _ _ H1 H2)). Qed.

Lemma str_trichotomy a b : str_lt a b \/ a = b \/ str_lt b a.
Proof.
  destruct (str_compare_range a b) as [H|[H|H]].
  - left. now apply str_compare_lt.
  - right; left. now apply str_compare_eq.
  - right; right. apply str_compare_lt. rewrite str_compare_opp, H. reflexivity.
Qed.

Lemma words_lt_irrefl a : ~ words_lt a a.
Proof.
  induction a as [|x a IH]; intros H; inversion H; subst; auto.
  now apply (str_lt_irrefl x).
Qed.

Lemma words_lt_trans a b c : words_lt a b -> words_lt b c -> words_lt a c.
Proof.
  intros H; revert c; induction H as [x l|x y l m Hxy|x l m Hlm IH]; intros c Hc.
  - inversion Hc; subst; constructor.
  - inversion Hc; subst; apply words_lt_head; auto. eapply str_lt_trans; eauto.
  - inversion Hc; subst; [apply words_lt_head | apply words_lt_tail]; auto.
Qed.

Lemma words_lt_asym a b : words_lt a b -> ~ words_lt b a.
Proof. intros H1 H2. exact (words_lt_irrefl a (words_lt_trans _ _ _ H1 H2)). Qed.

Definition wcompare (a b : list word) : Z :=
  let r := compare_prefix a b in
  if Z.eqb r 0 then
    if Nat.ltb (length a) (length b) then (-1)%Z
    else if Nat.ltb (length b) (length a) then 1%Z
    else r
  else r.

Lemma wcompare_cons x a y b :
  wcompare (x :: a) (y :: b) =
  if Z.eqb (str_compare (w_text x) (w_text y)) 0 then wcompare a b
  else str_compare (w_text x) (w_text y).
Proof.
  unfold wcompare. cbn [compare_prefix length].
  change (Nat.ltb (S (length a)) (S (length b))) with (Nat.ltb (length a) (length b)).
  change (Nat.ltb (S (length b)) (S (length a))) with (Nat.ltb (length b) (length a)).
  destruct (Z.eqb (str_compare (w_text x) (w_text y)) 0) eqn:E; [reflexivity|].
  now rewrite E.
Qed.

Lemma wcompare_opp a b : wcompare a b = (- wcompare b a)%Z.
Proof.
  revert b; induction a as [|x a IH]; intros [|y b]; try reflexivity.
  rewrite !wcompare_cons. rewrite (str_compare_opp (w_text x)).
  destruct (str_compare_range (w_text y) (w_text x)) as [->|[->| ->]]; simpl; auto.
Qed.

Lemma wcompare_lt a b : wcompare a b = (-1)%Z <-> words_lt (map w_text a) (map w_text b).
Proof.
  revert b; induction a as [|x a IH]; intros [|y b]; simpl map.
  - split; [discriminate | intros H; inversion H].
  - split; [constructor | reflexivity].
  - split; [discriminate | intros H; inversion H].
  - rewrite wcompare_cons.
    destruct (Z.eqb (str_compare (w_text x) (w_text y)) 0) eqn:E.
    + apply Z.eqb_eq, str_compare_eq in E. rewrite IH, E. split.
      * now constructor.
      * intros H; inversion H; subst; auto. now destruct (str_lt_irrefl (w_text y)).
    + rewrite str_compare_lt. split.
      * now constructor.
      * intros H; inversion H as [|p q l m Hl|p l m Hm]; subst; auto.
        match goal with H0 : w_text x = w_text y |- _ => rewrite H0, str_compare_refl in E end.
        discriminate.
Qed.

Lemma wcompare_zero a b : wcompare a b = 0%Z <-> map w_text a = map w_text b.
Proof.
  revert b; induction a as [|x a IH]; intros [|y b]; simpl map.
  - split; reflexivity.
  - split; discriminate.
  - split; discriminate.
  - rewrite wcompare_cons.
    destruct (Z.eqb (str_compare (w_text x) (w_text y)) 0) eqn:E.
    + apply Z.eqb_eq, str_compare_eq in E. rewrite IH, E. split; congruence.
    + apply Z.eqb_neq in E. split; [contradiction|]. intros H; injection H as H _.
      destruct E. now apply str_compare_eq.
Qed.

Lemma wcompare_range a b :
  wcompare a b = (-1)%Z \/ wcompare a b = 0%Z \/ wcompare a b = 1%Z.
Proof.
  revert b; induction a as [|x a IH]; intros [|y b]; auto.
  rewrite wcompare_cons. destruct (Z.eqb _ 0); auto. apply str_compare_range.
Qed.

Lemma name_compare_w a b : name_compare a b = wcompare (n_words a) (n_words b).
Proof. reflexivity. Qed.

Lemma name_compare_lex a b :
  (name_compare a b = (-1)%Z <-> words_lt (texts a) (texts b)) /\
  (name_compare a b = 0%Z <-> texts a = texts b) /\
  (name_compare a b = 1%Z <-> words_lt (texts b) (texts a)).
Proof.
  rewrite name_compare_w. unfold texts. repeat split; try apply wcompare_lt; try apply wcompare_zero.
  - intros H. apply wcompare_lt. rewrite wcompare_opp, H. reflexivity.
  - intros H. apply wcompare_lt in H. rewrite wcompare_opp, H. reflexivity.
Qed.

Lemma name_compare_values a b :
  name_compare a b = (-1)%Z \/ name_compare a b = 0%Z \/ name_compare a b = 1%Z.
Proof. apply wcompare_range. Qed.

Lemma name_less_lt a b : name_less a b = true <-> words_lt (texts a) (texts b).
Proof. unfold name_less. rewrite Z.eqb_eq. apply name_compare_lex. Qed.

Lemma name_less_order :
  (forall a, name_less a a = false) /\
  (forall a b c, name_less a b = true -> name_less b c = true -> name_less a c = true) /\
  (forall a b, name_less a b = true \/ texts a = texts b \/ name_less b a = true) /\
  (forall a b, name_less a b = true -> name_less b a = false).
Proof.
  repeat split.
  - intros a. destruct (name_less a a) eqn:E; [|reflexivity].
    apply name_less_lt in E. now destruct (words_lt_irrefl (texts a)).
  - intros a b c. rewrite !name_less_lt. apply words_lt_trans.
  - intros a b. rewrite !name_less_lt.
    destruct (name_compare_lex a b) as (H1 & H2 & H3).
    destruct (name_compare_values a b) as [H|[H|H]]; tauto.
  - intros a b. rewrite name_less_lt. intros H. destruct (name_less b a) eqn:E; [|reflexivity].
    apply name_less_lt in E. now destruct (words_lt_asym _ _ H).
Qed.

(** * Equality *)

Lemma word_equals_spec a b : word_equals a b = true <-> a = b.
Proof.
  destruct a as [t i], b as [u j]. unfold word_equals. simpl.
  rewrite andb_true_iff, String.eqb_eq, Bool.eqb_true_iff. split; [intros [-> ->]; auto|].
  intros H; injection H; auto.
Qed.

Lemma words_equal_spec a b : words_equal a b = true <-> a = b.
Proof.
  revert b; induction a as [|x a IH]; intros [|y b]; simpl; try (split; congruence).
  rewrite andb_true_iff, word_equals_spec, IH. split; [intros [-> ->]; auto|].
  intros H; injection H; auto.
Qed.

Lemma name_equals_words a b :
  name_equals (Some a) (Some b) = true <-> n_words a = n_words b.
Proof. apply words_equal_spec. Qed.

Lemma name_equals_equivalence :
  (forall a, name_equals a a = true) /\
  (forall a b, name_equals a b = name_equals b a) /\
  (forall a b c, name_equals a b = true -> name_equals b c = true -> name_equals a c = true) /\
  (forall a b, name_equals None (Some a) = false /\ name_equals (Some b) None = false).
Proof.
  split; [|split; [|split]].
  - intros [a|]; [|reflexivity]. now apply words_equal_spec.
  - intros [a|] [b|]; try reflexivity. apply eq_true_iff_eq. rewrite !name_equals_words.
    split; auto.
  - intros [a|] [b|] [c|]; try discriminate; auto. rewrite !name_equals_words. congruence.
  - auto.
Qed.

Lemma name_equals_renderings a b :
  name_equals (Some a) (Some b) = true ->
  name_compare a b = 0%Z /\ name_string a = name_string b /\
  snake a = snake b /\ camel a = camel b /\
  (forall sep, lower_joined sep a = lower_joined sep b /\
               upper_joined sep a = upper_joined sep b /\
               capitalized_joined sep a = capitalized_joined sep b).
Proof.
  rewrite name_equals_words. intros H. split.
  - apply name_compare_lex. unfold texts. now rewrite H.
  - unfold snake, camel, name_string, lower_joined, upper_joined, capitalized_joined.
    rewrite H. repeat split.
Qed.

(** * Separators *)

Lemma texts_parse_using_separator t sep :
  texts (parse_using_separator t sep) = str_split sep t.
Proof.
  unfold texts, parse_using_separator. simpl. rewrite map_map. simpl. apply map_id.
Qed.

Lemma separator_join_split t :
  name_string (parse_using_separator t "_") = t.
Proof.
  unfold name_string. change (map w_text (n_words (parse_using_separator t "_")))
    with (texts (parse_using_separator t "_")).
  rewrite texts_parse_using_separator. apply split_join.
Qed.

Lemma map_new_word_texts ws :
  Forall (fun w => w_init w = false) ws -> map new_word (map w_text ws) = ws.
Proof.
  induction ws as [|[t i] ws IH]; intros H; inversion H; subst; simpl; [reflexivity|].
  simpl in *. subst i. now rewrite IH.
Qed.

Lemma separator_split_join ws :
  ws <> [] ->
  Forall (fun w => w_init w = false /\ no_char "_" (w_text w) = true) ws ->
  n_words (parse_using_separator (name_string (new_name ws)) "_") = ws.
Proof.
  intros Hn HF. unfold parse_using_separator, name_string. simpl.
  rewrite join_split.
  - apply map_new_word_texts. eapply Forall_impl; [|exact HF]. simpl. tauto.
  - rewrite Forall_map. eapply Forall_impl; [|exact HF]. simpl. tauto.
  - destruct ws; [congruence|discriminate].
Qed.

Lemma separator_words_clean t sep :
  Forall (fun w => w_init w = false /\ no_char sep (w_text w) = true)
    (n_words (parse_using_separator t sep)).
Proof.
  unfold parse_using_separator. simpl. rewrite Forall_map.
  eapply Forall_impl; [|apply (split_clean sep t)]. simpl. auto.
Qed.

(** * Chunks *)

(** A chunk: not empty and all its characters are (or aren't) lower case letters. *)
Definition uniform (b : bool) (s : string) : Prop :=
  s <> "" /\ str_all (fun c => Bool.eqb (is_lower c) b) s = true.

(** Alternating chunks, the first of them with the given flag. *)
Fixpoint alternating (b : bool) (l : list string) : Prop :=
  match l with
  | [] => True
  | s :: r => uniform b s /\ alternating (negb b) r
  end.

Lemma eqb_refl_bool b : Bool.eqb b b = true.
Proof. now destruct b. Qed.

Lemma chunk_loop_sound rest : forall buf c,
  str_all (fun d => Bool.eqb (is_lower d) (is_lower c)) buf = true ->
  let l := chunk_loop buf c rest in
  l <> [] /\ alternating (is_lower c) l /\
  fold_right append "" l = buf ++ String c rest.
Proof.
  induction rest as [|d rest IH]; intros buf c Hb; cbn [chunk_loop].
  - split; [discriminate|]. simpl. split.
    + split; [|exact I]. split.
      * destruct buf; discriminate.
      * rewrite str_all_app, Hb. simpl. now rewrite eqb_refl_bool.
    + apply sapp_nil_r.
  - destruct (Bool.eqb (is_lower c) (is_lower d)) eqn:E.
    + apply Bool.eqb_prop in E.
      destruct (IH (buf ++ String c "") d) as (Hn & Ha & Hf).
      * rewrite str_all_app. simpl. rewrite <- E, Hb, eqb_refl_bool. reflexivity.
      * rewrite E. split; [exact Hn|]. split; [exact Ha|]. rewrite Hf, sapp_assoc. reflexivity.
    + destruct (IH "" d) as (Hn & Ha & Hf); [reflexivity|].
      split; [discriminate|]. split.
      * simpl. split.
        -- split; [destruct buf; discriminate|].
           rewrite str_all_app, Hb. simpl. now rewrite eqb_refl_bool.
        -- replace (negb (is_lower c)) with (is_lower d); [exact Ha|].
           destruct (is_lower c), (is_lower d); simpl in *; congruence.
      * cbn [fold_right]. rewrite Hf, sapp_assoc. reflexivity.
Qed.

Lemma chunks_of_loop c t : chunks_of (String c t) = chunk_loop "" c t.
Proof. destruct t; reflexivity. Qed.

Lemma chunks_of_sound c t :
  let l := chunks_of (String c t) in
  l <> [] /\ alternating (is_lower c) l /\ fold_right append "" l = String c t.
Proof. rewrite chunks_of_loop. now apply chunk_loop_sound. Qed.

(** The decomposition in alternating chunks is unique. *)
Lemma alternating_unique l : forall b m,
  alternating b l -> alternating b m -> 
  fold_right append "" l = fold_right append "" m -> l = m.
Proof.
  induction l as [|s l IH]; intros b [|u m] Hl Hm H.
  - reflexivity.
  - destruct Hm as [[Hu _] _]. simpl in H. symmetry in H.
    apply sapp_eq_nil in H as [H _]. congruence.
  - destruct Hl as [[Hs _] _]. simpl in H.
    apply sapp_eq_nil in H as [H _]. congruence.
  - destruct Hl as [[Hs1 Hs2] Hl], Hm as [[Hu1 Hu2] Hm].
    assert (E : s = u /\ fold_right append "" l = fold_right append "" m).
    { simpl in H. clear IH Hs1 Hu1.
      assert (Hx : forall k, alternating (negb b) k ->
                fold_right append "" k = "" \/
                exists c r, fold_right append "" k = String c r /\ is_lower c = negb b).
      { intros [|k0 k]; [now left|]. intros [[Hk0 Hk1] _]. right.
        destruct k0 as [|c r]; [congruence|]. simpl in Hk1.
        apply andb_true_iff in Hk1 as [Hk1 _]. apply Bool.eqb_prop in Hk1.
        simpl. eauto. }
      apply Hx in Hl. apply Hx in Hm. clear Hx.
      revert u H Hu2. induction s as [|c s IHs]; intros [|d u] H Hu2; simpl in *.
      - auto.
      - exfalso. destruct Hl as [Hl|(c & r & Hl & Hc)]; rewrite Hl in H; [discriminate|].
        injection H as -> _. apply andb_true_iff in Hu2 as [Hu2 _].
        apply Bool.eqb_prop in Hu2. rewrite Hu2 in Hc. destruct b; discriminate.
      - exfalso. destruct Hm as [Hm|(d & r & Hm & Hd)]; rewrite Hm in H; [discriminate|].
        injection H as -> _. apply andb_true_iff in Hs2 as [Hs2 _].
        apply Bool.eqb_prop in Hs2. rewrite Hs2 in Hd. destruct b; discriminate.
      - injection H as -> H. apply andb_true_iff in Hs2 as [_ Hs2].
        apply andb_true_iff in Hu2 as [_ Hu2].
        destruct (IHs Hs2 u H Hu2) as [-> ->]. auto. }
    destruct E as [-> E]. f_equal. now apply (IH (negb b)).
Qed.

Lemma chunks_of_complete b l :
  l <> [] -> alternating b l -> chunks_of (fold_right append "" l) = l.
Proof.
  intros Hn Ha. destruct l as [|s l]; [congruence|].
  pose proof Ha as [[Hs Hs'] _]. destruct s as [|c s]; [congruence|].
  cbn [fold_right append].
  destruct (chunks_of_sound c (s ++ fold_right append "" l)) as (_ & Hc & Hf).
  apply (alternating_unique _ b); [|assumption|exact Hf].
  cbn [str_all] in Hs'. apply andb_true_iff in Hs' as [Hs' _]. apply Bool.eqb_prop in Hs'.
  now rewrite <- Hs'.
Qed.

(** * Renderings of words *)

Lemma title_from_lower p s :
  is_title_separator p = false ->
  str_all (fun c => is_lower c || is_upper c || is_digit c) s = true ->
  title_from p s = s.
Proof.
  revert p; induction s as [|c s IH]; intros p Hp Hs; simpl; [reflexivity|].
  simpl in Hs. apply andb_true_iff in Hs as [Hc Hs]. rewrite Hp, IH; auto.
  now apply not_sep_alnum.
Qed.

Lemma lower_alnum s :
  str_all is_lower s = true -> str_all (fun c => is_lower c || is_upper c || is_digit c) s = true.
Proof. apply str_all_impl. intros c ->. reflexivity. Qed.

Lemma title_word c r :
  is_lower c || is_upper c || is_digit c = true -> str_all is_lower r = true ->
  str_title (String c r) = String (to_upper c) r.
Proof.
  intros Hc Hr. unfold str_title. cbn [title_from].
  change (is_title_separator " ") with true. cbn [title_from].
  rewrite title_from_lower; auto.
  - now apply not_sep_alnum.
  - now apply lower_alnum.
Qed.

Lemma ud_not_lower c : upper_or_digit c = true -> is_lower c = false.
Proof.
  unfold upper_or_digit. rewrite orb_true_iff. intros [H|H];
    [now apply upper_not_lower | now apply digit_not_lower].
Qed.

Lemma ud_uniform s : s <> "" -> str_all upper_or_digit s = true -> uniform false s.
Proof.
  intros Hn H. split; [exact Hn|]. eapply str_all_impl; [|exact H].
  intros c Hc. simpl. now rewrite (ud_not_lower c Hc).
Qed.

Lemma lower_uniform s : s <> "" -> str_all is_lower s = true -> uniform true s.
Proof.
  intros Hn H. split; [exact Hn|]. eapply str_all_impl; [|exact H].
  intros c Hc. simpl. now rewrite Hc.
Qed.

Lemma uniform_true_lower s : uniform true s -> is_lower_str s = true.
Proof.
  intros [_ H]. eapply str_all_impl; [|exact H]. intros c Hc. now apply Bool.eqb_prop.
Qed.

Lemma is_upper_str_ud s : is_upper_str s = str_all upper_or_digit s.
Proof. reflexivity. Qed.

Lemma length_ge_2_not_nil s : 2 <= String.length s -> s <> "".
Proof. destruct s; simpl; [lia|discriminate]. Qed.

Lemma to_upper_ud c : is_lower c || is_digit c = true -> upper_or_digit (to_upper c) = true.
Proof.
  rewrite orb_true_iff. unfold upper_or_digit. intros [H|H].
  - now rewrite to_upper_is_upper.
  - rewrite to_upper_id by now apply digit_not_lower. now rewrite H, orb_true_r.
Qed.

Lemma to_lower_upper_ld c : is_lower c || is_digit c = true -> to_lower (to_upper c) = c.
Proof.
  rewrite orb_true_iff. intros [H|H].
  - now apply to_lower_upper.
  - rewrite to_upper_id by now apply digit_not_lower. apply to_lower_id.
    now apply digit_not_upper.
Qed.

Lemma all_but_last_snoc s c : all_but_last (s ++ String c "") = s.
Proof.
  unfold all_but_last. rewrite sapp_length. simpl.
  replace (String.length s + 1 - 1) with (String.length s) by lia.
  apply str_take_app_length.
Qed.

Lemma last_of_snoc s c : last_of (s ++ String c "") = String c "".
Proof.
  unfold last_of. rewrite sapp_length. simpl.
  replace (String.length s + 1 - 1) with (String.length s) by lia.
  apply str_drop_app_length.
Qed.

(** * Parsing what was rendered *)

Definition good_chunks (ws : list word) (l : list string) : Prop :=
  alternating false l /\
  fold_right append "" l = fold_right append "" (map capitalize ws) /\
  (forall t, process_chunks t l = ws) /\ (ws <> [] -> l <> []).

Lemma process_pair t a b rest :
  process_chunks t (a :: b :: rest) =
      if Nat.eqb (String.length a) 1 && is_upper_str a && is_lower_str b then
        new_word (str_lower a ++ b) :: process_chunks t rest
      else if Nat.leb 2 (String.length a) && is_upper_str a && String.eqb b "s" then
        new_initialism (a ++ "s") :: process_chunks t rest
      else if is_upper_str a && is_lower_str b then
        new_initialism (all_but_last a)
          :: new_word (str_lower (last_of a) ++ b)
          :: process_chunks t rest
      else
        parse_word t :: process_chunks t (b :: rest).
Proof. reflexivity. Qed.

Lemma camel_words_chunks ws : camel_words ws -> exists l, good_chunks ws l.
Proof.
  intros H; induction H as [|w ws Hw H IH|w ws Hw H IH|w Hw|w v ws Hw Hv Hs H IH].
  - exists []. repeat split; auto.
  - destruct IH as (l & Ha & Hf & Hp & _). destruct w as [t i].
    destruct Hw as [Hi (c & r & Ht & Hc & Hr & Hl)]. simpl in Hi, Ht. subst i t.
    exists (String (to_upper c) "" :: r :: l). split; [|split; [|split]].
    + simpl. split; [|split].
      * apply ud_uniform; [discriminate|]. simpl. now rewrite to_upper_ud.
      * now apply lower_uniform.
      * exact Ha.
    + cbn [map fold_right]. rewrite <- Hf. unfold capitalize. cbn [w_init w_text]. rewrite title_word; auto.
      * apply orb_true_iff in Hc as [Hc|Hc]; rewrite Hc; simpl; auto.
        now rewrite !orb_true_r.
    + intros t. rewrite process_pair. simpl String.length. simpl Nat.eqb.
      rewrite is_upper_str_ud. cbn [str_all]. rewrite to_upper_ud by exact Hc.
      unfold is_lower_str. rewrite Hl. cbn [andb].
      unfold str_lower. cbn [str_map append]. rewrite to_lower_upper_ld by exact Hc.
      rewrite Hp. reflexivity.
    + discriminate.
  - destruct IH as (l & Ha & Hf & Hp & _). destruct w as [t i].
    destruct Hw as [Hi (s & Ht & Hlen & Hud)]. simpl in Hi, Ht. subst i t.
    exists (s :: "s" :: l). split; [|split; [|split]].
    + simpl. split; [|split].
      * apply ud_uniform; auto. now apply length_ge_2_not_nil.
      * split; [discriminate|reflexivity].
      * exact Ha.
    + cbn [map fold_right]. rewrite <- Hf. unfold capitalize. cbn [w_init w_text].
      now rewrite sapp_assoc.
    + intros t. rewrite process_pair.
      destruct (Nat.eqb_spec (String.length s) 1) as [E|E]; [lia|]. cbn [andb].
      rewrite is_upper_str_ud, Hud.
      replace (Nat.leb 2 (String.length s)) with true by (symmetry; now apply Nat.leb_le).
      change (String.eqb "s" "s") with true. cbn [andb]. rewrite Hp. reflexivity.
    + discriminate.
  - destruct w as [t i]. destruct Hw as (Hi & Hlen & Hud). simpl in Hi, Hlen, Hud. subst i.
    exists [t]. split; [|split; [|split]].
    + simpl. split; [|exact I]. apply ud_uniform; auto. now apply length_ge_2_not_nil.
    + reflexivity.
    + intros u. simpl. unfold parse_word. rewrite is_upper_str_ud, Hud.
      replace (Nat.leb 2 (String.length t)) with true by (symmetry; now apply Nat.leb_le).
      reflexivity.
    + discriminate.
  - destruct IH as (l & Ha & Hf & Hp & _). destruct w as [t i], v as [u j].
    destruct Hw as (Hi & Hlen & Hud). simpl in Hi, Hlen, Hud. subst i.
    destruct Hv as [Hj (c & r & Hu & Hc & Hr & Hl)]. simpl in Hj, Hu. subst j u.
    simpl in Hs.
    exists ((t ++ String (to_upper c) "") :: r :: l). split; [|split; [|split]].
    + simpl. split; [|split].
      * apply ud_uniform; [destruct t; discriminate|]. rewrite str_all_app, Hud. simpl.
        now rewrite to_upper_ud.
      * now apply lower_uniform.
      * exact Ha.
    + cbn [map fold_right]. rewrite <- Hf. unfold capitalize. cbn [w_init w_text]. rewrite title_word; auto.
      * rewrite sapp_assoc. reflexivity.
      * apply orb_true_iff in Hc as [Hc|Hc]; rewrite Hc; simpl; auto.
        now rewrite !orb_true_r.
    + intros k. rewrite process_pair.
      destruct (Nat.eqb_spec (String.length (t ++ String (to_upper c) "")) 1) as [E|E].
      { rewrite sapp_length in E. simpl in E. lia. }
      cbn [andb]. rewrite is_upper_str_ud, str_all_app, Hud. cbn [str_all].
      rewrite to_upper_ud by exact Hc. cbn [andb].
      destruct (String.eqb_spec r "s") as [->|Er]; [now destruct (Hs c)|].
      rewrite andb_false_r. unfold is_lower_str. rewrite Hl. cbn [andb].
      rewrite all_but_last_snoc, last_of_snoc.
      unfold str_lower. cbn [str_map append]. rewrite to_lower_upper_ld by exact Hc.
      rewrite Hp. reflexivity.
    + discriminate.
Qed.

Lemma camel_new_name ws : camel (new_name ws) = fold_right append "" (map capitalize ws).
Proof. unfold camel, capitalized_joined. apply str_join_empty_sep. Qed.

Lemma process_single t l : length l <= 1 -> l <> [] -> fold_right append "" l = t ->
  process_chunks t l = [parse_word t].
Proof.
  destruct l as [|x [|y l]]; simpl; intros H1 H2 H3; try congruence; try lia.
  rewrite sapp_nil_r in H3. now subst.
Qed.

Lemma parse_using_case_process t :
  n_words (parse_using_case t) = process_chunks t (chunks_of t).
Proof.
  unfold parse_using_case. cbn [n_words].
  destruct (Nat.ltb_spec 1 (length (chunks_of t))) as [H|H]; [reflexivity|].
  symmetry. destruct t as [|c t]; [reflexivity|].
  destruct (chunks_of_sound c t) as (Hn & _ & Hf). now apply process_single.
Qed.

Lemma parse_camel ws :
  ws <> [] -> camel_words ws ->
  n_words (parse_using_case (camel (new_name ws))) = ws.
Proof.
  intros Hn Hw. destruct (camel_words_chunks ws Hw) as (l & Ha & Hf & Hp & Hl).
  rewrite parse_using_case_process, camel_new_name, <- Hf.
  rewrite (chunks_of_complete false) by auto. apply Hp.
Qed.

(** * Rendering what was parsed *)

Lemma ud_to_lower_alnum c :
  upper_or_digit c = true -> is_lower (to_lower c) || is_upper (to_lower c) || is_digit (to_lower c) = true.
Proof.
  unfold upper_or_digit. rewrite orb_true_iff. intros [H|H].
  - now rewrite to_lower_is_lower.
  - rewrite to_lower_id by now apply digit_not_upper. now rewrite H, orb_true_r.
Qed.

Lemma to_upper_lower_ud c : upper_or_digit c = true -> to_upper (to_lower c) = c.
Proof.
  unfold upper_or_digit. rewrite orb_true_iff. intros [H|H].
  - now apply to_upper_lower.
  - rewrite to_lower_id by now apply digit_not_upper. apply to_upper_id.
    now apply digit_not_lower.
Qed.

Lemma capitalize_lower_word c r :
  upper_or_digit c = true -> str_all is_lower r = true ->
  capitalize (new_word (String (to_lower c) r)) = String c r.
Proof.
  intros Hc Hr. unfold capitalize, new_word. cbn [w_init w_text].
  rewrite title_word; auto.
  - now rewrite to_upper_lower_ud.
  - now apply ud_to_lower_alnum.
Qed.

Definition alnum (d : ascii) : bool := is_lower d || upper_or_digit d.

Lemma parse_word_ud s :
  s <> "" -> str_all upper_or_digit s = true -> capitalize (parse_word s) = s.
Proof.
  intros Hn Hs. unfold parse_word. rewrite is_upper_str_ud, Hs, andb_true_r.
  destruct (Nat.leb 2 (String.length s)) eqn:E; [reflexivity|].
  apply Nat.leb_gt in E. destruct s as [|c [|d s]]; [congruence| |simpl in E; lia].
  simpl in Hs. rewrite andb_true_r in Hs.
  apply (capitalize_lower_word c ""); auto.
Qed.

Lemma uniform_false_ud s :
  uniform false s -> str_all alnum s = true -> str_all upper_or_digit s = true.
Proof.
  intros [_ H]. induction s as [|c s IH]; simpl in *; [auto|].
  rewrite andb_true_iff in *. intros [Hc Hs]. destruct H as [Hf H].
  apply Bool.eqb_prop in Hf. apply andb_true_iff; split; [|auto]. unfold alnum in Hc. now rewrite Hf in Hc.
Qed.

Lemma process_camel t l :
  alternating false l -> str_all alnum (fold_right append "" l) = true ->
  fold_right append "" (map capitalize (process_chunks t l)) = fold_right append "" l.
Proof.
  remember (length l) as n eqn:Hn. assert (Hle : length l <= n) by lia. clear Hn.
  revert l Hle. induction n as [|n IH]; intros [|a [|b l]] Hle Ha Hs; simpl in Hle; try lia;
    try reflexivity.
  - cbn [process_chunks map fold_right]. destruct Ha as [Hua _].
    f_equal. apply parse_word_ud; [apply Hua|].
    apply uniform_false_ud; [exact Hua|]. simpl in Hs. now rewrite sapp_nil_r in Hs.
  - destruct Ha as [Hua [Hub Hl]]. cbn [fold_right] in Hs.
    rewrite !str_all_app, !andb_true_iff in Hs. destruct Hs as (Hsa & Hsb & Hsl).
    assert (IHl : fold_right append "" (map capitalize (process_chunks t l)) = fold_right append "" l).
    { apply IH; auto. lia. }
    assert (Ud := uniform_false_ud a Hua Hsa).
    assert (Lb : is_lower_str b = true) by now apply uniform_true_lower.
    rewrite process_pair, is_upper_str_ud, Ud, Lb, !andb_true_r.
    destruct (Nat.eqb_spec (String.length a) 1) as [E|E].
    + destruct a as [|c [|d a]]; simpl in E; try lia.
      simpl in Ud. rewrite andb_true_r in Ud.
      cbn [map fold_right]. rewrite IHl. unfold str_lower. cbn [str_map append].
      rewrite capitalize_lower_word by auto. reflexivity.
    + destruct Hua as [Hna _].
      assert (L2 : 2 <= String.length a).
      { destruct a as [|c [|d a]]; simpl in *; try congruence; lia. }
      replace (Nat.leb 2 (String.length a)) with true by (symmetry; now apply Nat.leb_le).
      cbn [andb]. destruct (String.eqb_spec b "s") as [->|Hb].
      * cbn [map fold_right]. rewrite IHl. unfold capitalize. cbn [w_init w_text new_initialism].
        now rewrite sapp_assoc.
      * destruct (snoc_cases a) as [->|(p & c & ->)]; [congruence|].
        rewrite all_but_last_snoc, last_of_snoc.
        rewrite str_all_app in Ud. apply andb_true_iff in Ud as [_ Uc].
        simpl in Uc. rewrite andb_true_r in Uc.
        cbn [map fold_right]. rewrite IHl. unfold str_lower. cbn [str_map append].
        rewrite capitalize_lower_word by auto.
        unfold capitalize at 1. cbn [w_init w_text new_initialism].
        now rewrite !sapp_assoc.
Qed.

Lemma camel_parse t : camel_identifier t -> camel (parse_using_case t) = t.
Proof.
  intros (c & r & -> & Hc & Hr).
  unfold camel, capitalized_joined. rewrite str_join_empty_sep, parse_using_case_process.
  destruct (chunks_of_sound c r) as (Hn & Ha & Hf).
  rewrite process_camel.
  - exact Hf.
  - now rewrite (ud_not_lower c Hc) in Ha.
  - rewrite Hf. simpl. unfold alnum at 1. rewrite Hc, orb_true_r. exact Hr.
Qed.

Lemma parse_injective t u :
  camel_identifier t -> camel_identifier u ->
  n_words (parse_using_case t) = n_words (parse_using_case u) -> t = u.
Proof.
  intros Ht Hu H. rewrite <- (camel_parse t Ht), <- (camel_parse u Hu).
  unfold camel, capitalized_joined. now rewrite H.
Qed.

(** * Concatenation *)

Lemma cat_words ns : n_words (cat ns) = flat_map n_words ns.
Proof. reflexivity. Qed.

Lemma cat_camel ns :
  camel (cat ns) = fold_right append "" (map camel ns).
Proof.
  unfold cat. rewrite camel_new_name.
  induction ns as [|n ns IH]; simpl; [reflexivity|].
  rewrite map_app, fold_append_app, IH. f_equal.
  unfold camel, capitalized_joined. now rewrite str_join_empty_sep.
Qed.

Lemma str_join_app sep l m : l <> [] -> m <> [] ->
  str_join sep (l ++ m)%list = str_join sep l ++ sep ++ str_join sep m.
Proof.
  intros Hl Hm. induction l as [|s l IH]; [congruence|].
  destruct l as [|u l].
  - simpl. destruct m; [congruence|reflexivity].
  - change (((s :: u :: l) ++ m)%list) with (s :: ((u :: l) ++ m)%list).
    rewrite !str_join_cons by (try discriminate; simpl; discriminate).
    rewrite IH by discriminate. now rewrite !sapp_assoc.
Qed.

Lemma str_join_flat sep (l : list (list string)) :
  Forall (fun x => x <> []) l ->
  str_join sep (concat l) = str_join sep (map (str_join sep) l).
Proof.
  induction l as [|x l IH]; intros H; [reflexivity|].
  inversion H as [|y z Hx Hl]; subst. simpl concat. simpl map.
  destruct l as [|y l].
  - simpl. now rewrite app_nil_r.
  - rewrite str_join_app; auto.
    + rewrite IH by exact Hl. rewrite str_join_cons by discriminate. reflexivity.
    + inversion Hl; subst. simpl. destruct y; [congruence|discriminate].
Qed.

Lemma concat_map_flat {A B} (f : A -> B) (g : name -> list A) ns :
  map f (flat_map g ns) = concat (map (fun n => map f (g n)) ns).
Proof.
  induction ns as [|n ns IH]; simpl; [reflexivity|]. now rewrite map_app, IH.
Qed.

Lemma cat_snake ns :
  Forall (fun n => n_words n <> []) ns ->
  snake (cat ns) = str_join "_" (map snake ns).
Proof.
  intros H. unfold snake, lower_joined. rewrite cat_words, concat_map_flat, str_join_flat.
  - now rewrite map_map.
  - rewrite Forall_map. eapply Forall_impl; [|exact H]. simpl. intros n Hn.
    destruct (n_words n); [congruence|discriminate].
Qed.

Lemma cat_assoc a b c :
  n_words (cat [cat [a; b]; c]) = n_words (cat [a; cat [b; c]]) /\
  n_words (cat [a; b; c]) = n_words (cat [a; cat [b; c]]).
Proof. simpl. rewrite !app_nil_r, !app_assoc. auto. Qed.

(** * Lookup keys *)

(** Rendering of a word calculated only from its text. *)
Definition render_text (t : string) : string :=
  match t with
  | EmptyString => ""
  | String c EmptyString => String (to_upper c) ""
  | String c (String d r) => if is_lower d then String (to_upper c) (String d r) else t
  end.

Definition plain_word (w : word) : Prop :=
  capitalize w = render_text (w_text w) /\ no_char "_" (w_text w) = true.

Lemma alnum_no_underscore s : str_all alnum s = true -> no_char "_" s = true.
Proof.
  apply str_all_impl. intros c Hc. apply (implb_elim (alnum c)); [|exact Hc].
  clear Hc. by_bytes c.
Qed.

Lemma ud_alnum s : str_all upper_or_digit s = true -> str_all alnum s = true.
Proof. apply str_all_impl. unfold alnum. intros c ->. apply orb_true_r. Qed.

Lemma low_alnum s : str_all is_lower s = true -> str_all alnum s = true.
Proof. apply str_all_impl. unfold alnum. intros c ->. reflexivity. Qed.

Lemma to_lower_alnum c : upper_or_digit c = true -> alnum (to_lower c) = true.
Proof.
  intros H. apply (implb_elim (upper_or_digit c)); [|exact H]. clear H. by_bytes c.
Qed.

Lemma plain_lower_word c r :
  upper_or_digit c = true -> str_all is_lower r = true ->
  plain_word (new_word (String (to_lower c) r)).
Proof.
  intros Hc Hr. split.
  - rewrite capitalize_lower_word by assumption. unfold new_word. cbn [w_text].
    destruct r as [|d r]; cbn [render_text].
    + now rewrite to_upper_lower_ud.
    + cbn [str_all] in Hr. apply andb_true_iff in Hr as [Hd _]. rewrite Hd.
      now rewrite to_upper_lower_ud.
  - apply alnum_no_underscore. cbn [new_word w_text str_all].
    now rewrite to_lower_alnum, low_alnum.
Qed.

Lemma plain_initialism s x :
  s <> "" -> str_all upper_or_digit s = true -> (x = "" \/ 2 <= String.length s /\ x = "s") ->
  plain_word (new_initialism (s ++ x)).
Proof.
  intros Hn Hs Hx. split.
  - unfold capitalize, new_initialism. cbn [w_init w_text].
    destruct s as [|c [|d s]]; [congruence| |].
    + destruct Hx as [->|[Hx _]]; [|simpl in Hx; lia]. cbn [append render_text].
      cbn [str_all] in Hs. rewrite andb_true_r in Hs.
      now rewrite to_upper_id by now apply ud_not_lower.
    + cbn [append render_text str_all] in *. rewrite !andb_true_iff in Hs.
      destruct Hs as (_ & Hd & _). now rewrite (ud_not_lower d Hd).
  - apply alnum_no_underscore. cbn [new_initialism w_text]. rewrite str_all_app, ud_alnum by auto.
    destruct Hx as [->|[_ ->]]; reflexivity.
Qed.

Lemma plain_parse_word s :
  s <> "" -> str_all upper_or_digit s = true -> plain_word (parse_word s).
Proof.
  intros Hn Hs. unfold parse_word. rewrite is_upper_str_ud, Hs, andb_true_r.
  destruct (Nat.leb 2 (String.length s)) eqn:E.
  - rewrite <- (sapp_nil_r s). apply plain_initialism; auto.
  - apply Nat.leb_gt in E. destruct s as [|c [|d s]]; [congruence| |simpl in E; lia].
    simpl in Hs. rewrite andb_true_r in Hs. apply (plain_lower_word c ""); auto.
Qed.

Lemma process_plain t l :
  alternating false l -> str_all alnum (fold_right append "" l) = true ->
  Forall plain_word (process_chunks t l).
Proof.
  remember (length l) as n eqn:Hn. assert (Hle : length l <= n) by lia. clear Hn.
  revert l Hle. induction n as [|n IH]; intros [|a [|b l]] Hle Ha Hs; simpl in Hle; try lia;
    try constructor.
  - destruct Ha as [Hua _]. apply plain_parse_word; [apply Hua|].
    apply uniform_false_ud; [exact Hua|]. simpl in Hs. now rewrite sapp_nil_r in Hs.
  - constructor.
  - destruct Ha as [Hua [Hub Hl]]. cbn [fold_right] in Hs.
    rewrite !str_all_app, !andb_true_iff in Hs. destruct Hs as (Hsa & Hsb & Hsl).
    assert (IHl : Forall plain_word (process_chunks t l)).
    { apply IH; auto. lia. }
    assert (Ud := uniform_false_ud a Hua Hsa).
    assert (Lb : is_lower_str b = true) by now apply uniform_true_lower.
    rewrite process_pair, is_upper_str_ud, Ud, Lb, !andb_true_r.
    destruct (Nat.eqb_spec (String.length a) 1) as [E|E].
    + destruct a as [|c [|d a]]; simpl in E; try lia.
      simpl in Ud. rewrite andb_true_r in Ud. constructor; [|exact IHl].
      apply plain_lower_word; auto.
    + destruct Hua as [Hna _].
      assert (L2 : 2 <= String.length a).
      { destruct a as [|c [|d a]]; simpl in *; try congruence; lia. }
      replace (Nat.leb 2 (String.length a)) with true by (symmetry; now apply Nat.leb_le).
      cbn [andb]. destruct (String.eqb_spec b "s") as [->|Hb].
      * constructor; [|exact IHl]. apply plain_initialism; auto.
      * destruct (snoc_cases a) as [->|(p & c & ->)]; [congruence|].
        rewrite all_but_last_snoc, last_of_snoc.
        rewrite str_all_app in Ud. apply andb_true_iff in Ud as [Up Uc].
        simpl in Uc. rewrite andb_true_r in Uc.
        rewrite sapp_length in L2. simpl in L2.
        constructor; [|constructor; [|exact IHl]].
        -- rewrite <- (sapp_nil_r p). apply plain_initialism; auto.
           intros ->. simpl in L2. lia.
        -- apply plain_lower_word; auto.
Qed.

Lemma parse_plain t : camel_identifier t -> Forall plain_word (n_words (parse_using_case t)).
Proof.
  intros (c & r & -> & Hc & Hr). rewrite parse_using_case_process.
  destruct (chunks_of_sound c r) as (Hn & Ha & Hf).
  apply process_plain.
  - now rewrite (ud_not_lower c Hc) in Ha.
  - rewrite Hf. simpl. unfold alnum at 1. rewrite Hc, orb_true_r. exact Hr.
Qed.

Lemma plain_camel ws :
  Forall plain_word ws -> map capitalize ws = map render_text (map w_text ws).
Proof.
  induction ws as [|w ws IH]; intros H; inversion H as [|x y [Hw _] Hl]; subst; simpl; [reflexivity|].
  now rewrite Hw, IH.
Qed.

Lemma parse_not_nil t : camel_identifier t -> n_words (parse_using_case t) <> [].
Proof.
  intros Ht E. assert (H := camel_parse t Ht). unfold camel, capitalized_joined in H.
  rewrite E in H. simpl in H. destruct Ht as (c & r & -> & _). discriminate.
Qed.

Lemma parse_texts_split t :
  camel_identifier t -> str_split "_" (name_string (parse_using_case t)) = texts (parse_using_case t).
Proof.
  intros Ht. unfold name_string, texts. apply join_split.
  - rewrite Forall_map. eapply Forall_impl; [|apply (parse_plain t Ht)]. intros w [_ H]. exact H.
  - intros E. apply map_eq_nil in E. now destruct (parse_not_nil t Ht).
Qed.

Lemma lookup_key_injective t u :
  camel_identifier t -> camel_identifier u ->
  name_string (parse_using_case t) = name_string (parse_using_case u) -> t = u.
Proof.
  intros Ht Hu H. rewrite <- (camel_parse t Ht), <- (camel_parse u Hu).
  unfold camel, capitalized_joined.
  rewrite (plain_camel _ (parse_plain t Ht)), (plain_camel _ (parse_plain u Hu)).
  change (map w_text (n_words (parse_using_case t))) with (texts (parse_using_case t)).
  change (map w_text (n_words (parse_using_case u))) with (texts (parse_using_case u)).
  rewrite <- (parse_texts_split t Ht), <- (parse_texts_split u Hu), H. reflexivity.
Qed.

Lemma compare_identifiers t u :
  camel_identifier t -> camel_identifier u ->
  name_compare (parse_using_case t) (parse_using_case u) = 0%Z -> t = u.
Proof.
  intros Ht Hu H. apply name_compare_lex in H. apply lookup_key_injective; auto.
  unfold name_string. unfold texts in H. now rewrite H.
Qed.

(** * Statements in the vocabulary of the specification *)

Lemma free_of_no_char c s : free_of c s <-> no_char c s = true.
Proof.
  unfold free_of, no_char. induction s as [|d s IH]; simpl.
  - tauto.
  - rewrite andb_true_iff, negb_true_iff, <- IH, Ascii.eqb_neq. split.
    + intros H. split; [|tauto]. intros ->. tauto.
    + intros [H1 H2] [H|H]; [congruence|tauto].
Qed.

Lemma separator_split_join_spec ws :
  ws <> [] ->
  Forall (fun w => w_init w = false /\ free_of "_" (w_text w)) ws ->
  n_words (parse_using_separator (name_string (new_name ws)) "_") = ws.
Proof.
  intros Hn H. apply separator_split_join; [exact Hn|].
  eapply Forall_impl; [|exact H]. simpl. intros w. rewrite free_of_no_char. tauto.
Qed.

Lemma separator_words_spec t sep :
  Forall (fun w => w_init w = false /\ free_of sep (w_text w))
    (n_words (parse_using_separator t sep)).
Proof.
  eapply Forall_impl; [|apply (separator_words_clean t sep)].
  simpl. intros w. rewrite free_of_no_char. tauto.
Qed.

Lemma separator_any_join t sep :
  str_join (String sep "") (texts (parse_using_separator t sep)) = t.
Proof. rewrite texts_parse_using_separator. apply split_join. Qed.

Lemma separator_key_injective t u :
  name_string (parse_using_separator t "_") = name_string (parse_using_separator u "_") -> t = u.
Proof. now rewrite !separator_join_split. Qed.

Lemma cat_unit a :
  n_words (cat []) = [] /\ n_words (cat [a; cat []]) = n_words a /\
  n_words (cat [cat []; a]) = n_words a.
Proof. simpl. rewrite !app_nil_r. auto. Qed.

Lemma append_insert_words n ws :
  texts (name_append n ws) = (texts n ++ map w_text ws)%list /\
  texts (name_insert n ws) = (map w_text ws ++ texts n)%list /\
  camel (name_append n ws) = camel n ++ camel (new_name ws) /\
  camel (name_insert n ws) = camel (new_name ws) ++ camel n.
Proof.
  unfold texts, name_append, name_insert. cbn [n_words new_name]. rewrite !map_app.
  repeat split; unfold camel, capitalized_joined; rewrite !str_join_empty_sep;
    cbn [n_words new_name]; now rewrite map_app, fold_append_app.
Qed.

Lemma name_compare_opp a b : name_compare a b = (- name_compare b a)%Z.
Proof. apply wcompare_opp. Qed.
