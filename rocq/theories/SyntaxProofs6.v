(** Proofs about the lexer. *)
From Coq Require Import Ascii String Bool Arith ZArith NArith Lia List.
From Verif Require Import GoStrings GoStringsProofs TextModel TextSpec TextProofs ReaderModel SyntaxModel SyntaxSpec SyntaxProofs2 SyntaxProofs5.
Import ListNotations.
Local Open Scope string_scope.

(** The first character of a text decides the rule. *)
Definition sort (c : ascii) : nat :=
  if is_name_start c then 0 else if is_number_char c then 1 else if is_blank_char c then 2
  else if existsb (Ascii.eqb c) punctuation then 3 else if Ascii.eqb c quote_char || Ascii.eqb c back_quote then 4
  else if Ascii.eqb c slash then 5 else 6.
Definition rule_sort (r : rule) : nat :=
  match r with WordRule _ | NameRule => 0 | NumberRule => 1 | SpaceRule => 2 | MarkRule _ => 3 | StringRule => 4 | LineRule | BlockRule => 5 end.
Lemma sort_number c : is_number_char c = true -> sort c = 1.
Proof. destruct c as [[|] [|] [|] [|] [|] [|] [|] [|]]; vm_compute; try discriminate; reflexivity. Qed.
Lemma sort_blank c : is_blank_char c = true -> sort c = 2.
Proof. destruct c as [[|] [|] [|] [|] [|] [|] [|] [|]]; vm_compute; try discriminate; reflexivity. Qed.
Lemma sort_mark c : existsb (Ascii.eqb c) punctuation = true -> sort c = 3.
Proof. destruct c as [[|] [|] [|] [|] [|] [|] [|] [|]]; vm_compute; try discriminate; reflexivity. Qed.
Ltac sort_by := unfold sort; repeat match goal with |- (if ?b then _ else _) = _ -> _ => destruct b end; try discriminate; auto.
Lemma sort_0 c : sort c = 0 -> is_name_start c = true.
Proof. sort_by. Qed.
Lemma sort_1 c : sort c = 1 -> is_name_start c = false /\ is_number_char c = true.
Proof. sort_by. Qed.
Lemma sort_2 c : sort c = 2 -> is_name_start c = false /\ is_number_char c = false /\ is_blank_char c = true.
Proof. sort_by. Qed.
Lemma sort_3 c : sort c = 3 -> is_name_start c = false /\ is_number_char c = false /\ is_blank_char c = false /\ existsb (Ascii.eqb c) punctuation = true.
Proof. sort_by. Qed.
Lemma sort_4 c : sort c = 4 -> is_name_start c = false /\ is_number_char c = false /\ is_blank_char c = false /\ existsb (Ascii.eqb c) punctuation = false /\ Ascii.eqb c quote_char || Ascii.eqb c back_quote = true.
Proof. sort_by. Qed.
Lemma matches_first r s : matches r s -> exists c x, s = String c x /\ sort c = rule_sort r.
Proof.
  destruct r as [w|c| | | | | |]; cbn [matches rule_sort].
  - intros (I & ->). repeat (destruct I as [<-|I]; [do 2 eexists; split; reflexivity|]). destruct I.
  - intros (M & ->). apply mark_iff in M. exists c, "". split; [reflexivity|now apply sort_mark].
  - intros (N & E). destruct s as [|c s]; [easy|]. apply every_cons in E as (E & _). apply number_iff in E. exists c, s. split; [reflexivity|now apply sort_number].
  - intros (q & a & [->| ->] & -> & _); do 2 eexists; split; reflexivity.
  - intros (c & a & -> & L & _). apply letter_iff in L. exists c, a. split; [reflexivity|]. unfold sort. now rewrite L.
  - intros (a & -> & _). do 2 eexists; split; reflexivity.
  - intros (a & -> & _). do 2 eexists; split; reflexivity.
  - intros (N & E). destruct s as [|c s]; [easy|]. apply every_cons in E as (E & _). apply blank_char_iff in E. exists c, s. split; [reflexivity|now apply sort_blank].
Qed.
Lemma words_keywords : words = keywords. Proof. reflexivity. Qed.
Lemma word_iff a : existsb (String.eqb a) keywords = true <-> In a words.
Proof.
  rewrite words_keywords, existsb_exists. split.
  - intros (x & I & E). apply String.eqb_eq in E as ->. exact I.
  - intros I. exists a. split; [exact I|apply String.eqb_refl].
Qed.
Lemma word_name a : In a words -> matches NameRule a.
Proof.
  intros I. assert (str_all is_name_char a = true) as A by (cbn in I; repeat (destruct I as [<-|I]; [reflexivity|]); destruct I).
  assert (exists c x, a = String c x /\ is_name_start c = true) as (c & x & -> & F) by (cbn in I; repeat (destruct I as [<-|I]; [do 2 eexists; split; reflexivity|]); destruct I).
  exists c, x. split; [reflexivity|]. split; [now apply letter_iff|]. intros d O. apply name_char_iff. apply (proj1 (occurs_all _ _) A). apply occurs_cons. now right.
Qed.
Lemma name_chars r a : rule_sort r = 0 -> matches r a -> every (fun c => is_name_char c = true) a.
Proof.
  intros R M. assert (matches NameRule a) as (c & x & -> & L & E).
  { destruct r; try discriminate; [|exact M]. destruct M as (I & ->). now apply word_name. }
  apply every_cons. split; [apply name_char_iff; now left|]. intros d O. apply name_char_iff. now apply E.
Qed.

(** What the step of the lexer produces for each rule. *)
Inductive kind : rule -> string -> lexeme -> Prop :=
| kind_token r a t : yields r a t -> (r = NameRule -> ~ In a words) -> kind r a (LToken t)
| kind_comment a : kind LineRule a LComment
| kind_block a : kind BlockRule a LSkip
| kind_space a : kind SpaceRule a LSkip.

Definition rule_stops (r : rule) (s : string) : Prop :=
  match r with
  | WordRule _ | NameRule => stops is_name_char s
  | NumberRule => stops is_number_char s
  | SpaceRule => stops is_blank_char s
  | LineRule => stops is_comment_char s
  | _ => True
  end.

Lemma until_char_first q a b : ends_at_first (String q "") a -> until_char q (a ++ b) = Some (a, b).
Proof.
  intros ((x & ->) & F). rewrite sapp_assoc. cbn [append]. apply until_char_complete. intros (u & v & ->).
  specialize (F u (v ++ String q "")). rewrite sapp_assoc in F. specialize (F eq_refl). destruct v; discriminate.
Qed.
Lemma until_close_first a b : ends_at_first "*/" a -> until_close (a ++ b) = Some (a, b).
Proof.
  intros E. destruct (until_close (a ++ b)) as [(x, y)|] eqn:U.
  - apply until_close_ends in U as (S & X). pose proof (ends_once _ _ _ _ _ E X S) as ->. apply sapp_inv_head in S as ->. reflexivity.
  - destruct E as ((z & ->) & _). exfalso. apply (until_close_none _ U z b). now rewrite sapp_assoc.
Qed.
Lemma comment_chars a : ~ occurs cr a /\ ~ occurs lf a <-> every (fun c => is_comment_char c = true) a.
Proof.
  unfold every. setoid_rewrite comment_char_iff. split.
  - intros (A & B) c O. split; intros ->; tauto.
  - intros H. split; intros O; now destruct (H _ O).
Qed.

Lemma lex_one_of r a b : matches r a -> rule_stops r b -> (r = NameRule -> ~ In a words) -> exists k, kind r a k /\ lex_one (a ++ b) = Some (k, a, b).
Proof.
  intros M S W. destruct (matches_first r a M) as (c & x & E & T).
  pose proof (span_complete is_name_char a b) as S0. pose proof (span_complete is_number_char a b) as S1. pose proof (span_complete is_blank_char a b) as S2.
  destruct r as [w|m| | | | | |]; cbn [matches rule_sort rule_stops] in *.
  - destruct M as (I & ->). exists (LToken (TKeyword w)). split; [constructor; [constructor|discriminate]|].
    specialize (S0 (name_chars (WordRule w) w eq_refl (conj I eq_refl)) S). apply sort_0 in T. rewrite E in *. cbn [append lex_one] in *.
    rewrite T, S0. now rewrite (proj2 (word_iff _) I).
  - destruct M as (I & ->). exists (LToken (TPunct m)). split; [constructor; [constructor|discriminate]|]. injection E as <- _. cbn [append lex_one].
    apply sort_3 in T as (-> & -> & -> & ->). reflexivity.
  - destruct M as (N & A). exists (LToken (TInt a)). split; [constructor; [constructor|discriminate]|].
    rewrite (every_iff _ _ _ number_iff) in A. specialize (S1 A S). rewrite E in *. cbn [append lex_one] in *.
    apply sort_1 in T as (-> & ->). now rewrite S1.
  - destruct M as (q & y & Q & -> & F). injection E as <- <-. exists (LToken (TString (String q y))). split; [constructor; [constructor|discriminate]|].
    cbn [append lex_one]. apply sort_4 in T as (-> & -> & -> & -> & ->). now rewrite until_char_first.
  - assert (MN : matches NameRule a) by exact M. exists (LToken (TIdent a)). split; [constructor; [constructor|exact W]|]. specialize (S0 (name_chars NameRule a eq_refl MN) S).
    apply sort_0 in T. rewrite E in *. cbn [append lex_one] in *.
    rewrite T, S0. destruct (existsb (String.eqb (String c x)) keywords) eqn:K; [|reflexivity]. apply word_iff in K. now destruct W.
  - destruct M as (y & -> & N). exists LComment. split; [constructor|]. apply comment_chars in N. cbn [append]. cbn. now rewrite (span_complete is_comment_char y b N S).
  - destruct M as (y & -> & F). exists LSkip. split; [constructor|]. cbn. now rewrite until_close_first.
  - destruct M as (N & A). exists LSkip. split; [constructor|].
    rewrite (every_iff _ _ _ blank_char_iff) in A. specialize (S2 A S). rewrite E in *. cbn [append lex_one] in *.
    apply sort_2 in T as (-> & -> & ->). now rewrite S2.
Qed.

(** If some rule matches then the lexer takes something. *)
Lemma lex_one_some r a b : matches r a -> lex_one (a ++ b) <> None.
Proof.
  intros M. destruct (matches_first r a M) as (c & x & E & T). unfold sort in T. subst a. cbn [append lex_one].
  destruct (is_name_start c); [destruct (span _ _); discriminate|]. destruct (is_number_char c); [destruct (span _ _); discriminate|]. destruct (is_blank_char c); [destruct (span _ _); discriminate|].
  destruct (existsb _ punctuation); [discriminate|]. destruct (_ || _).
  - destruct r; try discriminate. destruct M as (q & y & Q & E & F). injection E as <- <-. now rewrite until_char_first.
  - destruct (Ascii.eqb c slash); [|destruct r; discriminate]. destruct r; try discriminate.
    + destruct M as (y & E & _). cbn in E. injection E as -> ->. cbn. now destruct (span _ _).
    + destruct M as (y & E & F). cbn in E. injection E as -> ->. cbn. now rewrite until_close_first.
Qed.

(** What the lexer takes is the longest. *)
Lemma longest r a b : matches r a -> rule_stops r b -> forall r' a' b', a ++ b = a' ++ b' -> matches r' a' -> String.length a' <= String.length a.
Proof.
  intros M S r' a' b' E M'. destruct (matches_first r a M) as (c & x & A & T). destruct (matches_first r' a' M') as (c' & x' & A' & T').
  assert (c = c') as <- by (rewrite A, A' in E; now injection E). rewrite T in T'.
  destruct r as [w|m| | | | | |]; destruct r' as [w'|m'| | | | | |]; try discriminate T'; cbn [rule_stops] in S.
  - refine (span_longest _ _ _ _ _ (name_chars (WordRule w') _ eq_refl M') S E).
  - refine (span_longest _ _ _ _ _ (name_chars NameRule _ eq_refl M') S E).
  - destruct M as (_ & ->), M' as (_ & ->). reflexivity.
  - destruct M' as (_ & M'). rewrite (every_iff _ _ _ number_iff) in M'. refine (span_longest _ _ _ _ _ M' S E).
  - destruct M as (q & y & _ & -> & F), M' as (q' & y' & _ & -> & F'). injection A as -> ->. injection A' as -> ->. cbn in E. injection E as E. now rewrite (ends_once _ _ _ _ _ F F' E).
  - refine (span_longest _ _ _ _ _ (name_chars (WordRule w') _ eq_refl M') S E).
  - refine (span_longest _ _ _ _ _ (name_chars NameRule _ eq_refl M') S E).
  - destruct M as (y & -> & N), M' as (y' & -> & N'). apply comment_chars in N'. cbn in E. injection E as E. cbn. do 2 apply le_n_S. refine (span_longest _ _ _ _ _ N' S E).
  - destruct M as (y & -> & N), M' as (y' & -> & N'). discriminate.
  - destruct M as (y & -> & N), M' as (y' & -> & N'). discriminate.
  - destruct M as (y & -> & F), M' as (y' & -> & F'). cbn in E. injection E as E. now rewrite (ends_once _ _ _ _ _ F F' E).
  - destruct M' as (_ & M'). rewrite (every_iff _ _ _ blank_char_iff) in M'. refine (span_longest _ _ _ _ _ M' S E).
Qed.

(** What is taken can't be extended. *)
Lemma takes_stops s r a b : takes s r a b -> rule_stops r b.
Proof.
  intros (-> & M & L & W).
  assert (X : forall r' c y, b = String c y -> matches r' (a ++ String c "") -> False).
  { intros r' c y -> M'. specialize (L r' (a ++ String c "") y). rewrite sapp_assoc in L. specialize (L eq_refl M'). rewrite sapp_length in L. cbn in L. lia. }
  destruct b as [|c y]; [destruct r; exact I|]. specialize (X NameRule c y eq_refl) as XN.
  assert (N : matches NameRule a -> is_name_char c = false).
  { intros MN. destruct (is_name_char c) eqn:C; [|reflexivity]. destruct XN. destruct MN as (d & z & -> & D & Z). exists d, (z ++ String c ""). split; [reflexivity|]. split; [assumption|].
    apply every_app. split; [assumption|]. apply every_cons. split; [now apply name_char_iff|apply every_nil]. }
  destruct r as [w|m| | | | | |]; cbn [rule_stops stops]; try exact I.
  - apply N. destruct M as (I & ->). now apply word_name.
  - destruct (is_number_char c) eqn:C; [|reflexivity]. destruct (X NumberRule c y eq_refl). destruct M as (Z & M). split; [now destruct a|].
    apply every_app. split; [assumption|]. apply every_cons. split; [now apply number_iff|apply every_nil].
  - now apply N.
  - destruct (is_comment_char c) eqn:C; [|reflexivity]. destruct (X LineRule c y eq_refl). destruct M as (z & -> & Z). exists (z ++ String c ""). split; [reflexivity|].
    apply comment_chars. apply comment_chars in Z. apply every_app. split; [assumption|]. apply every_cons. split; [assumption|apply every_nil].
  - destruct (is_blank_char c) eqn:C; [|reflexivity]. destruct (X SpaceRule c y eq_refl). destruct M as (Z & M). split; [now destruct a|].
    apply every_app. split; [assumption|]. apply every_cons. split; [now apply blank_char_iff|apply every_nil].
Qed.
Lemma stops_takes r a b : matches r a -> rule_stops r b -> (r = NameRule -> ~ In a words) -> takes (a ++ b) r a b.
Proof. intros M S W. split; [reflexivity|]. split; [assumption|]. split; [|assumption]. now apply (longest r). Qed.

Lemma lex_one_complete s r a b : takes s r a b -> exists k, kind r a k /\ lex_one s = Some (k, a, b).
Proof. intros T. pose proof (takes_stops _ _ _ _ T) as S. destruct T as (-> & M & _ & W). now apply lex_one_of. Qed.
Lemma lex_one_sound s k a b : lex_one s = Some (k, a, b) -> exists r, takes s r a b /\ kind r a k.
Proof.
  assert (GO : forall r, s = a ++ b -> matches r a -> rule_stops r b -> (r = NameRule -> ~ In a words) -> lex_one s = Some (k, a, b) -> exists r, takes s r a b /\ kind r a k).
  { intros r -> M S W E. destruct (lex_one_of r a b M S W) as (k' & K & E'). rewrite E in E'. injection E' as <-. exists r. split; [now apply stops_takes|assumption]. }
  intros H. pose proof H as H0. destruct s as [|c x]; [discriminate|]. cbn [lex_one] in H. destruct (is_name_start c) eqn:C0.
  { destruct (span is_name_char (String c x)) as (u, v) eqn:SP. injection H as <- <- <-. apply span_sound in SP as (E & A & B).
    assert (M : matches NameRule u).
    { destruct u as [|d u]; [exfalso; cbn in E; subst v; cbn in B; unfold is_name_char in B; rewrite C0 in B; discriminate|]. injection E as <- ->. apply every_cons in A as (_ & A). exists c, u. split; [reflexivity|].
      split; [now apply letter_iff|]. intros d O. apply name_char_iff. now apply A. }
    destruct (existsb (String.eqb u) keywords) eqn:K.
    - apply word_iff in K. now apply (GO (WordRule u)).
    - apply (GO NameRule); try assumption. intros _ I. apply word_iff in I. congruence. }
  destruct (is_number_char c) eqn:C1.
  { destruct (span is_number_char (String c x)) as (u, v) eqn:SP. injection H as <- <- <-. apply span_sound in SP as (E & A & B).
    apply (GO NumberRule); try assumption; [|discriminate]. split; [|now rewrite (every_iff _ _ _ number_iff)]. intros ->. cbn in E. subst v. cbn [stops] in B. congruence. }
  destruct (is_blank_char c) eqn:C2.
  { destruct (span is_blank_char (String c x)) as (u, v) eqn:SP. injection H as <- <- <-. apply span_sound in SP as (E & A & B).
    apply (GO SpaceRule); try assumption; [|discriminate]. split; [|now rewrite (every_iff _ _ _ blank_char_iff)]. intros ->. cbn in E. subst v. cbn [stops] in B. congruence. }
  destruct (existsb (Ascii.eqb c) punctuation) eqn:C3.
  { injection H as <- <- <-. apply (GO (MarkRule c)); try exact I; try discriminate; try reflexivity; [|assumption]. split; [now apply mark_iff|reflexivity]. }
  destruct (Ascii.eqb c quote_char || Ascii.eqb c back_quote) eqn:C4.
  { destruct (until_char c x) as [(u, v)|] eqn:U; [|discriminate]. injection H as <- <- <-. apply until_char_ends in U as (-> & F). apply (GO StringRule); try exact I; try discriminate; try reflexivity; [|assumption].
    exists c, u. split; [|now split]. apply orb_true_iff in C4 as [C4|C4]; apply Ascii.eqb_eq in C4; auto. }
  destruct (Ascii.eqb_spec c slash) as [->|]; [|discriminate]. destruct x as [|d x]; [discriminate|].
  destruct (Ascii.eqb_spec d slash) as [->|].
  { destruct (span is_comment_char x) as (u, v) eqn:SP. injection H as <- <- <-. apply span_sound in SP as (-> & A & B).
    apply (GO LineRule); try assumption; try discriminate; try reflexivity. exists u. split; [reflexivity|]. now apply comment_chars. }
  destruct (Ascii.eqb_spec d star_char) as [->|]; [|discriminate].
  destruct (until_close x) as [(u, v)|] eqn:U; [|discriminate]. injection H as <- <- <-. apply until_close_ends in U as (-> & F). apply (GO BlockRule); try exact I; try discriminate; try reflexivity; [|assumption].
  exists u. now split.
Qed.
Lemma lex_one_none s : s <> "" -> (lex_one s = None <-> stuck s).
Proof.
  intros N. split.
  - intros H. split; [assumption|]. intros r a b -> M. exact (lex_one_some r a b M H).
  - intros (_ & S). destruct (lex_one s) as [((k, a), b)|] eqn:E; [|reflexivity]. apply lex_one_sound in E as (r & (-> & M & _) & _). now destruct (S r a b eq_refl).
Qed.
