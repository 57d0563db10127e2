(** Proofs about the functions that process text. *)
From Coq Require Import Ascii String Bool Arith ZArith NArith Lia List.
From Verif Require Import GoStrings GoStringsProofs ReporterModel TextModel TextSpec TextProofs TextProofs2.
Import ListNotations.
Local Open Scope string_scope.

(** * Blank lines *)

Lemma without_cr_drop s : without_cr s (drop_cr s).
Proof.
  unfold without_cr, drop_cr. destruct (has_suffix s (String cr "")) eqn:E.
  - apply suffix_spec in E. destruct E as (a & ->). left. rewrite sapp_length. cbn [String.length].
    replace (String.length a + 1 - 1) with (String.length a) by lia. now rewrite str_take_app_length.
  - right. split; [reflexivity|]. intros a ->. assert (H : has_suffix (a ++ String cr "") (String cr "") = true) by (apply suffix_spec; eauto). congruence.
Qed.

Lemma without_cr_unique s r : without_cr s r -> r = drop_cr s.
Proof.
  intros [H|[-> H]]; destruct (without_cr_drop s) as [E|[E N]].
  - rewrite H in E at 1. apply (f_equal (fun x => str_take (String.length x - 1) x)) in E. rewrite !sapp_length in E. cbn [String.length] in E.
    replace (String.length r + 1 - 1) with (String.length r) in E by lia.
    replace (String.length (drop_cr s) + 1 - 1) with (String.length (drop_cr s)) in E by lia. now rewrite !str_take_app_length in E.
  - now contradiction (N r).
  - now contradiction (H _ E).
  - now symmetry.
Qed.

Lemma without_cr_map l r : Forall2 without_cr l r -> r = map drop_cr l.
Proof. induction 1; [reflexivity|]. cbn. f_equal; [now apply without_cr_unique|assumption]. Qed.

Lemma forall_map_drop (P : string -> Prop) l : (forall s, P s -> P (drop_cr s)) -> Forall P l -> Forall P (map drop_cr l).
Proof. intros H F. induction F; constructor; auto. Qed.

Lemma blank_lines_removed code l l' : text_lines code l -> Forall short l -> Forall2 without_cr l l' ->
  exists r, remove_extra_blank_lines code = Some (terminated r) /\ Forall is_line r /\ tidied l' r.
Proof.
  intros T S W. apply without_cr_map in W. subst l'. unfold remove_extra_blank_lines. rewrite (scan_text _ _ T S).
  exists (tidy (map drop_cr l)). rewrite println_terminated. split; [reflexivity|]. split; [|apply tidy_tidied].
  destruct T as [F _]. apply (forall_map_drop _ _ drop_cr_line) in F. rewrite Forall_forall in *. intros x Hx. apply F. now apply tidy_incl.
Qed.

Lemma long_lines_fail code l : text_lines code l -> (remove_extra_blank_lines code = None <-> ~ Forall short l).
Proof.
  intros T. split.
  - intros H S. unfold remove_extra_blank_lines in H. rewrite (scan_text _ _ T S) in H. discriminate.
  - intros H. destruct (scan_text_long _ _ T H) as (rest & R). unfold remove_extra_blank_lines. destruct (scan_lines code) as [a b]. cbn in R. now rewrite R.
Qed.

Lemma tidied_non_blank l r k : tidied l r -> non_blank (removelast l) k -> non_blank r k.
Proof. intros T. rewrite (tidied_unique _ _ T). apply tidy_non_blank. Qed.

Lemma tidied_no_double l r : tidied l r -> no_double_blanks r.
Proof. intros T. rewrite (tidied_unique _ _ T). apply good_no_double, tidy_good. Qed.

Lemma tidied_comments l r a x y b : tidied l r -> r = (a ++ x :: y :: b)%list -> blank x -> comment y.
Proof. intros T E B. rewrite (tidied_unique _ _ T) in E. eapply (proj1 (tidy_good l)); eauto. Qed.

Lemma tidied_again l r : tidied l r -> tidied r (removelast r).
Proof. intros T. rewrite (tidied_unique _ _ T). rewrite <- tidy_twice. apply tidy_tidied. Qed.

Lemma terminated_lines l : Forall is_line l -> text_lines (terminated l) l.
Proof. intros F. split; auto. Qed.

Lemma removed_twice code out r : plain_text code -> remove_extra_blank_lines code = Some out -> text_lines out r ->
  out = terminated r /\ remove_extra_blank_lines out = Some (terminated (removelast r)).
Proof.
  intros P R T. destruct (lines_exist code) as (l & L).
  assert (S : Forall short l).
  { destruct (Forall_dec short) with (l := l) as [S|S]; auto.
    - intros x. destruct (too_long x) eqn:E; [right|left; now apply short_not_long]. intros H. apply short_not_long in H. congruence.
    - exfalso. apply (long_lines_fail code l L) in S. congruence. }
  pose proof (plain_lines _ _ P L) as PL.
  unfold remove_extra_blank_lines in R. rewrite (scan_text _ _ L S), (drop_cr_map _ PL) in R. injection R as <-. fold (tidy l) in T |- *.
  rewrite println_terminated in *.
  assert (I : forall x, In x (tidy l) -> In x l) by (intros x; apply tidy_incl).
  assert (F : Forall is_line (tidy l)). { destruct L as [F _]. rewrite Forall_forall in *. auto. }
  assert (E : r = tidy l).
  { destruct T as [Fr [T|(r' & x & -> & N & T)]].
    - apply (f_equal (str_split lf)) in T. rewrite <- (sapp_nil_r (terminated (tidy l))), <- (sapp_nil_r (terminated r)) in T.
      rewrite !split_terminated in T by auto using is_line_nil. apply app_inj_tail in T. symmetry. apply T.
    - exfalso. apply (f_equal (str_split lf)) in T. rewrite <- (sapp_nil_r (terminated (tidy l))) in T. apply Forall_app in Fr. destruct Fr as [F1 F2].
      inversion_clear F2. rewrite !split_terminated in T by auto using is_line_nil. apply app_inj_tail in T. destruct T as [_ T]. congruence. }
  subst r. split; [reflexivity|]. unfold remove_extra_blank_lines.
  assert (Sh : Forall short (tidy l)). { rewrite Forall_forall in *. auto. }
  rewrite (scan_text _ _ T Sh). rewrite drop_cr_map by (rewrite Forall_forall in *; auto). fold (tidy (tidy l)). rewrite println_terminated, tidy_twice. reflexivity.
Qed.

(** Texts that end with blanks. *)
Lemma app_suffix_cases (x y a b : string) : (x ++ y = a ++ b)%string -> (exists z, b = (z ++ y)%string /\ x = (a ++ z)%string) \/ (exists z, y = (z ++ b)%string /\ a = (x ++ z)%string).
Proof.
  revert a. induction x as [|c x IH]; intros a E; cbn [append] in E.
  - right. exists a. auto.
  - destruct a as [|d a]; cbn [append] in E.
    + left. exists (String c x). auto.
    + injection E as -> E. destruct (IH a E) as [(z & -> & ->)|(z & -> & ->)]; [left|right]; exists z; auto.
Qed.

Lemma snoc_inj a b x y : (a ++ String x "" = b ++ String y "")%string -> a = b /\ x = y.
Proof.
  intros E. assert (L : String.length a = String.length b) by (apply (f_equal String.length) in E; rewrite !sapp_length in E; cbn in E; lia).
  destruct (sapp_inv_length _ _ _ _ L E) as [-> E']. injection E' as ->. auto.
Qed.

Lemma ends_blank_last s l : ends_blank s -> text_lines (s ++ newline) l -> l = [] \/ exists l' x, l = (l' ++ [x])%list /\ blank x.
Proof.
  intros E [F T]. destruct l as [|x l _] using rev_ind; [now left|right]. exists l, x. split; [reflexivity|].
  apply Forall_app in F. destruct F as [F Fx]. inversion_clear Fx.
  assert (T' : s = (terminated l ++ x)%string).
  { destruct T as [T|(l' & y & E' & N & T)].
    - rewrite terminated_app in T. change (terminated [x]) with (x ++ newline)%string in T. rewrite <- sapp_assoc in T.
      apply (f_equal (fun s => str_take (String.length s - 1) s)) in T. rewrite !(sapp_length _ newline) in T. cbn [String.length newline] in T.
      rewrite !Nat.add_sub in T. now rewrite !str_take_app_length in T.
    - exfalso. apply app_inj_tail in E'. destruct E' as [-> ->]. destruct (snoc_cases y) as [->|(y' & c & ->)]; [contradiction|].
      assert (c = lf).
      { rewrite <- sapp_assoc in T. change newline with (String lf "") in T. apply snoc_inj in T. symmetry. apply T. }
      subst c. apply H. apply occurs_app. right. apply occurs_cons. now left. }
  destruct E as [B|(a & b & E & B)].
  - rewrite T' in B. apply blank_all in B. rewrite str_all_app in B. apply andb_true_iff in B. now apply blank_all.
  - rewrite E in T'. change (String lf b) with (String lf "" ++ b)%string in T'. rewrite <- sapp_assoc in T'.
    destruct (app_suffix_cases _ _ _ _ T') as [(z & -> & Z)|(z & -> & _)].
    + destruct (snoc_cases z) as [->|(z' & c & ->)]; [exact B|]. exfalso. rewrite <- sapp_assoc in Z.
      apply snoc_inj in Z. destruct Z as [_ <-].
      apply H. rewrite !occurs_app. left. right. apply occurs_cons. now left.
    + apply blank_all in B. rewrite str_all_app in B. apply andb_true_iff in B. now apply blank_all.
Qed.

Lemma emitted_snoc l t : emitted (l ++ [t]) = (emitted l ++ t ++ newline)%string.
Proof.
  unfold emitted. induction l as [|x l IH]; [reflexivity|]. cbn [app map]. destruct l as [|y l]; [cbn; now rewrite sapp_assoc|].
  cbn [app map] in *. cbn [String.concat] in *. rewrite IH. cbn [append]. now rewrite !sapp_assoc.
Qed.

Lemma ends_blank_emitted l : Forall ends_blank l -> l = [] \/ exists s, emitted l = (s ++ newline)%string /\ ends_blank s.
Proof.
  intros F. destruct l as [|t l _] using rev_ind; [now left|right]. apply Forall_app in F. destruct F as [_ F]. inversion_clear F.
  exists (emitted l ++ t)%string. rewrite emitted_snoc, sapp_assoc. split; [reflexivity|].
  destruct H as [B|(a & b & -> & B)]; [|right; exists (emitted l ++ a)%string, b; rewrite sapp_assoc; auto].
  destruct l as [|u l _] using rev_ind; [left; exact B|]. right. exists (emitted l ++ u)%string, t. split; [|exact B].
  rewrite emitted_snoc, !sapp_assoc. reflexivity.
Qed.

Lemma non_blank_drop_cr l l' : Forall2 without_cr l l' -> forall k, non_blank l k -> exists k', non_blank l' k' /\ Forall2 without_cr k k'.
Proof.
  induction 1 as [|s r l l' W F IH]; intros k N; inversion N; subst; [exists []; split; constructor| |].
  - destruct (IH _ H3) as (k' & K & W'). exists k'. split; [|exact W']. apply nb_skip; [|exact K].
    rewrite (without_cr_unique _ _ W). now apply drop_cr_blank.
  - destruct (IH _ H3) as (k' & K & W'). exists (r :: k'). split; [|now constructor]. apply nb_keep; [|exact K].
    rewrite (without_cr_unique _ _ W). now rewrite drop_cr_blank.
Qed.

Lemma emitted_kept texts l l' k : Forall ends_blank texts -> text_lines (emitted texts) l -> Forall short l -> Forall2 without_cr l l' ->
  non_blank l' k -> exists r, remove_extra_blank_lines (emitted texts) = Some (terminated r) /\ non_blank r k.
Proof.
  intros E T S W N. destruct (blank_lines_removed _ _ _ T S W) as (r & R & _ & D). exists r. split; [exact R|].
  apply (tidied_non_blank _ _ _ D). destruct (ends_blank_emitted _ E) as [->|(s & Es & B)].
  - assert (l = []).
    { destruct T as [_ [T|(a & x & -> & Nx & T)]]; [destruct l as [|x l]; [reflexivity|]; rewrite terminated_cons in T; destruct x; discriminate T|].
      exfalso. change (emitted []) with "" in T. symmetry in T. apply sapp_eq_nil in T. now destruct T. }
    subst l. inversion W. subst l'. inversion N. constructor.
  - rewrite Es in T. destruct (ends_blank_last _ _ B T) as [->|(a & x & -> & Bx)]; [inversion W; subst l'; inversion N; constructor|].
    apply Forall2_app_inv_l in W. destruct W as (a' & b' & Wa & Wb & ->). inversion Wb as [|? x' ? q Wx Wq]; subst. inversion Wq; subst.
    rewrite removelast_last. destruct (non_blank_exists a') as (k1 & K1).
    assert (K2 : non_blank (a' ++ [x']) (k1 ++ [])). { apply non_blank_app; [exact K1|]. apply nb_skip; [|constructor]. rewrite (without_cr_unique _ _ Wx). now apply drop_cr_blank. }
    rewrite (non_blank_unique _ _ _ N K2), app_nil_r. exact K1.
Qed.

(** * Comments *)

Lemma comment_lines l : l <> [] -> Forall is_line l -> line_comment (str_join newline l) = str_join newline (map (fun s => ("// " ++ s)%string) l).
Proof.
  intros N F. unfold line_comment. change newline with (String lf "") at 2. rewrite join_split; auto.
  eapply Forall_impl; [|exact F]. intros s H. now apply is_line_char.
Qed.

Lemma comment_starts s : (exists r, line_comment s = ("// " ++ r)%string) /\ forall a b, line_comment s = (a ++ String lf b)%string -> exists r, b = ("// " ++ r)%string.
Proof.
  unfold line_comment. pose proof (split_loop_not_nil lf "" s) as N. pose proof (split_clean lf s) as F. unfold str_split in *.
  assert (G1 : forall l, l <> [] -> exists r, str_join newline (map (fun line => ("// " ++ line)%string) l) = ("// " ++ r)%string).
  { intros [|x [|y l]] H; [contradiction|exists x; reflexivity|]. cbn [map]. rewrite str_join_cons by discriminate. rewrite sapp_assoc. eauto. }
  split; [now apply G1|]. revert F. generalize (split_loop lf "" s). clear s N. intros l F a b.
  revert a. induction F as [|x l Hx F IH]; intros a E; [destruct a; discriminate E|].
  assert (Hl : is_line ("// " ++ x)%string).
  { apply is_line_char. unfold no_char in *. rewrite str_all_app, Hx. reflexivity. }
  destruct l as [|y l].
  - exfalso. cbn [map str_join] in E. apply Hl. rewrite E. apply occurs_app. right. apply occurs_cons. now left.
  - cbn [map] in E. rewrite str_join_cons in E by discriminate. destruct (app_suffix_cases _ _ _ _ E) as [(z & Z & Y)|(z & Z & Y)].
    + change newline with (String lf "") in Z. cbn [append] in Z. destruct z as [|c z]; [injection Z as ->; apply (G1 (y :: l)); discriminate|].
      exfalso. injection Z as <- _. apply Hl. rewrite Y. apply occurs_app. right. apply occurs_cons. now left.
    + destruct z as [|c z].
      * change newline with (String lf "") in Z. cbn [append] in Z. injection Z as Z. rewrite <- Z. apply (G1 (y :: l)). discriminate.
      * apply (IH z). apply (f_equal (str_drop 1)) in Z. exact Z.
Qed.

(** * Arrays of bytes *)

Lemma hex_byte_value c : hex_literal (hex_byte c) (N_of_ascii c).
Proof.
  exists (str_drop 2 (hex_byte c)). assert (G : forall c, hex_byte c = "0x" ++ str_drop 2 (hex_byte c) /\ str_drop 2 (hex_byte c) <> "" /\
    digits_value 0 (str_drop 2 (hex_byte c)) = Some (N_of_ascii c)).
  { clear. intros [[] [] [] [] [] [] [] []]; vm_compute; repeat split; discriminate. }
  apply G.
Qed.

Lemma remove_char_app c a b : remove_char c (a ++ b) = (remove_char c a ++ remove_char c b)%string.
Proof. induction a as [|d a IH]; [reflexivity|]. cbn. destruct (Ascii.eqb d c); cbn; now rewrite IH. Qed.

Lemma remove_char_clean c a : ~ occurs c a -> remove_char c a = a.
Proof.
  induction a as [|d a IH]; intros H; [reflexivity|]. cbn. destruct (Ascii.eqb_spec d c) as [->|]; [exfalso; apply H, occurs_cons; now left|].
  f_equal. apply IH. intros O. apply H, occurs_cons. now right.
Qed.

Lemma hex_byte_clean c : remove_char lf (hex_byte c) = hex_byte c.
Proof. destruct c as [[] [] [] [] [] [] [] []]; reflexivity. Qed.

Lemma elements_cons x l : elements (x :: l) = (x ++ "," ++ elements l)%string.
Proof. unfold elements. cbn [map]. destruct l; cbn [map String.concat]; [reflexivity|]. now rewrite !sapp_assoc. Qed.

Lemma byte_array_elements data :
  exists items, remove_char lf (byte_array data) = elements items /\
    Forall2 (fun item c => hex_literal item (N_of_ascii c)) items (list_ascii_of_string data).
Proof.
  exists (map hex_byte (list_ascii_of_string data)). split.
  - unfold byte_array. rewrite remove_char_app.
    replace (remove_char lf (if Nat.ltb 0 (String.length data) && negb (Nat.eqb (String.length data mod 16) 0) then newline else "")) with ""
      by (match goal with |- context [if ?b then _ else _] => destruct b end; reflexivity).
    rewrite sapp_nil_r. generalize 0. induction data as [|c data IH]; intros n; [reflexivity|]. cbn [byte_array_loop list_ascii_of_string map].
    rewrite elements_cons, !remove_char_app, IH, hex_byte_clean.
    replace (remove_char lf (if Nat.ltb 0 n && Nat.eqb (n mod 16) 0 then newline else "")) with ""
      by (match goal with |- context [if ?b then _ else _] => destruct b end; reflexivity). reflexivity.
  - induction data as [|c data IH]; cbn [list_ascii_of_string map]; constructor; auto using hex_byte_value.
Qed.

(** * Package names *)

Lemma last_index_app c a b : ~ occurs c b -> last_index c (a ++ String c b) = Some (String.length a).
Proof.
  intros H. induction a as [|d a IH].
  - cbn. replace (last_index c b) with (@None nat); [now rewrite Ascii.eqb_refl|]. symmetry. induction b as [|e b IHb]; [reflexivity|]. cbn.
    rewrite IHb by (intros O; apply H, occurs_cons; now right). destruct (Ascii.eqb_spec e c) as [->|]; [|reflexivity]. exfalso. apply H, occurs_cons. now left.
  - cbn [append last_index]. now rewrite IH.
Qed.

Lemma last_index_none c a : ~ occurs c a -> last_index c a = None.
Proof.
  intros H. induction a as [|e b IHb]; [reflexivity|]. cbn.
  rewrite IHb by (intros O; apply H, occurs_cons; now right). destruct (Ascii.eqb_spec e c) as [->|]; [|reflexivity]. exfalso. apply H, occurs_cons. now left.
Qed.

Lemma clean_plain s : ~ occurs "-" s -> clean_pkg s = s.
Proof.
  intros H. unfold clean_pkg. destruct (has_suffix s "-go") eqn:E.
  - apply suffix_spec in E. destruct E as (a & ->). exfalso. apply H, occurs_app. right. apply occurs_cons. now left.
  - now rewrite last_index_none.
Qed.

Lemma drop_app_plus a n b : str_drop (String.length a + n) (a ++ b) = str_drop n b.
Proof. induction a; [reflexivity|]. cbn. exact IHa. Qed.

Lemma clean_suffix s : ~ occurs "-" s -> clean_pkg (s ++ "-go") = s.
Proof.
  intros H. unfold clean_pkg. replace (has_suffix (s ++ "-go") "-go") with true by (symmetry; apply suffix_spec; eauto).
  rewrite sapp_length. cbn [String.length]. replace (String.length s + 3 - 3) with (String.length s) by lia. rewrite str_take_app_length. now rewrite last_index_none.
Qed.

Lemma clean_last a s : a <> "" -> ~ occurs "-" s -> clean_pkg (a ++ "-" ++ s ++ "-go") = s /\ (s <> "go" -> clean_pkg (a ++ "-" ++ s) = s).
Proof.
  intros N H. assert (G : forall x, x = (a ++ "-" ++ s)%string -> match last_index "-" x with Some (S i) => str_drop (S (S i)) x | _ => x end = s).
  { intros x ->. cbn [append]. rewrite last_index_app by exact H. destruct (String.length a) as [|n] eqn:L; [destruct a; [contradiction|discriminate]|].
    change (String "-" s) with ("-" ++ s)%string. replace (S (S n)) with (String.length a + 1) by lia. rewrite drop_app_plus. reflexivity. }
  split.
  - unfold clean_pkg. rewrite <- !sapp_assoc. replace (has_suffix (((a ++ "-") ++ s) ++ "-go") "-go") with true by (symmetry; apply suffix_spec; eauto).
    rewrite (sapp_length _ "-go"). cbn [String.length]. rewrite Nat.add_sub, str_take_app_length, sapp_assoc. now apply G.
  - intros Ng. unfold clean_pkg. destruct (has_suffix (a ++ "-" ++ s) "-go") eqn:E; [|now apply G]. exfalso.
    apply suffix_spec in E. destruct E as (b & E). pose proof (f_equal (last_index "-") E) as L. cbn [append] in L.
    rewrite last_index_app in L by exact H. rewrite last_index_app in L.
    2: { intros O. apply occurs_cons in O. destruct O as [O|O]; [discriminate|]. apply occurs_cons in O. destruct O as [O|O]; [discriminate|destruct (occurs_nil _ O)]. }
    injection L as L. destruct (sapp_inv_length _ _ _ _ L E) as [_ Es]. now injection Es as ->.
Qed.

(** * Summaries *)

Lemma index_app p a c b : str_all (fun x => negb (p x)) a = true -> p c = true -> index_func p (a ++ String c b) = Some (String.length a).
Proof.
  intros A P. induction a as [|d a IH]; cbn; [now rewrite P|]. cbn in A. apply andb_true_iff in A. destruct A as [A1 A2].
  destruct (p d); [discriminate|]. now rewrite IH.
Qed.

Lemma index_none p a : str_all (fun x => negb (p x)) a = true -> index_func p a = None.
Proof. induction a as [|d a IH]; cbn; [auto|]. destruct (p d); [discriminate|]. cbn. intros H. now rewrite IH. Qed.

Lemma not_occurs_all c a : ~ occurs c a <-> str_all (fun x => negb (Ascii.eqb x c)) a = true.
Proof. rewrite <- no_char_occurs. reflexivity. Qed.

Lemma summary_complete doc : ~ occurs "." doc -> doc_summary doc = doc.
Proof.
  intros H. unfold doc_summary. rewrite index_none by now apply not_occurs_all. destruct (String.eqb_spec doc "") as [->|]; reflexivity.
Qed.

Lemma take_app_plus a n b : str_take (String.length a + n) (a ++ b) = (a ++ str_take n b)%string.
Proof. induction a; [reflexivity|]. cbn. now rewrite IHa. Qed.

Lemma remove_lf_join l : Forall is_line l -> remove_char lf (str_join newline l) = String.concat "" l.
Proof.
  induction 1 as [|x l H F IH]; [reflexivity|]. destruct l as [|y l]; [cbn; now apply remove_char_clean|].
  rewrite str_join_cons by discriminate. rewrite !remove_char_app, IH, remove_char_clean by exact H. reflexivity.
Qed.

Lemma summary_sentence l rest : Forall is_line l -> Forall (fun s => ~ occurs "." s) l ->
  doc_summary (str_join newline l ++ "." ++ rest) = (String.concat "" l ++ ".")%string.
Proof.
  intros F D. assert (N : ~ occurs "." (str_join newline l)).
  { induction D as [|x l H D IH]; [apply occurs_nil|]. inversion_clear F. destruct l as [|y l]; [exact H|]. rewrite str_join_cons by discriminate.
    rewrite !occurs_app. intros [O|[O|O]]; [contradiction| |now apply IH]. apply occurs_cons in O. destruct O as [O|O]; [discriminate|destruct (occurs_nil _ O)]. }
  unfold doc_summary. destruct (String.eqb_spec (str_join newline l ++ "." ++ rest) "") as [E|_].
  { apply sapp_eq_nil in E. destruct E as [_ E]. discriminate. }
  cbn [append]. rewrite index_app by (try reflexivity; now apply not_occurs_all). rewrite take_app_plus, remove_char_app, remove_lf_join by exact F. reflexivity.
Qed.
