(** Proofs about Markdown text and documentation comments. *)
From Coq Require Import Ascii String Bool Arith ZArith NArith Lia List.
From Verif Require Import GoStrings GoStringsProofs ReporterModel TextModel TextSpec TextProofs TextProofs2 TextProofs3.
Import ListNotations.
Local Open Scope string_scope.

(** * Markdown *)

Definition is_tab (c : ascii) : bool := Ascii.eqb c tab.
Definition clean (s : string) : string := trim_left_func is_tab (trim_right_func is_space s).

Lemma tabs_all s : tabs s <-> str_all is_tab s = true.
Proof. unfold tabs. rewrite occurs_all. split; intros H c O; specialize (H c O); [subst; reflexivity|now apply Ascii.eqb_eq]. Qed.

Lemma trim_left_id p s : (forall c r, s = String c r -> p c = false) -> trim_left_func p s = s.
Proof. destruct s as [|c r]; [reflexivity|]. intros H. cbn. now rewrite (H c r eq_refl). Qed.

Lemma clean_cleaned s : cleaned s (clean s).
Proof.
  unfold cleaned, clean. destruct (trim_right_last is_space s) as [E|(r & c & E & P)].
  - left. rewrite E. split; [|reflexivity]. apply blank_all, trim_right_all, E.
  - right. rewrite E. destruct (trim_right_split is_space s) as (u & U & Bu). rewrite E in U.
    destruct (trim_left_split is_tab (r ++ String c "")) as (t & T & At). set (q := trim_left_func is_tab (r ++ String c "")) in *.
    assert (Q : q <> "").
    { intros Q. apply trim_left_all in Q. rewrite str_all_app in Q. apply andb_true_iff in Q. destruct Q as [_ Q]. cbn in Q. rewrite andb_true_r in Q.
      apply Ascii.eqb_eq in Q. subst c. discriminate P. }
    exists t, u. split; [rewrite U at 1; rewrite T, sapp_assoc; reflexivity|]. split; [now apply tabs_all|]. split; [now apply blank_all|]. split.
    + intros r' R. destruct (trim_left_first is_tab (r ++ String c "")) as [F|(d & r2 & F & Pd)]; fold q in F; [contradiction|].
      rewrite R in F. injection F as <- _. discriminate Pd.
    + destruct (snoc_cases q) as [->|(q' & d & Eq)]; [contradiction|]. exists q', d. split; [exact Eq|].
      rewrite Eq, <- sapp_assoc in T. apply snoc_inj in T. destruct T as [_ <-]. exact P.
Qed.

Lemma cleaned_unique s r : cleaned s r -> r = clean s.
Proof.
  unfold clean. intros [[B ->]|(t & u & -> & T & B & F & (r' & c & -> & P))].
  - apply blank_all, trim_right_all in B. now rewrite B.
  - rewrite <- sapp_assoc, trim_right_app_all by now apply blank_all. rewrite <- sapp_assoc, trim_right_keep by exact P. rewrite sapp_assoc.
    rewrite trim_left_app_all by now apply tabs_all. symmetry. apply trim_left_id. intros d q E.
    destruct (is_tab d) eqn:D; [|reflexivity]. exfalso. apply Ascii.eqb_eq in D. subst d. now apply (F q).
Qed.

Lemma clean_drop_cr s : clean (drop_cr s) = clean s.
Proof.
  destruct (without_cr_drop s) as [E|[E _]]; [|now rewrite E]. rewrite E at 2. unfold clean. now rewrite trim_right_app_all.
Qed.

Lemma cleaned_map l r : Forall2 cleaned l r <-> r = map clean l.
Proof.
  split; [induction 1; cbn; [reflexivity|]; f_equal; auto using cleaned_unique|]. intros ->. induction l; constructor; auto using clean_cleaned.
Qed.

Lemma trim_left_length p s : String.length (trim_left_func p s) <= String.length s.
Proof. induction s as [|c s IH]; cbn; [lia|]. destruct (p c); cbn; lia. Qed.
Lemma trim_right_length p s : String.length (trim_right_func p s) <= String.length s.
Proof. destruct (trim_right_split p s) as (b & E & _). rewrite E at 2. rewrite sapp_length. lia. Qed.

Lemma clean_short s : short s -> short (clean s).
Proof.
  unfold short, clean. pose proof (trim_left_length is_tab (trim_right_func is_space s)). pose proof (trim_right_length is_space s). lia.
Qed.

Lemma clean_line s : is_line s -> is_line (clean s).
Proof.
  intros H O. apply H. unfold clean in O. destruct (trim_left_split is_tab (trim_right_func is_space s)) as (a & E & _).
  destruct (trim_right_split is_space s) as (b & E' & _). rewrite E', E, !occurs_app. auto.
Qed.

Lemma clean_twice s : clean (clean s) = clean s.
Proof.
  symmetry. apply cleaned_unique. destruct (clean_cleaned s) as [[_ E]|(t & u & _ & _ & _ & F & L)].
  - left. rewrite E. split; [|reflexivity]. apply blank_all. reflexivity.
  - right. exists "", "". rewrite sapp_nil_r. split; [reflexivity|]. split; [apply tabs_all; reflexivity|]. split; [apply blank_all; reflexivity|]. auto.
Qed.

Lemma markdown_cleaned s l : text_lines s l -> Forall short l -> exists r, remove_tabs s = terminated r /\ Forall is_line r /\ Forall2 cleaned l r.
Proof.
  intros T S. exists (map clean l). split; [|split; [|now apply cleaned_map]].
  - unfold remove_tabs. rewrite (scan_text _ _ T S). rewrite println_terminated. f_equal. rewrite !map_map. apply map_ext. intros x. apply clean_drop_cr.
  - destruct T as [F _]. induction F; constructor; auto using clean_line. apply IHF. now inversion S.
Qed.

Lemma markdown_twice s l : text_lines s l -> Forall short l -> remove_tabs (remove_tabs s) = remove_tabs s.
Proof.
  intros T S. destruct (markdown_cleaned s l T S) as (r & E & F & C). rewrite E. apply cleaned_map in C. subst r.
  assert (S' : Forall short (map clean l)) by (clear -S; induction S; constructor; auto using clean_short).
  destruct (markdown_cleaned (terminated (map clean l)) (map clean l) (terminated_lines _ F) S') as (r & E' & _ & C). rewrite E'. apply cleaned_map in C. subst r.
  f_equal. rewrite map_map. apply map_ext. apply clean_twice.
Qed.

(** Lines that are too long. *)
Fixpoint repeated (c : ascii) (n : nat) : string := match n with 0 => "" | S n => String c (repeated c n) end.
Lemma repeated_length c n : String.length (repeated c n) = n.
Proof. induction n; cbn; auto. Qed.
Lemma repeated_drop c n : str_drop n (repeated c n) = "".
Proof. induction n; cbn; auto. Qed.
Lemma repeated_occurs c d n : occurs d (repeated c n) -> d = c.
Proof. induction n; cbn; intros H; [destruct (occurs_nil _ H)|]. apply occurs_cons in H. destruct H; auto. Qed.

Lemma markdown_lost : exists s l, text_lines s l /\ Forall (fun x => ~ blank x) l /\ l <> [] /\ remove_tabs s = "".
Proof.
  set (n := N.to_nat scan_limit). exists (repeated "a" n), [repeated "a" n].
  assert (L : String.length (repeated "a" n) = n) by apply repeated_length.
  assert (N : repeated "a" n <> "").
  { intros E. apply (f_equal String.length) in E. rewrite L in E. cbn [String.length] in E. apply (f_equal N.of_nat) in E. unfold n in E. rewrite N2Nat.id in E. discriminate. }
  assert (I : is_line (repeated "a" n)) by (intros O; apply repeated_occurs in O; discriminate).
  split; [split; [auto|]; right; exists [], (repeated "a" n); auto|]. split; [constructor; [|constructor]|].
  - intros B. destruct (repeated "a" n) as [|c r] eqn:E; [contradiction|]. assert (C : c = "a"%char) by (apply (repeated_occurs _ _ n); rewrite E; apply occurs_cons; now left).
    specialize (B c). rewrite C in B. assert (O : occurs "a" (String "a" r)) by (apply occurs_cons; now left). specialize (B O). discriminate B.
  - split; [discriminate|]. unfold remove_tabs, scan_lines. pose proof (split_terminated [] (repeated "a" n) (Forall_nil _) I) as Sp.
    change (terminated [] ++ repeated "a" n)%string with (repeated "a" n) in Sp. rewrite Sp. cbn [app scan_loop].
    assert (TL : too_long (repeated "a" n) = true) by (unfold too_long; rewrite L; unfold n; rewrite N2Nat.id; reflexivity). rewrite TL.
    change (str_join newline [repeated "a" n]) with (repeated "a" n). fold n. apply repeated_drop.
Qed.

(** * Documentation comments *)

Lemma comment_at_delete c i k : comment_at (comment_delete c i) k = if Nat.eqb k i then None else comment_at c k.
Proof.
  unfold comment_at, comment_delete. induction c as [|[j s] c IH]; cbn [filter find fst].
  - now destruct (Nat.eqb k i).
  - destruct (Nat.eqb_spec j i) as [->|N]; cbn [negb].
    + rewrite IH. destruct (Nat.eqb_spec k i) as [Ek|Nk]; [reflexivity|]. destruct (Nat.eqb_spec i k); [congruence|reflexivity].
    + cbn [find fst]. destruct (Nat.eqb_spec j k) as [->|Nj]; [|exact IH]. destruct (Nat.eqb_spec k i); [congruence|reflexivity].
Qed.

Lemma comment_added c line text k : comment_at (comment_add c line text) k = if Nat.eqb k line then Some text else comment_at c k.
Proof.
  unfold comment_add. unfold comment_at at 1. cbn [find fst]. destruct (Nat.eqb_spec line k) as [->|N]; [now rewrite Nat.eqb_refl|].
  fold (comment_at (comment_delete c line) k). rewrite comment_at_delete. destruct (Nat.eqb_spec k line); [congruence|reflexivity].
Qed.

Lemma collect_spec n : forall c acc, exists block c', collect_comments c n acc = (block ++ acc, c')%list /\ comment_block c n block /\ consumed c n block c'.
Proof.
  induction n as [|n IH]; intros c acc; cbn [collect_comments].
  - exists [], c. split; [reflexivity|]. split; [split; [auto|split; [intros [|i] s H; discriminate H|cbn; lia]]|].
    intros k. destruct (Nat.ltb_spec k 0); [lia|]. now rewrite andb_false_r.
  - destruct (comment_at c n) as [s|] eqn:E.
    + destruct (IH (comment_delete c n) (s :: acc)) as (block & c' & R & (B1 & B2 & B3) & C). exists (block ++ [s])%list, c'.
      rewrite R, <- app_assoc. split; [reflexivity|]. assert (Ln : length (block ++ [s]) = S (length block)) by (rewrite app_length; cbn; lia).
      split; [split; [lia|split]|].
      * intros i x Hx. rewrite Ln. replace (S n - S (length block) + i) with (n - length block + i) by lia. destruct (Nat.lt_ge_cases i (length block)) as [L|L].
        -- rewrite nth_error_app1 in Hx by exact L. specialize (B2 i x Hx). rewrite comment_at_delete in B2.
           destruct (Nat.eqb_spec (n - length block + i) n); [discriminate|exact B2].
        -- rewrite nth_error_app2 in Hx by exact L. destruct (i - length block) as [|j] eqn:D; [|destruct j; discriminate Hx]. injection Hx as <-.
           replace (n - length block + i) with n by lia. exact E.
      * rewrite Ln. intros H. assert (H' : length block < n) by lia. specialize (B3 H'). rewrite comment_at_delete in B3.
        replace (S n - S (length block) - 1) with (n - length block - 1) by lia. destruct (Nat.eqb_spec (n - length block - 1) n); [lia|exact B3].
      * intros k. rewrite C, Ln, comment_at_delete. replace (S n - S (length block)) with (n - length block) by lia.
        destruct (Nat.leb_spec (n - length block) k), (Nat.ltb_spec k n), (Nat.ltb_spec k (S n)), (Nat.eqb_spec k n); cbn [andb]; auto; lia.
    + exists [], c. split; [reflexivity|]. split; [split; [cbn; lia|split; [intros [|i] s H; discriminate H|]]|].
      * intros _. cbn [length]. replace (S n - 0 - 1) with n by lia. exact E.
      * intros k. cbn [length]. destruct (Nat.leb_spec (S n - 0) k), (Nat.ltb_spec k (S n)); cbn [andb]; auto; lia.
Qed.

Lemma list_same {A} (l : list A) : forall r, (forall i, nth_error l i = nth_error r i) -> l = r.
Proof.
  induction l as [|x l IH]; intros [|y r] H; auto; try (specialize (H 0); discriminate H).
  f_equal; [specialize (H 0); now injection H|]. apply IH. intros i. exact (H (S i)).
Qed.

Lemma block_unique c line b b' : comment_block c line b -> comment_block c line b' -> b = b'.
Proof.
  intros (L1 & N1 & E1) (L2 & N2 & E2). assert (L : length b = length b').
  { destruct (Nat.lt_trichotomy (length b) (length b')) as [H|[H|H]]; auto; exfalso.
    - specialize (E1 ltac:(lia)). destruct (nth_error b' (length b' - length b - 1)) as [s|] eqn:E; [|apply nth_error_None in E; lia].
      specialize (N2 _ _ E). replace (line - length b' + (length b' - length b - 1)) with (line - length b - 1) in N2 by lia. congruence.
    - specialize (E2 ltac:(lia)). destruct (nth_error b (length b - length b' - 1)) as [s|] eqn:E; [|apply nth_error_None in E; lia].
      specialize (N1 _ _ E). replace (line - length b + (length b - length b' - 1)) with (line - length b' - 1) in N1 by lia. congruence. }
  apply list_same. intros i. destruct (nth_error b i) as [s|] eqn:E.
  - pose proof (N1 _ _ E) as A. destruct (nth_error b' i) as [t|] eqn:E'; [|apply nth_error_None in E'; assert (i < length b) by (apply nth_error_Some; congruence); lia].
    pose proof (N2 _ _ E') as B. rewrite <- L in B. congruence.
  - apply nth_error_None in E. symmetry. apply nth_error_None. lia.
Qed.

Lemma block_exists c line : exists b, comment_block c line b.
Proof. destruct (collect_spec line c []) as (b & c' & _ & B & _). eauto. Qed.

Lemma marks_spec lines : forall i, match remove_marks i lines with
  | inl r => lines = map (append "//") r
  | inr (j, bad) => In bad lines /\ has_prefix bad "//" = false
  end.
Proof.
  induction lines as [|x l IH]; intros i; cbn [remove_marks]; [reflexivity|]. destruct (has_prefix x "//") eqn:P.
  - specialize (IH (S i)). destruct (remove_marks (S i) l) as [r|[j bad]]; [|split; [right; apply IH|apply IH]].
    cbn [map]. rewrite <- IH. f_equal. apply has_prefix_spec in P. destruct P as (y & ->). reflexivity.
  - split; [now left|exact P].
Qed.

Definition indented (prefix line text : string) : Prop := (line = "" /\ text = "") \/ (line <> "" /\ line = (prefix ++ text)%string).

Lemma indent_spec prefix lines : forall i, match remove_indent prefix i lines with
  | inl r => Forall2 (indented prefix) lines r
  | inr (j, bad) => In bad lines /\ forall t, ~ indented prefix bad t
  end.
Proof.
  induction lines as [|x l IH]; intros i; cbn [remove_indent]; [constructor|]. specialize (IH (S i)).
  destruct (String.eqb_spec x "") as [->|N].
  - destruct (remove_indent prefix (S i) l) as [r|[j bad]]; [constructor; [left; auto|exact IH]|]. split; [right; apply IH|apply IH].
  - destruct (has_prefix x prefix) eqn:P.
    + destruct (remove_indent prefix (S i) l) as [r|[j bad]]; [|split; [right; apply IH|apply IH]]. constructor; [|exact IH]. right. split; [exact N|].
      apply has_prefix_spec in P. destruct P as (y & ->). now rewrite trim_prefix_app.
    + split; [now left|]. intros t [[H _]|[_ H]]; [contradiction|]. subst x. rewrite has_prefix_app in P. discriminate.
Qed.

Lemma marked_indented p line t : marked p ("//" ++ line) t <-> indented p line t.
Proof.
  unfold marked, indented. split.
  - intros [[-> E]|[E N]]; [left; split; [now injection E|reflexivity]|]. right. injection E as ->. auto.
  - intros [[-> ->]|[N ->]]; [left; auto|right; auto].
Qed.

Lemma index_split p s : match index_func p s with
  | Some i => exists c r, s = (str_take i s ++ String c r)%string /\ str_all (fun x => negb (p x)) (str_take i s) = true /\ p c = true
  | None => str_all (fun x => negb (p x)) s = true
  end.
Proof.
  induction s as [|d s IH]; cbn [index_func]; [reflexivity|]. destruct (p d) eqn:P; [exists d, s; auto|].
  destruct (index_func p s) as [i|]; cbn [str_take str_all].
  - destruct IH as (c & r & E & A & Pc). exists c, r. rewrite P. cbn [negb andb append]. split; [now rewrite <- E|auto].
  - rewrite P. exact IH.
Qed.

Lemma negb_all s : str_all (fun x => negb (negb (is_space x))) s = true <-> blank s.
Proof. rewrite blank_all, !occurs_all. split; intros H c O; specialize (H c O); rewrite negb_involutive in *; auto. Qed.

Lemma indent_unique p q c r c' r' : blank p -> blank q -> is_space c = false -> is_space c' = false ->
  (p ++ String c r = q ++ String c' r')%string -> p = q.
Proof.
  intros Bp Bq C C' E. revert q Bq E. induction p as [|x p IH]; intros [|y q] Bq E; auto; cbn [append] in E; injection E as E1 E2.
  - subst y. rewrite (Bq c) in C by (apply occurs_cons; now left). discriminate.
  - subst x. rewrite (Bp c') in C' by (apply occurs_cons; now left). discriminate.
  - subst y. f_equal. apply IH; auto; intros z O; [apply Bp|apply Bq]; apply occurs_cons; now right.
Qed.

Lemma forall2_marked p l t : Forall2 (marked p) (map (append "//") l) t <-> Forall2 (indented p) l t.
Proof.
  revert t. induction l as [|x l IH]; intros t; cbn [map]; split; intros H; inversion H; subst; constructor; try apply marked_indented; auto; now apply IH.
Qed.

Lemma doc_read c line block : comment_block c line block ->
  match get_doc c line with
  | GotDoc doc [] c' => documented block doc /\ consumed c line block c'
  | GotDoc doc reports c' => doc = "" /\ Forall (fun r => rp_severity r = SError) reports /\ (forall d, ~ documented block d) /\ consumed c line block c'
  | DocPanics => exists s rest, block = ("//" ++ s)%string :: rest /\ blank s /\ forall d, ~ documented block d
  end.
Proof.
  intros B. unfold get_doc. destruct (collect_spec line c []) as (b & c' & E & B' & C). rewrite app_nil_r in E. rewrite E.
  rewrite (block_unique _ _ _ _ B' B) in *. clear B' E b. pose proof (marks_spec block 0) as M. destruct (remove_marks 0 block) as [lines|[i bad]].
  2: { split; [reflexivity|]. split; [repeat constructor|]. split; [|exact C]. destruct M as [I P].
       intros d [[-> _]|(indent & texts & first & rest & x & r & _ & F & _)]; [destruct I|].
       clear -I P F. induction F as [|y t l l' H F IH]; [destruct I|]. destruct I as [->|I]; [|auto].
       destruct H as [[_ ->]|[-> _]]; [discriminate P|]. rewrite has_prefix_app in P. discriminate. }
  destruct lines as [|first rest]; [rewrite M; split; [left; auto|now rewrite M in C]|].
  pose proof (index_split (fun r => negb (is_space r)) first) as X. destruct (index_func (fun r => negb (is_space r)) first) as [index|].
  2: { exists first, (map (append "//") rest). split; [exact M|]. apply negb_all in X. split; [exact X|].
       intros d [[D _]|(indent & texts & f & rs & x & r & Bi & F & -> & -> & P & _)]; [rewrite M in D; discriminate|].
       rewrite M in F. inversion F as [|? ? ? ? H F']. subst. destruct H as [[H _]|[H _]]; [discriminate|]. injection H as ->.
       apply blank_all in X. rewrite str_all_app in X. apply andb_true_iff in X. destruct X as [_ X]. cbn in X. rewrite P in X. discriminate. }
  destruct X as (x & r & Ef & A & P). apply negb_all in A. apply negb_true_iff in P.
  assert (Doc : forall indent texts f rs y q, blank indent -> Forall2 (marked indent) block texts -> texts = f :: rs -> f = String y q -> is_space y = false ->
    indent = str_take index first).
  { intros indent texts f rs y q Bi F -> -> Py. rewrite M in F. inversion F as [|? ? ? ? H F']. subst. destruct H as [[H _]|[H _]]; [discriminate|].
    apply (f_equal (str_drop 2)) in H. change (str_drop 2 ("//" ++ first)) with first in H. change (str_drop 2 ("//" ++ (indent ++ String y q))) with (indent ++ String y q)%string in H.
    rewrite H in Ef at 1. exact (indent_unique _ _ _ _ _ _ Bi A Py P Ef). }
  pose proof (indent_spec (str_take index first) (first :: rest) 0) as I. destruct (remove_indent (str_take index first) 0 (first :: rest)) as [texts|[i bad]].
  - split; [|exact C]. right. inversion I as [|? t ? ts H I']. subst. destruct H as [[H _]|[_ H]]; [rewrite H in Ef; destruct (str_take index ""); discriminate Ef|].
    rewrite Ef in H at 1. apply sapp_inv_head in H. subst t.
    exists (str_take index first), (String x r :: ts), (String x r), ts, x, r. split; [exact A|]. split; [|auto]. now apply forall2_marked.
  - split; [reflexivity|]. split; [repeat constructor|]. split; [|exact C]. destruct I as [In_ No].
    intros d [[D _]|(indent & texts & f & rs & y & q & Bi & F & T & Tf & Py & _)]; [rewrite M in D; discriminate|].
    pose proof (Doc _ _ _ _ _ _ Bi F T Tf Py) as ->. rewrite M in F. apply forall2_marked in F.
    clear -In_ No F. induction F as [|z t l l' H F IH]; [destruct In_|]. destruct In_ as [->|I]; [now apply (No t)|auto].
Qed.

Lemma documented_unique block d d' : documented block d -> documented block d' -> d = d'.
Proof.
  intros [[-> ->]|(i & texts & f & rs & x & r & Bi & F & -> & -> & P & ->)] [[E ->]|(i' & texts' & f' & rs' & x' & r' & Bi' & F' & -> & -> & P' & ->)]; auto.
  - inversion F'.
  - subst. inversion F.
  - assert (i = i').
    { inversion F as [|b ? bs ? H G]. subst. inversion F' as [|? ? ? ? H' G']. subst. destruct H as [[H _]|[H _]]; [discriminate|]. destruct H' as [[H' _]|[H' _]]; [discriminate|].
      rewrite H in H'. apply (f_equal (str_drop 2)) in H'. exact (indent_unique _ _ _ _ _ _ Bi Bi' P P' H'). }
    subst i'. f_equal. revert F F'. generalize (String x r :: rs) (String x' r' :: rs'). clear. intros l l' F. revert l'. induction F as [|b t bs ts H F IH]; intros l' F'; inversion F'; subst; auto.
    f_equal; [|auto]. destruct H as [[-> ->]|[-> N]], H2 as [[-> H2]|[H2 N']]; auto.
    + injection H2 as H2. symmetry in H2. contradiction.
    + injection H2 as H2. contradiction.
    + injection H2 as H2. now apply sapp_inv_head in H2.
Qed.

Lemma doc_found c line block doc : comment_block c line block -> documented block doc -> exists c', get_doc c line = GotDoc doc [] c' /\ consumed c line block c'.
Proof.
  intros B D. pose proof (doc_read c line block B) as R. destruct (get_doc c line) as [doc' [|p reports] c'|].
  - destruct R as [D' C]. rewrite (documented_unique _ _ _ D D'). eauto.
  - destruct R as (_ & _ & N & _). now contradiction (N doc).
  - destruct R as (_ & _ & _ & _ & N). now contradiction (N doc).
Qed.
